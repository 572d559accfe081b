(** * Property C09 with the scratch array of the encoder *)
From Coq Require Import String.
From Verif Require Import GoBase GoLemmas Binary Utf8 Encoder Decoder Sizeof Spec SchemaSpec EncProofs Schema Link AllMessages RecordBatch Calls Scratch ScratchProofs.
Local Open Scope Z_scope.
Local Open Scope list_scope.
Ltac Zify.zify_post_hook ::= idtac.

(** Whatever the array holds before, and whatever a writer puts there during its Write, every Put
    method stores inside the array (no panic) and does what it does without the array: the same
    writes with the same bytes, the same error. *)
Theorem C09_put_scratch : forall scribble c s, (forall log buf, length buf = 16%nat -> length (scribble log buf) = 16%nat) -> length (s_buf s) = 16%nat ->
  exists buf, s_perform scribble c s = Some (mkScratched buf (perform c (s_enc s))) /\ length buf = 16%nat.
Proof. intros scribble c s H. exact (same_call scribble H c s). Qed.
Print Assumptions C09_put_scratch.
(** So does any sequence of calls on a new encoder. *)
Theorem C09_new_scratch : forall scribble t cs, (forall log buf, length buf = 16%nat -> length (scribble log buf) = 16%nat) ->
  exists buf, s_perform_all scribble cs (sNewEncoder t) = Some (mkScratched buf (perform_all cs (NewEncoder t))) /\ length buf = 16%nat.
Proof. intros scribble t cs H. exact (new_calls scribble H t cs). Qed.
Print Assumptions C09_new_scratch.
(** The Encode method of every message ... *)
Theorem C09_message_scratch : forall name c, In (name, c) all_codecs -> forall scribble (v : Z) m s, (forall log buf, length buf = 16%nat -> length (scribble log buf) = 16%nat) -> length (s_buf s) = 16%nat ->
  exists buf, s_encodes scribble (c_schema c) v (c_to c m) s = Some (mkScratched buf (c_encode c v m (s_enc s))) /\ length buf = 16%nat.
Proof. intros name c Hin scribble v m s. apply message_scratched. exact (proj1 (Forall_forall _ _) all_linked (name, c) Hin). Qed.
Print Assumptions C09_message_scratch.
(** ... and of record batches, where it panics exactly if it panics without the array (C50). *)
Theorem C09_batch_scratch : forall scribble orders r version s, (forall log buf, length buf = 16%nat -> length (scribble log buf) = 16%nat) -> length (s_buf s) = 16%nat ->
  match RecordBatch_Encode orders r version (s_enc s) with
  | Some e => exists buf, s_batch scribble orders r version s = Some (mkScratched buf e) /\ length buf = 16%nat
  | None => s_batch scribble orders r version s = None
  end.
Proof. intros scribble orders r version s H. exact (same_batch scribble H orders r version s). Qed.
Print Assumptions C09_batch_scratch.

(** Two numbers after each other: the bytes of the first are still in the array behind those of
    the second, which are all that is written; and the same with a writer that fills the array
    with 255 after each Write. *)
Example C09_scratch : let start := sNewEncoder (mkTarget (fun _ _ => None) None []) in
  let run scribble := match s_perform scribble (CallInt32 16909060) start with Some s => s_perform scribble (CallInt8 9) s | None => None end in
  option_map (fun s => (firstn 5 (s_buf s), t_log (e_target (s_enc s)))) (run (fun _ b => b)) = Some ([9; 2; 3; 4; 0], [[1; 2; 3; 4]; [9]]) /\
  option_map (fun s => (firstn 5 (s_buf s), t_log (e_target (s_enc s)))) (run (fun _ _ => repeat 255 16)) = Some ([255; 255; 255; 255; 255], [[1; 2; 3; 4]; [9]]).
Proof. vm_compute. auto. Qed.
