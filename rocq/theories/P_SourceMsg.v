(** * Property of the text of the messages: C88 *)
From Coq Require Import String.
From Verif Require Import GoBase Decoder Encoder SchemaSpec Link AllMessages Platform PlatformSpec GoLang Source SourceSpec SourceMessages SourceLayout SourceTable SourceMsgSpec SourceMsgAll.
Local Open Scope list_scope.
Local Open Scope string_scope.
Local Open Scope Z_scope.
Local Notation eventually := SourceSpec.eventually.

(** [messages] (SourceMessages.v) is the text of message/messages.gen.go as terms, written by
    tools/go_source.py: the methods Size, Encode and Decode of each of its 218 structures.  [call] is
    the call of a function, as for C87.  [all_codecs] are the structures and methods of the model,
    [go_fields] the fields of one of its messages as those of a structure in Go.

    ** C88.  In every program that has the text of this file and of those of C87, for every structure
    T of the model: T.Size gives what the model gives, and changes nothing; *)
Theorem C88_size : forall P, go_platform P -> forall scribble prog, extends prog source -> extends prog messages ->
  forall name c, In (name, c) all_codecs -> forall fs, In (name, fs) layouts -> forall same : c_schema c = erase fs,
  forall v m, slices_ok (p_int P) c m ->
  eventually (fun n => forall s, call (p_int P) (p_late P) (room_of P message_structs) scribble prog n (name ++ ".Size") [VStruct name (go_fields c fs same m); VInt I16 v] s = Ok (VInt I32 (c_size c v m)) s).
Proof. exact model_size. Qed.
Print Assumptions C88_size.
(** T.Encode does to the Encoder and its writer, whatever that is, what the model does, and nothing else; *)
Theorem C88_encode : forall P, go_platform P -> forall scribble prog, extends prog source -> extends prog messages -> (forall log buf, length buf = 16%nat -> length (scribble log buf) = 16%nat) ->
  forall name c, In (name, c) all_codecs -> forall fs, In (name, fs) layouts -> forall same : c_schema c = erase fs,
  forall v m, slices_ok (p_int P) c m ->
  eventually (fun n => forall l b, effect l b (c_encode c v m) (call (p_int P) (p_late P) (room_of P message_structs) scribble prog n (name ++ ".Encode") [VStruct name (go_fields c fs same m); VRef l; VInt I16 v])).
Proof. exact model_encode. Qed.
Print Assumptions C88_encode.
(** T.Decode, on every structure and on every Decoder, has the result Platform.v says (an error, or nil, or a panic), and
    leaves the structure and the Decoder as that says; nothing else changes. *)
Theorem C88_decode : forall P, go_platform P -> forall scribble prog, extends prog source -> extends prog messages -> lookup "error" (k_types prog) = None ->
  forall name c, In (name, c) all_codecs -> forall fs, In (name, fs) layouts -> forall same : c_schema c = erase fs,
  forall v old d,
  eventually (fun n => forall s t l, t <> l -> nth_error (heap s) l = Some (decoder_cell d) -> nth_error (heap s) t = Some (CStruct name (go_fields c fs same old)) ->
    decoded (go_fields c fs same) name t l s (p_decode P c v old d) (call (p_int P) (p_late P) (room_of P message_structs) scribble prog n (name ++ ".Decode") [VRef t; VRef l; VInt I16 v] s)).
Proof. exact model_decode. Qed.
Print Assumptions C88_decode.
(** The layout asked for above is there for every structure of the model, *)
Theorem C88_layouts : forall name c, In (name, c) all_codecs -> exists fs, In (name, fs) layouts /\ c_schema c = erase fs.
Proof. exact layout_of. Qed.
Print Assumptions C88_layouts.
(** and the layouts are no more and no less than what the file declares: the declarations and all methods are
    those the patterns of SourceLayout.v give for the layouts. *)
Theorem C88_text : k_types messages = map (fun p => (fst p, struct_type (snd p))) layouts /\ k_funcs messages = flat_map texts layouts /\ k_globals messages = [].
Proof. exact (conj types_text (conj funcs_text globals_text)). Qed.
Print Assumptions C88_text.

(** So what the text of T.Encode writes is the layout of T on the wire, T.Size is the number of these bytes, the
    text of T.Decode reads it back, and of less than all of it says so.  The model is not mentioned here. *)
Theorem C88_round_trip : forall P, go_platform P -> forall scribble prog, extends prog source -> extends prog messages -> (forall log buf, length buf = 16%nat -> length (scribble log buf) = 16%nat) ->
  lookup "error" (k_types prog) = None -> forall name fs, In (name, fs) layouts -> makes_all P ->
  forall v x old, fit (erase fs) v x -> sizeds (2 ^ (p_int P - 1)) (erase fs) x ->
  message_survives (p_int P) (call (p_int P) (p_late P) (room_of P message_structs) scribble prog) name v
    (nvals fs x) (nvals fs old) (nvals fs (receive (erase fs) v old x)) (wires (erase fs) v x).
Proof. exact layout_round_trip. Qed.
Print Assumptions C88_round_trip.

(** There is such a program: [program] is the text of the four files. *)
Example C88_program : extends program source /\ extends program messages /\ lookup "error" (k_types program) = None.
Proof. exact program_whole. Qed.
(** Its text at work on 32 bits: a ListOffsetTopic2 with two partitions, of version 4. *)
Definition narrow32 := mkPlatform 32 false (fun _ n => n <? 2 ^ 31).
Definition run_program := call (p_int narrow32) (p_late narrow32) (room_of narrow32 message_structs) (fun _ b => b) program.
Definition a_topic (a b : Z) : list (string * val) :=
  [("Name", VStr [65; 66]); ("Partitions", VStructs "ListOffsetPartition2"
    [[("PartitionIndex", VInt I32 a); ("CurrentLeaderEpoch", VInt I32 3); ("Timestamp", VInt I64 (-1)); ("MaxNumOffsets", VInt I32 0)];
     [("PartitionIndex", VInt I32 b); ("CurrentLeaderEpoch", VInt I32 3); ("Timestamp", VInt I64 256); ("MaxNumOffsets", VInt I32 0)]])].
Example C88_at_work :
  let t := {| t_write := fun _ _ => None; t_flush := None; t_log := [] |} in
  match run_program 5 "message.NewEncoder" [VWriter] (mkState [] t) with
  | Ok e s => match run_program 9 "ListOffsetTopic2.Encode" [VStruct "ListOffsetTopic2" (a_topic 7 8); e; VInt I16 4] s with
    | Ok _ s => match run_program 9 "ListOffsetTopic2.Size" [VStruct "ListOffsetTopic2" (a_topic 7 8); VInt I16 4] s with
      | Ok z s => z = VInt I32 40 /\ zlen (concat (t_log (world s))) = 40 /\
        match run_program 5 "message.NewDecoder" [VInts U8 (concat (t_log (world s)) ++ [9])%list; VInt INT 41] s with
        | Ok d s => let l := length (heap s) in
          match run_program 9 "ListOffsetTopic2.Decode" [VRef l; d; VInt I16 4] (mkState (heap s ++ [CStruct "ListOffsetTopic2" [("Name", VStr [67]); ("Partitions", VNil)]])%list (world s)) with
          | Ok v s => v = VNil /\ nth_error (heap s) l = Some (CStruct "ListOffsetTopic2" (a_topic 7 8)) | _ => False end
        | _ => False end
      | _ => False end
    | _ => False end
  | _ => False end.
Proof. vm_compute. repeat split. Qed.
(** A case of [C88_round_trip]. *)
Definition topic_sent : dens (erase ListOffsetTopic2_fields) := ([65; 66], (Some [(7, (3, (-1, (0, tt)))); (8, (3, (256, (5, tt))))], tt)).
Definition topic_before : dens (erase ListOffsetTopic2_fields) := ([67], (None, tt)).
Example C88_case : In ("ListOffsetTopic2", ListOffsetTopic2_fields) layouts /\ go_platform narrow32 /\ makes_all narrow32 /\
  fit (erase ListOffsetTopic2_fields) 4 topic_sent /\ sizeds (2 ^ 31) (erase ListOffsetTopic2_fields) topic_sent /\
  nvals ListOffsetTopic2_fields (receive (erase ListOffsetTopic2_fields) 4 topic_before topic_sent) = a_topic 7 8.
Proof.
  split; [do 18 right; left; reflexivity|]. split; [left; reflexivity|]. split; [intros t n H; cbn; apply Z.ltb_lt; apply H|].
  split; [|split; [|reflexivity]].
  - split; [intros _; reflexivity|]. split; [|exact I]. intros _. split; [reflexivity|].
    repeat constructor; cbn; intros; unfold is_int32, is_int64; try (split; [discriminate|reflexivity]); discriminate.
  - split; [exact I|]. split; [|exact I]. split; [reflexivity|]. repeat constructor.
Qed.
