(** * C93: the text of gen.record_batch.go does what the model of record batches does *)
From Coq Require Import String ZArith Lia.
From Verif Require Import GoBase Utf8 Spec EncProofs Encoder Sizeof RecordBatch RecordSpec RecordProofs GoLang GoShare Source SourceRecords SourceClientSpec SourceRecordsSpec SourceRecordsProofs SourceRecordsAll SourceRecordsEnc P_Record.
Local Open Scope string_scope.
Local Open Scope list_scope.
Local Open Scope Z_scope.

(** ** C93.  [W]: bits of int; [m]: the memory when the function is called; at least 5 nested calls are enough. *)
Theorem C93_size : forall W n orders r version m e, exists m', grows m m' /\
  recording orders (call W records_program (5 + n) "RecordBatch.Size" [] [batch_val r; VInt I16 version] m GoShare.Done) e
  = (Returns (VInt I32 (RecordBatch_Size orders r version)) m', e).
Proof. intros. exact (size_text W orders n r version m GoShare.Done e). Qed.

Theorem C93_encode : forall W n orders r version m e,
  let R := recording orders (call W records_program (5 + n) "RecordBatch.Encode" [] [batch_val r; the_enc; VInt I16 version] m GoShare.Done) e in
  match RecordBatch_Encode orders r version e with
  | Some e' => exists m', grows m m' /\ R = (Returns (VTuple []) m', e')
  | None => fst R = Panics
  end.
Proof. intros. exact (batch_encode_text W orders n r version m GoShare.Done e). Qed.

Theorem C93_get : forall W n orders i key m e, exists m', grows m m' /\
  recording orders (call W records_program (1 + n) "MapHeader.Get" [] [map_val i; VStr key] m GoShare.Done) e
  = (let r := MapHeader_Get (orders i) key in (Returns (VTuple [VStr (fst r); VBool (snd r)]) m', e)).
Proof. intros. exact (get_text W orders n i key m GoShare.Done e). Qed.

(** Range calls [fn] once for each entry, in the order of the entries: for any [fn] that, called
    with a key and a value, takes a state [s] of memory and encoder ([P s]) to [step key value s],
    returns, and changes no variables but [B]. *)
Theorem C93_range : forall W n orders i fn S (step : gostring -> gostring -> S -> S) (B : nat -> Prop) (P : S -> mem -> Encoder -> Prop) m k,
  (forall l, B l -> (l < next m)%nat) ->
  (forall s m1 m2 e, P s m1 e -> (forall l, (l < next m)%nat -> get l m2 = get l m1) -> P s m2 e) ->
  (forall kv s m1 e kk, (next m <= next m1)%nat -> P s m1 e -> exists w m2 e', P (step (fst kv) (snd kv) s) m2 e' /\ (next m1 <= next m2)%nat /\
     (forall l, (l < next m1)%nat -> ~ B l -> get l m2 = get l m1) /\
     recording orders (apply (call W records_program n) fn [VStr (fst kv); VStr (snd kv)] m1 kk) e = recording orders (kk w m2) e') ->
  settle W GFunc fn = fn ->
  forall s e, P s m e -> exists m2 e', P (MapHeader_Range (orders i) step s) m2 e' /\ (next m <= next m2)%nat /\
    (forall l, (l < next m)%nat -> ~ B l -> get l m2 = get l m) /\
    recording orders (call W records_program (1 + n) "MapHeader.Range" [] [map_val i; fn] m k) e = recording orders (k (VTuple []) m2) e'.
Proof. intros W n orders i fn S step B P m k. exact (range_text W orders n i fn step B P m k). Qed.

(** ** Of the text itself: encoding a batch with a message without headers panics (C50) ... *)
Theorem C50_text_nil_header_refuted : forall W n orders r version m e, Exists (fun m => m_header m = None) (items (r_Records r)) ->
  fst (recording orders (call W records_program (5 + n) "RecordBatch.Encode" [] [batch_val r; the_enc; VInt I16 version] m GoShare.Done) e) = Panics.
Proof.
  intros W n orders r version m e H. pose proof (C93_encode W n orders r version m e) as E. cbv zeta in E.
  rewrite (C50_nil_header_refuted orders r version e H) in E. exact E.
Qed.

(** What the text of Encode does to an encoder; [None] if it does not return. *)
Definition text_encode (W : Z) (n : nat) (orders : nat -> list (gostring * gostring)) (r : RecordBatch) (version : Z) (m : mem) (e : Encoder) : option Encoder :=
  match recording orders (call W records_program (5 + n) "RecordBatch.Encode" [] [batch_val r; the_enc; VInt I16 version] m GoShare.Done) e with (Returns _ _, e') => Some e' | _ => None end.
Theorem C93_text_encode : forall W n orders r version m e, text_encode W n orders r version m e = RecordBatch_Encode orders r version e.
Proof.
  intros. pose proof (C93_encode W n orders r version m e) as E. cbv zeta in E. unfold text_encode.
  destruct (RecordBatch_Encode orders r version e) as [e'|]; [destruct E as (m' & _ & ->); reflexivity|].
  destruct (recording orders _ e) as [[] ?]; try discriminate E. reflexivity.
Qed.
Lemma text_emits W n orders r version m bs : Emits_if_ok (text_encode W n orders r version m) bs <-> Emits_if_ok (RecordBatch_Encode orders r version) bs.
Proof. split; intros H e He; destruct (H e He) as (e' & H1 & H2); exists e'; rewrite C93_text_encode in *; auto. Qed.

(** ... at versions from 2 Size never gives the number of bytes that Encode writes if there is a record (C47), ... *)
Theorem C47_text_size_refuted : forall W n orders1 orders2 r version bs m, orders_ok orders1 r -> orders_ok orders2 r ->
  (forall i m, nth_error (items (r_Records r)) i = Some m -> Forall pair_ok (orders1 i)) -> 2 <= version -> 0 < zlen (items (r_Records r)) < 2 ^ 28 ->
  Emits_if_ok (text_encode W n orders2 r version m) bs ->
  forall e sz m', recording orders1 (call W records_program (5 + n) "RecordBatch.Size" [] [batch_val r; VInt I16 version] m GoShare.Done) e = (Returns (VInt I32 sz) m', e) -> sz <> int32 (zlen bs).
Proof.
  intros W n o1 o2 r version bs m H1 H2 H3 H4 H5 HE e sz m' HS.
  destruct (C93_size W n o1 r version m e) as (m2 & _ & HS'). rewrite HS' in HS. injection HS as <- _.
  apply (C47_size_refuted o1 o2 r version bs H1 H2 H3); [|exact H4|exact H5]. apply text_emits in HE. exact HE.
Qed.

(** ... two different batches give the same bytes (C48), ... *)
Theorem C48_text_records_ambiguous_refuted : forall W n mm key value unix v base version, valid_utf8 v ->
  let m hs := mkMessage [] 0 0 key value unix (Some hs) in
  let b ms := mkRecordBatch base 0 0 2 0 0 0 0 0 0 0 0 (Some ms) in
  let hs := [([], []); ([0; 2; 65], v)] in
  exists bs, Emits_if_ok (text_encode W n (fun _ => []) (b [m []; mkMessage [] 0 0 (Some [65]) (Some v) 3 (Some [])]) version mm) bs /\
             Emits_if_ok (text_encode W n (fun _ => hs) (b [m hs]) version mm) bs.
Proof.
  intros W n mm key value unix v base version Hv m b hs. destruct (C48_records_ambiguous_refuted key value unix v base version Hv) as (bs & H1 & H2).
  exists bs. split; apply text_emits; [exact H1|exact H2].
Qed.

(** ... and what it writes begins with the twelve fields of the batch (C49). *)
Theorem C49_text_fixed_header : forall W n orders r version m bs, Emits_if_ok (text_encode W n orders r version m) bs ->
  exists rest, bs = batch_header r ++ rest /\ zlen (batch_header r) = 57.
Proof. intros W n orders r version m bs H. apply text_emits in H. exact (C49_fixed_header orders r version bs H). Qed.

(** *** A batch with one record with a header: its text computes *)
Example C93_example :
  let m := mkMessage [116] 0 5 (Some [1; 2]) None 300 (Some [([1], [2; 3])]) in
  let r := mkRecordBatch 1 2 3 4 5 6 7 8 9 10 11 12 (Some [m]) in
  let orders := fun _ : nat => [([1], [2; 3])] in
  let e := NewEncoder (mkTarget (fun _ _ => None) None []) in
  (exists m', recording orders (call 64 records_program 5 "RecordBatch.Size" [] [batch_val r; VInt I16 2] (mkMem 0 []) GoShare.Done) e = (Returns (VInt I32 78) m', e)) /\
  concat (t_log (e_target (snd (recording orders (call 64 records_program 5 "RecordBatch.Encode" [] [batch_val r; the_enc; VInt I16 2] (mkMem 0 []) GoShare.Done) e))))
  = batch_header r ++ [0; 0; 200; 4; 0; 4; 1; 2; 0; 2; 1; 4; 2; 3].
Proof. split; [eexists|]; vm_compute; reflexivity. Qed.

(** *** The batch of P_Record.v, with two records: 79 bytes by the text of Encode, 93 by the text of Size;
    and one with a nil header *)
Example C47_text_case : option_map (fun e => zlen (output e)) (text_encode 64 0 ex_orders ex_batch 2 (mkMem 0 []) (NewEncoder reliable_target)) = Some 79 /\
  exists m', recording ex_orders (call 64 records_program 5 "RecordBatch.Size" [] [batch_val ex_batch; VInt I16 2] (mkMem 0 []) GoShare.Done) (NewEncoder reliable_target)
  = (Returns (VInt I32 93) m', NewEncoder reliable_target).
Proof. split; [|eexists]; vm_compute; reflexivity. Qed.
Example C50_text_case : let r := mkRecordBatch 0 0 0 0 0 0 0 0 0 0 0 0 (Some [ex_m1; mkMessage [] 0 0 None None 0 None]) in
  fst (recording (fun _ => []) (call 64 records_program 5 "RecordBatch.Encode" [] [batch_val r; the_enc; VInt I16 2] (mkMem 0 []) GoShare.Done) (NewEncoder reliable_target)) = Panics.
Proof. vm_compute. reflexivity. Qed.
Example C93_get_case : let orders := fun _ : nat => [([1], [2; 3]); ([4], [])] in let e := NewEncoder reliable_target in
  (exists m', recording orders (call 64 records_program 1 "MapHeader.Get" [] [map_val 0; VStr [1]] (mkMem 0 []) GoShare.Done) e = (Returns (VTuple [VStr [2; 3]; VBool true]) m', e)) /\
  (exists m', recording orders (call 64 records_program 1 "MapHeader.Get" [] [map_val 0; VStr [5]] (mkMem 0 []) GoShare.Done) e = (Returns (VTuple [VStr []; VBool false]) m', e)).
Proof. split; eexists; vm_compute; reflexivity. Qed.

Print Assumptions C93_size.
Print Assumptions C93_encode.
Print Assumptions C93_get.
Print Assumptions C93_range.
Print Assumptions C50_text_nil_header_refuted.
Print Assumptions C47_text_size_refuted.
Print Assumptions C93_text_encode.
Print Assumptions C48_text_records_ambiguous_refuted.
Print Assumptions C49_text_fixed_header.
