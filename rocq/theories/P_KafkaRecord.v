(** * Property of record batches against Kafka's format: C69 *)
From Coq Require Import Permutation.
From Verif Require Import GoBase GoLemmas Binary Utf8 Encoder Decoder Sizeof Spec EncProofs RecordBatch RecordSpec RecordProofs P_Record KafkaRecordSpec KafkaRecordProofs.
Local Open Scope Z_scope.
Local Open Scope list_scope.
Ltac Zify.zify_post_hook ::= idtac.

(** ** C69.  Full statement: a batch is encoded in Kafka's format ([k_batch],
    KafkaRecordSpec.v):
      orders_ok orders r -> Emits_if_ok (RecordBatch_Encode orders r version) bs -> k_batch r bs.
    False for every batch, also one without records: Kafka's form has at least 4 bytes
    more, and one more for each record. *)
Theorem C69_format_refuted : forall orders r version bs, orders_ok orders r ->
  (forall i m, nth_error (items (r_Records r)) i = Some m -> Forall pair_ok (orders i) /\ message_fits m) ->
  Emits_if_ok (RecordBatch_Encode orders r version) bs ->
  forall ks, k_batch r ks -> zlen bs + 4 + zlen (items (r_Records r)) <= zlen ks /\ bs <> ks.
Proof. exact not_kafka. Qed.
Print Assumptions C69_format_refuted.
Theorem C69_kafka_exists : forall r, exists ks, k_batch r ks.
Proof. exact batch_exists. Qed.
Print Assumptions C69_kafka_exists.
(** If the first record has the timestamp of the batch, then the number of records, as
    Kafka finds it, is zero, however many there are. *)
Theorem C69_no_records_refuted : forall orders r version bs m rest, orders_ok orders r -> Emits_if_ok (RecordBatch_Encode orders r version) bs ->
  items (r_Records r) = m :: rest -> m_unix m = r_FirstTimestamp r -> exists tl, bs = batch_header r ++ be 4 0 ++ tl.
Proof. exact count_zero. Qed.
Print Assumptions C69_no_records_refuted.
(** The fixed fields are in their place.  (Missing: everything after them.) *)
Theorem C69_fixed_fields_partial : forall orders r version bs ks, Emits_if_ok (RecordBatch_Encode orders r version) bs -> k_batch r ks ->
  firstn 57 bs = firstn 57 ks.
Proof.
  intros orders r version bs ks Hb (parts & _ & ->). destruct (batch_layout _ _ _ _ Hb) as (rest & -> & L).
  assert (N : length (batch_header r) = 57%nat) by (unfold zlen in L; lia).
  rewrite !firstn_app, N, Nat.sub_diag, !firstn_O, !app_nil_r, <- N, firstn_all. reflexivity.
Qed.
Print Assumptions C69_fixed_fields_partial.

(** One record, key "k", value "v", no headers, offset and timestamp those of the batch:
    as the library writes it after the fixed fields, and as Kafka has it. *)
Definition one_record : RecordBatch := mkRecordBatch 5 0 0 0 0 0 0 100 100 (-1) (-1) (-1) (Some [mkMessage [116] 0 5 (Some [107]) (Some [118]) 100 (Some [])]).
Example C69_case : orders_ok (fun _ => []) one_record /\
  option_map (fun e => skipn 57 (output e)) (RecordBatch_Encode (fun _ => []) one_record 2 (NewEncoder reliable_target)) = Some [0; 0; 0; 0; 2;107; 2;118] /\
  k_batch one_record (batch_header one_record ++ [0;0;0;1; 16; 0; 0; 0; 2;107; 2;118; 0]).
Proof.
  assert (V : forall x b, zz x = b -> 0 <= b < 128 -> k_varint x [b]).
  { intros x b <- H. exists 1%nat. split; [lia|]. split; [cbn; rewrite Z.mod_small by lia; reflexivity|]. split; [lia|]. lia. }
  split; [|split; [vm_compute; reflexivity|]].
  - intros [|i] m H; [injection H as <-; exists []; split; [reflexivity|constructor]|destruct i; discriminate].
  - exists [[16; 0; 0; 0; 2;107; 2;118; 0]]. split; [|reflexivity]. constructor; [|constructor].
    exists [], [], [16], [0], [0], [2;107], [2;118], [0], [0; 0; 0; 2;107; 2;118; 0].
    split; [constructor|]. split; [constructor|]. split; [apply V; [reflexivity|lia]|]. split; [apply V; [reflexivity|lia]|].
    split; [exists [2]; split; [apply V; [reflexivity|lia]|reflexivity]|]. split; [exists [2]; split; [apply V; [reflexivity|lia]|reflexivity]|].
    split; [apply V; [reflexivity|lia]|]. split; [reflexivity|]. split; [apply V; [reflexivity|lia]|reflexivity].
Qed.
