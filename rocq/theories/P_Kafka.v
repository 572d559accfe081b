(** * Properties of the messages against Kafka's definitions: C60, C61

    What Kafka defines is in KafkaSpec.v, which also says where that comes from:
    memory, not Kafka's sources. *)
From Coq Require Import String.
From Verif Require Import GoBase Encoder Decoder Spec SchemaSpec Link Msg01 Msg02 Msg03 Msg07 Msg09 AllMessages
  BrokerTable BrokerSpec FlexSpec KafkaSpec KafkaProofs.
Local Open Scope list_scope.
Local Open Scope Z_scope.

(** ** C60.  Full statement: every layout of [kafka_layouts] is that of the code.
    False for one of them: an OffsetCommit request of version 1 lacks the commit
    timestamp of each partition.  No commit of one partition (metadata below 8
    bytes, which could pass for the timestamp) reads as Kafka has it. *)
Theorem C60_offset_commit_refuted : In ("OffsetCommitRequest"%string, 1, 1, [S; I32; S; A [S; A [I32; I64; I64; S]]]) kafka_layouts /\
  forall group gen member topic i off meta bs,
  zlen group < 2 ^ 15 -> zlen member < 2 ^ 15 -> zlen topic < 2 ^ 15 -> zlen meta < 8 ->
  Emits (OffsetCommitRequest_Encode 1 (commit1 group gen member topic i off meta)) bs ->
  ~ laid_out [S; I32; S; A [S; A [I32; I64; I64; S]]] bs.
Proof. split; [exact (nth_error_In kafka_layouts 42 eq_refl)|exact commit1_wrong]. Qed.
Print Assumptions C60_offset_commit_refuted.
(** Missing: that one layout. *)
Theorem C60_layout_partial : forall name lo hi l, In (name, lo, hi, l) kafka_layouts ->
  (name, lo) <> ("OffsetCommitRequest"%string, 1) ->
  exists c, In (name, c) all_codecs /\ forall v, lo <= v <= hi -> items_of (c_schema c) v = l /\
  forall m, fit (c_schema c) v (c_to c m) -> exists bs, Emits (c_encode c v m) bs /\ laid_out l bs.
Proof. exact layout_agrees. Qed.
Print Assumptions C60_layout_partial.
(** The layouts cover every request and response at every version that is not
    flexible. *)
Theorem C60_coverage : forall a key lo hi v, declared a = Some (key, lo, hi) -> lo <= v <= hi -> ~ flexible a v ->
  forall suffix, suffix = "Request"%string \/ suffix = "Response"%string ->
  exists lo' hi' l, In ((api_name a ++ suffix)%string, lo', hi', l) kafka_layouts /\ lo' <= v <= hi'.
Proof. exact layouts_cover. Qed.
Print Assumptions C60_coverage.
(** Keys and highest versions. *)
Theorem C60_keys : map (fun m => (m_name m, m_key m)) all_methods = map fst kafka_apis /\
  forall name key hi, In (name, key, hi) kafka_apis -> exists a, api_name a = name /\ declared a = Some (key, 0, hi).
Proof. exact kafka_keys. Qed.
Print Assumptions C60_keys.
(** Version 1 commit of offset 5 of partition 2 of "t" by member "m" of "g". *)
Example C60_case :
  output (OffsetCommitRequest_Encode 1 (commit1 [103] 1 [109] [116] 2 5 []) (NewEncoder (mkTarget (fun _ _ => None) None []))) =
  [0; 1; 103; 0; 0; 0; 1; 0; 1; 109; 0; 0; 0; 1; 0; 1; 116; 0; 0; 0; 1; 0; 0; 0; 2; 0; 0; 0; 0; 0; 0; 0; 5; 0; 0].
Proof. reflexivity. Qed.

(** ** C61.  Full statement: a caller can send null in a field where Kafka gives null
    a meaning of its own.  False for every field of [nullable_fields]: whatever
    the message, the field does not go out as null. *)
Theorem C61_no_null_refuted : forall msg field v0, In (msg, field, v0) nullable_fields -> exists c, In (msg, c) all_codecs /\
  forall v m bs, v0 <= v -> fit (c_schema c) v (c_to c m) -> Emits (c_encode c v m) bs -> ~ null_in (c_schema c) field v bs.
Proof. exact no_null_sent. Qed.
Print Assumptions C61_no_null_refuted.
(** Bytes with the field null exist: the claim is not empty. *)
Theorem C61_null_exists : forall fs field r t v, field_of field fs = Some (r, t) -> exists bs, null_in fs field v bs.
Proof. exact null_possible. Qed.
Print Assumptions C61_null_exists.
(** It holds for the nullable fields that are arrays of strings or numbers: a nil
    list of keys is null (all keys), a nil list of replicas is null (cancel). *)
Theorem C61_keys_partial : forall v ty name,
  Emits (DescribeConfigsResource32_Encode v (mkDescribeConfigsResource32 ty name None)) (be 1 ty ++ w_string name ++ [255; 255; 255; 255]).
Proof. exact null_keys. Qed.
Print Assumptions C61_keys_partial.
Theorem C61_replicas_partial : forall v i,
  Emits (ReassignablePartition45_Encode v (mkReassignablePartition45 i None)) (be 4 i ++ [255; 255; 255; 255]).
Proof. exact null_replicas. Qed.
Print Assumptions C61_replicas_partial.
