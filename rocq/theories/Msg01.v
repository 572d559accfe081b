(** * Generated message types (part 1 of 10).

    Written by tools/gen_messages.py from message/messages.gen.go, one
    definition per Go method; do not edit.  A Decode method that fails leaves
    a partly filled receiver behind, which no caller looks at; the model drops
    it. *)
From Coq Require Import String.
From Verif Require Import GoBase Encoder Decoder Sizeof SchemaSpec Schema Link.
Open Scope Z_scope.

(** ** PartitionProduceData0 *)

(** message/messages.gen.go:144-147 *)
Record PartitionProduceData0 : Type := mkPartitionProduceData0 { PartitionProduceData0_PartitionIndex : Z; PartitionProduceData0_Records : gslice Z }.
(** the zero value ([var item PartitionProduceData0]) *)
Definition PartitionProduceData0_zero : PartitionProduceData0 := mkPartitionProduceData0 0 None.
(** message/messages.gen.go:150-155 *)
Definition PartitionProduceData0_Size (version : Z) (t : PartitionProduceData0) : Z :=
  ((size_add sz_Int32) +>
   (size_add (sz_Bytes (PartitionProduceData0_Records t))) +>
   size_done)%size 0.
(** message/messages.gen.go:158-161 *)
Definition PartitionProduceData0_Encode (version : Z) (t : PartitionProduceData0) : Encoder -> Encoder :=
  ((PutInt32 (PartitionProduceData0_PartitionIndex t)) >>
   (PutBytes (PartitionProduceData0_Records t)) >>
   skip)%enc.
(** message/messages.gen.go:164-175 *)
Definition PartitionProduceData0_Decode (version : Z) (t : PartitionProduceData0) : Dec PartitionProduceData0 :=
  x_PartitionIndex <- dInt32 ;;
  x_Records <- dBytes ;;
  ret (mkPartitionProduceData0 x_PartitionIndex x_Records).
(** the struct declaration read as a schema; version ranges as in Size *)
Definition PartitionProduceData0_schema : fields :=
  FCons "PartitionIndex" Always TInt32
  (FCons "Records" Always TBytes FNil).
Definition PartitionProduceData0_to (t : PartitionProduceData0) : dens PartitionProduceData0_schema := (PartitionProduceData0_PartitionIndex t, (PartitionProduceData0_Records t, tt)).
Definition PartitionProduceData0_of (x : dens PartitionProduceData0_schema) : PartitionProduceData0 := mkPartitionProduceData0 (fst x) (fst (snd x)).
Definition PartitionProduceData0_codec : codec := Codec PartitionProduceData0 PartitionProduceData0_zero PartitionProduceData0_Size PartitionProduceData0_Encode PartitionProduceData0_Decode PartitionProduceData0_schema PartitionProduceData0_to PartitionProduceData0_of.
Lemma PartitionProduceData0_linked : linked PartitionProduceData0_codec.
Proof.
  apply Linked; cbn [PartitionProduceData0_codec c_type c_zero c_size c_encode c_decode c_schema c_to c_of].
  - intros t. destruct t. cbv [PartitionProduceData0_of PartitionProduceData0_to]. cbn [fst snd PartitionProduceData0_PartitionIndex PartitionProduceData0_Records].  reflexivity.
  - intros x. unfold PartitionProduceData0_schema in x. cbn [dens den] in x. destruct x as [x0 x]. destruct x as [x1 x]. destruct x. cbv [PartitionProduceData0_of PartitionProduceData0_to]. cbn [fst snd PartitionProduceData0_PartitionIndex PartitionProduceData0_Records].  reflexivity.
  - reflexivity.
  - intros v t. unfold PartitionProduceData0_Size, PartitionProduceData0_schema, PartitionProduceData0_to. apply size_start.
    apply size_step; [intros sz; reflexivity|].
    apply size_step; [intros sz; reflexivity|].
    intros sz; reflexivity.
  - intros v t. unfold PartitionProduceData0_Encode, PartitionProduceData0_schema, PartitionProduceData0_to.
    apply enc_step; [intros e; reflexivity|].
    apply enc_step; [intros e; reflexivity|].
    intros e; reflexivity.
  - intros v t. unfold PartitionProduceData0_Decode, PartitionProduceData0_schema, PartitionProduceData0_to.
    dec_field (fun x : Z => x); [apply dmap_id|intros x_PartitionIndex].
    dec_field (fun x : gslice Z => x); [apply dmap_id|intros x_Records].
    intros d; reflexivity.
Qed.
Local Opaque PartitionProduceData0_Size PartitionProduceData0_Encode PartitionProduceData0_Decode.

(** ** TopicProduceData0 *)

(** message/messages.gen.go:94-97 *)
Record TopicProduceData0 : Type := mkTopicProduceData0 { TopicProduceData0_Name : gostring; TopicProduceData0_Partitions : gslice PartitionProduceData0 }.
(** the zero value ([var item TopicProduceData0]) *)
Definition TopicProduceData0_zero : TopicProduceData0 := mkTopicProduceData0 [] None.
(** message/messages.gen.go:100-108 *)
Definition TopicProduceData0_Size (version : Z) (t : TopicProduceData0) : Z :=
  ((size_add (sz_String (TopicProduceData0_Name t))) +>
   (size_loop (PartitionProduceData0_Size version) (TopicProduceData0_Partitions t)) +>
   size_done)%size 0.
(** message/messages.gen.go:111-119 *)
Definition TopicProduceData0_Encode (version : Z) (t : TopicProduceData0) : Encoder -> Encoder :=
  ((PutString (TopicProduceData0_Name t)) >>
   (put_array (PartitionProduceData0_Encode version) (TopicProduceData0_Partitions t)) >>
   skip)%enc.
(** message/messages.gen.go:122-142 *)
Definition TopicProduceData0_Decode (version : Z) (t : TopicProduceData0) : Dec TopicProduceData0 :=
  x_Name <- dString ;;
  x_Partitions <- (dec_array (PartitionProduceData0_Decode version PartitionProduceData0_zero) (TopicProduceData0_Partitions t)) ;;
  ret (mkTopicProduceData0 x_Name x_Partitions).
(** the struct declaration read as a schema; version ranges as in Size *)
Definition TopicProduceData0_schema : fields :=
  FCons "Name" Always TString
  (FCons "Partitions" Always (TArray PartitionProduceData0_schema) FNil).
Definition TopicProduceData0_to (t : TopicProduceData0) : dens TopicProduceData0_schema := (TopicProduceData0_Name t, (option_map (map PartitionProduceData0_to) (TopicProduceData0_Partitions t), tt)).
Definition TopicProduceData0_of (x : dens TopicProduceData0_schema) : TopicProduceData0 := mkTopicProduceData0 (fst x) (option_map (map PartitionProduceData0_of) (fst (snd x))).
Definition TopicProduceData0_codec : codec := Codec TopicProduceData0 TopicProduceData0_zero TopicProduceData0_Size TopicProduceData0_Encode TopicProduceData0_Decode TopicProduceData0_schema TopicProduceData0_to TopicProduceData0_of.
Lemma TopicProduceData0_linked : linked TopicProduceData0_codec.
Proof.
  apply Linked; cbn [TopicProduceData0_codec c_type c_zero c_size c_encode c_decode c_schema c_to c_of].
  - intros t. destruct t. cbv [TopicProduceData0_of TopicProduceData0_to]. cbn [fst snd TopicProduceData0_Name TopicProduceData0_Partitions]. rewrite ?(option_map_map_inv PartitionProduceData0_to PartitionProduceData0_of _ (l_of_to _ PartitionProduceData0_linked)). reflexivity.
  - intros x. unfold TopicProduceData0_schema in x. cbn [dens den] in x. destruct x as [x0 x]. destruct x as [x1 x]. destruct x. cbv [TopicProduceData0_of TopicProduceData0_to]. cbn [fst snd TopicProduceData0_Name TopicProduceData0_Partitions]. rewrite ?(option_map_map_inv PartitionProduceData0_of PartitionProduceData0_to _ (l_to_of _ PartitionProduceData0_linked)). reflexivity.
  - reflexivity.
  - intros v t. unfold TopicProduceData0_Size, TopicProduceData0_schema, TopicProduceData0_to. apply size_start.
    apply size_step; [intros sz; reflexivity|].
    apply size_step; [intros sz; apply (size_field_link (PartitionProduceData0_Size v) PartitionProduceData0_schema PartitionProduceData0_to v (l_size _ PartitionProduceData0_linked v) true)|].
    intros sz; reflexivity.
  - intros v t. unfold TopicProduceData0_Encode, TopicProduceData0_schema, TopicProduceData0_to.
    apply enc_step; [intros e; reflexivity|].
    apply enc_step; [intros e; apply (put_field_link (PartitionProduceData0_Encode v) PartitionProduceData0_schema PartitionProduceData0_to v (l_encode _ PartitionProduceData0_linked v) true)|].
    intros e; reflexivity.
  - intros v t. unfold TopicProduceData0_Decode, TopicProduceData0_schema, TopicProduceData0_to.
    dec_field (fun x : gostring => x); [apply dmap_id|intros x_Name].
    dec_field (option_map (map PartitionProduceData0_of)); [apply (dec_array_link _ _ PartitionProduceData0_of PartitionProduceData0_to (l_decode _ PartitionProduceData0_linked v PartitionProduceData0_zero) (l_of_to _ PartitionProduceData0_linked))|intros x_Partitions].
    intros d; reflexivity.
Qed.
Local Opaque TopicProduceData0_Size TopicProduceData0_Encode TopicProduceData0_Decode.

(** ** ProduceRequest *)

(** message/messages.gen.go:24-29 *)
Record ProduceRequest : Type := mkProduceRequest { ProduceRequest_TransactionalId : gostring; ProduceRequest_Acks : Z; ProduceRequest_TimeoutMs : Z; ProduceRequest_Topics : gslice TopicProduceData0 }.
(** the zero value ([var item ProduceRequest]) *)
Definition ProduceRequest_zero : ProduceRequest := mkProduceRequest [] 0 0 None.
(** message/messages.gen.go:32-44 *)
Definition ProduceRequest_Size (version : Z) (t : ProduceRequest) : Z :=
  (size_if (3 <=? version) (size_add (sz_String (ProduceRequest_TransactionalId t))) +>
   (size_add sz_Int16) +>
   (size_add sz_Int32) +>
   (size_loop (TopicProduceData0_Size version) (ProduceRequest_Topics t)) +>
   size_done)%size 0.
(** message/messages.gen.go:47-59 *)
Definition ProduceRequest_Encode (version : Z) (t : ProduceRequest) : Encoder -> Encoder :=
  (put_if (3 <=? version) (PutString (ProduceRequest_TransactionalId t)) >>
   (PutInt16 (ProduceRequest_Acks t)) >>
   (PutInt32 (ProduceRequest_TimeoutMs t)) >>
   (put_array (TopicProduceData0_Encode version) (ProduceRequest_Topics t)) >>
   skip)%enc.
(** message/messages.gen.go:62-92 *)
Definition ProduceRequest_Decode (version : Z) (t : ProduceRequest) : Dec ProduceRequest :=
  x_TransactionalId <- dec_if (3 <=? version) dString (ProduceRequest_TransactionalId t) ;;
  x_Acks <- dInt16 ;;
  x_TimeoutMs <- dInt32 ;;
  x_Topics <- (dec_array (TopicProduceData0_Decode version TopicProduceData0_zero) (ProduceRequest_Topics t)) ;;
  ret (mkProduceRequest x_TransactionalId x_Acks x_TimeoutMs x_Topics).
(** the struct declaration read as a schema; version ranges as in Size *)
Definition ProduceRequest_schema : fields :=
  FCons "TransactionalId" (From 3) TString
  (FCons "Acks" Always TInt16
  (FCons "TimeoutMs" Always TInt32
  (FCons "Topics" Always (TArray TopicProduceData0_schema) FNil))).
Definition ProduceRequest_to (t : ProduceRequest) : dens ProduceRequest_schema := (ProduceRequest_TransactionalId t, (ProduceRequest_Acks t, (ProduceRequest_TimeoutMs t, (option_map (map TopicProduceData0_to) (ProduceRequest_Topics t), tt)))).
Definition ProduceRequest_of (x : dens ProduceRequest_schema) : ProduceRequest := mkProduceRequest (fst x) (fst (snd x)) (fst (snd (snd x))) (option_map (map TopicProduceData0_of) (fst (snd (snd (snd x))))).
Definition ProduceRequest_codec : codec := Codec ProduceRequest ProduceRequest_zero ProduceRequest_Size ProduceRequest_Encode ProduceRequest_Decode ProduceRequest_schema ProduceRequest_to ProduceRequest_of.
Lemma ProduceRequest_linked : linked ProduceRequest_codec.
Proof.
  apply Linked; cbn [ProduceRequest_codec c_type c_zero c_size c_encode c_decode c_schema c_to c_of].
  - intros t. destruct t. cbv [ProduceRequest_of ProduceRequest_to]. cbn [fst snd ProduceRequest_TransactionalId ProduceRequest_Acks ProduceRequest_TimeoutMs ProduceRequest_Topics]. rewrite ?(option_map_map_inv TopicProduceData0_to TopicProduceData0_of _ (l_of_to _ TopicProduceData0_linked)). reflexivity.
  - intros x. unfold ProduceRequest_schema in x. cbn [dens den] in x. destruct x as [x0 x]. destruct x as [x1 x]. destruct x as [x2 x]. destruct x as [x3 x]. destruct x. cbv [ProduceRequest_of ProduceRequest_to]. cbn [fst snd ProduceRequest_TransactionalId ProduceRequest_Acks ProduceRequest_TimeoutMs ProduceRequest_Topics]. rewrite ?(option_map_map_inv TopicProduceData0_of TopicProduceData0_to _ (l_to_of _ TopicProduceData0_linked)). reflexivity.
  - reflexivity.
  - intros v t. unfold ProduceRequest_Size, ProduceRequest_schema, ProduceRequest_to. apply size_start.
    apply size_step; [intros sz; reflexivity|].
    apply size_step; [intros sz; reflexivity|].
    apply size_step; [intros sz; reflexivity|].
    apply size_step; [intros sz; apply (size_field_link (TopicProduceData0_Size v) TopicProduceData0_schema TopicProduceData0_to v (l_size _ TopicProduceData0_linked v) true)|].
    intros sz; reflexivity.
  - intros v t. unfold ProduceRequest_Encode, ProduceRequest_schema, ProduceRequest_to.
    apply enc_step; [intros e; reflexivity|].
    apply enc_step; [intros e; reflexivity|].
    apply enc_step; [intros e; reflexivity|].
    apply enc_step; [intros e; apply (put_field_link (TopicProduceData0_Encode v) TopicProduceData0_schema TopicProduceData0_to v (l_encode _ TopicProduceData0_linked v) true)|].
    intros e; reflexivity.
  - intros v t. unfold ProduceRequest_Decode, ProduceRequest_schema, ProduceRequest_to.
    dec_field (fun x : gostring => x); [apply dec_if_link; [apply dmap_id|reflexivity]|intros x_TransactionalId].
    dec_field (fun x : Z => x); [apply dmap_id|intros x_Acks].
    dec_field (fun x : Z => x); [apply dmap_id|intros x_TimeoutMs].
    dec_field (option_map (map TopicProduceData0_of)); [apply (dec_array_link _ _ TopicProduceData0_of TopicProduceData0_to (l_decode _ TopicProduceData0_linked v TopicProduceData0_zero) (l_of_to _ TopicProduceData0_linked))|intros x_Topics].
    intros d; reflexivity.
Qed.
Local Opaque ProduceRequest_Size ProduceRequest_Encode ProduceRequest_Decode.

(** ** BatchIndexAndErrorMessage0 *)

(** message/messages.gen.go:393-396 *)
Record BatchIndexAndErrorMessage0 : Type := mkBatchIndexAndErrorMessage0 { BatchIndexAndErrorMessage0_BatchIndex : Z; BatchIndexAndErrorMessage0_BatchIndexErrorMessage : gostring }.
(** the zero value ([var item BatchIndexAndErrorMessage0]) *)
Definition BatchIndexAndErrorMessage0_zero : BatchIndexAndErrorMessage0 := mkBatchIndexAndErrorMessage0 0 [].
(** message/messages.gen.go:399-408 *)
Definition BatchIndexAndErrorMessage0_Size (version : Z) (t : BatchIndexAndErrorMessage0) : Z :=
  (size_if (8 <=? version) (size_add sz_Int32) +>
   size_if (8 <=? version) (size_add (sz_String (BatchIndexAndErrorMessage0_BatchIndexErrorMessage t))) +>
   size_done)%size 0.
(** message/messages.gen.go:411-418 *)
Definition BatchIndexAndErrorMessage0_Encode (version : Z) (t : BatchIndexAndErrorMessage0) : Encoder -> Encoder :=
  (put_if (8 <=? version) (PutInt32 (BatchIndexAndErrorMessage0_BatchIndex t)) >>
   put_if (8 <=? version) (PutString (BatchIndexAndErrorMessage0_BatchIndexErrorMessage t)) >>
   skip)%enc.
(** message/messages.gen.go:421-436 *)
Definition BatchIndexAndErrorMessage0_Decode (version : Z) (t : BatchIndexAndErrorMessage0) : Dec BatchIndexAndErrorMessage0 :=
  x_BatchIndex <- dec_if (8 <=? version) dInt32 (BatchIndexAndErrorMessage0_BatchIndex t) ;;
  x_BatchIndexErrorMessage <- dec_if (8 <=? version) dString (BatchIndexAndErrorMessage0_BatchIndexErrorMessage t) ;;
  ret (mkBatchIndexAndErrorMessage0 x_BatchIndex x_BatchIndexErrorMessage).
(** the struct declaration read as a schema; version ranges as in Size *)
Definition BatchIndexAndErrorMessage0_schema : fields :=
  FCons "BatchIndex" (From 8) TInt32
  (FCons "BatchIndexErrorMessage" (From 8) TString FNil).
Definition BatchIndexAndErrorMessage0_to (t : BatchIndexAndErrorMessage0) : dens BatchIndexAndErrorMessage0_schema := (BatchIndexAndErrorMessage0_BatchIndex t, (BatchIndexAndErrorMessage0_BatchIndexErrorMessage t, tt)).
Definition BatchIndexAndErrorMessage0_of (x : dens BatchIndexAndErrorMessage0_schema) : BatchIndexAndErrorMessage0 := mkBatchIndexAndErrorMessage0 (fst x) (fst (snd x)).
Definition BatchIndexAndErrorMessage0_codec : codec := Codec BatchIndexAndErrorMessage0 BatchIndexAndErrorMessage0_zero BatchIndexAndErrorMessage0_Size BatchIndexAndErrorMessage0_Encode BatchIndexAndErrorMessage0_Decode BatchIndexAndErrorMessage0_schema BatchIndexAndErrorMessage0_to BatchIndexAndErrorMessage0_of.
Lemma BatchIndexAndErrorMessage0_linked : linked BatchIndexAndErrorMessage0_codec.
Proof.
  apply Linked; cbn [BatchIndexAndErrorMessage0_codec c_type c_zero c_size c_encode c_decode c_schema c_to c_of].
  - intros t. destruct t. cbv [BatchIndexAndErrorMessage0_of BatchIndexAndErrorMessage0_to]. cbn [fst snd BatchIndexAndErrorMessage0_BatchIndex BatchIndexAndErrorMessage0_BatchIndexErrorMessage].  reflexivity.
  - intros x. unfold BatchIndexAndErrorMessage0_schema in x. cbn [dens den] in x. destruct x as [x0 x]. destruct x as [x1 x]. destruct x. cbv [BatchIndexAndErrorMessage0_of BatchIndexAndErrorMessage0_to]. cbn [fst snd BatchIndexAndErrorMessage0_BatchIndex BatchIndexAndErrorMessage0_BatchIndexErrorMessage].  reflexivity.
  - reflexivity.
  - intros v t. unfold BatchIndexAndErrorMessage0_Size, BatchIndexAndErrorMessage0_schema, BatchIndexAndErrorMessage0_to. apply size_start.
    apply size_step; [intros sz; reflexivity|].
    apply size_step; [intros sz; reflexivity|].
    intros sz; reflexivity.
  - intros v t. unfold BatchIndexAndErrorMessage0_Encode, BatchIndexAndErrorMessage0_schema, BatchIndexAndErrorMessage0_to.
    apply enc_step; [intros e; reflexivity|].
    apply enc_step; [intros e; reflexivity|].
    intros e; reflexivity.
  - intros v t. unfold BatchIndexAndErrorMessage0_Decode, BatchIndexAndErrorMessage0_schema, BatchIndexAndErrorMessage0_to.
    dec_field (fun x : Z => x); [apply dec_if_link; [apply dmap_id|reflexivity]|intros x_BatchIndex].
    dec_field (fun x : gostring => x); [apply dec_if_link; [apply dmap_id|reflexivity]|intros x_BatchIndexErrorMessage].
    intros d; reflexivity.
Qed.
Local Opaque BatchIndexAndErrorMessage0_Size BatchIndexAndErrorMessage0_Encode BatchIndexAndErrorMessage0_Decode.

(** ** PartitionProduceResponse0 *)

(** message/messages.gen.go:284-292 *)
Record PartitionProduceResponse0 : Type := mkPartitionProduceResponse0 { PartitionProduceResponse0_PartitionIndex : Z; PartitionProduceResponse0_ErrorCode : Z; PartitionProduceResponse0_BaseOffset : Z; PartitionProduceResponse0_LogAppendTimeMs : Z; PartitionProduceResponse0_LogStartOffset : Z; PartitionProduceResponse0_RecordErrors : gslice BatchIndexAndErrorMessage0; PartitionProduceResponse0_ErrorMessage : gostring }.
(** the zero value ([var item PartitionProduceResponse0]) *)
Definition PartitionProduceResponse0_zero : PartitionProduceResponse0 := mkPartitionProduceResponse0 0 0 0 0 0 None [].
(** message/messages.gen.go:295-316 *)
Definition PartitionProduceResponse0_Size (version : Z) (t : PartitionProduceResponse0) : Z :=
  ((size_add sz_Int32) +>
   (size_add sz_Int16) +>
   (size_add sz_Int64) +>
   size_if (2 <=? version) (size_add sz_Int64) +>
   size_if (5 <=? version) (size_add sz_Int64) +>
   size_if (8 <=? version) (size_loop (BatchIndexAndErrorMessage0_Size version) (PartitionProduceResponse0_RecordErrors t)) +>
   size_if (8 <=? version) (size_add (sz_String (PartitionProduceResponse0_ErrorMessage t))) +>
   size_done)%size 0.
(** message/messages.gen.go:319-340 *)
Definition PartitionProduceResponse0_Encode (version : Z) (t : PartitionProduceResponse0) : Encoder -> Encoder :=
  ((PutInt32 (PartitionProduceResponse0_PartitionIndex t)) >>
   (PutInt16 (PartitionProduceResponse0_ErrorCode t)) >>
   (PutInt64 (PartitionProduceResponse0_BaseOffset t)) >>
   put_if (2 <=? version) (PutInt64 (PartitionProduceResponse0_LogAppendTimeMs t)) >>
   put_if (5 <=? version) (PutInt64 (PartitionProduceResponse0_LogStartOffset t)) >>
   put_if (8 <=? version) (put_array (BatchIndexAndErrorMessage0_Encode version) (PartitionProduceResponse0_RecordErrors t)) >>
   put_if (8 <=? version) (PutString (PartitionProduceResponse0_ErrorMessage t)) >>
   skip)%enc.
(** message/messages.gen.go:343-391 *)
Definition PartitionProduceResponse0_Decode (version : Z) (t : PartitionProduceResponse0) : Dec PartitionProduceResponse0 :=
  x_PartitionIndex <- dInt32 ;;
  x_ErrorCode <- dInt16 ;;
  x_BaseOffset <- dInt64 ;;
  x_LogAppendTimeMs <- dec_if (2 <=? version) dInt64 (PartitionProduceResponse0_LogAppendTimeMs t) ;;
  x_LogStartOffset <- dec_if (5 <=? version) dInt64 (PartitionProduceResponse0_LogStartOffset t) ;;
  x_RecordErrors <- dec_if (8 <=? version) (dec_array (BatchIndexAndErrorMessage0_Decode version BatchIndexAndErrorMessage0_zero) (PartitionProduceResponse0_RecordErrors t)) (PartitionProduceResponse0_RecordErrors t) ;;
  x_ErrorMessage <- dec_if (8 <=? version) dString (PartitionProduceResponse0_ErrorMessage t) ;;
  ret (mkPartitionProduceResponse0 x_PartitionIndex x_ErrorCode x_BaseOffset x_LogAppendTimeMs x_LogStartOffset x_RecordErrors x_ErrorMessage).
(** the struct declaration read as a schema; version ranges as in Size *)
Definition PartitionProduceResponse0_schema : fields :=
  FCons "PartitionIndex" Always TInt32
  (FCons "ErrorCode" Always TInt16
  (FCons "BaseOffset" Always TInt64
  (FCons "LogAppendTimeMs" (From 2) TInt64
  (FCons "LogStartOffset" (From 5) TInt64
  (FCons "RecordErrors" (From 8) (TArray BatchIndexAndErrorMessage0_schema)
  (FCons "ErrorMessage" (From 8) TString FNil)))))).
Definition PartitionProduceResponse0_to (t : PartitionProduceResponse0) : dens PartitionProduceResponse0_schema := (PartitionProduceResponse0_PartitionIndex t, (PartitionProduceResponse0_ErrorCode t, (PartitionProduceResponse0_BaseOffset t, (PartitionProduceResponse0_LogAppendTimeMs t, (PartitionProduceResponse0_LogStartOffset t, (option_map (map BatchIndexAndErrorMessage0_to) (PartitionProduceResponse0_RecordErrors t), (PartitionProduceResponse0_ErrorMessage t, tt))))))).
Definition PartitionProduceResponse0_of (x : dens PartitionProduceResponse0_schema) : PartitionProduceResponse0 := mkPartitionProduceResponse0 (fst x) (fst (snd x)) (fst (snd (snd x))) (fst (snd (snd (snd x)))) (fst (snd (snd (snd (snd x))))) (option_map (map BatchIndexAndErrorMessage0_of) (fst (snd (snd (snd (snd (snd x))))))) (fst (snd (snd (snd (snd (snd (snd x))))))).
Definition PartitionProduceResponse0_codec : codec := Codec PartitionProduceResponse0 PartitionProduceResponse0_zero PartitionProduceResponse0_Size PartitionProduceResponse0_Encode PartitionProduceResponse0_Decode PartitionProduceResponse0_schema PartitionProduceResponse0_to PartitionProduceResponse0_of.
Lemma PartitionProduceResponse0_linked : linked PartitionProduceResponse0_codec.
Proof.
  apply Linked; cbn [PartitionProduceResponse0_codec c_type c_zero c_size c_encode c_decode c_schema c_to c_of].
  - intros t. destruct t. cbv [PartitionProduceResponse0_of PartitionProduceResponse0_to]. cbn [fst snd PartitionProduceResponse0_PartitionIndex PartitionProduceResponse0_ErrorCode PartitionProduceResponse0_BaseOffset PartitionProduceResponse0_LogAppendTimeMs PartitionProduceResponse0_LogStartOffset PartitionProduceResponse0_RecordErrors PartitionProduceResponse0_ErrorMessage]. rewrite ?(option_map_map_inv BatchIndexAndErrorMessage0_to BatchIndexAndErrorMessage0_of _ (l_of_to _ BatchIndexAndErrorMessage0_linked)). reflexivity.
  - intros x. unfold PartitionProduceResponse0_schema in x. cbn [dens den] in x. destruct x as [x0 x]. destruct x as [x1 x]. destruct x as [x2 x]. destruct x as [x3 x]. destruct x as [x4 x]. destruct x as [x5 x]. destruct x as [x6 x]. destruct x. cbv [PartitionProduceResponse0_of PartitionProduceResponse0_to]. cbn [fst snd PartitionProduceResponse0_PartitionIndex PartitionProduceResponse0_ErrorCode PartitionProduceResponse0_BaseOffset PartitionProduceResponse0_LogAppendTimeMs PartitionProduceResponse0_LogStartOffset PartitionProduceResponse0_RecordErrors PartitionProduceResponse0_ErrorMessage]. rewrite ?(option_map_map_inv BatchIndexAndErrorMessage0_of BatchIndexAndErrorMessage0_to _ (l_to_of _ BatchIndexAndErrorMessage0_linked)). reflexivity.
  - reflexivity.
  - intros v t. unfold PartitionProduceResponse0_Size, PartitionProduceResponse0_schema, PartitionProduceResponse0_to. apply size_start.
    apply size_step; [intros sz; reflexivity|].
    apply size_step; [intros sz; reflexivity|].
    apply size_step; [intros sz; reflexivity|].
    apply size_step; [intros sz; reflexivity|].
    apply size_step; [intros sz; reflexivity|].
    apply size_step; [intros sz; apply (size_field_link (BatchIndexAndErrorMessage0_Size v) BatchIndexAndErrorMessage0_schema BatchIndexAndErrorMessage0_to v (l_size _ BatchIndexAndErrorMessage0_linked v) _)|].
    apply size_step; [intros sz; reflexivity|].
    intros sz; reflexivity.
  - intros v t. unfold PartitionProduceResponse0_Encode, PartitionProduceResponse0_schema, PartitionProduceResponse0_to.
    apply enc_step; [intros e; reflexivity|].
    apply enc_step; [intros e; reflexivity|].
    apply enc_step; [intros e; reflexivity|].
    apply enc_step; [intros e; reflexivity|].
    apply enc_step; [intros e; reflexivity|].
    apply enc_step; [intros e; apply (put_field_link (BatchIndexAndErrorMessage0_Encode v) BatchIndexAndErrorMessage0_schema BatchIndexAndErrorMessage0_to v (l_encode _ BatchIndexAndErrorMessage0_linked v) _)|].
    apply enc_step; [intros e; reflexivity|].
    intros e; reflexivity.
  - intros v t. unfold PartitionProduceResponse0_Decode, PartitionProduceResponse0_schema, PartitionProduceResponse0_to.
    dec_field (fun x : Z => x); [apply dmap_id|intros x_PartitionIndex].
    dec_field (fun x : Z => x); [apply dmap_id|intros x_ErrorCode].
    dec_field (fun x : Z => x); [apply dmap_id|intros x_BaseOffset].
    dec_field (fun x : Z => x); [apply dec_if_link; [apply dmap_id|reflexivity]|intros x_LogAppendTimeMs].
    dec_field (fun x : Z => x); [apply dec_if_link; [apply dmap_id|reflexivity]|intros x_LogStartOffset].
    dec_field (option_map (map BatchIndexAndErrorMessage0_of)); [apply dec_if_link; [apply (dec_array_link _ _ BatchIndexAndErrorMessage0_of BatchIndexAndErrorMessage0_to (l_decode _ BatchIndexAndErrorMessage0_linked v BatchIndexAndErrorMessage0_zero) (l_of_to _ BatchIndexAndErrorMessage0_linked))|symmetry; apply (option_map_map_inv BatchIndexAndErrorMessage0_to BatchIndexAndErrorMessage0_of _ (l_of_to _ BatchIndexAndErrorMessage0_linked))]|intros x_RecordErrors].
    dec_field (fun x : gostring => x); [apply dec_if_link; [apply dmap_id|reflexivity]|intros x_ErrorMessage].
    intros d; reflexivity.
Qed.
Local Opaque PartitionProduceResponse0_Size PartitionProduceResponse0_Encode PartitionProduceResponse0_Decode.

(** ** TopicProduceResponse0 *)

(** message/messages.gen.go:234-237 *)
Record TopicProduceResponse0 : Type := mkTopicProduceResponse0 { TopicProduceResponse0_Name : gostring; TopicProduceResponse0_Partitions : gslice PartitionProduceResponse0 }.
(** the zero value ([var item TopicProduceResponse0]) *)
Definition TopicProduceResponse0_zero : TopicProduceResponse0 := mkTopicProduceResponse0 [] None.
(** message/messages.gen.go:240-248 *)
Definition TopicProduceResponse0_Size (version : Z) (t : TopicProduceResponse0) : Z :=
  ((size_add (sz_String (TopicProduceResponse0_Name t))) +>
   (size_loop (PartitionProduceResponse0_Size version) (TopicProduceResponse0_Partitions t)) +>
   size_done)%size 0.
(** message/messages.gen.go:251-259 *)
Definition TopicProduceResponse0_Encode (version : Z) (t : TopicProduceResponse0) : Encoder -> Encoder :=
  ((PutString (TopicProduceResponse0_Name t)) >>
   (put_array (PartitionProduceResponse0_Encode version) (TopicProduceResponse0_Partitions t)) >>
   skip)%enc.
(** message/messages.gen.go:262-282 *)
Definition TopicProduceResponse0_Decode (version : Z) (t : TopicProduceResponse0) : Dec TopicProduceResponse0 :=
  x_Name <- dString ;;
  x_Partitions <- (dec_array (PartitionProduceResponse0_Decode version PartitionProduceResponse0_zero) (TopicProduceResponse0_Partitions t)) ;;
  ret (mkTopicProduceResponse0 x_Name x_Partitions).
(** the struct declaration read as a schema; version ranges as in Size *)
Definition TopicProduceResponse0_schema : fields :=
  FCons "Name" Always TString
  (FCons "Partitions" Always (TArray PartitionProduceResponse0_schema) FNil).
Definition TopicProduceResponse0_to (t : TopicProduceResponse0) : dens TopicProduceResponse0_schema := (TopicProduceResponse0_Name t, (option_map (map PartitionProduceResponse0_to) (TopicProduceResponse0_Partitions t), tt)).
Definition TopicProduceResponse0_of (x : dens TopicProduceResponse0_schema) : TopicProduceResponse0 := mkTopicProduceResponse0 (fst x) (option_map (map PartitionProduceResponse0_of) (fst (snd x))).
Definition TopicProduceResponse0_codec : codec := Codec TopicProduceResponse0 TopicProduceResponse0_zero TopicProduceResponse0_Size TopicProduceResponse0_Encode TopicProduceResponse0_Decode TopicProduceResponse0_schema TopicProduceResponse0_to TopicProduceResponse0_of.
Lemma TopicProduceResponse0_linked : linked TopicProduceResponse0_codec.
Proof.
  apply Linked; cbn [TopicProduceResponse0_codec c_type c_zero c_size c_encode c_decode c_schema c_to c_of].
  - intros t. destruct t. cbv [TopicProduceResponse0_of TopicProduceResponse0_to]. cbn [fst snd TopicProduceResponse0_Name TopicProduceResponse0_Partitions]. rewrite ?(option_map_map_inv PartitionProduceResponse0_to PartitionProduceResponse0_of _ (l_of_to _ PartitionProduceResponse0_linked)). reflexivity.
  - intros x. unfold TopicProduceResponse0_schema in x. cbn [dens den] in x. destruct x as [x0 x]. destruct x as [x1 x]. destruct x. cbv [TopicProduceResponse0_of TopicProduceResponse0_to]. cbn [fst snd TopicProduceResponse0_Name TopicProduceResponse0_Partitions]. rewrite ?(option_map_map_inv PartitionProduceResponse0_of PartitionProduceResponse0_to _ (l_to_of _ PartitionProduceResponse0_linked)). reflexivity.
  - reflexivity.
  - intros v t. unfold TopicProduceResponse0_Size, TopicProduceResponse0_schema, TopicProduceResponse0_to. apply size_start.
    apply size_step; [intros sz; reflexivity|].
    apply size_step; [intros sz; apply (size_field_link (PartitionProduceResponse0_Size v) PartitionProduceResponse0_schema PartitionProduceResponse0_to v (l_size _ PartitionProduceResponse0_linked v) true)|].
    intros sz; reflexivity.
  - intros v t. unfold TopicProduceResponse0_Encode, TopicProduceResponse0_schema, TopicProduceResponse0_to.
    apply enc_step; [intros e; reflexivity|].
    apply enc_step; [intros e; apply (put_field_link (PartitionProduceResponse0_Encode v) PartitionProduceResponse0_schema PartitionProduceResponse0_to v (l_encode _ PartitionProduceResponse0_linked v) true)|].
    intros e; reflexivity.
  - intros v t. unfold TopicProduceResponse0_Decode, TopicProduceResponse0_schema, TopicProduceResponse0_to.
    dec_field (fun x : gostring => x); [apply dmap_id|intros x_Name].
    dec_field (option_map (map PartitionProduceResponse0_of)); [apply (dec_array_link _ _ PartitionProduceResponse0_of PartitionProduceResponse0_to (l_decode _ PartitionProduceResponse0_linked v PartitionProduceResponse0_zero) (l_of_to _ PartitionProduceResponse0_linked))|intros x_Partitions].
    intros d; reflexivity.
Qed.
Local Opaque TopicProduceResponse0_Size TopicProduceResponse0_Encode TopicProduceResponse0_Decode.

(** ** ProduceResponse *)

(** message/messages.gen.go:178-181 *)
Record ProduceResponse : Type := mkProduceResponse { ProduceResponse_Responses : gslice TopicProduceResponse0; ProduceResponse_ThrottleTimeMs : Z }.
(** the zero value ([var item ProduceResponse]) *)
Definition ProduceResponse_zero : ProduceResponse := mkProduceResponse None 0.
(** message/messages.gen.go:184-194 *)
Definition ProduceResponse_Size (version : Z) (t : ProduceResponse) : Z :=
  ((size_loop (TopicProduceResponse0_Size version) (ProduceResponse_Responses t)) +>
   size_if (1 <=? version) (size_add sz_Int32) +>
   size_done)%size 0.
(** message/messages.gen.go:197-207 *)
Definition ProduceResponse_Encode (version : Z) (t : ProduceResponse) : Encoder -> Encoder :=
  ((put_array (TopicProduceResponse0_Encode version) (ProduceResponse_Responses t)) >>
   put_if (1 <=? version) (PutInt32 (ProduceResponse_ThrottleTimeMs t)) >>
   skip)%enc.
(** message/messages.gen.go:210-232 *)
Definition ProduceResponse_Decode (version : Z) (t : ProduceResponse) : Dec ProduceResponse :=
  x_Responses <- (dec_array (TopicProduceResponse0_Decode version TopicProduceResponse0_zero) (ProduceResponse_Responses t)) ;;
  x_ThrottleTimeMs <- dec_if (1 <=? version) dInt32 (ProduceResponse_ThrottleTimeMs t) ;;
  ret (mkProduceResponse x_Responses x_ThrottleTimeMs).
(** the struct declaration read as a schema; version ranges as in Size *)
Definition ProduceResponse_schema : fields :=
  FCons "Responses" Always (TArray TopicProduceResponse0_schema)
  (FCons "ThrottleTimeMs" (From 1) TInt32 FNil).
Definition ProduceResponse_to (t : ProduceResponse) : dens ProduceResponse_schema := (option_map (map TopicProduceResponse0_to) (ProduceResponse_Responses t), (ProduceResponse_ThrottleTimeMs t, tt)).
Definition ProduceResponse_of (x : dens ProduceResponse_schema) : ProduceResponse := mkProduceResponse (option_map (map TopicProduceResponse0_of) (fst x)) (fst (snd x)).
Definition ProduceResponse_codec : codec := Codec ProduceResponse ProduceResponse_zero ProduceResponse_Size ProduceResponse_Encode ProduceResponse_Decode ProduceResponse_schema ProduceResponse_to ProduceResponse_of.
Lemma ProduceResponse_linked : linked ProduceResponse_codec.
Proof.
  apply Linked; cbn [ProduceResponse_codec c_type c_zero c_size c_encode c_decode c_schema c_to c_of].
  - intros t. destruct t. cbv [ProduceResponse_of ProduceResponse_to]. cbn [fst snd ProduceResponse_Responses ProduceResponse_ThrottleTimeMs]. rewrite ?(option_map_map_inv TopicProduceResponse0_to TopicProduceResponse0_of _ (l_of_to _ TopicProduceResponse0_linked)). reflexivity.
  - intros x. unfold ProduceResponse_schema in x. cbn [dens den] in x. destruct x as [x0 x]. destruct x as [x1 x]. destruct x. cbv [ProduceResponse_of ProduceResponse_to]. cbn [fst snd ProduceResponse_Responses ProduceResponse_ThrottleTimeMs]. rewrite ?(option_map_map_inv TopicProduceResponse0_of TopicProduceResponse0_to _ (l_to_of _ TopicProduceResponse0_linked)). reflexivity.
  - reflexivity.
  - intros v t. unfold ProduceResponse_Size, ProduceResponse_schema, ProduceResponse_to. apply size_start.
    apply size_step; [intros sz; apply (size_field_link (TopicProduceResponse0_Size v) TopicProduceResponse0_schema TopicProduceResponse0_to v (l_size _ TopicProduceResponse0_linked v) true)|].
    apply size_step; [intros sz; reflexivity|].
    intros sz; reflexivity.
  - intros v t. unfold ProduceResponse_Encode, ProduceResponse_schema, ProduceResponse_to.
    apply enc_step; [intros e; apply (put_field_link (TopicProduceResponse0_Encode v) TopicProduceResponse0_schema TopicProduceResponse0_to v (l_encode _ TopicProduceResponse0_linked v) true)|].
    apply enc_step; [intros e; reflexivity|].
    intros e; reflexivity.
  - intros v t. unfold ProduceResponse_Decode, ProduceResponse_schema, ProduceResponse_to.
    dec_field (option_map (map TopicProduceResponse0_of)); [apply (dec_array_link _ _ TopicProduceResponse0_of TopicProduceResponse0_to (l_decode _ TopicProduceResponse0_linked v TopicProduceResponse0_zero) (l_of_to _ TopicProduceResponse0_linked))|intros x_Responses].
    dec_field (fun x : Z => x); [apply dec_if_link; [apply dmap_id|reflexivity]|intros x_ThrottleTimeMs].
    intros d; reflexivity.
Qed.
Local Opaque ProduceResponse_Size ProduceResponse_Encode ProduceResponse_Decode.

(** ** RequestHeader *)

(** message/messages.gen.go:439-444 *)
Record RequestHeader : Type := mkRequestHeader { RequestHeader_RequestApiKey : Z; RequestHeader_RequestApiVersion : Z; RequestHeader_CorrelationId : Z; RequestHeader_ClientId : gostring }.
(** the zero value ([var item RequestHeader]) *)
Definition RequestHeader_zero : RequestHeader := mkRequestHeader 0 0 0 [].
(** message/messages.gen.go:447-456 *)
Definition RequestHeader_Size (version : Z) (t : RequestHeader) : Z :=
  ((size_add sz_Int16) +>
   (size_add sz_Int16) +>
   (size_add sz_Int32) +>
   size_if (1 <=? version) (size_add (sz_String (RequestHeader_ClientId t))) +>
   size_done)%size 0.
(** message/messages.gen.go:459-466 *)
Definition RequestHeader_Encode (version : Z) (t : RequestHeader) : Encoder -> Encoder :=
  ((PutInt16 (RequestHeader_RequestApiKey t)) >>
   (PutInt16 (RequestHeader_RequestApiVersion t)) >>
   (PutInt32 (RequestHeader_CorrelationId t)) >>
   put_if (1 <=? version) (PutString (RequestHeader_ClientId t)) >>
   skip)%enc.
(** message/messages.gen.go:469-490 *)
Definition RequestHeader_Decode (version : Z) (t : RequestHeader) : Dec RequestHeader :=
  x_RequestApiKey <- dInt16 ;;
  x_RequestApiVersion <- dInt16 ;;
  x_CorrelationId <- dInt32 ;;
  x_ClientId <- dec_if (1 <=? version) dString (RequestHeader_ClientId t) ;;
  ret (mkRequestHeader x_RequestApiKey x_RequestApiVersion x_CorrelationId x_ClientId).
(** the struct declaration read as a schema; version ranges as in Size *)
Definition RequestHeader_schema : fields :=
  FCons "RequestApiKey" Always TInt16
  (FCons "RequestApiVersion" Always TInt16
  (FCons "CorrelationId" Always TInt32
  (FCons "ClientId" (From 1) TString FNil))).
Definition RequestHeader_to (t : RequestHeader) : dens RequestHeader_schema := (RequestHeader_RequestApiKey t, (RequestHeader_RequestApiVersion t, (RequestHeader_CorrelationId t, (RequestHeader_ClientId t, tt)))).
Definition RequestHeader_of (x : dens RequestHeader_schema) : RequestHeader := mkRequestHeader (fst x) (fst (snd x)) (fst (snd (snd x))) (fst (snd (snd (snd x)))).
Definition RequestHeader_codec : codec := Codec RequestHeader RequestHeader_zero RequestHeader_Size RequestHeader_Encode RequestHeader_Decode RequestHeader_schema RequestHeader_to RequestHeader_of.
Lemma RequestHeader_linked : linked RequestHeader_codec.
Proof.
  apply Linked; cbn [RequestHeader_codec c_type c_zero c_size c_encode c_decode c_schema c_to c_of].
  - intros t. destruct t. cbv [RequestHeader_of RequestHeader_to]. cbn [fst snd RequestHeader_RequestApiKey RequestHeader_RequestApiVersion RequestHeader_CorrelationId RequestHeader_ClientId].  reflexivity.
  - intros x. unfold RequestHeader_schema in x. cbn [dens den] in x. destruct x as [x0 x]. destruct x as [x1 x]. destruct x as [x2 x]. destruct x as [x3 x]. destruct x. cbv [RequestHeader_of RequestHeader_to]. cbn [fst snd RequestHeader_RequestApiKey RequestHeader_RequestApiVersion RequestHeader_CorrelationId RequestHeader_ClientId].  reflexivity.
  - reflexivity.
  - intros v t. unfold RequestHeader_Size, RequestHeader_schema, RequestHeader_to. apply size_start.
    apply size_step; [intros sz; reflexivity|].
    apply size_step; [intros sz; reflexivity|].
    apply size_step; [intros sz; reflexivity|].
    apply size_step; [intros sz; reflexivity|].
    intros sz; reflexivity.
  - intros v t. unfold RequestHeader_Encode, RequestHeader_schema, RequestHeader_to.
    apply enc_step; [intros e; reflexivity|].
    apply enc_step; [intros e; reflexivity|].
    apply enc_step; [intros e; reflexivity|].
    apply enc_step; [intros e; reflexivity|].
    intros e; reflexivity.
  - intros v t. unfold RequestHeader_Decode, RequestHeader_schema, RequestHeader_to.
    dec_field (fun x : Z => x); [apply dmap_id|intros x_RequestApiKey].
    dec_field (fun x : Z => x); [apply dmap_id|intros x_RequestApiVersion].
    dec_field (fun x : Z => x); [apply dmap_id|intros x_CorrelationId].
    dec_field (fun x : gostring => x); [apply dec_if_link; [apply dmap_id|reflexivity]|intros x_ClientId].
    intros d; reflexivity.
Qed.
Local Opaque RequestHeader_Size RequestHeader_Encode RequestHeader_Decode.

(** ** ResponseHeader *)

(** message/messages.gen.go:493-495 *)
Record ResponseHeader : Type := mkResponseHeader { ResponseHeader_CorrelationId : Z }.
(** the zero value ([var item ResponseHeader]) *)
Definition ResponseHeader_zero : ResponseHeader := mkResponseHeader 0.
(** message/messages.gen.go:498-502 *)
Definition ResponseHeader_Size (version : Z) (t : ResponseHeader) : Z :=
  ((size_add sz_Int32) +>
   size_done)%size 0.
(** message/messages.gen.go:505-507 *)
Definition ResponseHeader_Encode (version : Z) (t : ResponseHeader) : Encoder -> Encoder :=
  ((PutInt32 (ResponseHeader_CorrelationId t)) >>
   skip)%enc.
(** message/messages.gen.go:510-517 *)
Definition ResponseHeader_Decode (version : Z) (t : ResponseHeader) : Dec ResponseHeader :=
  x_CorrelationId <- dInt32 ;;
  ret (mkResponseHeader x_CorrelationId).
(** the struct declaration read as a schema; version ranges as in Size *)
Definition ResponseHeader_schema : fields :=
  FCons "CorrelationId" Always TInt32 FNil.
Definition ResponseHeader_to (t : ResponseHeader) : dens ResponseHeader_schema := (ResponseHeader_CorrelationId t, tt).
Definition ResponseHeader_of (x : dens ResponseHeader_schema) : ResponseHeader := mkResponseHeader (fst x).
Definition ResponseHeader_codec : codec := Codec ResponseHeader ResponseHeader_zero ResponseHeader_Size ResponseHeader_Encode ResponseHeader_Decode ResponseHeader_schema ResponseHeader_to ResponseHeader_of.
Lemma ResponseHeader_linked : linked ResponseHeader_codec.
Proof.
  apply Linked; cbn [ResponseHeader_codec c_type c_zero c_size c_encode c_decode c_schema c_to c_of].
  - intros t. destruct t. cbv [ResponseHeader_of ResponseHeader_to]. cbn [fst snd ResponseHeader_CorrelationId].  reflexivity.
  - intros x. unfold ResponseHeader_schema in x. cbn [dens den] in x. destruct x as [x0 x]. destruct x. cbv [ResponseHeader_of ResponseHeader_to]. cbn [fst snd ResponseHeader_CorrelationId].  reflexivity.
  - reflexivity.
  - intros v t. unfold ResponseHeader_Size, ResponseHeader_schema, ResponseHeader_to. apply size_start.
    apply size_step; [intros sz; reflexivity|].
    intros sz; reflexivity.
  - intros v t. unfold ResponseHeader_Encode, ResponseHeader_schema, ResponseHeader_to.
    apply enc_step; [intros e; reflexivity|].
    intros e; reflexivity.
  - intros v t. unfold ResponseHeader_Decode, ResponseHeader_schema, ResponseHeader_to.
    dec_field (fun x : Z => x); [apply dmap_id|intros x_CorrelationId].
    intros d; reflexivity.
Qed.
Local Opaque ResponseHeader_Size ResponseHeader_Encode ResponseHeader_Decode.

(** ** FetchPartition1 *)

(** message/messages.gen.go:729-735 *)
Record FetchPartition1 : Type := mkFetchPartition1 { FetchPartition1_PartitionIndex : Z; FetchPartition1_CurrentLeaderEpoch : Z; FetchPartition1_FetchOffset : Z; FetchPartition1_LogStartOffset : Z; FetchPartition1_MaxBytes : Z }.
(** the zero value ([var item FetchPartition1]) *)
Definition FetchPartition1_zero : FetchPartition1 := mkFetchPartition1 0 0 0 0 0.
(** message/messages.gen.go:738-750 *)
Definition FetchPartition1_Size (version : Z) (t : FetchPartition1) : Z :=
  ((size_add sz_Int32) +>
   size_if (9 <=? version) (size_add sz_Int32) +>
   (size_add sz_Int64) +>
   size_if (5 <=? version) (size_add sz_Int64) +>
   (size_add sz_Int32) +>
   size_done)%size 0.
(** message/messages.gen.go:753-763 *)
Definition FetchPartition1_Encode (version : Z) (t : FetchPartition1) : Encoder -> Encoder :=
  ((PutInt32 (FetchPartition1_PartitionIndex t)) >>
   put_if (9 <=? version) (PutInt32 (FetchPartition1_CurrentLeaderEpoch t)) >>
   (PutInt64 (FetchPartition1_FetchOffset t)) >>
   put_if (5 <=? version) (PutInt64 (FetchPartition1_LogStartOffset t)) >>
   (PutInt32 (FetchPartition1_MaxBytes t)) >>
   skip)%enc.
(** message/messages.gen.go:766-793 *)
Definition FetchPartition1_Decode (version : Z) (t : FetchPartition1) : Dec FetchPartition1 :=
  x_PartitionIndex <- dInt32 ;;
  x_CurrentLeaderEpoch <- dec_if (9 <=? version) dInt32 (FetchPartition1_CurrentLeaderEpoch t) ;;
  x_FetchOffset <- dInt64 ;;
  x_LogStartOffset <- dec_if (5 <=? version) dInt64 (FetchPartition1_LogStartOffset t) ;;
  x_MaxBytes <- dInt32 ;;
  ret (mkFetchPartition1 x_PartitionIndex x_CurrentLeaderEpoch x_FetchOffset x_LogStartOffset x_MaxBytes).
(** the struct declaration read as a schema; version ranges as in Size *)
Definition FetchPartition1_schema : fields :=
  FCons "PartitionIndex" Always TInt32
  (FCons "CurrentLeaderEpoch" (From 9) TInt32
  (FCons "FetchOffset" Always TInt64
  (FCons "LogStartOffset" (From 5) TInt64
  (FCons "MaxBytes" Always TInt32 FNil)))).
Definition FetchPartition1_to (t : FetchPartition1) : dens FetchPartition1_schema := (FetchPartition1_PartitionIndex t, (FetchPartition1_CurrentLeaderEpoch t, (FetchPartition1_FetchOffset t, (FetchPartition1_LogStartOffset t, (FetchPartition1_MaxBytes t, tt))))).
Definition FetchPartition1_of (x : dens FetchPartition1_schema) : FetchPartition1 := mkFetchPartition1 (fst x) (fst (snd x)) (fst (snd (snd x))) (fst (snd (snd (snd x)))) (fst (snd (snd (snd (snd x))))).
Definition FetchPartition1_codec : codec := Codec FetchPartition1 FetchPartition1_zero FetchPartition1_Size FetchPartition1_Encode FetchPartition1_Decode FetchPartition1_schema FetchPartition1_to FetchPartition1_of.
Lemma FetchPartition1_linked : linked FetchPartition1_codec.
Proof.
  apply Linked; cbn [FetchPartition1_codec c_type c_zero c_size c_encode c_decode c_schema c_to c_of].
  - intros t. destruct t. cbv [FetchPartition1_of FetchPartition1_to]. cbn [fst snd FetchPartition1_PartitionIndex FetchPartition1_CurrentLeaderEpoch FetchPartition1_FetchOffset FetchPartition1_LogStartOffset FetchPartition1_MaxBytes].  reflexivity.
  - intros x. unfold FetchPartition1_schema in x. cbn [dens den] in x. destruct x as [x0 x]. destruct x as [x1 x]. destruct x as [x2 x]. destruct x as [x3 x]. destruct x as [x4 x]. destruct x. cbv [FetchPartition1_of FetchPartition1_to]. cbn [fst snd FetchPartition1_PartitionIndex FetchPartition1_CurrentLeaderEpoch FetchPartition1_FetchOffset FetchPartition1_LogStartOffset FetchPartition1_MaxBytes].  reflexivity.
  - reflexivity.
  - intros v t. unfold FetchPartition1_Size, FetchPartition1_schema, FetchPartition1_to. apply size_start.
    apply size_step; [intros sz; reflexivity|].
    apply size_step; [intros sz; reflexivity|].
    apply size_step; [intros sz; reflexivity|].
    apply size_step; [intros sz; reflexivity|].
    apply size_step; [intros sz; reflexivity|].
    intros sz; reflexivity.
  - intros v t. unfold FetchPartition1_Encode, FetchPartition1_schema, FetchPartition1_to.
    apply enc_step; [intros e; reflexivity|].
    apply enc_step; [intros e; reflexivity|].
    apply enc_step; [intros e; reflexivity|].
    apply enc_step; [intros e; reflexivity|].
    apply enc_step; [intros e; reflexivity|].
    intros e; reflexivity.
  - intros v t. unfold FetchPartition1_Decode, FetchPartition1_schema, FetchPartition1_to.
    dec_field (fun x : Z => x); [apply dmap_id|intros x_PartitionIndex].
    dec_field (fun x : Z => x); [apply dec_if_link; [apply dmap_id|reflexivity]|intros x_CurrentLeaderEpoch].
    dec_field (fun x : Z => x); [apply dmap_id|intros x_FetchOffset].
    dec_field (fun x : Z => x); [apply dec_if_link; [apply dmap_id|reflexivity]|intros x_LogStartOffset].
    dec_field (fun x : Z => x); [apply dmap_id|intros x_MaxBytes].
    intros d; reflexivity.
Qed.
Local Opaque FetchPartition1_Size FetchPartition1_Encode FetchPartition1_Decode.

(** ** FetchableTopic1 *)

(** message/messages.gen.go:679-682 *)
Record FetchableTopic1 : Type := mkFetchableTopic1 { FetchableTopic1_Name : gostring; FetchableTopic1_FetchPartitions : gslice FetchPartition1 }.
(** the zero value ([var item FetchableTopic1]) *)
Definition FetchableTopic1_zero : FetchableTopic1 := mkFetchableTopic1 [] None.
(** message/messages.gen.go:685-693 *)
Definition FetchableTopic1_Size (version : Z) (t : FetchableTopic1) : Z :=
  ((size_add (sz_String (FetchableTopic1_Name t))) +>
   (size_loop (FetchPartition1_Size version) (FetchableTopic1_FetchPartitions t)) +>
   size_done)%size 0.
(** message/messages.gen.go:696-704 *)
Definition FetchableTopic1_Encode (version : Z) (t : FetchableTopic1) : Encoder -> Encoder :=
  ((PutString (FetchableTopic1_Name t)) >>
   (put_array (FetchPartition1_Encode version) (FetchableTopic1_FetchPartitions t)) >>
   skip)%enc.
(** message/messages.gen.go:707-727 *)
Definition FetchableTopic1_Decode (version : Z) (t : FetchableTopic1) : Dec FetchableTopic1 :=
  x_Name <- dString ;;
  x_FetchPartitions <- (dec_array (FetchPartition1_Decode version FetchPartition1_zero) (FetchableTopic1_FetchPartitions t)) ;;
  ret (mkFetchableTopic1 x_Name x_FetchPartitions).
(** the struct declaration read as a schema; version ranges as in Size *)
Definition FetchableTopic1_schema : fields :=
  FCons "Name" Always TString
  (FCons "FetchPartitions" Always (TArray FetchPartition1_schema) FNil).
Definition FetchableTopic1_to (t : FetchableTopic1) : dens FetchableTopic1_schema := (FetchableTopic1_Name t, (option_map (map FetchPartition1_to) (FetchableTopic1_FetchPartitions t), tt)).
Definition FetchableTopic1_of (x : dens FetchableTopic1_schema) : FetchableTopic1 := mkFetchableTopic1 (fst x) (option_map (map FetchPartition1_of) (fst (snd x))).
Definition FetchableTopic1_codec : codec := Codec FetchableTopic1 FetchableTopic1_zero FetchableTopic1_Size FetchableTopic1_Encode FetchableTopic1_Decode FetchableTopic1_schema FetchableTopic1_to FetchableTopic1_of.
Lemma FetchableTopic1_linked : linked FetchableTopic1_codec.
Proof.
  apply Linked; cbn [FetchableTopic1_codec c_type c_zero c_size c_encode c_decode c_schema c_to c_of].
  - intros t. destruct t. cbv [FetchableTopic1_of FetchableTopic1_to]. cbn [fst snd FetchableTopic1_Name FetchableTopic1_FetchPartitions]. rewrite ?(option_map_map_inv FetchPartition1_to FetchPartition1_of _ (l_of_to _ FetchPartition1_linked)). reflexivity.
  - intros x. unfold FetchableTopic1_schema in x. cbn [dens den] in x. destruct x as [x0 x]. destruct x as [x1 x]. destruct x. cbv [FetchableTopic1_of FetchableTopic1_to]. cbn [fst snd FetchableTopic1_Name FetchableTopic1_FetchPartitions]. rewrite ?(option_map_map_inv FetchPartition1_of FetchPartition1_to _ (l_to_of _ FetchPartition1_linked)). reflexivity.
  - reflexivity.
  - intros v t. unfold FetchableTopic1_Size, FetchableTopic1_schema, FetchableTopic1_to. apply size_start.
    apply size_step; [intros sz; reflexivity|].
    apply size_step; [intros sz; apply (size_field_link (FetchPartition1_Size v) FetchPartition1_schema FetchPartition1_to v (l_size _ FetchPartition1_linked v) true)|].
    intros sz; reflexivity.
  - intros v t. unfold FetchableTopic1_Encode, FetchableTopic1_schema, FetchableTopic1_to.
    apply enc_step; [intros e; reflexivity|].
    apply enc_step; [intros e; apply (put_field_link (FetchPartition1_Encode v) FetchPartition1_schema FetchPartition1_to v (l_encode _ FetchPartition1_linked v) true)|].
    intros e; reflexivity.
  - intros v t. unfold FetchableTopic1_Decode, FetchableTopic1_schema, FetchableTopic1_to.
    dec_field (fun x : gostring => x); [apply dmap_id|intros x_Name].
    dec_field (option_map (map FetchPartition1_of)); [apply (dec_array_link _ _ FetchPartition1_of FetchPartition1_to (l_decode _ FetchPartition1_linked v FetchPartition1_zero) (l_of_to _ FetchPartition1_linked))|intros x_FetchPartitions].
    intros d; reflexivity.
Qed.
Local Opaque FetchableTopic1_Size FetchableTopic1_Encode FetchableTopic1_Decode.

(** ** ForgottenTopic1 *)

(** message/messages.gen.go:795-798 *)
Record ForgottenTopic1 : Type := mkForgottenTopic1 { ForgottenTopic1_Name : gostring; ForgottenTopic1_ForgottenPartitionIndexes : gslice Z }.
(** the zero value ([var item ForgottenTopic1]) *)
Definition ForgottenTopic1_zero : ForgottenTopic1 := mkForgottenTopic1 [] None.
(** message/messages.gen.go:801-810 *)
Definition ForgottenTopic1_Size (version : Z) (t : ForgottenTopic1) : Z :=
  (size_if (7 <=? version) (size_add (sz_String (ForgottenTopic1_Name t))) +>
   size_if (7 <=? version) (size_add (sz_Int32Array (ForgottenTopic1_ForgottenPartitionIndexes t))) +>
   size_done)%size 0.
(** message/messages.gen.go:813-820 *)
Definition ForgottenTopic1_Encode (version : Z) (t : ForgottenTopic1) : Encoder -> Encoder :=
  (put_if (7 <=? version) (PutString (ForgottenTopic1_Name t)) >>
   put_if (7 <=? version) (PutInt32Array (ForgottenTopic1_ForgottenPartitionIndexes t)) >>
   skip)%enc.
(** message/messages.gen.go:823-838 *)
Definition ForgottenTopic1_Decode (version : Z) (t : ForgottenTopic1) : Dec ForgottenTopic1 :=
  x_Name <- dec_if (7 <=? version) dString (ForgottenTopic1_Name t) ;;
  x_ForgottenPartitionIndexes <- dec_if (7 <=? version) dInt32Array (ForgottenTopic1_ForgottenPartitionIndexes t) ;;
  ret (mkForgottenTopic1 x_Name x_ForgottenPartitionIndexes).
(** the struct declaration read as a schema; version ranges as in Size *)
Definition ForgottenTopic1_schema : fields :=
  FCons "Name" (From 7) TString
  (FCons "ForgottenPartitionIndexes" (From 7) TInt32Array FNil).
Definition ForgottenTopic1_to (t : ForgottenTopic1) : dens ForgottenTopic1_schema := (ForgottenTopic1_Name t, (ForgottenTopic1_ForgottenPartitionIndexes t, tt)).
Definition ForgottenTopic1_of (x : dens ForgottenTopic1_schema) : ForgottenTopic1 := mkForgottenTopic1 (fst x) (fst (snd x)).
Definition ForgottenTopic1_codec : codec := Codec ForgottenTopic1 ForgottenTopic1_zero ForgottenTopic1_Size ForgottenTopic1_Encode ForgottenTopic1_Decode ForgottenTopic1_schema ForgottenTopic1_to ForgottenTopic1_of.
Lemma ForgottenTopic1_linked : linked ForgottenTopic1_codec.
Proof.
  apply Linked; cbn [ForgottenTopic1_codec c_type c_zero c_size c_encode c_decode c_schema c_to c_of].
  - intros t. destruct t. cbv [ForgottenTopic1_of ForgottenTopic1_to]. cbn [fst snd ForgottenTopic1_Name ForgottenTopic1_ForgottenPartitionIndexes].  reflexivity.
  - intros x. unfold ForgottenTopic1_schema in x. cbn [dens den] in x. destruct x as [x0 x]. destruct x as [x1 x]. destruct x. cbv [ForgottenTopic1_of ForgottenTopic1_to]. cbn [fst snd ForgottenTopic1_Name ForgottenTopic1_ForgottenPartitionIndexes].  reflexivity.
  - reflexivity.
  - intros v t. unfold ForgottenTopic1_Size, ForgottenTopic1_schema, ForgottenTopic1_to. apply size_start.
    apply size_step; [intros sz; reflexivity|].
    apply size_step; [intros sz; reflexivity|].
    intros sz; reflexivity.
  - intros v t. unfold ForgottenTopic1_Encode, ForgottenTopic1_schema, ForgottenTopic1_to.
    apply enc_step; [intros e; reflexivity|].
    apply enc_step; [intros e; reflexivity|].
    intros e; reflexivity.
  - intros v t. unfold ForgottenTopic1_Decode, ForgottenTopic1_schema, ForgottenTopic1_to.
    dec_field (fun x : gostring => x); [apply dec_if_link; [apply dmap_id|reflexivity]|intros x_Name].
    dec_field (fun x : gslice Z => x); [apply dec_if_link; [apply dmap_id|reflexivity]|intros x_ForgottenPartitionIndexes].
    intros d; reflexivity.
Qed.
Local Opaque ForgottenTopic1_Size ForgottenTopic1_Encode ForgottenTopic1_Decode.

(** ** FetchRequest *)

(** message/messages.gen.go:520-531 *)
Record FetchRequest : Type := mkFetchRequest { FetchRequest_ReplicaId : Z; FetchRequest_MaxWait : Z; FetchRequest_MinBytes : Z; FetchRequest_MaxBytes : Z; FetchRequest_IsolationLevel : Z; FetchRequest_SessionId : Z; FetchRequest_Epoch : Z; FetchRequest_Topics : gslice FetchableTopic1; FetchRequest_Forgotten : gslice ForgottenTopic1; FetchRequest_RackId : gostring }.
(** the zero value ([var item FetchRequest]) *)
Definition FetchRequest_zero : FetchRequest := mkFetchRequest 0 0 0 0 0 0 0 None None [].
(** message/messages.gen.go:534-565 *)
Definition FetchRequest_Size (version : Z) (t : FetchRequest) : Z :=
  ((size_add sz_Int32) +>
   (size_add sz_Int32) +>
   (size_add sz_Int32) +>
   size_if (3 <=? version) (size_add sz_Int32) +>
   size_if (4 <=? version) (size_add sz_Int8) +>
   size_if (7 <=? version) (size_add sz_Int32) +>
   size_if (7 <=? version) (size_add sz_Int32) +>
   (size_loop (FetchableTopic1_Size version) (FetchRequest_Topics t)) +>
   size_if (7 <=? version) (size_loop (ForgottenTopic1_Size version) (FetchRequest_Forgotten t)) +>
   size_if (11 <=? version) (size_add (sz_String (FetchRequest_RackId t))) +>
   size_done)%size 0.
(** message/messages.gen.go:568-601 *)
Definition FetchRequest_Encode (version : Z) (t : FetchRequest) : Encoder -> Encoder :=
  ((PutInt32 (FetchRequest_ReplicaId t)) >>
   (PutInt32 (FetchRequest_MaxWait t)) >>
   (PutInt32 (FetchRequest_MinBytes t)) >>
   put_if (3 <=? version) (PutInt32 (FetchRequest_MaxBytes t)) >>
   put_if (4 <=? version) (PutInt8 (FetchRequest_IsolationLevel t)) >>
   put_if (7 <=? version) (PutInt32 (FetchRequest_SessionId t)) >>
   put_if (7 <=? version) (PutInt32 (FetchRequest_Epoch t)) >>
   (put_array (FetchableTopic1_Encode version) (FetchRequest_Topics t)) >>
   put_if (7 <=? version) (put_array (ForgottenTopic1_Encode version) (FetchRequest_Forgotten t)) >>
   put_if (11 <=? version) (PutString (FetchRequest_RackId t)) >>
   skip)%enc.
(** message/messages.gen.go:604-677 *)
Definition FetchRequest_Decode (version : Z) (t : FetchRequest) : Dec FetchRequest :=
  x_ReplicaId <- dInt32 ;;
  x_MaxWait <- dInt32 ;;
  x_MinBytes <- dInt32 ;;
  x_MaxBytes <- dec_if (3 <=? version) dInt32 (FetchRequest_MaxBytes t) ;;
  x_IsolationLevel <- dec_if (4 <=? version) dInt8 (FetchRequest_IsolationLevel t) ;;
  x_SessionId <- dec_if (7 <=? version) dInt32 (FetchRequest_SessionId t) ;;
  x_Epoch <- dec_if (7 <=? version) dInt32 (FetchRequest_Epoch t) ;;
  x_Topics <- (dec_array (FetchableTopic1_Decode version FetchableTopic1_zero) (FetchRequest_Topics t)) ;;
  x_Forgotten <- dec_if (7 <=? version) (dec_array (ForgottenTopic1_Decode version ForgottenTopic1_zero) (FetchRequest_Forgotten t)) (FetchRequest_Forgotten t) ;;
  x_RackId <- dec_if (11 <=? version) dString (FetchRequest_RackId t) ;;
  ret (mkFetchRequest x_ReplicaId x_MaxWait x_MinBytes x_MaxBytes x_IsolationLevel x_SessionId x_Epoch x_Topics x_Forgotten x_RackId).
(** the struct declaration read as a schema; version ranges as in Size *)
Definition FetchRequest_schema : fields :=
  FCons "ReplicaId" Always TInt32
  (FCons "MaxWait" Always TInt32
  (FCons "MinBytes" Always TInt32
  (FCons "MaxBytes" (From 3) TInt32
  (FCons "IsolationLevel" (From 4) TInt8
  (FCons "SessionId" (From 7) TInt32
  (FCons "Epoch" (From 7) TInt32
  (FCons "Topics" Always (TArray FetchableTopic1_schema)
  (FCons "Forgotten" (From 7) (TArray ForgottenTopic1_schema)
  (FCons "RackId" (From 11) TString FNil))))))))).
Definition FetchRequest_to (t : FetchRequest) : dens FetchRequest_schema := (FetchRequest_ReplicaId t, (FetchRequest_MaxWait t, (FetchRequest_MinBytes t, (FetchRequest_MaxBytes t, (FetchRequest_IsolationLevel t, (FetchRequest_SessionId t, (FetchRequest_Epoch t, (option_map (map FetchableTopic1_to) (FetchRequest_Topics t), (option_map (map ForgottenTopic1_to) (FetchRequest_Forgotten t), (FetchRequest_RackId t, tt)))))))))).
Definition FetchRequest_of (x : dens FetchRequest_schema) : FetchRequest := mkFetchRequest (fst x) (fst (snd x)) (fst (snd (snd x))) (fst (snd (snd (snd x)))) (fst (snd (snd (snd (snd x))))) (fst (snd (snd (snd (snd (snd x)))))) (fst (snd (snd (snd (snd (snd (snd x))))))) (option_map (map FetchableTopic1_of) (fst (snd (snd (snd (snd (snd (snd (snd x))))))))) (option_map (map ForgottenTopic1_of) (fst (snd (snd (snd (snd (snd (snd (snd (snd x)))))))))) (fst (snd (snd (snd (snd (snd (snd (snd (snd (snd x)))))))))).
Definition FetchRequest_codec : codec := Codec FetchRequest FetchRequest_zero FetchRequest_Size FetchRequest_Encode FetchRequest_Decode FetchRequest_schema FetchRequest_to FetchRequest_of.
Lemma FetchRequest_linked : linked FetchRequest_codec.
Proof.
  apply Linked; cbn [FetchRequest_codec c_type c_zero c_size c_encode c_decode c_schema c_to c_of].
  - intros t. destruct t. cbv [FetchRequest_of FetchRequest_to]. cbn [fst snd FetchRequest_ReplicaId FetchRequest_MaxWait FetchRequest_MinBytes FetchRequest_MaxBytes FetchRequest_IsolationLevel FetchRequest_SessionId FetchRequest_Epoch FetchRequest_Topics FetchRequest_Forgotten FetchRequest_RackId]. rewrite ?(option_map_map_inv FetchableTopic1_to FetchableTopic1_of _ (l_of_to _ FetchableTopic1_linked)). rewrite ?(option_map_map_inv ForgottenTopic1_to ForgottenTopic1_of _ (l_of_to _ ForgottenTopic1_linked)). reflexivity.
  - intros x. unfold FetchRequest_schema in x. cbn [dens den] in x. destruct x as [x0 x]. destruct x as [x1 x]. destruct x as [x2 x]. destruct x as [x3 x]. destruct x as [x4 x]. destruct x as [x5 x]. destruct x as [x6 x]. destruct x as [x7 x]. destruct x as [x8 x]. destruct x as [x9 x]. destruct x. cbv [FetchRequest_of FetchRequest_to]. cbn [fst snd FetchRequest_ReplicaId FetchRequest_MaxWait FetchRequest_MinBytes FetchRequest_MaxBytes FetchRequest_IsolationLevel FetchRequest_SessionId FetchRequest_Epoch FetchRequest_Topics FetchRequest_Forgotten FetchRequest_RackId]. rewrite ?(option_map_map_inv FetchableTopic1_of FetchableTopic1_to _ (l_to_of _ FetchableTopic1_linked)). rewrite ?(option_map_map_inv ForgottenTopic1_of ForgottenTopic1_to _ (l_to_of _ ForgottenTopic1_linked)). reflexivity.
  - reflexivity.
  - intros v t. unfold FetchRequest_Size, FetchRequest_schema, FetchRequest_to. apply size_start.
    apply size_step; [intros sz; reflexivity|].
    apply size_step; [intros sz; reflexivity|].
    apply size_step; [intros sz; reflexivity|].
    apply size_step; [intros sz; reflexivity|].
    apply size_step; [intros sz; reflexivity|].
    apply size_step; [intros sz; reflexivity|].
    apply size_step; [intros sz; reflexivity|].
    apply size_step; [intros sz; apply (size_field_link (FetchableTopic1_Size v) FetchableTopic1_schema FetchableTopic1_to v (l_size _ FetchableTopic1_linked v) true)|].
    apply size_step; [intros sz; apply (size_field_link (ForgottenTopic1_Size v) ForgottenTopic1_schema ForgottenTopic1_to v (l_size _ ForgottenTopic1_linked v) _)|].
    apply size_step; [intros sz; reflexivity|].
    intros sz; reflexivity.
  - intros v t. unfold FetchRequest_Encode, FetchRequest_schema, FetchRequest_to.
    apply enc_step; [intros e; reflexivity|].
    apply enc_step; [intros e; reflexivity|].
    apply enc_step; [intros e; reflexivity|].
    apply enc_step; [intros e; reflexivity|].
    apply enc_step; [intros e; reflexivity|].
    apply enc_step; [intros e; reflexivity|].
    apply enc_step; [intros e; reflexivity|].
    apply enc_step; [intros e; apply (put_field_link (FetchableTopic1_Encode v) FetchableTopic1_schema FetchableTopic1_to v (l_encode _ FetchableTopic1_linked v) true)|].
    apply enc_step; [intros e; apply (put_field_link (ForgottenTopic1_Encode v) ForgottenTopic1_schema ForgottenTopic1_to v (l_encode _ ForgottenTopic1_linked v) _)|].
    apply enc_step; [intros e; reflexivity|].
    intros e; reflexivity.
  - intros v t. unfold FetchRequest_Decode, FetchRequest_schema, FetchRequest_to.
    dec_field (fun x : Z => x); [apply dmap_id|intros x_ReplicaId].
    dec_field (fun x : Z => x); [apply dmap_id|intros x_MaxWait].
    dec_field (fun x : Z => x); [apply dmap_id|intros x_MinBytes].
    dec_field (fun x : Z => x); [apply dec_if_link; [apply dmap_id|reflexivity]|intros x_MaxBytes].
    dec_field (fun x : Z => x); [apply dec_if_link; [apply dmap_id|reflexivity]|intros x_IsolationLevel].
    dec_field (fun x : Z => x); [apply dec_if_link; [apply dmap_id|reflexivity]|intros x_SessionId].
    dec_field (fun x : Z => x); [apply dec_if_link; [apply dmap_id|reflexivity]|intros x_Epoch].
    dec_field (option_map (map FetchableTopic1_of)); [apply (dec_array_link _ _ FetchableTopic1_of FetchableTopic1_to (l_decode _ FetchableTopic1_linked v FetchableTopic1_zero) (l_of_to _ FetchableTopic1_linked))|intros x_Topics].
    dec_field (option_map (map ForgottenTopic1_of)); [apply dec_if_link; [apply (dec_array_link _ _ ForgottenTopic1_of ForgottenTopic1_to (l_decode _ ForgottenTopic1_linked v ForgottenTopic1_zero) (l_of_to _ ForgottenTopic1_linked))|symmetry; apply (option_map_map_inv ForgottenTopic1_to ForgottenTopic1_of _ (l_of_to _ ForgottenTopic1_linked))]|intros x_Forgotten].
    dec_field (fun x : gostring => x); [apply dec_if_link; [apply dmap_id|reflexivity]|intros x_RackId].
    intros d; reflexivity.
Qed.
Local Opaque FetchRequest_Size FetchRequest_Encode FetchRequest_Decode.

(** ** AbortedTransaction1 *)

(** message/messages.gen.go:1089-1092 *)
Record AbortedTransaction1 : Type := mkAbortedTransaction1 { AbortedTransaction1_ProducerId : Z; AbortedTransaction1_FirstOffset : Z }.
(** the zero value ([var item AbortedTransaction1]) *)
Definition AbortedTransaction1_zero : AbortedTransaction1 := mkAbortedTransaction1 0 0.
(** message/messages.gen.go:1095-1104 *)
Definition AbortedTransaction1_Size (version : Z) (t : AbortedTransaction1) : Z :=
  (size_if (4 <=? version) (size_add sz_Int64) +>
   size_if (4 <=? version) (size_add sz_Int64) +>
   size_done)%size 0.
(** message/messages.gen.go:1107-1114 *)
Definition AbortedTransaction1_Encode (version : Z) (t : AbortedTransaction1) : Encoder -> Encoder :=
  (put_if (4 <=? version) (PutInt64 (AbortedTransaction1_ProducerId t)) >>
   put_if (4 <=? version) (PutInt64 (AbortedTransaction1_FirstOffset t)) >>
   skip)%enc.
(** message/messages.gen.go:1117-1132 *)
Definition AbortedTransaction1_Decode (version : Z) (t : AbortedTransaction1) : Dec AbortedTransaction1 :=
  x_ProducerId <- dec_if (4 <=? version) dInt64 (AbortedTransaction1_ProducerId t) ;;
  x_FirstOffset <- dec_if (4 <=? version) dInt64 (AbortedTransaction1_FirstOffset t) ;;
  ret (mkAbortedTransaction1 x_ProducerId x_FirstOffset).
(** the struct declaration read as a schema; version ranges as in Size *)
Definition AbortedTransaction1_schema : fields :=
  FCons "ProducerId" (From 4) TInt64
  (FCons "FirstOffset" (From 4) TInt64 FNil).
Definition AbortedTransaction1_to (t : AbortedTransaction1) : dens AbortedTransaction1_schema := (AbortedTransaction1_ProducerId t, (AbortedTransaction1_FirstOffset t, tt)).
Definition AbortedTransaction1_of (x : dens AbortedTransaction1_schema) : AbortedTransaction1 := mkAbortedTransaction1 (fst x) (fst (snd x)).
Definition AbortedTransaction1_codec : codec := Codec AbortedTransaction1 AbortedTransaction1_zero AbortedTransaction1_Size AbortedTransaction1_Encode AbortedTransaction1_Decode AbortedTransaction1_schema AbortedTransaction1_to AbortedTransaction1_of.
Lemma AbortedTransaction1_linked : linked AbortedTransaction1_codec.
Proof.
  apply Linked; cbn [AbortedTransaction1_codec c_type c_zero c_size c_encode c_decode c_schema c_to c_of].
  - intros t. destruct t. cbv [AbortedTransaction1_of AbortedTransaction1_to]. cbn [fst snd AbortedTransaction1_ProducerId AbortedTransaction1_FirstOffset].  reflexivity.
  - intros x. unfold AbortedTransaction1_schema in x. cbn [dens den] in x. destruct x as [x0 x]. destruct x as [x1 x]. destruct x. cbv [AbortedTransaction1_of AbortedTransaction1_to]. cbn [fst snd AbortedTransaction1_ProducerId AbortedTransaction1_FirstOffset].  reflexivity.
  - reflexivity.
  - intros v t. unfold AbortedTransaction1_Size, AbortedTransaction1_schema, AbortedTransaction1_to. apply size_start.
    apply size_step; [intros sz; reflexivity|].
    apply size_step; [intros sz; reflexivity|].
    intros sz; reflexivity.
  - intros v t. unfold AbortedTransaction1_Encode, AbortedTransaction1_schema, AbortedTransaction1_to.
    apply enc_step; [intros e; reflexivity|].
    apply enc_step; [intros e; reflexivity|].
    intros e; reflexivity.
  - intros v t. unfold AbortedTransaction1_Decode, AbortedTransaction1_schema, AbortedTransaction1_to.
    dec_field (fun x : Z => x); [apply dec_if_link; [apply dmap_id|reflexivity]|intros x_ProducerId].
    dec_field (fun x : Z => x); [apply dec_if_link; [apply dmap_id|reflexivity]|intros x_FirstOffset].
    intros d; reflexivity.
Qed.
Local Opaque AbortedTransaction1_Size AbortedTransaction1_Encode AbortedTransaction1_Decode.

(** ** FetchablePartitionResponse1 *)

(** message/messages.gen.go:973-982 *)
Record FetchablePartitionResponse1 : Type := mkFetchablePartitionResponse1 { FetchablePartitionResponse1_PartitionIndex : Z; FetchablePartitionResponse1_ErrorCode : Z; FetchablePartitionResponse1_HighWatermark : Z; FetchablePartitionResponse1_LastStableOffset : Z; FetchablePartitionResponse1_LogStartOffset : Z; FetchablePartitionResponse1_Aborted : gslice AbortedTransaction1; FetchablePartitionResponse1_PreferredReadReplica : Z; FetchablePartitionResponse1_Records : gslice Z }.
(** the zero value ([var item FetchablePartitionResponse1]) *)
Definition FetchablePartitionResponse1_zero : FetchablePartitionResponse1 := mkFetchablePartitionResponse1 0 0 0 0 0 None 0 None.
(** message/messages.gen.go:985-1007 *)
Definition FetchablePartitionResponse1_Size (version : Z) (t : FetchablePartitionResponse1) : Z :=
  ((size_add sz_Int32) +>
   (size_add sz_Int16) +>
   (size_add sz_Int64) +>
   size_if (4 <=? version) (size_add sz_Int64) +>
   size_if (5 <=? version) (size_add sz_Int64) +>
   size_if (4 <=? version) (size_loop (AbortedTransaction1_Size version) (FetchablePartitionResponse1_Aborted t)) +>
   size_if (11 <=? version) (size_add sz_Int32) +>
   (size_add (sz_Bytes (FetchablePartitionResponse1_Records t))) +>
   size_done)%size 0.
(** message/messages.gen.go:1010-1032 *)
Definition FetchablePartitionResponse1_Encode (version : Z) (t : FetchablePartitionResponse1) : Encoder -> Encoder :=
  ((PutInt32 (FetchablePartitionResponse1_PartitionIndex t)) >>
   (PutInt16 (FetchablePartitionResponse1_ErrorCode t)) >>
   (PutInt64 (FetchablePartitionResponse1_HighWatermark t)) >>
   put_if (4 <=? version) (PutInt64 (FetchablePartitionResponse1_LastStableOffset t)) >>
   put_if (5 <=? version) (PutInt64 (FetchablePartitionResponse1_LogStartOffset t)) >>
   put_if (4 <=? version) (put_array (AbortedTransaction1_Encode version) (FetchablePartitionResponse1_Aborted t)) >>
   put_if (11 <=? version) (PutInt32 (FetchablePartitionResponse1_PreferredReadReplica t)) >>
   (PutBytes (FetchablePartitionResponse1_Records t)) >>
   skip)%enc.
(** message/messages.gen.go:1035-1087 *)
Definition FetchablePartitionResponse1_Decode (version : Z) (t : FetchablePartitionResponse1) : Dec FetchablePartitionResponse1 :=
  x_PartitionIndex <- dInt32 ;;
  x_ErrorCode <- dInt16 ;;
  x_HighWatermark <- dInt64 ;;
  x_LastStableOffset <- dec_if (4 <=? version) dInt64 (FetchablePartitionResponse1_LastStableOffset t) ;;
  x_LogStartOffset <- dec_if (5 <=? version) dInt64 (FetchablePartitionResponse1_LogStartOffset t) ;;
  x_Aborted <- dec_if (4 <=? version) (dec_array (AbortedTransaction1_Decode version AbortedTransaction1_zero) (FetchablePartitionResponse1_Aborted t)) (FetchablePartitionResponse1_Aborted t) ;;
  x_PreferredReadReplica <- dec_if (11 <=? version) dInt32 (FetchablePartitionResponse1_PreferredReadReplica t) ;;
  x_Records <- dBytes ;;
  ret (mkFetchablePartitionResponse1 x_PartitionIndex x_ErrorCode x_HighWatermark x_LastStableOffset x_LogStartOffset x_Aborted x_PreferredReadReplica x_Records).
(** the struct declaration read as a schema; version ranges as in Size *)
Definition FetchablePartitionResponse1_schema : fields :=
  FCons "PartitionIndex" Always TInt32
  (FCons "ErrorCode" Always TInt16
  (FCons "HighWatermark" Always TInt64
  (FCons "LastStableOffset" (From 4) TInt64
  (FCons "LogStartOffset" (From 5) TInt64
  (FCons "Aborted" (From 4) (TArray AbortedTransaction1_schema)
  (FCons "PreferredReadReplica" (From 11) TInt32
  (FCons "Records" Always TBytes FNil))))))).
Definition FetchablePartitionResponse1_to (t : FetchablePartitionResponse1) : dens FetchablePartitionResponse1_schema := (FetchablePartitionResponse1_PartitionIndex t, (FetchablePartitionResponse1_ErrorCode t, (FetchablePartitionResponse1_HighWatermark t, (FetchablePartitionResponse1_LastStableOffset t, (FetchablePartitionResponse1_LogStartOffset t, (option_map (map AbortedTransaction1_to) (FetchablePartitionResponse1_Aborted t), (FetchablePartitionResponse1_PreferredReadReplica t, (FetchablePartitionResponse1_Records t, tt)))))))).
Definition FetchablePartitionResponse1_of (x : dens FetchablePartitionResponse1_schema) : FetchablePartitionResponse1 := mkFetchablePartitionResponse1 (fst x) (fst (snd x)) (fst (snd (snd x))) (fst (snd (snd (snd x)))) (fst (snd (snd (snd (snd x))))) (option_map (map AbortedTransaction1_of) (fst (snd (snd (snd (snd (snd x))))))) (fst (snd (snd (snd (snd (snd (snd x))))))) (fst (snd (snd (snd (snd (snd (snd (snd x)))))))).
Definition FetchablePartitionResponse1_codec : codec := Codec FetchablePartitionResponse1 FetchablePartitionResponse1_zero FetchablePartitionResponse1_Size FetchablePartitionResponse1_Encode FetchablePartitionResponse1_Decode FetchablePartitionResponse1_schema FetchablePartitionResponse1_to FetchablePartitionResponse1_of.
Lemma FetchablePartitionResponse1_linked : linked FetchablePartitionResponse1_codec.
Proof.
  apply Linked; cbn [FetchablePartitionResponse1_codec c_type c_zero c_size c_encode c_decode c_schema c_to c_of].
  - intros t. destruct t. cbv [FetchablePartitionResponse1_of FetchablePartitionResponse1_to]. cbn [fst snd FetchablePartitionResponse1_PartitionIndex FetchablePartitionResponse1_ErrorCode FetchablePartitionResponse1_HighWatermark FetchablePartitionResponse1_LastStableOffset FetchablePartitionResponse1_LogStartOffset FetchablePartitionResponse1_Aborted FetchablePartitionResponse1_PreferredReadReplica FetchablePartitionResponse1_Records]. rewrite ?(option_map_map_inv AbortedTransaction1_to AbortedTransaction1_of _ (l_of_to _ AbortedTransaction1_linked)). reflexivity.
  - intros x. unfold FetchablePartitionResponse1_schema in x. cbn [dens den] in x. destruct x as [x0 x]. destruct x as [x1 x]. destruct x as [x2 x]. destruct x as [x3 x]. destruct x as [x4 x]. destruct x as [x5 x]. destruct x as [x6 x]. destruct x as [x7 x]. destruct x. cbv [FetchablePartitionResponse1_of FetchablePartitionResponse1_to]. cbn [fst snd FetchablePartitionResponse1_PartitionIndex FetchablePartitionResponse1_ErrorCode FetchablePartitionResponse1_HighWatermark FetchablePartitionResponse1_LastStableOffset FetchablePartitionResponse1_LogStartOffset FetchablePartitionResponse1_Aborted FetchablePartitionResponse1_PreferredReadReplica FetchablePartitionResponse1_Records]. rewrite ?(option_map_map_inv AbortedTransaction1_of AbortedTransaction1_to _ (l_to_of _ AbortedTransaction1_linked)). reflexivity.
  - reflexivity.
  - intros v t. unfold FetchablePartitionResponse1_Size, FetchablePartitionResponse1_schema, FetchablePartitionResponse1_to. apply size_start.
    apply size_step; [intros sz; reflexivity|].
    apply size_step; [intros sz; reflexivity|].
    apply size_step; [intros sz; reflexivity|].
    apply size_step; [intros sz; reflexivity|].
    apply size_step; [intros sz; reflexivity|].
    apply size_step; [intros sz; apply (size_field_link (AbortedTransaction1_Size v) AbortedTransaction1_schema AbortedTransaction1_to v (l_size _ AbortedTransaction1_linked v) _)|].
    apply size_step; [intros sz; reflexivity|].
    apply size_step; [intros sz; reflexivity|].
    intros sz; reflexivity.
  - intros v t. unfold FetchablePartitionResponse1_Encode, FetchablePartitionResponse1_schema, FetchablePartitionResponse1_to.
    apply enc_step; [intros e; reflexivity|].
    apply enc_step; [intros e; reflexivity|].
    apply enc_step; [intros e; reflexivity|].
    apply enc_step; [intros e; reflexivity|].
    apply enc_step; [intros e; reflexivity|].
    apply enc_step; [intros e; apply (put_field_link (AbortedTransaction1_Encode v) AbortedTransaction1_schema AbortedTransaction1_to v (l_encode _ AbortedTransaction1_linked v) _)|].
    apply enc_step; [intros e; reflexivity|].
    apply enc_step; [intros e; reflexivity|].
    intros e; reflexivity.
  - intros v t. unfold FetchablePartitionResponse1_Decode, FetchablePartitionResponse1_schema, FetchablePartitionResponse1_to.
    dec_field (fun x : Z => x); [apply dmap_id|intros x_PartitionIndex].
    dec_field (fun x : Z => x); [apply dmap_id|intros x_ErrorCode].
    dec_field (fun x : Z => x); [apply dmap_id|intros x_HighWatermark].
    dec_field (fun x : Z => x); [apply dec_if_link; [apply dmap_id|reflexivity]|intros x_LastStableOffset].
    dec_field (fun x : Z => x); [apply dec_if_link; [apply dmap_id|reflexivity]|intros x_LogStartOffset].
    dec_field (option_map (map AbortedTransaction1_of)); [apply dec_if_link; [apply (dec_array_link _ _ AbortedTransaction1_of AbortedTransaction1_to (l_decode _ AbortedTransaction1_linked v AbortedTransaction1_zero) (l_of_to _ AbortedTransaction1_linked))|symmetry; apply (option_map_map_inv AbortedTransaction1_to AbortedTransaction1_of _ (l_of_to _ AbortedTransaction1_linked))]|intros x_Aborted].
    dec_field (fun x : Z => x); [apply dec_if_link; [apply dmap_id|reflexivity]|intros x_PreferredReadReplica].
    dec_field (fun x : gslice Z => x); [apply dmap_id|intros x_Records].
    intros d; reflexivity.
Qed.
Local Opaque FetchablePartitionResponse1_Size FetchablePartitionResponse1_Encode FetchablePartitionResponse1_Decode.

(** ** FetchableTopicResponse1 *)

(** message/messages.gen.go:923-926 *)
Record FetchableTopicResponse1 : Type := mkFetchableTopicResponse1 { FetchableTopicResponse1_Name : gostring; FetchableTopicResponse1_Partitions : gslice FetchablePartitionResponse1 }.
(** the zero value ([var item FetchableTopicResponse1]) *)
Definition FetchableTopicResponse1_zero : FetchableTopicResponse1 := mkFetchableTopicResponse1 [] None.
(** message/messages.gen.go:929-937 *)
Definition FetchableTopicResponse1_Size (version : Z) (t : FetchableTopicResponse1) : Z :=
  ((size_add (sz_String (FetchableTopicResponse1_Name t))) +>
   (size_loop (FetchablePartitionResponse1_Size version) (FetchableTopicResponse1_Partitions t)) +>
   size_done)%size 0.
(** message/messages.gen.go:940-948 *)
Definition FetchableTopicResponse1_Encode (version : Z) (t : FetchableTopicResponse1) : Encoder -> Encoder :=
  ((PutString (FetchableTopicResponse1_Name t)) >>
   (put_array (FetchablePartitionResponse1_Encode version) (FetchableTopicResponse1_Partitions t)) >>
   skip)%enc.
(** message/messages.gen.go:951-971 *)
Definition FetchableTopicResponse1_Decode (version : Z) (t : FetchableTopicResponse1) : Dec FetchableTopicResponse1 :=
  x_Name <- dString ;;
  x_Partitions <- (dec_array (FetchablePartitionResponse1_Decode version FetchablePartitionResponse1_zero) (FetchableTopicResponse1_Partitions t)) ;;
  ret (mkFetchableTopicResponse1 x_Name x_Partitions).
(** the struct declaration read as a schema; version ranges as in Size *)
Definition FetchableTopicResponse1_schema : fields :=
  FCons "Name" Always TString
  (FCons "Partitions" Always (TArray FetchablePartitionResponse1_schema) FNil).
Definition FetchableTopicResponse1_to (t : FetchableTopicResponse1) : dens FetchableTopicResponse1_schema := (FetchableTopicResponse1_Name t, (option_map (map FetchablePartitionResponse1_to) (FetchableTopicResponse1_Partitions t), tt)).
Definition FetchableTopicResponse1_of (x : dens FetchableTopicResponse1_schema) : FetchableTopicResponse1 := mkFetchableTopicResponse1 (fst x) (option_map (map FetchablePartitionResponse1_of) (fst (snd x))).
Definition FetchableTopicResponse1_codec : codec := Codec FetchableTopicResponse1 FetchableTopicResponse1_zero FetchableTopicResponse1_Size FetchableTopicResponse1_Encode FetchableTopicResponse1_Decode FetchableTopicResponse1_schema FetchableTopicResponse1_to FetchableTopicResponse1_of.
Lemma FetchableTopicResponse1_linked : linked FetchableTopicResponse1_codec.
Proof.
  apply Linked; cbn [FetchableTopicResponse1_codec c_type c_zero c_size c_encode c_decode c_schema c_to c_of].
  - intros t. destruct t. cbv [FetchableTopicResponse1_of FetchableTopicResponse1_to]. cbn [fst snd FetchableTopicResponse1_Name FetchableTopicResponse1_Partitions]. rewrite ?(option_map_map_inv FetchablePartitionResponse1_to FetchablePartitionResponse1_of _ (l_of_to _ FetchablePartitionResponse1_linked)). reflexivity.
  - intros x. unfold FetchableTopicResponse1_schema in x. cbn [dens den] in x. destruct x as [x0 x]. destruct x as [x1 x]. destruct x. cbv [FetchableTopicResponse1_of FetchableTopicResponse1_to]. cbn [fst snd FetchableTopicResponse1_Name FetchableTopicResponse1_Partitions]. rewrite ?(option_map_map_inv FetchablePartitionResponse1_of FetchablePartitionResponse1_to _ (l_to_of _ FetchablePartitionResponse1_linked)). reflexivity.
  - reflexivity.
  - intros v t. unfold FetchableTopicResponse1_Size, FetchableTopicResponse1_schema, FetchableTopicResponse1_to. apply size_start.
    apply size_step; [intros sz; reflexivity|].
    apply size_step; [intros sz; apply (size_field_link (FetchablePartitionResponse1_Size v) FetchablePartitionResponse1_schema FetchablePartitionResponse1_to v (l_size _ FetchablePartitionResponse1_linked v) true)|].
    intros sz; reflexivity.
  - intros v t. unfold FetchableTopicResponse1_Encode, FetchableTopicResponse1_schema, FetchableTopicResponse1_to.
    apply enc_step; [intros e; reflexivity|].
    apply enc_step; [intros e; apply (put_field_link (FetchablePartitionResponse1_Encode v) FetchablePartitionResponse1_schema FetchablePartitionResponse1_to v (l_encode _ FetchablePartitionResponse1_linked v) true)|].
    intros e; reflexivity.
  - intros v t. unfold FetchableTopicResponse1_Decode, FetchableTopicResponse1_schema, FetchableTopicResponse1_to.
    dec_field (fun x : gostring => x); [apply dmap_id|intros x_Name].
    dec_field (option_map (map FetchablePartitionResponse1_of)); [apply (dec_array_link _ _ FetchablePartitionResponse1_of FetchablePartitionResponse1_to (l_decode _ FetchablePartitionResponse1_linked v FetchablePartitionResponse1_zero) (l_of_to _ FetchablePartitionResponse1_linked))|intros x_Partitions].
    intros d; reflexivity.
Qed.
Local Opaque FetchableTopicResponse1_Size FetchableTopicResponse1_Encode FetchableTopicResponse1_Decode.

(** ** FetchResponse *)

(** message/messages.gen.go:841-846 *)
Record FetchResponse : Type := mkFetchResponse { FetchResponse_ThrottleTimeMs : Z; FetchResponse_ErrorCode : Z; FetchResponse_SessionId : Z; FetchResponse_Topics : gslice FetchableTopicResponse1 }.
(** the zero value ([var item FetchResponse]) *)
Definition FetchResponse_zero : FetchResponse := mkFetchResponse 0 0 0 None.
(** message/messages.gen.go:849-865 *)
Definition FetchResponse_Size (version : Z) (t : FetchResponse) : Z :=
  (size_if (1 <=? version) (size_add sz_Int32) +>
   size_if (7 <=? version) (size_add sz_Int16) +>
   size_if (7 <=? version) (size_add sz_Int32) +>
   (size_loop (FetchableTopicResponse1_Size version) (FetchResponse_Topics t)) +>
   size_done)%size 0.
(** message/messages.gen.go:868-884 *)
Definition FetchResponse_Encode (version : Z) (t : FetchResponse) : Encoder -> Encoder :=
  (put_if (1 <=? version) (PutInt32 (FetchResponse_ThrottleTimeMs t)) >>
   put_if (7 <=? version) (PutInt16 (FetchResponse_ErrorCode t)) >>
   put_if (7 <=? version) (PutInt32 (FetchResponse_SessionId t)) >>
   (put_array (FetchableTopicResponse1_Encode version) (FetchResponse_Topics t)) >>
   skip)%enc.
(** message/messages.gen.go:887-921 *)
Definition FetchResponse_Decode (version : Z) (t : FetchResponse) : Dec FetchResponse :=
  x_ThrottleTimeMs <- dec_if (1 <=? version) dInt32 (FetchResponse_ThrottleTimeMs t) ;;
  x_ErrorCode <- dec_if (7 <=? version) dInt16 (FetchResponse_ErrorCode t) ;;
  x_SessionId <- dec_if (7 <=? version) dInt32 (FetchResponse_SessionId t) ;;
  x_Topics <- (dec_array (FetchableTopicResponse1_Decode version FetchableTopicResponse1_zero) (FetchResponse_Topics t)) ;;
  ret (mkFetchResponse x_ThrottleTimeMs x_ErrorCode x_SessionId x_Topics).
(** the struct declaration read as a schema; version ranges as in Size *)
Definition FetchResponse_schema : fields :=
  FCons "ThrottleTimeMs" (From 1) TInt32
  (FCons "ErrorCode" (From 7) TInt16
  (FCons "SessionId" (From 7) TInt32
  (FCons "Topics" Always (TArray FetchableTopicResponse1_schema) FNil))).
Definition FetchResponse_to (t : FetchResponse) : dens FetchResponse_schema := (FetchResponse_ThrottleTimeMs t, (FetchResponse_ErrorCode t, (FetchResponse_SessionId t, (option_map (map FetchableTopicResponse1_to) (FetchResponse_Topics t), tt)))).
Definition FetchResponse_of (x : dens FetchResponse_schema) : FetchResponse := mkFetchResponse (fst x) (fst (snd x)) (fst (snd (snd x))) (option_map (map FetchableTopicResponse1_of) (fst (snd (snd (snd x))))).
Definition FetchResponse_codec : codec := Codec FetchResponse FetchResponse_zero FetchResponse_Size FetchResponse_Encode FetchResponse_Decode FetchResponse_schema FetchResponse_to FetchResponse_of.
Lemma FetchResponse_linked : linked FetchResponse_codec.
Proof.
  apply Linked; cbn [FetchResponse_codec c_type c_zero c_size c_encode c_decode c_schema c_to c_of].
  - intros t. destruct t. cbv [FetchResponse_of FetchResponse_to]. cbn [fst snd FetchResponse_ThrottleTimeMs FetchResponse_ErrorCode FetchResponse_SessionId FetchResponse_Topics]. rewrite ?(option_map_map_inv FetchableTopicResponse1_to FetchableTopicResponse1_of _ (l_of_to _ FetchableTopicResponse1_linked)). reflexivity.
  - intros x. unfold FetchResponse_schema in x. cbn [dens den] in x. destruct x as [x0 x]. destruct x as [x1 x]. destruct x as [x2 x]. destruct x as [x3 x]. destruct x. cbv [FetchResponse_of FetchResponse_to]. cbn [fst snd FetchResponse_ThrottleTimeMs FetchResponse_ErrorCode FetchResponse_SessionId FetchResponse_Topics]. rewrite ?(option_map_map_inv FetchableTopicResponse1_of FetchableTopicResponse1_to _ (l_to_of _ FetchableTopicResponse1_linked)). reflexivity.
  - reflexivity.
  - intros v t. unfold FetchResponse_Size, FetchResponse_schema, FetchResponse_to. apply size_start.
    apply size_step; [intros sz; reflexivity|].
    apply size_step; [intros sz; reflexivity|].
    apply size_step; [intros sz; reflexivity|].
    apply size_step; [intros sz; apply (size_field_link (FetchableTopicResponse1_Size v) FetchableTopicResponse1_schema FetchableTopicResponse1_to v (l_size _ FetchableTopicResponse1_linked v) true)|].
    intros sz; reflexivity.
  - intros v t. unfold FetchResponse_Encode, FetchResponse_schema, FetchResponse_to.
    apply enc_step; [intros e; reflexivity|].
    apply enc_step; [intros e; reflexivity|].
    apply enc_step; [intros e; reflexivity|].
    apply enc_step; [intros e; apply (put_field_link (FetchableTopicResponse1_Encode v) FetchableTopicResponse1_schema FetchableTopicResponse1_to v (l_encode _ FetchableTopicResponse1_linked v) true)|].
    intros e; reflexivity.
  - intros v t. unfold FetchResponse_Decode, FetchResponse_schema, FetchResponse_to.
    dec_field (fun x : Z => x); [apply dec_if_link; [apply dmap_id|reflexivity]|intros x_ThrottleTimeMs].
    dec_field (fun x : Z => x); [apply dec_if_link; [apply dmap_id|reflexivity]|intros x_ErrorCode].
    dec_field (fun x : Z => x); [apply dec_if_link; [apply dmap_id|reflexivity]|intros x_SessionId].
    dec_field (option_map (map FetchableTopicResponse1_of)); [apply (dec_array_link _ _ FetchableTopicResponse1_of FetchableTopicResponse1_to (l_decode _ FetchableTopicResponse1_linked v FetchableTopicResponse1_zero) (l_of_to _ FetchableTopicResponse1_linked))|intros x_Topics].
    intros d; reflexivity.
Qed.
Local Opaque FetchResponse_Size FetchResponse_Encode FetchResponse_Decode.

(** ** ListOffsetPartition2 *)

(** message/messages.gen.go:1248-1253 *)
Record ListOffsetPartition2 : Type := mkListOffsetPartition2 { ListOffsetPartition2_PartitionIndex : Z; ListOffsetPartition2_CurrentLeaderEpoch : Z; ListOffsetPartition2_Timestamp : Z; ListOffsetPartition2_MaxNumOffsets : Z }.
(** the zero value ([var item ListOffsetPartition2]) *)
Definition ListOffsetPartition2_zero : ListOffsetPartition2 := mkListOffsetPartition2 0 0 0 0.
(** message/messages.gen.go:1256-1267 *)
Definition ListOffsetPartition2_Size (version : Z) (t : ListOffsetPartition2) : Z :=
  ((size_add sz_Int32) +>
   size_if (4 <=? version) (size_add sz_Int32) +>
   (size_add sz_Int64) +>
   size_if ((0 <=? version) && (version <=? 0)) (size_add sz_Int32) +>
   size_done)%size 0.
(** message/messages.gen.go:1270-1279 *)
Definition ListOffsetPartition2_Encode (version : Z) (t : ListOffsetPartition2) : Encoder -> Encoder :=
  ((PutInt32 (ListOffsetPartition2_PartitionIndex t)) >>
   put_if (4 <=? version) (PutInt32 (ListOffsetPartition2_CurrentLeaderEpoch t)) >>
   (PutInt64 (ListOffsetPartition2_Timestamp t)) >>
   put_if ((0 <=? version) && (version <=? 0)) (PutInt32 (ListOffsetPartition2_MaxNumOffsets t)) >>
   skip)%enc.
(** message/messages.gen.go:1282-1305 *)
Definition ListOffsetPartition2_Decode (version : Z) (t : ListOffsetPartition2) : Dec ListOffsetPartition2 :=
  x_PartitionIndex <- dInt32 ;;
  x_CurrentLeaderEpoch <- dec_if (4 <=? version) dInt32 (ListOffsetPartition2_CurrentLeaderEpoch t) ;;
  x_Timestamp <- dInt64 ;;
  x_MaxNumOffsets <- dec_if ((0 <=? version) && (version <=? 0)) dInt32 (ListOffsetPartition2_MaxNumOffsets t) ;;
  ret (mkListOffsetPartition2 x_PartitionIndex x_CurrentLeaderEpoch x_Timestamp x_MaxNumOffsets).
(** the struct declaration read as a schema; version ranges as in Size *)
Definition ListOffsetPartition2_schema : fields :=
  FCons "PartitionIndex" Always TInt32
  (FCons "CurrentLeaderEpoch" (From 4) TInt32
  (FCons "Timestamp" Always TInt64
  (FCons "MaxNumOffsets" (Between 0 0) TInt32 FNil))).
Definition ListOffsetPartition2_to (t : ListOffsetPartition2) : dens ListOffsetPartition2_schema := (ListOffsetPartition2_PartitionIndex t, (ListOffsetPartition2_CurrentLeaderEpoch t, (ListOffsetPartition2_Timestamp t, (ListOffsetPartition2_MaxNumOffsets t, tt)))).
Definition ListOffsetPartition2_of (x : dens ListOffsetPartition2_schema) : ListOffsetPartition2 := mkListOffsetPartition2 (fst x) (fst (snd x)) (fst (snd (snd x))) (fst (snd (snd (snd x)))).
Definition ListOffsetPartition2_codec : codec := Codec ListOffsetPartition2 ListOffsetPartition2_zero ListOffsetPartition2_Size ListOffsetPartition2_Encode ListOffsetPartition2_Decode ListOffsetPartition2_schema ListOffsetPartition2_to ListOffsetPartition2_of.
Lemma ListOffsetPartition2_linked : linked ListOffsetPartition2_codec.
Proof.
  apply Linked; cbn [ListOffsetPartition2_codec c_type c_zero c_size c_encode c_decode c_schema c_to c_of].
  - intros t. destruct t. cbv [ListOffsetPartition2_of ListOffsetPartition2_to]. cbn [fst snd ListOffsetPartition2_PartitionIndex ListOffsetPartition2_CurrentLeaderEpoch ListOffsetPartition2_Timestamp ListOffsetPartition2_MaxNumOffsets].  reflexivity.
  - intros x. unfold ListOffsetPartition2_schema in x. cbn [dens den] in x. destruct x as [x0 x]. destruct x as [x1 x]. destruct x as [x2 x]. destruct x as [x3 x]. destruct x. cbv [ListOffsetPartition2_of ListOffsetPartition2_to]. cbn [fst snd ListOffsetPartition2_PartitionIndex ListOffsetPartition2_CurrentLeaderEpoch ListOffsetPartition2_Timestamp ListOffsetPartition2_MaxNumOffsets].  reflexivity.
  - reflexivity.
  - intros v t. unfold ListOffsetPartition2_Size, ListOffsetPartition2_schema, ListOffsetPartition2_to. apply size_start.
    apply size_step; [intros sz; reflexivity|].
    apply size_step; [intros sz; reflexivity|].
    apply size_step; [intros sz; reflexivity|].
    apply size_step; [intros sz; reflexivity|].
    intros sz; reflexivity.
  - intros v t. unfold ListOffsetPartition2_Encode, ListOffsetPartition2_schema, ListOffsetPartition2_to.
    apply enc_step; [intros e; reflexivity|].
    apply enc_step; [intros e; reflexivity|].
    apply enc_step; [intros e; reflexivity|].
    apply enc_step; [intros e; reflexivity|].
    intros e; reflexivity.
  - intros v t. unfold ListOffsetPartition2_Decode, ListOffsetPartition2_schema, ListOffsetPartition2_to.
    dec_field (fun x : Z => x); [apply dmap_id|intros x_PartitionIndex].
    dec_field (fun x : Z => x); [apply dec_if_link; [apply dmap_id|reflexivity]|intros x_CurrentLeaderEpoch].
    dec_field (fun x : Z => x); [apply dmap_id|intros x_Timestamp].
    dec_field (fun x : Z => x); [apply dec_if_link; [apply dmap_id|reflexivity]|intros x_MaxNumOffsets].
    intros d; reflexivity.
Qed.
Local Opaque ListOffsetPartition2_Size ListOffsetPartition2_Encode ListOffsetPartition2_Decode.

(** ** ListOffsetTopic2 *)

(** message/messages.gen.go:1198-1201 *)
Record ListOffsetTopic2 : Type := mkListOffsetTopic2 { ListOffsetTopic2_Name : gostring; ListOffsetTopic2_Partitions : gslice ListOffsetPartition2 }.
(** the zero value ([var item ListOffsetTopic2]) *)
Definition ListOffsetTopic2_zero : ListOffsetTopic2 := mkListOffsetTopic2 [] None.
(** message/messages.gen.go:1204-1212 *)
Definition ListOffsetTopic2_Size (version : Z) (t : ListOffsetTopic2) : Z :=
  ((size_add (sz_String (ListOffsetTopic2_Name t))) +>
   (size_loop (ListOffsetPartition2_Size version) (ListOffsetTopic2_Partitions t)) +>
   size_done)%size 0.
(** message/messages.gen.go:1215-1223 *)
Definition ListOffsetTopic2_Encode (version : Z) (t : ListOffsetTopic2) : Encoder -> Encoder :=
  ((PutString (ListOffsetTopic2_Name t)) >>
   (put_array (ListOffsetPartition2_Encode version) (ListOffsetTopic2_Partitions t)) >>
   skip)%enc.
(** message/messages.gen.go:1226-1246 *)
Definition ListOffsetTopic2_Decode (version : Z) (t : ListOffsetTopic2) : Dec ListOffsetTopic2 :=
  x_Name <- dString ;;
  x_Partitions <- (dec_array (ListOffsetPartition2_Decode version ListOffsetPartition2_zero) (ListOffsetTopic2_Partitions t)) ;;
  ret (mkListOffsetTopic2 x_Name x_Partitions).
(** the struct declaration read as a schema; version ranges as in Size *)
Definition ListOffsetTopic2_schema : fields :=
  FCons "Name" Always TString
  (FCons "Partitions" Always (TArray ListOffsetPartition2_schema) FNil).
Definition ListOffsetTopic2_to (t : ListOffsetTopic2) : dens ListOffsetTopic2_schema := (ListOffsetTopic2_Name t, (option_map (map ListOffsetPartition2_to) (ListOffsetTopic2_Partitions t), tt)).
Definition ListOffsetTopic2_of (x : dens ListOffsetTopic2_schema) : ListOffsetTopic2 := mkListOffsetTopic2 (fst x) (option_map (map ListOffsetPartition2_of) (fst (snd x))).
Definition ListOffsetTopic2_codec : codec := Codec ListOffsetTopic2 ListOffsetTopic2_zero ListOffsetTopic2_Size ListOffsetTopic2_Encode ListOffsetTopic2_Decode ListOffsetTopic2_schema ListOffsetTopic2_to ListOffsetTopic2_of.
Lemma ListOffsetTopic2_linked : linked ListOffsetTopic2_codec.
Proof.
  apply Linked; cbn [ListOffsetTopic2_codec c_type c_zero c_size c_encode c_decode c_schema c_to c_of].
  - intros t. destruct t. cbv [ListOffsetTopic2_of ListOffsetTopic2_to]. cbn [fst snd ListOffsetTopic2_Name ListOffsetTopic2_Partitions]. rewrite ?(option_map_map_inv ListOffsetPartition2_to ListOffsetPartition2_of _ (l_of_to _ ListOffsetPartition2_linked)). reflexivity.
  - intros x. unfold ListOffsetTopic2_schema in x. cbn [dens den] in x. destruct x as [x0 x]. destruct x as [x1 x]. destruct x. cbv [ListOffsetTopic2_of ListOffsetTopic2_to]. cbn [fst snd ListOffsetTopic2_Name ListOffsetTopic2_Partitions]. rewrite ?(option_map_map_inv ListOffsetPartition2_of ListOffsetPartition2_to _ (l_to_of _ ListOffsetPartition2_linked)). reflexivity.
  - reflexivity.
  - intros v t. unfold ListOffsetTopic2_Size, ListOffsetTopic2_schema, ListOffsetTopic2_to. apply size_start.
    apply size_step; [intros sz; reflexivity|].
    apply size_step; [intros sz; apply (size_field_link (ListOffsetPartition2_Size v) ListOffsetPartition2_schema ListOffsetPartition2_to v (l_size _ ListOffsetPartition2_linked v) true)|].
    intros sz; reflexivity.
  - intros v t. unfold ListOffsetTopic2_Encode, ListOffsetTopic2_schema, ListOffsetTopic2_to.
    apply enc_step; [intros e; reflexivity|].
    apply enc_step; [intros e; apply (put_field_link (ListOffsetPartition2_Encode v) ListOffsetPartition2_schema ListOffsetPartition2_to v (l_encode _ ListOffsetPartition2_linked v) true)|].
    intros e; reflexivity.
  - intros v t. unfold ListOffsetTopic2_Decode, ListOffsetTopic2_schema, ListOffsetTopic2_to.
    dec_field (fun x : gostring => x); [apply dmap_id|intros x_Name].
    dec_field (option_map (map ListOffsetPartition2_of)); [apply (dec_array_link _ _ ListOffsetPartition2_of ListOffsetPartition2_to (l_decode _ ListOffsetPartition2_linked v ListOffsetPartition2_zero) (l_of_to _ ListOffsetPartition2_linked))|intros x_Partitions].
    intros d; reflexivity.
Qed.
Local Opaque ListOffsetTopic2_Size ListOffsetTopic2_Encode ListOffsetTopic2_Decode.

(** ** ListOffsetRequest *)

(** message/messages.gen.go:1135-1139 *)
Record ListOffsetRequest : Type := mkListOffsetRequest { ListOffsetRequest_ReplicaId : Z; ListOffsetRequest_IsolationLevel : Z; ListOffsetRequest_Topics : gslice ListOffsetTopic2 }.
(** the zero value ([var item ListOffsetRequest]) *)
Definition ListOffsetRequest_zero : ListOffsetRequest := mkListOffsetRequest 0 0 None.
(** message/messages.gen.go:1142-1153 *)
Definition ListOffsetRequest_Size (version : Z) (t : ListOffsetRequest) : Z :=
  ((size_add sz_Int32) +>
   size_if (2 <=? version) (size_add sz_Int8) +>
   (size_loop (ListOffsetTopic2_Size version) (ListOffsetRequest_Topics t)) +>
   size_done)%size 0.
(** message/messages.gen.go:1156-1167 *)
Definition ListOffsetRequest_Encode (version : Z) (t : ListOffsetRequest) : Encoder -> Encoder :=
  ((PutInt32 (ListOffsetRequest_ReplicaId t)) >>
   put_if (2 <=? version) (PutInt8 (ListOffsetRequest_IsolationLevel t)) >>
   (put_array (ListOffsetTopic2_Encode version) (ListOffsetRequest_Topics t)) >>
   skip)%enc.
(** message/messages.gen.go:1170-1196 *)
Definition ListOffsetRequest_Decode (version : Z) (t : ListOffsetRequest) : Dec ListOffsetRequest :=
  x_ReplicaId <- dInt32 ;;
  x_IsolationLevel <- dec_if (2 <=? version) dInt8 (ListOffsetRequest_IsolationLevel t) ;;
  x_Topics <- (dec_array (ListOffsetTopic2_Decode version ListOffsetTopic2_zero) (ListOffsetRequest_Topics t)) ;;
  ret (mkListOffsetRequest x_ReplicaId x_IsolationLevel x_Topics).
(** the struct declaration read as a schema; version ranges as in Size *)
Definition ListOffsetRequest_schema : fields :=
  FCons "ReplicaId" Always TInt32
  (FCons "IsolationLevel" (From 2) TInt8
  (FCons "Topics" Always (TArray ListOffsetTopic2_schema) FNil)).
Definition ListOffsetRequest_to (t : ListOffsetRequest) : dens ListOffsetRequest_schema := (ListOffsetRequest_ReplicaId t, (ListOffsetRequest_IsolationLevel t, (option_map (map ListOffsetTopic2_to) (ListOffsetRequest_Topics t), tt))).
Definition ListOffsetRequest_of (x : dens ListOffsetRequest_schema) : ListOffsetRequest := mkListOffsetRequest (fst x) (fst (snd x)) (option_map (map ListOffsetTopic2_of) (fst (snd (snd x)))).
Definition ListOffsetRequest_codec : codec := Codec ListOffsetRequest ListOffsetRequest_zero ListOffsetRequest_Size ListOffsetRequest_Encode ListOffsetRequest_Decode ListOffsetRequest_schema ListOffsetRequest_to ListOffsetRequest_of.
Lemma ListOffsetRequest_linked : linked ListOffsetRequest_codec.
Proof.
  apply Linked; cbn [ListOffsetRequest_codec c_type c_zero c_size c_encode c_decode c_schema c_to c_of].
  - intros t. destruct t. cbv [ListOffsetRequest_of ListOffsetRequest_to]. cbn [fst snd ListOffsetRequest_ReplicaId ListOffsetRequest_IsolationLevel ListOffsetRequest_Topics]. rewrite ?(option_map_map_inv ListOffsetTopic2_to ListOffsetTopic2_of _ (l_of_to _ ListOffsetTopic2_linked)). reflexivity.
  - intros x. unfold ListOffsetRequest_schema in x. cbn [dens den] in x. destruct x as [x0 x]. destruct x as [x1 x]. destruct x as [x2 x]. destruct x. cbv [ListOffsetRequest_of ListOffsetRequest_to]. cbn [fst snd ListOffsetRequest_ReplicaId ListOffsetRequest_IsolationLevel ListOffsetRequest_Topics]. rewrite ?(option_map_map_inv ListOffsetTopic2_of ListOffsetTopic2_to _ (l_to_of _ ListOffsetTopic2_linked)). reflexivity.
  - reflexivity.
  - intros v t. unfold ListOffsetRequest_Size, ListOffsetRequest_schema, ListOffsetRequest_to. apply size_start.
    apply size_step; [intros sz; reflexivity|].
    apply size_step; [intros sz; reflexivity|].
    apply size_step; [intros sz; apply (size_field_link (ListOffsetTopic2_Size v) ListOffsetTopic2_schema ListOffsetTopic2_to v (l_size _ ListOffsetTopic2_linked v) true)|].
    intros sz; reflexivity.
  - intros v t. unfold ListOffsetRequest_Encode, ListOffsetRequest_schema, ListOffsetRequest_to.
    apply enc_step; [intros e; reflexivity|].
    apply enc_step; [intros e; reflexivity|].
    apply enc_step; [intros e; apply (put_field_link (ListOffsetTopic2_Encode v) ListOffsetTopic2_schema ListOffsetTopic2_to v (l_encode _ ListOffsetTopic2_linked v) true)|].
    intros e; reflexivity.
  - intros v t. unfold ListOffsetRequest_Decode, ListOffsetRequest_schema, ListOffsetRequest_to.
    dec_field (fun x : Z => x); [apply dmap_id|intros x_ReplicaId].
    dec_field (fun x : Z => x); [apply dec_if_link; [apply dmap_id|reflexivity]|intros x_IsolationLevel].
    dec_field (option_map (map ListOffsetTopic2_of)); [apply (dec_array_link _ _ ListOffsetTopic2_of ListOffsetTopic2_to (l_decode _ ListOffsetTopic2_linked v ListOffsetTopic2_zero) (l_of_to _ ListOffsetTopic2_linked))|intros x_Topics].
    intros d; reflexivity.
Qed.
Local Opaque ListOffsetRequest_Size ListOffsetRequest_Encode ListOffsetRequest_Decode.

(** ** ListOffsetPartitionResponse2 *)

(** message/messages.gen.go:1414-1421 *)
Record ListOffsetPartitionResponse2 : Type := mkListOffsetPartitionResponse2 { ListOffsetPartitionResponse2_PartitionIndex : Z; ListOffsetPartitionResponse2_ErrorCode : Z; ListOffsetPartitionResponse2_OldStyleOffsets : gslice Z; ListOffsetPartitionResponse2_Timestamp : Z; ListOffsetPartitionResponse2_Offset : Z; ListOffsetPartitionResponse2_LeaderEpoch : Z }.
(** the zero value ([var item ListOffsetPartitionResponse2]) *)
Definition ListOffsetPartitionResponse2_zero : ListOffsetPartitionResponse2 := mkListOffsetPartitionResponse2 0 0 None 0 0 0.
(** message/messages.gen.go:1424-1441 *)
Definition ListOffsetPartitionResponse2_Size (version : Z) (t : ListOffsetPartitionResponse2) : Z :=
  ((size_add sz_Int32) +>
   (size_add sz_Int16) +>
   size_if ((0 <=? version) && (version <=? 0)) (size_add (sz_Int64Array (ListOffsetPartitionResponse2_OldStyleOffsets t))) +>
   size_if (1 <=? version) (size_add sz_Int64) +>
   size_if (1 <=? version) (size_add sz_Int64) +>
   size_if (4 <=? version) (size_add sz_Int32) +>
   size_done)%size 0.
(** message/messages.gen.go:1444-1459 *)
Definition ListOffsetPartitionResponse2_Encode (version : Z) (t : ListOffsetPartitionResponse2) : Encoder -> Encoder :=
  ((PutInt32 (ListOffsetPartitionResponse2_PartitionIndex t)) >>
   (PutInt16 (ListOffsetPartitionResponse2_ErrorCode t)) >>
   put_if ((0 <=? version) && (version <=? 0)) (PutInt64Array (ListOffsetPartitionResponse2_OldStyleOffsets t)) >>
   put_if (1 <=? version) (PutInt64 (ListOffsetPartitionResponse2_Timestamp t)) >>
   put_if (1 <=? version) (PutInt64 (ListOffsetPartitionResponse2_Offset t)) >>
   put_if (4 <=? version) (PutInt32 (ListOffsetPartitionResponse2_LeaderEpoch t)) >>
   skip)%enc.
(** message/messages.gen.go:1462-1497 *)
Definition ListOffsetPartitionResponse2_Decode (version : Z) (t : ListOffsetPartitionResponse2) : Dec ListOffsetPartitionResponse2 :=
  x_PartitionIndex <- dInt32 ;;
  x_ErrorCode <- dInt16 ;;
  x_OldStyleOffsets <- dec_if ((0 <=? version) && (version <=? 0)) dInt64Array (ListOffsetPartitionResponse2_OldStyleOffsets t) ;;
  x_Timestamp <- dec_if (1 <=? version) dInt64 (ListOffsetPartitionResponse2_Timestamp t) ;;
  x_Offset <- dec_if (1 <=? version) dInt64 (ListOffsetPartitionResponse2_Offset t) ;;
  x_LeaderEpoch <- dec_if (4 <=? version) dInt32 (ListOffsetPartitionResponse2_LeaderEpoch t) ;;
  ret (mkListOffsetPartitionResponse2 x_PartitionIndex x_ErrorCode x_OldStyleOffsets x_Timestamp x_Offset x_LeaderEpoch).
(** the struct declaration read as a schema; version ranges as in Size *)
Definition ListOffsetPartitionResponse2_schema : fields :=
  FCons "PartitionIndex" Always TInt32
  (FCons "ErrorCode" Always TInt16
  (FCons "OldStyleOffsets" (Between 0 0) TInt64Array
  (FCons "Timestamp" (From 1) TInt64
  (FCons "Offset" (From 1) TInt64
  (FCons "LeaderEpoch" (From 4) TInt32 FNil))))).
Definition ListOffsetPartitionResponse2_to (t : ListOffsetPartitionResponse2) : dens ListOffsetPartitionResponse2_schema := (ListOffsetPartitionResponse2_PartitionIndex t, (ListOffsetPartitionResponse2_ErrorCode t, (ListOffsetPartitionResponse2_OldStyleOffsets t, (ListOffsetPartitionResponse2_Timestamp t, (ListOffsetPartitionResponse2_Offset t, (ListOffsetPartitionResponse2_LeaderEpoch t, tt)))))).
Definition ListOffsetPartitionResponse2_of (x : dens ListOffsetPartitionResponse2_schema) : ListOffsetPartitionResponse2 := mkListOffsetPartitionResponse2 (fst x) (fst (snd x)) (fst (snd (snd x))) (fst (snd (snd (snd x)))) (fst (snd (snd (snd (snd x))))) (fst (snd (snd (snd (snd (snd x)))))).
Definition ListOffsetPartitionResponse2_codec : codec := Codec ListOffsetPartitionResponse2 ListOffsetPartitionResponse2_zero ListOffsetPartitionResponse2_Size ListOffsetPartitionResponse2_Encode ListOffsetPartitionResponse2_Decode ListOffsetPartitionResponse2_schema ListOffsetPartitionResponse2_to ListOffsetPartitionResponse2_of.
Lemma ListOffsetPartitionResponse2_linked : linked ListOffsetPartitionResponse2_codec.
Proof.
  apply Linked; cbn [ListOffsetPartitionResponse2_codec c_type c_zero c_size c_encode c_decode c_schema c_to c_of].
  - intros t. destruct t. cbv [ListOffsetPartitionResponse2_of ListOffsetPartitionResponse2_to]. cbn [fst snd ListOffsetPartitionResponse2_PartitionIndex ListOffsetPartitionResponse2_ErrorCode ListOffsetPartitionResponse2_OldStyleOffsets ListOffsetPartitionResponse2_Timestamp ListOffsetPartitionResponse2_Offset ListOffsetPartitionResponse2_LeaderEpoch].  reflexivity.
  - intros x. unfold ListOffsetPartitionResponse2_schema in x. cbn [dens den] in x. destruct x as [x0 x]. destruct x as [x1 x]. destruct x as [x2 x]. destruct x as [x3 x]. destruct x as [x4 x]. destruct x as [x5 x]. destruct x. cbv [ListOffsetPartitionResponse2_of ListOffsetPartitionResponse2_to]. cbn [fst snd ListOffsetPartitionResponse2_PartitionIndex ListOffsetPartitionResponse2_ErrorCode ListOffsetPartitionResponse2_OldStyleOffsets ListOffsetPartitionResponse2_Timestamp ListOffsetPartitionResponse2_Offset ListOffsetPartitionResponse2_LeaderEpoch].  reflexivity.
  - reflexivity.
  - intros v t. unfold ListOffsetPartitionResponse2_Size, ListOffsetPartitionResponse2_schema, ListOffsetPartitionResponse2_to. apply size_start.
    apply size_step; [intros sz; reflexivity|].
    apply size_step; [intros sz; reflexivity|].
    apply size_step; [intros sz; reflexivity|].
    apply size_step; [intros sz; reflexivity|].
    apply size_step; [intros sz; reflexivity|].
    apply size_step; [intros sz; reflexivity|].
    intros sz; reflexivity.
  - intros v t. unfold ListOffsetPartitionResponse2_Encode, ListOffsetPartitionResponse2_schema, ListOffsetPartitionResponse2_to.
    apply enc_step; [intros e; reflexivity|].
    apply enc_step; [intros e; reflexivity|].
    apply enc_step; [intros e; reflexivity|].
    apply enc_step; [intros e; reflexivity|].
    apply enc_step; [intros e; reflexivity|].
    apply enc_step; [intros e; reflexivity|].
    intros e; reflexivity.
  - intros v t. unfold ListOffsetPartitionResponse2_Decode, ListOffsetPartitionResponse2_schema, ListOffsetPartitionResponse2_to.
    dec_field (fun x : Z => x); [apply dmap_id|intros x_PartitionIndex].
    dec_field (fun x : Z => x); [apply dmap_id|intros x_ErrorCode].
    dec_field (fun x : gslice Z => x); [apply dec_if_link; [apply dmap_id|reflexivity]|intros x_OldStyleOffsets].
    dec_field (fun x : Z => x); [apply dec_if_link; [apply dmap_id|reflexivity]|intros x_Timestamp].
    dec_field (fun x : Z => x); [apply dec_if_link; [apply dmap_id|reflexivity]|intros x_Offset].
    dec_field (fun x : Z => x); [apply dec_if_link; [apply dmap_id|reflexivity]|intros x_LeaderEpoch].
    intros d; reflexivity.
Qed.
Local Opaque ListOffsetPartitionResponse2_Size ListOffsetPartitionResponse2_Encode ListOffsetPartitionResponse2_Decode.

(** ** ListOffsetTopicResponse2 *)

(** message/messages.gen.go:1364-1367 *)
Record ListOffsetTopicResponse2 : Type := mkListOffsetTopicResponse2 { ListOffsetTopicResponse2_Name : gostring; ListOffsetTopicResponse2_Partitions : gslice ListOffsetPartitionResponse2 }.
(** the zero value ([var item ListOffsetTopicResponse2]) *)
Definition ListOffsetTopicResponse2_zero : ListOffsetTopicResponse2 := mkListOffsetTopicResponse2 [] None.
(** message/messages.gen.go:1370-1378 *)
Definition ListOffsetTopicResponse2_Size (version : Z) (t : ListOffsetTopicResponse2) : Z :=
  ((size_add (sz_String (ListOffsetTopicResponse2_Name t))) +>
   (size_loop (ListOffsetPartitionResponse2_Size version) (ListOffsetTopicResponse2_Partitions t)) +>
   size_done)%size 0.
(** message/messages.gen.go:1381-1389 *)
Definition ListOffsetTopicResponse2_Encode (version : Z) (t : ListOffsetTopicResponse2) : Encoder -> Encoder :=
  ((PutString (ListOffsetTopicResponse2_Name t)) >>
   (put_array (ListOffsetPartitionResponse2_Encode version) (ListOffsetTopicResponse2_Partitions t)) >>
   skip)%enc.
(** message/messages.gen.go:1392-1412 *)
Definition ListOffsetTopicResponse2_Decode (version : Z) (t : ListOffsetTopicResponse2) : Dec ListOffsetTopicResponse2 :=
  x_Name <- dString ;;
  x_Partitions <- (dec_array (ListOffsetPartitionResponse2_Decode version ListOffsetPartitionResponse2_zero) (ListOffsetTopicResponse2_Partitions t)) ;;
  ret (mkListOffsetTopicResponse2 x_Name x_Partitions).
(** the struct declaration read as a schema; version ranges as in Size *)
Definition ListOffsetTopicResponse2_schema : fields :=
  FCons "Name" Always TString
  (FCons "Partitions" Always (TArray ListOffsetPartitionResponse2_schema) FNil).
Definition ListOffsetTopicResponse2_to (t : ListOffsetTopicResponse2) : dens ListOffsetTopicResponse2_schema := (ListOffsetTopicResponse2_Name t, (option_map (map ListOffsetPartitionResponse2_to) (ListOffsetTopicResponse2_Partitions t), tt)).
Definition ListOffsetTopicResponse2_of (x : dens ListOffsetTopicResponse2_schema) : ListOffsetTopicResponse2 := mkListOffsetTopicResponse2 (fst x) (option_map (map ListOffsetPartitionResponse2_of) (fst (snd x))).
Definition ListOffsetTopicResponse2_codec : codec := Codec ListOffsetTopicResponse2 ListOffsetTopicResponse2_zero ListOffsetTopicResponse2_Size ListOffsetTopicResponse2_Encode ListOffsetTopicResponse2_Decode ListOffsetTopicResponse2_schema ListOffsetTopicResponse2_to ListOffsetTopicResponse2_of.
Lemma ListOffsetTopicResponse2_linked : linked ListOffsetTopicResponse2_codec.
Proof.
  apply Linked; cbn [ListOffsetTopicResponse2_codec c_type c_zero c_size c_encode c_decode c_schema c_to c_of].
  - intros t. destruct t. cbv [ListOffsetTopicResponse2_of ListOffsetTopicResponse2_to]. cbn [fst snd ListOffsetTopicResponse2_Name ListOffsetTopicResponse2_Partitions]. rewrite ?(option_map_map_inv ListOffsetPartitionResponse2_to ListOffsetPartitionResponse2_of _ (l_of_to _ ListOffsetPartitionResponse2_linked)). reflexivity.
  - intros x. unfold ListOffsetTopicResponse2_schema in x. cbn [dens den] in x. destruct x as [x0 x]. destruct x as [x1 x]. destruct x. cbv [ListOffsetTopicResponse2_of ListOffsetTopicResponse2_to]. cbn [fst snd ListOffsetTopicResponse2_Name ListOffsetTopicResponse2_Partitions]. rewrite ?(option_map_map_inv ListOffsetPartitionResponse2_of ListOffsetPartitionResponse2_to _ (l_to_of _ ListOffsetPartitionResponse2_linked)). reflexivity.
  - reflexivity.
  - intros v t. unfold ListOffsetTopicResponse2_Size, ListOffsetTopicResponse2_schema, ListOffsetTopicResponse2_to. apply size_start.
    apply size_step; [intros sz; reflexivity|].
    apply size_step; [intros sz; apply (size_field_link (ListOffsetPartitionResponse2_Size v) ListOffsetPartitionResponse2_schema ListOffsetPartitionResponse2_to v (l_size _ ListOffsetPartitionResponse2_linked v) true)|].
    intros sz; reflexivity.
  - intros v t. unfold ListOffsetTopicResponse2_Encode, ListOffsetTopicResponse2_schema, ListOffsetTopicResponse2_to.
    apply enc_step; [intros e; reflexivity|].
    apply enc_step; [intros e; apply (put_field_link (ListOffsetPartitionResponse2_Encode v) ListOffsetPartitionResponse2_schema ListOffsetPartitionResponse2_to v (l_encode _ ListOffsetPartitionResponse2_linked v) true)|].
    intros e; reflexivity.
  - intros v t. unfold ListOffsetTopicResponse2_Decode, ListOffsetTopicResponse2_schema, ListOffsetTopicResponse2_to.
    dec_field (fun x : gostring => x); [apply dmap_id|intros x_Name].
    dec_field (option_map (map ListOffsetPartitionResponse2_of)); [apply (dec_array_link _ _ ListOffsetPartitionResponse2_of ListOffsetPartitionResponse2_to (l_decode _ ListOffsetPartitionResponse2_linked v ListOffsetPartitionResponse2_zero) (l_of_to _ ListOffsetPartitionResponse2_linked))|intros x_Partitions].
    intros d; reflexivity.
Qed.
Local Opaque ListOffsetTopicResponse2_Size ListOffsetTopicResponse2_Encode ListOffsetTopicResponse2_Decode.

(** ** ListOffsetResponse *)

(** message/messages.gen.go:1308-1311 *)
Record ListOffsetResponse : Type := mkListOffsetResponse { ListOffsetResponse_ThrottleTimeMs : Z; ListOffsetResponse_Topics : gslice ListOffsetTopicResponse2 }.
(** the zero value ([var item ListOffsetResponse]) *)
Definition ListOffsetResponse_zero : ListOffsetResponse := mkListOffsetResponse 0 None.
(** message/messages.gen.go:1314-1324 *)
Definition ListOffsetResponse_Size (version : Z) (t : ListOffsetResponse) : Z :=
  (size_if (2 <=? version) (size_add sz_Int32) +>
   (size_loop (ListOffsetTopicResponse2_Size version) (ListOffsetResponse_Topics t)) +>
   size_done)%size 0.
(** message/messages.gen.go:1327-1337 *)
Definition ListOffsetResponse_Encode (version : Z) (t : ListOffsetResponse) : Encoder -> Encoder :=
  (put_if (2 <=? version) (PutInt32 (ListOffsetResponse_ThrottleTimeMs t)) >>
   (put_array (ListOffsetTopicResponse2_Encode version) (ListOffsetResponse_Topics t)) >>
   skip)%enc.
(** message/messages.gen.go:1340-1362 *)
Definition ListOffsetResponse_Decode (version : Z) (t : ListOffsetResponse) : Dec ListOffsetResponse :=
  x_ThrottleTimeMs <- dec_if (2 <=? version) dInt32 (ListOffsetResponse_ThrottleTimeMs t) ;;
  x_Topics <- (dec_array (ListOffsetTopicResponse2_Decode version ListOffsetTopicResponse2_zero) (ListOffsetResponse_Topics t)) ;;
  ret (mkListOffsetResponse x_ThrottleTimeMs x_Topics).
(** the struct declaration read as a schema; version ranges as in Size *)
Definition ListOffsetResponse_schema : fields :=
  FCons "ThrottleTimeMs" (From 2) TInt32
  (FCons "Topics" Always (TArray ListOffsetTopicResponse2_schema) FNil).
Definition ListOffsetResponse_to (t : ListOffsetResponse) : dens ListOffsetResponse_schema := (ListOffsetResponse_ThrottleTimeMs t, (option_map (map ListOffsetTopicResponse2_to) (ListOffsetResponse_Topics t), tt)).
Definition ListOffsetResponse_of (x : dens ListOffsetResponse_schema) : ListOffsetResponse := mkListOffsetResponse (fst x) (option_map (map ListOffsetTopicResponse2_of) (fst (snd x))).
Definition ListOffsetResponse_codec : codec := Codec ListOffsetResponse ListOffsetResponse_zero ListOffsetResponse_Size ListOffsetResponse_Encode ListOffsetResponse_Decode ListOffsetResponse_schema ListOffsetResponse_to ListOffsetResponse_of.
Lemma ListOffsetResponse_linked : linked ListOffsetResponse_codec.
Proof.
  apply Linked; cbn [ListOffsetResponse_codec c_type c_zero c_size c_encode c_decode c_schema c_to c_of].
  - intros t. destruct t. cbv [ListOffsetResponse_of ListOffsetResponse_to]. cbn [fst snd ListOffsetResponse_ThrottleTimeMs ListOffsetResponse_Topics]. rewrite ?(option_map_map_inv ListOffsetTopicResponse2_to ListOffsetTopicResponse2_of _ (l_of_to _ ListOffsetTopicResponse2_linked)). reflexivity.
  - intros x. unfold ListOffsetResponse_schema in x. cbn [dens den] in x. destruct x as [x0 x]. destruct x as [x1 x]. destruct x. cbv [ListOffsetResponse_of ListOffsetResponse_to]. cbn [fst snd ListOffsetResponse_ThrottleTimeMs ListOffsetResponse_Topics]. rewrite ?(option_map_map_inv ListOffsetTopicResponse2_of ListOffsetTopicResponse2_to _ (l_to_of _ ListOffsetTopicResponse2_linked)). reflexivity.
  - reflexivity.
  - intros v t. unfold ListOffsetResponse_Size, ListOffsetResponse_schema, ListOffsetResponse_to. apply size_start.
    apply size_step; [intros sz; reflexivity|].
    apply size_step; [intros sz; apply (size_field_link (ListOffsetTopicResponse2_Size v) ListOffsetTopicResponse2_schema ListOffsetTopicResponse2_to v (l_size _ ListOffsetTopicResponse2_linked v) true)|].
    intros sz; reflexivity.
  - intros v t. unfold ListOffsetResponse_Encode, ListOffsetResponse_schema, ListOffsetResponse_to.
    apply enc_step; [intros e; reflexivity|].
    apply enc_step; [intros e; apply (put_field_link (ListOffsetTopicResponse2_Encode v) ListOffsetTopicResponse2_schema ListOffsetTopicResponse2_to v (l_encode _ ListOffsetTopicResponse2_linked v) true)|].
    intros e; reflexivity.
  - intros v t. unfold ListOffsetResponse_Decode, ListOffsetResponse_schema, ListOffsetResponse_to.
    dec_field (fun x : Z => x); [apply dec_if_link; [apply dmap_id|reflexivity]|intros x_ThrottleTimeMs].
    dec_field (option_map (map ListOffsetTopicResponse2_of)); [apply (dec_array_link _ _ ListOffsetTopicResponse2_of ListOffsetTopicResponse2_to (l_decode _ ListOffsetTopicResponse2_linked v ListOffsetTopicResponse2_zero) (l_of_to _ ListOffsetTopicResponse2_linked))|intros x_Topics].
    intros d; reflexivity.
Qed.
Local Opaque ListOffsetResponse_Size ListOffsetResponse_Encode ListOffsetResponse_Decode.

