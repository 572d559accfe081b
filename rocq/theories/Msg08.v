(** * Generated message types (part 8 of 10).

    Written by tools/gen_messages.py from message/messages.gen.go, one
    definition per Go method; do not edit.  A Decode method that fails leaves
    a partly filled receiver behind, which no caller looks at; the model drops
    it. *)
From Coq Require Import String.
From Verif Require Import GoBase Encoder Decoder Sizeof SchemaSpec Schema Link.
Open Scope Z_scope.

(** ** AlterReplicaLogDirPartitionResult34 *)

(** message/messages.gen.go:9276-9279 *)
Record AlterReplicaLogDirPartitionResult34 : Type := mkAlterReplicaLogDirPartitionResult34 { AlterReplicaLogDirPartitionResult34_PartitionIndex : Z; AlterReplicaLogDirPartitionResult34_ErrorCode : Z }.
(** the zero value ([var item AlterReplicaLogDirPartitionResult34]) *)
Definition AlterReplicaLogDirPartitionResult34_zero : AlterReplicaLogDirPartitionResult34 := mkAlterReplicaLogDirPartitionResult34 0 0.
(** message/messages.gen.go:9282-9287 *)
Definition AlterReplicaLogDirPartitionResult34_Size (version : Z) (t : AlterReplicaLogDirPartitionResult34) : Z :=
  ((size_add sz_Int32) +>
   (size_add sz_Int16) +>
   size_done)%size 0.
(** message/messages.gen.go:9290-9293 *)
Definition AlterReplicaLogDirPartitionResult34_Encode (version : Z) (t : AlterReplicaLogDirPartitionResult34) : Encoder -> Encoder :=
  ((PutInt32 (AlterReplicaLogDirPartitionResult34_PartitionIndex t)) >>
   (PutInt16 (AlterReplicaLogDirPartitionResult34_ErrorCode t)) >>
   skip)%enc.
(** message/messages.gen.go:9296-9307 *)
Definition AlterReplicaLogDirPartitionResult34_Decode (version : Z) (t : AlterReplicaLogDirPartitionResult34) : Dec AlterReplicaLogDirPartitionResult34 :=
  x_PartitionIndex <- dInt32 ;;
  x_ErrorCode <- dInt16 ;;
  ret (mkAlterReplicaLogDirPartitionResult34 x_PartitionIndex x_ErrorCode).
(** the struct declaration read as a schema; version ranges as in Size *)
Definition AlterReplicaLogDirPartitionResult34_schema : fields :=
  FCons "PartitionIndex" Always TInt32
  (FCons "ErrorCode" Always TInt16 FNil).
Definition AlterReplicaLogDirPartitionResult34_to (t : AlterReplicaLogDirPartitionResult34) : dens AlterReplicaLogDirPartitionResult34_schema := (AlterReplicaLogDirPartitionResult34_PartitionIndex t, (AlterReplicaLogDirPartitionResult34_ErrorCode t, tt)).
Definition AlterReplicaLogDirPartitionResult34_of (x : dens AlterReplicaLogDirPartitionResult34_schema) : AlterReplicaLogDirPartitionResult34 := mkAlterReplicaLogDirPartitionResult34 (fst x) (fst (snd x)).
Definition AlterReplicaLogDirPartitionResult34_codec : codec := Codec AlterReplicaLogDirPartitionResult34 AlterReplicaLogDirPartitionResult34_zero AlterReplicaLogDirPartitionResult34_Size AlterReplicaLogDirPartitionResult34_Encode AlterReplicaLogDirPartitionResult34_Decode AlterReplicaLogDirPartitionResult34_schema AlterReplicaLogDirPartitionResult34_to AlterReplicaLogDirPartitionResult34_of.
Lemma AlterReplicaLogDirPartitionResult34_linked : linked AlterReplicaLogDirPartitionResult34_codec.
Proof.
  apply Linked; cbn [AlterReplicaLogDirPartitionResult34_codec c_type c_zero c_size c_encode c_decode c_schema c_to c_of].
  - intros t. destruct t. cbv [AlterReplicaLogDirPartitionResult34_of AlterReplicaLogDirPartitionResult34_to]. cbn [fst snd AlterReplicaLogDirPartitionResult34_PartitionIndex AlterReplicaLogDirPartitionResult34_ErrorCode].  reflexivity.
  - intros x. unfold AlterReplicaLogDirPartitionResult34_schema in x. cbn [dens den] in x. destruct x as [x0 x]. destruct x as [x1 x]. destruct x. cbv [AlterReplicaLogDirPartitionResult34_of AlterReplicaLogDirPartitionResult34_to]. cbn [fst snd AlterReplicaLogDirPartitionResult34_PartitionIndex AlterReplicaLogDirPartitionResult34_ErrorCode].  reflexivity.
  - reflexivity.
  - intros v t. unfold AlterReplicaLogDirPartitionResult34_Size, AlterReplicaLogDirPartitionResult34_schema, AlterReplicaLogDirPartitionResult34_to. apply size_start.
    apply size_step; [intros sz; reflexivity|].
    apply size_step; [intros sz; reflexivity|].
    intros sz; reflexivity.
  - intros v t. unfold AlterReplicaLogDirPartitionResult34_Encode, AlterReplicaLogDirPartitionResult34_schema, AlterReplicaLogDirPartitionResult34_to.
    apply enc_step; [intros e; reflexivity|].
    apply enc_step; [intros e; reflexivity|].
    intros e; reflexivity.
  - intros v t. unfold AlterReplicaLogDirPartitionResult34_Decode, AlterReplicaLogDirPartitionResult34_schema, AlterReplicaLogDirPartitionResult34_to.
    dec_field (fun x : Z => x); [apply dmap_id|intros x_PartitionIndex].
    dec_field (fun x : Z => x); [apply dmap_id|intros x_ErrorCode].
    intros d; reflexivity.
Qed.
Local Opaque AlterReplicaLogDirPartitionResult34_Size AlterReplicaLogDirPartitionResult34_Encode AlterReplicaLogDirPartitionResult34_Decode.

(** ** AlterReplicaLogDirTopicResult34 *)

(** message/messages.gen.go:9226-9229 *)
Record AlterReplicaLogDirTopicResult34 : Type := mkAlterReplicaLogDirTopicResult34 { AlterReplicaLogDirTopicResult34_TopicName : gostring; AlterReplicaLogDirTopicResult34_Partitions : gslice AlterReplicaLogDirPartitionResult34 }.
(** the zero value ([var item AlterReplicaLogDirTopicResult34]) *)
Definition AlterReplicaLogDirTopicResult34_zero : AlterReplicaLogDirTopicResult34 := mkAlterReplicaLogDirTopicResult34 [] None.
(** message/messages.gen.go:9232-9240 *)
Definition AlterReplicaLogDirTopicResult34_Size (version : Z) (t : AlterReplicaLogDirTopicResult34) : Z :=
  ((size_add (sz_String (AlterReplicaLogDirTopicResult34_TopicName t))) +>
   (size_loop (AlterReplicaLogDirPartitionResult34_Size version) (AlterReplicaLogDirTopicResult34_Partitions t)) +>
   size_done)%size 0.
(** message/messages.gen.go:9243-9251 *)
Definition AlterReplicaLogDirTopicResult34_Encode (version : Z) (t : AlterReplicaLogDirTopicResult34) : Encoder -> Encoder :=
  ((PutString (AlterReplicaLogDirTopicResult34_TopicName t)) >>
   (put_array (AlterReplicaLogDirPartitionResult34_Encode version) (AlterReplicaLogDirTopicResult34_Partitions t)) >>
   skip)%enc.
(** message/messages.gen.go:9254-9274 *)
Definition AlterReplicaLogDirTopicResult34_Decode (version : Z) (t : AlterReplicaLogDirTopicResult34) : Dec AlterReplicaLogDirTopicResult34 :=
  x_TopicName <- dString ;;
  x_Partitions <- (dec_array (AlterReplicaLogDirPartitionResult34_Decode version AlterReplicaLogDirPartitionResult34_zero) (AlterReplicaLogDirTopicResult34_Partitions t)) ;;
  ret (mkAlterReplicaLogDirTopicResult34 x_TopicName x_Partitions).
(** the struct declaration read as a schema; version ranges as in Size *)
Definition AlterReplicaLogDirTopicResult34_schema : fields :=
  FCons "TopicName" Always TString
  (FCons "Partitions" Always (TArray AlterReplicaLogDirPartitionResult34_schema) FNil).
Definition AlterReplicaLogDirTopicResult34_to (t : AlterReplicaLogDirTopicResult34) : dens AlterReplicaLogDirTopicResult34_schema := (AlterReplicaLogDirTopicResult34_TopicName t, (option_map (map AlterReplicaLogDirPartitionResult34_to) (AlterReplicaLogDirTopicResult34_Partitions t), tt)).
Definition AlterReplicaLogDirTopicResult34_of (x : dens AlterReplicaLogDirTopicResult34_schema) : AlterReplicaLogDirTopicResult34 := mkAlterReplicaLogDirTopicResult34 (fst x) (option_map (map AlterReplicaLogDirPartitionResult34_of) (fst (snd x))).
Definition AlterReplicaLogDirTopicResult34_codec : codec := Codec AlterReplicaLogDirTopicResult34 AlterReplicaLogDirTopicResult34_zero AlterReplicaLogDirTopicResult34_Size AlterReplicaLogDirTopicResult34_Encode AlterReplicaLogDirTopicResult34_Decode AlterReplicaLogDirTopicResult34_schema AlterReplicaLogDirTopicResult34_to AlterReplicaLogDirTopicResult34_of.
Lemma AlterReplicaLogDirTopicResult34_linked : linked AlterReplicaLogDirTopicResult34_codec.
Proof.
  apply Linked; cbn [AlterReplicaLogDirTopicResult34_codec c_type c_zero c_size c_encode c_decode c_schema c_to c_of].
  - intros t. destruct t. cbv [AlterReplicaLogDirTopicResult34_of AlterReplicaLogDirTopicResult34_to]. cbn [fst snd AlterReplicaLogDirTopicResult34_TopicName AlterReplicaLogDirTopicResult34_Partitions]. rewrite ?(option_map_map_inv AlterReplicaLogDirPartitionResult34_to AlterReplicaLogDirPartitionResult34_of _ (l_of_to _ AlterReplicaLogDirPartitionResult34_linked)). reflexivity.
  - intros x. unfold AlterReplicaLogDirTopicResult34_schema in x. cbn [dens den] in x. destruct x as [x0 x]. destruct x as [x1 x]. destruct x. cbv [AlterReplicaLogDirTopicResult34_of AlterReplicaLogDirTopicResult34_to]. cbn [fst snd AlterReplicaLogDirTopicResult34_TopicName AlterReplicaLogDirTopicResult34_Partitions]. rewrite ?(option_map_map_inv AlterReplicaLogDirPartitionResult34_of AlterReplicaLogDirPartitionResult34_to _ (l_to_of _ AlterReplicaLogDirPartitionResult34_linked)). reflexivity.
  - reflexivity.
  - intros v t. unfold AlterReplicaLogDirTopicResult34_Size, AlterReplicaLogDirTopicResult34_schema, AlterReplicaLogDirTopicResult34_to. apply size_start.
    apply size_step; [intros sz; reflexivity|].
    apply size_step; [intros sz; apply (size_field_link (AlterReplicaLogDirPartitionResult34_Size v) AlterReplicaLogDirPartitionResult34_schema AlterReplicaLogDirPartitionResult34_to v (l_size _ AlterReplicaLogDirPartitionResult34_linked v) true)|].
    intros sz; reflexivity.
  - intros v t. unfold AlterReplicaLogDirTopicResult34_Encode, AlterReplicaLogDirTopicResult34_schema, AlterReplicaLogDirTopicResult34_to.
    apply enc_step; [intros e; reflexivity|].
    apply enc_step; [intros e; apply (put_field_link (AlterReplicaLogDirPartitionResult34_Encode v) AlterReplicaLogDirPartitionResult34_schema AlterReplicaLogDirPartitionResult34_to v (l_encode _ AlterReplicaLogDirPartitionResult34_linked v) true)|].
    intros e; reflexivity.
  - intros v t. unfold AlterReplicaLogDirTopicResult34_Decode, AlterReplicaLogDirTopicResult34_schema, AlterReplicaLogDirTopicResult34_to.
    dec_field (fun x : gostring => x); [apply dmap_id|intros x_TopicName].
    dec_field (option_map (map AlterReplicaLogDirPartitionResult34_of)); [apply (dec_array_link _ _ AlterReplicaLogDirPartitionResult34_of AlterReplicaLogDirPartitionResult34_to (l_decode _ AlterReplicaLogDirPartitionResult34_linked v AlterReplicaLogDirPartitionResult34_zero) (l_of_to _ AlterReplicaLogDirPartitionResult34_linked))|intros x_Partitions].
    intros d; reflexivity.
Qed.
Local Opaque AlterReplicaLogDirTopicResult34_Size AlterReplicaLogDirTopicResult34_Encode AlterReplicaLogDirTopicResult34_Decode.

(** ** AlterReplicaLogDirsResponse *)

(** message/messages.gen.go:9176-9179 *)
Record AlterReplicaLogDirsResponse : Type := mkAlterReplicaLogDirsResponse { AlterReplicaLogDirsResponse_ThrottleTimeMs : Z; AlterReplicaLogDirsResponse_Results : gslice AlterReplicaLogDirTopicResult34 }.
(** the zero value ([var item AlterReplicaLogDirsResponse]) *)
Definition AlterReplicaLogDirsResponse_zero : AlterReplicaLogDirsResponse := mkAlterReplicaLogDirsResponse 0 None.
(** message/messages.gen.go:9182-9190 *)
Definition AlterReplicaLogDirsResponse_Size (version : Z) (t : AlterReplicaLogDirsResponse) : Z :=
  ((size_add sz_Int32) +>
   (size_loop (AlterReplicaLogDirTopicResult34_Size version) (AlterReplicaLogDirsResponse_Results t)) +>
   size_done)%size 0.
(** message/messages.gen.go:9193-9201 *)
Definition AlterReplicaLogDirsResponse_Encode (version : Z) (t : AlterReplicaLogDirsResponse) : Encoder -> Encoder :=
  ((PutInt32 (AlterReplicaLogDirsResponse_ThrottleTimeMs t)) >>
   (put_array (AlterReplicaLogDirTopicResult34_Encode version) (AlterReplicaLogDirsResponse_Results t)) >>
   skip)%enc.
(** message/messages.gen.go:9204-9224 *)
Definition AlterReplicaLogDirsResponse_Decode (version : Z) (t : AlterReplicaLogDirsResponse) : Dec AlterReplicaLogDirsResponse :=
  x_ThrottleTimeMs <- dInt32 ;;
  x_Results <- (dec_array (AlterReplicaLogDirTopicResult34_Decode version AlterReplicaLogDirTopicResult34_zero) (AlterReplicaLogDirsResponse_Results t)) ;;
  ret (mkAlterReplicaLogDirsResponse x_ThrottleTimeMs x_Results).
(** the struct declaration read as a schema; version ranges as in Size *)
Definition AlterReplicaLogDirsResponse_schema : fields :=
  FCons "ThrottleTimeMs" Always TInt32
  (FCons "Results" Always (TArray AlterReplicaLogDirTopicResult34_schema) FNil).
Definition AlterReplicaLogDirsResponse_to (t : AlterReplicaLogDirsResponse) : dens AlterReplicaLogDirsResponse_schema := (AlterReplicaLogDirsResponse_ThrottleTimeMs t, (option_map (map AlterReplicaLogDirTopicResult34_to) (AlterReplicaLogDirsResponse_Results t), tt)).
Definition AlterReplicaLogDirsResponse_of (x : dens AlterReplicaLogDirsResponse_schema) : AlterReplicaLogDirsResponse := mkAlterReplicaLogDirsResponse (fst x) (option_map (map AlterReplicaLogDirTopicResult34_of) (fst (snd x))).
Definition AlterReplicaLogDirsResponse_codec : codec := Codec AlterReplicaLogDirsResponse AlterReplicaLogDirsResponse_zero AlterReplicaLogDirsResponse_Size AlterReplicaLogDirsResponse_Encode AlterReplicaLogDirsResponse_Decode AlterReplicaLogDirsResponse_schema AlterReplicaLogDirsResponse_to AlterReplicaLogDirsResponse_of.
Lemma AlterReplicaLogDirsResponse_linked : linked AlterReplicaLogDirsResponse_codec.
Proof.
  apply Linked; cbn [AlterReplicaLogDirsResponse_codec c_type c_zero c_size c_encode c_decode c_schema c_to c_of].
  - intros t. destruct t. cbv [AlterReplicaLogDirsResponse_of AlterReplicaLogDirsResponse_to]. cbn [fst snd AlterReplicaLogDirsResponse_ThrottleTimeMs AlterReplicaLogDirsResponse_Results]. rewrite ?(option_map_map_inv AlterReplicaLogDirTopicResult34_to AlterReplicaLogDirTopicResult34_of _ (l_of_to _ AlterReplicaLogDirTopicResult34_linked)). reflexivity.
  - intros x. unfold AlterReplicaLogDirsResponse_schema in x. cbn [dens den] in x. destruct x as [x0 x]. destruct x as [x1 x]. destruct x. cbv [AlterReplicaLogDirsResponse_of AlterReplicaLogDirsResponse_to]. cbn [fst snd AlterReplicaLogDirsResponse_ThrottleTimeMs AlterReplicaLogDirsResponse_Results]. rewrite ?(option_map_map_inv AlterReplicaLogDirTopicResult34_of AlterReplicaLogDirTopicResult34_to _ (l_to_of _ AlterReplicaLogDirTopicResult34_linked)). reflexivity.
  - reflexivity.
  - intros v t. unfold AlterReplicaLogDirsResponse_Size, AlterReplicaLogDirsResponse_schema, AlterReplicaLogDirsResponse_to. apply size_start.
    apply size_step; [intros sz; reflexivity|].
    apply size_step; [intros sz; apply (size_field_link (AlterReplicaLogDirTopicResult34_Size v) AlterReplicaLogDirTopicResult34_schema AlterReplicaLogDirTopicResult34_to v (l_size _ AlterReplicaLogDirTopicResult34_linked v) true)|].
    intros sz; reflexivity.
  - intros v t. unfold AlterReplicaLogDirsResponse_Encode, AlterReplicaLogDirsResponse_schema, AlterReplicaLogDirsResponse_to.
    apply enc_step; [intros e; reflexivity|].
    apply enc_step; [intros e; apply (put_field_link (AlterReplicaLogDirTopicResult34_Encode v) AlterReplicaLogDirTopicResult34_schema AlterReplicaLogDirTopicResult34_to v (l_encode _ AlterReplicaLogDirTopicResult34_linked v) true)|].
    intros e; reflexivity.
  - intros v t. unfold AlterReplicaLogDirsResponse_Decode, AlterReplicaLogDirsResponse_schema, AlterReplicaLogDirsResponse_to.
    dec_field (fun x : Z => x); [apply dmap_id|intros x_ThrottleTimeMs].
    dec_field (option_map (map AlterReplicaLogDirTopicResult34_of)); [apply (dec_array_link _ _ AlterReplicaLogDirTopicResult34_of AlterReplicaLogDirTopicResult34_to (l_decode _ AlterReplicaLogDirTopicResult34_linked v AlterReplicaLogDirTopicResult34_zero) (l_of_to _ AlterReplicaLogDirTopicResult34_linked))|intros x_Results].
    intros d; reflexivity.
Qed.
Local Opaque AlterReplicaLogDirsResponse_Size AlterReplicaLogDirsResponse_Encode AlterReplicaLogDirsResponse_Decode.

(** ** DescribableLogDirTopic35 *)

(** message/messages.gen.go:9353-9356 *)
Record DescribableLogDirTopic35 : Type := mkDescribableLogDirTopic35 { DescribableLogDirTopic35_Topic : gostring; DescribableLogDirTopic35_PartitionIndex : gslice Z }.
(** the zero value ([var item DescribableLogDirTopic35]) *)
Definition DescribableLogDirTopic35_zero : DescribableLogDirTopic35 := mkDescribableLogDirTopic35 [] None.
(** message/messages.gen.go:9359-9364 *)
Definition DescribableLogDirTopic35_Size (version : Z) (t : DescribableLogDirTopic35) : Z :=
  ((size_add (sz_String (DescribableLogDirTopic35_Topic t))) +>
   (size_add (sz_Int32Array (DescribableLogDirTopic35_PartitionIndex t))) +>
   size_done)%size 0.
(** message/messages.gen.go:9367-9370 *)
Definition DescribableLogDirTopic35_Encode (version : Z) (t : DescribableLogDirTopic35) : Encoder -> Encoder :=
  ((PutString (DescribableLogDirTopic35_Topic t)) >>
   (PutInt32Array (DescribableLogDirTopic35_PartitionIndex t)) >>
   skip)%enc.
(** message/messages.gen.go:9373-9384 *)
Definition DescribableLogDirTopic35_Decode (version : Z) (t : DescribableLogDirTopic35) : Dec DescribableLogDirTopic35 :=
  x_Topic <- dString ;;
  x_PartitionIndex <- dInt32Array ;;
  ret (mkDescribableLogDirTopic35 x_Topic x_PartitionIndex).
(** the struct declaration read as a schema; version ranges as in Size *)
Definition DescribableLogDirTopic35_schema : fields :=
  FCons "Topic" Always TString
  (FCons "PartitionIndex" Always TInt32Array FNil).
Definition DescribableLogDirTopic35_to (t : DescribableLogDirTopic35) : dens DescribableLogDirTopic35_schema := (DescribableLogDirTopic35_Topic t, (DescribableLogDirTopic35_PartitionIndex t, tt)).
Definition DescribableLogDirTopic35_of (x : dens DescribableLogDirTopic35_schema) : DescribableLogDirTopic35 := mkDescribableLogDirTopic35 (fst x) (fst (snd x)).
Definition DescribableLogDirTopic35_codec : codec := Codec DescribableLogDirTopic35 DescribableLogDirTopic35_zero DescribableLogDirTopic35_Size DescribableLogDirTopic35_Encode DescribableLogDirTopic35_Decode DescribableLogDirTopic35_schema DescribableLogDirTopic35_to DescribableLogDirTopic35_of.
Lemma DescribableLogDirTopic35_linked : linked DescribableLogDirTopic35_codec.
Proof.
  apply Linked; cbn [DescribableLogDirTopic35_codec c_type c_zero c_size c_encode c_decode c_schema c_to c_of].
  - intros t. destruct t. cbv [DescribableLogDirTopic35_of DescribableLogDirTopic35_to]. cbn [fst snd DescribableLogDirTopic35_Topic DescribableLogDirTopic35_PartitionIndex].  reflexivity.
  - intros x. unfold DescribableLogDirTopic35_schema in x. cbn [dens den] in x. destruct x as [x0 x]. destruct x as [x1 x]. destruct x. cbv [DescribableLogDirTopic35_of DescribableLogDirTopic35_to]. cbn [fst snd DescribableLogDirTopic35_Topic DescribableLogDirTopic35_PartitionIndex].  reflexivity.
  - reflexivity.
  - intros v t. unfold DescribableLogDirTopic35_Size, DescribableLogDirTopic35_schema, DescribableLogDirTopic35_to. apply size_start.
    apply size_step; [intros sz; reflexivity|].
    apply size_step; [intros sz; reflexivity|].
    intros sz; reflexivity.
  - intros v t. unfold DescribableLogDirTopic35_Encode, DescribableLogDirTopic35_schema, DescribableLogDirTopic35_to.
    apply enc_step; [intros e; reflexivity|].
    apply enc_step; [intros e; reflexivity|].
    intros e; reflexivity.
  - intros v t. unfold DescribableLogDirTopic35_Decode, DescribableLogDirTopic35_schema, DescribableLogDirTopic35_to.
    dec_field (fun x : gostring => x); [apply dmap_id|intros x_Topic].
    dec_field (fun x : gslice Z => x); [apply dmap_id|intros x_PartitionIndex].
    intros d; reflexivity.
Qed.
Local Opaque DescribableLogDirTopic35_Size DescribableLogDirTopic35_Encode DescribableLogDirTopic35_Decode.

(** ** DescribeLogDirsRequest *)

(** message/messages.gen.go:9310-9312 *)
Record DescribeLogDirsRequest : Type := mkDescribeLogDirsRequest { DescribeLogDirsRequest_Topics : gslice DescribableLogDirTopic35 }.
(** the zero value ([var item DescribeLogDirsRequest]) *)
Definition DescribeLogDirsRequest_zero : DescribeLogDirsRequest := mkDescribeLogDirsRequest None.
(** message/messages.gen.go:9315-9322 *)
Definition DescribeLogDirsRequest_Size (version : Z) (t : DescribeLogDirsRequest) : Z :=
  ((size_loop (DescribableLogDirTopic35_Size version) (DescribeLogDirsRequest_Topics t)) +>
   size_done)%size 0.
(** message/messages.gen.go:9325-9332 *)
Definition DescribeLogDirsRequest_Encode (version : Z) (t : DescribeLogDirsRequest) : Encoder -> Encoder :=
  ((put_array (DescribableLogDirTopic35_Encode version) (DescribeLogDirsRequest_Topics t)) >>
   skip)%enc.
(** message/messages.gen.go:9335-9351 *)
Definition DescribeLogDirsRequest_Decode (version : Z) (t : DescribeLogDirsRequest) : Dec DescribeLogDirsRequest :=
  x_Topics <- (dec_array (DescribableLogDirTopic35_Decode version DescribableLogDirTopic35_zero) (DescribeLogDirsRequest_Topics t)) ;;
  ret (mkDescribeLogDirsRequest x_Topics).
(** the struct declaration read as a schema; version ranges as in Size *)
Definition DescribeLogDirsRequest_schema : fields :=
  FCons "Topics" Always (TArray DescribableLogDirTopic35_schema) FNil.
Definition DescribeLogDirsRequest_to (t : DescribeLogDirsRequest) : dens DescribeLogDirsRequest_schema := (option_map (map DescribableLogDirTopic35_to) (DescribeLogDirsRequest_Topics t), tt).
Definition DescribeLogDirsRequest_of (x : dens DescribeLogDirsRequest_schema) : DescribeLogDirsRequest := mkDescribeLogDirsRequest (option_map (map DescribableLogDirTopic35_of) (fst x)).
Definition DescribeLogDirsRequest_codec : codec := Codec DescribeLogDirsRequest DescribeLogDirsRequest_zero DescribeLogDirsRequest_Size DescribeLogDirsRequest_Encode DescribeLogDirsRequest_Decode DescribeLogDirsRequest_schema DescribeLogDirsRequest_to DescribeLogDirsRequest_of.
Lemma DescribeLogDirsRequest_linked : linked DescribeLogDirsRequest_codec.
Proof.
  apply Linked; cbn [DescribeLogDirsRequest_codec c_type c_zero c_size c_encode c_decode c_schema c_to c_of].
  - intros t. destruct t. cbv [DescribeLogDirsRequest_of DescribeLogDirsRequest_to]. cbn [fst snd DescribeLogDirsRequest_Topics]. rewrite ?(option_map_map_inv DescribableLogDirTopic35_to DescribableLogDirTopic35_of _ (l_of_to _ DescribableLogDirTopic35_linked)). reflexivity.
  - intros x. unfold DescribeLogDirsRequest_schema in x. cbn [dens den] in x. destruct x as [x0 x]. destruct x. cbv [DescribeLogDirsRequest_of DescribeLogDirsRequest_to]. cbn [fst snd DescribeLogDirsRequest_Topics]. rewrite ?(option_map_map_inv DescribableLogDirTopic35_of DescribableLogDirTopic35_to _ (l_to_of _ DescribableLogDirTopic35_linked)). reflexivity.
  - reflexivity.
  - intros v t. unfold DescribeLogDirsRequest_Size, DescribeLogDirsRequest_schema, DescribeLogDirsRequest_to. apply size_start.
    apply size_step; [intros sz; apply (size_field_link (DescribableLogDirTopic35_Size v) DescribableLogDirTopic35_schema DescribableLogDirTopic35_to v (l_size _ DescribableLogDirTopic35_linked v) true)|].
    intros sz; reflexivity.
  - intros v t. unfold DescribeLogDirsRequest_Encode, DescribeLogDirsRequest_schema, DescribeLogDirsRequest_to.
    apply enc_step; [intros e; apply (put_field_link (DescribableLogDirTopic35_Encode v) DescribableLogDirTopic35_schema DescribableLogDirTopic35_to v (l_encode _ DescribableLogDirTopic35_linked v) true)|].
    intros e; reflexivity.
  - intros v t. unfold DescribeLogDirsRequest_Decode, DescribeLogDirsRequest_schema, DescribeLogDirsRequest_to.
    dec_field (option_map (map DescribableLogDirTopic35_of)); [apply (dec_array_link _ _ DescribableLogDirTopic35_of DescribableLogDirTopic35_to (l_decode _ DescribableLogDirTopic35_linked v DescribableLogDirTopic35_zero) (l_of_to _ DescribableLogDirTopic35_linked))|intros x_Topics].
    intros d; reflexivity.
Qed.
Local Opaque DescribeLogDirsRequest_Size DescribeLogDirsRequest_Encode DescribeLogDirsRequest_Decode.

(** ** DescribeLogDirsPartition35 *)

(** message/messages.gen.go:9544-9549 *)
Record DescribeLogDirsPartition35 : Type := mkDescribeLogDirsPartition35 { DescribeLogDirsPartition35_PartitionIndex : Z; DescribeLogDirsPartition35_PartitionSize : Z; DescribeLogDirsPartition35_OffsetLag : Z; DescribeLogDirsPartition35_IsFutureKey : bool }.
(** the zero value ([var item DescribeLogDirsPartition35]) *)
Definition DescribeLogDirsPartition35_zero : DescribeLogDirsPartition35 := mkDescribeLogDirsPartition35 0 0 0 false.
(** message/messages.gen.go:9552-9559 *)
Definition DescribeLogDirsPartition35_Size (version : Z) (t : DescribeLogDirsPartition35) : Z :=
  ((size_add sz_Int32) +>
   (size_add sz_Int64) +>
   (size_add sz_Int64) +>
   (size_add sz_Bool) +>
   size_done)%size 0.
(** message/messages.gen.go:9562-9567 *)
Definition DescribeLogDirsPartition35_Encode (version : Z) (t : DescribeLogDirsPartition35) : Encoder -> Encoder :=
  ((PutInt32 (DescribeLogDirsPartition35_PartitionIndex t)) >>
   (PutInt64 (DescribeLogDirsPartition35_PartitionSize t)) >>
   (PutInt64 (DescribeLogDirsPartition35_OffsetLag t)) >>
   (PutBool (DescribeLogDirsPartition35_IsFutureKey t)) >>
   skip)%enc.
(** message/messages.gen.go:9570-9589 *)
Definition DescribeLogDirsPartition35_Decode (version : Z) (t : DescribeLogDirsPartition35) : Dec DescribeLogDirsPartition35 :=
  x_PartitionIndex <- dInt32 ;;
  x_PartitionSize <- dInt64 ;;
  x_OffsetLag <- dInt64 ;;
  x_IsFutureKey <- dBool ;;
  ret (mkDescribeLogDirsPartition35 x_PartitionIndex x_PartitionSize x_OffsetLag x_IsFutureKey).
(** the struct declaration read as a schema; version ranges as in Size *)
Definition DescribeLogDirsPartition35_schema : fields :=
  FCons "PartitionIndex" Always TInt32
  (FCons "PartitionSize" Always TInt64
  (FCons "OffsetLag" Always TInt64
  (FCons "IsFutureKey" Always TBool FNil))).
Definition DescribeLogDirsPartition35_to (t : DescribeLogDirsPartition35) : dens DescribeLogDirsPartition35_schema := (DescribeLogDirsPartition35_PartitionIndex t, (DescribeLogDirsPartition35_PartitionSize t, (DescribeLogDirsPartition35_OffsetLag t, (DescribeLogDirsPartition35_IsFutureKey t, tt)))).
Definition DescribeLogDirsPartition35_of (x : dens DescribeLogDirsPartition35_schema) : DescribeLogDirsPartition35 := mkDescribeLogDirsPartition35 (fst x) (fst (snd x)) (fst (snd (snd x))) (fst (snd (snd (snd x)))).
Definition DescribeLogDirsPartition35_codec : codec := Codec DescribeLogDirsPartition35 DescribeLogDirsPartition35_zero DescribeLogDirsPartition35_Size DescribeLogDirsPartition35_Encode DescribeLogDirsPartition35_Decode DescribeLogDirsPartition35_schema DescribeLogDirsPartition35_to DescribeLogDirsPartition35_of.
Lemma DescribeLogDirsPartition35_linked : linked DescribeLogDirsPartition35_codec.
Proof.
  apply Linked; cbn [DescribeLogDirsPartition35_codec c_type c_zero c_size c_encode c_decode c_schema c_to c_of].
  - intros t. destruct t. cbv [DescribeLogDirsPartition35_of DescribeLogDirsPartition35_to]. cbn [fst snd DescribeLogDirsPartition35_PartitionIndex DescribeLogDirsPartition35_PartitionSize DescribeLogDirsPartition35_OffsetLag DescribeLogDirsPartition35_IsFutureKey].  reflexivity.
  - intros x. unfold DescribeLogDirsPartition35_schema in x. cbn [dens den] in x. destruct x as [x0 x]. destruct x as [x1 x]. destruct x as [x2 x]. destruct x as [x3 x]. destruct x. cbv [DescribeLogDirsPartition35_of DescribeLogDirsPartition35_to]. cbn [fst snd DescribeLogDirsPartition35_PartitionIndex DescribeLogDirsPartition35_PartitionSize DescribeLogDirsPartition35_OffsetLag DescribeLogDirsPartition35_IsFutureKey].  reflexivity.
  - reflexivity.
  - intros v t. unfold DescribeLogDirsPartition35_Size, DescribeLogDirsPartition35_schema, DescribeLogDirsPartition35_to. apply size_start.
    apply size_step; [intros sz; reflexivity|].
    apply size_step; [intros sz; reflexivity|].
    apply size_step; [intros sz; reflexivity|].
    apply size_step; [intros sz; reflexivity|].
    intros sz; reflexivity.
  - intros v t. unfold DescribeLogDirsPartition35_Encode, DescribeLogDirsPartition35_schema, DescribeLogDirsPartition35_to.
    apply enc_step; [intros e; reflexivity|].
    apply enc_step; [intros e; reflexivity|].
    apply enc_step; [intros e; reflexivity|].
    apply enc_step; [intros e; reflexivity|].
    intros e; reflexivity.
  - intros v t. unfold DescribeLogDirsPartition35_Decode, DescribeLogDirsPartition35_schema, DescribeLogDirsPartition35_to.
    dec_field (fun x : Z => x); [apply dmap_id|intros x_PartitionIndex].
    dec_field (fun x : Z => x); [apply dmap_id|intros x_PartitionSize].
    dec_field (fun x : Z => x); [apply dmap_id|intros x_OffsetLag].
    dec_field (fun x : bool => x); [apply dmap_id|intros x_IsFutureKey].
    intros d; reflexivity.
Qed.
Local Opaque DescribeLogDirsPartition35_Size DescribeLogDirsPartition35_Encode DescribeLogDirsPartition35_Decode.

(** ** DescribeLogDirsTopic35 *)

(** message/messages.gen.go:9494-9497 *)
Record DescribeLogDirsTopic35 : Type := mkDescribeLogDirsTopic35 { DescribeLogDirsTopic35_Name : gostring; DescribeLogDirsTopic35_Partitions : gslice DescribeLogDirsPartition35 }.
(** the zero value ([var item DescribeLogDirsTopic35]) *)
Definition DescribeLogDirsTopic35_zero : DescribeLogDirsTopic35 := mkDescribeLogDirsTopic35 [] None.
(** message/messages.gen.go:9500-9508 *)
Definition DescribeLogDirsTopic35_Size (version : Z) (t : DescribeLogDirsTopic35) : Z :=
  ((size_add (sz_String (DescribeLogDirsTopic35_Name t))) +>
   (size_loop (DescribeLogDirsPartition35_Size version) (DescribeLogDirsTopic35_Partitions t)) +>
   size_done)%size 0.
(** message/messages.gen.go:9511-9519 *)
Definition DescribeLogDirsTopic35_Encode (version : Z) (t : DescribeLogDirsTopic35) : Encoder -> Encoder :=
  ((PutString (DescribeLogDirsTopic35_Name t)) >>
   (put_array (DescribeLogDirsPartition35_Encode version) (DescribeLogDirsTopic35_Partitions t)) >>
   skip)%enc.
(** message/messages.gen.go:9522-9542 *)
Definition DescribeLogDirsTopic35_Decode (version : Z) (t : DescribeLogDirsTopic35) : Dec DescribeLogDirsTopic35 :=
  x_Name <- dString ;;
  x_Partitions <- (dec_array (DescribeLogDirsPartition35_Decode version DescribeLogDirsPartition35_zero) (DescribeLogDirsTopic35_Partitions t)) ;;
  ret (mkDescribeLogDirsTopic35 x_Name x_Partitions).
(** the struct declaration read as a schema; version ranges as in Size *)
Definition DescribeLogDirsTopic35_schema : fields :=
  FCons "Name" Always TString
  (FCons "Partitions" Always (TArray DescribeLogDirsPartition35_schema) FNil).
Definition DescribeLogDirsTopic35_to (t : DescribeLogDirsTopic35) : dens DescribeLogDirsTopic35_schema := (DescribeLogDirsTopic35_Name t, (option_map (map DescribeLogDirsPartition35_to) (DescribeLogDirsTopic35_Partitions t), tt)).
Definition DescribeLogDirsTopic35_of (x : dens DescribeLogDirsTopic35_schema) : DescribeLogDirsTopic35 := mkDescribeLogDirsTopic35 (fst x) (option_map (map DescribeLogDirsPartition35_of) (fst (snd x))).
Definition DescribeLogDirsTopic35_codec : codec := Codec DescribeLogDirsTopic35 DescribeLogDirsTopic35_zero DescribeLogDirsTopic35_Size DescribeLogDirsTopic35_Encode DescribeLogDirsTopic35_Decode DescribeLogDirsTopic35_schema DescribeLogDirsTopic35_to DescribeLogDirsTopic35_of.
Lemma DescribeLogDirsTopic35_linked : linked DescribeLogDirsTopic35_codec.
Proof.
  apply Linked; cbn [DescribeLogDirsTopic35_codec c_type c_zero c_size c_encode c_decode c_schema c_to c_of].
  - intros t. destruct t. cbv [DescribeLogDirsTopic35_of DescribeLogDirsTopic35_to]. cbn [fst snd DescribeLogDirsTopic35_Name DescribeLogDirsTopic35_Partitions]. rewrite ?(option_map_map_inv DescribeLogDirsPartition35_to DescribeLogDirsPartition35_of _ (l_of_to _ DescribeLogDirsPartition35_linked)). reflexivity.
  - intros x. unfold DescribeLogDirsTopic35_schema in x. cbn [dens den] in x. destruct x as [x0 x]. destruct x as [x1 x]. destruct x. cbv [DescribeLogDirsTopic35_of DescribeLogDirsTopic35_to]. cbn [fst snd DescribeLogDirsTopic35_Name DescribeLogDirsTopic35_Partitions]. rewrite ?(option_map_map_inv DescribeLogDirsPartition35_of DescribeLogDirsPartition35_to _ (l_to_of _ DescribeLogDirsPartition35_linked)). reflexivity.
  - reflexivity.
  - intros v t. unfold DescribeLogDirsTopic35_Size, DescribeLogDirsTopic35_schema, DescribeLogDirsTopic35_to. apply size_start.
    apply size_step; [intros sz; reflexivity|].
    apply size_step; [intros sz; apply (size_field_link (DescribeLogDirsPartition35_Size v) DescribeLogDirsPartition35_schema DescribeLogDirsPartition35_to v (l_size _ DescribeLogDirsPartition35_linked v) true)|].
    intros sz; reflexivity.
  - intros v t. unfold DescribeLogDirsTopic35_Encode, DescribeLogDirsTopic35_schema, DescribeLogDirsTopic35_to.
    apply enc_step; [intros e; reflexivity|].
    apply enc_step; [intros e; apply (put_field_link (DescribeLogDirsPartition35_Encode v) DescribeLogDirsPartition35_schema DescribeLogDirsPartition35_to v (l_encode _ DescribeLogDirsPartition35_linked v) true)|].
    intros e; reflexivity.
  - intros v t. unfold DescribeLogDirsTopic35_Decode, DescribeLogDirsTopic35_schema, DescribeLogDirsTopic35_to.
    dec_field (fun x : gostring => x); [apply dmap_id|intros x_Name].
    dec_field (option_map (map DescribeLogDirsPartition35_of)); [apply (dec_array_link _ _ DescribeLogDirsPartition35_of DescribeLogDirsPartition35_to (l_decode _ DescribeLogDirsPartition35_linked v DescribeLogDirsPartition35_zero) (l_of_to _ DescribeLogDirsPartition35_linked))|intros x_Partitions].
    intros d; reflexivity.
Qed.
Local Opaque DescribeLogDirsTopic35_Size DescribeLogDirsTopic35_Encode DescribeLogDirsTopic35_Decode.

(** ** DescribeLogDirsResult35 *)

(** message/messages.gen.go:9437-9441 *)
Record DescribeLogDirsResult35 : Type := mkDescribeLogDirsResult35 { DescribeLogDirsResult35_ErrorCode : Z; DescribeLogDirsResult35_LogDir : gostring; DescribeLogDirsResult35_Topics : gslice DescribeLogDirsTopic35 }.
(** the zero value ([var item DescribeLogDirsResult35]) *)
Definition DescribeLogDirsResult35_zero : DescribeLogDirsResult35 := mkDescribeLogDirsResult35 0 [] None.
(** message/messages.gen.go:9444-9453 *)
Definition DescribeLogDirsResult35_Size (version : Z) (t : DescribeLogDirsResult35) : Z :=
  ((size_add sz_Int16) +>
   (size_add (sz_String (DescribeLogDirsResult35_LogDir t))) +>
   (size_loop (DescribeLogDirsTopic35_Size version) (DescribeLogDirsResult35_Topics t)) +>
   size_done)%size 0.
(** message/messages.gen.go:9456-9465 *)
Definition DescribeLogDirsResult35_Encode (version : Z) (t : DescribeLogDirsResult35) : Encoder -> Encoder :=
  ((PutInt16 (DescribeLogDirsResult35_ErrorCode t)) >>
   (PutString (DescribeLogDirsResult35_LogDir t)) >>
   (put_array (DescribeLogDirsTopic35_Encode version) (DescribeLogDirsResult35_Topics t)) >>
   skip)%enc.
(** message/messages.gen.go:9468-9492 *)
Definition DescribeLogDirsResult35_Decode (version : Z) (t : DescribeLogDirsResult35) : Dec DescribeLogDirsResult35 :=
  x_ErrorCode <- dInt16 ;;
  x_LogDir <- dString ;;
  x_Topics <- (dec_array (DescribeLogDirsTopic35_Decode version DescribeLogDirsTopic35_zero) (DescribeLogDirsResult35_Topics t)) ;;
  ret (mkDescribeLogDirsResult35 x_ErrorCode x_LogDir x_Topics).
(** the struct declaration read as a schema; version ranges as in Size *)
Definition DescribeLogDirsResult35_schema : fields :=
  FCons "ErrorCode" Always TInt16
  (FCons "LogDir" Always TString
  (FCons "Topics" Always (TArray DescribeLogDirsTopic35_schema) FNil)).
Definition DescribeLogDirsResult35_to (t : DescribeLogDirsResult35) : dens DescribeLogDirsResult35_schema := (DescribeLogDirsResult35_ErrorCode t, (DescribeLogDirsResult35_LogDir t, (option_map (map DescribeLogDirsTopic35_to) (DescribeLogDirsResult35_Topics t), tt))).
Definition DescribeLogDirsResult35_of (x : dens DescribeLogDirsResult35_schema) : DescribeLogDirsResult35 := mkDescribeLogDirsResult35 (fst x) (fst (snd x)) (option_map (map DescribeLogDirsTopic35_of) (fst (snd (snd x)))).
Definition DescribeLogDirsResult35_codec : codec := Codec DescribeLogDirsResult35 DescribeLogDirsResult35_zero DescribeLogDirsResult35_Size DescribeLogDirsResult35_Encode DescribeLogDirsResult35_Decode DescribeLogDirsResult35_schema DescribeLogDirsResult35_to DescribeLogDirsResult35_of.
Lemma DescribeLogDirsResult35_linked : linked DescribeLogDirsResult35_codec.
Proof.
  apply Linked; cbn [DescribeLogDirsResult35_codec c_type c_zero c_size c_encode c_decode c_schema c_to c_of].
  - intros t. destruct t. cbv [DescribeLogDirsResult35_of DescribeLogDirsResult35_to]. cbn [fst snd DescribeLogDirsResult35_ErrorCode DescribeLogDirsResult35_LogDir DescribeLogDirsResult35_Topics]. rewrite ?(option_map_map_inv DescribeLogDirsTopic35_to DescribeLogDirsTopic35_of _ (l_of_to _ DescribeLogDirsTopic35_linked)). reflexivity.
  - intros x. unfold DescribeLogDirsResult35_schema in x. cbn [dens den] in x. destruct x as [x0 x]. destruct x as [x1 x]. destruct x as [x2 x]. destruct x. cbv [DescribeLogDirsResult35_of DescribeLogDirsResult35_to]. cbn [fst snd DescribeLogDirsResult35_ErrorCode DescribeLogDirsResult35_LogDir DescribeLogDirsResult35_Topics]. rewrite ?(option_map_map_inv DescribeLogDirsTopic35_of DescribeLogDirsTopic35_to _ (l_to_of _ DescribeLogDirsTopic35_linked)). reflexivity.
  - reflexivity.
  - intros v t. unfold DescribeLogDirsResult35_Size, DescribeLogDirsResult35_schema, DescribeLogDirsResult35_to. apply size_start.
    apply size_step; [intros sz; reflexivity|].
    apply size_step; [intros sz; reflexivity|].
    apply size_step; [intros sz; apply (size_field_link (DescribeLogDirsTopic35_Size v) DescribeLogDirsTopic35_schema DescribeLogDirsTopic35_to v (l_size _ DescribeLogDirsTopic35_linked v) true)|].
    intros sz; reflexivity.
  - intros v t. unfold DescribeLogDirsResult35_Encode, DescribeLogDirsResult35_schema, DescribeLogDirsResult35_to.
    apply enc_step; [intros e; reflexivity|].
    apply enc_step; [intros e; reflexivity|].
    apply enc_step; [intros e; apply (put_field_link (DescribeLogDirsTopic35_Encode v) DescribeLogDirsTopic35_schema DescribeLogDirsTopic35_to v (l_encode _ DescribeLogDirsTopic35_linked v) true)|].
    intros e; reflexivity.
  - intros v t. unfold DescribeLogDirsResult35_Decode, DescribeLogDirsResult35_schema, DescribeLogDirsResult35_to.
    dec_field (fun x : Z => x); [apply dmap_id|intros x_ErrorCode].
    dec_field (fun x : gostring => x); [apply dmap_id|intros x_LogDir].
    dec_field (option_map (map DescribeLogDirsTopic35_of)); [apply (dec_array_link _ _ DescribeLogDirsTopic35_of DescribeLogDirsTopic35_to (l_decode _ DescribeLogDirsTopic35_linked v DescribeLogDirsTopic35_zero) (l_of_to _ DescribeLogDirsTopic35_linked))|intros x_Topics].
    intros d; reflexivity.
Qed.
Local Opaque DescribeLogDirsResult35_Size DescribeLogDirsResult35_Encode DescribeLogDirsResult35_Decode.

(** ** DescribeLogDirsResponse *)

(** message/messages.gen.go:9387-9390 *)
Record DescribeLogDirsResponse : Type := mkDescribeLogDirsResponse { DescribeLogDirsResponse_ThrottleTimeMs : Z; DescribeLogDirsResponse_Results : gslice DescribeLogDirsResult35 }.
(** the zero value ([var item DescribeLogDirsResponse]) *)
Definition DescribeLogDirsResponse_zero : DescribeLogDirsResponse := mkDescribeLogDirsResponse 0 None.
(** message/messages.gen.go:9393-9401 *)
Definition DescribeLogDirsResponse_Size (version : Z) (t : DescribeLogDirsResponse) : Z :=
  ((size_add sz_Int32) +>
   (size_loop (DescribeLogDirsResult35_Size version) (DescribeLogDirsResponse_Results t)) +>
   size_done)%size 0.
(** message/messages.gen.go:9404-9412 *)
Definition DescribeLogDirsResponse_Encode (version : Z) (t : DescribeLogDirsResponse) : Encoder -> Encoder :=
  ((PutInt32 (DescribeLogDirsResponse_ThrottleTimeMs t)) >>
   (put_array (DescribeLogDirsResult35_Encode version) (DescribeLogDirsResponse_Results t)) >>
   skip)%enc.
(** message/messages.gen.go:9415-9435 *)
Definition DescribeLogDirsResponse_Decode (version : Z) (t : DescribeLogDirsResponse) : Dec DescribeLogDirsResponse :=
  x_ThrottleTimeMs <- dInt32 ;;
  x_Results <- (dec_array (DescribeLogDirsResult35_Decode version DescribeLogDirsResult35_zero) (DescribeLogDirsResponse_Results t)) ;;
  ret (mkDescribeLogDirsResponse x_ThrottleTimeMs x_Results).
(** the struct declaration read as a schema; version ranges as in Size *)
Definition DescribeLogDirsResponse_schema : fields :=
  FCons "ThrottleTimeMs" Always TInt32
  (FCons "Results" Always (TArray DescribeLogDirsResult35_schema) FNil).
Definition DescribeLogDirsResponse_to (t : DescribeLogDirsResponse) : dens DescribeLogDirsResponse_schema := (DescribeLogDirsResponse_ThrottleTimeMs t, (option_map (map DescribeLogDirsResult35_to) (DescribeLogDirsResponse_Results t), tt)).
Definition DescribeLogDirsResponse_of (x : dens DescribeLogDirsResponse_schema) : DescribeLogDirsResponse := mkDescribeLogDirsResponse (fst x) (option_map (map DescribeLogDirsResult35_of) (fst (snd x))).
Definition DescribeLogDirsResponse_codec : codec := Codec DescribeLogDirsResponse DescribeLogDirsResponse_zero DescribeLogDirsResponse_Size DescribeLogDirsResponse_Encode DescribeLogDirsResponse_Decode DescribeLogDirsResponse_schema DescribeLogDirsResponse_to DescribeLogDirsResponse_of.
Lemma DescribeLogDirsResponse_linked : linked DescribeLogDirsResponse_codec.
Proof.
  apply Linked; cbn [DescribeLogDirsResponse_codec c_type c_zero c_size c_encode c_decode c_schema c_to c_of].
  - intros t. destruct t. cbv [DescribeLogDirsResponse_of DescribeLogDirsResponse_to]. cbn [fst snd DescribeLogDirsResponse_ThrottleTimeMs DescribeLogDirsResponse_Results]. rewrite ?(option_map_map_inv DescribeLogDirsResult35_to DescribeLogDirsResult35_of _ (l_of_to _ DescribeLogDirsResult35_linked)). reflexivity.
  - intros x. unfold DescribeLogDirsResponse_schema in x. cbn [dens den] in x. destruct x as [x0 x]. destruct x as [x1 x]. destruct x. cbv [DescribeLogDirsResponse_of DescribeLogDirsResponse_to]. cbn [fst snd DescribeLogDirsResponse_ThrottleTimeMs DescribeLogDirsResponse_Results]. rewrite ?(option_map_map_inv DescribeLogDirsResult35_of DescribeLogDirsResult35_to _ (l_to_of _ DescribeLogDirsResult35_linked)). reflexivity.
  - reflexivity.
  - intros v t. unfold DescribeLogDirsResponse_Size, DescribeLogDirsResponse_schema, DescribeLogDirsResponse_to. apply size_start.
    apply size_step; [intros sz; reflexivity|].
    apply size_step; [intros sz; apply (size_field_link (DescribeLogDirsResult35_Size v) DescribeLogDirsResult35_schema DescribeLogDirsResult35_to v (l_size _ DescribeLogDirsResult35_linked v) true)|].
    intros sz; reflexivity.
  - intros v t. unfold DescribeLogDirsResponse_Encode, DescribeLogDirsResponse_schema, DescribeLogDirsResponse_to.
    apply enc_step; [intros e; reflexivity|].
    apply enc_step; [intros e; apply (put_field_link (DescribeLogDirsResult35_Encode v) DescribeLogDirsResult35_schema DescribeLogDirsResult35_to v (l_encode _ DescribeLogDirsResult35_linked v) true)|].
    intros e; reflexivity.
  - intros v t. unfold DescribeLogDirsResponse_Decode, DescribeLogDirsResponse_schema, DescribeLogDirsResponse_to.
    dec_field (fun x : Z => x); [apply dmap_id|intros x_ThrottleTimeMs].
    dec_field (option_map (map DescribeLogDirsResult35_of)); [apply (dec_array_link _ _ DescribeLogDirsResult35_of DescribeLogDirsResult35_to (l_decode _ DescribeLogDirsResult35_linked v DescribeLogDirsResult35_zero) (l_of_to _ DescribeLogDirsResult35_linked))|intros x_Results].
    intros d; reflexivity.
Qed.
Local Opaque DescribeLogDirsResponse_Size DescribeLogDirsResponse_Encode DescribeLogDirsResponse_Decode.

(** ** SaslAuthenticateRequest *)

(** message/messages.gen.go:9592-9594 *)
Record SaslAuthenticateRequest : Type := mkSaslAuthenticateRequest { SaslAuthenticateRequest_AuthBytes : gslice Z }.
(** the zero value ([var item SaslAuthenticateRequest]) *)
Definition SaslAuthenticateRequest_zero : SaslAuthenticateRequest := mkSaslAuthenticateRequest None.
(** message/messages.gen.go:9597-9601 *)
Definition SaslAuthenticateRequest_Size (version : Z) (t : SaslAuthenticateRequest) : Z :=
  ((size_add (sz_Bytes (SaslAuthenticateRequest_AuthBytes t))) +>
   size_done)%size 0.
(** message/messages.gen.go:9604-9606 *)
Definition SaslAuthenticateRequest_Encode (version : Z) (t : SaslAuthenticateRequest) : Encoder -> Encoder :=
  ((PutBytes (SaslAuthenticateRequest_AuthBytes t)) >>
   skip)%enc.
(** message/messages.gen.go:9609-9616 *)
Definition SaslAuthenticateRequest_Decode (version : Z) (t : SaslAuthenticateRequest) : Dec SaslAuthenticateRequest :=
  x_AuthBytes <- dBytes ;;
  ret (mkSaslAuthenticateRequest x_AuthBytes).
(** the struct declaration read as a schema; version ranges as in Size *)
Definition SaslAuthenticateRequest_schema : fields :=
  FCons "AuthBytes" Always TBytes FNil.
Definition SaslAuthenticateRequest_to (t : SaslAuthenticateRequest) : dens SaslAuthenticateRequest_schema := (SaslAuthenticateRequest_AuthBytes t, tt).
Definition SaslAuthenticateRequest_of (x : dens SaslAuthenticateRequest_schema) : SaslAuthenticateRequest := mkSaslAuthenticateRequest (fst x).
Definition SaslAuthenticateRequest_codec : codec := Codec SaslAuthenticateRequest SaslAuthenticateRequest_zero SaslAuthenticateRequest_Size SaslAuthenticateRequest_Encode SaslAuthenticateRequest_Decode SaslAuthenticateRequest_schema SaslAuthenticateRequest_to SaslAuthenticateRequest_of.
Lemma SaslAuthenticateRequest_linked : linked SaslAuthenticateRequest_codec.
Proof.
  apply Linked; cbn [SaslAuthenticateRequest_codec c_type c_zero c_size c_encode c_decode c_schema c_to c_of].
  - intros t. destruct t. cbv [SaslAuthenticateRequest_of SaslAuthenticateRequest_to]. cbn [fst snd SaslAuthenticateRequest_AuthBytes].  reflexivity.
  - intros x. unfold SaslAuthenticateRequest_schema in x. cbn [dens den] in x. destruct x as [x0 x]. destruct x. cbv [SaslAuthenticateRequest_of SaslAuthenticateRequest_to]. cbn [fst snd SaslAuthenticateRequest_AuthBytes].  reflexivity.
  - reflexivity.
  - intros v t. unfold SaslAuthenticateRequest_Size, SaslAuthenticateRequest_schema, SaslAuthenticateRequest_to. apply size_start.
    apply size_step; [intros sz; reflexivity|].
    intros sz; reflexivity.
  - intros v t. unfold SaslAuthenticateRequest_Encode, SaslAuthenticateRequest_schema, SaslAuthenticateRequest_to.
    apply enc_step; [intros e; reflexivity|].
    intros e; reflexivity.
  - intros v t. unfold SaslAuthenticateRequest_Decode, SaslAuthenticateRequest_schema, SaslAuthenticateRequest_to.
    dec_field (fun x : gslice Z => x); [apply dmap_id|intros x_AuthBytes].
    intros d; reflexivity.
Qed.
Local Opaque SaslAuthenticateRequest_Size SaslAuthenticateRequest_Encode SaslAuthenticateRequest_Decode.

(** ** SaslAuthenticateResponse *)

(** message/messages.gen.go:9619-9624 *)
Record SaslAuthenticateResponse : Type := mkSaslAuthenticateResponse { SaslAuthenticateResponse_ErrorCode : Z; SaslAuthenticateResponse_ErrorMessage : gostring; SaslAuthenticateResponse_AuthBytes : gslice Z; SaslAuthenticateResponse_SessionLifetimeMs : Z }.
(** the zero value ([var item SaslAuthenticateResponse]) *)
Definition SaslAuthenticateResponse_zero : SaslAuthenticateResponse := mkSaslAuthenticateResponse 0 [] None 0.
(** message/messages.gen.go:9627-9636 *)
Definition SaslAuthenticateResponse_Size (version : Z) (t : SaslAuthenticateResponse) : Z :=
  ((size_add sz_Int16) +>
   (size_add (sz_String (SaslAuthenticateResponse_ErrorMessage t))) +>
   (size_add (sz_Bytes (SaslAuthenticateResponse_AuthBytes t))) +>
   size_if (1 <=? version) (size_add sz_Int64) +>
   size_done)%size 0.
(** message/messages.gen.go:9639-9646 *)
Definition SaslAuthenticateResponse_Encode (version : Z) (t : SaslAuthenticateResponse) : Encoder -> Encoder :=
  ((PutInt16 (SaslAuthenticateResponse_ErrorCode t)) >>
   (PutString (SaslAuthenticateResponse_ErrorMessage t)) >>
   (PutBytes (SaslAuthenticateResponse_AuthBytes t)) >>
   put_if (1 <=? version) (PutInt64 (SaslAuthenticateResponse_SessionLifetimeMs t)) >>
   skip)%enc.
(** message/messages.gen.go:9649-9670 *)
Definition SaslAuthenticateResponse_Decode (version : Z) (t : SaslAuthenticateResponse) : Dec SaslAuthenticateResponse :=
  x_ErrorCode <- dInt16 ;;
  x_ErrorMessage <- dString ;;
  x_AuthBytes <- dBytes ;;
  x_SessionLifetimeMs <- dec_if (1 <=? version) dInt64 (SaslAuthenticateResponse_SessionLifetimeMs t) ;;
  ret (mkSaslAuthenticateResponse x_ErrorCode x_ErrorMessage x_AuthBytes x_SessionLifetimeMs).
(** the struct declaration read as a schema; version ranges as in Size *)
Definition SaslAuthenticateResponse_schema : fields :=
  FCons "ErrorCode" Always TInt16
  (FCons "ErrorMessage" Always TString
  (FCons "AuthBytes" Always TBytes
  (FCons "SessionLifetimeMs" (From 1) TInt64 FNil))).
Definition SaslAuthenticateResponse_to (t : SaslAuthenticateResponse) : dens SaslAuthenticateResponse_schema := (SaslAuthenticateResponse_ErrorCode t, (SaslAuthenticateResponse_ErrorMessage t, (SaslAuthenticateResponse_AuthBytes t, (SaslAuthenticateResponse_SessionLifetimeMs t, tt)))).
Definition SaslAuthenticateResponse_of (x : dens SaslAuthenticateResponse_schema) : SaslAuthenticateResponse := mkSaslAuthenticateResponse (fst x) (fst (snd x)) (fst (snd (snd x))) (fst (snd (snd (snd x)))).
Definition SaslAuthenticateResponse_codec : codec := Codec SaslAuthenticateResponse SaslAuthenticateResponse_zero SaslAuthenticateResponse_Size SaslAuthenticateResponse_Encode SaslAuthenticateResponse_Decode SaslAuthenticateResponse_schema SaslAuthenticateResponse_to SaslAuthenticateResponse_of.
Lemma SaslAuthenticateResponse_linked : linked SaslAuthenticateResponse_codec.
Proof.
  apply Linked; cbn [SaslAuthenticateResponse_codec c_type c_zero c_size c_encode c_decode c_schema c_to c_of].
  - intros t. destruct t. cbv [SaslAuthenticateResponse_of SaslAuthenticateResponse_to]. cbn [fst snd SaslAuthenticateResponse_ErrorCode SaslAuthenticateResponse_ErrorMessage SaslAuthenticateResponse_AuthBytes SaslAuthenticateResponse_SessionLifetimeMs].  reflexivity.
  - intros x. unfold SaslAuthenticateResponse_schema in x. cbn [dens den] in x. destruct x as [x0 x]. destruct x as [x1 x]. destruct x as [x2 x]. destruct x as [x3 x]. destruct x. cbv [SaslAuthenticateResponse_of SaslAuthenticateResponse_to]. cbn [fst snd SaslAuthenticateResponse_ErrorCode SaslAuthenticateResponse_ErrorMessage SaslAuthenticateResponse_AuthBytes SaslAuthenticateResponse_SessionLifetimeMs].  reflexivity.
  - reflexivity.
  - intros v t. unfold SaslAuthenticateResponse_Size, SaslAuthenticateResponse_schema, SaslAuthenticateResponse_to. apply size_start.
    apply size_step; [intros sz; reflexivity|].
    apply size_step; [intros sz; reflexivity|].
    apply size_step; [intros sz; reflexivity|].
    apply size_step; [intros sz; reflexivity|].
    intros sz; reflexivity.
  - intros v t. unfold SaslAuthenticateResponse_Encode, SaslAuthenticateResponse_schema, SaslAuthenticateResponse_to.
    apply enc_step; [intros e; reflexivity|].
    apply enc_step; [intros e; reflexivity|].
    apply enc_step; [intros e; reflexivity|].
    apply enc_step; [intros e; reflexivity|].
    intros e; reflexivity.
  - intros v t. unfold SaslAuthenticateResponse_Decode, SaslAuthenticateResponse_schema, SaslAuthenticateResponse_to.
    dec_field (fun x : Z => x); [apply dmap_id|intros x_ErrorCode].
    dec_field (fun x : gostring => x); [apply dmap_id|intros x_ErrorMessage].
    dec_field (fun x : gslice Z => x); [apply dmap_id|intros x_AuthBytes].
    dec_field (fun x : Z => x); [apply dec_if_link; [apply dmap_id|reflexivity]|intros x_SessionLifetimeMs].
    intros d; reflexivity.
Qed.
Local Opaque SaslAuthenticateResponse_Size SaslAuthenticateResponse_Encode SaslAuthenticateResponse_Decode.

(** ** CreatePartitionsAssignment37 *)

(** message/messages.gen.go:9787-9789 *)
Record CreatePartitionsAssignment37 : Type := mkCreatePartitionsAssignment37 { CreatePartitionsAssignment37_BrokerIds : gslice Z }.
(** the zero value ([var item CreatePartitionsAssignment37]) *)
Definition CreatePartitionsAssignment37_zero : CreatePartitionsAssignment37 := mkCreatePartitionsAssignment37 None.
(** message/messages.gen.go:9792-9796 *)
Definition CreatePartitionsAssignment37_Size (version : Z) (t : CreatePartitionsAssignment37) : Z :=
  ((size_add (sz_Int32Array (CreatePartitionsAssignment37_BrokerIds t))) +>
   size_done)%size 0.
(** message/messages.gen.go:9799-9801 *)
Definition CreatePartitionsAssignment37_Encode (version : Z) (t : CreatePartitionsAssignment37) : Encoder -> Encoder :=
  ((PutInt32Array (CreatePartitionsAssignment37_BrokerIds t)) >>
   skip)%enc.
(** message/messages.gen.go:9804-9811 *)
Definition CreatePartitionsAssignment37_Decode (version : Z) (t : CreatePartitionsAssignment37) : Dec CreatePartitionsAssignment37 :=
  x_BrokerIds <- dInt32Array ;;
  ret (mkCreatePartitionsAssignment37 x_BrokerIds).
(** the struct declaration read as a schema; version ranges as in Size *)
Definition CreatePartitionsAssignment37_schema : fields :=
  FCons "BrokerIds" Always TInt32Array FNil.
Definition CreatePartitionsAssignment37_to (t : CreatePartitionsAssignment37) : dens CreatePartitionsAssignment37_schema := (CreatePartitionsAssignment37_BrokerIds t, tt).
Definition CreatePartitionsAssignment37_of (x : dens CreatePartitionsAssignment37_schema) : CreatePartitionsAssignment37 := mkCreatePartitionsAssignment37 (fst x).
Definition CreatePartitionsAssignment37_codec : codec := Codec CreatePartitionsAssignment37 CreatePartitionsAssignment37_zero CreatePartitionsAssignment37_Size CreatePartitionsAssignment37_Encode CreatePartitionsAssignment37_Decode CreatePartitionsAssignment37_schema CreatePartitionsAssignment37_to CreatePartitionsAssignment37_of.
Lemma CreatePartitionsAssignment37_linked : linked CreatePartitionsAssignment37_codec.
Proof.
  apply Linked; cbn [CreatePartitionsAssignment37_codec c_type c_zero c_size c_encode c_decode c_schema c_to c_of].
  - intros t. destruct t. cbv [CreatePartitionsAssignment37_of CreatePartitionsAssignment37_to]. cbn [fst snd CreatePartitionsAssignment37_BrokerIds].  reflexivity.
  - intros x. unfold CreatePartitionsAssignment37_schema in x. cbn [dens den] in x. destruct x as [x0 x]. destruct x. cbv [CreatePartitionsAssignment37_of CreatePartitionsAssignment37_to]. cbn [fst snd CreatePartitionsAssignment37_BrokerIds].  reflexivity.
  - reflexivity.
  - intros v t. unfold CreatePartitionsAssignment37_Size, CreatePartitionsAssignment37_schema, CreatePartitionsAssignment37_to. apply size_start.
    apply size_step; [intros sz; reflexivity|].
    intros sz; reflexivity.
  - intros v t. unfold CreatePartitionsAssignment37_Encode, CreatePartitionsAssignment37_schema, CreatePartitionsAssignment37_to.
    apply enc_step; [intros e; reflexivity|].
    intros e; reflexivity.
  - intros v t. unfold CreatePartitionsAssignment37_Decode, CreatePartitionsAssignment37_schema, CreatePartitionsAssignment37_to.
    dec_field (fun x : gslice Z => x); [apply dmap_id|intros x_BrokerIds].
    intros d; reflexivity.
Qed.
Local Opaque CreatePartitionsAssignment37_Size CreatePartitionsAssignment37_Encode CreatePartitionsAssignment37_Decode.

(** ** CreatePartitionsTopic37 *)

(** message/messages.gen.go:9730-9734 *)
Record CreatePartitionsTopic37 : Type := mkCreatePartitionsTopic37 { CreatePartitionsTopic37_Name : gostring; CreatePartitionsTopic37_Count : Z; CreatePartitionsTopic37_Assignments : gslice CreatePartitionsAssignment37 }.
(** the zero value ([var item CreatePartitionsTopic37]) *)
Definition CreatePartitionsTopic37_zero : CreatePartitionsTopic37 := mkCreatePartitionsTopic37 [] 0 None.
(** message/messages.gen.go:9737-9746 *)
Definition CreatePartitionsTopic37_Size (version : Z) (t : CreatePartitionsTopic37) : Z :=
  ((size_add (sz_String (CreatePartitionsTopic37_Name t))) +>
   (size_add sz_Int32) +>
   (size_loop (CreatePartitionsAssignment37_Size version) (CreatePartitionsTopic37_Assignments t)) +>
   size_done)%size 0.
(** message/messages.gen.go:9749-9758 *)
Definition CreatePartitionsTopic37_Encode (version : Z) (t : CreatePartitionsTopic37) : Encoder -> Encoder :=
  ((PutString (CreatePartitionsTopic37_Name t)) >>
   (PutInt32 (CreatePartitionsTopic37_Count t)) >>
   (put_array (CreatePartitionsAssignment37_Encode version) (CreatePartitionsTopic37_Assignments t)) >>
   skip)%enc.
(** message/messages.gen.go:9761-9785 *)
Definition CreatePartitionsTopic37_Decode (version : Z) (t : CreatePartitionsTopic37) : Dec CreatePartitionsTopic37 :=
  x_Name <- dString ;;
  x_Count <- dInt32 ;;
  x_Assignments <- (dec_array (CreatePartitionsAssignment37_Decode version CreatePartitionsAssignment37_zero) (CreatePartitionsTopic37_Assignments t)) ;;
  ret (mkCreatePartitionsTopic37 x_Name x_Count x_Assignments).
(** the struct declaration read as a schema; version ranges as in Size *)
Definition CreatePartitionsTopic37_schema : fields :=
  FCons "Name" Always TString
  (FCons "Count" Always TInt32
  (FCons "Assignments" Always (TArray CreatePartitionsAssignment37_schema) FNil)).
Definition CreatePartitionsTopic37_to (t : CreatePartitionsTopic37) : dens CreatePartitionsTopic37_schema := (CreatePartitionsTopic37_Name t, (CreatePartitionsTopic37_Count t, (option_map (map CreatePartitionsAssignment37_to) (CreatePartitionsTopic37_Assignments t), tt))).
Definition CreatePartitionsTopic37_of (x : dens CreatePartitionsTopic37_schema) : CreatePartitionsTopic37 := mkCreatePartitionsTopic37 (fst x) (fst (snd x)) (option_map (map CreatePartitionsAssignment37_of) (fst (snd (snd x)))).
Definition CreatePartitionsTopic37_codec : codec := Codec CreatePartitionsTopic37 CreatePartitionsTopic37_zero CreatePartitionsTopic37_Size CreatePartitionsTopic37_Encode CreatePartitionsTopic37_Decode CreatePartitionsTopic37_schema CreatePartitionsTopic37_to CreatePartitionsTopic37_of.
Lemma CreatePartitionsTopic37_linked : linked CreatePartitionsTopic37_codec.
Proof.
  apply Linked; cbn [CreatePartitionsTopic37_codec c_type c_zero c_size c_encode c_decode c_schema c_to c_of].
  - intros t. destruct t. cbv [CreatePartitionsTopic37_of CreatePartitionsTopic37_to]. cbn [fst snd CreatePartitionsTopic37_Name CreatePartitionsTopic37_Count CreatePartitionsTopic37_Assignments]. rewrite ?(option_map_map_inv CreatePartitionsAssignment37_to CreatePartitionsAssignment37_of _ (l_of_to _ CreatePartitionsAssignment37_linked)). reflexivity.
  - intros x. unfold CreatePartitionsTopic37_schema in x. cbn [dens den] in x. destruct x as [x0 x]. destruct x as [x1 x]. destruct x as [x2 x]. destruct x. cbv [CreatePartitionsTopic37_of CreatePartitionsTopic37_to]. cbn [fst snd CreatePartitionsTopic37_Name CreatePartitionsTopic37_Count CreatePartitionsTopic37_Assignments]. rewrite ?(option_map_map_inv CreatePartitionsAssignment37_of CreatePartitionsAssignment37_to _ (l_to_of _ CreatePartitionsAssignment37_linked)). reflexivity.
  - reflexivity.
  - intros v t. unfold CreatePartitionsTopic37_Size, CreatePartitionsTopic37_schema, CreatePartitionsTopic37_to. apply size_start.
    apply size_step; [intros sz; reflexivity|].
    apply size_step; [intros sz; reflexivity|].
    apply size_step; [intros sz; apply (size_field_link (CreatePartitionsAssignment37_Size v) CreatePartitionsAssignment37_schema CreatePartitionsAssignment37_to v (l_size _ CreatePartitionsAssignment37_linked v) true)|].
    intros sz; reflexivity.
  - intros v t. unfold CreatePartitionsTopic37_Encode, CreatePartitionsTopic37_schema, CreatePartitionsTopic37_to.
    apply enc_step; [intros e; reflexivity|].
    apply enc_step; [intros e; reflexivity|].
    apply enc_step; [intros e; apply (put_field_link (CreatePartitionsAssignment37_Encode v) CreatePartitionsAssignment37_schema CreatePartitionsAssignment37_to v (l_encode _ CreatePartitionsAssignment37_linked v) true)|].
    intros e; reflexivity.
  - intros v t. unfold CreatePartitionsTopic37_Decode, CreatePartitionsTopic37_schema, CreatePartitionsTopic37_to.
    dec_field (fun x : gostring => x); [apply dmap_id|intros x_Name].
    dec_field (fun x : Z => x); [apply dmap_id|intros x_Count].
    dec_field (option_map (map CreatePartitionsAssignment37_of)); [apply (dec_array_link _ _ CreatePartitionsAssignment37_of CreatePartitionsAssignment37_to (l_decode _ CreatePartitionsAssignment37_linked v CreatePartitionsAssignment37_zero) (l_of_to _ CreatePartitionsAssignment37_linked))|intros x_Assignments].
    intros d; reflexivity.
Qed.
Local Opaque CreatePartitionsTopic37_Size CreatePartitionsTopic37_Encode CreatePartitionsTopic37_Decode.

(** ** CreatePartitionsRequest *)

(** message/messages.gen.go:9673-9677 *)
Record CreatePartitionsRequest : Type := mkCreatePartitionsRequest { CreatePartitionsRequest_Topics : gslice CreatePartitionsTopic37; CreatePartitionsRequest_TimeoutMs : Z; CreatePartitionsRequest_ValidateOnly : bool }.
(** the zero value ([var item CreatePartitionsRequest]) *)
Definition CreatePartitionsRequest_zero : CreatePartitionsRequest := mkCreatePartitionsRequest None 0 false.
(** message/messages.gen.go:9680-9689 *)
Definition CreatePartitionsRequest_Size (version : Z) (t : CreatePartitionsRequest) : Z :=
  ((size_loop (CreatePartitionsTopic37_Size version) (CreatePartitionsRequest_Topics t)) +>
   (size_add sz_Int32) +>
   (size_add sz_Bool) +>
   size_done)%size 0.
(** message/messages.gen.go:9692-9701 *)
Definition CreatePartitionsRequest_Encode (version : Z) (t : CreatePartitionsRequest) : Encoder -> Encoder :=
  ((put_array (CreatePartitionsTopic37_Encode version) (CreatePartitionsRequest_Topics t)) >>
   (PutInt32 (CreatePartitionsRequest_TimeoutMs t)) >>
   (PutBool (CreatePartitionsRequest_ValidateOnly t)) >>
   skip)%enc.
(** message/messages.gen.go:9704-9728 *)
Definition CreatePartitionsRequest_Decode (version : Z) (t : CreatePartitionsRequest) : Dec CreatePartitionsRequest :=
  x_Topics <- (dec_array (CreatePartitionsTopic37_Decode version CreatePartitionsTopic37_zero) (CreatePartitionsRequest_Topics t)) ;;
  x_TimeoutMs <- dInt32 ;;
  x_ValidateOnly <- dBool ;;
  ret (mkCreatePartitionsRequest x_Topics x_TimeoutMs x_ValidateOnly).
(** the struct declaration read as a schema; version ranges as in Size *)
Definition CreatePartitionsRequest_schema : fields :=
  FCons "Topics" Always (TArray CreatePartitionsTopic37_schema)
  (FCons "TimeoutMs" Always TInt32
  (FCons "ValidateOnly" Always TBool FNil)).
Definition CreatePartitionsRequest_to (t : CreatePartitionsRequest) : dens CreatePartitionsRequest_schema := (option_map (map CreatePartitionsTopic37_to) (CreatePartitionsRequest_Topics t), (CreatePartitionsRequest_TimeoutMs t, (CreatePartitionsRequest_ValidateOnly t, tt))).
Definition CreatePartitionsRequest_of (x : dens CreatePartitionsRequest_schema) : CreatePartitionsRequest := mkCreatePartitionsRequest (option_map (map CreatePartitionsTopic37_of) (fst x)) (fst (snd x)) (fst (snd (snd x))).
Definition CreatePartitionsRequest_codec : codec := Codec CreatePartitionsRequest CreatePartitionsRequest_zero CreatePartitionsRequest_Size CreatePartitionsRequest_Encode CreatePartitionsRequest_Decode CreatePartitionsRequest_schema CreatePartitionsRequest_to CreatePartitionsRequest_of.
Lemma CreatePartitionsRequest_linked : linked CreatePartitionsRequest_codec.
Proof.
  apply Linked; cbn [CreatePartitionsRequest_codec c_type c_zero c_size c_encode c_decode c_schema c_to c_of].
  - intros t. destruct t. cbv [CreatePartitionsRequest_of CreatePartitionsRequest_to]. cbn [fst snd CreatePartitionsRequest_Topics CreatePartitionsRequest_TimeoutMs CreatePartitionsRequest_ValidateOnly]. rewrite ?(option_map_map_inv CreatePartitionsTopic37_to CreatePartitionsTopic37_of _ (l_of_to _ CreatePartitionsTopic37_linked)). reflexivity.
  - intros x. unfold CreatePartitionsRequest_schema in x. cbn [dens den] in x. destruct x as [x0 x]. destruct x as [x1 x]. destruct x as [x2 x]. destruct x. cbv [CreatePartitionsRequest_of CreatePartitionsRequest_to]. cbn [fst snd CreatePartitionsRequest_Topics CreatePartitionsRequest_TimeoutMs CreatePartitionsRequest_ValidateOnly]. rewrite ?(option_map_map_inv CreatePartitionsTopic37_of CreatePartitionsTopic37_to _ (l_to_of _ CreatePartitionsTopic37_linked)). reflexivity.
  - reflexivity.
  - intros v t. unfold CreatePartitionsRequest_Size, CreatePartitionsRequest_schema, CreatePartitionsRequest_to. apply size_start.
    apply size_step; [intros sz; apply (size_field_link (CreatePartitionsTopic37_Size v) CreatePartitionsTopic37_schema CreatePartitionsTopic37_to v (l_size _ CreatePartitionsTopic37_linked v) true)|].
    apply size_step; [intros sz; reflexivity|].
    apply size_step; [intros sz; reflexivity|].
    intros sz; reflexivity.
  - intros v t. unfold CreatePartitionsRequest_Encode, CreatePartitionsRequest_schema, CreatePartitionsRequest_to.
    apply enc_step; [intros e; apply (put_field_link (CreatePartitionsTopic37_Encode v) CreatePartitionsTopic37_schema CreatePartitionsTopic37_to v (l_encode _ CreatePartitionsTopic37_linked v) true)|].
    apply enc_step; [intros e; reflexivity|].
    apply enc_step; [intros e; reflexivity|].
    intros e; reflexivity.
  - intros v t. unfold CreatePartitionsRequest_Decode, CreatePartitionsRequest_schema, CreatePartitionsRequest_to.
    dec_field (option_map (map CreatePartitionsTopic37_of)); [apply (dec_array_link _ _ CreatePartitionsTopic37_of CreatePartitionsTopic37_to (l_decode _ CreatePartitionsTopic37_linked v CreatePartitionsTopic37_zero) (l_of_to _ CreatePartitionsTopic37_linked))|intros x_Topics].
    dec_field (fun x : Z => x); [apply dmap_id|intros x_TimeoutMs].
    dec_field (fun x : bool => x); [apply dmap_id|intros x_ValidateOnly].
    intros d; reflexivity.
Qed.
Local Opaque CreatePartitionsRequest_Size CreatePartitionsRequest_Encode CreatePartitionsRequest_Decode.

(** ** CreatePartitionsTopicResult37 *)

(** message/messages.gen.go:9864-9868 *)
Record CreatePartitionsTopicResult37 : Type := mkCreatePartitionsTopicResult37 { CreatePartitionsTopicResult37_Name : gostring; CreatePartitionsTopicResult37_ErrorCode : Z; CreatePartitionsTopicResult37_ErrorMessage : gostring }.
(** the zero value ([var item CreatePartitionsTopicResult37]) *)
Definition CreatePartitionsTopicResult37_zero : CreatePartitionsTopicResult37 := mkCreatePartitionsTopicResult37 [] 0 [].
(** message/messages.gen.go:9871-9877 *)
Definition CreatePartitionsTopicResult37_Size (version : Z) (t : CreatePartitionsTopicResult37) : Z :=
  ((size_add (sz_String (CreatePartitionsTopicResult37_Name t))) +>
   (size_add sz_Int16) +>
   (size_add (sz_String (CreatePartitionsTopicResult37_ErrorMessage t))) +>
   size_done)%size 0.
(** message/messages.gen.go:9880-9884 *)
Definition CreatePartitionsTopicResult37_Encode (version : Z) (t : CreatePartitionsTopicResult37) : Encoder -> Encoder :=
  ((PutString (CreatePartitionsTopicResult37_Name t)) >>
   (PutInt16 (CreatePartitionsTopicResult37_ErrorCode t)) >>
   (PutString (CreatePartitionsTopicResult37_ErrorMessage t)) >>
   skip)%enc.
(** message/messages.gen.go:9887-9902 *)
Definition CreatePartitionsTopicResult37_Decode (version : Z) (t : CreatePartitionsTopicResult37) : Dec CreatePartitionsTopicResult37 :=
  x_Name <- dString ;;
  x_ErrorCode <- dInt16 ;;
  x_ErrorMessage <- dString ;;
  ret (mkCreatePartitionsTopicResult37 x_Name x_ErrorCode x_ErrorMessage).
(** the struct declaration read as a schema; version ranges as in Size *)
Definition CreatePartitionsTopicResult37_schema : fields :=
  FCons "Name" Always TString
  (FCons "ErrorCode" Always TInt16
  (FCons "ErrorMessage" Always TString FNil)).
Definition CreatePartitionsTopicResult37_to (t : CreatePartitionsTopicResult37) : dens CreatePartitionsTopicResult37_schema := (CreatePartitionsTopicResult37_Name t, (CreatePartitionsTopicResult37_ErrorCode t, (CreatePartitionsTopicResult37_ErrorMessage t, tt))).
Definition CreatePartitionsTopicResult37_of (x : dens CreatePartitionsTopicResult37_schema) : CreatePartitionsTopicResult37 := mkCreatePartitionsTopicResult37 (fst x) (fst (snd x)) (fst (snd (snd x))).
Definition CreatePartitionsTopicResult37_codec : codec := Codec CreatePartitionsTopicResult37 CreatePartitionsTopicResult37_zero CreatePartitionsTopicResult37_Size CreatePartitionsTopicResult37_Encode CreatePartitionsTopicResult37_Decode CreatePartitionsTopicResult37_schema CreatePartitionsTopicResult37_to CreatePartitionsTopicResult37_of.
Lemma CreatePartitionsTopicResult37_linked : linked CreatePartitionsTopicResult37_codec.
Proof.
  apply Linked; cbn [CreatePartitionsTopicResult37_codec c_type c_zero c_size c_encode c_decode c_schema c_to c_of].
  - intros t. destruct t. cbv [CreatePartitionsTopicResult37_of CreatePartitionsTopicResult37_to]. cbn [fst snd CreatePartitionsTopicResult37_Name CreatePartitionsTopicResult37_ErrorCode CreatePartitionsTopicResult37_ErrorMessage].  reflexivity.
  - intros x. unfold CreatePartitionsTopicResult37_schema in x. cbn [dens den] in x. destruct x as [x0 x]. destruct x as [x1 x]. destruct x as [x2 x]. destruct x. cbv [CreatePartitionsTopicResult37_of CreatePartitionsTopicResult37_to]. cbn [fst snd CreatePartitionsTopicResult37_Name CreatePartitionsTopicResult37_ErrorCode CreatePartitionsTopicResult37_ErrorMessage].  reflexivity.
  - reflexivity.
  - intros v t. unfold CreatePartitionsTopicResult37_Size, CreatePartitionsTopicResult37_schema, CreatePartitionsTopicResult37_to. apply size_start.
    apply size_step; [intros sz; reflexivity|].
    apply size_step; [intros sz; reflexivity|].
    apply size_step; [intros sz; reflexivity|].
    intros sz; reflexivity.
  - intros v t. unfold CreatePartitionsTopicResult37_Encode, CreatePartitionsTopicResult37_schema, CreatePartitionsTopicResult37_to.
    apply enc_step; [intros e; reflexivity|].
    apply enc_step; [intros e; reflexivity|].
    apply enc_step; [intros e; reflexivity|].
    intros e; reflexivity.
  - intros v t. unfold CreatePartitionsTopicResult37_Decode, CreatePartitionsTopicResult37_schema, CreatePartitionsTopicResult37_to.
    dec_field (fun x : gostring => x); [apply dmap_id|intros x_Name].
    dec_field (fun x : Z => x); [apply dmap_id|intros x_ErrorCode].
    dec_field (fun x : gostring => x); [apply dmap_id|intros x_ErrorMessage].
    intros d; reflexivity.
Qed.
Local Opaque CreatePartitionsTopicResult37_Size CreatePartitionsTopicResult37_Encode CreatePartitionsTopicResult37_Decode.

(** ** CreatePartitionsResponse *)

(** message/messages.gen.go:9814-9817 *)
Record CreatePartitionsResponse : Type := mkCreatePartitionsResponse { CreatePartitionsResponse_ThrottleTimeMs : Z; CreatePartitionsResponse_Results : gslice CreatePartitionsTopicResult37 }.
(** the zero value ([var item CreatePartitionsResponse]) *)
Definition CreatePartitionsResponse_zero : CreatePartitionsResponse := mkCreatePartitionsResponse 0 None.
(** message/messages.gen.go:9820-9828 *)
Definition CreatePartitionsResponse_Size (version : Z) (t : CreatePartitionsResponse) : Z :=
  ((size_add sz_Int32) +>
   (size_loop (CreatePartitionsTopicResult37_Size version) (CreatePartitionsResponse_Results t)) +>
   size_done)%size 0.
(** message/messages.gen.go:9831-9839 *)
Definition CreatePartitionsResponse_Encode (version : Z) (t : CreatePartitionsResponse) : Encoder -> Encoder :=
  ((PutInt32 (CreatePartitionsResponse_ThrottleTimeMs t)) >>
   (put_array (CreatePartitionsTopicResult37_Encode version) (CreatePartitionsResponse_Results t)) >>
   skip)%enc.
(** message/messages.gen.go:9842-9862 *)
Definition CreatePartitionsResponse_Decode (version : Z) (t : CreatePartitionsResponse) : Dec CreatePartitionsResponse :=
  x_ThrottleTimeMs <- dInt32 ;;
  x_Results <- (dec_array (CreatePartitionsTopicResult37_Decode version CreatePartitionsTopicResult37_zero) (CreatePartitionsResponse_Results t)) ;;
  ret (mkCreatePartitionsResponse x_ThrottleTimeMs x_Results).
(** the struct declaration read as a schema; version ranges as in Size *)
Definition CreatePartitionsResponse_schema : fields :=
  FCons "ThrottleTimeMs" Always TInt32
  (FCons "Results" Always (TArray CreatePartitionsTopicResult37_schema) FNil).
Definition CreatePartitionsResponse_to (t : CreatePartitionsResponse) : dens CreatePartitionsResponse_schema := (CreatePartitionsResponse_ThrottleTimeMs t, (option_map (map CreatePartitionsTopicResult37_to) (CreatePartitionsResponse_Results t), tt)).
Definition CreatePartitionsResponse_of (x : dens CreatePartitionsResponse_schema) : CreatePartitionsResponse := mkCreatePartitionsResponse (fst x) (option_map (map CreatePartitionsTopicResult37_of) (fst (snd x))).
Definition CreatePartitionsResponse_codec : codec := Codec CreatePartitionsResponse CreatePartitionsResponse_zero CreatePartitionsResponse_Size CreatePartitionsResponse_Encode CreatePartitionsResponse_Decode CreatePartitionsResponse_schema CreatePartitionsResponse_to CreatePartitionsResponse_of.
Lemma CreatePartitionsResponse_linked : linked CreatePartitionsResponse_codec.
Proof.
  apply Linked; cbn [CreatePartitionsResponse_codec c_type c_zero c_size c_encode c_decode c_schema c_to c_of].
  - intros t. destruct t. cbv [CreatePartitionsResponse_of CreatePartitionsResponse_to]. cbn [fst snd CreatePartitionsResponse_ThrottleTimeMs CreatePartitionsResponse_Results]. rewrite ?(option_map_map_inv CreatePartitionsTopicResult37_to CreatePartitionsTopicResult37_of _ (l_of_to _ CreatePartitionsTopicResult37_linked)). reflexivity.
  - intros x. unfold CreatePartitionsResponse_schema in x. cbn [dens den] in x. destruct x as [x0 x]. destruct x as [x1 x]. destruct x. cbv [CreatePartitionsResponse_of CreatePartitionsResponse_to]. cbn [fst snd CreatePartitionsResponse_ThrottleTimeMs CreatePartitionsResponse_Results]. rewrite ?(option_map_map_inv CreatePartitionsTopicResult37_of CreatePartitionsTopicResult37_to _ (l_to_of _ CreatePartitionsTopicResult37_linked)). reflexivity.
  - reflexivity.
  - intros v t. unfold CreatePartitionsResponse_Size, CreatePartitionsResponse_schema, CreatePartitionsResponse_to. apply size_start.
    apply size_step; [intros sz; reflexivity|].
    apply size_step; [intros sz; apply (size_field_link (CreatePartitionsTopicResult37_Size v) CreatePartitionsTopicResult37_schema CreatePartitionsTopicResult37_to v (l_size _ CreatePartitionsTopicResult37_linked v) true)|].
    intros sz; reflexivity.
  - intros v t. unfold CreatePartitionsResponse_Encode, CreatePartitionsResponse_schema, CreatePartitionsResponse_to.
    apply enc_step; [intros e; reflexivity|].
    apply enc_step; [intros e; apply (put_field_link (CreatePartitionsTopicResult37_Encode v) CreatePartitionsTopicResult37_schema CreatePartitionsTopicResult37_to v (l_encode _ CreatePartitionsTopicResult37_linked v) true)|].
    intros e; reflexivity.
  - intros v t. unfold CreatePartitionsResponse_Decode, CreatePartitionsResponse_schema, CreatePartitionsResponse_to.
    dec_field (fun x : Z => x); [apply dmap_id|intros x_ThrottleTimeMs].
    dec_field (option_map (map CreatePartitionsTopicResult37_of)); [apply (dec_array_link _ _ CreatePartitionsTopicResult37_of CreatePartitionsTopicResult37_to (l_decode _ CreatePartitionsTopicResult37_linked v CreatePartitionsTopicResult37_zero) (l_of_to _ CreatePartitionsTopicResult37_linked))|intros x_Results].
    intros d; reflexivity.
Qed.
Local Opaque CreatePartitionsResponse_Size CreatePartitionsResponse_Encode CreatePartitionsResponse_Decode.

(** ** CreatableRenewers38 *)

(** message/messages.gen.go:9955-9958 *)
Record CreatableRenewers38 : Type := mkCreatableRenewers38 { CreatableRenewers38_PrincipalType : gostring; CreatableRenewers38_PrincipalName : gostring }.
(** the zero value ([var item CreatableRenewers38]) *)
Definition CreatableRenewers38_zero : CreatableRenewers38 := mkCreatableRenewers38 [] [].
(** message/messages.gen.go:9961-9966 *)
Definition CreatableRenewers38_Size (version : Z) (t : CreatableRenewers38) : Z :=
  ((size_add (sz_String (CreatableRenewers38_PrincipalType t))) +>
   (size_add (sz_String (CreatableRenewers38_PrincipalName t))) +>
   size_done)%size 0.
(** message/messages.gen.go:9969-9972 *)
Definition CreatableRenewers38_Encode (version : Z) (t : CreatableRenewers38) : Encoder -> Encoder :=
  ((PutString (CreatableRenewers38_PrincipalType t)) >>
   (PutString (CreatableRenewers38_PrincipalName t)) >>
   skip)%enc.
(** message/messages.gen.go:9975-9986 *)
Definition CreatableRenewers38_Decode (version : Z) (t : CreatableRenewers38) : Dec CreatableRenewers38 :=
  x_PrincipalType <- dString ;;
  x_PrincipalName <- dString ;;
  ret (mkCreatableRenewers38 x_PrincipalType x_PrincipalName).
(** the struct declaration read as a schema; version ranges as in Size *)
Definition CreatableRenewers38_schema : fields :=
  FCons "PrincipalType" Always TString
  (FCons "PrincipalName" Always TString FNil).
Definition CreatableRenewers38_to (t : CreatableRenewers38) : dens CreatableRenewers38_schema := (CreatableRenewers38_PrincipalType t, (CreatableRenewers38_PrincipalName t, tt)).
Definition CreatableRenewers38_of (x : dens CreatableRenewers38_schema) : CreatableRenewers38 := mkCreatableRenewers38 (fst x) (fst (snd x)).
Definition CreatableRenewers38_codec : codec := Codec CreatableRenewers38 CreatableRenewers38_zero CreatableRenewers38_Size CreatableRenewers38_Encode CreatableRenewers38_Decode CreatableRenewers38_schema CreatableRenewers38_to CreatableRenewers38_of.
Lemma CreatableRenewers38_linked : linked CreatableRenewers38_codec.
Proof.
  apply Linked; cbn [CreatableRenewers38_codec c_type c_zero c_size c_encode c_decode c_schema c_to c_of].
  - intros t. destruct t. cbv [CreatableRenewers38_of CreatableRenewers38_to]. cbn [fst snd CreatableRenewers38_PrincipalType CreatableRenewers38_PrincipalName].  reflexivity.
  - intros x. unfold CreatableRenewers38_schema in x. cbn [dens den] in x. destruct x as [x0 x]. destruct x as [x1 x]. destruct x. cbv [CreatableRenewers38_of CreatableRenewers38_to]. cbn [fst snd CreatableRenewers38_PrincipalType CreatableRenewers38_PrincipalName].  reflexivity.
  - reflexivity.
  - intros v t. unfold CreatableRenewers38_Size, CreatableRenewers38_schema, CreatableRenewers38_to. apply size_start.
    apply size_step; [intros sz; reflexivity|].
    apply size_step; [intros sz; reflexivity|].
    intros sz; reflexivity.
  - intros v t. unfold CreatableRenewers38_Encode, CreatableRenewers38_schema, CreatableRenewers38_to.
    apply enc_step; [intros e; reflexivity|].
    apply enc_step; [intros e; reflexivity|].
    intros e; reflexivity.
  - intros v t. unfold CreatableRenewers38_Decode, CreatableRenewers38_schema, CreatableRenewers38_to.
    dec_field (fun x : gostring => x); [apply dmap_id|intros x_PrincipalType].
    dec_field (fun x : gostring => x); [apply dmap_id|intros x_PrincipalName].
    intros d; reflexivity.
Qed.
Local Opaque CreatableRenewers38_Size CreatableRenewers38_Encode CreatableRenewers38_Decode.

(** ** CreateDelegationTokenRequest *)

(** message/messages.gen.go:9905-9908 *)
Record CreateDelegationTokenRequest : Type := mkCreateDelegationTokenRequest { CreateDelegationTokenRequest_Renewers : gslice CreatableRenewers38; CreateDelegationTokenRequest_MaxLifetimeMs : Z }.
(** the zero value ([var item CreateDelegationTokenRequest]) *)
Definition CreateDelegationTokenRequest_zero : CreateDelegationTokenRequest := mkCreateDelegationTokenRequest None 0.
(** message/messages.gen.go:9911-9919 *)
Definition CreateDelegationTokenRequest_Size (version : Z) (t : CreateDelegationTokenRequest) : Z :=
  ((size_loop (CreatableRenewers38_Size version) (CreateDelegationTokenRequest_Renewers t)) +>
   (size_add sz_Int64) +>
   size_done)%size 0.
(** message/messages.gen.go:9922-9930 *)
Definition CreateDelegationTokenRequest_Encode (version : Z) (t : CreateDelegationTokenRequest) : Encoder -> Encoder :=
  ((put_array (CreatableRenewers38_Encode version) (CreateDelegationTokenRequest_Renewers t)) >>
   (PutInt64 (CreateDelegationTokenRequest_MaxLifetimeMs t)) >>
   skip)%enc.
(** message/messages.gen.go:9933-9953 *)
Definition CreateDelegationTokenRequest_Decode (version : Z) (t : CreateDelegationTokenRequest) : Dec CreateDelegationTokenRequest :=
  x_Renewers <- (dec_array (CreatableRenewers38_Decode version CreatableRenewers38_zero) (CreateDelegationTokenRequest_Renewers t)) ;;
  x_MaxLifetimeMs <- dInt64 ;;
  ret (mkCreateDelegationTokenRequest x_Renewers x_MaxLifetimeMs).
(** the struct declaration read as a schema; version ranges as in Size *)
Definition CreateDelegationTokenRequest_schema : fields :=
  FCons "Renewers" Always (TArray CreatableRenewers38_schema)
  (FCons "MaxLifetimeMs" Always TInt64 FNil).
Definition CreateDelegationTokenRequest_to (t : CreateDelegationTokenRequest) : dens CreateDelegationTokenRequest_schema := (option_map (map CreatableRenewers38_to) (CreateDelegationTokenRequest_Renewers t), (CreateDelegationTokenRequest_MaxLifetimeMs t, tt)).
Definition CreateDelegationTokenRequest_of (x : dens CreateDelegationTokenRequest_schema) : CreateDelegationTokenRequest := mkCreateDelegationTokenRequest (option_map (map CreatableRenewers38_of) (fst x)) (fst (snd x)).
Definition CreateDelegationTokenRequest_codec : codec := Codec CreateDelegationTokenRequest CreateDelegationTokenRequest_zero CreateDelegationTokenRequest_Size CreateDelegationTokenRequest_Encode CreateDelegationTokenRequest_Decode CreateDelegationTokenRequest_schema CreateDelegationTokenRequest_to CreateDelegationTokenRequest_of.
Lemma CreateDelegationTokenRequest_linked : linked CreateDelegationTokenRequest_codec.
Proof.
  apply Linked; cbn [CreateDelegationTokenRequest_codec c_type c_zero c_size c_encode c_decode c_schema c_to c_of].
  - intros t. destruct t. cbv [CreateDelegationTokenRequest_of CreateDelegationTokenRequest_to]. cbn [fst snd CreateDelegationTokenRequest_Renewers CreateDelegationTokenRequest_MaxLifetimeMs]. rewrite ?(option_map_map_inv CreatableRenewers38_to CreatableRenewers38_of _ (l_of_to _ CreatableRenewers38_linked)). reflexivity.
  - intros x. unfold CreateDelegationTokenRequest_schema in x. cbn [dens den] in x. destruct x as [x0 x]. destruct x as [x1 x]. destruct x. cbv [CreateDelegationTokenRequest_of CreateDelegationTokenRequest_to]. cbn [fst snd CreateDelegationTokenRequest_Renewers CreateDelegationTokenRequest_MaxLifetimeMs]. rewrite ?(option_map_map_inv CreatableRenewers38_of CreatableRenewers38_to _ (l_to_of _ CreatableRenewers38_linked)). reflexivity.
  - reflexivity.
  - intros v t. unfold CreateDelegationTokenRequest_Size, CreateDelegationTokenRequest_schema, CreateDelegationTokenRequest_to. apply size_start.
    apply size_step; [intros sz; apply (size_field_link (CreatableRenewers38_Size v) CreatableRenewers38_schema CreatableRenewers38_to v (l_size _ CreatableRenewers38_linked v) true)|].
    apply size_step; [intros sz; reflexivity|].
    intros sz; reflexivity.
  - intros v t. unfold CreateDelegationTokenRequest_Encode, CreateDelegationTokenRequest_schema, CreateDelegationTokenRequest_to.
    apply enc_step; [intros e; apply (put_field_link (CreatableRenewers38_Encode v) CreatableRenewers38_schema CreatableRenewers38_to v (l_encode _ CreatableRenewers38_linked v) true)|].
    apply enc_step; [intros e; reflexivity|].
    intros e; reflexivity.
  - intros v t. unfold CreateDelegationTokenRequest_Decode, CreateDelegationTokenRequest_schema, CreateDelegationTokenRequest_to.
    dec_field (option_map (map CreatableRenewers38_of)); [apply (dec_array_link _ _ CreatableRenewers38_of CreatableRenewers38_to (l_decode _ CreatableRenewers38_linked v CreatableRenewers38_zero) (l_of_to _ CreatableRenewers38_linked))|intros x_Renewers].
    dec_field (fun x : Z => x); [apply dmap_id|intros x_MaxLifetimeMs].
    intros d; reflexivity.
Qed.
Local Opaque CreateDelegationTokenRequest_Size CreateDelegationTokenRequest_Encode CreateDelegationTokenRequest_Decode.

(** ** CreateDelegationTokenResponse *)

(** message/messages.gen.go:9989-9999 *)
Record CreateDelegationTokenResponse : Type := mkCreateDelegationTokenResponse { CreateDelegationTokenResponse_ErrorCode : Z; CreateDelegationTokenResponse_PrincipalType : gostring; CreateDelegationTokenResponse_PrincipalName : gostring; CreateDelegationTokenResponse_IssueTimestampMs : Z; CreateDelegationTokenResponse_ExpiryTimestampMs : Z; CreateDelegationTokenResponse_MaxTimestampMs : Z; CreateDelegationTokenResponse_TokenId : gostring; CreateDelegationTokenResponse_Hmac : gslice Z; CreateDelegationTokenResponse_ThrottleTimeMs : Z }.
(** the zero value ([var item CreateDelegationTokenResponse]) *)
Definition CreateDelegationTokenResponse_zero : CreateDelegationTokenResponse := mkCreateDelegationTokenResponse 0 [] [] 0 0 0 [] None 0.
(** message/messages.gen.go:10002-10014 *)
Definition CreateDelegationTokenResponse_Size (version : Z) (t : CreateDelegationTokenResponse) : Z :=
  ((size_add sz_Int16) +>
   (size_add (sz_String (CreateDelegationTokenResponse_PrincipalType t))) +>
   (size_add (sz_String (CreateDelegationTokenResponse_PrincipalName t))) +>
   (size_add sz_Int64) +>
   (size_add sz_Int64) +>
   (size_add sz_Int64) +>
   (size_add (sz_String (CreateDelegationTokenResponse_TokenId t))) +>
   (size_add (sz_Bytes (CreateDelegationTokenResponse_Hmac t))) +>
   (size_add sz_Int32) +>
   size_done)%size 0.
(** message/messages.gen.go:10017-10027 *)
Definition CreateDelegationTokenResponse_Encode (version : Z) (t : CreateDelegationTokenResponse) : Encoder -> Encoder :=
  ((PutInt16 (CreateDelegationTokenResponse_ErrorCode t)) >>
   (PutString (CreateDelegationTokenResponse_PrincipalType t)) >>
   (PutString (CreateDelegationTokenResponse_PrincipalName t)) >>
   (PutInt64 (CreateDelegationTokenResponse_IssueTimestampMs t)) >>
   (PutInt64 (CreateDelegationTokenResponse_ExpiryTimestampMs t)) >>
   (PutInt64 (CreateDelegationTokenResponse_MaxTimestampMs t)) >>
   (PutString (CreateDelegationTokenResponse_TokenId t)) >>
   (PutBytes (CreateDelegationTokenResponse_Hmac t)) >>
   (PutInt32 (CreateDelegationTokenResponse_ThrottleTimeMs t)) >>
   skip)%enc.
(** message/messages.gen.go:10030-10069 *)
Definition CreateDelegationTokenResponse_Decode (version : Z) (t : CreateDelegationTokenResponse) : Dec CreateDelegationTokenResponse :=
  x_ErrorCode <- dInt16 ;;
  x_PrincipalType <- dString ;;
  x_PrincipalName <- dString ;;
  x_IssueTimestampMs <- dInt64 ;;
  x_ExpiryTimestampMs <- dInt64 ;;
  x_MaxTimestampMs <- dInt64 ;;
  x_TokenId <- dString ;;
  x_Hmac <- dBytes ;;
  x_ThrottleTimeMs <- dInt32 ;;
  ret (mkCreateDelegationTokenResponse x_ErrorCode x_PrincipalType x_PrincipalName x_IssueTimestampMs x_ExpiryTimestampMs x_MaxTimestampMs x_TokenId x_Hmac x_ThrottleTimeMs).
(** the struct declaration read as a schema; version ranges as in Size *)
Definition CreateDelegationTokenResponse_schema : fields :=
  FCons "ErrorCode" Always TInt16
  (FCons "PrincipalType" Always TString
  (FCons "PrincipalName" Always TString
  (FCons "IssueTimestampMs" Always TInt64
  (FCons "ExpiryTimestampMs" Always TInt64
  (FCons "MaxTimestampMs" Always TInt64
  (FCons "TokenId" Always TString
  (FCons "Hmac" Always TBytes
  (FCons "ThrottleTimeMs" Always TInt32 FNil)))))))).
Definition CreateDelegationTokenResponse_to (t : CreateDelegationTokenResponse) : dens CreateDelegationTokenResponse_schema := (CreateDelegationTokenResponse_ErrorCode t, (CreateDelegationTokenResponse_PrincipalType t, (CreateDelegationTokenResponse_PrincipalName t, (CreateDelegationTokenResponse_IssueTimestampMs t, (CreateDelegationTokenResponse_ExpiryTimestampMs t, (CreateDelegationTokenResponse_MaxTimestampMs t, (CreateDelegationTokenResponse_TokenId t, (CreateDelegationTokenResponse_Hmac t, (CreateDelegationTokenResponse_ThrottleTimeMs t, tt))))))))).
Definition CreateDelegationTokenResponse_of (x : dens CreateDelegationTokenResponse_schema) : CreateDelegationTokenResponse := mkCreateDelegationTokenResponse (fst x) (fst (snd x)) (fst (snd (snd x))) (fst (snd (snd (snd x)))) (fst (snd (snd (snd (snd x))))) (fst (snd (snd (snd (snd (snd x)))))) (fst (snd (snd (snd (snd (snd (snd x))))))) (fst (snd (snd (snd (snd (snd (snd (snd x)))))))) (fst (snd (snd (snd (snd (snd (snd (snd (snd x))))))))).
Definition CreateDelegationTokenResponse_codec : codec := Codec CreateDelegationTokenResponse CreateDelegationTokenResponse_zero CreateDelegationTokenResponse_Size CreateDelegationTokenResponse_Encode CreateDelegationTokenResponse_Decode CreateDelegationTokenResponse_schema CreateDelegationTokenResponse_to CreateDelegationTokenResponse_of.
Lemma CreateDelegationTokenResponse_linked : linked CreateDelegationTokenResponse_codec.
Proof.
  apply Linked; cbn [CreateDelegationTokenResponse_codec c_type c_zero c_size c_encode c_decode c_schema c_to c_of].
  - intros t. destruct t. cbv [CreateDelegationTokenResponse_of CreateDelegationTokenResponse_to]. cbn [fst snd CreateDelegationTokenResponse_ErrorCode CreateDelegationTokenResponse_PrincipalType CreateDelegationTokenResponse_PrincipalName CreateDelegationTokenResponse_IssueTimestampMs CreateDelegationTokenResponse_ExpiryTimestampMs CreateDelegationTokenResponse_MaxTimestampMs CreateDelegationTokenResponse_TokenId CreateDelegationTokenResponse_Hmac CreateDelegationTokenResponse_ThrottleTimeMs].  reflexivity.
  - intros x. unfold CreateDelegationTokenResponse_schema in x. cbn [dens den] in x. destruct x as [x0 x]. destruct x as [x1 x]. destruct x as [x2 x]. destruct x as [x3 x]. destruct x as [x4 x]. destruct x as [x5 x]. destruct x as [x6 x]. destruct x as [x7 x]. destruct x as [x8 x]. destruct x. cbv [CreateDelegationTokenResponse_of CreateDelegationTokenResponse_to]. cbn [fst snd CreateDelegationTokenResponse_ErrorCode CreateDelegationTokenResponse_PrincipalType CreateDelegationTokenResponse_PrincipalName CreateDelegationTokenResponse_IssueTimestampMs CreateDelegationTokenResponse_ExpiryTimestampMs CreateDelegationTokenResponse_MaxTimestampMs CreateDelegationTokenResponse_TokenId CreateDelegationTokenResponse_Hmac CreateDelegationTokenResponse_ThrottleTimeMs].  reflexivity.
  - reflexivity.
  - intros v t. unfold CreateDelegationTokenResponse_Size, CreateDelegationTokenResponse_schema, CreateDelegationTokenResponse_to. apply size_start.
    apply size_step; [intros sz; reflexivity|].
    apply size_step; [intros sz; reflexivity|].
    apply size_step; [intros sz; reflexivity|].
    apply size_step; [intros sz; reflexivity|].
    apply size_step; [intros sz; reflexivity|].
    apply size_step; [intros sz; reflexivity|].
    apply size_step; [intros sz; reflexivity|].
    apply size_step; [intros sz; reflexivity|].
    apply size_step; [intros sz; reflexivity|].
    intros sz; reflexivity.
  - intros v t. unfold CreateDelegationTokenResponse_Encode, CreateDelegationTokenResponse_schema, CreateDelegationTokenResponse_to.
    apply enc_step; [intros e; reflexivity|].
    apply enc_step; [intros e; reflexivity|].
    apply enc_step; [intros e; reflexivity|].
    apply enc_step; [intros e; reflexivity|].
    apply enc_step; [intros e; reflexivity|].
    apply enc_step; [intros e; reflexivity|].
    apply enc_step; [intros e; reflexivity|].
    apply enc_step; [intros e; reflexivity|].
    apply enc_step; [intros e; reflexivity|].
    intros e; reflexivity.
  - intros v t. unfold CreateDelegationTokenResponse_Decode, CreateDelegationTokenResponse_schema, CreateDelegationTokenResponse_to.
    dec_field (fun x : Z => x); [apply dmap_id|intros x_ErrorCode].
    dec_field (fun x : gostring => x); [apply dmap_id|intros x_PrincipalType].
    dec_field (fun x : gostring => x); [apply dmap_id|intros x_PrincipalName].
    dec_field (fun x : Z => x); [apply dmap_id|intros x_IssueTimestampMs].
    dec_field (fun x : Z => x); [apply dmap_id|intros x_ExpiryTimestampMs].
    dec_field (fun x : Z => x); [apply dmap_id|intros x_MaxTimestampMs].
    dec_field (fun x : gostring => x); [apply dmap_id|intros x_TokenId].
    dec_field (fun x : gslice Z => x); [apply dmap_id|intros x_Hmac].
    dec_field (fun x : Z => x); [apply dmap_id|intros x_ThrottleTimeMs].
    intros d; reflexivity.
Qed.
Local Opaque CreateDelegationTokenResponse_Size CreateDelegationTokenResponse_Encode CreateDelegationTokenResponse_Decode.

(** ** RenewDelegationTokenRequest *)

(** message/messages.gen.go:10072-10075 *)
Record RenewDelegationTokenRequest : Type := mkRenewDelegationTokenRequest { RenewDelegationTokenRequest_Hmac : gslice Z; RenewDelegationTokenRequest_RenewPeriodMs : Z }.
(** the zero value ([var item RenewDelegationTokenRequest]) *)
Definition RenewDelegationTokenRequest_zero : RenewDelegationTokenRequest := mkRenewDelegationTokenRequest None 0.
(** message/messages.gen.go:10078-10083 *)
Definition RenewDelegationTokenRequest_Size (version : Z) (t : RenewDelegationTokenRequest) : Z :=
  ((size_add (sz_Bytes (RenewDelegationTokenRequest_Hmac t))) +>
   (size_add sz_Int64) +>
   size_done)%size 0.
(** message/messages.gen.go:10086-10089 *)
Definition RenewDelegationTokenRequest_Encode (version : Z) (t : RenewDelegationTokenRequest) : Encoder -> Encoder :=
  ((PutBytes (RenewDelegationTokenRequest_Hmac t)) >>
   (PutInt64 (RenewDelegationTokenRequest_RenewPeriodMs t)) >>
   skip)%enc.
(** message/messages.gen.go:10092-10103 *)
Definition RenewDelegationTokenRequest_Decode (version : Z) (t : RenewDelegationTokenRequest) : Dec RenewDelegationTokenRequest :=
  x_Hmac <- dBytes ;;
  x_RenewPeriodMs <- dInt64 ;;
  ret (mkRenewDelegationTokenRequest x_Hmac x_RenewPeriodMs).
(** the struct declaration read as a schema; version ranges as in Size *)
Definition RenewDelegationTokenRequest_schema : fields :=
  FCons "Hmac" Always TBytes
  (FCons "RenewPeriodMs" Always TInt64 FNil).
Definition RenewDelegationTokenRequest_to (t : RenewDelegationTokenRequest) : dens RenewDelegationTokenRequest_schema := (RenewDelegationTokenRequest_Hmac t, (RenewDelegationTokenRequest_RenewPeriodMs t, tt)).
Definition RenewDelegationTokenRequest_of (x : dens RenewDelegationTokenRequest_schema) : RenewDelegationTokenRequest := mkRenewDelegationTokenRequest (fst x) (fst (snd x)).
Definition RenewDelegationTokenRequest_codec : codec := Codec RenewDelegationTokenRequest RenewDelegationTokenRequest_zero RenewDelegationTokenRequest_Size RenewDelegationTokenRequest_Encode RenewDelegationTokenRequest_Decode RenewDelegationTokenRequest_schema RenewDelegationTokenRequest_to RenewDelegationTokenRequest_of.
Lemma RenewDelegationTokenRequest_linked : linked RenewDelegationTokenRequest_codec.
Proof.
  apply Linked; cbn [RenewDelegationTokenRequest_codec c_type c_zero c_size c_encode c_decode c_schema c_to c_of].
  - intros t. destruct t. cbv [RenewDelegationTokenRequest_of RenewDelegationTokenRequest_to]. cbn [fst snd RenewDelegationTokenRequest_Hmac RenewDelegationTokenRequest_RenewPeriodMs].  reflexivity.
  - intros x. unfold RenewDelegationTokenRequest_schema in x. cbn [dens den] in x. destruct x as [x0 x]. destruct x as [x1 x]. destruct x. cbv [RenewDelegationTokenRequest_of RenewDelegationTokenRequest_to]. cbn [fst snd RenewDelegationTokenRequest_Hmac RenewDelegationTokenRequest_RenewPeriodMs].  reflexivity.
  - reflexivity.
  - intros v t. unfold RenewDelegationTokenRequest_Size, RenewDelegationTokenRequest_schema, RenewDelegationTokenRequest_to. apply size_start.
    apply size_step; [intros sz; reflexivity|].
    apply size_step; [intros sz; reflexivity|].
    intros sz; reflexivity.
  - intros v t. unfold RenewDelegationTokenRequest_Encode, RenewDelegationTokenRequest_schema, RenewDelegationTokenRequest_to.
    apply enc_step; [intros e; reflexivity|].
    apply enc_step; [intros e; reflexivity|].
    intros e; reflexivity.
  - intros v t. unfold RenewDelegationTokenRequest_Decode, RenewDelegationTokenRequest_schema, RenewDelegationTokenRequest_to.
    dec_field (fun x : gslice Z => x); [apply dmap_id|intros x_Hmac].
    dec_field (fun x : Z => x); [apply dmap_id|intros x_RenewPeriodMs].
    intros d; reflexivity.
Qed.
Local Opaque RenewDelegationTokenRequest_Size RenewDelegationTokenRequest_Encode RenewDelegationTokenRequest_Decode.

(** ** RenewDelegationTokenResponse *)

(** message/messages.gen.go:10106-10110 *)
Record RenewDelegationTokenResponse : Type := mkRenewDelegationTokenResponse { RenewDelegationTokenResponse_ErrorCode : Z; RenewDelegationTokenResponse_ExpiryTimestampMs : Z; RenewDelegationTokenResponse_ThrottleTimeMs : Z }.
(** the zero value ([var item RenewDelegationTokenResponse]) *)
Definition RenewDelegationTokenResponse_zero : RenewDelegationTokenResponse := mkRenewDelegationTokenResponse 0 0 0.
(** message/messages.gen.go:10113-10119 *)
Definition RenewDelegationTokenResponse_Size (version : Z) (t : RenewDelegationTokenResponse) : Z :=
  ((size_add sz_Int16) +>
   (size_add sz_Int64) +>
   (size_add sz_Int32) +>
   size_done)%size 0.
(** message/messages.gen.go:10122-10126 *)
Definition RenewDelegationTokenResponse_Encode (version : Z) (t : RenewDelegationTokenResponse) : Encoder -> Encoder :=
  ((PutInt16 (RenewDelegationTokenResponse_ErrorCode t)) >>
   (PutInt64 (RenewDelegationTokenResponse_ExpiryTimestampMs t)) >>
   (PutInt32 (RenewDelegationTokenResponse_ThrottleTimeMs t)) >>
   skip)%enc.
(** message/messages.gen.go:10129-10144 *)
Definition RenewDelegationTokenResponse_Decode (version : Z) (t : RenewDelegationTokenResponse) : Dec RenewDelegationTokenResponse :=
  x_ErrorCode <- dInt16 ;;
  x_ExpiryTimestampMs <- dInt64 ;;
  x_ThrottleTimeMs <- dInt32 ;;
  ret (mkRenewDelegationTokenResponse x_ErrorCode x_ExpiryTimestampMs x_ThrottleTimeMs).
(** the struct declaration read as a schema; version ranges as in Size *)
Definition RenewDelegationTokenResponse_schema : fields :=
  FCons "ErrorCode" Always TInt16
  (FCons "ExpiryTimestampMs" Always TInt64
  (FCons "ThrottleTimeMs" Always TInt32 FNil)).
Definition RenewDelegationTokenResponse_to (t : RenewDelegationTokenResponse) : dens RenewDelegationTokenResponse_schema := (RenewDelegationTokenResponse_ErrorCode t, (RenewDelegationTokenResponse_ExpiryTimestampMs t, (RenewDelegationTokenResponse_ThrottleTimeMs t, tt))).
Definition RenewDelegationTokenResponse_of (x : dens RenewDelegationTokenResponse_schema) : RenewDelegationTokenResponse := mkRenewDelegationTokenResponse (fst x) (fst (snd x)) (fst (snd (snd x))).
Definition RenewDelegationTokenResponse_codec : codec := Codec RenewDelegationTokenResponse RenewDelegationTokenResponse_zero RenewDelegationTokenResponse_Size RenewDelegationTokenResponse_Encode RenewDelegationTokenResponse_Decode RenewDelegationTokenResponse_schema RenewDelegationTokenResponse_to RenewDelegationTokenResponse_of.
Lemma RenewDelegationTokenResponse_linked : linked RenewDelegationTokenResponse_codec.
Proof.
  apply Linked; cbn [RenewDelegationTokenResponse_codec c_type c_zero c_size c_encode c_decode c_schema c_to c_of].
  - intros t. destruct t. cbv [RenewDelegationTokenResponse_of RenewDelegationTokenResponse_to]. cbn [fst snd RenewDelegationTokenResponse_ErrorCode RenewDelegationTokenResponse_ExpiryTimestampMs RenewDelegationTokenResponse_ThrottleTimeMs].  reflexivity.
  - intros x. unfold RenewDelegationTokenResponse_schema in x. cbn [dens den] in x. destruct x as [x0 x]. destruct x as [x1 x]. destruct x as [x2 x]. destruct x. cbv [RenewDelegationTokenResponse_of RenewDelegationTokenResponse_to]. cbn [fst snd RenewDelegationTokenResponse_ErrorCode RenewDelegationTokenResponse_ExpiryTimestampMs RenewDelegationTokenResponse_ThrottleTimeMs].  reflexivity.
  - reflexivity.
  - intros v t. unfold RenewDelegationTokenResponse_Size, RenewDelegationTokenResponse_schema, RenewDelegationTokenResponse_to. apply size_start.
    apply size_step; [intros sz; reflexivity|].
    apply size_step; [intros sz; reflexivity|].
    apply size_step; [intros sz; reflexivity|].
    intros sz; reflexivity.
  - intros v t. unfold RenewDelegationTokenResponse_Encode, RenewDelegationTokenResponse_schema, RenewDelegationTokenResponse_to.
    apply enc_step; [intros e; reflexivity|].
    apply enc_step; [intros e; reflexivity|].
    apply enc_step; [intros e; reflexivity|].
    intros e; reflexivity.
  - intros v t. unfold RenewDelegationTokenResponse_Decode, RenewDelegationTokenResponse_schema, RenewDelegationTokenResponse_to.
    dec_field (fun x : Z => x); [apply dmap_id|intros x_ErrorCode].
    dec_field (fun x : Z => x); [apply dmap_id|intros x_ExpiryTimestampMs].
    dec_field (fun x : Z => x); [apply dmap_id|intros x_ThrottleTimeMs].
    intros d; reflexivity.
Qed.
Local Opaque RenewDelegationTokenResponse_Size RenewDelegationTokenResponse_Encode RenewDelegationTokenResponse_Decode.

(** ** ExpireDelegationTokenRequest *)

(** message/messages.gen.go:10147-10150 *)
Record ExpireDelegationTokenRequest : Type := mkExpireDelegationTokenRequest { ExpireDelegationTokenRequest_Hmac : gslice Z; ExpireDelegationTokenRequest_ExpiryTimePeriodMs : Z }.
(** the zero value ([var item ExpireDelegationTokenRequest]) *)
Definition ExpireDelegationTokenRequest_zero : ExpireDelegationTokenRequest := mkExpireDelegationTokenRequest None 0.
(** message/messages.gen.go:10153-10158 *)
Definition ExpireDelegationTokenRequest_Size (version : Z) (t : ExpireDelegationTokenRequest) : Z :=
  ((size_add (sz_Bytes (ExpireDelegationTokenRequest_Hmac t))) +>
   (size_add sz_Int64) +>
   size_done)%size 0.
(** message/messages.gen.go:10161-10164 *)
Definition ExpireDelegationTokenRequest_Encode (version : Z) (t : ExpireDelegationTokenRequest) : Encoder -> Encoder :=
  ((PutBytes (ExpireDelegationTokenRequest_Hmac t)) >>
   (PutInt64 (ExpireDelegationTokenRequest_ExpiryTimePeriodMs t)) >>
   skip)%enc.
(** message/messages.gen.go:10167-10178 *)
Definition ExpireDelegationTokenRequest_Decode (version : Z) (t : ExpireDelegationTokenRequest) : Dec ExpireDelegationTokenRequest :=
  x_Hmac <- dBytes ;;
  x_ExpiryTimePeriodMs <- dInt64 ;;
  ret (mkExpireDelegationTokenRequest x_Hmac x_ExpiryTimePeriodMs).
(** the struct declaration read as a schema; version ranges as in Size *)
Definition ExpireDelegationTokenRequest_schema : fields :=
  FCons "Hmac" Always TBytes
  (FCons "ExpiryTimePeriodMs" Always TInt64 FNil).
Definition ExpireDelegationTokenRequest_to (t : ExpireDelegationTokenRequest) : dens ExpireDelegationTokenRequest_schema := (ExpireDelegationTokenRequest_Hmac t, (ExpireDelegationTokenRequest_ExpiryTimePeriodMs t, tt)).
Definition ExpireDelegationTokenRequest_of (x : dens ExpireDelegationTokenRequest_schema) : ExpireDelegationTokenRequest := mkExpireDelegationTokenRequest (fst x) (fst (snd x)).
Definition ExpireDelegationTokenRequest_codec : codec := Codec ExpireDelegationTokenRequest ExpireDelegationTokenRequest_zero ExpireDelegationTokenRequest_Size ExpireDelegationTokenRequest_Encode ExpireDelegationTokenRequest_Decode ExpireDelegationTokenRequest_schema ExpireDelegationTokenRequest_to ExpireDelegationTokenRequest_of.
Lemma ExpireDelegationTokenRequest_linked : linked ExpireDelegationTokenRequest_codec.
Proof.
  apply Linked; cbn [ExpireDelegationTokenRequest_codec c_type c_zero c_size c_encode c_decode c_schema c_to c_of].
  - intros t. destruct t. cbv [ExpireDelegationTokenRequest_of ExpireDelegationTokenRequest_to]. cbn [fst snd ExpireDelegationTokenRequest_Hmac ExpireDelegationTokenRequest_ExpiryTimePeriodMs].  reflexivity.
  - intros x. unfold ExpireDelegationTokenRequest_schema in x. cbn [dens den] in x. destruct x as [x0 x]. destruct x as [x1 x]. destruct x. cbv [ExpireDelegationTokenRequest_of ExpireDelegationTokenRequest_to]. cbn [fst snd ExpireDelegationTokenRequest_Hmac ExpireDelegationTokenRequest_ExpiryTimePeriodMs].  reflexivity.
  - reflexivity.
  - intros v t. unfold ExpireDelegationTokenRequest_Size, ExpireDelegationTokenRequest_schema, ExpireDelegationTokenRequest_to. apply size_start.
    apply size_step; [intros sz; reflexivity|].
    apply size_step; [intros sz; reflexivity|].
    intros sz; reflexivity.
  - intros v t. unfold ExpireDelegationTokenRequest_Encode, ExpireDelegationTokenRequest_schema, ExpireDelegationTokenRequest_to.
    apply enc_step; [intros e; reflexivity|].
    apply enc_step; [intros e; reflexivity|].
    intros e; reflexivity.
  - intros v t. unfold ExpireDelegationTokenRequest_Decode, ExpireDelegationTokenRequest_schema, ExpireDelegationTokenRequest_to.
    dec_field (fun x : gslice Z => x); [apply dmap_id|intros x_Hmac].
    dec_field (fun x : Z => x); [apply dmap_id|intros x_ExpiryTimePeriodMs].
    intros d; reflexivity.
Qed.
Local Opaque ExpireDelegationTokenRequest_Size ExpireDelegationTokenRequest_Encode ExpireDelegationTokenRequest_Decode.

