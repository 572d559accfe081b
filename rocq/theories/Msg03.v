(** * Generated message types (part 3 of 10).

    Written by tools/gen_messages.py from message/messages.gen.go, one
    definition per Go method; do not edit.  A Decode method that fails leaves
    a partly filled receiver behind, which no caller looks at; the model drops
    it. *)
From Coq Require Import String.
From Verif Require Import GoBase Encoder Decoder Sizeof SchemaSpec Schema Link.
Open Scope Z_scope.

(** ** UpdateMetadataResponse *)

(** message/messages.gen.go:3137-3139 *)
Record UpdateMetadataResponse : Type := mkUpdateMetadataResponse { UpdateMetadataResponse_ErrorCode : Z }.
(** the zero value ([var item UpdateMetadataResponse]) *)
Definition UpdateMetadataResponse_zero : UpdateMetadataResponse := mkUpdateMetadataResponse 0.
(** message/messages.gen.go:3142-3146 *)
Definition UpdateMetadataResponse_Size (version : Z) (t : UpdateMetadataResponse) : Z :=
  ((size_add sz_Int16) +>
   size_done)%size 0.
(** message/messages.gen.go:3149-3151 *)
Definition UpdateMetadataResponse_Encode (version : Z) (t : UpdateMetadataResponse) : Encoder -> Encoder :=
  ((PutInt16 (UpdateMetadataResponse_ErrorCode t)) >>
   skip)%enc.
(** message/messages.gen.go:3154-3161 *)
Definition UpdateMetadataResponse_Decode (version : Z) (t : UpdateMetadataResponse) : Dec UpdateMetadataResponse :=
  x_ErrorCode <- dInt16 ;;
  ret (mkUpdateMetadataResponse x_ErrorCode).
(** the struct declaration read as a schema; version ranges as in Size *)
Definition UpdateMetadataResponse_schema : fields :=
  FCons "ErrorCode" Always TInt16 FNil.
Definition UpdateMetadataResponse_to (t : UpdateMetadataResponse) : dens UpdateMetadataResponse_schema := (UpdateMetadataResponse_ErrorCode t, tt).
Definition UpdateMetadataResponse_of (x : dens UpdateMetadataResponse_schema) : UpdateMetadataResponse := mkUpdateMetadataResponse (fst x).
Definition UpdateMetadataResponse_codec : codec := Codec UpdateMetadataResponse UpdateMetadataResponse_zero UpdateMetadataResponse_Size UpdateMetadataResponse_Encode UpdateMetadataResponse_Decode UpdateMetadataResponse_schema UpdateMetadataResponse_to UpdateMetadataResponse_of.
Lemma UpdateMetadataResponse_linked : linked UpdateMetadataResponse_codec.
Proof.
  apply Linked; cbn [UpdateMetadataResponse_codec c_type c_zero c_size c_encode c_decode c_schema c_to c_of].
  - intros t. destruct t. cbv [UpdateMetadataResponse_of UpdateMetadataResponse_to]. cbn [fst snd UpdateMetadataResponse_ErrorCode].  reflexivity.
  - intros x. unfold UpdateMetadataResponse_schema in x. cbn [dens den] in x. destruct x as [x0 x]. destruct x. cbv [UpdateMetadataResponse_of UpdateMetadataResponse_to]. cbn [fst snd UpdateMetadataResponse_ErrorCode].  reflexivity.
  - reflexivity.
  - intros v t. unfold UpdateMetadataResponse_Size, UpdateMetadataResponse_schema, UpdateMetadataResponse_to. apply size_start.
    apply size_step; [intros sz; reflexivity|].
    intros sz; reflexivity.
  - intros v t. unfold UpdateMetadataResponse_Encode, UpdateMetadataResponse_schema, UpdateMetadataResponse_to.
    apply enc_step; [intros e; reflexivity|].
    intros e; reflexivity.
  - intros v t. unfold UpdateMetadataResponse_Decode, UpdateMetadataResponse_schema, UpdateMetadataResponse_to.
    dec_field (fun x : Z => x); [apply dmap_id|intros x_ErrorCode].
    intros d; reflexivity.
Qed.
Local Opaque UpdateMetadataResponse_Size UpdateMetadataResponse_Encode UpdateMetadataResponse_Decode.

(** ** ControlledShutdownRequest *)

(** message/messages.gen.go:3164-3167 *)
Record ControlledShutdownRequest : Type := mkControlledShutdownRequest { ControlledShutdownRequest_BrokerId : Z; ControlledShutdownRequest_BrokerEpoch : Z }.
(** the zero value ([var item ControlledShutdownRequest]) *)
Definition ControlledShutdownRequest_zero : ControlledShutdownRequest := mkControlledShutdownRequest 0 0.
(** message/messages.gen.go:3170-3177 *)
Definition ControlledShutdownRequest_Size (version : Z) (t : ControlledShutdownRequest) : Z :=
  ((size_add sz_Int32) +>
   size_if (2 <=? version) (size_add sz_Int64) +>
   size_done)%size 0.
(** message/messages.gen.go:3180-3185 *)
Definition ControlledShutdownRequest_Encode (version : Z) (t : ControlledShutdownRequest) : Encoder -> Encoder :=
  ((PutInt32 (ControlledShutdownRequest_BrokerId t)) >>
   put_if (2 <=? version) (PutInt64 (ControlledShutdownRequest_BrokerEpoch t)) >>
   skip)%enc.
(** message/messages.gen.go:3188-3201 *)
Definition ControlledShutdownRequest_Decode (version : Z) (t : ControlledShutdownRequest) : Dec ControlledShutdownRequest :=
  x_BrokerId <- dInt32 ;;
  x_BrokerEpoch <- dec_if (2 <=? version) dInt64 (ControlledShutdownRequest_BrokerEpoch t) ;;
  ret (mkControlledShutdownRequest x_BrokerId x_BrokerEpoch).
(** the struct declaration read as a schema; version ranges as in Size *)
Definition ControlledShutdownRequest_schema : fields :=
  FCons "BrokerId" Always TInt32
  (FCons "BrokerEpoch" (From 2) TInt64 FNil).
Definition ControlledShutdownRequest_to (t : ControlledShutdownRequest) : dens ControlledShutdownRequest_schema := (ControlledShutdownRequest_BrokerId t, (ControlledShutdownRequest_BrokerEpoch t, tt)).
Definition ControlledShutdownRequest_of (x : dens ControlledShutdownRequest_schema) : ControlledShutdownRequest := mkControlledShutdownRequest (fst x) (fst (snd x)).
Definition ControlledShutdownRequest_codec : codec := Codec ControlledShutdownRequest ControlledShutdownRequest_zero ControlledShutdownRequest_Size ControlledShutdownRequest_Encode ControlledShutdownRequest_Decode ControlledShutdownRequest_schema ControlledShutdownRequest_to ControlledShutdownRequest_of.
Lemma ControlledShutdownRequest_linked : linked ControlledShutdownRequest_codec.
Proof.
  apply Linked; cbn [ControlledShutdownRequest_codec c_type c_zero c_size c_encode c_decode c_schema c_to c_of].
  - intros t. destruct t. cbv [ControlledShutdownRequest_of ControlledShutdownRequest_to]. cbn [fst snd ControlledShutdownRequest_BrokerId ControlledShutdownRequest_BrokerEpoch].  reflexivity.
  - intros x. unfold ControlledShutdownRequest_schema in x. cbn [dens den] in x. destruct x as [x0 x]. destruct x as [x1 x]. destruct x. cbv [ControlledShutdownRequest_of ControlledShutdownRequest_to]. cbn [fst snd ControlledShutdownRequest_BrokerId ControlledShutdownRequest_BrokerEpoch].  reflexivity.
  - reflexivity.
  - intros v t. unfold ControlledShutdownRequest_Size, ControlledShutdownRequest_schema, ControlledShutdownRequest_to. apply size_start.
    apply size_step; [intros sz; reflexivity|].
    apply size_step; [intros sz; reflexivity|].
    intros sz; reflexivity.
  - intros v t. unfold ControlledShutdownRequest_Encode, ControlledShutdownRequest_schema, ControlledShutdownRequest_to.
    apply enc_step; [intros e; reflexivity|].
    apply enc_step; [intros e; reflexivity|].
    intros e; reflexivity.
  - intros v t. unfold ControlledShutdownRequest_Decode, ControlledShutdownRequest_schema, ControlledShutdownRequest_to.
    dec_field (fun x : Z => x); [apply dmap_id|intros x_BrokerId].
    dec_field (fun x : Z => x); [apply dec_if_link; [apply dmap_id|reflexivity]|intros x_BrokerEpoch].
    intros d; reflexivity.
Qed.
Local Opaque ControlledShutdownRequest_Size ControlledShutdownRequest_Encode ControlledShutdownRequest_Decode.

(** ** RemainingPartition7 *)

(** message/messages.gen.go:3254-3257 *)
Record RemainingPartition7 : Type := mkRemainingPartition7 { RemainingPartition7_TopicName : gostring; RemainingPartition7_PartitionIndex : Z }.
(** the zero value ([var item RemainingPartition7]) *)
Definition RemainingPartition7_zero : RemainingPartition7 := mkRemainingPartition7 [] 0.
(** message/messages.gen.go:3260-3265 *)
Definition RemainingPartition7_Size (version : Z) (t : RemainingPartition7) : Z :=
  ((size_add (sz_String (RemainingPartition7_TopicName t))) +>
   (size_add sz_Int32) +>
   size_done)%size 0.
(** message/messages.gen.go:3268-3271 *)
Definition RemainingPartition7_Encode (version : Z) (t : RemainingPartition7) : Encoder -> Encoder :=
  ((PutString (RemainingPartition7_TopicName t)) >>
   (PutInt32 (RemainingPartition7_PartitionIndex t)) >>
   skip)%enc.
(** message/messages.gen.go:3274-3285 *)
Definition RemainingPartition7_Decode (version : Z) (t : RemainingPartition7) : Dec RemainingPartition7 :=
  x_TopicName <- dString ;;
  x_PartitionIndex <- dInt32 ;;
  ret (mkRemainingPartition7 x_TopicName x_PartitionIndex).
(** the struct declaration read as a schema; version ranges as in Size *)
Definition RemainingPartition7_schema : fields :=
  FCons "TopicName" Always TString
  (FCons "PartitionIndex" Always TInt32 FNil).
Definition RemainingPartition7_to (t : RemainingPartition7) : dens RemainingPartition7_schema := (RemainingPartition7_TopicName t, (RemainingPartition7_PartitionIndex t, tt)).
Definition RemainingPartition7_of (x : dens RemainingPartition7_schema) : RemainingPartition7 := mkRemainingPartition7 (fst x) (fst (snd x)).
Definition RemainingPartition7_codec : codec := Codec RemainingPartition7 RemainingPartition7_zero RemainingPartition7_Size RemainingPartition7_Encode RemainingPartition7_Decode RemainingPartition7_schema RemainingPartition7_to RemainingPartition7_of.
Lemma RemainingPartition7_linked : linked RemainingPartition7_codec.
Proof.
  apply Linked; cbn [RemainingPartition7_codec c_type c_zero c_size c_encode c_decode c_schema c_to c_of].
  - intros t. destruct t. cbv [RemainingPartition7_of RemainingPartition7_to]. cbn [fst snd RemainingPartition7_TopicName RemainingPartition7_PartitionIndex].  reflexivity.
  - intros x. unfold RemainingPartition7_schema in x. cbn [dens den] in x. destruct x as [x0 x]. destruct x as [x1 x]. destruct x. cbv [RemainingPartition7_of RemainingPartition7_to]. cbn [fst snd RemainingPartition7_TopicName RemainingPartition7_PartitionIndex].  reflexivity.
  - reflexivity.
  - intros v t. unfold RemainingPartition7_Size, RemainingPartition7_schema, RemainingPartition7_to. apply size_start.
    apply size_step; [intros sz; reflexivity|].
    apply size_step; [intros sz; reflexivity|].
    intros sz; reflexivity.
  - intros v t. unfold RemainingPartition7_Encode, RemainingPartition7_schema, RemainingPartition7_to.
    apply enc_step; [intros e; reflexivity|].
    apply enc_step; [intros e; reflexivity|].
    intros e; reflexivity.
  - intros v t. unfold RemainingPartition7_Decode, RemainingPartition7_schema, RemainingPartition7_to.
    dec_field (fun x : gostring => x); [apply dmap_id|intros x_TopicName].
    dec_field (fun x : Z => x); [apply dmap_id|intros x_PartitionIndex].
    intros d; reflexivity.
Qed.
Local Opaque RemainingPartition7_Size RemainingPartition7_Encode RemainingPartition7_Decode.

(** ** ControlledShutdownResponse *)

(** message/messages.gen.go:3204-3207 *)
Record ControlledShutdownResponse : Type := mkControlledShutdownResponse { ControlledShutdownResponse_ErrorCode : Z; ControlledShutdownResponse_RemainingPartitions : gslice RemainingPartition7 }.
(** the zero value ([var item ControlledShutdownResponse]) *)
Definition ControlledShutdownResponse_zero : ControlledShutdownResponse := mkControlledShutdownResponse 0 None.
(** message/messages.gen.go:3210-3218 *)
Definition ControlledShutdownResponse_Size (version : Z) (t : ControlledShutdownResponse) : Z :=
  ((size_add sz_Int16) +>
   (size_loop (RemainingPartition7_Size version) (ControlledShutdownResponse_RemainingPartitions t)) +>
   size_done)%size 0.
(** message/messages.gen.go:3221-3229 *)
Definition ControlledShutdownResponse_Encode (version : Z) (t : ControlledShutdownResponse) : Encoder -> Encoder :=
  ((PutInt16 (ControlledShutdownResponse_ErrorCode t)) >>
   (put_array (RemainingPartition7_Encode version) (ControlledShutdownResponse_RemainingPartitions t)) >>
   skip)%enc.
(** message/messages.gen.go:3232-3252 *)
Definition ControlledShutdownResponse_Decode (version : Z) (t : ControlledShutdownResponse) : Dec ControlledShutdownResponse :=
  x_ErrorCode <- dInt16 ;;
  x_RemainingPartitions <- (dec_array (RemainingPartition7_Decode version RemainingPartition7_zero) (ControlledShutdownResponse_RemainingPartitions t)) ;;
  ret (mkControlledShutdownResponse x_ErrorCode x_RemainingPartitions).
(** the struct declaration read as a schema; version ranges as in Size *)
Definition ControlledShutdownResponse_schema : fields :=
  FCons "ErrorCode" Always TInt16
  (FCons "RemainingPartitions" Always (TArray RemainingPartition7_schema) FNil).
Definition ControlledShutdownResponse_to (t : ControlledShutdownResponse) : dens ControlledShutdownResponse_schema := (ControlledShutdownResponse_ErrorCode t, (option_map (map RemainingPartition7_to) (ControlledShutdownResponse_RemainingPartitions t), tt)).
Definition ControlledShutdownResponse_of (x : dens ControlledShutdownResponse_schema) : ControlledShutdownResponse := mkControlledShutdownResponse (fst x) (option_map (map RemainingPartition7_of) (fst (snd x))).
Definition ControlledShutdownResponse_codec : codec := Codec ControlledShutdownResponse ControlledShutdownResponse_zero ControlledShutdownResponse_Size ControlledShutdownResponse_Encode ControlledShutdownResponse_Decode ControlledShutdownResponse_schema ControlledShutdownResponse_to ControlledShutdownResponse_of.
Lemma ControlledShutdownResponse_linked : linked ControlledShutdownResponse_codec.
Proof.
  apply Linked; cbn [ControlledShutdownResponse_codec c_type c_zero c_size c_encode c_decode c_schema c_to c_of].
  - intros t. destruct t. cbv [ControlledShutdownResponse_of ControlledShutdownResponse_to]. cbn [fst snd ControlledShutdownResponse_ErrorCode ControlledShutdownResponse_RemainingPartitions]. rewrite ?(option_map_map_inv RemainingPartition7_to RemainingPartition7_of _ (l_of_to _ RemainingPartition7_linked)). reflexivity.
  - intros x. unfold ControlledShutdownResponse_schema in x. cbn [dens den] in x. destruct x as [x0 x]. destruct x as [x1 x]. destruct x. cbv [ControlledShutdownResponse_of ControlledShutdownResponse_to]. cbn [fst snd ControlledShutdownResponse_ErrorCode ControlledShutdownResponse_RemainingPartitions]. rewrite ?(option_map_map_inv RemainingPartition7_of RemainingPartition7_to _ (l_to_of _ RemainingPartition7_linked)). reflexivity.
  - reflexivity.
  - intros v t. unfold ControlledShutdownResponse_Size, ControlledShutdownResponse_schema, ControlledShutdownResponse_to. apply size_start.
    apply size_step; [intros sz; reflexivity|].
    apply size_step; [intros sz; apply (size_field_link (RemainingPartition7_Size v) RemainingPartition7_schema RemainingPartition7_to v (l_size _ RemainingPartition7_linked v) true)|].
    intros sz; reflexivity.
  - intros v t. unfold ControlledShutdownResponse_Encode, ControlledShutdownResponse_schema, ControlledShutdownResponse_to.
    apply enc_step; [intros e; reflexivity|].
    apply enc_step; [intros e; apply (put_field_link (RemainingPartition7_Encode v) RemainingPartition7_schema RemainingPartition7_to v (l_encode _ RemainingPartition7_linked v) true)|].
    intros e; reflexivity.
  - intros v t. unfold ControlledShutdownResponse_Decode, ControlledShutdownResponse_schema, ControlledShutdownResponse_to.
    dec_field (fun x : Z => x); [apply dmap_id|intros x_ErrorCode].
    dec_field (option_map (map RemainingPartition7_of)); [apply (dec_array_link _ _ RemainingPartition7_of RemainingPartition7_to (l_decode _ RemainingPartition7_linked v RemainingPartition7_zero) (l_of_to _ RemainingPartition7_linked))|intros x_RemainingPartitions].
    intros d; reflexivity.
Qed.
Local Opaque ControlledShutdownResponse_Size ControlledShutdownResponse_Encode ControlledShutdownResponse_Decode.

(** ** OffsetCommitRequestPartition8 *)

(** message/messages.gen.go:3440-3445 *)
Record OffsetCommitRequestPartition8 : Type := mkOffsetCommitRequestPartition8 { OffsetCommitRequestPartition8_PartitionIndex : Z; OffsetCommitRequestPartition8_CommittedOffset : Z; OffsetCommitRequestPartition8_CommittedLeaderEpoch : Z; OffsetCommitRequestPartition8_CommittedMetadata : gostring }.
(** the zero value ([var item OffsetCommitRequestPartition8]) *)
Definition OffsetCommitRequestPartition8_zero : OffsetCommitRequestPartition8 := mkOffsetCommitRequestPartition8 0 0 0 [].
(** message/messages.gen.go:3448-3457 *)
Definition OffsetCommitRequestPartition8_Size (version : Z) (t : OffsetCommitRequestPartition8) : Z :=
  ((size_add sz_Int32) +>
   (size_add sz_Int64) +>
   size_if (6 <=? version) (size_add sz_Int32) +>
   (size_add (sz_String (OffsetCommitRequestPartition8_CommittedMetadata t))) +>
   size_done)%size 0.
(** message/messages.gen.go:3460-3467 *)
Definition OffsetCommitRequestPartition8_Encode (version : Z) (t : OffsetCommitRequestPartition8) : Encoder -> Encoder :=
  ((PutInt32 (OffsetCommitRequestPartition8_PartitionIndex t)) >>
   (PutInt64 (OffsetCommitRequestPartition8_CommittedOffset t)) >>
   put_if (6 <=? version) (PutInt32 (OffsetCommitRequestPartition8_CommittedLeaderEpoch t)) >>
   (PutString (OffsetCommitRequestPartition8_CommittedMetadata t)) >>
   skip)%enc.
(** message/messages.gen.go:3470-3491 *)
Definition OffsetCommitRequestPartition8_Decode (version : Z) (t : OffsetCommitRequestPartition8) : Dec OffsetCommitRequestPartition8 :=
  x_PartitionIndex <- dInt32 ;;
  x_CommittedOffset <- dInt64 ;;
  x_CommittedLeaderEpoch <- dec_if (6 <=? version) dInt32 (OffsetCommitRequestPartition8_CommittedLeaderEpoch t) ;;
  x_CommittedMetadata <- dString ;;
  ret (mkOffsetCommitRequestPartition8 x_PartitionIndex x_CommittedOffset x_CommittedLeaderEpoch x_CommittedMetadata).
(** the struct declaration read as a schema; version ranges as in Size *)
Definition OffsetCommitRequestPartition8_schema : fields :=
  FCons "PartitionIndex" Always TInt32
  (FCons "CommittedOffset" Always TInt64
  (FCons "CommittedLeaderEpoch" (From 6) TInt32
  (FCons "CommittedMetadata" Always TString FNil))).
Definition OffsetCommitRequestPartition8_to (t : OffsetCommitRequestPartition8) : dens OffsetCommitRequestPartition8_schema := (OffsetCommitRequestPartition8_PartitionIndex t, (OffsetCommitRequestPartition8_CommittedOffset t, (OffsetCommitRequestPartition8_CommittedLeaderEpoch t, (OffsetCommitRequestPartition8_CommittedMetadata t, tt)))).
Definition OffsetCommitRequestPartition8_of (x : dens OffsetCommitRequestPartition8_schema) : OffsetCommitRequestPartition8 := mkOffsetCommitRequestPartition8 (fst x) (fst (snd x)) (fst (snd (snd x))) (fst (snd (snd (snd x)))).
Definition OffsetCommitRequestPartition8_codec : codec := Codec OffsetCommitRequestPartition8 OffsetCommitRequestPartition8_zero OffsetCommitRequestPartition8_Size OffsetCommitRequestPartition8_Encode OffsetCommitRequestPartition8_Decode OffsetCommitRequestPartition8_schema OffsetCommitRequestPartition8_to OffsetCommitRequestPartition8_of.
Lemma OffsetCommitRequestPartition8_linked : linked OffsetCommitRequestPartition8_codec.
Proof.
  apply Linked; cbn [OffsetCommitRequestPartition8_codec c_type c_zero c_size c_encode c_decode c_schema c_to c_of].
  - intros t. destruct t. cbv [OffsetCommitRequestPartition8_of OffsetCommitRequestPartition8_to]. cbn [fst snd OffsetCommitRequestPartition8_PartitionIndex OffsetCommitRequestPartition8_CommittedOffset OffsetCommitRequestPartition8_CommittedLeaderEpoch OffsetCommitRequestPartition8_CommittedMetadata].  reflexivity.
  - intros x. unfold OffsetCommitRequestPartition8_schema in x. cbn [dens den] in x. destruct x as [x0 x]. destruct x as [x1 x]. destruct x as [x2 x]. destruct x as [x3 x]. destruct x. cbv [OffsetCommitRequestPartition8_of OffsetCommitRequestPartition8_to]. cbn [fst snd OffsetCommitRequestPartition8_PartitionIndex OffsetCommitRequestPartition8_CommittedOffset OffsetCommitRequestPartition8_CommittedLeaderEpoch OffsetCommitRequestPartition8_CommittedMetadata].  reflexivity.
  - reflexivity.
  - intros v t. unfold OffsetCommitRequestPartition8_Size, OffsetCommitRequestPartition8_schema, OffsetCommitRequestPartition8_to. apply size_start.
    apply size_step; [intros sz; reflexivity|].
    apply size_step; [intros sz; reflexivity|].
    apply size_step; [intros sz; reflexivity|].
    apply size_step; [intros sz; reflexivity|].
    intros sz; reflexivity.
  - intros v t. unfold OffsetCommitRequestPartition8_Encode, OffsetCommitRequestPartition8_schema, OffsetCommitRequestPartition8_to.
    apply enc_step; [intros e; reflexivity|].
    apply enc_step; [intros e; reflexivity|].
    apply enc_step; [intros e; reflexivity|].
    apply enc_step; [intros e; reflexivity|].
    intros e; reflexivity.
  - intros v t. unfold OffsetCommitRequestPartition8_Decode, OffsetCommitRequestPartition8_schema, OffsetCommitRequestPartition8_to.
    dec_field (fun x : Z => x); [apply dmap_id|intros x_PartitionIndex].
    dec_field (fun x : Z => x); [apply dmap_id|intros x_CommittedOffset].
    dec_field (fun x : Z => x); [apply dec_if_link; [apply dmap_id|reflexivity]|intros x_CommittedLeaderEpoch].
    dec_field (fun x : gostring => x); [apply dmap_id|intros x_CommittedMetadata].
    intros d; reflexivity.
Qed.
Local Opaque OffsetCommitRequestPartition8_Size OffsetCommitRequestPartition8_Encode OffsetCommitRequestPartition8_Decode.

(** ** OffsetCommitRequestTopic8 *)

(** message/messages.gen.go:3390-3393 *)
Record OffsetCommitRequestTopic8 : Type := mkOffsetCommitRequestTopic8 { OffsetCommitRequestTopic8_Name : gostring; OffsetCommitRequestTopic8_Partitions : gslice OffsetCommitRequestPartition8 }.
(** the zero value ([var item OffsetCommitRequestTopic8]) *)
Definition OffsetCommitRequestTopic8_zero : OffsetCommitRequestTopic8 := mkOffsetCommitRequestTopic8 [] None.
(** message/messages.gen.go:3396-3404 *)
Definition OffsetCommitRequestTopic8_Size (version : Z) (t : OffsetCommitRequestTopic8) : Z :=
  ((size_add (sz_String (OffsetCommitRequestTopic8_Name t))) +>
   (size_loop (OffsetCommitRequestPartition8_Size version) (OffsetCommitRequestTopic8_Partitions t)) +>
   size_done)%size 0.
(** message/messages.gen.go:3407-3415 *)
Definition OffsetCommitRequestTopic8_Encode (version : Z) (t : OffsetCommitRequestTopic8) : Encoder -> Encoder :=
  ((PutString (OffsetCommitRequestTopic8_Name t)) >>
   (put_array (OffsetCommitRequestPartition8_Encode version) (OffsetCommitRequestTopic8_Partitions t)) >>
   skip)%enc.
(** message/messages.gen.go:3418-3438 *)
Definition OffsetCommitRequestTopic8_Decode (version : Z) (t : OffsetCommitRequestTopic8) : Dec OffsetCommitRequestTopic8 :=
  x_Name <- dString ;;
  x_Partitions <- (dec_array (OffsetCommitRequestPartition8_Decode version OffsetCommitRequestPartition8_zero) (OffsetCommitRequestTopic8_Partitions t)) ;;
  ret (mkOffsetCommitRequestTopic8 x_Name x_Partitions).
(** the struct declaration read as a schema; version ranges as in Size *)
Definition OffsetCommitRequestTopic8_schema : fields :=
  FCons "Name" Always TString
  (FCons "Partitions" Always (TArray OffsetCommitRequestPartition8_schema) FNil).
Definition OffsetCommitRequestTopic8_to (t : OffsetCommitRequestTopic8) : dens OffsetCommitRequestTopic8_schema := (OffsetCommitRequestTopic8_Name t, (option_map (map OffsetCommitRequestPartition8_to) (OffsetCommitRequestTopic8_Partitions t), tt)).
Definition OffsetCommitRequestTopic8_of (x : dens OffsetCommitRequestTopic8_schema) : OffsetCommitRequestTopic8 := mkOffsetCommitRequestTopic8 (fst x) (option_map (map OffsetCommitRequestPartition8_of) (fst (snd x))).
Definition OffsetCommitRequestTopic8_codec : codec := Codec OffsetCommitRequestTopic8 OffsetCommitRequestTopic8_zero OffsetCommitRequestTopic8_Size OffsetCommitRequestTopic8_Encode OffsetCommitRequestTopic8_Decode OffsetCommitRequestTopic8_schema OffsetCommitRequestTopic8_to OffsetCommitRequestTopic8_of.
Lemma OffsetCommitRequestTopic8_linked : linked OffsetCommitRequestTopic8_codec.
Proof.
  apply Linked; cbn [OffsetCommitRequestTopic8_codec c_type c_zero c_size c_encode c_decode c_schema c_to c_of].
  - intros t. destruct t. cbv [OffsetCommitRequestTopic8_of OffsetCommitRequestTopic8_to]. cbn [fst snd OffsetCommitRequestTopic8_Name OffsetCommitRequestTopic8_Partitions]. rewrite ?(option_map_map_inv OffsetCommitRequestPartition8_to OffsetCommitRequestPartition8_of _ (l_of_to _ OffsetCommitRequestPartition8_linked)). reflexivity.
  - intros x. unfold OffsetCommitRequestTopic8_schema in x. cbn [dens den] in x. destruct x as [x0 x]. destruct x as [x1 x]. destruct x. cbv [OffsetCommitRequestTopic8_of OffsetCommitRequestTopic8_to]. cbn [fst snd OffsetCommitRequestTopic8_Name OffsetCommitRequestTopic8_Partitions]. rewrite ?(option_map_map_inv OffsetCommitRequestPartition8_of OffsetCommitRequestPartition8_to _ (l_to_of _ OffsetCommitRequestPartition8_linked)). reflexivity.
  - reflexivity.
  - intros v t. unfold OffsetCommitRequestTopic8_Size, OffsetCommitRequestTopic8_schema, OffsetCommitRequestTopic8_to. apply size_start.
    apply size_step; [intros sz; reflexivity|].
    apply size_step; [intros sz; apply (size_field_link (OffsetCommitRequestPartition8_Size v) OffsetCommitRequestPartition8_schema OffsetCommitRequestPartition8_to v (l_size _ OffsetCommitRequestPartition8_linked v) true)|].
    intros sz; reflexivity.
  - intros v t. unfold OffsetCommitRequestTopic8_Encode, OffsetCommitRequestTopic8_schema, OffsetCommitRequestTopic8_to.
    apply enc_step; [intros e; reflexivity|].
    apply enc_step; [intros e; apply (put_field_link (OffsetCommitRequestPartition8_Encode v) OffsetCommitRequestPartition8_schema OffsetCommitRequestPartition8_to v (l_encode _ OffsetCommitRequestPartition8_linked v) true)|].
    intros e; reflexivity.
  - intros v t. unfold OffsetCommitRequestTopic8_Decode, OffsetCommitRequestTopic8_schema, OffsetCommitRequestTopic8_to.
    dec_field (fun x : gostring => x); [apply dmap_id|intros x_Name].
    dec_field (option_map (map OffsetCommitRequestPartition8_of)); [apply (dec_array_link _ _ OffsetCommitRequestPartition8_of OffsetCommitRequestPartition8_to (l_decode _ OffsetCommitRequestPartition8_linked v OffsetCommitRequestPartition8_zero) (l_of_to _ OffsetCommitRequestPartition8_linked))|intros x_Partitions].
    intros d; reflexivity.
Qed.
Local Opaque OffsetCommitRequestTopic8_Size OffsetCommitRequestTopic8_Encode OffsetCommitRequestTopic8_Decode.

(** ** OffsetCommitRequest *)

(** message/messages.gen.go:3288-3295 *)
Record OffsetCommitRequest : Type := mkOffsetCommitRequest { OffsetCommitRequest_GroupId : gostring; OffsetCommitRequest_GenerationId : Z; OffsetCommitRequest_MemberId : gostring; OffsetCommitRequest_GroupInstanceId : gostring; OffsetCommitRequest_RetentionTimeMs : Z; OffsetCommitRequest_Topics : gslice OffsetCommitRequestTopic8 }.
(** the zero value ([var item OffsetCommitRequest]) *)
Definition OffsetCommitRequest_zero : OffsetCommitRequest := mkOffsetCommitRequest [] 0 [] [] 0 None.
(** message/messages.gen.go:3298-3318 *)
Definition OffsetCommitRequest_Size (version : Z) (t : OffsetCommitRequest) : Z :=
  ((size_add (sz_String (OffsetCommitRequest_GroupId t))) +>
   size_if (1 <=? version) (size_add sz_Int32) +>
   size_if (1 <=? version) (size_add (sz_String (OffsetCommitRequest_MemberId t))) +>
   size_if (7 <=? version) (size_add (sz_String (OffsetCommitRequest_GroupInstanceId t))) +>
   size_if ((2 <=? version) && (version <=? 4)) (size_add sz_Int64) +>
   (size_loop (OffsetCommitRequestTopic8_Size version) (OffsetCommitRequest_Topics t)) +>
   size_done)%size 0.
(** message/messages.gen.go:3321-3341 *)
Definition OffsetCommitRequest_Encode (version : Z) (t : OffsetCommitRequest) : Encoder -> Encoder :=
  ((PutString (OffsetCommitRequest_GroupId t)) >>
   put_if (1 <=? version) (PutInt32 (OffsetCommitRequest_GenerationId t)) >>
   put_if (1 <=? version) (PutString (OffsetCommitRequest_MemberId t)) >>
   put_if (7 <=? version) (PutString (OffsetCommitRequest_GroupInstanceId t)) >>
   put_if ((2 <=? version) && (version <=? 4)) (PutInt64 (OffsetCommitRequest_RetentionTimeMs t)) >>
   (put_array (OffsetCommitRequestTopic8_Encode version) (OffsetCommitRequest_Topics t)) >>
   skip)%enc.
(** message/messages.gen.go:3344-3388 *)
Definition OffsetCommitRequest_Decode (version : Z) (t : OffsetCommitRequest) : Dec OffsetCommitRequest :=
  x_GroupId <- dString ;;
  x_GenerationId <- dec_if (1 <=? version) dInt32 (OffsetCommitRequest_GenerationId t) ;;
  x_MemberId <- dec_if (1 <=? version) dString (OffsetCommitRequest_MemberId t) ;;
  x_GroupInstanceId <- dec_if (7 <=? version) dString (OffsetCommitRequest_GroupInstanceId t) ;;
  x_RetentionTimeMs <- dec_if ((2 <=? version) && (version <=? 4)) dInt64 (OffsetCommitRequest_RetentionTimeMs t) ;;
  x_Topics <- (dec_array (OffsetCommitRequestTopic8_Decode version OffsetCommitRequestTopic8_zero) (OffsetCommitRequest_Topics t)) ;;
  ret (mkOffsetCommitRequest x_GroupId x_GenerationId x_MemberId x_GroupInstanceId x_RetentionTimeMs x_Topics).
(** the struct declaration read as a schema; version ranges as in Size *)
Definition OffsetCommitRequest_schema : fields :=
  FCons "GroupId" Always TString
  (FCons "GenerationId" (From 1) TInt32
  (FCons "MemberId" (From 1) TString
  (FCons "GroupInstanceId" (From 7) TString
  (FCons "RetentionTimeMs" (Between 2 4) TInt64
  (FCons "Topics" Always (TArray OffsetCommitRequestTopic8_schema) FNil))))).
Definition OffsetCommitRequest_to (t : OffsetCommitRequest) : dens OffsetCommitRequest_schema := (OffsetCommitRequest_GroupId t, (OffsetCommitRequest_GenerationId t, (OffsetCommitRequest_MemberId t, (OffsetCommitRequest_GroupInstanceId t, (OffsetCommitRequest_RetentionTimeMs t, (option_map (map OffsetCommitRequestTopic8_to) (OffsetCommitRequest_Topics t), tt)))))).
Definition OffsetCommitRequest_of (x : dens OffsetCommitRequest_schema) : OffsetCommitRequest := mkOffsetCommitRequest (fst x) (fst (snd x)) (fst (snd (snd x))) (fst (snd (snd (snd x)))) (fst (snd (snd (snd (snd x))))) (option_map (map OffsetCommitRequestTopic8_of) (fst (snd (snd (snd (snd (snd x))))))).
Definition OffsetCommitRequest_codec : codec := Codec OffsetCommitRequest OffsetCommitRequest_zero OffsetCommitRequest_Size OffsetCommitRequest_Encode OffsetCommitRequest_Decode OffsetCommitRequest_schema OffsetCommitRequest_to OffsetCommitRequest_of.
Lemma OffsetCommitRequest_linked : linked OffsetCommitRequest_codec.
Proof.
  apply Linked; cbn [OffsetCommitRequest_codec c_type c_zero c_size c_encode c_decode c_schema c_to c_of].
  - intros t. destruct t. cbv [OffsetCommitRequest_of OffsetCommitRequest_to]. cbn [fst snd OffsetCommitRequest_GroupId OffsetCommitRequest_GenerationId OffsetCommitRequest_MemberId OffsetCommitRequest_GroupInstanceId OffsetCommitRequest_RetentionTimeMs OffsetCommitRequest_Topics]. rewrite ?(option_map_map_inv OffsetCommitRequestTopic8_to OffsetCommitRequestTopic8_of _ (l_of_to _ OffsetCommitRequestTopic8_linked)). reflexivity.
  - intros x. unfold OffsetCommitRequest_schema in x. cbn [dens den] in x. destruct x as [x0 x]. destruct x as [x1 x]. destruct x as [x2 x]. destruct x as [x3 x]. destruct x as [x4 x]. destruct x as [x5 x]. destruct x. cbv [OffsetCommitRequest_of OffsetCommitRequest_to]. cbn [fst snd OffsetCommitRequest_GroupId OffsetCommitRequest_GenerationId OffsetCommitRequest_MemberId OffsetCommitRequest_GroupInstanceId OffsetCommitRequest_RetentionTimeMs OffsetCommitRequest_Topics]. rewrite ?(option_map_map_inv OffsetCommitRequestTopic8_of OffsetCommitRequestTopic8_to _ (l_to_of _ OffsetCommitRequestTopic8_linked)). reflexivity.
  - reflexivity.
  - intros v t. unfold OffsetCommitRequest_Size, OffsetCommitRequest_schema, OffsetCommitRequest_to. apply size_start.
    apply size_step; [intros sz; reflexivity|].
    apply size_step; [intros sz; reflexivity|].
    apply size_step; [intros sz; reflexivity|].
    apply size_step; [intros sz; reflexivity|].
    apply size_step; [intros sz; reflexivity|].
    apply size_step; [intros sz; apply (size_field_link (OffsetCommitRequestTopic8_Size v) OffsetCommitRequestTopic8_schema OffsetCommitRequestTopic8_to v (l_size _ OffsetCommitRequestTopic8_linked v) true)|].
    intros sz; reflexivity.
  - intros v t. unfold OffsetCommitRequest_Encode, OffsetCommitRequest_schema, OffsetCommitRequest_to.
    apply enc_step; [intros e; reflexivity|].
    apply enc_step; [intros e; reflexivity|].
    apply enc_step; [intros e; reflexivity|].
    apply enc_step; [intros e; reflexivity|].
    apply enc_step; [intros e; reflexivity|].
    apply enc_step; [intros e; apply (put_field_link (OffsetCommitRequestTopic8_Encode v) OffsetCommitRequestTopic8_schema OffsetCommitRequestTopic8_to v (l_encode _ OffsetCommitRequestTopic8_linked v) true)|].
    intros e; reflexivity.
  - intros v t. unfold OffsetCommitRequest_Decode, OffsetCommitRequest_schema, OffsetCommitRequest_to.
    dec_field (fun x : gostring => x); [apply dmap_id|intros x_GroupId].
    dec_field (fun x : Z => x); [apply dec_if_link; [apply dmap_id|reflexivity]|intros x_GenerationId].
    dec_field (fun x : gostring => x); [apply dec_if_link; [apply dmap_id|reflexivity]|intros x_MemberId].
    dec_field (fun x : gostring => x); [apply dec_if_link; [apply dmap_id|reflexivity]|intros x_GroupInstanceId].
    dec_field (fun x : Z => x); [apply dec_if_link; [apply dmap_id|reflexivity]|intros x_RetentionTimeMs].
    dec_field (option_map (map OffsetCommitRequestTopic8_of)); [apply (dec_array_link _ _ OffsetCommitRequestTopic8_of OffsetCommitRequestTopic8_to (l_decode _ OffsetCommitRequestTopic8_linked v OffsetCommitRequestTopic8_zero) (l_of_to _ OffsetCommitRequestTopic8_linked))|intros x_Topics].
    intros d; reflexivity.
Qed.
Local Opaque OffsetCommitRequest_Size OffsetCommitRequest_Encode OffsetCommitRequest_Decode.

(** ** OffsetCommitResponsePartition8 *)

(** message/messages.gen.go:3600-3603 *)
Record OffsetCommitResponsePartition8 : Type := mkOffsetCommitResponsePartition8 { OffsetCommitResponsePartition8_PartitionIndex : Z; OffsetCommitResponsePartition8_ErrorCode : Z }.
(** the zero value ([var item OffsetCommitResponsePartition8]) *)
Definition OffsetCommitResponsePartition8_zero : OffsetCommitResponsePartition8 := mkOffsetCommitResponsePartition8 0 0.
(** message/messages.gen.go:3606-3611 *)
Definition OffsetCommitResponsePartition8_Size (version : Z) (t : OffsetCommitResponsePartition8) : Z :=
  ((size_add sz_Int32) +>
   (size_add sz_Int16) +>
   size_done)%size 0.
(** message/messages.gen.go:3614-3617 *)
Definition OffsetCommitResponsePartition8_Encode (version : Z) (t : OffsetCommitResponsePartition8) : Encoder -> Encoder :=
  ((PutInt32 (OffsetCommitResponsePartition8_PartitionIndex t)) >>
   (PutInt16 (OffsetCommitResponsePartition8_ErrorCode t)) >>
   skip)%enc.
(** message/messages.gen.go:3620-3631 *)
Definition OffsetCommitResponsePartition8_Decode (version : Z) (t : OffsetCommitResponsePartition8) : Dec OffsetCommitResponsePartition8 :=
  x_PartitionIndex <- dInt32 ;;
  x_ErrorCode <- dInt16 ;;
  ret (mkOffsetCommitResponsePartition8 x_PartitionIndex x_ErrorCode).
(** the struct declaration read as a schema; version ranges as in Size *)
Definition OffsetCommitResponsePartition8_schema : fields :=
  FCons "PartitionIndex" Always TInt32
  (FCons "ErrorCode" Always TInt16 FNil).
Definition OffsetCommitResponsePartition8_to (t : OffsetCommitResponsePartition8) : dens OffsetCommitResponsePartition8_schema := (OffsetCommitResponsePartition8_PartitionIndex t, (OffsetCommitResponsePartition8_ErrorCode t, tt)).
Definition OffsetCommitResponsePartition8_of (x : dens OffsetCommitResponsePartition8_schema) : OffsetCommitResponsePartition8 := mkOffsetCommitResponsePartition8 (fst x) (fst (snd x)).
Definition OffsetCommitResponsePartition8_codec : codec := Codec OffsetCommitResponsePartition8 OffsetCommitResponsePartition8_zero OffsetCommitResponsePartition8_Size OffsetCommitResponsePartition8_Encode OffsetCommitResponsePartition8_Decode OffsetCommitResponsePartition8_schema OffsetCommitResponsePartition8_to OffsetCommitResponsePartition8_of.
Lemma OffsetCommitResponsePartition8_linked : linked OffsetCommitResponsePartition8_codec.
Proof.
  apply Linked; cbn [OffsetCommitResponsePartition8_codec c_type c_zero c_size c_encode c_decode c_schema c_to c_of].
  - intros t. destruct t. cbv [OffsetCommitResponsePartition8_of OffsetCommitResponsePartition8_to]. cbn [fst snd OffsetCommitResponsePartition8_PartitionIndex OffsetCommitResponsePartition8_ErrorCode].  reflexivity.
  - intros x. unfold OffsetCommitResponsePartition8_schema in x. cbn [dens den] in x. destruct x as [x0 x]. destruct x as [x1 x]. destruct x. cbv [OffsetCommitResponsePartition8_of OffsetCommitResponsePartition8_to]. cbn [fst snd OffsetCommitResponsePartition8_PartitionIndex OffsetCommitResponsePartition8_ErrorCode].  reflexivity.
  - reflexivity.
  - intros v t. unfold OffsetCommitResponsePartition8_Size, OffsetCommitResponsePartition8_schema, OffsetCommitResponsePartition8_to. apply size_start.
    apply size_step; [intros sz; reflexivity|].
    apply size_step; [intros sz; reflexivity|].
    intros sz; reflexivity.
  - intros v t. unfold OffsetCommitResponsePartition8_Encode, OffsetCommitResponsePartition8_schema, OffsetCommitResponsePartition8_to.
    apply enc_step; [intros e; reflexivity|].
    apply enc_step; [intros e; reflexivity|].
    intros e; reflexivity.
  - intros v t. unfold OffsetCommitResponsePartition8_Decode, OffsetCommitResponsePartition8_schema, OffsetCommitResponsePartition8_to.
    dec_field (fun x : Z => x); [apply dmap_id|intros x_PartitionIndex].
    dec_field (fun x : Z => x); [apply dmap_id|intros x_ErrorCode].
    intros d; reflexivity.
Qed.
Local Opaque OffsetCommitResponsePartition8_Size OffsetCommitResponsePartition8_Encode OffsetCommitResponsePartition8_Decode.

(** ** OffsetCommitResponseTopic8 *)

(** message/messages.gen.go:3550-3553 *)
Record OffsetCommitResponseTopic8 : Type := mkOffsetCommitResponseTopic8 { OffsetCommitResponseTopic8_Name : gostring; OffsetCommitResponseTopic8_Partitions : gslice OffsetCommitResponsePartition8 }.
(** the zero value ([var item OffsetCommitResponseTopic8]) *)
Definition OffsetCommitResponseTopic8_zero : OffsetCommitResponseTopic8 := mkOffsetCommitResponseTopic8 [] None.
(** message/messages.gen.go:3556-3564 *)
Definition OffsetCommitResponseTopic8_Size (version : Z) (t : OffsetCommitResponseTopic8) : Z :=
  ((size_add (sz_String (OffsetCommitResponseTopic8_Name t))) +>
   (size_loop (OffsetCommitResponsePartition8_Size version) (OffsetCommitResponseTopic8_Partitions t)) +>
   size_done)%size 0.
(** message/messages.gen.go:3567-3575 *)
Definition OffsetCommitResponseTopic8_Encode (version : Z) (t : OffsetCommitResponseTopic8) : Encoder -> Encoder :=
  ((PutString (OffsetCommitResponseTopic8_Name t)) >>
   (put_array (OffsetCommitResponsePartition8_Encode version) (OffsetCommitResponseTopic8_Partitions t)) >>
   skip)%enc.
(** message/messages.gen.go:3578-3598 *)
Definition OffsetCommitResponseTopic8_Decode (version : Z) (t : OffsetCommitResponseTopic8) : Dec OffsetCommitResponseTopic8 :=
  x_Name <- dString ;;
  x_Partitions <- (dec_array (OffsetCommitResponsePartition8_Decode version OffsetCommitResponsePartition8_zero) (OffsetCommitResponseTopic8_Partitions t)) ;;
  ret (mkOffsetCommitResponseTopic8 x_Name x_Partitions).
(** the struct declaration read as a schema; version ranges as in Size *)
Definition OffsetCommitResponseTopic8_schema : fields :=
  FCons "Name" Always TString
  (FCons "Partitions" Always (TArray OffsetCommitResponsePartition8_schema) FNil).
Definition OffsetCommitResponseTopic8_to (t : OffsetCommitResponseTopic8) : dens OffsetCommitResponseTopic8_schema := (OffsetCommitResponseTopic8_Name t, (option_map (map OffsetCommitResponsePartition8_to) (OffsetCommitResponseTopic8_Partitions t), tt)).
Definition OffsetCommitResponseTopic8_of (x : dens OffsetCommitResponseTopic8_schema) : OffsetCommitResponseTopic8 := mkOffsetCommitResponseTopic8 (fst x) (option_map (map OffsetCommitResponsePartition8_of) (fst (snd x))).
Definition OffsetCommitResponseTopic8_codec : codec := Codec OffsetCommitResponseTopic8 OffsetCommitResponseTopic8_zero OffsetCommitResponseTopic8_Size OffsetCommitResponseTopic8_Encode OffsetCommitResponseTopic8_Decode OffsetCommitResponseTopic8_schema OffsetCommitResponseTopic8_to OffsetCommitResponseTopic8_of.
Lemma OffsetCommitResponseTopic8_linked : linked OffsetCommitResponseTopic8_codec.
Proof.
  apply Linked; cbn [OffsetCommitResponseTopic8_codec c_type c_zero c_size c_encode c_decode c_schema c_to c_of].
  - intros t. destruct t. cbv [OffsetCommitResponseTopic8_of OffsetCommitResponseTopic8_to]. cbn [fst snd OffsetCommitResponseTopic8_Name OffsetCommitResponseTopic8_Partitions]. rewrite ?(option_map_map_inv OffsetCommitResponsePartition8_to OffsetCommitResponsePartition8_of _ (l_of_to _ OffsetCommitResponsePartition8_linked)). reflexivity.
  - intros x. unfold OffsetCommitResponseTopic8_schema in x. cbn [dens den] in x. destruct x as [x0 x]. destruct x as [x1 x]. destruct x. cbv [OffsetCommitResponseTopic8_of OffsetCommitResponseTopic8_to]. cbn [fst snd OffsetCommitResponseTopic8_Name OffsetCommitResponseTopic8_Partitions]. rewrite ?(option_map_map_inv OffsetCommitResponsePartition8_of OffsetCommitResponsePartition8_to _ (l_to_of _ OffsetCommitResponsePartition8_linked)). reflexivity.
  - reflexivity.
  - intros v t. unfold OffsetCommitResponseTopic8_Size, OffsetCommitResponseTopic8_schema, OffsetCommitResponseTopic8_to. apply size_start.
    apply size_step; [intros sz; reflexivity|].
    apply size_step; [intros sz; apply (size_field_link (OffsetCommitResponsePartition8_Size v) OffsetCommitResponsePartition8_schema OffsetCommitResponsePartition8_to v (l_size _ OffsetCommitResponsePartition8_linked v) true)|].
    intros sz; reflexivity.
  - intros v t. unfold OffsetCommitResponseTopic8_Encode, OffsetCommitResponseTopic8_schema, OffsetCommitResponseTopic8_to.
    apply enc_step; [intros e; reflexivity|].
    apply enc_step; [intros e; apply (put_field_link (OffsetCommitResponsePartition8_Encode v) OffsetCommitResponsePartition8_schema OffsetCommitResponsePartition8_to v (l_encode _ OffsetCommitResponsePartition8_linked v) true)|].
    intros e; reflexivity.
  - intros v t. unfold OffsetCommitResponseTopic8_Decode, OffsetCommitResponseTopic8_schema, OffsetCommitResponseTopic8_to.
    dec_field (fun x : gostring => x); [apply dmap_id|intros x_Name].
    dec_field (option_map (map OffsetCommitResponsePartition8_of)); [apply (dec_array_link _ _ OffsetCommitResponsePartition8_of OffsetCommitResponsePartition8_to (l_decode _ OffsetCommitResponsePartition8_linked v OffsetCommitResponsePartition8_zero) (l_of_to _ OffsetCommitResponsePartition8_linked))|intros x_Partitions].
    intros d; reflexivity.
Qed.
Local Opaque OffsetCommitResponseTopic8_Size OffsetCommitResponseTopic8_Encode OffsetCommitResponseTopic8_Decode.

(** ** OffsetCommitResponse *)

(** message/messages.gen.go:3494-3497 *)
Record OffsetCommitResponse : Type := mkOffsetCommitResponse { OffsetCommitResponse_ThrottleTimeMs : Z; OffsetCommitResponse_Topics : gslice OffsetCommitResponseTopic8 }.
(** the zero value ([var item OffsetCommitResponse]) *)
Definition OffsetCommitResponse_zero : OffsetCommitResponse := mkOffsetCommitResponse 0 None.
(** message/messages.gen.go:3500-3510 *)
Definition OffsetCommitResponse_Size (version : Z) (t : OffsetCommitResponse) : Z :=
  (size_if (3 <=? version) (size_add sz_Int32) +>
   (size_loop (OffsetCommitResponseTopic8_Size version) (OffsetCommitResponse_Topics t)) +>
   size_done)%size 0.
(** message/messages.gen.go:3513-3523 *)
Definition OffsetCommitResponse_Encode (version : Z) (t : OffsetCommitResponse) : Encoder -> Encoder :=
  (put_if (3 <=? version) (PutInt32 (OffsetCommitResponse_ThrottleTimeMs t)) >>
   (put_array (OffsetCommitResponseTopic8_Encode version) (OffsetCommitResponse_Topics t)) >>
   skip)%enc.
(** message/messages.gen.go:3526-3548 *)
Definition OffsetCommitResponse_Decode (version : Z) (t : OffsetCommitResponse) : Dec OffsetCommitResponse :=
  x_ThrottleTimeMs <- dec_if (3 <=? version) dInt32 (OffsetCommitResponse_ThrottleTimeMs t) ;;
  x_Topics <- (dec_array (OffsetCommitResponseTopic8_Decode version OffsetCommitResponseTopic8_zero) (OffsetCommitResponse_Topics t)) ;;
  ret (mkOffsetCommitResponse x_ThrottleTimeMs x_Topics).
(** the struct declaration read as a schema; version ranges as in Size *)
Definition OffsetCommitResponse_schema : fields :=
  FCons "ThrottleTimeMs" (From 3) TInt32
  (FCons "Topics" Always (TArray OffsetCommitResponseTopic8_schema) FNil).
Definition OffsetCommitResponse_to (t : OffsetCommitResponse) : dens OffsetCommitResponse_schema := (OffsetCommitResponse_ThrottleTimeMs t, (option_map (map OffsetCommitResponseTopic8_to) (OffsetCommitResponse_Topics t), tt)).
Definition OffsetCommitResponse_of (x : dens OffsetCommitResponse_schema) : OffsetCommitResponse := mkOffsetCommitResponse (fst x) (option_map (map OffsetCommitResponseTopic8_of) (fst (snd x))).
Definition OffsetCommitResponse_codec : codec := Codec OffsetCommitResponse OffsetCommitResponse_zero OffsetCommitResponse_Size OffsetCommitResponse_Encode OffsetCommitResponse_Decode OffsetCommitResponse_schema OffsetCommitResponse_to OffsetCommitResponse_of.
Lemma OffsetCommitResponse_linked : linked OffsetCommitResponse_codec.
Proof.
  apply Linked; cbn [OffsetCommitResponse_codec c_type c_zero c_size c_encode c_decode c_schema c_to c_of].
  - intros t. destruct t. cbv [OffsetCommitResponse_of OffsetCommitResponse_to]. cbn [fst snd OffsetCommitResponse_ThrottleTimeMs OffsetCommitResponse_Topics]. rewrite ?(option_map_map_inv OffsetCommitResponseTopic8_to OffsetCommitResponseTopic8_of _ (l_of_to _ OffsetCommitResponseTopic8_linked)). reflexivity.
  - intros x. unfold OffsetCommitResponse_schema in x. cbn [dens den] in x. destruct x as [x0 x]. destruct x as [x1 x]. destruct x. cbv [OffsetCommitResponse_of OffsetCommitResponse_to]. cbn [fst snd OffsetCommitResponse_ThrottleTimeMs OffsetCommitResponse_Topics]. rewrite ?(option_map_map_inv OffsetCommitResponseTopic8_of OffsetCommitResponseTopic8_to _ (l_to_of _ OffsetCommitResponseTopic8_linked)). reflexivity.
  - reflexivity.
  - intros v t. unfold OffsetCommitResponse_Size, OffsetCommitResponse_schema, OffsetCommitResponse_to. apply size_start.
    apply size_step; [intros sz; reflexivity|].
    apply size_step; [intros sz; apply (size_field_link (OffsetCommitResponseTopic8_Size v) OffsetCommitResponseTopic8_schema OffsetCommitResponseTopic8_to v (l_size _ OffsetCommitResponseTopic8_linked v) true)|].
    intros sz; reflexivity.
  - intros v t. unfold OffsetCommitResponse_Encode, OffsetCommitResponse_schema, OffsetCommitResponse_to.
    apply enc_step; [intros e; reflexivity|].
    apply enc_step; [intros e; apply (put_field_link (OffsetCommitResponseTopic8_Encode v) OffsetCommitResponseTopic8_schema OffsetCommitResponseTopic8_to v (l_encode _ OffsetCommitResponseTopic8_linked v) true)|].
    intros e; reflexivity.
  - intros v t. unfold OffsetCommitResponse_Decode, OffsetCommitResponse_schema, OffsetCommitResponse_to.
    dec_field (fun x : Z => x); [apply dec_if_link; [apply dmap_id|reflexivity]|intros x_ThrottleTimeMs].
    dec_field (option_map (map OffsetCommitResponseTopic8_of)); [apply (dec_array_link _ _ OffsetCommitResponseTopic8_of OffsetCommitResponseTopic8_to (l_decode _ OffsetCommitResponseTopic8_linked v OffsetCommitResponseTopic8_zero) (l_of_to _ OffsetCommitResponseTopic8_linked))|intros x_Topics].
    intros d; reflexivity.
Qed.
Local Opaque OffsetCommitResponse_Size OffsetCommitResponse_Encode OffsetCommitResponse_Decode.

(** ** OffsetFetchRequestTopic9 *)

(** message/messages.gen.go:3684-3687 *)
Record OffsetFetchRequestTopic9 : Type := mkOffsetFetchRequestTopic9 { OffsetFetchRequestTopic9_Name : gostring; OffsetFetchRequestTopic9_PartitionIndexes : gslice Z }.
(** the zero value ([var item OffsetFetchRequestTopic9]) *)
Definition OffsetFetchRequestTopic9_zero : OffsetFetchRequestTopic9 := mkOffsetFetchRequestTopic9 [] None.
(** message/messages.gen.go:3690-3695 *)
Definition OffsetFetchRequestTopic9_Size (version : Z) (t : OffsetFetchRequestTopic9) : Z :=
  ((size_add (sz_String (OffsetFetchRequestTopic9_Name t))) +>
   (size_add (sz_Int32Array (OffsetFetchRequestTopic9_PartitionIndexes t))) +>
   size_done)%size 0.
(** message/messages.gen.go:3698-3701 *)
Definition OffsetFetchRequestTopic9_Encode (version : Z) (t : OffsetFetchRequestTopic9) : Encoder -> Encoder :=
  ((PutString (OffsetFetchRequestTopic9_Name t)) >>
   (PutInt32Array (OffsetFetchRequestTopic9_PartitionIndexes t)) >>
   skip)%enc.
(** message/messages.gen.go:3704-3715 *)
Definition OffsetFetchRequestTopic9_Decode (version : Z) (t : OffsetFetchRequestTopic9) : Dec OffsetFetchRequestTopic9 :=
  x_Name <- dString ;;
  x_PartitionIndexes <- dInt32Array ;;
  ret (mkOffsetFetchRequestTopic9 x_Name x_PartitionIndexes).
(** the struct declaration read as a schema; version ranges as in Size *)
Definition OffsetFetchRequestTopic9_schema : fields :=
  FCons "Name" Always TString
  (FCons "PartitionIndexes" Always TInt32Array FNil).
Definition OffsetFetchRequestTopic9_to (t : OffsetFetchRequestTopic9) : dens OffsetFetchRequestTopic9_schema := (OffsetFetchRequestTopic9_Name t, (OffsetFetchRequestTopic9_PartitionIndexes t, tt)).
Definition OffsetFetchRequestTopic9_of (x : dens OffsetFetchRequestTopic9_schema) : OffsetFetchRequestTopic9 := mkOffsetFetchRequestTopic9 (fst x) (fst (snd x)).
Definition OffsetFetchRequestTopic9_codec : codec := Codec OffsetFetchRequestTopic9 OffsetFetchRequestTopic9_zero OffsetFetchRequestTopic9_Size OffsetFetchRequestTopic9_Encode OffsetFetchRequestTopic9_Decode OffsetFetchRequestTopic9_schema OffsetFetchRequestTopic9_to OffsetFetchRequestTopic9_of.
Lemma OffsetFetchRequestTopic9_linked : linked OffsetFetchRequestTopic9_codec.
Proof.
  apply Linked; cbn [OffsetFetchRequestTopic9_codec c_type c_zero c_size c_encode c_decode c_schema c_to c_of].
  - intros t. destruct t. cbv [OffsetFetchRequestTopic9_of OffsetFetchRequestTopic9_to]. cbn [fst snd OffsetFetchRequestTopic9_Name OffsetFetchRequestTopic9_PartitionIndexes].  reflexivity.
  - intros x. unfold OffsetFetchRequestTopic9_schema in x. cbn [dens den] in x. destruct x as [x0 x]. destruct x as [x1 x]. destruct x. cbv [OffsetFetchRequestTopic9_of OffsetFetchRequestTopic9_to]. cbn [fst snd OffsetFetchRequestTopic9_Name OffsetFetchRequestTopic9_PartitionIndexes].  reflexivity.
  - reflexivity.
  - intros v t. unfold OffsetFetchRequestTopic9_Size, OffsetFetchRequestTopic9_schema, OffsetFetchRequestTopic9_to. apply size_start.
    apply size_step; [intros sz; reflexivity|].
    apply size_step; [intros sz; reflexivity|].
    intros sz; reflexivity.
  - intros v t. unfold OffsetFetchRequestTopic9_Encode, OffsetFetchRequestTopic9_schema, OffsetFetchRequestTopic9_to.
    apply enc_step; [intros e; reflexivity|].
    apply enc_step; [intros e; reflexivity|].
    intros e; reflexivity.
  - intros v t. unfold OffsetFetchRequestTopic9_Decode, OffsetFetchRequestTopic9_schema, OffsetFetchRequestTopic9_to.
    dec_field (fun x : gostring => x); [apply dmap_id|intros x_Name].
    dec_field (fun x : gslice Z => x); [apply dmap_id|intros x_PartitionIndexes].
    intros d; reflexivity.
Qed.
Local Opaque OffsetFetchRequestTopic9_Size OffsetFetchRequestTopic9_Encode OffsetFetchRequestTopic9_Decode.

(** ** OffsetFetchRequest *)

(** message/messages.gen.go:3634-3637 *)
Record OffsetFetchRequest : Type := mkOffsetFetchRequest { OffsetFetchRequest_GroupId : gostring; OffsetFetchRequest_Topics : gslice OffsetFetchRequestTopic9 }.
(** the zero value ([var item OffsetFetchRequest]) *)
Definition OffsetFetchRequest_zero : OffsetFetchRequest := mkOffsetFetchRequest [] None.
(** message/messages.gen.go:3640-3648 *)
Definition OffsetFetchRequest_Size (version : Z) (t : OffsetFetchRequest) : Z :=
  ((size_add (sz_String (OffsetFetchRequest_GroupId t))) +>
   (size_loop (OffsetFetchRequestTopic9_Size version) (OffsetFetchRequest_Topics t)) +>
   size_done)%size 0.
(** message/messages.gen.go:3651-3659 *)
Definition OffsetFetchRequest_Encode (version : Z) (t : OffsetFetchRequest) : Encoder -> Encoder :=
  ((PutString (OffsetFetchRequest_GroupId t)) >>
   (put_array (OffsetFetchRequestTopic9_Encode version) (OffsetFetchRequest_Topics t)) >>
   skip)%enc.
(** message/messages.gen.go:3662-3682 *)
Definition OffsetFetchRequest_Decode (version : Z) (t : OffsetFetchRequest) : Dec OffsetFetchRequest :=
  x_GroupId <- dString ;;
  x_Topics <- (dec_array (OffsetFetchRequestTopic9_Decode version OffsetFetchRequestTopic9_zero) (OffsetFetchRequest_Topics t)) ;;
  ret (mkOffsetFetchRequest x_GroupId x_Topics).
(** the struct declaration read as a schema; version ranges as in Size *)
Definition OffsetFetchRequest_schema : fields :=
  FCons "GroupId" Always TString
  (FCons "Topics" Always (TArray OffsetFetchRequestTopic9_schema) FNil).
Definition OffsetFetchRequest_to (t : OffsetFetchRequest) : dens OffsetFetchRequest_schema := (OffsetFetchRequest_GroupId t, (option_map (map OffsetFetchRequestTopic9_to) (OffsetFetchRequest_Topics t), tt)).
Definition OffsetFetchRequest_of (x : dens OffsetFetchRequest_schema) : OffsetFetchRequest := mkOffsetFetchRequest (fst x) (option_map (map OffsetFetchRequestTopic9_of) (fst (snd x))).
Definition OffsetFetchRequest_codec : codec := Codec OffsetFetchRequest OffsetFetchRequest_zero OffsetFetchRequest_Size OffsetFetchRequest_Encode OffsetFetchRequest_Decode OffsetFetchRequest_schema OffsetFetchRequest_to OffsetFetchRequest_of.
Lemma OffsetFetchRequest_linked : linked OffsetFetchRequest_codec.
Proof.
  apply Linked; cbn [OffsetFetchRequest_codec c_type c_zero c_size c_encode c_decode c_schema c_to c_of].
  - intros t. destruct t. cbv [OffsetFetchRequest_of OffsetFetchRequest_to]. cbn [fst snd OffsetFetchRequest_GroupId OffsetFetchRequest_Topics]. rewrite ?(option_map_map_inv OffsetFetchRequestTopic9_to OffsetFetchRequestTopic9_of _ (l_of_to _ OffsetFetchRequestTopic9_linked)). reflexivity.
  - intros x. unfold OffsetFetchRequest_schema in x. cbn [dens den] in x. destruct x as [x0 x]. destruct x as [x1 x]. destruct x. cbv [OffsetFetchRequest_of OffsetFetchRequest_to]. cbn [fst snd OffsetFetchRequest_GroupId OffsetFetchRequest_Topics]. rewrite ?(option_map_map_inv OffsetFetchRequestTopic9_of OffsetFetchRequestTopic9_to _ (l_to_of _ OffsetFetchRequestTopic9_linked)). reflexivity.
  - reflexivity.
  - intros v t. unfold OffsetFetchRequest_Size, OffsetFetchRequest_schema, OffsetFetchRequest_to. apply size_start.
    apply size_step; [intros sz; reflexivity|].
    apply size_step; [intros sz; apply (size_field_link (OffsetFetchRequestTopic9_Size v) OffsetFetchRequestTopic9_schema OffsetFetchRequestTopic9_to v (l_size _ OffsetFetchRequestTopic9_linked v) true)|].
    intros sz; reflexivity.
  - intros v t. unfold OffsetFetchRequest_Encode, OffsetFetchRequest_schema, OffsetFetchRequest_to.
    apply enc_step; [intros e; reflexivity|].
    apply enc_step; [intros e; apply (put_field_link (OffsetFetchRequestTopic9_Encode v) OffsetFetchRequestTopic9_schema OffsetFetchRequestTopic9_to v (l_encode _ OffsetFetchRequestTopic9_linked v) true)|].
    intros e; reflexivity.
  - intros v t. unfold OffsetFetchRequest_Decode, OffsetFetchRequest_schema, OffsetFetchRequest_to.
    dec_field (fun x : gostring => x); [apply dmap_id|intros x_GroupId].
    dec_field (option_map (map OffsetFetchRequestTopic9_of)); [apply (dec_array_link _ _ OffsetFetchRequestTopic9_of OffsetFetchRequestTopic9_to (l_decode _ OffsetFetchRequestTopic9_linked v OffsetFetchRequestTopic9_zero) (l_of_to _ OffsetFetchRequestTopic9_linked))|intros x_Topics].
    intros d; reflexivity.
Qed.
Local Opaque OffsetFetchRequest_Size OffsetFetchRequest_Encode OffsetFetchRequest_Decode.

(** ** OffsetFetchResponsePartition9 *)

(** message/messages.gen.go:3837-3843 *)
Record OffsetFetchResponsePartition9 : Type := mkOffsetFetchResponsePartition9 { OffsetFetchResponsePartition9_PartitionIndex : Z; OffsetFetchResponsePartition9_CommittedOffset : Z; OffsetFetchResponsePartition9_CommittedLeaderEpoch : Z; OffsetFetchResponsePartition9_Metadata : gostring; OffsetFetchResponsePartition9_ErrorCode : Z }.
(** the zero value ([var item OffsetFetchResponsePartition9]) *)
Definition OffsetFetchResponsePartition9_zero : OffsetFetchResponsePartition9 := mkOffsetFetchResponsePartition9 0 0 0 [] 0.
(** message/messages.gen.go:3846-3856 *)
Definition OffsetFetchResponsePartition9_Size (version : Z) (t : OffsetFetchResponsePartition9) : Z :=
  ((size_add sz_Int32) +>
   (size_add sz_Int64) +>
   size_if (5 <=? version) (size_add sz_Int32) +>
   (size_add (sz_String (OffsetFetchResponsePartition9_Metadata t))) +>
   (size_add sz_Int16) +>
   size_done)%size 0.
(** message/messages.gen.go:3859-3867 *)
Definition OffsetFetchResponsePartition9_Encode (version : Z) (t : OffsetFetchResponsePartition9) : Encoder -> Encoder :=
  ((PutInt32 (OffsetFetchResponsePartition9_PartitionIndex t)) >>
   (PutInt64 (OffsetFetchResponsePartition9_CommittedOffset t)) >>
   put_if (5 <=? version) (PutInt32 (OffsetFetchResponsePartition9_CommittedLeaderEpoch t)) >>
   (PutString (OffsetFetchResponsePartition9_Metadata t)) >>
   (PutInt16 (OffsetFetchResponsePartition9_ErrorCode t)) >>
   skip)%enc.
(** message/messages.gen.go:3870-3895 *)
Definition OffsetFetchResponsePartition9_Decode (version : Z) (t : OffsetFetchResponsePartition9) : Dec OffsetFetchResponsePartition9 :=
  x_PartitionIndex <- dInt32 ;;
  x_CommittedOffset <- dInt64 ;;
  x_CommittedLeaderEpoch <- dec_if (5 <=? version) dInt32 (OffsetFetchResponsePartition9_CommittedLeaderEpoch t) ;;
  x_Metadata <- dString ;;
  x_ErrorCode <- dInt16 ;;
  ret (mkOffsetFetchResponsePartition9 x_PartitionIndex x_CommittedOffset x_CommittedLeaderEpoch x_Metadata x_ErrorCode).
(** the struct declaration read as a schema; version ranges as in Size *)
Definition OffsetFetchResponsePartition9_schema : fields :=
  FCons "PartitionIndex" Always TInt32
  (FCons "CommittedOffset" Always TInt64
  (FCons "CommittedLeaderEpoch" (From 5) TInt32
  (FCons "Metadata" Always TString
  (FCons "ErrorCode" Always TInt16 FNil)))).
Definition OffsetFetchResponsePartition9_to (t : OffsetFetchResponsePartition9) : dens OffsetFetchResponsePartition9_schema := (OffsetFetchResponsePartition9_PartitionIndex t, (OffsetFetchResponsePartition9_CommittedOffset t, (OffsetFetchResponsePartition9_CommittedLeaderEpoch t, (OffsetFetchResponsePartition9_Metadata t, (OffsetFetchResponsePartition9_ErrorCode t, tt))))).
Definition OffsetFetchResponsePartition9_of (x : dens OffsetFetchResponsePartition9_schema) : OffsetFetchResponsePartition9 := mkOffsetFetchResponsePartition9 (fst x) (fst (snd x)) (fst (snd (snd x))) (fst (snd (snd (snd x)))) (fst (snd (snd (snd (snd x))))).
Definition OffsetFetchResponsePartition9_codec : codec := Codec OffsetFetchResponsePartition9 OffsetFetchResponsePartition9_zero OffsetFetchResponsePartition9_Size OffsetFetchResponsePartition9_Encode OffsetFetchResponsePartition9_Decode OffsetFetchResponsePartition9_schema OffsetFetchResponsePartition9_to OffsetFetchResponsePartition9_of.
Lemma OffsetFetchResponsePartition9_linked : linked OffsetFetchResponsePartition9_codec.
Proof.
  apply Linked; cbn [OffsetFetchResponsePartition9_codec c_type c_zero c_size c_encode c_decode c_schema c_to c_of].
  - intros t. destruct t. cbv [OffsetFetchResponsePartition9_of OffsetFetchResponsePartition9_to]. cbn [fst snd OffsetFetchResponsePartition9_PartitionIndex OffsetFetchResponsePartition9_CommittedOffset OffsetFetchResponsePartition9_CommittedLeaderEpoch OffsetFetchResponsePartition9_Metadata OffsetFetchResponsePartition9_ErrorCode].  reflexivity.
  - intros x. unfold OffsetFetchResponsePartition9_schema in x. cbn [dens den] in x. destruct x as [x0 x]. destruct x as [x1 x]. destruct x as [x2 x]. destruct x as [x3 x]. destruct x as [x4 x]. destruct x. cbv [OffsetFetchResponsePartition9_of OffsetFetchResponsePartition9_to]. cbn [fst snd OffsetFetchResponsePartition9_PartitionIndex OffsetFetchResponsePartition9_CommittedOffset OffsetFetchResponsePartition9_CommittedLeaderEpoch OffsetFetchResponsePartition9_Metadata OffsetFetchResponsePartition9_ErrorCode].  reflexivity.
  - reflexivity.
  - intros v t. unfold OffsetFetchResponsePartition9_Size, OffsetFetchResponsePartition9_schema, OffsetFetchResponsePartition9_to. apply size_start.
    apply size_step; [intros sz; reflexivity|].
    apply size_step; [intros sz; reflexivity|].
    apply size_step; [intros sz; reflexivity|].
    apply size_step; [intros sz; reflexivity|].
    apply size_step; [intros sz; reflexivity|].
    intros sz; reflexivity.
  - intros v t. unfold OffsetFetchResponsePartition9_Encode, OffsetFetchResponsePartition9_schema, OffsetFetchResponsePartition9_to.
    apply enc_step; [intros e; reflexivity|].
    apply enc_step; [intros e; reflexivity|].
    apply enc_step; [intros e; reflexivity|].
    apply enc_step; [intros e; reflexivity|].
    apply enc_step; [intros e; reflexivity|].
    intros e; reflexivity.
  - intros v t. unfold OffsetFetchResponsePartition9_Decode, OffsetFetchResponsePartition9_schema, OffsetFetchResponsePartition9_to.
    dec_field (fun x : Z => x); [apply dmap_id|intros x_PartitionIndex].
    dec_field (fun x : Z => x); [apply dmap_id|intros x_CommittedOffset].
    dec_field (fun x : Z => x); [apply dec_if_link; [apply dmap_id|reflexivity]|intros x_CommittedLeaderEpoch].
    dec_field (fun x : gostring => x); [apply dmap_id|intros x_Metadata].
    dec_field (fun x : Z => x); [apply dmap_id|intros x_ErrorCode].
    intros d; reflexivity.
Qed.
Local Opaque OffsetFetchResponsePartition9_Size OffsetFetchResponsePartition9_Encode OffsetFetchResponsePartition9_Decode.

(** ** OffsetFetchResponseTopic9 *)

(** message/messages.gen.go:3787-3790 *)
Record OffsetFetchResponseTopic9 : Type := mkOffsetFetchResponseTopic9 { OffsetFetchResponseTopic9_Name : gostring; OffsetFetchResponseTopic9_Partitions : gslice OffsetFetchResponsePartition9 }.
(** the zero value ([var item OffsetFetchResponseTopic9]) *)
Definition OffsetFetchResponseTopic9_zero : OffsetFetchResponseTopic9 := mkOffsetFetchResponseTopic9 [] None.
(** message/messages.gen.go:3793-3801 *)
Definition OffsetFetchResponseTopic9_Size (version : Z) (t : OffsetFetchResponseTopic9) : Z :=
  ((size_add (sz_String (OffsetFetchResponseTopic9_Name t))) +>
   (size_loop (OffsetFetchResponsePartition9_Size version) (OffsetFetchResponseTopic9_Partitions t)) +>
   size_done)%size 0.
(** message/messages.gen.go:3804-3812 *)
Definition OffsetFetchResponseTopic9_Encode (version : Z) (t : OffsetFetchResponseTopic9) : Encoder -> Encoder :=
  ((PutString (OffsetFetchResponseTopic9_Name t)) >>
   (put_array (OffsetFetchResponsePartition9_Encode version) (OffsetFetchResponseTopic9_Partitions t)) >>
   skip)%enc.
(** message/messages.gen.go:3815-3835 *)
Definition OffsetFetchResponseTopic9_Decode (version : Z) (t : OffsetFetchResponseTopic9) : Dec OffsetFetchResponseTopic9 :=
  x_Name <- dString ;;
  x_Partitions <- (dec_array (OffsetFetchResponsePartition9_Decode version OffsetFetchResponsePartition9_zero) (OffsetFetchResponseTopic9_Partitions t)) ;;
  ret (mkOffsetFetchResponseTopic9 x_Name x_Partitions).
(** the struct declaration read as a schema; version ranges as in Size *)
Definition OffsetFetchResponseTopic9_schema : fields :=
  FCons "Name" Always TString
  (FCons "Partitions" Always (TArray OffsetFetchResponsePartition9_schema) FNil).
Definition OffsetFetchResponseTopic9_to (t : OffsetFetchResponseTopic9) : dens OffsetFetchResponseTopic9_schema := (OffsetFetchResponseTopic9_Name t, (option_map (map OffsetFetchResponsePartition9_to) (OffsetFetchResponseTopic9_Partitions t), tt)).
Definition OffsetFetchResponseTopic9_of (x : dens OffsetFetchResponseTopic9_schema) : OffsetFetchResponseTopic9 := mkOffsetFetchResponseTopic9 (fst x) (option_map (map OffsetFetchResponsePartition9_of) (fst (snd x))).
Definition OffsetFetchResponseTopic9_codec : codec := Codec OffsetFetchResponseTopic9 OffsetFetchResponseTopic9_zero OffsetFetchResponseTopic9_Size OffsetFetchResponseTopic9_Encode OffsetFetchResponseTopic9_Decode OffsetFetchResponseTopic9_schema OffsetFetchResponseTopic9_to OffsetFetchResponseTopic9_of.
Lemma OffsetFetchResponseTopic9_linked : linked OffsetFetchResponseTopic9_codec.
Proof.
  apply Linked; cbn [OffsetFetchResponseTopic9_codec c_type c_zero c_size c_encode c_decode c_schema c_to c_of].
  - intros t. destruct t. cbv [OffsetFetchResponseTopic9_of OffsetFetchResponseTopic9_to]. cbn [fst snd OffsetFetchResponseTopic9_Name OffsetFetchResponseTopic9_Partitions]. rewrite ?(option_map_map_inv OffsetFetchResponsePartition9_to OffsetFetchResponsePartition9_of _ (l_of_to _ OffsetFetchResponsePartition9_linked)). reflexivity.
  - intros x. unfold OffsetFetchResponseTopic9_schema in x. cbn [dens den] in x. destruct x as [x0 x]. destruct x as [x1 x]. destruct x. cbv [OffsetFetchResponseTopic9_of OffsetFetchResponseTopic9_to]. cbn [fst snd OffsetFetchResponseTopic9_Name OffsetFetchResponseTopic9_Partitions]. rewrite ?(option_map_map_inv OffsetFetchResponsePartition9_of OffsetFetchResponsePartition9_to _ (l_to_of _ OffsetFetchResponsePartition9_linked)). reflexivity.
  - reflexivity.
  - intros v t. unfold OffsetFetchResponseTopic9_Size, OffsetFetchResponseTopic9_schema, OffsetFetchResponseTopic9_to. apply size_start.
    apply size_step; [intros sz; reflexivity|].
    apply size_step; [intros sz; apply (size_field_link (OffsetFetchResponsePartition9_Size v) OffsetFetchResponsePartition9_schema OffsetFetchResponsePartition9_to v (l_size _ OffsetFetchResponsePartition9_linked v) true)|].
    intros sz; reflexivity.
  - intros v t. unfold OffsetFetchResponseTopic9_Encode, OffsetFetchResponseTopic9_schema, OffsetFetchResponseTopic9_to.
    apply enc_step; [intros e; reflexivity|].
    apply enc_step; [intros e; apply (put_field_link (OffsetFetchResponsePartition9_Encode v) OffsetFetchResponsePartition9_schema OffsetFetchResponsePartition9_to v (l_encode _ OffsetFetchResponsePartition9_linked v) true)|].
    intros e; reflexivity.
  - intros v t. unfold OffsetFetchResponseTopic9_Decode, OffsetFetchResponseTopic9_schema, OffsetFetchResponseTopic9_to.
    dec_field (fun x : gostring => x); [apply dmap_id|intros x_Name].
    dec_field (option_map (map OffsetFetchResponsePartition9_of)); [apply (dec_array_link _ _ OffsetFetchResponsePartition9_of OffsetFetchResponsePartition9_to (l_decode _ OffsetFetchResponsePartition9_linked v OffsetFetchResponsePartition9_zero) (l_of_to _ OffsetFetchResponsePartition9_linked))|intros x_Partitions].
    intros d; reflexivity.
Qed.
Local Opaque OffsetFetchResponseTopic9_Size OffsetFetchResponseTopic9_Encode OffsetFetchResponseTopic9_Decode.

(** ** OffsetFetchResponse *)

(** message/messages.gen.go:3718-3722 *)
Record OffsetFetchResponse : Type := mkOffsetFetchResponse { OffsetFetchResponse_ThrottleTimeMs : Z; OffsetFetchResponse_Topics : gslice OffsetFetchResponseTopic9; OffsetFetchResponse_ErrorCode : Z }.
(** the zero value ([var item OffsetFetchResponse]) *)
Definition OffsetFetchResponse_zero : OffsetFetchResponse := mkOffsetFetchResponse 0 None 0.
(** message/messages.gen.go:3725-3738 *)
Definition OffsetFetchResponse_Size (version : Z) (t : OffsetFetchResponse) : Z :=
  (size_if (3 <=? version) (size_add sz_Int32) +>
   (size_loop (OffsetFetchResponseTopic9_Size version) (OffsetFetchResponse_Topics t)) +>
   size_if (2 <=? version) (size_add sz_Int16) +>
   size_done)%size 0.
(** message/messages.gen.go:3741-3754 *)
Definition OffsetFetchResponse_Encode (version : Z) (t : OffsetFetchResponse) : Encoder -> Encoder :=
  (put_if (3 <=? version) (PutInt32 (OffsetFetchResponse_ThrottleTimeMs t)) >>
   (put_array (OffsetFetchResponseTopic9_Encode version) (OffsetFetchResponse_Topics t)) >>
   put_if (2 <=? version) (PutInt16 (OffsetFetchResponse_ErrorCode t)) >>
   skip)%enc.
(** message/messages.gen.go:3757-3785 *)
Definition OffsetFetchResponse_Decode (version : Z) (t : OffsetFetchResponse) : Dec OffsetFetchResponse :=
  x_ThrottleTimeMs <- dec_if (3 <=? version) dInt32 (OffsetFetchResponse_ThrottleTimeMs t) ;;
  x_Topics <- (dec_array (OffsetFetchResponseTopic9_Decode version OffsetFetchResponseTopic9_zero) (OffsetFetchResponse_Topics t)) ;;
  x_ErrorCode <- dec_if (2 <=? version) dInt16 (OffsetFetchResponse_ErrorCode t) ;;
  ret (mkOffsetFetchResponse x_ThrottleTimeMs x_Topics x_ErrorCode).
(** the struct declaration read as a schema; version ranges as in Size *)
Definition OffsetFetchResponse_schema : fields :=
  FCons "ThrottleTimeMs" (From 3) TInt32
  (FCons "Topics" Always (TArray OffsetFetchResponseTopic9_schema)
  (FCons "ErrorCode" (From 2) TInt16 FNil)).
Definition OffsetFetchResponse_to (t : OffsetFetchResponse) : dens OffsetFetchResponse_schema := (OffsetFetchResponse_ThrottleTimeMs t, (option_map (map OffsetFetchResponseTopic9_to) (OffsetFetchResponse_Topics t), (OffsetFetchResponse_ErrorCode t, tt))).
Definition OffsetFetchResponse_of (x : dens OffsetFetchResponse_schema) : OffsetFetchResponse := mkOffsetFetchResponse (fst x) (option_map (map OffsetFetchResponseTopic9_of) (fst (snd x))) (fst (snd (snd x))).
Definition OffsetFetchResponse_codec : codec := Codec OffsetFetchResponse OffsetFetchResponse_zero OffsetFetchResponse_Size OffsetFetchResponse_Encode OffsetFetchResponse_Decode OffsetFetchResponse_schema OffsetFetchResponse_to OffsetFetchResponse_of.
Lemma OffsetFetchResponse_linked : linked OffsetFetchResponse_codec.
Proof.
  apply Linked; cbn [OffsetFetchResponse_codec c_type c_zero c_size c_encode c_decode c_schema c_to c_of].
  - intros t. destruct t. cbv [OffsetFetchResponse_of OffsetFetchResponse_to]. cbn [fst snd OffsetFetchResponse_ThrottleTimeMs OffsetFetchResponse_Topics OffsetFetchResponse_ErrorCode]. rewrite ?(option_map_map_inv OffsetFetchResponseTopic9_to OffsetFetchResponseTopic9_of _ (l_of_to _ OffsetFetchResponseTopic9_linked)). reflexivity.
  - intros x. unfold OffsetFetchResponse_schema in x. cbn [dens den] in x. destruct x as [x0 x]. destruct x as [x1 x]. destruct x as [x2 x]. destruct x. cbv [OffsetFetchResponse_of OffsetFetchResponse_to]. cbn [fst snd OffsetFetchResponse_ThrottleTimeMs OffsetFetchResponse_Topics OffsetFetchResponse_ErrorCode]. rewrite ?(option_map_map_inv OffsetFetchResponseTopic9_of OffsetFetchResponseTopic9_to _ (l_to_of _ OffsetFetchResponseTopic9_linked)). reflexivity.
  - reflexivity.
  - intros v t. unfold OffsetFetchResponse_Size, OffsetFetchResponse_schema, OffsetFetchResponse_to. apply size_start.
    apply size_step; [intros sz; reflexivity|].
    apply size_step; [intros sz; apply (size_field_link (OffsetFetchResponseTopic9_Size v) OffsetFetchResponseTopic9_schema OffsetFetchResponseTopic9_to v (l_size _ OffsetFetchResponseTopic9_linked v) true)|].
    apply size_step; [intros sz; reflexivity|].
    intros sz; reflexivity.
  - intros v t. unfold OffsetFetchResponse_Encode, OffsetFetchResponse_schema, OffsetFetchResponse_to.
    apply enc_step; [intros e; reflexivity|].
    apply enc_step; [intros e; apply (put_field_link (OffsetFetchResponseTopic9_Encode v) OffsetFetchResponseTopic9_schema OffsetFetchResponseTopic9_to v (l_encode _ OffsetFetchResponseTopic9_linked v) true)|].
    apply enc_step; [intros e; reflexivity|].
    intros e; reflexivity.
  - intros v t. unfold OffsetFetchResponse_Decode, OffsetFetchResponse_schema, OffsetFetchResponse_to.
    dec_field (fun x : Z => x); [apply dec_if_link; [apply dmap_id|reflexivity]|intros x_ThrottleTimeMs].
    dec_field (option_map (map OffsetFetchResponseTopic9_of)); [apply (dec_array_link _ _ OffsetFetchResponseTopic9_of OffsetFetchResponseTopic9_to (l_decode _ OffsetFetchResponseTopic9_linked v OffsetFetchResponseTopic9_zero) (l_of_to _ OffsetFetchResponseTopic9_linked))|intros x_Topics].
    dec_field (fun x : Z => x); [apply dec_if_link; [apply dmap_id|reflexivity]|intros x_ErrorCode].
    intros d; reflexivity.
Qed.
Local Opaque OffsetFetchResponse_Size OffsetFetchResponse_Encode OffsetFetchResponse_Decode.

(** ** FindCoordinatorRequest *)

(** message/messages.gen.go:3898-3901 *)
Record FindCoordinatorRequest : Type := mkFindCoordinatorRequest { FindCoordinatorRequest_Key : gostring; FindCoordinatorRequest_KeyType : Z }.
(** the zero value ([var item FindCoordinatorRequest]) *)
Definition FindCoordinatorRequest_zero : FindCoordinatorRequest := mkFindCoordinatorRequest [] 0.
(** message/messages.gen.go:3904-3911 *)
Definition FindCoordinatorRequest_Size (version : Z) (t : FindCoordinatorRequest) : Z :=
  ((size_add (sz_String (FindCoordinatorRequest_Key t))) +>
   size_if (1 <=? version) (size_add sz_Int8) +>
   size_done)%size 0.
(** message/messages.gen.go:3914-3919 *)
Definition FindCoordinatorRequest_Encode (version : Z) (t : FindCoordinatorRequest) : Encoder -> Encoder :=
  ((PutString (FindCoordinatorRequest_Key t)) >>
   put_if (1 <=? version) (PutInt8 (FindCoordinatorRequest_KeyType t)) >>
   skip)%enc.
(** message/messages.gen.go:3922-3935 *)
Definition FindCoordinatorRequest_Decode (version : Z) (t : FindCoordinatorRequest) : Dec FindCoordinatorRequest :=
  x_Key <- dString ;;
  x_KeyType <- dec_if (1 <=? version) dInt8 (FindCoordinatorRequest_KeyType t) ;;
  ret (mkFindCoordinatorRequest x_Key x_KeyType).
(** the struct declaration read as a schema; version ranges as in Size *)
Definition FindCoordinatorRequest_schema : fields :=
  FCons "Key" Always TString
  (FCons "KeyType" (From 1) TInt8 FNil).
Definition FindCoordinatorRequest_to (t : FindCoordinatorRequest) : dens FindCoordinatorRequest_schema := (FindCoordinatorRequest_Key t, (FindCoordinatorRequest_KeyType t, tt)).
Definition FindCoordinatorRequest_of (x : dens FindCoordinatorRequest_schema) : FindCoordinatorRequest := mkFindCoordinatorRequest (fst x) (fst (snd x)).
Definition FindCoordinatorRequest_codec : codec := Codec FindCoordinatorRequest FindCoordinatorRequest_zero FindCoordinatorRequest_Size FindCoordinatorRequest_Encode FindCoordinatorRequest_Decode FindCoordinatorRequest_schema FindCoordinatorRequest_to FindCoordinatorRequest_of.
Lemma FindCoordinatorRequest_linked : linked FindCoordinatorRequest_codec.
Proof.
  apply Linked; cbn [FindCoordinatorRequest_codec c_type c_zero c_size c_encode c_decode c_schema c_to c_of].
  - intros t. destruct t. cbv [FindCoordinatorRequest_of FindCoordinatorRequest_to]. cbn [fst snd FindCoordinatorRequest_Key FindCoordinatorRequest_KeyType].  reflexivity.
  - intros x. unfold FindCoordinatorRequest_schema in x. cbn [dens den] in x. destruct x as [x0 x]. destruct x as [x1 x]. destruct x. cbv [FindCoordinatorRequest_of FindCoordinatorRequest_to]. cbn [fst snd FindCoordinatorRequest_Key FindCoordinatorRequest_KeyType].  reflexivity.
  - reflexivity.
  - intros v t. unfold FindCoordinatorRequest_Size, FindCoordinatorRequest_schema, FindCoordinatorRequest_to. apply size_start.
    apply size_step; [intros sz; reflexivity|].
    apply size_step; [intros sz; reflexivity|].
    intros sz; reflexivity.
  - intros v t. unfold FindCoordinatorRequest_Encode, FindCoordinatorRequest_schema, FindCoordinatorRequest_to.
    apply enc_step; [intros e; reflexivity|].
    apply enc_step; [intros e; reflexivity|].
    intros e; reflexivity.
  - intros v t. unfold FindCoordinatorRequest_Decode, FindCoordinatorRequest_schema, FindCoordinatorRequest_to.
    dec_field (fun x : gostring => x); [apply dmap_id|intros x_Key].
    dec_field (fun x : Z => x); [apply dec_if_link; [apply dmap_id|reflexivity]|intros x_KeyType].
    intros d; reflexivity.
Qed.
Local Opaque FindCoordinatorRequest_Size FindCoordinatorRequest_Encode FindCoordinatorRequest_Decode.

(** ** FindCoordinatorResponse *)

(** message/messages.gen.go:3938-3945 *)
Record FindCoordinatorResponse : Type := mkFindCoordinatorResponse { FindCoordinatorResponse_ThrottleTimeMs : Z; FindCoordinatorResponse_ErrorCode : Z; FindCoordinatorResponse_ErrorMessage : gostring; FindCoordinatorResponse_NodeId : Z; FindCoordinatorResponse_Host : gostring; FindCoordinatorResponse_Port : Z }.
(** the zero value ([var item FindCoordinatorResponse]) *)
Definition FindCoordinatorResponse_zero : FindCoordinatorResponse := mkFindCoordinatorResponse 0 0 [] 0 [] 0.
(** message/messages.gen.go:3948-3961 *)
Definition FindCoordinatorResponse_Size (version : Z) (t : FindCoordinatorResponse) : Z :=
  (size_if (1 <=? version) (size_add sz_Int32) +>
   (size_add sz_Int16) +>
   size_if (1 <=? version) (size_add (sz_String (FindCoordinatorResponse_ErrorMessage t))) +>
   (size_add sz_Int32) +>
   (size_add (sz_String (FindCoordinatorResponse_Host t))) +>
   (size_add sz_Int32) +>
   size_done)%size 0.
(** message/messages.gen.go:3964-3975 *)
Definition FindCoordinatorResponse_Encode (version : Z) (t : FindCoordinatorResponse) : Encoder -> Encoder :=
  (put_if (1 <=? version) (PutInt32 (FindCoordinatorResponse_ThrottleTimeMs t)) >>
   (PutInt16 (FindCoordinatorResponse_ErrorCode t)) >>
   put_if (1 <=? version) (PutString (FindCoordinatorResponse_ErrorMessage t)) >>
   (PutInt32 (FindCoordinatorResponse_NodeId t)) >>
   (PutString (FindCoordinatorResponse_Host t)) >>
   (PutInt32 (FindCoordinatorResponse_Port t)) >>
   skip)%enc.
(** message/messages.gen.go:3978-4009 *)
Definition FindCoordinatorResponse_Decode (version : Z) (t : FindCoordinatorResponse) : Dec FindCoordinatorResponse :=
  x_ThrottleTimeMs <- dec_if (1 <=? version) dInt32 (FindCoordinatorResponse_ThrottleTimeMs t) ;;
  x_ErrorCode <- dInt16 ;;
  x_ErrorMessage <- dec_if (1 <=? version) dString (FindCoordinatorResponse_ErrorMessage t) ;;
  x_NodeId <- dInt32 ;;
  x_Host <- dString ;;
  x_Port <- dInt32 ;;
  ret (mkFindCoordinatorResponse x_ThrottleTimeMs x_ErrorCode x_ErrorMessage x_NodeId x_Host x_Port).
(** the struct declaration read as a schema; version ranges as in Size *)
Definition FindCoordinatorResponse_schema : fields :=
  FCons "ThrottleTimeMs" (From 1) TInt32
  (FCons "ErrorCode" Always TInt16
  (FCons "ErrorMessage" (From 1) TString
  (FCons "NodeId" Always TInt32
  (FCons "Host" Always TString
  (FCons "Port" Always TInt32 FNil))))).
Definition FindCoordinatorResponse_to (t : FindCoordinatorResponse) : dens FindCoordinatorResponse_schema := (FindCoordinatorResponse_ThrottleTimeMs t, (FindCoordinatorResponse_ErrorCode t, (FindCoordinatorResponse_ErrorMessage t, (FindCoordinatorResponse_NodeId t, (FindCoordinatorResponse_Host t, (FindCoordinatorResponse_Port t, tt)))))).
Definition FindCoordinatorResponse_of (x : dens FindCoordinatorResponse_schema) : FindCoordinatorResponse := mkFindCoordinatorResponse (fst x) (fst (snd x)) (fst (snd (snd x))) (fst (snd (snd (snd x)))) (fst (snd (snd (snd (snd x))))) (fst (snd (snd (snd (snd (snd x)))))).
Definition FindCoordinatorResponse_codec : codec := Codec FindCoordinatorResponse FindCoordinatorResponse_zero FindCoordinatorResponse_Size FindCoordinatorResponse_Encode FindCoordinatorResponse_Decode FindCoordinatorResponse_schema FindCoordinatorResponse_to FindCoordinatorResponse_of.
Lemma FindCoordinatorResponse_linked : linked FindCoordinatorResponse_codec.
Proof.
  apply Linked; cbn [FindCoordinatorResponse_codec c_type c_zero c_size c_encode c_decode c_schema c_to c_of].
  - intros t. destruct t. cbv [FindCoordinatorResponse_of FindCoordinatorResponse_to]. cbn [fst snd FindCoordinatorResponse_ThrottleTimeMs FindCoordinatorResponse_ErrorCode FindCoordinatorResponse_ErrorMessage FindCoordinatorResponse_NodeId FindCoordinatorResponse_Host FindCoordinatorResponse_Port].  reflexivity.
  - intros x. unfold FindCoordinatorResponse_schema in x. cbn [dens den] in x. destruct x as [x0 x]. destruct x as [x1 x]. destruct x as [x2 x]. destruct x as [x3 x]. destruct x as [x4 x]. destruct x as [x5 x]. destruct x. cbv [FindCoordinatorResponse_of FindCoordinatorResponse_to]. cbn [fst snd FindCoordinatorResponse_ThrottleTimeMs FindCoordinatorResponse_ErrorCode FindCoordinatorResponse_ErrorMessage FindCoordinatorResponse_NodeId FindCoordinatorResponse_Host FindCoordinatorResponse_Port].  reflexivity.
  - reflexivity.
  - intros v t. unfold FindCoordinatorResponse_Size, FindCoordinatorResponse_schema, FindCoordinatorResponse_to. apply size_start.
    apply size_step; [intros sz; reflexivity|].
    apply size_step; [intros sz; reflexivity|].
    apply size_step; [intros sz; reflexivity|].
    apply size_step; [intros sz; reflexivity|].
    apply size_step; [intros sz; reflexivity|].
    apply size_step; [intros sz; reflexivity|].
    intros sz; reflexivity.
  - intros v t. unfold FindCoordinatorResponse_Encode, FindCoordinatorResponse_schema, FindCoordinatorResponse_to.
    apply enc_step; [intros e; reflexivity|].
    apply enc_step; [intros e; reflexivity|].
    apply enc_step; [intros e; reflexivity|].
    apply enc_step; [intros e; reflexivity|].
    apply enc_step; [intros e; reflexivity|].
    apply enc_step; [intros e; reflexivity|].
    intros e; reflexivity.
  - intros v t. unfold FindCoordinatorResponse_Decode, FindCoordinatorResponse_schema, FindCoordinatorResponse_to.
    dec_field (fun x : Z => x); [apply dec_if_link; [apply dmap_id|reflexivity]|intros x_ThrottleTimeMs].
    dec_field (fun x : Z => x); [apply dmap_id|intros x_ErrorCode].
    dec_field (fun x : gostring => x); [apply dec_if_link; [apply dmap_id|reflexivity]|intros x_ErrorMessage].
    dec_field (fun x : Z => x); [apply dmap_id|intros x_NodeId].
    dec_field (fun x : gostring => x); [apply dmap_id|intros x_Host].
    dec_field (fun x : Z => x); [apply dmap_id|intros x_Port].
    intros d; reflexivity.
Qed.
Local Opaque FindCoordinatorResponse_Size FindCoordinatorResponse_Encode FindCoordinatorResponse_Decode.

(** ** JoinGroupRequestProtocol11 *)

(** message/messages.gen.go:4109-4112 *)
Record JoinGroupRequestProtocol11 : Type := mkJoinGroupRequestProtocol11 { JoinGroupRequestProtocol11_Name : gostring; JoinGroupRequestProtocol11_Metadata : gslice Z }.
(** the zero value ([var item JoinGroupRequestProtocol11]) *)
Definition JoinGroupRequestProtocol11_zero : JoinGroupRequestProtocol11 := mkJoinGroupRequestProtocol11 [] None.
(** message/messages.gen.go:4115-4120 *)
Definition JoinGroupRequestProtocol11_Size (version : Z) (t : JoinGroupRequestProtocol11) : Z :=
  ((size_add (sz_String (JoinGroupRequestProtocol11_Name t))) +>
   (size_add (sz_Bytes (JoinGroupRequestProtocol11_Metadata t))) +>
   size_done)%size 0.
(** message/messages.gen.go:4123-4126 *)
Definition JoinGroupRequestProtocol11_Encode (version : Z) (t : JoinGroupRequestProtocol11) : Encoder -> Encoder :=
  ((PutString (JoinGroupRequestProtocol11_Name t)) >>
   (PutBytes (JoinGroupRequestProtocol11_Metadata t)) >>
   skip)%enc.
(** message/messages.gen.go:4129-4140 *)
Definition JoinGroupRequestProtocol11_Decode (version : Z) (t : JoinGroupRequestProtocol11) : Dec JoinGroupRequestProtocol11 :=
  x_Name <- dString ;;
  x_Metadata <- dBytes ;;
  ret (mkJoinGroupRequestProtocol11 x_Name x_Metadata).
(** the struct declaration read as a schema; version ranges as in Size *)
Definition JoinGroupRequestProtocol11_schema : fields :=
  FCons "Name" Always TString
  (FCons "Metadata" Always TBytes FNil).
Definition JoinGroupRequestProtocol11_to (t : JoinGroupRequestProtocol11) : dens JoinGroupRequestProtocol11_schema := (JoinGroupRequestProtocol11_Name t, (JoinGroupRequestProtocol11_Metadata t, tt)).
Definition JoinGroupRequestProtocol11_of (x : dens JoinGroupRequestProtocol11_schema) : JoinGroupRequestProtocol11 := mkJoinGroupRequestProtocol11 (fst x) (fst (snd x)).
Definition JoinGroupRequestProtocol11_codec : codec := Codec JoinGroupRequestProtocol11 JoinGroupRequestProtocol11_zero JoinGroupRequestProtocol11_Size JoinGroupRequestProtocol11_Encode JoinGroupRequestProtocol11_Decode JoinGroupRequestProtocol11_schema JoinGroupRequestProtocol11_to JoinGroupRequestProtocol11_of.
Lemma JoinGroupRequestProtocol11_linked : linked JoinGroupRequestProtocol11_codec.
Proof.
  apply Linked; cbn [JoinGroupRequestProtocol11_codec c_type c_zero c_size c_encode c_decode c_schema c_to c_of].
  - intros t. destruct t. cbv [JoinGroupRequestProtocol11_of JoinGroupRequestProtocol11_to]. cbn [fst snd JoinGroupRequestProtocol11_Name JoinGroupRequestProtocol11_Metadata].  reflexivity.
  - intros x. unfold JoinGroupRequestProtocol11_schema in x. cbn [dens den] in x. destruct x as [x0 x]. destruct x as [x1 x]. destruct x. cbv [JoinGroupRequestProtocol11_of JoinGroupRequestProtocol11_to]. cbn [fst snd JoinGroupRequestProtocol11_Name JoinGroupRequestProtocol11_Metadata].  reflexivity.
  - reflexivity.
  - intros v t. unfold JoinGroupRequestProtocol11_Size, JoinGroupRequestProtocol11_schema, JoinGroupRequestProtocol11_to. apply size_start.
    apply size_step; [intros sz; reflexivity|].
    apply size_step; [intros sz; reflexivity|].
    intros sz; reflexivity.
  - intros v t. unfold JoinGroupRequestProtocol11_Encode, JoinGroupRequestProtocol11_schema, JoinGroupRequestProtocol11_to.
    apply enc_step; [intros e; reflexivity|].
    apply enc_step; [intros e; reflexivity|].
    intros e; reflexivity.
  - intros v t. unfold JoinGroupRequestProtocol11_Decode, JoinGroupRequestProtocol11_schema, JoinGroupRequestProtocol11_to.
    dec_field (fun x : gostring => x); [apply dmap_id|intros x_Name].
    dec_field (fun x : gslice Z => x); [apply dmap_id|intros x_Metadata].
    intros d; reflexivity.
Qed.
Local Opaque JoinGroupRequestProtocol11_Size JoinGroupRequestProtocol11_Encode JoinGroupRequestProtocol11_Decode.

(** ** JoinGroupRequest *)

(** message/messages.gen.go:4012-4020 *)
Record JoinGroupRequest : Type := mkJoinGroupRequest { JoinGroupRequest_GroupId : gostring; JoinGroupRequest_SessionTimeoutMs : Z; JoinGroupRequest_RebalanceTimeoutMs : Z; JoinGroupRequest_MemberId : gostring; JoinGroupRequest_GroupInstanceId : gostring; JoinGroupRequest_ProtocolType : gostring; JoinGroupRequest_Protocols : gslice JoinGroupRequestProtocol11 }.
(** the zero value ([var item JoinGroupRequest]) *)
Definition JoinGroupRequest_zero : JoinGroupRequest := mkJoinGroupRequest [] 0 0 [] [] [] None.
(** message/messages.gen.go:4023-4040 *)
Definition JoinGroupRequest_Size (version : Z) (t : JoinGroupRequest) : Z :=
  ((size_add (sz_String (JoinGroupRequest_GroupId t))) +>
   (size_add sz_Int32) +>
   size_if (1 <=? version) (size_add sz_Int32) +>
   (size_add (sz_String (JoinGroupRequest_MemberId t))) +>
   size_if (5 <=? version) (size_add (sz_String (JoinGroupRequest_GroupInstanceId t))) +>
   (size_add (sz_String (JoinGroupRequest_ProtocolType t))) +>
   (size_loop (JoinGroupRequestProtocol11_Size version) (JoinGroupRequest_Protocols t)) +>
   size_done)%size 0.
(** message/messages.gen.go:4043-4060 *)
Definition JoinGroupRequest_Encode (version : Z) (t : JoinGroupRequest) : Encoder -> Encoder :=
  ((PutString (JoinGroupRequest_GroupId t)) >>
   (PutInt32 (JoinGroupRequest_SessionTimeoutMs t)) >>
   put_if (1 <=? version) (PutInt32 (JoinGroupRequest_RebalanceTimeoutMs t)) >>
   (PutString (JoinGroupRequest_MemberId t)) >>
   put_if (5 <=? version) (PutString (JoinGroupRequest_GroupInstanceId t)) >>
   (PutString (JoinGroupRequest_ProtocolType t)) >>
   (put_array (JoinGroupRequestProtocol11_Encode version) (JoinGroupRequest_Protocols t)) >>
   skip)%enc.
(** message/messages.gen.go:4063-4107 *)
Definition JoinGroupRequest_Decode (version : Z) (t : JoinGroupRequest) : Dec JoinGroupRequest :=
  x_GroupId <- dString ;;
  x_SessionTimeoutMs <- dInt32 ;;
  x_RebalanceTimeoutMs <- dec_if (1 <=? version) dInt32 (JoinGroupRequest_RebalanceTimeoutMs t) ;;
  x_MemberId <- dString ;;
  x_GroupInstanceId <- dec_if (5 <=? version) dString (JoinGroupRequest_GroupInstanceId t) ;;
  x_ProtocolType <- dString ;;
  x_Protocols <- (dec_array (JoinGroupRequestProtocol11_Decode version JoinGroupRequestProtocol11_zero) (JoinGroupRequest_Protocols t)) ;;
  ret (mkJoinGroupRequest x_GroupId x_SessionTimeoutMs x_RebalanceTimeoutMs x_MemberId x_GroupInstanceId x_ProtocolType x_Protocols).
(** the struct declaration read as a schema; version ranges as in Size *)
Definition JoinGroupRequest_schema : fields :=
  FCons "GroupId" Always TString
  (FCons "SessionTimeoutMs" Always TInt32
  (FCons "RebalanceTimeoutMs" (From 1) TInt32
  (FCons "MemberId" Always TString
  (FCons "GroupInstanceId" (From 5) TString
  (FCons "ProtocolType" Always TString
  (FCons "Protocols" Always (TArray JoinGroupRequestProtocol11_schema) FNil)))))).
Definition JoinGroupRequest_to (t : JoinGroupRequest) : dens JoinGroupRequest_schema := (JoinGroupRequest_GroupId t, (JoinGroupRequest_SessionTimeoutMs t, (JoinGroupRequest_RebalanceTimeoutMs t, (JoinGroupRequest_MemberId t, (JoinGroupRequest_GroupInstanceId t, (JoinGroupRequest_ProtocolType t, (option_map (map JoinGroupRequestProtocol11_to) (JoinGroupRequest_Protocols t), tt))))))).
Definition JoinGroupRequest_of (x : dens JoinGroupRequest_schema) : JoinGroupRequest := mkJoinGroupRequest (fst x) (fst (snd x)) (fst (snd (snd x))) (fst (snd (snd (snd x)))) (fst (snd (snd (snd (snd x))))) (fst (snd (snd (snd (snd (snd x)))))) (option_map (map JoinGroupRequestProtocol11_of) (fst (snd (snd (snd (snd (snd (snd x)))))))).
Definition JoinGroupRequest_codec : codec := Codec JoinGroupRequest JoinGroupRequest_zero JoinGroupRequest_Size JoinGroupRequest_Encode JoinGroupRequest_Decode JoinGroupRequest_schema JoinGroupRequest_to JoinGroupRequest_of.
Lemma JoinGroupRequest_linked : linked JoinGroupRequest_codec.
Proof.
  apply Linked; cbn [JoinGroupRequest_codec c_type c_zero c_size c_encode c_decode c_schema c_to c_of].
  - intros t. destruct t. cbv [JoinGroupRequest_of JoinGroupRequest_to]. cbn [fst snd JoinGroupRequest_GroupId JoinGroupRequest_SessionTimeoutMs JoinGroupRequest_RebalanceTimeoutMs JoinGroupRequest_MemberId JoinGroupRequest_GroupInstanceId JoinGroupRequest_ProtocolType JoinGroupRequest_Protocols]. rewrite ?(option_map_map_inv JoinGroupRequestProtocol11_to JoinGroupRequestProtocol11_of _ (l_of_to _ JoinGroupRequestProtocol11_linked)). reflexivity.
  - intros x. unfold JoinGroupRequest_schema in x. cbn [dens den] in x. destruct x as [x0 x]. destruct x as [x1 x]. destruct x as [x2 x]. destruct x as [x3 x]. destruct x as [x4 x]. destruct x as [x5 x]. destruct x as [x6 x]. destruct x. cbv [JoinGroupRequest_of JoinGroupRequest_to]. cbn [fst snd JoinGroupRequest_GroupId JoinGroupRequest_SessionTimeoutMs JoinGroupRequest_RebalanceTimeoutMs JoinGroupRequest_MemberId JoinGroupRequest_GroupInstanceId JoinGroupRequest_ProtocolType JoinGroupRequest_Protocols]. rewrite ?(option_map_map_inv JoinGroupRequestProtocol11_of JoinGroupRequestProtocol11_to _ (l_to_of _ JoinGroupRequestProtocol11_linked)). reflexivity.
  - reflexivity.
  - intros v t. unfold JoinGroupRequest_Size, JoinGroupRequest_schema, JoinGroupRequest_to. apply size_start.
    apply size_step; [intros sz; reflexivity|].
    apply size_step; [intros sz; reflexivity|].
    apply size_step; [intros sz; reflexivity|].
    apply size_step; [intros sz; reflexivity|].
    apply size_step; [intros sz; reflexivity|].
    apply size_step; [intros sz; reflexivity|].
    apply size_step; [intros sz; apply (size_field_link (JoinGroupRequestProtocol11_Size v) JoinGroupRequestProtocol11_schema JoinGroupRequestProtocol11_to v (l_size _ JoinGroupRequestProtocol11_linked v) true)|].
    intros sz; reflexivity.
  - intros v t. unfold JoinGroupRequest_Encode, JoinGroupRequest_schema, JoinGroupRequest_to.
    apply enc_step; [intros e; reflexivity|].
    apply enc_step; [intros e; reflexivity|].
    apply enc_step; [intros e; reflexivity|].
    apply enc_step; [intros e; reflexivity|].
    apply enc_step; [intros e; reflexivity|].
    apply enc_step; [intros e; reflexivity|].
    apply enc_step; [intros e; apply (put_field_link (JoinGroupRequestProtocol11_Encode v) JoinGroupRequestProtocol11_schema JoinGroupRequestProtocol11_to v (l_encode _ JoinGroupRequestProtocol11_linked v) true)|].
    intros e; reflexivity.
  - intros v t. unfold JoinGroupRequest_Decode, JoinGroupRequest_schema, JoinGroupRequest_to.
    dec_field (fun x : gostring => x); [apply dmap_id|intros x_GroupId].
    dec_field (fun x : Z => x); [apply dmap_id|intros x_SessionTimeoutMs].
    dec_field (fun x : Z => x); [apply dec_if_link; [apply dmap_id|reflexivity]|intros x_RebalanceTimeoutMs].
    dec_field (fun x : gostring => x); [apply dmap_id|intros x_MemberId].
    dec_field (fun x : gostring => x); [apply dec_if_link; [apply dmap_id|reflexivity]|intros x_GroupInstanceId].
    dec_field (fun x : gostring => x); [apply dmap_id|intros x_ProtocolType].
    dec_field (option_map (map JoinGroupRequestProtocol11_of)); [apply (dec_array_link _ _ JoinGroupRequestProtocol11_of JoinGroupRequestProtocol11_to (l_decode _ JoinGroupRequestProtocol11_linked v JoinGroupRequestProtocol11_zero) (l_of_to _ JoinGroupRequestProtocol11_linked))|intros x_Protocols].
    intros d; reflexivity.
Qed.
Local Opaque JoinGroupRequest_Size JoinGroupRequest_Encode JoinGroupRequest_Decode.

(** ** JoinGroupResponseMember11 *)

(** message/messages.gen.go:4234-4238 *)
Record JoinGroupResponseMember11 : Type := mkJoinGroupResponseMember11 { JoinGroupResponseMember11_MemberId : gostring; JoinGroupResponseMember11_GroupInstanceId : gostring; JoinGroupResponseMember11_Metadata : gslice Z }.
(** the zero value ([var item JoinGroupResponseMember11]) *)
Definition JoinGroupResponseMember11_zero : JoinGroupResponseMember11 := mkJoinGroupResponseMember11 [] [] None.
(** message/messages.gen.go:4241-4249 *)
Definition JoinGroupResponseMember11_Size (version : Z) (t : JoinGroupResponseMember11) : Z :=
  ((size_add (sz_String (JoinGroupResponseMember11_MemberId t))) +>
   size_if (5 <=? version) (size_add (sz_String (JoinGroupResponseMember11_GroupInstanceId t))) +>
   (size_add (sz_Bytes (JoinGroupResponseMember11_Metadata t))) +>
   size_done)%size 0.
(** message/messages.gen.go:4252-4258 *)
Definition JoinGroupResponseMember11_Encode (version : Z) (t : JoinGroupResponseMember11) : Encoder -> Encoder :=
  ((PutString (JoinGroupResponseMember11_MemberId t)) >>
   put_if (5 <=? version) (PutString (JoinGroupResponseMember11_GroupInstanceId t)) >>
   (PutBytes (JoinGroupResponseMember11_Metadata t)) >>
   skip)%enc.
(** message/messages.gen.go:4261-4278 *)
Definition JoinGroupResponseMember11_Decode (version : Z) (t : JoinGroupResponseMember11) : Dec JoinGroupResponseMember11 :=
  x_MemberId <- dString ;;
  x_GroupInstanceId <- dec_if (5 <=? version) dString (JoinGroupResponseMember11_GroupInstanceId t) ;;
  x_Metadata <- dBytes ;;
  ret (mkJoinGroupResponseMember11 x_MemberId x_GroupInstanceId x_Metadata).
(** the struct declaration read as a schema; version ranges as in Size *)
Definition JoinGroupResponseMember11_schema : fields :=
  FCons "MemberId" Always TString
  (FCons "GroupInstanceId" (From 5) TString
  (FCons "Metadata" Always TBytes FNil)).
Definition JoinGroupResponseMember11_to (t : JoinGroupResponseMember11) : dens JoinGroupResponseMember11_schema := (JoinGroupResponseMember11_MemberId t, (JoinGroupResponseMember11_GroupInstanceId t, (JoinGroupResponseMember11_Metadata t, tt))).
Definition JoinGroupResponseMember11_of (x : dens JoinGroupResponseMember11_schema) : JoinGroupResponseMember11 := mkJoinGroupResponseMember11 (fst x) (fst (snd x)) (fst (snd (snd x))).
Definition JoinGroupResponseMember11_codec : codec := Codec JoinGroupResponseMember11 JoinGroupResponseMember11_zero JoinGroupResponseMember11_Size JoinGroupResponseMember11_Encode JoinGroupResponseMember11_Decode JoinGroupResponseMember11_schema JoinGroupResponseMember11_to JoinGroupResponseMember11_of.
Lemma JoinGroupResponseMember11_linked : linked JoinGroupResponseMember11_codec.
Proof.
  apply Linked; cbn [JoinGroupResponseMember11_codec c_type c_zero c_size c_encode c_decode c_schema c_to c_of].
  - intros t. destruct t. cbv [JoinGroupResponseMember11_of JoinGroupResponseMember11_to]. cbn [fst snd JoinGroupResponseMember11_MemberId JoinGroupResponseMember11_GroupInstanceId JoinGroupResponseMember11_Metadata].  reflexivity.
  - intros x. unfold JoinGroupResponseMember11_schema in x. cbn [dens den] in x. destruct x as [x0 x]. destruct x as [x1 x]. destruct x as [x2 x]. destruct x. cbv [JoinGroupResponseMember11_of JoinGroupResponseMember11_to]. cbn [fst snd JoinGroupResponseMember11_MemberId JoinGroupResponseMember11_GroupInstanceId JoinGroupResponseMember11_Metadata].  reflexivity.
  - reflexivity.
  - intros v t. unfold JoinGroupResponseMember11_Size, JoinGroupResponseMember11_schema, JoinGroupResponseMember11_to. apply size_start.
    apply size_step; [intros sz; reflexivity|].
    apply size_step; [intros sz; reflexivity|].
    apply size_step; [intros sz; reflexivity|].
    intros sz; reflexivity.
  - intros v t. unfold JoinGroupResponseMember11_Encode, JoinGroupResponseMember11_schema, JoinGroupResponseMember11_to.
    apply enc_step; [intros e; reflexivity|].
    apply enc_step; [intros e; reflexivity|].
    apply enc_step; [intros e; reflexivity|].
    intros e; reflexivity.
  - intros v t. unfold JoinGroupResponseMember11_Decode, JoinGroupResponseMember11_schema, JoinGroupResponseMember11_to.
    dec_field (fun x : gostring => x); [apply dmap_id|intros x_MemberId].
    dec_field (fun x : gostring => x); [apply dec_if_link; [apply dmap_id|reflexivity]|intros x_GroupInstanceId].
    dec_field (fun x : gslice Z => x); [apply dmap_id|intros x_Metadata].
    intros d; reflexivity.
Qed.
Local Opaque JoinGroupResponseMember11_Size JoinGroupResponseMember11_Encode JoinGroupResponseMember11_Decode.

(** ** JoinGroupResponse *)

(** message/messages.gen.go:4143-4151 *)
Record JoinGroupResponse : Type := mkJoinGroupResponse { JoinGroupResponse_ThrottleTimeMs : Z; JoinGroupResponse_ErrorCode : Z; JoinGroupResponse_GenerationId : Z; JoinGroupResponse_ProtocolName : gostring; JoinGroupResponse_Leader : gostring; JoinGroupResponse_MemberId : gostring; JoinGroupResponse_Members : gslice JoinGroupResponseMember11 }.
(** the zero value ([var item JoinGroupResponse]) *)
Definition JoinGroupResponse_zero : JoinGroupResponse := mkJoinGroupResponse 0 0 0 [] [] [] None.
(** message/messages.gen.go:4154-4169 *)
Definition JoinGroupResponse_Size (version : Z) (t : JoinGroupResponse) : Z :=
  (size_if (2 <=? version) (size_add sz_Int32) +>
   (size_add sz_Int16) +>
   (size_add sz_Int32) +>
   (size_add (sz_String (JoinGroupResponse_ProtocolName t))) +>
   (size_add (sz_String (JoinGroupResponse_Leader t))) +>
   (size_add (sz_String (JoinGroupResponse_MemberId t))) +>
   (size_loop (JoinGroupResponseMember11_Size version) (JoinGroupResponse_Members t)) +>
   size_done)%size 0.
(** message/messages.gen.go:4172-4187 *)
Definition JoinGroupResponse_Encode (version : Z) (t : JoinGroupResponse) : Encoder -> Encoder :=
  (put_if (2 <=? version) (PutInt32 (JoinGroupResponse_ThrottleTimeMs t)) >>
   (PutInt16 (JoinGroupResponse_ErrorCode t)) >>
   (PutInt32 (JoinGroupResponse_GenerationId t)) >>
   (PutString (JoinGroupResponse_ProtocolName t)) >>
   (PutString (JoinGroupResponse_Leader t)) >>
   (PutString (JoinGroupResponse_MemberId t)) >>
   (put_array (JoinGroupResponseMember11_Encode version) (JoinGroupResponse_Members t)) >>
   skip)%enc.
(** message/messages.gen.go:4190-4232 *)
Definition JoinGroupResponse_Decode (version : Z) (t : JoinGroupResponse) : Dec JoinGroupResponse :=
  x_ThrottleTimeMs <- dec_if (2 <=? version) dInt32 (JoinGroupResponse_ThrottleTimeMs t) ;;
  x_ErrorCode <- dInt16 ;;
  x_GenerationId <- dInt32 ;;
  x_ProtocolName <- dString ;;
  x_Leader <- dString ;;
  x_MemberId <- dString ;;
  x_Members <- (dec_array (JoinGroupResponseMember11_Decode version JoinGroupResponseMember11_zero) (JoinGroupResponse_Members t)) ;;
  ret (mkJoinGroupResponse x_ThrottleTimeMs x_ErrorCode x_GenerationId x_ProtocolName x_Leader x_MemberId x_Members).
(** the struct declaration read as a schema; version ranges as in Size *)
Definition JoinGroupResponse_schema : fields :=
  FCons "ThrottleTimeMs" (From 2) TInt32
  (FCons "ErrorCode" Always TInt16
  (FCons "GenerationId" Always TInt32
  (FCons "ProtocolName" Always TString
  (FCons "Leader" Always TString
  (FCons "MemberId" Always TString
  (FCons "Members" Always (TArray JoinGroupResponseMember11_schema) FNil)))))).
Definition JoinGroupResponse_to (t : JoinGroupResponse) : dens JoinGroupResponse_schema := (JoinGroupResponse_ThrottleTimeMs t, (JoinGroupResponse_ErrorCode t, (JoinGroupResponse_GenerationId t, (JoinGroupResponse_ProtocolName t, (JoinGroupResponse_Leader t, (JoinGroupResponse_MemberId t, (option_map (map JoinGroupResponseMember11_to) (JoinGroupResponse_Members t), tt))))))).
Definition JoinGroupResponse_of (x : dens JoinGroupResponse_schema) : JoinGroupResponse := mkJoinGroupResponse (fst x) (fst (snd x)) (fst (snd (snd x))) (fst (snd (snd (snd x)))) (fst (snd (snd (snd (snd x))))) (fst (snd (snd (snd (snd (snd x)))))) (option_map (map JoinGroupResponseMember11_of) (fst (snd (snd (snd (snd (snd (snd x)))))))).
Definition JoinGroupResponse_codec : codec := Codec JoinGroupResponse JoinGroupResponse_zero JoinGroupResponse_Size JoinGroupResponse_Encode JoinGroupResponse_Decode JoinGroupResponse_schema JoinGroupResponse_to JoinGroupResponse_of.
Lemma JoinGroupResponse_linked : linked JoinGroupResponse_codec.
Proof.
  apply Linked; cbn [JoinGroupResponse_codec c_type c_zero c_size c_encode c_decode c_schema c_to c_of].
  - intros t. destruct t. cbv [JoinGroupResponse_of JoinGroupResponse_to]. cbn [fst snd JoinGroupResponse_ThrottleTimeMs JoinGroupResponse_ErrorCode JoinGroupResponse_GenerationId JoinGroupResponse_ProtocolName JoinGroupResponse_Leader JoinGroupResponse_MemberId JoinGroupResponse_Members]. rewrite ?(option_map_map_inv JoinGroupResponseMember11_to JoinGroupResponseMember11_of _ (l_of_to _ JoinGroupResponseMember11_linked)). reflexivity.
  - intros x. unfold JoinGroupResponse_schema in x. cbn [dens den] in x. destruct x as [x0 x]. destruct x as [x1 x]. destruct x as [x2 x]. destruct x as [x3 x]. destruct x as [x4 x]. destruct x as [x5 x]. destruct x as [x6 x]. destruct x. cbv [JoinGroupResponse_of JoinGroupResponse_to]. cbn [fst snd JoinGroupResponse_ThrottleTimeMs JoinGroupResponse_ErrorCode JoinGroupResponse_GenerationId JoinGroupResponse_ProtocolName JoinGroupResponse_Leader JoinGroupResponse_MemberId JoinGroupResponse_Members]. rewrite ?(option_map_map_inv JoinGroupResponseMember11_of JoinGroupResponseMember11_to _ (l_to_of _ JoinGroupResponseMember11_linked)). reflexivity.
  - reflexivity.
  - intros v t. unfold JoinGroupResponse_Size, JoinGroupResponse_schema, JoinGroupResponse_to. apply size_start.
    apply size_step; [intros sz; reflexivity|].
    apply size_step; [intros sz; reflexivity|].
    apply size_step; [intros sz; reflexivity|].
    apply size_step; [intros sz; reflexivity|].
    apply size_step; [intros sz; reflexivity|].
    apply size_step; [intros sz; reflexivity|].
    apply size_step; [intros sz; apply (size_field_link (JoinGroupResponseMember11_Size v) JoinGroupResponseMember11_schema JoinGroupResponseMember11_to v (l_size _ JoinGroupResponseMember11_linked v) true)|].
    intros sz; reflexivity.
  - intros v t. unfold JoinGroupResponse_Encode, JoinGroupResponse_schema, JoinGroupResponse_to.
    apply enc_step; [intros e; reflexivity|].
    apply enc_step; [intros e; reflexivity|].
    apply enc_step; [intros e; reflexivity|].
    apply enc_step; [intros e; reflexivity|].
    apply enc_step; [intros e; reflexivity|].
    apply enc_step; [intros e; reflexivity|].
    apply enc_step; [intros e; apply (put_field_link (JoinGroupResponseMember11_Encode v) JoinGroupResponseMember11_schema JoinGroupResponseMember11_to v (l_encode _ JoinGroupResponseMember11_linked v) true)|].
    intros e; reflexivity.
  - intros v t. unfold JoinGroupResponse_Decode, JoinGroupResponse_schema, JoinGroupResponse_to.
    dec_field (fun x : Z => x); [apply dec_if_link; [apply dmap_id|reflexivity]|intros x_ThrottleTimeMs].
    dec_field (fun x : Z => x); [apply dmap_id|intros x_ErrorCode].
    dec_field (fun x : Z => x); [apply dmap_id|intros x_GenerationId].
    dec_field (fun x : gostring => x); [apply dmap_id|intros x_ProtocolName].
    dec_field (fun x : gostring => x); [apply dmap_id|intros x_Leader].
    dec_field (fun x : gostring => x); [apply dmap_id|intros x_MemberId].
    dec_field (option_map (map JoinGroupResponseMember11_of)); [apply (dec_array_link _ _ JoinGroupResponseMember11_of JoinGroupResponseMember11_to (l_decode _ JoinGroupResponseMember11_linked v JoinGroupResponseMember11_zero) (l_of_to _ JoinGroupResponseMember11_linked))|intros x_Members].
    intros d; reflexivity.
Qed.
Local Opaque JoinGroupResponse_Size JoinGroupResponse_Encode JoinGroupResponse_Decode.

(** ** HeartbeatRequest *)

(** message/messages.gen.go:4281-4286 *)
Record HeartbeatRequest : Type := mkHeartbeatRequest { HeartbeatRequest_GroupId : gostring; HeartbeatRequest_GenerationId : Z; HeartbeatRequest_MemberId : gostring; HeartbeatRequest_GroupInstanceId : gostring }.
(** the zero value ([var item HeartbeatRequest]) *)
Definition HeartbeatRequest_zero : HeartbeatRequest := mkHeartbeatRequest [] 0 [] [].
(** message/messages.gen.go:4289-4298 *)
Definition HeartbeatRequest_Size (version : Z) (t : HeartbeatRequest) : Z :=
  ((size_add (sz_String (HeartbeatRequest_GroupId t))) +>
   (size_add sz_Int32) +>
   (size_add (sz_String (HeartbeatRequest_MemberId t))) +>
   size_if (3 <=? version) (size_add (sz_String (HeartbeatRequest_GroupInstanceId t))) +>
   size_done)%size 0.
(** message/messages.gen.go:4301-4308 *)
Definition HeartbeatRequest_Encode (version : Z) (t : HeartbeatRequest) : Encoder -> Encoder :=
  ((PutString (HeartbeatRequest_GroupId t)) >>
   (PutInt32 (HeartbeatRequest_GenerationId t)) >>
   (PutString (HeartbeatRequest_MemberId t)) >>
   put_if (3 <=? version) (PutString (HeartbeatRequest_GroupInstanceId t)) >>
   skip)%enc.
(** message/messages.gen.go:4311-4332 *)
Definition HeartbeatRequest_Decode (version : Z) (t : HeartbeatRequest) : Dec HeartbeatRequest :=
  x_GroupId <- dString ;;
  x_GenerationId <- dInt32 ;;
  x_MemberId <- dString ;;
  x_GroupInstanceId <- dec_if (3 <=? version) dString (HeartbeatRequest_GroupInstanceId t) ;;
  ret (mkHeartbeatRequest x_GroupId x_GenerationId x_MemberId x_GroupInstanceId).
(** the struct declaration read as a schema; version ranges as in Size *)
Definition HeartbeatRequest_schema : fields :=
  FCons "GroupId" Always TString
  (FCons "GenerationId" Always TInt32
  (FCons "MemberId" Always TString
  (FCons "GroupInstanceId" (From 3) TString FNil))).
Definition HeartbeatRequest_to (t : HeartbeatRequest) : dens HeartbeatRequest_schema := (HeartbeatRequest_GroupId t, (HeartbeatRequest_GenerationId t, (HeartbeatRequest_MemberId t, (HeartbeatRequest_GroupInstanceId t, tt)))).
Definition HeartbeatRequest_of (x : dens HeartbeatRequest_schema) : HeartbeatRequest := mkHeartbeatRequest (fst x) (fst (snd x)) (fst (snd (snd x))) (fst (snd (snd (snd x)))).
Definition HeartbeatRequest_codec : codec := Codec HeartbeatRequest HeartbeatRequest_zero HeartbeatRequest_Size HeartbeatRequest_Encode HeartbeatRequest_Decode HeartbeatRequest_schema HeartbeatRequest_to HeartbeatRequest_of.
Lemma HeartbeatRequest_linked : linked HeartbeatRequest_codec.
Proof.
  apply Linked; cbn [HeartbeatRequest_codec c_type c_zero c_size c_encode c_decode c_schema c_to c_of].
  - intros t. destruct t. cbv [HeartbeatRequest_of HeartbeatRequest_to]. cbn [fst snd HeartbeatRequest_GroupId HeartbeatRequest_GenerationId HeartbeatRequest_MemberId HeartbeatRequest_GroupInstanceId].  reflexivity.
  - intros x. unfold HeartbeatRequest_schema in x. cbn [dens den] in x. destruct x as [x0 x]. destruct x as [x1 x]. destruct x as [x2 x]. destruct x as [x3 x]. destruct x. cbv [HeartbeatRequest_of HeartbeatRequest_to]. cbn [fst snd HeartbeatRequest_GroupId HeartbeatRequest_GenerationId HeartbeatRequest_MemberId HeartbeatRequest_GroupInstanceId].  reflexivity.
  - reflexivity.
  - intros v t. unfold HeartbeatRequest_Size, HeartbeatRequest_schema, HeartbeatRequest_to. apply size_start.
    apply size_step; [intros sz; reflexivity|].
    apply size_step; [intros sz; reflexivity|].
    apply size_step; [intros sz; reflexivity|].
    apply size_step; [intros sz; reflexivity|].
    intros sz; reflexivity.
  - intros v t. unfold HeartbeatRequest_Encode, HeartbeatRequest_schema, HeartbeatRequest_to.
    apply enc_step; [intros e; reflexivity|].
    apply enc_step; [intros e; reflexivity|].
    apply enc_step; [intros e; reflexivity|].
    apply enc_step; [intros e; reflexivity|].
    intros e; reflexivity.
  - intros v t. unfold HeartbeatRequest_Decode, HeartbeatRequest_schema, HeartbeatRequest_to.
    dec_field (fun x : gostring => x); [apply dmap_id|intros x_GroupId].
    dec_field (fun x : Z => x); [apply dmap_id|intros x_GenerationId].
    dec_field (fun x : gostring => x); [apply dmap_id|intros x_MemberId].
    dec_field (fun x : gostring => x); [apply dec_if_link; [apply dmap_id|reflexivity]|intros x_GroupInstanceId].
    intros d; reflexivity.
Qed.
Local Opaque HeartbeatRequest_Size HeartbeatRequest_Encode HeartbeatRequest_Decode.

