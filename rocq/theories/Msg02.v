(** * Generated message types (part 2 of 10).

    Written by tools/gen_messages.py from message/messages.gen.go, one
    definition per Go method; do not edit.  A Decode method that fails leaves
    a partly filled receiver behind, which no caller looks at; the model drops
    it. *)
From Coq Require Import String.
From Verif Require Import GoBase Encoder Decoder Sizeof SchemaSpec Schema Link.
Open Scope Z_scope.

(** ** MetadataRequestTopic3 *)

(** message/messages.gen.go:1582-1584 *)
Record MetadataRequestTopic3 : Type := mkMetadataRequestTopic3 { MetadataRequestTopic3_Name : gostring }.
(** the zero value ([var item MetadataRequestTopic3]) *)
Definition MetadataRequestTopic3_zero : MetadataRequestTopic3 := mkMetadataRequestTopic3 [].
(** message/messages.gen.go:1587-1591 *)
Definition MetadataRequestTopic3_Size (version : Z) (t : MetadataRequestTopic3) : Z :=
  ((size_add (sz_String (MetadataRequestTopic3_Name t))) +>
   size_done)%size 0.
(** message/messages.gen.go:1594-1596 *)
Definition MetadataRequestTopic3_Encode (version : Z) (t : MetadataRequestTopic3) : Encoder -> Encoder :=
  ((PutString (MetadataRequestTopic3_Name t)) >>
   skip)%enc.
(** message/messages.gen.go:1599-1606 *)
Definition MetadataRequestTopic3_Decode (version : Z) (t : MetadataRequestTopic3) : Dec MetadataRequestTopic3 :=
  x_Name <- dString ;;
  ret (mkMetadataRequestTopic3 x_Name).
(** the struct declaration read as a schema; version ranges as in Size *)
Definition MetadataRequestTopic3_schema : fields :=
  FCons "Name" Always TString FNil.
Definition MetadataRequestTopic3_to (t : MetadataRequestTopic3) : dens MetadataRequestTopic3_schema := (MetadataRequestTopic3_Name t, tt).
Definition MetadataRequestTopic3_of (x : dens MetadataRequestTopic3_schema) : MetadataRequestTopic3 := mkMetadataRequestTopic3 (fst x).
Definition MetadataRequestTopic3_codec : codec := Codec MetadataRequestTopic3 MetadataRequestTopic3_zero MetadataRequestTopic3_Size MetadataRequestTopic3_Encode MetadataRequestTopic3_Decode MetadataRequestTopic3_schema MetadataRequestTopic3_to MetadataRequestTopic3_of.
Lemma MetadataRequestTopic3_linked : linked MetadataRequestTopic3_codec.
Proof.
  apply Linked; cbn [MetadataRequestTopic3_codec c_type c_zero c_size c_encode c_decode c_schema c_to c_of].
  - intros t. destruct t. cbv [MetadataRequestTopic3_of MetadataRequestTopic3_to]. cbn [fst snd MetadataRequestTopic3_Name].  reflexivity.
  - intros x. unfold MetadataRequestTopic3_schema in x. cbn [dens den] in x. destruct x as [x0 x]. destruct x. cbv [MetadataRequestTopic3_of MetadataRequestTopic3_to]. cbn [fst snd MetadataRequestTopic3_Name].  reflexivity.
  - reflexivity.
  - intros v t. unfold MetadataRequestTopic3_Size, MetadataRequestTopic3_schema, MetadataRequestTopic3_to. apply size_start.
    apply size_step; [intros sz; reflexivity|].
    intros sz; reflexivity.
  - intros v t. unfold MetadataRequestTopic3_Encode, MetadataRequestTopic3_schema, MetadataRequestTopic3_to.
    apply enc_step; [intros e; reflexivity|].
    intros e; reflexivity.
  - intros v t. unfold MetadataRequestTopic3_Decode, MetadataRequestTopic3_schema, MetadataRequestTopic3_to.
    dec_field (fun x : gostring => x); [apply dmap_id|intros x_Name].
    intros d; reflexivity.
Qed.
Local Opaque MetadataRequestTopic3_Size MetadataRequestTopic3_Encode MetadataRequestTopic3_Decode.

(** ** MetadataRequest *)

(** message/messages.gen.go:1500-1505 *)
Record MetadataRequest : Type := mkMetadataRequest { MetadataRequest_Topics : gslice MetadataRequestTopic3; MetadataRequest_AllowAutoTopicCreation : bool; MetadataRequest_IncludeClusterAuthorizedOperations : bool; MetadataRequest_IncludeTopicAuthorizedOperations : bool }.
(** the zero value ([var item MetadataRequest]) *)
Definition MetadataRequest_zero : MetadataRequest := mkMetadataRequest None false false false.
(** message/messages.gen.go:1508-1524 *)
Definition MetadataRequest_Size (version : Z) (t : MetadataRequest) : Z :=
  ((size_loop (MetadataRequestTopic3_Size version) (MetadataRequest_Topics t)) +>
   size_if (4 <=? version) (size_add sz_Bool) +>
   size_if (8 <=? version) (size_add sz_Bool) +>
   size_if (8 <=? version) (size_add sz_Bool) +>
   size_done)%size 0.
(** message/messages.gen.go:1527-1543 *)
Definition MetadataRequest_Encode (version : Z) (t : MetadataRequest) : Encoder -> Encoder :=
  ((put_array (MetadataRequestTopic3_Encode version) (MetadataRequest_Topics t)) >>
   put_if (4 <=? version) (PutBool (MetadataRequest_AllowAutoTopicCreation t)) >>
   put_if (8 <=? version) (PutBool (MetadataRequest_IncludeClusterAuthorizedOperations t)) >>
   put_if (8 <=? version) (PutBool (MetadataRequest_IncludeTopicAuthorizedOperations t)) >>
   skip)%enc.
(** message/messages.gen.go:1546-1580 *)
Definition MetadataRequest_Decode (version : Z) (t : MetadataRequest) : Dec MetadataRequest :=
  x_Topics <- (dec_array (MetadataRequestTopic3_Decode version MetadataRequestTopic3_zero) (MetadataRequest_Topics t)) ;;
  x_AllowAutoTopicCreation <- dec_if (4 <=? version) dBool (MetadataRequest_AllowAutoTopicCreation t) ;;
  x_IncludeClusterAuthorizedOperations <- dec_if (8 <=? version) dBool (MetadataRequest_IncludeClusterAuthorizedOperations t) ;;
  x_IncludeTopicAuthorizedOperations <- dec_if (8 <=? version) dBool (MetadataRequest_IncludeTopicAuthorizedOperations t) ;;
  ret (mkMetadataRequest x_Topics x_AllowAutoTopicCreation x_IncludeClusterAuthorizedOperations x_IncludeTopicAuthorizedOperations).
(** the struct declaration read as a schema; version ranges as in Size *)
Definition MetadataRequest_schema : fields :=
  FCons "Topics" Always (TArray MetadataRequestTopic3_schema)
  (FCons "AllowAutoTopicCreation" (From 4) TBool
  (FCons "IncludeClusterAuthorizedOperations" (From 8) TBool
  (FCons "IncludeTopicAuthorizedOperations" (From 8) TBool FNil))).
Definition MetadataRequest_to (t : MetadataRequest) : dens MetadataRequest_schema := (option_map (map MetadataRequestTopic3_to) (MetadataRequest_Topics t), (MetadataRequest_AllowAutoTopicCreation t, (MetadataRequest_IncludeClusterAuthorizedOperations t, (MetadataRequest_IncludeTopicAuthorizedOperations t, tt)))).
Definition MetadataRequest_of (x : dens MetadataRequest_schema) : MetadataRequest := mkMetadataRequest (option_map (map MetadataRequestTopic3_of) (fst x)) (fst (snd x)) (fst (snd (snd x))) (fst (snd (snd (snd x)))).
Definition MetadataRequest_codec : codec := Codec MetadataRequest MetadataRequest_zero MetadataRequest_Size MetadataRequest_Encode MetadataRequest_Decode MetadataRequest_schema MetadataRequest_to MetadataRequest_of.
Lemma MetadataRequest_linked : linked MetadataRequest_codec.
Proof.
  apply Linked; cbn [MetadataRequest_codec c_type c_zero c_size c_encode c_decode c_schema c_to c_of].
  - intros t. destruct t. cbv [MetadataRequest_of MetadataRequest_to]. cbn [fst snd MetadataRequest_Topics MetadataRequest_AllowAutoTopicCreation MetadataRequest_IncludeClusterAuthorizedOperations MetadataRequest_IncludeTopicAuthorizedOperations]. rewrite ?(option_map_map_inv MetadataRequestTopic3_to MetadataRequestTopic3_of _ (l_of_to _ MetadataRequestTopic3_linked)). reflexivity.
  - intros x. unfold MetadataRequest_schema in x. cbn [dens den] in x. destruct x as [x0 x]. destruct x as [x1 x]. destruct x as [x2 x]. destruct x as [x3 x]. destruct x. cbv [MetadataRequest_of MetadataRequest_to]. cbn [fst snd MetadataRequest_Topics MetadataRequest_AllowAutoTopicCreation MetadataRequest_IncludeClusterAuthorizedOperations MetadataRequest_IncludeTopicAuthorizedOperations]. rewrite ?(option_map_map_inv MetadataRequestTopic3_of MetadataRequestTopic3_to _ (l_to_of _ MetadataRequestTopic3_linked)). reflexivity.
  - reflexivity.
  - intros v t. unfold MetadataRequest_Size, MetadataRequest_schema, MetadataRequest_to. apply size_start.
    apply size_step; [intros sz; apply (size_field_link (MetadataRequestTopic3_Size v) MetadataRequestTopic3_schema MetadataRequestTopic3_to v (l_size _ MetadataRequestTopic3_linked v) true)|].
    apply size_step; [intros sz; reflexivity|].
    apply size_step; [intros sz; reflexivity|].
    apply size_step; [intros sz; reflexivity|].
    intros sz; reflexivity.
  - intros v t. unfold MetadataRequest_Encode, MetadataRequest_schema, MetadataRequest_to.
    apply enc_step; [intros e; apply (put_field_link (MetadataRequestTopic3_Encode v) MetadataRequestTopic3_schema MetadataRequestTopic3_to v (l_encode _ MetadataRequestTopic3_linked v) true)|].
    apply enc_step; [intros e; reflexivity|].
    apply enc_step; [intros e; reflexivity|].
    apply enc_step; [intros e; reflexivity|].
    intros e; reflexivity.
  - intros v t. unfold MetadataRequest_Decode, MetadataRequest_schema, MetadataRequest_to.
    dec_field (option_map (map MetadataRequestTopic3_of)); [apply (dec_array_link _ _ MetadataRequestTopic3_of MetadataRequestTopic3_to (l_decode _ MetadataRequestTopic3_linked v MetadataRequestTopic3_zero) (l_of_to _ MetadataRequestTopic3_linked))|intros x_Topics].
    dec_field (fun x : bool => x); [apply dec_if_link; [apply dmap_id|reflexivity]|intros x_AllowAutoTopicCreation].
    dec_field (fun x : bool => x); [apply dec_if_link; [apply dmap_id|reflexivity]|intros x_IncludeClusterAuthorizedOperations].
    dec_field (fun x : bool => x); [apply dec_if_link; [apply dmap_id|reflexivity]|intros x_IncludeTopicAuthorizedOperations].
    intros d; reflexivity.
Qed.
Local Opaque MetadataRequest_Size MetadataRequest_Encode MetadataRequest_Decode.

(** ** MetadataResponseBroker3 *)

(** message/messages.gen.go:1728-1733 *)
Record MetadataResponseBroker3 : Type := mkMetadataResponseBroker3 { MetadataResponseBroker3_NodeId : Z; MetadataResponseBroker3_Host : gostring; MetadataResponseBroker3_Port : Z; MetadataResponseBroker3_Rack : gostring }.
(** the zero value ([var item MetadataResponseBroker3]) *)
Definition MetadataResponseBroker3_zero : MetadataResponseBroker3 := mkMetadataResponseBroker3 0 [] 0 [].
(** message/messages.gen.go:1736-1745 *)
Definition MetadataResponseBroker3_Size (version : Z) (t : MetadataResponseBroker3) : Z :=
  ((size_add sz_Int32) +>
   (size_add (sz_String (MetadataResponseBroker3_Host t))) +>
   (size_add sz_Int32) +>
   size_if (1 <=? version) (size_add (sz_String (MetadataResponseBroker3_Rack t))) +>
   size_done)%size 0.
(** message/messages.gen.go:1748-1755 *)
Definition MetadataResponseBroker3_Encode (version : Z) (t : MetadataResponseBroker3) : Encoder -> Encoder :=
  ((PutInt32 (MetadataResponseBroker3_NodeId t)) >>
   (PutString (MetadataResponseBroker3_Host t)) >>
   (PutInt32 (MetadataResponseBroker3_Port t)) >>
   put_if (1 <=? version) (PutString (MetadataResponseBroker3_Rack t)) >>
   skip)%enc.
(** message/messages.gen.go:1758-1779 *)
Definition MetadataResponseBroker3_Decode (version : Z) (t : MetadataResponseBroker3) : Dec MetadataResponseBroker3 :=
  x_NodeId <- dInt32 ;;
  x_Host <- dString ;;
  x_Port <- dInt32 ;;
  x_Rack <- dec_if (1 <=? version) dString (MetadataResponseBroker3_Rack t) ;;
  ret (mkMetadataResponseBroker3 x_NodeId x_Host x_Port x_Rack).
(** the struct declaration read as a schema; version ranges as in Size *)
Definition MetadataResponseBroker3_schema : fields :=
  FCons "NodeId" Always TInt32
  (FCons "Host" Always TString
  (FCons "Port" Always TInt32
  (FCons "Rack" (From 1) TString FNil))).
Definition MetadataResponseBroker3_to (t : MetadataResponseBroker3) : dens MetadataResponseBroker3_schema := (MetadataResponseBroker3_NodeId t, (MetadataResponseBroker3_Host t, (MetadataResponseBroker3_Port t, (MetadataResponseBroker3_Rack t, tt)))).
Definition MetadataResponseBroker3_of (x : dens MetadataResponseBroker3_schema) : MetadataResponseBroker3 := mkMetadataResponseBroker3 (fst x) (fst (snd x)) (fst (snd (snd x))) (fst (snd (snd (snd x)))).
Definition MetadataResponseBroker3_codec : codec := Codec MetadataResponseBroker3 MetadataResponseBroker3_zero MetadataResponseBroker3_Size MetadataResponseBroker3_Encode MetadataResponseBroker3_Decode MetadataResponseBroker3_schema MetadataResponseBroker3_to MetadataResponseBroker3_of.
Lemma MetadataResponseBroker3_linked : linked MetadataResponseBroker3_codec.
Proof.
  apply Linked; cbn [MetadataResponseBroker3_codec c_type c_zero c_size c_encode c_decode c_schema c_to c_of].
  - intros t. destruct t. cbv [MetadataResponseBroker3_of MetadataResponseBroker3_to]. cbn [fst snd MetadataResponseBroker3_NodeId MetadataResponseBroker3_Host MetadataResponseBroker3_Port MetadataResponseBroker3_Rack].  reflexivity.
  - intros x. unfold MetadataResponseBroker3_schema in x. cbn [dens den] in x. destruct x as [x0 x]. destruct x as [x1 x]. destruct x as [x2 x]. destruct x as [x3 x]. destruct x. cbv [MetadataResponseBroker3_of MetadataResponseBroker3_to]. cbn [fst snd MetadataResponseBroker3_NodeId MetadataResponseBroker3_Host MetadataResponseBroker3_Port MetadataResponseBroker3_Rack].  reflexivity.
  - reflexivity.
  - intros v t. unfold MetadataResponseBroker3_Size, MetadataResponseBroker3_schema, MetadataResponseBroker3_to. apply size_start.
    apply size_step; [intros sz; reflexivity|].
    apply size_step; [intros sz; reflexivity|].
    apply size_step; [intros sz; reflexivity|].
    apply size_step; [intros sz; reflexivity|].
    intros sz; reflexivity.
  - intros v t. unfold MetadataResponseBroker3_Encode, MetadataResponseBroker3_schema, MetadataResponseBroker3_to.
    apply enc_step; [intros e; reflexivity|].
    apply enc_step; [intros e; reflexivity|].
    apply enc_step; [intros e; reflexivity|].
    apply enc_step; [intros e; reflexivity|].
    intros e; reflexivity.
  - intros v t. unfold MetadataResponseBroker3_Decode, MetadataResponseBroker3_schema, MetadataResponseBroker3_to.
    dec_field (fun x : Z => x); [apply dmap_id|intros x_NodeId].
    dec_field (fun x : gostring => x); [apply dmap_id|intros x_Host].
    dec_field (fun x : Z => x); [apply dmap_id|intros x_Port].
    dec_field (fun x : gostring => x); [apply dec_if_link; [apply dmap_id|reflexivity]|intros x_Rack].
    intros d; reflexivity.
Qed.
Local Opaque MetadataResponseBroker3_Size MetadataResponseBroker3_Encode MetadataResponseBroker3_Decode.

(** ** MetadataResponsePartition3 *)

(** message/messages.gen.go:1864-1872 *)
Record MetadataResponsePartition3 : Type := mkMetadataResponsePartition3 { MetadataResponsePartition3_ErrorCode : Z; MetadataResponsePartition3_PartitionIndex : Z; MetadataResponsePartition3_LeaderId : Z; MetadataResponsePartition3_LeaderEpoch : Z; MetadataResponsePartition3_ReplicaNodes : gslice Z; MetadataResponsePartition3_IsrNodes : gslice Z; MetadataResponsePartition3_OfflineReplicas : gslice Z }.
(** the zero value ([var item MetadataResponsePartition3]) *)
Definition MetadataResponsePartition3_zero : MetadataResponsePartition3 := mkMetadataResponsePartition3 0 0 0 0 None None None.
(** message/messages.gen.go:1875-1889 *)
Definition MetadataResponsePartition3_Size (version : Z) (t : MetadataResponsePartition3) : Z :=
  ((size_add sz_Int16) +>
   (size_add sz_Int32) +>
   (size_add sz_Int32) +>
   size_if (7 <=? version) (size_add sz_Int32) +>
   (size_add (sz_Int32Array (MetadataResponsePartition3_ReplicaNodes t))) +>
   (size_add (sz_Int32Array (MetadataResponsePartition3_IsrNodes t))) +>
   size_if (5 <=? version) (size_add (sz_Int32Array (MetadataResponsePartition3_OfflineReplicas t))) +>
   size_done)%size 0.
(** message/messages.gen.go:1892-1904 *)
Definition MetadataResponsePartition3_Encode (version : Z) (t : MetadataResponsePartition3) : Encoder -> Encoder :=
  ((PutInt16 (MetadataResponsePartition3_ErrorCode t)) >>
   (PutInt32 (MetadataResponsePartition3_PartitionIndex t)) >>
   (PutInt32 (MetadataResponsePartition3_LeaderId t)) >>
   put_if (7 <=? version) (PutInt32 (MetadataResponsePartition3_LeaderEpoch t)) >>
   (PutInt32Array (MetadataResponsePartition3_ReplicaNodes t)) >>
   (PutInt32Array (MetadataResponsePartition3_IsrNodes t)) >>
   put_if (5 <=? version) (PutInt32Array (MetadataResponsePartition3_OfflineReplicas t)) >>
   skip)%enc.
(** message/messages.gen.go:1907-1942 *)
Definition MetadataResponsePartition3_Decode (version : Z) (t : MetadataResponsePartition3) : Dec MetadataResponsePartition3 :=
  x_ErrorCode <- dInt16 ;;
  x_PartitionIndex <- dInt32 ;;
  x_LeaderId <- dInt32 ;;
  x_LeaderEpoch <- dec_if (7 <=? version) dInt32 (MetadataResponsePartition3_LeaderEpoch t) ;;
  x_ReplicaNodes <- dInt32Array ;;
  x_IsrNodes <- dInt32Array ;;
  x_OfflineReplicas <- dec_if (5 <=? version) dInt32Array (MetadataResponsePartition3_OfflineReplicas t) ;;
  ret (mkMetadataResponsePartition3 x_ErrorCode x_PartitionIndex x_LeaderId x_LeaderEpoch x_ReplicaNodes x_IsrNodes x_OfflineReplicas).
(** the struct declaration read as a schema; version ranges as in Size *)
Definition MetadataResponsePartition3_schema : fields :=
  FCons "ErrorCode" Always TInt16
  (FCons "PartitionIndex" Always TInt32
  (FCons "LeaderId" Always TInt32
  (FCons "LeaderEpoch" (From 7) TInt32
  (FCons "ReplicaNodes" Always TInt32Array
  (FCons "IsrNodes" Always TInt32Array
  (FCons "OfflineReplicas" (From 5) TInt32Array FNil)))))).
Definition MetadataResponsePartition3_to (t : MetadataResponsePartition3) : dens MetadataResponsePartition3_schema := (MetadataResponsePartition3_ErrorCode t, (MetadataResponsePartition3_PartitionIndex t, (MetadataResponsePartition3_LeaderId t, (MetadataResponsePartition3_LeaderEpoch t, (MetadataResponsePartition3_ReplicaNodes t, (MetadataResponsePartition3_IsrNodes t, (MetadataResponsePartition3_OfflineReplicas t, tt))))))).
Definition MetadataResponsePartition3_of (x : dens MetadataResponsePartition3_schema) : MetadataResponsePartition3 := mkMetadataResponsePartition3 (fst x) (fst (snd x)) (fst (snd (snd x))) (fst (snd (snd (snd x)))) (fst (snd (snd (snd (snd x))))) (fst (snd (snd (snd (snd (snd x)))))) (fst (snd (snd (snd (snd (snd (snd x))))))).
Definition MetadataResponsePartition3_codec : codec := Codec MetadataResponsePartition3 MetadataResponsePartition3_zero MetadataResponsePartition3_Size MetadataResponsePartition3_Encode MetadataResponsePartition3_Decode MetadataResponsePartition3_schema MetadataResponsePartition3_to MetadataResponsePartition3_of.
Lemma MetadataResponsePartition3_linked : linked MetadataResponsePartition3_codec.
Proof.
  apply Linked; cbn [MetadataResponsePartition3_codec c_type c_zero c_size c_encode c_decode c_schema c_to c_of].
  - intros t. destruct t. cbv [MetadataResponsePartition3_of MetadataResponsePartition3_to]. cbn [fst snd MetadataResponsePartition3_ErrorCode MetadataResponsePartition3_PartitionIndex MetadataResponsePartition3_LeaderId MetadataResponsePartition3_LeaderEpoch MetadataResponsePartition3_ReplicaNodes MetadataResponsePartition3_IsrNodes MetadataResponsePartition3_OfflineReplicas].  reflexivity.
  - intros x. unfold MetadataResponsePartition3_schema in x. cbn [dens den] in x. destruct x as [x0 x]. destruct x as [x1 x]. destruct x as [x2 x]. destruct x as [x3 x]. destruct x as [x4 x]. destruct x as [x5 x]. destruct x as [x6 x]. destruct x. cbv [MetadataResponsePartition3_of MetadataResponsePartition3_to]. cbn [fst snd MetadataResponsePartition3_ErrorCode MetadataResponsePartition3_PartitionIndex MetadataResponsePartition3_LeaderId MetadataResponsePartition3_LeaderEpoch MetadataResponsePartition3_ReplicaNodes MetadataResponsePartition3_IsrNodes MetadataResponsePartition3_OfflineReplicas].  reflexivity.
  - reflexivity.
  - intros v t. unfold MetadataResponsePartition3_Size, MetadataResponsePartition3_schema, MetadataResponsePartition3_to. apply size_start.
    apply size_step; [intros sz; reflexivity|].
    apply size_step; [intros sz; reflexivity|].
    apply size_step; [intros sz; reflexivity|].
    apply size_step; [intros sz; reflexivity|].
    apply size_step; [intros sz; reflexivity|].
    apply size_step; [intros sz; reflexivity|].
    apply size_step; [intros sz; reflexivity|].
    intros sz; reflexivity.
  - intros v t. unfold MetadataResponsePartition3_Encode, MetadataResponsePartition3_schema, MetadataResponsePartition3_to.
    apply enc_step; [intros e; reflexivity|].
    apply enc_step; [intros e; reflexivity|].
    apply enc_step; [intros e; reflexivity|].
    apply enc_step; [intros e; reflexivity|].
    apply enc_step; [intros e; reflexivity|].
    apply enc_step; [intros e; reflexivity|].
    apply enc_step; [intros e; reflexivity|].
    intros e; reflexivity.
  - intros v t. unfold MetadataResponsePartition3_Decode, MetadataResponsePartition3_schema, MetadataResponsePartition3_to.
    dec_field (fun x : Z => x); [apply dmap_id|intros x_ErrorCode].
    dec_field (fun x : Z => x); [apply dmap_id|intros x_PartitionIndex].
    dec_field (fun x : Z => x); [apply dmap_id|intros x_LeaderId].
    dec_field (fun x : Z => x); [apply dec_if_link; [apply dmap_id|reflexivity]|intros x_LeaderEpoch].
    dec_field (fun x : gslice Z => x); [apply dmap_id|intros x_ReplicaNodes].
    dec_field (fun x : gslice Z => x); [apply dmap_id|intros x_IsrNodes].
    dec_field (fun x : gslice Z => x); [apply dec_if_link; [apply dmap_id|reflexivity]|intros x_OfflineReplicas].
    intros d; reflexivity.
Qed.
Local Opaque MetadataResponsePartition3_Size MetadataResponsePartition3_Encode MetadataResponsePartition3_Decode.

(** ** MetadataResponseTopic3 *)

(** message/messages.gen.go:1781-1787 *)
Record MetadataResponseTopic3 : Type := mkMetadataResponseTopic3 { MetadataResponseTopic3_ErrorCode : Z; MetadataResponseTopic3_Name : gostring; MetadataResponseTopic3_IsInternal : bool; MetadataResponseTopic3_Partitions : gslice MetadataResponsePartition3; MetadataResponseTopic3_TopicAuthorizedOperations : Z }.
(** the zero value ([var item MetadataResponseTopic3]) *)
Definition MetadataResponseTopic3_zero : MetadataResponseTopic3 := mkMetadataResponseTopic3 0 [] false None 0.
(** message/messages.gen.go:1790-1805 *)
Definition MetadataResponseTopic3_Size (version : Z) (t : MetadataResponseTopic3) : Z :=
  ((size_add sz_Int16) +>
   (size_add (sz_String (MetadataResponseTopic3_Name t))) +>
   size_if (1 <=? version) (size_add sz_Bool) +>
   (size_loop (MetadataResponsePartition3_Size version) (MetadataResponseTopic3_Partitions t)) +>
   size_if (8 <=? version) (size_add sz_Int32) +>
   size_done)%size 0.
(** message/messages.gen.go:1808-1823 *)
Definition MetadataResponseTopic3_Encode (version : Z) (t : MetadataResponseTopic3) : Encoder -> Encoder :=
  ((PutInt16 (MetadataResponseTopic3_ErrorCode t)) >>
   (PutString (MetadataResponseTopic3_Name t)) >>
   put_if (1 <=? version) (PutBool (MetadataResponseTopic3_IsInternal t)) >>
   (put_array (MetadataResponsePartition3_Encode version) (MetadataResponseTopic3_Partitions t)) >>
   put_if (8 <=? version) (PutInt32 (MetadataResponseTopic3_TopicAuthorizedOperations t)) >>
   skip)%enc.
(** message/messages.gen.go:1826-1862 *)
Definition MetadataResponseTopic3_Decode (version : Z) (t : MetadataResponseTopic3) : Dec MetadataResponseTopic3 :=
  x_ErrorCode <- dInt16 ;;
  x_Name <- dString ;;
  x_IsInternal <- dec_if (1 <=? version) dBool (MetadataResponseTopic3_IsInternal t) ;;
  x_Partitions <- (dec_array (MetadataResponsePartition3_Decode version MetadataResponsePartition3_zero) (MetadataResponseTopic3_Partitions t)) ;;
  x_TopicAuthorizedOperations <- dec_if (8 <=? version) dInt32 (MetadataResponseTopic3_TopicAuthorizedOperations t) ;;
  ret (mkMetadataResponseTopic3 x_ErrorCode x_Name x_IsInternal x_Partitions x_TopicAuthorizedOperations).
(** the struct declaration read as a schema; version ranges as in Size *)
Definition MetadataResponseTopic3_schema : fields :=
  FCons "ErrorCode" Always TInt16
  (FCons "Name" Always TString
  (FCons "IsInternal" (From 1) TBool
  (FCons "Partitions" Always (TArray MetadataResponsePartition3_schema)
  (FCons "TopicAuthorizedOperations" (From 8) TInt32 FNil)))).
Definition MetadataResponseTopic3_to (t : MetadataResponseTopic3) : dens MetadataResponseTopic3_schema := (MetadataResponseTopic3_ErrorCode t, (MetadataResponseTopic3_Name t, (MetadataResponseTopic3_IsInternal t, (option_map (map MetadataResponsePartition3_to) (MetadataResponseTopic3_Partitions t), (MetadataResponseTopic3_TopicAuthorizedOperations t, tt))))).
Definition MetadataResponseTopic3_of (x : dens MetadataResponseTopic3_schema) : MetadataResponseTopic3 := mkMetadataResponseTopic3 (fst x) (fst (snd x)) (fst (snd (snd x))) (option_map (map MetadataResponsePartition3_of) (fst (snd (snd (snd x))))) (fst (snd (snd (snd (snd x))))).
Definition MetadataResponseTopic3_codec : codec := Codec MetadataResponseTopic3 MetadataResponseTopic3_zero MetadataResponseTopic3_Size MetadataResponseTopic3_Encode MetadataResponseTopic3_Decode MetadataResponseTopic3_schema MetadataResponseTopic3_to MetadataResponseTopic3_of.
Lemma MetadataResponseTopic3_linked : linked MetadataResponseTopic3_codec.
Proof.
  apply Linked; cbn [MetadataResponseTopic3_codec c_type c_zero c_size c_encode c_decode c_schema c_to c_of].
  - intros t. destruct t. cbv [MetadataResponseTopic3_of MetadataResponseTopic3_to]. cbn [fst snd MetadataResponseTopic3_ErrorCode MetadataResponseTopic3_Name MetadataResponseTopic3_IsInternal MetadataResponseTopic3_Partitions MetadataResponseTopic3_TopicAuthorizedOperations]. rewrite ?(option_map_map_inv MetadataResponsePartition3_to MetadataResponsePartition3_of _ (l_of_to _ MetadataResponsePartition3_linked)). reflexivity.
  - intros x. unfold MetadataResponseTopic3_schema in x. cbn [dens den] in x. destruct x as [x0 x]. destruct x as [x1 x]. destruct x as [x2 x]. destruct x as [x3 x]. destruct x as [x4 x]. destruct x. cbv [MetadataResponseTopic3_of MetadataResponseTopic3_to]. cbn [fst snd MetadataResponseTopic3_ErrorCode MetadataResponseTopic3_Name MetadataResponseTopic3_IsInternal MetadataResponseTopic3_Partitions MetadataResponseTopic3_TopicAuthorizedOperations]. rewrite ?(option_map_map_inv MetadataResponsePartition3_of MetadataResponsePartition3_to _ (l_to_of _ MetadataResponsePartition3_linked)). reflexivity.
  - reflexivity.
  - intros v t. unfold MetadataResponseTopic3_Size, MetadataResponseTopic3_schema, MetadataResponseTopic3_to. apply size_start.
    apply size_step; [intros sz; reflexivity|].
    apply size_step; [intros sz; reflexivity|].
    apply size_step; [intros sz; reflexivity|].
    apply size_step; [intros sz; apply (size_field_link (MetadataResponsePartition3_Size v) MetadataResponsePartition3_schema MetadataResponsePartition3_to v (l_size _ MetadataResponsePartition3_linked v) true)|].
    apply size_step; [intros sz; reflexivity|].
    intros sz; reflexivity.
  - intros v t. unfold MetadataResponseTopic3_Encode, MetadataResponseTopic3_schema, MetadataResponseTopic3_to.
    apply enc_step; [intros e; reflexivity|].
    apply enc_step; [intros e; reflexivity|].
    apply enc_step; [intros e; reflexivity|].
    apply enc_step; [intros e; apply (put_field_link (MetadataResponsePartition3_Encode v) MetadataResponsePartition3_schema MetadataResponsePartition3_to v (l_encode _ MetadataResponsePartition3_linked v) true)|].
    apply enc_step; [intros e; reflexivity|].
    intros e; reflexivity.
  - intros v t. unfold MetadataResponseTopic3_Decode, MetadataResponseTopic3_schema, MetadataResponseTopic3_to.
    dec_field (fun x : Z => x); [apply dmap_id|intros x_ErrorCode].
    dec_field (fun x : gostring => x); [apply dmap_id|intros x_Name].
    dec_field (fun x : bool => x); [apply dec_if_link; [apply dmap_id|reflexivity]|intros x_IsInternal].
    dec_field (option_map (map MetadataResponsePartition3_of)); [apply (dec_array_link _ _ MetadataResponsePartition3_of MetadataResponsePartition3_to (l_decode _ MetadataResponsePartition3_linked v MetadataResponsePartition3_zero) (l_of_to _ MetadataResponsePartition3_linked))|intros x_Partitions].
    dec_field (fun x : Z => x); [apply dec_if_link; [apply dmap_id|reflexivity]|intros x_TopicAuthorizedOperations].
    intros d; reflexivity.
Qed.
Local Opaque MetadataResponseTopic3_Size MetadataResponseTopic3_Encode MetadataResponseTopic3_Decode.

(** ** MetadataResponse *)

(** message/messages.gen.go:1609-1616 *)
Record MetadataResponse : Type := mkMetadataResponse { MetadataResponse_ThrottleTimeMs : Z; MetadataResponse_Brokers : gslice MetadataResponseBroker3; MetadataResponse_ClusterId : gostring; MetadataResponse_ControllerId : Z; MetadataResponse_Topics : gslice MetadataResponseTopic3; MetadataResponse_ClusterAuthorizedOperations : Z }.
(** the zero value ([var item MetadataResponse]) *)
Definition MetadataResponse_zero : MetadataResponse := mkMetadataResponse 0 None [] 0 None 0.
(** message/messages.gen.go:1619-1642 *)
Definition MetadataResponse_Size (version : Z) (t : MetadataResponse) : Z :=
  (size_if (3 <=? version) (size_add sz_Int32) +>
   (size_loop (MetadataResponseBroker3_Size version) (MetadataResponse_Brokers t)) +>
   size_if (2 <=? version) (size_add (sz_String (MetadataResponse_ClusterId t))) +>
   size_if (1 <=? version) (size_add sz_Int32) +>
   (size_loop (MetadataResponseTopic3_Size version) (MetadataResponse_Topics t)) +>
   size_if (8 <=? version) (size_add sz_Int32) +>
   size_done)%size 0.
(** message/messages.gen.go:1645-1670 *)
Definition MetadataResponse_Encode (version : Z) (t : MetadataResponse) : Encoder -> Encoder :=
  (put_if (3 <=? version) (PutInt32 (MetadataResponse_ThrottleTimeMs t)) >>
   (put_array (MetadataResponseBroker3_Encode version) (MetadataResponse_Brokers t)) >>
   put_if (2 <=? version) (PutString (MetadataResponse_ClusterId t)) >>
   put_if (1 <=? version) (PutInt32 (MetadataResponse_ControllerId t)) >>
   (put_array (MetadataResponseTopic3_Encode version) (MetadataResponse_Topics t)) >>
   put_if (8 <=? version) (PutInt32 (MetadataResponse_ClusterAuthorizedOperations t)) >>
   skip)%enc.
(** message/messages.gen.go:1673-1726 *)
Definition MetadataResponse_Decode (version : Z) (t : MetadataResponse) : Dec MetadataResponse :=
  x_ThrottleTimeMs <- dec_if (3 <=? version) dInt32 (MetadataResponse_ThrottleTimeMs t) ;;
  x_Brokers <- (dec_array (MetadataResponseBroker3_Decode version MetadataResponseBroker3_zero) (MetadataResponse_Brokers t)) ;;
  x_ClusterId <- dec_if (2 <=? version) dString (MetadataResponse_ClusterId t) ;;
  x_ControllerId <- dec_if (1 <=? version) dInt32 (MetadataResponse_ControllerId t) ;;
  x_Topics <- (dec_array (MetadataResponseTopic3_Decode version MetadataResponseTopic3_zero) (MetadataResponse_Topics t)) ;;
  x_ClusterAuthorizedOperations <- dec_if (8 <=? version) dInt32 (MetadataResponse_ClusterAuthorizedOperations t) ;;
  ret (mkMetadataResponse x_ThrottleTimeMs x_Brokers x_ClusterId x_ControllerId x_Topics x_ClusterAuthorizedOperations).
(** the struct declaration read as a schema; version ranges as in Size *)
Definition MetadataResponse_schema : fields :=
  FCons "ThrottleTimeMs" (From 3) TInt32
  (FCons "Brokers" Always (TArray MetadataResponseBroker3_schema)
  (FCons "ClusterId" (From 2) TString
  (FCons "ControllerId" (From 1) TInt32
  (FCons "Topics" Always (TArray MetadataResponseTopic3_schema)
  (FCons "ClusterAuthorizedOperations" (From 8) TInt32 FNil))))).
Definition MetadataResponse_to (t : MetadataResponse) : dens MetadataResponse_schema := (MetadataResponse_ThrottleTimeMs t, (option_map (map MetadataResponseBroker3_to) (MetadataResponse_Brokers t), (MetadataResponse_ClusterId t, (MetadataResponse_ControllerId t, (option_map (map MetadataResponseTopic3_to) (MetadataResponse_Topics t), (MetadataResponse_ClusterAuthorizedOperations t, tt)))))).
Definition MetadataResponse_of (x : dens MetadataResponse_schema) : MetadataResponse := mkMetadataResponse (fst x) (option_map (map MetadataResponseBroker3_of) (fst (snd x))) (fst (snd (snd x))) (fst (snd (snd (snd x)))) (option_map (map MetadataResponseTopic3_of) (fst (snd (snd (snd (snd x)))))) (fst (snd (snd (snd (snd (snd x)))))).
Definition MetadataResponse_codec : codec := Codec MetadataResponse MetadataResponse_zero MetadataResponse_Size MetadataResponse_Encode MetadataResponse_Decode MetadataResponse_schema MetadataResponse_to MetadataResponse_of.
Lemma MetadataResponse_linked : linked MetadataResponse_codec.
Proof.
  apply Linked; cbn [MetadataResponse_codec c_type c_zero c_size c_encode c_decode c_schema c_to c_of].
  - intros t. destruct t. cbv [MetadataResponse_of MetadataResponse_to]. cbn [fst snd MetadataResponse_ThrottleTimeMs MetadataResponse_Brokers MetadataResponse_ClusterId MetadataResponse_ControllerId MetadataResponse_Topics MetadataResponse_ClusterAuthorizedOperations]. rewrite ?(option_map_map_inv MetadataResponseBroker3_to MetadataResponseBroker3_of _ (l_of_to _ MetadataResponseBroker3_linked)). rewrite ?(option_map_map_inv MetadataResponseTopic3_to MetadataResponseTopic3_of _ (l_of_to _ MetadataResponseTopic3_linked)). reflexivity.
  - intros x. unfold MetadataResponse_schema in x. cbn [dens den] in x. destruct x as [x0 x]. destruct x as [x1 x]. destruct x as [x2 x]. destruct x as [x3 x]. destruct x as [x4 x]. destruct x as [x5 x]. destruct x. cbv [MetadataResponse_of MetadataResponse_to]. cbn [fst snd MetadataResponse_ThrottleTimeMs MetadataResponse_Brokers MetadataResponse_ClusterId MetadataResponse_ControllerId MetadataResponse_Topics MetadataResponse_ClusterAuthorizedOperations]. rewrite ?(option_map_map_inv MetadataResponseBroker3_of MetadataResponseBroker3_to _ (l_to_of _ MetadataResponseBroker3_linked)). rewrite ?(option_map_map_inv MetadataResponseTopic3_of MetadataResponseTopic3_to _ (l_to_of _ MetadataResponseTopic3_linked)). reflexivity.
  - reflexivity.
  - intros v t. unfold MetadataResponse_Size, MetadataResponse_schema, MetadataResponse_to. apply size_start.
    apply size_step; [intros sz; reflexivity|].
    apply size_step; [intros sz; apply (size_field_link (MetadataResponseBroker3_Size v) MetadataResponseBroker3_schema MetadataResponseBroker3_to v (l_size _ MetadataResponseBroker3_linked v) true)|].
    apply size_step; [intros sz; reflexivity|].
    apply size_step; [intros sz; reflexivity|].
    apply size_step; [intros sz; apply (size_field_link (MetadataResponseTopic3_Size v) MetadataResponseTopic3_schema MetadataResponseTopic3_to v (l_size _ MetadataResponseTopic3_linked v) true)|].
    apply size_step; [intros sz; reflexivity|].
    intros sz; reflexivity.
  - intros v t. unfold MetadataResponse_Encode, MetadataResponse_schema, MetadataResponse_to.
    apply enc_step; [intros e; reflexivity|].
    apply enc_step; [intros e; apply (put_field_link (MetadataResponseBroker3_Encode v) MetadataResponseBroker3_schema MetadataResponseBroker3_to v (l_encode _ MetadataResponseBroker3_linked v) true)|].
    apply enc_step; [intros e; reflexivity|].
    apply enc_step; [intros e; reflexivity|].
    apply enc_step; [intros e; apply (put_field_link (MetadataResponseTopic3_Encode v) MetadataResponseTopic3_schema MetadataResponseTopic3_to v (l_encode _ MetadataResponseTopic3_linked v) true)|].
    apply enc_step; [intros e; reflexivity|].
    intros e; reflexivity.
  - intros v t. unfold MetadataResponse_Decode, MetadataResponse_schema, MetadataResponse_to.
    dec_field (fun x : Z => x); [apply dec_if_link; [apply dmap_id|reflexivity]|intros x_ThrottleTimeMs].
    dec_field (option_map (map MetadataResponseBroker3_of)); [apply (dec_array_link _ _ MetadataResponseBroker3_of MetadataResponseBroker3_to (l_decode _ MetadataResponseBroker3_linked v MetadataResponseBroker3_zero) (l_of_to _ MetadataResponseBroker3_linked))|intros x_Brokers].
    dec_field (fun x : gostring => x); [apply dec_if_link; [apply dmap_id|reflexivity]|intros x_ClusterId].
    dec_field (fun x : Z => x); [apply dec_if_link; [apply dmap_id|reflexivity]|intros x_ControllerId].
    dec_field (option_map (map MetadataResponseTopic3_of)); [apply (dec_array_link _ _ MetadataResponseTopic3_of MetadataResponseTopic3_to (l_decode _ MetadataResponseTopic3_linked v MetadataResponseTopic3_zero) (l_of_to _ MetadataResponseTopic3_linked))|intros x_Topics].
    dec_field (fun x : Z => x); [apply dec_if_link; [apply dmap_id|reflexivity]|intros x_ClusterAuthorizedOperations].
    intros d; reflexivity.
Qed.
Local Opaque MetadataResponse_Size MetadataResponse_Encode MetadataResponse_Decode.

(** ** LeaderAndIsrPartitionState4 *)

(** message/messages.gen.go:2177-2189 *)
Record LeaderAndIsrPartitionState4 : Type := mkLeaderAndIsrPartitionState4 { LeaderAndIsrPartitionState4_TopicName : gostring; LeaderAndIsrPartitionState4_PartitionIndex : Z; LeaderAndIsrPartitionState4_ControllerEpoch : Z; LeaderAndIsrPartitionState4_Leader : Z; LeaderAndIsrPartitionState4_LeaderEpoch : Z; LeaderAndIsrPartitionState4_Isr : gslice Z; LeaderAndIsrPartitionState4_ZkVersion : Z; LeaderAndIsrPartitionState4_Replicas : gslice Z; LeaderAndIsrPartitionState4_AddingReplicas : gslice Z; LeaderAndIsrPartitionState4_RemovingReplicas : gslice Z; LeaderAndIsrPartitionState4_IsNew : bool }.
(** the zero value ([var item LeaderAndIsrPartitionState4]) *)
Definition LeaderAndIsrPartitionState4_zero : LeaderAndIsrPartitionState4 := mkLeaderAndIsrPartitionState4 [] 0 0 0 0 None 0 None None None false.
(** message/messages.gen.go:2192-2214 *)
Definition LeaderAndIsrPartitionState4_Size (version : Z) (t : LeaderAndIsrPartitionState4) : Z :=
  (size_if ((0 <=? version) && (version <=? 1)) (size_add (sz_String (LeaderAndIsrPartitionState4_TopicName t))) +>
   (size_add sz_Int32) +>
   (size_add sz_Int32) +>
   (size_add sz_Int32) +>
   (size_add sz_Int32) +>
   (size_add (sz_Int32Array (LeaderAndIsrPartitionState4_Isr t))) +>
   (size_add sz_Int32) +>
   (size_add (sz_Int32Array (LeaderAndIsrPartitionState4_Replicas t))) +>
   size_if (3 <=? version) (size_add (sz_Int32Array (LeaderAndIsrPartitionState4_AddingReplicas t))) +>
   size_if (3 <=? version) (size_add (sz_Int32Array (LeaderAndIsrPartitionState4_RemovingReplicas t))) +>
   size_if (1 <=? version) (size_add sz_Bool) +>
   size_done)%size 0.
(** message/messages.gen.go:2217-2237 *)
Definition LeaderAndIsrPartitionState4_Encode (version : Z) (t : LeaderAndIsrPartitionState4) : Encoder -> Encoder :=
  (put_if ((0 <=? version) && (version <=? 1)) (PutString (LeaderAndIsrPartitionState4_TopicName t)) >>
   (PutInt32 (LeaderAndIsrPartitionState4_PartitionIndex t)) >>
   (PutInt32 (LeaderAndIsrPartitionState4_ControllerEpoch t)) >>
   (PutInt32 (LeaderAndIsrPartitionState4_Leader t)) >>
   (PutInt32 (LeaderAndIsrPartitionState4_LeaderEpoch t)) >>
   (PutInt32Array (LeaderAndIsrPartitionState4_Isr t)) >>
   (PutInt32 (LeaderAndIsrPartitionState4_ZkVersion t)) >>
   (PutInt32Array (LeaderAndIsrPartitionState4_Replicas t)) >>
   put_if (3 <=? version) (PutInt32Array (LeaderAndIsrPartitionState4_AddingReplicas t)) >>
   put_if (3 <=? version) (PutInt32Array (LeaderAndIsrPartitionState4_RemovingReplicas t)) >>
   put_if (1 <=? version) (PutBool (LeaderAndIsrPartitionState4_IsNew t)) >>
   skip)%enc.
(** message/messages.gen.go:2240-2295 *)
Definition LeaderAndIsrPartitionState4_Decode (version : Z) (t : LeaderAndIsrPartitionState4) : Dec LeaderAndIsrPartitionState4 :=
  x_TopicName <- dec_if ((0 <=? version) && (version <=? 1)) dString (LeaderAndIsrPartitionState4_TopicName t) ;;
  x_PartitionIndex <- dInt32 ;;
  x_ControllerEpoch <- dInt32 ;;
  x_Leader <- dInt32 ;;
  x_LeaderEpoch <- dInt32 ;;
  x_Isr <- dInt32Array ;;
  x_ZkVersion <- dInt32 ;;
  x_Replicas <- dInt32Array ;;
  x_AddingReplicas <- dec_if (3 <=? version) dInt32Array (LeaderAndIsrPartitionState4_AddingReplicas t) ;;
  x_RemovingReplicas <- dec_if (3 <=? version) dInt32Array (LeaderAndIsrPartitionState4_RemovingReplicas t) ;;
  x_IsNew <- dec_if (1 <=? version) dBool (LeaderAndIsrPartitionState4_IsNew t) ;;
  ret (mkLeaderAndIsrPartitionState4 x_TopicName x_PartitionIndex x_ControllerEpoch x_Leader x_LeaderEpoch x_Isr x_ZkVersion x_Replicas x_AddingReplicas x_RemovingReplicas x_IsNew).
(** the struct declaration read as a schema; version ranges as in Size *)
Definition LeaderAndIsrPartitionState4_schema : fields :=
  FCons "TopicName" (Between 0 1) TString
  (FCons "PartitionIndex" Always TInt32
  (FCons "ControllerEpoch" Always TInt32
  (FCons "Leader" Always TInt32
  (FCons "LeaderEpoch" Always TInt32
  (FCons "Isr" Always TInt32Array
  (FCons "ZkVersion" Always TInt32
  (FCons "Replicas" Always TInt32Array
  (FCons "AddingReplicas" (From 3) TInt32Array
  (FCons "RemovingReplicas" (From 3) TInt32Array
  (FCons "IsNew" (From 1) TBool FNil)))))))))).
Definition LeaderAndIsrPartitionState4_to (t : LeaderAndIsrPartitionState4) : dens LeaderAndIsrPartitionState4_schema := (LeaderAndIsrPartitionState4_TopicName t, (LeaderAndIsrPartitionState4_PartitionIndex t, (LeaderAndIsrPartitionState4_ControllerEpoch t, (LeaderAndIsrPartitionState4_Leader t, (LeaderAndIsrPartitionState4_LeaderEpoch t, (LeaderAndIsrPartitionState4_Isr t, (LeaderAndIsrPartitionState4_ZkVersion t, (LeaderAndIsrPartitionState4_Replicas t, (LeaderAndIsrPartitionState4_AddingReplicas t, (LeaderAndIsrPartitionState4_RemovingReplicas t, (LeaderAndIsrPartitionState4_IsNew t, tt))))))))))).
Definition LeaderAndIsrPartitionState4_of (x : dens LeaderAndIsrPartitionState4_schema) : LeaderAndIsrPartitionState4 := mkLeaderAndIsrPartitionState4 (fst x) (fst (snd x)) (fst (snd (snd x))) (fst (snd (snd (snd x)))) (fst (snd (snd (snd (snd x))))) (fst (snd (snd (snd (snd (snd x)))))) (fst (snd (snd (snd (snd (snd (snd x))))))) (fst (snd (snd (snd (snd (snd (snd (snd x)))))))) (fst (snd (snd (snd (snd (snd (snd (snd (snd x))))))))) (fst (snd (snd (snd (snd (snd (snd (snd (snd (snd x)))))))))) (fst (snd (snd (snd (snd (snd (snd (snd (snd (snd (snd x))))))))))).
Definition LeaderAndIsrPartitionState4_codec : codec := Codec LeaderAndIsrPartitionState4 LeaderAndIsrPartitionState4_zero LeaderAndIsrPartitionState4_Size LeaderAndIsrPartitionState4_Encode LeaderAndIsrPartitionState4_Decode LeaderAndIsrPartitionState4_schema LeaderAndIsrPartitionState4_to LeaderAndIsrPartitionState4_of.
Lemma LeaderAndIsrPartitionState4_linked : linked LeaderAndIsrPartitionState4_codec.
Proof.
  apply Linked; cbn [LeaderAndIsrPartitionState4_codec c_type c_zero c_size c_encode c_decode c_schema c_to c_of].
  - intros t. destruct t. cbv [LeaderAndIsrPartitionState4_of LeaderAndIsrPartitionState4_to]. cbn [fst snd LeaderAndIsrPartitionState4_TopicName LeaderAndIsrPartitionState4_PartitionIndex LeaderAndIsrPartitionState4_ControllerEpoch LeaderAndIsrPartitionState4_Leader LeaderAndIsrPartitionState4_LeaderEpoch LeaderAndIsrPartitionState4_Isr LeaderAndIsrPartitionState4_ZkVersion LeaderAndIsrPartitionState4_Replicas LeaderAndIsrPartitionState4_AddingReplicas LeaderAndIsrPartitionState4_RemovingReplicas LeaderAndIsrPartitionState4_IsNew].  reflexivity.
  - intros x. unfold LeaderAndIsrPartitionState4_schema in x. cbn [dens den] in x. destruct x as [x0 x]. destruct x as [x1 x]. destruct x as [x2 x]. destruct x as [x3 x]. destruct x as [x4 x]. destruct x as [x5 x]. destruct x as [x6 x]. destruct x as [x7 x]. destruct x as [x8 x]. destruct x as [x9 x]. destruct x as [x10 x]. destruct x. cbv [LeaderAndIsrPartitionState4_of LeaderAndIsrPartitionState4_to]. cbn [fst snd LeaderAndIsrPartitionState4_TopicName LeaderAndIsrPartitionState4_PartitionIndex LeaderAndIsrPartitionState4_ControllerEpoch LeaderAndIsrPartitionState4_Leader LeaderAndIsrPartitionState4_LeaderEpoch LeaderAndIsrPartitionState4_Isr LeaderAndIsrPartitionState4_ZkVersion LeaderAndIsrPartitionState4_Replicas LeaderAndIsrPartitionState4_AddingReplicas LeaderAndIsrPartitionState4_RemovingReplicas LeaderAndIsrPartitionState4_IsNew].  reflexivity.
  - reflexivity.
  - intros v t. unfold LeaderAndIsrPartitionState4_Size, LeaderAndIsrPartitionState4_schema, LeaderAndIsrPartitionState4_to. apply size_start.
    apply size_step; [intros sz; reflexivity|].
    apply size_step; [intros sz; reflexivity|].
    apply size_step; [intros sz; reflexivity|].
    apply size_step; [intros sz; reflexivity|].
    apply size_step; [intros sz; reflexivity|].
    apply size_step; [intros sz; reflexivity|].
    apply size_step; [intros sz; reflexivity|].
    apply size_step; [intros sz; reflexivity|].
    apply size_step; [intros sz; reflexivity|].
    apply size_step; [intros sz; reflexivity|].
    apply size_step; [intros sz; reflexivity|].
    intros sz; reflexivity.
  - intros v t. unfold LeaderAndIsrPartitionState4_Encode, LeaderAndIsrPartitionState4_schema, LeaderAndIsrPartitionState4_to.
    apply enc_step; [intros e; reflexivity|].
    apply enc_step; [intros e; reflexivity|].
    apply enc_step; [intros e; reflexivity|].
    apply enc_step; [intros e; reflexivity|].
    apply enc_step; [intros e; reflexivity|].
    apply enc_step; [intros e; reflexivity|].
    apply enc_step; [intros e; reflexivity|].
    apply enc_step; [intros e; reflexivity|].
    apply enc_step; [intros e; reflexivity|].
    apply enc_step; [intros e; reflexivity|].
    apply enc_step; [intros e; reflexivity|].
    intros e; reflexivity.
  - intros v t. unfold LeaderAndIsrPartitionState4_Decode, LeaderAndIsrPartitionState4_schema, LeaderAndIsrPartitionState4_to.
    dec_field (fun x : gostring => x); [apply dec_if_link; [apply dmap_id|reflexivity]|intros x_TopicName].
    dec_field (fun x : Z => x); [apply dmap_id|intros x_PartitionIndex].
    dec_field (fun x : Z => x); [apply dmap_id|intros x_ControllerEpoch].
    dec_field (fun x : Z => x); [apply dmap_id|intros x_Leader].
    dec_field (fun x : Z => x); [apply dmap_id|intros x_LeaderEpoch].
    dec_field (fun x : gslice Z => x); [apply dmap_id|intros x_Isr].
    dec_field (fun x : Z => x); [apply dmap_id|intros x_ZkVersion].
    dec_field (fun x : gslice Z => x); [apply dmap_id|intros x_Replicas].
    dec_field (fun x : gslice Z => x); [apply dec_if_link; [apply dmap_id|reflexivity]|intros x_AddingReplicas].
    dec_field (fun x : gslice Z => x); [apply dec_if_link; [apply dmap_id|reflexivity]|intros x_RemovingReplicas].
    dec_field (fun x : bool => x); [apply dec_if_link; [apply dmap_id|reflexivity]|intros x_IsNew].
    intros d; reflexivity.
Qed.
Local Opaque LeaderAndIsrPartitionState4_Size LeaderAndIsrPartitionState4_Encode LeaderAndIsrPartitionState4_Decode.

(** ** LeaderAndIsrTopicState4 *)

(** message/messages.gen.go:2075-2078 *)
Record LeaderAndIsrTopicState4 : Type := mkLeaderAndIsrTopicState4 { LeaderAndIsrTopicState4_TopicName : gostring; LeaderAndIsrTopicState4_PartitionStates : gslice LeaderAndIsrPartitionState4 }.
(** the zero value ([var item LeaderAndIsrTopicState4]) *)
Definition LeaderAndIsrTopicState4_zero : LeaderAndIsrTopicState4 := mkLeaderAndIsrTopicState4 [] None.
(** message/messages.gen.go:2081-2093 *)
Definition LeaderAndIsrTopicState4_Size (version : Z) (t : LeaderAndIsrTopicState4) : Z :=
  (size_if (2 <=? version) (size_add (sz_String (LeaderAndIsrTopicState4_TopicName t))) +>
   size_if (2 <=? version) (size_loop (LeaderAndIsrPartitionState4_Size version) (LeaderAndIsrTopicState4_PartitionStates t)) +>
   size_done)%size 0.
(** message/messages.gen.go:2096-2108 *)
Definition LeaderAndIsrTopicState4_Encode (version : Z) (t : LeaderAndIsrTopicState4) : Encoder -> Encoder :=
  (put_if (2 <=? version) (PutString (LeaderAndIsrTopicState4_TopicName t)) >>
   put_if (2 <=? version) (put_array (LeaderAndIsrPartitionState4_Encode version) (LeaderAndIsrTopicState4_PartitionStates t)) >>
   skip)%enc.
(** message/messages.gen.go:2111-2135 *)
Definition LeaderAndIsrTopicState4_Decode (version : Z) (t : LeaderAndIsrTopicState4) : Dec LeaderAndIsrTopicState4 :=
  x_TopicName <- dec_if (2 <=? version) dString (LeaderAndIsrTopicState4_TopicName t) ;;
  x_PartitionStates <- dec_if (2 <=? version) (dec_array (LeaderAndIsrPartitionState4_Decode version LeaderAndIsrPartitionState4_zero) (LeaderAndIsrTopicState4_PartitionStates t)) (LeaderAndIsrTopicState4_PartitionStates t) ;;
  ret (mkLeaderAndIsrTopicState4 x_TopicName x_PartitionStates).
(** the struct declaration read as a schema; version ranges as in Size *)
Definition LeaderAndIsrTopicState4_schema : fields :=
  FCons "TopicName" (From 2) TString
  (FCons "PartitionStates" (From 2) (TArray LeaderAndIsrPartitionState4_schema) FNil).
Definition LeaderAndIsrTopicState4_to (t : LeaderAndIsrTopicState4) : dens LeaderAndIsrTopicState4_schema := (LeaderAndIsrTopicState4_TopicName t, (option_map (map LeaderAndIsrPartitionState4_to) (LeaderAndIsrTopicState4_PartitionStates t), tt)).
Definition LeaderAndIsrTopicState4_of (x : dens LeaderAndIsrTopicState4_schema) : LeaderAndIsrTopicState4 := mkLeaderAndIsrTopicState4 (fst x) (option_map (map LeaderAndIsrPartitionState4_of) (fst (snd x))).
Definition LeaderAndIsrTopicState4_codec : codec := Codec LeaderAndIsrTopicState4 LeaderAndIsrTopicState4_zero LeaderAndIsrTopicState4_Size LeaderAndIsrTopicState4_Encode LeaderAndIsrTopicState4_Decode LeaderAndIsrTopicState4_schema LeaderAndIsrTopicState4_to LeaderAndIsrTopicState4_of.
Lemma LeaderAndIsrTopicState4_linked : linked LeaderAndIsrTopicState4_codec.
Proof.
  apply Linked; cbn [LeaderAndIsrTopicState4_codec c_type c_zero c_size c_encode c_decode c_schema c_to c_of].
  - intros t. destruct t. cbv [LeaderAndIsrTopicState4_of LeaderAndIsrTopicState4_to]. cbn [fst snd LeaderAndIsrTopicState4_TopicName LeaderAndIsrTopicState4_PartitionStates]. rewrite ?(option_map_map_inv LeaderAndIsrPartitionState4_to LeaderAndIsrPartitionState4_of _ (l_of_to _ LeaderAndIsrPartitionState4_linked)). reflexivity.
  - intros x. unfold LeaderAndIsrTopicState4_schema in x. cbn [dens den] in x. destruct x as [x0 x]. destruct x as [x1 x]. destruct x. cbv [LeaderAndIsrTopicState4_of LeaderAndIsrTopicState4_to]. cbn [fst snd LeaderAndIsrTopicState4_TopicName LeaderAndIsrTopicState4_PartitionStates]. rewrite ?(option_map_map_inv LeaderAndIsrPartitionState4_of LeaderAndIsrPartitionState4_to _ (l_to_of _ LeaderAndIsrPartitionState4_linked)). reflexivity.
  - reflexivity.
  - intros v t. unfold LeaderAndIsrTopicState4_Size, LeaderAndIsrTopicState4_schema, LeaderAndIsrTopicState4_to. apply size_start.
    apply size_step; [intros sz; reflexivity|].
    apply size_step; [intros sz; apply (size_field_link (LeaderAndIsrPartitionState4_Size v) LeaderAndIsrPartitionState4_schema LeaderAndIsrPartitionState4_to v (l_size _ LeaderAndIsrPartitionState4_linked v) _)|].
    intros sz; reflexivity.
  - intros v t. unfold LeaderAndIsrTopicState4_Encode, LeaderAndIsrTopicState4_schema, LeaderAndIsrTopicState4_to.
    apply enc_step; [intros e; reflexivity|].
    apply enc_step; [intros e; apply (put_field_link (LeaderAndIsrPartitionState4_Encode v) LeaderAndIsrPartitionState4_schema LeaderAndIsrPartitionState4_to v (l_encode _ LeaderAndIsrPartitionState4_linked v) _)|].
    intros e; reflexivity.
  - intros v t. unfold LeaderAndIsrTopicState4_Decode, LeaderAndIsrTopicState4_schema, LeaderAndIsrTopicState4_to.
    dec_field (fun x : gostring => x); [apply dec_if_link; [apply dmap_id|reflexivity]|intros x_TopicName].
    dec_field (option_map (map LeaderAndIsrPartitionState4_of)); [apply dec_if_link; [apply (dec_array_link _ _ LeaderAndIsrPartitionState4_of LeaderAndIsrPartitionState4_to (l_decode _ LeaderAndIsrPartitionState4_linked v LeaderAndIsrPartitionState4_zero) (l_of_to _ LeaderAndIsrPartitionState4_linked))|symmetry; apply (option_map_map_inv LeaderAndIsrPartitionState4_to LeaderAndIsrPartitionState4_of _ (l_of_to _ LeaderAndIsrPartitionState4_linked))]|intros x_PartitionStates].
    intros d; reflexivity.
Qed.
Local Opaque LeaderAndIsrTopicState4_Size LeaderAndIsrTopicState4_Encode LeaderAndIsrTopicState4_Decode.

(** ** LeaderAndIsrLiveLeader4 *)

(** message/messages.gen.go:2137-2141 *)
Record LeaderAndIsrLiveLeader4 : Type := mkLeaderAndIsrLiveLeader4 { LeaderAndIsrLiveLeader4_BrokerId : Z; LeaderAndIsrLiveLeader4_HostName : gostring; LeaderAndIsrLiveLeader4_Port : Z }.
(** the zero value ([var item LeaderAndIsrLiveLeader4]) *)
Definition LeaderAndIsrLiveLeader4_zero : LeaderAndIsrLiveLeader4 := mkLeaderAndIsrLiveLeader4 0 [] 0.
(** message/messages.gen.go:2144-2150 *)
Definition LeaderAndIsrLiveLeader4_Size (version : Z) (t : LeaderAndIsrLiveLeader4) : Z :=
  ((size_add sz_Int32) +>
   (size_add (sz_String (LeaderAndIsrLiveLeader4_HostName t))) +>
   (size_add sz_Int32) +>
   size_done)%size 0.
(** message/messages.gen.go:2153-2157 *)
Definition LeaderAndIsrLiveLeader4_Encode (version : Z) (t : LeaderAndIsrLiveLeader4) : Encoder -> Encoder :=
  ((PutInt32 (LeaderAndIsrLiveLeader4_BrokerId t)) >>
   (PutString (LeaderAndIsrLiveLeader4_HostName t)) >>
   (PutInt32 (LeaderAndIsrLiveLeader4_Port t)) >>
   skip)%enc.
(** message/messages.gen.go:2160-2175 *)
Definition LeaderAndIsrLiveLeader4_Decode (version : Z) (t : LeaderAndIsrLiveLeader4) : Dec LeaderAndIsrLiveLeader4 :=
  x_BrokerId <- dInt32 ;;
  x_HostName <- dString ;;
  x_Port <- dInt32 ;;
  ret (mkLeaderAndIsrLiveLeader4 x_BrokerId x_HostName x_Port).
(** the struct declaration read as a schema; version ranges as in Size *)
Definition LeaderAndIsrLiveLeader4_schema : fields :=
  FCons "BrokerId" Always TInt32
  (FCons "HostName" Always TString
  (FCons "Port" Always TInt32 FNil)).
Definition LeaderAndIsrLiveLeader4_to (t : LeaderAndIsrLiveLeader4) : dens LeaderAndIsrLiveLeader4_schema := (LeaderAndIsrLiveLeader4_BrokerId t, (LeaderAndIsrLiveLeader4_HostName t, (LeaderAndIsrLiveLeader4_Port t, tt))).
Definition LeaderAndIsrLiveLeader4_of (x : dens LeaderAndIsrLiveLeader4_schema) : LeaderAndIsrLiveLeader4 := mkLeaderAndIsrLiveLeader4 (fst x) (fst (snd x)) (fst (snd (snd x))).
Definition LeaderAndIsrLiveLeader4_codec : codec := Codec LeaderAndIsrLiveLeader4 LeaderAndIsrLiveLeader4_zero LeaderAndIsrLiveLeader4_Size LeaderAndIsrLiveLeader4_Encode LeaderAndIsrLiveLeader4_Decode LeaderAndIsrLiveLeader4_schema LeaderAndIsrLiveLeader4_to LeaderAndIsrLiveLeader4_of.
Lemma LeaderAndIsrLiveLeader4_linked : linked LeaderAndIsrLiveLeader4_codec.
Proof.
  apply Linked; cbn [LeaderAndIsrLiveLeader4_codec c_type c_zero c_size c_encode c_decode c_schema c_to c_of].
  - intros t. destruct t. cbv [LeaderAndIsrLiveLeader4_of LeaderAndIsrLiveLeader4_to]. cbn [fst snd LeaderAndIsrLiveLeader4_BrokerId LeaderAndIsrLiveLeader4_HostName LeaderAndIsrLiveLeader4_Port].  reflexivity.
  - intros x. unfold LeaderAndIsrLiveLeader4_schema in x. cbn [dens den] in x. destruct x as [x0 x]. destruct x as [x1 x]. destruct x as [x2 x]. destruct x. cbv [LeaderAndIsrLiveLeader4_of LeaderAndIsrLiveLeader4_to]. cbn [fst snd LeaderAndIsrLiveLeader4_BrokerId LeaderAndIsrLiveLeader4_HostName LeaderAndIsrLiveLeader4_Port].  reflexivity.
  - reflexivity.
  - intros v t. unfold LeaderAndIsrLiveLeader4_Size, LeaderAndIsrLiveLeader4_schema, LeaderAndIsrLiveLeader4_to. apply size_start.
    apply size_step; [intros sz; reflexivity|].
    apply size_step; [intros sz; reflexivity|].
    apply size_step; [intros sz; reflexivity|].
    intros sz; reflexivity.
  - intros v t. unfold LeaderAndIsrLiveLeader4_Encode, LeaderAndIsrLiveLeader4_schema, LeaderAndIsrLiveLeader4_to.
    apply enc_step; [intros e; reflexivity|].
    apply enc_step; [intros e; reflexivity|].
    apply enc_step; [intros e; reflexivity|].
    intros e; reflexivity.
  - intros v t. unfold LeaderAndIsrLiveLeader4_Decode, LeaderAndIsrLiveLeader4_schema, LeaderAndIsrLiveLeader4_to.
    dec_field (fun x : Z => x); [apply dmap_id|intros x_BrokerId].
    dec_field (fun x : gostring => x); [apply dmap_id|intros x_HostName].
    dec_field (fun x : Z => x); [apply dmap_id|intros x_Port].
    intros d; reflexivity.
Qed.
Local Opaque LeaderAndIsrLiveLeader4_Size LeaderAndIsrLiveLeader4_Encode LeaderAndIsrLiveLeader4_Decode.

(** ** LeaderAndIsrRequest *)

(** message/messages.gen.go:1945-1952 *)
Record LeaderAndIsrRequest : Type := mkLeaderAndIsrRequest { LeaderAndIsrRequest_ControllerId : Z; LeaderAndIsrRequest_ControllerEpoch : Z; LeaderAndIsrRequest_BrokerEpoch : Z; LeaderAndIsrRequest_UngroupedPartitionStates : gslice LeaderAndIsrPartitionState4; LeaderAndIsrRequest_TopicStates : gslice LeaderAndIsrTopicState4; LeaderAndIsrRequest_LiveLeaders : gslice LeaderAndIsrLiveLeader4 }.
(** the zero value ([var item LeaderAndIsrRequest]) *)
Definition LeaderAndIsrRequest_zero : LeaderAndIsrRequest := mkLeaderAndIsrRequest 0 0 0 None None None.
(** message/messages.gen.go:1955-1979 *)
Definition LeaderAndIsrRequest_Size (version : Z) (t : LeaderAndIsrRequest) : Z :=
  ((size_add sz_Int32) +>
   (size_add sz_Int32) +>
   size_if (2 <=? version) (size_add sz_Int64) +>
   size_if ((0 <=? version) && (version <=? 1)) (size_loop (LeaderAndIsrPartitionState4_Size version) (LeaderAndIsrRequest_UngroupedPartitionStates t)) +>
   size_if (2 <=? version) (size_loop (LeaderAndIsrTopicState4_Size version) (LeaderAndIsrRequest_TopicStates t)) +>
   (size_loop (LeaderAndIsrLiveLeader4_Size version) (LeaderAndIsrRequest_LiveLeaders t)) +>
   size_done)%size 0.
(** message/messages.gen.go:1982-2010 *)
Definition LeaderAndIsrRequest_Encode (version : Z) (t : LeaderAndIsrRequest) : Encoder -> Encoder :=
  ((PutInt32 (LeaderAndIsrRequest_ControllerId t)) >>
   (PutInt32 (LeaderAndIsrRequest_ControllerEpoch t)) >>
   put_if (2 <=? version) (PutInt64 (LeaderAndIsrRequest_BrokerEpoch t)) >>
   put_if ((0 <=? version) && (version <=? 1)) (put_array (LeaderAndIsrPartitionState4_Encode version) (LeaderAndIsrRequest_UngroupedPartitionStates t)) >>
   put_if (2 <=? version) (put_array (LeaderAndIsrTopicState4_Encode version) (LeaderAndIsrRequest_TopicStates t)) >>
   (put_array (LeaderAndIsrLiveLeader4_Encode version) (LeaderAndIsrRequest_LiveLeaders t)) >>
   skip)%enc.
(** message/messages.gen.go:2013-2073 *)
Definition LeaderAndIsrRequest_Decode (version : Z) (t : LeaderAndIsrRequest) : Dec LeaderAndIsrRequest :=
  x_ControllerId <- dInt32 ;;
  x_ControllerEpoch <- dInt32 ;;
  x_BrokerEpoch <- dec_if (2 <=? version) dInt64 (LeaderAndIsrRequest_BrokerEpoch t) ;;
  x_UngroupedPartitionStates <- dec_if ((0 <=? version) && (version <=? 1)) (dec_array (LeaderAndIsrPartitionState4_Decode version LeaderAndIsrPartitionState4_zero) (LeaderAndIsrRequest_UngroupedPartitionStates t)) (LeaderAndIsrRequest_UngroupedPartitionStates t) ;;
  x_TopicStates <- dec_if (2 <=? version) (dec_array (LeaderAndIsrTopicState4_Decode version LeaderAndIsrTopicState4_zero) (LeaderAndIsrRequest_TopicStates t)) (LeaderAndIsrRequest_TopicStates t) ;;
  x_LiveLeaders <- (dec_array (LeaderAndIsrLiveLeader4_Decode version LeaderAndIsrLiveLeader4_zero) (LeaderAndIsrRequest_LiveLeaders t)) ;;
  ret (mkLeaderAndIsrRequest x_ControllerId x_ControllerEpoch x_BrokerEpoch x_UngroupedPartitionStates x_TopicStates x_LiveLeaders).
(** the struct declaration read as a schema; version ranges as in Size *)
Definition LeaderAndIsrRequest_schema : fields :=
  FCons "ControllerId" Always TInt32
  (FCons "ControllerEpoch" Always TInt32
  (FCons "BrokerEpoch" (From 2) TInt64
  (FCons "UngroupedPartitionStates" (Between 0 1) (TArray LeaderAndIsrPartitionState4_schema)
  (FCons "TopicStates" (From 2) (TArray LeaderAndIsrTopicState4_schema)
  (FCons "LiveLeaders" Always (TArray LeaderAndIsrLiveLeader4_schema) FNil))))).
Definition LeaderAndIsrRequest_to (t : LeaderAndIsrRequest) : dens LeaderAndIsrRequest_schema := (LeaderAndIsrRequest_ControllerId t, (LeaderAndIsrRequest_ControllerEpoch t, (LeaderAndIsrRequest_BrokerEpoch t, (option_map (map LeaderAndIsrPartitionState4_to) (LeaderAndIsrRequest_UngroupedPartitionStates t), (option_map (map LeaderAndIsrTopicState4_to) (LeaderAndIsrRequest_TopicStates t), (option_map (map LeaderAndIsrLiveLeader4_to) (LeaderAndIsrRequest_LiveLeaders t), tt)))))).
Definition LeaderAndIsrRequest_of (x : dens LeaderAndIsrRequest_schema) : LeaderAndIsrRequest := mkLeaderAndIsrRequest (fst x) (fst (snd x)) (fst (snd (snd x))) (option_map (map LeaderAndIsrPartitionState4_of) (fst (snd (snd (snd x))))) (option_map (map LeaderAndIsrTopicState4_of) (fst (snd (snd (snd (snd x)))))) (option_map (map LeaderAndIsrLiveLeader4_of) (fst (snd (snd (snd (snd (snd x))))))).
Definition LeaderAndIsrRequest_codec : codec := Codec LeaderAndIsrRequest LeaderAndIsrRequest_zero LeaderAndIsrRequest_Size LeaderAndIsrRequest_Encode LeaderAndIsrRequest_Decode LeaderAndIsrRequest_schema LeaderAndIsrRequest_to LeaderAndIsrRequest_of.
Lemma LeaderAndIsrRequest_linked : linked LeaderAndIsrRequest_codec.
Proof.
  apply Linked; cbn [LeaderAndIsrRequest_codec c_type c_zero c_size c_encode c_decode c_schema c_to c_of].
  - intros t. destruct t. cbv [LeaderAndIsrRequest_of LeaderAndIsrRequest_to]. cbn [fst snd LeaderAndIsrRequest_ControllerId LeaderAndIsrRequest_ControllerEpoch LeaderAndIsrRequest_BrokerEpoch LeaderAndIsrRequest_UngroupedPartitionStates LeaderAndIsrRequest_TopicStates LeaderAndIsrRequest_LiveLeaders]. rewrite ?(option_map_map_inv LeaderAndIsrPartitionState4_to LeaderAndIsrPartitionState4_of _ (l_of_to _ LeaderAndIsrPartitionState4_linked)). rewrite ?(option_map_map_inv LeaderAndIsrTopicState4_to LeaderAndIsrTopicState4_of _ (l_of_to _ LeaderAndIsrTopicState4_linked)). rewrite ?(option_map_map_inv LeaderAndIsrLiveLeader4_to LeaderAndIsrLiveLeader4_of _ (l_of_to _ LeaderAndIsrLiveLeader4_linked)). reflexivity.
  - intros x. unfold LeaderAndIsrRequest_schema in x. cbn [dens den] in x. destruct x as [x0 x]. destruct x as [x1 x]. destruct x as [x2 x]. destruct x as [x3 x]. destruct x as [x4 x]. destruct x as [x5 x]. destruct x. cbv [LeaderAndIsrRequest_of LeaderAndIsrRequest_to]. cbn [fst snd LeaderAndIsrRequest_ControllerId LeaderAndIsrRequest_ControllerEpoch LeaderAndIsrRequest_BrokerEpoch LeaderAndIsrRequest_UngroupedPartitionStates LeaderAndIsrRequest_TopicStates LeaderAndIsrRequest_LiveLeaders]. rewrite ?(option_map_map_inv LeaderAndIsrPartitionState4_of LeaderAndIsrPartitionState4_to _ (l_to_of _ LeaderAndIsrPartitionState4_linked)). rewrite ?(option_map_map_inv LeaderAndIsrTopicState4_of LeaderAndIsrTopicState4_to _ (l_to_of _ LeaderAndIsrTopicState4_linked)). rewrite ?(option_map_map_inv LeaderAndIsrLiveLeader4_of LeaderAndIsrLiveLeader4_to _ (l_to_of _ LeaderAndIsrLiveLeader4_linked)). reflexivity.
  - reflexivity.
  - intros v t. unfold LeaderAndIsrRequest_Size, LeaderAndIsrRequest_schema, LeaderAndIsrRequest_to. apply size_start.
    apply size_step; [intros sz; reflexivity|].
    apply size_step; [intros sz; reflexivity|].
    apply size_step; [intros sz; reflexivity|].
    apply size_step; [intros sz; apply (size_field_link (LeaderAndIsrPartitionState4_Size v) LeaderAndIsrPartitionState4_schema LeaderAndIsrPartitionState4_to v (l_size _ LeaderAndIsrPartitionState4_linked v) _)|].
    apply size_step; [intros sz; apply (size_field_link (LeaderAndIsrTopicState4_Size v) LeaderAndIsrTopicState4_schema LeaderAndIsrTopicState4_to v (l_size _ LeaderAndIsrTopicState4_linked v) _)|].
    apply size_step; [intros sz; apply (size_field_link (LeaderAndIsrLiveLeader4_Size v) LeaderAndIsrLiveLeader4_schema LeaderAndIsrLiveLeader4_to v (l_size _ LeaderAndIsrLiveLeader4_linked v) true)|].
    intros sz; reflexivity.
  - intros v t. unfold LeaderAndIsrRequest_Encode, LeaderAndIsrRequest_schema, LeaderAndIsrRequest_to.
    apply enc_step; [intros e; reflexivity|].
    apply enc_step; [intros e; reflexivity|].
    apply enc_step; [intros e; reflexivity|].
    apply enc_step; [intros e; apply (put_field_link (LeaderAndIsrPartitionState4_Encode v) LeaderAndIsrPartitionState4_schema LeaderAndIsrPartitionState4_to v (l_encode _ LeaderAndIsrPartitionState4_linked v) _)|].
    apply enc_step; [intros e; apply (put_field_link (LeaderAndIsrTopicState4_Encode v) LeaderAndIsrTopicState4_schema LeaderAndIsrTopicState4_to v (l_encode _ LeaderAndIsrTopicState4_linked v) _)|].
    apply enc_step; [intros e; apply (put_field_link (LeaderAndIsrLiveLeader4_Encode v) LeaderAndIsrLiveLeader4_schema LeaderAndIsrLiveLeader4_to v (l_encode _ LeaderAndIsrLiveLeader4_linked v) true)|].
    intros e; reflexivity.
  - intros v t. unfold LeaderAndIsrRequest_Decode, LeaderAndIsrRequest_schema, LeaderAndIsrRequest_to.
    dec_field (fun x : Z => x); [apply dmap_id|intros x_ControllerId].
    dec_field (fun x : Z => x); [apply dmap_id|intros x_ControllerEpoch].
    dec_field (fun x : Z => x); [apply dec_if_link; [apply dmap_id|reflexivity]|intros x_BrokerEpoch].
    dec_field (option_map (map LeaderAndIsrPartitionState4_of)); [apply dec_if_link; [apply (dec_array_link _ _ LeaderAndIsrPartitionState4_of LeaderAndIsrPartitionState4_to (l_decode _ LeaderAndIsrPartitionState4_linked v LeaderAndIsrPartitionState4_zero) (l_of_to _ LeaderAndIsrPartitionState4_linked))|symmetry; apply (option_map_map_inv LeaderAndIsrPartitionState4_to LeaderAndIsrPartitionState4_of _ (l_of_to _ LeaderAndIsrPartitionState4_linked))]|intros x_UngroupedPartitionStates].
    dec_field (option_map (map LeaderAndIsrTopicState4_of)); [apply dec_if_link; [apply (dec_array_link _ _ LeaderAndIsrTopicState4_of LeaderAndIsrTopicState4_to (l_decode _ LeaderAndIsrTopicState4_linked v LeaderAndIsrTopicState4_zero) (l_of_to _ LeaderAndIsrTopicState4_linked))|symmetry; apply (option_map_map_inv LeaderAndIsrTopicState4_to LeaderAndIsrTopicState4_of _ (l_of_to _ LeaderAndIsrTopicState4_linked))]|intros x_TopicStates].
    dec_field (option_map (map LeaderAndIsrLiveLeader4_of)); [apply (dec_array_link _ _ LeaderAndIsrLiveLeader4_of LeaderAndIsrLiveLeader4_to (l_decode _ LeaderAndIsrLiveLeader4_linked v LeaderAndIsrLiveLeader4_zero) (l_of_to _ LeaderAndIsrLiveLeader4_linked))|intros x_LiveLeaders].
    intros d; reflexivity.
Qed.
Local Opaque LeaderAndIsrRequest_Size LeaderAndIsrRequest_Encode LeaderAndIsrRequest_Decode.

(** ** LeaderAndIsrPartitionError4 *)

(** message/messages.gen.go:2348-2352 *)
Record LeaderAndIsrPartitionError4 : Type := mkLeaderAndIsrPartitionError4 { LeaderAndIsrPartitionError4_TopicName : gostring; LeaderAndIsrPartitionError4_PartitionIndex : Z; LeaderAndIsrPartitionError4_ErrorCode : Z }.
(** the zero value ([var item LeaderAndIsrPartitionError4]) *)
Definition LeaderAndIsrPartitionError4_zero : LeaderAndIsrPartitionError4 := mkLeaderAndIsrPartitionError4 [] 0 0.
(** message/messages.gen.go:2355-2361 *)
Definition LeaderAndIsrPartitionError4_Size (version : Z) (t : LeaderAndIsrPartitionError4) : Z :=
  ((size_add (sz_String (LeaderAndIsrPartitionError4_TopicName t))) +>
   (size_add sz_Int32) +>
   (size_add sz_Int16) +>
   size_done)%size 0.
(** message/messages.gen.go:2364-2368 *)
Definition LeaderAndIsrPartitionError4_Encode (version : Z) (t : LeaderAndIsrPartitionError4) : Encoder -> Encoder :=
  ((PutString (LeaderAndIsrPartitionError4_TopicName t)) >>
   (PutInt32 (LeaderAndIsrPartitionError4_PartitionIndex t)) >>
   (PutInt16 (LeaderAndIsrPartitionError4_ErrorCode t)) >>
   skip)%enc.
(** message/messages.gen.go:2371-2386 *)
Definition LeaderAndIsrPartitionError4_Decode (version : Z) (t : LeaderAndIsrPartitionError4) : Dec LeaderAndIsrPartitionError4 :=
  x_TopicName <- dString ;;
  x_PartitionIndex <- dInt32 ;;
  x_ErrorCode <- dInt16 ;;
  ret (mkLeaderAndIsrPartitionError4 x_TopicName x_PartitionIndex x_ErrorCode).
(** the struct declaration read as a schema; version ranges as in Size *)
Definition LeaderAndIsrPartitionError4_schema : fields :=
  FCons "TopicName" Always TString
  (FCons "PartitionIndex" Always TInt32
  (FCons "ErrorCode" Always TInt16 FNil)).
Definition LeaderAndIsrPartitionError4_to (t : LeaderAndIsrPartitionError4) : dens LeaderAndIsrPartitionError4_schema := (LeaderAndIsrPartitionError4_TopicName t, (LeaderAndIsrPartitionError4_PartitionIndex t, (LeaderAndIsrPartitionError4_ErrorCode t, tt))).
Definition LeaderAndIsrPartitionError4_of (x : dens LeaderAndIsrPartitionError4_schema) : LeaderAndIsrPartitionError4 := mkLeaderAndIsrPartitionError4 (fst x) (fst (snd x)) (fst (snd (snd x))).
Definition LeaderAndIsrPartitionError4_codec : codec := Codec LeaderAndIsrPartitionError4 LeaderAndIsrPartitionError4_zero LeaderAndIsrPartitionError4_Size LeaderAndIsrPartitionError4_Encode LeaderAndIsrPartitionError4_Decode LeaderAndIsrPartitionError4_schema LeaderAndIsrPartitionError4_to LeaderAndIsrPartitionError4_of.
Lemma LeaderAndIsrPartitionError4_linked : linked LeaderAndIsrPartitionError4_codec.
Proof.
  apply Linked; cbn [LeaderAndIsrPartitionError4_codec c_type c_zero c_size c_encode c_decode c_schema c_to c_of].
  - intros t. destruct t. cbv [LeaderAndIsrPartitionError4_of LeaderAndIsrPartitionError4_to]. cbn [fst snd LeaderAndIsrPartitionError4_TopicName LeaderAndIsrPartitionError4_PartitionIndex LeaderAndIsrPartitionError4_ErrorCode].  reflexivity.
  - intros x. unfold LeaderAndIsrPartitionError4_schema in x. cbn [dens den] in x. destruct x as [x0 x]. destruct x as [x1 x]. destruct x as [x2 x]. destruct x. cbv [LeaderAndIsrPartitionError4_of LeaderAndIsrPartitionError4_to]. cbn [fst snd LeaderAndIsrPartitionError4_TopicName LeaderAndIsrPartitionError4_PartitionIndex LeaderAndIsrPartitionError4_ErrorCode].  reflexivity.
  - reflexivity.
  - intros v t. unfold LeaderAndIsrPartitionError4_Size, LeaderAndIsrPartitionError4_schema, LeaderAndIsrPartitionError4_to. apply size_start.
    apply size_step; [intros sz; reflexivity|].
    apply size_step; [intros sz; reflexivity|].
    apply size_step; [intros sz; reflexivity|].
    intros sz; reflexivity.
  - intros v t. unfold LeaderAndIsrPartitionError4_Encode, LeaderAndIsrPartitionError4_schema, LeaderAndIsrPartitionError4_to.
    apply enc_step; [intros e; reflexivity|].
    apply enc_step; [intros e; reflexivity|].
    apply enc_step; [intros e; reflexivity|].
    intros e; reflexivity.
  - intros v t. unfold LeaderAndIsrPartitionError4_Decode, LeaderAndIsrPartitionError4_schema, LeaderAndIsrPartitionError4_to.
    dec_field (fun x : gostring => x); [apply dmap_id|intros x_TopicName].
    dec_field (fun x : Z => x); [apply dmap_id|intros x_PartitionIndex].
    dec_field (fun x : Z => x); [apply dmap_id|intros x_ErrorCode].
    intros d; reflexivity.
Qed.
Local Opaque LeaderAndIsrPartitionError4_Size LeaderAndIsrPartitionError4_Encode LeaderAndIsrPartitionError4_Decode.

(** ** LeaderAndIsrResponse *)

(** message/messages.gen.go:2298-2301 *)
Record LeaderAndIsrResponse : Type := mkLeaderAndIsrResponse { LeaderAndIsrResponse_ErrorCode : Z; LeaderAndIsrResponse_PartitionErrors : gslice LeaderAndIsrPartitionError4 }.
(** the zero value ([var item LeaderAndIsrResponse]) *)
Definition LeaderAndIsrResponse_zero : LeaderAndIsrResponse := mkLeaderAndIsrResponse 0 None.
(** message/messages.gen.go:2304-2312 *)
Definition LeaderAndIsrResponse_Size (version : Z) (t : LeaderAndIsrResponse) : Z :=
  ((size_add sz_Int16) +>
   (size_loop (LeaderAndIsrPartitionError4_Size version) (LeaderAndIsrResponse_PartitionErrors t)) +>
   size_done)%size 0.
(** message/messages.gen.go:2315-2323 *)
Definition LeaderAndIsrResponse_Encode (version : Z) (t : LeaderAndIsrResponse) : Encoder -> Encoder :=
  ((PutInt16 (LeaderAndIsrResponse_ErrorCode t)) >>
   (put_array (LeaderAndIsrPartitionError4_Encode version) (LeaderAndIsrResponse_PartitionErrors t)) >>
   skip)%enc.
(** message/messages.gen.go:2326-2346 *)
Definition LeaderAndIsrResponse_Decode (version : Z) (t : LeaderAndIsrResponse) : Dec LeaderAndIsrResponse :=
  x_ErrorCode <- dInt16 ;;
  x_PartitionErrors <- (dec_array (LeaderAndIsrPartitionError4_Decode version LeaderAndIsrPartitionError4_zero) (LeaderAndIsrResponse_PartitionErrors t)) ;;
  ret (mkLeaderAndIsrResponse x_ErrorCode x_PartitionErrors).
(** the struct declaration read as a schema; version ranges as in Size *)
Definition LeaderAndIsrResponse_schema : fields :=
  FCons "ErrorCode" Always TInt16
  (FCons "PartitionErrors" Always (TArray LeaderAndIsrPartitionError4_schema) FNil).
Definition LeaderAndIsrResponse_to (t : LeaderAndIsrResponse) : dens LeaderAndIsrResponse_schema := (LeaderAndIsrResponse_ErrorCode t, (option_map (map LeaderAndIsrPartitionError4_to) (LeaderAndIsrResponse_PartitionErrors t), tt)).
Definition LeaderAndIsrResponse_of (x : dens LeaderAndIsrResponse_schema) : LeaderAndIsrResponse := mkLeaderAndIsrResponse (fst x) (option_map (map LeaderAndIsrPartitionError4_of) (fst (snd x))).
Definition LeaderAndIsrResponse_codec : codec := Codec LeaderAndIsrResponse LeaderAndIsrResponse_zero LeaderAndIsrResponse_Size LeaderAndIsrResponse_Encode LeaderAndIsrResponse_Decode LeaderAndIsrResponse_schema LeaderAndIsrResponse_to LeaderAndIsrResponse_of.
Lemma LeaderAndIsrResponse_linked : linked LeaderAndIsrResponse_codec.
Proof.
  apply Linked; cbn [LeaderAndIsrResponse_codec c_type c_zero c_size c_encode c_decode c_schema c_to c_of].
  - intros t. destruct t. cbv [LeaderAndIsrResponse_of LeaderAndIsrResponse_to]. cbn [fst snd LeaderAndIsrResponse_ErrorCode LeaderAndIsrResponse_PartitionErrors]. rewrite ?(option_map_map_inv LeaderAndIsrPartitionError4_to LeaderAndIsrPartitionError4_of _ (l_of_to _ LeaderAndIsrPartitionError4_linked)). reflexivity.
  - intros x. unfold LeaderAndIsrResponse_schema in x. cbn [dens den] in x. destruct x as [x0 x]. destruct x as [x1 x]. destruct x. cbv [LeaderAndIsrResponse_of LeaderAndIsrResponse_to]. cbn [fst snd LeaderAndIsrResponse_ErrorCode LeaderAndIsrResponse_PartitionErrors]. rewrite ?(option_map_map_inv LeaderAndIsrPartitionError4_of LeaderAndIsrPartitionError4_to _ (l_to_of _ LeaderAndIsrPartitionError4_linked)). reflexivity.
  - reflexivity.
  - intros v t. unfold LeaderAndIsrResponse_Size, LeaderAndIsrResponse_schema, LeaderAndIsrResponse_to. apply size_start.
    apply size_step; [intros sz; reflexivity|].
    apply size_step; [intros sz; apply (size_field_link (LeaderAndIsrPartitionError4_Size v) LeaderAndIsrPartitionError4_schema LeaderAndIsrPartitionError4_to v (l_size _ LeaderAndIsrPartitionError4_linked v) true)|].
    intros sz; reflexivity.
  - intros v t. unfold LeaderAndIsrResponse_Encode, LeaderAndIsrResponse_schema, LeaderAndIsrResponse_to.
    apply enc_step; [intros e; reflexivity|].
    apply enc_step; [intros e; apply (put_field_link (LeaderAndIsrPartitionError4_Encode v) LeaderAndIsrPartitionError4_schema LeaderAndIsrPartitionError4_to v (l_encode _ LeaderAndIsrPartitionError4_linked v) true)|].
    intros e; reflexivity.
  - intros v t. unfold LeaderAndIsrResponse_Decode, LeaderAndIsrResponse_schema, LeaderAndIsrResponse_to.
    dec_field (fun x : Z => x); [apply dmap_id|intros x_ErrorCode].
    dec_field (option_map (map LeaderAndIsrPartitionError4_of)); [apply (dec_array_link _ _ LeaderAndIsrPartitionError4_of LeaderAndIsrPartitionError4_to (l_decode _ LeaderAndIsrPartitionError4_linked v LeaderAndIsrPartitionError4_zero) (l_of_to _ LeaderAndIsrPartitionError4_linked))|intros x_PartitionErrors].
    intros d; reflexivity.
Qed.
Local Opaque LeaderAndIsrResponse_Size LeaderAndIsrResponse_Encode LeaderAndIsrResponse_Decode.

(** ** StopReplicaPartitionV05 *)

(** message/messages.gen.go:2502-2505 *)
Record StopReplicaPartitionV05 : Type := mkStopReplicaPartitionV05 { StopReplicaPartitionV05_TopicName : gostring; StopReplicaPartitionV05_PartitionIndex : Z }.
(** the zero value ([var item StopReplicaPartitionV05]) *)
Definition StopReplicaPartitionV05_zero : StopReplicaPartitionV05 := mkStopReplicaPartitionV05 [] 0.
(** message/messages.gen.go:2508-2517 *)
Definition StopReplicaPartitionV05_Size (version : Z) (t : StopReplicaPartitionV05) : Z :=
  (size_if ((0 <=? version) && (version <=? 0)) (size_add (sz_String (StopReplicaPartitionV05_TopicName t))) +>
   size_if ((0 <=? version) && (version <=? 0)) (size_add sz_Int32) +>
   size_done)%size 0.
(** message/messages.gen.go:2520-2527 *)
Definition StopReplicaPartitionV05_Encode (version : Z) (t : StopReplicaPartitionV05) : Encoder -> Encoder :=
  (put_if ((0 <=? version) && (version <=? 0)) (PutString (StopReplicaPartitionV05_TopicName t)) >>
   put_if ((0 <=? version) && (version <=? 0)) (PutInt32 (StopReplicaPartitionV05_PartitionIndex t)) >>
   skip)%enc.
(** message/messages.gen.go:2530-2545 *)
Definition StopReplicaPartitionV05_Decode (version : Z) (t : StopReplicaPartitionV05) : Dec StopReplicaPartitionV05 :=
  x_TopicName <- dec_if ((0 <=? version) && (version <=? 0)) dString (StopReplicaPartitionV05_TopicName t) ;;
  x_PartitionIndex <- dec_if ((0 <=? version) && (version <=? 0)) dInt32 (StopReplicaPartitionV05_PartitionIndex t) ;;
  ret (mkStopReplicaPartitionV05 x_TopicName x_PartitionIndex).
(** the struct declaration read as a schema; version ranges as in Size *)
Definition StopReplicaPartitionV05_schema : fields :=
  FCons "TopicName" (Between 0 0) TString
  (FCons "PartitionIndex" (Between 0 0) TInt32 FNil).
Definition StopReplicaPartitionV05_to (t : StopReplicaPartitionV05) : dens StopReplicaPartitionV05_schema := (StopReplicaPartitionV05_TopicName t, (StopReplicaPartitionV05_PartitionIndex t, tt)).
Definition StopReplicaPartitionV05_of (x : dens StopReplicaPartitionV05_schema) : StopReplicaPartitionV05 := mkStopReplicaPartitionV05 (fst x) (fst (snd x)).
Definition StopReplicaPartitionV05_codec : codec := Codec StopReplicaPartitionV05 StopReplicaPartitionV05_zero StopReplicaPartitionV05_Size StopReplicaPartitionV05_Encode StopReplicaPartitionV05_Decode StopReplicaPartitionV05_schema StopReplicaPartitionV05_to StopReplicaPartitionV05_of.
Lemma StopReplicaPartitionV05_linked : linked StopReplicaPartitionV05_codec.
Proof.
  apply Linked; cbn [StopReplicaPartitionV05_codec c_type c_zero c_size c_encode c_decode c_schema c_to c_of].
  - intros t. destruct t. cbv [StopReplicaPartitionV05_of StopReplicaPartitionV05_to]. cbn [fst snd StopReplicaPartitionV05_TopicName StopReplicaPartitionV05_PartitionIndex].  reflexivity.
  - intros x. unfold StopReplicaPartitionV05_schema in x. cbn [dens den] in x. destruct x as [x0 x]. destruct x as [x1 x]. destruct x. cbv [StopReplicaPartitionV05_of StopReplicaPartitionV05_to]. cbn [fst snd StopReplicaPartitionV05_TopicName StopReplicaPartitionV05_PartitionIndex].  reflexivity.
  - reflexivity.
  - intros v t. unfold StopReplicaPartitionV05_Size, StopReplicaPartitionV05_schema, StopReplicaPartitionV05_to. apply size_start.
    apply size_step; [intros sz; reflexivity|].
    apply size_step; [intros sz; reflexivity|].
    intros sz; reflexivity.
  - intros v t. unfold StopReplicaPartitionV05_Encode, StopReplicaPartitionV05_schema, StopReplicaPartitionV05_to.
    apply enc_step; [intros e; reflexivity|].
    apply enc_step; [intros e; reflexivity|].
    intros e; reflexivity.
  - intros v t. unfold StopReplicaPartitionV05_Decode, StopReplicaPartitionV05_schema, StopReplicaPartitionV05_to.
    dec_field (fun x : gostring => x); [apply dec_if_link; [apply dmap_id|reflexivity]|intros x_TopicName].
    dec_field (fun x : Z => x); [apply dec_if_link; [apply dmap_id|reflexivity]|intros x_PartitionIndex].
    intros d; reflexivity.
Qed.
Local Opaque StopReplicaPartitionV05_Size StopReplicaPartitionV05_Encode StopReplicaPartitionV05_Decode.

(** ** StopReplicaTopic5 *)

(** message/messages.gen.go:2547-2550 *)
Record StopReplicaTopic5 : Type := mkStopReplicaTopic5 { StopReplicaTopic5_Name : gostring; StopReplicaTopic5_PartitionIndexes : gslice Z }.
(** the zero value ([var item StopReplicaTopic5]) *)
Definition StopReplicaTopic5_zero : StopReplicaTopic5 := mkStopReplicaTopic5 [] None.
(** message/messages.gen.go:2553-2562 *)
Definition StopReplicaTopic5_Size (version : Z) (t : StopReplicaTopic5) : Z :=
  (size_if (1 <=? version) (size_add (sz_String (StopReplicaTopic5_Name t))) +>
   size_if (1 <=? version) (size_add (sz_Int32Array (StopReplicaTopic5_PartitionIndexes t))) +>
   size_done)%size 0.
(** message/messages.gen.go:2565-2572 *)
Definition StopReplicaTopic5_Encode (version : Z) (t : StopReplicaTopic5) : Encoder -> Encoder :=
  (put_if (1 <=? version) (PutString (StopReplicaTopic5_Name t)) >>
   put_if (1 <=? version) (PutInt32Array (StopReplicaTopic5_PartitionIndexes t)) >>
   skip)%enc.
(** message/messages.gen.go:2575-2590 *)
Definition StopReplicaTopic5_Decode (version : Z) (t : StopReplicaTopic5) : Dec StopReplicaTopic5 :=
  x_Name <- dec_if (1 <=? version) dString (StopReplicaTopic5_Name t) ;;
  x_PartitionIndexes <- dec_if (1 <=? version) dInt32Array (StopReplicaTopic5_PartitionIndexes t) ;;
  ret (mkStopReplicaTopic5 x_Name x_PartitionIndexes).
(** the struct declaration read as a schema; version ranges as in Size *)
Definition StopReplicaTopic5_schema : fields :=
  FCons "Name" (From 1) TString
  (FCons "PartitionIndexes" (From 1) TInt32Array FNil).
Definition StopReplicaTopic5_to (t : StopReplicaTopic5) : dens StopReplicaTopic5_schema := (StopReplicaTopic5_Name t, (StopReplicaTopic5_PartitionIndexes t, tt)).
Definition StopReplicaTopic5_of (x : dens StopReplicaTopic5_schema) : StopReplicaTopic5 := mkStopReplicaTopic5 (fst x) (fst (snd x)).
Definition StopReplicaTopic5_codec : codec := Codec StopReplicaTopic5 StopReplicaTopic5_zero StopReplicaTopic5_Size StopReplicaTopic5_Encode StopReplicaTopic5_Decode StopReplicaTopic5_schema StopReplicaTopic5_to StopReplicaTopic5_of.
Lemma StopReplicaTopic5_linked : linked StopReplicaTopic5_codec.
Proof.
  apply Linked; cbn [StopReplicaTopic5_codec c_type c_zero c_size c_encode c_decode c_schema c_to c_of].
  - intros t. destruct t. cbv [StopReplicaTopic5_of StopReplicaTopic5_to]. cbn [fst snd StopReplicaTopic5_Name StopReplicaTopic5_PartitionIndexes].  reflexivity.
  - intros x. unfold StopReplicaTopic5_schema in x. cbn [dens den] in x. destruct x as [x0 x]. destruct x as [x1 x]. destruct x. cbv [StopReplicaTopic5_of StopReplicaTopic5_to]. cbn [fst snd StopReplicaTopic5_Name StopReplicaTopic5_PartitionIndexes].  reflexivity.
  - reflexivity.
  - intros v t. unfold StopReplicaTopic5_Size, StopReplicaTopic5_schema, StopReplicaTopic5_to. apply size_start.
    apply size_step; [intros sz; reflexivity|].
    apply size_step; [intros sz; reflexivity|].
    intros sz; reflexivity.
  - intros v t. unfold StopReplicaTopic5_Encode, StopReplicaTopic5_schema, StopReplicaTopic5_to.
    apply enc_step; [intros e; reflexivity|].
    apply enc_step; [intros e; reflexivity|].
    intros e; reflexivity.
  - intros v t. unfold StopReplicaTopic5_Decode, StopReplicaTopic5_schema, StopReplicaTopic5_to.
    dec_field (fun x : gostring => x); [apply dec_if_link; [apply dmap_id|reflexivity]|intros x_Name].
    dec_field (fun x : gslice Z => x); [apply dec_if_link; [apply dmap_id|reflexivity]|intros x_PartitionIndexes].
    intros d; reflexivity.
Qed.
Local Opaque StopReplicaTopic5_Size StopReplicaTopic5_Encode StopReplicaTopic5_Decode.

(** ** StopReplicaRequest *)

(** message/messages.gen.go:2389-2396 *)
Record StopReplicaRequest : Type := mkStopReplicaRequest { StopReplicaRequest_ControllerId : Z; StopReplicaRequest_ControllerEpoch : Z; StopReplicaRequest_BrokerEpoch : Z; StopReplicaRequest_DeletePartitions : bool; StopReplicaRequest_UngroupedPartitions : gslice StopReplicaPartitionV05; StopReplicaRequest_Topics : gslice StopReplicaTopic5 }.
(** the zero value ([var item StopReplicaRequest]) *)
Definition StopReplicaRequest_zero : StopReplicaRequest := mkStopReplicaRequest 0 0 0 false None None.
(** message/messages.gen.go:2399-2420 *)
Definition StopReplicaRequest_Size (version : Z) (t : StopReplicaRequest) : Z :=
  ((size_add sz_Int32) +>
   (size_add sz_Int32) +>
   size_if (1 <=? version) (size_add sz_Int64) +>
   (size_add sz_Bool) +>
   size_if ((0 <=? version) && (version <=? 0)) (size_loop (StopReplicaPartitionV05_Size version) (StopReplicaRequest_UngroupedPartitions t)) +>
   size_if (1 <=? version) (size_loop (StopReplicaTopic5_Size version) (StopReplicaRequest_Topics t)) +>
   size_done)%size 0.
(** message/messages.gen.go:2423-2446 *)
Definition StopReplicaRequest_Encode (version : Z) (t : StopReplicaRequest) : Encoder -> Encoder :=
  ((PutInt32 (StopReplicaRequest_ControllerId t)) >>
   (PutInt32 (StopReplicaRequest_ControllerEpoch t)) >>
   put_if (1 <=? version) (PutInt64 (StopReplicaRequest_BrokerEpoch t)) >>
   (PutBool (StopReplicaRequest_DeletePartitions t)) >>
   put_if ((0 <=? version) && (version <=? 0)) (put_array (StopReplicaPartitionV05_Encode version) (StopReplicaRequest_UngroupedPartitions t)) >>
   put_if (1 <=? version) (put_array (StopReplicaTopic5_Encode version) (StopReplicaRequest_Topics t)) >>
   skip)%enc.
(** message/messages.gen.go:2449-2500 *)
Definition StopReplicaRequest_Decode (version : Z) (t : StopReplicaRequest) : Dec StopReplicaRequest :=
  x_ControllerId <- dInt32 ;;
  x_ControllerEpoch <- dInt32 ;;
  x_BrokerEpoch <- dec_if (1 <=? version) dInt64 (StopReplicaRequest_BrokerEpoch t) ;;
  x_DeletePartitions <- dBool ;;
  x_UngroupedPartitions <- dec_if ((0 <=? version) && (version <=? 0)) (dec_array (StopReplicaPartitionV05_Decode version StopReplicaPartitionV05_zero) (StopReplicaRequest_UngroupedPartitions t)) (StopReplicaRequest_UngroupedPartitions t) ;;
  x_Topics <- dec_if (1 <=? version) (dec_array (StopReplicaTopic5_Decode version StopReplicaTopic5_zero) (StopReplicaRequest_Topics t)) (StopReplicaRequest_Topics t) ;;
  ret (mkStopReplicaRequest x_ControllerId x_ControllerEpoch x_BrokerEpoch x_DeletePartitions x_UngroupedPartitions x_Topics).
(** the struct declaration read as a schema; version ranges as in Size *)
Definition StopReplicaRequest_schema : fields :=
  FCons "ControllerId" Always TInt32
  (FCons "ControllerEpoch" Always TInt32
  (FCons "BrokerEpoch" (From 1) TInt64
  (FCons "DeletePartitions" Always TBool
  (FCons "UngroupedPartitions" (Between 0 0) (TArray StopReplicaPartitionV05_schema)
  (FCons "Topics" (From 1) (TArray StopReplicaTopic5_schema) FNil))))).
Definition StopReplicaRequest_to (t : StopReplicaRequest) : dens StopReplicaRequest_schema := (StopReplicaRequest_ControllerId t, (StopReplicaRequest_ControllerEpoch t, (StopReplicaRequest_BrokerEpoch t, (StopReplicaRequest_DeletePartitions t, (option_map (map StopReplicaPartitionV05_to) (StopReplicaRequest_UngroupedPartitions t), (option_map (map StopReplicaTopic5_to) (StopReplicaRequest_Topics t), tt)))))).
Definition StopReplicaRequest_of (x : dens StopReplicaRequest_schema) : StopReplicaRequest := mkStopReplicaRequest (fst x) (fst (snd x)) (fst (snd (snd x))) (fst (snd (snd (snd x)))) (option_map (map StopReplicaPartitionV05_of) (fst (snd (snd (snd (snd x)))))) (option_map (map StopReplicaTopic5_of) (fst (snd (snd (snd (snd (snd x))))))).
Definition StopReplicaRequest_codec : codec := Codec StopReplicaRequest StopReplicaRequest_zero StopReplicaRequest_Size StopReplicaRequest_Encode StopReplicaRequest_Decode StopReplicaRequest_schema StopReplicaRequest_to StopReplicaRequest_of.
Lemma StopReplicaRequest_linked : linked StopReplicaRequest_codec.
Proof.
  apply Linked; cbn [StopReplicaRequest_codec c_type c_zero c_size c_encode c_decode c_schema c_to c_of].
  - intros t. destruct t. cbv [StopReplicaRequest_of StopReplicaRequest_to]. cbn [fst snd StopReplicaRequest_ControllerId StopReplicaRequest_ControllerEpoch StopReplicaRequest_BrokerEpoch StopReplicaRequest_DeletePartitions StopReplicaRequest_UngroupedPartitions StopReplicaRequest_Topics]. rewrite ?(option_map_map_inv StopReplicaPartitionV05_to StopReplicaPartitionV05_of _ (l_of_to _ StopReplicaPartitionV05_linked)). rewrite ?(option_map_map_inv StopReplicaTopic5_to StopReplicaTopic5_of _ (l_of_to _ StopReplicaTopic5_linked)). reflexivity.
  - intros x. unfold StopReplicaRequest_schema in x. cbn [dens den] in x. destruct x as [x0 x]. destruct x as [x1 x]. destruct x as [x2 x]. destruct x as [x3 x]. destruct x as [x4 x]. destruct x as [x5 x]. destruct x. cbv [StopReplicaRequest_of StopReplicaRequest_to]. cbn [fst snd StopReplicaRequest_ControllerId StopReplicaRequest_ControllerEpoch StopReplicaRequest_BrokerEpoch StopReplicaRequest_DeletePartitions StopReplicaRequest_UngroupedPartitions StopReplicaRequest_Topics]. rewrite ?(option_map_map_inv StopReplicaPartitionV05_of StopReplicaPartitionV05_to _ (l_to_of _ StopReplicaPartitionV05_linked)). rewrite ?(option_map_map_inv StopReplicaTopic5_of StopReplicaTopic5_to _ (l_to_of _ StopReplicaTopic5_linked)). reflexivity.
  - reflexivity.
  - intros v t. unfold StopReplicaRequest_Size, StopReplicaRequest_schema, StopReplicaRequest_to. apply size_start.
    apply size_step; [intros sz; reflexivity|].
    apply size_step; [intros sz; reflexivity|].
    apply size_step; [intros sz; reflexivity|].
    apply size_step; [intros sz; reflexivity|].
    apply size_step; [intros sz; apply (size_field_link (StopReplicaPartitionV05_Size v) StopReplicaPartitionV05_schema StopReplicaPartitionV05_to v (l_size _ StopReplicaPartitionV05_linked v) _)|].
    apply size_step; [intros sz; apply (size_field_link (StopReplicaTopic5_Size v) StopReplicaTopic5_schema StopReplicaTopic5_to v (l_size _ StopReplicaTopic5_linked v) _)|].
    intros sz; reflexivity.
  - intros v t. unfold StopReplicaRequest_Encode, StopReplicaRequest_schema, StopReplicaRequest_to.
    apply enc_step; [intros e; reflexivity|].
    apply enc_step; [intros e; reflexivity|].
    apply enc_step; [intros e; reflexivity|].
    apply enc_step; [intros e; reflexivity|].
    apply enc_step; [intros e; apply (put_field_link (StopReplicaPartitionV05_Encode v) StopReplicaPartitionV05_schema StopReplicaPartitionV05_to v (l_encode _ StopReplicaPartitionV05_linked v) _)|].
    apply enc_step; [intros e; apply (put_field_link (StopReplicaTopic5_Encode v) StopReplicaTopic5_schema StopReplicaTopic5_to v (l_encode _ StopReplicaTopic5_linked v) _)|].
    intros e; reflexivity.
  - intros v t. unfold StopReplicaRequest_Decode, StopReplicaRequest_schema, StopReplicaRequest_to.
    dec_field (fun x : Z => x); [apply dmap_id|intros x_ControllerId].
    dec_field (fun x : Z => x); [apply dmap_id|intros x_ControllerEpoch].
    dec_field (fun x : Z => x); [apply dec_if_link; [apply dmap_id|reflexivity]|intros x_BrokerEpoch].
    dec_field (fun x : bool => x); [apply dmap_id|intros x_DeletePartitions].
    dec_field (option_map (map StopReplicaPartitionV05_of)); [apply dec_if_link; [apply (dec_array_link _ _ StopReplicaPartitionV05_of StopReplicaPartitionV05_to (l_decode _ StopReplicaPartitionV05_linked v StopReplicaPartitionV05_zero) (l_of_to _ StopReplicaPartitionV05_linked))|symmetry; apply (option_map_map_inv StopReplicaPartitionV05_to StopReplicaPartitionV05_of _ (l_of_to _ StopReplicaPartitionV05_linked))]|intros x_UngroupedPartitions].
    dec_field (option_map (map StopReplicaTopic5_of)); [apply dec_if_link; [apply (dec_array_link _ _ StopReplicaTopic5_of StopReplicaTopic5_to (l_decode _ StopReplicaTopic5_linked v StopReplicaTopic5_zero) (l_of_to _ StopReplicaTopic5_linked))|symmetry; apply (option_map_map_inv StopReplicaTopic5_to StopReplicaTopic5_of _ (l_of_to _ StopReplicaTopic5_linked))]|intros x_Topics].
    intros d; reflexivity.
Qed.
Local Opaque StopReplicaRequest_Size StopReplicaRequest_Encode StopReplicaRequest_Decode.

(** ** StopReplicaPartitionError5 *)

(** message/messages.gen.go:2643-2647 *)
Record StopReplicaPartitionError5 : Type := mkStopReplicaPartitionError5 { StopReplicaPartitionError5_TopicName : gostring; StopReplicaPartitionError5_PartitionIndex : Z; StopReplicaPartitionError5_ErrorCode : Z }.
(** the zero value ([var item StopReplicaPartitionError5]) *)
Definition StopReplicaPartitionError5_zero : StopReplicaPartitionError5 := mkStopReplicaPartitionError5 [] 0 0.
(** message/messages.gen.go:2650-2656 *)
Definition StopReplicaPartitionError5_Size (version : Z) (t : StopReplicaPartitionError5) : Z :=
  ((size_add (sz_String (StopReplicaPartitionError5_TopicName t))) +>
   (size_add sz_Int32) +>
   (size_add sz_Int16) +>
   size_done)%size 0.
(** message/messages.gen.go:2659-2663 *)
Definition StopReplicaPartitionError5_Encode (version : Z) (t : StopReplicaPartitionError5) : Encoder -> Encoder :=
  ((PutString (StopReplicaPartitionError5_TopicName t)) >>
   (PutInt32 (StopReplicaPartitionError5_PartitionIndex t)) >>
   (PutInt16 (StopReplicaPartitionError5_ErrorCode t)) >>
   skip)%enc.
(** message/messages.gen.go:2666-2681 *)
Definition StopReplicaPartitionError5_Decode (version : Z) (t : StopReplicaPartitionError5) : Dec StopReplicaPartitionError5 :=
  x_TopicName <- dString ;;
  x_PartitionIndex <- dInt32 ;;
  x_ErrorCode <- dInt16 ;;
  ret (mkStopReplicaPartitionError5 x_TopicName x_PartitionIndex x_ErrorCode).
(** the struct declaration read as a schema; version ranges as in Size *)
Definition StopReplicaPartitionError5_schema : fields :=
  FCons "TopicName" Always TString
  (FCons "PartitionIndex" Always TInt32
  (FCons "ErrorCode" Always TInt16 FNil)).
Definition StopReplicaPartitionError5_to (t : StopReplicaPartitionError5) : dens StopReplicaPartitionError5_schema := (StopReplicaPartitionError5_TopicName t, (StopReplicaPartitionError5_PartitionIndex t, (StopReplicaPartitionError5_ErrorCode t, tt))).
Definition StopReplicaPartitionError5_of (x : dens StopReplicaPartitionError5_schema) : StopReplicaPartitionError5 := mkStopReplicaPartitionError5 (fst x) (fst (snd x)) (fst (snd (snd x))).
Definition StopReplicaPartitionError5_codec : codec := Codec StopReplicaPartitionError5 StopReplicaPartitionError5_zero StopReplicaPartitionError5_Size StopReplicaPartitionError5_Encode StopReplicaPartitionError5_Decode StopReplicaPartitionError5_schema StopReplicaPartitionError5_to StopReplicaPartitionError5_of.
Lemma StopReplicaPartitionError5_linked : linked StopReplicaPartitionError5_codec.
Proof.
  apply Linked; cbn [StopReplicaPartitionError5_codec c_type c_zero c_size c_encode c_decode c_schema c_to c_of].
  - intros t. destruct t. cbv [StopReplicaPartitionError5_of StopReplicaPartitionError5_to]. cbn [fst snd StopReplicaPartitionError5_TopicName StopReplicaPartitionError5_PartitionIndex StopReplicaPartitionError5_ErrorCode].  reflexivity.
  - intros x. unfold StopReplicaPartitionError5_schema in x. cbn [dens den] in x. destruct x as [x0 x]. destruct x as [x1 x]. destruct x as [x2 x]. destruct x. cbv [StopReplicaPartitionError5_of StopReplicaPartitionError5_to]. cbn [fst snd StopReplicaPartitionError5_TopicName StopReplicaPartitionError5_PartitionIndex StopReplicaPartitionError5_ErrorCode].  reflexivity.
  - reflexivity.
  - intros v t. unfold StopReplicaPartitionError5_Size, StopReplicaPartitionError5_schema, StopReplicaPartitionError5_to. apply size_start.
    apply size_step; [intros sz; reflexivity|].
    apply size_step; [intros sz; reflexivity|].
    apply size_step; [intros sz; reflexivity|].
    intros sz; reflexivity.
  - intros v t. unfold StopReplicaPartitionError5_Encode, StopReplicaPartitionError5_schema, StopReplicaPartitionError5_to.
    apply enc_step; [intros e; reflexivity|].
    apply enc_step; [intros e; reflexivity|].
    apply enc_step; [intros e; reflexivity|].
    intros e; reflexivity.
  - intros v t. unfold StopReplicaPartitionError5_Decode, StopReplicaPartitionError5_schema, StopReplicaPartitionError5_to.
    dec_field (fun x : gostring => x); [apply dmap_id|intros x_TopicName].
    dec_field (fun x : Z => x); [apply dmap_id|intros x_PartitionIndex].
    dec_field (fun x : Z => x); [apply dmap_id|intros x_ErrorCode].
    intros d; reflexivity.
Qed.
Local Opaque StopReplicaPartitionError5_Size StopReplicaPartitionError5_Encode StopReplicaPartitionError5_Decode.

(** ** StopReplicaResponse *)

(** message/messages.gen.go:2593-2596 *)
Record StopReplicaResponse : Type := mkStopReplicaResponse { StopReplicaResponse_ErrorCode : Z; StopReplicaResponse_PartitionErrors : gslice StopReplicaPartitionError5 }.
(** the zero value ([var item StopReplicaResponse]) *)
Definition StopReplicaResponse_zero : StopReplicaResponse := mkStopReplicaResponse 0 None.
(** message/messages.gen.go:2599-2607 *)
Definition StopReplicaResponse_Size (version : Z) (t : StopReplicaResponse) : Z :=
  ((size_add sz_Int16) +>
   (size_loop (StopReplicaPartitionError5_Size version) (StopReplicaResponse_PartitionErrors t)) +>
   size_done)%size 0.
(** message/messages.gen.go:2610-2618 *)
Definition StopReplicaResponse_Encode (version : Z) (t : StopReplicaResponse) : Encoder -> Encoder :=
  ((PutInt16 (StopReplicaResponse_ErrorCode t)) >>
   (put_array (StopReplicaPartitionError5_Encode version) (StopReplicaResponse_PartitionErrors t)) >>
   skip)%enc.
(** message/messages.gen.go:2621-2641 *)
Definition StopReplicaResponse_Decode (version : Z) (t : StopReplicaResponse) : Dec StopReplicaResponse :=
  x_ErrorCode <- dInt16 ;;
  x_PartitionErrors <- (dec_array (StopReplicaPartitionError5_Decode version StopReplicaPartitionError5_zero) (StopReplicaResponse_PartitionErrors t)) ;;
  ret (mkStopReplicaResponse x_ErrorCode x_PartitionErrors).
(** the struct declaration read as a schema; version ranges as in Size *)
Definition StopReplicaResponse_schema : fields :=
  FCons "ErrorCode" Always TInt16
  (FCons "PartitionErrors" Always (TArray StopReplicaPartitionError5_schema) FNil).
Definition StopReplicaResponse_to (t : StopReplicaResponse) : dens StopReplicaResponse_schema := (StopReplicaResponse_ErrorCode t, (option_map (map StopReplicaPartitionError5_to) (StopReplicaResponse_PartitionErrors t), tt)).
Definition StopReplicaResponse_of (x : dens StopReplicaResponse_schema) : StopReplicaResponse := mkStopReplicaResponse (fst x) (option_map (map StopReplicaPartitionError5_of) (fst (snd x))).
Definition StopReplicaResponse_codec : codec := Codec StopReplicaResponse StopReplicaResponse_zero StopReplicaResponse_Size StopReplicaResponse_Encode StopReplicaResponse_Decode StopReplicaResponse_schema StopReplicaResponse_to StopReplicaResponse_of.
Lemma StopReplicaResponse_linked : linked StopReplicaResponse_codec.
Proof.
  apply Linked; cbn [StopReplicaResponse_codec c_type c_zero c_size c_encode c_decode c_schema c_to c_of].
  - intros t. destruct t. cbv [StopReplicaResponse_of StopReplicaResponse_to]. cbn [fst snd StopReplicaResponse_ErrorCode StopReplicaResponse_PartitionErrors]. rewrite ?(option_map_map_inv StopReplicaPartitionError5_to StopReplicaPartitionError5_of _ (l_of_to _ StopReplicaPartitionError5_linked)). reflexivity.
  - intros x. unfold StopReplicaResponse_schema in x. cbn [dens den] in x. destruct x as [x0 x]. destruct x as [x1 x]. destruct x. cbv [StopReplicaResponse_of StopReplicaResponse_to]. cbn [fst snd StopReplicaResponse_ErrorCode StopReplicaResponse_PartitionErrors]. rewrite ?(option_map_map_inv StopReplicaPartitionError5_of StopReplicaPartitionError5_to _ (l_to_of _ StopReplicaPartitionError5_linked)). reflexivity.
  - reflexivity.
  - intros v t. unfold StopReplicaResponse_Size, StopReplicaResponse_schema, StopReplicaResponse_to. apply size_start.
    apply size_step; [intros sz; reflexivity|].
    apply size_step; [intros sz; apply (size_field_link (StopReplicaPartitionError5_Size v) StopReplicaPartitionError5_schema StopReplicaPartitionError5_to v (l_size _ StopReplicaPartitionError5_linked v) true)|].
    intros sz; reflexivity.
  - intros v t. unfold StopReplicaResponse_Encode, StopReplicaResponse_schema, StopReplicaResponse_to.
    apply enc_step; [intros e; reflexivity|].
    apply enc_step; [intros e; apply (put_field_link (StopReplicaPartitionError5_Encode v) StopReplicaPartitionError5_schema StopReplicaPartitionError5_to v (l_encode _ StopReplicaPartitionError5_linked v) true)|].
    intros e; reflexivity.
  - intros v t. unfold StopReplicaResponse_Decode, StopReplicaResponse_schema, StopReplicaResponse_to.
    dec_field (fun x : Z => x); [apply dmap_id|intros x_ErrorCode].
    dec_field (option_map (map StopReplicaPartitionError5_of)); [apply (dec_array_link _ _ StopReplicaPartitionError5_of StopReplicaPartitionError5_to (l_decode _ StopReplicaPartitionError5_linked v StopReplicaPartitionError5_zero) (l_of_to _ StopReplicaPartitionError5_linked))|intros x_PartitionErrors].
    intros d; reflexivity.
Qed.
Local Opaque StopReplicaResponse_Size StopReplicaResponse_Encode StopReplicaResponse_Decode.

(** ** UpdateMetadataPartitionState6 *)

(** message/messages.gen.go:3042-3052 *)
Record UpdateMetadataPartitionState6 : Type := mkUpdateMetadataPartitionState6 { UpdateMetadataPartitionState6_TopicName : gostring; UpdateMetadataPartitionState6_PartitionIndex : Z; UpdateMetadataPartitionState6_ControllerEpoch : Z; UpdateMetadataPartitionState6_Leader : Z; UpdateMetadataPartitionState6_LeaderEpoch : Z; UpdateMetadataPartitionState6_Isr : gslice Z; UpdateMetadataPartitionState6_ZkVersion : Z; UpdateMetadataPartitionState6_Replicas : gslice Z; UpdateMetadataPartitionState6_OfflineReplicas : gslice Z }.
(** the zero value ([var item UpdateMetadataPartitionState6]) *)
Definition UpdateMetadataPartitionState6_zero : UpdateMetadataPartitionState6 := mkUpdateMetadataPartitionState6 [] 0 0 0 0 None 0 None None.
(** message/messages.gen.go:3055-3071 *)
Definition UpdateMetadataPartitionState6_Size (version : Z) (t : UpdateMetadataPartitionState6) : Z :=
  (size_if ((0 <=? version) && (version <=? 4)) (size_add (sz_String (UpdateMetadataPartitionState6_TopicName t))) +>
   (size_add sz_Int32) +>
   (size_add sz_Int32) +>
   (size_add sz_Int32) +>
   (size_add sz_Int32) +>
   (size_add (sz_Int32Array (UpdateMetadataPartitionState6_Isr t))) +>
   (size_add sz_Int32) +>
   (size_add (sz_Int32Array (UpdateMetadataPartitionState6_Replicas t))) +>
   size_if (4 <=? version) (size_add (sz_Int32Array (UpdateMetadataPartitionState6_OfflineReplicas t))) +>
   size_done)%size 0.
(** message/messages.gen.go:3074-3088 *)
Definition UpdateMetadataPartitionState6_Encode (version : Z) (t : UpdateMetadataPartitionState6) : Encoder -> Encoder :=
  (put_if ((0 <=? version) && (version <=? 4)) (PutString (UpdateMetadataPartitionState6_TopicName t)) >>
   (PutInt32 (UpdateMetadataPartitionState6_PartitionIndex t)) >>
   (PutInt32 (UpdateMetadataPartitionState6_ControllerEpoch t)) >>
   (PutInt32 (UpdateMetadataPartitionState6_Leader t)) >>
   (PutInt32 (UpdateMetadataPartitionState6_LeaderEpoch t)) >>
   (PutInt32Array (UpdateMetadataPartitionState6_Isr t)) >>
   (PutInt32 (UpdateMetadataPartitionState6_ZkVersion t)) >>
   (PutInt32Array (UpdateMetadataPartitionState6_Replicas t)) >>
   put_if (4 <=? version) (PutInt32Array (UpdateMetadataPartitionState6_OfflineReplicas t)) >>
   skip)%enc.
(** message/messages.gen.go:3091-3134 *)
Definition UpdateMetadataPartitionState6_Decode (version : Z) (t : UpdateMetadataPartitionState6) : Dec UpdateMetadataPartitionState6 :=
  x_TopicName <- dec_if ((0 <=? version) && (version <=? 4)) dString (UpdateMetadataPartitionState6_TopicName t) ;;
  x_PartitionIndex <- dInt32 ;;
  x_ControllerEpoch <- dInt32 ;;
  x_Leader <- dInt32 ;;
  x_LeaderEpoch <- dInt32 ;;
  x_Isr <- dInt32Array ;;
  x_ZkVersion <- dInt32 ;;
  x_Replicas <- dInt32Array ;;
  x_OfflineReplicas <- dec_if (4 <=? version) dInt32Array (UpdateMetadataPartitionState6_OfflineReplicas t) ;;
  ret (mkUpdateMetadataPartitionState6 x_TopicName x_PartitionIndex x_ControllerEpoch x_Leader x_LeaderEpoch x_Isr x_ZkVersion x_Replicas x_OfflineReplicas).
(** the struct declaration read as a schema; version ranges as in Size *)
Definition UpdateMetadataPartitionState6_schema : fields :=
  FCons "TopicName" (Between 0 4) TString
  (FCons "PartitionIndex" Always TInt32
  (FCons "ControllerEpoch" Always TInt32
  (FCons "Leader" Always TInt32
  (FCons "LeaderEpoch" Always TInt32
  (FCons "Isr" Always TInt32Array
  (FCons "ZkVersion" Always TInt32
  (FCons "Replicas" Always TInt32Array
  (FCons "OfflineReplicas" (From 4) TInt32Array FNil)))))))).
Definition UpdateMetadataPartitionState6_to (t : UpdateMetadataPartitionState6) : dens UpdateMetadataPartitionState6_schema := (UpdateMetadataPartitionState6_TopicName t, (UpdateMetadataPartitionState6_PartitionIndex t, (UpdateMetadataPartitionState6_ControllerEpoch t, (UpdateMetadataPartitionState6_Leader t, (UpdateMetadataPartitionState6_LeaderEpoch t, (UpdateMetadataPartitionState6_Isr t, (UpdateMetadataPartitionState6_ZkVersion t, (UpdateMetadataPartitionState6_Replicas t, (UpdateMetadataPartitionState6_OfflineReplicas t, tt))))))))).
Definition UpdateMetadataPartitionState6_of (x : dens UpdateMetadataPartitionState6_schema) : UpdateMetadataPartitionState6 := mkUpdateMetadataPartitionState6 (fst x) (fst (snd x)) (fst (snd (snd x))) (fst (snd (snd (snd x)))) (fst (snd (snd (snd (snd x))))) (fst (snd (snd (snd (snd (snd x)))))) (fst (snd (snd (snd (snd (snd (snd x))))))) (fst (snd (snd (snd (snd (snd (snd (snd x)))))))) (fst (snd (snd (snd (snd (snd (snd (snd (snd x))))))))).
Definition UpdateMetadataPartitionState6_codec : codec := Codec UpdateMetadataPartitionState6 UpdateMetadataPartitionState6_zero UpdateMetadataPartitionState6_Size UpdateMetadataPartitionState6_Encode UpdateMetadataPartitionState6_Decode UpdateMetadataPartitionState6_schema UpdateMetadataPartitionState6_to UpdateMetadataPartitionState6_of.
Lemma UpdateMetadataPartitionState6_linked : linked UpdateMetadataPartitionState6_codec.
Proof.
  apply Linked; cbn [UpdateMetadataPartitionState6_codec c_type c_zero c_size c_encode c_decode c_schema c_to c_of].
  - intros t. destruct t. cbv [UpdateMetadataPartitionState6_of UpdateMetadataPartitionState6_to]. cbn [fst snd UpdateMetadataPartitionState6_TopicName UpdateMetadataPartitionState6_PartitionIndex UpdateMetadataPartitionState6_ControllerEpoch UpdateMetadataPartitionState6_Leader UpdateMetadataPartitionState6_LeaderEpoch UpdateMetadataPartitionState6_Isr UpdateMetadataPartitionState6_ZkVersion UpdateMetadataPartitionState6_Replicas UpdateMetadataPartitionState6_OfflineReplicas].  reflexivity.
  - intros x. unfold UpdateMetadataPartitionState6_schema in x. cbn [dens den] in x. destruct x as [x0 x]. destruct x as [x1 x]. destruct x as [x2 x]. destruct x as [x3 x]. destruct x as [x4 x]. destruct x as [x5 x]. destruct x as [x6 x]. destruct x as [x7 x]. destruct x as [x8 x]. destruct x. cbv [UpdateMetadataPartitionState6_of UpdateMetadataPartitionState6_to]. cbn [fst snd UpdateMetadataPartitionState6_TopicName UpdateMetadataPartitionState6_PartitionIndex UpdateMetadataPartitionState6_ControllerEpoch UpdateMetadataPartitionState6_Leader UpdateMetadataPartitionState6_LeaderEpoch UpdateMetadataPartitionState6_Isr UpdateMetadataPartitionState6_ZkVersion UpdateMetadataPartitionState6_Replicas UpdateMetadataPartitionState6_OfflineReplicas].  reflexivity.
  - reflexivity.
  - intros v t. unfold UpdateMetadataPartitionState6_Size, UpdateMetadataPartitionState6_schema, UpdateMetadataPartitionState6_to. apply size_start.
    apply size_step; [intros sz; reflexivity|].
    apply size_step; [intros sz; reflexivity|].
    apply size_step; [intros sz; reflexivity|].
    apply size_step; [intros sz; reflexivity|].
    apply size_step; [intros sz; reflexivity|].
    apply size_step; [intros sz; reflexivity|].
    apply size_step; [intros sz; reflexivity|].
    apply size_step; [intros sz; reflexivity|].
    apply size_step; [intros sz; reflexivity|].
    intros sz; reflexivity.
  - intros v t. unfold UpdateMetadataPartitionState6_Encode, UpdateMetadataPartitionState6_schema, UpdateMetadataPartitionState6_to.
    apply enc_step; [intros e; reflexivity|].
    apply enc_step; [intros e; reflexivity|].
    apply enc_step; [intros e; reflexivity|].
    apply enc_step; [intros e; reflexivity|].
    apply enc_step; [intros e; reflexivity|].
    apply enc_step; [intros e; reflexivity|].
    apply enc_step; [intros e; reflexivity|].
    apply enc_step; [intros e; reflexivity|].
    apply enc_step; [intros e; reflexivity|].
    intros e; reflexivity.
  - intros v t. unfold UpdateMetadataPartitionState6_Decode, UpdateMetadataPartitionState6_schema, UpdateMetadataPartitionState6_to.
    dec_field (fun x : gostring => x); [apply dec_if_link; [apply dmap_id|reflexivity]|intros x_TopicName].
    dec_field (fun x : Z => x); [apply dmap_id|intros x_PartitionIndex].
    dec_field (fun x : Z => x); [apply dmap_id|intros x_ControllerEpoch].
    dec_field (fun x : Z => x); [apply dmap_id|intros x_Leader].
    dec_field (fun x : Z => x); [apply dmap_id|intros x_LeaderEpoch].
    dec_field (fun x : gslice Z => x); [apply dmap_id|intros x_Isr].
    dec_field (fun x : Z => x); [apply dmap_id|intros x_ZkVersion].
    dec_field (fun x : gslice Z => x); [apply dmap_id|intros x_Replicas].
    dec_field (fun x : gslice Z => x); [apply dec_if_link; [apply dmap_id|reflexivity]|intros x_OfflineReplicas].
    intros d; reflexivity.
Qed.
Local Opaque UpdateMetadataPartitionState6_Size UpdateMetadataPartitionState6_Encode UpdateMetadataPartitionState6_Decode.

(** ** UpdateMetadataTopicState6 *)

(** message/messages.gen.go:2814-2817 *)
Record UpdateMetadataTopicState6 : Type := mkUpdateMetadataTopicState6 { UpdateMetadataTopicState6_TopicName : gostring; UpdateMetadataTopicState6_PartitionStates : gslice UpdateMetadataPartitionState6 }.
(** the zero value ([var item UpdateMetadataTopicState6]) *)
Definition UpdateMetadataTopicState6_zero : UpdateMetadataTopicState6 := mkUpdateMetadataTopicState6 [] None.
(** message/messages.gen.go:2820-2832 *)
Definition UpdateMetadataTopicState6_Size (version : Z) (t : UpdateMetadataTopicState6) : Z :=
  (size_if (5 <=? version) (size_add (sz_String (UpdateMetadataTopicState6_TopicName t))) +>
   size_if (5 <=? version) (size_loop (UpdateMetadataPartitionState6_Size version) (UpdateMetadataTopicState6_PartitionStates t)) +>
   size_done)%size 0.
(** message/messages.gen.go:2835-2847 *)
Definition UpdateMetadataTopicState6_Encode (version : Z) (t : UpdateMetadataTopicState6) : Encoder -> Encoder :=
  (put_if (5 <=? version) (PutString (UpdateMetadataTopicState6_TopicName t)) >>
   put_if (5 <=? version) (put_array (UpdateMetadataPartitionState6_Encode version) (UpdateMetadataTopicState6_PartitionStates t)) >>
   skip)%enc.
(** message/messages.gen.go:2850-2874 *)
Definition UpdateMetadataTopicState6_Decode (version : Z) (t : UpdateMetadataTopicState6) : Dec UpdateMetadataTopicState6 :=
  x_TopicName <- dec_if (5 <=? version) dString (UpdateMetadataTopicState6_TopicName t) ;;
  x_PartitionStates <- dec_if (5 <=? version) (dec_array (UpdateMetadataPartitionState6_Decode version UpdateMetadataPartitionState6_zero) (UpdateMetadataTopicState6_PartitionStates t)) (UpdateMetadataTopicState6_PartitionStates t) ;;
  ret (mkUpdateMetadataTopicState6 x_TopicName x_PartitionStates).
(** the struct declaration read as a schema; version ranges as in Size *)
Definition UpdateMetadataTopicState6_schema : fields :=
  FCons "TopicName" (From 5) TString
  (FCons "PartitionStates" (From 5) (TArray UpdateMetadataPartitionState6_schema) FNil).
Definition UpdateMetadataTopicState6_to (t : UpdateMetadataTopicState6) : dens UpdateMetadataTopicState6_schema := (UpdateMetadataTopicState6_TopicName t, (option_map (map UpdateMetadataPartitionState6_to) (UpdateMetadataTopicState6_PartitionStates t), tt)).
Definition UpdateMetadataTopicState6_of (x : dens UpdateMetadataTopicState6_schema) : UpdateMetadataTopicState6 := mkUpdateMetadataTopicState6 (fst x) (option_map (map UpdateMetadataPartitionState6_of) (fst (snd x))).
Definition UpdateMetadataTopicState6_codec : codec := Codec UpdateMetadataTopicState6 UpdateMetadataTopicState6_zero UpdateMetadataTopicState6_Size UpdateMetadataTopicState6_Encode UpdateMetadataTopicState6_Decode UpdateMetadataTopicState6_schema UpdateMetadataTopicState6_to UpdateMetadataTopicState6_of.
Lemma UpdateMetadataTopicState6_linked : linked UpdateMetadataTopicState6_codec.
Proof.
  apply Linked; cbn [UpdateMetadataTopicState6_codec c_type c_zero c_size c_encode c_decode c_schema c_to c_of].
  - intros t. destruct t. cbv [UpdateMetadataTopicState6_of UpdateMetadataTopicState6_to]. cbn [fst snd UpdateMetadataTopicState6_TopicName UpdateMetadataTopicState6_PartitionStates]. rewrite ?(option_map_map_inv UpdateMetadataPartitionState6_to UpdateMetadataPartitionState6_of _ (l_of_to _ UpdateMetadataPartitionState6_linked)). reflexivity.
  - intros x. unfold UpdateMetadataTopicState6_schema in x. cbn [dens den] in x. destruct x as [x0 x]. destruct x as [x1 x]. destruct x. cbv [UpdateMetadataTopicState6_of UpdateMetadataTopicState6_to]. cbn [fst snd UpdateMetadataTopicState6_TopicName UpdateMetadataTopicState6_PartitionStates]. rewrite ?(option_map_map_inv UpdateMetadataPartitionState6_of UpdateMetadataPartitionState6_to _ (l_to_of _ UpdateMetadataPartitionState6_linked)). reflexivity.
  - reflexivity.
  - intros v t. unfold UpdateMetadataTopicState6_Size, UpdateMetadataTopicState6_schema, UpdateMetadataTopicState6_to. apply size_start.
    apply size_step; [intros sz; reflexivity|].
    apply size_step; [intros sz; apply (size_field_link (UpdateMetadataPartitionState6_Size v) UpdateMetadataPartitionState6_schema UpdateMetadataPartitionState6_to v (l_size _ UpdateMetadataPartitionState6_linked v) _)|].
    intros sz; reflexivity.
  - intros v t. unfold UpdateMetadataTopicState6_Encode, UpdateMetadataTopicState6_schema, UpdateMetadataTopicState6_to.
    apply enc_step; [intros e; reflexivity|].
    apply enc_step; [intros e; apply (put_field_link (UpdateMetadataPartitionState6_Encode v) UpdateMetadataPartitionState6_schema UpdateMetadataPartitionState6_to v (l_encode _ UpdateMetadataPartitionState6_linked v) _)|].
    intros e; reflexivity.
  - intros v t. unfold UpdateMetadataTopicState6_Decode, UpdateMetadataTopicState6_schema, UpdateMetadataTopicState6_to.
    dec_field (fun x : gostring => x); [apply dec_if_link; [apply dmap_id|reflexivity]|intros x_TopicName].
    dec_field (option_map (map UpdateMetadataPartitionState6_of)); [apply dec_if_link; [apply (dec_array_link _ _ UpdateMetadataPartitionState6_of UpdateMetadataPartitionState6_to (l_decode _ UpdateMetadataPartitionState6_linked v UpdateMetadataPartitionState6_zero) (l_of_to _ UpdateMetadataPartitionState6_linked))|symmetry; apply (option_map_map_inv UpdateMetadataPartitionState6_to UpdateMetadataPartitionState6_of _ (l_of_to _ UpdateMetadataPartitionState6_linked))]|intros x_PartitionStates].
    intros d; reflexivity.
Qed.
Local Opaque UpdateMetadataTopicState6_Size UpdateMetadataTopicState6_Encode UpdateMetadataTopicState6_Decode.

(** ** UpdateMetadataEndpoint6 *)

(** message/messages.gen.go:2971-2976 *)
Record UpdateMetadataEndpoint6 : Type := mkUpdateMetadataEndpoint6 { UpdateMetadataEndpoint6_Port : Z; UpdateMetadataEndpoint6_Host : gostring; UpdateMetadataEndpoint6_Listener : gostring; UpdateMetadataEndpoint6_SecurityProtocol : Z }.
(** the zero value ([var item UpdateMetadataEndpoint6]) *)
Definition UpdateMetadataEndpoint6_zero : UpdateMetadataEndpoint6 := mkUpdateMetadataEndpoint6 0 [] [] 0.
(** message/messages.gen.go:2979-2994 *)
Definition UpdateMetadataEndpoint6_Size (version : Z) (t : UpdateMetadataEndpoint6) : Z :=
  (size_if (1 <=? version) (size_add sz_Int32) +>
   size_if (1 <=? version) (size_add (sz_String (UpdateMetadataEndpoint6_Host t))) +>
   size_if (3 <=? version) (size_add (sz_String (UpdateMetadataEndpoint6_Listener t))) +>
   size_if (1 <=? version) (size_add sz_Int16) +>
   size_done)%size 0.
(** message/messages.gen.go:2997-3010 *)
Definition UpdateMetadataEndpoint6_Encode (version : Z) (t : UpdateMetadataEndpoint6) : Encoder -> Encoder :=
  (put_if (1 <=? version) (PutInt32 (UpdateMetadataEndpoint6_Port t)) >>
   put_if (1 <=? version) (PutString (UpdateMetadataEndpoint6_Host t)) >>
   put_if (3 <=? version) (PutString (UpdateMetadataEndpoint6_Listener t)) >>
   put_if (1 <=? version) (PutInt16 (UpdateMetadataEndpoint6_SecurityProtocol t)) >>
   skip)%enc.
(** message/messages.gen.go:3013-3040 *)
Definition UpdateMetadataEndpoint6_Decode (version : Z) (t : UpdateMetadataEndpoint6) : Dec UpdateMetadataEndpoint6 :=
  x_Port <- dec_if (1 <=? version) dInt32 (UpdateMetadataEndpoint6_Port t) ;;
  x_Host <- dec_if (1 <=? version) dString (UpdateMetadataEndpoint6_Host t) ;;
  x_Listener <- dec_if (3 <=? version) dString (UpdateMetadataEndpoint6_Listener t) ;;
  x_SecurityProtocol <- dec_if (1 <=? version) dInt16 (UpdateMetadataEndpoint6_SecurityProtocol t) ;;
  ret (mkUpdateMetadataEndpoint6 x_Port x_Host x_Listener x_SecurityProtocol).
(** the struct declaration read as a schema; version ranges as in Size *)
Definition UpdateMetadataEndpoint6_schema : fields :=
  FCons "Port" (From 1) TInt32
  (FCons "Host" (From 1) TString
  (FCons "Listener" (From 3) TString
  (FCons "SecurityProtocol" (From 1) TInt16 FNil))).
Definition UpdateMetadataEndpoint6_to (t : UpdateMetadataEndpoint6) : dens UpdateMetadataEndpoint6_schema := (UpdateMetadataEndpoint6_Port t, (UpdateMetadataEndpoint6_Host t, (UpdateMetadataEndpoint6_Listener t, (UpdateMetadataEndpoint6_SecurityProtocol t, tt)))).
Definition UpdateMetadataEndpoint6_of (x : dens UpdateMetadataEndpoint6_schema) : UpdateMetadataEndpoint6 := mkUpdateMetadataEndpoint6 (fst x) (fst (snd x)) (fst (snd (snd x))) (fst (snd (snd (snd x)))).
Definition UpdateMetadataEndpoint6_codec : codec := Codec UpdateMetadataEndpoint6 UpdateMetadataEndpoint6_zero UpdateMetadataEndpoint6_Size UpdateMetadataEndpoint6_Encode UpdateMetadataEndpoint6_Decode UpdateMetadataEndpoint6_schema UpdateMetadataEndpoint6_to UpdateMetadataEndpoint6_of.
Lemma UpdateMetadataEndpoint6_linked : linked UpdateMetadataEndpoint6_codec.
Proof.
  apply Linked; cbn [UpdateMetadataEndpoint6_codec c_type c_zero c_size c_encode c_decode c_schema c_to c_of].
  - intros t. destruct t. cbv [UpdateMetadataEndpoint6_of UpdateMetadataEndpoint6_to]. cbn [fst snd UpdateMetadataEndpoint6_Port UpdateMetadataEndpoint6_Host UpdateMetadataEndpoint6_Listener UpdateMetadataEndpoint6_SecurityProtocol].  reflexivity.
  - intros x. unfold UpdateMetadataEndpoint6_schema in x. cbn [dens den] in x. destruct x as [x0 x]. destruct x as [x1 x]. destruct x as [x2 x]. destruct x as [x3 x]. destruct x. cbv [UpdateMetadataEndpoint6_of UpdateMetadataEndpoint6_to]. cbn [fst snd UpdateMetadataEndpoint6_Port UpdateMetadataEndpoint6_Host UpdateMetadataEndpoint6_Listener UpdateMetadataEndpoint6_SecurityProtocol].  reflexivity.
  - reflexivity.
  - intros v t. unfold UpdateMetadataEndpoint6_Size, UpdateMetadataEndpoint6_schema, UpdateMetadataEndpoint6_to. apply size_start.
    apply size_step; [intros sz; reflexivity|].
    apply size_step; [intros sz; reflexivity|].
    apply size_step; [intros sz; reflexivity|].
    apply size_step; [intros sz; reflexivity|].
    intros sz; reflexivity.
  - intros v t. unfold UpdateMetadataEndpoint6_Encode, UpdateMetadataEndpoint6_schema, UpdateMetadataEndpoint6_to.
    apply enc_step; [intros e; reflexivity|].
    apply enc_step; [intros e; reflexivity|].
    apply enc_step; [intros e; reflexivity|].
    apply enc_step; [intros e; reflexivity|].
    intros e; reflexivity.
  - intros v t. unfold UpdateMetadataEndpoint6_Decode, UpdateMetadataEndpoint6_schema, UpdateMetadataEndpoint6_to.
    dec_field (fun x : Z => x); [apply dec_if_link; [apply dmap_id|reflexivity]|intros x_Port].
    dec_field (fun x : gostring => x); [apply dec_if_link; [apply dmap_id|reflexivity]|intros x_Host].
    dec_field (fun x : gostring => x); [apply dec_if_link; [apply dmap_id|reflexivity]|intros x_Listener].
    dec_field (fun x : Z => x); [apply dec_if_link; [apply dmap_id|reflexivity]|intros x_SecurityProtocol].
    intros d; reflexivity.
Qed.
Local Opaque UpdateMetadataEndpoint6_Size UpdateMetadataEndpoint6_Encode UpdateMetadataEndpoint6_Decode.

(** ** UpdateMetadataBroker6 *)

(** message/messages.gen.go:2876-2882 *)
Record UpdateMetadataBroker6 : Type := mkUpdateMetadataBroker6 { UpdateMetadataBroker6_Id : Z; UpdateMetadataBroker6_V0Host : gostring; UpdateMetadataBroker6_V0Port : Z; UpdateMetadataBroker6_Endpoints : gslice UpdateMetadataEndpoint6; UpdateMetadataBroker6_Rack : gostring }.
(** the zero value ([var item UpdateMetadataBroker6]) *)
Definition UpdateMetadataBroker6_zero : UpdateMetadataBroker6 := mkUpdateMetadataBroker6 0 [] 0 None [].
(** message/messages.gen.go:2885-2904 *)
Definition UpdateMetadataBroker6_Size (version : Z) (t : UpdateMetadataBroker6) : Z :=
  ((size_add sz_Int32) +>
   size_if ((0 <=? version) && (version <=? 0)) (size_add (sz_String (UpdateMetadataBroker6_V0Host t))) +>
   size_if ((0 <=? version) && (version <=? 0)) (size_add sz_Int32) +>
   size_if (1 <=? version) (size_loop (UpdateMetadataEndpoint6_Size version) (UpdateMetadataBroker6_Endpoints t)) +>
   size_if (2 <=? version) (size_add (sz_String (UpdateMetadataBroker6_Rack t))) +>
   size_done)%size 0.
(** message/messages.gen.go:2907-2926 *)
Definition UpdateMetadataBroker6_Encode (version : Z) (t : UpdateMetadataBroker6) : Encoder -> Encoder :=
  ((PutInt32 (UpdateMetadataBroker6_Id t)) >>
   put_if ((0 <=? version) && (version <=? 0)) (PutString (UpdateMetadataBroker6_V0Host t)) >>
   put_if ((0 <=? version) && (version <=? 0)) (PutInt32 (UpdateMetadataBroker6_V0Port t)) >>
   put_if (1 <=? version) (put_array (UpdateMetadataEndpoint6_Encode version) (UpdateMetadataBroker6_Endpoints t)) >>
   put_if (2 <=? version) (PutString (UpdateMetadataBroker6_Rack t)) >>
   skip)%enc.
(** message/messages.gen.go:2929-2969 *)
Definition UpdateMetadataBroker6_Decode (version : Z) (t : UpdateMetadataBroker6) : Dec UpdateMetadataBroker6 :=
  x_Id <- dInt32 ;;
  x_V0Host <- dec_if ((0 <=? version) && (version <=? 0)) dString (UpdateMetadataBroker6_V0Host t) ;;
  x_V0Port <- dec_if ((0 <=? version) && (version <=? 0)) dInt32 (UpdateMetadataBroker6_V0Port t) ;;
  x_Endpoints <- dec_if (1 <=? version) (dec_array (UpdateMetadataEndpoint6_Decode version UpdateMetadataEndpoint6_zero) (UpdateMetadataBroker6_Endpoints t)) (UpdateMetadataBroker6_Endpoints t) ;;
  x_Rack <- dec_if (2 <=? version) dString (UpdateMetadataBroker6_Rack t) ;;
  ret (mkUpdateMetadataBroker6 x_Id x_V0Host x_V0Port x_Endpoints x_Rack).
(** the struct declaration read as a schema; version ranges as in Size *)
Definition UpdateMetadataBroker6_schema : fields :=
  FCons "Id" Always TInt32
  (FCons "V0Host" (Between 0 0) TString
  (FCons "V0Port" (Between 0 0) TInt32
  (FCons "Endpoints" (From 1) (TArray UpdateMetadataEndpoint6_schema)
  (FCons "Rack" (From 2) TString FNil)))).
Definition UpdateMetadataBroker6_to (t : UpdateMetadataBroker6) : dens UpdateMetadataBroker6_schema := (UpdateMetadataBroker6_Id t, (UpdateMetadataBroker6_V0Host t, (UpdateMetadataBroker6_V0Port t, (option_map (map UpdateMetadataEndpoint6_to) (UpdateMetadataBroker6_Endpoints t), (UpdateMetadataBroker6_Rack t, tt))))).
Definition UpdateMetadataBroker6_of (x : dens UpdateMetadataBroker6_schema) : UpdateMetadataBroker6 := mkUpdateMetadataBroker6 (fst x) (fst (snd x)) (fst (snd (snd x))) (option_map (map UpdateMetadataEndpoint6_of) (fst (snd (snd (snd x))))) (fst (snd (snd (snd (snd x))))).
Definition UpdateMetadataBroker6_codec : codec := Codec UpdateMetadataBroker6 UpdateMetadataBroker6_zero UpdateMetadataBroker6_Size UpdateMetadataBroker6_Encode UpdateMetadataBroker6_Decode UpdateMetadataBroker6_schema UpdateMetadataBroker6_to UpdateMetadataBroker6_of.
Lemma UpdateMetadataBroker6_linked : linked UpdateMetadataBroker6_codec.
Proof.
  apply Linked; cbn [UpdateMetadataBroker6_codec c_type c_zero c_size c_encode c_decode c_schema c_to c_of].
  - intros t. destruct t. cbv [UpdateMetadataBroker6_of UpdateMetadataBroker6_to]. cbn [fst snd UpdateMetadataBroker6_Id UpdateMetadataBroker6_V0Host UpdateMetadataBroker6_V0Port UpdateMetadataBroker6_Endpoints UpdateMetadataBroker6_Rack]. rewrite ?(option_map_map_inv UpdateMetadataEndpoint6_to UpdateMetadataEndpoint6_of _ (l_of_to _ UpdateMetadataEndpoint6_linked)). reflexivity.
  - intros x. unfold UpdateMetadataBroker6_schema in x. cbn [dens den] in x. destruct x as [x0 x]. destruct x as [x1 x]. destruct x as [x2 x]. destruct x as [x3 x]. destruct x as [x4 x]. destruct x. cbv [UpdateMetadataBroker6_of UpdateMetadataBroker6_to]. cbn [fst snd UpdateMetadataBroker6_Id UpdateMetadataBroker6_V0Host UpdateMetadataBroker6_V0Port UpdateMetadataBroker6_Endpoints UpdateMetadataBroker6_Rack]. rewrite ?(option_map_map_inv UpdateMetadataEndpoint6_of UpdateMetadataEndpoint6_to _ (l_to_of _ UpdateMetadataEndpoint6_linked)). reflexivity.
  - reflexivity.
  - intros v t. unfold UpdateMetadataBroker6_Size, UpdateMetadataBroker6_schema, UpdateMetadataBroker6_to. apply size_start.
    apply size_step; [intros sz; reflexivity|].
    apply size_step; [intros sz; reflexivity|].
    apply size_step; [intros sz; reflexivity|].
    apply size_step; [intros sz; apply (size_field_link (UpdateMetadataEndpoint6_Size v) UpdateMetadataEndpoint6_schema UpdateMetadataEndpoint6_to v (l_size _ UpdateMetadataEndpoint6_linked v) _)|].
    apply size_step; [intros sz; reflexivity|].
    intros sz; reflexivity.
  - intros v t. unfold UpdateMetadataBroker6_Encode, UpdateMetadataBroker6_schema, UpdateMetadataBroker6_to.
    apply enc_step; [intros e; reflexivity|].
    apply enc_step; [intros e; reflexivity|].
    apply enc_step; [intros e; reflexivity|].
    apply enc_step; [intros e; apply (put_field_link (UpdateMetadataEndpoint6_Encode v) UpdateMetadataEndpoint6_schema UpdateMetadataEndpoint6_to v (l_encode _ UpdateMetadataEndpoint6_linked v) _)|].
    apply enc_step; [intros e; reflexivity|].
    intros e; reflexivity.
  - intros v t. unfold UpdateMetadataBroker6_Decode, UpdateMetadataBroker6_schema, UpdateMetadataBroker6_to.
    dec_field (fun x : Z => x); [apply dmap_id|intros x_Id].
    dec_field (fun x : gostring => x); [apply dec_if_link; [apply dmap_id|reflexivity]|intros x_V0Host].
    dec_field (fun x : Z => x); [apply dec_if_link; [apply dmap_id|reflexivity]|intros x_V0Port].
    dec_field (option_map (map UpdateMetadataEndpoint6_of)); [apply dec_if_link; [apply (dec_array_link _ _ UpdateMetadataEndpoint6_of UpdateMetadataEndpoint6_to (l_decode _ UpdateMetadataEndpoint6_linked v UpdateMetadataEndpoint6_zero) (l_of_to _ UpdateMetadataEndpoint6_linked))|symmetry; apply (option_map_map_inv UpdateMetadataEndpoint6_to UpdateMetadataEndpoint6_of _ (l_of_to _ UpdateMetadataEndpoint6_linked))]|intros x_Endpoints].
    dec_field (fun x : gostring => x); [apply dec_if_link; [apply dmap_id|reflexivity]|intros x_Rack].
    intros d; reflexivity.
Qed.
Local Opaque UpdateMetadataBroker6_Size UpdateMetadataBroker6_Encode UpdateMetadataBroker6_Decode.

(** ** UpdateMetadataRequest *)

(** message/messages.gen.go:2684-2691 *)
Record UpdateMetadataRequest : Type := mkUpdateMetadataRequest { UpdateMetadataRequest_ControllerId : Z; UpdateMetadataRequest_ControllerEpoch : Z; UpdateMetadataRequest_BrokerEpoch : Z; UpdateMetadataRequest_UngroupedPartitionStates : gslice UpdateMetadataPartitionState6; UpdateMetadataRequest_TopicStates : gslice UpdateMetadataTopicState6; UpdateMetadataRequest_LiveBrokers : gslice UpdateMetadataBroker6 }.
(** the zero value ([var item UpdateMetadataRequest]) *)
Definition UpdateMetadataRequest_zero : UpdateMetadataRequest := mkUpdateMetadataRequest 0 0 0 None None None.
(** message/messages.gen.go:2694-2718 *)
Definition UpdateMetadataRequest_Size (version : Z) (t : UpdateMetadataRequest) : Z :=
  ((size_add sz_Int32) +>
   (size_add sz_Int32) +>
   size_if (5 <=? version) (size_add sz_Int64) +>
   size_if ((0 <=? version) && (version <=? 4)) (size_loop (UpdateMetadataPartitionState6_Size version) (UpdateMetadataRequest_UngroupedPartitionStates t)) +>
   size_if (5 <=? version) (size_loop (UpdateMetadataTopicState6_Size version) (UpdateMetadataRequest_TopicStates t)) +>
   (size_loop (UpdateMetadataBroker6_Size version) (UpdateMetadataRequest_LiveBrokers t)) +>
   size_done)%size 0.
(** message/messages.gen.go:2721-2749 *)
Definition UpdateMetadataRequest_Encode (version : Z) (t : UpdateMetadataRequest) : Encoder -> Encoder :=
  ((PutInt32 (UpdateMetadataRequest_ControllerId t)) >>
   (PutInt32 (UpdateMetadataRequest_ControllerEpoch t)) >>
   put_if (5 <=? version) (PutInt64 (UpdateMetadataRequest_BrokerEpoch t)) >>
   put_if ((0 <=? version) && (version <=? 4)) (put_array (UpdateMetadataPartitionState6_Encode version) (UpdateMetadataRequest_UngroupedPartitionStates t)) >>
   put_if (5 <=? version) (put_array (UpdateMetadataTopicState6_Encode version) (UpdateMetadataRequest_TopicStates t)) >>
   (put_array (UpdateMetadataBroker6_Encode version) (UpdateMetadataRequest_LiveBrokers t)) >>
   skip)%enc.
(** message/messages.gen.go:2752-2812 *)
Definition UpdateMetadataRequest_Decode (version : Z) (t : UpdateMetadataRequest) : Dec UpdateMetadataRequest :=
  x_ControllerId <- dInt32 ;;
  x_ControllerEpoch <- dInt32 ;;
  x_BrokerEpoch <- dec_if (5 <=? version) dInt64 (UpdateMetadataRequest_BrokerEpoch t) ;;
  x_UngroupedPartitionStates <- dec_if ((0 <=? version) && (version <=? 4)) (dec_array (UpdateMetadataPartitionState6_Decode version UpdateMetadataPartitionState6_zero) (UpdateMetadataRequest_UngroupedPartitionStates t)) (UpdateMetadataRequest_UngroupedPartitionStates t) ;;
  x_TopicStates <- dec_if (5 <=? version) (dec_array (UpdateMetadataTopicState6_Decode version UpdateMetadataTopicState6_zero) (UpdateMetadataRequest_TopicStates t)) (UpdateMetadataRequest_TopicStates t) ;;
  x_LiveBrokers <- (dec_array (UpdateMetadataBroker6_Decode version UpdateMetadataBroker6_zero) (UpdateMetadataRequest_LiveBrokers t)) ;;
  ret (mkUpdateMetadataRequest x_ControllerId x_ControllerEpoch x_BrokerEpoch x_UngroupedPartitionStates x_TopicStates x_LiveBrokers).
(** the struct declaration read as a schema; version ranges as in Size *)
Definition UpdateMetadataRequest_schema : fields :=
  FCons "ControllerId" Always TInt32
  (FCons "ControllerEpoch" Always TInt32
  (FCons "BrokerEpoch" (From 5) TInt64
  (FCons "UngroupedPartitionStates" (Between 0 4) (TArray UpdateMetadataPartitionState6_schema)
  (FCons "TopicStates" (From 5) (TArray UpdateMetadataTopicState6_schema)
  (FCons "LiveBrokers" Always (TArray UpdateMetadataBroker6_schema) FNil))))).
Definition UpdateMetadataRequest_to (t : UpdateMetadataRequest) : dens UpdateMetadataRequest_schema := (UpdateMetadataRequest_ControllerId t, (UpdateMetadataRequest_ControllerEpoch t, (UpdateMetadataRequest_BrokerEpoch t, (option_map (map UpdateMetadataPartitionState6_to) (UpdateMetadataRequest_UngroupedPartitionStates t), (option_map (map UpdateMetadataTopicState6_to) (UpdateMetadataRequest_TopicStates t), (option_map (map UpdateMetadataBroker6_to) (UpdateMetadataRequest_LiveBrokers t), tt)))))).
Definition UpdateMetadataRequest_of (x : dens UpdateMetadataRequest_schema) : UpdateMetadataRequest := mkUpdateMetadataRequest (fst x) (fst (snd x)) (fst (snd (snd x))) (option_map (map UpdateMetadataPartitionState6_of) (fst (snd (snd (snd x))))) (option_map (map UpdateMetadataTopicState6_of) (fst (snd (snd (snd (snd x)))))) (option_map (map UpdateMetadataBroker6_of) (fst (snd (snd (snd (snd (snd x))))))).
Definition UpdateMetadataRequest_codec : codec := Codec UpdateMetadataRequest UpdateMetadataRequest_zero UpdateMetadataRequest_Size UpdateMetadataRequest_Encode UpdateMetadataRequest_Decode UpdateMetadataRequest_schema UpdateMetadataRequest_to UpdateMetadataRequest_of.
Lemma UpdateMetadataRequest_linked : linked UpdateMetadataRequest_codec.
Proof.
  apply Linked; cbn [UpdateMetadataRequest_codec c_type c_zero c_size c_encode c_decode c_schema c_to c_of].
  - intros t. destruct t. cbv [UpdateMetadataRequest_of UpdateMetadataRequest_to]. cbn [fst snd UpdateMetadataRequest_ControllerId UpdateMetadataRequest_ControllerEpoch UpdateMetadataRequest_BrokerEpoch UpdateMetadataRequest_UngroupedPartitionStates UpdateMetadataRequest_TopicStates UpdateMetadataRequest_LiveBrokers]. rewrite ?(option_map_map_inv UpdateMetadataPartitionState6_to UpdateMetadataPartitionState6_of _ (l_of_to _ UpdateMetadataPartitionState6_linked)). rewrite ?(option_map_map_inv UpdateMetadataTopicState6_to UpdateMetadataTopicState6_of _ (l_of_to _ UpdateMetadataTopicState6_linked)). rewrite ?(option_map_map_inv UpdateMetadataBroker6_to UpdateMetadataBroker6_of _ (l_of_to _ UpdateMetadataBroker6_linked)). reflexivity.
  - intros x. unfold UpdateMetadataRequest_schema in x. cbn [dens den] in x. destruct x as [x0 x]. destruct x as [x1 x]. destruct x as [x2 x]. destruct x as [x3 x]. destruct x as [x4 x]. destruct x as [x5 x]. destruct x. cbv [UpdateMetadataRequest_of UpdateMetadataRequest_to]. cbn [fst snd UpdateMetadataRequest_ControllerId UpdateMetadataRequest_ControllerEpoch UpdateMetadataRequest_BrokerEpoch UpdateMetadataRequest_UngroupedPartitionStates UpdateMetadataRequest_TopicStates UpdateMetadataRequest_LiveBrokers]. rewrite ?(option_map_map_inv UpdateMetadataPartitionState6_of UpdateMetadataPartitionState6_to _ (l_to_of _ UpdateMetadataPartitionState6_linked)). rewrite ?(option_map_map_inv UpdateMetadataTopicState6_of UpdateMetadataTopicState6_to _ (l_to_of _ UpdateMetadataTopicState6_linked)). rewrite ?(option_map_map_inv UpdateMetadataBroker6_of UpdateMetadataBroker6_to _ (l_to_of _ UpdateMetadataBroker6_linked)). reflexivity.
  - reflexivity.
  - intros v t. unfold UpdateMetadataRequest_Size, UpdateMetadataRequest_schema, UpdateMetadataRequest_to. apply size_start.
    apply size_step; [intros sz; reflexivity|].
    apply size_step; [intros sz; reflexivity|].
    apply size_step; [intros sz; reflexivity|].
    apply size_step; [intros sz; apply (size_field_link (UpdateMetadataPartitionState6_Size v) UpdateMetadataPartitionState6_schema UpdateMetadataPartitionState6_to v (l_size _ UpdateMetadataPartitionState6_linked v) _)|].
    apply size_step; [intros sz; apply (size_field_link (UpdateMetadataTopicState6_Size v) UpdateMetadataTopicState6_schema UpdateMetadataTopicState6_to v (l_size _ UpdateMetadataTopicState6_linked v) _)|].
    apply size_step; [intros sz; apply (size_field_link (UpdateMetadataBroker6_Size v) UpdateMetadataBroker6_schema UpdateMetadataBroker6_to v (l_size _ UpdateMetadataBroker6_linked v) true)|].
    intros sz; reflexivity.
  - intros v t. unfold UpdateMetadataRequest_Encode, UpdateMetadataRequest_schema, UpdateMetadataRequest_to.
    apply enc_step; [intros e; reflexivity|].
    apply enc_step; [intros e; reflexivity|].
    apply enc_step; [intros e; reflexivity|].
    apply enc_step; [intros e; apply (put_field_link (UpdateMetadataPartitionState6_Encode v) UpdateMetadataPartitionState6_schema UpdateMetadataPartitionState6_to v (l_encode _ UpdateMetadataPartitionState6_linked v) _)|].
    apply enc_step; [intros e; apply (put_field_link (UpdateMetadataTopicState6_Encode v) UpdateMetadataTopicState6_schema UpdateMetadataTopicState6_to v (l_encode _ UpdateMetadataTopicState6_linked v) _)|].
    apply enc_step; [intros e; apply (put_field_link (UpdateMetadataBroker6_Encode v) UpdateMetadataBroker6_schema UpdateMetadataBroker6_to v (l_encode _ UpdateMetadataBroker6_linked v) true)|].
    intros e; reflexivity.
  - intros v t. unfold UpdateMetadataRequest_Decode, UpdateMetadataRequest_schema, UpdateMetadataRequest_to.
    dec_field (fun x : Z => x); [apply dmap_id|intros x_ControllerId].
    dec_field (fun x : Z => x); [apply dmap_id|intros x_ControllerEpoch].
    dec_field (fun x : Z => x); [apply dec_if_link; [apply dmap_id|reflexivity]|intros x_BrokerEpoch].
    dec_field (option_map (map UpdateMetadataPartitionState6_of)); [apply dec_if_link; [apply (dec_array_link _ _ UpdateMetadataPartitionState6_of UpdateMetadataPartitionState6_to (l_decode _ UpdateMetadataPartitionState6_linked v UpdateMetadataPartitionState6_zero) (l_of_to _ UpdateMetadataPartitionState6_linked))|symmetry; apply (option_map_map_inv UpdateMetadataPartitionState6_to UpdateMetadataPartitionState6_of _ (l_of_to _ UpdateMetadataPartitionState6_linked))]|intros x_UngroupedPartitionStates].
    dec_field (option_map (map UpdateMetadataTopicState6_of)); [apply dec_if_link; [apply (dec_array_link _ _ UpdateMetadataTopicState6_of UpdateMetadataTopicState6_to (l_decode _ UpdateMetadataTopicState6_linked v UpdateMetadataTopicState6_zero) (l_of_to _ UpdateMetadataTopicState6_linked))|symmetry; apply (option_map_map_inv UpdateMetadataTopicState6_to UpdateMetadataTopicState6_of _ (l_of_to _ UpdateMetadataTopicState6_linked))]|intros x_TopicStates].
    dec_field (option_map (map UpdateMetadataBroker6_of)); [apply (dec_array_link _ _ UpdateMetadataBroker6_of UpdateMetadataBroker6_to (l_decode _ UpdateMetadataBroker6_linked v UpdateMetadataBroker6_zero) (l_of_to _ UpdateMetadataBroker6_linked))|intros x_LiveBrokers].
    intros d; reflexivity.
Qed.
Local Opaque UpdateMetadataRequest_Size UpdateMetadataRequest_Encode UpdateMetadataRequest_Decode.

