(** * Generated message types (part 10 of 10).

    Written by tools/gen_messages.py from message/messages.gen.go, one
    definition per Go method; do not edit.  A Decode method that fails leaves
    a partly filled receiver behind, which no caller looks at; the model drops
    it. *)
From Coq Require Import String.
From Verif Require Import GoBase Encoder Decoder Sizeof SchemaSpec Schema Link.
Open Scope Z_scope.

(** ** ReassignablePartitionResponse45 *)

(** message/messages.gen.go:11338-11342 *)
Record ReassignablePartitionResponse45 : Type := mkReassignablePartitionResponse45 { ReassignablePartitionResponse45_PartitionIndex : Z; ReassignablePartitionResponse45_ErrorCode : Z; ReassignablePartitionResponse45_ErrorMessage : gostring }.
(** the zero value ([var item ReassignablePartitionResponse45]) *)
Definition ReassignablePartitionResponse45_zero : ReassignablePartitionResponse45 := mkReassignablePartitionResponse45 0 0 [].
(** message/messages.gen.go:11345-11351 *)
Definition ReassignablePartitionResponse45_Size (version : Z) (t : ReassignablePartitionResponse45) : Z :=
  ((size_add sz_Int32) +>
   (size_add sz_Int16) +>
   (size_add (sz_String (ReassignablePartitionResponse45_ErrorMessage t))) +>
   size_done)%size 0.
(** message/messages.gen.go:11354-11358 *)
Definition ReassignablePartitionResponse45_Encode (version : Z) (t : ReassignablePartitionResponse45) : Encoder -> Encoder :=
  ((PutInt32 (ReassignablePartitionResponse45_PartitionIndex t)) >>
   (PutInt16 (ReassignablePartitionResponse45_ErrorCode t)) >>
   (PutString (ReassignablePartitionResponse45_ErrorMessage t)) >>
   skip)%enc.
(** message/messages.gen.go:11361-11376 *)
Definition ReassignablePartitionResponse45_Decode (version : Z) (t : ReassignablePartitionResponse45) : Dec ReassignablePartitionResponse45 :=
  x_PartitionIndex <- dInt32 ;;
  x_ErrorCode <- dInt16 ;;
  x_ErrorMessage <- dString ;;
  ret (mkReassignablePartitionResponse45 x_PartitionIndex x_ErrorCode x_ErrorMessage).
(** the struct declaration read as a schema; version ranges as in Size *)
Definition ReassignablePartitionResponse45_schema : fields :=
  FCons "PartitionIndex" Always TInt32
  (FCons "ErrorCode" Always TInt16
  (FCons "ErrorMessage" Always TString FNil)).
Definition ReassignablePartitionResponse45_to (t : ReassignablePartitionResponse45) : dens ReassignablePartitionResponse45_schema := (ReassignablePartitionResponse45_PartitionIndex t, (ReassignablePartitionResponse45_ErrorCode t, (ReassignablePartitionResponse45_ErrorMessage t, tt))).
Definition ReassignablePartitionResponse45_of (x : dens ReassignablePartitionResponse45_schema) : ReassignablePartitionResponse45 := mkReassignablePartitionResponse45 (fst x) (fst (snd x)) (fst (snd (snd x))).
Definition ReassignablePartitionResponse45_codec : codec := Codec ReassignablePartitionResponse45 ReassignablePartitionResponse45_zero ReassignablePartitionResponse45_Size ReassignablePartitionResponse45_Encode ReassignablePartitionResponse45_Decode ReassignablePartitionResponse45_schema ReassignablePartitionResponse45_to ReassignablePartitionResponse45_of.
Lemma ReassignablePartitionResponse45_linked : linked ReassignablePartitionResponse45_codec.
Proof.
  apply Linked; cbn [ReassignablePartitionResponse45_codec c_type c_zero c_size c_encode c_decode c_schema c_to c_of].
  - intros t. destruct t. cbv [ReassignablePartitionResponse45_of ReassignablePartitionResponse45_to]. cbn [fst snd ReassignablePartitionResponse45_PartitionIndex ReassignablePartitionResponse45_ErrorCode ReassignablePartitionResponse45_ErrorMessage].  reflexivity.
  - intros x. unfold ReassignablePartitionResponse45_schema in x. cbn [dens den] in x. destruct x as [x0 x]. destruct x as [x1 x]. destruct x as [x2 x]. destruct x. cbv [ReassignablePartitionResponse45_of ReassignablePartitionResponse45_to]. cbn [fst snd ReassignablePartitionResponse45_PartitionIndex ReassignablePartitionResponse45_ErrorCode ReassignablePartitionResponse45_ErrorMessage].  reflexivity.
  - reflexivity.
  - intros v t. unfold ReassignablePartitionResponse45_Size, ReassignablePartitionResponse45_schema, ReassignablePartitionResponse45_to. apply size_start.
    apply size_step; [intros sz; reflexivity|].
    apply size_step; [intros sz; reflexivity|].
    apply size_step; [intros sz; reflexivity|].
    intros sz; reflexivity.
  - intros v t. unfold ReassignablePartitionResponse45_Encode, ReassignablePartitionResponse45_schema, ReassignablePartitionResponse45_to.
    apply enc_step; [intros e; reflexivity|].
    apply enc_step; [intros e; reflexivity|].
    apply enc_step; [intros e; reflexivity|].
    intros e; reflexivity.
  - intros v t. unfold ReassignablePartitionResponse45_Decode, ReassignablePartitionResponse45_schema, ReassignablePartitionResponse45_to.
    dec_field (fun x : Z => x); [apply dmap_id|intros x_PartitionIndex].
    dec_field (fun x : Z => x); [apply dmap_id|intros x_ErrorCode].
    dec_field (fun x : gostring => x); [apply dmap_id|intros x_ErrorMessage].
    intros d; reflexivity.
Qed.
Local Opaque ReassignablePartitionResponse45_Size ReassignablePartitionResponse45_Encode ReassignablePartitionResponse45_Decode.

(** ** ReassignableTopicResponse45 *)

(** message/messages.gen.go:11288-11291 *)
Record ReassignableTopicResponse45 : Type := mkReassignableTopicResponse45 { ReassignableTopicResponse45_Name : gostring; ReassignableTopicResponse45_Partitions : gslice ReassignablePartitionResponse45 }.
(** the zero value ([var item ReassignableTopicResponse45]) *)
Definition ReassignableTopicResponse45_zero : ReassignableTopicResponse45 := mkReassignableTopicResponse45 [] None.
(** message/messages.gen.go:11294-11302 *)
Definition ReassignableTopicResponse45_Size (version : Z) (t : ReassignableTopicResponse45) : Z :=
  ((size_add (sz_String (ReassignableTopicResponse45_Name t))) +>
   (size_loop (ReassignablePartitionResponse45_Size version) (ReassignableTopicResponse45_Partitions t)) +>
   size_done)%size 0.
(** message/messages.gen.go:11305-11313 *)
Definition ReassignableTopicResponse45_Encode (version : Z) (t : ReassignableTopicResponse45) : Encoder -> Encoder :=
  ((PutString (ReassignableTopicResponse45_Name t)) >>
   (put_array (ReassignablePartitionResponse45_Encode version) (ReassignableTopicResponse45_Partitions t)) >>
   skip)%enc.
(** message/messages.gen.go:11316-11336 *)
Definition ReassignableTopicResponse45_Decode (version : Z) (t : ReassignableTopicResponse45) : Dec ReassignableTopicResponse45 :=
  x_Name <- dString ;;
  x_Partitions <- (dec_array (ReassignablePartitionResponse45_Decode version ReassignablePartitionResponse45_zero) (ReassignableTopicResponse45_Partitions t)) ;;
  ret (mkReassignableTopicResponse45 x_Name x_Partitions).
(** the struct declaration read as a schema; version ranges as in Size *)
Definition ReassignableTopicResponse45_schema : fields :=
  FCons "Name" Always TString
  (FCons "Partitions" Always (TArray ReassignablePartitionResponse45_schema) FNil).
Definition ReassignableTopicResponse45_to (t : ReassignableTopicResponse45) : dens ReassignableTopicResponse45_schema := (ReassignableTopicResponse45_Name t, (option_map (map ReassignablePartitionResponse45_to) (ReassignableTopicResponse45_Partitions t), tt)).
Definition ReassignableTopicResponse45_of (x : dens ReassignableTopicResponse45_schema) : ReassignableTopicResponse45 := mkReassignableTopicResponse45 (fst x) (option_map (map ReassignablePartitionResponse45_of) (fst (snd x))).
Definition ReassignableTopicResponse45_codec : codec := Codec ReassignableTopicResponse45 ReassignableTopicResponse45_zero ReassignableTopicResponse45_Size ReassignableTopicResponse45_Encode ReassignableTopicResponse45_Decode ReassignableTopicResponse45_schema ReassignableTopicResponse45_to ReassignableTopicResponse45_of.
Lemma ReassignableTopicResponse45_linked : linked ReassignableTopicResponse45_codec.
Proof.
  apply Linked; cbn [ReassignableTopicResponse45_codec c_type c_zero c_size c_encode c_decode c_schema c_to c_of].
  - intros t. destruct t. cbv [ReassignableTopicResponse45_of ReassignableTopicResponse45_to]. cbn [fst snd ReassignableTopicResponse45_Name ReassignableTopicResponse45_Partitions]. rewrite ?(option_map_map_inv ReassignablePartitionResponse45_to ReassignablePartitionResponse45_of _ (l_of_to _ ReassignablePartitionResponse45_linked)). reflexivity.
  - intros x. unfold ReassignableTopicResponse45_schema in x. cbn [dens den] in x. destruct x as [x0 x]. destruct x as [x1 x]. destruct x. cbv [ReassignableTopicResponse45_of ReassignableTopicResponse45_to]. cbn [fst snd ReassignableTopicResponse45_Name ReassignableTopicResponse45_Partitions]. rewrite ?(option_map_map_inv ReassignablePartitionResponse45_of ReassignablePartitionResponse45_to _ (l_to_of _ ReassignablePartitionResponse45_linked)). reflexivity.
  - reflexivity.
  - intros v t. unfold ReassignableTopicResponse45_Size, ReassignableTopicResponse45_schema, ReassignableTopicResponse45_to. apply size_start.
    apply size_step; [intros sz; reflexivity|].
    apply size_step; [intros sz; apply (size_field_link (ReassignablePartitionResponse45_Size v) ReassignablePartitionResponse45_schema ReassignablePartitionResponse45_to v (l_size _ ReassignablePartitionResponse45_linked v) true)|].
    intros sz; reflexivity.
  - intros v t. unfold ReassignableTopicResponse45_Encode, ReassignableTopicResponse45_schema, ReassignableTopicResponse45_to.
    apply enc_step; [intros e; reflexivity|].
    apply enc_step; [intros e; apply (put_field_link (ReassignablePartitionResponse45_Encode v) ReassignablePartitionResponse45_schema ReassignablePartitionResponse45_to v (l_encode _ ReassignablePartitionResponse45_linked v) true)|].
    intros e; reflexivity.
  - intros v t. unfold ReassignableTopicResponse45_Decode, ReassignableTopicResponse45_schema, ReassignableTopicResponse45_to.
    dec_field (fun x : gostring => x); [apply dmap_id|intros x_Name].
    dec_field (option_map (map ReassignablePartitionResponse45_of)); [apply (dec_array_link _ _ ReassignablePartitionResponse45_of ReassignablePartitionResponse45_to (l_decode _ ReassignablePartitionResponse45_linked v ReassignablePartitionResponse45_zero) (l_of_to _ ReassignablePartitionResponse45_linked))|intros x_Partitions].
    intros d; reflexivity.
Qed.
Local Opaque ReassignableTopicResponse45_Size ReassignableTopicResponse45_Encode ReassignableTopicResponse45_Decode.

(** ** AlterPartitionReassignmentsResponse *)

(** message/messages.gen.go:11224-11229 *)
Record AlterPartitionReassignmentsResponse : Type := mkAlterPartitionReassignmentsResponse { AlterPartitionReassignmentsResponse_ThrottleTimeMs : Z; AlterPartitionReassignmentsResponse_ErrorCode : Z; AlterPartitionReassignmentsResponse_ErrorMessage : gostring; AlterPartitionReassignmentsResponse_Responses : gslice ReassignableTopicResponse45 }.
(** the zero value ([var item AlterPartitionReassignmentsResponse]) *)
Definition AlterPartitionReassignmentsResponse_zero : AlterPartitionReassignmentsResponse := mkAlterPartitionReassignmentsResponse 0 0 [] None.
(** message/messages.gen.go:11232-11242 *)
Definition AlterPartitionReassignmentsResponse_Size (version : Z) (t : AlterPartitionReassignmentsResponse) : Z :=
  ((size_add sz_Int32) +>
   (size_add sz_Int16) +>
   (size_add (sz_String (AlterPartitionReassignmentsResponse_ErrorMessage t))) +>
   (size_loop (ReassignableTopicResponse45_Size version) (AlterPartitionReassignmentsResponse_Responses t)) +>
   size_done)%size 0.
(** message/messages.gen.go:11245-11255 *)
Definition AlterPartitionReassignmentsResponse_Encode (version : Z) (t : AlterPartitionReassignmentsResponse) : Encoder -> Encoder :=
  ((PutInt32 (AlterPartitionReassignmentsResponse_ThrottleTimeMs t)) >>
   (PutInt16 (AlterPartitionReassignmentsResponse_ErrorCode t)) >>
   (PutString (AlterPartitionReassignmentsResponse_ErrorMessage t)) >>
   (put_array (ReassignableTopicResponse45_Encode version) (AlterPartitionReassignmentsResponse_Responses t)) >>
   skip)%enc.
(** message/messages.gen.go:11258-11286 *)
Definition AlterPartitionReassignmentsResponse_Decode (version : Z) (t : AlterPartitionReassignmentsResponse) : Dec AlterPartitionReassignmentsResponse :=
  x_ThrottleTimeMs <- dInt32 ;;
  x_ErrorCode <- dInt16 ;;
  x_ErrorMessage <- dString ;;
  x_Responses <- (dec_array (ReassignableTopicResponse45_Decode version ReassignableTopicResponse45_zero) (AlterPartitionReassignmentsResponse_Responses t)) ;;
  ret (mkAlterPartitionReassignmentsResponse x_ThrottleTimeMs x_ErrorCode x_ErrorMessage x_Responses).
(** the struct declaration read as a schema; version ranges as in Size *)
Definition AlterPartitionReassignmentsResponse_schema : fields :=
  FCons "ThrottleTimeMs" Always TInt32
  (FCons "ErrorCode" Always TInt16
  (FCons "ErrorMessage" Always TString
  (FCons "Responses" Always (TArray ReassignableTopicResponse45_schema) FNil))).
Definition AlterPartitionReassignmentsResponse_to (t : AlterPartitionReassignmentsResponse) : dens AlterPartitionReassignmentsResponse_schema := (AlterPartitionReassignmentsResponse_ThrottleTimeMs t, (AlterPartitionReassignmentsResponse_ErrorCode t, (AlterPartitionReassignmentsResponse_ErrorMessage t, (option_map (map ReassignableTopicResponse45_to) (AlterPartitionReassignmentsResponse_Responses t), tt)))).
Definition AlterPartitionReassignmentsResponse_of (x : dens AlterPartitionReassignmentsResponse_schema) : AlterPartitionReassignmentsResponse := mkAlterPartitionReassignmentsResponse (fst x) (fst (snd x)) (fst (snd (snd x))) (option_map (map ReassignableTopicResponse45_of) (fst (snd (snd (snd x))))).
Definition AlterPartitionReassignmentsResponse_codec : codec := Codec AlterPartitionReassignmentsResponse AlterPartitionReassignmentsResponse_zero AlterPartitionReassignmentsResponse_Size AlterPartitionReassignmentsResponse_Encode AlterPartitionReassignmentsResponse_Decode AlterPartitionReassignmentsResponse_schema AlterPartitionReassignmentsResponse_to AlterPartitionReassignmentsResponse_of.
Lemma AlterPartitionReassignmentsResponse_linked : linked AlterPartitionReassignmentsResponse_codec.
Proof.
  apply Linked; cbn [AlterPartitionReassignmentsResponse_codec c_type c_zero c_size c_encode c_decode c_schema c_to c_of].
  - intros t. destruct t. cbv [AlterPartitionReassignmentsResponse_of AlterPartitionReassignmentsResponse_to]. cbn [fst snd AlterPartitionReassignmentsResponse_ThrottleTimeMs AlterPartitionReassignmentsResponse_ErrorCode AlterPartitionReassignmentsResponse_ErrorMessage AlterPartitionReassignmentsResponse_Responses]. rewrite ?(option_map_map_inv ReassignableTopicResponse45_to ReassignableTopicResponse45_of _ (l_of_to _ ReassignableTopicResponse45_linked)). reflexivity.
  - intros x. unfold AlterPartitionReassignmentsResponse_schema in x. cbn [dens den] in x. destruct x as [x0 x]. destruct x as [x1 x]. destruct x as [x2 x]. destruct x as [x3 x]. destruct x. cbv [AlterPartitionReassignmentsResponse_of AlterPartitionReassignmentsResponse_to]. cbn [fst snd AlterPartitionReassignmentsResponse_ThrottleTimeMs AlterPartitionReassignmentsResponse_ErrorCode AlterPartitionReassignmentsResponse_ErrorMessage AlterPartitionReassignmentsResponse_Responses]. rewrite ?(option_map_map_inv ReassignableTopicResponse45_of ReassignableTopicResponse45_to _ (l_to_of _ ReassignableTopicResponse45_linked)). reflexivity.
  - reflexivity.
  - intros v t. unfold AlterPartitionReassignmentsResponse_Size, AlterPartitionReassignmentsResponse_schema, AlterPartitionReassignmentsResponse_to. apply size_start.
    apply size_step; [intros sz; reflexivity|].
    apply size_step; [intros sz; reflexivity|].
    apply size_step; [intros sz; reflexivity|].
    apply size_step; [intros sz; apply (size_field_link (ReassignableTopicResponse45_Size v) ReassignableTopicResponse45_schema ReassignableTopicResponse45_to v (l_size _ ReassignableTopicResponse45_linked v) true)|].
    intros sz; reflexivity.
  - intros v t. unfold AlterPartitionReassignmentsResponse_Encode, AlterPartitionReassignmentsResponse_schema, AlterPartitionReassignmentsResponse_to.
    apply enc_step; [intros e; reflexivity|].
    apply enc_step; [intros e; reflexivity|].
    apply enc_step; [intros e; reflexivity|].
    apply enc_step; [intros e; apply (put_field_link (ReassignableTopicResponse45_Encode v) ReassignableTopicResponse45_schema ReassignableTopicResponse45_to v (l_encode _ ReassignableTopicResponse45_linked v) true)|].
    intros e; reflexivity.
  - intros v t. unfold AlterPartitionReassignmentsResponse_Decode, AlterPartitionReassignmentsResponse_schema, AlterPartitionReassignmentsResponse_to.
    dec_field (fun x : Z => x); [apply dmap_id|intros x_ThrottleTimeMs].
    dec_field (fun x : Z => x); [apply dmap_id|intros x_ErrorCode].
    dec_field (fun x : gostring => x); [apply dmap_id|intros x_ErrorMessage].
    dec_field (option_map (map ReassignableTopicResponse45_of)); [apply (dec_array_link _ _ ReassignableTopicResponse45_of ReassignableTopicResponse45_to (l_decode _ ReassignableTopicResponse45_linked v ReassignableTopicResponse45_zero) (l_of_to _ ReassignableTopicResponse45_linked))|intros x_Responses].
    intros d; reflexivity.
Qed.
Local Opaque AlterPartitionReassignmentsResponse_Size AlterPartitionReassignmentsResponse_Encode AlterPartitionReassignmentsResponse_Decode.

(** ** ListPartitionReassignmentsTopics46 *)

(** message/messages.gen.go:11429-11432 *)
Record ListPartitionReassignmentsTopics46 : Type := mkListPartitionReassignmentsTopics46 { ListPartitionReassignmentsTopics46_Name : gostring; ListPartitionReassignmentsTopics46_PartitionIndexes : gslice Z }.
(** the zero value ([var item ListPartitionReassignmentsTopics46]) *)
Definition ListPartitionReassignmentsTopics46_zero : ListPartitionReassignmentsTopics46 := mkListPartitionReassignmentsTopics46 [] None.
(** message/messages.gen.go:11435-11440 *)
Definition ListPartitionReassignmentsTopics46_Size (version : Z) (t : ListPartitionReassignmentsTopics46) : Z :=
  ((size_add (sz_String (ListPartitionReassignmentsTopics46_Name t))) +>
   (size_add (sz_Int32Array (ListPartitionReassignmentsTopics46_PartitionIndexes t))) +>
   size_done)%size 0.
(** message/messages.gen.go:11443-11446 *)
Definition ListPartitionReassignmentsTopics46_Encode (version : Z) (t : ListPartitionReassignmentsTopics46) : Encoder -> Encoder :=
  ((PutString (ListPartitionReassignmentsTopics46_Name t)) >>
   (PutInt32Array (ListPartitionReassignmentsTopics46_PartitionIndexes t)) >>
   skip)%enc.
(** message/messages.gen.go:11449-11460 *)
Definition ListPartitionReassignmentsTopics46_Decode (version : Z) (t : ListPartitionReassignmentsTopics46) : Dec ListPartitionReassignmentsTopics46 :=
  x_Name <- dString ;;
  x_PartitionIndexes <- dInt32Array ;;
  ret (mkListPartitionReassignmentsTopics46 x_Name x_PartitionIndexes).
(** the struct declaration read as a schema; version ranges as in Size *)
Definition ListPartitionReassignmentsTopics46_schema : fields :=
  FCons "Name" Always TString
  (FCons "PartitionIndexes" Always TInt32Array FNil).
Definition ListPartitionReassignmentsTopics46_to (t : ListPartitionReassignmentsTopics46) : dens ListPartitionReassignmentsTopics46_schema := (ListPartitionReassignmentsTopics46_Name t, (ListPartitionReassignmentsTopics46_PartitionIndexes t, tt)).
Definition ListPartitionReassignmentsTopics46_of (x : dens ListPartitionReassignmentsTopics46_schema) : ListPartitionReassignmentsTopics46 := mkListPartitionReassignmentsTopics46 (fst x) (fst (snd x)).
Definition ListPartitionReassignmentsTopics46_codec : codec := Codec ListPartitionReassignmentsTopics46 ListPartitionReassignmentsTopics46_zero ListPartitionReassignmentsTopics46_Size ListPartitionReassignmentsTopics46_Encode ListPartitionReassignmentsTopics46_Decode ListPartitionReassignmentsTopics46_schema ListPartitionReassignmentsTopics46_to ListPartitionReassignmentsTopics46_of.
Lemma ListPartitionReassignmentsTopics46_linked : linked ListPartitionReassignmentsTopics46_codec.
Proof.
  apply Linked; cbn [ListPartitionReassignmentsTopics46_codec c_type c_zero c_size c_encode c_decode c_schema c_to c_of].
  - intros t. destruct t. cbv [ListPartitionReassignmentsTopics46_of ListPartitionReassignmentsTopics46_to]. cbn [fst snd ListPartitionReassignmentsTopics46_Name ListPartitionReassignmentsTopics46_PartitionIndexes].  reflexivity.
  - intros x. unfold ListPartitionReassignmentsTopics46_schema in x. cbn [dens den] in x. destruct x as [x0 x]. destruct x as [x1 x]. destruct x. cbv [ListPartitionReassignmentsTopics46_of ListPartitionReassignmentsTopics46_to]. cbn [fst snd ListPartitionReassignmentsTopics46_Name ListPartitionReassignmentsTopics46_PartitionIndexes].  reflexivity.
  - reflexivity.
  - intros v t. unfold ListPartitionReassignmentsTopics46_Size, ListPartitionReassignmentsTopics46_schema, ListPartitionReassignmentsTopics46_to. apply size_start.
    apply size_step; [intros sz; reflexivity|].
    apply size_step; [intros sz; reflexivity|].
    intros sz; reflexivity.
  - intros v t. unfold ListPartitionReassignmentsTopics46_Encode, ListPartitionReassignmentsTopics46_schema, ListPartitionReassignmentsTopics46_to.
    apply enc_step; [intros e; reflexivity|].
    apply enc_step; [intros e; reflexivity|].
    intros e; reflexivity.
  - intros v t. unfold ListPartitionReassignmentsTopics46_Decode, ListPartitionReassignmentsTopics46_schema, ListPartitionReassignmentsTopics46_to.
    dec_field (fun x : gostring => x); [apply dmap_id|intros x_Name].
    dec_field (fun x : gslice Z => x); [apply dmap_id|intros x_PartitionIndexes].
    intros d; reflexivity.
Qed.
Local Opaque ListPartitionReassignmentsTopics46_Size ListPartitionReassignmentsTopics46_Encode ListPartitionReassignmentsTopics46_Decode.

(** ** ListPartitionReassignmentsRequest *)

(** message/messages.gen.go:11379-11382 *)
Record ListPartitionReassignmentsRequest : Type := mkListPartitionReassignmentsRequest { ListPartitionReassignmentsRequest_TimeoutMs : Z; ListPartitionReassignmentsRequest_Topics : gslice ListPartitionReassignmentsTopics46 }.
(** the zero value ([var item ListPartitionReassignmentsRequest]) *)
Definition ListPartitionReassignmentsRequest_zero : ListPartitionReassignmentsRequest := mkListPartitionReassignmentsRequest 0 None.
(** message/messages.gen.go:11385-11393 *)
Definition ListPartitionReassignmentsRequest_Size (version : Z) (t : ListPartitionReassignmentsRequest) : Z :=
  ((size_add sz_Int32) +>
   (size_loop (ListPartitionReassignmentsTopics46_Size version) (ListPartitionReassignmentsRequest_Topics t)) +>
   size_done)%size 0.
(** message/messages.gen.go:11396-11404 *)
Definition ListPartitionReassignmentsRequest_Encode (version : Z) (t : ListPartitionReassignmentsRequest) : Encoder -> Encoder :=
  ((PutInt32 (ListPartitionReassignmentsRequest_TimeoutMs t)) >>
   (put_array (ListPartitionReassignmentsTopics46_Encode version) (ListPartitionReassignmentsRequest_Topics t)) >>
   skip)%enc.
(** message/messages.gen.go:11407-11427 *)
Definition ListPartitionReassignmentsRequest_Decode (version : Z) (t : ListPartitionReassignmentsRequest) : Dec ListPartitionReassignmentsRequest :=
  x_TimeoutMs <- dInt32 ;;
  x_Topics <- (dec_array (ListPartitionReassignmentsTopics46_Decode version ListPartitionReassignmentsTopics46_zero) (ListPartitionReassignmentsRequest_Topics t)) ;;
  ret (mkListPartitionReassignmentsRequest x_TimeoutMs x_Topics).
(** the struct declaration read as a schema; version ranges as in Size *)
Definition ListPartitionReassignmentsRequest_schema : fields :=
  FCons "TimeoutMs" Always TInt32
  (FCons "Topics" Always (TArray ListPartitionReassignmentsTopics46_schema) FNil).
Definition ListPartitionReassignmentsRequest_to (t : ListPartitionReassignmentsRequest) : dens ListPartitionReassignmentsRequest_schema := (ListPartitionReassignmentsRequest_TimeoutMs t, (option_map (map ListPartitionReassignmentsTopics46_to) (ListPartitionReassignmentsRequest_Topics t), tt)).
Definition ListPartitionReassignmentsRequest_of (x : dens ListPartitionReassignmentsRequest_schema) : ListPartitionReassignmentsRequest := mkListPartitionReassignmentsRequest (fst x) (option_map (map ListPartitionReassignmentsTopics46_of) (fst (snd x))).
Definition ListPartitionReassignmentsRequest_codec : codec := Codec ListPartitionReassignmentsRequest ListPartitionReassignmentsRequest_zero ListPartitionReassignmentsRequest_Size ListPartitionReassignmentsRequest_Encode ListPartitionReassignmentsRequest_Decode ListPartitionReassignmentsRequest_schema ListPartitionReassignmentsRequest_to ListPartitionReassignmentsRequest_of.
Lemma ListPartitionReassignmentsRequest_linked : linked ListPartitionReassignmentsRequest_codec.
Proof.
  apply Linked; cbn [ListPartitionReassignmentsRequest_codec c_type c_zero c_size c_encode c_decode c_schema c_to c_of].
  - intros t. destruct t. cbv [ListPartitionReassignmentsRequest_of ListPartitionReassignmentsRequest_to]. cbn [fst snd ListPartitionReassignmentsRequest_TimeoutMs ListPartitionReassignmentsRequest_Topics]. rewrite ?(option_map_map_inv ListPartitionReassignmentsTopics46_to ListPartitionReassignmentsTopics46_of _ (l_of_to _ ListPartitionReassignmentsTopics46_linked)). reflexivity.
  - intros x. unfold ListPartitionReassignmentsRequest_schema in x. cbn [dens den] in x. destruct x as [x0 x]. destruct x as [x1 x]. destruct x. cbv [ListPartitionReassignmentsRequest_of ListPartitionReassignmentsRequest_to]. cbn [fst snd ListPartitionReassignmentsRequest_TimeoutMs ListPartitionReassignmentsRequest_Topics]. rewrite ?(option_map_map_inv ListPartitionReassignmentsTopics46_of ListPartitionReassignmentsTopics46_to _ (l_to_of _ ListPartitionReassignmentsTopics46_linked)). reflexivity.
  - reflexivity.
  - intros v t. unfold ListPartitionReassignmentsRequest_Size, ListPartitionReassignmentsRequest_schema, ListPartitionReassignmentsRequest_to. apply size_start.
    apply size_step; [intros sz; reflexivity|].
    apply size_step; [intros sz; apply (size_field_link (ListPartitionReassignmentsTopics46_Size v) ListPartitionReassignmentsTopics46_schema ListPartitionReassignmentsTopics46_to v (l_size _ ListPartitionReassignmentsTopics46_linked v) true)|].
    intros sz; reflexivity.
  - intros v t. unfold ListPartitionReassignmentsRequest_Encode, ListPartitionReassignmentsRequest_schema, ListPartitionReassignmentsRequest_to.
    apply enc_step; [intros e; reflexivity|].
    apply enc_step; [intros e; apply (put_field_link (ListPartitionReassignmentsTopics46_Encode v) ListPartitionReassignmentsTopics46_schema ListPartitionReassignmentsTopics46_to v (l_encode _ ListPartitionReassignmentsTopics46_linked v) true)|].
    intros e; reflexivity.
  - intros v t. unfold ListPartitionReassignmentsRequest_Decode, ListPartitionReassignmentsRequest_schema, ListPartitionReassignmentsRequest_to.
    dec_field (fun x : Z => x); [apply dmap_id|intros x_TimeoutMs].
    dec_field (option_map (map ListPartitionReassignmentsTopics46_of)); [apply (dec_array_link _ _ ListPartitionReassignmentsTopics46_of ListPartitionReassignmentsTopics46_to (l_decode _ ListPartitionReassignmentsTopics46_linked v ListPartitionReassignmentsTopics46_zero) (l_of_to _ ListPartitionReassignmentsTopics46_linked))|intros x_Topics].
    intros d; reflexivity.
Qed.
Local Opaque ListPartitionReassignmentsRequest_Size ListPartitionReassignmentsRequest_Encode ListPartitionReassignmentsRequest_Decode.

(** ** OngoingPartitionReassignment46 *)

(** message/messages.gen.go:11577-11582 *)
Record OngoingPartitionReassignment46 : Type := mkOngoingPartitionReassignment46 { OngoingPartitionReassignment46_PartitionIndex : Z; OngoingPartitionReassignment46_Replicas : gslice Z; OngoingPartitionReassignment46_AddingReplicas : gslice Z; OngoingPartitionReassignment46_RemovingReplicas : gslice Z }.
(** the zero value ([var item OngoingPartitionReassignment46]) *)
Definition OngoingPartitionReassignment46_zero : OngoingPartitionReassignment46 := mkOngoingPartitionReassignment46 0 None None None.
(** message/messages.gen.go:11585-11592 *)
Definition OngoingPartitionReassignment46_Size (version : Z) (t : OngoingPartitionReassignment46) : Z :=
  ((size_add sz_Int32) +>
   (size_add (sz_Int32Array (OngoingPartitionReassignment46_Replicas t))) +>
   (size_add (sz_Int32Array (OngoingPartitionReassignment46_AddingReplicas t))) +>
   (size_add (sz_Int32Array (OngoingPartitionReassignment46_RemovingReplicas t))) +>
   size_done)%size 0.
(** message/messages.gen.go:11595-11600 *)
Definition OngoingPartitionReassignment46_Encode (version : Z) (t : OngoingPartitionReassignment46) : Encoder -> Encoder :=
  ((PutInt32 (OngoingPartitionReassignment46_PartitionIndex t)) >>
   (PutInt32Array (OngoingPartitionReassignment46_Replicas t)) >>
   (PutInt32Array (OngoingPartitionReassignment46_AddingReplicas t)) >>
   (PutInt32Array (OngoingPartitionReassignment46_RemovingReplicas t)) >>
   skip)%enc.
(** message/messages.gen.go:11603-11622 *)
Definition OngoingPartitionReassignment46_Decode (version : Z) (t : OngoingPartitionReassignment46) : Dec OngoingPartitionReassignment46 :=
  x_PartitionIndex <- dInt32 ;;
  x_Replicas <- dInt32Array ;;
  x_AddingReplicas <- dInt32Array ;;
  x_RemovingReplicas <- dInt32Array ;;
  ret (mkOngoingPartitionReassignment46 x_PartitionIndex x_Replicas x_AddingReplicas x_RemovingReplicas).
(** the struct declaration read as a schema; version ranges as in Size *)
Definition OngoingPartitionReassignment46_schema : fields :=
  FCons "PartitionIndex" Always TInt32
  (FCons "Replicas" Always TInt32Array
  (FCons "AddingReplicas" Always TInt32Array
  (FCons "RemovingReplicas" Always TInt32Array FNil))).
Definition OngoingPartitionReassignment46_to (t : OngoingPartitionReassignment46) : dens OngoingPartitionReassignment46_schema := (OngoingPartitionReassignment46_PartitionIndex t, (OngoingPartitionReassignment46_Replicas t, (OngoingPartitionReassignment46_AddingReplicas t, (OngoingPartitionReassignment46_RemovingReplicas t, tt)))).
Definition OngoingPartitionReassignment46_of (x : dens OngoingPartitionReassignment46_schema) : OngoingPartitionReassignment46 := mkOngoingPartitionReassignment46 (fst x) (fst (snd x)) (fst (snd (snd x))) (fst (snd (snd (snd x)))).
Definition OngoingPartitionReassignment46_codec : codec := Codec OngoingPartitionReassignment46 OngoingPartitionReassignment46_zero OngoingPartitionReassignment46_Size OngoingPartitionReassignment46_Encode OngoingPartitionReassignment46_Decode OngoingPartitionReassignment46_schema OngoingPartitionReassignment46_to OngoingPartitionReassignment46_of.
Lemma OngoingPartitionReassignment46_linked : linked OngoingPartitionReassignment46_codec.
Proof.
  apply Linked; cbn [OngoingPartitionReassignment46_codec c_type c_zero c_size c_encode c_decode c_schema c_to c_of].
  - intros t. destruct t. cbv [OngoingPartitionReassignment46_of OngoingPartitionReassignment46_to]. cbn [fst snd OngoingPartitionReassignment46_PartitionIndex OngoingPartitionReassignment46_Replicas OngoingPartitionReassignment46_AddingReplicas OngoingPartitionReassignment46_RemovingReplicas].  reflexivity.
  - intros x. unfold OngoingPartitionReassignment46_schema in x. cbn [dens den] in x. destruct x as [x0 x]. destruct x as [x1 x]. destruct x as [x2 x]. destruct x as [x3 x]. destruct x. cbv [OngoingPartitionReassignment46_of OngoingPartitionReassignment46_to]. cbn [fst snd OngoingPartitionReassignment46_PartitionIndex OngoingPartitionReassignment46_Replicas OngoingPartitionReassignment46_AddingReplicas OngoingPartitionReassignment46_RemovingReplicas].  reflexivity.
  - reflexivity.
  - intros v t. unfold OngoingPartitionReassignment46_Size, OngoingPartitionReassignment46_schema, OngoingPartitionReassignment46_to. apply size_start.
    apply size_step; [intros sz; reflexivity|].
    apply size_step; [intros sz; reflexivity|].
    apply size_step; [intros sz; reflexivity|].
    apply size_step; [intros sz; reflexivity|].
    intros sz; reflexivity.
  - intros v t. unfold OngoingPartitionReassignment46_Encode, OngoingPartitionReassignment46_schema, OngoingPartitionReassignment46_to.
    apply enc_step; [intros e; reflexivity|].
    apply enc_step; [intros e; reflexivity|].
    apply enc_step; [intros e; reflexivity|].
    apply enc_step; [intros e; reflexivity|].
    intros e; reflexivity.
  - intros v t. unfold OngoingPartitionReassignment46_Decode, OngoingPartitionReassignment46_schema, OngoingPartitionReassignment46_to.
    dec_field (fun x : Z => x); [apply dmap_id|intros x_PartitionIndex].
    dec_field (fun x : gslice Z => x); [apply dmap_id|intros x_Replicas].
    dec_field (fun x : gslice Z => x); [apply dmap_id|intros x_AddingReplicas].
    dec_field (fun x : gslice Z => x); [apply dmap_id|intros x_RemovingReplicas].
    intros d; reflexivity.
Qed.
Local Opaque OngoingPartitionReassignment46_Size OngoingPartitionReassignment46_Encode OngoingPartitionReassignment46_Decode.

(** ** OngoingTopicReassignment46 *)

(** message/messages.gen.go:11527-11530 *)
Record OngoingTopicReassignment46 : Type := mkOngoingTopicReassignment46 { OngoingTopicReassignment46_Name : gostring; OngoingTopicReassignment46_Partitions : gslice OngoingPartitionReassignment46 }.
(** the zero value ([var item OngoingTopicReassignment46]) *)
Definition OngoingTopicReassignment46_zero : OngoingTopicReassignment46 := mkOngoingTopicReassignment46 [] None.
(** message/messages.gen.go:11533-11541 *)
Definition OngoingTopicReassignment46_Size (version : Z) (t : OngoingTopicReassignment46) : Z :=
  ((size_add (sz_String (OngoingTopicReassignment46_Name t))) +>
   (size_loop (OngoingPartitionReassignment46_Size version) (OngoingTopicReassignment46_Partitions t)) +>
   size_done)%size 0.
(** message/messages.gen.go:11544-11552 *)
Definition OngoingTopicReassignment46_Encode (version : Z) (t : OngoingTopicReassignment46) : Encoder -> Encoder :=
  ((PutString (OngoingTopicReassignment46_Name t)) >>
   (put_array (OngoingPartitionReassignment46_Encode version) (OngoingTopicReassignment46_Partitions t)) >>
   skip)%enc.
(** message/messages.gen.go:11555-11575 *)
Definition OngoingTopicReassignment46_Decode (version : Z) (t : OngoingTopicReassignment46) : Dec OngoingTopicReassignment46 :=
  x_Name <- dString ;;
  x_Partitions <- (dec_array (OngoingPartitionReassignment46_Decode version OngoingPartitionReassignment46_zero) (OngoingTopicReassignment46_Partitions t)) ;;
  ret (mkOngoingTopicReassignment46 x_Name x_Partitions).
(** the struct declaration read as a schema; version ranges as in Size *)
Definition OngoingTopicReassignment46_schema : fields :=
  FCons "Name" Always TString
  (FCons "Partitions" Always (TArray OngoingPartitionReassignment46_schema) FNil).
Definition OngoingTopicReassignment46_to (t : OngoingTopicReassignment46) : dens OngoingTopicReassignment46_schema := (OngoingTopicReassignment46_Name t, (option_map (map OngoingPartitionReassignment46_to) (OngoingTopicReassignment46_Partitions t), tt)).
Definition OngoingTopicReassignment46_of (x : dens OngoingTopicReassignment46_schema) : OngoingTopicReassignment46 := mkOngoingTopicReassignment46 (fst x) (option_map (map OngoingPartitionReassignment46_of) (fst (snd x))).
Definition OngoingTopicReassignment46_codec : codec := Codec OngoingTopicReassignment46 OngoingTopicReassignment46_zero OngoingTopicReassignment46_Size OngoingTopicReassignment46_Encode OngoingTopicReassignment46_Decode OngoingTopicReassignment46_schema OngoingTopicReassignment46_to OngoingTopicReassignment46_of.
Lemma OngoingTopicReassignment46_linked : linked OngoingTopicReassignment46_codec.
Proof.
  apply Linked; cbn [OngoingTopicReassignment46_codec c_type c_zero c_size c_encode c_decode c_schema c_to c_of].
  - intros t. destruct t. cbv [OngoingTopicReassignment46_of OngoingTopicReassignment46_to]. cbn [fst snd OngoingTopicReassignment46_Name OngoingTopicReassignment46_Partitions]. rewrite ?(option_map_map_inv OngoingPartitionReassignment46_to OngoingPartitionReassignment46_of _ (l_of_to _ OngoingPartitionReassignment46_linked)). reflexivity.
  - intros x. unfold OngoingTopicReassignment46_schema in x. cbn [dens den] in x. destruct x as [x0 x]. destruct x as [x1 x]. destruct x. cbv [OngoingTopicReassignment46_of OngoingTopicReassignment46_to]. cbn [fst snd OngoingTopicReassignment46_Name OngoingTopicReassignment46_Partitions]. rewrite ?(option_map_map_inv OngoingPartitionReassignment46_of OngoingPartitionReassignment46_to _ (l_to_of _ OngoingPartitionReassignment46_linked)). reflexivity.
  - reflexivity.
  - intros v t. unfold OngoingTopicReassignment46_Size, OngoingTopicReassignment46_schema, OngoingTopicReassignment46_to. apply size_start.
    apply size_step; [intros sz; reflexivity|].
    apply size_step; [intros sz; apply (size_field_link (OngoingPartitionReassignment46_Size v) OngoingPartitionReassignment46_schema OngoingPartitionReassignment46_to v (l_size _ OngoingPartitionReassignment46_linked v) true)|].
    intros sz; reflexivity.
  - intros v t. unfold OngoingTopicReassignment46_Encode, OngoingTopicReassignment46_schema, OngoingTopicReassignment46_to.
    apply enc_step; [intros e; reflexivity|].
    apply enc_step; [intros e; apply (put_field_link (OngoingPartitionReassignment46_Encode v) OngoingPartitionReassignment46_schema OngoingPartitionReassignment46_to v (l_encode _ OngoingPartitionReassignment46_linked v) true)|].
    intros e; reflexivity.
  - intros v t. unfold OngoingTopicReassignment46_Decode, OngoingTopicReassignment46_schema, OngoingTopicReassignment46_to.
    dec_field (fun x : gostring => x); [apply dmap_id|intros x_Name].
    dec_field (option_map (map OngoingPartitionReassignment46_of)); [apply (dec_array_link _ _ OngoingPartitionReassignment46_of OngoingPartitionReassignment46_to (l_decode _ OngoingPartitionReassignment46_linked v OngoingPartitionReassignment46_zero) (l_of_to _ OngoingPartitionReassignment46_linked))|intros x_Partitions].
    intros d; reflexivity.
Qed.
Local Opaque OngoingTopicReassignment46_Size OngoingTopicReassignment46_Encode OngoingTopicReassignment46_Decode.

(** ** ListPartitionReassignmentsResponse *)

(** message/messages.gen.go:11463-11468 *)
Record ListPartitionReassignmentsResponse : Type := mkListPartitionReassignmentsResponse { ListPartitionReassignmentsResponse_ThrottleTimeMs : Z; ListPartitionReassignmentsResponse_ErrorCode : Z; ListPartitionReassignmentsResponse_ErrorMessage : gostring; ListPartitionReassignmentsResponse_Topics : gslice OngoingTopicReassignment46 }.
(** the zero value ([var item ListPartitionReassignmentsResponse]) *)
Definition ListPartitionReassignmentsResponse_zero : ListPartitionReassignmentsResponse := mkListPartitionReassignmentsResponse 0 0 [] None.
(** message/messages.gen.go:11471-11481 *)
Definition ListPartitionReassignmentsResponse_Size (version : Z) (t : ListPartitionReassignmentsResponse) : Z :=
  ((size_add sz_Int32) +>
   (size_add sz_Int16) +>
   (size_add (sz_String (ListPartitionReassignmentsResponse_ErrorMessage t))) +>
   (size_loop (OngoingTopicReassignment46_Size version) (ListPartitionReassignmentsResponse_Topics t)) +>
   size_done)%size 0.
(** message/messages.gen.go:11484-11494 *)
Definition ListPartitionReassignmentsResponse_Encode (version : Z) (t : ListPartitionReassignmentsResponse) : Encoder -> Encoder :=
  ((PutInt32 (ListPartitionReassignmentsResponse_ThrottleTimeMs t)) >>
   (PutInt16 (ListPartitionReassignmentsResponse_ErrorCode t)) >>
   (PutString (ListPartitionReassignmentsResponse_ErrorMessage t)) >>
   (put_array (OngoingTopicReassignment46_Encode version) (ListPartitionReassignmentsResponse_Topics t)) >>
   skip)%enc.
(** message/messages.gen.go:11497-11525 *)
Definition ListPartitionReassignmentsResponse_Decode (version : Z) (t : ListPartitionReassignmentsResponse) : Dec ListPartitionReassignmentsResponse :=
  x_ThrottleTimeMs <- dInt32 ;;
  x_ErrorCode <- dInt16 ;;
  x_ErrorMessage <- dString ;;
  x_Topics <- (dec_array (OngoingTopicReassignment46_Decode version OngoingTopicReassignment46_zero) (ListPartitionReassignmentsResponse_Topics t)) ;;
  ret (mkListPartitionReassignmentsResponse x_ThrottleTimeMs x_ErrorCode x_ErrorMessage x_Topics).
(** the struct declaration read as a schema; version ranges as in Size *)
Definition ListPartitionReassignmentsResponse_schema : fields :=
  FCons "ThrottleTimeMs" Always TInt32
  (FCons "ErrorCode" Always TInt16
  (FCons "ErrorMessage" Always TString
  (FCons "Topics" Always (TArray OngoingTopicReassignment46_schema) FNil))).
Definition ListPartitionReassignmentsResponse_to (t : ListPartitionReassignmentsResponse) : dens ListPartitionReassignmentsResponse_schema := (ListPartitionReassignmentsResponse_ThrottleTimeMs t, (ListPartitionReassignmentsResponse_ErrorCode t, (ListPartitionReassignmentsResponse_ErrorMessage t, (option_map (map OngoingTopicReassignment46_to) (ListPartitionReassignmentsResponse_Topics t), tt)))).
Definition ListPartitionReassignmentsResponse_of (x : dens ListPartitionReassignmentsResponse_schema) : ListPartitionReassignmentsResponse := mkListPartitionReassignmentsResponse (fst x) (fst (snd x)) (fst (snd (snd x))) (option_map (map OngoingTopicReassignment46_of) (fst (snd (snd (snd x))))).
Definition ListPartitionReassignmentsResponse_codec : codec := Codec ListPartitionReassignmentsResponse ListPartitionReassignmentsResponse_zero ListPartitionReassignmentsResponse_Size ListPartitionReassignmentsResponse_Encode ListPartitionReassignmentsResponse_Decode ListPartitionReassignmentsResponse_schema ListPartitionReassignmentsResponse_to ListPartitionReassignmentsResponse_of.
Lemma ListPartitionReassignmentsResponse_linked : linked ListPartitionReassignmentsResponse_codec.
Proof.
  apply Linked; cbn [ListPartitionReassignmentsResponse_codec c_type c_zero c_size c_encode c_decode c_schema c_to c_of].
  - intros t. destruct t. cbv [ListPartitionReassignmentsResponse_of ListPartitionReassignmentsResponse_to]. cbn [fst snd ListPartitionReassignmentsResponse_ThrottleTimeMs ListPartitionReassignmentsResponse_ErrorCode ListPartitionReassignmentsResponse_ErrorMessage ListPartitionReassignmentsResponse_Topics]. rewrite ?(option_map_map_inv OngoingTopicReassignment46_to OngoingTopicReassignment46_of _ (l_of_to _ OngoingTopicReassignment46_linked)). reflexivity.
  - intros x. unfold ListPartitionReassignmentsResponse_schema in x. cbn [dens den] in x. destruct x as [x0 x]. destruct x as [x1 x]. destruct x as [x2 x]. destruct x as [x3 x]. destruct x. cbv [ListPartitionReassignmentsResponse_of ListPartitionReassignmentsResponse_to]. cbn [fst snd ListPartitionReassignmentsResponse_ThrottleTimeMs ListPartitionReassignmentsResponse_ErrorCode ListPartitionReassignmentsResponse_ErrorMessage ListPartitionReassignmentsResponse_Topics]. rewrite ?(option_map_map_inv OngoingTopicReassignment46_of OngoingTopicReassignment46_to _ (l_to_of _ OngoingTopicReassignment46_linked)). reflexivity.
  - reflexivity.
  - intros v t. unfold ListPartitionReassignmentsResponse_Size, ListPartitionReassignmentsResponse_schema, ListPartitionReassignmentsResponse_to. apply size_start.
    apply size_step; [intros sz; reflexivity|].
    apply size_step; [intros sz; reflexivity|].
    apply size_step; [intros sz; reflexivity|].
    apply size_step; [intros sz; apply (size_field_link (OngoingTopicReassignment46_Size v) OngoingTopicReassignment46_schema OngoingTopicReassignment46_to v (l_size _ OngoingTopicReassignment46_linked v) true)|].
    intros sz; reflexivity.
  - intros v t. unfold ListPartitionReassignmentsResponse_Encode, ListPartitionReassignmentsResponse_schema, ListPartitionReassignmentsResponse_to.
    apply enc_step; [intros e; reflexivity|].
    apply enc_step; [intros e; reflexivity|].
    apply enc_step; [intros e; reflexivity|].
    apply enc_step; [intros e; apply (put_field_link (OngoingTopicReassignment46_Encode v) OngoingTopicReassignment46_schema OngoingTopicReassignment46_to v (l_encode _ OngoingTopicReassignment46_linked v) true)|].
    intros e; reflexivity.
  - intros v t. unfold ListPartitionReassignmentsResponse_Decode, ListPartitionReassignmentsResponse_schema, ListPartitionReassignmentsResponse_to.
    dec_field (fun x : Z => x); [apply dmap_id|intros x_ThrottleTimeMs].
    dec_field (fun x : Z => x); [apply dmap_id|intros x_ErrorCode].
    dec_field (fun x : gostring => x); [apply dmap_id|intros x_ErrorMessage].
    dec_field (option_map (map OngoingTopicReassignment46_of)); [apply (dec_array_link _ _ OngoingTopicReassignment46_of OngoingTopicReassignment46_to (l_decode _ OngoingTopicReassignment46_linked v OngoingTopicReassignment46_zero) (l_of_to _ OngoingTopicReassignment46_linked))|intros x_Topics].
    intros d; reflexivity.
Qed.
Local Opaque ListPartitionReassignmentsResponse_Size ListPartitionReassignmentsResponse_Encode ListPartitionReassignmentsResponse_Decode.

(** ** OffsetDeleteRequestPartition47 *)

(** message/messages.gen.go:11725-11727 *)
Record OffsetDeleteRequestPartition47 : Type := mkOffsetDeleteRequestPartition47 { OffsetDeleteRequestPartition47_PartitionIndex : Z }.
(** the zero value ([var item OffsetDeleteRequestPartition47]) *)
Definition OffsetDeleteRequestPartition47_zero : OffsetDeleteRequestPartition47 := mkOffsetDeleteRequestPartition47 0.
(** message/messages.gen.go:11730-11734 *)
Definition OffsetDeleteRequestPartition47_Size (version : Z) (t : OffsetDeleteRequestPartition47) : Z :=
  ((size_add sz_Int32) +>
   size_done)%size 0.
(** message/messages.gen.go:11737-11739 *)
Definition OffsetDeleteRequestPartition47_Encode (version : Z) (t : OffsetDeleteRequestPartition47) : Encoder -> Encoder :=
  ((PutInt32 (OffsetDeleteRequestPartition47_PartitionIndex t)) >>
   skip)%enc.
(** message/messages.gen.go:11742-11749 *)
Definition OffsetDeleteRequestPartition47_Decode (version : Z) (t : OffsetDeleteRequestPartition47) : Dec OffsetDeleteRequestPartition47 :=
  x_PartitionIndex <- dInt32 ;;
  ret (mkOffsetDeleteRequestPartition47 x_PartitionIndex).
(** the struct declaration read as a schema; version ranges as in Size *)
Definition OffsetDeleteRequestPartition47_schema : fields :=
  FCons "PartitionIndex" Always TInt32 FNil.
Definition OffsetDeleteRequestPartition47_to (t : OffsetDeleteRequestPartition47) : dens OffsetDeleteRequestPartition47_schema := (OffsetDeleteRequestPartition47_PartitionIndex t, tt).
Definition OffsetDeleteRequestPartition47_of (x : dens OffsetDeleteRequestPartition47_schema) : OffsetDeleteRequestPartition47 := mkOffsetDeleteRequestPartition47 (fst x).
Definition OffsetDeleteRequestPartition47_codec : codec := Codec OffsetDeleteRequestPartition47 OffsetDeleteRequestPartition47_zero OffsetDeleteRequestPartition47_Size OffsetDeleteRequestPartition47_Encode OffsetDeleteRequestPartition47_Decode OffsetDeleteRequestPartition47_schema OffsetDeleteRequestPartition47_to OffsetDeleteRequestPartition47_of.
Lemma OffsetDeleteRequestPartition47_linked : linked OffsetDeleteRequestPartition47_codec.
Proof.
  apply Linked; cbn [OffsetDeleteRequestPartition47_codec c_type c_zero c_size c_encode c_decode c_schema c_to c_of].
  - intros t. destruct t. cbv [OffsetDeleteRequestPartition47_of OffsetDeleteRequestPartition47_to]. cbn [fst snd OffsetDeleteRequestPartition47_PartitionIndex].  reflexivity.
  - intros x. unfold OffsetDeleteRequestPartition47_schema in x. cbn [dens den] in x. destruct x as [x0 x]. destruct x. cbv [OffsetDeleteRequestPartition47_of OffsetDeleteRequestPartition47_to]. cbn [fst snd OffsetDeleteRequestPartition47_PartitionIndex].  reflexivity.
  - reflexivity.
  - intros v t. unfold OffsetDeleteRequestPartition47_Size, OffsetDeleteRequestPartition47_schema, OffsetDeleteRequestPartition47_to. apply size_start.
    apply size_step; [intros sz; reflexivity|].
    intros sz; reflexivity.
  - intros v t. unfold OffsetDeleteRequestPartition47_Encode, OffsetDeleteRequestPartition47_schema, OffsetDeleteRequestPartition47_to.
    apply enc_step; [intros e; reflexivity|].
    intros e; reflexivity.
  - intros v t. unfold OffsetDeleteRequestPartition47_Decode, OffsetDeleteRequestPartition47_schema, OffsetDeleteRequestPartition47_to.
    dec_field (fun x : Z => x); [apply dmap_id|intros x_PartitionIndex].
    intros d; reflexivity.
Qed.
Local Opaque OffsetDeleteRequestPartition47_Size OffsetDeleteRequestPartition47_Encode OffsetDeleteRequestPartition47_Decode.

(** ** OffsetDeleteRequestTopic47 *)

(** message/messages.gen.go:11675-11678 *)
Record OffsetDeleteRequestTopic47 : Type := mkOffsetDeleteRequestTopic47 { OffsetDeleteRequestTopic47_Name : gostring; OffsetDeleteRequestTopic47_Partitions : gslice OffsetDeleteRequestPartition47 }.
(** the zero value ([var item OffsetDeleteRequestTopic47]) *)
Definition OffsetDeleteRequestTopic47_zero : OffsetDeleteRequestTopic47 := mkOffsetDeleteRequestTopic47 [] None.
(** message/messages.gen.go:11681-11689 *)
Definition OffsetDeleteRequestTopic47_Size (version : Z) (t : OffsetDeleteRequestTopic47) : Z :=
  ((size_add (sz_String (OffsetDeleteRequestTopic47_Name t))) +>
   (size_loop (OffsetDeleteRequestPartition47_Size version) (OffsetDeleteRequestTopic47_Partitions t)) +>
   size_done)%size 0.
(** message/messages.gen.go:11692-11700 *)
Definition OffsetDeleteRequestTopic47_Encode (version : Z) (t : OffsetDeleteRequestTopic47) : Encoder -> Encoder :=
  ((PutString (OffsetDeleteRequestTopic47_Name t)) >>
   (put_array (OffsetDeleteRequestPartition47_Encode version) (OffsetDeleteRequestTopic47_Partitions t)) >>
   skip)%enc.
(** message/messages.gen.go:11703-11723 *)
Definition OffsetDeleteRequestTopic47_Decode (version : Z) (t : OffsetDeleteRequestTopic47) : Dec OffsetDeleteRequestTopic47 :=
  x_Name <- dString ;;
  x_Partitions <- (dec_array (OffsetDeleteRequestPartition47_Decode version OffsetDeleteRequestPartition47_zero) (OffsetDeleteRequestTopic47_Partitions t)) ;;
  ret (mkOffsetDeleteRequestTopic47 x_Name x_Partitions).
(** the struct declaration read as a schema; version ranges as in Size *)
Definition OffsetDeleteRequestTopic47_schema : fields :=
  FCons "Name" Always TString
  (FCons "Partitions" Always (TArray OffsetDeleteRequestPartition47_schema) FNil).
Definition OffsetDeleteRequestTopic47_to (t : OffsetDeleteRequestTopic47) : dens OffsetDeleteRequestTopic47_schema := (OffsetDeleteRequestTopic47_Name t, (option_map (map OffsetDeleteRequestPartition47_to) (OffsetDeleteRequestTopic47_Partitions t), tt)).
Definition OffsetDeleteRequestTopic47_of (x : dens OffsetDeleteRequestTopic47_schema) : OffsetDeleteRequestTopic47 := mkOffsetDeleteRequestTopic47 (fst x) (option_map (map OffsetDeleteRequestPartition47_of) (fst (snd x))).
Definition OffsetDeleteRequestTopic47_codec : codec := Codec OffsetDeleteRequestTopic47 OffsetDeleteRequestTopic47_zero OffsetDeleteRequestTopic47_Size OffsetDeleteRequestTopic47_Encode OffsetDeleteRequestTopic47_Decode OffsetDeleteRequestTopic47_schema OffsetDeleteRequestTopic47_to OffsetDeleteRequestTopic47_of.
Lemma OffsetDeleteRequestTopic47_linked : linked OffsetDeleteRequestTopic47_codec.
Proof.
  apply Linked; cbn [OffsetDeleteRequestTopic47_codec c_type c_zero c_size c_encode c_decode c_schema c_to c_of].
  - intros t. destruct t. cbv [OffsetDeleteRequestTopic47_of OffsetDeleteRequestTopic47_to]. cbn [fst snd OffsetDeleteRequestTopic47_Name OffsetDeleteRequestTopic47_Partitions]. rewrite ?(option_map_map_inv OffsetDeleteRequestPartition47_to OffsetDeleteRequestPartition47_of _ (l_of_to _ OffsetDeleteRequestPartition47_linked)). reflexivity.
  - intros x. unfold OffsetDeleteRequestTopic47_schema in x. cbn [dens den] in x. destruct x as [x0 x]. destruct x as [x1 x]. destruct x. cbv [OffsetDeleteRequestTopic47_of OffsetDeleteRequestTopic47_to]. cbn [fst snd OffsetDeleteRequestTopic47_Name OffsetDeleteRequestTopic47_Partitions]. rewrite ?(option_map_map_inv OffsetDeleteRequestPartition47_of OffsetDeleteRequestPartition47_to _ (l_to_of _ OffsetDeleteRequestPartition47_linked)). reflexivity.
  - reflexivity.
  - intros v t. unfold OffsetDeleteRequestTopic47_Size, OffsetDeleteRequestTopic47_schema, OffsetDeleteRequestTopic47_to. apply size_start.
    apply size_step; [intros sz; reflexivity|].
    apply size_step; [intros sz; apply (size_field_link (OffsetDeleteRequestPartition47_Size v) OffsetDeleteRequestPartition47_schema OffsetDeleteRequestPartition47_to v (l_size _ OffsetDeleteRequestPartition47_linked v) true)|].
    intros sz; reflexivity.
  - intros v t. unfold OffsetDeleteRequestTopic47_Encode, OffsetDeleteRequestTopic47_schema, OffsetDeleteRequestTopic47_to.
    apply enc_step; [intros e; reflexivity|].
    apply enc_step; [intros e; apply (put_field_link (OffsetDeleteRequestPartition47_Encode v) OffsetDeleteRequestPartition47_schema OffsetDeleteRequestPartition47_to v (l_encode _ OffsetDeleteRequestPartition47_linked v) true)|].
    intros e; reflexivity.
  - intros v t. unfold OffsetDeleteRequestTopic47_Decode, OffsetDeleteRequestTopic47_schema, OffsetDeleteRequestTopic47_to.
    dec_field (fun x : gostring => x); [apply dmap_id|intros x_Name].
    dec_field (option_map (map OffsetDeleteRequestPartition47_of)); [apply (dec_array_link _ _ OffsetDeleteRequestPartition47_of OffsetDeleteRequestPartition47_to (l_decode _ OffsetDeleteRequestPartition47_linked v OffsetDeleteRequestPartition47_zero) (l_of_to _ OffsetDeleteRequestPartition47_linked))|intros x_Partitions].
    intros d; reflexivity.
Qed.
Local Opaque OffsetDeleteRequestTopic47_Size OffsetDeleteRequestTopic47_Encode OffsetDeleteRequestTopic47_Decode.

(** ** OffsetDeleteRequest *)

(** message/messages.gen.go:11625-11628 *)
Record OffsetDeleteRequest : Type := mkOffsetDeleteRequest { OffsetDeleteRequest_GroupId : gostring; OffsetDeleteRequest_Topics : gslice OffsetDeleteRequestTopic47 }.
(** the zero value ([var item OffsetDeleteRequest]) *)
Definition OffsetDeleteRequest_zero : OffsetDeleteRequest := mkOffsetDeleteRequest [] None.
(** message/messages.gen.go:11631-11639 *)
Definition OffsetDeleteRequest_Size (version : Z) (t : OffsetDeleteRequest) : Z :=
  ((size_add (sz_String (OffsetDeleteRequest_GroupId t))) +>
   (size_loop (OffsetDeleteRequestTopic47_Size version) (OffsetDeleteRequest_Topics t)) +>
   size_done)%size 0.
(** message/messages.gen.go:11642-11650 *)
Definition OffsetDeleteRequest_Encode (version : Z) (t : OffsetDeleteRequest) : Encoder -> Encoder :=
  ((PutString (OffsetDeleteRequest_GroupId t)) >>
   (put_array (OffsetDeleteRequestTopic47_Encode version) (OffsetDeleteRequest_Topics t)) >>
   skip)%enc.
(** message/messages.gen.go:11653-11673 *)
Definition OffsetDeleteRequest_Decode (version : Z) (t : OffsetDeleteRequest) : Dec OffsetDeleteRequest :=
  x_GroupId <- dString ;;
  x_Topics <- (dec_array (OffsetDeleteRequestTopic47_Decode version OffsetDeleteRequestTopic47_zero) (OffsetDeleteRequest_Topics t)) ;;
  ret (mkOffsetDeleteRequest x_GroupId x_Topics).
(** the struct declaration read as a schema; version ranges as in Size *)
Definition OffsetDeleteRequest_schema : fields :=
  FCons "GroupId" Always TString
  (FCons "Topics" Always (TArray OffsetDeleteRequestTopic47_schema) FNil).
Definition OffsetDeleteRequest_to (t : OffsetDeleteRequest) : dens OffsetDeleteRequest_schema := (OffsetDeleteRequest_GroupId t, (option_map (map OffsetDeleteRequestTopic47_to) (OffsetDeleteRequest_Topics t), tt)).
Definition OffsetDeleteRequest_of (x : dens OffsetDeleteRequest_schema) : OffsetDeleteRequest := mkOffsetDeleteRequest (fst x) (option_map (map OffsetDeleteRequestTopic47_of) (fst (snd x))).
Definition OffsetDeleteRequest_codec : codec := Codec OffsetDeleteRequest OffsetDeleteRequest_zero OffsetDeleteRequest_Size OffsetDeleteRequest_Encode OffsetDeleteRequest_Decode OffsetDeleteRequest_schema OffsetDeleteRequest_to OffsetDeleteRequest_of.
Lemma OffsetDeleteRequest_linked : linked OffsetDeleteRequest_codec.
Proof.
  apply Linked; cbn [OffsetDeleteRequest_codec c_type c_zero c_size c_encode c_decode c_schema c_to c_of].
  - intros t. destruct t. cbv [OffsetDeleteRequest_of OffsetDeleteRequest_to]. cbn [fst snd OffsetDeleteRequest_GroupId OffsetDeleteRequest_Topics]. rewrite ?(option_map_map_inv OffsetDeleteRequestTopic47_to OffsetDeleteRequestTopic47_of _ (l_of_to _ OffsetDeleteRequestTopic47_linked)). reflexivity.
  - intros x. unfold OffsetDeleteRequest_schema in x. cbn [dens den] in x. destruct x as [x0 x]. destruct x as [x1 x]. destruct x. cbv [OffsetDeleteRequest_of OffsetDeleteRequest_to]. cbn [fst snd OffsetDeleteRequest_GroupId OffsetDeleteRequest_Topics]. rewrite ?(option_map_map_inv OffsetDeleteRequestTopic47_of OffsetDeleteRequestTopic47_to _ (l_to_of _ OffsetDeleteRequestTopic47_linked)). reflexivity.
  - reflexivity.
  - intros v t. unfold OffsetDeleteRequest_Size, OffsetDeleteRequest_schema, OffsetDeleteRequest_to. apply size_start.
    apply size_step; [intros sz; reflexivity|].
    apply size_step; [intros sz; apply (size_field_link (OffsetDeleteRequestTopic47_Size v) OffsetDeleteRequestTopic47_schema OffsetDeleteRequestTopic47_to v (l_size _ OffsetDeleteRequestTopic47_linked v) true)|].
    intros sz; reflexivity.
  - intros v t. unfold OffsetDeleteRequest_Encode, OffsetDeleteRequest_schema, OffsetDeleteRequest_to.
    apply enc_step; [intros e; reflexivity|].
    apply enc_step; [intros e; apply (put_field_link (OffsetDeleteRequestTopic47_Encode v) OffsetDeleteRequestTopic47_schema OffsetDeleteRequestTopic47_to v (l_encode _ OffsetDeleteRequestTopic47_linked v) true)|].
    intros e; reflexivity.
  - intros v t. unfold OffsetDeleteRequest_Decode, OffsetDeleteRequest_schema, OffsetDeleteRequest_to.
    dec_field (fun x : gostring => x); [apply dmap_id|intros x_GroupId].
    dec_field (option_map (map OffsetDeleteRequestTopic47_of)); [apply (dec_array_link _ _ OffsetDeleteRequestTopic47_of OffsetDeleteRequestTopic47_to (l_decode _ OffsetDeleteRequestTopic47_linked v OffsetDeleteRequestTopic47_zero) (l_of_to _ OffsetDeleteRequestTopic47_linked))|intros x_Topics].
    intros d; reflexivity.
Qed.
Local Opaque OffsetDeleteRequest_Size OffsetDeleteRequest_Encode OffsetDeleteRequest_Decode.

(** ** OffsetDeleteResponsePartition47 *)

(** message/messages.gen.go:11859-11862 *)
Record OffsetDeleteResponsePartition47 : Type := mkOffsetDeleteResponsePartition47 { OffsetDeleteResponsePartition47_PartitionIndex : Z; OffsetDeleteResponsePartition47_ErrorCode : Z }.
(** the zero value ([var item OffsetDeleteResponsePartition47]) *)
Definition OffsetDeleteResponsePartition47_zero : OffsetDeleteResponsePartition47 := mkOffsetDeleteResponsePartition47 0 0.
(** message/messages.gen.go:11865-11870 *)
Definition OffsetDeleteResponsePartition47_Size (version : Z) (t : OffsetDeleteResponsePartition47) : Z :=
  ((size_add sz_Int32) +>
   (size_add sz_Int16) +>
   size_done)%size 0.
(** message/messages.gen.go:11873-11876 *)
Definition OffsetDeleteResponsePartition47_Encode (version : Z) (t : OffsetDeleteResponsePartition47) : Encoder -> Encoder :=
  ((PutInt32 (OffsetDeleteResponsePartition47_PartitionIndex t)) >>
   (PutInt16 (OffsetDeleteResponsePartition47_ErrorCode t)) >>
   skip)%enc.
(** message/messages.gen.go:11879-11890 *)
Definition OffsetDeleteResponsePartition47_Decode (version : Z) (t : OffsetDeleteResponsePartition47) : Dec OffsetDeleteResponsePartition47 :=
  x_PartitionIndex <- dInt32 ;;
  x_ErrorCode <- dInt16 ;;
  ret (mkOffsetDeleteResponsePartition47 x_PartitionIndex x_ErrorCode).
(** the struct declaration read as a schema; version ranges as in Size *)
Definition OffsetDeleteResponsePartition47_schema : fields :=
  FCons "PartitionIndex" Always TInt32
  (FCons "ErrorCode" Always TInt16 FNil).
Definition OffsetDeleteResponsePartition47_to (t : OffsetDeleteResponsePartition47) : dens OffsetDeleteResponsePartition47_schema := (OffsetDeleteResponsePartition47_PartitionIndex t, (OffsetDeleteResponsePartition47_ErrorCode t, tt)).
Definition OffsetDeleteResponsePartition47_of (x : dens OffsetDeleteResponsePartition47_schema) : OffsetDeleteResponsePartition47 := mkOffsetDeleteResponsePartition47 (fst x) (fst (snd x)).
Definition OffsetDeleteResponsePartition47_codec : codec := Codec OffsetDeleteResponsePartition47 OffsetDeleteResponsePartition47_zero OffsetDeleteResponsePartition47_Size OffsetDeleteResponsePartition47_Encode OffsetDeleteResponsePartition47_Decode OffsetDeleteResponsePartition47_schema OffsetDeleteResponsePartition47_to OffsetDeleteResponsePartition47_of.
Lemma OffsetDeleteResponsePartition47_linked : linked OffsetDeleteResponsePartition47_codec.
Proof.
  apply Linked; cbn [OffsetDeleteResponsePartition47_codec c_type c_zero c_size c_encode c_decode c_schema c_to c_of].
  - intros t. destruct t. cbv [OffsetDeleteResponsePartition47_of OffsetDeleteResponsePartition47_to]. cbn [fst snd OffsetDeleteResponsePartition47_PartitionIndex OffsetDeleteResponsePartition47_ErrorCode].  reflexivity.
  - intros x. unfold OffsetDeleteResponsePartition47_schema in x. cbn [dens den] in x. destruct x as [x0 x]. destruct x as [x1 x]. destruct x. cbv [OffsetDeleteResponsePartition47_of OffsetDeleteResponsePartition47_to]. cbn [fst snd OffsetDeleteResponsePartition47_PartitionIndex OffsetDeleteResponsePartition47_ErrorCode].  reflexivity.
  - reflexivity.
  - intros v t. unfold OffsetDeleteResponsePartition47_Size, OffsetDeleteResponsePartition47_schema, OffsetDeleteResponsePartition47_to. apply size_start.
    apply size_step; [intros sz; reflexivity|].
    apply size_step; [intros sz; reflexivity|].
    intros sz; reflexivity.
  - intros v t. unfold OffsetDeleteResponsePartition47_Encode, OffsetDeleteResponsePartition47_schema, OffsetDeleteResponsePartition47_to.
    apply enc_step; [intros e; reflexivity|].
    apply enc_step; [intros e; reflexivity|].
    intros e; reflexivity.
  - intros v t. unfold OffsetDeleteResponsePartition47_Decode, OffsetDeleteResponsePartition47_schema, OffsetDeleteResponsePartition47_to.
    dec_field (fun x : Z => x); [apply dmap_id|intros x_PartitionIndex].
    dec_field (fun x : Z => x); [apply dmap_id|intros x_ErrorCode].
    intros d; reflexivity.
Qed.
Local Opaque OffsetDeleteResponsePartition47_Size OffsetDeleteResponsePartition47_Encode OffsetDeleteResponsePartition47_Decode.

(** ** OffsetDeleteResponseTopic47 *)

(** message/messages.gen.go:11809-11812 *)
Record OffsetDeleteResponseTopic47 : Type := mkOffsetDeleteResponseTopic47 { OffsetDeleteResponseTopic47_Name : gostring; OffsetDeleteResponseTopic47_Partitions : gslice OffsetDeleteResponsePartition47 }.
(** the zero value ([var item OffsetDeleteResponseTopic47]) *)
Definition OffsetDeleteResponseTopic47_zero : OffsetDeleteResponseTopic47 := mkOffsetDeleteResponseTopic47 [] None.
(** message/messages.gen.go:11815-11823 *)
Definition OffsetDeleteResponseTopic47_Size (version : Z) (t : OffsetDeleteResponseTopic47) : Z :=
  ((size_add (sz_String (OffsetDeleteResponseTopic47_Name t))) +>
   (size_loop (OffsetDeleteResponsePartition47_Size version) (OffsetDeleteResponseTopic47_Partitions t)) +>
   size_done)%size 0.
(** message/messages.gen.go:11826-11834 *)
Definition OffsetDeleteResponseTopic47_Encode (version : Z) (t : OffsetDeleteResponseTopic47) : Encoder -> Encoder :=
  ((PutString (OffsetDeleteResponseTopic47_Name t)) >>
   (put_array (OffsetDeleteResponsePartition47_Encode version) (OffsetDeleteResponseTopic47_Partitions t)) >>
   skip)%enc.
(** message/messages.gen.go:11837-11857 *)
Definition OffsetDeleteResponseTopic47_Decode (version : Z) (t : OffsetDeleteResponseTopic47) : Dec OffsetDeleteResponseTopic47 :=
  x_Name <- dString ;;
  x_Partitions <- (dec_array (OffsetDeleteResponsePartition47_Decode version OffsetDeleteResponsePartition47_zero) (OffsetDeleteResponseTopic47_Partitions t)) ;;
  ret (mkOffsetDeleteResponseTopic47 x_Name x_Partitions).
(** the struct declaration read as a schema; version ranges as in Size *)
Definition OffsetDeleteResponseTopic47_schema : fields :=
  FCons "Name" Always TString
  (FCons "Partitions" Always (TArray OffsetDeleteResponsePartition47_schema) FNil).
Definition OffsetDeleteResponseTopic47_to (t : OffsetDeleteResponseTopic47) : dens OffsetDeleteResponseTopic47_schema := (OffsetDeleteResponseTopic47_Name t, (option_map (map OffsetDeleteResponsePartition47_to) (OffsetDeleteResponseTopic47_Partitions t), tt)).
Definition OffsetDeleteResponseTopic47_of (x : dens OffsetDeleteResponseTopic47_schema) : OffsetDeleteResponseTopic47 := mkOffsetDeleteResponseTopic47 (fst x) (option_map (map OffsetDeleteResponsePartition47_of) (fst (snd x))).
Definition OffsetDeleteResponseTopic47_codec : codec := Codec OffsetDeleteResponseTopic47 OffsetDeleteResponseTopic47_zero OffsetDeleteResponseTopic47_Size OffsetDeleteResponseTopic47_Encode OffsetDeleteResponseTopic47_Decode OffsetDeleteResponseTopic47_schema OffsetDeleteResponseTopic47_to OffsetDeleteResponseTopic47_of.
Lemma OffsetDeleteResponseTopic47_linked : linked OffsetDeleteResponseTopic47_codec.
Proof.
  apply Linked; cbn [OffsetDeleteResponseTopic47_codec c_type c_zero c_size c_encode c_decode c_schema c_to c_of].
  - intros t. destruct t. cbv [OffsetDeleteResponseTopic47_of OffsetDeleteResponseTopic47_to]. cbn [fst snd OffsetDeleteResponseTopic47_Name OffsetDeleteResponseTopic47_Partitions]. rewrite ?(option_map_map_inv OffsetDeleteResponsePartition47_to OffsetDeleteResponsePartition47_of _ (l_of_to _ OffsetDeleteResponsePartition47_linked)). reflexivity.
  - intros x. unfold OffsetDeleteResponseTopic47_schema in x. cbn [dens den] in x. destruct x as [x0 x]. destruct x as [x1 x]. destruct x. cbv [OffsetDeleteResponseTopic47_of OffsetDeleteResponseTopic47_to]. cbn [fst snd OffsetDeleteResponseTopic47_Name OffsetDeleteResponseTopic47_Partitions]. rewrite ?(option_map_map_inv OffsetDeleteResponsePartition47_of OffsetDeleteResponsePartition47_to _ (l_to_of _ OffsetDeleteResponsePartition47_linked)). reflexivity.
  - reflexivity.
  - intros v t. unfold OffsetDeleteResponseTopic47_Size, OffsetDeleteResponseTopic47_schema, OffsetDeleteResponseTopic47_to. apply size_start.
    apply size_step; [intros sz; reflexivity|].
    apply size_step; [intros sz; apply (size_field_link (OffsetDeleteResponsePartition47_Size v) OffsetDeleteResponsePartition47_schema OffsetDeleteResponsePartition47_to v (l_size _ OffsetDeleteResponsePartition47_linked v) true)|].
    intros sz; reflexivity.
  - intros v t. unfold OffsetDeleteResponseTopic47_Encode, OffsetDeleteResponseTopic47_schema, OffsetDeleteResponseTopic47_to.
    apply enc_step; [intros e; reflexivity|].
    apply enc_step; [intros e; apply (put_field_link (OffsetDeleteResponsePartition47_Encode v) OffsetDeleteResponsePartition47_schema OffsetDeleteResponsePartition47_to v (l_encode _ OffsetDeleteResponsePartition47_linked v) true)|].
    intros e; reflexivity.
  - intros v t. unfold OffsetDeleteResponseTopic47_Decode, OffsetDeleteResponseTopic47_schema, OffsetDeleteResponseTopic47_to.
    dec_field (fun x : gostring => x); [apply dmap_id|intros x_Name].
    dec_field (option_map (map OffsetDeleteResponsePartition47_of)); [apply (dec_array_link _ _ OffsetDeleteResponsePartition47_of OffsetDeleteResponsePartition47_to (l_decode _ OffsetDeleteResponsePartition47_linked v OffsetDeleteResponsePartition47_zero) (l_of_to _ OffsetDeleteResponsePartition47_linked))|intros x_Partitions].
    intros d; reflexivity.
Qed.
Local Opaque OffsetDeleteResponseTopic47_Size OffsetDeleteResponseTopic47_Encode OffsetDeleteResponseTopic47_Decode.

(** ** OffsetDeleteResponse *)

(** message/messages.gen.go:11752-11756 *)
Record OffsetDeleteResponse : Type := mkOffsetDeleteResponse { OffsetDeleteResponse_ErrorCode : Z; OffsetDeleteResponse_ThrottleTimeMs : Z; OffsetDeleteResponse_Topics : gslice OffsetDeleteResponseTopic47 }.
(** the zero value ([var item OffsetDeleteResponse]) *)
Definition OffsetDeleteResponse_zero : OffsetDeleteResponse := mkOffsetDeleteResponse 0 0 None.
(** message/messages.gen.go:11759-11768 *)
Definition OffsetDeleteResponse_Size (version : Z) (t : OffsetDeleteResponse) : Z :=
  ((size_add sz_Int16) +>
   (size_add sz_Int32) +>
   (size_loop (OffsetDeleteResponseTopic47_Size version) (OffsetDeleteResponse_Topics t)) +>
   size_done)%size 0.
(** message/messages.gen.go:11771-11780 *)
Definition OffsetDeleteResponse_Encode (version : Z) (t : OffsetDeleteResponse) : Encoder -> Encoder :=
  ((PutInt16 (OffsetDeleteResponse_ErrorCode t)) >>
   (PutInt32 (OffsetDeleteResponse_ThrottleTimeMs t)) >>
   (put_array (OffsetDeleteResponseTopic47_Encode version) (OffsetDeleteResponse_Topics t)) >>
   skip)%enc.
(** message/messages.gen.go:11783-11807 *)
Definition OffsetDeleteResponse_Decode (version : Z) (t : OffsetDeleteResponse) : Dec OffsetDeleteResponse :=
  x_ErrorCode <- dInt16 ;;
  x_ThrottleTimeMs <- dInt32 ;;
  x_Topics <- (dec_array (OffsetDeleteResponseTopic47_Decode version OffsetDeleteResponseTopic47_zero) (OffsetDeleteResponse_Topics t)) ;;
  ret (mkOffsetDeleteResponse x_ErrorCode x_ThrottleTimeMs x_Topics).
(** the struct declaration read as a schema; version ranges as in Size *)
Definition OffsetDeleteResponse_schema : fields :=
  FCons "ErrorCode" Always TInt16
  (FCons "ThrottleTimeMs" Always TInt32
  (FCons "Topics" Always (TArray OffsetDeleteResponseTopic47_schema) FNil)).
Definition OffsetDeleteResponse_to (t : OffsetDeleteResponse) : dens OffsetDeleteResponse_schema := (OffsetDeleteResponse_ErrorCode t, (OffsetDeleteResponse_ThrottleTimeMs t, (option_map (map OffsetDeleteResponseTopic47_to) (OffsetDeleteResponse_Topics t), tt))).
Definition OffsetDeleteResponse_of (x : dens OffsetDeleteResponse_schema) : OffsetDeleteResponse := mkOffsetDeleteResponse (fst x) (fst (snd x)) (option_map (map OffsetDeleteResponseTopic47_of) (fst (snd (snd x)))).
Definition OffsetDeleteResponse_codec : codec := Codec OffsetDeleteResponse OffsetDeleteResponse_zero OffsetDeleteResponse_Size OffsetDeleteResponse_Encode OffsetDeleteResponse_Decode OffsetDeleteResponse_schema OffsetDeleteResponse_to OffsetDeleteResponse_of.
Lemma OffsetDeleteResponse_linked : linked OffsetDeleteResponse_codec.
Proof.
  apply Linked; cbn [OffsetDeleteResponse_codec c_type c_zero c_size c_encode c_decode c_schema c_to c_of].
  - intros t. destruct t. cbv [OffsetDeleteResponse_of OffsetDeleteResponse_to]. cbn [fst snd OffsetDeleteResponse_ErrorCode OffsetDeleteResponse_ThrottleTimeMs OffsetDeleteResponse_Topics]. rewrite ?(option_map_map_inv OffsetDeleteResponseTopic47_to OffsetDeleteResponseTopic47_of _ (l_of_to _ OffsetDeleteResponseTopic47_linked)). reflexivity.
  - intros x. unfold OffsetDeleteResponse_schema in x. cbn [dens den] in x. destruct x as [x0 x]. destruct x as [x1 x]. destruct x as [x2 x]. destruct x. cbv [OffsetDeleteResponse_of OffsetDeleteResponse_to]. cbn [fst snd OffsetDeleteResponse_ErrorCode OffsetDeleteResponse_ThrottleTimeMs OffsetDeleteResponse_Topics]. rewrite ?(option_map_map_inv OffsetDeleteResponseTopic47_of OffsetDeleteResponseTopic47_to _ (l_to_of _ OffsetDeleteResponseTopic47_linked)). reflexivity.
  - reflexivity.
  - intros v t. unfold OffsetDeleteResponse_Size, OffsetDeleteResponse_schema, OffsetDeleteResponse_to. apply size_start.
    apply size_step; [intros sz; reflexivity|].
    apply size_step; [intros sz; reflexivity|].
    apply size_step; [intros sz; apply (size_field_link (OffsetDeleteResponseTopic47_Size v) OffsetDeleteResponseTopic47_schema OffsetDeleteResponseTopic47_to v (l_size _ OffsetDeleteResponseTopic47_linked v) true)|].
    intros sz; reflexivity.
  - intros v t. unfold OffsetDeleteResponse_Encode, OffsetDeleteResponse_schema, OffsetDeleteResponse_to.
    apply enc_step; [intros e; reflexivity|].
    apply enc_step; [intros e; reflexivity|].
    apply enc_step; [intros e; apply (put_field_link (OffsetDeleteResponseTopic47_Encode v) OffsetDeleteResponseTopic47_schema OffsetDeleteResponseTopic47_to v (l_encode _ OffsetDeleteResponseTopic47_linked v) true)|].
    intros e; reflexivity.
  - intros v t. unfold OffsetDeleteResponse_Decode, OffsetDeleteResponse_schema, OffsetDeleteResponse_to.
    dec_field (fun x : Z => x); [apply dmap_id|intros x_ErrorCode].
    dec_field (fun x : Z => x); [apply dmap_id|intros x_ThrottleTimeMs].
    dec_field (option_map (map OffsetDeleteResponseTopic47_of)); [apply (dec_array_link _ _ OffsetDeleteResponseTopic47_of OffsetDeleteResponseTopic47_to (l_decode _ OffsetDeleteResponseTopic47_linked v OffsetDeleteResponseTopic47_zero) (l_of_to _ OffsetDeleteResponseTopic47_linked))|intros x_Topics].
    intros d; reflexivity.
Qed.
Local Opaque OffsetDeleteResponse_Size OffsetDeleteResponse_Encode OffsetDeleteResponse_Decode.

