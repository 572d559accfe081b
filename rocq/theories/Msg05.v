(** * Generated message types (part 5 of 10).

    Written by tools/gen_messages.py from message/messages.gen.go, one
    definition per Go method; do not edit.  A Decode method that fails leaves
    a partly filled receiver behind, which no caller looks at; the model drops
    it. *)
From Coq Require Import String.
From Verif Require Import GoBase Encoder Decoder Sizeof SchemaSpec Schema Link.
Open Scope Z_scope.

(** ** CreatableTopicConfigs19 *)

(** message/messages.gen.go:5748-5754 *)
Record CreatableTopicConfigs19 : Type := mkCreatableTopicConfigs19 { CreatableTopicConfigs19_Name : gostring; CreatableTopicConfigs19_Value : gostring; CreatableTopicConfigs19_ReadOnly : bool; CreatableTopicConfigs19_ConfigSource : Z; CreatableTopicConfigs19_IsSensitive : bool }.
(** the zero value ([var item CreatableTopicConfigs19]) *)
Definition CreatableTopicConfigs19_zero : CreatableTopicConfigs19 := mkCreatableTopicConfigs19 [] [] false 0 false.
(** message/messages.gen.go:5757-5775 *)
Definition CreatableTopicConfigs19_Size (version : Z) (t : CreatableTopicConfigs19) : Z :=
  (size_if (5 <=? version) (size_add (sz_String (CreatableTopicConfigs19_Name t))) +>
   size_if (5 <=? version) (size_add (sz_String (CreatableTopicConfigs19_Value t))) +>
   size_if (5 <=? version) (size_add sz_Bool) +>
   size_if (5 <=? version) (size_add sz_Int8) +>
   size_if (5 <=? version) (size_add sz_Bool) +>
   size_done)%size 0.
(** message/messages.gen.go:5778-5794 *)
Definition CreatableTopicConfigs19_Encode (version : Z) (t : CreatableTopicConfigs19) : Encoder -> Encoder :=
  (put_if (5 <=? version) (PutString (CreatableTopicConfigs19_Name t)) >>
   put_if (5 <=? version) (PutString (CreatableTopicConfigs19_Value t)) >>
   put_if (5 <=? version) (PutBool (CreatableTopicConfigs19_ReadOnly t)) >>
   put_if (5 <=? version) (PutInt8 (CreatableTopicConfigs19_ConfigSource t)) >>
   put_if (5 <=? version) (PutBool (CreatableTopicConfigs19_IsSensitive t)) >>
   skip)%enc.
(** message/messages.gen.go:5797-5830 *)
Definition CreatableTopicConfigs19_Decode (version : Z) (t : CreatableTopicConfigs19) : Dec CreatableTopicConfigs19 :=
  x_Name <- dec_if (5 <=? version) dString (CreatableTopicConfigs19_Name t) ;;
  x_Value <- dec_if (5 <=? version) dString (CreatableTopicConfigs19_Value t) ;;
  x_ReadOnly <- dec_if (5 <=? version) dBool (CreatableTopicConfigs19_ReadOnly t) ;;
  x_ConfigSource <- dec_if (5 <=? version) dInt8 (CreatableTopicConfigs19_ConfigSource t) ;;
  x_IsSensitive <- dec_if (5 <=? version) dBool (CreatableTopicConfigs19_IsSensitive t) ;;
  ret (mkCreatableTopicConfigs19 x_Name x_Value x_ReadOnly x_ConfigSource x_IsSensitive).
(** the struct declaration read as a schema; version ranges as in Size *)
Definition CreatableTopicConfigs19_schema : fields :=
  FCons "Name" (From 5) TString
  (FCons "Value" (From 5) TString
  (FCons "ReadOnly" (From 5) TBool
  (FCons "ConfigSource" (From 5) TInt8
  (FCons "IsSensitive" (From 5) TBool FNil)))).
Definition CreatableTopicConfigs19_to (t : CreatableTopicConfigs19) : dens CreatableTopicConfigs19_schema := (CreatableTopicConfigs19_Name t, (CreatableTopicConfigs19_Value t, (CreatableTopicConfigs19_ReadOnly t, (CreatableTopicConfigs19_ConfigSource t, (CreatableTopicConfigs19_IsSensitive t, tt))))).
Definition CreatableTopicConfigs19_of (x : dens CreatableTopicConfigs19_schema) : CreatableTopicConfigs19 := mkCreatableTopicConfigs19 (fst x) (fst (snd x)) (fst (snd (snd x))) (fst (snd (snd (snd x)))) (fst (snd (snd (snd (snd x))))).
Definition CreatableTopicConfigs19_codec : codec := Codec CreatableTopicConfigs19 CreatableTopicConfigs19_zero CreatableTopicConfigs19_Size CreatableTopicConfigs19_Encode CreatableTopicConfigs19_Decode CreatableTopicConfigs19_schema CreatableTopicConfigs19_to CreatableTopicConfigs19_of.
Lemma CreatableTopicConfigs19_linked : linked CreatableTopicConfigs19_codec.
Proof.
  apply Linked; cbn [CreatableTopicConfigs19_codec c_type c_zero c_size c_encode c_decode c_schema c_to c_of].
  - intros t. destruct t. cbv [CreatableTopicConfigs19_of CreatableTopicConfigs19_to]. cbn [fst snd CreatableTopicConfigs19_Name CreatableTopicConfigs19_Value CreatableTopicConfigs19_ReadOnly CreatableTopicConfigs19_ConfigSource CreatableTopicConfigs19_IsSensitive].  reflexivity.
  - intros x. unfold CreatableTopicConfigs19_schema in x. cbn [dens den] in x. destruct x as [x0 x]. destruct x as [x1 x]. destruct x as [x2 x]. destruct x as [x3 x]. destruct x as [x4 x]. destruct x. cbv [CreatableTopicConfigs19_of CreatableTopicConfigs19_to]. cbn [fst snd CreatableTopicConfigs19_Name CreatableTopicConfigs19_Value CreatableTopicConfigs19_ReadOnly CreatableTopicConfigs19_ConfigSource CreatableTopicConfigs19_IsSensitive].  reflexivity.
  - reflexivity.
  - intros v t. unfold CreatableTopicConfigs19_Size, CreatableTopicConfigs19_schema, CreatableTopicConfigs19_to. apply size_start.
    apply size_step; [intros sz; reflexivity|].
    apply size_step; [intros sz; reflexivity|].
    apply size_step; [intros sz; reflexivity|].
    apply size_step; [intros sz; reflexivity|].
    apply size_step; [intros sz; reflexivity|].
    intros sz; reflexivity.
  - intros v t. unfold CreatableTopicConfigs19_Encode, CreatableTopicConfigs19_schema, CreatableTopicConfigs19_to.
    apply enc_step; [intros e; reflexivity|].
    apply enc_step; [intros e; reflexivity|].
    apply enc_step; [intros e; reflexivity|].
    apply enc_step; [intros e; reflexivity|].
    apply enc_step; [intros e; reflexivity|].
    intros e; reflexivity.
  - intros v t. unfold CreatableTopicConfigs19_Decode, CreatableTopicConfigs19_schema, CreatableTopicConfigs19_to.
    dec_field (fun x : gostring => x); [apply dec_if_link; [apply dmap_id|reflexivity]|intros x_Name].
    dec_field (fun x : gostring => x); [apply dec_if_link; [apply dmap_id|reflexivity]|intros x_Value].
    dec_field (fun x : bool => x); [apply dec_if_link; [apply dmap_id|reflexivity]|intros x_ReadOnly].
    dec_field (fun x : Z => x); [apply dec_if_link; [apply dmap_id|reflexivity]|intros x_ConfigSource].
    dec_field (fun x : bool => x); [apply dec_if_link; [apply dmap_id|reflexivity]|intros x_IsSensitive].
    intros d; reflexivity.
Qed.
Local Opaque CreatableTopicConfigs19_Size CreatableTopicConfigs19_Encode CreatableTopicConfigs19_Decode.

(** ** CreatableTopicResult19 *)

(** message/messages.gen.go:5633-5641 *)
Record CreatableTopicResult19 : Type := mkCreatableTopicResult19 { CreatableTopicResult19_Name : gostring; CreatableTopicResult19_ErrorCode : Z; CreatableTopicResult19_ErrorMessage : gostring; CreatableTopicResult19_TopicConfigErrorCode : Z; CreatableTopicResult19_NumPartitions : Z; CreatableTopicResult19_ReplicationFactor : Z; CreatableTopicResult19_Configs : gslice CreatableTopicConfigs19 }.
(** the zero value ([var item CreatableTopicResult19]) *)
Definition CreatableTopicResult19_zero : CreatableTopicResult19 := mkCreatableTopicResult19 [] 0 [] 0 0 0 None.
(** message/messages.gen.go:5644-5667 *)
Definition CreatableTopicResult19_Size (version : Z) (t : CreatableTopicResult19) : Z :=
  ((size_add (sz_String (CreatableTopicResult19_Name t))) +>
   (size_add sz_Int16) +>
   size_if (1 <=? version) (size_add (sz_String (CreatableTopicResult19_ErrorMessage t))) +>
   size_if (5 <=? version) (size_add sz_Int16) +>
   size_if (5 <=? version) (size_add sz_Int32) +>
   size_if (5 <=? version) (size_add sz_Int16) +>
   size_if (5 <=? version) (size_loop (CreatableTopicConfigs19_Size version) (CreatableTopicResult19_Configs t)) +>
   size_done)%size 0.
(** message/messages.gen.go:5670-5693 *)
Definition CreatableTopicResult19_Encode (version : Z) (t : CreatableTopicResult19) : Encoder -> Encoder :=
  ((PutString (CreatableTopicResult19_Name t)) >>
   (PutInt16 (CreatableTopicResult19_ErrorCode t)) >>
   put_if (1 <=? version) (PutString (CreatableTopicResult19_ErrorMessage t)) >>
   put_if (5 <=? version) (PutInt16 (CreatableTopicResult19_TopicConfigErrorCode t)) >>
   put_if (5 <=? version) (PutInt32 (CreatableTopicResult19_NumPartitions t)) >>
   put_if (5 <=? version) (PutInt16 (CreatableTopicResult19_ReplicationFactor t)) >>
   put_if (5 <=? version) (put_array (CreatableTopicConfigs19_Encode version) (CreatableTopicResult19_Configs t)) >>
   skip)%enc.
(** message/messages.gen.go:5696-5746 *)
Definition CreatableTopicResult19_Decode (version : Z) (t : CreatableTopicResult19) : Dec CreatableTopicResult19 :=
  x_Name <- dString ;;
  x_ErrorCode <- dInt16 ;;
  x_ErrorMessage <- dec_if (1 <=? version) dString (CreatableTopicResult19_ErrorMessage t) ;;
  x_TopicConfigErrorCode <- dec_if (5 <=? version) dInt16 (CreatableTopicResult19_TopicConfigErrorCode t) ;;
  x_NumPartitions <- dec_if (5 <=? version) dInt32 (CreatableTopicResult19_NumPartitions t) ;;
  x_ReplicationFactor <- dec_if (5 <=? version) dInt16 (CreatableTopicResult19_ReplicationFactor t) ;;
  x_Configs <- dec_if (5 <=? version) (dec_array (CreatableTopicConfigs19_Decode version CreatableTopicConfigs19_zero) (CreatableTopicResult19_Configs t)) (CreatableTopicResult19_Configs t) ;;
  ret (mkCreatableTopicResult19 x_Name x_ErrorCode x_ErrorMessage x_TopicConfigErrorCode x_NumPartitions x_ReplicationFactor x_Configs).
(** the struct declaration read as a schema; version ranges as in Size *)
Definition CreatableTopicResult19_schema : fields :=
  FCons "Name" Always TString
  (FCons "ErrorCode" Always TInt16
  (FCons "ErrorMessage" (From 1) TString
  (FCons "TopicConfigErrorCode" (From 5) TInt16
  (FCons "NumPartitions" (From 5) TInt32
  (FCons "ReplicationFactor" (From 5) TInt16
  (FCons "Configs" (From 5) (TArray CreatableTopicConfigs19_schema) FNil)))))).
Definition CreatableTopicResult19_to (t : CreatableTopicResult19) : dens CreatableTopicResult19_schema := (CreatableTopicResult19_Name t, (CreatableTopicResult19_ErrorCode t, (CreatableTopicResult19_ErrorMessage t, (CreatableTopicResult19_TopicConfigErrorCode t, (CreatableTopicResult19_NumPartitions t, (CreatableTopicResult19_ReplicationFactor t, (option_map (map CreatableTopicConfigs19_to) (CreatableTopicResult19_Configs t), tt))))))).
Definition CreatableTopicResult19_of (x : dens CreatableTopicResult19_schema) : CreatableTopicResult19 := mkCreatableTopicResult19 (fst x) (fst (snd x)) (fst (snd (snd x))) (fst (snd (snd (snd x)))) (fst (snd (snd (snd (snd x))))) (fst (snd (snd (snd (snd (snd x)))))) (option_map (map CreatableTopicConfigs19_of) (fst (snd (snd (snd (snd (snd (snd x)))))))).
Definition CreatableTopicResult19_codec : codec := Codec CreatableTopicResult19 CreatableTopicResult19_zero CreatableTopicResult19_Size CreatableTopicResult19_Encode CreatableTopicResult19_Decode CreatableTopicResult19_schema CreatableTopicResult19_to CreatableTopicResult19_of.
Lemma CreatableTopicResult19_linked : linked CreatableTopicResult19_codec.
Proof.
  apply Linked; cbn [CreatableTopicResult19_codec c_type c_zero c_size c_encode c_decode c_schema c_to c_of].
  - intros t. destruct t. cbv [CreatableTopicResult19_of CreatableTopicResult19_to]. cbn [fst snd CreatableTopicResult19_Name CreatableTopicResult19_ErrorCode CreatableTopicResult19_ErrorMessage CreatableTopicResult19_TopicConfigErrorCode CreatableTopicResult19_NumPartitions CreatableTopicResult19_ReplicationFactor CreatableTopicResult19_Configs]. rewrite ?(option_map_map_inv CreatableTopicConfigs19_to CreatableTopicConfigs19_of _ (l_of_to _ CreatableTopicConfigs19_linked)). reflexivity.
  - intros x. unfold CreatableTopicResult19_schema in x. cbn [dens den] in x. destruct x as [x0 x]. destruct x as [x1 x]. destruct x as [x2 x]. destruct x as [x3 x]. destruct x as [x4 x]. destruct x as [x5 x]. destruct x as [x6 x]. destruct x. cbv [CreatableTopicResult19_of CreatableTopicResult19_to]. cbn [fst snd CreatableTopicResult19_Name CreatableTopicResult19_ErrorCode CreatableTopicResult19_ErrorMessage CreatableTopicResult19_TopicConfigErrorCode CreatableTopicResult19_NumPartitions CreatableTopicResult19_ReplicationFactor CreatableTopicResult19_Configs]. rewrite ?(option_map_map_inv CreatableTopicConfigs19_of CreatableTopicConfigs19_to _ (l_to_of _ CreatableTopicConfigs19_linked)). reflexivity.
  - reflexivity.
  - intros v t. unfold CreatableTopicResult19_Size, CreatableTopicResult19_schema, CreatableTopicResult19_to. apply size_start.
    apply size_step; [intros sz; reflexivity|].
    apply size_step; [intros sz; reflexivity|].
    apply size_step; [intros sz; reflexivity|].
    apply size_step; [intros sz; reflexivity|].
    apply size_step; [intros sz; reflexivity|].
    apply size_step; [intros sz; reflexivity|].
    apply size_step; [intros sz; apply (size_field_link (CreatableTopicConfigs19_Size v) CreatableTopicConfigs19_schema CreatableTopicConfigs19_to v (l_size _ CreatableTopicConfigs19_linked v) _)|].
    intros sz; reflexivity.
  - intros v t. unfold CreatableTopicResult19_Encode, CreatableTopicResult19_schema, CreatableTopicResult19_to.
    apply enc_step; [intros e; reflexivity|].
    apply enc_step; [intros e; reflexivity|].
    apply enc_step; [intros e; reflexivity|].
    apply enc_step; [intros e; reflexivity|].
    apply enc_step; [intros e; reflexivity|].
    apply enc_step; [intros e; reflexivity|].
    apply enc_step; [intros e; apply (put_field_link (CreatableTopicConfigs19_Encode v) CreatableTopicConfigs19_schema CreatableTopicConfigs19_to v (l_encode _ CreatableTopicConfigs19_linked v) _)|].
    intros e; reflexivity.
  - intros v t. unfold CreatableTopicResult19_Decode, CreatableTopicResult19_schema, CreatableTopicResult19_to.
    dec_field (fun x : gostring => x); [apply dmap_id|intros x_Name].
    dec_field (fun x : Z => x); [apply dmap_id|intros x_ErrorCode].
    dec_field (fun x : gostring => x); [apply dec_if_link; [apply dmap_id|reflexivity]|intros x_ErrorMessage].
    dec_field (fun x : Z => x); [apply dec_if_link; [apply dmap_id|reflexivity]|intros x_TopicConfigErrorCode].
    dec_field (fun x : Z => x); [apply dec_if_link; [apply dmap_id|reflexivity]|intros x_NumPartitions].
    dec_field (fun x : Z => x); [apply dec_if_link; [apply dmap_id|reflexivity]|intros x_ReplicationFactor].
    dec_field (option_map (map CreatableTopicConfigs19_of)); [apply dec_if_link; [apply (dec_array_link _ _ CreatableTopicConfigs19_of CreatableTopicConfigs19_to (l_decode _ CreatableTopicConfigs19_linked v CreatableTopicConfigs19_zero) (l_of_to _ CreatableTopicConfigs19_linked))|symmetry; apply (option_map_map_inv CreatableTopicConfigs19_to CreatableTopicConfigs19_of _ (l_of_to _ CreatableTopicConfigs19_linked))]|intros x_Configs].
    intros d; reflexivity.
Qed.
Local Opaque CreatableTopicResult19_Size CreatableTopicResult19_Encode CreatableTopicResult19_Decode.

(** ** CreateTopicsResponse *)

(** message/messages.gen.go:5577-5580 *)
Record CreateTopicsResponse : Type := mkCreateTopicsResponse { CreateTopicsResponse_ThrottleTimeMs : Z; CreateTopicsResponse_Topics : gslice CreatableTopicResult19 }.
(** the zero value ([var item CreateTopicsResponse]) *)
Definition CreateTopicsResponse_zero : CreateTopicsResponse := mkCreateTopicsResponse 0 None.
(** message/messages.gen.go:5583-5593 *)
Definition CreateTopicsResponse_Size (version : Z) (t : CreateTopicsResponse) : Z :=
  (size_if (2 <=? version) (size_add sz_Int32) +>
   (size_loop (CreatableTopicResult19_Size version) (CreateTopicsResponse_Topics t)) +>
   size_done)%size 0.
(** message/messages.gen.go:5596-5606 *)
Definition CreateTopicsResponse_Encode (version : Z) (t : CreateTopicsResponse) : Encoder -> Encoder :=
  (put_if (2 <=? version) (PutInt32 (CreateTopicsResponse_ThrottleTimeMs t)) >>
   (put_array (CreatableTopicResult19_Encode version) (CreateTopicsResponse_Topics t)) >>
   skip)%enc.
(** message/messages.gen.go:5609-5631 *)
Definition CreateTopicsResponse_Decode (version : Z) (t : CreateTopicsResponse) : Dec CreateTopicsResponse :=
  x_ThrottleTimeMs <- dec_if (2 <=? version) dInt32 (CreateTopicsResponse_ThrottleTimeMs t) ;;
  x_Topics <- (dec_array (CreatableTopicResult19_Decode version CreatableTopicResult19_zero) (CreateTopicsResponse_Topics t)) ;;
  ret (mkCreateTopicsResponse x_ThrottleTimeMs x_Topics).
(** the struct declaration read as a schema; version ranges as in Size *)
Definition CreateTopicsResponse_schema : fields :=
  FCons "ThrottleTimeMs" (From 2) TInt32
  (FCons "Topics" Always (TArray CreatableTopicResult19_schema) FNil).
Definition CreateTopicsResponse_to (t : CreateTopicsResponse) : dens CreateTopicsResponse_schema := (CreateTopicsResponse_ThrottleTimeMs t, (option_map (map CreatableTopicResult19_to) (CreateTopicsResponse_Topics t), tt)).
Definition CreateTopicsResponse_of (x : dens CreateTopicsResponse_schema) : CreateTopicsResponse := mkCreateTopicsResponse (fst x) (option_map (map CreatableTopicResult19_of) (fst (snd x))).
Definition CreateTopicsResponse_codec : codec := Codec CreateTopicsResponse CreateTopicsResponse_zero CreateTopicsResponse_Size CreateTopicsResponse_Encode CreateTopicsResponse_Decode CreateTopicsResponse_schema CreateTopicsResponse_to CreateTopicsResponse_of.
Lemma CreateTopicsResponse_linked : linked CreateTopicsResponse_codec.
Proof.
  apply Linked; cbn [CreateTopicsResponse_codec c_type c_zero c_size c_encode c_decode c_schema c_to c_of].
  - intros t. destruct t. cbv [CreateTopicsResponse_of CreateTopicsResponse_to]. cbn [fst snd CreateTopicsResponse_ThrottleTimeMs CreateTopicsResponse_Topics]. rewrite ?(option_map_map_inv CreatableTopicResult19_to CreatableTopicResult19_of _ (l_of_to _ CreatableTopicResult19_linked)). reflexivity.
  - intros x. unfold CreateTopicsResponse_schema in x. cbn [dens den] in x. destruct x as [x0 x]. destruct x as [x1 x]. destruct x. cbv [CreateTopicsResponse_of CreateTopicsResponse_to]. cbn [fst snd CreateTopicsResponse_ThrottleTimeMs CreateTopicsResponse_Topics]. rewrite ?(option_map_map_inv CreatableTopicResult19_of CreatableTopicResult19_to _ (l_to_of _ CreatableTopicResult19_linked)). reflexivity.
  - reflexivity.
  - intros v t. unfold CreateTopicsResponse_Size, CreateTopicsResponse_schema, CreateTopicsResponse_to. apply size_start.
    apply size_step; [intros sz; reflexivity|].
    apply size_step; [intros sz; apply (size_field_link (CreatableTopicResult19_Size v) CreatableTopicResult19_schema CreatableTopicResult19_to v (l_size _ CreatableTopicResult19_linked v) true)|].
    intros sz; reflexivity.
  - intros v t. unfold CreateTopicsResponse_Encode, CreateTopicsResponse_schema, CreateTopicsResponse_to.
    apply enc_step; [intros e; reflexivity|].
    apply enc_step; [intros e; apply (put_field_link (CreatableTopicResult19_Encode v) CreatableTopicResult19_schema CreatableTopicResult19_to v (l_encode _ CreatableTopicResult19_linked v) true)|].
    intros e; reflexivity.
  - intros v t. unfold CreateTopicsResponse_Decode, CreateTopicsResponse_schema, CreateTopicsResponse_to.
    dec_field (fun x : Z => x); [apply dec_if_link; [apply dmap_id|reflexivity]|intros x_ThrottleTimeMs].
    dec_field (option_map (map CreatableTopicResult19_of)); [apply (dec_array_link _ _ CreatableTopicResult19_of CreatableTopicResult19_to (l_decode _ CreatableTopicResult19_linked v CreatableTopicResult19_zero) (l_of_to _ CreatableTopicResult19_linked))|intros x_Topics].
    intros d; reflexivity.
Qed.
Local Opaque CreateTopicsResponse_Size CreateTopicsResponse_Encode CreateTopicsResponse_Decode.

(** ** DeleteTopicsRequest *)

(** message/messages.gen.go:5833-5836 *)
Record DeleteTopicsRequest : Type := mkDeleteTopicsRequest { DeleteTopicsRequest_TopicNames : gslice gostring; DeleteTopicsRequest_TimeoutMs : Z }.
(** the zero value ([var item DeleteTopicsRequest]) *)
Definition DeleteTopicsRequest_zero : DeleteTopicsRequest := mkDeleteTopicsRequest None 0.
(** message/messages.gen.go:5839-5844 *)
Definition DeleteTopicsRequest_Size (version : Z) (t : DeleteTopicsRequest) : Z :=
  ((size_add (sz_StringArray (DeleteTopicsRequest_TopicNames t))) +>
   (size_add sz_Int32) +>
   size_done)%size 0.
(** message/messages.gen.go:5847-5850 *)
Definition DeleteTopicsRequest_Encode (version : Z) (t : DeleteTopicsRequest) : Encoder -> Encoder :=
  ((PutStringArray (DeleteTopicsRequest_TopicNames t)) >>
   (PutInt32 (DeleteTopicsRequest_TimeoutMs t)) >>
   skip)%enc.
(** message/messages.gen.go:5853-5864 *)
Definition DeleteTopicsRequest_Decode (version : Z) (t : DeleteTopicsRequest) : Dec DeleteTopicsRequest :=
  x_TopicNames <- dStringArray ;;
  x_TimeoutMs <- dInt32 ;;
  ret (mkDeleteTopicsRequest x_TopicNames x_TimeoutMs).
(** the struct declaration read as a schema; version ranges as in Size *)
Definition DeleteTopicsRequest_schema : fields :=
  FCons "TopicNames" Always TStringArray
  (FCons "TimeoutMs" Always TInt32 FNil).
Definition DeleteTopicsRequest_to (t : DeleteTopicsRequest) : dens DeleteTopicsRequest_schema := (DeleteTopicsRequest_TopicNames t, (DeleteTopicsRequest_TimeoutMs t, tt)).
Definition DeleteTopicsRequest_of (x : dens DeleteTopicsRequest_schema) : DeleteTopicsRequest := mkDeleteTopicsRequest (fst x) (fst (snd x)).
Definition DeleteTopicsRequest_codec : codec := Codec DeleteTopicsRequest DeleteTopicsRequest_zero DeleteTopicsRequest_Size DeleteTopicsRequest_Encode DeleteTopicsRequest_Decode DeleteTopicsRequest_schema DeleteTopicsRequest_to DeleteTopicsRequest_of.
Lemma DeleteTopicsRequest_linked : linked DeleteTopicsRequest_codec.
Proof.
  apply Linked; cbn [DeleteTopicsRequest_codec c_type c_zero c_size c_encode c_decode c_schema c_to c_of].
  - intros t. destruct t. cbv [DeleteTopicsRequest_of DeleteTopicsRequest_to]. cbn [fst snd DeleteTopicsRequest_TopicNames DeleteTopicsRequest_TimeoutMs].  reflexivity.
  - intros x. unfold DeleteTopicsRequest_schema in x. cbn [dens den] in x. destruct x as [x0 x]. destruct x as [x1 x]. destruct x. cbv [DeleteTopicsRequest_of DeleteTopicsRequest_to]. cbn [fst snd DeleteTopicsRequest_TopicNames DeleteTopicsRequest_TimeoutMs].  reflexivity.
  - reflexivity.
  - intros v t. unfold DeleteTopicsRequest_Size, DeleteTopicsRequest_schema, DeleteTopicsRequest_to. apply size_start.
    apply size_step; [intros sz; reflexivity|].
    apply size_step; [intros sz; reflexivity|].
    intros sz; reflexivity.
  - intros v t. unfold DeleteTopicsRequest_Encode, DeleteTopicsRequest_schema, DeleteTopicsRequest_to.
    apply enc_step; [intros e; reflexivity|].
    apply enc_step; [intros e; reflexivity|].
    intros e; reflexivity.
  - intros v t. unfold DeleteTopicsRequest_Decode, DeleteTopicsRequest_schema, DeleteTopicsRequest_to.
    dec_field (fun x : gslice gostring => x); [apply dmap_id|intros x_TopicNames].
    dec_field (fun x : Z => x); [apply dmap_id|intros x_TimeoutMs].
    intros d; reflexivity.
Qed.
Local Opaque DeleteTopicsRequest_Size DeleteTopicsRequest_Encode DeleteTopicsRequest_Decode.

(** ** DeletableTopicResult20 *)

(** message/messages.gen.go:5923-5926 *)
Record DeletableTopicResult20 : Type := mkDeletableTopicResult20 { DeletableTopicResult20_Name : gostring; DeletableTopicResult20_ErrorCode : Z }.
(** the zero value ([var item DeletableTopicResult20]) *)
Definition DeletableTopicResult20_zero : DeletableTopicResult20 := mkDeletableTopicResult20 [] 0.
(** message/messages.gen.go:5929-5934 *)
Definition DeletableTopicResult20_Size (version : Z) (t : DeletableTopicResult20) : Z :=
  ((size_add (sz_String (DeletableTopicResult20_Name t))) +>
   (size_add sz_Int16) +>
   size_done)%size 0.
(** message/messages.gen.go:5937-5940 *)
Definition DeletableTopicResult20_Encode (version : Z) (t : DeletableTopicResult20) : Encoder -> Encoder :=
  ((PutString (DeletableTopicResult20_Name t)) >>
   (PutInt16 (DeletableTopicResult20_ErrorCode t)) >>
   skip)%enc.
(** message/messages.gen.go:5943-5954 *)
Definition DeletableTopicResult20_Decode (version : Z) (t : DeletableTopicResult20) : Dec DeletableTopicResult20 :=
  x_Name <- dString ;;
  x_ErrorCode <- dInt16 ;;
  ret (mkDeletableTopicResult20 x_Name x_ErrorCode).
(** the struct declaration read as a schema; version ranges as in Size *)
Definition DeletableTopicResult20_schema : fields :=
  FCons "Name" Always TString
  (FCons "ErrorCode" Always TInt16 FNil).
Definition DeletableTopicResult20_to (t : DeletableTopicResult20) : dens DeletableTopicResult20_schema := (DeletableTopicResult20_Name t, (DeletableTopicResult20_ErrorCode t, tt)).
Definition DeletableTopicResult20_of (x : dens DeletableTopicResult20_schema) : DeletableTopicResult20 := mkDeletableTopicResult20 (fst x) (fst (snd x)).
Definition DeletableTopicResult20_codec : codec := Codec DeletableTopicResult20 DeletableTopicResult20_zero DeletableTopicResult20_Size DeletableTopicResult20_Encode DeletableTopicResult20_Decode DeletableTopicResult20_schema DeletableTopicResult20_to DeletableTopicResult20_of.
Lemma DeletableTopicResult20_linked : linked DeletableTopicResult20_codec.
Proof.
  apply Linked; cbn [DeletableTopicResult20_codec c_type c_zero c_size c_encode c_decode c_schema c_to c_of].
  - intros t. destruct t. cbv [DeletableTopicResult20_of DeletableTopicResult20_to]. cbn [fst snd DeletableTopicResult20_Name DeletableTopicResult20_ErrorCode].  reflexivity.
  - intros x. unfold DeletableTopicResult20_schema in x. cbn [dens den] in x. destruct x as [x0 x]. destruct x as [x1 x]. destruct x. cbv [DeletableTopicResult20_of DeletableTopicResult20_to]. cbn [fst snd DeletableTopicResult20_Name DeletableTopicResult20_ErrorCode].  reflexivity.
  - reflexivity.
  - intros v t. unfold DeletableTopicResult20_Size, DeletableTopicResult20_schema, DeletableTopicResult20_to. apply size_start.
    apply size_step; [intros sz; reflexivity|].
    apply size_step; [intros sz; reflexivity|].
    intros sz; reflexivity.
  - intros v t. unfold DeletableTopicResult20_Encode, DeletableTopicResult20_schema, DeletableTopicResult20_to.
    apply enc_step; [intros e; reflexivity|].
    apply enc_step; [intros e; reflexivity|].
    intros e; reflexivity.
  - intros v t. unfold DeletableTopicResult20_Decode, DeletableTopicResult20_schema, DeletableTopicResult20_to.
    dec_field (fun x : gostring => x); [apply dmap_id|intros x_Name].
    dec_field (fun x : Z => x); [apply dmap_id|intros x_ErrorCode].
    intros d; reflexivity.
Qed.
Local Opaque DeletableTopicResult20_Size DeletableTopicResult20_Encode DeletableTopicResult20_Decode.

(** ** DeleteTopicsResponse *)

(** message/messages.gen.go:5867-5870 *)
Record DeleteTopicsResponse : Type := mkDeleteTopicsResponse { DeleteTopicsResponse_ThrottleTimeMs : Z; DeleteTopicsResponse_Responses : gslice DeletableTopicResult20 }.
(** the zero value ([var item DeleteTopicsResponse]) *)
Definition DeleteTopicsResponse_zero : DeleteTopicsResponse := mkDeleteTopicsResponse 0 None.
(** message/messages.gen.go:5873-5883 *)
Definition DeleteTopicsResponse_Size (version : Z) (t : DeleteTopicsResponse) : Z :=
  (size_if (1 <=? version) (size_add sz_Int32) +>
   (size_loop (DeletableTopicResult20_Size version) (DeleteTopicsResponse_Responses t)) +>
   size_done)%size 0.
(** message/messages.gen.go:5886-5896 *)
Definition DeleteTopicsResponse_Encode (version : Z) (t : DeleteTopicsResponse) : Encoder -> Encoder :=
  (put_if (1 <=? version) (PutInt32 (DeleteTopicsResponse_ThrottleTimeMs t)) >>
   (put_array (DeletableTopicResult20_Encode version) (DeleteTopicsResponse_Responses t)) >>
   skip)%enc.
(** message/messages.gen.go:5899-5921 *)
Definition DeleteTopicsResponse_Decode (version : Z) (t : DeleteTopicsResponse) : Dec DeleteTopicsResponse :=
  x_ThrottleTimeMs <- dec_if (1 <=? version) dInt32 (DeleteTopicsResponse_ThrottleTimeMs t) ;;
  x_Responses <- (dec_array (DeletableTopicResult20_Decode version DeletableTopicResult20_zero) (DeleteTopicsResponse_Responses t)) ;;
  ret (mkDeleteTopicsResponse x_ThrottleTimeMs x_Responses).
(** the struct declaration read as a schema; version ranges as in Size *)
Definition DeleteTopicsResponse_schema : fields :=
  FCons "ThrottleTimeMs" (From 1) TInt32
  (FCons "Responses" Always (TArray DeletableTopicResult20_schema) FNil).
Definition DeleteTopicsResponse_to (t : DeleteTopicsResponse) : dens DeleteTopicsResponse_schema := (DeleteTopicsResponse_ThrottleTimeMs t, (option_map (map DeletableTopicResult20_to) (DeleteTopicsResponse_Responses t), tt)).
Definition DeleteTopicsResponse_of (x : dens DeleteTopicsResponse_schema) : DeleteTopicsResponse := mkDeleteTopicsResponse (fst x) (option_map (map DeletableTopicResult20_of) (fst (snd x))).
Definition DeleteTopicsResponse_codec : codec := Codec DeleteTopicsResponse DeleteTopicsResponse_zero DeleteTopicsResponse_Size DeleteTopicsResponse_Encode DeleteTopicsResponse_Decode DeleteTopicsResponse_schema DeleteTopicsResponse_to DeleteTopicsResponse_of.
Lemma DeleteTopicsResponse_linked : linked DeleteTopicsResponse_codec.
Proof.
  apply Linked; cbn [DeleteTopicsResponse_codec c_type c_zero c_size c_encode c_decode c_schema c_to c_of].
  - intros t. destruct t. cbv [DeleteTopicsResponse_of DeleteTopicsResponse_to]. cbn [fst snd DeleteTopicsResponse_ThrottleTimeMs DeleteTopicsResponse_Responses]. rewrite ?(option_map_map_inv DeletableTopicResult20_to DeletableTopicResult20_of _ (l_of_to _ DeletableTopicResult20_linked)). reflexivity.
  - intros x. unfold DeleteTopicsResponse_schema in x. cbn [dens den] in x. destruct x as [x0 x]. destruct x as [x1 x]. destruct x. cbv [DeleteTopicsResponse_of DeleteTopicsResponse_to]. cbn [fst snd DeleteTopicsResponse_ThrottleTimeMs DeleteTopicsResponse_Responses]. rewrite ?(option_map_map_inv DeletableTopicResult20_of DeletableTopicResult20_to _ (l_to_of _ DeletableTopicResult20_linked)). reflexivity.
  - reflexivity.
  - intros v t. unfold DeleteTopicsResponse_Size, DeleteTopicsResponse_schema, DeleteTopicsResponse_to. apply size_start.
    apply size_step; [intros sz; reflexivity|].
    apply size_step; [intros sz; apply (size_field_link (DeletableTopicResult20_Size v) DeletableTopicResult20_schema DeletableTopicResult20_to v (l_size _ DeletableTopicResult20_linked v) true)|].
    intros sz; reflexivity.
  - intros v t. unfold DeleteTopicsResponse_Encode, DeleteTopicsResponse_schema, DeleteTopicsResponse_to.
    apply enc_step; [intros e; reflexivity|].
    apply enc_step; [intros e; apply (put_field_link (DeletableTopicResult20_Encode v) DeletableTopicResult20_schema DeletableTopicResult20_to v (l_encode _ DeletableTopicResult20_linked v) true)|].
    intros e; reflexivity.
  - intros v t. unfold DeleteTopicsResponse_Decode, DeleteTopicsResponse_schema, DeleteTopicsResponse_to.
    dec_field (fun x : Z => x); [apply dec_if_link; [apply dmap_id|reflexivity]|intros x_ThrottleTimeMs].
    dec_field (option_map (map DeletableTopicResult20_of)); [apply (dec_array_link _ _ DeletableTopicResult20_of DeletableTopicResult20_to (l_decode _ DeletableTopicResult20_linked v DeletableTopicResult20_zero) (l_of_to _ DeletableTopicResult20_linked))|intros x_Responses].
    intros d; reflexivity.
Qed.
Local Opaque DeleteTopicsResponse_Size DeleteTopicsResponse_Encode DeleteTopicsResponse_Decode.

(** ** DeleteRecordsPartition21 *)

(** message/messages.gen.go:6057-6060 *)
Record DeleteRecordsPartition21 : Type := mkDeleteRecordsPartition21 { DeleteRecordsPartition21_PartitionIndex : Z; DeleteRecordsPartition21_Offset : Z }.
(** the zero value ([var item DeleteRecordsPartition21]) *)
Definition DeleteRecordsPartition21_zero : DeleteRecordsPartition21 := mkDeleteRecordsPartition21 0 0.
(** message/messages.gen.go:6063-6068 *)
Definition DeleteRecordsPartition21_Size (version : Z) (t : DeleteRecordsPartition21) : Z :=
  ((size_add sz_Int32) +>
   (size_add sz_Int64) +>
   size_done)%size 0.
(** message/messages.gen.go:6071-6074 *)
Definition DeleteRecordsPartition21_Encode (version : Z) (t : DeleteRecordsPartition21) : Encoder -> Encoder :=
  ((PutInt32 (DeleteRecordsPartition21_PartitionIndex t)) >>
   (PutInt64 (DeleteRecordsPartition21_Offset t)) >>
   skip)%enc.
(** message/messages.gen.go:6077-6088 *)
Definition DeleteRecordsPartition21_Decode (version : Z) (t : DeleteRecordsPartition21) : Dec DeleteRecordsPartition21 :=
  x_PartitionIndex <- dInt32 ;;
  x_Offset <- dInt64 ;;
  ret (mkDeleteRecordsPartition21 x_PartitionIndex x_Offset).
(** the struct declaration read as a schema; version ranges as in Size *)
Definition DeleteRecordsPartition21_schema : fields :=
  FCons "PartitionIndex" Always TInt32
  (FCons "Offset" Always TInt64 FNil).
Definition DeleteRecordsPartition21_to (t : DeleteRecordsPartition21) : dens DeleteRecordsPartition21_schema := (DeleteRecordsPartition21_PartitionIndex t, (DeleteRecordsPartition21_Offset t, tt)).
Definition DeleteRecordsPartition21_of (x : dens DeleteRecordsPartition21_schema) : DeleteRecordsPartition21 := mkDeleteRecordsPartition21 (fst x) (fst (snd x)).
Definition DeleteRecordsPartition21_codec : codec := Codec DeleteRecordsPartition21 DeleteRecordsPartition21_zero DeleteRecordsPartition21_Size DeleteRecordsPartition21_Encode DeleteRecordsPartition21_Decode DeleteRecordsPartition21_schema DeleteRecordsPartition21_to DeleteRecordsPartition21_of.
Lemma DeleteRecordsPartition21_linked : linked DeleteRecordsPartition21_codec.
Proof.
  apply Linked; cbn [DeleteRecordsPartition21_codec c_type c_zero c_size c_encode c_decode c_schema c_to c_of].
  - intros t. destruct t. cbv [DeleteRecordsPartition21_of DeleteRecordsPartition21_to]. cbn [fst snd DeleteRecordsPartition21_PartitionIndex DeleteRecordsPartition21_Offset].  reflexivity.
  - intros x. unfold DeleteRecordsPartition21_schema in x. cbn [dens den] in x. destruct x as [x0 x]. destruct x as [x1 x]. destruct x. cbv [DeleteRecordsPartition21_of DeleteRecordsPartition21_to]. cbn [fst snd DeleteRecordsPartition21_PartitionIndex DeleteRecordsPartition21_Offset].  reflexivity.
  - reflexivity.
  - intros v t. unfold DeleteRecordsPartition21_Size, DeleteRecordsPartition21_schema, DeleteRecordsPartition21_to. apply size_start.
    apply size_step; [intros sz; reflexivity|].
    apply size_step; [intros sz; reflexivity|].
    intros sz; reflexivity.
  - intros v t. unfold DeleteRecordsPartition21_Encode, DeleteRecordsPartition21_schema, DeleteRecordsPartition21_to.
    apply enc_step; [intros e; reflexivity|].
    apply enc_step; [intros e; reflexivity|].
    intros e; reflexivity.
  - intros v t. unfold DeleteRecordsPartition21_Decode, DeleteRecordsPartition21_schema, DeleteRecordsPartition21_to.
    dec_field (fun x : Z => x); [apply dmap_id|intros x_PartitionIndex].
    dec_field (fun x : Z => x); [apply dmap_id|intros x_Offset].
    intros d; reflexivity.
Qed.
Local Opaque DeleteRecordsPartition21_Size DeleteRecordsPartition21_Encode DeleteRecordsPartition21_Decode.

(** ** DeleteRecordsTopic21 *)

(** message/messages.gen.go:6007-6010 *)
Record DeleteRecordsTopic21 : Type := mkDeleteRecordsTopic21 { DeleteRecordsTopic21_Name : gostring; DeleteRecordsTopic21_Partitions : gslice DeleteRecordsPartition21 }.
(** the zero value ([var item DeleteRecordsTopic21]) *)
Definition DeleteRecordsTopic21_zero : DeleteRecordsTopic21 := mkDeleteRecordsTopic21 [] None.
(** message/messages.gen.go:6013-6021 *)
Definition DeleteRecordsTopic21_Size (version : Z) (t : DeleteRecordsTopic21) : Z :=
  ((size_add (sz_String (DeleteRecordsTopic21_Name t))) +>
   (size_loop (DeleteRecordsPartition21_Size version) (DeleteRecordsTopic21_Partitions t)) +>
   size_done)%size 0.
(** message/messages.gen.go:6024-6032 *)
Definition DeleteRecordsTopic21_Encode (version : Z) (t : DeleteRecordsTopic21) : Encoder -> Encoder :=
  ((PutString (DeleteRecordsTopic21_Name t)) >>
   (put_array (DeleteRecordsPartition21_Encode version) (DeleteRecordsTopic21_Partitions t)) >>
   skip)%enc.
(** message/messages.gen.go:6035-6055 *)
Definition DeleteRecordsTopic21_Decode (version : Z) (t : DeleteRecordsTopic21) : Dec DeleteRecordsTopic21 :=
  x_Name <- dString ;;
  x_Partitions <- (dec_array (DeleteRecordsPartition21_Decode version DeleteRecordsPartition21_zero) (DeleteRecordsTopic21_Partitions t)) ;;
  ret (mkDeleteRecordsTopic21 x_Name x_Partitions).
(** the struct declaration read as a schema; version ranges as in Size *)
Definition DeleteRecordsTopic21_schema : fields :=
  FCons "Name" Always TString
  (FCons "Partitions" Always (TArray DeleteRecordsPartition21_schema) FNil).
Definition DeleteRecordsTopic21_to (t : DeleteRecordsTopic21) : dens DeleteRecordsTopic21_schema := (DeleteRecordsTopic21_Name t, (option_map (map DeleteRecordsPartition21_to) (DeleteRecordsTopic21_Partitions t), tt)).
Definition DeleteRecordsTopic21_of (x : dens DeleteRecordsTopic21_schema) : DeleteRecordsTopic21 := mkDeleteRecordsTopic21 (fst x) (option_map (map DeleteRecordsPartition21_of) (fst (snd x))).
Definition DeleteRecordsTopic21_codec : codec := Codec DeleteRecordsTopic21 DeleteRecordsTopic21_zero DeleteRecordsTopic21_Size DeleteRecordsTopic21_Encode DeleteRecordsTopic21_Decode DeleteRecordsTopic21_schema DeleteRecordsTopic21_to DeleteRecordsTopic21_of.
Lemma DeleteRecordsTopic21_linked : linked DeleteRecordsTopic21_codec.
Proof.
  apply Linked; cbn [DeleteRecordsTopic21_codec c_type c_zero c_size c_encode c_decode c_schema c_to c_of].
  - intros t. destruct t. cbv [DeleteRecordsTopic21_of DeleteRecordsTopic21_to]. cbn [fst snd DeleteRecordsTopic21_Name DeleteRecordsTopic21_Partitions]. rewrite ?(option_map_map_inv DeleteRecordsPartition21_to DeleteRecordsPartition21_of _ (l_of_to _ DeleteRecordsPartition21_linked)). reflexivity.
  - intros x. unfold DeleteRecordsTopic21_schema in x. cbn [dens den] in x. destruct x as [x0 x]. destruct x as [x1 x]. destruct x. cbv [DeleteRecordsTopic21_of DeleteRecordsTopic21_to]. cbn [fst snd DeleteRecordsTopic21_Name DeleteRecordsTopic21_Partitions]. rewrite ?(option_map_map_inv DeleteRecordsPartition21_of DeleteRecordsPartition21_to _ (l_to_of _ DeleteRecordsPartition21_linked)). reflexivity.
  - reflexivity.
  - intros v t. unfold DeleteRecordsTopic21_Size, DeleteRecordsTopic21_schema, DeleteRecordsTopic21_to. apply size_start.
    apply size_step; [intros sz; reflexivity|].
    apply size_step; [intros sz; apply (size_field_link (DeleteRecordsPartition21_Size v) DeleteRecordsPartition21_schema DeleteRecordsPartition21_to v (l_size _ DeleteRecordsPartition21_linked v) true)|].
    intros sz; reflexivity.
  - intros v t. unfold DeleteRecordsTopic21_Encode, DeleteRecordsTopic21_schema, DeleteRecordsTopic21_to.
    apply enc_step; [intros e; reflexivity|].
    apply enc_step; [intros e; apply (put_field_link (DeleteRecordsPartition21_Encode v) DeleteRecordsPartition21_schema DeleteRecordsPartition21_to v (l_encode _ DeleteRecordsPartition21_linked v) true)|].
    intros e; reflexivity.
  - intros v t. unfold DeleteRecordsTopic21_Decode, DeleteRecordsTopic21_schema, DeleteRecordsTopic21_to.
    dec_field (fun x : gostring => x); [apply dmap_id|intros x_Name].
    dec_field (option_map (map DeleteRecordsPartition21_of)); [apply (dec_array_link _ _ DeleteRecordsPartition21_of DeleteRecordsPartition21_to (l_decode _ DeleteRecordsPartition21_linked v DeleteRecordsPartition21_zero) (l_of_to _ DeleteRecordsPartition21_linked))|intros x_Partitions].
    intros d; reflexivity.
Qed.
Local Opaque DeleteRecordsTopic21_Size DeleteRecordsTopic21_Encode DeleteRecordsTopic21_Decode.

(** ** DeleteRecordsRequest *)

(** message/messages.gen.go:5957-5960 *)
Record DeleteRecordsRequest : Type := mkDeleteRecordsRequest { DeleteRecordsRequest_Topics : gslice DeleteRecordsTopic21; DeleteRecordsRequest_TimeoutMs : Z }.
(** the zero value ([var item DeleteRecordsRequest]) *)
Definition DeleteRecordsRequest_zero : DeleteRecordsRequest := mkDeleteRecordsRequest None 0.
(** message/messages.gen.go:5963-5971 *)
Definition DeleteRecordsRequest_Size (version : Z) (t : DeleteRecordsRequest) : Z :=
  ((size_loop (DeleteRecordsTopic21_Size version) (DeleteRecordsRequest_Topics t)) +>
   (size_add sz_Int32) +>
   size_done)%size 0.
(** message/messages.gen.go:5974-5982 *)
Definition DeleteRecordsRequest_Encode (version : Z) (t : DeleteRecordsRequest) : Encoder -> Encoder :=
  ((put_array (DeleteRecordsTopic21_Encode version) (DeleteRecordsRequest_Topics t)) >>
   (PutInt32 (DeleteRecordsRequest_TimeoutMs t)) >>
   skip)%enc.
(** message/messages.gen.go:5985-6005 *)
Definition DeleteRecordsRequest_Decode (version : Z) (t : DeleteRecordsRequest) : Dec DeleteRecordsRequest :=
  x_Topics <- (dec_array (DeleteRecordsTopic21_Decode version DeleteRecordsTopic21_zero) (DeleteRecordsRequest_Topics t)) ;;
  x_TimeoutMs <- dInt32 ;;
  ret (mkDeleteRecordsRequest x_Topics x_TimeoutMs).
(** the struct declaration read as a schema; version ranges as in Size *)
Definition DeleteRecordsRequest_schema : fields :=
  FCons "Topics" Always (TArray DeleteRecordsTopic21_schema)
  (FCons "TimeoutMs" Always TInt32 FNil).
Definition DeleteRecordsRequest_to (t : DeleteRecordsRequest) : dens DeleteRecordsRequest_schema := (option_map (map DeleteRecordsTopic21_to) (DeleteRecordsRequest_Topics t), (DeleteRecordsRequest_TimeoutMs t, tt)).
Definition DeleteRecordsRequest_of (x : dens DeleteRecordsRequest_schema) : DeleteRecordsRequest := mkDeleteRecordsRequest (option_map (map DeleteRecordsTopic21_of) (fst x)) (fst (snd x)).
Definition DeleteRecordsRequest_codec : codec := Codec DeleteRecordsRequest DeleteRecordsRequest_zero DeleteRecordsRequest_Size DeleteRecordsRequest_Encode DeleteRecordsRequest_Decode DeleteRecordsRequest_schema DeleteRecordsRequest_to DeleteRecordsRequest_of.
Lemma DeleteRecordsRequest_linked : linked DeleteRecordsRequest_codec.
Proof.
  apply Linked; cbn [DeleteRecordsRequest_codec c_type c_zero c_size c_encode c_decode c_schema c_to c_of].
  - intros t. destruct t. cbv [DeleteRecordsRequest_of DeleteRecordsRequest_to]. cbn [fst snd DeleteRecordsRequest_Topics DeleteRecordsRequest_TimeoutMs]. rewrite ?(option_map_map_inv DeleteRecordsTopic21_to DeleteRecordsTopic21_of _ (l_of_to _ DeleteRecordsTopic21_linked)). reflexivity.
  - intros x. unfold DeleteRecordsRequest_schema in x. cbn [dens den] in x. destruct x as [x0 x]. destruct x as [x1 x]. destruct x. cbv [DeleteRecordsRequest_of DeleteRecordsRequest_to]. cbn [fst snd DeleteRecordsRequest_Topics DeleteRecordsRequest_TimeoutMs]. rewrite ?(option_map_map_inv DeleteRecordsTopic21_of DeleteRecordsTopic21_to _ (l_to_of _ DeleteRecordsTopic21_linked)). reflexivity.
  - reflexivity.
  - intros v t. unfold DeleteRecordsRequest_Size, DeleteRecordsRequest_schema, DeleteRecordsRequest_to. apply size_start.
    apply size_step; [intros sz; apply (size_field_link (DeleteRecordsTopic21_Size v) DeleteRecordsTopic21_schema DeleteRecordsTopic21_to v (l_size _ DeleteRecordsTopic21_linked v) true)|].
    apply size_step; [intros sz; reflexivity|].
    intros sz; reflexivity.
  - intros v t. unfold DeleteRecordsRequest_Encode, DeleteRecordsRequest_schema, DeleteRecordsRequest_to.
    apply enc_step; [intros e; apply (put_field_link (DeleteRecordsTopic21_Encode v) DeleteRecordsTopic21_schema DeleteRecordsTopic21_to v (l_encode _ DeleteRecordsTopic21_linked v) true)|].
    apply enc_step; [intros e; reflexivity|].
    intros e; reflexivity.
  - intros v t. unfold DeleteRecordsRequest_Decode, DeleteRecordsRequest_schema, DeleteRecordsRequest_to.
    dec_field (option_map (map DeleteRecordsTopic21_of)); [apply (dec_array_link _ _ DeleteRecordsTopic21_of DeleteRecordsTopic21_to (l_decode _ DeleteRecordsTopic21_linked v DeleteRecordsTopic21_zero) (l_of_to _ DeleteRecordsTopic21_linked))|intros x_Topics].
    dec_field (fun x : Z => x); [apply dmap_id|intros x_TimeoutMs].
    intros d; reflexivity.
Qed.
Local Opaque DeleteRecordsRequest_Size DeleteRecordsRequest_Encode DeleteRecordsRequest_Decode.

(** ** DeleteRecordsPartitionResult21 *)

(** message/messages.gen.go:6191-6195 *)
Record DeleteRecordsPartitionResult21 : Type := mkDeleteRecordsPartitionResult21 { DeleteRecordsPartitionResult21_PartitionIndex : Z; DeleteRecordsPartitionResult21_LowWatermark : Z; DeleteRecordsPartitionResult21_ErrorCode : Z }.
(** the zero value ([var item DeleteRecordsPartitionResult21]) *)
Definition DeleteRecordsPartitionResult21_zero : DeleteRecordsPartitionResult21 := mkDeleteRecordsPartitionResult21 0 0 0.
(** message/messages.gen.go:6198-6204 *)
Definition DeleteRecordsPartitionResult21_Size (version : Z) (t : DeleteRecordsPartitionResult21) : Z :=
  ((size_add sz_Int32) +>
   (size_add sz_Int64) +>
   (size_add sz_Int16) +>
   size_done)%size 0.
(** message/messages.gen.go:6207-6211 *)
Definition DeleteRecordsPartitionResult21_Encode (version : Z) (t : DeleteRecordsPartitionResult21) : Encoder -> Encoder :=
  ((PutInt32 (DeleteRecordsPartitionResult21_PartitionIndex t)) >>
   (PutInt64 (DeleteRecordsPartitionResult21_LowWatermark t)) >>
   (PutInt16 (DeleteRecordsPartitionResult21_ErrorCode t)) >>
   skip)%enc.
(** message/messages.gen.go:6214-6229 *)
Definition DeleteRecordsPartitionResult21_Decode (version : Z) (t : DeleteRecordsPartitionResult21) : Dec DeleteRecordsPartitionResult21 :=
  x_PartitionIndex <- dInt32 ;;
  x_LowWatermark <- dInt64 ;;
  x_ErrorCode <- dInt16 ;;
  ret (mkDeleteRecordsPartitionResult21 x_PartitionIndex x_LowWatermark x_ErrorCode).
(** the struct declaration read as a schema; version ranges as in Size *)
Definition DeleteRecordsPartitionResult21_schema : fields :=
  FCons "PartitionIndex" Always TInt32
  (FCons "LowWatermark" Always TInt64
  (FCons "ErrorCode" Always TInt16 FNil)).
Definition DeleteRecordsPartitionResult21_to (t : DeleteRecordsPartitionResult21) : dens DeleteRecordsPartitionResult21_schema := (DeleteRecordsPartitionResult21_PartitionIndex t, (DeleteRecordsPartitionResult21_LowWatermark t, (DeleteRecordsPartitionResult21_ErrorCode t, tt))).
Definition DeleteRecordsPartitionResult21_of (x : dens DeleteRecordsPartitionResult21_schema) : DeleteRecordsPartitionResult21 := mkDeleteRecordsPartitionResult21 (fst x) (fst (snd x)) (fst (snd (snd x))).
Definition DeleteRecordsPartitionResult21_codec : codec := Codec DeleteRecordsPartitionResult21 DeleteRecordsPartitionResult21_zero DeleteRecordsPartitionResult21_Size DeleteRecordsPartitionResult21_Encode DeleteRecordsPartitionResult21_Decode DeleteRecordsPartitionResult21_schema DeleteRecordsPartitionResult21_to DeleteRecordsPartitionResult21_of.
Lemma DeleteRecordsPartitionResult21_linked : linked DeleteRecordsPartitionResult21_codec.
Proof.
  apply Linked; cbn [DeleteRecordsPartitionResult21_codec c_type c_zero c_size c_encode c_decode c_schema c_to c_of].
  - intros t. destruct t. cbv [DeleteRecordsPartitionResult21_of DeleteRecordsPartitionResult21_to]. cbn [fst snd DeleteRecordsPartitionResult21_PartitionIndex DeleteRecordsPartitionResult21_LowWatermark DeleteRecordsPartitionResult21_ErrorCode].  reflexivity.
  - intros x. unfold DeleteRecordsPartitionResult21_schema in x. cbn [dens den] in x. destruct x as [x0 x]. destruct x as [x1 x]. destruct x as [x2 x]. destruct x. cbv [DeleteRecordsPartitionResult21_of DeleteRecordsPartitionResult21_to]. cbn [fst snd DeleteRecordsPartitionResult21_PartitionIndex DeleteRecordsPartitionResult21_LowWatermark DeleteRecordsPartitionResult21_ErrorCode].  reflexivity.
  - reflexivity.
  - intros v t. unfold DeleteRecordsPartitionResult21_Size, DeleteRecordsPartitionResult21_schema, DeleteRecordsPartitionResult21_to. apply size_start.
    apply size_step; [intros sz; reflexivity|].
    apply size_step; [intros sz; reflexivity|].
    apply size_step; [intros sz; reflexivity|].
    intros sz; reflexivity.
  - intros v t. unfold DeleteRecordsPartitionResult21_Encode, DeleteRecordsPartitionResult21_schema, DeleteRecordsPartitionResult21_to.
    apply enc_step; [intros e; reflexivity|].
    apply enc_step; [intros e; reflexivity|].
    apply enc_step; [intros e; reflexivity|].
    intros e; reflexivity.
  - intros v t. unfold DeleteRecordsPartitionResult21_Decode, DeleteRecordsPartitionResult21_schema, DeleteRecordsPartitionResult21_to.
    dec_field (fun x : Z => x); [apply dmap_id|intros x_PartitionIndex].
    dec_field (fun x : Z => x); [apply dmap_id|intros x_LowWatermark].
    dec_field (fun x : Z => x); [apply dmap_id|intros x_ErrorCode].
    intros d; reflexivity.
Qed.
Local Opaque DeleteRecordsPartitionResult21_Size DeleteRecordsPartitionResult21_Encode DeleteRecordsPartitionResult21_Decode.

(** ** DeleteRecordsTopicResult21 *)

(** message/messages.gen.go:6141-6144 *)
Record DeleteRecordsTopicResult21 : Type := mkDeleteRecordsTopicResult21 { DeleteRecordsTopicResult21_Name : gostring; DeleteRecordsTopicResult21_Partitions : gslice DeleteRecordsPartitionResult21 }.
(** the zero value ([var item DeleteRecordsTopicResult21]) *)
Definition DeleteRecordsTopicResult21_zero : DeleteRecordsTopicResult21 := mkDeleteRecordsTopicResult21 [] None.
(** message/messages.gen.go:6147-6155 *)
Definition DeleteRecordsTopicResult21_Size (version : Z) (t : DeleteRecordsTopicResult21) : Z :=
  ((size_add (sz_String (DeleteRecordsTopicResult21_Name t))) +>
   (size_loop (DeleteRecordsPartitionResult21_Size version) (DeleteRecordsTopicResult21_Partitions t)) +>
   size_done)%size 0.
(** message/messages.gen.go:6158-6166 *)
Definition DeleteRecordsTopicResult21_Encode (version : Z) (t : DeleteRecordsTopicResult21) : Encoder -> Encoder :=
  ((PutString (DeleteRecordsTopicResult21_Name t)) >>
   (put_array (DeleteRecordsPartitionResult21_Encode version) (DeleteRecordsTopicResult21_Partitions t)) >>
   skip)%enc.
(** message/messages.gen.go:6169-6189 *)
Definition DeleteRecordsTopicResult21_Decode (version : Z) (t : DeleteRecordsTopicResult21) : Dec DeleteRecordsTopicResult21 :=
  x_Name <- dString ;;
  x_Partitions <- (dec_array (DeleteRecordsPartitionResult21_Decode version DeleteRecordsPartitionResult21_zero) (DeleteRecordsTopicResult21_Partitions t)) ;;
  ret (mkDeleteRecordsTopicResult21 x_Name x_Partitions).
(** the struct declaration read as a schema; version ranges as in Size *)
Definition DeleteRecordsTopicResult21_schema : fields :=
  FCons "Name" Always TString
  (FCons "Partitions" Always (TArray DeleteRecordsPartitionResult21_schema) FNil).
Definition DeleteRecordsTopicResult21_to (t : DeleteRecordsTopicResult21) : dens DeleteRecordsTopicResult21_schema := (DeleteRecordsTopicResult21_Name t, (option_map (map DeleteRecordsPartitionResult21_to) (DeleteRecordsTopicResult21_Partitions t), tt)).
Definition DeleteRecordsTopicResult21_of (x : dens DeleteRecordsTopicResult21_schema) : DeleteRecordsTopicResult21 := mkDeleteRecordsTopicResult21 (fst x) (option_map (map DeleteRecordsPartitionResult21_of) (fst (snd x))).
Definition DeleteRecordsTopicResult21_codec : codec := Codec DeleteRecordsTopicResult21 DeleteRecordsTopicResult21_zero DeleteRecordsTopicResult21_Size DeleteRecordsTopicResult21_Encode DeleteRecordsTopicResult21_Decode DeleteRecordsTopicResult21_schema DeleteRecordsTopicResult21_to DeleteRecordsTopicResult21_of.
Lemma DeleteRecordsTopicResult21_linked : linked DeleteRecordsTopicResult21_codec.
Proof.
  apply Linked; cbn [DeleteRecordsTopicResult21_codec c_type c_zero c_size c_encode c_decode c_schema c_to c_of].
  - intros t. destruct t. cbv [DeleteRecordsTopicResult21_of DeleteRecordsTopicResult21_to]. cbn [fst snd DeleteRecordsTopicResult21_Name DeleteRecordsTopicResult21_Partitions]. rewrite ?(option_map_map_inv DeleteRecordsPartitionResult21_to DeleteRecordsPartitionResult21_of _ (l_of_to _ DeleteRecordsPartitionResult21_linked)). reflexivity.
  - intros x. unfold DeleteRecordsTopicResult21_schema in x. cbn [dens den] in x. destruct x as [x0 x]. destruct x as [x1 x]. destruct x. cbv [DeleteRecordsTopicResult21_of DeleteRecordsTopicResult21_to]. cbn [fst snd DeleteRecordsTopicResult21_Name DeleteRecordsTopicResult21_Partitions]. rewrite ?(option_map_map_inv DeleteRecordsPartitionResult21_of DeleteRecordsPartitionResult21_to _ (l_to_of _ DeleteRecordsPartitionResult21_linked)). reflexivity.
  - reflexivity.
  - intros v t. unfold DeleteRecordsTopicResult21_Size, DeleteRecordsTopicResult21_schema, DeleteRecordsTopicResult21_to. apply size_start.
    apply size_step; [intros sz; reflexivity|].
    apply size_step; [intros sz; apply (size_field_link (DeleteRecordsPartitionResult21_Size v) DeleteRecordsPartitionResult21_schema DeleteRecordsPartitionResult21_to v (l_size _ DeleteRecordsPartitionResult21_linked v) true)|].
    intros sz; reflexivity.
  - intros v t. unfold DeleteRecordsTopicResult21_Encode, DeleteRecordsTopicResult21_schema, DeleteRecordsTopicResult21_to.
    apply enc_step; [intros e; reflexivity|].
    apply enc_step; [intros e; apply (put_field_link (DeleteRecordsPartitionResult21_Encode v) DeleteRecordsPartitionResult21_schema DeleteRecordsPartitionResult21_to v (l_encode _ DeleteRecordsPartitionResult21_linked v) true)|].
    intros e; reflexivity.
  - intros v t. unfold DeleteRecordsTopicResult21_Decode, DeleteRecordsTopicResult21_schema, DeleteRecordsTopicResult21_to.
    dec_field (fun x : gostring => x); [apply dmap_id|intros x_Name].
    dec_field (option_map (map DeleteRecordsPartitionResult21_of)); [apply (dec_array_link _ _ DeleteRecordsPartitionResult21_of DeleteRecordsPartitionResult21_to (l_decode _ DeleteRecordsPartitionResult21_linked v DeleteRecordsPartitionResult21_zero) (l_of_to _ DeleteRecordsPartitionResult21_linked))|intros x_Partitions].
    intros d; reflexivity.
Qed.
Local Opaque DeleteRecordsTopicResult21_Size DeleteRecordsTopicResult21_Encode DeleteRecordsTopicResult21_Decode.

(** ** DeleteRecordsResponse *)

(** message/messages.gen.go:6091-6094 *)
Record DeleteRecordsResponse : Type := mkDeleteRecordsResponse { DeleteRecordsResponse_ThrottleTimeMs : Z; DeleteRecordsResponse_Topics : gslice DeleteRecordsTopicResult21 }.
(** the zero value ([var item DeleteRecordsResponse]) *)
Definition DeleteRecordsResponse_zero : DeleteRecordsResponse := mkDeleteRecordsResponse 0 None.
(** message/messages.gen.go:6097-6105 *)
Definition DeleteRecordsResponse_Size (version : Z) (t : DeleteRecordsResponse) : Z :=
  ((size_add sz_Int32) +>
   (size_loop (DeleteRecordsTopicResult21_Size version) (DeleteRecordsResponse_Topics t)) +>
   size_done)%size 0.
(** message/messages.gen.go:6108-6116 *)
Definition DeleteRecordsResponse_Encode (version : Z) (t : DeleteRecordsResponse) : Encoder -> Encoder :=
  ((PutInt32 (DeleteRecordsResponse_ThrottleTimeMs t)) >>
   (put_array (DeleteRecordsTopicResult21_Encode version) (DeleteRecordsResponse_Topics t)) >>
   skip)%enc.
(** message/messages.gen.go:6119-6139 *)
Definition DeleteRecordsResponse_Decode (version : Z) (t : DeleteRecordsResponse) : Dec DeleteRecordsResponse :=
  x_ThrottleTimeMs <- dInt32 ;;
  x_Topics <- (dec_array (DeleteRecordsTopicResult21_Decode version DeleteRecordsTopicResult21_zero) (DeleteRecordsResponse_Topics t)) ;;
  ret (mkDeleteRecordsResponse x_ThrottleTimeMs x_Topics).
(** the struct declaration read as a schema; version ranges as in Size *)
Definition DeleteRecordsResponse_schema : fields :=
  FCons "ThrottleTimeMs" Always TInt32
  (FCons "Topics" Always (TArray DeleteRecordsTopicResult21_schema) FNil).
Definition DeleteRecordsResponse_to (t : DeleteRecordsResponse) : dens DeleteRecordsResponse_schema := (DeleteRecordsResponse_ThrottleTimeMs t, (option_map (map DeleteRecordsTopicResult21_to) (DeleteRecordsResponse_Topics t), tt)).
Definition DeleteRecordsResponse_of (x : dens DeleteRecordsResponse_schema) : DeleteRecordsResponse := mkDeleteRecordsResponse (fst x) (option_map (map DeleteRecordsTopicResult21_of) (fst (snd x))).
Definition DeleteRecordsResponse_codec : codec := Codec DeleteRecordsResponse DeleteRecordsResponse_zero DeleteRecordsResponse_Size DeleteRecordsResponse_Encode DeleteRecordsResponse_Decode DeleteRecordsResponse_schema DeleteRecordsResponse_to DeleteRecordsResponse_of.
Lemma DeleteRecordsResponse_linked : linked DeleteRecordsResponse_codec.
Proof.
  apply Linked; cbn [DeleteRecordsResponse_codec c_type c_zero c_size c_encode c_decode c_schema c_to c_of].
  - intros t. destruct t. cbv [DeleteRecordsResponse_of DeleteRecordsResponse_to]. cbn [fst snd DeleteRecordsResponse_ThrottleTimeMs DeleteRecordsResponse_Topics]. rewrite ?(option_map_map_inv DeleteRecordsTopicResult21_to DeleteRecordsTopicResult21_of _ (l_of_to _ DeleteRecordsTopicResult21_linked)). reflexivity.
  - intros x. unfold DeleteRecordsResponse_schema in x. cbn [dens den] in x. destruct x as [x0 x]. destruct x as [x1 x]. destruct x. cbv [DeleteRecordsResponse_of DeleteRecordsResponse_to]. cbn [fst snd DeleteRecordsResponse_ThrottleTimeMs DeleteRecordsResponse_Topics]. rewrite ?(option_map_map_inv DeleteRecordsTopicResult21_of DeleteRecordsTopicResult21_to _ (l_to_of _ DeleteRecordsTopicResult21_linked)). reflexivity.
  - reflexivity.
  - intros v t. unfold DeleteRecordsResponse_Size, DeleteRecordsResponse_schema, DeleteRecordsResponse_to. apply size_start.
    apply size_step; [intros sz; reflexivity|].
    apply size_step; [intros sz; apply (size_field_link (DeleteRecordsTopicResult21_Size v) DeleteRecordsTopicResult21_schema DeleteRecordsTopicResult21_to v (l_size _ DeleteRecordsTopicResult21_linked v) true)|].
    intros sz; reflexivity.
  - intros v t. unfold DeleteRecordsResponse_Encode, DeleteRecordsResponse_schema, DeleteRecordsResponse_to.
    apply enc_step; [intros e; reflexivity|].
    apply enc_step; [intros e; apply (put_field_link (DeleteRecordsTopicResult21_Encode v) DeleteRecordsTopicResult21_schema DeleteRecordsTopicResult21_to v (l_encode _ DeleteRecordsTopicResult21_linked v) true)|].
    intros e; reflexivity.
  - intros v t. unfold DeleteRecordsResponse_Decode, DeleteRecordsResponse_schema, DeleteRecordsResponse_to.
    dec_field (fun x : Z => x); [apply dmap_id|intros x_ThrottleTimeMs].
    dec_field (option_map (map DeleteRecordsTopicResult21_of)); [apply (dec_array_link _ _ DeleteRecordsTopicResult21_of DeleteRecordsTopicResult21_to (l_decode _ DeleteRecordsTopicResult21_linked v DeleteRecordsTopicResult21_zero) (l_of_to _ DeleteRecordsTopicResult21_linked))|intros x_Topics].
    intros d; reflexivity.
Qed.
Local Opaque DeleteRecordsResponse_Size DeleteRecordsResponse_Encode DeleteRecordsResponse_Decode.

(** ** InitProducerIdRequest *)

(** message/messages.gen.go:6232-6235 *)
Record InitProducerIdRequest : Type := mkInitProducerIdRequest { InitProducerIdRequest_TransactionalId : gostring; InitProducerIdRequest_TransactionTimeoutMs : Z }.
(** the zero value ([var item InitProducerIdRequest]) *)
Definition InitProducerIdRequest_zero : InitProducerIdRequest := mkInitProducerIdRequest [] 0.
(** message/messages.gen.go:6238-6243 *)
Definition InitProducerIdRequest_Size (version : Z) (t : InitProducerIdRequest) : Z :=
  ((size_add (sz_String (InitProducerIdRequest_TransactionalId t))) +>
   (size_add sz_Int32) +>
   size_done)%size 0.
(** message/messages.gen.go:6246-6249 *)
Definition InitProducerIdRequest_Encode (version : Z) (t : InitProducerIdRequest) : Encoder -> Encoder :=
  ((PutString (InitProducerIdRequest_TransactionalId t)) >>
   (PutInt32 (InitProducerIdRequest_TransactionTimeoutMs t)) >>
   skip)%enc.
(** message/messages.gen.go:6252-6263 *)
Definition InitProducerIdRequest_Decode (version : Z) (t : InitProducerIdRequest) : Dec InitProducerIdRequest :=
  x_TransactionalId <- dString ;;
  x_TransactionTimeoutMs <- dInt32 ;;
  ret (mkInitProducerIdRequest x_TransactionalId x_TransactionTimeoutMs).
(** the struct declaration read as a schema; version ranges as in Size *)
Definition InitProducerIdRequest_schema : fields :=
  FCons "TransactionalId" Always TString
  (FCons "TransactionTimeoutMs" Always TInt32 FNil).
Definition InitProducerIdRequest_to (t : InitProducerIdRequest) : dens InitProducerIdRequest_schema := (InitProducerIdRequest_TransactionalId t, (InitProducerIdRequest_TransactionTimeoutMs t, tt)).
Definition InitProducerIdRequest_of (x : dens InitProducerIdRequest_schema) : InitProducerIdRequest := mkInitProducerIdRequest (fst x) (fst (snd x)).
Definition InitProducerIdRequest_codec : codec := Codec InitProducerIdRequest InitProducerIdRequest_zero InitProducerIdRequest_Size InitProducerIdRequest_Encode InitProducerIdRequest_Decode InitProducerIdRequest_schema InitProducerIdRequest_to InitProducerIdRequest_of.
Lemma InitProducerIdRequest_linked : linked InitProducerIdRequest_codec.
Proof.
  apply Linked; cbn [InitProducerIdRequest_codec c_type c_zero c_size c_encode c_decode c_schema c_to c_of].
  - intros t. destruct t. cbv [InitProducerIdRequest_of InitProducerIdRequest_to]. cbn [fst snd InitProducerIdRequest_TransactionalId InitProducerIdRequest_TransactionTimeoutMs].  reflexivity.
  - intros x. unfold InitProducerIdRequest_schema in x. cbn [dens den] in x. destruct x as [x0 x]. destruct x as [x1 x]. destruct x. cbv [InitProducerIdRequest_of InitProducerIdRequest_to]. cbn [fst snd InitProducerIdRequest_TransactionalId InitProducerIdRequest_TransactionTimeoutMs].  reflexivity.
  - reflexivity.
  - intros v t. unfold InitProducerIdRequest_Size, InitProducerIdRequest_schema, InitProducerIdRequest_to. apply size_start.
    apply size_step; [intros sz; reflexivity|].
    apply size_step; [intros sz; reflexivity|].
    intros sz; reflexivity.
  - intros v t. unfold InitProducerIdRequest_Encode, InitProducerIdRequest_schema, InitProducerIdRequest_to.
    apply enc_step; [intros e; reflexivity|].
    apply enc_step; [intros e; reflexivity|].
    intros e; reflexivity.
  - intros v t. unfold InitProducerIdRequest_Decode, InitProducerIdRequest_schema, InitProducerIdRequest_to.
    dec_field (fun x : gostring => x); [apply dmap_id|intros x_TransactionalId].
    dec_field (fun x : Z => x); [apply dmap_id|intros x_TransactionTimeoutMs].
    intros d; reflexivity.
Qed.
Local Opaque InitProducerIdRequest_Size InitProducerIdRequest_Encode InitProducerIdRequest_Decode.

(** ** InitProducerIdResponse *)

(** message/messages.gen.go:6266-6271 *)
Record InitProducerIdResponse : Type := mkInitProducerIdResponse { InitProducerIdResponse_ThrottleTimeMs : Z; InitProducerIdResponse_ErrorCode : Z; InitProducerIdResponse_ProducerId : Z; InitProducerIdResponse_ProducerEpoch : Z }.
(** the zero value ([var item InitProducerIdResponse]) *)
Definition InitProducerIdResponse_zero : InitProducerIdResponse := mkInitProducerIdResponse 0 0 0 0.
(** message/messages.gen.go:6274-6281 *)
Definition InitProducerIdResponse_Size (version : Z) (t : InitProducerIdResponse) : Z :=
  ((size_add sz_Int32) +>
   (size_add sz_Int16) +>
   (size_add sz_Int64) +>
   (size_add sz_Int16) +>
   size_done)%size 0.
(** message/messages.gen.go:6284-6289 *)
Definition InitProducerIdResponse_Encode (version : Z) (t : InitProducerIdResponse) : Encoder -> Encoder :=
  ((PutInt32 (InitProducerIdResponse_ThrottleTimeMs t)) >>
   (PutInt16 (InitProducerIdResponse_ErrorCode t)) >>
   (PutInt64 (InitProducerIdResponse_ProducerId t)) >>
   (PutInt16 (InitProducerIdResponse_ProducerEpoch t)) >>
   skip)%enc.
(** message/messages.gen.go:6292-6311 *)
Definition InitProducerIdResponse_Decode (version : Z) (t : InitProducerIdResponse) : Dec InitProducerIdResponse :=
  x_ThrottleTimeMs <- dInt32 ;;
  x_ErrorCode <- dInt16 ;;
  x_ProducerId <- dInt64 ;;
  x_ProducerEpoch <- dInt16 ;;
  ret (mkInitProducerIdResponse x_ThrottleTimeMs x_ErrorCode x_ProducerId x_ProducerEpoch).
(** the struct declaration read as a schema; version ranges as in Size *)
Definition InitProducerIdResponse_schema : fields :=
  FCons "ThrottleTimeMs" Always TInt32
  (FCons "ErrorCode" Always TInt16
  (FCons "ProducerId" Always TInt64
  (FCons "ProducerEpoch" Always TInt16 FNil))).
Definition InitProducerIdResponse_to (t : InitProducerIdResponse) : dens InitProducerIdResponse_schema := (InitProducerIdResponse_ThrottleTimeMs t, (InitProducerIdResponse_ErrorCode t, (InitProducerIdResponse_ProducerId t, (InitProducerIdResponse_ProducerEpoch t, tt)))).
Definition InitProducerIdResponse_of (x : dens InitProducerIdResponse_schema) : InitProducerIdResponse := mkInitProducerIdResponse (fst x) (fst (snd x)) (fst (snd (snd x))) (fst (snd (snd (snd x)))).
Definition InitProducerIdResponse_codec : codec := Codec InitProducerIdResponse InitProducerIdResponse_zero InitProducerIdResponse_Size InitProducerIdResponse_Encode InitProducerIdResponse_Decode InitProducerIdResponse_schema InitProducerIdResponse_to InitProducerIdResponse_of.
Lemma InitProducerIdResponse_linked : linked InitProducerIdResponse_codec.
Proof.
  apply Linked; cbn [InitProducerIdResponse_codec c_type c_zero c_size c_encode c_decode c_schema c_to c_of].
  - intros t. destruct t. cbv [InitProducerIdResponse_of InitProducerIdResponse_to]. cbn [fst snd InitProducerIdResponse_ThrottleTimeMs InitProducerIdResponse_ErrorCode InitProducerIdResponse_ProducerId InitProducerIdResponse_ProducerEpoch].  reflexivity.
  - intros x. unfold InitProducerIdResponse_schema in x. cbn [dens den] in x. destruct x as [x0 x]. destruct x as [x1 x]. destruct x as [x2 x]. destruct x as [x3 x]. destruct x. cbv [InitProducerIdResponse_of InitProducerIdResponse_to]. cbn [fst snd InitProducerIdResponse_ThrottleTimeMs InitProducerIdResponse_ErrorCode InitProducerIdResponse_ProducerId InitProducerIdResponse_ProducerEpoch].  reflexivity.
  - reflexivity.
  - intros v t. unfold InitProducerIdResponse_Size, InitProducerIdResponse_schema, InitProducerIdResponse_to. apply size_start.
    apply size_step; [intros sz; reflexivity|].
    apply size_step; [intros sz; reflexivity|].
    apply size_step; [intros sz; reflexivity|].
    apply size_step; [intros sz; reflexivity|].
    intros sz; reflexivity.
  - intros v t. unfold InitProducerIdResponse_Encode, InitProducerIdResponse_schema, InitProducerIdResponse_to.
    apply enc_step; [intros e; reflexivity|].
    apply enc_step; [intros e; reflexivity|].
    apply enc_step; [intros e; reflexivity|].
    apply enc_step; [intros e; reflexivity|].
    intros e; reflexivity.
  - intros v t. unfold InitProducerIdResponse_Decode, InitProducerIdResponse_schema, InitProducerIdResponse_to.
    dec_field (fun x : Z => x); [apply dmap_id|intros x_ThrottleTimeMs].
    dec_field (fun x : Z => x); [apply dmap_id|intros x_ErrorCode].
    dec_field (fun x : Z => x); [apply dmap_id|intros x_ProducerId].
    dec_field (fun x : Z => x); [apply dmap_id|intros x_ProducerEpoch].
    intros d; reflexivity.
Qed.
Local Opaque InitProducerIdResponse_Size InitProducerIdResponse_Encode InitProducerIdResponse_Decode.

(** ** OffsetForLeaderPartition23 *)

(** message/messages.gen.go:6420-6424 *)
Record OffsetForLeaderPartition23 : Type := mkOffsetForLeaderPartition23 { OffsetForLeaderPartition23_PartitionIndex : Z; OffsetForLeaderPartition23_CurrentLeaderEpoch : Z; OffsetForLeaderPartition23_LeaderEpoch : Z }.
(** the zero value ([var item OffsetForLeaderPartition23]) *)
Definition OffsetForLeaderPartition23_zero : OffsetForLeaderPartition23 := mkOffsetForLeaderPartition23 0 0 0.
(** message/messages.gen.go:6427-6435 *)
Definition OffsetForLeaderPartition23_Size (version : Z) (t : OffsetForLeaderPartition23) : Z :=
  ((size_add sz_Int32) +>
   size_if (2 <=? version) (size_add sz_Int32) +>
   (size_add sz_Int32) +>
   size_done)%size 0.
(** message/messages.gen.go:6438-6444 *)
Definition OffsetForLeaderPartition23_Encode (version : Z) (t : OffsetForLeaderPartition23) : Encoder -> Encoder :=
  ((PutInt32 (OffsetForLeaderPartition23_PartitionIndex t)) >>
   put_if (2 <=? version) (PutInt32 (OffsetForLeaderPartition23_CurrentLeaderEpoch t)) >>
   (PutInt32 (OffsetForLeaderPartition23_LeaderEpoch t)) >>
   skip)%enc.
(** message/messages.gen.go:6447-6464 *)
Definition OffsetForLeaderPartition23_Decode (version : Z) (t : OffsetForLeaderPartition23) : Dec OffsetForLeaderPartition23 :=
  x_PartitionIndex <- dInt32 ;;
  x_CurrentLeaderEpoch <- dec_if (2 <=? version) dInt32 (OffsetForLeaderPartition23_CurrentLeaderEpoch t) ;;
  x_LeaderEpoch <- dInt32 ;;
  ret (mkOffsetForLeaderPartition23 x_PartitionIndex x_CurrentLeaderEpoch x_LeaderEpoch).
(** the struct declaration read as a schema; version ranges as in Size *)
Definition OffsetForLeaderPartition23_schema : fields :=
  FCons "PartitionIndex" Always TInt32
  (FCons "CurrentLeaderEpoch" (From 2) TInt32
  (FCons "LeaderEpoch" Always TInt32 FNil)).
Definition OffsetForLeaderPartition23_to (t : OffsetForLeaderPartition23) : dens OffsetForLeaderPartition23_schema := (OffsetForLeaderPartition23_PartitionIndex t, (OffsetForLeaderPartition23_CurrentLeaderEpoch t, (OffsetForLeaderPartition23_LeaderEpoch t, tt))).
Definition OffsetForLeaderPartition23_of (x : dens OffsetForLeaderPartition23_schema) : OffsetForLeaderPartition23 := mkOffsetForLeaderPartition23 (fst x) (fst (snd x)) (fst (snd (snd x))).
Definition OffsetForLeaderPartition23_codec : codec := Codec OffsetForLeaderPartition23 OffsetForLeaderPartition23_zero OffsetForLeaderPartition23_Size OffsetForLeaderPartition23_Encode OffsetForLeaderPartition23_Decode OffsetForLeaderPartition23_schema OffsetForLeaderPartition23_to OffsetForLeaderPartition23_of.
Lemma OffsetForLeaderPartition23_linked : linked OffsetForLeaderPartition23_codec.
Proof.
  apply Linked; cbn [OffsetForLeaderPartition23_codec c_type c_zero c_size c_encode c_decode c_schema c_to c_of].
  - intros t. destruct t. cbv [OffsetForLeaderPartition23_of OffsetForLeaderPartition23_to]. cbn [fst snd OffsetForLeaderPartition23_PartitionIndex OffsetForLeaderPartition23_CurrentLeaderEpoch OffsetForLeaderPartition23_LeaderEpoch].  reflexivity.
  - intros x. unfold OffsetForLeaderPartition23_schema in x. cbn [dens den] in x. destruct x as [x0 x]. destruct x as [x1 x]. destruct x as [x2 x]. destruct x. cbv [OffsetForLeaderPartition23_of OffsetForLeaderPartition23_to]. cbn [fst snd OffsetForLeaderPartition23_PartitionIndex OffsetForLeaderPartition23_CurrentLeaderEpoch OffsetForLeaderPartition23_LeaderEpoch].  reflexivity.
  - reflexivity.
  - intros v t. unfold OffsetForLeaderPartition23_Size, OffsetForLeaderPartition23_schema, OffsetForLeaderPartition23_to. apply size_start.
    apply size_step; [intros sz; reflexivity|].
    apply size_step; [intros sz; reflexivity|].
    apply size_step; [intros sz; reflexivity|].
    intros sz; reflexivity.
  - intros v t. unfold OffsetForLeaderPartition23_Encode, OffsetForLeaderPartition23_schema, OffsetForLeaderPartition23_to.
    apply enc_step; [intros e; reflexivity|].
    apply enc_step; [intros e; reflexivity|].
    apply enc_step; [intros e; reflexivity|].
    intros e; reflexivity.
  - intros v t. unfold OffsetForLeaderPartition23_Decode, OffsetForLeaderPartition23_schema, OffsetForLeaderPartition23_to.
    dec_field (fun x : Z => x); [apply dmap_id|intros x_PartitionIndex].
    dec_field (fun x : Z => x); [apply dec_if_link; [apply dmap_id|reflexivity]|intros x_CurrentLeaderEpoch].
    dec_field (fun x : Z => x); [apply dmap_id|intros x_LeaderEpoch].
    intros d; reflexivity.
Qed.
Local Opaque OffsetForLeaderPartition23_Size OffsetForLeaderPartition23_Encode OffsetForLeaderPartition23_Decode.

(** ** OffsetForLeaderTopic23 *)

(** message/messages.gen.go:6370-6373 *)
Record OffsetForLeaderTopic23 : Type := mkOffsetForLeaderTopic23 { OffsetForLeaderTopic23_Name : gostring; OffsetForLeaderTopic23_Partitions : gslice OffsetForLeaderPartition23 }.
(** the zero value ([var item OffsetForLeaderTopic23]) *)
Definition OffsetForLeaderTopic23_zero : OffsetForLeaderTopic23 := mkOffsetForLeaderTopic23 [] None.
(** message/messages.gen.go:6376-6384 *)
Definition OffsetForLeaderTopic23_Size (version : Z) (t : OffsetForLeaderTopic23) : Z :=
  ((size_add (sz_String (OffsetForLeaderTopic23_Name t))) +>
   (size_loop (OffsetForLeaderPartition23_Size version) (OffsetForLeaderTopic23_Partitions t)) +>
   size_done)%size 0.
(** message/messages.gen.go:6387-6395 *)
Definition OffsetForLeaderTopic23_Encode (version : Z) (t : OffsetForLeaderTopic23) : Encoder -> Encoder :=
  ((PutString (OffsetForLeaderTopic23_Name t)) >>
   (put_array (OffsetForLeaderPartition23_Encode version) (OffsetForLeaderTopic23_Partitions t)) >>
   skip)%enc.
(** message/messages.gen.go:6398-6418 *)
Definition OffsetForLeaderTopic23_Decode (version : Z) (t : OffsetForLeaderTopic23) : Dec OffsetForLeaderTopic23 :=
  x_Name <- dString ;;
  x_Partitions <- (dec_array (OffsetForLeaderPartition23_Decode version OffsetForLeaderPartition23_zero) (OffsetForLeaderTopic23_Partitions t)) ;;
  ret (mkOffsetForLeaderTopic23 x_Name x_Partitions).
(** the struct declaration read as a schema; version ranges as in Size *)
Definition OffsetForLeaderTopic23_schema : fields :=
  FCons "Name" Always TString
  (FCons "Partitions" Always (TArray OffsetForLeaderPartition23_schema) FNil).
Definition OffsetForLeaderTopic23_to (t : OffsetForLeaderTopic23) : dens OffsetForLeaderTopic23_schema := (OffsetForLeaderTopic23_Name t, (option_map (map OffsetForLeaderPartition23_to) (OffsetForLeaderTopic23_Partitions t), tt)).
Definition OffsetForLeaderTopic23_of (x : dens OffsetForLeaderTopic23_schema) : OffsetForLeaderTopic23 := mkOffsetForLeaderTopic23 (fst x) (option_map (map OffsetForLeaderPartition23_of) (fst (snd x))).
Definition OffsetForLeaderTopic23_codec : codec := Codec OffsetForLeaderTopic23 OffsetForLeaderTopic23_zero OffsetForLeaderTopic23_Size OffsetForLeaderTopic23_Encode OffsetForLeaderTopic23_Decode OffsetForLeaderTopic23_schema OffsetForLeaderTopic23_to OffsetForLeaderTopic23_of.
Lemma OffsetForLeaderTopic23_linked : linked OffsetForLeaderTopic23_codec.
Proof.
  apply Linked; cbn [OffsetForLeaderTopic23_codec c_type c_zero c_size c_encode c_decode c_schema c_to c_of].
  - intros t. destruct t. cbv [OffsetForLeaderTopic23_of OffsetForLeaderTopic23_to]. cbn [fst snd OffsetForLeaderTopic23_Name OffsetForLeaderTopic23_Partitions]. rewrite ?(option_map_map_inv OffsetForLeaderPartition23_to OffsetForLeaderPartition23_of _ (l_of_to _ OffsetForLeaderPartition23_linked)). reflexivity.
  - intros x. unfold OffsetForLeaderTopic23_schema in x. cbn [dens den] in x. destruct x as [x0 x]. destruct x as [x1 x]. destruct x. cbv [OffsetForLeaderTopic23_of OffsetForLeaderTopic23_to]. cbn [fst snd OffsetForLeaderTopic23_Name OffsetForLeaderTopic23_Partitions]. rewrite ?(option_map_map_inv OffsetForLeaderPartition23_of OffsetForLeaderPartition23_to _ (l_to_of _ OffsetForLeaderPartition23_linked)). reflexivity.
  - reflexivity.
  - intros v t. unfold OffsetForLeaderTopic23_Size, OffsetForLeaderTopic23_schema, OffsetForLeaderTopic23_to. apply size_start.
    apply size_step; [intros sz; reflexivity|].
    apply size_step; [intros sz; apply (size_field_link (OffsetForLeaderPartition23_Size v) OffsetForLeaderPartition23_schema OffsetForLeaderPartition23_to v (l_size _ OffsetForLeaderPartition23_linked v) true)|].
    intros sz; reflexivity.
  - intros v t. unfold OffsetForLeaderTopic23_Encode, OffsetForLeaderTopic23_schema, OffsetForLeaderTopic23_to.
    apply enc_step; [intros e; reflexivity|].
    apply enc_step; [intros e; apply (put_field_link (OffsetForLeaderPartition23_Encode v) OffsetForLeaderPartition23_schema OffsetForLeaderPartition23_to v (l_encode _ OffsetForLeaderPartition23_linked v) true)|].
    intros e; reflexivity.
  - intros v t. unfold OffsetForLeaderTopic23_Decode, OffsetForLeaderTopic23_schema, OffsetForLeaderTopic23_to.
    dec_field (fun x : gostring => x); [apply dmap_id|intros x_Name].
    dec_field (option_map (map OffsetForLeaderPartition23_of)); [apply (dec_array_link _ _ OffsetForLeaderPartition23_of OffsetForLeaderPartition23_to (l_decode _ OffsetForLeaderPartition23_linked v OffsetForLeaderPartition23_zero) (l_of_to _ OffsetForLeaderPartition23_linked))|intros x_Partitions].
    intros d; reflexivity.
Qed.
Local Opaque OffsetForLeaderTopic23_Size OffsetForLeaderTopic23_Encode OffsetForLeaderTopic23_Decode.

(** ** OffsetForLeaderEpochRequest *)

(** message/messages.gen.go:6314-6317 *)
Record OffsetForLeaderEpochRequest : Type := mkOffsetForLeaderEpochRequest { OffsetForLeaderEpochRequest_ReplicaId : Z; OffsetForLeaderEpochRequest_Topics : gslice OffsetForLeaderTopic23 }.
(** the zero value ([var item OffsetForLeaderEpochRequest]) *)
Definition OffsetForLeaderEpochRequest_zero : OffsetForLeaderEpochRequest := mkOffsetForLeaderEpochRequest 0 None.
(** message/messages.gen.go:6320-6330 *)
Definition OffsetForLeaderEpochRequest_Size (version : Z) (t : OffsetForLeaderEpochRequest) : Z :=
  (size_if (3 <=? version) (size_add sz_Int32) +>
   (size_loop (OffsetForLeaderTopic23_Size version) (OffsetForLeaderEpochRequest_Topics t)) +>
   size_done)%size 0.
(** message/messages.gen.go:6333-6343 *)
Definition OffsetForLeaderEpochRequest_Encode (version : Z) (t : OffsetForLeaderEpochRequest) : Encoder -> Encoder :=
  (put_if (3 <=? version) (PutInt32 (OffsetForLeaderEpochRequest_ReplicaId t)) >>
   (put_array (OffsetForLeaderTopic23_Encode version) (OffsetForLeaderEpochRequest_Topics t)) >>
   skip)%enc.
(** message/messages.gen.go:6346-6368 *)
Definition OffsetForLeaderEpochRequest_Decode (version : Z) (t : OffsetForLeaderEpochRequest) : Dec OffsetForLeaderEpochRequest :=
  x_ReplicaId <- dec_if (3 <=? version) dInt32 (OffsetForLeaderEpochRequest_ReplicaId t) ;;
  x_Topics <- (dec_array (OffsetForLeaderTopic23_Decode version OffsetForLeaderTopic23_zero) (OffsetForLeaderEpochRequest_Topics t)) ;;
  ret (mkOffsetForLeaderEpochRequest x_ReplicaId x_Topics).
(** the struct declaration read as a schema; version ranges as in Size *)
Definition OffsetForLeaderEpochRequest_schema : fields :=
  FCons "ReplicaId" (From 3) TInt32
  (FCons "Topics" Always (TArray OffsetForLeaderTopic23_schema) FNil).
Definition OffsetForLeaderEpochRequest_to (t : OffsetForLeaderEpochRequest) : dens OffsetForLeaderEpochRequest_schema := (OffsetForLeaderEpochRequest_ReplicaId t, (option_map (map OffsetForLeaderTopic23_to) (OffsetForLeaderEpochRequest_Topics t), tt)).
Definition OffsetForLeaderEpochRequest_of (x : dens OffsetForLeaderEpochRequest_schema) : OffsetForLeaderEpochRequest := mkOffsetForLeaderEpochRequest (fst x) (option_map (map OffsetForLeaderTopic23_of) (fst (snd x))).
Definition OffsetForLeaderEpochRequest_codec : codec := Codec OffsetForLeaderEpochRequest OffsetForLeaderEpochRequest_zero OffsetForLeaderEpochRequest_Size OffsetForLeaderEpochRequest_Encode OffsetForLeaderEpochRequest_Decode OffsetForLeaderEpochRequest_schema OffsetForLeaderEpochRequest_to OffsetForLeaderEpochRequest_of.
Lemma OffsetForLeaderEpochRequest_linked : linked OffsetForLeaderEpochRequest_codec.
Proof.
  apply Linked; cbn [OffsetForLeaderEpochRequest_codec c_type c_zero c_size c_encode c_decode c_schema c_to c_of].
  - intros t. destruct t. cbv [OffsetForLeaderEpochRequest_of OffsetForLeaderEpochRequest_to]. cbn [fst snd OffsetForLeaderEpochRequest_ReplicaId OffsetForLeaderEpochRequest_Topics]. rewrite ?(option_map_map_inv OffsetForLeaderTopic23_to OffsetForLeaderTopic23_of _ (l_of_to _ OffsetForLeaderTopic23_linked)). reflexivity.
  - intros x. unfold OffsetForLeaderEpochRequest_schema in x. cbn [dens den] in x. destruct x as [x0 x]. destruct x as [x1 x]. destruct x. cbv [OffsetForLeaderEpochRequest_of OffsetForLeaderEpochRequest_to]. cbn [fst snd OffsetForLeaderEpochRequest_ReplicaId OffsetForLeaderEpochRequest_Topics]. rewrite ?(option_map_map_inv OffsetForLeaderTopic23_of OffsetForLeaderTopic23_to _ (l_to_of _ OffsetForLeaderTopic23_linked)). reflexivity.
  - reflexivity.
  - intros v t. unfold OffsetForLeaderEpochRequest_Size, OffsetForLeaderEpochRequest_schema, OffsetForLeaderEpochRequest_to. apply size_start.
    apply size_step; [intros sz; reflexivity|].
    apply size_step; [intros sz; apply (size_field_link (OffsetForLeaderTopic23_Size v) OffsetForLeaderTopic23_schema OffsetForLeaderTopic23_to v (l_size _ OffsetForLeaderTopic23_linked v) true)|].
    intros sz; reflexivity.
  - intros v t. unfold OffsetForLeaderEpochRequest_Encode, OffsetForLeaderEpochRequest_schema, OffsetForLeaderEpochRequest_to.
    apply enc_step; [intros e; reflexivity|].
    apply enc_step; [intros e; apply (put_field_link (OffsetForLeaderTopic23_Encode v) OffsetForLeaderTopic23_schema OffsetForLeaderTopic23_to v (l_encode _ OffsetForLeaderTopic23_linked v) true)|].
    intros e; reflexivity.
  - intros v t. unfold OffsetForLeaderEpochRequest_Decode, OffsetForLeaderEpochRequest_schema, OffsetForLeaderEpochRequest_to.
    dec_field (fun x : Z => x); [apply dec_if_link; [apply dmap_id|reflexivity]|intros x_ReplicaId].
    dec_field (option_map (map OffsetForLeaderTopic23_of)); [apply (dec_array_link _ _ OffsetForLeaderTopic23_of OffsetForLeaderTopic23_to (l_decode _ OffsetForLeaderTopic23_linked v OffsetForLeaderTopic23_zero) (l_of_to _ OffsetForLeaderTopic23_linked))|intros x_Topics].
    intros d; reflexivity.
Qed.
Local Opaque OffsetForLeaderEpochRequest_Size OffsetForLeaderEpochRequest_Encode OffsetForLeaderEpochRequest_Decode.

(** ** OffsetForLeaderPartitionResult23 *)

(** message/messages.gen.go:6573-6578 *)
Record OffsetForLeaderPartitionResult23 : Type := mkOffsetForLeaderPartitionResult23 { OffsetForLeaderPartitionResult23_ErrorCode : Z; OffsetForLeaderPartitionResult23_PartitionIndex : Z; OffsetForLeaderPartitionResult23_LeaderEpoch : Z; OffsetForLeaderPartitionResult23_EndOffset : Z }.
(** the zero value ([var item OffsetForLeaderPartitionResult23]) *)
Definition OffsetForLeaderPartitionResult23_zero : OffsetForLeaderPartitionResult23 := mkOffsetForLeaderPartitionResult23 0 0 0 0.
(** message/messages.gen.go:6581-6590 *)
Definition OffsetForLeaderPartitionResult23_Size (version : Z) (t : OffsetForLeaderPartitionResult23) : Z :=
  ((size_add sz_Int16) +>
   (size_add sz_Int32) +>
   size_if (1 <=? version) (size_add sz_Int32) +>
   (size_add sz_Int64) +>
   size_done)%size 0.
(** message/messages.gen.go:6593-6600 *)
Definition OffsetForLeaderPartitionResult23_Encode (version : Z) (t : OffsetForLeaderPartitionResult23) : Encoder -> Encoder :=
  ((PutInt16 (OffsetForLeaderPartitionResult23_ErrorCode t)) >>
   (PutInt32 (OffsetForLeaderPartitionResult23_PartitionIndex t)) >>
   put_if (1 <=? version) (PutInt32 (OffsetForLeaderPartitionResult23_LeaderEpoch t)) >>
   (PutInt64 (OffsetForLeaderPartitionResult23_EndOffset t)) >>
   skip)%enc.
(** message/messages.gen.go:6603-6624 *)
Definition OffsetForLeaderPartitionResult23_Decode (version : Z) (t : OffsetForLeaderPartitionResult23) : Dec OffsetForLeaderPartitionResult23 :=
  x_ErrorCode <- dInt16 ;;
  x_PartitionIndex <- dInt32 ;;
  x_LeaderEpoch <- dec_if (1 <=? version) dInt32 (OffsetForLeaderPartitionResult23_LeaderEpoch t) ;;
  x_EndOffset <- dInt64 ;;
  ret (mkOffsetForLeaderPartitionResult23 x_ErrorCode x_PartitionIndex x_LeaderEpoch x_EndOffset).
(** the struct declaration read as a schema; version ranges as in Size *)
Definition OffsetForLeaderPartitionResult23_schema : fields :=
  FCons "ErrorCode" Always TInt16
  (FCons "PartitionIndex" Always TInt32
  (FCons "LeaderEpoch" (From 1) TInt32
  (FCons "EndOffset" Always TInt64 FNil))).
Definition OffsetForLeaderPartitionResult23_to (t : OffsetForLeaderPartitionResult23) : dens OffsetForLeaderPartitionResult23_schema := (OffsetForLeaderPartitionResult23_ErrorCode t, (OffsetForLeaderPartitionResult23_PartitionIndex t, (OffsetForLeaderPartitionResult23_LeaderEpoch t, (OffsetForLeaderPartitionResult23_EndOffset t, tt)))).
Definition OffsetForLeaderPartitionResult23_of (x : dens OffsetForLeaderPartitionResult23_schema) : OffsetForLeaderPartitionResult23 := mkOffsetForLeaderPartitionResult23 (fst x) (fst (snd x)) (fst (snd (snd x))) (fst (snd (snd (snd x)))).
Definition OffsetForLeaderPartitionResult23_codec : codec := Codec OffsetForLeaderPartitionResult23 OffsetForLeaderPartitionResult23_zero OffsetForLeaderPartitionResult23_Size OffsetForLeaderPartitionResult23_Encode OffsetForLeaderPartitionResult23_Decode OffsetForLeaderPartitionResult23_schema OffsetForLeaderPartitionResult23_to OffsetForLeaderPartitionResult23_of.
Lemma OffsetForLeaderPartitionResult23_linked : linked OffsetForLeaderPartitionResult23_codec.
Proof.
  apply Linked; cbn [OffsetForLeaderPartitionResult23_codec c_type c_zero c_size c_encode c_decode c_schema c_to c_of].
  - intros t. destruct t. cbv [OffsetForLeaderPartitionResult23_of OffsetForLeaderPartitionResult23_to]. cbn [fst snd OffsetForLeaderPartitionResult23_ErrorCode OffsetForLeaderPartitionResult23_PartitionIndex OffsetForLeaderPartitionResult23_LeaderEpoch OffsetForLeaderPartitionResult23_EndOffset].  reflexivity.
  - intros x. unfold OffsetForLeaderPartitionResult23_schema in x. cbn [dens den] in x. destruct x as [x0 x]. destruct x as [x1 x]. destruct x as [x2 x]. destruct x as [x3 x]. destruct x. cbv [OffsetForLeaderPartitionResult23_of OffsetForLeaderPartitionResult23_to]. cbn [fst snd OffsetForLeaderPartitionResult23_ErrorCode OffsetForLeaderPartitionResult23_PartitionIndex OffsetForLeaderPartitionResult23_LeaderEpoch OffsetForLeaderPartitionResult23_EndOffset].  reflexivity.
  - reflexivity.
  - intros v t. unfold OffsetForLeaderPartitionResult23_Size, OffsetForLeaderPartitionResult23_schema, OffsetForLeaderPartitionResult23_to. apply size_start.
    apply size_step; [intros sz; reflexivity|].
    apply size_step; [intros sz; reflexivity|].
    apply size_step; [intros sz; reflexivity|].
    apply size_step; [intros sz; reflexivity|].
    intros sz; reflexivity.
  - intros v t. unfold OffsetForLeaderPartitionResult23_Encode, OffsetForLeaderPartitionResult23_schema, OffsetForLeaderPartitionResult23_to.
    apply enc_step; [intros e; reflexivity|].
    apply enc_step; [intros e; reflexivity|].
    apply enc_step; [intros e; reflexivity|].
    apply enc_step; [intros e; reflexivity|].
    intros e; reflexivity.
  - intros v t. unfold OffsetForLeaderPartitionResult23_Decode, OffsetForLeaderPartitionResult23_schema, OffsetForLeaderPartitionResult23_to.
    dec_field (fun x : Z => x); [apply dmap_id|intros x_ErrorCode].
    dec_field (fun x : Z => x); [apply dmap_id|intros x_PartitionIndex].
    dec_field (fun x : Z => x); [apply dec_if_link; [apply dmap_id|reflexivity]|intros x_LeaderEpoch].
    dec_field (fun x : Z => x); [apply dmap_id|intros x_EndOffset].
    intros d; reflexivity.
Qed.
Local Opaque OffsetForLeaderPartitionResult23_Size OffsetForLeaderPartitionResult23_Encode OffsetForLeaderPartitionResult23_Decode.

(** ** OffsetForLeaderTopicResult23 *)

(** message/messages.gen.go:6523-6526 *)
Record OffsetForLeaderTopicResult23 : Type := mkOffsetForLeaderTopicResult23 { OffsetForLeaderTopicResult23_Name : gostring; OffsetForLeaderTopicResult23_Partitions : gslice OffsetForLeaderPartitionResult23 }.
(** the zero value ([var item OffsetForLeaderTopicResult23]) *)
Definition OffsetForLeaderTopicResult23_zero : OffsetForLeaderTopicResult23 := mkOffsetForLeaderTopicResult23 [] None.
(** message/messages.gen.go:6529-6537 *)
Definition OffsetForLeaderTopicResult23_Size (version : Z) (t : OffsetForLeaderTopicResult23) : Z :=
  ((size_add (sz_String (OffsetForLeaderTopicResult23_Name t))) +>
   (size_loop (OffsetForLeaderPartitionResult23_Size version) (OffsetForLeaderTopicResult23_Partitions t)) +>
   size_done)%size 0.
(** message/messages.gen.go:6540-6548 *)
Definition OffsetForLeaderTopicResult23_Encode (version : Z) (t : OffsetForLeaderTopicResult23) : Encoder -> Encoder :=
  ((PutString (OffsetForLeaderTopicResult23_Name t)) >>
   (put_array (OffsetForLeaderPartitionResult23_Encode version) (OffsetForLeaderTopicResult23_Partitions t)) >>
   skip)%enc.
(** message/messages.gen.go:6551-6571 *)
Definition OffsetForLeaderTopicResult23_Decode (version : Z) (t : OffsetForLeaderTopicResult23) : Dec OffsetForLeaderTopicResult23 :=
  x_Name <- dString ;;
  x_Partitions <- (dec_array (OffsetForLeaderPartitionResult23_Decode version OffsetForLeaderPartitionResult23_zero) (OffsetForLeaderTopicResult23_Partitions t)) ;;
  ret (mkOffsetForLeaderTopicResult23 x_Name x_Partitions).
(** the struct declaration read as a schema; version ranges as in Size *)
Definition OffsetForLeaderTopicResult23_schema : fields :=
  FCons "Name" Always TString
  (FCons "Partitions" Always (TArray OffsetForLeaderPartitionResult23_schema) FNil).
Definition OffsetForLeaderTopicResult23_to (t : OffsetForLeaderTopicResult23) : dens OffsetForLeaderTopicResult23_schema := (OffsetForLeaderTopicResult23_Name t, (option_map (map OffsetForLeaderPartitionResult23_to) (OffsetForLeaderTopicResult23_Partitions t), tt)).
Definition OffsetForLeaderTopicResult23_of (x : dens OffsetForLeaderTopicResult23_schema) : OffsetForLeaderTopicResult23 := mkOffsetForLeaderTopicResult23 (fst x) (option_map (map OffsetForLeaderPartitionResult23_of) (fst (snd x))).
Definition OffsetForLeaderTopicResult23_codec : codec := Codec OffsetForLeaderTopicResult23 OffsetForLeaderTopicResult23_zero OffsetForLeaderTopicResult23_Size OffsetForLeaderTopicResult23_Encode OffsetForLeaderTopicResult23_Decode OffsetForLeaderTopicResult23_schema OffsetForLeaderTopicResult23_to OffsetForLeaderTopicResult23_of.
Lemma OffsetForLeaderTopicResult23_linked : linked OffsetForLeaderTopicResult23_codec.
Proof.
  apply Linked; cbn [OffsetForLeaderTopicResult23_codec c_type c_zero c_size c_encode c_decode c_schema c_to c_of].
  - intros t. destruct t. cbv [OffsetForLeaderTopicResult23_of OffsetForLeaderTopicResult23_to]. cbn [fst snd OffsetForLeaderTopicResult23_Name OffsetForLeaderTopicResult23_Partitions]. rewrite ?(option_map_map_inv OffsetForLeaderPartitionResult23_to OffsetForLeaderPartitionResult23_of _ (l_of_to _ OffsetForLeaderPartitionResult23_linked)). reflexivity.
  - intros x. unfold OffsetForLeaderTopicResult23_schema in x. cbn [dens den] in x. destruct x as [x0 x]. destruct x as [x1 x]. destruct x. cbv [OffsetForLeaderTopicResult23_of OffsetForLeaderTopicResult23_to]. cbn [fst snd OffsetForLeaderTopicResult23_Name OffsetForLeaderTopicResult23_Partitions]. rewrite ?(option_map_map_inv OffsetForLeaderPartitionResult23_of OffsetForLeaderPartitionResult23_to _ (l_to_of _ OffsetForLeaderPartitionResult23_linked)). reflexivity.
  - reflexivity.
  - intros v t. unfold OffsetForLeaderTopicResult23_Size, OffsetForLeaderTopicResult23_schema, OffsetForLeaderTopicResult23_to. apply size_start.
    apply size_step; [intros sz; reflexivity|].
    apply size_step; [intros sz; apply (size_field_link (OffsetForLeaderPartitionResult23_Size v) OffsetForLeaderPartitionResult23_schema OffsetForLeaderPartitionResult23_to v (l_size _ OffsetForLeaderPartitionResult23_linked v) true)|].
    intros sz; reflexivity.
  - intros v t. unfold OffsetForLeaderTopicResult23_Encode, OffsetForLeaderTopicResult23_schema, OffsetForLeaderTopicResult23_to.
    apply enc_step; [intros e; reflexivity|].
    apply enc_step; [intros e; apply (put_field_link (OffsetForLeaderPartitionResult23_Encode v) OffsetForLeaderPartitionResult23_schema OffsetForLeaderPartitionResult23_to v (l_encode _ OffsetForLeaderPartitionResult23_linked v) true)|].
    intros e; reflexivity.
  - intros v t. unfold OffsetForLeaderTopicResult23_Decode, OffsetForLeaderTopicResult23_schema, OffsetForLeaderTopicResult23_to.
    dec_field (fun x : gostring => x); [apply dmap_id|intros x_Name].
    dec_field (option_map (map OffsetForLeaderPartitionResult23_of)); [apply (dec_array_link _ _ OffsetForLeaderPartitionResult23_of OffsetForLeaderPartitionResult23_to (l_decode _ OffsetForLeaderPartitionResult23_linked v OffsetForLeaderPartitionResult23_zero) (l_of_to _ OffsetForLeaderPartitionResult23_linked))|intros x_Partitions].
    intros d; reflexivity.
Qed.
Local Opaque OffsetForLeaderTopicResult23_Size OffsetForLeaderTopicResult23_Encode OffsetForLeaderTopicResult23_Decode.

(** ** OffsetForLeaderEpochResponse *)

(** message/messages.gen.go:6467-6470 *)
Record OffsetForLeaderEpochResponse : Type := mkOffsetForLeaderEpochResponse { OffsetForLeaderEpochResponse_ThrottleTimeMs : Z; OffsetForLeaderEpochResponse_Topics : gslice OffsetForLeaderTopicResult23 }.
(** the zero value ([var item OffsetForLeaderEpochResponse]) *)
Definition OffsetForLeaderEpochResponse_zero : OffsetForLeaderEpochResponse := mkOffsetForLeaderEpochResponse 0 None.
(** message/messages.gen.go:6473-6483 *)
Definition OffsetForLeaderEpochResponse_Size (version : Z) (t : OffsetForLeaderEpochResponse) : Z :=
  (size_if (2 <=? version) (size_add sz_Int32) +>
   (size_loop (OffsetForLeaderTopicResult23_Size version) (OffsetForLeaderEpochResponse_Topics t)) +>
   size_done)%size 0.
(** message/messages.gen.go:6486-6496 *)
Definition OffsetForLeaderEpochResponse_Encode (version : Z) (t : OffsetForLeaderEpochResponse) : Encoder -> Encoder :=
  (put_if (2 <=? version) (PutInt32 (OffsetForLeaderEpochResponse_ThrottleTimeMs t)) >>
   (put_array (OffsetForLeaderTopicResult23_Encode version) (OffsetForLeaderEpochResponse_Topics t)) >>
   skip)%enc.
(** message/messages.gen.go:6499-6521 *)
Definition OffsetForLeaderEpochResponse_Decode (version : Z) (t : OffsetForLeaderEpochResponse) : Dec OffsetForLeaderEpochResponse :=
  x_ThrottleTimeMs <- dec_if (2 <=? version) dInt32 (OffsetForLeaderEpochResponse_ThrottleTimeMs t) ;;
  x_Topics <- (dec_array (OffsetForLeaderTopicResult23_Decode version OffsetForLeaderTopicResult23_zero) (OffsetForLeaderEpochResponse_Topics t)) ;;
  ret (mkOffsetForLeaderEpochResponse x_ThrottleTimeMs x_Topics).
(** the struct declaration read as a schema; version ranges as in Size *)
Definition OffsetForLeaderEpochResponse_schema : fields :=
  FCons "ThrottleTimeMs" (From 2) TInt32
  (FCons "Topics" Always (TArray OffsetForLeaderTopicResult23_schema) FNil).
Definition OffsetForLeaderEpochResponse_to (t : OffsetForLeaderEpochResponse) : dens OffsetForLeaderEpochResponse_schema := (OffsetForLeaderEpochResponse_ThrottleTimeMs t, (option_map (map OffsetForLeaderTopicResult23_to) (OffsetForLeaderEpochResponse_Topics t), tt)).
Definition OffsetForLeaderEpochResponse_of (x : dens OffsetForLeaderEpochResponse_schema) : OffsetForLeaderEpochResponse := mkOffsetForLeaderEpochResponse (fst x) (option_map (map OffsetForLeaderTopicResult23_of) (fst (snd x))).
Definition OffsetForLeaderEpochResponse_codec : codec := Codec OffsetForLeaderEpochResponse OffsetForLeaderEpochResponse_zero OffsetForLeaderEpochResponse_Size OffsetForLeaderEpochResponse_Encode OffsetForLeaderEpochResponse_Decode OffsetForLeaderEpochResponse_schema OffsetForLeaderEpochResponse_to OffsetForLeaderEpochResponse_of.
Lemma OffsetForLeaderEpochResponse_linked : linked OffsetForLeaderEpochResponse_codec.
Proof.
  apply Linked; cbn [OffsetForLeaderEpochResponse_codec c_type c_zero c_size c_encode c_decode c_schema c_to c_of].
  - intros t. destruct t. cbv [OffsetForLeaderEpochResponse_of OffsetForLeaderEpochResponse_to]. cbn [fst snd OffsetForLeaderEpochResponse_ThrottleTimeMs OffsetForLeaderEpochResponse_Topics]. rewrite ?(option_map_map_inv OffsetForLeaderTopicResult23_to OffsetForLeaderTopicResult23_of _ (l_of_to _ OffsetForLeaderTopicResult23_linked)). reflexivity.
  - intros x. unfold OffsetForLeaderEpochResponse_schema in x. cbn [dens den] in x. destruct x as [x0 x]. destruct x as [x1 x]. destruct x. cbv [OffsetForLeaderEpochResponse_of OffsetForLeaderEpochResponse_to]. cbn [fst snd OffsetForLeaderEpochResponse_ThrottleTimeMs OffsetForLeaderEpochResponse_Topics]. rewrite ?(option_map_map_inv OffsetForLeaderTopicResult23_of OffsetForLeaderTopicResult23_to _ (l_to_of _ OffsetForLeaderTopicResult23_linked)). reflexivity.
  - reflexivity.
  - intros v t. unfold OffsetForLeaderEpochResponse_Size, OffsetForLeaderEpochResponse_schema, OffsetForLeaderEpochResponse_to. apply size_start.
    apply size_step; [intros sz; reflexivity|].
    apply size_step; [intros sz; apply (size_field_link (OffsetForLeaderTopicResult23_Size v) OffsetForLeaderTopicResult23_schema OffsetForLeaderTopicResult23_to v (l_size _ OffsetForLeaderTopicResult23_linked v) true)|].
    intros sz; reflexivity.
  - intros v t. unfold OffsetForLeaderEpochResponse_Encode, OffsetForLeaderEpochResponse_schema, OffsetForLeaderEpochResponse_to.
    apply enc_step; [intros e; reflexivity|].
    apply enc_step; [intros e; apply (put_field_link (OffsetForLeaderTopicResult23_Encode v) OffsetForLeaderTopicResult23_schema OffsetForLeaderTopicResult23_to v (l_encode _ OffsetForLeaderTopicResult23_linked v) true)|].
    intros e; reflexivity.
  - intros v t. unfold OffsetForLeaderEpochResponse_Decode, OffsetForLeaderEpochResponse_schema, OffsetForLeaderEpochResponse_to.
    dec_field (fun x : Z => x); [apply dec_if_link; [apply dmap_id|reflexivity]|intros x_ThrottleTimeMs].
    dec_field (option_map (map OffsetForLeaderTopicResult23_of)); [apply (dec_array_link _ _ OffsetForLeaderTopicResult23_of OffsetForLeaderTopicResult23_to (l_decode _ OffsetForLeaderTopicResult23_linked v OffsetForLeaderTopicResult23_zero) (l_of_to _ OffsetForLeaderTopicResult23_linked))|intros x_Topics].
    intros d; reflexivity.
Qed.
Local Opaque OffsetForLeaderEpochResponse_Size OffsetForLeaderEpochResponse_Encode OffsetForLeaderEpochResponse_Decode.

(** ** AddPartitionsToTxnTopic24 *)

(** message/messages.gen.go:6691-6694 *)
Record AddPartitionsToTxnTopic24 : Type := mkAddPartitionsToTxnTopic24 { AddPartitionsToTxnTopic24_Name : gostring; AddPartitionsToTxnTopic24_Partitions : gslice Z }.
(** the zero value ([var item AddPartitionsToTxnTopic24]) *)
Definition AddPartitionsToTxnTopic24_zero : AddPartitionsToTxnTopic24 := mkAddPartitionsToTxnTopic24 [] None.
(** message/messages.gen.go:6697-6702 *)
Definition AddPartitionsToTxnTopic24_Size (version : Z) (t : AddPartitionsToTxnTopic24) : Z :=
  ((size_add (sz_String (AddPartitionsToTxnTopic24_Name t))) +>
   (size_add (sz_Int32Array (AddPartitionsToTxnTopic24_Partitions t))) +>
   size_done)%size 0.
(** message/messages.gen.go:6705-6708 *)
Definition AddPartitionsToTxnTopic24_Encode (version : Z) (t : AddPartitionsToTxnTopic24) : Encoder -> Encoder :=
  ((PutString (AddPartitionsToTxnTopic24_Name t)) >>
   (PutInt32Array (AddPartitionsToTxnTopic24_Partitions t)) >>
   skip)%enc.
(** message/messages.gen.go:6711-6722 *)
Definition AddPartitionsToTxnTopic24_Decode (version : Z) (t : AddPartitionsToTxnTopic24) : Dec AddPartitionsToTxnTopic24 :=
  x_Name <- dString ;;
  x_Partitions <- dInt32Array ;;
  ret (mkAddPartitionsToTxnTopic24 x_Name x_Partitions).
(** the struct declaration read as a schema; version ranges as in Size *)
Definition AddPartitionsToTxnTopic24_schema : fields :=
  FCons "Name" Always TString
  (FCons "Partitions" Always TInt32Array FNil).
Definition AddPartitionsToTxnTopic24_to (t : AddPartitionsToTxnTopic24) : dens AddPartitionsToTxnTopic24_schema := (AddPartitionsToTxnTopic24_Name t, (AddPartitionsToTxnTopic24_Partitions t, tt)).
Definition AddPartitionsToTxnTopic24_of (x : dens AddPartitionsToTxnTopic24_schema) : AddPartitionsToTxnTopic24 := mkAddPartitionsToTxnTopic24 (fst x) (fst (snd x)).
Definition AddPartitionsToTxnTopic24_codec : codec := Codec AddPartitionsToTxnTopic24 AddPartitionsToTxnTopic24_zero AddPartitionsToTxnTopic24_Size AddPartitionsToTxnTopic24_Encode AddPartitionsToTxnTopic24_Decode AddPartitionsToTxnTopic24_schema AddPartitionsToTxnTopic24_to AddPartitionsToTxnTopic24_of.
Lemma AddPartitionsToTxnTopic24_linked : linked AddPartitionsToTxnTopic24_codec.
Proof.
  apply Linked; cbn [AddPartitionsToTxnTopic24_codec c_type c_zero c_size c_encode c_decode c_schema c_to c_of].
  - intros t. destruct t. cbv [AddPartitionsToTxnTopic24_of AddPartitionsToTxnTopic24_to]. cbn [fst snd AddPartitionsToTxnTopic24_Name AddPartitionsToTxnTopic24_Partitions].  reflexivity.
  - intros x. unfold AddPartitionsToTxnTopic24_schema in x. cbn [dens den] in x. destruct x as [x0 x]. destruct x as [x1 x]. destruct x. cbv [AddPartitionsToTxnTopic24_of AddPartitionsToTxnTopic24_to]. cbn [fst snd AddPartitionsToTxnTopic24_Name AddPartitionsToTxnTopic24_Partitions].  reflexivity.
  - reflexivity.
  - intros v t. unfold AddPartitionsToTxnTopic24_Size, AddPartitionsToTxnTopic24_schema, AddPartitionsToTxnTopic24_to. apply size_start.
    apply size_step; [intros sz; reflexivity|].
    apply size_step; [intros sz; reflexivity|].
    intros sz; reflexivity.
  - intros v t. unfold AddPartitionsToTxnTopic24_Encode, AddPartitionsToTxnTopic24_schema, AddPartitionsToTxnTopic24_to.
    apply enc_step; [intros e; reflexivity|].
    apply enc_step; [intros e; reflexivity|].
    intros e; reflexivity.
  - intros v t. unfold AddPartitionsToTxnTopic24_Decode, AddPartitionsToTxnTopic24_schema, AddPartitionsToTxnTopic24_to.
    dec_field (fun x : gostring => x); [apply dmap_id|intros x_Name].
    dec_field (fun x : gslice Z => x); [apply dmap_id|intros x_Partitions].
    intros d; reflexivity.
Qed.
Local Opaque AddPartitionsToTxnTopic24_Size AddPartitionsToTxnTopic24_Encode AddPartitionsToTxnTopic24_Decode.

(** ** AddPartitionsToTxnRequest *)

(** message/messages.gen.go:6627-6632 *)
Record AddPartitionsToTxnRequest : Type := mkAddPartitionsToTxnRequest { AddPartitionsToTxnRequest_TransactionalId : gostring; AddPartitionsToTxnRequest_ProducerId : Z; AddPartitionsToTxnRequest_ProducerEpoch : Z; AddPartitionsToTxnRequest_Topics : gslice AddPartitionsToTxnTopic24 }.
(** the zero value ([var item AddPartitionsToTxnRequest]) *)
Definition AddPartitionsToTxnRequest_zero : AddPartitionsToTxnRequest := mkAddPartitionsToTxnRequest [] 0 0 None.
(** message/messages.gen.go:6635-6645 *)
Definition AddPartitionsToTxnRequest_Size (version : Z) (t : AddPartitionsToTxnRequest) : Z :=
  ((size_add (sz_String (AddPartitionsToTxnRequest_TransactionalId t))) +>
   (size_add sz_Int64) +>
   (size_add sz_Int16) +>
   (size_loop (AddPartitionsToTxnTopic24_Size version) (AddPartitionsToTxnRequest_Topics t)) +>
   size_done)%size 0.
(** message/messages.gen.go:6648-6658 *)
Definition AddPartitionsToTxnRequest_Encode (version : Z) (t : AddPartitionsToTxnRequest) : Encoder -> Encoder :=
  ((PutString (AddPartitionsToTxnRequest_TransactionalId t)) >>
   (PutInt64 (AddPartitionsToTxnRequest_ProducerId t)) >>
   (PutInt16 (AddPartitionsToTxnRequest_ProducerEpoch t)) >>
   (put_array (AddPartitionsToTxnTopic24_Encode version) (AddPartitionsToTxnRequest_Topics t)) >>
   skip)%enc.
(** message/messages.gen.go:6661-6689 *)
Definition AddPartitionsToTxnRequest_Decode (version : Z) (t : AddPartitionsToTxnRequest) : Dec AddPartitionsToTxnRequest :=
  x_TransactionalId <- dString ;;
  x_ProducerId <- dInt64 ;;
  x_ProducerEpoch <- dInt16 ;;
  x_Topics <- (dec_array (AddPartitionsToTxnTopic24_Decode version AddPartitionsToTxnTopic24_zero) (AddPartitionsToTxnRequest_Topics t)) ;;
  ret (mkAddPartitionsToTxnRequest x_TransactionalId x_ProducerId x_ProducerEpoch x_Topics).
(** the struct declaration read as a schema; version ranges as in Size *)
Definition AddPartitionsToTxnRequest_schema : fields :=
  FCons "TransactionalId" Always TString
  (FCons "ProducerId" Always TInt64
  (FCons "ProducerEpoch" Always TInt16
  (FCons "Topics" Always (TArray AddPartitionsToTxnTopic24_schema) FNil))).
Definition AddPartitionsToTxnRequest_to (t : AddPartitionsToTxnRequest) : dens AddPartitionsToTxnRequest_schema := (AddPartitionsToTxnRequest_TransactionalId t, (AddPartitionsToTxnRequest_ProducerId t, (AddPartitionsToTxnRequest_ProducerEpoch t, (option_map (map AddPartitionsToTxnTopic24_to) (AddPartitionsToTxnRequest_Topics t), tt)))).
Definition AddPartitionsToTxnRequest_of (x : dens AddPartitionsToTxnRequest_schema) : AddPartitionsToTxnRequest := mkAddPartitionsToTxnRequest (fst x) (fst (snd x)) (fst (snd (snd x))) (option_map (map AddPartitionsToTxnTopic24_of) (fst (snd (snd (snd x))))).
Definition AddPartitionsToTxnRequest_codec : codec := Codec AddPartitionsToTxnRequest AddPartitionsToTxnRequest_zero AddPartitionsToTxnRequest_Size AddPartitionsToTxnRequest_Encode AddPartitionsToTxnRequest_Decode AddPartitionsToTxnRequest_schema AddPartitionsToTxnRequest_to AddPartitionsToTxnRequest_of.
Lemma AddPartitionsToTxnRequest_linked : linked AddPartitionsToTxnRequest_codec.
Proof.
  apply Linked; cbn [AddPartitionsToTxnRequest_codec c_type c_zero c_size c_encode c_decode c_schema c_to c_of].
  - intros t. destruct t. cbv [AddPartitionsToTxnRequest_of AddPartitionsToTxnRequest_to]. cbn [fst snd AddPartitionsToTxnRequest_TransactionalId AddPartitionsToTxnRequest_ProducerId AddPartitionsToTxnRequest_ProducerEpoch AddPartitionsToTxnRequest_Topics]. rewrite ?(option_map_map_inv AddPartitionsToTxnTopic24_to AddPartitionsToTxnTopic24_of _ (l_of_to _ AddPartitionsToTxnTopic24_linked)). reflexivity.
  - intros x. unfold AddPartitionsToTxnRequest_schema in x. cbn [dens den] in x. destruct x as [x0 x]. destruct x as [x1 x]. destruct x as [x2 x]. destruct x as [x3 x]. destruct x. cbv [AddPartitionsToTxnRequest_of AddPartitionsToTxnRequest_to]. cbn [fst snd AddPartitionsToTxnRequest_TransactionalId AddPartitionsToTxnRequest_ProducerId AddPartitionsToTxnRequest_ProducerEpoch AddPartitionsToTxnRequest_Topics]. rewrite ?(option_map_map_inv AddPartitionsToTxnTopic24_of AddPartitionsToTxnTopic24_to _ (l_to_of _ AddPartitionsToTxnTopic24_linked)). reflexivity.
  - reflexivity.
  - intros v t. unfold AddPartitionsToTxnRequest_Size, AddPartitionsToTxnRequest_schema, AddPartitionsToTxnRequest_to. apply size_start.
    apply size_step; [intros sz; reflexivity|].
    apply size_step; [intros sz; reflexivity|].
    apply size_step; [intros sz; reflexivity|].
    apply size_step; [intros sz; apply (size_field_link (AddPartitionsToTxnTopic24_Size v) AddPartitionsToTxnTopic24_schema AddPartitionsToTxnTopic24_to v (l_size _ AddPartitionsToTxnTopic24_linked v) true)|].
    intros sz; reflexivity.
  - intros v t. unfold AddPartitionsToTxnRequest_Encode, AddPartitionsToTxnRequest_schema, AddPartitionsToTxnRequest_to.
    apply enc_step; [intros e; reflexivity|].
    apply enc_step; [intros e; reflexivity|].
    apply enc_step; [intros e; reflexivity|].
    apply enc_step; [intros e; apply (put_field_link (AddPartitionsToTxnTopic24_Encode v) AddPartitionsToTxnTopic24_schema AddPartitionsToTxnTopic24_to v (l_encode _ AddPartitionsToTxnTopic24_linked v) true)|].
    intros e; reflexivity.
  - intros v t. unfold AddPartitionsToTxnRequest_Decode, AddPartitionsToTxnRequest_schema, AddPartitionsToTxnRequest_to.
    dec_field (fun x : gostring => x); [apply dmap_id|intros x_TransactionalId].
    dec_field (fun x : Z => x); [apply dmap_id|intros x_ProducerId].
    dec_field (fun x : Z => x); [apply dmap_id|intros x_ProducerEpoch].
    dec_field (option_map (map AddPartitionsToTxnTopic24_of)); [apply (dec_array_link _ _ AddPartitionsToTxnTopic24_of AddPartitionsToTxnTopic24_to (l_decode _ AddPartitionsToTxnTopic24_linked v AddPartitionsToTxnTopic24_zero) (l_of_to _ AddPartitionsToTxnTopic24_linked))|intros x_Topics].
    intros d; reflexivity.
Qed.
Local Opaque AddPartitionsToTxnRequest_Size AddPartitionsToTxnRequest_Encode AddPartitionsToTxnRequest_Decode.

