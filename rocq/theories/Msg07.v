(** * Generated message types (part 7 of 10).

    Written by tools/gen_messages.py from message/messages.gen.go, one
    definition per Go method; do not edit.  A Decode method that fails leaves
    a partly filled receiver behind, which no caller looks at; the model drops
    it. *)
From Coq Require Import String.
From Verif Require Import GoBase Encoder Decoder Sizeof SchemaSpec Schema Link.
Open Scope Z_scope.

(** ** CreatableAcl30 *)

(** message/messages.gen.go:7957-7965 *)
Record CreatableAcl30 : Type := mkCreatableAcl30 { CreatableAcl30_ResourceType : Z; CreatableAcl30_ResourceName : gostring; CreatableAcl30_ResourcePatternType : Z; CreatableAcl30_Principal : gostring; CreatableAcl30_Host : gostring; CreatableAcl30_Operation : Z; CreatableAcl30_PermissionType : Z }.
(** the zero value ([var item CreatableAcl30]) *)
Definition CreatableAcl30_zero : CreatableAcl30 := mkCreatableAcl30 0 [] 0 [] [] 0 0.
(** message/messages.gen.go:7968-7980 *)
Definition CreatableAcl30_Size (version : Z) (t : CreatableAcl30) : Z :=
  ((size_add sz_Int8) +>
   (size_add (sz_String (CreatableAcl30_ResourceName t))) +>
   size_if (1 <=? version) (size_add sz_Int8) +>
   (size_add (sz_String (CreatableAcl30_Principal t))) +>
   (size_add (sz_String (CreatableAcl30_Host t))) +>
   (size_add sz_Int8) +>
   (size_add sz_Int8) +>
   size_done)%size 0.
(** message/messages.gen.go:7983-7993 *)
Definition CreatableAcl30_Encode (version : Z) (t : CreatableAcl30) : Encoder -> Encoder :=
  ((PutInt8 (CreatableAcl30_ResourceType t)) >>
   (PutString (CreatableAcl30_ResourceName t)) >>
   put_if (1 <=? version) (PutInt8 (CreatableAcl30_ResourcePatternType t)) >>
   (PutString (CreatableAcl30_Principal t)) >>
   (PutString (CreatableAcl30_Host t)) >>
   (PutInt8 (CreatableAcl30_Operation t)) >>
   (PutInt8 (CreatableAcl30_PermissionType t)) >>
   skip)%enc.
(** message/messages.gen.go:7996-8029 *)
Definition CreatableAcl30_Decode (version : Z) (t : CreatableAcl30) : Dec CreatableAcl30 :=
  x_ResourceType <- dInt8 ;;
  x_ResourceName <- dString ;;
  x_ResourcePatternType <- dec_if (1 <=? version) dInt8 (CreatableAcl30_ResourcePatternType t) ;;
  x_Principal <- dString ;;
  x_Host <- dString ;;
  x_Operation <- dInt8 ;;
  x_PermissionType <- dInt8 ;;
  ret (mkCreatableAcl30 x_ResourceType x_ResourceName x_ResourcePatternType x_Principal x_Host x_Operation x_PermissionType).
(** the struct declaration read as a schema; version ranges as in Size *)
Definition CreatableAcl30_schema : fields :=
  FCons "ResourceType" Always TInt8
  (FCons "ResourceName" Always TString
  (FCons "ResourcePatternType" (From 1) TInt8
  (FCons "Principal" Always TString
  (FCons "Host" Always TString
  (FCons "Operation" Always TInt8
  (FCons "PermissionType" Always TInt8 FNil)))))).
Definition CreatableAcl30_to (t : CreatableAcl30) : dens CreatableAcl30_schema := (CreatableAcl30_ResourceType t, (CreatableAcl30_ResourceName t, (CreatableAcl30_ResourcePatternType t, (CreatableAcl30_Principal t, (CreatableAcl30_Host t, (CreatableAcl30_Operation t, (CreatableAcl30_PermissionType t, tt))))))).
Definition CreatableAcl30_of (x : dens CreatableAcl30_schema) : CreatableAcl30 := mkCreatableAcl30 (fst x) (fst (snd x)) (fst (snd (snd x))) (fst (snd (snd (snd x)))) (fst (snd (snd (snd (snd x))))) (fst (snd (snd (snd (snd (snd x)))))) (fst (snd (snd (snd (snd (snd (snd x))))))).
Definition CreatableAcl30_codec : codec := Codec CreatableAcl30 CreatableAcl30_zero CreatableAcl30_Size CreatableAcl30_Encode CreatableAcl30_Decode CreatableAcl30_schema CreatableAcl30_to CreatableAcl30_of.
Lemma CreatableAcl30_linked : linked CreatableAcl30_codec.
Proof.
  apply Linked; cbn [CreatableAcl30_codec c_type c_zero c_size c_encode c_decode c_schema c_to c_of].
  - intros t. destruct t. cbv [CreatableAcl30_of CreatableAcl30_to]. cbn [fst snd CreatableAcl30_ResourceType CreatableAcl30_ResourceName CreatableAcl30_ResourcePatternType CreatableAcl30_Principal CreatableAcl30_Host CreatableAcl30_Operation CreatableAcl30_PermissionType].  reflexivity.
  - intros x. unfold CreatableAcl30_schema in x. cbn [dens den] in x. destruct x as [x0 x]. destruct x as [x1 x]. destruct x as [x2 x]. destruct x as [x3 x]. destruct x as [x4 x]. destruct x as [x5 x]. destruct x as [x6 x]. destruct x. cbv [CreatableAcl30_of CreatableAcl30_to]. cbn [fst snd CreatableAcl30_ResourceType CreatableAcl30_ResourceName CreatableAcl30_ResourcePatternType CreatableAcl30_Principal CreatableAcl30_Host CreatableAcl30_Operation CreatableAcl30_PermissionType].  reflexivity.
  - reflexivity.
  - intros v t. unfold CreatableAcl30_Size, CreatableAcl30_schema, CreatableAcl30_to. apply size_start.
    apply size_step; [intros sz; reflexivity|].
    apply size_step; [intros sz; reflexivity|].
    apply size_step; [intros sz; reflexivity|].
    apply size_step; [intros sz; reflexivity|].
    apply size_step; [intros sz; reflexivity|].
    apply size_step; [intros sz; reflexivity|].
    apply size_step; [intros sz; reflexivity|].
    intros sz; reflexivity.
  - intros v t. unfold CreatableAcl30_Encode, CreatableAcl30_schema, CreatableAcl30_to.
    apply enc_step; [intros e; reflexivity|].
    apply enc_step; [intros e; reflexivity|].
    apply enc_step; [intros e; reflexivity|].
    apply enc_step; [intros e; reflexivity|].
    apply enc_step; [intros e; reflexivity|].
    apply enc_step; [intros e; reflexivity|].
    apply enc_step; [intros e; reflexivity|].
    intros e; reflexivity.
  - intros v t. unfold CreatableAcl30_Decode, CreatableAcl30_schema, CreatableAcl30_to.
    dec_field (fun x : Z => x); [apply dmap_id|intros x_ResourceType].
    dec_field (fun x : gostring => x); [apply dmap_id|intros x_ResourceName].
    dec_field (fun x : Z => x); [apply dec_if_link; [apply dmap_id|reflexivity]|intros x_ResourcePatternType].
    dec_field (fun x : gostring => x); [apply dmap_id|intros x_Principal].
    dec_field (fun x : gostring => x); [apply dmap_id|intros x_Host].
    dec_field (fun x : Z => x); [apply dmap_id|intros x_Operation].
    dec_field (fun x : Z => x); [apply dmap_id|intros x_PermissionType].
    intros d; reflexivity.
Qed.
Local Opaque CreatableAcl30_Size CreatableAcl30_Encode CreatableAcl30_Decode.

(** ** CreateAclsRequest *)

(** message/messages.gen.go:7914-7916 *)
Record CreateAclsRequest : Type := mkCreateAclsRequest { CreateAclsRequest_Creations : gslice CreatableAcl30 }.
(** the zero value ([var item CreateAclsRequest]) *)
Definition CreateAclsRequest_zero : CreateAclsRequest := mkCreateAclsRequest None.
(** message/messages.gen.go:7919-7926 *)
Definition CreateAclsRequest_Size (version : Z) (t : CreateAclsRequest) : Z :=
  ((size_loop (CreatableAcl30_Size version) (CreateAclsRequest_Creations t)) +>
   size_done)%size 0.
(** message/messages.gen.go:7929-7936 *)
Definition CreateAclsRequest_Encode (version : Z) (t : CreateAclsRequest) : Encoder -> Encoder :=
  ((put_array (CreatableAcl30_Encode version) (CreateAclsRequest_Creations t)) >>
   skip)%enc.
(** message/messages.gen.go:7939-7955 *)
Definition CreateAclsRequest_Decode (version : Z) (t : CreateAclsRequest) : Dec CreateAclsRequest :=
  x_Creations <- (dec_array (CreatableAcl30_Decode version CreatableAcl30_zero) (CreateAclsRequest_Creations t)) ;;
  ret (mkCreateAclsRequest x_Creations).
(** the struct declaration read as a schema; version ranges as in Size *)
Definition CreateAclsRequest_schema : fields :=
  FCons "Creations" Always (TArray CreatableAcl30_schema) FNil.
Definition CreateAclsRequest_to (t : CreateAclsRequest) : dens CreateAclsRequest_schema := (option_map (map CreatableAcl30_to) (CreateAclsRequest_Creations t), tt).
Definition CreateAclsRequest_of (x : dens CreateAclsRequest_schema) : CreateAclsRequest := mkCreateAclsRequest (option_map (map CreatableAcl30_of) (fst x)).
Definition CreateAclsRequest_codec : codec := Codec CreateAclsRequest CreateAclsRequest_zero CreateAclsRequest_Size CreateAclsRequest_Encode CreateAclsRequest_Decode CreateAclsRequest_schema CreateAclsRequest_to CreateAclsRequest_of.
Lemma CreateAclsRequest_linked : linked CreateAclsRequest_codec.
Proof.
  apply Linked; cbn [CreateAclsRequest_codec c_type c_zero c_size c_encode c_decode c_schema c_to c_of].
  - intros t. destruct t. cbv [CreateAclsRequest_of CreateAclsRequest_to]. cbn [fst snd CreateAclsRequest_Creations]. rewrite ?(option_map_map_inv CreatableAcl30_to CreatableAcl30_of _ (l_of_to _ CreatableAcl30_linked)). reflexivity.
  - intros x. unfold CreateAclsRequest_schema in x. cbn [dens den] in x. destruct x as [x0 x]. destruct x. cbv [CreateAclsRequest_of CreateAclsRequest_to]. cbn [fst snd CreateAclsRequest_Creations]. rewrite ?(option_map_map_inv CreatableAcl30_of CreatableAcl30_to _ (l_to_of _ CreatableAcl30_linked)). reflexivity.
  - reflexivity.
  - intros v t. unfold CreateAclsRequest_Size, CreateAclsRequest_schema, CreateAclsRequest_to. apply size_start.
    apply size_step; [intros sz; apply (size_field_link (CreatableAcl30_Size v) CreatableAcl30_schema CreatableAcl30_to v (l_size _ CreatableAcl30_linked v) true)|].
    intros sz; reflexivity.
  - intros v t. unfold CreateAclsRequest_Encode, CreateAclsRequest_schema, CreateAclsRequest_to.
    apply enc_step; [intros e; apply (put_field_link (CreatableAcl30_Encode v) CreatableAcl30_schema CreatableAcl30_to v (l_encode _ CreatableAcl30_linked v) true)|].
    intros e; reflexivity.
  - intros v t. unfold CreateAclsRequest_Decode, CreateAclsRequest_schema, CreateAclsRequest_to.
    dec_field (option_map (map CreatableAcl30_of)); [apply (dec_array_link _ _ CreatableAcl30_of CreatableAcl30_to (l_decode _ CreatableAcl30_linked v CreatableAcl30_zero) (l_of_to _ CreatableAcl30_linked))|intros x_Creations].
    intros d; reflexivity.
Qed.
Local Opaque CreateAclsRequest_Size CreateAclsRequest_Encode CreateAclsRequest_Decode.

(** ** CreatableAclResult30 *)

(** message/messages.gen.go:8082-8085 *)
Record CreatableAclResult30 : Type := mkCreatableAclResult30 { CreatableAclResult30_ErrorCode : Z; CreatableAclResult30_ErrorMessage : gostring }.
(** the zero value ([var item CreatableAclResult30]) *)
Definition CreatableAclResult30_zero : CreatableAclResult30 := mkCreatableAclResult30 0 [].
(** message/messages.gen.go:8088-8093 *)
Definition CreatableAclResult30_Size (version : Z) (t : CreatableAclResult30) : Z :=
  ((size_add sz_Int16) +>
   (size_add (sz_String (CreatableAclResult30_ErrorMessage t))) +>
   size_done)%size 0.
(** message/messages.gen.go:8096-8099 *)
Definition CreatableAclResult30_Encode (version : Z) (t : CreatableAclResult30) : Encoder -> Encoder :=
  ((PutInt16 (CreatableAclResult30_ErrorCode t)) >>
   (PutString (CreatableAclResult30_ErrorMessage t)) >>
   skip)%enc.
(** message/messages.gen.go:8102-8113 *)
Definition CreatableAclResult30_Decode (version : Z) (t : CreatableAclResult30) : Dec CreatableAclResult30 :=
  x_ErrorCode <- dInt16 ;;
  x_ErrorMessage <- dString ;;
  ret (mkCreatableAclResult30 x_ErrorCode x_ErrorMessage).
(** the struct declaration read as a schema; version ranges as in Size *)
Definition CreatableAclResult30_schema : fields :=
  FCons "ErrorCode" Always TInt16
  (FCons "ErrorMessage" Always TString FNil).
Definition CreatableAclResult30_to (t : CreatableAclResult30) : dens CreatableAclResult30_schema := (CreatableAclResult30_ErrorCode t, (CreatableAclResult30_ErrorMessage t, tt)).
Definition CreatableAclResult30_of (x : dens CreatableAclResult30_schema) : CreatableAclResult30 := mkCreatableAclResult30 (fst x) (fst (snd x)).
Definition CreatableAclResult30_codec : codec := Codec CreatableAclResult30 CreatableAclResult30_zero CreatableAclResult30_Size CreatableAclResult30_Encode CreatableAclResult30_Decode CreatableAclResult30_schema CreatableAclResult30_to CreatableAclResult30_of.
Lemma CreatableAclResult30_linked : linked CreatableAclResult30_codec.
Proof.
  apply Linked; cbn [CreatableAclResult30_codec c_type c_zero c_size c_encode c_decode c_schema c_to c_of].
  - intros t. destruct t. cbv [CreatableAclResult30_of CreatableAclResult30_to]. cbn [fst snd CreatableAclResult30_ErrorCode CreatableAclResult30_ErrorMessage].  reflexivity.
  - intros x. unfold CreatableAclResult30_schema in x. cbn [dens den] in x. destruct x as [x0 x]. destruct x as [x1 x]. destruct x. cbv [CreatableAclResult30_of CreatableAclResult30_to]. cbn [fst snd CreatableAclResult30_ErrorCode CreatableAclResult30_ErrorMessage].  reflexivity.
  - reflexivity.
  - intros v t. unfold CreatableAclResult30_Size, CreatableAclResult30_schema, CreatableAclResult30_to. apply size_start.
    apply size_step; [intros sz; reflexivity|].
    apply size_step; [intros sz; reflexivity|].
    intros sz; reflexivity.
  - intros v t. unfold CreatableAclResult30_Encode, CreatableAclResult30_schema, CreatableAclResult30_to.
    apply enc_step; [intros e; reflexivity|].
    apply enc_step; [intros e; reflexivity|].
    intros e; reflexivity.
  - intros v t. unfold CreatableAclResult30_Decode, CreatableAclResult30_schema, CreatableAclResult30_to.
    dec_field (fun x : Z => x); [apply dmap_id|intros x_ErrorCode].
    dec_field (fun x : gostring => x); [apply dmap_id|intros x_ErrorMessage].
    intros d; reflexivity.
Qed.
Local Opaque CreatableAclResult30_Size CreatableAclResult30_Encode CreatableAclResult30_Decode.

(** ** CreateAclsResponse *)

(** message/messages.gen.go:8032-8035 *)
Record CreateAclsResponse : Type := mkCreateAclsResponse { CreateAclsResponse_ThrottleTimeMs : Z; CreateAclsResponse_Results : gslice CreatableAclResult30 }.
(** the zero value ([var item CreateAclsResponse]) *)
Definition CreateAclsResponse_zero : CreateAclsResponse := mkCreateAclsResponse 0 None.
(** message/messages.gen.go:8038-8046 *)
Definition CreateAclsResponse_Size (version : Z) (t : CreateAclsResponse) : Z :=
  ((size_add sz_Int32) +>
   (size_loop (CreatableAclResult30_Size version) (CreateAclsResponse_Results t)) +>
   size_done)%size 0.
(** message/messages.gen.go:8049-8057 *)
Definition CreateAclsResponse_Encode (version : Z) (t : CreateAclsResponse) : Encoder -> Encoder :=
  ((PutInt32 (CreateAclsResponse_ThrottleTimeMs t)) >>
   (put_array (CreatableAclResult30_Encode version) (CreateAclsResponse_Results t)) >>
   skip)%enc.
(** message/messages.gen.go:8060-8080 *)
Definition CreateAclsResponse_Decode (version : Z) (t : CreateAclsResponse) : Dec CreateAclsResponse :=
  x_ThrottleTimeMs <- dInt32 ;;
  x_Results <- (dec_array (CreatableAclResult30_Decode version CreatableAclResult30_zero) (CreateAclsResponse_Results t)) ;;
  ret (mkCreateAclsResponse x_ThrottleTimeMs x_Results).
(** the struct declaration read as a schema; version ranges as in Size *)
Definition CreateAclsResponse_schema : fields :=
  FCons "ThrottleTimeMs" Always TInt32
  (FCons "Results" Always (TArray CreatableAclResult30_schema) FNil).
Definition CreateAclsResponse_to (t : CreateAclsResponse) : dens CreateAclsResponse_schema := (CreateAclsResponse_ThrottleTimeMs t, (option_map (map CreatableAclResult30_to) (CreateAclsResponse_Results t), tt)).
Definition CreateAclsResponse_of (x : dens CreateAclsResponse_schema) : CreateAclsResponse := mkCreateAclsResponse (fst x) (option_map (map CreatableAclResult30_of) (fst (snd x))).
Definition CreateAclsResponse_codec : codec := Codec CreateAclsResponse CreateAclsResponse_zero CreateAclsResponse_Size CreateAclsResponse_Encode CreateAclsResponse_Decode CreateAclsResponse_schema CreateAclsResponse_to CreateAclsResponse_of.
Lemma CreateAclsResponse_linked : linked CreateAclsResponse_codec.
Proof.
  apply Linked; cbn [CreateAclsResponse_codec c_type c_zero c_size c_encode c_decode c_schema c_to c_of].
  - intros t. destruct t. cbv [CreateAclsResponse_of CreateAclsResponse_to]. cbn [fst snd CreateAclsResponse_ThrottleTimeMs CreateAclsResponse_Results]. rewrite ?(option_map_map_inv CreatableAclResult30_to CreatableAclResult30_of _ (l_of_to _ CreatableAclResult30_linked)). reflexivity.
  - intros x. unfold CreateAclsResponse_schema in x. cbn [dens den] in x. destruct x as [x0 x]. destruct x as [x1 x]. destruct x. cbv [CreateAclsResponse_of CreateAclsResponse_to]. cbn [fst snd CreateAclsResponse_ThrottleTimeMs CreateAclsResponse_Results]. rewrite ?(option_map_map_inv CreatableAclResult30_of CreatableAclResult30_to _ (l_to_of _ CreatableAclResult30_linked)). reflexivity.
  - reflexivity.
  - intros v t. unfold CreateAclsResponse_Size, CreateAclsResponse_schema, CreateAclsResponse_to. apply size_start.
    apply size_step; [intros sz; reflexivity|].
    apply size_step; [intros sz; apply (size_field_link (CreatableAclResult30_Size v) CreatableAclResult30_schema CreatableAclResult30_to v (l_size _ CreatableAclResult30_linked v) true)|].
    intros sz; reflexivity.
  - intros v t. unfold CreateAclsResponse_Encode, CreateAclsResponse_schema, CreateAclsResponse_to.
    apply enc_step; [intros e; reflexivity|].
    apply enc_step; [intros e; apply (put_field_link (CreatableAclResult30_Encode v) CreatableAclResult30_schema CreatableAclResult30_to v (l_encode _ CreatableAclResult30_linked v) true)|].
    intros e; reflexivity.
  - intros v t. unfold CreateAclsResponse_Decode, CreateAclsResponse_schema, CreateAclsResponse_to.
    dec_field (fun x : Z => x); [apply dmap_id|intros x_ThrottleTimeMs].
    dec_field (option_map (map CreatableAclResult30_of)); [apply (dec_array_link _ _ CreatableAclResult30_of CreatableAclResult30_to (l_decode _ CreatableAclResult30_linked v CreatableAclResult30_zero) (l_of_to _ CreatableAclResult30_linked))|intros x_Results].
    intros d; reflexivity.
Qed.
Local Opaque CreateAclsResponse_Size CreateAclsResponse_Encode CreateAclsResponse_Decode.

(** ** DeleteAclsFilter31 *)

(** message/messages.gen.go:8159-8167 *)
Record DeleteAclsFilter31 : Type := mkDeleteAclsFilter31 { DeleteAclsFilter31_ResourceTypeFilter : Z; DeleteAclsFilter31_ResourceNameFilter : gostring; DeleteAclsFilter31_PatternTypeFilter : Z; DeleteAclsFilter31_PrincipalFilter : gostring; DeleteAclsFilter31_HostFilter : gostring; DeleteAclsFilter31_Operation : Z; DeleteAclsFilter31_PermissionType : Z }.
(** the zero value ([var item DeleteAclsFilter31]) *)
Definition DeleteAclsFilter31_zero : DeleteAclsFilter31 := mkDeleteAclsFilter31 0 [] 0 [] [] 0 0.
(** message/messages.gen.go:8170-8182 *)
Definition DeleteAclsFilter31_Size (version : Z) (t : DeleteAclsFilter31) : Z :=
  ((size_add sz_Int8) +>
   (size_add (sz_String (DeleteAclsFilter31_ResourceNameFilter t))) +>
   size_if (1 <=? version) (size_add sz_Int8) +>
   (size_add (sz_String (DeleteAclsFilter31_PrincipalFilter t))) +>
   (size_add (sz_String (DeleteAclsFilter31_HostFilter t))) +>
   (size_add sz_Int8) +>
   (size_add sz_Int8) +>
   size_done)%size 0.
(** message/messages.gen.go:8185-8195 *)
Definition DeleteAclsFilter31_Encode (version : Z) (t : DeleteAclsFilter31) : Encoder -> Encoder :=
  ((PutInt8 (DeleteAclsFilter31_ResourceTypeFilter t)) >>
   (PutString (DeleteAclsFilter31_ResourceNameFilter t)) >>
   put_if (1 <=? version) (PutInt8 (DeleteAclsFilter31_PatternTypeFilter t)) >>
   (PutString (DeleteAclsFilter31_PrincipalFilter t)) >>
   (PutString (DeleteAclsFilter31_HostFilter t)) >>
   (PutInt8 (DeleteAclsFilter31_Operation t)) >>
   (PutInt8 (DeleteAclsFilter31_PermissionType t)) >>
   skip)%enc.
(** message/messages.gen.go:8198-8231 *)
Definition DeleteAclsFilter31_Decode (version : Z) (t : DeleteAclsFilter31) : Dec DeleteAclsFilter31 :=
  x_ResourceTypeFilter <- dInt8 ;;
  x_ResourceNameFilter <- dString ;;
  x_PatternTypeFilter <- dec_if (1 <=? version) dInt8 (DeleteAclsFilter31_PatternTypeFilter t) ;;
  x_PrincipalFilter <- dString ;;
  x_HostFilter <- dString ;;
  x_Operation <- dInt8 ;;
  x_PermissionType <- dInt8 ;;
  ret (mkDeleteAclsFilter31 x_ResourceTypeFilter x_ResourceNameFilter x_PatternTypeFilter x_PrincipalFilter x_HostFilter x_Operation x_PermissionType).
(** the struct declaration read as a schema; version ranges as in Size *)
Definition DeleteAclsFilter31_schema : fields :=
  FCons "ResourceTypeFilter" Always TInt8
  (FCons "ResourceNameFilter" Always TString
  (FCons "PatternTypeFilter" (From 1) TInt8
  (FCons "PrincipalFilter" Always TString
  (FCons "HostFilter" Always TString
  (FCons "Operation" Always TInt8
  (FCons "PermissionType" Always TInt8 FNil)))))).
Definition DeleteAclsFilter31_to (t : DeleteAclsFilter31) : dens DeleteAclsFilter31_schema := (DeleteAclsFilter31_ResourceTypeFilter t, (DeleteAclsFilter31_ResourceNameFilter t, (DeleteAclsFilter31_PatternTypeFilter t, (DeleteAclsFilter31_PrincipalFilter t, (DeleteAclsFilter31_HostFilter t, (DeleteAclsFilter31_Operation t, (DeleteAclsFilter31_PermissionType t, tt))))))).
Definition DeleteAclsFilter31_of (x : dens DeleteAclsFilter31_schema) : DeleteAclsFilter31 := mkDeleteAclsFilter31 (fst x) (fst (snd x)) (fst (snd (snd x))) (fst (snd (snd (snd x)))) (fst (snd (snd (snd (snd x))))) (fst (snd (snd (snd (snd (snd x)))))) (fst (snd (snd (snd (snd (snd (snd x))))))).
Definition DeleteAclsFilter31_codec : codec := Codec DeleteAclsFilter31 DeleteAclsFilter31_zero DeleteAclsFilter31_Size DeleteAclsFilter31_Encode DeleteAclsFilter31_Decode DeleteAclsFilter31_schema DeleteAclsFilter31_to DeleteAclsFilter31_of.
Lemma DeleteAclsFilter31_linked : linked DeleteAclsFilter31_codec.
Proof.
  apply Linked; cbn [DeleteAclsFilter31_codec c_type c_zero c_size c_encode c_decode c_schema c_to c_of].
  - intros t. destruct t. cbv [DeleteAclsFilter31_of DeleteAclsFilter31_to]. cbn [fst snd DeleteAclsFilter31_ResourceTypeFilter DeleteAclsFilter31_ResourceNameFilter DeleteAclsFilter31_PatternTypeFilter DeleteAclsFilter31_PrincipalFilter DeleteAclsFilter31_HostFilter DeleteAclsFilter31_Operation DeleteAclsFilter31_PermissionType].  reflexivity.
  - intros x. unfold DeleteAclsFilter31_schema in x. cbn [dens den] in x. destruct x as [x0 x]. destruct x as [x1 x]. destruct x as [x2 x]. destruct x as [x3 x]. destruct x as [x4 x]. destruct x as [x5 x]. destruct x as [x6 x]. destruct x. cbv [DeleteAclsFilter31_of DeleteAclsFilter31_to]. cbn [fst snd DeleteAclsFilter31_ResourceTypeFilter DeleteAclsFilter31_ResourceNameFilter DeleteAclsFilter31_PatternTypeFilter DeleteAclsFilter31_PrincipalFilter DeleteAclsFilter31_HostFilter DeleteAclsFilter31_Operation DeleteAclsFilter31_PermissionType].  reflexivity.
  - reflexivity.
  - intros v t. unfold DeleteAclsFilter31_Size, DeleteAclsFilter31_schema, DeleteAclsFilter31_to. apply size_start.
    apply size_step; [intros sz; reflexivity|].
    apply size_step; [intros sz; reflexivity|].
    apply size_step; [intros sz; reflexivity|].
    apply size_step; [intros sz; reflexivity|].
    apply size_step; [intros sz; reflexivity|].
    apply size_step; [intros sz; reflexivity|].
    apply size_step; [intros sz; reflexivity|].
    intros sz; reflexivity.
  - intros v t. unfold DeleteAclsFilter31_Encode, DeleteAclsFilter31_schema, DeleteAclsFilter31_to.
    apply enc_step; [intros e; reflexivity|].
    apply enc_step; [intros e; reflexivity|].
    apply enc_step; [intros e; reflexivity|].
    apply enc_step; [intros e; reflexivity|].
    apply enc_step; [intros e; reflexivity|].
    apply enc_step; [intros e; reflexivity|].
    apply enc_step; [intros e; reflexivity|].
    intros e; reflexivity.
  - intros v t. unfold DeleteAclsFilter31_Decode, DeleteAclsFilter31_schema, DeleteAclsFilter31_to.
    dec_field (fun x : Z => x); [apply dmap_id|intros x_ResourceTypeFilter].
    dec_field (fun x : gostring => x); [apply dmap_id|intros x_ResourceNameFilter].
    dec_field (fun x : Z => x); [apply dec_if_link; [apply dmap_id|reflexivity]|intros x_PatternTypeFilter].
    dec_field (fun x : gostring => x); [apply dmap_id|intros x_PrincipalFilter].
    dec_field (fun x : gostring => x); [apply dmap_id|intros x_HostFilter].
    dec_field (fun x : Z => x); [apply dmap_id|intros x_Operation].
    dec_field (fun x : Z => x); [apply dmap_id|intros x_PermissionType].
    intros d; reflexivity.
Qed.
Local Opaque DeleteAclsFilter31_Size DeleteAclsFilter31_Encode DeleteAclsFilter31_Decode.

(** ** DeleteAclsRequest *)

(** message/messages.gen.go:8116-8118 *)
Record DeleteAclsRequest : Type := mkDeleteAclsRequest { DeleteAclsRequest_Filters : gslice DeleteAclsFilter31 }.
(** the zero value ([var item DeleteAclsRequest]) *)
Definition DeleteAclsRequest_zero : DeleteAclsRequest := mkDeleteAclsRequest None.
(** message/messages.gen.go:8121-8128 *)
Definition DeleteAclsRequest_Size (version : Z) (t : DeleteAclsRequest) : Z :=
  ((size_loop (DeleteAclsFilter31_Size version) (DeleteAclsRequest_Filters t)) +>
   size_done)%size 0.
(** message/messages.gen.go:8131-8138 *)
Definition DeleteAclsRequest_Encode (version : Z) (t : DeleteAclsRequest) : Encoder -> Encoder :=
  ((put_array (DeleteAclsFilter31_Encode version) (DeleteAclsRequest_Filters t)) >>
   skip)%enc.
(** message/messages.gen.go:8141-8157 *)
Definition DeleteAclsRequest_Decode (version : Z) (t : DeleteAclsRequest) : Dec DeleteAclsRequest :=
  x_Filters <- (dec_array (DeleteAclsFilter31_Decode version DeleteAclsFilter31_zero) (DeleteAclsRequest_Filters t)) ;;
  ret (mkDeleteAclsRequest x_Filters).
(** the struct declaration read as a schema; version ranges as in Size *)
Definition DeleteAclsRequest_schema : fields :=
  FCons "Filters" Always (TArray DeleteAclsFilter31_schema) FNil.
Definition DeleteAclsRequest_to (t : DeleteAclsRequest) : dens DeleteAclsRequest_schema := (option_map (map DeleteAclsFilter31_to) (DeleteAclsRequest_Filters t), tt).
Definition DeleteAclsRequest_of (x : dens DeleteAclsRequest_schema) : DeleteAclsRequest := mkDeleteAclsRequest (option_map (map DeleteAclsFilter31_of) (fst x)).
Definition DeleteAclsRequest_codec : codec := Codec DeleteAclsRequest DeleteAclsRequest_zero DeleteAclsRequest_Size DeleteAclsRequest_Encode DeleteAclsRequest_Decode DeleteAclsRequest_schema DeleteAclsRequest_to DeleteAclsRequest_of.
Lemma DeleteAclsRequest_linked : linked DeleteAclsRequest_codec.
Proof.
  apply Linked; cbn [DeleteAclsRequest_codec c_type c_zero c_size c_encode c_decode c_schema c_to c_of].
  - intros t. destruct t. cbv [DeleteAclsRequest_of DeleteAclsRequest_to]. cbn [fst snd DeleteAclsRequest_Filters]. rewrite ?(option_map_map_inv DeleteAclsFilter31_to DeleteAclsFilter31_of _ (l_of_to _ DeleteAclsFilter31_linked)). reflexivity.
  - intros x. unfold DeleteAclsRequest_schema in x. cbn [dens den] in x. destruct x as [x0 x]. destruct x. cbv [DeleteAclsRequest_of DeleteAclsRequest_to]. cbn [fst snd DeleteAclsRequest_Filters]. rewrite ?(option_map_map_inv DeleteAclsFilter31_of DeleteAclsFilter31_to _ (l_to_of _ DeleteAclsFilter31_linked)). reflexivity.
  - reflexivity.
  - intros v t. unfold DeleteAclsRequest_Size, DeleteAclsRequest_schema, DeleteAclsRequest_to. apply size_start.
    apply size_step; [intros sz; apply (size_field_link (DeleteAclsFilter31_Size v) DeleteAclsFilter31_schema DeleteAclsFilter31_to v (l_size _ DeleteAclsFilter31_linked v) true)|].
    intros sz; reflexivity.
  - intros v t. unfold DeleteAclsRequest_Encode, DeleteAclsRequest_schema, DeleteAclsRequest_to.
    apply enc_step; [intros e; apply (put_field_link (DeleteAclsFilter31_Encode v) DeleteAclsFilter31_schema DeleteAclsFilter31_to v (l_encode _ DeleteAclsFilter31_linked v) true)|].
    intros e; reflexivity.
  - intros v t. unfold DeleteAclsRequest_Decode, DeleteAclsRequest_schema, DeleteAclsRequest_to.
    dec_field (option_map (map DeleteAclsFilter31_of)); [apply (dec_array_link _ _ DeleteAclsFilter31_of DeleteAclsFilter31_to (l_decode _ DeleteAclsFilter31_linked v DeleteAclsFilter31_zero) (l_of_to _ DeleteAclsFilter31_linked))|intros x_Filters].
    intros d; reflexivity.
Qed.
Local Opaque DeleteAclsRequest_Size DeleteAclsRequest_Encode DeleteAclsRequest_Decode.

(** ** DeleteAclsMatchingAcl31 *)

(** message/messages.gen.go:8341-8351 *)
Record DeleteAclsMatchingAcl31 : Type := mkDeleteAclsMatchingAcl31 { DeleteAclsMatchingAcl31_ErrorCode : Z; DeleteAclsMatchingAcl31_ErrorMessage : gostring; DeleteAclsMatchingAcl31_ResourceType : Z; DeleteAclsMatchingAcl31_ResourceName : gostring; DeleteAclsMatchingAcl31_PatternType : Z; DeleteAclsMatchingAcl31_Principal : gostring; DeleteAclsMatchingAcl31_Host : gostring; DeleteAclsMatchingAcl31_Operation : Z; DeleteAclsMatchingAcl31_PermissionType : Z }.
(** the zero value ([var item DeleteAclsMatchingAcl31]) *)
Definition DeleteAclsMatchingAcl31_zero : DeleteAclsMatchingAcl31 := mkDeleteAclsMatchingAcl31 0 [] 0 [] 0 [] [] 0 0.
(** message/messages.gen.go:8354-8368 *)
Definition DeleteAclsMatchingAcl31_Size (version : Z) (t : DeleteAclsMatchingAcl31) : Z :=
  ((size_add sz_Int16) +>
   (size_add (sz_String (DeleteAclsMatchingAcl31_ErrorMessage t))) +>
   (size_add sz_Int8) +>
   (size_add (sz_String (DeleteAclsMatchingAcl31_ResourceName t))) +>
   size_if (1 <=? version) (size_add sz_Int8) +>
   (size_add (sz_String (DeleteAclsMatchingAcl31_Principal t))) +>
   (size_add (sz_String (DeleteAclsMatchingAcl31_Host t))) +>
   (size_add sz_Int8) +>
   (size_add sz_Int8) +>
   size_done)%size 0.
(** message/messages.gen.go:8371-8383 *)
Definition DeleteAclsMatchingAcl31_Encode (version : Z) (t : DeleteAclsMatchingAcl31) : Encoder -> Encoder :=
  ((PutInt16 (DeleteAclsMatchingAcl31_ErrorCode t)) >>
   (PutString (DeleteAclsMatchingAcl31_ErrorMessage t)) >>
   (PutInt8 (DeleteAclsMatchingAcl31_ResourceType t)) >>
   (PutString (DeleteAclsMatchingAcl31_ResourceName t)) >>
   put_if (1 <=? version) (PutInt8 (DeleteAclsMatchingAcl31_PatternType t)) >>
   (PutString (DeleteAclsMatchingAcl31_Principal t)) >>
   (PutString (DeleteAclsMatchingAcl31_Host t)) >>
   (PutInt8 (DeleteAclsMatchingAcl31_Operation t)) >>
   (PutInt8 (DeleteAclsMatchingAcl31_PermissionType t)) >>
   skip)%enc.
(** message/messages.gen.go:8386-8427 *)
Definition DeleteAclsMatchingAcl31_Decode (version : Z) (t : DeleteAclsMatchingAcl31) : Dec DeleteAclsMatchingAcl31 :=
  x_ErrorCode <- dInt16 ;;
  x_ErrorMessage <- dString ;;
  x_ResourceType <- dInt8 ;;
  x_ResourceName <- dString ;;
  x_PatternType <- dec_if (1 <=? version) dInt8 (DeleteAclsMatchingAcl31_PatternType t) ;;
  x_Principal <- dString ;;
  x_Host <- dString ;;
  x_Operation <- dInt8 ;;
  x_PermissionType <- dInt8 ;;
  ret (mkDeleteAclsMatchingAcl31 x_ErrorCode x_ErrorMessage x_ResourceType x_ResourceName x_PatternType x_Principal x_Host x_Operation x_PermissionType).
(** the struct declaration read as a schema; version ranges as in Size *)
Definition DeleteAclsMatchingAcl31_schema : fields :=
  FCons "ErrorCode" Always TInt16
  (FCons "ErrorMessage" Always TString
  (FCons "ResourceType" Always TInt8
  (FCons "ResourceName" Always TString
  (FCons "PatternType" (From 1) TInt8
  (FCons "Principal" Always TString
  (FCons "Host" Always TString
  (FCons "Operation" Always TInt8
  (FCons "PermissionType" Always TInt8 FNil)))))))).
Definition DeleteAclsMatchingAcl31_to (t : DeleteAclsMatchingAcl31) : dens DeleteAclsMatchingAcl31_schema := (DeleteAclsMatchingAcl31_ErrorCode t, (DeleteAclsMatchingAcl31_ErrorMessage t, (DeleteAclsMatchingAcl31_ResourceType t, (DeleteAclsMatchingAcl31_ResourceName t, (DeleteAclsMatchingAcl31_PatternType t, (DeleteAclsMatchingAcl31_Principal t, (DeleteAclsMatchingAcl31_Host t, (DeleteAclsMatchingAcl31_Operation t, (DeleteAclsMatchingAcl31_PermissionType t, tt))))))))).
Definition DeleteAclsMatchingAcl31_of (x : dens DeleteAclsMatchingAcl31_schema) : DeleteAclsMatchingAcl31 := mkDeleteAclsMatchingAcl31 (fst x) (fst (snd x)) (fst (snd (snd x))) (fst (snd (snd (snd x)))) (fst (snd (snd (snd (snd x))))) (fst (snd (snd (snd (snd (snd x)))))) (fst (snd (snd (snd (snd (snd (snd x))))))) (fst (snd (snd (snd (snd (snd (snd (snd x)))))))) (fst (snd (snd (snd (snd (snd (snd (snd (snd x))))))))).
Definition DeleteAclsMatchingAcl31_codec : codec := Codec DeleteAclsMatchingAcl31 DeleteAclsMatchingAcl31_zero DeleteAclsMatchingAcl31_Size DeleteAclsMatchingAcl31_Encode DeleteAclsMatchingAcl31_Decode DeleteAclsMatchingAcl31_schema DeleteAclsMatchingAcl31_to DeleteAclsMatchingAcl31_of.
Lemma DeleteAclsMatchingAcl31_linked : linked DeleteAclsMatchingAcl31_codec.
Proof.
  apply Linked; cbn [DeleteAclsMatchingAcl31_codec c_type c_zero c_size c_encode c_decode c_schema c_to c_of].
  - intros t. destruct t. cbv [DeleteAclsMatchingAcl31_of DeleteAclsMatchingAcl31_to]. cbn [fst snd DeleteAclsMatchingAcl31_ErrorCode DeleteAclsMatchingAcl31_ErrorMessage DeleteAclsMatchingAcl31_ResourceType DeleteAclsMatchingAcl31_ResourceName DeleteAclsMatchingAcl31_PatternType DeleteAclsMatchingAcl31_Principal DeleteAclsMatchingAcl31_Host DeleteAclsMatchingAcl31_Operation DeleteAclsMatchingAcl31_PermissionType].  reflexivity.
  - intros x. unfold DeleteAclsMatchingAcl31_schema in x. cbn [dens den] in x. destruct x as [x0 x]. destruct x as [x1 x]. destruct x as [x2 x]. destruct x as [x3 x]. destruct x as [x4 x]. destruct x as [x5 x]. destruct x as [x6 x]. destruct x as [x7 x]. destruct x as [x8 x]. destruct x. cbv [DeleteAclsMatchingAcl31_of DeleteAclsMatchingAcl31_to]. cbn [fst snd DeleteAclsMatchingAcl31_ErrorCode DeleteAclsMatchingAcl31_ErrorMessage DeleteAclsMatchingAcl31_ResourceType DeleteAclsMatchingAcl31_ResourceName DeleteAclsMatchingAcl31_PatternType DeleteAclsMatchingAcl31_Principal DeleteAclsMatchingAcl31_Host DeleteAclsMatchingAcl31_Operation DeleteAclsMatchingAcl31_PermissionType].  reflexivity.
  - reflexivity.
  - intros v t. unfold DeleteAclsMatchingAcl31_Size, DeleteAclsMatchingAcl31_schema, DeleteAclsMatchingAcl31_to. apply size_start.
    apply size_step; [intros sz; reflexivity|].
    apply size_step; [intros sz; reflexivity|].
    apply size_step; [intros sz; reflexivity|].
    apply size_step; [intros sz; reflexivity|].
    apply size_step; [intros sz; reflexivity|].
    apply size_step; [intros sz; reflexivity|].
    apply size_step; [intros sz; reflexivity|].
    apply size_step; [intros sz; reflexivity|].
    apply size_step; [intros sz; reflexivity|].
    intros sz; reflexivity.
  - intros v t. unfold DeleteAclsMatchingAcl31_Encode, DeleteAclsMatchingAcl31_schema, DeleteAclsMatchingAcl31_to.
    apply enc_step; [intros e; reflexivity|].
    apply enc_step; [intros e; reflexivity|].
    apply enc_step; [intros e; reflexivity|].
    apply enc_step; [intros e; reflexivity|].
    apply enc_step; [intros e; reflexivity|].
    apply enc_step; [intros e; reflexivity|].
    apply enc_step; [intros e; reflexivity|].
    apply enc_step; [intros e; reflexivity|].
    apply enc_step; [intros e; reflexivity|].
    intros e; reflexivity.
  - intros v t. unfold DeleteAclsMatchingAcl31_Decode, DeleteAclsMatchingAcl31_schema, DeleteAclsMatchingAcl31_to.
    dec_field (fun x : Z => x); [apply dmap_id|intros x_ErrorCode].
    dec_field (fun x : gostring => x); [apply dmap_id|intros x_ErrorMessage].
    dec_field (fun x : Z => x); [apply dmap_id|intros x_ResourceType].
    dec_field (fun x : gostring => x); [apply dmap_id|intros x_ResourceName].
    dec_field (fun x : Z => x); [apply dec_if_link; [apply dmap_id|reflexivity]|intros x_PatternType].
    dec_field (fun x : gostring => x); [apply dmap_id|intros x_Principal].
    dec_field (fun x : gostring => x); [apply dmap_id|intros x_Host].
    dec_field (fun x : Z => x); [apply dmap_id|intros x_Operation].
    dec_field (fun x : Z => x); [apply dmap_id|intros x_PermissionType].
    intros d; reflexivity.
Qed.
Local Opaque DeleteAclsMatchingAcl31_Size DeleteAclsMatchingAcl31_Encode DeleteAclsMatchingAcl31_Decode.

(** ** DeleteAclsFilterResult31 *)

(** message/messages.gen.go:8284-8288 *)
Record DeleteAclsFilterResult31 : Type := mkDeleteAclsFilterResult31 { DeleteAclsFilterResult31_ErrorCode : Z; DeleteAclsFilterResult31_ErrorMessage : gostring; DeleteAclsFilterResult31_MatchingAcls : gslice DeleteAclsMatchingAcl31 }.
(** the zero value ([var item DeleteAclsFilterResult31]) *)
Definition DeleteAclsFilterResult31_zero : DeleteAclsFilterResult31 := mkDeleteAclsFilterResult31 0 [] None.
(** message/messages.gen.go:8291-8300 *)
Definition DeleteAclsFilterResult31_Size (version : Z) (t : DeleteAclsFilterResult31) : Z :=
  ((size_add sz_Int16) +>
   (size_add (sz_String (DeleteAclsFilterResult31_ErrorMessage t))) +>
   (size_loop (DeleteAclsMatchingAcl31_Size version) (DeleteAclsFilterResult31_MatchingAcls t)) +>
   size_done)%size 0.
(** message/messages.gen.go:8303-8312 *)
Definition DeleteAclsFilterResult31_Encode (version : Z) (t : DeleteAclsFilterResult31) : Encoder -> Encoder :=
  ((PutInt16 (DeleteAclsFilterResult31_ErrorCode t)) >>
   (PutString (DeleteAclsFilterResult31_ErrorMessage t)) >>
   (put_array (DeleteAclsMatchingAcl31_Encode version) (DeleteAclsFilterResult31_MatchingAcls t)) >>
   skip)%enc.
(** message/messages.gen.go:8315-8339 *)
Definition DeleteAclsFilterResult31_Decode (version : Z) (t : DeleteAclsFilterResult31) : Dec DeleteAclsFilterResult31 :=
  x_ErrorCode <- dInt16 ;;
  x_ErrorMessage <- dString ;;
  x_MatchingAcls <- (dec_array (DeleteAclsMatchingAcl31_Decode version DeleteAclsMatchingAcl31_zero) (DeleteAclsFilterResult31_MatchingAcls t)) ;;
  ret (mkDeleteAclsFilterResult31 x_ErrorCode x_ErrorMessage x_MatchingAcls).
(** the struct declaration read as a schema; version ranges as in Size *)
Definition DeleteAclsFilterResult31_schema : fields :=
  FCons "ErrorCode" Always TInt16
  (FCons "ErrorMessage" Always TString
  (FCons "MatchingAcls" Always (TArray DeleteAclsMatchingAcl31_schema) FNil)).
Definition DeleteAclsFilterResult31_to (t : DeleteAclsFilterResult31) : dens DeleteAclsFilterResult31_schema := (DeleteAclsFilterResult31_ErrorCode t, (DeleteAclsFilterResult31_ErrorMessage t, (option_map (map DeleteAclsMatchingAcl31_to) (DeleteAclsFilterResult31_MatchingAcls t), tt))).
Definition DeleteAclsFilterResult31_of (x : dens DeleteAclsFilterResult31_schema) : DeleteAclsFilterResult31 := mkDeleteAclsFilterResult31 (fst x) (fst (snd x)) (option_map (map DeleteAclsMatchingAcl31_of) (fst (snd (snd x)))).
Definition DeleteAclsFilterResult31_codec : codec := Codec DeleteAclsFilterResult31 DeleteAclsFilterResult31_zero DeleteAclsFilterResult31_Size DeleteAclsFilterResult31_Encode DeleteAclsFilterResult31_Decode DeleteAclsFilterResult31_schema DeleteAclsFilterResult31_to DeleteAclsFilterResult31_of.
Lemma DeleteAclsFilterResult31_linked : linked DeleteAclsFilterResult31_codec.
Proof.
  apply Linked; cbn [DeleteAclsFilterResult31_codec c_type c_zero c_size c_encode c_decode c_schema c_to c_of].
  - intros t. destruct t. cbv [DeleteAclsFilterResult31_of DeleteAclsFilterResult31_to]. cbn [fst snd DeleteAclsFilterResult31_ErrorCode DeleteAclsFilterResult31_ErrorMessage DeleteAclsFilterResult31_MatchingAcls]. rewrite ?(option_map_map_inv DeleteAclsMatchingAcl31_to DeleteAclsMatchingAcl31_of _ (l_of_to _ DeleteAclsMatchingAcl31_linked)). reflexivity.
  - intros x. unfold DeleteAclsFilterResult31_schema in x. cbn [dens den] in x. destruct x as [x0 x]. destruct x as [x1 x]. destruct x as [x2 x]. destruct x. cbv [DeleteAclsFilterResult31_of DeleteAclsFilterResult31_to]. cbn [fst snd DeleteAclsFilterResult31_ErrorCode DeleteAclsFilterResult31_ErrorMessage DeleteAclsFilterResult31_MatchingAcls]. rewrite ?(option_map_map_inv DeleteAclsMatchingAcl31_of DeleteAclsMatchingAcl31_to _ (l_to_of _ DeleteAclsMatchingAcl31_linked)). reflexivity.
  - reflexivity.
  - intros v t. unfold DeleteAclsFilterResult31_Size, DeleteAclsFilterResult31_schema, DeleteAclsFilterResult31_to. apply size_start.
    apply size_step; [intros sz; reflexivity|].
    apply size_step; [intros sz; reflexivity|].
    apply size_step; [intros sz; apply (size_field_link (DeleteAclsMatchingAcl31_Size v) DeleteAclsMatchingAcl31_schema DeleteAclsMatchingAcl31_to v (l_size _ DeleteAclsMatchingAcl31_linked v) true)|].
    intros sz; reflexivity.
  - intros v t. unfold DeleteAclsFilterResult31_Encode, DeleteAclsFilterResult31_schema, DeleteAclsFilterResult31_to.
    apply enc_step; [intros e; reflexivity|].
    apply enc_step; [intros e; reflexivity|].
    apply enc_step; [intros e; apply (put_field_link (DeleteAclsMatchingAcl31_Encode v) DeleteAclsMatchingAcl31_schema DeleteAclsMatchingAcl31_to v (l_encode _ DeleteAclsMatchingAcl31_linked v) true)|].
    intros e; reflexivity.
  - intros v t. unfold DeleteAclsFilterResult31_Decode, DeleteAclsFilterResult31_schema, DeleteAclsFilterResult31_to.
    dec_field (fun x : Z => x); [apply dmap_id|intros x_ErrorCode].
    dec_field (fun x : gostring => x); [apply dmap_id|intros x_ErrorMessage].
    dec_field (option_map (map DeleteAclsMatchingAcl31_of)); [apply (dec_array_link _ _ DeleteAclsMatchingAcl31_of DeleteAclsMatchingAcl31_to (l_decode _ DeleteAclsMatchingAcl31_linked v DeleteAclsMatchingAcl31_zero) (l_of_to _ DeleteAclsMatchingAcl31_linked))|intros x_MatchingAcls].
    intros d; reflexivity.
Qed.
Local Opaque DeleteAclsFilterResult31_Size DeleteAclsFilterResult31_Encode DeleteAclsFilterResult31_Decode.

(** ** DeleteAclsResponse *)

(** message/messages.gen.go:8234-8237 *)
Record DeleteAclsResponse : Type := mkDeleteAclsResponse { DeleteAclsResponse_ThrottleTimeMs : Z; DeleteAclsResponse_FilterResults : gslice DeleteAclsFilterResult31 }.
(** the zero value ([var item DeleteAclsResponse]) *)
Definition DeleteAclsResponse_zero : DeleteAclsResponse := mkDeleteAclsResponse 0 None.
(** message/messages.gen.go:8240-8248 *)
Definition DeleteAclsResponse_Size (version : Z) (t : DeleteAclsResponse) : Z :=
  ((size_add sz_Int32) +>
   (size_loop (DeleteAclsFilterResult31_Size version) (DeleteAclsResponse_FilterResults t)) +>
   size_done)%size 0.
(** message/messages.gen.go:8251-8259 *)
Definition DeleteAclsResponse_Encode (version : Z) (t : DeleteAclsResponse) : Encoder -> Encoder :=
  ((PutInt32 (DeleteAclsResponse_ThrottleTimeMs t)) >>
   (put_array (DeleteAclsFilterResult31_Encode version) (DeleteAclsResponse_FilterResults t)) >>
   skip)%enc.
(** message/messages.gen.go:8262-8282 *)
Definition DeleteAclsResponse_Decode (version : Z) (t : DeleteAclsResponse) : Dec DeleteAclsResponse :=
  x_ThrottleTimeMs <- dInt32 ;;
  x_FilterResults <- (dec_array (DeleteAclsFilterResult31_Decode version DeleteAclsFilterResult31_zero) (DeleteAclsResponse_FilterResults t)) ;;
  ret (mkDeleteAclsResponse x_ThrottleTimeMs x_FilterResults).
(** the struct declaration read as a schema; version ranges as in Size *)
Definition DeleteAclsResponse_schema : fields :=
  FCons "ThrottleTimeMs" Always TInt32
  (FCons "FilterResults" Always (TArray DeleteAclsFilterResult31_schema) FNil).
Definition DeleteAclsResponse_to (t : DeleteAclsResponse) : dens DeleteAclsResponse_schema := (DeleteAclsResponse_ThrottleTimeMs t, (option_map (map DeleteAclsFilterResult31_to) (DeleteAclsResponse_FilterResults t), tt)).
Definition DeleteAclsResponse_of (x : dens DeleteAclsResponse_schema) : DeleteAclsResponse := mkDeleteAclsResponse (fst x) (option_map (map DeleteAclsFilterResult31_of) (fst (snd x))).
Definition DeleteAclsResponse_codec : codec := Codec DeleteAclsResponse DeleteAclsResponse_zero DeleteAclsResponse_Size DeleteAclsResponse_Encode DeleteAclsResponse_Decode DeleteAclsResponse_schema DeleteAclsResponse_to DeleteAclsResponse_of.
Lemma DeleteAclsResponse_linked : linked DeleteAclsResponse_codec.
Proof.
  apply Linked; cbn [DeleteAclsResponse_codec c_type c_zero c_size c_encode c_decode c_schema c_to c_of].
  - intros t. destruct t. cbv [DeleteAclsResponse_of DeleteAclsResponse_to]. cbn [fst snd DeleteAclsResponse_ThrottleTimeMs DeleteAclsResponse_FilterResults]. rewrite ?(option_map_map_inv DeleteAclsFilterResult31_to DeleteAclsFilterResult31_of _ (l_of_to _ DeleteAclsFilterResult31_linked)). reflexivity.
  - intros x. unfold DeleteAclsResponse_schema in x. cbn [dens den] in x. destruct x as [x0 x]. destruct x as [x1 x]. destruct x. cbv [DeleteAclsResponse_of DeleteAclsResponse_to]. cbn [fst snd DeleteAclsResponse_ThrottleTimeMs DeleteAclsResponse_FilterResults]. rewrite ?(option_map_map_inv DeleteAclsFilterResult31_of DeleteAclsFilterResult31_to _ (l_to_of _ DeleteAclsFilterResult31_linked)). reflexivity.
  - reflexivity.
  - intros v t. unfold DeleteAclsResponse_Size, DeleteAclsResponse_schema, DeleteAclsResponse_to. apply size_start.
    apply size_step; [intros sz; reflexivity|].
    apply size_step; [intros sz; apply (size_field_link (DeleteAclsFilterResult31_Size v) DeleteAclsFilterResult31_schema DeleteAclsFilterResult31_to v (l_size _ DeleteAclsFilterResult31_linked v) true)|].
    intros sz; reflexivity.
  - intros v t. unfold DeleteAclsResponse_Encode, DeleteAclsResponse_schema, DeleteAclsResponse_to.
    apply enc_step; [intros e; reflexivity|].
    apply enc_step; [intros e; apply (put_field_link (DeleteAclsFilterResult31_Encode v) DeleteAclsFilterResult31_schema DeleteAclsFilterResult31_to v (l_encode _ DeleteAclsFilterResult31_linked v) true)|].
    intros e; reflexivity.
  - intros v t. unfold DeleteAclsResponse_Decode, DeleteAclsResponse_schema, DeleteAclsResponse_to.
    dec_field (fun x : Z => x); [apply dmap_id|intros x_ThrottleTimeMs].
    dec_field (option_map (map DeleteAclsFilterResult31_of)); [apply (dec_array_link _ _ DeleteAclsFilterResult31_of DeleteAclsFilterResult31_to (l_decode _ DeleteAclsFilterResult31_linked v DeleteAclsFilterResult31_zero) (l_of_to _ DeleteAclsFilterResult31_linked))|intros x_FilterResults].
    intros d; reflexivity.
Qed.
Local Opaque DeleteAclsResponse_Size DeleteAclsResponse_Encode DeleteAclsResponse_Decode.

(** ** DescribeConfigsResource32 *)

(** message/messages.gen.go:8486-8490 *)
Record DescribeConfigsResource32 : Type := mkDescribeConfigsResource32 { DescribeConfigsResource32_ResourceType : Z; DescribeConfigsResource32_ResourceName : gostring; DescribeConfigsResource32_ConfigurationKeys : gslice gostring }.
(** the zero value ([var item DescribeConfigsResource32]) *)
Definition DescribeConfigsResource32_zero : DescribeConfigsResource32 := mkDescribeConfigsResource32 0 [] None.
(** message/messages.gen.go:8493-8499 *)
Definition DescribeConfigsResource32_Size (version : Z) (t : DescribeConfigsResource32) : Z :=
  ((size_add sz_Int8) +>
   (size_add (sz_String (DescribeConfigsResource32_ResourceName t))) +>
   (size_add (sz_StringArray (DescribeConfigsResource32_ConfigurationKeys t))) +>
   size_done)%size 0.
(** message/messages.gen.go:8502-8506 *)
Definition DescribeConfigsResource32_Encode (version : Z) (t : DescribeConfigsResource32) : Encoder -> Encoder :=
  ((PutInt8 (DescribeConfigsResource32_ResourceType t)) >>
   (PutString (DescribeConfigsResource32_ResourceName t)) >>
   (PutStringArray (DescribeConfigsResource32_ConfigurationKeys t)) >>
   skip)%enc.
(** message/messages.gen.go:8509-8524 *)
Definition DescribeConfigsResource32_Decode (version : Z) (t : DescribeConfigsResource32) : Dec DescribeConfigsResource32 :=
  x_ResourceType <- dInt8 ;;
  x_ResourceName <- dString ;;
  x_ConfigurationKeys <- dStringArray ;;
  ret (mkDescribeConfigsResource32 x_ResourceType x_ResourceName x_ConfigurationKeys).
(** the struct declaration read as a schema; version ranges as in Size *)
Definition DescribeConfigsResource32_schema : fields :=
  FCons "ResourceType" Always TInt8
  (FCons "ResourceName" Always TString
  (FCons "ConfigurationKeys" Always TStringArray FNil)).
Definition DescribeConfigsResource32_to (t : DescribeConfigsResource32) : dens DescribeConfigsResource32_schema := (DescribeConfigsResource32_ResourceType t, (DescribeConfigsResource32_ResourceName t, (DescribeConfigsResource32_ConfigurationKeys t, tt))).
Definition DescribeConfigsResource32_of (x : dens DescribeConfigsResource32_schema) : DescribeConfigsResource32 := mkDescribeConfigsResource32 (fst x) (fst (snd x)) (fst (snd (snd x))).
Definition DescribeConfigsResource32_codec : codec := Codec DescribeConfigsResource32 DescribeConfigsResource32_zero DescribeConfigsResource32_Size DescribeConfigsResource32_Encode DescribeConfigsResource32_Decode DescribeConfigsResource32_schema DescribeConfigsResource32_to DescribeConfigsResource32_of.
Lemma DescribeConfigsResource32_linked : linked DescribeConfigsResource32_codec.
Proof.
  apply Linked; cbn [DescribeConfigsResource32_codec c_type c_zero c_size c_encode c_decode c_schema c_to c_of].
  - intros t. destruct t. cbv [DescribeConfigsResource32_of DescribeConfigsResource32_to]. cbn [fst snd DescribeConfigsResource32_ResourceType DescribeConfigsResource32_ResourceName DescribeConfigsResource32_ConfigurationKeys].  reflexivity.
  - intros x. unfold DescribeConfigsResource32_schema in x. cbn [dens den] in x. destruct x as [x0 x]. destruct x as [x1 x]. destruct x as [x2 x]. destruct x. cbv [DescribeConfigsResource32_of DescribeConfigsResource32_to]. cbn [fst snd DescribeConfigsResource32_ResourceType DescribeConfigsResource32_ResourceName DescribeConfigsResource32_ConfigurationKeys].  reflexivity.
  - reflexivity.
  - intros v t. unfold DescribeConfigsResource32_Size, DescribeConfigsResource32_schema, DescribeConfigsResource32_to. apply size_start.
    apply size_step; [intros sz; reflexivity|].
    apply size_step; [intros sz; reflexivity|].
    apply size_step; [intros sz; reflexivity|].
    intros sz; reflexivity.
  - intros v t. unfold DescribeConfigsResource32_Encode, DescribeConfigsResource32_schema, DescribeConfigsResource32_to.
    apply enc_step; [intros e; reflexivity|].
    apply enc_step; [intros e; reflexivity|].
    apply enc_step; [intros e; reflexivity|].
    intros e; reflexivity.
  - intros v t. unfold DescribeConfigsResource32_Decode, DescribeConfigsResource32_schema, DescribeConfigsResource32_to.
    dec_field (fun x : Z => x); [apply dmap_id|intros x_ResourceType].
    dec_field (fun x : gostring => x); [apply dmap_id|intros x_ResourceName].
    dec_field (fun x : gslice gostring => x); [apply dmap_id|intros x_ConfigurationKeys].
    intros d; reflexivity.
Qed.
Local Opaque DescribeConfigsResource32_Size DescribeConfigsResource32_Encode DescribeConfigsResource32_Decode.

(** ** DescribeConfigsRequest *)

(** message/messages.gen.go:8430-8433 *)
Record DescribeConfigsRequest : Type := mkDescribeConfigsRequest { DescribeConfigsRequest_Resources : gslice DescribeConfigsResource32; DescribeConfigsRequest_IncludeSynoyms : bool }.
(** the zero value ([var item DescribeConfigsRequest]) *)
Definition DescribeConfigsRequest_zero : DescribeConfigsRequest := mkDescribeConfigsRequest None false.
(** message/messages.gen.go:8436-8446 *)
Definition DescribeConfigsRequest_Size (version : Z) (t : DescribeConfigsRequest) : Z :=
  ((size_loop (DescribeConfigsResource32_Size version) (DescribeConfigsRequest_Resources t)) +>
   size_if (1 <=? version) (size_add sz_Bool) +>
   size_done)%size 0.
(** message/messages.gen.go:8449-8459 *)
Definition DescribeConfigsRequest_Encode (version : Z) (t : DescribeConfigsRequest) : Encoder -> Encoder :=
  ((put_array (DescribeConfigsResource32_Encode version) (DescribeConfigsRequest_Resources t)) >>
   put_if (1 <=? version) (PutBool (DescribeConfigsRequest_IncludeSynoyms t)) >>
   skip)%enc.
(** message/messages.gen.go:8462-8484 *)
Definition DescribeConfigsRequest_Decode (version : Z) (t : DescribeConfigsRequest) : Dec DescribeConfigsRequest :=
  x_Resources <- (dec_array (DescribeConfigsResource32_Decode version DescribeConfigsResource32_zero) (DescribeConfigsRequest_Resources t)) ;;
  x_IncludeSynoyms <- dec_if (1 <=? version) dBool (DescribeConfigsRequest_IncludeSynoyms t) ;;
  ret (mkDescribeConfigsRequest x_Resources x_IncludeSynoyms).
(** the struct declaration read as a schema; version ranges as in Size *)
Definition DescribeConfigsRequest_schema : fields :=
  FCons "Resources" Always (TArray DescribeConfigsResource32_schema)
  (FCons "IncludeSynoyms" (From 1) TBool FNil).
Definition DescribeConfigsRequest_to (t : DescribeConfigsRequest) : dens DescribeConfigsRequest_schema := (option_map (map DescribeConfigsResource32_to) (DescribeConfigsRequest_Resources t), (DescribeConfigsRequest_IncludeSynoyms t, tt)).
Definition DescribeConfigsRequest_of (x : dens DescribeConfigsRequest_schema) : DescribeConfigsRequest := mkDescribeConfigsRequest (option_map (map DescribeConfigsResource32_of) (fst x)) (fst (snd x)).
Definition DescribeConfigsRequest_codec : codec := Codec DescribeConfigsRequest DescribeConfigsRequest_zero DescribeConfigsRequest_Size DescribeConfigsRequest_Encode DescribeConfigsRequest_Decode DescribeConfigsRequest_schema DescribeConfigsRequest_to DescribeConfigsRequest_of.
Lemma DescribeConfigsRequest_linked : linked DescribeConfigsRequest_codec.
Proof.
  apply Linked; cbn [DescribeConfigsRequest_codec c_type c_zero c_size c_encode c_decode c_schema c_to c_of].
  - intros t. destruct t. cbv [DescribeConfigsRequest_of DescribeConfigsRequest_to]. cbn [fst snd DescribeConfigsRequest_Resources DescribeConfigsRequest_IncludeSynoyms]. rewrite ?(option_map_map_inv DescribeConfigsResource32_to DescribeConfigsResource32_of _ (l_of_to _ DescribeConfigsResource32_linked)). reflexivity.
  - intros x. unfold DescribeConfigsRequest_schema in x. cbn [dens den] in x. destruct x as [x0 x]. destruct x as [x1 x]. destruct x. cbv [DescribeConfigsRequest_of DescribeConfigsRequest_to]. cbn [fst snd DescribeConfigsRequest_Resources DescribeConfigsRequest_IncludeSynoyms]. rewrite ?(option_map_map_inv DescribeConfigsResource32_of DescribeConfigsResource32_to _ (l_to_of _ DescribeConfigsResource32_linked)). reflexivity.
  - reflexivity.
  - intros v t. unfold DescribeConfigsRequest_Size, DescribeConfigsRequest_schema, DescribeConfigsRequest_to. apply size_start.
    apply size_step; [intros sz; apply (size_field_link (DescribeConfigsResource32_Size v) DescribeConfigsResource32_schema DescribeConfigsResource32_to v (l_size _ DescribeConfigsResource32_linked v) true)|].
    apply size_step; [intros sz; reflexivity|].
    intros sz; reflexivity.
  - intros v t. unfold DescribeConfigsRequest_Encode, DescribeConfigsRequest_schema, DescribeConfigsRequest_to.
    apply enc_step; [intros e; apply (put_field_link (DescribeConfigsResource32_Encode v) DescribeConfigsResource32_schema DescribeConfigsResource32_to v (l_encode _ DescribeConfigsResource32_linked v) true)|].
    apply enc_step; [intros e; reflexivity|].
    intros e; reflexivity.
  - intros v t. unfold DescribeConfigsRequest_Decode, DescribeConfigsRequest_schema, DescribeConfigsRequest_to.
    dec_field (option_map (map DescribeConfigsResource32_of)); [apply (dec_array_link _ _ DescribeConfigsResource32_of DescribeConfigsResource32_to (l_decode _ DescribeConfigsResource32_linked v DescribeConfigsResource32_zero) (l_of_to _ DescribeConfigsResource32_linked))|intros x_Resources].
    dec_field (fun x : bool => x); [apply dec_if_link; [apply dmap_id|reflexivity]|intros x_IncludeSynoyms].
    intros d; reflexivity.
Qed.
Local Opaque DescribeConfigsRequest_Size DescribeConfigsRequest_Encode DescribeConfigsRequest_Decode.

(** ** DescribeConfigsSynonym32 *)

(** message/messages.gen.go:8751-8755 *)
Record DescribeConfigsSynonym32 : Type := mkDescribeConfigsSynonym32 { DescribeConfigsSynonym32_Name : gostring; DescribeConfigsSynonym32_Value : gostring; DescribeConfigsSynonym32_Source : Z }.
(** the zero value ([var item DescribeConfigsSynonym32]) *)
Definition DescribeConfigsSynonym32_zero : DescribeConfigsSynonym32 := mkDescribeConfigsSynonym32 [] [] 0.
(** message/messages.gen.go:8758-8770 *)
Definition DescribeConfigsSynonym32_Size (version : Z) (t : DescribeConfigsSynonym32) : Z :=
  (size_if (1 <=? version) (size_add (sz_String (DescribeConfigsSynonym32_Name t))) +>
   size_if (1 <=? version) (size_add (sz_String (DescribeConfigsSynonym32_Value t))) +>
   size_if (1 <=? version) (size_add sz_Int8) +>
   size_done)%size 0.
(** message/messages.gen.go:8773-8783 *)
Definition DescribeConfigsSynonym32_Encode (version : Z) (t : DescribeConfigsSynonym32) : Encoder -> Encoder :=
  (put_if (1 <=? version) (PutString (DescribeConfigsSynonym32_Name t)) >>
   put_if (1 <=? version) (PutString (DescribeConfigsSynonym32_Value t)) >>
   put_if (1 <=? version) (PutInt8 (DescribeConfigsSynonym32_Source t)) >>
   skip)%enc.
(** message/messages.gen.go:8786-8807 *)
Definition DescribeConfigsSynonym32_Decode (version : Z) (t : DescribeConfigsSynonym32) : Dec DescribeConfigsSynonym32 :=
  x_Name <- dec_if (1 <=? version) dString (DescribeConfigsSynonym32_Name t) ;;
  x_Value <- dec_if (1 <=? version) dString (DescribeConfigsSynonym32_Value t) ;;
  x_Source <- dec_if (1 <=? version) dInt8 (DescribeConfigsSynonym32_Source t) ;;
  ret (mkDescribeConfigsSynonym32 x_Name x_Value x_Source).
(** the struct declaration read as a schema; version ranges as in Size *)
Definition DescribeConfigsSynonym32_schema : fields :=
  FCons "Name" (From 1) TString
  (FCons "Value" (From 1) TString
  (FCons "Source" (From 1) TInt8 FNil)).
Definition DescribeConfigsSynonym32_to (t : DescribeConfigsSynonym32) : dens DescribeConfigsSynonym32_schema := (DescribeConfigsSynonym32_Name t, (DescribeConfigsSynonym32_Value t, (DescribeConfigsSynonym32_Source t, tt))).
Definition DescribeConfigsSynonym32_of (x : dens DescribeConfigsSynonym32_schema) : DescribeConfigsSynonym32 := mkDescribeConfigsSynonym32 (fst x) (fst (snd x)) (fst (snd (snd x))).
Definition DescribeConfigsSynonym32_codec : codec := Codec DescribeConfigsSynonym32 DescribeConfigsSynonym32_zero DescribeConfigsSynonym32_Size DescribeConfigsSynonym32_Encode DescribeConfigsSynonym32_Decode DescribeConfigsSynonym32_schema DescribeConfigsSynonym32_to DescribeConfigsSynonym32_of.
Lemma DescribeConfigsSynonym32_linked : linked DescribeConfigsSynonym32_codec.
Proof.
  apply Linked; cbn [DescribeConfigsSynonym32_codec c_type c_zero c_size c_encode c_decode c_schema c_to c_of].
  - intros t. destruct t. cbv [DescribeConfigsSynonym32_of DescribeConfigsSynonym32_to]. cbn [fst snd DescribeConfigsSynonym32_Name DescribeConfigsSynonym32_Value DescribeConfigsSynonym32_Source].  reflexivity.
  - intros x. unfold DescribeConfigsSynonym32_schema in x. cbn [dens den] in x. destruct x as [x0 x]. destruct x as [x1 x]. destruct x as [x2 x]. destruct x. cbv [DescribeConfigsSynonym32_of DescribeConfigsSynonym32_to]. cbn [fst snd DescribeConfigsSynonym32_Name DescribeConfigsSynonym32_Value DescribeConfigsSynonym32_Source].  reflexivity.
  - reflexivity.
  - intros v t. unfold DescribeConfigsSynonym32_Size, DescribeConfigsSynonym32_schema, DescribeConfigsSynonym32_to. apply size_start.
    apply size_step; [intros sz; reflexivity|].
    apply size_step; [intros sz; reflexivity|].
    apply size_step; [intros sz; reflexivity|].
    intros sz; reflexivity.
  - intros v t. unfold DescribeConfigsSynonym32_Encode, DescribeConfigsSynonym32_schema, DescribeConfigsSynonym32_to.
    apply enc_step; [intros e; reflexivity|].
    apply enc_step; [intros e; reflexivity|].
    apply enc_step; [intros e; reflexivity|].
    intros e; reflexivity.
  - intros v t. unfold DescribeConfigsSynonym32_Decode, DescribeConfigsSynonym32_schema, DescribeConfigsSynonym32_to.
    dec_field (fun x : gostring => x); [apply dec_if_link; [apply dmap_id|reflexivity]|intros x_Name].
    dec_field (fun x : gostring => x); [apply dec_if_link; [apply dmap_id|reflexivity]|intros x_Value].
    dec_field (fun x : Z => x); [apply dec_if_link; [apply dmap_id|reflexivity]|intros x_Source].
    intros d; reflexivity.
Qed.
Local Opaque DescribeConfigsSynonym32_Size DescribeConfigsSynonym32_Encode DescribeConfigsSynonym32_Decode.

(** ** DescribeConfigsResourceResult32 *)

(** message/messages.gen.go:8648-8656 *)
Record DescribeConfigsResourceResult32 : Type := mkDescribeConfigsResourceResult32 { DescribeConfigsResourceResult32_Name : gostring; DescribeConfigsResourceResult32_Value : gostring; DescribeConfigsResourceResult32_ReadOnly : bool; DescribeConfigsResourceResult32_IsDefault : bool; DescribeConfigsResourceResult32_ConfigSource : Z; DescribeConfigsResourceResult32_IsSensitive : bool; DescribeConfigsResourceResult32_Synonyms : gslice DescribeConfigsSynonym32 }.
(** the zero value ([var item DescribeConfigsResourceResult32]) *)
Definition DescribeConfigsResourceResult32_zero : DescribeConfigsResourceResult32 := mkDescribeConfigsResourceResult32 [] [] false false 0 false None.
(** message/messages.gen.go:8659-8678 *)
Definition DescribeConfigsResourceResult32_Size (version : Z) (t : DescribeConfigsResourceResult32) : Z :=
  ((size_add (sz_String (DescribeConfigsResourceResult32_Name t))) +>
   (size_add (sz_String (DescribeConfigsResourceResult32_Value t))) +>
   (size_add sz_Bool) +>
   size_if ((0 <=? version) && (version <=? 0)) (size_add sz_Bool) +>
   size_if (1 <=? version) (size_add sz_Int8) +>
   (size_add sz_Bool) +>
   size_if (1 <=? version) (size_loop (DescribeConfigsSynonym32_Size version) (DescribeConfigsResourceResult32_Synonyms t)) +>
   size_done)%size 0.
(** message/messages.gen.go:8681-8700 *)
Definition DescribeConfigsResourceResult32_Encode (version : Z) (t : DescribeConfigsResourceResult32) : Encoder -> Encoder :=
  ((PutString (DescribeConfigsResourceResult32_Name t)) >>
   (PutString (DescribeConfigsResourceResult32_Value t)) >>
   (PutBool (DescribeConfigsResourceResult32_ReadOnly t)) >>
   put_if ((0 <=? version) && (version <=? 0)) (PutBool (DescribeConfigsResourceResult32_IsDefault t)) >>
   put_if (1 <=? version) (PutInt8 (DescribeConfigsResourceResult32_ConfigSource t)) >>
   (PutBool (DescribeConfigsResourceResult32_IsSensitive t)) >>
   put_if (1 <=? version) (put_array (DescribeConfigsSynonym32_Encode version) (DescribeConfigsResourceResult32_Synonyms t)) >>
   skip)%enc.
(** message/messages.gen.go:8703-8749 *)
Definition DescribeConfigsResourceResult32_Decode (version : Z) (t : DescribeConfigsResourceResult32) : Dec DescribeConfigsResourceResult32 :=
  x_Name <- dString ;;
  x_Value <- dString ;;
  x_ReadOnly <- dBool ;;
  x_IsDefault <- dec_if ((0 <=? version) && (version <=? 0)) dBool (DescribeConfigsResourceResult32_IsDefault t) ;;
  x_ConfigSource <- dec_if (1 <=? version) dInt8 (DescribeConfigsResourceResult32_ConfigSource t) ;;
  x_IsSensitive <- dBool ;;
  x_Synonyms <- dec_if (1 <=? version) (dec_array (DescribeConfigsSynonym32_Decode version DescribeConfigsSynonym32_zero) (DescribeConfigsResourceResult32_Synonyms t)) (DescribeConfigsResourceResult32_Synonyms t) ;;
  ret (mkDescribeConfigsResourceResult32 x_Name x_Value x_ReadOnly x_IsDefault x_ConfigSource x_IsSensitive x_Synonyms).
(** the struct declaration read as a schema; version ranges as in Size *)
Definition DescribeConfigsResourceResult32_schema : fields :=
  FCons "Name" Always TString
  (FCons "Value" Always TString
  (FCons "ReadOnly" Always TBool
  (FCons "IsDefault" (Between 0 0) TBool
  (FCons "ConfigSource" (From 1) TInt8
  (FCons "IsSensitive" Always TBool
  (FCons "Synonyms" (From 1) (TArray DescribeConfigsSynonym32_schema) FNil)))))).
Definition DescribeConfigsResourceResult32_to (t : DescribeConfigsResourceResult32) : dens DescribeConfigsResourceResult32_schema := (DescribeConfigsResourceResult32_Name t, (DescribeConfigsResourceResult32_Value t, (DescribeConfigsResourceResult32_ReadOnly t, (DescribeConfigsResourceResult32_IsDefault t, (DescribeConfigsResourceResult32_ConfigSource t, (DescribeConfigsResourceResult32_IsSensitive t, (option_map (map DescribeConfigsSynonym32_to) (DescribeConfigsResourceResult32_Synonyms t), tt))))))).
Definition DescribeConfigsResourceResult32_of (x : dens DescribeConfigsResourceResult32_schema) : DescribeConfigsResourceResult32 := mkDescribeConfigsResourceResult32 (fst x) (fst (snd x)) (fst (snd (snd x))) (fst (snd (snd (snd x)))) (fst (snd (snd (snd (snd x))))) (fst (snd (snd (snd (snd (snd x)))))) (option_map (map DescribeConfigsSynonym32_of) (fst (snd (snd (snd (snd (snd (snd x)))))))).
Definition DescribeConfigsResourceResult32_codec : codec := Codec DescribeConfigsResourceResult32 DescribeConfigsResourceResult32_zero DescribeConfigsResourceResult32_Size DescribeConfigsResourceResult32_Encode DescribeConfigsResourceResult32_Decode DescribeConfigsResourceResult32_schema DescribeConfigsResourceResult32_to DescribeConfigsResourceResult32_of.
Lemma DescribeConfigsResourceResult32_linked : linked DescribeConfigsResourceResult32_codec.
Proof.
  apply Linked; cbn [DescribeConfigsResourceResult32_codec c_type c_zero c_size c_encode c_decode c_schema c_to c_of].
  - intros t. destruct t. cbv [DescribeConfigsResourceResult32_of DescribeConfigsResourceResult32_to]. cbn [fst snd DescribeConfigsResourceResult32_Name DescribeConfigsResourceResult32_Value DescribeConfigsResourceResult32_ReadOnly DescribeConfigsResourceResult32_IsDefault DescribeConfigsResourceResult32_ConfigSource DescribeConfigsResourceResult32_IsSensitive DescribeConfigsResourceResult32_Synonyms]. rewrite ?(option_map_map_inv DescribeConfigsSynonym32_to DescribeConfigsSynonym32_of _ (l_of_to _ DescribeConfigsSynonym32_linked)). reflexivity.
  - intros x. unfold DescribeConfigsResourceResult32_schema in x. cbn [dens den] in x. destruct x as [x0 x]. destruct x as [x1 x]. destruct x as [x2 x]. destruct x as [x3 x]. destruct x as [x4 x]. destruct x as [x5 x]. destruct x as [x6 x]. destruct x. cbv [DescribeConfigsResourceResult32_of DescribeConfigsResourceResult32_to]. cbn [fst snd DescribeConfigsResourceResult32_Name DescribeConfigsResourceResult32_Value DescribeConfigsResourceResult32_ReadOnly DescribeConfigsResourceResult32_IsDefault DescribeConfigsResourceResult32_ConfigSource DescribeConfigsResourceResult32_IsSensitive DescribeConfigsResourceResult32_Synonyms]. rewrite ?(option_map_map_inv DescribeConfigsSynonym32_of DescribeConfigsSynonym32_to _ (l_to_of _ DescribeConfigsSynonym32_linked)). reflexivity.
  - reflexivity.
  - intros v t. unfold DescribeConfigsResourceResult32_Size, DescribeConfigsResourceResult32_schema, DescribeConfigsResourceResult32_to. apply size_start.
    apply size_step; [intros sz; reflexivity|].
    apply size_step; [intros sz; reflexivity|].
    apply size_step; [intros sz; reflexivity|].
    apply size_step; [intros sz; reflexivity|].
    apply size_step; [intros sz; reflexivity|].
    apply size_step; [intros sz; reflexivity|].
    apply size_step; [intros sz; apply (size_field_link (DescribeConfigsSynonym32_Size v) DescribeConfigsSynonym32_schema DescribeConfigsSynonym32_to v (l_size _ DescribeConfigsSynonym32_linked v) _)|].
    intros sz; reflexivity.
  - intros v t. unfold DescribeConfigsResourceResult32_Encode, DescribeConfigsResourceResult32_schema, DescribeConfigsResourceResult32_to.
    apply enc_step; [intros e; reflexivity|].
    apply enc_step; [intros e; reflexivity|].
    apply enc_step; [intros e; reflexivity|].
    apply enc_step; [intros e; reflexivity|].
    apply enc_step; [intros e; reflexivity|].
    apply enc_step; [intros e; reflexivity|].
    apply enc_step; [intros e; apply (put_field_link (DescribeConfigsSynonym32_Encode v) DescribeConfigsSynonym32_schema DescribeConfigsSynonym32_to v (l_encode _ DescribeConfigsSynonym32_linked v) _)|].
    intros e; reflexivity.
  - intros v t. unfold DescribeConfigsResourceResult32_Decode, DescribeConfigsResourceResult32_schema, DescribeConfigsResourceResult32_to.
    dec_field (fun x : gostring => x); [apply dmap_id|intros x_Name].
    dec_field (fun x : gostring => x); [apply dmap_id|intros x_Value].
    dec_field (fun x : bool => x); [apply dmap_id|intros x_ReadOnly].
    dec_field (fun x : bool => x); [apply dec_if_link; [apply dmap_id|reflexivity]|intros x_IsDefault].
    dec_field (fun x : Z => x); [apply dec_if_link; [apply dmap_id|reflexivity]|intros x_ConfigSource].
    dec_field (fun x : bool => x); [apply dmap_id|intros x_IsSensitive].
    dec_field (option_map (map DescribeConfigsSynonym32_of)); [apply dec_if_link; [apply (dec_array_link _ _ DescribeConfigsSynonym32_of DescribeConfigsSynonym32_to (l_decode _ DescribeConfigsSynonym32_linked v DescribeConfigsSynonym32_zero) (l_of_to _ DescribeConfigsSynonym32_linked))|symmetry; apply (option_map_map_inv DescribeConfigsSynonym32_to DescribeConfigsSynonym32_of _ (l_of_to _ DescribeConfigsSynonym32_linked))]|intros x_Synonyms].
    intros d; reflexivity.
Qed.
Local Opaque DescribeConfigsResourceResult32_Size DescribeConfigsResourceResult32_Encode DescribeConfigsResourceResult32_Decode.

(** ** DescribeConfigsResult32 *)

(** message/messages.gen.go:8577-8583 *)
Record DescribeConfigsResult32 : Type := mkDescribeConfigsResult32 { DescribeConfigsResult32_ErrorCode : Z; DescribeConfigsResult32_ErrorMessage : gostring; DescribeConfigsResult32_ResourceType : Z; DescribeConfigsResult32_ResourceName : gostring; DescribeConfigsResult32_Configs : gslice DescribeConfigsResourceResult32 }.
(** the zero value ([var item DescribeConfigsResult32]) *)
Definition DescribeConfigsResult32_zero : DescribeConfigsResult32 := mkDescribeConfigsResult32 0 [] 0 [] None.
(** message/messages.gen.go:8586-8597 *)
Definition DescribeConfigsResult32_Size (version : Z) (t : DescribeConfigsResult32) : Z :=
  ((size_add sz_Int16) +>
   (size_add (sz_String (DescribeConfigsResult32_ErrorMessage t))) +>
   (size_add sz_Int8) +>
   (size_add (sz_String (DescribeConfigsResult32_ResourceName t))) +>
   (size_loop (DescribeConfigsResourceResult32_Size version) (DescribeConfigsResult32_Configs t)) +>
   size_done)%size 0.
(** message/messages.gen.go:8600-8611 *)
Definition DescribeConfigsResult32_Encode (version : Z) (t : DescribeConfigsResult32) : Encoder -> Encoder :=
  ((PutInt16 (DescribeConfigsResult32_ErrorCode t)) >>
   (PutString (DescribeConfigsResult32_ErrorMessage t)) >>
   (PutInt8 (DescribeConfigsResult32_ResourceType t)) >>
   (PutString (DescribeConfigsResult32_ResourceName t)) >>
   (put_array (DescribeConfigsResourceResult32_Encode version) (DescribeConfigsResult32_Configs t)) >>
   skip)%enc.
(** message/messages.gen.go:8614-8646 *)
Definition DescribeConfigsResult32_Decode (version : Z) (t : DescribeConfigsResult32) : Dec DescribeConfigsResult32 :=
  x_ErrorCode <- dInt16 ;;
  x_ErrorMessage <- dString ;;
  x_ResourceType <- dInt8 ;;
  x_ResourceName <- dString ;;
  x_Configs <- (dec_array (DescribeConfigsResourceResult32_Decode version DescribeConfigsResourceResult32_zero) (DescribeConfigsResult32_Configs t)) ;;
  ret (mkDescribeConfigsResult32 x_ErrorCode x_ErrorMessage x_ResourceType x_ResourceName x_Configs).
(** the struct declaration read as a schema; version ranges as in Size *)
Definition DescribeConfigsResult32_schema : fields :=
  FCons "ErrorCode" Always TInt16
  (FCons "ErrorMessage" Always TString
  (FCons "ResourceType" Always TInt8
  (FCons "ResourceName" Always TString
  (FCons "Configs" Always (TArray DescribeConfigsResourceResult32_schema) FNil)))).
Definition DescribeConfigsResult32_to (t : DescribeConfigsResult32) : dens DescribeConfigsResult32_schema := (DescribeConfigsResult32_ErrorCode t, (DescribeConfigsResult32_ErrorMessage t, (DescribeConfigsResult32_ResourceType t, (DescribeConfigsResult32_ResourceName t, (option_map (map DescribeConfigsResourceResult32_to) (DescribeConfigsResult32_Configs t), tt))))).
Definition DescribeConfigsResult32_of (x : dens DescribeConfigsResult32_schema) : DescribeConfigsResult32 := mkDescribeConfigsResult32 (fst x) (fst (snd x)) (fst (snd (snd x))) (fst (snd (snd (snd x)))) (option_map (map DescribeConfigsResourceResult32_of) (fst (snd (snd (snd (snd x)))))).
Definition DescribeConfigsResult32_codec : codec := Codec DescribeConfigsResult32 DescribeConfigsResult32_zero DescribeConfigsResult32_Size DescribeConfigsResult32_Encode DescribeConfigsResult32_Decode DescribeConfigsResult32_schema DescribeConfigsResult32_to DescribeConfigsResult32_of.
Lemma DescribeConfigsResult32_linked : linked DescribeConfigsResult32_codec.
Proof.
  apply Linked; cbn [DescribeConfigsResult32_codec c_type c_zero c_size c_encode c_decode c_schema c_to c_of].
  - intros t. destruct t. cbv [DescribeConfigsResult32_of DescribeConfigsResult32_to]. cbn [fst snd DescribeConfigsResult32_ErrorCode DescribeConfigsResult32_ErrorMessage DescribeConfigsResult32_ResourceType DescribeConfigsResult32_ResourceName DescribeConfigsResult32_Configs]. rewrite ?(option_map_map_inv DescribeConfigsResourceResult32_to DescribeConfigsResourceResult32_of _ (l_of_to _ DescribeConfigsResourceResult32_linked)). reflexivity.
  - intros x. unfold DescribeConfigsResult32_schema in x. cbn [dens den] in x. destruct x as [x0 x]. destruct x as [x1 x]. destruct x as [x2 x]. destruct x as [x3 x]. destruct x as [x4 x]. destruct x. cbv [DescribeConfigsResult32_of DescribeConfigsResult32_to]. cbn [fst snd DescribeConfigsResult32_ErrorCode DescribeConfigsResult32_ErrorMessage DescribeConfigsResult32_ResourceType DescribeConfigsResult32_ResourceName DescribeConfigsResult32_Configs]. rewrite ?(option_map_map_inv DescribeConfigsResourceResult32_of DescribeConfigsResourceResult32_to _ (l_to_of _ DescribeConfigsResourceResult32_linked)). reflexivity.
  - reflexivity.
  - intros v t. unfold DescribeConfigsResult32_Size, DescribeConfigsResult32_schema, DescribeConfigsResult32_to. apply size_start.
    apply size_step; [intros sz; reflexivity|].
    apply size_step; [intros sz; reflexivity|].
    apply size_step; [intros sz; reflexivity|].
    apply size_step; [intros sz; reflexivity|].
    apply size_step; [intros sz; apply (size_field_link (DescribeConfigsResourceResult32_Size v) DescribeConfigsResourceResult32_schema DescribeConfigsResourceResult32_to v (l_size _ DescribeConfigsResourceResult32_linked v) true)|].
    intros sz; reflexivity.
  - intros v t. unfold DescribeConfigsResult32_Encode, DescribeConfigsResult32_schema, DescribeConfigsResult32_to.
    apply enc_step; [intros e; reflexivity|].
    apply enc_step; [intros e; reflexivity|].
    apply enc_step; [intros e; reflexivity|].
    apply enc_step; [intros e; reflexivity|].
    apply enc_step; [intros e; apply (put_field_link (DescribeConfigsResourceResult32_Encode v) DescribeConfigsResourceResult32_schema DescribeConfigsResourceResult32_to v (l_encode _ DescribeConfigsResourceResult32_linked v) true)|].
    intros e; reflexivity.
  - intros v t. unfold DescribeConfigsResult32_Decode, DescribeConfigsResult32_schema, DescribeConfigsResult32_to.
    dec_field (fun x : Z => x); [apply dmap_id|intros x_ErrorCode].
    dec_field (fun x : gostring => x); [apply dmap_id|intros x_ErrorMessage].
    dec_field (fun x : Z => x); [apply dmap_id|intros x_ResourceType].
    dec_field (fun x : gostring => x); [apply dmap_id|intros x_ResourceName].
    dec_field (option_map (map DescribeConfigsResourceResult32_of)); [apply (dec_array_link _ _ DescribeConfigsResourceResult32_of DescribeConfigsResourceResult32_to (l_decode _ DescribeConfigsResourceResult32_linked v DescribeConfigsResourceResult32_zero) (l_of_to _ DescribeConfigsResourceResult32_linked))|intros x_Configs].
    intros d; reflexivity.
Qed.
Local Opaque DescribeConfigsResult32_Size DescribeConfigsResult32_Encode DescribeConfigsResult32_Decode.

(** ** DescribeConfigsResponse *)

(** message/messages.gen.go:8527-8530 *)
Record DescribeConfigsResponse : Type := mkDescribeConfigsResponse { DescribeConfigsResponse_ThrottleTimeMs : Z; DescribeConfigsResponse_Results : gslice DescribeConfigsResult32 }.
(** the zero value ([var item DescribeConfigsResponse]) *)
Definition DescribeConfigsResponse_zero : DescribeConfigsResponse := mkDescribeConfigsResponse 0 None.
(** message/messages.gen.go:8533-8541 *)
Definition DescribeConfigsResponse_Size (version : Z) (t : DescribeConfigsResponse) : Z :=
  ((size_add sz_Int32) +>
   (size_loop (DescribeConfigsResult32_Size version) (DescribeConfigsResponse_Results t)) +>
   size_done)%size 0.
(** message/messages.gen.go:8544-8552 *)
Definition DescribeConfigsResponse_Encode (version : Z) (t : DescribeConfigsResponse) : Encoder -> Encoder :=
  ((PutInt32 (DescribeConfigsResponse_ThrottleTimeMs t)) >>
   (put_array (DescribeConfigsResult32_Encode version) (DescribeConfigsResponse_Results t)) >>
   skip)%enc.
(** message/messages.gen.go:8555-8575 *)
Definition DescribeConfigsResponse_Decode (version : Z) (t : DescribeConfigsResponse) : Dec DescribeConfigsResponse :=
  x_ThrottleTimeMs <- dInt32 ;;
  x_Results <- (dec_array (DescribeConfigsResult32_Decode version DescribeConfigsResult32_zero) (DescribeConfigsResponse_Results t)) ;;
  ret (mkDescribeConfigsResponse x_ThrottleTimeMs x_Results).
(** the struct declaration read as a schema; version ranges as in Size *)
Definition DescribeConfigsResponse_schema : fields :=
  FCons "ThrottleTimeMs" Always TInt32
  (FCons "Results" Always (TArray DescribeConfigsResult32_schema) FNil).
Definition DescribeConfigsResponse_to (t : DescribeConfigsResponse) : dens DescribeConfigsResponse_schema := (DescribeConfigsResponse_ThrottleTimeMs t, (option_map (map DescribeConfigsResult32_to) (DescribeConfigsResponse_Results t), tt)).
Definition DescribeConfigsResponse_of (x : dens DescribeConfigsResponse_schema) : DescribeConfigsResponse := mkDescribeConfigsResponse (fst x) (option_map (map DescribeConfigsResult32_of) (fst (snd x))).
Definition DescribeConfigsResponse_codec : codec := Codec DescribeConfigsResponse DescribeConfigsResponse_zero DescribeConfigsResponse_Size DescribeConfigsResponse_Encode DescribeConfigsResponse_Decode DescribeConfigsResponse_schema DescribeConfigsResponse_to DescribeConfigsResponse_of.
Lemma DescribeConfigsResponse_linked : linked DescribeConfigsResponse_codec.
Proof.
  apply Linked; cbn [DescribeConfigsResponse_codec c_type c_zero c_size c_encode c_decode c_schema c_to c_of].
  - intros t. destruct t. cbv [DescribeConfigsResponse_of DescribeConfigsResponse_to]. cbn [fst snd DescribeConfigsResponse_ThrottleTimeMs DescribeConfigsResponse_Results]. rewrite ?(option_map_map_inv DescribeConfigsResult32_to DescribeConfigsResult32_of _ (l_of_to _ DescribeConfigsResult32_linked)). reflexivity.
  - intros x. unfold DescribeConfigsResponse_schema in x. cbn [dens den] in x. destruct x as [x0 x]. destruct x as [x1 x]. destruct x. cbv [DescribeConfigsResponse_of DescribeConfigsResponse_to]. cbn [fst snd DescribeConfigsResponse_ThrottleTimeMs DescribeConfigsResponse_Results]. rewrite ?(option_map_map_inv DescribeConfigsResult32_of DescribeConfigsResult32_to _ (l_to_of _ DescribeConfigsResult32_linked)). reflexivity.
  - reflexivity.
  - intros v t. unfold DescribeConfigsResponse_Size, DescribeConfigsResponse_schema, DescribeConfigsResponse_to. apply size_start.
    apply size_step; [intros sz; reflexivity|].
    apply size_step; [intros sz; apply (size_field_link (DescribeConfigsResult32_Size v) DescribeConfigsResult32_schema DescribeConfigsResult32_to v (l_size _ DescribeConfigsResult32_linked v) true)|].
    intros sz; reflexivity.
  - intros v t. unfold DescribeConfigsResponse_Encode, DescribeConfigsResponse_schema, DescribeConfigsResponse_to.
    apply enc_step; [intros e; reflexivity|].
    apply enc_step; [intros e; apply (put_field_link (DescribeConfigsResult32_Encode v) DescribeConfigsResult32_schema DescribeConfigsResult32_to v (l_encode _ DescribeConfigsResult32_linked v) true)|].
    intros e; reflexivity.
  - intros v t. unfold DescribeConfigsResponse_Decode, DescribeConfigsResponse_schema, DescribeConfigsResponse_to.
    dec_field (fun x : Z => x); [apply dmap_id|intros x_ThrottleTimeMs].
    dec_field (option_map (map DescribeConfigsResult32_of)); [apply (dec_array_link _ _ DescribeConfigsResult32_of DescribeConfigsResult32_to (l_decode _ DescribeConfigsResult32_linked v DescribeConfigsResult32_zero) (l_of_to _ DescribeConfigsResult32_linked))|intros x_Results].
    intros d; reflexivity.
Qed.
Local Opaque DescribeConfigsResponse_Size DescribeConfigsResponse_Encode DescribeConfigsResponse_Decode.

(** ** AlterableConfig33 *)

(** message/messages.gen.go:8917-8920 *)
Record AlterableConfig33 : Type := mkAlterableConfig33 { AlterableConfig33_Name : gostring; AlterableConfig33_Value : gostring }.
(** the zero value ([var item AlterableConfig33]) *)
Definition AlterableConfig33_zero : AlterableConfig33 := mkAlterableConfig33 [] [].
(** message/messages.gen.go:8923-8928 *)
Definition AlterableConfig33_Size (version : Z) (t : AlterableConfig33) : Z :=
  ((size_add (sz_String (AlterableConfig33_Name t))) +>
   (size_add (sz_String (AlterableConfig33_Value t))) +>
   size_done)%size 0.
(** message/messages.gen.go:8931-8934 *)
Definition AlterableConfig33_Encode (version : Z) (t : AlterableConfig33) : Encoder -> Encoder :=
  ((PutString (AlterableConfig33_Name t)) >>
   (PutString (AlterableConfig33_Value t)) >>
   skip)%enc.
(** message/messages.gen.go:8937-8948 *)
Definition AlterableConfig33_Decode (version : Z) (t : AlterableConfig33) : Dec AlterableConfig33 :=
  x_Name <- dString ;;
  x_Value <- dString ;;
  ret (mkAlterableConfig33 x_Name x_Value).
(** the struct declaration read as a schema; version ranges as in Size *)
Definition AlterableConfig33_schema : fields :=
  FCons "Name" Always TString
  (FCons "Value" Always TString FNil).
Definition AlterableConfig33_to (t : AlterableConfig33) : dens AlterableConfig33_schema := (AlterableConfig33_Name t, (AlterableConfig33_Value t, tt)).
Definition AlterableConfig33_of (x : dens AlterableConfig33_schema) : AlterableConfig33 := mkAlterableConfig33 (fst x) (fst (snd x)).
Definition AlterableConfig33_codec : codec := Codec AlterableConfig33 AlterableConfig33_zero AlterableConfig33_Size AlterableConfig33_Encode AlterableConfig33_Decode AlterableConfig33_schema AlterableConfig33_to AlterableConfig33_of.
Lemma AlterableConfig33_linked : linked AlterableConfig33_codec.
Proof.
  apply Linked; cbn [AlterableConfig33_codec c_type c_zero c_size c_encode c_decode c_schema c_to c_of].
  - intros t. destruct t. cbv [AlterableConfig33_of AlterableConfig33_to]. cbn [fst snd AlterableConfig33_Name AlterableConfig33_Value].  reflexivity.
  - intros x. unfold AlterableConfig33_schema in x. cbn [dens den] in x. destruct x as [x0 x]. destruct x as [x1 x]. destruct x. cbv [AlterableConfig33_of AlterableConfig33_to]. cbn [fst snd AlterableConfig33_Name AlterableConfig33_Value].  reflexivity.
  - reflexivity.
  - intros v t. unfold AlterableConfig33_Size, AlterableConfig33_schema, AlterableConfig33_to. apply size_start.
    apply size_step; [intros sz; reflexivity|].
    apply size_step; [intros sz; reflexivity|].
    intros sz; reflexivity.
  - intros v t. unfold AlterableConfig33_Encode, AlterableConfig33_schema, AlterableConfig33_to.
    apply enc_step; [intros e; reflexivity|].
    apply enc_step; [intros e; reflexivity|].
    intros e; reflexivity.
  - intros v t. unfold AlterableConfig33_Decode, AlterableConfig33_schema, AlterableConfig33_to.
    dec_field (fun x : gostring => x); [apply dmap_id|intros x_Name].
    dec_field (fun x : gostring => x); [apply dmap_id|intros x_Value].
    intros d; reflexivity.
Qed.
Local Opaque AlterableConfig33_Size AlterableConfig33_Encode AlterableConfig33_Decode.

(** ** AlterConfigsResource33 *)

(** message/messages.gen.go:8860-8864 *)
Record AlterConfigsResource33 : Type := mkAlterConfigsResource33 { AlterConfigsResource33_ResourceType : Z; AlterConfigsResource33_ResourceName : gostring; AlterConfigsResource33_Configs : gslice AlterableConfig33 }.
(** the zero value ([var item AlterConfigsResource33]) *)
Definition AlterConfigsResource33_zero : AlterConfigsResource33 := mkAlterConfigsResource33 0 [] None.
(** message/messages.gen.go:8867-8876 *)
Definition AlterConfigsResource33_Size (version : Z) (t : AlterConfigsResource33) : Z :=
  ((size_add sz_Int8) +>
   (size_add (sz_String (AlterConfigsResource33_ResourceName t))) +>
   (size_loop (AlterableConfig33_Size version) (AlterConfigsResource33_Configs t)) +>
   size_done)%size 0.
(** message/messages.gen.go:8879-8888 *)
Definition AlterConfigsResource33_Encode (version : Z) (t : AlterConfigsResource33) : Encoder -> Encoder :=
  ((PutInt8 (AlterConfigsResource33_ResourceType t)) >>
   (PutString (AlterConfigsResource33_ResourceName t)) >>
   (put_array (AlterableConfig33_Encode version) (AlterConfigsResource33_Configs t)) >>
   skip)%enc.
(** message/messages.gen.go:8891-8915 *)
Definition AlterConfigsResource33_Decode (version : Z) (t : AlterConfigsResource33) : Dec AlterConfigsResource33 :=
  x_ResourceType <- dInt8 ;;
  x_ResourceName <- dString ;;
  x_Configs <- (dec_array (AlterableConfig33_Decode version AlterableConfig33_zero) (AlterConfigsResource33_Configs t)) ;;
  ret (mkAlterConfigsResource33 x_ResourceType x_ResourceName x_Configs).
(** the struct declaration read as a schema; version ranges as in Size *)
Definition AlterConfigsResource33_schema : fields :=
  FCons "ResourceType" Always TInt8
  (FCons "ResourceName" Always TString
  (FCons "Configs" Always (TArray AlterableConfig33_schema) FNil)).
Definition AlterConfigsResource33_to (t : AlterConfigsResource33) : dens AlterConfigsResource33_schema := (AlterConfigsResource33_ResourceType t, (AlterConfigsResource33_ResourceName t, (option_map (map AlterableConfig33_to) (AlterConfigsResource33_Configs t), tt))).
Definition AlterConfigsResource33_of (x : dens AlterConfigsResource33_schema) : AlterConfigsResource33 := mkAlterConfigsResource33 (fst x) (fst (snd x)) (option_map (map AlterableConfig33_of) (fst (snd (snd x)))).
Definition AlterConfigsResource33_codec : codec := Codec AlterConfigsResource33 AlterConfigsResource33_zero AlterConfigsResource33_Size AlterConfigsResource33_Encode AlterConfigsResource33_Decode AlterConfigsResource33_schema AlterConfigsResource33_to AlterConfigsResource33_of.
Lemma AlterConfigsResource33_linked : linked AlterConfigsResource33_codec.
Proof.
  apply Linked; cbn [AlterConfigsResource33_codec c_type c_zero c_size c_encode c_decode c_schema c_to c_of].
  - intros t. destruct t. cbv [AlterConfigsResource33_of AlterConfigsResource33_to]. cbn [fst snd AlterConfigsResource33_ResourceType AlterConfigsResource33_ResourceName AlterConfigsResource33_Configs]. rewrite ?(option_map_map_inv AlterableConfig33_to AlterableConfig33_of _ (l_of_to _ AlterableConfig33_linked)). reflexivity.
  - intros x. unfold AlterConfigsResource33_schema in x. cbn [dens den] in x. destruct x as [x0 x]. destruct x as [x1 x]. destruct x as [x2 x]. destruct x. cbv [AlterConfigsResource33_of AlterConfigsResource33_to]. cbn [fst snd AlterConfigsResource33_ResourceType AlterConfigsResource33_ResourceName AlterConfigsResource33_Configs]. rewrite ?(option_map_map_inv AlterableConfig33_of AlterableConfig33_to _ (l_to_of _ AlterableConfig33_linked)). reflexivity.
  - reflexivity.
  - intros v t. unfold AlterConfigsResource33_Size, AlterConfigsResource33_schema, AlterConfigsResource33_to. apply size_start.
    apply size_step; [intros sz; reflexivity|].
    apply size_step; [intros sz; reflexivity|].
    apply size_step; [intros sz; apply (size_field_link (AlterableConfig33_Size v) AlterableConfig33_schema AlterableConfig33_to v (l_size _ AlterableConfig33_linked v) true)|].
    intros sz; reflexivity.
  - intros v t. unfold AlterConfigsResource33_Encode, AlterConfigsResource33_schema, AlterConfigsResource33_to.
    apply enc_step; [intros e; reflexivity|].
    apply enc_step; [intros e; reflexivity|].
    apply enc_step; [intros e; apply (put_field_link (AlterableConfig33_Encode v) AlterableConfig33_schema AlterableConfig33_to v (l_encode _ AlterableConfig33_linked v) true)|].
    intros e; reflexivity.
  - intros v t. unfold AlterConfigsResource33_Decode, AlterConfigsResource33_schema, AlterConfigsResource33_to.
    dec_field (fun x : Z => x); [apply dmap_id|intros x_ResourceType].
    dec_field (fun x : gostring => x); [apply dmap_id|intros x_ResourceName].
    dec_field (option_map (map AlterableConfig33_of)); [apply (dec_array_link _ _ AlterableConfig33_of AlterableConfig33_to (l_decode _ AlterableConfig33_linked v AlterableConfig33_zero) (l_of_to _ AlterableConfig33_linked))|intros x_Configs].
    intros d; reflexivity.
Qed.
Local Opaque AlterConfigsResource33_Size AlterConfigsResource33_Encode AlterConfigsResource33_Decode.

(** ** AlterConfigsRequest *)

(** message/messages.gen.go:8810-8813 *)
Record AlterConfigsRequest : Type := mkAlterConfigsRequest { AlterConfigsRequest_Resources : gslice AlterConfigsResource33; AlterConfigsRequest_ValidateOnly : bool }.
(** the zero value ([var item AlterConfigsRequest]) *)
Definition AlterConfigsRequest_zero : AlterConfigsRequest := mkAlterConfigsRequest None false.
(** message/messages.gen.go:8816-8824 *)
Definition AlterConfigsRequest_Size (version : Z) (t : AlterConfigsRequest) : Z :=
  ((size_loop (AlterConfigsResource33_Size version) (AlterConfigsRequest_Resources t)) +>
   (size_add sz_Bool) +>
   size_done)%size 0.
(** message/messages.gen.go:8827-8835 *)
Definition AlterConfigsRequest_Encode (version : Z) (t : AlterConfigsRequest) : Encoder -> Encoder :=
  ((put_array (AlterConfigsResource33_Encode version) (AlterConfigsRequest_Resources t)) >>
   (PutBool (AlterConfigsRequest_ValidateOnly t)) >>
   skip)%enc.
(** message/messages.gen.go:8838-8858 *)
Definition AlterConfigsRequest_Decode (version : Z) (t : AlterConfigsRequest) : Dec AlterConfigsRequest :=
  x_Resources <- (dec_array (AlterConfigsResource33_Decode version AlterConfigsResource33_zero) (AlterConfigsRequest_Resources t)) ;;
  x_ValidateOnly <- dBool ;;
  ret (mkAlterConfigsRequest x_Resources x_ValidateOnly).
(** the struct declaration read as a schema; version ranges as in Size *)
Definition AlterConfigsRequest_schema : fields :=
  FCons "Resources" Always (TArray AlterConfigsResource33_schema)
  (FCons "ValidateOnly" Always TBool FNil).
Definition AlterConfigsRequest_to (t : AlterConfigsRequest) : dens AlterConfigsRequest_schema := (option_map (map AlterConfigsResource33_to) (AlterConfigsRequest_Resources t), (AlterConfigsRequest_ValidateOnly t, tt)).
Definition AlterConfigsRequest_of (x : dens AlterConfigsRequest_schema) : AlterConfigsRequest := mkAlterConfigsRequest (option_map (map AlterConfigsResource33_of) (fst x)) (fst (snd x)).
Definition AlterConfigsRequest_codec : codec := Codec AlterConfigsRequest AlterConfigsRequest_zero AlterConfigsRequest_Size AlterConfigsRequest_Encode AlterConfigsRequest_Decode AlterConfigsRequest_schema AlterConfigsRequest_to AlterConfigsRequest_of.
Lemma AlterConfigsRequest_linked : linked AlterConfigsRequest_codec.
Proof.
  apply Linked; cbn [AlterConfigsRequest_codec c_type c_zero c_size c_encode c_decode c_schema c_to c_of].
  - intros t. destruct t. cbv [AlterConfigsRequest_of AlterConfigsRequest_to]. cbn [fst snd AlterConfigsRequest_Resources AlterConfigsRequest_ValidateOnly]. rewrite ?(option_map_map_inv AlterConfigsResource33_to AlterConfigsResource33_of _ (l_of_to _ AlterConfigsResource33_linked)). reflexivity.
  - intros x. unfold AlterConfigsRequest_schema in x. cbn [dens den] in x. destruct x as [x0 x]. destruct x as [x1 x]. destruct x. cbv [AlterConfigsRequest_of AlterConfigsRequest_to]. cbn [fst snd AlterConfigsRequest_Resources AlterConfigsRequest_ValidateOnly]. rewrite ?(option_map_map_inv AlterConfigsResource33_of AlterConfigsResource33_to _ (l_to_of _ AlterConfigsResource33_linked)). reflexivity.
  - reflexivity.
  - intros v t. unfold AlterConfigsRequest_Size, AlterConfigsRequest_schema, AlterConfigsRequest_to. apply size_start.
    apply size_step; [intros sz; apply (size_field_link (AlterConfigsResource33_Size v) AlterConfigsResource33_schema AlterConfigsResource33_to v (l_size _ AlterConfigsResource33_linked v) true)|].
    apply size_step; [intros sz; reflexivity|].
    intros sz; reflexivity.
  - intros v t. unfold AlterConfigsRequest_Encode, AlterConfigsRequest_schema, AlterConfigsRequest_to.
    apply enc_step; [intros e; apply (put_field_link (AlterConfigsResource33_Encode v) AlterConfigsResource33_schema AlterConfigsResource33_to v (l_encode _ AlterConfigsResource33_linked v) true)|].
    apply enc_step; [intros e; reflexivity|].
    intros e; reflexivity.
  - intros v t. unfold AlterConfigsRequest_Decode, AlterConfigsRequest_schema, AlterConfigsRequest_to.
    dec_field (option_map (map AlterConfigsResource33_of)); [apply (dec_array_link _ _ AlterConfigsResource33_of AlterConfigsResource33_to (l_decode _ AlterConfigsResource33_linked v AlterConfigsResource33_zero) (l_of_to _ AlterConfigsResource33_linked))|intros x_Resources].
    dec_field (fun x : bool => x); [apply dmap_id|intros x_ValidateOnly].
    intros d; reflexivity.
Qed.
Local Opaque AlterConfigsRequest_Size AlterConfigsRequest_Encode AlterConfigsRequest_Decode.

(** ** AlterConfigsResourceResponse33 *)

(** message/messages.gen.go:9001-9006 *)
Record AlterConfigsResourceResponse33 : Type := mkAlterConfigsResourceResponse33 { AlterConfigsResourceResponse33_ErrorCode : Z; AlterConfigsResourceResponse33_ErrorMessage : gostring; AlterConfigsResourceResponse33_ResourceType : Z; AlterConfigsResourceResponse33_ResourceName : gostring }.
(** the zero value ([var item AlterConfigsResourceResponse33]) *)
Definition AlterConfigsResourceResponse33_zero : AlterConfigsResourceResponse33 := mkAlterConfigsResourceResponse33 0 [] 0 [].
(** message/messages.gen.go:9009-9016 *)
Definition AlterConfigsResourceResponse33_Size (version : Z) (t : AlterConfigsResourceResponse33) : Z :=
  ((size_add sz_Int16) +>
   (size_add (sz_String (AlterConfigsResourceResponse33_ErrorMessage t))) +>
   (size_add sz_Int8) +>
   (size_add (sz_String (AlterConfigsResourceResponse33_ResourceName t))) +>
   size_done)%size 0.
(** message/messages.gen.go:9019-9024 *)
Definition AlterConfigsResourceResponse33_Encode (version : Z) (t : AlterConfigsResourceResponse33) : Encoder -> Encoder :=
  ((PutInt16 (AlterConfigsResourceResponse33_ErrorCode t)) >>
   (PutString (AlterConfigsResourceResponse33_ErrorMessage t)) >>
   (PutInt8 (AlterConfigsResourceResponse33_ResourceType t)) >>
   (PutString (AlterConfigsResourceResponse33_ResourceName t)) >>
   skip)%enc.
(** message/messages.gen.go:9027-9046 *)
Definition AlterConfigsResourceResponse33_Decode (version : Z) (t : AlterConfigsResourceResponse33) : Dec AlterConfigsResourceResponse33 :=
  x_ErrorCode <- dInt16 ;;
  x_ErrorMessage <- dString ;;
  x_ResourceType <- dInt8 ;;
  x_ResourceName <- dString ;;
  ret (mkAlterConfigsResourceResponse33 x_ErrorCode x_ErrorMessage x_ResourceType x_ResourceName).
(** the struct declaration read as a schema; version ranges as in Size *)
Definition AlterConfigsResourceResponse33_schema : fields :=
  FCons "ErrorCode" Always TInt16
  (FCons "ErrorMessage" Always TString
  (FCons "ResourceType" Always TInt8
  (FCons "ResourceName" Always TString FNil))).
Definition AlterConfigsResourceResponse33_to (t : AlterConfigsResourceResponse33) : dens AlterConfigsResourceResponse33_schema := (AlterConfigsResourceResponse33_ErrorCode t, (AlterConfigsResourceResponse33_ErrorMessage t, (AlterConfigsResourceResponse33_ResourceType t, (AlterConfigsResourceResponse33_ResourceName t, tt)))).
Definition AlterConfigsResourceResponse33_of (x : dens AlterConfigsResourceResponse33_schema) : AlterConfigsResourceResponse33 := mkAlterConfigsResourceResponse33 (fst x) (fst (snd x)) (fst (snd (snd x))) (fst (snd (snd (snd x)))).
Definition AlterConfigsResourceResponse33_codec : codec := Codec AlterConfigsResourceResponse33 AlterConfigsResourceResponse33_zero AlterConfigsResourceResponse33_Size AlterConfigsResourceResponse33_Encode AlterConfigsResourceResponse33_Decode AlterConfigsResourceResponse33_schema AlterConfigsResourceResponse33_to AlterConfigsResourceResponse33_of.
Lemma AlterConfigsResourceResponse33_linked : linked AlterConfigsResourceResponse33_codec.
Proof.
  apply Linked; cbn [AlterConfigsResourceResponse33_codec c_type c_zero c_size c_encode c_decode c_schema c_to c_of].
  - intros t. destruct t. cbv [AlterConfigsResourceResponse33_of AlterConfigsResourceResponse33_to]. cbn [fst snd AlterConfigsResourceResponse33_ErrorCode AlterConfigsResourceResponse33_ErrorMessage AlterConfigsResourceResponse33_ResourceType AlterConfigsResourceResponse33_ResourceName].  reflexivity.
  - intros x. unfold AlterConfigsResourceResponse33_schema in x. cbn [dens den] in x. destruct x as [x0 x]. destruct x as [x1 x]. destruct x as [x2 x]. destruct x as [x3 x]. destruct x. cbv [AlterConfigsResourceResponse33_of AlterConfigsResourceResponse33_to]. cbn [fst snd AlterConfigsResourceResponse33_ErrorCode AlterConfigsResourceResponse33_ErrorMessage AlterConfigsResourceResponse33_ResourceType AlterConfigsResourceResponse33_ResourceName].  reflexivity.
  - reflexivity.
  - intros v t. unfold AlterConfigsResourceResponse33_Size, AlterConfigsResourceResponse33_schema, AlterConfigsResourceResponse33_to. apply size_start.
    apply size_step; [intros sz; reflexivity|].
    apply size_step; [intros sz; reflexivity|].
    apply size_step; [intros sz; reflexivity|].
    apply size_step; [intros sz; reflexivity|].
    intros sz; reflexivity.
  - intros v t. unfold AlterConfigsResourceResponse33_Encode, AlterConfigsResourceResponse33_schema, AlterConfigsResourceResponse33_to.
    apply enc_step; [intros e; reflexivity|].
    apply enc_step; [intros e; reflexivity|].
    apply enc_step; [intros e; reflexivity|].
    apply enc_step; [intros e; reflexivity|].
    intros e; reflexivity.
  - intros v t. unfold AlterConfigsResourceResponse33_Decode, AlterConfigsResourceResponse33_schema, AlterConfigsResourceResponse33_to.
    dec_field (fun x : Z => x); [apply dmap_id|intros x_ErrorCode].
    dec_field (fun x : gostring => x); [apply dmap_id|intros x_ErrorMessage].
    dec_field (fun x : Z => x); [apply dmap_id|intros x_ResourceType].
    dec_field (fun x : gostring => x); [apply dmap_id|intros x_ResourceName].
    intros d; reflexivity.
Qed.
Local Opaque AlterConfigsResourceResponse33_Size AlterConfigsResourceResponse33_Encode AlterConfigsResourceResponse33_Decode.

(** ** AlterConfigsResponse *)

(** message/messages.gen.go:8951-8954 *)
Record AlterConfigsResponse : Type := mkAlterConfigsResponse { AlterConfigsResponse_ThrottleTimeMs : Z; AlterConfigsResponse_Responses : gslice AlterConfigsResourceResponse33 }.
(** the zero value ([var item AlterConfigsResponse]) *)
Definition AlterConfigsResponse_zero : AlterConfigsResponse := mkAlterConfigsResponse 0 None.
(** message/messages.gen.go:8957-8965 *)
Definition AlterConfigsResponse_Size (version : Z) (t : AlterConfigsResponse) : Z :=
  ((size_add sz_Int32) +>
   (size_loop (AlterConfigsResourceResponse33_Size version) (AlterConfigsResponse_Responses t)) +>
   size_done)%size 0.
(** message/messages.gen.go:8968-8976 *)
Definition AlterConfigsResponse_Encode (version : Z) (t : AlterConfigsResponse) : Encoder -> Encoder :=
  ((PutInt32 (AlterConfigsResponse_ThrottleTimeMs t)) >>
   (put_array (AlterConfigsResourceResponse33_Encode version) (AlterConfigsResponse_Responses t)) >>
   skip)%enc.
(** message/messages.gen.go:8979-8999 *)
Definition AlterConfigsResponse_Decode (version : Z) (t : AlterConfigsResponse) : Dec AlterConfigsResponse :=
  x_ThrottleTimeMs <- dInt32 ;;
  x_Responses <- (dec_array (AlterConfigsResourceResponse33_Decode version AlterConfigsResourceResponse33_zero) (AlterConfigsResponse_Responses t)) ;;
  ret (mkAlterConfigsResponse x_ThrottleTimeMs x_Responses).
(** the struct declaration read as a schema; version ranges as in Size *)
Definition AlterConfigsResponse_schema : fields :=
  FCons "ThrottleTimeMs" Always TInt32
  (FCons "Responses" Always (TArray AlterConfigsResourceResponse33_schema) FNil).
Definition AlterConfigsResponse_to (t : AlterConfigsResponse) : dens AlterConfigsResponse_schema := (AlterConfigsResponse_ThrottleTimeMs t, (option_map (map AlterConfigsResourceResponse33_to) (AlterConfigsResponse_Responses t), tt)).
Definition AlterConfigsResponse_of (x : dens AlterConfigsResponse_schema) : AlterConfigsResponse := mkAlterConfigsResponse (fst x) (option_map (map AlterConfigsResourceResponse33_of) (fst (snd x))).
Definition AlterConfigsResponse_codec : codec := Codec AlterConfigsResponse AlterConfigsResponse_zero AlterConfigsResponse_Size AlterConfigsResponse_Encode AlterConfigsResponse_Decode AlterConfigsResponse_schema AlterConfigsResponse_to AlterConfigsResponse_of.
Lemma AlterConfigsResponse_linked : linked AlterConfigsResponse_codec.
Proof.
  apply Linked; cbn [AlterConfigsResponse_codec c_type c_zero c_size c_encode c_decode c_schema c_to c_of].
  - intros t. destruct t. cbv [AlterConfigsResponse_of AlterConfigsResponse_to]. cbn [fst snd AlterConfigsResponse_ThrottleTimeMs AlterConfigsResponse_Responses]. rewrite ?(option_map_map_inv AlterConfigsResourceResponse33_to AlterConfigsResourceResponse33_of _ (l_of_to _ AlterConfigsResourceResponse33_linked)). reflexivity.
  - intros x. unfold AlterConfigsResponse_schema in x. cbn [dens den] in x. destruct x as [x0 x]. destruct x as [x1 x]. destruct x. cbv [AlterConfigsResponse_of AlterConfigsResponse_to]. cbn [fst snd AlterConfigsResponse_ThrottleTimeMs AlterConfigsResponse_Responses]. rewrite ?(option_map_map_inv AlterConfigsResourceResponse33_of AlterConfigsResourceResponse33_to _ (l_to_of _ AlterConfigsResourceResponse33_linked)). reflexivity.
  - reflexivity.
  - intros v t. unfold AlterConfigsResponse_Size, AlterConfigsResponse_schema, AlterConfigsResponse_to. apply size_start.
    apply size_step; [intros sz; reflexivity|].
    apply size_step; [intros sz; apply (size_field_link (AlterConfigsResourceResponse33_Size v) AlterConfigsResourceResponse33_schema AlterConfigsResourceResponse33_to v (l_size _ AlterConfigsResourceResponse33_linked v) true)|].
    intros sz; reflexivity.
  - intros v t. unfold AlterConfigsResponse_Encode, AlterConfigsResponse_schema, AlterConfigsResponse_to.
    apply enc_step; [intros e; reflexivity|].
    apply enc_step; [intros e; apply (put_field_link (AlterConfigsResourceResponse33_Encode v) AlterConfigsResourceResponse33_schema AlterConfigsResourceResponse33_to v (l_encode _ AlterConfigsResourceResponse33_linked v) true)|].
    intros e; reflexivity.
  - intros v t. unfold AlterConfigsResponse_Decode, AlterConfigsResponse_schema, AlterConfigsResponse_to.
    dec_field (fun x : Z => x); [apply dmap_id|intros x_ThrottleTimeMs].
    dec_field (option_map (map AlterConfigsResourceResponse33_of)); [apply (dec_array_link _ _ AlterConfigsResourceResponse33_of AlterConfigsResourceResponse33_to (l_decode _ AlterConfigsResourceResponse33_linked v AlterConfigsResourceResponse33_zero) (l_of_to _ AlterConfigsResourceResponse33_linked))|intros x_Responses].
    intros d; reflexivity.
Qed.
Local Opaque AlterConfigsResponse_Size AlterConfigsResponse_Encode AlterConfigsResponse_Decode.

(** ** AlterReplicaLogDirTopic34 *)

(** message/messages.gen.go:9142-9145 *)
Record AlterReplicaLogDirTopic34 : Type := mkAlterReplicaLogDirTopic34 { AlterReplicaLogDirTopic34_Name : gostring; AlterReplicaLogDirTopic34_Partitions : gslice Z }.
(** the zero value ([var item AlterReplicaLogDirTopic34]) *)
Definition AlterReplicaLogDirTopic34_zero : AlterReplicaLogDirTopic34 := mkAlterReplicaLogDirTopic34 [] None.
(** message/messages.gen.go:9148-9153 *)
Definition AlterReplicaLogDirTopic34_Size (version : Z) (t : AlterReplicaLogDirTopic34) : Z :=
  ((size_add (sz_String (AlterReplicaLogDirTopic34_Name t))) +>
   (size_add (sz_Int32Array (AlterReplicaLogDirTopic34_Partitions t))) +>
   size_done)%size 0.
(** message/messages.gen.go:9156-9159 *)
Definition AlterReplicaLogDirTopic34_Encode (version : Z) (t : AlterReplicaLogDirTopic34) : Encoder -> Encoder :=
  ((PutString (AlterReplicaLogDirTopic34_Name t)) >>
   (PutInt32Array (AlterReplicaLogDirTopic34_Partitions t)) >>
   skip)%enc.
(** message/messages.gen.go:9162-9173 *)
Definition AlterReplicaLogDirTopic34_Decode (version : Z) (t : AlterReplicaLogDirTopic34) : Dec AlterReplicaLogDirTopic34 :=
  x_Name <- dString ;;
  x_Partitions <- dInt32Array ;;
  ret (mkAlterReplicaLogDirTopic34 x_Name x_Partitions).
(** the struct declaration read as a schema; version ranges as in Size *)
Definition AlterReplicaLogDirTopic34_schema : fields :=
  FCons "Name" Always TString
  (FCons "Partitions" Always TInt32Array FNil).
Definition AlterReplicaLogDirTopic34_to (t : AlterReplicaLogDirTopic34) : dens AlterReplicaLogDirTopic34_schema := (AlterReplicaLogDirTopic34_Name t, (AlterReplicaLogDirTopic34_Partitions t, tt)).
Definition AlterReplicaLogDirTopic34_of (x : dens AlterReplicaLogDirTopic34_schema) : AlterReplicaLogDirTopic34 := mkAlterReplicaLogDirTopic34 (fst x) (fst (snd x)).
Definition AlterReplicaLogDirTopic34_codec : codec := Codec AlterReplicaLogDirTopic34 AlterReplicaLogDirTopic34_zero AlterReplicaLogDirTopic34_Size AlterReplicaLogDirTopic34_Encode AlterReplicaLogDirTopic34_Decode AlterReplicaLogDirTopic34_schema AlterReplicaLogDirTopic34_to AlterReplicaLogDirTopic34_of.
Lemma AlterReplicaLogDirTopic34_linked : linked AlterReplicaLogDirTopic34_codec.
Proof.
  apply Linked; cbn [AlterReplicaLogDirTopic34_codec c_type c_zero c_size c_encode c_decode c_schema c_to c_of].
  - intros t. destruct t. cbv [AlterReplicaLogDirTopic34_of AlterReplicaLogDirTopic34_to]. cbn [fst snd AlterReplicaLogDirTopic34_Name AlterReplicaLogDirTopic34_Partitions].  reflexivity.
  - intros x. unfold AlterReplicaLogDirTopic34_schema in x. cbn [dens den] in x. destruct x as [x0 x]. destruct x as [x1 x]. destruct x. cbv [AlterReplicaLogDirTopic34_of AlterReplicaLogDirTopic34_to]. cbn [fst snd AlterReplicaLogDirTopic34_Name AlterReplicaLogDirTopic34_Partitions].  reflexivity.
  - reflexivity.
  - intros v t. unfold AlterReplicaLogDirTopic34_Size, AlterReplicaLogDirTopic34_schema, AlterReplicaLogDirTopic34_to. apply size_start.
    apply size_step; [intros sz; reflexivity|].
    apply size_step; [intros sz; reflexivity|].
    intros sz; reflexivity.
  - intros v t. unfold AlterReplicaLogDirTopic34_Encode, AlterReplicaLogDirTopic34_schema, AlterReplicaLogDirTopic34_to.
    apply enc_step; [intros e; reflexivity|].
    apply enc_step; [intros e; reflexivity|].
    intros e; reflexivity.
  - intros v t. unfold AlterReplicaLogDirTopic34_Decode, AlterReplicaLogDirTopic34_schema, AlterReplicaLogDirTopic34_to.
    dec_field (fun x : gostring => x); [apply dmap_id|intros x_Name].
    dec_field (fun x : gslice Z => x); [apply dmap_id|intros x_Partitions].
    intros d; reflexivity.
Qed.
Local Opaque AlterReplicaLogDirTopic34_Size AlterReplicaLogDirTopic34_Encode AlterReplicaLogDirTopic34_Decode.

(** ** AlterReplicaLogDir34 *)

(** message/messages.gen.go:9092-9095 *)
Record AlterReplicaLogDir34 : Type := mkAlterReplicaLogDir34 { AlterReplicaLogDir34_Path : gostring; AlterReplicaLogDir34_Topics : gslice AlterReplicaLogDirTopic34 }.
(** the zero value ([var item AlterReplicaLogDir34]) *)
Definition AlterReplicaLogDir34_zero : AlterReplicaLogDir34 := mkAlterReplicaLogDir34 [] None.
(** message/messages.gen.go:9098-9106 *)
Definition AlterReplicaLogDir34_Size (version : Z) (t : AlterReplicaLogDir34) : Z :=
  ((size_add (sz_String (AlterReplicaLogDir34_Path t))) +>
   (size_loop (AlterReplicaLogDirTopic34_Size version) (AlterReplicaLogDir34_Topics t)) +>
   size_done)%size 0.
(** message/messages.gen.go:9109-9117 *)
Definition AlterReplicaLogDir34_Encode (version : Z) (t : AlterReplicaLogDir34) : Encoder -> Encoder :=
  ((PutString (AlterReplicaLogDir34_Path t)) >>
   (put_array (AlterReplicaLogDirTopic34_Encode version) (AlterReplicaLogDir34_Topics t)) >>
   skip)%enc.
(** message/messages.gen.go:9120-9140 *)
Definition AlterReplicaLogDir34_Decode (version : Z) (t : AlterReplicaLogDir34) : Dec AlterReplicaLogDir34 :=
  x_Path <- dString ;;
  x_Topics <- (dec_array (AlterReplicaLogDirTopic34_Decode version AlterReplicaLogDirTopic34_zero) (AlterReplicaLogDir34_Topics t)) ;;
  ret (mkAlterReplicaLogDir34 x_Path x_Topics).
(** the struct declaration read as a schema; version ranges as in Size *)
Definition AlterReplicaLogDir34_schema : fields :=
  FCons "Path" Always TString
  (FCons "Topics" Always (TArray AlterReplicaLogDirTopic34_schema) FNil).
Definition AlterReplicaLogDir34_to (t : AlterReplicaLogDir34) : dens AlterReplicaLogDir34_schema := (AlterReplicaLogDir34_Path t, (option_map (map AlterReplicaLogDirTopic34_to) (AlterReplicaLogDir34_Topics t), tt)).
Definition AlterReplicaLogDir34_of (x : dens AlterReplicaLogDir34_schema) : AlterReplicaLogDir34 := mkAlterReplicaLogDir34 (fst x) (option_map (map AlterReplicaLogDirTopic34_of) (fst (snd x))).
Definition AlterReplicaLogDir34_codec : codec := Codec AlterReplicaLogDir34 AlterReplicaLogDir34_zero AlterReplicaLogDir34_Size AlterReplicaLogDir34_Encode AlterReplicaLogDir34_Decode AlterReplicaLogDir34_schema AlterReplicaLogDir34_to AlterReplicaLogDir34_of.
Lemma AlterReplicaLogDir34_linked : linked AlterReplicaLogDir34_codec.
Proof.
  apply Linked; cbn [AlterReplicaLogDir34_codec c_type c_zero c_size c_encode c_decode c_schema c_to c_of].
  - intros t. destruct t. cbv [AlterReplicaLogDir34_of AlterReplicaLogDir34_to]. cbn [fst snd AlterReplicaLogDir34_Path AlterReplicaLogDir34_Topics]. rewrite ?(option_map_map_inv AlterReplicaLogDirTopic34_to AlterReplicaLogDirTopic34_of _ (l_of_to _ AlterReplicaLogDirTopic34_linked)). reflexivity.
  - intros x. unfold AlterReplicaLogDir34_schema in x. cbn [dens den] in x. destruct x as [x0 x]. destruct x as [x1 x]. destruct x. cbv [AlterReplicaLogDir34_of AlterReplicaLogDir34_to]. cbn [fst snd AlterReplicaLogDir34_Path AlterReplicaLogDir34_Topics]. rewrite ?(option_map_map_inv AlterReplicaLogDirTopic34_of AlterReplicaLogDirTopic34_to _ (l_to_of _ AlterReplicaLogDirTopic34_linked)). reflexivity.
  - reflexivity.
  - intros v t. unfold AlterReplicaLogDir34_Size, AlterReplicaLogDir34_schema, AlterReplicaLogDir34_to. apply size_start.
    apply size_step; [intros sz; reflexivity|].
    apply size_step; [intros sz; apply (size_field_link (AlterReplicaLogDirTopic34_Size v) AlterReplicaLogDirTopic34_schema AlterReplicaLogDirTopic34_to v (l_size _ AlterReplicaLogDirTopic34_linked v) true)|].
    intros sz; reflexivity.
  - intros v t. unfold AlterReplicaLogDir34_Encode, AlterReplicaLogDir34_schema, AlterReplicaLogDir34_to.
    apply enc_step; [intros e; reflexivity|].
    apply enc_step; [intros e; apply (put_field_link (AlterReplicaLogDirTopic34_Encode v) AlterReplicaLogDirTopic34_schema AlterReplicaLogDirTopic34_to v (l_encode _ AlterReplicaLogDirTopic34_linked v) true)|].
    intros e; reflexivity.
  - intros v t. unfold AlterReplicaLogDir34_Decode, AlterReplicaLogDir34_schema, AlterReplicaLogDir34_to.
    dec_field (fun x : gostring => x); [apply dmap_id|intros x_Path].
    dec_field (option_map (map AlterReplicaLogDirTopic34_of)); [apply (dec_array_link _ _ AlterReplicaLogDirTopic34_of AlterReplicaLogDirTopic34_to (l_decode _ AlterReplicaLogDirTopic34_linked v AlterReplicaLogDirTopic34_zero) (l_of_to _ AlterReplicaLogDirTopic34_linked))|intros x_Topics].
    intros d; reflexivity.
Qed.
Local Opaque AlterReplicaLogDir34_Size AlterReplicaLogDir34_Encode AlterReplicaLogDir34_Decode.

(** ** AlterReplicaLogDirsRequest *)

(** message/messages.gen.go:9049-9051 *)
Record AlterReplicaLogDirsRequest : Type := mkAlterReplicaLogDirsRequest { AlterReplicaLogDirsRequest_Dirs : gslice AlterReplicaLogDir34 }.
(** the zero value ([var item AlterReplicaLogDirsRequest]) *)
Definition AlterReplicaLogDirsRequest_zero : AlterReplicaLogDirsRequest := mkAlterReplicaLogDirsRequest None.
(** message/messages.gen.go:9054-9061 *)
Definition AlterReplicaLogDirsRequest_Size (version : Z) (t : AlterReplicaLogDirsRequest) : Z :=
  ((size_loop (AlterReplicaLogDir34_Size version) (AlterReplicaLogDirsRequest_Dirs t)) +>
   size_done)%size 0.
(** message/messages.gen.go:9064-9071 *)
Definition AlterReplicaLogDirsRequest_Encode (version : Z) (t : AlterReplicaLogDirsRequest) : Encoder -> Encoder :=
  ((put_array (AlterReplicaLogDir34_Encode version) (AlterReplicaLogDirsRequest_Dirs t)) >>
   skip)%enc.
(** message/messages.gen.go:9074-9090 *)
Definition AlterReplicaLogDirsRequest_Decode (version : Z) (t : AlterReplicaLogDirsRequest) : Dec AlterReplicaLogDirsRequest :=
  x_Dirs <- (dec_array (AlterReplicaLogDir34_Decode version AlterReplicaLogDir34_zero) (AlterReplicaLogDirsRequest_Dirs t)) ;;
  ret (mkAlterReplicaLogDirsRequest x_Dirs).
(** the struct declaration read as a schema; version ranges as in Size *)
Definition AlterReplicaLogDirsRequest_schema : fields :=
  FCons "Dirs" Always (TArray AlterReplicaLogDir34_schema) FNil.
Definition AlterReplicaLogDirsRequest_to (t : AlterReplicaLogDirsRequest) : dens AlterReplicaLogDirsRequest_schema := (option_map (map AlterReplicaLogDir34_to) (AlterReplicaLogDirsRequest_Dirs t), tt).
Definition AlterReplicaLogDirsRequest_of (x : dens AlterReplicaLogDirsRequest_schema) : AlterReplicaLogDirsRequest := mkAlterReplicaLogDirsRequest (option_map (map AlterReplicaLogDir34_of) (fst x)).
Definition AlterReplicaLogDirsRequest_codec : codec := Codec AlterReplicaLogDirsRequest AlterReplicaLogDirsRequest_zero AlterReplicaLogDirsRequest_Size AlterReplicaLogDirsRequest_Encode AlterReplicaLogDirsRequest_Decode AlterReplicaLogDirsRequest_schema AlterReplicaLogDirsRequest_to AlterReplicaLogDirsRequest_of.
Lemma AlterReplicaLogDirsRequest_linked : linked AlterReplicaLogDirsRequest_codec.
Proof.
  apply Linked; cbn [AlterReplicaLogDirsRequest_codec c_type c_zero c_size c_encode c_decode c_schema c_to c_of].
  - intros t. destruct t. cbv [AlterReplicaLogDirsRequest_of AlterReplicaLogDirsRequest_to]. cbn [fst snd AlterReplicaLogDirsRequest_Dirs]. rewrite ?(option_map_map_inv AlterReplicaLogDir34_to AlterReplicaLogDir34_of _ (l_of_to _ AlterReplicaLogDir34_linked)). reflexivity.
  - intros x. unfold AlterReplicaLogDirsRequest_schema in x. cbn [dens den] in x. destruct x as [x0 x]. destruct x. cbv [AlterReplicaLogDirsRequest_of AlterReplicaLogDirsRequest_to]. cbn [fst snd AlterReplicaLogDirsRequest_Dirs]. rewrite ?(option_map_map_inv AlterReplicaLogDir34_of AlterReplicaLogDir34_to _ (l_to_of _ AlterReplicaLogDir34_linked)). reflexivity.
  - reflexivity.
  - intros v t. unfold AlterReplicaLogDirsRequest_Size, AlterReplicaLogDirsRequest_schema, AlterReplicaLogDirsRequest_to. apply size_start.
    apply size_step; [intros sz; apply (size_field_link (AlterReplicaLogDir34_Size v) AlterReplicaLogDir34_schema AlterReplicaLogDir34_to v (l_size _ AlterReplicaLogDir34_linked v) true)|].
    intros sz; reflexivity.
  - intros v t. unfold AlterReplicaLogDirsRequest_Encode, AlterReplicaLogDirsRequest_schema, AlterReplicaLogDirsRequest_to.
    apply enc_step; [intros e; apply (put_field_link (AlterReplicaLogDir34_Encode v) AlterReplicaLogDir34_schema AlterReplicaLogDir34_to v (l_encode _ AlterReplicaLogDir34_linked v) true)|].
    intros e; reflexivity.
  - intros v t. unfold AlterReplicaLogDirsRequest_Decode, AlterReplicaLogDirsRequest_schema, AlterReplicaLogDirsRequest_to.
    dec_field (option_map (map AlterReplicaLogDir34_of)); [apply (dec_array_link _ _ AlterReplicaLogDir34_of AlterReplicaLogDir34_to (l_decode _ AlterReplicaLogDir34_linked v AlterReplicaLogDir34_zero) (l_of_to _ AlterReplicaLogDir34_linked))|intros x_Dirs].
    intros d; reflexivity.
Qed.
Local Opaque AlterReplicaLogDirsRequest_Size AlterReplicaLogDirsRequest_Encode AlterReplicaLogDirsRequest_Decode.

