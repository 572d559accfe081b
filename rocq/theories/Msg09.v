(** * Generated message types (part 9 of 10).

    Written by tools/gen_messages.py from message/messages.gen.go, one
    definition per Go method; do not edit.  A Decode method that fails leaves
    a partly filled receiver behind, which no caller looks at; the model drops
    it. *)
From Coq Require Import String.
From Verif Require Import GoBase Encoder Decoder Sizeof SchemaSpec Schema Link.
Open Scope Z_scope.

(** ** ExpireDelegationTokenResponse *)

(** message/messages.gen.go:10181-10185 *)
Record ExpireDelegationTokenResponse : Type := mkExpireDelegationTokenResponse { ExpireDelegationTokenResponse_ErrorCode : Z; ExpireDelegationTokenResponse_ExpiryTimestampMs : Z; ExpireDelegationTokenResponse_ThrottleTimeMs : Z }.
(** the zero value ([var item ExpireDelegationTokenResponse]) *)
Definition ExpireDelegationTokenResponse_zero : ExpireDelegationTokenResponse := mkExpireDelegationTokenResponse 0 0 0.
(** message/messages.gen.go:10188-10194 *)
Definition ExpireDelegationTokenResponse_Size (version : Z) (t : ExpireDelegationTokenResponse) : Z :=
  ((size_add sz_Int16) +>
   (size_add sz_Int64) +>
   (size_add sz_Int32) +>
   size_done)%size 0.
(** message/messages.gen.go:10197-10201 *)
Definition ExpireDelegationTokenResponse_Encode (version : Z) (t : ExpireDelegationTokenResponse) : Encoder -> Encoder :=
  ((PutInt16 (ExpireDelegationTokenResponse_ErrorCode t)) >>
   (PutInt64 (ExpireDelegationTokenResponse_ExpiryTimestampMs t)) >>
   (PutInt32 (ExpireDelegationTokenResponse_ThrottleTimeMs t)) >>
   skip)%enc.
(** message/messages.gen.go:10204-10219 *)
Definition ExpireDelegationTokenResponse_Decode (version : Z) (t : ExpireDelegationTokenResponse) : Dec ExpireDelegationTokenResponse :=
  x_ErrorCode <- dInt16 ;;
  x_ExpiryTimestampMs <- dInt64 ;;
  x_ThrottleTimeMs <- dInt32 ;;
  ret (mkExpireDelegationTokenResponse x_ErrorCode x_ExpiryTimestampMs x_ThrottleTimeMs).
(** the struct declaration read as a schema; version ranges as in Size *)
Definition ExpireDelegationTokenResponse_schema : fields :=
  FCons "ErrorCode" Always TInt16
  (FCons "ExpiryTimestampMs" Always TInt64
  (FCons "ThrottleTimeMs" Always TInt32 FNil)).
Definition ExpireDelegationTokenResponse_to (t : ExpireDelegationTokenResponse) : dens ExpireDelegationTokenResponse_schema := (ExpireDelegationTokenResponse_ErrorCode t, (ExpireDelegationTokenResponse_ExpiryTimestampMs t, (ExpireDelegationTokenResponse_ThrottleTimeMs t, tt))).
Definition ExpireDelegationTokenResponse_of (x : dens ExpireDelegationTokenResponse_schema) : ExpireDelegationTokenResponse := mkExpireDelegationTokenResponse (fst x) (fst (snd x)) (fst (snd (snd x))).
Definition ExpireDelegationTokenResponse_codec : codec := Codec ExpireDelegationTokenResponse ExpireDelegationTokenResponse_zero ExpireDelegationTokenResponse_Size ExpireDelegationTokenResponse_Encode ExpireDelegationTokenResponse_Decode ExpireDelegationTokenResponse_schema ExpireDelegationTokenResponse_to ExpireDelegationTokenResponse_of.
Lemma ExpireDelegationTokenResponse_linked : linked ExpireDelegationTokenResponse_codec.
Proof.
  apply Linked; cbn [ExpireDelegationTokenResponse_codec c_type c_zero c_size c_encode c_decode c_schema c_to c_of].
  - intros t. destruct t. cbv [ExpireDelegationTokenResponse_of ExpireDelegationTokenResponse_to]. cbn [fst snd ExpireDelegationTokenResponse_ErrorCode ExpireDelegationTokenResponse_ExpiryTimestampMs ExpireDelegationTokenResponse_ThrottleTimeMs].  reflexivity.
  - intros x. unfold ExpireDelegationTokenResponse_schema in x. cbn [dens den] in x. destruct x as [x0 x]. destruct x as [x1 x]. destruct x as [x2 x]. destruct x. cbv [ExpireDelegationTokenResponse_of ExpireDelegationTokenResponse_to]. cbn [fst snd ExpireDelegationTokenResponse_ErrorCode ExpireDelegationTokenResponse_ExpiryTimestampMs ExpireDelegationTokenResponse_ThrottleTimeMs].  reflexivity.
  - reflexivity.
  - intros v t. unfold ExpireDelegationTokenResponse_Size, ExpireDelegationTokenResponse_schema, ExpireDelegationTokenResponse_to. apply size_start.
    apply size_step; [intros sz; reflexivity|].
    apply size_step; [intros sz; reflexivity|].
    apply size_step; [intros sz; reflexivity|].
    intros sz; reflexivity.
  - intros v t. unfold ExpireDelegationTokenResponse_Encode, ExpireDelegationTokenResponse_schema, ExpireDelegationTokenResponse_to.
    apply enc_step; [intros e; reflexivity|].
    apply enc_step; [intros e; reflexivity|].
    apply enc_step; [intros e; reflexivity|].
    intros e; reflexivity.
  - intros v t. unfold ExpireDelegationTokenResponse_Decode, ExpireDelegationTokenResponse_schema, ExpireDelegationTokenResponse_to.
    dec_field (fun x : Z => x); [apply dmap_id|intros x_ErrorCode].
    dec_field (fun x : Z => x); [apply dmap_id|intros x_ExpiryTimestampMs].
    dec_field (fun x : Z => x); [apply dmap_id|intros x_ThrottleTimeMs].
    intros d; reflexivity.
Qed.
Local Opaque ExpireDelegationTokenResponse_Size ExpireDelegationTokenResponse_Encode ExpireDelegationTokenResponse_Decode.

(** ** DescribeDelegationTokenOwner41 *)

(** message/messages.gen.go:10265-10268 *)
Record DescribeDelegationTokenOwner41 : Type := mkDescribeDelegationTokenOwner41 { DescribeDelegationTokenOwner41_PrincipalType : gostring; DescribeDelegationTokenOwner41_PrincipalName : gostring }.
(** the zero value ([var item DescribeDelegationTokenOwner41]) *)
Definition DescribeDelegationTokenOwner41_zero : DescribeDelegationTokenOwner41 := mkDescribeDelegationTokenOwner41 [] [].
(** message/messages.gen.go:10271-10276 *)
Definition DescribeDelegationTokenOwner41_Size (version : Z) (t : DescribeDelegationTokenOwner41) : Z :=
  ((size_add (sz_String (DescribeDelegationTokenOwner41_PrincipalType t))) +>
   (size_add (sz_String (DescribeDelegationTokenOwner41_PrincipalName t))) +>
   size_done)%size 0.
(** message/messages.gen.go:10279-10282 *)
Definition DescribeDelegationTokenOwner41_Encode (version : Z) (t : DescribeDelegationTokenOwner41) : Encoder -> Encoder :=
  ((PutString (DescribeDelegationTokenOwner41_PrincipalType t)) >>
   (PutString (DescribeDelegationTokenOwner41_PrincipalName t)) >>
   skip)%enc.
(** message/messages.gen.go:10285-10296 *)
Definition DescribeDelegationTokenOwner41_Decode (version : Z) (t : DescribeDelegationTokenOwner41) : Dec DescribeDelegationTokenOwner41 :=
  x_PrincipalType <- dString ;;
  x_PrincipalName <- dString ;;
  ret (mkDescribeDelegationTokenOwner41 x_PrincipalType x_PrincipalName).
(** the struct declaration read as a schema; version ranges as in Size *)
Definition DescribeDelegationTokenOwner41_schema : fields :=
  FCons "PrincipalType" Always TString
  (FCons "PrincipalName" Always TString FNil).
Definition DescribeDelegationTokenOwner41_to (t : DescribeDelegationTokenOwner41) : dens DescribeDelegationTokenOwner41_schema := (DescribeDelegationTokenOwner41_PrincipalType t, (DescribeDelegationTokenOwner41_PrincipalName t, tt)).
Definition DescribeDelegationTokenOwner41_of (x : dens DescribeDelegationTokenOwner41_schema) : DescribeDelegationTokenOwner41 := mkDescribeDelegationTokenOwner41 (fst x) (fst (snd x)).
Definition DescribeDelegationTokenOwner41_codec : codec := Codec DescribeDelegationTokenOwner41 DescribeDelegationTokenOwner41_zero DescribeDelegationTokenOwner41_Size DescribeDelegationTokenOwner41_Encode DescribeDelegationTokenOwner41_Decode DescribeDelegationTokenOwner41_schema DescribeDelegationTokenOwner41_to DescribeDelegationTokenOwner41_of.
Lemma DescribeDelegationTokenOwner41_linked : linked DescribeDelegationTokenOwner41_codec.
Proof.
  apply Linked; cbn [DescribeDelegationTokenOwner41_codec c_type c_zero c_size c_encode c_decode c_schema c_to c_of].
  - intros t. destruct t. cbv [DescribeDelegationTokenOwner41_of DescribeDelegationTokenOwner41_to]. cbn [fst snd DescribeDelegationTokenOwner41_PrincipalType DescribeDelegationTokenOwner41_PrincipalName].  reflexivity.
  - intros x. unfold DescribeDelegationTokenOwner41_schema in x. cbn [dens den] in x. destruct x as [x0 x]. destruct x as [x1 x]. destruct x. cbv [DescribeDelegationTokenOwner41_of DescribeDelegationTokenOwner41_to]. cbn [fst snd DescribeDelegationTokenOwner41_PrincipalType DescribeDelegationTokenOwner41_PrincipalName].  reflexivity.
  - reflexivity.
  - intros v t. unfold DescribeDelegationTokenOwner41_Size, DescribeDelegationTokenOwner41_schema, DescribeDelegationTokenOwner41_to. apply size_start.
    apply size_step; [intros sz; reflexivity|].
    apply size_step; [intros sz; reflexivity|].
    intros sz; reflexivity.
  - intros v t. unfold DescribeDelegationTokenOwner41_Encode, DescribeDelegationTokenOwner41_schema, DescribeDelegationTokenOwner41_to.
    apply enc_step; [intros e; reflexivity|].
    apply enc_step; [intros e; reflexivity|].
    intros e; reflexivity.
  - intros v t. unfold DescribeDelegationTokenOwner41_Decode, DescribeDelegationTokenOwner41_schema, DescribeDelegationTokenOwner41_to.
    dec_field (fun x : gostring => x); [apply dmap_id|intros x_PrincipalType].
    dec_field (fun x : gostring => x); [apply dmap_id|intros x_PrincipalName].
    intros d; reflexivity.
Qed.
Local Opaque DescribeDelegationTokenOwner41_Size DescribeDelegationTokenOwner41_Encode DescribeDelegationTokenOwner41_Decode.

(** ** DescribeDelegationTokenRequest *)

(** message/messages.gen.go:10222-10224 *)
Record DescribeDelegationTokenRequest : Type := mkDescribeDelegationTokenRequest { DescribeDelegationTokenRequest_Owners : gslice DescribeDelegationTokenOwner41 }.
(** the zero value ([var item DescribeDelegationTokenRequest]) *)
Definition DescribeDelegationTokenRequest_zero : DescribeDelegationTokenRequest := mkDescribeDelegationTokenRequest None.
(** message/messages.gen.go:10227-10234 *)
Definition DescribeDelegationTokenRequest_Size (version : Z) (t : DescribeDelegationTokenRequest) : Z :=
  ((size_loop (DescribeDelegationTokenOwner41_Size version) (DescribeDelegationTokenRequest_Owners t)) +>
   size_done)%size 0.
(** message/messages.gen.go:10237-10244 *)
Definition DescribeDelegationTokenRequest_Encode (version : Z) (t : DescribeDelegationTokenRequest) : Encoder -> Encoder :=
  ((put_array (DescribeDelegationTokenOwner41_Encode version) (DescribeDelegationTokenRequest_Owners t)) >>
   skip)%enc.
(** message/messages.gen.go:10247-10263 *)
Definition DescribeDelegationTokenRequest_Decode (version : Z) (t : DescribeDelegationTokenRequest) : Dec DescribeDelegationTokenRequest :=
  x_Owners <- (dec_array (DescribeDelegationTokenOwner41_Decode version DescribeDelegationTokenOwner41_zero) (DescribeDelegationTokenRequest_Owners t)) ;;
  ret (mkDescribeDelegationTokenRequest x_Owners).
(** the struct declaration read as a schema; version ranges as in Size *)
Definition DescribeDelegationTokenRequest_schema : fields :=
  FCons "Owners" Always (TArray DescribeDelegationTokenOwner41_schema) FNil.
Definition DescribeDelegationTokenRequest_to (t : DescribeDelegationTokenRequest) : dens DescribeDelegationTokenRequest_schema := (option_map (map DescribeDelegationTokenOwner41_to) (DescribeDelegationTokenRequest_Owners t), tt).
Definition DescribeDelegationTokenRequest_of (x : dens DescribeDelegationTokenRequest_schema) : DescribeDelegationTokenRequest := mkDescribeDelegationTokenRequest (option_map (map DescribeDelegationTokenOwner41_of) (fst x)).
Definition DescribeDelegationTokenRequest_codec : codec := Codec DescribeDelegationTokenRequest DescribeDelegationTokenRequest_zero DescribeDelegationTokenRequest_Size DescribeDelegationTokenRequest_Encode DescribeDelegationTokenRequest_Decode DescribeDelegationTokenRequest_schema DescribeDelegationTokenRequest_to DescribeDelegationTokenRequest_of.
Lemma DescribeDelegationTokenRequest_linked : linked DescribeDelegationTokenRequest_codec.
Proof.
  apply Linked; cbn [DescribeDelegationTokenRequest_codec c_type c_zero c_size c_encode c_decode c_schema c_to c_of].
  - intros t. destruct t. cbv [DescribeDelegationTokenRequest_of DescribeDelegationTokenRequest_to]. cbn [fst snd DescribeDelegationTokenRequest_Owners]. rewrite ?(option_map_map_inv DescribeDelegationTokenOwner41_to DescribeDelegationTokenOwner41_of _ (l_of_to _ DescribeDelegationTokenOwner41_linked)). reflexivity.
  - intros x. unfold DescribeDelegationTokenRequest_schema in x. cbn [dens den] in x. destruct x as [x0 x]. destruct x. cbv [DescribeDelegationTokenRequest_of DescribeDelegationTokenRequest_to]. cbn [fst snd DescribeDelegationTokenRequest_Owners]. rewrite ?(option_map_map_inv DescribeDelegationTokenOwner41_of DescribeDelegationTokenOwner41_to _ (l_to_of _ DescribeDelegationTokenOwner41_linked)). reflexivity.
  - reflexivity.
  - intros v t. unfold DescribeDelegationTokenRequest_Size, DescribeDelegationTokenRequest_schema, DescribeDelegationTokenRequest_to. apply size_start.
    apply size_step; [intros sz; apply (size_field_link (DescribeDelegationTokenOwner41_Size v) DescribeDelegationTokenOwner41_schema DescribeDelegationTokenOwner41_to v (l_size _ DescribeDelegationTokenOwner41_linked v) true)|].
    intros sz; reflexivity.
  - intros v t. unfold DescribeDelegationTokenRequest_Encode, DescribeDelegationTokenRequest_schema, DescribeDelegationTokenRequest_to.
    apply enc_step; [intros e; apply (put_field_link (DescribeDelegationTokenOwner41_Encode v) DescribeDelegationTokenOwner41_schema DescribeDelegationTokenOwner41_to v (l_encode _ DescribeDelegationTokenOwner41_linked v) true)|].
    intros e; reflexivity.
  - intros v t. unfold DescribeDelegationTokenRequest_Decode, DescribeDelegationTokenRequest_schema, DescribeDelegationTokenRequest_to.
    dec_field (option_map (map DescribeDelegationTokenOwner41_of)); [apply (dec_array_link _ _ DescribeDelegationTokenOwner41_of DescribeDelegationTokenOwner41_to (l_decode _ DescribeDelegationTokenOwner41_linked v DescribeDelegationTokenOwner41_zero) (l_of_to _ DescribeDelegationTokenOwner41_linked))|intros x_Owners].
    intros d; reflexivity.
Qed.
Local Opaque DescribeDelegationTokenRequest_Size DescribeDelegationTokenRequest_Encode DescribeDelegationTokenRequest_Decode.

(** ** DescribedDelegationTokenRenewer41 *)

(** message/messages.gen.go:10448-10451 *)
Record DescribedDelegationTokenRenewer41 : Type := mkDescribedDelegationTokenRenewer41 { DescribedDelegationTokenRenewer41_PrincipalType : gostring; DescribedDelegationTokenRenewer41_PrincipalName : gostring }.
(** the zero value ([var item DescribedDelegationTokenRenewer41]) *)
Definition DescribedDelegationTokenRenewer41_zero : DescribedDelegationTokenRenewer41 := mkDescribedDelegationTokenRenewer41 [] [].
(** message/messages.gen.go:10454-10459 *)
Definition DescribedDelegationTokenRenewer41_Size (version : Z) (t : DescribedDelegationTokenRenewer41) : Z :=
  ((size_add (sz_String (DescribedDelegationTokenRenewer41_PrincipalType t))) +>
   (size_add (sz_String (DescribedDelegationTokenRenewer41_PrincipalName t))) +>
   size_done)%size 0.
(** message/messages.gen.go:10462-10465 *)
Definition DescribedDelegationTokenRenewer41_Encode (version : Z) (t : DescribedDelegationTokenRenewer41) : Encoder -> Encoder :=
  ((PutString (DescribedDelegationTokenRenewer41_PrincipalType t)) >>
   (PutString (DescribedDelegationTokenRenewer41_PrincipalName t)) >>
   skip)%enc.
(** message/messages.gen.go:10468-10479 *)
Definition DescribedDelegationTokenRenewer41_Decode (version : Z) (t : DescribedDelegationTokenRenewer41) : Dec DescribedDelegationTokenRenewer41 :=
  x_PrincipalType <- dString ;;
  x_PrincipalName <- dString ;;
  ret (mkDescribedDelegationTokenRenewer41 x_PrincipalType x_PrincipalName).
(** the struct declaration read as a schema; version ranges as in Size *)
Definition DescribedDelegationTokenRenewer41_schema : fields :=
  FCons "PrincipalType" Always TString
  (FCons "PrincipalName" Always TString FNil).
Definition DescribedDelegationTokenRenewer41_to (t : DescribedDelegationTokenRenewer41) : dens DescribedDelegationTokenRenewer41_schema := (DescribedDelegationTokenRenewer41_PrincipalType t, (DescribedDelegationTokenRenewer41_PrincipalName t, tt)).
Definition DescribedDelegationTokenRenewer41_of (x : dens DescribedDelegationTokenRenewer41_schema) : DescribedDelegationTokenRenewer41 := mkDescribedDelegationTokenRenewer41 (fst x) (fst (snd x)).
Definition DescribedDelegationTokenRenewer41_codec : codec := Codec DescribedDelegationTokenRenewer41 DescribedDelegationTokenRenewer41_zero DescribedDelegationTokenRenewer41_Size DescribedDelegationTokenRenewer41_Encode DescribedDelegationTokenRenewer41_Decode DescribedDelegationTokenRenewer41_schema DescribedDelegationTokenRenewer41_to DescribedDelegationTokenRenewer41_of.
Lemma DescribedDelegationTokenRenewer41_linked : linked DescribedDelegationTokenRenewer41_codec.
Proof.
  apply Linked; cbn [DescribedDelegationTokenRenewer41_codec c_type c_zero c_size c_encode c_decode c_schema c_to c_of].
  - intros t. destruct t. cbv [DescribedDelegationTokenRenewer41_of DescribedDelegationTokenRenewer41_to]. cbn [fst snd DescribedDelegationTokenRenewer41_PrincipalType DescribedDelegationTokenRenewer41_PrincipalName].  reflexivity.
  - intros x. unfold DescribedDelegationTokenRenewer41_schema in x. cbn [dens den] in x. destruct x as [x0 x]. destruct x as [x1 x]. destruct x. cbv [DescribedDelegationTokenRenewer41_of DescribedDelegationTokenRenewer41_to]. cbn [fst snd DescribedDelegationTokenRenewer41_PrincipalType DescribedDelegationTokenRenewer41_PrincipalName].  reflexivity.
  - reflexivity.
  - intros v t. unfold DescribedDelegationTokenRenewer41_Size, DescribedDelegationTokenRenewer41_schema, DescribedDelegationTokenRenewer41_to. apply size_start.
    apply size_step; [intros sz; reflexivity|].
    apply size_step; [intros sz; reflexivity|].
    intros sz; reflexivity.
  - intros v t. unfold DescribedDelegationTokenRenewer41_Encode, DescribedDelegationTokenRenewer41_schema, DescribedDelegationTokenRenewer41_to.
    apply enc_step; [intros e; reflexivity|].
    apply enc_step; [intros e; reflexivity|].
    intros e; reflexivity.
  - intros v t. unfold DescribedDelegationTokenRenewer41_Decode, DescribedDelegationTokenRenewer41_schema, DescribedDelegationTokenRenewer41_to.
    dec_field (fun x : gostring => x); [apply dmap_id|intros x_PrincipalType].
    dec_field (fun x : gostring => x); [apply dmap_id|intros x_PrincipalName].
    intros d; reflexivity.
Qed.
Local Opaque DescribedDelegationTokenRenewer41_Size DescribedDelegationTokenRenewer41_Encode DescribedDelegationTokenRenewer41_Decode.

(** ** DescribedDelegationToken41 *)

(** message/messages.gen.go:10356-10365 *)
Record DescribedDelegationToken41 : Type := mkDescribedDelegationToken41 { DescribedDelegationToken41_PrincipalType : gostring; DescribedDelegationToken41_PrincipalName : gostring; DescribedDelegationToken41_IssueTimestamp : Z; DescribedDelegationToken41_ExpiryTimestamp : Z; DescribedDelegationToken41_MaxTimestamp : Z; DescribedDelegationToken41_TokenId : gostring; DescribedDelegationToken41_Hmac : gslice Z; DescribedDelegationToken41_Renewers : gslice DescribedDelegationTokenRenewer41 }.
(** the zero value ([var item DescribedDelegationToken41]) *)
Definition DescribedDelegationToken41_zero : DescribedDelegationToken41 := mkDescribedDelegationToken41 [] [] 0 0 0 [] None None.
(** message/messages.gen.go:10368-10382 *)
Definition DescribedDelegationToken41_Size (version : Z) (t : DescribedDelegationToken41) : Z :=
  ((size_add (sz_String (DescribedDelegationToken41_PrincipalType t))) +>
   (size_add (sz_String (DescribedDelegationToken41_PrincipalName t))) +>
   (size_add sz_Int64) +>
   (size_add sz_Int64) +>
   (size_add sz_Int64) +>
   (size_add (sz_String (DescribedDelegationToken41_TokenId t))) +>
   (size_add (sz_Bytes (DescribedDelegationToken41_Hmac t))) +>
   (size_loop (DescribedDelegationTokenRenewer41_Size version) (DescribedDelegationToken41_Renewers t)) +>
   size_done)%size 0.
(** message/messages.gen.go:10385-10399 *)
Definition DescribedDelegationToken41_Encode (version : Z) (t : DescribedDelegationToken41) : Encoder -> Encoder :=
  ((PutString (DescribedDelegationToken41_PrincipalType t)) >>
   (PutString (DescribedDelegationToken41_PrincipalName t)) >>
   (PutInt64 (DescribedDelegationToken41_IssueTimestamp t)) >>
   (PutInt64 (DescribedDelegationToken41_ExpiryTimestamp t)) >>
   (PutInt64 (DescribedDelegationToken41_MaxTimestamp t)) >>
   (PutString (DescribedDelegationToken41_TokenId t)) >>
   (PutBytes (DescribedDelegationToken41_Hmac t)) >>
   (put_array (DescribedDelegationTokenRenewer41_Encode version) (DescribedDelegationToken41_Renewers t)) >>
   skip)%enc.
(** message/messages.gen.go:10402-10446 *)
Definition DescribedDelegationToken41_Decode (version : Z) (t : DescribedDelegationToken41) : Dec DescribedDelegationToken41 :=
  x_PrincipalType <- dString ;;
  x_PrincipalName <- dString ;;
  x_IssueTimestamp <- dInt64 ;;
  x_ExpiryTimestamp <- dInt64 ;;
  x_MaxTimestamp <- dInt64 ;;
  x_TokenId <- dString ;;
  x_Hmac <- dBytes ;;
  x_Renewers <- (dec_array (DescribedDelegationTokenRenewer41_Decode version DescribedDelegationTokenRenewer41_zero) (DescribedDelegationToken41_Renewers t)) ;;
  ret (mkDescribedDelegationToken41 x_PrincipalType x_PrincipalName x_IssueTimestamp x_ExpiryTimestamp x_MaxTimestamp x_TokenId x_Hmac x_Renewers).
(** the struct declaration read as a schema; version ranges as in Size *)
Definition DescribedDelegationToken41_schema : fields :=
  FCons "PrincipalType" Always TString
  (FCons "PrincipalName" Always TString
  (FCons "IssueTimestamp" Always TInt64
  (FCons "ExpiryTimestamp" Always TInt64
  (FCons "MaxTimestamp" Always TInt64
  (FCons "TokenId" Always TString
  (FCons "Hmac" Always TBytes
  (FCons "Renewers" Always (TArray DescribedDelegationTokenRenewer41_schema) FNil))))))).
Definition DescribedDelegationToken41_to (t : DescribedDelegationToken41) : dens DescribedDelegationToken41_schema := (DescribedDelegationToken41_PrincipalType t, (DescribedDelegationToken41_PrincipalName t, (DescribedDelegationToken41_IssueTimestamp t, (DescribedDelegationToken41_ExpiryTimestamp t, (DescribedDelegationToken41_MaxTimestamp t, (DescribedDelegationToken41_TokenId t, (DescribedDelegationToken41_Hmac t, (option_map (map DescribedDelegationTokenRenewer41_to) (DescribedDelegationToken41_Renewers t), tt)))))))).
Definition DescribedDelegationToken41_of (x : dens DescribedDelegationToken41_schema) : DescribedDelegationToken41 := mkDescribedDelegationToken41 (fst x) (fst (snd x)) (fst (snd (snd x))) (fst (snd (snd (snd x)))) (fst (snd (snd (snd (snd x))))) (fst (snd (snd (snd (snd (snd x)))))) (fst (snd (snd (snd (snd (snd (snd x))))))) (option_map (map DescribedDelegationTokenRenewer41_of) (fst (snd (snd (snd (snd (snd (snd (snd x))))))))).
Definition DescribedDelegationToken41_codec : codec := Codec DescribedDelegationToken41 DescribedDelegationToken41_zero DescribedDelegationToken41_Size DescribedDelegationToken41_Encode DescribedDelegationToken41_Decode DescribedDelegationToken41_schema DescribedDelegationToken41_to DescribedDelegationToken41_of.
Lemma DescribedDelegationToken41_linked : linked DescribedDelegationToken41_codec.
Proof.
  apply Linked; cbn [DescribedDelegationToken41_codec c_type c_zero c_size c_encode c_decode c_schema c_to c_of].
  - intros t. destruct t. cbv [DescribedDelegationToken41_of DescribedDelegationToken41_to]. cbn [fst snd DescribedDelegationToken41_PrincipalType DescribedDelegationToken41_PrincipalName DescribedDelegationToken41_IssueTimestamp DescribedDelegationToken41_ExpiryTimestamp DescribedDelegationToken41_MaxTimestamp DescribedDelegationToken41_TokenId DescribedDelegationToken41_Hmac DescribedDelegationToken41_Renewers]. rewrite ?(option_map_map_inv DescribedDelegationTokenRenewer41_to DescribedDelegationTokenRenewer41_of _ (l_of_to _ DescribedDelegationTokenRenewer41_linked)). reflexivity.
  - intros x. unfold DescribedDelegationToken41_schema in x. cbn [dens den] in x. destruct x as [x0 x]. destruct x as [x1 x]. destruct x as [x2 x]. destruct x as [x3 x]. destruct x as [x4 x]. destruct x as [x5 x]. destruct x as [x6 x]. destruct x as [x7 x]. destruct x. cbv [DescribedDelegationToken41_of DescribedDelegationToken41_to]. cbn [fst snd DescribedDelegationToken41_PrincipalType DescribedDelegationToken41_PrincipalName DescribedDelegationToken41_IssueTimestamp DescribedDelegationToken41_ExpiryTimestamp DescribedDelegationToken41_MaxTimestamp DescribedDelegationToken41_TokenId DescribedDelegationToken41_Hmac DescribedDelegationToken41_Renewers]. rewrite ?(option_map_map_inv DescribedDelegationTokenRenewer41_of DescribedDelegationTokenRenewer41_to _ (l_to_of _ DescribedDelegationTokenRenewer41_linked)). reflexivity.
  - reflexivity.
  - intros v t. unfold DescribedDelegationToken41_Size, DescribedDelegationToken41_schema, DescribedDelegationToken41_to. apply size_start.
    apply size_step; [intros sz; reflexivity|].
    apply size_step; [intros sz; reflexivity|].
    apply size_step; [intros sz; reflexivity|].
    apply size_step; [intros sz; reflexivity|].
    apply size_step; [intros sz; reflexivity|].
    apply size_step; [intros sz; reflexivity|].
    apply size_step; [intros sz; reflexivity|].
    apply size_step; [intros sz; apply (size_field_link (DescribedDelegationTokenRenewer41_Size v) DescribedDelegationTokenRenewer41_schema DescribedDelegationTokenRenewer41_to v (l_size _ DescribedDelegationTokenRenewer41_linked v) true)|].
    intros sz; reflexivity.
  - intros v t. unfold DescribedDelegationToken41_Encode, DescribedDelegationToken41_schema, DescribedDelegationToken41_to.
    apply enc_step; [intros e; reflexivity|].
    apply enc_step; [intros e; reflexivity|].
    apply enc_step; [intros e; reflexivity|].
    apply enc_step; [intros e; reflexivity|].
    apply enc_step; [intros e; reflexivity|].
    apply enc_step; [intros e; reflexivity|].
    apply enc_step; [intros e; reflexivity|].
    apply enc_step; [intros e; apply (put_field_link (DescribedDelegationTokenRenewer41_Encode v) DescribedDelegationTokenRenewer41_schema DescribedDelegationTokenRenewer41_to v (l_encode _ DescribedDelegationTokenRenewer41_linked v) true)|].
    intros e; reflexivity.
  - intros v t. unfold DescribedDelegationToken41_Decode, DescribedDelegationToken41_schema, DescribedDelegationToken41_to.
    dec_field (fun x : gostring => x); [apply dmap_id|intros x_PrincipalType].
    dec_field (fun x : gostring => x); [apply dmap_id|intros x_PrincipalName].
    dec_field (fun x : Z => x); [apply dmap_id|intros x_IssueTimestamp].
    dec_field (fun x : Z => x); [apply dmap_id|intros x_ExpiryTimestamp].
    dec_field (fun x : Z => x); [apply dmap_id|intros x_MaxTimestamp].
    dec_field (fun x : gostring => x); [apply dmap_id|intros x_TokenId].
    dec_field (fun x : gslice Z => x); [apply dmap_id|intros x_Hmac].
    dec_field (option_map (map DescribedDelegationTokenRenewer41_of)); [apply (dec_array_link _ _ DescribedDelegationTokenRenewer41_of DescribedDelegationTokenRenewer41_to (l_decode _ DescribedDelegationTokenRenewer41_linked v DescribedDelegationTokenRenewer41_zero) (l_of_to _ DescribedDelegationTokenRenewer41_linked))|intros x_Renewers].
    intros d; reflexivity.
Qed.
Local Opaque DescribedDelegationToken41_Size DescribedDelegationToken41_Encode DescribedDelegationToken41_Decode.

(** ** DescribeDelegationTokenResponse *)

(** message/messages.gen.go:10299-10303 *)
Record DescribeDelegationTokenResponse : Type := mkDescribeDelegationTokenResponse { DescribeDelegationTokenResponse_ErrorCode : Z; DescribeDelegationTokenResponse_Tokens : gslice DescribedDelegationToken41; DescribeDelegationTokenResponse_ThrottleTimeMs : Z }.
(** the zero value ([var item DescribeDelegationTokenResponse]) *)
Definition DescribeDelegationTokenResponse_zero : DescribeDelegationTokenResponse := mkDescribeDelegationTokenResponse 0 None 0.
(** message/messages.gen.go:10306-10315 *)
Definition DescribeDelegationTokenResponse_Size (version : Z) (t : DescribeDelegationTokenResponse) : Z :=
  ((size_add sz_Int16) +>
   (size_loop (DescribedDelegationToken41_Size version) (DescribeDelegationTokenResponse_Tokens t)) +>
   (size_add sz_Int32) +>
   size_done)%size 0.
(** message/messages.gen.go:10318-10327 *)
Definition DescribeDelegationTokenResponse_Encode (version : Z) (t : DescribeDelegationTokenResponse) : Encoder -> Encoder :=
  ((PutInt16 (DescribeDelegationTokenResponse_ErrorCode t)) >>
   (put_array (DescribedDelegationToken41_Encode version) (DescribeDelegationTokenResponse_Tokens t)) >>
   (PutInt32 (DescribeDelegationTokenResponse_ThrottleTimeMs t)) >>
   skip)%enc.
(** message/messages.gen.go:10330-10354 *)
Definition DescribeDelegationTokenResponse_Decode (version : Z) (t : DescribeDelegationTokenResponse) : Dec DescribeDelegationTokenResponse :=
  x_ErrorCode <- dInt16 ;;
  x_Tokens <- (dec_array (DescribedDelegationToken41_Decode version DescribedDelegationToken41_zero) (DescribeDelegationTokenResponse_Tokens t)) ;;
  x_ThrottleTimeMs <- dInt32 ;;
  ret (mkDescribeDelegationTokenResponse x_ErrorCode x_Tokens x_ThrottleTimeMs).
(** the struct declaration read as a schema; version ranges as in Size *)
Definition DescribeDelegationTokenResponse_schema : fields :=
  FCons "ErrorCode" Always TInt16
  (FCons "Tokens" Always (TArray DescribedDelegationToken41_schema)
  (FCons "ThrottleTimeMs" Always TInt32 FNil)).
Definition DescribeDelegationTokenResponse_to (t : DescribeDelegationTokenResponse) : dens DescribeDelegationTokenResponse_schema := (DescribeDelegationTokenResponse_ErrorCode t, (option_map (map DescribedDelegationToken41_to) (DescribeDelegationTokenResponse_Tokens t), (DescribeDelegationTokenResponse_ThrottleTimeMs t, tt))).
Definition DescribeDelegationTokenResponse_of (x : dens DescribeDelegationTokenResponse_schema) : DescribeDelegationTokenResponse := mkDescribeDelegationTokenResponse (fst x) (option_map (map DescribedDelegationToken41_of) (fst (snd x))) (fst (snd (snd x))).
Definition DescribeDelegationTokenResponse_codec : codec := Codec DescribeDelegationTokenResponse DescribeDelegationTokenResponse_zero DescribeDelegationTokenResponse_Size DescribeDelegationTokenResponse_Encode DescribeDelegationTokenResponse_Decode DescribeDelegationTokenResponse_schema DescribeDelegationTokenResponse_to DescribeDelegationTokenResponse_of.
Lemma DescribeDelegationTokenResponse_linked : linked DescribeDelegationTokenResponse_codec.
Proof.
  apply Linked; cbn [DescribeDelegationTokenResponse_codec c_type c_zero c_size c_encode c_decode c_schema c_to c_of].
  - intros t. destruct t. cbv [DescribeDelegationTokenResponse_of DescribeDelegationTokenResponse_to]. cbn [fst snd DescribeDelegationTokenResponse_ErrorCode DescribeDelegationTokenResponse_Tokens DescribeDelegationTokenResponse_ThrottleTimeMs]. rewrite ?(option_map_map_inv DescribedDelegationToken41_to DescribedDelegationToken41_of _ (l_of_to _ DescribedDelegationToken41_linked)). reflexivity.
  - intros x. unfold DescribeDelegationTokenResponse_schema in x. cbn [dens den] in x. destruct x as [x0 x]. destruct x as [x1 x]. destruct x as [x2 x]. destruct x. cbv [DescribeDelegationTokenResponse_of DescribeDelegationTokenResponse_to]. cbn [fst snd DescribeDelegationTokenResponse_ErrorCode DescribeDelegationTokenResponse_Tokens DescribeDelegationTokenResponse_ThrottleTimeMs]. rewrite ?(option_map_map_inv DescribedDelegationToken41_of DescribedDelegationToken41_to _ (l_to_of _ DescribedDelegationToken41_linked)). reflexivity.
  - reflexivity.
  - intros v t. unfold DescribeDelegationTokenResponse_Size, DescribeDelegationTokenResponse_schema, DescribeDelegationTokenResponse_to. apply size_start.
    apply size_step; [intros sz; reflexivity|].
    apply size_step; [intros sz; apply (size_field_link (DescribedDelegationToken41_Size v) DescribedDelegationToken41_schema DescribedDelegationToken41_to v (l_size _ DescribedDelegationToken41_linked v) true)|].
    apply size_step; [intros sz; reflexivity|].
    intros sz; reflexivity.
  - intros v t. unfold DescribeDelegationTokenResponse_Encode, DescribeDelegationTokenResponse_schema, DescribeDelegationTokenResponse_to.
    apply enc_step; [intros e; reflexivity|].
    apply enc_step; [intros e; apply (put_field_link (DescribedDelegationToken41_Encode v) DescribedDelegationToken41_schema DescribedDelegationToken41_to v (l_encode _ DescribedDelegationToken41_linked v) true)|].
    apply enc_step; [intros e; reflexivity|].
    intros e; reflexivity.
  - intros v t. unfold DescribeDelegationTokenResponse_Decode, DescribeDelegationTokenResponse_schema, DescribeDelegationTokenResponse_to.
    dec_field (fun x : Z => x); [apply dmap_id|intros x_ErrorCode].
    dec_field (option_map (map DescribedDelegationToken41_of)); [apply (dec_array_link _ _ DescribedDelegationToken41_of DescribedDelegationToken41_to (l_decode _ DescribedDelegationToken41_linked v DescribedDelegationToken41_zero) (l_of_to _ DescribedDelegationToken41_linked))|intros x_Tokens].
    dec_field (fun x : Z => x); [apply dmap_id|intros x_ThrottleTimeMs].
    intros d; reflexivity.
Qed.
Local Opaque DescribeDelegationTokenResponse_Size DescribeDelegationTokenResponse_Encode DescribeDelegationTokenResponse_Decode.

(** ** DeleteGroupsRequest *)

(** message/messages.gen.go:10482-10484 *)
Record DeleteGroupsRequest : Type := mkDeleteGroupsRequest { DeleteGroupsRequest_GroupsNames : gslice gostring }.
(** the zero value ([var item DeleteGroupsRequest]) *)
Definition DeleteGroupsRequest_zero : DeleteGroupsRequest := mkDeleteGroupsRequest None.
(** message/messages.gen.go:10487-10491 *)
Definition DeleteGroupsRequest_Size (version : Z) (t : DeleteGroupsRequest) : Z :=
  ((size_add (sz_StringArray (DeleteGroupsRequest_GroupsNames t))) +>
   size_done)%size 0.
(** message/messages.gen.go:10494-10496 *)
Definition DeleteGroupsRequest_Encode (version : Z) (t : DeleteGroupsRequest) : Encoder -> Encoder :=
  ((PutStringArray (DeleteGroupsRequest_GroupsNames t)) >>
   skip)%enc.
(** message/messages.gen.go:10499-10506 *)
Definition DeleteGroupsRequest_Decode (version : Z) (t : DeleteGroupsRequest) : Dec DeleteGroupsRequest :=
  x_GroupsNames <- dStringArray ;;
  ret (mkDeleteGroupsRequest x_GroupsNames).
(** the struct declaration read as a schema; version ranges as in Size *)
Definition DeleteGroupsRequest_schema : fields :=
  FCons "GroupsNames" Always TStringArray FNil.
Definition DeleteGroupsRequest_to (t : DeleteGroupsRequest) : dens DeleteGroupsRequest_schema := (DeleteGroupsRequest_GroupsNames t, tt).
Definition DeleteGroupsRequest_of (x : dens DeleteGroupsRequest_schema) : DeleteGroupsRequest := mkDeleteGroupsRequest (fst x).
Definition DeleteGroupsRequest_codec : codec := Codec DeleteGroupsRequest DeleteGroupsRequest_zero DeleteGroupsRequest_Size DeleteGroupsRequest_Encode DeleteGroupsRequest_Decode DeleteGroupsRequest_schema DeleteGroupsRequest_to DeleteGroupsRequest_of.
Lemma DeleteGroupsRequest_linked : linked DeleteGroupsRequest_codec.
Proof.
  apply Linked; cbn [DeleteGroupsRequest_codec c_type c_zero c_size c_encode c_decode c_schema c_to c_of].
  - intros t. destruct t. cbv [DeleteGroupsRequest_of DeleteGroupsRequest_to]. cbn [fst snd DeleteGroupsRequest_GroupsNames].  reflexivity.
  - intros x. unfold DeleteGroupsRequest_schema in x. cbn [dens den] in x. destruct x as [x0 x]. destruct x. cbv [DeleteGroupsRequest_of DeleteGroupsRequest_to]. cbn [fst snd DeleteGroupsRequest_GroupsNames].  reflexivity.
  - reflexivity.
  - intros v t. unfold DeleteGroupsRequest_Size, DeleteGroupsRequest_schema, DeleteGroupsRequest_to. apply size_start.
    apply size_step; [intros sz; reflexivity|].
    intros sz; reflexivity.
  - intros v t. unfold DeleteGroupsRequest_Encode, DeleteGroupsRequest_schema, DeleteGroupsRequest_to.
    apply enc_step; [intros e; reflexivity|].
    intros e; reflexivity.
  - intros v t. unfold DeleteGroupsRequest_Decode, DeleteGroupsRequest_schema, DeleteGroupsRequest_to.
    dec_field (fun x : gslice gostring => x); [apply dmap_id|intros x_GroupsNames].
    intros d; reflexivity.
Qed.
Local Opaque DeleteGroupsRequest_Size DeleteGroupsRequest_Encode DeleteGroupsRequest_Decode.

(** ** DeletableGroupResult42 *)

(** message/messages.gen.go:10559-10562 *)
Record DeletableGroupResult42 : Type := mkDeletableGroupResult42 { DeletableGroupResult42_GroupId : gostring; DeletableGroupResult42_ErrorCode : Z }.
(** the zero value ([var item DeletableGroupResult42]) *)
Definition DeletableGroupResult42_zero : DeletableGroupResult42 := mkDeletableGroupResult42 [] 0.
(** message/messages.gen.go:10565-10570 *)
Definition DeletableGroupResult42_Size (version : Z) (t : DeletableGroupResult42) : Z :=
  ((size_add (sz_String (DeletableGroupResult42_GroupId t))) +>
   (size_add sz_Int16) +>
   size_done)%size 0.
(** message/messages.gen.go:10573-10576 *)
Definition DeletableGroupResult42_Encode (version : Z) (t : DeletableGroupResult42) : Encoder -> Encoder :=
  ((PutString (DeletableGroupResult42_GroupId t)) >>
   (PutInt16 (DeletableGroupResult42_ErrorCode t)) >>
   skip)%enc.
(** message/messages.gen.go:10579-10590 *)
Definition DeletableGroupResult42_Decode (version : Z) (t : DeletableGroupResult42) : Dec DeletableGroupResult42 :=
  x_GroupId <- dString ;;
  x_ErrorCode <- dInt16 ;;
  ret (mkDeletableGroupResult42 x_GroupId x_ErrorCode).
(** the struct declaration read as a schema; version ranges as in Size *)
Definition DeletableGroupResult42_schema : fields :=
  FCons "GroupId" Always TString
  (FCons "ErrorCode" Always TInt16 FNil).
Definition DeletableGroupResult42_to (t : DeletableGroupResult42) : dens DeletableGroupResult42_schema := (DeletableGroupResult42_GroupId t, (DeletableGroupResult42_ErrorCode t, tt)).
Definition DeletableGroupResult42_of (x : dens DeletableGroupResult42_schema) : DeletableGroupResult42 := mkDeletableGroupResult42 (fst x) (fst (snd x)).
Definition DeletableGroupResult42_codec : codec := Codec DeletableGroupResult42 DeletableGroupResult42_zero DeletableGroupResult42_Size DeletableGroupResult42_Encode DeletableGroupResult42_Decode DeletableGroupResult42_schema DeletableGroupResult42_to DeletableGroupResult42_of.
Lemma DeletableGroupResult42_linked : linked DeletableGroupResult42_codec.
Proof.
  apply Linked; cbn [DeletableGroupResult42_codec c_type c_zero c_size c_encode c_decode c_schema c_to c_of].
  - intros t. destruct t. cbv [DeletableGroupResult42_of DeletableGroupResult42_to]. cbn [fst snd DeletableGroupResult42_GroupId DeletableGroupResult42_ErrorCode].  reflexivity.
  - intros x. unfold DeletableGroupResult42_schema in x. cbn [dens den] in x. destruct x as [x0 x]. destruct x as [x1 x]. destruct x. cbv [DeletableGroupResult42_of DeletableGroupResult42_to]. cbn [fst snd DeletableGroupResult42_GroupId DeletableGroupResult42_ErrorCode].  reflexivity.
  - reflexivity.
  - intros v t. unfold DeletableGroupResult42_Size, DeletableGroupResult42_schema, DeletableGroupResult42_to. apply size_start.
    apply size_step; [intros sz; reflexivity|].
    apply size_step; [intros sz; reflexivity|].
    intros sz; reflexivity.
  - intros v t. unfold DeletableGroupResult42_Encode, DeletableGroupResult42_schema, DeletableGroupResult42_to.
    apply enc_step; [intros e; reflexivity|].
    apply enc_step; [intros e; reflexivity|].
    intros e; reflexivity.
  - intros v t. unfold DeletableGroupResult42_Decode, DeletableGroupResult42_schema, DeletableGroupResult42_to.
    dec_field (fun x : gostring => x); [apply dmap_id|intros x_GroupId].
    dec_field (fun x : Z => x); [apply dmap_id|intros x_ErrorCode].
    intros d; reflexivity.
Qed.
Local Opaque DeletableGroupResult42_Size DeletableGroupResult42_Encode DeletableGroupResult42_Decode.

(** ** DeleteGroupsResponse *)

(** message/messages.gen.go:10509-10512 *)
Record DeleteGroupsResponse : Type := mkDeleteGroupsResponse { DeleteGroupsResponse_ThrottleTimeMs : Z; DeleteGroupsResponse_Results : gslice DeletableGroupResult42 }.
(** the zero value ([var item DeleteGroupsResponse]) *)
Definition DeleteGroupsResponse_zero : DeleteGroupsResponse := mkDeleteGroupsResponse 0 None.
(** message/messages.gen.go:10515-10523 *)
Definition DeleteGroupsResponse_Size (version : Z) (t : DeleteGroupsResponse) : Z :=
  ((size_add sz_Int32) +>
   (size_loop (DeletableGroupResult42_Size version) (DeleteGroupsResponse_Results t)) +>
   size_done)%size 0.
(** message/messages.gen.go:10526-10534 *)
Definition DeleteGroupsResponse_Encode (version : Z) (t : DeleteGroupsResponse) : Encoder -> Encoder :=
  ((PutInt32 (DeleteGroupsResponse_ThrottleTimeMs t)) >>
   (put_array (DeletableGroupResult42_Encode version) (DeleteGroupsResponse_Results t)) >>
   skip)%enc.
(** message/messages.gen.go:10537-10557 *)
Definition DeleteGroupsResponse_Decode (version : Z) (t : DeleteGroupsResponse) : Dec DeleteGroupsResponse :=
  x_ThrottleTimeMs <- dInt32 ;;
  x_Results <- (dec_array (DeletableGroupResult42_Decode version DeletableGroupResult42_zero) (DeleteGroupsResponse_Results t)) ;;
  ret (mkDeleteGroupsResponse x_ThrottleTimeMs x_Results).
(** the struct declaration read as a schema; version ranges as in Size *)
Definition DeleteGroupsResponse_schema : fields :=
  FCons "ThrottleTimeMs" Always TInt32
  (FCons "Results" Always (TArray DeletableGroupResult42_schema) FNil).
Definition DeleteGroupsResponse_to (t : DeleteGroupsResponse) : dens DeleteGroupsResponse_schema := (DeleteGroupsResponse_ThrottleTimeMs t, (option_map (map DeletableGroupResult42_to) (DeleteGroupsResponse_Results t), tt)).
Definition DeleteGroupsResponse_of (x : dens DeleteGroupsResponse_schema) : DeleteGroupsResponse := mkDeleteGroupsResponse (fst x) (option_map (map DeletableGroupResult42_of) (fst (snd x))).
Definition DeleteGroupsResponse_codec : codec := Codec DeleteGroupsResponse DeleteGroupsResponse_zero DeleteGroupsResponse_Size DeleteGroupsResponse_Encode DeleteGroupsResponse_Decode DeleteGroupsResponse_schema DeleteGroupsResponse_to DeleteGroupsResponse_of.
Lemma DeleteGroupsResponse_linked : linked DeleteGroupsResponse_codec.
Proof.
  apply Linked; cbn [DeleteGroupsResponse_codec c_type c_zero c_size c_encode c_decode c_schema c_to c_of].
  - intros t. destruct t. cbv [DeleteGroupsResponse_of DeleteGroupsResponse_to]. cbn [fst snd DeleteGroupsResponse_ThrottleTimeMs DeleteGroupsResponse_Results]. rewrite ?(option_map_map_inv DeletableGroupResult42_to DeletableGroupResult42_of _ (l_of_to _ DeletableGroupResult42_linked)). reflexivity.
  - intros x. unfold DeleteGroupsResponse_schema in x. cbn [dens den] in x. destruct x as [x0 x]. destruct x as [x1 x]. destruct x. cbv [DeleteGroupsResponse_of DeleteGroupsResponse_to]. cbn [fst snd DeleteGroupsResponse_ThrottleTimeMs DeleteGroupsResponse_Results]. rewrite ?(option_map_map_inv DeletableGroupResult42_of DeletableGroupResult42_to _ (l_to_of _ DeletableGroupResult42_linked)). reflexivity.
  - reflexivity.
  - intros v t. unfold DeleteGroupsResponse_Size, DeleteGroupsResponse_schema, DeleteGroupsResponse_to. apply size_start.
    apply size_step; [intros sz; reflexivity|].
    apply size_step; [intros sz; apply (size_field_link (DeletableGroupResult42_Size v) DeletableGroupResult42_schema DeletableGroupResult42_to v (l_size _ DeletableGroupResult42_linked v) true)|].
    intros sz; reflexivity.
  - intros v t. unfold DeleteGroupsResponse_Encode, DeleteGroupsResponse_schema, DeleteGroupsResponse_to.
    apply enc_step; [intros e; reflexivity|].
    apply enc_step; [intros e; apply (put_field_link (DeletableGroupResult42_Encode v) DeletableGroupResult42_schema DeletableGroupResult42_to v (l_encode _ DeletableGroupResult42_linked v) true)|].
    intros e; reflexivity.
  - intros v t. unfold DeleteGroupsResponse_Decode, DeleteGroupsResponse_schema, DeleteGroupsResponse_to.
    dec_field (fun x : Z => x); [apply dmap_id|intros x_ThrottleTimeMs].
    dec_field (option_map (map DeletableGroupResult42_of)); [apply (dec_array_link _ _ DeletableGroupResult42_of DeletableGroupResult42_to (l_decode _ DeletableGroupResult42_linked v DeletableGroupResult42_zero) (l_of_to _ DeletableGroupResult42_linked))|intros x_Results].
    intros d; reflexivity.
Qed.
Local Opaque DeleteGroupsResponse_Size DeleteGroupsResponse_Encode DeleteGroupsResponse_Decode.

(** ** TopicPartitions43 *)

(** message/messages.gen.go:10656-10659 *)
Record TopicPartitions43 : Type := mkTopicPartitions43 { TopicPartitions43_Topic : gostring; TopicPartitions43_PartitionId : gslice Z }.
(** the zero value ([var item TopicPartitions43]) *)
Definition TopicPartitions43_zero : TopicPartitions43 := mkTopicPartitions43 [] None.
(** message/messages.gen.go:10662-10667 *)
Definition TopicPartitions43_Size (version : Z) (t : TopicPartitions43) : Z :=
  ((size_add (sz_String (TopicPartitions43_Topic t))) +>
   (size_add (sz_Int32Array (TopicPartitions43_PartitionId t))) +>
   size_done)%size 0.
(** message/messages.gen.go:10670-10673 *)
Definition TopicPartitions43_Encode (version : Z) (t : TopicPartitions43) : Encoder -> Encoder :=
  ((PutString (TopicPartitions43_Topic t)) >>
   (PutInt32Array (TopicPartitions43_PartitionId t)) >>
   skip)%enc.
(** message/messages.gen.go:10676-10687 *)
Definition TopicPartitions43_Decode (version : Z) (t : TopicPartitions43) : Dec TopicPartitions43 :=
  x_Topic <- dString ;;
  x_PartitionId <- dInt32Array ;;
  ret (mkTopicPartitions43 x_Topic x_PartitionId).
(** the struct declaration read as a schema; version ranges as in Size *)
Definition TopicPartitions43_schema : fields :=
  FCons "Topic" Always TString
  (FCons "PartitionId" Always TInt32Array FNil).
Definition TopicPartitions43_to (t : TopicPartitions43) : dens TopicPartitions43_schema := (TopicPartitions43_Topic t, (TopicPartitions43_PartitionId t, tt)).
Definition TopicPartitions43_of (x : dens TopicPartitions43_schema) : TopicPartitions43 := mkTopicPartitions43 (fst x) (fst (snd x)).
Definition TopicPartitions43_codec : codec := Codec TopicPartitions43 TopicPartitions43_zero TopicPartitions43_Size TopicPartitions43_Encode TopicPartitions43_Decode TopicPartitions43_schema TopicPartitions43_to TopicPartitions43_of.
Lemma TopicPartitions43_linked : linked TopicPartitions43_codec.
Proof.
  apply Linked; cbn [TopicPartitions43_codec c_type c_zero c_size c_encode c_decode c_schema c_to c_of].
  - intros t. destruct t. cbv [TopicPartitions43_of TopicPartitions43_to]. cbn [fst snd TopicPartitions43_Topic TopicPartitions43_PartitionId].  reflexivity.
  - intros x. unfold TopicPartitions43_schema in x. cbn [dens den] in x. destruct x as [x0 x]. destruct x as [x1 x]. destruct x. cbv [TopicPartitions43_of TopicPartitions43_to]. cbn [fst snd TopicPartitions43_Topic TopicPartitions43_PartitionId].  reflexivity.
  - reflexivity.
  - intros v t. unfold TopicPartitions43_Size, TopicPartitions43_schema, TopicPartitions43_to. apply size_start.
    apply size_step; [intros sz; reflexivity|].
    apply size_step; [intros sz; reflexivity|].
    intros sz; reflexivity.
  - intros v t. unfold TopicPartitions43_Encode, TopicPartitions43_schema, TopicPartitions43_to.
    apply enc_step; [intros e; reflexivity|].
    apply enc_step; [intros e; reflexivity|].
    intros e; reflexivity.
  - intros v t. unfold TopicPartitions43_Decode, TopicPartitions43_schema, TopicPartitions43_to.
    dec_field (fun x : gostring => x); [apply dmap_id|intros x_Topic].
    dec_field (fun x : gslice Z => x); [apply dmap_id|intros x_PartitionId].
    intros d; reflexivity.
Qed.
Local Opaque TopicPartitions43_Size TopicPartitions43_Encode TopicPartitions43_Decode.

(** ** ElectLeadersRequest *)

(** message/messages.gen.go:10593-10597 *)
Record ElectLeadersRequest : Type := mkElectLeadersRequest { ElectLeadersRequest_ElectionType : Z; ElectLeadersRequest_TopicPartitions : gslice TopicPartitions43; ElectLeadersRequest_TimeoutMs : Z }.
(** the zero value ([var item ElectLeadersRequest]) *)
Definition ElectLeadersRequest_zero : ElectLeadersRequest := mkElectLeadersRequest 0 None 0.
(** message/messages.gen.go:10600-10611 *)
Definition ElectLeadersRequest_Size (version : Z) (t : ElectLeadersRequest) : Z :=
  (size_if (1 <=? version) (size_add sz_Int8) +>
   (size_loop (TopicPartitions43_Size version) (ElectLeadersRequest_TopicPartitions t)) +>
   (size_add sz_Int32) +>
   size_done)%size 0.
(** message/messages.gen.go:10614-10625 *)
Definition ElectLeadersRequest_Encode (version : Z) (t : ElectLeadersRequest) : Encoder -> Encoder :=
  (put_if (1 <=? version) (PutInt8 (ElectLeadersRequest_ElectionType t)) >>
   (put_array (TopicPartitions43_Encode version) (ElectLeadersRequest_TopicPartitions t)) >>
   (PutInt32 (ElectLeadersRequest_TimeoutMs t)) >>
   skip)%enc.
(** message/messages.gen.go:10628-10654 *)
Definition ElectLeadersRequest_Decode (version : Z) (t : ElectLeadersRequest) : Dec ElectLeadersRequest :=
  x_ElectionType <- dec_if (1 <=? version) dInt8 (ElectLeadersRequest_ElectionType t) ;;
  x_TopicPartitions <- (dec_array (TopicPartitions43_Decode version TopicPartitions43_zero) (ElectLeadersRequest_TopicPartitions t)) ;;
  x_TimeoutMs <- dInt32 ;;
  ret (mkElectLeadersRequest x_ElectionType x_TopicPartitions x_TimeoutMs).
(** the struct declaration read as a schema; version ranges as in Size *)
Definition ElectLeadersRequest_schema : fields :=
  FCons "ElectionType" (From 1) TInt8
  (FCons "TopicPartitions" Always (TArray TopicPartitions43_schema)
  (FCons "TimeoutMs" Always TInt32 FNil)).
Definition ElectLeadersRequest_to (t : ElectLeadersRequest) : dens ElectLeadersRequest_schema := (ElectLeadersRequest_ElectionType t, (option_map (map TopicPartitions43_to) (ElectLeadersRequest_TopicPartitions t), (ElectLeadersRequest_TimeoutMs t, tt))).
Definition ElectLeadersRequest_of (x : dens ElectLeadersRequest_schema) : ElectLeadersRequest := mkElectLeadersRequest (fst x) (option_map (map TopicPartitions43_of) (fst (snd x))) (fst (snd (snd x))).
Definition ElectLeadersRequest_codec : codec := Codec ElectLeadersRequest ElectLeadersRequest_zero ElectLeadersRequest_Size ElectLeadersRequest_Encode ElectLeadersRequest_Decode ElectLeadersRequest_schema ElectLeadersRequest_to ElectLeadersRequest_of.
Lemma ElectLeadersRequest_linked : linked ElectLeadersRequest_codec.
Proof.
  apply Linked; cbn [ElectLeadersRequest_codec c_type c_zero c_size c_encode c_decode c_schema c_to c_of].
  - intros t. destruct t. cbv [ElectLeadersRequest_of ElectLeadersRequest_to]. cbn [fst snd ElectLeadersRequest_ElectionType ElectLeadersRequest_TopicPartitions ElectLeadersRequest_TimeoutMs]. rewrite ?(option_map_map_inv TopicPartitions43_to TopicPartitions43_of _ (l_of_to _ TopicPartitions43_linked)). reflexivity.
  - intros x. unfold ElectLeadersRequest_schema in x. cbn [dens den] in x. destruct x as [x0 x]. destruct x as [x1 x]. destruct x as [x2 x]. destruct x. cbv [ElectLeadersRequest_of ElectLeadersRequest_to]. cbn [fst snd ElectLeadersRequest_ElectionType ElectLeadersRequest_TopicPartitions ElectLeadersRequest_TimeoutMs]. rewrite ?(option_map_map_inv TopicPartitions43_of TopicPartitions43_to _ (l_to_of _ TopicPartitions43_linked)). reflexivity.
  - reflexivity.
  - intros v t. unfold ElectLeadersRequest_Size, ElectLeadersRequest_schema, ElectLeadersRequest_to. apply size_start.
    apply size_step; [intros sz; reflexivity|].
    apply size_step; [intros sz; apply (size_field_link (TopicPartitions43_Size v) TopicPartitions43_schema TopicPartitions43_to v (l_size _ TopicPartitions43_linked v) true)|].
    apply size_step; [intros sz; reflexivity|].
    intros sz; reflexivity.
  - intros v t. unfold ElectLeadersRequest_Encode, ElectLeadersRequest_schema, ElectLeadersRequest_to.
    apply enc_step; [intros e; reflexivity|].
    apply enc_step; [intros e; apply (put_field_link (TopicPartitions43_Encode v) TopicPartitions43_schema TopicPartitions43_to v (l_encode _ TopicPartitions43_linked v) true)|].
    apply enc_step; [intros e; reflexivity|].
    intros e; reflexivity.
  - intros v t. unfold ElectLeadersRequest_Decode, ElectLeadersRequest_schema, ElectLeadersRequest_to.
    dec_field (fun x : Z => x); [apply dec_if_link; [apply dmap_id|reflexivity]|intros x_ElectionType].
    dec_field (option_map (map TopicPartitions43_of)); [apply (dec_array_link _ _ TopicPartitions43_of TopicPartitions43_to (l_decode _ TopicPartitions43_linked v TopicPartitions43_zero) (l_of_to _ TopicPartitions43_linked))|intros x_TopicPartitions].
    dec_field (fun x : Z => x); [apply dmap_id|intros x_TimeoutMs].
    intros d; reflexivity.
Qed.
Local Opaque ElectLeadersRequest_Size ElectLeadersRequest_Encode ElectLeadersRequest_Decode.

(** ** PartitionResult43 *)

(** message/messages.gen.go:10803-10807 *)
Record PartitionResult43 : Type := mkPartitionResult43 { PartitionResult43_PartitionId : Z; PartitionResult43_ErrorCode : Z; PartitionResult43_ErrorMessage : gostring }.
(** the zero value ([var item PartitionResult43]) *)
Definition PartitionResult43_zero : PartitionResult43 := mkPartitionResult43 0 0 [].
(** message/messages.gen.go:10810-10816 *)
Definition PartitionResult43_Size (version : Z) (t : PartitionResult43) : Z :=
  ((size_add sz_Int32) +>
   (size_add sz_Int16) +>
   (size_add (sz_String (PartitionResult43_ErrorMessage t))) +>
   size_done)%size 0.
(** message/messages.gen.go:10819-10823 *)
Definition PartitionResult43_Encode (version : Z) (t : PartitionResult43) : Encoder -> Encoder :=
  ((PutInt32 (PartitionResult43_PartitionId t)) >>
   (PutInt16 (PartitionResult43_ErrorCode t)) >>
   (PutString (PartitionResult43_ErrorMessage t)) >>
   skip)%enc.
(** message/messages.gen.go:10826-10841 *)
Definition PartitionResult43_Decode (version : Z) (t : PartitionResult43) : Dec PartitionResult43 :=
  x_PartitionId <- dInt32 ;;
  x_ErrorCode <- dInt16 ;;
  x_ErrorMessage <- dString ;;
  ret (mkPartitionResult43 x_PartitionId x_ErrorCode x_ErrorMessage).
(** the struct declaration read as a schema; version ranges as in Size *)
Definition PartitionResult43_schema : fields :=
  FCons "PartitionId" Always TInt32
  (FCons "ErrorCode" Always TInt16
  (FCons "ErrorMessage" Always TString FNil)).
Definition PartitionResult43_to (t : PartitionResult43) : dens PartitionResult43_schema := (PartitionResult43_PartitionId t, (PartitionResult43_ErrorCode t, (PartitionResult43_ErrorMessage t, tt))).
Definition PartitionResult43_of (x : dens PartitionResult43_schema) : PartitionResult43 := mkPartitionResult43 (fst x) (fst (snd x)) (fst (snd (snd x))).
Definition PartitionResult43_codec : codec := Codec PartitionResult43 PartitionResult43_zero PartitionResult43_Size PartitionResult43_Encode PartitionResult43_Decode PartitionResult43_schema PartitionResult43_to PartitionResult43_of.
Lemma PartitionResult43_linked : linked PartitionResult43_codec.
Proof.
  apply Linked; cbn [PartitionResult43_codec c_type c_zero c_size c_encode c_decode c_schema c_to c_of].
  - intros t. destruct t. cbv [PartitionResult43_of PartitionResult43_to]. cbn [fst snd PartitionResult43_PartitionId PartitionResult43_ErrorCode PartitionResult43_ErrorMessage].  reflexivity.
  - intros x. unfold PartitionResult43_schema in x. cbn [dens den] in x. destruct x as [x0 x]. destruct x as [x1 x]. destruct x as [x2 x]. destruct x. cbv [PartitionResult43_of PartitionResult43_to]. cbn [fst snd PartitionResult43_PartitionId PartitionResult43_ErrorCode PartitionResult43_ErrorMessage].  reflexivity.
  - reflexivity.
  - intros v t. unfold PartitionResult43_Size, PartitionResult43_schema, PartitionResult43_to. apply size_start.
    apply size_step; [intros sz; reflexivity|].
    apply size_step; [intros sz; reflexivity|].
    apply size_step; [intros sz; reflexivity|].
    intros sz; reflexivity.
  - intros v t. unfold PartitionResult43_Encode, PartitionResult43_schema, PartitionResult43_to.
    apply enc_step; [intros e; reflexivity|].
    apply enc_step; [intros e; reflexivity|].
    apply enc_step; [intros e; reflexivity|].
    intros e; reflexivity.
  - intros v t. unfold PartitionResult43_Decode, PartitionResult43_schema, PartitionResult43_to.
    dec_field (fun x : Z => x); [apply dmap_id|intros x_PartitionId].
    dec_field (fun x : Z => x); [apply dmap_id|intros x_ErrorCode].
    dec_field (fun x : gostring => x); [apply dmap_id|intros x_ErrorMessage].
    intros d; reflexivity.
Qed.
Local Opaque PartitionResult43_Size PartitionResult43_Encode PartitionResult43_Decode.

(** ** ReplicaElectionResult43 *)

(** message/messages.gen.go:10753-10756 *)
Record ReplicaElectionResult43 : Type := mkReplicaElectionResult43 { ReplicaElectionResult43_Topic : gostring; ReplicaElectionResult43_PartitionResult : gslice PartitionResult43 }.
(** the zero value ([var item ReplicaElectionResult43]) *)
Definition ReplicaElectionResult43_zero : ReplicaElectionResult43 := mkReplicaElectionResult43 [] None.
(** message/messages.gen.go:10759-10767 *)
Definition ReplicaElectionResult43_Size (version : Z) (t : ReplicaElectionResult43) : Z :=
  ((size_add (sz_String (ReplicaElectionResult43_Topic t))) +>
   (size_loop (PartitionResult43_Size version) (ReplicaElectionResult43_PartitionResult t)) +>
   size_done)%size 0.
(** message/messages.gen.go:10770-10778 *)
Definition ReplicaElectionResult43_Encode (version : Z) (t : ReplicaElectionResult43) : Encoder -> Encoder :=
  ((PutString (ReplicaElectionResult43_Topic t)) >>
   (put_array (PartitionResult43_Encode version) (ReplicaElectionResult43_PartitionResult t)) >>
   skip)%enc.
(** message/messages.gen.go:10781-10801 *)
Definition ReplicaElectionResult43_Decode (version : Z) (t : ReplicaElectionResult43) : Dec ReplicaElectionResult43 :=
  x_Topic <- dString ;;
  x_PartitionResult <- (dec_array (PartitionResult43_Decode version PartitionResult43_zero) (ReplicaElectionResult43_PartitionResult t)) ;;
  ret (mkReplicaElectionResult43 x_Topic x_PartitionResult).
(** the struct declaration read as a schema; version ranges as in Size *)
Definition ReplicaElectionResult43_schema : fields :=
  FCons "Topic" Always TString
  (FCons "PartitionResult" Always (TArray PartitionResult43_schema) FNil).
Definition ReplicaElectionResult43_to (t : ReplicaElectionResult43) : dens ReplicaElectionResult43_schema := (ReplicaElectionResult43_Topic t, (option_map (map PartitionResult43_to) (ReplicaElectionResult43_PartitionResult t), tt)).
Definition ReplicaElectionResult43_of (x : dens ReplicaElectionResult43_schema) : ReplicaElectionResult43 := mkReplicaElectionResult43 (fst x) (option_map (map PartitionResult43_of) (fst (snd x))).
Definition ReplicaElectionResult43_codec : codec := Codec ReplicaElectionResult43 ReplicaElectionResult43_zero ReplicaElectionResult43_Size ReplicaElectionResult43_Encode ReplicaElectionResult43_Decode ReplicaElectionResult43_schema ReplicaElectionResult43_to ReplicaElectionResult43_of.
Lemma ReplicaElectionResult43_linked : linked ReplicaElectionResult43_codec.
Proof.
  apply Linked; cbn [ReplicaElectionResult43_codec c_type c_zero c_size c_encode c_decode c_schema c_to c_of].
  - intros t. destruct t. cbv [ReplicaElectionResult43_of ReplicaElectionResult43_to]. cbn [fst snd ReplicaElectionResult43_Topic ReplicaElectionResult43_PartitionResult]. rewrite ?(option_map_map_inv PartitionResult43_to PartitionResult43_of _ (l_of_to _ PartitionResult43_linked)). reflexivity.
  - intros x. unfold ReplicaElectionResult43_schema in x. cbn [dens den] in x. destruct x as [x0 x]. destruct x as [x1 x]. destruct x. cbv [ReplicaElectionResult43_of ReplicaElectionResult43_to]. cbn [fst snd ReplicaElectionResult43_Topic ReplicaElectionResult43_PartitionResult]. rewrite ?(option_map_map_inv PartitionResult43_of PartitionResult43_to _ (l_to_of _ PartitionResult43_linked)). reflexivity.
  - reflexivity.
  - intros v t. unfold ReplicaElectionResult43_Size, ReplicaElectionResult43_schema, ReplicaElectionResult43_to. apply size_start.
    apply size_step; [intros sz; reflexivity|].
    apply size_step; [intros sz; apply (size_field_link (PartitionResult43_Size v) PartitionResult43_schema PartitionResult43_to v (l_size _ PartitionResult43_linked v) true)|].
    intros sz; reflexivity.
  - intros v t. unfold ReplicaElectionResult43_Encode, ReplicaElectionResult43_schema, ReplicaElectionResult43_to.
    apply enc_step; [intros e; reflexivity|].
    apply enc_step; [intros e; apply (put_field_link (PartitionResult43_Encode v) PartitionResult43_schema PartitionResult43_to v (l_encode _ PartitionResult43_linked v) true)|].
    intros e; reflexivity.
  - intros v t. unfold ReplicaElectionResult43_Decode, ReplicaElectionResult43_schema, ReplicaElectionResult43_to.
    dec_field (fun x : gostring => x); [apply dmap_id|intros x_Topic].
    dec_field (option_map (map PartitionResult43_of)); [apply (dec_array_link _ _ PartitionResult43_of PartitionResult43_to (l_decode _ PartitionResult43_linked v PartitionResult43_zero) (l_of_to _ PartitionResult43_linked))|intros x_PartitionResult].
    intros d; reflexivity.
Qed.
Local Opaque ReplicaElectionResult43_Size ReplicaElectionResult43_Encode ReplicaElectionResult43_Decode.

(** ** ElectLeadersResponse *)

(** message/messages.gen.go:10690-10694 *)
Record ElectLeadersResponse : Type := mkElectLeadersResponse { ElectLeadersResponse_ThrottleTimeMs : Z; ElectLeadersResponse_ErrorCode : Z; ElectLeadersResponse_ReplicaElectionResults : gslice ReplicaElectionResult43 }.
(** the zero value ([var item ElectLeadersResponse]) *)
Definition ElectLeadersResponse_zero : ElectLeadersResponse := mkElectLeadersResponse 0 0 None.
(** message/messages.gen.go:10697-10708 *)
Definition ElectLeadersResponse_Size (version : Z) (t : ElectLeadersResponse) : Z :=
  ((size_add sz_Int32) +>
   size_if (1 <=? version) (size_add sz_Int16) +>
   (size_loop (ReplicaElectionResult43_Size version) (ElectLeadersResponse_ReplicaElectionResults t)) +>
   size_done)%size 0.
(** message/messages.gen.go:10711-10722 *)
Definition ElectLeadersResponse_Encode (version : Z) (t : ElectLeadersResponse) : Encoder -> Encoder :=
  ((PutInt32 (ElectLeadersResponse_ThrottleTimeMs t)) >>
   put_if (1 <=? version) (PutInt16 (ElectLeadersResponse_ErrorCode t)) >>
   (put_array (ReplicaElectionResult43_Encode version) (ElectLeadersResponse_ReplicaElectionResults t)) >>
   skip)%enc.
(** message/messages.gen.go:10725-10751 *)
Definition ElectLeadersResponse_Decode (version : Z) (t : ElectLeadersResponse) : Dec ElectLeadersResponse :=
  x_ThrottleTimeMs <- dInt32 ;;
  x_ErrorCode <- dec_if (1 <=? version) dInt16 (ElectLeadersResponse_ErrorCode t) ;;
  x_ReplicaElectionResults <- (dec_array (ReplicaElectionResult43_Decode version ReplicaElectionResult43_zero) (ElectLeadersResponse_ReplicaElectionResults t)) ;;
  ret (mkElectLeadersResponse x_ThrottleTimeMs x_ErrorCode x_ReplicaElectionResults).
(** the struct declaration read as a schema; version ranges as in Size *)
Definition ElectLeadersResponse_schema : fields :=
  FCons "ThrottleTimeMs" Always TInt32
  (FCons "ErrorCode" (From 1) TInt16
  (FCons "ReplicaElectionResults" Always (TArray ReplicaElectionResult43_schema) FNil)).
Definition ElectLeadersResponse_to (t : ElectLeadersResponse) : dens ElectLeadersResponse_schema := (ElectLeadersResponse_ThrottleTimeMs t, (ElectLeadersResponse_ErrorCode t, (option_map (map ReplicaElectionResult43_to) (ElectLeadersResponse_ReplicaElectionResults t), tt))).
Definition ElectLeadersResponse_of (x : dens ElectLeadersResponse_schema) : ElectLeadersResponse := mkElectLeadersResponse (fst x) (fst (snd x)) (option_map (map ReplicaElectionResult43_of) (fst (snd (snd x)))).
Definition ElectLeadersResponse_codec : codec := Codec ElectLeadersResponse ElectLeadersResponse_zero ElectLeadersResponse_Size ElectLeadersResponse_Encode ElectLeadersResponse_Decode ElectLeadersResponse_schema ElectLeadersResponse_to ElectLeadersResponse_of.
Lemma ElectLeadersResponse_linked : linked ElectLeadersResponse_codec.
Proof.
  apply Linked; cbn [ElectLeadersResponse_codec c_type c_zero c_size c_encode c_decode c_schema c_to c_of].
  - intros t. destruct t. cbv [ElectLeadersResponse_of ElectLeadersResponse_to]. cbn [fst snd ElectLeadersResponse_ThrottleTimeMs ElectLeadersResponse_ErrorCode ElectLeadersResponse_ReplicaElectionResults]. rewrite ?(option_map_map_inv ReplicaElectionResult43_to ReplicaElectionResult43_of _ (l_of_to _ ReplicaElectionResult43_linked)). reflexivity.
  - intros x. unfold ElectLeadersResponse_schema in x. cbn [dens den] in x. destruct x as [x0 x]. destruct x as [x1 x]. destruct x as [x2 x]. destruct x. cbv [ElectLeadersResponse_of ElectLeadersResponse_to]. cbn [fst snd ElectLeadersResponse_ThrottleTimeMs ElectLeadersResponse_ErrorCode ElectLeadersResponse_ReplicaElectionResults]. rewrite ?(option_map_map_inv ReplicaElectionResult43_of ReplicaElectionResult43_to _ (l_to_of _ ReplicaElectionResult43_linked)). reflexivity.
  - reflexivity.
  - intros v t. unfold ElectLeadersResponse_Size, ElectLeadersResponse_schema, ElectLeadersResponse_to. apply size_start.
    apply size_step; [intros sz; reflexivity|].
    apply size_step; [intros sz; reflexivity|].
    apply size_step; [intros sz; apply (size_field_link (ReplicaElectionResult43_Size v) ReplicaElectionResult43_schema ReplicaElectionResult43_to v (l_size _ ReplicaElectionResult43_linked v) true)|].
    intros sz; reflexivity.
  - intros v t. unfold ElectLeadersResponse_Encode, ElectLeadersResponse_schema, ElectLeadersResponse_to.
    apply enc_step; [intros e; reflexivity|].
    apply enc_step; [intros e; reflexivity|].
    apply enc_step; [intros e; apply (put_field_link (ReplicaElectionResult43_Encode v) ReplicaElectionResult43_schema ReplicaElectionResult43_to v (l_encode _ ReplicaElectionResult43_linked v) true)|].
    intros e; reflexivity.
  - intros v t. unfold ElectLeadersResponse_Decode, ElectLeadersResponse_schema, ElectLeadersResponse_to.
    dec_field (fun x : Z => x); [apply dmap_id|intros x_ThrottleTimeMs].
    dec_field (fun x : Z => x); [apply dec_if_link; [apply dmap_id|reflexivity]|intros x_ErrorCode].
    dec_field (option_map (map ReplicaElectionResult43_of)); [apply (dec_array_link _ _ ReplicaElectionResult43_of ReplicaElectionResult43_to (l_decode _ ReplicaElectionResult43_linked v ReplicaElectionResult43_zero) (l_of_to _ ReplicaElectionResult43_linked))|intros x_ReplicaElectionResults].
    intros d; reflexivity.
Qed.
Local Opaque ElectLeadersResponse_Size ElectLeadersResponse_Encode ElectLeadersResponse_Decode.

(** ** AlterableConfig44 *)

(** message/messages.gen.go:10951-10955 *)
Record AlterableConfig44 : Type := mkAlterableConfig44 { AlterableConfig44_Name : gostring; AlterableConfig44_ConfigOperation : Z; AlterableConfig44_Value : gostring }.
(** the zero value ([var item AlterableConfig44]) *)
Definition AlterableConfig44_zero : AlterableConfig44 := mkAlterableConfig44 [] 0 [].
(** message/messages.gen.go:10958-10964 *)
Definition AlterableConfig44_Size (version : Z) (t : AlterableConfig44) : Z :=
  ((size_add (sz_String (AlterableConfig44_Name t))) +>
   (size_add sz_Int8) +>
   (size_add (sz_String (AlterableConfig44_Value t))) +>
   size_done)%size 0.
(** message/messages.gen.go:10967-10971 *)
Definition AlterableConfig44_Encode (version : Z) (t : AlterableConfig44) : Encoder -> Encoder :=
  ((PutString (AlterableConfig44_Name t)) >>
   (PutInt8 (AlterableConfig44_ConfigOperation t)) >>
   (PutString (AlterableConfig44_Value t)) >>
   skip)%enc.
(** message/messages.gen.go:10974-10989 *)
Definition AlterableConfig44_Decode (version : Z) (t : AlterableConfig44) : Dec AlterableConfig44 :=
  x_Name <- dString ;;
  x_ConfigOperation <- dInt8 ;;
  x_Value <- dString ;;
  ret (mkAlterableConfig44 x_Name x_ConfigOperation x_Value).
(** the struct declaration read as a schema; version ranges as in Size *)
Definition AlterableConfig44_schema : fields :=
  FCons "Name" Always TString
  (FCons "ConfigOperation" Always TInt8
  (FCons "Value" Always TString FNil)).
Definition AlterableConfig44_to (t : AlterableConfig44) : dens AlterableConfig44_schema := (AlterableConfig44_Name t, (AlterableConfig44_ConfigOperation t, (AlterableConfig44_Value t, tt))).
Definition AlterableConfig44_of (x : dens AlterableConfig44_schema) : AlterableConfig44 := mkAlterableConfig44 (fst x) (fst (snd x)) (fst (snd (snd x))).
Definition AlterableConfig44_codec : codec := Codec AlterableConfig44 AlterableConfig44_zero AlterableConfig44_Size AlterableConfig44_Encode AlterableConfig44_Decode AlterableConfig44_schema AlterableConfig44_to AlterableConfig44_of.
Lemma AlterableConfig44_linked : linked AlterableConfig44_codec.
Proof.
  apply Linked; cbn [AlterableConfig44_codec c_type c_zero c_size c_encode c_decode c_schema c_to c_of].
  - intros t. destruct t. cbv [AlterableConfig44_of AlterableConfig44_to]. cbn [fst snd AlterableConfig44_Name AlterableConfig44_ConfigOperation AlterableConfig44_Value].  reflexivity.
  - intros x. unfold AlterableConfig44_schema in x. cbn [dens den] in x. destruct x as [x0 x]. destruct x as [x1 x]. destruct x as [x2 x]. destruct x. cbv [AlterableConfig44_of AlterableConfig44_to]. cbn [fst snd AlterableConfig44_Name AlterableConfig44_ConfigOperation AlterableConfig44_Value].  reflexivity.
  - reflexivity.
  - intros v t. unfold AlterableConfig44_Size, AlterableConfig44_schema, AlterableConfig44_to. apply size_start.
    apply size_step; [intros sz; reflexivity|].
    apply size_step; [intros sz; reflexivity|].
    apply size_step; [intros sz; reflexivity|].
    intros sz; reflexivity.
  - intros v t. unfold AlterableConfig44_Encode, AlterableConfig44_schema, AlterableConfig44_to.
    apply enc_step; [intros e; reflexivity|].
    apply enc_step; [intros e; reflexivity|].
    apply enc_step; [intros e; reflexivity|].
    intros e; reflexivity.
  - intros v t. unfold AlterableConfig44_Decode, AlterableConfig44_schema, AlterableConfig44_to.
    dec_field (fun x : gostring => x); [apply dmap_id|intros x_Name].
    dec_field (fun x : Z => x); [apply dmap_id|intros x_ConfigOperation].
    dec_field (fun x : gostring => x); [apply dmap_id|intros x_Value].
    intros d; reflexivity.
Qed.
Local Opaque AlterableConfig44_Size AlterableConfig44_Encode AlterableConfig44_Decode.

(** ** AlterConfigsResource44 *)

(** message/messages.gen.go:10894-10898 *)
Record AlterConfigsResource44 : Type := mkAlterConfigsResource44 { AlterConfigsResource44_ResourceType : Z; AlterConfigsResource44_ResourceName : gostring; AlterConfigsResource44_Configs : gslice AlterableConfig44 }.
(** the zero value ([var item AlterConfigsResource44]) *)
Definition AlterConfigsResource44_zero : AlterConfigsResource44 := mkAlterConfigsResource44 0 [] None.
(** message/messages.gen.go:10901-10910 *)
Definition AlterConfigsResource44_Size (version : Z) (t : AlterConfigsResource44) : Z :=
  ((size_add sz_Int8) +>
   (size_add (sz_String (AlterConfigsResource44_ResourceName t))) +>
   (size_loop (AlterableConfig44_Size version) (AlterConfigsResource44_Configs t)) +>
   size_done)%size 0.
(** message/messages.gen.go:10913-10922 *)
Definition AlterConfigsResource44_Encode (version : Z) (t : AlterConfigsResource44) : Encoder -> Encoder :=
  ((PutInt8 (AlterConfigsResource44_ResourceType t)) >>
   (PutString (AlterConfigsResource44_ResourceName t)) >>
   (put_array (AlterableConfig44_Encode version) (AlterConfigsResource44_Configs t)) >>
   skip)%enc.
(** message/messages.gen.go:10925-10949 *)
Definition AlterConfigsResource44_Decode (version : Z) (t : AlterConfigsResource44) : Dec AlterConfigsResource44 :=
  x_ResourceType <- dInt8 ;;
  x_ResourceName <- dString ;;
  x_Configs <- (dec_array (AlterableConfig44_Decode version AlterableConfig44_zero) (AlterConfigsResource44_Configs t)) ;;
  ret (mkAlterConfigsResource44 x_ResourceType x_ResourceName x_Configs).
(** the struct declaration read as a schema; version ranges as in Size *)
Definition AlterConfigsResource44_schema : fields :=
  FCons "ResourceType" Always TInt8
  (FCons "ResourceName" Always TString
  (FCons "Configs" Always (TArray AlterableConfig44_schema) FNil)).
Definition AlterConfigsResource44_to (t : AlterConfigsResource44) : dens AlterConfigsResource44_schema := (AlterConfigsResource44_ResourceType t, (AlterConfigsResource44_ResourceName t, (option_map (map AlterableConfig44_to) (AlterConfigsResource44_Configs t), tt))).
Definition AlterConfigsResource44_of (x : dens AlterConfigsResource44_schema) : AlterConfigsResource44 := mkAlterConfigsResource44 (fst x) (fst (snd x)) (option_map (map AlterableConfig44_of) (fst (snd (snd x)))).
Definition AlterConfigsResource44_codec : codec := Codec AlterConfigsResource44 AlterConfigsResource44_zero AlterConfigsResource44_Size AlterConfigsResource44_Encode AlterConfigsResource44_Decode AlterConfigsResource44_schema AlterConfigsResource44_to AlterConfigsResource44_of.
Lemma AlterConfigsResource44_linked : linked AlterConfigsResource44_codec.
Proof.
  apply Linked; cbn [AlterConfigsResource44_codec c_type c_zero c_size c_encode c_decode c_schema c_to c_of].
  - intros t. destruct t. cbv [AlterConfigsResource44_of AlterConfigsResource44_to]. cbn [fst snd AlterConfigsResource44_ResourceType AlterConfigsResource44_ResourceName AlterConfigsResource44_Configs]. rewrite ?(option_map_map_inv AlterableConfig44_to AlterableConfig44_of _ (l_of_to _ AlterableConfig44_linked)). reflexivity.
  - intros x. unfold AlterConfigsResource44_schema in x. cbn [dens den] in x. destruct x as [x0 x]. destruct x as [x1 x]. destruct x as [x2 x]. destruct x. cbv [AlterConfigsResource44_of AlterConfigsResource44_to]. cbn [fst snd AlterConfigsResource44_ResourceType AlterConfigsResource44_ResourceName AlterConfigsResource44_Configs]. rewrite ?(option_map_map_inv AlterableConfig44_of AlterableConfig44_to _ (l_to_of _ AlterableConfig44_linked)). reflexivity.
  - reflexivity.
  - intros v t. unfold AlterConfigsResource44_Size, AlterConfigsResource44_schema, AlterConfigsResource44_to. apply size_start.
    apply size_step; [intros sz; reflexivity|].
    apply size_step; [intros sz; reflexivity|].
    apply size_step; [intros sz; apply (size_field_link (AlterableConfig44_Size v) AlterableConfig44_schema AlterableConfig44_to v (l_size _ AlterableConfig44_linked v) true)|].
    intros sz; reflexivity.
  - intros v t. unfold AlterConfigsResource44_Encode, AlterConfigsResource44_schema, AlterConfigsResource44_to.
    apply enc_step; [intros e; reflexivity|].
    apply enc_step; [intros e; reflexivity|].
    apply enc_step; [intros e; apply (put_field_link (AlterableConfig44_Encode v) AlterableConfig44_schema AlterableConfig44_to v (l_encode _ AlterableConfig44_linked v) true)|].
    intros e; reflexivity.
  - intros v t. unfold AlterConfigsResource44_Decode, AlterConfigsResource44_schema, AlterConfigsResource44_to.
    dec_field (fun x : Z => x); [apply dmap_id|intros x_ResourceType].
    dec_field (fun x : gostring => x); [apply dmap_id|intros x_ResourceName].
    dec_field (option_map (map AlterableConfig44_of)); [apply (dec_array_link _ _ AlterableConfig44_of AlterableConfig44_to (l_decode _ AlterableConfig44_linked v AlterableConfig44_zero) (l_of_to _ AlterableConfig44_linked))|intros x_Configs].
    intros d; reflexivity.
Qed.
Local Opaque AlterConfigsResource44_Size AlterConfigsResource44_Encode AlterConfigsResource44_Decode.

(** ** IncrementalAlterConfigsRequest *)

(** message/messages.gen.go:10844-10847 *)
Record IncrementalAlterConfigsRequest : Type := mkIncrementalAlterConfigsRequest { IncrementalAlterConfigsRequest_Resources : gslice AlterConfigsResource44; IncrementalAlterConfigsRequest_ValidateOnly : bool }.
(** the zero value ([var item IncrementalAlterConfigsRequest]) *)
Definition IncrementalAlterConfigsRequest_zero : IncrementalAlterConfigsRequest := mkIncrementalAlterConfigsRequest None false.
(** message/messages.gen.go:10850-10858 *)
Definition IncrementalAlterConfigsRequest_Size (version : Z) (t : IncrementalAlterConfigsRequest) : Z :=
  ((size_loop (AlterConfigsResource44_Size version) (IncrementalAlterConfigsRequest_Resources t)) +>
   (size_add sz_Bool) +>
   size_done)%size 0.
(** message/messages.gen.go:10861-10869 *)
Definition IncrementalAlterConfigsRequest_Encode (version : Z) (t : IncrementalAlterConfigsRequest) : Encoder -> Encoder :=
  ((put_array (AlterConfigsResource44_Encode version) (IncrementalAlterConfigsRequest_Resources t)) >>
   (PutBool (IncrementalAlterConfigsRequest_ValidateOnly t)) >>
   skip)%enc.
(** message/messages.gen.go:10872-10892 *)
Definition IncrementalAlterConfigsRequest_Decode (version : Z) (t : IncrementalAlterConfigsRequest) : Dec IncrementalAlterConfigsRequest :=
  x_Resources <- (dec_array (AlterConfigsResource44_Decode version AlterConfigsResource44_zero) (IncrementalAlterConfigsRequest_Resources t)) ;;
  x_ValidateOnly <- dBool ;;
  ret (mkIncrementalAlterConfigsRequest x_Resources x_ValidateOnly).
(** the struct declaration read as a schema; version ranges as in Size *)
Definition IncrementalAlterConfigsRequest_schema : fields :=
  FCons "Resources" Always (TArray AlterConfigsResource44_schema)
  (FCons "ValidateOnly" Always TBool FNil).
Definition IncrementalAlterConfigsRequest_to (t : IncrementalAlterConfigsRequest) : dens IncrementalAlterConfigsRequest_schema := (option_map (map AlterConfigsResource44_to) (IncrementalAlterConfigsRequest_Resources t), (IncrementalAlterConfigsRequest_ValidateOnly t, tt)).
Definition IncrementalAlterConfigsRequest_of (x : dens IncrementalAlterConfigsRequest_schema) : IncrementalAlterConfigsRequest := mkIncrementalAlterConfigsRequest (option_map (map AlterConfigsResource44_of) (fst x)) (fst (snd x)).
Definition IncrementalAlterConfigsRequest_codec : codec := Codec IncrementalAlterConfigsRequest IncrementalAlterConfigsRequest_zero IncrementalAlterConfigsRequest_Size IncrementalAlterConfigsRequest_Encode IncrementalAlterConfigsRequest_Decode IncrementalAlterConfigsRequest_schema IncrementalAlterConfigsRequest_to IncrementalAlterConfigsRequest_of.
Lemma IncrementalAlterConfigsRequest_linked : linked IncrementalAlterConfigsRequest_codec.
Proof.
  apply Linked; cbn [IncrementalAlterConfigsRequest_codec c_type c_zero c_size c_encode c_decode c_schema c_to c_of].
  - intros t. destruct t. cbv [IncrementalAlterConfigsRequest_of IncrementalAlterConfigsRequest_to]. cbn [fst snd IncrementalAlterConfigsRequest_Resources IncrementalAlterConfigsRequest_ValidateOnly]. rewrite ?(option_map_map_inv AlterConfigsResource44_to AlterConfigsResource44_of _ (l_of_to _ AlterConfigsResource44_linked)). reflexivity.
  - intros x. unfold IncrementalAlterConfigsRequest_schema in x. cbn [dens den] in x. destruct x as [x0 x]. destruct x as [x1 x]. destruct x. cbv [IncrementalAlterConfigsRequest_of IncrementalAlterConfigsRequest_to]. cbn [fst snd IncrementalAlterConfigsRequest_Resources IncrementalAlterConfigsRequest_ValidateOnly]. rewrite ?(option_map_map_inv AlterConfigsResource44_of AlterConfigsResource44_to _ (l_to_of _ AlterConfigsResource44_linked)). reflexivity.
  - reflexivity.
  - intros v t. unfold IncrementalAlterConfigsRequest_Size, IncrementalAlterConfigsRequest_schema, IncrementalAlterConfigsRequest_to. apply size_start.
    apply size_step; [intros sz; apply (size_field_link (AlterConfigsResource44_Size v) AlterConfigsResource44_schema AlterConfigsResource44_to v (l_size _ AlterConfigsResource44_linked v) true)|].
    apply size_step; [intros sz; reflexivity|].
    intros sz; reflexivity.
  - intros v t. unfold IncrementalAlterConfigsRequest_Encode, IncrementalAlterConfigsRequest_schema, IncrementalAlterConfigsRequest_to.
    apply enc_step; [intros e; apply (put_field_link (AlterConfigsResource44_Encode v) AlterConfigsResource44_schema AlterConfigsResource44_to v (l_encode _ AlterConfigsResource44_linked v) true)|].
    apply enc_step; [intros e; reflexivity|].
    intros e; reflexivity.
  - intros v t. unfold IncrementalAlterConfigsRequest_Decode, IncrementalAlterConfigsRequest_schema, IncrementalAlterConfigsRequest_to.
    dec_field (option_map (map AlterConfigsResource44_of)); [apply (dec_array_link _ _ AlterConfigsResource44_of AlterConfigsResource44_to (l_decode _ AlterConfigsResource44_linked v AlterConfigsResource44_zero) (l_of_to _ AlterConfigsResource44_linked))|intros x_Resources].
    dec_field (fun x : bool => x); [apply dmap_id|intros x_ValidateOnly].
    intros d; reflexivity.
Qed.
Local Opaque IncrementalAlterConfigsRequest_Size IncrementalAlterConfigsRequest_Encode IncrementalAlterConfigsRequest_Decode.

(** ** AlterConfigsResourceResponse44 *)

(** message/messages.gen.go:11042-11047 *)
Record AlterConfigsResourceResponse44 : Type := mkAlterConfigsResourceResponse44 { AlterConfigsResourceResponse44_ErrorCode : Z; AlterConfigsResourceResponse44_ErrorMessage : gostring; AlterConfigsResourceResponse44_ResourceType : Z; AlterConfigsResourceResponse44_ResourceName : gostring }.
(** the zero value ([var item AlterConfigsResourceResponse44]) *)
Definition AlterConfigsResourceResponse44_zero : AlterConfigsResourceResponse44 := mkAlterConfigsResourceResponse44 0 [] 0 [].
(** message/messages.gen.go:11050-11057 *)
Definition AlterConfigsResourceResponse44_Size (version : Z) (t : AlterConfigsResourceResponse44) : Z :=
  ((size_add sz_Int16) +>
   (size_add (sz_String (AlterConfigsResourceResponse44_ErrorMessage t))) +>
   (size_add sz_Int8) +>
   (size_add (sz_String (AlterConfigsResourceResponse44_ResourceName t))) +>
   size_done)%size 0.
(** message/messages.gen.go:11060-11065 *)
Definition AlterConfigsResourceResponse44_Encode (version : Z) (t : AlterConfigsResourceResponse44) : Encoder -> Encoder :=
  ((PutInt16 (AlterConfigsResourceResponse44_ErrorCode t)) >>
   (PutString (AlterConfigsResourceResponse44_ErrorMessage t)) >>
   (PutInt8 (AlterConfigsResourceResponse44_ResourceType t)) >>
   (PutString (AlterConfigsResourceResponse44_ResourceName t)) >>
   skip)%enc.
(** message/messages.gen.go:11068-11087 *)
Definition AlterConfigsResourceResponse44_Decode (version : Z) (t : AlterConfigsResourceResponse44) : Dec AlterConfigsResourceResponse44 :=
  x_ErrorCode <- dInt16 ;;
  x_ErrorMessage <- dString ;;
  x_ResourceType <- dInt8 ;;
  x_ResourceName <- dString ;;
  ret (mkAlterConfigsResourceResponse44 x_ErrorCode x_ErrorMessage x_ResourceType x_ResourceName).
(** the struct declaration read as a schema; version ranges as in Size *)
Definition AlterConfigsResourceResponse44_schema : fields :=
  FCons "ErrorCode" Always TInt16
  (FCons "ErrorMessage" Always TString
  (FCons "ResourceType" Always TInt8
  (FCons "ResourceName" Always TString FNil))).
Definition AlterConfigsResourceResponse44_to (t : AlterConfigsResourceResponse44) : dens AlterConfigsResourceResponse44_schema := (AlterConfigsResourceResponse44_ErrorCode t, (AlterConfigsResourceResponse44_ErrorMessage t, (AlterConfigsResourceResponse44_ResourceType t, (AlterConfigsResourceResponse44_ResourceName t, tt)))).
Definition AlterConfigsResourceResponse44_of (x : dens AlterConfigsResourceResponse44_schema) : AlterConfigsResourceResponse44 := mkAlterConfigsResourceResponse44 (fst x) (fst (snd x)) (fst (snd (snd x))) (fst (snd (snd (snd x)))).
Definition AlterConfigsResourceResponse44_codec : codec := Codec AlterConfigsResourceResponse44 AlterConfigsResourceResponse44_zero AlterConfigsResourceResponse44_Size AlterConfigsResourceResponse44_Encode AlterConfigsResourceResponse44_Decode AlterConfigsResourceResponse44_schema AlterConfigsResourceResponse44_to AlterConfigsResourceResponse44_of.
Lemma AlterConfigsResourceResponse44_linked : linked AlterConfigsResourceResponse44_codec.
Proof.
  apply Linked; cbn [AlterConfigsResourceResponse44_codec c_type c_zero c_size c_encode c_decode c_schema c_to c_of].
  - intros t. destruct t. cbv [AlterConfigsResourceResponse44_of AlterConfigsResourceResponse44_to]. cbn [fst snd AlterConfigsResourceResponse44_ErrorCode AlterConfigsResourceResponse44_ErrorMessage AlterConfigsResourceResponse44_ResourceType AlterConfigsResourceResponse44_ResourceName].  reflexivity.
  - intros x. unfold AlterConfigsResourceResponse44_schema in x. cbn [dens den] in x. destruct x as [x0 x]. destruct x as [x1 x]. destruct x as [x2 x]. destruct x as [x3 x]. destruct x. cbv [AlterConfigsResourceResponse44_of AlterConfigsResourceResponse44_to]. cbn [fst snd AlterConfigsResourceResponse44_ErrorCode AlterConfigsResourceResponse44_ErrorMessage AlterConfigsResourceResponse44_ResourceType AlterConfigsResourceResponse44_ResourceName].  reflexivity.
  - reflexivity.
  - intros v t. unfold AlterConfigsResourceResponse44_Size, AlterConfigsResourceResponse44_schema, AlterConfigsResourceResponse44_to. apply size_start.
    apply size_step; [intros sz; reflexivity|].
    apply size_step; [intros sz; reflexivity|].
    apply size_step; [intros sz; reflexivity|].
    apply size_step; [intros sz; reflexivity|].
    intros sz; reflexivity.
  - intros v t. unfold AlterConfigsResourceResponse44_Encode, AlterConfigsResourceResponse44_schema, AlterConfigsResourceResponse44_to.
    apply enc_step; [intros e; reflexivity|].
    apply enc_step; [intros e; reflexivity|].
    apply enc_step; [intros e; reflexivity|].
    apply enc_step; [intros e; reflexivity|].
    intros e; reflexivity.
  - intros v t. unfold AlterConfigsResourceResponse44_Decode, AlterConfigsResourceResponse44_schema, AlterConfigsResourceResponse44_to.
    dec_field (fun x : Z => x); [apply dmap_id|intros x_ErrorCode].
    dec_field (fun x : gostring => x); [apply dmap_id|intros x_ErrorMessage].
    dec_field (fun x : Z => x); [apply dmap_id|intros x_ResourceType].
    dec_field (fun x : gostring => x); [apply dmap_id|intros x_ResourceName].
    intros d; reflexivity.
Qed.
Local Opaque AlterConfigsResourceResponse44_Size AlterConfigsResourceResponse44_Encode AlterConfigsResourceResponse44_Decode.

(** ** IncrementalAlterConfigsResponse *)

(** message/messages.gen.go:10992-10995 *)
Record IncrementalAlterConfigsResponse : Type := mkIncrementalAlterConfigsResponse { IncrementalAlterConfigsResponse_ThrottleTimeMs : Z; IncrementalAlterConfigsResponse_Responses : gslice AlterConfigsResourceResponse44 }.
(** the zero value ([var item IncrementalAlterConfigsResponse]) *)
Definition IncrementalAlterConfigsResponse_zero : IncrementalAlterConfigsResponse := mkIncrementalAlterConfigsResponse 0 None.
(** message/messages.gen.go:10998-11006 *)
Definition IncrementalAlterConfigsResponse_Size (version : Z) (t : IncrementalAlterConfigsResponse) : Z :=
  ((size_add sz_Int32) +>
   (size_loop (AlterConfigsResourceResponse44_Size version) (IncrementalAlterConfigsResponse_Responses t)) +>
   size_done)%size 0.
(** message/messages.gen.go:11009-11017 *)
Definition IncrementalAlterConfigsResponse_Encode (version : Z) (t : IncrementalAlterConfigsResponse) : Encoder -> Encoder :=
  ((PutInt32 (IncrementalAlterConfigsResponse_ThrottleTimeMs t)) >>
   (put_array (AlterConfigsResourceResponse44_Encode version) (IncrementalAlterConfigsResponse_Responses t)) >>
   skip)%enc.
(** message/messages.gen.go:11020-11040 *)
Definition IncrementalAlterConfigsResponse_Decode (version : Z) (t : IncrementalAlterConfigsResponse) : Dec IncrementalAlterConfigsResponse :=
  x_ThrottleTimeMs <- dInt32 ;;
  x_Responses <- (dec_array (AlterConfigsResourceResponse44_Decode version AlterConfigsResourceResponse44_zero) (IncrementalAlterConfigsResponse_Responses t)) ;;
  ret (mkIncrementalAlterConfigsResponse x_ThrottleTimeMs x_Responses).
(** the struct declaration read as a schema; version ranges as in Size *)
Definition IncrementalAlterConfigsResponse_schema : fields :=
  FCons "ThrottleTimeMs" Always TInt32
  (FCons "Responses" Always (TArray AlterConfigsResourceResponse44_schema) FNil).
Definition IncrementalAlterConfigsResponse_to (t : IncrementalAlterConfigsResponse) : dens IncrementalAlterConfigsResponse_schema := (IncrementalAlterConfigsResponse_ThrottleTimeMs t, (option_map (map AlterConfigsResourceResponse44_to) (IncrementalAlterConfigsResponse_Responses t), tt)).
Definition IncrementalAlterConfigsResponse_of (x : dens IncrementalAlterConfigsResponse_schema) : IncrementalAlterConfigsResponse := mkIncrementalAlterConfigsResponse (fst x) (option_map (map AlterConfigsResourceResponse44_of) (fst (snd x))).
Definition IncrementalAlterConfigsResponse_codec : codec := Codec IncrementalAlterConfigsResponse IncrementalAlterConfigsResponse_zero IncrementalAlterConfigsResponse_Size IncrementalAlterConfigsResponse_Encode IncrementalAlterConfigsResponse_Decode IncrementalAlterConfigsResponse_schema IncrementalAlterConfigsResponse_to IncrementalAlterConfigsResponse_of.
Lemma IncrementalAlterConfigsResponse_linked : linked IncrementalAlterConfigsResponse_codec.
Proof.
  apply Linked; cbn [IncrementalAlterConfigsResponse_codec c_type c_zero c_size c_encode c_decode c_schema c_to c_of].
  - intros t. destruct t. cbv [IncrementalAlterConfigsResponse_of IncrementalAlterConfigsResponse_to]. cbn [fst snd IncrementalAlterConfigsResponse_ThrottleTimeMs IncrementalAlterConfigsResponse_Responses]. rewrite ?(option_map_map_inv AlterConfigsResourceResponse44_to AlterConfigsResourceResponse44_of _ (l_of_to _ AlterConfigsResourceResponse44_linked)). reflexivity.
  - intros x. unfold IncrementalAlterConfigsResponse_schema in x. cbn [dens den] in x. destruct x as [x0 x]. destruct x as [x1 x]. destruct x. cbv [IncrementalAlterConfigsResponse_of IncrementalAlterConfigsResponse_to]. cbn [fst snd IncrementalAlterConfigsResponse_ThrottleTimeMs IncrementalAlterConfigsResponse_Responses]. rewrite ?(option_map_map_inv AlterConfigsResourceResponse44_of AlterConfigsResourceResponse44_to _ (l_to_of _ AlterConfigsResourceResponse44_linked)). reflexivity.
  - reflexivity.
  - intros v t. unfold IncrementalAlterConfigsResponse_Size, IncrementalAlterConfigsResponse_schema, IncrementalAlterConfigsResponse_to. apply size_start.
    apply size_step; [intros sz; reflexivity|].
    apply size_step; [intros sz; apply (size_field_link (AlterConfigsResourceResponse44_Size v) AlterConfigsResourceResponse44_schema AlterConfigsResourceResponse44_to v (l_size _ AlterConfigsResourceResponse44_linked v) true)|].
    intros sz; reflexivity.
  - intros v t. unfold IncrementalAlterConfigsResponse_Encode, IncrementalAlterConfigsResponse_schema, IncrementalAlterConfigsResponse_to.
    apply enc_step; [intros e; reflexivity|].
    apply enc_step; [intros e; apply (put_field_link (AlterConfigsResourceResponse44_Encode v) AlterConfigsResourceResponse44_schema AlterConfigsResourceResponse44_to v (l_encode _ AlterConfigsResourceResponse44_linked v) true)|].
    intros e; reflexivity.
  - intros v t. unfold IncrementalAlterConfigsResponse_Decode, IncrementalAlterConfigsResponse_schema, IncrementalAlterConfigsResponse_to.
    dec_field (fun x : Z => x); [apply dmap_id|intros x_ThrottleTimeMs].
    dec_field (option_map (map AlterConfigsResourceResponse44_of)); [apply (dec_array_link _ _ AlterConfigsResourceResponse44_of AlterConfigsResourceResponse44_to (l_decode _ AlterConfigsResourceResponse44_linked v AlterConfigsResourceResponse44_zero) (l_of_to _ AlterConfigsResourceResponse44_linked))|intros x_Responses].
    intros d; reflexivity.
Qed.
Local Opaque IncrementalAlterConfigsResponse_Size IncrementalAlterConfigsResponse_Encode IncrementalAlterConfigsResponse_Decode.

(** ** ReassignablePartition45 *)

(** message/messages.gen.go:11190-11193 *)
Record ReassignablePartition45 : Type := mkReassignablePartition45 { ReassignablePartition45_PartitionIndex : Z; ReassignablePartition45_Replicas : gslice Z }.
(** the zero value ([var item ReassignablePartition45]) *)
Definition ReassignablePartition45_zero : ReassignablePartition45 := mkReassignablePartition45 0 None.
(** message/messages.gen.go:11196-11201 *)
Definition ReassignablePartition45_Size (version : Z) (t : ReassignablePartition45) : Z :=
  ((size_add sz_Int32) +>
   (size_add (sz_Int32Array (ReassignablePartition45_Replicas t))) +>
   size_done)%size 0.
(** message/messages.gen.go:11204-11207 *)
Definition ReassignablePartition45_Encode (version : Z) (t : ReassignablePartition45) : Encoder -> Encoder :=
  ((PutInt32 (ReassignablePartition45_PartitionIndex t)) >>
   (PutInt32Array (ReassignablePartition45_Replicas t)) >>
   skip)%enc.
(** message/messages.gen.go:11210-11221 *)
Definition ReassignablePartition45_Decode (version : Z) (t : ReassignablePartition45) : Dec ReassignablePartition45 :=
  x_PartitionIndex <- dInt32 ;;
  x_Replicas <- dInt32Array ;;
  ret (mkReassignablePartition45 x_PartitionIndex x_Replicas).
(** the struct declaration read as a schema; version ranges as in Size *)
Definition ReassignablePartition45_schema : fields :=
  FCons "PartitionIndex" Always TInt32
  (FCons "Replicas" Always TInt32Array FNil).
Definition ReassignablePartition45_to (t : ReassignablePartition45) : dens ReassignablePartition45_schema := (ReassignablePartition45_PartitionIndex t, (ReassignablePartition45_Replicas t, tt)).
Definition ReassignablePartition45_of (x : dens ReassignablePartition45_schema) : ReassignablePartition45 := mkReassignablePartition45 (fst x) (fst (snd x)).
Definition ReassignablePartition45_codec : codec := Codec ReassignablePartition45 ReassignablePartition45_zero ReassignablePartition45_Size ReassignablePartition45_Encode ReassignablePartition45_Decode ReassignablePartition45_schema ReassignablePartition45_to ReassignablePartition45_of.
Lemma ReassignablePartition45_linked : linked ReassignablePartition45_codec.
Proof.
  apply Linked; cbn [ReassignablePartition45_codec c_type c_zero c_size c_encode c_decode c_schema c_to c_of].
  - intros t. destruct t. cbv [ReassignablePartition45_of ReassignablePartition45_to]. cbn [fst snd ReassignablePartition45_PartitionIndex ReassignablePartition45_Replicas].  reflexivity.
  - intros x. unfold ReassignablePartition45_schema in x. cbn [dens den] in x. destruct x as [x0 x]. destruct x as [x1 x]. destruct x. cbv [ReassignablePartition45_of ReassignablePartition45_to]. cbn [fst snd ReassignablePartition45_PartitionIndex ReassignablePartition45_Replicas].  reflexivity.
  - reflexivity.
  - intros v t. unfold ReassignablePartition45_Size, ReassignablePartition45_schema, ReassignablePartition45_to. apply size_start.
    apply size_step; [intros sz; reflexivity|].
    apply size_step; [intros sz; reflexivity|].
    intros sz; reflexivity.
  - intros v t. unfold ReassignablePartition45_Encode, ReassignablePartition45_schema, ReassignablePartition45_to.
    apply enc_step; [intros e; reflexivity|].
    apply enc_step; [intros e; reflexivity|].
    intros e; reflexivity.
  - intros v t. unfold ReassignablePartition45_Decode, ReassignablePartition45_schema, ReassignablePartition45_to.
    dec_field (fun x : Z => x); [apply dmap_id|intros x_PartitionIndex].
    dec_field (fun x : gslice Z => x); [apply dmap_id|intros x_Replicas].
    intros d; reflexivity.
Qed.
Local Opaque ReassignablePartition45_Size ReassignablePartition45_Encode ReassignablePartition45_Decode.

(** ** ReassignableTopic45 *)

(** message/messages.gen.go:11140-11143 *)
Record ReassignableTopic45 : Type := mkReassignableTopic45 { ReassignableTopic45_Name : gostring; ReassignableTopic45_Partitions : gslice ReassignablePartition45 }.
(** the zero value ([var item ReassignableTopic45]) *)
Definition ReassignableTopic45_zero : ReassignableTopic45 := mkReassignableTopic45 [] None.
(** message/messages.gen.go:11146-11154 *)
Definition ReassignableTopic45_Size (version : Z) (t : ReassignableTopic45) : Z :=
  ((size_add (sz_String (ReassignableTopic45_Name t))) +>
   (size_loop (ReassignablePartition45_Size version) (ReassignableTopic45_Partitions t)) +>
   size_done)%size 0.
(** message/messages.gen.go:11157-11165 *)
Definition ReassignableTopic45_Encode (version : Z) (t : ReassignableTopic45) : Encoder -> Encoder :=
  ((PutString (ReassignableTopic45_Name t)) >>
   (put_array (ReassignablePartition45_Encode version) (ReassignableTopic45_Partitions t)) >>
   skip)%enc.
(** message/messages.gen.go:11168-11188 *)
Definition ReassignableTopic45_Decode (version : Z) (t : ReassignableTopic45) : Dec ReassignableTopic45 :=
  x_Name <- dString ;;
  x_Partitions <- (dec_array (ReassignablePartition45_Decode version ReassignablePartition45_zero) (ReassignableTopic45_Partitions t)) ;;
  ret (mkReassignableTopic45 x_Name x_Partitions).
(** the struct declaration read as a schema; version ranges as in Size *)
Definition ReassignableTopic45_schema : fields :=
  FCons "Name" Always TString
  (FCons "Partitions" Always (TArray ReassignablePartition45_schema) FNil).
Definition ReassignableTopic45_to (t : ReassignableTopic45) : dens ReassignableTopic45_schema := (ReassignableTopic45_Name t, (option_map (map ReassignablePartition45_to) (ReassignableTopic45_Partitions t), tt)).
Definition ReassignableTopic45_of (x : dens ReassignableTopic45_schema) : ReassignableTopic45 := mkReassignableTopic45 (fst x) (option_map (map ReassignablePartition45_of) (fst (snd x))).
Definition ReassignableTopic45_codec : codec := Codec ReassignableTopic45 ReassignableTopic45_zero ReassignableTopic45_Size ReassignableTopic45_Encode ReassignableTopic45_Decode ReassignableTopic45_schema ReassignableTopic45_to ReassignableTopic45_of.
Lemma ReassignableTopic45_linked : linked ReassignableTopic45_codec.
Proof.
  apply Linked; cbn [ReassignableTopic45_codec c_type c_zero c_size c_encode c_decode c_schema c_to c_of].
  - intros t. destruct t. cbv [ReassignableTopic45_of ReassignableTopic45_to]. cbn [fst snd ReassignableTopic45_Name ReassignableTopic45_Partitions]. rewrite ?(option_map_map_inv ReassignablePartition45_to ReassignablePartition45_of _ (l_of_to _ ReassignablePartition45_linked)). reflexivity.
  - intros x. unfold ReassignableTopic45_schema in x. cbn [dens den] in x. destruct x as [x0 x]. destruct x as [x1 x]. destruct x. cbv [ReassignableTopic45_of ReassignableTopic45_to]. cbn [fst snd ReassignableTopic45_Name ReassignableTopic45_Partitions]. rewrite ?(option_map_map_inv ReassignablePartition45_of ReassignablePartition45_to _ (l_to_of _ ReassignablePartition45_linked)). reflexivity.
  - reflexivity.
  - intros v t. unfold ReassignableTopic45_Size, ReassignableTopic45_schema, ReassignableTopic45_to. apply size_start.
    apply size_step; [intros sz; reflexivity|].
    apply size_step; [intros sz; apply (size_field_link (ReassignablePartition45_Size v) ReassignablePartition45_schema ReassignablePartition45_to v (l_size _ ReassignablePartition45_linked v) true)|].
    intros sz; reflexivity.
  - intros v t. unfold ReassignableTopic45_Encode, ReassignableTopic45_schema, ReassignableTopic45_to.
    apply enc_step; [intros e; reflexivity|].
    apply enc_step; [intros e; apply (put_field_link (ReassignablePartition45_Encode v) ReassignablePartition45_schema ReassignablePartition45_to v (l_encode _ ReassignablePartition45_linked v) true)|].
    intros e; reflexivity.
  - intros v t. unfold ReassignableTopic45_Decode, ReassignableTopic45_schema, ReassignableTopic45_to.
    dec_field (fun x : gostring => x); [apply dmap_id|intros x_Name].
    dec_field (option_map (map ReassignablePartition45_of)); [apply (dec_array_link _ _ ReassignablePartition45_of ReassignablePartition45_to (l_decode _ ReassignablePartition45_linked v ReassignablePartition45_zero) (l_of_to _ ReassignablePartition45_linked))|intros x_Partitions].
    intros d; reflexivity.
Qed.
Local Opaque ReassignableTopic45_Size ReassignableTopic45_Encode ReassignableTopic45_Decode.

(** ** AlterPartitionReassignmentsRequest *)

(** message/messages.gen.go:11090-11093 *)
Record AlterPartitionReassignmentsRequest : Type := mkAlterPartitionReassignmentsRequest { AlterPartitionReassignmentsRequest_TimeoutMs : Z; AlterPartitionReassignmentsRequest_Topics : gslice ReassignableTopic45 }.
(** the zero value ([var item AlterPartitionReassignmentsRequest]) *)
Definition AlterPartitionReassignmentsRequest_zero : AlterPartitionReassignmentsRequest := mkAlterPartitionReassignmentsRequest 0 None.
(** message/messages.gen.go:11096-11104 *)
Definition AlterPartitionReassignmentsRequest_Size (version : Z) (t : AlterPartitionReassignmentsRequest) : Z :=
  ((size_add sz_Int32) +>
   (size_loop (ReassignableTopic45_Size version) (AlterPartitionReassignmentsRequest_Topics t)) +>
   size_done)%size 0.
(** message/messages.gen.go:11107-11115 *)
Definition AlterPartitionReassignmentsRequest_Encode (version : Z) (t : AlterPartitionReassignmentsRequest) : Encoder -> Encoder :=
  ((PutInt32 (AlterPartitionReassignmentsRequest_TimeoutMs t)) >>
   (put_array (ReassignableTopic45_Encode version) (AlterPartitionReassignmentsRequest_Topics t)) >>
   skip)%enc.
(** message/messages.gen.go:11118-11138 *)
Definition AlterPartitionReassignmentsRequest_Decode (version : Z) (t : AlterPartitionReassignmentsRequest) : Dec AlterPartitionReassignmentsRequest :=
  x_TimeoutMs <- dInt32 ;;
  x_Topics <- (dec_array (ReassignableTopic45_Decode version ReassignableTopic45_zero) (AlterPartitionReassignmentsRequest_Topics t)) ;;
  ret (mkAlterPartitionReassignmentsRequest x_TimeoutMs x_Topics).
(** the struct declaration read as a schema; version ranges as in Size *)
Definition AlterPartitionReassignmentsRequest_schema : fields :=
  FCons "TimeoutMs" Always TInt32
  (FCons "Topics" Always (TArray ReassignableTopic45_schema) FNil).
Definition AlterPartitionReassignmentsRequest_to (t : AlterPartitionReassignmentsRequest) : dens AlterPartitionReassignmentsRequest_schema := (AlterPartitionReassignmentsRequest_TimeoutMs t, (option_map (map ReassignableTopic45_to) (AlterPartitionReassignmentsRequest_Topics t), tt)).
Definition AlterPartitionReassignmentsRequest_of (x : dens AlterPartitionReassignmentsRequest_schema) : AlterPartitionReassignmentsRequest := mkAlterPartitionReassignmentsRequest (fst x) (option_map (map ReassignableTopic45_of) (fst (snd x))).
Definition AlterPartitionReassignmentsRequest_codec : codec := Codec AlterPartitionReassignmentsRequest AlterPartitionReassignmentsRequest_zero AlterPartitionReassignmentsRequest_Size AlterPartitionReassignmentsRequest_Encode AlterPartitionReassignmentsRequest_Decode AlterPartitionReassignmentsRequest_schema AlterPartitionReassignmentsRequest_to AlterPartitionReassignmentsRequest_of.
Lemma AlterPartitionReassignmentsRequest_linked : linked AlterPartitionReassignmentsRequest_codec.
Proof.
  apply Linked; cbn [AlterPartitionReassignmentsRequest_codec c_type c_zero c_size c_encode c_decode c_schema c_to c_of].
  - intros t. destruct t. cbv [AlterPartitionReassignmentsRequest_of AlterPartitionReassignmentsRequest_to]. cbn [fst snd AlterPartitionReassignmentsRequest_TimeoutMs AlterPartitionReassignmentsRequest_Topics]. rewrite ?(option_map_map_inv ReassignableTopic45_to ReassignableTopic45_of _ (l_of_to _ ReassignableTopic45_linked)). reflexivity.
  - intros x. unfold AlterPartitionReassignmentsRequest_schema in x. cbn [dens den] in x. destruct x as [x0 x]. destruct x as [x1 x]. destruct x. cbv [AlterPartitionReassignmentsRequest_of AlterPartitionReassignmentsRequest_to]. cbn [fst snd AlterPartitionReassignmentsRequest_TimeoutMs AlterPartitionReassignmentsRequest_Topics]. rewrite ?(option_map_map_inv ReassignableTopic45_of ReassignableTopic45_to _ (l_to_of _ ReassignableTopic45_linked)). reflexivity.
  - reflexivity.
  - intros v t. unfold AlterPartitionReassignmentsRequest_Size, AlterPartitionReassignmentsRequest_schema, AlterPartitionReassignmentsRequest_to. apply size_start.
    apply size_step; [intros sz; reflexivity|].
    apply size_step; [intros sz; apply (size_field_link (ReassignableTopic45_Size v) ReassignableTopic45_schema ReassignableTopic45_to v (l_size _ ReassignableTopic45_linked v) true)|].
    intros sz; reflexivity.
  - intros v t. unfold AlterPartitionReassignmentsRequest_Encode, AlterPartitionReassignmentsRequest_schema, AlterPartitionReassignmentsRequest_to.
    apply enc_step; [intros e; reflexivity|].
    apply enc_step; [intros e; apply (put_field_link (ReassignableTopic45_Encode v) ReassignableTopic45_schema ReassignableTopic45_to v (l_encode _ ReassignableTopic45_linked v) true)|].
    intros e; reflexivity.
  - intros v t. unfold AlterPartitionReassignmentsRequest_Decode, AlterPartitionReassignmentsRequest_schema, AlterPartitionReassignmentsRequest_to.
    dec_field (fun x : Z => x); [apply dmap_id|intros x_TimeoutMs].
    dec_field (option_map (map ReassignableTopic45_of)); [apply (dec_array_link _ _ ReassignableTopic45_of ReassignableTopic45_to (l_decode _ ReassignableTopic45_linked v ReassignableTopic45_zero) (l_of_to _ ReassignableTopic45_linked))|intros x_Topics].
    intros d; reflexivity.
Qed.
Local Opaque AlterPartitionReassignmentsRequest_Size AlterPartitionReassignmentsRequest_Encode AlterPartitionReassignmentsRequest_Decode.

