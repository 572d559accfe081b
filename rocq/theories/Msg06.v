(** * Generated message types (part 6 of 10).

    Written by tools/gen_messages.py from message/messages.gen.go, one
    definition per Go method; do not edit.  A Decode method that fails leaves
    a partly filled receiver behind, which no caller looks at; the model drops
    it. *)
From Coq Require Import String.
From Verif Require Import GoBase Encoder Decoder Sizeof SchemaSpec Schema Link.
Open Scope Z_scope.

(** ** AddPartitionsToTxnPartitionResult24 *)

(** message/messages.gen.go:6825-6828 *)
Record AddPartitionsToTxnPartitionResult24 : Type := mkAddPartitionsToTxnPartitionResult24 { AddPartitionsToTxnPartitionResult24_PartitionIndex : Z; AddPartitionsToTxnPartitionResult24_ErrorCode : Z }.
(** the zero value ([var item AddPartitionsToTxnPartitionResult24]) *)
Definition AddPartitionsToTxnPartitionResult24_zero : AddPartitionsToTxnPartitionResult24 := mkAddPartitionsToTxnPartitionResult24 0 0.
(** message/messages.gen.go:6831-6836 *)
Definition AddPartitionsToTxnPartitionResult24_Size (version : Z) (t : AddPartitionsToTxnPartitionResult24) : Z :=
  ((size_add sz_Int32) +>
   (size_add sz_Int16) +>
   size_done)%size 0.
(** message/messages.gen.go:6839-6842 *)
Definition AddPartitionsToTxnPartitionResult24_Encode (version : Z) (t : AddPartitionsToTxnPartitionResult24) : Encoder -> Encoder :=
  ((PutInt32 (AddPartitionsToTxnPartitionResult24_PartitionIndex t)) >>
   (PutInt16 (AddPartitionsToTxnPartitionResult24_ErrorCode t)) >>
   skip)%enc.
(** message/messages.gen.go:6845-6856 *)
Definition AddPartitionsToTxnPartitionResult24_Decode (version : Z) (t : AddPartitionsToTxnPartitionResult24) : Dec AddPartitionsToTxnPartitionResult24 :=
  x_PartitionIndex <- dInt32 ;;
  x_ErrorCode <- dInt16 ;;
  ret (mkAddPartitionsToTxnPartitionResult24 x_PartitionIndex x_ErrorCode).
(** the struct declaration read as a schema; version ranges as in Size *)
Definition AddPartitionsToTxnPartitionResult24_schema : fields :=
  FCons "PartitionIndex" Always TInt32
  (FCons "ErrorCode" Always TInt16 FNil).
Definition AddPartitionsToTxnPartitionResult24_to (t : AddPartitionsToTxnPartitionResult24) : dens AddPartitionsToTxnPartitionResult24_schema := (AddPartitionsToTxnPartitionResult24_PartitionIndex t, (AddPartitionsToTxnPartitionResult24_ErrorCode t, tt)).
Definition AddPartitionsToTxnPartitionResult24_of (x : dens AddPartitionsToTxnPartitionResult24_schema) : AddPartitionsToTxnPartitionResult24 := mkAddPartitionsToTxnPartitionResult24 (fst x) (fst (snd x)).
Definition AddPartitionsToTxnPartitionResult24_codec : codec := Codec AddPartitionsToTxnPartitionResult24 AddPartitionsToTxnPartitionResult24_zero AddPartitionsToTxnPartitionResult24_Size AddPartitionsToTxnPartitionResult24_Encode AddPartitionsToTxnPartitionResult24_Decode AddPartitionsToTxnPartitionResult24_schema AddPartitionsToTxnPartitionResult24_to AddPartitionsToTxnPartitionResult24_of.
Lemma AddPartitionsToTxnPartitionResult24_linked : linked AddPartitionsToTxnPartitionResult24_codec.
Proof.
  apply Linked; cbn [AddPartitionsToTxnPartitionResult24_codec c_type c_zero c_size c_encode c_decode c_schema c_to c_of].
  - intros t. destruct t. cbv [AddPartitionsToTxnPartitionResult24_of AddPartitionsToTxnPartitionResult24_to]. cbn [fst snd AddPartitionsToTxnPartitionResult24_PartitionIndex AddPartitionsToTxnPartitionResult24_ErrorCode].  reflexivity.
  - intros x. unfold AddPartitionsToTxnPartitionResult24_schema in x. cbn [dens den] in x. destruct x as [x0 x]. destruct x as [x1 x]. destruct x. cbv [AddPartitionsToTxnPartitionResult24_of AddPartitionsToTxnPartitionResult24_to]. cbn [fst snd AddPartitionsToTxnPartitionResult24_PartitionIndex AddPartitionsToTxnPartitionResult24_ErrorCode].  reflexivity.
  - reflexivity.
  - intros v t. unfold AddPartitionsToTxnPartitionResult24_Size, AddPartitionsToTxnPartitionResult24_schema, AddPartitionsToTxnPartitionResult24_to. apply size_start.
    apply size_step; [intros sz; reflexivity|].
    apply size_step; [intros sz; reflexivity|].
    intros sz; reflexivity.
  - intros v t. unfold AddPartitionsToTxnPartitionResult24_Encode, AddPartitionsToTxnPartitionResult24_schema, AddPartitionsToTxnPartitionResult24_to.
    apply enc_step; [intros e; reflexivity|].
    apply enc_step; [intros e; reflexivity|].
    intros e; reflexivity.
  - intros v t. unfold AddPartitionsToTxnPartitionResult24_Decode, AddPartitionsToTxnPartitionResult24_schema, AddPartitionsToTxnPartitionResult24_to.
    dec_field (fun x : Z => x); [apply dmap_id|intros x_PartitionIndex].
    dec_field (fun x : Z => x); [apply dmap_id|intros x_ErrorCode].
    intros d; reflexivity.
Qed.
Local Opaque AddPartitionsToTxnPartitionResult24_Size AddPartitionsToTxnPartitionResult24_Encode AddPartitionsToTxnPartitionResult24_Decode.

(** ** AddPartitionsToTxnTopicResult24 *)

(** message/messages.gen.go:6775-6778 *)
Record AddPartitionsToTxnTopicResult24 : Type := mkAddPartitionsToTxnTopicResult24 { AddPartitionsToTxnTopicResult24_Name : gostring; AddPartitionsToTxnTopicResult24_Results : gslice AddPartitionsToTxnPartitionResult24 }.
(** the zero value ([var item AddPartitionsToTxnTopicResult24]) *)
Definition AddPartitionsToTxnTopicResult24_zero : AddPartitionsToTxnTopicResult24 := mkAddPartitionsToTxnTopicResult24 [] None.
(** message/messages.gen.go:6781-6789 *)
Definition AddPartitionsToTxnTopicResult24_Size (version : Z) (t : AddPartitionsToTxnTopicResult24) : Z :=
  ((size_add (sz_String (AddPartitionsToTxnTopicResult24_Name t))) +>
   (size_loop (AddPartitionsToTxnPartitionResult24_Size version) (AddPartitionsToTxnTopicResult24_Results t)) +>
   size_done)%size 0.
(** message/messages.gen.go:6792-6800 *)
Definition AddPartitionsToTxnTopicResult24_Encode (version : Z) (t : AddPartitionsToTxnTopicResult24) : Encoder -> Encoder :=
  ((PutString (AddPartitionsToTxnTopicResult24_Name t)) >>
   (put_array (AddPartitionsToTxnPartitionResult24_Encode version) (AddPartitionsToTxnTopicResult24_Results t)) >>
   skip)%enc.
(** message/messages.gen.go:6803-6823 *)
Definition AddPartitionsToTxnTopicResult24_Decode (version : Z) (t : AddPartitionsToTxnTopicResult24) : Dec AddPartitionsToTxnTopicResult24 :=
  x_Name <- dString ;;
  x_Results <- (dec_array (AddPartitionsToTxnPartitionResult24_Decode version AddPartitionsToTxnPartitionResult24_zero) (AddPartitionsToTxnTopicResult24_Results t)) ;;
  ret (mkAddPartitionsToTxnTopicResult24 x_Name x_Results).
(** the struct declaration read as a schema; version ranges as in Size *)
Definition AddPartitionsToTxnTopicResult24_schema : fields :=
  FCons "Name" Always TString
  (FCons "Results" Always (TArray AddPartitionsToTxnPartitionResult24_schema) FNil).
Definition AddPartitionsToTxnTopicResult24_to (t : AddPartitionsToTxnTopicResult24) : dens AddPartitionsToTxnTopicResult24_schema := (AddPartitionsToTxnTopicResult24_Name t, (option_map (map AddPartitionsToTxnPartitionResult24_to) (AddPartitionsToTxnTopicResult24_Results t), tt)).
Definition AddPartitionsToTxnTopicResult24_of (x : dens AddPartitionsToTxnTopicResult24_schema) : AddPartitionsToTxnTopicResult24 := mkAddPartitionsToTxnTopicResult24 (fst x) (option_map (map AddPartitionsToTxnPartitionResult24_of) (fst (snd x))).
Definition AddPartitionsToTxnTopicResult24_codec : codec := Codec AddPartitionsToTxnTopicResult24 AddPartitionsToTxnTopicResult24_zero AddPartitionsToTxnTopicResult24_Size AddPartitionsToTxnTopicResult24_Encode AddPartitionsToTxnTopicResult24_Decode AddPartitionsToTxnTopicResult24_schema AddPartitionsToTxnTopicResult24_to AddPartitionsToTxnTopicResult24_of.
Lemma AddPartitionsToTxnTopicResult24_linked : linked AddPartitionsToTxnTopicResult24_codec.
Proof.
  apply Linked; cbn [AddPartitionsToTxnTopicResult24_codec c_type c_zero c_size c_encode c_decode c_schema c_to c_of].
  - intros t. destruct t. cbv [AddPartitionsToTxnTopicResult24_of AddPartitionsToTxnTopicResult24_to]. cbn [fst snd AddPartitionsToTxnTopicResult24_Name AddPartitionsToTxnTopicResult24_Results]. rewrite ?(option_map_map_inv AddPartitionsToTxnPartitionResult24_to AddPartitionsToTxnPartitionResult24_of _ (l_of_to _ AddPartitionsToTxnPartitionResult24_linked)). reflexivity.
  - intros x. unfold AddPartitionsToTxnTopicResult24_schema in x. cbn [dens den] in x. destruct x as [x0 x]. destruct x as [x1 x]. destruct x. cbv [AddPartitionsToTxnTopicResult24_of AddPartitionsToTxnTopicResult24_to]. cbn [fst snd AddPartitionsToTxnTopicResult24_Name AddPartitionsToTxnTopicResult24_Results]. rewrite ?(option_map_map_inv AddPartitionsToTxnPartitionResult24_of AddPartitionsToTxnPartitionResult24_to _ (l_to_of _ AddPartitionsToTxnPartitionResult24_linked)). reflexivity.
  - reflexivity.
  - intros v t. unfold AddPartitionsToTxnTopicResult24_Size, AddPartitionsToTxnTopicResult24_schema, AddPartitionsToTxnTopicResult24_to. apply size_start.
    apply size_step; [intros sz; reflexivity|].
    apply size_step; [intros sz; apply (size_field_link (AddPartitionsToTxnPartitionResult24_Size v) AddPartitionsToTxnPartitionResult24_schema AddPartitionsToTxnPartitionResult24_to v (l_size _ AddPartitionsToTxnPartitionResult24_linked v) true)|].
    intros sz; reflexivity.
  - intros v t. unfold AddPartitionsToTxnTopicResult24_Encode, AddPartitionsToTxnTopicResult24_schema, AddPartitionsToTxnTopicResult24_to.
    apply enc_step; [intros e; reflexivity|].
    apply enc_step; [intros e; apply (put_field_link (AddPartitionsToTxnPartitionResult24_Encode v) AddPartitionsToTxnPartitionResult24_schema AddPartitionsToTxnPartitionResult24_to v (l_encode _ AddPartitionsToTxnPartitionResult24_linked v) true)|].
    intros e; reflexivity.
  - intros v t. unfold AddPartitionsToTxnTopicResult24_Decode, AddPartitionsToTxnTopicResult24_schema, AddPartitionsToTxnTopicResult24_to.
    dec_field (fun x : gostring => x); [apply dmap_id|intros x_Name].
    dec_field (option_map (map AddPartitionsToTxnPartitionResult24_of)); [apply (dec_array_link _ _ AddPartitionsToTxnPartitionResult24_of AddPartitionsToTxnPartitionResult24_to (l_decode _ AddPartitionsToTxnPartitionResult24_linked v AddPartitionsToTxnPartitionResult24_zero) (l_of_to _ AddPartitionsToTxnPartitionResult24_linked))|intros x_Results].
    intros d; reflexivity.
Qed.
Local Opaque AddPartitionsToTxnTopicResult24_Size AddPartitionsToTxnTopicResult24_Encode AddPartitionsToTxnTopicResult24_Decode.

(** ** AddPartitionsToTxnResponse *)

(** message/messages.gen.go:6725-6728 *)
Record AddPartitionsToTxnResponse : Type := mkAddPartitionsToTxnResponse { AddPartitionsToTxnResponse_ThrottleTimeMs : Z; AddPartitionsToTxnResponse_Results : gslice AddPartitionsToTxnTopicResult24 }.
(** the zero value ([var item AddPartitionsToTxnResponse]) *)
Definition AddPartitionsToTxnResponse_zero : AddPartitionsToTxnResponse := mkAddPartitionsToTxnResponse 0 None.
(** message/messages.gen.go:6731-6739 *)
Definition AddPartitionsToTxnResponse_Size (version : Z) (t : AddPartitionsToTxnResponse) : Z :=
  ((size_add sz_Int32) +>
   (size_loop (AddPartitionsToTxnTopicResult24_Size version) (AddPartitionsToTxnResponse_Results t)) +>
   size_done)%size 0.
(** message/messages.gen.go:6742-6750 *)
Definition AddPartitionsToTxnResponse_Encode (version : Z) (t : AddPartitionsToTxnResponse) : Encoder -> Encoder :=
  ((PutInt32 (AddPartitionsToTxnResponse_ThrottleTimeMs t)) >>
   (put_array (AddPartitionsToTxnTopicResult24_Encode version) (AddPartitionsToTxnResponse_Results t)) >>
   skip)%enc.
(** message/messages.gen.go:6753-6773 *)
Definition AddPartitionsToTxnResponse_Decode (version : Z) (t : AddPartitionsToTxnResponse) : Dec AddPartitionsToTxnResponse :=
  x_ThrottleTimeMs <- dInt32 ;;
  x_Results <- (dec_array (AddPartitionsToTxnTopicResult24_Decode version AddPartitionsToTxnTopicResult24_zero) (AddPartitionsToTxnResponse_Results t)) ;;
  ret (mkAddPartitionsToTxnResponse x_ThrottleTimeMs x_Results).
(** the struct declaration read as a schema; version ranges as in Size *)
Definition AddPartitionsToTxnResponse_schema : fields :=
  FCons "ThrottleTimeMs" Always TInt32
  (FCons "Results" Always (TArray AddPartitionsToTxnTopicResult24_schema) FNil).
Definition AddPartitionsToTxnResponse_to (t : AddPartitionsToTxnResponse) : dens AddPartitionsToTxnResponse_schema := (AddPartitionsToTxnResponse_ThrottleTimeMs t, (option_map (map AddPartitionsToTxnTopicResult24_to) (AddPartitionsToTxnResponse_Results t), tt)).
Definition AddPartitionsToTxnResponse_of (x : dens AddPartitionsToTxnResponse_schema) : AddPartitionsToTxnResponse := mkAddPartitionsToTxnResponse (fst x) (option_map (map AddPartitionsToTxnTopicResult24_of) (fst (snd x))).
Definition AddPartitionsToTxnResponse_codec : codec := Codec AddPartitionsToTxnResponse AddPartitionsToTxnResponse_zero AddPartitionsToTxnResponse_Size AddPartitionsToTxnResponse_Encode AddPartitionsToTxnResponse_Decode AddPartitionsToTxnResponse_schema AddPartitionsToTxnResponse_to AddPartitionsToTxnResponse_of.
Lemma AddPartitionsToTxnResponse_linked : linked AddPartitionsToTxnResponse_codec.
Proof.
  apply Linked; cbn [AddPartitionsToTxnResponse_codec c_type c_zero c_size c_encode c_decode c_schema c_to c_of].
  - intros t. destruct t. cbv [AddPartitionsToTxnResponse_of AddPartitionsToTxnResponse_to]. cbn [fst snd AddPartitionsToTxnResponse_ThrottleTimeMs AddPartitionsToTxnResponse_Results]. rewrite ?(option_map_map_inv AddPartitionsToTxnTopicResult24_to AddPartitionsToTxnTopicResult24_of _ (l_of_to _ AddPartitionsToTxnTopicResult24_linked)). reflexivity.
  - intros x. unfold AddPartitionsToTxnResponse_schema in x. cbn [dens den] in x. destruct x as [x0 x]. destruct x as [x1 x]. destruct x. cbv [AddPartitionsToTxnResponse_of AddPartitionsToTxnResponse_to]. cbn [fst snd AddPartitionsToTxnResponse_ThrottleTimeMs AddPartitionsToTxnResponse_Results]. rewrite ?(option_map_map_inv AddPartitionsToTxnTopicResult24_of AddPartitionsToTxnTopicResult24_to _ (l_to_of _ AddPartitionsToTxnTopicResult24_linked)). reflexivity.
  - reflexivity.
  - intros v t. unfold AddPartitionsToTxnResponse_Size, AddPartitionsToTxnResponse_schema, AddPartitionsToTxnResponse_to. apply size_start.
    apply size_step; [intros sz; reflexivity|].
    apply size_step; [intros sz; apply (size_field_link (AddPartitionsToTxnTopicResult24_Size v) AddPartitionsToTxnTopicResult24_schema AddPartitionsToTxnTopicResult24_to v (l_size _ AddPartitionsToTxnTopicResult24_linked v) true)|].
    intros sz; reflexivity.
  - intros v t. unfold AddPartitionsToTxnResponse_Encode, AddPartitionsToTxnResponse_schema, AddPartitionsToTxnResponse_to.
    apply enc_step; [intros e; reflexivity|].
    apply enc_step; [intros e; apply (put_field_link (AddPartitionsToTxnTopicResult24_Encode v) AddPartitionsToTxnTopicResult24_schema AddPartitionsToTxnTopicResult24_to v (l_encode _ AddPartitionsToTxnTopicResult24_linked v) true)|].
    intros e; reflexivity.
  - intros v t. unfold AddPartitionsToTxnResponse_Decode, AddPartitionsToTxnResponse_schema, AddPartitionsToTxnResponse_to.
    dec_field (fun x : Z => x); [apply dmap_id|intros x_ThrottleTimeMs].
    dec_field (option_map (map AddPartitionsToTxnTopicResult24_of)); [apply (dec_array_link _ _ AddPartitionsToTxnTopicResult24_of AddPartitionsToTxnTopicResult24_to (l_decode _ AddPartitionsToTxnTopicResult24_linked v AddPartitionsToTxnTopicResult24_zero) (l_of_to _ AddPartitionsToTxnTopicResult24_linked))|intros x_Results].
    intros d; reflexivity.
Qed.
Local Opaque AddPartitionsToTxnResponse_Size AddPartitionsToTxnResponse_Encode AddPartitionsToTxnResponse_Decode.

(** ** AddOffsetsToTxnRequest *)

(** message/messages.gen.go:6859-6864 *)
Record AddOffsetsToTxnRequest : Type := mkAddOffsetsToTxnRequest { AddOffsetsToTxnRequest_TransactionalId : gostring; AddOffsetsToTxnRequest_ProducerId : Z; AddOffsetsToTxnRequest_ProducerEpoch : Z; AddOffsetsToTxnRequest_GroupId : gostring }.
(** the zero value ([var item AddOffsetsToTxnRequest]) *)
Definition AddOffsetsToTxnRequest_zero : AddOffsetsToTxnRequest := mkAddOffsetsToTxnRequest [] 0 0 [].
(** message/messages.gen.go:6867-6874 *)
Definition AddOffsetsToTxnRequest_Size (version : Z) (t : AddOffsetsToTxnRequest) : Z :=
  ((size_add (sz_String (AddOffsetsToTxnRequest_TransactionalId t))) +>
   (size_add sz_Int64) +>
   (size_add sz_Int16) +>
   (size_add (sz_String (AddOffsetsToTxnRequest_GroupId t))) +>
   size_done)%size 0.
(** message/messages.gen.go:6877-6882 *)
Definition AddOffsetsToTxnRequest_Encode (version : Z) (t : AddOffsetsToTxnRequest) : Encoder -> Encoder :=
  ((PutString (AddOffsetsToTxnRequest_TransactionalId t)) >>
   (PutInt64 (AddOffsetsToTxnRequest_ProducerId t)) >>
   (PutInt16 (AddOffsetsToTxnRequest_ProducerEpoch t)) >>
   (PutString (AddOffsetsToTxnRequest_GroupId t)) >>
   skip)%enc.
(** message/messages.gen.go:6885-6904 *)
Definition AddOffsetsToTxnRequest_Decode (version : Z) (t : AddOffsetsToTxnRequest) : Dec AddOffsetsToTxnRequest :=
  x_TransactionalId <- dString ;;
  x_ProducerId <- dInt64 ;;
  x_ProducerEpoch <- dInt16 ;;
  x_GroupId <- dString ;;
  ret (mkAddOffsetsToTxnRequest x_TransactionalId x_ProducerId x_ProducerEpoch x_GroupId).
(** the struct declaration read as a schema; version ranges as in Size *)
Definition AddOffsetsToTxnRequest_schema : fields :=
  FCons "TransactionalId" Always TString
  (FCons "ProducerId" Always TInt64
  (FCons "ProducerEpoch" Always TInt16
  (FCons "GroupId" Always TString FNil))).
Definition AddOffsetsToTxnRequest_to (t : AddOffsetsToTxnRequest) : dens AddOffsetsToTxnRequest_schema := (AddOffsetsToTxnRequest_TransactionalId t, (AddOffsetsToTxnRequest_ProducerId t, (AddOffsetsToTxnRequest_ProducerEpoch t, (AddOffsetsToTxnRequest_GroupId t, tt)))).
Definition AddOffsetsToTxnRequest_of (x : dens AddOffsetsToTxnRequest_schema) : AddOffsetsToTxnRequest := mkAddOffsetsToTxnRequest (fst x) (fst (snd x)) (fst (snd (snd x))) (fst (snd (snd (snd x)))).
Definition AddOffsetsToTxnRequest_codec : codec := Codec AddOffsetsToTxnRequest AddOffsetsToTxnRequest_zero AddOffsetsToTxnRequest_Size AddOffsetsToTxnRequest_Encode AddOffsetsToTxnRequest_Decode AddOffsetsToTxnRequest_schema AddOffsetsToTxnRequest_to AddOffsetsToTxnRequest_of.
Lemma AddOffsetsToTxnRequest_linked : linked AddOffsetsToTxnRequest_codec.
Proof.
  apply Linked; cbn [AddOffsetsToTxnRequest_codec c_type c_zero c_size c_encode c_decode c_schema c_to c_of].
  - intros t. destruct t. cbv [AddOffsetsToTxnRequest_of AddOffsetsToTxnRequest_to]. cbn [fst snd AddOffsetsToTxnRequest_TransactionalId AddOffsetsToTxnRequest_ProducerId AddOffsetsToTxnRequest_ProducerEpoch AddOffsetsToTxnRequest_GroupId].  reflexivity.
  - intros x. unfold AddOffsetsToTxnRequest_schema in x. cbn [dens den] in x. destruct x as [x0 x]. destruct x as [x1 x]. destruct x as [x2 x]. destruct x as [x3 x]. destruct x. cbv [AddOffsetsToTxnRequest_of AddOffsetsToTxnRequest_to]. cbn [fst snd AddOffsetsToTxnRequest_TransactionalId AddOffsetsToTxnRequest_ProducerId AddOffsetsToTxnRequest_ProducerEpoch AddOffsetsToTxnRequest_GroupId].  reflexivity.
  - reflexivity.
  - intros v t. unfold AddOffsetsToTxnRequest_Size, AddOffsetsToTxnRequest_schema, AddOffsetsToTxnRequest_to. apply size_start.
    apply size_step; [intros sz; reflexivity|].
    apply size_step; [intros sz; reflexivity|].
    apply size_step; [intros sz; reflexivity|].
    apply size_step; [intros sz; reflexivity|].
    intros sz; reflexivity.
  - intros v t. unfold AddOffsetsToTxnRequest_Encode, AddOffsetsToTxnRequest_schema, AddOffsetsToTxnRequest_to.
    apply enc_step; [intros e; reflexivity|].
    apply enc_step; [intros e; reflexivity|].
    apply enc_step; [intros e; reflexivity|].
    apply enc_step; [intros e; reflexivity|].
    intros e; reflexivity.
  - intros v t. unfold AddOffsetsToTxnRequest_Decode, AddOffsetsToTxnRequest_schema, AddOffsetsToTxnRequest_to.
    dec_field (fun x : gostring => x); [apply dmap_id|intros x_TransactionalId].
    dec_field (fun x : Z => x); [apply dmap_id|intros x_ProducerId].
    dec_field (fun x : Z => x); [apply dmap_id|intros x_ProducerEpoch].
    dec_field (fun x : gostring => x); [apply dmap_id|intros x_GroupId].
    intros d; reflexivity.
Qed.
Local Opaque AddOffsetsToTxnRequest_Size AddOffsetsToTxnRequest_Encode AddOffsetsToTxnRequest_Decode.

(** ** AddOffsetsToTxnResponse *)

(** message/messages.gen.go:6907-6910 *)
Record AddOffsetsToTxnResponse : Type := mkAddOffsetsToTxnResponse { AddOffsetsToTxnResponse_ThrottleTimeMs : Z; AddOffsetsToTxnResponse_ErrorCode : Z }.
(** the zero value ([var item AddOffsetsToTxnResponse]) *)
Definition AddOffsetsToTxnResponse_zero : AddOffsetsToTxnResponse := mkAddOffsetsToTxnResponse 0 0.
(** message/messages.gen.go:6913-6918 *)
Definition AddOffsetsToTxnResponse_Size (version : Z) (t : AddOffsetsToTxnResponse) : Z :=
  ((size_add sz_Int32) +>
   (size_add sz_Int16) +>
   size_done)%size 0.
(** message/messages.gen.go:6921-6924 *)
Definition AddOffsetsToTxnResponse_Encode (version : Z) (t : AddOffsetsToTxnResponse) : Encoder -> Encoder :=
  ((PutInt32 (AddOffsetsToTxnResponse_ThrottleTimeMs t)) >>
   (PutInt16 (AddOffsetsToTxnResponse_ErrorCode t)) >>
   skip)%enc.
(** message/messages.gen.go:6927-6938 *)
Definition AddOffsetsToTxnResponse_Decode (version : Z) (t : AddOffsetsToTxnResponse) : Dec AddOffsetsToTxnResponse :=
  x_ThrottleTimeMs <- dInt32 ;;
  x_ErrorCode <- dInt16 ;;
  ret (mkAddOffsetsToTxnResponse x_ThrottleTimeMs x_ErrorCode).
(** the struct declaration read as a schema; version ranges as in Size *)
Definition AddOffsetsToTxnResponse_schema : fields :=
  FCons "ThrottleTimeMs" Always TInt32
  (FCons "ErrorCode" Always TInt16 FNil).
Definition AddOffsetsToTxnResponse_to (t : AddOffsetsToTxnResponse) : dens AddOffsetsToTxnResponse_schema := (AddOffsetsToTxnResponse_ThrottleTimeMs t, (AddOffsetsToTxnResponse_ErrorCode t, tt)).
Definition AddOffsetsToTxnResponse_of (x : dens AddOffsetsToTxnResponse_schema) : AddOffsetsToTxnResponse := mkAddOffsetsToTxnResponse (fst x) (fst (snd x)).
Definition AddOffsetsToTxnResponse_codec : codec := Codec AddOffsetsToTxnResponse AddOffsetsToTxnResponse_zero AddOffsetsToTxnResponse_Size AddOffsetsToTxnResponse_Encode AddOffsetsToTxnResponse_Decode AddOffsetsToTxnResponse_schema AddOffsetsToTxnResponse_to AddOffsetsToTxnResponse_of.
Lemma AddOffsetsToTxnResponse_linked : linked AddOffsetsToTxnResponse_codec.
Proof.
  apply Linked; cbn [AddOffsetsToTxnResponse_codec c_type c_zero c_size c_encode c_decode c_schema c_to c_of].
  - intros t. destruct t. cbv [AddOffsetsToTxnResponse_of AddOffsetsToTxnResponse_to]. cbn [fst snd AddOffsetsToTxnResponse_ThrottleTimeMs AddOffsetsToTxnResponse_ErrorCode].  reflexivity.
  - intros x. unfold AddOffsetsToTxnResponse_schema in x. cbn [dens den] in x. destruct x as [x0 x]. destruct x as [x1 x]. destruct x. cbv [AddOffsetsToTxnResponse_of AddOffsetsToTxnResponse_to]. cbn [fst snd AddOffsetsToTxnResponse_ThrottleTimeMs AddOffsetsToTxnResponse_ErrorCode].  reflexivity.
  - reflexivity.
  - intros v t. unfold AddOffsetsToTxnResponse_Size, AddOffsetsToTxnResponse_schema, AddOffsetsToTxnResponse_to. apply size_start.
    apply size_step; [intros sz; reflexivity|].
    apply size_step; [intros sz; reflexivity|].
    intros sz; reflexivity.
  - intros v t. unfold AddOffsetsToTxnResponse_Encode, AddOffsetsToTxnResponse_schema, AddOffsetsToTxnResponse_to.
    apply enc_step; [intros e; reflexivity|].
    apply enc_step; [intros e; reflexivity|].
    intros e; reflexivity.
  - intros v t. unfold AddOffsetsToTxnResponse_Decode, AddOffsetsToTxnResponse_schema, AddOffsetsToTxnResponse_to.
    dec_field (fun x : Z => x); [apply dmap_id|intros x_ThrottleTimeMs].
    dec_field (fun x : Z => x); [apply dmap_id|intros x_ErrorCode].
    intros d; reflexivity.
Qed.
Local Opaque AddOffsetsToTxnResponse_Size AddOffsetsToTxnResponse_Encode AddOffsetsToTxnResponse_Decode.

(** ** EndTxnRequest *)

(** message/messages.gen.go:6941-6946 *)
Record EndTxnRequest : Type := mkEndTxnRequest { EndTxnRequest_TransactionalId : gostring; EndTxnRequest_ProducerId : Z; EndTxnRequest_ProducerEpoch : Z; EndTxnRequest_Committed : bool }.
(** the zero value ([var item EndTxnRequest]) *)
Definition EndTxnRequest_zero : EndTxnRequest := mkEndTxnRequest [] 0 0 false.
(** message/messages.gen.go:6949-6956 *)
Definition EndTxnRequest_Size (version : Z) (t : EndTxnRequest) : Z :=
  ((size_add (sz_String (EndTxnRequest_TransactionalId t))) +>
   (size_add sz_Int64) +>
   (size_add sz_Int16) +>
   (size_add sz_Bool) +>
   size_done)%size 0.
(** message/messages.gen.go:6959-6964 *)
Definition EndTxnRequest_Encode (version : Z) (t : EndTxnRequest) : Encoder -> Encoder :=
  ((PutString (EndTxnRequest_TransactionalId t)) >>
   (PutInt64 (EndTxnRequest_ProducerId t)) >>
   (PutInt16 (EndTxnRequest_ProducerEpoch t)) >>
   (PutBool (EndTxnRequest_Committed t)) >>
   skip)%enc.
(** message/messages.gen.go:6967-6986 *)
Definition EndTxnRequest_Decode (version : Z) (t : EndTxnRequest) : Dec EndTxnRequest :=
  x_TransactionalId <- dString ;;
  x_ProducerId <- dInt64 ;;
  x_ProducerEpoch <- dInt16 ;;
  x_Committed <- dBool ;;
  ret (mkEndTxnRequest x_TransactionalId x_ProducerId x_ProducerEpoch x_Committed).
(** the struct declaration read as a schema; version ranges as in Size *)
Definition EndTxnRequest_schema : fields :=
  FCons "TransactionalId" Always TString
  (FCons "ProducerId" Always TInt64
  (FCons "ProducerEpoch" Always TInt16
  (FCons "Committed" Always TBool FNil))).
Definition EndTxnRequest_to (t : EndTxnRequest) : dens EndTxnRequest_schema := (EndTxnRequest_TransactionalId t, (EndTxnRequest_ProducerId t, (EndTxnRequest_ProducerEpoch t, (EndTxnRequest_Committed t, tt)))).
Definition EndTxnRequest_of (x : dens EndTxnRequest_schema) : EndTxnRequest := mkEndTxnRequest (fst x) (fst (snd x)) (fst (snd (snd x))) (fst (snd (snd (snd x)))).
Definition EndTxnRequest_codec : codec := Codec EndTxnRequest EndTxnRequest_zero EndTxnRequest_Size EndTxnRequest_Encode EndTxnRequest_Decode EndTxnRequest_schema EndTxnRequest_to EndTxnRequest_of.
Lemma EndTxnRequest_linked : linked EndTxnRequest_codec.
Proof.
  apply Linked; cbn [EndTxnRequest_codec c_type c_zero c_size c_encode c_decode c_schema c_to c_of].
  - intros t. destruct t. cbv [EndTxnRequest_of EndTxnRequest_to]. cbn [fst snd EndTxnRequest_TransactionalId EndTxnRequest_ProducerId EndTxnRequest_ProducerEpoch EndTxnRequest_Committed].  reflexivity.
  - intros x. unfold EndTxnRequest_schema in x. cbn [dens den] in x. destruct x as [x0 x]. destruct x as [x1 x]. destruct x as [x2 x]. destruct x as [x3 x]. destruct x. cbv [EndTxnRequest_of EndTxnRequest_to]. cbn [fst snd EndTxnRequest_TransactionalId EndTxnRequest_ProducerId EndTxnRequest_ProducerEpoch EndTxnRequest_Committed].  reflexivity.
  - reflexivity.
  - intros v t. unfold EndTxnRequest_Size, EndTxnRequest_schema, EndTxnRequest_to. apply size_start.
    apply size_step; [intros sz; reflexivity|].
    apply size_step; [intros sz; reflexivity|].
    apply size_step; [intros sz; reflexivity|].
    apply size_step; [intros sz; reflexivity|].
    intros sz; reflexivity.
  - intros v t. unfold EndTxnRequest_Encode, EndTxnRequest_schema, EndTxnRequest_to.
    apply enc_step; [intros e; reflexivity|].
    apply enc_step; [intros e; reflexivity|].
    apply enc_step; [intros e; reflexivity|].
    apply enc_step; [intros e; reflexivity|].
    intros e; reflexivity.
  - intros v t. unfold EndTxnRequest_Decode, EndTxnRequest_schema, EndTxnRequest_to.
    dec_field (fun x : gostring => x); [apply dmap_id|intros x_TransactionalId].
    dec_field (fun x : Z => x); [apply dmap_id|intros x_ProducerId].
    dec_field (fun x : Z => x); [apply dmap_id|intros x_ProducerEpoch].
    dec_field (fun x : bool => x); [apply dmap_id|intros x_Committed].
    intros d; reflexivity.
Qed.
Local Opaque EndTxnRequest_Size EndTxnRequest_Encode EndTxnRequest_Decode.

(** ** EndTxnResponse *)

(** message/messages.gen.go:6989-6992 *)
Record EndTxnResponse : Type := mkEndTxnResponse { EndTxnResponse_ThrottleTimeMs : Z; EndTxnResponse_ErrorCode : Z }.
(** the zero value ([var item EndTxnResponse]) *)
Definition EndTxnResponse_zero : EndTxnResponse := mkEndTxnResponse 0 0.
(** message/messages.gen.go:6995-7000 *)
Definition EndTxnResponse_Size (version : Z) (t : EndTxnResponse) : Z :=
  ((size_add sz_Int32) +>
   (size_add sz_Int16) +>
   size_done)%size 0.
(** message/messages.gen.go:7003-7006 *)
Definition EndTxnResponse_Encode (version : Z) (t : EndTxnResponse) : Encoder -> Encoder :=
  ((PutInt32 (EndTxnResponse_ThrottleTimeMs t)) >>
   (PutInt16 (EndTxnResponse_ErrorCode t)) >>
   skip)%enc.
(** message/messages.gen.go:7009-7020 *)
Definition EndTxnResponse_Decode (version : Z) (t : EndTxnResponse) : Dec EndTxnResponse :=
  x_ThrottleTimeMs <- dInt32 ;;
  x_ErrorCode <- dInt16 ;;
  ret (mkEndTxnResponse x_ThrottleTimeMs x_ErrorCode).
(** the struct declaration read as a schema; version ranges as in Size *)
Definition EndTxnResponse_schema : fields :=
  FCons "ThrottleTimeMs" Always TInt32
  (FCons "ErrorCode" Always TInt16 FNil).
Definition EndTxnResponse_to (t : EndTxnResponse) : dens EndTxnResponse_schema := (EndTxnResponse_ThrottleTimeMs t, (EndTxnResponse_ErrorCode t, tt)).
Definition EndTxnResponse_of (x : dens EndTxnResponse_schema) : EndTxnResponse := mkEndTxnResponse (fst x) (fst (snd x)).
Definition EndTxnResponse_codec : codec := Codec EndTxnResponse EndTxnResponse_zero EndTxnResponse_Size EndTxnResponse_Encode EndTxnResponse_Decode EndTxnResponse_schema EndTxnResponse_to EndTxnResponse_of.
Lemma EndTxnResponse_linked : linked EndTxnResponse_codec.
Proof.
  apply Linked; cbn [EndTxnResponse_codec c_type c_zero c_size c_encode c_decode c_schema c_to c_of].
  - intros t. destruct t. cbv [EndTxnResponse_of EndTxnResponse_to]. cbn [fst snd EndTxnResponse_ThrottleTimeMs EndTxnResponse_ErrorCode].  reflexivity.
  - intros x. unfold EndTxnResponse_schema in x. cbn [dens den] in x. destruct x as [x0 x]. destruct x as [x1 x]. destruct x. cbv [EndTxnResponse_of EndTxnResponse_to]. cbn [fst snd EndTxnResponse_ThrottleTimeMs EndTxnResponse_ErrorCode].  reflexivity.
  - reflexivity.
  - intros v t. unfold EndTxnResponse_Size, EndTxnResponse_schema, EndTxnResponse_to. apply size_start.
    apply size_step; [intros sz; reflexivity|].
    apply size_step; [intros sz; reflexivity|].
    intros sz; reflexivity.
  - intros v t. unfold EndTxnResponse_Encode, EndTxnResponse_schema, EndTxnResponse_to.
    apply enc_step; [intros e; reflexivity|].
    apply enc_step; [intros e; reflexivity|].
    intros e; reflexivity.
  - intros v t. unfold EndTxnResponse_Decode, EndTxnResponse_schema, EndTxnResponse_to.
    dec_field (fun x : Z => x); [apply dmap_id|intros x_ThrottleTimeMs].
    dec_field (fun x : Z => x); [apply dmap_id|intros x_ErrorCode].
    intros d; reflexivity.
Qed.
Local Opaque EndTxnResponse_Size EndTxnResponse_Encode EndTxnResponse_Decode.

(** ** WritableTxnMarkerTopic27 *)

(** message/messages.gen.go:7137-7140 *)
Record WritableTxnMarkerTopic27 : Type := mkWritableTxnMarkerTopic27 { WritableTxnMarkerTopic27_Name : gostring; WritableTxnMarkerTopic27_PartitionIndexes : gslice Z }.
(** the zero value ([var item WritableTxnMarkerTopic27]) *)
Definition WritableTxnMarkerTopic27_zero : WritableTxnMarkerTopic27 := mkWritableTxnMarkerTopic27 [] None.
(** message/messages.gen.go:7143-7148 *)
Definition WritableTxnMarkerTopic27_Size (version : Z) (t : WritableTxnMarkerTopic27) : Z :=
  ((size_add (sz_String (WritableTxnMarkerTopic27_Name t))) +>
   (size_add (sz_Int32Array (WritableTxnMarkerTopic27_PartitionIndexes t))) +>
   size_done)%size 0.
(** message/messages.gen.go:7151-7154 *)
Definition WritableTxnMarkerTopic27_Encode (version : Z) (t : WritableTxnMarkerTopic27) : Encoder -> Encoder :=
  ((PutString (WritableTxnMarkerTopic27_Name t)) >>
   (PutInt32Array (WritableTxnMarkerTopic27_PartitionIndexes t)) >>
   skip)%enc.
(** message/messages.gen.go:7157-7168 *)
Definition WritableTxnMarkerTopic27_Decode (version : Z) (t : WritableTxnMarkerTopic27) : Dec WritableTxnMarkerTopic27 :=
  x_Name <- dString ;;
  x_PartitionIndexes <- dInt32Array ;;
  ret (mkWritableTxnMarkerTopic27 x_Name x_PartitionIndexes).
(** the struct declaration read as a schema; version ranges as in Size *)
Definition WritableTxnMarkerTopic27_schema : fields :=
  FCons "Name" Always TString
  (FCons "PartitionIndexes" Always TInt32Array FNil).
Definition WritableTxnMarkerTopic27_to (t : WritableTxnMarkerTopic27) : dens WritableTxnMarkerTopic27_schema := (WritableTxnMarkerTopic27_Name t, (WritableTxnMarkerTopic27_PartitionIndexes t, tt)).
Definition WritableTxnMarkerTopic27_of (x : dens WritableTxnMarkerTopic27_schema) : WritableTxnMarkerTopic27 := mkWritableTxnMarkerTopic27 (fst x) (fst (snd x)).
Definition WritableTxnMarkerTopic27_codec : codec := Codec WritableTxnMarkerTopic27 WritableTxnMarkerTopic27_zero WritableTxnMarkerTopic27_Size WritableTxnMarkerTopic27_Encode WritableTxnMarkerTopic27_Decode WritableTxnMarkerTopic27_schema WritableTxnMarkerTopic27_to WritableTxnMarkerTopic27_of.
Lemma WritableTxnMarkerTopic27_linked : linked WritableTxnMarkerTopic27_codec.
Proof.
  apply Linked; cbn [WritableTxnMarkerTopic27_codec c_type c_zero c_size c_encode c_decode c_schema c_to c_of].
  - intros t. destruct t. cbv [WritableTxnMarkerTopic27_of WritableTxnMarkerTopic27_to]. cbn [fst snd WritableTxnMarkerTopic27_Name WritableTxnMarkerTopic27_PartitionIndexes].  reflexivity.
  - intros x. unfold WritableTxnMarkerTopic27_schema in x. cbn [dens den] in x. destruct x as [x0 x]. destruct x as [x1 x]. destruct x. cbv [WritableTxnMarkerTopic27_of WritableTxnMarkerTopic27_to]. cbn [fst snd WritableTxnMarkerTopic27_Name WritableTxnMarkerTopic27_PartitionIndexes].  reflexivity.
  - reflexivity.
  - intros v t. unfold WritableTxnMarkerTopic27_Size, WritableTxnMarkerTopic27_schema, WritableTxnMarkerTopic27_to. apply size_start.
    apply size_step; [intros sz; reflexivity|].
    apply size_step; [intros sz; reflexivity|].
    intros sz; reflexivity.
  - intros v t. unfold WritableTxnMarkerTopic27_Encode, WritableTxnMarkerTopic27_schema, WritableTxnMarkerTopic27_to.
    apply enc_step; [intros e; reflexivity|].
    apply enc_step; [intros e; reflexivity|].
    intros e; reflexivity.
  - intros v t. unfold WritableTxnMarkerTopic27_Decode, WritableTxnMarkerTopic27_schema, WritableTxnMarkerTopic27_to.
    dec_field (fun x : gostring => x); [apply dmap_id|intros x_Name].
    dec_field (fun x : gslice Z => x); [apply dmap_id|intros x_PartitionIndexes].
    intros d; reflexivity.
Qed.
Local Opaque WritableTxnMarkerTopic27_Size WritableTxnMarkerTopic27_Encode WritableTxnMarkerTopic27_Decode.

(** ** WritableTxnMarker27 *)

(** message/messages.gen.go:7066-7072 *)
Record WritableTxnMarker27 : Type := mkWritableTxnMarker27 { WritableTxnMarker27_ProducerId : Z; WritableTxnMarker27_ProducerEpoch : Z; WritableTxnMarker27_TransactionResult : bool; WritableTxnMarker27_Topics : gslice WritableTxnMarkerTopic27; WritableTxnMarker27_CoordinatorEpoch : Z }.
(** the zero value ([var item WritableTxnMarker27]) *)
Definition WritableTxnMarker27_zero : WritableTxnMarker27 := mkWritableTxnMarker27 0 0 false None 0.
(** message/messages.gen.go:7075-7086 *)
Definition WritableTxnMarker27_Size (version : Z) (t : WritableTxnMarker27) : Z :=
  ((size_add sz_Int64) +>
   (size_add sz_Int16) +>
   (size_add sz_Bool) +>
   (size_loop (WritableTxnMarkerTopic27_Size version) (WritableTxnMarker27_Topics t)) +>
   (size_add sz_Int32) +>
   size_done)%size 0.
(** message/messages.gen.go:7089-7100 *)
Definition WritableTxnMarker27_Encode (version : Z) (t : WritableTxnMarker27) : Encoder -> Encoder :=
  ((PutInt64 (WritableTxnMarker27_ProducerId t)) >>
   (PutInt16 (WritableTxnMarker27_ProducerEpoch t)) >>
   (PutBool (WritableTxnMarker27_TransactionResult t)) >>
   (put_array (WritableTxnMarkerTopic27_Encode version) (WritableTxnMarker27_Topics t)) >>
   (PutInt32 (WritableTxnMarker27_CoordinatorEpoch t)) >>
   skip)%enc.
(** message/messages.gen.go:7103-7135 *)
Definition WritableTxnMarker27_Decode (version : Z) (t : WritableTxnMarker27) : Dec WritableTxnMarker27 :=
  x_ProducerId <- dInt64 ;;
  x_ProducerEpoch <- dInt16 ;;
  x_TransactionResult <- dBool ;;
  x_Topics <- (dec_array (WritableTxnMarkerTopic27_Decode version WritableTxnMarkerTopic27_zero) (WritableTxnMarker27_Topics t)) ;;
  x_CoordinatorEpoch <- dInt32 ;;
  ret (mkWritableTxnMarker27 x_ProducerId x_ProducerEpoch x_TransactionResult x_Topics x_CoordinatorEpoch).
(** the struct declaration read as a schema; version ranges as in Size *)
Definition WritableTxnMarker27_schema : fields :=
  FCons "ProducerId" Always TInt64
  (FCons "ProducerEpoch" Always TInt16
  (FCons "TransactionResult" Always TBool
  (FCons "Topics" Always (TArray WritableTxnMarkerTopic27_schema)
  (FCons "CoordinatorEpoch" Always TInt32 FNil)))).
Definition WritableTxnMarker27_to (t : WritableTxnMarker27) : dens WritableTxnMarker27_schema := (WritableTxnMarker27_ProducerId t, (WritableTxnMarker27_ProducerEpoch t, (WritableTxnMarker27_TransactionResult t, (option_map (map WritableTxnMarkerTopic27_to) (WritableTxnMarker27_Topics t), (WritableTxnMarker27_CoordinatorEpoch t, tt))))).
Definition WritableTxnMarker27_of (x : dens WritableTxnMarker27_schema) : WritableTxnMarker27 := mkWritableTxnMarker27 (fst x) (fst (snd x)) (fst (snd (snd x))) (option_map (map WritableTxnMarkerTopic27_of) (fst (snd (snd (snd x))))) (fst (snd (snd (snd (snd x))))).
Definition WritableTxnMarker27_codec : codec := Codec WritableTxnMarker27 WritableTxnMarker27_zero WritableTxnMarker27_Size WritableTxnMarker27_Encode WritableTxnMarker27_Decode WritableTxnMarker27_schema WritableTxnMarker27_to WritableTxnMarker27_of.
Lemma WritableTxnMarker27_linked : linked WritableTxnMarker27_codec.
Proof.
  apply Linked; cbn [WritableTxnMarker27_codec c_type c_zero c_size c_encode c_decode c_schema c_to c_of].
  - intros t. destruct t. cbv [WritableTxnMarker27_of WritableTxnMarker27_to]. cbn [fst snd WritableTxnMarker27_ProducerId WritableTxnMarker27_ProducerEpoch WritableTxnMarker27_TransactionResult WritableTxnMarker27_Topics WritableTxnMarker27_CoordinatorEpoch]. rewrite ?(option_map_map_inv WritableTxnMarkerTopic27_to WritableTxnMarkerTopic27_of _ (l_of_to _ WritableTxnMarkerTopic27_linked)). reflexivity.
  - intros x. unfold WritableTxnMarker27_schema in x. cbn [dens den] in x. destruct x as [x0 x]. destruct x as [x1 x]. destruct x as [x2 x]. destruct x as [x3 x]. destruct x as [x4 x]. destruct x. cbv [WritableTxnMarker27_of WritableTxnMarker27_to]. cbn [fst snd WritableTxnMarker27_ProducerId WritableTxnMarker27_ProducerEpoch WritableTxnMarker27_TransactionResult WritableTxnMarker27_Topics WritableTxnMarker27_CoordinatorEpoch]. rewrite ?(option_map_map_inv WritableTxnMarkerTopic27_of WritableTxnMarkerTopic27_to _ (l_to_of _ WritableTxnMarkerTopic27_linked)). reflexivity.
  - reflexivity.
  - intros v t. unfold WritableTxnMarker27_Size, WritableTxnMarker27_schema, WritableTxnMarker27_to. apply size_start.
    apply size_step; [intros sz; reflexivity|].
    apply size_step; [intros sz; reflexivity|].
    apply size_step; [intros sz; reflexivity|].
    apply size_step; [intros sz; apply (size_field_link (WritableTxnMarkerTopic27_Size v) WritableTxnMarkerTopic27_schema WritableTxnMarkerTopic27_to v (l_size _ WritableTxnMarkerTopic27_linked v) true)|].
    apply size_step; [intros sz; reflexivity|].
    intros sz; reflexivity.
  - intros v t. unfold WritableTxnMarker27_Encode, WritableTxnMarker27_schema, WritableTxnMarker27_to.
    apply enc_step; [intros e; reflexivity|].
    apply enc_step; [intros e; reflexivity|].
    apply enc_step; [intros e; reflexivity|].
    apply enc_step; [intros e; apply (put_field_link (WritableTxnMarkerTopic27_Encode v) WritableTxnMarkerTopic27_schema WritableTxnMarkerTopic27_to v (l_encode _ WritableTxnMarkerTopic27_linked v) true)|].
    apply enc_step; [intros e; reflexivity|].
    intros e; reflexivity.
  - intros v t. unfold WritableTxnMarker27_Decode, WritableTxnMarker27_schema, WritableTxnMarker27_to.
    dec_field (fun x : Z => x); [apply dmap_id|intros x_ProducerId].
    dec_field (fun x : Z => x); [apply dmap_id|intros x_ProducerEpoch].
    dec_field (fun x : bool => x); [apply dmap_id|intros x_TransactionResult].
    dec_field (option_map (map WritableTxnMarkerTopic27_of)); [apply (dec_array_link _ _ WritableTxnMarkerTopic27_of WritableTxnMarkerTopic27_to (l_decode _ WritableTxnMarkerTopic27_linked v WritableTxnMarkerTopic27_zero) (l_of_to _ WritableTxnMarkerTopic27_linked))|intros x_Topics].
    dec_field (fun x : Z => x); [apply dmap_id|intros x_CoordinatorEpoch].
    intros d; reflexivity.
Qed.
Local Opaque WritableTxnMarker27_Size WritableTxnMarker27_Encode WritableTxnMarker27_Decode.

(** ** WriteTxnMarkersRequest *)

(** message/messages.gen.go:7023-7025 *)
Record WriteTxnMarkersRequest : Type := mkWriteTxnMarkersRequest { WriteTxnMarkersRequest_Markers : gslice WritableTxnMarker27 }.
(** the zero value ([var item WriteTxnMarkersRequest]) *)
Definition WriteTxnMarkersRequest_zero : WriteTxnMarkersRequest := mkWriteTxnMarkersRequest None.
(** message/messages.gen.go:7028-7035 *)
Definition WriteTxnMarkersRequest_Size (version : Z) (t : WriteTxnMarkersRequest) : Z :=
  ((size_loop (WritableTxnMarker27_Size version) (WriteTxnMarkersRequest_Markers t)) +>
   size_done)%size 0.
(** message/messages.gen.go:7038-7045 *)
Definition WriteTxnMarkersRequest_Encode (version : Z) (t : WriteTxnMarkersRequest) : Encoder -> Encoder :=
  ((put_array (WritableTxnMarker27_Encode version) (WriteTxnMarkersRequest_Markers t)) >>
   skip)%enc.
(** message/messages.gen.go:7048-7064 *)
Definition WriteTxnMarkersRequest_Decode (version : Z) (t : WriteTxnMarkersRequest) : Dec WriteTxnMarkersRequest :=
  x_Markers <- (dec_array (WritableTxnMarker27_Decode version WritableTxnMarker27_zero) (WriteTxnMarkersRequest_Markers t)) ;;
  ret (mkWriteTxnMarkersRequest x_Markers).
(** the struct declaration read as a schema; version ranges as in Size *)
Definition WriteTxnMarkersRequest_schema : fields :=
  FCons "Markers" Always (TArray WritableTxnMarker27_schema) FNil.
Definition WriteTxnMarkersRequest_to (t : WriteTxnMarkersRequest) : dens WriteTxnMarkersRequest_schema := (option_map (map WritableTxnMarker27_to) (WriteTxnMarkersRequest_Markers t), tt).
Definition WriteTxnMarkersRequest_of (x : dens WriteTxnMarkersRequest_schema) : WriteTxnMarkersRequest := mkWriteTxnMarkersRequest (option_map (map WritableTxnMarker27_of) (fst x)).
Definition WriteTxnMarkersRequest_codec : codec := Codec WriteTxnMarkersRequest WriteTxnMarkersRequest_zero WriteTxnMarkersRequest_Size WriteTxnMarkersRequest_Encode WriteTxnMarkersRequest_Decode WriteTxnMarkersRequest_schema WriteTxnMarkersRequest_to WriteTxnMarkersRequest_of.
Lemma WriteTxnMarkersRequest_linked : linked WriteTxnMarkersRequest_codec.
Proof.
  apply Linked; cbn [WriteTxnMarkersRequest_codec c_type c_zero c_size c_encode c_decode c_schema c_to c_of].
  - intros t. destruct t. cbv [WriteTxnMarkersRequest_of WriteTxnMarkersRequest_to]. cbn [fst snd WriteTxnMarkersRequest_Markers]. rewrite ?(option_map_map_inv WritableTxnMarker27_to WritableTxnMarker27_of _ (l_of_to _ WritableTxnMarker27_linked)). reflexivity.
  - intros x. unfold WriteTxnMarkersRequest_schema in x. cbn [dens den] in x. destruct x as [x0 x]. destruct x. cbv [WriteTxnMarkersRequest_of WriteTxnMarkersRequest_to]. cbn [fst snd WriteTxnMarkersRequest_Markers]. rewrite ?(option_map_map_inv WritableTxnMarker27_of WritableTxnMarker27_to _ (l_to_of _ WritableTxnMarker27_linked)). reflexivity.
  - reflexivity.
  - intros v t. unfold WriteTxnMarkersRequest_Size, WriteTxnMarkersRequest_schema, WriteTxnMarkersRequest_to. apply size_start.
    apply size_step; [intros sz; apply (size_field_link (WritableTxnMarker27_Size v) WritableTxnMarker27_schema WritableTxnMarker27_to v (l_size _ WritableTxnMarker27_linked v) true)|].
    intros sz; reflexivity.
  - intros v t. unfold WriteTxnMarkersRequest_Encode, WriteTxnMarkersRequest_schema, WriteTxnMarkersRequest_to.
    apply enc_step; [intros e; apply (put_field_link (WritableTxnMarker27_Encode v) WritableTxnMarker27_schema WritableTxnMarker27_to v (l_encode _ WritableTxnMarker27_linked v) true)|].
    intros e; reflexivity.
  - intros v t. unfold WriteTxnMarkersRequest_Decode, WriteTxnMarkersRequest_schema, WriteTxnMarkersRequest_to.
    dec_field (option_map (map WritableTxnMarker27_of)); [apply (dec_array_link _ _ WritableTxnMarker27_of WritableTxnMarker27_to (l_decode _ WritableTxnMarker27_linked v WritableTxnMarker27_zero) (l_of_to _ WritableTxnMarker27_linked))|intros x_Markers].
    intros d; reflexivity.
Qed.
Local Opaque WriteTxnMarkersRequest_Size WriteTxnMarkersRequest_Encode WriteTxnMarkersRequest_Decode.

(** ** WritableTxnMarkerPartitionResult27 *)

(** message/messages.gen.go:7314-7317 *)
Record WritableTxnMarkerPartitionResult27 : Type := mkWritableTxnMarkerPartitionResult27 { WritableTxnMarkerPartitionResult27_PartitionIndex : Z; WritableTxnMarkerPartitionResult27_ErrorCode : Z }.
(** the zero value ([var item WritableTxnMarkerPartitionResult27]) *)
Definition WritableTxnMarkerPartitionResult27_zero : WritableTxnMarkerPartitionResult27 := mkWritableTxnMarkerPartitionResult27 0 0.
(** message/messages.gen.go:7320-7325 *)
Definition WritableTxnMarkerPartitionResult27_Size (version : Z) (t : WritableTxnMarkerPartitionResult27) : Z :=
  ((size_add sz_Int32) +>
   (size_add sz_Int16) +>
   size_done)%size 0.
(** message/messages.gen.go:7328-7331 *)
Definition WritableTxnMarkerPartitionResult27_Encode (version : Z) (t : WritableTxnMarkerPartitionResult27) : Encoder -> Encoder :=
  ((PutInt32 (WritableTxnMarkerPartitionResult27_PartitionIndex t)) >>
   (PutInt16 (WritableTxnMarkerPartitionResult27_ErrorCode t)) >>
   skip)%enc.
(** message/messages.gen.go:7334-7345 *)
Definition WritableTxnMarkerPartitionResult27_Decode (version : Z) (t : WritableTxnMarkerPartitionResult27) : Dec WritableTxnMarkerPartitionResult27 :=
  x_PartitionIndex <- dInt32 ;;
  x_ErrorCode <- dInt16 ;;
  ret (mkWritableTxnMarkerPartitionResult27 x_PartitionIndex x_ErrorCode).
(** the struct declaration read as a schema; version ranges as in Size *)
Definition WritableTxnMarkerPartitionResult27_schema : fields :=
  FCons "PartitionIndex" Always TInt32
  (FCons "ErrorCode" Always TInt16 FNil).
Definition WritableTxnMarkerPartitionResult27_to (t : WritableTxnMarkerPartitionResult27) : dens WritableTxnMarkerPartitionResult27_schema := (WritableTxnMarkerPartitionResult27_PartitionIndex t, (WritableTxnMarkerPartitionResult27_ErrorCode t, tt)).
Definition WritableTxnMarkerPartitionResult27_of (x : dens WritableTxnMarkerPartitionResult27_schema) : WritableTxnMarkerPartitionResult27 := mkWritableTxnMarkerPartitionResult27 (fst x) (fst (snd x)).
Definition WritableTxnMarkerPartitionResult27_codec : codec := Codec WritableTxnMarkerPartitionResult27 WritableTxnMarkerPartitionResult27_zero WritableTxnMarkerPartitionResult27_Size WritableTxnMarkerPartitionResult27_Encode WritableTxnMarkerPartitionResult27_Decode WritableTxnMarkerPartitionResult27_schema WritableTxnMarkerPartitionResult27_to WritableTxnMarkerPartitionResult27_of.
Lemma WritableTxnMarkerPartitionResult27_linked : linked WritableTxnMarkerPartitionResult27_codec.
Proof.
  apply Linked; cbn [WritableTxnMarkerPartitionResult27_codec c_type c_zero c_size c_encode c_decode c_schema c_to c_of].
  - intros t. destruct t. cbv [WritableTxnMarkerPartitionResult27_of WritableTxnMarkerPartitionResult27_to]. cbn [fst snd WritableTxnMarkerPartitionResult27_PartitionIndex WritableTxnMarkerPartitionResult27_ErrorCode].  reflexivity.
  - intros x. unfold WritableTxnMarkerPartitionResult27_schema in x. cbn [dens den] in x. destruct x as [x0 x]. destruct x as [x1 x]. destruct x. cbv [WritableTxnMarkerPartitionResult27_of WritableTxnMarkerPartitionResult27_to]. cbn [fst snd WritableTxnMarkerPartitionResult27_PartitionIndex WritableTxnMarkerPartitionResult27_ErrorCode].  reflexivity.
  - reflexivity.
  - intros v t. unfold WritableTxnMarkerPartitionResult27_Size, WritableTxnMarkerPartitionResult27_schema, WritableTxnMarkerPartitionResult27_to. apply size_start.
    apply size_step; [intros sz; reflexivity|].
    apply size_step; [intros sz; reflexivity|].
    intros sz; reflexivity.
  - intros v t. unfold WritableTxnMarkerPartitionResult27_Encode, WritableTxnMarkerPartitionResult27_schema, WritableTxnMarkerPartitionResult27_to.
    apply enc_step; [intros e; reflexivity|].
    apply enc_step; [intros e; reflexivity|].
    intros e; reflexivity.
  - intros v t. unfold WritableTxnMarkerPartitionResult27_Decode, WritableTxnMarkerPartitionResult27_schema, WritableTxnMarkerPartitionResult27_to.
    dec_field (fun x : Z => x); [apply dmap_id|intros x_PartitionIndex].
    dec_field (fun x : Z => x); [apply dmap_id|intros x_ErrorCode].
    intros d; reflexivity.
Qed.
Local Opaque WritableTxnMarkerPartitionResult27_Size WritableTxnMarkerPartitionResult27_Encode WritableTxnMarkerPartitionResult27_Decode.

(** ** WritableTxnMarkerTopicResult27 *)

(** message/messages.gen.go:7264-7267 *)
Record WritableTxnMarkerTopicResult27 : Type := mkWritableTxnMarkerTopicResult27 { WritableTxnMarkerTopicResult27_Name : gostring; WritableTxnMarkerTopicResult27_Partitions : gslice WritableTxnMarkerPartitionResult27 }.
(** the zero value ([var item WritableTxnMarkerTopicResult27]) *)
Definition WritableTxnMarkerTopicResult27_zero : WritableTxnMarkerTopicResult27 := mkWritableTxnMarkerTopicResult27 [] None.
(** message/messages.gen.go:7270-7278 *)
Definition WritableTxnMarkerTopicResult27_Size (version : Z) (t : WritableTxnMarkerTopicResult27) : Z :=
  ((size_add (sz_String (WritableTxnMarkerTopicResult27_Name t))) +>
   (size_loop (WritableTxnMarkerPartitionResult27_Size version) (WritableTxnMarkerTopicResult27_Partitions t)) +>
   size_done)%size 0.
(** message/messages.gen.go:7281-7289 *)
Definition WritableTxnMarkerTopicResult27_Encode (version : Z) (t : WritableTxnMarkerTopicResult27) : Encoder -> Encoder :=
  ((PutString (WritableTxnMarkerTopicResult27_Name t)) >>
   (put_array (WritableTxnMarkerPartitionResult27_Encode version) (WritableTxnMarkerTopicResult27_Partitions t)) >>
   skip)%enc.
(** message/messages.gen.go:7292-7312 *)
Definition WritableTxnMarkerTopicResult27_Decode (version : Z) (t : WritableTxnMarkerTopicResult27) : Dec WritableTxnMarkerTopicResult27 :=
  x_Name <- dString ;;
  x_Partitions <- (dec_array (WritableTxnMarkerPartitionResult27_Decode version WritableTxnMarkerPartitionResult27_zero) (WritableTxnMarkerTopicResult27_Partitions t)) ;;
  ret (mkWritableTxnMarkerTopicResult27 x_Name x_Partitions).
(** the struct declaration read as a schema; version ranges as in Size *)
Definition WritableTxnMarkerTopicResult27_schema : fields :=
  FCons "Name" Always TString
  (FCons "Partitions" Always (TArray WritableTxnMarkerPartitionResult27_schema) FNil).
Definition WritableTxnMarkerTopicResult27_to (t : WritableTxnMarkerTopicResult27) : dens WritableTxnMarkerTopicResult27_schema := (WritableTxnMarkerTopicResult27_Name t, (option_map (map WritableTxnMarkerPartitionResult27_to) (WritableTxnMarkerTopicResult27_Partitions t), tt)).
Definition WritableTxnMarkerTopicResult27_of (x : dens WritableTxnMarkerTopicResult27_schema) : WritableTxnMarkerTopicResult27 := mkWritableTxnMarkerTopicResult27 (fst x) (option_map (map WritableTxnMarkerPartitionResult27_of) (fst (snd x))).
Definition WritableTxnMarkerTopicResult27_codec : codec := Codec WritableTxnMarkerTopicResult27 WritableTxnMarkerTopicResult27_zero WritableTxnMarkerTopicResult27_Size WritableTxnMarkerTopicResult27_Encode WritableTxnMarkerTopicResult27_Decode WritableTxnMarkerTopicResult27_schema WritableTxnMarkerTopicResult27_to WritableTxnMarkerTopicResult27_of.
Lemma WritableTxnMarkerTopicResult27_linked : linked WritableTxnMarkerTopicResult27_codec.
Proof.
  apply Linked; cbn [WritableTxnMarkerTopicResult27_codec c_type c_zero c_size c_encode c_decode c_schema c_to c_of].
  - intros t. destruct t. cbv [WritableTxnMarkerTopicResult27_of WritableTxnMarkerTopicResult27_to]. cbn [fst snd WritableTxnMarkerTopicResult27_Name WritableTxnMarkerTopicResult27_Partitions]. rewrite ?(option_map_map_inv WritableTxnMarkerPartitionResult27_to WritableTxnMarkerPartitionResult27_of _ (l_of_to _ WritableTxnMarkerPartitionResult27_linked)). reflexivity.
  - intros x. unfold WritableTxnMarkerTopicResult27_schema in x. cbn [dens den] in x. destruct x as [x0 x]. destruct x as [x1 x]. destruct x. cbv [WritableTxnMarkerTopicResult27_of WritableTxnMarkerTopicResult27_to]. cbn [fst snd WritableTxnMarkerTopicResult27_Name WritableTxnMarkerTopicResult27_Partitions]. rewrite ?(option_map_map_inv WritableTxnMarkerPartitionResult27_of WritableTxnMarkerPartitionResult27_to _ (l_to_of _ WritableTxnMarkerPartitionResult27_linked)). reflexivity.
  - reflexivity.
  - intros v t. unfold WritableTxnMarkerTopicResult27_Size, WritableTxnMarkerTopicResult27_schema, WritableTxnMarkerTopicResult27_to. apply size_start.
    apply size_step; [intros sz; reflexivity|].
    apply size_step; [intros sz; apply (size_field_link (WritableTxnMarkerPartitionResult27_Size v) WritableTxnMarkerPartitionResult27_schema WritableTxnMarkerPartitionResult27_to v (l_size _ WritableTxnMarkerPartitionResult27_linked v) true)|].
    intros sz; reflexivity.
  - intros v t. unfold WritableTxnMarkerTopicResult27_Encode, WritableTxnMarkerTopicResult27_schema, WritableTxnMarkerTopicResult27_to.
    apply enc_step; [intros e; reflexivity|].
    apply enc_step; [intros e; apply (put_field_link (WritableTxnMarkerPartitionResult27_Encode v) WritableTxnMarkerPartitionResult27_schema WritableTxnMarkerPartitionResult27_to v (l_encode _ WritableTxnMarkerPartitionResult27_linked v) true)|].
    intros e; reflexivity.
  - intros v t. unfold WritableTxnMarkerTopicResult27_Decode, WritableTxnMarkerTopicResult27_schema, WritableTxnMarkerTopicResult27_to.
    dec_field (fun x : gostring => x); [apply dmap_id|intros x_Name].
    dec_field (option_map (map WritableTxnMarkerPartitionResult27_of)); [apply (dec_array_link _ _ WritableTxnMarkerPartitionResult27_of WritableTxnMarkerPartitionResult27_to (l_decode _ WritableTxnMarkerPartitionResult27_linked v WritableTxnMarkerPartitionResult27_zero) (l_of_to _ WritableTxnMarkerPartitionResult27_linked))|intros x_Partitions].
    intros d; reflexivity.
Qed.
Local Opaque WritableTxnMarkerTopicResult27_Size WritableTxnMarkerTopicResult27_Encode WritableTxnMarkerTopicResult27_Decode.

(** ** WritableTxnMarkerResult27 *)

(** message/messages.gen.go:7214-7217 *)
Record WritableTxnMarkerResult27 : Type := mkWritableTxnMarkerResult27 { WritableTxnMarkerResult27_ProducerId : Z; WritableTxnMarkerResult27_Topics : gslice WritableTxnMarkerTopicResult27 }.
(** the zero value ([var item WritableTxnMarkerResult27]) *)
Definition WritableTxnMarkerResult27_zero : WritableTxnMarkerResult27 := mkWritableTxnMarkerResult27 0 None.
(** message/messages.gen.go:7220-7228 *)
Definition WritableTxnMarkerResult27_Size (version : Z) (t : WritableTxnMarkerResult27) : Z :=
  ((size_add sz_Int64) +>
   (size_loop (WritableTxnMarkerTopicResult27_Size version) (WritableTxnMarkerResult27_Topics t)) +>
   size_done)%size 0.
(** message/messages.gen.go:7231-7239 *)
Definition WritableTxnMarkerResult27_Encode (version : Z) (t : WritableTxnMarkerResult27) : Encoder -> Encoder :=
  ((PutInt64 (WritableTxnMarkerResult27_ProducerId t)) >>
   (put_array (WritableTxnMarkerTopicResult27_Encode version) (WritableTxnMarkerResult27_Topics t)) >>
   skip)%enc.
(** message/messages.gen.go:7242-7262 *)
Definition WritableTxnMarkerResult27_Decode (version : Z) (t : WritableTxnMarkerResult27) : Dec WritableTxnMarkerResult27 :=
  x_ProducerId <- dInt64 ;;
  x_Topics <- (dec_array (WritableTxnMarkerTopicResult27_Decode version WritableTxnMarkerTopicResult27_zero) (WritableTxnMarkerResult27_Topics t)) ;;
  ret (mkWritableTxnMarkerResult27 x_ProducerId x_Topics).
(** the struct declaration read as a schema; version ranges as in Size *)
Definition WritableTxnMarkerResult27_schema : fields :=
  FCons "ProducerId" Always TInt64
  (FCons "Topics" Always (TArray WritableTxnMarkerTopicResult27_schema) FNil).
Definition WritableTxnMarkerResult27_to (t : WritableTxnMarkerResult27) : dens WritableTxnMarkerResult27_schema := (WritableTxnMarkerResult27_ProducerId t, (option_map (map WritableTxnMarkerTopicResult27_to) (WritableTxnMarkerResult27_Topics t), tt)).
Definition WritableTxnMarkerResult27_of (x : dens WritableTxnMarkerResult27_schema) : WritableTxnMarkerResult27 := mkWritableTxnMarkerResult27 (fst x) (option_map (map WritableTxnMarkerTopicResult27_of) (fst (snd x))).
Definition WritableTxnMarkerResult27_codec : codec := Codec WritableTxnMarkerResult27 WritableTxnMarkerResult27_zero WritableTxnMarkerResult27_Size WritableTxnMarkerResult27_Encode WritableTxnMarkerResult27_Decode WritableTxnMarkerResult27_schema WritableTxnMarkerResult27_to WritableTxnMarkerResult27_of.
Lemma WritableTxnMarkerResult27_linked : linked WritableTxnMarkerResult27_codec.
Proof.
  apply Linked; cbn [WritableTxnMarkerResult27_codec c_type c_zero c_size c_encode c_decode c_schema c_to c_of].
  - intros t. destruct t. cbv [WritableTxnMarkerResult27_of WritableTxnMarkerResult27_to]. cbn [fst snd WritableTxnMarkerResult27_ProducerId WritableTxnMarkerResult27_Topics]. rewrite ?(option_map_map_inv WritableTxnMarkerTopicResult27_to WritableTxnMarkerTopicResult27_of _ (l_of_to _ WritableTxnMarkerTopicResult27_linked)). reflexivity.
  - intros x. unfold WritableTxnMarkerResult27_schema in x. cbn [dens den] in x. destruct x as [x0 x]. destruct x as [x1 x]. destruct x. cbv [WritableTxnMarkerResult27_of WritableTxnMarkerResult27_to]. cbn [fst snd WritableTxnMarkerResult27_ProducerId WritableTxnMarkerResult27_Topics]. rewrite ?(option_map_map_inv WritableTxnMarkerTopicResult27_of WritableTxnMarkerTopicResult27_to _ (l_to_of _ WritableTxnMarkerTopicResult27_linked)). reflexivity.
  - reflexivity.
  - intros v t. unfold WritableTxnMarkerResult27_Size, WritableTxnMarkerResult27_schema, WritableTxnMarkerResult27_to. apply size_start.
    apply size_step; [intros sz; reflexivity|].
    apply size_step; [intros sz; apply (size_field_link (WritableTxnMarkerTopicResult27_Size v) WritableTxnMarkerTopicResult27_schema WritableTxnMarkerTopicResult27_to v (l_size _ WritableTxnMarkerTopicResult27_linked v) true)|].
    intros sz; reflexivity.
  - intros v t. unfold WritableTxnMarkerResult27_Encode, WritableTxnMarkerResult27_schema, WritableTxnMarkerResult27_to.
    apply enc_step; [intros e; reflexivity|].
    apply enc_step; [intros e; apply (put_field_link (WritableTxnMarkerTopicResult27_Encode v) WritableTxnMarkerTopicResult27_schema WritableTxnMarkerTopicResult27_to v (l_encode _ WritableTxnMarkerTopicResult27_linked v) true)|].
    intros e; reflexivity.
  - intros v t. unfold WritableTxnMarkerResult27_Decode, WritableTxnMarkerResult27_schema, WritableTxnMarkerResult27_to.
    dec_field (fun x : Z => x); [apply dmap_id|intros x_ProducerId].
    dec_field (option_map (map WritableTxnMarkerTopicResult27_of)); [apply (dec_array_link _ _ WritableTxnMarkerTopicResult27_of WritableTxnMarkerTopicResult27_to (l_decode _ WritableTxnMarkerTopicResult27_linked v WritableTxnMarkerTopicResult27_zero) (l_of_to _ WritableTxnMarkerTopicResult27_linked))|intros x_Topics].
    intros d; reflexivity.
Qed.
Local Opaque WritableTxnMarkerResult27_Size WritableTxnMarkerResult27_Encode WritableTxnMarkerResult27_Decode.

(** ** WriteTxnMarkersResponse *)

(** message/messages.gen.go:7171-7173 *)
Record WriteTxnMarkersResponse : Type := mkWriteTxnMarkersResponse { WriteTxnMarkersResponse_Markers : gslice WritableTxnMarkerResult27 }.
(** the zero value ([var item WriteTxnMarkersResponse]) *)
Definition WriteTxnMarkersResponse_zero : WriteTxnMarkersResponse := mkWriteTxnMarkersResponse None.
(** message/messages.gen.go:7176-7183 *)
Definition WriteTxnMarkersResponse_Size (version : Z) (t : WriteTxnMarkersResponse) : Z :=
  ((size_loop (WritableTxnMarkerResult27_Size version) (WriteTxnMarkersResponse_Markers t)) +>
   size_done)%size 0.
(** message/messages.gen.go:7186-7193 *)
Definition WriteTxnMarkersResponse_Encode (version : Z) (t : WriteTxnMarkersResponse) : Encoder -> Encoder :=
  ((put_array (WritableTxnMarkerResult27_Encode version) (WriteTxnMarkersResponse_Markers t)) >>
   skip)%enc.
(** message/messages.gen.go:7196-7212 *)
Definition WriteTxnMarkersResponse_Decode (version : Z) (t : WriteTxnMarkersResponse) : Dec WriteTxnMarkersResponse :=
  x_Markers <- (dec_array (WritableTxnMarkerResult27_Decode version WritableTxnMarkerResult27_zero) (WriteTxnMarkersResponse_Markers t)) ;;
  ret (mkWriteTxnMarkersResponse x_Markers).
(** the struct declaration read as a schema; version ranges as in Size *)
Definition WriteTxnMarkersResponse_schema : fields :=
  FCons "Markers" Always (TArray WritableTxnMarkerResult27_schema) FNil.
Definition WriteTxnMarkersResponse_to (t : WriteTxnMarkersResponse) : dens WriteTxnMarkersResponse_schema := (option_map (map WritableTxnMarkerResult27_to) (WriteTxnMarkersResponse_Markers t), tt).
Definition WriteTxnMarkersResponse_of (x : dens WriteTxnMarkersResponse_schema) : WriteTxnMarkersResponse := mkWriteTxnMarkersResponse (option_map (map WritableTxnMarkerResult27_of) (fst x)).
Definition WriteTxnMarkersResponse_codec : codec := Codec WriteTxnMarkersResponse WriteTxnMarkersResponse_zero WriteTxnMarkersResponse_Size WriteTxnMarkersResponse_Encode WriteTxnMarkersResponse_Decode WriteTxnMarkersResponse_schema WriteTxnMarkersResponse_to WriteTxnMarkersResponse_of.
Lemma WriteTxnMarkersResponse_linked : linked WriteTxnMarkersResponse_codec.
Proof.
  apply Linked; cbn [WriteTxnMarkersResponse_codec c_type c_zero c_size c_encode c_decode c_schema c_to c_of].
  - intros t. destruct t. cbv [WriteTxnMarkersResponse_of WriteTxnMarkersResponse_to]. cbn [fst snd WriteTxnMarkersResponse_Markers]. rewrite ?(option_map_map_inv WritableTxnMarkerResult27_to WritableTxnMarkerResult27_of _ (l_of_to _ WritableTxnMarkerResult27_linked)). reflexivity.
  - intros x. unfold WriteTxnMarkersResponse_schema in x. cbn [dens den] in x. destruct x as [x0 x]. destruct x. cbv [WriteTxnMarkersResponse_of WriteTxnMarkersResponse_to]. cbn [fst snd WriteTxnMarkersResponse_Markers]. rewrite ?(option_map_map_inv WritableTxnMarkerResult27_of WritableTxnMarkerResult27_to _ (l_to_of _ WritableTxnMarkerResult27_linked)). reflexivity.
  - reflexivity.
  - intros v t. unfold WriteTxnMarkersResponse_Size, WriteTxnMarkersResponse_schema, WriteTxnMarkersResponse_to. apply size_start.
    apply size_step; [intros sz; apply (size_field_link (WritableTxnMarkerResult27_Size v) WritableTxnMarkerResult27_schema WritableTxnMarkerResult27_to v (l_size _ WritableTxnMarkerResult27_linked v) true)|].
    intros sz; reflexivity.
  - intros v t. unfold WriteTxnMarkersResponse_Encode, WriteTxnMarkersResponse_schema, WriteTxnMarkersResponse_to.
    apply enc_step; [intros e; apply (put_field_link (WritableTxnMarkerResult27_Encode v) WritableTxnMarkerResult27_schema WritableTxnMarkerResult27_to v (l_encode _ WritableTxnMarkerResult27_linked v) true)|].
    intros e; reflexivity.
  - intros v t. unfold WriteTxnMarkersResponse_Decode, WriteTxnMarkersResponse_schema, WriteTxnMarkersResponse_to.
    dec_field (option_map (map WritableTxnMarkerResult27_of)); [apply (dec_array_link _ _ WritableTxnMarkerResult27_of WritableTxnMarkerResult27_to (l_decode _ WritableTxnMarkerResult27_linked v WritableTxnMarkerResult27_zero) (l_of_to _ WritableTxnMarkerResult27_linked))|intros x_Markers].
    intros d; reflexivity.
Qed.
Local Opaque WriteTxnMarkersResponse_Size WriteTxnMarkersResponse_Encode WriteTxnMarkersResponse_Decode.

(** ** TxnOffsetCommitRequestPartition28 *)

(** message/messages.gen.go:7469-7474 *)
Record TxnOffsetCommitRequestPartition28 : Type := mkTxnOffsetCommitRequestPartition28 { TxnOffsetCommitRequestPartition28_PartitionIndex : Z; TxnOffsetCommitRequestPartition28_CommittedOffset : Z; TxnOffsetCommitRequestPartition28_CommittedLeaderEpoch : Z; TxnOffsetCommitRequestPartition28_CommittedMetadata : gostring }.
(** the zero value ([var item TxnOffsetCommitRequestPartition28]) *)
Definition TxnOffsetCommitRequestPartition28_zero : TxnOffsetCommitRequestPartition28 := mkTxnOffsetCommitRequestPartition28 0 0 0 [].
(** message/messages.gen.go:7477-7486 *)
Definition TxnOffsetCommitRequestPartition28_Size (version : Z) (t : TxnOffsetCommitRequestPartition28) : Z :=
  ((size_add sz_Int32) +>
   (size_add sz_Int64) +>
   size_if (2 <=? version) (size_add sz_Int32) +>
   (size_add (sz_String (TxnOffsetCommitRequestPartition28_CommittedMetadata t))) +>
   size_done)%size 0.
(** message/messages.gen.go:7489-7496 *)
Definition TxnOffsetCommitRequestPartition28_Encode (version : Z) (t : TxnOffsetCommitRequestPartition28) : Encoder -> Encoder :=
  ((PutInt32 (TxnOffsetCommitRequestPartition28_PartitionIndex t)) >>
   (PutInt64 (TxnOffsetCommitRequestPartition28_CommittedOffset t)) >>
   put_if (2 <=? version) (PutInt32 (TxnOffsetCommitRequestPartition28_CommittedLeaderEpoch t)) >>
   (PutString (TxnOffsetCommitRequestPartition28_CommittedMetadata t)) >>
   skip)%enc.
(** message/messages.gen.go:7499-7520 *)
Definition TxnOffsetCommitRequestPartition28_Decode (version : Z) (t : TxnOffsetCommitRequestPartition28) : Dec TxnOffsetCommitRequestPartition28 :=
  x_PartitionIndex <- dInt32 ;;
  x_CommittedOffset <- dInt64 ;;
  x_CommittedLeaderEpoch <- dec_if (2 <=? version) dInt32 (TxnOffsetCommitRequestPartition28_CommittedLeaderEpoch t) ;;
  x_CommittedMetadata <- dString ;;
  ret (mkTxnOffsetCommitRequestPartition28 x_PartitionIndex x_CommittedOffset x_CommittedLeaderEpoch x_CommittedMetadata).
(** the struct declaration read as a schema; version ranges as in Size *)
Definition TxnOffsetCommitRequestPartition28_schema : fields :=
  FCons "PartitionIndex" Always TInt32
  (FCons "CommittedOffset" Always TInt64
  (FCons "CommittedLeaderEpoch" (From 2) TInt32
  (FCons "CommittedMetadata" Always TString FNil))).
Definition TxnOffsetCommitRequestPartition28_to (t : TxnOffsetCommitRequestPartition28) : dens TxnOffsetCommitRequestPartition28_schema := (TxnOffsetCommitRequestPartition28_PartitionIndex t, (TxnOffsetCommitRequestPartition28_CommittedOffset t, (TxnOffsetCommitRequestPartition28_CommittedLeaderEpoch t, (TxnOffsetCommitRequestPartition28_CommittedMetadata t, tt)))).
Definition TxnOffsetCommitRequestPartition28_of (x : dens TxnOffsetCommitRequestPartition28_schema) : TxnOffsetCommitRequestPartition28 := mkTxnOffsetCommitRequestPartition28 (fst x) (fst (snd x)) (fst (snd (snd x))) (fst (snd (snd (snd x)))).
Definition TxnOffsetCommitRequestPartition28_codec : codec := Codec TxnOffsetCommitRequestPartition28 TxnOffsetCommitRequestPartition28_zero TxnOffsetCommitRequestPartition28_Size TxnOffsetCommitRequestPartition28_Encode TxnOffsetCommitRequestPartition28_Decode TxnOffsetCommitRequestPartition28_schema TxnOffsetCommitRequestPartition28_to TxnOffsetCommitRequestPartition28_of.
Lemma TxnOffsetCommitRequestPartition28_linked : linked TxnOffsetCommitRequestPartition28_codec.
Proof.
  apply Linked; cbn [TxnOffsetCommitRequestPartition28_codec c_type c_zero c_size c_encode c_decode c_schema c_to c_of].
  - intros t. destruct t. cbv [TxnOffsetCommitRequestPartition28_of TxnOffsetCommitRequestPartition28_to]. cbn [fst snd TxnOffsetCommitRequestPartition28_PartitionIndex TxnOffsetCommitRequestPartition28_CommittedOffset TxnOffsetCommitRequestPartition28_CommittedLeaderEpoch TxnOffsetCommitRequestPartition28_CommittedMetadata].  reflexivity.
  - intros x. unfold TxnOffsetCommitRequestPartition28_schema in x. cbn [dens den] in x. destruct x as [x0 x]. destruct x as [x1 x]. destruct x as [x2 x]. destruct x as [x3 x]. destruct x. cbv [TxnOffsetCommitRequestPartition28_of TxnOffsetCommitRequestPartition28_to]. cbn [fst snd TxnOffsetCommitRequestPartition28_PartitionIndex TxnOffsetCommitRequestPartition28_CommittedOffset TxnOffsetCommitRequestPartition28_CommittedLeaderEpoch TxnOffsetCommitRequestPartition28_CommittedMetadata].  reflexivity.
  - reflexivity.
  - intros v t. unfold TxnOffsetCommitRequestPartition28_Size, TxnOffsetCommitRequestPartition28_schema, TxnOffsetCommitRequestPartition28_to. apply size_start.
    apply size_step; [intros sz; reflexivity|].
    apply size_step; [intros sz; reflexivity|].
    apply size_step; [intros sz; reflexivity|].
    apply size_step; [intros sz; reflexivity|].
    intros sz; reflexivity.
  - intros v t. unfold TxnOffsetCommitRequestPartition28_Encode, TxnOffsetCommitRequestPartition28_schema, TxnOffsetCommitRequestPartition28_to.
    apply enc_step; [intros e; reflexivity|].
    apply enc_step; [intros e; reflexivity|].
    apply enc_step; [intros e; reflexivity|].
    apply enc_step; [intros e; reflexivity|].
    intros e; reflexivity.
  - intros v t. unfold TxnOffsetCommitRequestPartition28_Decode, TxnOffsetCommitRequestPartition28_schema, TxnOffsetCommitRequestPartition28_to.
    dec_field (fun x : Z => x); [apply dmap_id|intros x_PartitionIndex].
    dec_field (fun x : Z => x); [apply dmap_id|intros x_CommittedOffset].
    dec_field (fun x : Z => x); [apply dec_if_link; [apply dmap_id|reflexivity]|intros x_CommittedLeaderEpoch].
    dec_field (fun x : gostring => x); [apply dmap_id|intros x_CommittedMetadata].
    intros d; reflexivity.
Qed.
Local Opaque TxnOffsetCommitRequestPartition28_Size TxnOffsetCommitRequestPartition28_Encode TxnOffsetCommitRequestPartition28_Decode.

(** ** TxnOffsetCommitRequestTopic28 *)

(** message/messages.gen.go:7419-7422 *)
Record TxnOffsetCommitRequestTopic28 : Type := mkTxnOffsetCommitRequestTopic28 { TxnOffsetCommitRequestTopic28_Name : gostring; TxnOffsetCommitRequestTopic28_Partitions : gslice TxnOffsetCommitRequestPartition28 }.
(** the zero value ([var item TxnOffsetCommitRequestTopic28]) *)
Definition TxnOffsetCommitRequestTopic28_zero : TxnOffsetCommitRequestTopic28 := mkTxnOffsetCommitRequestTopic28 [] None.
(** message/messages.gen.go:7425-7433 *)
Definition TxnOffsetCommitRequestTopic28_Size (version : Z) (t : TxnOffsetCommitRequestTopic28) : Z :=
  ((size_add (sz_String (TxnOffsetCommitRequestTopic28_Name t))) +>
   (size_loop (TxnOffsetCommitRequestPartition28_Size version) (TxnOffsetCommitRequestTopic28_Partitions t)) +>
   size_done)%size 0.
(** message/messages.gen.go:7436-7444 *)
Definition TxnOffsetCommitRequestTopic28_Encode (version : Z) (t : TxnOffsetCommitRequestTopic28) : Encoder -> Encoder :=
  ((PutString (TxnOffsetCommitRequestTopic28_Name t)) >>
   (put_array (TxnOffsetCommitRequestPartition28_Encode version) (TxnOffsetCommitRequestTopic28_Partitions t)) >>
   skip)%enc.
(** message/messages.gen.go:7447-7467 *)
Definition TxnOffsetCommitRequestTopic28_Decode (version : Z) (t : TxnOffsetCommitRequestTopic28) : Dec TxnOffsetCommitRequestTopic28 :=
  x_Name <- dString ;;
  x_Partitions <- (dec_array (TxnOffsetCommitRequestPartition28_Decode version TxnOffsetCommitRequestPartition28_zero) (TxnOffsetCommitRequestTopic28_Partitions t)) ;;
  ret (mkTxnOffsetCommitRequestTopic28 x_Name x_Partitions).
(** the struct declaration read as a schema; version ranges as in Size *)
Definition TxnOffsetCommitRequestTopic28_schema : fields :=
  FCons "Name" Always TString
  (FCons "Partitions" Always (TArray TxnOffsetCommitRequestPartition28_schema) FNil).
Definition TxnOffsetCommitRequestTopic28_to (t : TxnOffsetCommitRequestTopic28) : dens TxnOffsetCommitRequestTopic28_schema := (TxnOffsetCommitRequestTopic28_Name t, (option_map (map TxnOffsetCommitRequestPartition28_to) (TxnOffsetCommitRequestTopic28_Partitions t), tt)).
Definition TxnOffsetCommitRequestTopic28_of (x : dens TxnOffsetCommitRequestTopic28_schema) : TxnOffsetCommitRequestTopic28 := mkTxnOffsetCommitRequestTopic28 (fst x) (option_map (map TxnOffsetCommitRequestPartition28_of) (fst (snd x))).
Definition TxnOffsetCommitRequestTopic28_codec : codec := Codec TxnOffsetCommitRequestTopic28 TxnOffsetCommitRequestTopic28_zero TxnOffsetCommitRequestTopic28_Size TxnOffsetCommitRequestTopic28_Encode TxnOffsetCommitRequestTopic28_Decode TxnOffsetCommitRequestTopic28_schema TxnOffsetCommitRequestTopic28_to TxnOffsetCommitRequestTopic28_of.
Lemma TxnOffsetCommitRequestTopic28_linked : linked TxnOffsetCommitRequestTopic28_codec.
Proof.
  apply Linked; cbn [TxnOffsetCommitRequestTopic28_codec c_type c_zero c_size c_encode c_decode c_schema c_to c_of].
  - intros t. destruct t. cbv [TxnOffsetCommitRequestTopic28_of TxnOffsetCommitRequestTopic28_to]. cbn [fst snd TxnOffsetCommitRequestTopic28_Name TxnOffsetCommitRequestTopic28_Partitions]. rewrite ?(option_map_map_inv TxnOffsetCommitRequestPartition28_to TxnOffsetCommitRequestPartition28_of _ (l_of_to _ TxnOffsetCommitRequestPartition28_linked)). reflexivity.
  - intros x. unfold TxnOffsetCommitRequestTopic28_schema in x. cbn [dens den] in x. destruct x as [x0 x]. destruct x as [x1 x]. destruct x. cbv [TxnOffsetCommitRequestTopic28_of TxnOffsetCommitRequestTopic28_to]. cbn [fst snd TxnOffsetCommitRequestTopic28_Name TxnOffsetCommitRequestTopic28_Partitions]. rewrite ?(option_map_map_inv TxnOffsetCommitRequestPartition28_of TxnOffsetCommitRequestPartition28_to _ (l_to_of _ TxnOffsetCommitRequestPartition28_linked)). reflexivity.
  - reflexivity.
  - intros v t. unfold TxnOffsetCommitRequestTopic28_Size, TxnOffsetCommitRequestTopic28_schema, TxnOffsetCommitRequestTopic28_to. apply size_start.
    apply size_step; [intros sz; reflexivity|].
    apply size_step; [intros sz; apply (size_field_link (TxnOffsetCommitRequestPartition28_Size v) TxnOffsetCommitRequestPartition28_schema TxnOffsetCommitRequestPartition28_to v (l_size _ TxnOffsetCommitRequestPartition28_linked v) true)|].
    intros sz; reflexivity.
  - intros v t. unfold TxnOffsetCommitRequestTopic28_Encode, TxnOffsetCommitRequestTopic28_schema, TxnOffsetCommitRequestTopic28_to.
    apply enc_step; [intros e; reflexivity|].
    apply enc_step; [intros e; apply (put_field_link (TxnOffsetCommitRequestPartition28_Encode v) TxnOffsetCommitRequestPartition28_schema TxnOffsetCommitRequestPartition28_to v (l_encode _ TxnOffsetCommitRequestPartition28_linked v) true)|].
    intros e; reflexivity.
  - intros v t. unfold TxnOffsetCommitRequestTopic28_Decode, TxnOffsetCommitRequestTopic28_schema, TxnOffsetCommitRequestTopic28_to.
    dec_field (fun x : gostring => x); [apply dmap_id|intros x_Name].
    dec_field (option_map (map TxnOffsetCommitRequestPartition28_of)); [apply (dec_array_link _ _ TxnOffsetCommitRequestPartition28_of TxnOffsetCommitRequestPartition28_to (l_decode _ TxnOffsetCommitRequestPartition28_linked v TxnOffsetCommitRequestPartition28_zero) (l_of_to _ TxnOffsetCommitRequestPartition28_linked))|intros x_Partitions].
    intros d; reflexivity.
Qed.
Local Opaque TxnOffsetCommitRequestTopic28_Size TxnOffsetCommitRequestTopic28_Encode TxnOffsetCommitRequestTopic28_Decode.

(** ** TxnOffsetCommitRequest *)

(** message/messages.gen.go:7348-7354 *)
Record TxnOffsetCommitRequest : Type := mkTxnOffsetCommitRequest { TxnOffsetCommitRequest_TransactionalId : gostring; TxnOffsetCommitRequest_GroupId : gostring; TxnOffsetCommitRequest_ProducerId : Z; TxnOffsetCommitRequest_ProducerEpoch : Z; TxnOffsetCommitRequest_Topics : gslice TxnOffsetCommitRequestTopic28 }.
(** the zero value ([var item TxnOffsetCommitRequest]) *)
Definition TxnOffsetCommitRequest_zero : TxnOffsetCommitRequest := mkTxnOffsetCommitRequest [] [] 0 0 None.
(** message/messages.gen.go:7357-7368 *)
Definition TxnOffsetCommitRequest_Size (version : Z) (t : TxnOffsetCommitRequest) : Z :=
  ((size_add (sz_String (TxnOffsetCommitRequest_TransactionalId t))) +>
   (size_add (sz_String (TxnOffsetCommitRequest_GroupId t))) +>
   (size_add sz_Int64) +>
   (size_add sz_Int16) +>
   (size_loop (TxnOffsetCommitRequestTopic28_Size version) (TxnOffsetCommitRequest_Topics t)) +>
   size_done)%size 0.
(** message/messages.gen.go:7371-7382 *)
Definition TxnOffsetCommitRequest_Encode (version : Z) (t : TxnOffsetCommitRequest) : Encoder -> Encoder :=
  ((PutString (TxnOffsetCommitRequest_TransactionalId t)) >>
   (PutString (TxnOffsetCommitRequest_GroupId t)) >>
   (PutInt64 (TxnOffsetCommitRequest_ProducerId t)) >>
   (PutInt16 (TxnOffsetCommitRequest_ProducerEpoch t)) >>
   (put_array (TxnOffsetCommitRequestTopic28_Encode version) (TxnOffsetCommitRequest_Topics t)) >>
   skip)%enc.
(** message/messages.gen.go:7385-7417 *)
Definition TxnOffsetCommitRequest_Decode (version : Z) (t : TxnOffsetCommitRequest) : Dec TxnOffsetCommitRequest :=
  x_TransactionalId <- dString ;;
  x_GroupId <- dString ;;
  x_ProducerId <- dInt64 ;;
  x_ProducerEpoch <- dInt16 ;;
  x_Topics <- (dec_array (TxnOffsetCommitRequestTopic28_Decode version TxnOffsetCommitRequestTopic28_zero) (TxnOffsetCommitRequest_Topics t)) ;;
  ret (mkTxnOffsetCommitRequest x_TransactionalId x_GroupId x_ProducerId x_ProducerEpoch x_Topics).
(** the struct declaration read as a schema; version ranges as in Size *)
Definition TxnOffsetCommitRequest_schema : fields :=
  FCons "TransactionalId" Always TString
  (FCons "GroupId" Always TString
  (FCons "ProducerId" Always TInt64
  (FCons "ProducerEpoch" Always TInt16
  (FCons "Topics" Always (TArray TxnOffsetCommitRequestTopic28_schema) FNil)))).
Definition TxnOffsetCommitRequest_to (t : TxnOffsetCommitRequest) : dens TxnOffsetCommitRequest_schema := (TxnOffsetCommitRequest_TransactionalId t, (TxnOffsetCommitRequest_GroupId t, (TxnOffsetCommitRequest_ProducerId t, (TxnOffsetCommitRequest_ProducerEpoch t, (option_map (map TxnOffsetCommitRequestTopic28_to) (TxnOffsetCommitRequest_Topics t), tt))))).
Definition TxnOffsetCommitRequest_of (x : dens TxnOffsetCommitRequest_schema) : TxnOffsetCommitRequest := mkTxnOffsetCommitRequest (fst x) (fst (snd x)) (fst (snd (snd x))) (fst (snd (snd (snd x)))) (option_map (map TxnOffsetCommitRequestTopic28_of) (fst (snd (snd (snd (snd x)))))).
Definition TxnOffsetCommitRequest_codec : codec := Codec TxnOffsetCommitRequest TxnOffsetCommitRequest_zero TxnOffsetCommitRequest_Size TxnOffsetCommitRequest_Encode TxnOffsetCommitRequest_Decode TxnOffsetCommitRequest_schema TxnOffsetCommitRequest_to TxnOffsetCommitRequest_of.
Lemma TxnOffsetCommitRequest_linked : linked TxnOffsetCommitRequest_codec.
Proof.
  apply Linked; cbn [TxnOffsetCommitRequest_codec c_type c_zero c_size c_encode c_decode c_schema c_to c_of].
  - intros t. destruct t. cbv [TxnOffsetCommitRequest_of TxnOffsetCommitRequest_to]. cbn [fst snd TxnOffsetCommitRequest_TransactionalId TxnOffsetCommitRequest_GroupId TxnOffsetCommitRequest_ProducerId TxnOffsetCommitRequest_ProducerEpoch TxnOffsetCommitRequest_Topics]. rewrite ?(option_map_map_inv TxnOffsetCommitRequestTopic28_to TxnOffsetCommitRequestTopic28_of _ (l_of_to _ TxnOffsetCommitRequestTopic28_linked)). reflexivity.
  - intros x. unfold TxnOffsetCommitRequest_schema in x. cbn [dens den] in x. destruct x as [x0 x]. destruct x as [x1 x]. destruct x as [x2 x]. destruct x as [x3 x]. destruct x as [x4 x]. destruct x. cbv [TxnOffsetCommitRequest_of TxnOffsetCommitRequest_to]. cbn [fst snd TxnOffsetCommitRequest_TransactionalId TxnOffsetCommitRequest_GroupId TxnOffsetCommitRequest_ProducerId TxnOffsetCommitRequest_ProducerEpoch TxnOffsetCommitRequest_Topics]. rewrite ?(option_map_map_inv TxnOffsetCommitRequestTopic28_of TxnOffsetCommitRequestTopic28_to _ (l_to_of _ TxnOffsetCommitRequestTopic28_linked)). reflexivity.
  - reflexivity.
  - intros v t. unfold TxnOffsetCommitRequest_Size, TxnOffsetCommitRequest_schema, TxnOffsetCommitRequest_to. apply size_start.
    apply size_step; [intros sz; reflexivity|].
    apply size_step; [intros sz; reflexivity|].
    apply size_step; [intros sz; reflexivity|].
    apply size_step; [intros sz; reflexivity|].
    apply size_step; [intros sz; apply (size_field_link (TxnOffsetCommitRequestTopic28_Size v) TxnOffsetCommitRequestTopic28_schema TxnOffsetCommitRequestTopic28_to v (l_size _ TxnOffsetCommitRequestTopic28_linked v) true)|].
    intros sz; reflexivity.
  - intros v t. unfold TxnOffsetCommitRequest_Encode, TxnOffsetCommitRequest_schema, TxnOffsetCommitRequest_to.
    apply enc_step; [intros e; reflexivity|].
    apply enc_step; [intros e; reflexivity|].
    apply enc_step; [intros e; reflexivity|].
    apply enc_step; [intros e; reflexivity|].
    apply enc_step; [intros e; apply (put_field_link (TxnOffsetCommitRequestTopic28_Encode v) TxnOffsetCommitRequestTopic28_schema TxnOffsetCommitRequestTopic28_to v (l_encode _ TxnOffsetCommitRequestTopic28_linked v) true)|].
    intros e; reflexivity.
  - intros v t. unfold TxnOffsetCommitRequest_Decode, TxnOffsetCommitRequest_schema, TxnOffsetCommitRequest_to.
    dec_field (fun x : gostring => x); [apply dmap_id|intros x_TransactionalId].
    dec_field (fun x : gostring => x); [apply dmap_id|intros x_GroupId].
    dec_field (fun x : Z => x); [apply dmap_id|intros x_ProducerId].
    dec_field (fun x : Z => x); [apply dmap_id|intros x_ProducerEpoch].
    dec_field (option_map (map TxnOffsetCommitRequestTopic28_of)); [apply (dec_array_link _ _ TxnOffsetCommitRequestTopic28_of TxnOffsetCommitRequestTopic28_to (l_decode _ TxnOffsetCommitRequestTopic28_linked v TxnOffsetCommitRequestTopic28_zero) (l_of_to _ TxnOffsetCommitRequestTopic28_linked))|intros x_Topics].
    intros d; reflexivity.
Qed.
Local Opaque TxnOffsetCommitRequest_Size TxnOffsetCommitRequest_Encode TxnOffsetCommitRequest_Decode.

(** ** TxnOffsetCommitResponsePartition28 *)

(** message/messages.gen.go:7623-7626 *)
Record TxnOffsetCommitResponsePartition28 : Type := mkTxnOffsetCommitResponsePartition28 { TxnOffsetCommitResponsePartition28_PartitionIndex : Z; TxnOffsetCommitResponsePartition28_ErrorCode : Z }.
(** the zero value ([var item TxnOffsetCommitResponsePartition28]) *)
Definition TxnOffsetCommitResponsePartition28_zero : TxnOffsetCommitResponsePartition28 := mkTxnOffsetCommitResponsePartition28 0 0.
(** message/messages.gen.go:7629-7634 *)
Definition TxnOffsetCommitResponsePartition28_Size (version : Z) (t : TxnOffsetCommitResponsePartition28) : Z :=
  ((size_add sz_Int32) +>
   (size_add sz_Int16) +>
   size_done)%size 0.
(** message/messages.gen.go:7637-7640 *)
Definition TxnOffsetCommitResponsePartition28_Encode (version : Z) (t : TxnOffsetCommitResponsePartition28) : Encoder -> Encoder :=
  ((PutInt32 (TxnOffsetCommitResponsePartition28_PartitionIndex t)) >>
   (PutInt16 (TxnOffsetCommitResponsePartition28_ErrorCode t)) >>
   skip)%enc.
(** message/messages.gen.go:7643-7654 *)
Definition TxnOffsetCommitResponsePartition28_Decode (version : Z) (t : TxnOffsetCommitResponsePartition28) : Dec TxnOffsetCommitResponsePartition28 :=
  x_PartitionIndex <- dInt32 ;;
  x_ErrorCode <- dInt16 ;;
  ret (mkTxnOffsetCommitResponsePartition28 x_PartitionIndex x_ErrorCode).
(** the struct declaration read as a schema; version ranges as in Size *)
Definition TxnOffsetCommitResponsePartition28_schema : fields :=
  FCons "PartitionIndex" Always TInt32
  (FCons "ErrorCode" Always TInt16 FNil).
Definition TxnOffsetCommitResponsePartition28_to (t : TxnOffsetCommitResponsePartition28) : dens TxnOffsetCommitResponsePartition28_schema := (TxnOffsetCommitResponsePartition28_PartitionIndex t, (TxnOffsetCommitResponsePartition28_ErrorCode t, tt)).
Definition TxnOffsetCommitResponsePartition28_of (x : dens TxnOffsetCommitResponsePartition28_schema) : TxnOffsetCommitResponsePartition28 := mkTxnOffsetCommitResponsePartition28 (fst x) (fst (snd x)).
Definition TxnOffsetCommitResponsePartition28_codec : codec := Codec TxnOffsetCommitResponsePartition28 TxnOffsetCommitResponsePartition28_zero TxnOffsetCommitResponsePartition28_Size TxnOffsetCommitResponsePartition28_Encode TxnOffsetCommitResponsePartition28_Decode TxnOffsetCommitResponsePartition28_schema TxnOffsetCommitResponsePartition28_to TxnOffsetCommitResponsePartition28_of.
Lemma TxnOffsetCommitResponsePartition28_linked : linked TxnOffsetCommitResponsePartition28_codec.
Proof.
  apply Linked; cbn [TxnOffsetCommitResponsePartition28_codec c_type c_zero c_size c_encode c_decode c_schema c_to c_of].
  - intros t. destruct t. cbv [TxnOffsetCommitResponsePartition28_of TxnOffsetCommitResponsePartition28_to]. cbn [fst snd TxnOffsetCommitResponsePartition28_PartitionIndex TxnOffsetCommitResponsePartition28_ErrorCode].  reflexivity.
  - intros x. unfold TxnOffsetCommitResponsePartition28_schema in x. cbn [dens den] in x. destruct x as [x0 x]. destruct x as [x1 x]. destruct x. cbv [TxnOffsetCommitResponsePartition28_of TxnOffsetCommitResponsePartition28_to]. cbn [fst snd TxnOffsetCommitResponsePartition28_PartitionIndex TxnOffsetCommitResponsePartition28_ErrorCode].  reflexivity.
  - reflexivity.
  - intros v t. unfold TxnOffsetCommitResponsePartition28_Size, TxnOffsetCommitResponsePartition28_schema, TxnOffsetCommitResponsePartition28_to. apply size_start.
    apply size_step; [intros sz; reflexivity|].
    apply size_step; [intros sz; reflexivity|].
    intros sz; reflexivity.
  - intros v t. unfold TxnOffsetCommitResponsePartition28_Encode, TxnOffsetCommitResponsePartition28_schema, TxnOffsetCommitResponsePartition28_to.
    apply enc_step; [intros e; reflexivity|].
    apply enc_step; [intros e; reflexivity|].
    intros e; reflexivity.
  - intros v t. unfold TxnOffsetCommitResponsePartition28_Decode, TxnOffsetCommitResponsePartition28_schema, TxnOffsetCommitResponsePartition28_to.
    dec_field (fun x : Z => x); [apply dmap_id|intros x_PartitionIndex].
    dec_field (fun x : Z => x); [apply dmap_id|intros x_ErrorCode].
    intros d; reflexivity.
Qed.
Local Opaque TxnOffsetCommitResponsePartition28_Size TxnOffsetCommitResponsePartition28_Encode TxnOffsetCommitResponsePartition28_Decode.

(** ** TxnOffsetCommitResponseTopic28 *)

(** message/messages.gen.go:7573-7576 *)
Record TxnOffsetCommitResponseTopic28 : Type := mkTxnOffsetCommitResponseTopic28 { TxnOffsetCommitResponseTopic28_Name : gostring; TxnOffsetCommitResponseTopic28_Partitions : gslice TxnOffsetCommitResponsePartition28 }.
(** the zero value ([var item TxnOffsetCommitResponseTopic28]) *)
Definition TxnOffsetCommitResponseTopic28_zero : TxnOffsetCommitResponseTopic28 := mkTxnOffsetCommitResponseTopic28 [] None.
(** message/messages.gen.go:7579-7587 *)
Definition TxnOffsetCommitResponseTopic28_Size (version : Z) (t : TxnOffsetCommitResponseTopic28) : Z :=
  ((size_add (sz_String (TxnOffsetCommitResponseTopic28_Name t))) +>
   (size_loop (TxnOffsetCommitResponsePartition28_Size version) (TxnOffsetCommitResponseTopic28_Partitions t)) +>
   size_done)%size 0.
(** message/messages.gen.go:7590-7598 *)
Definition TxnOffsetCommitResponseTopic28_Encode (version : Z) (t : TxnOffsetCommitResponseTopic28) : Encoder -> Encoder :=
  ((PutString (TxnOffsetCommitResponseTopic28_Name t)) >>
   (put_array (TxnOffsetCommitResponsePartition28_Encode version) (TxnOffsetCommitResponseTopic28_Partitions t)) >>
   skip)%enc.
(** message/messages.gen.go:7601-7621 *)
Definition TxnOffsetCommitResponseTopic28_Decode (version : Z) (t : TxnOffsetCommitResponseTopic28) : Dec TxnOffsetCommitResponseTopic28 :=
  x_Name <- dString ;;
  x_Partitions <- (dec_array (TxnOffsetCommitResponsePartition28_Decode version TxnOffsetCommitResponsePartition28_zero) (TxnOffsetCommitResponseTopic28_Partitions t)) ;;
  ret (mkTxnOffsetCommitResponseTopic28 x_Name x_Partitions).
(** the struct declaration read as a schema; version ranges as in Size *)
Definition TxnOffsetCommitResponseTopic28_schema : fields :=
  FCons "Name" Always TString
  (FCons "Partitions" Always (TArray TxnOffsetCommitResponsePartition28_schema) FNil).
Definition TxnOffsetCommitResponseTopic28_to (t : TxnOffsetCommitResponseTopic28) : dens TxnOffsetCommitResponseTopic28_schema := (TxnOffsetCommitResponseTopic28_Name t, (option_map (map TxnOffsetCommitResponsePartition28_to) (TxnOffsetCommitResponseTopic28_Partitions t), tt)).
Definition TxnOffsetCommitResponseTopic28_of (x : dens TxnOffsetCommitResponseTopic28_schema) : TxnOffsetCommitResponseTopic28 := mkTxnOffsetCommitResponseTopic28 (fst x) (option_map (map TxnOffsetCommitResponsePartition28_of) (fst (snd x))).
Definition TxnOffsetCommitResponseTopic28_codec : codec := Codec TxnOffsetCommitResponseTopic28 TxnOffsetCommitResponseTopic28_zero TxnOffsetCommitResponseTopic28_Size TxnOffsetCommitResponseTopic28_Encode TxnOffsetCommitResponseTopic28_Decode TxnOffsetCommitResponseTopic28_schema TxnOffsetCommitResponseTopic28_to TxnOffsetCommitResponseTopic28_of.
Lemma TxnOffsetCommitResponseTopic28_linked : linked TxnOffsetCommitResponseTopic28_codec.
Proof.
  apply Linked; cbn [TxnOffsetCommitResponseTopic28_codec c_type c_zero c_size c_encode c_decode c_schema c_to c_of].
  - intros t. destruct t. cbv [TxnOffsetCommitResponseTopic28_of TxnOffsetCommitResponseTopic28_to]. cbn [fst snd TxnOffsetCommitResponseTopic28_Name TxnOffsetCommitResponseTopic28_Partitions]. rewrite ?(option_map_map_inv TxnOffsetCommitResponsePartition28_to TxnOffsetCommitResponsePartition28_of _ (l_of_to _ TxnOffsetCommitResponsePartition28_linked)). reflexivity.
  - intros x. unfold TxnOffsetCommitResponseTopic28_schema in x. cbn [dens den] in x. destruct x as [x0 x]. destruct x as [x1 x]. destruct x. cbv [TxnOffsetCommitResponseTopic28_of TxnOffsetCommitResponseTopic28_to]. cbn [fst snd TxnOffsetCommitResponseTopic28_Name TxnOffsetCommitResponseTopic28_Partitions]. rewrite ?(option_map_map_inv TxnOffsetCommitResponsePartition28_of TxnOffsetCommitResponsePartition28_to _ (l_to_of _ TxnOffsetCommitResponsePartition28_linked)). reflexivity.
  - reflexivity.
  - intros v t. unfold TxnOffsetCommitResponseTopic28_Size, TxnOffsetCommitResponseTopic28_schema, TxnOffsetCommitResponseTopic28_to. apply size_start.
    apply size_step; [intros sz; reflexivity|].
    apply size_step; [intros sz; apply (size_field_link (TxnOffsetCommitResponsePartition28_Size v) TxnOffsetCommitResponsePartition28_schema TxnOffsetCommitResponsePartition28_to v (l_size _ TxnOffsetCommitResponsePartition28_linked v) true)|].
    intros sz; reflexivity.
  - intros v t. unfold TxnOffsetCommitResponseTopic28_Encode, TxnOffsetCommitResponseTopic28_schema, TxnOffsetCommitResponseTopic28_to.
    apply enc_step; [intros e; reflexivity|].
    apply enc_step; [intros e; apply (put_field_link (TxnOffsetCommitResponsePartition28_Encode v) TxnOffsetCommitResponsePartition28_schema TxnOffsetCommitResponsePartition28_to v (l_encode _ TxnOffsetCommitResponsePartition28_linked v) true)|].
    intros e; reflexivity.
  - intros v t. unfold TxnOffsetCommitResponseTopic28_Decode, TxnOffsetCommitResponseTopic28_schema, TxnOffsetCommitResponseTopic28_to.
    dec_field (fun x : gostring => x); [apply dmap_id|intros x_Name].
    dec_field (option_map (map TxnOffsetCommitResponsePartition28_of)); [apply (dec_array_link _ _ TxnOffsetCommitResponsePartition28_of TxnOffsetCommitResponsePartition28_to (l_decode _ TxnOffsetCommitResponsePartition28_linked v TxnOffsetCommitResponsePartition28_zero) (l_of_to _ TxnOffsetCommitResponsePartition28_linked))|intros x_Partitions].
    intros d; reflexivity.
Qed.
Local Opaque TxnOffsetCommitResponseTopic28_Size TxnOffsetCommitResponseTopic28_Encode TxnOffsetCommitResponseTopic28_Decode.

(** ** TxnOffsetCommitResponse *)

(** message/messages.gen.go:7523-7526 *)
Record TxnOffsetCommitResponse : Type := mkTxnOffsetCommitResponse { TxnOffsetCommitResponse_ThrottleTimeMs : Z; TxnOffsetCommitResponse_Topics : gslice TxnOffsetCommitResponseTopic28 }.
(** the zero value ([var item TxnOffsetCommitResponse]) *)
Definition TxnOffsetCommitResponse_zero : TxnOffsetCommitResponse := mkTxnOffsetCommitResponse 0 None.
(** message/messages.gen.go:7529-7537 *)
Definition TxnOffsetCommitResponse_Size (version : Z) (t : TxnOffsetCommitResponse) : Z :=
  ((size_add sz_Int32) +>
   (size_loop (TxnOffsetCommitResponseTopic28_Size version) (TxnOffsetCommitResponse_Topics t)) +>
   size_done)%size 0.
(** message/messages.gen.go:7540-7548 *)
Definition TxnOffsetCommitResponse_Encode (version : Z) (t : TxnOffsetCommitResponse) : Encoder -> Encoder :=
  ((PutInt32 (TxnOffsetCommitResponse_ThrottleTimeMs t)) >>
   (put_array (TxnOffsetCommitResponseTopic28_Encode version) (TxnOffsetCommitResponse_Topics t)) >>
   skip)%enc.
(** message/messages.gen.go:7551-7571 *)
Definition TxnOffsetCommitResponse_Decode (version : Z) (t : TxnOffsetCommitResponse) : Dec TxnOffsetCommitResponse :=
  x_ThrottleTimeMs <- dInt32 ;;
  x_Topics <- (dec_array (TxnOffsetCommitResponseTopic28_Decode version TxnOffsetCommitResponseTopic28_zero) (TxnOffsetCommitResponse_Topics t)) ;;
  ret (mkTxnOffsetCommitResponse x_ThrottleTimeMs x_Topics).
(** the struct declaration read as a schema; version ranges as in Size *)
Definition TxnOffsetCommitResponse_schema : fields :=
  FCons "ThrottleTimeMs" Always TInt32
  (FCons "Topics" Always (TArray TxnOffsetCommitResponseTopic28_schema) FNil).
Definition TxnOffsetCommitResponse_to (t : TxnOffsetCommitResponse) : dens TxnOffsetCommitResponse_schema := (TxnOffsetCommitResponse_ThrottleTimeMs t, (option_map (map TxnOffsetCommitResponseTopic28_to) (TxnOffsetCommitResponse_Topics t), tt)).
Definition TxnOffsetCommitResponse_of (x : dens TxnOffsetCommitResponse_schema) : TxnOffsetCommitResponse := mkTxnOffsetCommitResponse (fst x) (option_map (map TxnOffsetCommitResponseTopic28_of) (fst (snd x))).
Definition TxnOffsetCommitResponse_codec : codec := Codec TxnOffsetCommitResponse TxnOffsetCommitResponse_zero TxnOffsetCommitResponse_Size TxnOffsetCommitResponse_Encode TxnOffsetCommitResponse_Decode TxnOffsetCommitResponse_schema TxnOffsetCommitResponse_to TxnOffsetCommitResponse_of.
Lemma TxnOffsetCommitResponse_linked : linked TxnOffsetCommitResponse_codec.
Proof.
  apply Linked; cbn [TxnOffsetCommitResponse_codec c_type c_zero c_size c_encode c_decode c_schema c_to c_of].
  - intros t. destruct t. cbv [TxnOffsetCommitResponse_of TxnOffsetCommitResponse_to]. cbn [fst snd TxnOffsetCommitResponse_ThrottleTimeMs TxnOffsetCommitResponse_Topics]. rewrite ?(option_map_map_inv TxnOffsetCommitResponseTopic28_to TxnOffsetCommitResponseTopic28_of _ (l_of_to _ TxnOffsetCommitResponseTopic28_linked)). reflexivity.
  - intros x. unfold TxnOffsetCommitResponse_schema in x. cbn [dens den] in x. destruct x as [x0 x]. destruct x as [x1 x]. destruct x. cbv [TxnOffsetCommitResponse_of TxnOffsetCommitResponse_to]. cbn [fst snd TxnOffsetCommitResponse_ThrottleTimeMs TxnOffsetCommitResponse_Topics]. rewrite ?(option_map_map_inv TxnOffsetCommitResponseTopic28_of TxnOffsetCommitResponseTopic28_to _ (l_to_of _ TxnOffsetCommitResponseTopic28_linked)). reflexivity.
  - reflexivity.
  - intros v t. unfold TxnOffsetCommitResponse_Size, TxnOffsetCommitResponse_schema, TxnOffsetCommitResponse_to. apply size_start.
    apply size_step; [intros sz; reflexivity|].
    apply size_step; [intros sz; apply (size_field_link (TxnOffsetCommitResponseTopic28_Size v) TxnOffsetCommitResponseTopic28_schema TxnOffsetCommitResponseTopic28_to v (l_size _ TxnOffsetCommitResponseTopic28_linked v) true)|].
    intros sz; reflexivity.
  - intros v t. unfold TxnOffsetCommitResponse_Encode, TxnOffsetCommitResponse_schema, TxnOffsetCommitResponse_to.
    apply enc_step; [intros e; reflexivity|].
    apply enc_step; [intros e; apply (put_field_link (TxnOffsetCommitResponseTopic28_Encode v) TxnOffsetCommitResponseTopic28_schema TxnOffsetCommitResponseTopic28_to v (l_encode _ TxnOffsetCommitResponseTopic28_linked v) true)|].
    intros e; reflexivity.
  - intros v t. unfold TxnOffsetCommitResponse_Decode, TxnOffsetCommitResponse_schema, TxnOffsetCommitResponse_to.
    dec_field (fun x : Z => x); [apply dmap_id|intros x_ThrottleTimeMs].
    dec_field (option_map (map TxnOffsetCommitResponseTopic28_of)); [apply (dec_array_link _ _ TxnOffsetCommitResponseTopic28_of TxnOffsetCommitResponseTopic28_to (l_decode _ TxnOffsetCommitResponseTopic28_linked v TxnOffsetCommitResponseTopic28_zero) (l_of_to _ TxnOffsetCommitResponseTopic28_linked))|intros x_Topics].
    intros d; reflexivity.
Qed.
Local Opaque TxnOffsetCommitResponse_Size TxnOffsetCommitResponse_Encode TxnOffsetCommitResponse_Decode.

(** ** DescribeAclsRequest *)

(** message/messages.gen.go:7657-7665 *)
Record DescribeAclsRequest : Type := mkDescribeAclsRequest { DescribeAclsRequest_ResourceType : Z; DescribeAclsRequest_ResourceNameFilter : gostring; DescribeAclsRequest_ResourcePatternType : Z; DescribeAclsRequest_PrincipalFilter : gostring; DescribeAclsRequest_HostFilter : gostring; DescribeAclsRequest_Operation : Z; DescribeAclsRequest_PermissionType : Z }.
(** the zero value ([var item DescribeAclsRequest]) *)
Definition DescribeAclsRequest_zero : DescribeAclsRequest := mkDescribeAclsRequest 0 [] 0 [] [] 0 0.
(** message/messages.gen.go:7668-7680 *)
Definition DescribeAclsRequest_Size (version : Z) (t : DescribeAclsRequest) : Z :=
  ((size_add sz_Int8) +>
   (size_add (sz_String (DescribeAclsRequest_ResourceNameFilter t))) +>
   size_if (1 <=? version) (size_add sz_Int8) +>
   (size_add (sz_String (DescribeAclsRequest_PrincipalFilter t))) +>
   (size_add (sz_String (DescribeAclsRequest_HostFilter t))) +>
   (size_add sz_Int8) +>
   (size_add sz_Int8) +>
   size_done)%size 0.
(** message/messages.gen.go:7683-7693 *)
Definition DescribeAclsRequest_Encode (version : Z) (t : DescribeAclsRequest) : Encoder -> Encoder :=
  ((PutInt8 (DescribeAclsRequest_ResourceType t)) >>
   (PutString (DescribeAclsRequest_ResourceNameFilter t)) >>
   put_if (1 <=? version) (PutInt8 (DescribeAclsRequest_ResourcePatternType t)) >>
   (PutString (DescribeAclsRequest_PrincipalFilter t)) >>
   (PutString (DescribeAclsRequest_HostFilter t)) >>
   (PutInt8 (DescribeAclsRequest_Operation t)) >>
   (PutInt8 (DescribeAclsRequest_PermissionType t)) >>
   skip)%enc.
(** message/messages.gen.go:7696-7729 *)
Definition DescribeAclsRequest_Decode (version : Z) (t : DescribeAclsRequest) : Dec DescribeAclsRequest :=
  x_ResourceType <- dInt8 ;;
  x_ResourceNameFilter <- dString ;;
  x_ResourcePatternType <- dec_if (1 <=? version) dInt8 (DescribeAclsRequest_ResourcePatternType t) ;;
  x_PrincipalFilter <- dString ;;
  x_HostFilter <- dString ;;
  x_Operation <- dInt8 ;;
  x_PermissionType <- dInt8 ;;
  ret (mkDescribeAclsRequest x_ResourceType x_ResourceNameFilter x_ResourcePatternType x_PrincipalFilter x_HostFilter x_Operation x_PermissionType).
(** the struct declaration read as a schema; version ranges as in Size *)
Definition DescribeAclsRequest_schema : fields :=
  FCons "ResourceType" Always TInt8
  (FCons "ResourceNameFilter" Always TString
  (FCons "ResourcePatternType" (From 1) TInt8
  (FCons "PrincipalFilter" Always TString
  (FCons "HostFilter" Always TString
  (FCons "Operation" Always TInt8
  (FCons "PermissionType" Always TInt8 FNil)))))).
Definition DescribeAclsRequest_to (t : DescribeAclsRequest) : dens DescribeAclsRequest_schema := (DescribeAclsRequest_ResourceType t, (DescribeAclsRequest_ResourceNameFilter t, (DescribeAclsRequest_ResourcePatternType t, (DescribeAclsRequest_PrincipalFilter t, (DescribeAclsRequest_HostFilter t, (DescribeAclsRequest_Operation t, (DescribeAclsRequest_PermissionType t, tt))))))).
Definition DescribeAclsRequest_of (x : dens DescribeAclsRequest_schema) : DescribeAclsRequest := mkDescribeAclsRequest (fst x) (fst (snd x)) (fst (snd (snd x))) (fst (snd (snd (snd x)))) (fst (snd (snd (snd (snd x))))) (fst (snd (snd (snd (snd (snd x)))))) (fst (snd (snd (snd (snd (snd (snd x))))))).
Definition DescribeAclsRequest_codec : codec := Codec DescribeAclsRequest DescribeAclsRequest_zero DescribeAclsRequest_Size DescribeAclsRequest_Encode DescribeAclsRequest_Decode DescribeAclsRequest_schema DescribeAclsRequest_to DescribeAclsRequest_of.
Lemma DescribeAclsRequest_linked : linked DescribeAclsRequest_codec.
Proof.
  apply Linked; cbn [DescribeAclsRequest_codec c_type c_zero c_size c_encode c_decode c_schema c_to c_of].
  - intros t. destruct t. cbv [DescribeAclsRequest_of DescribeAclsRequest_to]. cbn [fst snd DescribeAclsRequest_ResourceType DescribeAclsRequest_ResourceNameFilter DescribeAclsRequest_ResourcePatternType DescribeAclsRequest_PrincipalFilter DescribeAclsRequest_HostFilter DescribeAclsRequest_Operation DescribeAclsRequest_PermissionType].  reflexivity.
  - intros x. unfold DescribeAclsRequest_schema in x. cbn [dens den] in x. destruct x as [x0 x]. destruct x as [x1 x]. destruct x as [x2 x]. destruct x as [x3 x]. destruct x as [x4 x]. destruct x as [x5 x]. destruct x as [x6 x]. destruct x. cbv [DescribeAclsRequest_of DescribeAclsRequest_to]. cbn [fst snd DescribeAclsRequest_ResourceType DescribeAclsRequest_ResourceNameFilter DescribeAclsRequest_ResourcePatternType DescribeAclsRequest_PrincipalFilter DescribeAclsRequest_HostFilter DescribeAclsRequest_Operation DescribeAclsRequest_PermissionType].  reflexivity.
  - reflexivity.
  - intros v t. unfold DescribeAclsRequest_Size, DescribeAclsRequest_schema, DescribeAclsRequest_to. apply size_start.
    apply size_step; [intros sz; reflexivity|].
    apply size_step; [intros sz; reflexivity|].
    apply size_step; [intros sz; reflexivity|].
    apply size_step; [intros sz; reflexivity|].
    apply size_step; [intros sz; reflexivity|].
    apply size_step; [intros sz; reflexivity|].
    apply size_step; [intros sz; reflexivity|].
    intros sz; reflexivity.
  - intros v t. unfold DescribeAclsRequest_Encode, DescribeAclsRequest_schema, DescribeAclsRequest_to.
    apply enc_step; [intros e; reflexivity|].
    apply enc_step; [intros e; reflexivity|].
    apply enc_step; [intros e; reflexivity|].
    apply enc_step; [intros e; reflexivity|].
    apply enc_step; [intros e; reflexivity|].
    apply enc_step; [intros e; reflexivity|].
    apply enc_step; [intros e; reflexivity|].
    intros e; reflexivity.
  - intros v t. unfold DescribeAclsRequest_Decode, DescribeAclsRequest_schema, DescribeAclsRequest_to.
    dec_field (fun x : Z => x); [apply dmap_id|intros x_ResourceType].
    dec_field (fun x : gostring => x); [apply dmap_id|intros x_ResourceNameFilter].
    dec_field (fun x : Z => x); [apply dec_if_link; [apply dmap_id|reflexivity]|intros x_ResourcePatternType].
    dec_field (fun x : gostring => x); [apply dmap_id|intros x_PrincipalFilter].
    dec_field (fun x : gostring => x); [apply dmap_id|intros x_HostFilter].
    dec_field (fun x : Z => x); [apply dmap_id|intros x_Operation].
    dec_field (fun x : Z => x); [apply dmap_id|intros x_PermissionType].
    intros d; reflexivity.
Qed.
Local Opaque DescribeAclsRequest_Size DescribeAclsRequest_Encode DescribeAclsRequest_Decode.

(** ** AclDescription29 *)

(** message/messages.gen.go:7866-7871 *)
Record AclDescription29 : Type := mkAclDescription29 { AclDescription29_Principal : gostring; AclDescription29_Host : gostring; AclDescription29_Operation : Z; AclDescription29_PermissionType : Z }.
(** the zero value ([var item AclDescription29]) *)
Definition AclDescription29_zero : AclDescription29 := mkAclDescription29 [] [] 0 0.
(** message/messages.gen.go:7874-7881 *)
Definition AclDescription29_Size (version : Z) (t : AclDescription29) : Z :=
  ((size_add (sz_String (AclDescription29_Principal t))) +>
   (size_add (sz_String (AclDescription29_Host t))) +>
   (size_add sz_Int8) +>
   (size_add sz_Int8) +>
   size_done)%size 0.
(** message/messages.gen.go:7884-7889 *)
Definition AclDescription29_Encode (version : Z) (t : AclDescription29) : Encoder -> Encoder :=
  ((PutString (AclDescription29_Principal t)) >>
   (PutString (AclDescription29_Host t)) >>
   (PutInt8 (AclDescription29_Operation t)) >>
   (PutInt8 (AclDescription29_PermissionType t)) >>
   skip)%enc.
(** message/messages.gen.go:7892-7911 *)
Definition AclDescription29_Decode (version : Z) (t : AclDescription29) : Dec AclDescription29 :=
  x_Principal <- dString ;;
  x_Host <- dString ;;
  x_Operation <- dInt8 ;;
  x_PermissionType <- dInt8 ;;
  ret (mkAclDescription29 x_Principal x_Host x_Operation x_PermissionType).
(** the struct declaration read as a schema; version ranges as in Size *)
Definition AclDescription29_schema : fields :=
  FCons "Principal" Always TString
  (FCons "Host" Always TString
  (FCons "Operation" Always TInt8
  (FCons "PermissionType" Always TInt8 FNil))).
Definition AclDescription29_to (t : AclDescription29) : dens AclDescription29_schema := (AclDescription29_Principal t, (AclDescription29_Host t, (AclDescription29_Operation t, (AclDescription29_PermissionType t, tt)))).
Definition AclDescription29_of (x : dens AclDescription29_schema) : AclDescription29 := mkAclDescription29 (fst x) (fst (snd x)) (fst (snd (snd x))) (fst (snd (snd (snd x)))).
Definition AclDescription29_codec : codec := Codec AclDescription29 AclDescription29_zero AclDescription29_Size AclDescription29_Encode AclDescription29_Decode AclDescription29_schema AclDescription29_to AclDescription29_of.
Lemma AclDescription29_linked : linked AclDescription29_codec.
Proof.
  apply Linked; cbn [AclDescription29_codec c_type c_zero c_size c_encode c_decode c_schema c_to c_of].
  - intros t. destruct t. cbv [AclDescription29_of AclDescription29_to]. cbn [fst snd AclDescription29_Principal AclDescription29_Host AclDescription29_Operation AclDescription29_PermissionType].  reflexivity.
  - intros x. unfold AclDescription29_schema in x. cbn [dens den] in x. destruct x as [x0 x]. destruct x as [x1 x]. destruct x as [x2 x]. destruct x as [x3 x]. destruct x. cbv [AclDescription29_of AclDescription29_to]. cbn [fst snd AclDescription29_Principal AclDescription29_Host AclDescription29_Operation AclDescription29_PermissionType].  reflexivity.
  - reflexivity.
  - intros v t. unfold AclDescription29_Size, AclDescription29_schema, AclDescription29_to. apply size_start.
    apply size_step; [intros sz; reflexivity|].
    apply size_step; [intros sz; reflexivity|].
    apply size_step; [intros sz; reflexivity|].
    apply size_step; [intros sz; reflexivity|].
    intros sz; reflexivity.
  - intros v t. unfold AclDescription29_Encode, AclDescription29_schema, AclDescription29_to.
    apply enc_step; [intros e; reflexivity|].
    apply enc_step; [intros e; reflexivity|].
    apply enc_step; [intros e; reflexivity|].
    apply enc_step; [intros e; reflexivity|].
    intros e; reflexivity.
  - intros v t. unfold AclDescription29_Decode, AclDescription29_schema, AclDescription29_to.
    dec_field (fun x : gostring => x); [apply dmap_id|intros x_Principal].
    dec_field (fun x : gostring => x); [apply dmap_id|intros x_Host].
    dec_field (fun x : Z => x); [apply dmap_id|intros x_Operation].
    dec_field (fun x : Z => x); [apply dmap_id|intros x_PermissionType].
    intros d; reflexivity.
Qed.
Local Opaque AclDescription29_Size AclDescription29_Encode AclDescription29_Decode.

(** ** DescribeAclsResource29 *)

(** message/messages.gen.go:7796-7801 *)
Record DescribeAclsResource29 : Type := mkDescribeAclsResource29 { DescribeAclsResource29_Type : Z; DescribeAclsResource29_Name : gostring; DescribeAclsResource29_PatternType : Z; DescribeAclsResource29_Acls : gslice AclDescription29 }.
(** the zero value ([var item DescribeAclsResource29]) *)
Definition DescribeAclsResource29_zero : DescribeAclsResource29 := mkDescribeAclsResource29 0 [] 0 None.
(** message/messages.gen.go:7804-7816 *)
Definition DescribeAclsResource29_Size (version : Z) (t : DescribeAclsResource29) : Z :=
  ((size_add sz_Int8) +>
   (size_add (sz_String (DescribeAclsResource29_Name t))) +>
   size_if (1 <=? version) (size_add sz_Int8) +>
   (size_loop (AclDescription29_Size version) (DescribeAclsResource29_Acls t)) +>
   size_done)%size 0.
(** message/messages.gen.go:7819-7831 *)
Definition DescribeAclsResource29_Encode (version : Z) (t : DescribeAclsResource29) : Encoder -> Encoder :=
  ((PutInt8 (DescribeAclsResource29_Type t)) >>
   (PutString (DescribeAclsResource29_Name t)) >>
   put_if (1 <=? version) (PutInt8 (DescribeAclsResource29_PatternType t)) >>
   (put_array (AclDescription29_Encode version) (DescribeAclsResource29_Acls t)) >>
   skip)%enc.
(** message/messages.gen.go:7834-7864 *)
Definition DescribeAclsResource29_Decode (version : Z) (t : DescribeAclsResource29) : Dec DescribeAclsResource29 :=
  x_Type <- dInt8 ;;
  x_Name <- dString ;;
  x_PatternType <- dec_if (1 <=? version) dInt8 (DescribeAclsResource29_PatternType t) ;;
  x_Acls <- (dec_array (AclDescription29_Decode version AclDescription29_zero) (DescribeAclsResource29_Acls t)) ;;
  ret (mkDescribeAclsResource29 x_Type x_Name x_PatternType x_Acls).
(** the struct declaration read as a schema; version ranges as in Size *)
Definition DescribeAclsResource29_schema : fields :=
  FCons "Type" Always TInt8
  (FCons "Name" Always TString
  (FCons "PatternType" (From 1) TInt8
  (FCons "Acls" Always (TArray AclDescription29_schema) FNil))).
Definition DescribeAclsResource29_to (t : DescribeAclsResource29) : dens DescribeAclsResource29_schema := (DescribeAclsResource29_Type t, (DescribeAclsResource29_Name t, (DescribeAclsResource29_PatternType t, (option_map (map AclDescription29_to) (DescribeAclsResource29_Acls t), tt)))).
Definition DescribeAclsResource29_of (x : dens DescribeAclsResource29_schema) : DescribeAclsResource29 := mkDescribeAclsResource29 (fst x) (fst (snd x)) (fst (snd (snd x))) (option_map (map AclDescription29_of) (fst (snd (snd (snd x))))).
Definition DescribeAclsResource29_codec : codec := Codec DescribeAclsResource29 DescribeAclsResource29_zero DescribeAclsResource29_Size DescribeAclsResource29_Encode DescribeAclsResource29_Decode DescribeAclsResource29_schema DescribeAclsResource29_to DescribeAclsResource29_of.
Lemma DescribeAclsResource29_linked : linked DescribeAclsResource29_codec.
Proof.
  apply Linked; cbn [DescribeAclsResource29_codec c_type c_zero c_size c_encode c_decode c_schema c_to c_of].
  - intros t. destruct t. cbv [DescribeAclsResource29_of DescribeAclsResource29_to]. cbn [fst snd DescribeAclsResource29_Type DescribeAclsResource29_Name DescribeAclsResource29_PatternType DescribeAclsResource29_Acls]. rewrite ?(option_map_map_inv AclDescription29_to AclDescription29_of _ (l_of_to _ AclDescription29_linked)). reflexivity.
  - intros x. unfold DescribeAclsResource29_schema in x. cbn [dens den] in x. destruct x as [x0 x]. destruct x as [x1 x]. destruct x as [x2 x]. destruct x as [x3 x]. destruct x. cbv [DescribeAclsResource29_of DescribeAclsResource29_to]. cbn [fst snd DescribeAclsResource29_Type DescribeAclsResource29_Name DescribeAclsResource29_PatternType DescribeAclsResource29_Acls]. rewrite ?(option_map_map_inv AclDescription29_of AclDescription29_to _ (l_to_of _ AclDescription29_linked)). reflexivity.
  - reflexivity.
  - intros v t. unfold DescribeAclsResource29_Size, DescribeAclsResource29_schema, DescribeAclsResource29_to. apply size_start.
    apply size_step; [intros sz; reflexivity|].
    apply size_step; [intros sz; reflexivity|].
    apply size_step; [intros sz; reflexivity|].
    apply size_step; [intros sz; apply (size_field_link (AclDescription29_Size v) AclDescription29_schema AclDescription29_to v (l_size _ AclDescription29_linked v) true)|].
    intros sz; reflexivity.
  - intros v t. unfold DescribeAclsResource29_Encode, DescribeAclsResource29_schema, DescribeAclsResource29_to.
    apply enc_step; [intros e; reflexivity|].
    apply enc_step; [intros e; reflexivity|].
    apply enc_step; [intros e; reflexivity|].
    apply enc_step; [intros e; apply (put_field_link (AclDescription29_Encode v) AclDescription29_schema AclDescription29_to v (l_encode _ AclDescription29_linked v) true)|].
    intros e; reflexivity.
  - intros v t. unfold DescribeAclsResource29_Decode, DescribeAclsResource29_schema, DescribeAclsResource29_to.
    dec_field (fun x : Z => x); [apply dmap_id|intros x_Type].
    dec_field (fun x : gostring => x); [apply dmap_id|intros x_Name].
    dec_field (fun x : Z => x); [apply dec_if_link; [apply dmap_id|reflexivity]|intros x_PatternType].
    dec_field (option_map (map AclDescription29_of)); [apply (dec_array_link _ _ AclDescription29_of AclDescription29_to (l_decode _ AclDescription29_linked v AclDescription29_zero) (l_of_to _ AclDescription29_linked))|intros x_Acls].
    intros d; reflexivity.
Qed.
Local Opaque DescribeAclsResource29_Size DescribeAclsResource29_Encode DescribeAclsResource29_Decode.

(** ** DescribeAclsResponse *)

(** message/messages.gen.go:7732-7737 *)
Record DescribeAclsResponse : Type := mkDescribeAclsResponse { DescribeAclsResponse_ThrottleTimeMs : Z; DescribeAclsResponse_ErrorCode : Z; DescribeAclsResponse_ErrorMessage : gostring; DescribeAclsResponse_Resources : gslice DescribeAclsResource29 }.
(** the zero value ([var item DescribeAclsResponse]) *)
Definition DescribeAclsResponse_zero : DescribeAclsResponse := mkDescribeAclsResponse 0 0 [] None.
(** message/messages.gen.go:7740-7750 *)
Definition DescribeAclsResponse_Size (version : Z) (t : DescribeAclsResponse) : Z :=
  ((size_add sz_Int32) +>
   (size_add sz_Int16) +>
   (size_add (sz_String (DescribeAclsResponse_ErrorMessage t))) +>
   (size_loop (DescribeAclsResource29_Size version) (DescribeAclsResponse_Resources t)) +>
   size_done)%size 0.
(** message/messages.gen.go:7753-7763 *)
Definition DescribeAclsResponse_Encode (version : Z) (t : DescribeAclsResponse) : Encoder -> Encoder :=
  ((PutInt32 (DescribeAclsResponse_ThrottleTimeMs t)) >>
   (PutInt16 (DescribeAclsResponse_ErrorCode t)) >>
   (PutString (DescribeAclsResponse_ErrorMessage t)) >>
   (put_array (DescribeAclsResource29_Encode version) (DescribeAclsResponse_Resources t)) >>
   skip)%enc.
(** message/messages.gen.go:7766-7794 *)
Definition DescribeAclsResponse_Decode (version : Z) (t : DescribeAclsResponse) : Dec DescribeAclsResponse :=
  x_ThrottleTimeMs <- dInt32 ;;
  x_ErrorCode <- dInt16 ;;
  x_ErrorMessage <- dString ;;
  x_Resources <- (dec_array (DescribeAclsResource29_Decode version DescribeAclsResource29_zero) (DescribeAclsResponse_Resources t)) ;;
  ret (mkDescribeAclsResponse x_ThrottleTimeMs x_ErrorCode x_ErrorMessage x_Resources).
(** the struct declaration read as a schema; version ranges as in Size *)
Definition DescribeAclsResponse_schema : fields :=
  FCons "ThrottleTimeMs" Always TInt32
  (FCons "ErrorCode" Always TInt16
  (FCons "ErrorMessage" Always TString
  (FCons "Resources" Always (TArray DescribeAclsResource29_schema) FNil))).
Definition DescribeAclsResponse_to (t : DescribeAclsResponse) : dens DescribeAclsResponse_schema := (DescribeAclsResponse_ThrottleTimeMs t, (DescribeAclsResponse_ErrorCode t, (DescribeAclsResponse_ErrorMessage t, (option_map (map DescribeAclsResource29_to) (DescribeAclsResponse_Resources t), tt)))).
Definition DescribeAclsResponse_of (x : dens DescribeAclsResponse_schema) : DescribeAclsResponse := mkDescribeAclsResponse (fst x) (fst (snd x)) (fst (snd (snd x))) (option_map (map DescribeAclsResource29_of) (fst (snd (snd (snd x))))).
Definition DescribeAclsResponse_codec : codec := Codec DescribeAclsResponse DescribeAclsResponse_zero DescribeAclsResponse_Size DescribeAclsResponse_Encode DescribeAclsResponse_Decode DescribeAclsResponse_schema DescribeAclsResponse_to DescribeAclsResponse_of.
Lemma DescribeAclsResponse_linked : linked DescribeAclsResponse_codec.
Proof.
  apply Linked; cbn [DescribeAclsResponse_codec c_type c_zero c_size c_encode c_decode c_schema c_to c_of].
  - intros t. destruct t. cbv [DescribeAclsResponse_of DescribeAclsResponse_to]. cbn [fst snd DescribeAclsResponse_ThrottleTimeMs DescribeAclsResponse_ErrorCode DescribeAclsResponse_ErrorMessage DescribeAclsResponse_Resources]. rewrite ?(option_map_map_inv DescribeAclsResource29_to DescribeAclsResource29_of _ (l_of_to _ DescribeAclsResource29_linked)). reflexivity.
  - intros x. unfold DescribeAclsResponse_schema in x. cbn [dens den] in x. destruct x as [x0 x]. destruct x as [x1 x]. destruct x as [x2 x]. destruct x as [x3 x]. destruct x. cbv [DescribeAclsResponse_of DescribeAclsResponse_to]. cbn [fst snd DescribeAclsResponse_ThrottleTimeMs DescribeAclsResponse_ErrorCode DescribeAclsResponse_ErrorMessage DescribeAclsResponse_Resources]. rewrite ?(option_map_map_inv DescribeAclsResource29_of DescribeAclsResource29_to _ (l_to_of _ DescribeAclsResource29_linked)). reflexivity.
  - reflexivity.
  - intros v t. unfold DescribeAclsResponse_Size, DescribeAclsResponse_schema, DescribeAclsResponse_to. apply size_start.
    apply size_step; [intros sz; reflexivity|].
    apply size_step; [intros sz; reflexivity|].
    apply size_step; [intros sz; reflexivity|].
    apply size_step; [intros sz; apply (size_field_link (DescribeAclsResource29_Size v) DescribeAclsResource29_schema DescribeAclsResource29_to v (l_size _ DescribeAclsResource29_linked v) true)|].
    intros sz; reflexivity.
  - intros v t. unfold DescribeAclsResponse_Encode, DescribeAclsResponse_schema, DescribeAclsResponse_to.
    apply enc_step; [intros e; reflexivity|].
    apply enc_step; [intros e; reflexivity|].
    apply enc_step; [intros e; reflexivity|].
    apply enc_step; [intros e; apply (put_field_link (DescribeAclsResource29_Encode v) DescribeAclsResource29_schema DescribeAclsResource29_to v (l_encode _ DescribeAclsResource29_linked v) true)|].
    intros e; reflexivity.
  - intros v t. unfold DescribeAclsResponse_Decode, DescribeAclsResponse_schema, DescribeAclsResponse_to.
    dec_field (fun x : Z => x); [apply dmap_id|intros x_ThrottleTimeMs].
    dec_field (fun x : Z => x); [apply dmap_id|intros x_ErrorCode].
    dec_field (fun x : gostring => x); [apply dmap_id|intros x_ErrorMessage].
    dec_field (option_map (map DescribeAclsResource29_of)); [apply (dec_array_link _ _ DescribeAclsResource29_of DescribeAclsResource29_to (l_decode _ DescribeAclsResource29_linked v DescribeAclsResource29_zero) (l_of_to _ DescribeAclsResource29_linked))|intros x_Resources].
    intros d; reflexivity.
Qed.
Local Opaque DescribeAclsResponse_Size DescribeAclsResponse_Encode DescribeAclsResponse_Decode.

