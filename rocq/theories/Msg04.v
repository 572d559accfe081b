(** * Generated message types (part 4 of 10).

    Written by tools/gen_messages.py from message/messages.gen.go, one
    definition per Go method; do not edit.  A Decode method that fails leaves
    a partly filled receiver behind, which no caller looks at; the model drops
    it. *)
From Coq Require Import String.
From Verif Require Import GoBase Encoder Decoder Sizeof SchemaSpec Schema Link.
Open Scope Z_scope.

(** ** HeartbeatResponse *)

(** message/messages.gen.go:4335-4338 *)
Record HeartbeatResponse : Type := mkHeartbeatResponse { HeartbeatResponse_ThrottleTimeMs : Z; HeartbeatResponse_ErrorCode : Z }.
(** the zero value ([var item HeartbeatResponse]) *)
Definition HeartbeatResponse_zero : HeartbeatResponse := mkHeartbeatResponse 0 0.
(** message/messages.gen.go:4341-4348 *)
Definition HeartbeatResponse_Size (version : Z) (t : HeartbeatResponse) : Z :=
  (size_if (1 <=? version) (size_add sz_Int32) +>
   (size_add sz_Int16) +>
   size_done)%size 0.
(** message/messages.gen.go:4351-4356 *)
Definition HeartbeatResponse_Encode (version : Z) (t : HeartbeatResponse) : Encoder -> Encoder :=
  (put_if (1 <=? version) (PutInt32 (HeartbeatResponse_ThrottleTimeMs t)) >>
   (PutInt16 (HeartbeatResponse_ErrorCode t)) >>
   skip)%enc.
(** message/messages.gen.go:4359-4372 *)
Definition HeartbeatResponse_Decode (version : Z) (t : HeartbeatResponse) : Dec HeartbeatResponse :=
  x_ThrottleTimeMs <- dec_if (1 <=? version) dInt32 (HeartbeatResponse_ThrottleTimeMs t) ;;
  x_ErrorCode <- dInt16 ;;
  ret (mkHeartbeatResponse x_ThrottleTimeMs x_ErrorCode).
(** the struct declaration read as a schema; version ranges as in Size *)
Definition HeartbeatResponse_schema : fields :=
  FCons "ThrottleTimeMs" (From 1) TInt32
  (FCons "ErrorCode" Always TInt16 FNil).
Definition HeartbeatResponse_to (t : HeartbeatResponse) : dens HeartbeatResponse_schema := (HeartbeatResponse_ThrottleTimeMs t, (HeartbeatResponse_ErrorCode t, tt)).
Definition HeartbeatResponse_of (x : dens HeartbeatResponse_schema) : HeartbeatResponse := mkHeartbeatResponse (fst x) (fst (snd x)).
Definition HeartbeatResponse_codec : codec := Codec HeartbeatResponse HeartbeatResponse_zero HeartbeatResponse_Size HeartbeatResponse_Encode HeartbeatResponse_Decode HeartbeatResponse_schema HeartbeatResponse_to HeartbeatResponse_of.
Lemma HeartbeatResponse_linked : linked HeartbeatResponse_codec.
Proof.
  apply Linked; cbn [HeartbeatResponse_codec c_type c_zero c_size c_encode c_decode c_schema c_to c_of].
  - intros t. destruct t. cbv [HeartbeatResponse_of HeartbeatResponse_to]. cbn [fst snd HeartbeatResponse_ThrottleTimeMs HeartbeatResponse_ErrorCode].  reflexivity.
  - intros x. unfold HeartbeatResponse_schema in x. cbn [dens den] in x. destruct x as [x0 x]. destruct x as [x1 x]. destruct x. cbv [HeartbeatResponse_of HeartbeatResponse_to]. cbn [fst snd HeartbeatResponse_ThrottleTimeMs HeartbeatResponse_ErrorCode].  reflexivity.
  - reflexivity.
  - intros v t. unfold HeartbeatResponse_Size, HeartbeatResponse_schema, HeartbeatResponse_to. apply size_start.
    apply size_step; [intros sz; reflexivity|].
    apply size_step; [intros sz; reflexivity|].
    intros sz; reflexivity.
  - intros v t. unfold HeartbeatResponse_Encode, HeartbeatResponse_schema, HeartbeatResponse_to.
    apply enc_step; [intros e; reflexivity|].
    apply enc_step; [intros e; reflexivity|].
    intros e; reflexivity.
  - intros v t. unfold HeartbeatResponse_Decode, HeartbeatResponse_schema, HeartbeatResponse_to.
    dec_field (fun x : Z => x); [apply dec_if_link; [apply dmap_id|reflexivity]|intros x_ThrottleTimeMs].
    dec_field (fun x : Z => x); [apply dmap_id|intros x_ErrorCode].
    intros d; reflexivity.
Qed.
Local Opaque HeartbeatResponse_Size HeartbeatResponse_Encode HeartbeatResponse_Decode.

(** ** MemberIdentity13 *)

(** message/messages.gen.go:4444-4447 *)
Record MemberIdentity13 : Type := mkMemberIdentity13 { MemberIdentity13_MemberId : gostring; MemberIdentity13_GroupInstanceId : gostring }.
(** the zero value ([var item MemberIdentity13]) *)
Definition MemberIdentity13_zero : MemberIdentity13 := mkMemberIdentity13 [] [].
(** message/messages.gen.go:4450-4459 *)
Definition MemberIdentity13_Size (version : Z) (t : MemberIdentity13) : Z :=
  (size_if (3 <=? version) (size_add (sz_String (MemberIdentity13_MemberId t))) +>
   size_if (3 <=? version) (size_add (sz_String (MemberIdentity13_GroupInstanceId t))) +>
   size_done)%size 0.
(** message/messages.gen.go:4462-4469 *)
Definition MemberIdentity13_Encode (version : Z) (t : MemberIdentity13) : Encoder -> Encoder :=
  (put_if (3 <=? version) (PutString (MemberIdentity13_MemberId t)) >>
   put_if (3 <=? version) (PutString (MemberIdentity13_GroupInstanceId t)) >>
   skip)%enc.
(** message/messages.gen.go:4472-4487 *)
Definition MemberIdentity13_Decode (version : Z) (t : MemberIdentity13) : Dec MemberIdentity13 :=
  x_MemberId <- dec_if (3 <=? version) dString (MemberIdentity13_MemberId t) ;;
  x_GroupInstanceId <- dec_if (3 <=? version) dString (MemberIdentity13_GroupInstanceId t) ;;
  ret (mkMemberIdentity13 x_MemberId x_GroupInstanceId).
(** the struct declaration read as a schema; version ranges as in Size *)
Definition MemberIdentity13_schema : fields :=
  FCons "MemberId" (From 3) TString
  (FCons "GroupInstanceId" (From 3) TString FNil).
Definition MemberIdentity13_to (t : MemberIdentity13) : dens MemberIdentity13_schema := (MemberIdentity13_MemberId t, (MemberIdentity13_GroupInstanceId t, tt)).
Definition MemberIdentity13_of (x : dens MemberIdentity13_schema) : MemberIdentity13 := mkMemberIdentity13 (fst x) (fst (snd x)).
Definition MemberIdentity13_codec : codec := Codec MemberIdentity13 MemberIdentity13_zero MemberIdentity13_Size MemberIdentity13_Encode MemberIdentity13_Decode MemberIdentity13_schema MemberIdentity13_to MemberIdentity13_of.
Lemma MemberIdentity13_linked : linked MemberIdentity13_codec.
Proof.
  apply Linked; cbn [MemberIdentity13_codec c_type c_zero c_size c_encode c_decode c_schema c_to c_of].
  - intros t. destruct t. cbv [MemberIdentity13_of MemberIdentity13_to]. cbn [fst snd MemberIdentity13_MemberId MemberIdentity13_GroupInstanceId].  reflexivity.
  - intros x. unfold MemberIdentity13_schema in x. cbn [dens den] in x. destruct x as [x0 x]. destruct x as [x1 x]. destruct x. cbv [MemberIdentity13_of MemberIdentity13_to]. cbn [fst snd MemberIdentity13_MemberId MemberIdentity13_GroupInstanceId].  reflexivity.
  - reflexivity.
  - intros v t. unfold MemberIdentity13_Size, MemberIdentity13_schema, MemberIdentity13_to. apply size_start.
    apply size_step; [intros sz; reflexivity|].
    apply size_step; [intros sz; reflexivity|].
    intros sz; reflexivity.
  - intros v t. unfold MemberIdentity13_Encode, MemberIdentity13_schema, MemberIdentity13_to.
    apply enc_step; [intros e; reflexivity|].
    apply enc_step; [intros e; reflexivity|].
    intros e; reflexivity.
  - intros v t. unfold MemberIdentity13_Decode, MemberIdentity13_schema, MemberIdentity13_to.
    dec_field (fun x : gostring => x); [apply dec_if_link; [apply dmap_id|reflexivity]|intros x_MemberId].
    dec_field (fun x : gostring => x); [apply dec_if_link; [apply dmap_id|reflexivity]|intros x_GroupInstanceId].
    intros d; reflexivity.
Qed.
Local Opaque MemberIdentity13_Size MemberIdentity13_Encode MemberIdentity13_Decode.

(** ** LeaveGroupRequest *)

(** message/messages.gen.go:4375-4379 *)
Record LeaveGroupRequest : Type := mkLeaveGroupRequest { LeaveGroupRequest_GroupId : gostring; LeaveGroupRequest_MemberId : gostring; LeaveGroupRequest_Members : gslice MemberIdentity13 }.
(** the zero value ([var item LeaveGroupRequest]) *)
Definition LeaveGroupRequest_zero : LeaveGroupRequest := mkLeaveGroupRequest [] [] None.
(** message/messages.gen.go:4382-4395 *)
Definition LeaveGroupRequest_Size (version : Z) (t : LeaveGroupRequest) : Z :=
  ((size_add (sz_String (LeaveGroupRequest_GroupId t))) +>
   size_if ((0 <=? version) && (version <=? 2)) (size_add (sz_String (LeaveGroupRequest_MemberId t))) +>
   size_if (3 <=? version) (size_loop (MemberIdentity13_Size version) (LeaveGroupRequest_Members t)) +>
   size_done)%size 0.
(** message/messages.gen.go:4398-4411 *)
Definition LeaveGroupRequest_Encode (version : Z) (t : LeaveGroupRequest) : Encoder -> Encoder :=
  ((PutString (LeaveGroupRequest_GroupId t)) >>
   put_if ((0 <=? version) && (version <=? 2)) (PutString (LeaveGroupRequest_MemberId t)) >>
   put_if (3 <=? version) (put_array (MemberIdentity13_Encode version) (LeaveGroupRequest_Members t)) >>
   skip)%enc.
(** message/messages.gen.go:4414-4442 *)
Definition LeaveGroupRequest_Decode (version : Z) (t : LeaveGroupRequest) : Dec LeaveGroupRequest :=
  x_GroupId <- dString ;;
  x_MemberId <- dec_if ((0 <=? version) && (version <=? 2)) dString (LeaveGroupRequest_MemberId t) ;;
  x_Members <- dec_if (3 <=? version) (dec_array (MemberIdentity13_Decode version MemberIdentity13_zero) (LeaveGroupRequest_Members t)) (LeaveGroupRequest_Members t) ;;
  ret (mkLeaveGroupRequest x_GroupId x_MemberId x_Members).
(** the struct declaration read as a schema; version ranges as in Size *)
Definition LeaveGroupRequest_schema : fields :=
  FCons "GroupId" Always TString
  (FCons "MemberId" (Between 0 2) TString
  (FCons "Members" (From 3) (TArray MemberIdentity13_schema) FNil)).
Definition LeaveGroupRequest_to (t : LeaveGroupRequest) : dens LeaveGroupRequest_schema := (LeaveGroupRequest_GroupId t, (LeaveGroupRequest_MemberId t, (option_map (map MemberIdentity13_to) (LeaveGroupRequest_Members t), tt))).
Definition LeaveGroupRequest_of (x : dens LeaveGroupRequest_schema) : LeaveGroupRequest := mkLeaveGroupRequest (fst x) (fst (snd x)) (option_map (map MemberIdentity13_of) (fst (snd (snd x)))).
Definition LeaveGroupRequest_codec : codec := Codec LeaveGroupRequest LeaveGroupRequest_zero LeaveGroupRequest_Size LeaveGroupRequest_Encode LeaveGroupRequest_Decode LeaveGroupRequest_schema LeaveGroupRequest_to LeaveGroupRequest_of.
Lemma LeaveGroupRequest_linked : linked LeaveGroupRequest_codec.
Proof.
  apply Linked; cbn [LeaveGroupRequest_codec c_type c_zero c_size c_encode c_decode c_schema c_to c_of].
  - intros t. destruct t. cbv [LeaveGroupRequest_of LeaveGroupRequest_to]. cbn [fst snd LeaveGroupRequest_GroupId LeaveGroupRequest_MemberId LeaveGroupRequest_Members]. rewrite ?(option_map_map_inv MemberIdentity13_to MemberIdentity13_of _ (l_of_to _ MemberIdentity13_linked)). reflexivity.
  - intros x. unfold LeaveGroupRequest_schema in x. cbn [dens den] in x. destruct x as [x0 x]. destruct x as [x1 x]. destruct x as [x2 x]. destruct x. cbv [LeaveGroupRequest_of LeaveGroupRequest_to]. cbn [fst snd LeaveGroupRequest_GroupId LeaveGroupRequest_MemberId LeaveGroupRequest_Members]. rewrite ?(option_map_map_inv MemberIdentity13_of MemberIdentity13_to _ (l_to_of _ MemberIdentity13_linked)). reflexivity.
  - reflexivity.
  - intros v t. unfold LeaveGroupRequest_Size, LeaveGroupRequest_schema, LeaveGroupRequest_to. apply size_start.
    apply size_step; [intros sz; reflexivity|].
    apply size_step; [intros sz; reflexivity|].
    apply size_step; [intros sz; apply (size_field_link (MemberIdentity13_Size v) MemberIdentity13_schema MemberIdentity13_to v (l_size _ MemberIdentity13_linked v) _)|].
    intros sz; reflexivity.
  - intros v t. unfold LeaveGroupRequest_Encode, LeaveGroupRequest_schema, LeaveGroupRequest_to.
    apply enc_step; [intros e; reflexivity|].
    apply enc_step; [intros e; reflexivity|].
    apply enc_step; [intros e; apply (put_field_link (MemberIdentity13_Encode v) MemberIdentity13_schema MemberIdentity13_to v (l_encode _ MemberIdentity13_linked v) _)|].
    intros e; reflexivity.
  - intros v t. unfold LeaveGroupRequest_Decode, LeaveGroupRequest_schema, LeaveGroupRequest_to.
    dec_field (fun x : gostring => x); [apply dmap_id|intros x_GroupId].
    dec_field (fun x : gostring => x); [apply dec_if_link; [apply dmap_id|reflexivity]|intros x_MemberId].
    dec_field (option_map (map MemberIdentity13_of)); [apply dec_if_link; [apply (dec_array_link _ _ MemberIdentity13_of MemberIdentity13_to (l_decode _ MemberIdentity13_linked v MemberIdentity13_zero) (l_of_to _ MemberIdentity13_linked))|symmetry; apply (option_map_map_inv MemberIdentity13_to MemberIdentity13_of _ (l_of_to _ MemberIdentity13_linked))]|intros x_Members].
    intros d; reflexivity.
Qed.
Local Opaque LeaveGroupRequest_Size LeaveGroupRequest_Encode LeaveGroupRequest_Decode.

(** ** MemberResponse13 *)

(** message/messages.gen.go:4559-4563 *)
Record MemberResponse13 : Type := mkMemberResponse13 { MemberResponse13_MemberId : gostring; MemberResponse13_GroupInstanceId : gostring; MemberResponse13_ErrorCode : Z }.
(** the zero value ([var item MemberResponse13]) *)
Definition MemberResponse13_zero : MemberResponse13 := mkMemberResponse13 [] [] 0.
(** message/messages.gen.go:4566-4578 *)
Definition MemberResponse13_Size (version : Z) (t : MemberResponse13) : Z :=
  (size_if (3 <=? version) (size_add (sz_String (MemberResponse13_MemberId t))) +>
   size_if (3 <=? version) (size_add (sz_String (MemberResponse13_GroupInstanceId t))) +>
   size_if (3 <=? version) (size_add sz_Int16) +>
   size_done)%size 0.
(** message/messages.gen.go:4581-4591 *)
Definition MemberResponse13_Encode (version : Z) (t : MemberResponse13) : Encoder -> Encoder :=
  (put_if (3 <=? version) (PutString (MemberResponse13_MemberId t)) >>
   put_if (3 <=? version) (PutString (MemberResponse13_GroupInstanceId t)) >>
   put_if (3 <=? version) (PutInt16 (MemberResponse13_ErrorCode t)) >>
   skip)%enc.
(** message/messages.gen.go:4594-4615 *)
Definition MemberResponse13_Decode (version : Z) (t : MemberResponse13) : Dec MemberResponse13 :=
  x_MemberId <- dec_if (3 <=? version) dString (MemberResponse13_MemberId t) ;;
  x_GroupInstanceId <- dec_if (3 <=? version) dString (MemberResponse13_GroupInstanceId t) ;;
  x_ErrorCode <- dec_if (3 <=? version) dInt16 (MemberResponse13_ErrorCode t) ;;
  ret (mkMemberResponse13 x_MemberId x_GroupInstanceId x_ErrorCode).
(** the struct declaration read as a schema; version ranges as in Size *)
Definition MemberResponse13_schema : fields :=
  FCons "MemberId" (From 3) TString
  (FCons "GroupInstanceId" (From 3) TString
  (FCons "ErrorCode" (From 3) TInt16 FNil)).
Definition MemberResponse13_to (t : MemberResponse13) : dens MemberResponse13_schema := (MemberResponse13_MemberId t, (MemberResponse13_GroupInstanceId t, (MemberResponse13_ErrorCode t, tt))).
Definition MemberResponse13_of (x : dens MemberResponse13_schema) : MemberResponse13 := mkMemberResponse13 (fst x) (fst (snd x)) (fst (snd (snd x))).
Definition MemberResponse13_codec : codec := Codec MemberResponse13 MemberResponse13_zero MemberResponse13_Size MemberResponse13_Encode MemberResponse13_Decode MemberResponse13_schema MemberResponse13_to MemberResponse13_of.
Lemma MemberResponse13_linked : linked MemberResponse13_codec.
Proof.
  apply Linked; cbn [MemberResponse13_codec c_type c_zero c_size c_encode c_decode c_schema c_to c_of].
  - intros t. destruct t. cbv [MemberResponse13_of MemberResponse13_to]. cbn [fst snd MemberResponse13_MemberId MemberResponse13_GroupInstanceId MemberResponse13_ErrorCode].  reflexivity.
  - intros x. unfold MemberResponse13_schema in x. cbn [dens den] in x. destruct x as [x0 x]. destruct x as [x1 x]. destruct x as [x2 x]. destruct x. cbv [MemberResponse13_of MemberResponse13_to]. cbn [fst snd MemberResponse13_MemberId MemberResponse13_GroupInstanceId MemberResponse13_ErrorCode].  reflexivity.
  - reflexivity.
  - intros v t. unfold MemberResponse13_Size, MemberResponse13_schema, MemberResponse13_to. apply size_start.
    apply size_step; [intros sz; reflexivity|].
    apply size_step; [intros sz; reflexivity|].
    apply size_step; [intros sz; reflexivity|].
    intros sz; reflexivity.
  - intros v t. unfold MemberResponse13_Encode, MemberResponse13_schema, MemberResponse13_to.
    apply enc_step; [intros e; reflexivity|].
    apply enc_step; [intros e; reflexivity|].
    apply enc_step; [intros e; reflexivity|].
    intros e; reflexivity.
  - intros v t. unfold MemberResponse13_Decode, MemberResponse13_schema, MemberResponse13_to.
    dec_field (fun x : gostring => x); [apply dec_if_link; [apply dmap_id|reflexivity]|intros x_MemberId].
    dec_field (fun x : gostring => x); [apply dec_if_link; [apply dmap_id|reflexivity]|intros x_GroupInstanceId].
    dec_field (fun x : Z => x); [apply dec_if_link; [apply dmap_id|reflexivity]|intros x_ErrorCode].
    intros d; reflexivity.
Qed.
Local Opaque MemberResponse13_Size MemberResponse13_Encode MemberResponse13_Decode.

(** ** LeaveGroupResponse *)

(** message/messages.gen.go:4490-4494 *)
Record LeaveGroupResponse : Type := mkLeaveGroupResponse { LeaveGroupResponse_ThrottleTimeMs : Z; LeaveGroupResponse_ErrorCode : Z; LeaveGroupResponse_Members : gslice MemberResponse13 }.
(** the zero value ([var item LeaveGroupResponse]) *)
Definition LeaveGroupResponse_zero : LeaveGroupResponse := mkLeaveGroupResponse 0 0 None.
(** message/messages.gen.go:4497-4510 *)
Definition LeaveGroupResponse_Size (version : Z) (t : LeaveGroupResponse) : Z :=
  (size_if (1 <=? version) (size_add sz_Int32) +>
   (size_add sz_Int16) +>
   size_if (3 <=? version) (size_loop (MemberResponse13_Size version) (LeaveGroupResponse_Members t)) +>
   size_done)%size 0.
(** message/messages.gen.go:4513-4526 *)
Definition LeaveGroupResponse_Encode (version : Z) (t : LeaveGroupResponse) : Encoder -> Encoder :=
  (put_if (1 <=? version) (PutInt32 (LeaveGroupResponse_ThrottleTimeMs t)) >>
   (PutInt16 (LeaveGroupResponse_ErrorCode t)) >>
   put_if (3 <=? version) (put_array (MemberResponse13_Encode version) (LeaveGroupResponse_Members t)) >>
   skip)%enc.
(** message/messages.gen.go:4529-4557 *)
Definition LeaveGroupResponse_Decode (version : Z) (t : LeaveGroupResponse) : Dec LeaveGroupResponse :=
  x_ThrottleTimeMs <- dec_if (1 <=? version) dInt32 (LeaveGroupResponse_ThrottleTimeMs t) ;;
  x_ErrorCode <- dInt16 ;;
  x_Members <- dec_if (3 <=? version) (dec_array (MemberResponse13_Decode version MemberResponse13_zero) (LeaveGroupResponse_Members t)) (LeaveGroupResponse_Members t) ;;
  ret (mkLeaveGroupResponse x_ThrottleTimeMs x_ErrorCode x_Members).
(** the struct declaration read as a schema; version ranges as in Size *)
Definition LeaveGroupResponse_schema : fields :=
  FCons "ThrottleTimeMs" (From 1) TInt32
  (FCons "ErrorCode" Always TInt16
  (FCons "Members" (From 3) (TArray MemberResponse13_schema) FNil)).
Definition LeaveGroupResponse_to (t : LeaveGroupResponse) : dens LeaveGroupResponse_schema := (LeaveGroupResponse_ThrottleTimeMs t, (LeaveGroupResponse_ErrorCode t, (option_map (map MemberResponse13_to) (LeaveGroupResponse_Members t), tt))).
Definition LeaveGroupResponse_of (x : dens LeaveGroupResponse_schema) : LeaveGroupResponse := mkLeaveGroupResponse (fst x) (fst (snd x)) (option_map (map MemberResponse13_of) (fst (snd (snd x)))).
Definition LeaveGroupResponse_codec : codec := Codec LeaveGroupResponse LeaveGroupResponse_zero LeaveGroupResponse_Size LeaveGroupResponse_Encode LeaveGroupResponse_Decode LeaveGroupResponse_schema LeaveGroupResponse_to LeaveGroupResponse_of.
Lemma LeaveGroupResponse_linked : linked LeaveGroupResponse_codec.
Proof.
  apply Linked; cbn [LeaveGroupResponse_codec c_type c_zero c_size c_encode c_decode c_schema c_to c_of].
  - intros t. destruct t. cbv [LeaveGroupResponse_of LeaveGroupResponse_to]. cbn [fst snd LeaveGroupResponse_ThrottleTimeMs LeaveGroupResponse_ErrorCode LeaveGroupResponse_Members]. rewrite ?(option_map_map_inv MemberResponse13_to MemberResponse13_of _ (l_of_to _ MemberResponse13_linked)). reflexivity.
  - intros x. unfold LeaveGroupResponse_schema in x. cbn [dens den] in x. destruct x as [x0 x]. destruct x as [x1 x]. destruct x as [x2 x]. destruct x. cbv [LeaveGroupResponse_of LeaveGroupResponse_to]. cbn [fst snd LeaveGroupResponse_ThrottleTimeMs LeaveGroupResponse_ErrorCode LeaveGroupResponse_Members]. rewrite ?(option_map_map_inv MemberResponse13_of MemberResponse13_to _ (l_to_of _ MemberResponse13_linked)). reflexivity.
  - reflexivity.
  - intros v t. unfold LeaveGroupResponse_Size, LeaveGroupResponse_schema, LeaveGroupResponse_to. apply size_start.
    apply size_step; [intros sz; reflexivity|].
    apply size_step; [intros sz; reflexivity|].
    apply size_step; [intros sz; apply (size_field_link (MemberResponse13_Size v) MemberResponse13_schema MemberResponse13_to v (l_size _ MemberResponse13_linked v) _)|].
    intros sz; reflexivity.
  - intros v t. unfold LeaveGroupResponse_Encode, LeaveGroupResponse_schema, LeaveGroupResponse_to.
    apply enc_step; [intros e; reflexivity|].
    apply enc_step; [intros e; reflexivity|].
    apply enc_step; [intros e; apply (put_field_link (MemberResponse13_Encode v) MemberResponse13_schema MemberResponse13_to v (l_encode _ MemberResponse13_linked v) _)|].
    intros e; reflexivity.
  - intros v t. unfold LeaveGroupResponse_Decode, LeaveGroupResponse_schema, LeaveGroupResponse_to.
    dec_field (fun x : Z => x); [apply dec_if_link; [apply dmap_id|reflexivity]|intros x_ThrottleTimeMs].
    dec_field (fun x : Z => x); [apply dmap_id|intros x_ErrorCode].
    dec_field (option_map (map MemberResponse13_of)); [apply dec_if_link; [apply (dec_array_link _ _ MemberResponse13_of MemberResponse13_to (l_decode _ MemberResponse13_linked v MemberResponse13_zero) (l_of_to _ MemberResponse13_linked))|symmetry; apply (option_map_map_inv MemberResponse13_to MemberResponse13_of _ (l_of_to _ MemberResponse13_linked))]|intros x_Members].
    intros d; reflexivity.
Qed.
Local Opaque LeaveGroupResponse_Size LeaveGroupResponse_Encode LeaveGroupResponse_Decode.

(** ** SyncGroupRequestAssignment14 *)

(** message/messages.gen.go:4695-4698 *)
Record SyncGroupRequestAssignment14 : Type := mkSyncGroupRequestAssignment14 { SyncGroupRequestAssignment14_MemberId : gostring; SyncGroupRequestAssignment14_Assignment : gslice Z }.
(** the zero value ([var item SyncGroupRequestAssignment14]) *)
Definition SyncGroupRequestAssignment14_zero : SyncGroupRequestAssignment14 := mkSyncGroupRequestAssignment14 [] None.
(** message/messages.gen.go:4701-4706 *)
Definition SyncGroupRequestAssignment14_Size (version : Z) (t : SyncGroupRequestAssignment14) : Z :=
  ((size_add (sz_String (SyncGroupRequestAssignment14_MemberId t))) +>
   (size_add (sz_Bytes (SyncGroupRequestAssignment14_Assignment t))) +>
   size_done)%size 0.
(** message/messages.gen.go:4709-4712 *)
Definition SyncGroupRequestAssignment14_Encode (version : Z) (t : SyncGroupRequestAssignment14) : Encoder -> Encoder :=
  ((PutString (SyncGroupRequestAssignment14_MemberId t)) >>
   (PutBytes (SyncGroupRequestAssignment14_Assignment t)) >>
   skip)%enc.
(** message/messages.gen.go:4715-4726 *)
Definition SyncGroupRequestAssignment14_Decode (version : Z) (t : SyncGroupRequestAssignment14) : Dec SyncGroupRequestAssignment14 :=
  x_MemberId <- dString ;;
  x_Assignment <- dBytes ;;
  ret (mkSyncGroupRequestAssignment14 x_MemberId x_Assignment).
(** the struct declaration read as a schema; version ranges as in Size *)
Definition SyncGroupRequestAssignment14_schema : fields :=
  FCons "MemberId" Always TString
  (FCons "Assignment" Always TBytes FNil).
Definition SyncGroupRequestAssignment14_to (t : SyncGroupRequestAssignment14) : dens SyncGroupRequestAssignment14_schema := (SyncGroupRequestAssignment14_MemberId t, (SyncGroupRequestAssignment14_Assignment t, tt)).
Definition SyncGroupRequestAssignment14_of (x : dens SyncGroupRequestAssignment14_schema) : SyncGroupRequestAssignment14 := mkSyncGroupRequestAssignment14 (fst x) (fst (snd x)).
Definition SyncGroupRequestAssignment14_codec : codec := Codec SyncGroupRequestAssignment14 SyncGroupRequestAssignment14_zero SyncGroupRequestAssignment14_Size SyncGroupRequestAssignment14_Encode SyncGroupRequestAssignment14_Decode SyncGroupRequestAssignment14_schema SyncGroupRequestAssignment14_to SyncGroupRequestAssignment14_of.
Lemma SyncGroupRequestAssignment14_linked : linked SyncGroupRequestAssignment14_codec.
Proof.
  apply Linked; cbn [SyncGroupRequestAssignment14_codec c_type c_zero c_size c_encode c_decode c_schema c_to c_of].
  - intros t. destruct t. cbv [SyncGroupRequestAssignment14_of SyncGroupRequestAssignment14_to]. cbn [fst snd SyncGroupRequestAssignment14_MemberId SyncGroupRequestAssignment14_Assignment].  reflexivity.
  - intros x. unfold SyncGroupRequestAssignment14_schema in x. cbn [dens den] in x. destruct x as [x0 x]. destruct x as [x1 x]. destruct x. cbv [SyncGroupRequestAssignment14_of SyncGroupRequestAssignment14_to]. cbn [fst snd SyncGroupRequestAssignment14_MemberId SyncGroupRequestAssignment14_Assignment].  reflexivity.
  - reflexivity.
  - intros v t. unfold SyncGroupRequestAssignment14_Size, SyncGroupRequestAssignment14_schema, SyncGroupRequestAssignment14_to. apply size_start.
    apply size_step; [intros sz; reflexivity|].
    apply size_step; [intros sz; reflexivity|].
    intros sz; reflexivity.
  - intros v t. unfold SyncGroupRequestAssignment14_Encode, SyncGroupRequestAssignment14_schema, SyncGroupRequestAssignment14_to.
    apply enc_step; [intros e; reflexivity|].
    apply enc_step; [intros e; reflexivity|].
    intros e; reflexivity.
  - intros v t. unfold SyncGroupRequestAssignment14_Decode, SyncGroupRequestAssignment14_schema, SyncGroupRequestAssignment14_to.
    dec_field (fun x : gostring => x); [apply dmap_id|intros x_MemberId].
    dec_field (fun x : gslice Z => x); [apply dmap_id|intros x_Assignment].
    intros d; reflexivity.
Qed.
Local Opaque SyncGroupRequestAssignment14_Size SyncGroupRequestAssignment14_Encode SyncGroupRequestAssignment14_Decode.

(** ** SyncGroupRequest *)

(** message/messages.gen.go:4618-4624 *)
Record SyncGroupRequest : Type := mkSyncGroupRequest { SyncGroupRequest_GroupId : gostring; SyncGroupRequest_GenerationId : Z; SyncGroupRequest_MemberId : gostring; SyncGroupRequest_GroupInstanceId : gostring; SyncGroupRequest_Assignments : gslice SyncGroupRequestAssignment14 }.
(** the zero value ([var item SyncGroupRequest]) *)
Definition SyncGroupRequest_zero : SyncGroupRequest := mkSyncGroupRequest [] 0 [] [] None.
(** message/messages.gen.go:4627-4640 *)
Definition SyncGroupRequest_Size (version : Z) (t : SyncGroupRequest) : Z :=
  ((size_add (sz_String (SyncGroupRequest_GroupId t))) +>
   (size_add sz_Int32) +>
   (size_add (sz_String (SyncGroupRequest_MemberId t))) +>
   size_if (3 <=? version) (size_add (sz_String (SyncGroupRequest_GroupInstanceId t))) +>
   (size_loop (SyncGroupRequestAssignment14_Size version) (SyncGroupRequest_Assignments t)) +>
   size_done)%size 0.
(** message/messages.gen.go:4643-4656 *)
Definition SyncGroupRequest_Encode (version : Z) (t : SyncGroupRequest) : Encoder -> Encoder :=
  ((PutString (SyncGroupRequest_GroupId t)) >>
   (PutInt32 (SyncGroupRequest_GenerationId t)) >>
   (PutString (SyncGroupRequest_MemberId t)) >>
   put_if (3 <=? version) (PutString (SyncGroupRequest_GroupInstanceId t)) >>
   (put_array (SyncGroupRequestAssignment14_Encode version) (SyncGroupRequest_Assignments t)) >>
   skip)%enc.
(** message/messages.gen.go:4659-4693 *)
Definition SyncGroupRequest_Decode (version : Z) (t : SyncGroupRequest) : Dec SyncGroupRequest :=
  x_GroupId <- dString ;;
  x_GenerationId <- dInt32 ;;
  x_MemberId <- dString ;;
  x_GroupInstanceId <- dec_if (3 <=? version) dString (SyncGroupRequest_GroupInstanceId t) ;;
  x_Assignments <- (dec_array (SyncGroupRequestAssignment14_Decode version SyncGroupRequestAssignment14_zero) (SyncGroupRequest_Assignments t)) ;;
  ret (mkSyncGroupRequest x_GroupId x_GenerationId x_MemberId x_GroupInstanceId x_Assignments).
(** the struct declaration read as a schema; version ranges as in Size *)
Definition SyncGroupRequest_schema : fields :=
  FCons "GroupId" Always TString
  (FCons "GenerationId" Always TInt32
  (FCons "MemberId" Always TString
  (FCons "GroupInstanceId" (From 3) TString
  (FCons "Assignments" Always (TArray SyncGroupRequestAssignment14_schema) FNil)))).
Definition SyncGroupRequest_to (t : SyncGroupRequest) : dens SyncGroupRequest_schema := (SyncGroupRequest_GroupId t, (SyncGroupRequest_GenerationId t, (SyncGroupRequest_MemberId t, (SyncGroupRequest_GroupInstanceId t, (option_map (map SyncGroupRequestAssignment14_to) (SyncGroupRequest_Assignments t), tt))))).
Definition SyncGroupRequest_of (x : dens SyncGroupRequest_schema) : SyncGroupRequest := mkSyncGroupRequest (fst x) (fst (snd x)) (fst (snd (snd x))) (fst (snd (snd (snd x)))) (option_map (map SyncGroupRequestAssignment14_of) (fst (snd (snd (snd (snd x)))))).
Definition SyncGroupRequest_codec : codec := Codec SyncGroupRequest SyncGroupRequest_zero SyncGroupRequest_Size SyncGroupRequest_Encode SyncGroupRequest_Decode SyncGroupRequest_schema SyncGroupRequest_to SyncGroupRequest_of.
Lemma SyncGroupRequest_linked : linked SyncGroupRequest_codec.
Proof.
  apply Linked; cbn [SyncGroupRequest_codec c_type c_zero c_size c_encode c_decode c_schema c_to c_of].
  - intros t. destruct t. cbv [SyncGroupRequest_of SyncGroupRequest_to]. cbn [fst snd SyncGroupRequest_GroupId SyncGroupRequest_GenerationId SyncGroupRequest_MemberId SyncGroupRequest_GroupInstanceId SyncGroupRequest_Assignments]. rewrite ?(option_map_map_inv SyncGroupRequestAssignment14_to SyncGroupRequestAssignment14_of _ (l_of_to _ SyncGroupRequestAssignment14_linked)). reflexivity.
  - intros x. unfold SyncGroupRequest_schema in x. cbn [dens den] in x. destruct x as [x0 x]. destruct x as [x1 x]. destruct x as [x2 x]. destruct x as [x3 x]. destruct x as [x4 x]. destruct x. cbv [SyncGroupRequest_of SyncGroupRequest_to]. cbn [fst snd SyncGroupRequest_GroupId SyncGroupRequest_GenerationId SyncGroupRequest_MemberId SyncGroupRequest_GroupInstanceId SyncGroupRequest_Assignments]. rewrite ?(option_map_map_inv SyncGroupRequestAssignment14_of SyncGroupRequestAssignment14_to _ (l_to_of _ SyncGroupRequestAssignment14_linked)). reflexivity.
  - reflexivity.
  - intros v t. unfold SyncGroupRequest_Size, SyncGroupRequest_schema, SyncGroupRequest_to. apply size_start.
    apply size_step; [intros sz; reflexivity|].
    apply size_step; [intros sz; reflexivity|].
    apply size_step; [intros sz; reflexivity|].
    apply size_step; [intros sz; reflexivity|].
    apply size_step; [intros sz; apply (size_field_link (SyncGroupRequestAssignment14_Size v) SyncGroupRequestAssignment14_schema SyncGroupRequestAssignment14_to v (l_size _ SyncGroupRequestAssignment14_linked v) true)|].
    intros sz; reflexivity.
  - intros v t. unfold SyncGroupRequest_Encode, SyncGroupRequest_schema, SyncGroupRequest_to.
    apply enc_step; [intros e; reflexivity|].
    apply enc_step; [intros e; reflexivity|].
    apply enc_step; [intros e; reflexivity|].
    apply enc_step; [intros e; reflexivity|].
    apply enc_step; [intros e; apply (put_field_link (SyncGroupRequestAssignment14_Encode v) SyncGroupRequestAssignment14_schema SyncGroupRequestAssignment14_to v (l_encode _ SyncGroupRequestAssignment14_linked v) true)|].
    intros e; reflexivity.
  - intros v t. unfold SyncGroupRequest_Decode, SyncGroupRequest_schema, SyncGroupRequest_to.
    dec_field (fun x : gostring => x); [apply dmap_id|intros x_GroupId].
    dec_field (fun x : Z => x); [apply dmap_id|intros x_GenerationId].
    dec_field (fun x : gostring => x); [apply dmap_id|intros x_MemberId].
    dec_field (fun x : gostring => x); [apply dec_if_link; [apply dmap_id|reflexivity]|intros x_GroupInstanceId].
    dec_field (option_map (map SyncGroupRequestAssignment14_of)); [apply (dec_array_link _ _ SyncGroupRequestAssignment14_of SyncGroupRequestAssignment14_to (l_decode _ SyncGroupRequestAssignment14_linked v SyncGroupRequestAssignment14_zero) (l_of_to _ SyncGroupRequestAssignment14_linked))|intros x_Assignments].
    intros d; reflexivity.
Qed.
Local Opaque SyncGroupRequest_Size SyncGroupRequest_Encode SyncGroupRequest_Decode.

(** ** SyncGroupResponse *)

(** message/messages.gen.go:4729-4733 *)
Record SyncGroupResponse : Type := mkSyncGroupResponse { SyncGroupResponse_ThrottleTimeMs : Z; SyncGroupResponse_ErrorCode : Z; SyncGroupResponse_Assignment : gslice Z }.
(** the zero value ([var item SyncGroupResponse]) *)
Definition SyncGroupResponse_zero : SyncGroupResponse := mkSyncGroupResponse 0 0 None.
(** message/messages.gen.go:4736-4744 *)
Definition SyncGroupResponse_Size (version : Z) (t : SyncGroupResponse) : Z :=
  (size_if (1 <=? version) (size_add sz_Int32) +>
   (size_add sz_Int16) +>
   (size_add (sz_Bytes (SyncGroupResponse_Assignment t))) +>
   size_done)%size 0.
(** message/messages.gen.go:4747-4753 *)
Definition SyncGroupResponse_Encode (version : Z) (t : SyncGroupResponse) : Encoder -> Encoder :=
  (put_if (1 <=? version) (PutInt32 (SyncGroupResponse_ThrottleTimeMs t)) >>
   (PutInt16 (SyncGroupResponse_ErrorCode t)) >>
   (PutBytes (SyncGroupResponse_Assignment t)) >>
   skip)%enc.
(** message/messages.gen.go:4756-4773 *)
Definition SyncGroupResponse_Decode (version : Z) (t : SyncGroupResponse) : Dec SyncGroupResponse :=
  x_ThrottleTimeMs <- dec_if (1 <=? version) dInt32 (SyncGroupResponse_ThrottleTimeMs t) ;;
  x_ErrorCode <- dInt16 ;;
  x_Assignment <- dBytes ;;
  ret (mkSyncGroupResponse x_ThrottleTimeMs x_ErrorCode x_Assignment).
(** the struct declaration read as a schema; version ranges as in Size *)
Definition SyncGroupResponse_schema : fields :=
  FCons "ThrottleTimeMs" (From 1) TInt32
  (FCons "ErrorCode" Always TInt16
  (FCons "Assignment" Always TBytes FNil)).
Definition SyncGroupResponse_to (t : SyncGroupResponse) : dens SyncGroupResponse_schema := (SyncGroupResponse_ThrottleTimeMs t, (SyncGroupResponse_ErrorCode t, (SyncGroupResponse_Assignment t, tt))).
Definition SyncGroupResponse_of (x : dens SyncGroupResponse_schema) : SyncGroupResponse := mkSyncGroupResponse (fst x) (fst (snd x)) (fst (snd (snd x))).
Definition SyncGroupResponse_codec : codec := Codec SyncGroupResponse SyncGroupResponse_zero SyncGroupResponse_Size SyncGroupResponse_Encode SyncGroupResponse_Decode SyncGroupResponse_schema SyncGroupResponse_to SyncGroupResponse_of.
Lemma SyncGroupResponse_linked : linked SyncGroupResponse_codec.
Proof.
  apply Linked; cbn [SyncGroupResponse_codec c_type c_zero c_size c_encode c_decode c_schema c_to c_of].
  - intros t. destruct t. cbv [SyncGroupResponse_of SyncGroupResponse_to]. cbn [fst snd SyncGroupResponse_ThrottleTimeMs SyncGroupResponse_ErrorCode SyncGroupResponse_Assignment].  reflexivity.
  - intros x. unfold SyncGroupResponse_schema in x. cbn [dens den] in x. destruct x as [x0 x]. destruct x as [x1 x]. destruct x as [x2 x]. destruct x. cbv [SyncGroupResponse_of SyncGroupResponse_to]. cbn [fst snd SyncGroupResponse_ThrottleTimeMs SyncGroupResponse_ErrorCode SyncGroupResponse_Assignment].  reflexivity.
  - reflexivity.
  - intros v t. unfold SyncGroupResponse_Size, SyncGroupResponse_schema, SyncGroupResponse_to. apply size_start.
    apply size_step; [intros sz; reflexivity|].
    apply size_step; [intros sz; reflexivity|].
    apply size_step; [intros sz; reflexivity|].
    intros sz; reflexivity.
  - intros v t. unfold SyncGroupResponse_Encode, SyncGroupResponse_schema, SyncGroupResponse_to.
    apply enc_step; [intros e; reflexivity|].
    apply enc_step; [intros e; reflexivity|].
    apply enc_step; [intros e; reflexivity|].
    intros e; reflexivity.
  - intros v t. unfold SyncGroupResponse_Decode, SyncGroupResponse_schema, SyncGroupResponse_to.
    dec_field (fun x : Z => x); [apply dec_if_link; [apply dmap_id|reflexivity]|intros x_ThrottleTimeMs].
    dec_field (fun x : Z => x); [apply dmap_id|intros x_ErrorCode].
    dec_field (fun x : gslice Z => x); [apply dmap_id|intros x_Assignment].
    intros d; reflexivity.
Qed.
Local Opaque SyncGroupResponse_Size SyncGroupResponse_Encode SyncGroupResponse_Decode.

(** ** DescribeGroupsRequest *)

(** message/messages.gen.go:4776-4779 *)
Record DescribeGroupsRequest : Type := mkDescribeGroupsRequest { DescribeGroupsRequest_Groups : gslice gostring; DescribeGroupsRequest_IncludeAuthorizedOperations : bool }.
(** the zero value ([var item DescribeGroupsRequest]) *)
Definition DescribeGroupsRequest_zero : DescribeGroupsRequest := mkDescribeGroupsRequest None false.
(** message/messages.gen.go:4782-4789 *)
Definition DescribeGroupsRequest_Size (version : Z) (t : DescribeGroupsRequest) : Z :=
  ((size_add (sz_StringArray (DescribeGroupsRequest_Groups t))) +>
   size_if (3 <=? version) (size_add sz_Bool) +>
   size_done)%size 0.
(** message/messages.gen.go:4792-4797 *)
Definition DescribeGroupsRequest_Encode (version : Z) (t : DescribeGroupsRequest) : Encoder -> Encoder :=
  ((PutStringArray (DescribeGroupsRequest_Groups t)) >>
   put_if (3 <=? version) (PutBool (DescribeGroupsRequest_IncludeAuthorizedOperations t)) >>
   skip)%enc.
(** message/messages.gen.go:4800-4813 *)
Definition DescribeGroupsRequest_Decode (version : Z) (t : DescribeGroupsRequest) : Dec DescribeGroupsRequest :=
  x_Groups <- dStringArray ;;
  x_IncludeAuthorizedOperations <- dec_if (3 <=? version) dBool (DescribeGroupsRequest_IncludeAuthorizedOperations t) ;;
  ret (mkDescribeGroupsRequest x_Groups x_IncludeAuthorizedOperations).
(** the struct declaration read as a schema; version ranges as in Size *)
Definition DescribeGroupsRequest_schema : fields :=
  FCons "Groups" Always TStringArray
  (FCons "IncludeAuthorizedOperations" (From 3) TBool FNil).
Definition DescribeGroupsRequest_to (t : DescribeGroupsRequest) : dens DescribeGroupsRequest_schema := (DescribeGroupsRequest_Groups t, (DescribeGroupsRequest_IncludeAuthorizedOperations t, tt)).
Definition DescribeGroupsRequest_of (x : dens DescribeGroupsRequest_schema) : DescribeGroupsRequest := mkDescribeGroupsRequest (fst x) (fst (snd x)).
Definition DescribeGroupsRequest_codec : codec := Codec DescribeGroupsRequest DescribeGroupsRequest_zero DescribeGroupsRequest_Size DescribeGroupsRequest_Encode DescribeGroupsRequest_Decode DescribeGroupsRequest_schema DescribeGroupsRequest_to DescribeGroupsRequest_of.
Lemma DescribeGroupsRequest_linked : linked DescribeGroupsRequest_codec.
Proof.
  apply Linked; cbn [DescribeGroupsRequest_codec c_type c_zero c_size c_encode c_decode c_schema c_to c_of].
  - intros t. destruct t. cbv [DescribeGroupsRequest_of DescribeGroupsRequest_to]. cbn [fst snd DescribeGroupsRequest_Groups DescribeGroupsRequest_IncludeAuthorizedOperations].  reflexivity.
  - intros x. unfold DescribeGroupsRequest_schema in x. cbn [dens den] in x. destruct x as [x0 x]. destruct x as [x1 x]. destruct x. cbv [DescribeGroupsRequest_of DescribeGroupsRequest_to]. cbn [fst snd DescribeGroupsRequest_Groups DescribeGroupsRequest_IncludeAuthorizedOperations].  reflexivity.
  - reflexivity.
  - intros v t. unfold DescribeGroupsRequest_Size, DescribeGroupsRequest_schema, DescribeGroupsRequest_to. apply size_start.
    apply size_step; [intros sz; reflexivity|].
    apply size_step; [intros sz; reflexivity|].
    intros sz; reflexivity.
  - intros v t. unfold DescribeGroupsRequest_Encode, DescribeGroupsRequest_schema, DescribeGroupsRequest_to.
    apply enc_step; [intros e; reflexivity|].
    apply enc_step; [intros e; reflexivity|].
    intros e; reflexivity.
  - intros v t. unfold DescribeGroupsRequest_Decode, DescribeGroupsRequest_schema, DescribeGroupsRequest_to.
    dec_field (fun x : gslice gostring => x); [apply dmap_id|intros x_Groups].
    dec_field (fun x : bool => x); [apply dec_if_link; [apply dmap_id|reflexivity]|intros x_IncludeAuthorizedOperations].
    intros d; reflexivity.
Qed.
Local Opaque DescribeGroupsRequest_Size DescribeGroupsRequest_Encode DescribeGroupsRequest_Decode.

(** ** DescribedGroupMember15 *)

(** message/messages.gen.go:4963-4970 *)
Record DescribedGroupMember15 : Type := mkDescribedGroupMember15 { DescribedGroupMember15_MemberId : gostring; DescribedGroupMember15_GroupInstanceId : gostring; DescribedGroupMember15_ClientId : gostring; DescribedGroupMember15_ClientHost : gostring; DescribedGroupMember15_MemberMetadata : gslice Z; DescribedGroupMember15_MemberAssignment : gslice Z }.
(** the zero value ([var item DescribedGroupMember15]) *)
Definition DescribedGroupMember15_zero : DescribedGroupMember15 := mkDescribedGroupMember15 [] [] [] [] None None.
(** message/messages.gen.go:4973-4984 *)
Definition DescribedGroupMember15_Size (version : Z) (t : DescribedGroupMember15) : Z :=
  ((size_add (sz_String (DescribedGroupMember15_MemberId t))) +>
   size_if (4 <=? version) (size_add (sz_String (DescribedGroupMember15_GroupInstanceId t))) +>
   (size_add (sz_String (DescribedGroupMember15_ClientId t))) +>
   (size_add (sz_String (DescribedGroupMember15_ClientHost t))) +>
   (size_add (sz_Bytes (DescribedGroupMember15_MemberMetadata t))) +>
   (size_add (sz_Bytes (DescribedGroupMember15_MemberAssignment t))) +>
   size_done)%size 0.
(** message/messages.gen.go:4987-4996 *)
Definition DescribedGroupMember15_Encode (version : Z) (t : DescribedGroupMember15) : Encoder -> Encoder :=
  ((PutString (DescribedGroupMember15_MemberId t)) >>
   put_if (4 <=? version) (PutString (DescribedGroupMember15_GroupInstanceId t)) >>
   (PutString (DescribedGroupMember15_ClientId t)) >>
   (PutString (DescribedGroupMember15_ClientHost t)) >>
   (PutBytes (DescribedGroupMember15_MemberMetadata t)) >>
   (PutBytes (DescribedGroupMember15_MemberAssignment t)) >>
   skip)%enc.
(** message/messages.gen.go:4999-5028 *)
Definition DescribedGroupMember15_Decode (version : Z) (t : DescribedGroupMember15) : Dec DescribedGroupMember15 :=
  x_MemberId <- dString ;;
  x_GroupInstanceId <- dec_if (4 <=? version) dString (DescribedGroupMember15_GroupInstanceId t) ;;
  x_ClientId <- dString ;;
  x_ClientHost <- dString ;;
  x_MemberMetadata <- dBytes ;;
  x_MemberAssignment <- dBytes ;;
  ret (mkDescribedGroupMember15 x_MemberId x_GroupInstanceId x_ClientId x_ClientHost x_MemberMetadata x_MemberAssignment).
(** the struct declaration read as a schema; version ranges as in Size *)
Definition DescribedGroupMember15_schema : fields :=
  FCons "MemberId" Always TString
  (FCons "GroupInstanceId" (From 4) TString
  (FCons "ClientId" Always TString
  (FCons "ClientHost" Always TString
  (FCons "MemberMetadata" Always TBytes
  (FCons "MemberAssignment" Always TBytes FNil))))).
Definition DescribedGroupMember15_to (t : DescribedGroupMember15) : dens DescribedGroupMember15_schema := (DescribedGroupMember15_MemberId t, (DescribedGroupMember15_GroupInstanceId t, (DescribedGroupMember15_ClientId t, (DescribedGroupMember15_ClientHost t, (DescribedGroupMember15_MemberMetadata t, (DescribedGroupMember15_MemberAssignment t, tt)))))).
Definition DescribedGroupMember15_of (x : dens DescribedGroupMember15_schema) : DescribedGroupMember15 := mkDescribedGroupMember15 (fst x) (fst (snd x)) (fst (snd (snd x))) (fst (snd (snd (snd x)))) (fst (snd (snd (snd (snd x))))) (fst (snd (snd (snd (snd (snd x)))))).
Definition DescribedGroupMember15_codec : codec := Codec DescribedGroupMember15 DescribedGroupMember15_zero DescribedGroupMember15_Size DescribedGroupMember15_Encode DescribedGroupMember15_Decode DescribedGroupMember15_schema DescribedGroupMember15_to DescribedGroupMember15_of.
Lemma DescribedGroupMember15_linked : linked DescribedGroupMember15_codec.
Proof.
  apply Linked; cbn [DescribedGroupMember15_codec c_type c_zero c_size c_encode c_decode c_schema c_to c_of].
  - intros t. destruct t. cbv [DescribedGroupMember15_of DescribedGroupMember15_to]. cbn [fst snd DescribedGroupMember15_MemberId DescribedGroupMember15_GroupInstanceId DescribedGroupMember15_ClientId DescribedGroupMember15_ClientHost DescribedGroupMember15_MemberMetadata DescribedGroupMember15_MemberAssignment].  reflexivity.
  - intros x. unfold DescribedGroupMember15_schema in x. cbn [dens den] in x. destruct x as [x0 x]. destruct x as [x1 x]. destruct x as [x2 x]. destruct x as [x3 x]. destruct x as [x4 x]. destruct x as [x5 x]. destruct x. cbv [DescribedGroupMember15_of DescribedGroupMember15_to]. cbn [fst snd DescribedGroupMember15_MemberId DescribedGroupMember15_GroupInstanceId DescribedGroupMember15_ClientId DescribedGroupMember15_ClientHost DescribedGroupMember15_MemberMetadata DescribedGroupMember15_MemberAssignment].  reflexivity.
  - reflexivity.
  - intros v t. unfold DescribedGroupMember15_Size, DescribedGroupMember15_schema, DescribedGroupMember15_to. apply size_start.
    apply size_step; [intros sz; reflexivity|].
    apply size_step; [intros sz; reflexivity|].
    apply size_step; [intros sz; reflexivity|].
    apply size_step; [intros sz; reflexivity|].
    apply size_step; [intros sz; reflexivity|].
    apply size_step; [intros sz; reflexivity|].
    intros sz; reflexivity.
  - intros v t. unfold DescribedGroupMember15_Encode, DescribedGroupMember15_schema, DescribedGroupMember15_to.
    apply enc_step; [intros e; reflexivity|].
    apply enc_step; [intros e; reflexivity|].
    apply enc_step; [intros e; reflexivity|].
    apply enc_step; [intros e; reflexivity|].
    apply enc_step; [intros e; reflexivity|].
    apply enc_step; [intros e; reflexivity|].
    intros e; reflexivity.
  - intros v t. unfold DescribedGroupMember15_Decode, DescribedGroupMember15_schema, DescribedGroupMember15_to.
    dec_field (fun x : gostring => x); [apply dmap_id|intros x_MemberId].
    dec_field (fun x : gostring => x); [apply dec_if_link; [apply dmap_id|reflexivity]|intros x_GroupInstanceId].
    dec_field (fun x : gostring => x); [apply dmap_id|intros x_ClientId].
    dec_field (fun x : gostring => x); [apply dmap_id|intros x_ClientHost].
    dec_field (fun x : gslice Z => x); [apply dmap_id|intros x_MemberMetadata].
    dec_field (fun x : gslice Z => x); [apply dmap_id|intros x_MemberAssignment].
    intros d; reflexivity.
Qed.
Local Opaque DescribedGroupMember15_Size DescribedGroupMember15_Encode DescribedGroupMember15_Decode.

(** ** DescribedGroup15 *)

(** message/messages.gen.go:4872-4880 *)
Record DescribedGroup15 : Type := mkDescribedGroup15 { DescribedGroup15_ErrorCode : Z; DescribedGroup15_GroupId : gostring; DescribedGroup15_GroupState : gostring; DescribedGroup15_ProtocolType : gostring; DescribedGroup15_ProtocolData : gostring; DescribedGroup15_Members : gslice DescribedGroupMember15; DescribedGroup15_AuthorizedOperations : Z }.
(** the zero value ([var item DescribedGroup15]) *)
Definition DescribedGroup15_zero : DescribedGroup15 := mkDescribedGroup15 0 [] [] [] [] None 0.
(** message/messages.gen.go:4883-4898 *)
Definition DescribedGroup15_Size (version : Z) (t : DescribedGroup15) : Z :=
  ((size_add sz_Int16) +>
   (size_add (sz_String (DescribedGroup15_GroupId t))) +>
   (size_add (sz_String (DescribedGroup15_GroupState t))) +>
   (size_add (sz_String (DescribedGroup15_ProtocolType t))) +>
   (size_add (sz_String (DescribedGroup15_ProtocolData t))) +>
   (size_loop (DescribedGroupMember15_Size version) (DescribedGroup15_Members t)) +>
   size_if (3 <=? version) (size_add sz_Int32) +>
   size_done)%size 0.
(** message/messages.gen.go:4901-4916 *)
Definition DescribedGroup15_Encode (version : Z) (t : DescribedGroup15) : Encoder -> Encoder :=
  ((PutInt16 (DescribedGroup15_ErrorCode t)) >>
   (PutString (DescribedGroup15_GroupId t)) >>
   (PutString (DescribedGroup15_GroupState t)) >>
   (PutString (DescribedGroup15_ProtocolType t)) >>
   (PutString (DescribedGroup15_ProtocolData t)) >>
   (put_array (DescribedGroupMember15_Encode version) (DescribedGroup15_Members t)) >>
   put_if (3 <=? version) (PutInt32 (DescribedGroup15_AuthorizedOperations t)) >>
   skip)%enc.
(** message/messages.gen.go:4919-4961 *)
Definition DescribedGroup15_Decode (version : Z) (t : DescribedGroup15) : Dec DescribedGroup15 :=
  x_ErrorCode <- dInt16 ;;
  x_GroupId <- dString ;;
  x_GroupState <- dString ;;
  x_ProtocolType <- dString ;;
  x_ProtocolData <- dString ;;
  x_Members <- (dec_array (DescribedGroupMember15_Decode version DescribedGroupMember15_zero) (DescribedGroup15_Members t)) ;;
  x_AuthorizedOperations <- dec_if (3 <=? version) dInt32 (DescribedGroup15_AuthorizedOperations t) ;;
  ret (mkDescribedGroup15 x_ErrorCode x_GroupId x_GroupState x_ProtocolType x_ProtocolData x_Members x_AuthorizedOperations).
(** the struct declaration read as a schema; version ranges as in Size *)
Definition DescribedGroup15_schema : fields :=
  FCons "ErrorCode" Always TInt16
  (FCons "GroupId" Always TString
  (FCons "GroupState" Always TString
  (FCons "ProtocolType" Always TString
  (FCons "ProtocolData" Always TString
  (FCons "Members" Always (TArray DescribedGroupMember15_schema)
  (FCons "AuthorizedOperations" (From 3) TInt32 FNil)))))).
Definition DescribedGroup15_to (t : DescribedGroup15) : dens DescribedGroup15_schema := (DescribedGroup15_ErrorCode t, (DescribedGroup15_GroupId t, (DescribedGroup15_GroupState t, (DescribedGroup15_ProtocolType t, (DescribedGroup15_ProtocolData t, (option_map (map DescribedGroupMember15_to) (DescribedGroup15_Members t), (DescribedGroup15_AuthorizedOperations t, tt))))))).
Definition DescribedGroup15_of (x : dens DescribedGroup15_schema) : DescribedGroup15 := mkDescribedGroup15 (fst x) (fst (snd x)) (fst (snd (snd x))) (fst (snd (snd (snd x)))) (fst (snd (snd (snd (snd x))))) (option_map (map DescribedGroupMember15_of) (fst (snd (snd (snd (snd (snd x))))))) (fst (snd (snd (snd (snd (snd (snd x))))))).
Definition DescribedGroup15_codec : codec := Codec DescribedGroup15 DescribedGroup15_zero DescribedGroup15_Size DescribedGroup15_Encode DescribedGroup15_Decode DescribedGroup15_schema DescribedGroup15_to DescribedGroup15_of.
Lemma DescribedGroup15_linked : linked DescribedGroup15_codec.
Proof.
  apply Linked; cbn [DescribedGroup15_codec c_type c_zero c_size c_encode c_decode c_schema c_to c_of].
  - intros t. destruct t. cbv [DescribedGroup15_of DescribedGroup15_to]. cbn [fst snd DescribedGroup15_ErrorCode DescribedGroup15_GroupId DescribedGroup15_GroupState DescribedGroup15_ProtocolType DescribedGroup15_ProtocolData DescribedGroup15_Members DescribedGroup15_AuthorizedOperations]. rewrite ?(option_map_map_inv DescribedGroupMember15_to DescribedGroupMember15_of _ (l_of_to _ DescribedGroupMember15_linked)). reflexivity.
  - intros x. unfold DescribedGroup15_schema in x. cbn [dens den] in x. destruct x as [x0 x]. destruct x as [x1 x]. destruct x as [x2 x]. destruct x as [x3 x]. destruct x as [x4 x]. destruct x as [x5 x]. destruct x as [x6 x]. destruct x. cbv [DescribedGroup15_of DescribedGroup15_to]. cbn [fst snd DescribedGroup15_ErrorCode DescribedGroup15_GroupId DescribedGroup15_GroupState DescribedGroup15_ProtocolType DescribedGroup15_ProtocolData DescribedGroup15_Members DescribedGroup15_AuthorizedOperations]. rewrite ?(option_map_map_inv DescribedGroupMember15_of DescribedGroupMember15_to _ (l_to_of _ DescribedGroupMember15_linked)). reflexivity.
  - reflexivity.
  - intros v t. unfold DescribedGroup15_Size, DescribedGroup15_schema, DescribedGroup15_to. apply size_start.
    apply size_step; [intros sz; reflexivity|].
    apply size_step; [intros sz; reflexivity|].
    apply size_step; [intros sz; reflexivity|].
    apply size_step; [intros sz; reflexivity|].
    apply size_step; [intros sz; reflexivity|].
    apply size_step; [intros sz; apply (size_field_link (DescribedGroupMember15_Size v) DescribedGroupMember15_schema DescribedGroupMember15_to v (l_size _ DescribedGroupMember15_linked v) true)|].
    apply size_step; [intros sz; reflexivity|].
    intros sz; reflexivity.
  - intros v t. unfold DescribedGroup15_Encode, DescribedGroup15_schema, DescribedGroup15_to.
    apply enc_step; [intros e; reflexivity|].
    apply enc_step; [intros e; reflexivity|].
    apply enc_step; [intros e; reflexivity|].
    apply enc_step; [intros e; reflexivity|].
    apply enc_step; [intros e; reflexivity|].
    apply enc_step; [intros e; apply (put_field_link (DescribedGroupMember15_Encode v) DescribedGroupMember15_schema DescribedGroupMember15_to v (l_encode _ DescribedGroupMember15_linked v) true)|].
    apply enc_step; [intros e; reflexivity|].
    intros e; reflexivity.
  - intros v t. unfold DescribedGroup15_Decode, DescribedGroup15_schema, DescribedGroup15_to.
    dec_field (fun x : Z => x); [apply dmap_id|intros x_ErrorCode].
    dec_field (fun x : gostring => x); [apply dmap_id|intros x_GroupId].
    dec_field (fun x : gostring => x); [apply dmap_id|intros x_GroupState].
    dec_field (fun x : gostring => x); [apply dmap_id|intros x_ProtocolType].
    dec_field (fun x : gostring => x); [apply dmap_id|intros x_ProtocolData].
    dec_field (option_map (map DescribedGroupMember15_of)); [apply (dec_array_link _ _ DescribedGroupMember15_of DescribedGroupMember15_to (l_decode _ DescribedGroupMember15_linked v DescribedGroupMember15_zero) (l_of_to _ DescribedGroupMember15_linked))|intros x_Members].
    dec_field (fun x : Z => x); [apply dec_if_link; [apply dmap_id|reflexivity]|intros x_AuthorizedOperations].
    intros d; reflexivity.
Qed.
Local Opaque DescribedGroup15_Size DescribedGroup15_Encode DescribedGroup15_Decode.

(** ** DescribeGroupsResponse *)

(** message/messages.gen.go:4816-4819 *)
Record DescribeGroupsResponse : Type := mkDescribeGroupsResponse { DescribeGroupsResponse_ThrottleTimeMs : Z; DescribeGroupsResponse_Groups : gslice DescribedGroup15 }.
(** the zero value ([var item DescribeGroupsResponse]) *)
Definition DescribeGroupsResponse_zero : DescribeGroupsResponse := mkDescribeGroupsResponse 0 None.
(** message/messages.gen.go:4822-4832 *)
Definition DescribeGroupsResponse_Size (version : Z) (t : DescribeGroupsResponse) : Z :=
  (size_if (1 <=? version) (size_add sz_Int32) +>
   (size_loop (DescribedGroup15_Size version) (DescribeGroupsResponse_Groups t)) +>
   size_done)%size 0.
(** message/messages.gen.go:4835-4845 *)
Definition DescribeGroupsResponse_Encode (version : Z) (t : DescribeGroupsResponse) : Encoder -> Encoder :=
  (put_if (1 <=? version) (PutInt32 (DescribeGroupsResponse_ThrottleTimeMs t)) >>
   (put_array (DescribedGroup15_Encode version) (DescribeGroupsResponse_Groups t)) >>
   skip)%enc.
(** message/messages.gen.go:4848-4870 *)
Definition DescribeGroupsResponse_Decode (version : Z) (t : DescribeGroupsResponse) : Dec DescribeGroupsResponse :=
  x_ThrottleTimeMs <- dec_if (1 <=? version) dInt32 (DescribeGroupsResponse_ThrottleTimeMs t) ;;
  x_Groups <- (dec_array (DescribedGroup15_Decode version DescribedGroup15_zero) (DescribeGroupsResponse_Groups t)) ;;
  ret (mkDescribeGroupsResponse x_ThrottleTimeMs x_Groups).
(** the struct declaration read as a schema; version ranges as in Size *)
Definition DescribeGroupsResponse_schema : fields :=
  FCons "ThrottleTimeMs" (From 1) TInt32
  (FCons "Groups" Always (TArray DescribedGroup15_schema) FNil).
Definition DescribeGroupsResponse_to (t : DescribeGroupsResponse) : dens DescribeGroupsResponse_schema := (DescribeGroupsResponse_ThrottleTimeMs t, (option_map (map DescribedGroup15_to) (DescribeGroupsResponse_Groups t), tt)).
Definition DescribeGroupsResponse_of (x : dens DescribeGroupsResponse_schema) : DescribeGroupsResponse := mkDescribeGroupsResponse (fst x) (option_map (map DescribedGroup15_of) (fst (snd x))).
Definition DescribeGroupsResponse_codec : codec := Codec DescribeGroupsResponse DescribeGroupsResponse_zero DescribeGroupsResponse_Size DescribeGroupsResponse_Encode DescribeGroupsResponse_Decode DescribeGroupsResponse_schema DescribeGroupsResponse_to DescribeGroupsResponse_of.
Lemma DescribeGroupsResponse_linked : linked DescribeGroupsResponse_codec.
Proof.
  apply Linked; cbn [DescribeGroupsResponse_codec c_type c_zero c_size c_encode c_decode c_schema c_to c_of].
  - intros t. destruct t. cbv [DescribeGroupsResponse_of DescribeGroupsResponse_to]. cbn [fst snd DescribeGroupsResponse_ThrottleTimeMs DescribeGroupsResponse_Groups]. rewrite ?(option_map_map_inv DescribedGroup15_to DescribedGroup15_of _ (l_of_to _ DescribedGroup15_linked)). reflexivity.
  - intros x. unfold DescribeGroupsResponse_schema in x. cbn [dens den] in x. destruct x as [x0 x]. destruct x as [x1 x]. destruct x. cbv [DescribeGroupsResponse_of DescribeGroupsResponse_to]. cbn [fst snd DescribeGroupsResponse_ThrottleTimeMs DescribeGroupsResponse_Groups]. rewrite ?(option_map_map_inv DescribedGroup15_of DescribedGroup15_to _ (l_to_of _ DescribedGroup15_linked)). reflexivity.
  - reflexivity.
  - intros v t. unfold DescribeGroupsResponse_Size, DescribeGroupsResponse_schema, DescribeGroupsResponse_to. apply size_start.
    apply size_step; [intros sz; reflexivity|].
    apply size_step; [intros sz; apply (size_field_link (DescribedGroup15_Size v) DescribedGroup15_schema DescribedGroup15_to v (l_size _ DescribedGroup15_linked v) true)|].
    intros sz; reflexivity.
  - intros v t. unfold DescribeGroupsResponse_Encode, DescribeGroupsResponse_schema, DescribeGroupsResponse_to.
    apply enc_step; [intros e; reflexivity|].
    apply enc_step; [intros e; apply (put_field_link (DescribedGroup15_Encode v) DescribedGroup15_schema DescribedGroup15_to v (l_encode _ DescribedGroup15_linked v) true)|].
    intros e; reflexivity.
  - intros v t. unfold DescribeGroupsResponse_Decode, DescribeGroupsResponse_schema, DescribeGroupsResponse_to.
    dec_field (fun x : Z => x); [apply dec_if_link; [apply dmap_id|reflexivity]|intros x_ThrottleTimeMs].
    dec_field (option_map (map DescribedGroup15_of)); [apply (dec_array_link _ _ DescribedGroup15_of DescribedGroup15_to (l_decode _ DescribedGroup15_linked v DescribedGroup15_zero) (l_of_to _ DescribedGroup15_linked))|intros x_Groups].
    intros d; reflexivity.
Qed.
Local Opaque DescribeGroupsResponse_Size DescribeGroupsResponse_Encode DescribeGroupsResponse_Decode.

(** ** ListGroupsRequest *)

(** message/messages.gen.go:5031-5032 *)
Record ListGroupsRequest : Type := mkListGroupsRequest { }.
(** the zero value ([var item ListGroupsRequest]) *)
Definition ListGroupsRequest_zero : ListGroupsRequest := mkListGroupsRequest .
(** message/messages.gen.go:5035-5038 *)
Definition ListGroupsRequest_Size (version : Z) (t : ListGroupsRequest) : Z :=
  (size_done)%size 0.
(** message/messages.gen.go:5041-5042 *)
Definition ListGroupsRequest_Encode (version : Z) (t : ListGroupsRequest) : Encoder -> Encoder :=
  (skip)%enc.
(** message/messages.gen.go:5045-5048 *)
Definition ListGroupsRequest_Decode (version : Z) (t : ListGroupsRequest) : Dec ListGroupsRequest :=
  ret (mkListGroupsRequest ).
(** the struct declaration read as a schema; version ranges as in Size *)
Definition ListGroupsRequest_schema : fields :=
  FNil.
Definition ListGroupsRequest_to (t : ListGroupsRequest) : dens ListGroupsRequest_schema := tt.
Definition ListGroupsRequest_of (x : dens ListGroupsRequest_schema) : ListGroupsRequest := mkListGroupsRequest .
Definition ListGroupsRequest_codec : codec := Codec ListGroupsRequest ListGroupsRequest_zero ListGroupsRequest_Size ListGroupsRequest_Encode ListGroupsRequest_Decode ListGroupsRequest_schema ListGroupsRequest_to ListGroupsRequest_of.
Lemma ListGroupsRequest_linked : linked ListGroupsRequest_codec.
Proof.
  apply Linked; cbn [ListGroupsRequest_codec c_type c_zero c_size c_encode c_decode c_schema c_to c_of].
  - intros t. destruct t. reflexivity.
  - intros x. unfold ListGroupsRequest_schema in x. cbn [dens den] in x. destruct x. cbv [ListGroupsRequest_of ListGroupsRequest_to]. cbn [fst snd ].  reflexivity.
  - reflexivity.
  - intros v t. unfold ListGroupsRequest_Size, ListGroupsRequest_schema, ListGroupsRequest_to. apply size_start.
    intros sz; reflexivity.
  - intros v t. unfold ListGroupsRequest_Encode, ListGroupsRequest_schema, ListGroupsRequest_to.
    intros e; reflexivity.
  - intros v t. unfold ListGroupsRequest_Decode, ListGroupsRequest_schema, ListGroupsRequest_to.
    intros d; reflexivity.
Qed.
Local Opaque ListGroupsRequest_Size ListGroupsRequest_Encode ListGroupsRequest_Decode.

(** ** ListedGroup16 *)

(** message/messages.gen.go:5114-5117 *)
Record ListedGroup16 : Type := mkListedGroup16 { ListedGroup16_GroupId : gostring; ListedGroup16_ProtocolType : gostring }.
(** the zero value ([var item ListedGroup16]) *)
Definition ListedGroup16_zero : ListedGroup16 := mkListedGroup16 [] [].
(** message/messages.gen.go:5120-5125 *)
Definition ListedGroup16_Size (version : Z) (t : ListedGroup16) : Z :=
  ((size_add (sz_String (ListedGroup16_GroupId t))) +>
   (size_add (sz_String (ListedGroup16_ProtocolType t))) +>
   size_done)%size 0.
(** message/messages.gen.go:5128-5131 *)
Definition ListedGroup16_Encode (version : Z) (t : ListedGroup16) : Encoder -> Encoder :=
  ((PutString (ListedGroup16_GroupId t)) >>
   (PutString (ListedGroup16_ProtocolType t)) >>
   skip)%enc.
(** message/messages.gen.go:5134-5145 *)
Definition ListedGroup16_Decode (version : Z) (t : ListedGroup16) : Dec ListedGroup16 :=
  x_GroupId <- dString ;;
  x_ProtocolType <- dString ;;
  ret (mkListedGroup16 x_GroupId x_ProtocolType).
(** the struct declaration read as a schema; version ranges as in Size *)
Definition ListedGroup16_schema : fields :=
  FCons "GroupId" Always TString
  (FCons "ProtocolType" Always TString FNil).
Definition ListedGroup16_to (t : ListedGroup16) : dens ListedGroup16_schema := (ListedGroup16_GroupId t, (ListedGroup16_ProtocolType t, tt)).
Definition ListedGroup16_of (x : dens ListedGroup16_schema) : ListedGroup16 := mkListedGroup16 (fst x) (fst (snd x)).
Definition ListedGroup16_codec : codec := Codec ListedGroup16 ListedGroup16_zero ListedGroup16_Size ListedGroup16_Encode ListedGroup16_Decode ListedGroup16_schema ListedGroup16_to ListedGroup16_of.
Lemma ListedGroup16_linked : linked ListedGroup16_codec.
Proof.
  apply Linked; cbn [ListedGroup16_codec c_type c_zero c_size c_encode c_decode c_schema c_to c_of].
  - intros t. destruct t. cbv [ListedGroup16_of ListedGroup16_to]. cbn [fst snd ListedGroup16_GroupId ListedGroup16_ProtocolType].  reflexivity.
  - intros x. unfold ListedGroup16_schema in x. cbn [dens den] in x. destruct x as [x0 x]. destruct x as [x1 x]. destruct x. cbv [ListedGroup16_of ListedGroup16_to]. cbn [fst snd ListedGroup16_GroupId ListedGroup16_ProtocolType].  reflexivity.
  - reflexivity.
  - intros v t. unfold ListedGroup16_Size, ListedGroup16_schema, ListedGroup16_to. apply size_start.
    apply size_step; [intros sz; reflexivity|].
    apply size_step; [intros sz; reflexivity|].
    intros sz; reflexivity.
  - intros v t. unfold ListedGroup16_Encode, ListedGroup16_schema, ListedGroup16_to.
    apply enc_step; [intros e; reflexivity|].
    apply enc_step; [intros e; reflexivity|].
    intros e; reflexivity.
  - intros v t. unfold ListedGroup16_Decode, ListedGroup16_schema, ListedGroup16_to.
    dec_field (fun x : gostring => x); [apply dmap_id|intros x_GroupId].
    dec_field (fun x : gostring => x); [apply dmap_id|intros x_ProtocolType].
    intros d; reflexivity.
Qed.
Local Opaque ListedGroup16_Size ListedGroup16_Encode ListedGroup16_Decode.

(** ** ListGroupsResponse *)

(** message/messages.gen.go:5051-5055 *)
Record ListGroupsResponse : Type := mkListGroupsResponse { ListGroupsResponse_ThrottleTimeMs : Z; ListGroupsResponse_ErrorCode : Z; ListGroupsResponse_Groups : gslice ListedGroup16 }.
(** the zero value ([var item ListGroupsResponse]) *)
Definition ListGroupsResponse_zero : ListGroupsResponse := mkListGroupsResponse 0 0 None.
(** message/messages.gen.go:5058-5069 *)
Definition ListGroupsResponse_Size (version : Z) (t : ListGroupsResponse) : Z :=
  (size_if (1 <=? version) (size_add sz_Int32) +>
   (size_add sz_Int16) +>
   (size_loop (ListedGroup16_Size version) (ListGroupsResponse_Groups t)) +>
   size_done)%size 0.
(** message/messages.gen.go:5072-5083 *)
Definition ListGroupsResponse_Encode (version : Z) (t : ListGroupsResponse) : Encoder -> Encoder :=
  (put_if (1 <=? version) (PutInt32 (ListGroupsResponse_ThrottleTimeMs t)) >>
   (PutInt16 (ListGroupsResponse_ErrorCode t)) >>
   (put_array (ListedGroup16_Encode version) (ListGroupsResponse_Groups t)) >>
   skip)%enc.
(** message/messages.gen.go:5086-5112 *)
Definition ListGroupsResponse_Decode (version : Z) (t : ListGroupsResponse) : Dec ListGroupsResponse :=
  x_ThrottleTimeMs <- dec_if (1 <=? version) dInt32 (ListGroupsResponse_ThrottleTimeMs t) ;;
  x_ErrorCode <- dInt16 ;;
  x_Groups <- (dec_array (ListedGroup16_Decode version ListedGroup16_zero) (ListGroupsResponse_Groups t)) ;;
  ret (mkListGroupsResponse x_ThrottleTimeMs x_ErrorCode x_Groups).
(** the struct declaration read as a schema; version ranges as in Size *)
Definition ListGroupsResponse_schema : fields :=
  FCons "ThrottleTimeMs" (From 1) TInt32
  (FCons "ErrorCode" Always TInt16
  (FCons "Groups" Always (TArray ListedGroup16_schema) FNil)).
Definition ListGroupsResponse_to (t : ListGroupsResponse) : dens ListGroupsResponse_schema := (ListGroupsResponse_ThrottleTimeMs t, (ListGroupsResponse_ErrorCode t, (option_map (map ListedGroup16_to) (ListGroupsResponse_Groups t), tt))).
Definition ListGroupsResponse_of (x : dens ListGroupsResponse_schema) : ListGroupsResponse := mkListGroupsResponse (fst x) (fst (snd x)) (option_map (map ListedGroup16_of) (fst (snd (snd x)))).
Definition ListGroupsResponse_codec : codec := Codec ListGroupsResponse ListGroupsResponse_zero ListGroupsResponse_Size ListGroupsResponse_Encode ListGroupsResponse_Decode ListGroupsResponse_schema ListGroupsResponse_to ListGroupsResponse_of.
Lemma ListGroupsResponse_linked : linked ListGroupsResponse_codec.
Proof.
  apply Linked; cbn [ListGroupsResponse_codec c_type c_zero c_size c_encode c_decode c_schema c_to c_of].
  - intros t. destruct t. cbv [ListGroupsResponse_of ListGroupsResponse_to]. cbn [fst snd ListGroupsResponse_ThrottleTimeMs ListGroupsResponse_ErrorCode ListGroupsResponse_Groups]. rewrite ?(option_map_map_inv ListedGroup16_to ListedGroup16_of _ (l_of_to _ ListedGroup16_linked)). reflexivity.
  - intros x. unfold ListGroupsResponse_schema in x. cbn [dens den] in x. destruct x as [x0 x]. destruct x as [x1 x]. destruct x as [x2 x]. destruct x. cbv [ListGroupsResponse_of ListGroupsResponse_to]. cbn [fst snd ListGroupsResponse_ThrottleTimeMs ListGroupsResponse_ErrorCode ListGroupsResponse_Groups]. rewrite ?(option_map_map_inv ListedGroup16_of ListedGroup16_to _ (l_to_of _ ListedGroup16_linked)). reflexivity.
  - reflexivity.
  - intros v t. unfold ListGroupsResponse_Size, ListGroupsResponse_schema, ListGroupsResponse_to. apply size_start.
    apply size_step; [intros sz; reflexivity|].
    apply size_step; [intros sz; reflexivity|].
    apply size_step; [intros sz; apply (size_field_link (ListedGroup16_Size v) ListedGroup16_schema ListedGroup16_to v (l_size _ ListedGroup16_linked v) true)|].
    intros sz; reflexivity.
  - intros v t. unfold ListGroupsResponse_Encode, ListGroupsResponse_schema, ListGroupsResponse_to.
    apply enc_step; [intros e; reflexivity|].
    apply enc_step; [intros e; reflexivity|].
    apply enc_step; [intros e; apply (put_field_link (ListedGroup16_Encode v) ListedGroup16_schema ListedGroup16_to v (l_encode _ ListedGroup16_linked v) true)|].
    intros e; reflexivity.
  - intros v t. unfold ListGroupsResponse_Decode, ListGroupsResponse_schema, ListGroupsResponse_to.
    dec_field (fun x : Z => x); [apply dec_if_link; [apply dmap_id|reflexivity]|intros x_ThrottleTimeMs].
    dec_field (fun x : Z => x); [apply dmap_id|intros x_ErrorCode].
    dec_field (option_map (map ListedGroup16_of)); [apply (dec_array_link _ _ ListedGroup16_of ListedGroup16_to (l_decode _ ListedGroup16_linked v ListedGroup16_zero) (l_of_to _ ListedGroup16_linked))|intros x_Groups].
    intros d; reflexivity.
Qed.
Local Opaque ListGroupsResponse_Size ListGroupsResponse_Encode ListGroupsResponse_Decode.

(** ** SaslHandshakeRequest *)

(** message/messages.gen.go:5148-5150 *)
Record SaslHandshakeRequest : Type := mkSaslHandshakeRequest { SaslHandshakeRequest_Mechanism : gostring }.
(** the zero value ([var item SaslHandshakeRequest]) *)
Definition SaslHandshakeRequest_zero : SaslHandshakeRequest := mkSaslHandshakeRequest [].
(** message/messages.gen.go:5153-5157 *)
Definition SaslHandshakeRequest_Size (version : Z) (t : SaslHandshakeRequest) : Z :=
  ((size_add (sz_String (SaslHandshakeRequest_Mechanism t))) +>
   size_done)%size 0.
(** message/messages.gen.go:5160-5162 *)
Definition SaslHandshakeRequest_Encode (version : Z) (t : SaslHandshakeRequest) : Encoder -> Encoder :=
  ((PutString (SaslHandshakeRequest_Mechanism t)) >>
   skip)%enc.
(** message/messages.gen.go:5165-5172 *)
Definition SaslHandshakeRequest_Decode (version : Z) (t : SaslHandshakeRequest) : Dec SaslHandshakeRequest :=
  x_Mechanism <- dString ;;
  ret (mkSaslHandshakeRequest x_Mechanism).
(** the struct declaration read as a schema; version ranges as in Size *)
Definition SaslHandshakeRequest_schema : fields :=
  FCons "Mechanism" Always TString FNil.
Definition SaslHandshakeRequest_to (t : SaslHandshakeRequest) : dens SaslHandshakeRequest_schema := (SaslHandshakeRequest_Mechanism t, tt).
Definition SaslHandshakeRequest_of (x : dens SaslHandshakeRequest_schema) : SaslHandshakeRequest := mkSaslHandshakeRequest (fst x).
Definition SaslHandshakeRequest_codec : codec := Codec SaslHandshakeRequest SaslHandshakeRequest_zero SaslHandshakeRequest_Size SaslHandshakeRequest_Encode SaslHandshakeRequest_Decode SaslHandshakeRequest_schema SaslHandshakeRequest_to SaslHandshakeRequest_of.
Lemma SaslHandshakeRequest_linked : linked SaslHandshakeRequest_codec.
Proof.
  apply Linked; cbn [SaslHandshakeRequest_codec c_type c_zero c_size c_encode c_decode c_schema c_to c_of].
  - intros t. destruct t. cbv [SaslHandshakeRequest_of SaslHandshakeRequest_to]. cbn [fst snd SaslHandshakeRequest_Mechanism].  reflexivity.
  - intros x. unfold SaslHandshakeRequest_schema in x. cbn [dens den] in x. destruct x as [x0 x]. destruct x. cbv [SaslHandshakeRequest_of SaslHandshakeRequest_to]. cbn [fst snd SaslHandshakeRequest_Mechanism].  reflexivity.
  - reflexivity.
  - intros v t. unfold SaslHandshakeRequest_Size, SaslHandshakeRequest_schema, SaslHandshakeRequest_to. apply size_start.
    apply size_step; [intros sz; reflexivity|].
    intros sz; reflexivity.
  - intros v t. unfold SaslHandshakeRequest_Encode, SaslHandshakeRequest_schema, SaslHandshakeRequest_to.
    apply enc_step; [intros e; reflexivity|].
    intros e; reflexivity.
  - intros v t. unfold SaslHandshakeRequest_Decode, SaslHandshakeRequest_schema, SaslHandshakeRequest_to.
    dec_field (fun x : gostring => x); [apply dmap_id|intros x_Mechanism].
    intros d; reflexivity.
Qed.
Local Opaque SaslHandshakeRequest_Size SaslHandshakeRequest_Encode SaslHandshakeRequest_Decode.

(** ** SaslHandshakeResponse *)

(** message/messages.gen.go:5175-5178 *)
Record SaslHandshakeResponse : Type := mkSaslHandshakeResponse { SaslHandshakeResponse_ErrorCode : Z; SaslHandshakeResponse_Mechanisms : gslice gostring }.
(** the zero value ([var item SaslHandshakeResponse]) *)
Definition SaslHandshakeResponse_zero : SaslHandshakeResponse := mkSaslHandshakeResponse 0 None.
(** message/messages.gen.go:5181-5186 *)
Definition SaslHandshakeResponse_Size (version : Z) (t : SaslHandshakeResponse) : Z :=
  ((size_add sz_Int16) +>
   (size_add (sz_StringArray (SaslHandshakeResponse_Mechanisms t))) +>
   size_done)%size 0.
(** message/messages.gen.go:5189-5192 *)
Definition SaslHandshakeResponse_Encode (version : Z) (t : SaslHandshakeResponse) : Encoder -> Encoder :=
  ((PutInt16 (SaslHandshakeResponse_ErrorCode t)) >>
   (PutStringArray (SaslHandshakeResponse_Mechanisms t)) >>
   skip)%enc.
(** message/messages.gen.go:5195-5206 *)
Definition SaslHandshakeResponse_Decode (version : Z) (t : SaslHandshakeResponse) : Dec SaslHandshakeResponse :=
  x_ErrorCode <- dInt16 ;;
  x_Mechanisms <- dStringArray ;;
  ret (mkSaslHandshakeResponse x_ErrorCode x_Mechanisms).
(** the struct declaration read as a schema; version ranges as in Size *)
Definition SaslHandshakeResponse_schema : fields :=
  FCons "ErrorCode" Always TInt16
  (FCons "Mechanisms" Always TStringArray FNil).
Definition SaslHandshakeResponse_to (t : SaslHandshakeResponse) : dens SaslHandshakeResponse_schema := (SaslHandshakeResponse_ErrorCode t, (SaslHandshakeResponse_Mechanisms t, tt)).
Definition SaslHandshakeResponse_of (x : dens SaslHandshakeResponse_schema) : SaslHandshakeResponse := mkSaslHandshakeResponse (fst x) (fst (snd x)).
Definition SaslHandshakeResponse_codec : codec := Codec SaslHandshakeResponse SaslHandshakeResponse_zero SaslHandshakeResponse_Size SaslHandshakeResponse_Encode SaslHandshakeResponse_Decode SaslHandshakeResponse_schema SaslHandshakeResponse_to SaslHandshakeResponse_of.
Lemma SaslHandshakeResponse_linked : linked SaslHandshakeResponse_codec.
Proof.
  apply Linked; cbn [SaslHandshakeResponse_codec c_type c_zero c_size c_encode c_decode c_schema c_to c_of].
  - intros t. destruct t. cbv [SaslHandshakeResponse_of SaslHandshakeResponse_to]. cbn [fst snd SaslHandshakeResponse_ErrorCode SaslHandshakeResponse_Mechanisms].  reflexivity.
  - intros x. unfold SaslHandshakeResponse_schema in x. cbn [dens den] in x. destruct x as [x0 x]. destruct x as [x1 x]. destruct x. cbv [SaslHandshakeResponse_of SaslHandshakeResponse_to]. cbn [fst snd SaslHandshakeResponse_ErrorCode SaslHandshakeResponse_Mechanisms].  reflexivity.
  - reflexivity.
  - intros v t. unfold SaslHandshakeResponse_Size, SaslHandshakeResponse_schema, SaslHandshakeResponse_to. apply size_start.
    apply size_step; [intros sz; reflexivity|].
    apply size_step; [intros sz; reflexivity|].
    intros sz; reflexivity.
  - intros v t. unfold SaslHandshakeResponse_Encode, SaslHandshakeResponse_schema, SaslHandshakeResponse_to.
    apply enc_step; [intros e; reflexivity|].
    apply enc_step; [intros e; reflexivity|].
    intros e; reflexivity.
  - intros v t. unfold SaslHandshakeResponse_Decode, SaslHandshakeResponse_schema, SaslHandshakeResponse_to.
    dec_field (fun x : Z => x); [apply dmap_id|intros x_ErrorCode].
    dec_field (fun x : gslice gostring => x); [apply dmap_id|intros x_Mechanisms].
    intros d; reflexivity.
Qed.
Local Opaque SaslHandshakeResponse_Size SaslHandshakeResponse_Encode SaslHandshakeResponse_Decode.

(** ** ApiVersionsRequest *)

(** message/messages.gen.go:5209-5212 *)
Record ApiVersionsRequest : Type := mkApiVersionsRequest { ApiVersionsRequest_ClientSoftwareName : gostring; ApiVersionsRequest_ClientSoftwareVersion : gostring }.
(** the zero value ([var item ApiVersionsRequest]) *)
Definition ApiVersionsRequest_zero : ApiVersionsRequest := mkApiVersionsRequest [] [].
(** message/messages.gen.go:5215-5224 *)
Definition ApiVersionsRequest_Size (version : Z) (t : ApiVersionsRequest) : Z :=
  (size_if (3 <=? version) (size_add (sz_String (ApiVersionsRequest_ClientSoftwareName t))) +>
   size_if (3 <=? version) (size_add (sz_String (ApiVersionsRequest_ClientSoftwareVersion t))) +>
   size_done)%size 0.
(** message/messages.gen.go:5227-5234 *)
Definition ApiVersionsRequest_Encode (version : Z) (t : ApiVersionsRequest) : Encoder -> Encoder :=
  (put_if (3 <=? version) (PutString (ApiVersionsRequest_ClientSoftwareName t)) >>
   put_if (3 <=? version) (PutString (ApiVersionsRequest_ClientSoftwareVersion t)) >>
   skip)%enc.
(** message/messages.gen.go:5237-5252 *)
Definition ApiVersionsRequest_Decode (version : Z) (t : ApiVersionsRequest) : Dec ApiVersionsRequest :=
  x_ClientSoftwareName <- dec_if (3 <=? version) dString (ApiVersionsRequest_ClientSoftwareName t) ;;
  x_ClientSoftwareVersion <- dec_if (3 <=? version) dString (ApiVersionsRequest_ClientSoftwareVersion t) ;;
  ret (mkApiVersionsRequest x_ClientSoftwareName x_ClientSoftwareVersion).
(** the struct declaration read as a schema; version ranges as in Size *)
Definition ApiVersionsRequest_schema : fields :=
  FCons "ClientSoftwareName" (From 3) TString
  (FCons "ClientSoftwareVersion" (From 3) TString FNil).
Definition ApiVersionsRequest_to (t : ApiVersionsRequest) : dens ApiVersionsRequest_schema := (ApiVersionsRequest_ClientSoftwareName t, (ApiVersionsRequest_ClientSoftwareVersion t, tt)).
Definition ApiVersionsRequest_of (x : dens ApiVersionsRequest_schema) : ApiVersionsRequest := mkApiVersionsRequest (fst x) (fst (snd x)).
Definition ApiVersionsRequest_codec : codec := Codec ApiVersionsRequest ApiVersionsRequest_zero ApiVersionsRequest_Size ApiVersionsRequest_Encode ApiVersionsRequest_Decode ApiVersionsRequest_schema ApiVersionsRequest_to ApiVersionsRequest_of.
Lemma ApiVersionsRequest_linked : linked ApiVersionsRequest_codec.
Proof.
  apply Linked; cbn [ApiVersionsRequest_codec c_type c_zero c_size c_encode c_decode c_schema c_to c_of].
  - intros t. destruct t. cbv [ApiVersionsRequest_of ApiVersionsRequest_to]. cbn [fst snd ApiVersionsRequest_ClientSoftwareName ApiVersionsRequest_ClientSoftwareVersion].  reflexivity.
  - intros x. unfold ApiVersionsRequest_schema in x. cbn [dens den] in x. destruct x as [x0 x]. destruct x as [x1 x]. destruct x. cbv [ApiVersionsRequest_of ApiVersionsRequest_to]. cbn [fst snd ApiVersionsRequest_ClientSoftwareName ApiVersionsRequest_ClientSoftwareVersion].  reflexivity.
  - reflexivity.
  - intros v t. unfold ApiVersionsRequest_Size, ApiVersionsRequest_schema, ApiVersionsRequest_to. apply size_start.
    apply size_step; [intros sz; reflexivity|].
    apply size_step; [intros sz; reflexivity|].
    intros sz; reflexivity.
  - intros v t. unfold ApiVersionsRequest_Encode, ApiVersionsRequest_schema, ApiVersionsRequest_to.
    apply enc_step; [intros e; reflexivity|].
    apply enc_step; [intros e; reflexivity|].
    intros e; reflexivity.
  - intros v t. unfold ApiVersionsRequest_Decode, ApiVersionsRequest_schema, ApiVersionsRequest_to.
    dec_field (fun x : gostring => x); [apply dec_if_link; [apply dmap_id|reflexivity]|intros x_ClientSoftwareName].
    dec_field (fun x : gostring => x); [apply dec_if_link; [apply dmap_id|reflexivity]|intros x_ClientSoftwareVersion].
    intros d; reflexivity.
Qed.
Local Opaque ApiVersionsRequest_Size ApiVersionsRequest_Encode ApiVersionsRequest_Decode.

(** ** ApiVersionsResponseKey18 *)

(** message/messages.gen.go:5318-5322 *)
Record ApiVersionsResponseKey18 : Type := mkApiVersionsResponseKey18 { ApiVersionsResponseKey18_ApiKey : Z; ApiVersionsResponseKey18_MinVersion : Z; ApiVersionsResponseKey18_MaxVersion : Z }.
(** the zero value ([var item ApiVersionsResponseKey18]) *)
Definition ApiVersionsResponseKey18_zero : ApiVersionsResponseKey18 := mkApiVersionsResponseKey18 0 0 0.
(** message/messages.gen.go:5325-5331 *)
Definition ApiVersionsResponseKey18_Size (version : Z) (t : ApiVersionsResponseKey18) : Z :=
  ((size_add sz_Int16) +>
   (size_add sz_Int16) +>
   (size_add sz_Int16) +>
   size_done)%size 0.
(** message/messages.gen.go:5334-5338 *)
Definition ApiVersionsResponseKey18_Encode (version : Z) (t : ApiVersionsResponseKey18) : Encoder -> Encoder :=
  ((PutInt16 (ApiVersionsResponseKey18_ApiKey t)) >>
   (PutInt16 (ApiVersionsResponseKey18_MinVersion t)) >>
   (PutInt16 (ApiVersionsResponseKey18_MaxVersion t)) >>
   skip)%enc.
(** message/messages.gen.go:5341-5356 *)
Definition ApiVersionsResponseKey18_Decode (version : Z) (t : ApiVersionsResponseKey18) : Dec ApiVersionsResponseKey18 :=
  x_ApiKey <- dInt16 ;;
  x_MinVersion <- dInt16 ;;
  x_MaxVersion <- dInt16 ;;
  ret (mkApiVersionsResponseKey18 x_ApiKey x_MinVersion x_MaxVersion).
(** the struct declaration read as a schema; version ranges as in Size *)
Definition ApiVersionsResponseKey18_schema : fields :=
  FCons "ApiKey" Always TInt16
  (FCons "MinVersion" Always TInt16
  (FCons "MaxVersion" Always TInt16 FNil)).
Definition ApiVersionsResponseKey18_to (t : ApiVersionsResponseKey18) : dens ApiVersionsResponseKey18_schema := (ApiVersionsResponseKey18_ApiKey t, (ApiVersionsResponseKey18_MinVersion t, (ApiVersionsResponseKey18_MaxVersion t, tt))).
Definition ApiVersionsResponseKey18_of (x : dens ApiVersionsResponseKey18_schema) : ApiVersionsResponseKey18 := mkApiVersionsResponseKey18 (fst x) (fst (snd x)) (fst (snd (snd x))).
Definition ApiVersionsResponseKey18_codec : codec := Codec ApiVersionsResponseKey18 ApiVersionsResponseKey18_zero ApiVersionsResponseKey18_Size ApiVersionsResponseKey18_Encode ApiVersionsResponseKey18_Decode ApiVersionsResponseKey18_schema ApiVersionsResponseKey18_to ApiVersionsResponseKey18_of.
Lemma ApiVersionsResponseKey18_linked : linked ApiVersionsResponseKey18_codec.
Proof.
  apply Linked; cbn [ApiVersionsResponseKey18_codec c_type c_zero c_size c_encode c_decode c_schema c_to c_of].
  - intros t. destruct t. cbv [ApiVersionsResponseKey18_of ApiVersionsResponseKey18_to]. cbn [fst snd ApiVersionsResponseKey18_ApiKey ApiVersionsResponseKey18_MinVersion ApiVersionsResponseKey18_MaxVersion].  reflexivity.
  - intros x. unfold ApiVersionsResponseKey18_schema in x. cbn [dens den] in x. destruct x as [x0 x]. destruct x as [x1 x]. destruct x as [x2 x]. destruct x. cbv [ApiVersionsResponseKey18_of ApiVersionsResponseKey18_to]. cbn [fst snd ApiVersionsResponseKey18_ApiKey ApiVersionsResponseKey18_MinVersion ApiVersionsResponseKey18_MaxVersion].  reflexivity.
  - reflexivity.
  - intros v t. unfold ApiVersionsResponseKey18_Size, ApiVersionsResponseKey18_schema, ApiVersionsResponseKey18_to. apply size_start.
    apply size_step; [intros sz; reflexivity|].
    apply size_step; [intros sz; reflexivity|].
    apply size_step; [intros sz; reflexivity|].
    intros sz; reflexivity.
  - intros v t. unfold ApiVersionsResponseKey18_Encode, ApiVersionsResponseKey18_schema, ApiVersionsResponseKey18_to.
    apply enc_step; [intros e; reflexivity|].
    apply enc_step; [intros e; reflexivity|].
    apply enc_step; [intros e; reflexivity|].
    intros e; reflexivity.
  - intros v t. unfold ApiVersionsResponseKey18_Decode, ApiVersionsResponseKey18_schema, ApiVersionsResponseKey18_to.
    dec_field (fun x : Z => x); [apply dmap_id|intros x_ApiKey].
    dec_field (fun x : Z => x); [apply dmap_id|intros x_MinVersion].
    dec_field (fun x : Z => x); [apply dmap_id|intros x_MaxVersion].
    intros d; reflexivity.
Qed.
Local Opaque ApiVersionsResponseKey18_Size ApiVersionsResponseKey18_Encode ApiVersionsResponseKey18_Decode.

(** ** ApiVersionsResponse *)

(** message/messages.gen.go:5255-5259 *)
Record ApiVersionsResponse : Type := mkApiVersionsResponse { ApiVersionsResponse_ErrorCode : Z; ApiVersionsResponse_ApiKeys : gslice ApiVersionsResponseKey18; ApiVersionsResponse_ThrottleTimeMs : Z }.
(** the zero value ([var item ApiVersionsResponse]) *)
Definition ApiVersionsResponse_zero : ApiVersionsResponse := mkApiVersionsResponse 0 None 0.
(** message/messages.gen.go:5262-5273 *)
Definition ApiVersionsResponse_Size (version : Z) (t : ApiVersionsResponse) : Z :=
  ((size_add sz_Int16) +>
   (size_loop (ApiVersionsResponseKey18_Size version) (ApiVersionsResponse_ApiKeys t)) +>
   size_if (1 <=? version) (size_add sz_Int32) +>
   size_done)%size 0.
(** message/messages.gen.go:5276-5287 *)
Definition ApiVersionsResponse_Encode (version : Z) (t : ApiVersionsResponse) : Encoder -> Encoder :=
  ((PutInt16 (ApiVersionsResponse_ErrorCode t)) >>
   (put_array (ApiVersionsResponseKey18_Encode version) (ApiVersionsResponse_ApiKeys t)) >>
   put_if (1 <=? version) (PutInt32 (ApiVersionsResponse_ThrottleTimeMs t)) >>
   skip)%enc.
(** message/messages.gen.go:5290-5316 *)
Definition ApiVersionsResponse_Decode (version : Z) (t : ApiVersionsResponse) : Dec ApiVersionsResponse :=
  x_ErrorCode <- dInt16 ;;
  x_ApiKeys <- (dec_array (ApiVersionsResponseKey18_Decode version ApiVersionsResponseKey18_zero) (ApiVersionsResponse_ApiKeys t)) ;;
  x_ThrottleTimeMs <- dec_if (1 <=? version) dInt32 (ApiVersionsResponse_ThrottleTimeMs t) ;;
  ret (mkApiVersionsResponse x_ErrorCode x_ApiKeys x_ThrottleTimeMs).
(** the struct declaration read as a schema; version ranges as in Size *)
Definition ApiVersionsResponse_schema : fields :=
  FCons "ErrorCode" Always TInt16
  (FCons "ApiKeys" Always (TArray ApiVersionsResponseKey18_schema)
  (FCons "ThrottleTimeMs" (From 1) TInt32 FNil)).
Definition ApiVersionsResponse_to (t : ApiVersionsResponse) : dens ApiVersionsResponse_schema := (ApiVersionsResponse_ErrorCode t, (option_map (map ApiVersionsResponseKey18_to) (ApiVersionsResponse_ApiKeys t), (ApiVersionsResponse_ThrottleTimeMs t, tt))).
Definition ApiVersionsResponse_of (x : dens ApiVersionsResponse_schema) : ApiVersionsResponse := mkApiVersionsResponse (fst x) (option_map (map ApiVersionsResponseKey18_of) (fst (snd x))) (fst (snd (snd x))).
Definition ApiVersionsResponse_codec : codec := Codec ApiVersionsResponse ApiVersionsResponse_zero ApiVersionsResponse_Size ApiVersionsResponse_Encode ApiVersionsResponse_Decode ApiVersionsResponse_schema ApiVersionsResponse_to ApiVersionsResponse_of.
Lemma ApiVersionsResponse_linked : linked ApiVersionsResponse_codec.
Proof.
  apply Linked; cbn [ApiVersionsResponse_codec c_type c_zero c_size c_encode c_decode c_schema c_to c_of].
  - intros t. destruct t. cbv [ApiVersionsResponse_of ApiVersionsResponse_to]. cbn [fst snd ApiVersionsResponse_ErrorCode ApiVersionsResponse_ApiKeys ApiVersionsResponse_ThrottleTimeMs]. rewrite ?(option_map_map_inv ApiVersionsResponseKey18_to ApiVersionsResponseKey18_of _ (l_of_to _ ApiVersionsResponseKey18_linked)). reflexivity.
  - intros x. unfold ApiVersionsResponse_schema in x. cbn [dens den] in x. destruct x as [x0 x]. destruct x as [x1 x]. destruct x as [x2 x]. destruct x. cbv [ApiVersionsResponse_of ApiVersionsResponse_to]. cbn [fst snd ApiVersionsResponse_ErrorCode ApiVersionsResponse_ApiKeys ApiVersionsResponse_ThrottleTimeMs]. rewrite ?(option_map_map_inv ApiVersionsResponseKey18_of ApiVersionsResponseKey18_to _ (l_to_of _ ApiVersionsResponseKey18_linked)). reflexivity.
  - reflexivity.
  - intros v t. unfold ApiVersionsResponse_Size, ApiVersionsResponse_schema, ApiVersionsResponse_to. apply size_start.
    apply size_step; [intros sz; reflexivity|].
    apply size_step; [intros sz; apply (size_field_link (ApiVersionsResponseKey18_Size v) ApiVersionsResponseKey18_schema ApiVersionsResponseKey18_to v (l_size _ ApiVersionsResponseKey18_linked v) true)|].
    apply size_step; [intros sz; reflexivity|].
    intros sz; reflexivity.
  - intros v t. unfold ApiVersionsResponse_Encode, ApiVersionsResponse_schema, ApiVersionsResponse_to.
    apply enc_step; [intros e; reflexivity|].
    apply enc_step; [intros e; apply (put_field_link (ApiVersionsResponseKey18_Encode v) ApiVersionsResponseKey18_schema ApiVersionsResponseKey18_to v (l_encode _ ApiVersionsResponseKey18_linked v) true)|].
    apply enc_step; [intros e; reflexivity|].
    intros e; reflexivity.
  - intros v t. unfold ApiVersionsResponse_Decode, ApiVersionsResponse_schema, ApiVersionsResponse_to.
    dec_field (fun x : Z => x); [apply dmap_id|intros x_ErrorCode].
    dec_field (option_map (map ApiVersionsResponseKey18_of)); [apply (dec_array_link _ _ ApiVersionsResponseKey18_of ApiVersionsResponseKey18_to (l_decode _ ApiVersionsResponseKey18_linked v ApiVersionsResponseKey18_zero) (l_of_to _ ApiVersionsResponseKey18_linked))|intros x_ApiKeys].
    dec_field (fun x : Z => x); [apply dec_if_link; [apply dmap_id|reflexivity]|intros x_ThrottleTimeMs].
    intros d; reflexivity.
Qed.
Local Opaque ApiVersionsResponse_Size ApiVersionsResponse_Encode ApiVersionsResponse_Decode.

(** ** CreatableReplicaAssignment19 *)

(** message/messages.gen.go:5510-5513 *)
Record CreatableReplicaAssignment19 : Type := mkCreatableReplicaAssignment19 { CreatableReplicaAssignment19_PartitionIndex : Z; CreatableReplicaAssignment19_BrokerIds : gslice Z }.
(** the zero value ([var item CreatableReplicaAssignment19]) *)
Definition CreatableReplicaAssignment19_zero : CreatableReplicaAssignment19 := mkCreatableReplicaAssignment19 0 None.
(** message/messages.gen.go:5516-5521 *)
Definition CreatableReplicaAssignment19_Size (version : Z) (t : CreatableReplicaAssignment19) : Z :=
  ((size_add sz_Int32) +>
   (size_add (sz_Int32Array (CreatableReplicaAssignment19_BrokerIds t))) +>
   size_done)%size 0.
(** message/messages.gen.go:5524-5527 *)
Definition CreatableReplicaAssignment19_Encode (version : Z) (t : CreatableReplicaAssignment19) : Encoder -> Encoder :=
  ((PutInt32 (CreatableReplicaAssignment19_PartitionIndex t)) >>
   (PutInt32Array (CreatableReplicaAssignment19_BrokerIds t)) >>
   skip)%enc.
(** message/messages.gen.go:5530-5541 *)
Definition CreatableReplicaAssignment19_Decode (version : Z) (t : CreatableReplicaAssignment19) : Dec CreatableReplicaAssignment19 :=
  x_PartitionIndex <- dInt32 ;;
  x_BrokerIds <- dInt32Array ;;
  ret (mkCreatableReplicaAssignment19 x_PartitionIndex x_BrokerIds).
(** the struct declaration read as a schema; version ranges as in Size *)
Definition CreatableReplicaAssignment19_schema : fields :=
  FCons "PartitionIndex" Always TInt32
  (FCons "BrokerIds" Always TInt32Array FNil).
Definition CreatableReplicaAssignment19_to (t : CreatableReplicaAssignment19) : dens CreatableReplicaAssignment19_schema := (CreatableReplicaAssignment19_PartitionIndex t, (CreatableReplicaAssignment19_BrokerIds t, tt)).
Definition CreatableReplicaAssignment19_of (x : dens CreatableReplicaAssignment19_schema) : CreatableReplicaAssignment19 := mkCreatableReplicaAssignment19 (fst x) (fst (snd x)).
Definition CreatableReplicaAssignment19_codec : codec := Codec CreatableReplicaAssignment19 CreatableReplicaAssignment19_zero CreatableReplicaAssignment19_Size CreatableReplicaAssignment19_Encode CreatableReplicaAssignment19_Decode CreatableReplicaAssignment19_schema CreatableReplicaAssignment19_to CreatableReplicaAssignment19_of.
Lemma CreatableReplicaAssignment19_linked : linked CreatableReplicaAssignment19_codec.
Proof.
  apply Linked; cbn [CreatableReplicaAssignment19_codec c_type c_zero c_size c_encode c_decode c_schema c_to c_of].
  - intros t. destruct t. cbv [CreatableReplicaAssignment19_of CreatableReplicaAssignment19_to]. cbn [fst snd CreatableReplicaAssignment19_PartitionIndex CreatableReplicaAssignment19_BrokerIds].  reflexivity.
  - intros x. unfold CreatableReplicaAssignment19_schema in x. cbn [dens den] in x. destruct x as [x0 x]. destruct x as [x1 x]. destruct x. cbv [CreatableReplicaAssignment19_of CreatableReplicaAssignment19_to]. cbn [fst snd CreatableReplicaAssignment19_PartitionIndex CreatableReplicaAssignment19_BrokerIds].  reflexivity.
  - reflexivity.
  - intros v t. unfold CreatableReplicaAssignment19_Size, CreatableReplicaAssignment19_schema, CreatableReplicaAssignment19_to. apply size_start.
    apply size_step; [intros sz; reflexivity|].
    apply size_step; [intros sz; reflexivity|].
    intros sz; reflexivity.
  - intros v t. unfold CreatableReplicaAssignment19_Encode, CreatableReplicaAssignment19_schema, CreatableReplicaAssignment19_to.
    apply enc_step; [intros e; reflexivity|].
    apply enc_step; [intros e; reflexivity|].
    intros e; reflexivity.
  - intros v t. unfold CreatableReplicaAssignment19_Decode, CreatableReplicaAssignment19_schema, CreatableReplicaAssignment19_to.
    dec_field (fun x : Z => x); [apply dmap_id|intros x_PartitionIndex].
    dec_field (fun x : gslice Z => x); [apply dmap_id|intros x_BrokerIds].
    intros d; reflexivity.
Qed.
Local Opaque CreatableReplicaAssignment19_Size CreatableReplicaAssignment19_Encode CreatableReplicaAssignment19_Decode.

(** ** CreateableTopicConfig19 *)

(** message/messages.gen.go:5543-5546 *)
Record CreateableTopicConfig19 : Type := mkCreateableTopicConfig19 { CreateableTopicConfig19_Name : gostring; CreateableTopicConfig19_Value : gostring }.
(** the zero value ([var item CreateableTopicConfig19]) *)
Definition CreateableTopicConfig19_zero : CreateableTopicConfig19 := mkCreateableTopicConfig19 [] [].
(** message/messages.gen.go:5549-5554 *)
Definition CreateableTopicConfig19_Size (version : Z) (t : CreateableTopicConfig19) : Z :=
  ((size_add (sz_String (CreateableTopicConfig19_Name t))) +>
   (size_add (sz_String (CreateableTopicConfig19_Value t))) +>
   size_done)%size 0.
(** message/messages.gen.go:5557-5560 *)
Definition CreateableTopicConfig19_Encode (version : Z) (t : CreateableTopicConfig19) : Encoder -> Encoder :=
  ((PutString (CreateableTopicConfig19_Name t)) >>
   (PutString (CreateableTopicConfig19_Value t)) >>
   skip)%enc.
(** message/messages.gen.go:5563-5574 *)
Definition CreateableTopicConfig19_Decode (version : Z) (t : CreateableTopicConfig19) : Dec CreateableTopicConfig19 :=
  x_Name <- dString ;;
  x_Value <- dString ;;
  ret (mkCreateableTopicConfig19 x_Name x_Value).
(** the struct declaration read as a schema; version ranges as in Size *)
Definition CreateableTopicConfig19_schema : fields :=
  FCons "Name" Always TString
  (FCons "Value" Always TString FNil).
Definition CreateableTopicConfig19_to (t : CreateableTopicConfig19) : dens CreateableTopicConfig19_schema := (CreateableTopicConfig19_Name t, (CreateableTopicConfig19_Value t, tt)).
Definition CreateableTopicConfig19_of (x : dens CreateableTopicConfig19_schema) : CreateableTopicConfig19 := mkCreateableTopicConfig19 (fst x) (fst (snd x)).
Definition CreateableTopicConfig19_codec : codec := Codec CreateableTopicConfig19 CreateableTopicConfig19_zero CreateableTopicConfig19_Size CreateableTopicConfig19_Encode CreateableTopicConfig19_Decode CreateableTopicConfig19_schema CreateableTopicConfig19_to CreateableTopicConfig19_of.
Lemma CreateableTopicConfig19_linked : linked CreateableTopicConfig19_codec.
Proof.
  apply Linked; cbn [CreateableTopicConfig19_codec c_type c_zero c_size c_encode c_decode c_schema c_to c_of].
  - intros t. destruct t. cbv [CreateableTopicConfig19_of CreateableTopicConfig19_to]. cbn [fst snd CreateableTopicConfig19_Name CreateableTopicConfig19_Value].  reflexivity.
  - intros x. unfold CreateableTopicConfig19_schema in x. cbn [dens den] in x. destruct x as [x0 x]. destruct x as [x1 x]. destruct x. cbv [CreateableTopicConfig19_of CreateableTopicConfig19_to]. cbn [fst snd CreateableTopicConfig19_Name CreateableTopicConfig19_Value].  reflexivity.
  - reflexivity.
  - intros v t. unfold CreateableTopicConfig19_Size, CreateableTopicConfig19_schema, CreateableTopicConfig19_to. apply size_start.
    apply size_step; [intros sz; reflexivity|].
    apply size_step; [intros sz; reflexivity|].
    intros sz; reflexivity.
  - intros v t. unfold CreateableTopicConfig19_Encode, CreateableTopicConfig19_schema, CreateableTopicConfig19_to.
    apply enc_step; [intros e; reflexivity|].
    apply enc_step; [intros e; reflexivity|].
    intros e; reflexivity.
  - intros v t. unfold CreateableTopicConfig19_Decode, CreateableTopicConfig19_schema, CreateableTopicConfig19_to.
    dec_field (fun x : gostring => x); [apply dmap_id|intros x_Name].
    dec_field (fun x : gostring => x); [apply dmap_id|intros x_Value].
    intros d; reflexivity.
Qed.
Local Opaque CreateableTopicConfig19_Size CreateableTopicConfig19_Encode CreateableTopicConfig19_Decode.

(** ** CreatableTopic19 *)

(** message/messages.gen.go:5422-5428 *)
Record CreatableTopic19 : Type := mkCreatableTopic19 { CreatableTopic19_Name : gostring; CreatableTopic19_NumPartitions : Z; CreatableTopic19_ReplicationFactor : Z; CreatableTopic19_Assignments : gslice CreatableReplicaAssignment19; CreatableTopic19_Configs : gslice CreateableTopicConfig19 }.
(** the zero value ([var item CreatableTopic19]) *)
Definition CreatableTopic19_zero : CreatableTopic19 := mkCreatableTopic19 [] 0 0 None None.
(** message/messages.gen.go:5431-5445 *)
Definition CreatableTopic19_Size (version : Z) (t : CreatableTopic19) : Z :=
  ((size_add (sz_String (CreatableTopic19_Name t))) +>
   (size_add sz_Int32) +>
   (size_add sz_Int16) +>
   (size_loop (CreatableReplicaAssignment19_Size version) (CreatableTopic19_Assignments t)) +>
   (size_loop (CreateableTopicConfig19_Size version) (CreatableTopic19_Configs t)) +>
   size_done)%size 0.
(** message/messages.gen.go:5448-5464 *)
Definition CreatableTopic19_Encode (version : Z) (t : CreatableTopic19) : Encoder -> Encoder :=
  ((PutString (CreatableTopic19_Name t)) >>
   (PutInt32 (CreatableTopic19_NumPartitions t)) >>
   (PutInt16 (CreatableTopic19_ReplicationFactor t)) >>
   (put_array (CreatableReplicaAssignment19_Encode version) (CreatableTopic19_Assignments t)) >>
   (put_array (CreateableTopicConfig19_Encode version) (CreatableTopic19_Configs t)) >>
   skip)%enc.
(** message/messages.gen.go:5467-5508 *)
Definition CreatableTopic19_Decode (version : Z) (t : CreatableTopic19) : Dec CreatableTopic19 :=
  x_Name <- dString ;;
  x_NumPartitions <- dInt32 ;;
  x_ReplicationFactor <- dInt16 ;;
  x_Assignments <- (dec_array (CreatableReplicaAssignment19_Decode version CreatableReplicaAssignment19_zero) (CreatableTopic19_Assignments t)) ;;
  x_Configs <- (dec_array (CreateableTopicConfig19_Decode version CreateableTopicConfig19_zero) (CreatableTopic19_Configs t)) ;;
  ret (mkCreatableTopic19 x_Name x_NumPartitions x_ReplicationFactor x_Assignments x_Configs).
(** the struct declaration read as a schema; version ranges as in Size *)
Definition CreatableTopic19_schema : fields :=
  FCons "Name" Always TString
  (FCons "NumPartitions" Always TInt32
  (FCons "ReplicationFactor" Always TInt16
  (FCons "Assignments" Always (TArray CreatableReplicaAssignment19_schema)
  (FCons "Configs" Always (TArray CreateableTopicConfig19_schema) FNil)))).
Definition CreatableTopic19_to (t : CreatableTopic19) : dens CreatableTopic19_schema := (CreatableTopic19_Name t, (CreatableTopic19_NumPartitions t, (CreatableTopic19_ReplicationFactor t, (option_map (map CreatableReplicaAssignment19_to) (CreatableTopic19_Assignments t), (option_map (map CreateableTopicConfig19_to) (CreatableTopic19_Configs t), tt))))).
Definition CreatableTopic19_of (x : dens CreatableTopic19_schema) : CreatableTopic19 := mkCreatableTopic19 (fst x) (fst (snd x)) (fst (snd (snd x))) (option_map (map CreatableReplicaAssignment19_of) (fst (snd (snd (snd x))))) (option_map (map CreateableTopicConfig19_of) (fst (snd (snd (snd (snd x)))))).
Definition CreatableTopic19_codec : codec := Codec CreatableTopic19 CreatableTopic19_zero CreatableTopic19_Size CreatableTopic19_Encode CreatableTopic19_Decode CreatableTopic19_schema CreatableTopic19_to CreatableTopic19_of.
Lemma CreatableTopic19_linked : linked CreatableTopic19_codec.
Proof.
  apply Linked; cbn [CreatableTopic19_codec c_type c_zero c_size c_encode c_decode c_schema c_to c_of].
  - intros t. destruct t. cbv [CreatableTopic19_of CreatableTopic19_to]. cbn [fst snd CreatableTopic19_Name CreatableTopic19_NumPartitions CreatableTopic19_ReplicationFactor CreatableTopic19_Assignments CreatableTopic19_Configs]. rewrite ?(option_map_map_inv CreatableReplicaAssignment19_to CreatableReplicaAssignment19_of _ (l_of_to _ CreatableReplicaAssignment19_linked)). rewrite ?(option_map_map_inv CreateableTopicConfig19_to CreateableTopicConfig19_of _ (l_of_to _ CreateableTopicConfig19_linked)). reflexivity.
  - intros x. unfold CreatableTopic19_schema in x. cbn [dens den] in x. destruct x as [x0 x]. destruct x as [x1 x]. destruct x as [x2 x]. destruct x as [x3 x]. destruct x as [x4 x]. destruct x. cbv [CreatableTopic19_of CreatableTopic19_to]. cbn [fst snd CreatableTopic19_Name CreatableTopic19_NumPartitions CreatableTopic19_ReplicationFactor CreatableTopic19_Assignments CreatableTopic19_Configs]. rewrite ?(option_map_map_inv CreatableReplicaAssignment19_of CreatableReplicaAssignment19_to _ (l_to_of _ CreatableReplicaAssignment19_linked)). rewrite ?(option_map_map_inv CreateableTopicConfig19_of CreateableTopicConfig19_to _ (l_to_of _ CreateableTopicConfig19_linked)). reflexivity.
  - reflexivity.
  - intros v t. unfold CreatableTopic19_Size, CreatableTopic19_schema, CreatableTopic19_to. apply size_start.
    apply size_step; [intros sz; reflexivity|].
    apply size_step; [intros sz; reflexivity|].
    apply size_step; [intros sz; reflexivity|].
    apply size_step; [intros sz; apply (size_field_link (CreatableReplicaAssignment19_Size v) CreatableReplicaAssignment19_schema CreatableReplicaAssignment19_to v (l_size _ CreatableReplicaAssignment19_linked v) true)|].
    apply size_step; [intros sz; apply (size_field_link (CreateableTopicConfig19_Size v) CreateableTopicConfig19_schema CreateableTopicConfig19_to v (l_size _ CreateableTopicConfig19_linked v) true)|].
    intros sz; reflexivity.
  - intros v t. unfold CreatableTopic19_Encode, CreatableTopic19_schema, CreatableTopic19_to.
    apply enc_step; [intros e; reflexivity|].
    apply enc_step; [intros e; reflexivity|].
    apply enc_step; [intros e; reflexivity|].
    apply enc_step; [intros e; apply (put_field_link (CreatableReplicaAssignment19_Encode v) CreatableReplicaAssignment19_schema CreatableReplicaAssignment19_to v (l_encode _ CreatableReplicaAssignment19_linked v) true)|].
    apply enc_step; [intros e; apply (put_field_link (CreateableTopicConfig19_Encode v) CreateableTopicConfig19_schema CreateableTopicConfig19_to v (l_encode _ CreateableTopicConfig19_linked v) true)|].
    intros e; reflexivity.
  - intros v t. unfold CreatableTopic19_Decode, CreatableTopic19_schema, CreatableTopic19_to.
    dec_field (fun x : gostring => x); [apply dmap_id|intros x_Name].
    dec_field (fun x : Z => x); [apply dmap_id|intros x_NumPartitions].
    dec_field (fun x : Z => x); [apply dmap_id|intros x_ReplicationFactor].
    dec_field (option_map (map CreatableReplicaAssignment19_of)); [apply (dec_array_link _ _ CreatableReplicaAssignment19_of CreatableReplicaAssignment19_to (l_decode _ CreatableReplicaAssignment19_linked v CreatableReplicaAssignment19_zero) (l_of_to _ CreatableReplicaAssignment19_linked))|intros x_Assignments].
    dec_field (option_map (map CreateableTopicConfig19_of)); [apply (dec_array_link _ _ CreateableTopicConfig19_of CreateableTopicConfig19_to (l_decode _ CreateableTopicConfig19_linked v CreateableTopicConfig19_zero) (l_of_to _ CreateableTopicConfig19_linked))|intros x_Configs].
    intros d; reflexivity.
Qed.
Local Opaque CreatableTopic19_Size CreatableTopic19_Encode CreatableTopic19_Decode.

(** ** CreateTopicsRequest *)

(** message/messages.gen.go:5359-5363 *)
Record CreateTopicsRequest : Type := mkCreateTopicsRequest { CreateTopicsRequest_Topics : gslice CreatableTopic19; CreateTopicsRequest_timeoutMs : Z; CreateTopicsRequest_validateOnly : bool }.
(** the zero value ([var item CreateTopicsRequest]) *)
Definition CreateTopicsRequest_zero : CreateTopicsRequest := mkCreateTopicsRequest None 0 false.
(** message/messages.gen.go:5366-5377 *)
Definition CreateTopicsRequest_Size (version : Z) (t : CreateTopicsRequest) : Z :=
  ((size_loop (CreatableTopic19_Size version) (CreateTopicsRequest_Topics t)) +>
   (size_add sz_Int32) +>
   size_if (1 <=? version) (size_add sz_Bool) +>
   size_done)%size 0.
(** message/messages.gen.go:5380-5391 *)
Definition CreateTopicsRequest_Encode (version : Z) (t : CreateTopicsRequest) : Encoder -> Encoder :=
  ((put_array (CreatableTopic19_Encode version) (CreateTopicsRequest_Topics t)) >>
   (PutInt32 (CreateTopicsRequest_timeoutMs t)) >>
   put_if (1 <=? version) (PutBool (CreateTopicsRequest_validateOnly t)) >>
   skip)%enc.
(** message/messages.gen.go:5394-5420 *)
Definition CreateTopicsRequest_Decode (version : Z) (t : CreateTopicsRequest) : Dec CreateTopicsRequest :=
  x_Topics <- (dec_array (CreatableTopic19_Decode version CreatableTopic19_zero) (CreateTopicsRequest_Topics t)) ;;
  x_timeoutMs <- dInt32 ;;
  x_validateOnly <- dec_if (1 <=? version) dBool (CreateTopicsRequest_validateOnly t) ;;
  ret (mkCreateTopicsRequest x_Topics x_timeoutMs x_validateOnly).
(** the struct declaration read as a schema; version ranges as in Size *)
Definition CreateTopicsRequest_schema : fields :=
  FCons "Topics" Always (TArray CreatableTopic19_schema)
  (FCons "timeoutMs" Always TInt32
  (FCons "validateOnly" (From 1) TBool FNil)).
Definition CreateTopicsRequest_to (t : CreateTopicsRequest) : dens CreateTopicsRequest_schema := (option_map (map CreatableTopic19_to) (CreateTopicsRequest_Topics t), (CreateTopicsRequest_timeoutMs t, (CreateTopicsRequest_validateOnly t, tt))).
Definition CreateTopicsRequest_of (x : dens CreateTopicsRequest_schema) : CreateTopicsRequest := mkCreateTopicsRequest (option_map (map CreatableTopic19_of) (fst x)) (fst (snd x)) (fst (snd (snd x))).
Definition CreateTopicsRequest_codec : codec := Codec CreateTopicsRequest CreateTopicsRequest_zero CreateTopicsRequest_Size CreateTopicsRequest_Encode CreateTopicsRequest_Decode CreateTopicsRequest_schema CreateTopicsRequest_to CreateTopicsRequest_of.
Lemma CreateTopicsRequest_linked : linked CreateTopicsRequest_codec.
Proof.
  apply Linked; cbn [CreateTopicsRequest_codec c_type c_zero c_size c_encode c_decode c_schema c_to c_of].
  - intros t. destruct t. cbv [CreateTopicsRequest_of CreateTopicsRequest_to]. cbn [fst snd CreateTopicsRequest_Topics CreateTopicsRequest_timeoutMs CreateTopicsRequest_validateOnly]. rewrite ?(option_map_map_inv CreatableTopic19_to CreatableTopic19_of _ (l_of_to _ CreatableTopic19_linked)). reflexivity.
  - intros x. unfold CreateTopicsRequest_schema in x. cbn [dens den] in x. destruct x as [x0 x]. destruct x as [x1 x]. destruct x as [x2 x]. destruct x. cbv [CreateTopicsRequest_of CreateTopicsRequest_to]. cbn [fst snd CreateTopicsRequest_Topics CreateTopicsRequest_timeoutMs CreateTopicsRequest_validateOnly]. rewrite ?(option_map_map_inv CreatableTopic19_of CreatableTopic19_to _ (l_to_of _ CreatableTopic19_linked)). reflexivity.
  - reflexivity.
  - intros v t. unfold CreateTopicsRequest_Size, CreateTopicsRequest_schema, CreateTopicsRequest_to. apply size_start.
    apply size_step; [intros sz; apply (size_field_link (CreatableTopic19_Size v) CreatableTopic19_schema CreatableTopic19_to v (l_size _ CreatableTopic19_linked v) true)|].
    apply size_step; [intros sz; reflexivity|].
    apply size_step; [intros sz; reflexivity|].
    intros sz; reflexivity.
  - intros v t. unfold CreateTopicsRequest_Encode, CreateTopicsRequest_schema, CreateTopicsRequest_to.
    apply enc_step; [intros e; apply (put_field_link (CreatableTopic19_Encode v) CreatableTopic19_schema CreatableTopic19_to v (l_encode _ CreatableTopic19_linked v) true)|].
    apply enc_step; [intros e; reflexivity|].
    apply enc_step; [intros e; reflexivity|].
    intros e; reflexivity.
  - intros v t. unfold CreateTopicsRequest_Decode, CreateTopicsRequest_schema, CreateTopicsRequest_to.
    dec_field (option_map (map CreatableTopic19_of)); [apply (dec_array_link _ _ CreatableTopic19_of CreatableTopic19_to (l_decode _ CreatableTopic19_linked v CreatableTopic19_zero) (l_of_to _ CreatableTopic19_linked))|intros x_Topics].
    dec_field (fun x : Z => x); [apply dmap_id|intros x_timeoutMs].
    dec_field (fun x : bool => x); [apply dec_if_link; [apply dmap_id|reflexivity]|intros x_validateOnly].
    intros d; reflexivity.
Qed.
Local Opaque CreateTopicsRequest_Size CreateTopicsRequest_Encode CreateTopicsRequest_Decode.

