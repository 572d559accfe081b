(** * What is written by the source of the Encoder is read by the source of the Decoder *)
From Coq Require Import String.
From Verif Require Import GoBase GoLemmas Binary Utf8 Sizeof Decoder Encoder Spec EncProofs PrimProofs VarProofs CodecProps SchemaSpec Platform PlatformSpec PlatformProofs Calls Scratch ScratchProofs GoLang Source SourceSpec SourceBase SourceDecoder SourceLoops SourceEncoder SourceSizeof.
From Coq Require Import Lia ZArith.
Local Open Scope string_scope.
Local Open Scope list_scope.
Local Open Scope Z_scope.
Ltac Zify.zify_post_hook ::= idtac.

Lemma split4 n : (4 <= n)%nat -> exists k, n = S (S (S (S k))).
Proof. intros H. exists (n - 4)%nat. lia. Qed.

(** A number of at most ten bytes does not run on. *)
Lemma base128_ends n : forall x, (1 <= n)%nat -> ~ Forall continues (base128 n x).
Proof.
  induction n as [|n IH]; intros x Hn H; [lia|]. cbn [base128] in H. destruct n as [|n]; inversion H as [|? ? C H']; subst.
  - unfold continues in C. pose proof (Z.mod_pos_bound x 128 ltac:(lia)). lia.
  - apply (IH (x / 128)); [lia|exact H'].
Qed.
Lemma not_runaway x bs rest d : is_base128 x bs -> (length bs <= 10)%nat -> frame d = bs ++ rest -> ~ runaway (ahead d).
Proof.
  intros (n & Hn & -> & _) Hl Fr (a & b & r & E & Ha & Hc). apply (base128_ends n x Hn). unfold ahead in E. unfold frame in Fr. rewrite E in Fr.
  assert (Pre : base128 n x = firstn (length (base128 n x)) (a ++ b :: r)).
  { assert (Q : firstn (length (base128 n x)) (firstn (Z.to_nat (d_length d - d_offset d)) (a ++ b :: r)) = base128 n x) by (rewrite Fr, firstn_app, firstn_all, Nat.sub_diag, app_nil_r; reflexivity).
    rewrite firstn_firstn in Q. rewrite <- Q at 1. f_equal. assert (length (base128 n x) <= Z.to_nat (d_length d - d_offset d))%nat; [|lia].
    apply (f_equal (@length Z)) in Fr. rewrite firstn_length, !app_length in Fr. lia. }
  rewrite firstn_app in Pre. unfold zlen in Ha. replace (length (base128 n x) - length a)%nat with O in Pre by lia. cbn [firstn] in Pre. rewrite app_nil_r in Pre. rewrite Pre.
  apply Forall_forall. intros y Hy. rewrite Forall_forall in Hc. apply Hc. rewrite <- (firstn_skipn (length (base128 n x)) a). apply in_or_app. left. exact Hy.
Qed.
Section Source.
Context (P : platform) (GP : go_platform P) (structs : string -> ty) (scribble : list (list Z) -> list Z -> list Z) (prog : package) (X : extends prog source).
Context (Hs : forall log buf, length buf = 16%nat -> length (scribble log buf) = 16%nat).
Notation W := (p_int P).
Notation L := (p_late P).
Notation R := (room_of P structs).
Notation go := (call W L R scribble prog).

Lemma encoder_call n c l b : (4 <= n)%nat -> texts_ok c -> effect l b (perform c) (go n (put_name c) (VRef l :: put_args c)).
Proof.
  intros Hn Ht. destruct (split4 n Hn) as [k ->]. destruct c; cbn [put_name put_args perform].
  - exact (PutInt8_source P structs scribble prog X Hs _ l b i).
  - exact (PutInt16_source P structs scribble prog X Hs _ l b i).
  - exact (PutInt32_source P structs scribble prog X Hs _ l b i).
  - exact (PutInt64_source P structs scribble prog X Hs _ l b i).
  - exact (PutBool_source P structs scribble prog X Hs _ l b b0).
  - exact (PutArrayLength_source P structs scribble prog X Hs _ l b n).
  - exact (PutBytes_source P structs scribble prog X Hs _ l b data).
  - exact (PutString_source P structs scribble prog X Hs _ l b s).
  - exact (PutNullableString_source P structs scribble prog X Hs _ l b s).
  - exact (PutInt32Array_source P structs scribble prog X Hs _ l b ii).
  - exact (PutInt64Array_source P structs scribble prog X Hs _ l b ii).
  - exact (PutStringArray_source P structs scribble prog X Hs _ l b ss).
  - exact (PutVarInt_source P structs scribble prog X Hs _ l b i).
  - exact (PutVarBytes_source P structs scribble prog X Hs _ l b data).
  - exact (PutVarString_source P structs scribble prog X Hs _ l b s Ht).
  - destruct Ht as [H1 H2]. exact (PutRecordHeader_source P structs scribble prog X Hs _ l b key value H1 H2).
Qed.
Lemma NewDecoder_source n raw k s : go (S n) "message.NewDecoder" [VInts U8 raw; VInt INT k] s = Ok (VRef (length (heap s))) (mkState (heap s ++ [decoder_cell (NewDecoder raw k)]) (world s)).
Proof.
  erewrite (called _ _ _ _ X) by reflexivity. unfold invoke, go_message_NewDecoder. cbn [f_params f_body f_results bind_params settle option_map opt rbind]. rewrite run_cons.
  cbn [exec eval_values eval lookup String.eqb Ascii.eqb Bool.eqb opt rbind]. unfold new_struct. destruct X as (_ & _ & Xt). rewrite (Xt "Decoder" _ eq_refl).
  cbn [opt rbind zero_fields lookup String.eqb Ascii.eqb Bool.eqb settle zero alloc spread]. reflexivity.
Qed.
Lemma IsInsufficientDataError_source n e s : go (S (S n)) "message.IsInsufficientDataError" [VErr e] s = Ok (VBool (IsInsufficientDataError e)) s.
Proof.
  erewrite (called _ _ _ _ X) by reflexivity. unfold invoke, go_message_IsInsufficientDataError. cbn [f_params f_body f_results bind_params settle option_map opt rbind]. rewrite run_cons.
  crunch. rewrite g_short. crunch. library. destruct e; reflexivity.
Qed.

(** A method of the Decoder that, on the bytes [bs], reads [a]. *)
Definition reads {A} (get : string) (m : Dec A) (val_of : A -> val) : Prop :=
  forall d, exists N, forall n s l, (N <= n)%nat -> nth_error (heap s) l = Some (decoder_cell d) -> exists nothing, go n get [VRef l] s = outcome val_of nothing l s (m d).
Lemma survive {A} (g : Encoder -> Encoder) (m pm : Dec A) val_of put get given bs (a : A) :
  (forall n l b, (4 <= n)%nat -> effect l b g (go n put [VRef l; given])) -> Emits g bs -> reads get pm val_of -> (forall d rest, exists_on P d -> frame d = bs ++ rest -> pm d = m d) -> Decodes m bs a ->
  survives W go put get given (val_of a).
Proof.
  intros Hp He Hr Hm Hd s Hl Hw. exists 4%nat. intros n Hn.
  destruct (NewEncoder_source L R scribble prog W (n - 1) s) as (s1 & C1 & H1 & _); [destruct X as (Xf & _ & _); apply Xf; reflexivity|destruct X as (_ & _ & Xt); apply Xt; reflexivity|].
  replace (S (n - 1)) with n in C1 by lia. destruct (Hp n _ _ Hn s1 _ H1) as (s2 & C2 & H2 & F2).
  exists (S (length (heap s))), s1, s2. split; [exact C1|]. split; [exact C2|]. intros rest. cbn zeta. destruct H2 as (_ & _ & W2). rewrite W2.
  assert (Rel : reliable (NewEncoder (world s))) by (split; [reflexivity|exact Hw]). destruct (He _ Rel) as [_ Out]. unfold output in Out. rewrite Out. cbn [NewEncoder e_target]. rewrite Hl. cbn [concat app].
  intros Hz. set (buf := bs ++ rest) in *. set (d := NewDecoder buf (zlen buf)).
  assert (Ok1 : dec_ok d) by (unfold dec_ok, d; cbn; unfold zlen; lia).
  assert (Fr : frame d = bs ++ rest). { unfold frame, d. cbn [NewDecoder d_raw d_offset d_length]. rewrite Z.sub_0_r. change (Z.to_nat 0) with O. rewrite skipn_O. unfold zlen. rewrite Nat2Z.id. apply firstn_all. }
  destruct (Hr d) as (N & HN). exists (S N). intros k Hk. destruct k as [|k]; [lia|]. exists (length (heap s2)). eexists. eexists. rewrite NewDecoder_source. split; [reflexivity|]. fold d.
  set (s3 := mkState (heap s2 ++ [decoder_cell d]) (world s2)).
  assert (A3 : nth_error (heap s3) (length (heap s2)) = Some (decoder_cell d)) by (unfold s3; cbn [heap]; rewrite nth_error_app2, Nat.sub_diag by lia; reflexivity).
  destruct (HN (S k) s3 (length (heap s2)) ltac:(lia) A3) as (nothing & ->). rewrite (Hm d rest (conj Ok1 Hz) Fr). rewrite (Hd d rest Ok1 Fr). cbn [outcome]. split; [reflexivity|].
  rewrite (at_set _ _ _ _ A3). reflexivity.
Qed.
Lemma reads2 {A} get (pm : Dec A) val_of nothing : (forall n s l d, nth_error (heap s) l = Some (decoder_cell d) -> go (S (S n)) get [VRef l] s = outcome val_of nothing l s (pm d)) -> reads get pm val_of.
Proof. intros H d. exists 2%nat. intros n s l Hn A1. exists nothing. destruct n as [|[|n]]; [lia|lia|]. apply H, A1. Qed.
Lemma reads3 {A} get (pm : Dec A) val_of nothing : (forall n s l d, nth_error (heap s) l = Some (decoder_cell d) -> go (S (S (S n))) get [VRef l] s = outcome val_of nothing l s (pm d)) -> reads get pm val_of.
Proof. intros H d. exists 3%nat. intros n s l Hn A1. exists nothing. destruct n as [|[|[|n]]]; [lia|lia|lia|]. apply H, A1. Qed.
Lemma reads4 {A} get (pm : Dec A) val_of nothing : (forall n s l d, nth_error (heap s) l = Some (decoder_cell d) -> (rounds_for P d <= n)%nat -> go (S (S (S (S n)))) get [VRef l] s = outcome val_of nothing l s (pm d)) -> reads get pm val_of.
Proof. intros H d. exists (4 + rounds_for P d)%nat. intros n s l Hn A1. exists nothing. destruct n as [|[|[|[|n]]]]; [lia|lia|lia|lia|]. apply H; [exact A1|lia]. Qed.
Notation keep put get given received := (survives W go put get given received).
Ltac same MA := let d := fresh in let r := fresh in let E := fresh in intros d r E _; apply (primitives_same P GP MA d E).
Theorem source_round_trip : makes_all P ->
  (forall i, is_int8 i -> keep "Encoder.PutInt8" "Decoder.Int8" (VInt I8 i) (VInt I8 i)) /\
  (forall i, is_int16 i -> keep "Encoder.PutInt16" "Decoder.Int16" (VInt I16 i) (VInt I16 i)) /\
  (forall i, is_int32 i -> keep "Encoder.PutInt32" "Decoder.Int32" (VInt I32 i) (VInt I32 i)) /\
  (forall i, is_int64 i -> keep "Encoder.PutInt64" "Decoder.Int64" (VInt I64 i) (VInt I64 i)) /\
  (forall b, keep "Encoder.PutBool" "Decoder.Bool" (VBool b) (VBool b)) /\
  (forall x, zlen x < 2 ^ 15 -> keep "Encoder.PutString" "Decoder.String" (VStr x) (VStr x)) /\
  (forall x, glen x < 2 ^ 31 -> keep "Encoder.PutBytes" "Decoder.Bytes" (slice_val (VInts U8) x) (VInts U8 (items x))) /\
  (forall x, glen x < 2 ^ 31 -> Forall is_int32 (items x) -> keep "Encoder.PutInt32Array" "Decoder.Int32Array" (slice_val (VInts I32) x) (slice_val (VInts I32) x)) /\
  (forall x, glen x < 2 ^ 31 -> Forall is_int64 (items x) -> keep "Encoder.PutInt64Array" "Decoder.Int64Array" (slice_val (VInts I64) x) (slice_val (VInts I64) x)) /\
  (forall x : gslice (list Z), glen x < 2 ^ 31 -> Forall (fun y => zlen y < 2 ^ 15) (items x) -> keep "Encoder.PutStringArray" "Decoder.StringArray" (slice_val VStrs x) (slice_val VStrs x)) /\
  (forall i, is_int64 i -> keep "Encoder.PutVarInt" "Decoder.VarInt" (VInt I64 i) (VInt I64 i)).
Proof.
  intros MA. destruct fixed_width_round_trip as (F8 & F16 & F32 & F64 & FB). destruct composite_round_trip as (SS & SB & S32 & S64 & SA).
  split; [|split; [|split; [|split; [|split; [|split; [|split; [|split; [|split; [|split]]]]]]]]].
  - intros i Hi. destruct (F8 i Hi) as (E & _ & D). refine (survive (PutInt8 i) dInt8 (pInt8 P) (VInt I8) _ _ _ _ i _ E _ _ D).
    + intros n l b Hn. exact (encoder_call n (CallInt8 i) l b Hn I).
    + eapply reads2. intros. eapply Int8_source; eassumption.
    + same MA.
  - intros i Hi. destruct (F16 i Hi) as (E & _ & D). refine (survive (PutInt16 i) dInt16 (pInt16 P) (VInt I16) _ _ _ _ i _ E _ _ D).
    + intros n l b Hn. exact (encoder_call n (CallInt16 i) l b Hn I).
    + eapply reads2. intros. eapply Int16_source; eassumption.
    + same MA.
  - intros i Hi. destruct (F32 i Hi) as (E & _ & D). refine (survive (PutInt32 i) dInt32 (pInt32 P) (VInt I32) _ _ _ _ i _ E _ _ D).
    + intros n l b Hn. exact (encoder_call n (CallInt32 i) l b Hn I).
    + eapply reads2. intros. eapply Int32_source; eassumption.
    + same MA.
  - intros i Hi. destruct (F64 i Hi) as (E & _ & D). refine (survive (PutInt64 i) dInt64 (pInt64 P) (VInt I64) _ _ _ _ i _ E _ _ D).
    + intros n l b Hn. exact (encoder_call n (CallInt64 i) l b Hn I).
    + eapply reads2. intros. eapply Int64_source; eassumption.
    + same MA.
  - intros i. destruct (FB i) as (E & _ & D). refine (survive (PutBool i) dBool (pBool P) VBool _ _ _ _ i _ E _ _ D).
    + intros n l b Hn. exact (encoder_call n (CallBool i) l b Hn I).
    + eapply reads2. intros. eapply Bool_source; eassumption.
    + same MA.
  - intros x Hx. destruct (SS x Hx) as (E & D). refine (survive (PutString x) dString (pString P) VStr _ _ _ _ x _ E _ _ D).
    + intros n l b Hn. exact (encoder_call n (CallString x) l b Hn I).
    + eapply reads3. intros. eapply String_source; eassumption.
    + same MA.
  - intros x Hx. destruct (SB x Hx) as (E & D). refine (survive (PutBytes x) dBytes (pBytes P) (slice_val (VInts U8)) _ _ _ _ (Some (items x)) _ E _ _ D).
    + intros n l b Hn. exact (encoder_call n (CallBytes x) l b Hn I).
    + eapply reads3. intros. eapply Bytes_source; eassumption.
    + same MA.
  - intros x Hx Hi. destruct (S32 x Hx Hi) as (E & D). refine (survive (PutInt32Array x) dInt32Array (pInt32Array P) (slice_val (VInts I32)) _ _ _ _ x _ E _ _ D).
    + intros n l b Hn. exact (encoder_call n (CallInt32Array x) l b Hn I).
    + eapply reads4. intros. eapply Int32Array_source; eassumption.
    + same MA.
  - intros x Hx Hi. destruct (S64 x Hx Hi) as (E & D). refine (survive (PutInt64Array x) dInt64Array (pInt64Array P) (slice_val (VInts I64)) _ _ _ _ x _ E _ _ D).
    + intros n l b Hn. exact (encoder_call n (CallInt64Array x) l b Hn I).
    + eapply reads4. intros. eapply Int64Array_source; eassumption.
    + same MA.
  - intros x Hx Hi. destruct (SA x Hx Hi) as (E & D). refine (survive (PutStringArray x) dStringArray (pStringArray P) (slice_val VStrs) _ _ _ _ x _ E _ _ D).
    + intros n l b Hn. exact (encoder_call n (CallStringArray x) l b Hn I).
    + eapply reads4. intros. eapply StringArray_source; eassumption.
    + same MA.
  - intros i Hi. destruct (varint_round_trip i Hi) as (bs & E & Lb & D & B & _). refine (survive (PutVarInt i) dVarInt (pVarInt P) (VInt I64) _ _ _ bs i _ E _ _ D).
    + intros n l b Hn. exact (encoder_call n (CallVarInt i) l b Hn I).
    + eapply reads2. intros. eapply VarInt_source; eassumption.
    + intros d rest Ed Fr. apply (varint_all P GP d Ed). right. eapply not_runaway; [exact B|lia|exact Fr].
Qed.
End Source.

Lemma encoder_ends : forall P structs scribble prog, extends prog source -> forall n s,
  let go := call (p_int P) (p_late P) (room_of P structs) scribble prog (S n) in
  (forall l b e, holds l b e s -> go "Encoder.Flush" [VRef l] s = Ok (as_error (Flush e)) s) /\
  exists s', go "message.NewEncoder" [VWriter] s = Ok (VRef (S (length (heap s)))) s' /\
    holds (S (length (heap s))) (length (heap s)) (NewEncoder (world s)) s' /\ (forall k, (k < length (heap s))%nat -> nth_error (heap s') k = nth_error (heap s) k).
Proof.
  intros P structs scribble prog X n s go. split.
  - intros l b e H. eapply Flush_source; eassumption.
  - eapply NewEncoder_source; [destruct X as (Xf & _ & _); apply Xf; reflexivity|destruct X as (_ & _ & Xt); apply Xt; reflexivity].
Qed.
Lemma decoder_calls : forall P, go_platform P -> forall structs scribble prog, extends prog source -> forall n s l d,
  nth_error (heap s) l = Some (decoder_cell d) -> (length (d_raw d) <= n)%nat -> (rounds_for P d <= n)%nat ->
  let go m := call (p_int P) (p_late P) (room_of P structs) scribble prog (S (S (S (S n)))) m [VRef l] s in
  go "Decoder.Bool" = outcome VBool (VBool false) l s (pBool P d) /\ go "Decoder.Int8" = outcome (VInt I8) (VInt I8 0) l s (pInt8 P d) /\
  go "Decoder.Int16" = outcome (VInt I16) (VInt I16 0) l s (pInt16 P d) /\ go "Decoder.Int32" = outcome (VInt I32) (VInt I32 0) l s (pInt32 P d) /\
  go "Decoder.Int64" = outcome (VInt I64) (VInt I64 0) l s (pInt64 P d) /\ go "Decoder.ArrayLength" = outcome (VInt INT) (VInt INT 0) l s (pArrayLength P d) /\
  go "Decoder.Bytes" = outcome (slice_val (VInts U8)) VNil l s (pBytes P d) /\ go "Decoder.String" = outcome VStr (VStr []) l s (pString P d) /\
  go "Decoder.NullableString" = outcome pointer_val VNil l s (pNullableString P d) /\
  go "Decoder.Int32Array" = outcome (slice_val (VInts I32)) VNil l s (pInt32Array P d) /\ go "Decoder.Int64Array" = outcome (slice_val (VInts I64)) VNil l s (pInt64Array P d) /\
  go "Decoder.StringArray" = outcome (slice_val VStrs) VNil l s (pStringArray P d) /\ go "Decoder.VarInt" = outcome (VInt I64) (VInt I64 0) l s (pVarInt P d) /\
  go "Decoder.VarBytes" = outcome (slice_val (VInts U8)) VNil l s (pVarBytes P d) /\ go "Decoder.VarString" = outcome VStr (VStr []) l s (pVarString P d).
Proof.
  intros P GP structs scribble prog X n s l d H HL HR go. unfold go.
  split; [eapply Bool_source; eassumption|]. split; [eapply Int8_source; eassumption|]. split; [eapply Int16_source; eassumption|]. split; [eapply Int32_source; eassumption|].
  split; [eapply Int64_source; eassumption|]. split; [eapply ArrayLength_source; eassumption|]. split; [eapply Bytes_source; eassumption|]. split; [eapply String_source; eassumption|].
  split; [eapply NullableString_source; eassumption|]. split; [eapply Int32Array_source; eassumption|]. split; [eapply Int64Array_source; eassumption|]. split; [eapply StringArray_source; eassumption|].
  split; [eapply VarInt_source; eassumption|]. split; [eapply VarBytes_source; eassumption|]. eapply VarString_source; try eassumption. lia.
Qed.
Lemma decoder_rest : forall P, go_platform P -> forall structs scribble prog, extends prog source -> forall n s,
  let go := call (p_int P) (p_late P) (room_of P structs) scribble prog (S (S n)) in
  (forall raw k, go "message.NewDecoder" [VInts U8 raw; VInt INT k] s = Ok (VRef (length (heap s))) (mkState (heap s ++ [decoder_cell (NewDecoder raw k)]) (world s))) /\
  (forall e, go "message.IsInsufficientDataError" [VErr e] s = Ok (VBool (IsInsufficientDataError e)) s) /\
  forall l d, nth_error (heap s) l = Some (decoder_cell d) ->
  (forall k, go "Decoder.Reset" [VRef l; VInt INT k] s = Ok (VTuple []) (set_cell l (decoder_cell (Reset k d)) s)) /\
  (forall k, go "Decoder.remains" [VRef l; VInt INT k] s = Ok (if p_remains P k d then VNil else VErr ErrShortBuffer) s) /\
  (forall k, go "Decoder.Discard" [VRef l; VInt INT k] s =
    match pDiscard P k d with DOk _ d' => Ok VNil (set_cell l (decoder_cell d') s) | DErr e d' => Ok (VErr e) (set_cell l (decoder_cell d') s) | DPanic => Panic end).
Proof.
  intros P GP structs scribble prog X n s go. unfold go. split; [intros; eapply NewDecoder_source; eassumption|]. split; [intros; eapply IsInsufficientDataError_source; eassumption|].
  intros l d H. split; [intros; eapply Reset_source; eassumption|]. split; [intros; eapply remains_source; eassumption|]. intros. eapply Discard_source; eassumption.
Qed.
Lemma grown_refl s : grown s s.
Proof. exists []. rewrite app_nil_r. split; reflexivity. Qed.
Lemma sizeof_calls : forall P structs scribble prog, extends prog source -> forall n s,
  let gives f v x := exists s', call (p_int P) (p_late P) (room_of P structs) scribble prog (S (S (S n))) f [v] s = Ok (VInt I32 x) s' /\ grown s s' in
  (forall x, gives "sizeof.Bytes" (slice_val (VInts U8) x) (sz_Bytes x)) /\ (forall x, gives "sizeof.Int32Array" (slice_val (VInts I32) x) (sz_Int32Array x)) /\
  (forall x, gives "sizeof.Int64Array" (slice_val (VInts I64) x) (sz_Int64Array x)) /\ (forall x, gives "sizeof.String" (VStr x) (sz_String x)) /\
  (forall x : gslice (list Z), gives "sizeof.StringArray" (slice_val VStrs x) (sz_StringArray x)) /\ (forall i, gives "sizeof.VarInt" (VInt I64 i) (sz_VarInt i)) /\
  (forall x, gives "sizeof.VarBytes" (slice_val (VInts U8) x) (sz_VarBytes x)) /\ (forall x, gives "sizeof.VarString" (VStr x) (sz_VarString x)).
Proof.
  intros P structs scribble prog X n s gives. unfold gives.
  split; [intros; exists s; split; [eapply Bytes_size; eassumption|apply grown_refl]|]. split; [intros; exists s; split; [eapply Int32Array_size; eassumption|apply grown_refl]|].
  split; [intros; exists s; split; [eapply Int64Array_size; eassumption|apply grown_refl]|]. split; [intros; exists s; split; [eapply String_size; eassumption|apply grown_refl]|].
  split; [intros; exists s; split; [eapply StringArray_size; eassumption|apply grown_refl]|]. split; [intros; eapply VarInt_size; eassumption|].
  split; [intros; eapply VarBytes_size; eassumption|]. intros; eapply VarString_size; eassumption.
Qed.
