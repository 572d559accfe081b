(** * The primitive-codec properties, proved (stated again in P_Codec.v) *)
From Verif Require Import GoBase Binary Utf8 Encoder Decoder Sizeof Calls Spec GoLemmas
  EncProofs DecProofs VarProofs Utf8Proofs SizeProofs PrimProofs MsgProofs.
Ltac Zify.zify_post_hook ::= Z.div_mod_to_equations.

Lemma emits1 act bs : Runs act [bs] -> Emits act bs.
Proof. intros H. apply Runs_Emits in H. cbn in H. rewrite app_nil_r in H. exact H. Qed.

Lemma emits2 act a b : Runs act [a; b] -> Emits act (a ++ b).
Proof. intros H. apply Runs_Emits in H. cbn in H. rewrite app_nil_r in H. exact H. Qed.

Lemma Emits_PutString s : Emits (PutString s) (w_string s).
Proof. apply emits2, Runs_PutString. Qed.
Lemma Emits_PutBytes s : Emits (PutBytes s) (w_bytes s).
Proof. apply emits2, Runs_PutBytes. Qed.
Lemma Emits_PutInt32Array s : Emits (PutInt32Array s) (w_nullable_array (be 4) s).
Proof.
  rewrite <- (concat_nullable (fun i => [be 4 i]) (be 4)); [apply Runs_Emits, Runs_PutInt32Array|].
  intros x. cbn. rewrite ?app_nil_r. reflexivity.
Qed.
Lemma Emits_PutInt64Array s : Emits (PutInt64Array s) (w_nullable_array (be 8) s).
Proof.
  rewrite <- (concat_nullable (fun i => [be 8 i]) (be 8)); [apply Runs_Emits, Runs_PutInt64Array|].
  intros x. cbn. rewrite ?app_nil_r. reflexivity.
Qed.
Lemma Emits_PutStringArray s : Emits (PutStringArray s) (w_nullable_array w_string s).
Proof.
  rewrite <- (concat_nullable (fun s => [be 2 (zlen s); s]) w_string); [apply Runs_Emits, Runs_PutStringArray|].
  intros x. cbn. rewrite ?app_nil_r. reflexivity.
Qed.

Lemma fixed_width_round_trip :
  (forall i, is_int8 i -> Emits (PutInt8 i) (be 1 i) /\ length (be 1 i) = 1%nat /\ Decodes dInt8 (be 1 i) i) /\
  (forall i, is_int16 i -> Emits (PutInt16 i) (be 2 i) /\ length (be 2 i) = 2%nat /\ Decodes dInt16 (be 2 i) i) /\
  (forall i, is_int32 i -> Emits (PutInt32 i) (be 4 i) /\ length (be 4 i) = 4%nat /\ Decodes dInt32 (be 4 i) i) /\
  (forall i, is_int64 i -> Emits (PutInt64 i) (be 8 i) /\ length (be 8 i) = 8%nat /\ Decodes dInt64 (be 8 i) i) /\
  (forall b, Emits (PutBool b) (w_bool b) /\ length (w_bool b) = 1%nat /\ Decodes dBool (w_bool b) b).
Proof.
  split; [|split; [|split; [|split]]]; intros x; try intros Hx; (split; [apply emits1|split; [reflexivity|]]).
  - apply Runs_PutInt8. - apply Decodes_int8, Hx.
  - apply Runs_PutInt16. - apply Decodes_int16, Hx.
  - apply Runs_PutInt32. - apply Decodes_int32, Hx.
  - apply Runs_PutInt64. - apply Decodes_int64, Hx.
  - apply Runs_PutBool. - apply Decodes_bool.
Qed.

Lemma composite_round_trip :
  (forall s, zlen s < 2 ^ 15 -> Emits (PutString s) (w_string s) /\ Decodes dString (w_string s) s) /\
  (forall s, glen s < 2 ^ 31 -> Emits (PutBytes s) (w_bytes s) /\ Decodes dBytes (w_bytes s) (Some (items s))) /\
  (forall s, glen s < 2 ^ 31 -> Forall is_int32 (items s) ->
     Emits (PutInt32Array s) (w_nullable_array (be 4) s) /\ Decodes dInt32Array (w_nullable_array (be 4) s) s) /\
  (forall s, glen s < 2 ^ 31 -> Forall is_int64 (items s) ->
     Emits (PutInt64Array s) (w_nullable_array (be 8) s) /\ Decodes dInt64Array (w_nullable_array (be 8) s) s) /\
  (forall s, glen s < 2 ^ 31 -> Forall (fun x => zlen x < 2 ^ 15) (items s) ->
     Emits (PutStringArray s) (w_nullable_array w_string s) /\ Decodes dStringArray (w_nullable_array w_string s) s).
Proof.
  split; [|split; [|split; [|split]]].
  - intros s H. split; [apply Emits_PutString|apply Decodes_string, H].
  - intros s H. split; [apply Emits_PutBytes|apply Decodes_bytes, H].
  - intros s H F. split; [apply Emits_PutInt32Array|]. apply Decodes_prim_array; [exact H|].
    intros x Hx. apply Decodes_int32. rewrite Forall_forall in F. apply F, Hx.
  - intros s H F. split; [apply Emits_PutInt64Array|]. apply Decodes_prim_array; [exact H|].
    intros x Hx. apply Decodes_int64. rewrite Forall_forall in F. apply F, Hx.
  - intros s H F. split; [apply Emits_PutStringArray|]. apply Decodes_prim_array; [exact H|].
    intros x Hx. apply Decodes_string. rewrite Forall_forall in F. apply F, Hx.
Qed.

Lemma no_length_corruption :
  (forall s, zlen s < 2 ^ 15 -> exists bs, Emits (PutString s) bs /\ Decodes dString bs s) /\
  (forall s, glen s < 2 ^ 31 -> exists bs, Emits (PutBytes s) bs /\ Decodes dBytes bs (Some (items s))) /\
  (forall s, glen s < 2 ^ 31 -> Forall is_int32 (items s) ->
     exists bs, Emits (PutInt32Array s) bs /\ Decodes dInt32Array bs s) /\
  (forall s, glen s < 2 ^ 31 -> Forall is_int64 (items s) ->
     exists bs, Emits (PutInt64Array s) bs /\ Decodes dInt64Array bs s) /\
  (forall s, glen s < 2 ^ 31 -> Forall (fun x => zlen x < 2 ^ 15) (items s) ->
     exists bs, Emits (PutStringArray s) bs /\ Decodes dStringArray bs s).
Proof.
  destruct composite_round_trip as (H1 & H2 & H3 & H4 & H5).
  split; [|split; [|split; [|split]]]; intros; eexists; eauto.
Qed.

Lemma varint_round_trip : forall i, is_int64 i ->
  exists bs, Emits (PutVarInt i) bs /\ (1 <= length bs <= 10)%nat /\ Decodes dVarInt bs i /\
    is_base128 (zz i) bs /\
    forall k, 1 <= k -> - 2 ^ (7 * k - 1) <= i < 2 ^ (7 * k - 1) -> zlen bs <= k.
Proof.
  intros i Hi. destruct (put_varint_spec i Hi) as (n & Hn & Hm & E).
  exists (base128 n (zz i)). split.
  { apply emits1. pose proof (Runs_PutVarInt i) as R. rewrite E in R. exact R. }
  split; [rewrite length_base128; unfold minimal128 in Hm; lia|].
  split; [apply Decodes_dVarInt; assumption|]. unfold minimal128 in Hm.
  split; [exists n; tauto|]. intros k Hk Hr. rewrite zlen_base128.
  destruct (Z.leb_spec (Z.of_nat n) k) as [|Hlt]; [assumption|].
  assert (1 < n)%nat by lia. destruct Hm as (_ & _ & Hm). specialize (Hm H).
  assert (zz i < 128 ^ k).
  { replace (128 ^ k) with (2 * 2 ^ (7 * k - 1)).
    - unfold zz. destruct (Z.ltb_spec i 0); lia.
    - rewrite <- Z.pow_succ_r by lia. replace (Z.succ (7 * k - 1)) with (7 * k) by lia.
      rewrite Z.pow_mul_r by lia. reflexivity. }
  assert (128 ^ k <= 128 ^ (Z.of_nat n - 1)) by (apply Z.pow_le_mono_r; lia). lia.
Qed.

Lemma int64_len n : 0 <= n < 2 ^ 63 -> int64 n = n.
Proof. intros. apply int64_id. unfold is_int64. lia. Qed.

Lemma var_strings_round_trip :
  (forall s, valid_utf8 s -> zlen s < 2 ^ 63 -> exists pre, is_base128 (zz (zlen s)) pre /\
     Emits (PutVarString s) (pre ++ s) /\ Decodes dVarString (pre ++ s) s) /\
  (forall s, glen s < 2 ^ 63 -> exists pre, is_base128 (zz (glen s)) pre /\
     Emits (PutVarBytes s) (pre ++ items s) /\ Decodes dVarBytes (pre ++ items s) (Some (items s))) /\
  (forall k v, valid_utf8 k -> zlen k < 2 ^ 63 -> valid_utf8 v -> zlen v < 2 ^ 63 ->
     exists bs, Emits (PutRecordHeader k v) bs /\
       Decodes (x <- dVarString ;; y <- dVarString ;; ret (x, y)) bs (k, v)) /\
  (forall s, Forall is_byte s -> zlen s < 2 ^ 63 -> ~ valid_utf8 s -> exists pre payload,
     is_base128 (zz (zlen s)) pre /\ Emits (PutVarString s) (pre ++ payload) /\ zlen s < zlen payload).
Proof.
  split; [|split; [|split]].
  - intros s Hv Hs. exists (w_varint (zlen s)). split.
    + apply is_base128_w_varint. unfold is_int64. pose proof (zlen_nonneg s). lia.
    + split; [apply Emits_PutVarString_valid; assumption|apply Decodes_VarString; assumption].
  - intros s Hs. exists (w_varint (glen s)). pose proof (zlen_nonneg (items s)) as H0. fold (glen s) in H0. split.
    + apply is_base128_w_varint. unfold is_int64. lia.
    + pose proof (Emits_PutVarBytes s) as H1. pose proof (Decodes_VarBytes s Hs) as H2.
      rewrite int64_len in H1, H2 by lia. auto.
  - intros k v Hk Hk' Hv Hv'. exists (w_varstring k ++ w_varstring v). split.
    + apply Emits_PutRecordHeader; apply Emits_PutVarString_valid; assumption.
    + eapply Decodes_bind; [apply Decodes_VarString; assumption|].
      apply Decodes_bind_ret. apply Decodes_VarString; assumption.
  - intros s Hb Hs Hv. exists (w_varint (zlen s)), (flat_map encode_rune (runes s)).
    pose proof (zlen_nonneg s). split; [apply is_base128_w_varint; unfold is_int64; lia|].
    split.
    + pose proof (Emits_PutVarString s) as H1. rewrite int64_len in H1 by lia. exact H1.
    + destruct (rerune_length s Hb) as [Hle Hiff]. destruct (Z.eq_dec (zlen (flat_map encode_rune (runes s))) (zlen s)); [tauto|lia].
Qed.

Lemma invalid_255 : ~ valid_utf8 [255].
Proof.
  intros H. apply rerune_length in H; [vm_compute in H; discriminate|].
  repeat constructor; unfold is_byte; lia.
Qed.

Lemma sizeof_exact :
  (forall b, exists bs, Emits (PutBool b) bs /\ sz_Bool = zlen bs) /\
  (forall i, exists bs, Emits (PutInt8 i) bs /\ sz_Int8 = zlen bs) /\
  (forall i, exists bs, Emits (PutInt16 i) bs /\ sz_Int16 = zlen bs) /\
  (forall i, exists bs, Emits (PutInt32 i) bs /\ sz_Int32 = zlen bs) /\
  (forall i, exists bs, Emits (PutInt64 i) bs /\ sz_Int64 = zlen bs) /\
  (forall n, exists bs, Emits (PutArrayLength n) bs /\ sz_ArrayLength = zlen bs) /\
  (forall s, exists bs, Emits (PutBytes s) bs /\ sz_Bytes s = int32 (zlen bs)) /\
  (forall s, exists bs, Emits (PutString s) bs /\ sz_String s = int32 (zlen bs)) /\
  (forall s, exists bs, Emits (PutInt32Array s) bs /\ sz_Int32Array s = int32 (zlen bs)) /\
  (forall s, exists bs, Emits (PutInt64Array s) bs /\ sz_Int64Array s = int32 (zlen bs)) /\
  (forall s, exists bs, Emits (PutStringArray s) bs /\ sz_StringArray s = int32 (zlen bs)) /\
  (forall i, exists bs, Emits (PutVarInt i) bs /\ sz_VarInt i = zlen bs) /\
  (forall s, exists bs, Emits (PutVarBytes s) bs /\ sz_VarBytes s = int32 (zlen bs)) /\
  (forall s, valid_utf8 s -> exists bs, Emits (PutVarString s) bs /\ sz_VarString s = int32 (zlen bs)).
Proof.
  repeat match goal with |- _ /\ _ => split end.
  - intros x. eexists. split; [apply emits1, Runs_PutBool|]. reflexivity.
  - intros x. eexists. split; [apply emits1, Runs_PutInt8|]. reflexivity.
  - intros x. eexists. split; [apply emits1, Runs_PutInt16|]. reflexivity.
  - intros x. eexists. split; [apply emits1, Runs_PutInt32|]. reflexivity.
  - intros x. eexists. split; [apply emits1, Runs_PutInt64|]. reflexivity.
  - intros x. eexists. split; [apply emits1, Runs_PutArrayLength|]. reflexivity.
  - intros x. eexists. split; [apply Emits_PutBytes|]. apply sz_Bytes_spec.
  - intros x. eexists. split; [apply Emits_PutString|]. apply sz_String_spec.
  - intros x. eexists. split; [apply Emits_PutInt32Array|]. apply sz_Int32Array_spec.
  - intros x. eexists. split; [apply Emits_PutInt64Array|]. apply sz_Int64Array_spec.
  - intros x. eexists. split; [apply Emits_PutStringArray|]. apply sz_StringArray_spec.
  - intros x. eexists. split; [apply Emits_PutVarInt|]. apply sz_VarInt_spec.
  - intros x. eexists. split; [apply Emits_PutVarBytes|]. apply sz_VarBytes_spec.
  - intros x Hx. eexists. split; [apply Emits_PutVarString|]. rewrite rerune_valid by assumption. apply sz_VarString_spec.
Qed.

Lemma nullable_null :
  exists bs, Emits (PutNullableString None) bs /\ Decodes dNullableString bs (Some []) /\
    ~ Decodes dNullableString bs None.
Proof.
  exists (be 2 (-1)). split; [apply emits1, (Runs_PutNullableString None)|]. split.
  - unfold dNullableString. apply (Decodes_bind_ret dString Some (be 2 (-1)) []).
    rewrite <- (app_nil_r (be 2 (-1))). eapply Decodes_bind; [apply Decodes_int16; unfold is_int16; lia|].
    apply Decodes_ret.
  - intros H. apply Decodes_on in H. destruct H as [d' H]. vm_compute in H. discriminate.
Qed.
Lemma nullable_never_null : forall d d', dNullableString d <> DOk None d'.
Proof.
  intros d d'. unfold dNullableString, bind, ret. destruct (dString d); discriminate.
Qed.
Lemma nullable_some : forall s, zlen s < 2 ^ 15 ->
  exists bs, Emits (PutNullableString (Some s)) bs /\ Decodes dNullableString bs (Some s).
Proof.
  intros s Hs. exists (w_string s). split; [apply emits2, (Runs_PutNullableString (Some s))|].
  apply (Decodes_bind_ret dString Some (w_string s) s). apply Decodes_string, Hs.
Qed.

Lemma length_corruption :
  (forall s, 2 ^ 15 <= zlen s -> exists bs, Emits (PutString s) bs /\ ~ Decodes dString bs s) /\
  (forall s, 2 ^ 31 <= glen s -> exists bs, Emits (PutBytes s) bs /\ ~ Decodes dBytes bs s) /\
  (forall s, 2 ^ 31 <= glen s -> exists bs, Emits (PutInt32Array s) bs /\ ~ Decodes dInt32Array bs s) /\
  (forall s, 2 ^ 31 <= glen s -> exists bs, Emits (PutInt64Array s) bs /\ ~ Decodes dInt64Array bs s) /\
  (forall s, 2 ^ 31 <= glen s -> exists bs, Emits (PutStringArray s) bs /\ ~ Decodes dStringArray bs s).
Proof.
  repeat match goal with |- _ /\ _ => split end; intros s Hs; eexists; (split; [|]).
  - apply Emits_PutString. - intros H. apply long_string_lost in H. lia.
  - apply Emits_PutBytes. - intros H. apply long_bytes_lost in H. lia.
  - apply Emits_PutInt32Array. - intros H. apply long_array_lost in H. lia.
  - apply Emits_PutInt64Array. - intros H. apply long_array_lost in H. lia.
  - apply Emits_PutStringArray. - intros H. apply long_array_lost in H. lia.
Qed.

Lemma zlen_repeat {A} (x : A) n : 0 <= n -> zlen (repeat x (Z.to_nat n)) = n.
Proof. intros. unfold zlen. rewrite repeat_length. lia. Qed.

Lemma long_string_witness :
  exists s, zlen s = 32768 /\ Forall is_byte s /\
    forall d rest, dec_ok d -> frame d = be 2 (zlen s) ++ s ++ rest -> dString d = DPanic.
Proof.
  exists (repeat 65 (Z.to_nat 32768)). rewrite zlen_repeat by lia.
  split; [reflexivity|]. split.
  - apply Forall_forall. intros x Hx. apply repeat_spec in Hx. subst. unfold is_byte. lia.
  - intros d rest Hd Hf. change (be 2 32768) with (be 2 (-32768)) in Hf.
    apply (Panics_string (-32768) ltac:(lia) d _ Hd Hf).
Qed.

Lemma sticky_refuted :
  exists t cs k x, t_log t = [] /\ let e := perform_all cs (NewEncoder t) in
    failed_at (e_target e) k x /\ length (t_log (e_target e)) <> S k /\ Flush e = None.
Proof.
  exists (mkTarget (fun log _ => match log with [] => Some (ErrOther 1) | _ => None end) None []),
    [CallVarBytes (Some [7])], 0%nat, (ErrOther 1).
  split; [reflexivity|]. cbn zeta. split; [|split; [discriminate|reflexivity]].
  exists [2]. split; reflexivity.
Qed.

Lemma sticky_guarded : forall t cs, t_log t = [] ->
  forallb (fun c => negb (unguarded c)) cs = true ->
  let e := perform_all cs (NewEncoder t) in
  forall k x, failed_at (e_target e) k x -> length (t_log (e_target e)) = S k /\ Flush e = Some x.
Proof. intros t cs Ht Hc e k x. apply tracks_flush. apply tracks_perform_all; [exact Hc|]. apply tracks_new, Ht. Qed.

Lemma sticky_writer : forall t cs, t_log t = [] -> sticky t ->
  let e := perform_all cs (NewEncoder t) in
  forall k x, failed_at (e_target e) k x ->
    Flush e = Some x /\
    exists k0, failed_at (e_target e) k0 x /\ (length (t_log (e_target e)) <= k0 + 2)%nat.
Proof.
  intros t cs Ht Hs e k x Hf.
  assert (T : tracks1 e) by (apply tracks1_perform_all; [exact Hs|apply tracks_1, tracks_new, Ht]).
  unfold tracks1 in T. unfold Flush. destruct (e_err e) as [y|]; [|exfalso; eapply T, Hf].
  destruct T as (k0 & Hl & H0 & Hu). destruct (Hu _ _ Hf) as [_ ->]. split; [reflexivity|].
  exists k0. split; [exact H0|lia].
Qed.

Lemma after_error : forall cs e x, e_err e = Some x -> perform_all cs e = e /\ Flush (perform_all cs e) = Some x.
Proof. intros cs e x He. rewrite (perform_all_stops cs e x He). unfold Flush. rewrite He. auto. Qed.

Lemma write_grows c e : t_log (e_target (write c e)) = t_log (e_target e) ++ [c].
Proof. reflexivity. Qed.
Lemma put_runes_grows rs : forall e, exists new, t_log (e_target (put_runes rs e)) = t_log (e_target e) ++ new.
Proof.
  induction rs as [|r rs IH]; intros e; [exists []; symmetry; apply app_nil_r|]. cbn [put_runes].
  destruct (e_err (write (encode_rune r) e)).
  - exists [encode_rune r]. reflexivity.
  - destruct (IH (write (encode_rune r) e)) as [new ->]. rewrite write_grows, <- app_assoc. eauto.
Qed.
Lemma run_grows cs e : exists new, t_log (e_target (run_chunks cs e)) = t_log (e_target e) ++ new.
Proof. destruct (run_chunks_prefix cs e) as (d & r & _ & H & _). eauto. Qed.
Lemma PutVarString_grows s e : exists new, t_log (e_target (PutVarString s e)) = t_log (e_target e) ++ new.
Proof.
  unfold PutVarString. destruct (e_err e); [exists []; symmetry; apply app_nil_r|].
  destruct (put_runes_grows (runes s) (PutVarInt (int64 (zlen s)) e)) as [n1 ->].
  rewrite (Runs_PutVarInt (int64 (zlen s)) e). destruct (run_grows [match put_varint (int64 (zlen s)) with Some bs => bs | None => [] end] e) as [n2 ->].
  rewrite <- app_assoc. eauto.
Qed.
Lemma perform_grows c e : exists new, t_log (e_target (perform c e)) = t_log (e_target e) ++ new.
Proof.
  destruct (unguarded c) eqn:U.
  - destruct c; try discriminate; cbn [perform].
    + unfold PutVarBytes. destruct (e_err e); [exists []; symmetry; apply app_nil_r|]. rewrite write_grows.
      rewrite (Runs_PutVarInt (int64 (glen data)) e). destruct (run_grows [match put_varint (int64 (glen data)) with Some bs => bs | None => [] end] e) as [n2 ->].
      rewrite <- app_assoc. eauto.
    + apply PutVarString_grows.
    + unfold PutRecordHeader. destruct (e_err e); [exists []; symmetry; apply app_nil_r|].
      destruct (PutVarString_grows value (PutVarString key e)) as [n1 ->].
      destruct (PutVarString_grows key e) as [n2 ->]. rewrite <- app_assoc. eauto.
  - destruct (perform_runs c U) as [cs H]. rewrite (H e). apply run_grows.
Qed.

Lemma put_output : forall c, exists bs, forall e, reliable e ->
  reliable (perform c e) /\ output (perform c e) = output e ++ bs /\
  exists new, t_log (e_target (perform c e)) = t_log (e_target e) ++ new.
Proof.
  intros c. destruct (perform_emits c) as [bs H]. exists bs. intros e He. destruct (H e He) as [H1 H2].
  split; [exact H1|]. split; [exact H2|]. apply perform_grows.
Qed.

Lemma decoder_bounds :
  Bounded dBool /\ Bounded dInt8 /\ Bounded dInt16 /\ Bounded dInt32 /\ Bounded dInt64 /\ Bounded dArrayLength /\
  Bounded dString /\ Bounded dNullableString /\ Bounded dBytes /\
  Bounded dInt32Array /\ Bounded dInt64Array /\ Bounded dStringArray /\
  (forall n, 0 <= n -> Bounded (dDiscard n)).
Proof.
  repeat match goal with |- _ /\ _ => split end.
  - apply Bounded_bool. - apply Bounded_int8. - apply Bounded_int16. - apply Bounded_int32. - apply Bounded_int64.
  - apply Bounded_int32. - apply Bounded_string.
  - apply Bounded_bind; [apply Bounded_string|]. intros a. apply Bounded_ret.
  - apply Bounded_bytes.
  - apply Bounded_prim_array, Bounded_int32. - apply Bounded_prim_array, Bounded_int64.
  - apply Bounded_prim_array, Bounded_string.
  - exact dDiscard_bounded.
Qed.

Lemma primitives_local :
  Local dBool /\ Local dInt8 /\ Local dInt16 /\ Local dInt32 /\ Local dInt64 /\ Local dArrayLength /\
  Local dString /\ Local dNullableString /\ Local dBytes /\
  Local dInt32Array /\ Local dInt64Array /\ Local dStringArray /\ (forall n, 0 <= n -> Local (dDiscard n)).
Proof.
  repeat match goal with |- _ /\ _ => split end.
  - apply Local_bool. - apply Local_int8. - apply Local_int16. - apply Local_int32. - apply Local_int64.
  - apply Local_int32. - apply Local_string.
  - apply Local_bind; [apply Local_string|]. intros a. apply Local_ret.
  - apply Local_bytes.
  - apply Local_prim_array, Local_int32. - apply Local_prim_array, Local_int64.
  - apply Local_prim_array, Local_string.
  - exact dDiscard_local.
Qed.

Lemma reads_fixed {A} n (get : list Z -> option A) : looks_at n get -> forall d, dec_ok d ->
    (Z.of_nat n <= zlen (frame d) /\ exists x, fixed (Z.of_nat n) get d = DOk x (advance (Z.of_nat n) d)) \/
    (zlen (frame d) < Z.of_nat n /\ fixed (Z.of_nat n) get d = DErr ErrShortBuffer d).
Proof.
  intros Hl d Hd. destruct (Z.leb_spec (Z.of_nat n) (zlen (frame d))) as [H|H].
  - left. split; [exact H|]. apply fixed_succeeds; assumption.
  - right. split; [exact H|]. rewrite (fixed_eq n get d Hl Hd).
    destruct (Z.leb_spec (Z.of_nat n) (zlen (frame d))); [lia|reflexivity].
Qed.

Lemma fixed_width_reads :
  let reads_exactly A (m : Dec A) (n : Z) := forall d, dec_ok d ->
    (n <= zlen (frame d) /\ exists x, m d = DOk x (advance n d)) \/
    (zlen (frame d) < n /\ m d = DErr ErrShortBuffer d) in
  reads_exactly _ dBool 1 /\ reads_exactly _ dInt8 1 /\ reads_exactly _ dInt16 2 /\
  reads_exactly _ dInt32 4 /\ reads_exactly _ dInt64 8.
Proof.
  cbn zeta. repeat match goal with |- _ /\ _ => split end.
  - apply (reads_fixed 1), looks_at_head.
  - apply (reads_fixed 1), looks_at_head.
  - apply (reads_fixed 2), looks_at_map, looks_at_16.
  - apply (reads_fixed 4), looks_at_map, looks_at_32.
  - apply (reads_fixed 8), looks_at_map, looks_at_64.
Qed.

Lemma panics_on_negative_length : forall d, dec_ok d ->
  (dString d = DPanic <-> exists n d', dInt16 d = DOk n d' /\ n < -1) /\
  (dBytes d = DPanic <-> exists n d', dInt32 d = DOk n d' /\ n < 0) /\
  (dInt32Array d = DPanic <-> exists n d', dInt32 d = DOk n d' /\ n < -1) /\
  (dInt64Array d = DPanic <-> exists n d', dInt32 d = DOk n d' /\ n < -1).
Proof.
  intros d Hd. split; [apply dString_panic, Hd|]. split; [apply dBytes_panic, Hd|].
  split; apply prim_array_panic; try assumption.
  - apply Bounded_int32. - apply NoPanic_int32. - apply Bounded_int64. - apply NoPanic_int64.
Qed.

Lemma varint_denotes : forall d a b rest, dec_ok d -> frame d = a ++ b :: rest ->
  Forall is_byte a -> Forall continues a -> 0 <= b < 128 -> ~ overlong a b ->
  dVarInt d = DOk (unzz (value128 (a ++ [b]))) (advance (zlen a + 1) d) /\ is_int64 (unzz (value128 (a ++ [b]))).
Proof.
  intros d a b rest Hd Hf Hb Hc Hb' Ho. split.
  - rewrite (dVarInt_terminated d a b rest Hd Hf Hc ltac:(lia) Ho).
    rewrite (varint_value a b [] Hb Hc Hb' Ho). reflexivity.
  - apply unzz_range. split; [apply value128_range|]. apply value128_app_range; try assumption; lia.
Qed.

Lemma varint_not_local : ~ Local dVarInt.
Proof.
  intros H.
  specialize (H (mkDecoder [128] 1 0) (mkDecoder [128; 1] 1 0)).
  cbv in H. apply H.
  - split; [split; discriminate|discriminate].
  - split; [split; discriminate|discriminate].
  - reflexivity.
Qed.

Lemma varint_local : forall d1 d2 a b rest, dec_ok d1 -> dec_ok d2 ->
  frame d1 = a ++ b :: rest -> frame d2 = a ++ b :: rest ->
  Forall continues a -> b < 128 -> ~ overlong a b ->
  same_outcome (dVarInt d1) (dVarInt d2).
Proof.
  intros d1 d2 a b rest H1 H2 F1 F2 Hc Hb Ho.
  rewrite (dVarInt_terminated d1 a b rest H1 F1 Hc Hb Ho), (dVarInt_terminated d2 a b rest H2 F2 Hc Hb Ho).
  assert (E : zlen a + 1 = zlen (a ++ [b])) by (rewrite zlen_app; reflexivity). rewrite E.
  assert (G1 : frame d1 = (a ++ [b]) ++ rest) by (rewrite <- app_assoc; exact F1).
  assert (G2 : frame d2 = (a ++ [b]) ++ rest) by (rewrite <- app_assoc; exact F2).
  destruct (frame_advance_app d1 _ _ H1 G1) as [A1 B1]. destruct (frame_advance_app d2 _ _ H2 G2) as [A2 B2].
  cbn [same_outcome]. rewrite B1, B2. auto.
Qed.
