(** * Lemmas behind the primitive-codec properties *)
From Verif Require Import GoBase Binary Utf8 Encoder Decoder Sizeof Spec GoLemmas
  EncProofs DecProofs VarProofs Utf8Proofs SizeProofs.
Ltac Zify.zify_post_hook ::= Z.div_mod_to_equations.

(** ** Results of decoders that read a length prefix *)

Lemma fixed_ok_range {A} n (get : list Z -> option A) (P : A -> Prop) d x d' :
  (forall b y, get b = Some y -> P y) -> fixed n get d = DOk x d' -> P x.
Proof.
  intros Hg. unfold fixed. destruct (remains n d); [|discriminate].
  destruct (slice_from (d_raw d) (d_offset d)) as [b|]; [|discriminate].
  destruct (get b) as [y|] eqn:E; [|discriminate]. intros H. injection H as <- _. apply (Hg b y E).
Qed.

Lemma dInt16_range d x d' : dInt16 d = DOk x d' -> is_int16 x.
Proof.
  apply fixed_ok_range. intros b y. destruct (get_uint16 b); [|discriminate]. intros H. injection H as <-.
  apply (wrap_range 16). lia.
Qed.
Lemma dInt32_range d x d' : dInt32 d = DOk x d' -> is_int32 x.
Proof.
  apply fixed_ok_range. intros b y. destruct (get_uint32 b); [|discriminate]. intros H. injection H as <-.
  apply (wrap_range 32). lia.
Qed.

Lemma dec_ok_Ok {A} (m : Dec A) d x d' : Bounded m -> dec_ok d -> m d = DOk x d' -> dec_ok d'.
Proof.
  intros Hb Hd E. specialize (Hb d Hd). rewrite E in Hb. destruct Hb as (n & Hn & ->). apply dec_ok_advance; assumption.
Qed.

Lemma take_slice_len n d x d' : dec_ok d -> take_slice n d = DOk x d' -> zlen x = n.
Proof.
  intros Hd. rewrite take_slice_eq by exact Hd.
  destruct (Z.leb_spec n (zlen (frame d))); [|discriminate].
  destruct (Z.ltb_spec n 0); [discriminate|]. intros E. injection E as <- _.
  unfold zlen in *. rewrite firstn_length. lia.
Qed.

Lemma dString_len d s d' : dec_ok d -> dString d = DOk s d' -> zlen s < 2 ^ 15.
Proof.
  intros Hd. unfold dString, bind. destruct (dInt16 d) as [n d1|e d1|] eqn:E; [|discriminate|discriminate].
  pose proof (dInt16_range _ _ _ E) as Hr. unfold is_int16 in Hr.
  destruct (n =? -1).
  - unfold ret. intros H. injection H as <- _. change (zlen (@nil Z)) with 0. lia.
  - intros H. apply take_slice_len in H; [lia|]. apply (dec_ok_Ok _ _ _ _ Bounded_int16 Hd E).
Qed.

Lemma dBytes_len d s d' : dec_ok d -> dBytes d = DOk s d' -> glen s < 2 ^ 31.
Proof.
  intros Hd. unfold dBytes, bind. destruct (dInt32 d) as [n d1|e d1|] eqn:E; [|discriminate|discriminate].
  pose proof (dInt32_range _ _ _ E) as Hr. unfold is_int32 in Hr.
  destruct (take_slice n d1) as [x d2|e d2|] eqn:E2; [|discriminate|discriminate].
  unfold ret. intros H. injection H as <- _. apply take_slice_len in E2; [unfold glen; cbn [items]; lia|].
  apply (dec_ok_Ok _ _ _ _ Bounded_int32 Hd E).
Qed.

Lemma repeat_len {A} (f : Dec A) n : forall d xs d', repeat_dec n f d = DOk xs d' -> length xs = n.
Proof.
  induction n as [|n IH]; intros d xs d'; cbn [repeat_dec].
  - unfold ret. intros H. injection H as <- _. reflexivity.
  - unfold bind, ret. destruct (f d) as [x d1|e d1|]; [|discriminate|discriminate].
    destruct (repeat_dec n f d1) as [ys d2|e d2|] eqn:E; [|discriminate|discriminate].
    intros H. injection H as <- _. cbn [length]. f_equal. eapply IH, E.
Qed.

Lemma prim_array_len {A} (f : Dec A) d s d' : prim_array f d = DOk s d' -> glen s < 2 ^ 31.
Proof.
  unfold prim_array, bind, dArrayLength. destruct (dInt32 d) as [n d1|e d1|] eqn:E; [|discriminate|discriminate].
  pose proof (dInt32_range _ _ _ E) as Hr. unfold is_int32 in Hr.
  destruct (n =? -1).
  { unfold ret. intros H. injection H as <- _. cbn. lia. }
  destruct (Z.ltb_spec n 0); [discriminate|].
  destruct (repeat_dec (Z.to_nat n) f d1) as [xs d2|e d2|] eqn:E2; [|discriminate|discriminate].
  unfold ret. intros H1. injection H1 as <- _. apply repeat_len in E2. unfold glen, zlen. cbn [items]. lia.
Qed.

(** A decoder positioned on given bytes. *)
Definition on (bs : list Z) : Decoder := NewDecoder bs (zlen bs).
Lemma on_ok bs : dec_ok (on bs).
Proof. unfold dec_ok, on, NewDecoder. cbn. pose proof (zlen_nonneg bs). lia. Qed.
Lemma frame_on bs : frame (on bs) = bs.
Proof.
  unfold frame, on, NewDecoder. cbn [d_raw d_length d_offset]. rewrite Z.sub_0_r. change (Z.to_nat 0) with 0%nat.
  cbn [skipn]. apply firstn_all2. unfold zlen. lia.
Qed.

Lemma Decodes_on {A} (m : Dec A) bs x : Decodes m bs x -> exists d', m (on bs) = DOk x d'.
Proof.
  intros H. eexists. apply (H (on bs) []); [apply on_ok|]. rewrite frame_on, app_nil_r. reflexivity.
Qed.

Lemma long_string_lost s bs : Decodes dString bs s -> zlen s < 2 ^ 15.
Proof. intros H. destruct (Decodes_on _ _ _ H) as [d' E]. apply (dString_len _ _ _ (on_ok bs) E). Qed.
Lemma long_bytes_lost s bs : Decodes dBytes bs s -> glen s < 2 ^ 31.
Proof. intros H. destruct (Decodes_on _ _ _ H) as [d' E]. apply (dBytes_len _ _ _ (on_ok bs) E). Qed.
Lemma long_array_lost {A} (f : Dec A) s bs : Decodes (prim_array f) bs s -> glen s < 2 ^ 31.
Proof. intros H. destruct (Decodes_on _ _ _ H) as [d' E]. apply (prim_array_len _ _ _ _ E). Qed.

(** ** Panics of the primitive decoders *)

Lemma dString_panic d : dec_ok d ->
  (dString d = DPanic <-> exists n d', dInt16 d = DOk n d' /\ n < -1).
Proof.
  intros Hd. unfold dString, bind. split.
  - destruct (dInt16 d) as [n d1|e d1|] eqn:E; [|discriminate|].
    + intros H. exists n, d1. split; [reflexivity|]. destruct (Z.eqb_spec n (-1)); [discriminate|].
      rewrite take_slice_eq in H by apply (dec_ok_Ok _ _ _ _ Bounded_int16 Hd E).
      destruct (n <=? _); [|discriminate]. destruct (Z.ltb_spec n 0); [lia|discriminate].
    + exfalso. apply (NoPanic_int16 d Hd E).
  - intros (n & d1 & E & Hn). rewrite E. destruct (Z.eqb_spec n (-1)); [lia|].
    pose proof (dec_ok_Ok _ _ _ _ Bounded_int16 Hd E) as Hd1.
    rewrite take_slice_eq by exact Hd1. pose proof (zlen_nonneg (frame d1)).
    destruct (Z.leb_spec n (zlen (frame d1))); [|lia]. destruct (Z.ltb_spec n 0); [reflexivity|lia].
Qed.

Lemma dBytes_panic d : dec_ok d ->
  (dBytes d = DPanic <-> exists n d', dInt32 d = DOk n d' /\ n < 0).
Proof.
  intros Hd. unfold dBytes, bind. split.
  - destruct (dInt32 d) as [n d1|e d1|] eqn:E; [|discriminate|].
    + intros H. exists n, d1. split; [reflexivity|].
      rewrite take_slice_eq in H by apply (dec_ok_Ok _ _ _ _ Bounded_int32 Hd E).
      destruct (n <=? _); [|discriminate]. destruct (Z.ltb_spec n 0); [assumption|discriminate].
    + exfalso. apply (NoPanic_int32 d Hd E).
  - intros (n & d1 & E & Hn). rewrite E.
    pose proof (dec_ok_Ok _ _ _ _ Bounded_int32 Hd E) as Hd1.
    rewrite take_slice_eq by exact Hd1. pose proof (zlen_nonneg (frame d1)).
    destruct (Z.leb_spec n (zlen (frame d1))); [|lia]. destruct (Z.ltb_spec n 0); [reflexivity|lia].
Qed.

Lemma prim_array_panic {A} (f : Dec A) d : Bounded f -> NoPanic f -> dec_ok d ->
  (prim_array f d = DPanic <-> exists n d', dInt32 d = DOk n d' /\ n < -1).
Proof.
  intros Hb Hp Hd. unfold prim_array, bind, dArrayLength. split.
  - destruct (dInt32 d) as [n d1|e d1|] eqn:E; [|discriminate|].
    + intros H. exists n, d1. split; [reflexivity|]. destruct (Z.eqb_spec n (-1)); [discriminate|].
      destruct (Z.ltb_spec n 0); [lia|]. exfalso.
      pose proof (dec_ok_Ok _ _ _ _ Bounded_int32 Hd E) as Hd1.
      pose proof (NoPanic_repeat (Z.to_nat n) f Hb Hp d1 Hd1) as Hr. fold (@bind) in H.
      destruct (repeat_dec (Z.to_nat n) f d1); [discriminate|discriminate|congruence].
    + exfalso. apply (NoPanic_int32 d Hd E).
  - intros (n & d1 & E & Hn). rewrite E. destruct (Z.eqb_spec n (-1)); [lia|].
    destruct (Z.ltb_spec n 0); [reflexivity|lia].
Qed.

(** ** Failed fixed-width reads *)

Lemma fixed_fails {A} n (get : list Z -> option A) d e d' : fixed n get d = DErr e d' -> d' = d /\ e = ErrShortBuffer.
Proof.
  unfold fixed. destruct (remains n d).
  - destruct (slice_from _ _); [|discriminate]. destruct (get l); discriminate.
  - intros H. injection H as <- <-. auto.
Qed.

Lemma fixed_succeeds {A} n (get : list Z -> option A) d : looks_at n get -> dec_ok d ->
  ((exists x, fixed (Z.of_nat n) get d = DOk x (advance (Z.of_nat n) d)) <-> Z.of_nat n <= zlen (frame d)).
Proof.
  intros Hl Hd. rewrite (fixed_eq n get d Hl Hd). destruct (Z.leb_spec (Z.of_nat n) (zlen (frame d))).
  - split; [intros _; assumption|]. intros _. destruct Hl as [_ Hl].
    assert (Hn : length (firstn n (frame d)) = n) by (rewrite firstn_length; unfold zlen in *; lia).
    specialize (Hl _ Hn). destruct (get (firstn n (frame d))); [eauto|congruence].
  - split; [|lia]. intros (x & Hx). discriminate.
Qed.

(** ** Discard *)
Lemma dDiscard_bounded n : 0 <= n -> Bounded (dDiscard n).
Proof.
  intros Hn d Hd. unfold dDiscard. rewrite remains_spec by exact Hd.
  destruct (Z.leb_spec n (zlen (frame d))).
  - exists n. auto.
  - split; [reflexivity|]. exists 0. rewrite advance_0. pose proof (zlen_nonneg (frame d)). auto with zarith.
Qed.
Lemma dDiscard_spec n d : dec_ok d -> dDiscard n d = if n <=? zlen (frame d) then DOk tt (advance n d) else DErr ErrShortBuffer d.
Proof. intros Hd. unfold dDiscard. rewrite remains_spec by exact Hd. reflexivity. Qed.
Lemma dDiscard_local n : 0 <= n -> Local (dDiscard n).
Proof.
  intros Hn d1 d2 H1 H2 Hf. rewrite !dDiscard_spec by assumption. rewrite Hf.
  destruct (Z.leb_spec n (zlen (frame d2))); cbn [same_outcome]; [|reflexivity].
  split; [reflexivity|]. rewrite <- Hf in H. split; [apply dec_ok_advance; [assumption|lia]|].
  rewrite Hf in H. split; [apply dec_ok_advance; [assumption|lia]|].
  rewrite !frame_advance; try assumption; try lia; [|rewrite Hf; lia]. rewrite Hf. reflexivity.
Qed.

(** ** The number a base-128 sequence denotes *)

Lemma unzz_zz z : unzz (zz z) = z.
Proof.
  unfold unzz, zz. destruct (Z.ltb_spec z 0).
  - replace (-2 * z - 1) with (2 * (- z - 1) + 1) by lia.
    replace (Z.even (2 * (- z - 1) + 1)) with false.
    + lia.
    + symmetry. rewrite Z.add_1_r, Z.even_succ, <- Z.negb_even, Z.even_mul. reflexivity.
  - rewrite Z.even_mul. cbn [Z.even orb]. lia.
Qed.
Lemma zz_unzz x : 0 <= x -> zz (unzz x) = x.
Proof.
  intros Hx. unfold zz, unzz. destruct (Z.even x) eqn:E.
  - apply Z.even_spec in E. destruct E as [k ->]. replace (2 * k / 2) with k by lia.
    destruct (Z.ltb_spec k 0); lia.
  - rewrite <- Z.negb_odd in E. apply negb_false_iff, Z.odd_spec in E. destruct E as [k ->].
    replace ((2 * k + 1 + 1) / 2) with (k + 1) by lia. destruct (Z.ltb_spec (- (k + 1)) 0); lia.
Qed.
Lemma unzz_range x : 0 <= x < 2 ^ 64 -> is_int64 (unzz x).
Proof. intros Hx. unfold unzz, is_int64. destruct (Z.even x); lia. Qed.

Lemma value128_range bs : 0 <= value128 bs < 128 ^ zlen bs.
Proof.
  induction bs as [|b bs IH]; [cbn; lia|]. cbn [value128]. rewrite zlen_cons, Z.pow_add_r by (try lia; apply zlen_nonneg).
  change (128 ^ 1) with 128. pose proof (Z.mod_pos_bound b 128 ltac:(lia)). nia.
Qed.

(** Continuation bytes followed by a terminator: the same bytes as the base-128
    form of the number they denote, on that many groups. *)
Lemma base128_value a : forall b, Forall is_byte a -> Forall continues a -> 0 <= b < 128 ->
  base128 (S (length a)) (value128 (a ++ [b])) = a ++ [b].
Proof.
  induction a as [|c a IH]; intros b Ha Hc Hb.
  - cbn [length app base128 value128]. f_equal. lia.
  - inversion Ha as [|? ? Hc0 Ha']; subst. inversion Hc as [|? ? Hc1 Hc']; subst.
    specialize (IH b Ha' Hc' Hb). cbn [length app value128].
    set (V := value128 (a ++ [b])) in *.
    assert (E : forall n x, base128 (S (S n)) x = (x mod 128 + 128) :: base128 (S n) (x / 128)) by reflexivity.
    rewrite E. unfold is_byte, continues in *.
    replace ((c mod 128 + 128 * V) / 128) with V by lia.
    replace ((c mod 128 + 128 * V) mod 128) with (c mod 128) by lia.
    rewrite IH. f_equal. lia.
Qed.

Lemma value128_app_range a b : Forall is_byte a -> 0 <= b -> ~ overlong a b -> b < 128 -> value128 (a ++ [b]) < 2 ^ 64.
Proof.
  intros Ha Hb0 Ho Hb. unfold overlong in Ho.
  pose proof (zlen_nonneg a) as Hl.
  assert (H : value128 (a ++ [b]) = value128 a + 128 ^ zlen a * b).
  { clear Ho Hl. induction a as [|c a IH].
    { cbn [app value128]. change (zlen (@nil Z)) with 0. change (128 ^ 0) with 1. rewrite (Z.mod_small b 128) by lia. lia. }
    inversion Ha; subst. cbn [app value128]. rewrite IH by assumption.
    rewrite zlen_cons, Z.pow_add_r by (try lia; apply zlen_nonneg). change (128 ^ 1) with 128. rewrite (Z.mul_add_distr_l 128), Z.add_assoc, Z.mul_assoc. reflexivity. }
  rewrite H. pose proof (value128_range a) as Hv.
  assert (Hc : zlen a <= 8 \/ (zlen a = 9 /\ b <= 1)) by lia. destruct Hc as [Hc|[Hc Hb1]].
  - assert (128 ^ zlen a <= 128 ^ 8) by (apply Z.pow_le_mono_r; lia). change (128 ^ 8) with (2 ^ 56) in *. nia.
  - rewrite Hc in *. change (128 ^ 9) with (2 ^ 63) in *. nia.
Qed.

Lemma uvarint_value a b rest : Forall is_byte a -> Forall continues a -> 0 <= b < 128 -> ~ overlong a b ->
  uvarint_loop (a ++ b :: rest) 0 0 0 = (value128 (a ++ [b]), zlen a + 1).
Proof.
  intros Ha Hc Hb Ho.
  replace (a ++ b :: rest) with ((a ++ [b]) ++ rest) by (rewrite <- app_assoc; reflexivity).
  rewrite <- (base128_value a b Ha Hc Hb) at 1.
  pose proof (value128_range (a ++ [b])) as Hv.
  rewrite zlen_app in Hv. change (zlen [b]) with 1 in Hv.
  assert (El : Z.of_nat (S (length a)) = zlen a + 1) by (unfold zlen; lia).
  pose proof (value128_app_range a b Ha ltac:(lia) Ho ltac:(lia)).
  change 0 with (7 * 0) at 3. rewrite uvarint_loop_base128; try lia.
  - rewrite El. f_equal; lia.
  - rewrite El. unfold overlong in Ho. lia.
  - rewrite El. lia.
Qed.

Lemma varint_value a b rest : Forall is_byte a -> Forall continues a -> 0 <= b < 128 -> ~ overlong a b ->
  varint (a ++ b :: rest) = (unzz (value128 (a ++ [b])), zlen a + 1).
Proof.
  intros Ha Hc Hb Ho. unfold varint, uvarint. rewrite uvarint_value by assumption.
  pose proof (value128_app_range a b Ha ltac:(lia) Ho ltac:(lia)).
  pose proof (value128_range (a ++ [b])) as Hv.
  rewrite <- (zz_unzz (value128 (a ++ [b]))) at 1 by lia. rewrite unzigzag_zz by (apply unzz_range; lia). reflexivity.
Qed.
