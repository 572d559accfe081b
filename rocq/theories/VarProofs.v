(** * Proofs about variable-length integers *)
From Verif Require Import GoBase Binary Utf8 Encoder Decoder Sizeof Spec GoLemmas EncProofs DecProofs.
Ltac Zify.zify_post_hook ::= Z.div_mod_to_equations.

(** ** Zig-zag *)

Lemma zz_range x : is_int64 x -> 0 <= zz x < 2 ^ 64.
Proof. unfold is_int64, zz. intros H. destruct (Z.ltb_spec x 0); lia. Qed.

Lemma zigzag_zz x : is_int64 x -> zigzag x = zz x.
Proof.
  unfold is_int64, zigzag, zz, uint64. intros H.
  rewrite Z.shiftl_mul_pow2 by lia. rewrite Zmult_mod_idemp_l.
  destruct (Z.ltb_spec x 0).
  - replace (Z.lnot ((x * 2 ^ 1) mod 2 ^ 64)) with (- ((x * 2 ^ 1) mod 2 ^ 64) - 1)
      by (unfold Z.lnot; lia).
    change (2 ^ 1) with 2. change (2 ^ 64) with 18446744073709551616 in *. change (2 ^ 63) with 9223372036854775808 in *. lia.
  - change (2 ^ 1) with 2. change (2 ^ 64) with 18446744073709551616 in *. change (2 ^ 63) with 9223372036854775808 in *. lia.
Qed.

Lemma unzigzag_zz x : is_int64 x -> unzigzag (zz x) = x.
Proof.
  intros H. unfold unzigzag.
  assert (Hl : Z.land (zz x) 1 = zz x mod 2) by (apply (land_mask (zz x) 1); lia).
  rewrite Hl. rewrite Z.shiftr_div_pow2 by lia. change (2 ^ 1) with 2.
  unfold is_int64 in H. unfold zz. destruct (Z.ltb_spec x 0).
  - replace ((-2 * x - 1) mod 2 =? 0) with false by (symmetry; apply Z.eqb_neq; lia). cbn [negb].
    replace ((-2 * x - 1) / 2) with (- x - 1) by lia.
    rewrite int64_id by (unfold is_int64; lia). unfold Z.lnot. lia.
  - replace (2 * x mod 2 =? 0) with true by (symmetry; apply Z.eqb_eq; lia). cbn [negb].
    replace (2 * x / 2) with x by lia. apply int64_id. unfold is_int64. lia.
Qed.

(** ** base 128 *)

Lemma length_base128 n x : length (base128 n x) = n.
Proof.
  revert x. induction n as [|n IH]; intros x; [reflexivity|].
  cbn [base128]. destruct n as [|n]; [reflexivity|]. cbn [length]. rewrite IH. reflexivity.
Qed.
Lemma zlen_base128 n x : zlen (base128 n x) = Z.of_nat n.
Proof. unfold zlen. rewrite length_base128. reflexivity. Qed.

Lemma base128_bytes n x : Forall is_byte (base128 n x).
Proof.
  revert x. induction n as [|n IH]; intros x; [constructor|].
  cbn [base128]. destruct n as [|n]; constructor; try (unfold is_byte; lia); [constructor|apply IH].
Qed.

Definition minimal128 (n : nat) (x : Z) : Prop :=
  (1 <= n)%nat /\ 0 <= x < 128 ^ Z.of_nat n /\ ((1 < n)%nat -> 128 ^ (Z.of_nat n - 1) <= x).

Lemma minimal128_exists k x : (1 <= k)%nat -> 0 <= x < 128 ^ Z.of_nat k ->
  exists n, (n <= k)%nat /\ minimal128 n x.
Proof.
  induction k as [|k IH]; intros Hk Hx; [lia|].
  destruct k as [|k].
  - exists 1%nat. unfold minimal128. repeat split; lia.
  - destruct (Z.ltb_spec x (128 ^ Z.of_nat (S k))) as [Hlt|Hge].
    + destruct IH as (n & Hn & Hm); [lia|lia|]. exists n. split; [lia|exact Hm].
    + exists (S (S k)). split; [lia|]. unfold minimal128.
      split; [lia|]. split; [exact Hx|]. intros _.
      replace (Z.of_nat (S (S k)) - 1) with (Z.of_nat (S k)) by lia. exact Hge.
Qed.

Lemma lor_128 y : 0 <= y < 256 -> Z.lor y 128 = y mod 128 + 128.
Proof.
  intros Hy.
  assert (H : forallb (fun k => Z.lor (Z.of_nat k) 128 =? Z.of_nat k mod 128 + 128) (List.seq 0 256) = true)
    by (vm_compute; reflexivity).
  rewrite forallb_forall in H. specialize (H (Z.to_nat y)).
  rewrite Z2Nat.id in H by lia. apply Z.eqb_eq, H, in_seq. lia.
Qed.

Lemma pow128_S n : 128 ^ Z.of_nat (S n) = 128 * 128 ^ Z.of_nat n.
Proof. rewrite Nat2Z.inj_succ, Z.pow_succ_r by lia. reflexivity. Qed.

Lemma put_uvarint_base128 n : forall room x,
  minimal128 n x -> (n <= room)%nat -> put_uvarint room x = Some (base128 n x).
Proof.
  induction n as [|n IH]; intros room x (Hn & Hx & Hmin) Hroom; [lia|].
  destruct room as [|room]; [lia|]. cbn [put_uvarint base128].
  destruct n as [|n].
  - change (128 ^ Z.of_nat 1) with 128 in Hx.
    replace (128 <=? x) with false by (symmetry; apply Z.leb_gt; lia).
    unfold uint8. f_equal. f_equal. change (2 ^ 8) with 256. lia.
  - specialize (Hmin ltac:(lia)). replace (Z.of_nat (S (S n)) - 1) with (Z.of_nat (S n)) in Hmin by lia.
    rewrite pow128_S in Hx.
    assert (Hp1 : 1 <= 128 ^ Z.of_nat n) by (pose proof (Z.pow_pos_nonneg 128 (Z.of_nat n)); lia).
    assert (Hge : 128 <= x) by (rewrite pow128_S in Hmin; lia).
    replace (128 <=? x) with true by (symmetry; apply Z.leb_le; lia).
    rewrite Z.shiftr_div_pow2 by lia. change (2 ^ 7) with 128.
    rewrite IH; [|unfold minimal128; split; [lia|]; split|lia].
    + rewrite lor_128 by apply uint8_range. unfold uint8. change (2 ^ 8) with 256.
      f_equal. f_equal. lia.
    + lia.
    + intros Hn1. replace (Z.of_nat (S n) - 1) with (Z.of_nat n) by lia.
      rewrite pow128_S in Hmin. lia.
Qed.

Lemma pow_128_10 : 2 ^ 64 <= 128 ^ Z.of_nat 10.
Proof. vm_compute. discriminate. Qed.

Lemma put_varint_spec x : is_int64 x ->
  exists n, (n <= 10)%nat /\ minimal128 n (zz x) /\ put_varint x = Some (base128 n (zz x)).
Proof.
  intros Hx. pose proof (zz_range x Hx) as Hz. pose proof pow_128_10 as Hp.
  destruct (minimal128_exists 10 (zz x)) as (n & Hn & Hm); [lia|lia|].
  exists n. split; [exact Hn|]. split; [exact Hm|]. unfold put_varint. rewrite zigzag_zz by exact Hx.
  apply put_uvarint_base128; [exact Hm|lia].
Qed.

Lemma zigzag_range x : 0 <= zigzag x < 2 ^ 64.
Proof. unfold zigzag, uint64. destruct (x <? 0); apply Z.mod_pos_bound; reflexivity. Qed.

(** The scratch buffer is always large enough. *)
Lemma put_varint_total x : exists bs, put_varint x = Some bs /\ (1 <= length bs <= 10)%nat.
Proof.
  pose proof (zigzag_range x) as Hz. pose proof pow_128_10 as Hp.
  destruct (minimal128_exists 10 (zigzag x)) as (n & Hn & Hm); [lia|lia|].
  exists (base128 n (zigzag x)). split; [apply put_uvarint_base128; [exact Hm|lia]|].
  rewrite length_base128. destruct Hm. lia.
Qed.

(** ** Reading back *)

Lemma pow2_7i i : 0 <= i -> 2 ^ (7 * (i + 1)) = 128 * 2 ^ (7 * i).
Proof. intros Hi. replace (7 * (i + 1)) with (7 + 7 * i) by lia. rewrite Z.pow_add_r by lia. reflexivity. Qed.

Lemma uvarint_loop_base128 n : forall x i acc rest,
  (1 <= n)%nat -> 0 <= i -> i + Z.of_nat n <= 10 ->
  0 <= x < 128 ^ Z.of_nat n -> 0 <= acc < 2 ^ (7 * i) -> x * 2 ^ (7 * i) < 2 ^ 64 ->
  uvarint_loop (base128 n x ++ rest) i acc (7 * i) = (acc + x * 2 ^ (7 * i), i + Z.of_nat n).
Proof.
  induction n as [|n IH]; intros x i acc rest Hn Hi Hin Hx Hacc Hfit; [lia|].
  assert (Hp : 0 < 2 ^ (7 * i)) by (apply Z.pow_pos_nonneg; lia).
  cbn [base128]. destruct n as [|n].
  - change (128 ^ Z.of_nat 1) with 128 in Hx. cbn [app uvarint_loop].
    rewrite Z.mod_small by lia.
    replace (x <? 128) with true by (symmetry; apply Z.ltb_lt; lia).
    replace ((9 <? i) || ((i =? 9) && (1 <? x))) with false.
    + rewrite lor_add_high with (n := 7 * i); [| lia | lia |].
      * unfold uint64. rewrite Z.shiftl_mul_pow2 by lia. rewrite Z.mod_small by nia. reflexivity.
      * unfold uint64. rewrite Z.shiftl_mul_pow2 by lia. rewrite (Z.mod_small (x * 2 ^ (7 * i)) (2 ^ 64)) by nia.
        apply Z.mod_mul. lia.
    + symmetry. destruct (Z.ltb_spec 9 i); [lia|]. cbn [orb].
      destruct (Z.eqb_spec i 9) as [->|]; [|reflexivity]. cbn [andb].
      apply Z.ltb_ge. change (2 ^ (7 * 9)) with 9223372036854775808 in *.
      change (2 ^ 64) with 18446744073709551616 in *. lia.
  - cbn [app uvarint_loop].
    replace (x mod 128 + 128 <? 128) with false by (symmetry; apply Z.ltb_ge; lia).
    assert (Hl : Z.land (x mod 128 + 128) 127 = x mod 128).
    { change 127 with (2 ^ 7 - 1). rewrite land_mask by lia. change (2 ^ 7) with 128. lia. }
    rewrite Hl. rewrite Z.shiftl_mul_pow2 by lia.
    assert (Hm : 0 <= x mod 128 < 128) by lia.
    assert (Hd : x = 128 * (x / 128) + x mod 128) by lia.
    assert (Hq : 0 <= x / 128) by lia.
    assert (Hle : (x mod 128) * 2 ^ (7 * i) < 2 ^ 64) by nia.
    unfold uint64. rewrite (Z.mod_small (x mod 128 * 2 ^ (7 * i))) by nia.
    rewrite lor_add_high with (n := 7 * i); [| lia | lia | apply Z.mod_mul; lia].
    replace (7 * i + 7) with (7 * (i + 1)) by lia.
    rewrite IH.
    + rewrite pow2_7i by lia. f_equal; [|lia]. set (p := 2 ^ (7 * i)) in *. nia.
    + lia.
    + lia.
    + lia.
    + rewrite pow128_S in Hx. lia.
    + rewrite pow2_7i by lia. set (p := 2 ^ (7 * i)) in *. nia.
    + rewrite pow2_7i by lia. set (p := 2 ^ (7 * i)) in *. nia.
Qed.

Lemma varint_base128 x n rest : is_int64 x -> minimal128 n (zz x) -> (n <= 10)%nat ->
  varint (base128 n (zz x) ++ rest) = (x, Z.of_nat n).
Proof.
  intros Hx (Hn & Hr & _) H10. unfold varint, uvarint.
  pose proof (zz_range x Hx) as Hz.
  change 0 with (7 * 0) at 3. rewrite uvarint_loop_base128 by (lia || (change (2 ^ (7 * 0)) with 1; lia)).
  change (2 ^ (7 * 0)) with 1. rewrite Z.mul_1_r. cbn [Z.add].
  rewrite unzigzag_zz by exact Hx. reflexivity.
Qed.

Lemma Decodes_dVarInt x bs : is_int64 x -> put_varint x = Some bs -> Decodes dVarInt bs x.
Proof.
  intros Hx Hbs d rest Hd Hf.
  destruct (put_varint_spec x Hx) as (n & Hn & Hm & E). rewrite E in Hbs. injection Hbs as <-.
  unfold dVarInt. destruct (slice_from_ok d Hd) as [tail Ht]. rewrite Ht, Hf, <- app_assoc.
  rewrite varint_base128 by assumption. destruct Hm as [Hn1 _].
  replace (Z.of_nat n =? 0) with false by (symmetry; apply Z.eqb_neq; lia).
  replace (Z.of_nat n =? -1) with false by (symmetry; apply Z.eqb_neq; lia).
  rewrite zlen_base128. reflexivity.
Qed.

Lemma Runs_PutVarInt i : Runs (PutVarInt i) [match put_varint i with Some bs => bs | None => [] end].
Proof.
  intros e. unfold PutVarInt, run_chunks, put_chunk. cbn [fold_left].
  destruct (put_varint_total i) as (bs & E & _). rewrite E. destruct (e_err e); reflexivity.
Qed.


Lemma uvarint_unterminated buf : Forall continues buf -> forall i x s, uvarint_loop buf i x s = (0, 0).
Proof.
  intros H. induction H as [|b buf Hb Hf IH]; intros i x s; [reflexivity|].
  cbn [uvarint_loop]. unfold continues in Hb.
  replace (b <? 128) with false by (symmetry; apply Z.ltb_ge; lia). apply IH.
Qed.

Lemma uvarint_terminated a : Forall continues a -> forall b rest rest' i x s,
  b < 128 -> uvarint_loop (a ++ b :: rest) i x s = uvarint_loop (a ++ b :: rest') i x s.
Proof.
  intros H. induction H as [|c a Hc Hf IH]; intros b rest rest' i x s Hb; cbn [app uvarint_loop].
  - replace (b <? 128) with true by (symmetry; apply Z.ltb_lt; lia). reflexivity.
  - unfold continues in Hc. replace (c <? 128) with false by (symmetry; apply Z.ltb_ge; lia). apply IH. exact Hb.
Qed.


Lemma uvarint_count a : Forall continues a -> forall b rest i x s, b < 128 ->
  snd (uvarint_loop (a ++ b :: rest) i x s) =
    (if (9 <? i + zlen a) || ((i + zlen a =? 9) && (1 <? b)) then -1 else 1) * (i + zlen a + 1).
Proof.
  intros H. induction H as [|c a Hc Hf IH]; intros b rest i x s Hb; cbn [app uvarint_loop].
  - replace (b <? 128) with true by (symmetry; apply Z.ltb_lt; lia). change (zlen (@nil Z)) with 0; rewrite !Z.add_0_r.
    destruct ((9 <? i) || ((i =? 9) && (1 <? b))); cbn [snd]; lia.
  - unfold continues in Hc. replace (c <? 128) with false by (symmetry; apply Z.ltb_ge; lia).
    rewrite IH by exact Hb. rewrite zlen_cons, Z.add_assoc. reflexivity.
Qed.

Lemma uvarint_overlong_value a : Forall continues a -> forall b rest i x s, b < 128 ->
  (9 < i + zlen a \/ (i + zlen a = 9 /\ 1 < b)) ->
  uvarint_loop (a ++ b :: rest) i x s = (0, - (i + zlen a + 1)).
Proof.
  intros H. induction H as [|c a Hc Hf IH]; intros b rest i x s Hb Ho; cbn [app uvarint_loop].
  - replace (b <? 128) with true by (symmetry; apply Z.ltb_lt; lia). change (zlen (@nil Z)) with 0 in *; rewrite !Z.add_0_r in *.
    replace ((9 <? i) || ((i =? 9) && (1 <? b))) with true; [reflexivity|].
    symmetry. apply orb_true_iff. destruct Ho as [Ho|[Ho Hb1]]; [left; apply Z.ltb_lt; lia|right].
    apply andb_true_iff. split; [apply Z.eqb_eq; lia|apply Z.ltb_lt; lia].
  - unfold continues in Hc. replace (c <? 128) with false by (symmetry; apply Z.ltb_ge; lia).
    rewrite zlen_cons in *. rewrite IH by (lia || assumption). f_equal. lia.
Qed.

Lemma first_terminator buf :
  Forall continues buf \/ exists a b rest, buf = a ++ b :: rest /\ Forall continues a /\ b < 128.
Proof.
  induction buf as [|c buf IH]; [left; constructor|].
  destruct (Z.ltb_spec c 128) as [Hlt|Hge].
  - right. exists [], c, buf. repeat split; [constructor|exact Hlt].
  - destruct IH as [IH|(a & b & rest & -> & Ha & Hb)].
    + left. constructor; assumption.
    + right. exists (c :: a), b, rest. repeat split; [constructor; assumption|exact Hb].
Qed.

(** VarInt never reports an overflow. *)
Lemma dVarInt_no_overflow_error d : forall d', dVarInt d <> DErr ErrVarIntOverflow d'.
Proof.
  intros d'. unfold dVarInt. destruct (slice_from (d_raw d) (d_offset d)) as [buf|]; [|discriminate].
  unfold varint, uvarint. destruct (uvarint_loop buf 0 0 0) as [ux n] eqn:E.
  destruct (n =? 0) eqn:E0; [discriminate|].
  assert (Hn : n <> -1).
  { destruct (first_terminator buf) as [Hc|(a & b & rest & -> & Ha & Hb)].
    - rewrite uvarint_unterminated in E by exact Hc. injection E as <- <-. lia.
    - pose proof (uvarint_count a Ha b rest 0 0 0 Hb) as Hs. rewrite E in Hs. cbn [snd] in Hs.
      pose proof (zlen_nonneg a) as Hz. rewrite Z.add_0_l in Hs.
      destruct (9 <? zlen a) eqn:E9.
      + cbn [orb] in Hs. apply Z.ltb_lt in E9. lia.
      + destruct (zlen a =? 9) eqn:E8; cbn [orb andb] in Hs.
        * apply Z.eqb_eq in E8. destruct (1 <? b); lia.
        * lia. }
  replace (n =? -1) with false by (symmetry; apply Z.eqb_neq; exact Hn). discriminate.
Qed.

(** On an overlong encoding it returns 0 without error and moves backwards. *)
Lemma dVarInt_overlong d a b rest : dec_ok d -> frame d = a ++ b :: rest ->
  Forall continues a -> b < 128 -> overlong a b ->
  dVarInt d = DOk 0 (advance (- (zlen a + 1)) d).
Proof.
  intros Hd Hf Ha Hb Ho. unfold dVarInt. destruct (slice_from_ok d Hd) as [tail Ht]. rewrite Ht, Hf.
  rewrite <- app_assoc. cbn [app]. unfold varint, uvarint.
  rewrite uvarint_overlong_value by (try assumption; unfold overlong in Ho; lia).
  pose proof (zlen_nonneg a) as Hz. rewrite Z.add_0_l.
  assert (H9 : 9 <= zlen a) by (destruct Ho; lia).
  replace (- (zlen a + 1) =? 0) with false by (symmetry; apply Z.eqb_neq; lia).
  replace (- (zlen a + 1) =? -1) with false by (symmetry; apply Z.eqb_neq; lia).
  reflexivity.
Qed.

(** A terminated encoding that is not overlong: the result depends on it alone. *)
Lemma dVarInt_terminated d a b rest : dec_ok d -> frame d = a ++ b :: rest ->
  Forall continues a -> b < 128 -> ~ overlong a b ->
  dVarInt d = DOk (fst (varint (a ++ [b]))) (advance (zlen a + 1) d).
Proof.
  intros Hd Hf Ha Hb Ho. unfold dVarInt. destruct (slice_from_ok d Hd) as [tail Ht]. rewrite Ht, Hf.
  rewrite <- app_assoc. cbn [app]. unfold varint, uvarint.
  rewrite (uvarint_terminated a Ha b (rest ++ tail) [] 0 0 0 Hb).
  pose proof (uvarint_count a Ha b [] 0 0 0 Hb) as Hs.
  destruct (uvarint_loop (a ++ [b]) 0 0 0) as [ux n]. cbn [snd fst] in *.
  rewrite Z.add_0_l in Hs. unfold overlong in Ho.
  replace ((9 <? zlen a) || ((zlen a =? 9) && (1 <? b))) with false in Hs.
  - pose proof (zlen_nonneg a) as Hz. rewrite Z.mul_1_l in Hs. subst n.
    replace (zlen a + 1 =? 0) with false by (symmetry; apply Z.eqb_neq; lia).
    replace (zlen a + 1 =? -1) with false by (symmetry; apply Z.eqb_neq; lia). reflexivity.
  - symmetry. apply orb_false_iff. split; [apply Z.ltb_ge; lia|].
    destruct (Z.eqb_spec (zlen a) 9); [|reflexivity]. apply Z.ltb_ge. lia.
Qed.

(** Nothing terminates before the end of the buffer: insufficient data. *)
Lemma dVarInt_unterminated d : dec_ok d -> d_length d = zlen (d_raw d) -> Forall continues (frame d) ->
  exists d', dVarInt d = DErr ErrShortBuffer d'.
Proof.
  intros Hd Hl Hc. unfold dVarInt.
  assert (Hs : slice_from (d_raw d) (d_offset d) = Some (frame d)).
  { unfold slice_from, slice, frame. destruct Hd as [H1 H2].
    replace (0 <=? d_offset d) with true by (symmetry; apply Z.leb_le; lia).
    replace (d_offset d <=? zlen (d_raw d)) with true by (symmetry; apply Z.leb_le; lia).
    rewrite Z.leb_refl. cbn [andb]. rewrite Hl. reflexivity. }
  rewrite Hs. unfold varint, uvarint. rewrite uvarint_unterminated by exact Hc.
  cbn. eauto.
Qed.

(** ** Byte slices *)

Lemma Emits_write bs : Emits (write bs) bs.
Proof. intros e He. apply write_reliable. exact He. Qed.

Definition w_varint (x : Z) : list Z := match put_varint x with Some bs => bs | None => [] end.

Lemma Emits_PutVarInt x : Emits (PutVarInt x) (w_varint x).
Proof.
  pose proof (Runs_Emits _ _ (Runs_PutVarInt x)) as H. cbn [concat] in H. rewrite app_nil_r in H. exact H.
Qed.

Lemma Emits_ext f g bs : (forall e, e_err e = None -> f e = g e) -> Emits g bs -> Emits f bs.
Proof. intros H Hg e He. rewrite H by apply He. apply Hg. exact He. Qed.

Lemma Emits_PutVarBytes s : Emits (PutVarBytes s) (w_varint (int64 (glen s)) ++ items s).
Proof.
  apply Emits_ext with (g := seq (PutVarInt (int64 (glen s))) (write (items s))).
  - intros e He. unfold PutVarBytes. rewrite He. reflexivity.
  - apply Emits_seq; [apply Emits_PutVarInt|apply Emits_write].
Qed.

Lemma Emits_put_runes rs : Emits (put_runes rs) (flat_map encode_rune rs).
Proof.
  induction rs as [|r rs IH]; intros e He; cbn [put_runes flat_map].
  - rewrite app_nil_r. auto.
  - destruct (write_reliable (encode_rune r) e He) as [Hr Ho].
    rewrite (proj1 Hr). destruct (IH _ Hr) as [Hr' Ho']. split; [exact Hr'|].
    rewrite Ho', Ho, app_assoc. reflexivity.
Qed.

Lemma Emits_PutVarString s :
  Emits (PutVarString s) (w_varint (int64 (zlen s)) ++ flat_map encode_rune (runes s)).
Proof.
  apply Emits_ext with (g := seq (PutVarInt (int64 (zlen s))) (put_runes (runes s))).
  - intros e He. unfold PutVarString. rewrite He. reflexivity.
  - apply Emits_seq; [apply Emits_PutVarInt|apply Emits_put_runes].
Qed.
Lemma Emits_PutRecordHeader k v ks vs : Emits (PutVarString k) ks -> Emits (PutVarString v) vs ->
  Emits (PutRecordHeader k v) (ks ++ vs).
Proof.
  intros Hk Hv. apply Emits_ext with (g := seq (PutVarString k) (PutVarString v)).
  - intros e He. unfold PutRecordHeader. rewrite He. reflexivity.
  - apply Emits_seq; assumption.
Qed.

Lemma Decodes_w_varint x : is_int64 x -> Decodes dVarInt (w_varint x) x.
Proof.
  intros Hx. destruct (put_varint_spec x Hx) as (n & _ & _ & E). unfold w_varint. rewrite E.
  apply Decodes_dVarInt; assumption.
Qed.

Lemma is_base128_w_varint x : is_int64 x -> is_base128 (zz x) (w_varint x).
Proof.
  intros Hx. destruct (put_varint_spec x Hx) as (n & _ & (H1 & H2 & H3) & E). unfold w_varint. rewrite E.
  exists n. auto.
Qed.

Definition fits63 (n : Z) : Prop := n < 2 ^ 63.

Lemma Decodes_VarBytes s : fits63 (glen s) ->
  Decodes dVarBytes (w_varint (int64 (glen s)) ++ items s) (Some (items s)).
Proof.
  intros Hs. unfold fits63 in Hs. pose proof (zlen_nonneg (items s)) as Hz. unfold glen in *.
  rewrite int64_id by (unfold is_int64; lia).
  eapply Decodes_bind; [apply Decodes_w_varint; unfold is_int64; lia|].
  apply (Decodes_bind_ret _ Some), Decodes_take_slice.
Qed.
