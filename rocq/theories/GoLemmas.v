(** * Lemmas on wrap-around, bit operations and lists *)
From Verif Require Import GoBase Binary Spec.
Ltac Zify.zify_post_hook ::= Z.div_mod_to_equations.

Lemma wrap_id bits z : 0 < bits -> - 2 ^ (bits - 1) <= z < 2 ^ (bits - 1) -> wrap bits z = z.
Proof.
  intros Hb Hz. unfold wrap.
  assert (H2 : 2 ^ bits = 2 * 2 ^ (bits - 1)).
  { rewrite <- Z.pow_succ_r by lia. f_equal. lia. }
  rewrite Z.mod_small; lia.
Qed.

Lemma wrap_mod bits z : 0 < bits -> wrap bits (z mod 2 ^ bits) = wrap bits z.
Proof.
  intros Hb. unfold wrap. f_equal. rewrite Zplus_mod_idemp_l. reflexivity.
Qed.

Lemma wrap_range bits z : 0 < bits -> - 2 ^ (bits - 1) <= wrap bits z < 2 ^ (bits - 1).
Proof.
  intros Hb. unfold wrap.
  assert (H2 : 2 ^ bits = 2 * 2 ^ (bits - 1)).
  { rewrite <- Z.pow_succ_r by lia. f_equal. lia. }
  pose proof (Z.pow_pos_nonneg 2 (bits - 1)) as Hp.
  pose proof (Z.mod_pos_bound (z + 2 ^ (bits - 1)) (2 ^ bits)) as Hm. lia.
Qed.

(** wrap only depends on the residue, and is compatible with addition *)
Lemma wrap_cong bits a b : 0 < bits -> a mod 2 ^ bits = b mod 2 ^ bits -> wrap bits a = wrap bits b.
Proof. intros Hb H. rewrite <- (wrap_mod bits a), <- (wrap_mod bits b), H by lia. reflexivity. Qed.

Lemma wrap_residue bits a : 0 < bits -> wrap bits a mod 2 ^ bits = a mod 2 ^ bits.
Proof.
  intros Hb. unfold wrap.
  rewrite Zminus_mod_idemp_l. f_equal. lia.
Qed.

Lemma wrap_add_l bits a b : 0 < bits -> wrap bits (wrap bits a + b) = wrap bits (a + b).
Proof.
  intros Hb. apply wrap_cong; [lia|].
  rewrite <- Zplus_mod_idemp_l, wrap_residue by lia. apply Zplus_mod_idemp_l.
Qed.
Lemma wrap_add_r bits a b : 0 < bits -> wrap bits (a + wrap bits b) = wrap bits (a + b).
Proof. intros Hb. rewrite Z.add_comm, wrap_add_l by lia. f_equal. lia. Qed.
Lemma wrap_mul_l bits a b : 0 < bits -> wrap bits (wrap bits a * b) = wrap bits (a * b).
Proof.
  intros Hb. apply wrap_cong; [lia|].
  rewrite <- Zmult_mod_idemp_l, wrap_residue by lia. apply Zmult_mod_idemp_l.
Qed.
Lemma wrap_wrap bits a : 0 < bits -> wrap bits (wrap bits a) = wrap bits a.
Proof. intros Hb. apply wrap_cong; [lia|]. apply wrap_residue; lia. Qed.

Lemma int16_id z : is_int16 z -> int16 z = z.
Proof. intros H. apply wrap_id; [lia|]. exact H. Qed.
Lemma int32_id z : is_int32 z -> int32 z = z.
Proof. intros H. apply wrap_id; [lia|]. exact H. Qed.
Lemma int64_id z : is_int64 z -> int64 z = z.
Proof. intros H. apply wrap_id; [lia|]. exact H. Qed.
Lemma int8_id z : is_int8 z -> int8 z = z.
Proof. intros H. apply wrap_id; [lia|]. exact H. Qed.

(** ** bit operations as arithmetic *)

Lemma land_low_high a b n : 0 <= n -> 0 <= a < 2 ^ n -> Z.land a (Z.shiftl b n) = 0.
Proof.
  intros Hn Ha. apply Z.bits_inj'. intros k Hk.
  rewrite Z.land_spec, Z.bits_0.
  destruct (Z.ltb_spec k n) as [Hlt|Hge].
  - rewrite Z.shiftl_spec_low by lia. apply andb_false_r.
  - replace (Z.testbit a k) with false; [reflexivity|].
    symmetry. destruct (Z.eq_dec a 0) as [->|Hne]; [apply Z.bits_0|].
    apply Z.bits_above_log2; [lia|].
    assert (Z.log2 a < n) by (apply Z.log2_lt_pow2; lia). lia.
Qed.

Lemma lor_shiftl_add a b n : 0 <= n -> 0 <= a < 2 ^ n -> Z.lor a (Z.shiftl b n) = a + b * 2 ^ n.
Proof.
  intros Hn Ha.
  pose proof (land_low_high a b n Hn Ha) as Hl.
  rewrite <- Z.lxor_lor by exact Hl.
  rewrite <- Z.add_nocarry_lxor by exact Hl.
  rewrite Z.shiftl_mul_pow2 by lia. reflexivity.
Qed.

Lemma lor_add_high a c n : 0 <= n -> 0 <= a < 2 ^ n -> c mod 2 ^ n = 0 -> Z.lor a c = a + c.
Proof.
  intros Hn Ha Hc.
  assert (Hp : 0 < 2 ^ n) by (apply Z.pow_pos_nonneg; lia).
  assert (E : c = Z.shiftl (c / 2 ^ n) n).
  { rewrite Z.shiftl_mul_pow2 by lia. pose proof (Z.div_mod c (2 ^ n)). lia. }
  rewrite E, lor_shiftl_add by lia.
  rewrite Z.shiftl_mul_pow2 by lia. lia.
Qed.

Lemma uint8_range z : 0 <= uint8 z < 256.
Proof. unfold uint8. change (2 ^ 8) with 256. lia. Qed.

Lemma land_mask a n : 0 <= n -> Z.land a (2 ^ n - 1) = a mod 2 ^ n.
Proof.
  intros Hn. replace (2 ^ n - 1) with (Z.ones n) by (rewrite Z.ones_equiv; lia).
  apply Z.land_ones; lia.
Qed.

(** ** lists *)

Lemma zlen_app {A} (a b : list A) : zlen (a ++ b) = zlen a + zlen b.
Proof. unfold zlen. rewrite app_length. lia. Qed.
Lemma zlen_nonneg {A} (a : list A) : 0 <= zlen a.
Proof. unfold zlen. lia. Qed.
Lemma zlen_cons {A} (x : A) a : zlen (x :: a) = 1 + zlen a.
Proof. unfold zlen. cbn [length]. lia. Qed.
Lemma zlen_nil {A} : zlen (@nil A) = 0.
Proof. reflexivity. Qed.
Lemma length_be n z : length (be n z) = n.
Proof. induction n as [|n IH]; cbn [be length]; [reflexivity|rewrite IH; reflexivity]. Qed.
Lemma zlen_be n z : zlen (be n z) = Z.of_nat n.
Proof. unfold zlen. rewrite length_be. reflexivity. Qed.

Lemma be_bytes n z : Forall is_byte (be n z).
Proof.
  induction n as [|n IH]; cbn [be]; constructor; [|exact IH].
  unfold is_byte. lia.
Qed.

(** ** big-endian *)

Lemma shiftr_uint8 v n : 0 <= n -> uint8 (Z.shiftr v n) = v / 2 ^ n mod 256.
Proof. intros Hn. unfold uint8. rewrite Z.shiftr_div_pow2 by lia. reflexivity. Qed.

Lemma byte_of_mod v n b : 0 <= n -> n + 8 <= b -> (v mod 2 ^ b) / 2 ^ n mod 256 = v / 2 ^ n mod 256.
Proof.
  intros Hn Hb.
  assert (Hp : 0 < 2 ^ n) by (apply Z.pow_pos_nonneg; lia).
  assert (E : 2 ^ b = 2 ^ n * (256 * 2 ^ (b - n - 8))).
  { change 256 with (2 ^ 8). rewrite <- !Z.pow_add_r by lia. f_equal. lia. }
  assert (Hq : 0 < 2 ^ (b - n - 8)) by (apply Z.pow_pos_nonneg; lia).
  rewrite E, Z.rem_mul_r by lia.
  rewrite (Z.mul_comm (2 ^ n)), Z.div_add by lia.
  rewrite (Z.div_small (v mod 2 ^ n)) by (apply Z.mod_pos_bound; lia).
  rewrite Z.add_0_l, Z.rem_mul_r by lia.
  rewrite (Z.mul_comm 256), Z_mod_plus_full, Z.mod_mod by lia. reflexivity.
Qed.

Ltac fold_be :=
  repeat match goal with
  | |- context [256 ^ Z.of_nat ?k] =>
      let x := eval vm_compute in (256 ^ Z.of_nat k) in change (256 ^ Z.of_nat k) with x
  end.

Lemma put_uint8_be i : [uint8 i] = be 1 i.
Proof. cbn [be]. fold_be. unfold uint8. rewrite Z.div_1_r. reflexivity. Qed.

Lemma put_uint16_be i : put_uint16 (uint16 i) = be 2 i.
Proof.
  unfold put_uint16, uint16. cbn [be]. rewrite shiftr_uint8 by lia.
  replace (uint8 (i mod 2 ^ 16)) with (uint8 (Z.shiftr (i mod 2 ^ 16) 0)) by (rewrite Z.shiftr_0_r; reflexivity).
  rewrite shiftr_uint8, !byte_of_mod by lia. reflexivity.
Qed.

Lemma put_uint32_be i : put_uint32 (uint32 i) = be 4 i.
Proof.
  unfold put_uint32, uint32. cbn [be].
  replace (uint8 (i mod 2 ^ 32)) with (uint8 (Z.shiftr (i mod 2 ^ 32) 0)) by (rewrite Z.shiftr_0_r; reflexivity).
  rewrite !shiftr_uint8, !byte_of_mod by lia. reflexivity.
Qed.

Lemma put_uint64_be i : put_uint64 (uint64 i) = be 8 i.
Proof.
  unfold put_uint64, uint64. cbn [be].
  replace (uint8 (i mod 2 ^ 64)) with (uint8 (Z.shiftr (i mod 2 ^ 64) 0)) by (rewrite Z.shiftr_0_r; reflexivity).
  rewrite !shiftr_uint8, !byte_of_mod by lia. reflexivity.
Qed.

(** The number denoted by a big-endian byte list. *)
Fixpoint unbe (l : list Z) : Z :=
  match l with
  | [] => 0
  | b :: t => b * 256 ^ zlen t + unbe t
  end.

Lemma unbe_be n z : unbe (be n z) = z mod 256 ^ Z.of_nat n.
Proof.
  induction n as [|n IH]; cbn [be unbe].
  - rewrite Z.mod_1_r. reflexivity.
  - rewrite IH, zlen_be.
    replace (Z.of_nat (S n)) with (Z.succ (Z.of_nat n)) by lia.
    rewrite Z.pow_succ_r by lia.
    assert (Hp : 0 < 256 ^ Z.of_nat n) by (apply Z.pow_pos_nonneg; lia).
    rewrite (Z.mul_comm 256), Z.rem_mul_r by lia. lia.
Qed.

Lemma get_uint16_app b0 b1 rest :
  is_byte b0 -> is_byte b1 ->
  get_uint16 (b0 :: b1 :: rest) = Some (unbe [b0; b1]).
Proof.
  intros H0 H1. unfold is_byte in *. cbn [get_uint16]. f_equal.
  rewrite lor_shiftl_add by lia. unfold unbe, zlen. cbn [length].
  change (256 ^ Z.of_nat 1) with (2 ^ 8). change (256 ^ Z.of_nat 0) with 1. lia.
Qed.

Lemma get_uint32_app b0 b1 b2 b3 rest :
  is_byte b0 -> is_byte b1 -> is_byte b2 -> is_byte b3 ->
  get_uint32 (b0 :: b1 :: b2 :: b3 :: rest) = Some (unbe [b0; b1; b2; b3]).
Proof.
  intros H0 H1 H2 H3. unfold is_byte in *. cbn [get_uint32]. f_equal.
  rewrite (lor_shiftl_add b3) by lia.
  rewrite (lor_shiftl_add _ b1) by lia.
  rewrite (lor_shiftl_add _ b0) by lia.
  unfold unbe, zlen. cbn [length]. fold_be. lia.
Qed.

Lemma get_uint64_app b0 b1 b2 b3 b4 b5 b6 b7 rest :
  is_byte b0 -> is_byte b1 -> is_byte b2 -> is_byte b3 ->
  is_byte b4 -> is_byte b5 -> is_byte b6 -> is_byte b7 ->
  get_uint64 (b0 :: b1 :: b2 :: b3 :: b4 :: b5 :: b6 :: b7 :: rest)
  = Some (unbe [b0; b1; b2; b3; b4; b5; b6; b7]).
Proof.
  intros H0 H1 H2 H3 H4 H5 H6 H7. unfold is_byte in *. cbn [get_uint64]. f_equal.
  rewrite (lor_shiftl_add b7) by lia.
  rewrite (lor_shiftl_add _ b5) by lia.
  rewrite (lor_shiftl_add _ b4) by lia.
  rewrite (lor_shiftl_add _ b3) by lia.
  rewrite (lor_shiftl_add _ b2) by lia.
  rewrite (lor_shiftl_add _ b1) by lia.
  rewrite (lor_shiftl_add _ b0) by lia.
  unfold unbe, zlen. cbn [length]. fold_be. lia.
Qed.

Lemma be_1 i rest : exists b, be 1 i ++ rest = b :: rest /\ is_byte b /\ b = i mod 256.
Proof.
  cbn [be app]. fold_be. eexists. split; [reflexivity|]. rewrite Z.div_1_r. unfold is_byte. lia.
Qed.

Lemma get_be16 i rest : get_uint16 (be 2 i ++ rest) = Some (i mod 2 ^ 16).
Proof.
  pose proof (be_bytes 2 i) as Hb. pose proof (unbe_be 2 i) as Hu.
  cbn [be] in *. cbn [app]. inversion_clear Hb as [|? ? H0 Hb1]. inversion_clear Hb1 as [|? ? H1 _].
  rewrite get_uint16_app by assumption. rewrite Hu. reflexivity.
Qed.
Lemma get_be32 i rest : get_uint32 (be 4 i ++ rest) = Some (i mod 2 ^ 32).
Proof.
  pose proof (be_bytes 4 i) as Hb. pose proof (unbe_be 4 i) as Hu.
  cbn [be] in *. cbn [app]. rewrite !Forall_cons_iff in Hb. destruct Hb as (H0 & H1 & H2 & H3 & _).
  rewrite get_uint32_app by assumption. rewrite Hu. reflexivity.
Qed.
Lemma get_be64 i rest : get_uint64 (be 8 i ++ rest) = Some (i mod 2 ^ 64).
Proof.
  pose proof (be_bytes 8 i) as Hb. pose proof (unbe_be 8 i) as Hu.
  cbn [be] in *. cbn [app]. rewrite !Forall_cons_iff in Hb.
  destruct Hb as (H0 & H1 & H2 & H3 & H4 & H5 & H6 & H7 & _).
  rewrite get_uint64_app by assumption. rewrite Hu. reflexivity.
Qed.
