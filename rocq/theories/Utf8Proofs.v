(** * Proofs about UTF-8 *)
From Verif Require Import GoBase Binary Utf8 Encoder Decoder Sizeof Spec GoLemmas EncProofs DecProofs VarProofs.
Ltac Zify.zify_post_hook ::= Z.div_mod_to_equations.

Lemma lor_high a b n : 0 <= n -> 0 <= b < 2 ^ n -> a mod 2 ^ n = 0 -> Z.lor a b = a + b.
Proof. intros. rewrite Z.lor_comm, lor_add_high with (n := n) by assumption. lia. Qed.

Ltac pows :=
  change (2 ^ 32) with 4294967296 in *; change (2 ^ 18) with 262144 in *;
  change (2 ^ 12) with 4096 in *; change (2 ^ 8) with 256 in *; change (2 ^ 7) with 128 in *;
  change (2 ^ 6) with 64 in *; change (2 ^ 5) with 32 in *; change (2 ^ 4) with 16 in *; change (2 ^ 3) with 8 in *.

Lemma land63 a : Z.land a 63 = a mod 64.
Proof. change 63 with (2 ^ 6 - 1). rewrite land_mask by lia. reflexivity. Qed.
Lemma land31 a : Z.land a 31 = a mod 32.
Proof. change 31 with (2 ^ 5 - 1). rewrite land_mask by lia. reflexivity. Qed.
Lemma land15 a : Z.land a 15 = a mod 16.
Proof. change 15 with (2 ^ 4 - 1). rewrite land_mask by lia. reflexivity. Qed.
Lemma land7 a : Z.land a 7 = a mod 8.
Proof. change 7 with (2 ^ 3 - 1). rewrite land_mask by lia. reflexivity. Qed.

Lemma lor128 a : Z.lor 128 (a mod 64) = 128 + a mod 64.
Proof. apply (lor_high 128 (a mod 64) 6); [lia|pows; lia|reflexivity]. Qed.

Lemma encode_rune_utf8 r : is_scalar r -> encode_rune r = utf8 r.
Proof.
  unfold is_scalar, encode_rune, utf8, uint32. intros Hr.
  rewrite !land63, !lor128. unfold uint8. rewrite !Z.shiftr_div_pow2 by lia. pows.
  rewrite (Z.mod_small r 4294967296) by lia.
  destruct (Z.leb_spec r 127) as [H1|H1], (Z.ltb_spec r 128) as [H1'|H1']; try lia.
  - rewrite Z.mod_small by lia. reflexivity.
  - destruct (Z.leb_spec r 2047) as [H2|H2], (Z.ltb_spec r 2048) as [H2'|H2']; try lia.
    + rewrite (Z.mod_small (r / 64)) by lia.
      rewrite (lor_high 192 (r / 64) 6) by (lia || (pows; lia) || reflexivity).
      f_equal. f_equal. lia.
    + destruct (Z.ltb_spec 1114111 r) as [H3|H3]; [lia|]. cbn [orb].
      replace ((55296 <=? r) && (r <=? 57343)) with false
        by (symmetry; apply andb_false_iff; rewrite !Z.leb_gt; lia).
      destruct (Z.leb_spec r 65535) as [H4|H4], (Z.ltb_spec r 65536) as [H4'|H4']; try lia.
      * rewrite (Z.mod_small (r / 4096)) by lia.
        rewrite (lor_high 224 (r / 4096) 4) by (lia || (pows; lia) || reflexivity).
        repeat (f_equal; try lia).
      * rewrite (Z.mod_small (r / 262144)) by lia.
        rewrite (lor_high 240 (r / 262144) 3) by (lia || (pows; lia) || reflexivity).
        repeat (f_equal; try lia).
Qed.

Ltac decide_first p :=
  unfold first;
  repeat match goal with
  | |- context [(?a <=? p) && (p <=? ?b)] =>
      first [ replace ((a <=? p) && (p <=? b)) with true
                by (symmetry; apply andb_true_iff; rewrite !Z.leb_le; lia)
            | replace ((a <=? p) && (p <=? b)) with false
                by (symmetry; apply andb_false_iff; rewrite !Z.leb_gt; lia) ]
  | |- context [p =? ?c] =>
      first [ replace (p =? c) with true by (symmetry; apply Z.eqb_eq; lia)
            | replace (p =? c) with false by (symmetry; apply Z.eqb_neq; lia) ]
  end.

Lemma in_range_true lo hi b : lo <= b <= hi -> in_range lo hi b = true.
Proof. intros H. unfold in_range. apply andb_true_iff. rewrite !Z.leb_le. lia. Qed.
Lemma in_range_iff lo hi b : in_range lo hi b = true <-> lo <= b <= hi.
Proof. unfold in_range. rewrite andb_true_iff, !Z.leb_le. lia. Qed.

(** What [first] accepts, by size of the sequence. *)
Lemma first_2 p0 : 194 <= p0 <= 223 -> first p0 = Some (2, 128, 191).
Proof. intros H. decide_first p0. reflexivity. Qed.
Lemma first_3 p0 : 224 <= p0 <= 239 ->
  first p0 = Some (3, (if p0 =? 224 then 160 else 128), (if p0 =? 237 then 159 else 191)).
Proof.
  intros H. destruct (Z.eqb_spec p0 224) as [->|N1]; [reflexivity|].
  destruct (Z.eqb_spec p0 237) as [->|N2]; [reflexivity|].
  destruct (Z.leb_spec p0 236); decide_first p0; reflexivity.
Qed.
Lemma first_4 p0 : 240 <= p0 <= 244 ->
  first p0 = Some (4, (if p0 =? 240 then 144 else 128), (if p0 =? 244 then 143 else 191)).
Proof.
  intros H. destruct (Z.eqb_spec p0 240) as [->|N1]; [reflexivity|].
  destruct (Z.eqb_spec p0 244) as [->|N2]; [reflexivity|].
  decide_first p0; reflexivity.
Qed.
Lemma first_none p0 : p0 < 194 \/ 244 < p0 -> first p0 = None.
Proof. intros H. decide_first p0. reflexivity. Qed.

(** ** Decoding sequences *)

Definition dec2 p0 b1 := (p0 mod 32) * 64 + b1 mod 64.
Definition dec3 p0 b1 b2 := (p0 mod 16) * 4096 + (b1 mod 64) * 64 + b2 mod 64.
Definition dec4 p0 b1 b2 b3 := (p0 mod 8) * 262144 + (b1 mod 64) * 4096 + (b2 mod 64) * 64 + b3 mod 64.

Lemma bits2 p0 b1 : Z.lor (Z.shiftl (Z.land p0 31) 6) (Z.land b1 63) = dec2 p0 b1.
Proof.
  unfold dec2. rewrite land31, land63, Z.shiftl_mul_pow2 by lia.
  rewrite (lor_high _ _ 6) by (lia || (pows; lia)). pows. reflexivity.
Qed.
Lemma bits3 p0 b1 b2 :
  Z.lor (Z.lor (Z.shiftl (Z.land p0 15) 12) (Z.shiftl (Z.land b1 63) 6)) (Z.land b2 63) = dec3 p0 b1 b2.
Proof.
  unfold dec3. rewrite land15, !land63, !Z.shiftl_mul_pow2 by lia. pows.
  rewrite (lor_high (p0 mod 16 * 4096) _ 12) by (lia || (pows; lia)).
  rewrite (lor_high _ (b2 mod 64) 6) by (lia || (pows; lia)). reflexivity.
Qed.
Lemma bits4 p0 b1 b2 b3 :
  Z.lor (Z.lor (Z.lor (Z.shiftl (Z.land p0 7) 18) (Z.shiftl (Z.land b1 63) 12))
               (Z.shiftl (Z.land b2 63) 6)) (Z.land b3 63) = dec4 p0 b1 b2 b3.
Proof.
  unfold dec4. rewrite land7, !land63, !Z.shiftl_mul_pow2 by lia. pows.
  rewrite (lor_high (p0 mod 8 * 262144) _ 18) by (lia || (pows; lia)).
  rewrite (lor_high _ (b2 mod 64 * 64) 12) by (lia || (pows; lia)).
  rewrite (lor_high _ (b3 mod 64) 6) by (lia || (pows; lia)). reflexivity.
Qed.

Lemma zlen_cons_ge {A} (x : A) l n : n <= 1 + zlen l -> (zlen (x :: l) <? n) = false.
Proof. intros H. rewrite zlen_cons. apply Z.ltb_ge. lia. Qed.

Lemma decode_rune_utf8 r rest : is_scalar r ->
  decode_rune (utf8 r ++ rest) = (r, zlen (utf8 r)).
Proof.
  intros Hr. unfold is_scalar in Hr. unfold utf8.
  pose proof (zlen_nonneg rest) as Hz.
  destruct (Z.ltb_spec r 128) as [H1|H1].
  { cbn [app decode_rune]. rewrite first_none by lia.
    replace (r <? 128) with true by (symmetry; apply Z.ltb_lt; lia). reflexivity. }
  destruct (Z.ltb_spec r 2048) as [H2|H2].
  { cbn [app decode_rune]. rewrite first_2 by lia.
    rewrite zlen_cons_ge by (rewrite !zlen_cons; lia).
    rewrite in_range_true by lia. change (2 =? 2) with true. cbn [negb]. cbv iota.
    rewrite bits2. unfold dec2. f_equal. lia. }
  destruct (Z.ltb_spec r 65536) as [H3|H3].
  { cbn [app decode_rune]. rewrite first_3 by lia.
    rewrite zlen_cons_ge by (rewrite !zlen_cons; lia).
    rewrite in_range_true.
    2:{ destruct (Z.eqb_spec (224 + r / 4096) 224), (Z.eqb_spec (224 + r / 4096) 237); lia. }
    rewrite in_range_true by lia. change (3 =? 2) with false. change (3 =? 3) with true. cbn [negb]. cbv iota.
    rewrite bits3. unfold dec3. f_equal. lia. }
  { cbn [app decode_rune]. rewrite first_4 by lia.
    rewrite zlen_cons_ge by (rewrite !zlen_cons; lia).
    rewrite in_range_true.
    2:{ destruct (Z.eqb_spec (240 + r / 262144) 240), (Z.eqb_spec (240 + r / 262144) 244); lia. }
    rewrite !in_range_true by lia. change (4 =? 2) with false. change (4 =? 3) with false. cbn [negb]. cbv iota.
    rewrite bits4. unfold dec4. f_equal. lia. }
Qed.

(** Either the sequence at the front is well formed, or one byte is consumed as
    U+FFFD. *)
Lemma decode_rune_cases p0 tl : is_byte p0 -> Forall is_byte tl ->
  (exists r rest, is_scalar r /\ p0 :: tl = utf8 r ++ rest) \/
  decode_rune (p0 :: tl) = (RuneError, 1).
Proof.
  intros Hp Htl. unfold is_byte in *.
  destruct (Z.ltb_spec p0 128) as [H1|H1].
  { left. exists p0, tl. unfold is_scalar, utf8.
    replace (p0 <? 128) with true by (symmetry; apply Z.ltb_lt; lia). split; [lia|reflexivity]. }
  destruct (Z.ltb_spec p0 194) as [H2|H2].
  { right. cbn [decode_rune]. rewrite first_none by lia.
    replace (p0 <? 128) with false by (symmetry; apply Z.ltb_ge; lia). reflexivity. }
  destruct (Z.ltb_spec p0 224) as [H3|H3].
  { cbn [decode_rune]. rewrite first_2 by lia.
    destruct (zlen (p0 :: tl) <? 2) eqn:El; [right; reflexivity|].
    destruct tl as [|b1 tl]; [right; reflexivity|].
    destruct (in_range 128 191 b1) eqn:R1; [|right; reflexivity].
    apply in_range_iff in R1. left. exists (dec2 p0 b1), tl. unfold dec2, is_scalar, utf8.
    split; [lia|].
    replace (p0 mod 32 * 64 + b1 mod 64 <? 128) with false by (symmetry; apply Z.ltb_ge; lia).
    replace (p0 mod 32 * 64 + b1 mod 64 <? 2048) with true by (symmetry; apply Z.ltb_lt; lia).
    cbn [app]. repeat (f_equal; try lia). }
  destruct (Z.ltb_spec p0 240) as [H4|H4].
  { cbn [decode_rune]. rewrite first_3 by lia.
    destruct (zlen (p0 :: tl) <? 3) eqn:El; [right; reflexivity|].
    destruct tl as [|b1 tl]; [right; reflexivity|].
    destruct (in_range _ _ b1) eqn:R1; [|right; reflexivity].
    change (3 =? 2) with false. change (3 =? 3) with true. cbn [negb]. cbv iota.
    destruct tl as [|b2 tl]; [right; reflexivity|].
    destruct (in_range 128 191 b2) eqn:R2; [|right; reflexivity].
    apply in_range_iff in R1, R2. left. exists (dec3 p0 b1 b2), tl. unfold dec3, is_scalar, utf8.
    assert (Hge : 2048 <= p0 mod 16 * 4096 + b1 mod 64 * 64 + b2 mod 64 < 65536 /\
                  ~ 55296 <= p0 mod 16 * 4096 + b1 mod 64 * 64 + b2 mod 64 <= 57343).
    { destruct (Z.eqb_spec p0 224), (Z.eqb_spec p0 237); lia. }
    assert (Hb1 : 128 <= b1 <= 191) by (destruct (Z.eqb_spec p0 224), (Z.eqb_spec p0 237); lia).
    split; [lia|].
    replace (p0 mod 16 * 4096 + b1 mod 64 * 64 + b2 mod 64 <? 128) with false by (symmetry; apply Z.ltb_ge; lia).
    replace (p0 mod 16 * 4096 + b1 mod 64 * 64 + b2 mod 64 <? 2048) with false by (symmetry; apply Z.ltb_ge; lia).
    replace (p0 mod 16 * 4096 + b1 mod 64 * 64 + b2 mod 64 <? 65536) with true by (symmetry; apply Z.ltb_lt; lia).
    cbn [app]. clear R1 Hge. repeat (f_equal; try lia). }
  destruct (Z.ltb_spec 244 p0) as [H5|H5].
  { right. cbn [decode_rune]. rewrite first_none by lia.
    replace (p0 <? 128) with false by (symmetry; apply Z.ltb_ge; lia). reflexivity. }
  cbn [decode_rune]. rewrite first_4 by lia.
  destruct (zlen (p0 :: tl) <? 4) eqn:El; [right; reflexivity|].
  destruct tl as [|b1 tl]; [right; reflexivity|].
  destruct (in_range _ _ b1) eqn:R1; [|right; reflexivity].
  change (4 =? 2) with false. change (4 =? 3) with false. cbn [negb]. cbv iota.
  destruct tl as [|b2 tl]; [right; reflexivity|].
  destruct (in_range 128 191 b2) eqn:R2; [|right; reflexivity]. cbn [negb]. cbv iota.
  destruct tl as [|b3 tl]; [right; reflexivity|].
  destruct (in_range 128 191 b3) eqn:R3; [|right; reflexivity].
  apply in_range_iff in R1, R2, R3. left. exists (dec4 p0 b1 b2 b3), tl. unfold dec4, is_scalar, utf8.
  set (v := p0 mod 8 * 262144 + b1 mod 64 * 4096 + b2 mod 64 * 64 + b3 mod 64).
  assert (Hge : 65536 <= v <= 1114111).
  { subst v. destruct (Z.eqb_spec p0 240), (Z.eqb_spec p0 244); lia. }
  assert (Hb1 : 128 <= b1 <= 191) by (destruct (Z.eqb_spec p0 240), (Z.eqb_spec p0 244); lia).
  split; [lia|].
  replace (v <? 128) with false by (symmetry; apply Z.ltb_ge; lia).
  replace (v <? 2048) with false by (symmetry; apply Z.ltb_ge; lia).
  replace (v <? 65536) with false by (symmetry; apply Z.ltb_ge; lia).
  cbn [app]. clear R1 Hge. subst v. repeat (f_equal; try lia).
Qed.

(** ** Strings *)

Lemma utf8_len r : is_scalar r -> 1 <= zlen (utf8 r) <= 4.
Proof.
  intros _. unfold utf8. destruct (r <? 128); [|destruct (r <? 2048); [|destruct (r <? 65536)]];
  rewrite ?zlen_cons, zlen_nil; lia.
Qed.

Lemma utf8_bytes r : is_scalar r -> Forall is_byte (utf8 r).
Proof.
  unfold is_scalar. intros Hr. unfold utf8, is_byte.
  destruct (Z.ltb_spec r 128); [|destruct (Z.ltb_spec r 2048); [|destruct (Z.ltb_spec r 65536)]];
  repeat constructor; lia.
Qed.

Lemma runes_fuel_valid rs : Forall is_scalar rs -> forall fuel,
  (length (flat_map utf8 rs) <= fuel)%nat -> runes_fuel fuel (flat_map utf8 rs) = rs.
Proof.
  intros H. induction H as [|r rs Hr Hf IH]; intros fuel Hfuel; cbn [flat_map] in *.
  - destruct fuel; reflexivity.
  - pose proof (utf8_len r Hr) as Hl. rewrite app_length in Hfuel. unfold zlen in Hl.
    destruct fuel as [|fuel]; [lia|]. cbn [runes_fuel].
    destruct (utf8 r ++ flat_map utf8 rs) eqn:E.
    { apply app_eq_nil in E. destruct E as [E _]. rewrite E in Hl. cbn in Hl. lia. }
    rewrite <- E, decode_rune_utf8 by exact Hr. unfold zlen. rewrite Nat2Z.id.
    rewrite skipn_app, skipn_all, Nat.sub_diag. cbn [skipn app]. rewrite IH by lia. reflexivity.
Qed.

Lemma runes_valid rs : Forall is_scalar rs -> runes (flat_map utf8 rs) = rs.
Proof. intros H. apply runes_fuel_valid; [exact H|lia]. Qed.

Lemma encode_runes rs : Forall is_scalar rs -> flat_map encode_rune rs = flat_map utf8 rs.
Proof.
  intros H. induction H as [|r rs Hr Hf IH]; [reflexivity|]. cbn [flat_map].
  rewrite IH, encode_rune_utf8 by exact Hr. reflexivity.
Qed.

Lemma rerune_valid s : valid_utf8 s -> flat_map encode_rune (runes s) = s.
Proof. intros (rs & Hrs & ->). rewrite runes_valid, encode_runes by exact Hrs. reflexivity. Qed.

(** Re-encoding an invalid string makes it strictly longer. *)
Lemma rerune_fuel fuel : forall s, Forall is_byte s -> (length s <= fuel)%nat ->
  zlen s <= zlen (flat_map encode_rune (runes_fuel fuel s)) /\
  (zlen (flat_map encode_rune (runes_fuel fuel s)) = zlen s -> valid_utf8 s).
Proof.
  induction fuel as [|fuel IH]; intros s Hs Hl.
  - destruct s; [|cbn in Hl; lia]. split; [reflexivity|]. intros _. exists []. split; [constructor|reflexivity].
  - destruct s as [|p0 tl].
    + split; [reflexivity|]. intros _. exists []. split; [constructor|reflexivity].
    + inversion Hs as [|? ? Hp Ht]; subst. cbn [runes_fuel].
      destruct (decode_rune_cases p0 tl Hp Ht) as [(r & rest & Hr & E)|E].
      * rewrite E, decode_rune_utf8 by exact Hr.
        replace (Z.to_nat (zlen (utf8 r))) with (length (utf8 r)) by (unfold zlen; lia).
        rewrite skipn_app, skipn_all, Nat.sub_diag. cbn [skipn app flat_map].
        rewrite encode_rune_utf8, zlen_app, zlen_app by exact Hr.
        pose proof (utf8_len r Hr) as Hu.
        assert (Hrest : Forall is_byte rest).
        { rewrite E in Hs. apply Forall_app in Hs. apply Hs. }
        assert (Hlen : (length rest <= fuel)%nat).
        { apply (f_equal (@length Z)) in E. rewrite app_length in E. cbn [length] in *. unfold zlen in Hu. lia. }
        destruct (IH rest Hrest Hlen) as [I1 I2].
        split.
        -- lia.
        -- intros He. destruct I2 as (rs & Hrs & ->).
           ++ lia.
           ++ exists (r :: rs). split; [constructor; assumption|reflexivity].
      * rewrite E. change (Z.to_nat 1) with 1%nat. cbn [skipn flat_map].
        cbn [length] in Hl. destruct (IH tl Ht ltac:(lia)) as [I1 _].
        rewrite zlen_app, zlen_cons. change (zlen (encode_rune RuneError)) with 3. split; lia.
Qed.

Lemma rerune_length s : Forall is_byte s ->
  zlen s <= zlen (flat_map encode_rune (runes s)) /\
  (zlen (flat_map encode_rune (runes s)) = zlen s <-> valid_utf8 s).
Proof.
  intros Hs. destruct (rerune_fuel (length s) s Hs (Nat.le_refl _)) as [H1 H2].
  split; [exact H1|]. split; [exact H2|]. intros Hv. rewrite rerune_valid by exact Hv. reflexivity.
Qed.

(** ** Var strings *)

Definition w_varstring (s : gostring) : list Z := w_varint (zlen s) ++ s.

Lemma Emits_PutVarString_valid s : valid_utf8 s -> fits63 (zlen s) -> Emits (PutVarString s) (w_varstring s).
Proof.
  intros Hv Hf. pose proof (Emits_PutVarString s) as H. rewrite rerune_valid in H by exact Hv.
  pose proof (zlen_nonneg s). unfold fits63 in Hf.
  rewrite int64_id in H by (unfold is_int64; lia). exact H.
Qed.

Lemma Decodes_VarString s : valid_utf8 s -> fits63 (zlen s) -> Decodes dVarString (w_varstring s) s.
Proof.
  intros Hv Hf. pose proof (zlen_nonneg s) as Hz. unfold fits63 in Hf. unfold w_varstring.
  eapply Decodes_bind; [apply Decodes_w_varint; unfold is_int64; lia|].
  intros d rest Hd Hfr. rewrite remains_spec by exact Hd.
  assert (Hle : zlen s <= zlen (frame d)) by (rewrite Hfr, zlen_app; pose proof (zlen_nonneg rest); lia).
  replace (zlen s <=? zlen (frame d)) with true by (symmetry; apply Z.leb_le; lia).
  destruct (Z.leb_spec (zlen s) 0) as [H0|H0].
  - destruct s as [|c s]; [reflexivity|]. rewrite zlen_cons in H0. pose proof (zlen_nonneg s). lia.
  - rewrite slice_frame by (assumption || lia). rewrite Hfr. unfold zlen at 1. rewrite Nat2Z.id.
    rewrite firstn_app, Nat.sub_diag, firstn_all. cbn [firstn]. rewrite app_nil_r.
    unfold string_of_runes. rewrite rerune_valid by exact Hv. reflexivity.
Qed.
