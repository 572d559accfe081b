(** * Proofs about the decoder primitives *)
From Verif Require Import GoBase Binary Utf8 Encoder Decoder Spec GoLemmas.
Ltac Zify.zify_post_hook ::= Z.div_mod_to_equations.

Lemma frame_length d : dec_ok d -> zlen (frame d) = d_length d - d_offset d.
Proof.
  unfold dec_ok, frame, zlen. intros [H1 H2]. rewrite firstn_length, skipn_length. lia.
Qed.

Lemma dec_ok_advance n d : dec_ok d -> 0 <= n <= zlen (frame d) -> dec_ok (advance n d).
Proof.
  intros Hd Hn. rewrite frame_length in Hn by exact Hd. unfold dec_ok, advance in *. cbn. lia.
Qed.

Lemma skipn_skipn' {A} n m (l : list A) : skipn n (skipn m l) = skipn (m + n) l.
Proof.
  revert l. induction m as [|m IH]; intros l; [reflexivity|].
  destruct l as [|x l]; [rewrite !skipn_nil; reflexivity|]. cbn. apply IH.
Qed.

Lemma frame_advance n d : dec_ok d -> 0 <= n <= zlen (frame d) ->
  frame (advance n d) = skipn (Z.to_nat n) (frame d).
Proof.
  intros Hd Hn. rewrite frame_length in Hn by exact Hd.
  unfold frame, advance. cbn. destruct Hd as [H1 H2].
  rewrite skipn_firstn_comm, skipn_skipn'. f_equal; [|f_equal]; lia.
Qed.

Lemma frame_advance_app d a b : dec_ok d -> frame d = a ++ b ->
  dec_ok (advance (zlen a) d) /\ frame (advance (zlen a) d) = b.
Proof.
  intros Hd Hf.
  assert (Hn : 0 <= zlen a <= zlen (frame d)).
  { rewrite Hf, zlen_app. pose proof (zlen_nonneg a). pose proof (zlen_nonneg b). lia. }
  split; [apply dec_ok_advance; assumption|].
  rewrite frame_advance by assumption. rewrite Hf. unfold zlen.
  rewrite Nat2Z.id, skipn_app, skipn_all, Nat.sub_diag. reflexivity.
Qed.

Lemma advance_advance a b d : advance a (advance b d) = advance (b + a) d.
Proof. unfold advance. cbn. f_equal. lia. Qed.

Lemma advance_0 d : advance 0 d = d.
Proof. unfold advance. destruct d. cbn. f_equal. lia. Qed.

Lemma remains_spec n d : dec_ok d -> remains n d = (n <=? zlen (frame d)).
Proof.
  intros Hd. rewrite frame_length by exact Hd. unfold remains.
  destruct (Z.ltb_spec (d_length d - d_offset d) n), (Z.leb_spec n (d_length d - d_offset d)); cbn; lia.
Qed.

Lemma slice_from_ok d : dec_ok d ->
  exists tail, slice_from (d_raw d) (d_offset d) = Some (frame d ++ tail).
Proof.
  intros [H1 H2]. unfold slice_from, slice.
  replace (0 <=? d_offset d) with true by (symmetry; apply Z.leb_le; lia).
  replace (d_offset d <=? zlen (d_raw d)) with true by (symmetry; apply Z.leb_le; lia).
  rewrite Z.leb_refl. cbn [andb].
  exists (skipn (Z.to_nat (d_length d - d_offset d)) (skipn (Z.to_nat (d_offset d)) (d_raw d))).
  f_equal. unfold frame. rewrite firstn_skipn. apply firstn_all2.
  rewrite skipn_length. unfold zlen. lia.
Qed.

Lemma slice_frame d n : dec_ok d -> 0 <= n <= zlen (frame d) ->
  slice (d_raw d) (d_offset d) (d_offset d + n) = Some (firstn (Z.to_nat n) (frame d)).
Proof.
  intros Hd Hn. rewrite frame_length in Hn by exact Hd. destruct Hd as [H1 H2]. unfold slice.
  replace (0 <=? d_offset d) with true by (symmetry; apply Z.leb_le; lia).
  replace (d_offset d <=? d_offset d + n) with true by (symmetry; apply Z.leb_le; lia).
  replace (d_offset d + n <=? zlen (d_raw d)) with true by (symmetry; apply Z.leb_le; lia).
  cbn [andb]. f_equal. unfold frame.
  rewrite firstn_firstn. f_equal. lia.
Qed.

Lemma slice_negative d n : n < 0 -> slice (d_raw d) (d_offset d) (d_offset d + n) = None.
Proof.
  intros Hn. unfold slice.
  replace (d_offset d <=? d_offset d + n) with false by (symmetry; apply Z.leb_gt; lia).
  rewrite andb_false_r. reflexivity.
Qed.

(** ** Fixed-width reads *)

(** [get] only looks at its first [n] bytes and needs no more. *)
Definition looks_at {A} (n : nat) (get : list Z -> option A) : Prop :=
  (forall a b, length a = n -> get (a ++ b) = get a) /\
  (forall a, length a = n -> get a <> None).

Lemma fixed_eq {A} n (get : list Z -> option A) d : looks_at n get -> dec_ok d ->
  fixed (Z.of_nat n) get d =
    if Z.of_nat n <=? zlen (frame d)
    then match get (firstn n (frame d)) with
         | Some v => DOk v (advance (Z.of_nat n) d)
         | None => DPanic
         end
    else DErr ErrShortBuffer d.
Proof.
  intros [Hg1 Hg2] Hd. unfold fixed. rewrite remains_spec by exact Hd.
  destruct (Z.leb_spec (Z.of_nat n) (zlen (frame d))) as [Hle|Hgt]; [|reflexivity].
  destruct (slice_from_ok d Hd) as [tail Ht]. rewrite Ht.
  assert (E : frame d ++ tail = firstn n (frame d) ++ (skipn n (frame d) ++ tail)).
  { rewrite app_assoc, firstn_skipn. reflexivity. }
  rewrite E, Hg1; [reflexivity|]. rewrite firstn_length. unfold zlen in Hle. lia.
Qed.

Lemma Decodes_fixed {A} n (get : list Z -> option A) bs v :
  looks_at n get -> length bs = n -> get bs = Some v -> Decodes (fixed (Z.of_nat n) get) bs v.
Proof.
  intros Hg Hn Hv d rest Hd Hf. rewrite fixed_eq by assumption. rewrite Hf, zlen_app.
  pose proof (zlen_nonneg rest) as Hr.
  replace (Z.of_nat n <=? zlen bs + zlen rest) with true
    by (symmetry; apply Z.leb_le; unfold zlen at 1; lia).
  subst n. rewrite firstn_app, Nat.sub_diag, firstn_all. cbn [firstn]. rewrite app_nil_r, Hv.
  reflexivity.
Qed.

Lemma Starves_fixed {A} n (get : list Z -> option A) bs :
  looks_at n get -> length bs = n -> Starves (fixed (Z.of_nat n) get) bs.
Proof.
  intros Hg Hn d k Hd Hk Hf. exists d. rewrite fixed_eq by assumption. rewrite Hf.
  replace (Z.of_nat n <=? zlen (firstn k bs)) with false; [reflexivity|].
  symmetry. apply Z.leb_gt. unfold zlen. rewrite firstn_length. lia.
Qed.

Lemma Bounded_fixed {A} n (get : list Z -> option A) : looks_at n get -> Bounded (fixed (Z.of_nat n) get).
Proof.
  intros Hg d Hd. rewrite fixed_eq by assumption. pose proof (zlen_nonneg (frame d)) as Hz.
  destruct (Z.leb_spec (Z.of_nat n) (zlen (frame d))) as [Hle|Hgt].
  - destruct (get _); [|exact I]. exists (Z.of_nat n). split; [lia|reflexivity].
  - split; [reflexivity|]. exists 0. split; [lia|]. rewrite advance_0. reflexivity.
Qed.

Lemma NoPanic_fixed {A} n (get : list Z -> option A) : looks_at n get -> NoPanic (fixed (Z.of_nat n) get).
Proof.
  intros Hg d Hd. rewrite fixed_eq by assumption.
  destruct (Z.leb_spec (Z.of_nat n) (zlen (frame d))) as [Hle|Hgt]; [|discriminate].
  destruct Hg as [_ Hg]. specialize (Hg (firstn n (frame d))).
  destruct (get _); [discriminate|]. exfalso. apply Hg; [|reflexivity].
  rewrite firstn_length. unfold zlen in Hle. lia.
Qed.

Lemma Local_fixed {A} n (get : list Z -> option A) : looks_at n get -> Local (fixed (Z.of_nat n) get).
Proof.
  intros Hg d1 d2 H1 H2 Hf. rewrite !fixed_eq by assumption. rewrite <- Hf.
  destruct (Z.leb_spec (Z.of_nat n) (zlen (frame d1))) as [Hle|Hgt]; [|reflexivity].
  destruct (get _); cbn; [|exact I].
  assert (Hle2 : 0 <= Z.of_nat n <= zlen (frame d2)) by (rewrite <- Hf; lia).
  repeat split; try (apply dec_ok_advance; [assumption|lia]).
  rewrite !frame_advance by (assumption || lia). rewrite Hf. reflexivity.
Qed.

Lemma looks_at_map {A B} n (f : A -> B) get : looks_at n get -> looks_at n (fun b => option_map f (get b)).
Proof.
  intros [H1 H2]. split; intros.
  - rewrite H1 by assumption. reflexivity.
  - specialize (H2 a H). destruct (get a); cbn; congruence.
Qed.
Ltac destr_len l H :=
  repeat (destruct l as [|? l]; cbn [length] in H; try lia).
Lemma looks_at_head {A} (f : Z -> A) :
  looks_at 1 (fun b => match b with x :: _ => Some (f x) | [] => None end).
Proof. split; intros a; [intros b|]; intros H; destr_len a H; [reflexivity|discriminate]. Qed.
Lemma looks_at_16 : looks_at 2 get_uint16.
Proof. split; intros a; [intros b|]; intros H; destr_len a H; [reflexivity|discriminate]. Qed.
Lemma looks_at_32 : looks_at 4 get_uint32.
Proof. split; intros a; [intros b|]; intros H; destr_len a H; [reflexivity|discriminate]. Qed.
Lemma looks_at_64 : looks_at 8 get_uint64.
Proof. split; intros a; [intros b|]; intros H; destr_len a H; [reflexivity|discriminate]. Qed.

(** ** Composition *)

Lemma Decodes_ret {A} (a : A) : Decodes (ret a) [] a.
Proof. intros d rest Hd Hf. unfold ret, zlen. cbn. rewrite advance_0. reflexivity. Qed.

Lemma Decodes_bind {A B} (m : Dec A) (f : A -> Dec B) bs1 a bs2 b :
  Decodes m bs1 a -> Decodes (f a) bs2 b -> Decodes (bind m f) (bs1 ++ bs2) b.
Proof.
  intros Hm Hk d rest Hd Hf. rewrite <- app_assoc in Hf. unfold bind.
  rewrite (Hm d _ Hd Hf). destruct (frame_advance_app _ _ _ Hd Hf) as [Hd' Hf'].
  rewrite (Hk _ _ Hd' Hf'), advance_advance, zlen_app. reflexivity.
Qed.

Lemma Decodes_bind_ret {A B} (m : Dec A) (f : A -> B) bs a :
  Decodes m bs a -> Decodes (x <- m ;; ret (f x)) bs (f a).
Proof.
  intros Hm. rewrite <- (app_nil_r bs). eapply Decodes_bind; [exact Hm|apply Decodes_ret].
Qed.

Lemma Starves_nil {A} (m : Dec A) : Starves m [].
Proof. intros d k Hd Hk. cbn in Hk. lia. Qed.

Lemma Starves_bind {A B} (m : Dec A) (f : A -> Dec B) bs1 a bs2 :
  Decodes m bs1 a -> Starves m bs1 -> Starves (f a) bs2 -> Starves (bind m f) (bs1 ++ bs2).
Proof.
  intros Hm Hs Hk d k Hd Hlt Hf. rewrite firstn_app in Hf. unfold bind.
  destruct (Nat.ltb_spec k (length bs1)) as [Hk1|Hk1].
  - replace (k - length bs1)%nat with 0%nat in Hf by lia. cbn in Hf. rewrite app_nil_r in Hf.
    destruct (Hs d k Hd Hk1 Hf) as [d' E]. rewrite E. eauto.
  - rewrite firstn_all2 in Hf by lia. rewrite (Hm d _ Hd Hf).
    destruct (frame_advance_app _ _ _ Hd Hf) as [Hd' Hf'].
    rewrite app_length in Hlt. apply (Hk _ (k - length bs1)%nat Hd'); [lia|exact Hf'].
Qed.

Lemma Starves_bind_ret {A B} (m : Dec A) (f : A -> Dec B) bs : Starves m bs -> Starves (bind m f) bs.
Proof.
  intros Hs d k Hd Hk Hf. destruct (Hs d k Hd Hk Hf) as [d' E]. exists d'. unfold bind.
  rewrite E. reflexivity.
Qed.

Lemma Local_ret {A} (a : A) : Local (ret a).
Proof. intros d1 d2 H1 H2 Hf. cbn. auto. Qed.

Lemma Local_bind {A B} (m : Dec A) (f : A -> Dec B) :
  Local m -> (forall a, Local (f a)) -> Local (bind m f).
Proof.
  intros Hm Hk d1 d2 H1 H2 Hf. specialize (Hm d1 d2 H1 H2 Hf). unfold bind.
  destruct (m d1) as [a1 e1|x1 e1|], (m d2) as [a2 e2|x2 e2|]; cbn in Hm; try contradiction; cbn; try assumption.
  destruct Hm as (-> & Hd1 & Hd2 & Hff). apply Hk; assumption.
Qed.

Lemma Bounded_ret {A} (a : A) : Bounded (ret a).
Proof.
  intros d Hd. cbn. exists 0. rewrite advance_0. pose proof (zlen_nonneg (frame d)). split; [lia|reflexivity].
Qed.

Lemma Bounded_bind {A B} (m : Dec A) (f : A -> Dec B) :
  Bounded m -> (forall a, Bounded (f a)) -> Bounded (bind m f).
Proof.
  intros Hm Hk d Hd. specialize (Hm d Hd). unfold bind.
  destruct (m d) as [a d1|x d1|]; [|exact Hm|exact I].
  destruct Hm as (n & Hn & ->).
  pose proof (dec_ok_advance n d Hd Hn) as Hd1. specialize (Hk a _ Hd1).
  assert (Hfl : zlen (frame (advance n d)) = zlen (frame d) - n).
  { rewrite !frame_length by assumption. unfold advance. cbn. lia. }
  destruct (f a (advance n d)) as [b d2|x d2|]; [| |exact I].
  - destruct Hk as (n2 & Hn2 & ->). exists (n + n2). rewrite advance_advance. split; [lia|reflexivity].
  - destruct Hk as (Hx & n2 & Hn2 & ->). split; [exact Hx|].
    exists (n + n2). rewrite advance_advance. split; [lia|reflexivity].
Qed.

Lemma NoPanic_ret {A} (a : A) : NoPanic (ret a).
Proof. intros d Hd. discriminate. Qed.
Lemma NoPanic_bind {A B} (m : Dec A) (f : A -> Dec B) :
  Bounded m -> NoPanic m -> (forall a, NoPanic (f a)) -> NoPanic (bind m f).
Proof.
  intros Hb Hm Hk d Hd. specialize (Hb d Hd). specialize (Hm d Hd). unfold bind.
  destruct (m d) as [a d1|x d1|]; [|discriminate|congruence].
  destruct Hb as (n & Hn & ->). apply Hk. apply dec_ok_advance; assumption.
Qed.

(** ** take_slice *)

Lemma Decodes_take_slice bs : Decodes (take_slice (zlen bs)) bs bs.
Proof.
  intros d rest Hd Hf. unfold take_slice. rewrite remains_spec by exact Hd.
  pose proof (zlen_nonneg bs) as H1. pose proof (zlen_nonneg rest) as H2.
  assert (Hle : zlen bs <= zlen (frame d)) by (rewrite Hf, zlen_app; lia).
  replace (zlen bs <=? zlen (frame d)) with true by (symmetry; apply Z.leb_le; lia).
  rewrite slice_frame by (assumption || lia). rewrite Hf. unfold zlen at 1. rewrite Nat2Z.id.
  rewrite firstn_app, Nat.sub_diag, firstn_all. cbn. rewrite app_nil_r. reflexivity.
Qed.

Lemma Starves_take_slice bs : Starves (take_slice (zlen bs)) bs.
Proof.
  intros d k Hd Hk Hf. exists d. unfold take_slice. rewrite remains_spec by exact Hd. rewrite Hf.
  replace (zlen bs <=? zlen (firstn k bs)) with false; [reflexivity|].
  symmetry. apply Z.leb_gt. unfold zlen. rewrite firstn_length. lia.
Qed.

Lemma take_slice_eq n d : dec_ok d -> take_slice n d =
  if n <=? zlen (frame d) then
    if n <? 0 then DPanic else DOk (firstn (Z.to_nat n) (frame d)) (advance n d)
  else DErr ErrShortBuffer d.
Proof.
  intros Hd. unfold take_slice. rewrite remains_spec by exact Hd.
  destruct (Z.leb_spec n (zlen (frame d))) as [Hle|Hgt]; [|reflexivity].
  destruct (Z.ltb_spec n 0) as [Hneg|Hpos].
  - rewrite slice_negative by lia. reflexivity.
  - rewrite slice_frame by (assumption || lia). reflexivity.
Qed.

Lemma Local_take_slice n : Local (take_slice n).
Proof.
  intros d1 d2 H1 H2 Hf. rewrite !take_slice_eq by assumption. rewrite <- Hf.
  destruct (Z.leb_spec n (zlen (frame d1))) as [Hle|Hgt]; [|reflexivity].
  destruct (Z.ltb_spec n 0) as [Hneg|Hpos]; [exact I|]. cbn.
  assert (Hle2 : 0 <= n <= zlen (frame d2)) by (rewrite <- Hf; lia).
  repeat split; try (apply dec_ok_advance; [assumption|lia]).
  rewrite !frame_advance by (assumption || lia). rewrite Hf. reflexivity.
Qed.

Lemma Bounded_take_slice n : Bounded (take_slice n).
Proof.
  intros d Hd. rewrite take_slice_eq by assumption. pose proof (zlen_nonneg (frame d)) as Hz.
  destruct (Z.leb_spec n (zlen (frame d))) as [Hle|Hgt].
  - destruct (Z.ltb_spec n 0) as [Hneg|Hpos]; [exact I|]. exists n. split; [lia|reflexivity].
  - split; [reflexivity|]. exists 0. split; [lia|]. rewrite advance_0. reflexivity.
Qed.

(** ** The primitive readers *)

Lemma Decodes_bool b : Decodes dBool (w_bool b) b.
Proof.
  apply (Decodes_fixed 1); [apply looks_at_head|reflexivity|]. destruct b; reflexivity.
Qed.
Lemma Decodes_int8 i : is_int8 i -> Decodes dInt8 (be 1 i) i.
Proof.
  intros Hi. apply (Decodes_fixed 1); [apply looks_at_head|reflexivity|].
  rewrite <- (app_nil_r (be 1 i)). destruct (be_1 i []) as (b & E & Hb & Hv). rewrite E. f_equal.
  rewrite Hv. unfold int8. change 256 with (2 ^ 8). rewrite wrap_mod by lia. apply int8_id, Hi.
Qed.
Lemma Decodes_int16 i : is_int16 i -> Decodes dInt16 (be 2 i) i.
Proof.
  intros Hi. apply (Decodes_fixed 2); [apply looks_at_map, looks_at_16|reflexivity|].
  rewrite <- (app_nil_r (be 2 i)), get_be16. cbn [option_map]. f_equal.
  unfold int16. rewrite wrap_mod by lia. apply int16_id, Hi.
Qed.
Lemma Decodes_int32 i : is_int32 i -> Decodes dInt32 (be 4 i) i.
Proof.
  intros Hi. apply (Decodes_fixed 4); [apply looks_at_map, looks_at_32|reflexivity|].
  rewrite <- (app_nil_r (be 4 i)), get_be32. cbn [option_map]. f_equal.
  unfold int32. rewrite wrap_mod by lia. apply int32_id, Hi.
Qed.
Lemma Decodes_int64 i : is_int64 i -> Decodes dInt64 (be 8 i) i.
Proof.
  intros Hi. apply (Decodes_fixed 8); [apply looks_at_map, looks_at_64|reflexivity|].
  rewrite <- (app_nil_r (be 8 i)), get_be64. cbn [option_map]. f_equal.
  unfold int64. rewrite wrap_mod by lia. apply int64_id, Hi.
Qed.

Lemma Starves_bool b : Starves dBool (w_bool b).
Proof. apply (Starves_fixed 1); [apply looks_at_head|reflexivity]. Qed.
Lemma Starves_int8 i : Starves dInt8 (be 1 i).
Proof. apply (Starves_fixed 1); [apply looks_at_head|reflexivity]. Qed.
Lemma Starves_int16 i : Starves dInt16 (be 2 i).
Proof. apply (Starves_fixed 2); [apply looks_at_map, looks_at_16|reflexivity]. Qed.
Lemma Starves_int32 i : Starves dInt32 (be 4 i).
Proof. apply (Starves_fixed 4); [apply looks_at_map, looks_at_32|reflexivity]. Qed.
Lemma Starves_int64 i : Starves dInt64 (be 8 i).
Proof. apply (Starves_fixed 8); [apply looks_at_map, looks_at_64|reflexivity]. Qed.

Lemma Local_bool : Local dBool. Proof. apply (Local_fixed 1), looks_at_head. Qed.
Lemma Local_int8 : Local dInt8. Proof. apply (Local_fixed 1), looks_at_head. Qed.
Lemma Local_int16 : Local dInt16. Proof. apply (Local_fixed 2), looks_at_map, looks_at_16. Qed.
Lemma Local_int32 : Local dInt32. Proof. apply (Local_fixed 4), looks_at_map, looks_at_32. Qed.
Lemma Local_int64 : Local dInt64. Proof. apply (Local_fixed 8), looks_at_map, looks_at_64. Qed.
Lemma Bounded_bool : Bounded dBool. Proof. apply (Bounded_fixed 1), looks_at_head. Qed.
Lemma Bounded_int8 : Bounded dInt8. Proof. apply (Bounded_fixed 1), looks_at_head. Qed.
Lemma Bounded_int16 : Bounded dInt16. Proof. apply (Bounded_fixed 2), looks_at_map, looks_at_16. Qed.
Lemma Bounded_int32 : Bounded dInt32. Proof. apply (Bounded_fixed 4), looks_at_map, looks_at_32. Qed.
Lemma Bounded_int64 : Bounded dInt64. Proof. apply (Bounded_fixed 8), looks_at_map, looks_at_64. Qed.
Lemma NoPanic_bool : NoPanic dBool. Proof. apply (NoPanic_fixed 1), looks_at_head. Qed.
Lemma NoPanic_int8 : NoPanic dInt8. Proof. apply (NoPanic_fixed 1), looks_at_head. Qed.
Lemma NoPanic_int16 : NoPanic dInt16. Proof. apply (NoPanic_fixed 2), looks_at_map, looks_at_16. Qed.
Lemma NoPanic_int32 : NoPanic dInt32. Proof. apply (NoPanic_fixed 4), looks_at_map, looks_at_32. Qed.
Lemma NoPanic_int64 : NoPanic dInt64. Proof. apply (NoPanic_fixed 8), looks_at_map, looks_at_64. Qed.

(** ** Strings, bytes *)

(** Limits under which length prefixes are faithful. *)
Definition fits16 (s : gostring) : Prop := zlen s < 2 ^ 15.
Definition fits32 {A} (s : gslice A) : Prop := glen s < 2 ^ 31.

Lemma Decodes_string s : fits16 s -> Decodes dString (w_string s) s.
Proof.
  intros Hs. pose proof (zlen_nonneg s) as Hz. unfold fits16 in Hs. unfold dString, w_string.
  eapply Decodes_bind.
  - apply Decodes_int16. unfold is_int16. lia.
  - cbn beta. replace (zlen s =? -1) with false by (symmetry; apply Z.eqb_neq; lia).
    apply Decodes_take_slice.
Qed.
Lemma Starves_string s : fits16 s -> Starves dString (w_string s).
Proof.
  intros Hs. pose proof (zlen_nonneg s) as Hz. unfold fits16 in Hs. unfold dString, w_string.
  eapply Starves_bind.
  - apply Decodes_int16. unfold is_int16. lia.
  - apply Starves_int16.
  - cbn beta. replace (zlen s =? -1) with false by (symmetry; apply Z.eqb_neq; lia).
    apply Starves_take_slice.
Qed.
Lemma Local_string : Local dString.
Proof.
  apply Local_bind; [apply Local_int16|]. intros n. destruct (n =? -1); [apply Local_ret|apply Local_take_slice].
Qed.
Lemma Bounded_string : Bounded dString.
Proof.
  apply Bounded_bind; [apply Bounded_int16|]. intros n.
  destruct (n =? -1); [apply Bounded_ret|apply Bounded_take_slice].
Qed.

Lemma Decodes_bytes s : fits32 s -> Decodes dBytes (w_bytes s) (Some (items s)).
Proof.
  intros Hs. unfold fits32, glen in Hs. pose proof (zlen_nonneg (items s)) as Hz. unfold dBytes, w_bytes, glen.
  eapply Decodes_bind.
  - apply Decodes_int32. unfold is_int32. lia.
  - apply (Decodes_bind_ret (take_slice (zlen (items s))) Some). apply Decodes_take_slice.
Qed.
Lemma Starves_bytes s : fits32 s -> Starves dBytes (w_bytes s).
Proof.
  intros Hs. unfold fits32, glen in Hs. pose proof (zlen_nonneg (items s)) as Hz. unfold dBytes, w_bytes, glen.
  eapply Starves_bind.
  - apply Decodes_int32. unfold is_int32. lia.
  - apply Starves_int32.
  - apply Starves_bind_ret. apply Starves_take_slice.
Qed.
Lemma Local_bytes : Local dBytes.
Proof.
  apply Local_bind; [apply Local_int32|]. intros n.
  apply Local_bind; [apply Local_take_slice|]. intros v. apply Local_ret.
Qed.
Lemma Bounded_bytes : Bounded dBytes.
Proof.
  apply Bounded_bind; [apply Bounded_int32|]. intros n.
  apply Bounded_bind; [apply Bounded_take_slice|]. intros v. apply Bounded_ret.
Qed.

(** ** Loops and arrays *)

Lemma Decodes_repeat {A B} (f : Dec B) (w : A -> list Z) (g : A -> B) l :
  (forall x, In x l -> Decodes f (w x) (g x)) ->
  Decodes (repeat_dec (length l) f) (flat_map w l) (map g l).
Proof.
  induction l as [|x l IH]; intros H; cbn [length repeat_dec flat_map map]; [apply Decodes_ret|].
  eapply Decodes_bind; [apply H; left; reflexivity|].
  apply (Decodes_bind_ret _ (fun xs => g x :: xs)). apply IH. intros y Hy. apply H. right. exact Hy.
Qed.
Lemma Starves_repeat {A B} (f : Dec B) (w : A -> list Z) (g : A -> B) l :
  (forall x, In x l -> Decodes f (w x) (g x)) ->
  (forall x, In x l -> Starves f (w x)) ->
  Starves (repeat_dec (length l) f) (flat_map w l).
Proof.
  induction l as [|x l IH]; intros H Hs; cbn [length repeat_dec flat_map]; [apply Starves_nil|].
  eapply Starves_bind; [apply H; left; reflexivity|apply Hs; left; reflexivity|].
  apply Starves_bind_ret. apply IH; intros y Hy; [apply H|apply Hs]; right; exact Hy.
Qed.
Lemma Local_repeat {A} n (f : Dec A) : Local f -> Local (repeat_dec n f).
Proof.
  intros Hf. induction n as [|n IH]; cbn [repeat_dec]; [apply Local_ret|].
  apply Local_bind; [exact Hf|]. intros x. apply Local_bind; [exact IH|]. intros xs. apply Local_ret.
Qed.
Lemma Bounded_repeat {A} n (f : Dec A) : Bounded f -> Bounded (repeat_dec n f).
Proof.
  intros Hf. induction n as [|n IH]; cbn [repeat_dec]; [apply Bounded_ret|].
  apply Bounded_bind; [exact Hf|]. intros x. apply Bounded_bind; [exact IH|]. intros xs. apply Bounded_ret.
Qed.
Lemma NoPanic_repeat {A} n (f : Dec A) : Bounded f -> NoPanic f -> NoPanic (repeat_dec n f).
Proof.
  intros Hb Hf. induction n as [|n IH]; cbn [repeat_dec]; [apply NoPanic_ret|].
  apply NoPanic_bind; [exact Hb|exact Hf|]. intros x.
  apply NoPanic_bind; [apply Bounded_repeat, Hb|exact IH|]. intros xs. apply NoPanic_ret.
Qed.

Lemma is_int32_len {A} (s : gslice A) : fits32 s -> is_int32 (glen s) /\ 0 <= glen s /\ Z.to_nat (glen s) = length (items s).
Proof.
  intros Hs. unfold fits32 in Hs. pose proof (zlen_nonneg (items s)) as Hz. unfold is_int32, glen in *.
  repeat split; try lia. unfold zlen. apply Nat2Z.id.
Qed.

Lemma Decodes_dec_array {A B} (f : Dec B) (w : A -> list Z) (g : A -> B) (xs : gslice A) old :
  fits32 xs ->
  (forall x, In x (items xs) -> Decodes f (w x) (g x)) ->
  Decodes (dec_array f old) (w_array w xs) (Some (map g (items xs))).
Proof.
  intros Hs Hf. destruct (is_int32_len xs Hs) as (Hi & H0 & Hn). unfold dec_array, w_array.
  eapply Decodes_bind; [apply Decodes_int32, Hi|]. cbn beta.
  replace (0 <=? glen xs) with true by (symmetry; apply Z.leb_le; lia).
  apply (Decodes_bind_ret _ Some). rewrite Hn. apply Decodes_repeat. exact Hf.
Qed.
Lemma Starves_dec_array {A B} (f : Dec B) (w : A -> list Z) (g : A -> B) (xs : gslice A) old :
  fits32 xs ->
  (forall x, In x (items xs) -> Decodes f (w x) (g x)) ->
  (forall x, In x (items xs) -> Starves f (w x)) ->
  Starves (dec_array f old) (w_array w xs).
Proof.
  intros Hs Hf Hst. destruct (is_int32_len xs Hs) as (Hi & H0 & Hn). unfold dec_array, w_array.
  eapply Starves_bind; [apply Decodes_int32, Hi|apply Starves_int32|]. cbn beta.
  replace (0 <=? glen xs) with true by (symmetry; apply Z.leb_le; lia).
  apply Starves_bind_ret. rewrite Hn. eapply Starves_repeat; [exact Hf|exact Hst].
Qed.
Lemma Local_dec_array {A} (f : Dec A) old : Local f -> Local (dec_array f old).
Proof.
  intros Hf. apply Local_bind; [apply Local_int32|]. intros n. destruct (0 <=? n); [|apply Local_ret].
  apply Local_bind; [apply Local_repeat, Hf|]. intros xs. apply Local_ret.
Qed.
Lemma Bounded_dec_array {A} (f : Dec A) old : Bounded f -> Bounded (dec_array f old).
Proof.
  intros Hf. apply Bounded_bind; [apply Bounded_int32|]. intros n. destruct (0 <=? n); [|apply Bounded_ret].
  apply Bounded_bind; [apply Bounded_repeat, Hf|]. intros xs. apply Bounded_ret.
Qed.
Lemma NoPanic_dec_array {A} (f : Dec A) old : Bounded f -> NoPanic f -> NoPanic (dec_array f old).
Proof.
  intros Hb Hf. apply NoPanic_bind; [apply Bounded_int32|apply NoPanic_int32|]. intros n.
  destruct (0 <=? n); [|apply NoPanic_ret].
  apply NoPanic_bind; [apply Bounded_repeat, Hb|apply NoPanic_repeat; assumption|]. intros xs. apply NoPanic_ret.
Qed.

Lemma Decodes_prim_array {A} (f : Dec A) (w : A -> list Z) (xs : gslice A) :
  fits32 xs ->
  (forall x, In x (items xs) -> Decodes f (w x) x) ->
  Decodes (prim_array f) (w_nullable_array w xs) xs.
Proof.
  intros Hs Hf. destruct xs as [l|]; cbn [w_nullable_array]; unfold prim_array.
  - destruct (is_int32_len _ Hs) as (Hi & H0 & Hn).
    unfold w_array. eapply Decodes_bind; [apply Decodes_int32, Hi|]. cbn beta.
    replace (glen (Some l) =? -1) with false by (symmetry; apply Z.eqb_neq; lia).
    replace (glen (Some l) <? 0) with false by (symmetry; apply Z.ltb_ge; lia).
    apply (Decodes_bind_ret _ Some). rewrite Hn. cbn [items].
    pose proof (Decodes_repeat f w (fun x => x) l) as Hr. rewrite map_id in Hr. apply Hr. exact Hf.
  - rewrite <- (app_nil_r (be 4 (-1))). eapply Decodes_bind; [apply Decodes_int32; unfold is_int32; lia|].
    cbn. apply Decodes_ret.
Qed.
Lemma Starves_prim_array {A} (f : Dec A) (w : A -> list Z) (xs : gslice A) :
  fits32 xs ->
  (forall x, In x (items xs) -> Decodes f (w x) x) ->
  (forall x, In x (items xs) -> Starves f (w x)) ->
  Starves (prim_array f) (w_nullable_array w xs).
Proof.
  intros Hs Hf Hst. destruct xs as [l|]; cbn [w_nullable_array]; unfold prim_array.
  - destruct (is_int32_len _ Hs) as (Hi & H0 & Hn).
    unfold w_array. eapply Starves_bind; [apply Decodes_int32, Hi|apply Starves_int32|]. cbn beta.
    replace (glen (Some l) =? -1) with false by (symmetry; apply Z.eqb_neq; lia).
    replace (glen (Some l) <? 0) with false by (symmetry; apply Z.ltb_ge; lia).
    apply Starves_bind_ret. rewrite Hn. cbn [items].
    apply (Starves_repeat f w (fun x => x)); [exact Hf|exact Hst].
  - apply Starves_bind_ret. apply Starves_int32.
Qed.
Lemma Local_prim_array {A} (f : Dec A) : Local f -> Local (prim_array f).
Proof.
  intros Hf. apply Local_bind; [apply Local_int32|]. intros n.
  destruct (n =? -1); [apply Local_ret|]. destruct (n <? 0); [intros d1 d2 _ _ _; exact I|].
  apply Local_bind; [apply Local_repeat, Hf|]. intros xs. apply Local_ret.
Qed.
Lemma Bounded_prim_array {A} (f : Dec A) : Bounded f -> Bounded (prim_array f).
Proof.
  intros Hf. apply Bounded_bind; [apply Bounded_int32|]. intros n.
  destruct (n =? -1); [apply Bounded_ret|]. destruct (n <? 0); [intros d _; exact I|].
  apply Bounded_bind; [apply Bounded_repeat, Hf|]. intros xs. apply Bounded_ret.
Qed.

Lemma Local_dec_if {A} c (m : Dec A) old : Local m -> Local (dec_if c m old).
Proof. intros Hm. destruct c; [exact Hm|apply Local_ret]. Qed.
Lemma Bounded_dec_if {A} c (m : Dec A) old : Bounded m -> Bounded (dec_if c m old).
Proof. intros Hm. destruct c; [exact Hm|apply Bounded_ret]. Qed.
Lemma NoPanic_dec_if {A} c (m : Dec A) old : NoPanic m -> NoPanic (dec_if c m old).
Proof. intros Hm. destruct c; [exact Hm|apply NoPanic_ret]. Qed.
