(** * Proofs about the memory asked for *)
From Verif Require Binary.
From Verif Require Import GoBase GoLemmas Encoder Decoder Spec SchemaSpec EncProofs DecProofs Schema Link AllMessages MsgProofs MsgProps Memory MemorySpec.
Local Open Scope Z_scope.
Local Open Scope list_scope.
Ltac Zify.zify_post_hook ::= idtac.

(** ** The log does not change the result *)
Lemma mbind_snd {A B} (m : MDec A) (m' : Dec A) (f : A -> MDec B) (f' : A -> Dec B) :
  (forall d, snd (m d) = m' d) -> (forall a d, snd (f a d) = f' a d) -> forall d, snd (mbind m f d) = bind m' f' d.
Proof.
  intros H1 H2 d. unfold mbind, bind. rewrite <- H1. destruct (m d) as [log [a d'|x d'|]]; cbn [snd]; try reflexivity.
  rewrite <- H2. destruct (f a d'). reflexivity.
Qed.
Lemma mrepeat_snd {A} n (f : MDec A) (f' : Dec A) : (forall d, snd (f d) = f' d) -> forall d, snd (mrepeat n f d) = repeat_dec n f' d.
Proof.
  intros H. induction n as [|n IH]; intros d; [reflexivity|]. cbn [mrepeat repeat_dec].
  apply mbind_snd; [exact H|]. intros a d'. apply mbind_snd; [exact IH|]. reflexivity.
Qed.
Lemma mmake_snd {B} n (f : unit -> MDec B) (f' : Dec B) : (forall d, snd (f tt d) = f' d) ->
  forall d, snd (mbind (mmake n) f d) = if n <? 0 then DPanic else f' d.
Proof. intros H d. unfold mbind, mmake. destruct (n <? 0); [reflexivity|]. rewrite <- H. destruct (f tt d). reflexivity. Qed.
Lemma mprim_snd {A} (f : Dec A) d : snd (mprim_array f d) = prim_array f d.
Proof.
  unfold mprim_array, prim_array. apply mbind_snd; [reflexivity|]. intros n d'. destruct (n =? -1) eqn:E; [reflexivity|].
  rewrite (mmake_snd _ _ (xs <- repeat_dec (Z.to_nat n) f ;; ret (Some xs))).
  - destruct (n <? 0); reflexivity.
  - intros d''. apply mbind_snd; [intros; apply mrepeat_snd; reflexivity|reflexivity].
Qed.
Lemma mdecode_snd : (forall t v old d, snd (mdecode t v old d) = gdecode t v old d) /\
  (forall fs v old d, snd (mdecodes fs v old d) = gdecodes fs v old d).
Proof.
  apply schema_mind; try (intros; reflexivity); try (intros; apply mprim_snd).
  - intros fs IH v old d. cbn [mdecode gdecode]. unfold mdec_array, dec_array. apply mbind_snd; [reflexivity|]. intros n d'.
    destruct (0 <=? n) eqn:E; [|reflexivity]. rewrite (mmake_snd _ _ (xs <- repeat_dec (Z.to_nat n) (gdecodes fs v (zeros fs)) ;; ret (Some xs))).
    + replace (n <? 0) with false by lia. reflexivity.
    + intros d''. apply mbind_snd; [intros; apply mrepeat_snd; apply IH|reflexivity].
  - intros name r t IHt rest IHr v old d. cbn [mdecodes gdecodes]. apply mbind_snd.
    + intros d'. unfold dec_if. destruct (active r v); [apply IHt|reflexivity].
    + intros x d'. apply mbind_snd; [apply IHr|reflexivity].
Qed.
Lemma log_erased name c : In (name, c) all_codecs -> forall v old d,
  c_decode c v old d = dmap (c_of c) (fun d => snd (mdecodes (c_schema c) v (c_to c old) d)) d.
Proof.
  intros H v old d. rewrite (l_decode c (codec_linked _ _ H)). unfold dmap. rewrite (proj2 mdecode_snd). reflexivity.
Qed.

(** ** Every count is believed *)
Lemma zero_fits : (forall t v, fits t v (zero t)) /\ (forall fs v, fit fs v (zeros fs)).
Proof.
  apply schema_mind; cbn; unfold is_int8, is_int16, is_int32, is_int64, glen, zlen; intros; cbn [length items Z.of_nat]; try split; try apply Forall_nil; try (lia || exact I); auto.
Qed.

Lemma mbind_log {A B} (m : MDec A) (f : A -> MDec B) d n : In n (fst (m d)) -> In n (fst (mbind m f d)).
Proof.
  intros H. unfold mbind. destruct (m d) as [log [a d'|x d'|]]; cbn [fst] in *; try exact H.
  destruct (f a d'). cbn [fst]. apply in_or_app. left. exact H.
Qed.
Lemma mbind_log_ok {A B} (m : MDec A) (f : A -> MDec B) d a d' n : snd (m d) = DOk a d' -> In n (fst (f a d')) -> In n (fst (mbind m f d)).
Proof.
  intros E H. unfold mbind. destruct (m d) as [log r]. cbn [snd] in E. subst r. destruct (f a d'). cbn [fst] in *. apply in_or_app. right. exact H.
Qed.
Lemma make_logged {A} n (f : unit -> MDec A) d : In n (fst (mbind (mmake n) f d)).
Proof. apply mbind_log. left. reflexivity. Qed.
Lemma array_believed t v old n d rest : is_array t = true -> 0 <= n < 2 ^ 31 -> dec_ok d -> frame d = be 4 n ++ rest -> In n (fst (mdecode t v old d)).
Proof.
  intros Ht Hn Hd Hf. assert (E : snd (mlift dArrayLength d) = DOk n (advance 4 d)).
  { apply (Decodes_int32 n ltac:(unfold is_int32; lia) d rest Hd Hf). }
  destruct t; try discriminate Ht; cbn [mdecode]; unfold mprim_array, mdec_array; eapply mbind_log_ok; try exact E; cbn beta.
  1-3: replace (n =? -1) with false by lia; apply make_logged.
  replace (0 <=? n) with true by lia. apply make_logged.
Qed.
Lemma count_believed fs : forall v n, has_array fs v = true -> 0 <= n < 2 ^ 31 ->
  exists bs, zlen bs <= zlen (wires fs v (zeros fs)) /\ forall old d rest, dec_ok d -> frame d = bs ++ rest -> In n (fst (mdecodes fs v old d)).
Proof.
  induction fs as [|name r t rest IH]; intros v n H Hn; [discriminate|]. cbn [has_array] in H. cbn [mdecodes wires zeros fst snd].
  destruct (active r v) eqn:Ha; cbn [andb orb] in H.
  - destruct (is_array t) eqn:Ht.
    + exists (be 4 n). split.
      * unfold zlen. rewrite app_length, length_be. assert (length (wire t v (zero t)) = 4%nat) by (destruct t; try discriminate Ht; reflexivity). lia.
      * intros old d tl Hd Hf. apply mbind_log. eapply array_believed; eassumption.
    + cbn [orb] in H. destruct (IH v n H Hn) as (bs & L & Hbs). exists (wire t v (zero t) ++ bs). split.
      * unfold zlen in *. rewrite !app_length. lia.
      * intros old d tl Hd Hf. rewrite <- app_assoc in Hf. pose proof (proj1 gdecode_spec t v (fst old) (zero t) (proj1 zero_fits t v) d _ Hd Hf) as E.
        eapply mbind_log_ok; [rewrite (proj1 mdecode_snd); exact E|]. cbn beta. apply mbind_log.
        destruct (frame_advance_app d _ _ Hd Hf) as [Hd' Hf']. eapply Hbs; eassumption.
  - destruct (IH v n H Hn) as (bs & L & Hbs). exists bs. split; [exact L|].
    intros old d tl Hd Hf. eapply mbind_log_ok; [reflexivity|]. cbn beta. apply mbind_log. eapply Hbs; eassumption.
Qed.

(** ** What a successful decoding asks for is paid for in bytes *)
Definition eats {A} (k : Z) (m : Dec A) : Prop := forall d a d', m d = DOk a d' -> d_offset d + k <= d_offset d'.
Lemma eats_fixed {A} n (get : list Z -> option A) : eats n (fixed n get).
Proof.
  intros d a d' H. unfold fixed in H. destruct (remains n d); [|discriminate]. destruct (slice_from _ _) as [b|]; [|discriminate].
  destruct (get b); [|discriminate]. injection H as _ <-. cbn. lia.
Qed.
Lemma eats_take n : eats 0 (take_slice n).
Proof.
  intros d a d' H. unfold take_slice in H. destruct (remains n d); [|discriminate]. destruct (slice _ _ _) as [b|] eqn:E; [|discriminate].
  injection H as _ <-. cbn [advance d_offset]. unfold slice in E. destruct (_ && _) eqn:B in E; [|discriminate]. lia.
Qed.
Lemma eats_weaken {A} j k (m : Dec A) : j <= k -> eats k m -> eats j m.
Proof. intros L H d a d' E. specialize (H _ _ _ E). lia. Qed.
Lemma eats_string : eats 2 dString.
Proof.
  intros d a d' H. unfold dString, bind in H. destruct (dInt16 d) as [n d1|x d1|] eqn:E; try discriminate. apply eats_fixed in E.
  destruct (n =? -1); [injection H as _ <-; exact E|]. apply eats_take in H. lia.
Qed.
Lemma eats_bytes : eats 4 dBytes.
Proof.
  intros d a d' H. unfold dBytes, bind in H. destruct (dInt32 d) as [n d1|x d1|] eqn:E; try discriminate. apply eats_fixed in E.
  destruct (take_slice n d1) as [w d2|x d2|] eqn:E2; try discriminate. injection H as _ <-. apply eats_take in E2. lia.
Qed.

(** [m] uses at least [k] bytes more than the elements it makes room for. *)
Definition pays {A} (k : Z) (m : MDec A) : Prop := forall d log a d', m d = (log, DOk a d') -> sum log + k <= d_offset d' - d_offset d.
Lemma sum_app l1 l2 : sum (l1 ++ l2) = sum l1 + sum l2.
Proof. induction l1 as [|x l IH]; cbn [app sum]; lia. Qed.
Lemma pays_bind {A B} j k (m : MDec A) (f : A -> MDec B) : pays j m -> (forall a, pays k (f a)) -> pays (j + k) (mbind m f).
Proof.
  intros H1 H2 d log b d' E. unfold mbind in E. destruct (m d) as [l1 [a d1|x d1|]] eqn:E1; try discriminate.
  destruct (f a d1) as [l2 r] eqn:E2. injection E as <- ->. specialize (H1 _ _ _ _ E1). specialize (H2 _ _ _ _ _ E2). rewrite sum_app. lia.
Qed.
Lemma pays_ret {A} (a : A) : pays 0 (mret a).
Proof. intros d log b d' E. injection E as <- _ <-. cbn [sum]. lia. Qed.
Lemma pays_lift {A} k (m : Dec A) : eats k m -> pays k (mlift m).
Proof. intros H d log a d' E. injection E as <- E. specialize (H _ _ _ E). cbn [sum]. lia. Qed.
Lemma pays_make n : pays (- n) (mmake n).
Proof. intros d log a d' E. unfold mmake in E. injection E as <- E. destruct (n <? 0); [discriminate|]. injection E as _ <-. cbn [sum]. lia. Qed.
Lemma pays_repeat {A} (f : MDec A) n : pays 1 f -> pays (Z.of_nat n) (mrepeat n f).
Proof.
  intros H. induction n as [|n IH]; [apply pays_ret|]. cbn [mrepeat]. replace (Z.of_nat (S n)) with (1 + (Z.of_nat n + 0)) by lia.
  apply pays_bind; [exact H|]. intros x. apply pays_bind; [exact IH|]. intros xs. apply pays_ret.
Qed.
Lemma pays_weaken {A} j k (m : MDec A) : j <= k -> pays k m -> pays j m.
Proof. intros L H d log a d' E. specialize (H _ _ _ _ E). lia. Qed.
Lemma pays_length {A} (f : Z -> MDec A) : (forall n, pays 0 (f n)) -> pays 4 (mbind (mlift dArrayLength) f).
Proof. intros H. change 4 with (4 + 0). apply pays_bind; [apply pays_lift, eats_fixed|exact H]. Qed.
Lemma pays_made {A} n (f : MDec A) : 0 <= n -> pays 1 f -> pays 0 (mbind (mmake n) (fun _ => mbind (mrepeat (Z.to_nat n) f) (fun xs => mret (Some xs)))).
Proof.
  intros Hn H. replace 0 with (- n + (Z.of_nat (Z.to_nat n) + 0)) by lia. apply pays_bind; [apply pays_make|]. intros _.
  apply pays_bind; [apply pays_repeat, H|]. intros xs. apply pays_ret.
Qed.
Lemma pays_prim {A} (f : Dec A) k : 1 <= k -> eats k f -> pays 4 (mprim_array f).
Proof.
  intros Hk H. apply pays_length. intros n. destruct (n =? -1); [apply pays_ret|]. destruct (Z.ltb_spec n 0) as [L|L].
  - intros d log a d' E. unfold mbind, mmake in E. replace (n <? 0) with true in E by lia. discriminate.
  - apply pays_made; [exact L|]. eapply pays_weaken; [exact Hk|]. apply pays_lift, H.
Qed.
Fixpoint carried (fs : fields) (v : Z) : Z := match fs with FNil => 0 | FCons _ r _ rest => (if active r v then 1 else 0) + carried rest v end.
Lemma carried_nonneg fs v : 0 <= carried fs v.
Proof. induction fs as [|name r t rest IH]; cbn [carried]; [lia|]. destruct (active r v); lia. Qed.
Lemma within_active r r' v : within r r' = true -> active r v = true -> active r' v = true.
Proof. destruct r, r'; cbn; intros; try discriminate; try reflexivity; lia. Qed.
Lemma filled_carried r fs v : filled r fs = true -> active r v = true -> 1 <= carried fs v.
Proof.
  intros H Ha. induction fs as [|name r' t rest IH]; [discriminate|]. cbn [filled carried] in *. pose proof (carried_nonneg rest v).
  apply orb_true_iff in H. destruct H as [H|H]; [rewrite (within_active _ _ _ H Ha); lia|]. specialize (IH H). destruct (active r' v); lia.
Qed.
Lemma decode_pays : (forall t r v old, solid t r = true -> active r v = true -> pays 1 (mdecode t v old)) /\
  (forall fs v old, solids fs = true -> pays (carried fs v) (mdecodes fs v old)).
Proof.
  apply schema_mind; cbn [mdecode mdecodes gdecode solid solids carried].
  1-5: intros; (eapply (pays_weaken 1); [|apply pays_lift, eats_fixed]; lia).
  - intros. apply (pays_weaken 1 2); [lia|]. apply pays_lift, eats_string.
  - intros. apply (pays_weaken 1 4); [lia|]. apply pays_lift, eats_bytes.
  - intros. apply (pays_weaken 1 4); [lia|]. apply (pays_prim _ 4); [lia|apply eats_fixed].
  - intros. apply (pays_weaken 1 4); [lia|]. apply (pays_prim _ 8); [lia|apply eats_fixed].
  - intros. apply (pays_weaken 1 4); [lia|]. apply (pays_prim _ 2); [lia|apply eats_string].
  - intros fs IH r v old H Ha. apply andb_true_iff in H. destruct H as [H1 H2]. apply (pays_weaken 1 4); [lia|]. apply pays_length. intros n.
    destruct (0 <=? n) eqn:E; [|apply pays_ret]. apply pays_made; [lia|]. eapply pays_weaken; [|apply IH, H2]. eapply filled_carried; eassumption.
  - intros. apply pays_ret.
  - intros name r t IHt rest IHr v old H. apply andb_true_iff in H. destruct H as [H1 H2]. apply pays_bind.
    + destruct (active r v) eqn:E; [eapply IHt; eassumption|apply pays_ret].
    + intros x. replace (carried rest v) with (carried rest v + 0) by lia. apply pays_bind; [apply IHr, H2|]. intros xs. apply pays_ret.
Qed.
Lemma all_solid : forallb (fun nc => solids (c_schema (snd nc))) all_codecs = true.
Proof. vm_compute. reflexivity. Qed.
Lemma memory_paid name c : In (name, c) all_codecs -> forall v old d m d', dec_ok d -> c_decode c v old d = DOk m d' ->
  sum (c_makes c v old d) <= zlen (frame d).
Proof.
  intros H v old d m d' Hd E. pose proof all_solid as S. rewrite forallb_forall in S. specialize (S _ H). cbn [snd] in S.
  pose proof (linked_bounded c (codec_linked _ _ H) v old d Hd) as B. rewrite E in B. destruct B as (n & Hn & ->).
  rewrite (log_erased _ _ H) in E. unfold dmap in E. unfold c_makes. destruct (mdecodes (c_schema c) v (c_to c old) d) as [log r] eqn:Er. cbn [fst snd] in *.
  destruct r as [x dx|x dx|]; try discriminate. injection E as _ ->. pose proof (proj2 decode_pays _ _ _ S _ _ _ _ Er) as P.
  pose proof (carried_nonneg (c_schema c) v). cbn [advance d_offset] in P. lia.
Qed.

(** ** What a failing decoding asks for *)
Definition stays {A} (m : Dec A) : Prop := forall d x d', m d = DErr x d' -> d_offset d <= d_offset d'.
Lemma stays_fixed {A} n (get : list Z -> option A) : stays (fixed n get).
Proof.
  intros d x d' H. unfold fixed in H. destruct (remains n d); [|injection H as _ <-; lia]. destruct (slice_from _ _) as [b|]; [|discriminate].
  destruct (get b); discriminate.
Qed.
Lemma stays_take n : stays (take_slice n).
Proof. intros d x d' H. unfold take_slice in H. destruct (remains n d); [|injection H as _ <-; lia]. destruct (slice _ _ _); discriminate. Qed.
Lemma stays_string : stays dString.
Proof.
  intros d x d' H. unfold dString, bind in H. destruct (dInt16 d) as [n d1|y d1|] eqn:E; try discriminate.
  - apply eats_fixed in E. destruct (n =? -1); [discriminate|]. apply stays_take in H. lia.
  - injection H as _ <-. exact (stays_fixed _ _ _ _ _ E).
Qed.
Lemma stays_bytes : stays dBytes.
Proof.
  intros d x d' H. unfold dBytes, bind in H. destruct (dInt32 d) as [n d1|y d1|] eqn:E; try discriminate.
  - apply eats_fixed in E. destruct (take_slice n d1) as [w d2|y d2|] eqn:E2; try discriminate. injection H as _ <-. apply stays_take in E2. lia.
  - injection H as _ <-. exact (stays_fixed _ _ _ _ _ E).
Qed.
Definition owes {A} (k : Z) (m : MDec A) : Prop := forall d log x d', m d = (log, DErr x d') -> sum log <= d_offset d' - d_offset d + k.
Lemma owes_weaken {A} j k (m : MDec A) : j <= k -> owes j m -> owes k m.
Proof. intros L H d log a d' E. specialize (H _ _ _ _ E). lia. Qed.
Lemma owes_ret {A} (a : A) : owes 0 (mret a).
Proof. intros d log x d' E. discriminate. Qed.
Lemma owes_lift {A} (m : Dec A) : stays m -> owes 0 (mlift m).
Proof. intros H d log x d' E. injection E as <- E. specialize (H _ _ _ E). cbn [sum]. lia. Qed.
Lemma owes_bind {A B} k (m : MDec A) (f : A -> MDec B) : pays 0 m -> owes k m -> (forall a, owes k (f a)) -> owes k (mbind m f).
Proof.
  intros H1 H2 H3 d log x d' E. unfold mbind in E. destruct (m d) as [l1 [a d1|y d1|]] eqn:E1; try discriminate.
  - destruct (f a d1) as [l2 r] eqn:E2. injection E as <- ->. specialize (H1 _ _ _ _ E1). specialize (H3 _ _ _ _ _ E2). rewrite sum_app. lia.
  - injection E as <- _ <-. exact (H2 _ _ _ _ E1).
Qed.
Lemma owes_repeat {A} k (f : MDec A) n : 0 <= k -> pays 0 f -> owes k f -> owes k (mrepeat n f).
Proof.
  intros Hk H1 H2. induction n as [|n IH]; [eapply owes_weaken; [exact Hk|apply owes_ret]|]. cbn [mrepeat].
  apply owes_bind; [exact H1|exact H2|]. intros x. apply owes_bind; [|exact IH|].
  - clear IH. induction n as [|n IH]; [apply pays_ret|]. change 0 with (0 + (0 + 0)). cbn [mrepeat]. apply pays_bind; [exact H1|]. intros y.
    apply pays_bind; [exact IH|]. intros. apply pays_ret.
  - intros xs. eapply owes_weaken; [exact Hk|apply owes_ret].
Qed.
Lemma owes_made {A} k n (f : MDec A) : 0 <= k -> n < 2 ^ 31 -> pays 1 f -> owes k f ->
  owes (2 ^ 31 - 1 + k) (mbind (mmake n) (fun _ => mbind (mrepeat (Z.to_nat n) f) (fun xs => mret (Some xs)))).
Proof.
  intros Hk Hn H1 H2. assert (G : owes k (mbind (mrepeat (Z.to_nat n) f) (fun xs => mret (Some xs)))).
  { apply owes_bind.
    - eapply pays_weaken; [|apply pays_repeat, H1]. lia.
    - apply owes_repeat; [exact Hk| |exact H2]. eapply pays_weaken; [|exact H1]. lia.
    - intros xs. eapply owes_weaken; [exact Hk|apply owes_ret]. }
  intros d log x d' E. unfold mbind at 1, mmake in E. destruct (n <? 0); [discriminate|].
  destruct (mbind (mrepeat (Z.to_nat n) f) (fun xs => mret (Some xs)) d) as [l2 r] eqn:E2. injection E as <- ->. specialize (G _ _ _ _ E2). cbn [app sum]. lia.
Qed.
Lemma length_range d n d' : dArrayLength d = DOk n d' -> n < 2 ^ 31.
Proof.
  intros E. unfold dArrayLength, dInt32, fixed in E. destruct (remains 4 d); [|discriminate]. destruct (slice_from _ _) as [b|]; [|discriminate].
  destruct (Binary.get_uint32 b) as [w|]; [|discriminate]. cbn [option_map] in E. injection E as <- _. pose proof (wrap_range 32 w ltac:(lia)). unfold int32. lia.
Qed.
Lemma owes_length {A} k (f : Z -> MDec A) : 0 <= k -> (forall n, n < 2 ^ 31 -> owes k (f n)) -> owes k (mbind (mlift dArrayLength) f).
Proof.
  intros Hk H d log x d' E. unfold mbind, mlift in E. destruct (dArrayLength d) as [n d1|y d1|] eqn:E1; try discriminate.
  - destruct (f n d1) as [l2 r] eqn:E2. injection E as <- ->. specialize (H n (length_range _ _ _ E1) _ _ _ _ E2). apply eats_fixed in E1. cbn [app]. lia.
  - injection E as <- _ <-. apply stays_fixed in E1. cbn [sum]. lia.
Qed.
Lemma owes_prim {A} (f : Dec A) j : 1 <= j -> eats j f -> stays f -> owes (2 ^ 31 - 1) (mprim_array f).
Proof.
  intros Hj He Hs. apply owes_length; [lia|]. intros n Hn. destruct (n =? -1); [eapply owes_weaken; [|apply owes_ret]; lia|].
  replace (2 ^ 31 - 1) with (2 ^ 31 - 1 + 0) by lia. apply owes_made; [lia|exact Hn| |apply owes_lift, Hs]. eapply pays_weaken; [exact Hj|]. apply pays_lift, He.
Qed.
Lemma nest_nonneg : (forall t, 0 <= nest t) /\ (forall fs, 0 <= nests fs).
Proof. apply schema_mind; cbn [nest nests]; intros; lia. Qed.
Lemma decode_owes : (forall t r v old, solid t r = true -> active r v = true -> owes (nest t * (2 ^ 31 - 1)) (mdecode t v old)) /\
  (forall fs v old, solids fs = true -> owes (nests fs * (2 ^ 31 - 1)) (mdecodes fs v old)).
Proof.
  apply schema_mind; cbn [mdecode mdecodes gdecode solid solids nest nests]; rewrite ?Z.mul_0_l, ?Z.mul_1_l.
  1-5: intros; apply owes_lift, stays_fixed.
  - intros. apply owes_lift, stays_string.
  - intros. apply owes_lift, stays_bytes.
  - intros. apply (owes_prim _ 4); [lia|apply eats_fixed|apply stays_fixed].
  - intros. apply (owes_prim _ 8); [lia|apply eats_fixed|apply stays_fixed].
  - intros. apply (owes_prim _ 2); [lia|apply eats_string|apply stays_string].
  - intros fs IH r v old H Ha. apply andb_true_iff in H. destruct H as [H1 H2]. pose proof (proj2 nest_nonneg fs). apply owes_length; [lia|]. intros n Hn.
    destruct (0 <=? n) eqn:E; [|eapply owes_weaken; [|apply owes_ret]; lia].
    replace ((1 + nests fs) * (2 ^ 31 - 1)) with (2 ^ 31 - 1 + nests fs * (2 ^ 31 - 1)) by lia. apply owes_made; [lia|exact Hn| |apply IH, H2].
    eapply pays_weaken; [|apply (proj2 decode_pays), H2]. eapply filled_carried; eassumption.
  - intros. apply owes_ret.
  - intros name r t IHt rest IHr v old H. apply andb_true_iff in H. destruct H as [H1 H2]. pose proof (proj1 nest_nonneg t). pose proof (proj2 nest_nonneg rest).
    apply owes_bind.
    + destruct (active r v) eqn:E; [|apply pays_ret]. eapply pays_weaken; [|eapply (proj1 decode_pays); eassumption]. lia.
    + destruct (active r v) eqn:E; [|eapply owes_weaken; [|apply owes_ret]; lia]. eapply owes_weaken; [|eapply IHt; eassumption]. nia.
    + intros x. apply owes_bind; [eapply pays_weaken; [|apply (proj2 decode_pays), H2]; apply carried_nonneg| |].
      * eapply owes_weaken; [|apply IHr, H2]. nia.
      * intros xs. eapply owes_weaken; [|apply owes_ret]. nia.
Qed.
Lemma all_nest : forallb (fun nc => nests (c_schema (snd nc)) <=? 3) all_codecs = true.
Proof. vm_compute. reflexivity. Qed.
Lemma memory_owed name c : In (name, c) all_codecs -> forall v old d x d', dec_ok d -> c_decode c v old d = DErr x d' ->
  sum (c_makes c v old d) <= zlen (frame d) + 3 * (2 ^ 31 - 1).
Proof.
  intros H v old d x d' Hd E. pose proof all_solid as S. rewrite forallb_forall in S. specialize (S _ H). cbn [snd] in S.
  pose proof all_nest as N. rewrite forallb_forall in N. specialize (N _ H). cbn [snd] in N.
  pose proof (linked_bounded c (codec_linked _ _ H) v old d Hd) as B. rewrite E in B. destruct B as (_ & n & Hn & ->).
  rewrite (log_erased _ _ H) in E. unfold dmap in E. unfold c_makes. destruct (mdecodes (c_schema c) v (c_to c old) d) as [log r] eqn:Er. cbn [fst snd] in *.
  destruct r as [y dx|y dx|]; try discriminate. injection E as _ ->. pose proof (proj2 decode_owes _ _ _ S _ _ _ _ Er) as P.
  cbn [advance d_offset] in P. apply Z.leb_le in N. pose proof (proj2 nest_nonneg (c_schema c)). nia.
Qed.
