(** * Proofs about decoding on different platforms *)
From Verif Require Import GoBase Binary Utf8 Decoder Spec SchemaSpec GoLemmas DecProofs VarProofs PrimProofs Schema Link AllMessages MsgProofs MsgProps CodecProps Memory MemorySpec MemoryProofs Platform PlatformSpec.
Local Open Scope Z_scope.
Local Open Scope list_scope.
Ltac Zify.zify_post_hook ::= idtac.

Lemma half_pos P : go_platform P -> 2 ^ 31 <= 2 ^ (p_int P - 1) /\ 0 < p_int P.
Proof. intros [->| ->]; cbn; lia. Qed.
Lemma pint_id P z : go_platform P -> - 2 ^ (p_int P - 1) <= z < 2 ^ (p_int P - 1) -> pint P z = z.
Proof. intros HP Hz. apply wrap_id; [apply half_pos, HP|exact Hz]. Qed.
Lemma pint_int32 P z : go_platform P -> is_int32 z -> pint P z = z.
Proof. intros HP Hz. apply pint_id; [exact HP|]. destruct (half_pos P HP). unfold is_int32 in Hz. lia. Qed.

Section One.
Context (P : platform) (HP : go_platform P).
Let half : 2 ^ 31 <= 2 ^ (p_int P - 1) := proj1 (half_pos P HP).

Lemma exists_advance n d : exists_on P d -> 0 <= n <= zlen (frame d) -> exists_on P (advance n d).
Proof. intros [H1 H2] Hn. split; [apply dec_ok_advance; assumption|exact H2]. Qed.
Lemma remains_same n d : exists_on P d -> p_remains P n d = remains n d.
Proof.
  intros [[H1 H2] H3]. unfold p_remains, remains. rewrite pint_id by (try exact HP; lia). reflexivity.
Qed.
Lemma advance_same n d : exists_on P d -> - 2 ^ (p_int P - 1) <= n -> n <= zlen (d_raw d) - d_offset d -> p_advance P n d = advance n d.
Proof.
  intros [[H1 H2] H3] Hn1 Hn2. unfold p_advance, advance. rewrite pint_id by (try exact HP; lia). reflexivity.
Qed.
Lemma fixed_same {A} n (get : list Z -> option A) d : 0 <= n -> exists_on P d -> p_fixed P n get d = fixed n get d.
Proof.
  intros Hn Hd. unfold p_fixed, fixed. rewrite remains_same by exact Hd. destruct (remains n d) eqn:E; [|reflexivity].
  destruct (slice_from _ _) as [b|]; [|reflexivity]. destruct (get b); [|reflexivity]. f_equal. unfold remains in E.
  destruct Hd as [[H1 H2] H3]. apply advance_same; [split; [split|]; assumption|lia|]. destruct (Z.ltb_spec (d_length d - d_offset d) n); [discriminate|lia].
Qed.
Lemma take_same n d : - 2 ^ (p_int P - 1) <= n < 2 ^ (p_int P - 1) -> exists_on P d -> p_take P n d = take_slice n d.
Proof.
  intros Hn Hd. unfold p_take, take_slice. rewrite remains_same by exact Hd. destruct (remains n d) eqn:E; [|reflexivity].
  unfold remains in E. pose proof Hd as [[H1 H2] H3]. destruct (Z.ltb_spec (d_length d - d_offset d) n); [discriminate|].
  rewrite pint_id by (try exact HP; lia). destruct (slice _ _ _); [|reflexivity]. f_equal. apply advance_same; [exact Hd|lia|lia].
Qed.

(** The two sides of a Decode: the same, or a make that failed.  [log] are the lengths
    given to make. *)
Definition agree {A} (m : Dec A) (w : MDec A) : Prop := forall d, exists_on P d ->
  (m d = snd (w d) \/ m d = DPanic) /\ ((forall t n, In n (fst (w d)) -> 0 <= n -> p_make P t n = true) -> m d = snd (w d)).
Definition bounded {A} (w : MDec A) : Prop := Bounded (fun d => snd (w d)).
Lemma bounded_lift {A} (m : Dec A) : Bounded m -> bounded (mlift m).
Proof. intros H. exact H. Qed.
Lemma agree_lift {A} (m m' : Dec A) : (forall d, exists_on P d -> m d = m' d) -> agree m (mlift m').
Proof. intros H d Hd. cbn [mlift fst snd]. rewrite (H d Hd). auto. Qed.
Lemma agree_bind {A B} (m : Dec A) w (f : A -> Dec B) g : agree m w -> bounded w -> (forall a, agree (f a) (g a)) -> agree (bind m f) (mbind w g).
Proof.
  intros H1 H2 H3 d Hd. destruct (H1 d Hd) as [K1 K2]. pose proof (H2 d (proj1 Hd)) as B0. clear H2. cbn beta in B0. unfold bind, mbind.
  destruct (w d) as [log r]. cbn [fst snd] in *. destruct r as [a d'|x d'|].
  - destruct B0 as (n & Hn & ->). destruct (H3 a (advance n d) (exists_advance n d Hd Hn)) as [L1 L2].
    destruct (g a (advance n d)) as [log' r'] eqn:Eg. cbn [fst snd] in *. split.
    + destruct K1 as [->| ->]; auto.
    + intros HL. rewrite K2 by (intros t k I; apply HL, in_or_app; auto). apply L2. intros t k I. apply HL, in_or_app; auto.
  - cbn [fst snd]. split; [destruct K1 as [->| ->]; auto|]. intros HL. rewrite (K2 HL). reflexivity.
  - cbn [fst snd]. split; [destruct K1 as [->| ->]; auto|]. intros HL. rewrite (K2 HL). reflexivity.
Qed.
Lemma bounded_bind {A B} (w : MDec A) (g : A -> MDec B) : bounded w -> (forall a, bounded (g a)) -> bounded (mbind w g).
Proof.
  intros H1 H2. unfold bounded. intros d Hd. pose proof (Bounded_bind (fun d => snd (w d)) (fun a d => snd (g a d)) H1 H2 d Hd) as B0.
  rewrite (mbind_snd w (fun d => snd (w d)) g (fun a d => snd (g a d)) ltac:(reflexivity) ltac:(reflexivity) d). exact B0.
Qed.
Lemma agree_ret {A} (a : A) : agree (ret a) (mret a).
Proof. intros d Hd. cbn. auto. Qed.
Lemma bounded_ret {A} (a : A) : bounded (mret a).
Proof. exact (Bounded_ret a). Qed.
Lemma agree_repeat {A} (m : Dec A) w n : agree m w -> bounded w -> agree (repeat_dec n m) (mrepeat n w) /\ bounded (mrepeat n w).
Proof.
  intros H1 H2. induction n as [|n [IH1 IH2]]; [split; [apply agree_ret|apply bounded_ret]|]. cbn [repeat_dec mrepeat]. split.
  - apply agree_bind; [exact H1|exact H2|]. intros x. apply agree_bind; [exact IH1|exact IH2|]. intros xs. apply agree_ret.
  - apply bounded_bind; [exact H2|]. intros x. apply bounded_bind; [exact IH2|]. intros xs. apply bounded_ret.
Qed.
Lemma agree_new t n : agree (p_new P t n) (mmake n).
Proof.
  intros d Hd. unfold p_new, mmake. cbn [fst snd]. destruct (Z.ltb_spec n 0) as [L|L]; cbn [orb]; [auto|].
  destruct (p_make P t n) eqn:E; cbn [negb]; split; auto. intros HL. specialize (HL t n (or_introl eq_refl) L). congruence.
Qed.
Lemma bounded_make n : bounded (mmake n).
Proof.
  intros d Hd. unfold mmake. cbn [snd]. destruct (n <? 0); [exact I|]. exists 0. pose proof (zlen_nonneg (frame d)). split; [lia|]. rewrite advance_0. reflexivity.
Qed.
Lemma int32_same d : exists_on P d -> pInt32 P d = dInt32 d.
Proof. apply fixed_same. lia. Qed.
Lemma length_same d : exists_on P d -> pArrayLength P d = dArrayLength d.
Proof.
  intros Hd. unfold pArrayLength, bind. rewrite int32_same by exact Hd. unfold dArrayLength. destruct (dInt32 d) as [n d'|x d'|] eqn:E; try reflexivity.
  rewrite pint_int32; [reflexivity|exact HP|apply (dInt32_range _ _ _ E)].
Qed.
Lemma string_same d : exists_on P d -> pString P d = dString d.
Proof.
  intros Hd. unfold pString, dString, bind, pInt16. rewrite fixed_same by (try exact Hd; lia). fold dInt16.
  pose proof (Bounded_int16 d (proj1 Hd)) as B. destruct (dInt16 d) as [n d'|x d'|] eqn:E; try reflexivity.
  destruct B as (k & Hk & ->). destruct (n =? -1); [reflexivity|]. pose proof (dInt16_range _ _ _ E) as R. unfold is_int16 in R.
  rewrite pint_int32 by (try exact HP; unfold is_int32; lia). apply take_same; [lia|]. apply exists_advance; assumption.
Qed.
Lemma bytes_same d : exists_on P d -> pBytes P d = dBytes d.
Proof.
  intros Hd. unfold pBytes, dBytes, bind. rewrite int32_same by exact Hd. pose proof (Bounded_int32 d (proj1 Hd)) as B.
  destruct (dInt32 d) as [n d'|x d'|] eqn:E; try reflexivity. destruct B as (k & Hk & ->). pose proof (dInt32_range _ _ _ E) as R.
  rewrite pint_int32 by assumption. unfold is_int32 in R. rewrite take_same; [reflexivity|lia|]. apply exists_advance; assumption.
Qed.
Lemma agree_prim {A} t (m m' : Dec A) : (forall d, exists_on P d -> m d = m' d) -> Bounded m' -> agree (p_prim P t m) (mprim_array m').
Proof.
  intros H1 H2. unfold p_prim, mprim_array. apply agree_bind; [apply agree_lift, length_same|apply bounded_lift, Bounded_int32|]. intros n.
  destruct (n =? -1); [apply agree_ret|]. apply agree_bind; [apply agree_new|apply bounded_make|]. intros _.
  destruct (agree_repeat m (mlift m') (Z.to_nat n) (agree_lift _ _ H1) (bounded_lift _ H2)) as [R1 R2].
  apply agree_bind; [exact R1|exact R2|]. intros xs. apply agree_ret.
Qed.
Lemma bounded_decode : (forall t v old, bounded (mdecode t v old)) /\ (forall fs v old, bounded (mdecodes fs v old)).
Proof.
  split; intros x v old d Hd; [rewrite (proj1 mdecode_snd); apply (proj1 gdecode_bounded)|rewrite (proj2 mdecode_snd); apply (proj2 gdecode_bounded)]; exact Hd.
Qed.
Lemma agree_decode : (forall t v old, agree (pdecode P t v old) (mdecode t v old)) /\ (forall fs v old, agree (pdecodes P fs v old) (mdecodes fs v old)).
Proof.
  apply schema_mind; cbn [pdecode pdecodes mdecode mdecodes gdecode].
  1-5: intros; apply agree_lift; intros d Hd; apply fixed_same; [lia|exact Hd].
  - intros. apply agree_lift, string_same.
  - intros. apply agree_lift, bytes_same.
  - intros. apply agree_prim; [exact int32_same|exact Bounded_int32].
  - intros. apply agree_prim; [intros d Hd; apply fixed_same; [lia|exact Hd]|exact Bounded_int64].
  - intros. apply agree_prim; [exact string_same|exact Bounded_string].
  - intros fs IH v old. unfold p_array, mdec_array. apply agree_bind; [apply agree_lift, length_same|apply bounded_lift, Bounded_int32|]. intros n.
    destruct (0 <=? n); [|apply agree_ret]. apply agree_bind; [apply agree_new|apply bounded_make|]. intros _.
    destruct (agree_repeat _ _ (Z.to_nat n) (IH v (zeros fs)) (proj2 bounded_decode fs v (zeros fs))) as [R1 R2].
    apply agree_bind; [exact R1|exact R2|]. intros xs. apply agree_ret.
  - intros. apply agree_ret.
  - intros name r t IHt rest IHr v old. apply agree_bind.
    + unfold dec_if. destruct (active r v); [apply IHt|apply agree_ret].
    + destruct (active r v); [apply (proj1 bounded_decode)|apply bounded_ret].
    + intros x. apply agree_bind; [apply IHr|apply (proj2 bounded_decode)|]. intros xs. apply agree_ret.
Qed.
End One.

(** ** Messages *)
Definition logs {A} (Q : Z -> Prop) (w : MDec A) : Prop := forall d, Forall Q (fst (w d)).
Lemma logs_bind {A B} Q (w : MDec A) (g : A -> MDec B) : logs Q w -> (forall a, logs Q (g a)) -> logs Q (mbind w g).
Proof.
  intros H1 H2 d. specialize (H1 d). unfold mbind. destruct (w d) as [log [a d'|x d'|]]; try exact H1.
  specialize (H2 a d'). destruct (g a d') as [log' r]. cbn [fst] in *. apply Forall_app. auto.
Qed.
Lemma logs_ret {A} Q (a : A) : logs Q (mret a).
Proof. intros d. constructor. Qed.
Lemma logs_lift {A} Q (m : Dec A) : logs Q (mlift m).
Proof. intros d. constructor. Qed.
Lemma logs_repeat {A} Q (w : MDec A) n : logs Q w -> logs Q (mrepeat n w).
Proof.
  intros H. induction n as [|n IH]; [apply logs_ret|]. cbn [mrepeat]. apply logs_bind; [exact H|]. intros x. apply logs_bind; [exact IH|]. intros xs. apply logs_ret.
Qed.
Lemma logs_length {A} (f : Z -> MDec A) : (forall n, n < 2 ^ 31 -> logs (fun n => n < 2 ^ 31) (f n)) -> logs (fun n => n < 2 ^ 31) (mbind (mlift dArrayLength) f).
Proof.
  intros H d. unfold mbind, mlift. destruct (dArrayLength d) as [n d'|x d'|] eqn:E; try constructor.
  specialize (H n (length_range _ _ _ E) d'). destruct (f n d') as [log r]. exact H.
Qed.
Lemma logs_made {A} n (f : MDec A) : n < 2 ^ 31 -> logs (fun n => n < 2 ^ 31) f ->
  logs (fun n => n < 2 ^ 31) (mbind (mmake n) (fun _ => mbind (mrepeat (Z.to_nat n) f) (fun xs => mret (Some xs)))).
Proof.
  intros Hn H. apply logs_bind; [intros d; constructor; [exact Hn|constructor]|]. intros _. apply logs_bind; [apply logs_repeat, H|]. intros xs. apply logs_ret.
Qed.
Lemma log_small : (forall t v old, logs (fun n => n < 2 ^ 31) (mdecode t v old)) /\ (forall fs v old, logs (fun n => n < 2 ^ 31) (mdecodes fs v old)).
Proof.
  apply schema_mind; cbn [mdecode mdecodes gdecode]; try (intros ? ?; apply logs_lift).
  1-3: intros; apply logs_length; intros n Hn; destruct (n =? -1); [apply logs_ret|apply logs_made; [exact Hn|apply logs_lift]].
  - intros fs IH v old. apply logs_length. intros n Hn. destruct (0 <=? n); [apply logs_made; [exact Hn|apply IH]|apply logs_ret].
  - intros name r t IHt rest IHr v old. apply logs_bind; [destruct (active r v); [apply IHt|apply logs_ret]|]. intros x.
    apply logs_bind; [apply IHr|]. intros xs. apply logs_ret.
Qed.
(** A decoding that succeeds was given all it asked for. *)
Definition given {A} (w : MDec A) : Prop := forall d log a d', w d = (log, DOk a d') -> Forall (fun n => 0 <= n) log.
Lemma given_bind {A B} (w : MDec A) (g : A -> MDec B) : given w -> (forall a, given (g a)) -> given (mbind w g).
Proof.
  intros H1 H2 d log b d' E. unfold mbind in E. destruct (w d) as [l1 [a d1|x d1|]] eqn:E1; try discriminate.
  destruct (g a d1) as [l2 r] eqn:E2. injection E as <- ->. apply Forall_app. split; [apply (H1 _ _ _ _ E1)|apply (H2 _ _ _ _ _ E2)].
Qed.
Lemma given_ret {A} (a : A) : given (mret a).
Proof. intros d log b d' E. injection E as <- _ _. constructor. Qed.
Lemma given_lift {A} (m : Dec A) : given (mlift m).
Proof. intros d log b d' E. injection E as <- _. constructor. Qed.
Lemma given_make n : given (mmake n).
Proof. intros d log b d' E. unfold mmake in E. injection E as <- E. destruct (Z.ltb_spec n 0); [discriminate|]. constructor; [assumption|constructor]. Qed.
Lemma given_repeat {A} (w : MDec A) n : given w -> given (mrepeat n w).
Proof.
  intros H. induction n as [|n IH]; [apply given_ret|]. cbn [mrepeat]. apply given_bind; [exact H|]. intros x. apply given_bind; [exact IH|]. intros xs. apply given_ret.
Qed.
Lemma given_decode : (forall t v old, given (mdecode t v old)) /\ (forall fs v old, given (mdecodes fs v old)).
Proof.
  apply schema_mind; cbn [mdecode mdecodes gdecode]; try (intros ? ?; apply given_lift).
  1-3: intros; apply given_bind; [apply given_lift|]; intros n; destruct (n =? -1); [apply given_ret|];
    apply given_bind; [apply given_make|]; intros _; apply given_bind; [apply given_repeat, given_lift|]; intros xs; apply given_ret.
  - intros fs IH v old. apply given_bind; [apply given_lift|]. intros n. destruct (0 <=? n); [|apply given_ret].
    apply given_bind; [apply given_make|]; intros _; apply given_bind; [apply given_repeat, IH|]; intros xs; apply given_ret.
  - intros name r t IHt rest IHr v old. apply given_bind; [destruct (active r v); [apply IHt|apply given_ret]|]. intros x.
    apply given_bind; [apply IHr|]. intros xs. apply given_ret.
Qed.
Lemma sum_bounds l : Forall (fun n => 0 <= n) l -> forall n, In n l -> n <= sum l.
Proof.
  intros H. induction H as [|x l Hx Hl IH]; intros n Hn; [contradiction|]. cbn [sum].
  assert (0 <= sum l). { clear - Hl. induction Hl; cbn [sum]; lia. }
  destruct Hn as [->|Hn]; [lia|]. specialize (IH _ Hn). lia.
Qed.

Lemma decode_agrees P name c : go_platform P -> In (name, c) all_codecs -> forall v old d, exists_on P d ->
  (p_decode P c v old d = c_decode c v old d \/ p_decode P c v old d = DPanic) /\
  ((forall t n, In n (c_makes c v old d) -> 0 <= n -> p_make P t n = true) -> p_decode P c v old d = c_decode c v old d).
Proof.
  intros HP H v old d Hd. rewrite (log_erased _ _ H). unfold p_decode, c_makes, dmap.
  destruct (proj2 (agree_decode P HP) (c_schema c) v (c_to c old) d Hd) as [K1 K2]. split.
  - destruct K1 as [->| ->]; auto.
  - intros HL. rewrite (K2 HL). reflexivity.
Qed.
Theorem platform_same : forall P, go_platform P -> makes_all P -> forall name c, In (name, c) all_codecs ->
  forall v old d, exists_on P d -> p_decode P c v old d = c_decode c v old d.
Proof.
  intros P HP HM name c H v old d Hd. apply (decode_agrees P name c HP H v old d Hd). intros t n Hn H0. apply HM.
  pose proof (proj2 log_small (c_schema c) v (c_to c old) d) as F. rewrite Forall_forall in F. specialize (F _ Hn). cbn beta in F. lia.
Qed.
Theorem platform_success : forall P, go_platform P -> forall name c, In (name, c) all_codecs ->
  forall v old d m d', exists_on P d -> makes_up_to (zlen (frame d)) P -> c_decode c v old d = DOk m d' -> p_decode P c v old d = DOk m d'.
Proof.
  intros P HP name c H v old d m d' Hd HM E. rewrite <- E. apply (decode_agrees P name c HP H v old d Hd). intros t n Hn H0. apply HM. split; [exact H0|].
  pose proof (memory_paid _ _ H v old d m d' (proj1 Hd) E) as S. transitivity (sum (c_makes c v old d)); [|exact S].
  apply sum_bounds; [|exact Hn]. rewrite (log_erased _ _ H) in E. unfold dmap, c_makes in *.
  destruct (mdecodes (c_schema c) v (c_to c old) d) as [log r] eqn:Er. cbn [fst snd] in *. destruct r as [a d1|x d1|]; try discriminate.
  exact (proj2 given_decode _ _ _ _ _ _ _ Er).
Qed.
Theorem platform_otherwise : forall P, go_platform P -> forall name c, In (name, c) all_codecs ->
  forall v old d, exists_on P d -> p_decode P c v old d = c_decode c v old d \/ p_decode P c v old d = DPanic.
Proof. intros P HP name c H v old d Hd. apply (decode_agrees P name c HP H v old d Hd). Qed.

(** ** The methods of the decoder *)
Lemma prim_same P t {A} (m m' : Dec A) : go_platform P -> makes_all P -> (forall d, exists_on P d -> m d = m' d) -> Bounded m' ->
  forall d, exists_on P d -> p_prim P t m d = prim_array m' d.
Proof.
  intros HP HM H1 H2 d Hd. destruct (agree_prim P HP t m m' H1 H2 d Hd) as [_ K]. rewrite K; [apply mprim_snd|].
  intros t' n Hn H0. apply HM. split; [exact H0|].
  assert (L : logs (fun n => n < 2 ^ 31) (mprim_array m')).
  { apply logs_length; intros k Hk; destruct (k =? -1); [apply logs_ret|apply logs_made; [exact Hk|apply logs_lift]]. }
  specialize (L d). rewrite Forall_forall in L. exact (L _ Hn).
Qed.
Theorem primitives_same : forall P, go_platform P -> makes_all P -> forall d, exists_on P d ->
  pBool P d = dBool d /\ pInt8 P d = dInt8 d /\ pInt16 P d = dInt16 d /\ pInt32 P d = dInt32 d /\ pInt64 P d = dInt64 d /\
  pArrayLength P d = dArrayLength d /\ pBytes P d = dBytes d /\ pString P d = dString d /\ pNullableString P d = dNullableString d /\
  pInt32Array P d = dInt32Array d /\ pInt64Array P d = dInt64Array d /\ pStringArray P d = dStringArray d /\
  (forall n, - 2 ^ (p_int P - 1) <= n < 2 ^ (p_int P - 1) -> pDiscard P n d = dDiscard n d).
Proof.
  intros P HP HM d Hd. do 5 (split; [apply fixed_same; [exact HP|lia|exact Hd]|]). split; [apply length_same; assumption|].
  split; [apply bytes_same; assumption|]. split; [apply string_same; assumption|].
  split. { unfold pNullableString, dNullableString, bind. rewrite string_same by assumption. reflexivity. }
  split; [apply prim_same; try assumption; [intros; apply int32_same; assumption|exact Bounded_int32]|].
  split; [apply prim_same; try assumption; [intros; apply fixed_same; [exact HP|lia|assumption]|exact Bounded_int64]|].
  split; [apply prim_same; try assumption; [intros; apply string_same; assumption|exact Bounded_string]|].
  intros n Hn. unfold pDiscard, dDiscard. rewrite remains_same by assumption. destruct (remains n d) eqn:E; [|reflexivity].
  f_equal. unfold remains in E. destruct (Z.ltb_spec (d_length d - d_offset d) n); [discriminate|]. apply advance_same; try assumption; [lia|].
  destruct Hd as [[H1 H2] H3]. lia.
Qed.

(** ** Numbers of variable length *)
Lemma late_same a : Forall continues a -> forall b rest i x s, 0 <= i -> b < 128 -> ~ (9 < i + zlen a \/ (i + zlen a = 9 /\ 1 < b)) ->
  late_loop (a ++ b :: rest) i x s = uvarint_loop (a ++ b :: rest) i x s.
Proof.
  intros H. induction H as [|c a Hc Hf IH]; intros b rest i x s Hi Hb Ho; cbn [app late_loop uvarint_loop].
  - change (zlen (@nil Z)) with 0 in Ho. replace (b <? 128) with true by lia. replace (i =? 10) with false by lia.
    replace (9 <? i) with false by lia. reflexivity.
  - unfold continues in Hc. replace (c <? 128) with false by lia. rewrite zlen_cons in Ho. pose proof (zlen_nonneg a).
    replace (i =? 10) with false by lia. apply IH; lia.
Qed.
Lemma late_unterminated a : Forall continues a -> forall i x s, 0 <= i <= 10 -> 10 < i + zlen a -> late_loop a i x s = (0, -11).
Proof.
  intros H. induction H as [|c a Hc Hf IH]; intros i x s Hi Hl; cbn [late_loop]; [change (zlen (@nil Z)) with 0 in Hl; lia|].
  unfold continues in Hc. destruct (Z.eqb_spec i 10) as [->|E]; [reflexivity|]. replace (c <? 128) with false by lia. rewrite zlen_cons in Hl. apply IH; lia.
Qed.
Lemma slice_raw d a : dec_ok d -> forall tl, frame d = a -> slice_from (d_raw d) (d_offset d) = Some (frame d ++ tl) -> zlen (d_raw d) - d_offset d = zlen a + zlen tl.
Proof.
  intros [H1 H2] tl Hf E. unfold slice_from, slice in E. destruct (_ && _); [|discriminate].
  assert (L : zlen (firstn (Z.to_nat (zlen (d_raw d) - d_offset d)) (skipn (Z.to_nat (d_offset d)) (d_raw d))) = zlen (frame d ++ tl)).
  { f_equal. injection E as E. exact E. }
  rewrite zlen_app, Hf in L. rewrite <- L. unfold zlen. rewrite firstn_length, skipn_length. unfold zlen in H2. lia.
Qed.
(** A number, complete in the frame, that fits 64 bits. *)
Lemma varint_same P : go_platform P -> forall d a b rest, exists_on P d -> frame d = a ++ b :: rest -> Forall continues a -> b < 128 -> ~ overlong a b ->
  pVarInt P d = dVarInt d.
Proof.
  intros HP d a b rest Hd Hf Ha Hb Ho. rewrite (dVarInt_terminated d a b rest (proj1 Hd) Hf Ha Hb Ho). pose proof (dVarInt_terminated d a b rest (proj1 Hd) Hf Ha Hb Ho) as E.
  unfold dVarInt in E. unfold pVarInt. destruct (slice_from_ok d (proj1 Hd)) as [tl Ht]. rewrite Ht in *.
  assert (S : (if p_late P then late_varint (frame d ++ tl) else varint (frame d ++ tl)) = varint (frame d ++ tl)).
  { destruct (p_late P); [|reflexivity]. unfold late_varint, varint, uvarint. rewrite Hf, <- app_assoc. cbn [app].
    rewrite (late_same a Ha b (rest ++ tl) 0 0 0); [reflexivity|lia|exact Hb|]. unfold overlong in Ho. lia. }
  rewrite S. destruct (varint (frame d ++ tl)) as [tmp n] eqn:Ev. destruct (n =? 0); [discriminate|]. destruct (n =? -1); [discriminate|].
  injection E as -> E. f_equal. assert (n = zlen a + 1) by lia. subst n. apply advance_same; [exact HP|exact Hd| |].
  - destruct (half_pos P HP). pose proof (zlen_nonneg a). lia.
  - destruct Hd as [[H1 H2] H3]. pose proof (frame_length d (conj H1 H2)) as FL. rewrite Hf, zlen_app, zlen_cons in FL. pose proof (zlen_nonneg rest). lia.
Qed.
Lemma var_bytes_at P n k : go_platform P -> pint P n = k -> forall d d1, pVarInt P d = DOk n d1 -> exists_on P d1 ->
  pVarBytes P d = bind (take_slice k) (fun v => ret (Some v)) d1 /\
  pVarString P d = (if remains k d1 then if k <=? 0 then DOk [] (advance k d1) else
      match slice (d_raw d1) (d_offset d1) (d_offset d1 + k) with Some p => DOk (string_of_runes (runes p)) (advance k d1) | None => DPanic end
    else DErr ErrShortBuffer d1).
Proof.
  intros HP Hk d d1 E Hd. destruct (half_pos P HP) as [Hh Hp]. assert (R : - 2 ^ (p_int P - 1) <= k < 2 ^ (p_int P - 1)) by (subst k; apply wrap_range, Hp). split.
  - unfold pVarBytes, bind. rewrite E, Hk, take_same by assumption. reflexivity.
  - unfold pVarString, bind. rewrite E. cbv zeta. rewrite Hk, remains_same by assumption. destruct (remains k d1) eqn:Er; [|reflexivity].
    unfold remains in Er. destruct (Z.ltb_spec (d_length d1 - d_offset d1) k); [discriminate|]. pose proof Hd as [[H1 H2] H3].
    rewrite pint_id by (try exact HP; lia). replace (d_offset d1 + k <=? d_offset d1) with (k <=? 0) by lia.
    rewrite advance_same by (try assumption; lia). reflexivity.
Qed.
Theorem var_same : forall P, go_platform P -> forall d a b rest, exists_on P d -> frame d = a ++ b :: rest -> Forall is_byte a -> Forall continues a -> 0 <= b < 128 ->
  ~ overlong a b ->
  pVarInt P d = dVarInt d /\
  (p_int P = 64 \/ is_int32 (unzz (value128 (a ++ [b]))) -> pVarBytes P d = dVarBytes d /\ pVarString P d = dVarString d).
Proof.
  intros P HP d a b rest Hd Hf Hby Ha Hb Ho. pose proof (varint_same P HP d a b rest Hd Hf Ha (proj2 Hb) Ho) as V. split; [exact V|]. intros HW.
  destruct (CodecProps.varint_denotes d a b rest (proj1 Hd) Hf Hby Ha Hb Ho) as [E R]. set (n := unzz (value128 (a ++ [b]))) in *.
  assert (Hd1 : exists_on P (advance (zlen a + 1) d)).
  { apply exists_advance; [exact Hd|]. rewrite Hf, zlen_app, zlen_cons. pose proof (zlen_nonneg a). pose proof (zlen_nonneg rest). lia. }
  assert (K : pint P n = n).
  { destruct HW as [HW|HW]; [apply pint_id; [exact HP|rewrite HW; exact R]|apply pint_int32; assumption]. }
  rewrite E in V. destruct (var_bytes_at P n n HP K d _ V Hd1) as [-> ->]. split; [unfold dVarBytes, bind; rewrite E; reflexivity|].
  unfold dVarString, bind. rewrite E. reflexivity.
Qed.

(** ** 32 bits *)
Theorem narrow_var : forall P, p_int P = 32 -> forall d a b payload, exists_on P d -> frame d = a ++ b :: payload ->
  Forall is_byte a -> Forall continues a -> 0 <= b < 128 -> ~ overlong a b ->
  let n := unzz (value128 (a ++ [b])) in let k := wrap 32 n in 0 <= k <= zlen payload -> zlen payload < n ->
  (exists d', dVarBytes d = DErr ErrShortBuffer d') /\ (exists d', dVarString d = DErr ErrShortBuffer d') /\
  pVarBytes P d = DOk (Some (firstn (Z.to_nat k) payload)) (advance (zlen a + 1 + k) d) /\
  (exists s, pVarString P d = DOk s (advance (zlen a + 1 + k) d)).
Proof.
  intros P HW d a b payload Hd Hf Hby Ha Hb Ho n k Hk Hkn. assert (HP : go_platform P) by (left; exact HW).
  pose proof (varint_same P HP d a b payload Hd Hf Ha (proj2 Hb) Ho) as V.
  destruct (CodecProps.varint_denotes d a b payload (proj1 Hd) Hf Hby Ha Hb Ho) as [E R]. fold n in E, R.
  destruct (frame_advance_app d (a ++ [b]) payload (proj1 Hd) ltac:(rewrite Hf, <- app_assoc; reflexivity)) as [D1 F1].
  rewrite zlen_app in D1, F1. change (zlen [b]) with 1 in D1, F1. set (d1 := advance (zlen a + 1) d) in *.
  assert (Hd1 : exists_on P d1) by (split; [exact D1|exact (proj2 Hd)]).
  rewrite E in V. assert (K : pint P n = k) by (unfold pint; rewrite HW; reflexivity).
  destruct (var_bytes_at P n k HP K d _ V Hd1) as [-> ->].
  assert (Rem : remains n d1 = false) by (rewrite remains_spec by exact D1; rewrite F1; lia).
  assert (Rem2 : remains k d1 = true) by (rewrite remains_spec by exact D1; rewrite F1; lia).
  split; [eexists; unfold dVarBytes, bind; rewrite E; unfold take_slice; rewrite Rem; reflexivity|].
  split; [eexists; unfold dVarString, bind; rewrite E; rewrite Rem; reflexivity|].
  replace (advance (zlen a + 1 + k) d) with (advance k d1) by (unfold d1; apply advance_advance). split.
  - unfold bind, take_slice. rewrite Rem2, slice_frame by (try exact D1; rewrite F1; lia). rewrite F1. reflexivity.
  - rewrite Rem2. destruct (k <=? 0); [eexists; reflexivity|]. rewrite slice_frame by (try exact D1; rewrite F1; lia). eexists. reflexivity.
Qed.
(** ** Later releases of Go *)
Theorem late_var : forall P, go_platform P -> forall d, exists_on P d -> d_length d = zlen (d_raw d) -> 10 < zlen (frame d) -> Forall continues (frame d) ->
  (exists d', dVarInt d = DErr ErrShortBuffer d') /\ (p_late P = true -> pVarInt P d = DOk 0 (advance (-11) d)).
Proof.
  intros P HP d Hd Hl Hlen Hc. split; [apply dVarInt_unterminated; [apply Hd|exact Hl|exact Hc]|]. intros HL. unfold pVarInt. rewrite HL.
  assert (Hs : slice_from (d_raw d) (d_offset d) = Some (frame d)).
  { unfold slice_from, slice, frame. destruct Hd as [[H1 H2] _]. replace (0 <=? d_offset d) with true by lia.
    replace (d_offset d <=? zlen (d_raw d)) with true by lia. rewrite Z.leb_refl. cbn [andb]. rewrite Hl. reflexivity. }
  rewrite Hs. unfold late_varint. rewrite late_unterminated by (try assumption; lia). change (unzigzag 0) with 0. cbn -[p_advance advance]. f_equal.
  apply advance_same; [exact HP|exact Hd| |]; [destruct (half_pos P HP); lia|]. destruct Hd as [[H1 H2] _]. lia.
Qed.

(** ** VarInt on all inputs *)
Lemma slice_ahead d : dec_ok d -> slice_from (d_raw d) (d_offset d) = Some (ahead d).
Proof.
  intros [H1 H2]. unfold slice_from, slice, ahead. pose proof (zlen_nonneg (d_raw d)).
  replace ((0 <=? d_offset d) && (d_offset d <=? zlen (d_raw d)) && (zlen (d_raw d) <=? zlen (d_raw d))) with true by (symmetry; rewrite !andb_true_iff, !Z.leb_le; lia).
  f_equal. apply firstn_all2. rewrite skipn_length. unfold zlen in *. lia.
Qed.
Lemma ahead_length d : dec_ok d -> zlen (ahead d) = zlen (d_raw d) - d_offset d.
Proof. intros [H1 H2]. unfold ahead, zlen in *. rewrite skipn_length. lia. Qed.
Lemma uvarint_n buf : forall i x s, 0 <= i -> let '(ux, n) := uvarint_loop buf i x s in
  n = 0 \/ (i < n <= i + zlen buf) \/ (ux = 0 /\ - (i + zlen buf) <= n < - i).
Proof.
  induction buf as [|b buf IH]; intros i x s Hi; cbn [uvarint_loop]; [left; reflexivity|]. rewrite zlen_cons. pose proof (zlen_nonneg buf).
  destruct (b <? 128).
  - destruct (_ || _); lia.
  - specialize (IH (i + 1) (Z.lor x (uint64 (Z.shiftl (Z.land b 127) s))) (s + 7)). destruct (uvarint_loop _ _ _ _) as [ux n].
    destruct IH as [IH|[IH|IH]]; lia.
Qed.
Lemma varint_n buf : let '(v, n) := varint buf in n = 0 \/ (0 < n <= zlen buf) \/ (v = 0 /\ - zlen buf <= n < 0).
Proof.
  unfold varint, uvarint. pose proof (uvarint_n buf 0 0 0) as H. destruct (uvarint_loop buf 0 0 0) as [ux n].
  destruct H as [H|[H|[-> H]]]; [lia|auto|right; left; lia|]. right. right. split; [reflexivity|lia].
Qed.
Lemma unzigzag_range ux : - 2 ^ 63 <= unzigzag ux < 2 ^ 63.
Proof.
  unfold unzigzag. pose proof (wrap_range 64 (Z.shiftr ux 1)) as H. change (wrap 64 (Z.shiftr ux 1)) with (int64 (Z.shiftr ux 1)) in H.
  change (2 ^ (64 - 1)) with (2 ^ 63) in H. destruct (negb _); [unfold Z.lnot|]; lia.
Qed.
(** The two releases agree as long as no eleventh byte is looked at. *)
Lemma late_agrees : forall buf i x s, 0 <= i <= 10 -> (forall a b rest, buf = a ++ b :: rest -> Forall continues a -> zlen a = 10 - i -> False) ->
  late_loop buf i x s = uvarint_loop buf i x s.
Proof.
  induction buf as [|b buf IH]; intros i x s Hi H; cbn [late_loop uvarint_loop]; [reflexivity|].
  destruct (Z.eqb_spec i 10) as [->|Hn]; [exfalso; apply (H [] b buf); [reflexivity|constructor|reflexivity]|].
  destruct (Z.ltb_spec b 128).
  - destruct (Z.ltb_spec 9 i); [lia|]. reflexivity.
  - apply IH; [lia|]. intros a c rest -> Ha Hl. apply (H (b :: a) c rest); [reflexivity|constructor; assumption|]. rewrite zlen_cons. lia.
Qed.
Lemma late_agrees_ahead buf : ~ runaway buf -> late_varint buf = varint buf.
Proof.
  intros H. unfold late_varint, varint, uvarint. rewrite late_agrees; [reflexivity|lia|]. intros a b rest -> Ha Hl. apply H. exists a, b, rest. repeat split; [lia|assumption].
Qed.
Definition reads_alike (P : platform) (d : Decoder) : Prop := p_late P = false \/ ~ runaway (ahead d).
Lemma alike P d : reads_alike P d -> (if p_late P then late_varint (ahead d) else varint (ahead d)) = varint (ahead d).
Proof. intros [->|H]; [reflexivity|]. destruct (p_late P); [apply late_agrees_ahead, H|reflexivity]. Qed.
Theorem varint_all : forall P, go_platform P -> forall d, exists_on P d -> p_late P = false \/ ~ runaway (ahead d) -> pVarInt P d = dVarInt d.
Proof.
  intros P HP d Hd Hr. unfold pVarInt, dVarInt. rewrite (slice_ahead d (proj1 Hd)), (alike P d Hr). pose proof (varint_n (ahead d)) as N.
  rewrite (ahead_length d (proj1 Hd)) in N. destruct (varint (ahead d)) as [v n]. cbv zeta. destruct (n =? 0); [reflexivity|]. destruct (n =? -1); [reflexivity|].
  f_equal. destruct Hd as [[H1 H2] H3]. apply advance_same; [exact HP|split; [split|]; assumption| |]; lia.
Qed.
Lemma varint_after d v d1 : dec_ok d -> dVarInt d = DOk v d1 -> - 2 ^ 63 <= v < 2 ^ 63 /\ d_raw d1 = d_raw d /\ d_length d1 = d_length d /\
  - zlen (d_raw d) <= d_offset d1 <= zlen (d_raw d) /\ (v = 0 \/ 0 <= d_offset d1).
Proof.
  intros Hd. unfold dVarInt. rewrite (slice_ahead d Hd). pose proof (varint_n (ahead d)) as N. rewrite (ahead_length d Hd) in N.
  assert (R : - 2 ^ 63 <= fst (varint (ahead d)) < 2 ^ 63) by (unfold varint; destruct (uvarint _); apply unzigzag_range).
  destruct (varint (ahead d)) as [w n]. cbn [fst] in R. cbv zeta. destruct (n =? 0); [discriminate|]. destruct (n =? -1); [discriminate|].
  intros E. injection E as <- <-. unfold advance. cbn [d_raw d_length d_offset]. destruct Hd as [H1 H2]. repeat (split; [reflexivity || lia|]). lia.
Qed.
Theorem var_wide : forall P, p_int P = 64 -> forall d, dec_ok d -> zlen (d_raw d) < 2 ^ 62 -> p_late P = false \/ ~ runaway (ahead d) ->
  pVarBytes P d = dVarBytes d /\ pVarString P d = dVarString d.
Proof.
  intros P HP d Hd Hz Hr. assert (G : go_platform P) by (right; exact HP).
  assert (Ho : exists_on P d) by (split; [exact Hd|rewrite HP; change (2 ^ (64 - 1)) with (2 ^ 63); lia]).
  pose proof (varint_all P G d Ho Hr) as E. unfold pVarBytes, pVarString, dVarBytes, dVarString, bind. rewrite E.
  destruct (dVarInt d) as [v d1|x d1|] eqn:Ev; [|split; reflexivity|split; reflexivity].
  destruct (varint_after d v d1 Hd Ev) as (R1 & R2 & R3 & R4 & R5). destruct Hd as [H1 H2].
  assert (Pi : forall z, - 2 ^ 63 <= z < 2 ^ 63 -> pint P z = z) by (intros z Hz'; apply pint_id; [exact G|rewrite HP; exact Hz']).
  assert (Rm : p_remains P v d1 = remains v d1) by (unfold p_remains, remains; rewrite Pi by lia; reflexivity).
  assert (Ad : remains v d1 = true -> pint P (d_offset d1 + v) = d_offset d1 + v /\ p_advance P v d1 = advance v d1).
  { intros Er. unfold remains in Er. destruct (Z.ltb_spec (d_length d1 - d_offset d1) v); [discriminate|].
    assert (pint P (d_offset d1 + v) = d_offset d1 + v) as -> by (apply Pi; lia). split; [reflexivity|]. unfold p_advance, advance. rewrite Pi by lia. reflexivity. }
  rewrite (Pi v R1). split.
  - unfold p_take, take_slice. rewrite Rm. destruct (remains v d1) eqn:Er; [|reflexivity]. destruct (Ad eq_refl) as [-> ->]. reflexivity.
  - cbv zeta. rewrite Rm. destruct (remains v d1) eqn:Er; [|reflexivity]. destruct (Ad eq_refl) as [-> ->].
    replace (d_offset d1 + v <=? d_offset d1) with (v <=? 0) by lia. reflexivity.
Qed.
