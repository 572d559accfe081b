(** * Flexible versions are encoded in the plain form *)
From Coq Require Import String.
From Verif Require Import GoBase Encoder Decoder Spec SchemaSpec GoLemmas EncProofs Schema Link AllMessages MsgProps MsgProofs Msg01 Msg02 Msg03 Msg04
  BrokerTable Broker BrokerSpec BrokerProofs FlexSpec.
Local Open Scope list_scope.
Local Open Scope Z_scope.
Ltac Zify.zify_post_hook ::= idtac.

(** The first byte of a compact length is never that of a plain one. *)
Lemma compact_first n pre r1 r2 k : is_base128 (n + 1) pre -> 0 <= n < 2 ^ (8 * Z.of_nat k + 7) -> pre ++ r1 <> be (S k) n ++ r2.
Proof.
  intros (m & Hm & -> & Hr & Hl) Hn E. cbn [be] in E.
  assert (P : 0 < 256 ^ Z.of_nat k) by (apply Z.pow_pos_nonneg; lia).
  assert (Q : 2 ^ (8 * Z.of_nat k + 7) = 256 ^ Z.of_nat k * 128).
  { rewrite Z.pow_add_r by lia. rewrite Z.pow_mul_r by lia. reflexivity. }
  assert (D : 0 <= n / 256 ^ Z.of_nat k < 128).
  { split; [apply Z.div_pos; lia|]. apply Z.div_lt_upper_bound; lia. }
  rewrite Z.mod_small in E by lia.
  destruct m as [|[|m]]; [lia| |].
  - cbn [base128 app] in E. injection E as E _. rewrite Z.mod_small in E by (cbn in Hr; lia).
    assert (n / 256 ^ Z.of_nat k <= n) by (apply Z.div_le_upper_bound; nia). lia.
  - assert (B : base128 (S (S m)) (n + 1) = ((n + 1) mod 128 + 128) :: base128 (S m) ((n + 1) / 128)) by reflexivity.
    rewrite B in E. cbn [app] in E. injection E as E _. pose proof (Z.mod_pos_bound (n + 1) 128). lia.
Qed.
Lemma compact_differs n body bs r1 r2 w k : compact_prefix n body bs -> 0 <= n < 2 ^ (8 * Z.of_nat k + 7) -> bs ++ r1 <> (be (S k) n ++ w) ++ r2.
Proof. intros (pre & Hp & ->) Hn. rewrite <- !app_assoc. apply compact_first; assumption. Qed.
Lemma null_differs w r1 r2 : [0] ++ r1 <> (be 4 (-1) ++ w) ++ r2.
Proof. cbn. discriminate. Qed.
Lemma null_differs' r1 r2 : [0] ++ r1 <> be 4 (-1) ++ r2.
Proof. cbn. discriminate. Qed.

Lemma compact_cases t v x bs : fits t v x -> compact t v x bs ->
  bs = wire t v x \/ forall r1 r2, bs ++ r1 <> wire t v x ++ r2.
Proof.
  destruct t; cbn [compact wire fits den] in *; try (intros _ ->; left; reflexivity); intros Hf H; right; intros r1 r2.
  - apply (compact_differs _ _ _ _ _ _ 1 H). pose proof (zlen_nonneg x). lia.
  - apply (compact_differs _ _ _ _ _ _ 3 H). split; [apply zlen_nonneg|exact Hf].
  - destruct x as [l|]; [|subst; apply null_differs']. apply (compact_differs _ _ _ _ _ _ 3 H). split; [apply zlen_nonneg|apply Hf].
  - destruct x as [l|]; [|subst; apply null_differs']. apply (compact_differs _ _ _ _ _ _ 3 H). split; [apply zlen_nonneg|apply Hf].
  - destruct x as [l|]; [|subst; apply null_differs']. destruct H as (parts & _ & H). apply (compact_differs _ _ _ _ _ _ 3 H). split; [apply zlen_nonneg|apply Hf].
  - destruct H as (parts & _ & H). apply (compact_differs _ _ _ _ _ _ 3 H). split; [apply zlen_nonneg|apply Hf].
Qed.
Lemma compact_never fs v : forall x bs, fit fs v x -> compacts fs v x bs -> bs <> wires fs v x.
Proof.
  induction fs as [|name r t rest IH]; cbn [fit compacts wires]; intros x bs Hf Hc; [subst; discriminate|].
  destruct Hf as [Hf Hr]. destruct Hc as (b1 & b2 & -> & H1 & H2). destruct (active r v).
  - destruct (compact_cases t v (fst x) b1 (Hf eq_refl) H1) as [->|D]; [|apply D].
    intros E. apply app_inv_head in E. exact (IH _ _ Hr H2 E).
  - subst b1. exact (IH _ _ Hr H2).
Qed.

(** The encodings of the same message in both forms exist, so the claim is not vacuous. *)
Lemma base128_exists n : 0 <= n -> exists pre, is_base128 n pre.
Proof.
  intros Hn.
  assert (G : forall k n, 0 <= n < 128 ^ Z.of_nat (S k) -> exists pre, is_base128 n pre).
  { induction k as [|k IH]; intros m Hm.
    - exists (base128 1 m). exists 1%nat. repeat split; try lia; cbn in *; try lia.
    - destruct (Z.ltb_spec m (128 ^ Z.of_nat (S k))) as [L|L]; [apply IH; lia|].
      exists (base128 (S (S k)) m), (S (S k)). repeat split; try lia. intros _. replace (Z.of_nat (S (S k)) - 1) with (Z.of_nat (S k)) by lia. exact L. }
  apply (G (Z.to_nat n)). split; [lia|].
  apply Z.lt_le_trans with (2 ^ Z.of_nat (S (Z.to_nat n))).
  - apply Z.lt_trans with (2 ^ n); [apply Z.pow_gt_lin_r; lia|apply Z.pow_lt_mono_r; lia].
  - apply Z.pow_le_mono_l. lia.
Qed.
Lemma prefix_exists n body : 0 <= n -> exists bs, compact_prefix n body bs.
Proof. intros Hn. destruct (base128_exists (n + 1)) as [pre Hp]; [lia|]. exists (pre ++ body), pre. auto. Qed.
Lemma Forall2_exists {A B} (R : A -> B -> Prop) l : (forall x, exists y, R x y) -> exists l', Forall2 R l l'.
Proof.
  intros H. induction l as [|x l [l' IH]]; [exists []; constructor|]. destruct (H x) as [y Hy]. exists (y :: l'). constructor; assumption.
Qed.
Lemma compact_exists :
  (forall t v x, exists bs, compact t v x bs) /\ (forall fs v x, exists bs, compacts fs v x bs).
Proof.
  apply schema_mind; cbn [compact compacts den dens]; intros; try (eexists; reflexivity).
  - apply prefix_exists, zlen_nonneg.
  - apply prefix_exists, zlen_nonneg.
  - destruct x; [apply prefix_exists, zlen_nonneg|eexists; reflexivity].
  - destruct x; [apply prefix_exists, zlen_nonneg|eexists; reflexivity].
  - destruct x as [l|]; [|eexists; reflexivity].
    destruct (Forall2_exists (fun x => compact_prefix (zlen x) x) l) as [parts Hp]; [intros s; apply prefix_exists, zlen_nonneg|].
    destruct (prefix_exists (zlen l) (concat parts) (zlen_nonneg l)) as [bs Hb]. exists bs, parts. auto.
  - destruct (Forall2_exists (compacts fs v) (items x) (H v)) as [parts Hp].
    destruct (prefix_exists (glen x) (concat parts) (zlen_nonneg (items x))) as [bs Hb]. exists bs, parts. auto.
  - destruct (H0 v (snd x)) as [b2 H2]. destruct (active r v) eqn:E.
    + destruct (H v (fst x)) as [b1 H1]. exists (b1 ++ b2), b1, b2. auto.
    + exists b2, [], b2. auto.
Qed.

(** ** The same behind one byte, the tagged fields of the header *)
Lemma shift_string n pre c r1 r2 : is_base128 (n + 1) pre -> 0 <= n < 2 ^ 15 -> c :: pre ++ r1 <> be 2 n ++ r2.
Proof.
  intros (m & Hm & -> & Hr & Hl) Hn E. cbn [be app] in E. injection E as _ E.
  change (256 ^ Z.of_nat 0) with 1 in E. rewrite Z.div_1_r in E.
  destruct m as [|[|m]]; [lia| |].
  - cbn [base128 app] in E. injection E as E _. cbn in Hr. rewrite Z.mod_small in E by lia. rewrite Z.mod_small in E by lia. lia.
  - assert (B : base128 (S (S m)) (n + 1) = ((n + 1) mod 128 + 128) :: base128 (S m) ((n + 1) / 128)) by reflexivity.
    rewrite B in E. cbn [app] in E. injection E as E _.
    pose proof (Z.div_mod n 256). pose proof (Z.mod_pos_bound n 256). pose proof (Z.div_mod (n + 1) 128). pose proof (Z.mod_pos_bound (n + 1) 128). lia.
Qed.
Lemma shift_count n pre c r1 r2 : is_base128 (n + 1) pre -> 0 <= n < 2 ^ 23 -> c :: pre ++ r1 <> be 4 n ++ r2.
Proof.
  intros (m & Hm & -> & Hr & Hl) Hn E. cbn [be app] in E. injection E as _ E.
  change (256 ^ Z.of_nat 2) with 65536 in E.
  assert (D : 0 <= n / 65536 < 128) by (split; [apply Z.div_pos; lia|apply Z.div_lt_upper_bound; lia]).
  rewrite (Z.mod_small (n / 65536)) in E by lia.
  destruct m as [|[|m]]; [lia| |].
  - cbn [base128 app] in E. injection E as E _. cbn in Hr. rewrite Z.mod_small in E by lia. rewrite Z.div_small in E by lia. lia.
  - assert (B : base128 (S (S m)) (n + 1) = ((n + 1) mod 128 + 128) :: base128 (S m) ((n + 1) / 128)) by reflexivity.
    rewrite B in E. cbn [app] in E. injection E as E _. pose proof (Z.mod_pos_bound (n + 1) 128). lia.
Qed.
Lemma shift_prefix n body bs c r1 r2 w : compact_prefix n body bs -> 0 <= n < 2 ^ 23 -> c :: bs ++ r1 <> (be 4 n ++ w) ++ r2.
Proof. intros (pre & Hp & ->) Hn. rewrite <- !app_assoc. apply shift_count; assumption. Qed.
Lemma shift_null c r1 r2 : c :: [0] ++ r1 <> be 4 (-1) ++ r2.
Proof. cbn. discriminate. Qed.
Lemma shift_cases t v x bs : fits t v x -> short_field t x -> compact t v x bs ->
  bs = wire t v x \/ forall c r1 r2, c :: bs ++ r1 <> wire t v x ++ r2.
Proof.
  destruct t; cbn [compact wire fits den short_field] in *; try (intros _ _ ->; left; reflexivity); intros Hf Hs H; right; intros c r1 r2.
  - destruct H as (pre & Hp & ->). unfold w_string. rewrite <- !app_assoc. apply shift_string; [exact Hp|]. pose proof (zlen_nonneg x). lia.
  - apply (shift_prefix _ _ _ _ _ _ _ H). split; [apply zlen_nonneg|exact Hs].
  - destruct x as [l|]; [|subst; apply shift_null]. apply (shift_prefix _ _ _ _ _ _ _ H). split; [apply zlen_nonneg|exact Hs].
  - destruct x as [l|]; [|subst; apply shift_null]. apply (shift_prefix _ _ _ _ _ _ _ H). split; [apply zlen_nonneg|exact Hs].
  - destruct x as [l|]; [|subst; apply shift_null]. destruct H as (parts & _ & H). apply (shift_prefix _ _ _ _ _ _ _ H). split; [apply zlen_nonneg|exact Hs].
  - destruct H as (parts & _ & H). apply (shift_prefix _ _ _ _ _ _ _ H). split; [apply zlen_nonneg|exact Hs].
Qed.
Lemma shift_same b : forall c (X Y : list Z), c :: b ++ X = b ++ Y -> exists c', c' :: X = Y.
Proof.
  induction b as [|y b IH]; intros c X Y E; [exists c; exact E|]. cbn [app] in E. injection E as -> E. exact (IH _ _ _ E).
Qed.
Lemma shift_never fs v : forall x bs c, fit fs v x -> short fs v x -> compacts fs v x bs -> c :: bs <> wires fs v x.
Proof.
  induction fs as [|name r t rest IH]; cbn [fit short compacts wires]; intros x bs c Hf Hs Hc; [discriminate|].
  destruct Hf as [Hf Hr]. destruct Hs as [Hs Hsr]. destruct Hc as (b1 & b2 & -> & H1 & H2). destruct (active r v).
  - destruct (shift_cases t v (fst x) b1 (Hf eq_refl) (Hs eq_refl) H1) as [->|D]; [|apply D].
    intros E. apply shift_same in E. destruct E as [c' E]. exact (IH _ _ _ Hr Hsr H2 E).
  - subst b1. exact (IH _ _ _ Hr Hsr H2).
Qed.

(** ** Requests *)
Lemma flexible_reached : forall a f, first_flexible a = Some f -> exists key lo, declared a = Some (key, lo, f) /\
  forall keys av e, negotiates keys (Some av) -> last_entry keys e -> e_key e = key -> e_max e = f -> av a = f /\ flexible a (av a).
Proof.
  intros a f Hf. assert (D : exists key lo, declared a = Some (key, lo, f) /\ lo <= f).
  { destruct a; try discriminate Hf; injection Hf as <-; eexists; eexists; (split; [vm_compute; reflexivity|lia]). }
  destruct D as (key & lo & D & Hlo). exists key, lo. split; [exact D|]. intros keys av e Hn Hl Hk Hm.
  destruct (negotiation_sound _ _ Hn _ _ _ _ _ Hl D Hk) as [H1 H2].
  destruct (negotiation_highest _ _ Hn _ _ _ _ _ Hl D Hk) as (_ & _ & H3). specialize (H3 f).
  assert (E : av a = f) by lia. split; [exact E|]. exists f. split; [exact Hf|lia].
Qed.

Section Request.
Context (m : method) (Hm : In m all_methods) (a : api) (Hn : m_name m = api_name a).
Lemma request_bytes : forall av clientID req corr size bytes, zlen size = 4 ->
  Emits (encode_request m av clientID req corr) (size ++ bytes) ->
  bytes = (be 2 (m_key m) ++ be 2 (av a) ++ be 4 corr ++ w_string clientID) ++ wires (c_schema (m_req m)) (av a) (c_to (m_req m) req).
Proof.
  intros av cid req corr size bytes Hs He. destruct (request_frame m Hm) as (a' & lo & hi & D & N & _ & Hin & F).
  assert (a' = a) as -> by (apply api_name_inj; congruence).
  destruct (F av cid req corr) as (body & Eb & E). cbn zeta in E.
  pose proof (Emits_inj _ _ _ Eb (linked_emits _ (codec_linked _ _ Hin) (av a) req)) as ->.
  pose proof (Emits_inj _ _ _ He E) as Q. apply (f_equal (skipn 4)) in Q.
  assert (L4 : length size = 4%nat) by (unfold zlen in Hs; lia).
  rewrite !skipn_app in Q. rewrite length_be in Q. rewrite !L4 in Q. rewrite !skipn_all2 in Q by (rewrite ?length_be; lia).
  cbn [Nat.sub skipn app] in Q. exact Q.
Qed.

Lemma flexible_wrong : forall av clientID req corr size bytes,
  flexible a (av a) -> fit (c_schema (m_req m)) (av a) (c_to (m_req m) req) -> short (c_schema (m_req m)) (av a) (c_to (m_req m) req) ->
  zlen size = 4 -> Emits (encode_request m av clientID req corr) (size ++ bytes) ->
  ~ kafka_request a (m_key m) (av a) corr clientID (c_schema (m_req m)) (c_to (m_req m) req) bytes.
Proof.
  intros av cid req corr size bytes Hf Hfit Hs Hz He [K _]. destruct (K Hf) as (body & Hc & E).
  rewrite (request_bytes _ _ _ _ _ _ Hz He) in E. apply app_inv_head in E.
  exact (shift_never _ _ _ _ 0 Hfit Hs Hc (eq_sym E)).
Qed.
Lemma plain_right : forall av clientID req corr, ~ flexible a (av a) -> exists size bytes, zlen size = 4 /\
  Emits (encode_request m av clientID req corr) (size ++ bytes) /\
  kafka_request a (m_key m) (av a) corr clientID (c_schema (m_req m)) (c_to (m_req m) req) bytes.
Proof.
  intros av cid req corr Hf. destruct (request_frame m Hm) as (a' & lo & hi & D & N & _ & Hin & F).
  assert (a' = a) as -> by (apply api_name_inj; congruence).
  destruct (F av cid req corr) as (body & Eb & E). cbn zeta in E.
  pose proof (Emits_inj _ _ _ Eb (linked_emits _ (codec_linked _ _ Hin) (av a) req)) as ->.
  eexists. eexists. split; [|split; [exact E|]]; [apply zlen_be|]. split; [tauto|]. reflexivity.
Qed.
End Request.
