(** * The properties of connections *)
From Verif Require RingProofs.
From Verif Require Import GoBase GoLemmas Encoder Decoder Spec EncProofs DecProofs PrimProofs BufIO BufIOProofs RingSpec Msg01 Conn ConnSpec ConnProofs.
Local Open Scope Z_scope.
Ltac Zify.zify_post_hook ::= idtac.

Definition AInv {R} (cap : Z) (s : conn R) (evs : list (event R)) : Prop := CInv cap s evs /\ WInv s evs.
Lemma ainv_step {R} cap (s s' : conn R) evs e : AInv cap s evs -> trans s s' e -> AInv cap s' (evs ++ e).
Proof.
  intros [H1 H2] T. split; [eapply cinv_step; eassumption|]. eapply winv_step; try eassumption. exact (i_view _ _ _ H1).
Qed.
Lemma winv_start {R} raw cap : @WInv R (Connected raw cap) [].
Proof.
  constructor; cbn; try discriminate.
  - intros k c F. destruct k; discriminate F.
  - constructor.
  - intros k. split; [intros []|]. intros (c & F & _). destruct k; discriminate.
  - intros k c. intros. destruct k; discriminate.
  - intros _. split; [reflexivity|]. exists []. split; [constructor|]. split; reflexivity.
  - intros k c. intros. destruct k; discriminate.
Qed.
Lemma ainv {R} raw cap (sched : list (clabel R)) s evs : 4 <= cap -> executes raw cap sched s evs -> AInv cap s evs.
Proof.
  intros Hc. apply (exec_ind (fun s evs => AInv cap s evs)).
  - split; [|apply winv_start]. apply (cinv raw cap [] _ _ Hc). split; [constructor|reflexivity].
  - intros. eapply ainv_step; eassumption.
Qed.
(** Induction over executions, with the invariants at hand. *)
Lemma exec_ind_inv {R} (P : conn R -> list (event R) -> Prop) raw cap : 4 <= cap -> P (Connected raw cap) [] ->
  (forall s evs s' e, AInv cap s evs -> AInv cap s' (evs ++ e) -> P s evs -> trans s s' e -> P s' (evs ++ e)) ->
  forall sched s evs, executes raw cap sched s evs -> P s evs.
Proof.
  intros Hc H0 Hs sched s evs H. pose proof H as HA. revert H.
  enough (G : AInv cap s evs /\ P s evs) by (intros; apply G).
  revert sched s evs HA. refine (exec_ind (fun s evs => AInv cap s evs /\ P s evs) raw cap _ _).
  - split; [|exact H0]. apply (ainv raw cap [] _ _ Hc). split; [constructor|reflexivity].
  - intros s evs s' e [A B] T. pose proof (ainv_step _ _ _ _ _ A T). split; [assumption|]. eapply Hs; eassumption.
Qed.

Lemma exec_ind_full {R} (P : conn R -> list (event R) -> Prop) raw cap : 4 <= cap -> P (Connected raw cap) [] ->
  (forall sched s evs s' e, executes raw cap sched s evs -> AInv cap s evs -> AInv cap s' (evs ++ e) -> P s evs -> trans s s' e -> P s' (evs ++ e)) ->
  forall sched s evs, executes raw cap sched s evs -> P s evs.
Proof.
  intros Hc H0 Hs sched. induction sched as [|a sched IH] using rev_ind; intros s evs [Hl H].
  - injection H as <- <-. exact H0.
  - rewrite crun_app in H. destruct (crun (Connected raw cap) sched) as [[s1 e1]|] eqn:E1; [|discriminate]. cbn [crun] in H.
    destruct (cstep s1 a) as [[s2 e2]|] eqn:E2; [|discriminate]. injection H as <- <-. rewrite app_nil_r.
    apply Forall_app in Hl. destruct Hl as [Hl1 Hl2]. inversion Hl2 as [|? ? Ha _]. subst.
    assert (HE : executes raw cap sched s1 e1) by (split; assumption).
    destruct (cstep_trans _ _ _ _ Ha E2) as [_ T]. pose proof (ainv _ _ _ _ _ Hc HE) as A.
    eapply Hs; [exact HE|exact A|eapply ainv_step; eassumption|apply IH, HE|exact T].
Qed.

Lemma NoDup_front {A} (l l' : list A) : NoDup (l ++ l') -> NoDup l.
Proof.
  induction l as [|x l IH]; cbn; intros H; [constructor|]. inversion H. subst. constructor; [|auto]. intros F. apply H2, in_or_app. left. exact F.
Qed.

(** ** Correlation ids *)
Lemma NoDup_map_in {A B} (f : A -> B) l : NoDup l -> (forall x y, In x l -> In y l -> f x = f y -> x = y) -> NoDup (map f l).
Proof.
  intros H. induction H as [|x l Hx H IH]; intros Hf; cbn; constructor.
  - rewrite in_map_iff. intros (y & E & Hy). apply Hx. rewrite (Hf x y); [exact Hy|left; reflexivity|right; exact Hy|congruence].
  - apply IH. intros. apply Hf; [right; assumption|right; assumption|assumption].
Qed.
Lemma NoDup_seq_map (f : nat -> Z) n : (forall i j, (1 <= i <= n)%nat -> (1 <= j <= n)%nat -> f i = f j -> i = j) -> NoDup (map f (List.seq 1 n)).
Proof.
  intros H. apply NoDup_map_in; [apply seq_NoDup|]. intros x y Hx Hy. apply in_seq in Hx, Hy. apply H; lia.
Qed.
Lemma int32_inj a b : int32 a = int32 b -> Z.abs (a - b) < 2 ^ 32 -> a = b.
Proof.
  unfold int32, wrap. intros H Hd. assert (E : (a + 2 ^ (32 - 1)) mod 2 ^ 32 = (b + 2 ^ (32 - 1)) mod 2 ^ 32) by lia.
  pose proof (Z.div_mod (a + 2 ^ (32 - 1)) (2 ^ 32) ltac:(lia)) as E1. pose proof (Z.div_mod (b + 2 ^ (32 - 1)) (2 ^ 32) ltac:(lia)) as E2.
  rewrite E in E1. set (p := (a + 2 ^ (32 - 1)) / 2 ^ 32) in *. set (q := (b + 2 ^ (32 - 1)) / 2 ^ 32) in *.
  assert (a - b = 2 ^ 32 * (p - q)) by lia. assert (p = q); [|lia]. change (2 ^ 32) with 4294967296 in *. lia.
Qed.

Lemma ids_are {R} raw cap (sched : list (clabel R)) s evs : 4 <= cap -> executes raw cap sched s evs ->
  ids evs = map (fun n => int32 (Z.of_nat n)) (List.seq 1 (length (ids evs))).
Proof. intros Hc H. apply (i_ids _ _ _ (proj1 (ainv _ _ _ _ _ Hc H))). Qed.
Lemma ids_nodup {R} (evs : list (event R)) : ids evs = map (fun n => int32 (Z.of_nat n)) (List.seq 1 (length (ids evs))) ->
  zlen (ids evs) <= 2 ^ 32 -> NoDup (ids evs).
Proof.
  intros E H. rewrite E. apply NoDup_seq_map. intros i j Hi Hj F. apply int32_inj in F; [lia|]. unfold zlen in H. lia.
Qed.
Lemma ids_distinct {R} raw cap (sched : list (clabel R)) s evs : 4 <= cap -> executes raw cap sched s evs ->
  zlen (ids evs) <= 2 ^ 32 -> NoDup (ids evs).
Proof. intros Hc H. apply ids_nodup, (ids_are raw cap sched s evs Hc H). Qed.
(** Two calls never have the same id then. *)
Lemma in_id_of {R} k id (evs : list (event R)) : In (EId k id) evs <-> In id (id_of k evs).
Proof.
  unfold id_of. rewrite in_flat_map. split.
  - intros H. exists (EId k id). split; [exact H|]. cbn. rewrite Nat.eqb_refl. left. reflexivity.
  - intros (x & H1 & H2). destruct x; cbn in H2; try contradiction. destruct (Nat.eqb_spec k0 k); [|contradiction]. destruct H2 as [->|[]]. subst. exact H1.
Qed.
Lemma same_id_same_call {R} k j id (evs : list (event R)) : NoDup (ids evs) -> In (EId k id) evs -> In (EId j id) evs -> k = j.
Proof.
  unfold ids. induction evs as [|e evs IH]; [intros _ []|]. cbn [flat_map]. intros HN H1 H2.
  assert (HN' : NoDup (flat_map (fun e => match e with EId _ id => [id] | _ => [] end) evs)).
  { destruct e; cbn in HN; try exact HN. inversion HN. assumption. }
  assert (P : forall k', In (EId k' id) evs -> In id (flat_map (fun e => match e with EId _ id => [id] | _ => [] end) evs)).
  { intros k' Hk. apply in_flat_map. exists (EId k' id). split; [exact Hk|left; reflexivity]. }
  destruct H1 as [->|H1], H2 as [H2|H2].
  - congruence.
  - cbn in HN. inversion HN. subst. exfalso. eauto.
  - subst e. cbn in HN. inversion HN. subst. exfalso. eauto.
  - auto.
Qed.
Lemma calls_distinct {R} raw cap (sched : list (clabel R)) s evs k j id : 4 <= cap -> executes raw cap sched s evs ->
  zlen (ids evs) <= 2 ^ 32 -> In (EId k id) evs -> In (EId j id) evs -> k = j.
Proof. intros Hc H Hn. apply same_id_same_call, (ids_distinct raw cap sched s evs Hc H Hn). Qed.

(** ** Replies *)
Lemma in_replies {R} k r (evs : list (event R)) : In r (replies_to k evs) <-> In (EReply k r) evs.
Proof.
  unfold replies_to. rewrite in_flat_map. split.
  - intros (x & H1 & H2). destruct x; cbn in H2; try contradiction. destruct (Nat.eqb_spec k0 k); [|contradiction]. destruct H2 as [->|[]]. subst. exact H1.
  - intros H. exists (EReply k r). split; [exact H|]. cbn. rewrite Nat.eqb_refl. left. reflexivity.
Qed.
Lemma in_returns {R} k r (evs : list (event R)) : In r (returns_of k evs) <-> In (EReturn k r) evs.
Proof.
  unfold returns_of. rewrite in_flat_map. split.
  - intros (x & H1 & H2). destruct x; cbn in H2; try contradiction. destruct (Nat.eqb_spec k0 k); [|contradiction]. destruct H2 as [->|[]]. subst. exact H1.
  - intros H. exists (EReturn k r). split; [exact H|]. cbn. rewrite Nat.eqb_refl. left. reflexivity.
Qed.

(** Arguments of a call never change. *)
Definition same_call {R} (c c' : docall R) : Prop := k_dec c' = k_dec c /\ k_enc c' = k_enc c.
Lemma run_keeps {R} (sched : list (clabel R)) : forall s0 s evs k c, Forall legal sched -> crun s0 sched = Some (s, evs) ->
  nth_error (s_calls s0) k = Some c -> exists c', nth_error (s_calls s) k = Some c' /\ same_call c c'.
Proof.
  induction sched as [|a sched IH]; intros s0 s evs k c Hl H Hk; cbn [crun] in H.
  - injection H as <- <-. exists c. repeat split; auto.
  - inversion Hl as [|? ? Ha Hl']. subst. destruct (cstep s0 a) as [[s1 e1]|] eqn:E; [|discriminate].
    destruct (crun s1 sched) as [[s2 e2]|] eqn:E2; [|discriminate]. injection H as <- <-.
    destruct (cstep_trans _ _ _ _ Ha E) as [_ T]. destruct (calls_keep _ _ _ _ _ T Hk) as (c1 & K1 & K2 & K3 & _).
    destruct (IH _ _ _ _ _ Hl' E2 K1) as (c2 & L1 & L2 & L3). exists c2. split; [exact L1|]. split; congruence.
Qed.

Lemma reply_is_own {R} raw cap (sched : list (clabel R)) s pre k r post : 4 <= cap ->
  executes raw cap sched s (pre ++ EReturn k (Reply r) :: post) ->
  exists c id buf size, nth_error (s_calls s) k = Some c /\ In (EId k id) pre /\ In (EFrame buf size) pre /\ carries buf size id /\
    seen (k_dec c (mkDecoder buf size 4)) = Some r.
Proof.
  intros Hc H. destruct (executes_prefix _ _ _ _ _ _ H) as (sc1 & s1 & H1 & sc2 & Hl2 & H2).
  destruct (ainv _ _ _ _ _ Hc H1) as [I1 W1]. destruct (crun_split _ _ _ [] _ _ Hl2 H2) as (sc3 & a & sc4 & s3 & s4 & -> & R1 & R2 & R3).
  apply Forall_app in Hl2. destruct Hl2 as [Hl3 Hl4]. inversion Hl4 as [|? ? Ha Hl5]. subst.
  assert (H3 : executes raw cap (sc1 ++ sc3) s3 pre).
  { destruct H1 as [L1 E1]. split; [apply Forall_app; auto|]. rewrite crun_app, E1, R1, app_nil_r. reflexivity. }
  destruct (ainv _ _ _ _ _ Hc H3) as [I3 W3].
  destruct (cstep_trans _ _ _ _ Ha R2) as [_ T].
  assert (G : exists c3, nth_error (s_calls s3) k = Some c3 /\ k_pc c3 = PWait /\ k_reply c3 = Some r).
  { clear - T. remember [EReturn k (Reply r)] as e eqn:Ee. destruct T; try discriminate. injection Ee as -> ->. eauto. }
  destruct G as (c3 & G1 & G2 & G3).
  pose proof (i_view _ _ _ I3 k) as Vk. rewrite G1 in Vk. pose proof (v_reply _ _ _ Vk) as Vr. rewrite G3, G2 in Vr.
  assert (Hin : In (EReply k r) pre) by (apply in_replies; rewrite Vr; left; reflexivity).
  destruct (i_reply _ _ _ I3 _ _ Hin) as (_ & c & id & buf & size & P1 & P2 & P3 & P4 & P5).
  destruct (calls_keep _ _ _ _ _ T P1) as (c4 & K1 & K2 & _).
  destruct (run_keeps _ _ _ _ _ _ Hl5 R3 K1) as (c5 & L1 & L2 & L3).
  exists c5, id, buf, size. split; [exact L1|]. split; [apply in_id_of; rewrite P2; left; reflexivity|]. split; [exact P3|]. split; [exact P4|].
  rewrite L2, K2. exact P5.
Qed.

Lemma one_reply {R} raw cap (sched : list (clabel R)) s evs k : 4 <= cap -> executes raw cap sched s evs ->
  (length (replies_to k evs) <= 1)%nat /\ (length (returns_of k evs) <= 1)%nat.
Proof.
  intros Hc H. split.
  - revert sched s evs H. refine (exec_ind_inv (fun s evs => (length (replies_to k evs) <= 1)%nat) raw cap Hc _ _); [cbn; lia|].
    intros s evs s' e [I W] _ IH T. rewrite grow_rep, app_length.
    assert (E : replies_to k e = [] \/ exists d r, s_mpc s = MReply k d /\ e = [EReply k r]).
    { destruct T; try (left; reflexivity). destruct (Nat.eq_dec k0 k) as [->|Hk]; [right; eauto|left].
      cbn. apply Nat.eqb_neq in Hk. rewrite Hk. reflexivity. }
    destruct E as [->|(d & r & Hm & ->)]; [cbn; lia|]. rewrite (proj1 (i_mreply _ _ _ I _ _ Hm)). cbn. rewrite Nat.eqb_refl. cbn. lia.
  - destruct (ainv _ _ _ _ _ Hc H) as [I _]. pose proof (i_view _ _ _ I k) as V. destruct (nth_error (s_calls s) k) as [c|].
    + rewrite (v_ret _ _ _ V). destruct (k_pc c); cbn; lia.
    + destruct V as (_ & _ & -> & _). cbn. lia.
Qed.

(** Every reply is paid for by a frame. *)
Definition all_replies {R} (evs : list (event R)) : list nat := flat_map (fun e => match e with EReply k _ => [k] | _ => [] end) evs.
Definition all_frames {R} (evs : list (event R)) : list Z := flat_map (fun e => match e with EFrame _ size => [size] | _ => [] end) evs.
Lemma replies_le_frames {R} raw cap (sched : list (clabel R)) s evs : 4 <= cap -> executes raw cap sched s evs ->
  (length (all_replies evs) <= length (all_frames evs))%nat.
Proof.
  intros Hc H. enough (G : (length (all_replies evs) + match s_mpc s with MLookup _ _ | MReply _ _ => 1 | _ => 0 end <= length (all_frames evs))%nat) by lia.
  revert sched s evs H.
  refine (exec_ind_inv (fun s evs => (length (all_replies evs) + match s_mpc s with MLookup _ _ | MReply _ _ => 1 | _ => 0 end <= length (all_frames evs))%nat) raw cap Hc _ _); [cbn; lia|].
  intros s evs s' e _ _ IH T. unfold all_replies, all_frames in *. rewrite !flat_map_app, !app_length.
  destruct T; cbn [flat_map length app set_mpc s_mpc set_calls put_call set_id set_requests set_lock set_encoder set_rbuf crash set_closed set_rawclosed] in *;
    try lia; try (match goal with H : s_mpc s = _ |- _ => rewrite H in IH end; destruct (s_closed s); cbn in *; lia).
Qed.

(** Frames nobody waits for change nothing. *)
Lemma unknown_ignored {R} (s s' : conn R) a id : legal a -> cstep s a = Some (s', [EDropped id]) ->
  s_calls s' = s_calls s /\ forall i, s_requests s' i = s_requests s i.
Proof.
  intros Hl H. apply cstep_trans in H; [|exact Hl]. destruct H as [_ T]. remember [EDropped id] as e eqn:Ee. destruct T; try discriminate.
  injection Ee as ->. cbn. split; [reflexivity|]. intros i. unfold map_set. destruct (Z.eqb_spec i id); congruence.
Qed.
(** The message loop touches no call but the one the frame is for. *)
Lemma loop_touches {R} (s s' : conn R) a e : (a = MStep \/ exists bs, a = MRead bs /\ Forall is_byte bs) -> cstep s a = Some (s', e) ->
  (forall j, (forall d, s_mpc s <> MReply j d) -> nth_error (s_calls s') j = nth_error (s_calls s) j) /\
  (forall i, (forall d, s_mpc s <> MLookup i d) -> s_requests s' i = s_requests s i) /\
  (forall j d, s_mpc s' = MReply j d -> s_mpc s' = s_mpc s \/ exists i, s_mpc s = MLookup i d /\ s_requests s i = Some j).
Proof.
  intros Ha H. assert (Hl : legal a) by (destruct Ha as [->|(bs & -> & Hb)]; [exact I|exact Hb]).
  assert (Hno : forall enc dec, a <> DoCall enc dec) by (intros; destruct Ha as [->|(? & -> & _)]; discriminate).
  assert (Hnc : forall k, a <> CStep k) by (intros; destruct Ha as [->|(? & -> & _)]; discriminate).
  unfold cstep in H. destruct (s_crashed s) eqn:Ec; [discriminate|]. destruct Ha as [->|(bs & -> & Hb)].
  - unfold loop_step in H. destruct (s_mpc s) as [ | |size|id d|k d|] eqn:Em; try discriminate.
    + injection H as <- <-. cbn. repeat split. intros. destruct (s_closed s); discriminate.
    + destruct (s_requests s id) as [k|] eqn:Er; injection H as <- <-; cbn; repeat split.
      * intros i Hi. unfold map_set. destruct (Z.eqb_spec i id) as [->|]; [exfalso; apply (Hi d); reflexivity|reflexivity].
      * intros j d' F. injection F as <- <-. right. eauto.
      * intros i Hi. unfold map_set. destruct (Z.eqb_spec i id) as [->|]; [exfalso; apply (Hi d); reflexivity|reflexivity].
      * discriminate.
    + destruct (nth_error (s_calls s) k) as [c|] eqn:Ek; [|discriminate].
      assert (P : forall c' : docall R, forall j, (forall d0, MReply k d <> MReply j d0) -> nth_error (set_nth (s_calls s) k c') j = nth_error (s_calls s) j).
      { intros c' j Hj. apply nth_other. intros ->. apply (Hj d). reflexivity. }
      destruct (k_dec c d) as [r d'|x d'|]; [destruct (k_reply c); [discriminate|]|destruct (k_reply c); [discriminate|]|];
        injection H as <- <-; cbn; (split; [|split; [reflexivity|try discriminate]]); auto.
  - unfold loop_read in H. destruct (s_mpc s) as [ | |size|id d|k d|] eqn:Em; try discriminate.
    + destruct (zlen bs =? 4); [|discriminate]. cbn zeta in H. destruct (dInt32 _); injection H as <- <-; cbn; repeat split; try discriminate.
      intros j d F. congruence.
    + destruct ((zlen bs =? Z.max 0 size) && (size <=? s_cap s)); [|discriminate]. cbn zeta in H.
      destruct (ResponseHeader_Decode _ _ _); injection H as <- <-; cbn; repeat split; try discriminate. intros j d F. congruence.
Qed.

(** ** No response overtakes its registration *)
Lemma grow_sent {R} k (evs e : list (event R)) : sent_by k (evs ++ e) = sent_by k evs ++ sent_by k e.
Proof. apply flat_map_app. Qed.

Lemma sender_locked {R} raw cap (sched : list (clabel R)) s evs k : 4 <= cap -> executes raw cap sched s evs ->
  sent_by k evs <> [] -> In k (locks evs).
Proof.
  intros Hc. revert sched s evs. refine (exec_ind_inv (fun s evs => sent_by k evs <> [] -> In k (locks evs)) raw cap Hc _ _); [intros F; exfalso; apply F; reflexivity|].
  intros s evs s' e [I W] _ IH T Hs. rewrite grow_locks, in_app_iff. rewrite grow_sent in Hs.
  destruct (sent_by k evs) as [|z l] eqn:E; [|left; apply IH; discriminate]. left.
  destruct T; cbn in Hs; try congruence. destruct (Nat.eqb_spec k0 k) as [->|]; [|exfalso; apply Hs; reflexivity].
  apply (w_locked _ _ W). exists c. split; [exact H|]. rewrite H0. reflexivity.
Qed.
Lemma locked_registered {R} cap (s : conn R) evs k : AInv cap s evs -> In k (locks evs) -> registrations k evs = [tt] /\ exists id, id_of k evs = [id].
Proof.
  intros [I W] H. apply (w_locked _ _ W) in H. destruct H as (c & H1 & H2). pose proof (i_view _ _ _ I k) as V. rewrite H1 in V.
  pose proof (v_reg _ _ _ V) as E1. pose proof (v_id _ _ _ V) as E2. destruct (k_pc c); try discriminate H2; split; eauto.
Qed.

(** Calls registered whose frame has not come are in the map. *)
Lemma waiting_in_map {R} raw cap (sched : list (clabel R)) s evs : 4 <= cap -> executes raw cap sched s evs ->
  NoDup (ids evs) -> forall k id, id_of k evs = [id] -> registrations k evs = [tt] ->
  (forall raw size, In (EFrame raw size) evs -> ~ carries raw size id) -> s_requests s id = Some k.
Proof.
  intros Hc. revert sched s evs. refine (exec_ind_inv (fun s evs => NoDup (ids evs) -> forall k id, id_of k evs = [id] -> registrations k evs = [tt] ->
    (forall raw size, In (EFrame raw size) evs -> ~ carries raw size id) -> s_requests s id = Some k) raw cap Hc _ _).
  - intros _ k id F. discriminate.
  - intros s evs s' e [I W] [I' W'] IH T HN k id Hid Hreg Hf.
    assert (HN0 : NoDup (ids evs)) by (rewrite grow_ids in HN; apply NoDup_front in HN; exact HN).
    assert (Hf0 : forall raw size, In (EFrame raw size) evs -> ~ carries raw size id) by (intros; apply Hf, in_more; assumption).
    assert (Old : (forall j, e <> [ERegister j]) -> (forall i, s_requests s' i = s_requests s i \/ exists d, s_mpc s = MLookup i d) -> s_requests s' id = Some k).
    { intros Hne Hr. destruct (Hr id) as [->|[d Hd]].
      - rewrite grow_reg in Hreg. assert (Er : registrations k e = []) by (destruct T; try reflexivity; exfalso; eapply Hne; reflexivity).
        rewrite Er, app_nil_r in Hreg.
        assert (Ei : id_of k evs = [id]).
        { destruct (reg_exists _ _ _ (i_view _ _ _ I) Hreg) as (c & C1 & C2). pose proof (i_view _ _ _ I k) as V. rewrite C1 in V.
          assert (E : exists i, id_of k evs = [i]) by (rewrite (v_id _ _ _ V); destruct (k_pc c); try discriminate C2; eauto).
          destruct E as [i Ei]. pose proof (stable_id _ _ _ _ _ (i_view _ _ _ I') Ei). congruence. }
        apply IH; assumption.
      - destruct (i_lookup _ _ _ I _ _ Hd) as (rw & sz & F1 & F2 & _). exfalso. exact (Hf0 _ _ F1 F2). }
    destruct T; try (apply Old; [discriminate|intros i; left; reflexivity]).
    + (* register *)
      pose proof (i_view _ _ _ I k0) as V0. rewrite H in V0. pose proof (v_id _ _ _ V0) as Ei0. rewrite H0 in Ei0.
      cbn [put_call set_calls set_requests s_requests]. unfold map_set. destruct (Nat.eq_dec k k0) as [->|Hk].
      * rewrite (stable_id _ _ _ _ _ (i_view _ _ _ I') Ei0) in Hid. injection Hid as <-. rewrite Z.eqb_refl. reflexivity.
      * assert (Hr0 : registrations k evs = [tt]).
        { rewrite grow_reg in Hreg. cbn in Hreg. apply not_eq_sym in Hk. apply Nat.eqb_neq in Hk. rewrite Hk, app_nil_r in Hreg. exact Hreg. }
        assert (Hid0 : id_of k evs = [id]) by (rewrite grow_id, app_nil_r in Hid; exact Hid).
        destruct (Z.eqb_spec id (k_id c)) as [->|]; [|apply IH; assumption].
        exfalso. apply Hk. apply (same_id_same_call _ _ (k_id c) evs HN0); apply in_id_of; [rewrite Hid0|rewrite Ei0]; left; reflexivity.
    + apply Old; [discriminate|]. intros i. cbn. unfold map_set. destruct (Z.eqb_spec i id0) as [->|]; [right; eauto|left; reflexivity].
    + apply Old; [discriminate|]. intros i. cbn. unfold map_set. destruct (Z.eqb_spec i id0) as [->|]; [right; eauto|left; reflexivity].
Qed.

Lemma solicited_prefix {R} (evs e : list (event R)) : solicited (evs ++ e) -> solicited evs.
Proof.
  intros H pre raw size post id E Hc. apply (H pre raw size (post ++ e) id); [|exact Hc]. rewrite E, <- app_assoc. reflexivity.
Qed.

Lemma none_dropped {R} raw cap (sched : list (clabel R)) s evs : 4 <= cap -> executes raw cap sched s evs ->
  zlen (ids evs) <= 2 ^ 32 -> solicited evs -> forall id, ~ In (EDropped id) evs.
Proof.
  intros Hc H Hn Hs. pose proof (ids_distinct raw cap sched s evs Hc H Hn) as HN. clear Hn.
  enough (G : (forall id, ~ In (EDropped id) evs) /\ (forall id d, s_mpc s = MLookup id d -> s_requests s id <> None)) by (exact (proj1 G)).
  revert HN Hs. revert sched s evs H.
  refine (exec_ind_full (fun s evs => NoDup (ids evs) -> solicited evs -> (forall id, ~ In (EDropped id) evs) /\ (forall id d, s_mpc s = MLookup id d -> s_requests s id <> None)) raw cap Hc _ _).
  - intros _ _. split; [intros id []|discriminate].
  - intros sched s evs s' e HE [I W] [I' W'] IH T HN Hs.
    assert (HN0 : NoDup (ids evs)) by (rewrite grow_ids in HN; apply NoDup_front in HN; exact HN).
    destruct (IH HN0 (solicited_prefix _ _ Hs)) as [IH1 IH2]. split.
    + intros id Hin. apply in_app_or in Hin. destruct Hin as [Hin|Hin]; [exact (IH1 _ Hin)|].
      destruct T; cbn in Hin; try contradiction; destruct Hin as [Hin|[]]; try discriminate. injection Hin as ->. exact (IH2 _ _ H H0).
    + intros id d Hm. destruct T; cbn [set_mpc s_mpc set_calls put_call set_id set_requests set_lock set_encoder set_rbuf crash set_closed set_rawclosed s_requests] in *; try discriminate; try (eapply IH2; eassumption).
      * unfold map_set. destruct (Z.eqb_spec id (k_id c)); [discriminate|]. eapply IH2; eassumption.
      * destruct (s_closed s); discriminate.
      * injection Hm as -> ->. destruct (i_cap _ _ _ I) as [C1 C2]. destruct (i_buf _ _ _ I) as [B1 B2].
        destruct (overwrite_ok (s_rbuf s) bs cap B1 B2 H2) as [O1 O2]; [lia|].
        destruct (decode_carries (overwrite (s_rbuf s) bs) size id d) as [Hcar _]; [exact O1|lia|exact H3|].
        destruct (Hs evs _ _ [] id eq_refl Hcar) as [(k & K1 & K2) K3].
        destruct (locked_registered cap s evs k (conj I W) (sender_locked _ _ _ _ _ _ Hc HE K2)) as [L1 [i L2]].
        assert (i = id) by (apply in_id_of in K1; rewrite L2 in K1; destruct K1 as [F|[]]; exact F). subst i.
        rewrite (waiting_in_map _ _ _ _ _ Hc HE HN0 k id L2 L1 K3). discriminate.
Qed.

(** ** A call runs on its own, but for the lock and its reply *)
Definition own {R} (s : conn R) (k : nat) (s' : conn R) (evs : list (event R)) : Prop :=
  exists n, crun s (repeat (CStep k) n) = Some (s', evs).
Lemma own_refl {R} (s : conn R) k : own s k s [].
Proof. exists 0%nat. reflexivity. Qed.
Lemma own_trans {R} (s s1 s2 : conn R) k e1 e2 : own s k s1 e1 -> own s1 k s2 e2 -> own s k s2 (e1 ++ e2).
Proof. intros [n H1] [m H2]. exists (n + m)%nat. rewrite repeat_app, crun_app, H1, H2. reflexivity. Qed.
Lemma own_step {R} (s s' : conn R) k c e : s_crashed s = false -> nth_error (s_calls s) k = Some c -> call_step s k c = Some (s', e) -> own s k s' e.
Proof. intros H1 H2 H3. exists 1%nat. cbn [repeat crun]. unfold cstep. rewrite H1, H2, H3, app_nil_r. reflexivity. Qed.

(** From line 165 to line 167. *)
Lemma own_send {R} k : forall ps (s : conn R) c err b fl, s_crashed s = false -> nth_error (s_calls s) k = Some c -> k_pc c = PSend ps err b fl ->
  exists s' evs, own s k s' evs /\ nth_error (s_calls s') k = Some (at_pc c (PUnlock fl)) /\ s_crashed s' = false.
Proof.
  induction ps as [|p ps IH]; intros s c err b fl Hc Hk Hp.
  - exists (put_call (set_encoder s err b) k (at_pc c (PUnlock fl))), [EFlushed k fl]. split; [|split; [apply (nth_same _ _ _ _ Hk)|exact Hc]].
    apply (own_step s _ k c); auto. unfold call_step. rewrite Hp. reflexivity.
  - destruct (IH (put_call s k (at_pc c (PSend ps err b fl))) (at_pc c (PSend ps err b fl)) err b fl Hc (nth_same _ _ _ _ Hk) eq_refl) as (s' & evs & H1 & H2 & H3).
    exists s', ([ESent k p] ++ evs). split; [|split; [exact H2|exact H3]]. eapply own_trans; [|exact H1].
    apply (own_step s _ k c); auto. unfold call_step. rewrite Hp. reflexivity.
Qed.
(** From line 154 to line 164. *)
Lemma own_to_lock {R} k (s : conn R) c : s_crashed s = false -> nth_error (s_calls s) k = Some c -> past_lock (k_pc c) = false ->
  exists s' evs c', own s k s' evs /\ nth_error (s_calls s') k = Some c' /\ k_pc c' = PLock /\ s_crashed s' = false /\ s_lock s' = s_lock s /\
    s_buf s' = s_buf s /\ s_encerr s' = s_encerr s /\ k_enc c' = k_enc c /\ k_reply c' = k_reply c /\ raw_now s' = raw_now s.
Proof.
  assert (P2 : forall (s : conn R) c, s_crashed s = false -> nth_error (s_calls s) k = Some c -> k_pc c = PRegister ->
    exists s' evs c', own s k s' evs /\ nth_error (s_calls s') k = Some c' /\ k_pc c' = PLock /\ s_crashed s' = false /\ s_lock s' = s_lock s /\
    s_buf s' = s_buf s /\ s_encerr s' = s_encerr s /\ k_enc c' = k_enc c /\ k_reply c' = k_reply c /\ raw_now s' = raw_now s).
  { intros s0 c0 Hc Hk Hp. eexists _, [ERegister k], (at_pc c0 PLock). split.
    - apply (own_step s0 _ k c0); auto. unfold call_step. rewrite Hp. reflexivity.
    - split; [apply (nth_same _ _ _ _ Hk)|]. repeat split. exact Hc. }
  intros Hc Hk Hp. destruct (k_pc c) eqn:E; try discriminate Hp.
  - set (s1 := put_call (set_id s (int32 (s_id s + 1))) k (mkCall (k_enc c) (k_dec c) (int32 (s_id s + 1)) PRegister (k_reply c))).
    destruct (P2 s1 _ Hc (nth_same _ _ _ _ Hk) eq_refl) as (s' & evs & c' & H1 & H2).
    exists s', ([EId k (int32 (s_id s + 1))] ++ evs), c'. split; [|exact H2]. eapply own_trans; [|exact H1].
    apply (own_step s _ k c); auto. unfold call_step. rewrite E. reflexivity.
  - apply P2; assumption.
  - exists s, [], c. split; [apply own_refl|]. repeat split; auto.
Qed.

(** Once its reply is there, a call that has the lock or had it returns. *)
Lemma own_finish {R} k (s : conn R) c r : s_crashed s = false -> nth_error (s_calls s) k = Some c -> past_lock (k_pc c) = true ->
  (forall x, k_pc c <> PReturned x) -> k_reply c = Some r ->
  exists s' evs res, own s k s' evs /\ In (EReturn k res) evs /\ (res = Reply r \/ exists x, res = WriteError x).
Proof.
  intros Hc Hk Hp Hr Hy.
  assert (PW : forall (s : conn R) c, s_crashed s = false -> nth_error (s_calls s) k = Some c -> k_pc c = PWait -> k_reply c = Some r ->
    exists s' evs res, own s k s' evs /\ In (EReturn k res) evs /\ (res = Reply r \/ exists x, res = WriteError x)).
  { intros s0 c0 H1 H2 H3 H4. eexists _, [EReturn k (Reply r)], (Reply r). split; [|split; [left; reflexivity|left; reflexivity]].
    apply (own_step s0 _ k c0); auto. unfold call_step. rewrite H3, H4. reflexivity. }
  assert (PU : forall (s : conn R) c fl, s_crashed s = false -> nth_error (s_calls s) k = Some c -> k_pc c = PUnlock fl -> k_reply c = Some r ->
    exists s' evs res, own s k s' evs /\ In (EReturn k res) evs /\ (res = Reply r \/ exists x, res = WriteError x)).
  { intros s0 c0 [x|] H1 H2 H3 H4.
    - eexists _, [EReturn k (WriteError x)], (WriteError x). split; [|split; [left; reflexivity|right; eauto]].
      apply (own_step s0 _ k c0); auto. unfold call_step. rewrite H3. reflexivity.
    - set (s1 := put_call (set_lock s0 None) k (at_pc c0 PWait)).
      destruct (PW s1 (at_pc c0 PWait) H1 (nth_same _ _ _ _ H2) eq_refl H4) as (s' & evs & res & Q1 & Q2).
      exists s', ([] ++ evs), res. split; [|exact Q2]. eapply own_trans; [|exact Q1].
      apply (own_step s0 _ k c0); auto. unfold call_step. rewrite H3. reflexivity. }
  destruct (k_pc c) as [ | | |ps err b fl|fl| |res] eqn:E; try discriminate Hp.
  - destruct (own_send k ps s c err b fl Hc Hk E) as (s1 & e1 & H1 & H2 & H3).
    destruct (PU s1 (at_pc c (PUnlock fl)) fl H3 H2 eq_refl Hy) as (s' & evs & res & Q1 & Q2 & Q3).
    exists s', (e1 ++ evs), res. split; [eapply own_trans; eassumption|]. split; [apply in_or_app; right; exact Q2|exact Q3].
  - eapply PU; eassumption.
  - eapply PW; eassumption.
  - exfalso. apply (Hr res). reflexivity.
Qed.

Lemma answered_completes {R} raw cap (sched : list (clabel R)) s evs k r : 4 <= cap -> executes raw cap sched s evs ->
  In (EReply k r) evs -> sent_by k evs <> [] -> s_crashed s = false -> returns_of k evs = [] ->
  exists n s' evs' res, crun s (repeat (CStep k) n) = Some (s', evs') /\ In (EReturn k res) evs' /\ (res = Reply r \/ exists x, res = WriteError x).
Proof.
  intros Hc H Hin Hs Hcr Hret. destruct (ainv _ _ _ _ _ Hc H) as [I W]. pose proof (sender_locked _ _ _ _ _ _ Hc H Hs) as HL.
  apply (w_locked _ _ W) in HL. destruct HL as (c & H1 & H2). pose proof (i_view _ _ _ I k) as V. rewrite H1 in V.
  assert (Hnr : forall x, k_pc c <> PReturned x) by (intros x F; pose proof (v_ret _ _ _ V) as E; rewrite Hret, F in E; discriminate).
  assert (Hy : k_reply c = Some r).
  { pose proof (v_reply _ _ _ V) as E. apply in_replies in Hin. rewrite E in Hin. apply in_app_or in Hin. destruct Hin as [Hin|Hin].
    - destruct (k_reply c); [destruct Hin as [->|[]]; reflexivity|destruct Hin].
    - destruct (k_pc c) as [ | | | | | |[]]; try contradiction. exfalso. eapply Hnr. reflexivity. }
  destruct (own_finish k s c r Hcr H1 H2 Hnr Hy) as (s' & evs' & res & [n Q1] & Q2). exists n, s', evs', res. auto.
Qed.

(** ** Requests on the wire *)
Lemma wire_prefix {R} raw cap (sched : list (clabel R)) s evs : 4 <= cap -> executes raw cap sched s evs ->
  NoDup (locks evs) /\ exists reqs, Forall2 (request s) (locks evs) reqs /\ prefix (wire evs) (concat reqs) /\
    (s_lock s = None -> b_err (s_buf s) = None -> wire evs = concat reqs).
Proof.
  intros Hc H. destruct (ainv _ _ _ _ _ Hc H) as [I W]. split; [exact (w_nodup _ _ W)|].
  assert (PS : forall b reqs, settled b (concat reqs) -> prefix (sent_bytes b) (concat reqs)).
  { intros b reqs Hst. unfold settled in Hst. destruct (b_err b); [exact Hst|]. destruct Hst as [_ ->]. apply prefix_refl. }
  destruct (s_lock s) as [k|] eqn:El.
  - destruct (w_held _ _ W _ El) as [c Hk]. pose proof (proj2 (w_hold _ _ W _ _ Hk) El) as Hh.
    destruct (k_pc c) as [ | | |ps err b fl|fl| |res] eqn:E; try discriminate Hh.
    + destruct (w_send _ _ W _ _ _ _ _ _ Hk E) as (P1 & _ & _ & _ & (reqs & P5 & P6) & _). exists reqs. split; [exact P5|]. split; [|discriminate].
      apply (RingProofs.prefix_trans _ (sent_bytes b)); [exists (concat ps); symmetry; exact P1|apply PS, P6].
    + destruct (w_idle _ _ W) as [P1 (reqs & P5 & P6)].
      { intros j c1 ps err b fl0 Hj F. assert (j = k) by (apply (one_holder _ _ k c j c1 W Hk); [rewrite E; reflexivity|exact Hj|rewrite F; reflexivity]). subst. congruence. }
      exists reqs. split; [exact P5|]. split; [rewrite P1; apply PS, P6|discriminate].
  - destruct (w_idle _ _ W) as [P1 (reqs & P5 & P6)].
    { intros j c1 ps err b fl0 Hj F. assert (Hh : holding (k_pc c1) = true) by (rewrite F; reflexivity). apply (w_hold _ _ W _ _ Hj) in Hh. congruence. }
    exists reqs. split; [exact P5|]. split; [rewrite P1; apply PS, P6|]. intros _ Hb. rewrite P1. unfold settled in P6. rewrite Hb in P6. apply P6.
Qed.

(** What each call contributed. *)
Lemma wire_by_call {R} raw cap (sched : list (clabel R)) s evs : 4 <= cap -> executes raw cap sched s evs ->
  wire evs = concat (map (fun k => sent_by k evs) (locks evs)).
Proof.
  intros Hc H. enough (G : wire evs = concat (map (fun k => sent_by k evs) (locks evs)) /\ (forall k, s_lock s = Some k -> exists l, locks evs = l ++ [k]) /\
    (forall k, ~ In k (locks evs) -> sent_by k evs = [])) by (exact (proj1 G)).
  revert sched s evs H. refine (exec_ind_inv (fun s evs => wire evs = concat (map (fun k => sent_by k evs) (locks evs)) /\
    (forall k, s_lock s = Some k -> exists l, locks evs = l ++ [k]) /\ (forall k, ~ In k (locks evs) -> sent_by k evs = [])) raw cap Hc _ _).
  - repeat split. discriminate.
  - intros s evs s' e [I W] [I' W'] (IH1 & IH2 & IH3) T.
    assert (Q : locks e = [] -> (forall k, sent_by k e = []) -> wire e = [] -> (s_lock s' = s_lock s \/ s_lock s' = None) ->
      wire (evs ++ e) = concat (map (fun k => sent_by k (evs ++ e)) (locks (evs ++ e))) /\
      (forall k, s_lock s' = Some k -> exists l, locks (evs ++ e) = l ++ [k]) /\ (forall k, ~ In k (locks (evs ++ e)) -> sent_by k (evs ++ e) = [])).
    { intros E1 E2 E3 E4. rewrite grow_wire, grow_locks, E1, E3, !app_nil_r. split; [|split].
      - rewrite IH1. f_equal. apply map_ext. intros k. rewrite grow_sent, E2, app_nil_r. reflexivity.
      - intros k Hk. apply IH2. destruct E4; congruence.
      - intros k Hk. rewrite grow_sent, E2, app_nil_r. apply IH3, Hk. }
    destruct T; try (apply Q; auto; fail).
    + (* lock *)
      assert (NL : ~ In k (locks evs)).
      { pose proof (w_nodup _ _ W') as F. rewrite grow_locks in F. apply NoDup_remove_2 in F. rewrite app_nil_r in F. exact F. }
      rewrite grow_wire, grow_locks. cbn [locks wire flat_map app]. rewrite app_nil_r.
      assert (E : forall j, sent_by j (evs ++ [ELock k]) = sent_by j evs) by (intros j; rewrite grow_sent; apply app_nil_r).
      split; [|split].
      * rewrite map_app, concat_app. cbn [map concat]. rewrite E, (IH3 _ NL), !app_nil_r, IH1. f_equal. apply map_ext. intros j. rewrite E. reflexivity.
      * cbn. intros j Hj. injection Hj as <-. eauto.
      * intros j Hj. rewrite E. apply IH3. intros F. apply Hj, in_or_app. left. exact F.
    + (* send *)
      assert (Hl : s_lock s = Some k) by (apply (w_hold _ _ W _ _ H); rewrite H0; reflexivity).
      destruct (IH2 _ Hl) as [l El]. rewrite grow_wire, grow_locks. cbn [locks wire flat_map]. rewrite !app_nil_r.
      pose proof (w_nodup _ _ W) as F. rewrite El in F. apply NoDup_remove_2 in F. rewrite app_nil_r in F.
      split; [|split].
      * rewrite IH1, El, !map_app, !concat_app. cbn [map concat]. rewrite !app_nil_r, <- app_assoc. f_equal.
        -- f_equal. apply map_ext_in. intros j Hj. rewrite grow_sent. cbn. destruct (Nat.eqb_spec k j) as [->|]; [contradiction|]. rewrite app_nil_r. reflexivity.
        -- rewrite grow_sent. cbn. rewrite Nat.eqb_refl, app_nil_r. reflexivity.
      * intros j Hj. apply IH2, Hj.
      * intros j Hj. rewrite grow_sent, (IH3 _ Hj). cbn. destruct (Nat.eqb_spec k j) as [->|]; [|reflexivity].
        exfalso. apply Hj. rewrite El. apply in_or_app. right. left. reflexivity.
Qed.

(** ** After a write failure *)
Definition failing {R} (x : error) (p : pc R) (b : bufio) : Prop :=
  match p with
  | PId | PRegister | PLock => True
  | PSend ps _ b' fl => ps = [] /\ b' = b /\ fl = Some x
  | PUnlock fl => fl = Some x
  | PReturned (WriteError y) => y = x
  | _ => False
  end.
Lemma fail_stop {R} raw cap (sched : list (clabel R)) s pre k x post : 4 <= cap ->
  executes raw cap sched s (pre ++ EFlushed k (Some x) :: post) ->
  wire post = [] /\ (forall j fl, In (EFlushed j fl) post -> fl = Some x) /\
  (forall j res, j = k \/ ~ In j (locks pre) -> In (EReturn j res) post -> res = WriteError x).
Proof.
  intros Hc [Hl H]. destruct (crun_split _ _ _ _ _ _ Hl H) as (sc1 & a & sc2 & s1 & s2 & -> & R1 & R2 & R3).
  apply Forall_app in Hl. destruct Hl as [Hl1 Hl2]. inversion Hl2 as [|? ? Ha Hl3]. subst.
  assert (HE : executes raw cap sc1 s1 pre) by (split; assumption). pose proof (ainv _ _ _ _ _ Hc HE) as A1.
  destruct (cstep_trans _ _ _ _ Ha R2) as [_ T]. pose proof (ainv_step _ _ _ _ _ A1 T) as A2.
  set (mine := fun j => j = k \/ ~ In j (locks pre)).
  set (P := fun (s : conn R) (evs : list (event R)) => (exists evs0, AInv cap s evs0) /\ b_err (s_buf s) = Some x /\
    (forall j, In j (locks pre) -> (j < length (s_calls s))%nat) /\
    (forall j c, nth_error (s_calls s) j = Some c -> (mine j -> failing x (k_pc c) (s_buf s)) /\ (~ mine j -> holding (k_pc c) = false /\ past_lock (k_pc c) = true)) /\
    wire evs = [] /\ (forall j fl, In (EFlushed j fl) evs -> fl = Some x) /\ (forall j res, mine j -> In (EReturn j res) evs -> res = WriteError x)).
  assert (P0 : P s2 []).
  { split; [eauto|]. remember [EFlushed k (Some x)] as e eqn:Ee. destruct A1 as [I1 W1]. destruct T; try discriminate. injection Ee as -> ->.
    destruct (w_send _ _ W1 _ _ _ _ _ _ H0 H1) as (_ & _ & P3 & _ & _ & _).
    split; [cbn; congruence|]. split.
    { intros j Hj. apply (w_locked _ _ W1) in Hj. destruct Hj as (c1 & F & _). cbn. rewrite set_nth_length. apply nth_error_Some. congruence. }
    split; [|repeat split; intros; contradiction].
    intros j c1 Hj. cbn [put_call set_calls set_encoder s_buf]. apply put_cases in Hj. destruct Hj as [(-> & -> & _)|[Hn Hj]].
    - split; [intros _; reflexivity|]. intros F. exfalso. apply F. left. reflexivity.
    - cbn [set_encoder s_calls] in Hj. assert (Hh : holding (k_pc c1) = false).
      { destruct (holding (k_pc c1)) eqn:E; [|reflexivity]. exfalso. apply Hn. apply (one_holder _ _ k c j c1 W1 H0); [rewrite H1; reflexivity|exact Hj|exact E]. }
      split.
      + intros [->|Hm]; [congruence|]. rewrite (w_locked _ _ W1) in Hm. destruct (k_pc c1) eqn:E; try exact I; try discriminate Hh; exfalso; apply Hm; exists c1; rewrite E; auto.
      + intros Hm. split; [exact Hh|]. destruct (past_lock (k_pc c1)) eqn:E; [reflexivity|]. exfalso. apply Hm. right. rewrite (w_locked _ _ W1).
        intros (c2 & F1 & F2). congruence. }
  assert (PS : forall s evs s' e, P s evs -> trans s s' e -> P s' (evs ++ e)).
  { clear. intros s evs s' e ((evs0 & A) & Hb & HL & HC & Hw & Hf & Hr) T. pose proof (ainv_step _ _ _ _ _ A T) as A'.
    destruct A as [I W].
    assert (HB : s_buf s' = s_buf s).
    { destruct T; try reflexivity. cbn. destruct (w_send _ _ W _ _ _ _ _ _ H H0) as (_ & _ & _ & _ & _ & P6). apply (P6 _ Hb). }
    assert (HL' : forall j, In j (locks pre) -> (j < length (s_calls s'))%nat).
    { intros j Hj. specialize (HL _ Hj). apply nth_error_Some in HL. destruct (nth_error (s_calls s) j) as [c|] eqn:E; [|congruence].
      destruct (calls_keep _ _ _ _ _ T E) as (c' & F & _). apply nth_error_Some. congruence. }
    assert (Hm : forall j, mine j \/ ~ mine j).
    { intros j. unfold mine. destruct (Nat.eq_dec j k); [left; left; assumption|]. destruct (in_dec Nat.eq_dec j (locks pre)); tauto. }
    assert (Hol : forall k0 c, nth_error (s_calls s) k0 = Some c -> holding (k_pc c) = true -> mine k0 /\ failing x (k_pc c) (s_buf s)).
    { intros k0 c H1 H2. destruct (HC _ _ H1) as [Q1 Q2]. destruct (Hm k0) as [M|M]; [auto|]. destruct (Q2 M). congruence. }
    assert (PC : forall (s0 : conn R) k0 c c', s_calls s0 = s_calls s -> nth_error (s_calls s) k0 = Some c ->
       (failing x (k_pc c) (s_buf s) -> failing x (k_pc c') (s_buf s)) -> (holding (k_pc c) = false /\ past_lock (k_pc c) = true -> holding (k_pc c') = false /\ past_lock (k_pc c') = true) ->
       forall j c1, nth_error (s_calls (put_call s0 k0 c')) j = Some c1 -> (mine j -> failing x (k_pc c1) (s_buf s)) /\ (~ mine j -> holding (k_pc c1) = false /\ past_lock (k_pc c1) = true)).
    { intros s0 k0 c c' E0 H1 H2 H3 j c1 Hj. apply put_cases in Hj. rewrite E0 in Hj. destruct Hj as [(-> & -> & _)|[Hn Hj]]; [|apply HC, Hj].
      destruct (HC _ _ H1) as [Q1 Q2]. split; auto. }
    (* what is seen *)
    assert (OUT : wire e = [] /\ (forall j fl, In (EFlushed j fl) e -> fl = Some x) /\ (forall j res, mine j -> In (EReturn j res) e -> res = WriteError x)).
    { destruct T; (split; [try reflexivity|split; intros j y; [|intros M]; cbn [In]; try contradiction; intros F; destruct F as [F|[]]; try discriminate F; try (injection F as <- <-)]).
      - destruct (Hol k0 c H) as [_ F]; [rewrite H0; reflexivity|]. rewrite H0 in F. destruct F as [F _]. discriminate.
      - destruct (Hol k0 c H) as [_ F]; [rewrite H0; reflexivity|]. rewrite H0 in F. apply F.
      - destruct (Hol k0 c H) as [_ F]; [rewrite H0; reflexivity|]. rewrite H0 in F. cbn in F. congruence.
      - destruct (HC _ _ H) as [Q1 _]. specialize (Q1 M). rewrite H0 in Q1. contradiction. }
    destruct OUT as (O1 & O2 & O3).
    split; [eauto|]. rewrite HB. split; [exact Hb|]. split; [exact HL'|]. split; [|split; [rewrite grow_wire, Hw, O1; reflexivity|split]].
    2: { intros j fl. rewrite in_app_iff. intros [F|F]; eauto. }
    2: { intros j res M. rewrite in_app_iff. intros [F|F]; eauto. }
    destruct T; try exact HC; try (eapply PC; [reflexivity|eassumption|rewrite H0; cbn; intuition congruence|rewrite H0; cbn; intuition congruence]).
    - intros j c1 Hj. cbn [set_calls s_calls] in Hj. destruct (Nat.lt_ge_cases j (length (s_calls s))) as [L|L].
      + rewrite nth_error_app1 in Hj by exact L. apply HC, Hj.
      + rewrite nth_error_app2 in Hj by exact L. destruct (j - length (s_calls s))%nat as [|n] eqn:E; [|destruct n; discriminate]. injection Hj as <-. cbn.
        split; [intros _; exact Logic.I|]. intros F. exfalso. apply F. right. intros F2. specialize (HL _ F2). lia.
    - (* lock *) eapply PC; [reflexivity|eassumption| |rewrite H0; cbn; intuition congruence]. intros _. cbn.
      pose proof (i_view _ _ _ I k0) as Vk. rewrite H in Vk. destruct (v_runs _ _ _ Vk (k_id c)) as [cs Hcs].
      destruct (transmit_ok _ _ _ _ _ _ _ _ Hcs (w_small _ _ W) (w_err _ _ W) H2) as (K1 & _ & K3 & _).
      pose proof (took_err _ _ _ _ K1 Hb) as ->. split; [apply skipn_all|]. split; [reflexivity|]. congruence.
    - (* reply *) eapply PC; [reflexivity|eassumption|cbn; auto|cbn; auto].
 }
  destruct (run_ind P sc2 PS s2 [] s post P0 Hl3 R3) as (_ & _ & _ & _ & Q1 & Q2 & Q3). auto.
Qed.

(** A call that has not the lock yet, when the lock is free: it runs through line 167
    with the outcome of its own transmission. *)
Lemma own_transmit {R} cap k (s : conn R) evs0 c : AInv cap s evs0 -> s_crashed s = false -> s_lock s = None ->
  nth_error (s_calls s) k = Some c -> past_lock (k_pc c) = false ->
  exists id s' evs err b fl, own s k s' evs /\ transmit (raw_now s) (k_enc c id) (s_encerr s) (s_buf s) = (err, b, fl) /\
    s_crashed s' = false /\ exists c', nth_error (s_calls s') k = Some c' /\ k_pc c' = PUnlock fl.
Proof.
  intros A Hc Hl Hk Hp. destruct (own_to_lock k s c Hc Hk Hp) as (s1 & e1 & c1 & H1 & H2 & H3 & H4 & H5 & H6 & H7 & H8 & H9 & H10).
  destruct (transmit (raw_now s) (k_enc c (k_id c1)) (s_encerr s) (s_buf s)) as [[err b] fl] eqn:Et.
  set (ps := skipn (length (b_sent (s_buf s1))) (b_sent b)).
  set (s2 := put_call (set_lock s1 (Some k)) k (at_pc c1 (PSend ps err b fl))).
  destruct (own_send k ps s2 (at_pc c1 (PSend ps err b fl)) err b fl H4 (nth_same _ _ _ _ H2) eq_refl) as (s3 & e3 & Q1 & Q2 & Q3).
  exists (k_id c1), s3, (e1 ++ [ELock k] ++ e3), err, b, fl. split.
  - eapply own_trans; [exact H1|]. eapply own_trans; [|exact Q1]. apply (own_step s1 _ k c1); auto.
    unfold call_step. rewrite H3, H5, Hl, H6, H7, H8, H10, Et. unfold s2, ps. rewrite H6. reflexivity.
  - split; [exact Et|]. split; [exact Q3|]. eexists. split; [exact Q2|reflexivity].
Qed.
Lemma own_error {R} k (s : conn R) c x : s_crashed s = false -> nth_error (s_calls s) k = Some c -> k_pc c = PUnlock (Some x) ->
  exists s', own s k s' [EReturn k (WriteError x)].
Proof.
  intros Hc Hk Hp. eexists. apply (own_step s _ k c); auto. unfold call_step. rewrite Hp. reflexivity.
Qed.

Lemma failed_returns {R} raw cap (sched : list (clabel R)) s evs k c x : 4 <= cap -> executes raw cap sched s evs ->
  (exists j, In (EFlushed j (Some x)) evs) -> s_crashed s = false -> s_lock s = None ->
  nth_error (s_calls s) k = Some c -> past_lock (k_pc c) = false ->
  exists n s' evs', crun s (repeat (CStep k) n) = Some (s', evs') /\ In (EReturn k (WriteError x)) evs'.
Proof.
  intros Hc H [j Hj] Hcr Hl Hk Hp. pose proof (ainv _ _ _ _ _ Hc H) as A.
  assert (Hb : b_err (s_buf s) = Some x).
  { clear - Hc H Hj. revert Hj. revert sched s evs H.
    refine (exec_ind_inv (fun s evs => In (EFlushed j (Some x)) evs -> b_err (s_buf s) = Some x) raw cap Hc _ _); [intros []|].
    intros s evs s' e [I W] _ IH T. rewrite in_app_iff. intros [F|F].
    - specialize (IH F). destruct T; try exact IH. cbn. destruct (w_send _ _ W _ _ _ _ _ _ H H0) as (_ & _ & _ & _ & _ & P6). destruct (P6 _ IH) as [-> _]. exact IH.
    - destruct T; cbn in F; try contradiction; destruct F as [F|[]]; try discriminate. injection F as -> ->. cbn.
      destruct (w_send _ _ W _ _ _ _ _ _ H H0) as (_ & _ & P3 & _). congruence. }
  destruct (own_transmit cap k s evs c A Hcr Hl Hk Hp) as (id & s1 & e1 & err & b & fl & [n H1] & H2 & H3 & c1 & H4 & H5).
  destruct A as [I W]. pose proof (i_view _ _ _ I k) as Vk. rewrite Hk in Vk. destruct (v_runs _ _ _ Vk id) as [cs Hcs].
  destruct (transmit_ok _ _ _ _ _ _ _ _ Hcs (w_small _ _ W) (w_err _ _ W) H2) as (K1 & _ & K3 & _).
  pose proof (took_err _ _ _ _ K1 Hb) as ->. rewrite Hb in K3. subst fl.
  destruct (own_error k s1 c1 x H3 H4 H5) as [s2 [m H6]]. exists (n + m)%nat, s2, (e1 ++ [EReturn k (WriteError x)]).
  split; [rewrite repeat_app, crun_app, H1, H6; reflexivity|]. apply in_or_app. right. left. reflexivity.
Qed.

(** ** After the connection has been closed *)
Lemma closed_flush c b : b_err (b_flush (closed_raw c) b) = None -> b_sent (b_flush (closed_raw c) b) = b_sent b.
Proof.
  unfold b_flush. destruct (b_err b) eqn:E; [congruence|]. destruct (b_buf b); [reflexivity|]. cbn. discriminate.
Qed.
Lemma closed_write_loop c : forall fuel data b, small b -> b_err (b_write_loop fuel (closed_raw c) data b) = None ->
  b_sent (b_write_loop fuel (closed_raw c) data b) = b_sent b.
Proof.
  induction fuel as [|fuel IH]; intros data b Hs He; [reflexivity|]. cbn [b_write_loop] in *. destruct (b_err b) as [x|] eqn:Eb; [congruence|].
  destruct (Z.ltb_spec (buf_size - zlen (b_buf b)) (zlen data)) as [Hlt|]; [|reflexivity].
  destruct ((zlen (b_buf b) =? 0) && c_direct (closed_raw c) (b_log b) data) eqn:Ed; [cbn in He; discriminate|].
  set (b1 := mkBuf (b_buf b ++ firstn (Z.to_nat (buf_size - zlen (b_buf b))) data) None (b_log b) (b_sent b)) in *.
  destruct (flush_took (closed_raw c) b1) as (F1 & F2 & F3).
  assert (E1 : b_err (b_flush (closed_raw c) b1) = None).
  { destruct (b_err (b_flush (closed_raw c) b1)) as [y|] eqn:Ey; [|reflexivity]. exfalso.
    destruct fuel; cbn [b_write_loop] in He; [congruence|]. rewrite Ey in He. congruence. }
  rewrite (IH _ _ F2 He). rewrite (closed_flush c b1 E1). reflexivity.
Qed.
Lemma closed_replay c : forall log b, small b -> b_err (replay (closed_raw c) log b) = None -> b_sent (replay (closed_raw c) log b) = b_sent b.
Proof.
  induction log as [|d log IH]; intros b Hs He; [reflexivity|]. cbn [replay fold_left] in *. change (fold_left (fun b0 data => b_write (closed_raw c) data b0) log (b_write (closed_raw c) d b)) with (replay (closed_raw c) log (b_write (closed_raw c) d b)) in *.
  destruct (write_took (closed_raw c) d b Hs) as [W1 W2].
  assert (Ed : b_err (b_write (closed_raw c) d b) = None).
  { destruct (b_err (b_write (closed_raw c) d b)) as [x|] eqn:Ex; [|reflexivity]. exfalso. clear - He Ex W2. revert He Ex W2. generalize (b_write (closed_raw c) d b).
    induction log as [|d' log IH]; intros b0 He Ex Hs; cbn [replay fold_left] in He; [congruence|].
    destruct (write_took (closed_raw c) d' b0 Hs) as [T1 _]. rewrite (took_err _ _ _ _ T1 Ex) in He. exact (IH _ He Ex Hs). }
  rewrite (IH _ W2 He). apply (closed_write_loop c _ _ _ Hs Ed).
Qed.
Lemma transmit_closed c act cs err b err' b' fl : Runs act cs -> small b -> (forall x, err = Some x -> b_err b = Some x) -> concat cs <> [] ->
  transmit (closed_raw c) act err b = (err', b', fl) -> exists x, fl = Some x.
Proof.
  intros HR Hs Hx Hne H. destruct (transmit_ok _ _ _ _ _ _ _ _ HR Hs Hx H) as (K1 & K2 & K3 & K4 & K5).
  destruct fl as [x|]; [eauto|]. exfalso. symmetry in K3. specialize (K5 eq_refl). destruct K1 as [_ K1].
  destruct (b_err b) as [x|] eqn:Eb; [congruence|]. rewrite K3 in K1. unfold all_bytes in K1. rewrite K5, app_nil_r in K1.
  assert (E : b_sent b' = b_sent b).
  { unfold transmit in H. set (e := act (mkEncoder (target_of (closed_raw c) b) err)) in *. cbn zeta in H. destruct (e_err e) as [y|] eqn:Ee.
    - injection H as _ <- _. apply closed_replay; assumption.
    - injection H as _ <- _. rewrite (closed_flush _ _ K3). apply closed_replay; [exact Hs|].
      destruct (b_err (replay (closed_raw c) (t_log (e_target e)) b)) as [y|] eqn:Ey; [|reflexivity]. exfalso.
      destruct (flush_took (closed_raw c) (replay (closed_raw c) (t_log (e_target e)) b)) as (F1 & _). rewrite (took_err _ _ _ _ F1 Ey) in K3. congruence. }
  unfold sent_bytes in K1. rewrite E in K1. rewrite <- app_assoc in K1. rewrite <- (app_nil_r (concat (b_sent b))) in K1 at 1.
  apply app_inv_head in K1. symmetry in K1. apply app_eq_nil in K1. apply Hne, K1.
Qed.
Lemma closed_returns {R} raw cap (sched : list (clabel R)) s evs k c : 4 <= cap -> executes raw cap sched s evs ->
  s_rawclosed s = true -> s_crashed s = false -> s_lock s = None -> nth_error (s_calls s) k = Some c -> past_lock (k_pc c) = false ->
  (forall id, ~ Emits (k_enc c id) []) ->
  exists n s' evs' x, crun s (repeat (CStep k) n) = Some (s', evs') /\ In (EReturn k (WriteError x)) evs'.
Proof.
  intros Hc H Hr Hcr Hl Hk Hp Hne. pose proof (ainv _ _ _ _ _ Hc H) as A.
  destruct (own_transmit cap k s evs c A Hcr Hl Hk Hp) as (id & s1 & e1 & err & b & fl & [n H1] & H2 & H3 & c1 & H4 & H5).
  destruct A as [I W]. pose proof (i_view _ _ _ I k) as Vk. rewrite Hk in Vk. destruct (v_runs _ _ _ Vk id) as [cs Hcs].
  unfold raw_now in H2. rewrite Hr in H2.
  assert (Hcn : concat cs <> []) by (intros F; apply (Hne id); rewrite <- F; apply Runs_Emits, Hcs).
  destruct (transmit_closed _ _ _ _ _ _ _ _ Hcs (w_small _ _ W) (w_err _ _ W) Hcn H2) as [x ->].
  destruct (own_error k s1 c1 x H3 H4 H5) as [s2 [m H6]]. exists (n + m)%nat, s2, (e1 ++ [EReturn k (WriteError x)]), x.
  split; [rewrite repeat_app, crun_app, H1, H6; reflexivity|]. apply in_or_app. right. left. reflexivity.
Qed.

(** A call that waits when the message loop has ended, or gets nothing more to
    read, never returns. *)
Definition waits {R} (s : conn R) (k : nat) : Prop := exists c, nth_error (s_calls s) k = Some c /\ k_pc c = PWait /\ k_reply c = None.
Definition outside {R} (s : conn R) : Prop := match s_mpc s with MLookup _ _ | MReply _ _ => False | _ => True end.
Definition reads {R} (a : clabel R) : Prop := match a with MRead _ => True | _ => False end.
Lemma starved {R} (sched : list (clabel R)) : forall s s' evs k, Forall legal sched -> Forall (fun a => s_mpc s = MDone \/ ~ reads a) sched -> outside s -> waits s k ->
  crun s sched = Some (s', evs) -> waits s' k /\ returns_of k evs = [].
Proof.
  induction sched as [|a sched IH]; intros s s' evs k Hl Hn Ho (c & H1 & H2 & H3) H; cbn [crun] in H.
  - injection H as <- <-. split; [exists c; auto|reflexivity].
  - inversion Hl as [|? ? Ha Hl']. inversion Hn as [|? ? Hna Hn']. subst. destruct (cstep s a) as [[s1 e1]|] eqn:E; [|discriminate].
    destruct (crun s1 sched) as [[s2 e2]|] eqn:E2; [|discriminate]. injection H as <- <-. rewrite grow_ret.
    assert (G : waits s1 k /\ outside s1 /\ returns_of k e1 = [] /\ (s_mpc s = MDone -> s_mpc s1 = MDone)).
    { assert (Hna' : ~ (exists bs, a = MRead bs) \/ s_mpc s = MDone) by (destruct Hna as [F|F]; [right; exact F|left; intros [bs ->]; apply F; exact I]).
      assert (PUT : forall (s0 : conn R) j c0 c0', s_calls s0 = s_calls s -> nth_error (s_calls s) j = Some c0 -> k_pc c0 <> PWait -> waits (put_call s0 j c0') k).
      { intros s0 j c0 c0' Q1 Q2 Q3. exists c. split; [|auto]. cbn. rewrite Q1, nth_other; [exact H1|]. intros ->. rewrite H1 in Q2. injection Q2 as <-. contradiction. }
      destruct (cstep_trans _ _ _ _ Ha E) as [_ T]. unfold outside in *.
      destruct T; try (split; [eapply PUT; [reflexivity|eassumption|congruence]|]; cbn; auto; fail); cbn [put_call set_calls set_mpc set_requests set_id set_lock set_encoder set_rbuf crash set_closed set_rawclosed s_mpc] in *.
      - split; [exists c; split; [cbn; rewrite nth_error_app1; [exact H1|apply nth_error_Some; congruence]|auto]|]. auto.
      - split; [eapply PUT; [reflexivity|eassumption|congruence]|]. split; [exact Ho|]. split; [|auto]. cbn. destruct (Nat.eqb_spec k0 k) as [->|]; [congruence|reflexivity].
      - destruct (Nat.eq_dec k0 k) as [->|Hk]; [congruence|].
        split; [exists c; split; [cbn; rewrite nth_other; auto|auto]|]. split; [exact Ho|]. split; [cbn; apply Nat.eqb_neq in Hk; rewrite Hk; reflexivity|auto].
      - split; [exists c; auto|]. split; [destruct (s_closed s); exact I|]. split; [reflexivity|]. congruence.
      - rewrite H in Ho. contradiction.
      - rewrite H in Ho. contradiction.
      - rewrite H in Ho. contradiction.
      - split; [exists c; auto|]. split; [exact I|]. split; [reflexivity|]. congruence.
      - exfalso. destruct Hna' as [F|F]; [|congruence]. apply F.
        unfold cstep in E. destruct (s_crashed s); [discriminate|]. destruct a as [enc dec|j| |bs0| | |]; try discriminate; eauto.
        + destruct (nth_error (s_calls s) j); [|discriminate]. unfold call_step in E. destruct (k_pc d0) as [ | | |[|]|[]| |]; try discriminate. destruct (s_lock s); [discriminate|]. destruct (transmit _ _ _ _) as [[? ?] ?]. discriminate. destruct (k_reply d0); discriminate.
        + unfold loop_step in E. rewrite H in E. discriminate.
        + rewrite H in E. destruct (s_cap s <? size); discriminate.
      - exfalso. destruct Hna' as [F|F]; [|congruence]. apply F.
        unfold cstep in E. destruct (s_crashed s); [discriminate|]. destruct a as [enc dec|j| |bs0| | |]; try discriminate; eauto.
        + destruct (nth_error (s_calls s) j); [|discriminate]. unfold call_step in E. destruct (k_pc d0) as [ | | |[|]|[]| |]; try discriminate. destruct (s_lock s); [discriminate|]. destruct (transmit _ _ _ _) as [[? ?] ?]. discriminate. destruct (k_reply d0); discriminate.
        + unfold loop_step in E. rewrite H in E. discriminate.
        + rewrite H in E. destruct (s_cap s <? size); discriminate.
      - split; [exists c; auto|]. auto.
      - split; [exists c; auto|]. auto.
      - split; [exists c; auto|]. auto. }
    destruct G as (G1 & G2 & G3 & G4). destruct (IH s1 s2 e2 k Hl') as [Q1 Q2]; try assumption.
    + apply Forall_forall. intros b Hb. rewrite Forall_forall in Hn'. destruct (Hn' b Hb) as [F|F]; auto.
    + split; [exact Q1|]. rewrite G3, Q2. reflexivity.
Qed.
