(** * Whole connections *)
From Verif Require Import GoBase GoLemmas Encoder Decoder Spec EncProofs BufIO Msg01 Conn ConnSpec ConnProofs ConnProps ConnFrames ConnRing ConnRingSpec.
From Verif Require Ring RingSpec RingProofs RingProps RingSeq.
Local Open Scope Z_scope.
Ltac Zify.zify_post_hook ::= idtac.
Import Ring.

(** ** What is in the ring are bytes *)
Definition rb_w (p : wpc) : Prop :=
  match p with
  | WIdle | WCrash => True
  | WLoadNext data _ | WLoadStart data _ _ => Forall is_byte data
  | WLoop l | WFullStore l | WFullRelease l | WFullRelease_sel l | WFullLoad l | WWait l | WWait_sel l | WEndRelease l | WEndRelease_sel l => Forall is_byte (w_data l)
  end.
Definition rb_r (p : rpc) : Prop :=
  match p with
  | RIdle | RCrash | RLoadStart _ _ | RLoadNext _ _ _ => True
  | RLoop l | REmptyRelease l | REmptyRelease_sel l | REmptyLoad l | RWait l | RWait_sel l | RGet l | REndRelease l | REndRelease_sel l => Forall is_byte (r_out l)
  end.
Definition RB (g : ring) : Prop := Forall is_byte (g_cells g) /\ rb_w (g_w g) /\ rb_r (g_r g).
Definition rb_label (a : label) : Prop := match a with WCall data _ => Forall is_byte data | _ => True end.
Definition rb_events (evs : list Ring.event) : Prop := forall bs, In (ERead bs) evs -> Forall is_byte bs.

Lemma index_In {A} (l : list A) i x : index l i = Some x -> In x l.
Proof. unfold index. destruct (0 <=? i); [|discriminate]. apply nth_error_In. Qed.
Lemma upd_byte s : forall i x s', Forall is_byte s -> is_byte x -> upd s i x = Some s' -> Forall is_byte s'.
Proof.
  induction s as [|y s IH]; intros i x s' H Hx E; cbn in E; [destruct i; discriminate|]. inversion H; subst.
  destruct i as [|i]; [injection E as <-; constructor; assumption|]. destruct (upd s i x) as [t|] eqn:Et; [|discriminate]. injection E as <-.
  constructor; [assumption|]. exact (IH i x t H3 Hx Et).
Qed.
Lemma store_byte s i x s' : Forall is_byte s -> is_byte x -> store s i x = Some s' -> Forall is_byte s'.
Proof. unfold store. destruct (0 <=? i); [|discriminate]. apply upd_byte. Qed.

Lemma rb_get g l g' evs : RB g -> Forall is_byte (r_out l) -> r_get g l = Some (g', evs) -> RB g' /\ evs = [].
Proof.
  intros (H1 & H2 & H3) Hl H. unfold r_get in H. destruct (index (g_cells g) (r_pos l)) as [b|] eqn:E.
  - destruct (r_i l <? r_cap l); injection H as <- <-; split; try reflexivity; (split; [exact H1|]; split; [exact H2|]); cbn; [|exact I].
    apply Forall_app. split; [exact Hl|]. constructor; [|constructor]. rewrite Forall_forall in H1. apply H1. eapply index_In. exact E.
  - injection H as <- <-. split; [|reflexivity]. split; [exact H1|]. split; [exact H2|exact I].
Qed.
Lemma rb_r_leave g g' evs : RB g -> r_leave g = Some (g', evs) -> RB g' /\ rb_events evs.
Proof.
  intros (H1 & H2 & H3) H. unfold r_leave in H. destruct (g_r g) eqn:E; try discriminate; injection H as <- <-; cbn in H3; (split; [split; [exact H1|]; split; [exact H2|]; cbn; try exact H3; exact I|]);
    intros bs Hin; cbn in Hin; try contradiction. destruct Hin as [F|[]]. injection F as <-. exact H3.
Qed.
Lemma rb_w_leave g g' evs : RB g -> w_leave g = Some (g', evs) -> RB g' /\ rb_events evs.
Proof.
  intros (H1 & H2 & H3) H. unfold w_leave in H. destruct (g_w g) eqn:E; try discriminate; injection H as <- <-; cbn in H2; (split; [split; [exact H1|]; split; [cbn; try exact H2; exact I|exact H3]|]);
    intros bs Hin; cbn in Hin; try contradiction. destruct Hin as [F|[]]; discriminate.
Qed.
Lemma rb_step g a g' evs : RB g -> rb_label a -> step g a = Some (g', evs) -> RB g' /\ rb_events evs.
Proof.
  intros HB Hl H. pose proof HB as (H1 & H2 & H3).
  assert (N0 : rb_events []) by (intros bs []). assert (N1 : rb_events [EWrote]) by (intros bs [F|[]]; discriminate).
  destruct a; cbn [step] in H.
  - destruct (g_w g) eqn:Hw; try discriminate. injection H as <- <-. split; [split; [exact H1|]; split; [exact Hl|exact H3]|]. intros bs [F|[]]; discriminate.
  - destruct (g_r g) eqn:Hr; try discriminate. injection H as <- <-. split; [split; [exact H1|]; split; [exact H2|exact I]|exact N0].
  - unfold w_step in H. destruct (g_w g) as [ |data n|data n pos|l|l|l|l|l|l|l|l|l| ] eqn:Hw; try discriminate; cbn [rb_w] in H2.
    + injection H as <- <-. split; [split; [exact H1|]; split; [exact H2|exact H3]|exact N0].
    + injection H as <- <-. split; [split; [exact H1|]; split; [exact H2|exact H3]|exact N0].
    + destruct (w_i l <? w_n l).
      * destruct (index (w_data l) (w_i l)) as [b|] eqn:Eb; [|injection H as <- <-; split; [split; [exact H1|]; split; [exact I|exact H3]|exact N0]].
        destruct (store (g_cells g) (w_pos l) b) as [cells|] eqn:Ec; [|injection H as <- <-; split; [split; [exact H1|]; split; [exact I|exact H3]|exact N0]].
        injection H as <- <-. split; [|exact N0]. split; [|split; [|exact H3]].
        -- cbn. eapply store_byte; [exact H1| |exact Ec]. rewrite Forall_forall in H2. apply H2. eapply index_In. exact Eb.
        -- cbn [set_w g_w]. destruct (_ =? _); exact H2.
      * cbn zeta in H. destruct (w_wrote l + 1 <? w_n l); injection H as <- <-; (split; [split; [exact H1|]; split; [cbn; try exact H2; exact I|exact H3]|]); assumption.
    + injection H as <- <-. split; [split; [exact H1|]; split; [exact H2|exact H3]|exact N0].
    + destruct (g_rset g); injection H as <- <-; (split; [split; [exact H1|]; split; [exact H2|exact H3]|exact N0]).
    + injection H as <- <-. split; [|exact N0]. split; [exact H1|]. split; [|exact H3]. cbn [set_w g_w]. destruct (_ =? _); exact H2.
    + destruct (g_wset g); injection H as <- <-; (split; [split; [exact H1|]; split; [exact H2|exact H3]|exact N0]).
    + destruct (g_rset g); injection H as <- <-; (split; [split; [exact H1|]; split; [cbn; try exact H2; exact I|exact H3]|]); assumption.
  - unfold r_step in H. destruct (g_r g) as [ |c n|c n pos|l|l|l|l|l|l|l|l|l| ] eqn:Hr; try discriminate; cbn [rb_r] in H3.
    + injection H as <- <-. split; [split; [exact H1|]; split; [exact H2|exact I]|exact N0].
    + injection H as <- <-. split; [split; [exact H1|]; split; [exact H2|constructor]|exact N0].
    + destruct (r_i l <? r_n l).
      * destruct (r_pos l =? r_next l).
        -- injection H as <- <-. split; [|exact N0]. split; [exact H1|]. split; [exact H2|]. cbn [set_r g_r]. destruct (0 <? r_read l); exact H3.
        -- destruct (rb_get g l g' evs HB H3 H) as [Q ->]. split; [exact Q|exact N0].
      * cbn zeta in H. destruct (0 <? r_read l); injection H as <- <-; (split; [split; [exact H1|]; split; [exact H2|cbn; try exact H3; exact I]|]); [exact N0|].
        intros bs [F|[]]. injection F as <-. exact H3.
    + destruct (g_wset g); injection H as <- <-; (split; [split; [exact H1|]; split; [exact H2|exact H3]|exact N0]).
    + injection H as <- <-. split; [|exact N0]. split; [exact H1|]. split; [exact H2|]. cbn [set_r g_r]. destruct (_ =? _); exact H3.
    + destruct (g_rset g); injection H as <- <-; (split; [split; [exact H1|]; split; [exact H2|exact H3]|exact N0]).
    + destruct (rb_get g l g' evs HB H3 H) as [Q ->]. split; [exact Q|exact N0].
    + destruct (g_wset g); injection H as <- <-; (split; [split; [exact H1|]; split; [exact H2|cbn; try exact H3; exact I]|]); [exact N0|].
      intros bs [F|[]]. injection F as <-. exact H3.
  - destruct (r_waiting (g_r g) && w_releasing (g_w g)); [|discriminate]. unfold leave_both in H. destruct (w_leave g) as [[g1 e1]|] eqn:E1; [|discriminate].
    destruct (r_leave g1) as [[g2 e2]|] eqn:E2; [|discriminate]. injection H as <- <-. destruct (rb_w_leave _ _ _ HB E1) as [B1 V1]. destruct (rb_r_leave _ _ _ B1 E2) as [B2 V2].
    split; [exact B2|]. intros bs Hin. apply in_app_or in Hin. destruct Hin; [apply V1|apply V2]; assumption.
  - destruct (w_waiting (g_w g) && r_releasing (g_r g)); [|discriminate]. unfold leave_both in H. destruct (w_leave g) as [[g1 e1]|] eqn:E1; [|discriminate].
    destruct (r_leave g1) as [[g2 e2]|] eqn:E2; [|discriminate]. injection H as <- <-. destruct (rb_w_leave _ _ _ HB E1) as [B1 V1]. destruct (rb_r_leave _ _ _ B1 E2) as [B2 V2].
    split; [exact B2|]. intros bs Hin. apply in_app_or in Hin. destruct Hin; [apply V1|apply V2]; assumption.
  - destruct (g_closed g); [|discriminate]. eapply rb_w_leave; eassumption.
  - destruct (g_closed g); [|discriminate]. eapply rb_r_leave; eassumption.
  - injection H as <- <-. split; [split; [exact H1|]; split; [exact H2|exact H3]|exact N0].
Qed.

(** ** What a step of the ring shows *)
Lemma step_events g a g' evs : step g a = Some (g', evs) -> inside a = true -> RingSpec.written evs = [] /\
  ((bytes_read evs = None /\ RingSpec.delivered evs = [] /\ (forall bs, ~ In (ERead bs) evs)) \/ exists bs, bytes_read evs = Some bs /\ RingSpec.delivered evs = bs /\ In (ERead bs) evs /\ g_r g' = RIdle).
Proof.
  intros H Hi.
  assert (D0 : forall e : list Ring.event, e = [] \/ e = [EWrote] -> RingSpec.written e = [] /\
     ((bytes_read e = None /\ RingSpec.delivered e = [] /\ (forall bs, ~ In (ERead bs) e)) \/ exists bs, bytes_read e = Some bs /\ RingSpec.delivered e = bs /\ In (ERead bs) e /\ g_r g' = RIdle)).
  { intros e [-> | ->]; (split; [reflexivity|]); left; repeat split; cbn; try tauto. intros bs [F|[]]; discriminate. }
  assert (D1 : forall bs, evs = [ERead bs] -> g_r g' = RIdle -> RingSpec.written evs = [] /\
     ((bytes_read evs = None /\ RingSpec.delivered evs = [] /\ (forall bs, ~ In (ERead bs) evs)) \/ exists bs, bytes_read evs = Some bs /\ RingSpec.delivered evs = bs /\ In (ERead bs) evs /\ g_r g' = RIdle)).
  { intros bs -> E. split; [reflexivity|]. right. exists bs. repeat split; cbn; rewrite ?app_nil_r; auto. }
  assert (WL : forall g1 e1, w_leave g = Some (g1, e1) -> (e1 = [] \/ e1 = [EWrote]) /\ g_r g1 = g_r g).
  { intros g1 e1 E. unfold w_leave in E. destruct (g_w g); try discriminate; injection E as <- <-; cbn; auto. }
  assert (RL : forall g0 g1 e1, r_leave g0 = Some (g1, e1) -> (r_waiting (g_r g0) = true -> e1 = []) /\ (e1 = [] \/ exists bs, e1 = [ERead bs] /\ g_r g1 = RIdle)).
  { intros g0 g1 e1 E. unfold r_leave in E. destruct (g_r g0); try discriminate; injection E as <- <-; cbn; split; try tauto; try discriminate; eauto. }
  destruct a; try discriminate Hi; cbn [step] in H.
  - unfold w_step in H. destruct (g_w g) as [ |data n|data n pos|l|l|l|l|l|l|l|l|l| ] eqn:Hw; try discriminate; try (injection H as <- <-; apply D0; auto; fail).
    + destruct (w_i l <? w_n l); [destruct (index (w_data l) (w_i l)); [destruct (store (g_cells g) (w_pos l) z)|]; injection H as <- <-; apply D0; auto|].
      cbn zeta in H. destruct (w_wrote l + 1 <? w_n l); injection H as <- <-; apply D0; auto.
    + destruct (g_rset g); injection H as <- <-; apply D0; auto.
    + destruct (g_wset g); injection H as <- <-; apply D0; auto.
    + destruct (g_rset g); injection H as <- <-; apply D0; auto.
  - assert (RG : forall l, r_get g l = Some (g', evs) -> evs = []).
    { intros l E. unfold r_get in E. destruct (index _ _); [destruct (_ <? _)|]; injection E as <- <-; reflexivity. }
    unfold r_step in H. destruct (g_r g) as [ |c n|c n pos|l|l|l|l|l|l|l|l|l| ] eqn:Hr; try discriminate; try (injection H as <- <-; apply D0; auto; fail).
    + destruct (r_i l <? r_n l).
      * destruct (r_pos l =? r_next l); [injection H as <- <-; apply D0; auto|]. apply D0. left. eapply RG. exact H.
      * cbn zeta in H. destruct (0 <? r_read l); injection H as <- <-; [apply D0; auto|]. eapply D1; reflexivity.
    + destruct (g_wset g); injection H as <- <-; apply D0; auto.
    + destruct (g_rset g); injection H as <- <-; apply D0; auto.
    + apply D0. left. eapply RG. exact H.
    + destruct (g_wset g); injection H as <- <-; [apply D0; auto|]. eapply D1; reflexivity.
  - destruct (r_waiting (g_r g) && w_releasing (g_w g)) eqn:Eb; [|discriminate]. apply andb_true_iff in Eb. destruct Eb as [Eb _].
    unfold leave_both in H. destruct (w_leave g) as [[g1 e1]|] eqn:E1; [|discriminate]. destruct (WL _ _ eq_refl) as [V1 Er].
    destruct (r_leave g1) as [[g2 e2]|] eqn:E2; [|discriminate]. injection H as <- <-. destruct (RL _ _ _ E2) as [V2 _]. rewrite Er in V2. rewrite (V2 Eb), app_nil_r. apply D0. exact V1.
  - destruct (w_waiting (g_w g) && r_releasing (g_r g)) eqn:Eb; [|discriminate]. apply andb_true_iff in Eb. destruct Eb as [Eb _].
    unfold leave_both in H. destruct (w_leave g) as [[g1 e1]|] eqn:E1; [|discriminate].
    assert (e1 = []) by (unfold w_leave in E1; destruct (g_w g); try discriminate; injection E1 as <- <-; reflexivity). subst e1.
    destruct (r_leave g1) as [[g2 e2]|] eqn:E2; [|discriminate]. injection H as <- <-. cbn [app] in *. destruct (RL _ _ _ E2) as [_ [V2|(bs & V2 & V3)]]; [apply D0; auto|].
    eapply D1; eassumption.
  - destruct (g_closed g); [|discriminate]. apply D0. apply (WL _ _ H).
  - destruct (g_closed g); [|discriminate]. destruct (RL _ _ _ H) as [_ [V2|(bs & V2 & V3)]]; [apply D0; auto|]. eapply D1; eassumption.
Qed.

(** ** Projections *)
Lemma call_readn_run {R} (c : conn R) g g' : call_readn c g = Some g' ->
  exists rs, run g rs = Some (g', []) /\ RingSpec.all_steps RingSpec.good_wake g rs /\ Forall rb_label rs.
Proof.
  unfold call_readn.
  assert (G : forall n, option_map fst (step g (RCall (s_cap c) n)) = Some g' -> exists rs, run g rs = Some (g', []) /\ RingSpec.all_steps RingSpec.good_wake g rs /\ Forall rb_label rs).
  { intros n H. destruct (step g (RCall (s_cap c) n)) as [[g1 e1]|] eqn:E; [|discriminate]. cbn in H. injection H as ->.
    assert (e1 = []) by (cbn [step] in E; destruct (g_r g); try discriminate; injection E as <- <-; reflexivity). subst e1.
    exists [RCall (s_cap c) n]. cbn [run RingSpec.all_steps]. rewrite E. split; [reflexivity|]. split; [|repeat constructor]. split; [|exact I].
    split; intros k F; [unfold RingSpec.reader_wakes in F|unfold RingSpec.writer_wakes in F]; [destruct (g_r g)|destruct (g_w g)]; discriminate. }
  destruct (s_mpc c); try (intros H; injection H as <-; exists []; repeat split; constructor); apply G.
Qed.

Lemma bytes_read_in evs bs : bytes_read evs = Some bs -> In (ERead bs) evs.
Proof. destruct evs as [|[w| |b] [|[w'| |b'] [|? ?]]]; cbn; intros H; try discriminate; injection H as <-; auto. Qed.

Lemma nstep_project {R} (s s' : client R) a e : RB (n_ring s) -> nlegal a -> nstep s a = Some (s', e) ->
  exists cs rs re, crun (n_conn s) cs = Some (n_conn s', e) /\ Forall legal cs /\ run (n_ring s) rs = Some (n_ring s', re) /\ Forall rb_label rs /\
    read_bytes cs = RingSpec.delivered re /\ arrived [a] = RingSpec.written re /\ (good_step s a -> RingSpec.all_steps RingSpec.good_wake (n_ring s) rs).
Proof.
  intros HB Hl H. unfold nstep in H. destruct (n_dead s || s_crashed (n_conn s)) eqn:Hd; [discriminate|]. apply orb_false_iff in Hd. destruct Hd as [Hd Hcr].
  destruct a as [enc dec|k| |b|bs|bs| |k]; cbn [arrived flat_map nlegal good_step] in *.
  - destruct (cstep (n_conn s) (DoCall enc dec)) as [[c1 e1]|] eqn:E; [|discriminate]. injection H as <- <-.
    exists [DoCall enc dec], [], []. cbn [crun run]. rewrite E, app_nil_r. repeat split; try constructor; auto.
  - destruct (cstep (n_conn s) (CStep k)) as [[c1 e1]|] eqn:E; [|discriminate]. injection H as <- <-.
    exists [CStep k], [], []. cbn [crun run]. rewrite E, app_nil_r. repeat split; repeat constructor.
  - destruct (cstep (n_conn s) MStep) as [[c1 e1]|] eqn:E; [|discriminate]. destruct (call_readn c1 (n_ring s)) as [g1|] eqn:Eg; [|discriminate]. injection H as <- <-.
    destruct (call_readn_run _ _ _ Eg) as (rs & Q1 & Q2 & Q3). exists [MStep], rs, []. cbn [crun]. rewrite E, app_nil_r. repeat split; repeat constructor; auto.
  - destruct (inside b) eqn:Eb; [|discriminate]. destruct (step (n_ring s) b) as [[g1 evs]|] eqn:E; [|discriminate]. cbn zeta in H.
    assert (Rl : rb_label b) by (destruct b; try exact I; discriminate).
    destruct (rb_step _ _ _ _ HB Rl E) as [_ HV]. destruct (step_events _ _ _ _ E Eb) as [Hw [(Q1 & Q2 & _)|(bs & Q1 & Q2 & Q3 & Q4)]]; rewrite Q1 in H.
    + injection H as <- <-. exists [], [b], evs. cbn [crun run RingSpec.all_steps]. rewrite E, app_nil_r. split; [reflexivity|]. split; [constructor|]. split; [reflexivity|]. split; [repeat constructor; exact Rl|].
      split; [exact (eq_sym Q2)|]. split; [exact (eq_sym Hw)|]. auto.
    + destruct (cstep (n_conn s) (MRead bs)) as [[c1 e1]|] eqn:Ec; [|discriminate]. destruct (call_readn c1 g1) as [g2|] eqn:Eg; [|discriminate]. injection H as <- <-.
      destruct (call_readn_run _ _ _ Eg) as (rs & R1 & R2 & R3). exists [MRead bs], (b :: rs), evs. cbn [crun run]. rewrite E, Ec, R1, !app_nil_r. split; [reflexivity|].
      split; [repeat constructor; cbn; apply HV, Q3|]. split; [reflexivity|]. split; [constructor; assumption|]. split; [cbn; rewrite Q2, app_nil_r; reflexivity|]. split; [auto|].
      intros Hg. cbn [RingSpec.all_steps]. rewrite E. auto.
  - destruct (n_rd s); try discriminate. destruct (s_rawclosed (n_conn s)); [discriminate|].
    destruct (step (n_ring s) (WCall bs (zlen bs))) as [[g1 e1]|] eqn:E; [|discriminate]. injection H as <- <-.
    exists [], [WCall bs (zlen bs)], e1. cbn [crun run RingSpec.all_steps]. rewrite E, app_nil_r. split; [reflexivity|]. split; [constructor|]. split; [reflexivity|].
    split; [repeat constructor; exact Hl|].
    assert (F : e1 = [EWrite bs]). { cbn [step] in E. destruct (g_w (n_ring s)); try discriminate. injection E as _ <-. unfold zlen. rewrite Nat2Z.id, firstn_all. reflexivity. }
    subst e1. cbn. rewrite !app_nil_r. repeat split; intros k F; [unfold RingSpec.reader_wakes in F|unfold RingSpec.writer_wakes in F]; [destruct (g_r (n_ring s))|destruct (g_w (n_ring s))]; discriminate.
  - destruct (n_rd s); try discriminate. injection H as <- <-. exists [], [], []. repeat split; constructor.
  - injection H as <- <-. exists [], [], []. repeat split; constructor.
  - destruct (nth_error (n_closers s) k) as [p|]; [|discriminate]. destruct (close_step s k p) as [s1|] eqn:E; [|discriminate]. cbn in H. injection H as <- <-.
    unfold close_step in E. destruct p.
    + injection E as <-. exists [Cancel], [], []. cbn [crun]. unfold cstep. rewrite Hcr. repeat split; repeat constructor.
    + injection E as <-. exists [], [CloseCall], []. cbn [crun run step]. repeat split; repeat constructor; intros k0 F;
       [unfold RingSpec.reader_wakes in F|unfold RingSpec.writer_wakes in F]; [destruct (g_r (n_ring s))|destruct (g_w (n_ring s))]; discriminate.
    + injection E as <-. exists [RawClose], [], []. cbn [crun]. unfold cstep. rewrite Hcr. repeat split; repeat constructor.
    + destruct (s_mpc (n_conn s)); try discriminate. injection E as <-. exists [], [], []. repeat split; constructor.
    + destruct (n_rd s); try discriminate. injection E as <-. exists [], [], []. repeat split; constructor.
    + discriminate.
Qed.

Lemma rb_run rs : forall g g' re, RB g -> Forall rb_label rs -> run g rs = Some (g', re) -> RB g'.
Proof.
  induction rs as [|a rs IH]; intros g g' re HB Hl H; cbn [run] in H; [injection H as <- <-; exact HB|]. inversion Hl; subst.
  destruct (step g a) as [[g1 e1]|] eqn:E; [|discriminate]. destruct (run g1 rs) as [[g2 e2]|] eqn:E2; [|discriminate]. injection H as <- <-.
  destruct (rb_step g a g1 e1 HB) as [HB1 _]; [assumption..|]. exact (IH g1 g2 e2 HB1 ltac:(assumption) E2).
Qed.
Lemma rb_new size : RB (New size).
Proof. split; [|split; exact I]. cbn. apply Forall_forall. intros x Hx. apply repeat_spec in Hx. subst. unfold is_byte. lia. Qed.

Lemma nrun_project {R} (sched : list (nlabel R)) : forall s s' e, RB (n_ring s) -> Forall nlegal sched -> nrun s sched = Some (s', e) ->
  exists cs rs re, crun (n_conn s) cs = Some (n_conn s', e) /\ Forall legal cs /\ run (n_ring s) rs = Some (n_ring s', re) /\ Forall rb_label rs /\
    read_bytes cs = RingSpec.delivered re /\ arrived sched = RingSpec.written re /\ (all_nsteps good_step s sched -> RingSpec.all_steps RingSpec.good_wake (n_ring s) rs).
Proof.
  induction sched as [|a sched IH]; intros s s' e HB Hl H; cbn [nrun] in H.
  - injection H as <- <-. exists [], [], []. repeat split; constructor.
  - inversion Hl as [|? ? Ha Hl']; subst. destruct (nstep s a) as [[s1 e1]|] eqn:E; [|discriminate]. destruct (nrun s1 sched) as [[s2 e2]|] eqn:E2; [|discriminate]. injection H as <- <-.
    destruct (nstep_project _ _ _ _ HB Ha E) as (c1 & r1 & re1 & P1 & P2 & P3 & P4 & P5 & P6 & P7).
    assert (HB1 : RB (n_ring s1)) by (eapply rb_run; eassumption).
    destruct (IH _ _ _ HB1 Hl' E2) as (c2 & r2 & re2 & Q1 & Q2 & Q3 & Q4 & Q5 & Q6 & Q7).
    exists (c1 ++ c2), (r1 ++ r2), (re1 ++ re2). rewrite crun_app, P1, Q1, RingSeq.run_app, P3, Q3. split; [reflexivity|]. split; [apply Forall_app; auto|]. split; [reflexivity|].
    split; [apply Forall_app; auto|]. rewrite read_bytes_app. unfold RingSpec.delivered, RingSpec.written in *. rewrite !flat_map_app. split; [congruence|].
    split; [change (a :: sched) with ([a] ++ sched); unfold arrived in *; rewrite flat_map_app; congruence|].
    intros [G1 G2]. rewrite E in G2. apply (RingSeq.all_steps_app _ _ _ _ _ _ P3). auto.
Qed.

(** Every execution of the whole connection is one of the callers and message loop
    (so that the properties of these hold for it), and one of the ring. *)
Lemma project {R} raw size cap (sched : list (nlabel R)) s evs : nexecutes raw size cap sched s evs ->
  exists cs rs re, executes raw cap cs (n_conn s) evs /\ run (New size) rs = Some (n_ring s, re) /\
    read_bytes cs = RingSpec.delivered re /\ arrived sched = RingSpec.written re /\
    (all_nsteps good_step (Connect raw size cap) sched -> RingSpec.all_steps RingSpec.good_wake (New size) rs).
Proof.
  intros [Hl H]. destruct (nrun_project sched (Connect raw size cap) s evs (rb_new size) Hl H) as (cs & rs & re & P1 & P2 & P3 & P4 & P5 & P6 & P7).
  exists cs, rs, re. repeat split; assumption.
Qed.

(** ** The reader of the ring is where the message loop is *)
Definition rl_ok (cap n : Z) (l : rlocal) : Prop := r_cap l = cap /\ r_n l = n /\ r_i l = zlen (r_out l) /\ r_i l <= cap.
Definition reading (cap n : Z) (p : rpc) : Prop :=
  match p with
  | RIdle | RCrash => False
  | RLoadStart c m | RLoadNext c m _ => c = cap /\ m = n
  | RLoop l => rl_ok cap n l /\ r_i l <= Z.max 0 n
  | REmptyRelease l | REmptyRelease_sel l | REmptyLoad l | RWait l | RWait_sel l | RGet l => rl_ok cap n l /\ r_i l < n
  | REndRelease l | REndRelease_sel l => rl_ok cap n l /\ n <= r_i l <= Z.max 0 n
  end.
Lemma reading_get cap n g l g' evs : rl_ok cap n l -> r_i l < n -> r_get g l = Some (g', evs) -> evs = [] /\ (g_r g' = RCrash \/ reading cap n (g_r g')).
Proof.
  intros (H1 & H2 & H3 & H4) Hn H. unfold r_get in H. destruct (index _ _) as [b|]; [|injection H as <- <-; split; [reflexivity|left; reflexivity]].
  destruct (Z.ltb_spec (r_i l) (r_cap l)); injection H as <- <-; (split; [reflexivity|]); [right|left; reflexivity].
  cbn [set_r g_r reading]. unfold rl_ok. cbn. rewrite zlen_app. unfold zlen at 2. cbn [length]. pose proof (zlen_nonneg (r_out l)). repeat split; try assumption; lia.
Qed.
Lemma reading_leave cap n g g' evs : reading cap n (g_r g) -> r_leave g = Some (g', evs) ->
  (evs = [] /\ reading cap n (g_r g')) \/ exists bs, evs = [ERead bs] /\ zlen bs = Z.max 0 n /\ zlen bs <= cap.
Proof.
  intros Hr H. unfold r_leave in H. destruct (g_r g); try discriminate; injection H as <- <-; cbn [set_r g_r reading] in *.
  - left. split; [reflexivity|]. exact Hr.
  - left. split; [reflexivity|]. exact Hr.
  - right. exists (r_out l). destruct Hr as ((H1 & H2 & H3 & H4) & H5). pose proof (zlen_nonneg (r_out l)). repeat split; lia.
Qed.
Lemma reading_step cap n g a g' evs : 0 <= cap -> reading cap n (g_r g) -> inside a = true -> step g a = Some (g', evs) ->
  (bytes_read evs = None /\ (g_r g' = RCrash \/ reading cap n (g_r g'))) \/ exists bs, bytes_read evs = Some bs /\ zlen bs = Z.max 0 n /\ zlen bs <= cap.
Proof.
  intros Hcap Hr Hi H.
  assert (L : forall g0 g1 e1, g_r g0 = g_r g -> r_leave g0 = Some (g1, e1) -> (e1 = [] /\ reading cap n (g_r g1)) \/ exists bs, e1 = [ERead bs] /\ zlen bs = Z.max 0 n /\ zlen bs <= cap).
  { intros g0 g1 e1 E Hl. apply (reading_leave cap n g0); [rewrite E; exact Hr|exact Hl]. }
  assert (D : forall e1 e2 : list Ring.event, (e1 = [] \/ e1 = [EWrote]) -> (e2 = [] /\ reading cap n (g_r g')) \/ (exists bs, e2 = [ERead bs] /\ zlen bs = Z.max 0 n /\ zlen bs <= cap) ->
     (bytes_read (e1 ++ e2) = None /\ (g_r g' = RCrash \/ reading cap n (g_r g'))) \/ exists bs, bytes_read (e1 ++ e2) = Some bs /\ zlen bs = Z.max 0 n /\ zlen bs <= cap).
  { intros e1 e2 He1 [[-> Q]|(bs & -> & Q)]; destruct He1 as [-> | ->]; cbn; eauto. }
  destruct a; try discriminate Hi; cbn [step] in H.
  - unfold w_step in H. rewrite <- (app_nil_r evs). apply D; [|left; split; [reflexivity|]];
    destruct (g_w g) as [ |data m|data m pos|l|l|l|l|l|l|l|l|l| ] eqn:Hw; try discriminate; try (injection H as <- <-; auto; fail).
    + destruct (w_i l <? w_n l); [destruct (index (w_data l) (w_i l)); [destruct (store (g_cells g) (w_pos l) z)|]; injection H as <- <-; auto|].
      cbn zeta in H. destruct (w_wrote l + 1 <? w_n l); injection H as <- <-; auto.
    + destruct (g_rset g); injection H as <- <-; auto.
    + destruct (g_wset g); injection H as <- <-; auto.
    + destruct (g_rset g); injection H as <- <-; auto.
    + destruct (w_i l <? w_n l); [destruct (index (w_data l) (w_i l)); [destruct (store (g_cells g) (w_pos l) z)|]; injection H as <- <-; auto|].
      cbn zeta in H. destruct (w_wrote l + 1 <? w_n l); injection H as <- <-; auto.
    + destruct (g_rset g); injection H as <- <-; auto.
    + destruct (g_wset g); injection H as <- <-; auto.
    + destruct (g_rset g); injection H as <- <-; auto.
  - unfold r_step in H. destruct (g_r g) as [ |c m|c m pos|l|l|l|l|l|l|l|l|l| ] eqn:Er; try discriminate; cbn [reading] in Hr.
    + injection H as <- <-. left. split; [reflexivity|]. right. exact Hr.
    + injection H as <- <-. left. split; [reflexivity|]. right. cbn [set_r g_r reading]. unfold rl_ok. cbn. destruct Hr as [-> ->]. unfold zlen. cbn. repeat split; lia.
    + destruct Hr as [Ho Hr]. pose proof Ho as (H1 & H2 & H3 & H4). destruct (Z.ltb_spec (r_i l) (r_n l)).
      * destruct (r_pos l =? r_next l).
        -- injection H as <- <-. left. split; [reflexivity|]. right. cbn [set_r g_r]. destruct (0 <? r_read l); cbn [reading]; split; try assumption; lia.
        -- destruct (reading_get cap n g l g' evs Ho ltac:(lia) H) as [-> Q]. left. auto.
      * cbn zeta in H. destruct (0 <? r_read l); injection H as <- <-.
        -- left. split; [reflexivity|]. right. cbn [set_r g_r reading]. split; [assumption|lia].
        -- right. exists (r_out l). pose proof (zlen_nonneg (r_out l)). repeat split; lia.
    + destruct (g_wset g); injection H as <- <-; left; (split; [reflexivity|]); right; exact Hr.
    + injection H as <- <-. left. split; [reflexivity|]. right. cbn [set_r g_r]. destruct (_ =? _); exact Hr.
    + destruct (g_rset g); injection H as <- <-; left; (split; [reflexivity|]); right; exact Hr.
    + destruct (reading_get cap n g l g' evs (proj1 Hr) (proj2 Hr) H) as [-> Q]. left. auto.
    + destruct (g_wset g); injection H as <- <-.
      * left. split; [reflexivity|]. right. exact Hr.
      * right. exists (r_out l). destruct Hr as ((H1 & H2 & H3 & H4) & H5). pose proof (zlen_nonneg (r_out l)). repeat split; lia.
  - destruct (r_waiting (g_r g) && w_releasing (g_w g)); [|discriminate]. unfold leave_both in H. destruct (w_leave g) as [[g1 e1]|] eqn:E1; [|discriminate].
    destruct (r_leave g1) as [[g2 e2]|] eqn:E2; [|discriminate]. injection H as <- <-. apply D.
    + unfold w_leave in E1. destruct (g_w g); try discriminate; injection E1 as <- <-; auto.
    + apply (L g1); [|exact E2]. unfold w_leave in E1. destruct (g_w g); try discriminate; injection E1 as <- <-; reflexivity.
  - destruct (w_waiting (g_w g) && r_releasing (g_r g)); [|discriminate]. unfold leave_both in H. destruct (w_leave g) as [[g1 e1]|] eqn:E1; [|discriminate].
    destruct (r_leave g1) as [[g2 e2]|] eqn:E2; [|discriminate]. injection H as <- <-. apply D.
    + unfold w_leave in E1. destruct (g_w g); try discriminate; injection E1 as <- <-; auto.
    + apply (L g1); [|exact E2]. unfold w_leave in E1. destruct (g_w g); try discriminate; injection E1 as <- <-; reflexivity.
  - destruct (g_closed g); [|discriminate]. rewrite <- (app_nil_r evs). apply D.
    + unfold w_leave in H. destruct (g_w g); try discriminate; injection H as <- <-; auto.
    + left. split; [reflexivity|]. unfold w_leave in H. destruct (g_w g); try discriminate; injection H as <- <-; exact Hr.
  - destruct (g_closed g); [|discriminate]. apply (D [] evs); [auto|]. apply (L g); [reflexivity|exact H].
Qed.

(** ** The invariant of the whole connection *)
Definition n_at (cap : Z) (m : mpc) (p : rpc) : Prop :=
  match m with MHead => reading cap 4 p | MBody n => reading cap n p | _ => p = RIdle end.
Record NInv {R} (cap : Z) (s : client R) : Prop := mkNInv {
  n_cap : s_cap (n_conn s) = cap;
  n_reader : n_at cap (s_mpc (n_conn s)) (g_r (n_ring s));
  n_writer : n_rd s = RdWrite <-> g_w (n_ring s) <> WIdle }.

Lemma cstep_cap {R} (s s' : conn R) a e : legal a -> cstep s a = Some (s', e) -> s_cap s' = s_cap s.
Proof. intros Hl H. destruct (cstep_trans _ _ _ _ Hl H) as [_ T]. destruct T; reflexivity. Qed.
Lemma cstep_mpc {R} (s s' : conn R) a e : cstep s a = Some (s', e) ->
  match a with
  | MStep => match s_mpc s with MHead | MBody _ => False | _ => True end /\ match s_mpc s' with MBody _ => False | _ => True end
  | MRead _ => True
  | _ => s_mpc s' = s_mpc s
  end.
Proof.
  intros H. unfold cstep in H. destruct (s_crashed s); [discriminate|]. destruct a as [enc dec|k| |bs| | |].
  - injection H as <- <-. reflexivity.
  - destruct (nth_error (s_calls s) k) as [c|] eqn:Ek; [|discriminate]. unfold call_step in H.
    destruct (k_pc c) as [ | | |[|p pieces] err b fl|[x|]| |r] eqn:Ep; try discriminate; try (injection H as <- <-; reflexivity).
    + destruct (s_lock s) eqn:El; [discriminate|]. destruct (transmit _ _ _ _) as [[err b] fl] eqn:Et. injection H as <- <-. reflexivity.
    + destruct (k_reply c) as [r|] eqn:Er; [|discriminate]. injection H as <- <-. reflexivity.
  - unfold loop_step in H. destruct (s_mpc s) as [ | |size|id d|k d|] eqn:Em; try discriminate; (split; [exact I|]).
    + injection H as <- <-. cbn. destruct (s_closed s); exact I.
    + destruct (s_requests s id) as [k|] eqn:Er; injection H as <- <-; exact I.
    + destruct (nth_error (s_calls s) k) as [c|] eqn:Ek; [|discriminate].
      destruct (k_dec c d) as [r d'|x d'|] eqn:Ed; [destruct (k_reply c); [discriminate|]..|]; injection H as <- <-; cbn; try exact I. rewrite Em. exact I.
  - exact I.
  - destruct (s_mpc s) eqn:Em; try discriminate. destruct (s_cap s <? size); [|discriminate]. injection H as <- <-. exact Em.
  - injection H as <- <-. reflexivity.
  - injection H as <- <-. reflexivity.
Qed.
Lemma mread_legal_free {R} (s s' : conn R) bs e : cstep s (MRead bs) = Some (s', e) -> s_cap s' = s_cap s /\ match s_mpc s' with MHead => s_mpc s = MHead | _ => True end.
Proof.
  intros H. unfold cstep in H. destruct (s_crashed s); [discriminate|]. unfold loop_read in H. destruct (s_mpc s) as [ | |size|id d|k d|] eqn:Em; try discriminate.
  - destruct (zlen bs =? 4); [|discriminate]. cbn zeta in H. destruct (dInt32 _); injection H as <- <-; cbn; try (split; [reflexivity|exact I]). rewrite Em. auto.
  - destruct (_ && _); [|discriminate]. cbn zeta in H. destruct (ResponseHeader_Decode _ _ _); injection H as <- <-; cbn; try (split; [reflexivity|exact I]). rewrite Em. auto.
Qed.

Lemma call_readn_at {R} (c : conn R) g g' : g_r g = RIdle -> call_readn c g = Some g' ->
  n_at (s_cap c) (s_mpc c) (g_r g') /\ g_w g' = g_w g.
Proof.
  intros Hr H. unfold call_readn in H. cbn [step] in H. rewrite Hr in H. unfold n_at. destruct (s_mpc c); cbn in H; injection H as <-; cbn; auto.
Qed.
Lemma call_readn_some {R} (c : conn R) g : g_r g = RIdle -> call_readn c g <> None.
Proof. intros Hr. unfold call_readn. cbn [step]. rewrite Hr. destruct (s_mpc c); discriminate. Qed.

Lemma inside_writer g b g' evs : step g b = Some (g', evs) -> inside b = true ->
  (wrote evs = true -> g_w g' = WIdle) /\ (wrote evs = false -> (g_w g' = WIdle <-> g_w g = WIdle)).
Proof.
  intros H Hi.
  assert (WL : forall g1 e1, w_leave g = Some (g1, e1) -> g_w g <> WIdle /\ ((e1 = [] /\ g_w g1 <> WIdle) \/ (e1 = [EWrote] /\ g_w g1 = WIdle))).
  { intros g1 e1 E. unfold w_leave in E. destruct (g_w g); try discriminate; injection E as <- <-; cbn; (split; [discriminate|]); try (right; auto; fail); left; split; try reflexivity; discriminate. }
  assert (RL : forall g0 g1 e1, r_leave g0 = Some (g1, e1) -> wrote e1 = false /\ g_w g1 = g_w g0).
  { intros g0 g1 e1 E. unfold r_leave in E. destruct (g_r g0); try discriminate; injection E as <- <-; auto. }
  assert (Both : leave_both g = Some (g', evs) -> (wrote evs = true -> g_w g' = WIdle) /\ (wrote evs = false -> (g_w g' = WIdle <-> g_w g = WIdle))).
  { unfold leave_both. destruct (w_leave g) as [[g1 e1]|] eqn:E1; [|discriminate]. destruct (r_leave g1) as [[g2 e2]|] eqn:E2; [|discriminate]. intros F. injection F as <- <-.
    destruct (RL _ _ _ E2) as [V1 V2]. destruct (WL _ _ eq_refl) as [V3 [[-> V4]|[-> V4]]]; cbn [app]; rewrite V2.
    - split; [congruence|]. intros _. tauto.
    - split; [auto|]. discriminate. }
  destruct b; try discriminate Hi; cbn [step] in H.
  - unfold w_step in H. destruct (g_w g) as [ |data m|data m pos|l|l|l|l|l|l|l|l|l| ] eqn:Hw; try discriminate; try (injection H as <- <-; cbn; split; [discriminate|]; intros _; split; discriminate).
    + destruct (w_i l <? w_n l).
      * destruct (index (w_data l) (w_i l)); [destruct (store (g_cells g) (w_pos l) z)|]; injection H as <- <-; cbn; (split; [discriminate|]); intros _; split; try discriminate. destruct (_ =? _); discriminate.
      * cbn zeta in H. destruct (w_wrote l + 1 <? w_n l); injection H as <- <-; cbn; (split; [auto; discriminate|]); intros F; try discriminate. split; discriminate.
    + destruct (g_rset g); injection H as <- <-; cbn; (split; [discriminate|]); intros _; split; discriminate.
    + injection H as <- <-. cbn. split; [discriminate|]. intros _. split; [|discriminate]. destruct (_ =? _); discriminate.
    + destruct (g_wset g); injection H as <- <-; cbn; (split; [discriminate|]); intros _; split; discriminate.
    + destruct (g_rset g); injection H as <- <-; cbn; (split; [auto; discriminate|]); intros F; try discriminate. split; discriminate.
  - assert (G : wrote evs = false /\ g_w g' = g_w g).
    { assert (RG : forall l, r_get g l = Some (g', evs) -> wrote evs = false /\ g_w g' = g_w g).
      { intros l E. unfold r_get in E. destruct (index _ _); [destruct (_ <? _)|]; injection E as <- <-; auto. }
      unfold r_step in H. destruct (g_r g) as [ |c m|c m pos|l|l|l|l|l|l|l|l|l| ] eqn:Er; try discriminate; try (injection H as <- <-; auto; fail).
      - destruct (r_i l <? r_n l); [destruct (r_pos l =? r_next l); [injection H as <- <-; auto|apply (RG l H)]|]. cbn zeta in H. destruct (0 <? r_read l); injection H as <- <-; auto.
      - destruct (g_wset g); injection H as <- <-; auto.
      - destruct (g_rset g); injection H as <- <-; auto.
      - apply (RG l H).
      - destruct (g_wset g); injection H as <- <-; auto. }
    destruct G as [-> ->]. split; [discriminate|tauto].
  - destruct (_ && _); [|discriminate]. apply Both, H.
  - destruct (_ && _); [|discriminate]. apply Both, H.
  - destruct (g_closed g); [|discriminate]. destruct (WL _ _ H) as [V3 [[-> V4]|[-> V4]]]; cbn; split; auto; try discriminate. intros _. tauto.
  - destruct (g_closed g); [|discriminate]. destruct (RL _ _ _ H) as [-> ->]. split; [discriminate|tauto].
Qed.
Lemma idle_reader_step g b g' evs : g_r g = RIdle -> inside b = true -> step g b = Some (g', evs) -> g_r g' = RIdle /\ bytes_read evs = None.
Proof.
  intros Hr Hi H. destruct b; try discriminate Hi; cbn [step] in H.
  - unfold w_step in H. destruct (g_w g) as [ |data m|data m pos|l|l|l|l|l|l|l|l|l| ] eqn:Hw; try discriminate; try (injection H as <- <-; cbn; auto; fail).
    + destruct (w_i l <? w_n l); [destruct (index (w_data l) (w_i l)); [destruct (store (g_cells g) (w_pos l) z)|]; injection H as <- <-; auto|].
      cbn zeta in H. destruct (w_wrote l + 1 <? w_n l); injection H as <- <-; auto.
    + destruct (g_rset g); injection H as <- <-; auto.
    + destruct (g_wset g); injection H as <- <-; auto.
    + destruct (g_rset g); injection H as <- <-; auto.
  - unfold r_step in H. rewrite Hr in H. discriminate.
  - rewrite Hr in H. discriminate.
  - rewrite Hr, andb_comm in H. discriminate.
  - destruct (g_closed g); [|discriminate]. unfold w_leave in H. destruct (g_w g); try discriminate; injection H as <- <-; auto.
  - unfold r_leave in H. rewrite Hr in H. destruct (g_closed g); discriminate.
Qed.
