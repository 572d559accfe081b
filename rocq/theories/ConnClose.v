(** * Close comes to an end *)
From Verif Require Import GoBase GoLemmas Encoder Decoder Spec EncProofs BufIO Msg01 Conn ConnSpec ConnProofs ConnProps ConnFrames ConnRing ConnRingSpec ConnRingProofs ConnRingProps.
From Verif Require Ring RingSpec RingProofs RingProps RingSeq.
Local Open Scope Z_scope.
Ltac Zify.zify_post_hook ::= idtac.
Import Ring.

(** The first three lines of Close have been executed by somebody. *)
Definition closing {R} (s : client R) : Prop := s_closed (n_conn s) = true /\ g_closed (n_ring s) = true /\ s_rawclosed (n_conn s) = true.
(** A move of one of the two goroutines of the connection. *)
Definition moves {R} (a : nlabel R) : bool := match a with LLoop | LRing _ | LNet _ | LNetErr _ => true | _ => false end.
Fixpoint ncount {R} (sched : list (nlabel R)) : Z := match sched with [] => 0 | a :: rest => RingProps.b2z (moves a) + ncount rest end.
Definition finished {R} (s : client R) : Prop := s_mpc (n_conn s) = MDone /\ n_rd s = RdDone.
Definition dead {R} (s : client R) : Prop := n_dead s = true \/ s_crashed (n_conn s) = true.

Definition loop_left (m : mpc) (rl : Z) : Z :=
  match m with MDone => 0 | MTop => 1 | MReply _ _ => 2 | MLookup _ _ => 3 | MBody _ => rl + 4 | MHead => rl + 7 * 2 ^ 31 + 10 end.
Definition moves_left {R} (s : client R) : Z :=
  loop_left (s_mpc (n_conn s)) (RingProps.r_left (g_r (n_ring s))) + RingProps.w_left (g_w (n_ring s)) +
  match n_rd s with RdRead => 1 | RdWrite => 2 | RdDone => 0 end.
Lemma moves_left_nonneg {R} (s : client R) : 0 <= moves_left s.
Proof.
  unfold moves_left, loop_left. pose proof (RingProps.r_left_nonneg (g_r (n_ring s))). pose proof (RingProps.w_left_nonneg (g_w (n_ring s))).
  destruct (s_mpc (n_conn s)), (n_rd s); lia.
Qed.

Lemma cstep_flags {R} (s s' : conn R) a e : cstep s a = Some (s', e) -> (s_closed s = true -> s_closed s' = true) /\ (s_rawclosed s = true -> s_rawclosed s' = true).
Proof.
  intros H. unfold cstep in H. destruct (s_crashed s); [discriminate|]. destruct a as [enc dec|k| |bs| | |].
  - injection H as <- <-. split; auto.
  - destruct (nth_error (s_calls s) k) as [c|] eqn:Ek; [|discriminate]. unfold call_step in H.
    destruct (k_pc c) as [ | | |[|p pieces] err b fl|[x|]| |r] eqn:Ep; try discriminate; try (injection H as <- <-; split; auto; fail).
    + destruct (s_lock s) eqn:El; [discriminate|]. destruct (transmit _ _ _ _) as [[err b] fl] eqn:Et. injection H as <- <-. split; auto.
    + destruct (k_reply c); [|discriminate]. injection H as <- <-. split; auto.
  - unfold loop_step in H. destruct (s_mpc s) as [ | |size|id d|k d|]; try discriminate.
    + injection H as <- <-. split; auto.
    + destruct (s_requests s id); injection H as <- <-; split; auto.
    + destruct (nth_error (s_calls s) k) as [c|]; [|discriminate]. destruct (k_dec c d); [destruct (k_reply c); [discriminate|]|destruct (k_reply c); [discriminate|]|]; injection H as <- <-; split; auto.
  - unfold loop_read in H. destruct (s_mpc s); try discriminate.
    + destruct (zlen bs =? 4); [|discriminate]. cbn zeta in H. destruct (dInt32 _); injection H as <- <-; split; auto.
    + destruct (_ && _); [|discriminate]. cbn zeta in H. destruct (ResponseHeader_Decode _ _ _); injection H as <- <-; split; auto.
  - destruct (s_mpc s); try discriminate. destruct (_ <? _); [|discriminate]. injection H as <- <-. split; auto.
  - injection H as <- <-. split; auto.
  - injection H as <- <-. split; auto.
Qed.
Lemma call_readn_closed {R} (c : conn R) g g' : call_readn c g = Some g' -> g_closed g = true -> g_closed g' = true.
Proof.
  unfold call_readn. intros H Hc. destruct (s_mpc c); try (injection H as <-; exact Hc); cbn [step] in H; destruct (g_r g); try discriminate; injection H as <-; exact Hc.
Qed.
Lemma closing_step {R} (s s' : client R) a e : closing s -> nstep s a = Some (s', e) -> closing s'.
Proof.
  intros (C1 & C2 & C3) H. unfold nstep in H. destruct (n_dead s || s_crashed (n_conn s)); [discriminate|]. unfold closing.
  assert (CS : forall b c1 e1, cstep (n_conn s) b = Some (c1, e1) -> s_closed c1 = true /\ s_rawclosed c1 = true).
  { intros b c1 e1 E. destruct (cstep_flags _ _ _ _ E). auto. }
  destruct a as [enc dec|k| |b|bs|bs| |k].
  - destruct (cstep (n_conn s) (DoCall enc dec)) as [[c1 e1]|] eqn:E; [|discriminate]. injection H as <- <-. destruct (CS _ _ _ E). auto.
  - destruct (cstep (n_conn s) (CStep k)) as [[c1 e1]|] eqn:E; [|discriminate]. injection H as <- <-. destruct (CS _ _ _ E). auto.
  - destruct (cstep (n_conn s) MStep) as [[c1 e1]|] eqn:E; [|discriminate]. destruct (call_readn c1 (n_ring s)) as [g1|] eqn:Eg; [|discriminate]. injection H as <- <-.
    destruct (CS _ _ _ E). pose proof (call_readn_closed _ _ _ Eg C2). auto.
  - destruct (inside b) eqn:Eb; [|discriminate]. destruct (step (n_ring s) b) as [[g1 evs]|] eqn:E; [|discriminate]. cbn zeta in H.
    pose proof (RingProps.closed_mono _ _ _ _ E C2) as C2'. destruct (bytes_read evs) as [bs|]; [|injection H as <- <-; auto].
    destruct (cstep (n_conn s) (MRead bs)) as [[c1 e1]|] eqn:Ec; [|discriminate]. destruct (call_readn c1 g1) as [g2|] eqn:Eg; [|discriminate]. injection H as <- <-.
    destruct (CS _ _ _ Ec). pose proof (call_readn_closed _ _ _ Eg C2'). auto.
  - destruct (n_rd s); try discriminate. rewrite C3 in H. discriminate.
  - destruct (n_rd s); try discriminate. injection H as <- <-. auto.
  - injection H as <- <-. auto.
  - destruct (nth_error (n_closers s) k) as [p|]; [|discriminate]. destruct (close_step s k p) as [s1|] eqn:E; [|discriminate]. cbn in H. injection H as <- <-.
    unfold close_step in E. destruct p; try (cbn [step] in E); try (injection E as <-; cbn; auto; fail).
    + destruct (s_mpc (n_conn s)); try discriminate. injection E as <-. auto.
    + destruct (n_rd s); try discriminate. injection E as <-. auto.
    + discriminate.
Qed.

Lemma wrote_moves g b g' evs : step g b = Some (g', evs) -> inside b = true -> wrote evs = true -> RingSpec.w_moves b = true.
Proof.
  intros H Hi Hw. destruct b; try discriminate Hi; try reflexivity; exfalso; cbn [step] in H.
  - unfold r_step, r_get in H. destruct (g_r g); try discriminate.
    all: repeat match type of H with context [match ?x with _ => _ end] => destruct x; try discriminate end; injection H as <- <-; discriminate.
  - destruct (g_closed g); [|discriminate]. unfold r_leave in H. destruct (g_r g); try discriminate; injection H as <- <-; discriminate.
Qed.
Lemma moves_step {R} cap (s s' : client R) a e : 0 <= cap -> NInv cap s -> closing s -> nstep s a = Some (s', e) ->
  (forall size, s_mpc (n_conn s') = MBody size -> is_int32 size) -> s_crashed (n_conn s') = false -> moves_left s' + RingProps.b2z (moves a) <= moves_left s.
Proof.
  intros Hcap [I1 I2 I3] (C1 & C2 & C3) H Hb32 Hcr'. unfold nstep in H. destruct (n_dead s || s_crashed (n_conn s)) eqn:Hd; [discriminate|]. apply orb_false_iff in Hd. destruct Hd as [Hd Hcr].
  destruct a as [enc dec|k| |b|bs|bs| |k]; cbn [moves RingProps.b2z].
  - destruct (cstep (n_conn s) (DoCall enc dec)) as [[c1 e1]|] eqn:E; [|discriminate]. injection H as <- <-. unfold moves_left. cbn [n_conn n_ring n_rd]. rewrite (cstep_mpc _ _ _ _ E). lia.
  - destruct (cstep (n_conn s) (CStep k)) as [[c1 e1]|] eqn:E; [|discriminate]. injection H as <- <-. unfold moves_left. cbn [n_conn n_ring n_rd]. rewrite (cstep_mpc _ _ _ _ E). lia.
  - destruct (cstep (n_conn s) MStep) as [[c1 e1]|] eqn:E; [|discriminate]. destruct (call_readn c1 (n_ring s)) as [g1|] eqn:Eg; [|discriminate]. injection H as <- <-.
    assert (G : loop_left (s_mpc c1) 0 + 1 <= loop_left (s_mpc (n_conn s)) 0 /\ match s_mpc c1 with MHead | MBody _ => False | _ => True end).
    { unfold cstep in E. rewrite Hcr in E. unfold loop_step in E. destruct (s_mpc (n_conn s)) as [ | |size|id d|k d|] eqn:Em; try discriminate.
      - injection E as <- <-. cbn [s_mpc set_mpc]. rewrite C1. cbn. split; [lia|exact I].
      - destruct (s_requests (n_conn s) id); injection E as <- <-; cbn; (split; [lia|exact I]).
      - destruct (nth_error (s_calls (n_conn s)) k) as [c|]; [|discriminate].
        destruct (k_dec c d); [destruct (k_reply c); [discriminate|]|destruct (k_reply c); [discriminate|]|]; injection E as <- <-; try (cbn; split; [lia|exact I]). discriminate. }
    unfold moves_left. cbn [n_conn n_ring n_rd]. destruct G as [G1 G2].
    assert (g1 = n_ring s) by (unfold call_readn in Eg; destruct (s_mpc c1); try contradiction; congruence). subst g1.
    destruct (s_mpc c1), (s_mpc (n_conn s)); try contradiction; cbn [loop_left] in *; try lia; pose proof (RingProps.r_left_nonneg (g_r (n_ring s))); lia.
  - destruct (inside b) eqn:Eb; [|discriminate]. destruct (step (n_ring s) b) as [[g1 evs]|] eqn:E; [|discriminate]. cbn zeta in H.
    destruct (inside_writer _ _ _ _ E Eb) as [W1 W2]. destruct (RingProps.left_step _ _ _ _ E) as [L1 L2].
    assert (L1' : RingProps.w_left (g_w g1) + RingProps.b2z (RingSpec.w_moves b) <= RingProps.w_left (g_w (n_ring s))) by (destruct b; try discriminate Eb; exact L1).
    assert (L2' : RingProps.r_left (g_r g1) + RingProps.b2z (RingSpec.r_moves b) <= RingProps.r_left (g_r (n_ring s))) by (destruct b; try discriminate Eb; exact L2). clear L1 L2.
    assert (Lb : RingProps.b2z (RingSpec.w_moves b) + RingProps.b2z (RingSpec.r_moves b) >= 1 /\ 0 <= RingProps.b2z (RingSpec.w_moves b) /\ 0 <= RingProps.b2z (RingSpec.r_moves b)) by (destruct b; try discriminate Eb; cbn; lia).
    set (rd := if wrote evs then RdRead else n_rd s) in *.
    assert (Lr : match rd with RdRead => 1 | RdWrite => 2 | RdDone => 0 end <= match n_rd s with RdRead => 1 | RdWrite => 2 | RdDone => 0 end).
    { unfold rd. destruct (wrote evs) eqn:Ew; [|lia]. assert (n_rd s = RdWrite); [|rewrite H0; lia]. apply I3. intros F.
      rewrite F in L1'. cbn [RingProps.w_left] in L1'. rewrite (wrote_moves _ _ _ _ E Eb Ew) in L1'. pose proof (RingProps.w_left_nonneg (g_w g1)). cbn in L1'. lia. }
    destruct (bytes_read evs) as [bs|] eqn:Er.
    + destruct (cstep (n_conn s) (MRead bs)) as [[c1 e1]|] eqn:Ec; [|discriminate]. destruct (call_readn c1 g1) as [g2|] eqn:Eg; [|discriminate]. injection H as <- <-.
      assert (Hr : g_r g1 = RIdle). { destruct (step_events _ _ _ _ E Eb) as [_ [(Q & _)|(bs' & _ & _ & _ & Q)]]; [congruence|exact Q]. }
      destruct (call_readn_at _ _ _ Hr Eg) as [Q3 Q4]. cbn [n_conn] in Hb32.
      assert (LL : loop_left (s_mpc c1) (RingProps.r_left (g_r g2)) + 1 <= loop_left (s_mpc (n_conn s)) (RingProps.r_left (g_r (n_ring s)))).
      { pose proof (RingProps.r_left_nonneg (g_r (n_ring s))) as Nr. unfold cstep in Ec. rewrite Hcr in Ec. unfold loop_read in Ec. destruct (s_mpc (n_conn s)) as [ | |n|id d|k d|] eqn:Em; try discriminate.
        - destruct (zlen bs =? 4); [|discriminate]. cbn zeta in Ec.
          assert (B : forall v, s_mpc c1 = MBody v -> loop_left (s_mpc c1) (RingProps.r_left (g_r g2)) + 1 <= loop_left MHead (RingProps.r_left (g_r (n_ring s)))).
          { intros v Ev. pose proof (Hb32 v Ev) as Hv. unfold call_readn in Eg. rewrite Ev in *. cbn [step] in Eg. rewrite Hr in Eg. cbn in Eg. injection Eg as <-. cbn [loop_left RingProps.r_left g_r set_r]. unfold is_int32 in *. lia. }
          destruct (dInt32 _) as [v ?|? ?|]; injection Ec as <- <-; [apply (B v); reflexivity|apply (B 0); reflexivity|].
          discriminate.
        - destruct (_ && _); [|discriminate]. cbn zeta in Ec. destruct (ResponseHeader_Decode _ _ _); injection Ec as <- <-; cbn [loop_left s_mpc set_mpc set_rbuf]; try lia; discriminate. }
      unfold moves_left. cbn [n_conn n_ring n_rd]. rewrite Q4. lia.
    + injection H as <- <-. unfold moves_left. cbn [n_conn n_ring n_rd].
      assert (LL : loop_left (s_mpc (n_conn s)) (RingProps.r_left (g_r g1)) + RingProps.b2z (RingSpec.r_moves b) <= loop_left (s_mpc (n_conn s)) (RingProps.r_left (g_r (n_ring s)))).
      { unfold n_at in I2. destruct (s_mpc (n_conn s)); cbn [loop_left]; try lia; rewrite I2 in L2'; cbn [RingProps.r_left] in L2'; pose proof (RingProps.r_left_nonneg (g_r g1)); lia. }
      lia.
  - destruct (n_rd s); try discriminate. rewrite C3 in H. discriminate.
  - destruct (n_rd s) eqn:Erd; try discriminate. injection H as <- <-. unfold moves_left. cbn [n_conn n_ring n_rd]. rewrite Erd. lia.
  - injection H as <- <-. unfold moves_left. cbn [n_conn n_ring n_rd]. lia.
  - destruct (nth_error (n_closers s) k) as [p|]; [|discriminate]. destruct (close_step s k p) as [s1|] eqn:E; [|discriminate]. cbn in H. injection H as <- <-.
    unfold close_step in E. destruct p; cbn [step] in E; try (injection E as <-; unfold moves_left; cbn; lia).
    + destruct (s_mpc (n_conn s)) eqn:Em; try discriminate. injection E as <-. unfold moves_left. cbn. rewrite ?Em. lia.
    + destruct (n_rd s) eqn:Erd; try discriminate. injection E as <-. unfold moves_left. cbn. rewrite ?Erd. lia.
    + discriminate.
Qed.

Lemma nexecutes_app {R} raw size cap (s0 s1 : list (nlabel R)) s evs s' evs' : nexecutes raw size cap s0 s evs -> Forall nlegal s1 -> nrun s s1 = Some (s', evs') -> nexecutes raw size cap (s0 ++ s1) s' (evs ++ evs').
Proof.
  intros [Hl H] Hl1 H1. split; [apply Forall_app; auto|]. revert H. generalize (Connect (R := R) raw size cap). revert s evs H1.
  clear Hl. induction s0 as [|a s0 IH]; intros s evs H1 c H; cbn [nrun app] in *; [injection H as <- <-; exact H1|].
  destruct (nstep c a) as [[c1 e1]|]; [|discriminate]. destruct (nrun c1 s0) as [[c2 e2]|] eqn:E2; [|discriminate]. injection H as <- <-.
  rewrite (IH _ _ H1 _ E2), <- app_assoc. reflexivity.
Qed.
Lemma crashed_stops {R} (s : client R) a : dead s -> nstep s a = None.
Proof. unfold dead, nstep. intros [->| ->]; [reflexivity|]. rewrite orb_true_r. reflexivity. Qed.

(** Once the first three lines of Close have been executed, the goroutines of the
    connection make at most a fixed number of moves. *)
Lemma close_bounded {R} raw size cap (sched : list (nlabel R)) s evs : 4 <= cap -> nexecutes raw size cap sched s evs -> closing s ->
  forall sched' s' evs', Forall nlegal sched' -> nrun s sched' = Some (s', evs') -> ncount sched' <= moves_left s + 1.
Proof.
  intros Hc Hx Hcl sched'. revert sched s evs Hx Hcl. induction sched' as [|a sched' IH]; intros sched s evs Hx Hcl s' evs' Hl H; [cbn; pose proof (moves_left_nonneg s); lia|].
  cbn [nrun ncount] in *. inversion Hl as [|? ? Ha Hl']; subst. destruct (nstep s a) as [[s1 e1]|] eqn:E; [|discriminate]. destruct (nrun s1 sched') as [[s2 e2]|] eqn:E2; [|discriminate]. injection H as <- <-.
  assert (Hx1 : nexecutes raw size cap (sched ++ [a]) s1 (evs ++ e1)).
  { apply (nexecutes_app _ _ _ _ _ _ _ _ _ Hx); [constructor; [exact Ha|constructor]|]. cbn [nrun]. rewrite E, app_nil_r. reflexivity. }
  destruct (s_crashed (n_conn s1)) eqn:Hcr.
  - assert (sched' = []). { destruct sched' as [|b sched']; [reflexivity|]. cbn [nrun] in E2. rewrite crashed_stops in E2 by (right; exact Hcr). discriminate. }
    subst sched'. cbn [ncount]. pose proof (moves_left_nonneg s). unfold RingProps.b2z. destruct (moves a); lia.
  - assert (Hd : n_dead s = false). { destruct (n_dead s) eqn:Hd; [|reflexivity]. rewrite dead_stops in E by exact Hd. discriminate. }
    assert (B : forall z, s_mpc (n_conn s1) = MBody z -> is_int32 z).
    { intros z Hz. destruct (project _ _ _ _ _ _ Hx1) as (cs & rs & re & P1 & _). exact (body_int32 _ _ _ _ _ _ Hc P1 Hz). }
    pose proof (moves_step cap s s1 a e1 ltac:(lia) (ninv raw size cap sched s evs ltac:(lia) Hx Hd) Hcl E B Hcr) as M.
    pose proof (IH _ _ _ Hx1 (closing_step _ _ _ _ Hcl E) _ _ Hl' E2). lia.
Qed.

Lemma call_readn_writer {R} (c : conn R) g g' : call_readn c g = Some g' -> g_w g' = g_w g.
Proof.
  unfold call_readn. intros H. destruct (s_mpc c); try (injection H as <-; reflexivity); cbn [step] in H; destruct (g_r g); try discriminate; injection H as <-; reflexivity.
Qed.
Lemma alive_step {R} (s s' : client R) a e : g_w (n_ring s) <> WCrash -> nstep s a = Some (s', e) -> n_dead s' = false -> g_w (n_ring s') <> WCrash.
Proof.
  intros Hw H Hd. unfold nstep in H. destruct (n_dead s || s_crashed (n_conn s)); [discriminate|].
  destruct a as [enc dec|k| |b|bs|bs| |k].
  - destruct (cstep (n_conn s) (DoCall enc dec)) as [[c1 e1]|] eqn:E; [|discriminate]. injection H as <- <-. exact Hw.
  - destruct (cstep (n_conn s) (CStep k)) as [[c1 e1]|] eqn:E; [|discriminate]. injection H as <- <-. exact Hw.
  - destruct (cstep (n_conn s) MStep) as [[c1 e1]|] eqn:E; [|discriminate]. destruct (call_readn c1 (n_ring s)) as [g1|] eqn:Eg; [|discriminate]. injection H as <- <-.
    cbn. rewrite (call_readn_writer _ _ _ Eg). exact Hw.
  - destruct (inside b) eqn:Eb; [|discriminate]. destruct (step (n_ring s) b) as [[g1 evs]|] eqn:E; [|discriminate]. cbn zeta in H.
    assert (G : ring_crashed g1 = false -> g_w g1 <> WCrash) by (unfold ring_crashed; intros F Q; rewrite Q in F; destruct (g_r g1); discriminate).
    destruct (bytes_read evs) as [bs|]; [|injection H as <- <-; apply G, Hd].
    destruct (cstep (n_conn s) (MRead bs)) as [[c1 e1]|] eqn:Ec; [|discriminate]. destruct (call_readn c1 g1) as [g2|] eqn:Eg; [|discriminate]. injection H as <- <-.
    cbn. rewrite (call_readn_writer _ _ _ Eg). apply G, Hd.
  - destruct (n_rd s); try discriminate. destruct (s_rawclosed (n_conn s)); [discriminate|]. cbn [step] in H. destruct (g_w (n_ring s)); try discriminate. injection H as <- <-. discriminate.
  - destruct (n_rd s); try discriminate. injection H as <- <-. exact Hw.
  - injection H as <- <-. exact Hw.
  - destruct (nth_error (n_closers s) k) as [p|]; [|discriminate]. destruct (close_step s k p) as [s1|] eqn:E; [|discriminate]. cbn in H. injection H as <- <-.
    unfold close_step in E. destruct p; cbn [step] in E; try (injection E as <-; exact Hw).
    + destruct (s_mpc (n_conn s)); try discriminate. injection E as <-. exact Hw.
    + destruct (n_rd s); try discriminate. injection E as <-. exact Hw.
    + discriminate.
Qed.
Lemma alive_writer {R} raw size cap (sched : list (nlabel R)) s evs : nexecutes raw size cap sched s evs -> n_dead s = false -> g_w (n_ring s) <> WCrash.
Proof.
  intros [_ H]. assert (Q : g_w (n_ring (Connect (R := R) raw size cap)) <> WCrash) by discriminate. revert Q H. generalize (Connect (R := R) raw size cap). revert evs.
  induction sched as [|a sched IH]; intros evs c Q H Hd; cbn [nrun] in H; [injection H as <- <-; exact Q|].
  destruct (nstep c a) as [[c1 e1]|] eqn:E; [|discriminate]. destruct (nrun c1 sched) as [[c2 e2]|] eqn:E2; [|discriminate]. injection H as <- <-.
  assert (D1 : n_dead c1 = false).
  { destruct (n_dead c1) eqn:D; [|reflexivity]. destruct sched as [|b sched]; cbn [nrun] in E2; [injection E2 as <- <-; congruence|]. rewrite (dead_stops c1 b D) in E2. discriminate. }
  exact (IH e2 c1 (alive_step _ _ _ _ Q E D1) E2 Hd).
Qed.

(** And until they have returned, one of them can move. *)
Lemma close_progress {R} raw size cap (sched : list (nlabel R)) s evs : 4 <= cap -> nexecutes raw size cap sched s evs -> closing s ->
  dead s \/ finished s \/ exists a s' e, moves a = true /\ nlegal a /\ nstep s a = Some (s', e).
Proof.
  intros Hc Hx Hcl. destruct (n_dead s) eqn:Hd; [left; left; exact Hd|]. destruct (s_crashed (n_conn s)) eqn:Hcr; [left; right; exact Hcr|]. right.
  destruct (ninv raw size cap sched s evs ltac:(lia) Hx Hd) as [I1 I2 I3]. destruct (composition_free raw size cap sched s evs Hc Hx Hd Hcr) as (F1 & F2 & _).
  destruct Hcl as (C1 & C2 & C3).
  assert (RG : forall b, inside b = true -> step (n_ring s) b <> None -> exists (a : nlabel R) s' e, moves a = true /\ nlegal a /\ nstep s a = Some (s', e)).
  { intros b Hb Hs. specialize (F1 b Hb Hs). destruct (nstep s (LRing b)) as [[s' e]|] eqn:E; [|congruence]. exists (LRing b), s', e. repeat split; auto. }
  assert (LP : cstep (n_conn s) MStep <> None -> exists (a : nlabel R) s' e, moves a = true /\ nlegal a /\ nstep s a = Some (s', e)).
  { intros Hs. specialize (F2 Hs). destruct (nstep s LLoop) as [[s' e]|] eqn:E; [|congruence]. exists LLoop, s', e. repeat split; auto. }
  destruct (project _ _ _ _ _ _ Hx) as (cs & rs & re & P1 & P2 & _). destruct (ainv _ _ _ _ _ Hc P1) as [CI _].
  assert (RD : n_rd s = RdDone \/ exists (a : nlabel R) s' e, moves a = true /\ nlegal a /\ nstep s a = Some (s', e)).
  { destruct (n_rd s) eqn:Erd; [| |left; reflexivity]; right.
    - exists (LNetErr []). unfold nstep. rewrite Hd, Hcr, Erd. cbn [orb]. eexists. eexists. repeat split.
    - destruct (RingProps.closed_unblocks_writer _ C2) as [bd B]. destruct (B [] _ [] eq_refl (Forall_nil _)) as [_ [Q|[Q|[Q|Q]]]].
      + exfalso. apply (proj1 I3 eq_refl). exact Q.
      + exfalso. exact (alive_writer _ _ _ _ _ _ Hx Hd Q).
      + apply (RG WStep); auto.
      + apply (RG WDone); auto. }
  destruct RD as [RD|RD]; [|right; exact RD].
  assert (RR : forall n, reading cap n (g_r (n_ring s)) -> exists (a : nlabel R) s' e, moves a = true /\ nlegal a /\ nstep s a = Some (s', e)).
  { intros n Hn. destruct (RingProps.closed_unblocks_reader _ C2) as [bd B]. destruct (B [] _ [] eq_refl (Forall_nil _)) as [_ [Q|[Q|[Q|Q]]]].
    - rewrite Q in Hn. destruct Hn.
    - rewrite Q in Hn. destruct Hn.
    - apply (RG RStep); auto.
    - apply (RG RDone); auto. }
  unfold n_at in I2. destruct (s_mpc (n_conn s)) as [ | |n|id d|k d|] eqn:Em.
  - right. apply LP. unfold cstep, loop_step. rewrite Hcr, Em. discriminate.
  - right. exact (RR _ I2).
  - right. exact (RR _ I2).
  - right. apply LP. unfold cstep, loop_step. rewrite Hcr, Em. destruct (s_requests (n_conn s) id); discriminate.
  - right. apply LP. unfold cstep, loop_step. rewrite Hcr, Em. destruct (i_mreply _ _ _ CI _ _ Em) as (M1 & _ & id & rw & sz & M3 & _). pose proof (i_view _ _ _ CI k) as Vk.
    destruct (nth_error (s_calls (n_conn s)) k) as [c|] eqn:Ek; [|destruct Vk as (V1 & _); rewrite M3 in V1; discriminate].
    pose proof (v_reply _ _ _ Vk) as Vr. rewrite M1 in Vr.
    assert (Hrep : k_reply c = None). { destruct (k_reply c); [|reflexivity]. exfalso. destruct (k_pc c) as [ | | | | | |[x|r0]]; discriminate Vr. }
    rewrite Hrep. destruct (k_dec c d); discriminate.
  - left. split; assumption.
Qed.


(** When both have returned, a call of Close can go on to its end. *)
Lemma close_returns {R} (s : client R) k p : ~ dead s -> closing s -> finished s -> nth_error (n_closers s) k = Some p ->
  exists n s' evs', nrun s (repeat (LCloser k) n) = Some (s', evs') /\ nth_error (n_closers s') k = Some KReturned /\ evs' = [].
Proof.
  intros Hnd Hcl Hf Hk.
  assert (SET : forall (l : list clpc) j x y, nth_error l j = Some x -> nth_error (set_nth l j y) j = Some y).
  { induction l as [|z l IH]; intros [|j] x y E; try discriminate; cbn in *; [reflexivity|eauto]. }
  assert (LEN : exists m, (match p with KCancel => 5 | KRing => 4 | KRaw => 3 | KMessage => 2 | KRead => 1 | KReturned => 0 end = m)%nat) by eauto.
  destruct LEN as [m Hm]. revert s p Hnd Hcl Hf Hk Hm. induction m as [|m IH]; intros s p Hnd Hcl Hf Hk Hm.
  - exists 0%nat, s, []. destruct p; try discriminate. auto.
  - assert (ST : exists s1 p1, nstep s (LCloser k) = Some (s1, []) /\ nth_error (n_closers s1) k = Some p1 /\ ~ dead s1 /\ finished s1 /\
      (match p1 with KCancel => 5 | KRing => 4 | KRaw => 3 | KMessage => 2 | KRead => 1 | KReturned => 0 end = m)%nat).
    { unfold nstep. assert (E : n_dead s || s_crashed (n_conn s) = false). { destruct (n_dead s) eqn:D1; [exfalso; apply Hnd; left; exact D1|]. destruct (s_crashed (n_conn s)) eqn:D2; [exfalso; apply Hnd; right; exact D2|]. reflexivity. }
      rewrite E, Hk. unfold close_step. destruct Hf as [F1 F2]. destruct p; try discriminate; cbn [step option_map]; rewrite ?F1, ?F2; cbn [option_map].
      all: eexists; eexists; split; [reflexivity|]; cbn [n_closers]; split; [eapply SET, Hk|]; split; [exact Hnd|]; split; [split; first [assumption|reflexivity]|]; lia. }
    destruct ST as (s1 & p1 & S1 & S2 & S3 & S4 & S5). destruct (IH s1 p1 S3 (closing_step _ _ _ _ Hcl S1) S4 S2 S5) as (n & s' & evs' & Q1 & Q2 & Q3).
    exists (S n), s', evs'. cbn [repeat nrun]. rewrite S1, Q1. auto.
Qed.

(** ** Close when the header being read announces a frame larger than the buffer *)
Definition doomed {R} cap (s : client R) : Prop := exists n, s_mpc (n_conn s) = MBody n /\ cap < n.
Lemma doomed_step {R} cap (s s' : client R) a e : 0 <= cap -> NInv cap s -> doomed cap s -> nstep s a = Some (s', e) -> doomed cap s'.
Proof.
  intros Hcap [I1 I2 I3] (n & Hm & Hn) H. unfold nstep in H. destruct (n_dead s || s_crashed (n_conn s)); [discriminate|]. unfold n_at in I2. rewrite Hm in I2.
  destruct a as [enc dec|k| |b|bs|bs| |k].
  - destruct (cstep (n_conn s) (DoCall enc dec)) as [[c1 e1]|] eqn:E; [|discriminate]. injection H as <- <-. exists n. cbn. rewrite (cstep_mpc _ _ _ _ E). auto.
  - destruct (cstep (n_conn s) (CStep k)) as [[c1 e1]|] eqn:E; [|discriminate]. injection H as <- <-. exists n. cbn. rewrite (cstep_mpc _ _ _ _ E). auto.
  - destruct (cstep (n_conn s) MStep) as [[c1 e1]|] eqn:E; [|discriminate]. destruct (cstep_mpc _ _ _ _ E) as [F _]. rewrite Hm in F. destruct F.
  - destruct (inside b) eqn:Eb; [|discriminate]. destruct (step (n_ring s) b) as [[g1 evs]|] eqn:E; [|discriminate]. cbn zeta in H.
    destruct (reading_step cap n _ _ _ _ Hcap I2 Eb E) as [[Q _]|(bs & _ & Q1 & Q2)]; [|lia]. rewrite Q in H. injection H as <- <-. exists n. auto.
  - destruct (n_rd s); try discriminate. destruct (s_rawclosed (n_conn s)); [discriminate|]. destruct (step _ _) as [[g1 e1]|]; [|discriminate]. injection H as <- <-. exists n. auto.
  - destruct (n_rd s); try discriminate. injection H as <- <-. exists n. auto.
  - injection H as <- <-. exists n. auto.
  - destruct (nth_error (n_closers s) k) as [p|]; [|discriminate]. destruct (close_step s k p) as [s1|] eqn:E; [|discriminate]. cbn in H. injection H as <- <-.
    unfold close_step in E. destruct p; cbn [step] in E; try (injection E as <-; exists n; auto; fail).
    + rewrite Hm in E. discriminate.
    + destruct (n_rd s); try discriminate. injection E as <-. exists n. auto.
    + discriminate.
Qed.
Lemma doomed_for_ever {R} raw size cap (sched : list (nlabel R)) s evs : 4 <= cap -> nexecutes raw size cap sched s evs -> doomed cap s ->
  forall sched' s' evs', Forall nlegal sched' -> nrun s sched' = Some (s', evs') -> doomed cap s'.
Proof.
  intros Hc Hx Hdo sched'. revert sched s evs Hx Hdo. induction sched' as [|a sched' IH]; intros sched s evs Hx Hdo s' evs' Hl H; cbn [nrun] in H; [injection H as <- <-; exact Hdo|].
  inversion Hl as [|? ? Ha Hl']; subst. destruct (nstep s a) as [[s1 e1]|] eqn:E; [|discriminate]. destruct (nrun s1 sched') as [[s2 e2]|] eqn:E2; [|discriminate]. injection H as <- <-.
  assert (Hx1 : nexecutes raw size cap (sched ++ [a]) s1 (evs ++ e1)).
  { apply (nexecutes_app _ _ _ _ _ _ _ _ _ Hx); [constructor; [exact Ha|constructor]|]. cbn [nrun]. rewrite E, app_nil_r. reflexivity. }
  assert (Hd : n_dead s = false). { destruct (n_dead s) eqn:Hd; [|reflexivity]. rewrite dead_stops in E by exact Hd. discriminate. }
  exact (IH _ _ _ Hx1 (doomed_step cap s s1 a e1 ltac:(lia) (ninv raw size cap sched s evs ltac:(lia) Hx Hd) Hdo E) _ _ Hl' E2).
Qed.
(** The reader alone brings the process down. *)
Lemma doomed_crashes {R} raw size cap (sched : list (nlabel R)) s evs : 4 <= cap -> nexecutes raw size cap sched s evs -> g_closed (n_ring s) = true ->
  n_dead s = false -> s_crashed (n_conn s) = false -> doomed cap s ->
  exists sched' s' evs', Forall (fun a => a = LRing RStep \/ a = LRing RDone) sched' /\ nrun s sched' = Some (s', evs') /\ n_dead s' = true.
Proof.
  intros Hc Hx Hcl Hd Hcr Hdo. assert (M : exists m, (Z.to_nat (RingProps.r_left (g_r (n_ring s))) <= m)%nat) by eauto. destruct M as [m M].
  revert sched s evs Hx Hcl Hd Hcr Hdo M. induction m as [|m IH]; intros sched s evs Hx Hcl Hd Hcr Hdo M.
  all: pose proof (ninv raw size cap sched s evs ltac:(lia) Hx Hd) as NI; destruct NI as [I1 I2 I3]; destruct Hdo as (n & Hm & Hn); unfold n_at in I2; rewrite Hm in I2.
  all: destruct (composition_free raw size cap sched s evs Hc Hx Hd Hcr) as (F1 & _ & _).
  all: assert (EN : exists b, (b = RStep \/ b = RDone) /\ step (n_ring s) b <> None)
    by (destruct (RingProps.closed_unblocks_reader _ Hcl) as [bd B]; destruct (B [] _ [] eq_refl (Forall_nil _)) as [_ [Q|[Q|[Q|Q]]]];
        [rewrite Q in I2; destruct I2|rewrite Q in I2; destruct I2|exists RStep; auto|exists RDone; auto]).
  all: destruct EN as (b & Hb & EN); assert (Eb : inside b = true) by (destruct Hb; subst b; reflexivity); specialize (F1 b Eb EN).
  all: destruct (step (n_ring s) b) as [[g1 re]|] eqn:E; [|congruence].
  all: pose proof (RingProps.left_step _ _ _ _ E) as [_ L]; assert (L' : RingProps.r_left (g_r g1) + 1 <= RingProps.r_left (g_r (n_ring s))) by (destruct Hb; subst b; exact L).
  all: pose proof (RingProps.r_left_nonneg (g_r g1)) as N1; pose proof (RingProps.r_left_nonneg (g_r (n_ring s))) as N2; try lia.
  destruct (reading_step cap n _ _ _ _ ltac:(lia) I2 Eb E) as [[Q Q']|(bs & _ & Q1 & Q2)]; [|lia].
  assert (ST : nstep s (LRing b) = Some (mkClient (n_conn s) g1 (if wrote re then RdRead else n_rd s) (n_closers s) (ring_crashed g1), [])).
  { unfold nstep. rewrite Hd, Hcr. cbn [orb]. rewrite Eb, E. cbn zeta. rewrite Q. reflexivity. }
  set (s1 := mkClient (n_conn s) g1 (if wrote re then RdRead else n_rd s) (n_closers s) (ring_crashed g1)) in *.
  assert (Hlab : LRing (R := R) b = LRing RStep \/ LRing (R := R) b = LRing RDone) by (destruct Hb; subst b; auto).
  destruct (n_dead s1) eqn:D1.
  - exists [LRing b], s1, []. split; [constructor; [exact Hlab|constructor]|]. cbn [nrun]. rewrite ST. auto.
  - assert (Hx1 : nexecutes raw size cap (sched ++ [LRing b]) s1 (evs ++ [])).
    { apply (nexecutes_app _ _ _ _ _ _ _ _ _ Hx); [constructor; [exact I|constructor]|]. cbn [nrun]. rewrite ST. reflexivity. }
    destruct (IH _ s1 _ Hx1) as (sched' & s' & evs' & R1 & R2 & R3); try assumption.
    + exact (RingProps.closed_mono _ _ _ _ E Hcl).
    + exists n. auto.
    + cbn [s1 n_ring]. lia.
    + exists (LRing b :: sched'), s', evs'. split; [constructor; assumption|]. cbn [nrun]. rewrite ST, R2. auto.
Qed.

(** ** C38: after Close *)
Lemma rb_reachable {R} raw size cap (sched : list (nlabel R)) s evs : nexecutes raw size cap sched s evs -> RB (n_ring s).
Proof.
  intros [Hl H]. destruct (nrun_project sched (Connect raw size cap) s evs (rb_new size) Hl H) as (cs & rs & re & _ & _ & P3 & P4 & _).
  eapply rb_run; [apply (rb_new size)|exact P4|exact P3].
Qed.
Lemma done_for_ever {R} raw size cap (sched0 : list (nlabel R)) s evs0 k : nexecutes raw size cap sched0 s evs0 -> s_mpc (n_conn s) = MDone -> waits (n_conn s) k ->
  forall sched s' evs, Forall nlegal sched -> nrun s sched = Some (s', evs) -> returns_of k evs = [] /\ waits (n_conn s') k.
Proof.
  intros Hx Hm Hw sched s' evs Hl H. destruct (nrun_project sched s s' evs (rb_reachable _ _ _ _ _ _ Hx) Hl H) as (cs & rs & re & P1 & P2 & _).
  destruct (starved cs (n_conn s) (n_conn s') evs k P2) as [W1 W2]; try assumption; [|unfold outside; rewrite Hm; exact I|auto].
  apply Forall_forall. intros a _. left. exact Hm.
Qed.
Lemma waits_stuck {R} (s : client R) k : waits (n_conn s) k -> nstep s (LCall k) = None.
Proof.
  intros (c & W1 & W2 & W3). unfold nstep. destruct (_ || _); [reflexivity|]. unfold cstep. destruct (s_crashed (n_conn s)); [reflexivity|].
  rewrite W1. unfold call_step. rewrite W2, W3. reflexivity.
Qed.
