(** * Framing, connection loss *)
From Verif Require Import GoBase GoLemmas Encoder Decoder Spec EncProofs BufIO Msg01 Conn ConnSpec ConnProofs ConnProps ConnFrames ConnRing ConnRingSpec ConnRingProofs.
From Verif Require Ring RingSpec RingProofs RingProps RingSeq.
Local Open Scope Z_scope.
Ltac Zify.zify_post_hook ::= idtac.
Import Ring.

Lemma ninv_start {R} raw size cap : @NInv R cap (Connect raw size cap).
Proof. constructor; cbn; try reflexivity. split; [discriminate|]. intros F. exfalso. apply F. reflexivity. Qed.

Lemma ninv_step {R} cap (s s' : client R) a e : 0 <= cap -> NInv cap s -> nlegal a -> nstep s a = Some (s', e) -> n_dead s' = false -> NInv cap s'.
Proof.
  intros Hcap [I1 I2 I3] Hl H Hdead. unfold nstep in H. destruct (n_dead s || s_crashed (n_conn s)) eqn:Hd; [discriminate|]. apply orb_false_iff in Hd. destruct Hd as [Hd Hcr].
  destruct a as [enc dec|k| |b|bs|bs| |k]; cbn [nlegal] in *.
  - destruct (cstep (n_conn s) (DoCall enc dec)) as [[c1 e1]|] eqn:E; [|discriminate]. injection H as <- <-.
    constructor; cbn; [rewrite (cstep_cap _ _ (DoCall enc dec) _ Hl E); exact I1|rewrite (cstep_mpc _ _ _ _ E); exact I2|exact I3].
  - destruct (cstep (n_conn s) (CStep k)) as [[c1 e1]|] eqn:E; [|discriminate]. injection H as <- <-.
    constructor; cbn; [rewrite (cstep_cap _ _ (CStep k) _ I E); exact I1|rewrite (cstep_mpc _ _ _ _ E); exact I2|exact I3].
  - destruct (cstep (n_conn s) MStep) as [[c1 e1]|] eqn:E; [|discriminate]. destruct (call_readn c1 (n_ring s)) as [g1|] eqn:Eg; [|discriminate]. injection H as <- <-.
    destruct (cstep_mpc _ _ _ _ E) as [Q1 Q2]. assert (Hr : g_r (n_ring s) = RIdle) by (unfold n_at in I2; destruct (s_mpc (n_conn s)); try contradiction; exact I2).
    destruct (call_readn_at _ _ _ Hr Eg) as [Q3 Q4]. pose proof (cstep_cap _ _ MStep _ I E) as Q5.
    constructor; cbn; [congruence|rewrite <- I1, <- Q5; exact Q3|rewrite Q4; exact I3].
  - destruct (inside b) eqn:Eb; [|discriminate]. destruct (step (n_ring s) b) as [[g1 evs]|] eqn:E; [|discriminate]. cbn zeta in H.
    destruct (inside_writer _ _ _ _ E Eb) as [W1 W2].
    assert (W : (if wrote evs then RdRead else n_rd s) = RdWrite <-> g_w g1 <> WIdle).
    { destruct (wrote evs); [rewrite (W1 eq_refl); split; [discriminate|intros F; exfalso; apply F; reflexivity]|]. rewrite I3. specialize (W2 eq_refl). tauto. }
    destruct (bytes_read evs) as [bs|] eqn:Er.
    + destruct (cstep (n_conn s) (MRead bs)) as [[c1 e1]|] eqn:Ec; [|discriminate]. destruct (call_readn c1 g1) as [g2|] eqn:Eg; [|discriminate]. injection H as <- <-.
      assert (Hr : g_r g1 = RIdle). { destruct (step_events _ _ _ _ E Eb) as [_ [(Q & _)|(bs' & _ & _ & _ & Q)]]; [congruence|exact Q]. }
      destruct (call_readn_at _ _ _ Hr Eg) as [Q3 Q4]. destruct (mread_legal_free _ _ _ _ Ec) as [Q5 _].
      constructor; cbn; [congruence|rewrite <- I1, <- Q5; exact Q3|rewrite Q4; exact W].
    + injection H as <- <-. cbn in Hdead. constructor; cbn; [exact I1| |exact W].
      assert (G : forall n, reading cap n (g_r (n_ring s)) -> reading cap n (g_r g1)).
      { intros n Hn. destruct (reading_step cap n _ _ _ _ Hcap Hn Eb E) as [[_ [Q|Q]]|(bs & Q & _)]; [|exact Q|congruence].
        unfold ring_crashed in Hdead. rewrite Q in Hdead. discriminate. }
      unfold n_at in *. destruct (s_mpc (n_conn s)); auto; apply (idle_reader_step _ _ _ _ I2 Eb E).
  - destruct (n_rd s) eqn:Erd; try discriminate. destruct (s_rawclosed (n_conn s)); [discriminate|].
    destruct (step (n_ring s) (WCall bs (zlen bs))) as [[g1 e1]|] eqn:E; [|discriminate]. injection H as <- <-.
    cbn [step] in E. destruct (g_w (n_ring s)); try discriminate. injection E as <- <-. constructor; cbn; [exact I1|exact I2|]. split; [discriminate|reflexivity].
  - destruct (n_rd s) eqn:Erd; try discriminate. injection H as <- <-. constructor; cbn; [exact I1|exact I2|]. split; [discriminate|]. intros F. apply I3 in F. discriminate.
  - injection H as <- <-. constructor; cbn; assumption.
  - destruct (nth_error (n_closers s) k) as [p|]; [|discriminate]. destruct (close_step s k p) as [s1|] eqn:E; [|discriminate]. cbn in H. injection H as <- <-.
    unfold close_step in E. destruct p; try (injection E as <-; constructor; cbn; assumption).
    + destruct (s_mpc (n_conn s)) eqn:Em; try discriminate. injection E as <-. constructor; cbn; rewrite ?Em; assumption.
    + destruct (n_rd s) eqn:Erd; try discriminate. injection E as <-. constructor; cbn; try rewrite Erd; assumption.
    + discriminate.
Qed.
Lemma dead_stops {R} (s : client R) a : n_dead s = true -> nstep s a = None.
Proof. intros H. unfold nstep. rewrite H. reflexivity. Qed.
Lemma ninv_run {R} cap (sched : list (nlabel R)) : forall s s' e, 0 <= cap -> NInv cap s -> Forall nlegal sched -> nrun s sched = Some (s', e) -> n_dead s' = false -> NInv cap s'.
Proof.
  induction sched as [|a sched IH]; intros s s' e Hc HI Hl H Hd; cbn [nrun] in H; [injection H as <- <-; exact HI|].
  inversion Hl; subst. destruct (nstep s a) as [[s1 e1]|] eqn:E; [|discriminate]. destruct (nrun s1 sched) as [[s2 e2]|] eqn:E2; [|discriminate]. injection H as <- <-.
  assert (D1 : n_dead s1 = false).
  { destruct (n_dead s1) eqn:D; [|reflexivity]. destruct sched as [|b sched]; cbn [nrun] in E2; [injection E2 as <- <-; congruence|]. rewrite (dead_stops s1 b D) in E2. discriminate. }
  exact (IH s1 s2 e2 Hc (ninv_step cap s s1 a e1 Hc HI ltac:(assumption) E D1) ltac:(assumption) E2 Hd).
Qed.
Lemma ninv {R} raw size cap (sched : list (nlabel R)) s evs : 0 <= cap -> nexecutes raw size cap sched s evs -> n_dead s = false -> NInv cap s.
Proof. intros Hc [Hl H] Hd. eapply ninv_run; try eassumption. apply ninv_start. Qed.

(** Nothing in the composition gets in the way: in a live state every step the ring can
    take inside WriteN or ReadN is possible, and every step of the message loop. *)
Lemma composition_free {R} raw size cap (sched : list (nlabel R)) s evs : 4 <= cap -> nexecutes raw size cap sched s evs ->
  n_dead s = false -> s_crashed (n_conn s) = false ->
  (forall b, inside b = true -> step (n_ring s) b <> None -> nstep s (LRing b) <> None) /\
  (cstep (n_conn s) MStep <> None -> nstep s LLoop <> None) /\
  (n_rd s = RdRead -> s_rawclosed (n_conn s) = false -> forall bs, nstep s (LNet bs) <> None).
Proof.
  intros Hc Hx Hd Hcr. destruct (ninv raw size cap sched s evs ltac:(lia) Hx Hd) as [I1 I2 I3]. unfold nstep. rewrite Hd, Hcr. cbn [orb]. repeat split.
  - intros b Hb Hs. rewrite Hb. destruct (step (n_ring s) b) as [[g1 re]|] eqn:E; [|congruence]. cbn zeta. destruct (bytes_read re) as [bs|] eqn:Er; [|discriminate].
    assert (Hr : g_r g1 = RIdle). { destruct (step_events _ _ _ _ E Hb) as [_ [(Q & _)|(bs' & _ & _ & _ & Q)]]; [congruence|exact Q]. }
    assert (Hs2 : cstep (n_conn s) (MRead bs) <> None).
    { assert (G : forall n, reading cap n (g_r (n_ring s)) -> zlen bs = Z.max 0 n /\ zlen bs <= cap).
      { intros n Hn. destruct (reading_step cap n _ _ _ _ ltac:(lia) Hn Hb E) as [[Q _]|(bs' & Q1 & Q2)]; [congruence|]. rewrite Er in Q1. injection Q1 as <-. exact Q2. }
      unfold cstep. rewrite Hcr. unfold loop_read, n_at in *. destruct (s_mpc (n_conn s)) as [ | |n|id d|k d|] eqn:Em.
      all: try (exfalso; destruct (idle_reader_step _ _ _ _ I2 Hb E) as [_ F]; congruence).
      - destruct (G 4 I2) as [-> _]. cbn [Z.max Z.compare Z.eqb Pos.compare Pos.compare_cont Pos.eqb]. cbn zeta. destruct (dInt32 _); discriminate.
      - destruct (G n I2) as [G1 G2]. rewrite G1, Z.eqb_refl. rewrite (proj2 (Z.leb_le n (s_cap (n_conn s)))) by lia. cbn [andb]. cbn zeta. destruct (ResponseHeader_Decode _ _ _); discriminate. }
    destruct (cstep (n_conn s) (MRead bs)) as [[c1 e1]|]; [|congruence]. pose proof (call_readn_some c1 g1 Hr) as F. destruct (call_readn c1 g1); [discriminate|congruence].
  - intros Hs. destruct (cstep (n_conn s) MStep) as [[c1 e1]|] eqn:E; [|congruence]. destruct (cstep_mpc _ _ _ _ E) as [Q1 _].
    assert (Hr : g_r (n_ring s) = RIdle) by (unfold n_at in I2; destruct (s_mpc (n_conn s)); try contradiction; exact I2).
    pose proof (call_readn_some c1 _ Hr) as F. destruct (call_readn c1 (n_ring s)); [discriminate|congruence].
  - intros Hrd Hrc bs. rewrite Hrd, Hrc. cbn [step]. destruct (g_w (n_ring s)) eqn:Ew; try discriminate; exfalso; rewrite Hrd in I3; assert (F : RdRead = RdWrite) by (apply I3; discriminate); discriminate.
Qed.

(** ** C36 *)
Lemma frames_of_stream {R} raw size cap (sched : list (nlabel R)) s evs fs rest : 2 <= size < 2 ^ 31 -> 4 <= cap -> nexecutes raw size cap sched s evs ->
  all_nsteps good_step (Connect raw size cap) sched -> parses (arrived sched) fs rest -> incomplete rest ->
  exists hs, fs = frames evs ++ hs.
Proof.
  intros Hs Hc Hx Hg Hp Hi. destruct (project _ _ _ _ _ _ Hx) as (cs & rs & re & P1 & P2 & P3 & P4 & P5).
  pose proof (loop_parses _ _ _ _ _ Hc P1) as L. rewrite P3 in L.
  destruct (RingProofs.ring_fifo size rs _ _ Hs P2 (P5 Hg)) as [x Hxp]. rewrite P4, Hxp in Hp. eapply parses_prefix; eassumption.
Qed.

Lemma incomplete_head w : zlen w < 4 -> incomplete w.
Proof.
  intros H f fs rest P. destruct (parses_cons _ _ _ _ P) as (z & w' & _ & _ & -> & _). rewrite !zlen_app, zlen_be in H.
  pose proof (zlen_nonneg f). pose proof (zlen_nonneg w'). lia.
Qed.
Lemma incomplete_body n w : is_int32 n -> zlen w < n -> incomplete (be 4 n ++ w).
Proof.
  intros Hn H f fs rest P. destruct (parses_cons _ _ _ _ P) as (z & w' & Hz & Hf & E & _). apply app_split in E; [|rewrite !zlen_be; reflexivity].
  destruct E as [E1 E2]. apply be4_inj in E1; [|assumption..]. subst. rewrite zlen_app in H. pose proof (zlen_nonneg w'). lia.
Qed.

Lemma all_frames_consumed {R} raw size cap (sched : list (nlabel R)) s evs : 2 <= size < 2 ^ 31 -> 4 <= cap -> nexecutes raw size cap sched s evs ->
  all_nsteps good_step (Connect raw size cap) sched -> n_dead s = false -> consumed s ->
  exists rest, parses (arrived sched) (frames evs) rest /\ incomplete rest.
Proof.
  intros Hs Hc Hx Hg Hd (D1 & D2 & D3). destruct (ninv raw size cap sched s evs ltac:(lia) Hx Hd) as [I1 I2 I3]. destruct (project _ _ _ _ _ _ Hx) as (cs & rs & re & P1 & P2 & P3 & P4 & P5).
  pose proof (loop_parses _ _ _ _ _ Hc P1) as L. rewrite P3 in L.
  destruct (RingProofs.run_inv size rs _ _ _ _ _ _ _ _ _ _ _ (RingProofs.init_inv size Hs) (P5 Hg) P2) as (w & todo & rd & S & P & Sl & HI).
  destruct HI as [HN Hsize Hcells Hwr Hrd Hstart Hnext Hord Hdata Hw Hr]. cbn [app] in *.
  assert (Ew : g_w (n_ring s) = WIdle) by (destruct (g_w (n_ring s)) eqn:F; try reflexivity; exfalso; apply D1, I3; discriminate).
  rewrite Ew in Hw. cbn [RingProofs.wInv] in Hw. destruct Hw as (-> & -> & _). rewrite app_nil_r in Hwr.
  destruct (g_r (n_ring s)) eqn:Er; try discriminate D3. cbn [RingProofs.rInv] in Hr. destruct Hr as (-> & _ & -> & _ & _).
  rewrite (RingProofs.occupancy_eq size (n_ring s) (zlen (RingSpec.delivered re ++ r_out l)) (zlen w)) in D2; try assumption; try lia.
  destruct Hrd as [c Ec]. assert (c = []). { apply (f_equal zlen) in Ec. rewrite zlen_app in Ec. destruct c; [reflexivity|]. exfalso. unfold zlen in *. cbn [length] in Ec. lia. }
  subst c. rewrite app_nil_r in Ec. exists (pending (n_conn s) ++ r_out l). rewrite P4, Hwr, Ec. split; [apply parses_ext, L|].
  unfold n_at in I2. unfold pending. destruct (s_mpc (n_conn s)) as [ | |n|id d|k d|] eqn:Em; try discriminate I2; cbn [reading] in I2; destruct I2 as ((_ & _ & I5 & _) & I6).
  - cbn [app]. apply incomplete_head. lia.
  - apply incomplete_body; [|lia]. exact (body_int32 _ _ _ _ _ _ Hc P1 Em).
Qed.

Lemma all_frames_of_stream {R} raw size cap (sched : list (nlabel R)) s evs : 2 <= size < 2 ^ 31 -> 4 <= cap -> nexecutes raw size cap sched s evs ->
  all_nsteps good_step (Connect raw size cap) sched -> n_dead s = false -> drained s ->
  exists rest, parses (arrived sched) (frames evs) rest /\ incomplete rest.
Proof.
  intros Hs Hc Hx Hg Hd (D1 & D2 & D3). apply (all_frames_consumed raw size cap sched s evs); try assumption. split; [congruence|auto].
Qed.

(** Two executions receiving the same bytes, however cut, have processed the same
    frames when drained. *)
Lemma segmentation {R} raw1 raw2 size cap (sched1 sched2 : list (nlabel R)) s1 s2 evs1 evs2 : 2 <= size < 2 ^ 31 -> 4 <= cap ->
  nexecutes raw1 size cap sched1 s1 evs1 -> nexecutes raw2 size cap sched2 s2 evs2 ->
  all_nsteps good_step (Connect raw1 size cap) sched1 -> all_nsteps good_step (Connect raw2 size cap) sched2 ->
  n_dead s1 = false -> n_dead s2 = false -> drained s1 -> drained s2 -> arrived sched1 = arrived sched2 -> frames evs1 = frames evs2.
Proof.
  intros Hs Hc X1 X2 G1 G2 D1 D2 E1 E2 Ha.
  destruct (all_frames_of_stream _ _ _ _ _ _ Hs Hc X1 G1 D1 E1) as (r1 & A1 & B1). destruct (all_frames_of_stream _ _ _ _ _ _ Hs Hc X2 G2 D2 E2) as (r2 & A2 & B2).
  rewrite Ha in A1. apply (parses_complete_unique _ _ _ _ _ A1 B1 A2 B2).
Qed.

(** ** C38: the connection is lost *)
(** readLoop has returned, nobody has called Close, the message loop waits in ReadN. *)
Definition cut_off {R} (s : client R) : Prop :=
  n_rd s = RdDone /\ n_closers s = [] /\ g_w (n_ring s) = WIdle /\ g_closed (n_ring s) = false /\ r_waiting (g_r (n_ring s)) = true /\
  match s_mpc (n_conn s) with MHead | MBody _ => True | _ => False end.

Lemma cut_off_step {R} (s s' : client R) a e k : cut_off s -> waits (n_conn s) k -> nlegal a -> a <> LClose -> nstep s a = Some (s', e) ->
  cut_off s' /\ waits (n_conn s') k /\ returns_of k e = [].
Proof.
  intros (C1 & C2 & C3 & C4 & C5 & C6) Hw Hl Ha H. unfold nstep in H. destruct (n_dead s || s_crashed (n_conn s)) eqn:Hd; [discriminate|].
  assert (Ho : outside (n_conn s)) by (unfold outside; destruct (s_mpc (n_conn s)); try contradiction; exact I).
  assert (CS : forall b c1 e1, legal b -> ~ reads b -> match b with MStep => False | _ => True end -> cstep (n_conn s) b = Some (c1, e1) ->
    cut_off (mkClient c1 (n_ring s) (n_rd s) (n_closers s) (n_dead s)) /\ waits c1 k /\ returns_of k e1 = []).
  { intros b c1 e1 Hb Hnr Hns E. destruct (starved [b] (n_conn s) c1 e1 k) as [W1 W2]; try assumption; [constructor; [assumption|constructor]|constructor; [right; assumption|constructor]|cbn [crun]; rewrite E, app_nil_r; reflexivity|].
    split; [|auto]. unfold cut_off. cbn. repeat (split; [assumption|]). pose proof (cstep_mpc _ _ _ _ E) as Q. destruct b; try contradiction; try (rewrite Q; exact C6); exfalso; apply Hnr; exact I. }
  destruct a as [enc dec|j| |b|bs|bs| |j]; cbn [nlegal] in *.
  - destruct (cstep (n_conn s) (DoCall enc dec)) as [[c1 e1]|] eqn:E; [|discriminate]. injection H as <- <-. apply (CS (DoCall enc dec)); auto.
  - destruct (cstep (n_conn s) (CStep j)) as [[c1 e1]|] eqn:E; [|discriminate]. injection H as <- <-. apply (CS (CStep j)); auto; exact I.
  - exfalso. unfold cstep, loop_step in H. destruct (s_crashed (n_conn s)); [discriminate|]. destruct (s_mpc (n_conn s)); try contradiction; discriminate.
  - exfalso. destruct b; try discriminate H; cbn [inside step] in H.
    + unfold w_step in H. rewrite C3 in H. discriminate.
    + unfold r_step in H. destruct (g_r (n_ring s)); try discriminate.
    + rewrite C3, andb_false_r in H. discriminate.
    + rewrite C3 in H. discriminate.
    + rewrite C4 in H. discriminate.
    + rewrite C4 in H. discriminate.
  - rewrite C1 in H. discriminate.
  - rewrite C1 in H. discriminate.
  - congruence.
  - rewrite C2 in H. destruct j; discriminate.
Qed.
Lemma cut_off_for_ever {R} (sched : list (nlabel R)) : forall s s' e k, cut_off s -> waits (n_conn s) k -> Forall nlegal sched -> ~ In LClose sched ->
  nrun s sched = Some (s', e) -> returns_of k e = [] /\ waits (n_conn s') k /\ cut_off s'.
Proof.
  induction sched as [|a sched IH]; intros s s' e k Hc Hw Hl Hn H; cbn [nrun] in H; [injection H as <- <-; auto|].
  inversion Hl; subst. destruct (nstep s a) as [[s1 e1]|] eqn:E; [|discriminate]. destruct (nrun s1 sched) as [[s2 e2]|] eqn:E2; [|discriminate]. injection H as <- <-.
  destruct (cut_off_step s s1 a e1 k Hc Hw ltac:(assumption) ltac:(intros ->; apply Hn; left; reflexivity) E) as (Q1 & Q2 & Q3).
  destruct (IH s1 s2 e2 k Q1 Q2 ltac:(assumption) ltac:(intros F; apply Hn; right; exact F) E2) as (R1 & R2 & R3).
  split; [rewrite grow_ret, Q3; exact R1|auto].
Qed.
