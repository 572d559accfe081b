(** * Courteous networks and schedulers: no bad wake-up, nothing stuck *)
From Verif Require Import GoBase GoLemmas Encoder Decoder Spec EncProofs BufIO Msg01 Conn ConnSpec ConnProofs ConnProps ConnFrames
  ConnRing ConnRingSpec ConnRingProofs ConnRingProps OrderlySpec.
From Verif Require Ring RingSpec RingProofs RingProps RingSeq CallerSpec CallerProofs ConnClose.
Local Open Scope Z_scope.
Ltac Zify.zify_post_hook ::= idtac.
Import Ring RingProps CallerSpec CallerProofs.

(** ** Streams *)
Lemma stream_app a b : stream (a ++ b) = stream a ++ stream b.
Proof. unfold stream. rewrite map_app, concat_app. reflexivity. Qed.
Lemma stream_cons f fs : stream (f :: fs) = be 4 (zlen f) ++ f ++ stream fs.
Proof. unfold stream, framed. cbn [map concat]. rewrite app_assoc. reflexivity. Qed.
Lemma zlen_cons_stream f fs : zlen (stream (f :: fs)) = 4 + zlen f + zlen (stream fs).
Proof. rewrite stream_cons, !zlen_app, zlen_be. lia. Qed.
Lemma frame_int32 cap (f : list Z) : cap < 2 ^ 31 -> zlen f <= cap -> is_int32 (zlen f).
Proof. pose proof (zlen_nonneg f). unfold is_int32. lia. Qed.
Lemma stream_parses cap fs : cap < 2 ^ 31 -> Forall (fun f => zlen f <= cap) fs -> parses (stream fs) fs [].
Proof.
  intros Hc H. induction H as [|f fs Hf H IH]; [constructor|]. rewrite stream_cons. constructor; [apply (frame_int32 cap); assumption| |exact IH].
  pose proof (zlen_nonneg f). lia.
Qed.
Lemma parses_stream cap gs : forall hs r, cap < 2 ^ 31 -> Forall (fun f => zlen f <= cap) (gs ++ hs) -> parses (stream (gs ++ hs)) gs r -> r = stream hs.
Proof.
  induction gs as [|g gs IH]; intros hs r Hc Hf H; [apply parses_nil in H; exact H|].
  cbn [app] in *. inversion Hf as [|? ? Hg Hf']; subst. rewrite stream_cons in H. destruct (parses_cons _ _ _ _ H) as (z & w & Hz & Hl & E & Hp).
  assert (Hz0 : zlen g = Z.max 0 (zlen g)) by (pose proof (zlen_nonneg g); lia).
  destruct (first_frame _ _ _ _ _ _ (frame_int32 cap g Hc Hg) Hz Hz0 Hl E) as [_ <-].
  apply (IH hs r Hc Hf' Hp).
Qed.
Lemma nothing_incomplete : incomplete [].
Proof. apply incomplete_head. unfold zlen. cbn. lia. Qed.

(** ** Where the message loop is in the stream *)
Lemma where_loop_is {R} raw size cap (sched : list (nlabel R)) s evs fs : 2 <= size < 2 ^ 31 -> 4 <= cap < 2 ^ 31 -> nexecutes raw size cap sched s evs ->
  all_nsteps good_step (Connect raw size cap) sched -> arrived sched = stream fs -> Forall (fun f => zlen f <= cap) fs ->
  exists hs, fs = frames evs ++ hs /\ forall n, s_mpc (n_conn s) = MBody n -> exists f hs', hs = f :: hs' /\ n = zlen f.
Proof.
  intros Hs Hc Hx Hg Ha Hf. assert (Hc' : 4 <= cap) by lia.
  destruct (frames_of_stream raw size cap sched s evs fs [] Hs Hc' Hx Hg) as [hs Hhs]; [rewrite Ha; apply (stream_parses cap); [lia|exact Hf]|apply nothing_incomplete|].
  exists hs. split; [exact Hhs|]. intros n Hn.
  destruct (project _ _ _ _ _ _ Hx) as (cs & rs & re & P1 & P2 & P3 & P4 & P5).
  pose proof (loop_parses _ _ _ _ _ Hc' P1) as L. rewrite P3 in L.
  destruct (RingProofs.ring_fifo size rs _ _ Hs P2 (P5 Hg)) as [x Hxp]. rewrite P4 in Ha. rewrite Hxp, Hhs in Ha.
  apply (parses_ext _ _ _ x) in L. rewrite Ha in L. rewrite Hhs in Hf. apply (parses_stream cap) in L; [|lia|exact Hf].
  unfold pending in L. rewrite Hn in L. destruct hs as [|f hs].
  - apply (f_equal zlen) in L. rewrite zlen_app, zlen_be in L. change (zlen (stream [])) with 0 in L. pose proof (zlen_nonneg x). lia.
  - exists f, hs. split; [reflexivity|]. rewrite stream_cons in L. apply app_split in L; [|rewrite !zlen_be; reflexivity].
    destruct L as [L _]. apply be4_inj in L; [exact L|exact (body_int32 _ _ _ _ _ _ Hc' P1 Hn)|].
    apply (frame_int32 cap); [lia|]. apply Forall_app in Hf. destruct Hf as [_ Hf]. inversion Hf; assumption.
Qed.

(** ** One step more *)
Lemma nrun_snoc {R} (s0 : client R) sched a s' e : nrun s0 (sched ++ [a]) = Some (s', e) ->
  exists s1 e1 e2, nrun s0 sched = Some (s1, e1) /\ nstep s1 a = Some (s', e2) /\ e = e1 ++ e2.
Proof.
  revert s0 e. induction sched as [|b sched IH]; intros s0 e H; cbn [nrun app] in *.
  - destruct (nstep s0 a) as [[s1 e1]|] eqn:E; [|discriminate]. injection H as <- <-. exists s0, [], e1. split; [reflexivity|]. rewrite app_nil_r. auto.
  - destruct (nstep s0 b) as [[s1 e1]|]; [|discriminate]. destruct (nrun s1 (sched ++ [a])) as [[s2 e2]|] eqn:E; [|discriminate]. injection H as <- <-.
    destruct (IH _ _ E) as (s3 & e3 & e4 & H1 & H2 & ->). rewrite H1. exists s3, (e1 ++ e3), e4. rewrite app_assoc. auto.
Qed.
Lemma all_nsteps_snoc {R} (P : client R -> nlabel R -> Prop) sched a : forall s0 s e, nrun s0 sched = Some (s, e) -> all_nsteps P s0 sched -> P s a -> all_nsteps P s0 (sched ++ [a]).
Proof.
  induction sched as [|b sched IH]; intros s0 s e H Hp Ha; cbn [nrun all_nsteps app] in *.
  - injection H as -> _. split; [exact Ha|]. destruct (nstep s a) as [[s1 e1]|]; exact I.
  - destruct (nstep s0 b) as [[s1 e1]|]; [|discriminate]. destruct (nrun s1 sched) as [[s2 e2]|] eqn:E; [|discriminate]. injection H as <- <-.
    destruct Hp as [H1 H2]. split; [exact H1|]. apply (IH s1 s2 e2 E H2 Ha).
Qed.
Lemma always_init {R} c raw size cap (sched : list (nlabel R)) a : always c raw size cap (sched ++ [a]) -> always c raw size cap sched.
Proof. intros H before b after s evs -> Hr. apply (H before b (after ++ [a]) s evs); [rewrite <- app_assoc; reflexivity|exact Hr]. Qed.
Lemma always_last {R} c raw size cap (sched : list (nlabel R)) a s evs : always c raw size cap (sched ++ [a]) -> nrun (Connect raw size cap) sched = Some (s, evs) ->
  heeds c size cap sched evs s a.
Proof. intros H Hr. apply (H sched a [] s evs eq_refl Hr). Qed.

(** ** Counting *)
Definition asks (m : mpc) : Z := match m with MHead => 4 | MBody n => 4 + n | _ => 0 end.
Definition has (m : mpc) : Z := match m with MBody _ => 4 | _ => 0 end.
Lemma tally_inside t b evs : inside b = true -> tally t b evs = fold_left returned evs t.
Proof. destruct b; try discriminate; reflexivity. Qed.
Lemma fold_called evs : forall t, w_called (fold_left returned evs t) = w_called t /\ r_called (fold_left returned evs t) = r_called t.
Proof. induction evs as [|[bs| |bs] evs IH]; intros t; cbn [fold_left returned]; [auto|apply IH|..]; rewrite (proj1 (IH _)), (proj2 (IH _)); auto. Qed.
Lemma fold_no_read evs : forall t, (forall bs, ~ In (ERead bs) evs) -> r_returned (fold_left returned evs t) = r_returned t.
Proof.
  induction evs as [|[bs| |bs] evs IH]; intros t H; cbn [fold_left returned]; [reflexivity|..].
  - apply IH. intros b F. apply (H b). right. exact F.
  - rewrite IH; [reflexivity|]. intros b F. apply (H b). right. exact F.
  - exfalso. apply (H bs). left. reflexivity.
Qed.
Lemma fold_kept evs : forall t, r_returned t = r_called t -> r_returned (fold_left returned evs t) = r_called t.
Proof. induction evs as [|[bs| |bs] evs IH]; intros t H; cbn [fold_left returned]; [exact H|apply IH, H|..]; rewrite IH; auto. Qed.
Lemma fold_read evs bs : forall t, In (ERead bs) evs -> r_returned (fold_left returned evs t) = r_called t.
Proof.
  induction evs as [|[b| |b] evs IH]; intros t H; cbn [fold_left returned In] in *; [contradiction|..].
  - apply IH. destruct H as [H|H]; [discriminate|exact H].
  - rewrite IH; [reflexivity|]. destruct H as [H|H]; [discriminate|exact H].
  - rewrite fold_kept; reflexivity.
Qed.
Lemma idle_settled N t g : CInv N t g -> g_w g = WIdle -> w_returned t = w_called t.
Proof. intros [_ (S & P & _ & _ & _ & _ & _ & HW & _) _ _ _ _] E. rewrite E in HW. apply HW. Qed.
Lemma read_started {R} N t (c : conn R) g g' : 2 <= N < 2 ^ 31 -> CInv N t g -> PInv N g -> g_w g = WIdle -> 4 <= s_cap c ->
  (forall n, s_mpc c = MBody n -> 0 <= n <= s_cap c) -> call_readn c g = Some g' ->
  exists t', CInv N t' g' /\ PInv N g' /\ w_called t' = w_called t /\ r_returned t' = r_returned t /\
    r_called t' = r_called t + match s_mpc c with MHead => 4 | MBody n => n | _ => 0 end.
Proof.
  intros HN HC HP Hw Hc Hb H. unfold call_readn in H.
  assert (G : forall n, 0 <= n <= s_cap c -> option_map fst (step g (RCall (s_cap c) n)) = Some g' ->
    exists t', CInv N t' g' /\ PInv N g' /\ w_called t' = w_called t /\ r_returned t' = r_returned t /\ r_called t' = r_called t + n).
  { intros n Hn E. destruct (step g (RCall (s_cap c) n)) as [[g1 e1]|] eqn:Es; [|discriminate]. cbn in E. injection E as ->.
    assert (Hl : RingSpec.legal_call (RCall (s_cap c) n)) by (cbn; lia).
    destruct (step_no_crash N g _ g' e1 HP Hl Es) as [K1 K2].
    assert (Ho : forall r, In r rules -> obeys r N t (RCall (s_cap c) n) = true).
    { intros r Hr. cbn [In rules] in Hr. destruct Hr as [<-|[<-|[<-|[<-|[]]]]]; cbn [obeys]; try reflexivity.
      rewrite (idle_settled N t g HC Hw), Z.eqb_refl. apply andb_true_iff. split; [apply Z.leb_le; lia|reflexivity]. }
    destruct (caller_step N t g _ g' e1 HN HC Ho Es K1 K2) as [_ HC'].
    assert (e1 = []) by (cbn [step] in Es; destruct (g_r g); try discriminate; injection Es as <- <-; reflexivity). subst e1.
    exists (tally t (RCall (s_cap c) n) []). split; [exact HC'|]. split; [exact (step_pinv N g _ g' [] HP Hl Es)|]. cbn. auto. }
  destruct (s_mpc c) as [ | |n|id d|k d|] eqn:Em; try (injection H as <-; exists t; rewrite Z.add_0_r; auto; fail).
  - apply G; [lia|exact H].
  - apply G; [apply Hb; reflexivity|exact H].
Qed.

(** ** No bad wake-up *)
Lemma arrived_snoc {R} (sched : list (nlabel R)) a : arrived (sched ++ [a]) = arrived sched ++ arrived [a].
Proof. unfold arrived. apply flat_map_app. Qed.
Lemma zlen_stream_frames_le fs gs : zlen (stream fs) <= zlen (stream (fs ++ gs)).
Proof. rewrite stream_app, zlen_app. pose proof (zlen_nonneg (stream gs)). lia. Qed.

Record OInv {R} (size cap : Z) (sched : list (nlabel R)) (s : client R) (evs : list (Conn.event R)) (fs : list (list Z)) (t : totals) : Prop := mkOInv {
  o_dead : n_dead s = false;
  o_closers : n_closers s = [];
  o_open : s_closed (n_conn s) = false;
  o_stream : arrived sched = stream fs;
  o_fit : Forall (fun f => zlen f <= cap) fs;
  o_ring : CInv size t (n_ring s);
  o_pos : PInv size (n_ring s);
  o_w : w_called t = zlen (stream fs);
  o_rc : r_called t = zlen (stream (frames evs)) + asks (s_mpc (n_conn s));
  o_rr : r_returned t = zlen (stream (frames evs)) + has (s_mpc (n_conn s)) }.

Lemma cstep_closed {R} (s s' : conn R) a e : legal a -> a <> Cancel -> cstep s a = Some (s', e) -> s_closed s' = s_closed s.
Proof.
  intros _ Ha H. unfold cstep in H. destruct (s_crashed s); [discriminate|]. destruct a as [enc dec|k| |bs| | |].
  - injection H as <- <-. reflexivity.
  - destruct (nth_error (s_calls s) k) as [c|] eqn:Ek; [|discriminate]. unfold call_step in H.
    destruct (k_pc c) as [ | | |[|p pieces] err b fl|[x|]| |r] eqn:Ep; try discriminate; try (injection H as <- <-; reflexivity).
    + destruct (s_lock s) eqn:El; [discriminate|]. destruct (transmit _ _ _ _) as [[err b] fl] eqn:Et. injection H as <- <-. reflexivity.
    + destruct (k_reply c) as [r|] eqn:Er; [|discriminate]. injection H as <- <-. reflexivity.
  - unfold loop_step in H. destruct (s_mpc s) as [ | |size|id d|k d|] eqn:Em; try discriminate.
    + injection H as <- <-. reflexivity.
    + destruct (s_requests s id) as [k|] eqn:Er; injection H as <- <-; reflexivity.
    + destruct (nth_error (s_calls s) k) as [c|] eqn:Ek; [|discriminate].
      destruct (k_dec c d) as [r d'|x d'|] eqn:Ed; [destruct (k_reply c); [discriminate|]..|]; injection H as <- <-; reflexivity.
  - unfold loop_read in H. destruct (s_mpc s) as [ | |size|id d|k d|] eqn:Em; try discriminate.
    + destruct (zlen bs =? 4); [|discriminate]. cbn zeta in H. destruct (dInt32 _); injection H as <- <-; reflexivity.
    + destruct (_ && _); [|discriminate]. cbn zeta in H. destruct (ResponseHeader_Decode _ _ _); injection H as <- <-; reflexivity.
  - destruct (s_mpc s) eqn:Em; try discriminate. destruct (s_cap s <? size); [|discriminate]. injection H as <- <-. reflexivity.
  - congruence.
  - injection H as <- <-. reflexivity.
Qed.

Lemma inside_obeys b : inside b = true -> forall r N t, obeys r N t b = true.
Proof. intros H r N t. destruct b; try discriminate; destruct r; reflexivity. Qed.
Lemma inside_legal b : inside b = true -> RingSpec.legal_call b.
Proof. destruct b; try discriminate; intros _; exact I. Qed.
(** A ReadN that returns was not waiting for anybody: its last step is its own. *)
Lemma read_returns N t g b g' evs bs : CInv N t g -> inside b = true -> step g b = Some (g', evs) -> In (ERead bs) evs -> b = RStep.
Proof.
  intros [Hs (S & P & HS & HP & HSP & HPw & Hroom & HW & HR) Hrs Hrel Hws Hcl] Hb H Hin. destruct b; try discriminate Hb; try reflexivity; exfalso; cbn [step] in H.
  - unfold w_step in H. destruct (g_w g) as [ |data m|data m pos|l|l|l|l|l|l|l|l|l| ] eqn:Hw; try discriminate; try contradiction; try (injection H as <- <-; destruct Hin; fail).
    + destruct (w_i l <? w_n l).
      * destruct (index (w_data l) (w_i l)); [destruct (store (g_cells g) (w_pos l) z)|]; injection H as <- <-; destruct Hin.
      * cbn zeta in H. destruct (w_wrote l + 1 <? w_n l); injection H as <- <-; cbn in Hin; intuition discriminate.
    + destruct (g_rset g); injection H as <- <-; cbn in Hin; intuition discriminate.
  - destruct (g_r g) eqn:Er; try discriminate. destruct (g_w g) eqn:Ew; try discriminate; cbn [r_waiting w_releasing andb] in H; try discriminate;
    unfold leave_both, w_leave in H; rewrite Ew in H; unfold r_leave in H; cbn [set_w g_r] in H; rewrite Er in H; injection H as <- <-; cbn in Hin; intuition discriminate.
  - destruct (g_w g); cbn in H; try discriminate; contradiction.
  - rewrite Hcl in H. discriminate.
  - rewrite Hcl in H. discriminate.
Qed.

Lemma ring_bytes {R} raw size cap (sched : list (nlabel R)) s evs : nexecutes raw size cap sched s evs -> RB (n_ring s).
Proof.
  intros [Hl H]. destruct (nrun_project sched (Connect raw size cap) s evs (rb_new size) Hl H) as (cs & rs & re & _ & _ & P3 & P4 & _).
  exact (rb_run rs _ _ re (rb_new size) P4 P3).
Qed.

Lemma pause_idle N t g rd : CInv N t g -> (rd = RdWrite <-> g_w g <> WIdle) -> rd <> RdWrite \/ w_waiting (g_w g) = true -> g_w g = WIdle.
Proof.
  intros [_ (S & P & _ & _ & _ & _ & _ & HW & _) _ _ _ _] H [K|K].
  - destruct (g_w g) eqn:F; try reflexivity; exfalso; apply K, H; discriminate.
  - destruct (g_w g); try discriminate K. contradiction.
Qed.
Definition safe_courtesies : list courtesy := [Whole; Room; LoopPauses; Open].
Lemma orderly {R} raw size cap : 2 <= size < 2 ^ 31 -> 4 <= cap < 2 ^ 31 -> forall (sched : list (nlabel R)) s evs,
  nexecutes raw size cap sched s evs -> (forall c, In c safe_courtesies -> always c raw size cap sched) ->
  all_nsteps good_step (Connect raw size cap) sched /\ exists fs t, OInv size cap sched s evs fs t.
Proof.
  intros Hs Hc. induction sched as [|a sched IH] using rev_ind; intros s' evs' Hx Hk.
  { destruct Hx as [_ H]. injection H as <- <-. split; [exact I|]. exists [], no_calls. constructor; try reflexivity; [constructor|..].
    - exact (new_cinv size Hs).
    - apply new_pinv. lia. }
  pose proof Hx as [Hl' H']. apply Forall_app in Hl' as [Hl Ha]. inversion Ha as [|? ? La _]; subst. clear Ha.
  destruct (nrun_snoc _ _ _ _ _ H') as (s & evs & e & H & E & ->).
  destruct (IH s evs (conj Hl H) (fun c Hin => always_init c raw size cap sched a (Hk c Hin))) as [Hg (fs & t & [O1 O2 O3 O4 O5 O6 O7 O8 O9 O10])]. clear IH.
  assert (Hh : forall c, In c safe_courtesies -> heeds c size cap sched evs s a) by (intros c Hin; apply (always_last c raw size cap sched a s evs (Hk c Hin) H)).
  assert (HNI : NInv cap s) by (apply (ninv raw size cap sched s evs); [lia|exact (conj Hl H)|exact O1]). destruct HNI as [I1 I2 I3].
  destruct (where_loop_is raw size cap sched s evs fs Hs Hc (conj Hl H) Hg O4 O5) as (hs & Eh & Hbody).
  assert (Hpos : forall n, s_mpc (n_conn s) = MBody n -> 0 <= n).
  { intros n Hn. destruct (Hbody n Hn) as (f & hs' & _ & ->). apply zlen_nonneg. }
  (* the step is good *)
  assert (Hgs : good_step s a).
  { destruct a as [enc dec|k| |b|bs|bs| |k]; try exact I. cbn [good_step]. unfold nstep in E. destruct (_ || _); [discriminate|].
    destruct (inside b) eqn:Eb; [|discriminate]. destruct (step (n_ring s) b) as [[g1 re]|] eqn:Es; [|discriminate].
    destruct (step_no_crash size _ b g1 re O7 (inside_legal b Eb) Es) as [K1 K2].
    apply (caller_step size t _ b g1 re Hs O6 (fun r _ => inside_obeys b Eb r size t) Es K1 K2). }
  assert (Hg' : all_nsteps good_step (Connect raw size cap) (sched ++ [a])) by (apply (all_nsteps_snoc _ sched a _ s evs H Hg Hgs)).
  split; [exact Hg'|].
  (* where this leaves the message loop *)
  assert (Hwhere : forall fs', arrived (sched ++ [a]) = stream fs' -> Forall (fun f => zlen f <= cap) fs' ->
    forall n, s_mpc (n_conn s') = MBody n -> 0 <= n <= cap).
  { intros fs' Ea Hf n Hn. destruct (where_loop_is raw size cap _ s' _ fs' Hs Hc Hx Hg' Ea Hf) as (hs1 & Eh1 & Hb).
    destruct (Hb n Hn) as (f & hs' & -> & ->). pose proof (zlen_nonneg f). rewrite Eh1 in Hf. apply Forall_app in Hf as [_ Hf]. inversion Hf. lia. }
  rewrite arrived_snoc in Hwhere. unfold nstep in E. destruct (n_dead s || s_crashed (n_conn s)) eqn:Hd; [discriminate|]. apply orb_false_iff in Hd. destruct Hd as [Hd Hcr].
  destruct a as [enc dec|k| |b|bs|bs| |k].
  - destruct (cstep (n_conn s) (DoCall enc dec)) as [[c1 e1]|] eqn:Ec; [|discriminate]. injection E as <- <-. exists fs, t.
    destruct (other_step _ _ (DoCall enc dec) _ La ltac:(discriminate) Ec) as (F1 & _ & _).
    pose proof (cstep_mpc _ _ _ _ Ec) as F2. cbn in F2. pose proof (cstep_closed _ _ (DoCall enc dec) _ La ltac:(discriminate) Ec) as F3.
    constructor; cbn [n_dead n_closers n_conn n_ring]; rewrite ?frames_app, ?F1, ?app_nil_r, ?F2; try assumption; [congruence|]. rewrite arrived_snoc. cbn. rewrite app_nil_r. exact O4.
  - destruct (cstep (n_conn s) (CStep k)) as [[c1 e1]|] eqn:Ec; [|discriminate]. injection E as <- <-. exists fs, t.
    destruct (other_step _ _ (CStep k) _ La ltac:(discriminate) Ec) as (F1 & _ & _).
    pose proof (cstep_mpc _ _ _ _ Ec) as F2. cbn in F2. pose proof (cstep_closed _ _ (CStep k) _ La ltac:(discriminate) Ec) as F3.
    constructor; cbn [n_dead n_closers n_conn n_ring]; rewrite ?frames_app, ?F1, ?app_nil_r, ?F2; try assumption; [congruence|]. rewrite arrived_snoc. cbn. rewrite app_nil_r. exact O4.
  - destruct (cstep (n_conn s) MStep) as [[c1 e1]|] eqn:Ec; [|discriminate]. destruct (call_readn c1 (n_ring s)) as [g1|] eqn:Eg; [|discriminate]. injection E as <- <-.
    destruct (other_step _ _ MStep _ I ltac:(discriminate) Ec) as (F1 & _ & _). destruct (cstep_mpc _ _ _ _ Ec) as [F2 F2'].
    pose proof (cstep_closed _ _ MStep _ I ltac:(discriminate) Ec) as F3. pose proof (cstep_cap _ _ MStep _ I Ec) as F4.
    assert (Hidle : g_w (n_ring s) = WIdle).
    { apply (pause_idle size t (n_ring s) (n_rd s) O6 I3). exact (Hh LoopPauses ltac:(cbn; tauto)). }
    destruct (read_started size t c1 _ g1 Hs O6 O7 Hidle ltac:(lia)) as (t' & T1 & T2 & T3 & T4 & T5); [|exact Eg|].
    { intros n Hn. rewrite Hn in F2'. destruct F2'. }
    exists fs, t'. constructor; cbn [n_dead n_closers n_conn n_ring]; rewrite ?frames_app, ?F1, ?app_nil_r; try assumption; try congruence.
    + rewrite arrived_snoc. cbn. rewrite app_nil_r. exact O4.
    + rewrite T5, O9. unfold asks. destruct (s_mpc (n_conn s)); try contradiction; destruct (s_mpc c1); try contradiction; lia.
    + rewrite T4, O10. unfold has. destruct (s_mpc (n_conn s)); try contradiction; destruct (s_mpc c1); try contradiction; lia.
  - destruct (inside b) eqn:Eb; [|discriminate]. destruct (step (n_ring s) b) as [[g1 re]|] eqn:Es; [|discriminate]. cbn zeta in E.
    destruct (step_no_crash size _ b g1 re O7 (inside_legal b Eb) Es) as [K1 K2].
    destruct (caller_step size t _ b g1 re Hs O6 (fun r _ => inside_obeys b Eb r size t) Es K1 K2) as [_ HC1].
    pose proof (step_pinv size _ b g1 re O7 (inside_legal b Eb) Es) as HP1.
    rewrite (tally_inside t b re Eb) in HC1. destruct (fold_called re t) as [T1 T2].
    assert (Hcr1 : ring_crashed g1 = false) by (unfold ring_crashed; destruct (g_r g1), (g_w g1); congruence).
    destruct (step_events _ _ _ _ Es Eb) as [Hw [(Q1 & Q2 & Q3)|(bs & Q1 & Q2 & Q3 & Q4)]]; rewrite Q1 in E.
    + injection E as <- <-. exists fs, (fold_left returned re t). constructor; cbn [n_dead n_closers n_conn n_ring]; rewrite ?app_nil_r; try assumption; try congruence.
      * rewrite arrived_snoc. cbn. rewrite app_nil_r. exact O4.
      * rewrite (fold_no_read re t Q3). exact O10.
    + assert (Eb' : b = RStep) by (apply (read_returns size t _ b g1 re bs O6 Eb Es Q3)). subst b.
      destruct (cstep (n_conn s) (MRead bs)) as [[c1 e1]|] eqn:Ec; [|discriminate]. destruct (call_readn c1 g1) as [g2|] eqn:Eg; [|discriminate]. injection E as <- <-.
      assert (Hbs : Forall is_byte bs).
      { apply (rb_step _ RStep _ _ (ring_bytes raw size cap sched s evs (conj Hl H)) I Es). exact Q3. }
      assert (Hbuf : zlen (s_rbuf (n_conn s)) = s_cap (n_conn s)).
      { destruct (project _ _ _ _ _ _ (conj Hl H)) as (cs & rs & re' & P1 & _). destruct (ainv _ _ _ _ _ (proj1 Hc) P1) as [CI _].
        destruct (i_cap _ _ _ CI) as [Ecap _]. destruct (i_buf _ _ _ CI) as [_ Ebuf]. congruence. }
      destruct (read_step _ _ _ _ Hbs Hbuf ltac:(lia) Ec) as [R1 R2].
      pose proof (mread_legal_free _ _ _ _ Ec) as [F4 _]. pose proof (cstep_closed _ _ (MRead bs) _ Hbs ltac:(discriminate) Ec) as F3.
      assert (Hidle : g_w g1 = WIdle).
      { assert (K : g_w (n_ring s) = WIdle).
        { apply (pause_idle size t (n_ring s) (n_rd s) O6 I3). exact (Hh LoopPauses ltac:(cbn; tauto)). }
        destruct (inside_writer _ _ _ _ Es Eb) as [W1 W2]. destruct (wrote re); [apply W1; reflexivity|apply W2; [reflexivity|exact K]]. }
      cbn [n_conn] in Hwhere. cbn [arrived flat_map app] in Hwhere. rewrite !app_nil_r in Hwhere.
      destruct (read_started size (fold_left returned re t) c1 _ g2 Hs HC1 HP1 Hidle ltac:(lia)) as (t' & U1 & U2 & U3 & U4 & U5); [|exact Eg|].
      { rewrite F4, I1. apply (Hwhere fs O4 O5). }
      rewrite (fold_read re bs t Q3), O9 in U4. rewrite T2, O9 in U5. rewrite T1 in U3.
      exists fs, t'. constructor; cbn [n_dead n_closers n_conn n_ring]; rewrite ?frames_app; try assumption; try congruence.
      * rewrite arrived_snoc. cbn. rewrite app_nil_r. exact O4.
      * rewrite U5. destruct R2 as [(v & R3 & R4 & R5 & -> & R6)|(z & R3 & R4 & -> & R5 & R6)]; rewrite R3; cbn [asks].
        -- rewrite R6. cbn [frames flat_map asks]. rewrite app_nil_r. lia.
        -- cbn [frames flat_map]. rewrite app_nil_r, stream_app, zlen_app, zlen_cons_stream, overwrite_firstn by exact R4.
           change (zlen (stream [])) with 0.
           pose proof (Hpos z R3).
           destruct R6 as [->|(id & d & ->)]; cbn [asks]; lia.
      * rewrite U4. destruct R2 as [(v & R3 & R4 & R5 & -> & R6)|(z & R3 & R4 & -> & R5 & R6)]; rewrite R3; cbn [asks].
        -- rewrite R6. cbn [frames flat_map has]. rewrite app_nil_r. lia.
        -- cbn [frames flat_map]. rewrite app_nil_r, stream_app, zlen_app, zlen_cons_stream, overwrite_firstn by exact R4.
           change (zlen (stream [])) with 0.
           pose proof (Hpos z R3).
           destruct R6 as [->|(id & d & ->)]; cbn [has]; lia.
  - destruct (n_rd s) eqn:Er; try discriminate. destruct (s_rawclosed (n_conn s)); [discriminate|].
    destruct (step (n_ring s) (WCall bs (zlen bs))) as [[g1 re]|] eqn:Es; [|discriminate]. injection E as <- <-.
    destruct (Hh Whole ltac:(cbn; tauto)) as (gs & G1 & G2 & G3). pose proof (Hh Room ltac:(cbn; tauto)) as Hroom. cbn [heeds] in Hroom.
    rewrite zlen_app, O4 in Hroom. pose proof (zlen_nonneg bs) as Hbs.
    assert (Hgs4 : 4 <= zlen bs).
    { destruct gs as [|f gs]; [congruence|]. rewrite G2, zlen_cons_stream. pose proof (zlen_nonneg f). pose proof (zlen_nonneg (stream gs)). lia. }
    assert (Hask : r_called t <= zlen (stream fs) + zlen bs).
    { rewrite O9, Eh, stream_app, zlen_app. pose proof (zlen_nonneg (stream hs)). unfold asks. destruct (s_mpc (n_conn s)) as [ | |n|id d|k d|] eqn:Em; try lia.
      destruct (Hbody n eq_refl) as (f & hs' & -> & ->). rewrite zlen_cons_stream. pose proof (zlen_nonneg (stream hs')). lia. }
    assert (Hlegal : RingSpec.legal_call (WCall bs (zlen bs))) by (cbn; lia).
    assert (Hret : zlen (stream (frames evs)) <= r_returned t) by (rewrite O10; unfold has; destruct (s_mpc (n_conn s)); lia).
    assert (Ho : forall r, In r rules -> obeys r size t (WCall bs (zlen bs)) = true).
    { intros r Hr. cbn [In rules] in Hr. destruct Hr as [<-|[<-|[<-|[<-|[]]]]]; cbn [obeys]; try reflexivity.
      - apply andb_true_iff. rewrite !Z.leb_le. lia.
      - apply Z.leb_le. lia. }
    destruct (step_no_crash size _ _ g1 re O7 Hlegal Es) as [K1 K2].
    destruct (caller_step size t _ _ g1 re Hs O6 Ho Es K1 K2) as [_ HC1].
    pose proof (step_pinv size _ _ g1 re O7 Hlegal Es) as HP1.
    assert (F : re = [EWrite (firstn (Z.to_nat (zlen bs)) bs)]) by (cbn [step] in Es; destruct (g_w (n_ring s)); try discriminate; injection Es as _ <-; reflexivity). subst re.
    exists (fs ++ gs), (tally t (WCall bs (zlen bs)) [EWrite (firstn (Z.to_nat (zlen bs)) bs)]).
    constructor; cbn [n_dead n_closers n_conn n_ring]; rewrite ?app_nil_r; try assumption.
    + rewrite arrived_snoc. cbn. rewrite app_nil_r, stream_app. congruence.
    + apply Forall_app. auto.
    + cbn [tally called fold_left returned w_called]. rewrite stream_app, zlen_app, O8, G2. reflexivity.
  - destruct (n_rd s) eqn:Er; try discriminate. injection E as <- <-. exists fs, t. constructor; cbn [n_dead n_closers n_conn n_ring]; rewrite ?app_nil_r; try assumption.
    rewrite arrived_snoc. cbn. rewrite app_nil_r. exact O4.
  - destruct (Hh Open ltac:(cbn; tauto)).
  - rewrite O2 in E. destruct k; discriminate.
Qed.
