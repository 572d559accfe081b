(** * Courteous networks and schedulers: nothing is left behind *)
From Verif Require Import GoBase GoLemmas Encoder Decoder Spec EncProofs BufIO Msg01 Conn ConnSpec ConnProofs ConnProps ConnFrames
  ConnRing ConnRingSpec ConnRingProofs ConnRingProps OrderlySpec OrderlyProofs.
From Verif Require Ring RingSpec RingProofs RingProps RingSeq CallerSpec CallerProofs ConnClose.
Local Open Scope Z_scope.
Ltac Zify.zify_post_hook ::= idtac.
Import Ring RingProps CallerSpec CallerProofs.

(** A waiting reader has been told of whatever is in the ring, or will be. *)
Definition told (g : ring) : Prop :=
  match g_r g with
  | RIdle => True
  | RWait _ => g_w g = WIdle /\ g_start g = g_next g
  | RWait_sel _ => (w_releasing (g_w g) = false -> g_rset g = true) /\ (g_w g = WIdle -> g_start g = g_next g)
  | _ => g_w g = WIdle
  end /\
  match g_w g with WLoadNext _ n | WLoadStart _ n _ => 2 <= n | WLoop l => 2 <= w_n l | _ => True end.

Lemma told_step N t g b g' evs : CInv N t g -> inside b = true -> (b = RStep -> g_w g = WIdle) -> step g b = Some (g', evs) ->
  g_r g' <> RCrash -> g_w g' <> WCrash -> told g -> told g'.
Proof.
  intros [Hs (S & P & HS & HP & HSP & HPw & Hroom & HW & HR) Hrs Hrel Hws Hcl] Hb Hpause H K1 K2 [T1 T2]. destruct b; try discriminate Hb; cbn [step] in H.
  - unfold w_step in H. destruct (g_w g) as [ |data m|data m pos|l|l|l|l|l|l|l|l|l| ] eqn:Hw; try discriminate; try contradiction; cbn [wC] in HW.
    + injection H as <- <-. unfold told in *. fields. split; [|exact T2]. destruct (g_r g); try exact I; try discriminate T1; try (destruct T1; discriminate).
      destruct T1 as [T1 _]. split; [exact T1|discriminate].
    + injection H as <- <-. unfold told in *. fields. split; [|exact T2]. destruct (g_r g); try exact I; try discriminate T1; try (destruct T1; discriminate).
      destruct T1 as [T1 _]. split; [exact T1|discriminate].
    + destruct HW as (_ & _ & _ & _ & _ & W0 & _). destruct (w_i l <? w_n l).
      * destruct (index (w_data l) (w_i l)) as [x|]; [destruct (store (g_cells g) (w_pos l) x) as [cells|]|]; injection H as <- <-; try (exfalso; apply K2; reflexivity).
        destruct (incr (incr (w_pos l) (g_size g)) (g_size g) =? w_start l); unfold told in *; fields; (split; [|first [exact T2|exact I]]);
        destruct (g_r g); try exact I; try discriminate T1; try (destruct T1; discriminate); destruct T1 as [T1 _]; (split; [exact T1|discriminate]).
      * cbn zeta in H. rewrite W0 in H. replace (0 + 1 <? w_n l) with true in H by (symmetry; apply Z.ltb_lt; lia). injection H as <- <-. unfold told in *. fields. split; [|exact I].
        destruct (g_r g); try exact I; try discriminate T1; try (destruct T1; discriminate). destruct T1 as [T1 _]. split; [exact T1|discriminate].
    + destruct (g_rset g) eqn:Er.
      * injection H as <- <-. unfold told in *. fields. split; [|exact I]. specialize (Hrs eq_refl). destruct (g_r g); try discriminate Hrs. split; discriminate.
      * injection H as <- <-. unfold told in *. fields. split; [|exact I]. destruct (g_r g); try exact I; try discriminate T1; try (destruct T1; discriminate).
        destruct T1 as [T1 _]. specialize (T1 eq_refl). discriminate T1.
  - specialize (Hpause eq_refl). rewrite Hpause in *. unfold r_step in H.
    assert (Idle : forall h, g_w h = WIdle -> match g_r h with RWait _ | RWait_sel _ => False | _ => True end -> told h).
    { intros h E F. unfold told. rewrite E. split; [|exact I]. destruct (g_r h); try exact I; try reflexivity; contradiction. }
    assert (Get : forall l, r_get g l = Some (g', evs) -> told g').
    { intros l E. unfold r_get in E. destruct (index (g_cells g) (r_pos l)); [destruct (r_i l <? r_cap l)|]; injection E as <- _; apply Idle; try exact Hpause; exact I. }
    destruct (g_r g) as [ |c m|c m pos|l|l|l|l|l|l|l|l|l| ] eqn:Er; try discriminate; try contradiction; cbn [rC] in HR; try (injection H as <- _; apply Idle; [exact Hpause|exact I]).
    + destruct (r_i l <? r_n l).
      * destruct (r_pos l =? r_next l); [|exact (Get l H)]. injection H as <- _. destruct (0 <? r_read l); apply Idle; try exact Hpause; exact I.
      * cbn zeta in H. destruct (0 <? r_read l); injection H as <- _; apply Idle; try exact Hpause; exact I.
    + rewrite Hws in H. injection H as <- _. apply Idle; [exact Hpause|exact I].
    + injection H as <- _. destruct (r_pos l =? g_next g) eqn:E; [|apply Idle; [exact Hpause|exact I]].
      apply Z.eqb_eq in E. unfold told. fields. rewrite Hpause. split; [|exact I]. split; [reflexivity|]. destruct HR as ((_ & _ & R3) & _ & R4). congruence.
    + destruct (g_rset g) eqn:Ers; [specialize (Hrs eq_refl); discriminate Hrs|]. injection H as <- _. unfold told. destruct T1 as [_ T1]. fields. rewrite Hpause. split; [|exact I].
      split; [reflexivity|]. intros _. exact T1.
    + exact (Get l H).
    + rewrite Hws in H. injection H as <- _. apply Idle; [exact Hpause|exact I].
  - destruct (g_r g) eqn:Er; try discriminate. destruct (g_w g) eqn:Ew; try discriminate; cbn [r_waiting w_releasing andb] in H; try discriminate; try contradiction.
    unfold leave_both, w_leave in H; rewrite Ew in H; unfold r_leave in H; cbn [set_w g_r] in H; rewrite Er in H; injection H as <- _. unfold told. fields. auto.
  - destruct (g_w g); cbn in H; try discriminate; contradiction.
  - rewrite Hcl in H. discriminate.
  - rewrite Hcl in H. discriminate.
Qed.

Lemma told_call {R} (c : conn R) g g' : g_w g = WIdle -> told g -> call_readn c g = Some g' -> told g'.
Proof.
  intros Hw Ht H. unfold call_readn in H. destruct (s_mpc c); try (injection H as <-; exact Ht);
  cbn [step] in H; destruct (g_r g); try discriminate; injection H as <-; unfold told; fields; rewrite Hw; auto.
Qed.

(** The message loop returns only when it finds the connection closed. *)
Lemma cstep_goes_on {R} (s s' : conn R) a e : s_mpc s <> MDone -> s_closed s = false -> cstep s a = Some (s', e) -> s_mpc s' <> MDone.
Proof.
  intros Hm Hcl H. unfold cstep in H. destruct (s_crashed s); [discriminate|]. destruct a as [enc dec|k| |bs| | |].
  - injection H as <- <-. exact Hm.
  - destruct (nth_error (s_calls s) k) as [c|] eqn:Ek; [|discriminate]. unfold call_step in H.
    destruct (k_pc c) as [ | | |[|p pieces] err b fl|[x|]| |r] eqn:Ep; try discriminate; try (injection H as <- <-; exact Hm).
    + destruct (s_lock s) eqn:El; [discriminate|]. destruct (transmit _ _ _ _) as [[err b] fl] eqn:Et. injection H as <- <-. exact Hm.
    + destruct (k_reply c) as [r|] eqn:Er; [|discriminate]. injection H as <- <-. exact Hm.
  - unfold loop_step in H. destruct (s_mpc s) as [ | |size|id d|k d|] eqn:Em; try discriminate.
    + rewrite Hcl in H. injection H as <- <-. cbn. discriminate.
    + destruct (s_requests s id) as [k|] eqn:Er; injection H as <- <-; cbn; discriminate.
    + destruct (nth_error (s_calls s) k) as [c|] eqn:Ek; [|discriminate].
      destruct (k_dec c d) as [r d'|x d'|] eqn:Ed; [destruct (k_reply c); [discriminate|]..|]; injection H as <- <-; cbn; try discriminate; rewrite ?Em; discriminate.
  - unfold loop_read in H. destruct (s_mpc s) as [ | |size|id d|k d|] eqn:Em; try discriminate.
    + destruct (zlen bs =? 4); [|discriminate]. cbn zeta in H. destruct (dInt32 _); injection H as <- <-; cbn; try discriminate; rewrite ?Em; discriminate.
    + destruct (_ && _); [|discriminate]. cbn zeta in H. destruct (ResponseHeader_Decode _ _ _); injection H as <- <-; cbn; try discriminate; rewrite ?Em; discriminate.
  - destruct (s_mpc s) eqn:Em; try discriminate. destruct (s_cap s <? size); [|discriminate]. injection H as <- <-. cbn. try discriminate; rewrite ?Em; discriminate.
  - injection H as <- <-. exact Hm.
  - injection H as <- <-. exact Hm.
Qed.

Lemma safe_of_all {R} raw size cap (sched : list (nlabel R)) : (forall c, always c raw size cap sched) -> forall c, In c safe_courtesies -> always c raw size cap sched.
Proof. auto. Qed.
Lemma told_always {R} raw size cap : 2 <= size < 2 ^ 31 -> 4 <= cap < 2 ^ 31 -> forall (sched : list (nlabel R)) s evs,
  nexecutes raw size cap sched s evs -> (forall c, always c raw size cap sched) -> told (n_ring s) /\ s_mpc (n_conn s) <> MDone.
Proof.
  intros Hs Hc. induction sched as [|a sched IH] using rev_ind; intros s' evs' Hx Hk.
  { destruct Hx as [_ H]. injection H as <- <-. split; [split; exact I|discriminate]. }
  pose proof Hx as [Hl' H']. apply Forall_app in Hl' as [Hl Ha]. inversion Ha as [|? ? La _]; subst. clear Ha.
  destruct (nrun_snoc _ _ _ _ _ H') as (s & evs & e & H & E & ->).
  assert (Hk0 : forall c, always c raw size cap sched) by (intros c; exact (always_init c raw size cap sched a (Hk c))).
  destruct (IH s evs (conj Hl H) Hk0) as [T M]. clear IH.
  destruct (orderly raw size cap Hs Hc sched s evs (conj Hl H) (safe_of_all _ _ _ _ Hk0)) as [_ (fs & t & [O1 O2 O3 O4 O5 O6 O7 O8 O9 O10])].
  assert (Hh : forall c, heeds c size cap sched evs s a) by (intros c; apply (always_last c raw size cap sched a s evs (Hk c) H)).
  assert (HNI : NInv cap s) by (apply (ninv raw size cap sched s evs); [lia|exact (conj Hl H)|exact O1]). destruct HNI as [I1 I2 I3].
  unfold nstep in E. destruct (n_dead s || s_crashed (n_conn s)) eqn:Hd; [discriminate|].
  destruct a as [enc dec|k| |b|bs|bs| |k].
  - destruct (cstep (n_conn s) (DoCall enc dec)) as [[c1 e1]|] eqn:Ec; [|discriminate]. injection E as <- <-. split; [exact T|exact (cstep_goes_on _ _ _ _ M O3 Ec)].
  - destruct (cstep (n_conn s) (CStep k)) as [[c1 e1]|] eqn:Ec; [|discriminate]. injection E as <- <-. split; [exact T|exact (cstep_goes_on _ _ _ _ M O3 Ec)].
  - destruct (cstep (n_conn s) MStep) as [[c1 e1]|] eqn:Ec; [|discriminate]. destruct (call_readn c1 (n_ring s)) as [g1|] eqn:Eg; [|discriminate]. injection E as <- <-.
    split; [exact (told_call c1 _ _ (pause_idle size t (n_ring s) (n_rd s) O6 I3 (Hh LoopPauses)) T Eg)|exact (cstep_goes_on _ _ _ _ M O3 Ec)].
  - destruct (inside b) eqn:Eb; [|discriminate]. destruct (step (n_ring s) b) as [[g1 re]|] eqn:Es; [|discriminate]. cbn zeta in E.
    destruct (step_no_crash size _ b g1 re O7 (inside_legal b Eb) Es) as [K1 K2].
    assert (Hp : b = RStep -> g_w (n_ring s) = WIdle) by (intros ->; exact (pause_idle size t (n_ring s) (n_rd s) O6 I3 (Hh LoopPauses))).
    pose proof (told_step size t _ b g1 re O6 Eb Hp Es K2 K1 T) as T'.
    destruct (step_events _ _ _ _ Es Eb) as [Hw [(Q1 & Q2 & Q3)|(bs & Q1 & Q2 & Q3 & Q4)]]; rewrite Q1 in E; [injection E as <- <-; split; assumption|].
    assert (Eb' : b = RStep) by (apply (read_returns size t _ b g1 re bs O6 Eb Es Q3)). subst b.
    destruct (cstep (n_conn s) (MRead bs)) as [[c1 e1]|] eqn:Ec; [|discriminate]. destruct (call_readn c1 g1) as [g2|] eqn:Eg; [|discriminate]. injection E as <- <-.
    split; [|exact (cstep_goes_on _ _ _ _ M O3 Ec)].
    refine (told_call c1 _ _ _ T' Eg). destruct (inside_writer _ _ _ _ Es Eb) as [W1 W2]. destruct (wrote re); [apply W1; reflexivity|apply W2; [reflexivity|exact (Hp eq_refl)]].
  - destruct (n_rd s) eqn:Er; try discriminate. destruct (s_rawclosed (n_conn s)); [discriminate|].
    destruct (step (n_ring s) (WCall bs (zlen bs))) as [[g1 re]|] eqn:Es; [|discriminate]. injection E as <- <-. split; [|exact M]. cbn [n_ring].
    destruct (Hh Whole) as (gs & G1 & G2 & G3). pose proof (Hh NetPauses) as Hn. cbn [heeds] in Hn.
    assert (4 <= zlen bs).
    { destruct gs as [|f gs]; [congruence|]. rewrite G2, zlen_cons_stream. pose proof (zlen_nonneg f). pose proof (zlen_nonneg (stream gs)). lia. }
    cbn [step] in Es. destruct (g_w (n_ring s)) eqn:Ew; try discriminate. injection Es as <- _. unfold told in *. fields. rewrite Ew in T. split; [|lia].
    destruct (g_r (n_ring s)); try exact I; destruct Hn as [Hn|Hn]; try discriminate Hn. destruct T as [[T _] _]. split; [exact T|discriminate].
  - destruct (n_rd s) eqn:Er; try discriminate. injection E as <- <-. split; assumption.
  - destruct (Hh Open).
  - rewrite O2 in E. destruct k; discriminate.
Qed.

(** ** At rest everything has been seen *)
Lemma rest_consumed {R} raw size cap (sched : list (nlabel R)) s evs : 2 <= size < 2 ^ 31 -> 4 <= cap < 2 ^ 31 -> nexecutes raw size cap sched s evs ->
  (forall c, always c raw size cap sched) -> s_crashed (n_conn s) = false -> at_rest all_courtesies size cap sched evs s -> consumed s.
Proof.
  intros Hs Hc Hx Hk Hcr HR0. assert (Hc' : 4 <= cap) by lia.
  destruct (told_always raw size cap Hs Hc sched s evs Hx Hk) as [T M].
  destruct (orderly raw size cap Hs Hc sched s evs Hx (safe_of_all _ _ _ _ Hk)) as [_ (fs & t & [O1 O2 O3 O4 O5 O6 O7 O8 O9 O10])].
  destruct (ninv raw size cap sched s evs ltac:(lia) Hx O1) as [I1 I2 I3]. destruct (composition_free raw size cap sched s evs Hc' Hx O1 Hcr) as (F1 & F2 & _).
  assert (NR : forall b, inside b = true -> (b = RStep -> n_rd s <> RdWrite) -> step (n_ring s) b = None).
  { intros b Hb Hp. destruct (step (n_ring s) b) eqn:E; [|reflexivity]. exfalso. apply (F1 b Hb); [congruence|]. apply HR0; [reflexivity|].
    intros c _. destruct c; try exact I. cbn [heeds]. destruct b; try exact I. left. apply Hp. reflexivity. }
  pose proof (NR WStep eq_refl ltac:(discriminate)) as NW. pose proof (NR SyncRead eq_refl ltac:(discriminate)) as NS. cbn [step] in NW, NS.
  destruct O6 as [Hsz (S & P & HS & HP & HSP & HPw & Hroom & HW & HR) Hrs Hrel Hws Hcl].
  (* the writer is outside *)
  assert (Ew : g_w (n_ring s) = WIdle).
  { unfold w_step in NW. destruct (g_w (n_ring s)) as [ |data m|data m pos|l|l|l|l|l|l|l|l|l| ] eqn:Hw; try discriminate; try contradiction; try reflexivity; exfalso.
    - destruct (w_i l <? w_n l).
      + destruct (index (w_data l) (w_i l)); [destruct (store (g_cells (n_ring s)) (w_pos l) z)|]; discriminate.
      + cbn zeta in NW. destruct (w_wrote l + 1 <? w_n l); discriminate.
    - destruct (g_rset (n_ring s)); discriminate.
    - destruct (Hrel eq_refl) as [W _]. rewrite W in NS. cbn [w_releasing andb] in NS. unfold leave_both, w_leave in NS. rewrite Hw in NS. unfold r_leave in NS. cbn [set_w g_r] in NS.
      destruct (g_r (n_ring s)); try discriminate W. discriminate NS. }
  assert (Hrd : n_rd s <> RdWrite) by (intros F; apply I3 in F; congruence).
  pose proof (NR RStep eq_refl (fun _ => Hrd)) as NRd. cbn [step] in NRd.
  assert (NL : cstep (n_conn s) MStep = None).
  { destruct (cstep (n_conn s) MStep) eqn:E; [|reflexivity]. exfalso. apply F2; [congruence|]. apply HR0; [reflexivity|]. intros c _. destruct c; try exact I. left. exact Hrd. }
  split; [exact Hrd|].
  (* the reader waits *)
  assert (Rd : forall n, reading cap n (g_r (n_ring s)) -> r_waiting (g_r (n_ring s)) = true /\ g_start (n_ring s) = g_next (n_ring s)).
  { intros n Hn. unfold told in T. rewrite Ew in T. destruct T as [T _]. unfold r_step in NRd.
    destruct (g_r (n_ring s)) as [ |c m|c m pos|l|l|l|l|l|l|l|l|l| ] eqn:Er; try discriminate; try contradiction.
    - exfalso. assert (G : r_get (n_ring s) l <> None) by (unfold r_get; destruct (index (g_cells (n_ring s)) (r_pos l)); [destruct (r_i l <? r_cap l)|]; discriminate).
      destruct (r_i l <? r_n l); [destruct (r_pos l =? r_next l); [discriminate|contradiction]|]. cbn zeta in NRd. destruct (0 <? r_read l); discriminate.
    - exfalso. destruct (g_wset (n_ring s)); discriminate.
    - exfalso. destruct (g_rset (n_ring s)); discriminate.
    - split; [reflexivity|]. apply T. reflexivity.
    - exfalso. assert (G : r_get (n_ring s) l <> None) by (unfold r_get; destruct (index (g_cells (n_ring s)) (r_pos l)); [destruct (r_i l <? r_cap l)|]; discriminate). contradiction.
    - exfalso. destruct (g_wset (n_ring s)); discriminate. }
  assert (Fin : forall n, reading cap n (g_r (n_ring s)) -> RingSpec.occupancy (n_ring s) = 0 /\ r_waiting (g_r (n_ring s)) = true).
  { intros n Hn. destruct (Rd n Hn) as [W E]. split; [|exact W]. unfold RingSpec.occupancy. rewrite E, Z.sub_diag. apply Zmod_0_l. }
  destruct (project _ _ _ _ _ _ Hx) as (cs & rs & re & P1 & P2 & _). destruct (ainv _ _ _ _ _ Hc' P1) as [CI _].
  unfold cstep, loop_step in NL. rewrite Hcr in NL.
  unfold n_at in I2. destruct (s_mpc (n_conn s)) as [ | |n|id d|k d|] eqn:Em.
  - exfalso. rewrite ?O3 in NL. discriminate NL.
  - exact (Fin _ I2).
  - exact (Fin _ I2).
  - exfalso. destruct (s_requests (n_conn s) id); discriminate.
  - exfalso. destruct (i_mreply _ _ _ CI _ _ Em) as (M1 & _ & id & rw & sz & M3 & _). pose proof (i_view _ _ _ CI k) as Vk.
    destruct (nth_error (s_calls (n_conn s)) k) as [c|] eqn:Ek; [|destruct Vk as (V1 & _); rewrite M3 in V1; discriminate].
    pose proof (v_reply _ _ _ Vk) as Vr. rewrite M1 in Vr.
    assert (Hrep : k_reply c = None). { destruct (k_reply c); [|reflexivity]. exfalso. destruct (k_pc c) as [ | | | | | |[x|r0]]; discriminate Vr. }
    rewrite Hrep in NL. destruct (k_dec c d); discriminate.
  - exfalso. exact (M eq_refl).
Qed.
