(** * Courteous networks and schedulers: how long it takes *)
From Verif Require Import GoBase GoLemmas Encoder Decoder Spec EncProofs BufIO Msg01 Conn ConnSpec ConnProofs ConnProps ConnFrames
  ConnRing ConnRingSpec ConnRingProofs ConnRingProps OrderlySpec OrderlyProofs OrderlyLive.
From Verif Require Ring RingSpec RingProofs RingProps RingSeq CallerSpec CallerProofs ConnClose.
Local Open Scope Z_scope.
Ltac Zify.zify_post_hook ::= idtac.
Import Ring RingProps CallerSpec CallerProofs.

(** ** What is left to do *)
Definition w_left (p : wpc) : Z :=
  match p with
  | WLoadNext _ n => n + 5 | WLoadStart _ n _ => n + 4 | WLoop l => w_n l - w_i l + 3
  | WEndRelease _ => 2 | WEndRelease_sel _ => 1 | _ => 0
  end.
Definition past (body : bool) : Z := if body then 0 else 4.
Definition r_left (body : bool) (p : rpc) : Z :=
  match p with
  | RLoadStart _ n => if body then 16 else 9 | RLoadNext _ n _ => if body then 15 else 8
  | RLoop l => if r_i l <? r_n l then 7 else 14 + past body
  | REmptyRelease _ => 6 | REmptyLoad _ => 5 | RWait _ => 4 | RWait_sel _ => 3 | RGet _ => 2
  | REndRelease _ => 13 + past body
  | _ => 0
  end.
Definition m_left (m : mpc) (p : rpc) : Z :=
  match m with MTop => 10 | MReply _ _ => 11 | MLookup _ _ => 12 | MDone => 0 | MHead => r_left false p | MBody _ => r_left true p end.
(** Bytes copied out so far. *)
Definition got (t : totals) (p : rpc) : Z :=
  match p with
  | RLoop l | REmptyRelease l | REmptyLoad l | RWait l | RWait_sel l | RGet l => r_returned t + r_i l
  | REndRelease _ => r_called t
  | _ => r_returned t
  end.
Definition ring_left (body : bool) (t : totals) (g : ring) : Z := 20 * (w_called t - got t (g_r g)) + w_left (g_w g) + r_left body (g_r g).

Lemma got_le N t g : CInv N t g -> 0 <= w_called t - got t (g_r g) <= w_called t - r_returned t.
Proof.
  intros [Hs (S & P & HS & HP & HSP & HPw & Hroom & HW & HR) Hrs Hrel Hws Hcl].
  destruct (g_r g) as [ |c m|c m pos|l|l|l|l|l|l|l|l|l| ]; cbn [rC got] in *; unfold rL in *; try contradiction; lia.
Qed.
Lemma w_left_le N t g : CInv N t g -> 0 <= w_left (g_w g) <= w_called t - r_returned t + 5.
Proof.
  intros [Hs (S & P & HS & HP & HSP & HPw & Hroom & HW & HR) Hrs Hrel Hws Hcl].
  destruct (g_w g) as [ |data m|data m pos|l|l|l|l|l|l|l|l|l| ]; cbn [wC w_left] in *; try contradiction; lia.
Qed.
Lemma m_left_le m p : 0 <= m_left m p <= 18.
Proof.
  assert (H : forall b, 0 <= r_left b p <= 18).
  { intros b. destruct p; cbn [r_left]; unfold past; try (destruct b; lia). destruct (r_i l <? r_n l), b; lia. }
  destruct m; cbn [m_left]; try lia; apply H.
Qed.

(** A step inside the ring leaves less to do; when ReadN returns, enough less for
    what follows. *)
Lemma ring_progress N t g b g' evs cap n body : CInv N t g -> inside b = true -> step g b = Some (g', evs) -> g_r g' <> RCrash -> g_w g' <> WCrash ->
  reading cap n (g_r g) -> 0 <= n -> (body = false -> 0 < n) ->
  ((forall bs, ~ In (ERead bs) evs) -> ring_left body t g' < ring_left body t g) /\
  (forall bs, In (ERead bs) evs -> 20 * (w_called t - r_called t) + w_left (g_w g') + 13 + past body <= ring_left body t g).
Proof.
  intros [Hs (S & P & HS & HP & HSP & HPw & Hroom & HW & HR) Hrs Hrel Hws Hcl] Hb H K1 K2 Hrd Hn Hbody.
  assert (NoR : evs = [] \/ evs = [EWrote] -> ring_left body t g' < ring_left body t g ->
    ((forall bs, ~ In (ERead bs) evs) -> ring_left body t g' < ring_left body t g) /\
    (forall bs, In (ERead bs) evs -> 20 * (w_called t - r_called t) + w_left (g_w g') + 13 + past body <= ring_left body t g)).
  { intros E L. split; [intros _; exact L|]. intros bs F. exfalso. destruct E as [-> | ->]; cbn in F; intuition discriminate. }
  unfold ring_left in *. destruct b; try discriminate Hb; cbn [step] in H.
  - unfold w_step in H. destruct (g_w g) as [ |data m|data m pos|l|l|l|l|l|l|l|l|l| ] eqn:Hw; try discriminate; try contradiction; cbn [wC] in HW.
    + injection H as <- <-. apply NoR; [auto|]. fields. cbn [w_left]. lia.
    + injection H as <- <-. apply NoR; [auto|]. fields. cbn [w_left w_n w_i]. lia.
    + destruct HW as (_ & _ & _ & W3 & _). destruct (w_i l <? w_n l) eqn:El.
      * cbn zeta in H. apply Z.ltb_lt in El. destruct (index (w_data l) (w_i l)) as [x|]; [destruct (store (g_cells g) (w_pos l) x) as [cells|]|]; injection H as <- <-; try (exfalso; apply K2; reflexivity).
        apply NoR; [auto|]. destruct (incr (incr (w_pos l) (g_size g)) (g_size g) =? w_start l); fields; unfold w_again; cbn [w_left w_n w_i]; lia.
      * cbn zeta in H. destruct (w_wrote l + 1 <? w_n l); injection H as <- <-; (apply NoR; [auto|]); fields; cbn [w_left]; lia.
    + destruct (g_rset g); injection H as <- <-; (apply NoR; [auto|]); fields; cbn [w_left]; lia.
  - unfold r_step in H.
    assert (Get : forall l, (g_r g = RLoop l \/ g_r g = RGet l) -> r_i l < r_n l -> r_get g l = Some (g', evs) ->
      evs = [] /\ 20 * (w_called t - got t (g_r g')) + w_left (g_w g') + r_left body (g_r g') < 20 * (w_called t - got t (g_r g)) + w_left (g_w g) + r_left body (g_r g)).
    { intros l Hl Hi E. unfold r_get in E. destruct (index (g_cells g) (r_pos l)); [destruct (r_i l <? r_cap l)|]; injection E as <- <-; try (exfalso; apply K1; reflexivity).
      split; [reflexivity|]. fields. cbn [got r_left r_i r_n]. assert (2 <= r_left body (g_r g)) by (destruct Hl as [-> | ->]; cbn [r_left]; rewrite ?(proj2 (Z.ltb_lt _ _) Hi); lia).
      replace (got t (g_r g)) with (r_returned t + r_i l) by (destruct Hl as [-> | ->]; reflexivity).
      unfold past. destruct (r_i l + 1 <? r_n l), body; lia. }
    destruct (g_r g) as [ |c m|c m pos|l|l|l|l|l|l|l|l|l| ] eqn:Er; try discriminate; try contradiction; cbn [rC reading] in HR, Hrd.
    + injection H as <- <-. apply NoR; [auto|]. fields. cbn [got r_left]. destruct body; lia.
    + injection H as <- <-. apply NoR; [auto|]. fields. cbn [got r_left r_i r_n]. destruct Hrd as [_ ->]. unfold past.
      destruct (Z.ltb_spec 0 n); destruct body; try specialize (Hbody eq_refl); lia.
    + destruct HR as ((R1 & R2 & R3) & _). destruct (Z.ltb_spec (r_i l) (r_n l)) as [Hi|Hi].
      * destruct (r_pos l =? r_next l).
        -- injection H as <- <-. apply NoR; [auto|]. fields. destruct (0 <? r_read l); cbn [got r_left]; rewrite (proj2 (Z.ltb_lt _ _) Hi); lia.
        -- destruct (Get l (or_introl eq_refl) Hi H) as [E L]. apply NoR; [left; exact E|exact L].
      * cbn zeta in H. assert (Ei : r_i l = r_n l) by lia. destruct (0 <? r_read l); injection H as <- <-.
        -- apply NoR; [auto|]. fields. cbn [got r_left]. rewrite (proj2 (Z.ltb_ge _ _) Hi). lia.
        -- split; [intros F; exfalso; apply (F (r_out l)); left; reflexivity|]. intros bs _. fields. cbn [got r_left]. rewrite (proj2 (Z.ltb_ge _ _) Hi). lia.
    + rewrite Hws in H. injection H as <- <-. apply NoR; [auto|]. fields. cbn [got r_left]. lia.
    + injection H as <- <-. apply NoR; [auto|]. fields. destruct (r_pos l =? g_next g); cbn [got r_left r_i]; lia.
    + destruct (g_rset g); injection H as <- <-; (apply NoR; [auto|]); fields; cbn [got r_left]; lia.
    + destruct (Get l (or_intror eq_refl) ltac:(tauto) H) as [E L]. apply NoR; [left; exact E|exact L].
    + rewrite Hws in H. injection H as <- <-. split; [intros F; exfalso; apply (F (r_out l)); left; reflexivity|]. intros bs _. fields. cbn [got r_left]. lia.
  - destruct (g_r g) eqn:Er; try discriminate. destruct (g_w g) eqn:Ew; try discriminate; cbn [r_waiting w_releasing andb] in H; try discriminate; try contradiction.
    unfold leave_both, w_leave in H; rewrite Ew in H; unfold r_leave in H; cbn [set_w g_r] in H; rewrite Er in H; injection H as <- <-. apply NoR; [auto|]. fields. cbn [got r_left w_left]. lia.
  - destruct (g_w g); cbn in H; try discriminate; contradiction.
  - rewrite Hcl in H. discriminate.
  - rewrite Hcl in H. discriminate.
Qed.
(** The writer alone, with the message loop outside ReadN. *)
Lemma writer_progress N t g b g' evs : CInv N t g -> inside b = true -> step g b = Some (g', evs) -> g_w g' <> WCrash -> g_r g = RIdle ->
  (forall bs, ~ In (ERead bs) evs) /\ w_left (g_w g') < w_left (g_w g) /\ g_r g' = RIdle.
Proof.
  intros [Hs (S & P & HS & HP & HSP & HPw & Hroom & HW & HR) Hrs Hrel Hws Hcl] Hb H K2 Er.
  assert (NoR : evs = [] \/ evs = [EWrote] -> w_left (g_w g') < w_left (g_w g) -> g_r g' = RIdle -> (forall bs, ~ In (ERead bs) evs) /\ w_left (g_w g') < w_left (g_w g) /\ g_r g' = RIdle).
  { intros E L Q. split; [|auto]. intros bs F. destruct E as [-> | ->]; cbn in F; intuition discriminate. }
  destruct b; try discriminate Hb; cbn [step] in H.
  - unfold w_step in H. destruct (g_w g) as [ |data m|data m pos|l|l|l|l|l|l|l|l|l| ] eqn:Hw; try discriminate; try contradiction; cbn [wC] in HW.
    + injection H as <- <-. apply NoR; [auto| |exact Er]. fields. cbn [w_left]. lia.
    + injection H as <- <-. apply NoR; [auto| |exact Er]. fields. cbn [w_left w_n w_i]. lia.
    + destruct HW as (_ & _ & _ & W3 & _). destruct (w_i l <? w_n l) eqn:El.
      * cbn zeta in H. apply Z.ltb_lt in El. destruct (index (w_data l) (w_i l)) as [x|]; [destruct (store (g_cells g) (w_pos l) x) as [cells|]|]; injection H as <- <-; try (exfalso; apply K2; reflexivity).
        apply NoR; [auto| |exact Er]. destruct (incr (incr (w_pos l) (g_size g)) (g_size g) =? w_start l); fields; unfold w_again; cbn [w_left w_n w_i]; lia.
      * cbn zeta in H. destruct (w_wrote l + 1 <? w_n l); injection H as <- <-; (apply NoR; [auto| |exact Er]); fields; cbn [w_left]; lia.
    + destruct (g_rset g); injection H as <- <-; (apply NoR; [auto| |exact Er]); fields; cbn [w_left]; lia.
  - unfold r_step in H. rewrite Er in H. discriminate.
  - rewrite Er in H. discriminate.
  - destruct (g_w g); cbn in H; try discriminate; contradiction.
  - rewrite Hcl in H. discriminate.
  - rewrite Hcl in H. discriminate.
Qed.

(** ** The connection *)
Definition left_to_do {R} (t : totals) (s : client R) : Z :=
  20 * (w_called t - got t (g_r (n_ring s))) + w_left (g_w (n_ring s)) + (if s_crashed (n_conn s) then 0 else m_left (s_mpc (n_conn s)) (g_r (n_ring s))).
Lemma left_bounds {R} size cap (sched : list (nlabel R)) s evs fs t : OInv size cap sched s evs fs t -> 0 <= left_to_do t s <= 21 * unseen sched evs + 23.
Proof.
  intros [O1 O2 O3 O4 O5 O6 O7 O8 O9 O10]. unfold left_to_do, unseen. rewrite O4. pose proof (got_le size t _ O6). pose proof (w_left_le size t _ O6).
  pose proof (m_left_le (s_mpc (n_conn s)) (g_r (n_ring s))).
  assert (zlen (stream (frames evs)) <= r_returned t) by (rewrite O10; unfold has; destruct (s_mpc (n_conn s)); lia).
  destruct (s_crashed (n_conn s)); lia.
Qed.
Lemma got_eq t t' p : r_returned t' = r_returned t -> r_called t' = r_called t -> got t' p = got t p.
Proof. intros H1 H2. destruct p; cbn [got]; congruence. Qed.

Lemma move_progress {R} raw size cap (sched : list (nlabel R)) a s evs s' e fs t fs' t' : 2 <= size < 2 ^ 31 -> 4 <= cap < 2 ^ 31 ->
  nexecutes raw size cap sched s evs -> nexecutes raw size cap (sched ++ [a]) s' (evs ++ e) -> nstep s a = Some (s', e) ->
  all_nsteps good_step (Connect raw size cap) sched ->
  OInv size cap sched s evs fs t -> OInv size cap (sched ++ [a]) s' (evs ++ e) fs' t' -> match a with LNet _ => False | _ => True end ->
  left_to_do t' s' + (if loop_move a then 1 else 0) <= left_to_do t s.
Proof.
  intros Hs Hc Hx Hx' E Hg [O1 O2 O3 O4 O5 O6 O7 O8 O9 O10] [U1 U2 U3 U4 U5 U6 U7 U8 U9 U10] Ha.
  assert (HNI : NInv cap s) by (apply (ninv raw size cap sched s evs); [lia|exact Hx|exact O1]). destruct HNI as [I1 I2 I3].
  assert (Hla : nlegal a) by (destruct Hx' as [L _]; apply Forall_app in L as [_ L]; inversion L; assumption).
  destruct (where_loop_is raw size cap sched s evs fs Hs Hc Hx Hg O4 O5) as (hs & Eh & Hbody).
  assert (Hpos : forall n, s_mpc (n_conn s) = MBody n -> 0 <= n).
  { intros n Hn. destruct (Hbody n Hn) as (f & hs' & _ & ->). apply zlen_nonneg. }
  assert (Earr : arrived (sched ++ [a]) = arrived sched) by (rewrite arrived_snoc; destruct a; try contradiction; cbn; apply app_nil_r).
  assert (Ew : w_called t' = w_called t) by (rewrite U8, O8, <- U4, <- O4, Earr; reflexivity).
  unfold nstep in E. destruct (n_dead s || s_crashed (n_conn s)) eqn:Hd; [discriminate|]. apply orb_false_iff in Hd. destruct Hd as [Hd Hcr].
  unfold left_to_do. rewrite Hcr, Ew.
  assert (Same : forall c1 g1, s_mpc c1 = s_mpc (n_conn s) -> g1 = n_ring s -> frames (evs ++ e) = frames evs -> n_conn s' = c1 -> n_ring s' = g1 ->
    20 * (w_called t - got t' (g_r (n_ring s'))) + w_left (g_w (n_ring s')) + (if s_crashed (n_conn s') then 0 else m_left (s_mpc (n_conn s')) (g_r (n_ring s'))) + 0 <=
    20 * (w_called t - got t (g_r (n_ring s))) + w_left (g_w (n_ring s)) + m_left (s_mpc (n_conn s)) (g_r (n_ring s))).
  { intros c1 g1 E1 -> E2 E3 E4. rewrite E3, E4 in *. rewrite E1, E2 in *. rewrite (got_eq t t') by congruence.
    pose proof (m_left_le (s_mpc (n_conn s)) (g_r (n_ring s))). destruct (s_crashed c1); lia. }
  destruct a as [enc dec|k| |b|bs|bs| |k]; cbn [loop_move].
  - destruct (cstep (n_conn s) (DoCall enc dec)) as [[c1 e1]|] eqn:Ec; [|discriminate]. injection E as <- <-.
    destruct (other_step _ _ (DoCall enc dec) _ Hla ltac:(discriminate) Ec) as (F1 & _ & _). pose proof (cstep_mpc _ _ _ _ Ec) as F2. cbn in F2.
    apply (Same c1 (n_ring s)); auto. rewrite frames_app, F1, app_nil_r. reflexivity.
  - destruct (cstep (n_conn s) (CStep k)) as [[c1 e1]|] eqn:Ec; [|discriminate]. injection E as <- <-.
    destruct (other_step _ _ (CStep k) _ Hla ltac:(discriminate) Ec) as (F1 & _ & _). pose proof (cstep_mpc _ _ _ _ Ec) as F2. cbn in F2.
    apply (Same c1 (n_ring s)); auto. rewrite frames_app, F1, app_nil_r. reflexivity.
  - destruct (cstep (n_conn s) MStep) as [[c1 e1]|] eqn:Ec; [|discriminate]. destruct (call_readn c1 (n_ring s)) as [g1|] eqn:Eg; [|discriminate]. injection E as <- <-.
    destruct (other_step _ _ MStep _ I ltac:(discriminate) Ec) as (F1 & _ & _). rewrite frames_app, F1, app_nil_r in U9, U10. destruct (cstep_mpc _ _ _ _ Ec) as [F2 F2'].
    cbn [n_conn n_ring] in *. unfold cstep in Ec. rewrite Hcr in Ec. unfold loop_step in Ec.
    assert (Out : s_mpc c1 <> MHead -> (forall n, s_mpc c1 <> MBody n) -> g1 = n_ring s).
    { intros N1 N2. unfold call_readn in Eg. destruct (s_mpc c1) eqn:Q; try congruence. }
    unfold n_at in I2. destruct (s_mpc (n_conn s)) as [ | |z|id d|k d|] eqn:Em; try contradiction; try discriminate; cbn [has asks m_left] in *.
    + rewrite O3 in Ec. injection Ec as <- _. cbn [set_mpc s_mpc s_crashed has asks] in *. rewrite Hcr.
      unfold call_readn in Eg. cbn [set_mpc s_mpc] in Eg. cbn [step] in Eg. rewrite I2 in Eg. injection Eg as <-. rewrite I2. fields. cbn [got m_left r_left]. lia.
    + destruct (s_requests (n_conn s) id) as [k|]; injection Ec as <- _; cbn [set_mpc set_requests s_mpc s_crashed has asks m_left] in *; rewrite Hcr;
      (rewrite Out by discriminate); rewrite I2; cbn [got]; lia.
    + destruct (nth_error (s_calls (n_conn s)) k) as [c|] eqn:Ek; [|discriminate].
      assert (G : m_left (s_mpc c1) (g_r g1) <= 10 \/ s_crashed c1 = true).
      { destruct (k_dec c d) as [r d'|x d'|]; [destruct (k_reply c); [discriminate|]..|]; injection Ec as <- _; cbn; auto; left; lia. }
      assert (G1 : has (s_mpc c1) = 0 /\ g1 = n_ring s).
      { destruct (k_dec c d) as [r d'|x d'|]; [destruct (k_reply c); [discriminate|]..|]; injection Ec as <- _; (split; [|apply Out; cbn; try rewrite Em; discriminate]); cbn; try rewrite Em; reflexivity. }
      destruct G1 as [G1 ->]. rewrite I2 in *. cbn [got]. rewrite U10, O10, G1. pose proof (m_left_le (s_mpc c1) RIdle).
      destruct G as [G|G]; [destruct (s_crashed c1); lia|rewrite G; lia].
  - destruct (inside b) eqn:Eb; [|discriminate]. destruct (step (n_ring s) b) as [[g1 re]|] eqn:Es; [|discriminate]. cbn zeta in E.
    destruct (step_no_crash size _ b g1 re O7 (inside_legal b Eb) Es) as [K1 K2].
    destruct (step_events _ _ _ _ Es Eb) as [Hw [(Q1 & Q2 & Q3)|(bs & Q1 & Q2 & Q3 & Q4)]]; rewrite Q1 in E.
    + injection E as <- <-. cbn [n_conn n_ring] in *. rewrite app_nil_r in U9, U10. rewrite Hcr, (got_eq t t') by congruence.
      assert (G : forall n body, reading cap n (g_r (n_ring s)) -> 0 <= n -> (body = false -> 0 < n) ->
        20 * (w_called t - got t (g_r g1)) + w_left (g_w g1) + r_left body (g_r g1) + 1 <= 20 * (w_called t - got t (g_r (n_ring s))) + w_left (g_w (n_ring s)) + r_left body (g_r (n_ring s))).
      { intros n body Hn Hp Hb. destruct (ring_progress size t _ b g1 re cap n body O6 Eb Es K2 K1 Hn Hp Hb) as [L _]. specialize (L Q3). unfold ring_left in L. lia. }
      assert (G0 : g_r (n_ring s) = RIdle -> got t (g_r g1) = got t (g_r (n_ring s)) /\ w_left (g_w g1) < w_left (g_w (n_ring s)) /\ g_r g1 = RIdle).
      { intros Er. destruct (writer_progress size t _ b g1 re O6 Eb Es K1 Er) as (_ & L & Er'). rewrite Er, Er'. auto. }
      unfold n_at in I2. destruct (s_mpc (n_conn s)) as [ | |z|id d|k d|]; cbn [m_left]; try (destruct (G0 I2) as (G1 & G2 & _); lia).
      * apply (G 4 false); [exact I2|lia|lia].
      * apply (G z true); [exact I2|apply Hpos; reflexivity|discriminate].
    + assert (Eb' : b = RStep) by (apply (read_returns size t _ b g1 re bs O6 Eb Es Q3)). subst b.
      destruct (cstep (n_conn s) (MRead bs)) as [[c1 e1]|] eqn:Ec; [|discriminate]. destruct (call_readn c1 g1) as [g2|] eqn:Eg; [|discriminate]. injection E as <- <-. cbn [n_conn n_ring] in *.
      assert (Hbs : Forall is_byte bs).
      { apply (rb_step _ RStep _ _ (ring_bytes raw size cap sched s evs Hx) I Es). exact Q3. }
      assert (Hbuf : zlen (s_rbuf (n_conn s)) = s_cap (n_conn s)).
      { destruct (project _ _ _ _ _ _ Hx) as (cs & rs & re' & P1 & _). destruct (ainv _ _ _ _ _ (proj1 Hc) P1) as [CI _].
        destruct (i_cap _ _ _ CI) as [Ecap _]. destruct (i_buf _ _ _ CI) as [_ Ebuf]. congruence. }
      destruct (read_step _ _ _ _ Hbs Hbuf ltac:(lia) Ec) as [R1 R2]. rewrite R1.
      assert (Gw : g_w g2 = g_w g1) by (unfold call_readn in Eg; destruct (s_mpc c1); try (injection Eg as <-; reflexivity); cbn [step] in Eg; rewrite Q4 in Eg; injection Eg as <-; reflexivity).
      rewrite Gw. rewrite frames_app in U10.
      destruct R2 as [(v & R3 & R4 & R5 & -> & R6)|(z & R3 & R4 & -> & R5 & R6)]; rewrite R3 in *; cbn [m_left n_at] in *.
      * destruct (ring_progress size t _ RStep g1 re cap 4 false O6 Eb Es K2 K1 I2 ltac:(lia) ltac:(lia)) as [_ L]. specialize (L bs Q3). unfold ring_left, past in L.
        rewrite R6 in *. unfold call_readn in Eg. rewrite R6 in Eg. cbn [step] in Eg. rewrite Q4 in Eg. injection Eg as <-. fields. cbn [got m_left r_left].
        cbn [frames flat_map has asks] in *. rewrite app_nil_r in U10. lia.
      * pose proof (Hpos z eq_refl) as Hz.
        destruct (ring_progress size t _ RStep g1 re cap z true O6 Eb Es K2 K1 I2 Hz ltac:(discriminate)) as [_ L]. specialize (L bs Q3). unfold ring_left, past in L.
        assert (E2 : g2 = g1) by (unfold call_readn in Eg; destruct R6 as [R6|(id & d & R6)]; rewrite R6 in Eg; injection Eg as <-; reflexivity). subst g2. rewrite Q4. cbn [got].
        assert (M : m_left (s_mpc c1) RIdle <= 12 /\ has (s_mpc c1) = 0) by (destruct R6 as [R6|(id & d & R6)]; rewrite R6; cbn; lia). destruct M as [M M'].
        rewrite M' in U10. cbn [frames flat_map] in U10. rewrite app_nil_r, stream_app, zlen_app, zlen_cons_stream, overwrite_firstn in U10 by exact R4.
        change (zlen (stream [])) with 0 in U10. cbn [asks] in O9. lia.
  - contradiction.
  - destruct (n_rd s) eqn:Er; try discriminate. injection E as <- <-. apply (Same (n_conn s) (n_ring s)); auto. rewrite app_nil_r. reflexivity.
  - injection E as <- <-. apply (Same (n_conn s) (n_ring s)); auto. rewrite app_nil_r. reflexivity.
  - rewrite O2 in E. destruct k; discriminate.
Qed.

Lemma loop_moves_snoc {R} (sched : list (nlabel R)) a : loop_moves (sched ++ [a]) = loop_moves sched + (if loop_move a then 1 else 0).
Proof. unfold loop_moves. rewrite filter_app, zlen_app. cbn. destruct (loop_move a); reflexivity. Qed.
Lemma moves_bounded {R} raw size cap : 2 <= size < 2 ^ 31 -> 4 <= cap < 2 ^ 31 -> forall (sched : list (nlabel R)) s evs, nexecutes raw size cap sched s evs ->
  forall more s' evs', nexecutes raw size cap (sched ++ more) s' evs' -> (forall c, In c safe_courtesies -> always c raw size cap (sched ++ more)) -> silent more ->
  loop_moves more <= 21 * unseen sched evs + 23.
Proof.
  intros Hs Hc sched s evs Hx more s' evs' Hx' Hk Hq.
  assert (G : forall fs t, OInv size cap sched s evs fs t -> exists fs' t', OInv size cap (sched ++ more) s' evs' fs' t' /\ left_to_do t' s' + loop_moves more <= left_to_do t s).
  { intros fs t O. revert s' evs' Hx' Hk Hq. induction more as [|a more IH] using rev_ind; intros s' evs' Hx' Hk Hq.
    - rewrite app_nil_r in *. assert (E : (s', evs') = (s, evs)) by (destruct Hx as [_ H1], Hx' as [_ H2]; congruence). injection E as -> ->. exists fs, t. split; [exact O|]. cbn. lia.
    - rewrite app_assoc in *. pose proof Hx' as [Hl' H']. apply Forall_app in Hl' as [Hl _]. destruct (nrun_snoc _ _ _ _ _ H') as (s1 & evs1 & e & H & E & ->).
      assert (Hk0 : forall c, In c safe_courtesies -> always c raw size cap (sched ++ more)) by (intros c Hin; exact (always_init c raw size cap _ a (Hk c Hin))).
      apply Forall_app in Hq as [Hq Ha]. inversion Ha as [|? ? Ha' _]; subst.
      destruct (IH s1 evs1 (conj Hl H) Hk0 Hq) as (fs1 & t1 & O' & L).
      destruct (orderly raw size cap Hs Hc (sched ++ more) s1 evs1 (conj Hl H) Hk0) as [Hg _].
      destruct (orderly raw size cap Hs Hc ((sched ++ more) ++ [a]) s' (evs1 ++ e) Hx' Hk) as [_ (fs2 & t2 & O2)].
      exists fs2, t2. split; [exact O2|]. rewrite loop_moves_snoc.
      pose proof (move_progress raw size cap _ a s1 evs1 s' e fs1 t1 fs2 t2 Hs Hc (conj Hl H) Hx' E Hg O' O2 Ha'). lia. }
  assert (Hk0 : forall c, In c safe_courtesies -> always c raw size cap sched).
  { intros c Hin before a after s0 evs0 E. apply (Hk c Hin before a (after ++ more) s0 evs0). rewrite E, <- app_assoc. reflexivity. }
  destruct (orderly raw size cap Hs Hc sched s evs Hx Hk0) as [_ (fs & t & O)]. destruct (G fs t O) as (fs' & t' & O' & L).
  pose proof (left_bounds _ _ _ _ _ _ _ O). pose proof (left_bounds _ _ _ _ _ _ _ O'). lia.
Qed.
