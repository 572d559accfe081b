(** * Proofs: endless executions of a whole connection (C86) *)
From Verif Require Import GoBase GoLemmas Encoder Decoder Spec EncProofs BufIO Msg01 Conn ConnSpec ConnProofs ConnProps ConnTable ConnFrames
  ConnRing ConnRingSpec ConnRingProofs ConnRingProps OrderlySpec OrderlyProofs OrderlyLive OrderlyBound OrderlyEnd LiveSpec LiveProofs EndlessSpec.
From Verif Require Ring RingSpec RingProofs RingProps CallerSpec CallerProofs ConnClose.
Local Open Scope Z_scope.
Ltac Zify.zify_post_hook ::= idtac.

(** One call, as in [all_return] but without looking at the others. *)
Lemma call_returns {R} raw cap (h : history R) : 4 <= cap -> happens raw cap h -> callers_move h -> (forall n, s_crashed (h_state h n) = false) ->
  LiveSpec.loop_moves h -> few_calls h -> forall k,
  (forall id n, In (EId k id) (past h n) -> In (EFlushed k None) (past h n) ->
     exists i buf size, In (ERegister k) (past h i) /\ In (EFrame buf size) (h_events h i) /\ carries buf size id) ->
  forall n, In (ECall k) (past h n) -> exists m res, In (EReturn k res) (past h m).
Proof.
  intros Hcap Hh Hfair Hok Hloop Hfew k Ha n H. destruct (called raw cap h Hh k n H) as (m & c & H1 & H2).
  destruct (flush_ends raw cap h Hcap Hh Hfair Hok k m c H1) as (m1 & c1 & fl & Hm1 & H3 & H4 & H5); [rewrite H2; reflexivity|].
  destruct fl as [x|]; [destruct (write_failed raw cap h Hh Hfair Hok k m1 x H5) as [m2 G]; eauto|].
  destruct (to_unlock raw cap h Hh Hfair Hok k m1 c1 None H3 H4) as (m2 & Hm2 & _ & c2 & H6 & H7).
  assert (Hid : exists id, In (EId k id) (past h m2)).
  { destruct (inv raw cap h Hcap Hh m2) as [I _]. pose proof (i_view _ _ _ I k) as V. rewrite H6 in V. exists (k_id c2). apply in_id_of. rewrite (v_id _ _ _ V), H7. left. reflexivity. }
  destruct Hid as [id Hid]. destruct (Ha id m2 Hid (past_in h m1 m2 _ Hm2 H5)) as (i & buf & size & Hr & Hf & Hc).
  assert (Hid2 : In (EId k id) (past h i)).
  { destruct (inv raw cap h Hcap Hh i) as [I _]. pose proof (i_view _ _ _ I k) as V.
    assert (Hx : In tt (registrations k (past h i))) by (unfold registrations; apply in_flat_map; exists (ERegister k); split; [exact Hr|cbn; rewrite Nat.eqb_refl; left; reflexivity]).
    destruct (nth_error (s_calls (h_state h i)) k) as [ci|] eqn:Ei; [|destruct V as (_ & E & _); rewrite E in Hx; contradiction].
    rewrite (v_reg _ _ _ V) in Hx. assert (Eid : id_of k (past h i) = [k_id ci]) by (rewrite (v_id _ _ _ V); destruct (k_pc ci); try contradiction; reflexivity).
    assert (E2 : In (EId k (k_id ci)) (past h i)) by (apply in_id_of; rewrite Eid; left; reflexivity).
    set (m3 := max i m2).
    assert (E3 : k_id ci = id).
    { destruct (inv raw cap h Hcap Hh m3) as [I3 _]. pose proof (i_view _ _ _ I3 k) as V3. assert (A : In (EId k (k_id ci)) (past h m3)) by (apply (past_in h i); [lia|exact E2]).
      assert (B : In (EId k id) (past h m3)) by (apply (past_in h m2); [lia|assumption]). apply in_id_of in A. apply in_id_of in B.
      destruct (nth_error (s_calls (h_state h m3)) k) as [c3|]; [|destruct V3 as (E & _); rewrite E in A; contradiction].
      rewrite (v_id _ _ _ V3) in A, B. destruct (k_pc c3); cbn in A, B; try contradiction; destruct A as [<-|[]]; destruct B as [<-|[]]; reflexivity. }
    rewrite <- E3. exact E2. }
  destruct (frame_replies raw cap h Hcap Hh Hok Hloop Hfew k id i buf size Hid2 Hr Hf Hc) as [m4 G4].
  destruct (wait_or_back raw cap h Hh Hok k m2 c2 H6 H7 (max m2 m4)) as (c5 & H8 & [H9|[r H9]]); [lia| |exists (max m2 m4), r; exact (returned_in raw cap h Hcap Hh k _ c5 r H8 H9)].
  apply (replied_returns raw cap h Hcap Hh Hfair Hok k (max m2 m4) c5 H8 H9). intros F. destruct (past_more h m4 (max m2 m4)) as [more Em]; [lia|]. rewrite Em, grow_rep in F.
  apply app_eq_nil in F. destruct F. congruence.
Qed.

(** ** Streams of frames *)
Lemma stream_prefix cap gs hs w : cap < 2 ^ 31 -> Forall (fun f => zlen f <= cap) gs -> Forall (fun f => zlen f <= cap) hs -> stream gs ++ w = stream hs ->
  exists hs', hs = gs ++ hs'.
Proof.
  intros Hc Hg Hh E. apply (parses_prefix (stream gs) gs [] (stream_parses cap gs Hc Hg) w hs []); [rewrite E; exact (stream_parses cap hs Hc Hh)|exact nothing_incomplete].
Qed.
Lemma stream_zlen_le fs gs hs ks : fs ++ ks = gs ++ hs -> zlen (stream gs) <= zlen (stream fs) -> exists fs', fs = gs ++ fs'.
Proof.
  revert gs. induction fs as [|f fs IH]; intros gs E L.
  - destruct gs as [|g gs]; [exists []; reflexivity|]. exfalso. rewrite zlen_cons_stream in L. change (zlen (stream [])) with 0 in L. pose proof (zlen_nonneg g). pose proof (zlen_nonneg (stream gs)). lia.
  - destruct gs as [|g gs]; [exists (f :: fs); reflexivity|]. cbn [app] in E. injection E as -> E. rewrite !zlen_cons_stream in L.
    destruct (IH gs E ltac:(lia)) as [fs' ->]. exists fs'. reflexivity.
Qed.

Section Endless.
Context {R : Type} (raw : rawconn) (size cap : Z) (y : story R).
Hypothesis (Hsize : 2 <= size < 2 ^ 31) (Hcap : 4 <= cap < 2 ^ 31) (Hy : EndlessSpec.told raw size cap y) (Hk : courteous size cap y).
Notation st := (y_state y).
Notation lab := (y_label y).

Lemma deeds_S n : deeds y (S n) = deeds y n ++ match lab n with Some a => [a] | None => [] end.
Proof. unfold deeds. rewrite seq_S, flat_map_app. cbn [flat_map Nat.add]. rewrite app_nil_r. reflexivity. Qed.
Lemma sights_S n : sights y (S n) = sights y n ++ y_events y n.
Proof. unfold sights. rewrite seq_S, flat_map_app. cbn [flat_map Nat.add]. rewrite app_nil_r. reflexivity. Qed.
Lemma each n : (lab n = None /\ st (S n) = st n /\ y_events y n = [] /\ deeds y (S n) = deeds y n /\ sights y (S n) = sights y n) \/
  exists a, lab n = Some a /\ nlegal a /\ nstep (st n) a = Some (st (S n), y_events y n) /\ deeds y (S n) = deeds y n ++ [a].
Proof.
  pose proof (proj2 Hy n) as H. pose proof (deeds_S n) as D. pose proof (sights_S n) as E. destruct (lab n) as [a|].
  - right. exists a. tauto.
  - left. destruct H as [H1 H2]. rewrite H2 in E. rewrite app_nil_r in D, E. auto.
Qed.
Lemma until n : nexecutes raw size cap (deeds y n) (st n) (sights y n).
Proof.
  induction n as [|n [IH1 IH2]].
  - split; [constructor|]. rewrite (proj1 Hy). reflexivity.
  - rewrite sights_S. destruct (each n) as [(_ & -> & -> & -> & _)|(a & _ & L & E & ->)].
    + rewrite app_nil_r. split; assumption.
    + apply (ConnClose.nexecutes_app raw size cap (deeds y n) [a] (st n)); [split; assumption|auto|]. cbn [nrun]. rewrite E, app_nil_r. reflexivity.
Qed.
Lemma heeded c n : always c raw size cap (deeds y n).
Proof.
  induction n as [|n IH]; [intros before a after s evs F; destruct before; discriminate|].
  destruct (each n) as [(_ & _ & _ & -> & _)|(a & La & _ & _ & ->)]; [exact IH|].
  intros before b after s evs E Hr. destruct after as [|x after] using rev_ind.
  - apply app_inj_tail in E. destruct E as [<- <-]. destruct (until n) as [_ H]. rewrite H in Hr. injection Hr as <- <-. apply Hk, La.
  - clear IHafter. rewrite app_comm_cons, app_assoc in E. apply app_inj_tail in E. destruct E as [E _]. exact (IH before b after s evs E Hr).
Qed.
Lemma orderly_at n : all_nsteps good_step (Connect raw size cap) (deeds y n) /\ exists fs t, OInv size cap (deeds y n) (st n) (sights y n) fs t.
Proof. apply (orderly raw size cap Hsize Hcap _ _ _ (until n)). intros c _. apply heeded. Qed.

Definition came n := zlen (arrived (deeds y n)).
Definition saw n := zlen (stream (frames (sights y n))).
Lemma sights_more n m : (n <= m)%nat -> exists more, sights y m = sights y n ++ more.
Proof.
  intros H. induction H as [|m H [more IH]]; [exists []; rewrite app_nil_r; reflexivity|].
  exists (more ++ y_events y m). rewrite sights_S, IH, app_assoc. reflexivity.
Qed.
Lemma deeds_more n m : (n <= m)%nat -> exists more, deeds y m = deeds y n ++ more.
Proof.
  intros H. induction H as [|m H [more IH]]; [exists []; rewrite app_nil_r; reflexivity|].
  rewrite deeds_S, IH, <- app_assoc. eexists. reflexivity.
Qed.
Lemma came_more n m : (n <= m)%nat -> came n <= came m.
Proof. intros H. destruct (deeds_more n m H) as [more E]. unfold came. rewrite E. unfold arrived. rewrite flat_map_app, zlen_app. pose proof (zlen_nonneg (flat_map (fun a : nlabel R => match a with LNet bs => bs | _ => [] end) more)). lia. Qed.
Lemma saw_more n m : (n <= m)%nat -> saw n <= saw m.
Proof. intros H. destruct (sights_more n m H) as [more E]. unfold saw. rewrite E, frames_app. apply zlen_stream_frames_le. Qed.
Lemma saw_came n : saw n <= came n.
Proof.
  destruct (orderly_frames raw size cap _ _ _ Hsize Hcap (until n)) as (_ & _ & more & E); [intros c _; apply heeded|]. unfold saw, came. rewrite E. apply zlen_stream_frames_le.
Qed.

(** What is left to do at [n] is at most [b]. *)
Definition remains n b := exists fs t, OInv size cap (deeds y n) (st n) (sights y n) fs t /\ left_to_do t (st n) <= b.
Lemma remains_start n : exists b, 0 <= b /\ remains n b.
Proof. destruct (orderly_at n) as [_ (fs & t & O)]. exists (left_to_do t (st n)). split; [exact (proj1 (left_bounds _ _ _ _ _ _ _ O))|]. exists fs, t. split; [exact O|lia]. Qed.
Lemma remains_nonneg n b : remains n b -> 0 <= b.
Proof. intros (fs & t & O & L). pose proof (left_bounds _ _ _ _ _ _ _ O). lia. Qed.
Lemma remains_S n b : remains n b -> match lab n with Some (LNet _) => True | Some a => remains (S n) (b - if loop_move a then 1 else 0) | None => remains (S n) b end.
Proof.
  intros (fs & t & O & L). destruct (each n) as [(-> & E1 & _ & E2 & E3)|(a & La & _ & E & D)].
  - exists fs, t. rewrite E1, E2, E3. auto.
  - rewrite La. destruct (orderly_at (S n)) as [_ (fs' & t' & O')]. destruct (orderly_at n) as [Hg _].
    pose proof (until (S n)) as U. rewrite D, sights_S in U. rewrite D, sights_S in O'.
    assert (G : match a with LNet _ => False | _ => True end -> remains (S n) (b - if loop_move a then 1 else 0)).
    { intros Ha. exists fs', t'. rewrite D, sights_S. split; [exact O'|].
      pose proof (move_progress raw size cap _ a _ _ _ _ fs t fs' t' Hsize Hcap (until n) U E Hg O O' Ha). lia. }
    destruct a; try (apply G; exact I). exact I.
Qed.
Lemma net_grows n bs : lab n = Some (LNet bs) -> came n + 4 <= came (S n) /\ came (S n) - saw n <= size - 2.
Proof.
  intros La. pose proof (deeds_S n) as D. rewrite La in D. unfold came. rewrite D.
  pose proof (Hk n (LNet bs) Whole La) as (fs & Hn & -> & _). pose proof (Hk n (LNet (stream fs)) Room La) as Hr. cbn [heeds] in Hr.
  rewrite arrived_snoc. change (arrived [LNet (stream fs)]) with (stream fs ++ []). rewrite app_nil_r. split; [|exact Hr].
  rewrite zlen_app. destruct fs as [|f fs]; [congruence|]. rewrite zlen_cons_stream. pose proof (zlen_nonneg f). pose proof (zlen_nonneg (stream fs)). lia.
Qed.
Lemma came_S n : (forall bs, lab n <> Some (LNet bs)) -> came (S n) = came n.
Proof.
  intros H. unfold came. rewrite deeds_S. destruct (lab n) as [a|]; [|rewrite app_nil_r; reflexivity]. rewrite arrived_snoc. destruct a; try (cbn; rewrite app_nil_r; reflexivity). exfalso. apply (H bs). reflexivity.
Qed.

Hypothesis (Hturn : loops_turn size cap y).
Definition rests n := at_rest all_courtesies size cap (deeds y n) (sights y n) (st n).
Definition busy n : bool := match lab n with Some (LNet _) => true | Some a => loop_move a | None => false end.

(** Sooner or later a frame is seen or nothing is left to do. *)
Lemma settles n : exists m, (n <= m)%nat /\ (rests m \/ saw n < saw m).
Proof.
  assert (G : forall r b n, size - 2 - (came n - saw n) <= Z.of_nat r -> remains n (Z.of_nat b) -> exists m, (n <= m)%nat /\ (rests m \/ saw n < saw m)).
  { clear n. induction r as [r IHr] using (well_founded_induction lt_wf). induction b as [b IHb] using (well_founded_induction lt_wf). intros n Hr Hb.
    destruct (Hturn n) as (m & Hm & Ht). destruct (search busy (S m - n) n) as [(i & H1 & H2 & H3)|F].
    - assert (A : remains i (Z.of_nat b) /\ came i = came n).
      { assert (Q : forall j, (n <= j <= i)%nat -> remains j (Z.of_nat b) /\ came j = came n).
        { intros j [J1 J2]. induction J1 as [|j J1 IH]; [auto|]. destruct IH as [Q1 Q2]; [lia|]. assert (F : busy j = false) by (apply H3; lia). unfold busy in F.
          pose proof (remains_S j _ Q1) as Q3. rewrite came_S; [|intros bs E; rewrite E in F; discriminate]. split; [|exact Q2].
          destruct (lab j) as [a|]; [|exact Q3]. destruct a; try discriminate F; cbn [loop_move] in Q3; rewrite Z.sub_0_r in Q3; exact Q3. }
        apply Q. lia. }
      destruct A as [A1 A2]. destruct (Z_lt_le_dec (saw n) (saw i)) as [S1|S1]; [exists i; split; [lia|auto]|].
      destruct (Z_lt_le_dec (saw n) (saw (S i))) as [S2|S2]; [exists (S i); split; [lia|auto]|].
      pose proof (saw_more n i ltac:(lia)) as M1. pose proof (saw_more i (S i) ltac:(lia)) as M2.
      assert (Next : forall m0, (S i <= m0)%nat /\ (rests m0 \/ saw (S i) < saw m0) -> exists m, (n <= m)%nat /\ (rests m \/ saw n < saw m)).
      { intros m0 [X1 X2]. exists m0. split; [lia|]. destruct X2 as [X2|X2]; [auto|right; lia]. }
      unfold busy in H2. pose proof (remains_S i _ A1) as Q. destruct (lab i) as [a|] eqn:La; [|discriminate].
      assert (Move : loop_move a = true -> exists m, (n <= m)%nat /\ (rests m \/ saw n < saw m)).
      { intros E. assert (Q' : remains (S i) (Z.of_nat b - 1)) by (destruct a; try discriminate E; exact Q). pose proof (remains_nonneg _ _ Q') as P.
        assert (N : (b - 1 < b)%nat) by lia. assert (P2 : size - 2 - (came (S i) - saw (S i)) <= Z.of_nat r).
        { rewrite came_S; [lia|]. intros bs F. rewrite La in F. injection F as ->. discriminate E. }
        destruct (IHb (b - 1)%nat N (S i) P2) as (m0 & X); [replace (Z.of_nat (b - 1)) with (Z.of_nat b - 1) by lia; exact Q'|]. exact (Next m0 X). }
      destruct a as [enc dec|k| |rb|bs|bs| |k]; try discriminate H2; try (apply Move; exact H2).
      destruct (net_grows i bs La) as [G1 G2]. destruct (remains_start (S i)) as (b' & B1 & B2).
      assert (N : (r - 4 < r)%nat) by lia. destruct (IHr (r - 4)%nat N (Z.to_nat b') (S i)) as (m0 & X); [lia|rewrite Z2Nat.id by exact B1; exact B2|]. exact (Next m0 X).
    - exists m. split; [exact Hm|]. left. destruct Ht as [(a & La & Ha)|Ht]; [|exact Ht]. exfalso.
      assert (E : busy m = false) by (apply F; lia). unfold busy in E. rewrite La in E. destruct a; try discriminate Ha; discriminate E. }
  destruct (remains_start n) as (b & B1 & B2). apply (G (Z.to_nat (size - 2 - (came n - saw n))) (Z.to_nat b) n); [lia|]. rewrite Z2Nat.id by exact B1. exact B2.
Qed.

Hypothesis (Hok : no_panic y).
Lemma rest_saw n : rests n -> consumed (st n) /\ saw n = came n.
Proof.
  intros H. destruct (orderly_delivered raw size cap _ _ _ Hsize Hcap (until n)) as [Q E]; [intros c _; apply heeded|apply Hok|exact H|].
  split; [exact Q|]. unfold saw, came. rewrite E. reflexivity.
Qed.
(** Everything that came is seen. *)
Lemma all_seen n : exists m, (n <= m)%nat /\ came n <= saw m.
Proof.
  assert (G : forall d i, (n <= i)%nat -> came n - saw i <= Z.of_nat d -> exists m, (n <= m)%nat /\ came n <= saw m).
  { induction d as [|d IH]; intros i Hi Hd; [exists i; split; [exact Hi|lia]|]. destruct (settles i) as (m & Hm & [S|S]).
    - exists m. split; [lia|]. destruct (rest_saw m S) as [_ E]. pose proof (came_more n m). lia.
    - apply (IH m); lia. }
  apply (G (Z.to_nat (came n - saw n)) n); lia.
Qed.

(** ** The connection without readLoop and ring *)
Definition conn_label n : option (clabel R) :=
  match lab n with
  | Some (LDo enc dec) => Some (DoCall enc dec)
  | Some (LCall k) => Some (CStep k)
  | Some LLoop => Some MStep
  | Some (LRing b) => match Ring.step (n_ring (st n)) b with Some (_, evs) => option_map MRead (bytes_read evs) | None => None end
  | _ => None
  end.
Definition conn_story : history R := mkHistory (fun n => n_conn (st n)) conn_label (y_events y).
Lemma conn_past n : past conn_story n = sights y n.
Proof. reflexivity. Qed.
Lemma not_dead n : n_dead (st n) = false.
Proof. destruct (orderly_at n) as [_ (fs & t & O)]. exact (o_dead _ _ _ _ _ _ _ O). Qed.
Lemma alive_at n : n_dead (st n) || s_crashed (n_conn (st n)) = false.
Proof. rewrite not_dead, Hok. reflexivity. Qed.
Lemma conn_happens : happens raw cap conn_story.
Proof.
  split; [cbn [conn_story h_state]; rewrite (proj1 Hy); reflexivity|]. intros n. cbn [conn_story h_label h_state h_events]. unfold conn_label.
  destruct (each n) as [(-> & E1 & E2 & _)|(a & La & L & E & _)]; [rewrite E1; auto|]. rewrite La.
  unfold nstep in E. rewrite alive_at in E. destruct a as [enc dec|k| |b|bs|bs| |k].
  - destruct (cstep (n_conn (st n)) (DoCall enc dec)) as [[c1 e1]|]; [|discriminate]. injection E as <- <-. split; [exact L|reflexivity].
  - destruct (cstep (n_conn (st n)) (CStep k)) as [[c1 e1]|]; [|discriminate]. injection E as <- <-. split; [exact I|reflexivity].
  - destruct (cstep (n_conn (st n)) MStep) as [[c1 e1]|]; [|discriminate]. destruct (call_readn c1 _); [|discriminate]. injection E as <- <-. split; [exact I|reflexivity].
  - destruct (inside b) eqn:Eb; [|discriminate]. destruct (Ring.step (n_ring (st n)) b) as [[g1 re]|] eqn:Es; [|discriminate]. cbn zeta in E.
    destruct (bytes_read re) as [bs|] eqn:Er; cbn [option_map].
    + destruct (cstep (n_conn (st n)) (MRead bs)) as [[c1 e1]|]; [|discriminate]. destruct (call_readn c1 g1); [|discriminate]. injection E as <- <-. split; [|reflexivity].
      assert (Rl : rb_label b) by (destruct b; try exact I; discriminate).
      apply (proj2 (rb_step _ _ _ _ (ring_bytes raw size cap _ _ _ (until n)) Rl Es)). apply bytes_read_in, Er.
    + injection E as <- <-. split; reflexivity.
  - destruct (n_rd (st n)); try discriminate. destruct (s_rawclosed _); [discriminate|]. destruct (Ring.step _ _) as [[g1 re]|]; [|discriminate]. injection E as <- <-. split; reflexivity.
  - destruct (n_rd (st n)); try discriminate. injection E as <- <-. split; reflexivity.
  - destruct (Hk n LClose Open La).
  - destruct (orderly_at n) as [_ (fs & t & O)]. rewrite (o_closers _ _ _ _ _ _ _ O) in E. destruct k; discriminate.
Qed.
Lemma conn_callers : callers_turn y -> callers_move conn_story.
Proof.
  intros H k n. destruct (H k n) as (m & Hm & [G|G]); exists m; (split; [exact Hm|]).
  - left. cbn [conn_story h_label]. unfold conn_label. rewrite G. reflexivity.
  - right. intros i Hi F. apply F. specialize (G i Hi). unfold nstep in G. rewrite alive_at in G. cbn [conn_story h_state].
    destruct (cstep (n_conn (st i)) (CStep k)) as [[c1 e1]|]; [discriminate|reflexivity].
Qed.
Lemma frame_label n buf sz : In (EFrame buf sz) (y_events y n) -> exists bs, conn_label n = Some (MRead bs) /\ s_mpc (n_conn (st n)) = MBody sz /\ sz <= zlen buf.
Proof.
  intros H. destruct (one_step raw cap conn_story conn_happens n) as [(_ & _ & E)|(a & La & L & E)]; cbn [conn_story h_label h_events h_state] in *; [rewrite E in H; contradiction|].
  destruct a as [enc dec|k| |bs| | |].
  4:{ destruct (inv raw cap conn_story ltac:(lia) conn_happens n) as [I _]. destruct (i_cap _ _ _ I) as [I1 I2]. destruct (i_buf _ _ _ I) as [B1 B2].
      cbn [conn_story h_state] in *. destruct (read_step _ _ _ _ L (eq_trans B2 (eq_sym I1)) ltac:(lia) E) as [_ [(v & _ & _ & _ & E2 & _)|(z & E1 & E2 & E3 & E4 & _)]].
      - rewrite E2 in H. contradiction.
      - rewrite E3 in H. destruct H as [H|[]]. injection H as <- <-. exists bs. split; [exact La|]. split; [exact E1|].
        unfold overwrite. rewrite zlen_app. unfold zlen in *. rewrite skipn_length. lia. }
  all: exfalso; match type of La with _ = Some ?b => assert (F : frames (y_events y n) = []) by (apply (other_step (n_conn (st n)) (n_conn (st (S n))) b _ L); [discriminate|exact E]) end;
    assert (G : In (firstn (Z.to_nat sz) buf) (frames (y_events y n))) by (unfold frames; apply in_flat_map; exists (EFrame buf sz); split; [exact H|left; reflexivity]); rewrite F in G; contradiction.
Qed.
(** When a given frame is seen. *)
Lemma frames_mono n m : (n <= m)%nat -> (length (frames (sights y n)) <= length (frames (sights y m)))%nat.
Proof. intros H. destruct (sights_more n m H) as [more ->]. rewrite frames_app, app_length. lia. Qed.
Lemma frame_when p f n : (length (frames (sights y n)) <= p)%nat -> forall m, nth_error (frames (sights y m)) p = Some f ->
  exists i buf sz, (n <= i)%nat /\ In (EFrame buf sz) (y_events y i) /\ firstn (Z.to_nat sz) buf = f.
Proof.
  intros Hp. induction m as [|m IH]; intros H; [destruct p; discriminate|].
  destruct (Nat.lt_ge_cases p (length (frames (sights y m)))) as [G|G].
  - rewrite sights_S, frames_app, nth_error_app1 in H by exact G. exact (IH H).
  - assert (Hn : (n <= m)%nat).
    { destruct (Nat.lt_ge_cases m n) as [F|F]; [|exact F]. exfalso. pose proof (frames_mono (S m) n F). assert (p < length (frames (sights y (S m))))%nat by (apply nth_error_Some; congruence). lia. }
    rewrite sights_S, frames_app, nth_error_app2 in H by exact G. apply nth_error_In in H. unfold frames in H. apply in_flat_map in H. destruct H as (x & H1 & H2).
    destruct x as [ | | | | | | |buf sz| | ]; cbn [In] in H2; try contradiction. destruct H2 as [H2|[]]. exists m, buf, sz. auto.
Qed.
Lemma conn_loop : LiveSpec.loop_moves conn_story.
Proof.
  intros n. cbn [conn_story h_label h_state]. destruct (settles n) as (m & Hm & [Q|Q]).
  - exists m. split; [exact Hm|]. right. intros F. apply F. destruct (rest_saw m Q) as [(C1 & _ & C3) _].
    destruct (ninv raw size cap _ _ _ ltac:(lia) (until m) (not_dead m)) as [_ N _]. unfold cstep. rewrite Hok. unfold loop_step. unfold n_at in N.
    destruct (s_mpc (n_conn (st m))); try reflexivity; rewrite N in C3; discriminate C3.
  - destruct (sights_more n m Hm) as [more E].
    assert (G : exists f, nth_error (frames (sights y m)) (length (frames (sights y n))) = Some f).
    { unfold saw in Q. rewrite E, frames_app in *. rewrite nth_error_app2, Nat.sub_diag by lia. destruct (frames more) as [|f fs]; [|eexists; reflexivity].
      rewrite app_nil_r in Q. lia. }
    destruct G as [f G]. destruct (frame_when _ f n (le_n _) m G) as (i & buf & sz & X1 & X2 & _).
    exists i. split; [exact X1|]. right. intros F. apply F. destruct (frame_label i buf sz X2) as (_ & _ & M & _). unfold cstep. rewrite Hok. unfold loop_step. rewrite M. reflexivity.
Qed.
(** A frame that comes is seen later. *)
Lemma frame_seen n fs f : lab n = Some (LNet (stream fs)) -> Forall (fun f => zlen f <= cap) fs -> In f fs ->
  exists i buf sz, (n <= i)%nat /\ In (EFrame buf sz) (y_events y i) /\ firstn (Z.to_nat sz) buf = f.
Proof.
  intros La Ffs Hf. destruct (orderly_at n) as [Hg (A & t & O)]. destruct (where_loop_is raw size cap _ _ _ A Hsize Hcap (until n) Hg (o_stream _ _ _ _ _ _ _ O) (o_fit _ _ _ _ _ _ _ O)) as (hs & EA & _).
  destruct (all_seen (S n)) as (m & Hm & L).
  assert (E1 : arrived (deeds y (S n)) = stream (A ++ fs)).
  { rewrite deeds_S, La, arrived_snoc, (o_stream _ _ _ _ _ _ _ O), stream_app. cbn. rewrite app_nil_r. reflexivity. }
  assert (F1 : Forall (fun f => zlen f <= cap) (A ++ fs)) by (apply Forall_app; split; [exact (o_fit _ _ _ _ _ _ _ O)|exact Ffs]).
  destruct (orderly_at m) as [Hg' (B & t' & O')]. destruct (where_loop_is raw size cap _ _ _ B Hsize Hcap (until m) Hg' (o_stream _ _ _ _ _ _ _ O') (o_fit _ _ _ _ _ _ _ O')) as (hs' & EB & _).
  destruct (deeds_more (S n) m Hm) as [more Em].
  assert (E2 : stream (A ++ fs) ++ arrived more = stream B) by (rewrite <- (o_stream _ _ _ _ _ _ _ O'), Em, <- E1; unfold arrived; rewrite flat_map_app; reflexivity).
  destruct (stream_prefix cap _ _ _ (proj2 Hcap) F1 (o_fit _ _ _ _ _ _ _ O') E2) as [B' EB'].
  destruct (stream_zlen_le (frames (sights y m)) (A ++ fs) B' hs') as [gs Eg]; [congruence|unfold came, saw in L; rewrite E1 in L; exact L|].
  apply in_split in Hf. destruct Hf as (f1 & f2 & ->).
  apply (frame_when (length (A ++ f1)) f n) with (m := m).
  - rewrite EA, !app_length. lia.
  - rewrite Eg, <- !app_assoc, app_assoc, nth_error_app2, Nat.sub_diag by lia. reflexivity.
Qed.

Hypothesis (Hfair : callers_turn y) (Hfew : fresh_ids y).
Theorem call_comes_back k n : answer_comes cap y k -> In (ECall k) (sights y n) -> exists m res, In (EReturn k res) (sights y m).
Proof.
  intros Ha. apply (call_returns raw cap conn_story (proj1 Hcap) conn_happens (conn_callers Hfair) Hok conn_loop Hfew k).
  intros id i Hid Hfl. destruct (Ha id i Hid Hfl) as (m & fs & tl & La & Ffs & Hin & Hreg).
  destruct (frame_seen m fs _ La Ffs Hin) as (j & buf & sz & Hj & He & Ef). exists j, buf, sz.
  destruct (frame_label j buf sz He) as (_ & _ & _ & Hz).
  split; [apply (past_in conn_story m j); assumption|]. split; [exact He|]. split; [|split; [exact Hz|exists tl; exact Ef]].
  destruct (inv raw cap conn_story (proj1 Hcap) conn_happens i) as [I _].
  assert (G : In id (ids (past conn_story i))) by (unfold ids; apply in_flat_map; exists (EId k id); split; [exact Hid|left; reflexivity]).
  rewrite (i_ids _ _ _ I) in G. apply in_map_iff in G. destruct G as (q & <- & _). apply ConnEnd.wrap32_range.
Qed.
End Endless.
