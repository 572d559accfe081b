(** * Courteous networks and schedulers: everything is delivered *)
From Verif Require Import GoBase GoLemmas Encoder Decoder Spec SchemaSpec EncProofs Link AllMessages MsgProps BrokerTable Broker BrokerSpec BufIO Msg01
  Conn ConnSpec ConnProofs ConnProps ConnFrames ConnRing ConnRingSpec ConnRingProofs ConnRingProps EndSpec ConnEnd OrderlySpec OrderlyProofs OrderlyLive OrderlyBound.
From Verif Require Ring RingSpec RingProofs RingProps CallerSpec CallerProofs.
Local Open Scope Z_scope.
Ltac Zify.zify_post_hook ::= idtac.

Lemma orderly_frames {R} raw size cap (sched : list (nlabel R)) s evs : 2 <= size < 2 ^ 31 -> 4 <= cap < 2 ^ 31 -> nexecutes raw size cap sched s evs ->
  (forall c, In c safe_courtesies -> always c raw size cap sched) ->
  n_dead s = false /\ all_nsteps good_step (Connect raw size cap) sched /\ exists more, arrived sched = stream (frames evs ++ more).
Proof.
  intros Hs Hc Hx Hk. destruct (orderly raw size cap Hs Hc sched s evs Hx Hk) as [Hg (fs & t & O)]. destruct O as [O1 O2 O3 O4 O5 O6 O7 O8 O9 O10].
  split; [exact O1|]. split; [exact Hg|]. destruct (where_loop_is raw size cap sched s evs fs Hs Hc Hx Hg O4 O5) as (hs & Eh & _). exists hs. congruence.
Qed.
Lemma orderly_delivered {R} raw size cap (sched : list (nlabel R)) s evs : 2 <= size < 2 ^ 31 -> 4 <= cap < 2 ^ 31 -> nexecutes raw size cap sched s evs ->
  (forall c, In c all_courtesies -> always c raw size cap sched) -> s_crashed (n_conn s) = false -> at_rest all_courtesies size cap sched evs s ->
  consumed s /\ arrived sched = stream (frames evs).
Proof.
  intros Hs Hc Hx Hk Hcr Hr. assert (Hk' : forall c, always c raw size cap sched) by (intros c; apply Hk; destruct c; cbn; tauto).
  pose proof (rest_consumed raw size cap sched s evs Hs Hc Hx Hk' Hcr Hr) as Hq. split; [exact Hq|].
  destruct (orderly raw size cap Hs Hc sched s evs Hx (safe_of_all _ _ _ _ Hk')) as [Hg (fs & t & O)]. destruct O as [O1 O2 O3 O4 O5 O6 O7 O8 O9 O10].
  destruct (all_frames_consumed raw size cap sched s evs Hs (proj1 Hc) Hx Hg O1 Hq) as (rest & P1 & P2).
  destruct (parses_complete_unique (arrived sched) fs [] (frames evs) rest) as [-> _]; try assumption; [rewrite O4; apply (stream_parses cap); [lia|exact O5]|apply nothing_incomplete].
Qed.
Lemma cstep_rawclosed {R} (s s' : conn R) a e : legal a -> a <> RawClose -> cstep s a = Some (s', e) -> s_rawclosed s' = s_rawclosed s.
Proof.
  intros _ Ha H. unfold cstep in H. destruct (s_crashed s); [discriminate|]. destruct a as [enc dec|k| |bs| | |].
  - injection H as <- <-. reflexivity.
  - destruct (nth_error (s_calls s) k) as [c|] eqn:Ek; [|discriminate]. unfold call_step in H.
    destruct (k_pc c) as [ | | |[|p pieces] err b fl|[x|]| |r] eqn:Ep; try discriminate; try (injection H as <- <-; reflexivity).
    + destruct (s_lock s) eqn:El; [discriminate|]. destruct (transmit _ _ _ _) as [[err b] fl] eqn:Et. injection H as <- <-. reflexivity.
    + destruct (k_reply c) as [r|] eqn:Er; [|discriminate]. injection H as <- <-. reflexivity.
  - unfold loop_step in H. destruct (s_mpc s) as [ | |size|id d|k d|] eqn:Em; try discriminate.
    + injection H as <- <-. reflexivity.
    + destruct (s_requests s id) as [k|] eqn:Er; injection H as <- <-; reflexivity.
    + destruct (nth_error (s_calls s) k) as [c|] eqn:Ek; [|discriminate].
      destruct (k_dec c d) as [r d'|x d'|] eqn:Ed; [destruct (k_reply c); [discriminate|]..|]; injection H as <- <-; reflexivity.
  - unfold loop_read in H. destruct (s_mpc s) as [ | |size|id d|k d|] eqn:Em; try discriminate.
    + destruct (zlen bs =? 4); [|discriminate]. cbn zeta in H. destruct (dInt32 _); injection H as <- <-; reflexivity.
    + destruct (_ && _); [|discriminate]. cbn zeta in H. destruct (ResponseHeader_Decode _ _ _); injection H as <- <-; reflexivity.
  - destruct (s_mpc s) eqn:Em; try discriminate. destruct (s_cap s <? size); [|discriminate]. injection H as <- <-. reflexivity.
  - injection H as <- <-. reflexivity.
  - congruence.
Qed.

Lemma raw_open {R} raw size cap : 2 <= size < 2 ^ 31 -> 4 <= cap < 2 ^ 31 -> forall (sched : list (nlabel R)) s evs,
  nexecutes raw size cap sched s evs -> (forall c, In c safe_courtesies -> always c raw size cap sched) -> s_rawclosed (n_conn s) = false.
Proof.
  intros Hs Hc. induction sched as [|a sched IH] using rev_ind; intros s' evs' Hx Hk.
  { destruct Hx as [_ H]. injection H as <- <-. reflexivity. }
  pose proof Hx as [Hl' H']. apply Forall_app in Hl' as [Hl Ha]. inversion Ha as [|? ? La _]; subst. clear Ha.
  destruct (nrun_snoc _ _ _ _ _ H') as (s & evs & e & H & E & ->).
  assert (Hk0 : forall c, In c safe_courtesies -> always c raw size cap sched) by (intros c Hin; exact (always_init c raw size cap sched a (Hk c Hin))).
  pose proof (IH s evs (conj Hl H) Hk0) as T. clear IH.
  destruct (orderly raw size cap Hs Hc sched s evs (conj Hl H) Hk0) as [_ (fs & t & O)]. pose proof (o_closers _ _ _ _ _ _ _ O) as O2.
  pose proof (always_last Open raw size cap sched a s evs (Hk Open ltac:(cbn; tauto)) H) as Ho.
  unfold nstep in E. destruct (n_dead s || s_crashed (n_conn s)); [discriminate|]. destruct a as [enc dec|k| |b|bs|bs| |k].
  - destruct (cstep (n_conn s) (DoCall enc dec)) as [[c1 e1]|] eqn:Ec; [|discriminate]. injection E as <- <-. cbn [n_conn]. rewrite (cstep_rawclosed _ _ (DoCall enc dec) _ La ltac:(discriminate) Ec). exact T.
  - destruct (cstep (n_conn s) (CStep k)) as [[c1 e1]|] eqn:Ec; [|discriminate]. injection E as <- <-. cbn [n_conn]. rewrite (cstep_rawclosed _ _ (CStep k) _ La ltac:(discriminate) Ec). exact T.
  - destruct (cstep (n_conn s) MStep) as [[c1 e1]|] eqn:Ec; [|discriminate]. destruct (call_readn c1 (n_ring s)); [|discriminate]. injection E as <- <-. cbn [n_conn].
    rewrite (cstep_rawclosed _ _ MStep _ I ltac:(discriminate) Ec). exact T.
  - destruct (inside b); [|discriminate]. destruct (Ring.step (n_ring s) b) as [[g1 re]|] eqn:Es; [|discriminate]. cbn zeta in E.
    destruct (bytes_read re) as [bs|]; [|injection E as <- <-; exact T].
    destruct (cstep (n_conn s) (MRead bs)) as [[c1 e1]|] eqn:Ec; [|discriminate]. destruct (call_readn c1 g1); [|discriminate]. injection E as <- <-. cbn [n_conn].
    unfold cstep in Ec. destruct (s_crashed (n_conn s)); [discriminate|]. unfold loop_read in Ec. destruct (s_mpc (n_conn s)); try discriminate.
    + destruct (zlen bs =? 4); [|discriminate]. cbn zeta in Ec. destruct (dInt32 _); injection Ec as <- <-; exact T.
    + destruct (_ && _); [|discriminate]. cbn zeta in Ec. destruct (ResponseHeader_Decode _ _ _); injection Ec as <- <-; exact T.
  - destruct (n_rd s); try discriminate. destruct (s_rawclosed (n_conn s)) eqn:F; [discriminate|]. destruct (Ring.step _ _) as [[g1 re]|]; [|discriminate]. injection E as <- <-. exact F.
  - destruct (n_rd s); try discriminate. injection E as <- <-. exact T.
  - destruct Ho.
  - rewrite O2 in E. destruct k; discriminate.
Qed.

Lemma orderly_call raw size cap (sched : list (nlabel response)) s evs fs m a av clientID req resp k id :
  2 <= size < 2 ^ 31 -> 4 <= cap < 2 ^ 31 -> nexecutes raw size cap sched s evs -> (forall c, In c all_courtesies -> always c raw size cap sched) ->
  s_crashed (n_conn s) = false -> at_rest all_courtesies size cap sched evs s -> nstep s (LCall k) = None ->
  zlen (ids evs) <= 2 ^ 32 -> solicited evs ->
  In m all_methods -> m_name m = api_name a -> nth_error (calls sched) k = Some (encode_request m av clientID req, decode_any m av) -> In (EId k id) evs ->
  fit (c_schema (m_resp m)) (av a) (c_to (m_resp m) resp) ->
  arrived sched = stream fs -> Forall (fun f => zlen f <= cap) fs -> answers fs id (wires (c_schema (m_resp m)) (av a) (c_to (m_resp m) resp)) -> answered fs id ->
  (exists resp', returns_of k evs = [Reply (Value (existT _ m resp'))] /\
    c_to (m_resp m) resp' = receive (c_schema (m_resp m)) (av a) (zeros (c_schema (m_resp m))) (c_to (m_resp m) resp)) \/
  (exists x, returns_of k evs = [WriteError x] /\ ~ reliable raw).
Proof.
  intros Hs Hc Hx Hk Hcr Hr Hst Hn Hso Hm Ha Hcall Hid Hf Hfs Hfit Hans Hanswered.
  destruct (orderly_delivered raw size cap sched s evs Hs Hc Hx Hk Hcr Hr) as [Hq _].
  destruct (orderly_frames raw size cap sched s evs Hs Hc Hx) as (Hd & Hg & _); [intros c Hin; apply Hk; destruct c; cbn in *; tauto|].
  destruct (returns_answer raw size cap sched s evs fs [] m a av clientID req resp k id) as [L|(x & X1 & X2)]; try assumption; try lia.
  - rewrite Hfs. apply (stream_parses cap); [lia|exact Hfit].
  - apply nothing_incomplete.
  - left. exact L.
  - right. exists x. split; [exact X1|]. intros Hrel. apply X2. split; [exact Hrel|].
    apply (raw_open raw size cap Hs Hc sched s evs Hx). intros c Hin. apply Hk. destruct c; cbn in *; tauto.
Qed.
