(** * The text of gen.conn.go and the model of the connection: the loops and Close *)
From Coq Require Import String.
From Verif Require Import GoBase GoLemmas Encoder Decoder BufIO BufIOProofs Msg01 Conn ConnProofs ConnRing ConnRingProofs GoLang GoFlow SourceConn SourceConnSpec SourceConnPoints SourceConnSim SourceConnCalls.
From Verif Require Ring.
Local Open Scope string_scope.
Local Open Scope list_scope.
Local Open Scope Z_scope.

(** ** The ring *)
Lemma wrote_busy g b g' evs : Ring.step g b = Some (g', evs) -> inside b = true -> wrote evs = true -> Ring.g_w g <> Ring.WIdle.
Proof.
  intros H Hi Hw Ei.
  assert (RL : forall g0 g1 e1, Ring.r_leave g0 = Some (g1, e1) -> wrote e1 = false).
  { intros g0 g1 e1 E. unfold Ring.r_leave in E. destruct (Ring.g_r g0); try discriminate; injection E as <- <-; reflexivity. }
  assert (RG : forall l, Ring.r_get g l = Some (g', evs) -> wrote evs = false).
  { intros l E. unfold Ring.r_get in E. destruct (GoBase.index _ _); [destruct (_ <? _)|]; injection E as <- <-; reflexivity. }
  assert (WL : Ring.w_leave g = None) by (unfold Ring.w_leave; rewrite Ei; reflexivity).
  destruct b; try discriminate Hi; cbn [Ring.step] in H.
  - unfold Ring.w_step in H. rewrite Ei in H. discriminate.
  - unfold Ring.r_step in H. destruct (Ring.g_r g) as [ |c m|c m pos|l|l|l|l|l|l|l|l|l| ] eqn:Er; try discriminate; try (injection H as <- <-; discriminate).
    + destruct (Ring.r_i l <? Ring.r_n l).
      * destruct (Ring.r_pos l =? Ring.r_next l); [injection H as <- <-; discriminate|rewrite (RG l H) in Hw; discriminate].
      * cbn zeta in H. destruct (0 <? Ring.r_read l); injection H as <- <-; discriminate.
    + destruct (Ring.g_wset g); injection H as <- <-; discriminate.
    + destruct (Ring.g_rset g); injection H as <- <-; discriminate.
    + rewrite (RG l H) in Hw. discriminate.
    + destruct (Ring.g_wset g); injection H as <- <-; discriminate.
  - destruct (_ && _); [|discriminate]. unfold Ring.leave_both in H. rewrite WL in H. discriminate.
  - destruct (_ && _); [|discriminate]. unfold Ring.leave_both in H. rewrite WL in H. discriminate.
  - destruct (Ring.g_closed g); [|discriminate]. congruence.
  - destruct (Ring.g_closed g); [|discriminate]. rewrite (RL _ _ _ H) in Hw. discriminate.
Qed.
(** When ReadN returns nobody panics. *)
Lemma read_returns g b g' evs bs : Ring.step g b = Some (g', evs) -> inside b = true -> bytes_read evs = Some bs -> ring_crashed g = false ->
  Ring.g_r g' = Ring.RIdle /\ ring_crashed g' = false.
Proof.
  intros H Hi Hb Hc. destruct (step_events g b g' evs H Hi) as [_ [[E _]|(bs' & _ & _ & _ & E)]]; [congruence|]. split; [exact E|].
  unfold ring_crashed. rewrite E.
  assert (HC : Ring.g_w g <> Ring.WCrash) by (intros F; unfold ring_crashed in Hc; rewrite F in Hc; destruct (Ring.g_r g); discriminate).
  assert (HW : Ring.g_w g' <> Ring.WCrash); [|destruct (Ring.g_w g'); try reflexivity; contradiction].
  assert (WL : forall g1 e1, Ring.w_leave g = Some (g1, e1) -> Ring.g_w g1 <> Ring.WCrash).
  { intros g1 e1 F. unfold Ring.w_leave in F. destruct (Ring.g_w g); try discriminate; injection F as <- <-; discriminate. }
  assert (RL : forall g0 g1 e1, Ring.r_leave g0 = Some (g1, e1) -> Ring.g_w g1 = Ring.g_w g0).
  { intros g0 g1 e1 F. unfold Ring.r_leave in F. destruct (Ring.g_r g0); try discriminate; injection F as <- <-; reflexivity. }
  assert (RG : forall l, Ring.r_get g l = Some (g', evs) -> Ring.g_w g' = Ring.g_w g).
  { intros l F. unfold Ring.r_get in F. destruct (GoBase.index _ _); [destruct (_ <? _)|]; injection F as <- <-; reflexivity. }
  assert (LB : Ring.leave_both g = Some (g', evs) -> Ring.g_w g' <> Ring.WCrash).
  { unfold Ring.leave_both. destruct (Ring.w_leave g) as [[g1 e1]|] eqn:E1; [|discriminate]. destruct (Ring.r_leave g1) as [[g2 e2]|] eqn:E2; [|discriminate].
    intros F. injection F as <- <-. rewrite (RL _ _ _ E2). exact (WL _ _ eq_refl). }
  destruct b; try discriminate Hi; cbn [Ring.step] in H.
  - exfalso. unfold Ring.w_step in H. destruct (Ring.g_w g) as [ |data m|data m pos|l|l|l|l|l|l|l|l|l| ] eqn:Hw; try discriminate; try (injection H as <- <-; discriminate).
    + destruct (Ring.w_i l <? Ring.w_n l).
      * destruct (GoBase.index (Ring.w_data l) (Ring.w_i l)); [destruct (Ring.store (Ring.g_cells g) (Ring.w_pos l) z)|]; injection H as <- <-; discriminate.
      * cbn zeta in H. destruct (Ring.w_wrote l + 1 <? Ring.w_n l); injection H as <- <-; discriminate.
    + destruct (Ring.g_rset g); injection H as <- <-; discriminate.
    + destruct (Ring.g_wset g); injection H as <- <-; discriminate.
    + destruct (Ring.g_rset g); injection H as <- <-; discriminate.
  - enough (Ring.g_w g' = Ring.g_w g) as -> by exact HC.
    unfold Ring.r_step in H. destruct (Ring.g_r g) as [ |c m|c m pos|l|l|l|l|l|l|l|l|l| ] eqn:Er; try discriminate; try (injection H as <- <-; reflexivity).
    + destruct (Ring.r_i l <? Ring.r_n l).
      * destruct (Ring.r_pos l =? Ring.r_next l); [injection H as <- <-; reflexivity|exact (RG l H)].
      * cbn zeta in H. destruct (0 <? Ring.r_read l); injection H as <- <-; reflexivity.
    + destruct (Ring.g_wset g); injection H as <- <-; reflexivity.
    + destruct (Ring.g_rset g); injection H as <- <-; reflexivity.
    + exact (RG l H).
    + destruct (Ring.g_wset g); injection H as <- <-; reflexivity.
  - destruct (_ && _); [|discriminate]. exact (LB H).
  - destruct (_ && _); [|discriminate]. exact (LB H).
  - destruct (Ring.g_closed g); [|discriminate]. exact (WL _ _ H).
  - destruct (Ring.g_closed g); [|discriminate]. rewrite (RL _ _ _ H). exact HC.
Qed.
Lemma readn_starts g cap n : Ring.g_r g = Ring.RIdle -> Ring.step g (Ring.RCall cap n) = Some (Ring.set_r g (Ring.RLoadStart cap n), []).
Proof. intros H. cbn [Ring.step]. rewrite H. reflexivity. Qed.
Lemma readn_whole g cap n : ring_crashed g = false -> ring_crashed (Ring.set_r g (Ring.RLoadStart cap n)) = false.
Proof. unfold ring_crashed. cbn. destruct (Ring.g_r g), (Ring.g_w g); intros H; try reflexivity; discriminate. Qed.
Lemma overwrite_zlen (buf bs : list Z) : zlen bs <= zlen buf -> zlen (overwrite buf bs) = zlen buf.
Proof. intros H. unfold overwrite. rewrite zlen_app. unfold zlen in *. rewrite skipn_length. lia. Qed.

Ltac after_loop A := constructor; cbn [t_mem t_calls t_loop t_reader t_closers n_conn n_ring n_rd n_closers n_dead]; steady A; try (same_reader A; fail).
Ltac same_calls A := refine (calls_frame _ _ _ _ _ _ _ _ _ _ (a_calls _ _ _ _ _ _ A) _ _);
  [try (intros; congruence)|try (intros; split; [reflexivity|repeat split])].

Section Loops.
Context {R : Type} (dl : option error) (tls : bool) (width : Z) (fuel : nat).
Local Notation mem := (memory R).
Local Notation tstep := (tstep dl tls width fuel).
Local Notation both := (@both R dl tls width fuel).
Local Notation ltop := (l_top width).

Lemma top_poll (m : mem) b n p : (S b <= n)%nat -> ltop n p ->
  exists n' p', (b <= n')%nat /\ advance dl tls Loop m p = (m, p') /\ l_poll width (ltop n') p'.
Proof.
  intros Hn Q. destruct n as [|n]; [lia|]. destruct Q as (K & -> & Q). exists n, (K (VHandle "done" 0)). split; [lia|]. split; [|exact Q].
  destruct Q as (K2 & EK & Q2). erewrite adv_answer by reflexivity. rewrite EK. apply adv_shared. reflexivity.
Qed.

(** ** The message loop *)
Lemma loop_ended b rl wl c s n p : abs width (S b) rl wl c s -> t_loop c = p -> l_poll width (ltop n) p -> s_mpc (n_conn s) = MTop -> m_ended (t_mem c) = true ->
  both b rl c s TLoop [] (fun c' s' => s' = s /\ l_close (t_loop c')).
Proof.
  intros A Hp (K & -> & Q & _) E En. pose proof Q as (K2 & EK & Q2).
  assert (M : moves dl tls Loop (t_mem c) (t_loop c) = Fine (t_mem c) (K (VBool true)) []).
  { rewrite Hp. rewrite (moves_answer dl tls Loop (t_mem c) _ _ K (VBool true) (t_mem c) [] (t_mem c) (K (VBool true))).
    - reflexivity.
    - unfold together. cbn -[m_ended]. rewrite En. reflexivity.
    - rewrite EK. apply adv_shared. reflexivity. }
  eexists _, _, wl, _. split; [refine (step_loop width fuel dl tls c _ _ _ (abs_alive _ _ _ _ _ _ A) _ M); rewrite Hp; reflexivity|].
  split; [reflexivity|]. split; [|split; [reflexivity|exact Q]]. after_loop A.
  - same_calls A.
  - apply la_close; [exact Q|exact E|exact En].
Qed.
Lemma loop_goes b rl wl c s n p : abs width (S b) rl wl c s -> t_loop c = p -> (S b <= n)%nat -> l_poll width (ltop n) p -> s_mpc (n_conn s) = MTop -> m_ended (t_mem c) = false ->
  both b rl c s TLoop [LLoop] (fun _ _ => True).
Proof.
  intros A Hp Hn (K & -> & _ & Q) E En. pose proof Q as (K2 & EK & Q2).
  assert (Hr : Ring.g_r (n_ring s) = Ring.RIdle) by (pose proof (a_at _ _ _ _ _ _ A) as H; rewrite E in H; exact H).
  set (g := Ring.set_r (n_ring s) (Ring.RLoadStart (s_cap (n_conn s)) 4)).
  assert (Hg : Ring.step (n_ring s) (Ring.RCall (s_cap (n_conn s)) 4) = Some (g, [])) by (apply readn_starts, Hr).
  assert (M : moves dl tls Loop (t_mem c) (t_loop c) = Fine (put_ring g (t_mem c)) (K (VBool false)) []).
  { rewrite Hp. rewrite (moves_answer dl tls Loop (t_mem c) _ _ K (VBool false) (t_mem c) [] (put_ring g (t_mem c)) (K (VBool false))).
    - reflexivity.
    - unfold together. cbn -[m_ended]. rewrite En. reflexivity.
    - rewrite EK. apply adv_stay. unfold alone. cbn -[m_ring m_buffer Ring.step zlen]. rewrite (a_ring _ _ _ _ _ _ A), (a_buf _ _ _ _ _ _ A), (a_cap _ _ _ _ _ _ A), Hg. reflexivity. }
  eexists _, _, wl, _. split; [refine (step_loop width fuel dl tls c _ _ _ (abs_alive _ _ _ _ _ _ A) _ M); rewrite Hp; reflexivity|].
  split; [|split].
  - cbn [nrun]. unfold nstep, cstep, loop_step. rewrite (a_fine _ _ _ _ _ _ A), (a_alive _ _ _ _ _ _ A), E, <- (a_ended _ _ _ _ _ _ A), En. cbn [orb]. unfold call_readn.
    cbn [s_mpc set_mpc s_cap]. change (s_cap (set_mpc (n_conn s) MHead)) with (s_cap (n_conn s)). rewrite Hg. reflexivity.
  - after_loop A.
    + reflexivity.
    + exact I.
    + cbn. rewrite (a_signals _ _ _ _ _ _ A), E. reflexivity.
    + same_calls A.
    + eapply la_head; [|exact Q|reflexivity]. lia.
    + reflexivity.
    + apply readn_whole, (a_whole _ _ _ _ _ _ A).
    + cbn. split; reflexivity.
  - exact I.
Qed.
Lemma loop_closes b rl wl c s p : abs width (S b) rl wl c s -> t_loop c = p -> l_close p -> s_mpc (n_conn s) = MTop -> m_ended (t_mem c) = true ->
  both b rl c s TLoop [LLoop] (fun _ _ => True).
Proof.
  intros A Hp (K & -> & Q) E En. set (m' := put_signals [true; is_rddone (n_rd s)] (t_mem c)).
  assert (M : moves dl tls Loop (t_mem c) (t_loop c) = Fine m' (K unit_val) []).
  { rewrite Hp. rewrite (moves_answer dl tls Loop (t_mem c) _ _ K unit_val m' [] m' (K unit_val)).
    - reflexivity.
    - unfold together. cbn -[m_signals]. rewrite (a_signals _ _ _ _ _ _ A), E. reflexivity.
    - rewrite Q. reflexivity. }
  eexists _, _, wl, _. split; [refine (step_loop width fuel dl tls c _ _ _ (abs_alive _ _ _ _ _ _ A) _ M); rewrite Hp; reflexivity|].
  split; [|split].
  - refine (model_loop s _ _ (a_fine _ _ _ _ _ _ A) (a_alive _ _ _ _ _ _ A) _ _).
    + unfold loop_step. rewrite E, <- (a_ended _ _ _ _ _ _ A), En. reflexivity.
    + exact I.
  - after_loop A.
    + exact I.
    + reflexivity.
    + same_calls A.
    + rewrite Q. apply la_done. reflexivity.
    + cbn. pose proof (a_at _ _ _ _ _ _ A) as H. rewrite E in H. exact H.
  - exact I.
Qed.
Lemma loop_locks b wl c s n p : abs width (S b) None wl c s -> t_loop c = p -> (S b <= n)%nat -> l_lock (ltop n) p -> s_mpc (n_conn s) = MLookup (cid (t_mem c)) (m_decoder (t_mem c)) ->
  both b (Some Loop) c s TLoop [] (fun c' s' => s' = s /\ l_get (ltop n) (cid (t_mem c')) (t_loop c') /\ s_mpc (n_conn s') = MLookup (cid (t_mem c')) (m_decoder (t_mem c'))).
Proof.
  intros A Hp Hn (K & -> & Q) E. destruct Q as (K2 & EK & Q). pose proof (Q (cid (t_mem c))) as Q'. pose proof Q' as (K3 & EK3 & _).
  set (m' := put_mutexes [wl; Some Loop] (t_mem c)).
  assert (M : moves dl tls Loop (t_mem c) (t_loop c) = Fine m' (K2 (VInt I32 (cid (t_mem c)))) []).
  { rewrite Hp. rewrite (moves_answer dl tls Loop (t_mem c) _ _ K unit_val m' [] m' (K2 (VInt I32 (cid (t_mem c))))).
    - reflexivity.
    - apply lock_read, (a_mutexes _ _ _ _ _ _ A).
    - rewrite EK. erewrite adv_answer by reflexivity. change (ResponseHeader_CorrelationId (m_header m')) with (cid (t_mem c)). rewrite EK3. apply adv_shared. reflexivity. }
  assert (T : tstep c TLoop = Some (mkConf m' (t_calls c) (K2 (VInt I32 (cid (t_mem c)))) (t_reader c) (t_closers c), [])).
  { refine (step_loop width fuel dl tls c _ _ _ (abs_alive _ _ _ _ _ _ A) _ M); rewrite Hp; reflexivity. }
  eexists _, _, wl, _. split; [exact T|]. split; [reflexivity|]. split; [|split; [reflexivity|split; [exact Q'|exact E]]]. after_loop A.
  - reflexivity.
  - same_calls A.
  - eapply la_get; [|exact Q'|exact E|reflexivity]. lia.
Qed.
Lemma loop_gets b wl c s n p : abs width (S b) (Some Loop) wl c s -> t_loop c = p -> (S b <= n)%nat -> l_get (ltop n) (cid (t_mem c)) p -> s_mpc (n_conn s) = MLookup (cid (t_mem c)) (m_decoder (t_mem c)) ->
  both b (Some Loop) c s TLoop [] (fun c' s' => s' = s /\ l_delete (ltop n) (cid (t_mem c')) (s_requests (n_conn s) (cid (t_mem c'))) (t_loop c') /\
    s_mpc (n_conn s') = MLookup (cid (t_mem c')) (m_decoder (t_mem c'))).
Proof.
  intros A Hp Hn (K & -> & Qs & Qn) E. set (m := t_mem c) in *. set (i := cid m).
  set (o := s_requests (n_conn s) i).
  set (v := VTuple match m_requests m i with Some v => [v; VBool true] | None => [VStruct "request" [("decode", VNil); ("reply", VNil)]; VBool false] end).
  assert (Q : l_id2 (ltop n) o (K v)).
  { unfold v. rewrite (a_requests _ _ _ _ _ _ A). unfold o. destruct (s_requests (n_conn s) i) as [k|]; [apply Qs|apply Qn]. }
  destruct Q as (K2 & EK & Q). pose proof (Q i) as Q'. pose proof Q' as (K3 & EK3 & _).
  assert (M : moves dl tls Loop m (t_loop c) = Fine m (K2 (VInt I32 i)) []).
  { rewrite Hp. rewrite (moves_answer dl tls Loop m _ _ K v m [] m (K2 (VInt I32 i))).
    - reflexivity.
    - reflexivity.
    - rewrite EK. erewrite adv_answer by reflexivity. change (ResponseHeader_CorrelationId (m_header m)) with i. rewrite EK3. apply adv_shared. reflexivity. }
  assert (T : tstep c TLoop = Some (mkConf m (t_calls c) (K2 (VInt I32 i)) (t_reader c) (t_closers c), [])).
  { refine (step_loop width fuel dl tls c _ _ _ (abs_alive _ _ _ _ _ _ A) _ M); rewrite Hp; reflexivity. }
  eexists _, _, wl, _. split; [exact T|]. split; [reflexivity|]. split; [|split; [reflexivity|split; [exact Q'|exact E]]]. after_loop A.
  - same_calls A.
  - eapply la_delete; [|exact Q'|exact E|reflexivity]. lia.
Qed.
Lemma loop_deletes b wl c s n p : abs width (S b) (Some Loop) wl c s -> t_loop c = p -> (S b <= n)%nat ->
  l_delete (ltop n) (cid (t_mem c)) (s_requests (n_conn s) (cid (t_mem c))) p -> s_mpc (n_conn s) = MLookup (cid (t_mem c)) (m_decoder (t_mem c)) ->
  both b (Some Loop) c s TLoop [LLoop] (fun c' s' => exists o, l_unlock (ltop n) o (t_loop c') /\ s_mpc (n_conn s') = match o with Some k => MReply k (m_decoder (t_mem c')) | None => MTop end).
Proof.
  intros A Hp Hn (K & -> & Q) E. set (m := t_mem c) in *. set (i := cid m) in *. set (o := s_requests (n_conn s) i) in *. pose proof Q as (K2 & EK & _).
  set (m' := put_requests (map_put (m_requests m) i None) m). set (evs := match m_requests m i with Some _ => [] | None => [EDropped (R := R) i] end).
  assert (M : moves dl tls Loop m (t_loop c) = Fine m' (K unit_val) evs).
  { rewrite Hp. rewrite (moves_answer dl tls Loop m _ _ K unit_val m' evs m' (K unit_val)).
    - rewrite app_nil_r. reflexivity.
    - reflexivity.
    - rewrite EK. apply adv_shared. reflexivity. }
  assert (Ev : evs = match o with Some _ => [] | None => [EDropped i] end).
  { unfold evs. rewrite (a_requests _ _ _ _ _ _ A). unfold o. destruct (s_requests (n_conn s) i); reflexivity. }
  set (mp := match o with Some k => MReply k (m_decoder m) | None => MTop end).
  eexists _, _, wl, _. split; [refine (step_loop width fuel dl tls c _ _ _ (abs_alive _ _ _ _ _ _ A) _ M); rewrite Hp; reflexivity|].
  split; [|split].
  - refine (model_loop s (set_mpc (set_requests (n_conn s) (map_set (s_requests (n_conn s)) i None)) mp) _ (a_fine _ _ _ _ _ _ A) (a_alive _ _ _ _ _ _ A) _ _).
    + unfold loop_step. rewrite E. fold o. unfold mp. rewrite Ev. destruct o; reflexivity.
    + cbn. unfold mp. destruct o; exact I.
  - after_loop A.
    + cbn. intros j. unfold map_put, map_set. destruct (j =? i); [reflexivity|apply (a_requests _ _ _ _ _ _ A)].
    + cbn. intros j k. unfold map_set. destruct (j =? i); [discriminate|apply (a_known _ _ _ _ _ _ A)].
    + cbn. unfold mp, o. destruct (s_requests (n_conn s) i) as [k|] eqn:Ek; [exact (a_known _ _ _ _ _ _ A i k Ek)|exact I].
    + etransitivity; [exact (a_signals _ _ _ _ _ _ A)|]. rewrite E. cbn. unfold mp. destruct o; reflexivity.
    + same_calls A.
    + eapply (la_unlock _ _ _ _ _ n o); [lia|exact Q|reflexivity|reflexivity].
    + cbn. pose proof (a_at _ _ _ _ _ _ A) as H. rewrite E in H. unfold mp. destruct o; exact H.
  - exists o. split; [exact Q|reflexivity].
Qed.
Lemma loop_unlocks b wl c s n o p : abs width (S b) (Some Loop) wl c s -> t_loop c = p -> (S b <= n)%nat ->
  l_unlock (ltop n) o p -> s_mpc (n_conn s) = match o with Some k => MReply k (m_decoder (t_mem c)) | None => MTop end ->
  both b None c s TLoop [] (fun _ s' => s' = s).
Proof.
  intros A Hp Hn (K & -> & Q) E. set (m' := put_mutexes [wl; None] (t_mem c)).
  assert (U : together Loop "mutex.Unlock" [rmutex] (t_mem c) = (Answer unit_val m', [])) by apply (unlock_read _ Loop), (a_mutexes _ _ _ _ _ _ A).
  assert (Q' : exists p', advance dl tls Loop m' (K unit_val) = (m', p') /\ loop_at width m' (n_conn s) None b p').
  { destruct o as [k|].
    - pose proof Q as (K2 & EK & _). exists (K unit_val). split; [rewrite EK; apply adv_shared; reflexivity|]. eapply la_decode; [|exact Q|exact E]. lia.
    - destruct (top_poll m' b n _ Hn Q) as (n' & p' & Hn' & Ap & Qp). exists p'. split; [exact Ap|]. eapply la_poll; [exact Hn'|exact Qp|exact E]. }
  destruct Q' as (p' & Ad & L).
  assert (M : moves dl tls Loop (t_mem c) (t_loop c) = Fine m' p' []).
  { rewrite Hp. rewrite (moves_answer dl tls Loop (t_mem c) _ _ K unit_val m' [] m' p'); [reflexivity|exact U|exact Ad]. }
  eexists _, _, wl, _. split; [refine (step_loop width fuel dl tls c _ _ _ (abs_alive _ _ _ _ _ _ A) _ M); rewrite Hp; reflexivity|].
  split; [reflexivity|]. split; [|reflexivity]. after_loop A.
  - reflexivity.
  - same_calls A.
  - exact L.
Qed.
Lemma a_func b rl wl (c : @conf R) (s : client R) k cl : abs width b rl wl c s -> nth_error (s_calls (n_conn s)) k = Some cl -> nth_error (m_funcs (t_mem c)) k = Some (k_enc cl, k_dec cl).
Proof. intros A H. rewrite (a_funcs _ _ _ _ _ _ A), nth_error_map, H. reflexivity. Qed.
Lemma a_called b rl wl (c : @conf R) (s : client R) k d : abs width b rl wl c s -> s_mpc (n_conn s) = MReply k d -> exists cl, nth_error (s_calls (n_conn s)) k = Some cl.
Proof.
  intros A E. pose proof (a_reply _ _ _ _ _ _ A) as H. rewrite E in H. destruct (nth_error (s_calls (n_conn s)) k) eqn:F; [eauto|]. apply nth_error_None in F. lia.
Qed.
Lemma loop_decodes b rl wl c s n k p cl : abs width (S b) rl wl c s -> t_loop c = p -> (S b <= n)%nat ->
  l_decode (ltop n) k p -> s_mpc (n_conn s) = MReply k (m_decoder (t_mem c)) -> nth_error (s_calls (n_conn s)) k = Some cl -> k_dec cl (m_decoder (t_mem c)) <> DPanic ->
  both b rl c s TLoop [] (fun c' s' => s' = s /\ exists v, l_send (ltop n) k v (t_loop c') /\ decoded (t_mem c') k (m_decoder (t_mem c)) v).
Proof.
  intros A Hp Hn (K & -> & Q) E Hc Hd.
  assert (T : exists v m', together Loop "decode()" [VHandle "decode" k; the_decoder] (t_mem c) = (Answer v m', []) /\ decoded m' k (m_decoder (t_mem c)) v /\
            (m' = put_filled (m_filled m') (put_decoder (m_decoder m') (t_mem c)))).
  { unfold together. cbn -[m_decoder m_funcs put_filled put_decoder nth_error m_filled]. rewrite (a_func _ _ _ _ _ _ _ A Hc).
    destruct (k_dec cl (m_decoder (t_mem c))) as [r d|x d|] eqn:Ed; [| |contradiction].
    - eexists _, _. split; [reflexivity|]. split; [|reflexivity]. exists (k_enc cl), (k_dec cl). split; [exact (a_func _ _ _ _ _ _ _ A Hc)|]. left. exists r, d. auto.
    - eexists _, _. split; [reflexivity|]. split; [|reflexivity]. exists (k_enc cl), (k_dec cl). split; [exact (a_func _ _ _ _ _ _ _ A Hc)|]. right. exists x, d. auto. }
  destruct T as (v & m' & T & D & Em). pose proof (Q v) as Q'. pose proof Q' as (K2 & EK & Q2).
  assert (M : moves dl tls Loop (t_mem c) (t_loop c) = Fine m' (K v) []).
  { rewrite Hp. rewrite (moves_answer dl tls Loop (t_mem c) _ _ K v m' [] m' (K v)); [reflexivity|exact T|]. rewrite EK. apply adv_shared. reflexivity. }
  assert (TS : tstep c TLoop = Some (mkConf m' (t_calls c) (K v) (t_reader c) (t_closers c), [])).
  { refine (step_loop width fuel dl tls c _ _ _ (abs_alive _ _ _ _ _ _ A) _ M); rewrite Hp; reflexivity. }
  eexists _, _, wl, _. split; [exact TS|]. split; [reflexivity|]. split; [|split; [reflexivity|exists v; split; [exact Q'|exact D]]]. rewrite Em in *. after_loop A.
  - same_calls A.
  - eapply la_send; [|exact Q'|exact E|exact D]. lia.
Qed.
(** The process has panicked, in the text and in the model. *)
Definition stopped (c : @conf R) (s : client R) : Prop := dead c = true /\ n_dead s || s_crashed (n_conn s) = true.
Lemma loop_panics b rl wl c s n k p cl : abs width (S b) rl wl c s -> t_loop c = p ->
  l_decode (ltop n) k p -> s_mpc (n_conn s) = MReply k (m_decoder (t_mem c)) -> nth_error (s_calls (n_conn s)) k = Some cl -> k_dec cl (m_decoder (t_mem c)) = DPanic ->
  exists c' s', tstep c TLoop = Some (c', []) /\ nrun s [LLoop] = Some (s', []) /\ stopped c' s'.
Proof.
  intros A Hp (K & -> & Q) E Hc Hd.
  assert (M : moves dl tls Loop (t_mem c) (t_loop c) = Fine (t_mem c) Crash []).
  { rewrite Hp. unfold moves, together. cbn -[m_decoder m_funcs nth_error]. rewrite (a_func _ _ _ _ _ _ _ A Hc), Hd. reflexivity. }
  eexists _, _. split; [refine (step_loop width fuel dl tls c _ _ _ (abs_alive _ _ _ _ _ _ A) _ M); rewrite Hp; reflexivity|]. split.
  - refine (model_loop s (crash (n_conn s)) _ (a_fine _ _ _ _ _ _ A) (a_alive _ _ _ _ _ _ A) _ _).
    + unfold loop_step. rewrite E, Hc, Hd. reflexivity.
    + cbn. rewrite E. exact I.
  - split; [|cbn; apply orb_true_r]. unfold dead. cbn [t_loop panicked]. rewrite orb_true_r. reflexivity.
Qed.
Lemma loop_sends b rl wl c s n k v d p cl : abs width (S b) rl wl c s -> t_loop c = p -> (S b <= n)%nat ->
  l_send (ltop n) k v p -> s_mpc (n_conn s) = MReply k d -> decoded (t_mem c) k d v -> nth_error (s_calls (n_conn s)) k = Some cl -> k_reply cl = None ->
  both b rl c s TLoop [LLoop] (fun _ _ => True).
Proof.
  intros A Hp Hn (K & -> & Q) E D Hc Hk.
  assert (Er : m_replies (t_mem c) k = None) by (rewrite (a_replies _ _ _ _ _ _ A), Hc; exact Hk).
  assert (S : exists r, together Loop "send" [chan k; v] (t_mem c) = (Answer unit_val (put_replies (put_reply (m_replies (t_mem c)) k (Some r)) (t_mem c)), [EReply k r]) /\
             match k_dec cl d with DOk r' _ => Value r' = r | DErr x _ => Failure x = r | DPanic => False end).
  { destruct D as (enc & dec & Hf & D). rewrite (a_func _ _ _ _ _ _ _ A Hc) in Hf. injection Hf as <- <-. unfold together, chan. cbn -[m_replies m_filled put_replies put_reply].
    rewrite Er. destruct D as [(r & d' & -> & -> & ->)|(x & d' & -> & ->)]; eexists; split; reflexivity. }
  destruct S as (r & S & Sr). set (m' := put_replies (put_reply (m_replies (t_mem c)) k (Some r)) (t_mem c)) in *.
  destruct (top_poll m' b n _ Hn Q) as (n' & p' & Hn' & Ap & Qp).
  assert (M : moves dl tls Loop (t_mem c) (t_loop c) = Fine m' p' [EReply k r]).
  { rewrite Hp. rewrite (moves_answer dl tls Loop (t_mem c) _ _ K unit_val m' [EReply k r] m' p'); [reflexivity|exact S|exact Ap]. }
  set (cl' := mkCall (k_enc cl) (k_dec cl) (k_id cl) (k_pc cl) (Some r)).
  eexists _, _, wl, _. split; [refine (step_loop width fuel dl tls c _ _ _ (abs_alive _ _ _ _ _ _ A) _ M); rewrite Hp; reflexivity|].
  split; [|split].
  - refine (model_loop s (Conn.put_call (set_mpc (n_conn s) MTop) k cl') _ (a_fine _ _ _ _ _ _ A) (a_alive _ _ _ _ _ _ A) _ _).
    + unfold loop_step. rewrite E, Hc, Hk. destruct (k_dec cl d); [subst r; reflexivity..|contradiction].
    + exact I.
  - after_loop A.
    + cbn. rewrite model_nth_length. exact (a_known _ _ _ _ _ _ A).
    + exact I.
    + etransitivity; [exact (a_signals _ _ _ _ _ _ A)|]. rewrite E. reflexivity.
    + cbn [Conn.put_call set_calls set_mpc s_calls]. refine (calls_reply _ _ _ _ _ _ _ _ _ cl _ (a_calls _ _ _ _ _ _ A) Hc _ _ _); [reflexivity..|repeat split].
    + cbn. rewrite (model_nth_map _ _ _ cl) by (exact Hc || reflexivity). exact (a_funcs _ _ _ _ _ _ A).
    + cbn. apply (replies_put _ _ _ cl); [exact (a_replies _ _ _ _ _ _ A)|exact Hc|reflexivity].
    + eapply la_poll; [exact Hn'|exact Qp|reflexivity].
    + cbn. pose proof (a_at _ _ _ _ _ _ A) as H. rewrite E in H. exact H.
  - exact I.
Qed.

(** ** readLoop *)
Lemma top_read b n p : (S b <= n)%nat -> d_top n p -> exists n', (b <= n')%nat /\ d_read (d_top n') p.
Proof. intros Hn Q. destruct n as [|n]; [lia|]. exists n. split; [lia|exact Q]. Qed.
Lemma read_bytes b rl wl c s n p bs : abs width (S b) rl wl c s -> t_reader c = p -> (S b <= n)%nat -> d_read (d_top n) p -> n_rd s = RdRead ->
  m_rawclosed (t_mem c) = false -> zlen bs <= 2000000 -> both b rl c s (TNet bs) [LNet bs] (fun _ _ => True).
Proof.
  intros A Hp Hn (K & -> & Q & _) E Ec Hz. pose proof (Q (zlen bs)) as Q'. pose proof Q' as (K2 & EK & Q2).
  assert (Hw : Ring.g_w (n_ring s) = Ring.WIdle).
  { destruct (a_writer _ _ _ _ _ _ A) as [_ H]. destruct (Ring.g_w (n_ring s)) eqn:F; try reflexivity; exfalso; rewrite E in H; discriminate (H ltac:(discriminate)). }
  set (g := Ring.set_w (n_ring s) (Ring.WLoadNext bs (zlen bs))).
  assert (Hg : exists e, Ring.step (n_ring s) (Ring.WCall bs (zlen bs)) = Some (g, e)) by (cbn [Ring.step]; rewrite Hw; eexists; reflexivity). destruct Hg as [re Hg].
  set (m' := put_ring g (put_came bs (t_mem c))).
  assert (Ad : advance dl tls Reader (put_came bs (t_mem c)) (K (VTuple [VInt INT (zlen bs); VNil])) = (m', K (VTuple [VInt INT (zlen bs); VNil]))).
  { rewrite EK. apply adv_stay. unfold alone. cbn -[m_ring m_came put_came zlen Ring.step Z.eqb]. change (m_came (put_came bs (t_mem c))) with bs.
    change (m_ring (put_came bs (t_mem c))) with (m_ring (t_mem c)). rewrite Z.eqb_refl, (a_ring _ _ _ _ _ _ A), Hg. reflexivity. }
  eexists _, _, wl, _. split; [|split; [|split]].
  - unfold SourceConnSpec.tstep. rewrite (abs_alive _ _ _ _ _ _ A), Hp, Ec, (a_room _ _ _ _ _ _ A). cbn zeta.
    replace (zlen bs <=? 2000000) with true by (symmetry; apply Z.leb_le; exact Hz). cbn [String.eqb handle negb andb Ascii.eqb Bool.eqb Nat.eqb the_net buffer1]. rewrite Ad. reflexivity.
  - cbn [nrun]. unfold nstep. rewrite (a_fine _ _ _ _ _ _ A), (a_alive _ _ _ _ _ _ A), E, <- (a_rawclosed _ _ _ _ _ _ A), Ec, Hg. reflexivity.
  - after_loop A.
    + reflexivity.
    + etransitivity; [exact (a_signals _ _ _ _ _ _ A)|]. rewrite E. reflexivity.
    + same_calls A.
    + same_loop A. intros; split; reflexivity.
    + eapply ra_write; [|exact Q']. lia.
    + reflexivity.
    + pose proof (a_whole _ _ _ _ _ _ A) as H. unfold ring_crashed in *. cbn. destruct (Ring.g_r (n_ring s)); try reflexivity. exact H.
    + split; [intros _; discriminate|reflexivity].
  - exact I.
Qed.
Lemma read_error b rl wl (c : @conf R) (s : client R) n p x : abs width (S b) rl wl c s -> t_reader c = p -> d_read (d_top n) p -> n_rd s = RdRead ->
  exists c', tstep c (TNetErr x) = Some (c', []) /\ abs width b rl wl c' s /\ d_close (t_reader c').
Proof.
  intros A Hp (K & -> & _ & Q) E. destruct (Q 0 x) as (K2 & EK & Q2). pose proof Q2 as (K3 & EK3 & Q3).
  assert (Ad : advance dl tls Reader (t_mem c) (K (VTuple [VInt INT 0; VErr x])) = (t_mem c, K2 unit_val)).
  { rewrite EK. erewrite adv_answer by reflexivity. rewrite EK3. apply adv_shared. reflexivity. }
  eexists. split; [|split].
  - unfold SourceConnSpec.tstep. rewrite (abs_alive _ _ _ _ _ _ A), Hp. cbn zeta. cbn [String.eqb handle negb andb Ascii.eqb Bool.eqb Nat.eqb the_net buffer1]. rewrite Ad. reflexivity.
  - after_loop A.
    + same_calls A.
    + same_loop A. intros; split; reflexivity.
    + rewrite E. apply ra_close, Q2.
  - exact Q2.
Qed.
Lemma read_ends b rl wl (c : @conf R) (s : client R) p : abs width (S b) rl wl c s -> t_reader c = p -> d_close p -> n_rd s = RdRead ->
  both b rl c s TReader [LNetErr []] (fun _ _ => True).
Proof.
  intros A Hp (K & -> & Q) E. set (m' := put_signals [is_mdone (s_mpc (n_conn s)); true] (t_mem c)).
  assert (M : moves dl tls Reader (t_mem c) (t_reader c) = Fine m' (Done unit_val) []).
  { rewrite Hp. rewrite (moves_answer dl tls Reader (t_mem c) _ _ K unit_val m' [] m' (Done unit_val)).
    - reflexivity.
    - unfold together. cbn -[m_signals]. rewrite (a_signals _ _ _ _ _ _ A), E. reflexivity.
    - rewrite Q. reflexivity. }
  assert (Hw : Ring.g_w (n_ring s) = Ring.WIdle).
  { destruct (a_writer _ _ _ _ _ _ A) as [_ H]. destruct (Ring.g_w (n_ring s)) eqn:F; try reflexivity; exfalso; rewrite E in H; discriminate (H ltac:(discriminate)). }
  eexists _, _, wl, _. split; [|split; [|split]].
  - unfold SourceConnSpec.tstep. rewrite (abs_alive _ _ _ _ _ _ A), M, Hp. reflexivity.
  - cbn [nrun]. unfold nstep. rewrite (a_fine _ _ _ _ _ _ A), (a_alive _ _ _ _ _ _ A), E. reflexivity.
  - after_loop A.
    + reflexivity.
    + same_calls A.
    + same_loop A. intros; split; reflexivity.
    + apply ra_done.
    + reflexivity.
    + rewrite Hw. split; [discriminate|intros H; contradiction].
  - exact I.
Qed.

(** ** Close *)
Lemma forall2_put {X Y} (P : X -> Y -> Prop) xs ys k x y : Forall2 P xs ys -> P x y -> Forall2 P (Conn.set_nth xs k x) (GoLang.set_nth k y ys).
Proof. intros H Hp. revert k. induction H as [|a b xs ys Ha H IH]; intros [|k]; cbn; constructor; auto. Qed.
Lemma close_new b rl wl c s : (2 <= fuel)%nat -> abs width (S b) rl wl c s -> both b rl c s TClose [LClose] (fun _ _ => True).
Proof.
  intros Hf A. destruct fuel as [|[|n]] eqn:Ef; try lia. set (k := length (t_closers c)).
  pose proof (text_Close width n) as Q. pose proof Q as (K & EK & _).
  eexists _, _, wl, []. split; [|split; [|split]].
  - rewrite Ef. unfold SourceConnSpec.tstep. rewrite (abs_alive _ _ _ _ _ _ A). cbn zeta. rewrite EK, adv_shared by reflexivity. reflexivity.
  - cbn [nrun]. unfold nstep. rewrite (a_fine _ _ _ _ _ _ A), (a_alive _ _ _ _ _ _ A). reflexivity.
  - after_loop A.
    + same_calls A.
    + same_loop A. intros; split; reflexivity.
    + apply Forall2_app; [exact (a_closers _ _ _ _ _ _ A)|]. constructor; [|constructor]. apply ka_cancel. rewrite <- EK. exact Q.
    + reflexivity.
  - exact I.
Qed.
Lemma model_closer (s s' : client R) k pc : n_dead s = false -> s_crashed (n_conn s) = false -> nth_error (n_closers s) k = Some pc -> close_step s k pc = Some s' ->
  nrun s [LCloser k] = Some (s', []).
Proof. intros H1 H2 H3 H4. cbn [nrun]. unfold nstep. rewrite H1, H2, H3, H4. reflexivity. Qed.
Lemma close_moves b rl wl c s k p pc : abs width (S b) rl wl c s -> nth_error (t_closers c) k = Some p -> nth_error (n_closers s) k = Some pc -> closer_at pc p ->
  close_step s k pc <> None -> both b rl c s (TCloser k) [LCloser k] (fun _ _ => True).
Proof.
  intros A Hp Hc Hk Hs. destruct Hk as [q (K & -> & Q)|q (K & -> & Q)|q (K & -> & Q)|q (K & -> & Q)|q (K & -> & Q)|].
  - pose proof Q as (K2 & EK & _).
    eexists _, _, wl, _. split; [|split; [|split; [|exact I]]].
    + refine (step_closer width fuel dl tls c k _ (put_ended true (t_mem c)) (K unit_val) [] (abs_alive _ _ _ _ _ _ A) Hp _).
      rewrite (moves_answer dl tls (Closer k) (t_mem c) _ _ K unit_val (put_ended true (t_mem c)) [] (put_ended true (t_mem c)) (K unit_val)); [reflexivity|reflexivity|rewrite EK; apply adv_shared; reflexivity].
    + refine (model_closer s _ k KCancel (a_fine _ _ _ _ _ _ A) (a_alive _ _ _ _ _ _ A) Hc _). reflexivity.
    + after_loop A.
      * reflexivity.
      * same_calls A.
      * same_loop A. intros; split; reflexivity.
      * apply forall2_put; [exact (a_closers _ _ _ _ _ _ A)|]. apply ka_ring, Q.
  - pose proof Q as (K2 & EK & _).
    set (g := n_ring s). set (g' := Ring.mkRing (Ring.g_cells g) (Ring.g_size g) (Ring.g_start g) (Ring.g_next g) (Ring.g_rset g) (Ring.g_wset g) true (Ring.g_w g) (Ring.g_r g)).
    eexists _, _, wl, _. split; [|split; [|split; [|exact I]]].
    + refine (step_closer width fuel dl tls c k _ (put_ring g' (t_mem c)) (K unit_val) [] (abs_alive _ _ _ _ _ _ A) Hp _).
      rewrite (moves_answer dl tls (Closer k) (t_mem c) _ _ K unit_val (put_ring g' (t_mem c)) [] (put_ring g' (t_mem c)) (K unit_val)); [reflexivity| |rewrite EK; apply adv_shared; reflexivity].
      unfold together. cbn -[m_ring]. rewrite (a_ring _ _ _ _ _ _ A). reflexivity.
    + refine (model_closer s _ k KRing (a_fine _ _ _ _ _ _ A) (a_alive _ _ _ _ _ _ A) Hc _). reflexivity.
    + after_loop A.
      * reflexivity.
      * same_calls A.
      * same_loop A. intros; split; reflexivity.
      * apply forall2_put; [exact (a_closers _ _ _ _ _ _ A)|]. apply ka_raw, Q.
  - pose proof Q as (K2 & EK & _).
    eexists _, _, wl, _. split; [|split; [|split; [|exact I]]].
    + refine (step_closer width fuel dl tls c k _ (put_rawclosed true (t_mem c)) (K VNil) [] (abs_alive _ _ _ _ _ _ A) Hp _).
      rewrite (moves_answer dl tls (Closer k) (t_mem c) _ _ K VNil (put_rawclosed true (t_mem c)) [] (put_rawclosed true (t_mem c)) (K VNil)); [reflexivity|reflexivity|rewrite EK; apply adv_shared; reflexivity].
    + refine (model_closer s _ k KRaw (a_fine _ _ _ _ _ _ A) (a_alive _ _ _ _ _ _ A) Hc _). reflexivity.
    + after_loop A.
      * reflexivity.
      * same_calls A.
      * same_loop A. intros; split; reflexivity.
      * apply forall2_put; [exact (a_closers _ _ _ _ _ _ A)|]. apply ka_message, Q.
  - pose proof Q as (K2 & EK & _). cbn [close_step] in Hs. destruct (s_mpc (n_conn s)) eqn:E; try contradiction.
    eexists _, _, wl, _. split; [|split; [|split; [|exact I]]].
    + refine (step_closer width fuel dl tls c k _ (t_mem c) (K unit_val) [] (abs_alive _ _ _ _ _ _ A) Hp _).
      rewrite (moves_answer dl tls (Closer k) (t_mem c) _ _ K unit_val (t_mem c) [] (t_mem c) (K unit_val)); [reflexivity| |rewrite EK; apply adv_shared; reflexivity].
      unfold together. cbn -[m_signals]. rewrite (a_signals _ _ _ _ _ _ A), E. reflexivity.
    + refine (model_closer s _ k KMessage (a_fine _ _ _ _ _ _ A) (a_alive _ _ _ _ _ _ A) Hc _). cbn [close_step]. rewrite E. reflexivity.
    + after_loop A.
      * same_calls A.
      * same_loop A. intros; split; reflexivity.
      * apply forall2_put; [exact (a_closers _ _ _ _ _ _ A)|]. apply ka_read, Q.
  - cbn [close_step] in Hs. destruct (n_rd s) eqn:E; try contradiction.
    eexists _, (mkClient (n_conn s) (n_ring s) (n_rd s) (Conn.set_nth (n_closers s) k KReturned) (n_dead s)), wl, _. split; [|split; [|split; [|exact I]]].
    + refine (step_closer width fuel dl tls c k _ (t_mem c) (Done VNil) [] (abs_alive _ _ _ _ _ _ A) Hp _).
      rewrite (moves_answer dl tls (Closer k) (t_mem c) _ _ K unit_val (t_mem c) [] (t_mem c) (Done VNil)); [reflexivity| |rewrite Q; reflexivity].
      unfold together. cbn -[m_signals]. rewrite (a_signals _ _ _ _ _ _ A), E. reflexivity.
    + refine (model_closer s _ k KRead (a_fine _ _ _ _ _ _ A) (a_alive _ _ _ _ _ _ A) Hc _). cbn [close_step]. rewrite E. reflexivity.
    + after_loop A.
      * same_calls A.
      * same_loop A. intros; split; reflexivity.
      * apply forall2_put; [exact (a_closers _ _ _ _ _ _ A)|]. apply ka_done.
  - contradiction.
Qed.
(** Otherwise the text does not move either. *)
Lemma close_waits b rl wl (c : @conf R) (s : client R) k p pc : abs width (S b) rl wl c s -> nth_error (t_closers c) k = Some p -> closer_at pc p ->
  close_step s k pc = None -> tstep c (TCloser k) = None.
Proof.
  intros A Hp Hk Hs. unfold SourceConnSpec.tstep. rewrite (abs_alive _ _ _ _ _ _ A), Hp. cbn zeta.
  enough (moves dl tls (Closer k) (t_mem c) p = Not) as -> by reflexivity.
  destruct Hk as [q (K & -> & Q)|q (K & -> & Q)|q (K & -> & Q)|q (K & -> & Q)|q (K & -> & Q)|]; try discriminate Hs; cbn [close_step] in Hs; try reflexivity.
  - unfold moves, together. cbn -[m_signals]. rewrite (a_signals _ _ _ _ _ _ A). destruct (s_mpc (n_conn s)); try discriminate Hs; reflexivity.
  - unfold moves, together. cbn -[m_signals]. rewrite (a_signals _ _ _ _ _ _ A). destruct (n_rd s); try discriminate Hs; reflexivity.
Qed.
End Loops.
