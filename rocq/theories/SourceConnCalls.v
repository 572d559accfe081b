(** * The text of gen.conn.go and the model of the connection: calls of Do *)
From Coq Require Import String.
From Verif Require Import GoBase GoLemmas Encoder Decoder BufIO BufIOProofs Msg01 Conn ConnProofs ConnRing ConnRingProofs GoLang GoFlow SourceConn SourceConnSpec SourceConnPoints SourceConnSim.
From Verif Require Ring.
Local Open Scope string_scope.
Local Open Scope list_scope.
Local Open Scope Z_scope.

Lemma replies_same {R} (f : nat -> option (reply R)) cs k cl cl' : (forall j, f j = match nth_error cs j with Some c => k_reply c | None => None end) ->
  nth_error cs k = Some cl -> k_reply cl' = k_reply cl -> forall j, f j = match nth_error (Conn.set_nth cs k cl') j with Some c => k_reply c | None => None end.
Proof.
  intros H Hk E j. rewrite H. destruct (Nat.eq_dec j k) as [->|N].
  - rewrite model_nth_same by exact (some_lt _ _ _ Hk). rewrite Hk. congruence.
  - rewrite model_nth_other by exact N. reflexivity.
Qed.
Lemma replies_put {R} (f : nat -> option (reply R)) cs k cl cl' x : (forall j, f j = match nth_error cs j with Some c => k_reply c | None => None end) ->
  nth_error cs k = Some cl -> k_reply cl' = x -> forall j, put_reply f k x j = match nth_error (Conn.set_nth cs k cl') j with Some c => k_reply c | None => None end.
Proof.
  intros H Hk E j. unfold put_reply. destruct (Nat.eqb_spec j k) as [->|N].
  - rewrite model_nth_same by exact (some_lt _ _ _ Hk). congruence.
  - rewrite model_nth_other by exact N. apply H.
Qed.

Ltac steady A := first [exact (a_raw _ _ _ _ _ _ A) | exact (a_rawclosed _ _ _ _ _ _ A) | exact (a_id _ _ _ _ _ _ A) | exact (a_ended _ _ _ _ _ _ A)
  | exact (a_ring _ _ _ _ _ _ A) | exact (a_buf _ _ _ _ _ _ A) | exact (a_room _ _ _ _ _ _ A) | exact (a_cap _ _ _ _ _ _ A) | exact (a_requests _ _ _ _ _ _ A) | exact (a_known _ _ _ _ _ _ A)
  | exact (a_reply _ _ _ _ _ _ A) | exact (a_mutexes _ _ _ _ _ _ A) | exact (a_lock _ _ _ _ _ _ A) | exact (a_signals _ _ _ _ _ _ A)
  | exact (a_funcs _ _ _ _ _ _ A) | exact (a_replies _ _ _ _ _ _ A) | exact (a_closers _ _ _ _ _ _ A) | exact (a_fine _ _ _ _ _ _ A) | exact (a_alive _ _ _ _ _ _ A)
  | exact (a_whole _ _ _ _ _ _ A) | exact (a_at _ _ _ _ _ _ A) | exact (a_writer _ _ _ _ _ _ A) | idtac].
Ltac same_loop A := match goal with |- loop_at _ ?m' ?s' ?rl' ?b' _ =>
  refine (loop_frame _ _ m' _ s' _ rl' _ b' _ (a_loop _ _ _ _ _ _ A) _ eq_refl eq_refl eq_refl (ex_intro _ [] (eq_sym (app_nil_r _))) _ eq_refl _); [lia|auto|] end.
Ltac same_reader A := refine (reader_frame _ _ _ _ (a_reader _ _ _ _ _ _ A) _); lia.

Ltac after_call A cl Hc := constructor; cbn [t_mem t_calls t_loop t_reader t_closers n_conn n_ring n_rd n_closers n_dead]; steady A; try (same_reader A; fail);
  try (cbn; rewrite model_nth_length; first [exact (a_known _ _ _ _ _ _ A)|exact (a_reply _ _ _ _ _ _ A)]);
  try (cbn; rewrite (model_nth_map _ _ _ cl) by (exact Hc || reflexivity); exact (a_funcs _ _ _ _ _ _ A));
  try (cbn; apply (replies_same _ _ _ cl); [exact (a_replies _ _ _ _ _ _ A)|exact Hc|reflexivity]);
  try (same_loop A; intros; split; reflexivity).
Ltac put_call A Hp := refine (calls_put _ _ _ _ _ _ _ _ _ _ _ _ _ (a_calls _ _ _ _ _ _ A) (some_lt _ _ _ Hp) _ _ _).
Ltac tree_call A Hc := refine (calls_tree _ _ _ _ _ _ _ _ _ _ _ _ _ (a_calls _ _ _ _ _ _ A) Hc _ _ _).

Section Calls.
Context {R : Type} (dl : option error) (tls : bool) (width : Z) (fuel : nat).
Local Notation mem := (memory R).
Local Notation tstep := (tstep dl tls width fuel).

(** The text makes the move [a], the model the steps [sched], with the same events. *)
Definition both (b : nat) (rl' : option who) (c : @conf R) (s : client R) (a : tlabel) (sched : list (nlabel R)) (P : @conf R -> client R -> Prop) : Prop :=
  exists c' s' wl' e, tstep c a = Some (c', e) /\ nrun s sched = Some (s', e) /\ abs width b rl' wl' c' s' /\ P c' s'.

Lemma do_add b rl wl c s k p cl : abs width (S b) rl wl c s -> nth_error (t_calls c) k = Some p -> nth_error (s_calls (n_conn s)) k = Some cl ->
  q_add k p -> k_pc cl = PId -> both b rl c s (TCall k) [LCall k] (fun _ _ => True).
Proof.
  intros A Hp Hc (K & -> & Q) E. destruct (Q (int32 (m_id (t_mem c) + 1))) as (K2 & EK & Q2).
  destruct Q2 as (K3 & EK3 & Q3).
  set (id := int32 (m_id (t_mem c) + 1)) in *.
  assert (M : moves dl tls (Caller k) (t_mem c) (Ask "atomic.AddInt32" [VHandle "int32" 0; VConst 1] K)
    = Fine (put_id id (t_mem c)) (K2 (chan k)) [EId k id]).
  { rewrite (moves_answer dl tls (Caller k) (t_mem c) _ _ K (VInt I32 id) (put_id id (t_mem c)) [EId k id] (put_id id (t_mem c)) (K2 (chan k))).
    - rewrite EK3. reflexivity.
    - reflexivity.
    - rewrite EK. rewrite (adv_answer dl tls (Caller k) _ _ _ _ (chan k) (put_id id (t_mem c))) by reflexivity. rewrite EK3. apply adv_shared. reflexivity. }
  assert (Ei : id = int32 (s_id (n_conn s) + 1)) by (unfold id; rewrite (a_id _ _ _ _ _ _ A); reflexivity).
  eexists _, _, wl, _. split; [exact (step_call width fuel dl tls c k _ _ _ _ (abs_alive _ _ _ _ _ _ A) Hp M)|]. split.
  - rewrite Ei. refine (model_call s k cl _ _ (a_fine _ _ _ _ _ _ A) (a_alive _ _ _ _ _ _ A) Hc _). unfold call_step. rewrite E. reflexivity.
  - split; [|exact I]. after_call A cl Hc.
    + cbn. exact Ei.
    + cbn. put_call A Hp.
      * auto.
      * intros j _ _. split; [reflexivity|]. repeat split.
      * apply ca_lock1; [|reflexivity]. cbn [k_id]. rewrite <- Ei. exists K3. auto.
Qed.

(** The read lock *)
Lemma lock_read (w : who) (m : mem) wl : m_mutexes m = [wl; None] ->
  together w "mutex.Lock" [rmutex] m = (Answer unit_val (put_mutexes [wl; Some w] m), []).
Proof. intros H. unfold together, rmutex. cbn -[m_mutexes put_mutexes]. rewrite H. reflexivity. Qed.
Lemma unlock_read (w v : who) (m : mem) wl : m_mutexes m = [wl; Some v] ->
  together w "mutex.Unlock" [rmutex] m = (Answer unit_val (put_mutexes [wl; None] m), []).
Proof. intros H. unfold together, rmutex. cbn -[m_mutexes put_mutexes]. rewrite H. reflexivity. Qed.
Lemma lock_write (w : who) (m : mem) rl : m_mutexes m = [None; rl] ->
  together w "mutex.Lock" [wmutex] m = (Answer unit_val (put_mutexes [Some w; rl] m), []).
Proof. intros H. unfold together, wmutex. cbn -[m_mutexes put_mutexes]. rewrite H. reflexivity. Qed.
Lemma unlock_write (w v : who) (m : mem) rl : m_mutexes m = [Some v; rl] ->
  together w "mutex.Unlock" [wmutex] m = (Answer unit_val (put_mutexes [None; rl] m), []).
Proof. intros H. unfold together, wmutex. cbn -[m_mutexes put_mutexes]. rewrite H. reflexivity. Qed.

Lemma do_lock1 b wl c s k p cl : abs width (S b) None wl c s -> nth_error (t_calls c) k = Some p -> nth_error (s_calls (n_conn s)) k = Some cl ->
  q_lock1 k (k_id cl) p -> k_pc cl = PRegister -> both b (Some (Caller k)) c s (TCall k) [] (fun c' s' => s' = s /\ exists p', nth_error (t_calls c') k = Some p' /\ q_set k (k_id cl) p').
Proof.
  intros A Hp Hc (K & -> & Q) E. destruct Q as (K2 & EK & Q).
  set (m' := put_mutexes [wl; Some (Caller k)] (t_mem c)).
  assert (M : moves dl tls (Caller k) (t_mem c) (Ask "mutex.Lock" [rmutex] K) = Fine m' (K unit_val) []).
  { rewrite (moves_answer dl tls (Caller k) (t_mem c) _ _ K unit_val m' [] m' (K unit_val)).
    - rewrite EK. reflexivity.
    - apply lock_read, (a_mutexes _ _ _ _ _ _ A).
    - rewrite EK. apply adv_shared. reflexivity. }
  eexists _, _, wl, _. split; [exact (step_call width fuel dl tls c k _ _ _ _ (abs_alive _ _ _ _ _ _ A) Hp M)|]. split; [reflexivity|].
  split; [|split; [reflexivity|exists (K unit_val); split; [apply text_nth_same, (some_lt _ _ _ Hp)|exists K2; auto]]].
  after_call A cl Hc.
  - reflexivity.
  - tree_call A Hc.
    + discriminate.
    + intros j _ _. split; [reflexivity|]. repeat split.
    + apply ca_set; [|exact E|reflexivity]. exists K2. auto.
  - same_loop A. discriminate.
Qed.
Lemma do_set b rl wl c s k p cl : abs width (S b) rl wl c s -> nth_error (t_calls c) k = Some p -> nth_error (s_calls (n_conn s)) k = Some cl ->
  q_set k (k_id cl) p -> k_pc cl = PRegister -> rl = Some (Caller k) -> both b rl c s (TCall k) [LCall k] (fun c' s' => exists p' cl', nth_error (t_calls c') k = Some p' /\ q_unlock1 k (k_id cl) p' /\
    nth_error (s_calls (n_conn s')) k = Some cl' /\ k_id cl' = k_id cl /\ k_pc cl' = PLock).
Proof.
  intros A Hp Hc (K & -> & Q) E Er. destruct Q as (K2 & EK & Q).
  set (m' := put_requests (map_put (m_requests (t_mem c)) (k_id cl) (Some (req_of k))) (t_mem c)).
  assert (M : moves dl tls (Caller k) (t_mem c) (Ask "m[i]=" [the_map; VInt I32 (k_id cl); req_of k] K) = Fine m' (K unit_val) [ERegister k]).
  { rewrite (moves_answer dl tls (Caller k) (t_mem c) _ _ K unit_val m' [ERegister k] m' (K unit_val)).
    - rewrite EK. reflexivity.
    - reflexivity.
    - rewrite EK. apply adv_shared. reflexivity. }
  eexists _, _, wl, _. split; [exact (step_call width fuel dl tls c k _ _ _ _ (abs_alive _ _ _ _ _ _ A) Hp M)|]. split.
  - refine (model_call s k cl _ _ (a_fine _ _ _ _ _ _ A) (a_alive _ _ _ _ _ _ A) Hc _). unfold call_step. rewrite E. reflexivity.
  - split; [|exists (K unit_val), (at_pc cl PLock); split; [apply text_nth_same, (some_lt _ _ _ Hp)|split; [exists K2; auto|split; [apply model_nth_same, (some_lt _ _ _ Hc)|split; reflexivity]]]].
    after_call A cl Hc.
    + intros i. cbn. unfold map_put, map_set. destruct (i =? k_id cl); [reflexivity|]. apply (a_requests _ _ _ _ _ _ A).
    + intros i j. cbn. rewrite model_nth_length. unfold map_set. destruct (i =? k_id cl); [intros F; injection F as <-; exact (some_lt _ _ _ Hc)|apply (a_known _ _ _ _ _ _ A)].
    + cbn. put_call A Hp.
      * auto.
      * intros j _ _. split; [reflexivity|]. repeat split.
      * apply ca_unlock1; [|reflexivity|exact Er]. exists K2. auto.
    + same_loop A. subst rl. discriminate.
Qed.
Lemma do_unlock1 b rl wl c s k p cl : abs width (S b) rl wl c s -> nth_error (t_calls c) k = Some p -> nth_error (s_calls (n_conn s)) k = Some cl ->
  q_unlock1 k (k_id cl) p -> k_pc cl = PLock -> rl = Some (Caller k) -> both b None c s (TCall k) [] (fun _ s' => s' = s).
Proof.
  intros A Hp Hc (K & -> & Q) E Er. subst rl. destruct Q as (K2 & EK & Q).
  set (m' := put_mutexes [wl; None] (t_mem c)).
  assert (M : moves dl tls (Caller k) (t_mem c) (Ask "mutex.Unlock" [rmutex] K) = Fine m' (K unit_val) []).
  { rewrite (moves_answer dl tls (Caller k) (t_mem c) _ _ K unit_val m' [] m' (K unit_val)).
    - rewrite EK. reflexivity.
    - apply (unlock_read _ (Caller k)), (a_mutexes _ _ _ _ _ _ A).
    - rewrite EK. apply adv_shared. reflexivity. }
  eexists _, _, wl, _. split; [exact (step_call width fuel dl tls c k _ _ _ _ (abs_alive _ _ _ _ _ _ A) Hp M)|]. split; [reflexivity|]. split; [|reflexivity].
  after_call A cl Hc.
  - reflexivity.
  - tree_call A Hc.
    + intros j N F. congruence.
    + intros j _ _. split; [reflexivity|]. repeat split.
    + apply ca_lock2; [|exact E]. exists K2. auto.
  - same_loop A. discriminate.
Qed.
(** What the connection has accepted grows. *)
Definition grown (b b' : bufio) : Prop := exists more, b_sent b' = b_sent b ++ more.
Lemma grown_refl b : grown b b.
Proof. exists []. symmetry. apply app_nil_r. Qed.
Lemma grown_trans a b c : grown a b -> grown b c -> grown a c.
Proof. intros [x H] [y H']. exists (x ++ y). rewrite H', H, app_assoc. reflexivity. Qed.
Lemma flush_grown c b : grown b (b_flush c b).
Proof.
  unfold b_flush. destruct (b_err b); [apply grown_refl|]. destruct (b_buf b); [apply grown_refl|]. destruct (c_write c _ _) as [[n x]|]; eexists; reflexivity.
Qed.
Lemma write_grown n : forall c data b, grown b (b_write_loop n c data b).
Proof.
  induction n as [|n IH]; intros c data b; [apply grown_refl|]. cbn [b_write_loop]. destruct (b_err b); [apply grown_refl|].
  destruct (_ <? _); [|exists []; symmetry; apply app_nil_r]. destruct (_ && _).
  - destruct (c_write c _ _) as [[m x]|]; eexists; reflexivity.
  - eapply grown_trans; [|apply IH]. eapply grown_trans; [|apply flush_grown]. exists []. symmetry. apply app_nil_r.
Qed.
Lemma replay_grown c log : forall b, grown b (replay c log b).
Proof.
  unfold replay. induction log as [|d log IH]; intros b; [apply grown_refl|]. cbn [fold_left]. eapply grown_trans; [|apply IH]. apply write_grown.
Qed.
Lemma skipn_app_len {A} (a b : list A) : skipn (length a) (a ++ b) = b.
Proof. rewrite skipn_app, skipn_all, Nat.sub_diag. reflexivity. Qed.
Lemma since_trans a b c : grown a b -> grown b c -> since a c = since a b ++ since b c.
Proof.
  intros [x H] [y H']. unfold since. rewrite H', H. rewrite (skipn_app_len (b_sent a ++ x)), <- app_assoc, !skipn_app_len. reflexivity.
Qed.

Lemma do_lock2 b rl c s k p cl : abs width (S b) rl None c s -> nth_error (t_calls c) k = Some p -> nth_error (s_calls (n_conn s)) k = Some cl ->
  q_lock2 k (k_id cl) p -> k_pc cl = PLock -> both b rl c s (TCall k) [LCall k] (fun _ _ => True).
Proof.
  intros A Hp Hc (K & -> & Q) E. destruct Q as (K2 & EK & Q).
  set (m1 := put_mutexes [Some (Caller k); rl] (t_mem c)).
  set (raw := net_now m1). set (e := k_enc cl (k_id cl) (mkEncoder (target_of raw (m_bufio m1)) (e_err (m_encoder m1)))).
  set (b1 := replay raw (t_log (e_target e)) (m_bufio m1)).
  set (m2 := put_using raw (put_pieces (since (m_bufio m1) b1) (put_bufio b1 (put_encoder e m1)))).
  assert (Hf : nth_error (m_funcs m1) k = Some (k_enc cl, k_dec cl)).
  { change (m_funcs m1) with (m_funcs (t_mem c)). rewrite (a_funcs _ _ _ _ _ _ A). rewrite nth_error_map, Hc. reflexivity. }
  assert (Ad : advance dl tls (Caller k) m1 (K unit_val) = (m2, K unit_val)).
  { rewrite EK. apply adv_stay. unfold alone, the_encoder. cbn -[m1 nth_error net_now replay since target_of]. rewrite Hf. reflexivity. }
  assert (M : moves dl tls (Caller k) (t_mem c) (Ask "mutex.Lock" [wmutex] K) = Fine m2 (K unit_val) [ELock k]).
  { rewrite (moves_answer dl tls (Caller k) (t_mem c) _ _ K unit_val m1 [] m2 (K unit_val)).
    - rewrite EK. reflexivity.
    - apply lock_write, (a_mutexes _ _ _ _ _ _ A).
    - exact Ad. }
  destruct (a_lock _ _ _ _ _ _ A) as [Hl [He Hb]].
  assert (Er : raw = raw_now (n_conn s)).
  { unfold raw, net_now, raw_now. cbn. rewrite (a_raw _ _ _ _ _ _ A), (a_rawclosed _ _ _ _ _ _ A). reflexivity. }
  assert (T : transmit (raw_now (n_conn s)) (k_enc cl (k_id cl)) (s_encerr (n_conn s)) (s_buf (n_conn s)) = (e_err e, flushed m2, Flush e)).
  { unfold transmit. rewrite <- Er, <- He, <- Hb. reflexivity. }
  eexists _, _, (Some (Caller k)), _. split; [exact (step_call width fuel dl tls c k _ _ _ _ (abs_alive _ _ _ _ _ _ A) Hp M)|]. split.
  - refine (model_call s k cl _ _ (a_fine _ _ _ _ _ _ A) (a_alive _ _ _ _ _ _ A) Hc _). unfold call_step. rewrite E, Hl, T. reflexivity.
  - split; [|exact I]. after_call A cl Hc.
    + reflexivity.
    + reflexivity.
    + cbn [put_call set_lock set_calls s_calls]. put_call A Hp.
      * auto.
      * discriminate.
      * apply ca_encode; [exists K2; auto|reflexivity|]. cbn [at_pc k_pc]. f_equal. rewrite <- Hb.
        change (m_bufio (t_mem c)) with (m_bufio m1). change (m_pieces m2) with (since (m_bufio m1) b1). change (m_bufio m2) with b1.
        apply since_trans; [apply replay_grown|]. unfold flushed. change (m_bufio m2) with b1. destruct (e_err (m_encoder m2)); [apply grown_refl|apply flush_grown].
Qed.

(** Bytes go out. *)
Lemma piece_seen (k : nat) (m : mem) what vs p ps : what = "encode()" \/ what = "message.Encoder.Flush" -> m_pieces m = p :: ps ->
  together (Caller k) what vs m = (Stay (put_pieces ps m), [ESent k p]).
Proof. intros [-> | ->] H; unfold together; cbn -[m_pieces put_pieces]; unfold next_piece; rewrite H; reflexivity. Qed.
Lemma do_piece_encode b rl wl c s k p cl q qs : abs width (S b) rl wl c s -> nth_error (t_calls c) k = Some p -> nth_error (s_calls (n_conn s)) k = Some cl ->
  q_encode k (k_id cl) p -> wl = Some (Caller k) ->
  k_pc cl = PSend (m_pieces (t_mem c) ++ since (m_bufio (t_mem c)) (flushed (t_mem c))) (e_err (m_encoder (t_mem c))) (flushed (t_mem c)) (Flush (m_encoder (t_mem c))) ->
  m_pieces (t_mem c) = q :: qs -> both b rl c s (TCall k) [LCall k] (fun _ _ => True).
Proof.
  intros A Hp Hc (K & -> & Q) Ew E Ep. set (m' := put_pieces qs (t_mem c)).
  assert (M : moves dl tls (Caller k) (t_mem c) (Ask "encode()" [VHandle "encode" k; the_encoder; VInt I32 (k_id cl)] K) = Fine m' (Ask "encode()" [VHandle "encode" k; the_encoder; VInt I32 (k_id cl)] K) [ESent k q]).
  { apply moves_stay. apply piece_seen; [auto|exact Ep]. }
  eexists _, _, wl, _. split; [exact (step_call width fuel dl tls c k _ _ _ _ (abs_alive _ _ _ _ _ _ A) Hp M)|]. split.
  - refine (model_call s k cl _ _ (a_fine _ _ _ _ _ _ A) (a_alive _ _ _ _ _ _ A) Hc _). unfold call_step. rewrite E, Ep. cbn [app]. reflexivity.
  - split; [|exact I]. after_call A cl Hc.
    cbn [Conn.put_call set_calls s_calls]. put_call A Hp.
    + auto.
    + intros j N F. congruence.
    + apply ca_encode; [exists K; auto|exact Ew|reflexivity].
Qed.
Lemma do_end_encode b rl wl (c : @conf R) (s : client R) k p cl : abs width (S b) rl wl c s -> nth_error (t_calls c) k = Some p -> nth_error (s_calls (n_conn s)) k = Some cl ->
  q_encode k (k_id cl) p -> wl = Some (Caller k) ->
  k_pc cl = PSend (m_pieces (t_mem c) ++ since (m_bufio (t_mem c)) (flushed (t_mem c))) (e_err (m_encoder (t_mem c))) (flushed (t_mem c)) (Flush (m_encoder (t_mem c))) ->
  m_pieces (t_mem c) = [] -> exists c', tstep c (TCall k) = Some (c', []) /\ abs width b rl wl c' s /\ exists p', nth_error (t_calls c') k = Some p' /\ q_flush k p' /\ k_pc cl = PSend (m_pieces (t_mem c')) (e_err (m_encoder (t_mem c'))) (m_bufio (t_mem c')) (Flush (m_encoder (t_mem c'))).
Proof.
  intros A Hp Hc (K & -> & Q) Ew E Ep. destruct Q as (K2 & EK & Q). set (m := t_mem c) in *.
  set (m' := put_pieces (since (m_bufio m) (flushed m)) (put_bufio (flushed m) m)).
  assert (M : moves dl tls (Caller k) m (Ask "encode()" [VHandle "encode" k; the_encoder; VInt I32 (k_id cl)] K) = Fine m' (K unit_val) []).
  { rewrite (moves_answer dl tls (Caller k) m _ _ K unit_val m [] m' (K unit_val)).
    - rewrite EK. reflexivity.
    - unfold together. cbn -[m_pieces]. unfold next_piece. rewrite Ep. reflexivity.
    - rewrite EK. apply adv_stay. reflexivity. }
  eexists. split; [exact (step_call width fuel dl tls c k _ _ _ _ (abs_alive _ _ _ _ _ _ A) Hp M)|].
  assert (E' : k_pc cl = PSend (m_pieces m') (e_err (m_encoder m')) (m_bufio m') (Flush (m_encoder m'))) by (rewrite E, Ep; reflexivity).
  assert (QF : q_flush k (K unit_val)) by (exists K2; auto).
  split.
  - after_call A cl Hc.
    + unfold lock_at. subst wl. exact (a_lock _ _ _ _ _ _ A).
    + tree_call A Hc.
      * auto.
      * intros j N F. congruence.
      * apply ca_flush; [exact QF|exact Ew|exact E'].
  - exists (K unit_val). cbn [t_calls t_mem]. split; [apply text_nth_same, (some_lt _ _ _ Hp)|]. auto.
Qed.
Lemma do_piece_flush b rl wl c s k p cl q qs : abs width (S b) rl wl c s -> nth_error (t_calls c) k = Some p -> nth_error (s_calls (n_conn s)) k = Some cl ->
  q_flush k p -> wl = Some (Caller k) ->
  k_pc cl = PSend (m_pieces (t_mem c)) (e_err (m_encoder (t_mem c))) (m_bufio (t_mem c)) (Flush (m_encoder (t_mem c))) ->
  m_pieces (t_mem c) = q :: qs -> both b rl c s (TCall k) [LCall k] (fun _ _ => True).
Proof.
  intros A Hp Hc (K & -> & Q) Ew E Ep. set (m' := put_pieces qs (t_mem c)).
  assert (M : moves dl tls (Caller k) (t_mem c) (Ask "message.Encoder.Flush" [the_encoder] K) = Fine m' (Ask "message.Encoder.Flush" [the_encoder] K) [ESent k q]).
  { apply moves_stay. apply piece_seen; [auto|exact Ep]. }
  eexists _, _, wl, _. split; [exact (step_call width fuel dl tls c k _ _ _ _ (abs_alive _ _ _ _ _ _ A) Hp M)|]. split.
  - refine (model_call s k cl _ _ (a_fine _ _ _ _ _ _ A) (a_alive _ _ _ _ _ _ A) Hc _). unfold call_step. rewrite E, Ep. reflexivity.
  - split; [|exact I]. after_call A cl Hc.
    cbn [Conn.put_call set_calls s_calls]. put_call A Hp.
    + auto.
    + intros j N F. congruence.
    + apply ca_flush; [exists K; auto|exact Ew|reflexivity].
Qed.
Lemma do_end_flush b rl wl c s k p cl : abs width (S b) rl wl c s -> nth_error (t_calls c) k = Some p -> nth_error (s_calls (n_conn s)) k = Some cl ->
  q_flush k p -> wl = Some (Caller k) ->
  k_pc cl = PSend (m_pieces (t_mem c)) (e_err (m_encoder (t_mem c))) (m_bufio (t_mem c)) (Flush (m_encoder (t_mem c))) ->
  m_pieces (t_mem c) = [] -> both b rl c s (TCall k) [LCall k] (fun _ _ => True).
Proof.
  intros A Hp Hc (K & -> & Q) Ew E Ep. set (fl := Flush (m_encoder (t_mem c))) in *. destruct (Q fl) as (K2 & EK & Q2).
  assert (M : moves dl tls (Caller k) (t_mem c) (Ask "message.Encoder.Flush" [the_encoder] K) = Fine (t_mem c) (K (as_error fl)) [EFlushed k fl]).
  { rewrite (moves_answer dl tls (Caller k) (t_mem c) _ _ K (as_error fl) (t_mem c) [EFlushed k fl] (t_mem c) (K (as_error fl))).
    - rewrite EK. reflexivity.
    - unfold together. cbn -[m_pieces as_error Flush]. unfold next_piece. rewrite Ep. reflexivity.
    - rewrite EK. apply adv_shared. reflexivity. }
  eexists _, _, wl, _. split; [exact (step_call width fuel dl tls c k _ _ _ _ (abs_alive _ _ _ _ _ _ A) Hp M)|]. split.
  - refine (model_call s k cl _ _ (a_fine _ _ _ _ _ _ A) (a_alive _ _ _ _ _ _ A) Hc _). unfold call_step. rewrite E, Ep. reflexivity.
  - split; [|exact I]. after_call A cl Hc.
    + unfold lock_at. subst wl. exact (a_lock _ _ _ _ _ _ A).
    + cbn [Conn.put_call set_calls set_encoder s_calls]. put_call A Hp.
      * auto.
      * intros j N F. congruence.
      * apply (ca_unlock2 _ _ _ _ _ _ _ fl); [exists K2; auto|exact Ew|split; reflexivity|reflexivity].
Qed.
Lemma do_unlock2 b rl wl c s k p cl fl : abs width (S b) rl wl c s -> nth_error (t_calls c) k = Some p -> nth_error (s_calls (n_conn s)) k = Some cl ->
  q_unlock2 k fl p -> wl = Some (Caller k) -> enc_eq (t_mem c) (n_conn s) -> k_pc cl = PUnlock fl -> both b rl c s (TCall k) [LCall k] (fun _ _ => True).
Proof.
  intros A Hp Hc (K & -> & Q) Ew Ee E. subst wl. set (m' := put_mutexes [None; rl] (t_mem c)).
  assert (U : together (Caller k) "mutex.Unlock" [wmutex] (t_mem c) = (Answer unit_val m', [])) by apply (unlock_write _ (Caller k)), (a_mutexes _ _ _ _ _ _ A).
  destruct fl as [x|].
  - assert (M : moves dl tls (Caller k) (t_mem c) (Ask "mutex.Unlock" [wmutex] K) = Fine m' (Done (VErr x)) [EReturn k (WriteError x)]).
    { rewrite (moves_answer dl tls (Caller k) (t_mem c) _ _ K unit_val m' [] m' (Done (VErr x))); [reflexivity|exact U|]. rewrite Q. reflexivity. }
    eexists _, _, None, _. split; [exact (step_call width fuel dl tls c k _ _ _ _ (abs_alive _ _ _ _ _ _ A) Hp M)|]. split.
    + refine (model_call s k cl _ _ (a_fine _ _ _ _ _ _ A) (a_alive _ _ _ _ _ _ A) Hc _). unfold call_step. rewrite E. reflexivity.
    + split; [|exact I]. after_call A cl Hc.
      * reflexivity.
      * split; [reflexivity|exact Ee].
      * cbn [Conn.put_call set_calls set_lock s_calls]. put_call A Hp; [auto|intros j N F; congruence|]. exact (ca_done _ _ _ _ k (at_pc cl (PReturned (WriteError x))) (WriteError x) eq_refl).
  - pose proof Q as (K2 & EK & Q2).
    assert (M : moves dl tls (Caller k) (t_mem c) (Ask "mutex.Unlock" [wmutex] K) = Fine m' (K unit_val) []).
    { rewrite (moves_answer dl tls (Caller k) (t_mem c) _ _ K unit_val m' [] m' (K unit_val)); [rewrite EK; reflexivity|exact U|]. rewrite EK. apply adv_shared. reflexivity. }
    eexists _, _, None, _. split; [exact (step_call width fuel dl tls c k _ _ _ _ (abs_alive _ _ _ _ _ _ A) Hp M)|]. split.
    + refine (model_call s k cl _ _ (a_fine _ _ _ _ _ _ A) (a_alive _ _ _ _ _ _ A) Hc _). unfold call_step. rewrite E. reflexivity.
    + split; [|exact I]. after_call A cl Hc.
      * reflexivity.
      * split; [reflexivity|exact Ee].
      * cbn [Conn.put_call set_calls set_lock s_calls]. put_call A Hp; [auto|intros j N F; congruence|]. apply ca_recv; [exact Q|reflexivity].
Qed.
Lemma do_recv b rl wl c s k p cl r : abs width (S b) rl wl c s -> nth_error (t_calls c) k = Some p -> nth_error (s_calls (n_conn s)) k = Some cl ->
  q_recv k p -> k_pc cl = PWait -> k_reply cl = Some r -> both b rl c s (TCall k) [LCall k] (fun _ _ => True).
Proof.
  intros A Hp Hc (K & -> & Q) E Ek. set (m' := put_replies (put_reply (m_replies (t_mem c)) k None) (t_mem c)).
  assert (Er : m_replies (t_mem c) k = Some r) by (rewrite (a_replies _ _ _ _ _ _ A), Hc; exact Ek).
  assert (EK : K (error_of r) = Done (error_of r)) by (destruct r; [apply (proj1 Q)|apply (proj2 Q)]).
  assert (M : moves dl tls (Caller k) (t_mem c) (Ask "<-" [chan k] K) = Fine m' (Done (error_of r)) [EReturn k (Reply r)]).
  { rewrite (moves_answer dl tls (Caller k) (t_mem c) _ _ K (error_of r) m' [] m' (Done (error_of r))).
    - unfold seen_after. cbn -[m_replies]. rewrite Er. reflexivity.
    - unfold together, chan. cbn -[m_replies put_replies put_reply]. rewrite Er. reflexivity.
    - rewrite EK. reflexivity. }
  eexists _, _, wl, _. split; [exact (step_call width fuel dl tls c k _ _ _ _ (abs_alive _ _ _ _ _ _ A) Hp M)|]. split.
  - refine (model_call s k cl _ _ (a_fine _ _ _ _ _ _ A) (a_alive _ _ _ _ _ _ A) Hc _). unfold call_step. rewrite E, Ek. reflexivity.
  - split; [|exact I]. after_call A cl Hc.
    + cbn [Conn.put_call set_calls s_calls]. put_call A Hp; [auto|intros j N F; split; [reflexivity|repeat split]|].
      exact (ca_done _ _ _ _ k (mkCall (k_enc cl) (k_dec cl) (k_id cl) (PReturned (Reply r)) None) (Reply r) eq_refl).
    + cbn. apply (replies_put _ _ _ cl); [exact (a_replies _ _ _ _ _ _ A)|exact Hc|reflexivity].
Qed.
(** A call of Do *)
Lemma do_new b rl wl c s enc dec : (2 <= fuel)%nat -> abs width (S b) rl wl c s -> both b rl c s (TDo enc dec) [LDo enc dec] (fun _ _ => True).
Proof.
  intros Hf A. destruct fuel as [|[|n]] eqn:Ef; try lia. set (k := length (t_calls c)).
  destruct (a_calls _ _ _ _ _ _ A) as [L Hcalls].
  pose proof (text_Do width n k) as Q. pose proof Q as (K & EK & _).
  set (m' := put_funcs (m_funcs (t_mem c) ++ [(enc, dec)]) (t_mem c)).
  assert (Ad : advance dl tls (Caller k) m' (text width (S (S n)) "Conn.Do" [the_conn; VHandle "encode" k; VHandle "decode" k])
    = (m', text width (S (S n)) "Conn.Do" [the_conn; VHandle "encode" k; VHandle "decode" k])).
  { rewrite EK. apply adv_shared. reflexivity. }
  eexists _, _, wl, [Conn.ECall k]. split.
  - rewrite Ef. unfold SourceConnSpec.tstep. rewrite (abs_alive _ _ _ _ _ _ A). cbn zeta. fold k. fold m'. rewrite Ad. reflexivity.
  - split.
    + cbn [nrun]. unfold nstep, cstep. rewrite (a_fine _ _ _ _ _ _ A), (a_alive _ _ _ _ _ _ A). cbn [orb app]. unfold k; rewrite L; reflexivity.
    + split; [|exact I]. constructor; cbn [t_mem t_calls t_loop t_reader t_closers n_conn n_ring n_rd n_closers n_dead]; steady A; try (same_reader A; fail).
      * cbn. intros i j H. rewrite app_length. pose proof (a_known _ _ _ _ _ _ A i j H). lia.
      * cbn. pose proof (a_reply _ _ _ _ _ _ A) as H. destruct (s_mpc (n_conn s)); try exact I. rewrite app_length. lia.
      * cbn [set_calls s_calls]. split; [rewrite !app_length; cbn; lia|]. intros j p cl H1 H2.
        destruct (Nat.lt_ge_cases j k) as [Hj|Hj].
        -- rewrite nth_error_app1 in H1 by exact Hj. rewrite nth_error_app1 in H2 by lia.
           apply (call_frame _ _ (n_conn s) _ rl rl wl wl j cl cl p (Hcalls j p cl H1 H2)); auto. intros _. split; [reflexivity|repeat split].
        -- assert (j = k) as -> by (pose proof (some_lt _ _ _ H1) as X; rewrite app_length in X; cbn in X; lia).
           rewrite nth_error_app2 in H1 by (unfold k; lia). rewrite nth_error_app2 in H2 by lia. replace (k - length (t_calls c))%nat with O in H1 by (unfold k; lia).
           replace (k - length (s_calls (n_conn s)))%nat with O in H2 by lia. injection H1 as <-. injection H2 as <-. apply ca_add; [rewrite Ef; exact Q|reflexivity].
      * cbn. rewrite map_app. cbn. f_equal. exact (a_funcs _ _ _ _ _ _ A).
      * cbn. intros j. rewrite (a_replies _ _ _ _ _ _ A). destruct (Nat.lt_ge_cases j (length (s_calls (n_conn s)))) as [Hj|Hj].
        -- rewrite nth_error_app1 by exact Hj. reflexivity.
        -- rewrite nth_error_app2 by exact Hj. rewrite (proj2 (nth_error_None _ _) Hj). destruct (j - _)%nat as [|[|i]]; reflexivity.
      * match goal with |- loop_at _ ?m' ?s' ?rl' ?b' _ =>
          refine (loop_frame _ _ m' _ s' _ rl' _ b' _ (a_loop _ _ _ _ _ _ A) _ eq_refl eq_refl eq_refl (ex_intro _ [(enc, dec)] eq_refl) _ eq_refl _) end; [lia|auto|]. intros; split; reflexivity.
      * reflexivity.
Qed.
End Calls.
