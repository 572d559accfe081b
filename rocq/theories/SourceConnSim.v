(** * The text of gen.conn.go and the model of the connection: the relation between them *)
From Coq Require Import String.
From Verif Require Import GoBase GoLemmas Encoder Decoder BufIO BufIOProofs Msg01 Conn ConnProofs ConnRing ConnRingProofs GoLang GoFlow SourceConn SourceConnSpec SourceConnPoints.
From Verif Require Ring.
Local Open Scope string_scope.
Local Open Scope list_scope.
Local Open Scope Z_scope.

Lemma text_nth_same {A} k (x : A) l : (k < length l)%nat -> nth_error (GoLang.set_nth k x l) k = Some x.
Proof. revert k. induction l as [|y l IH]; intros [|k] H; cbn in *; try lia; [reflexivity|]. apply IH. lia. Qed.
Lemma text_nth_other {A} k j (x : A) l : j <> k -> nth_error (GoLang.set_nth k x l) j = nth_error l j.
Proof. revert k j. induction l as [|y l IH]; intros [|k] [|j] H; cbn; try reflexivity; try contradiction. apply IH. congruence. Qed.
Lemma text_nth_length {A} k (x : A) l : length (GoLang.set_nth k x l) = length l.
Proof. revert k. induction l as [|y l IH]; intros [|k]; cbn; try reflexivity. rewrite IH. reflexivity. Qed.
Lemma model_nth_same {A} k (x : A) l : (k < length l)%nat -> nth_error (Conn.set_nth l k x) k = Some x.
Proof. revert k. induction l as [|y l IH]; intros [|k] H; cbn in *; try lia; [reflexivity|]. apply IH. lia. Qed.
Lemma model_nth_other {A} k j (x : A) l : j <> k -> nth_error (Conn.set_nth l k x) j = nth_error l j.
Proof. revert k j. induction l as [|y l IH]; intros [|k] [|j] H; cbn; try reflexivity; try contradiction. apply IH. congruence. Qed.
Lemma model_nth_length {A} k (x : A) l : length (Conn.set_nth l k x) = length l.
Proof. revert k. induction l as [|y l IH]; intros [|k]; cbn; try reflexivity. rewrite IH. reflexivity. Qed.
Lemma some_lt {A} (l : list A) k x : nth_error l k = Some x -> (k < length l)%nat.
Proof. intros H. apply nth_error_Some. congruence. Qed.
Lemma model_nth_map {A B} (f : A -> B) k x y l : nth_error l k = Some y -> f x = f y -> map f (Conn.set_nth l k x) = map f l.
Proof. revert k. induction l as [|z l IH]; intros [|k] H E; cbn in *; try discriminate; [injection H as ->; congruence|]. f_equal. apply IH; assumption. Qed.

Section Sim.
Context {R : Type} (width : Z) (fuel : nat).
Local Notation mem := (memory R).
Local Notation ltop := (l_top width).

Definition flushed (m : mem) : bufio := match e_err (m_encoder m) with Some _ => m_bufio m | None => b_flush (m_using m) (m_bufio m) end.
Definition enc_eq (m : mem) (s : conn R) : Prop := e_err (m_encoder m) = s_encerr s /\ m_bufio m = s_buf s.

Inductive call_at (m : mem) (s : conn R) (rl wl : option who) (k : nat) (c : docall R) : proc -> Prop :=
| ca_add p : q_add k p -> k_pc c = PId -> call_at m s rl wl k c p
| ca_lock1 p : q_lock1 k (k_id c) p -> k_pc c = PRegister -> call_at m s rl wl k c p
| ca_set p : q_set k (k_id c) p -> k_pc c = PRegister -> rl = Some (Caller k) -> call_at m s rl wl k c p
| ca_unlock1 p : q_unlock1 k (k_id c) p -> k_pc c = PLock -> rl = Some (Caller k) -> call_at m s rl wl k c p
| ca_lock2 p : q_lock2 k (k_id c) p -> k_pc c = PLock -> call_at m s rl wl k c p
| ca_encode p : q_encode k (k_id c) p -> wl = Some (Caller k) ->
    k_pc c = PSend (m_pieces m ++ since (m_bufio m) (flushed m)) (e_err (m_encoder m)) (flushed m) (Flush (m_encoder m)) -> call_at m s rl wl k c p
| ca_flush p : q_flush k p -> wl = Some (Caller k) ->
    k_pc c = PSend (m_pieces m) (e_err (m_encoder m)) (m_bufio m) (Flush (m_encoder m)) -> call_at m s rl wl k c p
| ca_unlock2 p fl : q_unlock2 k fl p -> wl = Some (Caller k) -> enc_eq m s -> k_pc c = PUnlock fl -> call_at m s rl wl k c p
| ca_recv p : q_recv k p -> k_pc c = PWait -> call_at m s rl wl k c p
| ca_done r : k_pc c = PReturned r -> call_at m s rl wl k c (Done (result_val r)).

Definition cid (m : mem) : Z := ResponseHeader_CorrelationId (m_header m).
Definition decoded (m : mem) (k : nat) (d : Decoder) (v : val) : Prop :=
  exists enc dec, nth_error (m_funcs m) k = Some (enc, dec) /\
    ((exists r d', dec d = DOk r d' /\ v = VNil /\ m_filled m = Some r) \/ (exists x d', dec d = DErr x d' /\ v = VErr x)).
Inductive loop_at (m : mem) (s : conn R) (rl : option who) (b : nat) : proc -> Prop :=
| la_poll n p : (b <= n)%nat -> l_poll width (ltop n) p -> s_mpc s = MTop -> loop_at m s rl b p
| la_close p : l_close p -> s_mpc s = MTop -> m_ended m = true -> loop_at m s rl b p
| la_head n p : (b <= n)%nat -> l_head width (ltop n) p -> s_mpc s = MHead -> loop_at m s rl b p
| la_body n size p : (b <= n)%nat -> l_body (ltop n) size p -> s_mpc s = MBody size -> loop_at m s rl b p
| la_lock n p : (b <= n)%nat -> l_lock (ltop n) p -> s_mpc s = MLookup (cid m) (m_decoder m) -> loop_at m s rl b p
| la_get n p : (b <= n)%nat -> l_get (ltop n) (cid m) p -> s_mpc s = MLookup (cid m) (m_decoder m) -> rl = Some Loop -> loop_at m s rl b p
| la_delete n p : (b <= n)%nat -> l_delete (ltop n) (cid m) (s_requests s (cid m)) p -> s_mpc s = MLookup (cid m) (m_decoder m) -> rl = Some Loop -> loop_at m s rl b p
| la_unlock n o p : (b <= n)%nat -> l_unlock (ltop n) o p -> s_mpc s = match o with Some k => MReply k (m_decoder m) | None => MTop end -> rl = Some Loop -> loop_at m s rl b p
| la_decode n k p : (b <= n)%nat -> l_decode (ltop n) k p -> s_mpc s = MReply k (m_decoder m) -> loop_at m s rl b p
| la_send n k v d p : (b <= n)%nat -> l_send (ltop n) k v p -> s_mpc s = MReply k d -> decoded m k d v -> loop_at m s rl b p
| la_done : s_mpc s = MDone -> loop_at m s rl b (Done unit_val).

Inductive reader_at (b : nat) : rdpc -> proc -> Prop :=
| ra_read n p : (b <= n)%nat -> d_read (d_top n) p -> reader_at b RdRead p
| ra_close p : d_close p -> reader_at b RdRead p
| ra_write n z p : (b <= n)%nat -> d_write (d_top n) z p -> reader_at b RdWrite p
| ra_done : reader_at b RdDone (Done unit_val).
Inductive closer_at : clpc -> proc -> Prop :=
| ka_cancel p : z_cancel p -> closer_at KCancel p
| ka_ring p : z_ring p -> closer_at KRing p
| ka_raw p : z_raw p -> closer_at KRaw p
| ka_message p : z_message p -> closer_at KMessage p
| ka_read p : z_read p -> closer_at KRead p
| ka_done : closer_at KReturned (Done VNil).

Definition is_mdone (m : mpc) : bool := match m with MDone => true | _ => false end.
Definition is_rddone (p : rdpc) : bool := match p with RdDone => true | _ => false end.
Definition calls_at (m : mem) (s : conn R) (rl wl : option who) (ps : list proc) (cs : list (docall R)) : Prop :=
  length ps = length cs /\ forall k p c, nth_error ps k = Some p -> nth_error cs k = Some c -> call_at m s rl wl k c p.
Definition lock_at (m : mem) (s : conn R) (wl : option who) : Prop :=
  match wl with None => s_lock s = None /\ enc_eq m s | Some (Caller k) => s_lock s = Some k | _ => False end.

Record abs (b : nat) (rl wl : option who) (c : @conf R) (s : client R) : Prop := mkAbs {
  a_raw : m_raw (t_mem c) = s_raw (n_conn s);
  a_rawclosed : m_rawclosed (t_mem c) = s_rawclosed (n_conn s);
  a_id : m_id (t_mem c) = s_id (n_conn s);
  a_ended : m_ended (t_mem c) = s_closed (n_conn s);
  a_ring : m_ring (t_mem c) = n_ring s;
  a_buf : m_buffer (t_mem c) = s_rbuf (n_conn s);
  a_room : m_room (t_mem c) = 2000000;
  a_cap : zlen (s_rbuf (n_conn s)) = s_cap (n_conn s);
  a_requests : forall i, m_requests (t_mem c) i = option_map req_of (s_requests (n_conn s) i);
  a_known : forall i k, s_requests (n_conn s) i = Some k -> (k < length (s_calls (n_conn s)))%nat;
  a_reply : match s_mpc (n_conn s) with MReply k _ => (k < length (s_calls (n_conn s)))%nat | _ => True end;
  a_mutexes : m_mutexes (t_mem c) = [wl; rl];
  a_lock : lock_at (t_mem c) (n_conn s) wl;
  a_signals : m_signals (t_mem c) = [is_mdone (s_mpc (n_conn s)); is_rddone (n_rd s)];
  a_calls : calls_at (t_mem c) (n_conn s) rl wl (t_calls c) (s_calls (n_conn s));
  a_funcs : m_funcs (t_mem c) = map (fun c => (k_enc c, k_dec c)) (s_calls (n_conn s));
  a_replies : forall k, m_replies (t_mem c) k = match nth_error (s_calls (n_conn s)) k with Some c => k_reply c | None => None end;
  a_loop : loop_at (t_mem c) (n_conn s) rl b (t_loop c);
  a_reader : reader_at b (n_rd s) (t_reader c);
  a_closers : Forall2 closer_at (n_closers s) (t_closers c);
  a_fine : n_dead s = false;
  a_alive : s_crashed (n_conn s) = false;
  a_whole : ring_crashed (n_ring s) = false;
  a_at : n_at (s_cap (n_conn s)) (s_mpc (n_conn s)) (Ring.g_r (n_ring s));
  a_writer : n_rd s = RdWrite <-> Ring.g_w (n_ring s) <> Ring.WIdle }.

(** ** Frames *)
Definition writer_same (m m' : mem) (s s' : conn R) : Prop :=
  m_encoder m' = m_encoder m /\ m_bufio m' = m_bufio m /\ m_using m' = m_using m /\ m_pieces m' = m_pieces m /\ s_encerr s' = s_encerr s /\ s_buf s' = s_buf s.
Lemma call_frame m m' s s' rl rl' wl wl' k c c' p : call_at m s rl wl k c p ->
  (rl = Some (Caller k) -> rl' = rl) -> (wl = Some (Caller k) -> wl' = wl /\ writer_same m m' s s') -> k_pc c' = k_pc c -> k_id c' = k_id c ->
  call_at m' s' rl' wl' k c' p.
Proof.
  intros H Hr Hw Hp Hi.
  destruct H as [p Q E|p Q E|p Q E Er|p Q E Er|p Q E|p Q Ew E|p Q Ew E|p fl Q Ew Ee E|p Q E|r E]; try rewrite <- Hi in Q.
  - apply ca_add; congruence.
  - apply ca_lock1; congruence.
  - apply ca_set; try congruence. rewrite (Hr Er). exact Er.
  - apply ca_unlock1; try congruence. rewrite (Hr Er). exact Er.
  - apply ca_lock2; congruence.
  - destruct (Hw Ew) as (W & W1 & W2 & W3 & W4 & W5 & W6). apply ca_encode; [exact Q|congruence|]. unfold flushed in *. rewrite W1, W2, W3, W4. congruence.
  - destruct (Hw Ew) as (W & W1 & W2 & W3 & W4 & W5 & W6). apply ca_flush; [exact Q|congruence|]. rewrite W1, W2, W4. congruence.
  - destruct (Hw Ew) as (W & W1 & W2 & W3 & W4 & W5 & W6). apply (ca_unlock2 _ _ _ _ _ _ _ fl); [exact Q|congruence| |congruence].
    unfold enc_eq in *. rewrite W1, W2, W5, W6. exact Ee.
  - apply ca_recv; congruence.
  - apply ca_done. congruence.
Qed.
(** Nobody's point changes. *)
Lemma calls_frame m m' s s' rl rl' wl wl' ps cs : calls_at m s rl wl ps cs ->
  (forall k, rl = Some (Caller k) -> rl' = rl) -> (forall k, wl = Some (Caller k) -> wl' = wl /\ writer_same m m' s s') -> calls_at m' s' rl' wl' ps cs.
Proof. intros [L H] Hr Hw. split; [exact L|]. intros k p c H1 H2. apply (call_frame m m' s s' rl rl' wl wl' k c c p (H k p c H1 H2)); [apply (Hr k)|apply (Hw k)|reflexivity|reflexivity]. Qed.
(** Call [k] goes on. *)
Lemma calls_put m m' s s' rl rl' wl wl' ps cs k p c : calls_at m s rl wl ps cs -> (k < length ps)%nat ->
  (forall j, j <> k -> rl = Some (Caller j) -> rl' = rl) -> (forall j, j <> k -> wl = Some (Caller j) -> wl' = wl /\ writer_same m m' s s') ->
  call_at m' s' rl' wl' k c p -> calls_at m' s' rl' wl' (GoLang.set_nth k p ps) (Conn.set_nth cs k c).
Proof.
  intros [L H] Hk Hr Hw Hp. split; [rewrite text_nth_length, model_nth_length; exact L|]. intros j q d H1 H2.
  destruct (Nat.eq_dec j k) as [->|N].
  - rewrite text_nth_same in H1 by exact Hk. rewrite model_nth_same in H2 by lia. injection H1 as <-. injection H2 as <-. exact Hp.
  - rewrite text_nth_other in H1 by exact N. rewrite model_nth_other in H2 by exact N.
    apply (call_frame m m' s s' rl rl' wl wl' j d d q (H j q d H1 H2)); [apply (Hr j N)|apply (Hw j N)|reflexivity|reflexivity].
Qed.
(** The tree of call [k] changes only. *)
Lemma calls_tree m m' s s' rl rl' wl wl' ps cs k p c : calls_at m s rl wl ps cs -> nth_error cs k = Some c ->
  (forall j, j <> k -> rl = Some (Caller j) -> rl' = rl) -> (forall j, j <> k -> wl = Some (Caller j) -> wl' = wl /\ writer_same m m' s s') ->
  call_at m' s' rl' wl' k c p -> calls_at m' s' rl' wl' (GoLang.set_nth k p ps) cs.
Proof.
  intros [L H] Hk Hr Hw Hp. pose proof (some_lt _ _ _ Hk) as Hl. split; [rewrite text_nth_length; exact L|]. intros j q d H1 H2.
  destruct (Nat.eq_dec j k) as [->|N].
  - rewrite text_nth_same in H1 by lia. injection H1 as <-. rewrite Hk in H2. injection H2 as <-. exact Hp.
  - rewrite text_nth_other in H1 by exact N.
    apply (call_frame m m' s s' rl rl' wl wl' j d d q (H j q d H1 H2)); [apply (Hr j N)|apply (Hw j N)|reflexivity|reflexivity].
Qed.
(** What is in the channel of call [k] changes only. *)
Lemma calls_reply m m' s s' rl wl ps cs k c c' : calls_at m s rl wl ps cs -> nth_error cs k = Some c -> k_pc c' = k_pc c -> k_id c' = k_id c ->
  writer_same m m' s s' -> calls_at m' s' rl wl ps (Conn.set_nth cs k c').
Proof.
  intros [L H] Hk Hp Hi W. pose proof (some_lt _ _ _ Hk) as Hl. split; [rewrite model_nth_length; exact L|]. intros j q d H1 H2.
  destruct (Nat.eq_dec j k) as [->|N].
  - rewrite model_nth_same in H2 by exact Hl. injection H2 as <-. apply (call_frame m m' s s' rl rl wl wl k c c' q (H k q c H1 Hk)); auto.
  - rewrite model_nth_other in H2 by exact N. apply (call_frame m m' s s' rl rl wl wl j d d q (H j q d H1 H2)); auto.
Qed.

Lemma loop_frame m m' s s' rl rl' b b' p : loop_at m s rl b p -> (b' <= b)%nat -> m_header m' = m_header m -> m_decoder m' = m_decoder m -> m_filled m' = m_filled m ->
  (exists more, m_funcs m' = m_funcs m ++ more) -> (m_ended m = true -> m_ended m' = true) -> s_mpc s' = s_mpc s ->
  (rl = Some Loop -> rl' = rl /\ s_requests s' = s_requests s) -> loop_at m' s' rl' b' p.
Proof.
  intros H Hb E1 E2 E3 [more E4] E5 E6 E7.
  assert (EC : cid m' = cid m) by (unfold cid; rewrite E1; reflexivity).
  destruct H as [n p Hn Q M|p Q M Z|n p Hn Q M|n size p Hn Q M|n p Hn Q M|n p Hn Q M L|n p Hn Q M L|n o p Hn Q M L|n k p Hn Q M|n k v d p Hn Q M D|M].
  - eapply la_poll; [|exact Q|congruence]; lia.
  - apply la_close; [exact Q|congruence|auto].
  - eapply la_head; [|exact Q|congruence]; lia.
  - eapply la_body; [|exact Q|congruence]; lia.
  - eapply la_lock; [|exact Q|congruence]; lia.
  - destruct (E7 L) as [L' _]. eapply la_get; [|rewrite EC; exact Q|congruence|congruence]; lia.
  - destruct (E7 L) as [L' L2]. eapply la_delete; [|rewrite EC, L2; exact Q|congruence|congruence]; lia.
  - destruct (E7 L) as [L' L2]. eapply la_unlock; [|exact Q|rewrite E2; congruence|congruence]; lia.
  - eapply la_decode; [|exact Q|congruence]; lia.
  - eapply la_send; [|exact Q|rewrite E6; exact M|]; [lia|]. destruct D as (enc & dec & D1 & D2). exists enc, dec. split.
    + rewrite E4, nth_error_app1; [exact D1|]. exact (some_lt _ _ _ D1).
    + rewrite E3. exact D2.
  - apply la_done. congruence.
Qed.
Lemma reader_frame b b' rd p : reader_at b rd p -> (b' <= b)%nat -> reader_at b' rd p.
Proof.
  intros [n q Hn Q|q Q|n z q Hn Q|] Hb; [eapply ra_read; [|exact Q]; lia|apply ra_close, Q|eapply ra_write; [|exact Q]; lia|apply ra_done].
Qed.

(** ** Steps of the machine *)
Lemma not_panicked_call m s rl wl k c p : call_at m s rl wl k c p -> panicked p = false.
Proof. intros [q (K & -> & _) _|q (K & -> & _) _|q (K & -> & _) _ _|q (K & -> & _) _ _|q (K & -> & _) _|q (K & -> & _) _ _|q (K & -> & _) _ _|q fl (K & -> & _) _ _ _|q (K & -> & _) _|r _]; reflexivity. Qed.
Lemma not_panicked_loop m s rl b p : loop_at m s rl b p -> panicked p = false.
Proof. intros [n q _ (K & -> & _) _|q (K & -> & _) _ _|n q _ (K & -> & _) _|n z q _ (K & -> & _) _|n q _ (K & -> & _) _|n q _ (K & -> & _) _ _|n q _ (K & -> & _) _ _|n o q _ (K & -> & _) _ _|n k q _ (K & -> & _) _|n k v d q _ (K & -> & _) _ _|_]; reflexivity. Qed.
Lemma not_panicked_reader b rd p : reader_at b rd p -> panicked p = false.
Proof. intros [n q _ (K & -> & _)|q (K & -> & _)|n z q _ (K & -> & _)|]; reflexivity. Qed.
Lemma not_panicked_closer pc p : closer_at pc p -> panicked p = false.
Proof. intros [q (K & -> & _)|q (K & -> & _)|q (K & -> & _)|q (K & -> & _)|q (K & -> & _)|]; reflexivity. Qed.
Lemma existsb_false {A} (f : A -> bool) l : (forall k x, nth_error l k = Some x -> f x = false) -> existsb f l = false.
Proof.
  intros H. destruct (existsb f l) eqn:E; [|reflexivity]. apply existsb_exists in E. destruct E as (x & Hi & Hf).
  destruct (In_nth_error _ _ Hi) as [k Hk]. rewrite (H k x Hk) in Hf. discriminate.
Qed.
Lemma forall2_nth {A B} (P : A -> B -> Prop) xs ys k y : Forall2 P xs ys -> nth_error ys k = Some y -> exists x, nth_error xs k = Some x /\ P x y.
Proof. intros H. revert k. induction H as [|x z xs ys Hx H IH]; intros [|k] E; try discriminate; cbn in *; [injection E as <-; eauto|apply IH, E]. Qed.
Lemma abs_alive b rl wl c s : abs b rl wl c s -> dead c = false.
Proof.
  intros A. unfold dead. rewrite (a_ring _ _ _ _ _ A), (a_whole _ _ _ _ _ A), (not_panicked_loop _ _ _ _ _ (a_loop _ _ _ _ _ A)), (not_panicked_reader _ _ _ (a_reader _ _ _ _ _ A)).
  cbn [orb]. apply orb_false_intro; apply existsb_false; intros k x H.
  - destruct (a_calls _ _ _ _ _ A) as [L Hc]. destruct (nth_error (s_calls (n_conn s)) k) as [cl|] eqn:E.
    + exact (not_panicked_call _ _ _ _ _ _ _ (Hc k x cl H E)).
    + apply nth_error_None in E. pose proof (some_lt _ _ _ H). lia.
  - destruct (forall2_nth _ _ _ _ _ (a_closers _ _ _ _ _ A) H) as (pc & _ & Hp). exact (not_panicked_closer _ _ Hp).
Qed.
Lemma adv_answer dl tls (w : who) (m : mem) what vs k v m' : alone dl tls w what vs m = Answer v m' -> advance dl tls w m (Ask what vs k) = advance dl tls w m' (k v).
Proof. intros H. cbn [advance]. rewrite H. reflexivity. Qed.
Lemma adv_stay dl tls (w : who) (m : mem) what vs k m' : alone dl tls w what vs m = Stay m' -> advance dl tls w m (Ask what vs k) = (m', Ask what vs k).
Proof. intros H. cbn [advance]. rewrite H. reflexivity. Qed.
Lemma adv_shared dl tls (w : who) (m : mem) what vs k : alone dl tls w what vs m = Shared -> advance dl tls w m (Ask what vs k) = (m, Ask what vs k).
Proof. intros H. cbn [advance]. rewrite H. reflexivity. Qed.
Lemma moves_answer dl tls (w : who) (m : mem) what vs k v m1 e m2 p2 : together w what vs m = (Answer v m1, e) -> advance dl tls w m1 (k v) = (m2, p2) ->
  moves dl tls w m (Ask what vs k) = Fine m2 p2 (e ++ match w with Caller j => seen_after j what m p2 | _ => [] end).
Proof. intros H1 H2. unfold moves. rewrite H1, H2. reflexivity. Qed.
Lemma moves_stay dl tls (w : who) (m : mem) what vs k m1 e : together w what vs m = (Stay m1, e) -> moves dl tls w m (Ask what vs k) = Fine m1 (Ask what vs k) e.
Proof. intros H1. unfold moves. rewrite H1. reflexivity. Qed.
Lemma step_call dl tls (c : @conf R) k p m' p' e : dead c = false -> nth_error (t_calls c) k = Some p -> moves dl tls (Caller k) (t_mem c) p = Fine m' p' e ->
  tstep dl tls width fuel c (TCall k) = Some (mkConf m' (GoLang.set_nth k p' (t_calls c)) (t_loop c) (t_reader c) (t_closers c), e).
Proof. intros H1 H2 H3. unfold tstep. rewrite H1, H2. cbn zeta. rewrite H3. reflexivity. Qed.
Lemma step_loop dl tls (c : @conf R) m' p' e : dead c = false -> asks "ring.Buffer.ReadN" (t_loop c) = false -> moves dl tls Loop (t_mem c) (t_loop c) = Fine m' p' e ->
  tstep dl tls width fuel c TLoop = Some (mkConf m' (t_calls c) p' (t_reader c) (t_closers c), e).
Proof. intros H1 H2 H3. unfold tstep. rewrite H1, H2. cbn zeta. rewrite H3. reflexivity. Qed.
Lemma step_closer dl tls (c : @conf R) k p m' p' e : dead c = false -> nth_error (t_closers c) k = Some p -> moves dl tls (Closer k) (t_mem c) p = Fine m' p' e ->
  tstep dl tls width fuel c (TCloser k) = Some (mkConf m' (t_calls c) (t_loop c) (t_reader c) (GoLang.set_nth k p' (t_closers c)), e).
Proof. intros H1 H2 H3. unfold tstep. rewrite H1, H2. cbn zeta. rewrite H3. reflexivity. Qed.
(** The model's side *)
Lemma model_call (s : client R) k c cs e : n_dead s = false -> s_crashed (n_conn s) = false -> nth_error (s_calls (n_conn s)) k = Some c -> call_step (n_conn s) k c = Some (cs, e) ->
  nrun s [LCall k] = Some (mkClient cs (n_ring s) (n_rd s) (n_closers s) (n_dead s), e).
Proof. intros H1 H2 H3 H4. cbn [nrun]. unfold nstep. rewrite H1, H2. unfold cstep. cbn [orb]. rewrite H2, H3, H4. rewrite app_nil_r. reflexivity. Qed.
Lemma model_loop (s : client R) cs e : n_dead s = false -> s_crashed (n_conn s) = false -> loop_step (n_conn s) = Some (cs, e) ->
  match s_mpc cs with MHead | MBody _ => False | _ => True end ->
  nrun s [LLoop] = Some (mkClient cs (n_ring s) (n_rd s) (n_closers s) (n_dead s), e).
Proof.
  intros H1 H2 H3 H4. cbn [nrun]. unfold nstep. rewrite H1, H2. unfold cstep. cbn [orb]. rewrite H2, H3. unfold call_readn. destruct (s_mpc cs); try contradiction; rewrite app_nil_r, ?H1; reflexivity.
Qed.
End Sim.
