(** * The text of gen.conn.go and the model of the connection: whole executions *)
From Coq Require Import String.
From Verif Require Import GoBase GoLemmas Encoder Decoder BufIO BufIOProofs Msg01 Conn ConnProofs ConnRing ConnRingSpec ConnRingProofs GoLang GoFlow SourceConn SourceConnSpec SourceConnPoints SourceConnSim SourceConnCalls SourceConnLoop SourceConnRing SourceConnStart.
From Verif Require Ring.
Local Open Scope string_scope.
Local Open Scope list_scope.
Local Open Scope Z_scope.

(** The loops begin. *)
Lemma text_starts {R} width dl tls n raw : exists c0, started (R := R) dl tls width (S (S (S n))) (made raw) = Some c0 /\ abs width (S n) None None c0 (Connect raw 5000000 2000000) /\ asks "close" (t_reader c0) = false.
Proof.
  assert (Hm : S (S n) <> O) by discriminate.
  destruct (reader_text width (S (S n)) Hm) as (K & EK & Q). destruct Q as (K1 & EK1 & Q). pose proof (loop_text width (S (S n)) Hm) as L. unfold l_start in L.
  destruct L as (K2 & EK2 & K3 & EK3 & L). destruct (L (zlen (repeat 0 (Z.to_nat 2000000)))) as (K4 & EK4 & L4).
  set (m1 := put_room 2000000 (made (R := R) raw)). set (m2 := put_buffer (repeat 0 (Z.to_nat 2000000)) m1).
  set (m3 := put_decoder (mkDecoder (m_buffer m2) 0 (zlen (m_buffer m2))) m2).
  assert (A1 : advance dl tls Reader (made raw) (text width (S (S (S n))) "Conn.readLoop" reader_args) = (m1, K buffer1)).
  { rewrite EK. rewrite (adv_answer dl tls Reader (made raw) _ _ K buffer1 m1) by reflexivity. rewrite EK1. apply adv_shared. reflexivity. }
  destruct (top_poll dl tls width m3 (S n) _ _ (le_n _) L4) as (n' & p' & Hn' & Ap & Qp).
  assert (A2 : advance dl tls Loop m1 (text width (S (S (S n))) "Conn.messageLoop" loop_args) = (m3, p')).
  { rewrite EK2. rewrite (adv_answer dl tls Loop m1 _ _ K2 buffer0 m2) by reflexivity. rewrite EK3.
    rewrite (adv_answer dl tls Loop m2 _ _ K3 (VInt INT (zlen (repeat 0 (Z.to_nat 2000000)))) m2) by reflexivity.
    rewrite EK4. rewrite (adv_answer dl tls Loop m2 _ _ K4 the_decoder m3) by reflexivity. exact Ap. }
  eexists. split; [|split].
  - unfold started. change (lookup "Conn.readLoop" (m_go (made raw))) with (Some reader_args). change (lookup "Conn.messageLoop" (m_go (made raw))) with (Some loop_args). cbv beta iota.
    rewrite A1, A2. reflexivity.
  - constructor; cbn [t_mem t_calls t_loop t_reader t_closers].
    + reflexivity.
    + reflexivity.
    + reflexivity.
    + reflexivity.
    + reflexivity.
    + reflexivity.
    + reflexivity.
    + unfold Connect, Connected. cbn [n_conn s_rbuf s_cap]. unfold zlen. rewrite repeat_length. apply Z2Nat.id. lia.
    + reflexivity.
    + discriminate.
    + exact I.
    + reflexivity.
    + split; [reflexivity|split; reflexivity].
    + reflexivity.
    + split; [reflexivity|]. intros [|k] p c; discriminate.
    + reflexivity.
    + intros [|k]; reflexivity.
    + eapply la_poll; [|exact Qp|reflexivity]. lia.
    + eapply ra_read; [|exists K1; split; [exact EK1|exact Q]]. lia.
    + constructor.
    + reflexivity.
    + reflexivity.
    + reflexivity.
    + reflexivity.
    + split; [discriminate|]. intros F. contradiction F. reflexivity.
  - cbn [t_reader]. rewrite EK1. reflexivity.
Qed.

Section Whole.
Context {R : Type} (dl : option error) (tls : bool) (width : Z) (fuel : nat).
Hypothesis (Hwidth : 32 <= width) (Hfuel : (2 <= fuel)%nat).
Local Notation mem := (memory R).
Local Notation tstep := (tstep dl tls width fuel).
Local Notation truns := (truns dl tls width fuel).
Local Notation both := (@both R dl tls width fuel).
Local Notation ltop := (l_top width).

(** ** From the text to the model *)
Lemma forall2_nth {A B} (P : A -> B -> Prop) l l' k y : Forall2 P l l' -> nth_error l' k = Some y -> exists x, nth_error l k = Some x /\ P x y.
Proof. intros H. revert k. induction H as [|a b' l l' Hab _ IH]; intros [|k] E; try discriminate; [injection E as <-; exists a; auto|apply IH, E]. Qed.
Lemma forall2_len {A B} (P : A -> B -> Prop) l l' : Forall2 P l l' -> length l = length l'.
Proof. induction 1; cbn; congruence. Qed.
Lemma closer_of b rl wl (c : @conf R) (s : client R) k p : abs width b rl wl c s -> nth_error (t_closers c) k = Some p -> exists pc, nth_error (n_closers s) k = Some pc /\ closer_at pc p.
Proof. intros A. apply forall2_nth, (a_closers _ _ _ _ _ _ A). Qed.
Ltac follow H Hs := let c2 := fresh in let s2 := fresh in let e2 := fresh in let T := fresh in let N := fresh in let A2 := fresh in
  destruct H as (c2 & s2 & ? & e2 & T & N & A2 & _); rewrite T in Hs; injection Hs as <- <-;
  eexists _, s2; split; [exact N|]; split; [reflexivity|]; left; eauto.
Lemma forward b rl wl (c : @conf R) (s : client R) a c' e : abs width (S b) rl wl c s -> tstep c a = Some (c', e) ->
  exists sched s', nrun s sched = Some (s', e) /\ outside sched = outside_text [a] /\ ((exists rl' wl', abs width b rl' wl' c' s') \/ stopped c' s').
Proof.
  intros A Hs. pose proof (abs_alive _ _ _ _ _ _ A) as Hd. destruct a as [enc dec|k| |a|bs|x| | |k].
  - follow (do_new dl tls width fuel b rl wl c s enc dec Hfuel A) Hs.
  - destruct (nth_error (t_calls c) k) as [p|] eqn:Hp; [|unfold SourceConnSpec.tstep in Hs; rewrite Hd, Hp in Hs; discriminate].
    destruct (a_calls _ _ _ _ _ _ A) as [Lc Hcalls]. destruct (nth_error (s_calls (n_conn s)) k) as [cl|] eqn:Hc; [|apply nth_error_None in Hc; pose proof (some_lt _ _ _ Hp); lia].
    assert (HB : moves dl tls (Caller k) (t_mem c) p = Not -> False).
    { intros F. unfold SourceConnSpec.tstep in Hs. rewrite Hd, Hp in Hs. cbn zeta in Hs. rewrite F in Hs. discriminate. }
    destruct (Hcalls k p cl Hp Hc) as [q Q E|q Q E|q Q E Er|q Q E Er|q Q E|q Q Ew E|q Q Ew E|q fl Q Ew Ee E|q Q E|r E].
    + follow (do_add dl tls width fuel b rl wl c s k q cl A Hp Hc Q E) Hs.
    + destruct rl as [w|].
      * exfalso. apply HB. destruct Q as (K & -> & _). unfold moves, together, rmutex. cbn -[m_mutexes]. rewrite (a_mutexes _ _ _ _ _ _ A). reflexivity.
      * follow (do_lock1 dl tls width fuel b wl c s k q cl A Hp Hc Q E) Hs.
    + follow (do_set dl tls width fuel b rl wl c s k q cl A Hp Hc Q E Er) Hs.
    + follow (do_unlock1 dl tls width fuel b rl wl c s k q cl A Hp Hc Q E Er) Hs.
    + destruct wl as [w|].
      * exfalso. apply HB. destruct Q as (K & -> & _). unfold moves, together, wmutex. cbn -[m_mutexes]. rewrite (a_mutexes _ _ _ _ _ _ A). reflexivity.
      * follow (do_lock2 dl tls width fuel b rl c s k q cl A Hp Hc Q E) Hs.
    + destruct (m_pieces (t_mem c)) as [|pc pcs] eqn:Ep.
      * rewrite <- Ep in E. destruct (do_end_encode dl tls width fuel b rl wl c s k q cl A Hp Hc Q Ew E Ep) as (c2 & T & A2 & _). rewrite T in Hs. injection Hs as <- <-.
        exists [], s. split; [reflexivity|]. split; [reflexivity|]. left. eauto.
      * rewrite <- Ep in E. follow (do_piece_encode dl tls width fuel b rl wl c s k q cl pc pcs A Hp Hc Q Ew E Ep) Hs.
    + destruct (m_pieces (t_mem c)) as [|pc pcs] eqn:Ep; rewrite <- Ep in E.
      * follow (do_end_flush dl tls width fuel b rl wl c s k q cl A Hp Hc Q Ew E Ep) Hs.
      * follow (do_piece_flush dl tls width fuel b rl wl c s k q cl pc pcs A Hp Hc Q Ew E Ep) Hs.
    + follow (do_unlock2 dl tls width fuel b rl wl c s k q cl fl A Hp Hc Q Ew Ee E) Hs.
    + destruct (k_reply cl) as [r|] eqn:Er.
      * follow (do_recv dl tls width fuel b rl wl c s k q cl r A Hp Hc Q E Er) Hs.
      * exfalso. apply HB. destruct Q as (K & -> & _). unfold moves, together, chan. cbn -[m_replies]. rewrite (a_replies _ _ _ _ _ _ A), Hc, Er. reflexivity.
    + exfalso. apply HB. reflexivity.
  - remember (t_loop c) as p eqn:Ep. symmetry in Ep. pose proof (a_loop _ _ _ _ _ _ A) as L. rewrite Ep in L.
    assert (HB : moves dl tls Loop (t_mem c) p = Not -> False).
    { intros F. unfold SourceConnSpec.tstep in Hs. rewrite Hd, Ep in Hs. cbn zeta in Hs. rewrite F in Hs. destruct (asks _ _); discriminate. }
    assert (HR : asks "ring.Buffer.ReadN" p = true -> False).
    { intros F. unfold SourceConnSpec.tstep in Hs. rewrite Hd, Ep, F in Hs. discriminate. }
    destruct L as [n q Hn Q M|q Q M Z|n q Hn Q M|n size q Hn Q M|n q Hn Q M|n q Hn Q M Lk|n q Hn Q M Lk|n o q Hn Q M Lk|n k q Hn Q M|n k v d q Hn Q M D|M].
    + destruct (m_ended (t_mem c)) eqn:En.
      * follow (loop_ended dl tls width fuel b rl wl c s n q A Ep Q M En) Hs.
      * follow (loop_goes dl tls width fuel b rl wl c s n q A Ep Hn Q M En) Hs.
    + follow (loop_closes dl tls width fuel b rl wl c s q A Ep Q M Z) Hs.
    + exfalso. apply HR. destruct Q as (K & -> & _). reflexivity.
    + exfalso. apply HR. destruct Q as (K & -> & _). reflexivity.
    + destruct rl as [w|].
      * exfalso. apply HB. destruct Q as (K & -> & _). unfold moves, together, rmutex. cbn -[m_mutexes]. rewrite (a_mutexes _ _ _ _ _ _ A). reflexivity.
      * follow (loop_locks dl tls width fuel b wl c s n q A Ep Hn Q M) Hs.
    + subst rl. follow (loop_gets dl tls width fuel b wl c s n q A Ep Hn Q M) Hs.
    + subst rl. follow (loop_deletes dl tls width fuel b wl c s n q A Ep Hn Q M) Hs.
    + subst rl. follow (loop_unlocks dl tls width fuel b wl c s n o q A Ep Hn Q M) Hs.
    + destruct (a_called width _ _ _ _ _ _ _ A M) as [cl Hc]. destruct (k_dec cl (m_decoder (t_mem c))) as [r d|x d|] eqn:Ed.
      * assert (F : k_dec cl (m_decoder (t_mem c)) <> DPanic) by (rewrite Ed; discriminate). follow (loop_decodes dl tls width fuel b rl wl c s n k q cl A Ep Hn Q M Hc F) Hs.
      * assert (F : k_dec cl (m_decoder (t_mem c)) <> DPanic) by (rewrite Ed; discriminate). follow (loop_decodes dl tls width fuel b rl wl c s n k q cl A Ep Hn Q M Hc F) Hs.
      * destruct (loop_panics dl tls width fuel b rl wl c s n k q cl A Ep Q M Hc Ed) as (c2 & s2 & T & N & St). rewrite T in Hs. injection Hs as <- <-.
        exists [LLoop], s2. split; [exact N|]. split; [reflexivity|]. right. exact St.
    + destruct (a_called width _ _ _ _ _ _ _ A M) as [cl Hc]. destruct (k_reply cl) as [r|] eqn:Er.
      * exfalso. apply HB. destruct Q as (K & -> & _). unfold moves, together, chan. cbn -[m_replies]. rewrite (a_replies _ _ _ _ _ _ A), Hc, Er. reflexivity.
      * follow (loop_sends dl tls width fuel b rl wl c s n k v d q cl A Ep Hn Q M D Hc Er) Hs.
    + exfalso. apply HB. reflexivity.
  - destruct (inside a) eqn:Hi; [|unfold SourceConnSpec.tstep in Hs; rewrite Hd, Hi in Hs; discriminate].
    destruct (Ring.step (n_ring s) a) as [[g re]|] eqn:Eg.
    + destruct (ring_moves dl tls width fuel b rl wl c s a g re Hwidth A Hi Eg) as (c2 & s2 & e2 & T & N & _ & C). rewrite T in Hs. injection Hs as <- <-.
      exists [LRing a], s2. split; [exact N|]. split; [reflexivity|]. destruct C as [C|C]; [left; eauto|right; exact C].
    + unfold SourceConnSpec.tstep in Hs. rewrite Hd, Hi, (a_ring _ _ _ _ _ _ A), Eg in Hs. discriminate.
  - destruct (t_reader c) as [v| | |w vs K] eqn:Ep.
    1,2,3: exfalso; unfold SourceConnSpec.tstep in Hs; rewrite Hd, Ep in Hs; inversion Hs.
    pose proof (a_reader _ _ _ _ _ _ A) as L. rewrite Ep in L. inversion L as [n p Hn Q Er1 Er2|p Q Er1 Er2|n z p Hn Q Er1 Er2|]; subst p.
    + assert (Ew : w = "net.Conn.Read"%string /\ vs = [the_net; buffer1]) by (destruct Q as (K' & E' & _); inversion E'; auto).
      destruct (m_rawclosed (t_mem c)) eqn:Er; [|destruct (zlen bs <=? 2000000) eqn:Ez].
      * exfalso. destruct Ew as [-> ->]. unfold SourceConnSpec.tstep in Hs. rewrite Hd, Ep, Er in Hs. cbn -[Z.leb] in Hs. inversion Hs.
      * apply Z.leb_le in Ez. follow (read_bytes dl tls width fuel b rl wl c s n _ bs A Ep Hn Q (eq_sym Er1) Er Ez) Hs.
      * exfalso. destruct Ew as [-> ->]. unfold SourceConnSpec.tstep in Hs. rewrite Hd, Ep, Er, (a_room _ _ _ _ _ _ A), Ez in Hs. cbn -[Z.leb] in Hs. inversion Hs.
    + exfalso. destruct Q as (K' & E' & _). inversion E'; subst. unfold SourceConnSpec.tstep in Hs. rewrite Hd, Ep in Hs. inversion Hs.
    + exfalso. destruct Q as (K' & E' & _). inversion E'; subst. unfold SourceConnSpec.tstep in Hs. rewrite Hd, Ep in Hs. inversion Hs.
  - destruct (t_reader c) as [v| | |w vs K] eqn:Ep.
    1,2,3: exfalso; unfold SourceConnSpec.tstep in Hs; rewrite Hd, Ep in Hs; inversion Hs.
    pose proof (a_reader _ _ _ _ _ _ A) as L. rewrite Ep in L. inversion L as [n p Hn Q Er1 Er2|p Q Er1 Er2|n z p Hn Q Er1 Er2|]; subst p.
    + destruct (read_error dl tls width fuel b rl wl c s n _ x A Ep Q (eq_sym Er1)) as (c2 & T & A2 & _). rewrite T in Hs. injection Hs as <- <-.
      exists [], s. split; [reflexivity|]. split; [reflexivity|]. left. eauto.
    + exfalso. destruct Q as (K' & E' & _). inversion E'; subst. unfold SourceConnSpec.tstep in Hs. rewrite Hd, Ep in Hs. inversion Hs.
    + exfalso. destruct Q as (K' & E' & _). inversion E'; subst. unfold SourceConnSpec.tstep in Hs. rewrite Hd, Ep in Hs. inversion Hs.
  - destruct (t_reader c) as [v| | |w vs K] eqn:Ep.
    1,2,3: exfalso; unfold SourceConnSpec.tstep in Hs; rewrite Hd, Ep in Hs; inversion Hs.
    pose proof (a_reader _ _ _ _ _ _ A) as L. rewrite Ep in L. inversion L as [n p Hn Q Er1 Er2|p Q Er1 Er2|n z p Hn Q Er1 Er2|]; subst p.
    + exfalso. destruct Q as (K' & E' & _). inversion E'; subst. unfold SourceConnSpec.tstep in Hs. rewrite Hd, Ep in Hs. inversion Hs.
    + follow (read_ends dl tls width fuel b rl wl c s _ A Ep Q (eq_sym Er1)) Hs.
    + exfalso. destruct Q as (K' & E' & _). inversion E'; subst. unfold SourceConnSpec.tstep in Hs. rewrite Hd, Ep in Hs. inversion Hs.
  - follow (close_new dl tls width fuel b rl wl c s Hfuel A) Hs.
  - destruct (nth_error (t_closers c) k) as [p|] eqn:Hp; [|unfold SourceConnSpec.tstep in Hs; rewrite Hd, Hp in Hs; inversion Hs].
    destruct (closer_of _ _ _ _ _ _ _ A Hp) as (pc & Hk & Hat). destruct (close_step s k pc) as [s2|] eqn:Es.
    + assert (F : close_step s k pc <> None) by (rewrite Es; discriminate). follow (close_moves dl tls width fuel b rl wl c s k p pc A Hp Hk Hat F) Hs.
    + exfalso. rewrite (close_waits dl tls width fuel b rl wl c s k p pc A Hp Hat Es) in Hs. inversion Hs.
Qed.

(** ** From the model to the text *)
Lemma abs_weaken b b' rl wl (c : @conf R) (s : client R) : (b' <= b)%nat -> abs width b rl wl c s -> abs width b' rl wl c s.
Proof.
  intros Hb A. destruct A. constructor; try assumption.
  - refine (loop_frame _ _ _ _ _ _ _ _ _ _ a_loop _ eq_refl eq_refl eq_refl _ _ eq_refl _); [exact Hb|exists []; symmetry; apply app_nil_r|auto|auto].
  - exact (reader_frame _ _ _ _ a_reader Hb).
Qed.
Definition reading (a : @tlabel R) : bool := match a with TNet _ | TNetErr _ | TReader | TRing _ => true | _ => false end.
Lemma reader_same (c : @conf R) a c' e : tstep c a = Some (c', e) -> reading a = false -> t_reader c' = t_reader c.
Proof.
  intros H Hr. unfold SourceConnSpec.tstep in H. destruct (dead c); [discriminate|]. cbn zeta in H. destruct a; try discriminate Hr.
  - destruct (advance _ _ _ _ _) in H. injection H as <- _. reflexivity.
  - destruct (nth_error _ _) in H; [|discriminate]. destruct (moves _ _ _ _ _) in H; [|discriminate]. injection H as <- _. reflexivity.
  - destruct (asks _ _) in H; [discriminate|]. destruct (moves _ _ _ _ _) in H; [|discriminate]. injection H as <- _. reflexivity.
  - destruct (advance _ _ _ _ _) in H. injection H as <- _. reflexivity.
  - destruct (nth_error _ _) in H; [|discriminate]. destruct (moves _ _ _ _ _) in H; [|discriminate]. injection H as <- _. reflexivity.
Qed.
Lemma truns_cons (c : @conf R) a c1 e1 ts c2 e2 : tstep c a = Some (c1, e1) -> truns c1 ts = Some (c2, e2) -> truns c (a :: ts) = Some (c2, e1 ++ e2).
Proof. intros H1 H2. cbn [SourceConnSpec.truns]. rewrite H1, H2. reflexivity. Qed.
Lemma truns_one (c : @conf R) a c1 e1 : tstep c a = Some (c1, e1) -> truns c [a] = Some (c1, e1).
Proof. intros H. cbn [SourceConnSpec.truns]. rewrite H, app_nil_r. reflexivity. Qed.
Lemma nrun_one (s : client R) a s' e : nstep s a = Some (s', e) -> nrun s [a] = Some (s', e).
Proof. intros H. cbn [nrun]. rewrite H, app_nil_r. reflexivity. Qed.
Lemma truns_app (ts us : list (@tlabel R)) : forall c c1 e1 c2 e2, truns c ts = Some (c1, e1) -> truns c1 us = Some (c2, e2) -> truns c (ts ++ us) = Some (c2, e1 ++ e2).
Proof.
  induction ts as [|a ts IH]; intros c c1 e1 c2 e2 H1 H2.
  - injection H1 as <- <-. exact H2.
  - cbn [SourceConnSpec.truns app] in *. destruct (tstep c a) as [[c0 e0]|]; [|discriminate]. destruct (truns c0 ts) as [[c3 e3]|] eqn:E; [|discriminate].
    injection H1 as <- <-. rewrite (IH _ _ _ _ _ E H2), app_assoc. reflexivity.
Qed.

Definition back (b : nat) (c : @conf R) (a : nlabel R) (s' : client R) (e : list (Conn.event R)) : Prop :=
  exists ts c', truns c ts = Some (c', e) /\ (length ts <= 4)%nat /\ outside_text ts = outside [a] /\
    ((exists wl', abs width b None wl' c' s' /\ asks "close" (t_reader c') = false) \/ stopped c' s').

Lemma single b b0 (c : @conf R) (s : client R) t a s' e P : (b <= b0)%nat -> both b0 None c s t [a] P -> reading t = false -> outside_text [t] = outside [a] ->
  asks "close" (t_reader c) = false -> nstep s a = Some (s', e) -> back b c a s' e.
Proof.
  intros Hb (c2 & s2 & wl2 & e2 & T & N & A2 & _) Hr Ho Ha Hn. rewrite (nrun_one _ _ _ _ Hn) in N. injection N as <- <-.
  exists [t], c2. split; [apply truns_one, T|]. split; [cbn; lia|]. split; [exact Ho|]. left. exists wl2. split; [exact (abs_weaken _ _ _ _ _ _ Hb A2)|].
  rewrite (reader_same _ _ _ _ T Hr). exact Ha.
Qed.

Lemma backward b wl (c : @conf R) (s : client R) a s' e : abs width (S (S (S (S b)))) None wl c s -> asks "close" (t_reader c) = false -> nstep s a = Some (s', e) ->
  (forall bs, a = LNet bs -> zlen bs <= 2000000) -> back b c a s' e.
Proof.
  intros A Ha Hn Hnet. pose proof (abs_alive _ _ _ _ _ _ A) as Hd. pose proof (a_fine _ _ _ _ _ _ A) as Hf. pose proof (a_alive _ _ _ _ _ _ A) as Hl. destruct a as [enc dec|k| |a|bs|x| |k].
  - refine (single b _ c s _ _ s' e _ _ (do_new dl tls width fuel _ _ _ c s enc dec Hfuel A) eq_refl eq_refl Ha Hn); lia.
  - assert (HN := Hn). unfold nstep in HN. rewrite Hf, Hl in HN. cbn [orb] in HN. cbn zeta in HN. unfold cstep in HN. rewrite Hl in HN.
    destruct (nth_error (s_calls (n_conn s)) k) as [cl|] eqn:Hc; [|discriminate HN].
    destruct (a_calls _ _ _ _ _ _ A) as [Lc Hcalls]. destruct (nth_error (t_calls c) k) as [p|] eqn:Hp; [|apply nth_error_None in Hp; pose proof (some_lt _ _ _ Hc); lia].
    destruct (Hcalls k p cl Hp Hc) as [q Q E|q Q E|q Q E Er|q Q E Er|q Q E|q Q Ew E|q Q Ew E|q fl Q Ew Ee E|q Q E|r E].
    + refine (single b _ c s _ _ s' e _ _ (do_add dl tls width fuel _ _ _ c s k q cl A Hp Hc Q E) eq_refl eq_refl Ha Hn); lia.
    + destruct (do_lock1 dl tls width fuel _ _ c s k q cl A Hp Hc Q E) as (c1 & s1 & wl1 & e1 & T1 & N1 & A1 & -> & p1 & Hp1 & Q1). injection N1 as <-.
      destruct (do_set dl tls width fuel _ _ _ c1 s k p1 cl A1 Hp1 Hc Q1 E eq_refl) as (c2 & s2 & wl2 & e2 & T2 & N2 & A2 & p2 & cl2 & Hp2 & Q2 & Hc2 & Ei & E2).
      rewrite (nrun_one _ _ _ _ Hn) in N2. injection N2 as <- <-. rewrite <- Ei in Q2.
      destruct (do_unlock1 dl tls width fuel _ _ _ c2 s' k p2 cl2 A2 Hp2 Hc2 Q2 E2 eq_refl) as (c3 & s3 & wl3 & e3 & T3 & N3 & A3 & ->). injection N3 as <-.
      exists [TCall k; TCall k; TCall k], c3. split.
      { rewrite (truns_cons _ _ _ _ _ _ _ T1 (truns_cons _ _ _ _ _ _ _ T2 (truns_one _ _ _ _ T3))). cbn [app]. rewrite app_nil_r. reflexivity. }
      split; [cbn; lia|]. split; [reflexivity|]. left. exists wl3. split; [refine (abs_weaken _ _ _ _ _ _ _ A3); lia|].
      rewrite (reader_same _ _ _ _ T3 eq_refl), (reader_same _ _ _ _ T2 eq_refl), (reader_same _ _ _ _ T1 eq_refl). exact Ha.
    + discriminate Er.
    + discriminate Er.
    + destruct wl as [w|].
      * exfalso. pose proof (a_lock _ _ _ _ _ _ A) as Lk. destruct w; try exact Lk. cbn in Lk. unfold call_step in HN. rewrite E, Lk in HN. discriminate HN.
      * refine (single b _ c s _ _ s' e _ _ (do_lock2 dl tls width fuel _ _ c s k q cl A Hp Hc Q E) eq_refl eq_refl Ha Hn); lia.
    + destruct (m_pieces (t_mem c)) as [|pc pcs] eqn:Ep.
      * rewrite <- Ep in E. destruct (do_end_encode dl tls width fuel _ _ wl c s k q cl A Hp Hc Q Ew E Ep) as (c1 & T1 & A1 & p1 & Hp1 & Q1 & E1).
        assert (F : exists P, both (S (S b)) None c1 s (TCall k) [LCall k] P).
        { destruct (m_pieces (t_mem c1)) as [|pc pcs] eqn:Ep1; rewrite <- Ep1 in E1.
          - eexists. exact (do_end_flush dl tls width fuel _ _ _ c1 s k p1 cl A1 Hp1 Hc Q1 Ew E1 Ep1).
          - eexists. exact (do_piece_flush dl tls width fuel _ _ _ c1 s k p1 cl pc pcs A1 Hp1 Hc Q1 Ew E1 Ep1). }
        destruct F as (P & c2 & s2 & wl2 & e2 & T2 & N2 & A2 & _). rewrite (nrun_one _ _ _ _ Hn) in N2. injection N2 as <- <-.
        exists [TCall k; TCall k], c2. split; [exact (truns_cons _ _ _ _ _ _ _ T1 (truns_one _ _ _ _ T2))|]. split; [cbn; lia|]. split; [reflexivity|]. left. exists wl2.
        split; [refine (abs_weaken _ _ _ _ _ _ _ A2); lia|]. rewrite (reader_same _ _ _ _ T2 eq_refl), (reader_same _ _ _ _ T1 eq_refl). exact Ha.
      * rewrite <- Ep in E. refine (single b _ c s _ _ s' e _ _ (do_piece_encode dl tls width fuel _ _ wl c s k q cl pc pcs A Hp Hc Q Ew E Ep) eq_refl eq_refl Ha Hn); lia.
    + destruct (m_pieces (t_mem c)) as [|pc pcs] eqn:Ep; rewrite <- Ep in E.
      * refine (single b _ c s _ _ s' e _ _ (do_end_flush dl tls width fuel _ _ wl c s k q cl A Hp Hc Q Ew E Ep) eq_refl eq_refl Ha Hn); lia.
      * refine (single b _ c s _ _ s' e _ _ (do_piece_flush dl tls width fuel _ _ wl c s k q cl pc pcs A Hp Hc Q Ew E Ep) eq_refl eq_refl Ha Hn); lia.
    + refine (single b _ c s _ _ s' e _ _ (do_unlock2 dl tls width fuel _ _ wl c s k q cl fl A Hp Hc Q Ew Ee E) eq_refl eq_refl Ha Hn); lia.
    + destruct (k_reply cl) as [r|] eqn:Er; [|unfold call_step in HN; rewrite E, Er in HN; discriminate HN].
      refine (single b _ c s _ _ s' e _ _ (do_recv dl tls width fuel _ _ wl c s k q cl r A Hp Hc Q E Er) eq_refl eq_refl Ha Hn); lia.
    + unfold call_step in HN. rewrite E in HN. discriminate HN.
  - assert (HN := Hn). unfold nstep in HN. rewrite Hf, Hl in HN. cbn [orb] in HN. cbn zeta in HN. unfold cstep in HN. rewrite Hl in HN.
    remember (t_loop c) as p eqn:Ep. symmetry in Ep. pose proof (a_loop _ _ _ _ _ _ A) as L. rewrite Ep in L.
    destruct L as [n q Hq Q M|q Q M Z|n q Hq Q M|n size q Hq Q M|n q Hq Q M|n q Hq Q M Lk|n q Hq Q M Lk|n o q Hq Q M Lk|n k q Hq Q M|n k v d q Hq Q M D|M].
    + destruct (m_ended (t_mem c)) eqn:En.
      * destruct (loop_ended dl tls width fuel _ _ wl c s n q A Ep Q M En) as (c1 & s1 & wl1 & e1 & T1 & N1 & A1 & -> & Q1). injection N1 as <-.
        assert (En1 : m_ended (t_mem c1) = true) by (rewrite (a_ended _ _ _ _ _ _ A1), <- (a_ended _ _ _ _ _ _ A); exact En).
        destruct (loop_closes dl tls width fuel _ _ _ c1 s _ A1 eq_refl Q1 M En1) as (c2 & s2 & wl2 & e2 & T2 & N2 & A2 & _). rewrite (nrun_one _ _ _ _ Hn) in N2. injection N2 as <- <-.
        exists [TLoop; TLoop], c2. split; [exact (truns_cons _ _ _ _ _ _ _ T1 (truns_one _ _ _ _ T2))|]. split; [cbn; lia|]. split; [reflexivity|]. left. exists wl2.
        split; [refine (abs_weaken _ _ _ _ _ _ _ A2); lia|]. rewrite (reader_same _ _ _ _ T2 eq_refl), (reader_same _ _ _ _ T1 eq_refl). exact Ha.
      * refine (single b _ c s _ _ s' e _ _ (loop_goes dl tls width fuel _ _ wl c s n q A Ep Hq Q M En) eq_refl eq_refl Ha Hn); lia.
    + refine (single b _ c s _ _ s' e _ _ (loop_closes dl tls width fuel _ _ wl c s q A Ep Q M Z) eq_refl eq_refl Ha Hn); lia.
    + unfold loop_step in HN. rewrite M in HN. discriminate HN.
    + unfold loop_step in HN. rewrite M in HN. discriminate HN.
    + destruct (loop_locks dl tls width fuel _ wl c s n q A Ep Hq Q M) as (c1 & s1 & wl1 & e1 & T1 & N1 & A1 & -> & Q1 & M1). injection N1 as <-.
      destruct (loop_gets dl tls width fuel _ _ c1 s n _ A1 eq_refl ltac:(lia) Q1 M1) as (c2 & s2 & wl2 & e2 & T2 & N2 & A2 & -> & Q2 & M2). injection N2 as <-.
      destruct (loop_deletes dl tls width fuel _ _ c2 s n _ A2 eq_refl ltac:(lia) Q2 M2) as (c3 & s3 & wl3 & e3 & T3 & N3 & A3 & o & Q3 & M3). rewrite (nrun_one _ _ _ _ Hn) in N3. injection N3 as <- <-.
      destruct (loop_unlocks dl tls width fuel _ _ c3 s' n o _ A3 eq_refl ltac:(lia) Q3 M3) as (c4 & s4 & wl4 & e4 & T4 & N4 & A4 & ->). injection N4 as <-.
      exists [TLoop; TLoop; TLoop; TLoop], c4. split.
      { rewrite (truns_cons _ _ _ _ _ _ _ T1 (truns_cons _ _ _ _ _ _ _ T2 (truns_cons _ _ _ _ _ _ _ T3 (truns_one _ _ _ _ T4)))). cbn [app]. rewrite app_nil_r. reflexivity. }
      split; [cbn; lia|]. split; [reflexivity|]. left. exists wl4. split; [exact A4|].
      rewrite (reader_same _ _ _ _ T4 eq_refl), (reader_same _ _ _ _ T3 eq_refl), (reader_same _ _ _ _ T2 eq_refl), (reader_same _ _ _ _ T1 eq_refl). exact Ha.
    + discriminate Lk.
    + discriminate Lk.
    + discriminate Lk.
    + destruct (a_called width _ _ _ _ _ _ _ A M) as [cl Hc]. destruct (k_dec cl (m_decoder (t_mem c))) as [r d|x d|] eqn:Ed.
      3: { destruct (loop_panics dl tls width fuel _ _ wl c s n k q cl A Ep Q M Hc Ed) as (c2 & s2 & T & N & St). rewrite (nrun_one _ _ _ _ Hn) in N. injection N as <- ->.
           exists [TLoop], c2. split; [apply truns_one, T|]. split; [cbn; lia|]. split; [reflexivity|]. right. exact St. }
      1,2: assert (F : k_dec cl (m_decoder (t_mem c)) <> DPanic) by (rewrite Ed; discriminate);
        assert (Er : k_reply cl = None) by (unfold loop_step in HN; rewrite M, Hc, Ed in HN; destruct (k_reply cl); [discriminate HN|reflexivity]);
        destruct (loop_decodes dl tls width fuel _ _ wl c s n k q cl A Ep Hq Q M Hc F) as (c1 & s1 & wl1 & e1 & T1 & N1 & A1 & -> & v & Q1 & D1); injection N1 as <-;
        destruct (loop_sends dl tls width fuel _ _ _ c1 s n k v _ _ cl A1 eq_refl ltac:(lia) Q1 M D1 Hc Er) as (c2 & s2 & wl2 & e2 & T2 & N2 & A2 & _);
        rewrite (nrun_one _ _ _ _ Hn) in N2; injection N2 as <- <-;
        exists [TLoop; TLoop], c2; split; [exact (truns_cons _ _ _ _ _ _ _ T1 (truns_one _ _ _ _ T2))|]; split; [cbn; lia|]; split; [reflexivity|]; left; exists wl2;
        split; [refine (abs_weaken _ _ _ _ _ _ _ A2); lia|]; rewrite (reader_same _ _ _ _ T2 eq_refl), (reader_same _ _ _ _ T1 eq_refl); exact Ha.
    + destruct (a_called width _ _ _ _ _ _ _ A M) as [cl Hc].
      assert (Er : k_reply cl = None).
      { destruct D as (enc & dec & Hd2 & D). rewrite (a_funcs _ _ _ _ _ _ A), nth_error_map, Hc in Hd2. injection Hd2 as _ Ed. unfold loop_step in HN. rewrite M, Hc, Ed in HN.
        destruct D as [(r & d' & -> & _)|(x & d' & -> & _)] in HN; destruct (k_reply cl); [discriminate HN|reflexivity|discriminate HN|reflexivity]. }
      refine (single b _ c s _ _ s' e _ _ (loop_sends dl tls width fuel _ _ wl c s n k v d q cl A Ep Hq Q M D Hc Er) eq_refl eq_refl Ha Hn); lia.
    + unfold loop_step in HN. rewrite M in HN. discriminate HN.
  - assert (HN := Hn). unfold nstep in HN. rewrite Hf, Hl in HN. cbn [orb] in HN. cbn zeta in HN. destruct (inside a) eqn:Hi; [|discriminate HN].
    destruct (Ring.step (n_ring s) a) as [[g re]|] eqn:Eg; [|discriminate HN].
    destruct (ring_moves dl tls width fuel _ None wl c s a g re Hwidth A Hi Eg) as (c2 & s2 & e2 & T & N & R2 & C). rewrite (nrun_one _ _ _ _ Hn) in N. injection N as <- <-.
    exists [TRing a], c2. split; [apply truns_one, T|]. split; [cbn; lia|]. split; [reflexivity|]. destruct C as [C|C]; [left|right; exact C].
    exists wl. split; [refine (abs_weaken _ _ _ _ _ _ _ C); lia|]. rewrite R2. exact Ha.
  - assert (HN := Hn). unfold nstep in HN. rewrite Hf, Hl in HN. cbn [orb] in HN. cbn zeta in HN. destruct (n_rd s) eqn:Er; try discriminate HN.
    destruct (s_rawclosed (n_conn s)) eqn:Ec; [discriminate HN|]. rewrite <- (a_rawclosed _ _ _ _ _ _ A) in Ec.
    pose proof (a_reader _ _ _ _ _ _ A) as L. rewrite Er in L. inversion L as [n p Hq Q E1 E2|p Q E1 E2| |].
    + destruct (read_bytes dl tls width fuel _ _ wl c s n _ bs A eq_refl Hq Q Er Ec (Hnet bs eq_refl)) as (c2 & s2 & wl2 & e2 & T & N & A2 & _).
      rewrite (nrun_one _ _ _ _ Hn) in N. injection N as <- <-. exists [TNet bs], c2. split; [apply truns_one, T|]. split; [cbn; lia|]. split; [reflexivity|]. left. exists wl2.
      split; [refine (abs_weaken _ _ _ _ _ _ _ A2); lia|].
      assert (Ew : n_rd s' = RdWrite) by (destruct (Ring.step _ _) as [[g re]|] in HN; [injection HN as <- _; reflexivity|discriminate HN]).
      pose proof (a_reader _ _ _ _ _ _ A2) as L2. rewrite Ew in L2. inversion L2 as [| |n2 z2 p2 Hq2 Q2 E3 E4|]. destruct Q2 as (K2 & EK2 & _). rewrite EK2. reflexivity.
    + exfalso. destruct Q as (K & EK & _). rewrite EK in Ha. cbn in Ha. discriminate Ha.
  - assert (HN := Hn). unfold nstep in HN. rewrite Hf, Hl in HN. cbn [orb] in HN. cbn zeta in HN. destruct (n_rd s) eqn:Er; try discriminate HN.
    pose proof (a_reader _ _ _ _ _ _ A) as L. rewrite Er in L. inversion L as [n p Hq Q E1 E2|p Q E1 E2| |].
    + destruct (read_error dl tls width fuel _ _ wl c s n _ (ErrOther 0) A eq_refl Q Er) as (c1 & T1 & A1 & Q1).
      destruct (read_ends dl tls width fuel _ _ wl c1 s _ A1 eq_refl Q1 Er) as (c2 & s2 & wl2 & e2 & T & N & A2 & _).
      assert (Hn2 : nstep s (LNetErr []) = Some (s', e)) by exact Hn. rewrite (nrun_one _ _ _ _ Hn2) in N. injection N as <- <-. 
      exists [TNetErr (ErrOther 0); TReader], c2. split; [exact (truns_cons _ _ _ _ _ _ _ T1 (truns_one _ _ _ _ T))|]. split; [cbn; lia|]. split; [reflexivity|]. left. exists wl2.
      split; [refine (abs_weaken _ _ _ _ _ _ _ A2); lia|].
      assert (Ew : n_rd s' = RdDone) by (injection HN as <- _; reflexivity).
      pose proof (a_reader _ _ _ _ _ _ A2) as L2. rewrite Ew in L2. inversion L2. reflexivity.
    + exfalso. destruct Q as (K & EK & _). rewrite EK in Ha. cbn in Ha. discriminate Ha.
  - refine (single b _ c s _ _ s' e _ _ (close_new dl tls width fuel _ _ wl c s Hfuel A) eq_refl eq_refl Ha Hn); lia.
  - assert (HN := Hn). unfold nstep in HN. rewrite Hf, Hl in HN. cbn [orb] in HN. cbn zeta in HN. destruct (nth_error (n_closers s) k) as [pc|] eqn:Hk; [|discriminate HN].
    destruct (close_step s k pc) as [s2|] eqn:Es; [|discriminate HN].
    destruct (nth_error (t_closers c) k) as [p|] eqn:Hp.
    2: { exfalso. apply nth_error_None in Hp. pose proof (some_lt _ _ _ Hk). pose proof (forall2_len _ _ _ (a_closers _ _ _ _ _ _ A)). lia. }
    destruct (closer_of _ _ _ _ _ _ _ A Hp) as (pc2 & Hk2 & Hat). rewrite Hk in Hk2. injection Hk2 as <-.
    assert (F : close_step s k pc <> None) by (rewrite Es; discriminate).
    refine (single b _ c s _ _ s' e _ _ (close_moves dl tls width fuel _ _ wl c s k p pc A Hp Hk Hat F) eq_refl eq_refl Ha Hn); lia.
Qed.
End Whole.

(** ** Whole executions *)
Lemma abs_shows {R} width b rl wl (c : @conf R) (s : client R) : abs width b rl wl c s -> shows c s.
Proof.
  intros A. pose proof (abs_alive _ _ _ _ _ _ A) as Hd. split; [rewrite Hd, (a_fine _ _ _ _ _ _ A), (a_alive _ _ _ _ _ _ A); reflexivity|]. intros _.
  destruct (a_calls _ _ _ _ _ _ A) as [Lc Hcalls]. pose proof (a_loop _ _ _ _ _ _ A) as L. pose proof (a_reader _ _ _ _ _ _ A) as D. pose proof (a_closers _ _ _ _ _ _ A) as Z.
  split; [split; [|split; [|split]]|split].
  - intros E. rewrite E in L. inversion L as [n p Hq Q M|p Q M Zx|n p Hq Q M|n size p Hq Q M|n p Hq Q M|n p Hq Q M Lk|n p Hq Q M Lk|n o p Hq Q M Lk|n k p Hq Q M|n k v d p Hq Q M Dx|];
      destruct Q as (K & EK & _); discriminate EK.
  - intros E. rewrite E in D. inversion D as [n p Hq Q E1 E2|p Q E1 E2|n z p Hq Q E1 E2|]; destruct Q as (K & EK & _); discriminate EK.
  - intros p Hin ->. destruct (In_nth_error _ _ Hin) as [k Hp]. destruct (nth_error (s_calls (n_conn s)) k) as [cl|] eqn:Hc; [|apply nth_error_None in Hc; pose proof (some_lt _ _ _ Hp); lia].
    pose proof (Hcalls k _ cl Hp Hc) as H. inversion H as [p Q|p Q|p Q|p Q|p Q|p Q|p Q|p fl Q|p Q|]; destruct Q as (K & EK & _); discriminate EK.
  - intros p Hin ->. destruct (In_nth_error _ _ Hin) as [k Hp]. destruct (forall2_nth _ _ _ _ _ Z Hp) as (pc & _ & H). inversion H as [p Q|p Q|p Q|p Q|p Q|]; destruct Q as (K & EK & _); discriminate EK.
  - clear - Lc Hcalls. revert Lc Hcalls. generalize (t_calls c) as ps. generalize (s_calls (n_conn s)) as cs. intros cs ps Lc Hcalls.
    assert (G : forall ps cs, length ps = length cs -> (forall k p cl, nth_error ps k = Some p -> nth_error cs k = Some cl -> call_same p cl) -> Forall2 (@call_same R) ps cs).
    { clear. induction ps as [|p ps IH]; intros [|cl cs] Hl H; try discriminate Hl; constructor; [exact (H O p cl eq_refl eq_refl)|]. apply IH; [cbn in Hl; lia|]. intros k. exact (H (S k)). }
    apply G; [exact Lc|]. intros k p cl Hp Hc. unfold call_same.
    destruct (Hcalls k p cl Hp Hc) as [q Q E|q Q E|q Q E Er|q Q E Er|q Q E|q Q Ew E|q Q Ew E|q fl Q Ew Ee E|q Q E|r E]; rewrite E; try reflexivity;
      intros v Ev; rewrite Ev in Q; destruct Q as (K & EK & _); discriminate EK.
  - clear - Z. induction Z as [|pc p pcs ps H _ IH]; constructor; [|exact IH]. unfold closer_same.
    destruct H as [q Q|q Q|q Q|q Q|q Q|]; try reflexivity; intros v Ev; rewrite Ev in Q; destruct Q as (K & EK & _); discriminate EK.
Qed.
Lemma stopped_shows {R} (c : @conf R) (s : client R) : stopped c s -> shows c s.
Proof. intros [H1 H2]. split; [rewrite H1, H2; reflexivity|]. rewrite H1. discriminate. Qed.
Lemma nrun_app {R} (l l' : list (nlabel R)) : forall s s1 e1 s2 e2, nrun s l = Some (s1, e1) -> nrun s1 l' = Some (s2, e2) -> nrun s (l ++ l') = Some (s2, e1 ++ e2).
Proof.
  induction l as [|a l IH]; intros s s1 e1 s2 e2 H1 H2.
  - injection H1 as <- <-. exact H2.
  - cbn [nrun app] in *. destruct (nstep s a) as [[s0 e0]|]; [|discriminate H1]. destruct (nrun s0 l) as [[s3 e3]|] eqn:E; [|discriminate H1].
    injection H1 as <- <-. rewrite (IH _ _ _ _ _ E H2), app_assoc. reflexivity.
Qed.
Lemma outside_app {R} (l l' : list (nlabel R)) : outside (l ++ l') = outside l ++ outside l'.
Proof. apply filter_app. Qed.
Lemma outside_text_app {R} (l l' : list (@tlabel R)) : outside_text (l ++ l') = outside_text l ++ outside_text l'.
Proof. apply flat_map_app. Qed.

Lemma forward_runs {R} dl tls width fuel (sched : list (@tlabel R)) : 32 <= width -> (2 <= fuel)%nat -> forall rl wl c s c' e,
  abs width (length sched) rl wl c s -> truns dl tls width fuel c sched = Some (c', e) ->
  exists msched s', nrun s msched = Some (s', e) /\ outside msched = outside_text sched /\ shows c' s'.
Proof.
  intros Hw Hf. induction sched as [|a sched IH]; intros rl wl c s c' e A H.
  - injection H as <- <-. exists [], s. split; [reflexivity|]. split; [reflexivity|]. exact (abs_shows _ _ _ _ _ _ A).
  - cbn [truns] in H. destruct (tstep dl tls width fuel c a) as [[c1 e1]|] eqn:T; [|discriminate H]. destruct (truns dl tls width fuel c1 sched) as [[c2 e2]|] eqn:U; [|discriminate H].
    injection H as <- <-. destruct (forward dl tls width fuel Hw Hf _ _ _ _ _ _ _ _ A T) as (l1 & s1 & N1 & O1 & [(rl1 & wl1 & A1)|St]).
    + destruct (IH _ _ _ _ _ _ A1 U) as (l2 & s2 & N2 & O2 & Sh). exists (l1 ++ l2), s2. split; [exact (nrun_app _ _ _ _ _ _ _ N1 N2)|].
      split; [|exact Sh]. rewrite outside_app, O1, O2. symmetry. exact (outside_text_app [a] sched).
    + destruct sched as [|a2 rest].
      * injection U as <- <-. exists l1, s1. rewrite app_nil_r. split; [exact N1|]. split; [exact O1|]. exact (stopped_shows _ _ St).
      * cbn [truns] in U. unfold tstep in U. rewrite (proj1 St) in U. discriminate U.
Qed.
Lemma backward_runs {R} dl tls width fuel (sched : list (nlabel R)) : 32 <= width -> (2 <= fuel)%nat -> forall b wl c s s' e,
  (4 * length sched <= b)%nat -> (forall bs, In (LNet bs) sched -> zlen bs <= 2000000) ->
  abs width b None wl c s -> asks "close" (t_reader c) = false -> nrun s sched = Some (s', e) ->
  exists ts c', truns dl tls width fuel c ts = Some (c', e) /\ outside_text ts = outside sched /\ shows c' s' /\ (length ts <= 4 * length sched)%nat.
Proof.
  intros Hw Hf. induction sched as [|a sched IH]; intros b wl c s s' e Hb Hnet A Ha H.
  - injection H as <- <-. exists [], c. split; [reflexivity|]. split; [reflexivity|]. split; [exact (abs_shows _ _ _ _ _ _ A)|cbn; lia].
  - cbn [nrun] in H. destruct (nstep s a) as [[s1 e1]|] eqn:T; [|discriminate H]. destruct (nrun s1 sched) as [[s2 e2]|] eqn:U; [|discriminate H]. injection H as <- <-.
    cbn [length] in Hb. assert (A4 : abs width (S (S (S (S (4 * length sched))))) None wl c s) by (refine (abs_weaken _ _ _ _ _ _ _ _ A); lia).
    destruct (backward dl tls width fuel Hw Hf _ _ _ _ _ _ _ A4 Ha T) as (t1 & c1 & U1 & L1 & O1 & [(wl1 & A1 & Ha1)|St]).
    { intros bs ->. apply Hnet. left. reflexivity. }
    + destruct (IH _ _ _ _ _ _ (le_n _) (fun bs Hin => Hnet bs (or_intror Hin)) A1 Ha1 U) as (t2 & c2 & U2 & O2 & Sh & L2). exists (t1 ++ t2), c2.
      split; [exact (truns_app dl tls width fuel _ _ _ _ _ _ _ U1 U2)|]. split; [|split; [exact Sh|rewrite app_length; cbn [length]; lia]].
      rewrite outside_text_app, O1, O2. symmetry. exact (outside_app [a] sched).
    + destruct sched as [|a2 rest].
      * injection U as <- <-. exists t1, c1. rewrite app_nil_r. split; [exact U1|]. split; [exact O1|]. split; [exact (stopped_shows _ _ St)|cbn; lia].
      * cbn [nrun] in U. unfold nstep in U. rewrite (proj2 St) in U. discriminate U.
Qed.

Lemma legal_outside {R} (sched : list (nlabel R)) : Forall nlegal sched <-> Forall nlegal (outside sched).
Proof.
  induction sched as [|a sched [IH1 IH2]]; [split; constructor|]. split.
  - intros H. inversion H; subst. destruct a; cbn; try apply IH1; auto; constructor; auto.
  - destruct a; cbn; intros H; try (constructor; [exact I|apply IH2, H]); inversion H; subst; constructor; auto.
Qed.
Lemma legal_outside_text {R} (sched : list (@tlabel R)) : Forall tlegal sched <-> Forall nlegal (outside_text sched).
Proof.
  induction sched as [|a sched [IH1 IH2]]; [split; constructor|]. split.
  - intros H. inversion H; subst. destruct a; cbn; try apply IH1; auto; constructor; auto.
  - destruct a; cbn; intros H; try (constructor; [exact I|apply IH2, H]); inversion H; subst; constructor; auto.
Qed.

Theorem text_to_model {R} tls width fuel raw addr (sched : list (@tlabel R)) c evs : 32 <= width -> (length sched + 3 <= fuel)%nat ->
  texecutes tls width fuel raw addr sched c evs ->
  exists msched s, nexecutes raw 5000000 2000000 msched s evs /\ outside msched = outside_text sched /\ shows c s.
Proof.
  intros Hw Hf (Hl & m & c0 & Ho & Hs & Hr). destruct fuel as [|[|[|n]]]; try lia.
  rewrite (text_Connect width tls n raw addr) in Ho. injection Ho as <-.
  destruct (text_starts (R := R) width None tls n raw) as (c1 & Hs1 & A & _). rewrite Hs1 in Hs. injection Hs as ->.
  assert (A' : abs width (length sched) None None c0 (Connect raw 5000000 2000000)) by (refine (abs_weaken _ _ _ _ _ _ _ _ A); lia).
  destruct (forward_runs None tls width (S (S (S n))) sched Hw ltac:(lia) _ _ _ _ _ _ A' Hr) as (ms & s & N & O & Sh).
  exists ms, s. split; [|split; assumption]. split; [|exact N]. apply legal_outside. rewrite O. apply legal_outside_text, Hl.
Qed.
Theorem model_to_text {R} tls width fuel raw addr (sched : list (nlabel R)) s evs : 32 <= width -> (4 * length sched + 3 <= fuel)%nat ->
  (forall bs, In (LNet bs) sched -> zlen bs <= 2000000) -> nexecutes raw 5000000 2000000 sched s evs ->
  exists ts c, texecutes tls width fuel raw addr ts c evs /\ outside_text ts = outside sched /\ shows c s /\ (length ts <= 4 * length sched)%nat.
Proof.
  intros Hw Hf Hnet [Hl Hr]. destruct fuel as [|[|[|n]]]; try lia.
  destruct (text_starts (R := R) width None tls n raw) as (c0 & Hs & A & Ha).
  assert (A' : abs width (4 * length sched) None None c0 (Connect raw 5000000 2000000)) by (refine (abs_weaken _ _ _ _ _ _ _ _ A); lia).
  destruct (backward_runs None tls width (S (S (S n))) sched Hw ltac:(lia) _ _ _ _ _ _ (le_n _) Hnet A' Ha Hr) as (ts & c & U & O & Sh & L).
  exists ts, c. split; [|split; [exact O|split; [exact Sh|exact L]]]. split; [apply legal_outside_text; rewrite O; exact (proj1 (legal_outside sched) Hl)|].
  exists (made raw), c0. split; [apply text_Connect|]. split; [exact Hs|exact U].
Qed.

Theorem connected {R} tls width fuel raw addr : (3 <= fuel)%nat -> exists m c0,
  opened (R := R) None tls width fuel raw addr = (m, Done (VTuple [the_conn; VNil])) /\ started None tls width fuel m = Some c0 /\
  shows c0 (Connect raw 5000000 2000000).
Proof.
  intros Hf. destruct fuel as [|[|[|n]]]; try lia. destruct (text_starts (R := R) width None tls n raw) as (c0 & Hs & A & _).
  exists (made raw), c0. split; [apply text_Connect|]. split; [exact Hs|exact (abs_shows _ _ _ _ _ _ A)].
Qed.
Theorem not_connected {R} tls width fuel raw addr x : (3 <= fuel)%nat -> exists m,
  opened (R := R) (Some x) tls width fuel raw addr = (m, Done (VTuple [VNil; VErr x])).
Proof. intros Hf. destruct fuel as [|[|[|n]]]; try lia. exists (blank raw). apply text_Connect_fails. Qed.
