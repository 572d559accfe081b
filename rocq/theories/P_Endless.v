(** * Property of endless executions of a connection: C86 *)
From Verif Require Import GoBase GoLemmas Encoder Decoder Spec EncProofs Msg01 BrokerTable Broker BrokerSpec BufIO
  Conn ConnSpec ConnRing ConnRingSpec P_Conn P_Framing EndSpec P_End OrderlySpec OrderlyProofs P_Orderly EndlessSpec EndlessProofs.
From Verif Require Ring SizesProofs.
Local Open Scope Z_scope.
Ltac Zify.zify_post_hook ::= idtac.

(** [told raw size cap y]: [y] is an endless execution of a whole new connection, ring,
    readLoop, message loop and callers together; it may also stop and rest for ever.
    [sights y n]: what has been seen before step [n].  [courteous]: every step heeds the
    five courtesies of C85.  [loops_turn], [callers_turn]: a goroutine that can move again
    and again does move.  [answer_comes cap y k]: once the request of call [k] has been
    written, a frame with its id comes over the network, after the call has registered. *)

(** ** C86.  Every frame that comes over the network is seen by the message loop, while
    calls and frames keep coming for ever. *)
Theorem C86_seen : forall R raw size cap (y : story R), 2 <= size < 2 ^ 31 -> 4 <= cap < 2 ^ 31 -> told raw size cap y ->
  courteous size cap y -> loops_turn size cap y -> no_panic y ->
  forall n fs f, y_label y n = Some (LNet (stream fs)) -> Forall (fun f => zlen f <= cap) fs -> In f fs ->
  exists m buf len, (n <= m)%nat /\ In (EFrame buf len) (y_events y m) /\ firstn (Z.to_nat len) buf = f.
Proof. exact @frame_seen. Qed.
Print Assumptions C86_seen.
(** And every call whose request is answered, if it could be written, returns. *)
Theorem C86_returns : forall R raw size cap (y : story R), 2 <= size < 2 ^ 31 -> 4 <= cap < 2 ^ 31 -> told raw size cap y ->
  courteous size cap y -> loops_turn size cap y -> no_panic y -> callers_turn y -> fresh_ids y ->
  forall k n, answer_comes cap y k -> In (ECall k) (sights y n) -> exists m res, In (EReturn k res) (sights y m).
Proof. exact @call_comes_back. Qed.
Print Assumptions C86_returns.

(** ** A schedule, then rest *)
Definition state_after {R} raw size cap (sched : list (nlabel R)) : client R * list (event R) :=
  match nrun (Connect raw size cap) sched with Some p => p | None => (Connect raw size cap, []) end.
Definition acted {R} raw size cap (sched : list (nlabel R)) : story R :=
  mkStory (fun n => fst (state_after raw size cap (firstn n sched))) (fun n => nth_error sched n)
    (fun n => match nth_error sched n with
              | Some a => match nstep (fst (state_after raw size cap (firstn n sched))) a with Some (_, e) => e | None => [] end
              | None => []
              end).
Lemma firstn_next {A} (l : list A) n a : nth_error l n = Some a -> firstn (S n) l = firstn n l ++ [a].
Proof. revert n. induction l as [|b l IH]; intros [|n] H; try discriminate H; [cbn in *; congruence|]. cbn [nth_error] in H. change (b :: firstn (S n) l = b :: (firstn n l ++ [a])). f_equal. apply IH, H. Qed.
Section Acted.
Context {R : Type} (raw : rawconn) (size cap : Z) (sched : list (nlabel R)) (s : client R) (evs : list (event R)) (Hx : nexecutes raw size cap sched s evs).
Notation y := (acted raw size cap sched).
Lemma firstn_runs n : exists s1 e1, nrun (Connect raw size cap) (firstn n sched) = Some (s1, e1).
Proof.
  destruct Hx as [_ H]. rewrite <- (firstn_skipn n sched) in H. revert H. generalize (Connect raw size cap : client R) evs. generalize (firstn n sched) (skipn n sched). clear.
  intros l l2. induction l as [|a l IH]; intros c evs H; [eexists _, _; reflexivity|]. cbn [nrun app] in *.
  destruct (nstep c a) as [[c1 e1]|]; [|discriminate]. destruct (nrun c1 (l ++ l2)) as [[c2 e2]|] eqn:E; [|discriminate]. injection H as -> _.
  destruct (IH c1 e2 E) as (c3 & e3 & E3). rewrite E3. eexists _, _. reflexivity.
Qed.
Lemma acted_step n a : nth_error sched n = Some a -> nlegal a /\ nstep (y_state y n) a = Some (y_state y (S n), y_events y n).
Proof.
  intros H. split; [exact (proj1 (Forall_forall _ _) (proj1 Hx) a (nth_error_In _ _ H))|]. cbn [y_state y_events acted]. rewrite H.
  destruct (firstn_runs (S n)) as (s1 & e1 & E). unfold state_after. rewrite E. rewrite (firstn_next sched n a H) in E.
  destruct (nrun_snoc _ _ _ _ _ E) as (s0 & e0 & e2 & E0 & St & _). rewrite E0. cbn [fst]. rewrite St. reflexivity.
Qed.
Lemma acted_told : told raw size cap y.
Proof.
  split; [reflexivity|]. intros n. change (y_label y n) with (nth_error sched n). destruct (nth_error sched n) as [a|] eqn:E; [apply acted_step, E|].
  cbn [y_state y_events acted]. rewrite E. apply nth_error_None in E. rewrite !firstn_all2 by lia. auto.
Qed.
Lemma acted_deeds n : deeds y n = firstn n sched.
Proof.
  induction n as [|n IH]; [reflexivity|]. rewrite (@deeds_S R y), IH. change (y_label y n) with (nth_error sched n). destruct (nth_error sched n) as [a|] eqn:E; [symmetry; apply firstn_next, E|].
  apply nth_error_None in E. rewrite !firstn_all2 by lia. apply app_nil_r.
Qed.
Lemma acted_until n : nrun (Connect raw size cap) (firstn n sched) = Some (y_state y n, sights y n).
Proof.
  induction n as [|n IH]; [reflexivity|]. rewrite (@sights_S R y). destruct (nth_error sched n) as [a|] eqn:E.
  - rewrite (firstn_next sched n a E). apply (SizesProofs.nrun_snoc _ _ _ _ _ _ _ IH), acted_step, E.
  - cbn [y_state y_events acted] in *. rewrite E, app_nil_r. apply nth_error_None in E. rewrite !firstn_all2 in * by lia. exact IH.
Qed.
Lemma acted_end n : (length sched <= n)%nat -> deeds y n = sched /\ y_state y n = s /\ sights y n = evs.
Proof.
  intros H. pose proof (acted_until n) as E. rewrite acted_deeds. rewrite (firstn_all2 sched) in E |- * by exact H. rewrite (proj2 Hx) in E. split; [reflexivity|]. split; congruence.
Qed.
Lemma acted_courteous : (forall c, In c all_courtesies -> always c raw size cap sched) -> courteous size cap y.
Proof.
  intros H n a c La. change (y_label y n) with (nth_error sched n) in La. rewrite acted_deeds. apply (H c) with (after := skipn (S n) sched).
  - destruct c; cbn; tauto.
  - rewrite <- (firstn_skipn (S n) sched) at 1. rewrite (firstn_next sched n a La), <- app_assoc. reflexivity.
  - apply acted_until.
Qed.
Lemma acted_loops : at_rest all_courtesies size cap sched evs s -> loops_turn size cap y.
Proof. intros H n. exists (max n (length sched)). split; [lia|]. right. destruct (acted_end (max n (length sched))) as (-> & -> & ->); [lia|exact H]. Qed.
Lemma acted_callers : (forall k, nstep s (LCall k) = None) -> callers_turn y.
Proof. intros H k n. exists (max n (length sched)). split; [lia|]. right. intros i Hi. destruct (acted_end i) as (_ & -> & _); [lia|apply H]. Qed.
Lemma acted_seen n : sights y n = snd (state_after raw size cap (firstn n sched)).
Proof. unfold state_after. rewrite acted_until. reflexivity. Qed.
Lemma acted_sights n x : In x (sights y n) -> In x evs.
Proof.
  intros H. destruct (acted_end (n + length sched)) as (_ & _ & <-); [lia|].
  unfold sights in *. rewrite seq_app, flat_map_app. apply in_or_app. left. exact H.
Qed.
Lemma acted_each (P : client R -> bool) : forallb (fun n => P (fst (state_after raw size cap (firstn n sched)))) (List.seq 0 (S (length sched))) = true -> forall n, P (y_state y n) = true.
Proof.
  intros H n. rewrite forallb_forall in H. cbn [y_state acted]. destruct (Nat.le_gt_cases n (length sched)) as [G|G]; [apply H, in_seq; lia|].
  rewrite firstn_all2 by lia. rewrite <- (firstn_all sched). apply H, in_seq. lia.
Qed.
Lemma acted_rest : restb all_courtesies size cap sched (snd (state_after raw size cap sched)) (fst (state_after raw size cap sched)) = true -> loops_turn size cap y.
Proof. unfold state_after. rewrite (proj2 Hx). intros H. apply acted_loops, restb_ok, H. Qed.
Lemma acted_all x : In x evs -> In x (sights y (length sched)).
Proof. destruct (acted_end (length sched) (le_n _)) as (_ & _ & E). rewrite E. auto. Qed.
End Acted.
(** A Heartbeat call, its response, and rest (C85): every hypothesis holds, and the call
    returns. *)
Definition hb_all : list (nlabel response) := hb_before ++ hb_after.
Definition facts {R} raw size cap (sched : list (nlabel R)) : list (event unit) * (bool * (bool * bool)) :=
  let p := state_after raw size cap sched in
  (map erase (snd p), (match nstep (fst p) (LCall 0) with None => (length (s_calls (n_conn (fst p))) =? 1)%nat | Some _ => false end,
   (forallb (fun n => negb (s_crashed (n_conn (fst (state_after raw size cap (firstn n sched)))))) (List.seq 0 (S (length sched))),
    match nrun (Connect raw size cap) sched with Some _ => true | None => false end))).
(** What the examples have in common. *)
Lemma told_facts {R} raw size cap (sched : list (nlabel R)) shown : Forall nlegal sched -> facts raw size cap sched = (shown, (true, (true, true))) ->
  heedb all_courtesies size cap [] [] (Connect raw size cap) sched = true -> zlen (ids shown) <= 1 ->
  let y := acted raw size cap sched in
  (exists s evs, nexecutes raw size cap sched s evs /\ map erase evs = shown) /\
  told raw size cap y /\ courteous size cap y /\ no_panic y /\ callers_turn y /\ fresh_ids y.
Proof.
  intros Hl Hf Hc Hi y. unfold facts in Hf. cbn zeta in Hf. injection Hf as F1 F2 F3 Hr.
  destruct (nrun (Connect raw size cap) sched) as [[s evs]|] eqn:E; [|discriminate Hr]. clear Hr.
  assert (X : nexecutes raw size cap sched s evs) by (split; assumption).
  unfold state_after in F1, F2. rewrite E in F1, F2. cbn [fst snd] in F1, F2.
  split; [exists s, evs; split; [exact X|exact F1]|]. split; [exact (acted_told _ _ _ _ _ _ X)|]. split; [exact (acted_courteous _ _ _ _ _ _ X (heedb_ok _ _ _ _ _ Hc))|].
  split; [|split].
  - intros n. pose proof (acted_each raw size cap sched (fun s => negb (s_crashed (n_conn s))) F3 n) as G. apply negb_true_iff in G. exact G.
  - refine (acted_callers _ _ _ _ _ _ X _). destruct (nstep s (LCall 0)) eqn:St; [discriminate F2|]. intros [|k]; [exact St|].
    apply Nat.eqb_eq in F2. unfold nstep.
    assert (G : nth_error (s_calls (n_conn s)) (S k) = None) by (apply nth_error_None; lia).
    destruct (n_dead s || s_crashed (n_conn s)); [reflexivity|]. unfold cstep. rewrite G. destruct (s_crashed (n_conn s)); reflexivity.
  - intros n. destruct (acted_end _ _ _ _ _ _ X (n + length sched)) as (_ & _ & Ee); [lia|]. fold y in Ee.
    assert (G : ids evs = ids (sights y n) ++ ids (flat_map (y_events y) (List.seq n (length sched)))).
    { rewrite <- Ee. unfold sights. rewrite seq_app, flat_map_app. unfold ids. rewrite flat_map_app. reflexivity. }
    rewrite <- F1, erase_ids, G in Hi. rewrite zlen_app in Hi. pose proof (zlen_nonneg (ids (flat_map (y_events y) (List.seq n (length sched))))). lia.
Qed.
Lemma erased {R} (evs : list (event R)) e : In e (map erase evs) ->
  match e with ECall k => In (ECall k) evs | ERegister k => In (ERegister k) evs | EReturn k _ => exists r, In (EReturn k r) evs | _ => True end.
Proof.
  intros H. apply in_map_iff in H. destruct H as (x & <- & H). destruct x; cbn [erase]; try exact I; try exact H; [eexists; exact H|destruct r; exact I].
Qed.
Ltac shown_by sched X := lazymatch goal with |- In ?e (sights _ ?n) => change (sights _ n) with (sights (acted good_raw 64 16 sched) n); rewrite (acted_seen _ _ _ _ _ _ X);
  apply (erased _ (erase e)); vm_compute; tauto end.
Lemma hb_all_legal : Forall nlegal hb_all.
Proof.
  replace hb_all with (hb_start ++ [LNet hb_stream] ++ hb_after) by (unfold hb_all, hb_before; rewrite <- app_assoc; reflexivity). apply hb_legal. reflexivity.
Qed.
Definition hb_shown : list (event unit) := Eval vm_compute in (fst (facts good_raw 64 16 hb_all)).
Lemma hb_facts : facts good_raw 64 16 hb_all = (hb_shown, (true, (true, true))).
Proof. vm_compute. reflexivity. Qed.
Lemma hb_heeds : heedb all_courtesies 64 16 [] [] (Connect good_raw 64 16) hb_all = true.
Proof. vm_compute. reflexivity. Qed.
Lemma hb_told : let y := acted good_raw 64 16 hb_all in
  (exists s evs, nexecutes good_raw 64 16 hb_all s evs /\ map erase evs = hb_shown) /\
  told good_raw 64 16 y /\ courteous 64 16 y /\ no_panic y /\ callers_turn y /\ fresh_ids y.
Proof. apply (told_facts good_raw 64 16 hb_all hb_shown hb_all_legal hb_facts hb_heeds). vm_compute. discriminate. Qed.
Lemma hb_rest : restb all_courtesies 64 16 hb_all (snd (state_after good_raw 64 16 hb_all)) (fst (state_after good_raw 64 16 hb_all)) = true.
Proof. vm_compute. reflexivity. Qed.
Lemma hb_net : nth_error hb_all (length hb_start) = Some (LNet hb_stream).
Proof. reflexivity. Qed.
Lemma hb_sights n x e (s : client response) evs : nexecutes good_raw 64 16 hb_all s evs -> map erase (snd (state_after good_raw 64 16 (firstn n hb_all))) = x -> In e x ->
  match e with ECall k => In (ECall k) (sights (acted good_raw 64 16 hb_all) n) | ERegister k => In (ERegister k) (sights (acted good_raw 64 16 hb_all) n)  | _ => True end.
Proof. intros X <- H. rewrite (acted_seen _ _ _ _ _ _ X). apply erased in H. destruct e; try exact I; exact H. Qed.
Definition hb_sent : list (event unit) := Eval vm_compute in map erase (snd (state_after good_raw 64 16 hb_start)).
Lemma hb_start_shown : map erase (snd (state_after good_raw 64 16 (firstn (length hb_start) hb_all))) = hb_sent.
Proof. vm_compute. reflexivity. Qed.
Lemma hb_first : map erase (snd (state_after good_raw 64 16 (firstn 1 hb_all))) = [ECall 0].
Proof. vm_compute. reflexivity. Qed.
Example C86_example : exists n res, let y := acted good_raw 64 16 hb_all in
  told good_raw 64 16 y /\ courteous 64 16 y /\ loops_turn 64 16 y /\ no_panic y /\ callers_turn y /\ fresh_ids y /\
  answer_comes 16 y 0 /\ In (ECall 0) (sights y 1) /\ In (EReturn 0 res) (sights y n).
Proof.
  destruct hb_told as [(s & evs & X & Ev) (H1 & H2 & H3 & H4 & H5)].
  assert (Er : exists res, In (EReturn 0 res) evs) by (apply (erased evs (EReturn 0 (Reply (Value tt)))); rewrite Ev; unfold hb_shown; do 8 right; left; reflexivity).
  destruct Er as [res Er]. exists (length hb_all), res. cbn zeta. split; [exact H1|]. split; [exact H2|]. split; [|split; [exact H3|split; [exact H4|split; [exact H5|split; [|split]]]]].
  - exact (acted_rest _ _ _ _ _ _ X hb_rest).
  - intros id n Hid _. exists (length hb_start), [be 4 1 ++ [0; 0]], [0; 0]. split; [exact hb_net|]. split; [constructor; [vm_compute; discriminate|constructor]|].
    split; [|exact (hb_sights _ _ (ERegister 0) s evs X hb_start_shown (or_intror (or_intror (or_introl eq_refl))))].
    apply (acted_sights _ _ _ _ _ _ X), (in_map erase) in Hid. rewrite Ev in Hid. unfold hb_shown in Hid. left.
    repeat (destruct Hid as [Hid|Hid]; [try discriminate Hid; injection Hid as <-; reflexivity|]). destruct Hid.
  - exact (hb_sights _ _ (ECall 0) s evs X hb_first (or_introl eq_refl)).
  - exact (acted_all _ _ _ _ _ _ X _ Er).
Qed.

(** Without an answer, or if the two loops do not get their turn, the call waits for
    ever: the same execution, stopped before the response comes and right after it. *)
Lemma hb_start_legal : Forall nlegal hb_start.
Proof. rewrite <- (app_nil_r hb_start). apply hb_legal. reflexivity. Qed.
Lemma hb_before_legal : Forall nlegal hb_before.
Proof. apply hb_legal. reflexivity. Qed.
Lemma start_facts : facts good_raw 64 16 hb_start = (hb_sent, (true, (true, true))).
Proof. vm_compute. reflexivity. Qed.
Lemma start_heeds : heedb all_courtesies 64 16 [] [] (Connect good_raw 64 16) hb_start = true.
Proof. vm_compute. reflexivity. Qed.
Lemma start_rest : restb all_courtesies 64 16 hb_start (snd (state_after good_raw 64 16 hb_start)) (fst (state_after good_raw 64 16 hb_start)) = true.
Proof. vm_compute. reflexivity. Qed.
Lemma before_facts : facts good_raw 64 16 hb_before = (hb_sent, (true, (true, true))).
Proof. vm_compute. reflexivity. Qed.
Lemma before_heeds : heedb all_courtesies 64 16 [] [] (Connect good_raw 64 16) hb_before = true.
Proof. vm_compute. reflexivity. Qed.
Lemma before_net : nth_error hb_before 13 = Some (LNet hb_stream).
Proof. reflexivity. Qed.
Lemma before_start : firstn 13 hb_before = hb_start.
Proof. reflexivity. Qed.
Lemma start_quiet n bs : nth_error hb_start n <> Some (LNet bs).
Proof. do 13 (destruct n as [|n]; [discriminate|]). destruct n; discriminate. Qed.
Lemma sent_ids : zlen (ids hb_sent) <= 1.
Proof. discriminate. Qed.
Lemma sent_quiet (evs : list (event response)) res : map erase evs = hb_sent -> ~ In (EReturn 0 res) evs.
Proof.
  intros E H. apply (in_map erase) in H. rewrite E in H. unfold hb_sent in H. repeat (destruct H as [H|H]; [discriminate H|]). exact H.
Qed.
Lemma sent_flushed (evs : list (event response)) : map erase evs = hb_sent -> In (EFlushed 0 None) evs /\ In (ERegister 0) evs /\ forall id, In (EId 0 id) evs -> id = 1.
Proof.
  intros E. assert (H : In (EFlushed 0 None) (map erase evs)) by (rewrite E; do 5 right; left; reflexivity).
  split; [apply in_map_iff in H; destruct H as (x & Ex & H); destruct x as [| | | | | | | | |k [r|r]]; cbn in Ex; try discriminate Ex; injection Ex as -> ->; exact H|].
  split; [apply (erased evs (ERegister 0)); rewrite E; do 2 right; left; reflexivity|].
  intros id G. apply (in_map erase) in G. rewrite E in G. unfold hb_sent in G. repeat (destruct G as [G|G]; [try discriminate G; injection G as <-; reflexivity|]). destruct G.
Qed.
Theorem C86_needed : exists unanswered stuck : story response,
  (told good_raw 64 16 unanswered /\ courteous 64 16 unanswered /\ loops_turn 64 16 unanswered /\ no_panic unanswered /\ callers_turn unanswered /\ fresh_ids unanswered /\
   In (EFlushed 0 None) (sights unanswered 13) /\ (forall n bs, y_label unanswered n <> Some (LNet bs)) /\ forall n res, ~ In (EReturn 0 res) (sights unanswered n)) /\
  (told good_raw 64 16 stuck /\ courteous 64 16 stuck /\ no_panic stuck /\ callers_turn stuck /\ fresh_ids stuck /\
   In (EFlushed 0 None) (sights stuck 13) /\ answer_comes 16 stuck 0 /\ forall n res, ~ In (EReturn 0 res) (sights stuck n)).
Proof.
  exists (acted good_raw 64 16 hb_start), (acted good_raw 64 16 hb_before).
  destruct (told_facts good_raw 64 16 hb_start hb_sent hb_start_legal start_facts start_heeds sent_ids) as [(s & evs & X & Ev) (H1 & H2 & H3 & H4 & H5)].
  destruct (sent_flushed evs Ev) as (F1 & F2 & F3). split.
  - repeat (split; [assumption|]). split; [exact (acted_rest _ _ _ _ _ _ X start_rest)|]. repeat (split; [assumption|]). split; [exact (acted_all _ _ _ _ _ _ X _ F1)|].
    split; [exact start_quiet|]. intros n res H. apply (acted_sights _ _ _ _ _ _ X) in H. exact (sent_quiet evs res Ev H).
  - destruct (told_facts good_raw 64 16 hb_before hb_sent hb_before_legal before_facts before_heeds sent_ids) as [(s' & evs' & X' & Ev') (G1 & G2 & G3 & G4 & G5)].
    assert (Es : sights (acted good_raw 64 16 hb_before) 13 = evs).
    { pose proof (acted_until _ _ _ _ _ _ X' 13) as U. rewrite before_start, (proj2 X) in U. congruence. }
    repeat (split; [assumption|]). split; [rewrite Es; exact F1|]. split.
    + intros id n Hid _. exists 13%nat, [be 4 1 ++ [0; 0]], [0; 0]. split; [exact before_net|]. split; [constructor; [vm_compute; discriminate|constructor]|].
      split; [|rewrite Es; exact F2]. apply (acted_sights _ _ _ _ _ _ X') in Hid. rewrite (proj2 (proj2 (sent_flushed evs' Ev')) id Hid). left. reflexivity.
    + intros n res H. apply (acted_sights _ _ _ _ _ _ X') in H. exact (sent_quiet evs' res Ev' H).
Qed.
Print Assumptions C86_needed.
