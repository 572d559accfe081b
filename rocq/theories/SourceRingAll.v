(** * The text of ring/buffer.go: whole executions *)
From Coq Require Import String.
From Verif Require Import GoBase GoLemmas GoLang GoConc SourceRing Ring RingSpec RingProofs RingProps RingSeq SourceRingSpec SourceRingProof.
Local Open Scope string_scope.
Local Open Scope list_scope.
Local Open Scope Z_scope.
Local Notation run := Ring.run.

Lemma fed_run sched : forall g g' evs, run g sched = Some (g', evs) -> Forall legal_call sched -> fed g -> fed g'.
Proof.
  induction sched as [|b r IH]; intros g g' evs R LL Fd; cbn [Ring.run] in R; [injection R as <- _; exact Fd|].
  destruct (step g b) as [[g1 e1]|] eqn:S1; [|discriminate]. destruct (Ring.run g1 r) as [[g2 e2]|] eqn:S2; [|discriminate].
  injection R as <- _. inversion LL as [|? ? L1 L2]; subst. exact (IH g1 g2 e2 S2 L2 (fed_step g b g1 e1 Fd L1 S1)).
Qed.
Lemma legal_label a : legal a -> legal_call (as_label a).
Proof. destruct a as [| | | |[|]| | |]; cbn; auto. Qed.
Lemma legal_labels moves : Forall legal moves -> Forall legal_call (map as_label moves).
Proof. induction 1; constructor; auto using legal_label. Qed.
Lemma as_move_label a : real a -> as_label (as_move a) = a.
Proof. destruct a; try reflexivity. cbn. intros H. unfold zlen. rewrite repeat_length, Z2Nat.id by exact H. reflexivity. Qed.
Lemma as_moves_labels sched : Forall real sched -> map as_label (map as_move sched) = sched.
Proof. induction 1 as [|a r H _ IH]; [reflexivity|]. cbn [map]. rewrite IH, (as_move_label a H). reflexivity. Qed.
Lemma as_moves_legal sched : Forall real sched -> Forall legal_call sched -> Forall legal (map as_move sched).
Proof.
  induction 1 as [|a r H _ IH]; intros L; inversion L as [|? ? L1 L2]; subst; constructor; auto.
  destruct a; cbn in *; auto. unfold zlen. rewrite repeat_length, Z2Nat.id by exact H. exact L1.
Qed.
Lemma as_moves_proper width sched : forall fuel, int_counts width sched -> (enough sched <= fuel)%nat -> Forall (proper width fuel) (map as_move sched).
Proof.
  induction sched as [|a r IH]; intros fuel I R; [constructor|]. inversion I as [|? ? I1 I2]; subst. cbn [enough fold_right] in R. fold (enough r) in R.
  constructor; [|apply IH; [exact I2|lia]]. destruct a; (split; [|cbn; try exact Logic.I; lia]); cbn in *; try exact Logic.I; split; try exact I1; lia.
Qed.
Lemma enough_3 sched : (3 <= enough sched)%nat.
Proof. induction sched as [|a r IH]; cbn [enough fold_right]; [lia|]. fold (enough r). lia. Qed.

Section Whole.
Variable width : Z.
Variable room : Z -> bool.
Variable fuel : nat.
Hypothesis Wide : 32 <= width.
Hypothesis Deep : (3 <= fuel)%nat.

Lemma fresh_fed size : fed (New size).
Proof. exact Logic.I. Qed.
Lemma text_new size : (exists c, tnew width room fuel size c) <-> 0 <= size /\ room size = true.
Proof.
  destruct fuel as [|F]; [lia|]. split; [intros [c H]; exact (proj2 (new_abs width room F ltac:(lia) size c H))|].
  intros [A B]. apply new_text; auto; lia.
Qed.
Lemma text_to_model size c0 moves c evs : tnew width room fuel size c0 -> truns width room fuel c0 moves c evs -> Forall (sized width fuel) moves ->
  exists g, run (New size) (map as_label moves) = Some (g, evs) /\ shows c g.
Proof.
  destruct fuel as [|F]; [lia|]. intros N T P. destruct (new_abs width room F ltac:(lia) size c0 N) as [A _].
  destruct (run_forward width room F Wide ltac:(lia) c0 moves c evs T (New size) A P) as (g & R & A').
  exists g. split; [exact R|]. apply (abs_shows width room F); auto; lia.
Qed.
Lemma model_to_text size c0 moves g evs : tnew width room fuel size c0 -> run (New size) (map as_label moves) = Some (g, evs) ->
  Forall (proper width fuel) moves -> Forall legal moves -> exists c, truns width room fuel c0 moves c evs /\ shows c g.
Proof.
  destruct fuel as [|F]; [lia|]. intros N R P L. destruct (new_abs width room F ltac:(lia) size c0 N) as [A _].
  destruct (run_backward width room F Wide ltac:(lia) moves c0 (New size) g evs R A (fresh_fed size) P (legal_labels moves L)) as (c & T & A').
  exists c. split; [exact T|]. apply (abs_shows width room F); auto; lia.
Qed.
(** The next move. *)
Lemma text_next size c0 moves c evs : tnew width room fuel size c0 -> truns width room fuel c0 moves c evs -> Forall (sized width fuel) moves -> Forall legal moves ->
  exists g, run (New size) (map as_label moves) = Some (g, evs) /\ shows c g /\
  (forall a c' evs', sized width fuel a -> tstep width room fuel c a c' evs' -> exists g', step g (as_label a) = Some (g', evs')) /\
  (forall a g' evs', proper width fuel a -> step g (as_label a) = Some (g', evs') -> exists c', tstep width room fuel c a c' evs').
Proof.
  destruct fuel as [|F]; [lia|]. intros N T P L. destruct (new_abs width room F ltac:(lia) size c0 N) as [A _].
  destruct (run_forward width room F Wide ltac:(lia) c0 moves c evs T (New size) A P) as (g & R & A').
  exists g. split; [exact R|]. split; [apply (abs_shows width room F); auto; lia|]. split.
  - intros a c' evs' S1 T1. destruct (forward width room F Wide ltac:(lia) c a c' evs' g T1 A' S1) as (g' & E & _). eauto.
  - intros a g' evs' P1 S1. pose proof (fed_run _ _ _ _ R (legal_labels moves L) (fresh_fed size)) as Fd.
    destruct (backward width room F Wide ltac:(lia) c a g g' evs' S1 A' P1 (fed_not_doomed width room F Wide ltac:(lia) c g A' Fd)) as (c' & E & _). eauto.
Qed.

Lemma text_no_panic size c0 moves c evs : 1 <= size < 2 ^ 31 -> tnew width room fuel size c0 -> truns width room fuel c0 moves c evs ->
  Forall (sized width fuel) moves -> Forall legal moves ->
  c_writer c <> Some Crash /\ c_writer c <> Some Wrong /\ (forall n, c_reader c <> Some (n, Crash) /\ c_reader c <> Some (n, Wrong)).
Proof.
  intros Sz N T P L. destruct fuel as [|F] eqn:EF; [lia|]. destruct (new_abs width room F ltac:(lia) size c0 N) as [A _].
  destruct (run_forward width room F Wide ltac:(lia) c0 moves c evs T (New size) A P) as (g & R & A').
  pose proof (fed_run _ _ _ _ R (legal_labels moves L) (fresh_fed size)) as Fd.
  pose proof (fed_not_doomed width room F Wide ltac:(lia) c g A' Fd) as ND.
  destruct (abs_shows width room F ltac:(lia) c g A') as (_ & _ & W & W2 & _ & Rd & Rd2).
  destruct (positions size (map as_label moves) g evs Sz (legal_labels moves L) R) as (_ & _ & _ & X & Y).
  split; [intros E; destruct (proj1 W E) as [Z|Z]; [exact (X Z)|exact (ND Z)]|]. split; [exact W2|].
  intros n. split; [intros E; exact (Y (proj1 Rd (ex_intro _ n E)))|exact (Rd2 n)].
Qed.

(** Every execution of the model is one of the text. *)
Lemma text_of_schedule size sched g evs : 0 <= size -> room size = true -> run (New size) sched = Some (g, evs) ->
  Forall legal_call sched -> Forall real sched -> int_counts width sched -> (enough sched <= fuel)%nat ->
  exists c0 c, tnew width room fuel size c0 /\ truns width room fuel c0 (map as_move sched) c evs /\ shows c g.
Proof.
  intros Sz Rm R L Re I En. destruct (proj2 (text_new size) (conj Sz Rm)) as [c0 N]. exists c0.
  pose proof (as_moves_labels sched Re) as E. rewrite <- E in R.
  destruct (model_to_text size c0 (map as_move sched) g evs N R (as_moves_proper width sched fuel I En) (as_moves_legal sched Re L)) as (c & T & S1).
  exists c. auto.
Qed.
Lemma text_closed size c0 moves c evs : 1 <= size < 2 ^ 31 -> tnew width room fuel size c0 -> truns width room fuel c0 moves c evs ->
  Forall (sized width fuel) moves -> Forall legal moves -> In TClose moves ->
  (c_writer c = None \/ exists c' e, tstep width room fuel c TWriter c' e \/ tstep width room fuel c TWriterExpired c' e) /\
  (c_reader c = None \/ exists c' e, tstep width room fuel c TReader c' e \/ tstep width room fuel c TReaderExpired c' e).
Proof.
  intros Sz N T P L C. destruct (text_next size c0 moves c evs N T P L) as (g & R & S1 & _ & B).
  destruct S1 as (_ & W & _ & _ & Rd & _).
  assert (G : g_closed g = true).
  { assert (C' : In CloseCall (map as_label moves)) by (apply in_map_iff; exists TClose; auto). clear - R C'. revert R C'. generalize (New size) evs.
    induction (map as_label moves) as [|b r IH]; intros g0 e0 R C'; [destruct C'|]. cbn [Ring.run] in R.
    destruct (step g0 b) as [[g1 e1]|] eqn:S1; [|discriminate]. destruct (Ring.run g1 r) as [[g2 e2]|] eqn:S2; [|discriminate]. injection R as <- _.
    destruct C' as [->|C']; [|exact (IH g1 e2 S2 C')]. cbn [step] in S1. injection S1 as <- _. exact (run_closed_mono r _ _ _ S2 eq_refl). }
  assert (LL : Forall legal_call (map as_label moves ++ [])) by (rewrite app_nil_r; exact (legal_labels moves L)).
  destruct (close_unblocks size (map as_label moves) g evs [] g [] Sz LL R G eq_refl) as [X Y]. split.
  - destruct X as [X|[X|X]]; [left; exact (proj2 W X)| |]; right.
    + destruct (step g WStep) as [[g' e]|] eqn:E; [|congruence]. destruct (B TWriter g' e (conj Logic.I Logic.I) E) as [c' H]. exists c', e. auto.
    + destruct (step g WDone) as [[g' e]|] eqn:E; [|congruence]. destruct (B TWriterExpired g' e (conj Logic.I Logic.I) E) as [c' H]. exists c', e. auto.
  - clear X; destruct Y as [X|[X|X]]; [left; exact (proj2 Rd X)| |]; right.
    + destruct (step g RStep) as [[g' e]|] eqn:E; [|congruence]. destruct (B TReader g' e (conj Logic.I Logic.I) E) as [c' H]. exists c', e. auto.
    + destruct (step g RDone) as [[g' e]|] eqn:E; [|congruence]. destruct (B TReaderExpired g' e (conj Logic.I Logic.I) E) as [c' H]. exists c', e. auto.
Qed.
(** What blocks in the model blocks in the text. *)
Lemma text_stuck size c0 moves c evs : tnew width room fuel size c0 -> truns width room fuel c0 moves c evs -> Forall (sized width fuel) moves -> Forall legal moves ->
  (forall g, run (New size) (map as_label moves) = Some (g, evs) -> w_blocked g /\ r_blocked g) ->
  c_writer c <> None /\ c_reader c <> None /\ forall a c' e, tstep width room fuel c a c' e -> a = TClose.
Proof.
  intros N T P L B. destruct (text_next size c0 moves c evs N T P L) as (g & R & S1 & Fw & _). destruct (B g R) as [Bw Br].
  destruct S1 as (_ & W & _ & _ & Rd & _). destruct Bw as (B1 & B2 & B3 & B4 & B5), Br as (B6 & B7 & B8 & _).
  assert (X : c_writer c <> None) by (intros E; exact (B1 (proj1 W E))). assert (Y : c_reader c <> None) by (intros E; exact (B6 (proj1 Rd E))).
  split; [exact X|]. split; [exact Y|]. intros a c' e T1.
  destruct a as [data n|buf n| | |ch| | |]; try reflexivity; exfalso;
    try (inversion T1; subst; cbn in X, Y; congruence);
    try (destruct ((fun H => Fw _ c' e H T1) Logic.I) as [g' E]; cbn [as_label] in E; congruence).
  destruct (Fw (TMeet ch) c' e Logic.I T1) as [g' E]. destruct ch; cbn [as_label] in E; congruence.
Qed.
End Whole.

(** Calls one after the other. *)
Lemma repeat_ok (P : label -> Prop) a k r : P a -> Forall P r -> Forall P (repeat a k ++ r).
Proof. intros A B. induction k; cbn; [exact B|]. constructor; auto. Qed.
Lemma queue_calls room calls : forall q q' outs sched, queue room q calls = Some (q', outs) -> performs calls sched -> zlen q <= room ->
  Forall legal_call sched /\ Forall real sched /\ Forall (fun a => match a with WCall _ n | RCall _ n => n <= room | _ => True end) sched.
Proof.
  induction calls as [|c calls IH]; intros q q' outs sched Q P Hr.
  - inversion P; subst. repeat split; constructor.
  - destruct c as [data n|cap n]; cbn [queue] in Q; inversion P as [|? ? k ? sched' P'|? ? k ? sched' P']; subst.
    + destruct (Z.leb_spec 0 n); [|discriminate]. destruct (Z.leb_spec n (zlen data)); [|discriminate]. destruct (Z.leb_spec (zlen q + n) room); [|discriminate].
      pose proof (zlen_nonneg q). destruct (IH _ _ _ _ Q P') as (A & B & C).
      { rewrite zlen_app. unfold zlen at 2. rewrite firstn_length. unfold zlen in *. lia. }
      split; [|split]; constructor; try (apply repeat_ok; [exact Logic.I|assumption]); cbn; lia || auto.
    + destruct (Z.leb_spec 0 n); [|discriminate]. destruct (Z.leb_spec n cap); [|discriminate]. destruct (Z.leb_spec n (zlen q)) as [Hq|]; [|discriminate].
      cbn [andb] in Q. destruct (queue room (skipn (Z.to_nat n) q) calls) as [[q1 o1]|] eqn:Q1; [|discriminate].
      destruct (IH _ _ _ _ Q1 P') as (A & B & C).
      { unfold zlen in *. rewrite skipn_length. lia. }
      split; [|split]; constructor; try (apply repeat_ok; [exact Logic.I|assumption]); cbn; lia || auto.
Qed.
Lemma text_queue width room size calls q outs : 32 <= width -> 2 <= size < 2 ^ 31 -> room size = true -> queue (size - 2) [] calls = Some (q, outs) ->
  exists sched, performs calls sched /\ forall fuel, (enough sched <= fuel)%nat ->
  exists c0 c evs g, tnew width room fuel size c0 /\ truns width room fuel c0 (map as_move sched) c evs /\ reads evs = outs /\
    c_writer c = None /\ c_reader c = None /\ c_memory c = image g /\ contents g = q.
Proof.
  intros Wd Sz Rm Q. destruct (ring_sequential size calls q outs Sz Q) as (sched & g & evs & P & R & O & C & W & Rd).
  exists sched. split; [exact P|]. intros fuel En. destruct (queue_calls (size - 2) calls [] q outs sched Q P) as (L & Re & B); [cbn; lia|].
  assert (I : int_counts width sched).
  { assert (H : 2 ^ 31 <= 2 ^ (width - 1)) by (apply Z.pow_le_mono_r; lia).
    unfold int_counts. eapply Forall_impl; [|exact B]. intros a Ha. destruct a; cbn in *; auto; lia. }
  pose proof (enough_3 sched) as E3.
  destruct (text_of_schedule width room fuel Wd ltac:(lia) size sched g evs ltac:(lia) Rm R L Re I En) as (c0 & c & N & T & S1).
  exists c0, c, evs, g. destruct S1 as (M & W' & _ & _ & Rd' & _).
  split; [exact N|]. split; [exact T|]. split; [exact O|]. split; [exact (proj2 W' W)|]. split; [exact (proj2 Rd' Rd)|]. auto.
Qed.
(** FIFO fails in the text. *)
Lemma text_fifo_fails width room fuel size sched : 32 <= width -> (15 <= fuel)%nat -> room size = true ->
  In (size, sched) [(8, sched_garbage); (4, sched_overrun); (8, sched_spurious); (8, sched_close)] \/ (8 <= size < 2 ^ 31 /\ In sched [sched_garbage; sched_spurious; sched_close]) ->
  Forall legal (map as_move sched) /\ exists c0 c evs, tnew width room fuel size c0 /\ truns width room fuel c0 (map as_move sched) c evs /\ ~ prefix (delivered evs) (written evs).
Proof.
  intros Wd Fu Rm H.
  assert (A : 0 <= size /\ Forall legal_call sched /\ exists g evs, run (New size) sched = Some (g, evs) /\ ~ prefix (delivered evs) (written evs)).
  { destruct H as [H|[Sz H]].
    - split; [|exact (fifo_refuted size sched H)]. destruct H as [[= <- _]|[[= <- _]|[[= <- _]|[[= <- _]|[]]]]]; lia.
    - split; [lia|]. exact (fifo_refuted_any_size size sched Sz H). }
  destruct A as (S0 & L & g & evs & R & NP).
  assert (B : Forall real sched /\ int_counts 32 sched /\ (enough sched <= 15)%nat).
  { assert (D : In sched [sched_garbage; sched_overrun; sched_spurious; sched_close]).
    { destruct H as [[[= _ <-]|[[= _ <-]|[[= _ <-]|[[= _ <-]|[]]]]]|[_ [<-|[<-|[<-|[]]]]]]; cbn; auto. }
    clear - D. unfold int_counts. change (2 ^ (32 - 1)) with 2147483648.
    destruct D as [<-|[<-|[<-|[<-|[]]]]]; (split; [repeat constructor; cbn; lia|]; split; [repeat constructor; cbn; lia|vm_compute; lia]). }
  destruct B as (Re & I & En).
  assert (I' : int_counts width sched).
  { unfold int_counts in *. eapply Forall_impl; [|exact I]. intros a Ha. assert (2 ^ (32 - 1) <= 2 ^ (width - 1)) by (apply Z.pow_le_mono_r; lia). destruct a; auto; lia. }
  split; [exact (as_moves_legal sched Re L)|].
  destruct (text_of_schedule width room fuel Wd ltac:(lia) size sched g evs S0 Rm R L Re I' ltac:(lia)) as (c0 & c & N & T & _).
  exists c0, c, evs. auto.
Qed.
(** The deadlock is in the text. *)
Lemma text_deadlock width room fuel : 32 <= width -> (9 <= fuel)%nat -> room 4 = true ->
  exists moves c0 c evs, Forall legal moves /\ tnew width room fuel 4 c0 /\ truns width room fuel c0 moves c evs /\
    c_writer c <> None /\ c_reader c <> None /\ forall a c' e, tstep width room fuel c a c' e -> a = TClose.
Proof.
  intros Wd Fu Rm.
  assert (A : exists g evs, run (New 4) sched_deadlock_empty = Some (g, evs) /\ w_blocked g /\ r_blocked g).
  { eexists. eexists. split; [vm_compute; reflexivity|]. unfold w_blocked, r_blocked. cbn. repeat split; discriminate. }
  destruct A as (g & evs & R & B1 & B2).
  assert (L : Forall legal_call sched_deadlock_empty) by (repeat constructor; cbn; unfold zlen; cbn; lia).
  assert (Re : Forall real sched_deadlock_empty) by (repeat constructor; cbn; lia).
  assert (I : int_counts 32 sched_deadlock_empty) by (unfold int_counts; change (2 ^ (32 - 1)) with 2147483648; repeat constructor; cbn; lia).
  assert (En : (enough sched_deadlock_empty <= 9)%nat) by (vm_compute; lia).
  assert (I' : int_counts width sched_deadlock_empty).
  { unfold int_counts in *. eapply Forall_impl; [|exact I]. intros a Ha. assert (2 ^ (32 - 1) <= 2 ^ (width - 1)) by (apply Z.pow_le_mono_r; lia). destruct a; auto; lia. }
  revert R L Re I' En. generalize sched_deadlock_empty. intros sched R L Re I' En.
  destruct (text_of_schedule width room fuel Wd ltac:(lia) 4 sched g evs ltac:(lia) Rm R L Re I' ltac:(lia)) as (c0 & c & N & T & _).
  exists (map as_move sched), c0, c, evs. pose proof (as_moves_legal sched Re L) as LM. split; [exact LM|]. split; [exact N|]. split; [exact T|].
  apply (text_stuck width room fuel Wd ltac:(lia) 4 c0 (map as_move sched) c evs N T); [|exact LM|].
  - eapply Forall_impl; [|exact (as_moves_proper width sched fuel I' ltac:(lia))]. intros a [Ha _]. exact Ha.
  - intros g' R'. rewrite (as_moves_labels sched Re) in R'. rewrite R in R'. injection R' as <-. auto.
Qed.
