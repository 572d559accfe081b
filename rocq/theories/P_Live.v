(** * C79: every call returns if the broker answers *)
From Verif Require Import GoBase GoLemmas Encoder Decoder Spec EncProofs BufIO RingSpec Msg01 Conn ConnSpec ConnProofs ConnProps LiveSpec LiveProofs P_Conn.
Local Open Scope Z_scope.
Ltac Zify.zify_post_hook ::= idtac.

(** [happens raw cap h]: [h] is an endless execution of a new connection: any number
    of calls, any interleaving, any broker.  [past h n] is what has been seen before
    step [n].

    If the goroutines get their turns, ReadN returns as long as somebody waits, and
    every request that was sent is answered after its call has registered, then every
    call returns: no lock is kept, no reply is lost and no goroutine waits for one
    that waits for it. *)
Theorem C79_returns : forall R raw cap (h : history R), 4 <= cap -> happens raw cap h ->
  callers_move h -> loop_moves h -> bytes_come h -> answers h -> alive h -> few_calls h ->
  forall k n, In (ECall k) (past h n) -> exists m res, In (EReturn k res) (past h m).
Proof.
  intros R raw cap h Hc Hh Hf Hl Hb Ha Hal Hn. exact (all_return raw cap h Hc Hh Hf (fun n => proj1 (Hal n)) Hl (fun n => proj2 (Hal n)) Hb Hn Ha).
Qed.
Print Assumptions C79_returns.

(** Sending needs neither the broker nor the message loop: as long as the process
    has not crashed, every call gets the mutex and ends its Flush, open connection or
    closed. *)
Theorem C79_sends : forall R raw cap (h : history R), 4 <= cap -> happens raw cap h ->
  callers_move h -> (forall n, s_crashed (h_state h n) = false) ->
  forall k n, In (ECall k) (past h n) -> exists m fl, In (EFlushed k fl) (past h m).
Proof. exact @sends. Qed.
Print Assumptions C79_sends.
(** A call whose Flush fails returns that error, whatever the broker does. *)
Theorem C79_failed : forall R raw cap (h : history R), happens raw cap h ->
  callers_move h -> (forall n, s_crashed (h_state h n) = false) ->
  forall k n x, In (EFlushed k (Some x)) (past h n) -> exists m, In (EReturn k (WriteError x)) (past h m).
Proof. exact @write_failed. Qed.
Print Assumptions C79_failed.

(** ** A schedule, then rest *)
Fixpoint after {R} (s : conn R) (sched : list (clabel R)) : conn R :=
  match sched with [] => s | a :: rest => match cstep s a with Some (s1, _) => after s1 rest | None => s end end.
Fixpoint seen_at {R} (s : conn R) (sched : list (clabel R)) (n : nat) : list (event R) :=
  match sched with
  | [] => []
  | a :: rest => match cstep s a with Some (s1, e) => match n with O => e | S n => seen_at s1 rest n end | None => [] end
  end.
Definition played {R} raw cap (sched : list (clabel R)) : history R :=
  mkHistory (fun n => after (Connected raw cap) (firstn n sched)) (fun n => nth_error sched n) (seen_at (Connected raw cap) sched).
Lemma played_steps {R} (sched : list (clabel R)) : forall s n p, crun s sched = Some p -> Forall legal sched ->
  match nth_error sched n with
  | None => after s (firstn (S n) sched) = after s (firstn n sched) /\ seen_at s sched n = []
  | Some a => legal a /\ cstep (after s (firstn n sched)) a = Some (after s (firstn (S n) sched), seen_at s sched n)
  end.
Proof.
  induction sched as [|a sched IH]; intros s n p H Hl; [destruct n; split; reflexivity|].
  cbn [crun] in H. inversion Hl as [|? ? Ha Hl']; subst. destruct (cstep s a) as [[s1 e1]|] eqn:E; [|discriminate].
  destruct (crun s1 sched) as [q|] eqn:E2; [|discriminate]. destruct n as [|n].
  - cbn [nth_error firstn after seen_at]. rewrite E. split; [exact Ha|]. reflexivity.
  - specialize (IH s1 n q E2 Hl'). cbn [nth_error]. change (firstn (S (S n)) (a :: sched)) with (a :: firstn (S n) sched).
    change (firstn (S n) (a :: sched)) with (a :: firstn n sched). cbn [after seen_at]. rewrite E. exact IH.
Qed.
Lemma played_happens {R} raw cap (sched : list (clabel R)) s evs : executes raw cap sched s evs -> happens raw cap (played raw cap sched).
Proof.
  intros [Hl H]. split; [reflexivity|]. intros n. exact (played_steps sched _ n _ H Hl).
Qed.
Lemma seen_end {R} (sched : list (clabel R)) : forall s n, (length sched <= n)%nat -> seen_at s sched n = [].
Proof.
  induction sched as [|a sched IH]; intros s n H; [reflexivity|]. cbn [seen_at]. destruct (cstep s a) as [[s1 e]|]; [|reflexivity].
  destruct n as [|n]; [cbn in H; lia|]. apply IH. cbn in H. lia.
Qed.
(** Two calls, answered in the other order with a stray frame in between; then the
    message loop waits for more. *)
Definition ex_live : list (clabel Z) := ex_calls ++ ex_frames ++ [MStep].
Definition h_live : history Z := played good_raw 10 ex_live.
Lemma live_happens : happens good_raw 10 h_live.
Proof.
  assert (H : exists s evs, executes good_raw 10 ex_live s evs).
  { edestruct (show_executes good_raw 10 ex_live) as (s & Hex & _); [unfold ex_live, ex_calls, ex_frames; cbn [app]; all_legal|vm_compute; reflexivity|]. eauto. }
  destruct H as (s & evs & H). exact (played_happens _ _ _ _ _ H).
Qed.
Lemma live_rest n : (31 <= n)%nat -> h_state h_live n = h_state h_live 31.
Proof. intros H. unfold h_live, played. cbn [h_state]. rewrite (firstn_all2 ex_live (n := n)) by exact H. reflexivity. Qed.
Lemma live_all n : (31 <= n)%nat -> past h_live n = past h_live 31.
Proof.
  intros H. induction H as [|n H IH]; [reflexivity|]. rewrite past_S, IH. cbn [h_live played h_events]. rewrite (seen_end ex_live _ n H). apply app_nil_r.
Qed.
Lemma live_past n x : In x (past h_live n) -> In x (past h_live 31).
Proof.
  intros H. rewrite <- (live_all (max n 31)) by lia. apply (past_in h_live n); [lia|exact H].
Qed.
Lemma live_upto (P : conn Z -> bool) : forallb (fun n => P (h_state h_live n)) (List.seq 0 32) = true -> forall n, P (h_state h_live n) = true.
Proof.
  intros H n. rewrite forallb_forall in H. destruct (Nat.lt_ge_cases n 32) as [G|G]; [apply H, in_seq; lia|]. rewrite (live_rest n) by lia. apply H, in_seq. lia.
Qed.
Example C79_example : happens good_raw 10 h_live /\ callers_move h_live /\ loop_moves h_live /\ bytes_come h_live /\ answers h_live /\
  alive h_live /\ few_calls h_live /\ In (ECall 0) (past h_live 2) /\ In (ECall 1) (past h_live 2).
Proof.
  split; [exact live_happens|]. split; [|split; [|split; [|split; [|split; [|split; [|split]]]]]].
  - intros k n. exists (max n 31). split; [lia|]. right. intros i Hi F. rewrite (live_rest i) in F by lia. destruct k as [|[|k]]; [apply F; vm_compute; reflexivity..|].
    apply F. unfold cstep. replace (s_crashed (h_state h_live 31)) with false by (vm_compute; reflexivity).
    replace (nth_error (s_calls (h_state h_live 31)) (S (S k))) with (@None (docall Z)); [reflexivity|]. symmetry. apply nth_error_None.
    replace (length (s_calls (h_state h_live 31))) with 2%nat by (vm_compute; reflexivity). lia.
  - intros n. exists (max n 31). split; [lia|]. right. rewrite (live_rest (max n 31)) by lia. intros F. apply F. vm_compute. reflexivity.
  - intros n. exists (max n 31). split; [lia|]. right. rewrite (live_rest (max n 31)) by lia. intros (_ & k & c & H1 & H2 & _).
    assert (E : map (fun c => match k_pc c with PReturned _ => true | _ => false end) (s_calls (h_state h_live 31)) = [true; true]) by (vm_compute; reflexivity).
    apply (map_nth_error (fun c => match k_pc c with PReturned _ => true | _ => false end)) in H1. rewrite E, H2 in H1.
    clear E. destruct k as [|[|k]]; [discriminate H1..|]. destruct k; discriminate H1.
  - intros k id n H _. exists 3%nat. intros m Hm.
    assert (G : (26 < m)%nat).
    { destruct (Nat.lt_ge_cases 26 m) as [|G]; [assumption|]. pose proof (frames_more h_live m 26 G) as L.
      replace (length (frames (past h_live 26))) with 2%nat in L by (vm_compute; reflexivity). lia. }
    apply live_past in H. assert (E : (k = 0%nat /\ id = 2) \/ (k = 1%nat /\ id = 1)).
    { assert (E : flat_map (fun x => match x with EId k id => [(k, id)] | _ => [] end) (past h_live 31) = [(1%nat, 1); (0%nat, 2)]) by (vm_compute; reflexivity).
      assert (F : In (k, id) [(1%nat, 1); (0%nat, 2)]) by (rewrite <- E; apply in_flat_map; exists (EId k id); split; [exact H|left; reflexivity]).
      destruct F as [F|[F|[]]]; injection F as <- <-; auto. }
    destruct E as [[-> ->]|[-> ->]].
    + exists 16%nat, [0;0;0;2; 0;0;0;22; 0;0], 8. split; [lia|]. split; [vm_compute; tauto|]. split; [vm_compute; tauto|].
      split; [unfold is_int32; lia|]. split; [vm_compute; discriminate|]. exists [0;0;0;22]. reflexivity.
    + exists 26%nat, [0;0;0;1; 0;0;0;11; 0;0], 8. split; [lia|]. split; [vm_compute; tauto|]. split; [vm_compute; tauto|].
      split; [unfold is_int32; lia|]. split; [vm_compute; discriminate|]. exists [0;0;0;11]. reflexivity.
  - intros n. pose proof (live_upto (fun s => negb (s_crashed s || s_closed s))) as H. cbn beta in H. specialize (H ltac:(vm_compute; reflexivity) n).
    apply negb_true_iff, orb_false_iff in H. exact H.
  - intros n. assert (L : zlen (ids (past h_live n)) <= zlen (ids (past h_live 31))).
    { destruct (past_more h_live n (max n 31)) as [more E]; [lia|]. rewrite <- (live_all (max n 31)) by lia. rewrite E. unfold ids, zlen. rewrite flat_map_app, app_length. lia. }
    replace (zlen (ids (past h_live 31))) with 2 in L by (vm_compute; reflexivity). lia.
  - vm_compute. tauto.
  - vm_compute. tauto.
Qed.
