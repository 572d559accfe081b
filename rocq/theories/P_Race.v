(** * Property C71: data races in the ring buffer

    The full statement: two goroutines, one writing and one reading, can use a ring
    without a data race: of every two accesses to one cell of [data], one by Write and
    one by Read, the earlier happens before the later.  It is false of the code, in two
    ways.  Missing from [C71_race_free_partial]: executions in which a side is woken
    before its wait is over, and executions with Close. *)
From Verif Require Import GoBase Ring RingSpec RingProps RaceSpec RaceProofs.
Local Open Scope Z_scope.

(** The hypothesis [all_steps good_wake] is the one of C27: nobody waiting is woken
    unless what was waited for is there.  Then the stores to [next] and [start], and the
    meetings on the channels, order every two accesses of a cell. *)
Theorem C71_race_free_partial : forall size sched g evs, 2 <= size < 2 ^ 31 -> Forall legal_call sched -> ~ In CloseCall sched ->
  run (New size) sched = Some (g, evs) -> all_steps good_wake (New size) sched -> ~ race (trace (New size) sched).
Proof. exact ring_race_free. Qed.
Print Assumptions C71_race_free_partial.

(** In a ring of any size from 8 on: a Read woken by the Release of a Write it has
    already consumed reads the cell that the next Write writes; and so does a Read woken
    by Close.  Between the two accesses the reader takes no step. *)
Theorem C71_race_refuted : forall size sched, 8 <= size < 2 ^ 31 -> In sched [sched_race; sched_race_close] ->
  Forall legal_call sched /\ (exists g evs, run (New size) sched = Some (g, evs)) /\ plain_race (trace (New size) sched).
Proof. exact ring_races. Qed.
Print Assumptions C71_race_refuted.
Theorem C71_plain_race_is_race : forall tr, plain_race tr -> race tr.
Proof. exact plain_is_race. Qed.
Print Assumptions C71_plain_race_is_race.

(** A Read that waits, a Write that wakes it, and a second round over the cells of a
    ring of four: cell 0 is written, read, and written again. *)
Definition sched_rounds : list label :=
  RCall 1 1 :: rsteps 5 ++ WCall [1;2] 2 :: wsteps 6 ++ [SyncRead] ++ rsteps 3 ++ RCall 1 1 :: rsteps 5 ++
  WCall [3;4] 2 :: wsteps 6 ++ RCall 2 2 :: rsteps 6 ++ WCall [5] 1 :: wsteps 4 ++ RCall 1 1 :: rsteps 5.
Example C71_example : exists g evs, run (New 4) sched_rounds = Some (g, evs) /\ Forall legal_call sched_rounds /\
  ~ In CloseCall sched_rounds /\ all_steps good_wake (New 4) sched_rounds /\
  written evs = [1;2;3;4;5] /\ delivered evs = [1;2;3;4;5] /\
  flat_map (fun s => match access s with Some a => [a] | None => [] end) (trace (New 4) sched_rounds) =
    [(Writer, 0); (Writer, 1); (Reader, 0); (Reader, 1); (Writer, 2); (Writer, 3); (Reader, 2); (Reader, 3); (Writer, 0); (Reader, 0)].
Proof.
  eexists. eexists. split; [vm_compute; reflexivity|].
  split; [repeat constructor; cbn; unfold zlen; cbn; lia|]. split; [cbn; intuition discriminate|].
  split; [|vm_compute; repeat split].
  vm_compute. repeat split; intros; try discriminate; match goal with H : Some _ = Some _ |- _ => injection H as <- end; discriminate.
Qed.
Example C71_example_race_free : ~ race (trace (New 4) sched_rounds).
Proof.
  destruct C71_example as (g & evs & H1 & H2 & H3 & H4 & _). apply (C71_race_free_partial 4 _ g evs); [lia|assumption..].
Qed.
