(** * Property C73: a contract for the callers of the ring buffer

    C27, C29 and C71 say that a ring can deliver the wrong bytes, hang and race.  Their
    positive halves speak of wake-ups, which callers do not see.  Here is a condition on
    the calls alone. *)
From Verif Require Import GoBase Ring RingSpec RingProps RaceSpec CallerSpec CallerProofs.
Local Open Scope Z_scope.

(** [follows r size no_calls (New size) sched]: every call of the execution obeys the
    rule [r].  The four rules: a Write brings at least what the current Read still lacks;
    it fits beside what the Reads have not returned yet, with two cells to spare; a Read
    asks for what returned Writes have brought, or is made while no Write is running;
    nobody calls Close.  Then, whatever the schedule: bytes come out in the order in which they
    went in; when both sides are idle none is lost; there is no data race; and the writer
    never blocks. *)
Theorem C73_contract : forall size sched g evs, 2 <= size < 2 ^ 31 -> Forall legal_call sched ->
  (forall r, In r [Enough; Fits; Settled; NoClose] -> follows r size no_calls (New size) sched = true) ->
  run (New size) sched = Some (g, evs) ->
  prefix (delivered evs) (written evs) /\
  (g_w g = WIdle -> g_r g = RIdle -> written evs = delivered evs ++ contents g) /\
  ~ race (trace (New size) sched) /\ ~ w_blocked g.
Proof. exact callers_fifo. Qed.
Print Assumptions C73_contract.

(** No rule can be dropped: for each there is an execution that follows the other three
    and delivers bytes that are not the ones written. *)
Theorem C73_rules_needed : forall r, In r [Enough; Fits; Settled; NoClose] -> exists size sched g evs,
  Forall legal_call sched /\
  (forall r', In r' [Enough; Fits; Settled; NoClose] -> r' <> r -> follows r' size no_calls (New size) sched = true) /\
  run (New size) sched = Some (g, evs) /\ ~ prefix (delivered evs) (written evs).
Proof. exact rules_needed. Qed.
Print Assumptions C73_rules_needed.

(** The rules do not save a Read that has to wait: in a ring of any size from 8 on, it
    can be left waiting with both its bytes in the ring and the Write returned. *)
Theorem C73_wait_hangs : forall size, 8 <= size < 2 ^ 31 -> Forall legal_call sched_hang /\
  (forall r, In r [Enough; Fits; Settled; NoClose] -> follows r size no_calls (New size) sched_hang = true) /\
  exists g evs, run (New size) sched_hang = Some (g, evs) /\ g_w g = WIdle /\ r_blocked g /\ occupancy g = 2.
Proof. exact rules_hang. Qed.
Print Assumptions C73_wait_hangs.
(** With Reads that only ask for what returned Writes have brought, nobody ever blocks. *)
Theorem C73_ready : forall size sched g evs, 2 <= size < 2 ^ 31 -> Forall legal_call sched ->
  (forall r, In r [Ready; Enough; Fits; Settled; NoClose] -> follows r size no_calls (New size) sched = true) ->
  run (New size) sched = Some (g, evs) -> ~ w_blocked g /\ ~ r_blocked g.
Proof. exact callers_ready. Qed.
Print Assumptions C73_ready.

(** A ring of seven.  A Read of 2 waits, a Write of 3 wakes it while still running; a Write of 3 follows, beside the
    byte left over; a Read of 3 overlaps with a Write of 1; another takes the rest. *)
Definition sched_contract : list label :=
  RCall 2 2 :: rsteps 5 ++ WCall [1;2;3] 3 :: wsteps 7 ++ [SyncRead] ++ rsteps 4 ++
  WCall [4;5;6] 3 :: wsteps 7 ++ RCall 3 3 :: rsteps 3 ++ WCall [7] 1 :: wsteps 2 ++ rsteps 3 ++ wsteps 1 ++ rsteps 1 ++ wsteps 1 ++
  RCall 2 2 :: rsteps 6.
Example C73_example : exists g evs, run (New 7) sched_contract = Some (g, evs) /\ Forall legal_call sched_contract /\
  (forall r, In r [Enough; Fits; Settled; NoClose] -> follows r 7 no_calls (New 7) sched_contract = true) /\
  follows Ready 7 no_calls (New 7) sched_contract = false /\
  written evs = [1;2;3;4;5;6;7] /\ delivered evs = [1;2;3;4;5;6;7] /\ g_start g = 0 /\ g_w g = WIdle /\ g_r g = RIdle.
Proof.
  eexists. eexists. split; [vm_compute; reflexivity|]. split; [repeat constructor; cbn; unfold zlen; cbn; lia|].
  split; [|vm_compute; repeat split]. intros r Hr. cbn in Hr. intuition (subst; vm_compute; reflexivity).
Qed.
(** The same without the Read that waits. *)
Definition sched_ready : list label :=
  WCall [1;2;3] 3 :: wsteps 7 ++ RCall 2 2 :: rsteps 1 ++ WCall [4;5] 2 :: wsteps 3 ++ rsteps 5 ++ wsteps 3 ++ RCall 3 3 :: rsteps 7.
Example C73_ready_example : exists g evs, run (New 7) sched_ready = Some (g, evs) /\ Forall legal_call sched_ready /\
  (forall r, In r [Ready; Enough; Fits; Settled; NoClose] -> follows r 7 no_calls (New 7) sched_ready = true) /\
  delivered evs = [1;2;3;4;5] /\ g_w g = WIdle /\ g_r g = RIdle.
Proof.
  eexists. eexists. split; [vm_compute; reflexivity|]. split; [repeat constructor; cbn; unfold zlen; cbn; lia|].
  split; [|vm_compute; repeat split]. intros r Hr. cbn in Hr. intuition (subst; vm_compute; reflexivity).
Qed.
