(** * Ring buffer properties: C27 to C31 *)
From Verif Require Import GoBase Ring RingSpec RingProofs RingProps RingSeq.
Local Open Scope Z_scope.

(** A schedule is a list of labels; [run (New size) sched = Some (g, evs)] says that
    it is an execution of a new ring, that it ends in [g], and that its calls
    were given and returned the bytes in [evs]. *)

(** ** C27.  Full statement:
      forall size sched g evs, 2 <= size < 2^31 -> Forall legal_call sched ->
        run (New size) sched = Some (g, evs) -> prefix (delivered evs) (written evs)
    It is false, in rings of every size, for four different reasons: a read is
    woken before enough bytes are there; a write is woken before enough room is
    there; a read is woken by the Release of a write it has already seen; a read
    is woken by Close. *)
Theorem C27_fifo_refuted : forall size sched,
  In (size, sched) [(8, sched_garbage); (4, sched_overrun); (8, sched_spurious); (8, sched_close)] ->
  Forall legal_call sched /\ exists g evs, run (New size) sched = Some (g, evs) /\ ~ prefix (delivered evs) (written evs).
Proof. exact fifo_refuted. Qed.
Print Assumptions C27_fifo_refuted.
(** In particular at the size the library uses (5,000,000; gen.conn.go:71). *)
Theorem C27_fifo_any_size_refuted : forall size sched, 8 <= size < 2 ^ 31 ->
  In sched [sched_garbage; sched_spurious; sched_close] ->
  Forall legal_call sched /\ exists g evs, run (New size) sched = Some (g, evs) /\ ~ prefix (delivered evs) (written evs).
Proof. exact fifo_refuted_any_size. Qed.
Print Assumptions C27_fifo_any_size_refuted.
(** What holds: FIFO in every execution in which each Wait returns only once the
    rest of the call can go through.  Missing: Wait does not ensure that. *)
Theorem C27_fifo_partial : forall size sched g evs, 2 <= size < 2 ^ 31 ->
  run (New size) sched = Some (g, evs) -> all_steps good_wake (New size) sched ->
  prefix (delivered evs) (written evs).
Proof. exact ring_fifo. Qed.
Print Assumptions C27_fifo_partial.
(** Nothing is lost in these executions: what is not delivered is in the ring. *)
Theorem C27_nothing_lost_partial : forall size sched g evs, 2 <= size < 2 ^ 31 ->
  run (New size) sched = Some (g, evs) -> all_steps good_wake (New size) sched ->
  g_w g = WIdle -> g_r g = RIdle -> written evs = delivered evs ++ contents g.
Proof. exact ring_complete. Qed.
Print Assumptions C27_nothing_lost_partial.
(** A read of 2 bytes waits, a write of 3 wakes it, it reads 2; 1 is left. *)
Definition sched_wait : list label := RCall 2 2 :: rsteps 5 ++ WCall [5;6;7] 3 :: wsteps 7 ++ [SyncRead] ++ rsteps 4.
Example C27_example : exists g evs, run (New 8) sched_wait = Some (g, evs) /\ all_steps good_wake (New 8) sched_wait /\
  reader_wakes (match run (New 8) (firstn 14 sched_wait) with Some (g', _) => g' | None => New 8 end) SyncRead = Some 2 /\
  written evs = [5;6;7] /\ delivered evs = [5;6] /\ contents g = [7] /\ g_w g = WIdle /\ g_r g = RIdle.
Proof.
  eexists. eexists. split; [vm_compute; reflexivity|]. split; [|vm_compute; repeat split].
  vm_compute. repeat split; intros; try discriminate; match goal with H : Some _ = Some _ |- _ => injection H as <- end; discriminate.
Qed.

(** ** C28.  [queue room q calls] is the queue semantics; [performs] says that the
    calls happen one after the other, each on its own.  None of them blocks, each
    returns what the queue returns. *)
Theorem C28_sequential_queue : forall size calls q outs, 2 <= size < 2 ^ 31 -> queue (size - 2) [] calls = Some (q, outs) ->
  exists sched g evs, performs calls sched /\ run (New size) sched = Some (g, evs) /\ reads evs = outs /\
    contents g = q /\ g_w g = WIdle /\ g_r g = RIdle.
Proof. exact ring_sequential. Qed.
Print Assumptions C28_sequential_queue.
(** Two rounds through a ring of 5, wrapping around. *)
Example C28_example : queue (5 - 2) [] [Write [1;2;3;9] 3; Read 2 2; Write [4;5] 2; Read 9 3; Write [6;7;8] 3; Read 3 3; Write [10] 1] =
  Some ([10], [[1;2]; [3;4;5]; [6;7;8]]).
Proof. reflexivity. Qed.
(** The bound is sharp: one byte more and the writer waits although a cell is free. *)
Example C28_sharp : exists g evs, run (New 5) (WCall [1;2;3;4] 4 :: wsteps 10) = Some (g, evs) /\ w_blocked g /\ occupancy g = 4.
Proof. eexists. eexists. split; [vm_compute; reflexivity|]. split; [|reflexivity]. unfold w_blocked. cbn. repeat split; discriminate. Qed.

(** ** C29.  Full statement:
      run (New size) sched = Some (g, evs) -> Forall legal_call sched -> g_closed g = false ->
        ~ (w_blocked g /\ r_blocked g) /\
        (a reader waiting in g is woken by every later WriteN of at least one byte).
    Both halves are false. *)
Theorem C29_deadlock_refuted : exists size sched g evs, Forall legal_call sched /\ run (New size) sched = Some (g, evs) /\
  g_closed g = false /\ w_blocked g /\ r_blocked g.
Proof. exact deadlock_reachable. Qed.
Print Assumptions C29_deadlock_refuted.
Theorem C29_deadlock_full_refuted : exists size sched g evs, Forall legal_call sched /\ run (New size) sched = Some (g, evs) /\
  g_closed g = false /\ w_blocked g /\ r_blocked g /\ occupancy g = size - 1.
Proof. exact deadlock_full_reachable. Qed.
Print Assumptions C29_deadlock_full_refuted.
(** A write of one byte does not wake the reader, in rings of every size. *)
Theorem C29_lost_wakeup_refuted : forall size, 8 <= size < 2 ^ 31 -> exists sched g evs, Forall legal_call sched /\ run (New size) sched = Some (g, evs) /\
  g_closed g = false /\ g_w g = WIdle /\ r_blocked g /\ written evs = [7] /\ occupancy g = 1.
Proof. exact lost_wakeup_any_size. Qed.
Print Assumptions C29_lost_wakeup_refuted.
(** Such a deadlock is final: only Close ends it. *)
Theorem C29_deadlock_final : forall g, w_blocked g -> r_blocked g -> forall a r, a <> CloseCall -> step g a = Some r -> False.
Proof. exact deadlock_final. Qed.
Print Assumptions C29_deadlock_final.
(** What holds.  The only place to block is Wait; Release never blocks. *)
Theorem C29_blocked_only_in_wait_partial : forall size sched g evs, 1 <= size < 2 ^ 31 -> Forall legal_call sched ->
  run (New size) sched = Some (g, evs) -> g_closed g = false ->
  (w_blocked g <-> w_waiting (g_w g) = true /\ r_releasing (g_r g) = false) /\
  (r_blocked g <-> r_waiting (g_r g) = true /\ w_releasing (g_w g) = false) /\
  (w_releasing (g_w g) = true -> step g SyncRead <> None) /\
  (r_releasing (g_r g) = true -> step g SyncWrite <> None).
Proof. exact deadlock_iff. Qed.
Print Assumptions C29_blocked_only_in_wait_partial.
(** A waiting reader is woken by every WriteN of at least two bytes that returns;
    missing: WriteN of one byte (refuted above). *)
Theorem C29_write_wakes_partial : forall size sched0 g evs0, run (New size) sched0 = Some (g, evs0) -> g_closed g = false ->
  r_waiting (g_r g) = true -> g_w g = WIdle ->
  forall data n sched g' evs, 2 <= n -> Forall no_wcall sched ->
  run g (WCall data n :: sched) = Some (g', evs) -> g_w g' = WIdle -> In SyncRead sched.
Proof. exact write_wakes. Qed.
Print Assumptions C29_write_wakes_partial.
(** A waiting writer is woken by every ReadN of at least one byte that returns. *)
Theorem C29_read_wakes_partial : forall size sched0 g evs0, run (New size) sched0 = Some (g, evs0) -> g_closed g = false ->
  w_waiting (g_w g) = true -> g_r g = RIdle ->
  forall cap n sched g' evs, 1 <= n -> Forall no_rcall sched ->
  run g (RCall cap n :: sched) = Some (g', evs) -> g_r g' = RIdle -> In SyncWrite sched.
Proof. exact read_wakes. Qed.
Print Assumptions C29_read_wakes_partial.
(** States meeting the hypotheses: a waiting reader, then a write of 2 bytes
    that returns; a waiting writer, then a read of 1 byte that returns. *)
Example C29_example_write : exists g g' evs, run (New 8) (RCall 2 2 :: rsteps 5) = Some (g, []) /\ r_waiting (g_r g) = true /\
  run g (WCall [1;2] 2 :: wsteps 6 ++ [SyncRead]) = Some (g', evs) /\ g_w g' = WIdle /\ r_blocked g.
Proof.
  eexists. eexists. eexists. split; [vm_compute; reflexivity|]. split; [reflexivity|]. split; [vm_compute; reflexivity|].
  split; [reflexivity|]. unfold r_blocked. cbn. repeat split; discriminate.
Qed.
Example C29_example_read : exists g g' evs evs', run (New 5) (WCall [1;2;3;4;5] 5 :: wsteps 10) = Some (g, evs) /\ w_waiting (g_w g) = true /\
  run g (RCall 1 1 :: rsteps 5 ++ [SyncWrite]) = Some (g', evs') /\ g_r g' = RIdle.
Proof.
  eexists. eexists. eexists. eexists. split; [vm_compute; reflexivity|]. split; [reflexivity|]. split; [vm_compute; reflexivity|]. reflexivity.
Qed.

(** ** C30.  After Close every party inside a call can move by itself, in every
    state of every later schedule; and a call makes only finitely many moves. *)
Theorem C30_close_unblocks : forall size sched0 g evs0 sched g' evs, 1 <= size < 2 ^ 31 -> Forall legal_call (sched0 ++ sched) ->
  run (New size) sched0 = Some (g, evs0) -> g_closed g = true -> run g sched = Some (g', evs) ->
  (g_w g' = WIdle \/ step g' WStep <> None \/ step g' WDone <> None) /\
  (g_r g' = RIdle \/ step g' RStep <> None \/ step g' RDone <> None).
Proof. exact close_unblocks. Qed.
Print Assumptions C30_close_unblocks.
(** Calls in progress in [g]: the number of moves left is bounded in [g], whatever
    the rest of the schedule does ([count] counts the labels moving the party). *)
Theorem C30_calls_finite : forall g, exists bw br, forall sched g' evs, run g sched = Some (g', evs) ->
  (Forall (fun a => ~ is_wcall a) sched -> count w_moves sched <= bw) /\
  (Forall (fun a => ~ is_rcall a) sched -> count r_moves sched <= br).
Proof. exact calls_finite. Qed.
Print Assumptions C30_calls_finite.
(** Later calls: the bound depends on n only. *)
Theorem C30_later_calls_finite : forall g,
  (forall data n g1 evs1 sched g' evs, step g (WCall data n) = Some (g1, evs1) -> run g1 sched = Some (g', evs) ->
     Forall (fun a => ~ is_wcall a) sched -> count w_moves sched <= 7 * Z.max 0 n + 5) /\
  (forall cap n g1 evs1 sched g' evs, step g (RCall cap n) = Some (g1, evs1) -> run g1 sched = Some (g', evs) ->
     Forall (fun a => ~ is_rcall a) sched -> count r_moves sched <= 7 * Z.max 0 n + 5).
Proof. exact call_bounds. Qed.
Print Assumptions C30_later_calls_finite.
(** The deadlock above, closed: both calls return. *)
Example C30_example : exists g evs, run (New 4) (sched_deadlock_empty ++ [CloseCall; RDone; WDone] ++ rsteps 3 ++ wsteps 3 ++ [RDone; WDone]) = Some (g, evs) /\
  g_w g = WIdle /\ g_r g = RIdle /\ g_closed g = true.
Proof. eexists. eexists. split; [vm_compute; reflexivity|]. repeat split. Qed.

(** ** C31 *)
Theorem C31_positions : forall size sched g evs, 1 <= size < 2 ^ 31 -> Forall legal_call sched ->
  run (New size) sched = Some (g, evs) ->
  0 <= g_start g < size /\ 0 <= g_next g < size /\ zlen (g_cells g) = size /\ g_w g <> WCrash /\ g_r g <> RCrash.
Proof. exact positions. Qed.
Print Assumptions C31_positions.
Example C31_example : exists g evs, run (New 4) sched_overrun = Some (g, evs) /\ g_next g = 3 /\ g_start g = 3 /\ Forall legal_call sched_overrun.
Proof. eexists. eexists. split; [vm_compute; reflexivity|]. repeat split. repeat constructor; cbn; unfold zlen; cbn; lia. Qed.
(** The hypotheses are needed: a ring of size 0, a slice shorter than n. *)
Example C31_size_zero : exists g evs, run (New 0) (WCall [1] 1 :: wsteps 3) = Some (g, evs) /\ g_w g = WCrash.
Proof. eexists. eexists. split; [vm_compute; reflexivity|]. reflexivity. Qed.
Example C31_short_slice : exists g evs, run (New 8) (WCall [1] 2 :: wsteps 4) = Some (g, evs) /\ g_w g = WCrash.
Proof. eexists. eexists. split; [vm_compute; reflexivity|]. reflexivity. Qed.
