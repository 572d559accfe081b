(** * Properties of the text of the ring: C89, and C27 to C31 for the text *)
From Coq Require Import String.
From Verif Require Import GoBase GoLang GoConc SourceRing Ring RingSpec RingProps SourceRingSpec SourceRingProof SourceRingAll.
Local Open Scope list_scope.
Local Open Scope Z_scope.

(** [ring_source] (SourceRing.v) is the text of ring/buffer.go as terms, written by
    tools/go_source.py.  GoConc.v says what a goroutine running such a text does: one access to
    shared memory, one communication or one expiry of the context at a time.  A [conf] is a memory
    with a goroutine that writes and one that reads; [tstep] is one move of the callers, of a
    goroutine or of both; [truns] a sequence of moves, with the calls and returns seen by the
    callers; [tnew size c]: New(size) returns and leaves [c] (SourceRingSpec.v).  The theorems are
    for ints of any width from 32 bits, any limit on memory ([room]) and any number of rounds
    ([fuel]) that suffices for the calls made ([sized]).

    ** C89.  New returns for the sizes for which there is room, and panics for the others. *)
Theorem C89_new : forall width room fuel, 32 <= width -> (3 <= fuel)%nat -> forall size,
  (exists c, tnew width room fuel size c) <-> 0 <= size /\ room size = true.
Proof. intros width room fuel Wd Fu size. exact (text_new width room fuel Fu size). Qed.
Print Assumptions C89_new.
(** Whatever the text does under whatever interleaving, the model does, and shows the same: the
    same calls and returns with the same bytes, the same memory, and the same ends of goroutines. *)
Theorem C89_text_to_model : forall width room fuel, 32 <= width -> (3 <= fuel)%nat -> forall size c0 moves c evs,
  tnew width room fuel size c0 -> truns width room fuel c0 moves c evs -> Forall (sized width fuel) moves ->
  exists g, run (New size) (map as_label moves) = Some (g, evs) /\ shows c g.
Proof. exact text_to_model. Qed.
Print Assumptions C89_text_to_model.
(** Whatever the model does, the text can do: the interleavings of the model are those of the text.
    This is for callers that give slices of n bytes.  (For others the text panics one step before
    the model says so: [doomed] in [shows].) *)
Theorem C89_model_to_text : forall width room fuel, 32 <= width -> (3 <= fuel)%nat -> forall size c0 moves g evs,
  tnew width room fuel size c0 -> run (New size) (map as_label moves) = Some (g, evs) ->
  Forall (proper width fuel) moves -> Forall legal moves -> exists c, truns width room fuel c0 moves c evs /\ shows c g.
Proof. exact model_to_text. Qed.
Print Assumptions C89_model_to_text.
(** In the state reached the moves possible are the same. *)
Theorem C89_same_moves : forall width room fuel, 32 <= width -> (3 <= fuel)%nat -> forall size c0 moves c evs,
  tnew width room fuel size c0 -> truns width room fuel c0 moves c evs -> Forall (sized width fuel) moves -> Forall legal moves ->
  exists g, run (New size) (map as_label moves) = Some (g, evs) /\ shows c g /\
  (forall a c' evs', sized width fuel a -> tstep width room fuel c a c' evs' -> exists g', step g (as_label a) = Some (g', evs')) /\
  (forall a g' evs', proper width fuel a -> step g (as_label a) = Some (g', evs') -> exists c', tstep width room fuel c a c' evs').
Proof. exact text_next. Qed.
Print Assumptions C89_same_moves.
(** A schedule of the model as one of the text: no more is needed than slices for the reads. *)
Theorem C89_every_schedule : forall width room fuel, 32 <= width -> (3 <= fuel)%nat -> forall size sched g evs,
  0 <= size -> room size = true -> run (New size) sched = Some (g, evs) ->
  Forall legal_call sched -> Forall real sched -> int_counts width sched -> (enough sched <= fuel)%nat ->
  exists c0 c, tnew width room fuel size c0 /\ truns width room fuel c0 (map as_move sched) c evs /\ shows c g.
Proof. exact text_of_schedule. Qed.
Print Assumptions C89_every_schedule.

(** A write and a read of two bytes, the read before the end of the write. *)
Definition C89_sched : list label := WCall [5;6] 2 :: wsteps 5 ++ RCall 2 2 :: rsteps 6 ++ wsteps 1.
Example C89_example : exists c0 c, tnew 64 (fun _ => true) 9 8 c0 /\
  truns 64 (fun _ => true) 9 c0 (map as_move C89_sched) c [EWrite [5;6]; ERead [5;6]; EWrote] /\ c_writer c = None /\ c_reader c = None.
Proof.
  assert (R : exists g, run (New 8) C89_sched = Some (g, [EWrite [5;6]; ERead [5;6]; EWrote]) /\ g_w g = WIdle /\ g_r g = RIdle).
  { eexists. split; [vm_compute; reflexivity|]. split; reflexivity. }
  destruct R as (g & R & W & Rd).
  destruct (C89_every_schedule 64 (fun _ => true) 9 ltac:(lia) ltac:(lia) 8 C89_sched g _ ltac:(lia) eq_refl R) as (c0 & c & N & T & _ & S1 & _ & _ & S2 & _);
    [repeat constructor; cbn; unfold zlen; cbn; lia|repeat constructor; cbn; lia|unfold int_counts; repeat constructor|vm_compute; lia|].
  exists c0, c. split; [exact N|]. split; [exact T|]. split; [exact (proj2 S1 W)|exact (proj2 S2 Rd)].
Qed.

(** ** C31 for the text: no WriteN and no ReadN of a caller that gives slices of n bytes panics,
    and none leaves what GoConc.v gives a meaning to. *)
Theorem C31_text_never_panics : forall width room fuel, 32 <= width -> (3 <= fuel)%nat -> forall size c0 moves c evs,
  1 <= size < 2 ^ 31 -> tnew width room fuel size c0 -> truns width room fuel c0 moves c evs ->
  Forall (sized width fuel) moves -> Forall legal moves ->
  c_writer c <> Some Crash /\ c_writer c <> Some Wrong /\ (forall n, c_reader c <> Some (n, Crash) /\ c_reader c <> Some (n, Wrong)).
Proof. exact text_no_panic. Qed.
Print Assumptions C31_text_never_panics.

(** ** C28 for the text: calls one after the other follow the queue. *)
Theorem C28_text_queue : forall width room size calls q outs, 32 <= width -> 2 <= size < 2 ^ 31 -> room size = true ->
  queue (size - 2) [] calls = Some (q, outs) ->
  exists sched, performs calls sched /\ forall fuel, (enough sched <= fuel)%nat ->
  exists c0 c evs g, tnew width room fuel size c0 /\ truns width room fuel c0 (map as_move sched) c evs /\ reads evs = outs /\
    c_writer c = None /\ c_reader c = None /\ c_memory c = image g /\ contents g = q.
Proof. exact text_queue. Qed.
Print Assumptions C28_text_queue.

(** ** C30 for the text: after Close both goroutines can always move. *)
Theorem C30_text_close_unblocks : forall width room fuel, 32 <= width -> (3 <= fuel)%nat -> forall size c0 moves c evs,
  1 <= size < 2 ^ 31 -> tnew width room fuel size c0 -> truns width room fuel c0 moves c evs ->
  Forall (sized width fuel) moves -> Forall legal moves -> In TClose moves ->
  (c_writer c = None \/ exists c' e, tstep width room fuel c TWriter c' e \/ tstep width room fuel c TWriterExpired c' e) /\
  (c_reader c = None \/ exists c' e, tstep width room fuel c TReader c' e \/ tstep width room fuel c TReaderExpired c' e).
Proof. exact text_closed. Qed.
Print Assumptions C30_text_close_unblocks.

(** ** C27 for the text: the executions that break FIFO are executions of the text, also at the
    size of the library. *)
Theorem C27_text_fifo_refuted : forall width room fuel size sched, 32 <= width -> (15 <= fuel)%nat -> room size = true ->
  In (size, sched) [(8, sched_garbage); (4, sched_overrun); (8, sched_spurious); (8, sched_close)] \/
    (8 <= size < 2 ^ 31 /\ In sched [sched_garbage; sched_spurious; sched_close]) ->
  Forall legal (map as_move sched) /\ exists c0 c evs, tnew width room fuel size c0 /\ truns width room fuel c0 (map as_move sched) c evs /\
    ~ prefix (delivered evs) (written evs).
Proof. exact text_fifo_fails. Qed.
Print Assumptions C27_text_fifo_refuted.

(** ** C29 for the text: it can come to a state with both goroutines inside a call and no move left
    but Close. *)
Theorem C29_text_deadlock_refuted : forall width room fuel, 32 <= width -> (9 <= fuel)%nat -> room 4 = true ->
  exists moves c0 c evs, Forall legal moves /\ tnew width room fuel 4 c0 /\ truns width room fuel c0 moves c evs /\
    c_writer c <> None /\ c_reader c <> None /\ forall a c' e, tstep width room fuel c a c' e -> a = TClose.
Proof. exact text_deadlock. Qed.
Print Assumptions C29_text_deadlock_refuted.
