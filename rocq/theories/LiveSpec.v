(** * Vocabulary: endless executions in which everybody gets a turn (C79) *)
From Verif Require Import GoBase Encoder Decoder Spec BufIO Conn ConnSpec.
Local Open Scope Z_scope.

(** An endless execution: the state before each step, the label of the step (none: the
    connection does nothing at this moment) and what is seen. *)
Record history (R : Type) := mkHistory {
  h_state : nat -> conn R;
  h_label : nat -> option (clabel R);
  h_events : nat -> list (event R) }.
Arguments mkHistory {R}. Arguments h_state {R}. Arguments h_label {R}. Arguments h_events {R}.

Definition happens {R} (raw : rawconn) (cap : Z) (h : history R) : Prop :=
  h_state h 0 = Connected raw cap /\
  forall n, match h_label h n with
            | None => h_state h (S n) = h_state h n /\ h_events h n = []
            | Some a => legal a /\ cstep (h_state h n) a = Some (h_state h (S n), h_events h n)
            end.
(** What has been seen before step [n]. *)
Definition past {R} (h : history R) (n : nat) : list (event R) := flat_map (h_events h) (List.seq 0 n).

Definition enabled {R} (s : conn R) (a : clabel R) : Prop := cstep s a <> None.

(** A goroutine in Do that can move again and again does move: after every moment it
    takes a step, unless it can never move any more.  (Go's mutex hands itself over
    to a goroutine that has waited too long.) *)
Definition callers_move {R} (h : history R) : Prop :=
  forall k n, exists m, (n <= m)%nat /\ (h_label h m = Some (CStep k) \/ forall i, (m <= i)%nat -> ~ enabled (h_state h i) (CStep k)).
(** The message loop, outside ReadN, does not rest forever. *)
Definition loop_moves {R} (h : history R) : Prop :=
  forall n, exists m, (n <= m)%nat /\ (h_label h m = Some MStep \/ ~ enabled (h_state h m) MStep).
(** As long as some call waits for its reply, ReadN returns. *)
Definition waiting {R} (s : conn R) : Prop := exists k c, nth_error (s_calls s) k = Some c /\ k_pc c = PWait /\ k_reply c = None.
Definition reading {R} (s : conn R) : Prop := match s_mpc s with MHead | MBody _ => True | _ => False end.
Definition bytes_come {R} (h : history R) : Prop :=
  forall n, exists m, (n <= m)%nat /\ ((exists bs, h_label h m = Some (MRead bs)) \/ ~ (reading (h_state h m) /\ waiting (h_state h m))).
(** A request that has been sent is answered: for some [N] a frame with its id, read
    after the call has registered, is among the first [N] frames. *)
Definition answers {R} (h : history R) : Prop :=
  forall k id n, In (EId k id) (past h n) -> In (EFlushed k None) (past h n) ->
  exists N, forall m, (N <= length (frames (past h m)))%nat ->
    exists i raw size, (i < m)%nat /\ In (ERegister k) (past h i) /\ In (EFrame raw size) (h_events h i) /\ carries raw size id.
(** No crash, no Close, and no id is used twice. *)
Definition alive {R} (h : history R) : Prop := forall n, s_crashed (h_state h n) = false /\ s_closed (h_state h n) = false.
Definition few_calls {R} (h : history R) : Prop := forall n, zlen (ids (past h n)) <= 2 ^ 32.
