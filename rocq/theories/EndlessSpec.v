(** * Vocabulary: endless executions of a whole connection (C86) *)
From Verif Require Import GoBase Encoder Decoder Spec BufIO Conn ConnSpec ConnRing ConnRingSpec OrderlySpec.
From Verif Require Ring.
Local Open Scope Z_scope.

(** As [history] of LiveSpec.v, for the whole connection. *)
Record story (R : Type) := mkStory {
  y_state : nat -> client R;
  y_label : nat -> option (nlabel R);
  y_events : nat -> list (event R) }.
Arguments mkStory {R}. Arguments y_state {R}. Arguments y_label {R}. Arguments y_events {R}.
Definition told {R} (raw : rawconn) (size cap : Z) (y : story R) : Prop :=
  y_state y 0 = Connect raw size cap /\
  forall n, match y_label y n with
            | None => y_state y (S n) = y_state y n /\ y_events y n = []
            | Some a => nlegal a /\ nstep (y_state y n) a = Some (y_state y (S n), y_events y n)
            end.
(** What has been done and seen before step [n]. *)
Definition deeds {R} (y : story R) (n : nat) : list (nlabel R) := flat_map (fun i => match y_label y i with Some a => [a] | None => [] end) (List.seq 0 n).
Definition sights {R} (y : story R) (n : nat) : list (event R) := flat_map (y_events y) (List.seq 0 n).

(** Every step heeds every courtesy. *)
Definition courteous {R} (size cap : Z) (y : story R) : Prop :=
  forall n a c, y_label y n = Some a -> heeds c size cap (deeds y n) (sights y n) (y_state y n) a.
(** A goroutine in Do that can move again and again does move (as [callers_move], LiveSpec.v). *)
Definition callers_turn {R} (y : story R) : Prop :=
  forall k n, exists m, (n <= m)%nat /\ (y_label y m = Some (LCall k) \/ forall i, (m <= i)%nat -> nstep (y_state y i) (LCall k) = None).
(** As long as readLoop or the message loop can make a move that heeds the courtesies,
    one of the two will move. *)
Definition loops_turn {R} (size cap : Z) (y : story R) : Prop :=
  forall n, exists m, (n <= m)%nat /\
    ((exists a, y_label y m = Some a /\ loop_move a = true) \/ at_rest all_courtesies size cap (deeds y m) (sights y m) (y_state y m)).
(** The request of call [k], once sent, is answered: a frame with its id, which the
    receive buffer can hold, comes over the network after the call has registered. *)
Definition answer_comes {R} (cap : Z) (y : story R) (k : nat) : Prop :=
  forall id n, In (EId k id) (sights y n) -> In (EFlushed k None) (sights y n) ->
  exists m fs tl, y_label y m = Some (LNet (stream fs)) /\ Forall (fun f => zlen f <= cap) fs /\ In (be 4 id ++ tl) fs /\ In (ERegister k) (sights y m).
(** No decoder panics, and no id is used twice. *)
Definition no_panic {R} (y : story R) : Prop := forall n, s_crashed (n_conn (y_state y n)) = false.
Definition fresh_ids {R} (y : story R) : Prop := forall n, zlen (ids (sights y n)) <= 2 ^ 32.
