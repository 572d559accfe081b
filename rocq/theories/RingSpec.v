(** * Vocabulary for the ring buffer properties *)
From Verif Require Import GoBase Ring.

(** All bytes passed to WriteN so far, all bytes returned by ReadN so far. *)
Definition written (evs : list event) : list Z :=
  flat_map (fun e => match e with EWrite bs => bs | _ => [] end) evs.
Definition delivered (evs : list event) : list Z :=
  flat_map (fun e => match e with ERead bs => bs | _ => [] end) evs.
Definition prefix (a b : list Z) : Prop := exists c, b = a ++ c.

(** Every call passes n no larger than its slice. *)
Definition legal_call (a : label) : Prop :=
  match a with WCall data n => n <= zlen data | RCall cap n => n <= cap | _ => True end.

(** Every step of the schedule satisfies [P] in the state where it is taken. *)
Fixpoint all_steps (P : ring -> label -> Prop) (g : ring) (sched : list label) : Prop :=
  match sched with
  | [] => True
  | a :: rest => P g a /\ match step g a with Some (g', _) => all_steps P g' rest | None => True end
  end.

(** Number of bytes published and not yet consumed. *)
Definition occupancy (g : ring) : Z := (g_next g - g_start g) mod g_size g.
(** These bytes. *)
Definition contents (g : ring) : list Z :=
  map (fun k => nth (Z.to_nat ((g_start g + Z.of_nat k) mod g_size g)) (g_cells g) 0)
      (List.seq 0 (Z.to_nat (occupancy g))).

(** The reader's Wait returns with this step; the number of bytes it still has
    to read. *)
Definition reader_wakes (g : ring) (a : label) : option Z :=
  match g_r g, a with
  | RWait_sel l, SyncRead | RWait_sel l, RDone => Some (r_n l - r_i l)
  | RWait l, RStep => if g_rset g then Some (r_n l - r_i l) else None
  | _, _ => None
  end.
(** The writer's Wait returns with this step; the number of bytes it still has
    to write. *)
Definition writer_wakes (g : ring) (a : label) : option Z :=
  match g_w g, a with
  | WWait_sel l, SyncWrite | WWait_sel l, WDone => Some (w_n l - 1 - w_i l)
  | WWait l, WStep => if g_wset g then Some (w_n l - 1 - w_i l) else None
  | _, _ => None
  end.
(** A Wait returns only when the rest of the call can go through: the reader
    finds all the bytes it wants, the writer room for all its bytes. *)
Definition good_wake (g : ring) (a : label) : Prop :=
  (forall k, reader_wakes g a = Some k -> k <= occupancy g) /\
  (forall k, writer_wakes g a = Some k -> occupancy g + k <= g_size g - 2).
(** No Wait ever returns. *)
Definition no_wake (g : ring) (a : label) : Prop := reader_wakes g a = None /\ writer_wakes g a = None.

(** ** A FIFO queue *)
Inductive call := Write (data : list Z) (n : Z) | Read (cap n : Z).
(** Effect of a sequence of calls on a queue of at most [room] bytes; [None] if a call does
    not fit.  The result is the bytes returned by each Read. *)
Fixpoint queue (room : Z) (q : list Z) (calls : list call) : option (list Z * list (list Z)) :=
  match calls with
  | [] => Some (q, [])
  | Write data n :: rest =>
      if (0 <=? n) && (n <=? zlen data) && (zlen q + n <=? room)
      then queue room (q ++ firstn (Z.to_nat n) data) rest else None
  | Read cap n :: rest =>
      if (0 <=? n) && (n <=? cap) && (n <=? zlen q)
      then match queue room (skipn (Z.to_nat n) q) rest with
           | Some (q', outs) => Some (q', firstn (Z.to_nat n) q :: outs)
           | None => None end
      else None
  end.
(** The schedule performing the calls one after the other: each call and some
    number of its own steps. *)
Inductive performs : list call -> list label -> Prop :=
| performs_nil : performs [] []
| performs_write data n k calls sched : performs calls sched ->
    performs (Write data n :: calls) (WCall data n :: repeat WStep k ++ sched)
| performs_read cap n k calls sched : performs calls sched ->
    performs (Read cap n :: calls) (RCall cap n :: repeat RStep k ++ sched).
Definition reads (evs : list event) : list (list Z) :=
  flat_map (fun e => match e with ERead bs => [bs] | _ => [] end) evs.

(** ** Blocking *)
(** The writer (reader) is inside a call and cannot take a step of its own. *)
Definition w_blocked (g : ring) : Prop :=
  g_w g <> WIdle /\ step g WStep = None /\ step g WDone = None /\ step g SyncRead = None /\ step g SyncWrite = None.
Definition r_blocked (g : ring) : Prop :=
  g_r g <> RIdle /\ step g RStep = None /\ step g RDone = None /\ step g SyncRead = None /\ step g SyncWrite = None.

(** Labels in which the writer (reader) moves inside a call. *)
Definition w_moves (a : label) : bool :=
  match a with WStep | WDone | SyncRead | SyncWrite => true | _ => false end.
Definition r_moves (a : label) : bool :=
  match a with RStep | RDone | SyncRead | SyncWrite => true | _ => false end.
