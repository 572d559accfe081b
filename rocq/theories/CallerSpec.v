(** * Vocabulary: rules for the callers of a ring buffer

    The rules only mention calls and returns: how many bytes were asked for by the calls
    made so far, and by the calls that have returned. *)
From Verif Require Import GoBase Ring RingSpec.

Record totals := mkTotals {
  w_called : Z;    (* bytes of all calls to WriteN *)
  w_returned : Z;  (* bytes of the calls to WriteN that have returned *)
  r_called : Z;    (* bytes of all calls to ReadN *)
  r_returned : Z   (* bytes of the calls to ReadN that have returned *) }.
Definition no_calls : totals := mkTotals 0 0 0 0.

Definition called (a : label) (t : totals) : totals :=
  match a with
  | WCall _ n => mkTotals (w_called t + n) (w_returned t) (r_called t) (r_returned t)
  | RCall _ n => mkTotals (w_called t) (w_returned t) (r_called t + n) (r_returned t)
  | _ => t
  end.
Definition returned (t : totals) (e : event) : totals :=
  match e with
  | EWrite _ => t
  | EWrote => mkTotals (w_called t) (w_called t) (r_called t) (r_returned t)
  | ERead _ => mkTotals (w_called t) (w_returned t) (r_called t) (r_called t)
  end.
Definition tally (t : totals) (a : label) (evs : list event) : totals := fold_left returned evs (called a t).

Inductive rule :=
| Enough    (* a Write brings at least what the current Read still lacks *)
| Fits      (* a Write fits beside what has not been returned by Reads, two cells left over *)
| Settled   (* a Read asks for what returned Writes have brought, or is made while no Write is running *)
| NoClose   (* nobody closes the ring *)
| Ready.    (* a Read asks for what returned Writes have brought *)
Definition rules : list rule := [Enough; Fits; Settled; NoClose].

Definition obeys (r : rule) (size : Z) (t : totals) (a : label) : bool :=
  match r, a with
  | Enough, WCall _ n => (0 <=? n) && (r_called t <=? w_called t + n)
  | Fits, WCall _ n => w_called t + n - r_returned t <=? size - 2
  | Settled, RCall _ n => (0 <=? n) && ((w_returned t =? w_called t) || (r_called t + n <=? w_returned t))
  | NoClose, CloseCall => false
  | Ready, RCall _ n => (0 <=? n) && (r_called t + n <=? w_returned t)
  | _, _ => true
  end.
(** Every label of the schedule obeys the rule. *)
Fixpoint follows (r : rule) (size : Z) (t : totals) (g : ring) (sched : list label) : bool :=
  match sched with
  | [] => true
  | a :: rest => obeys r size t a &&
      match step g a with Some (g', evs) => follows r size (tally t a evs) g' rest | None => true end
  end.
