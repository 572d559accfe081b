(** * Vocabulary for the properties of whole connections *)
From Verif Require Import GoBase Encoder Decoder EncProofs BufIO Conn ConnSpec ConnRing.
From Verif Require Ring RingSpec.

(** As [legal] and [executes] of ConnSpec.v. *)
Definition nlegal {R} (a : nlabel R) : Prop :=
  match a with
  | LDo enc _ => forall id, exists cs, Runs (enc id) cs
  | LNet bs => Forall is_byte bs
  | _ => True
  end.
Definition nexecutes {R} (raw : rawconn) (size cap : Z) (sched : list (nlabel R)) (s : client R) (evs : list (event R)) : Prop :=
  Forall nlegal sched /\ nrun (Connect raw size cap) sched = Some (s, evs).

(** The bytes the network has delivered (without an error). *)
Definition arrived {R} (sched : list (nlabel R)) : list Z :=
  flat_map (fun a => match a with LNet bs => bs | _ => [] end) sched.

(** Every step satisfies [P] in the state where it is taken. *)
Fixpoint all_nsteps {R} (P : client R -> nlabel R -> Prop) (s : client R) (sched : list (nlabel R)) : Prop :=
  match sched with
  | [] => True
  | a :: rest => P s a /\ match nstep s a with Some (s', _) => all_nsteps P s' rest | None => True end
  end.
(** A Wait of the ring returns only when the rest of the call can go through. *)
Definition good_step {R} (s : client R) (a : nlabel R) : Prop :=
  match a with LRing b => RingSpec.good_wake (n_ring s) b | _ => True end.

(** Nothing is left to be read: readLoop waits for the network, the ring is empty and
    the message loop waits inside ReadN. *)
Definition drained {R} (s : client R) : Prop :=
  n_rd s = RdRead /\ RingSpec.occupancy (n_ring s) = 0 /\ Ring.r_waiting (Ring.g_r (n_ring s)) = true.
(** Everything that came without an error has been read: readLoop is not inside WriteN
    (it may have returned), the ring is empty and the message loop waits inside ReadN. *)
Definition consumed {R} (s : client R) : Prop :=
  n_rd s <> RdWrite /\ RingSpec.occupancy (n_ring s) = 0 /\ Ring.r_waiting (Ring.g_r (n_ring s)) = true.
(** The bytes raw.Read returned, with or without an error. *)
Definition returned {R} (sched : list (nlabel R)) : list Z :=
  flat_map (fun a => match a with LNet bs | LNetErr bs => bs | _ => [] end) sched.
