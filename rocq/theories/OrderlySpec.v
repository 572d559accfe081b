(** * Vocabulary: a network and a scheduler that are kind to a connection *)
From Verif Require Import GoBase Encoder Decoder Spec BufIO Conn ConnSpec ConnRing ConnRingSpec.
From Verif Require Ring RingSpec.

(** A frame with its size in front, as it comes over the network. *)
Definition framed (f : list Z) : list Z := be 4 (zlen f) ++ f.
Definition stream (fs : list (list Z)) : list Z := concat (map framed fs).

Inductive courtesy :=
| Whole        (* what raw.Read returns is one or more whole frames, none larger than the receive buffer *)
| Room         (* it fits into the ring beside the frames not yet seen by the message loop *)
| LoopPauses   (* the message loop does nothing while readLoop is inside WriteN, unless readLoop waits there for room; it may be woken *)
| NetPauses    (* bytes come while the message loop is outside ReadN or waits there *)
| Open.        (* nobody calls Close *)

(** [a] is about to be done in [s]; [before] and [evs] are what was done and seen so far. *)
Definition heeds {R} (c : courtesy) (size cap : Z) (before : list (nlabel R)) (evs : list (event R)) (s : client R) (a : nlabel R) : Prop :=
  match c, a with
  | Whole, LNet bs => exists fs, fs <> [] /\ bs = stream fs /\ Forall (fun f => zlen f <= cap) fs
  | Room, LNet bs => zlen (arrived before ++ bs) - zlen (stream (frames evs)) <= size - 2
  | LoopPauses, LLoop | LoopPauses, LRing Ring.RStep => n_rd s <> RdWrite \/ Ring.w_waiting (Ring.g_w (n_ring s)) = true
  | NetPauses, LNet _ => Ring.g_r (n_ring s) = Ring.RIdle \/ Ring.r_waiting (Ring.g_r (n_ring s)) = true
  | Open, LClose => False
  | _, _ => True
  end.
Definition always {R} (c : courtesy) (raw : rawconn) (size cap : Z) (sched : list (nlabel R)) : Prop :=
  forall before a after s evs, sched = before ++ a :: after -> nrun (Connect raw size cap) before = Some (s, evs) ->
  heeds c size cap before evs s a.

(** The moves of the two goroutines of the connection, raw.Read aside, and how many there are. *)
Definition loop_move {R} (a : nlabel R) : bool := match a with LLoop | LRing _ => true | _ => false end.
Definition loop_moves {R} (sched : list (nlabel R)) : Z := zlen (filter loop_move sched).
(** The bytes that have come and are not part of a frame the message loop has seen. *)
Definition unseen {R} (sched : list (nlabel R)) (evs : list (event R)) : Z := zlen (arrived sched) - zlen (stream (frames evs)).
(** Bytes stop coming, that is, raw.Read returns none without an error. *)
Definition silent {R} (sched : list (nlabel R)) : Prop := Forall (fun a => match a with LNet _ => False | _ => True end) sched.
(** No move of the two goroutines is possible and heeds [cs]. *)
Definition at_rest {R} (cs : list courtesy) (size cap : Z) (sched : list (nlabel R)) (evs : list (event R)) (s : client R) : Prop :=
  forall a, loop_move a = true -> (forall c, In c cs -> heeds c size cap sched evs s a) -> nstep s a = None.
Definition all_courtesies : list courtesy := [Whole; Room; LoopPauses; NetPauses; Open].
