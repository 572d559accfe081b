(** * Vocabulary: the Writes a request is sent with (C78) *)
From Verif Require Import GoBase Encoder Spec BufIO Conn ConnSpec.
Local Open Scope Z_scope.

(** What the connection accepted of each Write made for call [k]. *)
Definition writes_of {R} (k : nat) (evs : list (event R)) : list (list Z) :=
  flat_map (fun e => match e with ESent j bs => if Nat.eqb j k then [bs] else [] | _ => [] end) evs.

(** A connection whose failing Writes accept nothing. *)
Definition atomic (raw : rawconn) : Prop :=
  forall log data n x, c_write raw log data = Some (n, x) -> n = 0.

(** A connection that accepts its first Write whole and of every further one
    nothing; [direct] is arbitrary. *)
Definition once (direct : list (list Z) -> list Z -> bool) (x : error) : rawconn :=
  mkRaw (fun log _ => match log with [] => None | _ => Some (0, x) end) direct.
