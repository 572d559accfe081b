(** * Vocabulary for data races on a connection

    Two goroutines race on a place if each can access it in its next step and one of
    the accesses is a write.  (The table of requests is not listed: it is only accessed
    under readLock, in single steps of the model; the counter of ids is atomic.) *)
From Verif Require Import GoBase BufIO Decoder Conn ConnSpec.

Inductive goroutine := Caller (k : nat) | Loop.
Inductive place :=
| TheEncoder              (* Conn.encoder and the bufio.Writer below it (lines 164-167) *)
| Response (k : nat)      (* the variable resp of the method that made call k: its DecodeFunc writes it (line 145), the method returns it *)
| ReceiveBuffer.          (* line 111 *)

(** The place the goroutine accesses in its next step, and whether it writes it.
    [shares r]: the response has a field that is a part of the receive buffer (Alias.v),
    which whoever has received the response may read at any time. *)
Definition next_access {R} (shares : R -> bool) (s : conn R) (g : goroutine) : option (place * bool) :=
  match g with
  | Caller k =>
      match nth_error (s_calls s) k with
      | None => None
      | Some c =>
          match k_pc c with
          | PSend _ _ _ _ => Some (TheEncoder, true)
          | PUnlock (Some _) => Some (Response k, false)     (* Do returns, then the method does *)
          | PWait => match k_reply c with Some _ => Some (Response k, false) | None => None end
          | PReturned (Reply (Value r)) => if shares r then Some (ReceiveBuffer, false) else None
          | _ => None
          end
      end
  | Loop =>
      match s_mpc s with
      | MHead | MBody _ => Some (ReceiveBuffer, true)
      | MReply k _ => Some (Response k, true)
      | _ => None
      end
  end.
Definition races {R} (shares : R -> bool) (s : conn R) (g1 g2 : goroutine) (p : place) : Prop :=
  g1 <> g2 /\ exists w1 w2, next_access shares s g1 = Some (p, w1) /\ next_access shares s g2 = Some (p, w2) /\ w1 || w2 = true.
