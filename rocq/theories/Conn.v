(** * Model of gen.conn.go: callers of Do and the message loop

    Any number of goroutines call Do; one goroutine runs messageLoop.  A step
    is one access to state shared between goroutines; the locked sections of
    readLock (gen.conn.go:160-162, 139-142) are single steps; the section of
    writeLock (164-167) takes one step for the lock, one for each Write made on
    the connection, one to finish and one to unlock, so that the broker may act
    in between.

    The bytes ReadN stores into the receive buffer are a parameter of the step
    [MRead], so that the machine covers every behaviour of the network and of
    the ring buffer; ConnRing.v connects it to the ring buffer. *)
From Verif Require Import GoBase Encoder Decoder BufIO Msg01.

(** What a DecodeFunc returns: [R] stands for the response variable it fills. *)
Inductive reply (R : Type) := Value (r : R) | Failure (x : error).
Arguments Value {R}. Arguments Failure {R}.
(** What Do returns: an error of line 170 or a reply of line 173. *)
Inductive result (R : Type) := WriteError (x : error) | Reply (r : reply R).
Arguments WriteError {R}. Arguments Reply {R}.

(** Where a call of Do is. *)
Inductive pc (R : Type) :=
| PId                              (* line 154 *)
| PRegister                        (* lines 160-162 *)
| PLock                            (* line 164 *)
| PSend (pieces : list (list Z)) (err : option error) (b : bufio) (fl : option error)
    (* lines 165-166: Writes on the connection still to come (the bytes it will accept), and the outcome *)
| PUnlock (fl : option error)      (* lines 167-171 *)
| PWait                            (* line 173 *)
| PReturned (r : result R).
Arguments PId {R}. Arguments PRegister {R}. Arguments PLock {R}. Arguments PSend {R}.
Arguments PUnlock {R}. Arguments PWait {R}. Arguments PReturned {R}.

(** A call of Do (gen.conn.go:153-158): its arguments, correlationID (0 before line
    154), position, and the content of its reply channel. *)
Record docall (R : Type) := mkCall {
  k_enc : Z -> Encoder -> Encoder; k_dec : Dec R;
  k_id : Z; k_pc : pc R; k_reply : option (reply R) }.
Arguments mkCall {R}. Arguments k_enc {R}. Arguments k_dec {R}. Arguments k_id {R}. Arguments k_pc {R}. Arguments k_reply {R}.

(** Where the message loop is. *)
Inductive mpc :=
| MTop                             (* lines 116-121 *)
| MHead                            (* line 124, inside ReadN(buffer, 4) *)
| MBody (size : Z)                 (* line 130, inside ReadN(buffer, size) *)
| MLookup (id : Z) (d : Decoder)   (* lines 139-142 *)
| MReply (k : nat) (d : Decoder)   (* line 145 *)
| MDone.                           (* returned *)

(** gen.conn.go:32-46.  A request of the map is the call it belongs to.
    [s_cap] is the size of the receive buffer (2e6, line 111), [s_rbuf] its
    contents, [s_lock] the call holding writeLock, [s_closed] whether ctx is
    cancelled, [s_crashed] whether the process has panicked. *)
Record conn (R : Type) := mkConn {
  s_raw : rawconn; s_cap : Z;
  s_id : Z; s_calls : list (docall R); s_requests : Z -> option nat;
  s_lock : option nat; s_encerr : option error; s_buf : bufio;
  s_closed : bool; s_rawclosed : bool;
  s_mpc : mpc; s_rbuf : list Z; s_crashed : bool }.
Arguments mkConn {R}. Arguments s_raw {R}. Arguments s_cap {R}. Arguments s_id {R}. Arguments s_calls {R}.
Arguments s_requests {R}. Arguments s_lock {R}. Arguments s_encerr {R}. Arguments s_buf {R}. Arguments s_closed {R}.
Arguments s_rawclosed {R}. Arguments s_mpc {R}. Arguments s_rbuf {R}. Arguments s_crashed {R}.

(** gen.conn.go:69-87, 110-113 *)
Definition Connected {R} (raw : rawconn) (cap : Z) : conn R :=
  mkConn raw cap 0 [] (fun _ => None) None None NewWriter false false MTop (repeat 0 (Z.to_nat cap)) false.

Definition set_id {R} (s : conn R) x : conn R := mkConn (s_raw s) (s_cap s) x (s_calls s) (s_requests s) (s_lock s) (s_encerr s) (s_buf s) (s_closed s) (s_rawclosed s) (s_mpc s) (s_rbuf s) (s_crashed s).
Definition set_calls {R} (s : conn R) x : conn R := mkConn (s_raw s) (s_cap s) (s_id s) x (s_requests s) (s_lock s) (s_encerr s) (s_buf s) (s_closed s) (s_rawclosed s) (s_mpc s) (s_rbuf s) (s_crashed s).
Definition set_requests {R} (s : conn R) x : conn R := mkConn (s_raw s) (s_cap s) (s_id s) (s_calls s) x (s_lock s) (s_encerr s) (s_buf s) (s_closed s) (s_rawclosed s) (s_mpc s) (s_rbuf s) (s_crashed s).
Definition set_lock {R} (s : conn R) x : conn R := mkConn (s_raw s) (s_cap s) (s_id s) (s_calls s) (s_requests s) x (s_encerr s) (s_buf s) (s_closed s) (s_rawclosed s) (s_mpc s) (s_rbuf s) (s_crashed s).
Definition set_encoder {R} (s : conn R) x y : conn R := mkConn (s_raw s) (s_cap s) (s_id s) (s_calls s) (s_requests s) (s_lock s) x y (s_closed s) (s_rawclosed s) (s_mpc s) (s_rbuf s) (s_crashed s).
Definition set_closed {R} (s : conn R) x : conn R := mkConn (s_raw s) (s_cap s) (s_id s) (s_calls s) (s_requests s) (s_lock s) (s_encerr s) (s_buf s) x (s_rawclosed s) (s_mpc s) (s_rbuf s) (s_crashed s).
Definition set_rawclosed {R} (s : conn R) x : conn R := mkConn (s_raw s) (s_cap s) (s_id s) (s_calls s) (s_requests s) (s_lock s) (s_encerr s) (s_buf s) (s_closed s) x (s_mpc s) (s_rbuf s) (s_crashed s).
Definition set_mpc {R} (s : conn R) x : conn R := mkConn (s_raw s) (s_cap s) (s_id s) (s_calls s) (s_requests s) (s_lock s) (s_encerr s) (s_buf s) (s_closed s) (s_rawclosed s) x (s_rbuf s) (s_crashed s).
Definition set_rbuf {R} (s : conn R) x : conn R := mkConn (s_raw s) (s_cap s) (s_id s) (s_calls s) (s_requests s) (s_lock s) (s_encerr s) (s_buf s) (s_closed s) (s_rawclosed s) (s_mpc s) x (s_crashed s).
Definition crash {R} (s : conn R) : conn R := mkConn (s_raw s) (s_cap s) (s_id s) (s_calls s) (s_requests s) (s_lock s) (s_encerr s) (s_buf s) (s_closed s) (s_rawclosed s) (s_mpc s) (s_rbuf s) true.

(** [m[i] = k] and [delete(m, i)] *)
Definition map_set (m : Z -> option nat) (i : Z) (v : option nat) : Z -> option nat :=
  fun j => if j =? i then v else m j.

(** Replace call number [k]. *)
Fixpoint set_nth {A} (l : list A) (k : nat) (x : A) : list A :=
  match l, k with
  | [], _ => []
  | _ :: l', O => x :: l'
  | y :: l', S k' => y :: set_nth l' k' x
  end.
Definition put_call {R} (s : conn R) (k : nat) (c : docall R) : conn R := set_calls s (set_nth (s_calls s) k c).
Definition at_pc {R} (c : docall R) (p : pc R) : docall R := mkCall (k_enc c) (k_dec c) (k_id c) p (k_reply c).

(** A Write on a closed connection fails ([net.ErrClosed], here number 0). *)
Definition closed_raw (c : rawconn) : rawconn := mkRaw (fun _ _ => Some (0, ErrOther 0)) (c_direct c).
Definition raw_now {R} (s : conn R) : rawconn := if s_rawclosed s then closed_raw (s_raw s) else s_raw s.

(** What an observer sees.  [EFrame raw size]: a frame has been read; [raw] is the
    receive buffer, of which the first [size] bytes are the frame. *)
Inductive event (R : Type) :=
| ECall (k : nat) | EId (k : nat) (id : Z) | ERegister (k : nat) | ELock (k : nat)
| ESent (k : nat) (bs : list Z) | EFlushed (k : nat) (fl : option error)
| EReturn (k : nat) (r : result R)
| EFrame (raw : list Z) (size : Z) | EDropped (id : Z) | EReply (k : nat) (r : reply R).
Arguments ECall {R}. Arguments EId {R}. Arguments ERegister {R}. Arguments ELock {R}. Arguments ESent {R}.
Arguments EFlushed {R}. Arguments EReturn {R}. Arguments EFrame {R}. Arguments EDropped {R}. Arguments EReply {R}.

(** One step of call [k]. *)
Definition call_step {R} (s : conn R) (k : nat) (c : docall R) : option (conn R * list (event R)) :=
  match k_pc c with
  | PId =>
      let id := int32 (s_id s + 1) in
      Some (put_call (set_id s id) k (mkCall (k_enc c) (k_dec c) id PRegister (k_reply c)), [EId k id])
  | PRegister =>
      Some (put_call (set_requests s (map_set (s_requests s) (k_id c) (Some k))) k (at_pc c PLock), [ERegister k])
  | PLock =>
      match s_lock s with
      | Some _ => None
      | None =>
          let '(err, b, fl) := transmit (raw_now s) (k_enc c (k_id c)) (s_encerr s) (s_buf s) in
          let pieces := skipn (length (b_sent (s_buf s))) (b_sent b) in
          Some (put_call (set_lock s (Some k)) k (at_pc c (PSend pieces err b fl)), [ELock k])
      end
  | PSend (p :: pieces) err b fl => Some (put_call s k (at_pc c (PSend pieces err b fl)), [ESent k p])
  | PSend [] err b fl => Some (put_call (set_encoder s err b) k (at_pc c (PUnlock fl)), [EFlushed k fl])
  | PUnlock (Some x) => Some (put_call (set_lock s None) k (at_pc c (PReturned (WriteError x))), [EReturn k (WriteError x)])
  | PUnlock None => Some (put_call (set_lock s None) k (at_pc c PWait), [])
  | PWait =>
      match k_reply c with
      | Some r => Some (put_call s k (mkCall (k_enc c) (k_dec c) (k_id c) (PReturned (Reply r)) None), [EReturn k (Reply r)])
      | None => None
      end
  | PReturned _ => None
  end.

(** One step of the message loop outside ReadN. *)
Definition loop_step {R} (s : conn R) : option (conn R * list (event R)) :=
  match s_mpc s with
  | MTop => Some (set_mpc s (if s_closed s then MDone else MHead), [])
  | MLookup id d =>
      let s' := set_requests s (map_set (s_requests s) id None) in
      match s_requests s id with
      | Some k => Some (set_mpc s' (MReply k d), [])
      | None => Some (set_mpc s' MTop, [EDropped id])
      end
  | MReply k d =>
      match nth_error (s_calls s) k with
      | None => None
      | Some c =>
          let send r := match k_reply c with
                        | Some _ => None      (* the channel is full *)
                        | None => Some (put_call (set_mpc s MTop) k (mkCall (k_enc c) (k_dec c) (k_id c) (k_pc c) (Some r)), [EReply k r])
                        end in
          match k_dec c d with
          | DOk r _ => send (Value r)
          | DErr x _ => send (Failure x)
          | DPanic => Some (crash s, [])
          end
      end
  | _ => None
  end.

(** ReadN(buffer, n) has stored [bs] at the start of the buffer. *)
Definition overwrite (buf bs : list Z) : list Z := bs ++ skipn (length bs) buf.
Definition loop_read {R} (s : conn R) (bs : list Z) : option (conn R * list (event R)) :=
  match s_mpc s with
  | MHead =>
      if zlen bs =? 4 then
        let raw := overwrite (s_rbuf s) bs in
        match dInt32 (Reset 4 (mkDecoder raw 0 0)) with
        | DOk v _ => Some (set_mpc (set_rbuf s raw) (MBody v), [])
        | DErr _ _ => Some (set_mpc (set_rbuf s raw) (MBody 0), [])
        | DPanic => Some (crash s, [])
        end
      else None
  | MBody size =>
      if (zlen bs =? Z.max 0 size) && (size <=? s_cap s) then
        let raw := overwrite (s_rbuf s) bs in
        match ResponseHeader_Decode 1 ResponseHeader_zero (Reset size (mkDecoder raw 0 0)) with
        | DOk resp d => Some (set_mpc (set_rbuf s raw) (MLookup (ResponseHeader_CorrelationId resp) d), [EFrame raw size])
        | DErr _ _ => Some (set_mpc (set_rbuf s raw) MTop, [EFrame raw size])
        | DPanic => Some (crash s, [])
        end
      else None
  | _ => None
  end.

Inductive clabel (R : Type) :=
| DoCall (enc : Z -> Encoder -> Encoder) (dec : Dec R)   (* some goroutine calls Do *)
| CStep (k : nat)          (* call k moves *)
| MStep                    (* the message loop moves *)
| MRead (bs : list Z)      (* ReadN returns in the message loop *)
| MReadPanic               (* ReadN indexes beyond the receive buffer *)
| Cancel                   (* gen.conn.go:177 *)
| RawClose.                (* gen.conn.go:179 *)
Arguments DoCall {R}. Arguments CStep {R}. Arguments MStep {R}. Arguments MRead {R}. Arguments MReadPanic {R}.
Arguments Cancel {R}. Arguments RawClose {R}.

Definition cstep {R} (s : conn R) (a : clabel R) : option (conn R * list (event R)) :=
  if s_crashed s then None else
  match a with
  | DoCall enc dec =>
      Some (set_calls s (s_calls s ++ [mkCall enc dec 0 PId None]), [ECall (length (s_calls s))])
  | CStep k => match nth_error (s_calls s) k with Some c => call_step s k c | None => None end
  | MStep => loop_step s
  | MRead bs => loop_read s bs
  | MReadPanic => match s_mpc s with
                  | MBody size => if s_cap s <? size then Some (crash s, []) else None
                  | _ => None end
  | Cancel => Some (set_closed s true, [])
  | RawClose => Some (set_rawclosed s true, [])
  end.

Fixpoint crun {R} (s : conn R) (sched : list (clabel R)) : option (conn R * list (event R)) :=
  match sched with
  | [] => Some (s, [])
  | a :: rest =>
      match cstep s a with
      | None => None
      | Some (s1, e1) => match crun s1 rest with
                         | None => None
                         | Some (s2, e2) => Some (s2, e1 ++ e2)
                         end
      end
  end.
