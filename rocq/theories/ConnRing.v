(** * Model of gen.conn.go: the whole connection

    The machine of Conn.v (callers and message loop) and the machine of Ring.v,
    put together by readLoop and Close.  ReadN of the message loop and WriteN of
    readLoop are calls of the ring; what raw.Read returns is a parameter of the
    steps of readLoop.  readLoop passes its whole 2 MB buffer and n to WriteN; here
    the buffer is cut to the n bytes, as WriteN does not look further.  On a closed
    connection raw.Read returns an error. *)
From Verif Require Import GoBase Encoder Decoder BufIO Conn.
From Verif Require Ring.

(** Where readLoop is: inside raw.Read (gen.conn.go:97), inside WriteN (103), returned (100). *)
Inductive rdpc := RdRead | RdWrite | RdDone.
(** Where a call of Close is: before gen.conn.go:177, 178, 179, 180, 181, returned. *)
Inductive clpc := KCancel | KRing | KRaw | KMessage | KRead | KReturned.

(** [n_dead]: a ring operation has panicked. *)
Record client (R : Type) := mkClient {
  n_conn : conn R; n_ring : Ring.ring; n_rd : rdpc; n_closers : list clpc; n_dead : bool }.
Arguments mkClient {R}. Arguments n_conn {R}. Arguments n_ring {R}. Arguments n_rd {R}. Arguments n_closers {R}. Arguments n_dead {R}.

(** gen.conn.go:69-89; [size] is 5e6, [cap] 2e6 in the library. *)
Definition Connect {R} (raw : rawconn) (size cap : Z) : client R :=
  mkClient (Connected raw cap) (Ring.New size) RdRead [] false.

Inductive nlabel (R : Type) :=
| LDo (enc : Z -> Encoder -> Encoder) (dec : Dec R)   (* some goroutine calls Do *)
| LCall (k : nat)            (* call k moves *)
| LLoop                      (* the message loop moves, outside ReadN *)
| LRing (a : Ring.label)     (* a step inside WriteN or ReadN *)
| LNet (bs : list Z)         (* raw.Read returns these bytes *)
| LNetErr (bs : list Z)      (* raw.Read returns these bytes and an error *)
| LClose                     (* some goroutine calls Close *)
| LCloser (k : nat).         (* call k of Close moves *)
Arguments LDo {R}. Arguments LCall {R}. Arguments LLoop {R}. Arguments LRing {R}. Arguments LNet {R}. Arguments LNetErr {R}.
Arguments LClose {R}. Arguments LCloser {R}.

Definition inside (a : Ring.label) : bool :=
  match a with Ring.WCall _ _ | Ring.RCall _ _ | Ring.CloseCall => false | _ => true end.
Definition bytes_read (evs : list Ring.event) : option (list Z) :=
  match evs with
  | Ring.ERead bs :: _ | [Ring.EWrote; Ring.ERead bs] => Some bs
  | _ => None
  end.
Definition wrote (evs : list Ring.event) : bool := match evs with Ring.EWrote :: _ => true | _ => false end.
Definition ring_crashed (g : Ring.ring) : bool :=
  match Ring.g_r g, Ring.g_w g with Ring.RCrash, _ | _, Ring.WCrash => true | _, _ => false end.

(** The message loop, now at [s_mpc c], calls ReadN if that is what it does there
    (gen.conn.go:124, 130). *)
Definition call_readn {R} (c : conn R) (g : Ring.ring) : option Ring.ring :=
  match s_mpc c with
  | MHead => option_map fst (Ring.step g (Ring.RCall (s_cap c) 4))
  | MBody size => option_map fst (Ring.step g (Ring.RCall (s_cap c) size))
  | _ => Some g
  end.

Definition close_step {R} (s : client R) (k : nat) (p : clpc) : option (client R) :=
  let at_pc c g p' := Some (mkClient c g (n_rd s) (set_nth (n_closers s) k p') (n_dead s)) in
  match p with
  | KCancel => at_pc (set_closed (n_conn s) true) (n_ring s) KRing
  | KRing => match Ring.step (n_ring s) Ring.CloseCall with
             | Some (g, _) => at_pc (n_conn s) g KRaw
             | None => None end
  | KRaw => at_pc (set_rawclosed (n_conn s) true) (n_ring s) KMessage
  | KMessage => match s_mpc (n_conn s) with MDone => at_pc (n_conn s) (n_ring s) KRead | _ => None end
  | KRead => match n_rd s with RdDone => at_pc (n_conn s) (n_ring s) KReturned | _ => None end
  | KReturned => None
  end.

Definition nstep {R} (s : client R) (a : nlabel R) : option (client R * list (event R)) :=
  if n_dead s || s_crashed (n_conn s) then None else
  let conn_step b := match cstep (n_conn s) b with
                     | Some (c, e) => Some (mkClient c (n_ring s) (n_rd s) (n_closers s) (n_dead s), e)
                     | None => None end in
  match a with
  | LDo enc dec => conn_step (DoCall enc dec)
  | LCall k => conn_step (CStep k)
  | LLoop =>
      match cstep (n_conn s) MStep with
      | None => None
      | Some (c, e) => match call_readn c (n_ring s) with
                       | None => None
                       | Some g => Some (mkClient c g (n_rd s) (n_closers s) (n_dead s), e) end
      end
  | LRing b =>
      if inside b then
        match Ring.step (n_ring s) b with
        | None => None
        | Some (g, evs) =>
            let rd := if wrote evs then RdRead else n_rd s in
            match bytes_read evs with
            | None => Some (mkClient (n_conn s) g rd (n_closers s) (ring_crashed g), [])
            | Some bs =>
                match cstep (n_conn s) (MRead bs) with
                | None => None
                | Some (c, e) => match call_readn c g with
                                 | None => None
                                 | Some g' => Some (mkClient c g' rd (n_closers s) (ring_crashed g), e) end
                end
            end
        end
      else None
  | LNet bs =>
      match n_rd s with
      | RdRead => if s_rawclosed (n_conn s) then None else
                  match Ring.step (n_ring s) (Ring.WCall bs (zlen bs)) with
                  | None => None
                  | Some (g, _) => Some (mkClient (n_conn s) g RdWrite (n_closers s) (n_dead s), [])
                  end
      | _ => None
      end
  | LNetErr _ =>
      match n_rd s with
      | RdRead => Some (mkClient (n_conn s) (n_ring s) RdDone (n_closers s) (n_dead s), [])
      | _ => None
      end
  | LClose => Some (mkClient (n_conn s) (n_ring s) (n_rd s) (n_closers s ++ [KCancel]) (n_dead s), [])
  | LCloser k => match nth_error (n_closers s) k with
                 | None => None
                 | Some p => option_map (fun s' => (s', [])) (close_step s k p) end
  end.

Fixpoint nrun {R} (s : client R) (sched : list (nlabel R)) : option (client R * list (event R)) :=
  match sched with
  | [] => Some (s, [])
  | a :: rest =>
      match nstep s a with
      | None => None
      | Some (s1, e1) => match nrun s1 rest with
                         | None => None
                         | Some (s2, e2) => Some (s2, e1 ++ e2)
                         end
      end
  end.
