(** * Vocabulary for comparing connections of different sizes *)
From Verif Require Import GoBase Decoder Conn ConnSpec ConnRing ConnRingSpec.
From Verif Require Import Ring.

(** The positions of the ring stay short of its end, and ReadN stores into the receive
    buffer. *)
Definition w_short (size : Z) (p : wpc) : bool :=
  match p with
  | WLoop l | WFullLoad l => (0 <=? w_pos l) && (w_pos l + 2 <? size)
  | _ => true
  end.
Definition r_short (size : Z) (p : rpc) : bool :=
  match p with
  | RLoop l => (0 <=? r_pos l) && (r_pos l + 1 <? size) && (negb (r_i l <? r_n l) || (r_i l <? r_cap l))
  | RGet l => (0 <=? r_pos l) && (r_pos l + 1 <? size) && (r_i l <? r_cap l)
  | _ => true
  end.
Definition short (g : ring) : bool := w_short (g_size g) (g_w g) && r_short (g_size g) (g_r g).
(** Every step of the schedule starts in such a state. *)
Definition never_wraps {R} (raw : BufIO.rawconn) (size cap : Z) (sched : list (nlabel R)) : Prop :=
  all_nsteps (fun s _ => short (n_ring s) = true) (Connect raw size cap) sched.

(** The reader has not passed the writer, nor the writer the end. *)
Definition in_order (g : ring) : bool := (0 <=? g_start g) && (g_start g <=? g_next g) && (g_next g <? g_size g).

(** The same state in a ring of [size] and with a receive buffer of [cap] bytes: [cells] and
    [bytes] are the contents of what is added. *)
Definition larger_l (cap : Z) (l : rlocal) : rlocal := mkR cap (r_n l) (r_i l) (r_pos l) (r_next l) (r_read l) (r_out l).
Definition larger_r (cap : Z) (p : rpc) : rpc :=
  match p with
  | RIdle => RIdle | RCrash => RCrash
  | RLoadStart _ n => RLoadStart cap n
  | RLoadNext _ n pos => RLoadNext cap n pos
  | RLoop l => RLoop (larger_l cap l)
  | REmptyRelease l => REmptyRelease (larger_l cap l)
  | REmptyRelease_sel l => REmptyRelease_sel (larger_l cap l)
  | REmptyLoad l => REmptyLoad (larger_l cap l)
  | RWait l => RWait (larger_l cap l)
  | RWait_sel l => RWait_sel (larger_l cap l)
  | RGet l => RGet (larger_l cap l)
  | REndRelease l => REndRelease (larger_l cap l)
  | REndRelease_sel l => REndRelease_sel (larger_l cap l)
  end.
Definition larger_ring (size cap : Z) (cells : list Z) (g : ring) : ring :=
  mkRing (g_cells g ++ cells) size (g_start g) (g_next g) (g_rset g) (g_wset g) (g_closed g) (g_w g) (larger_r cap (g_r g)).
Definition larger_d (bytes : list Z) (d : Decoder) : Decoder := mkDecoder (d_raw d ++ bytes) (d_length d) (d_offset d).
Definition larger_m (bytes : list Z) (m : mpc) : mpc :=
  match m with
  | MLookup id d => MLookup id (larger_d bytes d)
  | MReply k d => MReply k (larger_d bytes d)
  | _ => m
  end.
Definition larger_conn {R} (cap : Z) (bytes : list Z) (s : conn R) : conn R :=
  mkConn (s_raw s) cap (s_id s) (s_calls s) (s_requests s) (s_lock s) (s_encerr s) (s_buf s) (s_closed s) (s_rawclosed s)
    (larger_m bytes (s_mpc s)) (s_rbuf s ++ bytes) (s_crashed s).
Definition larger_client {R} (size cap : Z) (cells bytes : list Z) (s : client R) : client R :=
  mkClient (larger_conn cap bytes (n_conn s)) (larger_ring size cap cells (n_ring s)) (n_rd s) (n_closers s) (n_dead s).
Definition larger_event {R} (bytes : list Z) (e : Conn.event R) : Conn.event R :=
  match e with EFrame raw size => EFrame (raw ++ bytes) size | _ => e end.
