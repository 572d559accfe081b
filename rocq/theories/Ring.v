(** * Model of ring/buffer.go

    One goroutine calls WriteN, one calls ReadN ("a single reader and a single
    writer", ring/buffer.go:55-56).  The machine below makes one step per
    access to shared memory (atomic load, store, compare-and-swap, access to
    r.data, channel rendezvous); the local computation following an access
    belongs to its step.  Memory is sequentially consistent.  Indexing outside
    a slice leads to the crashed position. *)
From Verif Require Import GoBase.

(** ring/buffer.go:157-163 *)
Definition incr (pos size : Z) : Z :=
  let pos := int32 (pos + 1) in
  if pos =? size then 0 else pos.

(** [s[i] = x]; [None] is a panic. *)
Fixpoint upd {A} (s : list A) (i : nat) (x : A) : option (list A) :=
  match s, i with
  | [], _ => None
  | _ :: s', O => Some (x :: s')
  | y :: s', S i' => option_map (cons y) (upd s' i' x)
  end.
Definition store {A} (s : list A) (i : Z) (x : A) : option (list A) :=
  if 0 <=? i then upd s (Z.to_nat i) x else None.

(** Local variables of WriteN (ring/buffer.go:88-95): parameters, loop counter,
    pos, start, wrote. *)
Record wlocal := mkW { w_data : list Z; w_n : Z; w_i : Z; w_pos : Z; w_start : Z; w_wrote : Z }.

(** Where the writer is.  A position ending in _sel is inside the select of
    Wait or Release. *)
Inductive wpc :=
| WIdle                          (* not in a call *)
| WLoadNext (data : list Z) (n : Z)      (* line 90 *)
| WLoadStart (data : list Z) (n pos : Z) (* line 91 *)
| WLoop (l : wlocal)             (* line 95: i < n? then line 96, else line 115 *)
| WFullStore (l : wlocal)        (* line 102 *)
| WFullRelease (l : wlocal)      (* line 105 *)
| WFullRelease_sel (l : wlocal)
| WFullLoad (l : wlocal)         (* lines 106-109 *)
| WWait (l : wlocal)             (* line 110 *)
| WWait_sel (l : wlocal)
| WEndRelease (l : wlocal)       (* line 120 *)
| WEndRelease_sel (l : wlocal)
| WCrash.                        (* index out of range *)

(** Local variables of ReadN (ring/buffer.go:126-133); [r_cap] is the length of
    the caller's slice, [r_out] its first i bytes. *)
Record rlocal := mkR { r_cap : Z; r_n : Z; r_i : Z; r_pos : Z; r_next : Z; r_read : Z; r_out : list Z }.

Inductive rpc :=
| RIdle
| RLoadStart (cap n : Z)         (* line 128 *)
| RLoadNext (cap n pos : Z)      (* line 129 *)
| RLoop (l : rlocal)             (* line 133: lines 134-135, 146, or 151 *)
| REmptyRelease (l : rlocal)     (* line 137 *)
| REmptyRelease_sel (l : rlocal)
| REmptyLoad (l : rlocal)        (* lines 140-141 *)
| RWait (l : rlocal)             (* line 142 *)
| RWait_sel (l : rlocal)
| RGet (l : rlocal)              (* lines 146-148 *)
| REndRelease (l : rlocal)       (* line 153 *)
| REndRelease_sel (l : rlocal)
| RCrash.

(** ring/buffer.go:57-66; [g_rset], [g_wset] are the [set] fields of readLock and
    writeLock, [g_closed] says whether ctx is done. *)
Record ring := mkRing {
  g_cells : list Z; g_size : Z; g_start : Z; g_next : Z;
  g_rset : bool; g_wset : bool; g_closed : bool;
  g_w : wpc; g_r : rpc }.

(** ring/buffer.go:69-79, for size >= 0 (make panics otherwise) *)
Definition New (size : Z) : ring :=
  mkRing (repeat 0 (Z.to_nat size)) (int32 size) 0 0 false false false WIdle RIdle.

Definition set_w (g : ring) (p : wpc) : ring :=
  mkRing (g_cells g) (g_size g) (g_start g) (g_next g) (g_rset g) (g_wset g) (g_closed g) p (g_r g).
Definition set_r (g : ring) (p : rpc) : ring :=
  mkRing (g_cells g) (g_size g) (g_start g) (g_next g) (g_rset g) (g_wset g) (g_closed g) (g_w g) p.
Definition set_cells (g : ring) (c : list Z) : ring :=
  mkRing c (g_size g) (g_start g) (g_next g) (g_rset g) (g_wset g) (g_closed g) (g_w g) (g_r g).
Definition set_start (g : ring) (x : Z) : ring :=
  mkRing (g_cells g) (g_size g) x (g_next g) (g_rset g) (g_wset g) (g_closed g) (g_w g) (g_r g).
Definition set_next (g : ring) (x : Z) : ring :=
  mkRing (g_cells g) (g_size g) (g_start g) x (g_rset g) (g_wset g) (g_closed g) (g_w g) (g_r g).
Definition set_rset (g : ring) (b : bool) : ring :=
  mkRing (g_cells g) (g_size g) (g_start g) (g_next g) b (g_wset g) (g_closed g) (g_w g) (g_r g).
Definition set_wset (g : ring) (b : bool) : ring :=
  mkRing (g_cells g) (g_size g) (g_start g) (g_next g) (g_rset g) b (g_closed g) (g_w g) (g_r g).

(** What the callers see: WriteN was called with these n bytes, WriteN returned,
    ReadN returned these bytes. *)
Inductive event := EWrite (bs : list Z) | EWrote | ERead (bs : list Z).

(** [i++] at the end of a loop body. *)
Definition w_again (l : wlocal) : wpc :=
  WLoop (mkW (w_data l) (w_n l) (w_i l + 1) (w_pos l) (w_start l) (w_wrote l)).

(** One step of the writer outside a select. *)
Definition w_step (g : ring) : option (ring * list event) :=
  match g_w g with
  | WLoadNext data n => Some (set_w g (WLoadStart data n (g_next g)), [])
  | WLoadStart data n pos => Some (set_w g (WLoop (mkW data n 0 pos (g_start g) 0)), [])
  | WLoop l =>
      if w_i l <? w_n l then
        match index (w_data l) (w_i l) with
        | None => Some (set_w g WCrash, [])
        | Some b =>
            match store (g_cells g) (w_pos l) b with
            | None => Some (set_w g WCrash, [])
            | Some cells =>
                let pos := incr (w_pos l) (g_size g) in
                let l' := mkW (w_data l) (w_n l) (w_i l) pos (w_start l) (w_wrote l) in
                Some (set_w (set_cells g cells)
                        (if incr pos (g_size g) =? w_start l then WFullStore l' else w_again l'), [])
            end
        end
      else
        let g' := set_next g (w_pos l) in
        if w_wrote l + 1 <? w_n l then Some (set_w g' (WEndRelease l), [])
        else Some (set_w g' WIdle, [EWrote])
  | WFullStore l => Some (set_w (set_next g (w_pos l)) (WFullRelease l), [])
  | WFullRelease l =>
      if g_rset g then Some (set_w (set_rset g false) (WFullRelease_sel l), [])
      else Some (set_w g (WFullLoad l), [])
  | WFullLoad l =>
      let l' := mkW (w_data l) (w_n l) (w_i l) (w_pos l) (g_start g) (w_i l) in
      Some (set_w g (if incr (w_pos l) (g_size g) =? g_start g then WWait l' else w_again l'), [])
  | WWait l =>
      if g_wset g then Some (set_w g (w_again l), [])
      else Some (set_w (set_wset g true) (WWait_sel l), [])
  | WEndRelease l =>
      if g_rset g then Some (set_w (set_rset g false) (WEndRelease_sel l), [])
      else Some (set_w g WIdle, [EWrote])
  | WIdle | WFullRelease_sel _ | WWait_sel _ | WEndRelease_sel _ | WCrash => None
  end.

(** Lines 146-148. *)
Definition r_get (g : ring) (l : rlocal) : option (ring * list event) :=
  match index (g_cells g) (r_pos l) with
  | None => Some (set_r g RCrash, [])
  | Some b =>
      if r_i l <? r_cap l then
        Some (set_r g (RLoop (mkR (r_cap l) (r_n l) (r_i l + 1) (incr (r_pos l) (g_size g)) (r_next l)
                               (r_read l + 1) (r_out l ++ [b]))), [])
      else Some (set_r g RCrash, [])
  end.

Definition r_step (g : ring) : option (ring * list event) :=
  match g_r g with
  | RLoadStart cap n => Some (set_r g (RLoadNext cap n (g_start g)), [])
  | RLoadNext cap n pos => Some (set_r g (RLoop (mkR cap n 0 pos (g_next g) 0 [])), [])
  | RLoop l =>
      if r_i l <? r_n l then
        if r_pos l =? r_next l then
          Some (set_r (set_start g (r_pos l)) (if 0 <? r_read l then REmptyRelease l else REmptyLoad l), [])
        else r_get g l
      else
        let g' := set_start g (r_pos l) in
        if 0 <? r_read l then Some (set_r g' (REndRelease l), [])
        else Some (set_r g' RIdle, [ERead (r_out l)])
  | REmptyRelease l =>
      if g_wset g then Some (set_r (set_wset g false) (REmptyRelease_sel l), [])
      else Some (set_r g (REmptyLoad l), [])
  | REmptyLoad l =>
      let l' := mkR (r_cap l) (r_n l) (r_i l) (r_pos l) (g_next g) (r_read l) (r_out l) in
      Some (set_r g (if r_pos l =? g_next g then RWait l' else RGet l'), [])
  | RWait l =>
      if g_rset g then Some (set_r g (RGet l), [])
      else Some (set_r (set_rset g true) (RWait_sel l), [])
  | RGet l => r_get g l
  | REndRelease l =>
      if g_wset g then Some (set_r (set_wset g false) (REndRelease_sel l), [])
      else Some (set_r g RIdle, [ERead (r_out l)])
  | RIdle | REmptyRelease_sel _ | RWait_sel _ | REndRelease_sel _ | RCrash => None
  end.

(** Leaving a select. *)
Definition w_leave (g : ring) : option (ring * list event) :=
  match g_w g with
  | WFullRelease_sel l => Some (set_w g (WFullLoad l), [])
  | WWait_sel l => Some (set_w g (w_again l), [])
  | WEndRelease_sel l => Some (set_w g WIdle, [EWrote])
  | _ => None
  end.
Definition r_leave (g : ring) : option (ring * list event) :=
  match g_r g with
  | REmptyRelease_sel l => Some (set_r g (REmptyLoad l), [])
  | RWait_sel l => Some (set_r g (RGet l), [])
  | REndRelease_sel l => Some (set_r g RIdle, [ERead (r_out l)])
  | _ => None
  end.

Definition w_releasing (p : wpc) : bool :=
  match p with WFullRelease_sel _ | WEndRelease_sel _ => true | _ => false end.
Definition w_waiting (p : wpc) : bool := match p with WWait_sel _ => true | _ => false end.
Definition r_releasing (p : rpc) : bool :=
  match p with REmptyRelease_sel _ | REndRelease_sel _ => true | _ => false end.
Definition r_waiting (p : rpc) : bool := match p with RWait_sel _ => true | _ => false end.

(** What the scheduler and the callers may do. *)
Inductive label :=
| WCall (data : list Z) (n : Z)  (* the writer calls WriteN(data, n) *)
| RCall (cap n : Z)              (* the reader calls ReadN(data, n) with len(data) = cap *)
| WStep | RStep                  (* one step of a call, outside selects *)
| SyncRead                       (* rendezvous on readLock's channel *)
| SyncWrite                      (* rendezvous on writeLock's channel *)
| WDone | RDone                  (* a select takes its ctx.Done branch *)
| CloseCall.                     (* ring/buffer.go:81-84, from any goroutine *)

Definition leave_both (g : ring) : option (ring * list event) :=
  match w_leave g with
  | None => None
  | Some (g1, e1) => match r_leave g1 with None => None | Some (g2, e2) => Some (g2, e1 ++ e2) end
  end.

Definition step (g : ring) (a : label) : option (ring * list event) :=
  match a with
  | WCall data n => match g_w g with
                    | WIdle => Some (set_w g (WLoadNext data n), [EWrite (firstn (Z.to_nat n) data)])
                    | _ => None end
  | RCall cap n => match g_r g with RIdle => Some (set_r g (RLoadStart cap n), []) | _ => None end
  | WStep => w_step g
  | RStep => r_step g
  | SyncRead => if r_waiting (g_r g) && w_releasing (g_w g) then leave_both g else None
  | SyncWrite => if w_waiting (g_w g) && r_releasing (g_r g) then leave_both g else None
  | WDone => if g_closed g then w_leave g else None
  | RDone => if g_closed g then r_leave g else None
  | CloseCall => Some (mkRing (g_cells g) (g_size g) (g_start g) (g_next g) (g_rset g) (g_wset g) true (g_w g) (g_r g), [])
  end.

(** Executing a schedule; [None] when some label of it is not possible. *)
Fixpoint run (g : ring) (sched : list label) : option (ring * list event) :=
  match sched with
  | [] => Some (g, [])
  | a :: rest =>
      match step g a with
      | None => None
      | Some (g1, e1) => match run g1 rest with None => None | Some (g2, e2) => Some (g2, e1 ++ e2) end
      end
  end.
