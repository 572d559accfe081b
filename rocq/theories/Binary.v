(** * Model of Go's [encoding/binary] as used by the repository (Go 1.13 source;
    go.mod:3 says "go 1.13"). *)
From Verif Require Import GoBase.

(** binary.BigEndian.PutUint16/32/64: used at message/encoder.go:94, 104, 132.
    Go: [b[0] = byte(v >> 8); b[1] = byte(v)] and so on. *)
Definition put_uint16 (v : Z) : list Z :=
  [uint8 (Z.shiftr v 8); uint8 v].
Definition put_uint32 (v : Z) : list Z :=
  [uint8 (Z.shiftr v 24); uint8 (Z.shiftr v 16); uint8 (Z.shiftr v 8); uint8 v].
Definition put_uint64 (v : Z) : list Z :=
  [uint8 (Z.shiftr v 56); uint8 (Z.shiftr v 48); uint8 (Z.shiftr v 40); uint8 (Z.shiftr v 32);
   uint8 (Z.shiftr v 24); uint8 (Z.shiftr v 16); uint8 (Z.shiftr v 8); uint8 v].

(** binary.BigEndian.Uint16/32/64: used at message/decoder.go:130, 140, 173.
    [None]: fewer bytes than needed, Go panics (index out of range). *)
Definition get_uint16 (b : list Z) : option Z :=
  match b with
  | b0 :: b1 :: _ => Some (Z.lor b1 (Z.shiftl b0 8))
  | _ => None
  end.
Definition get_uint32 (b : list Z) : option Z :=
  match b with
  | b0 :: b1 :: b2 :: b3 :: _ =>
      Some (Z.lor (Z.lor (Z.lor b3 (Z.shiftl b2 8)) (Z.shiftl b1 16)) (Z.shiftl b0 24))
  | _ => None
  end.
Definition get_uint64 (b : list Z) : option Z :=
  match b with
  | b0 :: b1 :: b2 :: b3 :: b4 :: b5 :: b6 :: b7 :: _ =>
      Some (Z.lor (Z.lor (Z.lor (Z.lor (Z.lor (Z.lor (Z.lor
              b7 (Z.shiftl b6 8)) (Z.shiftl b5 16)) (Z.shiftl b4 24)) (Z.shiftl b3 32))
              (Z.shiftl b2 40)) (Z.shiftl b1 48)) (Z.shiftl b0 56))
  | _ => None
  end.

(** binary.PutUvarint(buf, x): [for x >= 0x80 { buf[i] = byte(x)|0x80; x >>= 7; i++ };
    buf[i] = byte(x); return i+1].  [room] is what is left of [buf]; running
    out of it is Go's index-out-of-range panic, [None]. *)
Fixpoint put_uvarint (room : nat) (x : Z) : option (list Z) :=
  match room with
  | O => None
  | S room' =>
      if 128 <=? x
      then match put_uvarint room' (Z.shiftr x 7) with
           | Some rest => Some (Z.lor (uint8 x) 128 :: rest)
           | None => None
           end
      else Some [uint8 x]
  end.

(** binary.PutVarint(buf, x): [ux := uint64(x) << 1; if x < 0 { ux = ^ux }]. *)
Definition zigzag (x : Z) : Z :=
  let ux := uint64 (Z.shiftl (uint64 x) 1) in
  if x <? 0 then uint64 (Z.lnot ux) else ux.

(** The scratch buffer is 16 bytes both in the encoder (message/encoder.go:31)
    and in sizeof (message/sizeof/sizeof.go:68). *)
Definition put_varint (x : Z) : option (list Z) := put_uvarint 16 (zigzag x).

(** binary.Uvarint(buf) of Go 1.13:
    [for i, b := range buf { if b < 0x80 { if i > 9 || i == 9 && b > 1 { return 0, -(i+1) };
     return x | uint64(b)<<s, i+1 }; x |= uint64(b&0x7f) << s; s += 7 }; return 0, 0]. *)
Fixpoint uvarint_loop (buf : list Z) (i x s : Z) : Z * Z :=
  match buf with
  | [] => (0, 0)
  | b :: rest =>
      if b <? 128
      then if (9 <? i) || ((i =? 9) && (1 <? b))
           then (0, - (i + 1))
           else (Z.lor x (uint64 (Z.shiftl b s)), i + 1)
      else uvarint_loop rest (i + 1) (Z.lor x (uint64 (Z.shiftl (Z.land b 127) s))) (s + 7)
  end.
Definition uvarint (buf : list Z) : Z * Z := uvarint_loop buf 0 0 0.

(** binary.Varint(buf): [x := int64(ux >> 1); if ux&1 != 0 { x = ^x }]. *)
Definition unzigzag (ux : Z) : Z :=
  let x := int64 (Z.shiftr ux 1) in
  if negb (Z.land ux 1 =? 0) then Z.lnot x else x.
Definition varint (buf : list Z) : Z * Z :=
  let '(ux, n) := uvarint buf in (unzigzag ux, n).
