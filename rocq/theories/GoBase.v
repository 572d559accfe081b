(** * Go values used throughout the model.

    Integers are [Z]; the fixed-width conversions of Go are written out as
    explicit wrap-around functions.  A byte is a [Z] in 0..255, a Go string is
    the list of its bytes, a Go slice is an [option (list A)] whose [None] is
    the nil slice.  *)
From Coq Require Export List ZArith Lia Bool.
Export ListNotations.
Open Scope Z_scope.

(** Go conversion [intN(z)] (two's complement truncation), e.g. [int16(len(s))]
    at message/encoder.go:175. *)
Definition wrap (bits : Z) (z : Z) : Z :=
  (z + 2 ^ (bits - 1)) mod 2 ^ bits - 2 ^ (bits - 1).

Definition int8  (z : Z) : Z := wrap 8 z.
Definition int16 (z : Z) : Z := wrap 16 z.
Definition int32 (z : Z) : Z := wrap 32 z.
Definition int64 (z : Z) : Z := wrap 64 z.

(** Go conversion [uintN(z)], e.g. [uint32(i)] at message/encoder.go:104. *)
Definition uint8  (z : Z) : Z := z mod 2 ^ 8.
Definition uint16 (z : Z) : Z := z mod 2 ^ 16.
Definition uint32 (z : Z) : Z := z mod 2 ^ 32.
Definition uint64 (z : Z) : Z := z mod 2 ^ 64.

(** Go typing invariants: the range of each integer type. *)
Definition is_byte  (z : Z) : Prop := 0 <= z < 256.
Definition is_int8  (z : Z) : Prop := - 2 ^ 7 <= z < 2 ^ 7.
Definition is_int16 (z : Z) : Prop := - 2 ^ 15 <= z < 2 ^ 15.
Definition is_int32 (z : Z) : Prop := - 2 ^ 31 <= z < 2 ^ 31.
Definition is_int64 (z : Z) : Prop := - 2 ^ 63 <= z < 2 ^ 63.

(** Go [string]: an immutable sequence of arbitrary bytes. *)
Definition gostring : Type := list Z.

(** Go slice: [None] is nil. *)
Definition gslice (A : Type) : Type := option (list A).

(** The elements of a slice; nil has none (as for Go's [range] and [len]). *)
Definition items {A} (s : gslice A) : list A :=
  match s with Some l => l | None => [] end.

(** Go [len]. *)
Definition zlen {A} (l : list A) : Z := Z.of_nat (length l).
Definition glen {A} (s : gslice A) : Z := zlen (items s).

(** Errors that matter to the model: [io.ErrShortBuffer], [errVarIntOverflow]
    (message/decoder.go:26-29), and any other error value, told apart by a
    number (errors coming from a connection). *)
Inductive error : Type :=
| ErrShortBuffer
| ErrVarIntOverflow
| ErrOther (tag : Z).

(** message/decoder.go:31-35 IsInsufficientDataError. *)
Definition IsInsufficientDataError (e : error) : bool :=
  match e with ErrShortBuffer => true | _ => false end.

(** Go slice expression [s[a:b]] with len = cap: [None] is a run-time panic
    (slice bounds out of range). *)
Definition slice {A} (s : list A) (a b : Z) : option (list A) :=
  if (0 <=? a) && (a <=? b) && (b <=? zlen s)
  then Some (firstn (Z.to_nat (b - a)) (skipn (Z.to_nat a) s))
  else None.

(** Go slice expression [s[a:]]. *)
Definition slice_from {A} (s : list A) (a : Z) : option (list A) :=
  slice s a (zlen s).

(** Go index expression [s[i]]: [None] is a panic (index out of range). *)
Definition index {A} (s : list A) (i : Z) : option A :=
  if 0 <=? i then nth_error s (Z.to_nat i) else None.
