(** * Specification vocabulary.

    Nothing in this file refers to how the encoder or decoder methods compute;
    it says what "the bytes an encoding action emits", "the unread part of a
    decoder" and "a decoding action reads these bytes as this value" mean, and
    gives the protocol representation of the primitive values. *)
From Verif Require Import GoBase Encoder Decoder.

(** ** Wire representation of primitive values *)

(** Big-endian two's complement on [n] bytes, most significant first. *)
Fixpoint be (n : nat) (z : Z) : list Z :=
  match n with
  | O => []
  | S k => (z / 256 ^ Z.of_nat k) mod 256 :: be k z
  end.

Definition w_bool (b : bool) : list Z := [if b then 1 else 0].
(** string: int16 length, then the bytes *)
Definition w_string (s : gostring) : list Z := be 2 (zlen s) ++ s.
(** byte array: int32 length, then the bytes; nil is written like empty *)
Definition w_bytes (s : gslice Z) : list Z := be 4 (glen s) ++ items s.
(** array: int32 count, then the elements; nil is written like empty *)
Definition w_array {A} (w : A -> list Z) (xs : gslice A) : list Z :=
  be 4 (glen xs) ++ flat_map w (items xs).
(** nullable array: a nil array is the count -1 *)
Definition w_nullable_array {A} (w : A -> list Z) (xs : gslice A) : list Z :=
  match xs with None => be 4 (-1) | Some _ => w_array w xs end.

(** Zig-zag: 0, -1, 1, -2, 2, ... are numbered 0, 1, 2, 3, 4, ... *)
Definition zz (z : Z) : Z := if z <? 0 then -2 * z - 1 else 2 * z.
(** Base-128, least significant group first, high bit set on all but the last
    group, on exactly [n] groups. *)
Fixpoint base128 (n : nat) (x : Z) : list Z :=
  match n with
  | O => []
  | S O => [x mod 128]
  | S k => (x mod 128 + 128) :: base128 k (x / 128)
  end.
(** [bs] is the shortest base-128 representation of the number [x]. *)
Definition is_base128 (x : Z) (bs : list Z) : Prop :=
  exists n : nat, (1 <= n)%nat /\ bs = base128 n x /\ 0 <= x < 128 ^ Z.of_nat n /\
    ((1 < n)%nat -> 128 ^ (Z.of_nat n - 1) <= x).

(** The number denoted by a base-128 sequence, and the inverse of zig-zag. *)
Fixpoint value128 (bs : list Z) : Z :=
  match bs with [] => 0 | b :: rest => b mod 128 + 128 * value128 rest end.
Definition unzz (x : Z) : Z := if Z.even x then x / 2 else - ((x + 1) / 2).
(** A byte with the continuation bit; a base-128 sequence is a run [a] of such
    bytes and one last byte [b] without it. *)
Definition continues (b : Z) : Prop := 128 <= b.
(** The sequence [a ++ [b]] does not fit 64 bits: more than ten groups, or ten
    with a last group above 1. *)
Definition overlong (a : list Z) (b : Z) : Prop := 9 < zlen a \/ (zlen a = 9 /\ 1 < b).

(** ** Unicode *)

Definition is_scalar (r : Z) : Prop := 0 <= r <= 55295 \/ 57344 <= r <= 1114111.
(** The UTF-8 encoding form (Unicode standard, table 3-6). *)
Definition utf8 (r : Z) : list Z :=
  if r <? 128 then [r]
  else if r <? 2048 then [192 + r / 64; 128 + r mod 64]
  else if r <? 65536 then [224 + r / 4096; 128 + r / 64 mod 64; 128 + r mod 64]
  else [240 + r / 262144; 128 + r / 4096 mod 64; 128 + r / 64 mod 64; 128 + r mod 64].
Definition valid_utf8 (s : list Z) : Prop :=
  exists rs, Forall is_scalar rs /\ s = flat_map utf8 rs.

(** ** What an encoding action emits *)

(** An encoder that has not failed, over a writer that never fails. *)
Definition reliable (e : Encoder) : Prop :=
  e_err e = None /\ forall log data, t_write (e_target e) log data = None.
(** Everything handed to the writer so far. *)
Definition output (e : Encoder) : list Z := concat (t_log (e_target e)).
(** [act] appends exactly [bs] to the output, whatever was written before. *)
Definition Emits (act : Encoder -> Encoder) (bs : list Z) : Prop :=
  forall e, reliable e -> reliable (act e) /\ output (act e) = output e ++ bs.

(** ** What a decoding action reads *)

(** The decoder's position and length lie inside its buffer. *)
Definition dec_ok (d : Decoder) : Prop :=
  0 <= d_offset d <= d_length d /\ d_length d <= zlen (d_raw d).
(** The unread bytes of the current frame. *)
Definition frame (d : Decoder) : list Z :=
  firstn (Z.to_nat (d_length d - d_offset d)) (skipn (Z.to_nat (d_offset d)) (d_raw d)).
(** Whatever follows, [m] reads [bs] as [a] and stops right after [bs]. *)
Definition Decodes {A} (m : Dec A) (bs : list Z) (a : A) : Prop :=
  forall d rest, dec_ok d -> frame d = bs ++ rest ->
    m d = DOk a (advance (zlen bs) d).
(** On every proper prefix of [bs], [m] reports insufficient data. *)
Definition Starves {A} (m : Dec A) (bs : list Z) : Prop :=
  forall d k, dec_ok d -> (k < length bs)%nat -> frame d = firstn k bs ->
    exists d', m d = DErr ErrShortBuffer d'.
(** Two outcomes that a caller who only looks at the frame cannot tell apart. *)
Definition same_outcome {A} (r1 r2 : dres A) : Prop :=
  match r1, r2 with
  | DOk a1 d1, DOk a2 d2 => a1 = a2 /\ dec_ok d1 /\ dec_ok d2 /\ frame d1 = frame d2
  | DErr e1 _, DErr e2 _ => e1 = e2
  | DPanic, DPanic => True
  | _, _ => False
  end.
(** [m] looks at nothing but the frame. *)
Definition Local {A} (m : Dec A) : Prop :=
  forall d1 d2, dec_ok d1 -> dec_ok d2 -> frame d1 = frame d2 -> same_outcome (m d1) (m d2).
(** [m] never consumes more than the frame, never moves backwards, fails only
    with insufficient data; panics are allowed. *)
Definition Bounded {A} (m : Dec A) : Prop :=
  forall d, dec_ok d ->
    match m d with
    | DOk _ d' => exists n, 0 <= n <= zlen (frame d) /\ d' = advance n d
    | DErr e d' => e = ErrShortBuffer /\ exists n, 0 <= n <= zlen (frame d) /\ d' = advance n d
    | DPanic => True
    end.
(** [m] does not panic on a sane decoder. *)
Definition NoPanic {A} (m : Dec A) : Prop := forall d, dec_ok d -> m d <> DPanic.
