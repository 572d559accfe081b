(** * Model of message/decoder.go *)
From Verif Require Import GoBase Binary Utf8.

(** message/decoder.go:37-42.  [raw] is a slice with len = cap (as the one made
    at gen.conn.go:108). *)
Record Decoder := mkDecoder { d_raw : list Z; d_length : Z; d_offset : Z }.

(** message/decoder.go:44-50 *)
Definition NewDecoder (raw : list Z) (len : Z) : Decoder :=
  {| d_raw := raw; d_length := len; d_offset := 0 |}.

(** message/decoder.go:52-57 *)
Definition Reset (len : Z) (d : Decoder) : Decoder :=
  {| d_raw := d_raw d; d_length := len; d_offset := 0 |}.

(** Outcome of a decoding method: a value, an error, or a run-time panic. *)
Inductive dres (A : Type) : Type :=
| DOk (a : A) (d : Decoder)
| DErr (e : error) (d : Decoder)
| DPanic.
Arguments DOk {A}. Arguments DErr {A}. Arguments DPanic {A}.

Definition Dec (A : Type) : Type := Decoder -> dres A.

Definition ret {A} (a : A) : Dec A := fun d => DOk a d.

(** [x, err := m; if err != nil { return err }; f(x)] *)
Definition bind {A B} (m : Dec A) (f : A -> Dec B) : Dec B := fun d =>
  match m d with
  | DOk a d' => f a d'
  | DErr e d' => DErr e d'
  | DPanic => DPanic
  end.
Notation "x <- m ;; f" := (bind m (fun x => f))
  (at level 61, m at next level, right associativity).

(** [d.offset += n] *)
Definition advance (n : Z) (d : Decoder) : Decoder :=
  {| d_raw := d_raw d; d_length := d_length d; d_offset := d_offset d + n |}.

(** message/decoder.go:59-65: [true] when the buffer still has n bytes. *)
Definition remains (n : Z) (d : Decoder) : bool :=
  negb (d_length d - d_offset d <? n).

(** The shape common to all fixed-width reads: check, read at the offset, advance. *)
Definition fixed {A} (n : Z) (get : list Z -> option A) : Dec A := fun d =>
  if remains n d then
    match slice_from (d_raw d) (d_offset d) with
    | Some b => match get b with
                | Some v => DOk v (advance n d)
                | None => DPanic
                end
    | None => DPanic
    end
  else DErr ErrShortBuffer d.

(** message/decoder.go:76-84.  [d.raw[d.offset]] is read as the head of
    [d.raw[d.offset:]] (same panics). *)
Definition dBool : Dec bool := fixed 1 (fun b => match b with x :: _ => Some (x =? 1) | [] => None end).

(** message/decoder.go:115-123 *)
Definition dInt8 : Dec Z := fixed 1 (fun b => match b with x :: _ => Some (int8 x) | [] => None end).

(** message/decoder.go:125-133 *)
Definition dInt16 : Dec Z := fixed 2 (fun b => option_map int16 (get_uint16 b)).

(** message/decoder.go:135-143 *)
Definition dInt32 : Dec Z := fixed 4 (fun b => option_map int32 (get_uint32 b)).

(** message/decoder.go:168-176 *)
Definition dInt64 : Dec Z := fixed 8 (fun b => option_map int64 (get_uint64 b)).

(** message/decoder.go:67-74 *)
Definition dArrayLength : Dec Z := dInt32.

(** message/decoder.go:104-113 *)
Definition dDiscard (n : Z) : Dec unit := fun d =>
  if remains n d then DOk tt (advance n d) else DErr ErrShortBuffer d.

(** The common tail of Bytes (94-101), VarBytes (262-269) and String (223-229):
    check, slice [d.raw[offset:offset+length]], advance. *)
Definition take_slice (length : Z) : Dec (list Z) := fun d =>
  if remains length d then
    match slice (d_raw d) (d_offset d) (d_offset d + length) with
    | Some v => DOk v (advance length d)
    | None => DPanic
    end
  else DErr ErrShortBuffer d.

(** message/decoder.go:86-102.  The result shares memory with [raw]; that
    aliasing is modelled separately in [Alias.v]. *)
Definition dBytes : Dec (gslice Z) :=
  n <- dInt32 ;; v <- take_slice n ;; ret (Some v).

(** message/decoder.go:211-230 *)
Definition dString : Dec gostring :=
  n <- dInt16 ;;
  if n =? -1 then ret [] else take_slice n.

(** message/decoder.go:201-209 *)
Definition dNullableString : Dec (option gostring) :=
  s <- dString ;; ret (Some s).

(** The loop [for i := 0; i < n; i++ { item, err := f(); ...; items[i] = item }]. *)
Fixpoint repeat_dec {A} (n : nat) (f : Dec A) : Dec (list A) :=
  match n with
  | O => ret []
  | S n' => x <- f ;; xs <- repeat_dec n' f ;; ret (x :: xs)
  end.

(** Shape of Int32Array (145-166), Int64Array (178-199), StringArray (232-253):
    -1 is nil; [make([]T, n)] panics for other negative n.  Exhaustion of
    memory for a large n is not modelled. *)
Definition prim_array {A} (f : Dec A) : Dec (gslice A) :=
  n <- dArrayLength ;;
  if n =? -1 then ret None
  else if n <? 0 then (fun _ => DPanic)
  else xs <- repeat_dec (Z.to_nat n) f ;; ret (Some xs).

(** message/decoder.go:145-166 *)
Definition dInt32Array : Dec (gslice Z) := prim_array dInt32.
(** message/decoder.go:178-199 *)
Definition dInt64Array : Dec (gslice Z) := prim_array dInt64.
(** message/decoder.go:232-253 *)
Definition dStringArray : Dec (gslice gostring) := prim_array dString.

(** message/decoder.go:272-288.  Note that the slice [d.raw[d.offset:]] runs to the
    end of [raw], not to [d.length], and that [binary.Varint] reports overflow
    as [-(i+1)], so that [case -1] tests one value only. *)
Definition dVarInt : Dec Z := fun d =>
  match slice_from (d_raw d) (d_offset d) with
  | None => DPanic
  | Some b =>
      let '(tmp, n) := varint b in
      let eof := {| d_raw := d_raw d; d_length := d_length d; d_offset := d_length d |} in
      if n =? 0 then DErr ErrShortBuffer eof
      else if n =? -1 then DErr ErrVarIntOverflow eof
      else DOk tmp (advance n d)
  end.

(** message/decoder.go:255-270 *)
Definition dVarBytes : Dec (gslice Z) :=
  n <- dVarInt ;; v <- take_slice n ;; ret (Some v).

(** message/decoder.go:290-315.  For a negative length the loop does not run and
    the offset moves backwards; otherwise the runes of [raw[som:eom]] are
    decoded and re-encoded by [string(runes)]. *)
Definition dVarString : Dec gostring :=
  length <- dVarInt ;;
  (fun d =>
     if remains length d then
       if length <=? 0 then DOk [] (advance length d)
       else match slice (d_raw d) (d_offset d) (d_offset d + length) with
            | Some p => DOk (string_of_runes (runes p)) (advance length d)
            | None => DPanic
            end
     else DErr ErrShortBuffer d).

(** ** Combinators for the generated Decode methods (message/messages.gen.go) *)

(** [if cond { t.F, err = m; if err != nil { return err } }] where [old] is the value
    t.F has on entry. *)
Definition dec_if {A} (cond : bool) (m : Dec A) (old : A) : Dec A :=
  if cond then m else ret old.

(** [if n, err := d.ArrayLength(); err != nil { return err } else if n >= 0 {
      t.F = make([]T, n); for i := 0; i < n; i++ { var item T; item.Decode; t.F[i] = item } }],
    e.g. messages.gen.go:77-89; [old] is the value of t.F on entry, kept for a
    negative n. *)
Definition dec_array {A} (f : Dec A) (old : gslice A) : Dec (gslice A) :=
  n <- dArrayLength ;;
  if 0 <=? n then xs <- repeat_dec (Z.to_nat n) f ;; ret (Some xs) else ret old.
