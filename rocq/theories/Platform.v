(** * The decoder on any platform

    message/decoder.go once more, with what the rest of the model fixes (section 3 of
    DESIGN.md) as parameters: the width of [int], the release of Go, and how much [make]
    gives.  All arithmetic on [int] wraps. *)
From Verif Require Import GoBase Binary Utf8 Decoder SchemaSpec Schema Link.
Local Open Scope Z_scope.

Record platform := mkPlatform {
  p_int : Z;               (* bits of int: 32 or 64 *)
  p_late : bool;           (* binary.Varint of Go 1.16 and later *)
  p_make : ty -> Z -> bool (* make([]T, n) of n >= 0 elements succeeds, for the T of this kind of array *)
}.

(** binary.Uvarint of later releases: [for i, b := range buf {
    if i == MaxVarintLen64 { return 0, -(i + 1) }; if b < 0x80 {
    if i == MaxVarintLen64-1 && b > 1 { return 0, -(i + 1) }; return x | uint64(b)<<s, i + 1 };
    x |= uint64(b&0x7f) << s; s += 7 }; return 0, 0], from memory. *)
Fixpoint late_loop (buf : list Z) (i x s : Z) : Z * Z :=
  match buf with
  | [] => (0, 0)
  | b :: rest =>
      if i =? 10 then (0, - (i + 1))
      else if b <? 128
      then if (i =? 9) && (1 <? b) then (0, - (i + 1)) else (Z.lor x (uint64 (Z.shiftl b s)), i + 1)
      else late_loop rest (i + 1) (Z.lor x (uint64 (Z.shiftl (Z.land b 127) s))) (s + 7)
  end.
Definition late_varint (buf : list Z) : Z * Z := let '(ux, n) := late_loop buf 0 0 0 in (unzigzag ux, n).

Section Platform.
Context (P : platform).
(** Go [int(z)] *)
Definition pint (z : Z) : Z := wrap (p_int P) z.

(** message/decoder.go:59-65 *)
Definition p_remains (n : Z) (d : Decoder) : bool := negb (pint (d_length d - d_offset d) <? n).
(** [d.offset += n] *)
Definition p_advance (n : Z) (d : Decoder) : Decoder :=
  {| d_raw := d_raw d; d_length := d_length d; d_offset := pint (d_offset d + n) |}.
(** message/decoder.go:76-84, 115-143, 168-176 *)
Definition p_fixed {A} (n : Z) (get : list Z -> option A) : Dec A := fun d =>
  if p_remains n d then
    match slice_from (d_raw d) (d_offset d) with
    | Some b => match get b with
                | Some v => DOk v (p_advance n d)
                | None => DPanic
                end
    | None => DPanic
    end
  else DErr ErrShortBuffer d.
Definition pBool : Dec bool := p_fixed 1 (fun b => match b with x :: _ => Some (x =? 1) | [] => None end).
Definition pInt8 : Dec Z := p_fixed 1 (fun b => match b with x :: _ => Some (int8 x) | [] => None end).
Definition pInt16 : Dec Z := p_fixed 2 (fun b => option_map int16 (get_uint16 b)).
Definition pInt32 : Dec Z := p_fixed 4 (fun b => option_map int32 (get_uint32 b)).
Definition pInt64 : Dec Z := p_fixed 8 (fun b => option_map int64 (get_uint64 b)).
(** message/decoder.go:67-74 *)
Definition pArrayLength : Dec Z := n <- pInt32 ;; ret (pint n).
(** message/decoder.go:104-113 *)
Definition pDiscard (n : Z) : Dec unit := fun d => if p_remains n d then DOk tt (p_advance n d) else DErr ErrShortBuffer d.
(** The common tail of Bytes (94-101), VarBytes (262-269) and String (223-229) *)
Definition p_take (length : Z) : Dec (list Z) := fun d =>
  if p_remains length d then
    match slice (d_raw d) (d_offset d) (pint (d_offset d + length)) with
    | Some v => DOk v (p_advance length d)
    | None => DPanic
    end
  else DErr ErrShortBuffer d.
(** message/decoder.go:86-102 *)
Definition pBytes : Dec (gslice Z) := n <- pInt32 ;; v <- p_take (pint n) ;; ret (Some v).
(** message/decoder.go:211-230 *)
Definition pString : Dec gostring := n <- pInt16 ;; if n =? -1 then ret [] else p_take (pint n).
(** message/decoder.go:201-209 *)
Definition pNullableString : Dec (option gostring) := s <- pString ;; ret (Some s).
(** [make([]T, n)]: panics for a negative n, and where there is not so much to give. *)
Definition p_new (t : ty) (n : Z) : Dec unit := fun d => if (n <? 0) || negb (p_make P t n) then DPanic else DOk tt d.
(** message/decoder.go:145-166, 178-199, 232-253 *)
Definition p_prim {A} (t : ty) (f : Dec A) : Dec (gslice A) :=
  n <- pArrayLength ;;
  if n =? -1 then ret None
  else _ <- p_new t n ;; xs <- repeat_dec (Z.to_nat n) f ;; ret (Some xs).
Definition pInt32Array : Dec (gslice Z) := p_prim TInt32Array pInt32.
Definition pInt64Array : Dec (gslice Z) := p_prim TInt64Array pInt64.
Definition pStringArray : Dec (gslice gostring) := p_prim TStringArray pString.
(** message/decoder.go:272-288 *)
Definition pVarInt : Dec Z := fun d =>
  match slice_from (d_raw d) (d_offset d) with
  | None => DPanic
  | Some b =>
      let '(tmp, n) := if p_late P then late_varint b else varint b in
      let eof := {| d_raw := d_raw d; d_length := d_length d; d_offset := d_length d |} in
      if n =? 0 then DErr ErrShortBuffer eof
      else if n =? -1 then DErr ErrVarIntOverflow eof
      else DOk tmp (p_advance n d)
  end.
(** message/decoder.go:255-270: [length := int(n)] of an int64. *)
Definition pVarBytes : Dec (gslice Z) := n <- pVarInt ;; v <- p_take (pint n) ;; ret (Some v).
(** message/decoder.go:290-315.  [som < eom] compares [d.offset] with the wrapped sum. *)
Definition pVarString : Dec gostring :=
  n <- pVarInt ;;
  (fun d =>
     let length := pint n in
     if p_remains length d then
       if pint (d_offset d + length) <=? d_offset d then DOk [] (p_advance length d)
       else match slice (d_raw d) (d_offset d) (pint (d_offset d + length)) with
            | Some p => DOk (string_of_runes (runes p)) (p_advance length d)
            | None => DPanic
            end
     else DErr ErrShortBuffer d).

(** The generated Decode methods, over schemas as in Schema.v (e.g.
    message/messages.gen.go:77-89 for arrays of structures). *)
Definition p_array {A} (t : ty) (f : Dec A) (old : gslice A) : Dec (gslice A) :=
  n <- pArrayLength ;;
  if 0 <=? n then _ <- p_new t n ;; xs <- repeat_dec (Z.to_nat n) f ;; ret (Some xs) else ret old.
Fixpoint pdecode (t : ty) (v : Z) : den t -> Dec (den t) :=
  match t return den t -> Dec (den t) with
  | TBool => fun _ => pBool
  | TInt8 => fun _ => pInt8
  | TInt16 => fun _ => pInt16
  | TInt32 => fun _ => pInt32
  | TInt64 => fun _ => pInt64
  | TString => fun _ => pString
  | TBytes => fun _ => pBytes
  | TInt32Array => fun _ => pInt32Array
  | TInt64Array => fun _ => pInt64Array
  | TStringArray => fun _ => pStringArray
  | TArray fs => fun old => p_array (TArray fs) (pdecodes fs v (zeros fs)) old
  end
with pdecodes (fs : fields) (v : Z) : dens fs -> Dec (dens fs) :=
  match fs return dens fs -> Dec (dens fs) with
  | FNil => fun _ => ret tt
  | FCons _ r t rest => fun old =>
      x <- dec_if (active r v) (pdecode t v (fst old)) (fst old) ;;
      xs <- pdecodes rest v (snd old) ;;
      ret (x, xs)
  end.
(** The Decode method of a type, on this platform. *)
Definition p_decode (c : codec) (v : Z) (old : c_type c) : Dec (c_type c) :=
  dmap (c_of c) (pdecodes (c_schema c) v (c_to c old)).
End Platform.
