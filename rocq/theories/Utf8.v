(** * Model of Go's [unicode/utf8] and of the two string conversions used by
    message/encoder.go:226-227 and message/decoder.go:307-314. *)
From Verif Require Import GoBase.

(** utf8.RuneError, U+FFFD. *)
Definition RuneError : Z := 65533.

(** utf8.EncodeRune(p, r); also what [string([]rune)] does with each rune. *)
Definition encode_rune (r : Z) : list Z :=
  let i := uint32 r in
  let enc3 r :=
    [Z.lor 224 (uint8 (Z.shiftr r 12));
     Z.lor 128 (Z.land (uint8 (Z.shiftr r 6)) 63);
     Z.lor 128 (Z.land (uint8 r) 63)] in
  if i <=? 127 then [uint8 r]
  else if i <=? 2047 then
    [Z.lor 192 (uint8 (Z.shiftr r 6)); Z.lor 128 (Z.land (uint8 r) 63)]
  else if (1114111 <? i) || ((55296 <=? i) && (i <=? 57343)) then enc3 RuneError
  else if i <=? 65535 then enc3 r
  else
    [Z.lor 240 (uint8 (Z.shiftr r 18));
     Z.lor 128 (Z.land (uint8 (Z.shiftr r 12)) 63);
     Z.lor 128 (Z.land (uint8 (Z.shiftr r 6)) 63);
     Z.lor 128 (Z.land (uint8 r) 63)].

(** The table [first] of unicode/utf8: for a leading byte, [Some (size, lo, hi)]
    with the accepted range of the second byte, or [None] for ASCII and for
    bytes that cannot start a sequence. *)
Definition first (b : Z) : option (Z * Z * Z) :=
  if (194 <=? b) && (b <=? 223) then Some (2, 128, 191)
  else if b =? 224 then Some (3, 160, 191)
  else if (225 <=? b) && (b <=? 236) then Some (3, 128, 191)
  else if b =? 237 then Some (3, 128, 159)
  else if (238 <=? b) && (b <=? 239) then Some (3, 128, 191)
  else if b =? 240 then Some (4, 144, 191)
  else if (241 <=? b) && (b <=? 243) then Some (4, 128, 191)
  else if b =? 244 then Some (4, 128, 143)
  else None.

Definition in_range (lo hi b : Z) : bool := (lo <=? b) && (b <=? hi).

(** utf8.DecodeRune(p): the rune and the number of bytes consumed. *)
Definition decode_rune (p : list Z) : Z * Z :=
  match p with
  | [] => (RuneError, 0)
  | p0 :: tl =>
      match first p0 with
      | None => if p0 <? 128 then (p0, 1) else (RuneError, 1)
      | Some (sz, lo, hi) =>
          if zlen p <? sz then (RuneError, 1) else
          match tl with
          | [] => (RuneError, 1)
          | b1 :: tl1 =>
              if negb (in_range lo hi b1) then (RuneError, 1)
              else if sz =? 2 then
                (Z.lor (Z.shiftl (Z.land p0 31) 6) (Z.land b1 63), 2)
              else match tl1 with
              | [] => (RuneError, 1)
              | b2 :: tl2 =>
                  if negb (in_range 128 191 b2) then (RuneError, 1)
                  else if sz =? 3 then
                    (Z.lor (Z.lor (Z.shiftl (Z.land p0 15) 12) (Z.shiftl (Z.land b1 63) 6))
                           (Z.land b2 63), 3)
                  else match tl2 with
                  | [] => (RuneError, 1)
                  | b3 :: _ =>
                      if negb (in_range 128 191 b3) then (RuneError, 1)
                      else
                        (Z.lor (Z.lor (Z.lor (Z.shiftl (Z.land p0 7) 18)
                                             (Z.shiftl (Z.land b1 63) 12))
                                      (Z.shiftl (Z.land b2 63) 6))
                               (Z.land b3 63), 4)
                  end
              end
          end
      end
  end.

(** The runes visited by [for _, r := range s] (message/encoder.go:226), and by the
    DecodeRune loop of message/decoder.go:307-311 ([DecodeRune] on a non-empty
    input always consumes at least one byte, so fuel [length s] is enough). *)
Fixpoint runes_fuel (fuel : nat) (s : list Z) : list Z :=
  match fuel with
  | O => []
  | S fuel' =>
      match s with
      | [] => []
      | _ => let '(r, size) := decode_rune s in
             r :: runes_fuel fuel' (skipn (Z.to_nat size) s)
      end
  end.
Definition runes (s : list Z) : list Z := runes_fuel (length s) s.

(** [string(runes)] (message/decoder.go:314). *)
Definition string_of_runes (rs : list Z) : list Z := flat_map encode_rune rs.
