(** * message/encoder.go with its scratch array

    Encoder.v hands the bytes of a number to Write as a list.  The code stores them in the
    array [buf] of 16 bytes (message/encoder.go:31) and hands over a slice of it.  Here
    the array is part of the state and is used as in the code; a store outside the array is Go's
    panic, [None].  The slice has the whole array as its capacity: what the array holds
    after a Write is up to the writer ([scribble]), contrary to the contract of io.Writer. *)
From Verif Require Import GoBase Binary Utf8 Encoder SchemaSpec RecordBatch Calls.
Local Open Scope Z_scope.
Local Open Scope list_scope.

Record scratched := mkScratched { s_buf : list Z; s_enc : Encoder }.

(** message/encoder.go:31, 36-41: an array of 16 zeros. *)
Definition sNewEncoder (t : target) : scratched := mkScratched (repeat 0 16) (NewEncoder t).

(** [buf[i] = b] *)
Definition store (i : nat) (b : Z) (buf : list Z) : option (list Z) :=
  if (i <? length buf)%nat then Some (firstn i buf ++ b :: skipn (S i) buf) else None.
(** [buf[i] = bs[0]; buf[i+1] = bs[1]; ...]: binary.BigEndian.PutUint16, 32 and 64 and
    utf8.EncodeRune, whose bytes are in Binary.v and Utf8.v. *)
Fixpoint store_all (i : nat) (bs buf : list Z) : option (list Z) :=
  match bs with
  | [] => Some buf
  | b :: rest => match store i b buf with Some buf => store_all (S i) rest buf | None => None end
  end.
(** binary.PutUvarint: [for x >= 0x80 { buf[i] = byte(x) | 0x80; x >>= 7; i++ }; buf[i] = byte(x);
    return i + 1]; 17 rounds are more than the array has room for. *)
Fixpoint store_uvarint (rounds i : nat) (x : Z) (buf : list Z) : option (list Z * nat) :=
  match rounds with
  | O => None
  | S rounds' =>
      if 128 <=? x
      then match store i (Z.lor (uint8 x) 128) buf with Some buf => store_uvarint rounds' (S i) (Z.shiftr x 7) buf | None => None end
      else match store i (uint8 x) buf with Some buf => Some (buf, S i) | None => None end
  end.

Section Scratch.
Context (scribble : list (list Z) -> list Z -> list Z).
Definition op : Type := scratched -> option scratched.
Definition then_ (f g : op) : op := fun s => match f s with Some s => g s | None => None end.
Definition done : op := fun s => Some s.

(** [_, e.err = e.target.Write(data)] *)
Definition s_write (data : list Z) : op := fun s =>
  Some (mkScratched (scribble (t_log (e_target (s_enc s))) (s_buf s)) (write data (s_enc s))).
(** [_, e.err = e.target.Write(e.buf[:n])] *)
Definition s_write_buf (n : nat) : op := fun s =>
  if (n <=? length (s_buf s))%nat then s_write (firstn n (s_buf s)) s else None.
(** [if e.err != nil { return }] before [f] *)
Definition unless_failed (f : op) : op := fun s => match e_err (s_enc s) with Some _ => Some s | None => f s end.
(** Store the bytes and write as many. *)
Definition s_put (bs : list Z) : op := fun s =>
  match store_all 0 bs (s_buf s) with Some buf => s_write_buf (length bs) (mkScratched buf (s_enc s)) | None => None end.

(** message/encoder.go:78-106, 126-134 *)
Definition sPutInt8 (i : Z) : op := unless_failed (s_put [uint8 i]).
Definition sPutInt16 (i : Z) : op := unless_failed (s_put (put_uint16 (uint16 i))).
Definition sPutInt32 (i : Z) : op := unless_failed (s_put (put_uint32 (uint32 i))).
Definition sPutInt64 (i : Z) : op := unless_failed (s_put (put_uint64 (uint64 i))).
(** 56-76 *)
Definition sPutArrayLength (n : Z) : op := sPutInt32 (int32 n).
Definition sPutBool (b : bool) : op := if b then sPutInt8 1 else sPutInt8 0.
Definition sPutBytes (data : gslice Z) : op := then_ (sPutInt32 (int32 (glen data))) (unless_failed (s_write (items data))).
Fixpoint s_foreach {A} (f : A -> op) (xs : list A) : op :=
  match xs with [] => done | x :: rest => then_ (f x) (s_foreach f rest) end.
(** 108-124, 136-152, 181-197 *)
Definition s_nullable {A} (f : A -> op) (xs : gslice A) : op := unless_failed
  (match xs with None => sPutInt32 (-1) | Some l => then_ (sPutArrayLength (zlen l)) (s_foreach f l) end).
Definition sPutInt32Array : gslice Z -> op := s_nullable sPutInt32.
Definition sPutInt64Array : gslice Z -> op := s_nullable sPutInt64.
(** 173-179, 154-161 *)
Definition sPutString (s : gostring) : op := then_ (sPutInt16 (int16 (zlen s))) (unless_failed (s_write s)).
Definition sPutNullableString (s : option gostring) : op := match s with None => sPutInt16 (-1) | Some s => sPutString s end.
Definition sPutStringArray : gslice gostring -> op := s_nullable sPutString.
(** 209-217: [length := binary.PutVarint(e.buf[:], i); _, e.err = e.target.Write(e.buf[0:length])] *)
Definition sPutVarInt (i : Z) : op := unless_failed (fun s =>
  match store_uvarint 17 0 (zigzag i) (s_buf s) with Some (buf, n) => s_write_buf n (mkScratched buf (s_enc s)) | None => None end).
(** 199-207 *)
Definition sPutVarBytes (data : gslice Z) : op := unless_failed (then_ (sPutVarInt (int64 (glen data))) (s_write (items data))).
(** 219-233: [length := utf8.EncodeRune(e.buf[:], rune(i)); ...] *)
Fixpoint s_put_runes (rs : list Z) : op :=
  match rs with [] => done | r :: rest => then_ (s_put (encode_rune r)) (unless_failed (s_put_runes rest)) end.
Definition sPutVarString (s : gostring) : op := unless_failed (then_ (sPutVarInt (int64 (zlen s))) (s_put_runes (runes s))).
(** 163-171 *)
Definition sPutRecordHeader (key value : gostring) : op := unless_failed (then_ (sPutVarString key) (sPutVarString value)).

(** All the Put methods. *)
Definition s_perform (c : call) : op :=
  match c with
  | CallInt8 i => sPutInt8 i | CallInt16 i => sPutInt16 i | CallInt32 i => sPutInt32 i | CallInt64 i => sPutInt64 i
  | CallBool b => sPutBool b | CallArrayLength n => sPutArrayLength n
  | CallBytes s => sPutBytes s | CallString s => sPutString s | CallNullableString s => sPutNullableString s
  | CallInt32Array s => sPutInt32Array s | CallInt64Array s => sPutInt64Array s | CallStringArray s => sPutStringArray s
  | CallVarInt i => sPutVarInt i | CallVarBytes s => sPutVarBytes s | CallVarString s => sPutVarString s
  | CallRecordHeader k v => sPutRecordHeader k v
  end.

Definition s_perform_all (cs : list call) : op := s_foreach s_perform cs.

(** The generated Encode methods (message/messages.gen.go), from the schema as in Schema.v. *)
Fixpoint s_encode (t : ty) (v : Z) : den t -> op :=
  match t return den t -> op with
  | TBool => sPutBool
  | TInt8 => sPutInt8
  | TInt16 => sPutInt16
  | TInt32 => sPutInt32
  | TInt64 => sPutInt64
  | TString => sPutString
  | TBytes => sPutBytes
  | TInt32Array => sPutInt32Array
  | TInt64Array => sPutInt64Array
  | TStringArray => sPutStringArray
  | TArray fs => fun xs => then_ (sPutArrayLength (glen xs)) (s_foreach (s_encodes fs v) (items xs))
  end
with s_encodes (fs : fields) (v : Z) : dens fs -> op :=
  match fs return dens fs -> op with
  | FNil => fun _ => done
  | FCons _ r t rest => fun x => then_ (if active r v then s_encode t v (fst x) else done) (s_encodes rest v (snd x))
  end.

(** gen.record_batch.go:106-133 *)
Definition s_encodeMessage (order : list (gostring * gostring)) (m : Message) (version firstTimestamp : Z) : op :=
  then_ (sPutVarInt (int64 (Message_Size version m))) (then_ (sPutInt8 0) (then_ (sPutVarInt (int64 (m_unix m - firstTimestamp))) (then_ (sPutVarInt 0) (then_ (sPutVarBytes (m_key m)) (then_ (sPutVarBytes (m_value m))
    match m_header m with
    | None => fun _ => None
    | Some _ => s_foreach (fun kv => sPutRecordHeader (fst kv) (snd kv)) order
    end))))).
Fixpoint s_records (orders : nat -> list (gostring * gostring)) (i : nat) (ms : list Message) (version firstTimestamp : Z) : op :=
  match ms with
  | [] => done
  | m :: rest => then_ (s_encodeMessage (orders i) m version firstTimestamp) (s_records orders (S i) rest version firstTimestamp)
  end.
Definition s_batch (orders : nat -> list (gostring * gostring)) (r : RecordBatch) (version : Z) : op :=
  then_ (sPutInt64 (r_BaseOffset r)) (then_ (sPutInt32 (r_BatchLength r)) (then_ (sPutInt32 (r_PartitionLeaderEpoch r)) (then_ (sPutInt8 magic)
  (then_ (sPutInt32 (r_CRC r)) (then_ (sPutInt16 (r_Attributes r)) (then_ (sPutInt32 (r_LastOffsetDelta r)) (then_ (sPutInt64 (r_FirstTimestamp r))
  (then_ (sPutInt64 (r_MaxTimestamp r)) (then_ (sPutInt64 (r_ProducerId r)) (then_ (sPutInt16 (r_ProducerEpoch r)) (then_ (sPutInt32 (r_BaseSequence r))
  (s_records orders 0 (items (r_Records r)) version (r_FirstTimestamp r))))))))))))).
End Scratch.
