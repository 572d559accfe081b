(** * Model of message/encoder.go *)
From Verif Require Import GoBase Binary Utf8.

(** The [io.Writer] behind an encoder.  [t_log] is the list of the data of all
    Write calls made on it so far, oldest first; [t_write log data] is the
    error (if any) its next Write returns, an arbitrary function of everything
    it has been asked to write: any writer whose behaviour is a function of its
    history.  [t_flush]: [Some f] if it implements [Flush() error]
    (message/encoder.go:25-27).  The number of bytes reported by Write is
    ignored by the encoder and not modelled. *)
Record target := mkTarget {
  t_write : list (list Z) -> list Z -> option error;
  t_flush : option (list (list Z) -> option error);
  t_log : list (list Z)
}.

(** message/encoder.go:29-34.  The scratch array [buf] is left out: the
    bytes given to Write are copied out of it (contract of io.Writer: the
    callee must not retain the slice).  Scratch.v has it. *)
Record Encoder := mkEncoder { e_target : target; e_err : option error }.

(** message/encoder.go:36-41 *)
Definition NewEncoder (t : target) : Encoder := {| e_target := t; e_err := None |}.

(** The statement [_, e.err = e.target.Write(data)]. *)
Definition write (data : list Z) (e : Encoder) : Encoder :=
  let t := e_target e in
  {| e_target := {| t_write := t_write t; t_flush := t_flush t; t_log := t_log t ++ [data] |};
     e_err := t_write t (t_log t) data |}.

(** message/encoder.go:43-54 *)
Definition Flush (e : Encoder) : option error :=
  match e_err e with
  | Some x => Some x
  | None => match t_flush (e_target e) with
            | Some f => f (t_log (e_target e))
            | None => None
            end
  end.

(** message/encoder.go:78-86 *)
Definition PutInt8 (i : Z) (e : Encoder) : Encoder :=
  match e_err e with Some _ => e | None => write [uint8 i] e end.

(** message/encoder.go:88-96 *)
Definition PutInt16 (i : Z) (e : Encoder) : Encoder :=
  match e_err e with Some _ => e | None => write (put_uint16 (uint16 i)) e end.

(** message/encoder.go:98-106 *)
Definition PutInt32 (i : Z) (e : Encoder) : Encoder :=
  match e_err e with Some _ => e | None => write (put_uint32 (uint32 i)) e end.

(** message/encoder.go:126-134 *)
Definition PutInt64 (i : Z) (e : Encoder) : Encoder :=
  match e_err e with Some _ => e | None => write (put_uint64 (uint64 i)) e end.

(** message/encoder.go:56-59; [n] is a Go int. *)
Definition PutArrayLength (n : Z) (e : Encoder) : Encoder := PutInt32 (int32 n) e.

(** message/encoder.go:61-68 *)
Definition PutBool (b : bool) (e : Encoder) : Encoder :=
  if b then PutInt8 1 e else PutInt8 0 e.

(** message/encoder.go:70-76 *)
Definition PutBytes (data : gslice Z) (e : Encoder) : Encoder :=
  let e := PutInt32 (int32 (glen data)) e in
  match e_err e with None => write (items data) e | Some _ => e end.

(** The loop [for _, x := range xs { f(x) }] threading the encoder. *)
Definition foreach {A} (f : A -> Encoder -> Encoder) (xs : list A) (e : Encoder) : Encoder :=
  fold_left (fun e x => f x e) xs e.

(** message/encoder.go:108-124 *)
Definition PutInt32Array (ii : gslice Z) (e : Encoder) : Encoder :=
  match e_err e with
  | Some _ => e
  | None => match ii with
            | None => PutInt32 (-1) e
            | Some l => foreach PutInt32 l (PutArrayLength (zlen l) e)
            end
  end.

(** message/encoder.go:136-152 *)
Definition PutInt64Array (ii : gslice Z) (e : Encoder) : Encoder :=
  match e_err e with
  | Some _ => e
  | None => match ii with
            | None => PutInt32 (-1) e
            | Some l => foreach PutInt64 l (PutArrayLength (zlen l) e)
            end
  end.

(** message/encoder.go:173-179 ([io.WriteString] is one write of the bytes of s) *)
Definition PutString (s : gostring) (e : Encoder) : Encoder :=
  let e := PutInt16 (int16 (zlen s)) e in
  match e_err e with None => write s e | Some _ => e end.

(** message/encoder.go:154-161 *)
Definition PutNullableString (s : option gostring) (e : Encoder) : Encoder :=
  match s with
  | None => PutInt16 (-1) e
  | Some s => PutString s e
  end.

(** message/encoder.go:181-197 *)
Definition PutStringArray (ss : gslice gostring) (e : Encoder) : Encoder :=
  match e_err e with
  | Some _ => e
  | None => match ss with
            | None => PutInt32 (-1) e
            | Some l => foreach PutString l (PutArrayLength (zlen l) e)
            end
  end.

(** message/encoder.go:209-217.  [put_varint] never runs out of the 16 byte
    scratch buffer (lemma [put_varint_total]); the [None] branch is Go's panic
    and is unreachable. *)
Definition PutVarInt (i : Z) (e : Encoder) : Encoder :=
  match e_err e with
  | Some _ => e
  | None => match put_varint i with
            | Some bs => write bs e
            | None => e
            end
  end.

(** message/encoder.go:199-207.  Note: after PutVarInt the error is not tested
    and is overwritten by the result of the second Write. *)
Definition PutVarBytes (data : gslice Z) (e : Encoder) : Encoder :=
  match e_err e with
  | Some _ => e
  | None => write (items data) (PutVarInt (int64 (glen data)) e)
  end.

(** The loop of message/encoder.go:226-232: the error is tested after each
    write, not before the first. *)
Fixpoint put_runes (rs : list Z) (e : Encoder) : Encoder :=
  match rs with
  | [] => e
  | r :: rs' =>
      let e := write (encode_rune r) e in
      match e_err e with
      | Some _ => e
      | None => put_runes rs' e
      end
  end.

(** message/encoder.go:219-233 *)
Definition PutVarString (s : gostring) (e : Encoder) : Encoder :=
  match e_err e with
  | Some _ => e
  | None => put_runes (runes s) (PutVarInt (int64 (zlen s)) e)
  end.

(** message/encoder.go:163-171 *)
Definition PutRecordHeader (key value : gostring) (e : Encoder) : Encoder :=
  match e_err e with
  | Some _ => e
  | None => PutVarString value (PutVarString key e)
  end.

(** ** Combinators for the generated Encode methods (message/messages.gen.go) *)

(** [if cond { stmts }] *)
Definition put_if (cond : bool) (act : Encoder -> Encoder) (e : Encoder) : Encoder :=
  if cond then act e else e.

(** [lenK := len(xs); e.PutArrayLength(lenK); for i := 0; i < lenK; i++ { xs[i].Encode(e, version) }],
    e.g. messages.gen.go:54-58 *)
Definition put_array {A} (f : A -> Encoder -> Encoder) (xs : gslice A) (e : Encoder) : Encoder :=
  foreach f (items xs) (PutArrayLength (glen xs) e).

(** Statement sequencing. *)
Definition seq (f g : Encoder -> Encoder) (e : Encoder) : Encoder := g (f e).
Definition skip (e : Encoder) : Encoder := e.
Declare Scope enc_scope.
Notation "f >> g" := (seq f g) (at level 60, right associativity) : enc_scope.
Delimit Scope enc_scope with enc.
