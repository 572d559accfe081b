(** * What it means that the source does what the model says *)
From Coq Require Import String.
From Verif Require Import GoBase Binary Utf8 Decoder Encoder SchemaSpec Platform Calls Scratch GoLang Source.
Local Open Scope string_scope.
Local Open Scope list_scope.
Local Open Scope Z_scope.

(** A program that has all of [part]. *)
Definition extends (prog part : package) : Prop :=
  (forall f fn, lookup f (k_funcs part) = Some fn -> lookup f (k_funcs prog) = Some fn) /\
  (forall g e, lookup g (k_globals part) = Some e -> lookup g (k_globals prog) = Some e) /\
  (forall t fs, lookup t (k_types part) = Some fs -> lookup t (k_types prog) = Some fs).

(** The kinds of arrays of Platform.v, by the type of their elements. *)
Definition room_of (P : platform) (structs : string -> ty) (t : gty) (n : Z) : bool :=
  match t with
  | GInt I32 => p_make P TInt32Array n | GInt I64 => p_make P TInt64Array n | GString => p_make P TStringArray n
  | GNamed t => p_make P (structs t) n | _ => false
  end.

(** A Decoder in memory. *)
Definition decoder_cell (d : Decoder) : cell :=
  CStruct "Decoder" [("raw", VInts U8 (d_raw d)); ("length", VInt INT (d_length d)); ("offset", VInt INT (d_offset d))].
(** What a method of the Decoder at [l] does: a value and nil, or a zero value and the error; the Decoder is
    all that changes. *)
Definition outcome {A} (val_of : A -> val) (nothing : val) (l : nat) (s : state) (r : dres A) : res val :=
  match r with
  | DOk a d => Ok (VTuple [val_of a; VNil]) (set_cell l (decoder_cell d) s)
  | DErr e d => Ok (VTuple [nothing; VErr e]) (set_cell l (decoder_cell d) s)
  | DPanic => Panic
  end.
Definition slice_val {A} (f : list A -> val) (x : gslice A) : val := match x with Some l => f l | None => VNil end.
Definition pointer_val (x : option gostring) : val := match x with Some l => VBox (VStr l) | None => VNil end.

(** An Encoder in memory at [l], its array at [b]; the io.Writer is the world. *)
Definition encoder_cell (b : nat) (e : Encoder) : cell := CStruct "Encoder" [("buf", VArr b); ("target", VWriter); ("err", as_error (e_err e))].
Definition holds (l b : nat) (e : Encoder) (s : state) : Prop :=
  nth_error (heap s) l = Some (encoder_cell b e) /\ (exists buf, nth_error (heap s) b = Some (CArray buf) /\ length buf = 16%nat) /\ world s = e_target e.
(** The structures of [s], but that at [l], are as they were. *)
Definition kept (l : nat) (s s' : state) : Prop :=
  forall k t fs, k <> l -> nth_error (heap s) k = Some (CStruct t fs) -> nth_error (heap s') k = Some (CStruct t fs).
(** What a method of the Encoder does: nothing but [g] on the Encoder. *)
Definition effect (l b : nat) (g : Encoder -> Encoder) (r : state -> res val) : Prop :=
  forall s e, holds l b e s -> exists s', r s = Ok (VTuple []) s' /\ holds l b (g e) s' /\ kept l s s'.
(** The call of a method of the Encoder, as a name and arguments. *)
Definition put_name (c : Calls.call) : string :=
  match c with
  | CallInt8 _ => "Encoder.PutInt8" | CallInt16 _ => "Encoder.PutInt16" | CallInt32 _ => "Encoder.PutInt32" | CallInt64 _ => "Encoder.PutInt64"
  | CallBool _ => "Encoder.PutBool" | CallArrayLength _ => "Encoder.PutArrayLength"
  | CallBytes _ => "Encoder.PutBytes" | CallString _ => "Encoder.PutString" | CallNullableString _ => "Encoder.PutNullableString"
  | CallInt32Array _ => "Encoder.PutInt32Array" | CallInt64Array _ => "Encoder.PutInt64Array" | CallStringArray _ => "Encoder.PutStringArray"
  | CallVarInt _ => "Encoder.PutVarInt" | CallVarBytes _ => "Encoder.PutVarBytes" | CallVarString _ => "Encoder.PutVarString"
  | CallRecordHeader _ _ => "Encoder.PutRecordHeader"
  end.
Definition put_args (c : Calls.call) : list val :=
  match c with
  | CallInt8 i => [VInt I8 i] | CallInt16 i => [VInt I16 i] | CallInt32 i => [VInt I32 i] | CallInt64 i => [VInt I64 i]
  | CallBool b => [VBool b] | CallArrayLength n => [VInt INT n]
  | CallBytes d => [slice_val (VInts U8) d] | CallString s => [VStr s] | CallNullableString s => [pointer_val s]
  | CallInt32Array d => [slice_val (VInts I32) d] | CallInt64Array d => [slice_val (VInts I64) d] | CallStringArray d => [slice_val VStrs d]
  | CallVarInt i => [VInt I64 i] | CallVarBytes d => [slice_val (VInts U8) d] | CallVarString s => [VStr s]
  | CallRecordHeader k v => [VStr k; VStr v]
  end.
(** The strings whose runes are looked at are strings of bytes. *)
Definition texts_ok (c : Calls.call) : Prop :=
  match c with CallVarString s => Forall is_byte s | CallRecordHeader k v => Forall is_byte k /\ Forall is_byte v | _ => True end.

(** More memory, what there was as it was. *)
Definition grown (s s' : state) : Prop := exists more, heap s' = heap s ++ more /\ world s' = world s.

(** ** A value put by the text of the Encoder and read by the text of the Decoder *)
(** From some number of calls and rounds allowed on. *)
Definition eventually (Q : nat -> Prop) : Prop := exists N, forall n, (N <= n)%nat -> Q n.
(** A new Encoder over a writer that never fails, one call of [put]; then a new Decoder over what was
    written and [rest], one call of [get]: the value, no error, and the position is after what was written. *)
Definition survives (W : Z) (go : nat -> string -> list val -> state -> res val) (put get : string) (given received : val) : Prop :=
  forall s, t_log (world s) = [] -> (forall log data, t_write (world s) log data = None) ->
  eventually (fun n => exists e s1 s2, go n "message.NewEncoder" [VWriter] s = Ok (VRef e) s1 /\ go n put [VRef e; given] s1 = Ok (VTuple []) s2 /\
    forall rest, let bs := concat (t_log (world s2)) in let buf := bs ++ rest in zlen buf < 2 ^ (W - 1) ->
    eventually (fun m => exists d s3 s4, go m "message.NewDecoder" [VInts U8 buf; VInt INT (zlen buf)] s2 = Ok (VRef d) s3 /\
      go m get [VRef d] s3 = Ok (VTuple [received; VNil]) s4 /\
      nth_error (heap s4) d = Some (CStruct "Decoder" [("raw", VInts U8 buf); ("length", VInt INT (zlen buf)); ("offset", VInt INT (zlen bs))]))).
