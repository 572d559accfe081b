(** * Property of the text of the primitives: C87 *)
From Coq Require Import String.
From Verif Require Import GoBase GoLemmas Binary Utf8 Sizeof Decoder Encoder Spec SchemaSpec Platform PlatformSpec Calls Scratch GoLang Source SourceSpec SourceDecoder SourceLoops SourceEncoder SourceSizeof SourceWire.
Local Open Scope string_scope.
Local Open Scope list_scope.
Local Open Scope Z_scope.

(** [source] (Source.v) is the text of message/decoder.go, message/encoder.go and
    message/sizeof/sizeof.go as terms, written by tools/go_source.py; GoLang.v says what such
    terms do.  [call width late room scribble prog n f vs s] is the call f(vs) in memory [s] of
    the program [prog], with [n] calls nested and rounds of a loop allowed: [Ok result memory],
    [Panic], or [Stuck] where GoLang.v has no meaning for the text or [n] is too small.
    [scribble] is what the writer leaves in the array it was given a slice of.

    ** C87.  Every method of the Encoder does to it and to its writer what the model of the
    method does, and nothing else; *)
Theorem C87_encoder : forall P structs scribble prog, extends prog source -> (forall log buf, length buf = 16%nat -> length (scribble log buf) = 16%nat) ->
  forall n c l b, (4 <= n)%nat -> texts_ok c ->
  effect l b (perform c) (call (p_int P) (p_late P) (room_of P structs) scribble prog n (put_name c) (VRef l :: put_args c)).
Proof. exact encoder_call. Qed.
Print Assumptions C87_encoder.
Theorem C87_encoder_ends : forall P structs scribble prog, extends prog source -> forall n s,
  let go := call (p_int P) (p_late P) (room_of P structs) scribble prog (S n) in
  (forall l b e, holds l b e s -> go "Encoder.Flush" [VRef l] s = Ok (as_error (Flush e)) s) /\
  exists s', go "message.NewEncoder" [VWriter] s = Ok (VRef (S (length (heap s)))) s' /\
    holds (S (length (heap s))) (length (heap s)) (NewEncoder (world s)) s' /\ (forall k, (k < length (heap s))%nat -> nth_error (heap s') k = nth_error (heap s) k).
Proof. exact encoder_ends. Qed.
Print Assumptions C87_encoder_ends.
(** every method of the Decoder gives what Platform.v says, as its value and error, and leaves
    the Decoder as that says; *)
Theorem C87_decoder : forall P, go_platform P -> forall structs scribble prog, extends prog source -> forall n s l d,
  nth_error (heap s) l = Some (decoder_cell d) -> (length (d_raw d) <= n)%nat -> (rounds_for P d <= n)%nat ->
  let go m := call (p_int P) (p_late P) (room_of P structs) scribble prog (S (S (S (S n)))) m [VRef l] s in
  go "Decoder.Bool" = outcome VBool (VBool false) l s (pBool P d) /\ go "Decoder.Int8" = outcome (VInt I8) (VInt I8 0) l s (pInt8 P d) /\
  go "Decoder.Int16" = outcome (VInt I16) (VInt I16 0) l s (pInt16 P d) /\ go "Decoder.Int32" = outcome (VInt I32) (VInt I32 0) l s (pInt32 P d) /\
  go "Decoder.Int64" = outcome (VInt I64) (VInt I64 0) l s (pInt64 P d) /\ go "Decoder.ArrayLength" = outcome (VInt INT) (VInt INT 0) l s (pArrayLength P d) /\
  go "Decoder.Bytes" = outcome (slice_val (VInts U8)) VNil l s (pBytes P d) /\ go "Decoder.String" = outcome VStr (VStr []) l s (pString P d) /\
  go "Decoder.NullableString" = outcome pointer_val VNil l s (pNullableString P d) /\
  go "Decoder.Int32Array" = outcome (slice_val (VInts I32)) VNil l s (pInt32Array P d) /\ go "Decoder.Int64Array" = outcome (slice_val (VInts I64)) VNil l s (pInt64Array P d) /\
  go "Decoder.StringArray" = outcome (slice_val VStrs) VNil l s (pStringArray P d) /\ go "Decoder.VarInt" = outcome (VInt I64) (VInt I64 0) l s (pVarInt P d) /\
  go "Decoder.VarBytes" = outcome (slice_val (VInts U8)) VNil l s (pVarBytes P d) /\ go "Decoder.VarString" = outcome VStr (VStr []) l s (pVarString P d).
Proof. exact decoder_calls. Qed.
Print Assumptions C87_decoder.
Theorem C87_decoder_rest : forall P, go_platform P -> forall structs scribble prog, extends prog source -> forall n s,
  let go := call (p_int P) (p_late P) (room_of P structs) scribble prog (S (S n)) in
  (forall raw k, go "message.NewDecoder" [VInts U8 raw; VInt INT k] s = Ok (VRef (length (heap s))) (mkState (heap s ++ [decoder_cell (NewDecoder raw k)]) (world s))) /\
  (forall e, go "message.IsInsufficientDataError" [VErr e] s = Ok (VBool (IsInsufficientDataError e)) s) /\
  forall l d, nth_error (heap s) l = Some (decoder_cell d) ->
  (forall k, go "Decoder.Reset" [VRef l; VInt INT k] s = Ok (VTuple []) (set_cell l (decoder_cell (Reset k d)) s)) /\
  (forall k, go "Decoder.remains" [VRef l; VInt INT k] s = Ok (if p_remains P k d then VNil else VErr ErrShortBuffer) s) /\
  (forall k, go "Decoder.Discard" [VRef l; VInt INT k] s =
    match pDiscard P k d with DOk _ d' => Ok VNil (set_cell l (decoder_cell d') s) | DErr e d' => Ok (VErr e) (set_cell l (decoder_cell d') s) | DPanic => Panic end).
Proof. exact decoder_rest. Qed.
Print Assumptions C87_decoder_rest.
(** and every function of sizeof gives what the model gives. *)
Theorem C87_sizeof : forall P structs scribble prog, extends prog source -> forall n s,
  let gives f v x := exists s', call (p_int P) (p_late P) (room_of P structs) scribble prog (S (S (S n))) f [v] s = Ok (VInt I32 x) s' /\ grown s s' in
  (forall x, gives "sizeof.Bytes" (slice_val (VInts U8) x) (sz_Bytes x)) /\ (forall x, gives "sizeof.Int32Array" (slice_val (VInts I32) x) (sz_Int32Array x)) /\
  (forall x, gives "sizeof.Int64Array" (slice_val (VInts I64) x) (sz_Int64Array x)) /\ (forall x, gives "sizeof.String" (VStr x) (sz_String x)) /\
  (forall x : gslice (list Z), gives "sizeof.StringArray" (slice_val VStrs x) (sz_StringArray x)) /\ (forall i, gives "sizeof.VarInt" (VInt I64 i) (sz_VarInt i)) /\
  (forall x, gives "sizeof.VarBytes" (slice_val (VInts U8) x) (sz_VarBytes x)) /\ (forall x, gives "sizeof.VarString" (VStr x) (sz_VarString x)).
Proof. exact sizeof_calls. Qed.
Print Assumptions C87_sizeof.

(** So what the text of the Encoder writes the text of the Decoder reads back, on every platform,
    whatever follows in the buffer.  The model of neither is mentioned here. *)
Theorem C87_round_trip : forall P, go_platform P -> forall structs scribble prog, extends prog source -> (forall log buf, length buf = 16%nat -> length (scribble log buf) = 16%nat) -> makes_all P ->
  let keep := survives (p_int P) (call (p_int P) (p_late P) (room_of P structs) scribble prog) in
  (forall i, is_int8 i -> keep "Encoder.PutInt8" "Decoder.Int8" (VInt I8 i) (VInt I8 i)) /\
  (forall i, is_int16 i -> keep "Encoder.PutInt16" "Decoder.Int16" (VInt I16 i) (VInt I16 i)) /\
  (forall i, is_int32 i -> keep "Encoder.PutInt32" "Decoder.Int32" (VInt I32 i) (VInt I32 i)) /\
  (forall i, is_int64 i -> keep "Encoder.PutInt64" "Decoder.Int64" (VInt I64 i) (VInt I64 i)) /\
  (forall b, keep "Encoder.PutBool" "Decoder.Bool" (VBool b) (VBool b)) /\
  (forall x, zlen x < 2 ^ 15 -> keep "Encoder.PutString" "Decoder.String" (VStr x) (VStr x)) /\
  (forall x, glen x < 2 ^ 31 -> keep "Encoder.PutBytes" "Decoder.Bytes" (slice_val (VInts U8) x) (VInts U8 (items x))) /\
  (forall x, glen x < 2 ^ 31 -> Forall is_int32 (items x) -> keep "Encoder.PutInt32Array" "Decoder.Int32Array" (slice_val (VInts I32) x) (slice_val (VInts I32) x)) /\
  (forall x, glen x < 2 ^ 31 -> Forall is_int64 (items x) -> keep "Encoder.PutInt64Array" "Decoder.Int64Array" (slice_val (VInts I64) x) (slice_val (VInts I64) x)) /\
  (forall x : gslice (list Z), glen x < 2 ^ 31 -> Forall (fun y => zlen y < 2 ^ 15) (items x) -> keep "Encoder.PutStringArray" "Decoder.StringArray" (slice_val VStrs x) (slice_val VStrs x)) /\
  (forall i, is_int64 i -> keep "Encoder.PutVarInt" "Decoder.VarInt" (VInt I64 i) (VInt I64 i)).
Proof. exact source_round_trip. Qed.
Print Assumptions C87_round_trip.

(** The text itself at work on 32 bits, with a writer that fills the array with 7s after each
    write: PutStringArray and PutVarInt, then StringArray and VarInt. *)
Definition narrow := mkPlatform 32 true (fun _ n => n <? 2 ^ 31).
Definition sevens (log : list (list Z)) (buf : list Z) : list Z := map (fun _ => 7) buf.
Definition run32 := call (p_int narrow) (p_late narrow) (room_of narrow (fun _ => TBool)) sevens source.
Example C87_text : go_platform narrow /\ makes_all narrow /\ extends source source /\ (forall log buf, length buf = 16%nat -> length (sevens log buf) = 16%nat).
Proof.
  split; [left; reflexivity|]. split; [intros t n H; cbn; apply Z.ltb_lt; apply H|]. split; [repeat split; auto|]. intros log buf H. unfold sevens. rewrite map_length. exact H.
Qed.
Example C87_at_work :
  let t := {| t_write := fun _ _ => None; t_flush := None; t_log := [] |} in
  match run32 5 "message.NewEncoder" [VWriter] (mkState [] t) with
  | Ok e s => match run32 6 "Encoder.PutStringArray" [e; VStrs [[65]; [66; 67]]] s with
    | Ok _ s => match run32 4 "Encoder.PutVarInt" [e; VInt I64 (-300)] s with
      | Ok _ s => t_log (world s) = [[0; 0; 0; 2]; [0; 1]; [65]; [0; 2]; [66; 67]; [215; 4]] /\
        match run32 5 "message.NewDecoder" [VInts U8 (concat (t_log (world s)) ++ [9]); VInt INT 14] s with
        | Ok d s => match run32 9 "Decoder.StringArray" [d] s with
          | Ok v s => v = VTuple [VStrs [[65]; [66; 67]]; VNil] /\ match run32 5 "Decoder.VarInt" [d] s with Ok v s => v = VTuple [VInt I64 (-300); VNil] | _ => False end
          | _ => False end
        | _ => False end
      | _ => False end
    | _ => False end
  | _ => False end.
Proof. vm_compute. repeat split. Qed.
