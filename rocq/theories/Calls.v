(** * The Put methods of the encoder as one family *)
From Verif Require Import GoBase Binary Utf8 Encoder.

(** One constructor for each exported Put method of message/encoder.go
    (56-233), carrying its arguments. *)
Inductive call : Type :=
| CallInt8 (i : Z) | CallInt16 (i : Z) | CallInt32 (i : Z) | CallInt64 (i : Z)
| CallBool (b : bool) | CallArrayLength (n : Z)
| CallBytes (data : gslice Z) | CallString (s : gostring) | CallNullableString (s : option gostring)
| CallInt32Array (ii : gslice Z) | CallInt64Array (ii : gslice Z) | CallStringArray (ss : gslice gostring)
| CallVarInt (i : Z) | CallVarBytes (data : gslice Z) | CallVarString (s : gostring)
| CallRecordHeader (key value : gostring).

Definition perform (c : call) : Encoder -> Encoder :=
  match c with
  | CallInt8 i => PutInt8 i | CallInt16 i => PutInt16 i | CallInt32 i => PutInt32 i | CallInt64 i => PutInt64 i
  | CallBool b => PutBool b | CallArrayLength n => PutArrayLength n
  | CallBytes s => PutBytes s | CallString s => PutString s | CallNullableString s => PutNullableString s
  | CallInt32Array s => PutInt32Array s | CallInt64Array s => PutInt64Array s | CallStringArray s => PutStringArray s
  | CallVarInt i => PutVarInt i | CallVarBytes s => PutVarBytes s | CallVarString s => PutVarString s
  | CallRecordHeader k v => PutRecordHeader k v
  end.

(** A sequence of calls on one encoder. *)
Definition perform_all (cs : list call) (e : Encoder) : Encoder := fold_left (fun e c => perform c e) cs e.

(** The three methods whose second write is not guarded. *)
Definition unguarded (c : call) : bool :=
  match c with CallVarBytes _ | CallVarString _ | CallRecordHeader _ _ => true | _ => false end.

(** Write number [k] of all the writes ever made to [t] failed with [x]. *)
Definition failed_at (t : target) (k : nat) (x : error) : Prop :=
  exists data, nth_error (t_log t) k = Some data /\ t_write t (firstn k (t_log t)) data = Some x.

(** A writer that keeps reporting its first error, as bufio.Writer does. *)
Definition sticky (t : target) : Prop :=
  forall log data later data' x, t_write t log data = Some x ->
    t_write t (log ++ data :: later) data' = Some x.
