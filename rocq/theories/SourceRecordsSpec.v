(** * The text of gen.record_batch.go: vocabulary of C93 *)
From Coq Require Import String.
From Verif Require Import GoBase Encoder Sizeof RecordBatch GoLang GoShare Source SourceRecords.
Local Open Scope string_scope.
Local Open Scope list_scope.
Local Open Scope Z_scope.

(** ** The program: gen.record_batch.go, with the constants of package sizeof *)
Definition records_program : package := mkPackage (k_types records_source) (k_globals records_source ++ k_globals source) (k_funcs records_source).

(** ** Values.  A map is known by a number; [orders] (RecordBatch.v) has its entries in the order
    in which a range visits them. *)
Definition bytes_val (b : gslice Z) : val := match b with Some l => VInts U8 l | None => VNil end.
Definition map_val (i : nat) : val := VBox (VStruct "MapHeader" [("map", VHandle "map" i)]).
Definition message_val (i : nat) (m : Message) : val := VStruct "Message"
  [("Topic", VStr (m_topic m)); ("Partition", VInt I32 (m_partition m)); ("Offset", VInt I64 (m_offset m)); ("Key", bytes_val (m_key m)); ("Value", bytes_val (m_value m));
   ("Timestamp", VStruct "time.Time" [("unix", VInt I64 (m_unix m))]); ("Header", match m_header m with Some _ => map_val i | None => VNil end)].
Fixpoint message_vals (i : nat) (ms : list Message) : list val := match ms with [] => [] | m :: ms => message_val i m :: message_vals (S i) ms end.
Definition batch_val (r : RecordBatch) : val := VStruct "RecordBatch"
  [("BaseOffset", VInt I64 (r_BaseOffset r)); ("BatchLength", VInt I32 (r_BatchLength r)); ("PartitionLeaderEpoch", VInt I32 (r_PartitionLeaderEpoch r)); ("Magic", VInt I8 (r_Magic r));
   ("CRC", VInt I32 (r_CRC r)); ("Attributes", VInt I16 (r_Attributes r)); ("LastOffsetDelta", VInt I32 (r_LastOffsetDelta r)); ("FirstTimestamp", VInt I64 (r_FirstTimestamp r));
   ("MaxTimestamp", VInt I64 (r_MaxTimestamp r)); ("ProducerId", VInt I64 (r_ProducerId r)); ("ProducerEpoch", VInt I16 (r_ProducerEpoch r)); ("BaseSequence", VInt I32 (r_BaseSequence r));
   ("Records", match r_Records r with Some ms => VList (message_vals 0 ms) | None => VNil end)].

(** ** The surroundings: what is not in the program, as in the model *)
Definition the_enc : val := VHandle "message.Encoder" 0.
Definition is_enc (w : val) : bool := match w with VHandle "message.Encoder" 0 => true | _ => false end.
(** An argument of an integer type; an untyped constant becomes one. *)
Definition int_arg (t : ity) (w : val) : option Z := match w with VInt u z => if ity_eqb t u then Some z else None | VConst z => Some (conv 64 t z) | _ => None end.
Definition bytes_arg (w : val) : option (gslice Z) := match w with VNil => Some None | VInts U8 l => Some (Some l) | _ => None end.
Definition map_arg (w : val) : option nat := match w with VBox (VStruct "MapHeader" [(_, VHandle "map" i)]) => Some i | _ => None end.
Definition put_int (t : ity) (f : Z -> Encoder -> Encoder) (vs : list val) (e : Encoder) : option (val * Encoder) :=
  match vs with [w; x] => match is_enc w, int_arg t x with true, Some z => Some (VTuple [], f z e) | _, _ => None end | _ => None end.
Section Surroundings.
Context (orders : nat -> list (gostring * gostring)).
Definition record_replies : list (string * (list val -> Encoder -> option (val * Encoder))) :=
  [ ("message.Encoder.PutInt8", put_int I8 PutInt8); ("message.Encoder.PutInt16", put_int I16 PutInt16); ("message.Encoder.PutInt32", put_int I32 PutInt32);
    ("message.Encoder.PutInt64", put_int I64 PutInt64); ("message.Encoder.PutVarInt", put_int I64 PutVarInt);
    ("message.Encoder.PutVarBytes", fun vs e => match vs with [w; b] => match is_enc w, bytes_arg b with true, Some b => Some (VTuple [], PutVarBytes b e) | _, _ => None end | _ => None end);
    ("message.Encoder.PutRecordHeader", fun vs e => match vs with [w; VStr k; VStr v] => if is_enc w then Some (VTuple [], PutRecordHeader k v e) else None | _ => None end);
    ("time.Time.Unix", fun vs e => match vs with [VStruct _ [(_, VInt I64 z)]] => Some (VInt I64 z, e) | _ => None end);
    ("sizeof.VarInt", fun vs e => match vs with [x] => option_map (fun z => (VInt I32 (sz_VarInt z), e)) (int_arg I64 x) | _ => None end);
    ("sizeof.Bytes", fun vs e => match vs with [b] => option_map (fun b => (VInt I32 (sz_Bytes b), e)) (bytes_arg b) | _ => None end);
    ("sizeof.VarString", fun vs e => match vs with [VStr s] => Some (VInt I32 (sz_VarString s), e) | _ => None end);
    ("range map", fun vs e => match vs with [w] => option_map (fun i => (VList (map (fun kv => VTuple [VStr (fst kv); VStr (snd kv)]) (orders i)), e)) (map_arg w) | _ => None end);
    ("index map", fun vs e => match vs with [w; VStr k] => option_map (fun i => let r := MapHeader_Get (orders i) k in (VTuple [VStr (fst r); VBool (snd r)], e)) (map_arg w) | _ => None end) ].
(** How a call ends: with a result, or a panic, or it is not a program. *)
Inductive outcome := Returns (v : val) (m : mem) | Panics | Fails.
Fixpoint recording (p : proc) (e : Encoder) : outcome * Encoder :=
  match p with
  | Done v m => (Returns v m, e)
  | Crash => (Panics, e)
  | Wrong | More => (Fails, e)
  | Ask what vs m k => match lookup what record_replies with
                       | Some f => match f vs e with Some (v, e) => recording (k v m) e | None => (Fails, e) end
                       | None => (Fails, e) end
  end.
End Surroundings.
