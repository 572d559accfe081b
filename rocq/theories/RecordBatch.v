(** * Model of gen.record_batch.go *)
From Verif Require Import GoBase Encoder Sizeof.
Local Open Scope Z_scope.
Local Open Scope list_scope.

(** gen.record_batch.go:26 *)
Definition magic : Z := 2.

(** gen.record_batch.go:35: a map, as the list of its entries (each key once).
    A nil map is the empty list. *)
Definition MapHeader : Type := list (gostring * gostring).
Definition map_ok (m : MapHeader) : Prop := NoDup (map fst m).

(** gen.record_batch.go:38-41 *)
Fixpoint MapHeader_Get (m : MapHeader) (key : gostring) : gostring * bool :=
  match m with
  | [] => ([], false)
  | (k, v) :: rest => if list_eq_dec Z.eq_dec k key then (v, true) else MapHeader_Get rest key
  end.

(** gen.record_batch.go:44-48.  [range] over a map visits the entries in any order, a new
    one each time: the calls of [fn] are given by a list of pairs, here [order].
    For another implementation of Header [order] is whatever its Range does. *)
Definition MapHeader_Range {S} (order : list (gostring * gostring)) (fn : gostring -> gostring -> S -> S) (s : S) : S :=
  fold_left (fun s kv => fn (fst kv) (snd kv) s) order s.

(** gen.record_batch.go:51-59.  [m_unix] is [Timestamp.Unix()]; the rest of the time is not
    used.  [m_header] is [None] for a nil interface and else the entries. *)
Record Message := mkMessage {
  m_topic : gostring; m_partition : Z; m_offset : Z; m_key : gslice Z; m_value : gslice Z;
  m_unix : Z; m_header : option MapHeader }.

(** gen.record_batch.go:61-64 *)
Definition Message_Size (version : Z) (m : Message) : Z := 0.

(** gen.record_batch.go:68-82 *)
Record RecordBatch := mkRecordBatch {
  r_BaseOffset : Z; r_BatchLength : Z; r_PartitionLeaderEpoch : Z; r_Magic : Z; r_CRC : Z; r_Attributes : Z;
  r_LastOffsetDelta : Z; r_FirstTimestamp : Z; r_MaxTimestamp : Z; r_ProducerId : Z; r_ProducerEpoch : Z;
  r_BaseSequence : Z; r_Records : gslice Message }.

(** gen.record_batch.go:136-152 *)
Definition sizeofMessage (order : list (gostring * gostring)) (m : Message) (version baseOffset firstTimestamp : Z) : Z :=
  let sz := add32 0 sz_Int8 in
  let sz := add32 sz (sz_VarInt (int64 (m_unix m - firstTimestamp))) in
  let sz := add32 sz (sz_VarInt (int64 (m_offset m - baseOffset))) in
  let sz := add32 sz (sz_VarInt (int64 (glen (m_key m)))) in
  let sz := add32 sz (sz_Bytes (m_key m)) in
  let sz := add32 sz (sz_VarInt (int64 (glen (m_value m)))) in
  let sz := add32 sz (sz_Bytes (m_value m)) in
  if (magic <=? version) && match m_header m with Some _ => true | None => false end
  then MapHeader_Range order (fun key value sz => add32 (add32 sz (sz_VarString key)) (sz_VarString value)) sz
  else sz.

(** gen.record_batch.go:124-133; [None]: panic (method call on a nil interface). *)
Definition encodeMessage (order : list (gostring * gostring)) (m : Message) (version firstTimestamp : Z) (e : Encoder) : option Encoder :=
  let e := PutVarInt (int64 (Message_Size version m)) e in
  let e := PutInt8 0 e in
  let e := PutVarInt (int64 (m_unix m - firstTimestamp)) e in
  let e := PutVarInt 0 e in
  let e := PutVarBytes (m_key m) e in
  let e := PutVarBytes (m_value m) e in
  match m_header m with
  | None => None
  | Some _ => Some (MapHeader_Range order PutRecordHeader e)
  end.

(** gen.record_batch.go:84-104; [orders i]: the calls of Range of record i's header. *)
Definition RecordBatch_Size (orders : nat -> list (gostring * gostring)) (r : RecordBatch) (version : Z) : Z :=
  let sz := add32 0 sz_Int64 in
  let sz := add32 sz sz_Int32 in
  let sz := add32 sz sz_Int32 in
  let sz := add32 sz sz_Int8 in
  let sz := add32 sz sz_Int32 in
  let sz := add32 sz sz_Int16 in
  let sz := add32 sz sz_Int32 in
  let sz := add32 sz sz_Int64 in
  let sz := add32 sz sz_Int64 in
  let sz := add32 sz sz_Int64 in
  let sz := add32 sz sz_Int16 in
  let sz := add32 sz sz_Int32 in
  (fix loop i ms sz := match ms with
    | [] => sz
    | m :: rest => loop (S i) rest (add32 sz (sizeofMessage (orders i) m version (r_BaseOffset r) (r_FirstTimestamp r)))
    end) O (items (r_Records r)) sz.

(** gen.record_batch.go:106-121 *)
Fixpoint encode_records (orders : nat -> list (gostring * gostring)) (i : nat) (ms : list Message) (version firstTimestamp : Z) (e : Encoder) : option Encoder :=
  match ms with
  | [] => Some e
  | m :: rest => match encodeMessage (orders i) m version firstTimestamp e with
                 | None => None
                 | Some e => encode_records orders (S i) rest version firstTimestamp e
                 end
  end.
Definition RecordBatch_Encode (orders : nat -> list (gostring * gostring)) (r : RecordBatch) (version : Z) (e : Encoder) : option Encoder :=
  let e := PutInt64 (r_BaseOffset r) e in
  let e := PutInt32 (r_BatchLength r) e in
  let e := PutInt32 (r_PartitionLeaderEpoch r) e in
  let e := PutInt8 magic e in
  let e := PutInt32 (r_CRC r) e in
  let e := PutInt16 (r_Attributes r) e in
  let e := PutInt32 (r_LastOffsetDelta r) e in
  let e := PutInt64 (r_FirstTimestamp r) e in
  let e := PutInt64 (r_MaxTimestamp r) e in
  let e := PutInt64 (r_ProducerId r) e in
  let e := PutInt16 (r_ProducerEpoch r) e in
  let e := PutInt32 (r_BaseSequence r) e in
  encode_records orders 0 (items (r_Records r)) version (r_FirstTimestamp r) e.
