(** * Vocabulary for the record batch properties *)
From Coq Require Import Permutation.
From Verif Require Import GoBase Encoder Decoder Spec RecordBatch.
Local Open Scope Z_scope.
Local Open Scope list_scope.

(** [act] succeeds on every encoder that works and emits [bs]. *)
Definition Emits_if_ok (act : Encoder -> option Encoder) (bs : list Z) : Prop :=
  forall e, reliable e -> exists e', act e = Some e' /\ reliable e' /\ output e' = output e ++ bs.

(** The calls of Range are those of the map's entries, in some order. *)
Definition order_ok (order : list (gostring * gostring)) (m : Message) : Prop :=
  exists hs, m_header m = Some hs /\ Permutation order hs.
Definition orders_ok (orders : nat -> list (gostring * gostring)) (r : RecordBatch) : Prop :=
  forall i m, nth_error (items (r_Records r)) i = Some m -> order_ok (orders i) m.

(** Values that Go can hold and that survive the encoding (C04): lengths, and strings in UTF-8. *)
Definition pair_ok (kv : gostring * gostring) : Prop :=
  valid_utf8 (fst kv) /\ valid_utf8 (snd kv) /\ zlen (fst kv) < 2 ^ 63 /\ zlen (snd kv) < 2 ^ 63.
Definition message_fits (m : Message) : Prop := glen (m_key m) < 2 ^ 63 /\ glen (m_value m) < 2 ^ 63.

(** The difference written as timestamp. *)
Definition ts_delta (m : Message) (first : Z) : Z := int64 (m_unix m - first).

(** Reading a record (https://kafka.apache.org/documentation/#record) that has [n] headers. *)
Definition read_header : Dec (gostring * gostring) := (k <- dVarString ;; v <- dVarString ;; ret (k, v)).
Definition read_record (n : nat) : Dec (Z * (Z * (Z * (Z * (gslice Z * (gslice Z * list (gostring * gostring))))))) :=
  (len <- dVarInt ;; attr <- dInt8 ;; ts <- dVarInt ;; off <- dVarInt ;; key <- dVarBytes ;; value <- dVarBytes ;;
   hs <- repeat_dec n read_header ;; ret (len, (attr, (ts, (off, (key, (value, hs))))))).

(** The fixed part of a batch (https://kafka.apache.org/documentation/#recordbatch), up to the
    base sequence, magic being 2. *)
Definition batch_header (r : RecordBatch) : list Z :=
  be 8 (r_BaseOffset r) ++ be 4 (r_BatchLength r) ++ be 4 (r_PartitionLeaderEpoch r) ++ be 1 2 ++ be 4 (r_CRC r) ++
  be 2 (r_Attributes r) ++ be 4 (r_LastOffsetDelta r) ++ be 8 (r_FirstTimestamp r) ++ be 8 (r_MaxTimestamp r) ++
  be 8 (r_ProducerId r) ++ be 2 (r_ProducerEpoch r) ++ be 4 (r_BaseSequence r).
Definition read_batch_header : Dec (list Z) :=
  (a <- dInt64 ;; b <- dInt32 ;; c <- dInt32 ;; d <- dInt8 ;; e <- dInt32 ;; f <- dInt16 ;; g <- dInt32 ;;
   h <- dInt64 ;; i <- dInt64 ;; j <- dInt64 ;; k <- dInt16 ;; l <- dInt32 ;; ret [a; b; c; d; e; f; g; h; i; j; k; l]).
Definition batch_ok (r : RecordBatch) : Prop :=
  is_int64 (r_BaseOffset r) /\ is_int32 (r_BatchLength r) /\ is_int32 (r_PartitionLeaderEpoch r) /\ is_int32 (r_CRC r) /\
  is_int16 (r_Attributes r) /\ is_int32 (r_LastOffsetDelta r) /\ is_int64 (r_FirstTimestamp r) /\ is_int64 (r_MaxTimestamp r) /\
  is_int64 (r_ProducerId r) /\ is_int16 (r_ProducerEpoch r) /\ is_int32 (r_BaseSequence r).

(** The number of bytes of a varint. *)
Definition varint_len (x n : Z) : Prop := exists bs, is_base128 (zz x) bs /\ n = zlen bs.
(** The number of bytes of a message's encoded headers. *)
Definition headers_len (m : Message) (n : Z) : Prop :=
  exists hs bs, m_header m = Some hs /\ Emits (MapHeader_Range hs PutRecordHeader) bs /\ n = zlen bs.
Fixpoint total (l : list Z) : Z := match l with [] => 0 | x :: r => x + total r end.

(** Reading a batch whose records have [ns] headers. *)
Definition record_content : Type := Z * (Z * (Z * (Z * (gslice Z * (gslice Z * list (gostring * gostring)))))).
Fixpoint read_records (ns : list nat) : Dec (list record_content) :=
  match ns with
  | [] => ret []
  | n :: ns => r <- read_record n ;; rs <- read_records ns ;; ret (r :: rs)
  end.
Definition read_batch (ns : list nat) : Dec (list Z * list record_content) := (h <- read_batch_header ;; rs <- read_records ns ;; ret (h, rs)).
(** What is read of a message whose headers were written in this order: length and
    offset difference are always 0. *)
Definition content (order : list (gostring * gostring)) (m : Message) (first : Z) : record_content :=
  (0, (0, (ts_delta m first, (0, (Some (items (m_key m)), (Some (items (m_value m)), order)))))).
