(** * Kafka's record batch

    The format of https://kafka.apache.org/documentation/#messageformat (magic 2), written
    down from memory: 57 bytes of fixed fields ([batch_header]), the number of
    records in 4 bytes, the records.  A record is the length of what follows, one byte
    of attributes, the differences of its timestamp and offset to those of the batch, key,
    value, the number of headers, the headers; lengths, differences and counts are
    zig-zag base-128, the length of a null key or value is -1. *)
From Coq Require Import Permutation.
From Verif Require Import GoBase Spec RecordBatch RecordSpec.
Local Open Scope Z_scope.
Local Open Scope list_scope.

Definition k_varint (x : Z) (bs : list Z) : Prop := is_base128 (zz x) bs.
Definition k_bytes (s : gslice Z) (bs : list Z) : Prop :=
  match s with
  | None => k_varint (-1) bs
  | Some l => exists pre, k_varint (zlen l) pre /\ bs = pre ++ l
  end.
Definition k_header (kv : gostring * gostring) (bs : list Z) : Prop :=
  exists b1 b2, k_bytes (Some (fst kv)) b1 /\ k_bytes (Some (snd kv)) b2 /\ bs = b1 ++ b2.
(** [first] and [base] are the timestamp and offset of the batch.  The unit of the
    timestamps is left open: the difference is the one the library takes. *)
Definition k_record (base first : Z) (m : Message) (bs : list Z) : Prop :=
  exists hs parts len ts off key value count body,
    match m_header m with Some entries => Permutation hs entries | None => hs = [] end /\ Forall2 k_header hs parts /\
    k_varint (ts_delta m first) ts /\ k_varint (m_offset m - base) off /\
    k_bytes (m_key m) key /\ k_bytes (m_value m) value /\ k_varint (zlen hs) count /\
    body = [0] ++ ts ++ off ++ key ++ value ++ count ++ concat parts /\
    k_varint (zlen body) len /\ bs = len ++ body.
Definition k_batch (r : RecordBatch) (bs : list Z) : Prop :=
  exists parts, Forall2 (k_record (r_BaseOffset r) (r_FirstTimestamp r)) (items (r_Records r)) parts /\
    bs = batch_header r ++ be 4 (zlen (items (r_Records r))) ++ concat parts.
