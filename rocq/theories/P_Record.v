(** * Properties of record batches: C47-C51, C56 *)
From Coq Require Import Permutation.
From Verif Require Import GoBase GoLemmas Binary Utf8 Encoder Decoder Sizeof Spec EncProofs RecordBatch RecordSpec RecordProofs.
Local Open Scope Z_scope.
Local Open Scope list_scope.
Ltac Zify.zify_post_hook ::= idtac.

(** ** A batch for the examples: two records, the second with two headers *)
Definition ex_m1 : Message := mkMessage [116] 0 7 (Some [1; 2]) None 100 (Some []).
Definition ex_m2 : Message := mkMessage [116] 0 8 None (Some [200]) 103 (Some [([97], [98]); ([99], [])]).
Definition ex_batch : RecordBatch := mkRecordBatch 7 0 0 0 0 0 1 100 103 (-1) (-1) (-1) (Some [ex_m1; ex_m2]).
Definition ex_orders (i : nat) : list (gostring * gostring) := match i with 1%nat => [([99], []); ([97], [98])] | _ => [] end.
Example ex_orders_ok : orders_ok ex_orders ex_batch.
Proof.
  intros [|[|i]] m H; [| |destruct i; discriminate]; injection H as <-; eexists; (split; [reflexivity|]); [constructor|apply perm_swap].
Qed.
Lemma text_valid s : Forall is_byte s -> flat_map encode_rune (runes s) = s -> valid_utf8 s.
Proof. intros Hs H. apply (Utf8Proofs.rerune_length s Hs). rewrite H. reflexivity. Qed.
Example ex_pairs_ok : forall i m, nth_error (items (r_Records ex_batch)) i = Some m -> Forall pair_ok (ex_orders i).
Proof.
  assert (P : Forall pair_ok [([99], []); ([97], [98])]).
  { repeat constructor; cbn [fst snd]; try (apply text_valid; [repeat constructor; lia|reflexivity]); reflexivity. }
  intros [|[|i]] m H; [constructor|exact P|destruct i; discriminate].
Qed.

(** ** C47.  False of the code: the exact difference ... *)
Theorem C47_size_exact : forall orders1 orders2 r version bs, orders_ok orders1 r -> orders_ok orders2 r ->
  (forall i m, nth_error (items (r_Records r)) i = Some m -> Forall pair_ok (orders1 i)) ->
  Emits_if_ok (RecordBatch_Encode orders2 r version) bs ->
  exists extra, Forall2 (fun m x => exists n k, varint_len (int64 (m_offset m - r_BaseOffset r)) n /\ headers_len m k /\
                                      x = 6 + n - (if version <? 2 then k else 0)) (items (r_Records r)) extra /\
    RecordBatch_Size orders1 r version = int32 (zlen bs + total extra).
Proof. exact size_exact. Qed.
Print Assumptions C47_size_exact.
(** ... so that at versions from 2 no batch with a record (and fewer than 2^28) has the right size. *)
Theorem C47_size_refuted : forall orders1 orders2 r version bs, orders_ok orders1 r -> orders_ok orders2 r ->
  (forall i m, nth_error (items (r_Records r)) i = Some m -> Forall pair_ok (orders1 i)) ->
  Emits_if_ok (RecordBatch_Encode orders2 r version) bs -> 2 <= version -> 0 < zlen (items (r_Records r)) < 2 ^ 28 ->
  RecordBatch_Size orders1 r version <> int32 (zlen bs).
Proof. exact size_never. Qed.
Print Assumptions C47_size_refuted.
(** Missing: batches with records.  Without any the size is right. *)
Theorem C47_size_partial : forall orders1 orders2 r version, items (r_Records r) = [] ->
  exists bs, Emits_if_ok (RecordBatch_Encode orders2 r version) bs /\ RecordBatch_Size orders1 r version = zlen bs /\ zlen bs = 57.
Proof. exact empty_batch. Qed.
Print Assumptions C47_size_partial.
Example C47_case : RecordBatch_Size ex_orders ex_batch 2 = 93 /\
  option_map (fun e => zlen (output e)) (RecordBatch_Encode ex_orders ex_batch 2 (NewEncoder reliable_target)) = Some 79.
Proof. vm_compute. auto. Qed.

(** ** C48.  False of the code, for every message: the prefix is 0 and at least 5 bytes follow. *)
Theorem C48_length_prefix_refuted : forall order m version first, m_header m <> None ->
  exists rest, Emits_if_ok (encodeMessage order m version first) ([0] ++ rest) /\ 5 <= zlen rest.
Proof. exact length_prefix. Qed.
Print Assumptions C48_length_prefix_refuted.
(** Nor does anything else delimit the records: two records can be taken for one with headers. *)
Theorem C48_records_ambiguous_refuted : forall key value unix v base version, valid_utf8 v ->
  let m hs := mkMessage [] 0 0 key value unix (Some hs) in
  let b ms := mkRecordBatch base 0 0 2 0 0 0 0 0 0 0 0 (Some ms) in
  let hs := [([], []); ([0; 2; 65], v)] in
  exists bs, Emits_if_ok (RecordBatch_Encode (fun _ => []) (b [m []; mkMessage [] 0 0 (Some [65]) (Some v) 3 (Some [])]) version) bs /\
             Emits_if_ok (RecordBatch_Encode (fun _ => hs) (b [m hs]) version) bs.
Proof. exact records_ambiguous. Qed.
Print Assumptions C48_records_ambiguous_refuted.
Example C48_case : option_map output (encodeMessage [] ex_m1 2 100 (NewEncoder reliable_target)) = Some [0; 0; 0; 0; 4; 1; 2; 0].
Proof. vm_compute. reflexivity. Qed.

(** ** C49 *)
Theorem C49_fixed_header : forall orders r version bs, Emits_if_ok (RecordBatch_Encode orders r version) bs ->
  exists rest, bs = batch_header r ++ rest /\ zlen (batch_header r) = 57.
Proof. exact batch_layout. Qed.
Print Assumptions C49_fixed_header.
Theorem C49_fixed_header_read_back : forall r, batch_ok r -> Decodes read_batch_header (batch_header r)
  [r_BaseOffset r; r_BatchLength r; r_PartitionLeaderEpoch r; 2; r_CRC r; r_Attributes r; r_LastOffsetDelta r; r_FirstTimestamp r; r_MaxTimestamp r; r_ProducerId r; r_ProducerEpoch r; r_BaseSequence r].
Proof. exact batch_header_decodes. Qed.
Print Assumptions C49_fixed_header_read_back.
Example C49_case : batch_ok ex_batch /\
  option_map (fun e => firstn 57 (output e)) (RecordBatch_Encode ex_orders ex_batch 2 (NewEncoder reliable_target)) = Some (batch_header ex_batch).
Proof. split; [repeat split; cbn; unfold is_int64, is_int32, is_int16; lia|vm_compute; reflexivity]. Qed.

(** ** C50.  False of the code: encoding panics, whatever the encoder. *)
Theorem C50_nil_header_refuted : forall orders r version e, Exists (fun m => m_header m = None) (items (r_Records r)) ->
  RecordBatch_Encode orders r version e = None.
Proof. exact encode_batch_panics. Qed.
Print Assumptions C50_nil_header_refuted.
(** Missing: nil headers.  With headers (a nil or empty map included) it never panics. *)
Theorem C50_no_panic_partial : forall orders r version e, Forall (fun m => m_header m <> None) (items (r_Records r)) ->
  exists e', RecordBatch_Encode orders r version e = Some e'.
Proof. exact encode_batch_total. Qed.
Print Assumptions C50_no_panic_partial.
Example C50_case : RecordBatch_Encode (fun _ => []) (mkRecordBatch 0 0 0 0 0 0 0 0 0 0 0 0 (Some [ex_m1; mkMessage [] 0 0 None None 0 None])) 2 (NewEncoder reliable_target) = None.
Proof. reflexivity. Qed.

(** ** C51.  Missing: the number of headers, which is not written, and header strings that
    are not UTF-8.  A record with a known number of headers can be read back, ... *)
Theorem C51_record_read_back_partial : forall order m version first, m_header m <> None -> Forall pair_ok order -> message_fits m ->
  exists bs, Emits_if_ok (encodeMessage order m version first) bs /\
    Decodes (read_record (length order)) bs (0, (0, (ts_delta m first, (0, (Some (items (m_key m)), (Some (items (m_value m)), order)))))).
Proof. exact record_recovered. Qed.
Print Assumptions C51_record_read_back_partial.
(** ... so can a whole batch with a known number of records and headers, ... *)
Theorem C51_batch_read_back_partial : forall orders r version, batch_ok r ->
  (forall i m, nth_error (items (r_Records r)) i = Some m -> m_header m <> None /\ Forall pair_ok (orders i) /\ message_fits m) ->
  let n := List.seq 0 (length (items (r_Records r))) in
  exists bs, Emits_if_ok (RecordBatch_Encode orders r version) bs /\
    Decodes (read_batch (map (fun i => length (orders i)) n)) bs
      ([r_BaseOffset r; r_BatchLength r; r_PartitionLeaderEpoch r; 2; r_CRC r; r_Attributes r; r_LastOffsetDelta r; r_FirstTimestamp r; r_MaxTimestamp r; r_ProducerId r; r_ProducerEpoch r; r_BaseSequence r],
       map (fun p => content (orders (fst p)) (snd p) (r_FirstTimestamp r)) (combine n (items (r_Records r)))).
Proof. exact batch_recovered. Qed.
Print Assumptions C51_batch_read_back_partial.
(** ... and if its end is known, the number of headers need not be. *)
Theorem C51_record_injective_partial : forall order1 m1 first1 v1 order2 m2 first2 v2 bs, Forall pair_ok order1 -> message_fits m1 -> Forall pair_ok order2 -> message_fits m2 ->
  Emits_if_ok (encodeMessage order1 m1 v1 first1) bs -> Emits_if_ok (encodeMessage order2 m2 v2 first2) bs ->
  ts_delta m1 first1 = ts_delta m2 first2 /\ items (m_key m1) = items (m_key m2) /\ items (m_value m1) = items (m_value m2) /\ order1 = order2.
Proof. exact record_injective. Qed.
Print Assumptions C51_record_injective_partial.
(** The offset (and topic and partition) is not written, ... *)
Theorem C51_offset_not_written : forall order m1 m2 version first e, m_key m1 = m_key m2 -> m_value m1 = m_value m2 -> m_unix m1 = m_unix m2 -> m_header m1 = m_header m2 ->
  encodeMessage order m1 version first e = encodeMessage order m2 version first e.
Proof. exact offset_lost. Qed.
Print Assumptions C51_offset_not_written.
(** ... a nil key or value (in Kafka: null, a tombstone) is written like an empty one, ... *)
Theorem C51_nil_refuted : forall order m version first e,
  encodeMessage order (mkMessage (m_topic m) (m_partition m) (m_offset m) None (m_value m) (m_unix m) (m_header m)) version first e =
  encodeMessage order (mkMessage (m_topic m) (m_partition m) (m_offset m) (Some []) (m_value m) (m_unix m) (m_header m)) version first e /\
  encodeMessage order (mkMessage (m_topic m) (m_partition m) (m_offset m) (m_key m) None (m_unix m) (m_header m)) version first e =
  encodeMessage order (mkMessage (m_topic m) (m_partition m) (m_offset m) (m_key m) (Some []) (m_unix m) (m_header m)) version first e.
Proof. exact nil_lost. Qed.
Print Assumptions C51_nil_refuted.
(** ... and headers that are not UTF-8 are lost. *)
Theorem C51_invalid_header_refuted : forall key value unix version first,
  let m s := mkMessage [] 0 0 key value unix (Some [(s, [])]) in
  exists bs, Emits_if_ok (encodeMessage [([255], [])] (m [255]) version first) bs /\ Emits_if_ok (encodeMessage [([254], [])] (m [254]) version first) bs.
Proof. exact invalid_header_lost. Qed.
Print Assumptions C51_invalid_header_refuted.
Example C51_case : option_map output (encodeMessage (ex_orders 1) ex_m2 2 100 (NewEncoder reliable_target)) =
  Some [0; 0; 6; 0; 0; 2; 200; 2; 99; 0; 2; 97; 2; 98] /\
  read_record 2 (NewDecoder [0; 0; 6; 0; 0; 2; 200; 2; 99; 0; 2; 97; 2; 98] 14) =
  DOk (0, (0, (3, (0, (Some [], (Some [200], ex_orders 1)))))) (mkDecoder [0; 0; 6; 0; 0; 2; 200; 2; 99; 0; 2; 97; 2; 98] 14 14).
Proof. vm_compute. auto. Qed.

Example C51_batch : option_map (fun e => match read_batch [0%nat; 2%nat] (NewDecoder (output e) (zlen (output e))) with DOk x d => Some (x, d_offset d) | _ => None end)
    (RecordBatch_Encode ex_orders ex_batch 2 (NewEncoder reliable_target)) =
  Some (Some (([7; 0; 0; 2; 0; 0; 1; 100; 103; -1; -1; -1], [content [] ex_m1 100; content (ex_orders 1) ex_m2 100]), 79)).
Proof. vm_compute. reflexivity. Qed.

(** ** C56 *)
Theorem C56_get_range : forall m order key value, map_ok m -> Permutation order m ->
  (MapHeader_Get m key = (value, true) <-> In (key, value) order).
Proof. exact get_range. Qed.
Print Assumptions C56_get_range.
Theorem C56_get_absent : forall m order key, Permutation order m -> (forall value, ~ In (key, value) order) -> MapHeader_Get m key = ([], false).
Proof. exact get_absent. Qed.
Print Assumptions C56_get_absent.
(** Range calls the function once for each key, with its value and no others. *)
Theorem C56_range_calls : forall m order, map_ok m -> Permutation order m ->
  MapHeader_Range order (fun k v calls => calls ++ [(k, v)]) [] = order /\ NoDup (map fst order).
Proof. exact range_calls. Qed.
Print Assumptions C56_range_calls.
Example C56_case : map_ok [([97], [98]); ([99], [])] /\ MapHeader_Get [([97], [98]); ([99], [])] [99] = ([], true).
Proof. split; [repeat constructor; cbn; intuition discriminate|reflexivity]. Qed.
