(** * Lemmas about record batches *)
From Coq Require Import Permutation.
From Verif Require Import GoBase GoLemmas Binary Utf8 Encoder Decoder Sizeof Spec EncProofs DecProofs VarProofs Utf8Proofs SizeProofs PrimProofs CodecProps RecordBatch RecordSpec.
Local Open Scope Z_scope.
Local Open Scope list_scope.
Ltac Zify.zify_post_hook ::= idtac.

(** ** What is emitted *)
Definition w_text (s : gostring) : list Z := w_varint (int64 (zlen s)) ++ flat_map encode_rune (runes s).
Definition w_pair (kv : gostring * gostring) : list Z := w_text (fst kv) ++ w_text (snd kv).
Definition w_data (s : gslice Z) : list Z := w_varint (int64 (glen s)) ++ items s.
Definition w_record (order : list (gostring * gostring)) (m : Message) (first : Z) : list Z :=
  [0] ++ [0] ++ w_varint (ts_delta m first) ++ [0] ++ w_data (m_key m) ++ w_data (m_value m) ++ flat_map w_pair order.

Lemma Emits_if_ok_inj act a b : Emits_if_ok act a -> Emits_if_ok act b -> a = b.
Proof.
  intros Ha Hb. destruct (Ha _ reliable_new) as (e1 & E1 & _ & O1). destruct (Hb _ reliable_new) as (e2 & E2 & _ & O2).
  assert (e1 = e2) by congruence. subst e2. rewrite O1 in O2. apply app_inv_head in O2. exact O2.
Qed.
Lemma Emits_header kv : Emits (PutRecordHeader (fst kv) (snd kv)) (w_pair kv).
Proof. apply Emits_PutRecordHeader; apply Emits_PutVarString. Qed.
Lemma Emits_Range order : Emits (MapHeader_Range order PutRecordHeader) (flat_map w_pair order).
Proof.
  induction order as [|kv order IH]; intros e He; [cbn; rewrite app_nil_r; auto|]. unfold MapHeader_Range. cbn [fold_left flat_map].
  destruct (Emits_header kv e He) as [H1 H2]. destruct (IH _ H1) as [H3 H4]. split; [exact H3|]. unfold MapHeader_Range in H4. rewrite H4, H2, app_assoc. reflexivity.
Qed.
Lemma Emits_PutInt8 i : Emits (PutInt8 i) (be 1 i).
Proof. pose proof (Runs_Emits _ _ (Runs_PutInt8 i)) as H. cbn [concat] in H. rewrite app_nil_r in H. exact H. Qed.
Lemma Emits_PutInt16 i : Emits (PutInt16 i) (be 2 i).
Proof. pose proof (Runs_Emits _ _ (Runs_PutInt16 i)) as H. cbn [concat] in H. rewrite app_nil_r in H. exact H. Qed.
Lemma Emits_PutInt32 i : Emits (PutInt32 i) (be 4 i).
Proof. pose proof (Runs_Emits _ _ (Runs_PutInt32 i)) as H. cbn [concat] in H. rewrite app_nil_r in H. exact H. Qed.
Lemma Emits_PutInt64 i : Emits (PutInt64 i) (be 8 i).
Proof. pose proof (Runs_Emits _ _ (Runs_PutInt64 i)) as H. cbn [concat] in H. rewrite app_nil_r in H. exact H. Qed.
Lemma Emits_record order m version first : m_header m <> None -> Emits_if_ok (encodeMessage order m version first) (w_record order m first).
Proof.
  intros Hm e He. unfold encodeMessage. destruct (m_header m); [|congruence]. eexists. split; [reflexivity|].
  assert (E : Emits (seq (PutVarInt 0) (seq (PutInt8 0) (seq (PutVarInt (int64 (m_unix m - first))) (seq (PutVarInt 0) (seq (PutVarBytes (m_key m)) (seq (PutVarBytes (m_value m)) (MapHeader_Range order PutRecordHeader))))))) (w_record order m first)).
  { change (w_record order m first) with (w_varint 0 ++ be 1 0 ++ w_varint (ts_delta m first) ++ w_varint 0 ++ w_data (m_key m) ++ w_data (m_value m) ++ flat_map w_pair order).
    apply Emits_seq; [apply Emits_PutVarInt|]. apply Emits_seq; [apply Emits_PutInt8|]. apply Emits_seq; [apply Emits_PutVarInt|]. apply Emits_seq; [apply Emits_PutVarInt|].
    apply Emits_seq; [apply Emits_PutVarBytes|]. apply Emits_seq; [apply Emits_PutVarBytes|]. apply Emits_Range. }
  exact (E e He).
Qed.
Fixpoint w_records (orders : nat -> list (gostring * gostring)) (i : nat) (ms : list Message) (first : Z) : list Z :=
  match ms with [] => [] | m :: rest => w_record (orders i) m first ++ w_records orders (S i) rest first end.
Lemma Emits_records orders version first : forall ms i, Forall (fun m => m_header m <> None) ms ->
  Emits_if_ok (encode_records orders i ms version first) (w_records orders i ms first).
Proof.
  induction ms as [|m ms IH]; intros i H e He; cbn [encode_records w_records]; [exists e; rewrite app_nil_r; auto|]. inversion H as [|? ? Hm Hms]; subst.
  destruct (Emits_record (orders i) m version first Hm e He) as (e1 & -> & R1 & O1). destruct (IH (S i) Hms e1 R1) as (e2 & -> & R2 & O2).
  exists e2. split; [reflexivity|]. split; [exact R2|]. rewrite O2, O1, app_assoc. reflexivity.
Qed.
Lemma Emits_batch orders r version : Forall (fun m => m_header m <> None) (items (r_Records r)) ->
  Emits_if_ok (RecordBatch_Encode orders r version) (batch_header r ++ w_records orders 0 (items (r_Records r)) (r_FirstTimestamp r)).
Proof.
  intros H e He. unfold RecordBatch_Encode.
  assert (E : Emits (seq (PutInt64 (r_BaseOffset r)) (seq (PutInt32 (r_BatchLength r)) (seq (PutInt32 (r_PartitionLeaderEpoch r)) (seq (PutInt8 magic) (seq (PutInt32 (r_CRC r))
      (seq (PutInt16 (r_Attributes r)) (seq (PutInt32 (r_LastOffsetDelta r)) (seq (PutInt64 (r_FirstTimestamp r)) (seq (PutInt64 (r_MaxTimestamp r)) (seq (PutInt64 (r_ProducerId r))
      (seq (PutInt16 (r_ProducerEpoch r)) (PutInt32 (r_BaseSequence r))))))))))))) (batch_header r)).
  { unfold batch_header. apply Emits_seq; [apply Emits_PutInt64|]. apply Emits_seq; [apply Emits_PutInt32|]. apply Emits_seq; [apply Emits_PutInt32|]. apply Emits_seq; [apply Emits_PutInt8|]. apply Emits_seq; [apply Emits_PutInt32|]. apply Emits_seq; [apply Emits_PutInt16|]. apply Emits_seq; [apply Emits_PutInt32|]. apply Emits_seq; [apply Emits_PutInt64|]. apply Emits_seq; [apply Emits_PutInt64|]. apply Emits_seq; [apply Emits_PutInt64|]. apply Emits_seq; [apply Emits_PutInt16|]. apply Emits_PutInt32. }
  destruct (E e He) as [R1 O1]. cbv beta delta [seq] in R1, O1.
  destruct (Emits_records orders version (r_FirstTimestamp r) _ 0 H _ R1) as (e2 & E2 & R2 & O2). exists e2. split; [exact E2|]. split; [exact R2|]. rewrite O2, O1, app_assoc. reflexivity.
Qed.
Lemma encode_batch_total orders r version e : Forall (fun m => m_header m <> None) (items (r_Records r)) -> exists e', RecordBatch_Encode orders r version e = Some e'.
Proof.
  intros H. unfold RecordBatch_Encode. match goal with |- exists e', encode_records _ _ _ _ _ ?x = _ => generalize x end. generalize 0%nat.
  revert H. generalize (items (r_Records r)) as ms. induction ms as [|m ms IH]; intros H i e0; cbn [encode_records]; [eauto|]. inversion H as [|? ? Hm Hms]; subst.
  unfold encodeMessage at 1. destruct (m_header m) as [hs|]; [|congruence]. apply IH, Hms.
Qed.
Lemma encode_batch_panics orders r version e : Exists (fun m => m_header m = None) (items (r_Records r)) -> RecordBatch_Encode orders r version e = None.
Proof.
  intros H. unfold RecordBatch_Encode. match goal with |- encode_records _ _ _ _ _ ?x = _ => generalize x end. generalize 0%nat.
  revert H. generalize (items (r_Records r)) as ms. induction ms as [|m ms IH]; intros H i e0; [inversion H|]. cbn [encode_records]. 
  unfold encodeMessage at 1. destruct (m_header m) as [hs|] eqn:E; [|reflexivity]. apply IH. inversion H; subst; [congruence|assumption].
Qed.

(** ** Sizes *)
Lemma zlen_w_varint x : 1 <= zlen (w_varint x) <= 10.
Proof. unfold w_varint. destruct (put_varint_total x) as (bs & -> & H). unfold zlen. lia. Qed.
Lemma text_size s : valid_utf8 s -> zlen s < 2 ^ 63 -> sz_VarString s = int32 (zlen (w_text s)).
Proof. intros H1 H2. unfold w_text. rewrite rerune_valid by exact H1. apply sz_VarString_spec. Qed.
Lemma range_size order : Forall pair_ok order -> forall a,
  MapHeader_Range order (fun key value sz => add32 (add32 sz (sz_VarString key)) (sz_VarString value)) (int32 a) = int32 (a + zlen (flat_map w_pair order)).
Proof.
  induction 1 as [|kv order (H1 & H2 & H3 & H4) H IH]; intros a; unfold MapHeader_Range; cbn [fold_left flat_map]; [f_equal; cbn; lia|].
  rewrite (text_size _ H1 H3), (text_size _ H2 H4), !add32_lr. unfold MapHeader_Range in IH. rewrite IH. f_equal. unfold w_pair at 2. rewrite !zlen_app. lia.
Qed.
Lemma zlen_flat_map_perm {A} (f : A -> list Z) a b : Permutation a b -> zlen (flat_map f a) = zlen (flat_map f b).
Proof. induction 1; cbn [flat_map]; rewrite ?zlen_app; lia. Qed.
Definition offset_len (m : Message) (base : Z) : Z := zlen (w_varint (int64 (m_offset m - base))).
Lemma message_size order1 order2 m version base first : m_header m <> None -> Forall pair_ok order1 -> Permutation order1 order2 ->
  forall a, add32 (int32 a) (sizeofMessage order1 m version base first) =
    int32 (a + (zlen (w_record order2 m first) + 6 + offset_len m base - (if version <? 2 then zlen (flat_map w_pair order2) else 0))).
Proof.
  intros Hm Hp Hperm a. pose proof (zlen_flat_map_perm w_pair _ _ Hperm) as P. unfold sizeofMessage.
  set (b := 1 + zlen (w_varint (ts_delta m first)) + offset_len m base + (4 + zlen (w_data (m_key m))) + (4 + zlen (w_data (m_value m)))).
  match goal with |- add32 _ (if _ then MapHeader_Range _ _ ?x else _) = _ => assert (B : x = int32 b) end.
  { change (add32 0 sz_Int8) with (int32 1). rewrite !sz_VarInt_spec, !sz_Bytes_spec.
    rewrite (add32_l 1), add32_l, add32_l, add32_lr, add32_l, add32_lr. f_equal.
    unfold b, ts_delta, offset_len, w_data, w_bytes. rewrite !zlen_app, !zlen_be. lia. }
  rewrite B. destruct (m_header m); [|congruence]. rewrite andb_true_r. change magic with 2.
  assert (W : zlen (w_record order2 m first) = 3 + zlen (w_varint (ts_delta m first)) + zlen (w_data (m_key m)) + zlen (w_data (m_value m)) + zlen (flat_map w_pair order2)).
  { unfold w_record. rewrite !zlen_app. change (zlen [0]) with 1. lia. }
  destruct (Z.leb_spec 2 version); destruct (Z.ltb_spec version 2); try lia.
  - rewrite range_size by exact Hp. rewrite add32_lr. f_equal. unfold b. lia.
  - rewrite add32_lr. f_equal. unfold b. lia.
Qed.

Lemma records_size orders1 orders2 version base first : forall ms i a,
  (forall j m, nth_error ms j = Some m -> order_ok (orders1 (i + j)%nat) m /\ order_ok (orders2 (i + j)%nat) m /\ Forall pair_ok (orders1 (i + j)%nat)) ->
  (fix loop i ms sz := match ms with
    | [] => sz
    | m :: rest => loop (S i) rest (add32 sz (sizeofMessage (orders1 i) m version base first))
    end) i ms (int32 a) =
  int32 (a + zlen (w_records orders2 i ms first) +
    total (map (fun m => 6 + offset_len m base - (if version <? 2 then match m_header m with Some hs => zlen (flat_map w_pair hs) | None => 0 end else 0)) ms)).
Proof.
  induction ms as [|m ms IH]; intros i a H; [cbn; f_equal; lia|].
  destruct (H 0%nat m eq_refl) as ((hs & E1 & P1) & (hs' & E2 & P2) & Hp). rewrite Nat.add_0_r in *. rewrite E1 in E2. injection E2 as <-.
  assert (P : Permutation (orders1 i) (orders2 i)) by (rewrite P1, P2; reflexivity).
  rewrite (message_size (orders1 i) (orders2 i) m version base first); [|congruence|exact Hp|exact P].
  rewrite IH; [|intros j m' Hj; replace (S i + j)%nat with (i + S j)%nat by lia; exact (H (S j) m' Hj)].
  f_equal. cbn [w_records map total]. rewrite E1, zlen_app, (zlen_flat_map_perm w_pair _ _ P2). lia.
Qed.
Lemma batch_header_len r : zlen (batch_header r) = 57.
Proof. unfold batch_header. rewrite !zlen_app, !zlen_be. reflexivity. Qed.
Lemma orders_nonnil orders r : orders_ok orders r -> Forall (fun m => m_header m <> None) (items (r_Records r)).
Proof. intros H. apply Forall_forall. intros m Hm. apply In_nth_error in Hm. destruct Hm as (i & Hi). destruct (H i m Hi) as (hs & -> & _). discriminate. Qed.
Lemma varint_len_offset m base : varint_len (int64 (m_offset m - base)) (offset_len m base).
Proof. exists (w_varint (int64 (m_offset m - base))). split; [apply is_base128_w_varint, (wrap_range 64); lia|reflexivity]. Qed.

Lemma size_exact orders1 orders2 r version bs : orders_ok orders1 r -> orders_ok orders2 r ->
  (forall i m, nth_error (items (r_Records r)) i = Some m -> Forall pair_ok (orders1 i)) ->
  Emits_if_ok (RecordBatch_Encode orders2 r version) bs ->
  exists extra, Forall2 (fun m x => exists n k, varint_len (int64 (m_offset m - r_BaseOffset r)) n /\ headers_len m k /\
                                      x = 6 + n - (if version <? 2 then k else 0)) (items (r_Records r)) extra /\
    RecordBatch_Size orders1 r version = int32 (zlen bs + total extra).
Proof.
  intros H1 H2 Hp Hb. pose proof (orders_nonnil _ _ H1) as Hn. rewrite (Emits_if_ok_inj _ _ _ Hb (Emits_batch orders2 r version Hn)).
  eexists. split; [|unfold RecordBatch_Size; change (add32 (add32 _ _) sz_Int32) with (int32 57);
    rewrite (records_size orders1 orders2 version (r_BaseOffset r) (r_FirstTimestamp r));
    [rewrite zlen_app, batch_header_len; f_equal; reflexivity|intros j m Hj; cbn [Nat.add]; split; [exact (H1 j m Hj)|split; [exact (H2 j m Hj)|exact (Hp j m Hj)]]]].
  clear - Hn. induction Hn as [|m ms Hm Hms IH]; cbn [map]; constructor; [|exact IH].
  destruct (m_header m) as [hs|] eqn:E; [|congruence]. exists (offset_len m (r_BaseOffset r)), (zlen (flat_map w_pair hs)).
  split; [apply varint_len_offset|]. split; [|reflexivity]. exists hs, (flat_map w_pair hs). split; [exact E|]. split; [apply Emits_Range|reflexivity].
Qed.
Lemma base128_len_bound x bs : is_int64 x -> is_base128 (zz x) bs -> 1 <= zlen bs <= 10.
Proof.
  intros Hx (n & H1 & -> & H2 & H3). rewrite zlen_base128. split; [lia|]. destruct (Nat.leb_spec n 10); [lia|]. exfalso.
  pose proof (zz_range x Hx) as Z. specialize (H3 ltac:(lia)).
  assert (128 ^ 10 <= 128 ^ (Z.of_nat n - 1)) by (apply Z.pow_le_mono_r; lia). pose proof pow_128_10 as P. change (Z.of_nat 10) with 10 in P. lia.
Qed.
Lemma size_never orders1 orders2 r version bs : orders_ok orders1 r -> orders_ok orders2 r ->
  (forall i m, nth_error (items (r_Records r)) i = Some m -> Forall pair_ok (orders1 i)) ->
  Emits_if_ok (RecordBatch_Encode orders2 r version) bs -> 2 <= version -> 0 < zlen (items (r_Records r)) < 2 ^ 28 ->
  RecordBatch_Size orders1 r version <> int32 (zlen bs).
Proof.
  intros H1 H2 Hp Hb Hv Hl. destruct (size_exact orders1 orders2 r version bs H1 H2 Hp Hb) as (extra & F & ->).
  assert (B : 7 * zlen (items (r_Records r)) <= total extra <= 16 * zlen (items (r_Records r))).
  { clear - F Hv. induction F as [|m x ms xs (n & k & (b & Hb & ->) & _ & Hx) F IH]; [cbn; lia|]. cbn [total]. rewrite zlen_cons. destruct (Z.ltb_spec version 2); [lia|].
    pose proof (base128_len_bound _ _ (wrap_range 64 _ ltac:(lia)) Hb). lia. }
  intros E. unfold int32, wrap in E. 
  assert (M : (zlen bs + total extra) mod 2 ^ 32 = zlen bs mod 2 ^ 32).
  { pose proof (Z.mod_pos_bound (zlen bs + total extra + 2 ^ (32 - 1)) (2 ^ 32) ltac:(lia)). 
    assert (Q : (zlen bs + total extra + 2 ^ (32 - 1)) mod 2 ^ 32 = (zlen bs + 2 ^ (32 - 1)) mod 2 ^ 32) by lia.
    replace (zlen bs + total extra) with (zlen bs + total extra + 2 ^ (32 - 1) - 2 ^ (32 - 1)) by lia.
    rewrite Zminus_mod, Q, <- Zminus_mod. f_equal. lia. }
  replace (zlen bs + total extra) with (total extra + zlen bs) in M by lia.
  apply (f_equal (fun z => (z - zlen bs) mod 2 ^ 32)) in M. rewrite Zminus_mod_idemp_l, Zminus_mod_idemp_l in M.
  replace (total extra + zlen bs - zlen bs) with (total extra) in M by lia. rewrite Z.sub_diag, Z.mod_small in M by lia. change (0 mod 2 ^ 32) with 0 in M. lia.
Qed.
Lemma empty_batch orders1 orders2 r version : items (r_Records r) = [] ->
  exists bs, Emits_if_ok (RecordBatch_Encode orders2 r version) bs /\ RecordBatch_Size orders1 r version = zlen bs /\ zlen bs = 57.
Proof.
  intros E. eexists. split; [apply Emits_batch; rewrite E; constructor|]. rewrite E. cbn [w_records]. rewrite app_nil_r, batch_header_len. split; [|reflexivity].
  unfold RecordBatch_Size. rewrite E. reflexivity.
Qed.

(** ** Length prefixes *)
Lemma length_prefix order m version first : m_header m <> None ->
  exists rest, Emits_if_ok (encodeMessage order m version first) ([0] ++ rest) /\ 5 <= zlen rest.
Proof.
  intros H. eexists. split; [apply (Emits_record order m version first H)|]. unfold w_data. rewrite !zlen_app.
  pose proof (zlen_w_varint (ts_delta m first)). pose proof (zlen_w_varint (int64 (glen (m_key m)))). pose proof (zlen_w_varint (int64 (glen (m_value m)))).
  pose proof (zlen_nonneg (items (m_key m))). pose proof (zlen_nonneg (items (m_value m))). pose proof (zlen_nonneg (flat_map w_pair order)). change (zlen [0]) with 1. lia.
Qed.

(** ** The fixed header *)
Lemma headers_cases ms : Forall (fun m => m_header m <> None) ms \/ Exists (fun m => m_header m = None) ms.
Proof.
  induction ms as [|m ms [IH|IH]]; [left; constructor| |right; apply Exists_cons_tl, IH].
  destruct (m_header m) eqn:E; [left; constructor; [congruence|exact IH]|right; apply Exists_cons_hd, E].
Qed.
Lemma batch_layout orders r version bs : Emits_if_ok (RecordBatch_Encode orders r version) bs ->
  exists rest, bs = batch_header r ++ rest /\ zlen (batch_header r) = 57.
Proof.
  intros H. destruct (headers_cases (items (r_Records r))) as [D|D].
  - rewrite (Emits_if_ok_inj _ _ _ H (Emits_batch orders r version D)). eexists. split; [reflexivity|apply batch_header_len].
  - exfalso. destruct (H _ reliable_new) as (e & E & _). rewrite encode_batch_panics in E by exact D. discriminate.
Qed.
Lemma batch_header_decodes r : batch_ok r -> Decodes read_batch_header (batch_header r)
  [r_BaseOffset r; r_BatchLength r; r_PartitionLeaderEpoch r; 2; r_CRC r; r_Attributes r; r_LastOffsetDelta r; r_FirstTimestamp r; r_MaxTimestamp r; r_ProducerId r; r_ProducerEpoch r; r_BaseSequence r].
Proof.
  intros (H1 & H2 & H3 & H4 & H5 & H6 & H7 & H8 & H9 & H10 & H11). unfold read_batch_header, batch_header.
  eapply Decodes_bind; [apply Decodes_int64; assumption|]. eapply Decodes_bind; [apply Decodes_int32; assumption|]. eapply Decodes_bind; [apply Decodes_int32; assumption|].
  eapply Decodes_bind; [apply Decodes_int8; unfold is_int8; lia|]. eapply Decodes_bind; [apply Decodes_int32; assumption|]. eapply Decodes_bind; [apply Decodes_int16; assumption|].
  eapply Decodes_bind; [apply Decodes_int32; assumption|]. eapply Decodes_bind; [apply Decodes_int64; assumption|]. eapply Decodes_bind; [apply Decodes_int64; assumption|].
  eapply Decodes_bind; [apply Decodes_int64; assumption|]. eapply Decodes_bind; [apply Decodes_int16; assumption|].
  apply (Decodes_bind_ret dInt32 (fun l => [_; _; _; _; _; _; _; _; _; _; _; l])), Decodes_int32; assumption.
Qed.

(** ** Reading records back *)
Lemma Decodes_text s : valid_utf8 s -> zlen s < 2 ^ 63 -> Decodes dVarString (w_text s) s.
Proof.
  intros H1 H2. unfold w_text. rewrite rerune_valid by exact H1. pose proof (zlen_nonneg s). rewrite int64_id by (unfold is_int64; lia). apply Decodes_VarString; assumption.
Qed.
Lemma Decodes_pair kv : pair_ok kv -> Decodes read_header (w_pair kv) kv.
Proof.
  intros (H1 & H2 & H3 & H4). unfold read_header, w_pair. eapply Decodes_bind; [apply Decodes_text; assumption|].
  destruct kv as [k v]. apply (Decodes_bind_ret dVarString (fun y => (k, y))), Decodes_text; assumption.
Qed.
Lemma Decodes_record order m first : Forall pair_ok order -> message_fits m ->
  Decodes (read_record (length order)) (w_record order m first) (0, (0, (ts_delta m first, (0, (Some (items (m_key m)), (Some (items (m_value m)), order)))))).
Proof.
  intros Hp [Hk Hv]. unfold read_record.
  change (w_record order m first) with (w_varint 0 ++ be 1 0 ++ w_varint (ts_delta m first) ++ w_varint 0 ++ w_data (m_key m) ++ w_data (m_value m) ++ flat_map w_pair order).
  eapply Decodes_bind; [apply Decodes_w_varint; unfold is_int64; lia|]. eapply Decodes_bind; [apply Decodes_int8; unfold is_int8; lia|].
  eapply Decodes_bind; [apply Decodes_w_varint, (wrap_range 64); lia|]. eapply Decodes_bind; [apply Decodes_w_varint; unfold is_int64; lia|].
  eapply Decodes_bind; [apply Decodes_VarBytes; exact Hk|]. eapply Decodes_bind; [apply Decodes_VarBytes; exact Hv|].
  pose proof (Decodes_repeat read_header w_pair (fun x => x) order (fun x Hx => Decodes_pair x (proj1 (Forall_forall _ _) Hp x Hx))) as D. rewrite map_id in D.
  apply (Decodes_bind_ret _ (fun hs => (0, (0, (ts_delta m first, (0, (Some (items (m_key m)), (Some (items (m_value m)), hs))))))) _ _ D).
Qed.
Lemma zlen_w_pair kv : 2 <= zlen (w_pair kv).
Proof.
  unfold w_pair, w_text. rewrite !zlen_app. pose proof (zlen_w_varint (int64 (zlen (fst kv)))). pose proof (zlen_w_varint (int64 (zlen (snd kv)))).
  pose proof (zlen_nonneg (flat_map encode_rune (runes (fst kv)))). pose proof (zlen_nonneg (flat_map encode_rune (runes (snd kv)))). lia.
Qed.
Lemma record_prefix order1 m1 first1 order2 m2 first2 : Forall pair_ok order1 -> message_fits m1 -> Forall pair_ok order2 -> message_fits m2 ->
  (length order1 <= length order2)%nat -> w_record order1 m1 first1 = w_record order2 m2 first2 ->
  ts_delta m1 first1 = ts_delta m2 first2 /\ items (m_key m1) = items (m_key m2) /\ items (m_value m1) = items (m_value m2) /\ order1 = order2.
Proof.
  intros P1 F1 P2 F2 Hle E. set (n := length order1). set (a := firstn n order2). set (b := skipn n order2).
  assert (La : length a = n) by (unfold a; apply firstn_length_le; exact Hle). assert (E2 : order2 = a ++ b) by (symmetry; apply firstn_skipn).
  assert (W : w_record order2 m2 first2 = w_record a m2 first2 ++ flat_map w_pair b) by (rewrite E2; unfold w_record; rewrite flat_map_app, <- !app_assoc; reflexivity).
  assert (Pa : Forall pair_ok a) by (rewrite E2 in P2; apply Forall_app in P2; tauto).
  pose proof (Decodes_record order1 m1 first1 P1 F1 (on (w_record order1 m1 first1)) [] (on_ok _) ltac:(rewrite frame_on, app_nil_r; reflexivity)) as D1.
  pose proof (Decodes_record a m2 first2 Pa F2 (on (w_record order1 m1 first1)) (flat_map w_pair b) (on_ok _) ltac:(rewrite frame_on, E; exact W)) as D2.
  rewrite La in D2. unfold n in D2. rewrite D1 in D2.
  assert (L : zlen (w_record order1 m1 first1) = zlen (w_record a m2 first2)).
  { apply (f_equal (fun r => match r with DOk _ d => d_offset d | _ => 0 end)) in D2. unfold advance in D2. cbn [d_offset] in D2. apply Z.add_cancel_l in D2. exact D2. }
  injection D2 as I1 I2 I3 I4 _.
  assert (B : b = []).
  { destruct b as [|kv b]; [reflexivity|]. exfalso.
    rewrite E, W, zlen_app in L. cbn [flat_map] in L. rewrite zlen_app in L. pose proof (zlen_w_pair kv). pose proof (zlen_nonneg (flat_map w_pair b)). lia. }
  rewrite E2, B, app_nil_r. auto.
Qed.
Lemma record_injective order1 m1 first1 v1 order2 m2 first2 v2 bs : Forall pair_ok order1 -> message_fits m1 -> Forall pair_ok order2 -> message_fits m2 ->
  Emits_if_ok (encodeMessage order1 m1 v1 first1) bs -> Emits_if_ok (encodeMessage order2 m2 v2 first2) bs ->
  ts_delta m1 first1 = ts_delta m2 first2 /\ items (m_key m1) = items (m_key m2) /\ items (m_value m1) = items (m_value m2) /\ order1 = order2.
Proof.
  intros P1 F1 P2 F2 H1 H2.
  assert (N : forall order m v first, Emits_if_ok (encodeMessage order m v first) bs -> m_header m <> None).
  { intros order m v first H E. destruct (H _ reliable_new) as (e & Q & _). unfold encodeMessage in Q. rewrite E in Q. discriminate. }
  assert (E : w_record order1 m1 first1 = w_record order2 m2 first2).
  { rewrite <- (Emits_if_ok_inj _ _ _ H1 (Emits_record order1 m1 v1 first1 (N _ _ _ _ H1))). exact (Emits_if_ok_inj _ _ _ H2 (Emits_record order2 m2 v2 first2 (N _ _ _ _ H2))). }
  destruct (Nat.le_ge_cases (length order1) (length order2)) as [L|L].
  - eapply record_prefix; eassumption.
  - symmetry in E. destruct (record_prefix _ _ _ _ _ _ P2 F2 P1 F1 L E) as (I1 & I2 & I3 & I4). auto.
Qed.
Lemma record_recovered order m version first : m_header m <> None -> Forall pair_ok order -> message_fits m ->
  exists bs, Emits_if_ok (encodeMessage order m version first) bs /\
    Decodes (read_record (length order)) bs (0, (0, (ts_delta m first, (0, (Some (items (m_key m)), (Some (items (m_value m)), order)))))).
Proof. intros H Hp Hf. eexists. split; [apply Emits_record, H|apply Decodes_record; assumption]. Qed.
Lemma Decodes_records orders first : forall ms i, (forall j m, nth_error ms j = Some m -> Forall pair_ok (orders (i + j)%nat) /\ message_fits m) ->
  Decodes (read_records (map (fun i => length (orders i)) (List.seq i (length ms)))) (w_records orders i ms first)
    (map (fun p => content (orders (fst p)) (snd p) first) (combine (List.seq i (length ms)) ms)).
Proof.
  induction ms as [|m ms IH]; intros i H; cbn [length List.seq map combine read_records w_records]; [apply Decodes_ret|].
  destruct (H 0%nat m eq_refl) as [H1 H2]. rewrite Nat.add_0_r in H1. eapply Decodes_bind; [apply Decodes_record; assumption|].
  apply (Decodes_bind_ret _ (fun rs => content (orders i) m first :: rs)). apply (IH (S i)). intros j m' Hj. specialize (H (S j) m' Hj). rewrite Nat.add_succ_r in H. exact H.
Qed.
Lemma batch_recovered orders r version : batch_ok r -> (forall i m, nth_error (items (r_Records r)) i = Some m -> m_header m <> None /\ Forall pair_ok (orders i) /\ message_fits m) ->
  let n := List.seq 0 (length (items (r_Records r))) in
  exists bs, Emits_if_ok (RecordBatch_Encode orders r version) bs /\
    Decodes (read_batch (map (fun i => length (orders i)) n)) bs
      ([r_BaseOffset r; r_BatchLength r; r_PartitionLeaderEpoch r; 2; r_CRC r; r_Attributes r; r_LastOffsetDelta r; r_FirstTimestamp r; r_MaxTimestamp r; r_ProducerId r; r_ProducerEpoch r; r_BaseSequence r],
       map (fun p => content (orders (fst p)) (snd p) (r_FirstTimestamp r)) (combine n (items (r_Records r)))).
Proof.
  intros Hb H n. eexists. split.
  - apply Emits_batch, Forall_forall. intros m Hm. apply In_nth_error in Hm. destruct Hm as [i Hi]. exact (proj1 (H i m Hi)).
  - unfold read_batch. eapply Decodes_bind; [apply batch_header_decodes, Hb|].
    apply (Decodes_bind_ret _ (fun rs => (_, rs))). apply (Decodes_records orders (r_FirstTimestamp r) _ 0). intros j m Hj. exact (proj2 (H j m Hj)).
Qed.
Lemma offset_lost order m1 m2 version first e : m_key m1 = m_key m2 -> m_value m1 = m_value m2 -> m_unix m1 = m_unix m2 -> m_header m1 = m_header m2 ->
  encodeMessage order m1 version first e = encodeMessage order m2 version first e.
Proof. intros H1 H2 H3 H4. unfold encodeMessage, Message_Size. rewrite H1, H2, H3, H4. reflexivity. Qed.
Lemma nil_lost order m version first e :
  encodeMessage order (mkMessage (m_topic m) (m_partition m) (m_offset m) None (m_value m) (m_unix m) (m_header m)) version first e =
  encodeMessage order (mkMessage (m_topic m) (m_partition m) (m_offset m) (Some []) (m_value m) (m_unix m) (m_header m)) version first e /\
  encodeMessage order (mkMessage (m_topic m) (m_partition m) (m_offset m) (m_key m) None (m_unix m) (m_header m)) version first e =
  encodeMessage order (mkMessage (m_topic m) (m_partition m) (m_offset m) (m_key m) (Some []) (m_unix m) (m_header m)) version first e.
Proof. split; reflexivity. Qed.

(** ** Get and Range of a map *)
Lemma get_in m : map_ok m -> forall k v, MapHeader_Get m k = (v, true) <-> In (k, v) m.
Proof.
  unfold map_ok. induction m as [|[k' v'] m IH]; intros Hm k v; cbn [MapHeader_Get In map fst] in *; [split; [discriminate|tauto]|]. inversion Hm; subst.
  destruct (list_eq_dec Z.eq_dec k' k) as [->|N].
  - split; [intros E; injection E as ->; auto|]. intros [E|E]; [congruence|]. exfalso. apply H1. change k with (fst (k, v)). apply in_map, E.
  - rewrite IH by assumption. split; [auto|]. intros [E|E]; [congruence|exact E].
Qed.
Lemma get_none m k : (forall v, ~ In (k, v) m) -> MapHeader_Get m k = ([], false).
Proof.
  induction m as [|[k' v'] m IH]; intros H; cbn [MapHeader_Get]; [reflexivity|]. destruct (list_eq_dec Z.eq_dec k' k) as [->|N]; [destruct (H v'); left; reflexivity|].
  apply IH. intros v Hv. apply (H v). right. exact Hv.
Qed.

(** ** Records cannot be told apart *)
Lemma records_ambiguous key value unix v base version : valid_utf8 v ->
  let m hs := mkMessage [] 0 0 key value unix (Some hs) in
  let b ms := mkRecordBatch base 0 0 2 0 0 0 0 0 0 0 0 (Some ms) in
  let hs := [([], []); ([0; 2; 65], v)] in
  exists bs, Emits_if_ok (RecordBatch_Encode (fun _ => []) (b [m []; mkMessage [] 0 0 (Some [65]) (Some v) 3 (Some [])]) version) bs /\
             Emits_if_ok (RecordBatch_Encode (fun _ => hs) (b [m hs]) version) bs.
Proof.
  intros Hv m b hs.
  assert (N1 : Forall (fun m => m_header m <> None) (items (r_Records (b [m []; mkMessage [] 0 0 (Some [65]) (Some v) 3 (Some [])])))) by (constructor; [discriminate|constructor; [discriminate|constructor]]).
  assert (N2 : Forall (fun m => m_header m <> None) (items (r_Records (b [m hs])))) by (constructor; [discriminate|constructor]).
  pose proof (Emits_batch (fun _ => []) _ version N1) as B1. pose proof (Emits_batch (fun _ => hs) _ version N2) as B2.
  match type of B1 with Emits_if_ok _ ?x => exists x end. split; [exact B1|].
  match type of B2 with Emits_if_ok _ ?x => match goal with |- Emits_if_ok _ ?y => assert (E : x = y); [|rewrite <- E; exact B2] end end. clear B1 B2.
  change (batch_header (b [m hs])) with (batch_header (b [m []; mkMessage [] 0 0 (Some [65]) (Some v) 3 (Some [])])). f_equal.
  unfold b. cbn [items r_Records w_records r_FirstTimestamp]. rewrite !app_nil_r.
  unfold w_record. cbn [flat_map app m m_key m_value hs]. rewrite !app_nil_r. rewrite <- !app_assoc.
  do 2 f_equal. apply (f_equal2 (@app Z)); [reflexivity|]. cbn [app]. f_equal. rewrite <- !app_assoc. do 2 f_equal.
  unfold w_pair, w_text, w_data. cbn [fst snd items glen]. rewrite (rerune_valid v Hv).
  change (w_varint (int64 (zlen [])) ++ flat_map encode_rune (runes [])) with [0].
  change (w_varint (int64 (zlen [0; 2; 65])) ++ flat_map encode_rune (runes [0; 2; 65])) with [6; 0; 2; 65]. reflexivity.
Qed.
Lemma invalid_header_lost key value unix version first :
  let m s := mkMessage [] 0 0 key value unix (Some [(s, [])]) in
  exists bs, Emits_if_ok (encodeMessage [([255], [])] (m [255]) version first) bs /\ Emits_if_ok (encodeMessage [([254], [])] (m [254]) version first) bs.
Proof.
  intros m. eexists. split; [apply Emits_record; discriminate|].
  change (w_record [([255], [])] (m [255]) first) with (w_record [([254], [])] (m [254]) first). apply Emits_record. discriminate.
Qed.
Lemma get_range m order key value : map_ok m -> Permutation order m -> (MapHeader_Get m key = (value, true) <-> In (key, value) order).
Proof. intros Hm P. rewrite (get_in m Hm). split; apply Permutation_in; [symmetry|]; exact P. Qed.
Lemma get_absent m order key : Permutation order m -> (forall value, ~ In (key, value) order) -> MapHeader_Get m key = ([], false).
Proof. intros P H. apply get_none. intros v Hv. apply (H v). apply (Permutation_in _ (Permutation_sym P) Hv). Qed.
Lemma range_calls m order : map_ok m -> Permutation order m ->
  MapHeader_Range order (fun k v calls => calls ++ [(k, v)]) [] = order /\ NoDup (map fst order).
Proof.
  intros Hm P. split.
  - unfold MapHeader_Range. assert (E : forall l, fold_left (fun s kv => s ++ [(fst kv, snd kv)]) order l = l ++ order).
    { clear. induction order as [|[k v] order IH]; intros l; cbn [fold_left]; [symmetry; apply app_nil_r|]. rewrite IH, <- app_assoc. reflexivity. }
    exact (E []).
  - unfold map_ok in Hm. eapply Permutation_NoDup; [|exact Hm]. apply Permutation_map. symmetry. exact P.
Qed.
