(** * The library's record batches are not Kafka's *)
From Coq Require Import Permutation.
From Verif Require FlexProofs.
From Verif Require Import GoBase GoLemmas Binary Utf8 Encoder Decoder Spec EncProofs DecProofs VarProofs Utf8Proofs RecordBatch RecordSpec RecordProofs KafkaRecordSpec.
Local Open Scope Z_scope.
Local Open Scope list_scope.
Ltac Zify.zify_post_hook ::= idtac.

Lemma base128_lengths x a b : is_base128 x a -> is_base128 x b -> zlen a = zlen b.
Proof.
  assert (W : forall n m : nat, (1 <= n)%nat -> 0 <= x < 128 ^ Z.of_nat n -> ((1 < m)%nat -> 128 ^ (Z.of_nat m - 1) <= x) -> (m <= n)%nat).
  { intros n m Hn Hx Hm. destruct (Nat.leb_spec m n) as [L|L]; [exact L|]. exfalso. specialize (Hm ltac:(lia)).
    pose proof (Z.pow_le_mono_r 128 (Z.of_nat n) (Z.of_nat m - 1)). lia. }
  intros (n & H1 & -> & H2 & H3) (m & G1 & -> & G2 & G3). rewrite !zlen_base128.
  pose proof (W n m H1 H2 G3). pose proof (W m n G1 G2 H3). lia.
Qed.
Lemma base128_positive x a : is_base128 x a -> 1 <= zlen a.
Proof. intros (n & H & -> & _). rewrite zlen_base128. lia. Qed.
Lemma varint_lengths x bs : is_int64 x -> k_varint x bs -> zlen bs = zlen (w_varint x).
Proof. intros Hx H. exact (base128_lengths _ _ _ H (is_base128_w_varint x Hx)). Qed.
Lemma data_lengths s bs : glen s < 2 ^ 63 -> k_bytes s bs -> zlen bs = zlen (w_data s).
Proof.
  intros Hs H. unfold w_data. pose proof (zlen_nonneg (items s)) as P. unfold glen in *. rewrite int64_id by (unfold is_int64; lia). destruct s as [l|]; cbn [k_bytes items] in *.
  - destruct H as (pre & Hp & ->). rewrite !zlen_app. rewrite (varint_lengths (zlen l) pre); [reflexivity|unfold is_int64; lia|exact Hp].
  - rewrite (varint_lengths (-1) bs); [reflexivity|unfold is_int64; lia|exact H].
Qed.
Lemma text_lengths s bs : valid_utf8 s -> zlen s < 2 ^ 63 -> k_bytes (Some s) bs -> zlen bs = zlen (w_text s).
Proof. intros Hv Hs H. rewrite (data_lengths (Some s) bs Hs H). unfold w_data, w_text. rewrite rerune_valid by exact Hv. reflexivity. Qed.
Lemma header_lengths hs parts : Forall pair_ok hs -> Forall2 k_header hs parts -> zlen (concat parts) = zlen (flat_map w_pair hs).
Proof.
  intros Hp F. induction F as [|kv bs hs parts Hkv F IH]; [reflexivity|]. inversion Hp as [|? ? (H1 & H2 & H3 & H4) Hps]; subst.
  cbn [concat flat_map]. rewrite !zlen_app, (IH Hps). destruct Hkv as (b1 & b2 & K1 & K2 & ->). unfold w_pair. rewrite !zlen_app.
  rewrite (text_lengths _ _ H1 H3 K1), (text_lengths _ _ H2 H4 K2). reflexivity.
Qed.
Lemma record_longer order base first m bs : order_ok order m -> Forall pair_ok order -> message_fits m -> k_record base first m bs ->
  zlen (w_record order m first) + 1 <= zlen bs.
Proof.
  intros (entries & He & Hperm) Hp [Hk Hv] (hs & parts & len & ts & off & key & value & count & body & Hh & Hparts & Hts & Hoff & Hkey & Hval & Hcount & -> & Hlen & ->).
  rewrite He in Hh. assert (P : Permutation hs order) by (rewrite Hh; symmetry; exact Hperm).
  assert (Hp' : Forall pair_ok hs) by (eapply Permutation_Forall; [symmetry; exact P|exact Hp]).
  pose proof (header_lengths _ _ Hp' Hparts) as L. rewrite (zlen_flat_map_perm w_pair _ _ P) in L.
  unfold w_record. rewrite !zlen_app. rewrite (varint_lengths (ts_delta m first) ts), (data_lengths _ _ Hk Hkey), (data_lengths _ _ Hv Hval), L; [|apply (wrap_range 64); lia|exact Hts].
  pose proof (base128_positive _ _ Hoff). pose proof (base128_positive _ _ Hcount). pose proof (base128_positive _ _ Hlen). change (zlen [0]) with 1. lia.
Qed.
Lemma records_longer orders base first : forall ms i parts,
  (forall j m, nth_error ms j = Some m -> order_ok (orders (i + j)%nat) m /\ Forall pair_ok (orders (i + j)%nat) /\ message_fits m) ->
  Forall2 (k_record base first) ms parts -> zlen (w_records orders i ms first) + zlen ms <= zlen (concat parts).
Proof.
  induction ms as [|m ms IH]; intros i parts H F; inversion F as [|? bs ? parts' Hm Hms]; subst; [reflexivity|]. cbn [w_records concat]. rewrite !zlen_app, zlen_cons.
  destruct (H 0%nat m eq_refl) as (H1 & H2 & H3). rewrite Nat.add_0_r in H1, H2. pose proof (record_longer _ _ _ _ _ H1 H2 H3 Hm).
  assert (zlen (w_records orders (S i) ms first) + zlen ms <= zlen (concat parts')); [|lia]. apply IH; [|exact Hms].
  intros j m' Hj. replace (S i + j)%nat with (i + S j)%nat by lia. apply H, Hj.
Qed.
Lemma not_kafka orders r version bs : orders_ok orders r ->
  (forall i m, nth_error (items (r_Records r)) i = Some m -> Forall pair_ok (orders i) /\ message_fits m) ->
  Emits_if_ok (RecordBatch_Encode orders r version) bs -> forall ks, k_batch r ks -> zlen bs + 4 + zlen (items (r_Records r)) <= zlen ks /\ bs <> ks.
Proof.
  intros Ho Hp Hb ks (parts & Hparts & ->).
  rewrite (Emits_if_ok_inj _ _ _ Hb (Emits_batch orders r version (orders_nonnil _ _ Ho))).
  assert (L : zlen (batch_header r ++ w_records orders 0 (items (r_Records r)) (r_FirstTimestamp r)) + 4 + zlen (items (r_Records r)) <=
    zlen (batch_header r ++ be 4 (zlen (items (r_Records r))) ++ concat parts)).
  { rewrite !zlen_app, zlen_be. pose proof (records_longer orders (r_BaseOffset r) (r_FirstTimestamp r) (items (r_Records r)) 0 parts) as G. cbn [Nat.add] in G. specialize (G (fun j m Hj => conj (Ho j m Hj) (Hp j m Hj)) Hparts). lia. }
  split; [exact L|]. intros E. rewrite <- E in L. pose proof (zlen_nonneg (items (r_Records r))). lia.
Qed.
(** Kafka's form exists. *)
Lemma varint_exists x : exists bs, k_varint x bs.
Proof.
  assert (N : 0 <= zz x) by (unfold zz; destruct (x <? 0) eqn:E; lia). apply FlexProofs.base128_exists. exact N.
Qed.
Lemma bytes_exists s : exists bs, k_bytes s bs.
Proof. destruct s as [l|]; cbn; [|apply varint_exists]. destruct (varint_exists (zlen l)) as [pre H]. eauto. Qed.
Lemma header_exists kv : exists bs, k_header kv bs.
Proof. destruct (bytes_exists (Some (fst kv))) as [b1 H1]. destruct (bytes_exists (Some (snd kv))) as [b2 H2]. exists (b1 ++ b2), b1, b2. auto. Qed.
Lemma record_exists base first m : exists bs, k_record base first m bs.
Proof.
  set (hs := match m_header m with Some e => e | None => [] end).
  destruct (FlexProofs.Forall2_exists k_header hs header_exists) as [parts Hp].
  destruct (varint_exists (ts_delta m first)) as [ts H1]. destruct (varint_exists (m_offset m - base)) as [off H2].
  destruct (bytes_exists (m_key m)) as [key H3]. destruct (bytes_exists (m_value m)) as [value H4]. destruct (varint_exists (zlen hs)) as [count H5].
  destruct (varint_exists (zlen ([0] ++ ts ++ off ++ key ++ value ++ count ++ concat parts))) as [len H6].
  exists (len ++ [0] ++ ts ++ off ++ key ++ value ++ count ++ concat parts), hs, parts, len, ts, off, key, value, count, ([0] ++ ts ++ off ++ key ++ value ++ count ++ concat parts).
  split; [subst hs; destruct (m_header m); reflexivity|]. auto 15.
Qed.
Lemma batch_exists r : exists bs, k_batch r bs.
Proof.
  destruct (FlexProofs.Forall2_exists (k_record (r_BaseOffset r) (r_FirstTimestamp r)) (items (r_Records r)) (record_exists _ _)) as [parts H].
  eexists. exists parts. split; [exact H|reflexivity].
Qed.
(** What stands where Kafka has the number of records. *)
Lemma count_zero orders r version bs m rest : orders_ok orders r -> Emits_if_ok (RecordBatch_Encode orders r version) bs ->
  items (r_Records r) = m :: rest -> m_unix m = r_FirstTimestamp r -> exists tl, bs = batch_header r ++ be 4 0 ++ tl.
Proof.
  intros Ho Hb Hr Hm. rewrite (Emits_if_ok_inj _ _ _ Hb (Emits_batch orders r version (orders_nonnil _ _ Ho))). rewrite Hr. cbn [w_records].
  unfold w_record, ts_delta. rewrite Hm, Z.sub_diag. eexists. f_equal. cbn [app]. reflexivity.
Qed.
