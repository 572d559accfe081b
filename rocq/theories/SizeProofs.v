(** * Proofs about sizeof *)
From Verif Require Import GoBase Binary Utf8 Encoder Decoder Sizeof Spec GoLemmas EncProofs DecProofs VarProofs Utf8Proofs.
Ltac Zify.zify_post_hook ::= Z.div_mod_to_equations.

Lemma add32_l a b : add32 (int32 a) b = int32 (a + b).
Proof. unfold add32, int32. apply wrap_add_l. lia. Qed.
Lemma add32_r a b : add32 a (int32 b) = int32 (a + b).
Proof. unfold add32, int32. apply wrap_add_r. lia. Qed.

Lemma add32_lr a b : add32 (int32 a) (int32 b) = int32 (a + b).
Proof. rewrite add32_l. unfold int32. apply wrap_add_r. lia. Qed.

Lemma zlen_flat_map_const {A} (w : A -> list Z) n l :
  (forall x, zlen (w x) = n) -> zlen (flat_map w l) = zlen l * n.
Proof.
  intros H. induction l as [|x l IH]; [reflexivity|].
  cbn [flat_map]. rewrite zlen_app, zlen_cons, IH, H. lia.
Qed.

Lemma sz_Bytes_spec s : sz_Bytes s = int32 (zlen (w_bytes s)).
Proof. unfold sz_Bytes. rewrite add32_r. unfold w_bytes. rewrite zlen_app, zlen_be. reflexivity. Qed.

Lemma sz_String_spec s : sz_String s = int32 (zlen (w_string s)).
Proof. unfold sz_String. rewrite add32_r. unfold w_string. rewrite zlen_app, zlen_be. reflexivity. Qed.

Lemma sz_Int32Array_spec s : sz_Int32Array s = int32 (zlen (w_nullable_array (be 4) s)).
Proof.
  unfold sz_Int32Array, mul32. rewrite add32_r.
  transitivity (int32 (4 + glen s * 4)).
  - unfold int32. rewrite <- wrap_add_r, wrap_mul_l, wrap_add_r by lia. reflexivity.
  - f_equal. destruct s as [l|]; [|reflexivity].
    cbn [w_nullable_array]. unfold w_array. rewrite zlen_app, zlen_be.
    rewrite (zlen_flat_map_const (be 4) 4) by (intros x; apply zlen_be). reflexivity.
Qed.
Lemma sz_Int64Array_spec s : sz_Int64Array s = int32 (zlen (w_nullable_array (be 8) s)).
Proof.
  unfold sz_Int64Array, mul32. rewrite add32_r.
  transitivity (int32 (4 + glen s * 8)).
  - unfold int32. rewrite <- wrap_add_r, wrap_mul_l, wrap_add_r by lia. reflexivity.
  - f_equal. destruct s as [l|]; [|reflexivity].
    cbn [w_nullable_array]. unfold w_array. rewrite zlen_app, zlen_be.
    rewrite (zlen_flat_map_const (be 8) 8) by (intros x; apply zlen_be). reflexivity.
Qed.

Lemma fold_size {A} (f : A -> Z) (w : A -> list Z) l : forall a,
  (forall x, In x l -> f x = int32 (zlen (w x))) ->
  fold_left (fun sz x => add32 sz (f x)) l (int32 a) = int32 (a + zlen (flat_map w l)).
Proof.
  induction l as [|x l IH]; intros a H; cbn [fold_left flat_map].
  - f_equal. rewrite zlen_nil. lia.
  - rewrite (H x) by (left; reflexivity). rewrite add32_lr.
    rewrite IH by (intros y Hy; apply H; right; exact Hy).
    rewrite zlen_app. f_equal. lia.
Qed.

Lemma sz_StringArray_spec s : sz_StringArray s = int32 (zlen (w_nullable_array w_string s)).
Proof.
  unfold sz_StringArray. change (add32 0 sz_ArrayLength) with (int32 4).
  rewrite (fold_size sz_String w_string) by (intros x _; apply sz_String_spec).
  f_equal. destruct s as [l|]; [|reflexivity].
  cbn [w_nullable_array]. unfold w_array. rewrite zlen_app, zlen_be. reflexivity.
Qed.

Lemma zlen_flat_map_rev {A} (w : A -> list Z) l : zlen (flat_map w (rev l)) = zlen (flat_map w l).
Proof.
  induction l as [|x l IH]; [reflexivity|]. cbn [rev]. rewrite flat_map_app. cbn [flat_map].
  rewrite !zlen_app, zlen_nil, IH. lia.
Qed.

Lemma size_array_spec {A} (f : A -> Z) (w : A -> list Z) xs a :
  (forall x, In x (items xs) -> f x = int32 (zlen (w x))) ->
  size_array f xs (int32 a) = int32 (a + zlen (flat_map w (items xs))).
Proof.
  intros H. unfold size_array. rewrite (fold_size f w).
  - rewrite zlen_flat_map_rev. reflexivity.
  - intros x Hx. apply H. apply in_rev. exact Hx.
Qed.

Lemma sz_VarInt_spec x : sz_VarInt x = zlen (w_varint x).
Proof.
  unfold sz_VarInt, w_varint. destruct (put_varint_total x) as (bs & E & Hb). rewrite E.
  apply int32_id. unfold is_int32, zlen. lia.
Qed.
Lemma sz_VarBytes_spec s : sz_VarBytes s = int32 (zlen (w_varint (int64 (glen s)) ++ items s)).
Proof. unfold sz_VarBytes. rewrite add32_r, sz_VarInt_spec, zlen_app. reflexivity. Qed.
Lemma sz_VarString_spec s : sz_VarString s = int32 (zlen (w_varint (int64 (zlen s)) ++ s)).
Proof. unfold sz_VarString. rewrite add32_r, sz_VarInt_spec, zlen_app. reflexivity. Qed.
