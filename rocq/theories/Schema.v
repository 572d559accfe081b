(** * Size, Encode and Decode written once, over schemas, and their properties.

    The generated methods are translated one by one (files MsgNN.v) and shown
    equal to these; the properties proved here then hold of all of them. *)
From Verif Require Import GoBase Binary Encoder Decoder Sizeof Spec SchemaSpec GoLemmas EncProofs DecProofs SizeProofs.

Scheme ty_mind := Induction for ty Sort Prop
  with fields_mind := Induction for fields Sort Prop.
Combined Scheme schema_mind from ty_mind, fields_mind.

Fixpoint gsize (t : ty) (v : Z) : den t -> Z -> Z :=
  match t return den t -> Z -> Z with
  | TBool => fun _ => size_add sz_Bool
  | TInt8 => fun _ => size_add sz_Int8
  | TInt16 => fun _ => size_add sz_Int16
  | TInt32 => fun _ => size_add sz_Int32
  | TInt64 => fun _ => size_add sz_Int64
  | TString => fun x => size_add (sz_String x)
  | TBytes => fun x => size_add (sz_Bytes x)
  | TInt32Array => fun x => size_add (sz_Int32Array x)
  | TInt64Array => fun x => size_add (sz_Int64Array x)
  | TStringArray => fun x => size_add (sz_StringArray x)
  | TArray fs => size_loop (fun y => gsizes fs v y 0)
  end
with gsizes (fs : fields) (v : Z) : dens fs -> Z -> Z :=
  match fs return dens fs -> Z -> Z with
  | FNil => fun _ sz => sz
  | FCons _ r t rest => fun x sz =>
      gsizes rest v (snd x) (size_if (active r v) (gsize t v (fst x)) sz)
  end.

Fixpoint gencode (t : ty) (v : Z) : den t -> Encoder -> Encoder :=
  match t return den t -> Encoder -> Encoder with
  | TBool => PutBool
  | TInt8 => PutInt8
  | TInt16 => PutInt16
  | TInt32 => PutInt32
  | TInt64 => PutInt64
  | TString => PutString
  | TBytes => PutBytes
  | TInt32Array => PutInt32Array
  | TInt64Array => PutInt64Array
  | TStringArray => PutStringArray
  | TArray fs => put_array (gencodes fs v)
  end
with gencodes (fs : fields) (v : Z) : dens fs -> Encoder -> Encoder :=
  match fs return dens fs -> Encoder -> Encoder with
  | FNil => fun _ => skip
  | FCons _ r t rest => fun x =>
      seq (put_if (active r v) (gencode t v (fst x))) (gencodes rest v (snd x))
  end.

Fixpoint gdecode (t : ty) (v : Z) : den t -> Dec (den t) :=
  match t return den t -> Dec (den t) with
  | TBool => fun _ => dBool
  | TInt8 => fun _ => dInt8
  | TInt16 => fun _ => dInt16
  | TInt32 => fun _ => dInt32
  | TInt64 => fun _ => dInt64
  | TString => fun _ => dString
  | TBytes => fun _ => dBytes
  | TInt32Array => fun _ => dInt32Array
  | TInt64Array => fun _ => dInt64Array
  | TStringArray => fun _ => dStringArray
  | TArray fs => fun old => dec_array (gdecodes fs v (zeros fs)) old
  end
with gdecodes (fs : fields) (v : Z) : dens fs -> Dec (dens fs) :=
  match fs return dens fs -> Dec (dens fs) with
  | FNil => fun _ => ret tt
  | FCons _ r t rest => fun old =>
      x <- dec_if (active r v) (gdecode t v (fst old)) (fst old) ;;
      xs <- gdecodes rest v (snd old) ;;
      ret (x, xs)
  end.

(** ** Size *)

Lemma gsize_spec :
  (forall t v x a, gsize t v x (int32 a) = int32 (a + zlen (wire t v x))) /\
  (forall fs v x a, gsizes fs v x (int32 a) = int32 (a + zlen (wires fs v x))).
Proof.
  apply schema_mind; cbn [gsize gsizes wire wires den dens]; intros; unfold size_add;
    try (rewrite add32_l; f_equal; rewrite ?zlen_be; reflexivity);
    rewrite ?sz_String_spec, ?sz_Bytes_spec, ?sz_Int32Array_spec, ?sz_Int64Array_spec, ?sz_StringArray_spec,
      ?add32_lr; try reflexivity.
  - unfold size_loop, size_add. rewrite add32_l.
    rewrite (size_array_spec _ (wires fs v)).
    + f_equal. unfold w_array. rewrite zlen_app, zlen_be. unfold sz_ArrayLength, sz_Int32. lia.
    + intros y _. change 0 with (int32 0) at 1. apply H.
  - f_equal. rewrite zlen_nil. lia.
  - unfold size_if. destruct (active r v).
    + rewrite H, H0, zlen_app. f_equal. lia.
    + rewrite H0. cbn [app]. reflexivity.
Qed.

(** ** Encode *)

Fixpoint gchunks (t : ty) (v : Z) : den t -> list (list Z) :=
  match t return den t -> list (list Z) with
  | TBool => fun b => [w_bool b]
  | TInt8 => fun i => [be 1 i]
  | TInt16 => fun i => [be 2 i]
  | TInt32 => fun i => [be 4 i]
  | TInt64 => fun i => [be 8 i]
  | TString => fun s => [be 2 (zlen s); s]
  | TBytes => fun s => [be 4 (glen s); items s]
  | TInt32Array => nullable_chunks (fun i => [be 4 i])
  | TInt64Array => nullable_chunks (fun i => [be 8 i])
  | TStringArray => nullable_chunks (fun s => [be 2 (zlen s); s])
  | TArray fs => fun xs => be 4 (glen xs) :: flat_map (gchunkss fs v) (items xs)
  end
with gchunkss (fs : fields) (v : Z) : dens fs -> list (list Z) :=
  match fs return dens fs -> list (list Z) with
  | FNil => fun _ => []
  | FCons _ r t rest => fun x =>
      (if active r v then gchunks t v (fst x) else []) ++ gchunkss rest v (snd x)
  end.

Lemma gencode_runs :
  (forall t v x, Runs (gencode t v x) (gchunks t v x)) /\
  (forall fs v x, Runs (gencodes fs v x) (gchunkss fs v x)).
Proof.
  apply schema_mind; cbn [gencode gencodes gchunks gchunkss den dens]; intros.
  - apply Runs_PutBool.
  - apply Runs_PutInt8.
  - apply Runs_PutInt16.
  - apply Runs_PutInt32.
  - apply Runs_PutInt64.
  - apply Runs_PutString.
  - apply Runs_PutBytes.
  - apply Runs_PutInt32Array.
  - apply Runs_PutInt64Array.
  - apply Runs_PutStringArray.
  - apply Runs_put_array. intros y _. apply H.
  - apply Runs_skip.
  - apply Runs_seq; [apply Runs_put_if, H|apply H0].
Qed.

Lemma gchunks_wire :
  (forall t v x, concat (gchunks t v x) = wire t v x) /\
  (forall fs v x, concat (gchunkss fs v x) = wires fs v x).
Proof.
  apply schema_mind; cbn [gchunks gchunkss wire wires den dens]; intros;
    cbn [concat]; rewrite ?app_nil_r; try reflexivity;
    try (apply concat_nullable; intros y; cbn [concat]; rewrite ?app_nil_r; reflexivity).
  - unfold w_array. f_equal. apply concat_flat_map. intros y _. apply H.
  - rewrite concat_app, H0. f_equal. destruct (active r v); [apply H|reflexivity].
Qed.

(** ** Decode *)

Lemma gdecode_spec :
  (forall t v old x, fits t v x -> Decodes (gdecode t v old) (wire t v x) (seen t v x)) /\
  (forall fs v old x, fit fs v x -> Decodes (gdecodes fs v old) (wires fs v x) (receive fs v old x)).
Proof.
  apply schema_mind; cbn [gdecode gdecodes wire wires fits fit seen receive den dens].
  - intros. apply Decodes_bool.
  - intros. apply Decodes_int8; assumption.
  - intros. apply Decodes_int16; assumption.
  - intros. apply Decodes_int32; assumption.
  - intros. apply Decodes_int64; assumption.
  - intros. apply Decodes_string; assumption.
  - intros. apply Decodes_bytes; assumption.
  - intros v old x [H1 H2]. apply Decodes_prim_array; [exact H1|].
    rewrite Forall_forall in H2. intros y Hy. apply Decodes_int32, H2, Hy.
  - intros v old x [H1 H2]. apply Decodes_prim_array; [exact H1|].
    rewrite Forall_forall in H2. intros y Hy. apply Decodes_int64, H2, Hy.
  - intros v old x [H1 H2]. apply Decodes_prim_array; [exact H1|].
    rewrite Forall_forall in H2. intros y Hy. apply Decodes_string, H2, Hy.
  - intros fs IH v old x [H1 H2]. apply Decodes_dec_array; [exact H1|].
    rewrite Forall_forall in H2. intros y Hy. apply IH, H2, Hy.
  - intros. apply Decodes_ret.
  - intros name r t IHt rest IHr v old x [H1 H2].
    apply Decodes_bind with (a := if active r v then seen t v (fst x) else fst old).
    + unfold dec_if. destruct (active r v); [apply IHt, H1; reflexivity|apply Decodes_ret].
    + apply (Decodes_bind_ret _ (fun xs => (_, xs))). apply IHr, H2.
Qed.

Lemma gdecode_starves :
  (forall t v old x, fits t v x -> Starves (gdecode t v old) (wire t v x)) /\
  (forall fs v old x, fit fs v x -> Starves (gdecodes fs v old) (wires fs v x)).
Proof.
  apply schema_mind; cbn [gdecode gdecodes wire wires fits fit den dens].
  - intros. apply Starves_bool.
  - intros. apply Starves_int8; assumption.
  - intros. apply Starves_int16; assumption.
  - intros. apply Starves_int32; assumption.
  - intros. apply Starves_int64; assumption.
  - intros. apply Starves_string; assumption.
  - intros. apply Starves_bytes; assumption.
  - intros v old x [H1 H2]. rewrite Forall_forall in H2. apply Starves_prim_array; [exact H1| |];
    intros y Hy; [apply Decodes_int32, H2, Hy|apply Starves_int32].
  - intros v old x [H1 H2]. rewrite Forall_forall in H2. apply Starves_prim_array; [exact H1| |];
    intros y Hy; [apply Decodes_int64, H2, Hy|apply Starves_int64].
  - intros v old x [H1 H2]. rewrite Forall_forall in H2. apply Starves_prim_array; [exact H1| |];
    intros y Hy; [apply Decodes_string, H2, Hy|apply Starves_string, H2, Hy].
  - intros fs IH v old x [H1 H2]. rewrite Forall_forall in H2.
    eapply Starves_dec_array; [exact H1| |]; intros y Hy.
    + apply (proj2 gdecode_spec), H2, Hy.
    + apply IH, H2, Hy.
  - intros. apply Starves_nil.
  - intros name r t IHt rest IHr v old x [H1 H2].
    eapply Starves_bind with (a := if active r v then seen t v (fst x) else fst old).
    + unfold dec_if. destruct (active r v); [apply (proj1 gdecode_spec), H1; reflexivity|apply Decodes_ret].
    + unfold dec_if. destruct (active r v); [apply IHt, H1; reflexivity|apply Starves_nil].
    + apply Starves_bind_ret. apply IHr, H2.
Qed.

Lemma gdecode_local :
  (forall t v old, Local (gdecode t v old)) /\ (forall fs v old, Local (gdecodes fs v old)).
Proof.
  apply schema_mind; cbn [gdecode gdecodes den dens]; intros.
  - apply Local_bool.
  - apply Local_int8.
  - apply Local_int16.
  - apply Local_int32.
  - apply Local_int64.
  - apply Local_string.
  - apply Local_bytes.
  - apply Local_prim_array, Local_int32.
  - apply Local_prim_array, Local_int64.
  - apply Local_prim_array, Local_string.
  - apply Local_dec_array, H.
  - apply Local_ret.
  - apply Local_bind; [apply Local_dec_if, H|]. intros x.
    apply Local_bind; [apply H0|]. intros xs. apply Local_ret.
Qed.

Lemma gdecode_bounded :
  (forall t v old, Bounded (gdecode t v old)) /\ (forall fs v old, Bounded (gdecodes fs v old)).
Proof.
  apply schema_mind; cbn [gdecode gdecodes den dens]; intros.
  - apply Bounded_bool.
  - apply Bounded_int8.
  - apply Bounded_int16.
  - apply Bounded_int32.
  - apply Bounded_int64.
  - apply Bounded_string.
  - apply Bounded_bytes.
  - apply Bounded_prim_array, Bounded_int32.
  - apply Bounded_prim_array, Bounded_int64.
  - apply Bounded_prim_array, Bounded_string.
  - apply Bounded_dec_array, H.
  - apply Bounded_ret.
  - apply Bounded_bind; [apply Bounded_dec_if, H|]. intros x.
    apply Bounded_bind; [apply H0|]. intros xs. apply Bounded_ret.
Qed.


Lemma gdecode_nopanic :
  (forall t v old, safe t v = true -> NoPanic (gdecode t v old)) /\
  (forall fs v old, safes fs v = true -> NoPanic (gdecodes fs v old)).
Proof.
  apply schema_mind; cbn [gdecode gdecodes den dens safe safes]; intros; try discriminate.
  - apply NoPanic_bool.
  - apply NoPanic_int8.
  - apply NoPanic_int16.
  - apply NoPanic_int32.
  - apply NoPanic_int64.
  - apply NoPanic_dec_array; [apply gdecode_bounded|apply H; assumption].
  - apply andb_true_iff in H1. destruct H1 as [H1 H2].
    apply NoPanic_bind; [apply Bounded_dec_if, gdecode_bounded| |].
    + unfold dec_if. destruct (active r v); [apply H, H1|apply NoPanic_ret].
    + intros x. apply NoPanic_bind; [apply gdecode_bounded|apply H0, H2|]. intros xs. apply NoPanic_ret.
Qed.
