(** * The source does what the model says: sizeof *)
From Coq Require Import String.
From Verif Require Import GoBase GoLemmas Binary Utf8 Sizeof Decoder Encoder EncProofs VarProofs SchemaSpec Platform PlatformSpec PlatformProofs Scratch ScratchProofs GoLang Source SourceSpec SourceBase.
From Coq Require Import Lia ZArith.
Local Open Scope string_scope.
Local Open Scope list_scope.
Local Open Scope Z_scope.
Ltac Zify.zify_post_hook ::= idtac.

Section Source.
Context (P : platform) (GP : go_platform P) (structs : string -> ty) (scribble : list (list Z) -> list Z -> list Z) (prog : package) (X : extends prog source).
Notation W := (p_int P).
Notation L := (p_late P).
Notation R := (room_of P structs).
Notation go := (call W L R scribble prog).

Lemma g_size g z : lookup g lib_globals = None -> lookup g (k_globals source) = Some (Some (GInt I32), EInt z) -> conv W I32 z = z -> global W prog 5 g = Some (VInt I32 z).
Proof. intros HL HG Hz. destruct X as (_ & Xg & _). cbn [global]. rewrite HL, (Xg _ _ HG). cbn [settle]. rewrite Hz. reflexivity. Qed.
Lemma g_Bool : global W prog 5 "sizeof.Bool" = Some (VInt I32 sz_Bool). Proof. apply g_size; reflexivity. Qed.
Lemma g_Int8 : global W prog 5 "sizeof.Int8" = Some (VInt I32 sz_Int8). Proof. apply g_size; reflexivity. Qed.
Lemma g_Int16 : global W prog 5 "sizeof.Int16" = Some (VInt I32 sz_Int16). Proof. apply g_size; reflexivity. Qed.
Lemma g_Int32 : global W prog 5 "sizeof.Int32" = Some (VInt I32 sz_Int32). Proof. apply g_size; reflexivity. Qed.
Lemma g_Int64 : global W prog 5 "sizeof.Int64" = Some (VInt I32 sz_Int64). Proof. apply g_size; reflexivity. Qed.
Lemma g_ArrayLength : global W prog 5 "sizeof.ArrayLength" = Some (VInt I32 sz_ArrayLength).
Proof.
  destruct X as (_ & Xg & _). cbn [global lookup lib_globals String.eqb Ascii.eqb Bool.eqb]. rewrite (Xg "sizeof.ArrayLength" _ eq_refl). rewrite (Xg "sizeof.Int32" _ eq_refl). reflexivity.
Qed.
Ltac sizes := cbv beta iota delta [go_sizeof_Bytes go_sizeof_Int32Array go_sizeof_Int64Array go_sizeof_String go_sizeof_StringArray go_sizeof_VarBytes go_sizeof_VarInt go_sizeof_VarString f_body f_params f_results].
Ltac size_enter := erewrite (called _ _ _ _ X) by reflexivity; unfold invoke; sizes.
Lemma Bytes_size n data s : go (S n) "sizeof.Bytes" [slice_val (VInts U8) data] s = Ok (VInt I32 (sz_Bytes data)) s.
Proof. size_enter. destruct data; crunch; rewrite run_cons; crunch; rewrite g_ArrayLength; reflexivity. Qed.
Lemma Int32Array_size n data s : go (S n) "sizeof.Int32Array" [slice_val (VInts I32) data] s = Ok (VInt I32 (sz_Int32Array data)) s.
Proof. size_enter. destruct data; crunch; rewrite run_cons; crunch; rewrite g_ArrayLength, g_Int32; reflexivity. Qed.
Lemma Int64Array_size n data s : go (S n) "sizeof.Int64Array" [slice_val (VInts I64) data] s = Ok (VInt I32 (sz_Int64Array data)) s.
Proof. size_enter. destruct data; crunch; rewrite run_cons; crunch; rewrite g_ArrayLength, g_Int64; reflexivity. Qed.
Lemma String_size n x s : go (S n) "sizeof.String" [VStr x] s = Ok (VInt I32 (sz_String x)) s.
Proof. size_enter. crunch. rewrite run_cons. crunch. rewrite g_Int16. reflexivity. Qed.
Lemma StringArray_size n (data : gslice (list Z)) s : go (S (S n)) "sizeof.StringArray" [slice_val VStrs data] s = Ok (VInt I32 (sz_StringArray data)) s.
Proof.
  size_enter. replace (bind_params W [("ss", GSlice GString)] [slice_val VStrs data]) with (Some [("ss", slice_val VStrs data)]) by (destruct data; reflexivity). cbn [opt rbind].
  rewrite run_cons. change (exec W R scribble prog (go (S n)) (S n) (SVar "sz" (Some (GInt I32)) None) [("ss", slice_val VStrs data)] s) with (Ok (On [("sz", VInt I32 0); ("ss", slice_val VStrs data)]) s). cbv beta iota.
  rewrite run_cons.
  assert (Q : exec W R scribble prog (go (S n)) (S n) (SOp (EVar "sz") Add (EGlobal "sizeof.ArrayLength")) [("sz", VInt I32 0); ("ss", slice_val VStrs data)] s = Ok (On [("sz", VInt I32 (add32 0 sz_ArrayLength)); ("ss", slice_val VStrs data)]) s)
    by (crunch; rewrite g_ArrayLength; reflexivity).
  rewrite Q. rewrite run_cons, exec_range. cbn [eval lookup String.eqb Ascii.eqb Bool.eqb opt rbind].
  assert (Q2 : forall l z, each (map VStr l) (fun v E s => leave_block E (run W R scribble prog (go (S n)) (S n) [SOp (EVar "sz") Add (ECall "sizeof.String" [EVar "s"])] (declare "s" v E) s)) [("sz", VInt I32 z); ("ss", slice_val VStrs data)] s =
    Ok (On [("sz", VInt I32 (fold_left (fun sz s => add32 sz (sz_String s)) l z)); ("ss", slice_val VStrs data)]) s).
  { induction l as [|x l IH]; intros z; cbn [map each fold_left]; [reflexivity|]. rewrite run_cons.
    change (declare "s" (VStr x) [("sz", VInt I32 z); ("ss", slice_val VStrs data)]) with [("s", VStr x); ("sz", VInt I32 z); ("ss", slice_val VStrs data)].
    assert (Q3 : exec W R scribble prog (go (S n)) (S n) (SOp (EVar "sz") Add (ECall "sizeof.String" [EVar "s"])) [("s", VStr x); ("sz", VInt I32 z); ("ss", slice_val VStrs data)] s = Ok (On [("s", VStr x); ("sz", VInt I32 (add32 z (sz_String x))); ("ss", slice_val VStrs data)]) s)
      by (crunch; rewrite String_size; reflexivity).
    rewrite Q3, run_nil. cbn [leave_block length Nat.sub skipn rbind]. apply IH. }
  unfold sz_StringArray. assert (D : exists l, elements (slice_val VStrs data) = Some (map VStr l) /\ items data = l) by (exists (items data); destruct data; split; reflexivity).
  destruct D as (l & D1 & D2). destruct data as [data|]; cbn [slice_val] in D1 |- *.
  - cbn [rbind]. rewrite D1. cbn [opt rbind]. cbn [slice_val] in Q2. rewrite Q2, <- D2. reflexivity.
  - cbn [rbind]. rewrite D1. cbn [opt rbind]. cbn [slice_val] in Q2. rewrite Q2, <- D2. reflexivity.
Qed.
Lemma VarInt_size n i s : exists s', go (S (S n)) "sizeof.VarInt" [VInt I64 i] s = Ok (VInt I32 (sz_VarInt i)) s' /\ grown s s'.
Proof.
  unfold sz_VarInt. destruct (put_varint i) as [bs|] eqn:Eb; [|destruct (put_varint_total i) as (bs & Hb & _); congruence].
  destruct (store_uvarint_ok 16 17 0 (zigzag i) (repeat 0 16) bs Eb) as (buf' & S1 & L1 & F1 & L2); [lia|cbn; lia|].
  set (s1 := mkState (heap s ++ [CArray (repeat 0 16)]) (world s)). set (b := length (heap s)).
  assert (B : nth_error (heap s1) b = Some (CArray (repeat 0 16))) by (unfold s1, b; cbn [heap]; rewrite nth_error_app2, Nat.sub_diag by lia; reflexivity).
  exists (set_cell b (CArray buf') s1). split.
  - size_enter. cbn [bind_params settle option_map opt rbind]. rewrite run_cons.
    change (exec W R scribble prog (go (S n)) (S n) (SVar "buf" (Some (GArray 16 (GInt U8))) None) [("i", VInt I64 i)] s) with (Ok (On [("buf", VArr b); ("i", VInt I64 i)]) s1).
    clearbody s1 b. cbv beta iota. rewrite run_cons. crunch. rewrite B. crunch. change (slice (repeat 0 16) 0 (zlen (repeat 0 16))) with (Some (repeat 0 16)). crunch. library. rewrite B.
    change (Z.to_nat 0) with O. change (firstn (Z.to_nat (zlen (repeat 0 16))) (repeat 0 16)) with (repeat 0 16). rewrite S1. crunch. rewrite run_cons. crunch.
    match goal with |- context [buf' ++ ?r] => change r with (@nil Z) end. rewrite app_nil_r, Z.sub_0_r. reflexivity.
  - exists [CArray buf']. unfold set_cell, s1. cbn [heap world]. split; [|reflexivity]. unfold b. clear. induction (heap s) as [|c h IH]; [reflexivity|]. cbn [length app set_nth]. f_equal. exact IH.
Qed.
Lemma VarBytes_size n data s : exists s', go (S (S (S n))) "sizeof.VarBytes" [slice_val (VInts U8) data] s = Ok (VInt I32 (sz_VarBytes data)) s' /\ grown s s'.
Proof.
  destruct (VarInt_size n (int64 (glen data)) s) as (s' & Q & G). exists s'. split; [|exact G].
  size_enter. destruct data as [data|]; cbn [slice_val]; crunch; rewrite run_cons; crunch; rewrite run_cons; crunch; unfold glen in Q; cbn [items] in Q; [|change (zlen []) with 0 in Q]; rewrite Q; reflexivity.
Qed.
Lemma VarString_size n x s : exists s', go (S (S (S n))) "sizeof.VarString" [VStr x] s = Ok (VInt I32 (sz_VarString x)) s' /\ grown s s'.
Proof.
  destruct (VarInt_size n (int64 (zlen x)) s) as (s' & Q & G). exists s'. split; [|exact G].
  size_enter. crunch. rewrite run_cons. crunch. rewrite run_cons. crunch. rewrite Q. reflexivity.
Qed.
End Source.
