(** * The text of the generated methods does what the schemas say *)
From Coq Require Import Ascii String.
From Verif Require Import GoBase GoLemmas Binary Utf8 Sizeof Decoder Encoder EncProofs SchemaSpec Schema Platform PlatformSpec PlatformProofs Calls Scratch GoLang Source SourceSpec SourceBase SourceDecoder SourceLoops SourceEncoder SourceSizeof SourceWire SourceLayout SourceMsgSpec.
From Coq Require Import Lia ZArith.
Local Open Scope list_scope.
Local Open Scope string_scope.
Local Open Scope Z_scope.

Fixpoint names (fs : nfields) : list string := match fs with NNil => [] | NCons f _ _ rest => f :: names rest end.
Definition range_ok (r : range) : Prop := match r with Always => True | From a => int16 a = a | Between a b => int16 a = a /\ int16 b = b end.

(** A program that has the methods of a structure. *)
Definition entry (prog : package) (structs : string -> ty) (name : string) (fs : nfields) : Prop :=
  lookup (name ++ ".Size") (k_funcs prog) = Some (size_text name fs) /\
  lookup (name ++ ".Encode") (k_funcs prog) = Some (encode_text name fs) /\
  lookup (name ++ ".Decode") (k_funcs prog) = Some (decode_text name fs) /\
  (forall L sc m, In m [".Size"; ".Encode"; ".Decode"] -> lookup (name ++ m) (lib_table L sc) = None) /\
  lookup name (k_types prog) = Some (struct_type fs) /\ structs name = TArray (erase fs).
Fixpoint knows_t (prog : package) (structs : string -> ty) (t : nty) : Prop :=
  match t with NPrim _ => True | NArray name fs => entry prog structs name fs /\ knows prog structs fs end
with knows (prog : package) (structs : string -> ty) (fs : nfields) : Prop :=
  match fs with NNil => True | NCons f r t rest => range_ok r /\ ~ In f (names rest) /\ knows_t prog structs t /\ knows prog structs rest end.

Lemma uniform {A} (l : list A) (Q : A -> nat -> Prop) : (forall x, In x l -> exists N, forall n, (N <= n)%nat -> Q x n) -> exists N, forall n, (N <= n)%nat -> forall x, In x l -> Q x n.
Proof.
  induction l as [|x l IH]; intros H.
  - exists 0%nat. intros n _ x [].
  - destruct (H x (or_introl eq_refl)) as [N1 H1]. destruct IH as [N2 H2]; [intros y Hy; apply H; right; exact Hy|].
    exists (Nat.max N1 N2). intros n Hn y [<-|Hy]; [apply H1; lia|apply H2; [lia|exact Hy]].
Qed.
Lemma lookup_in {A} : forall (m : list (string * A)) f v, NoDup (map fst m) -> In (f, v) m -> lookup f m = Some v.
Proof.
  induction m as [|[g w] m IH]; intros f v D H; [destruct H|]. cbn [lookup]. inversion D as [|? ? D1 D2]; subst. destruct H as [E|H].
  - injection E as -> ->. rewrite String.eqb_refl. reflexivity.
  - destruct (String.eqb_spec f g) as [->|N]; [|apply IH; assumption]. exfalso. apply D1. apply in_map_iff. exists (g, v). split; [reflexivity|exact H].
Qed.
Lemma names_vals fs : forall x, map fst (nvals fs x) = names fs.
Proof. induction fs as [|f r t rest IH]; intros x; cbn [nvals names map fst]; [reflexivity|]. f_equal. apply IH. Qed.
Lemma knows_nodup prog structs fs : knows prog structs fs -> NoDup (names fs).
Proof. induction fs as [|f r t rest IH]; cbn [knows names]; intros K; constructor; [apply K|apply IH, K]. Qed.
Lemma app_assoc_s a b c : ((a ++ b) ++ c = a ++ (b ++ c))%string.
Proof. induction a as [|x a IH]; cbn [String.append]; [reflexivity|]. f_equal. exact IH. Qed.

Section Messages.
Context (P : platform) (GP : go_platform P) (structs : string -> ty) (scribble : list (list Z) -> list Z -> list Z) (prog : package) (X : extends prog source).
Context (Hs : forall log buf, length buf = 16%nat -> length (scribble log buf) = 16%nat).
Context (Builtin : lookup "error" (k_types prog) = None).
Notation W := (p_int P).
Notation L := (p_late P).
Notation R := (room_of P structs).
Notation go := (call W L R scribble prog).
Notation exec_ n := (exec W R scribble prog (go n) n).
Notation run_ n := (run W R scribble prog (go n) n).
Notation eval_ n := (eval W R scribble prog (go n)).
Notation knows := (knows prog structs).
Notation entry := (entry prog structs).

Lemma run_app n a b E s : run_ n (a ++ b)%list E s = match run_ n a E s with Ok (On E) s => run_ n b E s | Ok (Leave vs) s => Ok (Leave vs) s | Panic => Panic | Stuck => Stuck end.
Proof.
  revert E s. induction a as [|c a IH]; intros E s; [reflexivity|]. cbn [app]. rewrite !run_cons. destruct (exec_ n c E s) as [[E1|vs] s1| |]; [apply IH|reflexivity..].
Qed.
Lemma exec_if n init c yes no E s : exec_ n (SIf init c yes no) E s =
  leave_block E (match run_ n init E s with
    | Ok (On E) s => match eval_ n c E s with Ok (VBool true) s => leave_block E (run_ n yes E s) | Ok (VBool false) s => leave_block E (run_ n no E s) | Ok _ _ => Stuck | Panic => Panic | Stuck => Stuck end
    | Ok (Leave vs) s => Ok (Leave vs) s | Panic => Panic | Stuck => Stuck end).
Proof. reflexivity. Qed.
Lemma leave_twice E m : leave_block E (leave_block E m) = leave_block E m.
Proof.
  destruct m as [[E'|vs] s| |]; [|reflexivity..]. cbn [leave_block]. rewrite skipn_length.
  replace (length E' - (length E' - length E) - length E)%nat with 0%nat by lia. reflexivity.
Qed.
Lemma leave_same E s : leave_block E (Ok (On E) s) = Ok (On E) s.
Proof. cbn [leave_block]. rewrite Nat.sub_diag. reflexivity. Qed.
Lemma leave_front E F s : leave_block E (Ok (On (F ++ E)%list) s) = Ok (On E) s.
Proof.
  cbn [leave_block]. rewrite app_length. replace (length F + length E - length E)%nat with (length F) by lia. rewrite skipn_app, skipn_all, Nat.sub_diag. reflexivity.
Qed.
Lemma since_ok n a v E s : lookup "version" E = Some (VInt I16 v) -> int16 a = a -> eval_ n (since a) E s = Ok (VBool (a <=? v)) s.
Proof. intros H Ha. unfold since. cbn [eval]. rewrite H. cbn. rewrite Ha. reflexivity. Qed.
Lemma until_ok n a v E s : lookup "version" E = Some (VInt I16 v) -> int16 a = a -> eval_ n (EBin Le (EVar "version") (EInt a)) E s = Ok (VBool (v <=? a)) s.
Proof. intros H Ha. cbn [eval]. rewrite H. cbn. rewrite Ha. reflexivity. Qed.
Lemma guarded_run n r body v E s : lookup "version" E = Some (VInt I16 v) -> range_ok r ->
  run_ n (guarded r body) E s = if active r v then match r with Always => run_ n body E s | _ => leave_block E (run_ n body E s) end else Ok (On E) s.
Proof.
  intros Hv Hr. destruct r as [|a|a b]; cbn [guarded active]; [reflexivity| |]; rewrite run_cons, exec_if, !run_nil.
  - rewrite (since_ok n a v E s Hv Hr). destruct (a <=? v); [|rewrite run_nil, !leave_same; reflexivity]. rewrite leave_twice.
    destruct (run_ n body E s) as [[E'|vs] s'| |]; reflexivity.
  - destruct Hr as [Ha Hb].
    assert (Q : eval_ n (EBin And (since a) (EBin Le (EVar "version") (EInt b))) E s = Ok (VBool ((a <=? v) && (v <=? b))) s).
    { assert (U : eval_ n (EBin And (since a) (EBin Le (EVar "version") (EInt b))) E s =
        let* (v, s) := eval_ n (since a) E s in match v with VBool true => eval_ n (EBin Le (EVar "version") (EInt b)) E s | VBool false => Ok v s | _ => Stuck end) by reflexivity.
      rewrite U, (since_ok n a v E s Hv Ha). cbn [rbind]. destruct (a <=? v); [|reflexivity]. rewrite (until_ok n b v E s Hv Hb). reflexivity. }
    rewrite Q. destruct ((a <=? v) && (v <=? b)); [|rewrite run_nil, !leave_same; reflexivity]. rewrite leave_twice.
    destruct (run_ n body E s) as [[E'|vs] s'| |]; reflexivity.
Qed.

(** ** Size *)
Definition size_env (name : string) (all : list (string * val)) (v z : Z) : env := [("sz", VInt I32 z); ("t", VStruct name all); ("version", VInt I16 v)].
Definition has (all some : list (string * val)) : Prop := forall f x, In (f, x) some -> lookup f all = Some x.
Lemma eval_field n f E s name all x : lookup "t" E = Some (VStruct name all) -> lookup f all = Some x -> eval_ n (field f) E s = Ok x s.
Proof. intros H Hf. unfold field. cbn [eval]. rewrite H. cbn [opt rbind]. rewrite Hf. reflexivity. Qed.
Lemma add_size n e name all v z y s : eval_ n e (size_env name all v z) s = Ok (VInt I32 y) s ->
  exec_ n (SOp (EVar "sz") Add e) (size_env name all v z) s = Ok (On (size_env name all v (add32 z y))) s.
Proof. intros H. unfold size_env in *. cbn [exec eval lookup String.eqb Ascii.eqb Bool.eqb opt rbind]. rewrite H. reflexivity. Qed.
Lemma prim_size n p f name all v z x s : lookup f all = Some (prim_val p x) ->
  run_ (S (S n)) (size_field f (NPrim p)) (size_env name all v z) s = Ok (On (size_env name all v (gsize (prim_ty p) v x z))) s.
Proof.
  intros H. cbn [size_field]. rewrite run_cons.
  assert (Q : forall y, eval_ (S (S n)) (if fixed_size p then EGlobal ("sizeof." ++ prim_name p) else ECall ("sizeof." ++ prim_name p) [field f]) (size_env name all v z) s = Ok (VInt I32 y) s ->
    gsize (prim_ty p) v x z = add32 z y -> match exec_ (S (S n)) (SOp (EVar "sz") Add (if fixed_size p then EGlobal ("sizeof." ++ prim_name p) else ECall ("sizeof." ++ prim_name p) [field f])) (size_env name all v z) s with
      | Ok (On E) s => run_ (S (S n)) [] E s | Ok (Leave vs) s => Ok (Leave vs) s | Panic => Panic | Stuck => Stuck end = Ok (On (size_env name all v (gsize (prim_ty p) v x z))) s).
  { intros y Hy ->. rewrite (add_size _ _ _ _ _ _ y s Hy). apply run_nil. }
  assert (F : forall g (y : Z), go (S (S n)) g [prim_val p x] s = Ok (VInt I32 y) s -> eval_ (S (S n)) (ECall g [field f]) (size_env name all v z) s = Ok (VInt I32 y) s).
  { intros g y Hg. cbn [eval]. rewrite (eval_field _ f (size_env name all v z) s name all (prim_val p x) eq_refl H). cbn [rbind]. exact Hg. }
  destruct p; cbn [fixed_size prim_name String.append prim_ty gsize] in *.
  - eapply Q; [cbn [eval]; rewrite (g_Bool P prog X); reflexivity|reflexivity].
  - eapply Q; [cbn [eval]; rewrite (g_Int8 P prog X); reflexivity|reflexivity].
  - eapply Q; [cbn [eval]; rewrite (g_Int16 P prog X); reflexivity|reflexivity].
  - eapply Q; [cbn [eval]; rewrite (g_Int32 P prog X); reflexivity|reflexivity].
  - eapply Q; [cbn [eval]; rewrite (g_Int64 P prog X); reflexivity|reflexivity].
  - eapply Q; [apply F, (String_size P structs scribble prog X)|reflexivity].
  - eapply Q; [apply F, (Bytes_size P structs scribble prog X)|reflexivity].
  - eapply Q; [apply F, (Int32Array_size P structs scribble prog X)|reflexivity].
  - eapply Q; [apply F, (Int64Array_size P structs scribble prog X)|reflexivity].
  - eapply Q; [apply F, (StringArray_size P structs scribble prog X)|reflexivity].
Qed.
Lemma exec_for_ n init c post body E s : exec_ n (SFor init c post body) E s =
  leave_block E (match run_ n init E s with
    | Ok (On E) s => rounds n (eval_ n c) (fun E s => leave_block E (run_ n body E s)) (run_ n post) E s
    | Ok (Leave vs) s => Ok (Leave vs) s | Panic => Panic | Stuck => Stuck end).
Proof. reflexivity. Qed.
Lemma index_mid {A} (a b : list A) x : index (a ++ x :: b)%list (zlen a) = Some x.
Proof. unfold index, zlen. replace (0 <=? Z.of_nat (length a)) with true by (symmetry; apply Z.leb_le; lia). rewrite Nat2Z.id, nth_error_app2, Nat.sub_diag by lia. reflexivity. Qed.
Lemma eval_item n f E s name all t fss i fs : lookup "t" E = Some (VStruct name all) -> lookup f all = Some (VStructs t fss) -> lookup "i" E = Some (VInt INT i) -> index fss i = Some fs ->
  eval_ n (item_of f) E s = Ok (VStruct t fs) s.
Proof.
  intros H Hf Hi Hx. unfold item_of. cbn [eval]. rewrite (eval_field n f E s name all _ H Hf). cbn [rbind]. rewrite Hi. cbn [opt rbind number index_of]. rewrite Hx. reflexivity.
Qed.
Lemma int_fits z : - 2 ^ (W - 1) <= z < 2 ^ (W - 1) -> wrap W z = z.
Proof. intros H. apply (pint_id P z GP). exact H. Qed.
Lemma half_ : 0 < 2 ^ (W - 1).
Proof. pose proof (half_pos P GP). lia. Qed.

Definition size_body (f : string) := [SOp (EVar "sz") Add (EMethod (item_of f) "Size" [EVar "version"])].
Lemma size_rounds n f t fs name all v (l : list (dens (erase fs))) s : lookup f all = Some (VStructs t (map (nvals fs) l)) -> zlen l < 2 ^ (W - 1) ->
  (forall y, In y l -> go n (t ++ ".Size") [VStruct t (nvals fs y); VInt I16 v] s = Ok (VInt I32 (gsizes (erase fs) v y 0)) s) ->
  forall a b z more, l = (a ++ b)%list -> (length a < more)%nat ->
  rounds more (eval_ n (EBin Ge (EVar "i") (EInt 0))) (fun E s => leave_block E (run_ n (size_body f) E s)) (run_ n [SOp (EVar "i") Sub (EInt 1)])
    (("i", VInt INT (zlen a - 1)) :: size_env name all v z) s
  = Ok (On (("i", VInt INT (-1)) :: size_env name all v (fold_left (fun sz x => add32 sz (gsizes (erase fs) v x 0)) (rev a) z))) s.
Proof.
  intros Hf Hl Hc a. pose proof half_ as Hp. induction a as [|x a IH] using rev_ind; intros b z more El Hm; (destruct more as [|more]; [cbn in Hm; lia|]); cbn [rounds].
  - cbn [eval lookup String.eqb Ascii.eqb Bool.eqb opt rbind binary]. unfold conv. rewrite (w0 P GP). reflexivity.
  - assert (Za : zlen (a ++ [x])%list - 1 = zlen a) by (unfold zlen; rewrite app_length; cbn [length]; lia). rewrite Za.
    assert (Z0 : 0 <= zlen a) by (unfold zlen; lia).
    assert (T : eval_ n (EBin Ge (EVar "i") (EInt 0)) (("i", VInt INT (zlen a)) :: size_env name all v z) s = Ok (VBool true) s).
    { cbn [eval lookup String.eqb Ascii.eqb Bool.eqb opt rbind binary]. unfold conv. rewrite (w0 P GP). cbn [on_ints compare opt]. replace (0 <=? zlen a) with true by (symmetry; apply Z.leb_le; exact Z0). reflexivity. }
    rewrite T. cbn [rbind].
    assert (I : index (map (nvals fs) l) (zlen a) = Some (nvals fs x)).
    { rewrite El, <- app_assoc, map_app. cbn [app map]. replace (zlen a) with (zlen (map (nvals fs) a)) by (unfold zlen; rewrite map_length; reflexivity). apply index_mid. }
    assert (C : eval_ n (EMethod (item_of f) "Size" [EVar "version"]) (("i", VInt INT (zlen a)) :: size_env name all v z) s = Ok (VInt I32 (gsizes (erase fs) v x 0)) s).
    { cbn [eval]. rewrite (eval_item n f (("i", VInt INT (zlen a)) :: size_env name all v z) s name all t _ (zlen a) (nvals fs x) eq_refl Hf eq_refl I). cbn [lookup size_env String.eqb Ascii.eqb Bool.eqb opt rbind].
      apply Hc. rewrite El. rewrite !in_app_iff. left. right. left. reflexivity. }
    assert (B : run_ n (size_body f) (("i", VInt INT (zlen a)) :: size_env name all v z) s = Ok (On (("i", VInt INT (zlen a)) :: size_env name all v (add32 z (gsizes (erase fs) v x 0)))) s).
    { unfold size_body. rewrite run_cons. unfold size_env in *. cbn [exec eval_values]. cbn [eval lookup String.eqb Ascii.eqb Bool.eqb opt rbind] in C |- *. rewrite C. reflexivity. }
    rewrite B. cbn [leave_block length size_env Nat.sub skipn rbind]. fold (size_env name all v (add32 z (gsizes (erase fs) v x 0))).
    assert (D : run_ n [SOp (EVar "i") Sub (EInt 1)] (("i", VInt INT (zlen a)) :: size_env name all v (add32 z (gsizes (erase fs) v x 0))) s
      = Ok (On (("i", VInt INT (zlen a - 1)) :: size_env name all v (add32 z (gsizes (erase fs) v x 0)))) s).
    { rewrite run_cons. cbn [exec eval lookup String.eqb Ascii.eqb Bool.eqb opt rbind binary]. unfold conv at 1. rewrite (w1 P GP). cbn [on_ints compare arith option_map opt rbind]. unfold conv.
      rewrite int_fits; [reflexivity|]. rewrite El in Hl. unfold zlen in *. rewrite !app_length in Hl. lia. }
    change (match run_ n [SOp (EVar "i") Sub (EInt 1)] (("i", VInt INT (zlen a)) :: size_env name all v (add32 z (gsizes (erase fs) v x 0))) s with
      | Ok a s => match a with On E => rounds more (eval_ n (EBin Ge (EVar "i") (EInt 0))) (fun E s => leave_block E (run_ n (size_body f) E s)) (run_ n [SOp (EVar "i") Sub (EInt 1)]) E s | Leave _ => Stuck end
      | Panic => Panic | Stuck => Stuck end =
      Ok (On (("i", VInt INT (-1)) :: size_env name all v (fold_left (fun sz x => add32 sz (gsizes (erase fs) v x 0)) (rev (a ++ [x])) z))) s).
    rewrite D, rev_app_distr. cbn [rev app fold_left]. apply (IH (x :: b)%list); [rewrite El, <- app_assoc; reflexivity|rewrite app_length in Hm; cbn [length] in Hm; lia].
Qed.
Lemma array_size n f t fs name all v z (xs : gslice (dens (erase fs))) s : lookup f all = Some (nval (NArray t fs) xs) -> glen xs < 2 ^ (W - 1) -> (length (items xs) < n)%nat ->
  (forall y, In y (items xs) -> go n (t ++ ".Size") [VStruct t (nvals fs y); VInt I16 v] s = Ok (VInt I32 (gsizes (erase fs) v y 0)) s) ->
  run_ n (size_field f (NArray t fs)) (size_env name all v z) s = Ok (On (size_env name all v (gsize (TArray (erase fs)) v xs z))) s.
Proof.
  intros Hf Hl Hn Hc. cbn [size_field]. rewrite run_cons, (add_size _ _ _ _ _ _ sz_ArrayLength s) by (cbn [eval]; rewrite (g_ArrayLength P prog X); reflexivity). rewrite run_cons, exec_for_.
  pose proof half_ as Hp.
  assert (I : run_ n [SDefine ["i"] [EBin Sub (ELen (field f)) (EInt 1)]] (size_env name all v (add32 z sz_ArrayLength)) s = Ok (On (("i", VInt INT (zlen (items xs) - 1)) :: size_env name all v (add32 z sz_ArrayLength))) s).
  { rewrite run_cons. cbn [exec eval_values].
    assert (V : eval_ n (EBin Sub (ELen (field f)) (EInt 1)) (size_env name all v (add32 z sz_ArrayLength)) s = Ok (VInt INT (zlen (items xs) - 1)) s).
    { cbn [eval]. rewrite (eval_field n f (size_env name all v (add32 z sz_ArrayLength)) s name all _ eq_refl Hf). cbn [rbind].
      assert (Q : length_of (nval (NArray t fs) xs) s = Some (zlen (items xs))) by (destruct xs as [l|]; cbn [nval slice_val length_of items]; [unfold zlen; rewrite map_length|]; reflexivity).
      rewrite Q. cbn [opt rbind binary]. unfold conv. rewrite (w1 P GP). cbn [on_ints compare arith option_map opt]. unfold conv.
      rewrite int_fits; [reflexivity|]. unfold glen in Hl. unfold zlen in *. lia. }
    rewrite V. reflexivity. }
  rewrite I. fold (size_body f). unfold gsize at 1. fold gsizes. unfold size_loop, size_array, size_add.
  destruct xs as [l|]; cbn [items] in *.
  - cbn [nval slice_val] in Hf. pose proof (size_rounds n f t fs name all v l s Hf Hl Hc l [] (add32 z sz_ArrayLength) n) as Q. rewrite app_nil_r in Q. rewrite (Q eq_refl Hn). reflexivity.
  - destruct n as [|n]; [cbn in Hn; lia|]. cbn [rounds]. cbn [eval lookup String.eqb Ascii.eqb Bool.eqb opt rbind binary]. unfold conv. rewrite (w0 P GP). reflexivity.
Qed.
Lemma invoked n name m fn vs s : In m [".Size"; ".Encode"; ".Decode"] -> (forall L sc m, In m [".Size"; ".Encode"; ".Decode"] -> lookup (name ++ m) (lib_table L sc) = None) ->
  lookup (name ++ m) (k_funcs prog) = Some fn -> go (S n) (name ++ m) vs s = invoke W R scribble prog (go n) n fn vs s.
Proof. intros Hm HL HF. cbn [call]. rewrite HL by exact Hm. rewrite HF. reflexivity. Qed.

Definition size_fields_ok (fs : nfields) : Prop := knows fs -> forall v x, sizeds (2 ^ (W - 1)) (erase fs) x -> exists N, forall n, (N <= n)%nat -> forall name all z s, has all (nvals fs x) ->
  run_ n (size_fields fs) (size_env name all v z) s = Ok (On (size_env name all v (gsizes (erase fs) v x z))) s.
Lemma size_call fs : size_fields_ok fs -> knows fs -> forall name, entry name fs -> forall v x, sizeds (2 ^ (W - 1)) (erase fs) x -> exists N, forall n, (N <= n)%nat -> forall s,
  go n (name ++ ".Size") [VStruct name (nvals fs x); VInt I16 v] s = Ok (VInt I32 (gsizes (erase fs) v x 0)) s.
Proof.
  intros F K name (E1 & _ & _ & EL & _) v x Hx. destruct (F K v x Hx) as [N HN]. exists (S N). intros n Hn s. destruct n as [|n]; [lia|].
  rewrite (invoked n name ".Size" _ _ s (or_introl eq_refl) EL E1). unfold invoke. cbn [size_text f_params f_body f_results bind_params settle option_map opt rbind]. rewrite run_cons.
  change (exec_ n (SVar "sz" (Some (GInt I32)) None) [("t", VStruct name (nvals fs x)); ("version", VInt I16 v)] s) with (Ok (On (size_env name (nvals fs x) v 0)) s).
  cbv beta iota. rewrite run_app, HN; [reflexivity|lia|]. intros f y Hy. apply lookup_in; [rewrite names_vals; apply (knows_nodup prog structs), K|exact Hy].
Qed.
Lemma size_all : (forall t, match t with NPrim _ => True | NArray _ fs => size_fields_ok fs end) /\ (forall fs, size_fields_ok fs).
Proof.
  apply layout_mind; [intros p; exact I|intros name fs H; exact H| |].
  - intros _ v x _. exists 0%nat. intros n _ name all z s _. reflexivity.
  - intros f r t IHt rest IHr (Hr & Hd & Ht & Kr) v [y x] [Hy Hx]. cbn [fst snd] in Hy, Hx. destruct (IHr Kr v x Hx) as [N1 H1].
    assert (Field : exists N, forall n, (N <= n)%nat -> forall name all z s, lookup f all = Some (nval t y) -> run_ n (size_field f t) (size_env name all v z) s = Ok (On (size_env name all v (gsize (erase_t t) v y z))) s).
    { destruct t as [p|tn fs]; cbn [erase_t] in *.
      - exists 2%nat. intros n Hn name all z s Hf. destruct n as [|[|n]]; [lia|lia|]. apply prim_size, Hf.
      - cbn [knows_t] in Ht. destruct Ht as [He Kt]. cbn [sized] in Hy. destruct Hy as [Hy1 Hy2]. rewrite Forall_forall in Hy2.
        destruct (uniform (items y) (fun e n => forall s, go n (tn ++ ".Size") [VStruct tn (nvals fs e); VInt I16 v] s = Ok (VInt I32 (gsizes (erase fs) v e 0)) s)) as [N2 H2].
        { intros e Hin. apply (size_call fs IHt Kt tn He v e). apply Hy2, Hin. }
        exists (Nat.max N2 (S (length (items y)))). intros n Hn name all z s Hf. apply array_size; [exact Hf|exact Hy1|exact (Nat.le_trans _ _ _ (Nat.le_max_r _ _) Hn)|]. intros e Hin. apply H2; [lia|exact Hin]. }
    destruct Field as [N2 H2]. exists (Nat.max N1 N2). intros n Hn name all z s Ha. cbn [size_fields]. rewrite run_app, (guarded_run n r _ v) by (first [reflexivity|exact Hr]).
    cbn [erase gsizes fst snd]. unfold size_if.
    assert (Hf : lookup f all = Some (nval t y)) by (apply Ha; left; reflexivity).
    assert (Ha' : has all (nvals rest x)) by (intros g w Hg; apply Ha; right; exact Hg).
    destruct (active r v).
    + rewrite (H2 n) by (first [exact Hf|lia]). destruct r; cbn [leave_block size_env length Nat.sub skipn]; fold (size_env name all v (gsize (erase_t t) v y z)); apply H1; solve [lia|exact Ha'].
    + apply H1; [lia|exact Ha'].
Qed.

(** ** Encode *)
Definition len_var (p : string * val) : Prop := exists i k, p = (len_name i, VInt INT k).
Definition encode_base (name : string) (all : list (string * val)) (l : nat) (v : Z) : env := [("t", VStruct name all); ("e", VRef l); ("version", VInt I16 v)].
Lemma lookup_past x lens E : Forall len_var lens -> (forall i, String.eqb x (len_name i) = false) -> lookup x (lens ++ E)%list = lookup x E.
Proof.
  intros H N. induction H as [|[y w] lens (i & k & Q) H IH]; [reflexivity|]. injection Q as -> ->. cbn [app lookup]. rewrite N. exact IH.
Qed.
Lemma not_len x i : match x with String a _ => Ascii.eqb a "l"%char = false | EmptyString => True end -> String.eqb x (len_name i) = false.
Proof. destruct x as [|a x]; [reflexivity|]. unfold len_name. cbn [String.append String.eqb]. intros ->. reflexivity. Qed.
Lemma lookup_skip {A} x y (w : A) m : String.eqb x y = false -> lookup x ((y, w) :: m) = lookup x m.
Proof. intros H. cbn [lookup]. rewrite H. reflexivity. Qed.
Lemma base_t lens name all l v : Forall len_var lens -> lookup "t" (lens ++ encode_base name all l v)%list = Some (VStruct name all).
Proof. intros H. rewrite lookup_past by (first [exact H|intros i; apply not_len; reflexivity]). reflexivity. Qed.
Lemma base_e lens name all l v : Forall len_var lens -> lookup "e" (lens ++ encode_base name all l v)%list = Some (VRef l).
Proof. intros H. rewrite lookup_past by (first [exact H|intros i; apply not_len; reflexivity]). reflexivity. Qed.
Lemma base_v lens name all l v : Forall len_var lens -> lookup "version" (lens ++ encode_base name all l v)%list = Some (VInt I16 v).
Proof. intros H. rewrite lookup_past by (first [exact H|intros i; apply not_len; reflexivity]). reflexivity. Qed.
Lemma kept_refl l s : kept l s s. Proof. intros k t fs _ H. exact H. Qed.
Lemma kept_trans l s1 s2 s3 : kept l s1 s2 -> kept l s2 s3 -> kept l s1 s3.
Proof. intros A B k t fs Hk H. apply B, A; assumption. Qed.

Lemma eval_put n m arg x E l b e s : lookup "e" E = Some (VRef l) -> holds l b e s -> eval_ n arg E s = Ok x s ->
  eval_ n (EMethod (EVar "e") m [arg]) E s = go n ("Encoder." ++ m) [VRef l; x] s.
Proof.
  intros H (Hh & _) Ha. cbn [eval]. rewrite H. cbn [opt rbind]. rewrite Ha. cbn [rbind]. rewrite Hh. reflexivity.
Qed.
Lemma prim_put p (x : den (prim_ty p)) v : exists c, put_name c = "Encoder." ++ ("Put" ++ prim_name p) /\ put_args c = [prim_val p x] /\ texts_ok c /\ forall e, perform c e = gencode (prim_ty p) v x e.
Proof.
  destruct p; cbn [prim_ty den] in x;
    [exists (CallBool x)|exists (CallInt8 x)|exists (CallInt16 x)|exists (CallInt32 x)|exists (CallInt64 x)|exists (CallString x)|exists (CallBytes x)|exists (CallInt32Array x)|exists (CallInt64Array x)|exists (CallStringArray x)];
    repeat split.
Qed.
Lemma put_statement n m arg x c E l b e s : (4 <= n)%nat -> lookup "e" E = Some (VRef l) -> holds l b e s -> eval_ n arg E s = Ok x s -> put_name c = "Encoder." ++ m -> put_args c = [x] -> texts_ok c ->
  exists s', exec_ n (SExpr (EMethod (EVar "e") m [arg])) E s = Ok (On E) s' /\ holds l b (perform c e) s' /\ kept l s s'.
Proof.
  intros Hn He Hh Ha Hc Hx Ht. destruct (encoder_call P structs scribble prog X Hs n c l b Hn Ht s e Hh) as (s' & Q & H' & K'). exists s'.
  split; [|split; assumption]. cbn [exec]. rewrite (eval_put n m arg x E l b e s He Hh Ha), <- Hc, <- Hx, Q. reflexivity.
Qed.
Definition puts (l b : nat) (g : Encoder -> Encoder) (s : state) (e : Encoder) (base : env) (r : res flow) : Prop :=
  exists lens s', r = Ok (On (lens ++ base)%list) s' /\ Forall len_var lens /\ holds l b (g e) s' /\ kept l s s'.

Definition encode_body (f : string) := [SExpr (EMethod (item_of f) "Encode" [EVar "e"; EVar "version"])].
Lemma len_eqb i : String.eqb (len_name i) (len_name i) = true. Proof. apply String.eqb_refl. Qed.
Lemma encode_rounds n f t fs name all v l b i lens (xs : list (dens (erase fs))) : Forall len_var lens -> lookup f all = Some (VStructs t (map (nvals fs) xs)) -> zlen xs < 2 ^ (W - 1) ->
  (forall y, In y xs -> effect l b (gencodes (erase fs) v y) (go n (t ++ ".Encode") [VStruct t (nvals fs y); VRef l; VInt I16 v])) ->
  forall c a more s e, xs = (a ++ c)%list -> (length c < more)%nat -> holds l b e s ->
  let E := ((len_name i, VInt INT (zlen xs)) :: lens ++ encode_base name all l v)%list in
  exists s', rounds more (eval_ n (EBin Lt (EVar "i") (EVar (len_name i)))) (fun E s => leave_block E (run_ n (encode_body f) E s)) (run_ n [SOp (EVar "i") Add (EInt 1)])
    (("i", VInt INT (zlen a)) :: E) s = Ok (On (("i", VInt INT (zlen xs)) :: E)) s' /\ holds l b (foreach (gencodes (erase fs) v) c e) s' /\ kept l s s'.
Proof.
  intros Hlens Hf Hl Hc c. pose proof half_ as Hp. induction c as [|x c IH]; intros a more s e Ex Hm Hh E; (destruct more as [|more]; [cbn in Hm; lia|]); cbn [rounds].
  - assert (T : eval_ n (EBin Lt (EVar "i") (EVar (len_name i))) (("i", VInt INT (zlen a)) :: E) s = Ok (VBool false) s).
    { cbn [eval lookup String.eqb Ascii.eqb Bool.eqb opt rbind]. unfold E. cbn [lookup]. rewrite len_eqb. assert (Ne : String.eqb (len_name i) "i" = false) by reflexivity. rewrite Ne. cbn [opt rbind binary ity_eqb on_ints compare].
      replace (zlen a <? zlen xs) with false by (symmetry; apply Z.ltb_ge; rewrite Ex, app_nil_r; lia). reflexivity. }
    rewrite T. cbn [rbind]. exists s. split; [|split; [exact Hh|apply kept_refl]]. replace (zlen xs) with (zlen a) by (rewrite Ex, app_nil_r; reflexivity). reflexivity.
  - assert (Zx : zlen a < zlen xs) by (rewrite Ex; unfold zlen; rewrite app_length; cbn [length]; lia).
    assert (T : eval_ n (EBin Lt (EVar "i") (EVar (len_name i))) (("i", VInt INT (zlen a)) :: E) s = Ok (VBool true) s).
    { cbn [eval lookup String.eqb Ascii.eqb Bool.eqb opt rbind]. unfold E. cbn [lookup]. rewrite len_eqb. assert (Ne : String.eqb (len_name i) "i" = false) by reflexivity. rewrite Ne. cbn [opt rbind binary ity_eqb on_ints compare].
      replace (zlen a <? zlen xs) with true by (symmetry; apply Z.ltb_lt; exact Zx). reflexivity. }
    rewrite T. cbn [rbind].
    assert (I : index (map (nvals fs) xs) (zlen a) = Some (nvals fs x)).
    { rewrite Ex, map_app. cbn [map]. replace (zlen a) with (zlen (map (nvals fs) a)) by (unfold zlen; rewrite map_length; reflexivity). apply index_mid. }
    assert (Lt : lookup "t" (("i", VInt INT (zlen a)) :: E) = Some (VStruct name all)) by (unfold E; rewrite (lookup_skip "t" "i" _ _ eq_refl), (lookup_skip _ _ _ _ (not_len "t" i eq_refl)); apply base_t, Hlens).
    assert (Le : lookup "e" (("i", VInt INT (zlen a)) :: E) = Some (VRef l)) by (unfold E; rewrite (lookup_skip "e" "i" _ _ eq_refl), (lookup_skip _ _ _ _ (not_len "e" i eq_refl)); apply base_e, Hlens).
    assert (Lv : lookup "version" (("i", VInt INT (zlen a)) :: E) = Some (VInt I16 v)) by (unfold E; rewrite (lookup_skip "version" "i" _ _ eq_refl), (lookup_skip _ _ _ _ (not_len "version" i eq_refl)); apply base_v, Hlens).
    assert (Li : lookup "i" (("i", VInt INT (zlen a)) :: E) = Some (VInt INT (zlen a))) by reflexivity.
    destruct (Hc x ltac:(rewrite Ex; apply in_or_app; right; left; reflexivity) s e Hh) as (s1 & C1 & H1 & K1).
    assert (B : run_ n (encode_body f) (("i", VInt INT (zlen a)) :: E) s = Ok (On (("i", VInt INT (zlen a)) :: E)) s1).
    { unfold encode_body. rewrite run_cons. set (E1 := ("i", VInt INT (zlen a)) :: E) in *. clearbody E1.
      assert (Q : eval_ n (EMethod (item_of f) "Encode" [EVar "e"; EVar "version"]) E1 s = Ok (VTuple []) s1).
      { cbn [eval]. rewrite (eval_item n f E1 s name all t _ (zlen a) (nvals fs x) Lt Hf Li I). cbn [rbind]. rewrite Le. cbn [opt rbind]. rewrite Lv. cbn [opt rbind]. exact C1. }
      cbn [exec]. rewrite Q. reflexivity. }
    rewrite B, leave_same. cbn [rbind].
    assert (Za : zlen a + 1 = zlen (a ++ [x])%list) by (unfold zlen; rewrite app_length; cbn [length]; lia).
    assert (D : run_ n [SOp (EVar "i") Add (EInt 1)] (("i", VInt INT (zlen a)) :: E) s1 = Ok (On (("i", VInt INT (zlen (a ++ [x])%list)) :: E)) s1).
    { rewrite run_cons. cbn [exec eval lookup String.eqb Ascii.eqb Bool.eqb opt rbind binary]. unfold conv at 1. rewrite (w1 P GP). cbn [on_ints compare arith option_map opt rbind]. unfold conv.
      rewrite int_fits by (rewrite Za, Ex in *; unfold zlen in *; rewrite !app_length in *; cbn [length] in *; lia). rewrite Za. reflexivity. }
    rewrite D. cbn [rbind]. destruct (IH (a ++ [x])%list more s1 _ ltac:(rewrite Ex, <- app_assoc; reflexivity) ltac:(cbn [length] in Hm; lia) H1) as (s2 & Q2 & H2 & K2).
    exists s2. split; [exact Q2|]. split; [exact H2|]. exact (kept_trans _ _ _ _ K1 K2).
Qed.
Lemma exec_define n x e y E s : eval_ n e E s = Ok y s -> spread y = [y] -> (match y with VConst _ => False | _ => True end) -> String.eqb x "_" = false -> exec_ n (SDefine [x] [e]) E s = Ok (On ((x, y) :: E)) s.
Proof. intros H Hy Hc Hx. cbn [exec eval_values]. rewrite H. cbn [rbind]. rewrite Hy. cbn [declare_all]. unfold declare. rewrite Hx. destruct y; try reflexivity. destruct Hc. Qed.
Lemma array_encode n i f t fs name all v l b (xs : gslice (dens (erase fs))) lens s e : (4 <= n)%nat -> Forall len_var lens -> lookup f all = Some (nval (NArray t fs) xs) -> glen xs < 2 ^ (W - 1) -> (length (items xs) < n)%nat ->
  (forall y, In y (items xs) -> effect l b (gencodes (erase fs) v y) (go n (t ++ ".Encode") [VStruct t (nvals fs y); VRef l; VInt I16 v])) -> holds l b e s ->
  let base := (lens ++ encode_base name all l v)%list in
  exists s', run_ n (encode_field i f (NArray t fs)) base s = Ok (On ((len_name i, VInt INT (glen xs)) :: base)) s' /\ holds l b (gencode (TArray (erase fs)) v xs e) s' /\ kept l s s'.
Proof.
  intros H4 Hlens Hf Hl Hn Hc Hh base. cbn [encode_field]. rewrite run_cons.
  assert (V : eval_ n (ELen (field f)) base s = Ok (VInt INT (glen xs)) s).
  { cbn [eval]. rewrite (eval_field n f base s name all _ (base_t lens name all l v Hlens) Hf). cbn [rbind].
    assert (Q : length_of (nval (NArray t fs) xs) s = Some (glen xs)) by (destruct xs as [xs|]; cbn [nval slice_val length_of]; unfold glen, zlen; cbn [items]; rewrite ?map_length; reflexivity).
    rewrite Q. reflexivity. }
  rewrite (exec_define n (len_name i) _ _ base s V eq_refl I eq_refl). rewrite run_cons.
  set (E1 := (len_name i, VInt INT (glen xs)) :: base).
  assert (Le : lookup "e" E1 = Some (VRef l)) by (unfold E1; cbn [lookup]; rewrite (not_len "e" i eq_refl); apply base_e, Hlens).
  assert (Va : eval_ n (EVar (len_name i)) E1 s = Ok (VInt INT (glen xs)) s) by (unfold E1; cbn [eval lookup]; rewrite len_eqb; reflexivity).
  destruct (put_statement n "PutArrayLength" _ _ (CallArrayLength (glen xs)) E1 l b e s H4 Le Hh Va eq_refl eq_refl I) as (s1 & Q1 & H1 & K1).
  rewrite Q1, run_cons. unfold count_up. rewrite exec_for_, run_cons.
  assert (D0 : exec_ n (SDefine ["i"] [EInt 0]) E1 s1 = Ok (On (("i", VInt INT 0) :: E1)) s1) by (cbn [exec eval_values eval rbind spread declare_all declare String.eqb Ascii.eqb Bool.eqb opt settle_int settle conv]; rewrite (w0 P GP); reflexivity).
  rewrite D0, run_nil. fold (encode_body f).
  destruct xs as [xs|].
  - cbn [nval slice_val items] in *. destruct (encode_rounds n f t fs name all v l b i lens xs Hlens Hf Hl Hc xs [] n s1 _ eq_refl Hn H1) as (s2 & Q2 & H2 & K2).
    change (zlen []) with 0 in Q2. fold base in Q2. change (zlen xs) with (glen (Some xs)) in Q2. fold E1 in Q2. rewrite Q2. rewrite (leave_front E1 [("i", VInt INT (glen (Some xs)))]), run_nil.
    exists s2. split; [reflexivity|]. split; [exact H2|]. exact (kept_trans _ _ _ _ K1 K2).
  - destruct n as [|n]; [lia|]. cbn [rounds].
    assert (T : eval_ (S n) (EBin Lt (EVar "i") (EVar (len_name i))) (("i", VInt INT 0) :: E1) s1 = Ok (VBool false) s1).
    { cbn [eval lookup String.eqb Ascii.eqb Bool.eqb opt rbind]. unfold E1. cbn [lookup]. rewrite len_eqb. assert (Ne : String.eqb (len_name i) "i" = false) by reflexivity. rewrite Ne. reflexivity. }
    rewrite T. cbn [rbind]. rewrite (leave_front E1 [("i", VInt INT 0)]), run_nil. exists s1. split; [reflexivity|]. split; [exact H1|exact K1].
Qed.
Definition encode_fields_ok (fs : nfields) : Prop := knows fs -> forall v x, sizeds (2 ^ (W - 1)) (erase fs) x -> exists N, forall n, (N <= n)%nat -> forall i name all l b lens s e, Forall len_var lens -> has all (nvals fs x) -> holds l b e s ->
  puts l b (gencodes (erase fs) v x) s e (encode_base name all l v) (run_ n (encode_fields i fs) (lens ++ encode_base name all l v)%list s).
Lemma encode_call fs : encode_fields_ok fs -> knows fs -> forall name, entry name fs -> forall v x, sizeds (2 ^ (W - 1)) (erase fs) x -> exists N, forall n, (N <= n)%nat -> forall l b,
  effect l b (gencodes (erase fs) v x) (go n (name ++ ".Encode") [VStruct name (nvals fs x); VRef l; VInt I16 v]).
Proof.
  intros F K name (_ & E1 & _ & EL & _) v x Hx. destruct (F K v x Hx) as [N HN]. exists (S N). intros n Hn l b s e Hh. destruct n as [|n]; [lia|].
  rewrite (invoked n name ".Encode" _ _ s (or_intror (or_introl eq_refl)) EL E1). unfold invoke. cbn [encode_text f_params f_body f_results bind_params settle option_map opt rbind].
  destruct (HN n ltac:(lia) 0%nat name (nvals fs x) l b [] s e (Forall_nil _)) as (lens & s' & Q & _ & H' & K'); [|exact Hh|].
  - intros f y Hy. apply lookup_in; [rewrite names_vals; apply (knows_nodup prog structs), K|exact Hy].
  - cbn [app] in Q. unfold encode_base at 1 in Q. rewrite Q. cbn [rbind settle_results opt single]. exists s'. split; [reflexivity|]. split; assumption.
Qed.
Lemma encode_all : (forall t, match t with NPrim _ => True | NArray _ fs => encode_fields_ok fs end) /\ (forall fs, encode_fields_ok fs).
Proof.
  apply layout_mind; [intros p; exact I|intros name fs H; exact H| |].
  - intros _ v x _. exists 0%nat. intros n _ i name all l b lens s e Hl _ Hh. exists lens, s. split; [reflexivity|]. split; [exact Hl|]. split; [exact Hh|apply kept_refl].
  - intros f r t IHt rest IHr (Hr & Hd & Ht & Kr) v [y x] [Hy Hx]. cbn [fst snd] in Hy, Hx. destruct (IHr Kr v x Hx) as [N1 H1].
    assert (Field : exists N, forall n, (N <= n)%nat -> forall i name all l b lens s e, Forall len_var lens -> lookup f all = Some (nval t y) -> holds l b e s ->
      exists more s', run_ n (encode_field i f t) (lens ++ encode_base name all l v)%list s = Ok (On (more ++ lens ++ encode_base name all l v)%list) s' /\ Forall len_var more /\ holds l b (gencode (erase_t t) v y e) s' /\ kept l s s').
    { destruct t as [p|tn fs]; cbn [erase_t] in *.
      - exists 4%nat. intros n Hn i name all l b lens s e Hl Hf Hh. cbn [encode_field]. rewrite run_cons. destruct (prim_put p y v) as (c & Nc & Ac & Tc & Pc).
        destruct (put_statement n ("Put" ++ prim_name p) (field f) (prim_val p y) c (lens ++ encode_base name all l v)%list l b e s Hn (base_e _ _ _ _ _ Hl) Hh) as (s' & Q & H' & K'); [|exact Nc|exact Ac|exact Tc|].
        + apply (eval_field n f _ s name all); [apply base_t, Hl|exact Hf].
        + exists [], s'. rewrite Q. split; [reflexivity|]. split; [constructor|]. split; [rewrite <- Pc; exact H'|exact K'].
      - cbn [knows_t] in Ht. destruct Ht as [He Kt]. cbn [sized] in Hy. destruct Hy as [Hy1 Hy2]. rewrite Forall_forall in Hy2.
        destruct (uniform (items y) (fun z n => forall l b, effect l b (gencodes (erase fs) v z) (go n (tn ++ ".Encode") [VStruct tn (nvals fs z); VRef l; VInt I16 v]))) as [N2 H2].
        { intros z Hin. apply (encode_call fs IHt Kt tn He v z). apply Hy2, Hin. }
        exists (Nat.max 4 (Nat.max N2 (S (length (items y))))). intros n Hn i name all l b lens s e Hl Hf Hh.
        assert (Hn' : (S (length (items y)) <= n)%nat) by (refine (Nat.le_trans _ _ _ _ Hn); rewrite Nat.max_assoc; apply Nat.le_max_r).
        destruct (array_encode n i f tn fs name all v l b y lens s e ltac:(lia) Hl Hf Hy1 Hn') as (s' & Q & H' & K'); [intros z Hin; apply H2; [lia|exact Hin]|exact Hh|].
        exists [(len_name i, VInt INT (glen y))], s'. split; [exact Q|]. split; [constructor; [eexists _, _; reflexivity|constructor]|]. split; [exact H'|exact K']. }
    destruct Field as [N2 H2]. exists (Nat.max N1 N2). intros n Hn i name all l b lens s e Hl Ha Hh. cbn [encode_fields]. rewrite run_app, (guarded_run n r _ v) by (first [exact Hr|apply base_v, Hl]).
    cbn [erase gencodes fst snd]. unfold seq, put_if.
    assert (Hf : lookup f all = Some (nval t y)) by (apply Ha; left; reflexivity).
    assert (Ha' : has all (nvals rest x)) by (intros g w Hg; apply Ha; right; exact Hg).
    destruct (active r v); [|apply H1; [lia|exact Hl|exact Ha'|exact Hh]].
    destruct (H2 n ltac:(lia) i name all l b lens s e Hl Hf Hh) as (more & s1 & Q1 & L1 & Hh1 & K1). rewrite Q1.
    assert (Next : forall lens', Forall len_var lens' -> puts l b (fun e => gencodes (erase rest) v x (gencode (erase_t t) v y e)) s e (encode_base name all l v) (run_ n (encode_fields (S i) rest) (lens' ++ encode_base name all l v)%list s1)).
    { intros lens' Hl'. destruct (H1 n ltac:(lia) (S i) name all l b lens' s1 _ Hl' Ha' Hh1) as (lens'' & s2 & Q2 & L2 & Hh2 & K2). exists lens'', s2. split; [exact Q2|]. split; [exact L2|]. split; [exact Hh2|]. exact (kept_trans _ _ _ _ K1 K2). }
    destruct r.
    + rewrite app_assoc. apply Next. apply Forall_app. split; assumption.
    + rewrite leave_front. apply Next, Hl.
    + rewrite leave_front. apply Next, Hl.
Qed.

(** ** Decode *)
Definition decode_env (lt ld : nat) (v : Z) : env := [("err", VNil); ("t", VRef lt); ("d", VRef ld); ("version", VInt I16 v)].
Definition prim_zero (p : prim) : val :=
  match p with PBool => VBool false | PInt8 => VInt I8 0 | PInt16 => VInt I16 0 | PInt32 => VInt I32 0 | PInt64 => VInt I64 0 | PString => VStr [] | _ => VNil end.
Lemma prim_get p (old : den (prim_ty p)) v d : exists N, forall n, (N <= n)%nat -> forall s l, nth_error (heap s) l = Some (decoder_cell d) ->
  go n ("Decoder." ++ prim_name p) [VRef l] s = outcome (prim_val p) (prim_zero p) l s (pdecode P (prim_ty p) v old d).
Proof.
  exists (4 + length (d_raw d) + rounds_for P d)%nat. intros n Hn s l H. replace n with (S (S (S (S (n - 4))))) by lia.
  destruct (decoder_calls P GP structs scribble prog X (n - 4) s l d H ltac:(lia) ltac:(lia)) as (B & A8 & A16 & A32 & A64 & _ & By & St & _ & I32s & I64s & Sts & _).
  destruct p; cbn [prim_name prim_ty pdecode prim_val prim_zero String.append]; assumption.
Qed.
Lemma length_get d : exists N, forall n, (N <= n)%nat -> forall s l, nth_error (heap s) l = Some (decoder_cell d) ->
  go n "Decoder.ArrayLength" [VRef l] s = outcome (VInt INT) (VInt INT 0) l s (pArrayLength P d).
Proof.
  exists (4 + length (d_raw d) + rounds_for P d)%nat. intros n Hn s l H. replace n with (S (S (S (S (n - 4))))) by lia.
  destruct (decoder_calls P GP structs scribble prog X (n - 4) s l d H ltac:(lia) ltac:(lia)) as (_ & _ & _ & _ & _ & A & _). exact A.
Qed.
Lemma lookup_at {A} (pre : list (string * A)) f v rest : ~ In f (map fst pre) -> lookup f (pre ++ (f, v) :: rest)%list = Some v.
Proof.
  induction pre as [|[g w] pre IH]; intros N; cbn [app lookup].
  - rewrite String.eqb_refl. reflexivity.
  - destruct (String.eqb_spec f g) as [->|_]; [exfalso; apply N; left; reflexivity|]. apply IH. intros H. apply N. right. exact H.
Qed.
Lemma update_at pre f v w rest : ~ In f (map fst pre) -> update f w (pre ++ (f, v) :: rest)%list = Some (pre ++ (f, w) :: rest)%list.
Proof.
  induction pre as [|[g u] pre IH]; intros N; cbn [app update].
  - rewrite String.eqb_refl. reflexivity.
  - destruct (String.eqb_spec f g) as [->|_]; [exfalso; apply N; left; reflexivity|]. rewrite IH by (intros H; apply N; right; exact H). reflexivity.
Qed.
Lemma at_other s k l c : l <> k -> nth_error (heap (set_cell l c s)) k = nth_error (heap s) k.
Proof. intros H. apply nth_set_other, H. Qed.
Lemma besides_refl a b s : besides a b s s.
Proof. split; [reflexivity|]. split; [lia|]. intros. reflexivity. Qed.
Lemma besides_trans a b s1 s2 s3 : besides a b s1 s2 -> besides a b s2 s3 -> besides a b s1 s3.
Proof.
  intros (W1 & L1 & K1) (W2 & L2 & K2). split; [congruence|]. split; [lia|]. intros k Ha Hb Hk. rewrite K2 by (first [assumption|lia]). apply K1; assumption.
Qed.
Lemma besides_set_a a b c s : besides a b s (set_cell a c s).
Proof. split; [reflexivity|]. split; [unfold set_cell; cbn [heap]; rewrite set_nth_length; lia|]. intros k Ha Hb Hk. apply at_other. congruence. Qed.
Lemma besides_set_b a b c s : besides a b s (set_cell b c s).
Proof. split; [reflexivity|]. split; [unfold set_cell; cbn [heap]; rewrite set_nth_length; lia|]. intros k Ha Hb Hk. apply at_other. congruence. Qed.

(** w.f = x of a structure in memory *)
Lemma assign_field n f x E s lt name pre old rest : lookup "t" E = Some (VRef lt) -> nth_error (heap s) lt = Some (CStruct name (pre ++ (f, old) :: rest)%list) -> ~ In f (map fst pre) ->
  (match x with VConst _ => False | _ => True end) ->
  assign W R scribble prog (go n) (field f) x E s = Ok E (set_cell lt (CStruct name (pre ++ (f, x) :: rest)%list) s).
Proof.
  intros Ht Hc Hn Hx. unfold assign, field. cbn [eval]. rewrite Ht. cbn [opt rbind]. unfold set_field. rewrite Hc, lookup_at by exact Hn. cbn [opt rbind].
  assert (Q : settle_as W old x = x) by (destruct old, x; try reflexivity; destruct Hx). rewrite Q, update_at by exact Hn. reflexivity.
Qed.
Definition not_const (x : val) : Prop := match x with VConst _ => False | _ => True end.
Lemma prim_not_const p x : not_const (prim_val p x).
Proof. destruct p; cbn [prim_val]; try exact I; destruct x; exact I. Qed.
Lemma zero_not_const p : not_const (prim_zero p).
Proof. destruct p; exact I. Qed.
Lemma eval_get n m E s ld d : lookup "d" E = Some (VRef ld) -> nth_error (heap s) ld = Some (decoder_cell d) -> eval_ n (EMethod (EVar "d") m []) E s = go n ("Decoder." ++ m) [VRef ld] s.
Proof. intros H Hd. cbn [eval]. rewrite H. cbn [opt rbind]. rewrite Hd. reflexivity. Qed.

(** What a run of statements of Decode does. *)
Definition gets {A} (lt ld : nat) (name : string) (fields_of : A -> list (string * val)) (E : env) (s : state) (r : dres A) (m : res flow) : Prop :=
  match r with
  | DOk x d => exists s', m = Ok (On E) s' /\ nth_error (heap s') ld = Some (decoder_cell d) /\ nth_error (heap s') lt = Some (CStruct name (fields_of x)) /\ besides ld lt s s'
  | DErr e d => exists s' fs, m = Ok (Leave [VErr e]) s' /\ nth_error (heap s') ld = Some (decoder_cell d) /\ nth_error (heap s') lt = Some (CStruct name fs) /\ besides ld lt s s'
  | DPanic => m = Panic
  end.
Lemma test_nil n E s : lookup "err" E = Some VNil -> exec_ n (SIf [] err_set err_return []) E s = Ok (On E) s.
Proof. intros H. rewrite exec_if, run_nil. unfold err_set. cbn [eval]. rewrite H. cbn [opt rbind binary option_map is_nil negb]. rewrite run_nil, leave_twice, leave_same. reflexivity. Qed.
Lemma test_err n E s e : lookup "err" E = Some (VErr e) -> exec_ n (SIf [] err_set err_return []) E s = Ok (Leave [VErr e]) s.
Proof.
  intros H. rewrite exec_if, run_nil. unfold err_set. cbn [eval]. rewrite H. cbn [opt rbind binary option_map is_nil negb]. unfold err_return. rewrite run_cons. cbn [exec eval_values eval]. rewrite H. reflexivity.
Qed.
Lemma prim_decode p f v d old : exists N, forall n, (N <= n)%nat -> forall name pre rest lt ld s, lt <> ld -> ~ In f (map fst pre) ->
  nth_error (heap s) ld = Some (decoder_cell d) -> nth_error (heap s) lt = Some (CStruct name (pre ++ (f, prim_val p old) :: rest)%list) ->
  gets lt ld name (fun x => (pre ++ (f, prim_val p x) :: rest)%list) (decode_env lt ld v) s (pdecode P (prim_ty p) v old d) (run_ n (decode_field f (NPrim p)) (decode_env lt ld v) s).
Proof.
  destruct (prim_get p old v d) as [N HN]. exists N. intros n Hn name pre rest lt ld s Ne Nf Hd Ht. cbn [decode_field]. rewrite run_cons. unfold gets.
  assert (Q : exec_ n (SAssign [field f; EVar "err"] [EMethod (EVar "d") (prim_name p) []]) (decode_env lt ld v) s =
    let* (x, s) := eval_ n (EMethod (EVar "d") (prim_name p) []) (decode_env lt ld v) s in
    let* (E, s) := assign_all W R scribble prog (go n) [field f; EVar "err"] (spread x) (decode_env lt ld v) s in Ok (On E) s) by (cbn [exec eval_values]; destruct (eval_ n _ _ s); reflexivity).
  rewrite Q, (eval_get n _ (decode_env lt ld v) s ld d eq_refl Hd), (HN n Hn s ld Hd). clear Q. unfold outcome.
  destruct (pdecode P (prim_ty p) v old d) as [x d'|e d'|]; cbn [rbind spread assign_all]; [| |reflexivity].
  - set (s1 := set_cell ld (decoder_cell d') s). assert (Ht1 : nth_error (heap s1) lt = Some (CStruct name (pre ++ (f, prim_val p old) :: rest)%list)) by (unfold s1; rewrite at_other by congruence; exact Ht).
    assert (Hd1 : nth_error (heap s1) ld = Some (decoder_cell d')) by (unfold s1; eapply at_set, Hd).
    assert (B1 : besides ld lt s s1) by apply besides_set_a. clearbody s1.
    rewrite (assign_field n f (prim_val p x) (decode_env lt ld v) s1 lt name pre _ rest eq_refl Ht1 Nf (prim_not_const p x)). cbn [rbind].
    set (s2 := set_cell lt _ s1). exists s2.
    assert (A : assign W R scribble prog (go n) (EVar "err") VNil (decode_env lt ld v) s2 = Ok (decode_env lt ld v) s2) by reflexivity.
    rewrite A. cbn [rbind]. rewrite run_cons, test_nil by reflexivity. rewrite run_nil. split; [reflexivity|].
    split; [unfold s2; rewrite at_other by exact Ne; exact Hd1|]. split; [unfold s2; eapply at_set, Ht1|]. eapply besides_trans; [exact B1|apply besides_set_b].
  - set (s1 := set_cell ld (decoder_cell d') s). assert (Ht1 : nth_error (heap s1) lt = Some (CStruct name (pre ++ (f, prim_val p old) :: rest)%list)) by (unfold s1; rewrite at_other by congruence; exact Ht).
    assert (Hd1 : nth_error (heap s1) ld = Some (decoder_cell d')) by (unfold s1; eapply at_set, Hd).
    assert (B1 : besides ld lt s s1) by apply besides_set_a. clearbody s1.
    rewrite (assign_field n f (prim_zero p) (decode_env lt ld v) s1 lt name pre _ rest eq_refl Ht1 Nf (zero_not_const p)). cbn [rbind].
    set (s2 := set_cell lt _ s1). exists s2. eexists.
    assert (A : assign W R scribble prog (go n) (EVar "err") (VErr e) (decode_env lt ld v) s2 = Ok (("err", VErr e) :: tl (decode_env lt ld v)) s2) by reflexivity.
    rewrite A. cbn [rbind]. rewrite run_cons, (test_err n _ s2 e) by reflexivity. split; [reflexivity|].
    split; [unfold s2; rewrite at_other by exact Ne; exact Hd1|]. split; [unfold s2; eapply at_set, Ht1|]. eapply besides_trans; [exact B1|apply besides_set_b].
Qed.

Lemma zero_struct fs : forall s, zero_fields W (struct_type fs) [] s = Ok (nvals fs (zeros (erase fs))) s.
Proof.
  induction fs as [|f r t rest IH]; intros s; cbn [struct_type zero_fields nvals erase zeros lookup fst snd]; [reflexivity|].
  assert (Q : GoLang.zero (nty_gty t) s = Ok (nval t (SchemaSpec.zero (erase_t t))) s) by (destruct t as [p|tn fs]; [destruct p; reflexivity|reflexivity]).
  rewrite Q. cbn [rbind]. rewrite IH. reflexivity.
Qed.
Definition gives {A} (lt ld : nat) (name : string) (fields_of : A -> list (string * val)) (s : state) (r : dres A) (m : res val) : Prop :=
  match r with
  | DOk x d => exists s', m = Ok VNil s' /\ nth_error (heap s') ld = Some (decoder_cell d) /\ nth_error (heap s') lt = Some (CStruct name (fields_of x)) /\ besides ld lt s s'
  | DErr e d => exists s' fs, m = Ok (VErr e) s' /\ nth_error (heap s') ld = Some (decoder_cell d) /\ nth_error (heap s') lt = Some (CStruct name fs) /\ besides ld lt s s'
  | DPanic => m = Panic
  end.
Definition decode_call_ok (fs : nfields) (name : string) : Prop := forall v old d, exists N, forall n, (N <= n)%nat -> forall s lt ld, lt <> ld ->
  nth_error (heap s) ld = Some (decoder_cell d) -> nth_error (heap s) lt = Some (CStruct name (nvals fs old)) ->
  gives lt ld name (nvals fs) s (pdecodes P (erase fs) v old d) (go n (name ++ ".Decode") [VRef lt; VRef ld; VInt I16 v] s).

Definition decode_body (t f : string) :=
  [SVar "item" (Some (GNamed t)) None;
   SIf [SDefine ["err"] [EMethod (EAddr (EVar "item")) "Decode" [EVar "d"; EVar "version"]]] err_set err_return [];
   SAssign [item_of f] [EVar "item"]].
Definition loop_env (k : Z) (lt ld : nat) (v : Z) : env := ("err", VNil) :: ("n", VInt INT k) :: decode_env lt ld v.
Lemma besides_new ld lt li s s1 s2 : (length (heap s) <= li)%nat -> besides ld lt s s1 -> besides ld li s1 s2 -> besides ld lt s s2.
Proof.
  intros H (W1 & L1 & K1) (W2 & L2 & K2). split; [congruence|]. split; [lia|]. intros k Hd Ht Hk. rewrite K2 by (first [assumption|lia]). apply K1; assumption.
Qed.
(** One round. *)
Lemma decode_round t fs f v d : decode_call_ok fs t -> entry t fs -> exists N, forall n, (N <= n)%nat ->
  forall name pre rest lt ld s k done j, lt <> ld -> ~ In f (map fst pre) -> nth_error (heap s) ld = Some (decoder_cell d) ->
  nth_error (heap s) lt = Some (CStruct name (pre ++ (f, VStructs t (map (nvals fs) done ++ repeat (nvals fs (zeros (erase fs))) (S j))) :: rest)%list) ->
  let E := ("i", VInt INT (zlen done)) :: loop_env k lt ld v in
  gets lt ld name (fun x => (pre ++ (f, VStructs t (map (nvals fs) (done ++ [x]) ++ repeat (nvals fs (zeros (erase fs))) j)) :: rest)%list) E s (pdecodes P (erase fs) v (zeros (erase fs)) d) (leave_block E (run_ n (decode_body t f) E s)).
Proof.
  intros Call (_ & _ & _ & _ & Ty & _). destruct (Call v (zeros (erase fs)) d) as [N HN]. exists N. intros n Hn name pre rest lt ld s k done j Ne Nf Hd Ht E. unfold decode_body. rewrite run_cons.
  set (li := length (heap s)). set (s1 := mkState (heap s ++ [CStruct t (nvals fs (zeros (erase fs)))])%list (world s)).
  assert (V : exec_ n (SVar "item" (Some (GNamed t)) None) E s = Ok (On (("item", VCell li) :: E)) s1).
  { cbn [exec]. unfold new_variable. rewrite Ty. cbn [is_some]. unfold new_struct. rewrite Ty. cbn [opt rbind]. rewrite zero_struct. reflexivity. }
  rewrite V. assert (Ltd : (ld < length (heap s))%nat) by (apply nth_error_Some; congruence). assert (Ltt : (lt < length (heap s))%nat) by (apply nth_error_Some; congruence).
  assert (Hd1 : nth_error (heap s1) ld = Some (decoder_cell d)) by (unfold s1; cbn [heap]; rewrite nth_error_app1 by exact Ltd; exact Hd).
  assert (Ht1 : nth_error (heap s1) lt = Some (CStruct name (pre ++ (f, VStructs t (map (nvals fs) done ++ repeat (nvals fs (zeros (erase fs))) (S j))) :: rest)%list)) by (unfold s1; cbn [heap]; rewrite nth_error_app1 by exact Ltt; exact Ht).
  assert (Hi1 : nth_error (heap s1) li = Some (CStruct t (nvals fs (zeros (erase fs))))) by (unfold s1, li; cbn [heap]; rewrite nth_error_app2, Nat.sub_diag by lia; reflexivity).
  assert (L1 : length (heap s1) = S (length (heap s))) by (unfold s1; cbn [heap]; rewrite app_length; cbn [length]; lia).
  assert (B1 : besides ld lt s s1) by (split; [reflexivity|]; split; [lia|]; intros q Q1 Q2 Q3; unfold s1; cbn [heap]; apply nth_error_app1, Q3).
  assert (Nid : li <> ld) by (unfold li; lia). assert (Nit : li <> lt) by (unfold li; lia). assert (Li : (length (heap s) <= li)%nat) by (unfold li; lia).
  clearbody s1 li. specialize (HN n Hn s1 li ld Nid Hd1 Hi1). set (E1 := ("item", VCell li) :: E).
  assert (C : eval_ n (EMethod (EAddr (EVar "item")) "Decode" [EVar "d"; EVar "version"]) E1 s1 = go n (t ++ ".Decode") [VRef li; VRef ld; VInt I16 v] s1).
  { unfold E1, E, loop_env, decode_env. cbn [eval lookup String.eqb Ascii.eqb Bool.eqb opt rbind]. rewrite Hi1. reflexivity. }
  rewrite run_cons, exec_if, run_cons.
  assert (D : exec_ n (SDefine ["err"] [EMethod (EAddr (EVar "item")) "Decode" [EVar "d"; EVar "version"]]) E1 s1 =
    match go n (t ++ ".Decode") [VRef li; VRef ld; VInt I16 v] s1 with Ok x s => let* (E, s) := opt (declare_all W ["err"] (spread x) E1) s in Ok (On E) s | Panic => Panic | Stuck => Stuck end).
  { cbn [exec eval_values]. rewrite C. destruct (go n (t ++ ".Decode") [VRef li; VRef ld; VInt I16 v] s1); reflexivity. }
  rewrite D. clear D C V. unfold gives, gets in *. destruct (pdecodes P (erase fs) v (zeros (erase fs)) d) as [x d'|e d'|].
  - destruct HN as (s2 & Q2 & Hd2 & Hi2 & B2). rewrite Q2. cbn [spread declare_all opt rbind]. unfold declare. cbn [String.eqb Ascii.eqb Bool.eqb settle_int settle]. rewrite run_nil.
    assert (T : eval_ n err_set (("err", VNil) :: E1) s2 = Ok (VBool false) s2) by reflexivity. rewrite T, run_nil, leave_same, (leave_front E1 [("err", VNil)]), run_cons.
    pose proof B2 as (W2 & L2 & K2). assert (Ht2 : nth_error (heap s2) lt = Some (CStruct name (pre ++ (f, VStructs t (map (nvals fs) done ++ repeat (nvals fs (zeros (erase fs))) (S j))) :: rest)%list)) by (rewrite K2 by (first [congruence|lia]); exact Ht1).
    set (s3 := set_cell lt (CStruct name (pre ++ (f, VStructs t (map (nvals fs) (done ++ [x]) ++ repeat (nvals fs (zeros (erase fs))) j)) :: rest)%list) s2).
    assert (A : exec_ n (SAssign [item_of f] [EVar "item"]) E1 s2 = Ok (On E1) s3).
    { cbn [exec eval_values]. unfold E1 at 1. cbn [eval lookup String.eqb Ascii.eqb Bool.eqb opt rbind]. rewrite Hi2. cbn [rbind spread assign_all]. unfold item_of, assign, field.
      change (eval_ n (EVar "t") E1 s2) with (Ok (VRef lt) s2). cbn [rbind].
      assert (F : eval_ n (EField (EVar "t") f) E1 s2 = Ok (VStructs t (map (nvals fs) done ++ repeat (nvals fs (zeros (erase fs))) (S j))%list) s2).
      { assert (U : eval_ n (EField (EVar "t") f) E1 s2 = match nth_error (heap s2) lt with Some (CStruct _ fs) => opt (lookup f fs) s2 | _ => Stuck end) by reflexivity. rewrite U, Ht2, lookup_at by exact Nf. reflexivity. }
      rewrite F. cbn [rbind]. change (eval_ n (EVar "i") E1 s2) with (Ok (VInt INT (zlen done)) s2). cbn [rbind number opt]. unfold set_field. rewrite Ht2, lookup_at by exact Nf. cbn [opt rbind store_at].
      rewrite String.eqb_refl. replace (zlen done) with (zlen (map (nvals fs) done)) by (unfold zlen; rewrite map_length; reflexivity). rewrite stored, set_nth_zlen. cbn [rbind]. rewrite update_at by exact Nf. cbn [opt rbind].
      unfold s3. rewrite map_app. reflexivity. }
    rewrite A, run_nil. exists s3. split; [apply (leave_front E [("item", VCell li)])|]. split; [unfold s3; rewrite at_other by exact Ne; exact Hd2|]. split; [unfold s3; eapply at_set, Ht2|].
    eapply besides_trans; [exact (besides_new _ _ _ _ _ _ Li B1 B2)|apply besides_set_b].
  - destruct HN as (s2 & fs' & Q2 & Hd2 & Hi2 & B2). pose proof B2 as (W2 & L2 & K2). rewrite Q2. cbn [spread declare_all opt rbind]. unfold declare. cbn [String.eqb Ascii.eqb Bool.eqb settle_int settle]. rewrite run_nil.
    assert (T : eval_ n err_set (("err", VErr e) :: E1) s2 = Ok (VBool true) s2) by reflexivity. rewrite T. unfold err_return. rewrite run_cons. cbn [exec eval_values eval lookup String.eqb Ascii.eqb Bool.eqb opt rbind spread leave_block].
    eexists s2, _. split; [reflexivity|]. split; [exact Hd2|]. split; [rewrite K2 by (first [congruence|lia]); exact Ht1|]. exact (besides_new _ _ _ _ _ _ Li B1 B2).
  - rewrite HN. reflexivity.
Qed.
Definition count_test (b : string) := EBin Lt (EVar "i") (EVar b).
Definition count_next := [SOp (EVar "i") Add (EInt 1)].
Lemma decode_rounds t fs f v : decode_call_ok fs t -> entry t fs -> forall j d, exists N, forall n, (N <= n)%nat ->
  forall name pre rest lt ld s k done more, lt <> ld -> ~ In f (map fst pre) -> k < 2 ^ (W - 1) -> zlen done + Z.of_nat j = k -> (j < more)%nat -> nth_error (heap s) ld = Some (decoder_cell d) ->
  nth_error (heap s) lt = Some (CStruct name (pre ++ (f, VStructs t (map (nvals fs) done ++ repeat (nvals fs (zeros (erase fs))) j)) :: rest)%list) ->
  let m := rounds more (eval_ n (count_test "n")) (fun E s => leave_block E (run_ n (decode_body t f) E s)) (run_ n count_next) (("i", VInt INT (zlen done)) :: loop_env k lt ld v) s in
  gets lt ld name (fun xs => (pre ++ (f, VStructs t (map (nvals fs) (done ++ xs))) :: rest)%list) (("i", VInt INT k) :: loop_env k lt ld v) s (repeat_dec j (pdecodes P (erase fs) v (zeros (erase fs))) d) m.
Proof.
  intros Call En. pose proof half_ as Hp. induction j as [|j IH]; intros d.
  - exists 0%nat. intros n _ name pre rest lt ld s k done more Ne Nf Hk Hj Hm Hd Ht m. subst m. destruct more as [|more]; [lia|]. cbn [rounds repeat_dec]. unfold ret, gets.
    assert (T : eval_ n (count_test "n") (("i", VInt INT (zlen done)) :: loop_env k lt ld v) s = Ok (VBool false) s).
    { unfold count_test, loop_env. cbn [eval lookup String.eqb Ascii.eqb Bool.eqb opt rbind binary ity_eqb on_ints compare]. replace (zlen done <? k) with false by (symmetry; apply Z.ltb_ge; lia). reflexivity. }
    rewrite T. cbn [rbind]. exists s. split; [replace (zlen done) with k by lia; reflexivity|]. split; [exact Hd|]. split; [|apply besides_refl]. rewrite Ht. cbn [repeat]. rewrite !app_nil_r. reflexivity.
  - destruct (decode_round t fs f v d Call En) as [N1 H1].
    assert (Next : exists N2, forall x d', pdecodes P (erase fs) v (zeros (erase fs)) d = DOk x d' -> forall n, (N2 <= n)%nat ->
      forall name pre rest lt ld s k done more, lt <> ld -> ~ In f (map fst pre) -> k < 2 ^ (W - 1) -> zlen done + Z.of_nat j = k -> (j < more)%nat -> nth_error (heap s) ld = Some (decoder_cell d') ->
      nth_error (heap s) lt = Some (CStruct name (pre ++ (f, VStructs t (map (nvals fs) done ++ repeat (nvals fs (zeros (erase fs))) j)) :: rest)%list) ->
      gets lt ld name (fun xs => (pre ++ (f, VStructs t (map (nvals fs) (done ++ xs))) :: rest)%list) (("i", VInt INT k) :: loop_env k lt ld v) s (repeat_dec j (pdecodes P (erase fs) v (zeros (erase fs))) d')
       (rounds more (eval_ n (count_test "n")) (fun E s => leave_block E (run_ n (decode_body t f) E s)) (run_ n count_next) (("i", VInt INT (zlen done)) :: loop_env k lt ld v) s)).
    { destruct (pdecodes P (erase fs) v (zeros (erase fs)) d) as [x d'|e d'|]; [|exists 0%nat; intros ? ? Q; discriminate Q|exists 0%nat; intros ? ? Q; discriminate Q].
      destruct (IH d') as [N2 H2]. exists N2. intros ? ? Q. injection Q as <- <-. exact H2. }
    destruct Next as [N2 H2]. exists (Nat.max N1 N2). intros n Hn name pre rest lt ld s k done more Ne Nf Hk Hj Hm Hd Ht m. subst m. destruct more as [|more]; [lia|]. cbn [rounds repeat_dec].
    assert (T : eval_ n (count_test "n") (("i", VInt INT (zlen done)) :: loop_env k lt ld v) s = Ok (VBool true) s).
    { unfold count_test, loop_env. cbn [eval lookup String.eqb Ascii.eqb Bool.eqb opt rbind binary ity_eqb on_ints compare]. replace (zlen done <? k) with true by (symmetry; apply Z.ltb_lt; lia). reflexivity. }
    rewrite T. cbn [rbind]. specialize (H1 n ltac:(lia) name pre rest lt ld s k done j Ne Nf Hd Ht). cbv zeta in H1. unfold bind at 1.
    destruct (pdecodes P (erase fs) v (zeros (erase fs)) d) as [x d'|e d'|] eqn:Ed; unfold gets in H1.
    + destruct H1 as (s1 & Q1 & Hd1 & Ht1 & B1). rewrite Q1. cbn [rbind].
      assert (Za : zlen done + 1 = zlen (done ++ [x])%list) by (unfold zlen; rewrite app_length; cbn [length]; lia).
      assert (D : run_ n count_next (("i", VInt INT (zlen done)) :: loop_env k lt ld v) s1 = Ok (On (("i", VInt INT (zlen (done ++ [x])%list)) :: loop_env k lt ld v)) s1).
      { unfold count_next. rewrite run_cons. cbn [exec eval lookup String.eqb Ascii.eqb Bool.eqb opt rbind binary]. unfold conv at 1. rewrite (w1 P GP). cbn [on_ints compare arith option_map opt rbind]. unfold conv.
        rewrite int_fits by (unfold zlen in *; lia). rewrite Za. reflexivity. }
      rewrite D. cbn [rbind]. specialize (H2 x d' eq_refl n ltac:(lia) name pre rest lt ld s1 k (done ++ [x])%list more Ne Nf Hk ltac:(lia) ltac:(lia) Hd1 Ht1).
      unfold bind, gets in *. destruct (repeat_dec j (pdecodes P (erase fs) v (zeros (erase fs))) d') as [xs d''|e d''|]; [|destruct H2 as (s2 & fs2 & Q2 & Hd2 & Ht2 & B2)|exact H2].
      * destruct H2 as (s2 & Q2 & Hd2 & Ht2 & B2). unfold ret. exists s2. split; [exact Q2|]. split; [exact Hd2|]. split; [rewrite <- app_assoc in Ht2; exact Ht2|exact (besides_trans _ _ _ _ _ B1 B2)].
      * exists s2, fs2. split; [exact Q2|]. split; [exact Hd2|]. split; [exact Ht2|exact (besides_trans _ _ _ _ _ B1 B2)].
    + destruct H1 as (s1 & fs1 & Q1 & H1). rewrite Q1. exists s1, fs1. split; [reflexivity|exact H1].
    + rewrite H1. reflexivity.
Qed.
Lemma length_small d k d' : pArrayLength P d = DOk k d' -> k < 2 ^ (W - 1).
Proof.
  intros E. pose proof (length_wrapped P GP d k d' E) as Q. rewrite <- Q. apply wrap_range, (half_pos P GP).
Qed.
Lemma array_decode t fs f v d (old : gslice (dens (erase fs))) : decode_call_ok fs t -> entry t fs -> exists N, forall n, (N <= n)%nat ->
  forall name pre rest lt ld s, lt <> ld -> ~ In f (map fst pre) -> nth_error (heap s) ld = Some (decoder_cell d) ->
  nth_error (heap s) lt = Some (CStruct name (pre ++ (f, nval (NArray t fs) old) :: rest)%list) ->
  gets lt ld name (fun x => (pre ++ (f, nval (NArray t fs) x) :: rest)%list) (decode_env lt ld v) s (pdecode P (TArray (erase fs)) v old d) (run_ n (decode_field f (NArray t fs)) (decode_env lt ld v) s).
Proof.
  intros Call En. destruct (length_get d) as [N1 H1]. pose proof half_ as Hp.
  assert (Loop : exists N2, forall k d', pArrayLength P d = DOk k d' -> forall n, (N2 <= n)%nat -> (Z.to_nat k < n)%nat /\
    forall name pre rest lt ld s done more, lt <> ld -> ~ In f (map fst pre) -> k < 2 ^ (W - 1) -> zlen done + Z.of_nat (Z.to_nat k) = k -> (Z.to_nat k < more)%nat -> nth_error (heap s) ld = Some (decoder_cell d') ->
    nth_error (heap s) lt = Some (CStruct name (pre ++ (f, VStructs t (map (nvals fs) done ++ repeat (nvals fs (zeros (erase fs))) (Z.to_nat k))) :: rest)%list) ->
    let m := rounds more (eval_ n (count_test "n")) (fun E s => leave_block E (run_ n (decode_body t f) E s)) (run_ n count_next) (("i", VInt INT (zlen done)) :: loop_env k lt ld v) s in
    gets lt ld name (fun xs => (pre ++ (f, VStructs t (map (nvals fs) (done ++ xs))) :: rest)%list) (("i", VInt INT k) :: loop_env k lt ld v) s (repeat_dec (Z.to_nat k) (pdecodes P (erase fs) v (zeros (erase fs))) d') m).
  { destruct (pArrayLength P d) as [k d'|e d'|]; [|exists 0%nat; intros ? ? Q; discriminate Q|exists 0%nat; intros ? ? Q; discriminate Q].
    destruct (decode_rounds t fs f v Call En (Z.to_nat k) d') as [N2 H2]. exists (Nat.max N2 (S (Z.to_nat k))). intros ? ? Q. injection Q as <- <-. intros n Hn. split; [lia|]. intros. apply H2; try assumption. lia. }
  destruct Loop as [N2 H2]. exists (Nat.max N1 N2). intros n Hn name pre rest lt ld s Ne Nf Hd Ht. cbn [decode_field]. rewrite run_cons, exec_if, run_cons.
  assert (D : exec_ n (SDefine ["n"; "err"] [EMethod (EVar "d") "ArrayLength" []]) (decode_env lt ld v) s =
    match go n "Decoder.ArrayLength" [VRef ld] s with Ok x s => let* (E, s) := opt (declare_all W ["n"; "err"] (spread x) (decode_env lt ld v)) s in Ok (On E) s | Panic => Panic | Stuck => Stuck end).
  { cbn [exec eval_values]. rewrite (eval_get n "ArrayLength" (decode_env lt ld v) s ld d eq_refl Hd). cbn [String.append]. destruct (go n "Decoder.ArrayLength" [VRef ld] s); reflexivity. }
  rewrite D, (H1 n ltac:(lia) s ld Hd). clear D. unfold outcome. change (pdecode P (TArray (erase fs)) v old d) with (p_array P (TArray (erase fs)) (pdecodes P (erase fs) v (zeros (erase fs))) old d). unfold p_array. unfold bind at 1. unfold gets.
  destruct (pArrayLength P d) as [k d'|e d'|] eqn:Ed; cbn [spread declare_all opt rbind]; [| |reflexivity].
  - destruct (H2 k d' eq_refl n ltac:(lia)) as [Kn Loop]. clear H2. pose proof (length_small d k d' Ed) as Ks. unfold declare. cbn [String.eqb Ascii.eqb Bool.eqb settle_int settle]. rewrite run_nil. fold (loop_env k lt ld v).
    set (s1 := set_cell ld (decoder_cell d') s). assert (Ht1 : nth_error (heap s1) lt = Some (CStruct name (pre ++ (f, nval (NArray t fs) old) :: rest)%list)) by (unfold s1; rewrite at_other by congruence; exact Ht).
    assert (Hd1 : nth_error (heap s1) ld = Some (decoder_cell d')) by (unfold s1; eapply at_set, Hd).
    assert (B1 : besides ld lt s s1) by apply besides_set_a. clearbody s1.
    assert (T : eval_ n err_set (loop_env k lt ld v) s1 = Ok (VBool false) s1) by reflexivity. rewrite T, run_cons, exec_if, run_nil.
    assert (T2 : eval_ n (EBin Ge (EVar "n") (EInt 0)) (loop_env k lt ld v) s1 = Ok (VBool (0 <=? k)) s1).
    { unfold loop_env. cbn [eval lookup String.eqb Ascii.eqb Bool.eqb opt rbind binary]. unfold conv. rewrite (w0 P GP). reflexivity. }
    rewrite T2. destruct (0 <=? k) eqn:K0.
    + apply Z.leb_le in K0. rewrite run_cons.
      assert (A : exec_ n (SAssign [field f] [EMake (GSlice (GNamed t)) (EVar "n")]) (loop_env k lt ld v) s1 =
        if (k <? 0) || negb (p_make P (TArray (erase fs)) k) then Panic else Ok (On (loop_env k lt ld v)) (set_cell lt (CStruct name (pre ++ (f, VStructs t (repeat (nvals fs (zeros (erase fs))) (Z.to_nat k))) :: rest)%list) s1)).
      { destruct En as (_ & _ & _ & _ & Ty & St).
        assert (Mk : eval_ n (EMake (GSlice (GNamed t)) (EVar "n")) (loop_env k lt ld v) s1 = if (k <? 0) || negb (p_make P (TArray (erase fs)) k) then Panic else Ok (VStructs t (repeat (nvals fs (zeros (erase fs))) (Z.to_nat k))) s1).
        { unfold loop_env. cbn [eval lookup String.eqb Ascii.eqb Bool.eqb opt rbind number]. unfold make_slice. cbn [room_of]. rewrite St. destruct ((k <? 0) || _); [reflexivity|].
          unfold new_struct. rewrite Ty. cbn [opt rbind]. rewrite zero_struct. reflexivity. }
        cbn [exec eval_values]. rewrite Mk. destruct ((k <? 0) || _); [reflexivity|]. cbn [rbind spread assign_all].
        rewrite (assign_field n f (VStructs t (repeat (nvals fs (zeros (erase fs))) (Z.to_nat k))) (loop_env k lt ld v) s1 lt name pre _ rest eq_refl Ht1 Nf I). reflexivity. }
      rewrite A. unfold p_new, bind at 1. destruct ((k <? 0) || negb (p_make P (TArray (erase fs)) k)); [reflexivity|].
      set (s2 := set_cell lt _ s1). assert (Hd2 : nth_error (heap s2) ld = Some (decoder_cell d')) by (unfold s2; rewrite at_other by exact Ne; exact Hd1).
      assert (Ht2 : nth_error (heap s2) lt = Some (CStruct name (pre ++ (f, VStructs t (repeat (nvals fs (zeros (erase fs))) (Z.to_nat k))) :: rest)%list)) by (unfold s2; eapply at_set, Ht1).
      assert (B2 : besides ld lt s s2) by (eapply besides_trans; [exact B1|apply besides_set_b]). clearbody s2. rewrite run_cons. unfold count_up. rewrite exec_for_, run_cons.
      assert (D0 : exec_ n (SDefine ["i"] [EInt 0]) (loop_env k lt ld v) s2 = Ok (On (("i", VInt INT 0) :: loop_env k lt ld v)) s2) by (cbn [exec eval_values eval rbind spread declare_all declare String.eqb Ascii.eqb Bool.eqb opt settle_int settle conv]; rewrite (w0 P GP); reflexivity).
      rewrite D0, run_nil. fold (decode_body t f). fold (count_test "n"). fold count_next.
      specialize (Loop name pre rest lt ld s2 [] n Ne Nf Ks ltac:(rewrite Z2Nat.id by lia; reflexivity) Kn Hd2 Ht2). cbv zeta in Loop. change (zlen []) with 0 in Loop. cbn [app map] in Loop.
      unfold bind, gets in *. destruct (repeat_dec (Z.to_nat k) (pdecodes P (erase fs) v (zeros (erase fs))) d') as [xs d''|e d''|].
      * destruct Loop as (s3 & Q3 & Hd3 & Ht3 & B3). rewrite Q3. unfold ret. rewrite (leave_front (loop_env k lt ld v) [("i", VInt INT k)]), run_nil, !leave_twice, leave_same, run_nil, leave_same.
        rewrite (leave_front (decode_env lt ld v) [("err", VNil); ("n", VInt INT k)]), run_nil.
        exists s3. split; [reflexivity|]. split; [exact Hd3|]. split; [exact Ht3|exact (besides_trans _ _ _ _ _ B2 B3)].
      * destruct Loop as (s3 & fs3 & Q3 & Hd3 & Ht3 & B3). rewrite Q3. exists s3, fs3. split; [reflexivity|]. split; [exact Hd3|]. split; [exact Ht3|exact (besides_trans _ _ _ _ _ B2 B3)].
      * rewrite Loop. reflexivity.
    + rewrite run_nil, leave_twice, leave_same, run_nil, leave_same, (leave_front (decode_env lt ld v) [("err", VNil); ("n", VInt INT k)]), run_nil. unfold ret. exists s1. split; [reflexivity|]. split; [exact Hd1|]. split; [exact Ht1|exact B1].
  - unfold declare. cbn [String.eqb Ascii.eqb Bool.eqb settle_int settle]. rewrite run_nil.
    set (s1 := set_cell ld (decoder_cell d') s). assert (Ht1 : nth_error (heap s1) lt = Some (CStruct name (pre ++ (f, nval (NArray t fs) old) :: rest)%list)) by (unfold s1; rewrite at_other by congruence; exact Ht).
    assert (Hd1 : nth_error (heap s1) ld = Some (decoder_cell d')) by (unfold s1; eapply at_set, Hd).
    assert (B1 : besides ld lt s s1) by apply besides_set_a. clearbody s1.
    assert (T : eval_ n err_set (("err", VErr e) :: ("n", VInt INT 0) :: decode_env lt ld v) s1 = Ok (VBool true) s1) by reflexivity. rewrite T. unfold err_return. rewrite run_cons.
    cbn [exec eval_values eval lookup String.eqb Ascii.eqb Bool.eqb opt rbind spread leave_block]. eexists s1, _. split; [reflexivity|]. split; [exact Hd1|]. split; [exact Ht1|exact B1].
Qed.

Definition decode_fields_ok (fs : nfields) : Prop := knows fs -> forall v old d, exists N, forall n, (N <= n)%nat -> forall name pre lt ld s, lt <> ld ->
  (forall f, In f (names fs) -> ~ In f (map fst pre)) -> nth_error (heap s) ld = Some (decoder_cell d) -> nth_error (heap s) lt = Some (CStruct name (pre ++ nvals fs old)%list) ->
  gets lt ld name (fun x => (pre ++ nvals fs x)%list) (decode_env lt ld v) s (pdecodes P (erase fs) v old d) (run_ n (decode_fields fs) (decode_env lt ld v) s).
Lemma decode_call fs : decode_fields_ok fs -> knows fs -> forall name, entry name fs -> decode_call_ok fs name.
Proof.
  intros F K name (_ & _ & E1 & EL & _) v old d. destruct (F K v old d) as [N HN]. exists (S N). intros n Hn s lt ld Ne Hd Ht. destruct n as [|n]; [lia|].
  rewrite (invoked n name ".Decode" _ _ s (or_intror (or_intror (or_introl eq_refl))) EL E1). unfold invoke. cbn [decode_text f_params f_body f_results bind_params settle option_map opt rbind].
  rewrite run_cons. cbn [exec]. unfold new_variable. rewrite Builtin. cbn [is_some zero opt rbind String.eqb Ascii.eqb Bool.eqb orb]. unfold declare. cbn [String.eqb Ascii.eqb Bool.eqb settle_int settle].
  specialize (HN n ltac:(lia) name [] lt ld s Ne (fun _ _ X => X) Hd Ht). fold (decode_env lt ld v). rewrite run_app. unfold gets, gives in *. destruct (pdecodes P (erase fs) v old d) as [x d'|e d'|].
  - destruct HN as (s' & Q & H'). rewrite Q. exists s'. split; [|exact H']. rewrite run_cons. reflexivity.
  - destruct HN as (s' & fs' & Q & H'). rewrite Q. exists s', fs'. split; [reflexivity|exact H'].
  - rewrite HN. reflexivity.
Qed.
Lemma decode_all : (forall t, match t with NPrim _ => True | NArray _ fs => decode_fields_ok fs end) /\ (forall fs, decode_fields_ok fs).
Proof.
  apply layout_mind; [intros p; exact I|intros name fs H; exact H| |].
  - intros _ v old d. exists 0%nat. intros n _ name pre lt ld s Ne _ Hd Ht. cbn [erase pdecodes gets ret]. destruct old. exists s. split; [reflexivity|]. split; [exact Hd|]. split; [exact Ht|apply besides_refl].
  - intros f r t IHt rest IHr (Hr & Hf & Kt & Kr) v [y ys] d.
    assert (Field : exists N, forall n, (N <= n)%nat -> forall name pre more lt ld s, lt <> ld -> ~ In f (map fst pre) ->
      nth_error (heap s) ld = Some (decoder_cell d) -> nth_error (heap s) lt = Some (CStruct name (pre ++ (f, nval t y) :: more)%list) ->
      gets lt ld name (fun x => (pre ++ (f, nval t x) :: more)%list) (decode_env lt ld v) s (pdecode P (erase_t t) v y d) (run_ n (decode_field f t) (decode_env lt ld v) s)).
    { destruct t as [p|tn fs]; [exact (prim_decode p f v d y)|]. destruct Kt as [Et Kt]. exact (array_decode tn fs f v d y (decode_call fs IHt Kt tn Et) Et). }
    destruct Field as [N1 H1].
    assert (Next : exists N2, forall x d', dec_if (active r v) (pdecode P (erase_t t) v y) y d = DOk x d' -> forall n, (N2 <= n)%nat -> forall name pre lt ld s, lt <> ld ->
      (forall g, In g (names rest) -> ~ In g (map fst pre)) -> nth_error (heap s) ld = Some (decoder_cell d') -> nth_error (heap s) lt = Some (CStruct name (pre ++ nvals rest ys)%list) ->
      gets lt ld name (fun x => (pre ++ nvals rest x)%list) (decode_env lt ld v) s (pdecodes P (erase rest) v ys d') (run_ n (decode_fields rest) (decode_env lt ld v) s)).
    { destruct (dec_if (active r v) (pdecode P (erase_t t) v y) y d) as [x d'|e d'|]; [|exists 0%nat; intros ? ? Q; discriminate Q|exists 0%nat; intros ? ? Q; discriminate Q].
      destruct (IHr Kr v ys d') as [N2 H2]. exists N2. intros ? ? Q. injection Q as <- <-. exact H2. }
    destruct Next as [N2 H2]. exists (Nat.max N1 N2). intros n Hn name pre lt ld s Ne Hp Hd Ht. cbn [decode_fields]. rewrite run_app, (guarded_run n r _ v) by (first [reflexivity|exact Hr]).
    assert (Nf : ~ In f (map fst pre)) by (apply Hp; left; reflexivity).
    assert (First : gets lt ld name (fun x => (pre ++ (f, nval t x) :: nvals rest ys)%list) (decode_env lt ld v) s (dec_if (active r v) (pdecode P (erase_t t) v y) y d)
      (if active r v then match r with Always => run_ n (decode_field f t) (decode_env lt ld v) s | _ => leave_block (decode_env lt ld v) (run_ n (decode_field f t) (decode_env lt ld v) s) end else Ok (On (decode_env lt ld v)) s)).
    { unfold dec_if. destruct (active r v).
      - specialize (H1 n ltac:(lia) name pre (nvals rest ys) lt ld s Ne Nf Hd Ht). unfold gets in *. destruct (pdecode P (erase_t t) v y d) as [x d'|e d'|].
        + destruct H1 as (s' & Q & H'). rewrite Q, leave_same. exists s'. split; [destruct r; reflexivity|exact H'].
        + destruct H1 as (s' & fs' & Q & H'). rewrite Q. exists s', fs'. split; [destruct r; reflexivity|exact H'].
        + rewrite H1. destruct r; reflexivity.
      - unfold ret, gets. exists s. split; [reflexivity|]. split; [exact Hd|]. split; [exact Ht|apply besides_refl]. }
    change (pdecodes P (erase (NCons f r t rest)) v (y, ys) d) with ((x <- dec_if (active r v) (pdecode P (erase_t t) v y) y ;; xs <- pdecodes P (erase rest) v ys ;; ret (x, xs)) d).
    unfold bind at 1. unfold gets in First |- *. destruct (dec_if (active r v) (pdecode P (erase_t t) v y) y d) as [x d'|e d'|].
    + destruct First as (s1 & Q1 & Hd1 & Ht1 & B1). rewrite Q1.
      specialize (H2 x d' eq_refl n ltac:(lia) name (pre ++ [(f, nval t x)])%list lt ld s1 Ne).
      rewrite <- app_assoc in H2. cbn [app] in H2. specialize (fun Z => H2 Z Hd1 Ht1). unfold bind, gets in *.
      assert (Hp' : forall g, In g (names rest) -> ~ In g (map fst (pre ++ [(f, nval t x)])%list)).
      { intros g Hg. rewrite map_app, in_app_iff. cbn [map fst In]. intros [A|[A|[]]]; [exact (Hp g (or_intror Hg) A)|subst g; exact (Hf Hg)]. }
      specialize (H2 Hp'). destruct (pdecodes P (erase rest) v ys d') as [xs d''|e d''|]; [| |exact H2].
      * destruct H2 as (s2 & Q2 & Hd2 & Ht2 & B2). unfold ret. exists s2. split; [exact Q2|]. split; [exact Hd2|]. split; [rewrite <- app_assoc in Ht2; exact Ht2|exact (besides_trans _ _ _ _ _ B1 B2)].
      * destruct H2 as (s2 & fs2 & Q2 & Hd2 & Ht2 & B2). exists s2, fs2. split; [exact Q2|]. split; [exact Hd2|]. split; [exact Ht2|exact (besides_trans _ _ _ _ _ B1 B2)].
    + destruct First as (s1 & fs1 & Q1 & H'). rewrite Q1. exists s1, fs1. split; [reflexivity|exact H'].
    + rewrite First. reflexivity.
Qed.
End Messages.
