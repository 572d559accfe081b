(** * The source does what the model says: the loops of the Decoder *)
From Coq Require Import String.
From Verif Require Import GoBase GoLemmas Binary Utf8 Decoder Encoder SchemaSpec Platform PlatformSpec PlatformProofs Scratch GoLang Source DecProofs SourceSpec SourceBase SourceDecoder.
From Coq Require Import Lia ZArith.
Local Open Scope string_scope.
Local Open Scope list_scope.
Local Open Scope Z_scope.

Section Source.
Context (P : platform) (GP : go_platform P) (structs : string -> ty) (scribble : list (list Z) -> list Z -> list Z) (prog : package) (X : extends prog source).
Notation W := (p_int P).
Notation L := (p_late P).
Notation R := (room_of P structs).
Notation go := (call W L R scribble prog).


(** ** The loops of Int32Array, Int64Array and StringArray *)
Lemma set_nth_app {A} (done : list A) z y rest : set_nth (length done) y (done ++ z :: rest) = (done ++ [y]) ++ rest.
Proof. induction done as [|x done IH]; cbn; [reflexivity|]. f_equal. exact IH. Qed.
Lemma zlen_app_cons {A} (done : list A) j (z : A) : zlen (done ++ repeat z j) = zlen done + Z.of_nat j.
Proof. unfold zlen. rewrite app_length, repeat_length. lia. Qed.
Lemma next_int i k : 0 <= i < k -> wrap W k = k -> wrap W (i + 1) = i + 1.
Proof.
  intros H E. apply pint_id; [exact GP|]. assert (N : - 2 ^ (W - 1) <= k < 2 ^ (W - 1)) by (rewrite <- E; apply wrap_range, (half_pos P GP)).
  pose proof (half_pos P GP). lia.
Qed.
Lemma wrap_twice z : wrap W (wrap W z) = wrap W z.
Proof. apply pint_id; [exact GP|]. apply wrap_range, (half_pos P GP). Qed.

Definition array_env (i : Z) (xs : val) (k : Z) (l : nat) : env := [("i", VInt INT i); ("items", xs); ("err", VNil); ("n", VInt INT k); ("d", VRef l)].
Definition loop_outcome {A} (result : list A -> env) (l : nat) (s : state) (r : dres (list A)) : res flow :=
  match r with
  | DOk xs d => Ok (On (result xs)) (set_cell l (decoder_cell d) s)
  | DErr e d => Ok (Leave [VNil; VErr e]) (set_cell l (decoder_cell d) s)
  | DPanic => Panic
  end.
Definition array_test := EBin Lt (EVar "i") (EVar "n").
Definition array_post := [SOp (EVar "i") Add (EInt 1)].
Definition array_body (m : string) :=
  [SDefine ["item"; "err"] [(EMethod (EVar "d") m [])];
   SIf [] (EBin Ne (EVar "err") ENil) [SReturn [ENil; (EVar "err")]] [];
   SAssign [(EIndex (EVar "items") (EVar "i"))] [(EVar "item")]].
(** One round of the loop. *)
Definition round_source {A} (m : string) (f : Dec A) (mk : list A -> val) (zero : A) (n : nat) : Prop :=
  forall l k j done s d, nth_error (heap s) l = Some (decoder_cell d) ->
  leave_block (array_env (zlen done) (mk (done ++ repeat zero (S j))) k l)
    (run W R scribble prog (go n) n (array_body m) (array_env (zlen done) (mk (done ++ repeat zero (S j))) k l) s)
  = match f d with
    | DOk v d => Ok (On (array_env (zlen done) (mk ((done ++ [v]) ++ repeat zero j)) k l)) (set_cell l (decoder_cell d) s)
    | DErr e d => Ok (Leave [VNil; VErr e]) (set_cell l (decoder_cell d) s)
    | DPanic => Panic
    end.
Lemma array_loop {A} m (f : Dec A) mk zero n : round_source m f mk zero n -> forall l k, wrap W k = k -> forall j rounds_left done s d,
  nth_error (heap s) l = Some (decoder_cell d) -> zlen done + Z.of_nat j = k -> (j < rounds_left)%nat ->
  rounds rounds_left (eval W R scribble prog (go n) array_test) (fun E s => leave_block E (run W R scribble prog (go n) n (array_body m) E s))
    (run W R scribble prog (go n) n array_post) (array_env (zlen done) (mk (done ++ repeat zero j)) k l) s
  = loop_outcome (fun xs => array_env k (mk (done ++ xs)) k l) l s (repeat_dec j f d).
Proof.
  intros Round l k Wk. induction j as [|j IH]; intros [|more] done s d H Hj Hr; try lia; cbn [rounds].
  - unfold array_test at 1, array_env at 1. crunch. replace (zlen done <? k) with false by lia. crunch. cbn [repeat_dec]. unfold ret, loop_outcome.
    rewrite set_same by exact H. unfold array_env. cbn [repeat]. replace (zlen done) with k by lia. reflexivity.
  - assert (T : forall xs s, eval W R scribble prog (go n) array_test (array_env (zlen done) xs k l) s = Ok (VBool true) s).
    { intros xs s0. unfold array_test, array_env. crunch. replace (zlen done <? k) with true by lia. reflexivity. }
    rewrite T. cbn [rbind]. rewrite (Round l k j done s d H). cbn [repeat_dec]. unfold bind at 1. destruct (f d) as [v d'|e d'|]; cbn [rbind]; [|reflexivity|reflexivity].
    assert (Q : forall xs s, run W R scribble prog (go n) n array_post (array_env (zlen done) xs k l) s = Ok (On (array_env (zlen (done ++ [v])) xs k l)) s).
    { intros xs s0. unfold array_post, array_env. look. rewrite next_int with (k := k) by (unfold zlen in *; lia). unfold zlen at 2. rewrite app_length. cbn [length].
      replace (Z.of_nat (length done + 1)) with (zlen done + 1) by (unfold zlen; lia). reflexivity. }
    rewrite Q. cbn [rbind]. rewrite (IH more (done ++ [v]) (set_cell l (decoder_cell d') s) d' (at_set s l _ _ H)) by (unfold zlen in *; rewrite ?app_length; cbn [length]; lia).
    unfold bind, loop_outcome. destruct (repeat_dec j f d') as [xs d''|e d''|]; rewrite ?set_set; [|reflexivity|reflexivity].
    cbn [ret]. unfold ret. rewrite <- app_assoc. reflexivity.
Qed.
Lemma stored {A} (done : list A) z j : (0 <=? zlen done) && (zlen done <? zlen (done ++ repeat z (S j))) = true.
Proof. rewrite zlen_app_cons. unfold zlen. apply andb_true_intro. split; [apply Z.leb_le|apply Z.ltb_lt]; lia. Qed.
Lemma set_nth_zlen {A} (done : list A) z y j : set_nth (Z.to_nat (zlen done)) y (done ++ repeat z (S j)) = (done ++ [y]) ++ repeat z j.
Proof. unfold zlen. rewrite Nat2Z.id. apply set_nth_app. Qed.
Ltac a_round Item s l d H := unfold array_env, array_body; unfold decoder_cell in H; rewrite run_cons; crunch; rewrite H; cbn [String.append]; rewrite (Item s l d H); unfold outcome;
  let v := fresh "v" in let d' := fresh "d'" in let e := fresh "e" in
  match goal with |- context [match ?x with DOk _ _ => _ | DErr _ _ => _ | DPanic => _ end] => destruct x as [v d'|e d'|] end;
  [| |reflexivity];
  (let s' := fresh "s'" in let H' := fresh "H'" in let S' := fresh "S'" in settled s l d' H s' H' S';
   try (unfold store_at; crunch; rewrite stored; crunch; rewrite set_nth_zlen; look); rewrite <- S', set_same by exact H'; reflexivity).
Lemma Int32_round n : round_source "Int32" (pInt32 P) (VInts I32) 0 (S (S n)).
Proof.
  intros l k j done s d H. a_round (Int32_source P GP structs scribble prog X n) s l d H.
Qed.
Lemma Int64_round n : round_source "Int64" (pInt64 P) (VInts I64) 0 (S (S n)).
Proof.
  intros l k j done s d H. a_round (Int64_source P GP structs scribble prog X n) s l d H.
Qed.
Lemma String_round n : round_source (A := list Z) "String" (pString P) VStrs [] (S (S (S n))).
Proof.
  intros l k j done s d H. a_round (String_source P GP structs scribble prog X n) s l d H.
Qed.

Definition rounds_for (d : Decoder) : nat := match pArrayLength P d with DOk k _ => Z.to_nat k | _ => 0 end.
Lemma length_wrapped d k d' : pArrayLength P d = DOk k d' -> wrap W k = k.
Proof. unfold pArrayLength, bind, ret. destruct (pInt32 P d) as [v d1|e d1|]; intros E; inversion E. apply wrap_twice. Qed.
Lemma make_int32 k s : make_slice W R prog (GInt I32) k s = if (k <? 0) || negb (p_make P TInt32Array k) then Panic else Ok (VInts I32 (repeat 0 (Z.to_nat k))) s.
Proof. reflexivity. Qed.
Lemma make_int64 k s : make_slice W R prog (GInt I64) k s = if (k <? 0) || negb (p_make P TInt64Array k) then Panic else Ok (VInts I64 (repeat 0 (Z.to_nat k))) s.
Proof. reflexivity. Qed.
Lemma make_string k s : make_slice W R prog GString k s = if (k <? 0) || negb (p_make P TStringArray k) then Panic else Ok (VStrs (repeat [] (Z.to_nat k))) s.
Proof. reflexivity. Qed.
(** The loop as a statement. *)
Lemma exec_array {A} m (f : Dec A) mk zero n : round_source m f mk zero n -> forall l k s d, wrap W k = k -> 0 <= k -> (Z.to_nat k < n)%nat ->
  nth_error (heap s) l = Some (decoder_cell d) ->
  exec W R scribble prog (go n) n
    (SFor [SDefine ["i"] [(EInt 0)]] (EBin Lt (EVar "i") (EVar "n")) [SOp (EVar "i") Add (EInt 1)]
       [SDefine ["item"; "err"] [(EMethod (EVar "d") m [])];
        SIf [] (EBin Ne (EVar "err") ENil) [SReturn [ENil; (EVar "err")]] [];
        SAssign [(EIndex (EVar "items") (EVar "i"))] [(EVar "item")]])
    [("items", mk (repeat zero (Z.to_nat k))); ("err", VNil); ("n", VInt INT k); ("d", VRef l)] s
  = match repeat_dec (Z.to_nat k) f d with
    | DOk xs d => Ok (On [("items", mk xs); ("err", VNil); ("n", VInt INT k); ("d", VRef l)]) (set_cell l (decoder_cell d) s)
    | DErr e d => Ok (Leave [VNil; VErr e]) (set_cell l (decoder_cell d) s)
    | DPanic => Panic
    end.
Proof.
  intros Round l k s d Wk Hk Hn H. rewrite exec_for. fold array_test. fold array_post. fold (array_body m).
  match goal with |- context [run ?a ?b ?c ?d ?e ?f [SDefine ["i"] [EInt 0]] ?E ?s] => assert (I : run a b c d e f [SDefine ["i"] [EInt 0]] E s = Ok (On (array_env 0 (mk (repeat zero (Z.to_nat k))) k l)) s) end.
  { look. reflexivity. }
  rewrite I. pose proof (array_loop m f mk zero n Round l k Wk (Z.to_nat k) n [] s d H) as G. cbn [app zlen length Z.of_nat] in G. change (zlen []) with 0 in G.
  rewrite G by lia. unfold loop_outcome. destruct (repeat_dec _ _ _) as [xs d'|e d'|]; crunch; unfold array_env; crunch; reflexivity.
Qed.
Ltac arrays n s l d H HN Make Round :=
  rewrite (ArrayLength_source P GP structs scribble prog X n s l d H); unfold p_prim, bind at 1, outcome; unfold rounds_for in HN;
  let k := fresh "k" in let d' := fresh "d'" in let e := fresh "e" in let E := fresh "E" in let M := fresh "M" in let K := fresh "K" in
  let s' := fresh "s'" in let H' := fresh "H'" in let S' := fresh "S'" in
  destruct (pArrayLength P d) as [k d'|e d'|] eqn:E;
  [ settled s l d' H s' H' S'; change (- (1)) with (-1); look; destruct (k =? -1); crunch; look; unfold ret;
    [ rewrite <- S', set_same by exact H'; reflexivity
    | rewrite Make; unfold p_new; unfold bind at 1; destruct ((k <? 0) || _) eqn:M; crunch; look;
      [ reflexivity
      | assert (K : 0 <= k) by (apply orb_false_elim in M; destruct M as [M _]; apply Z.ltb_ge in M; exact M);
        rewrite run_cons, (exec_array _ _ _ _ _ (Round n) l k s' d' (length_wrapped _ _ _ E) K) by (first [exact H'|lia]);
        unfold bind; destruct (repeat_dec _ _ _); crunch; look; rewrite ?S'; reflexivity ] ]
  | settled s l d' H s' H' S'; reflexivity
  | reflexivity ].
Lemma Int32Array_source n s l d : nth_error (heap s) l = Some (decoder_cell d) -> (rounds_for d <= n)%nat ->
  go (S (S (S (S n)))) "Decoder.Int32Array" [VRef l] s = outcome (slice_val (VInts I32)) VNil l s (pInt32Array P d).
Proof. start H. intros HN. unfold pInt32Array. arrays n s l d H HN make_int32 (fun n => Int32_round (S n)). Qed.
Lemma Int64Array_source n s l d : nth_error (heap s) l = Some (decoder_cell d) -> (rounds_for d <= n)%nat ->
  go (S (S (S (S n)))) "Decoder.Int64Array" [VRef l] s = outcome (slice_val (VInts I64)) VNil l s (pInt64Array P d).
Proof. start H. intros HN. unfold pInt64Array. arrays n s l d H HN make_int64 (fun n => Int64_round (S n)). Qed.
Lemma StringArray_source n s l d : nth_error (heap s) l = Some (decoder_cell d) -> (rounds_for d <= n)%nat ->
  go (S (S (S (S n)))) "Decoder.StringArray" [VRef l] s = outcome (slice_val VStrs) VNil l s (pStringArray P d).
Proof. start H. intros HN. unfold pStringArray. arrays n s l d H HN make_string (fun n => String_round n). Qed.

(** ** The loop of VarString *)
Lemma decode_rune_size b p r size : decode_rune (b :: p) = (r, size) -> 1 <= size <= zlen (b :: p).
Proof.
  assert (Z1 : 1 <= zlen (b :: p)) by (unfold zlen; cbn [length]; lia).
  unfold decode_rune. intros E.
  repeat match type of E with
  | (if ?c then _ else _) = _ => destruct c
  | match ?x with Some _ => _ | None => _ end = _ => destruct x as [[[sz lo] hi]|]
  | match ?x with [] => _ | _ :: _ => _ end = _ => destruct x
  end; injection E as <- <-; try lia; unfold zlen in *; cbn [length] in *; lia.
Qed.
Definition runes_val (rs : list Z) : val := match rs with [] => VNil | _ => VInts I32 rs end.
Definition string_env (rs : list Z) (som eom : Z) (rest : env) : env := ("runes", runes_val rs) :: ("som", VInt INT som) :: ("eom", VInt INT eom) :: rest.
Definition string_test := EBin Lt (EVar "som") (EVar "eom").
Definition string_body := [SDefine ["r"; "size"] [(ECall "utf8.DecodeRune" [(ESlice (EField (EVar "d") "raw") (Some (EVar "som")) (Some (EVar "eom")) None)])];
      SOp (EVar "som") Add (EVar "size");
      SAssign [(EVar "runes")] [(EAppend (EVar "runes") (EVar "r"))]].
Lemma string_round n l length k rs som eom p s d : nth_error (heap s) l = Some (decoder_cell d) -> slice (d_raw d) som eom = Some p ->
  leave_block (string_env rs som eom [("length", VInt INT length); ("err", VNil); ("n", VInt I64 k); ("d", VRef l)])
    (run W R scribble prog (go (S n)) (S n) string_body (string_env rs som eom [("length", VInt INT length); ("err", VNil); ("n", VInt I64 k); ("d", VRef l)]) s)
  = Ok (On (string_env (rs ++ [fst (decode_rune p)]) (wrap W (som + snd (decode_rune p))) eom [("length", VInt INT length); ("err", VNil); ("n", VInt I64 k); ("d", VRef l)])) s.
Proof.
  intros H Sl. unfold decoder_cell in H. unfold string_body, string_env.
  destruct rs as [|x rs]; cbn [runes_val app]; rewrite run_cons; crunch; rewrite H; crunch; rewrite Sl; crunch; library;
    destruct (decode_rune p) as [r size]; cbn [fst snd]; crunch; look; unfold append_to; crunch; look; reflexivity.
Qed.
Lemma slice_step (raw : list Z) som eom size p : slice raw som eom = Some p -> 0 <= size <= zlen p -> slice raw (som + size) eom = Some (skipn (Z.to_nat size) p).
Proof.
  unfold slice. destruct (_ && _) eqn:E; [|intros N; discriminate N]. intros Q; injection Q as <-. intros Hs. unfold zlen in *.
  rewrite firstn_length, skipn_length in Hs. apply andb_prop in E. destruct E as [E E3]. apply andb_prop in E. destruct E as [E1 E2].
  replace (0 <=? som + size) with true by lia. replace (som + size <=? eom) with true by lia. rewrite E3. cbn [andb]. f_equal.
  rewrite skipn_firstn_comm, DecProofs.skipn_skipn'. f_equal; [lia|f_equal; lia].
Qed.
Lemma slice_facts (raw : list Z) a b p : slice raw a b = Some p -> 0 <= a /\ a <= b /\ zlen p = b - a.
Proof.
  unfold slice. destruct (_ && _) eqn:E; [|intros N; discriminate N]. intros Q; injection Q as <-. unfold zlen. rewrite firstn_length, skipn_length.
  apply andb_prop in E. destruct E as [E E3]. apply andb_prop in E. destruct E as [E1 E2]. unfold zlen in *. lia.
Qed.
Lemma string_loop n l length k eom : wrap W eom = eom -> forall fuel more rs som p s d, nth_error (heap s) l = Some (decoder_cell d) ->
  slice (d_raw d) som eom = Some p -> (Datatypes.length p <= fuel)%nat -> (Datatypes.length p < more)%nat ->
  rounds more (eval W R scribble prog (go (S n)) string_test) (fun E s => leave_block E (run W R scribble prog (go (S n)) (S n) string_body E s))
    (run W R scribble prog (go (S n)) (S n) []) (string_env rs som eom [("length", VInt INT length); ("err", VNil); ("n", VInt I64 k); ("d", VRef l)]) s
  = Ok (On (string_env (rs ++ runes_fuel fuel p) eom eom [("length", VInt INT length); ("err", VNil); ("n", VInt I64 k); ("d", VRef l)])) s.
Proof.
  intros We. induction fuel as [|fuel IH]; intros [|more] rs som p s d H Sl Hf Hm; try lia; destruct (slice_facts _ _ _ _ Sl) as (F1 & F2 & F3); cbn [rounds].
  - destruct p; [|cbn in Hf; lia]. cbn in F3. unfold string_test at 1, string_env at 1. crunch. replace (som <? eom) with false by lia. crunch.
    cbn [runes_fuel]. rewrite app_nil_r. replace som with eom by lia. reflexivity.
  - destruct p as [|b p].
    + cbn in F3. unfold string_test at 1, string_env at 1. crunch. replace (som <? eom) with false by lia. crunch.
      cbn [runes_fuel]. rewrite app_nil_r. replace som with eom by lia. reflexivity.
    + assert (T : forall rest, eval W R scribble prog (go (S n)) string_test (string_env rs som eom rest) s = Ok (VBool true) s).
      { intros rest. unfold string_test, string_env. crunch. replace (som <? eom) with true; [reflexivity|]. unfold zlen in F3. cbn [Datatypes.length] in F3. lia. }
      rewrite T. cbn [rbind]. rewrite (string_round n l length k rs som eom (b :: p) s d H Sl). cbn [rbind]. rewrite run_nil. cbn [rbind].
      destruct (decode_rune (b :: p)) as [r size] eqn:D. cbn [fst snd]. pose proof (decode_rune_size _ _ _ _ D) as Hsz.
      assert (Ws : wrap W (som + size) = som + size).
      { apply pint_id; [exact GP|]. assert (N : - 2 ^ (W - 1) <= eom < 2 ^ (W - 1)) by (rewrite <- We; apply wrap_range, (half_pos P GP)). pose proof (half_pos P GP). lia. }
      rewrite Ws. rewrite (IH more (rs ++ [r]) (som + size) (skipn (Z.to_nat size) (b :: p)) s d H).
      * cbn [runes_fuel]. rewrite D, <- app_assoc. reflexivity.
      * apply slice_step; [exact Sl|lia].
      * rewrite skipn_length. cbn [Datatypes.length] in *. lia.
      * rewrite skipn_length. cbn [Datatypes.length] in *. lia.
Qed.
Lemma exec_string n l length k eom som p s d : wrap W eom = eom -> nth_error (heap s) l = Some (decoder_cell d) -> slice (d_raw d) som eom = Some p ->
  (Datatypes.length p < S n)%nat ->
  exec W R scribble prog (go (S n)) (S n)
    (SFor [] (EBin Lt (EVar "som") (EVar "eom")) []
       [SDefine ["r"; "size"] [(ECall "utf8.DecodeRune" [(ESlice (EField (EVar "d") "raw") (Some (EVar "som")) (Some (EVar "eom")) None)])];
        SOp (EVar "som") Add (EVar "size");
        SAssign [(EVar "runes")] [(EAppend (EVar "runes") (EVar "r"))]])
    [("runes", VNil); ("som", VInt INT som); ("eom", VInt INT eom); ("length", VInt INT length); ("err", VNil); ("n", VInt I64 k); ("d", VRef l)] s
  = Ok (On [("runes", runes_val (runes p)); ("som", VInt INT eom); ("eom", VInt INT eom); ("length", VInt INT length); ("err", VNil); ("n", VInt I64 k); ("d", VRef l)]) s.
Proof.
  intros We H Sl Hn. rewrite exec_for, run_nil. fold string_test. fold string_body.
  pose proof (string_loop n l length k eom We (Datatypes.length p) (S n) [] som p s d H Sl (le_n _) Hn) as G. unfold string_env in G. cbn [runes_val app] in G. rewrite G. reflexivity.
Qed.
(** Nothing to go through, or a slice that is out of range. *)
Lemma exec_string_none n l length k eom som s : (som <? eom) = false ->
  exec W R scribble prog (go (S n)) (S n)
    (SFor [] (EBin Lt (EVar "som") (EVar "eom")) []
       [SDefine ["r"; "size"] [(ECall "utf8.DecodeRune" [(ESlice (EField (EVar "d") "raw") (Some (EVar "som")) (Some (EVar "eom")) None)])];
        SOp (EVar "som") Add (EVar "size");
        SAssign [(EVar "runes")] [(EAppend (EVar "runes") (EVar "r"))]])
    [("runes", VNil); ("som", VInt INT som); ("eom", VInt INT eom); ("length", VInt INT length); ("err", VNil); ("n", VInt I64 k); ("d", VRef l)] s
  = Ok (On [("runes", VNil); ("som", VInt INT som); ("eom", VInt INT eom); ("length", VInt INT length); ("err", VNil); ("n", VInt I64 k); ("d", VRef l)]) s.
Proof. intros T. rewrite exec_for, run_nil. cbn [rounds]. crunch. rewrite T. reflexivity. Qed.
Lemma exec_string_panics n l length k eom som s d : (som <? eom) = true -> nth_error (heap s) l = Some (decoder_cell d) -> slice (d_raw d) som eom = None ->
  exec W R scribble prog (go (S n)) (S n)
    (SFor [] (EBin Lt (EVar "som") (EVar "eom")) []
       [SDefine ["r"; "size"] [(ECall "utf8.DecodeRune" [(ESlice (EField (EVar "d") "raw") (Some (EVar "som")) (Some (EVar "eom")) None)])];
        SOp (EVar "som") Add (EVar "size");
        SAssign [(EVar "runes")] [(EAppend (EVar "runes") (EVar "r"))]])
    [("runes", VNil); ("som", VInt INT som); ("eom", VInt INT eom); ("length", VInt INT length); ("err", VNil); ("n", VInt I64 k); ("d", VRef l)] s
  = Panic.
Proof.
  intros T H Sl. rewrite exec_for, run_nil. cbn [rounds].
  match goal with |- context [eval ?a ?b ?c ?d ?e (EBin Lt (EVar "som") (EVar "eom")) ?E ?s] => assert (Q : eval a b c d e (EBin Lt (EVar "som") (EVar "eom")) E s = Ok (VBool true) s) end.
  { crunch. rewrite T. reflexivity. }
  rewrite Q. cbn [rbind]. rewrite run_cons. unfold decoder_cell in H. crunch. rewrite H. crunch. rewrite Sl. crunch. reflexivity.
Qed.
Lemma VarString_source n s l d : nth_error (heap s) l = Some (decoder_cell d) -> (length (d_raw d) <= n)%nat ->
  go (S (S (S n))) "Decoder.VarString" [VRef l] s = outcome VStr (VStr []) l s (pVarString P d).
Proof.
  intros H HN. unfold decoder_cell in H. enter. look.
  rewrite (VarInt_source P GP structs scribble prog X n s l d H). unfold pVarString, bind, outcome. destruct (pVarInt P d) as [v d'|e d'|] eqn:E; [| |reflexivity].
  - assert (RW : d_raw d' = d_raw d).
    { unfold pVarInt in E. destruct (slice_from _ _); [|discriminate E]. destruct (if L then _ else _) as [tmp k]. destruct (k =? 0); [discriminate E|]. destruct (k =? -1); [discriminate E|]. injection E as <- <-. reflexivity. }
    settled s l d' H s' H' S'. rewrite (remains_source P structs scribble prog X (S n) s' l d' (wrap W v) H'). crunch. unfold pint.
    destruct (p_remains P (wrap W v) d'); crunch; look; [|rewrite <- S', set_same by exact H'; reflexivity]. unfold new_variable, zero. crunch.
    rewrite run_cons. set (eom := wrap W (d_offset d' + wrap W v)).
    assert (We : wrap W eom = eom) by apply wrap_twice.
    destruct (d_offset d' <? eom) eqn:T.
    + replace (eom <=? d_offset d') with false by lia. destruct (slice (d_raw d') (d_offset d') eom) as [p|] eqn:Sl.
      * rewrite (exec_string (S n) l _ v eom (d_offset d') p s' d' We H' Sl) by (destruct (slice_facts _ _ _ _ Sl) as (F1 & F2 & F3);
          unfold slice in Sl; destruct (_ && _) eqn:B; [|discriminate Sl]; injection Sl as <-; rewrite firstn_length, skipn_length, RW; lia).
        look. destruct (runes p) as [|r rs] eqn:Rs; cbn [runes_val]; crunch; look; rewrite ?S'; reflexivity.
      * rewrite (exec_string_panics (S n) l _ v eom (d_offset d') s' d' T H' Sl). reflexivity.
    + replace (eom <=? d_offset d') with true by lia. rewrite (exec_string_none (S n) l _ v eom (d_offset d') s' T). look. rewrite ?S'. reflexivity.
  - settled s l d' H s' H' S'. reflexivity.
Qed.
End Source.
