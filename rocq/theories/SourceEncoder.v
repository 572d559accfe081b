(** * The source does what the model says: the Encoder *)
From Coq Require Import String.
From Verif Require Import GoBase GoLemmas Binary Utf8 Decoder Encoder EncProofs VarProofs SchemaSpec Platform PlatformSpec PlatformProofs Scratch ScratchProofs GoLang Source SourceSpec SourceBase.
From Coq Require Import Lia ZArith.
Local Open Scope string_scope.
Local Open Scope list_scope.
Local Open Scope Z_scope.
Ltac Zify.zify_post_hook ::= idtac.

Lemma kept_refl l s : kept l s s.
Proof. intros k t fs _ H. exact H. Qed.
Lemma kept_trans l s1 s2 s3 : kept l s1 s2 -> kept l s2 s3 -> kept l s1 s3.
Proof. intros A B k t fs N H. apply B, A; assumption. Qed.
Lemma kept_array l b buf c s : nth_error (heap s) b = Some (CArray buf) -> kept l s (set_cell b c s).
Proof. intros H k t fs N K. unfold set_cell. cbn [heap]. rewrite nth_set_other; [exact K|]. intros <-. rewrite H in K. discriminate K. Qed.
Lemma holds_array l b buf buf' e s : holds l b e s -> nth_error (heap s) b = Some (CArray buf) -> length buf' = 16%nat -> holds l b e (set_cell b (CArray buf') s).
Proof.
  intros (A & _ & C) B L16. split; [|split; [|exact C]].
  - unfold set_cell. cbn [heap]. rewrite nth_set_other; [exact A|]. intros <-. rewrite A in B. discriminate B.
  - exists buf'. split; [|exact L16]. eapply at_set, B.
Qed.

(** The runes of bytes are int32. *)
Lemma lor_less a b n : 0 <= n -> 0 <= a < 2 ^ n -> 0 <= b < 2 ^ n -> 0 <= Z.lor a b < 2 ^ n.
Proof.
  intros Hn Ha Hb. split; [apply Z.lor_nonneg; lia|]. destruct (Z.eq_dec (Z.lor a b) 0) as [->|N]; [apply Z.pow_pos_nonneg; lia|].
  assert (0 <= Z.lor a b) by (apply Z.lor_nonneg; lia). apply Z.log2_lt_pow2; [lia|]. rewrite Z.log2_lor by lia. apply Z.max_lub_lt.
  - destruct (Z.eq_dec a 0) as [->|]; [|apply Z.log2_lt_pow2; lia]. change (Z.log2 0) with 0. destruct (Z.eq_dec n 0) as [->|]; [|lia]. change (2 ^ 0) with 1 in *. replace b with 0 in * by lia. cbn in N. congruence.
  - destruct (Z.eq_dec b 0) as [->|]; [|apply Z.log2_lt_pow2; lia]. change (Z.log2 0) with 0. destruct (Z.eq_dec n 0) as [->|]; [|lia]. change (2 ^ 0) with 1 in *. replace a with 0 in * by lia. cbn in N. congruence.
Qed.
Lemma land_shift x k m n : 0 <= k -> 0 <= n -> m = 2 ^ k - 1 -> k + n <= 21 -> 0 <= Z.shiftl (Z.land x m) n < 2 ^ 21.
Proof.
  intros Hk Hn -> Hs. rewrite Z.sub_1_r, <- Z.ones_equiv, Z.land_ones, Z.shiftl_mul_pow2 by lia. pose proof (Z.mod_pos_bound x (2 ^ k) (Z.pow_pos_nonneg 2 k ltac:(lia) Hk)).
  assert (0 < 2 ^ n) by (apply Z.pow_pos_nonneg; lia). assert (2 ^ k * 2 ^ n <= 2 ^ 21) by (rewrite <- Z.pow_add_r by lia; apply Z.pow_le_mono_r; lia). split; [nia|].
  apply Z.lt_le_trans with (2 ^ k * 2 ^ n); [apply Z.mul_lt_mono_pos_r; lia|assumption].
Qed.
Lemma decode_rune_int32 p : Forall is_byte p -> - 2 ^ 31 <= fst (decode_rune p) < 2 ^ 31.
Proof.
  intros Hp. assert (Q : 0 <= fst (decode_rune p) < 2 ^ 21); [|lia]. assert (E : 0 <= RuneError < 2 ^ 21) by (unfold RuneError; lia). unfold decode_rune. destruct p as [|p0 tl]; [exact E|].
  assert (B0 : 0 <= p0 < 256) by (inversion Hp; assumption).
  repeat match goal with |- context [match ?x with _ => _ end] => destruct x end; try exact E; cbn [fst]; try lia;
    repeat (apply lor_less; [lia| |]);
    try match goal with |- 0 <= Z.land ?x ?m < _ => rewrite <- (Z.shiftl_0_r (Z.land x m)) end;
    first [apply land_shift with (k := 6); [lia|lia|reflexivity|lia] | apply land_shift with (k := 5); [lia|lia|reflexivity|lia]
          | apply land_shift with (k := 4); [lia|lia|reflexivity|lia] | apply land_shift with (k := 3); [lia|lia|reflexivity|lia]].
Qed.
Lemma runes_int32 fuel : forall p, Forall is_byte p -> Forall (fun r => - 2 ^ 31 <= r < 2 ^ 31) (runes_fuel fuel p).
Proof.
  induction fuel as [|fuel IH]; intros p Hp; [constructor|]. cbn [runes_fuel]. destruct p as [|p0 tl]; [constructor|]. pose proof (decode_rune_int32 _ Hp) as D. destruct (decode_rune (p0 :: tl)) as [r size].
  constructor; [exact D|]. apply IH. apply Forall_forall. intros x Hx. rewrite Forall_forall in Hp. apply Hp. rewrite <- (firstn_skipn (Z.to_nat size)). apply in_or_app. right. exact Hx.
Qed.
Section Source.
Context (P : platform) (GP : go_platform P) (structs : string -> ty) (scribble : list (list Z) -> list Z -> list Z) (prog : package) (X : extends prog source).
Context (Hs : forall log buf, length buf = 16%nat -> length (scribble log buf) = 16%nat).
Notation W := (p_int P).
Notation L := (p_late P).
Notation R := (room_of P structs).
Notation go := (call W L R scribble prog).

(** if e.err != nil { return } *)
Lemma err_test c0 k cs E s l b e : lookup "e" E = Some (VRef l) -> holds l b e s ->
  run W R scribble prog c0 k (SIf [] (EBin Ne (EField (EVar "e") "err") ENil) [SReturn []] [] :: cs) E s =
  match e_err e with Some _ => Ok (Leave []) s | None => run W R scribble prog c0 k cs E s end.
Proof.
  intros HE (A & _ & _). rewrite run_cons. cbn. rewrite HE. cbn. rewrite A. cbn. destruct (e_err e); cbn; [reflexivity|].
  rewrite !Nat.sub_diag. reflexivity.
Qed.
(** if e.err == nil { ... } *)
Lemma ok_test c0 k cs E s l b e : lookup "e" E = Some (VRef l) -> holds l b e s ->
  exec W R scribble prog c0 k (SIf [] (EBin Eq (EField (EVar "e") "err") ENil) cs []) E s =
  match e_err e with Some _ => Ok (On E) s | None => leave_block E (leave_block E (run W R scribble prog c0 k cs E s)) end.
Proof.
  intros HE (A & _ & _). cbn. rewrite HE. cbn. rewrite A. cbn. destruct (e_err e); cbn; [|reflexivity].
  rewrite !Nat.sub_diag. reflexivity.
Qed.
(** _, e.err = e.target.Write(...) *)
Lemma wrote l b e s data : holds l b e s -> exists s1 s2, do_write scribble data s = Ok (VTuple [VInt INT (zlen data); as_error (t_write (e_target e) (t_log (e_target e)) data)]) s1 /\
  nth_error (heap s1) l = Some (encoder_cell b e) /\ s2 = set_cell l (encoder_cell b (write data e)) s1 /\ holds l b (write data e) s2 /\ kept l s s2.
Proof.
  intros (A & (buf & B & L16) & C). unfold do_write. rewrite C. eexists. eexists. split; [reflexivity|]. split; [|split; [reflexivity|]].
  - cbn [heap]. rewrite nth_error_map, A. reflexivity.
  - split.
    + split; [|split].
      * eapply at_set. cbn [heap]. rewrite nth_error_map, A. reflexivity.
      * exists (scribble (t_log (e_target e)) buf). split; [|apply Hs, L16]. unfold set_cell. cbn [heap]. rewrite nth_set_other by (intros <-; rewrite A in B; discriminate B).
        rewrite nth_error_map, B. reflexivity.
      * reflexivity.
    + intros k t fs N K. unfold set_cell. cbn [heap]. rewrite nth_set_other by congruence. rewrite nth_error_map, K. reflexivity.
Qed.
Lemma write_stmt c0 k arg E s l b e v data : lookup "e" E = Some (VRef l) -> holds l b e s ->
  eval W R scribble prog c0 arg E s = Ok v s -> bytes_of v s = Some data ->
  exists s', exec W R scribble prog c0 k (SAssign [EVar "_"; EField (EVar "e") "err"] [EMethod (EField (EVar "e") "target") "Write" [arg]]) E s = Ok (On E) s' /\
    holds l b (write data e) s' /\ kept l s s'.
Proof.
  intros HE H Ha Hb. destruct (wrote l b e s data H) as (s1 & s2 & D & A1 & -> & H2 & F2). exists (set_cell l (encoder_cell b (write data e)) s1). split; [|split; [exact H2|exact F2]].
  destruct H as (A & _ & _). cbn [exec eval_values eval]. rewrite HE. cbn [opt rbind]. rewrite A. unfold encoder_cell at 1. cbn [lookup String.eqb Ascii.eqb Bool.eqb opt rbind].
  rewrite Ha. cbn [rbind]. unfold writer_method. cbn [String.eqb Ascii.eqb Bool.eqb]. rewrite Hb, D. cbn [rbind spread assign_all assign String.eqb Ascii.eqb Bool.eqb]. cbn [eval]. rewrite HE.
  cbn [opt rbind]. unfold set_field. rewrite A1. unfold encoder_cell at 1. cbn [lookup update String.eqb Ascii.eqb Bool.eqb opt rbind option_map]. unfold encoder_cell. cbn [e_err write].
  destruct (e_err e); destruct (t_write _ _ _); reflexivity.
Qed.
Lemma write_string_stmt n k x E s l b e data : lookup "e" E = Some (VRef l) -> lookup x E = Some (VStr data) -> holds l b e s ->
  exists s', exec W R scribble prog (go (S n)) k (SAssign [EVar "_"; EField (EVar "e") "err"] [ECall "io.WriteString" [EField (EVar "e") "target"; EVar x]]) E s = Ok (On E) s' /\
    holds l b (write data e) s' /\ kept l s s'.
Proof.
  intros HE Hx H. destruct (wrote l b e s data H) as (s1 & s2 & D & A1 & -> & H2 & F2). exists (set_cell l (encoder_cell b (write data e)) s1). split; [|split; [exact H2|exact F2]].
  destruct H as (A & _ & _). cbn [exec eval_values eval]. rewrite HE. cbn [opt rbind]. rewrite A. unfold encoder_cell at 1. cbn [lookup String.eqb Ascii.eqb Bool.eqb opt rbind].
  rewrite Hx. cbn [opt rbind]. erewrite called_lib by reflexivity. cbv beta iota. rewrite D. cbn [rbind spread assign_all assign String.eqb Ascii.eqb Bool.eqb]. cbn [eval]. rewrite HE.
  cbn [opt rbind]. unfold set_field. rewrite A1. unfold encoder_cell at 1. cbn [lookup update String.eqb Ascii.eqb Bool.eqb opt rbind option_map]. unfold encoder_cell. cbn [e_err write].
  destruct (e_err e); destruct (t_write _ _ _); reflexivity.
Qed.

(** A function without results. *)
Lemma body n f fn vs E l b g : lookup f (lib_table L scribble) = None -> lookup f (k_funcs source) = Some fn -> f_results fn = [] -> bind_params W (f_params fn) vs = Some E ->
  (forall s e, holds l b e s -> exists fl s', run W R scribble prog (go n) n (f_body fn) E s = Ok fl s' /\ (fl = Leave [] \/ exists E', fl = On E') /\ holds l b (g e) s' /\ kept l s s') ->
  effect l b g (go (S n) f vs).
Proof.
  intros HL HF HR HB H s e He. rewrite (called _ _ _ _ X _ _ _ _ _ HL HF). unfold invoke. rewrite HB. cbn [opt rbind]. destruct (H s e He) as (fl & s' & -> & K & H' & F'). cbn [rbind]. rewrite HR.
  exists s'. split; [|split; assumption]. destruct K as [->|[E' ->]]; reflexivity.
Qed.
(** e.PutX(arg) *)
Lemma call_stmt c0 k m arg E s l b e v g : lookup "e" E = Some (VRef l) -> holds l b e s ->
  eval W R scribble prog c0 arg E s = Ok v s -> effect l b g (c0 ("Encoder." ++ m)%string [VRef l; v]) ->
  exists s', exec W R scribble prog c0 k (SExpr (EMethod (EVar "e") m [arg])) E s = Ok (On E) s' /\ holds l b (g e) s' /\ kept l s s'.
Proof.
  intros HE H Ha Hg. destruct (Hg s e H) as (s' & C & H' & F'). exists s'. split; [|split; assumption].
  destruct H as (A & _ & _). cbn [exec eval]. rewrite HE. cbn [opt rbind]. rewrite Ha. cbn [rbind]. rewrite A. unfold encoder_cell.
  change (c0 ("Encoder" ++ "." ++ m)%string [VRef l; v] s = Ok (VTuple []) s') in C. rewrite C. reflexivity.
Qed.
(** A constant where a value of an integer type is wanted. *)
Lemma constant n f fn t x z r l : lookup f (lib_table L scribble) = None -> lookup f (k_funcs source) = Some fn -> f_params fn = [r; (x, GInt t)] -> snd r = GPtr (GNamed "Encoder") ->
  forall s, go (S n) f [VRef l; VConst z] s = go (S n) f [VRef l; VInt t (conv W t z)] s.
Proof.
  intros HL HF HP Hr s. rewrite !(called _ _ _ _ X _ _ _ _ _ HL HF). unfold invoke. rewrite HP. destruct r as [y u]. cbn in Hr. subst u. cbn [bind_params settle option_map]. reflexivity.
Qed.
(** e.buf[:n] *)
Lemma buf_slice c0 E s l b e buf (lo : option Z) hi : lookup "e" E = Some (VRef l) -> holds l b e s -> nth_error (heap s) b = Some (CArray buf) ->
  match lo with Some z => z | None => 0 end = 0 -> 0 <= hi <= zlen buf ->
  eval W R scribble prog c0 (ESlice (EField (EVar "e") "buf") (option_map EInt lo) (Some (EInt hi)) None) E s = Ok (VView b 0 hi) s.
Proof.
  intros HE (A & _ & _) B Hlo Hh. cbn [eval]. rewrite HE. cbn [opt rbind]. rewrite A. unfold encoder_cell. cbn [lookup String.eqb Ascii.eqb Bool.eqb opt rbind].
  destruct lo as [z|]; cbn [option_map eval number opt rbind]; unfold slice_of; rewrite B; [cbn in Hlo; subst z|]; unfold slice; (rewrite andb_true_intro by (split; [apply andb_true_intro; split|]; apply Z.leb_le; lia)); reflexivity.
Qed.

(** Bytes at the start of the array. *)
Definition front (b : nat) (bs : list Z) (s : state) : Prop := exists buf, nth_error (heap s) b = Some (CArray buf) /\ length buf = 16%nat /\ firstn (length bs) buf = bs.
Lemma zlen16 (buf : list Z) : length buf = 16%nat -> zlen buf = 16.
Proof. intros H. unfold zlen. rewrite H. reflexivity. Qed.
Lemma poked l b e s bs hi : holds l b e s -> zlen bs <= hi <= 16 -> exists s', poke (VView b 0 hi) bs s = Ok tt s' /\ holds l b e s' /\ kept l s s' /\ front b bs s'.
Proof.
  intros H Hh. pose proof H as (_ & (buf & B & L16) & _). unfold poke. rewrite B. rewrite Z.sub_0_r. destruct (Z.leb_spec (zlen bs) hi); [|lia].
  destruct (store_all_ok bs 0 buf) as (buf' & S1 & L1 & F1); [unfold zlen in *; lia|]. change (Z.to_nat 0) with O. rewrite S1. cbn [guard rbind].
  eexists. split; [reflexivity|]. split; [|split].
  - eapply holds_array; [exact H|exact B|lia].
  - eapply kept_array, B.
  - exists buf'. split; [eapply at_set, B|]. split; [lia|exact F1].
Qed.
Lemma write_front c0 k E s l b e bs (lo : option Z) eh : lookup "e" E = Some (VRef l) -> holds l b e s -> front b bs s -> zlen bs <= 16 ->
  match lo with Some z => z | None => 0 end = 0 -> (exists v, eval W R scribble prog c0 eh E s = Ok v s /\ number v = Some (zlen bs)) ->
  exists s', exec W R scribble prog c0 k (SAssign [EVar "_"; EField (EVar "e") "err"] [EMethod (EField (EVar "e") "target") "Write" [ESlice (EField (EVar "e") "buf") (option_map EInt lo) (Some eh) None]]) E s = Ok (On E) s' /\
    holds l b (write bs e) s' /\ kept l s s'.
Proof.
  intros HE H (buf & B & L16 & F) Hb Hlo (v & Hv & Nv). assert (0 <= zlen bs) by (unfold zlen; lia). pose proof (zlen16 buf L16) as Z16. apply write_stmt with (v := VView b 0 (zlen bs)); [exact HE|exact H| |].
  - destruct H as (A & _ & _). cbn [eval]. rewrite HE. cbn [opt rbind]. rewrite A. unfold encoder_cell. cbn [lookup String.eqb Ascii.eqb Bool.eqb opt rbind].
    destruct lo as [z|]; cbn [option_map eval number opt rbind]; rewrite Hv; cbn [rbind]; rewrite Nv; cbn [opt rbind]; unfold slice_of; rewrite B; [cbn in Hlo; subst z|];
      unfold slice; (rewrite andb_true_intro by (split; [apply andb_true_intro; split|]; apply Z.leb_le; lia)); reflexivity.
  - cbn [bytes_of]. rewrite B. unfold slice. rewrite andb_true_intro by (split; [apply andb_true_intro; split|]; apply Z.leb_le; lia). rewrite Z.sub_0_r. cbn [Z.to_nat skipn].
    unfold zlen. rewrite Nat2Z.id, F. reflexivity.
Qed.
(** binary.BigEndian.PutUintN(e.buf[:n], uintN(i)) *)
Lemma put_stmt c0 k f E s l b e x t u z put hi : lookup "e" E = Some (VRef l) -> lookup x E = Some (VInt t z) -> holds l b e s ->
  (forall v w s, c0 f [v; VInt u w] s = let* (_, s) := poke v (put w) s in Ok (VTuple []) s) -> zlen (put (conv W u z)) = hi -> hi <= 16 ->
  exists s', exec W R scribble prog c0 k (SExpr (ECall f [ESlice (EField (EVar "e") "buf") None (Some (EInt hi)) None; EConv (GInt u) (EVar x)])) E s = Ok (On E) s' /\
    holds l b e s' /\ kept l s s' /\ front b (put (conv W u z)) s'.
Proof.
  intros HE Hx H Hf Hz Hh. assert (0 <= hi) by (subst hi; unfold zlen; lia). destruct (poked l b e s (put (conv W u z)) hi H) as (s' & D & H' & F' & B'); [lia|]. exists s'. split; [|auto].
  pose proof H as (A & (buf & B & L16) & _). cbn [exec eval]. rewrite HE. cbn [opt rbind]. rewrite A. unfold encoder_cell. cbn [lookup String.eqb Ascii.eqb Bool.eqb opt rbind number].
  unfold slice_of at 1. rewrite B. unfold slice. rewrite zlen16 by exact L16. rewrite andb_true_intro by (split; [apply andb_true_intro; split|]; apply Z.leb_le; lia). cbn [guard rbind].
  rewrite Hx. cbn [opt rbind convert]. rewrite Hf, D. reflexivity.
Qed.
Ltac text := cbv beta iota delta [f_body settle go_Encoder_Flush go_Encoder_PutArrayLength go_Encoder_PutBool go_Encoder_PutBytes go_Encoder_PutInt8 go_Encoder_PutInt16 go_Encoder_PutInt32 go_Encoder_PutInt32Array go_Encoder_PutInt64 go_Encoder_PutInt64Array go_Encoder_PutNullableString go_Encoder_PutRecordHeader go_Encoder_PutString go_Encoder_PutStringArray go_Encoder_PutVarBytes go_Encoder_PutVarInt go_Encoder_PutVarString].
Ltac opened := unfold PutInt8, PutInt16, PutInt32, PutInt64, PutVarInt, PutVarString, PutVarBytes, PutRecordHeader, PutInt32Array, PutInt64Array, PutStringArray;
  intros s e He; text; erewrite err_test by (reflexivity || exact He); destruct (e_err e) eqn:Ee;
  [exists (Leave []), s; split; [reflexivity|]; split; [left; reflexivity|]; split; [exact He|apply kept_refl]|].
Ltac closed := eexists; eexists; split; [reflexivity|]; split; [right; eexists; reflexivity|]; split; [eassumption|eauto using kept_trans].
Lemma PutInt8_source n l b i : effect l b (PutInt8 i) (go (S (S n)) "Encoder.PutInt8" [VRef l; VInt I8 i]).
Proof.
  eapply body; [reflexivity..|]. opened. rewrite run_cons.
  assert (Q : exists s', exec W R scribble prog (go (S n)) (S n) (SAssign [EIndex (EField (EVar "e") "buf") (EInt 0)] [EConv (GInt U8) (EVar "i")]) [("e", VRef l); ("i", VInt I8 i)] s = Ok (On [("e", VRef l); ("i", VInt I8 i)]) s' /\
    holds l b e s' /\ kept l s s' /\ front b [uint8 i] s').
  { pose proof He as (A & (buf & B & L16) & _). destruct (store_ok 0 (uint8 i) buf) as (buf' & S1 & L1 & F1); [lia|]. exists (set_cell b (CArray buf') s). split.
    - unfold encoder_cell in A. crunch. rewrite A. crunch. rewrite B. change (0 <? 0) with false. change (Z.to_nat 0) with O. rewrite S1. reflexivity.
    - split; [eapply holds_array; [exact He|exact B|lia]|]. split; [eapply kept_array, B|]. exists buf'. split; [eapply at_set, B|]. split; [lia|exact F1]. }
  destruct Q as (s1 & -> & H1 & F1 & B1). rewrite run_cons.
  destruct (write_front (go (S n)) (S n) [("e", VRef l); ("i", VInt I8 i)] s1 l b e [uint8 i] None (EInt 1) eq_refl H1 B1) as (s2 & Q2 & H2 & F2); [unfold zlen; cbn; lia|reflexivity|eexists; split; reflexivity|].
  cbn [option_map] in Q2. rewrite Q2, run_nil. closed.
Qed.
Lemma PutInt16_source n l b i : effect l b (PutInt16 i) (go (S (S n)) "Encoder.PutInt16" [VRef l; VInt I16 i]).
Proof.
  eapply body; [reflexivity..|]. opened. rewrite run_cons.
  destruct (put_stmt (go (S n)) (S n) "binary.BigEndian.PutUint16" [("e", VRef l); ("i", VInt I16 i)] s l b e "i" I16 U16 i put_uint16 2 eq_refl eq_refl He) as (s1 & Q1 & H1 & F1 & B1); [reflexivity|reflexivity|lia|].
  change (conv W U16 i) with (uint16 i) in B1. rewrite Q1, run_cons.
  destruct (write_front (go (S n)) (S n) [("e", VRef l); ("i", VInt I16 i)] s1 l b e (put_uint16 (uint16 i)) None (EInt 2) eq_refl H1 B1) as (s2 & Q2 & H2 & F2); [change (2 <= 16); lia|reflexivity|eexists; split; reflexivity|].
  cbn [option_map] in Q2. rewrite Q2, run_nil. closed.
Qed.
Lemma PutInt32_source n l b i : effect l b (PutInt32 i) (go (S (S n)) "Encoder.PutInt32" [VRef l; VInt I32 i]).
Proof.
  eapply body; [reflexivity..|]. opened. rewrite run_cons.
  destruct (put_stmt (go (S n)) (S n) "binary.BigEndian.PutUint32" [("e", VRef l); ("i", VInt I32 i)] s l b e "i" I32 U32 i put_uint32 4 eq_refl eq_refl He) as (s1 & Q1 & H1 & F1 & B1); [reflexivity|reflexivity|lia|].
  change (conv W U32 i) with (uint32 i) in B1. rewrite Q1, run_cons.
  destruct (write_front (go (S n)) (S n) [("e", VRef l); ("i", VInt I32 i)] s1 l b e (put_uint32 (uint32 i)) None (EInt 4) eq_refl H1 B1) as (s2 & Q2 & H2 & F2); [change (4 <= 16); lia|reflexivity|eexists; split; reflexivity|].
  cbn [option_map] in Q2. rewrite Q2, run_nil. closed.
Qed.
Lemma PutInt64_source n l b i : effect l b (PutInt64 i) (go (S (S n)) "Encoder.PutInt64" [VRef l; VInt I64 i]).
Proof.
  eapply body; [reflexivity..|]. opened. rewrite run_cons.
  destruct (put_stmt (go (S n)) (S n) "binary.BigEndian.PutUint64" [("e", VRef l); ("i", VInt I64 i)] s l b e "i" I64 U64 i put_uint64 8 eq_refl eq_refl He) as (s1 & Q1 & H1 & F1 & B1); [reflexivity|reflexivity|lia|].
  change (conv W U64 i) with (uint64 i) in B1. rewrite Q1, run_cons.
  destruct (write_front (go (S n)) (S n) [("e", VRef l); ("i", VInt I64 i)] s1 l b e (put_uint64 (uint64 i)) None (EInt 8) eq_refl H1 B1) as (s2 & Q2 & H2 & F2); [change (8 <= 16); lia|reflexivity|eexists; split; reflexivity|].
  cbn [option_map] in Q2. rewrite Q2, run_nil. closed.
Qed.
Lemma PutArrayLength_source n l b i : effect l b (PutArrayLength i) (go (S (S (S n))) "Encoder.PutArrayLength" [VRef l; VInt INT i]).
Proof.
  eapply body; [reflexivity..|]. intros s e He. text. rewrite run_cons.
  edestruct (call_stmt (go (S (S n))) (S (S n)) "PutInt32" (EConv (GInt I32) (EVar "n")) [("e", VRef l); ("n", VInt INT i)] s l b e) as (s1 & -> & H1 & F1); [reflexivity|exact He|reflexivity|apply PutInt32_source|].
  rewrite run_nil. closed.
Qed.
Lemma exec_if c0 k c yes no E s : exec W R scribble prog c0 k (SIf [] c yes no) E s =
  leave_block E (let* (v, s) := eval W R scribble prog c0 c E s in
    match v with VBool true => leave_block E (run W R scribble prog c0 k yes E s) | VBool false => leave_block E (run W R scribble prog c0 k no E s) | _ => Stuck end).
Proof. reflexivity. Qed.
Lemma leave_same E s : leave_block E (Ok (On E) s) = Ok (On E) s.
Proof. cbn. rewrite Nat.sub_diag. reflexivity. Qed.
Lemma effect_const n f fn t x z l b g : lookup f (lib_table L scribble) = None -> lookup f (k_funcs source) = Some fn -> f_params fn = [("e", GPtr (GNamed "Encoder")); (x, GInt t)] ->
  effect l b g (go (S n) f [VRef l; VInt t (conv W t z)]) -> effect l b g (go (S n) f [VRef l; VConst z]).
Proof. intros HL HF HP H s e He. erewrite constant; [exact (H s e He)|exact HL|exact HF|exact HP|reflexivity]. Qed.
Lemma PutBool_source n l b i : effect l b (PutBool i) (go (S (S (S n))) "Encoder.PutBool" [VRef l; VBool i]).
Proof.
  eapply body; [reflexivity..|]. intros s e He. text. rewrite run_cons, exec_if.
  assert (Q : forall z : Z, z = 1 \/ z = 0 -> exists s', exec W R scribble prog (go (S (S n))) (S (S n)) (SExpr (EMethod (EVar "e") "PutInt8" [EInt z])) [("e", VRef l); ("b", VBool i)] s = Ok (On [("e", VRef l); ("b", VBool i)]) s' /\ holds l b (PutInt8 z e) s' /\ kept l s s').
  { intros z Hz. eapply call_stmt; [reflexivity|exact He|reflexivity|]. apply (effect_const (S n) "Encoder.PutInt8" go_Encoder_PutInt8 I8 "i" z l b _ eq_refl eq_refl eq_refl).
    replace (conv W I8 z) with z by (destruct Hz as [->| ->]; reflexivity). apply PutInt8_source. }
  unfold PutBool. destruct i; cbn [eval lookup String.eqb Ascii.eqb Bool.eqb opt rbind]; rewrite run_cons.
  - destruct (Q 1) as (s1 & -> & H1 & F1); [lia|]. rewrite run_nil, !leave_same, run_nil. closed.
  - destruct (Q 0) as (s1 & -> & H1 & F1); [lia|]. rewrite run_nil, !leave_same, run_nil. closed.
Qed.
Definition bytes_val (data : gslice Z) : val := slice_val (VInts U8) data.
Lemma PutBytes_source n l b data : effect l b (PutBytes data) (go (S (S (S n))) "Encoder.PutBytes" [VRef l; bytes_val data]).
Proof.
  eapply body with (E := [("e", VRef l); ("data", bytes_val data)]); [reflexivity..|destruct data; reflexivity|]. intros s e He. text. rewrite run_cons.
  destruct (call_stmt (go (S (S n))) (S (S n)) "PutInt32" (EConv (GInt I32) (ELen (EVar "data"))) [("e", VRef l); ("data", bytes_val data)] s l b e (VInt I32 (int32 (glen data))) (PutInt32 (int32 (glen data)))) as (s1 & -> & H1 & F1);
    [reflexivity|exact He|destruct data; reflexivity|apply PutInt32_source|].
  rewrite run_cons. erewrite ok_test; [|reflexivity|exact H1]. unfold PutBytes. cbn zeta. destruct (e_err (PutInt32 (int32 (glen data)) e)).
  - rewrite run_nil. closed.
  - rewrite run_cons. destruct (write_stmt (go (S (S n))) (S (S n)) (EVar "data") [("e", VRef l); ("data", bytes_val data)] s1 l b _ (bytes_val data) (items data) eq_refl H1) as (s2 & -> & H2 & F2);
      [destruct data; reflexivity|destruct data; reflexivity|]. rewrite run_nil, !leave_same, run_nil. closed.
Qed.
Lemma PutString_source n l b x : effect l b (PutString x) (go (S (S (S n))) "Encoder.PutString" [VRef l; VStr x]).
Proof.
  eapply body with (E := [("e", VRef l); ("s", VStr x)]); [reflexivity..|]. intros s e He. text. rewrite run_cons.
  destruct (call_stmt (go (S (S n))) (S (S n)) "PutInt16" (EConv (GInt I16) (ELen (EVar "s"))) [("e", VRef l); ("s", VStr x)] s l b e (VInt I16 (int16 (zlen x))) (PutInt16 (int16 (zlen x)))) as (s1 & -> & H1 & F1);
    [reflexivity|exact He|reflexivity|apply PutInt16_source|].
  rewrite run_cons. erewrite ok_test; [|reflexivity|exact H1]. unfold PutString. cbn zeta. destruct (e_err (PutInt16 (int16 (zlen x)) e)).
  - rewrite run_nil. closed.
  - rewrite run_cons. destruct (write_string_stmt (S n) (S (S n)) "s" [("e", VRef l); ("s", VStr x)] s1 l b _ x eq_refl eq_refl H1) as (s2 & -> & H2 & F2). rewrite run_nil, !leave_same, run_nil. closed.
Qed.
Lemma PutNullableString_source n l b x : effect l b (PutNullableString x) (go (S (S (S (S n)))) "Encoder.PutNullableString" [VRef l; pointer_val x]).
Proof.
  eapply body with (E := [("e", VRef l); ("s", pointer_val x)]); [reflexivity..|destruct x; reflexivity|]. intros s e He. text. rewrite run_cons, exec_if. destruct x as [x|]; cbn [pointer_val].
  - cbn [eval lookup String.eqb Ascii.eqb Bool.eqb opt rbind binary is_nil option_map]. rewrite run_nil, !leave_same, run_cons.
    destruct (call_stmt (go (S (S (S n)))) (S (S (S n))) "PutString" (EDeref (EVar "s")) [("e", VRef l); ("s", VBox (VStr x))] s l b e (VStr x) (PutString x)) as (s1 & -> & H1 & F1); [reflexivity|exact He|reflexivity|apply PutString_source|].
    rewrite run_nil. closed.
  - cbn [eval lookup String.eqb Ascii.eqb Bool.eqb opt rbind binary is_nil option_map]. rewrite run_cons.
    destruct (call_stmt (go (S (S (S n)))) (S (S (S n))) "PutInt16" (ENeg (EInt 1)) [("e", VRef l); ("s", VNil)] s l b e (VConst (-1)) (PutInt16 (-1))) as (s1 & -> & H1 & F1); [reflexivity|exact He|reflexivity| |].
    { apply (effect_const (S (S n)) "Encoder.PutInt16" go_Encoder_PutInt16 I16 "i" (-1) l b _ eq_refl eq_refl eq_refl). apply PutInt16_source. }
    rewrite run_cons. cbn [exec eval_values eval_all rbind leave_block]. exists (Leave []), s1. split; [reflexivity|]. split; [left; reflexivity|]. split; assumption.
Qed.
(** for _, x := range xs { e.PutX(x) } *)
Lemma foreach_stmt {A} c0 k y x (xs : list A) (g : A -> Encoder -> Encoder) (inj : A -> val) m E l b v : lookup "e" E = Some (VRef l) -> x <> "e" -> String.eqb x "_" = false -> lookup y E = Some v -> (forall h, v <> VCell h) ->
  elements v = Some (map inj xs) -> (forall a h, inj a <> VCell h) -> (forall a, effect l b (g a) (c0 ("Encoder." ++ m)%string [VRef l; inj a])) ->
  forall s e, holds l b e s -> exists s', exec W R scribble prog c0 k (SRange "_" x (EVar y) [SExpr (EMethod (EVar "e") m [EVar x])]) E s = Ok (On E) s' /\ holds l b (foreach g xs e) s' /\ kept l s s'.
Proof.
  intros HE Hx Hu Hy Nv Hv Ni Hg s e He. rewrite exec_range. cbn [eval]. rewrite Hy. cbn [opt rbind].
  replace (match v with VCell l0 => match nth_error (heap s) l0 with Some (CStruct t fs) => Ok (VStruct t fs) s | _ => Stuck end | _ => Ok v s end) with (Ok v s) by (destruct v; try reflexivity; exfalso; eapply Nv; reflexivity).
  cbn [rbind]. rewrite Hv. cbn [opt rbind]. clear Hv. revert s e He. induction xs as [|a xs IH]; intros s e He; cbn [map each].
  - exists s. split; [reflexivity|]. split; [exact He|apply kept_refl].
  - rewrite run_cons.
    destruct (call_stmt c0 k m (EVar x) ((x, inj a) :: E) s l b e (inj a) (g a)) as (s1 & C1 & H1 & F1).
    + cbn [lookup]. destruct (String.eqb_spec "e" x); [congruence|exact HE].
    + exact He.
    + cbn [eval lookup]. rewrite String.eqb_refl. cbn [opt rbind]. specialize (Ni a). destruct (inj a); try reflexivity. exfalso. eapply Ni. reflexivity.
    + apply Hg.
    + replace (declare x (inj a) E) with ((x, inj a) :: E) by (unfold declare; rewrite Hu; reflexivity). rewrite C1, run_nil. cbn [leave_block rbind]. replace (skipn _ _) with E by (cbn [length]; rewrite Nat.sub_succ_l by lia; rewrite Nat.sub_diag; reflexivity).
      destruct (IH s1 (g a e) H1) as (s2 & C2 & H2 & F2). exists s2. split; [exact C2|]. split; [exact H2|eapply kept_trans; eassumption].
Qed.
Lemma PutInt32Array_source n l b (ii : gslice (Z)) : effect l b (PutInt32Array ii) (go (S (S (S (S n)))) "Encoder.PutInt32Array" [VRef l; slice_val (VInts I32) ii]).
Proof.
  eapply body with (E := [("e", VRef l); ("ii", slice_val (VInts I32) ii)]); [reflexivity..|destruct ii; reflexivity|]. opened. rewrite run_cons, exec_if. destruct ii as [ii|]; cbn [slice_val].
  - cbn [eval lookup String.eqb Ascii.eqb Bool.eqb opt rbind binary is_nil option_map]. rewrite run_nil, !leave_same, run_cons.
    change (exec W R scribble prog (go (S (S (S n)))) (S (S (S n))) (SDefine ["length"] [ELen (EVar "ii")]) [("e", VRef l); ("ii", VInts I32 ii)] s) with (Ok (On [("length", VInt INT (zlen ii)); ("e", VRef l); ("ii", VInts I32 ii)]) s).
    cbv beta iota. rewrite run_cons.
    destruct (call_stmt (go (S (S (S n)))) (S (S (S n))) "PutArrayLength" (EVar "length") [("length", VInt INT (zlen ii)); ("e", VRef l); ("ii", VInts I32 ii)] s l b e (VInt INT (zlen ii)) (PutArrayLength (zlen ii))) as (s1 & -> & H1 & F1);
      [reflexivity|exact He|reflexivity|apply PutArrayLength_source|]. rewrite run_cons.
    destruct (foreach_stmt (go (S (S (S n)))) (S (S (S n))) "ii" "i" ii PutInt32 (VInt I32) "PutInt32" [("length", VInt INT (zlen ii)); ("e", VRef l); ("ii", VInts I32 ii)] l b (VInts I32 ii)) with (s := s1) (e := PutArrayLength (zlen ii) e) as (s2 & -> & H2 & F2);
      [reflexivity|discriminate|reflexivity|reflexivity|discriminate|reflexivity|discriminate|intros a; apply PutInt32_source|exact H1|]. rewrite run_nil. closed.
  - cbn [eval lookup String.eqb Ascii.eqb Bool.eqb opt rbind binary is_nil option_map]. rewrite run_cons.
    destruct (call_stmt (go (S (S (S n)))) (S (S (S n))) "PutInt32" (ENeg (EInt 1)) [("e", VRef l); ("ii", VNil)] s l b e (VConst (-1)) (PutInt32 (-1))) as (s1 & -> & H1 & F1); [reflexivity|exact He|reflexivity| |].
    { apply (effect_const (S (S n)) "Encoder.PutInt32" go_Encoder_PutInt32 I32 "i" (-1) l b _ eq_refl eq_refl eq_refl). apply PutInt32_source. }
    rewrite run_cons. cbn [exec eval_values eval_all rbind leave_block]. exists (Leave []), s1. split; [reflexivity|]. split; [left; reflexivity|]. split; assumption.
Qed.
Lemma PutInt64Array_source n l b (ii : gslice (Z)) : effect l b (PutInt64Array ii) (go (S (S (S (S n)))) "Encoder.PutInt64Array" [VRef l; slice_val (VInts I64) ii]).
Proof.
  eapply body with (E := [("e", VRef l); ("ii", slice_val (VInts I64) ii)]); [reflexivity..|destruct ii; reflexivity|]. opened. rewrite run_cons, exec_if. destruct ii as [ii|]; cbn [slice_val].
  - cbn [eval lookup String.eqb Ascii.eqb Bool.eqb opt rbind binary is_nil option_map]. rewrite run_nil, !leave_same, run_cons.
    change (exec W R scribble prog (go (S (S (S n)))) (S (S (S n))) (SDefine ["length"] [ELen (EVar "ii")]) [("e", VRef l); ("ii", VInts I64 ii)] s) with (Ok (On [("length", VInt INT (zlen ii)); ("e", VRef l); ("ii", VInts I64 ii)]) s).
    cbv beta iota. rewrite run_cons.
    destruct (call_stmt (go (S (S (S n)))) (S (S (S n))) "PutArrayLength" (EVar "length") [("length", VInt INT (zlen ii)); ("e", VRef l); ("ii", VInts I64 ii)] s l b e (VInt INT (zlen ii)) (PutArrayLength (zlen ii))) as (s1 & -> & H1 & F1);
      [reflexivity|exact He|reflexivity|apply PutArrayLength_source|]. rewrite run_cons.
    destruct (foreach_stmt (go (S (S (S n)))) (S (S (S n))) "ii" "i" ii PutInt64 (VInt I64) "PutInt64" [("length", VInt INT (zlen ii)); ("e", VRef l); ("ii", VInts I64 ii)] l b (VInts I64 ii)) with (s := s1) (e := PutArrayLength (zlen ii) e) as (s2 & -> & H2 & F2);
      [reflexivity|discriminate|reflexivity|reflexivity|discriminate|reflexivity|discriminate|intros a; apply PutInt64_source|exact H1|]. rewrite run_nil. closed.
  - cbn [eval lookup String.eqb Ascii.eqb Bool.eqb opt rbind binary is_nil option_map]. rewrite run_cons.
    destruct (call_stmt (go (S (S (S n)))) (S (S (S n))) "PutInt32" (ENeg (EInt 1)) [("e", VRef l); ("ii", VNil)] s l b e (VConst (-1)) (PutInt32 (-1))) as (s1 & -> & H1 & F1); [reflexivity|exact He|reflexivity| |].
    { apply (effect_const (S (S n)) "Encoder.PutInt32" go_Encoder_PutInt32 I32 "i" (-1) l b _ eq_refl eq_refl eq_refl). apply PutInt32_source. }
    rewrite run_cons. cbn [exec eval_values eval_all rbind leave_block]. exists (Leave []), s1. split; [reflexivity|]. split; [left; reflexivity|]. split; assumption.
Qed.
Lemma PutStringArray_source n l b (ii : gslice (list Z)) : effect l b (PutStringArray ii) (go (S (S (S (S n)))) "Encoder.PutStringArray" [VRef l; slice_val VStrs ii]).
Proof.
  eapply body with (E := [("e", VRef l); ("ss", slice_val VStrs ii)]); [reflexivity..|destruct ii; reflexivity|]. opened. rewrite run_cons, exec_if. destruct ii as [ii|]; cbn [slice_val].
  - cbn [eval lookup String.eqb Ascii.eqb Bool.eqb opt rbind binary is_nil option_map]. rewrite run_nil, !leave_same, run_cons.
    change (exec W R scribble prog (go (S (S (S n)))) (S (S (S n))) (SDefine ["length"] [ELen (EVar "ss")]) [("e", VRef l); ("ss", VStrs ii)] s) with (Ok (On [("length", VInt INT (zlen ii)); ("e", VRef l); ("ss", VStrs ii)]) s).
    cbv beta iota. rewrite run_cons.
    destruct (call_stmt (go (S (S (S n)))) (S (S (S n))) "PutArrayLength" (EVar "length") [("length", VInt INT (zlen ii)); ("e", VRef l); ("ss", VStrs ii)] s l b e (VInt INT (zlen ii)) (PutArrayLength (zlen ii))) as (s1 & -> & H1 & F1);
      [reflexivity|exact He|reflexivity|apply PutArrayLength_source|]. rewrite run_cons.
    destruct (foreach_stmt (go (S (S (S n)))) (S (S (S n))) "ss" "s" ii PutString VStr "PutString" [("length", VInt INT (zlen ii)); ("e", VRef l); ("ss", VStrs ii)] l b (VStrs ii)) with (s := s1) (e := PutArrayLength (zlen ii) e) as (s2 & -> & H2 & F2);
      [reflexivity|discriminate|reflexivity|reflexivity|discriminate|reflexivity|discriminate|intros a; apply PutString_source|exact H1|]. rewrite run_nil. closed.
  - cbn [eval lookup String.eqb Ascii.eqb Bool.eqb opt rbind binary is_nil option_map]. rewrite run_cons.
    destruct (call_stmt (go (S (S (S n)))) (S (S (S n))) "PutInt32" (ENeg (EInt 1)) [("e", VRef l); ("ss", VNil)] s l b e (VConst (-1)) (PutInt32 (-1))) as (s1 & -> & H1 & F1); [reflexivity|exact He|reflexivity| |].
    { apply (effect_const (S (S n)) "Encoder.PutInt32" go_Encoder_PutInt32 I32 "i" (-1) l b _ eq_refl eq_refl eq_refl). apply PutInt32_source. }
    rewrite run_cons. cbn [exec eval_values eval_all rbind leave_block]. exists (Leave []), s1. split; [reflexivity|]. split; [left; reflexivity|]. split; assumption.
Qed.
Lemma PutVarInt_source n l b i : effect l b (PutVarInt i) (go (S (S n)) "Encoder.PutVarInt" [VRef l; VInt I64 i]).
Proof.
  eapply body with (E := [("e", VRef l); ("i", VInt I64 i)]); [reflexivity..|]. opened. destruct (put_varint i) as [bs|] eqn:Eb; [|destruct (put_varint_total i) as (bs & Hb & _); congruence].
  rewrite run_cons.
  assert (Q : exists s', exec W R scribble prog (go (S n)) (S n) (SDefine ["length"] [ECall "binary.PutVarint" [ESlice (EField (EVar "e") "buf") None None None; EVar "i"]]) [("e", VRef l); ("i", VInt I64 i)] s =
      Ok (On [("length", VInt INT (zlen bs)); ("e", VRef l); ("i", VInt I64 i)]) s' /\ holds l b e s' /\ kept l s s' /\ front b bs s' /\ zlen bs <= 16).
  { pose proof He as (A & (buf & B & L16) & _). destruct (store_uvarint_ok 16 17 0 (zigzag i) buf bs Eb) as (buf' & S1 & L1 & F1 & L2); [lia|lia|]. exists (set_cell b (CArray buf') s). split.
    - unfold encoder_cell in A. crunch. rewrite A. crunch. rewrite B. crunch. unfold slice. rewrite zlen16 by exact L16. cbn [andb Z.leb Z.compare Pos.compare Pos.compare_cont]. library. rewrite B. change (Z.to_nat 0) with O.
      change (Z.to_nat 16) with 16%nat. rewrite firstn_all2 by lia. rewrite S1. cbv beta iota. match goal with |- context [buf' ++ ?r] => change r with (skipn 16 buf) end. rewrite skipn_all2 by lia. rewrite app_nil_r, Z.sub_0_r. unfold zlen. reflexivity.
    - split; [eapply holds_array; [exact He|exact B|lia]|]. split; [eapply kept_array, B|]. split; [|unfold zlen; lia]. exists buf'. split; [eapply at_set, B|]. split; [lia|exact F1]. }
  destruct Q as (s1 & -> & H1 & F1 & B1 & Hb). rewrite run_cons.
  destruct (write_front (go (S n)) (S n) [("length", VInt INT (zlen bs)); ("e", VRef l); ("i", VInt I64 i)] s1 l b e bs (Some 0) (EVar "length") eq_refl H1 B1 Hb eq_refl) as (s2 & Q2 & H2 & F2);
    [eexists; split; reflexivity|].
  cbn [option_map] in Q2. rewrite Q2, run_nil. closed.
Qed.
Lemma PutVarBytes_source n l b data : effect l b (PutVarBytes data) (go (S (S (S n))) "Encoder.PutVarBytes" [VRef l; bytes_val data]).
Proof.
  eapply body with (E := [("e", VRef l); ("data", bytes_val data)]); [reflexivity..|destruct data; reflexivity|]. opened. rewrite run_cons.
  destruct (call_stmt (go (S (S n))) (S (S n)) "PutVarInt" (EConv (GInt I64) (ELen (EVar "data"))) [("e", VRef l); ("data", bytes_val data)] s l b e (VInt I64 (int64 (glen data))) (PutVarInt (int64 (glen data)))) as (s1 & -> & H1 & F1);
    [reflexivity|exact He|destruct data; reflexivity|apply PutVarInt_source|].
  rewrite run_cons. destruct (write_stmt (go (S (S n))) (S (S n)) (EVar "data") [("e", VRef l); ("data", bytes_val data)] s1 l b _ (bytes_val data) (items data) eq_refl H1) as (s2 & -> & H2 & F2);
      [destruct data; reflexivity|destruct data; reflexivity|]. rewrite run_nil. closed.
Qed.
(** for _, i := range s { ... } of PutVarString *)
Definition put_rune_body := 
  [SDefine ["length"] [(ECall "utf8.EncodeRune" [(ESlice (EField (EVar "e") "buf") None None None); (EConv (GInt I32) (EVar "i"))])];
      SAssign [(EVar "_"); (EField (EVar "e") "err")] [(EMethod (EField (EVar "e") "target") "Write" [(ESlice (EField (EVar "e") "buf") (Some (EInt 0)) (Some (EVar "length")) None)])];
      SIf [] (EBin Ne (EField (EVar "e") "err") ENil)
       [SReturn []]
       []].
Lemma runes_loop n k l b E : lookup "e" E = Some (VRef l) -> forall rs s e, Forall (fun r => - 2 ^ 31 <= r < 2 ^ 31) rs -> holds l b e s ->
  exists fl s', each (map (VInt I32) rs) (fun v E s => leave_block E (run W R scribble prog (go (S n)) k put_rune_body (declare "i" v E) s)) E s = Ok fl s' /\ (fl = Leave [] \/ fl = On E) /\ holds l b (put_runes rs e) s' /\ kept l s s'.
Proof.
  intros HE. induction rs as [|r rs IH]; intros s e Hr He; cbn [map each put_runes].
  - exists (On E), s. split; [reflexivity|]. split; [right; reflexivity|]. split; [exact He|apply kept_refl].
  - unfold put_rune_body at 1. rewrite run_cons. change (declare "i" (VInt I32 r) E) with (("i", VInt I32 r) :: E). inversion Hr as [|? ? Hr1 Hr2]; subst.
    assert (Q : exists s', exec W R scribble prog (go (S n)) k (SDefine ["length"] [ECall "utf8.EncodeRune" [ESlice (EField (EVar "e") "buf") None None None; EConv (GInt I32) (EVar "i")]]) (("i", VInt I32 r) :: E) s =
      Ok (On (("length", VInt INT (zlen (encode_rune r))) :: ("i", VInt I32 r) :: E)) s' /\ holds l b e s' /\ kept l s s' /\ front b (encode_rune r) s').
    { assert (Hw : zlen (encode_rune r) <= 16 <= 16) by (pose proof (encode_rune_short r); unfold zlen; lia).
      destruct (poked l b e s (encode_rune r) 16 He Hw) as (s' & D & H' & F' & B'). exists s'. split; [|auto]. pose proof He as (A & (buf & B & L16) & _).
      cbn [exec eval_values eval lookup String.eqb Ascii.eqb Bool.eqb]. rewrite HE. cbn [opt rbind]. rewrite A. unfold encoder_cell. cbn [lookup String.eqb Ascii.eqb Bool.eqb opt rbind].
      unfold slice_of. rewrite B. unfold slice. rewrite zlen16 by exact L16. cbn [andb Z.leb Z.compare Pos.compare Pos.compare_cont guard rbind lookup String.eqb Ascii.eqb Bool.eqb opt convert conv].
      replace (int32 r) with r by (symmetry; apply wrap_id; [lia|exact Hr1]). erewrite called_lib by reflexivity. cbv beta iota zeta. rewrite D. reflexivity. }
    destruct Q as (s1 & -> & H1 & F1 & B1). rewrite run_cons. 
    destruct (write_front (go (S n)) k (("length", VInt INT (zlen (encode_rune r))) :: ("i", VInt I32 r) :: E) s1 l b e (encode_rune r) (Some 0) (EVar "length") HE H1 B1) as (s2 & Q2 & H2 & F2);
      [pose proof (encode_rune_short r); unfold zlen; lia|reflexivity|eexists; split; reflexivity|].
    cbn [option_map] in Q2. rewrite Q2. erewrite err_test; [|exact HE|exact H2]. cbn zeta. destruct (e_err (write (encode_rune r) e)).
    + exists (Leave []), s2. split; [reflexivity|]. split; [left; reflexivity|]. split; [exact H2|eapply kept_trans; eassumption].
    + rewrite run_nil. cbn [leave_block rbind]. replace (skipn _ _) with E by (cbn [length]; rewrite !Nat.sub_succ_l by lia; rewrite Nat.sub_diag; reflexivity).
      destruct (IH s2 _ Hr2 H2) as (fl & s3 & C3 & K3 & H3 & F3). exists fl, s3. split; [exact C3|]. split; [exact K3|]. split; [exact H3|eauto using kept_trans].
Qed.
Lemma PutVarString_source n l b x : Forall is_byte x -> effect l b (PutVarString x) (go (S (S (S n))) "Encoder.PutVarString" [VRef l; VStr x]).
Proof.
  intros Hx. eapply body with (E := [("e", VRef l); ("s", VStr x)]); [reflexivity..|]. opened. rewrite run_cons.
  destruct (call_stmt (go (S (S n))) (S (S n)) "PutVarInt" (EConv (GInt I64) (ELen (EVar "s"))) [("e", VRef l); ("s", VStr x)] s l b e (VInt I64 (int64 (zlen x))) (PutVarInt (int64 (zlen x)))) as (s1 & -> & H1 & F1);
    [reflexivity|exact He|reflexivity|apply PutVarInt_source|].
  rewrite run_cons, exec_range. fold put_rune_body. cbn [eval lookup String.eqb Ascii.eqb Bool.eqb opt rbind elements].
  destruct (runes_loop (S n) (S (S n)) l b [("e", VRef l); ("s", VStr x)] eq_refl (runes x) s1 _ (runes_int32 _ x Hx) H1) as (fl & s2 & -> & K2 & H2 & F2).
  destruct K2 as [->| ->]; [|rewrite run_nil]; eexists; exists s2; (split; [reflexivity|]); (split; [eauto|]); (split; [exact H2|eapply kept_trans; eassumption]).
Qed.
(** e.PutX(a, b) *)
Lemma PutRecordHeader_source n l b x y : Forall is_byte x -> Forall is_byte y -> effect l b (PutRecordHeader x y) (go (S (S (S (S n)))) "Encoder.PutRecordHeader" [VRef l; VStr x; VStr y]).
Proof.
  intros Hx Hy. eapply body with (E := [("e", VRef l); ("key", VStr x); ("value", VStr y)]); [reflexivity..|]. opened. rewrite run_cons.
  destruct (call_stmt (go (S (S (S n)))) (S (S (S n))) "PutVarString" (EVar "key") [("e", VRef l); ("key", VStr x); ("value", VStr y)] s l b e (VStr x) (PutVarString x)) as (s1 & -> & H1 & F1);
    [reflexivity|exact He|reflexivity|apply PutVarString_source, Hx|]. rewrite run_cons.
  destruct (call_stmt (go (S (S (S n)))) (S (S (S n))) "PutVarString" (EVar "value") [("e", VRef l); ("key", VStr x); ("value", VStr y)] s1 l b (PutVarString x e) (VStr y) (PutVarString y)) as (s2 & -> & H2 & F2);
    [reflexivity|exact H1|reflexivity|apply PutVarString_source, Hy|]. rewrite run_nil.
  closed.
Qed.
Lemma Flush_source n l b e s : holds l b e s -> go (S n) "Encoder.Flush" [VRef l] s = Ok (as_error (Flush e)) s.
Proof.
  intros (A & _ & C). enter. text. rewrite run_cons. unfold encoder_cell in A. crunch. rewrite A. crunch. unfold Flush. destruct (e_err e); crunch; [rewrite A; reflexivity|].
  crunch. rewrite run_cons. crunch. rewrite A. crunch. rewrite C. destruct (t_flush (e_target e)) eqn:Ef; crunch.
  - unfold writer_method. rewrite C, Ef. crunch. destruct (o _); reflexivity.
  - rewrite run_cons. reflexivity.
Qed.
End Source.
Lemma NewEncoder_source late room scribble prog width n s : lookup "message.NewEncoder" (k_funcs prog) = Some go_message_NewEncoder ->
  lookup "Encoder" (k_types prog) = lookup "Encoder" (k_types source) ->
  exists s', call width late room scribble prog (S n) "message.NewEncoder" [VWriter] s = Ok (VRef (S (length (heap s)))) s' /\
    holds (S (length (heap s))) (length (heap s)) (NewEncoder (world s)) s' /\ (forall k, (k < length (heap s))%nat -> nth_error (heap s') k = nth_error (heap s) k).
Proof.
  intros HF HT. destruct s as [h w]. eexists. split; [|split].
  - cbn [call]. rewrite HF. 
    change (lookup "message.NewEncoder" (lib_table late scribble)) with (@None (list val -> state -> res val)). unfold go_message_NewEncoder, invoke, run. cbn. unfold new_struct. rewrite HT. cbn. rewrite app_length, Nat.add_1_r. reflexivity.
  - cbn [heap]. split; [|split].
    + cbn [heap]. rewrite nth_error_app2 by (rewrite app_length; cbn [length]; lia). rewrite app_length. cbn [length]. rewrite Nat.add_1_r, Nat.sub_diag. reflexivity.
    + exists (repeat 0 16). split; [|reflexivity]. cbn [heap]. rewrite nth_error_app1 by (rewrite app_length; cbn [length]; lia). rewrite nth_error_app2 by lia. rewrite Nat.sub_diag. reflexivity.
    + reflexivity.
  - intros k Hk. cbn [heap] in *. rewrite !nth_error_app1 by (rewrite ?app_length; cbn [length]; lia). reflexivity.
Qed.
