(** * The source does what the model says *)
From Coq Require Import String.
From Verif Require Import GoBase GoLemmas Binary Utf8 Decoder Encoder SchemaSpec Platform PlatformSpec PlatformProofs Scratch GoLang Source SourceSpec SourceBase.
From Coq Require Import Lia ZArith.
Local Open Scope string_scope.
Local Open Scope list_scope.
Local Open Scope Z_scope.

Section Source.
Context (P : platform) (GP : go_platform P) (structs : string -> ty) (scribble : list (list Z) -> list Z -> list Z) (prog : package) (X : extends prog source).
Notation W := (p_int P).
Notation L := (p_late P).
Notation R := (room_of P structs).
Notation go := (call W L R scribble prog).


Lemma remains_source n s l d k : nth_error (heap s) l = Some (decoder_cell d) ->
  go (S n) "Decoder.remains" [VRef l; VInt INT k] s = Ok (if p_remains P k d then VNil else VErr ErrShortBuffer) s.
Proof.
  start H. unfold p_remains, pint. destruct (_ <? _); crunch; look; reflexivity.
Qed.
Lemma remains_const n s l k : go (S n) "Decoder.remains" [VRef l; VConst k] s = go (S n) "Decoder.remains" [VRef l; VInt INT (wrap W k)] s.
Proof. erewrite !(called _ _ _ _ X) by reflexivity. reflexivity. Qed.
Lemma Reset_source n s l d k : nth_error (heap s) l = Some (decoder_cell d) ->
  go (S n) "Decoder.Reset" [VRef l; VInt INT k] s = Ok (VTuple []) (set_cell l (decoder_cell (Reset k d)) s).
Proof. start H. reflexivity. Qed.
Ltac remaining k d := rewrite ?remains_const; look; erewrite (remains_source _ _ _ d k) by eassumption; crunch; destruct (p_remains P k d); crunch; look.
Lemma Discard_source n s l d k : nth_error (heap s) l = Some (decoder_cell d) ->
  go (S (S n)) "Decoder.Discard" [VRef l; VInt INT k] s =
    match pDiscard P k d with DOk _ d' => Ok VNil (set_cell l (decoder_cell d') s) | DErr e d' => Ok (VErr e) (set_cell l (decoder_cell d') s) | DPanic => Panic end.
Proof.
  start H. unfold pDiscard. remaining k d; [reflexivity|]. rewrite set_same by exact H. reflexivity.
Qed.
(** The index expression of Bool and Int8 and the slice expression of the others. *)
Lemma skipn_nth {A} : forall n (l : list A), skipn n l = match nth_error l n with Some x => x :: skipn (S n) l | None => [] end.
Proof. induction n as [|n IH]; intros [|x l]; cbn; try reflexivity. rewrite IH. destruct (nth_error l n); reflexivity. Qed.
Lemma slice_from_skipn (l : list Z) i : slice_from l i = if (0 <=? i) && (i <=? zlen l) then Some (skipn (Z.to_nat i) l) else None.
Proof.
  unfold slice_from, slice. rewrite Z.leb_refl, andb_true_r. destruct (_ && _) eqn:E; [|reflexivity].
  f_equal. apply firstn_all2. rewrite skipn_length. unfold zlen in *. lia.
Qed.
Lemma index_head (l : list Z) i : index l i = match slice_from l i with Some (x :: _) => Some x | _ => None end.
Proof.
  rewrite slice_from_skipn. unfold index. destruct (0 <=? i) eqn:E; [|reflexivity]. cbn. rewrite skipn_nth. unfold zlen.
  destruct (nth_error l (Z.to_nat i)) eqn:N.
  - assert (Z.to_nat i < length l)%nat by (apply nth_error_Some; congruence). replace (i <=? _) with true by lia. reflexivity.
  - destruct (i <=? _); reflexivity.
Qed.
Lemma slice_all (l : list Z) i : slice l i (zlen l) = slice_from l i.
Proof. reflexivity. Qed.
Lemma Bool_source n s l d : nth_error (heap s) l = Some (decoder_cell d) ->
  go (S (S n)) "Decoder.Bool" [VRef l] s = outcome VBool (VBool false) l s (pBool P d).
Proof.
  start H. unfold pBool, p_fixed, outcome. remaining 1 d; [|rewrite set_same by exact H; reflexivity].
  rewrite index_head. destruct (slice_from _ _) as [[|x r]|]; crunch; try reflexivity. look. unfold conv, uint8. reflexivity.
Qed.
Lemma Int8_source n s l d : nth_error (heap s) l = Some (decoder_cell d) ->
  go (S (S n)) "Decoder.Int8" [VRef l] s = outcome (VInt I8) (VInt I8 0) l s (pInt8 P d).
Proof.
  start H. unfold pInt8, p_fixed, outcome. remaining 1 d; [|rewrite set_same by exact H; reflexivity].
  rewrite index_head. destruct (slice_from _ _) as [[|x r]|]; crunch; try reflexivity. look. reflexivity.
Qed.
Ltac fixed H k d := remaining k d; [|rewrite set_same by exact H; reflexivity];
  rewrite slice_all; destruct (slice_from _ _) as [b|]; crunch; [|reflexivity]; library.
Lemma Int16_source n s l d : nth_error (heap s) l = Some (decoder_cell d) ->
  go (S (S n)) "Decoder.Int16" [VRef l] s = outcome (VInt I16) (VInt I16 0) l s (pInt16 P d).
Proof. start H. unfold pInt16, p_fixed, outcome. fixed H 2 d. destruct (get_uint16 b); crunch; look; reflexivity. Qed.
Lemma Int32_source n s l d : nth_error (heap s) l = Some (decoder_cell d) ->
  go (S (S n)) "Decoder.Int32" [VRef l] s = outcome (VInt I32) (VInt I32 0) l s (pInt32 P d).
Proof. start H. unfold pInt32, p_fixed, outcome. fixed H 4 d. destruct (get_uint32 b); crunch; look; reflexivity. Qed.
Lemma Int64_source n s l d : nth_error (heap s) l = Some (decoder_cell d) ->
  go (S (S n)) "Decoder.Int64" [VRef l] s = outcome (VInt I64) (VInt I64 0) l s (pInt64 P d).
Proof. start H. unfold pInt64, p_fixed, outcome. fixed H 8 d. destruct (get_uint64 b); crunch; look; reflexivity. Qed.
Lemma ArrayLength_source n s l d : nth_error (heap s) l = Some (decoder_cell d) ->
  go (S (S (S n))) "Decoder.ArrayLength" [VRef l] s = outcome (VInt INT) (VInt INT 0) l s (pArrayLength P d).
Proof.
  start H. rewrite (Int32_source n s l d H). unfold pArrayLength, bind, outcome. destruct (pInt32 P d) as [v d'|e d'|]; [| |reflexivity].
  - unfold ret. settled s l d' H s' H' S'. reflexivity.
  - settled s l d' H s' H' S'. reflexivity.
Qed.
(** The tail of Bytes, String and VarBytes: check, slice, advance. *)
Ltac taken k d H S' := unfold p_take; remaining k d; [rewrite ?Z.eqb_refl; crunch; destruct (slice _ _ _); crunch; look; rewrite ?S'; reflexivity|rewrite <- S', set_same by exact H; reflexivity].
Lemma Bytes_source n s l d : nth_error (heap s) l = Some (decoder_cell d) ->
  go (S (S (S n))) "Decoder.Bytes" [VRef l] s = outcome (slice_val (VInts U8)) VNil l s (pBytes P d).
Proof.
  start H. rewrite (Int32_source n s l d H). unfold pBytes, bind, outcome. destruct (pInt32 P d) as [v d'|e d'|]; [| |reflexivity].
  - settled s l d' H s' H' S'. fold (pint P v). taken (pint P v) d' H' S'.
  - settled s l d' H s' H' S'. reflexivity.
Qed.
Lemma String_source n s l d : nth_error (heap s) l = Some (decoder_cell d) ->
  go (S (S (S n))) "Decoder.String" [VRef l] s = outcome VStr (VStr []) l s (pString P d).
Proof.
  start H. rewrite (Int16_source n s l d H). unfold pString, bind, outcome. destruct (pInt16 P d) as [v d'|e d'|]; [| |reflexivity].
  - settled s l d' H s' H' S'. change (int16 (- (1))) with (-1). destruct (v =? -1); crunch; look; unfold ret.
    + rewrite <- S', set_same by exact H'. reflexivity.
    + fold (pint P v). taken (pint P v) d' H' S'.
  - settled s l d' H s' H' S'. reflexivity.
Qed.
Lemma NullableString_source n s l d : nth_error (heap s) l = Some (decoder_cell d) ->
  go (S (S (S (S n)))) "Decoder.NullableString" [VRef l] s = outcome pointer_val VNil l s (pNullableString P d).
Proof.
  start H. rewrite (String_source n s l d H). unfold pNullableString, bind, outcome, ret. destruct (pString P d) as [v d'|e d'|]; [| |reflexivity].
  - settled s l d' H s' H' S'. reflexivity.
  - settled s l d' H s' H' S'. reflexivity.
Qed.
Lemma VarInt_source n s l d : nth_error (heap s) l = Some (decoder_cell d) ->
  go (S (S n)) "Decoder.VarInt" [VRef l] s = outcome (VInt I64) (VInt I64 0) l s (pVarInt P d).
Proof.
  start H. rewrite slice_all. unfold pVarInt, outcome. destruct (slice_from _ _) as [b|]; crunch; [|reflexivity]. library.
  set (r := if L then late_varint b else varint b). destruct r as [tmp k]. crunch. look.
  destruct (k =? 0); crunch; look; [reflexivity|]. change (- (1)) with (-1). look. destruct (k =? -1); crunch; look; reflexivity.
Qed.
Lemma VarBytes_source n s l d : nth_error (heap s) l = Some (decoder_cell d) ->
  go (S (S (S n))) "Decoder.VarBytes" [VRef l] s = outcome (slice_val (VInts U8)) VNil l s (pVarBytes P d).
Proof.
  start H. rewrite (VarInt_source n s l d H). unfold pVarBytes, bind, outcome. destruct (pVarInt P d) as [v d'|e d'|]; [| |reflexivity].
  - settled s l d' H s' H' S'. fold (pint P v). taken (pint P v) d' H' S'.
  - settled s l d' H s' H' S'. reflexivity.
Qed.
End Source.
