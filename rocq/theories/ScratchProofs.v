(** * The encoder with its scratch array writes what the one without writes (C09) *)
From Verif Require Import GoBase GoLemmas Binary Utf8 Encoder Decoder Sizeof Spec SchemaSpec EncProofs VarProofs Schema Link RecordBatch Calls Scratch.
Local Open Scope Z_scope.
Local Open Scope list_scope.
Ltac Zify.zify_post_hook ::= idtac.

Lemma store_ok i b buf : (i < length buf)%nat -> exists buf', store i b buf = Some buf' /\ length buf' = length buf /\ firstn (S i) buf' = firstn i buf ++ [b].
Proof.
  intros H. unfold store. destruct (Nat.ltb_spec i (length buf)); [|lia]. eexists. split; [reflexivity|]. split.
  - rewrite app_length, firstn_length. cbn [length]. rewrite skipn_length. lia.
  - replace (S i) with (length (firstn i buf) + 1)%nat at 1 by (rewrite firstn_length; lia). rewrite firstn_app_2. reflexivity.
Qed.
Lemma store_all_ok bs : forall i buf, (i + length bs <= length buf)%nat -> exists buf', store_all i bs buf = Some buf' /\ length buf' = length buf /\ firstn (i + length bs) buf' = firstn i buf ++ bs.
Proof.
  induction bs as [|b bs IH]; intros i buf H; cbn [store_all length] in *; [exists buf; rewrite Nat.add_0_r, app_nil_r; auto|].
  destruct (store_ok i b buf) as (b1 & -> & L1 & F1); [lia|]. destruct (IH (S i) b1) as (b2 & -> & L2 & F2); [lia|]. exists b2. split; [reflexivity|]. split; [lia|].
  rewrite <- plus_n_Sm. rewrite Nat.add_succ_l in F2. rewrite F2, F1, <- app_assoc. reflexivity.
Qed.
Lemma store_uvarint_ok room : forall rounds i x buf bs, put_uvarint room x = Some bs -> (room < rounds)%nat -> (i + room <= length buf)%nat ->
  exists buf', store_uvarint rounds i x buf = Some (buf', (i + length bs)%nat) /\ length buf' = length buf /\ firstn (i + length bs) buf' = firstn i buf ++ bs /\ (length bs <= room)%nat.
Proof.
  induction room as [|room IH]; intros [|rounds] i x buf bs H Hr Hi; try discriminate H; try lia. cbn [put_uvarint] in H. cbn [store_uvarint].
  destruct (128 <=? x).
  - destruct (put_uvarint room (Z.shiftr x 7)) as [rest|] eqn:E; [|discriminate H]. injection H as <-. destruct (store_ok i (Z.lor (uint8 x) 128) buf) as (b1 & -> & L1 & F1); [lia|].
    destruct (IH rounds (S i) (Z.shiftr x 7) b1 rest E) as (b2 & -> & L2 & F2 & L3); [lia|lia|]. exists b2. cbn [length]. rewrite <- plus_n_Sm. split; [reflexivity|]. split; [lia|].
    rewrite Nat.add_succ_l in F2. rewrite F2, F1, <- app_assoc. split; [reflexivity|lia].
  - injection H as <-. destruct (store_ok i (uint8 x) buf) as (b1 & -> & L1 & F1); [lia|]. exists b1. cbn [length]. rewrite Nat.add_1_r. split; [reflexivity|]. split; [lia|]. split; [exact F1|lia].
Qed.

Section Scratch.
Context (scribble : list (list Z) -> list Z -> list Z) (Hs : forall log buf, length buf = 16%nat -> length (scribble log buf) = 16%nat).
(** [f] on the encoder with the array does what [g] does without. *)
Definition same (f : op) (g : Encoder -> Encoder) : Prop :=
  forall s, length (s_buf s) = 16%nat -> exists buf, f s = Some (mkScratched buf (g (s_enc s))) /\ length buf = 16%nat.
Lemma same_then f1 g1 f2 g2 : same f1 g1 -> same f2 g2 -> same (then_ f1 f2) (fun e => g2 (g1 e)).
Proof. intros H1 H2 s Hl. unfold then_. destruct (H1 s Hl) as (b1 & -> & L1). exact (H2 (mkScratched b1 (g1 (s_enc s))) L1). Qed.
Lemma same_done : same done (fun e => e).
Proof. intros s Hl. exists (s_buf s). destruct s. auto. Qed.
Lemma same_unless f g : same f g -> same (unless_failed f) (fun e => match e_err e with Some _ => e | None => g e end).
Proof. intros H s Hl. unfold unless_failed. destruct (e_err (s_enc s)) eqn:E; [exists (s_buf s); destruct s; auto|apply H, Hl]. Qed.
Lemma same_ext f g g' : (forall e, g e = g' e) -> same f g -> same f g'.
Proof. intros E H s Hl. rewrite <- E. apply H, Hl. Qed.
Lemma same_write data : same (s_write scribble data) (write data).
Proof. intros s Hl. eexists. split; [reflexivity|]. apply Hs, Hl. Qed.
Lemma same_write_buf n bs buf e : length buf = 16%nat -> (n <= 16)%nat -> firstn n buf = bs ->
  exists buf', s_write_buf scribble n (mkScratched buf e) = Some (mkScratched buf' (write bs e)) /\ length buf' = 16%nat.
Proof. intros Hl Hn <-. unfold s_write_buf. cbn [s_buf]. destruct (Nat.leb_spec n (length buf)); [|lia]. eexists. split; [reflexivity|]. cbn [s_buf s_enc]. apply Hs, Hl. Qed.
Lemma same_put bs : (length bs <= 16)%nat -> same (s_put scribble bs) (write bs).
Proof.
  intros Hb s Hl. unfold s_put. destruct (store_all_ok bs 0 (s_buf s)) as (b1 & -> & L1 & F1); [lia|]. apply same_write_buf; [lia|exact Hb|exact F1].
Qed.
Lemma same_foreach {A} (f : A -> op) (g : A -> Encoder -> Encoder) xs : (forall x, In x xs -> same (f x) (g x)) -> same (s_foreach f xs) (foreach g xs).
Proof.
  induction xs as [|x xs IH]; intros H; [apply same_done|]. cbn [s_foreach]. apply (same_ext _ (fun e => foreach g xs (g x e))); [reflexivity|].
  apply same_then; [apply H; left; reflexivity|apply IH; intros y Hy; apply H; right; exact Hy].
Qed.

Lemma same_Int8 i : same (sPutInt8 scribble i) (PutInt8 i).
Proof. apply same_unless, same_put. cbn. lia. Qed.
Lemma same_Int16 i : same (sPutInt16 scribble i) (PutInt16 i).
Proof. apply same_unless, same_put. cbn. lia. Qed.
Lemma same_Int32 i : same (sPutInt32 scribble i) (PutInt32 i).
Proof. apply same_unless, same_put. cbn. lia. Qed.
Lemma same_Int64 i : same (sPutInt64 scribble i) (PutInt64 i).
Proof. apply same_unless, same_put. cbn. lia. Qed.
Lemma same_ArrayLength n : same (sPutArrayLength scribble n) (PutArrayLength n).
Proof. apply same_Int32. Qed.
Lemma same_Bool b : same (sPutBool scribble b) (PutBool b).
Proof. destruct b; apply same_Int8. Qed.
Lemma same_Bytes d : same (sPutBytes scribble d) (PutBytes d).
Proof. eapply same_ext; [|apply same_then; [apply same_Int32|apply same_unless, same_write]]. intros e. unfold PutBytes. cbn zeta. destruct (e_err _); reflexivity. Qed.
Lemma same_String d : same (sPutString scribble d) (PutString d).
Proof. eapply same_ext; [|apply same_then; [apply same_Int16|apply same_unless, same_write]]. intros e. unfold PutString. cbn zeta. destruct (e_err _); reflexivity. Qed.
Lemma same_nullable {A} (f : A -> op) g xs : (forall x, same (f x) (g x)) ->
  same (s_nullable scribble f xs) (fun e => match e_err e with Some _ => e | None => match xs with None => PutInt32 (-1) e | Some l => foreach g l (PutArrayLength (zlen l) e) end end).
Proof.
  intros H. unfold s_nullable. destruct xs as [l|].
  - apply (same_unless _ (fun e => foreach g l (PutArrayLength (zlen l) e))). apply same_then; [apply same_ArrayLength|]. apply same_foreach. auto.
  - apply same_unless, same_Int32.
Qed.
Lemma same_NullableString x : same (sPutNullableString scribble x) (PutNullableString x).
Proof. destruct x; [apply same_String|apply same_Int16]. Qed.
Lemma same_VarInt i : same (sPutVarInt scribble i) (PutVarInt i).
Proof.
  unfold sPutVarInt, PutVarInt. destruct (put_varint i) as [bs|] eqn:E; [|destruct (put_varint_total i) as (bs & Hb & _); congruence].
  apply same_unless. intros s Hl. unfold put_varint in E. destruct (store_uvarint_ok 16 17 0 (zigzag i) (s_buf s) bs E) as (b1 & -> & L1 & F1 & L2); [lia|lia|].
  apply same_write_buf; [lia|lia|exact F1].
Qed.
Lemma same_VarBytes d : same (sPutVarBytes scribble d) (PutVarBytes d).
Proof. unfold PutVarBytes. apply (same_unless _ (fun e => write (items d) (PutVarInt (int64 (glen d)) e))). apply same_then; [apply same_VarInt|apply same_write]. Qed.
Lemma encode_rune_short r : (length (encode_rune r) <= 16)%nat.
Proof. unfold encode_rune. cbn zeta. repeat (match goal with |- context [if ?b then _ else _] => destruct b end); cbn [length]; lia. Qed.
Lemma same_runes rs : same (s_put_runes scribble rs) (put_runes rs).
Proof.
  induction rs as [|r rs IH]; [apply same_done|]. cbn [s_put_runes]. eapply same_ext; [|apply same_then; [apply same_put, encode_rune_short|apply same_unless, IH]].
  intros e. reflexivity.
Qed.
Lemma same_VarString d : same (sPutVarString scribble d) (PutVarString d).
Proof. unfold PutVarString. apply (same_unless _ (fun e => put_runes (runes d) (PutVarInt (int64 (zlen d)) e))). apply same_then; [apply same_VarInt|apply same_runes]. Qed.
Lemma same_RecordHeader k d : same (sPutRecordHeader scribble k d) (PutRecordHeader k d).
Proof. unfold PutRecordHeader. apply (same_unless _ (fun e => PutVarString d (PutVarString k e))). apply same_then; apply same_VarString. Qed.
Lemma same_call c : same (s_perform scribble c) (perform c).
Proof.
  destruct c; cbn [s_perform perform];
    [apply same_Int8|apply same_Int16|apply same_Int32|apply same_Int64|apply same_Bool|apply same_ArrayLength|apply same_Bytes|apply same_String|apply same_NullableString|
     apply same_nullable, same_Int32|apply same_nullable, same_Int64|apply same_nullable, same_String|apply same_VarInt|apply same_VarBytes|apply same_VarString|apply same_RecordHeader].
Qed.
Lemma new_calls t cs : exists buf, s_perform_all scribble cs (sNewEncoder t) = Some (mkScratched buf (perform_all cs (NewEncoder t))) /\ length buf = 16%nat.
Proof. apply (same_foreach (s_perform scribble) perform cs (fun c _ => same_call c) (sNewEncoder t)). reflexivity. Qed.
Lemma same_gencode : (forall t v x, same (s_encode scribble t v x) (gencode t v x)) /\ (forall fs v x, same (s_encodes scribble fs v x) (gencodes fs v x)).
Proof.
  apply schema_mind; intros; cbn [s_encode gencode s_encodes gencodes];
    [apply same_Bool|apply same_Int8|apply same_Int16|apply same_Int32|apply same_Int64|apply same_String|apply same_Bytes|apply same_nullable, same_Int32|apply same_nullable, same_Int64|apply same_nullable, same_String| |apply same_done|].
  - apply (same_then _ (PutArrayLength (glen x))); [apply same_ArrayLength|]. apply same_foreach. auto.
  - apply (same_then _ (put_if (active r v) (gencode t v (fst x)))); [|apply H0]. destruct (active r v); [apply H|apply same_done].
Qed.

(** The same for what can panic by itself. *)
Definition same_opt (f : op) (g : Encoder -> option Encoder) : Prop :=
  forall s, length (s_buf s) = 16%nat -> match g (s_enc s) with
    | Some e => exists buf, f s = Some (mkScratched buf e) /\ length buf = 16%nat
    | None => f s = None
    end.
Lemma opt_then f1 g1 f2 g2 : same f1 g1 -> same_opt f2 g2 -> same_opt (then_ f1 f2) (fun e => g2 (g1 e)).
Proof. intros H1 H2 s Hl. unfold then_. destruct (H1 s Hl) as (b1 & -> & L1). exact (H2 (mkScratched b1 (g1 (s_enc s))) L1). Qed.
Lemma opt_bind f1 g1 f2 g2 : same_opt f1 g1 -> same_opt f2 g2 -> same_opt (then_ f1 f2) (fun e => match g1 e with None => None | Some e => g2 e end).
Proof. intros H1 H2 s Hl. unfold then_. specialize (H1 s Hl). destruct (g1 (s_enc s)) as [e|]; [|rewrite H1; reflexivity]. destruct H1 as (b1 & -> & L1). exact (H2 (mkScratched b1 e) L1). Qed.
Lemma opt_same f g : same f g -> same_opt f (fun e => Some (g e)).
Proof. intros H s Hl. apply H, Hl. Qed.
Lemma opt_ext f g g' : same_opt f g -> (forall e, g' e = g e) -> same_opt f g'.
Proof. intros H E s Hl. rewrite E. apply H, Hl. Qed.
Ltac steps := repeat match goal with
  | |- same_opt (then_ (sPutVarInt _ ?i) _) _ => eapply opt_then; [exact (same_VarInt i)|]
  | |- same_opt (then_ (sPutVarBytes _ ?i) _) _ => eapply opt_then; [exact (same_VarBytes i)|]
  | |- same_opt (then_ (sPutInt8 _ ?i) _) _ => eapply opt_then; [exact (same_Int8 i)|]
  | |- same_opt (then_ (sPutInt16 _ ?i) _) _ => eapply opt_then; [exact (same_Int16 i)|]
  | |- same_opt (then_ (sPutInt32 _ ?i) _) _ => eapply opt_then; [exact (same_Int32 i)|]
  | |- same_opt (then_ (sPutInt64 _ ?i) _) _ => eapply opt_then; [exact (same_Int64 i)|]
  end.
Lemma same_header order m : same_opt (match m_header m with None => fun _ => None | Some _ => s_foreach (fun kv => sPutRecordHeader scribble (fst kv) (snd kv)) order end)
  (fun e => match m_header m with None => None | Some _ => Some (MapHeader_Range order PutRecordHeader e) end).
Proof.
  destruct (m_header m); [|intros s Hl; reflexivity]. apply opt_same. apply (same_foreach _ (fun kv => PutRecordHeader (fst kv) (snd kv))). intros kv _. apply same_RecordHeader.
Qed.
Lemma same_message order m version first : same_opt (s_encodeMessage scribble order m version first) (encodeMessage order m version first).
Proof. eapply opt_ext; [unfold s_encodeMessage; steps; exact (same_header order m)|intros e; unfold encodeMessage; cbn beta zeta; reflexivity]. Qed.
Lemma same_records orders version first : forall ms i, same_opt (s_records scribble orders i ms version first) (encode_records orders i ms version first).
Proof. induction ms as [|m ms IH]; intros i; [apply opt_same, same_done|]. cbn [s_records encode_records]. apply opt_bind; [apply same_message|apply IH]. Qed.
Lemma same_batch orders r version : same_opt (s_batch scribble orders r version) (RecordBatch_Encode orders r version).
Proof. eapply opt_ext; [unfold s_batch; steps; apply same_records|intros e; unfold RecordBatch_Encode; cbn beta zeta; reflexivity]. Qed.
End Scratch.

Lemma message_scratched c scribble (v : Z) m s : linked c -> (forall log buf, length buf = 16%nat -> length (scribble log buf) = 16%nat) -> length (s_buf s) = 16%nat ->
  exists buf, s_encodes scribble (c_schema c) v (c_to c m) s = Some (mkScratched buf (c_encode c v m (s_enc s))) /\ length buf = 16%nat.
Proof. intros L Hs Hl. rewrite (l_encode c L). exact (proj2 (same_gencode scribble Hs) (c_schema c) v (c_to c m) s Hl). Qed.
