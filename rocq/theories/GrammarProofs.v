(** * Decoders follow the grammar exactly *)
From Coq Require String.
From Verif Require Import GoBase Binary Encoder Decoder Spec SchemaSpec GrammarSpec GoLemmas EncProofs DecProofs PrimProofs Schema Link AllMessages MsgProofs.
Local Open Scope list_scope.
Local Open Scope Z_scope.
Ltac Zify.zify_post_hook ::= idtac.

(** ** Every sequence of bytes is a number *)
Lemma be_cong n a b : a mod 256 ^ Z.of_nat n = b mod 256 ^ Z.of_nat n -> be n a = be n b.
Proof.
  induction n as [|n IH]; intros H; [reflexivity|]. cbn [be].
  assert (P : 0 < 256 ^ Z.of_nat n) by (apply Z.pow_pos_nonneg; lia).
  assert (Q : 256 ^ Z.of_nat (S n) = 256 ^ Z.of_nat n * 256) by (rewrite Nat2Z.inj_succ, Z.pow_succ_r by lia; lia).
  rewrite Q in H. rewrite !Z.rem_mul_r in H by lia.
  pose proof (Z.mod_pos_bound a _ P). pose proof (Z.mod_pos_bound b _ P).
  set (p := 256 ^ Z.of_nat n) in *. set (x := a mod p) in *. set (y := b mod p) in *.
  set (c := (a / p) mod 256) in *. set (d := (b / p) mod 256) in *.
  assert (c = d) by nia. assert (x = y) by nia. f_equal; [assumption|]. apply IH. assumption.
Qed.
Lemma be_unbe bs : Forall is_byte bs -> be (length bs) (unbe bs) = bs.
Proof.
  induction 1 as [|b bs Hb H IH]; [reflexivity|]. cbn [length be unbe].
  assert (P : 0 < 256 ^ Z.of_nat (length bs)) by (apply Z.pow_pos_nonneg; lia).
  assert (U : 0 <= unbe bs < 256 ^ Z.of_nat (length bs)).
  { rewrite <- IH, unbe_be, length_be. apply Z.mod_pos_bound, P. }
  f_equal.
  - rewrite Z.div_add_l by lia. rewrite (Z.div_small (unbe bs)) by exact U. rewrite Z.add_0_r. apply Z.mod_small. exact Hb.
  - transitivity (be (length bs) (unbe bs)); [|exact IH]. apply be_cong. unfold zlen. rewrite Z.add_comm, Z.mod_add by lia. reflexivity.
Qed.
Lemma be_surjective bs : Forall is_byte bs -> exists x, be (length bs) x = bs /\ - 2 ^ (8 * zlen bs - 1) <= x < 2 ^ (8 * zlen bs - 1) \/ bs = [].
Proof.
  intros H. destruct bs as [|b bs]; [exists 0; auto|]. set (l := b :: bs) in *. assert (0 < zlen l) by (unfold l; rewrite zlen_cons; pose proof (zlen_nonneg bs); lia).
  exists (wrap (8 * zlen l) (unbe l)). left. split; [|apply wrap_range; lia].
  transitivity (be (length l) (unbe l)); [|apply be_unbe, H]. apply be_cong. replace (256 ^ Z.of_nat (length l)) with (2 ^ (8 * zlen l)); [apply wrap_residue; lia|].
  rewrite Z.pow_mul_r by (unfold zlen in *; lia). reflexivity.
Qed.

(** ** Exactness

    [m] reads exactly the byte sequences of [G], panics exactly on those that begin
    with one of [P], and otherwise reports a short buffer. *)
Definition Exact {A} (m : Dec A) (G : list Z -> A -> Prop) (P : list Z -> Prop) : Prop :=
  (forall bs a, G bs a -> Decodes m bs a) /\
  (forall bs, P bs -> Panics m bs) /\
  (forall d, dec_ok d -> Forall is_byte (frame d) ->
     match m d with
     | DOk a d' => exists bs rest, frame d = bs ++ rest /\ G bs a /\ d' = advance (zlen bs) d
     | DErr e _ => e = ErrShortBuffer
     | DPanic => exists bs rest, frame d = bs ++ rest /\ P bs
     end).

Lemma Exact_iff {A} (m : Dec A) (G G' : list Z -> A -> Prop) (P P' : list Z -> Prop) :
  (forall bs a, G bs a <-> G' bs a) -> (forall bs, P bs <-> P' bs) -> Exact m G P -> Exact m G' P'.
Proof.
  intros HG HP (H1 & H2 & H3). split; [|split].
  - intros bs a H. apply H1, HG, H.
  - intros bs H. apply H2, HP, H.
  - intros d Hd Hb. specialize (H3 d Hd Hb). destruct (m d).
    + destruct H3 as (bs & rest & ? & ? & ?). exists bs, rest. repeat split; try assumption. apply HG; assumption.
    + assumption.
    + destruct H3 as (bs & rest & ? & ?). exists bs, rest. split; [assumption|apply HP; assumption].
Qed.

Lemma Exact_ret {A} (a : A) : Exact (ret a) (fun bs x => bs = [] /\ x = a) (fun _ => False).
Proof.
  split; [|split].
  - intros bs x [-> ->]. apply Decodes_ret.
  - intros bs [].
  - intros d Hd Hb. cbn. exists [], (frame d). rewrite zlen_nil, advance_0. auto.
Qed.
Lemma Exact_panic {A} : Exact (fun _ => @DPanic A) (fun _ _ => False) (fun bs => bs = []).
Proof.
  split; [|split].
  - intros bs x [].
  - intros bs d rest ? ?. reflexivity.
  - intros d Hd Hb. exists [], (frame d). auto.
Qed.

Lemma Exact_bind {A B} (m : Dec A) (f : A -> Dec B) G P GF PF :
  Exact m G P -> (forall a bs, G bs a -> Exact (f a) (GF a) (PF a)) ->
  Exact (bind m f)
    (fun bs b => exists b1 b2 a, bs = b1 ++ b2 /\ G b1 a /\ GF a b2 b)
    (fun bs => P bs \/ exists b1 b2 a, bs = b1 ++ b2 /\ G b1 a /\ PF a b2).
Proof.
  intros (H1 & H2 & H3) HF. split; [|split].
  - intros bs b (b1 & b2 & a & -> & Ha & Hb). destruct (HF _ _ Ha) as (F1 & _ & _). eapply Decodes_bind; [apply H1, Ha|apply F1, Hb].
  - intros bs [Hp|(b1 & b2 & a & -> & Ha & Hb)]; [apply Panics_bind_l, H2, Hp|].
    destruct (HF _ _ Ha) as (_ & F2 & _). eapply Panics_bind_r; [apply H1, Ha|apply F2, Hb].
  - intros d Hd Hbs. specialize (H3 d Hd Hbs). unfold bind. destruct (m d) as [a d1|e d1|].
    + destruct H3 as (b1 & r1 & Hf & Ha & ->). destruct (frame_advance_app _ _ _ Hd Hf) as [Hd1 Hf1].
      destruct (HF _ _ Ha) as (_ & _ & F3). specialize (F3 _ Hd1). rewrite Hf1 in F3.
      assert (Hr : Forall is_byte r1) by (rewrite Hf in Hbs; apply Forall_app in Hbs; apply Hbs). specialize (F3 Hr).
      destruct (f a (advance (zlen b1) d)) as [b d2|e d2|].
      * destruct F3 as (b2 & r2 & -> & Hb & ->). exists (b1 ++ b2), r2. rewrite <- app_assoc. split; [exact Hf|].
        split; [exists b1, b2, a; auto|]. rewrite advance_advance, zlen_app. reflexivity.
      * exact F3.
      * destruct F3 as (b2 & r2 & -> & Hb). exists (b1 ++ b2), r2. rewrite <- app_assoc. split; [exact Hf|].
        right. exists b1, b2, a. auto.
    + exact H3.
    + destruct H3 as (bs & rest & Hf & Hp). exists bs, rest. auto.
Qed.

(** ** Primitives *)
Lemma Forall_firstn {A} (P : A -> Prop) n l : Forall P l -> Forall P (firstn n l).
Proof. intros H. rewrite <- (firstn_skipn n l) in H. apply Forall_app in H. apply H. Qed.
Lemma Exact_fixed {A} n (get : list Z -> option A) (G : list Z -> A -> Prop) : (0 < n)%nat -> looks_at n get ->
  (forall bs a, Forall is_byte bs -> length bs = n -> get bs = Some a -> G bs a) ->
  (forall bs a, G bs a -> length bs = n /\ get bs = Some a) ->
  Exact (fixed (Z.of_nat n) get) G (fun _ => False).
Proof.
  intros Hn Hl HG HG'. split; [|split].
  - intros bs a Ha. destruct (HG' _ _ Ha). apply Decodes_fixed; assumption.
  - intros bs [].
  - intros d Hd Hb. rewrite fixed_eq by assumption. destruct (Z.leb_spec (Z.of_nat n) (zlen (frame d))) as [Hle|Hlt]; [|reflexivity].
    assert (L : length (firstn n (frame d)) = n) by (rewrite firstn_length; unfold zlen in Hle; lia).
    destruct (get (firstn n (frame d))) as [a|] eqn:E.
    + exists (firstn n (frame d)), (skipn n (frame d)). rewrite firstn_skipn. split; [reflexivity|]. split.
      * apply HG; [apply Forall_firstn, Hb|exact L|exact E].
      * unfold zlen. rewrite L. reflexivity.
    + destruct Hl as [_ Hl]. destruct (Hl _ L E).
Qed.

Lemma Exact_bool : Exact dBool (fun bs x => exists b, is_byte b /\ bs = [b] /\ x = (b =? 1)) (fun _ => False).
Proof.
  apply (Exact_fixed 1); [lia|apply looks_at_head| |].
  - intros bs a Hb L E. destr_len bs L. inversion Hb; subst. exists z. split; [assumption|]. split; [reflexivity|]. congruence.
  - intros bs a (b & _ & -> & ->). split; reflexivity.
Qed.
(** An integer reader: it reads back every [be n x]; every [n] bytes are some [be n x]. *)
Lemma Exact_int n (get : list Z -> option Z) (ok : Z -> Prop) : (0 < n)%nat -> looks_at n get ->
  (forall x, ok x <-> - 2 ^ (8 * Z.of_nat n - 1) <= x < 2 ^ (8 * Z.of_nat n - 1)) ->
  (forall x, ok x -> get (be n x) = Some x) ->
  Exact (fixed (Z.of_nat n) get) (fun bs x => ok x /\ bs = be n x) (fun _ => False).
Proof.
  intros Hn Hl Hok Hget. apply Exact_fixed; [assumption|assumption| |].
  - intros bs a Hb L E. destruct (be_surjective bs Hb) as (x & [[Hx Hr]| ->]); [|cbn in L; lia].
    unfold zlen in Hr. rewrite L in *. apply Hok in Hr. rewrite <- Hx, (Hget _ Hr) in E. injection E as <-. auto.
  - intros bs a [Ha ->]. split; [apply length_be|apply Hget, Ha].
Qed.
Lemma Exact_int8 : Exact dInt8 (fun bs x => is_int8 x /\ bs = be 1 x) (fun _ => False).
Proof.
  apply (Exact_int 1); [lia|apply looks_at_head|reflexivity|]. intros i Hi.
  rewrite <- (app_nil_r (be 1 i)). destruct (be_1 i []) as (b & E & Hb & Hv). rewrite E. f_equal.
  rewrite Hv. unfold int8. change 256 with (2 ^ 8). rewrite wrap_mod by lia. apply int8_id, Hi.
Qed.
Lemma Exact_int16 : Exact dInt16 (fun bs x => is_int16 x /\ bs = be 2 x) (fun _ => False).
Proof.
  apply (Exact_int 2); [lia|apply looks_at_map, looks_at_16|reflexivity|]. intros i Hi.
  rewrite <- (app_nil_r (be 2 i)), get_be16. cbn [option_map]. f_equal.
  unfold int16. rewrite wrap_mod by lia. apply int16_id, Hi.
Qed.
Lemma Exact_int32 : Exact dInt32 (fun bs x => is_int32 x /\ bs = be 4 x) (fun _ => False).
Proof.
  apply (Exact_int 4); [lia|apply looks_at_map, looks_at_32|reflexivity|]. intros i Hi.
  rewrite <- (app_nil_r (be 4 i)), get_be32. cbn [option_map]. f_equal.
  unfold int32. rewrite wrap_mod by lia. apply int32_id, Hi.
Qed.
Lemma Exact_int64 : Exact dInt64 (fun bs x => is_int64 x /\ bs = be 8 x) (fun _ => False).
Proof.
  apply (Exact_int 8); [lia|apply looks_at_map, looks_at_64|reflexivity|]. intros i Hi.
  rewrite <- (app_nil_r (be 8 i)), get_be64. cbn [option_map]. f_equal.
  unfold int64. rewrite wrap_mod by lia. apply int64_id, Hi.
Qed.
Lemma Exact_take_slice n : Exact (take_slice n) (fun bs x => bs = x /\ zlen x = n) (fun bs => n < 0 /\ bs = []).
Proof.
  split; [|split].
  - intros bs x [-> <-]. apply Decodes_take_slice.
  - intros bs [Hn ->]. apply Panics_take_slice, Hn.
  - intros d Hd Hb. rewrite take_slice_eq by exact Hd. destruct (Z.leb_spec n (zlen (frame d))) as [Hle|Hlt]; [|reflexivity].
    destruct (Z.ltb_spec n 0) as [Hneg|Hpos]; [exists [], (frame d); auto|].
    assert (L : zlen (firstn (Z.to_nat n) (frame d)) = n) by (unfold zlen in *; rewrite firstn_length; lia).
    exists (firstn (Z.to_nat n) (frame d)), (skipn (Z.to_nat n) (frame d)). rewrite firstn_skipn, L. auto.
Qed.

Lemma Exact_string : Exact dString accepts_string rejects_string.
Proof.
  unfold dString.
  eapply Exact_iff; cycle 2.
  - eapply (Exact_bind dInt16 _ _ _ (fun n bs s => (n = -1 /\ bs = [] /\ s = []) \/ (n <> -1 /\ bs = s /\ zlen s = n)) (fun n bs => n < -1 /\ bs = [])); [apply Exact_int16|].
    intros n bs [Hn _]. destruct (Z.eqb_spec n (-1)) as [->|Hne].
    + eapply Exact_iff; [| |apply Exact_ret]; intros; cbn beta; intuition lia.
    + eapply Exact_iff; [| |apply Exact_take_slice]; intros; cbn beta; intuition lia.
  - intros bs s. unfold accepts_string. split.
    + intros (b1 & b2 & n & -> & [Hn ->] & [(-> & -> & ->)|(Hne & -> & <-)]); [left; rewrite app_nil_r; auto|].
      right. unfold is_int16 in Hn. split; [reflexivity|lia].
    + intros [[-> ->]|[-> Hl]].
      * exists (be 2 (-1)), [], (-1). rewrite app_nil_r. unfold is_int16. repeat split; try lia. left. auto.
      * exists (be 2 (zlen s)), s, (zlen s). pose proof (zlen_nonneg s). unfold is_int16. repeat split; try lia. right. repeat split; lia.
  - intros bs. unfold rejects_string. split.
    + intros [[]|(b1 & b2 & n & -> & [Hn ->] & Hl & ->)]. exists n. rewrite app_nil_r. unfold is_int16 in Hn. split; [lia|reflexivity].
    + intros (n & Hn & ->). right. exists (be 2 n), [], n. rewrite app_nil_r. unfold is_int16. repeat split; lia.
Qed.
Lemma Exact_bytes : Exact dBytes (fun bs x => exists s, x = Some s /\ bs = be 4 (zlen s) ++ s /\ zlen s < 2 ^ 31)
  (fun bs => exists n, - 2 ^ 31 <= n < 0 /\ bs = be 4 n).
Proof.
  unfold dBytes. eapply Exact_iff; cycle 2.
  - eapply (Exact_bind dInt32); [apply Exact_int32|]. intros n bs _.
    instantiate (2 := fun n bs x => exists s, x = Some s /\ bs = s /\ zlen s = n). instantiate (1 := fun n bs => n < 0 /\ bs = []).
    cbn beta. eapply Exact_iff; cycle 2.
    + eapply Exact_bind; [apply Exact_take_slice|]. intros v bs' _.
      instantiate (2 := fun v bs x => bs = [] /\ x = Some v). instantiate (1 := fun _ _ => False). apply Exact_ret.
    + intros bs' x. cbn beta. split.
      * intros (b1 & b2 & a & -> & [-> Ha] & -> & ->). exists a. rewrite app_nil_r. auto.
      * intros (s & -> & -> & Hs). exists s, [], s. rewrite app_nil_r. auto.
    + intros bs'. cbn beta. split; [|auto]. intros [H|(?&?&?&_&_&[])]; exact H.
  - intros bs x. cbn beta. split.
    + intros (b1 & b2 & n & -> & [Hn ->] & s & -> & -> & <-). exists s. unfold is_int32 in Hn. repeat split; lia.
    + intros (s & -> & -> & Hs). exists (be 4 (zlen s)), s, (zlen s). pose proof (zlen_nonneg s). unfold is_int32. repeat split; try lia. exists s. auto.
  - intros bs. cbn beta. split.
    + intros [[]|(b1 & b2 & n & -> & [Hn ->] & Hl & ->)]. exists n. rewrite app_nil_r. unfold is_int32 in Hn. split; [lia|reflexivity].
    + intros (n & Hn & ->). right. exists (be 4 n), [], n. rewrite app_nil_r. unfold is_int32. repeat split; lia.
Qed.

(** ** Sequences *)
Lemma accepts_list_nil {A} (G : list Z -> A -> Prop) bs xs : accepts_list G 0 bs xs <-> bs = [] /\ xs = [].
Proof.
  split.
  - intros (parts & -> & F & L). destruct F; [auto|]. rewrite zlen_cons in L. pose proof (zlen_nonneg l'). lia.
  - intros [-> ->]. exists []. repeat split; constructor.
Qed.
Lemma accepts_list_cons {A} (G : list Z -> A -> Prop) n bs x xs :
  accepts_list G (1 + n) bs (x :: xs) <-> exists b1 b2, bs = b1 ++ b2 /\ G b1 x /\ accepts_list G n b2 xs.
Proof.
  split.
  - intros (parts & -> & F & L). inversion F; subst. cbn [concat]. rewrite zlen_cons in L. exists x0, (concat l).
    repeat split; try assumption. exists l. repeat split; try assumption. lia.
  - intros (b1 & b2 & -> & Hx & parts & -> & F & L). exists (b1 :: parts). rewrite zlen_cons. repeat split; [constructor; assumption|lia].
Qed.
Lemma accepts_list_length {A} (G : list Z -> A -> Prop) n bs xs : accepts_list G n bs xs -> zlen xs = n.
Proof. intros (parts & _ & _ & L). exact L. Qed.

Lemma Exact_repeat {A} (m : Dec A) G P : Exact m G P -> forall n,
  Exact (repeat_dec n m) (accepts_list G (Z.of_nat n)) (rejects_list G P (Z.of_nat n)).
Proof.
  intros Hm. induction n as [|n IH]; cbn [repeat_dec].
  - eapply Exact_iff; [| |apply Exact_ret].
    + intros bs xs. cbn beta. symmetry. apply accepts_list_nil.
    + intros bs. split; [intros []|]. intros (k & good & xs & bad & Ha & Hk & _). pose proof (accepts_list_length _ _ _ _ Ha). pose proof (zlen_nonneg xs). lia.
  - eapply Exact_iff; cycle 2.
    + eapply (Exact_bind m); [exact Hm|]. intros x bs _.
      instantiate (2 := fun x bs l => exists xs, l = x :: xs /\ accepts_list G (Z.of_nat n) bs xs).
      instantiate (1 := fun x bs => rejects_list G P (Z.of_nat n) bs). cbn beta.
      eapply Exact_iff; cycle 2.
      * eapply Exact_bind; [exact IH|]. intros xs bs' _.
        instantiate (2 := fun xs bs l => bs = [] /\ l = x :: xs). instantiate (1 := fun _ _ => False). apply Exact_ret.
      * intros bs' l. cbn beta. split.
        -- intros (b1 & b2 & xs & -> & Ha & -> & ->). exists xs. rewrite app_nil_r. auto.
        -- intros (xs & -> & Ha). exists bs', [], xs. rewrite app_nil_r. auto.
      * intros bs'. cbn beta. split; [|auto]. intros [H|(?&?&?&_&_&[])]; exact H.
    + intros bs l. cbn beta. rewrite Nat2Z.inj_succ, <- Z.add_1_l. split.
      * intros (b1 & b2 & x & -> & Hx & xs & -> & Hxs). apply accepts_list_cons. exists b1, b2. auto.
      * intros H. destruct l as [|x xs]; [apply accepts_list_length in H; rewrite zlen_nil in H; lia|].
        apply accepts_list_cons in H. destruct H as (b1 & b2 & -> & Hx & Hxs). exists b1, b2, x. repeat split; try assumption. exists xs. auto.
    + intros bs. cbn beta. rewrite Nat2Z.inj_succ, <- Z.add_1_l. split.
      * intros [Hp|(b1 & b2 & x & -> & Hx & k & good & xs & bad & Ha & Hk & Hb & ->)].
        -- exists 0, [], [], bs. repeat split; try lia; try assumption. apply accepts_list_nil. auto.
        -- exists (1 + k), (b1 ++ good), (x :: xs), bad. repeat split; try assumption; try lia; [|apply app_assoc].
           apply accepts_list_cons. exists b1, good. auto.
      * intros (k & good & xs & bad & Ha & Hk & Hb & ->). destruct xs as [|x xs].
        -- left. destruct Ha as (parts & -> & F & L). inversion F; subst. exact Hb.
        -- right. pose proof (accepts_list_length _ _ _ _ Ha) as L. rewrite zlen_cons in L. replace k with (1 + (k - 1)) in Ha by lia.
           apply accepts_list_cons in Ha. destruct Ha as (b1 & b2 & -> & Hx & Ha). exists b1, (b2 ++ bad), x. rewrite <- app_assoc.
           repeat split; try assumption. exists (k - 1), b2, xs, bad. repeat split; try assumption. lia.
Qed.

Lemma Exact_prim_array {A} (m : Dec A) G P : Exact m G P ->
  Exact (prim_array m) (accepts_array G)
    (fun bs => rejects_count bs \/ exists n bs', 0 <= n < 2 ^ 31 /\ bs = be 4 n ++ bs' /\ rejects_list G P n bs').
Proof.
  intros Hm. unfold prim_array. eapply Exact_iff; cycle 2.
  - eapply (Exact_bind dArrayLength); [apply Exact_int32|]. intros n bs [Hn _].
    instantiate (2 := fun n bs x => (n = -1 /\ bs = [] /\ x = None) \/ (0 <= n /\ exists xs, x = Some xs /\ accepts_list G n bs xs)).
    instantiate (1 := fun n bs => (n < -1 /\ bs = []) \/ (0 <= n /\ rejects_list G P n bs)). cbn beta.
    destruct (Z.eqb_spec n (-1)) as [->|Hne]; [|destruct (Z.ltb_spec n 0) as [Hneg|Hpos]].
    + eapply Exact_iff; [| |apply Exact_ret]; intros; cbn beta; intuition lia.
    + eapply Exact_iff; [| |apply Exact_panic]; intros; cbn beta; intuition lia.
    + eapply Exact_iff; cycle 2.
      * eapply Exact_bind; [apply Exact_repeat, Hm|]. intros xs bs' _.
        instantiate (2 := fun xs bs l => bs = [] /\ l = Some xs). instantiate (1 := fun _ _ => False). apply Exact_ret.
      * intros bs' l. cbn beta. rewrite Z2Nat.id by exact Hpos. split.
        -- intros (b1 & b2 & xs & -> & Ha & -> & ->). right. split; [exact Hpos|]. exists xs. rewrite app_nil_r. auto.
        -- intros [[H _]|(_ & xs & -> & Ha)]; [lia|]. exists bs', [], xs. rewrite app_nil_r. auto.
      * intros bs'. cbn beta. rewrite Z2Nat.id by exact Hpos. split.
        -- intros [H|(?&?&?&_&_&[])]; auto.
        -- intros [[H _]|[_ H]]; [lia|auto].
  - intros bs x. cbn beta. unfold accepts_array. split.
    + intros (b1 & b2 & n & -> & [Hn ->] & [(-> & -> & ->)|(Hp & xs & -> & Ha)]); [left; rewrite app_nil_r; auto|].
      right. exists n, b2, xs. unfold is_int32 in Hn. repeat split; try assumption; lia.
    + intros [[-> ->]|(n & bs' & xs & Hn & -> & Ha & ->)].
      * exists (be 4 (-1)), [], (-1). rewrite app_nil_r. unfold is_int32. repeat split; try lia. auto.
      * exists (be 4 n), bs', n. unfold is_int32. repeat split; try lia. right. split; [lia|]. exists xs. auto.
  - intros bs. cbn beta. unfold rejects_count. split.
    + intros [[]|(b1 & b2 & n & -> & [Hn ->] & [[Hl ->]|[Hl Hr]])]; unfold is_int32 in Hn.
      * left. exists n. rewrite app_nil_r. split; [lia|reflexivity].
      * right. exists n, b2. repeat split; try assumption; lia.
    + intros [(n & Hn & ->)|(n & bs' & Hn & -> & Hr)]; right.
      * exists (be 4 n), [], n. rewrite app_nil_r. unfold is_int32. repeat split; try lia. left. split; [lia|reflexivity].
      * exists (be 4 n), bs', n. unfold is_int32. repeat split; try lia. right. split; [lia|assumption].
Qed.
Lemma rejects_list_never {A} (G : list Z -> A -> Prop) n bs : rejects_list G (fun _ => False) n bs <-> False.
Proof. split; [|intros []]. intros (?&?&?&?&_&_&[]&_). Qed.
Lemma Exact_number_array {A} (m : Dec A) G : Exact m G (fun _ => False) -> Exact (prim_array m) (accepts_array G) rejects_count.
Proof.
  intros Hm. eapply Exact_iff; [| |apply Exact_prim_array, Hm]; [intros; reflexivity|]. intros bs. cbn beta. split; [|auto].
  intros [H|(n & bs' & _ & _ & H)]; [exact H|]. apply rejects_list_never in H. destruct H.
Qed.
Lemma Exact_dec_array {A} (m : Dec A) G P old : Exact m G P ->
  Exact (dec_array m old)
    (fun bs x => (exists n, - 2 ^ 31 <= n < 0 /\ bs = be 4 n /\ x = old) \/
      (exists n bs' xs, 0 <= n < 2 ^ 31 /\ bs = be 4 n ++ bs' /\ accepts_list G n bs' xs /\ x = Some xs))
    (fun bs => exists n bs', 0 <= n < 2 ^ 31 /\ bs = be 4 n ++ bs' /\ rejects_list G P n bs').
Proof.
  intros Hm. unfold dec_array. eapply Exact_iff; cycle 2.
  - eapply (Exact_bind dArrayLength); [apply Exact_int32|]. intros n bs [Hn _].
    instantiate (2 := fun n bs x => (n < 0 /\ bs = [] /\ x = old) \/ (0 <= n /\ exists xs, x = Some xs /\ accepts_list G n bs xs)).
    instantiate (1 := fun n bs => 0 <= n /\ rejects_list G P n bs). cbn beta.
    destruct (Z.leb_spec 0 n) as [Hpos|Hneg].
    + eapply Exact_iff; cycle 2.
      * eapply Exact_bind; [apply Exact_repeat, Hm|]. intros xs bs' _.
        instantiate (2 := fun xs bs l => bs = [] /\ l = Some xs). instantiate (1 := fun _ _ => False). apply Exact_ret.
      * intros bs' l. cbn beta. rewrite Z2Nat.id by exact Hpos. split.
        -- intros (b1 & b2 & xs & -> & Ha & -> & ->). right. split; [exact Hpos|]. exists xs. rewrite app_nil_r. auto.
        -- intros [[H _]|(_ & xs & -> & Ha)]; [lia|]. exists bs', [], xs. rewrite app_nil_r. auto.
      * intros bs'. cbn beta. rewrite Z2Nat.id by exact Hpos. split.
        -- intros [H|(?&?&?&_&_&[])]; auto.
        -- intros [_ H]; auto.
    + eapply Exact_iff; [| |apply Exact_ret]; intros; cbn beta; intuition lia.
  - intros bs x. cbn beta. split.
    + intros (b1 & b2 & n & -> & [Hn ->] & [(Hl & -> & ->)|(Hp & xs & -> & Ha)]); unfold is_int32 in Hn.
      * left. exists n. rewrite app_nil_r. repeat split; lia.
      * right. exists n, b2, xs. repeat split; try assumption; lia.
    + intros [(n & Hn & -> & ->)|(n & bs' & xs & Hn & -> & Ha & ->)].
      * exists (be 4 n), [], n. rewrite app_nil_r. unfold is_int32. repeat split; try lia. left. repeat split; lia.
      * exists (be 4 n), bs', n. unfold is_int32. repeat split; try lia. right. split; [lia|]. exists xs. auto.
  - intros bs. cbn beta. split.
    + intros [[]|(b1 & b2 & n & -> & [Hn ->] & Hl & Hr)]; unfold is_int32 in Hn. exists n, b2. repeat split; try assumption; lia.
    + intros (n & bs' & Hn & -> & Hr). right. exists (be 4 n), bs', n. unfold is_int32. repeat split; try lia; assumption.
Qed.

(** Whether bytes are accepted does not depend on the receiver's own value. *)
Lemma accepts_old :
  (forall t v old old' bs x, accepts t v old bs x -> exists x', accepts t v old' bs x') /\
  (forall fs v old old' bs x, acceptss fs v old bs x -> exists x', acceptss fs v old' bs x').
Proof.
  apply schema_mind; cbn [accepts acceptss den dens]; try (intros; eexists; eassumption).
  - intros fs IH v old old' bs x [(n & Hn & -> & _)|H]; [exists old'; left; exists n; auto|exists x; right; exact H].
  - intros name r t IHt rest IHr v old old' bs x (b1 & b2 & -> & H1 & H2).
    destruct (IHr _ _ (snd old') _ _ H2) as [xs Hxs]. destruct (active r v) eqn:E.
    + destruct (IHt _ _ (fst old') _ _ H1) as [y Hy]. exists (y, xs), b1, b2. auto.
    + destruct H1 as [-> _]. exists (fst old', xs), [], b2. auto.
Qed.

Lemma gdecode_exact :
  (forall t v old, Exact (gdecode t v old) (accepts t v old) (rejects t v)) /\
  (forall fs v old, Exact (gdecodes fs v old) (acceptss fs v old) (rejectss fs v)).
Proof.
  apply schema_mind; cbn [gdecode gdecodes accepts acceptss rejects rejectss den dens]; intros.
  - apply Exact_bool.
  - apply Exact_int8.
  - apply Exact_int16.
  - apply Exact_int32.
  - apply Exact_int64.
  - apply Exact_string.
  - apply Exact_bytes.
  - apply Exact_number_array, Exact_int32.
  - apply Exact_number_array, Exact_int64.
  - apply Exact_prim_array, Exact_string.
  - apply Exact_dec_array. apply H.
  - eapply Exact_iff; [| |apply Exact_ret]; intros; cbn beta; [|reflexivity]. destruct a; intuition.
  - eapply Exact_iff; cycle 2.
    + eapply (Exact_bind (dec_if (active r v) (gdecode t v (fst old)) (fst old)) _
        (fun bs x => if active r v then accepts t v (fst old) bs x else bs = [] /\ x = fst old)
        (fun bs => active r v = true /\ rejects t v bs)).
      * unfold dec_if. destruct (active r v); [|].
        -- eapply Exact_iff; [| |apply H]; intros; cbn beta; intuition.
        -- eapply Exact_iff; [| |apply Exact_ret]; intros; cbn beta; intuition congruence.
      * intros x bs _. instantiate (2 := fun x bs l => fst l = x /\ acceptss rest v (snd old) bs (snd l)). instantiate (1 := fun _ bs => rejectss rest v bs).
        cbn beta. eapply Exact_iff; cycle 2.
        -- eapply Exact_bind; [apply H0|]. intros xs bs' _.
           instantiate (2 := fun xs bs l => bs = [] /\ l = (x, xs)). instantiate (1 := fun _ _ => False). apply Exact_ret.
        -- intros bs' [y ys]. cbn [fst snd]. split.
           ++ intros (b1 & b2 & xs & -> & Ha & -> & E). rewrite app_nil_r. injection E as -> ->. auto.
           ++ intros [-> Ha]. exists bs', [], ys. rewrite app_nil_r. auto.
        -- intros bs'. cbn beta. split; [|auto]. intros [Hr|(?&?&?&_&_&[])]; exact Hr.
    + intros bs [y ys]. cbn [fst snd]. split.
      * intros (b1 & b2 & a & -> & Ha & -> & Hys). exists b1, b2. auto.
      * intros (b1 & b2 & -> & Ha & Hys). exists b1, b2, y. auto.
    + intros bs. cbn beta. split.
      * intros [Hr|(b1 & b2 & a & -> & Ha & Hr)]; [left; exact Hr|]. right. exists b1, b2. repeat split; try assumption.
        destruct (active r v); [exists (fst old), a; exact Ha|apply Ha].
      * intros [Hr|(b1 & b2 & -> & Ha & Hr)]; [left; exact Hr|]. right. destruct (active r v).
        -- destruct Ha as (o & x & Ha). destruct (proj1 accepts_old t v o (fst old) b1 x Ha) as [y Hy]. exists b1, b2, y. auto.
        -- subst b1. exists [], b2, (fst old). auto.
Qed.

(** ** The generated types *)
Section One.
Context (name : String.string) (c : codec) (H : In (name, c) all_codecs).
Let L := codec_linked name c H.

Lemma decode_exact : forall v old d, dec_ok d -> Forall is_byte (frame d) ->
  (forall m d', c_decode c v old d = DOk m d' <->
     exists bs rest, frame d = bs ++ rest /\ acceptss (c_schema c) v (c_to c old) bs (c_to c m) /\ d' = advance (zlen bs) d) /\
  (c_decode c v old d = DPanic <-> exists bs rest, frame d = bs ++ rest /\ rejectss (c_schema c) v bs) /\
  (forall e d', c_decode c v old d = DErr e d' -> e = ErrShortBuffer).
Proof.
  intros v old d Hd Hb. destruct (proj2 gdecode_exact (c_schema c) v (c_to c old)) as (E1 & E2 & E3).
  specialize (E3 d Hd Hb). rewrite (l_decode c L). unfold dmap. split; [|split].
  - intros m d'. split.
    + destruct (gdecodes _ _ _ d) as [x d1|e d1|]; [|discriminate|discriminate]. intros Q. injection Q as <- <-.
      destruct E3 as (bs & rest & Hf & Ha & ->). exists bs, rest. rewrite (l_to_of c L). auto.
    + intros (bs & rest & Hf & Ha & ->). rewrite (E1 _ _ Ha d rest Hd Hf), (l_of_to c L). reflexivity.
  - split.
    + destruct (gdecodes _ _ _ d) as [x d1|e d1|]; [discriminate|discriminate|]. intros _. exact E3.
    + intros (bs & rest & Hf & Hr). rewrite (E2 _ Hr d rest Hd Hf). reflexivity.
  - intros e d'. destruct (gdecodes _ _ _ d) as [x d1|e1 d1|]; [discriminate| |discriminate]. congruence.
Qed.
End One.

(** ** Encodings are in the grammar *)
Lemma accepts_list_map {A B} (G : list Z -> B -> Prop) (w : A -> list Z) (g : A -> B) xs :
  (forall x, In x xs -> G (w x) (g x)) -> accepts_list G (zlen xs) (flat_map w xs) (map g xs).
Proof.
  induction xs as [|x xs IH]; intros Hx; cbn [flat_map map]; [apply accepts_list_nil; auto|].
  rewrite zlen_cons. apply accepts_list_cons. exists (w x), (flat_map w xs). split; [reflexivity|].
  split; [apply Hx; left; reflexivity|apply IH; intros y Hy; apply Hx; right; exact Hy].
Qed.
Lemma accepts_array_wire {A} (G : list Z -> A -> Prop) (w : A -> list Z) s : glen s < 2 ^ 31 ->
  Forall (fun x => G (w x) x) (items s) -> accepts_array G (w_nullable_array w s) s.
Proof.
  intros Hl Hx. destruct s as [xs|]; [|left; auto]. right. cbn [w_nullable_array items glen] in *.
  exists (zlen xs), (flat_map w xs), xs. pose proof (zlen_nonneg xs). split; [unfold glen in Hl; cbn [items] in Hl; lia|]. split; [reflexivity|].
  split; [|reflexivity]. rewrite <- (map_id xs) at 3. apply accepts_list_map. rewrite Forall_forall in Hx. exact Hx.
Qed.
Lemma accepts_wire :
  (forall t v old x, fits t v x -> accepts t v old (wire t v x) (seen t v x)) /\
  (forall fs v old x, fit fs v x -> acceptss fs v old (wires fs v x) (receive fs v old x)).
Proof.
  apply schema_mind; cbn [wire wires accepts acceptss seen receive fits fit den dens]; intros.
  - exists (if x then 1 else 0). unfold is_byte. destruct x; repeat split; lia.
  - auto.
  - auto.
  - auto.
  - auto.
  - right. auto.
  - exists (items x). auto.
  - apply accepts_array_wire; [apply H|]. eapply Forall_impl; [|apply H]. intros a Ha. cbn beta in *. auto.
  - apply accepts_array_wire; [apply H|]. eapply Forall_impl; [|apply H]. intros a Ha. cbn beta in *. auto.
  - apply accepts_array_wire; [apply H|]. eapply Forall_impl; [|apply H]. intros a Ha. right. auto.
  - right. exists (zlen (items x)), (flat_map (wires fs v) (items x)), (map (receive fs v (zeros fs)) (items x)).
    destruct H0 as [H0 H1]. split; [split; [apply zlen_nonneg|exact H0]|]. split; [reflexivity|].
    split; [|reflexivity]. apply accepts_list_map. rewrite Forall_forall in H1. intros y Hy. apply H, H1, Hy.
  - reflexivity.
  - destruct H1 as [H1 H2]. exists (if active r v then wire t v (fst x) else []), (wires rest v (snd x)).
    split; [reflexivity|]. cbn [fst snd]. split; [|apply H0, H2]. destruct (active r v); [apply H, H1; reflexivity|auto].
Qed.

(** ** Encoding again *)
Lemma w_array_items {A} (w w' : A -> list Z) s s' : zlen (items s) = zlen (items s') ->
  flat_map w (items s) = flat_map w' (items s') -> w_array w s = w_array w' s'.
Proof. intros L F. unfold w_array, glen. rewrite L, F. reflexivity. Qed.
Lemma flat_map_map {A} (w : A -> list Z) (f : A -> A) l : (forall x, w (f x) = w x) -> flat_map w (map f l) = flat_map w l.
Proof. intros E. induction l as [|x l IH]; [reflexivity|]. cbn [map flat_map]. rewrite E, IH. reflexivity. Qed.
Lemma wire_seen :
  (forall t v x, wire t v (seen t v x) = wire t v x) /\
  (forall fs v old x, wires fs v (receive fs v old x) = wires fs v x).
Proof.
  apply schema_mind; cbn [wire wires seen receive den dens]; intros; try reflexivity.
  - apply w_array_items; cbn [items]; [unfold zlen; rewrite map_length; reflexivity|].
    apply flat_map_map. intros y. apply H.
  - cbn [fst snd]. rewrite H0. destruct (active r v); [rewrite H|]; reflexivity.
Qed.

Lemma accepts_string_length bs s : accepts_string bs s -> zlen (w_string s) = zlen bs.
Proof. unfold w_string. intros [[-> ->]|[-> _]]; rewrite ?zlen_app, ?zlen_be; reflexivity. Qed.
Lemma accepts_list_lengths {A} (G : list Z -> A -> Prop) (w : A -> list Z) n bs xs :
  (forall b x, G b x -> zlen (w x) = zlen b) -> accepts_list G n bs xs -> zlen (flat_map w xs) = zlen bs.
Proof.
  intros HG (parts & -> & F & _). induction F as [|b x bs xs Hx F IH]; [reflexivity|]. cbn [flat_map concat].
  rewrite !zlen_app, (HG _ _ Hx), IH. reflexivity.
Qed.
Lemma accepts_array_length {A} (G : list Z -> A -> Prop) (w : A -> list Z) bs s :
  (forall b x, G b x -> zlen (w x) = zlen b) -> accepts_array G bs s -> zlen (w_nullable_array w s) = zlen bs.
Proof.
  intros HG [[-> ->]|(n & bs' & xs & _ & -> & Ha & ->)]; cbn [w_nullable_array]; [reflexivity|].
  unfold w_array. cbn [items]. rewrite !zlen_app, !zlen_be. f_equal. apply (accepts_list_lengths G w n); assumption.
Qed.
Lemma accepts_length :
  (forall t v bs x, accepts t v (zero t) bs x -> zlen (wire t v x) = zlen bs) /\
  (forall fs v bs x, acceptss fs v (zeros fs) bs x -> zlen (wires fs v x) = zlen bs).
Proof.
  apply schema_mind; cbn [wire wires accepts acceptss zero zeros den dens]; intros.
  - destruct H as (b & _ & -> & ->). unfold w_bool. destruct (b =? 1); reflexivity.
  - destruct H as [_ ->]. reflexivity.
  - destruct H as [_ ->]. reflexivity.
  - destruct H as [_ ->]. reflexivity.
  - destruct H as [_ ->]. reflexivity.
  - apply accepts_string_length, H.
  - destruct H as (s & -> & -> & _). reflexivity.
  - eapply accepts_array_length; [|exact H]. intros b y [_ ->]. reflexivity.
  - eapply accepts_array_length; [|exact H]. intros b y [_ ->]. reflexivity.
  - eapply accepts_array_length; [|exact H]. apply accepts_string_length.
  - destruct H0 as [(n & _ & -> & ->)|(n & bs' & xs & _ & -> & Ha & ->)]; [reflexivity|].
    unfold w_array. rewrite !zlen_app, !zlen_be. f_equal. cbn [items]. eapply accepts_list_lengths; [|exact Ha]. intros b y Hy. apply H, Hy.
  - subst. reflexivity.
  - destruct H1 as (b1 & b2 & -> & H1 & H2). cbn [fst snd] in *. rewrite !zlen_app. f_equal; [|apply H0, H2].
    destruct (active r v); [apply H, H1|]. destruct H1 as [-> _]. reflexivity.
Qed.

(** ** Which bytes come back *)
Lemma plain_list_wire {A} (P : list Z -> Prop) (ok : A -> Prop) (w : A -> list Z) bs : (forall b, P b -> exists x, ok x /\ w x = b) -> plain_list P bs ->
  exists s : gslice A, glen s < 2 ^ 31 /\ Forall ok (items s) /\ w_array w s = bs.
Proof.
  intros H (parts & Hn & -> & Hp).
  assert (Q : exists xs, zlen xs = zlen parts /\ Forall ok xs /\ flat_map w xs = concat parts).
  { clear Hn. induction Hp as [|b parts Hb _ (xs & E1 & E2 & E3)]; [exists []; repeat constructor|].
    destruct (H b Hb) as (x & Hx & <-). exists (x :: xs). unfold zlen in *. cbn [length flat_map concat]. rewrite E3. split; [lia|]. split; [constructor; assumption|reflexivity]. }
  destruct Q as (xs & E1 & E2 & E3). exists (Some xs). unfold w_array, glen. cbn [items]. rewrite E1, E3. split; [exact Hn|]. split; [exact E2|reflexivity].
Qed.
Lemma plain_nullable_wire {A} (P : list Z -> Prop) (ok : A -> Prop) (w : A -> list Z) bs : (forall b, P b -> exists x, ok x /\ w x = b) -> plain_nullable P bs ->
  exists s : gslice A, (glen s < 2 ^ 31 /\ Forall ok (items s)) /\ w_nullable_array w s = bs.
Proof.
  intros H [->|Hp]; [exists None; split; [split; [reflexivity|constructor]|reflexivity]|].
  destruct (plain_list_wire P ok w bs H Hp) as (s & H1 & H2 & H3). exists (Some (items s)). split; [split; assumption|exact H3].
Qed.
Lemma plain_wire :
  (forall t v bs, plain t v bs -> exists x, fits t v x /\ wire t v x = bs) /\
  (forall fs v bs, plains fs v bs -> exists x, fit fs v x /\ wires fs v x = bs).
Proof.
  apply schema_mind; cbn [wire wires plain plains fits fit den dens]; intros.
  - destruct H as [->| ->]; [exists false|exists true]; split; reflexivity || exact I.
  - destruct H as (x & H & ->). eauto.
  - destruct H as (x & H & ->). eauto.
  - destruct H as (x & H & ->). eauto.
  - destruct H as (x & H & ->). eauto.
  - destruct H as (s & H & ->). exists s. auto.
  - destruct H as (s & H & ->). exists (Some s). auto.
  - eapply plain_nullable_wire; [|exact H]. intros b (x & Hx & ->). eauto.
  - eapply plain_nullable_wire; [|exact H]. intros b (x & Hx & ->). eauto.
  - eapply plain_nullable_wire; [|exact H]. intros b (x & Hx & ->). exists x. auto.
  - destruct (plain_list_wire _ (fit fs v) (wires fs v) bs (H v) H0) as (s & H1 & H2 & H3). exists s. auto.
  - exists tt. auto.
  - destruct H1 as (b1 & b2 & -> & H1 & H2). destruct (H0 _ _ H2) as (y & Y1 & Y2). destruct (active r v).
    + destruct (H _ _ H1) as (x & X1 & X2). exists (x, y). cbn [fst snd]. rewrite X2, Y2. auto.
    + subst b1. exists (zero t, y). cbn [fst snd]. rewrite Y2. repeat split; auto. discriminate.
Qed.
Lemma wire_list_plain {A} (P : list Z -> Prop) (ok : A -> Prop) (w : A -> list Z) (s : gslice A) : (forall x, ok x -> P (w x)) -> glen s < 2 ^ 31 -> Forall ok (items s) ->
  plain_list P (w_array w s).
Proof.
  intros H Hn Hs. exists (map w (items s)). unfold glen, zlen in *. rewrite map_length. split; [exact Hn|]. split.
  - unfold w_array, zlen. rewrite flat_map_concat_map. reflexivity.
  - rewrite Forall_map. eapply Forall_impl; [|exact Hs]. exact H.
Qed.
Lemma wire_nullable_plain {A} (P : list Z -> Prop) (ok : A -> Prop) (w : A -> list Z) (s : gslice A) : (forall x, ok x -> P (w x)) -> glen s < 2 ^ 31 -> Forall ok (items s) ->
  plain_nullable P (w_nullable_array w s).
Proof. intros H Hn Hs. destruct s as [s|]; [right; exact (wire_list_plain P ok w (Some s) H Hn Hs)|left; reflexivity]. Qed.
Lemma wire_plain :
  (forall t v x, fits t v x -> plain t v (wire t v x)) /\
  (forall fs v x, fit fs v x -> plains fs v (wires fs v x)).
Proof.
  apply schema_mind; cbn [wire wires plain plains fits fit den dens]; intros.
  - destruct x; auto.
  - exists x. auto.
  - exists x. auto.
  - exists x. auto.
  - exists x. auto.
  - exists x. auto.
  - exists (items x). auto.
  - destruct H as [H1 H2]. eapply wire_nullable_plain; [|exact H1|exact H2]. eauto.
  - destruct H as [H1 H2]. eapply wire_nullable_plain; [|exact H1|exact H2]. eauto.
  - destruct H as [H1 H2]. eapply wire_nullable_plain; [|exact H1|exact H2]. intros y Hy. exists y. auto.
  - destruct H0 as [H1 H2]. eapply wire_list_plain; [|exact H1|exact H2]. intros y Hy. apply H, Hy.
  - reflexivity.
  - destruct H1 as [H1 H2]. exists (if active r v then wire t v (fst x) else []), (wires rest v (snd x)). split; [reflexivity|]. split; [|apply H0, H2].
    destruct (active r v); [apply H, H1; reflexivity|reflexivity].
Qed.
Lemma accepts_list_forall {A} (G : list Z -> A -> Prop) (P : A -> Prop) n bs xs : (forall b x, G b x -> P x) -> accepts_list G n bs xs -> Forall P xs.
Proof. intros H (parts & _ & F & _). induction F; constructor; eauto. Qed.
Lemma accepts_array_forall {A} (G : list Z -> A -> Prop) (P : A -> Prop) bs s : (forall b x, G b x -> P x) -> accepts_array G bs s -> glen s < 2 ^ 31 /\ Forall P (items s).
Proof.
  intros H [[_ ->]|(n & bs' & xs & Hn & _ & Ha & ->)]; [split; [reflexivity|constructor]|]. split; [|exact (accepts_list_forall _ _ _ _ _ H Ha)].
  unfold glen. cbn [items]. rewrite (accepts_list_length _ _ _ _ Ha). lia.
Qed.
Lemma accepts_string_short bs s : accepts_string bs s -> zlen s < 2 ^ 15.
Proof. intros [[_ ->]|[_ H]]; [reflexivity|exact H]. Qed.
Lemma accepts_fits :
  (forall t v bs x, accepts t v (zero t) bs x -> fits t v x) /\
  (forall fs v bs x, acceptss fs v (zeros fs) bs x -> fit fs v x).
Proof.
  apply schema_mind; cbn [accepts acceptss zero zeros fits fit den dens]; intros; try apply H; try exact I.
  - exact (accepts_string_short _ _ H).
  - destruct H as (s & -> & _ & H). exact H.
  - eapply accepts_array_forall; [|exact H]. intros b y [Hy _]. exact Hy.
  - eapply accepts_array_forall; [|exact H]. intros b y [Hy _]. exact Hy.
  - eapply accepts_array_forall; [|exact H]. exact accepts_string_short.
  - destruct H0 as [(n & _ & _ & ->)|(n & bs' & xs & Hn & _ & Ha & ->)]; [split; [reflexivity|constructor]|].
    split; [pose proof (accepts_list_length _ _ _ _ Ha); change (@zlen (dens fs) xs < 2 ^ 31); lia|]. eapply accepts_list_forall; [|exact Ha]. intros b y Hy. exact (H _ _ _ Hy).
  - destruct H1 as (b1 & b2 & -> & H1 & H2). cbn [fst snd] in *. split; [|exact (H0 _ _ _ H2)]. intros Ea. rewrite Ea in H1. exact (H _ _ _ H1).
Qed.

Section Again.
Context (name : String.string) (c : codec) (H : In (name, c) all_codecs).
Let L := codec_linked name c H.

Lemma encodings_accepted : forall v old m, fit (c_schema c) v (c_to c m) ->
  acceptss (c_schema c) v (c_to c old) (wires (c_schema c) v (c_to c m)) (receive (c_schema c) v (c_to c old) (c_to c m)).
Proof. intros. apply accepts_wire. assumption. Qed.

Lemma forwarded : forall v old m d m' d', fit (c_schema c) v (c_to c m) -> dec_ok d ->
  frame d = wires (c_schema c) v (c_to c m) -> c_decode c v old d = DOk m' d' ->
  Emits (c_encode c v m') (wires (c_schema c) v (c_to c m)).
Proof.
  intros v old m d m' d' Hf Hd Hfr E. rewrite <- (app_nil_r (wires _ _ _)) in Hfr.
  rewrite (linked_decodes c L v old m Hf d [] Hd Hfr) in E.
  assert (m' = c_of c (receive (c_schema c) v (c_to c old) (c_to c m))) by congruence. subst m'.
  pose proof (linked_emits c L v (c_of c (receive (c_schema c) v (c_to c old) (c_to c m)))) as Q.
  rewrite (l_to_of c L), (proj2 wire_seen) in Q. exact Q.
Qed.

Lemma same_length : forall v d m d', dec_ok d -> Forall is_byte (frame d) -> c_decode c v (c_zero c) d = DOk m d' ->
  exists bs, Emits (c_encode c v m) bs /\ zlen bs = d_offset d' - d_offset d.
Proof.
  intros v d m d' Hd Hb E. apply (decode_exact name c H v (c_zero c) d Hd Hb) in E. destruct E as (bs & rest & _ & Ha & ->).
  exists (wires (c_schema c) v (c_to c m)). split; [apply (linked_emits c L)|].
  rewrite (l_zero c L) in Ha. rewrite (proj2 accepts_length _ _ _ _ Ha). unfold advance. cbn [d_offset]. lia.
Qed.
Lemma size_read : forall v d m d', dec_ok d -> Forall is_byte (frame d) -> c_decode c v (c_zero c) d = DOk m d' ->
  c_size c v m = int32 (d_offset d' - d_offset d).
Proof.
  intros v d m d' Hd Hb E. apply (decode_exact name c H v (c_zero c) d Hd Hb) in E. destruct E as (bs & rest & _ & Ha & ->).
  rewrite (linked_size c L). rewrite (l_zero c L) in Ha. rewrite (proj2 accepts_length _ _ _ _ Ha). f_equal. unfold advance. cbn [d_offset]. lia.
Qed.
Lemma comes_back : forall v d m d', dec_ok d -> Forall is_byte (frame d) -> c_decode c v (c_zero c) d = DOk m d' ->
  exists bs rest, frame d = bs ++ rest /\ zlen bs = d_offset d' - d_offset d /\ (Emits (c_encode c v m) bs <-> plains (c_schema c) v bs).
Proof.
  intros v d m d' Hd Hb E. pose proof E as E0. apply (decode_exact name c H v (c_zero c) d Hd Hb) in E. destruct E as (bs & rest & Hf & Ha & ->).
  exists bs, rest. split; [exact Hf|]. split; [unfold advance; cbn [d_offset]; lia|]. rewrite (l_zero c L) in Ha. split.
  - intros He. pose proof (Emits_inj _ _ _ He (linked_emits c L v m)) as ->. apply (proj2 wire_plain), (proj2 accepts_fits _ _ _ _ Ha).
  - intros Hp. destruct (proj2 plain_wire _ _ _ Hp) as (x & Hx & <-).
    pose proof (linked_decodes c L v (c_zero c) (c_of c x)) as D. rewrite (l_to_of c L) in D. rewrite (D Hx d rest Hd Hf) in E0.
    assert (m = c_of c (receive (c_schema c) v (c_to c (c_zero c)) x)) by congruence. subst m.
    pose proof (linked_emits c L v (c_of c (receive (c_schema c) v (c_to c (c_zero c)) x))) as Q. rewrite (l_to_of c L), (proj2 wire_seen) in Q. exact Q.
Qed.
End Again.

(** ** Concrete cases *)
From Verif Require Import Msg02.
Lemma grammar_case :
  let bs := [0; 0; 0; 2; 0; 1; 97; 255; 255; 2] in
  Forall is_byte bs /\
  MetadataRequest_Decode 4 MetadataRequest_zero (NewDecoder (bs ++ [7]) 11) =
    DOk (mkMetadataRequest (Some [mkMetadataRequestTopic3 [97]; mkMetadataRequestTopic3 []]) false false false)
        (mkDecoder (bs ++ [7]) 11 10) /\
  MetadataRequest_Decode 4 MetadataRequest_zero (NewDecoder [0; 0; 0; 2; 0; 1; 97; 255; 254] 9) = DPanic /\
  rejectss MetadataRequest_schema 4 [0; 0; 0; 2; 0; 1; 97; 255; 254].
Proof.
  cbv zeta. split; [repeat constructor; discriminate|]. split; [vm_compute; reflexivity|]. split; [vm_compute; reflexivity|].
  cbn [rejectss MetadataRequest_schema active]. left. split; [reflexivity|]. cbn [rejects].
  exists 2, [0; 1; 97; 255; 254]. split; [lia|]. split; [reflexivity|].
  exists 1, [0; 1; 97], [([97], tt)], [255; 254]. split; [|split; [lia|split; [|reflexivity]]].
  - exists [[0; 1; 97]]. split; [reflexivity|]. split; [|reflexivity]. constructor; [|constructor].
    cbn [acceptss MetadataRequestTopic3_schema active]. exists [0; 1; 97], []. split; [reflexivity|]. split; [|reflexivity].
    cbn [accepts fst]. right. split; reflexivity.
  - cbn [rejectss MetadataRequestTopic3_schema active rejects]. left. split; [reflexivity|]. exists (-2). split; [lia|reflexivity].
Qed.
Lemma null_topics : forall v, 4 <= v <= 7 -> exists bs m, Forall is_byte bs /\
  MetadataRequest_Decode v MetadataRequest_zero (NewDecoder bs (zlen bs)) = DOk m (mkDecoder bs (zlen bs) (zlen bs)) /\
  MetadataRequest_Topics m = None /\
  Emits (MetadataRequest_Encode v m) [0; 0; 0; 0; 1] /\ bs = [255; 255; 255; 255; 1].
Proof.
  intros v Hv. exists [255; 255; 255; 255; 1], (mkMetadataRequest None true false false).
  split; [repeat constructor; discriminate|]. split; [|split; [reflexivity|split; [|reflexivity]]].
  - assert (C : v = 4 \/ v = 5 \/ v = 6 \/ v = 7) by lia. destruct C as [->|[->|[->| ->]]]; vm_compute; reflexivity.
  - pose proof (linked_emits _ MetadataRequest_linked v (mkMetadataRequest None true false false)) as E.
    replace (wires _ _ _) with [0; 0; 0; 0; 1] in E; [exact E|].
    assert (C : v = 4 \/ v = 5 \/ v = 6 \/ v = 7) by lia. destruct C as [->|[->|[->| ->]]]; vm_compute; reflexivity.
Qed.
