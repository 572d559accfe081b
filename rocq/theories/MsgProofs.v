(** * Further lemmas: panics, failing writers, sequences *)
From Coq Require String.
From Verif Require Import GoBase Binary Utf8 Encoder Decoder Sizeof Spec SchemaSpec GoLemmas
  EncProofs DecProofs VarProofs Utf8Proofs SizeProofs Schema Link AllMessages Calls.
Ltac Zify.zify_post_hook ::= Z.div_mod_to_equations.
Local Open Scope list_scope.
Local Open Scope Z_scope.

Lemma codec_linked name c : In (name, c) all_codecs -> linked c.
Proof.
  intros H. pose proof all_linked as A. rewrite Forall_forall in A. exact (A _ H).
Qed.

(** ** Panics *)

(** Whatever follows, [m] panics on [bs]. *)
Definition Panics {A} (m : Dec A) (bs : list Z) : Prop :=
  forall d rest, dec_ok d -> frame d = bs ++ rest -> m d = DPanic.

Lemma Panics_bind_l {A B} (m : Dec A) (f : A -> Dec B) bs : Panics m bs -> Panics (bind m f) bs.
Proof. intros H d rest Hd Hf. unfold bind. rewrite (H d rest Hd Hf). reflexivity. Qed.
Lemma Panics_bind_r {A B} (m : Dec A) (f : A -> Dec B) bs1 a bs2 :
  Decodes m bs1 a -> Panics (f a) bs2 -> Panics (bind m f) (bs1 ++ bs2).
Proof.
  intros Hm Hk d rest Hd Hf. rewrite <- app_assoc in Hf. unfold bind. rewrite (Hm d _ Hd Hf).
  destruct (frame_advance_app _ _ _ Hd Hf) as [Hd' Hf']. apply (Hk _ rest Hd' Hf').
Qed.
Lemma Panics_take_slice n : n < 0 -> Panics (take_slice n) [].
Proof.
  intros Hn d rest Hd _. rewrite take_slice_eq by exact Hd.
  pose proof (zlen_nonneg (frame d)).
  replace (n <=? zlen (frame d)) with true by (symmetry; apply Z.leb_le; lia).
  replace (n <? 0) with true by (symmetry; apply Z.ltb_lt; lia). reflexivity.
Qed.

Lemma Panics_string n : - 2 ^ 15 <= n < -1 -> Panics dString (be 2 n).
Proof.
  intros Hn. rewrite <- (app_nil_r (be 2 n)).
  eapply Panics_bind_r; [apply Decodes_int16; unfold is_int16; lia|]. cbn beta.
  replace (n =? -1) with false by (symmetry; apply Z.eqb_neq; lia). apply Panics_take_slice. lia.
Qed.
Lemma Panics_bytes n : - 2 ^ 31 <= n < 0 -> Panics dBytes (be 4 n).
Proof.
  intros Hn. rewrite <- (app_nil_r (be 4 n)).
  eapply Panics_bind_r; [apply Decodes_int32; unfold is_int32; lia|].
  apply Panics_bind_l, Panics_take_slice. lia.
Qed.
Lemma Panics_prim_array {A} (f : Dec A) n : - 2 ^ 31 <= n < -1 -> Panics (prim_array f) (be 4 n).
Proof.
  intros Hn. rewrite <- (app_nil_r (be 4 n)).
  eapply Panics_bind_r; [apply Decodes_int32; unfold is_int32; lia|]. cbn beta.
  replace (n =? -1) with false by (symmetry; apply Z.eqb_neq; lia).
  replace (n <? 0) with true by (symmetry; apply Z.ltb_lt; lia).
  intros d rest _ _. reflexivity.
Qed.

Lemma fits_zero :
  (forall t v, fits t v (zero t)) /\ (forall fs v, fit fs v (zeros fs)).
Proof.
  apply schema_mind; intros; cbn [fits fit zero zeros fst snd]; unfold glen, zlen; cbn [items length];
    try split; try (unfold is_int8, is_int16, is_int32, is_int64; lia); auto.
Qed.

Lemma bytes_app a b : Forall is_byte a -> Forall is_byte b -> Forall is_byte (a ++ b).
Proof. intros. apply Forall_app. auto. Qed.

Lemma wire_zero_bytes :
  (forall t v, Forall is_byte (wire t v (zero t))) /\ (forall fs v, Forall is_byte (wires fs v (zeros fs))).
Proof.
  apply schema_mind; intros; cbn [wire wires zero zeros fst snd].
  all: try apply be_bytes.
  - repeat constructor; unfold is_byte; lia.
  - apply bytes_app; [apply be_bytes|constructor].
  - apply bytes_app; [apply be_bytes|constructor].
  - apply bytes_app; [apply be_bytes|constructor].
  - constructor.
  - apply bytes_app; [|apply H0]. destruct (active r v); [apply H|constructor].
Qed.

(** Every type that carries a string, byte array or primitive array at version
    [v] has a byte sequence that makes its decoder panic. *)
Lemma gdecode_panics :
  (forall t v, safe t v = false -> exists bs, Forall is_byte bs /\ forall old, Panics (gdecode t v old) bs) /\
  (forall fs v, safes fs v = false -> exists bs, Forall is_byte bs /\ forall old, Panics (gdecodes fs v old) bs).
Proof.
  apply schema_mind; cbn [safe safes gdecode gdecodes den dens]; intros; try discriminate.
  - exists (be 2 (-2)). split; [apply be_bytes|]. intros _. apply Panics_string. lia.
  - exists (be 4 (-1)). split; [apply be_bytes|]. intros _. apply Panics_bytes. lia.
  - exists (be 4 (-2)). split; [apply be_bytes|]. intros _. apply Panics_prim_array. lia.
  - exists (be 4 (-2)). split; [apply be_bytes|]. intros _. apply Panics_prim_array. lia.
  - exists (be 4 (-2)). split; [apply be_bytes|]. intros _. apply Panics_prim_array. lia.
  - destruct (H v H0) as (bs & Hb & Hp). exists (be 4 1 ++ bs). split; [apply bytes_app; [apply be_bytes|exact Hb]|].
    intros old. eapply Panics_bind_r; [apply Decodes_int32; unfold is_int32; lia|]. cbn beta.
    change (0 <=? 1) with true. cbv iota. apply Panics_bind_l. change (Z.to_nat 1) with 1%nat.
    cbn [repeat_dec]. apply Panics_bind_l. apply Hp.
  - destruct (active r v) eqn:Ea.
    + destruct (safe t v) eqn:Es.
      * cbn [orb negb andb] in H1. destruct (H0 v H1) as (bs & Hb & Hp).
        exists (wire t v (zero t) ++ bs). split; [apply bytes_app; [apply wire_zero_bytes|exact Hb]|].
        intros old. eapply Panics_bind_r.
        -- unfold dec_if. apply (proj1 gdecode_spec). apply fits_zero.
        -- apply Panics_bind_l. apply Hp.
      * destruct (H v Es) as (bs & Hb & Hp). exists bs. split; [exact Hb|]. intros old.
        apply Panics_bind_l. unfold dec_if. apply Hp.
    + cbn [orb negb andb] in H1. destruct (H0 v H1) as (bs & Hb & Hp). exists bs. split; [exact Hb|].
      intros old. change bs with ([] ++ bs). eapply Panics_bind_r.
      * unfold dec_if. apply Decodes_ret.
      * apply Panics_bind_l. apply Hp.
Qed.

Lemma linked_panics c : linked c -> forall v, safes (c_schema c) v = false ->
  exists bs, Forall is_byte bs /\ forall old, Panics (c_decode c v old) bs.
Proof.
  intros L v Hs. destruct (proj2 gdecode_panics (c_schema c) v Hs) as (bs & Hb & Hp).
  exists bs. split; [exact Hb|]. intros old d rest Hd Hf. rewrite (l_decode c L). unfold dmap.
  rewrite (Hp (c_to c old) d rest Hd Hf). reflexivity.
Qed.

(** ** Failing writers *)

Lemma run_chunks_target cs : forall e,
  t_write (e_target (run_chunks cs e)) = t_write (e_target e) /\
  t_flush (e_target (run_chunks cs e)) = t_flush (e_target e).
Proof.
  induction cs as [|c cs IH]; intros e; [auto|]. unfold run_chunks in *. cbn [fold_left].
  destruct (IH (put_chunk c e)) as [H1 H2]. rewrite H1, H2. unfold put_chunk.
  destruct (e_err e); auto.
Qed.

Lemma nth_error_snoc {A} (l : list A) x k : nth_error (l ++ [x]) k =
  if (k =? length l)%nat then Some x else nth_error l k.
Proof.
  destruct (Nat.eqb_spec k (length l)) as [->|H].
  - rewrite nth_error_app2, Nat.sub_diag by lia. reflexivity.
  - destruct (Nat.ltb_spec k (length l)).
    + apply nth_error_app1. exact H0.
    + rewrite (proj2 (nth_error_None (l ++ [x]) k)) by (rewrite app_length; cbn; lia).
      symmetry. apply nth_error_None. lia.
Qed.

(** The encoder knows exactly whether its last write failed. *)
Definition tracks (e : Encoder) : Prop :=
  match e_err e with
  | None => forall k x, ~ failed_at (e_target e) k x
  | Some x => exists k, length (t_log (e_target e)) = S k /\ failed_at (e_target e) k x /\
                        forall j y, failed_at (e_target e) j y -> j = k
  end.

Lemma failed_at_write c e k x : failed_at (e_target (write c e)) k x <->
  (k = length (t_log (e_target e)) /\ t_write (e_target e) (t_log (e_target e)) c = Some x) \/
  failed_at (e_target e) k x.
Proof.
  unfold failed_at, write. cbn [e_target t_log t_write]. split.
  - intros (data & Hn & Hw). rewrite nth_error_snoc in Hn.
    destruct (Nat.eqb_spec k (length (t_log (e_target e)))) as [->|Hk].
    + injection Hn as <-. left. rewrite firstn_app, Nat.sub_diag, firstn_all in Hw. cbn in Hw.
      rewrite app_nil_r in Hw. auto.
    + right. exists data. split; [exact Hn|].
      assert (k < length (t_log (e_target e)))%nat by (apply nth_error_Some; congruence).
      rewrite firstn_app in Hw. replace (k - length (t_log (e_target e)))%nat with 0%nat in Hw by lia.
      cbn in Hw. rewrite app_nil_r in Hw. exact Hw.
  - intros [[-> Hw]|(data & Hn & Hw)].
    + exists c. rewrite nth_error_snoc, Nat.eqb_refl. split; [reflexivity|].
      rewrite firstn_app, Nat.sub_diag, firstn_all. cbn. rewrite app_nil_r. exact Hw.
    + exists data. assert (k < length (t_log (e_target e)))%nat by (apply nth_error_Some; congruence).
      rewrite nth_error_snoc. destruct (Nat.eqb_spec k (length (t_log (e_target e)))); [lia|].
      split; [exact Hn|]. rewrite firstn_app. replace (k - length (t_log (e_target e)))%nat with 0%nat by lia.
      cbn. rewrite app_nil_r. exact Hw.
Qed.

Lemma tracks_write c e : e_err e = None -> tracks e -> tracks (write c e).
Proof.
  unfold tracks. intros He. rewrite He. intros Ht. change (e_err (write c e)) with (t_write (e_target e) (t_log (e_target e)) c).
  destruct (t_write (e_target e) (t_log (e_target e)) c) as [x|] eqn:E.
  - exists (length (t_log (e_target e))). cbn [write e_target t_log]. rewrite app_length. cbn [length].
    split; [lia|]. split.
    + apply failed_at_write. left. auto.
    + intros j y Hj. apply failed_at_write in Hj. destruct Hj as [[-> _]|Hj]; [reflexivity|]. exfalso. eapply Ht, Hj.
  - intros k x Hk. apply failed_at_write in Hk. destruct Hk as [[_ H]|H]; [congruence|]. eapply Ht, H.
Qed.

Lemma tracks_run cs : forall e, tracks e -> tracks (run_chunks cs e).
Proof.
  induction cs as [|c cs IH]; intros e He; [exact He|]. unfold run_chunks in *. cbn [fold_left].
  apply IH. unfold put_chunk. destruct (e_err e) eqn:E; [exact He|]. apply tracks_write; assumption.
Qed.

Lemma tracks_new t : t_log t = [] -> tracks (NewEncoder t).
Proof.
  intros H k x (data & Hn & _). cbn in Hn. rewrite H in Hn. destruct k; discriminate.
Qed.

(** What is written is a prefix of the chunks, all of them if nothing failed. *)
Lemma run_chunks_prefix cs : forall e,
  exists done rest, cs = done ++ rest /\
    t_log (e_target (run_chunks cs e)) = t_log (e_target e) ++ done /\
    (e_err (run_chunks cs e) = None -> rest = []).
Proof.
  induction cs as [|c cs IH]; intros e.
  - exists [], []. cbn. rewrite app_nil_r. auto.
  - unfold run_chunks in *. cbn [fold_left]. unfold put_chunk at 2 4. destruct (e_err e) eqn:E.
    + exists [], (c :: cs). split; [reflexivity|].
      pose proof (run_chunks_err cs e e0 E) as R. unfold run_chunks in R. rewrite R, app_nil_r.
      split; [reflexivity|]. congruence.
    + destruct (IH (write c e)) as (done & rest & -> & Hl & Hr). exists (c :: done), rest.
      split; [reflexivity|]. split; [|exact Hr]. rewrite Hl. cbn. rewrite <- app_assoc. reflexivity.
Qed.

Lemma Decodes_seq_list {A B} (m : Dec B) (w : A -> list Z) (g : A -> B) l :
  (forall x, In x l -> Decodes m (w x) (g x)) -> Decodes (repeat_dec (List.length l) m) (flat_map w l) (map g l).
Proof. apply Decodes_repeat. Qed.

(** ** Prefixes *)
Lemma Decodes_prefix {A} (m : Dec A) a b x y r1 r2 :
  Decodes m a x -> Decodes m b y -> a ++ r1 = b ++ r2 -> a = b /\ x = y.
Proof.
  intros Ha Hb E.
  set (d := {| d_raw := a ++ r1; d_length := zlen (a ++ r1); d_offset := 0 |}).
  assert (Hd : dec_ok d) by (unfold dec_ok, d; cbn; pose proof (zlen_nonneg (a ++ r1)); lia).
  assert (Hf : frame d = a ++ r1).
  { unfold frame, d. cbn [d_raw d_length d_offset]. rewrite Z.sub_0_r. change (Z.to_nat 0) with 0%nat.
    cbn [skipn]. apply firstn_all2. unfold zlen. lia. }
  pose proof (Ha d r1 Hd Hf) as H1. rewrite E in Hf. pose proof (Hb d r2 Hd Hf) as H2.
  rewrite H1 in H2. injection H2 as Hxy Ho. split; [|exact Hxy].
  assert (Hl : zlen a = zlen b) by lia.
  assert (length a = length b) by (unfold zlen in Hl; lia).
  apply (f_equal (firstn (length a))) in E. rewrite firstn_app, Nat.sub_diag, firstn_all in E.
  rewrite H, firstn_app, Nat.sub_diag, firstn_all in E. cbn in E. rewrite !app_nil_r in E. exact E.
Qed.

(** ** Sequences of Put calls *)

Lemma perform_runs c : unguarded c = false -> exists cs, Runs (perform c) cs.
Proof.
  destruct c; cbn [unguarded perform]; intros H; try discriminate; eexists.
  - apply Runs_PutInt8. - apply Runs_PutInt16. - apply Runs_PutInt32. - apply Runs_PutInt64.
  - apply Runs_PutBool. - apply Runs_PutArrayLength. - apply Runs_PutBytes. - apply Runs_PutString.
  - apply Runs_PutNullableString. - apply Runs_PutInt32Array. - apply Runs_PutInt64Array.
  - apply Runs_PutStringArray. - apply Runs_PutVarInt.
Qed.

Lemma perform_emits c : exists bs, Emits (perform c) bs.
Proof.
  destruct (unguarded c) eqn:E.
  - destruct c; try discriminate; cbn [perform]; eexists.
    + apply Emits_PutVarBytes.
    + apply Emits_PutVarString.
    + apply Emits_PutRecordHeader; apply Emits_PutVarString.
  - destruct (perform_runs c E) as [cs H]. exists (concat cs). apply Runs_Emits, H.
Qed.

Lemma perform_stops c e x : e_err e = Some x -> perform c e = e.
Proof.
  intros He. destruct (unguarded c) eqn:E.
  - destruct c; try discriminate; cbn [perform]; unfold PutVarBytes, PutVarString, PutRecordHeader; rewrite He; reflexivity.
  - destruct (perform_runs c E) as [cs H]. rewrite (H e). eapply run_chunks_err, He.
Qed.

Lemma perform_all_stops cs e x : e_err e = Some x -> perform_all cs e = e.
Proof.
  intros He. induction cs as [|c cs IH]; [reflexivity|]. unfold perform_all in *. cbn [fold_left].
  rewrite (perform_stops c e x He). exact IH.
Qed.

Lemma tracks_perform_all cs : forall e, forallb (fun c => negb (unguarded c)) cs = true -> tracks e ->
  tracks (perform_all cs e).
Proof.
  induction cs as [|c cs IH]; intros e Hc He; [exact He|]. unfold perform_all. cbn [fold_left].
  cbn [forallb] in Hc. apply andb_true_iff in Hc. destruct Hc as [Hc Hcs]. apply (IH (perform c e) Hcs).
  apply negb_true_iff in Hc. destruct (perform_runs c Hc) as [ch H]. rewrite (H e). apply tracks_run, He.
Qed.

Lemma tracks_flush e k x : tracks e -> failed_at (e_target e) k x ->
  length (t_log (e_target e)) = S k /\ Flush e = Some x.
Proof.
  unfold tracks, Flush. intros Ht Hf. destruct (e_err e) as [y|].
  - destruct Ht as (k' & Hl & Hk' & Hu). rewrite (Hu _ _ Hf). split; [exact Hl|]. rewrite (Hu _ _ Hf) in Hf.
    destruct Hf as (d1 & N1 & W1), Hk' as (d2 & N2 & W2). congruence.
  - exfalso. eapply Ht, Hf.
Qed.

(** With a sticky writer: the first failure is kept, and at most one more write is attempted. *)
Definition tracks1 (e : Encoder) : Prop :=
  match e_err e with
  | None => forall k x, ~ failed_at (e_target e) k x
  | Some x => exists k, (length (t_log (e_target e)) <= S (S k))%nat /\ failed_at (e_target e) k x /\                        forall j y, failed_at (e_target e) j y -> (k <= j)%nat /\ y = x
  end.

Lemma tracks_1 e : tracks e -> tracks1 e.
Proof.
  unfold tracks, tracks1. destruct (e_err e) as [x|]; [|auto]. intros (k & Hl & Hf & Hu). exists k.
  split; [lia|]. split; [exact Hf|]. intros j y Hj. pose proof (Hu _ _ Hj). subst j. split; [lia|].
  destruct Hf as (d1 & N1 & W1), Hj as (d2 & N2 & W2). congruence.
Qed.

Lemma failed_at_log t k x : failed_at t k x -> (k < length (t_log t))%nat.
Proof. intros (d & H & _). apply nth_error_Some. congruence. Qed.

Lemma sticky_write e k x c : sticky (e_target e) -> failed_at (e_target e) k x ->
  e_err (write c e) = Some x.
Proof.
  intros Hs (d & Hn & Hw). cbn [write e_err].
  apply nth_error_split in Hn. destruct Hn as (l1 & l2 & E & Hlen).
  rewrite E in *. rewrite firstn_app, <- Hlen, Nat.sub_diag, firstn_all in Hw. cbn in Hw. rewrite app_nil_r in Hw.
  apply (Hs _ _ l2 c _ Hw).
Qed.

Lemma tracks1_second_write e c : sticky (e_target e) -> tracks e -> tracks1 (write c e).
Proof.
  intros Hs Ht. destruct (e_err e) as [x|] eqn:E.
  - unfold tracks in Ht. rewrite E in Ht. destruct Ht as (k & Hl & Hf & Hu).
    unfold tracks1. rewrite (sticky_write e k x c Hs Hf). exists k. split.
    { cbn [write e_target t_log]. rewrite app_length. cbn [length]. lia. }
    split; [apply failed_at_write; auto|]. intros j y Hj. apply failed_at_write in Hj.
    destruct Hj as [[-> Hw]|Hj].
    + split; [lia|]. pose proof (sticky_write e k x c Hs Hf) as H. cbn [write e_err] in H. congruence.
    + pose proof (Hu _ _ Hj). subst j. split; [lia|]. destruct Hf as (d1 & N1 & W1), Hj as (d2 & N2 & W2). congruence.
  - apply tracks_1, tracks_write; assumption.
Qed.

Lemma sticky_run cs e : sticky (e_target e) -> sticky (e_target (run_chunks cs e)).
Proof. unfold sticky. destruct (run_chunks_target cs e) as [-> _]. auto. Qed.

Lemma tracks1_tracks e : e_err e = None -> tracks1 e -> tracks e.
Proof. unfold tracks, tracks1. intros ->. auto. Qed.

Lemma put_runes_tracks rs : forall e, e_err e = None -> tracks e -> tracks (put_runes rs e).
Proof.
  induction rs as [|r rs IH]; intros e He Ht; [exact Ht|]. cbn [put_runes].
  pose proof (tracks_write (encode_rune r) e He Ht) as Hw.
  destruct (e_err (write (encode_rune r) e)) eqn:E; [exact Hw|]. apply IH; assumption.
Qed.

Lemma put_runes_target rs : forall e, t_write (e_target (put_runes rs e)) = t_write (e_target e).
Proof.
  induction rs as [|r rs IH]; intros e; [reflexivity|]. cbn [put_runes].
  destruct (e_err (write (encode_rune r) e)); [reflexivity|]. rewrite IH. reflexivity.
Qed.

Lemma tracks1_PutVarString s e : sticky (e_target e) -> tracks1 e ->
  tracks1 (PutVarString s e) /\ sticky (e_target (PutVarString s e)).
Proof.
  intros Hs Ht. unfold PutVarString. destruct (e_err e) eqn:E; [auto|].
  assert (H1 : tracks (PutVarInt (int64 (zlen s)) e)).
  { rewrite (Runs_PutVarInt _ e). apply tracks_run, tracks1_tracks; assumption. }
  assert (H2 : sticky (e_target (PutVarInt (int64 (zlen s)) e))).
  { rewrite (Runs_PutVarInt _ e). apply sticky_run, Hs. }
  generalize dependent (PutVarInt (int64 (zlen s)) e). intros e1 H1 H2. split.
  - destruct (runes s) as [|r rs]; [apply tracks_1, H1|]. cbn [put_runes].
    pose proof (tracks1_second_write e1 (encode_rune r) H2 H1) as H3.
    destruct (e_err (write (encode_rune r) e1)) eqn:E1; [exact H3|].
    apply tracks_1, put_runes_tracks; [exact E1|]. apply tracks1_tracks; assumption.
  - unfold sticky. rewrite put_runes_target. exact H2.
Qed.

Lemma tracks1_perform c e : sticky (e_target e) -> tracks1 e ->
  tracks1 (perform c e) /\ sticky (e_target (perform c e)).
Proof.
  intros Hs Ht. destruct (e_err e) as [x|] eqn:E.
  { rewrite (perform_stops c e x E). auto. }
  destruct (unguarded c) eqn:U.
  - destruct c; try discriminate; cbn [perform].
    + unfold PutVarBytes. rewrite E. rewrite (Runs_PutVarInt _ e).
      assert (H1 := tracks_run [match put_varint (int64 (glen data)) with Some bs => bs | None => [] end] e (tracks1_tracks e E Ht)).
      assert (H2 := sticky_run [match put_varint (int64 (glen data)) with Some bs => bs | None => [] end] e Hs).
      split; [apply tracks1_second_write; assumption|]. exact H2.
    + apply tracks1_PutVarString; assumption.
    + unfold PutRecordHeader. rewrite E. destruct (tracks1_PutVarString key e Hs Ht). apply tracks1_PutVarString; assumption.
  - destruct (perform_runs c U) as [cs H]. rewrite (H e). split; [|apply sticky_run, Hs].
    apply tracks_1, tracks_run, tracks1_tracks; assumption.
Qed.

Lemma tracks1_perform_all cs : forall e, sticky (e_target e) -> tracks1 e -> tracks1 (perform_all cs e).
Proof.
  induction cs as [|c cs IH]; intros e Hs Ht; [exact Ht|]. unfold perform_all. cbn [fold_left].
  destruct (tracks1_perform c e Hs Ht) as [H1 H2]. exact (IH (perform c e) H2 H1).
Qed.
