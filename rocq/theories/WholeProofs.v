(** * Proofs: the Writes a request is sent with (C78) *)
From Verif Require Import GoBase GoLemmas Encoder Decoder Spec EncProofs Calls BufIO RingSpec RingProofs BufIOProofs Conn ConnSpec ConnProofs ConnProps WholeSpec.
Local Open Scope Z_scope.
Ltac Zify.zify_post_hook ::= idtac.

(** ** The buffered writer *)
Lemma write_fits c d b : b_err b = None -> zlen (b_buf b) + zlen d <= buf_size ->
  b_write c d b = mkBuf (b_buf b ++ d) None (b_log b) (b_sent b).
Proof.
  intros He Hf. unfold b_write. replace (length d + 2)%nat with (S (length d + 1)) by lia. cbn [b_write_loop]. rewrite He.
  destruct (Z.ltb_spec (buf_size - zlen (b_buf b)) (zlen d)); [lia|]. reflexivity.
Qed.
Lemma chunks_fit c b : forall cs e, over c b e -> e_err e = None -> let b0 := replay c (t_log (e_target e)) b in
  b_err b0 = None -> zlen (b_buf b0) + zlen (concat cs) <= buf_size ->
  e_err (run_chunks cs e) = None /\ over c b (run_chunks cs e) /\
  replay c (t_log (e_target (run_chunks cs e))) b = mkBuf (b_buf b0 ++ concat cs) None (b_log b0) (b_sent b0).
Proof.
  induction cs as [|d cs IH]; intros e Ho He b0 Hb Hf.
  - split; [exact He|]. split; [exact Ho|]. cbn [concat]. rewrite app_nil_r. change (run_chunks [] e) with e. fold b0. destruct b0 as [bb be lg st]. cbn in *. subst be. reflexivity.
  - change (run_chunks (d :: cs) e) with (run_chunks cs (put_chunk d e)). unfold put_chunk. rewrite He.
    cbn [concat] in Hf. rewrite zlen_app in Hf. pose proof (zlen_nonneg (concat cs)).
    assert (Ew : b_write c d b0 = mkBuf (b_buf b0 ++ d) None (b_log b0) (b_sent b0)) by (apply write_fits; [exact Hb|lia]).
    assert (Elog : t_log (e_target (write d e)) = t_log (e_target e) ++ [d]) by reflexivity.
    assert (Eerr : e_err (write d e) = None).
    { cbn [write e_err]. rewrite (proj1 Ho). change (b_err (b_write c d b0) = None). rewrite Ew. reflexivity. }
    destruct (IH (write d e)) as (I1 & I2 & I3).
    + split; cbn [write e_target t_write t_flush]; apply Ho.
    + exact Eerr.
    + rewrite Elog, replay_snoc. fold b0. rewrite Ew. reflexivity.
    + rewrite Elog, replay_snoc. fold b0. rewrite Ew. cbn [b_buf]. rewrite zlen_app. lia.
    + split; [exact I1|]. split; [exact I2|]. rewrite I3, Elog, replay_snoc. fold b0. rewrite Ew. cbn [b_buf b_log b_sent concat].
      rewrite app_assoc. reflexivity.
Qed.

(** [ws] is what the Writes of one request [bs] may have left: one Write at most. *)
Definition one (raw : rawconn) (ws : list (list Z)) (bs : list Z) : Prop :=
  (length ws <= 1)%nat /\ (atomic raw -> concat ws = [] \/ concat ws = bs).
Lemma one_nil raw bs : one raw [] bs.
Proof. split; [cbn; lia|]. left. reflexivity. Qed.

Lemma skipn_self {A} (l : list A) : skipn (length l) l = [].
Proof. apply skipn_all. Qed.
Lemma skipn_more {A} (l m : list A) : skipn (length l) (l ++ m) = m.
Proof. rewrite skipn_app, skipn_all, Nat.sub_diag. reflexivity. Qed.

Lemma transmit_small c act cs err b err' b' fl : Runs act cs -> small b -> (forall x, err = Some x -> b_err b = Some x) ->
  (b_err b = None -> b_buf b = []) -> zlen (concat cs) <= buf_size -> transmit c act err b = (err', b', fl) ->
  one c (skipn (length (b_sent b)) (b_sent b')) (concat cs).
Proof.
  intros Hr Hs Hx Hn Hf Ht. destruct (b_err b) as [x|] eqn:Eb.
  - rewrite <- Eb in Hx. destruct (transmit_ok _ _ _ _ _ _ _ _ Hr Hs Hx Ht) as (T & _). rewrite (took_err _ _ _ _ T Eb), skipn_self. apply one_nil.
  - specialize (Hn eq_refl). assert (err = None) by (destruct err as [x|]; [specialize (Hx x eq_refl); discriminate|reflexivity]). subst err.
    unfold transmit in Ht.
    destruct (chunks_fit c b cs (mkEncoder (target_of c b) None)) as (E1 & E2 & E3); try reflexivity; [split; reflexivity|exact Eb| |].
    { change (zlen (b_buf b) + zlen (concat cs) <= buf_size). rewrite Hn. exact Hf. }
    change (replay c (t_log (e_target (mkEncoder (target_of c b) None))) b) with b in E3. cbn zeta in Ht. rewrite !Hr in Ht. rewrite E1, E3, Hn in Ht. cbn [app] in Ht.
    injection Ht as _ <- _. unfold b_flush. cbn [b_err b_buf b_log b_sent]. destruct (concat cs) as [|z l] eqn:Ec.
    + cbn [b_sent]. rewrite skipn_self. apply one_nil.
    + destruct (c_write c (b_log b) (z :: l)) as [[n x]|] eqn:Ew; cbn [b_sent]; rewrite skipn_more; (split; [cbn; lia|]); intros Ha; cbn [concat accepted].
      * left. rewrite (Ha _ _ _ _ Ew). reflexivity.
      * right. apply app_nil_r.
Qed.

(** ** Executions *)
Definition unsent {R} (c : docall R) : list (list Z) := match k_pc c with PSend ps _ _ _ => ps | _ => [] end.
Definition WholeInv {R} (raw : rawconn) (s : conn R) (evs : list (event R)) : Prop :=
  s_raw s = raw /\
  (forall k, nth_error (s_calls s) k = None -> writes_of k evs = []) /\
  forall k c, nth_error (s_calls s) k = Some c ->
    (past_lock (k_pc c) = false -> writes_of k evs = []) /\
    forall bs, request s k bs -> zlen bs <= buf_size -> one raw (writes_of k evs ++ unsent c) bs.

Lemma atomic_closed raw : atomic (closed_raw raw).
Proof. intros log data n x H. cbn in H. congruence. Qed.
Lemma one_closed raw ws bs : one (closed_raw raw) ws bs -> one raw ws bs.
Proof. intros [H1 H2]. split; [exact H1|]. intros _. apply H2, atomic_closed. Qed.
Lemma one_now {R} (s : conn R) ws bs : one (raw_now s) ws bs -> one (s_raw s) ws bs.
Proof. unfold raw_now. destruct (s_rawclosed s); [apply one_closed|auto]. Qed.
Lemma grow_writes {R} k (evs e : list (event R)) : writes_of k (evs ++ e) = writes_of k evs ++ writes_of k e.
Proof. apply flat_map_app. Qed.
Lemma request_put {R} (s0 : conn R) k c c' bs : nth_error (s_calls s0) k = Some c -> request (put_call s0 k c') k bs -> Emits (k_enc c' (k_id c')) bs.
Proof. intros Hk (c1 & H1 & _ & H2). rewrite (put_same s0 k c c' Hk) in H1. injection H1 as <-. exact H2. Qed.

Lemma request_other {R} (s s' : conn R) k bs : nth_error (s_calls s') k = nth_error (s_calls s) k -> request s' k bs -> request s k bs.
Proof. intros E (c & H1 & H2). exists c. rewrite <- E. auto. Qed.

(** A step that changes call [k] only, from [c] to [c']. *)
Lemma whole_put {R} raw (s s0 : conn R) evs e k c c' : WholeInv raw s evs -> nth_error (s_calls s) k = Some c ->
  s_calls s0 = s_calls s -> s_raw s0 = s_raw s ->
  (forall j, j <> k -> writes_of j e = []) ->
  (past_lock (k_pc c') = false -> writes_of k (evs ++ e) = []) ->
  (forall bs, Emits (k_enc c' (k_id c')) bs -> zlen bs <= buf_size -> one raw (writes_of k (evs ++ e) ++ unsent c') bs) ->
  WholeInv raw (put_call s0 k c') (evs ++ e).
Proof.
  intros (W1 & W2 & W3) Hk Ec Er He H1 H2. split; [cbn; congruence|]. split.
  - intros j Hj. cbn [put_call set_calls s_calls] in Hj. rewrite Ec in Hj. destruct (Nat.eq_dec j k) as [->|Hn].
    + rewrite (nth_same _ _ _ _ Hk) in Hj. discriminate.
    + rewrite nth_other in Hj by exact Hn. rewrite grow_writes, (He _ Hn), app_nil_r. apply W2, Hj.
  - intros j c1 Hj. destruct (Nat.eq_dec j k) as [->|Hn].
    + rewrite (put_same s0 k c c') in Hj by (rewrite Ec; exact Hk). injection Hj as <-. split; [exact H1|]. intros bs Hb. apply H2.
      eapply request_put; [rewrite Ec; exact Hk|exact Hb].
    + assert (E : nth_error (s_calls (put_call s0 k c')) j = nth_error (s_calls s) j).
      { cbn [put_call set_calls s_calls]. rewrite Ec. apply nth_other, Hn. }
      rewrite E in Hj. rewrite grow_writes, (He _ Hn), app_nil_r. destruct (W3 _ _ Hj) as [X Y]. split; [exact X|]. intros bs Hb. apply Y.
      eapply request_other; eassumption.
Qed.
Lemma whole_quiet {R} raw (s s' : conn R) evs e : WholeInv raw s evs -> s_calls s' = s_calls s -> s_raw s' = s_raw s ->
  (forall j, writes_of j e = []) -> WholeInv raw s' (evs ++ e).
Proof.
  intros (W1 & W2 & W3) Ec Er He. split; [congruence|]. rewrite Ec. split.
  - intros j Hj. rewrite grow_writes, He, app_nil_r. auto.
  - intros j c Hj. rewrite grow_writes, He, app_nil_r. destruct (W3 _ _ Hj) as [X Y]. split; [exact X|]. intros bs Hb. apply Y.
    eapply request_other; [rewrite Ec; reflexivity|exact Hb].
Qed.

Lemma whole_step {R} raw cap (s s' : conn R) evs e : AInv cap s evs -> WholeInv raw s evs -> trans s s' e -> WholeInv raw s' (evs ++ e).
Proof.
  intros [I W] B T. pose proof B as (B1 & B2 & B3). destruct T;
    try (apply (whole_quiet _ s); [exact B|reflexivity|reflexivity|reflexivity]);
    try (rename H into Hk; rename H0 into Hp).
  - (* call *)
    split; [exact B1|]. split.
    + intros j Hj. rewrite grow_writes. cbn [writes_of flat_map]. rewrite app_nil_r. apply B2. cbn [set_calls s_calls] in Hj.
      apply nth_error_None in Hj. apply nth_error_None. rewrite app_length in Hj. lia.
    + intros j c Hj. cbn [set_calls s_calls] in Hj. rewrite grow_writes. cbn [writes_of flat_map]. rewrite app_nil_r.
      destruct (Nat.lt_ge_cases j (length (s_calls s))) as [Hl|Hl].
      * assert (E : nth_error (s_calls (set_calls s (s_calls s ++ [mkCall enc dec 0 PId None]))) j = nth_error (s_calls s) j).
        { cbn [set_calls s_calls]. apply nth_error_app1, Hl. }
        rewrite nth_error_app1 in Hj by exact Hl. destruct (B3 _ _ Hj) as [X Y]. split; [exact X|]. intros bs Hb. apply Y.
        eapply request_other; eassumption.
      * assert (E0 : writes_of j evs = []) by (apply B2, nth_error_None, Hl). rewrite E0. split; [reflexivity|]. intros bs _ _.
        rewrite nth_error_app2 in Hj by exact Hl. destruct (j - length (s_calls s))%nat as [|n]; [injection Hj as <-; apply one_nil|destruct n; discriminate].
  - (* id *)
    destruct (B3 _ _ Hk) as [X _]. rewrite Hp in X. specialize (X eq_refl).
    apply (whole_put raw s _ _ _ k c); auto; rewrite grow_writes, X; [reflexivity|]. intros; apply one_nil.
  - (* register *)
    destruct (B3 _ _ Hk) as [X _]. rewrite Hp in X. specialize (X eq_refl).
    apply (whole_put raw s _ _ _ k c); auto; rewrite grow_writes, X; [reflexivity|]. intros; apply one_nil.
  - (* lock *)
    destruct (B3 _ _ Hk) as [X _]. rewrite Hp in X. specialize (X eq_refl).
    apply (whole_put raw s _ _ _ k c); auto; rewrite grow_writes, X; [discriminate|]. intros bs Hb Hl. cbn [at_pc k_enc k_id] in Hb.
    cbn [at_pc unsent k_pc writes_of flat_map app].
    pose proof (i_view _ _ _ I k) as Vk. rewrite Hk in Vk. destruct (v_runs _ _ _ Vk (k_id c)) as [cs Hcs].
    pose proof (Emits_inj _ _ _ Hb (Runs_Emits _ _ Hcs)) as ->. rewrite <- B1. apply one_now.
    match goal with Ht : transmit _ _ _ _ = _, Hlk : s_lock s = None |- _ => apply (transmit_small _ _ cs _ _ _ _ _ Hcs (w_small _ _ W) (w_err _ _ W)) with (3 := Ht); [|exact Hl];
      destruct (w_idle _ _ W) as [_ (reqs & _ & Hset)]; [|intros En; unfold settled in Hset; rewrite En in Hset; apply Hset] end.
    intros j c1 ps err0 b0 fl0 Hj F. assert (HH : holding (k_pc c1) = true) by (rewrite F; reflexivity). apply (w_hold _ _ W _ _ Hj) in HH. congruence.
  - (* send *)
    destruct (B3 _ _ Hk) as [_ Y].
    apply (whole_put raw s _ _ _ k c); auto.
    + intros j Hj. cbn. apply Nat.eqb_neq in Hj. rewrite Nat.eqb_sym, Hj. reflexivity.
    + discriminate.
    + intros bs Hb Hl. rewrite grow_writes. cbn [writes_of flat_map at_pc unsent k_pc]. rewrite Nat.eqb_refl. cbn [app].
      rewrite <- app_assoc. cbn [app]. assert (Y' := Y bs). unfold unsent in Y'. rewrite Hp in Y'. apply Y'; [|exact Hl].
      exists c. split; [exact Hk|]. split; [rewrite Hp; discriminate|exact Hb].
  - (* flushed *)
    destruct (B3 _ _ Hk) as [_ Y]. apply (whole_put raw s _ _ _ k c); auto; [discriminate|].
    intros bs Hb Hl. rewrite grow_writes. cbn [writes_of flat_map at_pc unsent k_pc]. rewrite app_nil_r.
    assert (Y' := Y bs). unfold unsent in Y'. rewrite Hp in Y'. apply Y'; [|exact Hl].
    exists c. split; [exact Hk|]. split; [rewrite Hp; discriminate|exact Hb].
  - (* fail *)
    destruct (B3 _ _ Hk) as [_ Y]. apply (whole_put raw s _ _ _ k c); auto; [discriminate|].
    intros bs Hb Hl. rewrite grow_writes. cbn [writes_of flat_map at_pc unsent k_pc]. rewrite app_nil_r.
    assert (Y' := Y bs). unfold unsent in Y'. rewrite Hp in Y'. apply Y'; [|exact Hl].
    exists c. split; [exact Hk|]. split; [rewrite Hp; discriminate|exact Hb].
  - (* unlock *)
    destruct (B3 _ _ Hk) as [_ Y]. apply (whole_put raw s _ _ _ k c); auto; [discriminate|].
    intros bs Hb Hl. rewrite grow_writes. cbn [writes_of flat_map at_pc unsent k_pc]. rewrite app_nil_r.
    assert (Y' := Y bs). unfold unsent in Y'. rewrite Hp in Y'. apply Y'; [|exact Hl].
    exists c. split; [exact Hk|]. split; [rewrite Hp; discriminate|exact Hb].
  - (* return *)
    destruct (B3 _ _ Hk) as [_ Y]. apply (whole_put raw s _ _ _ k c); auto; [discriminate|].
    intros bs Hb Hl. rewrite grow_writes. cbn [writes_of flat_map unsent k_pc]. rewrite app_nil_r.
    assert (Y' := Y bs). unfold unsent in Y'. rewrite Hp in Y'. apply Y'; [|exact Hl].
    exists c. split; [exact Hk|]. split; [rewrite Hp; discriminate|exact Hb].
  - (* reply *)
    rename H1 into Hr. destruct (B3 _ _ Hp) as [X Y]. apply (whole_put raw s _ _ _ k c); auto; cbn [k_pc k_enc k_id].
    + intros Hl. rewrite grow_writes. cbn [writes_of flat_map]. rewrite app_nil_r. apply X, Hl.
    + intros bs Hb Hl. rewrite grow_writes. cbn [writes_of flat_map]. rewrite app_nil_r. destruct (past_lock (k_pc c)) eqn:El.
      * apply Y; [|exact Hl]. exists c. split; [exact Hp|]. split; [intros F; rewrite F in El; discriminate|exact Hb].
      * rewrite (X eq_refl). unfold unsent. cbn [k_pc]. destruct (k_pc c); try discriminate; apply one_nil.
Qed.
Lemma sent_writes {R} k (evs : list (event R)) : sent_by k evs = concat (writes_of k evs).
Proof.
  induction evs as [|e evs IH]; [reflexivity|]. unfold sent_by, writes_of in *. cbn [flat_map]. rewrite IH, concat_app.
  destruct e; try reflexivity. destruct (Nat.eqb _ _); [cbn [concat]; rewrite app_nil_r|]; reflexivity.
Qed.
Lemma whole {R} raw cap (sched : list (clabel R)) s evs : 4 <= cap -> executes raw cap sched s evs -> WholeInv raw s evs.
Proof.
  intros Hc. revert sched s evs. refine (exec_ind_inv (WholeInv raw) raw cap Hc _ _).
  - split; [reflexivity|]. split; [reflexivity|]. intros [|k] c Hk; discriminate.
  - intros s evs s' e A _ B T. eapply whole_step; eassumption.
Qed.
Lemma one_app raw a b bs : one raw (a ++ b) bs -> (length a <= 1)%nat.
Proof. intros [H _]. rewrite app_length in H. lia. Qed.

Lemma one_write {R} raw cap (sched : list (clabel R)) s evs k bs : 4 <= cap -> executes raw cap sched s evs ->
  request s k bs -> zlen bs <= 4096 -> (length (writes_of k evs) <= 1)%nat.
Proof.
  intros Hc H Hr Hl. destruct (whole _ _ _ _ _ Hc H) as (_ & _ & B). pose proof Hr as (c & Hk & _). destruct (B _ _ Hk) as [_ Y].
  apply (one_app raw _ (unsent c) bs), Y; assumption.
Qed.
(** At every moment, not only at the end of the call. *)
Lemma whole_or_nothing {R} raw cap (sched : list (clabel R)) s evs k bs : 4 <= cap -> executes raw cap sched s evs ->
  request s k bs -> zlen bs <= 4096 -> atomic raw -> sent_by k evs = [] \/ sent_by k evs = bs.
Proof.
  intros Hc H Hr Hl Ha. destruct (whole _ _ _ _ _ Hc H) as (_ & _ & B). pose proof Hr as (c & Hk & _). destruct (B _ _ Hk) as [_ Y].
  specialize (Y bs Hr Hl). destruct Y as [Y1 Y2]. specialize (Y2 Ha). rewrite sent_writes. destruct (writes_of k evs) as [|w ws]; [left; reflexivity|].
  rewrite concat_app in Y2. cbn [app length] in Y1. rewrite app_length in Y1. destruct ws; [|cbn [length] in Y1; lia].
  destruct (unsent c); [cbn [concat] in Y2 |- *; rewrite app_nil_r in Y2; exact Y2|cbn [length] in Y1; lia].
Qed.

(** ** A request longer than the buffer, over [once] *)
Lemma atomic_once direct x : atomic (once direct x).
Proof. intros log data n y H. destruct log; cbn in H; congruence. Qed.

(** After the first Write: [p] is pending, or the second Write has failed. *)
Definition dead (x : error) (S : list (list Z)) (p : list Z) (b : bufio) : Prop :=
  (b_err b = None /\ b_log b <> [] /\ b_sent b = S /\ b_buf b = p /\ zlen p <= buf_size) \/ (b_err b = Some x /\ b_sent b = S ++ [[]]).
Lemma once_later direct x log data : log <> [] -> c_write (once direct x) log data = Some (0, x).
Proof. destruct log; [congruence|reflexivity]. Qed.
Lemma dead_flush direct x S p b : p <> [] -> dead x S p b -> b_err (b_flush (once direct x) b) = Some x /\ b_sent (b_flush (once direct x) b) = S ++ [[]].
Proof.
  intros Hp [(E1 & E2 & E3 & E4 & _)|[E1 E2]]; unfold b_flush; rewrite E1; [|auto]. rewrite E4. destruct p as [|z p]; [congruence|].
  rewrite once_later by exact E2. cbn [b_err b_sent accepted Z.to_nat firstn]. rewrite E3. auto.
Qed.
Lemma dead_loop direct x S p d b fuel : dead x S p b -> dead x S (p ++ d) (b_write_loop (Datatypes.S fuel) (once direct x) d b).
Proof.
  intros [(E1 & E2 & E3 & E4 & E5)|[E1 E2]]; cbn [b_write_loop]; rewrite E1; [|right; auto].
  destruct (Z.ltb_spec (buf_size - zlen (b_buf b)) (zlen d)) as [Hl|Hl].
  - right. destruct ((zlen (b_buf b) =? 0) && c_direct (once direct x) (b_log b) d).
    + rewrite once_later by exact E2. cbn [b_err b_sent accepted Z.to_nat firstn]. rewrite E3. auto.
    + set (b1 := mkBuf _ _ _ _).
      assert (N : b_buf b ++ firstn (Z.to_nat (buf_size - zlen (b_buf b))) d <> []).
      { destruct (b_buf b); [|discriminate]. destruct d as [|z d]; [unfold zlen, buf_size in Hl; cbn in Hl; lia|]. cbn. discriminate. }
      destruct (dead_flush direct x S (b_buf b1) b1 N) as [F1 F2].
      { left. cbn [b1 b_err b_log b_sent b_buf]. repeat (split; [assumption || reflexivity|]). rewrite zlen_app. rewrite <- E4 in E5.
        pose proof (firstn_length (Z.to_nat (buf_size - zlen (b_buf b))) d). unfold zlen in *. lia. }
      destruct fuel; cbn [b_write_loop]; [auto|]. rewrite F1. auto.
  - left. cbn [b_err b_log b_sent b_buf]. rewrite E4 in *. repeat (split; [assumption || reflexivity|]). rewrite zlen_app. lia.
Qed.
Lemma dead_write direct x S p d b : dead x S p b -> dead x S (p ++ d) (b_write (once direct x) d b).
Proof. intros H. unfold b_write. replace (length d + 2)%nat with (Datatypes.S (length d + 1)) by lia. apply dead_loop, H. Qed.

(** The Write that finds the buffer too small. *)
Lemma tear direct x buf d : buf <> [] -> zlen buf <= buf_size -> buf_size < zlen buf + zlen d ->
  exists p, p <> [] /\ dead x [firstn 4096 (buf ++ d)] p (b_write (once direct x) d (mkBuf buf None [] [])).
Proof.
  intros Hb Hs Hl. exists (skipn (Z.to_nat (buf_size - zlen buf)) d). split.
  { intros F. apply (f_equal (@length Z)) in F. rewrite skipn_length in F. cbn [length] in F. unfold zlen in *. lia. }
  unfold b_write. replace (length d + 2)%nat with (Datatypes.S (Datatypes.S (length d))) by lia. cbn [b_write_loop b_err b_buf b_log b_sent].
  destruct (Z.ltb_spec (buf_size - zlen buf) (zlen d)); [|lia].
  assert (Z.eqb (zlen buf) 0 = false) as -> by (apply Z.eqb_neq; destruct buf; [congruence|rewrite zlen_cons; pose proof (zlen_nonneg buf); lia]).
  cbn [andb]. set (k := Z.to_nat (buf_size - zlen buf)).
  assert (E : b_flush (once direct x) (mkBuf (buf ++ firstn k d) None [] []) = mkBuf [] None [buf ++ firstn k d] [buf ++ firstn k d]).
  { unfold b_flush. cbn [b_err b_buf b_log b_sent]. destruct (buf ++ firstn k d) eqn:F; [apply app_eq_nil in F; destruct F; congruence|reflexivity]. }
  rewrite E. assert (Ef : buf ++ firstn k d = firstn 4096 (buf ++ d)).
  { rewrite firstn_app.
    rewrite (firstn_all2 buf) by (unfold zlen, buf_size in *; lia). f_equal. f_equal. unfold k, zlen, buf_size in *. lia. }
  rewrite Ef. change (skipn k d) with ([] ++ skipn k d) at 1. apply dead_loop. left. cbn [b_err b_log b_sent b_buf].
  repeat (split; [reflexivity || discriminate|]). unfold zlen, buf_size. cbn [length]. lia.
Qed.

Lemma dead_chunks direct x S b : forall cs e p, over (once direct x) b e ->
  let b0 := replay (once direct x) (t_log (e_target e)) b in e_err e = b_err b0 -> dead x S p b0 ->
  let e' := run_chunks cs e in let b' := replay (once direct x) (t_log (e_target e')) b in
  e_err e' = b_err b' /\ dead x S (p ++ concat cs) b'.
Proof.
  induction cs as [|d cs IH]; intros e p Ho b0 He Hd; cbn zeta.
  - cbn [concat]. rewrite app_nil_r. split; assumption.
  - change (run_chunks (d :: cs) e) with (run_chunks cs (put_chunk d e)). unfold put_chunk.
    destruct (e_err e) as [y|] eqn:Ee.
    + rewrite (run_chunks_err cs e y Ee). fold b0. split; [congruence|]. destruct Hd as [(F & _)|Hd]; [congruence|]. right. exact Hd.
    + assert (Elog : t_log (e_target (write d e)) = t_log (e_target e) ++ [d]) by reflexivity.
      cbn [concat]. rewrite app_assoc. apply (IH (write d e)).
      * split; cbn [write e_target t_write t_flush]; apply Ho.
      * rewrite Elog, replay_snoc. cbn [write e_err]. rewrite (proj1 Ho). reflexivity.
      * rewrite Elog, replay_snoc. apply dead_write, Hd.
Qed.
Lemma fill_chunks direct x b : forall cs e buf, over (once direct x) b e -> e_err e = None ->
  replay (once direct x) (t_log (e_target e)) b = mkBuf buf None [] [] -> buf <> [] -> zlen buf <= buf_size -> buf_size < zlen buf + zlen (concat cs) ->
  let e' := run_chunks cs e in let b' := replay (once direct x) (t_log (e_target e')) b in
  e_err e' = b_err b' /\ exists p, p <> [] /\ dead x [firstn 4096 (buf ++ concat cs)] p b'.
Proof.
  induction cs as [|d cs IH]; intros e buf Ho He Hb Hn Hs Hl; cbn zeta.
  - unfold zlen in Hl. cbn in Hl. unfold zlen in Hs. lia.
  - change (run_chunks (d :: cs) e) with (run_chunks cs (put_chunk d e)). unfold put_chunk. rewrite He.
    assert (Elog : t_log (e_target (write d e)) = t_log (e_target e) ++ [d]) by reflexivity.
    assert (Ho' : over (once direct x) b (write d e)) by (split; cbn [write e_target t_write t_flush]; apply Ho).
    assert (Eerr : e_err (write d e) = b_err (b_write (once direct x) d (mkBuf buf None [] []))).
    { cbn [write e_err]. rewrite (proj1 Ho), <- Hb. reflexivity. }
    cbn [concat] in *. rewrite zlen_app in Hl. destruct (Z.le_gt_cases (zlen buf + zlen d) buf_size) as [Hf|Hf].
    + assert (Ew : b_write (once direct x) d (mkBuf buf None [] []) = mkBuf (buf ++ d) None [] []) by (apply write_fits; [reflexivity|exact Hf]).
      rewrite app_assoc. apply (IH (write d e)); auto.
      * rewrite Eerr, Ew. reflexivity.
      * rewrite Elog, replay_snoc, Hb. exact Ew.
      * intros F. apply app_eq_nil in F. destruct F. congruence.
      * rewrite zlen_app. exact Hf.
      * rewrite zlen_app. lia.
    + destruct (tear direct x buf d Hn Hs) as (p & Hp & Hd); [lia|].
      destruct (dead_chunks direct x [firstn 4096 (buf ++ d)] b cs (write d e) p Ho') as [X Y].
      * rewrite Elog, replay_snoc, Hb. exact Eerr.
      * rewrite Elog, replay_snoc, Hb. exact Hd.
      * split; [exact X|]. exists (p ++ concat cs). split; [intros F; apply app_eq_nil in F; destruct F; congruence|].
        assert (E : firstn 4096 (buf ++ d ++ concat cs) = firstn 4096 (buf ++ d)); [|rewrite E; exact Y].
        rewrite app_assoc, (firstn_app 4096 (buf ++ d)).
        replace (4096 - length (buf ++ d))%nat with 0%nat by (rewrite app_length; unfold zlen, buf_size in *; lia). cbn [firstn]. apply app_nil_r.
Qed.
Lemma transmit_torn direct x act c1 cs : Runs act (c1 :: cs) -> c1 <> [] -> zlen c1 <= buf_size -> buf_size < zlen (concat (c1 :: cs)) ->
  exists err b, transmit (once direct x) act None NewWriter = (err, b, Some x) /\ b_sent b = [firstn 4096 (concat (c1 :: cs)); []].
Proof.
  intros Hr Hn Hs Hl. destruct (transmit (once direct x) act None NewWriter) as [[err b] fl] eqn:Et.
  assert (K3 : fl = b_err b).
  { edestruct transmit_ok as (_ & _ & K3 & _); [exact Hr| | |exact Et|exact K3]; [intros _; unfold zlen, buf_size; cbn; lia|discriminate]. }
  exists err, b. enough (G : b_err b = Some x /\ b_sent b = [firstn 4096 (concat (c1 :: cs)); []]) by (destruct G as [G1 G2]; rewrite K3, G1; auto).
  clear K3. unfold transmit in Et. cbn zeta in Et. rewrite !Hr in Et.
  set (c := once direct x) in *. set (e0 := mkEncoder (target_of c NewWriter) None) in *.
  assert (Ew : b_write c c1 NewWriter = mkBuf c1 None [] []) by (apply write_fits; [reflexivity|exact Hs]).
  destruct (fill_chunks direct x NewWriter cs (write c1 e0) c1) as [X (p & Hp & Y)]; auto.
  - split; reflexivity.
  - change (b_err (b_write c c1 NewWriter) = None). rewrite Ew. reflexivity.
  - cbn [concat] in Hl. rewrite zlen_app in Hl. exact Hl.
  - change (run_chunks (c1 :: cs) e0) with (run_chunks cs (write c1 e0)) in Et. cbn zeta in X, Y. fold c in X, Y. change (c1 ++ concat cs) with (concat (c1 :: cs)) in Y.
    destruct (e_err (run_chunks cs (write c1 e0))) as [y|]; injection Et as _ <- _.
    + destruct Y as [(F & _)|Y]; [congruence|exact Y].
    + exact (dead_flush direct x _ p _ Hp Y).
Qed.

(** A call alone on a connection that accepts one Write. *)
Lemma torn {R} direct x cap (enc : Z -> Encoder -> Encoder) (dec : Decoder -> dres R) c1 cs :
  (forall id, exists cs, Runs (enc id) cs) -> Runs (enc 1) (c1 :: cs) -> c1 <> [] -> zlen c1 <= buf_size -> buf_size < zlen (concat (c1 :: cs)) ->
  exists s, executes (once direct x) cap (DoCall enc dec :: repeat (CStep 0) 7) s
    [ECall 0; EId 0 1; ERegister 0; ELock 0; ESent 0 (firstn 4096 (concat (c1 :: cs))); ESent 0 []; EFlushed 0 (Some x); EReturn 0 (WriteError x)] /\
    request s 0 (concat (c1 :: cs)).
Proof.
  intros Ha Hr Hn Hs Hl. destruct (transmit_torn direct x _ _ _ Hr Hn Hs Hl) as (err & b & Et & Eb).
  set (bs := concat (c1 :: cs)) in *.
  eexists. split.
  - split; [constructor; [exact Ha|repeat constructor]|]. cbn [repeat].
    set (st := fun (pc0 : pc R) cid id reqs lock er bb =>
      mkConn (once direct x) cap id [mkCall enc dec cid pc0 None] reqs lock er bb false false MTop (repeat 0 (Z.to_nat cap)) false).
    set (r0 := fun _ : Z => @None nat). set (r1 := map_set r0 1 (Some 0%nat)).
    assert (E0 : cstep (Connected (once direct x) cap) (DoCall enc dec) = Some (st PId 0 0 r0 None None NewWriter, [ECall 0])) by reflexivity.
    assert (E1 : cstep (st PId 0 0 r0 None None NewWriter) (CStep 0) = Some (st PRegister 1 1 r0 None None NewWriter, [EId 0 1])) by reflexivity.
    assert (E2 : cstep (st PRegister 1 1 r0 None None NewWriter) (CStep 0) = Some (st PLock 1 1 r1 None None NewWriter, [ERegister 0])) by reflexivity.
    assert (E3 : cstep (st PLock 1 1 r1 None None NewWriter) (CStep 0) =
      Some (st (PSend [firstn 4096 bs; []] err b (Some x)) 1 1 r1 (Some 0%nat) None NewWriter, [ELock 0])).
    { unfold cstep, st. cbn [s_crashed s_calls nth_error]. unfold call_step, raw_now. cbn [k_pc s_lock s_rawclosed s_raw k_enc k_id s_encerr s_buf]. rewrite Et, Eb. reflexivity. }
    assert (E4 : cstep (st (PSend [firstn 4096 bs; []] err b (Some x)) 1 1 r1 (Some 0%nat) None NewWriter) (CStep 0) =
      Some (st (PSend [[]] err b (Some x)) 1 1 r1 (Some 0%nat) None NewWriter, [ESent 0 (firstn 4096 bs)])) by reflexivity.
    assert (E5 : cstep (st (PSend [[]] err b (Some x)) 1 1 r1 (Some 0%nat) None NewWriter) (CStep 0) =
      Some (st (PSend [] err b (Some x)) 1 1 r1 (Some 0%nat) None NewWriter, [ESent 0 []])) by reflexivity.
    assert (E6 : cstep (st (PSend [] err b (Some x)) 1 1 r1 (Some 0%nat) None NewWriter) (CStep 0) =
      Some (st (PUnlock (Some x)) 1 1 r1 (Some 0%nat) err b, [EFlushed 0 (Some x)])) by reflexivity.
    assert (E7 : cstep (st (PUnlock (Some x)) 1 1 r1 (Some 0%nat) err b) (CStep 0) =
      Some (st (PReturned (WriteError x)) 1 1 r1 None err b, [EReturn 0 (WriteError x)])) by reflexivity.
    cbn [crun]. rewrite E0, E1, E2, E3, E4, E5, E6, E7. reflexivity.
  - eexists. split; [reflexivity|]. split; [discriminate|]. apply Runs_Emits, Hr.
Qed.

(** ** A Flush without error has sent the request *)
Definition flushes {R} (k : nat) (evs : list (event R)) : list unit :=
  flat_map (fun e => match e with EFlushed j None => if Nat.eqb j k then [tt] else [] | _ => [] end) evs.
Lemma flushes_in {R} k (evs : list (event R)) : In (EFlushed k None) evs -> flushes k evs <> [].
Proof.
  intros H. apply in_split in H. destruct H as (a & b & ->). unfold flushes. rewrite flat_map_app. cbn [flat_map]. rewrite Nat.eqb_refl.
  intros F. apply app_eq_nil in F. destruct F as [_ F]. discriminate.
Qed.
Lemma grow_flushes {R} k (evs e : list (event R)) : flushes k (evs ++ e) = flushes k evs ++ flushes k e.
Proof. apply flat_map_app. Qed.
Definition sent_view {R} (evs : list (event R)) (k : nat) (c : docall R) : Prop :=
  match k_pc c with
  | PId | PRegister | PLock => writes_of k evs = [] /\ flushes k evs = []
  | PSend ps _ _ fl => flushes k evs = [] /\ forall bs, fl = None -> Emits (k_enc c (k_id c)) bs -> concat (writes_of k evs ++ ps) = bs
  | _ => forall bs, flushes k evs <> [] -> Emits (k_enc c (k_id c)) bs -> concat (writes_of k evs) = bs
  end.
Definition SentInv {R} (s : conn R) (evs : list (event R)) : Prop :=
  forall k, match nth_error (s_calls s) k with
            | Some c => sent_view evs k c
            | None => writes_of k evs = [] /\ flushes k evs = [] end.
Lemma sent_view_keep {R} (evs e : list (event R)) k c : writes_of k e = [] -> flushes k e = [] -> sent_view evs k c -> sent_view (evs ++ e) k c.
Proof. intros H1 H2. unfold sent_view. rewrite grow_writes, grow_flushes, H1, H2, !app_nil_r. auto. Qed.
Lemma sent_put {R} (s s0 : conn R) evs e k c c' : SentInv s evs -> nth_error (s_calls s) k = Some c -> s_calls s0 = s_calls s ->
  (forall j, j <> k -> writes_of j e = [] /\ flushes j e = []) -> (sent_view evs k c -> sent_view (evs ++ e) k c') ->
  SentInv (put_call s0 k c') (evs ++ e).
Proof.
  intros B Hk Ec He Hv j. cbn [put_call set_calls s_calls]. rewrite Ec. specialize (B j). destruct (Nat.eq_dec j k) as [->|Hn].
  - rewrite (nth_same _ _ _ _ Hk). rewrite Hk in B. apply Hv, B.
  - rewrite nth_other by exact Hn. destruct (He _ Hn) as [E1 E2]. destruct (nth_error (s_calls s) j).
    + apply sent_view_keep; assumption.
    + rewrite grow_writes, grow_flushes, E1, E2, !app_nil_r. exact B.
Qed.
Lemma sent_quiet {R} (s s' : conn R) evs e : SentInv s evs -> s_calls s' = s_calls s -> (forall j, writes_of j e = [] /\ flushes j e = []) -> SentInv s' (evs ++ e).
Proof.
  intros B Ec He j. rewrite Ec. specialize (B j). destruct (He j) as [E1 E2]. destruct (nth_error (s_calls s) j).
  - apply sent_view_keep; assumption.
  - rewrite grow_writes, grow_flushes, E1, E2, !app_nil_r. exact B.
Qed.
Lemma sent_step {R} cap (s s' : conn R) evs e : AInv cap s evs -> SentInv s evs -> trans s s' e -> SentInv s' (evs ++ e).
Proof.
  intros [I W] B T. destruct T;
    try (apply (sent_quiet s); [exact B|reflexivity|auto]; fail); try (rename H into Hk; rename H0 into Hp);
    try (apply (sent_put s _ _ _ k c); [exact B|assumption|reflexivity|auto|unfold sent_view; rewrite ?grow_writes, ?grow_flushes; cbn [at_pc k_pc k_enc k_id];
         rewrite ?Hp; cbn [writes_of flushes flat_map]; rewrite ?app_nil_r; auto]; fail).
  - (* call *)
    intros j. specialize (B j). cbn [set_calls s_calls]. destruct (Nat.lt_ge_cases j (length (s_calls s))) as [Hl|Hl].
    + rewrite nth_error_app1 by exact Hl. destruct (nth_error (s_calls s) j); [apply sent_view_keep; auto|].
      rewrite grow_writes, grow_flushes. cbn. rewrite !app_nil_r. exact B.
    + rewrite nth_error_app2 by exact Hl. rewrite (proj2 (nth_error_None _ _) Hl) in B. destruct (j - length (s_calls s))%nat as [|n].
      * cbn [nth_error]. unfold sent_view. cbn [k_pc]. rewrite grow_writes, grow_flushes. cbn. rewrite !app_nil_r. exact B.
      * replace (nth_error [mkCall enc dec 0 PId None] (S n)) with (@None (docall R)) by (destruct n; reflexivity).
        rewrite grow_writes, grow_flushes. cbn. rewrite !app_nil_r. exact B.
  - (* lock *)
    apply (sent_put s _ _ _ k c); [exact B|assumption|reflexivity|auto|]. unfold sent_view. rewrite grow_writes, grow_flushes, Hp. cbn [at_pc k_pc k_enc k_id writes_of flushes flat_map].
    rewrite !app_nil_r. intros [B1 B2]. split; [exact B2|]. intros bs -> Hb. fold (writes_of k evs). rewrite B1. cbn [app].
    pose proof (i_view _ _ _ I k) as Vk. rewrite Hk in Vk. destruct (v_runs _ _ _ Vk (k_id c)) as [cs Hcs].
    pose proof (Emits_inj _ _ _ Hb (Runs_Emits _ _ Hcs)) as ->.
    destruct (w_idle _ _ W) as [_ (reqs & _ & Hset)].
    { intros j c1 ps err0 b0 fl0 Hj F. assert (HH : holding (k_pc c1) = true) by (rewrite F; reflexivity). apply (w_hold _ _ W _ _ Hj) in HH. congruence. }
    match goal with Ht : transmit _ _ _ _ = _ |- _ => destruct (transmit_ok _ _ _ _ _ _ _ _ Hcs (w_small _ _ W) (w_err _ _ W) Ht) as (K1 & K2 & K3 & K4 & K5) end.
    specialize (K5 eq_refl). destruct K1 as [[more Em] K1]. rewrite Em, skipn_more.
    destruct (b_err (s_buf s)) as [x|] eqn:Ex; [subst b; congruence|]. rewrite <- K3 in K1. unfold settled in Hset. rewrite Ex in Hset.
    unfold all_bytes, sent_bytes in K1. rewrite K5, (proj1 Hset), !app_nil_r, Em, concat_app in K1. apply app_inv_head in K1. exact K1.
  - (* send *)
    apply (sent_put s _ _ _ k c); [exact B|assumption|reflexivity| |].
    + intros j Hj. split; [|reflexivity]. cbn. apply Nat.eqb_neq in Hj. rewrite Nat.eqb_sym, Hj. reflexivity.
    + unfold sent_view. rewrite grow_writes, grow_flushes, Hp. cbn [at_pc k_pc k_enc k_id writes_of flushes flat_map]. rewrite Nat.eqb_refl, !app_nil_r.
      intros [B1 B2]. split; [exact B1|]. rewrite <- app_assoc. exact B2.
  - (* flushed *)
    apply (sent_put s _ _ _ k c); [exact B|assumption|reflexivity| |].
    + intros j Hj. split; [reflexivity|]. cbn. apply Nat.eqb_neq in Hj. rewrite Nat.eqb_sym, Hj. destruct fl; reflexivity.
    + unfold sent_view. rewrite grow_writes, grow_flushes, Hp. cbn [at_pc k_pc k_enc k_id writes_of flat_map].
      intros [B1 B2]. rewrite B1. rewrite !app_nil_r. rewrite app_nil_r in B2. intros bs Hf Hb. apply B2; [|exact Hb].
      destruct fl as [x|]; [|reflexivity]. exfalso. apply Hf. reflexivity.
Qed.
Lemma flushed_sent {R} raw cap (sched : list (clabel R)) s evs k bs : 4 <= cap -> executes raw cap sched s evs ->
  request s k bs -> In (EFlushed k None) evs -> sent_by k evs = bs.
Proof.
  intros Hc H (c & Hk & _ & Hb) Hi. rewrite sent_writes. apply flushes_in in Hi.
  assert (B : SentInv s evs).
  { clear - Hc H. revert sched s evs H. refine (exec_ind_inv SentInv raw cap Hc _ _).
    - intros [|k]; split; reflexivity.
    - intros s evs s' e A _ B T. eapply sent_step; eassumption. }
  specialize (B k). rewrite Hk in B. unfold sent_view in B. destruct (k_pc c); try (apply B; assumption); destruct B; congruence.
Qed.
(** Exactly one Write, which is the request. *)
Lemma flushed_one {R} raw cap (sched : list (clabel R)) s evs k bs : 4 <= cap -> executes raw cap sched s evs ->
  request s k bs -> bs <> [] -> zlen bs <= 4096 -> In (EFlushed k None) evs -> writes_of k evs = [bs].
Proof.
  intros Hc H Hr Hn Hl Hi. pose proof (flushed_sent _ _ _ _ _ _ _ Hc H Hr Hi) as E. pose proof (one_write _ _ _ _ _ _ _ Hc H Hr Hl) as L.
  rewrite sent_writes in E. destruct (writes_of k evs) as [|w [|w' ws]]; [cbn in E; congruence| |cbn [length] in L; lia].
  cbn [concat] in E. rewrite app_nil_r in E. congruence.
Qed.
