(** * Connections of different sizes: proofs *)
From Verif Require Import GoBase GoLemmas Encoder Decoder Spec EncProofs BufIO Msg01 Conn ConnSpec ConnProofs ConnProps ConnRing ConnRingSpec ConnRingProofs ConnRingProps EndSpec ConnEnd SizesSpec.
From Verif Require Import Ring.
Local Open Scope Z_scope.
Ltac Zify.zify_post_hook ::= idtac.

(** ** The ring *)
Lemma incr_short p n N : 0 <= p -> p + 1 < n -> n <= N < 2 ^ 31 -> incr p n = p + 1 /\ incr p N = p + 1.
Proof.
  intros H1 H2 H3. unfold incr. cbv zeta. rewrite (int32_id (p + 1)) by (unfold is_int32; lia).
  destruct (Z.eqb_spec (p + 1) n); [lia|]. destruct (Z.eqb_spec (p + 1) N); [lia|]. auto.
Qed.
Lemma upd_app {A} (l m : list A) : forall i x l', upd l i x = Some l' -> upd (l ++ m) i x = Some (l' ++ m).
Proof.
  induction l as [|y l IH]; intros [|i] x l' H; cbn in H; try discriminate.
  - injection H as <-. reflexivity.
  - destruct (upd l i x) as [l1|] eqn:E; [|discriminate]. injection H as <-. cbn. rewrite (IH _ _ _ E). reflexivity.
Qed.
Lemma upd_length {A} (l : list A) : forall i x l', upd l i x = Some l' -> length l' = length l.
Proof.
  induction l as [|y l IH]; intros [|i] x l' H; cbn in H; try discriminate.
  - injection H as <-. reflexivity.
  - destruct (upd l i x) as [l1|] eqn:E; [|discriminate]. injection H as <-. cbn. rewrite (IH _ _ _ E). reflexivity.
Qed.
Lemma upd_some {A} (l : list A) : forall i x, (i < length l)%nat -> exists l', upd l i x = Some l'.
Proof.
  induction l as [|y l IH]; intros [|i] x H; cbn in H; try lia; cbn; [eauto|]. destruct (IH i x ltac:(lia)) as [l' ->]. cbn. eauto.
Qed.
Lemma store_short (l m : list Z) i (x : Z) : 0 <= i < zlen l -> exists l', store l i x = Some l' /\ store (l ++ m) i x = Some (l' ++ m) /\ zlen l' = zlen l.
Proof.
  intros H. unfold store. destruct (Z.leb_spec 0 i); [|lia]. destruct (upd_some l (Z.to_nat i) x ltac:(unfold zlen in H; lia)) as [l' E].
  exists l'. split; [exact E|]. split; [apply upd_app, E|]. unfold zlen. rewrite (upd_length _ _ _ _ E). reflexivity.
Qed.
Lemma index_short (l m : list Z) i : 0 <= i < zlen l -> exists b, index l i = Some b /\ index (l ++ m) i = Some b.
Proof.
  intros H. unfold index. destruct (Z.leb_spec 0 i); [|lia]. rewrite nth_error_app1 by (unfold zlen in H; lia).
  destruct (nth_error l (Z.to_nat i)) as [b|] eqn:E; [eauto|]. apply nth_error_None in E. unfold zlen in H. lia.
Qed.

Definition larger_label (cap : Z) (a : label) : label := match a with RCall _ n => RCall cap n | _ => a end.
Definition fine (g : ring) : Prop := zlen (g_cells g) = g_size g.

Section Ring.
Context (N cap : Z) (cells : list Z).
Notation up := (larger_ring N cap cells).
Lemma up_w g : g_w (up g) = g_w g. Proof. reflexivity. Qed.
Lemma up_r g : g_r (up g) = larger_r cap (g_r g). Proof. reflexivity. Qed.
Lemma up_set_w g p : set_w (up g) p = up (set_w g p). Proof. reflexivity. Qed.
Lemma up_set_r g p : set_r (up g) (larger_r cap p) = up (set_r g p). Proof. reflexivity. Qed.

Lemma up_w_step g g' e : g_size g <= N < 2 ^ 31 -> fine g -> w_short (g_size g) (g_w g) = true -> w_step g = Some (g', e) ->
  w_step (up g) = Some (up g', e) /\ fine g' /\ g_size g' = g_size g.
Proof.
  intros HN Hf Hs H. unfold w_step in *. rewrite up_w. destruct (g_w g) as [|data n|data n pos|l|l|l|l|l|l|l|l|l|] eqn:Ew; try discriminate; cbn [w_short] in Hs.
  - injection H as <- <-. auto.
  - injection H as <- <-. auto.
  - apply andb_true_iff in Hs. destruct Hs as [S1 S2]. apply Z.leb_le in S1. apply Z.ltb_lt in S2.
    destruct (w_i l <? w_n l).
    + destruct (index (w_data l) (w_i l)) as [b|]; [|injection H as <- <-; auto].
      destruct (store_short (g_cells g) cells (w_pos l) b ltac:(unfold fine in Hf; lia)) as (cs & E1 & E2 & E3). rewrite E1 in H. cbn zeta in H. injection H as <- <-.
      destruct (incr_short (w_pos l) (g_size g) N S1 ltac:(lia) HN) as [I1 I2]. destruct (incr_short (w_pos l + 1) (g_size g) N ltac:(lia) ltac:(lia) HN) as [I3 I4].
      change (g_cells (up g)) with (g_cells g ++ cells). change (g_size (up g)) with N. rewrite E2. cbn zeta. rewrite I1, I2, I3, I4.
      split; [|split; [|reflexivity]]; [destruct (w_pos l + 1 + 1 =? w_start l); reflexivity|unfold fine in *; cbn; lia].
    + cbn zeta in *. destruct (w_wrote l + 1 <? w_n l); injection H as <- <-; auto.
  - injection H as <- <-. auto.
  - change (g_rset (up g)) with (g_rset g). destruct (g_rset g); injection H as <- <-; auto.
  - apply andb_true_iff in Hs. destruct Hs as [S1 S2]. apply Z.leb_le in S1. apply Z.ltb_lt in S2.
    destruct (incr_short (w_pos l) (g_size g) N S1 ltac:(lia) HN) as [I1 I2]. cbn zeta in *. injection H as <- <-.
    change (g_size (up g)) with N. change (g_start (up g)) with (g_start g). rewrite I1, I2. auto.
  - change (g_wset (up g)) with (g_wset g). destruct (g_wset g); injection H as <- <-; auto.
  - change (g_rset (up g)) with (g_rset g). destruct (g_rset g); injection H as <- <-; auto.
Qed.
Lemma up_r_get g l g' e : g_size g <= N < 2 ^ 31 -> fine g -> 0 <= r_pos l -> r_pos l + 1 < g_size g -> r_i l < r_cap l -> r_cap l <= cap -> r_get g l = Some (g', e) ->
  r_get (up g) (larger_l cap l) = Some (up g', e) /\ fine g' /\ g_size g' = g_size g.
Proof.
  intros HN Hf H1 H2 H3 H4 H. unfold r_get in *. change (g_cells (up g)) with (g_cells g ++ cells). change (r_pos (larger_l cap l)) with (r_pos l).
  destruct (index_short (g_cells g) cells (r_pos l) ltac:(unfold fine in Hf; lia)) as (b & E1 & E2). rewrite E1 in H. rewrite E2.
  change (r_i (larger_l cap l)) with (r_i l). change (r_cap (larger_l cap l)) with cap.
  destruct (Z.ltb_spec (r_i l) (r_cap l)); [|lia]. destruct (Z.ltb_spec (r_i l) cap); [|lia]. injection H as <- <-.
  destruct (incr_short (r_pos l) (g_size g) N H1 ltac:(lia) HN) as [I1 I2]. change (g_size (up g)) with N. rewrite I1, I2. auto.
Qed.
(** The length of the caller's slice. *)
Definition r_fits (p : rpc) : Prop :=
  match p with
  | RIdle | RCrash => True
  | RLoadStart c _ | RLoadNext c _ _ => c <= cap
  | RLoop l | REmptyRelease l | REmptyRelease_sel l | REmptyLoad l | RWait l | RWait_sel l | RGet l | REndRelease l | REndRelease_sel l => r_cap l <= cap
  end.
Lemma up_r_step g g' e : g_size g <= N < 2 ^ 31 -> fine g -> r_short (g_size g) (g_r g) = true -> r_fits (g_r g) -> r_step g = Some (g', e) ->
  r_step (up g) = Some (up g', e) /\ fine g' /\ g_size g' = g_size g.
Proof.
  intros HN Hf Hs Hc H. unfold r_step in *. rewrite up_r. destruct (g_r g) as [|c n|c n pos|l|l|l|l|l|l|l|l|l|] eqn:Er; try discriminate; cbn [r_short r_fits larger_r] in *.
  - injection H as <- <-. auto.
  - injection H as <- <-. auto.
  - rewrite !andb_true_iff, Z.leb_le, Z.ltb_lt in Hs. destruct Hs as [[S1 S2] S3].
    change (r_i (larger_l cap l)) with (r_i l). change (r_n (larger_l cap l)) with (r_n l). change (r_pos (larger_l cap l)) with (r_pos l).
    change (r_next (larger_l cap l)) with (r_next l). change (r_read (larger_l cap l)) with (r_read l). change (r_out (larger_l cap l)) with (r_out l).
    destruct (r_i l <? r_n l).
    + cbn [negb orb] in S3. apply Z.ltb_lt in S3. destruct (r_pos l =? r_next l).
      * injection H as <- <-. destruct (0 <? r_read l); auto.
      * eapply up_r_get; try eassumption; lia.
    + cbn zeta in *. destruct (0 <? r_read l); injection H as <- <-; auto.
  - change (g_wset (up g)) with (g_wset g). destruct (g_wset g); injection H as <- <-; auto.
  - cbn zeta in *. injection H as <- <-. change (r_pos (larger_l cap l)) with (r_pos l). change (g_next (up g)) with (g_next g). destruct (r_pos l =? g_next g); auto.
  - change (g_rset (up g)) with (g_rset g). destruct (g_rset g); injection H as <- <-; auto.
  - rewrite !andb_true_iff, Z.leb_le, Z.ltb_lt, Z.ltb_lt in Hs. destruct Hs as [[S1 S2] S3]. eapply up_r_get; eassumption.
  - change (g_wset (up g)) with (g_wset g). destruct (g_wset g); injection H as <- <-; auto.
Qed.
Lemma up_w_leave g g' e : fine g -> w_leave g = Some (g', e) -> w_leave (up g) = Some (up g', e) /\ fine g' /\ g_size g' = g_size g /\ g_r g' = g_r g.
Proof. intros Hf H. unfold w_leave in *. rewrite up_w. destruct (g_w g); try discriminate; injection H as <- <-; auto. Qed.
Lemma up_r_leave g g' e : fine g -> r_leave g = Some (g', e) -> r_leave (up g) = Some (up g', e) /\ fine g' /\ g_size g' = g_size g.
Proof. intros Hf H. unfold r_leave in *. rewrite up_r. destruct (g_r g); try discriminate; injection H as <- <-; auto. Qed.
Lemma larger_waiting p : r_waiting (larger_r cap p) = r_waiting p. Proof. destruct p; reflexivity. Qed.
Lemma larger_releasing p : r_releasing (larger_r cap p) = r_releasing p. Proof. destruct p; reflexivity. Qed.
Lemma up_leave_both g g' e : fine g -> leave_both g = Some (g', e) -> leave_both (up g) = Some (up g', e) /\ fine g' /\ g_size g' = g_size g.
Proof.
  intros Hf H. unfold leave_both in *. destruct (w_leave g) as [[g1 e1]|] eqn:E1; [|discriminate]. destruct (r_leave g1) as [[g2 e2]|] eqn:E2; [|discriminate]. injection H as <- <-.
  destruct (up_w_leave _ _ _ Hf E1) as (-> & F1 & S1 & _). destruct (up_r_leave _ _ _ F1 E2) as (-> & F2 & S2). split; [reflexivity|]. split; [exact F2|congruence].
Qed.
Lemma up_step g a g' e : g_size g <= N < 2 ^ 31 -> fine g -> short g = true -> r_fits (g_r g) -> step g a = Some (g', e) ->
  step (up g) (larger_label cap a) = Some (up g', e) /\ fine g' /\ g_size g' = g_size g.
Proof.
  intros HN Hf Hs Hc H. unfold short in Hs. rewrite !andb_true_iff in Hs. destruct Hs as [Hw Hr]. destruct a; cbn [step larger_label] in *.
  - rewrite up_w. destruct (g_w g); try discriminate. injection H as <- <-. auto.
  - rewrite up_r. destruct (g_r g); try discriminate. injection H as <- <-. auto.
  - apply up_w_step; assumption.
  - apply up_r_step; assumption.
  - rewrite up_w, up_r, larger_waiting. destruct (_ && _); [|discriminate]. apply up_leave_both; assumption.
  - rewrite up_w, up_r, larger_releasing. destruct (_ && _); [|discriminate]. apply up_leave_both; assumption.
  - change (g_closed (up g)) with (g_closed g). destruct (g_closed g); [|discriminate]. destruct (up_w_leave _ _ _ Hf H) as (-> & F & S & _). auto.
  - change (g_closed (up g)) with (g_closed g). destruct (g_closed g); [|discriminate]. apply up_r_leave; assumption.
  - injection H as <- <-. auto.
Qed.
Lemma up_crashed g : ring_crashed (up g) = ring_crashed g.
Proof. unfold ring_crashed. rewrite up_w, up_r. destruct (g_r g); reflexivity. Qed.
End Ring.

(** ** The callers and the message loop *)
Lemma overwrite_app buf bs m : (length bs <= length buf)%nat -> overwrite (buf ++ m) bs = overwrite buf bs ++ m.
Proof. intros H. unfold overwrite. rewrite skipn_app, <- app_assoc. f_equal. replace (length bs - length buf)%nat with 0%nat by lia. reflexivity. Qed.
Lemma int32_larger raw m size : size <= zlen raw -> dInt32 (mkDecoder (raw ++ m) size 0) =
  match dInt32 (mkDecoder raw size 0) with DOk v d => DOk v (larger_d m d) | DErr x d => DErr x (larger_d m d) | DPanic => DPanic end.
Proof.
  intros H. unfold dInt32, fixed, remains. cbn [d_length d_offset d_raw]. destruct (negb (size - 0 <? 4)) eqn:E; [|reflexivity].
  apply negb_true_iff, Z.ltb_ge in E. destruct raw as [|b0 [|b1 [|b2 [|b3 raw]]]]; try (unfold zlen in H; cbn [length] in H; lia).
  assert (S : forall t : list Z, slice_from t 0 = Some t).
  { intros t. unfold slice_from, slice. rewrite Z.sub_0_r. cbn [Z.to_nat skipn]. pose proof (zlen_nonneg t).
    replace ((0 <=? 0) && (0 <=? zlen t) && (zlen t <=? zlen t)) with true by (symmetry; rewrite !andb_true_iff, !Z.leb_le; lia).
    unfold zlen. rewrite Nat2Z.id, firstn_all. reflexivity. }
  rewrite !S. reflexivity.
Qed.
Lemma larger_d_same bytes d : dec_ok d -> dec_ok (larger_d bytes d) /\ frame (larger_d bytes d) = frame d.
Proof.
  intros [H1 H2]. unfold larger_d. split.
  - unfold dec_ok. cbn [d_raw d_length d_offset]. rewrite zlen_app. pose proof (zlen_nonneg bytes). lia.
  - unfold frame. cbn [d_raw d_length d_offset]. rewrite skipn_app, firstn_app. rewrite skipn_length. unfold zlen in H2.
    replace (Z.to_nat (d_length d - d_offset d) - (length (d_raw d) - Z.to_nat (d_offset d)))%nat with 0%nat by lia. cbn [firstn]. apply app_nil_r.
Qed.
Lemma seen_larger {R} (dec : Dec R) bytes d : Local dec -> dec_ok d -> seen (dec (larger_d bytes d)) = seen (dec d).
Proof.
  intros HL Hd. destruct (larger_d_same bytes d Hd) as [H1 H2]. pose proof (HL _ _ H1 Hd H2) as H.
  destruct (dec (larger_d bytes d)), (dec d); cbn in H; try contradiction; cbn [seen]; try reflexivity; [destruct H as [-> _]; reflexivity|congruence].
Qed.

Record conn_ok {R} (cap0 : Z) (s : conn R) : Prop := mkConnOk {
  o_cap : s_cap s = cap0; o_four : 4 <= cap0; o_buf : zlen (s_rbuf s) = cap0;
  o_dec : match s_mpc s with MLookup _ d | MReply _ d => dec_ok d | _ => True end;
  o_local : Forall (fun c => Local (k_dec c)) (s_calls s) }.

Section Conn.
Context {R : Type} (cap0 cap : Z) (bytes : list Z) (Hcap : cap0 <= cap).
Notation up := (@larger_conn R cap bytes).
Notation upe := (map (@larger_event R bytes)).
Definition plain (a : clabel R) : Prop := match a with MReadPanic => False | _ => True end.

Lemma up_call_step (s : conn R) k c s' e : call_step s k c = Some (s', e) -> call_step (up s) k c = Some (up s', upe e).
Proof.
  intros H. unfold call_step in *. destruct (k_pc c) as [ | | |[|p pieces] err b fl|[x|]| |r]; try discriminate; try (injection H as <- <-; reflexivity).
  - change (s_lock (up s)) with (s_lock s). destruct (s_lock s); [discriminate|]. change (raw_now (up s)) with (raw_now s). change (s_encerr (up s)) with (s_encerr s).
    change (s_buf (up s)) with (s_buf s). destruct (transmit _ _ _ _) as [[err b] fl]. injection H as <- <-. reflexivity.
  - destruct (k_reply c) as [r|]; [|discriminate]. injection H as <- <-. reflexivity.
Qed.
Lemma up_loop_step (s : conn R) s' e : conn_ok cap0 s -> loop_step s = Some (s', e) -> loop_step (up s) = Some (up s', upe e).
Proof.
  intros Ho H. pose proof (o_dec _ _ Ho) as Hd. pose proof (o_local _ _ Ho) as HL. unfold loop_step in *.
  change (s_mpc (up s)) with (larger_m bytes (s_mpc s)). destruct (s_mpc s) as [ | |size|id d|k d|] eqn:Em; try discriminate; cbn [larger_m].
  - injection H as <- <-. change (s_closed (up s)) with (s_closed s). destruct (s_closed s); reflexivity.
  - cbn zeta in *. change (s_requests (up s)) with (s_requests s). destruct (s_requests s id); injection H as <- <-; reflexivity.
  - change (s_calls (up s)) with (s_calls s). destruct (nth_error (s_calls s) k) as [c|] eqn:Ek; [|discriminate].
    assert (Lc : Local (k_dec c)) by (rewrite Forall_forall in HL; apply HL; eapply nth_error_In, Ek).
    pose proof (seen_larger (k_dec c) bytes d Lc Hd) as Hs. cbn zeta in *.
    destruct (k_dec c d), (k_dec c (larger_d bytes d)); cbn [seen] in Hs; try discriminate Hs.
    + injection Hs as ->. destruct (k_reply c); [discriminate|]. injection H as <- <-. reflexivity.
    + injection Hs as ->. destruct (k_reply c); [discriminate|]. injection H as <- <-. reflexivity.
    + injection H as <- <-. unfold larger_conn, crash. cbn. rewrite Em. reflexivity.
Qed.
Lemma up_loop_read (s : conn R) bs s' e : conn_ok cap0 s -> loop_read s bs = Some (s', e) -> loop_read (up s) bs = Some (up s', upe e).
Proof.
  intros [O1 O2 O3 _ _] H. unfold loop_read in *. change (s_mpc (up s)) with (larger_m bytes (s_mpc s)). destruct (s_mpc s) as [ | |size|id d|k d|] eqn:Em; try discriminate; cbn [larger_m].
  - destruct (Z.eqb_spec (zlen bs) 4) as [E4|]; [|discriminate]. cbn zeta in *. change (s_rbuf (up s)) with (s_rbuf s ++ bytes).
    rewrite overwrite_app by (unfold zlen in *; lia). unfold Reset in *. cbn [d_raw] in *. rewrite int32_larger.
    2:{ unfold overwrite. rewrite zlen_app. pose proof (zlen_nonneg (skipn (length bs) (s_rbuf s))). lia. }
    destruct (dInt32 (mkDecoder (overwrite (s_rbuf s) bs) 4 0)); injection H as <- <-; reflexivity.
  - change (s_cap (up s)) with cap. destruct (Z.eqb_spec (zlen bs) (Z.max 0 size)) as [E4|]; [|discriminate]. destruct (Z.leb_spec size (s_cap s)) as [Hsz|]; [|discriminate].
    destruct (Z.leb_spec size cap); [|lia]. cbn [andb] in *. cbn zeta in *. change (s_rbuf (up s)) with (s_rbuf s ++ bytes).
    rewrite overwrite_app by (unfold zlen in *; lia). unfold Reset in *. cbn [d_raw] in *. unfold ResponseHeader_Decode, bind, ret in *. rewrite int32_larger.
    2:{ unfold overwrite. rewrite zlen_app. pose proof (zlen_nonneg (skipn (length bs) (s_rbuf s))). lia. }
    destruct (dInt32 (mkDecoder (overwrite (s_rbuf s) bs) size 0)); injection H as <- <-; reflexivity.
Qed.
Lemma up_cstep (s : conn R) a s' e : conn_ok cap0 s -> plain a -> cstep s a = Some (s', e) -> cstep (up s) a = Some (up s', upe e).
Proof.
  intros Ho Hp H. unfold cstep in *. change (s_crashed (up s)) with (s_crashed s). destruct (s_crashed s); [discriminate|].
  destruct a; cbn [plain] in Hp; try contradiction.
  - injection H as <- <-. reflexivity.
  - change (s_calls (up s)) with (s_calls s). destruct (nth_error (s_calls s) k); [|discriminate]. apply up_call_step, H.
  - apply up_loop_step; assumption.
  - apply up_loop_read; assumption.
  - injection H as <- <-. reflexivity.
  - injection H as <- <-. reflexivity.
Qed.
End Conn.

(** ** Whole connections *)
Lemma call_readn_up {R} N cap cells bytes (c : conn R) g g' : fine g -> call_readn c g = Some g' ->
  call_readn (larger_conn cap bytes c) (larger_ring N cap cells g) = Some (larger_ring N cap cells g') /\ fine g' /\ g_size g' = g_size g.
Proof.
  intros Hf H. unfold call_readn in *. change (s_mpc (larger_conn cap bytes c)) with (larger_m bytes (s_mpc c)). change (s_cap (larger_conn cap bytes c)) with cap.
  destruct (s_mpc c); cbn [larger_m]; try (injection H as <-; auto; fail); cbn [step] in *; rewrite up_r; destruct (g_r g); try discriminate; injection H as <-; auto.
Qed.
Definition all_ok {R} (size0 cap0 : Z) (s : client R) : Prop :=
  conn_ok cap0 (n_conn s) /\ fine (n_ring s) /\ g_size (n_ring s) = size0 /\ r_fits cap0 (g_r (n_ring s)).

Lemma fits_mono c1 c2 p : c1 <= c2 -> r_fits c1 p -> r_fits c2 p.
Proof. intros H. destruct p; cbn; auto; lia. Qed.
Lemma up_inside cap b : inside b = true -> larger_label cap b = b.
Proof. destruct b; try discriminate; reflexivity. Qed.

Lemma up_nstep {R} size0 cap0 N cap cells bytes (s : client R) a s' e : size0 <= N < 2 ^ 31 -> cap0 <= cap -> all_ok size0 cap0 s -> short (n_ring s) = true ->
  nstep s a = Some (s', e) -> nstep (larger_client N cap cells bytes s) a = Some (larger_client N cap cells bytes s', map (larger_event bytes) e) /\
    fine (n_ring s') /\ g_size (n_ring s') = size0.
Proof.
  intros HN Hcap (Ho & Hf & Hg & Hr) Hs H. unfold nstep in *. set (u := larger_client N cap cells bytes) in *.
  change (n_dead (u s)) with (n_dead s). change (s_crashed (n_conn (u s))) with (s_crashed (n_conn s)).
  destruct (n_dead s || s_crashed (n_conn s)); [discriminate|]. cbn zeta in *.
  change (n_conn (u s)) with (larger_conn cap bytes (n_conn s)). change (n_ring (u s)) with (larger_ring N cap cells (n_ring s)).
  change (n_rd (u s)) with (n_rd s). change (n_closers (u s)) with (n_closers s).
  pose proof (fits_mono _ _ _ Hcap Hr) as Hr'.
  assert (US : forall b g1 e1, step (n_ring s) b = Some (g1, e1) -> step (larger_ring N cap cells (n_ring s)) (larger_label cap b) = Some (larger_ring N cap cells g1, e1) /\ fine g1 /\ g_size g1 = size0).
  { intros b g1 e1 E. rewrite <- Hg. apply up_step; try assumption. rewrite Hg. exact HN. }
  destruct a as [enc dec|k| |b|bs|bs| |k].
  - destruct (cstep (n_conn s) (DoCall enc dec)) as [[c1 e1]|] eqn:E; [|discriminate]. injection H as <- <-. rewrite (up_cstep cap0 cap bytes Hcap _ (DoCall enc dec) _ _ Ho I E). auto.
  - destruct (cstep (n_conn s) (CStep k)) as [[c1 e1]|] eqn:E; [|discriminate]. injection H as <- <-. rewrite (up_cstep cap0 cap bytes Hcap _ (CStep k) _ _ Ho I E). auto.
  - destruct (cstep (n_conn s) MStep) as [[c1 e1]|] eqn:E; [|discriminate]. rewrite (up_cstep cap0 cap bytes Hcap _ MStep _ _ Ho I E).
    destruct (call_readn c1 (n_ring s)) as [g1|] eqn:E1; [|discriminate]. injection H as <- <-.
    destruct (call_readn_up N cap cells bytes c1 _ _ Hf E1) as (-> & F1 & F2). split; [reflexivity|]. split; [exact F1|]. cbn. congruence.
  - destruct (inside b) eqn:Ei; [|discriminate]. destruct (step (n_ring s) b) as [[g1 evs]|] eqn:E; [|discriminate].
    destruct (US _ _ _ E) as (E' & F1 & F2). rewrite (up_inside cap b Ei) in E'. rewrite E'. cbn zeta. rewrite up_crashed.
    destruct (bytes_read evs) as [bs|].
    + destruct (cstep (n_conn s) (MRead bs)) as [[c1 e1]|] eqn:E1; [|discriminate]. rewrite (up_cstep cap0 cap bytes Hcap _ (MRead bs) _ _ Ho I E1).
      destruct (call_readn c1 g1) as [g2|] eqn:E2; [|discriminate]. injection H as <- <-.
      destruct (call_readn_up N cap cells bytes c1 _ _ F1 E2) as (-> & F3 & F4). split; [reflexivity|]. split; [exact F3|]. cbn. congruence.
    + injection H as <- <-. auto.
  - destruct (n_rd s); try discriminate. change (s_rawclosed (larger_conn cap bytes (n_conn s))) with (s_rawclosed (n_conn s)).
    destruct (s_rawclosed (n_conn s)); [discriminate|]. destruct (step (n_ring s) (WCall bs (zlen bs))) as [[g1 evs]|] eqn:E; [|discriminate]. injection H as <- <-.
    destruct (US _ _ _ E) as (E' & F1 & F2). cbn [larger_label] in E'. rewrite E'. auto.
  - destruct (n_rd s); try discriminate. injection H as <- <-. auto.
  - injection H as <- <-. auto.
  - destruct (nth_error (n_closers s) k) as [p|]; [|discriminate]. unfold close_step in *. cbn zeta in *.
    change (n_conn (u s)) with (larger_conn cap bytes (n_conn s)). change (n_ring (u s)) with (larger_ring N cap cells (n_ring s)).
    change (n_rd (u s)) with (n_rd s). change (n_closers (u s)) with (n_closers s).
    destruct p; try discriminate.
    + injection H as <- <-. auto.
    + destruct (step (n_ring s) CloseCall) as [[g1 evs]|] eqn:E; [|discriminate]. injection H as <- <-.
      destruct (US _ _ _ E) as (E' & F1 & F2). cbn [larger_label] in E'. rewrite E'. auto.
    + injection H as <- <-. auto.
    + change (s_mpc (larger_conn cap bytes (n_conn s))) with (larger_m bytes (s_mpc (n_conn s))). destruct (s_mpc (n_conn s)); try discriminate. injection H as <- <-. auto.
    + destruct (n_rd s); try discriminate. injection H as <- <-. auto.
Qed.

Lemma reading_fits cap n p : reading cap n p -> r_fits cap p.
Proof. destruct p; cbn; try tauto; unfold rl_ok; lia. Qed.
Lemma exec_ok {R} raw size0 cap0 (sched : list (nlabel R)) s evs : 4 <= cap0 -> nexecutes raw size0 cap0 sched s evs -> n_dead s = false ->
  Forall (fun c => Local (snd c)) (calls sched) -> conn_ok cap0 (n_conn s) /\ r_fits cap0 (g_r (n_ring s)).
Proof.
  intros H4 H Hd HL. destruct (project _ _ _ _ _ _ H) as (cs & rs & re & P1 & _). destruct (ainv _ _ _ _ _ H4 P1) as [C _].
  pose proof (ninv raw size0 cap0 sched s evs ltac:(lia) H Hd) as [N1 N2 N3].
  assert (D : forall buf sz id, carries buf sz id -> dec_ok (mkDecoder buf sz 4)).
  { intros buf sz id (Hi & Hs & rest & E). assert (zlen (firstn (Z.to_nat sz) buf) <= Z.max 0 sz) by (unfold zlen; rewrite firstn_length; lia).
    rewrite E, zlen_app, zlen_be in H0. pose proof (zlen_nonneg rest). unfold dec_ok. cbn [d_offset d_length d_raw]. lia. }
  split.
  - constructor; [exact N1|exact H4|exact (proj2 (i_buf _ _ _ C))| |].
    + destruct (s_mpc (n_conn s)) eqn:Em; try exact I.
      * destruct (i_lookup _ _ _ C _ _ Em) as (buf & sz & _ & Hc & ->). exact (D _ _ _ Hc).
      * destruct (i_mreply _ _ _ C _ _ Em) as (_ & _ & i & buf & sz & _ & _ & Hc & ->). exact (D _ _ _ Hc).
    + rewrite Forall_forall in *. intros c Hc. apply In_nth_error in Hc. destruct Hc as [k Hk]. pose proof (call_made _ _ _ _ _ _ _ _ H Hk) as E.
      apply nth_error_In in E. exact (HL _ E).
  - unfold n_at in N2. destruct (s_mpc (n_conn s)); try (rewrite N2; exact I); eapply reading_fits, N2.
Qed.
Lemma larger_start {R} raw size0 cap0 N cap : 0 <= size0 <= N -> N < 2 ^ 31 -> 0 <= cap0 <= cap ->
  larger_client N cap (repeat 0 (Z.to_nat (N - size0))) (repeat 0 (Z.to_nat (cap - cap0))) (@Connect R raw size0 cap0) = Connect raw N cap.
Proof.
  intros H1 HN H2. unfold larger_client, Connect, larger_conn, larger_ring, Connected, New. rewrite (int32_id N) by (unfold is_int32; lia). cbn. rewrite <- !repeat_app.
  replace (Z.to_nat size0 + Z.to_nat (N - size0))%nat with (Z.to_nat N) by lia. replace (Z.to_nat cap0 + Z.to_nat (cap - cap0))%nat with (Z.to_nat cap) by lia. reflexivity.
Qed.
Lemma nrun_snoc {R} (done : list (nlabel R)) a : forall s0 s evs s' e, nrun s0 done = Some (s, evs) -> nstep s a = Some (s', e) -> nrun s0 (done ++ [a]) = Some (s', evs ++ e).
Proof.
  induction done as [|b done IH]; intros s0 s evs s' e H1 H2; cbn [nrun app] in *.
  - injection H1 as <- <-. rewrite H2, app_nil_r. reflexivity.
  - destruct (nstep s0 b) as [[s1 e1]|]; [|discriminate]. destruct (nrun s1 done) as [[s2 e2]|] eqn:E; [|discriminate]. injection H1 as <- <-.
    rewrite (IH _ _ _ _ _ E H2), app_assoc. reflexivity.
Qed.
Lemma up_nrun {R} raw size0 cap0 N cap cells bytes (rest : list (nlabel R)) : 4 <= cap0 <= cap -> size0 <= N < 2 ^ 31 -> forall done s evs s' e,
  Forall nlegal (done ++ rest) -> Forall (fun c => Local (snd c)) (calls (done ++ rest)) ->
  nrun (Connect raw size0 cap0) done = Some (s, evs) -> fine (n_ring s) -> g_size (n_ring s) = size0 ->
  all_nsteps (fun s _ => short (n_ring s) = true) s rest -> nrun s rest = Some (s', e) ->
  nrun (larger_client N cap cells bytes s) rest = Some (larger_client N cap cells bytes s', map (larger_event bytes) e).
Proof.
  intros Hcap HN. induction rest as [|a rest IH]; intros done s evs s' e Hl HL Hrun Hf Hg Hs H; cbn [nrun] in *.
  - injection H as <- <-. reflexivity.
  - destruct (nstep s a) as [[s1 e1]|] eqn:E; [|discriminate]. destruct (nrun s1 rest) as [[s2 e2]|] eqn:E2; [|discriminate]. injection H as <- <-.
    cbn [all_nsteps] in Hs. destruct Hs as [S1 S2]. rewrite E in S2.
    assert (Hd : n_dead s = false) by (unfold nstep in E; destruct (n_dead s); [discriminate|reflexivity]).
    assert (Hl1 : Forall nlegal done) by (apply Forall_app in Hl; exact (proj1 Hl)).
    assert (HL1 : Forall (fun c => Local (snd c)) (calls done)) by (unfold calls in *; rewrite flat_map_app in HL; apply Forall_app in HL; exact (proj1 HL)).
    destruct (exec_ok raw size0 cap0 done s evs ltac:(lia) (conj Hl1 Hrun) Hd HL1) as [O1 O2].
    destruct (up_nstep size0 cap0 N cap cells bytes s a s1 e1 HN ltac:(lia) (conj O1 (conj Hf (conj Hg O2))) S1 E) as (-> & F1 & F2).
    assert (Happ : done ++ a :: rest = (done ++ [a]) ++ rest) by (rewrite <- app_assoc; reflexivity). rewrite Happ in Hl, HL.
    rewrite (IH (done ++ [a]) s1 (evs ++ e1) s2 e2 Hl HL (nrun_snoc _ _ _ _ _ _ _ Hrun E) F1 F2 S2 E2).
    rewrite map_app. reflexivity.
Qed.
(** What an execution in small buffers does, the same schedule does in larger ones. *)
Lemma larger_executes {R} raw size0 cap0 N cap (sched : list (nlabel R)) s evs : 0 <= size0 <= N -> N < 2 ^ 31 -> 4 <= cap0 <= cap ->
  nexecutes raw size0 cap0 sched s evs -> never_wraps raw size0 cap0 sched -> Forall (fun c => Local (snd c)) (calls sched) ->
  nexecutes raw N cap sched (larger_client N cap (repeat 0 (Z.to_nat (N - size0))) (repeat 0 (Z.to_nat (cap - cap0))) s) (map (larger_event (repeat 0 (Z.to_nat (cap - cap0)))) evs).
Proof.
  intros H1 H2 H3 [Hl H] Hs HL. split; [exact Hl|]. rewrite <- (larger_start raw size0 cap0 N cap H1 H2 ltac:(lia)).
  apply (up_nrun raw size0 cap0 N cap _ _ sched H3 ltac:(lia) [] (Connect raw size0 cap0) [] s evs); try assumption; try reflexivity.
  { unfold fine, Connect, New. cbn [n_ring g_cells g_size]. rewrite int32_id by (unfold is_int32; lia). unfold zlen. rewrite repeat_length. lia. }
  unfold Connect, New. cbn [n_ring g_size]. apply int32_id. unfold is_int32. lia.
Qed.

(** What is seen of the larger execution. *)
Lemma frame_sizes {R} raw cap (sched : list (clabel R)) s evs : 4 <= cap -> executes raw cap sched s evs ->
  Forall (fun e => match e with EFrame buf size => size <= zlen buf | _ => True end) evs.
Proof.
  intros H4. apply (exec_ind_inv (fun _ evs => Forall (fun e => match e with EFrame buf size => size <= zlen buf | _ => True end) evs) raw cap H4); [constructor|].
  intros s0 evs0 s1 e [C0 _] _ IH T. apply Forall_app. split; [exact IH|]. destruct T; repeat constructor.
  all: destruct (i_buf _ _ _ C0) as [_ B]; pose proof (proj1 (i_cap _ _ _ C0)); unfold overwrite; rewrite zlen_app; pose proof (zlen_nonneg (skipn (length bs) (s_rbuf s0))); lia.
Qed.
Lemma frames_larger {R} bytes (evs : list (Conn.event R)) : Forall (fun e => match e with EFrame buf size => size <= zlen buf | _ => True end) evs ->
  frames (map (larger_event bytes) evs) = frames evs.
Proof.
  intros H. unfold frames. induction H as [|e evs He H IH]; [reflexivity|]. cbn [map flat_map]. rewrite IH. f_equal. destruct e; try reflexivity. cbn [larger_event]. f_equal.
  rewrite firstn_app. unfold zlen in He. replace (Z.to_nat size - length raw)%nat with 0%nat by lia. cbn [firstn]. apply app_nil_r.
Qed.
Lemma flat_map_larger {R B} (f : Conn.event R -> list B) bytes : (forall buf size, f (EFrame (buf ++ bytes) size) = f (EFrame buf size)) ->
  forall evs, flat_map f (map (larger_event bytes) evs) = flat_map f evs.
Proof. intros H evs. induction evs as [|e evs IH]; [reflexivity|]. cbn [map flat_map]. rewrite IH. f_equal. destruct e; try reflexivity. apply H. Qed.
Lemma returns_larger {R} k bytes (evs : list (Conn.event R)) : returns_of k (map (larger_event bytes) evs) = returns_of k evs.
Proof. apply flat_map_larger. reflexivity. Qed.
Lemma wire_larger {R} bytes (evs : list (Conn.event R)) : wire (map (larger_event bytes) evs) = wire evs.
Proof. apply flat_map_larger. reflexivity. Qed.
Lemma ids_larger {R} bytes (evs : list (Conn.event R)) : ids (map (larger_event bytes) evs) = ids evs.
Proof. apply flat_map_larger. reflexivity. Qed.
Lemma frames_of {R} raw size cap (sched : list (nlabel R)) s evs bytes : 4 <= cap -> nexecutes raw size cap sched s evs -> frames (map (larger_event bytes) evs) = frames evs.
Proof. intros H4 H. destruct (project _ _ _ _ _ _ H) as (cs & rs & re & P1 & _). apply frames_larger. exact (frame_sizes _ _ _ _ _ H4 P1). Qed.
Lemma occupancy_larger N cap cells g : in_order g = true -> g_size g <= N -> RingSpec.occupancy (larger_ring N cap cells g) = RingSpec.occupancy g.
Proof.
  unfold in_order. rewrite !andb_true_iff, !Z.leb_le, Z.ltb_lt. intros [[H1 H2] H3] HN. unfold RingSpec.occupancy. cbn. rewrite !Z.mod_small by lia. reflexivity.
Qed.
Lemma good_larger N cap cells g a : in_order g = true -> g_size g <= N -> RingSpec.good_wake g a -> RingSpec.good_wake (larger_ring N cap cells g) a.
Proof.
  intros H1 H2 [G1 G2]. unfold RingSpec.good_wake. rewrite occupancy_larger by assumption. split; intros k Hk.
  - apply G1. unfold RingSpec.reader_wakes in *. rewrite up_r in Hk. change (g_rset (larger_ring N cap cells g)) with (g_rset g) in Hk. destruct (g_r g); exact Hk.
  - assert (E : RingSpec.writer_wakes g a = Some k) by exact Hk. specialize (G2 k E). change (g_size (larger_ring N cap cells g)) with N. lia.
Qed.
Lemma good_run {R} raw size0 cap0 N cap cells bytes (rest : list (nlabel R)) : 4 <= cap0 <= cap -> size0 <= N < 2 ^ 31 -> forall done s evs s' e,
  Forall nlegal (done ++ rest) -> Forall (fun c => Local (snd c)) (calls (done ++ rest)) ->
  nrun (Connect raw size0 cap0) done = Some (s, evs) -> fine (n_ring s) -> g_size (n_ring s) = size0 ->
  all_nsteps (fun s _ => short (n_ring s) = true) s rest -> nrun s rest = Some (s', e) ->
  all_nsteps (fun s _ => in_order (n_ring s) = true) s rest -> all_nsteps good_step s rest -> all_nsteps good_step (larger_client N cap cells bytes s) rest.
Proof.
  intros Hcap HN. induction rest as [|a rest IH]; intros done s evs s' e Hl HL Hrun Hf Hg Hs H HO HG; cbn [nrun all_nsteps] in *; [exact I|].
  destruct (nstep s a) as [[s1 e1]|] eqn:E; [|discriminate]. destruct (nrun s1 rest) as [[s2 e2]|] eqn:E2; [|discriminate].
  destruct Hs as [S1 S2]. destruct HG as [G1 G2]. destruct HO as [Q1 Q2].
  assert (Hd : n_dead s = false) by (unfold nstep in E; destruct (n_dead s); [discriminate|reflexivity]).
  assert (Hl1 : Forall nlegal done) by (apply Forall_app in Hl; exact (proj1 Hl)).
  assert (HL1 : Forall (fun c => Local (snd c)) (calls done)) by (unfold calls in *; rewrite flat_map_app in HL; apply Forall_app in HL; exact (proj1 HL)).
  destruct (exec_ok raw size0 cap0 done s evs ltac:(lia) (conj Hl1 Hrun) Hd HL1) as [O1 O2].
  destruct (up_nstep size0 cap0 N cap cells bytes s a s1 e1 HN ltac:(lia) (conj O1 (conj Hf (conj Hg O2))) S1 E) as (-> & F1 & F2).
  assert (Happ : done ++ a :: rest = (done ++ [a]) ++ rest) by (rewrite <- app_assoc; reflexivity). rewrite Happ in Hl, HL.
  split; [|exact (IH (done ++ [a]) s1 (evs ++ e1) s2 e2 Hl HL (nrun_snoc _ _ _ _ _ _ _ Hrun E) F1 F2 S2 E2 Q2 G2)].
  destruct a; try exact I. cbn [good_step] in *. apply good_larger; [exact Q1|lia|exact G1].
Qed.
Lemma larger_good {R} raw size0 cap0 N cap (sched : list (nlabel R)) s evs : 0 <= size0 <= N -> N < 2 ^ 31 -> 4 <= cap0 <= cap ->
  nexecutes raw size0 cap0 sched s evs -> never_wraps raw size0 cap0 sched -> Forall (fun c => Local (snd c)) (calls sched) ->
  all_nsteps (fun s _ => in_order (n_ring s) = true) (Connect raw size0 cap0) sched -> all_nsteps good_step (Connect raw size0 cap0) sched -> all_nsteps good_step (Connect raw N cap) sched.
Proof.
  intros H1 H2 H3 [Hl H] Hs HL HO HG. rewrite <- (larger_start raw size0 cap0 N cap H1 H2 ltac:(lia)).
  apply (good_run raw size0 cap0 N cap _ _ sched H3 ltac:(lia) [] (Connect raw size0 cap0) [] s evs); try assumption; try reflexivity.
  { unfold fine, Connect, New. cbn [n_ring g_cells g_size]. rewrite int32_id by (unfold is_int32; lia). unfold zlen. rewrite repeat_length. lia. }
  unfold Connect, New. cbn [n_ring g_size]. apply int32_id. unfold is_int32. lia.
Qed.

(** ** The machine without the ring *)
Lemma cstep_local {R} (s s' : conn R) a e : legal a -> cstep s a = Some (s', e) -> (forall enc dec, a = DoCall enc dec -> Local dec) ->
  Forall (fun c => Local (k_dec c)) (s_calls s) -> Forall (fun c => Local (k_dec c)) (s_calls s').
Proof.
  intros Hl H HL Hs. apply cstep_calls in H. apply (Forall_map signature (fun x => Local (snd x))) in Hs.
  apply (Forall_map signature (fun x => Local (snd x))). rewrite H. apply Forall_app. split; [exact Hs|].
  destruct a; try constructor; [|constructor]. cbn. exact (HL _ _ eq_refl).
Qed.
Lemma conn_exec_ok {R} raw cap0 (sched : list (clabel R)) s evs : 4 <= cap0 -> executes raw cap0 sched s evs ->
  Forall (fun c => Local (k_dec c)) (s_calls s) -> conn_ok cap0 s.
Proof.
  intros H4 H HL. destruct (ainv _ _ _ _ _ H4 H) as [C _].
  assert (D : forall buf sz id, carries buf sz id -> dec_ok (mkDecoder buf sz 4)).
  { intros buf sz id (Hi & Hs & rest & E). assert (zlen (firstn (Z.to_nat sz) buf) <= Z.max 0 sz) by (unfold zlen; rewrite firstn_length; lia).
    rewrite E, zlen_app, zlen_be in H0. pose proof (zlen_nonneg rest). unfold dec_ok. cbn [d_offset d_length d_raw]. lia. }
  constructor; [exact (proj1 (i_cap _ _ _ C))|exact H4|exact (proj2 (i_buf _ _ _ C))| |exact HL].
  destruct (s_mpc s) eqn:Em; try exact I.
  - destruct (i_lookup _ _ _ C _ _ Em) as (buf & sz & _ & Hc & ->). exact (D _ _ _ Hc).
  - destruct (i_mreply _ _ _ C _ _ Em) as (_ & _ & i & buf & sz & _ & _ & Hc & ->). exact (D _ _ _ Hc).
Qed.
Lemma up_crun {R} raw cap0 cap bytes (rest : list (clabel R)) : 4 <= cap0 <= cap -> forall done s evs s' e,
  Forall legal (done ++ rest) -> Forall (fun a => match a with DoCall _ dec => Local dec | MReadPanic => False | _ => True end) rest ->
  crun (Connected raw cap0) done = Some (s, evs) -> Forall (fun c => Local (k_dec c)) (s_calls s) -> crun s rest = Some (s', e) ->
  crun (larger_conn cap bytes s) rest = Some (larger_conn cap bytes s', map (larger_event bytes) e).
Proof.
  intros Hcap. induction rest as [|a rest IH]; intros done s evs s' e Hl HL Hrun Hs H; cbn [crun] in *; [injection H as <- <-; reflexivity|].
  destruct (cstep s a) as [[s1 e1]|] eqn:E; [|discriminate]. destruct (crun s1 rest) as [[s2 e2]|] eqn:E2; [|discriminate]. injection H as <- <-.
  inversion HL as [|? ? Ha HL']; subst. assert (Hl1 : Forall legal done) by (apply Forall_app in Hl; exact (proj1 Hl)).
  assert (La : legal a) by (apply Forall_app in Hl; destruct Hl as [_ Hl]; inversion Hl; assumption).
  pose proof (conn_exec_ok raw cap0 done s evs ltac:(lia) (conj Hl1 Hrun) Hs) as Ho.
  rewrite (up_cstep cap0 cap bytes ltac:(lia) s a s1 e1 Ho ltac:(destruct a; exact I || exact Ha) E).
  assert (Hs1 : Forall (fun c => Local (k_dec c)) (s_calls s1)).
  { apply (cstep_local _ _ _ _ La E); [|exact Hs]. intros enc dec ->. exact Ha. }
  assert (Hrun1 : crun (Connected raw cap0) (done ++ [a]) = Some (s1, evs ++ e1)) by (rewrite crun_app, Hrun; cbn [crun]; rewrite E, app_nil_r; reflexivity).
  assert (Happ : done ++ a :: rest = (done ++ [a]) ++ rest) by (rewrite <- app_assoc; reflexivity). rewrite Happ in Hl.
  rewrite (IH (done ++ [a]) s1 (evs ++ e1) s2 e2 Hl HL' Hrun1 Hs1 E2), map_app. reflexivity.
Qed.
Lemma larger_executes_conn {R} raw cap0 cap (sched : list (clabel R)) s evs : 4 <= cap0 <= cap -> executes raw cap0 sched s evs ->
  Forall (fun a => match a with DoCall _ dec => Local dec | MReadPanic => False | _ => True end) sched ->
  executes raw cap sched (larger_conn cap (repeat 0 (Z.to_nat (cap - cap0))) s) (map (larger_event (repeat 0 (Z.to_nat (cap - cap0)))) evs).
Proof.
  intros Hcap [Hl H] HL. split; [exact Hl|].
  pose proof (up_crun raw cap0 cap (repeat 0 (Z.to_nat (cap - cap0))) sched Hcap [] (Connected raw cap0) [] s evs Hl HL eq_refl ltac:(constructor) H) as E.
  rewrite <- E. f_equal. unfold larger_conn, Connected. cbn. rewrite <- repeat_app. do 2 f_equal. lia.
Qed.
