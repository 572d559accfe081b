(** * The message loop as a parser; malformed frames *)
From Verif Require Import GoBase GoLemmas Encoder Decoder Spec EncProofs DecProofs BufIO Msg01 RingSpec Conn ConnSpec ConnProofs ConnProps.
Local Open Scope Z_scope.
Ltac Zify.zify_post_hook ::= idtac.

(** ** Streams of frames *)
Lemma parses_ext w fs r x : parses w fs r -> parses (w ++ x) fs (r ++ x).
Proof.
  induction 1; [constructor|]. rewrite <- !app_assoc. constructor; assumption.
Qed.
Lemma parses_snoc w fs size f : parses w fs (be 4 size) -> is_int32 size -> zlen f = Z.max 0 size -> parses (w ++ f) (fs ++ [f]) [].
Proof.
  intros H Hi Hf. remember (be 4 size) as r eqn:Er. induction H.
  - subst. cbn [app]. rewrite <- (app_nil_r f) at 1. constructor; [assumption..|]. constructor.
  - rewrite <- !app_assoc. cbn [app]. constructor; auto.
Qed.
Lemma parses_app w fs r gs r' : parses w fs r -> parses r gs r' -> parses w (fs ++ gs) r'.
Proof. induction 1; [auto|]. intros H'. cbn [app]. constructor; auto. Qed.
Lemma be4_inj a b : is_int32 a -> is_int32 b -> be 4 a = be 4 b -> a = b.
Proof.
  intros Ha Hb E. apply (carries_unique (be 4 a) 4 a b).
  - split; [exact Ha|]. split; [rewrite zlen_be; lia|]. exists []. rewrite app_nil_r. reflexivity.
  - split; [exact Hb|]. split; [rewrite zlen_be; lia|]. exists []. rewrite app_nil_r, E. reflexivity.
Qed.
Lemma app_split {A} (a b c d : list A) : zlen a = zlen c -> a ++ b = c ++ d -> a = c /\ b = d.
Proof.
  unfold zlen. revert c. induction a as [|x a IH]; intros [|y c] H E; cbn in H; try lia.
  - auto.
  - injection E as -> E. destruct (IH c) as [-> ->]; [lia|exact E|]. auto.
Qed.
(** The first frame of a stream is determined. *)
Lemma first_frame s1 f1 w1 s2 f2 w2 : is_int32 s1 -> is_int32 s2 -> zlen f1 = Z.max 0 s1 -> zlen f2 = Z.max 0 s2 ->
  be 4 s1 ++ f1 ++ w1 = be 4 s2 ++ f2 ++ w2 -> f1 = f2 /\ w1 = w2.
Proof.
  intros H1 H2 L1 L2 E. apply app_split in E; [|rewrite !zlen_be; reflexivity]. destruct E as [E1 E2].
  apply be4_inj in E1; [|assumption..]. subst. apply app_split in E2; [exact E2|congruence].
Qed.
Lemma parses_cons w f fs r : parses w (f :: fs) r -> exists size w', is_int32 size /\ zlen f = Z.max 0 size /\ w = be 4 size ++ f ++ w' /\ parses w' fs r.
Proof. remember (f :: fs) as gs eqn:E. intros H. destruct H as [|size f' w' fs' r' H1 H2 H3]; [discriminate|]. injection E as -> ->. exists size, w'. auto. Qed.
Lemma parses_nil w r : parses w [] r -> r = w.
Proof. remember (@nil (list Z)) as gs eqn:E. intros H. destruct H; [reflexivity|discriminate]. Qed.
(** Whatever is parsed of a prefix is the beginning of every complete parse. *)
Lemma parses_prefix w fs r : parses w fs r -> forall x gs r', parses (w ++ x) gs r' -> incomplete r' -> exists hs, gs = fs ++ hs.
Proof.
  induction 1 as [w|size f w fs rest Hi Hf H IH]; intros x gs r' G Hr; [exists gs; reflexivity|].
  rewrite <- !app_assoc in G. destruct gs as [|g gs].
  - exfalso. apply parses_nil in G. subst r'. apply (Hr f [] (w ++ x)). constructor; [assumption..|]. constructor.
  - destruct (parses_cons _ _ _ _ G) as (size' & w' & Hi' & Hf' & E & G'). apply first_frame in E; try assumption. destruct E as [-> <-]. destruct (IH _ _ _ G' Hr) as [hs ->]. exists hs. reflexivity.
Qed.
Lemma parses_complete_unique w fs r gs r' : parses w fs r -> incomplete r -> parses w gs r' -> incomplete r' -> fs = gs /\ r = r'.
Proof.
  intros H. revert gs r'. induction H as [w|size f w fs rest Hi Hf H IH]; intros gs r' Hr G Hr'.
  - destruct gs as [|g gs]; [apply parses_nil in G; auto|]. exfalso. eapply Hr. exact G.
  - destruct gs as [|g gs].
    + apply parses_nil in G. subst r'. exfalso. eapply Hr'. constructor; [exact Hi|exact Hf|exact H].
    + destruct (parses_cons _ _ _ _ G) as (size' & w' & Hi' & Hf' & E & G'). apply first_frame in E; try assumption. destruct E as [-> <-]. destruct (IH _ _ Hr G' Hr') as [-> ->]. auto.
Qed.
(** Every stream has a complete parse. *)
Lemma parses_total w : Forall is_byte w -> exists fs r, parses w fs r /\ incomplete r.
Proof.
  remember (length w) as n eqn:En. revert w En. induction n as [n IH] using (well_founded_induction Wf_nat.lt_wf). intros w -> Hb.
  assert (D : incomplete w \/ exists size f w', is_int32 size /\ zlen f = Z.max 0 size /\ w = be 4 size ++ f ++ w').
  { destruct w as [|b0 [|b1 [|b2 [|b3 w]]]].
    1-4: left; intros f fs rest P; destruct (parses_cons _ _ _ _ P) as (size & w' & Hi & Hf & E & P'); apply (f_equal zlen) in E; rewrite !zlen_app, zlen_be in E;
      pose proof (zlen_nonneg f); pose proof (zlen_nonneg w'); unfold zlen in E at 1; cbn [length] in E; lia.
    inversion Hb as [|? ? B0 Hb1]; inversion Hb1 as [|? ? B1 Hb2]; inversion Hb2 as [|? ? B2 Hb3]; inversion Hb3 as [|? ? B3 Hb4]; subst.
    destruct (bytes4_be b0 b1 b2 b3 B0 B1 B2 B3) as (z & Hz & Ez).
    change (b0 :: b1 :: b2 :: b3 :: w) with ([b0; b1; b2; b3] ++ w). rewrite Ez.
    destruct (Z.le_gt_cases (Z.max 0 z) (zlen w)) as [H|H].
    - right. exists z, (firstn (Z.to_nat z) w), (skipn (Z.to_nat z) w). split; [exact Hz|]. split; [|rewrite firstn_skipn; reflexivity].
      unfold zlen in *. rewrite firstn_length. lia.
    - left. intros f fs rest P. destruct (parses_cons _ _ _ _ P) as (size & w' & Hi & Hf & E & P').
      apply app_split in E; [|rewrite !zlen_be; reflexivity]. destruct E as [E1 E2]. apply be4_inj in E1; [|assumption..]. subst.
      rewrite zlen_app in H. pose proof (zlen_nonneg w'). lia. }
  destruct D as [D|(size & f & w' & Hi & Hf & ->)]; [exists [], w; split; [constructor|exact D]|].
  apply Forall_app in Hb. destruct Hb as [_ Hb]. apply Forall_app in Hb. destruct Hb as [_ Hb].
  destruct (IH (length w')) with (w := w') as (fs & r & H1 & H2); [|reflexivity|exact Hb|].
  - rewrite !app_length. pose proof (zlen_be 4 size). unfold zlen in *. lia.
  - exists (f :: fs), r. split; [constructor; assumption|exact H2].
Qed.

(** ** The message loop parses *)
Definition pending {R} (s : conn R) : list Z := match s_mpc s with MBody size => be 4 size | _ => [] end.

Lemma read_step {R} (s s' : conn R) bs e : Forall is_byte bs -> zlen (s_rbuf s) = s_cap s -> 4 <= s_cap s -> cstep s (MRead bs) = Some (s', e) ->
  s_crashed s' = false /\
  ((exists v, s_mpc s = MHead /\ bs = be 4 v /\ is_int32 v /\ e = [] /\ s_mpc s' = MBody v) \/
   (exists size, s_mpc s = MBody size /\ zlen bs = Z.max 0 size /\ e = [EFrame (overwrite (s_rbuf s) bs) size] /\ size <= s_cap s /\
      (s_mpc s' = MTop \/ exists id d, s_mpc s' = MLookup id d))).
Proof.
  intros Hb Hz Hc H. unfold cstep in H. destruct (s_crashed s) eqn:Ecr; [discriminate|]. unfold loop_read in H.
  destruct (s_mpc s) as [ | |size|id d|k d|] eqn:Em; try discriminate.
  - destruct (Z.eqb_spec (zlen bs) 4) as [E4|]; [|discriminate]. cbn zeta in H. unfold Reset in H. cbn [d_raw] in H.
    destruct bs as [|b0 [|b1 [|b2 [|b3 [|b4 bs]]]]]; try (unfold zlen in E4; cbn [length] in E4; lia).
    inversion Hb as [|? ? B0 Hb1]; inversion Hb1 as [|? ? B1 Hb2]; inversion Hb2 as [|? ? B2 Hb3]; inversion Hb3 as [|? ? B3 Hb4]; subst.
    destruct (bytes4_be b0 b1 b2 b3 B0 B1 B2 B3) as (z & Hz' & Ez). rewrite Ez in H.
    assert (D : dInt32 (mkDecoder (overwrite (s_rbuf s) (be 4 z)) 4 0) = DOk z (advance (zlen (be 4 z)) (mkDecoder (overwrite (s_rbuf s) (be 4 z)) 4 0))).
    { apply (Decodes_int32 z Hz' _ []).
      - unfold dec_ok. cbn [d_offset d_length d_raw]. unfold overwrite. rewrite zlen_app, zlen_be. pose proof (zlen_nonneg (skipn (length (be 4 z)) (s_rbuf s))). lia.
      - unfold frame. cbn [d_offset d_length d_raw]. rewrite Z.sub_0_r. cbn [Z.to_nat skipn]. unfold overwrite. rewrite app_nil_r. reflexivity. }
    rewrite D in H. injection H as <- <-. cbn. split; [exact Ecr|]. left. exists z. rewrite Ez. repeat split; assumption || apply Hz'.
  - destruct (Z.eqb_spec (zlen bs) (Z.max 0 size)) as [E4|]; [|discriminate]. destruct (Z.leb_spec size (s_cap s)) as [Hs|]; [|discriminate]. cbn [andb] in H.
    cbn zeta in H. unfold Reset in H. cbn [d_raw] in H. unfold ResponseHeader_Decode, bind, ret in H.
    assert (Hov : zlen (overwrite (s_rbuf s) bs) = s_cap s). { unfold overwrite. rewrite zlen_app. unfold zlen in *. rewrite skipn_length. lia. }
    destruct (dInt32 (mkDecoder (overwrite (s_rbuf s) bs) size 0)) as [id d|x d|] eqn:Ed.
    + injection H as <- <-. cbn. split; [exact Ecr|]. right. exists size. repeat split; try assumption. right. eauto.
    + injection H as <- <-. cbn. split; [exact Ecr|]. right. exists size. repeat split; try assumption. left. reflexivity.
    + exfalso. revert Ed. unfold dInt32, fixed, remains. cbn [d_length d_offset]. destruct (Z.ltb_spec (size - 0) 4) as [L|L]; cbn [negb]; [discriminate|].
      set (raw := overwrite (s_rbuf s) bs) in *. destruct raw as [|b0 [|b1 [|b2 [|b3 raw]]]]; try (unfold zlen in Hov; cbn in Hov; lia).
      unfold slice_from, slice. cbn [d_raw]. 
      replace ((0 <=? 0) && (0 <=? zlen (b0 :: b1 :: b2 :: b3 :: raw)) && (zlen (b0 :: b1 :: b2 :: b3 :: raw) <=? zlen (b0 :: b1 :: b2 :: b3 :: raw))) with true
        by (symmetry; rewrite !andb_true_iff, !Z.leb_le; unfold zlen; lia).
      rewrite Z.sub_0_r. unfold zlen at 1. rewrite Nat2Z.id. cbn [Z.to_nat skipn]. rewrite firstn_all. cbn. discriminate.
Qed.

Lemma other_step {R} (s s' : conn R) a e : legal a -> (forall bs, a <> MRead bs) -> cstep s a = Some (s', e) -> frames e = [] /\ pending s' = pending s /\ s_rbuf s' = s_rbuf s.
Proof.
  intros Hl Ha H. unfold cstep in H. destruct (s_crashed s); [discriminate|]. destruct a as [enc dec|k| |bs| | |].
  - injection H as <- <-. repeat split.
  - destruct (nth_error (s_calls s) k) as [c|] eqn:Ek; [|discriminate]. unfold call_step in H.
    destruct (k_pc c) as [ | | |[|p pieces] err b fl|[x|]| |r] eqn:Ep; try discriminate; try (injection H as <- <-; repeat split; fail).
    + destruct (s_lock s) eqn:El; [discriminate|]. destruct (transmit _ _ _ _) as [[err b] fl] eqn:Et. injection H as <- <-. repeat split.
    + destruct (k_reply c) as [r|] eqn:Er; [|discriminate]. injection H as <- <-. repeat split.
  - unfold loop_step in H. unfold pending. destruct (s_mpc s) as [ | |size|id d|k d|] eqn:Em; try discriminate.
    + injection H as <- <-. cbn. destruct (s_closed s); repeat split.
    + destruct (s_requests s id) as [k|] eqn:Er; injection H as <- <-; repeat split.
    + destruct (nth_error (s_calls s) k) as [c|] eqn:Ek; [|discriminate].
      destruct (k_dec c d) as [r d'|x d'|] eqn:Ed; [destruct (k_reply c); [discriminate|]..|]; injection H as <- <-; cbn; rewrite ?Em; repeat split.
  - exfalso. apply (Ha bs). reflexivity.
  - destruct (s_mpc s) eqn:Em; try discriminate. destruct (s_cap s <? size); [|discriminate]. injection H as <- <-. repeat split.
  - injection H as <- <-. repeat split.
  - injection H as <- <-. repeat split.
Qed.

Lemma is_read {R} (a : clabel R) : (exists bs, a = MRead bs) \/ forall bs, a <> MRead bs.
Proof. destruct a; try (right; discriminate). left. eauto. Qed.
Lemma body_int32 {R} raw cap (sched : list (clabel R)) : forall s evs size, 4 <= cap -> executes raw cap sched s evs -> s_mpc s = MBody size -> is_int32 size.
Proof.
  induction sched as [|a sched IH] using rev_ind; intros s evs size Hc [Hl H] Hm.
  - injection H as <- <-. discriminate.
  - rewrite crun_app in H. destruct (crun (Connected raw cap) sched) as [[s1 e1]|] eqn:E1; [|discriminate]. cbn [crun] in H.
    destruct (cstep s1 a) as [[s2 e2]|] eqn:E2; [|discriminate]. injection H as <- <-.
    apply Forall_app in Hl. destruct Hl as [Hl Ha]. inversion Ha as [|? ? Ha' _]; subst.
    assert (Hx : executes raw cap sched s1 e1) by (split; assumption).
    destruct (ainv _ _ _ _ _ Hc Hx) as [CI _]. destruct (i_cap _ _ _ CI) as [Ecap _]. destruct (i_buf _ _ _ CI) as [_ Ebuf].
    destruct (is_read a) as [[bs ->]|Hn].
    + destruct (read_step s1 s2 bs e2 Ha' ltac:(congruence) ltac:(lia) E2) as [_ [(v & Q1 & Q2 & Q3 & Q4 & Q5)|(sz & Q1 & Q2 & Q3 & Q4 & [Q5|(id & d & Q5)])]];
        rewrite Q5 in Hm; try discriminate. injection Hm as <-. exact Q3.
    + assert (Hb : s_mpc s1 = MBody size); [|eapply IH; eassumption]. revert Hm E2. clear -Hn. intros Hm H.
      unfold cstep in H. destruct (s_crashed s1); [discriminate|]. destruct a as [enc dec|k| |bs| | |].
      * injection H as <- <-. exact Hm.
      * destruct (nth_error (s_calls s1) k) as [c|] eqn:Ek; [|discriminate]. unfold call_step in H.
        destruct (k_pc c) as [ | | |[|p pieces] err b fl|[x|]| |r] eqn:Ep; try discriminate; try (injection H as <- <-; exact Hm).
        -- destruct (s_lock s1) eqn:El; [discriminate|]. destruct (transmit _ _ _ _) as [[err b] fl] eqn:Et. injection H as <- <-. exact Hm.
        -- destruct (k_reply c) as [r|] eqn:Er; [|discriminate]. injection H as <- <-. exact Hm.
      * unfold loop_step in H. destruct (s_mpc s1) as [ | |sz|id d|k d|] eqn:Em; try discriminate.
        -- injection H as <- <-. cbn in Hm. destruct (s_closed s1); discriminate.
        -- destruct (s_requests s1 id) as [k|] eqn:Er; injection H as <- <-; discriminate.
        -- destruct (nth_error (s_calls s1) k) as [c|] eqn:Ek; [|discriminate].
           destruct (k_dec c d) as [r d'|x d'|] eqn:Ed; [destruct (k_reply c); [discriminate|]..|]; injection H as <- <-; cbn in Hm; congruence.
      * exfalso. eapply Hn. reflexivity.
      * destruct (s_mpc s1) eqn:Em; try discriminate. destruct (s_cap s1 <? _); [|discriminate]. injection H as <- <-. cbn in Hm. congruence.
      * injection H as <- <-. exact Hm.
      * injection H as <- <-. exact Hm.
Qed.
Lemma frames_app {R} (a b : list (event R)) : frames (a ++ b) = frames a ++ frames b.
Proof. unfold frames. apply flat_map_app. Qed.
Lemma read_bytes_app {R} (a b : list (clabel R)) : read_bytes (a ++ b) = read_bytes a ++ read_bytes b.
Proof. unfold read_bytes. apply flat_map_app. Qed.

Lemma loop_parses {R} raw cap (sched : list (clabel R)) : forall s evs, 4 <= cap -> executes raw cap sched s evs ->
  parses (read_bytes sched) (frames evs) (pending s).
Proof.
  induction sched as [|a sched IH] using rev_ind; intros s evs Hc [Hl H].
  - injection H as <- <-. constructor.
  - rewrite crun_app in H. destruct (crun (Connected raw cap) sched) as [[s1 e1]|] eqn:E1; [|discriminate]. cbn [crun] in H.
    destruct (cstep s1 a) as [[s2 e2]|] eqn:E2; [|discriminate]. injection H as <- <-. rewrite app_nil_r.
    apply Forall_app in Hl. destruct Hl as [Hl Ha]. inversion Ha as [|? ? Ha' _]; subst.
    assert (Hx : executes raw cap sched s1 e1) by (split; assumption). specialize (IH s1 e1 Hc Hx).
    destruct (ainv _ _ _ _ _ Hc Hx) as [CI _]. destruct (i_cap _ _ _ CI) as [Ecap _]. destruct (i_buf _ _ _ CI) as [_ Ebuf].
    rewrite frames_app, read_bytes_app.
    destruct (is_read a) as [[bs ->]|Hn].
    + cbn [read_bytes flat_map]. rewrite app_nil_r. cbn [legal] in Ha'.
      destruct (read_step s1 s2 bs e2 Ha' ltac:(congruence) ltac:(lia) E2) as [_ [(v & Q1 & Q2 & Q3 & Q4 & Q5)|(size & Q1 & Q2 & Q3 & Q4 & Q5)]].
      * subst bs e2. cbn [frames flat_map]. rewrite app_nil_r. unfold pending in *. rewrite Q1 in IH. rewrite Q5.
        exact (parses_ext _ _ _ (be 4 v) IH).
      * subst e2. cbn [frames flat_map]. rewrite app_nil_r.
        assert (Ef : firstn (Z.to_nat size) (overwrite (s_rbuf s1) bs) = bs).
        { unfold overwrite. unfold zlen in Q2. rewrite firstn_app. replace (Z.to_nat size - length bs)%nat with 0%nat by lia. cbn [firstn]. rewrite app_nil_r.
          apply firstn_all2. lia. }
        rewrite Ef. replace (pending s2) with (@nil Z) by (unfold pending; destruct Q5 as [->|(id & d & ->)]; reflexivity).
        unfold pending in IH. rewrite Q1 in IH.
        assert (Hi : is_int32 size) by exact (body_int32 _ _ _ _ _ _ Hc Hx Q1).
        apply parses_snoc with (size := size); assumption.
    + destruct (other_step _ _ _ _ Ha' Hn E2) as (Q1 & Q2 & _). rewrite Q1, Q2.
      replace (read_bytes [a]) with (@nil Z) by (destruct a; try reflexivity; exfalso; eapply Hn; reflexivity). rewrite !app_nil_r. exact IH.
Qed.

(** ** Malformed frames *)
Lemma head_read {R} (s : conn R) size : s_crashed s = false -> s_mpc s = MHead -> is_int32 size -> zlen (s_rbuf s) = s_cap s -> 4 <= s_cap s ->
  cstep s (MRead (be 4 size)) = Some (set_mpc (set_rbuf s (overwrite (s_rbuf s) (be 4 size))) (MBody size), []).
Proof.
  intros Hcr Hm Hi Hz Hc. unfold cstep. rewrite Hcr. unfold loop_read. rewrite Hm, zlen_be. change (Z.of_nat 4 =? 4) with true. cbn match. cbn zeta. unfold Reset. cbn [d_raw].
  rewrite (Decodes_int32 size Hi _ []); [reflexivity| |].
  - unfold dec_ok. cbn [d_offset d_length d_raw]. unfold overwrite. rewrite zlen_app, zlen_be. pose proof (zlen_nonneg (skipn (length (be 4 size)) (s_rbuf s))). lia.
  - unfold frame. cbn [d_offset d_length d_raw]. rewrite Z.sub_0_r. cbn [Z.to_nat skipn]. unfold overwrite. rewrite app_nil_r. reflexivity.
Qed.
Lemma overwrite_firstn buf bs size : zlen bs = Z.max 0 size -> firstn (Z.to_nat size) (overwrite buf bs) = bs.
Proof.
  intros H. unfold overwrite. unfold zlen in H. rewrite firstn_app. replace (Z.to_nat size - length bs)%nat with 0%nat by lia. cbn [firstn]. rewrite app_nil_r.
  apply firstn_all2. lia.
Qed.

(** A frame of any size up to the receive buffer and any contents is processed:
    the loop comes back to its start, unless the DecodeFunc it hands the frame
    to panics. *)
Lemma frame_processed {R} raw cap (sched : list (clabel R)) s evs size body : 4 <= cap -> executes raw cap sched s evs ->
  s_crashed s = false -> s_mpc s = MHead -> is_int32 size -> size <= cap -> Forall is_byte body -> zlen body = Z.max 0 size ->
  (forall k c buf, nth_error (s_calls s) k = Some c -> zlen buf = cap -> firstn (Z.to_nat size) buf = body -> k_dec c (mkDecoder buf size 4) <> DPanic) ->
  exists n s' evs', crun s (MRead (be 4 size) :: MRead body :: repeat MStep n) = Some (s', evs') /\ s_crashed s' = false /\
    s_mpc s' = MTop /\ frames evs' = [body] /\
    forall id k, carries body size id -> s_requests s id = Some k -> exists r, In (EReply k r) evs'.
Proof.
  intros Hc Hx Hcr Hm Hi Hs Hb Hz Hd. destruct (ainv _ _ _ _ _ Hc Hx) as [CI _]. destruct (i_cap _ _ _ CI) as [Ecap _]. destruct (i_buf _ _ _ CI) as [Bbuf Ebuf].
  assert (H1 : cstep s (MRead (be 4 size)) = Some (set_mpc (set_rbuf s (overwrite (s_rbuf s) (be 4 size))) (MBody size), [])) by (apply head_read; try assumption; lia).
  set (s1 := set_mpc (set_rbuf s (overwrite (s_rbuf s) (be 4 size))) (MBody size)) in *.
  assert (Hov : zlen (overwrite (s_rbuf s) (be 4 size)) = cap) by (unfold overwrite; rewrite zlen_app, zlen_be; unfold zlen in *; rewrite skipn_length, length_be; lia).
  set (buf := overwrite (overwrite (s_rbuf s) (be 4 size)) body) in *.
  assert (Hbuf : zlen buf = cap) by (unfold buf, overwrite at 1; rewrite zlen_app; unfold zlen in *; rewrite skipn_length; lia).
  assert (Hbb : Forall is_byte buf).
  { unfold buf. refine (proj1 (overwrite_ok _ body cap _ Hov Hb _)); [|lia].
    refine (proj1 (overwrite_ok _ (be 4 size) cap Bbuf Ebuf _ _)); [apply be_bytes|rewrite zlen_be; lia]. }
  assert (Hf : firstn (Z.to_nat size) buf = body) by (apply overwrite_firstn; exact Hz).
  assert (H2 : exists m, cstep s1 (MRead body) = Some (set_mpc (set_rbuf s1 buf) m, [EFrame buf size]) /\
     ((m = MTop /\ forall id, ~ carries body size id) \/ exists id, m = MLookup id (mkDecoder buf size 4) /\ carries buf size id)).
  { unfold cstep. change (s_crashed s1) with (s_crashed s). rewrite Hcr. unfold loop_read. change (s_mpc s1) with (MBody size). change (s_cap s1) with (s_cap s). rewrite Ecap.
    rewrite (proj2 (Z.eqb_eq _ _) Hz), (proj2 (Z.leb_le _ _) Hs). cbn [andb]. cbn zeta.
    change (overwrite (s_rbuf s1) body) with buf. unfold Reset. cbn [d_raw]. unfold ResponseHeader_Decode, bind, ret.
    destruct (dInt32 (mkDecoder buf size 0)) as [id d|x d|] eqn:Ed.
    - destruct (decode_carries buf size id d Hbb ltac:(lia) Ed) as [Q ->]. eexists. split; [reflexivity|]. right. exists id. split; [reflexivity|exact Q].
    - eexists. split; [reflexivity|]. left. split; [reflexivity|]. intros id (Q1 & Q2 & rest & Q3). revert Ed.
      rewrite (Decodes_int32 id Q1 _ rest); [discriminate| |].
      + unfold dec_ok. cbn [d_offset d_length d_raw]. apply (f_equal zlen) in Q3. rewrite zlen_app, zlen_be in Q3. pose proof (zlen_nonneg rest). unfold zlen in Q3 at 1. rewrite firstn_length in Q3. unfold zlen in *. lia.
      + unfold frame. cbn [d_offset d_length d_raw]. rewrite Z.sub_0_r. cbn [Z.to_nat skipn]. rewrite Hf. rewrite firstn_all2 in Q3 by (unfold zlen in *; lia). exact Q3.
    - exfalso. revert Ed. pose proof (zlen_nonneg body). destruct (Z.lt_ge_cases size 4) as [L|L].
      + unfold dInt32, fixed, remains. cbn [d_length d_offset]. rewrite Z.sub_0_r. rewrite (proj2 (Z.ltb_lt _ _) L). discriminate.
      + rewrite <- Hf in Hb. destruct buf as [|b0 [|b1 [|b2 [|b3 rb]]]]; try (unfold zlen in Hbuf; cbn [length] in Hbuf; lia).
        unfold dInt32, fixed, remains, slice_from, slice. cbn [d_length d_offset d_raw]. rewrite (proj2 (Z.ltb_ge _ _)) by lia. cbn [negb].
        replace ((0 <=? 0) && (0 <=? zlen (b0 :: b1 :: b2 :: b3 :: rb)) && (zlen (b0 :: b1 :: b2 :: b3 :: rb) <=? zlen (b0 :: b1 :: b2 :: b3 :: rb))) with true
          by (symmetry; rewrite !andb_true_iff, !Z.leb_le; unfold zlen; lia).
        rewrite Z.sub_0_r. unfold zlen at 1. rewrite Nat2Z.id. cbn [Z.to_nat skipn]. rewrite firstn_all. cbn. discriminate. }
  destruct H2 as (m & H2 & Hcase). set (s2 := set_mpc (set_rbuf s1 buf) m) in *.
  destruct Hcase as [[-> Hno]|(id & -> & Hca)].
  - exists 0%nat, s2, [EFrame buf size]. cbn [repeat crun]. rewrite H1, H2. cbn [app frames flat_map]. rewrite Hf. repeat split; try assumption. intros id k F. exfalso. exact (Hno id F).
  - destruct (s_requests s id) as [k|] eqn:Er.
    + assert (H3 : cstep s2 MStep = Some (set_mpc (set_requests s2 (map_set (s_requests s2) id None)) (MReply k (mkDecoder buf size 4)), [])).
      { unfold cstep. change (s_crashed s2) with (s_crashed s). rewrite Hcr. unfold loop_step. cbn [s2 set_mpc s_mpc]. change (s_requests _ id) with (s_requests s id). rewrite Er. reflexivity. }
      set (s3 := set_mpc (set_requests s2 (map_set (s_requests s2) id None)) (MReply k (mkDecoder buf size 4))) in *.
      pose proof (i_view _ _ _ CI k) as Vk. destruct (i_req _ _ _ CI _ _ Er) as (R1 & R2 & R3 & R4).
      destruct (nth_error (s_calls s) k) as [c|] eqn:Ek; [|destruct Vk as (V1 & _); rewrite R1 in V1; discriminate].
      pose proof (v_reply _ _ _ Vk) as Vr. rewrite R3 in Vr.
      assert (Hrep : k_reply c = None). { destruct (k_reply c); [|reflexivity]. exfalso. destruct (k_pc c) as [ | | | | | |[x|r0]]; discriminate Vr. }
      assert (H4 : exists r, cstep s3 MStep = Some (put_call (set_mpc s3 MTop) k (mkCall (k_enc c) (k_dec c) (k_id c) (k_pc c) (Some r)), [EReply k r])).
      { unfold cstep. change (s_crashed s3) with (s_crashed s). rewrite Hcr. unfold loop_step. cbn [s3 set_mpc s_mpc]. change (s_calls _) with (s_calls s). rewrite Ek.
        pose proof (Hd k c buf Ek Hbuf Hf) as Hnp. destruct (k_dec c (mkDecoder buf size 4)) as [r d'|x d'|]; [| |contradiction]; rewrite Hrep; eexists; reflexivity. }
      destruct H4 as [r H4]. exists 2%nat. eexists. eexists. cbn [repeat crun]. rewrite H1, H2, H3, H4. cbn [app]. split; [reflexivity|].
      split; [exact Hcr|]. split; [reflexivity|]. split; [cbn [frames flat_map app]; rewrite Hf; reflexivity|].
      intros id' k' Hid' Hk'. assert (id' = id).
      { apply (carries_unique buf size id' id); [|exact Hca]. destruct Hid' as (Q1 & Q2 & rest & Q3). split; [exact Q1|]. split; [lia|]. exists rest. rewrite Hf.
        rewrite firstn_all2 in Q3 by (unfold zlen in *; lia). exact Q3. }
      subst id'. rewrite Er in Hk'. injection Hk' as <-. exists r. cbn. auto.
    + exists 1%nat. eexists. eexists. cbn [repeat crun]. rewrite H1, H2. unfold cstep at 1. change (s_crashed s2) with (s_crashed s). rewrite Hcr. unfold loop_step. cbn [s2 set_mpc s_mpc].
      change (s_requests _ id) with (s_requests s id). rewrite Er. cbn [app]. split; [reflexivity|]. split; [exact Hcr|]. split; [reflexivity|].
      split; [cbn [frames flat_map app]; rewrite Hf; reflexivity|].
      intros id' k' Hid' Hk'. assert (id' = id).
      { apply (carries_unique buf size id' id); [|exact Hca]. destruct Hid' as (Q1 & Q2 & rest & Q3). split; [exact Q1|]. split; [lia|]. exists rest. rewrite Hf.
        rewrite firstn_all2 in Q3 by (unfold zlen in *; lia). exact Q3. }
      congruence.
Qed.

(** The process crashes in no other way than these two. *)
Lemma crash_only {R} raw cap (sched : list (clabel R)) s evs a s' e : 4 <= cap -> executes raw cap sched s evs -> legal a -> cstep s a = Some (s', e) ->
  s_crashed s' = true ->
  (a = MReadPanic /\ exists size, s_mpc s = MBody size /\ cap < size) \/
  (a = MStep /\ exists k c buf size id, nth_error (s_calls s) k = Some c /\ In (EFrame buf size) evs /\ carries buf size id /\ In (EId k id) evs /\
     k_dec c (mkDecoder buf size 4) = DPanic).
Proof.
  intros Hc Hx Hl H Hcr. destruct (ainv _ _ _ _ _ Hc Hx) as [CI _]. destruct (i_cap _ _ _ CI) as [Ecap _]. destruct (i_buf _ _ _ CI) as [Bbuf Ebuf].
  destruct (is_read a) as [[bs ->]|Hn].
  { exfalso. destruct (read_step s s' bs e Hl ltac:(congruence) ltac:(lia) H) as [F _]. congruence. }
  unfold cstep in H. destruct (s_crashed s) eqn:Es; [discriminate|]. destruct a as [enc dec|k| |bs| | |].
  - injection H as <- <-. cbn in Hcr. congruence.
  - exfalso. destruct (nth_error (s_calls s) k) as [c|] eqn:Ek; [|discriminate]. unfold call_step in H.
    destruct (k_pc c) as [ | | |[|p pieces] err b fl|[x|]| |r] eqn:Ep; try discriminate; try (injection H as <- <-; cbn in Hcr; congruence).
    + destruct (s_lock s) eqn:El; [discriminate|]. destruct (transmit _ _ _ _) as [[err b] fl] eqn:Et. injection H as <- <-. cbn in Hcr; congruence.
    + destruct (k_reply c) as [r|] eqn:Er; [|discriminate]. injection H as <- <-. cbn in Hcr; congruence.
  - right. split; [reflexivity|]. unfold loop_step in H. destruct (s_mpc s) as [ | |size|id d|k d|] eqn:Em; try discriminate.
    + injection H as <- <-. cbn in Hcr. congruence.
    + destruct (s_requests s id) as [k|] eqn:Er; injection H as <- <-; cbn in Hcr; congruence.
    + destruct (nth_error (s_calls s) k) as [c|] eqn:Ek; [|discriminate].
      destruct (i_mreply _ _ _ CI k d Em) as (_ & _ & id & buf & size & M1 & M2 & M3 & ->).
      destruct (k_dec c (mkDecoder buf size 4)) as [r d'|x d'|] eqn:Ed; [destruct (k_reply c); [discriminate|]; injection H as <- <-; cbn in Hcr; congruence..|].
      exists k, c, buf, size, id. repeat split; try assumption; try apply M3. apply in_id_of. rewrite M1. left. reflexivity.
  - exfalso. eapply Hn. reflexivity.
  - left. split; [reflexivity|]. destruct (s_mpc s) eqn:Em; try discriminate. destruct (Z.ltb_spec (s_cap s) size); [|discriminate]. exists size. split; [reflexivity|lia].
  - injection H as <- <-. cbn in Hcr. congruence.
  - injection H as <- <-. cbn in Hcr. congruence.
Qed.

(** Both ways are open.  A size larger than the receive buffer: *)
Lemma big_size_crashes {R} raw cap (sched : list (clabel R)) s evs size : 4 <= cap -> executes raw cap sched s evs ->
  s_crashed s = false -> s_mpc s = MHead -> is_int32 size -> cap < size ->
  exists s', crun s [MRead (be 4 size); MReadPanic] = Some (s', []) /\ s_crashed s' = true /\
    forall bs s1 e1, cstep s (MRead (be 4 size)) = Some (s1, e1) -> cstep s1 (MRead bs) = None.
Proof.
  intros Hc Hx Hcr Hm Hi Hs. destruct (ainv _ _ _ _ _ Hc Hx) as [CI _]. destruct (i_cap _ _ _ CI) as [Ecap _]. destruct (i_buf _ _ _ CI) as [_ Ebuf].
  pose proof (head_read s size Hcr Hm Hi ltac:(congruence) ltac:(lia)) as H1. eexists. cbn [crun]. rewrite H1.
  split; [unfold cstep; cbn [set_mpc set_rbuf s_crashed s_mpc s_cap]; rewrite Hcr; rewrite (proj2 (Z.ltb_lt _ _)) by lia; reflexivity|]. split; [reflexivity|].
  intros bs s1 e1 F. injection F as <- _. unfold cstep. cbn [set_mpc set_rbuf s_crashed]. rewrite Hcr. unfold loop_read. cbn [set_mpc set_rbuf s_mpc s_cap].
  rewrite (proj2 (Z.leb_gt size (s_cap s))) by lia. rewrite andb_false_r. reflexivity.
Qed.
(** A frame on which the DecodeFunc of the call it answers panics: *)
Lemma panic_crashes {R} raw cap (sched : list (clabel R)) s evs id k c bs : 4 <= cap -> executes raw cap sched s evs ->
  s_crashed s = false -> s_mpc s = MHead -> is_int32 id -> s_requests s id = Some k -> nth_error (s_calls s) k = Some c ->
  Forall is_byte bs -> 4 + zlen bs <= cap -> cap < 2 ^ 31 ->
  (forall d, dec_ok d -> frame d = bs -> k_dec c d = DPanic) ->
  exists s' evs', crun s [MRead (be 4 (4 + zlen bs)); MRead (be 4 id ++ bs); MStep; MStep] = Some (s', evs') /\ s_crashed s' = true.
Proof.
  intros Hc Hx Hcr Hm Hid Hr Hk Hb Hs Hcap Hd. destruct (ainv _ _ _ _ _ Hc Hx) as [CI _]. destruct (i_cap _ _ _ CI) as [Ecap _]. destruct (i_buf _ _ _ CI) as [Bbuf Ebuf].
  pose proof (zlen_nonneg bs) as Hn. set (size := 4 + zlen bs) in *.
  assert (H1 := head_read s size Hcr Hm ltac:(unfold is_int32; lia) ltac:(congruence) ltac:(lia)).
  set (s1 := set_mpc (set_rbuf s (overwrite (s_rbuf s) (be 4 size))) (MBody size)) in *.
  assert (Hbz : zlen (be 4 id ++ bs) = Z.max 0 size) by (rewrite zlen_app, zlen_be; lia).
  set (buf := overwrite (overwrite (s_rbuf s) (be 4 size)) (be 4 id ++ bs)).
  assert (Hbuf : zlen buf = cap).
  { unfold buf. refine (proj2 (overwrite_ok _ _ cap _ _ _ _)); [| |apply Forall_app; split; [apply be_bytes|exact Hb]|lia];
      apply (overwrite_ok _ (be 4 size) cap Bbuf Ebuf); try apply be_bytes; rewrite zlen_be; lia. }
  assert (Hf : firstn (Z.to_nat size) buf = be 4 id ++ bs) by (apply overwrite_firstn; exact Hbz).
  assert (H2 : cstep s1 (MRead (be 4 id ++ bs)) = Some (set_mpc (set_rbuf s1 buf) (MLookup id (mkDecoder buf size 4)), [EFrame buf size])).
  { unfold cstep. change (s_crashed s1) with (s_crashed s). rewrite Hcr. unfold loop_read. change (s_mpc s1) with (MBody size). change (s_cap s1) with (s_cap s). rewrite Ecap.
    rewrite (proj2 (Z.eqb_eq _ _) Hbz), (proj2 (Z.leb_le _ _) Hs). cbn [andb]. cbn zeta.
    change (overwrite (s_rbuf s1) (be 4 id ++ bs)) with buf. unfold Reset. cbn [d_raw]. unfold ResponseHeader_Decode, bind, ret.
    rewrite (Decodes_int32 id Hid _ bs); [reflexivity| |].
    - unfold dec_ok. cbn [d_offset d_length d_raw]. lia.
    - unfold frame. cbn [d_offset d_length d_raw]. rewrite Z.sub_0_r. cbn [Z.to_nat skipn]. exact Hf. }
  eexists. eexists. cbn [crun]. rewrite H1, H2. unfold cstep at 1. cbn [set_mpc set_rbuf s_crashed]. change (s_crashed s1) with (s_crashed s). rewrite Hcr. unfold loop_step at 1. cbn [set_mpc s_mpc].
  change (s_requests _ id) with (s_requests s id). rewrite Hr. cbv iota beta. unfold cstep. cbn [set_mpc set_rbuf set_requests s_crashed]. change (s_crashed s1) with (s_crashed s). rewrite Hcr.
  unfold loop_step. cbn [set_mpc s_mpc]. change (s_calls _) with (s_calls s). rewrite Hk. rewrite Hd; [split; reflexivity| |].
  - unfold dec_ok. cbn [d_offset d_length d_raw]. lia.
  - unfold frame. cbn [d_offset d_length d_raw].
    assert (E : firstn (Z.to_nat (size - 4)) (skipn 4 buf) = skipn 4 (firstn (Z.to_nat size) buf)).
    { rewrite skipn_firstn_comm. f_equal. lia. }
    change (Z.to_nat 4) with 4%nat. rewrite E, Hf. reflexivity.
Qed.
