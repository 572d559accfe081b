(** * From the call of a method to what it returns *)
From Verif Require Import GoBase GoLemmas Encoder Decoder Spec SchemaSpec EncProofs DecProofs Link AllMessages MsgProofs MsgProps BrokerTable Broker BrokerSpec BrokerProofs
  BufIO BufIOProofs RingSpec Conn ConnSpec ConnProofs ConnProps ConnFrames ConnTable ConnRing ConnRingSpec ConnRingProofs ConnRingProps EndSpec.
From Verif Require Ring RingSpec.
Local Open Scope Z_scope.
Ltac Zify.zify_post_hook ::= idtac.

(** ** A frame with the id of a call, once processed, has given it its reply *)
Lemma carries_long raw size id : carries raw size id -> 4 <= size.
Proof.
  intros (Hi & Hs & rest & E).
  assert (zlen (firstn (Z.to_nat size) raw) <= Z.max 0 size) by (unfold zlen; rewrite firstn_length; lia).
  rewrite E, zlen_app, zlen_be in H. pose proof (zlen_nonneg rest). lia.
Qed.
Lemma frame_followed {R} raw cap (sched : list (clabel R)) s evs : 4 <= cap -> executes raw cap sched s evs ->
  forall id buf size, In (EFrame buf size) evs -> carries buf size id ->
  (exists d, s_mpc s = MLookup id d) \/ In (EDropped id) evs \/
  exists k, In (EId k id) evs /\ ((exists d, s_mpc s = MReply k d) \/ exists r, In (EReply k r) evs).
Proof.
  intros Hc. revert sched s evs. refine (exec_ind_inv (fun s evs => forall id buf size, In (EFrame buf size) evs -> carries buf size id ->
    (exists d, s_mpc s = MLookup id d) \/ In (EDropped id) evs \/
    exists k, In (EId k id) evs /\ ((exists d, s_mpc s = MReply k d) \/ exists r, In (EReply k r) evs)) raw cap Hc _ _).
  - intros id buf size [].
  - intros s evs s' e [I W] [I' W'] IH T id buf size Hf Hcar.
    assert (Keep : forall k, In (EId k id) evs /\ (exists r, In (EReply k r) evs) -> In (EId k id) (evs ++ e) /\ exists r, In (EReply k r) (evs ++ e)).
    { intros k [A [r B]]. split; [apply in_more, A|exists r; apply in_more, B]. }
    assert (Same : s_mpc s' = s_mpc s -> (forall b z, ~ In (EFrame b z) e) -> (exists d, s_mpc s' = MLookup id d) \/ In (EDropped id) (evs ++ e) \/
      exists k, In (EId k id) (evs ++ e) /\ ((exists d, s_mpc s' = MReply k d) \/ exists r, In (EReply k r) (evs ++ e))).
    { intros Em Hn. apply in_app_or in Hf. destruct Hf as [Hf|Hf]; [|exfalso; eapply Hn; exact Hf].
      destruct (IH _ _ _ Hf Hcar) as [H|[H|(k & K1 & [K2|[r K2]])]].
      - left. rewrite Em. exact H.
      - right. left. apply in_more, H.
      - right. right. exists k. split; [apply in_more, K1|]. left. rewrite Em. exact K2.
      - right. right. exists k. split; [apply in_more, K1|]. right. exists r. apply in_more, K2. }
    assert (Old : (forall i d, s_mpc s <> MLookup i d) -> (forall i d, s_mpc s <> MReply i d) -> In (EFrame buf size) evs ->
      (exists d, s_mpc s' = MLookup id d) \/ In (EDropped id) (evs ++ e) \/
      exists k, In (EId k id) (evs ++ e) /\ ((exists d, s_mpc s' = MReply k d) \/ exists r, In (EReply k r) (evs ++ e))).
    { intros N1 N2 Hf'. destruct (IH _ _ _ Hf' Hcar) as [[d H]|[H|(k & K1 & [[d K2]|[r K2]])]].
      - exfalso. exact (N1 _ _ H).
      - right. left. apply in_more, H.
      - exfalso. exact (N2 _ _ K2).
      - right. right. exists k. split; [apply in_more, K1|]. right. exists r. apply in_more, K2. }
    destruct T; try (apply Same; [reflexivity|intros ? ? [F|[]]; discriminate]); try (apply Same; [reflexivity|intros ? ? []]).
    + (* top *) rewrite app_nil_r in Hf. apply Old; [congruence|congruence|exact Hf].
    + (* found *) rewrite app_nil_r in *. destruct (IH _ _ _ Hf Hcar) as [[d' E]|[E|(j & K1 & [[d' K2]|[r K2]])]].
      * rewrite H in E. injection E as -> ->. right. right. exists k. split; [|left; exists d'; reflexivity].
        apply in_id_of. rewrite (proj1 (i_req _ _ _ I _ _ H0)). left. reflexivity.
      * auto.
      * congruence.
      * right. right. exists j. split; [exact K1|]. right. exists r. exact K2.
    + (* dropped *) apply in_app_or in Hf. destruct Hf as [Hf|[Hf|[]]]; [|discriminate]. destruct (IH _ _ _ Hf Hcar) as [[d' E]|[E|(j & K1 & [[d' K2]|[r K2]])]].
      * rewrite H in E. injection E as -> ->. right. left. apply in_or_app. right. left. reflexivity.
      * right. left. apply in_more, E.
      * congruence.
      * right. right. exists j. split; [apply in_more, K1|]. right. exists r. apply in_more, K2.
    + (* reply *) apply in_app_or in Hf. destruct Hf as [Hf|[Hf|[]]]; [|discriminate]. destruct (IH _ _ _ Hf Hcar) as [[d' E]|[E|(j & K1 & [[d' K2]|[r' K2]])]].
      * congruence.
      * right. left. apply in_more, E.
      * rewrite H in K2. injection K2 as -> ->. right. right. exists j. split; [apply in_more, K1|]. right. exists r. apply in_or_app. right. left. reflexivity.
      * right. right. exists j. split; [apply in_more, K1|]. right. exists r'. apply in_more, K2.
    + (* head *) rewrite app_nil_r in Hf. apply Old; [congruence|congruence|exact Hf].
    + (* frame *) apply in_app_or in Hf. destruct Hf as [Hf|[Hf|[]]]; [apply Old; [congruence|congruence|exact Hf]|].
      injection Hf as <- <-. left. exists d. cbn. f_equal. destruct (i_cap _ _ _ I) as [C1 C2]. destruct (i_buf _ _ _ I) as [B1 B2].
      destruct (overwrite_ok (s_rbuf s) bs cap B1 B2 H2) as [O1 O2]; [lia|].
      destruct (decode_carries (overwrite (s_rbuf s) bs) size0 id0 d) as [Hcar' _]; [exact O1|lia|exact H3|]. exact (carries_unique _ _ _ _ Hcar' Hcar).
    + (* short *) apply in_app_or in Hf. destruct Hf as [Hf|[Hf|[]]]; [apply Old; [congruence|congruence|exact Hf]|].
      injection Hf as <- <-. exfalso. pose proof (carries_long _ _ _ Hcar) as H4. destruct Hcar as (Z1 & Z2 & rest & Z3).
      assert (D : dInt32 (mkDecoder (overwrite (s_rbuf s) bs) size0 0) = DOk id (advance (zlen (be 4 id)) (mkDecoder (overwrite (s_rbuf s) bs) size0 0))).
      { apply (Decodes_int32 id Z1 _ rest).
        - unfold dec_ok. cbn [d_offset d_length d_raw]. lia.
        - unfold frame. cbn [d_offset d_length d_raw]. rewrite Z.sub_0_r. cbn [Z.to_nat skipn]. exact Z3. }
      congruence.
Qed.
Lemma frame_answered {R} raw cap (sched : list (clabel R)) s evs : 4 <= cap -> executes raw cap sched s evs ->
  zlen (ids evs) <= 2 ^ 32 -> solicited evs -> outside s ->
  forall k id buf size, In (EFrame buf size) evs -> carries buf size id -> In (EId k id) evs -> exists r, In (EReply k r) evs.
Proof.
  intros Hc H Hn Hs Ho k id buf size Hf Hcar Hid. unfold outside in Ho.
  destruct (frame_followed _ _ _ _ _ Hc H _ _ _ Hf Hcar) as [[d E]|[E|(j & K1 & [[d K2]|K2])]].
  - rewrite E in Ho. contradiction.
  - exfalso. exact (none_dropped _ _ _ _ _ Hc H Hn Hs _ E).
  - rewrite K2 in Ho. contradiction.
  - rewrite (calls_distinct _ _ _ _ _ _ _ _ Hc H Hn Hid K1). exact K2.
Qed.

(** ** The calls of a schedule are the calls of the state *)
Definition signature {R} (c : docall R) : (Z -> Encoder -> Encoder) * Dec R := (k_enc c, k_dec c).
Lemma map_set_nth {A B} (f : A -> B) : forall l k x y, nth_error l k = Some y -> f x = f y -> map f (set_nth l k x) = map f l.
Proof.
  induction l as [|z l IH]; intros [|k] x y H E; cbn in *; try discriminate; [injection H as ->; rewrite E; reflexivity|]. rewrite (IH _ _ _ H E). reflexivity.
Qed.
Lemma cstep_calls {R} (s s' : conn R) a e : cstep s a = Some (s', e) ->
  map signature (s_calls s') = map signature (s_calls s) ++ match a with DoCall enc dec => [(enc, dec)] | _ => [] end.
Proof.
  unfold cstep. destruct (s_crashed s); [discriminate|]. destruct a as [enc dec|k| |bs| | |].
  - intros H. injection H as <- <-. cbn. rewrite map_app. reflexivity.
  - destruct (nth_error (s_calls s) k) as [c|] eqn:Hk; [|discriminate]. intros H. rewrite app_nil_r. unfold call_step in H.
    destruct (k_pc c) as [ | | |[|p ps] err b fl|[x|]| |res]; repeat (match goal with H : context [match ?x with _ => _ end] |- _ => destruct x end; try discriminate); try discriminate;
      injection H as <- <-; cbn [put_call set_calls s_calls set_id set_requests set_lock set_encoder]; apply (map_set_nth _ _ _ _ _ Hk); reflexivity.
  - intros H. rewrite app_nil_r. unfold loop_step in H. destruct (s_mpc s) as [ | |n|id d|k d|]; try discriminate.
    + injection H as <- <-. reflexivity.
    + destruct (s_requests s id); injection H as <- <-; reflexivity.
    + destruct (nth_error (s_calls s) k) as [c|] eqn:Hk; [|discriminate]. destruct (k_dec c d) eqn:Ed; try (destruct (k_reply c); [discriminate|]);
        injection H as <- <-; try reflexivity; cbn [put_call set_calls s_calls set_mpc]; apply (map_set_nth _ _ _ _ _ Hk); reflexivity.
  - intros H. rewrite app_nil_r. unfold loop_read in H. destruct (s_mpc s); try discriminate.
    + destruct (zlen bs =? 4); [|discriminate]. destruct (dInt32 _); injection H as <- <-; reflexivity.
    + destruct ((zlen bs =? Z.max 0 size) && (size <=? s_cap s)); [|discriminate].
      destruct (Msg01.ResponseHeader_Decode _ _ _); injection H as <- <-; reflexivity.
  - destruct (s_mpc s); try discriminate. destruct (s_cap s <? size); [|discriminate]. intros H. injection H as <- <-. rewrite app_nil_r. reflexivity.
  - intros H. injection H as <- <-. rewrite app_nil_r. reflexivity.
  - intros H. injection H as <- <-. rewrite app_nil_r. reflexivity.
Qed.
Lemma nstep_calls {R} (s s' : client R) a e : nstep s a = Some (s', e) ->
  map signature (s_calls (n_conn s')) = map signature (s_calls (n_conn s)) ++ calls [a].
Proof.
  unfold nstep. destruct (n_dead s || s_crashed (n_conn s)); [discriminate|]. destruct a as [enc dec|k| |b|bs|bs| |k]; cbn [calls flat_map app].
  - destruct (cstep (n_conn s) (DoCall enc dec)) as [[c1 e1]|] eqn:E; [|discriminate]. intros H. injection H as <- <-. exact (cstep_calls _ _ _ _ E).
  - destruct (cstep (n_conn s) (CStep k)) as [[c1 e1]|] eqn:E; [|discriminate]. intros H. injection H as <- <-. exact (cstep_calls _ _ _ _ E).
  - destruct (cstep (n_conn s) MStep) as [[c1 e1]|] eqn:E; [|discriminate]. destruct (call_readn c1 (n_ring s)); [|discriminate]. intros H. injection H as <- <-. exact (cstep_calls _ _ _ _ E).
  - rewrite app_nil_r. destruct (inside b); [|discriminate]. destruct (Ring.step (n_ring s) b) as [[g1 evs]|]; [|discriminate]. cbn zeta. destruct (bytes_read evs) as [bs|].
    + destruct (cstep (n_conn s) (MRead bs)) as [[c1 e1]|] eqn:E; [|discriminate]. destruct (call_readn c1 g1); [|discriminate]. intros H. injection H as <- <-.
      pose proof (cstep_calls _ _ _ _ E) as F. rewrite app_nil_r in F. exact F.
    + intros H. injection H as <- <-. reflexivity.
  - rewrite app_nil_r. destruct (n_rd s); try discriminate. destruct (s_rawclosed (n_conn s)); [discriminate|]. destruct (Ring.step _ _) as [[g1 e1]|]; [|discriminate].
    intros H. injection H as <- <-. reflexivity.
  - rewrite app_nil_r. destruct (n_rd s); try discriminate. intros H. injection H as <- <-. reflexivity.
  - rewrite app_nil_r. intros H. injection H as <- <-. reflexivity.
  - rewrite app_nil_r. destruct (nth_error (n_closers s) k) as [p|]; [|discriminate]. destruct (close_step s k p) as [s1|] eqn:E; [|discriminate]. cbn. intros H. injection H as <- <-.
    unfold close_step in E. destruct p; try discriminate; try (injection E as <-; reflexivity).
    + destruct (s_mpc (n_conn s)); try discriminate. injection E as <-. reflexivity.
    + destruct (n_rd s); try discriminate. injection E as <-. reflexivity.
Qed.
Lemma nrun_calls {R} (sched : list (nlabel R)) : forall s s' e, nrun s sched = Some (s', e) ->
  map signature (s_calls (n_conn s')) = map signature (s_calls (n_conn s)) ++ calls sched.
Proof.
  induction sched as [|a sched IH]; intros s s' e H; cbn [nrun] in H.
  - injection H as <- <-. rewrite app_nil_r. reflexivity.
  - destruct (nstep s a) as [[s1 e1]|] eqn:E; [|discriminate]. destruct (nrun s1 sched) as [[s2 e2]|] eqn:E2; [|discriminate]. injection H as <- <-.
    rewrite (IH _ _ _ E2), (nstep_calls _ _ _ _ E), <- app_assoc. f_equal. unfold calls. cbn [flat_map]. rewrite app_nil_r. reflexivity.
Qed.
Lemma call_made {R} raw size cap (sched : list (nlabel R)) s evs k c : nexecutes raw size cap sched s evs -> nth_error (s_calls (n_conn s)) k = Some c ->
  nth_error (calls sched) k = Some (k_enc c, k_dec c).
Proof.
  intros [_ H] Hk. apply nrun_calls in H. cbn in H. rewrite <- H, nth_error_map, Hk. reflexivity.
Qed.

(** ** Over a reliable connection that has not been closed no write fails *)
Lemma reliable_flush c b : reliable c -> b_err b = None -> b_err (b_flush c b) = None.
Proof. intros Hr H. unfold b_flush. rewrite H. destruct (b_buf b) eqn:E; [exact H|]. rewrite Hr. reflexivity. Qed.
Lemma reliable_write_loop c : reliable c -> forall fuel data b, b_err b = None -> b_err (b_write_loop fuel c data b) = None.
Proof.
  intros Hr. induction fuel as [|fuel IH]; intros data b H; [exact H|]. cbn [b_write_loop]. rewrite H.
  destruct (_ <? _); [|reflexivity]. destruct (_ && _); [rewrite Hr; reflexivity|]. apply IH, reliable_flush; [exact Hr|reflexivity].
Qed.
Lemma reliable_replay c : reliable c -> forall log b, b_err b = None -> b_err (replay c log b) = None.
Proof. intros Hr. unfold replay. induction log as [|d log IH]; intros b H; [exact H|]. cbn [fold_left]. apply IH. unfold b_write. apply reliable_write_loop; assumption. Qed.
Lemma reliable_transmit c act cs err b err' b' fl : reliable c -> Runs act cs -> small b -> (forall x, err = Some x -> b_err b = Some x) -> b_err b = None ->
  transmit c act err b = (err', b', fl) -> b_err b' = None /\ fl = None.
Proof.
  intros Hr HR Hs He Hb H. destruct (transmit_ok _ _ _ _ _ _ _ _ HR Hs He H) as (_ & _ & -> & _).
  enough (E : b_err b' = None) by auto. unfold transmit in H. injection H as _ <- _.
  destruct (e_err _); [|apply reliable_flush; [exact Hr|]]; apply reliable_replay; assumption.
Qed.
Definition no_error {R} (p : pc R) : Prop :=
  match p with PSend _ _ b fl => b_err b = None /\ fl = None | PUnlock fl => fl = None | PReturned (WriteError _) => False | _ => True end.
Lemma trans_raw {R} (s s' : conn R) e : trans s s' e -> s_raw s' = s_raw s /\ (s_rawclosed s' = false -> s_rawclosed s = false).
Proof. intros T. destruct T; cbn; auto. split; [reflexivity|discriminate]. Qed.
Lemma reliable_inv {R} raw cap (sched : list (clabel R)) s evs : 4 <= cap -> reliable raw -> executes raw cap sched s evs -> s_rawclosed s = false ->
  s_raw s = raw /\ b_err (s_buf s) = None /\ (forall k c, nth_error (s_calls s) k = Some c -> no_error (k_pc c) /\ forall id, exists cs, Runs (k_enc c id) cs).
Proof.
  intros Hc Hr. revert sched s evs. refine (exec_ind_inv (fun s evs => s_rawclosed s = false ->
    s_raw s = raw /\ b_err (s_buf s) = None /\ (forall k c, nth_error (s_calls s) k = Some c -> no_error (k_pc c) /\ forall id, exists cs, Runs (k_enc c id) cs)) raw cap Hc _ _).
  - intros _. repeat split; try reflexivity; destruct k; discriminate.
  - intros s evs s' e [I W] [I' W'] IH T Ho. destruct (trans_raw _ _ _ T) as [Er Eo]. destruct (IH (Eo Ho)) as (A1 & A2 & A3). split; [congruence|].
    assert (P : forall s0 k c c', nth_error (s_calls s) k = Some c -> s_calls s0 = s_calls s -> no_error (k_pc c') -> k_enc c' = k_enc c ->
      forall j c1, nth_error (s_calls (put_call s0 k c')) j = Some c1 -> no_error (k_pc c1) /\ forall id, exists cs, Runs (k_enc c1 id) cs).
    { intros s0 k c c' Hk E0 Hn He j c1 Hj. cbn [put_call set_calls s_calls] in Hj. rewrite E0 in Hj. destruct (Nat.eq_dec j k) as [->|Hne].
      - rewrite (nth_same _ _ _ _ Hk) in Hj. injection Hj as <-. split; [exact Hn|]. rewrite He. apply (A3 _ _ Hk).
      - rewrite nth_other in Hj by exact Hne. exact (A3 _ _ Hj). }
    destruct T; cbn [set_mpc s_mpc set_calls put_call set_id set_requests set_lock set_encoder set_rbuf crash set_closed set_rawclosed s_buf] in *;
      try (split; [exact A2|exact A3]); try (split; [exact A2|]; eapply P; [eassumption|reflexivity| |reflexivity]; cbn; try exact Logic.I; try (apply (A3 _ _ H))).
    + split; [exact A2|]. intros k c Hk. destruct (nth_error (s_calls s) k) eqn:E.
      * cbn in Hk. rewrite nth_error_app1 in Hk by (apply nth_error_Some; congruence). rewrite E in Hk. injection Hk as <-. apply (A3 _ _ E).
      * cbn in Hk. apply nth_error_None in E. rewrite nth_error_app2 in Hk by exact E. destruct (k - length (s_calls s))%nat as [|[|]]; try discriminate. injection Hk as <-. cbn. auto.
    + destruct (proj2 (A3 _ _ H) (k_id c)) as [cs' Hcs'].
      refine (reliable_transmit _ _ _ _ _ _ _ _ _ Hcs' (w_small _ _ W) (w_err _ _ W) A2 H2). unfold raw_now. rewrite (Eo Ho), A1. exact Hr.
    + pose proof (proj1 (A3 _ _ H)) as Q. rewrite H0 in Q. exact Q.
    + pose proof (proj1 (A3 _ _ H)) as Q. rewrite H0 in Q. destruct Q as [Q1 Q2]. split; [exact Q1|]. eapply P; [eassumption|reflexivity| |reflexivity]. exact Q2.
    + pose proof (proj1 (A3 _ _ H)) as Q. rewrite H0 in Q. cbn in Q. discriminate.
    + apply (A3 _ _ H0).
Qed.
Lemma no_write_error {R} raw cap (sched : list (clabel R)) s evs k x : 4 <= cap -> reliable raw -> executes raw cap sched s evs -> s_rawclosed s = false ->
  ~ In (EReturn k (WriteError x)) evs.
Proof.
  intros Hc Hr H Ho Hin. destruct (reliable_inv _ _ _ _ _ Hc Hr H Ho) as (_ & _ & A3). pose proof (cinv _ _ _ _ _ Hc H) as I.
  apply in_returns in Hin. pose proof (i_view _ _ _ I k) as V. destruct (nth_error (s_calls s) k) as [c|] eqn:Ek.
  - rewrite (v_ret _ _ _ V) in Hin. destruct (A3 _ _ Ek) as [N _]. destruct (k_pc c); cbn in Hin; try contradiction. destruct Hin as [->|[]]. exact N.
  - destruct V as (_ & _ & E & _). rewrite E in Hin. contradiction.
Qed.

(** ** What a method returns *)
Lemma in_frames {R} (evs : list (event R)) buf size : In (EFrame buf size) evs -> In (firstn (Z.to_nat size) buf) (frames evs).
Proof. intros H. apply in_flat_map. exists (EFrame buf size). split; [exact H|left; reflexivity]. Qed.
Lemma frames_in {R} (evs : list (event R)) f : In f (frames evs) -> exists buf size, In (EFrame buf size) evs /\ f = firstn (Z.to_nat size) buf.
Proof. intros H. apply in_flat_map in H. destruct H as (x & H1 & H2). destruct x; cbn in H2; try contradiction. destruct H2 as [<-|[]]. eauto. Qed.
Lemma frame_fits {R} raw cap (sched : list (clabel R)) s evs : 4 <= cap -> executes raw cap sched s evs ->
  forall buf size, In (EFrame buf size) evs -> size <= zlen buf.
Proof.
  intros Hc. revert sched s evs. refine (exec_ind_inv (fun s evs => forall buf size, In (EFrame buf size) evs -> size <= zlen buf) raw cap Hc _ _).
  - intros buf size [].
  - intros s evs s' e [I W] _ IH T buf size Hf. apply in_app_or in Hf. destruct Hf as [Hf|Hf]; [exact (IH _ _ Hf)|].
    destruct (i_cap _ _ _ I) as [C1 C2]. destruct (i_buf _ _ _ I) as [B1 B2].
    destruct T; cbn in Hf; try contradiction; destruct Hf as [Hf|[]]; try discriminate; injection Hf as <- <-;
      destruct (overwrite_ok (s_rbuf s) bs cap B1 B2 H2) as [O1 O2]; lia.
Qed.
Lemma wrap32_range z : is_int32 (int32 z).
Proof. exact (wrap_range 32 z ltac:(lia)). Qed.
Lemma one_id {R} cap (s : conn R) evs k i j : CInv cap s evs -> In (EId k i) evs -> In (EId k j) evs -> i = j.
Proof.
  intros I H1 H2. apply in_id_of in H1, H2. pose proof (i_view _ _ _ I k) as V. destruct (nth_error (s_calls s) k) as [c|].
  - rewrite (v_id _ _ _ V) in H1, H2. destruct (k_pc c); cbn in H1, H2; try contradiction; destruct H1 as [<-|[]]; destruct H2 as [<-|[]]; reflexivity.
  - destruct V as (E & _). rewrite E in H1. contradiction.
Qed.
Lemma decode_frame m a av resp buf size id junk : In m all_methods -> m_name m = api_name a ->
  fit (c_schema (m_resp m)) (av a) (c_to (m_resp m) resp) -> carries buf size id ->
  firstn (Z.to_nat size) buf = be 4 id ++ wires (c_schema (m_resp m)) (av a) (c_to (m_resp m) resp) ++ junk ->
  exists resp', seen (decode_any m av (mkDecoder buf size 4)) = Some (Value (existT _ m resp')) /\
    c_to (m_resp m) resp' = receive (c_schema (m_resp m)) (av a) (zeros (c_schema (m_resp m))) (c_to (m_resp m) resp).
Proof.
  intros Hm Ha Hf Hcar E. destruct (response_version m Hm) as (a' & lo & hi & _ & Ha' & _ & Hin & HR).
  assert (a' = a) by (apply api_name_inj; congruence). subst a'.
  destruct (HR av resp Hf) as (bs & resp' & B1 & B2 & B3). exists resp'. split; [|exact B3].
  assert (bs = wires (c_schema (m_resp m)) (av a) (c_to (m_resp m) resp)) by (exact (Emits_inj _ _ _ B1 (layout _ _ Hin _ _))). subst bs.
  unfold decode_any. rewrite (B2 (mkDecoder buf size 4) junk); [reflexivity| |].
  - pose proof (carries_long _ _ _ Hcar). destruct Hcar as (_ & Hs & _). unfold dec_ok. cbn [d_offset d_length d_raw]. lia.
  - unfold frame. cbn [d_offset d_length d_raw]. change (Z.to_nat 4) with 4%nat. pose proof (carries_long _ _ _ Hcar).
    replace (Z.to_nat (size - 4)) with (Z.to_nat size - 4)%nat by lia. rewrite <- skipn_firstn_comm, E.
    change 4%nat with (length (be 4 id)) at 1. rewrite skipn_app, skipn_all, Nat.sub_diag. reflexivity.
Qed.

Lemma returns_sent raw size cap (sched : list (nlabel response)) s evs fs rest m a av clientID req resp k id r :
  2 <= size < 2 ^ 31 -> 4 <= cap -> nexecutes raw size cap sched s evs -> all_nsteps good_step (Connect raw size cap) sched ->
  parses (arrived sched) fs rest -> incomplete rest ->
  In m all_methods -> m_name m = api_name a -> nth_error (calls sched) k = Some (encode_request m av clientID req, decode_any m av) -> In (EId k id) evs ->
  fit (c_schema (m_resp m)) (av a) (c_to (m_resp m) resp) -> answers fs id (wires (c_schema (m_resp m)) (av a) (c_to (m_resp m) resp)) ->
  In (EReturn k (Reply r)) evs ->
  exists resp', r = Value (existT _ m resp') /\
    c_to (m_resp m) resp' = receive (c_schema (m_resp m)) (av a) (zeros (c_schema (m_resp m))) (c_to (m_resp m) resp).
Proof.
  intros Hz Hc Hx Hg Hp Hi Hm Ha Hk Hid Hf Hans Hr. destruct (project _ _ _ _ _ _ Hx) as (cs & rs & re & P1 & _).
  destruct (frames_of_stream _ _ _ _ _ _ _ _ Hz Hc Hx Hg Hp Hi) as [hs Efs].
  destruct (in_split _ _ Hr) as (pre & post & Eev). pose proof P1 as P2. rewrite Eev in P2.
  destruct (reply_is_own _ _ _ _ _ _ _ _ Hc P2) as (c & id' & buf & z & C1 & C2 & C3 & C4 & C5).
  assert (In1 : forall x, In x pre -> In x evs) by (intros x F; rewrite Eev; apply in_or_app; left; exact F).
  assert (id' = id) by (exact (one_id _ _ _ _ _ _ (cinv _ _ _ _ _ Hc P1) (In1 _ C2) Hid)). subst id'.
  pose proof (call_made _ _ _ _ _ _ _ _ Hx C1) as Ec. rewrite Hk in Ec. injection Ec as _ Ed. rewrite <- Ed in C5.
  destruct C4 as (Q1 & Q2 & tl & Q3). destruct (Hans (firstn (Z.to_nat z) buf) tl) as [junk Ej]; [|exact Q3|].
  { rewrite Efs. apply in_or_app. left. apply in_frames, In1, C3. }
  subst tl. destruct (decode_frame m a av resp buf z id junk Hm Ha Hf) as (resp' & D1 & D2); [split; [exact Q1|split; [exact Q2|eauto]]|exact Q3|].
  exists resp'. split; [congruence|exact D2].
Qed.

Lemma returns_answer raw size cap (sched : list (nlabel response)) s evs fs rest m a av clientID req resp k id :
  2 <= size < 2 ^ 31 -> 4 <= cap -> nexecutes raw size cap sched s evs -> all_nsteps good_step (Connect raw size cap) sched ->
  parses (arrived sched) fs rest -> incomplete rest -> zlen (ids evs) <= 2 ^ 32 -> solicited evs ->
  n_dead s = false -> s_crashed (n_conn s) = false -> consumed s -> nstep s (LCall k) = None ->
  In m all_methods -> m_name m = api_name a -> nth_error (calls sched) k = Some (encode_request m av clientID req, decode_any m av) -> In (EId k id) evs ->
  fit (c_schema (m_resp m)) (av a) (c_to (m_resp m) resp) -> answers fs id (wires (c_schema (m_resp m)) (av a) (c_to (m_resp m) resp)) ->
  (exists f, In f fs /\ exists tl, f = be 4 id ++ tl) ->
  (exists resp', returns_of k evs = [Reply (Value (existT _ m resp'))] /\
    c_to (m_resp m) resp' = receive (c_schema (m_resp m)) (av a) (zeros (c_schema (m_resp m))) (c_to (m_resp m) resp)) \/
  (exists x, returns_of k evs = [WriteError x] /\ ~ (reliable raw /\ s_rawclosed (n_conn s) = false)).
Proof.
  intros Hz Hc Hx Hg Hp Hi Hn Hs Hd Hcr Hq Hst Hm Ha Hk Hid Hf Hans (f & Hin & tl & Ef). destruct (project _ _ _ _ _ _ Hx) as (cs & rs & re & P1 & _).
  destruct (all_frames_consumed _ _ _ _ _ _ Hz Hc Hx Hg Hd Hq) as (rest' & Hp' & Hi').
  destruct (parses_complete_unique _ _ _ _ _ Hp Hi Hp' Hi') as [-> _].
  destruct (frames_in _ _ Hin) as (buf & z & Hfr & Efr).
  assert (Hid32 : is_int32 id).
  { pose proof (i_ids _ _ _ (cinv _ _ _ _ _ Hc P1)) as E. assert (F : In id (ids evs)) by (apply in_flat_map; exists (EId k id); split; [exact Hid|left; reflexivity]).
    rewrite E in F. apply in_map_iff in F. destruct F as (n & <- & _). apply wrap32_range. }
  assert (Hcar : carries buf z id).
  { split; [exact Hid32|]. split; [|exists tl; congruence]. exact (frame_fits _ _ _ _ _ Hc P1 _ _ Hfr). }
  destruct (ninv raw size cap sched s evs ltac:(lia) Hx Hd) as [_ I2 _].
  assert (Hout : outside (n_conn s)).
  { unfold outside. unfold n_at in I2. destruct Hq as (_ & _ & W). destruct (s_mpc (n_conn s)); auto; rewrite I2 in W; discriminate W. }
  destruct (frame_answered _ _ _ _ _ Hc P1 Hn Hs Hout _ _ _ _ Hfr Hcar Hid) as [r Hr].
  assert (Hsent : sent_by k evs <> []).
  { destruct (in_split _ _ Hfr) as (pre & post & Eev). destruct (Hs pre buf z post id Eev Hcar) as [(j & J1 & J2) _].
    assert (j = k) by (eapply (calls_distinct _ _ _ _ _ _ _ _ Hc P1 Hn); [rewrite Eev; apply in_or_app; left; exact J1|exact Hid]). subst j.
    rewrite Eev, grow_sent. intros F. apply app_eq_nil in F. exact (J2 (proj1 F)). }
  destruct (one_reply _ _ _ _ _ k Hc P1) as [_ L].
  destruct (returns_of k evs) as [|res [|? ?]] eqn:Eret; [|clear L|cbn in L; lia].
  - exfalso. destruct (answered_completes _ _ _ _ _ _ _ Hc P1 Hr Hsent Hcr Eret) as (n & s' & evs' & res & Q1 & Q2 & _).
    destruct n as [|n]; [injection Q1 as <- <-; contradiction|]. cbn [repeat crun] in Q1. unfold nstep in Hst. rewrite Hd, Hcr in Hst. cbn [orb] in Hst.
    destruct (cstep (n_conn s) (CStep k)) as [[? ?]|]; discriminate.
  - assert (Hret : In (EReturn k res) evs) by (apply in_returns; rewrite Eret; left; reflexivity). destruct res as [x|r'].
    + right. exists x. split; [reflexivity|]. intros [Hrel Ho]. exact (no_write_error _ _ _ _ _ _ _ Hc Hrel P1 Ho Hret).
    + left. destruct (returns_sent raw size cap sched s evs (frames evs) rest m a av clientID req resp k id r') as (resp' & -> & E); try assumption. eauto.
Qed.
