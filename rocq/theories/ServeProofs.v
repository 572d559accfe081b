(** * Proofs: a broker that reads the requests and answers them (C80) *)
From Verif Require Import GoBase GoLemmas Encoder Decoder Sizeof Spec SchemaSpec EncProofs DecProofs PrimProofs Link Msg01 AllMessages MsgProofs MsgProps BrokerTable Broker BrokerSpec BrokerProofs
  BufIO BufIOProofs RingSpec Conn ConnSpec ConnProofs ConnProps ConnFrames ConnTable ConnRing ConnRingSpec ConnRingProofs ConnRingProps EndSpec ConnEnd ServeSpec.
Local Open Scope Z_scope.
Ltac Zify.zify_post_hook ::= idtac.

(** ** One frame *)
Lemma keys_distinct : NoDup (map m_key all_methods).
Proof. replace (map m_key all_methods) with (map Z.of_nat (List.seq 0 48)) by reflexivity. apply FinFun.Injective_map_NoDup; [exact Nat2Z.inj|apply seq_NoDup]. Qed.
Lemma find_key (l : list method) m : In m l -> NoDup (map m_key l) -> find (fun x => m_key x =? m_key m) l = Some m.
Proof.
  induction l as [|x l IH]; intros H N; [destruct H|]. cbn [find]. inversion N as [|? ? N1 N2]; subst. destruct H as [->|H]; [rewrite Z.eqb_refl; reflexivity|].
  destruct (Z.eqb_spec (m_key x) (m_key m)) as [E|]; [|apply IH; assumption]. exfalso. apply N1. rewrite E. apply in_map, H.
Qed.
Lemma method_found m : In m all_methods -> method_of (m_key m) = Some m.
Proof. intros H. apply find_key; [exact H|exact keys_distinct]. Qed.

Lemma order_frame o id : sendable o -> is_int32 id -> exists f q, Emits (o_encode o id) (be 4 (zlen f) ++ f) /\ is_int32 (zlen f) /\ asked o q /\
  Decodes read_frame f (header_of o id, q).
Proof.
  intros (Hm & Hn & Hv & Hl & Hf & Hb) Hid. destruct o as [m a av cid req]. unfold o_version, o_encode, header_of, asked in *.
  cbn [o_method o_api o_versions o_client o_req] in *.
  destruct (request_frame m Hm) as (a' & lo & hi & D & N & _ & Hin & F). assert (a' = a) as -> by (apply api_name_inj; congruence).
  destruct (declared_find_case _ _ _ _ D) as [Hk _]. pose proof (api_index_range a) as Hr.
  pose proof (codec_linked _ _ Hin) as L. destruct (F av cid req id) as (body & Eb & E). clear F. cbn zeta in E.
  pose proof (Emits_inj _ _ _ Eb (linked_emits _ L (av a) req)) as ->.
  set (body := wires (c_schema (m_req m)) (av a) (c_to (m_req m) req)) in *.
  set (hdr := be 2 (m_key m) ++ be 2 (av a) ++ be 4 id ++ w_string cid) in *.
  pose proof (zlen_nonneg (hdr ++ body)) as H0. specialize (Hb id _ E). rewrite zlen_app, zlen_be in Hb.
  exists (hdr ++ body). eexists. split; [exact E|]. split; [unfold is_int32; lia|]. split.
  - eexists. split; [reflexivity|]. rewrite <- (l_zero _ L). apply (l_to_of _ L).
  - unfold read_frame. eapply Decodes_bind.
    + pose proof (linked_decodes _ RequestHeader_linked 2 RequestHeader_zero (mkRequestHeader (m_key m) (av a) id cid)) as Dh.
      cbn [RequestHeader_codec c_encode c_size c_schema c_to c_decode c_of] in Dh.
      replace (wires RequestHeader_schema 2 (RequestHeader_to (mkRequestHeader (m_key m) (av a) id cid))) with hdr in Dh.
      * replace (RequestHeader_of (receive RequestHeader_schema 2 (RequestHeader_to RequestHeader_zero)
          (RequestHeader_to (mkRequestHeader (m_key m) (av a) id cid)))) with (mkRequestHeader (m_key m) (av a) id cid) in Dh by reflexivity.
        apply Dh. unfold RequestHeader_schema, RequestHeader_to. cbn [fit fits fst snd active RequestHeader_RequestApiKey RequestHeader_RequestApiVersion RequestHeader_CorrelationId RequestHeader_ClientId].
        repeat match goal with |- _ /\ _ => split | |- _ -> _ => intros _ end; try assumption; try exact I; try (unfold is_int16; lia).
      * unfold hdr, RequestHeader_schema, RequestHeader_to.
        cbn [wires wire active fst snd RequestHeader_RequestApiKey RequestHeader_RequestApiVersion RequestHeader_CorrelationId RequestHeader_ClientId].
        change (1 <=? 2) with true. cbv iota. rewrite app_nil_r. reflexivity.
    + cbn beta. cbn [RequestHeader_RequestApiKey RequestHeader_RequestApiVersion]. rewrite (method_found m Hm).
      rewrite <- (app_nil_r body). eapply Decodes_bind; [apply (linked_decodes _ L), Hf|]. cbn beta. apply Decodes_ret.
Qed.
Lemma decodes_once {A} (d : Dec A) f a b : Decodes d f a -> Decodes d f b -> a = b.
Proof.
  intros H1 H2. set (x := mkDecoder f (zlen f) 0).
  assert (Hx : dec_ok x) by (unfold dec_ok, x; cbn [d_offset d_length d_raw]; pose proof (zlen_nonneg f); lia).
  assert (Hf : frame x = f ++ []).
  { unfold frame, x. cbn [d_offset d_length d_raw]. rewrite Z.sub_0_r. cbn [Z.to_nat skipn]. unfold zlen. rewrite Nat2Z.id, firstn_all, app_nil_r. reflexivity. }
  specialize (H1 x [] Hx Hf). specialize (H2 x [] Hx Hf). congruence.
Qed.

(** ** The stream *)
Lemma cut_short f p x : is_int32 (zlen f) -> p ++ x = be 4 (zlen f) ++ f -> x <> [] -> incomplete p.
Proof.
  intros Hi E Hx g gs r H. destruct (parses_cons _ _ _ _ H) as (size & w & H1 & H2 & H3 & _). subst p. rewrite <- !app_assoc in E.
  replace (be 4 (zlen f) ++ f) with (be 4 (zlen f) ++ f ++ []) in E by (rewrite app_nil_r; reflexivity).
  apply first_frame in E; [|assumption|assumption|assumption|pose proof (zlen_nonneg f); lia]. destruct E as [_ E]. apply app_eq_nil in E. destruct E. congruence.
Qed.
Lemma nothing_incomplete : incomplete [].
Proof. intros g gs r H. destruct (parses_cons _ _ _ _ H) as (size & w & _ & _ & E & _). discriminate E. Qed.
Lemma prefix_frames : forall (fs : list (list Z)) w, Forall (fun f => is_int32 (zlen f)) fs -> prefix w (concat (map (fun f => be 4 (zlen f) ++ f) fs)) ->
  exists n rest, (n <= length fs)%nat /\ parses w (firstn n fs) rest /\ incomplete rest.
Proof.
  induction fs as [|f fs IH]; intros w Hs [x Hw].
  - cbn in Hw. symmetry in Hw. apply app_eq_nil in Hw. destruct Hw as [-> _]. exists 0%nat, []. split; [lia|]. split; [constructor|exact nothing_incomplete].
  - cbn [map concat] in Hw. inversion Hs as [|? ? Hf Hs']; subst.
    destruct (Nat.le_gt_cases (length (be 4 (zlen f) ++ f)) (length w)) as [L|L].
    + assert (exists w', w = (be 4 (zlen f) ++ f) ++ w') as [w' ->].
      { exists (skipn (length (be 4 (zlen f) ++ f)) w). rewrite <- (firstn_skipn (length (be 4 (zlen f) ++ f)) w) at 1. f_equal.
        assert (E : firstn (length (be 4 (zlen f) ++ f)) (w ++ x) = be 4 (zlen f) ++ f) by (rewrite <- Hw, firstn_app, Nat.sub_diag, firstn_all, firstn_O, app_nil_r; reflexivity).
        rewrite firstn_app in E. replace (length (be 4 (zlen f) ++ f) - length w)%nat with 0%nat in E by lia. rewrite firstn_O, app_nil_r in E. exact E. }
      rewrite <- (app_assoc _ w' x) in Hw. apply app_inv_head in Hw. destruct (IH w' Hs') as (n & rest & H1 & H2 & H3); [exists x; exact Hw|].
      exists (S n), rest. split; [cbn; lia|]. split; [|exact H3]. rewrite <- app_assoc. cbn [firstn]. constructor; [exact Hf|pose proof (zlen_nonneg f); lia|exact H2].
    + exists 0%nat, w. split; [lia|]. split; [constructor|].
      assert (exists y, w ++ y = be 4 (zlen f) ++ f /\ y <> []) as (y & E & Hy); [|exact (cut_short f w y Hf E Hy)].
      exists (skipn (length w) (be 4 (zlen f) ++ f)). split.
      * rewrite <- (firstn_skipn (length w) (be 4 (zlen f) ++ f)) at 2. f_equal.
        assert (E : firstn (length w) ((be 4 (zlen f) ++ f) ++ concat (map (fun f => be 4 (zlen f) ++ f) fs)) = w) by (rewrite Hw, firstn_app, Nat.sub_diag, firstn_all, firstn_O, app_nil_r; reflexivity).
        rewrite firstn_app in E. replace (length w - length (be 4 (zlen f) ++ f))%nat with 0%nat in E by lia. rewrite firstn_O, app_nil_r in E. symmetry. exact E.
      * intros F. apply (f_equal (@length Z)) in F. rewrite skipn_length in F. change (length (@nil Z)) with 0%nat in F. lia.
Qed.
Lemma parses_all : forall (fs : list (list Z)), Forall (fun f => is_int32 (zlen f)) fs -> parses (concat (map (fun f => be 4 (zlen f) ++ f) fs)) fs [].
Proof.
  induction fs as [|f fs IH]; intros H; [constructor|]. inversion H; subst. cbn [map concat]. rewrite <- app_assoc. constructor; [assumption|pose proof (zlen_nonneg f); lia|apply IH; assumption].
Qed.

Lemma forall2_length {A B} (P : A -> B -> Prop) l m : Forall2 P l m -> length l = length m.
Proof. induction 1; cbn; congruence. Qed.
Lemma crun_calls {R} (sched : list (clabel R)) : forall s s' e, crun s sched = Some (s', e) ->
  map signature (s_calls s') = map signature (s_calls s) ++ flat_map (fun a => match a with DoCall enc dec => [(enc, dec)] | _ => [] end) sched.
Proof.
  induction sched as [|a sched IH]; intros s s' e H; cbn [crun] in H.
  - injection H as <- <-. cbn. rewrite app_nil_r. reflexivity.
  - destruct (cstep s a) as [[s1 e1]|] eqn:E; [|discriminate]. destruct (crun s1 sched) as [[s2 e2]|] eqn:E2; [|discriminate]. injection H as <- <-.
    cbn [flat_map]. rewrite (IH _ _ _ E2), (cstep_calls _ _ _ _ E), <- app_assoc. reflexivity.
Qed.
Section Serve.
Context (raw : rawconn) (cap : Z) (sched : list (clabel response)) (s : conn response) (evs : list (event response)) (os : list order).
Hypothesis (Hc : 4 <= cap) (Hx : executes raw cap sched s evs) (Hos : makes sched os) (Hs : Forall sendable os).

Lemma order_of k c : nth_error (s_calls s) k = Some c -> exists o, nth_error os k = Some o /\ k_enc c = o_encode o /\ k_dec c = decode_any (o_method o) (o_versions o).
Proof.
  intros H. destruct Hx as [_ Hr]. apply crun_calls in Hr. cbn in Hr. unfold makes in Hos. rewrite Hos in Hr.
  apply (map_nth_error signature) in H. rewrite Hr, nth_error_map in H. destruct (nth_error os k) as [o|]; [|discriminate]. injection H as E1 E2. eauto.
Qed.
Lemma id_range k id : In (EId k id) evs -> is_int32 id.
Proof.
  intros H. pose proof (i_ids _ _ _ (cinv _ _ _ _ _ Hc Hx)) as E. assert (F : In id (ids evs)) by (apply in_flat_map; exists (EId k id); split; [exact H|left; reflexivity]).
  rewrite E in F. apply in_map_iff in F. destruct F as (n & <- & _). apply wrap32_range.
Qed.
Lemma request_read k bs : request s k bs -> exists f, bs = be 4 (zlen f) ++ f /\ is_int32 (zlen f) /\ reads_call os evs k f.
Proof.
  intros (c & H1 & H2 & H3). destruct (order_of k c H1) as (o & O1 & O2 & O3).
  assert (Hid : In (EId k (k_id c)) evs).
  { apply in_id_of. pose proof (i_view _ _ _ (cinv _ _ _ _ _ Hc Hx) k) as V. rewrite H1 in V. rewrite (v_id _ _ _ V). destruct (k_pc c); try (left; reflexivity). congruence. }
  assert (So : sendable o) by (rewrite Forall_forall in Hs; apply Hs; eapply nth_error_In; exact O1).
  destruct (order_frame o (k_id c) So (id_range _ _ Hid)) as (f & q & F1 & F2 & F3 & F4). rewrite O2 in H3. pose proof (Emits_inj _ _ _ H3 F1) as ->.
  exists f. split; [reflexivity|]. split; [exact F2|]. exists o, (k_id c), q. auto.
Qed.
Lemma requests_read : forall ks reqs, Forall2 (request s) ks reqs -> exists fs, reqs = map (fun f => be 4 (zlen f) ++ f) fs /\
  Forall (fun f => is_int32 (zlen f)) fs /\ Forall2 (reads_call os evs) ks fs.
Proof.
  induction 1 as [|k bs ks reqs H H0 (fs & E & F1 & F2)]; [exists []; repeat constructor|].
  destruct (request_read k bs H) as (f & Ef & G1 & G2). exists (f :: fs). cbn [map]. rewrite <- Ef, E. split; [reflexivity|]. split; constructor; assumption.
Qed.
Theorem broker_reads : exists fs rest, parses (wire evs) fs rest /\ incomplete rest /\ (length fs <= length (locks evs))%nat /\
  Forall2 (reads_call os evs) (firstn (length fs) (locks evs)) fs /\
  (s_lock s = None -> b_err (s_buf s) = None -> length fs = length (locks evs) /\ rest = []).
Proof.
  destruct (wire_prefix _ _ _ _ _ Hc Hx) as (_ & reqs & H1 & H2 & H3). destruct (requests_read _ _ H1) as (fs & -> & F1 & F2).
  destruct (prefix_frames fs _ F1 H2) as (n & rest & G1 & G2 & G3). pose proof (forall2_length _ _ _ F2) as L. exists (firstn n fs), rest. rewrite firstn_length, Nat.min_l by exact G1.
  split; [exact G2|]. split; [exact G3|]. split; [lia|]. split.
  - clear - F2. revert fs F2. generalize (locks evs). induction n as [|n IH]; intros ks fs F2; [constructor|]. destruct F2; [constructor|]. cbn [firstn]. constructor; auto.
  - intros Hl He. specialize (H3 Hl He). pose proof (parses_all fs F1) as P. rewrite <- H3 in P.
    destruct (parses_complete_unique _ _ _ _ _ G2 G3 P nothing_incomplete) as [E ->]. split; [|reflexivity].
    apply (f_equal (@length _)) in E. rewrite firstn_length, Nat.min_l in E by exact G1. lia.
Qed.
(** Whatever the broker splits off the stream is one of the calls. *)
Lemma read_is_call fs rest f : parses (wire evs) fs rest -> In f fs -> exists k, reads_call os evs k f.
Proof.
  intros H1 H2. destruct broker_reads as (fs' & rest' & G1 & G2 & _ & G3 & _).
  destruct (parses_prefix _ _ _ H1 [] fs' rest') as [hs ->]; [rewrite app_nil_r; exact G1|exact G2|].
  assert (Hin : In f (fs ++ hs)) by (apply in_or_app; left; exact H2). apply In_nth_error in Hin. destruct Hin as [n Hn].
  clear - G3 Hn. revert n Hn. induction G3 as [|k g ks gs H G IH]; intros n Hn; [destruct n; discriminate|].
  destruct n as [|n]; [injection Hn as ->; eauto|exact (IH n Hn)].
Qed.
Theorem call_answered (F : service) : zlen (ids evs) <= 2 ^ 32 ->
  (forall g id tl, In g (frames evs) -> g = be 4 id ++ tl -> In id (ids evs) -> served F (wire evs) g) ->
  forall k r, In (EReturn k (Reply r)) evs ->
  exists o id q p p', nth_error os k = Some o /\ In (EId k id) evs /\ asked o q /\ F (header_of o id) q p /\ received (o_version o) p p' /\ r = Value p'.
Proof.
  intros Hn HF k r Hr. destruct (in_split _ _ Hr) as (pre & post & Eev). pose proof Hx as Hx'. rewrite Eev in Hx'.
  destruct (reply_is_own _ _ _ _ _ _ _ _ Hc Hx') as (c & id & buf & z & C1 & C2 & C3 & C4 & C5).
  assert (In1 : forall x, In x pre -> In x evs) by (intros x G; rewrite Eev; apply in_or_app; left; exact G). apply In1 in C2, C3.
  destruct (order_of k c C1) as (o & O1 & O2 & O3). rewrite O3 in C5. pose proof C4 as C4'. destruct C4 as (Q1 & Q2 & tl & Q3).
  destruct (HF _ _ _ (in_frames _ _ _ C3) Q3) as (fs & rest & f & h & q & m & x & S1 & S2 & S3 & S4 & S5 & S6 & S7).
  { apply in_flat_map. exists (EId k id). split; [exact C2|left; reflexivity]. }
  destruct (read_is_call fs rest f S1 S2) as (j & o' & id' & q' & P1 & P2 & P3 & P4).
  pose proof (decodes_once _ _ _ _ S3 P4) as E. injection E as -> ->. clear S3.
  cbn [header_of RequestHeader_RequestApiVersion RequestHeader_CorrelationId] in S6, S7.
  rewrite S7 in Q3. pose proof Q3 as Q4. apply app_split in Q4; [|rewrite !zlen_be; reflexivity]. destruct Q4 as [Q4 _].
  apply be4_inj in Q4; [|exact (id_range _ _ P2)|exact Q1]. subst id'.
  assert (j = k) by (exact (same_id_same_call _ _ _ _ (ids_distinct _ _ _ _ _ Hc Hx Hn) P2 C2)). subst j. rewrite O1 in P1. injection P1 as <-.
  assert (So : sendable o) by (rewrite Forall_forall in Hs; apply Hs; eapply nth_error_In; exact O1). destruct So as (M1 & M2 & _).
  pose proof P3 as (rq & Eq & _). subst q'. cbn [projT1] in S4. subst m.
  destruct (decode_frame (o_method o) (o_api o) (o_versions o) x buf z id [] M1 M2 S6 C4') as (x' & D1 & D2); [rewrite app_nil_r; exact S7|].
  exists o, id, (existT _ (o_method o) rq), (existT _ (o_method o) x), (existT _ (o_method o) x'). split; [exact O1|]. split; [exact C2|]. split; [exact P3|]. split; [exact S5|].
  split; [exists (o_method o), x, x'; auto|]. rewrite C5 in D1. exact (f_equal (fun y => match y with Some z => z | None => r end) D1).
Qed.
End Serve.

(** ** The whole client: with readLoop, the ring buffer and Close *)
Section Client.
Context (raw : rawconn) (size cap : Z) (sched : list (nlabel response)) (s : client response) (evs : list (event response)) (os : list order).
Hypothesis (Hc : 4 <= cap) (Hx : nexecutes raw size cap sched s evs) (Hos : orders sched os) (Hs : Forall sendable os).

Lemma client_project : exists cs, executes raw cap cs (n_conn s) evs /\ makes cs os.
Proof.
  destruct (project _ _ _ _ _ _ Hx) as (cs & rs & re & P1 & _). exists cs. split; [exact P1|]. destruct Hx as [_ Hn]. apply nrun_calls in Hn.
  destruct P1 as [_ Hr]. apply crun_calls in Hr. cbn in Hn, Hr. unfold makes. rewrite <- Hr, Hn. exact Hos.
Qed.
Theorem client_reads : exists fs rest, parses (wire evs) fs rest /\ incomplete rest /\ (length fs <= length (locks evs))%nat /\
  Forall2 (reads_call os evs) (firstn (length fs) (locks evs)) fs /\
  (s_lock (n_conn s) = None -> b_err (s_buf (n_conn s)) = None -> length fs = length (locks evs) /\ rest = []).
Proof. destruct client_project as (cs & H1 & H2). exact (broker_reads _ _ _ _ _ _ Hc H1 H2 Hs). Qed.
Theorem client_answered (F : service) fs rest : 2 <= size < 2 ^ 31 -> all_nsteps good_step (Connect raw size cap) sched -> zlen (ids evs) <= 2 ^ 32 ->
  parses (arrived sched) fs rest -> incomplete rest ->
  (forall g id tl, In g fs -> g = be 4 id ++ tl -> In id (ids evs) -> served F (wire evs) g) ->
  forall k r, In (EReturn k (Reply r)) evs ->
  exists o id q p p', nth_error os k = Some o /\ In (EId k id) evs /\ asked o q /\ F (header_of o id) q p /\ received (o_version o) p p' /\ r = Value p'.
Proof.
  intros Hz Hg Hn Hp Hi HF k r. destruct client_project as (cs & H1 & H2). destruct (frames_of_stream _ _ _ _ _ _ _ _ Hz Hc Hx Hg Hp Hi) as [hs Efs].
  apply (call_answered _ _ _ _ _ _ Hc H1 H2 Hs F Hn). intros g id tl G1. apply HF. rewrite Efs. apply in_or_app. left. exact G1.
Qed.
End Client.
