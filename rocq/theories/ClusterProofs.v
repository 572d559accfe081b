(** * Proofs: a client and the cluster it talks to (C81) *)
From Coq Require Import String.
From Verif Require Import GoBase GoLemmas Spec SchemaSpec EncProofs Link Msg01 Msg02 Msg03 Msg04 AllMessages MsgProofs BrokerTable Broker BrokerSpec BrokerProofs BufIO
  Conn ConnSpec ConnProofs ConnProps EndSpec ServeSpec ServeProofs Options Client ClientSpec ClientProofs SentSpec SentProofs ClusterSpec.
Local Open Scope Z_scope.
Local Open Scope list_scope.
Ltac Zify.zify_post_hook ::= idtac.

(** ** Connections *)
Definition callers {R} (evs : list (Conn.event R)) : list nat := flat_map (fun e => match e with EId k _ => [k] | _ => [] end) evs.
Lemma callers_ids {R} (evs : list (Conn.event R)) : List.length (callers evs) = List.length (ids evs).
Proof. unfold callers, ids. induction evs as [|e evs IH]; [reflexivity|]. cbn [flat_map]. rewrite !app_length, IH. destruct e; reflexivity. Qed.
Lemma callers_count {R} k (evs : list (Conn.event R)) : count_occ Nat.eq_dec (callers evs) k = List.length (id_of k evs).
Proof.
  unfold callers, id_of. induction evs as [|e evs IH]; [reflexivity|]. cbn [flat_map]. rewrite count_occ_app, app_length, IH. f_equal.
  destruct e; try reflexivity. cbn [count_occ]. destruct (Nat.eq_dec k0 k) as [->|N]; [rewrite Nat.eqb_refl; reflexivity|]. apply Nat.eqb_neq in N. rewrite N. reflexivity.
Qed.
Lemma ids_calls {R} raw cap (sched : list (clabel R)) s evs : 4 <= cap -> executes raw cap sched s evs -> (List.length (ids evs) <= List.length (s_calls s))%nat.
Proof.
  intros Hc Hx. pose proof (i_view _ _ _ (cinv _ _ _ _ _ Hc Hx)) as V. rewrite <- callers_ids, <- (seq_length (List.length (s_calls s)) 0).
  apply NoDup_incl_length.
  - apply (NoDup_count_occ Nat.eq_dec). intros k. rewrite callers_count. specialize (V k). destruct (nth_error (s_calls s) k) as [c|].
    + rewrite (v_id _ _ _ V). destruct (k_pc c); cbn; lia.
    + destruct V as [-> _]. cbn. lia.
  - intros k Hk. apply (count_occ_In Nat.eq_dec) in Hk. rewrite callers_count in Hk. specialize (V k). apply in_seq.
    destruct (nth_error (s_calls s) k) as [c|] eqn:E; [|destruct V as [V _]; rewrite V in Hk; cbn in Hk; lia].
    assert (k < List.length (s_calls s))%nat by (apply nth_error_Some; congruence). lia.
Qed.
Lemma ids_orders raw cap sched (s : conn response) evs os : 4 <= cap -> executes raw cap sched s evs -> makes sched os -> (List.length (ids evs) <= List.length os)%nat.
Proof.
  intros Hc Hx Hm. pose proof (ids_calls _ _ _ _ _ Hc Hx) as H. destruct Hx as [_ Hr]. apply crun_calls in Hr. cbn in Hr. unfold makes in Hm. rewrite Hm in Hr.
  apply (f_equal (@List.length _)) in Hr. rewrite !map_length in Hr. lia.
Qed.

(** ** Requests *)
Lemma fits_sendable m a av name req : In m all_methods -> m_name m = api_name a -> is_int16 (av a) -> zlen name < 2 ^ 15 ->
  fit (c_schema (m_req m)) (av a) (c_to (m_req m) req) -> zlen (wires (c_schema (m_req m)) (av a) (c_to (m_req m) req)) < 2 ^ 30 ->
  sendable (mkOrder m a av name req).
Proof.
  intros Hm Hn Hv Hl Hf Hw. split; [exact Hm|]. split; [exact Hn|]. split; [exact Hv|]. split; [exact Hl|]. split; [exact Hf|].
  intros id bytes E. unfold o_encode in E. cbn [o_method o_versions o_client o_req] in E.
  destruct (request_frame m Hm) as (a' & lo & hi & _ & Ea & _ & Hin & F). assert (a' = a) as -> by (apply api_name_inj; congruence).
  destruct (F av name req id) as (body & Eb & E'). cbn zeta in E'. pose proof (Emits_inj _ _ _ E E') as ->.
  pose proof (Emits_inj _ _ _ Eb (linked_emits _ (codec_linked _ _ Hin) (av a) req)) as ->.
  unfold w_string. rewrite !zlen_app, !zlen_be. lia.
Qed.
Lemma call_sendable name e o : zlen name < 2 ^ 15 -> fitting e -> call_of name e o -> sendable o.
Proof.
  intros Hl Hf H. destruct e as [d r|n r|n x req r|n x req r|n]; cbn [call_of fitting] in *; try contradiction.
  - subst o. apply fits_sendable; [apply (nth_error_In _ 18); reflexivity|reflexivity|unfold no_versions, is_int16; lia|exact Hl|cbn; intuition lia|cbn; lia].
  - destruct H as (av & <- & ->). destruct Hf as (H1 & H2 & H3). apply fits_sendable; [apply (nth_error_In _ 3); reflexivity|reflexivity|exact H1|exact Hl|exact H2|exact H3].
  - destruct H as (av & <- & ->). destruct Hf as (H1 & H2 & H3). apply fits_sendable; [apply (nth_error_In _ 10); reflexivity|reflexivity|exact H1|exact Hl|exact H2|exact H3].
Qed.

Lemma received_at v p p' : received v p p' -> exists sent : c_type (m_resp (projT1 p')), p = existT (fun m => c_type (m_resp m)) (projT1 p') sent /\
  c_to (m_resp (projT1 p')) (projT2 p') = receive (c_schema (m_resp (projT1 p'))) v (zeros (c_schema (m_resp (projT1 p')))) (c_to (m_resp (projT1 p')) sent).
Proof. intros (m & x & x' & -> & -> & E). exists x. cbn [projT1 projT2]. split; [reflexivity|exact E]. Qed.
Lemma carried_answer name F qs k e o0 m (a : c_type (m_resp m)) : carried name F qs -> Forall fitting qs -> zlen name < 2 ^ 15 -> zlen qs <= 2 ^ 32 ->
  nth_error qs k = Some e -> (forall evs, outcome_of evs k e -> In (EReturn k (Reply (Value (existT (fun m => c_type (m_resp m)) m a)))) evs) ->
  (forall o, call_of name e o -> o_method o = o_method o0 /\ o_version o = o_version o0 /\ o_client o = name) ->
  exists o id q sent, call_of name e o /\ asked o q /\ F (mkRequestHeader (m_key (o_method o0)) (o_version o0) id name) q (existT (fun m => c_type (m_resp m)) m sent) /\
    c_to (m_resp m) a = receive (c_schema (m_resp m)) (o_version o0) (zeros (c_schema (m_resp m))) (c_to (m_resp m) sent).
Proof.
  intros (raw & cap & sched & s & evs & os & Hc & Hx & Hm & Hq & HF & Ho) Hf Hl Hz Hk He Hcall.
  assert (Hs : Forall sendable os).
  { clear - Hf Hl Hq. induction Hq as [|e o qs os H _ IH]; [constructor|]. inversion Hf; subst. constructor; [eapply call_sendable; eassumption|auto]. }
  assert (Hn : zlen (ids evs) <= 2 ^ 32).
  { pose proof (ids_orders _ _ _ _ _ _ Hc Hx Hm) as H. pose proof (forall2_length _ _ _ Hq). unfold zlen in *. lia. }
  destruct (call_answered raw cap sched s evs os Hc Hx Hm Hs F Hn HF k _ (He evs (Ho k e Hk))) as (o & id & q & p & p' & O1 & _ & O2 & O3 & O4 & O5).
  assert (Hp : p' = existT (fun m => c_type (m_resp m)) m a) by (exact (f_equal (fun r => match r with Value y => y | Failure _ => p' end) (eq_sym O5))). clear O5. subst p'.
  assert (Co : call_of name e o).
  { clear - Hq Hk O1. revert k Hk O1. induction Hq as [|e0 o0 qs os H _ IH]; intros [|k]; cbn; try discriminate; [congruence|apply IH]. }
  destruct (Hcall o Co) as (C1 & C2 & C3). apply received_at in O4. cbn [projT1 projT2] in O4. destruct O4 as (sent & -> & E).
  exists o, id, q, sent. split; [exact Co|]. split; [exact O2|]. rewrite <- C2. split; [|exact E]. unfold header_of in O3. rewrite C1, C3 in O3. exact O3.
Qed.
Lemma question_place n e h : In e h -> made_on n e = true -> exists k, nth_error (questions n h) k = Some e.
Proof. intros H1 H2. apply In_nth_error. apply filter_In. auto. Qed.
Lemma questions_fitting n h : Forall fitting h -> Forall fitting (questions n h).
Proof. rewrite !Forall_forall. intros H e He. apply filter_In in He. apply H, He. Qed.
Lemma questions_length n h : zlen (questions n h) <= zlen h.
Proof. unfold zlen, questions. induction h as [|e h IH]; [cbn; lia|]. cbn [filter]. destruct (made_on n e); cbn [List.length]; lia. Qed.

Section Cluster.
Context (K : cluster) (name : gostring) (h : list Client.event).
Hypothesis (Hh : happened name K h) (Hf : Forall fitting h) (Hl : zlen name < 2 ^ 15) (Hz : zlen h <= 2 ^ 32).

Lemma metadata_said n addr x topics a : nth_error (conns h) n = Some addr -> In (EMetadata n x (metadata_request topics) (Answer a)) h ->
  exists sent, says_metadata K name addr x topics sent /\ metadata_as x sent a.
Proof.
  intros Hn He. destruct (question_place n _ h He (Nat.eqb_refl n)) as (k & Hk).
  pose proof (questions_length n h) as Hq.
  destruct (carried_answer name (K addr) _ k _ (mkOrder method_Metadata BrokerTable.Metadata (fun _ => x) name (metadata_request topics)) method_Metadata a
    (Hh n addr Hn) (questions_fitting n h Hf) Hl ltac:(lia) Hk) as (o & id & q & sent & C & (req & -> & Q) & S & E).
  - intros evs H. exact H.
  - intros o (av & Hav & ->). split; [reflexivity|]. split; [exact Hav|reflexivity].
  - destruct C as (av & Hav & ->). exists sent. split; [|exact E]. exists id, req. split; [|exact S].
    apply (f_equal fst) in Q. cbn [o_method o_req] in Q. change (m_req method_Metadata) with MetadataRequest_codec in *. cbn in Q.
    unfold metadata_request in Q. cbn [o_req MetadataRequest_Topics] in Q. destruct (MetadataRequest_Topics req) as [l|]; [|discriminate Q]. cbn [option_map] in Q.
    assert (Q2 : map (fun t => fst (MetadataRequestTopic3_to t)) l = topics).
    { apply (f_equal (fun s => match s with Some l => map fst l | None => [] end)) in Q. rewrite map_map in Q. rewrite Q.
      clear. destruct topics as [|t topics]; [reflexivity|]. generalize (t :: topics). clear. intros l. cbn. induction l as [|t l IH]; [reflexivity|]. cbn. f_equal. exact IH. }
    exact Q2.
Qed.
Lemma coordinator_said n addr x group a : nth_error (conns h) n = Some addr -> In (EFind n x (mkFindCoordinatorRequest group 0) (Answer a)) h ->
  exists sent, says_coordinator K name addr x group sent /\ coordinator_as x sent a.
Proof.
  intros Hn He. destruct (question_place n _ h He (Nat.eqb_refl n)) as (k & Hk).
  pose proof (questions_length n h) as Hq.
  destruct (carried_answer name (K addr) _ k _ (mkOrder method_FindCoordinator FindCoordinator (fun _ => x) name (mkFindCoordinatorRequest group 0)) method_FindCoordinator a
    (Hh n addr Hn) (questions_fitting n h Hf) Hl ltac:(lia) Hk) as (o & id & q & sent & C & (req & -> & Q) & S & E).
  - intros evs H. exact H.
  - intros o (av & Hav & ->). split; [reflexivity|]. split; [exact Hav|reflexivity].
  - destruct C as (av & Hav & ->). exists sent. split; [|exact E]. exists id, req. split; [|exact S].
    exact (f_equal fst Q).
Qed.
Lemma versions_said n addr a av : nth_error (conns h) n = Some addr -> In (EVersions n (Answer a)) h ->
  negotiates (items (ApiVersionsResponse_ApiKeys a)) (Some av) -> says_versions K name addr av.
Proof.
  intros Hn He Hv. destruct (question_place n _ h He (Nat.eqb_refl n)) as (k & Hk).
  pose proof (questions_length n h) as Hq.
  destruct (carried_answer name (K addr) _ k _ (mkOrder method_ApiVersions ApiVersions no_versions name ApiVersionsRequest_zero) method_ApiVersions a
    (Hh n addr Hn) (questions_fitting n h Hf) Hl ltac:(lia) Hk) as (o & id & q & sent & C & (req & -> & Q) & S & E).
  - intros evs H. exact H.
  - intros o ->. repeat split.
  - cbn [call_of] in C. subst o. exists id, req, sent, a. split; [exact S|]. split; [exact E|exact Hv].
Qed.
End Cluster.

(** ** The operations *)
Lemma conns_app a b : conns (a ++ b) = conns a ++ conns b.
Proof. apply flat_map_app. Qed.
Lemma conns_opened h : List.length (conns h) = opened h.
Proof. unfold conns, opened. induction h as [|e h IH]; [reflexivity|]. cbn [flat_map filter]. rewrite app_length, IH. destruct e as [d [x|]| | | |]; reflexivity. Qed.
Lemma addr_dial c addr : addr_of (dial c addr) = addr.
Proof. unfold dial. destruct (f_tls c); reflexivity. Qed.

(** A bootstrap server that was asked. *)
Lemma server_asked {A} c h addrs q tr (a : A) tr' : contacts c h addrs q tr (Done a) -> exists addr b resp, In addr addrs /\
  In (EVersions (b_conn b) (Answer resp)) tr /\ In (q b (Answer a)) (h ++ tr ++ tr') /\ negotiates (items (ApiVersionsResponse_ApiKeys resp)) (Some (b_apiVersion b)) /\
  nth_error (conns (h ++ tr ++ tr')) (b_conn b) = Some addr /\ no_question (removelast tr) /\ tr = removelast tr ++ [q b (Answer a)].
Proof.
  intros H. destruct (first_usable c h addrs q tr a H) as (pre & addr & post & t1 & err & t2 & b & -> & H1 & H2 & ->).
  pose proof (none_usable_nq _ _ _ _ _ H1) as N1. pose proof (usable_nq _ _ _ _ _ H2) as N2. destruct H2 as (resp & av & -> & H3 & ->). exists addr, (mkBroker av c (opened (h ++ t1))), resp.
  cbn [b_conn b_apiVersion]. split; [apply in_or_app; right; left; reflexivity|]. split; [|split; [|split; [exact H3|]]].
  - apply in_or_app. right. cbn. auto.
  - apply in_or_app. right. apply in_or_app. left. apply in_or_app. right. cbn. auto.
  - split.
    + replace (h ++ (t1 ++ [EDial (dial c addr) None; EVersions (opened (h ++ t1)) (Answer resp)] ++ [q (mkBroker av c (opened (h ++ t1))) (Answer a)]) ++ tr')
        with ((h ++ t1) ++ EDial (dial c addr) None :: EVersions (opened (h ++ t1)) (Answer resp) :: q (mkBroker av c (opened (h ++ t1))) (Answer a) :: tr')
        by (rewrite <- !app_assoc; reflexivity).
      rewrite conns_app, nth_error_app2; rewrite conns_opened; [|lia]. rewrite Nat.sub_diag. unfold conns. cbn [flat_map app nth_error]. rewrite addr_dial. reflexivity.
    + rewrite app_assoc, removelast_last. split; [apply no_question_app; assumption|reflexivity].
Qed.
Lemma nq_fitting tr : no_question tr -> Forall fitting tr.
Proof. intros H. apply Forall_forall. intros e He. specialize (H e He). destruct e; try exact I; discriminate. Qed.
Lemma honest_versions v tr : forall h n resp, env_ok v -> honest v h tr -> In (EVersions n (Answer resp)) tr -> Forall entry_ok (items (ApiVersionsResponse_ApiKeys resp)).
Proof.
  induction tr as [|e tr IH]; intros h n resp Hv H Hi; [destruct Hi|]. destruct H as [H1 H2]. destruct Hi as [->|Hi]; [|eapply IH; eassumption].
  eapply Hv. symmetry. exact H1.
Qed.
Lemma negotiated_int16 keys av a : Forall entry_ok keys -> negotiates keys (Some av) -> is_int16 (av a).
Proof.
  intros Hk (fuel & H). unfold negotiateApiVersions in H.
  assert (G : forall keys av0, Forall entry_ok keys -> (forall b, is_int16 (av0 b)) -> negotiate_loop fuel keys av0 = Some (Some av) -> is_int16 (av a)).
  { clear. induction keys as [|e keys IH]; intros av0 Hk H0 H; cbn [negotiate_loop] in H; [injection H as <-; apply H0|]. inversion Hk as [|? ? K1 K2]; subst.
    destruct (find_case _ _) as [[[f lo] hi]|]; [|eapply IH; eassumption].
    destruct (matchVersion fuel e lo hi) as [[x|]|] eqn:E; try discriminate. eapply IH; [exact K2| |exact H].
    intros b. unfold set_version. destruct (api_eqb b f); [|apply H0]. clear - E K1. unfold matchVersion in E.
    assert (G : forall fuel y, match_loop fuel e lo hi y = Some (Some x) -> x = ApiVersionsResponseKey18_MaxVersion e).
    { clear. induction fuel as [|fuel IH]; intros y H; cbn [match_loop] in H; [discriminate|]. destruct (_ <=? y); [|discriminate].
      destruct (_ && _); [congruence|eapply IH; exact H]. }
    apply G in E. subst x. apply K1. }
  eapply G; [exact Hk| |exact H]. intros b. unfold no_versions, is_int16. lia.
Qed.
Lemma topics_fit x topics (s : gslice (dens MetadataRequestTopic3_schema)) : short_names topics -> items s = map (fun t => (t, tt)) topics ->
  fit MetadataRequest_schema x (s, (false, (false, (false, tt)))) /\ zlen (wires MetadataRequest_schema x (s, (false, (false, (false, tt))))) < 2 ^ 30.
Proof.
  intros [H1 H2] Es. assert (Eg : glen s = zlen topics) by (unfold glen; rewrite Es; unfold zlen; rewrite map_length; reflexivity).
  pose proof (zlen_nonneg (List.concat topics)) as H3. split.
  - split; [|repeat split]. intros _. cbn [fst]. split; [change (glen s < 2 ^ 31); lia|]. change (Forall (fit MetadataRequestTopic3_schema x) (items s)). rewrite Es, Forall_map.
    eapply Forall_impl; [|exact H1]. intros t Ht. split; [intros _; exact Ht|exact I].
  - unfold MetadataRequest_schema. cbn [wires fst snd]. change (active Always x) with true. cbv iota. cbn [SchemaSpec.wire]. unfold w_array. rewrite !zlen_app, zlen_be.
    assert (W : zlen (flat_map (wires MetadataRequestTopic3_schema x) (items s)) = zlen (List.concat topics) + 2 * zlen topics).
    { rewrite Es. clear. induction topics as [|t topics IH]; [reflexivity|]. cbn [map flat_map List.concat]. rewrite !zlen_app, IH.
      change (wires MetadataRequestTopic3_schema x (t, tt)) with (w_string t ++ []). unfold w_string. rewrite !zlen_app, zlen_be. unfold zlen. cbn [List.length]. lia. }
    rewrite W.
    assert (B : forall (b y : bool), zlen (if b then w_bool y else []) <= 1) by (intros [] []; cbn; lia).
    assert (Hn : zlen (@nil Z) = 0) by reflexivity.
    repeat match goal with |- context [zlen (if ?b then w_bool ?y else [])] => pose proof (B b y); generalize dependent (zlen (if b then w_bool y else [])); intros end. lia.
Qed.
Lemma metadata_fitting n x topics r : short_names topics -> is_int16 x -> fitting (EMetadata n x (metadata_request topics) r).
Proof.
  intros H Hx. split; [exact Hx|]. apply (topics_fit x topics _ H).
  destruct topics as [|t topics]; [reflexivity|]. unfold metadata_request. cbn [MetadataRequest_Topics]. cbn [option_map items]. rewrite map_map. reflexivity.
Qed.
Lemma find_fitting n x group r : zlen group < 2 ^ 15 -> is_int16 x -> fitting (EFind n x (mkFindCoordinatorRequest group 0) r).
Proof.
  intros H Hx. cbn [fitting]. split; [exact Hx|]. unfold FindCoordinatorRequest_to. cbn [FindCoordinatorRequest_Key FindCoordinatorRequest_KeyType]. split.
  - split; [intros _; exact H|]. split; [intros _; cbn; unfold is_int8; lia|exact I].
  - unfold FindCoordinatorRequest_schema. cbn [wires fst snd]. change (active Always x) with true. cbv iota. cbn [SchemaSpec.wire]. unfold w_string. rewrite !zlen_app, zlen_be.
    assert (zlen (if active (From 1) x then be 1 0 else []) <= 1) by (destruct (active _ _); cbn; lia). assert (zlen (@nil Z) = 0) by reflexivity. lia.
Qed.
Lemma dialed_connected c h tr addr b : usable c addr (opened h) tr b -> exists resp, In (EVersions (b_conn b) (Answer resp)) tr /\
  negotiates (items (ApiVersionsResponse_ApiKeys resp)) (Some (b_apiVersion b)) /\ nth_error (conns (h ++ tr)) (b_conn b) = Some addr.
Proof.
  intros (resp & av & -> & H & ->). exists resp. cbn [b_conn b_apiVersion]. split; [cbn; auto|]. split; [exact H|].
  rewrite conns_app, nth_error_app2; rewrite conns_opened; [|lia]. rewrite Nat.sub_diag. unfold conns. cbn [flat_map app nth_error]. rewrite addr_dial. reflexivity.
Qed.
Section Operations.
Context (v : env) (cl : Client) (c : config) (h h' : list Client.event) (K : cluster).
Hypothesis (Hv : env_ok v) (Hs : sane cl c h h') (HK : happened (text (f_clientID c)) K h').
Notation name := (text (f_clientID c)).

(** After the question to a bootstrap server nothing but one server is asked for its versions. *)
Lemma all_fitting {A} (q : Broker -> answer A -> Client.event) tr1 tr2 a : h' = h ++ tr1 ++ tr2 -> honest v h (tr1 ++ tr2) -> no_question tr2 ->
  contacts c h (c_bootstrap cl) q tr1 (Done a) ->
  (forall b, is_int16 (b_apiVersion b BrokerTable.Metadata) -> is_int16 (b_apiVersion b FindCoordinator) -> fitting (q b (Answer a))) ->
  Forall fitting h' /\ exists addr b, In addr (c_bootstrap cl) /\ says_versions K name addr (b_apiVersion b) /\ In (q b (Answer a)) h' /\ nth_error (conns h') (b_conn b) = Some addr.
Proof.
  intros E Ho N S Hq. destruct Hs as (S1 & S2 & S3 & S4 & S5).
  destruct (server_asked c h _ q tr1 a tr2 S) as (addr & b & resp & A1 & A2 & A3 & A4 & A5 & A6 & A7). rewrite <- E in A3, A5.
  assert (Hr : Forall entry_ok (items (ApiVersionsResponse_ApiKeys resp))) by (eapply honest_versions; [exact Hv|exact Ho|apply in_or_app; left; exact A2]).
  assert (F : Forall fitting h').
  { rewrite E. apply Forall_app. split; [exact S4|]. apply Forall_app. split; [|apply nq_fitting, N]. rewrite A7. apply Forall_app. split; [apply nq_fitting, A6|].
    constructor; [|constructor]. apply Hq; eapply negotiated_int16; eassumption. }
  split; [exact F|]. exists addr, b. split; [exact A1|]. split; [|auto].
  eapply (versions_said K name h' HK F S3 S5); [exact A5| |exact A4]. rewrite E. apply in_or_app. right. apply in_or_app. left. exact A2.
Qed.
(** The broker that is returned. *)
Lemma returned_broker tr1 tr2 addr b : h' = h ++ tr1 ++ tr2 -> Forall fitting h' -> connects c (h ++ tr1) addr tr2 (Done b) -> connected_to K name h' b addr.
Proof.
  intros E F H. destruct Hs as (S1 & S2 & S3 & S4 & S5). destruct (dialed_connected c (h ++ tr1) tr2 addr b H) as (resp & B1 & B2 & B3). rewrite <- app_assoc, <- E in B3.
  split; [exact B3|]. eapply (versions_said K name h' HK F S3 S5); [exact B3| |exact B2]. rewrite E. apply in_or_app. right. apply in_or_app. right. exact B1.
Qed.
Lemma asked_metadata topics tr1 tr2 meta : short_names topics -> h' = h ++ tr1 ++ tr2 -> honest v h (tr1 ++ tr2) -> no_question tr2 ->
  contacts c h (c_bootstrap cl) (about_topics topics) tr1 (Done meta) ->
  Forall fitting h' /\ exists addr av sent, In addr (c_bootstrap cl) /\ says_versions K name addr av /\
    says_metadata K name addr (av BrokerTable.Metadata) topics sent /\ metadata_as (av BrokerTable.Metadata) sent meta.
Proof.
  intros Ht E Ho N S. destruct (all_fitting (about_topics topics) tr1 tr2 meta E Ho N S) as (F & addr & b & A1 & A2 & A3 & A4).
  { intros b Hb _. apply metadata_fitting; assumption. }
  split; [exact F|]. destruct Hs as (S1 & S2 & S3 & S4 & S5). destruct (metadata_said K name h' HK F S3 S5 (b_conn b) addr _ topics meta A4 A3) as (sent & B1 & B2).
  exists addr, (b_apiVersion b), sent. auto.
Qed.
Theorem cluster_metadata topics meta : short_names topics -> Client.Metadata cl topics v h = (Done meta, h') ->
  exists addr av sent, In addr (c_bootstrap cl) /\ says_versions K name addr av /\
    says_metadata K name addr (av BrokerTable.Metadata) topics sent /\ metadata_as (av BrokerTable.Metadata) sent meta.
Proof.
  intros Ht H. pose proof Hs as (S1 & S2 & _). destruct (metadata_spec v cl c topics h _ h' Hv S1 S2 H) as (tr & E & Ho & S).
  apply (asked_metadata topics tr [] meta Ht); [rewrite app_nil_r; exact E|rewrite app_nil_r; exact Ho|intros e []|exact S].
Qed.
Theorem cluster_leader topic partition b : zlen topic < 2 ^ 15 -> DialLeader cl topic partition v h = (Done b, h') ->
  exists addr av sent t p nb, In addr (c_bootstrap cl) /\ says_versions K name addr av /\ says_metadata K name addr (av BrokerTable.Metadata) [topic] sent /\
    first_such (fun t => MetadataResponseTopic3_Name t = topic) (items (MetadataResponse_Topics sent)) t /\
    first_such (fun p => MetadataResponsePartition3_PartitionIndex p = partition) (items (MetadataResponseTopic3_Partitions t)) p /\
    first_such (fun nb => MetadataResponseBroker3_NodeId nb = MetadataResponsePartition3_LeaderId p) (items (MetadataResponse_Brokers sent)) nb /\
    connected_to K name h' b (MetadataResponseBroker3_Host nb ++ [58] ++ Itoa (MetadataResponseBroker3_Port nb)).
Proof.
  intros Ht H. pose proof Hs as (S1 & S2 & _). destruct (leader_spec v cl c topic partition h _ h' Hv S1 S2 H) as (t1 & t2 & o1 & E & Ho & S & R).
  destruct o1 as [meta|f|]; [|destruct R as [_ R]; discriminate|destruct R as [_ R]; discriminate].
  destruct (asked_metadata [topic] t1 t2 meta) as (F & addr & av & sent & A1 & A2 & A3 & A4); [|exact E|exact Ho|eapply leader_dialed_nq; exact R|exact S|].
  { split; [constructor; [exact Ht|constructor]|]. cbn [List.concat]. rewrite app_nil_r. change (zlen [topic]) with 1. lia. }
  destruct R as [(t & p & Gt & Gp & [(nb & Gn & R)|(_ & _ & R)])|[(t & _ & _ & _ & R)|(_ & _ & R)]]; try discriminate R.
  destruct (metadata_parts _ _ _ A4) as (Fb & Ft & _).
  edestruct (first_such_same same_topic _ _ _ _ Gt Ft) as (t' & (_ & Fp) & Gt'); [intros a q (E1 & _); rewrite E1; reflexivity|].
  edestruct (first_such_same same_partition _ _ _ _ Gp Fp) as (p' & (_ & El) & Gp'); [intros a q (E1 & _); rewrite E1; reflexivity|].
  edestruct (first_such_same same_node _ _ _ _ Gn Fb) as (nb' & (E1 & E2 & E3) & Gn'); [intros a q (E1 & _); rewrite E1; reflexivity|].
  rewrite El in Gn'. exists addr, av, sent, t', p', nb'. split; [exact A1|]. split; [exact A2|]. split; [exact A3|]. split; [exact Gt'|]. split; [exact Gp'|]. split; [exact Gn'|].
  rewrite <- E2, <- E3. eapply returned_broker; [exact E|exact F|exact R].
Qed.
Theorem cluster_controller b : DialController cl v h = (Done b, h') ->
  exists addr av sent nb, In addr (c_bootstrap cl) /\ says_versions K name addr av /\ says_metadata K name addr (av BrokerTable.Metadata) [] sent /\
    first_such (fun nb => MetadataResponseBroker3_NodeId nb = if 1 <=? av BrokerTable.Metadata then MetadataResponse_ControllerId sent else 0) (items (MetadataResponse_Brokers sent)) nb /\
    connected_to K name h' b (MetadataResponseBroker3_Host nb ++ [58] ++ Itoa (MetadataResponseBroker3_Port nb)).
Proof.
  intros H. pose proof Hs as (S1 & S2 & _). destruct (controller_spec v cl c h _ h' Hv S1 S2 H) as (t1 & t2 & o1 & E & Ho & S & R).
  destruct o1 as [meta|f|]; [|destruct R as [_ R]; discriminate|destruct R as [_ R]; discriminate].
  destruct (asked_metadata [] t1 t2 meta) as (F & addr & av & sent & A1 & A2 & A3 & A4); [|exact E|exact Ho|eapply node_dialed_nq; exact R|exact S|].
  { split; [constructor|reflexivity]. }
  destruct R as [(nb & Gn & R)|(_ & _ & R)]; [|discriminate].
  destruct (metadata_parts _ _ _ A4) as (Fb & _ & Ec). rewrite Ec in Gn.
  edestruct (first_such_same same_node _ _ _ _ Gn Fb) as (nb' & (E1 & E2 & E3) & Gn'); [intros a q (E1 & _); rewrite E1; reflexivity|].
  exists addr, av, sent, nb'. split; [exact A1|]. split; [exact A2|]. split; [exact A3|]. split; [exact Gn'|].
  rewrite <- E2, <- E3. eapply returned_broker; [exact E|exact F|exact R].
Qed.
Theorem cluster_coordinator group b : zlen group < 2 ^ 15 -> DialGroupCoordinator cl group v h = (Done b, h') ->
  exists addr av sent, In addr (c_bootstrap cl) /\ says_versions K name addr av /\ says_coordinator K name addr (av FindCoordinator) group sent /\
    connected_to K name h' b (FindCoordinatorResponse_Host sent ++ [58] ++ Itoa (FindCoordinatorResponse_Port sent)).
Proof.
  intros Hg H. pose proof Hs as (S1 & S2 & S3 & S4 & S5). destruct (find_spec v cl c group h _ h' Hv S1 S2 H) as (t1 & t2 & o1 & E & Ho & S & R).
  destruct o1 as [resp|f|]; [|destruct R as [_ R]; discriminate|destruct R as [_ R]; discriminate].
  destruct (all_fitting (about_group group) t1 t2 resp E Ho (connects_nq _ _ _ _ _ R) S) as (F & addr & b' & A1 & A2 & A3 & A4).
  { intros b' _ Hb. apply find_fitting; assumption. }
  destruct (coordinator_said K name h' HK F S3 S5 (b_conn b') addr _ group resp A4 A3) as (sent & B1 & B2).
  exists addr, (b_apiVersion b'), sent. split; [exact A1|]. split; [exact A2|]. split; [exact B1|].
  unfold coordinator_as, FindCoordinatorResponse_to in B2. cbn [receive FindCoordinatorResponse_schema zeros zero active SchemaSpec.seen fst snd] in B2.
  pose proof (f_equal (fun p => fst (snd (snd (snd (snd p))))) B2) as E1. pose proof (f_equal (fun p => fst (snd (snd (snd (snd (snd p)))))) B2) as E2. cbn [fst snd] in E1, E2. rewrite <- E1, <- E2.
  eapply returned_broker; [exact E|exact F|exact R].
Qed.
End Operations.
