(** * Lemmas about client.go *)
From Coq Require Import String.
From Verif Require Import GoBase GoLemmas Msg02 Msg03 Msg04 BrokerTable Broker BrokerSpec BrokerProofs Options Client ClientSpec.
Local Open Scope Z_scope.
Local Open Scope list_scope.
Ltac Zify.zify_post_hook ::= idtac.

(** ** The fuel of the negotiation *)
Lemma match_enough f e lo hi r : entry_ok e -> matchVersion f e lo hi = Some r -> matchVersion enough e lo hi = Some r.
Proof.
  intros He H.
  assert (D : (e_min e = - 2 ^ 15 /\ ~ (lo <= e_max e <= hi)) \/ accepted e lo hi \/ (- 2 ^ 15 < e_min e /\ ~ accepted e lo hi)).
  { destruct He as (_ & H1 & H2). unfold is_int16, accepted in *. lia. }
  destruct D as [[D1 D2]|[D|[D1 D2]]].
  - unfold matchVersion in H. rewrite match_loop_forever in H; [discriminate|apply He|exact D1|exact D2].
  - destruct f as [|f]; [discriminate|]. rewrite match_accepted in H by exact D. rewrite <- H.
    unfold enough. replace (Z.to_nat 65538) with (S (Z.to_nat 65537)) by lia. apply match_accepted, D.
  - pose proof (match_rejected e lo hi He D1 D2) as R. rewrite R. clear D1 D2.
    destruct (Nat.le_ge_cases f enough) as [L|L].
    + apply (match_mono f enough) in H; [congruence|exact L].
    + apply (match_mono enough f) in R; [congruence|exact L].
Qed.
Lemma negotiate_enough f : forall keys av0 r, Forall entry_ok keys -> negotiate_loop f keys av0 = Some r -> negotiate_loop enough keys av0 = Some r.
Proof.
  induction keys as [|e keys IH]; intros av0 r Hok; cbn [negotiate_loop]; [auto|]. inversion Hok as [|? ? He Hks]; subst.
  destruct (find_case (e_key e) negotiation_cases) as [[[f1 lo1] hi1]|]; [|apply IH, Hks].
  destruct (matchVersion f e lo1 hi1) as [r1|] eqn:Q; [|discriminate]. rewrite (match_enough _ _ _ _ _ He Q).
  destruct r1; [apply IH, Hks|auto].
Qed.
Lemma negotiates_enough keys : Forall entry_ok keys ->
  match negotiateApiVersions enough keys with Some r => negotiates keys r | None => diverges keys end.
Proof.
  intros Hok. destruct (negotiateApiVersions enough keys) as [r|] eqn:E; [exists enough; exact E|].
  intros f. destruct (negotiateApiVersions f keys) as [r|] eqn:F; [|reflexivity].
  unfold negotiateApiVersions in *. apply negotiate_enough in F; [congruence|exact Hok].
Qed.

(** ** Histories *)
Lemma honest_app v tr1 : forall h tr2, honest v h tr1 -> honest v (h ++ tr1) tr2 -> honest v h (tr1 ++ tr2).
Proof.
  induction tr1 as [|e tr1 IH]; intros h tr2 H1 H2; cbn [app honest] in *; [rewrite app_nil_r in H2; exact H2|].
  destruct H1 as [H1 H3]. split; [exact H1|]. apply IH; [exact H3|]. rewrite <- app_assoc. exact H2.
Qed.
Lemma opened_app h1 h2 : opened (h1 ++ h2) = (opened h1 + opened h2)%nat.
Proof. unfold opened. rewrite filter_app, app_length. reflexivity. Qed.
Lemma dialed_app h1 h2 : dialed (h1 ++ h2) = dialed h1 ++ dialed h2.
Proof. unfold dialed. apply flat_map_app. Qed.

(** A computation that appends to the history what the world answers. *)
Definition Extends {A} (m : M A) : Prop := forall v h o h', m v h = (o, h') -> exists tr, h' = h ++ tr /\ honest v h tr.
Lemma Extends_ret {A} (a : A) : Extends (ret a).
Proof. intros v h o h' H. injection H as <- <-. exists []. rewrite app_nil_r. split; [reflexivity|exact I]. Qed.
Lemma Extends_fail {A} f : Extends (@fail A f).
Proof. intros v h o h' H. injection H as <- <-. exists []. rewrite app_nil_r. split; [reflexivity|exact I]. Qed.
Lemma Extends_lift {A} (o : outcome A) : Extends (lift o).
Proof. intros v h o' h' H. injection H as <- <-. exists []. rewrite app_nil_r. split; [reflexivity|exact I]. Qed.
Lemma Extends_stuck {A} : Extends (@stuck A).
Proof. intros v h o h' H. injection H as <- <-. exists []. rewrite app_nil_r. split; [reflexivity|exact I]. Qed.
Lemma Extends_or_else {A B} (m : M A) (k : A -> M B) kerr : Extends m -> (forall a, Extends (k a)) -> (forall f, Extends (kerr f)) -> Extends (or_else m k kerr).
Proof.
  intros Hm Hk He v h o h' H. unfold or_else in H. destruct (m v h) as [[a|f|] h1] eqn:E.
  - destruct (Hm _ _ _ _ E) as (t1 & -> & O1). destruct (Hk _ _ _ _ _ H) as (t2 & -> & O2). exists (t1 ++ t2). rewrite app_assoc. split; [reflexivity|apply honest_app; assumption].
  - destruct (Hm _ _ _ _ E) as (t1 & -> & O1). destruct (He _ _ _ _ _ H) as (t2 & -> & O2). exists (t1 ++ t2). rewrite app_assoc. split; [reflexivity|apply honest_app; assumption].
  - injection H as <- <-. exact (Hm _ _ _ _ E).
Qed.
Lemma Extends_bind {A B} (m : M A) (k : A -> M B) : Extends m -> (forall a, Extends (k a)) -> Extends (bind m k).
Proof.
  intros Hm Hk v h o h' H. apply (Extends_or_else m k (fun f => fail f) Hm Hk (fun f => Extends_fail f) v h o h').
  unfold or_else, fail. unfold bind in H. destruct (m v h) as [[a|f|] h1]; exact H.
Qed.
Lemma Extends_Connect addr opts : Extends (Connect addr opts).
Proof.
  intros v h o h' H. unfold Connect in H. destruct (buildConfig opts) as [c|]; [|injection H as <- <-; exists []; rewrite app_nil_r; split; [reflexivity|exact I]].
  destruct (v_dial v h (dial c addr)) as [x|] eqn:E; injection H as <- <-; eexists; (split; [reflexivity|]); cbn; auto.
Qed.
Lemma Extends_versions n : Extends (ask_versions n).
Proof. intros v h o h' H. unfold ask_versions in H. cbn zeta in H. injection H as <- <-. eexists. split; [reflexivity|]. cbn. auto. Qed.
Lemma Extends_metadata b req : Extends (ask_metadata b req).
Proof. intros v h o h' H. unfold ask_metadata in H. cbn zeta in H. injection H as <- <-. eexists. split; [reflexivity|]. cbn. auto. Qed.
Lemma Extends_find b req : Extends (ask_find b req).
Proof. intros v h o h' H. unfold ask_find in H. cbn zeta in H. injection H as <- <-. eexists. split; [reflexivity|]. cbn. auto. Qed.
Lemma Extends_NewBroker addr opts : Extends (NewBroker addr opts).
Proof.
  unfold NewBroker. destruct (buildConfig opts); [|apply Extends_stuck]. apply Extends_bind; [apply Extends_Connect|]. intros n.
  apply Extends_or_else; [apply Extends_versions| |intros; apply Extends_fail]. intros resp. destruct (negotiateApiVersions _ _) as [[av|]|]; [apply Extends_ret|apply Extends_fail|apply Extends_stuck].
Qed.
Lemma Extends_loop {A} opts (cb : Broker -> M A) : (forall b, Extends (cb b)) -> forall addrs err, Extends (bootstrap_loop opts addrs cb err).
Proof.
  intros Hc. induction addrs as [|addr rest IH]; intros err; cbn [bootstrap_loop]; [destruct err; [apply Extends_fail|apply Extends_ret]|].
  apply Extends_or_else; [apply Extends_NewBroker| |auto]. intros b. apply Extends_bind; [apply Hc|intros; apply Extends_ret].
Qed.
Lemma Extends_Metadata c topics : Extends (Metadata c topics).
Proof. apply Extends_bind; [apply Extends_loop; intros; apply Extends_metadata|intros; apply Extends_ret]. Qed.
Lemma Extends_dialNode c meta n : Extends (dialNode c meta n).
Proof. unfold dialNode. destruct (find _ _); [apply Extends_NewBroker|apply Extends_fail]. Qed.
Lemma Extends_DialController c : Extends (DialController c).
Proof. apply Extends_bind; [apply Extends_Metadata|intros; apply Extends_dialNode]. Qed.
Lemma Extends_dialCoordinator c req : Extends (dialCoordinator c req).
Proof. apply Extends_bind; [apply Extends_loop; intros; apply Extends_find|intros; apply Extends_NewBroker]. Qed.
Lemma Extends_DialLeader c topic p : Extends (DialLeader c topic p).
Proof. apply Extends_bind; [apply Extends_Metadata|]. intros meta. apply Extends_bind; [apply Extends_lift|]. intros t. apply Extends_bind; [apply Extends_lift|]. intros; apply Extends_dialNode. Qed.

(** ** NewBroker *)
Lemma newbroker v opts c addr h o h' : env_ok v -> buildConfig opts = Some c -> NewBroker addr opts v h = (o, h') ->
  exists tr, h' = h ++ tr /\ honest v h tr /\
    match o with
    | Done b => usable c addr (opened h) tr b
    | Failed f => unusable c addr (opened h) tr f
    | Stuck => hangs c addr (opened h) tr
    end.
Proof.
  intros Hv Hc H. destruct (Extends_NewBroker addr opts v h o h' H) as (tr & E & Ho). exists tr. split; [exact E|]. split; [exact Ho|].
  unfold NewBroker in H. rewrite Hc in H. unfold bind, Connect in H. rewrite Hc in H.
  destruct (v_dial v h (dial c addr)) as [x|] eqn:E1.
  - injection H as <- <-. apply app_inv_head in E. subst tr. left. exists x. split; reflexivity.
  - unfold or_else, ask_versions in H. cbn zeta in H. set (h1 := h ++ [EDial (dial c addr) None]) in *.
    destruct (v_versions v h1 (opened h)) as [resp|x|] eqn:E2.
    + pose proof (negotiates_enough _ (Hv _ _ _ E2)) as N. destruct (negotiateApiVersions enough _) as [[av|]|]; unfold ret, fail, stuck in H; injection H as <- <-; unfold h1 in E; rewrite <- app_assoc in E; apply app_inv_head in E; subst tr.
      * exists resp, av. split; [reflexivity|]. split; [exact N|reflexivity].
      * right. right. exists resp. split; [reflexivity|]. split; [exact N|reflexivity].
      * right. exists resp. split; [reflexivity|exact N].
    + unfold fail in H. injection H as <- <-. unfold h1 in E. rewrite <- app_assoc in E. apply app_inv_head in E. subst tr. right. left. exists x. split; reflexivity.
    + injection H as <- <-. unfold h1 in E. rewrite <- app_assoc in E. apply app_inv_head in E. subst tr. left. reflexivity.
Qed.

(** ** The bootstrap servers *)
Definition served {A} (c : config) (cb : Broker -> M A) (v : env) (h : list event) (addrs : list gostring) (err : option failure) (o : outcome (option A)) (tr : list event) : Prop :=
  (exists err', none_usable c h addrs tr err' /\
     o = match err' with Some f => Failed f | None => match err with Some f => Failed f | None => Done None end end) \/
  (exists pre addr post tr1 tr2 err', addrs = pre ++ addr :: post /\ none_usable c h pre tr1 err' /\ tr = tr1 ++ tr2 /\
     ((hangs c addr (opened (h ++ tr1)) tr2 /\ o = Stuck) \/
      exists b tr3 o3 tr4, usable c addr (opened (h ++ tr1)) tr3 b /\ tr2 = tr3 ++ tr4 /\ cb b v (h ++ tr1 ++ tr3) = (o3, h ++ tr1 ++ tr3 ++ tr4) /\
        o = match o3 with Done a => Done (Some a) | Failed f => Failed f | Stuck => Stuck end)).
Lemma bootstrap_spec {A} v opts c (cb : Broker -> M A) : env_ok v -> buildConfig opts = Some c -> (forall b, Extends (cb b)) ->
  forall addrs err h o h', bootstrap_loop opts addrs cb err v h = (o, h') ->
  exists tr, h' = h ++ tr /\ honest v h tr /\ served c cb v h addrs err o tr.
Proof.
  intros Hv Hc Hcb. induction addrs as [|addr rest IH]; intros err h o h' H.
  - exists []. cbn [bootstrap_loop] in H. rewrite app_nil_r. split; [destruct err; injection H as <- <-; reflexivity|]. split; [exact I|]. left. exists None.
    split; [constructor|]. destruct err; injection H as <- <-; reflexivity.
  - destruct (Extends_loop opts cb Hcb _ _ v h o h' H) as (tr & E & Ho). exists tr. split; [exact E|]. split; [exact Ho|].
    cbn [bootstrap_loop] in H. unfold or_else in H. destruct (NewBroker addr opts v h) as [[b|f|] h1] eqn:N; destruct (newbroker v opts c addr h _ h1 Hv Hc N) as (tr1 & E1 & Ho1 & U).
    + right. unfold bind in H. destruct (cb b v h1) as [o3 h2] eqn:C. destruct (Hcb b v h1 o3 h2 C) as (tr4 & E2 & Ho2). subst h1 h2.
      assert (Q : o = match o3 with Done a => Done (Some a) | Failed f => Failed f | Stuck => Stuck end /\ h' = (h ++ tr1) ++ tr4) by (destruct o3; injection H as <- <-; auto).
      destruct Q as [Q1 Q2]. rewrite Q2, <- app_assoc in E. apply app_inv_head in E. subst tr.
      exists [], addr, rest, [], (tr1 ++ tr4), None. split; [reflexivity|]. split; [constructor|]. split; [reflexivity|]. right. rewrite app_nil_r.
      exists b, tr1, o3, tr4. split; [exact U|]. split; [reflexivity|]. split; [|exact Q1]. cbn [app]. rewrite C. rewrite <- app_assoc. reflexivity.
    + subst h1. destruct (IH (Some f) (h ++ tr1) o h' H) as (tr2 & E2 & Ho2 & S). rewrite E2, <- app_assoc in E. apply app_inv_head in E. subst tr.
      destruct S as [(err' & S1 & S2)|(pre & addr' & post & t1 & t2 & err' & S1 & S2 & S3 & S4)].
      * left. eexists. split; [econstructor; eassumption|]. rewrite S2. destruct err'; reflexivity.
      * right. exists (addr :: pre), addr', post, (tr1 ++ t1), t2, (match err' with None => Some f | Some g => Some g end). split; [rewrite S1; reflexivity|].
        split; [econstructor; eassumption|]. split; [rewrite S3, app_assoc; reflexivity|]. destruct S4 as [S4|(b & t3 & o3 & t4 & S4 & S5 & S6 & S7)].
        -- left. rewrite <- app_assoc in S4. exact S4.
        -- right. exists b, t3, o3, t4. rewrite <- app_assoc in S4. rewrite <- !app_assoc in S6. rewrite <- !app_assoc. auto.
    + right. subst h1. injection H as <- <-. apply app_inv_head in E. subst tr1. exists [], addr, rest, [], tr, None. rewrite app_nil_r. split; [reflexivity|]. split; [constructor|]. split; [reflexivity|]. left. auto.
Qed.

(** ** Asking a bootstrap server *)
Lemma none_usable_nonempty c h addrs tr err : none_usable c h addrs tr err -> addrs <> [] -> exists f, err = Some f.
Proof. intros H Hn. inversion H; subst; [congruence|]. destruct err0; eauto. Qed.
Lemma contacts_loop {A} v opts c (cb : Broker -> M A) q addrs h o h' : env_ok v -> buildConfig opts = Some c -> (forall b, Extends (cb b)) ->
  (forall b h, exists r, cb b v h = (result_of r, h ++ [q b r])) -> addrs <> [] ->
  bootstrap_loop opts addrs cb None v h = (o, h') ->
  exists tr o', h' = h ++ tr /\ honest v h tr /\ contacts c h addrs q tr o' /\
    o = match o' with Done a => Done (Some a) | Failed f => Failed f | Stuck => Stuck end.
Proof.
  intros Hv Hc Hx Hcb Hn H. destruct (bootstrap_spec v opts c cb Hv Hc Hx addrs None h o h' H) as (tr & E & Ho & S). exists tr.
  destruct S as [(err & S1 & S2)|(pre & addr & post & t1 & t2 & err & S1 & S2 & S3 & S4)].
  - destruct (none_usable_nonempty _ _ _ _ _ S1 Hn) as (f & ->). exists (Failed f). split; [exact E|]. split; [exact Ho|]. split; [|exact S2]. left. eauto.
  - destruct S4 as [[S4 S5]|(b & t3 & o3 & t4 & S4 & S5 & S6 & S7)].
    + exists Stuck. split; [exact E|]. split; [exact Ho|]. split; [|exact S5]. right. exists pre, addr, post, t1, err, t2. auto 10.
    + exists o3. split; [exact E|]. split; [exact Ho|]. split; [|exact S7]. right. exists pre, addr, post, t1, err, t2. split; [exact S1|]. split; [exact S2|]. split; [exact S3|]. right.
      destruct (Hcb b (h ++ t1 ++ t3)) as (r & R). rewrite R in S6. injection S6 as S6 S8. rewrite <- !app_assoc in S8. do 3 apply app_inv_head in S8. subst t4.
      exists b, t3, r. auto.
Qed.
Lemma metadata_spec v cl c topics h o h' : env_ok v -> buildConfig (c_opts cl) = Some c -> c_bootstrap cl <> [] -> Metadata cl topics v h = (o, h') ->
  exists tr, h' = h ++ tr /\ honest v h tr /\ contacts c h (c_bootstrap cl) (about_topics topics) tr o.
Proof.
  intros Hv Hc Hn H. unfold Metadata, bind, dialBootstrap in H. destruct (bootstrap_loop _ _ _ _ _ _) as [o1 h1] eqn:B.
  eapply (contacts_loop v (c_opts cl) c _ (about_topics topics)) in B; [|exact Hv|exact Hc|intros; apply Extends_metadata|intros b h0; eexists; reflexivity|exact Hn].
  destruct B as (tr & o' & -> & Ho & S & ->). exists tr. destruct o'; injection H as <- <-; auto.
Qed.
Lemma find_spec v cl c g h o h' : env_ok v -> buildConfig (c_opts cl) = Some c -> c_bootstrap cl <> [] -> DialGroupCoordinator cl g v h = (o, h') ->
  exists tr1 tr2 o1, h' = h ++ tr1 ++ tr2 /\ honest v h (tr1 ++ tr2) /\ contacts c h (c_bootstrap cl) (about_group g) tr1 o1 /\
    match o1 with
    | Done resp => connects c (h ++ tr1) (address (FindCoordinatorResponse_Host resp) (FindCoordinatorResponse_Port resp)) tr2 o
    | _ => gives_up o1 tr2 o
    end.
Proof.
  intros Hv Hc Hn H. unfold DialGroupCoordinator, dialCoordinator, bind, dialBootstrap in H. destruct (bootstrap_loop _ _ _ _ _ _) as [o1 h1] eqn:B.
  eapply (contacts_loop v (c_opts cl) c _ (about_group g)) in B; [|exact Hv|exact Hc|intros; apply Extends_find|intros b h0; eexists; reflexivity|exact Hn].
  destruct B as (tr & o' & -> & Ho & S & ->). destruct o' as [resp|f|].
  - destruct (newbroker v _ c _ _ o h' Hv Hc H) as (tr2 & -> & Ho2 & U). exists tr, tr2, (Done resp). rewrite app_assoc. split; [reflexivity|].
    split; [apply honest_app; assumption|]. split; [exact S|exact U].
  - injection H as <- <-. exists tr, [], (Failed f). rewrite app_nil_r. repeat split; assumption.
  - injection H as <- <-. exists tr, [], Stuck. rewrite app_nil_r. repeat split; assumption.
Qed.

(** ** Choosing a node *)
Lemma find_first {A} (f : A -> bool) P l : (forall x, f x = true <-> P x) ->
  match find f l with Some x => first_such P l x | None => Forall (fun y => ~ P y) l end.
Proof.
  intros Hf. induction l as [|y l IH]; cbn [find]; [constructor|]. destruct (f y) eqn:E.
  - exists [], l. split; [reflexivity|]. split; [apply Hf, E|constructor].
  - assert (N : ~ P y) by (rewrite <- Hf; congruence). destruct (find f l) as [x|].
    + destruct IH as (l1 & l2 & -> & Hx & Hl). exists (y :: l1), l2. split; [reflexivity|]. split; [exact Hx|]. constructor; assumption.
    + constructor; assumption.
Qed.
Lemma dialNode_spec v cl c meta node h o h' : env_ok v -> buildConfig (c_opts cl) = Some c -> dialNode cl meta node v h = (o, h') ->
  exists tr, h' = h ++ tr /\ honest v h tr /\ node_dialed c meta node h tr o.
Proof.
  intros Hv Hc H. unfold dialNode in H.
  pose proof (find_first (fun b => MetadataResponseBroker3_NodeId b =? node) (fun b => MetadataResponseBroker3_NodeId b = node) (items (MetadataResponse_Brokers meta)) (fun b => Z.eqb_eq _ _)) as F.
  destruct (find _ _) as [nb|].
  - destruct (newbroker v _ c _ _ o h' Hv Hc H) as (tr & -> & Ho & U). exists tr. split; [reflexivity|]. split; [exact Ho|]. left. exists nb. split; [exact F|exact U].
  - injection H as <- <-. exists []. rewrite app_nil_r. split; [reflexivity|]. split; [exact I|]. right. auto.
Qed.
Lemma string_eqb_eq a b : string_eqb a b = true <-> a = b.
Proof. unfold string_eqb. destruct (list_eq_dec Z.eq_dec a b); split; congruence. Qed.

Lemma controller_spec v cl c h o h' : env_ok v -> buildConfig (c_opts cl) = Some c -> c_bootstrap cl <> [] -> DialController cl v h = (o, h') ->
  exists tr1 tr2 o1, h' = h ++ tr1 ++ tr2 /\ honest v h (tr1 ++ tr2) /\ contacts c h (c_bootstrap cl) (about_topics []) tr1 o1 /\
    match o1 with
    | Done meta => node_dialed c meta (MetadataResponse_ControllerId meta) (h ++ tr1) tr2 o
    | _ => gives_up o1 tr2 o
    end.
Proof.
  intros Hv Hc Hn H. unfold DialController, bind in H. destruct (Metadata cl [] v h) as [o1 h1] eqn:B.
  destruct (metadata_spec v cl c [] h o1 h1 Hv Hc Hn B) as (tr & -> & Ho & S). destruct o1 as [meta|f|].
  - destruct (dialNode_spec v cl c meta _ _ o h' Hv Hc H) as (tr2 & -> & Ho2 & U). exists tr, tr2, (Done meta). rewrite app_assoc. split; [reflexivity|].
    split; [apply honest_app; assumption|]. split; [exact S|exact U].
  - injection H as <- <-. exists tr, [], (Failed f). rewrite app_nil_r. repeat split; assumption.
  - injection H as <- <-. exists tr, [], Stuck. rewrite app_nil_r. repeat split; assumption.
Qed.

Lemma leader_spec v cl c topic partition h o h' : env_ok v -> buildConfig (c_opts cl) = Some c -> c_bootstrap cl <> [] -> DialLeader cl topic partition v h = (o, h') ->
  exists tr1 tr2 o1, h' = h ++ tr1 ++ tr2 /\ honest v h (tr1 ++ tr2) /\ contacts c h (c_bootstrap cl) (about_topics [topic]) tr1 o1 /\
    match o1 with
    | Done meta => leader_dialed c meta topic partition (h ++ tr1) tr2 o
    | _ => gives_up o1 tr2 o
    end.
Proof.
  intros Hv Hc Hn H. unfold DialLeader, bind in H. destruct (Metadata cl [topic] v h) as [o1 h1] eqn:B.
  destruct (metadata_spec v cl c [topic] h o1 h1 Hv Hc Hn B) as (tr & -> & Ho & S). destruct o1 as [meta|f|].
  - unfold lift, findTopic in H.
    pose proof (find_first (fun t => string_eqb (MetadataResponseTopic3_Name t) topic) (fun t => MetadataResponseTopic3_Name t = topic) (items (MetadataResponse_Topics meta)) (fun t => string_eqb_eq _ _)) as F.
    destruct (find _ (items (MetadataResponse_Topics meta))) as [t|].
    + unfold findPartition in H.
      pose proof (find_first (fun p => MetadataResponsePartition3_PartitionIndex p =? partition) (fun p => MetadataResponsePartition3_PartitionIndex p = partition) (items (MetadataResponseTopic3_Partitions t)) (fun p => Z.eqb_eq _ _)) as G.
      destruct (find _ (items (MetadataResponseTopic3_Partitions t))) as [p|].
      * destruct (dialNode_spec v cl c meta _ _ o h' Hv Hc H) as (tr2 & -> & Ho2 & U). exists tr, tr2, (Done meta). rewrite app_assoc. split; [reflexivity|].
        split; [apply honest_app; assumption|]. split; [exact S|]. left. exists t, p. auto.
      * injection H as <- <-. exists tr, [], (Done meta). rewrite app_nil_r. split; [reflexivity|]. split; [exact Ho|]. split; [exact S|]. right. left. exists t.
        split; [exact F|]. split; [exact G|]. split; [reflexivity|]. destruct F as (? & ? & _ & -> & _). reflexivity.
    + injection H as <- <-. exists tr, [], (Done meta). rewrite app_nil_r. split; [reflexivity|]. split; [exact Ho|]. split; [exact S|]. right. right. auto.
  - injection H as <- <-. exists tr, [], (Failed f). rewrite app_nil_r. repeat split; assumption.
  - injection H as <- <-. exists tr, [], Stuck. rewrite app_nil_r. repeat split; assumption.
Qed.

(** ** Connections left open *)
Definition is_close (e : event) : bool := match e with EClose _ => true | _ => false end.
Lemma closed_app h1 h2 n : closed (h1 ++ h2) n = closed h1 n || closed h2 n.
Proof. apply existsb_app. Qed.
Lemma not_closed tr n : existsb is_close tr = false -> closed tr n = false.
Proof.
  induction tr as [|e tr IH]; cbn [existsb closed]; [reflexivity|]. intros H. apply orb_false_iff in H. destruct H as [H1 H2]. fold (closed tr n). rewrite (IH H2).
  destruct e; cbn in *; congruence.
Qed.
Lemma close_closes v b h : exists h', Close b v h = (Done tt, h') /\ still_open h' = filter (fun n => negb (Nat.eqb n (b_conn b))) (still_open h).
Proof.
  exists (h ++ [EClose (b_conn b)]). split; [reflexivity|]. unfold still_open. rewrite opened_app. cbn [opened filter length]. rewrite Nat.add_0_r.
  generalize (seq 0 (opened h)) as ns. induction ns as [|n ns IH]; [reflexivity|]. cbn [filter]. rewrite closed_app, IH. cbn [closed existsb]. rewrite orb_false_r.
  destruct (closed h n); cbn [negb orb]; [reflexivity|]. cbn [filter]. destruct (Nat.eqb n (b_conn b)); reflexivity.
Qed.
Lemma filter_all {A} f (l : list A) : (forall x, In x l -> f x = true) -> filter f l = l.
Proof. induction l as [|y l IH]; intros H; cbn [filter]; [reflexivity|]. rewrite (H y (or_introl eq_refl)), IH; [reflexivity|]. intros x Hx. apply H. right. exact Hx. Qed.
Lemma still_open_app h tr : history_ok h -> existsb is_close tr = false -> still_open (h ++ tr) = still_open h ++ seq (opened h) (opened tr).
Proof.
  intros Hh Hc. unfold still_open. rewrite opened_app, seq_app, filter_app. f_equal.
  - apply filter_ext. intros n. rewrite closed_app, (not_closed tr n Hc), orb_false_r. reflexivity.
  - apply filter_all. intros n Hn. apply in_seq in Hn. rewrite closed_app, (not_closed tr n Hc), orb_false_r. destruct (closed h n) eqn:E; [|reflexivity].
    apply Hh in E. lia.
Qed.
Lemma history_ok_app h tr : history_ok h -> existsb is_close tr = false -> history_ok (h ++ tr).
Proof. intros Hh Hc n. rewrite closed_app, (not_closed tr n Hc), orb_false_r, opened_app. intros H. apply Hh in H. lia. Qed.

Lemma no_close_app a b : existsb is_close a = false -> existsb is_close b = false -> existsb is_close (a ++ b) = false.
Proof. intros Ha Hb. rewrite existsb_app, Ha, Hb. reflexivity. Qed.
Lemma unusable_no_close c addr n tr f : unusable c addr n tr f -> existsb is_close tr = false.
Proof. intros [(x & -> & _)|[(x & -> & _)|(r & -> & _)]]; reflexivity. Qed.
Lemma usable_no_close c addr n tr b : usable c addr n tr b -> existsb is_close tr = false.
Proof. intros (r & av & -> & _). reflexivity. Qed.
Lemma hangs_no_close c addr n tr : hangs c addr n tr -> existsb is_close tr = false.
Proof. intros [->|(r & -> & _)]; reflexivity. Qed.
Lemma none_usable_no_close c h addrs tr err : none_usable c h addrs tr err -> existsb is_close tr = false.
Proof. induction 1; [reflexivity|]. apply no_close_app; [eapply unusable_no_close; eassumption|assumption]. Qed.
Lemma connects_no_close c h addr tr o : connects c h addr tr o -> existsb is_close tr = false.
Proof. destruct o; cbn [connects]; intros H; eauto using usable_no_close, unusable_no_close, hangs_no_close. Qed.
Lemma contacts_no_close {A} c h addrs q tr (o : outcome A) : (forall b r, is_close (q b r) = false) -> contacts c h addrs q tr o -> existsb is_close tr = false.
Proof.
  intros Hq [(f & H & _)|(pre & addr & post & t1 & err & t2 & _ & H1 & -> & [[H2 _]|(b & t3 & r & H2 & -> & _)])].
  - eapply none_usable_no_close; eassumption.
  - apply no_close_app; [eapply none_usable_no_close; eassumption|eapply hangs_no_close; eassumption].
  - apply no_close_app; [eapply none_usable_no_close; eassumption|]. apply no_close_app; [eapply usable_no_close; eassumption|]. cbn. rewrite Hq. reflexivity.
Qed.
Lemma usable_opened c addr n tr b : usable c addr n tr b -> opened tr = 1%nat.
Proof. intros (r & av & -> & _). reflexivity. Qed.
Lemma contacts_opened {A} c h addrs q tr (a : A) : contacts c h addrs q tr (Done a) -> (1 <= opened tr)%nat.
Proof.
  intros [(f & _ & H)|(pre & addr & post & t1 & err & t2 & _ & H1 & -> & [[_ H2]|(b & t3 & r & H2 & -> & _)])]; [discriminate|discriminate|].
  rewrite !opened_app, (usable_opened _ _ _ _ _ H2). lia.
Qed.
Lemma node_dialed_no_close c meta node h tr o : node_dialed c meta node h tr o -> existsb is_close tr = false.
Proof. intros [(nb & _ & H)|(_ & -> & _)]; [eapply connects_no_close; eassumption|reflexivity]. Qed.
Lemma leader_dialed_no_close c meta t p h tr o : leader_dialed c meta t p h tr o -> existsb is_close tr = false.
Proof. intros [(t' & p' & _ & _ & H)|[(t' & _ & _ & -> & _)|(_ & -> & _)]]; [eapply node_dialed_no_close; eassumption|reflexivity|reflexivity]. Qed.
Lemma node_dialed_done c meta node h tr b : node_dialed c meta node h tr (Done b) -> opened tr = 1%nat /\ b_conn b = opened h.
Proof. intros [(nb & _ & H)|(_ & _ & H)]; [|discriminate]. cbn [connects] in H. split; [eapply usable_opened; eassumption|]. destruct H as (r & av & _ & _ & ->). reflexivity. Qed.
Lemma leader_dialed_done c meta t p h tr b : leader_dialed c meta t p h tr (Done b) -> opened tr = 1%nat /\ b_conn b = opened h.
Proof. intros [(t' & p' & _ & _ & H)|[(t' & _ & _ & _ & H)|(_ & _ & H)]]; [eapply node_dialed_done; eassumption|discriminate|discriminate]. Qed.

(** ** Decimal numerals *)
Lemma digits_value_app a : forall acc b, digits_value acc (a ++ b) = match digits_value acc a with Some x => digits_value x b | None => None end.
Proof. induction a as [|c a IH]; intros acc b; cbn [app digits_value]; [reflexivity|]. destruct (_ && _); [apply IH|reflexivity]. Qed.
Lemma digits_S f z : digits (S f) z = (if z <? 10 then [] else digits f (z / 10)) ++ [48 + z mod 10].
Proof. reflexivity. Qed.
Lemma digit_range z : 48 <= 48 + z mod 10 <= 57.
Proof. pose proof (Z.mod_pos_bound z 10). lia. Qed.
Lemma digits_spec f : forall z, 0 <= z < 10 ^ Z.of_nat (S f) -> digits_value 0 (digits (S f) z) = Some z.
Proof.
  induction f as [|f IH]; intros z Hz; rewrite digits_S, digits_value_app.
  - change (10 ^ Z.of_nat 1) with 10 in Hz. destruct (Z.ltb_spec z 10); [|lia]. cbn [digits_value]. pose proof (digit_range z).
    destruct (Z.leb_spec 48 (48 + z mod 10)); [|lia]. destruct (Z.leb_spec (48 + z mod 10) 57); [|lia]. cbn [andb]. rewrite Z.mod_small by lia. f_equal. lia.
  - assert (T : digits_value 0 (if z <? 10 then [] else digits (S f) (z / 10)) = Some (z / 10)).
    { destruct (Z.ltb_spec z 10); [cbn [digits_value]; rewrite Z.div_small by lia; reflexivity|]. apply IH. split; [apply Z.div_pos; lia|].
      apply Z.div_lt_upper_bound; [lia|]. replace (Z.of_nat (S (S f))) with (1 + Z.of_nat (S f)) in Hz by lia. rewrite Z.pow_add_r in Hz by lia. lia. }
    rewrite T. cbn [digits_value]. pose proof (digit_range z).
    destruct (Z.leb_spec 48 (48 + z mod 10)); [|lia]. destruct (Z.leb_spec (48 + z mod 10) 57); [|lia]. cbn [andb]. f_equal.
    pose proof (Z.div_mod z 10). lia.
Qed.
Lemma digits_range f : forall z, Forall (fun c => 48 <= c <= 57) (digits f z).
Proof.
  induction f as [|f IH]; intros z; cbn [digits]; [constructor|]. apply Forall_app. split; [destruct (z <? 10); [constructor|apply IH]|].
  constructor; [apply digit_range|constructor].
Qed.
Lemma digits_first f : forall z, 0 < z < 10 ^ Z.of_nat (S f) -> exists c rest, digits (S f) z = c :: rest /\ c <> 48.
Proof.
  induction f as [|f IH]; intros z Hz; rewrite digits_S.
  - change (10 ^ Z.of_nat 1) with 10 in Hz. destruct (Z.ltb_spec z 10); [|lia]. eexists _, _. split; [reflexivity|]. rewrite Z.mod_small; lia.
  - destruct (Z.ltb_spec z 10).
    + eexists _, _. split; [reflexivity|]. rewrite Z.mod_small; lia.
    + destruct (IH (z / 10)) as (c & rest & -> & Hc).
      * split; [apply Z.div_str_pos; lia|]. apply Z.div_lt_upper_bound; [lia|]. replace (Z.of_nat (S (S f))) with (1 + Z.of_nat (S f)) in Hz by lia. rewrite Z.pow_add_r in Hz by lia. lia.
      * eexists _, _. split; [reflexivity|exact Hc].
Qed.
Lemma digits_nonempty f z : digits (S f) z <> [].
Proof. rewrite digits_S. destruct (if z <? 10 then _ else _); discriminate. Qed.
Lemma Itoa_value z : - 10 ^ 20 < z < 10 ^ 20 -> decimal_value (Itoa z) = Some z.
Proof.
  intros Hz. unfold Itoa. destruct (Z.ltb_spec z 0).
  - unfold decimal_value. rewrite Z.eqb_refl. pose proof (digits_nonempty 19 (- z)). pose proof (digits_spec 19 (- z)) as D.
    change (Z.of_nat 20) with 20 in D. destruct (digits 20 (- z)); [congruence|]. rewrite D by lia. cbn [option_map]. f_equal. lia.
  - pose proof (digits_spec 19 z) as D. change (Z.of_nat 20) with 20 in D. specialize (D ltac:(lia)). pose proof (digits_range 20 z) as R. pose proof (digits_nonempty 19 z).
    destruct (digits 20 z) as [|c rest]; [congruence|]. inversion R; subst. unfold decimal_value. destruct (Z.eqb_spec c 45); [lia|exact D].
Qed.
Lemma Itoa_chars z : Forall (fun c => c = 45 \/ 48 <= c <= 57) (Itoa z).
Proof.
  assert (D : forall z, Forall (fun c => c = 45 \/ 48 <= c <= 57) (digits 20 z)) by (intros y; eapply Forall_impl; [|apply digits_range]; cbn; auto).
  unfold Itoa. destruct (z <? 0); [constructor; [auto|]|]; apply D.
Qed.
Lemma Itoa_canonical z : 0 < z < 10 ^ 20 -> exists c rest, Itoa z = c :: rest /\ c <> 48.
Proof. intros H. unfold Itoa. destruct (Z.ltb_spec z 0); [lia|]. apply (digits_first 19). change (Z.of_nat 20) with 20. lia. Qed.

(** ** Addresses *)
Lemma split_colon_none s : Forall (fun c => c <> 58) s -> split_colon s = None.
Proof. induction 1 as [|c s Hc Hs IH]; cbn [split_colon]; [reflexivity|]. rewrite IH. destruct (Z.eqb_spec c 58); [congruence|reflexivity]. Qed.
Lemma split_colon_app h s : Forall (fun c => c <> 58) s -> split_colon (h ++ 58 :: s) = Some (h, s).
Proof.
  intros Hs. induction h as [|c h IH]; cbn [app split_colon]; [rewrite split_colon_none by exact Hs; reflexivity|]. rewrite IH. reflexivity.
Qed.
Lemma Itoa_no_colon z : Forall (fun c => c <> 58) (Itoa z).
Proof. eapply Forall_impl; [|apply Itoa_chars]. cbn. lia. Qed.
Lemma split_address host port : split_colon (address host port) = Some (host, Itoa port).
Proof. apply split_colon_app, Itoa_no_colon. Qed.
Lemma address_inj h1 p1 h2 p2 : is_int32 p1 -> is_int32 p2 -> address h1 p1 = address h2 p2 -> h1 = h2 /\ p1 = p2.
Proof.
  intros H1 H2 E. pose proof (split_address h1 p1) as S1. rewrite E, split_address in S1. injection S1 as -> E2. split; [reflexivity|].
  unfold is_int32 in *. pose proof (Itoa_value p1 ltac:(lia)) as V1. pose proof (Itoa_value p2 ltac:(lia)) as V2. congruence.
Qed.

(** ** net.SplitHostPort *)
Lemma last_of_none x s : Forall (fun c => c <> x) s -> last_of x s = None.
Proof. induction 1 as [|c s Hc Hs IH]; cbn [last_of]; [reflexivity|]. rewrite IH. destruct (Z.eqb_spec c x); [congruence|reflexivity]. Qed.
Lemma last_of_app h s : Forall (fun c => c <> 58) s -> last_of 58 (h ++ 58 :: s) = Some (zlen h).
Proof.
  intros Hs. induction h as [|c h IH]; cbn [app last_of]; [rewrite last_of_none by exact Hs; reflexivity|]. rewrite IH. f_equal. unfold zlen. cbn [length]. lia.
Qed.
Lemma index_of_none x s : index_of x s = None <-> ~ In x s.
Proof.
  induction s as [|c s IH]; cbn [index_of In]; [tauto|]. destruct (Z.eqb_spec c x); [split; [discriminate|tauto]|].
  destruct (index_of x s); cbn [option_map]; [split; [discriminate|]|tauto]. intros H. exfalso. destruct (in_dec Z.eq_dec x s) as [N|N]; [tauto|]. apply IH in N. discriminate.
Qed.
Lemma index_of_range x s : forall i, index_of x s = Some i -> 0 <= i < zlen s.
Proof.
  induction s as [|c s IH]; intros i; cbn [index_of]; [discriminate|]. rewrite zlen_cons. pose proof (zlen_nonneg s). destruct (c =? x); [intros E; injection E as <-; lia|].
  destruct (index_of x s) as [j|]; cbn [option_map]; [|discriminate]. specialize (IH j eq_refl). intros E. assert (E2 : i = 1 + j) by congruence. lia.
Qed.
Lemma Itoa_not_in x z : x <> 45 -> ~ (48 <= x <= 57) -> ~ In x (Itoa z).
Proof. intros H1 H2 H. pose proof (proj1 (Forall_forall _ _) (Itoa_chars z) _ H). cbn in *. lia. Qed.
Lemma from_app h s : from (zlen h + 1) (h ++ 58 :: s) = s.
Proof. unfold from, zlen. replace (Z.to_nat (Z.of_nat (length h) + 1)) with (length h + 1)%nat by lia. rewrite skipn_app, skipn_all2 by lia. replace (length h + 1 - length h)%nat with 1%nat by lia. reflexivity. Qed.
Lemma upto_app h s : upto (zlen h) (h ++ s) = h.
Proof. unfold upto, zlen. rewrite Nat2Z.id, firstn_app, firstn_all2 by lia. replace (length h - length h)%nat with 0%nat by lia. rewrite firstn_O, app_nil_r. reflexivity. Qed.
Lemma SplitHostPort_plain hostport i host : last_of 58 hostport = Some i -> hd 0 hostport <> 91 -> upto i hostport = host ->
  SplitHostPort hostport = match index_of 58 host with
    | Some _ => None
    | None => match index_of 91 hostport, index_of 93 hostport with None, None => Some (host, from (i + 1) hostport) | _, _ => None end end.
Proof.
  intros Hl Hh <-. unfold SplitHostPort. rewrite Hl. destruct hostport as [|c rest]; [discriminate|]. cbn [hd] in Hh.
  assert (E : forall (X Y : option (gostring * gostring)), match c with 91 => X | _ => Y end = Y).
  { intros X Y. destruct c as [|q|q]; try reflexivity. repeat (destruct q as [q|q|]; try reflexivity). congruence. }
  rewrite E. reflexivity.
Qed.
Lemma split_host_port host port : SplitHostPort (address host port) = Some (host, Itoa port) <-> plain_host host.
Proof.
  assert (L : last_of 58 (address host port) = Some (zlen host)) by apply last_of_app, Itoa_no_colon.
  assert (F : from (zlen host + 1) (address host port) = Itoa port) by apply from_app.
  assert (U : upto (zlen host) (address host port) = host) by apply upto_app.
  assert (N91 : ~ In 91 (58 :: Itoa port)) by (intros [?|H]; [lia|revert H; apply Itoa_not_in; lia]).
  assert (N93 : ~ In 93 (58 :: Itoa port)) by (intros [?|H]; [lia|revert H; apply Itoa_not_in; lia]).
  assert (K : forall x, ~ In x (58 :: Itoa port) -> (index_of x (address host port) = None <-> ~ In x host)).
  { intros x Hx. rewrite index_of_none. unfold address. cbn [app]. rewrite in_app_iff. tauto. }
  destruct (Z.eq_dec (hd 0 host) 91) as [E|E].
  - destruct host as [|c rest]; [discriminate|]. cbn [hd] in E. subst c. split; [|intros (_ & H & _); exfalso; apply H; left; reflexivity].
    unfold SplitHostPort. rewrite L. cbn [address app]. change (91 :: rest ++ 58 :: Itoa port) with (address (91 :: rest) port).
    destruct (index_of 93 (address (91 :: rest) port)) as [e|] eqn:J; [|discriminate]. destruct (Z.eqb_spec (e + 1) (zlen (91 :: rest))) as [Q|]; [|discriminate].
    destruct (index_of 91 _); [discriminate|]. destruct (index_of 93 (from _ _)); [discriminate|]. intros H. injection H as H _. exfalso.
    apply (f_equal (@length Z)) in H. unfold from, upto in H. rewrite skipn_length, firstn_length in H. unfold zlen in Q. cbn [length] in *. lia.
  - rewrite (SplitHostPort_plain _ _ host L); [|destruct host as [|c rest]; cbn; [lia|exact E]|exact U]. rewrite F. unfold plain_host.
    rewrite <- (K 91 N91), <- (K 93 N93), <- (index_of_none 58 host).
    destruct (index_of 58 host); [split; [discriminate|intros [H _]; discriminate]|]. destruct (index_of 91 _); [split; [discriminate|intros (_ & H & _); discriminate]|].
    destruct (index_of 93 _); [split; [discriminate|intros (_ & _ & H); discriminate]|]. tauto.
Qed.

(** ** Options *)
Lemma buildConfig_snoc l o : buildConfig (l ++ [o]) = match buildConfig l, o with Some c, Some f => Some (f c) | _, _ => None end.
Proof. unfold buildConfig. rewrite fold_left_app. reflexivity. Qed.
Lemma last_dialer_snoc l s : last_dialer (l ++ [s]) = match s with Dialer p => Some p | TLS _ => last_dialer l end.
Proof. induction l as [|[p|p] l IH]; cbn [app last_dialer]; [destruct s; reflexivity| |exact IH]. rewrite IH. destruct s; reflexivity. Qed.
Lemma last_tls_snoc l s : last_tls (l ++ [s]) = match s with TLS p => Some p | Dialer _ => last_tls l end.
Proof. induction l as [|[p|p] l IH]; cbn [app last_tls]; [destruct s; reflexivity|exact IH|]. rewrite IH. destruct s; reflexivity. Qed.
Lemma options_spec l : exists c, buildConfig (map option_of l) = Some c /\ f_clientID c = "github.com/savaki/kafka"%string /\
  f_dialer c = match last_dialer l with Some (Some p) => CallersDialer p | _ => NewDialer end /\
  f_tls c = match last_tls l with Some t => t | None => None end.
Proof.
  induction l as [|s l IH] using rev_ind; [eexists; repeat split|]. destruct IH as (c & E & I1 & I2 & I3). rewrite map_app. cbn [map]. rewrite buildConfig_snoc, E, last_dialer_snoc, last_tls_snoc.
  destruct s as [[p|]|t]; cbn [option_of WithDialer WithTLS]; eexists; (split; [reflexivity|]); cbn [f_clientID f_dialer f_tls]; auto.
Qed.
Lemma nil_option l1 l2 : buildConfig (l1 ++ None :: l2) = None.
Proof.
  unfold buildConfig. rewrite fold_left_app. cbn [fold_left]. replace (match fold_left _ l1 _ with Some _ => None | None => None end) with (@None config) by (destruct (fold_left _ l1 _); reflexivity).
  induction l2; [reflexivity|exact IHl2].
Qed.

Lemma options_dial l c addr : buildConfig (map option_of l) = Some c ->
  dial c addr = let d := match last_dialer l with Some (Some p) => CallersDialer p | _ => NewDialer end in
                match last_tls l with Some (Some t) => Tls d addr t | _ => Plain d addr end.
Proof.
  intros H. destruct (options_spec l) as (c' & E & _ & I2 & I3). rewrite H in E. injection E as <-. unfold dial. rewrite I2, I3. cbn zeta.
  destruct (last_tls l) as [[t|]|]; reflexivity.
Qed.
Lemma options_independent l : last_dialer l = last_dialer (filter (fun s => match s with Dialer _ => true | TLS _ => false end) l) /\
  last_tls l = last_tls (filter (fun s => match s with TLS _ => true | Dialer _ => false end) l).
Proof. induction l as [|[p|p] l [IH1 IH2]]; cbn [filter last_dialer last_tls]; [auto| |]; rewrite <- ?IH1, <- ?IH2; auto. Qed.
Lemma nil_option_panics l1 l2 : buildConfig (l1 ++ None :: l2) = None /\ forall addr v h, NewBroker addr (l1 ++ None :: l2) v h = (Stuck, h).
Proof. split; [apply nil_option|]. intros addr v h. unfold NewBroker. rewrite nil_option. reflexivity. Qed.

Lemma Itoa_decimal z : - 2 ^ 63 <= z < 2 ^ 63 -> decimal_value (Itoa z) = Some z /\
  (z = 0 -> Itoa z = [48]) /\ (0 < z -> exists d rest, Itoa z = d :: rest /\ d <> 48) /\ (z < 0 -> Itoa z = 45 :: Itoa (- z)).
Proof.
  intros H. split; [apply Itoa_value; lia|]. split; [intros ->; reflexivity|]. split; [intros; apply Itoa_canonical; lia|]. intros Hz. unfold Itoa.
  destruct (Z.ltb_spec z 0); [|lia]. destruct (Z.ltb_spec (- z) 0); [lia|reflexivity].
Qed.
Lemma address_recover host port : is_int32 port -> exists s, split_colon (address host port) = Some (host, s) /\ decimal_value s = Some port.
Proof. intros H. exists (Itoa port). split; [apply split_address|]. unfold is_int32 in H. apply Itoa_value. lia. Qed.
Lemma split_host_colon host port : In 58 host -> hd 0 host <> 91 -> SplitHostPort (address host port) = None.
Proof.
  intros Hc Hh. rewrite (SplitHostPort_plain _ (zlen host) host); [|apply last_of_app, Itoa_no_colon| |apply upto_app].
  - destruct (index_of 58 host) eqn:E; [reflexivity|]. apply index_of_none in E. contradiction.
  - destruct host as [|c rest]; [contradiction|exact Hh].
Qed.

(** ** NewBroker, more *)
Lemma versions_code_ignored v addr opts c h resp av : env_ok v -> buildConfig opts = Some c ->
  v_dial v h (dial c addr) = None -> v_versions v (h ++ [EDial (dial c addr) None]) (opened h) = Answer resp ->
  negotiates (items (ApiVersionsResponse_ApiKeys resp)) (Some av) ->
  NewBroker addr opts v h = (Done (mkBroker av c (opened h)), h ++ [EDial (dial c addr) None; EVersions (opened h) (Answer resp)]).
Proof.
  intros Hv Hc Hd Hr (f & Hn). unfold NewBroker, bind, or_else, Connect, ask_versions. rewrite Hc, Hd. cbn zeta. rewrite Hr.
  apply negotiate_enough in Hn; [|exact (Hv _ _ _ Hr)]. unfold negotiateApiVersions. rewrite Hn. unfold ret. rewrite <- app_assoc. reflexivity.
Qed.
Lemma versions_error v addr opts c h x : buildConfig opts = Some c ->
  v_dial v h (dial c addr) = None -> v_versions v (h ++ [EDial (dial c addr) None]) (opened h) = Error x ->
  NewBroker addr opts v h = (Failed (VersionsFailed x), h ++ [EDial (dial c addr) None; EVersions (opened h) (Error x)]).
Proof.
  intros Hc Hd Hr. unfold NewBroker, bind, or_else, Connect, ask_versions. rewrite Hc, Hd. cbn zeta. rewrite Hr. unfold fail. rewrite <- app_assoc. reflexivity.
Qed.
Lemma new_broker_leaks v addr opts c h f h' : env_ok v -> buildConfig opts = Some c -> history_ok h ->
  NewBroker addr opts v h = (Failed f, h') -> (forall a x, f <> DialFailed a x) -> still_open h' = still_open h ++ [opened h].
Proof.
  intros Hv Hc Hh H Hf. destruct (newbroker v opts c addr h _ h' Hv Hc H) as (tr & -> & _ & U). rewrite still_open_app; [|exact Hh|eapply unusable_no_close; exact U].
  destruct U as [(x & _ & ->)|[(x & -> & _)|(r & -> & _)]]; [exfalso; eapply Hf; reflexivity|reflexivity|reflexivity].
Qed.
Lemma new_broker_open v addr opts c h o h' : env_ok v -> buildConfig opts = Some c -> history_ok h -> NewBroker addr opts v h = (o, h') ->
  (forall b, o = Done b -> still_open h' = still_open h ++ [b_conn b]) /\
  (forall a x, o = Failed (DialFailed a x) -> still_open h' = still_open h).
Proof.
  intros Hv Hc Hh H. destruct (newbroker v opts c addr h _ h' Hv Hc H) as (tr & -> & _ & U). split; [intros b ->|intros a x ->].
  - rewrite still_open_app; [|exact Hh|eapply usable_no_close; exact U]. destruct U as (r & av & -> & _ & ->). reflexivity.
  - rewrite still_open_app; [|exact Hh|eapply unusable_no_close; exact U]. destruct U as [(y & -> & _)|[(y & _ & E)|(r & _ & _ & E)]]; [apply app_nil_r|discriminate|discriminate].
Qed.

(** ** Servers dialed *)
Lemma unusable_dialed c addr n tr f : unusable c addr n tr f -> dialed tr = [dial c addr].
Proof. intros [(x & -> & _)|[(x & -> & _)|(r & -> & _)]]; reflexivity. Qed.
Lemma usable_dialed c addr n tr b : usable c addr n tr b -> dialed tr = [dial c addr].
Proof. intros (r & av & -> & _). reflexivity. Qed.
Lemma hangs_dialed c addr n tr : hangs c addr n tr -> dialed tr = [dial c addr].
Proof. intros [->|(r & -> & _)]; reflexivity. Qed.
Lemma connects_dialed c h addr tr o : connects c h addr tr o -> dialed tr = [dial c addr].
Proof. destruct o; cbn [connects]; eauto using usable_dialed, unusable_dialed, hangs_dialed. Qed.
Lemma none_usable_dialed c h addrs tr err : none_usable c h addrs tr err -> dialed tr = map (dial c) addrs.
Proof. induction 1; [reflexivity|]. rewrite dialed_app, (unusable_dialed _ _ _ _ _ H), IHnone_usable. reflexivity. Qed.
Lemma servers_dialed {A} c h addrs q tr (o : outcome A) : (forall b r, dialed [q b r] = []) -> contacts c h addrs q tr o ->
  exists pre post, addrs = pre ++ post /\ dialed tr = map (dial c) pre /\
    match o with Failed (DialFailed _ _ | VersionsFailed _ | NegotiationFailed) => post = [] | _ => True end.
Proof.
  intros Hq [(f & H & ->)|(pre & addr & post & t1 & err & t2 & -> & H1 & -> & H2)].
  - exists addrs, []. rewrite app_nil_r. split; [reflexivity|]. split; [eapply none_usable_dialed; eassumption|]. destruct f; auto.
  - exists (pre ++ [addr]), post. rewrite <- app_assoc. split; [reflexivity|]. rewrite dialed_app, map_app, (none_usable_dialed _ _ _ _ _ H1).
    destruct H2 as [[H2 ->]|(b & t3 & r & H2 & -> & ->)].
    + rewrite (hangs_dialed _ _ _ _ H2). auto.
    + rewrite dialed_app, (usable_dialed _ _ _ _ _ H2), Hq, app_nil_r. split; [reflexivity|]. destruct r; cbn; auto.
Qed.
Lemma first_usable {A} c h addrs q tr (a : A) : contacts c h addrs q tr (Done a) ->
  exists pre addr post tr1 err tr2 b, addrs = pre ++ addr :: post /\ none_usable c h pre tr1 err /\ usable c addr (opened (h ++ tr1)) tr2 b /\
    tr = tr1 ++ tr2 ++ [q b (Answer a)].
Proof.
  intros [(f & _ & H)|(pre & addr & post & t1 & err & t2 & E & H1 & -> & [[_ H2]|(b & t3 & r & H2 & -> & H3)])]; [discriminate|discriminate|].
  exists pre, addr, post, t1, err, t3, b. destruct r; cbn [result_of] in H3; try discriminate. injection H3 as ->. auto.
Qed.

(** ** No usable server *)
Lemma coordinator_empty v opts c g h : buildConfig opts = Some c ->
  exists o x tr, DialGroupCoordinator (mkClient [] opts) g v h = (o, h ++ EDial (dial c [58;48]) x :: tr).
Proof.
  intros Hc. unfold DialGroupCoordinator, dialCoordinator, bind, dialBootstrap. cbn [bootstrap_loop c_bootstrap c_opts ret].
  change (address _ _) with [58;48]. unfold NewBroker, bind, Connect. rewrite Hc. destruct (v_dial v h (dial c [58;48])); [eexists _, _, []; reflexivity|].
  unfold or_else, ask_versions. cbn zeta. destruct (v_versions _ _ _) as [r|x|]; [destruct (negotiateApiVersions _ _) as [[av|]|]| |];
    unfold ret, fail, stuck; rewrite <- app_assoc; eexists _, _, _; reflexivity.
Qed.
Lemma metadata_from_broker v cl c topics h meta h' : env_ok v -> buildConfig (c_opts cl) = Some c -> c_bootstrap cl <> [] ->
  Metadata cl topics v h = (Done meta, h') -> exists tr n x req, h' = h ++ tr ++ [EMetadata n x req (Answer meta)].
Proof.
  intros Hv Hc Hn H. destruct (metadata_spec v cl c topics h _ h' Hv Hc Hn H) as (tr & -> & _ & S).
  destruct (first_usable _ _ _ _ _ _ S) as (pre & addr & post & t1 & err & t2 & b & _ & _ & _ & ->). exists (t1 ++ t2). unfold about_topics. eexists _, _, _. rewrite <- app_assoc. reflexivity.
Qed.
Lemma honest_app_inv v tr1 : forall h tr2, honest v h (tr1 ++ tr2) -> honest v h tr1 /\ honest v (h ++ tr1) tr2.
Proof.
  induction tr1 as [|e tr1 IH]; intros h tr2 H; cbn [app honest] in *; [rewrite app_nil_r; auto|]. destruct H as [H1 H2]. apply IH in H2. rewrite <- app_assoc in H2. tauto.
Qed.
Lemma newbroker_unusable v opts c addr h tr f : env_ok v -> buildConfig opts = Some c -> unusable c addr (opened h) tr f -> honest v h tr ->
  NewBroker addr opts v h = (Failed f, h ++ tr).
Proof.
  intros Hv Hc U Ho. unfold NewBroker, bind, or_else, Connect, ask_versions. rewrite Hc. destruct U as [(x & -> & ->)|[(x & -> & ->)|(r & -> & (fu & N) & ->)]]; cbn [honest] in Ho.
  - destruct Ho as [<- _]. reflexivity.
  - destruct Ho as [<- [Ho _]]. cbn zeta. rewrite <- Ho. unfold fail. rewrite <- app_assoc. reflexivity.
  - destruct Ho as [<- [Ho _]]. cbn zeta. rewrite <- Ho. apply negotiate_enough in N; [|eapply Hv; symmetry; exact Ho]. unfold negotiateApiVersions. rewrite N. unfold fail. rewrite <- app_assoc. reflexivity.
Qed.
Lemma loop_none_usable {A} v opts c (cb : Broker -> M A) : env_ok v -> buildConfig opts = Some c -> forall addrs h tr err err0,
  none_usable c h addrs tr err -> honest v h tr ->
  bootstrap_loop opts addrs cb err0 v h = (match err with Some f => Failed f | None => match err0 with Some f => Failed f | None => Done None end end, h ++ tr).
Proof.
  intros Hv Hc addrs h tr err err0 H. revert err0. induction H as [h|h addr rest t1 f t2 err U H IH]; intros err0 Ho; cbn [bootstrap_loop].
  - rewrite app_nil_r. destruct err0; reflexivity.
  - apply honest_app_inv in Ho. destruct Ho as [Ho1 Ho2]. unfold or_else. rewrite (newbroker_unusable v opts c addr h t1 f Hv Hc U Ho1). rewrite (IH (Some f) Ho2), <- app_assoc. destruct err; reflexivity.
Qed.
Lemma none_usable_fails v cl c h tr f : env_ok v -> buildConfig (c_opts cl) = Some c ->
  none_usable c h (c_bootstrap cl) tr (Some f) -> honest v h tr ->
  (forall topics, Metadata cl topics v h = (Failed f, h ++ tr)) /\ DialController cl v h = (Failed f, h ++ tr) /\
  (forall g, DialGroupCoordinator cl g v h = (Failed f, h ++ tr)) /\ (forall topic p, DialLeader cl topic p v h = (Failed f, h ++ tr)).
Proof.
  intros Hv Hc H Ho.
  assert (L : forall A (cb : Broker -> M A), dialBootstrap cl cb v h = (Failed f, h ++ tr)) by (intros A cb; apply (loop_none_usable v (c_opts cl) c cb Hv Hc _ _ _ _ None H Ho)).
  assert (Me : forall topics, Metadata cl topics v h = (Failed f, h ++ tr)) by (intros; unfold Metadata, bind; rewrite L; reflexivity).
  split; [exact Me|]. split; [unfold DialController, bind; rewrite Me; reflexivity|]. split; [intros; unfold DialGroupCoordinator, dialCoordinator, bind; rewrite L; reflexivity|].
  intros. unfold DialLeader, bind. rewrite Me. reflexivity.
Qed.

(** ** Leaks *)
Lemma closes_nothing {A} (m : M A) v h o h' : history_ok h -> (exists tr, h' = h ++ tr /\ existsb is_close tr = false) -> m v h = (o, h') ->
  exists tr, h' = h ++ tr /\ still_open h' = still_open h ++ seq (opened h) (opened tr).
Proof. intros Hh (tr & -> & Hc) _. exists tr. split; [reflexivity|apply still_open_app; assumption]. Qed.
Lemma NewBroker_no_close v addr opts c h o h' : env_ok v -> buildConfig opts = Some c -> NewBroker addr opts v h = (o, h') -> exists tr, h' = h ++ tr /\ existsb is_close tr = false.
Proof. intros Hv Hc H. destruct (newbroker v opts c addr h o h' Hv Hc H) as (tr & -> & _ & U). exists tr. split; [reflexivity|]. apply (connects_no_close c h addr tr o). destruct o; exact U. Qed.
Lemma Metadata_no_close v cl c topics h o h' : env_ok v -> buildConfig (c_opts cl) = Some c -> Metadata cl topics v h = (o, h') -> exists tr, h' = h ++ tr /\ existsb is_close tr = false.
Proof.
  intros Hv Hc H. destruct (c_bootstrap cl) eqn:E.
  - unfold Metadata, bind, dialBootstrap in H. rewrite E in H. injection H as <- <-. exists []. rewrite app_nil_r. auto.
  - destruct (metadata_spec v cl c topics h o h' Hv Hc ltac:(congruence) H) as (tr & -> & _ & S). exists tr. split; [reflexivity|]. eapply contacts_no_close; [|exact S]. reflexivity.
Qed.
Lemma dialNode_no_close v cl c meta node h o h' : env_ok v -> buildConfig (c_opts cl) = Some c -> dialNode cl meta node v h = (o, h') -> exists tr, h' = h ++ tr /\ existsb is_close tr = false.
Proof. intros Hv Hc H. destruct (dialNode_spec v cl c meta node h o h' Hv Hc H) as (tr & -> & _ & S). exists tr. split; [reflexivity|eapply node_dialed_no_close; exact S]. Qed.
Lemma DialController_no_close v cl c h o h' : env_ok v -> buildConfig (c_opts cl) = Some c -> DialController cl v h = (o, h') -> exists tr, h' = h ++ tr /\ existsb is_close tr = false.
Proof.
  intros Hv Hc H. unfold DialController, bind in H. destruct (Metadata cl [] v h) as [o1 h1] eqn:E. destruct (Metadata_no_close v cl c _ _ _ _ Hv Hc E) as (t1 & -> & N1).
  destruct o1 as [meta|f|]; [|injection H as <- <-; eauto|injection H as <- <-; eauto]. destruct (dialNode_no_close v cl c _ _ _ _ _ Hv Hc H) as (t2 & -> & N2).
  exists (t1 ++ t2). rewrite app_assoc. split; [reflexivity|apply no_close_app; assumption].
Qed.
Lemma DialLeader_no_close v cl c topic p h o h' : env_ok v -> buildConfig (c_opts cl) = Some c -> DialLeader cl topic p v h = (o, h') -> exists tr, h' = h ++ tr /\ existsb is_close tr = false.
Proof.
  intros Hv Hc H. unfold DialLeader, bind, lift in H. destruct (Metadata cl [topic] v h) as [o1 h1] eqn:E. destruct (Metadata_no_close v cl c _ _ _ _ Hv Hc E) as (t1 & -> & N1).
  destruct o1 as [meta|f|]; [|injection H as <- <-; eauto|injection H as <- <-; eauto].
  destruct (findTopic meta topic) as [t|f|]; [|injection H as <- <-; eauto|injection H as <- <-; eauto].
  destruct (findPartition t p) as [q|f|]; [|injection H as <- <-; eauto|injection H as <- <-; eauto].
  destruct (dialNode_no_close v cl c _ _ _ _ _ Hv Hc H) as (t2 & -> & N2).
  exists (t1 ++ t2). rewrite app_assoc. split; [reflexivity|apply no_close_app; assumption].
Qed.
Lemma DialGroupCoordinator_no_close v cl c g h o h' : env_ok v -> buildConfig (c_opts cl) = Some c -> DialGroupCoordinator cl g v h = (o, h') -> exists tr, h' = h ++ tr /\ existsb is_close tr = false.
Proof.
  intros Hv Hc H. destruct (c_bootstrap cl) eqn:E.
  - unfold DialGroupCoordinator, dialCoordinator, bind, dialBootstrap in H. rewrite E in H. cbn [bootstrap_loop ret] in H. eapply NewBroker_no_close; eassumption.
  - destruct (find_spec v cl c g h o h' Hv Hc ltac:(congruence) H) as (t1 & t2 & o1 & -> & _ & S & R). exists (t1 ++ t2). split; [reflexivity|].
    apply no_close_app; [eapply contacts_no_close; [|exact S]; reflexivity|]. destruct o1; [eapply connects_no_close; exact R|destruct R as [-> _]; reflexivity|destruct R as [-> _]; reflexivity].
Qed.
Lemma nothing_closed v cl c h : env_ok v -> buildConfig (c_opts cl) = Some c -> history_ok h ->
  (forall addr o h', NewBroker addr (c_opts cl) v h = (o, h') -> exists tr, h' = h ++ tr /\ still_open h' = still_open h ++ seq (opened h) (opened tr)) /\
  (forall topics o h', Metadata cl topics v h = (o, h') -> exists tr, h' = h ++ tr /\ still_open h' = still_open h ++ seq (opened h) (opened tr)) /\
  (forall o h', DialController cl v h = (o, h') -> exists tr, h' = h ++ tr /\ still_open h' = still_open h ++ seq (opened h) (opened tr)) /\
  (forall g o h', DialGroupCoordinator cl g v h = (o, h') -> exists tr, h' = h ++ tr /\ still_open h' = still_open h ++ seq (opened h) (opened tr)) /\
  (forall topic p o h', DialLeader cl topic p v h = (o, h') -> exists tr, h' = h ++ tr /\ still_open h' = still_open h ++ seq (opened h) (opened tr)).
Proof.
  intros Hv Hc Hh. repeat split; intros; (eapply closes_nothing; [exact Hh| |eassumption]);
    eauto using NewBroker_no_close, Metadata_no_close, DialController_no_close, DialGroupCoordinator_no_close, DialLeader_no_close.
Qed.
Lemma still_open_range h n : In n (still_open h) -> (n < opened h)%nat.
Proof. unfold still_open. intros H. apply filter_In in H. destruct H as [H _]. apply in_seq in H. lia. Qed.
Lemma metadata_leaks v cl c topics h meta h' : env_ok v -> buildConfig (c_opts cl) = Some c -> history_ok h -> c_bootstrap cl <> [] ->
  Metadata cl topics v h = (Done meta, h') -> exists n, In n (still_open h') /\ ~ In n (still_open h).
Proof.
  intros Hv Hc Hh Hn H. destruct (metadata_spec v cl c topics h _ h' Hv Hc Hn H) as (tr & -> & _ & S). exists (opened h).
  pose proof (contacts_opened _ _ _ _ _ _ S) as L. rewrite still_open_app; [|exact Hh|eapply contacts_no_close; [|exact S]; reflexivity].
  split; [apply in_or_app; right; apply in_seq; lia|]. intros N. apply still_open_range in N. lia.
Qed.
Lemma two_opened h t1 t2 (b : Broker) : history_ok h -> existsb is_close (t1 ++ t2) = false -> (1 <= opened t1)%nat -> opened t2 = 1%nat -> b_conn b = opened (h ++ t1) ->
  exists n, In n (still_open (h ++ t1 ++ t2)) /\ ~ In n (still_open h) /\ n <> b_conn b.
Proof.
  intros Hh Hc H1 H2 Hb. exists (opened h). rewrite still_open_app by assumption. rewrite opened_app in *. split; [apply in_or_app; right; apply in_seq; lia|].
  split; [intros N; apply still_open_range in N; lia|lia].
Qed.
Lemma dial_leaks v cl c h b h' : env_ok v -> buildConfig (c_opts cl) = Some c -> history_ok h -> c_bootstrap cl <> [] ->
  (DialController cl v h = (Done b, h') \/ (exists g, DialGroupCoordinator cl g v h = (Done b, h')) \/ (exists topic p, DialLeader cl topic p v h = (Done b, h'))) ->
  exists n, In n (still_open h') /\ ~ In n (still_open h) /\ n <> b_conn b.
Proof.
  intros Hv Hc Hh Hn [H|[(g & H)|(topic & p & H)]].
  - destruct (controller_spec v cl c h _ h' Hv Hc Hn H) as (t1 & t2 & o1 & -> & _ & S & R). destruct o1 as [meta|f|]; [|destruct R as [_ R]; discriminate|destruct R as [_ R]; discriminate].
    destruct (node_dialed_done _ _ _ _ _ _ R) as [R1 R2]. apply two_opened; [exact Hh| |eapply contacts_opened; exact S|exact R1|exact R2].
    apply no_close_app; [eapply contacts_no_close; [|exact S]; reflexivity|eapply node_dialed_no_close; exact R].
  - destruct (find_spec v cl c g h _ h' Hv Hc Hn H) as (t1 & t2 & o1 & -> & _ & S & R). destruct o1 as [meta|f|]; [|destruct R as [_ R]; discriminate|destruct R as [_ R]; discriminate].
    apply two_opened; [exact Hh| |eapply contacts_opened; exact S|eapply usable_opened; exact R|destruct R as (r & av & _ & _ & ->); reflexivity].
    apply no_close_app; [eapply contacts_no_close; [|exact S]; reflexivity|eapply usable_no_close; exact R].
  - destruct (leader_spec v cl c topic p h _ h' Hv Hc Hn H) as (t1 & t2 & o1 & -> & _ & S & R). destruct o1 as [meta|f|]; [|destruct R as [_ R]; discriminate|destruct R as [_ R]; discriminate].
    destruct (leader_dialed_done _ _ _ _ _ _ _ R) as [R1 R2]. apply two_opened; [exact Hh| |eapply contacts_opened; exact S|exact R1|exact R2].
    apply no_close_app; [eapply contacts_no_close; [|exact S]; reflexivity|eapply leader_dialed_no_close; exact R].
Qed.

(** ** Which questions are asked *)
Definition asks (e : event) : bool := match e with EMetadata _ _ _ _ | EFind _ _ _ _ => true | _ => false end.
Definition no_question (tr : list event) : Prop := forall e, In e tr -> asks e = false.
Lemma no_question_app a b : no_question a -> no_question b -> no_question (a ++ b).
Proof. intros Ha Hb e H. apply in_app_or in H. destruct H; auto. Qed.
Lemma no_question_dec tr : forallb (fun e => negb (asks e)) tr = true -> no_question tr.
Proof. intros H e He. rewrite forallb_forall in H. apply H in He. apply negb_true_iff, He. Qed.
Lemma unusable_nq c addr n tr f : unusable c addr n tr f -> no_question tr.
Proof. intros [(x & -> & _)|[(x & -> & _)|(r & -> & _)]]; apply no_question_dec; reflexivity. Qed.
Lemma usable_nq c addr n tr b : usable c addr n tr b -> no_question tr.
Proof. intros (r & av & -> & _). apply no_question_dec; reflexivity. Qed.
Lemma hangs_nq c addr n tr : hangs c addr n tr -> no_question tr.
Proof. intros [->|(r & -> & _)]; apply no_question_dec; reflexivity. Qed.
Lemma none_usable_nq c h addrs tr err : none_usable c h addrs tr err -> no_question tr.
Proof. induction 1; [intros e []|]. apply no_question_app; [eapply unusable_nq; eassumption|assumption]. Qed.
Lemma connects_nq c h addr tr o : connects c h addr tr o -> no_question tr.
Proof. destruct o; cbn [connects]; eauto using usable_nq, unusable_nq, hangs_nq. Qed.
Lemma node_dialed_nq c meta node h tr o : node_dialed c meta node h tr o -> no_question tr.
Proof. intros [(nb & _ & H)|(_ & -> & _)]; [eapply connects_nq; eassumption|intros e []]. Qed.
Lemma leader_dialed_nq c meta t p h tr o : leader_dialed c meta t p h tr o -> no_question tr.
Proof. intros [(t' & p' & _ & _ & H)|[(t' & _ & _ & -> & _)|(_ & -> & _)]]; [eapply node_dialed_nq; eassumption|intros e []|intros e []]. Qed.
Lemma contacts_asked {A} c h addrs q tr (o : outcome A) e : contacts c h addrs q tr o -> In e tr -> asks e = true ->
  exists pre b r, tr = pre ++ [e] /\ q b r = e /\ o = result_of r.
Proof.
  intros [(f & H & ->)|(pre & addr & post & t1 & err & t2 & -> & H1 & -> & [[H2 ->]|(b & t3 & r & H2 & -> & ->)])] Hi Hq.
  - rewrite (none_usable_nq _ _ _ _ _ H e Hi) in Hq. discriminate.
  - rewrite (no_question_app _ _ (none_usable_nq _ _ _ _ _ H1) (hangs_nq _ _ _ _ H2) e Hi) in Hq. discriminate.
  - rewrite app_assoc in Hi. apply in_app_or in Hi. destruct Hi as [Hi|[Hi|[]]].
    + rewrite (no_question_app _ _ (none_usable_nq _ _ _ _ _ H1) (usable_nq _ _ _ _ _ H2) e Hi) in Hq. discriminate.
    + subst e. exists (t1 ++ t3), b, r. rewrite <- app_assoc. auto.
Qed.
Lemma asked_first {A} c h addrs q tr1 tr2 (o : outcome A) e : contacts c h addrs q tr1 o -> no_question tr2 -> In e (tr1 ++ tr2) -> asks e = true ->
  exists pre b r, tr1 = pre ++ [e] /\ q b r = e /\ o = result_of r.
Proof. intros H Hn Hi Hq. apply in_app_or in Hi. destruct Hi as [Hi|Hi]; [eapply contacts_asked; eassumption|]. rewrite (Hn e Hi) in Hq. discriminate. Qed.
Lemma connects_first c h addr tr o : connects c h addr tr o -> exists r tr', tr = EDial (dial c addr) r :: tr'.
Proof.
  destruct o; cbn [connects]; [intros (r & av & -> & _)|intros [(x & -> & _)|[(x & -> & _)|(r & -> & _)]]|intros [->|(r & -> & _)]]; eauto.
Qed.
Lemma error_code_ignored v cl c g h o h' resp n x req tr : env_ok v -> buildConfig (c_opts cl) = Some c -> c_bootstrap cl <> [] ->
  DialGroupCoordinator cl g v h = (o, h') -> h' = h ++ tr -> In (EFind n x req (Answer resp)) tr ->
  exists tr1 r tr2, tr = tr1 ++ EFind n x req (Answer resp) :: EDial (dial c (address (FindCoordinatorResponse_Host resp) (FindCoordinatorResponse_Port resp))) r :: tr2.
Proof.
  intros Hv Hc Hn H E Hi. destruct (find_spec v cl c g h o h' Hv Hc Hn H) as (t1 & t2 & o1 & E' & _ & S & R). rewrite E in E'. apply app_inv_head in E'. subst tr.
  assert (N : no_question t2) by (destruct o1; [eapply connects_nq; exact R|destruct R as [-> _]; intros e []|destruct R as [-> _]; intros e []]).
  destruct (asked_first _ _ _ _ _ _ _ _ S N Hi eq_refl) as (pre & b & r & -> & Q & ->). unfold about_group in Q. injection Q as _ _ _ ->. cbn [result_of] in R.
  destruct (connects_first _ _ _ _ _ R) as (r & tr' & ->). exists pre, r, tr'. rewrite <- app_assoc. reflexivity.
Qed.
Lemma first_such_unique {A} (P : A -> Prop) l x y : first_such P l x -> first_such P l y -> x = y.
Proof.
  intros (a1 & a2 & -> & Hx & Ha) (b1 & b2 & E & Hy & Hb). revert b1 E Hb. induction a1 as [|a a1 IH]; intros b1 E Hb; destruct b1 as [|b b1]; cbn [app] in E.
  - congruence.
  - injection E as <- _. inversion Hb; contradiction.
  - injection E as -> _. inversion Ha; contradiction.
  - injection E as -> E. inversion Ha; subst. inversion Hb; subst. eapply IH; eassumption.
Qed.
Lemma first_such_none {A} (P : A -> Prop) l x : first_such P l x -> Forall (fun y => ~ P y) l -> False.
Proof. intros (a1 & a2 & -> & Hx & _) H. apply Forall_app in H. destruct H as [_ H]. inversion H; contradiction. Qed.
Lemma metadata_codes_ignored v cl c topic partition h o h' tr n x req meta t p nb : env_ok v -> buildConfig (c_opts cl) = Some c -> c_bootstrap cl <> [] ->
  DialLeader cl topic partition v h = (o, h') -> h' = h ++ tr -> In (EMetadata n x req (Answer meta)) tr ->
  first_such (fun t => MetadataResponseTopic3_Name t = topic) (items (MetadataResponse_Topics meta)) t ->
  first_such (fun p => MetadataResponsePartition3_PartitionIndex p = partition) (items (MetadataResponseTopic3_Partitions t)) p ->
  first_such (fun nb => MetadataResponseBroker3_NodeId nb = MetadataResponsePartition3_LeaderId p) (items (MetadataResponse_Brokers meta)) nb ->
  exists tr1 r tr2, tr = tr1 ++ EMetadata n x req (Answer meta) :: EDial (dial c (address (MetadataResponseBroker3_Host nb) (MetadataResponseBroker3_Port nb))) r :: tr2.
Proof.
  intros Hv Hc Hn H E Hi Ft Fp Fn. destruct (leader_spec v cl c topic partition h o h' Hv Hc Hn H) as (t1 & t2 & o1 & E' & _ & S & R). rewrite E in E'. apply app_inv_head in E'. subst tr.
  assert (N : no_question t2) by (destruct o1; [eapply leader_dialed_nq; exact R|destruct R as [-> _]; intros e []|destruct R as [-> _]; intros e []]).
  destruct (asked_first _ _ _ _ _ _ _ _ S N Hi eq_refl) as (pre & b & r & -> & Q & ->). unfold about_topics in Q. injection Q as _ _ _ ->. cbn [result_of] in R.
  destruct R as [(t' & p' & Gt & Gp & R)|[(t' & Gt & Gp & _)|(Gt & _)]].
  - pose proof (first_such_unique _ _ _ _ Ft Gt). subst t'. pose proof (first_such_unique _ _ _ _ Fp Gp). subst p'.
    destruct R as [(nb' & Gn & R)|(Gn & _)]; [|destruct (first_such_none _ _ _ Fn Gn)]. pose proof (first_such_unique _ _ _ _ Fn Gn). subst nb'.
    destruct (connects_first _ _ _ _ _ R) as (r & tr' & ->). exists pre, r, tr'. rewrite <- app_assoc. reflexivity.
  - pose proof (first_such_unique _ _ _ _ Ft Gt). subst t'. destruct (first_such_none _ _ _ Fp Gp).
  - destruct (first_such_none _ _ _ Ft Gt).
Qed.
Lemma request_errors v cl c h : env_ok v -> buildConfig (c_opts cl) = Some c -> c_bootstrap cl <> [] ->
  (forall g o h' n x req e tr, DialGroupCoordinator cl g v h = (o, h') -> h' = h ++ tr -> In (EFind n x req (Error e)) tr ->
     o = Failed (RequestFailed e) /\ exists tr1, tr = tr1 ++ [EFind n x req (Error e)]) /\
  (forall topic p o h' n x req e tr, DialLeader cl topic p v h = (o, h') -> h' = h ++ tr -> In (EMetadata n x req (Error e)) tr ->
     o = Failed (RequestFailed e) /\ exists tr1, tr = tr1 ++ [EMetadata n x req (Error e)]) /\
  (forall o h' n x req e tr, DialController cl v h = (o, h') -> h' = h ++ tr -> In (EMetadata n x req (Error e)) tr ->
     o = Failed (RequestFailed e) /\ exists tr1, tr = tr1 ++ [EMetadata n x req (Error e)]).
Proof.
  intros Hv Hc Hn. split; [|split].
  - intros g o h' n x req e tr H E Hi. destruct (find_spec v cl c g h o h' Hv Hc Hn H) as (t1 & t2 & o1 & E' & _ & S & R). rewrite E in E'. apply app_inv_head in E'. subst tr.
    assert (N : no_question t2) by (destruct o1; [eapply connects_nq; exact R|destruct R as [-> _]; intros e' []|destruct R as [-> _]; intros e' []]).
    destruct (asked_first _ _ _ _ _ _ _ _ S N Hi eq_refl) as (pre & b & r & -> & Q & ->). unfold about_group in Q. injection Q as _ _ _ ->. cbn [result_of] in R.
    destruct R as [-> R]. rewrite app_nil_r. split; [exact R|eauto].
  - intros topic p o h' n x req e tr H E Hi. destruct (leader_spec v cl c topic p h o h' Hv Hc Hn H) as (t1 & t2 & o1 & E' & _ & S & R). rewrite E in E'. apply app_inv_head in E'. subst tr.
    assert (N : no_question t2) by (destruct o1; [eapply leader_dialed_nq; exact R|destruct R as [-> _]; intros e' []|destruct R as [-> _]; intros e' []]).
    destruct (asked_first _ _ _ _ _ _ _ _ S N Hi eq_refl) as (pre & b & r & -> & Q & ->). unfold about_topics in Q. injection Q as _ _ _ ->. cbn [result_of] in R.
    destruct R as [-> R]. rewrite app_nil_r. split; [exact R|eauto].
  - intros o h' n x req e tr H E Hi. destruct (controller_spec v cl c h o h' Hv Hc Hn H) as (t1 & t2 & o1 & E' & _ & S & R). rewrite E in E'. apply app_inv_head in E'. subst tr.
    assert (N : no_question t2) by (destruct o1; [eapply node_dialed_nq; exact R|destruct R as [-> _]; intros e' []|destruct R as [-> _]; intros e' []]).
    destruct (asked_first _ _ _ _ _ _ _ _ S N Hi eq_refl) as (pre & b & r & -> & Q & ->). unfold about_topics in Q. injection Q as _ _ _ ->. cbn [result_of] in R.
    destruct R as [-> R]. rewrite app_nil_r. split; [exact R|eauto].
Qed.
Lemma leader_address v cl c topic partition h b h' : env_ok v -> buildConfig (c_opts cl) = Some c -> c_bootstrap cl <> [] ->
  DialLeader cl topic partition v h = (Done b, h') ->
  exists tr n x req meta t p nb tr2, h' = h ++ tr ++ [EMetadata n x req (Answer meta)] ++ tr2 /\
    first_such (fun t => MetadataResponseTopic3_Name t = topic) (items (MetadataResponse_Topics meta)) t /\
    first_such (fun p => MetadataResponsePartition3_PartitionIndex p = partition) (items (MetadataResponseTopic3_Partitions t)) p /\
    first_such (fun nb => MetadataResponseBroker3_NodeId nb = MetadataResponsePartition3_LeaderId p) (items (MetadataResponse_Brokers meta)) nb /\
    dialed tr2 = [dial c (MetadataResponseBroker3_Host nb ++ [58] ++ Itoa (MetadataResponseBroker3_Port nb))].
Proof.
  intros Hv Hc Hn H. destruct (leader_spec v cl c topic partition h _ h' Hv Hc Hn H) as (t1 & t2 & o1 & -> & _ & S & R).
  destruct o1 as [meta|f|]; [|destruct R as [_ R]; discriminate|destruct R as [_ R]; discriminate].
  destruct (first_usable _ _ _ _ _ _ S) as (pre & addr & post & u1 & err & u2 & b' & _ & _ & _ & ->).
  destruct R as [(t & p & Gt & Gp & [(nb & Gn & R)|(_ & _ & R)])|[(t & _ & _ & _ & R)|(_ & _ & R)]]; try discriminate.
  unfold about_topics. exists (u1 ++ u2). eexists _, _, _, meta, t, p, nb, t2. split; [rewrite <- !app_assoc; reflexivity|].
  split; [exact Gt|]. split; [exact Gp|]. split; [exact Gn|]. exact (connects_dialed _ _ _ _ _ R).
Qed.
