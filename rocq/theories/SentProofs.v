(** * The Dial methods and what was sent *)
From Verif Require Import GoBase GoLemmas SchemaSpec Msg02 Msg03 Msg04 BrokerTable Broker BrokerSpec BrokerProofs Options Client ClientSpec ClientProofs SentSpec.
Local Open Scope Z_scope.
Local Open Scope list_scope.
Ltac Zify.zify_post_hook ::= idtac.

Definition same_node (a b : MetadataResponseBroker3) : Prop :=
  MetadataResponseBroker3_NodeId a = MetadataResponseBroker3_NodeId b /\ MetadataResponseBroker3_Host a = MetadataResponseBroker3_Host b /\
  MetadataResponseBroker3_Port a = MetadataResponseBroker3_Port b.
Definition same_partition (a b : MetadataResponsePartition3) : Prop :=
  MetadataResponsePartition3_PartitionIndex a = MetadataResponsePartition3_PartitionIndex b /\ MetadataResponsePartition3_LeaderId a = MetadataResponsePartition3_LeaderId b.
Definition same_topic (a b : MetadataResponseTopic3) : Prop :=
  MetadataResponseTopic3_Name a = MetadataResponseTopic3_Name b /\
  Forall2 same_partition (items (MetadataResponseTopic3_Partitions a)) (items (MetadataResponseTopic3_Partitions b)).

(** An array of structures that arrived, element by element. *)
Lemma arrived {A B} (to : A -> B) (f : B -> B) (R : A -> A -> Prop) : (forall a b, to a = f (to b) -> R a b) ->
  forall x y, option_map (map to) x = Some (map f (items (option_map (map to) y))) -> Forall2 R (items x) (items y).
Proof.
  intros H [x|] y E; [|discriminate]. cbn [option_map items] in E. injection E as E.
  assert (G : items (option_map (map to) y) = map to (items y)) by (destruct y; reflexivity). rewrite G in E. clear G.
  cbn [items]. revert E. generalize (items y) as l. induction x as [|a x IH]; intros [|b l] E; try discriminate; constructor.
  - apply H. cbn in E. congruence.
  - apply IH. cbn in E. congruence.
Qed.
Lemma broker_as x a b : MetadataResponseBroker3_to a = receive MetadataResponseBroker3_schema x (zeros MetadataResponseBroker3_schema) (MetadataResponseBroker3_to b) -> same_node a b.
Proof.
  unfold MetadataResponseBroker3_to, MetadataResponseBroker3_schema. cbn [receive zeros zero active seen fst snd]. intros E.
  exact (conj (f_equal fst E) (conj (f_equal (fun p => fst (snd p)) E) (f_equal (fun p => fst (snd (snd p))) E))).
Qed.
Lemma partition_as x a b : MetadataResponsePartition3_to a = receive MetadataResponsePartition3_schema x (zeros MetadataResponsePartition3_schema) (MetadataResponsePartition3_to b) -> same_partition a b.
Proof.
  unfold MetadataResponsePartition3_to, MetadataResponsePartition3_schema. cbn [receive zeros zero active seen fst snd]. intros E.
  exact (conj (f_equal (fun p => fst (snd p)) E) (f_equal (fun p => fst (snd (snd p))) E)).
Qed.
Lemma topic_as x a b : MetadataResponseTopic3_to a = receive MetadataResponseTopic3_schema x (zeros MetadataResponseTopic3_schema) (MetadataResponseTopic3_to b) -> same_topic a b.
Proof.
  unfold MetadataResponseTopic3_to. cbn [receive MetadataResponseTopic3_schema zeros zero active seen fst snd]. intros E.
  pose proof (f_equal (fun p => fst (snd p)) E) as E1. pose proof (f_equal (fun p => fst (snd (snd (snd p)))) E) as E2. cbn [fst snd] in E1, E2. split; [exact E1|].
  eapply arrived; [|exact E2]. intros. eapply partition_as. eassumption.
Qed.
Lemma metadata_parts x sent meta : metadata_as x sent meta ->
  Forall2 same_node (items (MetadataResponse_Brokers meta)) (items (MetadataResponse_Brokers sent)) /\
  Forall2 same_topic (items (MetadataResponse_Topics meta)) (items (MetadataResponse_Topics sent)) /\
  MetadataResponse_ControllerId meta = if 1 <=? x then MetadataResponse_ControllerId sent else 0.
Proof.
  unfold metadata_as, MetadataResponse_to. cbn [receive MetadataResponse_schema zeros zero active seen fst snd]. intros E.
  pose proof (f_equal (fun p => fst (snd p)) E) as E1. pose proof (f_equal (fun p => fst (snd (snd (snd p)))) E) as E2. pose proof (f_equal (fun p => fst (snd (snd (snd (snd p))))) E) as E3. cbn [fst snd] in E1, E2, E3.
  split; [eapply arrived; [|exact E1]; intros; eapply broker_as; eassumption|]. split; [eapply arrived; [|exact E3]; intros; eapply topic_as; eassumption|exact E2].
Qed.
Lemma first_such_same {A} (R : A -> A -> Prop) (P : A -> Prop) l l' x : first_such P l x -> Forall2 R l l' -> (forall a b, R a b -> P a <-> P b) ->
  exists y, R x y /\ first_such P l' y.
Proof.
  intros (l1 & l2 & -> & Px & N) F H. apply Forall2_app_inv_l in F. destruct F as (m1 & m2 & F1 & F2 & ->). inversion F2 as [|? y ? m2' Rx F2']; subst.
  exists y. split; [exact Rx|]. exists m1, m2'. split; [reflexivity|]. split; [apply (H _ _ Rx), Px|].
  clear - F1 N H. induction F1 as [|a b l m Rab F IH]; [constructor|]. inversion N; subst. constructor; [rewrite <- (H _ _ Rab); assumption|apply IH; assumption].
Qed.

Lemma controller_sent v cl c h b h' : env_ok v -> buildConfig (c_opts cl) = Some c -> c_bootstrap cl <> [] ->
  DialController cl v h = (Done b, h') ->
  exists tr n x req meta tr2, h' = h ++ tr ++ [EMetadata n x req (Answer meta)] ++ tr2 /\
    forall sent, metadata_as x sent meta ->
    exists nb, first_such (fun nb => MetadataResponseBroker3_NodeId nb = if 1 <=? x then MetadataResponse_ControllerId sent else 0) (items (MetadataResponse_Brokers sent)) nb /\
      dialed tr2 = [dial c (MetadataResponseBroker3_Host nb ++ [58] ++ Itoa (MetadataResponseBroker3_Port nb))].
Proof.
  intros Hv Hc Hn H. destruct (controller_spec v cl c h _ h' Hv Hc Hn H) as (t1 & t2 & o1 & -> & _ & S & R).
  destruct o1 as [meta|f|]; [|destruct R as [_ R]; discriminate|destruct R as [_ R]; discriminate].
  destruct (first_usable _ _ _ _ _ _ S) as (pre & addr & post & u1 & err & u2 & b' & _ & _ & _ & ->).
  destruct R as [(nb & Gn & R)|(_ & _ & R)]; [|discriminate].
  unfold about_topics. exists (u1 ++ u2). eexists _, _, _, meta, t2. split; [rewrite <- !app_assoc; reflexivity|]. intros sent Hs.
  destruct (metadata_parts _ _ _ Hs) as (Fb & _ & Ec). rewrite Ec in Gn.
  edestruct (first_such_same same_node _ _ _ _ Gn Fb) as (y & (E1 & E2 & E3) & Gy); [intros p q (E & _); rewrite E; reflexivity|].
  exists y. split; [exact Gy|]. rewrite <- E2, <- E3. exact (connects_dialed _ _ _ _ _ R).
Qed.
Lemma leader_sent v cl c topic partition h b h' : env_ok v -> buildConfig (c_opts cl) = Some c -> c_bootstrap cl <> [] ->
  DialLeader cl topic partition v h = (Done b, h') ->
  exists tr n x req meta tr2, h' = h ++ tr ++ [EMetadata n x req (Answer meta)] ++ tr2 /\
    forall sent, metadata_as x sent meta ->
    exists t p nb, first_such (fun t => MetadataResponseTopic3_Name t = topic) (items (MetadataResponse_Topics sent)) t /\
      first_such (fun p => MetadataResponsePartition3_PartitionIndex p = partition) (items (MetadataResponseTopic3_Partitions t)) p /\
      first_such (fun nb => MetadataResponseBroker3_NodeId nb = MetadataResponsePartition3_LeaderId p) (items (MetadataResponse_Brokers sent)) nb /\
      dialed tr2 = [dial c (MetadataResponseBroker3_Host nb ++ [58] ++ Itoa (MetadataResponseBroker3_Port nb))].
Proof.
  intros Hv Hc Hn H. destruct (leader_address v cl c topic partition h b h' Hv Hc Hn H) as (tr & n & x & req & meta & t & p & nb & tr2 & -> & Gt & Gp & Gn & D).
  exists tr, n, x, req, meta, tr2. split; [reflexivity|]. intros sent Hs. destruct (metadata_parts _ _ _ Hs) as (Fb & Ft & _).
  edestruct (first_such_same same_topic _ _ _ _ Gt Ft) as (t' & (_ & Fp) & Gt'); [intros a q (E & _); rewrite E; reflexivity|].
  edestruct (first_such_same same_partition _ _ _ _ Gp Fp) as (p' & (_ & El) & Gp'); [intros a q (E & _); rewrite E; reflexivity|].
  edestruct (first_such_same same_node _ _ _ _ Gn Fb) as (nb' & (E1 & E2 & E3) & Gn'); [intros a q (E & _); rewrite E; reflexivity|].
  rewrite El in Gn'. exists t', p', nb'. split; [exact Gt'|]. split; [exact Gp'|]. split; [exact Gn'|]. rewrite <- E2, <- E3. exact D.
Qed.
Lemma coordinator_sent v cl c g h b h' : env_ok v -> buildConfig (c_opts cl) = Some c -> c_bootstrap cl <> [] ->
  DialGroupCoordinator cl g v h = (Done b, h') ->
  exists tr n x req resp tr2, h' = h ++ tr ++ [EFind n x req (Answer resp)] ++ tr2 /\
    forall sent, coordinator_as x sent resp ->
      dialed tr2 = [dial c (FindCoordinatorResponse_Host sent ++ [58] ++ Itoa (FindCoordinatorResponse_Port sent))].
Proof.
  intros Hv Hc Hn H. destruct (find_spec v cl c g h _ h' Hv Hc Hn H) as (t1 & t2 & o1 & -> & _ & S & R).
  destruct o1 as [resp|f|]; [|destruct R as [_ R]; discriminate|destruct R as [_ R]; discriminate].
  destruct (first_usable _ _ _ _ _ _ S) as (pre & addr & post & u1 & err & u2 & b' & _ & _ & _ & ->).
  unfold about_group. exists (u1 ++ u2). eexists _, _, _, resp, t2. split; [rewrite <- !app_assoc; reflexivity|]. intros sent Hs.
  unfold coordinator_as, FindCoordinatorResponse_to in Hs. cbn [receive FindCoordinatorResponse_schema zeros zero active seen fst snd] in Hs.
  pose proof (f_equal (fun p => fst (snd (snd (snd (snd p))))) Hs) as E1. pose proof (f_equal (fun p => fst (snd (snd (snd (snd (snd p)))))) Hs) as E2. cbn [fst snd] in E1, E2. rewrite <- E1, <- E2. exact (connects_dialed _ _ _ _ _ R).
Qed.
