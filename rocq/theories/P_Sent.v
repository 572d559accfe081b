(** * Property of the Dial methods and what brokers send: C70 *)
From Verif Require Import GoBase GoLemmas SchemaSpec Msg02 Msg03 Msg04 BrokerTable Broker BrokerSpec BrokerProofs Options Client ClientSpec ClientProofs P_Client SentSpec SentProofs.
Local Open Scope Z_scope.
Local Open Scope list_scope.
Ltac Zify.zify_post_hook ::= idtac.

(** [sent] is the response as the broker sent it, [meta] or [resp] what the client was
    given ([metadata_as], [coordinator_as], SentSpec.v), and [dialed tr2] the addresses
    dialed after it.

    ** C70.  Full statement: the node that a Dial method connects to is the one the
    broker's response names: the leader of the partition, the coordinator, the
    controller.  For leaders and coordinators it is proved. *)
Theorem C70_leader : forall v cl c topic partition h b h', env_ok v -> buildConfig (c_opts cl) = Some c -> c_bootstrap cl <> [] ->
  DialLeader cl topic partition v h = (Done b, h') ->
  exists tr n x req meta tr2, h' = h ++ tr ++ [EMetadata n x req (Answer meta)] ++ tr2 /\
    forall sent, metadata_as x sent meta ->
    exists t p nb, first_such (fun t => MetadataResponseTopic3_Name t = topic) (items (MetadataResponse_Topics sent)) t /\
      first_such (fun p => MetadataResponsePartition3_PartitionIndex p = partition) (items (MetadataResponseTopic3_Partitions t)) p /\
      first_such (fun nb => MetadataResponseBroker3_NodeId nb = MetadataResponsePartition3_LeaderId p) (items (MetadataResponse_Brokers sent)) nb /\
      dialed tr2 = [dial c (MetadataResponseBroker3_Host nb ++ [58] ++ Itoa (MetadataResponseBroker3_Port nb))].
Proof. exact leader_sent. Qed.
Print Assumptions C70_leader.
Theorem C70_coordinator : forall v cl c g h b h', env_ok v -> buildConfig (c_opts cl) = Some c -> c_bootstrap cl <> [] ->
  DialGroupCoordinator cl g v h = (Done b, h') ->
  exists tr n x req resp tr2, h' = h ++ tr ++ [EFind n x req (Answer resp)] ++ tr2 /\
    forall sent, coordinator_as x sent resp ->
      dialed tr2 = [dial c (FindCoordinatorResponse_Host sent ++ [58] ++ Itoa (FindCoordinatorResponse_Port sent))].
Proof. exact coordinator_sent. Qed.
Print Assumptions C70_coordinator.
(** For the controller it holds from version 1 of Metadata on; missing is version 0, ... *)
Theorem C70_controller_partial : forall v cl c h b h', env_ok v -> buildConfig (c_opts cl) = Some c -> c_bootstrap cl <> [] ->
  DialController cl v h = (Done b, h') ->
  exists tr n x req meta tr2, h' = h ++ tr ++ [EMetadata n x req (Answer meta)] ++ tr2 /\
    (1 <= x -> forall sent, metadata_as x sent meta ->
     exists nb, first_such (fun nb => MetadataResponseBroker3_NodeId nb = MetadataResponse_ControllerId sent) (items (MetadataResponse_Brokers sent)) nb /\
      dialed tr2 = [dial c (MetadataResponseBroker3_Host nb ++ [58] ++ Itoa (MetadataResponseBroker3_Port nb))]).
Proof.
  intros v cl c h b h' Hv Hc Hn H. destruct (controller_sent v cl c h b h' Hv Hc Hn H) as (tr & n & x & req & meta & tr2 & -> & S).
  exists tr, n, x, req, meta, tr2. split; [reflexivity|]. intros Hx sent Hs. specialize (S sent Hs). replace (1 <=? x) with true in S by lia. exact S.
Qed.
Print Assumptions C70_controller_partial.
(** ... which does not carry the controller: then the node with id 0 is connected to,
    whichever is the controller. *)
Theorem C70_version0_refuted : forall v cl c h b h', env_ok v -> buildConfig (c_opts cl) = Some c -> c_bootstrap cl <> [] ->
  DialController cl v h = (Done b, h') ->
  exists tr n x req meta tr2, h' = h ++ tr ++ [EMetadata n x req (Answer meta)] ++ tr2 /\
    (x < 1 -> forall sent, metadata_as x sent meta ->
     exists nb, first_such (fun nb => MetadataResponseBroker3_NodeId nb = 0) (items (MetadataResponse_Brokers sent)) nb /\
      dialed tr2 = [dial c (MetadataResponseBroker3_Host nb ++ [58] ++ Itoa (MetadataResponseBroker3_Port nb))]).
Proof.
  intros v cl c h b h' Hv Hc Hn H. destruct (controller_sent v cl c h b h' Hv Hc Hn H) as (tr & n & x & req & meta & tr2 & -> & S).
  exists tr, n, x, req, meta, tr2. split; [reflexivity|]. intros Hx sent Hs. specialize (S sent Hs). replace (1 <=? x) with false in S by lia. exact S.
Qed.
Print Assumptions C70_version0_refuted.

(** Nodes 0 and 1, of which 1 is the controller, and brokers that know Metadata at
    version 0 only: node 0 ("x", port 9092) is connected to. *)
Definition old_versions : ApiVersionsResponse := mkApiVersionsResponse 0 (Some [mkApiVersionsResponseKey18 3 0 0]) 0.
Definition two_nodes (controller : Z) : MetadataResponse :=
  mkMetadataResponse 0 (Some [mkMetadataResponseBroker3 0 [120] 9092 []; mkMetadataResponseBroker3 1 [121] 9093 []]) [] controller (Some []) 0.
Definition old_env : env := mkEnv (fun _ _ => None) (fun _ _ => Answer old_versions) (fun _ _ _ _ => Answer (two_nodes 0)) (fun _ _ _ _ => Answer ex_coordinator).
Example C70_case : env_ok old_env /\ metadata_as 0 (two_nodes 1) (two_nodes 0) /\ metadata_as 1 (two_nodes 1) (two_nodes 1) /\
  summary b_conn (DialController (mkClient [[97]] []) old_env []) = (Some 1%nat, [Plain NewDialer [97]; Plain NewDialer [120;58;57;48;57;50]]).
Proof.
  split; [|split; [reflexivity|split; [reflexivity|vm_compute; reflexivity]]].
  intros h n resp H. injection H as <-. unfold entry_ok, is_int16. cbn [items old_versions ApiVersionsResponse_ApiKeys]. repeat constructor; cbn; lia.
Qed.
