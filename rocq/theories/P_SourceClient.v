(** * Properties of the text of the client: C91, and C41, C43, C44 and C45 for the text *)
From Coq Require Import String Lia.
From Verif Require Import GoBase GoLemmas Msg02 Msg03 Msg04 BrokerTable Broker BrokerSpec Options Client ClientSpec ClientProofs P_Client BrokerProofs
  GoLang GoShare SourceClient SourceClientSpec SourceClientProofs SourceClientAll.
Local Open Scope string_scope.
Local Open Scope list_scope.
Local Open Scope Z_scope.

(** [client_program] (SourceClientSpec.v) is the text, as terms, of client.go, of gen.option.go, of
    NewBroker, Close, negotiateApiVersions and matchVersion of gen.broker.go and of dial and Connect
    of gen.conn.go, written by tools/go_source.py (SourceClient.v, SourceConn.v).  GoShare.v says
    what such a text does: variables live in memory, closures and pointers share them, and what is
    not in the program (the network, fmt, the request methods of Broker) is asked.  [machine v junk]
    answers as the surroundings [v] of the model would, whatever else a request method leaves in the
    response it returns with an error ([junk]).
    [runs]: the function [f] is called in memory [m] after the history [h]; what it returned, the
    memory then and the history then.  [follows m good bad text model]: the histories are the same;
    where the model has a result the text returns one that [good] relates to it, with a nil error;
    where the model fails it returns [bad] and the error of that failure, which for fmt.Errorf means
    format and arguments; and where the model does not return the text does not either.  In all cases
    everything that was in memory is unchanged.  [n] bounds the nesting of calls and the rounds of the
    loop of matchVersion ([enough]). *)
Notation runs W v junk n f args m h := (machine v junk (call W client_program n f [] args m GoShare.Done) h).

(** ** C91.  What the methods of Client do is what they do in the model. *)
Theorem C91_dial_leader : forall W v junk, 32 <= W -> env_ok v -> ports_ok v -> forall n topic p ctx addrs os c m h, (enough + 7 <= n)%nat -> client_at m addrs os c ->
  follows m broker_at VNil (runs W v junk n "Client.DialLeader" [c; ctx; VStr topic; VInt I32 p] m h) (DialLeader (mkClient addrs (map option_of_go os)) topic p v h).
Proof. exact leader_all. Qed.
Print Assumptions C91_dial_leader.
Theorem C91_dial_controller : forall W v junk, 32 <= W -> env_ok v -> ports_ok v -> forall n ctx addrs os c m h, (enough + 7 <= n)%nat -> client_at m addrs os c ->
  follows m broker_at VNil (runs W v junk n "Client.DialController" [c; ctx] m h) (DialController (mkClient addrs (map option_of_go os)) v h).
Proof. exact controller_all. Qed.
Print Assumptions C91_dial_controller.
Theorem C91_dial_group_coordinator : forall W v junk, 32 <= W -> env_ok v -> ports_ok v -> forall n g ctx addrs os c m h, (enough + 7 <= n)%nat -> client_at m addrs os c ->
  follows m broker_at VNil (runs W v junk n "Client.DialGroupCoordinator" [c; ctx; VStr g] m h) (DialGroupCoordinator (mkClient addrs (map option_of_go os)) g v h).
Proof. exact group_all. Qed.
Print Assumptions C91_dial_group_coordinator.
Theorem C91_metadata : forall W v junk, env_ok v -> forall n topics ctx addrs os c m h, (enough + 7 <= n)%nat -> client_at m addrs os c ->
  follows m (fun _ a w => w = metadata_val a) (metadata_val MetadataResponse_zero) (runs W v junk n "Client.Metadata" (c :: ctx :: map VStr topics) m h)
    (Client.Metadata (mkClient addrs (map option_of_go os)) topics v h).
Proof. exact metadata_all. Qed.
Print Assumptions C91_metadata.
(** NewBroker(addr, opts...), with everything it calls: buildConfig, Connect, dial, the request
    for versions, negotiateApiVersions and matchVersion. *)
Theorem C91_new_broker : forall W v junk, env_ok v -> forall n addr os ov m h, (enough + 7 <= n)%nat -> options_at m os ov ->
  follows m broker_at VNil (runs W v junk n "kafka.NewBroker" [VStr addr; VTuple [ov]] m h) (NewBroker addr (map option_of_go os) v h).
Proof. exact broker_all. Qed.
Print Assumptions C91_new_broker.
(** Broker.Close closes the connection of the broker and returns nil. *)
Theorem C91_close : forall W v junk n b w m h, (2 <= n)%nat -> broker_at m b w -> exists m',
  runs W v junk n "Broker.Close" [w] m h = (Returned VNil m', snd (Close b v h)) /\ grows m m'.
Proof. intros W v junk n b w m h Hn Hb. destruct n as [|[|n]]; [lia..|]. exact (close_text W v junk n b w m h Hb). Qed.
Print Assumptions C91_close.
(** NewClient, WithDialer and WithTLS make the clients and options that the theorems are about. *)
Theorem C91_new_client : forall W v junk n addrs bw os ws m h, (1 <= n)%nat -> elements_of bw = Some (map VStr addrs) -> Forall2 (option_at m) os ws ->
  exists w m', runs W v junk n "kafka.NewClient" (bw :: ws) m h = (Returned w m', h) /\ grows m m' /\ client_at m' addrs os w.
Proof. intros W v junk n addrs bw os ws m h Hn. destruct n as [|n]; [lia|]. apply client_text. Qed.
Print Assumptions C91_new_client.
Theorem C91_with_dialer : forall W v junk n p m h, (1 <= n)%nat -> exists w m',
  runs W v junk n "kafka.WithDialer" [foreign "net.Dialer" p] m h = (Returned w m', h) /\ grows m m' /\ option_at m' (Some (Dialer p)) w.
Proof. intros W v junk n p m h Hn. destruct n as [|n]; [lia|]. apply dialer_text. Qed.
Print Assumptions C91_with_dialer.
Theorem C91_with_tls : forall W v junk n p m h, (1 <= n)%nat -> exists w m',
  runs W v junk n "kafka.WithTLS" [foreign "tls.Config" p] m h = (Returned w m', h) /\ grows m m' /\ option_at m' (Some (TLS p)) w.
Proof. intros W v junk n p m h Hn. destruct n as [|n]; [lia|]. apply tls_text. Qed.
Print Assumptions C91_with_tls.

(** ** For the text *)
(** C41: if DialLeader returns a broker and nil, the last address dialled is that of the leader of
    the partition in the answer to the request for metadata, and the broker has that connection. *)
Theorem C41_text_leader : forall W v junk, 32 <= W -> env_ok v -> ports_ok v -> forall n topic partition ctx addrs os c cw w m m' h h', (enough + 7 <= n)%nat -> client_at m addrs os cw ->
  buildConfig (map option_of_go os) = Some c -> addrs <> [] ->
  runs W v junk n "Client.DialLeader" [cw; ctx; VStr topic; VInt I32 partition] m h = (Returned (VTuple [w; VNil]) m', h') ->
  exists tr k x req meta t p nb tr2, h' = h ++ tr ++ [EMetadata k x req (Answer meta)] ++ tr2 /\
    first_such (fun t => MetadataResponseTopic3_Name t = topic) (items (MetadataResponse_Topics meta)) t /\
    first_such (fun p => MetadataResponsePartition3_PartitionIndex p = partition) (items (MetadataResponseTopic3_Partitions t)) p /\
    first_such (fun nb => MetadataResponseBroker3_NodeId nb = MetadataResponsePartition3_LeaderId p) (items (MetadataResponse_Brokers meta)) nb /\
    dialed tr2 = [dial c (MetadataResponseBroker3_Host nb ++ [58] ++ Itoa (MetadataResponseBroker3_Port nb))].
Proof.
  intros W v junk HW Hv Hp n topic partition ctx addrs os c cw w m m' h h' Hn Hc Hb Ha E.
  destruct (follows_done _ _ _ _ _ _ _ _ (leader_all W v junk HW Hv Hp n topic partition ctx addrs os cw m h Hn Hc) E) as (b & Eb & _).
  exact (leader_address v (mkClient addrs (map option_of_go os)) c topic partition h b h' Hv Hb Ha Eb).
Qed.
Print Assumptions C41_text_leader.
(** C43: without bootstrap servers Metadata asks nobody and returns an empty response and nil. *)
Theorem C43_text_empty_list_refuted : forall W v junk, env_ok v -> forall n topics ctx os cw m h, (enough + 7 <= n)%nat -> client_at m [] os cw -> exists m',
  runs W v junk n "Client.Metadata" (cw :: ctx :: map VStr topics) m h = (Returned (VTuple [metadata_val (mkMetadataResponse 0 None [] 0 None 0); VNil]) m', h).
Proof.
  intros W v junk Hv n topics ctx os cw m h Hn Hc. destruct (metadata_all W v junk Hv n topics ctx [] os cw m h Hn Hc) as [H1 H2].
  destruct (runs W v junk n "Client.Metadata" (cw :: ctx :: map VStr topics) m h) as [e h']. cbn [fst snd Client.Metadata] in H1, H2.
  rewrite C43_empty_list_refuted in H1, H2. cbn [fst snd] in H1, H2. destruct H2 as (w & m' & -> & _ & ->). exists m'. subst h'. reflexivity.
Qed.
Print Assumptions C43_text_empty_list_refuted.
(** C44: no method of Client closes a connection: after DialLeader every connection that it opened
    is open. *)
Theorem C44_text_nothing_closed_refuted : forall W v junk, 32 <= W -> env_ok v -> ports_ok v -> forall n topic p ctx addrs os c cw m h, (enough + 7 <= n)%nat -> client_at m addrs os cw ->
  buildConfig (map option_of_go os) = Some c -> history_ok h -> exists tr,
  snd (runs W v junk n "Client.DialLeader" [cw; ctx; VStr topic; VInt I32 p] m h) = h ++ tr /\ still_open (h ++ tr) = still_open h ++ seq (opened h) (opened tr).
Proof.
  intros W v junk HW Hv Hp n topic p ctx addrs os c cw m h Hn Hc Hb Hh.
  destruct (follows_history _ _ _ _ _ (leader_all W v junk HW Hv Hp n topic p ctx addrs os cw m h Hn Hc)) as [x E].
  destruct (C44_nothing_closed_refuted v (mkClient addrs (map option_of_go os)) c h Hv Hb Hh) as (_ & _ & _ & _ & H). destruct (H _ _ _ _ E) as (tr & H1 & H2).
  exists tr. rewrite <- H1 at 2. split; assumption.
Qed.
Print Assumptions C44_text_nothing_closed_refuted.
(** C45: whatever error code the answer to FindCoordinator has, its address is dialled. *)
Theorem C45_text_error_code_ignored_refuted : forall W v junk, 32 <= W -> env_ok v -> ports_ok v -> forall n g ctx addrs os c cw m h k x req resp tr, (enough + 7 <= n)%nat -> client_at m addrs os cw ->
  buildConfig (map option_of_go os) = Some c -> addrs <> [] ->
  snd (runs W v junk n "Client.DialGroupCoordinator" [cw; ctx; VStr g] m h) = h ++ tr -> In (EFind k x req (Answer resp)) tr ->
  exists tr1 r tr2, tr = tr1 ++ EFind k x req (Answer resp) :: EDial (dial c (address (FindCoordinatorResponse_Host resp) (FindCoordinatorResponse_Port resp))) r :: tr2.
Proof.
  intros W v junk HW Hv Hp n g ctx addrs os c cw m h k x req resp tr Hn Hc Hb Ha E1 E2.
  destruct (follows_history _ _ _ _ _ (group_all W v junk HW Hv Hp n g ctx addrs os cw m h Hn Hc)) as [o E].
  exact (C45_error_code_ignored_refuted v (mkClient addrs (map option_of_go os)) c g h o _ resp k x req tr Hv Hb Ha E E1 E2).
Qed.
Print Assumptions C45_text_error_code_ignored_refuted.

(** ** An example: the client of C41_example in a memory, and its DialLeader, by the interpreter *)
Definition ex_memory : mem := push (VStruct "Client" [("bootstrap", VStrs [[97]; [98]; [99]]); ("opts", VNil)]) (mkMem 0 []).
Example C91_example : client_at ex_memory [[97]; [98]; [99]] [] (VRef 0) /\ ports_ok ex_env /\ exists w m' h',
  runs 64 ex_env (fun _ => VNil) 60%nat "Client.DialLeader" [VRef 0; VNil; VStr [116]; VInt I32 0] ex_memory [] = (Returned (VTuple [w; VNil]) m', h') /\
  dialed h' = [Plain NewDialer [97]; Plain NewDialer [98]; Plain NewDialer [121;58;57;48;57;51]].
Proof.
  split; [|split].
  - exists 0%nat, (VStrs [[97]; [98]; [99]]), VNil. split; [reflexivity|]. split; [cbn; lia|]. split; [reflexivity|]. split; [reflexivity|]. exists []. split; [reflexivity|constructor].
  - split; intros h n x q r H; injection H as <-; cbn; repeat constructor; cbn; lia.
  - vm_compute. do 3 eexists. split; reflexivity.
Qed.
