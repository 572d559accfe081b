(** * Properties of the client: C41-C46, C52, C54 *)
From Coq Require Import String.
From Verif Require Import GoBase GoLemmas Msg02 Msg03 Msg04 BrokerTable Broker BrokerSpec BrokerProofs Options Client ClientSpec ClientProofs.
Local Open Scope Z_scope.
Local Open Scope list_scope.
Ltac Zify.zify_post_hook ::= idtac.

(** ** A cluster for the examples: three bootstrap servers "a", "b", "c", of which "a" does
    not listen; nodes 1 and 2; node 2 leads partition 0 of topic "t". *)
Definition ex_versions : ApiVersionsResponse :=
  mkApiVersionsResponse 0 (Some [mkApiVersionsResponseKey18 3 0 5; mkApiVersionsResponseKey18 10 0 2]) 0.
Definition ex_meta : MetadataResponse :=
  mkMetadataResponse 0 (Some [mkMetadataResponseBroker3 1 [120] 9092 []; mkMetadataResponseBroker3 2 [121] 9093 []]) [] 2
    (Some [mkMetadataResponseTopic3 0 [116] false (Some [mkMetadataResponsePartition3 0 0 2 0 None None None]) 0]) 0.
Definition ex_coordinator : FindCoordinatorResponse := mkFindCoordinatorResponse 0 15 [] (-1) [] (-1).
Definition ex_env : env := mkEnv
  (fun _ d => match d with Plain _ [97] => Some (ErrOther 1) | _ => None end)
  (fun _ _ => Answer ex_versions) (fun _ _ _ _ => Answer ex_meta) (fun _ _ _ _ => Answer ex_coordinator).
Definition ex_client : Client := mkClient [[97]; [98]; [99]] [].
Definition ex_config : config := mkConfig defaultClientID NewDialer None.
Definition summary {A B} (f : A -> B) (p : outcome A * list event) : option B * list dialing :=
  (match fst p with Done a => Some (f a) | _ => None end, dialed (snd p)).
Example ex_env_ok : env_ok ex_env.
Proof.
  intros h n resp H. injection H as <-. unfold entry_ok, is_int16. cbn [items ex_versions ApiVersionsResponse_ApiKeys].
  repeat constructor; cbn; lia.
Qed.
Example ex_leader : summary b_conn (DialLeader ex_client [116] 0 ex_env []) = (Some 1%nat, [Plain NewDialer [97]; Plain NewDialer [98]; Plain NewDialer [121;58;57;48;57;51]]).
Proof. vm_compute. reflexivity. Qed.

(** ** C41 *)
Theorem C41_leader : forall v cl c topic partition h o h', env_ok v -> buildConfig (c_opts cl) = Some c -> c_bootstrap cl <> [] ->
  DialLeader cl topic partition v h = (o, h') ->
  exists tr1 tr2 o1, h' = h ++ tr1 ++ tr2 /\ honest v h (tr1 ++ tr2) /\ contacts c h (c_bootstrap cl) (about_topics [topic]) tr1 o1 /\
    match o1 with
    | Done meta => leader_dialed c meta topic partition (h ++ tr1) tr2 o
    | _ => gives_up o1 tr2 o
    end.
Proof. exact leader_spec. Qed.
Print Assumptions C41_leader.
(** In particular: a broker returned is connected to the leader's host and port, ... *)
Theorem C41_leader_address : forall v cl c topic partition h b h', env_ok v -> buildConfig (c_opts cl) = Some c -> c_bootstrap cl <> [] ->
  DialLeader cl topic partition v h = (Done b, h') ->
  exists tr n x req meta t p nb tr2, h' = h ++ tr ++ [EMetadata n x req (Answer meta)] ++ tr2 /\
    first_such (fun t => MetadataResponseTopic3_Name t = topic) (items (MetadataResponse_Topics meta)) t /\
    first_such (fun p => MetadataResponsePartition3_PartitionIndex p = partition) (items (MetadataResponseTopic3_Partitions t)) p /\
    first_such (fun nb => MetadataResponseBroker3_NodeId nb = MetadataResponsePartition3_LeaderId p) (items (MetadataResponse_Brokers meta)) nb /\
    dialed tr2 = [dial c (MetadataResponseBroker3_Host nb ++ [58] ++ Itoa (MetadataResponseBroker3_Port nb))].
Proof. exact leader_address. Qed.
Print Assumptions C41_leader_address.
(** ... and the controller likewise. *)
Theorem C41_controller : forall v cl c h o h', env_ok v -> buildConfig (c_opts cl) = Some c -> c_bootstrap cl <> [] ->
  DialController cl v h = (o, h') ->
  exists tr1 tr2 o1, h' = h ++ tr1 ++ tr2 /\ honest v h (tr1 ++ tr2) /\ contacts c h (c_bootstrap cl) (about_topics []) tr1 o1 /\
    match o1 with
    | Done meta => node_dialed c meta (MetadataResponse_ControllerId meta) (h ++ tr1) tr2 o
    | _ => gives_up o1 tr2 o
    end.
Proof. exact controller_spec. Qed.
Print Assumptions C41_controller.
Example C41_example : exists b h', DialLeader ex_client [116] 0 ex_env [] = (Done b, h') /\ dialed h' = map (dial ex_config) [[97]; [98]; [121;58;57;48;57;51]].
Proof.
  pose proof ex_leader as H. destruct (DialLeader ex_client [116] 0 ex_env []) as [[b|f|] h']; try discriminate. exists b, h'. split; [reflexivity|].
  unfold summary in H. cbn [fst snd] in H. injection H as _ ->. reflexivity.
Qed.

(** ** C42 *)
Theorem C42_bootstrap : forall v cl c topics h o h', env_ok v -> buildConfig (c_opts cl) = Some c -> c_bootstrap cl <> [] ->
  Metadata cl topics v h = (o, h') ->
  exists tr, h' = h ++ tr /\ honest v h tr /\ contacts c h (c_bootstrap cl) (about_topics topics) tr o.
Proof. exact metadata_spec. Qed.
Print Assumptions C42_bootstrap.
(** DialController and DialLeader begin in the same way (C41), DialGroupCoordinator with another question. *)
Theorem C42_coordinator : forall v cl c g h o h', env_ok v -> buildConfig (c_opts cl) = Some c -> c_bootstrap cl <> [] ->
  DialGroupCoordinator cl g v h = (o, h') ->
  exists tr1 tr2 o1, h' = h ++ tr1 ++ tr2 /\ honest v h (tr1 ++ tr2) /\ contacts c h (c_bootstrap cl) (about_group g) tr1 o1 /\
    match o1 with
    | Done resp => connects c (h ++ tr1) (address (FindCoordinatorResponse_Host resp) (FindCoordinatorResponse_Port resp)) tr2 o
    | _ => gives_up o1 tr2 o
    end.
Proof. exact find_spec. Qed.
Print Assumptions C42_coordinator.
(** The servers dialed are the first ones of the list, in order, up to the first
    usable one, and all of them if none is usable. *)
Theorem C42_servers_dialed : forall A c h addrs q tr (o : outcome A), (forall b r, dialed [q b r] = []) -> contacts c h addrs q tr o ->
  exists pre post, addrs = pre ++ post /\ dialed tr = map (dial c) pre /\
    match o with Failed (DialFailed _ _ | VersionsFailed _ | NegotiationFailed) => post = [] | _ => True end.
Proof. exact @servers_dialed. Qed.
Print Assumptions C42_servers_dialed.
(** A server that answers is the only one that is asked, and nobody is asked after it. *)
Theorem C42_first_usable : forall A c h addrs q tr (a : A), contacts c h addrs q tr (Done a) ->
  exists pre addr post tr1 err tr2 b, addrs = pre ++ addr :: post /\ none_usable c h pre tr1 err /\ usable c addr (opened (h ++ tr1)) tr2 b /\
    tr = tr1 ++ tr2 ++ [q b (Answer a)].
Proof. exact @first_usable. Qed.
Print Assumptions C42_first_usable.
Example C42_example : exists tr1 tr2 b, none_usable ex_config [] [[97]] tr1 (Some (DialFailed [97] (ErrOther 1))) /\ usable ex_config [98] 0 tr2 b /\
  Metadata ex_client [] ex_env [] = (Done ex_meta, tr1 ++ tr2 ++ [about_topics [] b (Answer ex_meta)]).
Proof.
  set (av := set_version FindCoordinator 2 (set_version BrokerTable.Metadata 5 no_versions)).
  exists [EDial (Plain NewDialer [97]) (Some (ErrOther 1))], [EDial (Plain NewDialer [98]) None; EVersions 0 (Answer ex_versions)], (mkBroker av ex_config 0). split; [|split].
  - apply (none_cons ex_config [] [97] [] [_] (DialFailed [97] (ErrOther 1)) [] None); [left; eexists; split; reflexivity|constructor].
  - exists ex_versions, av. split; [reflexivity|]. split; [exists 10%nat; reflexivity|reflexivity].
  - vm_compute. reflexivity.
Qed.

(** ** C43.  Full statement: for every bootstrap list, if no server could be contacted, then the
    operation returns an error.  It is false of the empty list: Metadata returns an empty
    result without an error, and DialGroupCoordinator goes on to dial ":0". *)
Theorem C43_empty_list_refuted : forall v opts topics h,
  Metadata (mkClient [] opts) topics v h = (Done (mkMetadataResponse 0 None [] 0 None 0), h).
Proof. reflexivity. Qed.
Print Assumptions C43_empty_list_refuted.
Theorem C43_coordinator_empty_list_refuted : forall v opts c g h, buildConfig opts = Some c ->
  exists o x tr, DialGroupCoordinator (mkClient [] opts) g v h = (o, h ++ EDial (dial c [58;48]) x :: tr).
Proof. exact coordinator_empty. Qed.
Print Assumptions C43_coordinator_empty_list_refuted.
(** What holds: with at least one server, a result always comes from a broker, ... *)
Theorem C43_metadata_partial : forall v cl c topics h meta h', env_ok v -> buildConfig (c_opts cl) = Some c -> c_bootstrap cl <> [] ->
  Metadata cl topics v h = (Done meta, h') -> exists tr n x req, h' = h ++ tr ++ [EMetadata n x req (Answer meta)].
Proof. exact metadata_from_broker. Qed.
Print Assumptions C43_metadata_partial.
(** ... if none can be used the operations return the last error, ... *)
Theorem C43_none_usable_partial : forall v cl c h tr f, env_ok v -> buildConfig (c_opts cl) = Some c ->
  none_usable c h (c_bootstrap cl) tr (Some f) -> honest v h tr ->
  (forall topics, Metadata cl topics v h = (Failed f, h ++ tr)) /\ DialController cl v h = (Failed f, h ++ tr) /\
  (forall g, DialGroupCoordinator cl g v h = (Failed f, h ++ tr)) /\ (forall topic p, DialLeader cl topic p v h = (Failed f, h ++ tr)).
Proof. exact none_usable_fails. Qed.
Print Assumptions C43_none_usable_partial.
(** ... and DialController and DialLeader fail on the empty list, without contacting anyone. *)
Theorem C43_empty_list_partial : forall v opts h,
  DialController (mkClient [] opts) v h = (Failed (NoSuchNode 0), h) /\
  forall topic p, DialLeader (mkClient [] opts) topic p v h = (Failed (NoSuchTopic topic), h).
Proof. split; reflexivity. Qed.
Print Assumptions C43_empty_list_partial.
Example C43_example : exists f, none_usable ex_config [] (c_bootstrap (mkClient [[97]; [97]] [])) [EDial (Plain NewDialer [97]) (Some (ErrOther 1)); EDial (Plain NewDialer [97]) (Some (ErrOther 1))] (Some f) /\
  honest ex_env [] [EDial (Plain NewDialer [97]) (Some (ErrOther 1)); EDial (Plain NewDialer [97]) (Some (ErrOther 1))].
Proof.
  exists (DialFailed [97] (ErrOther 1)). split; [|cbn; auto].
  apply (none_cons ex_config [] [97] [[97]] [_] (DialFailed [97] (ErrOther 1)) [_] (Some (DialFailed [97] (ErrOther 1)))); [left; eexists; split; reflexivity|].
  apply (none_cons ex_config _ [97] [] [_] (DialFailed [97] (ErrOther 1)) [] None); [left; eexists; split; reflexivity|constructor].
Qed.

(** ** C44.  Full statement: when an operation of the client returns, the connections left open
    are those before and the one of the Broker returned, if any.  It is false: no operation
    closes anything, so that every connection opened stays open: *)
Theorem C44_nothing_closed_refuted : forall v cl c h, env_ok v -> buildConfig (c_opts cl) = Some c -> history_ok h ->
  (forall addr o h', NewBroker addr (c_opts cl) v h = (o, h') -> exists tr, h' = h ++ tr /\ still_open h' = still_open h ++ seq (opened h) (opened tr)) /\
  (forall topics o h', Metadata cl topics v h = (o, h') -> exists tr, h' = h ++ tr /\ still_open h' = still_open h ++ seq (opened h) (opened tr)) /\
  (forall o h', DialController cl v h = (o, h') -> exists tr, h' = h ++ tr /\ still_open h' = still_open h ++ seq (opened h) (opened tr)) /\
  (forall g o h', DialGroupCoordinator cl g v h = (o, h') -> exists tr, h' = h ++ tr /\ still_open h' = still_open h ++ seq (opened h) (opened tr)) /\
  (forall topic p o h', DialLeader cl topic p v h = (o, h') -> exists tr, h' = h ++ tr /\ still_open h' = still_open h ++ seq (opened h) (opened tr)).
Proof. exact nothing_closed. Qed.
Print Assumptions C44_nothing_closed_refuted.
(** A successful Metadata leaves a connection open that nobody can close any more; ... *)
Theorem C44_metadata_refuted : forall v cl c topics h meta h', env_ok v -> buildConfig (c_opts cl) = Some c -> history_ok h -> c_bootstrap cl <> [] ->
  Metadata cl topics v h = (Done meta, h') -> exists n, In n (still_open h') /\ ~ In n (still_open h).
Proof. exact metadata_leaks. Qed.
Print Assumptions C44_metadata_refuted.
(** ... so do the Dial methods when they succeed, beside the connection of the Broker; ... *)
Theorem C44_dial_refuted : forall v cl c h b h', env_ok v -> buildConfig (c_opts cl) = Some c -> history_ok h -> c_bootstrap cl <> [] ->
  (DialController cl v h = (Done b, h') \/ (exists g, DialGroupCoordinator cl g v h = (Done b, h')) \/ (exists topic p, DialLeader cl topic p v h = (Done b, h'))) ->
  exists n, In n (still_open h') /\ ~ In n (still_open h) /\ n <> b_conn b.
Proof. exact dial_leaks. Qed.
Print Assumptions C44_dial_refuted.
(** ... and so does NewBroker when the versions cannot be agreed on. *)
Theorem C44_new_broker_refuted : forall v addr opts c h f h', env_ok v -> buildConfig opts = Some c -> history_ok h ->
  NewBroker addr opts v h = (Failed f, h') -> (forall a x, f <> DialFailed a x) -> still_open h' = still_open h ++ [opened h].
Proof. exact new_broker_leaks. Qed.
Print Assumptions C44_new_broker_refuted.
(** What holds: when NewBroker returns a broker, its connection is the only new one, and when it
    cannot connect there is none. *)
Theorem C44_new_broker_partial : forall v addr opts c h o h', env_ok v -> buildConfig opts = Some c -> history_ok h ->
  NewBroker addr opts v h = (o, h') ->
  (forall b, o = Done b -> still_open h' = still_open h ++ [b_conn b]) /\
  (forall a x, o = Failed (DialFailed a x) -> still_open h' = still_open h).
Proof. exact new_broker_open. Qed.
Print Assumptions C44_new_broker_partial.
(** Close closes the connection of its broker, and no other. *)
Theorem C44_close_partial : forall v b h, exists h', Close b v h = (Done tt, h') /\ still_open h' = filter (fun n => negb (Nat.eqb n (b_conn b))) (still_open h).
Proof. exact close_closes. Qed.
Print Assumptions C44_close_partial.
Example C44_example : history_ok [] /\ still_open (snd (Metadata ex_client [] ex_env [])) = [0%nat] /\ still_open (snd (DialLeader ex_client [116] 0 ex_env [])) = [0%nat; 1%nat].
Proof. split; [intros n H; discriminate|]. split; vm_compute; reflexivity. Qed.

(** ** C45.  Full statement: if the answer to a coordinator lookup or metadata query has a
    non-zero error code, the Dial method returns an error and does not dial.  It is
    false: whatever the error code, the host and port of the answer are dialed.  In the example
    the broker answers COORDINATOR_NOT_AVAILABLE (15) without host, and ":-1" is dialed. *)
Theorem C45_error_code_ignored_refuted : forall v cl c g h o h' resp n x req tr, env_ok v -> buildConfig (c_opts cl) = Some c -> c_bootstrap cl <> [] ->
  DialGroupCoordinator cl g v h = (o, h') -> h' = h ++ tr -> In (EFind n x req (Answer resp)) tr ->
  exists tr1 r tr2, tr = tr1 ++ EFind n x req (Answer resp) :: EDial (dial c (address (FindCoordinatorResponse_Host resp) (FindCoordinatorResponse_Port resp))) r :: tr2.
Proof. exact error_code_ignored. Qed.
Print Assumptions C45_error_code_ignored_refuted.
Example C45_example : FindCoordinatorResponse_ErrorCode ex_coordinator <> 0 /\
  summary b_conn (DialGroupCoordinator ex_client [103] ex_env []) = (Some 1%nat, [Plain NewDialer [97]; Plain NewDialer [98]; Plain NewDialer [58;45;49]]).
Proof. split; [discriminate|vm_compute; reflexivity]. Qed.
(** The error codes of topics and partitions are ignored too: whatever they are, the host and
    port of the leader are dialed. *)
Theorem C45_metadata_codes_refuted : forall v cl c topic partition h o h' tr n x req meta t p nb, env_ok v -> buildConfig (c_opts cl) = Some c -> c_bootstrap cl <> [] ->
  DialLeader cl topic partition v h = (o, h') -> h' = h ++ tr -> In (EMetadata n x req (Answer meta)) tr ->
  first_such (fun t => MetadataResponseTopic3_Name t = topic) (items (MetadataResponse_Topics meta)) t ->
  first_such (fun p => MetadataResponsePartition3_PartitionIndex p = partition) (items (MetadataResponseTopic3_Partitions t)) p ->
  first_such (fun nb => MetadataResponseBroker3_NodeId nb = MetadataResponsePartition3_LeaderId p) (items (MetadataResponse_Brokers meta)) nb ->
  exists tr1 r tr2, tr = tr1 ++ EMetadata n x req (Answer meta) :: EDial (dial c (address (MetadataResponseBroker3_Host nb) (MetadataResponseBroker3_Port nb))) r :: tr2.
Proof. exact metadata_codes_ignored. Qed.
Print Assumptions C45_metadata_codes_refuted.
(** What holds: when the request itself fails, the error is returned and nothing more happens. *)
Theorem C45_request_errors_partial : forall v cl c h, env_ok v -> buildConfig (c_opts cl) = Some c -> c_bootstrap cl <> [] ->
  (forall g o h' n x req e tr, DialGroupCoordinator cl g v h = (o, h') -> h' = h ++ tr -> In (EFind n x req (Error e)) tr ->
     o = Failed (RequestFailed e) /\ exists tr1, tr = tr1 ++ [EFind n x req (Error e)]) /\
  (forall topic p o h' n x req e tr, DialLeader cl topic p v h = (o, h') -> h' = h ++ tr -> In (EMetadata n x req (Error e)) tr ->
     o = Failed (RequestFailed e) /\ exists tr1, tr = tr1 ++ [EMetadata n x req (Error e)]) /\
  (forall o h' n x req e tr, DialController cl v h = (o, h') -> h' = h ++ tr -> In (EMetadata n x req (Error e)) tr ->
     o = Failed (RequestFailed e) /\ exists tr1, tr = tr1 ++ [EMetadata n x req (Error e)]).
Proof. exact request_errors. Qed.
Print Assumptions C45_request_errors_partial.

(** ** C46 *)
Theorem C46_address : forall host port, address host port = host ++ [58] ++ Itoa port.
Proof. reflexivity. Qed.
Print Assumptions C46_address.
(** Itoa writes the decimal numeral of every Go int, without leading zeros. *)
Theorem C46_decimal : forall z, - 2 ^ 63 <= z < 2 ^ 63 -> decimal_value (Itoa z) = Some z /\
  (z = 0 -> Itoa z = [48]) /\ (0 < z -> exists d rest, Itoa z = d :: rest /\ d <> 48) /\ (z < 0 -> Itoa z = 45 :: Itoa (- z)).
Proof. exact Itoa_decimal. Qed.
Print Assumptions C46_decimal.
(** Host and port can be recovered from what is before and after the last colon. *)
Theorem C46_recover : forall host port, is_int32 port ->
  exists s, split_colon (address host port) = Some (host, s) /\ decimal_value s = Some port.
Proof. exact address_recover. Qed.
Print Assumptions C46_recover.
Theorem C46_injective : forall h1 p1 h2 p2, is_int32 p1 -> is_int32 p2 -> address h1 p1 = address h2 p2 -> h1 = h2 /\ p1 = p2.
Proof. exact address_inj. Qed.
Print Assumptions C46_injective.
Example C46_example : address [58;58;49] 9092 = [58;58;49;58;57;48;57;50] /\ split_colon [58;58;49;58;57;48;57;50] = Some ([58;58;49], [57;48;57;50]) /\
  Itoa (- 2 ^ 31) = [45;50;49;52;55;52;56;51;54;52;56] /\ decimal_value [45;50;49;52;55;52;56;51;54;52;56] = Some (- 2 ^ 31).
Proof. repeat split. Qed.

(** ** C52 *)
Theorem C52_last_option_wins : forall l, exists c, buildConfig (map option_of l) = Some c /\ f_clientID c = "github.com/savaki/kafka"%string /\
  f_dialer c = match last_dialer l with Some (Some p) => CallersDialer p | _ => NewDialer end /\
  f_tls c = match last_tls l with Some t => t | None => None end.
Proof. exact options_spec. Qed.
Print Assumptions C52_last_option_wins.
(** What is dialed with: TLS if and only if the last TLS option is not nil. *)
Theorem C52_dialed_with : forall l c addr, buildConfig (map option_of l) = Some c ->
  dial c addr = let d := match last_dialer l with Some (Some p) => CallersDialer p | _ => NewDialer end in
                match last_tls l with Some (Some t) => Tls d addr t | _ => Plain d addr end.
Proof. exact options_dial. Qed.
Print Assumptions C52_dialed_with.
(** Only the settings of a kind matter to that kind. *)
Theorem C52_independent : forall l, last_dialer l = last_dialer (filter (fun s => match s with Dialer _ => true | TLS _ => false end) l) /\
  last_tls l = last_tls (filter (fun s => match s with TLS _ => true | Dialer _ => false end) l).
Proof. exact options_independent. Qed.
Print Assumptions C52_independent.
(** A nil Option makes buildConfig, hence every connection attempt, panic. *)
Theorem C52_nil_option : forall l1 l2, buildConfig (l1 ++ None :: l2) = None /\ forall addr v h, NewBroker addr (l1 ++ None :: l2) v h = (Stuck, h).
Proof. exact nil_option_panics. Qed.
Print Assumptions C52_nil_option.
Example C52_example : option_map (fun c => (f_dialer c, f_tls c)) (buildConfig (map option_of [Dialer (Some 1); TLS (Some 5); Dialer (Some 2); TLS None; Dialer None])) = Some (NewDialer, None) /\
  option_map (fun c => (f_dialer c, f_tls c)) (buildConfig (map option_of [TLS (Some 5); Dialer (Some 2); TLS (Some 6)])) = Some (CallersDialer 2, Some 6).
Proof. split; reflexivity. Qed.

(** ** C54.  Full statement: for every host and port net.SplitHostPort, by which Go's dialer reads the address,
    returns the host and the port from the address dialed.  It holds if and only if the host has no
    colon and no square bracket, hence not of IPv6 addresses: *)
Theorem C54_plain_hosts_partial : forall host port, SplitHostPort (address host port) = Some (host, Itoa port) <-> plain_host host.
Proof. exact split_host_port. Qed.
Print Assumptions C54_plain_hosts_partial.
(** a host with a colon that is not bracketed makes the dial fail whatever listens there. *)
Theorem C54_colon_refuted : forall host port, In 58 host -> hd 0 host <> 91 -> SplitHostPort (address host port) = None.
Proof. exact split_host_colon. Qed.
Print Assumptions C54_colon_refuted.
Example C54_example : SplitHostPort (address [49;46;50] 9092) = Some ([49;46;50], [57;48;57;50]) /\ SplitHostPort (address [58;58;49] 9092) = None.
Proof. split; reflexivity. Qed.

(** ** C55.  Full statement: if the answer to ApiVersions carries a non-zero error code, NewBroker
    returns an error.  It is false: the error code is not looked at. *)
Theorem C55_error_code_ignored_refuted : forall v addr opts c h resp av, env_ok v -> buildConfig opts = Some c ->
  v_dial v h (dial c addr) = None -> v_versions v (h ++ [EDial (dial c addr) None]) (opened h) = Answer resp ->
  negotiates (items (ApiVersionsResponse_ApiKeys resp)) (Some av) ->
  NewBroker addr opts v h = (Done (mkBroker av c (opened h)), h ++ [EDial (dial c addr) None; EVersions (opened h) (Answer resp)]).
Proof. exact versions_code_ignored. Qed.
Print Assumptions C55_error_code_ignored_refuted.
(** For instance, an answer with an error and without any API gives a broker with
    version 0 for all APIs. *)
Example C55_example : exists resp, ApiVersionsResponse_ErrorCode resp = 35 /\ negotiates (items (ApiVersionsResponse_ApiKeys resp)) (Some (fun _ => 0)).
Proof. exists (mkApiVersionsResponse 35 None 0). split; [reflexivity|]. exists 1%nat. reflexivity. Qed.
(** What holds: an error of the request itself is returned. *)
Theorem C55_request_error_partial : forall v addr opts c h x, buildConfig opts = Some c ->
  v_dial v h (dial c addr) = None -> v_versions v (h ++ [EDial (dial c addr) None]) (opened h) = Error x ->
  NewBroker addr opts v h = (Failed (VersionsFailed x), h ++ [EDial (dial c addr) None; EVersions (opened h) (Error x)]).
Proof. exact versions_error. Qed.
Print Assumptions C55_request_error_partial.
