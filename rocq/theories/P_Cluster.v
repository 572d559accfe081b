(** * C81: what the client returns is what the cluster said *)
From Coq Require Import String.
From Verif Require Import GoBase GoLemmas Spec SchemaSpec EncProofs Link Msg01 Msg02 Msg03 Msg04 AllMessages MsgProofs BrokerTable Broker BrokerSpec BrokerProofs BufIO
  Conn ConnSpec ConnProofs ConnProps ConnFrames EndSpec ConnEnd P_Conn P_End ServeSpec ServeProofs P_Serve Options Client ClientSpec ClientProofs SentSpec SentProofs ClusterSpec ClusterProofs.
Local Open Scope Z_scope.
Local Open Scope list_scope.
Ltac Zify.zify_post_hook ::= idtac.

(** The three models together: the operations of client.go (Client.v), the request
    methods and the wire format (Broker.v and the message files), and the connection
    with its goroutines (Conn.v).

    [happened name K h']: everything the client did, [h'], was done over connections
    whose other ends are the brokers of the cluster [K], each of which answers, in any
    order and at any time, what it has read; [K addr] says which answers it may give.
    [says_metadata K name addr x topics sent]: the broker at [addr], having read a
    Metadata request of version [x] for [topics], may answer [sent].
    [metadata_as x sent meta]: [meta] has the fields of [sent] that version [x] carries. *)

(** Metadata returns what one of the bootstrap servers answered to a request for these
    topics, at the version negotiated with that server. *)
Theorem C81_metadata : forall v cl c h h' K, env_ok v -> sane cl c h h' -> happened (text (f_clientID c)) K h' ->
  forall topics meta, short_names topics -> Client.Metadata cl topics v h = (Done meta, h') ->
  exists addr av sent, In addr (c_bootstrap cl) /\ says_versions K (text (f_clientID c)) addr av /\
    says_metadata K (text (f_clientID c)) addr (av BrokerTable.Metadata) topics sent /\ metadata_as (av BrokerTable.Metadata) sent meta.
Proof. exact cluster_metadata. Qed.
Print Assumptions C81_metadata.

(** DialLeader returns a broker connected to the host and port of the node that this
    answer names as the leader, and whose versions are negotiated with that node. *)
Theorem C81_leader : forall v cl c h h' K, env_ok v -> sane cl c h h' -> happened (text (f_clientID c)) K h' ->
  forall topic partition b, zlen topic < 2 ^ 15 -> DialLeader cl topic partition v h = (Done b, h') ->
  exists addr av sent t p nb, In addr (c_bootstrap cl) /\ says_versions K (text (f_clientID c)) addr av /\
    says_metadata K (text (f_clientID c)) addr (av BrokerTable.Metadata) [topic] sent /\
    first_such (fun t => MetadataResponseTopic3_Name t = topic) (items (MetadataResponse_Topics sent)) t /\
    first_such (fun p => MetadataResponsePartition3_PartitionIndex p = partition) (items (MetadataResponseTopic3_Partitions t)) p /\
    first_such (fun nb => MetadataResponseBroker3_NodeId nb = MetadataResponsePartition3_LeaderId p) (items (MetadataResponse_Brokers sent)) nb /\
    connected_to K (text (f_clientID c)) h' b (MetadataResponseBroker3_Host nb ++ [58] ++ Itoa (MetadataResponseBroker3_Port nb)).
Proof. exact cluster_leader. Qed.
Print Assumptions C81_leader.

(** DialController likewise (version 0 of Metadata does not carry the controller and it
    is taken for node 0: C70). *)
Theorem C81_controller : forall v cl c h h' K, env_ok v -> sane cl c h h' -> happened (text (f_clientID c)) K h' ->
  forall b, DialController cl v h = (Done b, h') ->
  exists addr av sent nb, In addr (c_bootstrap cl) /\ says_versions K (text (f_clientID c)) addr av /\
    says_metadata K (text (f_clientID c)) addr (av BrokerTable.Metadata) [] sent /\
    first_such (fun nb => MetadataResponseBroker3_NodeId nb = if 1 <=? av BrokerTable.Metadata then MetadataResponse_ControllerId sent else 0) (items (MetadataResponse_Brokers sent)) nb /\
    connected_to K (text (f_clientID c)) h' b (MetadataResponseBroker3_Host nb ++ [58] ++ Itoa (MetadataResponseBroker3_Port nb)).
Proof. exact cluster_controller. Qed.
Print Assumptions C81_controller.

(** DialGroupCoordinator returns a broker connected to the host and port that a
    bootstrap server named as the coordinator of this group. *)
Theorem C81_coordinator : forall v cl c h h' K, env_ok v -> sane cl c h h' -> happened (text (f_clientID c)) K h' ->
  forall group b, zlen group < 2 ^ 15 -> DialGroupCoordinator cl group v h = (Done b, h') ->
  exists addr av sent, In addr (c_bootstrap cl) /\ says_versions K (text (f_clientID c)) addr av /\
    says_coordinator K (text (f_clientID c)) addr (av FindCoordinator) group sent /\
    connected_to K (text (f_clientID c)) h' b (FindCoordinatorResponse_Host sent ++ [58] ++ Itoa (FindCoordinatorResponse_Port sent)).
Proof. exact cluster_coordinator. Qed.
Print Assumptions C81_coordinator.

(** ** A cluster whose brokers know Metadata at version 0 and say that node 7, at "x" and
    port 9, leads partition 0 of topic "t"; the client knows the server "b". *)
Definition ex_said : ApiVersionsResponse := mkApiVersionsResponse 0 (Some [mkApiVersionsResponseKey18 3 0 0]) 5.
Definition ex_got : ApiVersionsResponse := mkApiVersionsResponse 0 (Some [mkApiVersionsResponseKey18 3 0 0]) 0.
Definition ex_nodes (controller : Z) : MetadataResponse := mkMetadataResponse 0 (Some [mkMetadataResponseBroker3 7 [120] 9 []]) [] controller
  (Some [mkMetadataResponseTopic3 0 [116] false (Some [mkMetadataResponsePartition3 0 0 7 0 None None None]) 0]) 0.
Definition say {m : method} (x : c_type (m_resp m)) : response := existT (fun m => c_type (m_resp m)) m x.
Definition ex_K : cluster := fun _ h q p =>
  (RequestHeader_RequestApiKey h = 18 /\ p = @say method_ApiVersions ex_said) \/ (RequestHeader_RequestApiKey h = 3 /\ p = @say method_Metadata (ex_nodes 7)).
Definition ex_name : gostring := Eval vm_compute in text defaultClientID.
Definition ex_ask : order := mkOrder method_ApiVersions ApiVersions no_versions ex_name ApiVersionsRequest_zero.
Definition ex_order : order := mkOrder method_Metadata BrokerTable.Metadata no_versions ex_name (metadata_request [[116]]).
Definition ex_world : env := mkEnv (fun _ _ => None) (fun _ _ => Answer ex_got) (fun _ _ _ _ => Answer (ex_nodes 0)) (fun _ _ _ _ => NoReturn).

(** One call after the other. *)
Definition ex_turn (k : nat) (o : order) (frame : list Z) : list (clabel response) :=
  beat_call o :: repeat (CStep k) 6 ++ [MStep; MRead (be 4 (zlen frame)); MRead frame; MStep; MStep; CStep k].
Definition ex_frame (k : nat) (m : method) (v : Z) (x : c_type (m_resp m)) : list Z := be 4 (Z.of_nat k + 1) ++ wires (c_schema (m_resp m)) v (c_to (m_resp m) x).

Lemma received_to v p p' : received v p p' -> exists a : c_type (m_resp (projT1 p)), p' = existT (fun m => c_type (m_resp m)) (projT1 p) a /\
  c_to (m_resp (projT1 p)) a = receive (c_schema (m_resp (projT1 p))) v (zeros (c_schema (m_resp (projT1 p)))) (c_to (m_resp (projT1 p)) (projT2 p)).
Proof. intros (m & x & x' & -> & -> & E). exists x'. cbn [projT1 projT2]. split; [reflexivity|exact E]. Qed.
Lemma ex_carried (F : service) qs os sched evs0 : Forall fitting qs -> Forall2 (call_of ex_name) qs os -> makes sched os -> Forall legal sched ->
  option_map contour (crun (Connected good_raw 64) sched) = Some (evs0, None, None) -> locks evs0 = seq 0 (List.length os) -> zlen (ids evs0) <= 2 ^ 32 ->
  (forall k, (k < List.length os)%nat -> In (EId k (Z.of_nat k + 1)) evs0 /\ In (EReturn k (Reply (Value tt))) evs0) ->
  (forall g, In g (frames evs0) -> exists k o x, nth_error os k = Some o /\ g = ex_frame k (o_method o) (o_version o) x /\
    fit (c_schema (m_resp (o_method o))) (o_version o) (c_to (m_resp (o_method o)) x) /\ forall id q, F (header_of o id) q (say x)) ->
  (forall k e o id q p p' evs, nth_error qs k = Some e -> nth_error os k = Some o -> F (header_of o id) q p -> received (o_version o) p p' ->
    In (EReturn k (Reply (Value p'))) evs -> outcome_of evs k e) ->
  carried ex_name F qs.
Proof.
  intros Hf Hq Hm Hlg Hrun Hlk Hn Hev Hfr Hout. destruct (contour_executes good_raw 64 sched _ Hlg Hrun) as (s & evs & E & S).
  unfold contour in S. cbn [fst snd] in S.
  assert (A1 : map erase evs = evs0) by exact (f_equal (fun x => fst (fst x)) S).
  assert (A2 : s_lock s = None) by exact (f_equal (fun x => snd (fst x)) S).
  assert (A3 : b_err (s_buf s) = None) by exact (f_equal snd S). clear S. subst evs0.
  rewrite erase_locks in Hlk. rewrite erase_ids in Hn. rewrite erase_frames in Hfr.
  assert (Hs : Forall sendable os).
  { clear - Hf Hq. induction Hq as [|e o qs os H _ IH]; [constructor|]. inversion Hf; subst. constructor; [eapply call_sendable; try eassumption; vm_compute; reflexivity|auto]. }
  assert (Hid : forall k, (k < List.length os)%nat -> In (EId k (Z.of_nat k + 1)) evs).
  { intros k Hk. exact (erase_In evs (EId k (Z.of_nat k + 1)) (proj1 (Hev k Hk))). }
  assert (HF : forall g id tl, In g (frames evs) -> g = be 4 id ++ tl -> In id (ids evs) -> ServeSpec.served F (wire evs) g).
  { intros g id tl Hg _ _. destruct (Hfr g Hg) as (k & o & x & Ho & -> & Hx & HF).
    assert (Hk : (k < List.length os)%nat) by (apply nth_error_Some; congruence).
    destruct (broker_reads good_raw 64 sched s evs os ltac:(lia) E Hm Hs) as (fs & rest & P1 & P2 & _ & P3 & P4).
    destruct (P4 A2 A3) as [L ->]. rewrite L, firstn_all, Hlk in P3. rewrite Hlk, seq_length in L.
    destruct (nth_error fs k) as [f|] eqn:Ef; [|apply nth_error_None in Ef; lia].
    assert (R : reads_call os evs k f).
    { assert (G : forall i n fs, Forall2 (reads_call os evs) (seq i n) fs -> forall j f, nth_error fs j = Some f -> reads_call os evs (i + j) f).
      { clear. intros i n. revert i. induction n as [|n IH]; intros i fs H j f Hj; inversion H; subst; [destruct j; discriminate Hj|].
        destruct j as [|j]; [cbn in Hj; injection Hj as <-; rewrite Nat.add_0_r; assumption|]. rewrite Nat.add_succ_r. exact (IH (Datatypes.S i) _ H4 j f Hj). }
      exact (G 0%nat _ _ P3 k f Ef). }
    destruct R as (o' & id' & q & U1 & U2 & (r & -> & U3) & U4). rewrite Ho in U1. injection U1 as <-.
    assert (id' = Z.of_nat k + 1) by (exact (one_id _ _ _ _ _ _ (cinv good_raw 64 sched s evs ltac:(lia) E) U2 (Hid k Hk))). subst id'.
    exists fs, [], f, (header_of o (Z.of_nat k + 1)), (existT _ (o_method o) r), (o_method o), x.
    split; [exact P1|]. split; [exact (nth_error_In _ _ Ef)|]. split; [exact U4|]. split; [reflexivity|]. split; [apply HF|]. split; [exact Hx|reflexivity]. }
  exists good_raw, 64, sched, s, evs, os. split; [lia|]. split; [exact E|]. split; [exact Hm|]. split; [exact Hq|]. split; [exact HF|].
  intros k e He. pose proof (forall2_length _ _ _ Hq) as L.
  assert (Hk : (k < List.length os)%nat) by (rewrite <- L; apply nth_error_Some; congruence).
  pose proof (proj2 (Hev k Hk)) as R. apply in_map_iff in R. destruct R as (ev & R1 & R2).
  destruct ev as [| | | | | |k' [y|[p|y]]|raw size| |k' [r|r]]; try discriminate R1. cbn in R1. injection R1 as ->.
  destruct (call_answered good_raw 64 sched s evs os ltac:(lia) E Hm Hs F Hn HF k _ R2) as (o & id & q & p0 & p' & O1 & _ & _ & O3 & O4 & O5).
  assert (Hp : p' = p) by (exact (f_equal (fun r => match r with Value y => y | Failure _ => p' end) (eq_sym O5))). clear O5. subst p'.
  exact (Hout k e o id q p0 p evs He O1 O3 O4 R2).
Qed.

Lemma ex_legal k o frame : In (o_method o) all_methods -> Forall is_byte frame -> Forall legal (ex_turn k o frame).
Proof.
  intros Hm Hb. unfold ex_turn. apply Forall_cons.
  { intros id. destruct (request_runs (o_method o) Hm (o_versions o) (o_client o) (o_req o) id) as (cs & H & _). exists cs. exact H. }
  apply Forall_app. split; [cbn [repeat]; repeat apply Forall_cons; try apply Forall_nil; exact I|].
  apply Forall_cons; [exact I|]. apply Forall_cons; [apply be_bytes|]. apply Forall_cons; [exact Hb|]. do 3 (apply Forall_cons; [exact I|]). apply Forall_nil.
Qed.
Lemma ask_method : In method_ApiVersions all_methods.
Proof. exact (nth_error_In all_methods 18 eq_refl). Qed.
Lemma order_method : In method_Metadata all_methods.
Proof. exact (nth_error_In all_methods 3 eq_refl). Qed.

Definition ex_asks (n : nat) : Client.event := EVersions n (Answer ex_got).
Definition ex_asks_nodes : Client.event := EMetadata 0 0 (metadata_request [[116]]) (Answer (ex_nodes 0)).
Definition frame1 (k : nat) : list Z := ex_frame k method_ApiVersions 0 ex_said.
Definition frame2 : list Z := ex_frame 1 method_Metadata 0 (ex_nodes 7).
Lemma ex_fitting : fitting ex_asks_nodes.
Proof. apply metadata_fitting; [|unfold is_int16; lia]. split; [repeat constructor|vm_compute; reflexivity]. Qed.
Ltac fits := repeat (cbn; lazymatch goal with |- _ /\ _ => split | |- Forall _ (_ :: _) => apply Forall_cons | |- Forall _ [] => apply Forall_nil | |- _ -> _ => intros ? | |- True => exact I | |- _ => unfold is_int16, is_int32; (lia || reflexivity) end).
Lemma said_fit : fit ApiVersionsResponse_schema 0 (ApiVersionsResponse_to ex_said).
Proof. fits. Qed.
Lemma nodes_fit : fit MetadataResponse_schema 0 (MetadataResponse_to (ex_nodes 7)).
Proof. fits. Qed.
Lemma ex_gives addr k n o id q p p' evs : o = ex_ask -> ex_K addr (header_of o id) q p -> received (o_version o) p p' ->
  In (EReturn k (Reply (Value p'))) evs -> outcome_of evs k (ex_asks n).
Proof.
  intros -> [[_ ->]|[H _]] R Hin; [|discriminate H]. destruct (received_to _ _ _ R) as (a & -> & Ea). cbn [projT1 projT2 say] in a, Ea, Hin.
  assert (a = ex_got); [|subst a; exact Hin]. change (c_type (m_resp method_ApiVersions)) with ApiVersionsResponse in a.
  destruct a as [x [[|[y1 y2 y3] [|? ?]]|] y]; cbn in Ea; try discriminate Ea. injection Ea as -> -> -> -> ->. reflexivity.
Qed.
Lemma ex_gives_nodes addr k o id q p p' evs : o = ex_order -> ex_K addr (header_of o id) q p -> received (o_version o) p p' ->
  In (EReturn k (Reply (Value p'))) evs -> outcome_of evs k ex_asks_nodes.
Proof.
  intros -> [[H _]|[_ ->]] R Hin; [discriminate H|]. destruct (received_to _ _ _ R) as (a & -> & Ea). cbn [projT1 projT2 say] in a, Ea, Hin.
  assert (a = ex_nodes 0); [|subst a; exact Hin]. change (c_type (m_resp method_Metadata)) with MetadataResponse in a.
  pose proof (f_equal MetadataResponse_of Ea) as F. change (MetadataResponse_of (c_to (m_resp method_Metadata) a)) with (MetadataResponse_of (MetadataResponse_to a)) in F.
  change MetadataResponse_of with (c_of MetadataResponse_codec) in F at 1. change MetadataResponse_to with (c_to MetadataResponse_codec) in F at 1. rewrite (l_of_to _ MetadataResponse_linked) in F. rewrite F. vm_compute. reflexivity.
Qed.

Lemma ex_first : carried ex_name (ex_K [98]) [ex_asks 0; ex_asks_nodes].
Proof.
  eapply (ex_carried _ _ [ex_ask; ex_order] (ex_turn 0 ex_ask (frame1 0) ++ ex_turn 1 ex_order frame2)).
  - apply Forall_cons; [exact I|]. apply Forall_cons; [exact ex_fitting|apply Forall_nil].
  - apply Forall2_cons; [reflexivity|]. apply Forall2_cons; [exists no_versions; split; reflexivity|apply Forall2_nil].
  - reflexivity.
  - apply Forall_app. split; apply ex_legal; try exact ask_method; try exact order_method; repeat (apply Forall_cons || apply Forall_nil); unfold is_byte; vm_compute; split; (reflexivity || discriminate).
  - vm_compute. reflexivity.
  - vm_compute. reflexivity.
  - vm_compute. discriminate.
  - intros [|[|k]] Hk; [| |cbn in Hk; lia]; split; cbn; tauto.
  - intros g Hg. cbn in Hg. destruct Hg as [<-|[<-|[]]].
    + exists 0%nat, ex_ask, ex_said. split; [reflexivity|]. split; [vm_compute; reflexivity|]. split; [exact said_fit|]. intros id q. left. split; reflexivity.
    + exists 1%nat, ex_order, (ex_nodes 7). split; [reflexivity|]. split; [vm_compute; reflexivity|]. split; [exact nodes_fit|]. intros id q. right. split; reflexivity.
  - intros [|[|k]] e o id q p p' evs He Ho; cbn in He, Ho; [| |destruct k; discriminate He]; injection He as <-; injection Ho as <-.
    + apply ex_gives. reflexivity.
    + apply ex_gives_nodes. reflexivity.
Qed.
Lemma ex_second : carried ex_name (ex_K [120; 58; 57]) [ex_asks 1].
Proof.
  eapply (ex_carried _ _ [ex_ask] (ex_turn 0 ex_ask (frame1 0))).
  - apply Forall_cons; [exact I|apply Forall_nil].
  - apply Forall2_cons; [reflexivity|apply Forall2_nil].
  - reflexivity.
  - apply ex_legal; [exact ask_method|]; repeat (apply Forall_cons || apply Forall_nil); unfold is_byte; vm_compute; split; (reflexivity || discriminate).
  - vm_compute. reflexivity.
  - vm_compute. reflexivity.
  - vm_compute. discriminate.
  - intros [|k] Hk; [|cbn in Hk; lia]; split; cbn; tauto.
  - intros g Hg. cbn in Hg. destruct Hg as [<-|[]].
    exists 0%nat, ex_ask, ex_said. split; [reflexivity|]. split; [vm_compute; reflexivity|]. split; [exact said_fit|]. intros id q. left. split; reflexivity.
  - intros [|k] e o id q p p' evs He Ho; cbn in He, Ho; [|destruct k; discriminate He]; injection He as <-; injection Ho as <-. apply ex_gives. reflexivity.
Qed.

Definition ex_client : Client := mkClient [[98]] [].
Definition ex_history : list Client.event :=
  [EDial (Plain NewDialer [98]) None; ex_asks 0; ex_asks_nodes; EDial (Plain NewDialer [120; 58; 57]) None; ex_asks 1].
Example C81_example : exists b c, DialLeader ex_client [116] 0 ex_world [] = (Done b, ex_history) /\
  conns ex_history = [[98]; [120; 58; 57]] /\ b_conn b = 1%nat /\
  env_ok ex_world /\ sane ex_client c [] ex_history /\ happened (text (f_clientID c)) ex_K ex_history.
Proof.
  destruct (DialLeader ex_client [116] 0 ex_world []) as [r h'] eqn:E. vm_compute in E. injection E as <- <-.
  eexists. exists (mkConfig defaultClientID NewDialer None). split; [reflexivity|]. split; [reflexivity|]. split; [reflexivity|]. split; [|split].
  - intros h n resp H. injection H as <-. repeat constructor; unfold is_int16; cbn; lia.
  - split; [reflexivity|]. split; [discriminate|]. split; [vm_compute; reflexivity|]. split; [constructor|vm_compute; discriminate].
  - intros [|[|n]] addr H; [| |destruct n; discriminate H]; injection H as <-; [exact ex_first|exact ex_second].
Qed.
