(** * Tables of gen.broker.go and message/keys.go.

    Written by tools/gen_broker.py; do not edit. *)
From Coq Require Import String.
From Verif Require Import GoBase Link Msg01 Msg02 Msg03 Msg04 Msg05 Msg06 Msg07 Msg08 Msg09 Msg10.

(** The fields of the struct apiVersion, gen.broker.go:1275-1324. *)
Inductive api : Type :=
| Produce
| Fetch
| ListOffset
| Metadata
| LeaderAndIsr
| StopReplica
| UpdateMetadata
| ControlledShutdown
| OffsetCommit
| OffsetFetch
| FindCoordinator
| JoinGroup
| Heartbeat
| LeaveGroup
| SyncGroup
| DescribeGroups
| ListGroups
| SaslHandshake
| ApiVersions
| CreateTopics
| DeleteTopics
| DeleteRecords
| InitProducerId
| OffsetForLeaderEpoch
| AddPartitionsToTxn
| AddOffsetsToTxn
| EndTxn
| WriteTxnMarkers
| TxnOffsetCommit
| DescribeAcls
| CreateAcls
| DeleteAcls
| DescribeConfigs
| AlterConfigs
| AlterReplicaLogDirs
| DescribeLogDirs
| SaslAuthenticate
| CreatePartitions
| CreateDelegationToken
| RenewDelegationToken
| ExpireDelegationToken
| DescribeDelegationToken
| DeleteGroups
| ElectLeaders
| IncrementalAlterConfigs
| AlterPartitionReassignments
| ListPartitionReassignments
| OffsetDelete.
Definition api_index (a : api) : Z :=
  match a with
  | Produce => 0
  | Fetch => 1
  | ListOffset => 2
  | Metadata => 3
  | LeaderAndIsr => 4
  | StopReplica => 5
  | UpdateMetadata => 6
  | ControlledShutdown => 7
  | OffsetCommit => 8
  | OffsetFetch => 9
  | FindCoordinator => 10
  | JoinGroup => 11
  | Heartbeat => 12
  | LeaveGroup => 13
  | SyncGroup => 14
  | DescribeGroups => 15
  | ListGroups => 16
  | SaslHandshake => 17
  | ApiVersions => 18
  | CreateTopics => 19
  | DeleteTopics => 20
  | DeleteRecords => 21
  | InitProducerId => 22
  | OffsetForLeaderEpoch => 23
  | AddPartitionsToTxn => 24
  | AddOffsetsToTxn => 25
  | EndTxn => 26
  | WriteTxnMarkers => 27
  | TxnOffsetCommit => 28
  | DescribeAcls => 29
  | CreateAcls => 30
  | DeleteAcls => 31
  | DescribeConfigs => 32
  | AlterConfigs => 33
  | AlterReplicaLogDirs => 34
  | DescribeLogDirs => 35
  | SaslAuthenticate => 36
  | CreatePartitions => 37
  | CreateDelegationToken => 38
  | RenewDelegationToken => 39
  | ExpireDelegationToken => 40
  | DescribeDelegationToken => 41
  | DeleteGroups => 42
  | ElectLeaders => 43
  | IncrementalAlterConfigs => 44
  | AlterPartitionReassignments => 45
  | ListPartitionReassignments => 46
  | OffsetDelete => 47
  end.
Definition api_name (a : api) : string :=
  match a with
  | Produce => "Produce"
  | Fetch => "Fetch"
  | ListOffset => "ListOffset"
  | Metadata => "Metadata"
  | LeaderAndIsr => "LeaderAndIsr"
  | StopReplica => "StopReplica"
  | UpdateMetadata => "UpdateMetadata"
  | ControlledShutdown => "ControlledShutdown"
  | OffsetCommit => "OffsetCommit"
  | OffsetFetch => "OffsetFetch"
  | FindCoordinator => "FindCoordinator"
  | JoinGroup => "JoinGroup"
  | Heartbeat => "Heartbeat"
  | LeaveGroup => "LeaveGroup"
  | SyncGroup => "SyncGroup"
  | DescribeGroups => "DescribeGroups"
  | ListGroups => "ListGroups"
  | SaslHandshake => "SaslHandshake"
  | ApiVersions => "ApiVersions"
  | CreateTopics => "CreateTopics"
  | DeleteTopics => "DeleteTopics"
  | DeleteRecords => "DeleteRecords"
  | InitProducerId => "InitProducerId"
  | OffsetForLeaderEpoch => "OffsetForLeaderEpoch"
  | AddPartitionsToTxn => "AddPartitionsToTxn"
  | AddOffsetsToTxn => "AddOffsetsToTxn"
  | EndTxn => "EndTxn"
  | WriteTxnMarkers => "WriteTxnMarkers"
  | TxnOffsetCommit => "TxnOffsetCommit"
  | DescribeAcls => "DescribeAcls"
  | CreateAcls => "CreateAcls"
  | DeleteAcls => "DeleteAcls"
  | DescribeConfigs => "DescribeConfigs"
  | AlterConfigs => "AlterConfigs"
  | AlterReplicaLogDirs => "AlterReplicaLogDirs"
  | DescribeLogDirs => "DescribeLogDirs"
  | SaslAuthenticate => "SaslAuthenticate"
  | CreatePartitions => "CreatePartitions"
  | CreateDelegationToken => "CreateDelegationToken"
  | RenewDelegationToken => "RenewDelegationToken"
  | ExpireDelegationToken => "ExpireDelegationToken"
  | DescribeDelegationToken => "DescribeDelegationToken"
  | DeleteGroups => "DeleteGroups"
  | ElectLeaders => "ElectLeaders"
  | IncrementalAlterConfigs => "IncrementalAlterConfigs"
  | AlterPartitionReassignments => "AlterPartitionReassignments"
  | ListPartitionReassignments => "ListPartitionReassignments"
  | OffsetDelete => "OffsetDelete"
  end%string.
Definition all_apis : list api :=
  [Produce; Fetch; ListOffset; Metadata; LeaderAndIsr; StopReplica; UpdateMetadata; ControlledShutdown; OffsetCommit; OffsetFetch; FindCoordinator; JoinGroup; Heartbeat; LeaveGroup; SyncGroup; DescribeGroups; ListGroups; SaslHandshake; ApiVersions; CreateTopics; DeleteTopics; DeleteRecords; InitProducerId; OffsetForLeaderEpoch; AddPartitionsToTxn; AddOffsetsToTxn; EndTxn; WriteTxnMarkers; TxnOffsetCommit; DescribeAcls; CreateAcls; DeleteAcls; DescribeConfigs; AlterConfigs; AlterReplicaLogDirs; DescribeLogDirs; SaslAuthenticate; CreatePartitions; CreateDelegationToken; RenewDelegationToken; ExpireDelegationToken; DescribeDelegationToken; DeleteGroups; ElectLeaders; IncrementalAlterConfigs; AlterPartitionReassignments; ListPartitionReassignments; OffsetDelete].

(** message/keys.go:20-67 *)
Definition KeyProduce : Z := 0.
Definition KeyFetch : Z := 1.
Definition KeyListOffset : Z := 2.
Definition KeyMetadata : Z := 3.
Definition KeyLeaderAndIsr : Z := 4.
Definition KeyStopReplica : Z := 5.
Definition KeyUpdateMetadata : Z := 6.
Definition KeyControlledShutdown : Z := 7.
Definition KeyOffsetCommit : Z := 8.
Definition KeyOffsetFetch : Z := 9.
Definition KeyFindCoordinator : Z := 10.
Definition KeyJoinGroup : Z := 11.
Definition KeyHeartbeat : Z := 12.
Definition KeyLeaveGroup : Z := 13.
Definition KeySyncGroup : Z := 14.
Definition KeyDescribeGroups : Z := 15.
Definition KeyListGroups : Z := 16.
Definition KeySaslHandshake : Z := 17.
Definition KeyApiVersions : Z := 18.
Definition KeyCreateTopics : Z := 19.
Definition KeyDeleteTopics : Z := 20.
Definition KeyDeleteRecords : Z := 21.
Definition KeyInitProducerId : Z := 22.
Definition KeyOffsetForLeaderEpoch : Z := 23.
Definition KeyAddPartitionsToTxn : Z := 24.
Definition KeyAddOffsetsToTxn : Z := 25.
Definition KeyEndTxn : Z := 26.
Definition KeyWriteTxnMarkers : Z := 27.
Definition KeyTxnOffsetCommit : Z := 28.
Definition KeyDescribeAcls : Z := 29.
Definition KeyCreateAcls : Z := 30.
Definition KeyDeleteAcls : Z := 31.
Definition KeyDescribeConfigs : Z := 32.
Definition KeyAlterConfigs : Z := 33.
Definition KeyAlterReplicaLogDirs : Z := 34.
Definition KeyDescribeLogDirs : Z := 35.
Definition KeySaslAuthenticate : Z := 36.
Definition KeyCreatePartitions : Z := 37.
Definition KeyCreateDelegationToken : Z := 38.
Definition KeyRenewDelegationToken : Z := 39.
Definition KeyExpireDelegationToken : Z := 40.
Definition KeyDescribeDelegationToken : Z := 41.
Definition KeyDeleteGroups : Z := 42.
Definition KeyElectLeaders : Z := 43.
Definition KeyIncrementalAlterConfigs : Z := 44.
Definition KeyAlterPartitionReassignments : Z := 45.
Definition KeyListPartitionReassignments : Z := 46.
Definition KeyOffsetDelete : Z := 47.

(** The cases of the switch in negotiateApiVersions, gen.broker.go:1335-1575: the
    constant, the field assigned, and the two literals given to matchVersion. *)
Definition negotiation_cases : list (Z * (api * Z * Z)) :=
  [(KeyProduce, (Produce, 0, 8));
   (KeyFetch, (Fetch, 0, 11));
   (KeyListOffset, (ListOffset, 0, 5));
   (KeyMetadata, (Metadata, 0, 9));
   (KeyLeaderAndIsr, (LeaderAndIsr, 0, 4));
   (KeyStopReplica, (StopReplica, 0, 2));
   (KeyUpdateMetadata, (UpdateMetadata, 0, 6));
   (KeyControlledShutdown, (ControlledShutdown, 0, 3));
   (KeyOffsetCommit, (OffsetCommit, 0, 8));
   (KeyOffsetFetch, (OffsetFetch, 0, 6));
   (KeyFindCoordinator, (FindCoordinator, 0, 3));
   (KeyJoinGroup, (JoinGroup, 0, 6));
   (KeyHeartbeat, (Heartbeat, 0, 4));
   (KeyLeaveGroup, (LeaveGroup, 0, 4));
   (KeySyncGroup, (SyncGroup, 0, 4));
   (KeyDescribeGroups, (DescribeGroups, 0, 5));
   (KeyListGroups, (ListGroups, 0, 3));
   (KeySaslHandshake, (SaslHandshake, 0, 1));
   (KeyApiVersions, (ApiVersions, 0, 3));
   (KeyCreateTopics, (CreateTopics, 0, 5));
   (KeyDeleteTopics, (DeleteTopics, 0, 4));
   (KeyDeleteRecords, (DeleteRecords, 0, 1));
   (KeyInitProducerId, (InitProducerId, 0, 2));
   (KeyOffsetForLeaderEpoch, (OffsetForLeaderEpoch, 0, 3));
   (KeyAddPartitionsToTxn, (AddPartitionsToTxn, 0, 1));
   (KeyAddOffsetsToTxn, (AddOffsetsToTxn, 0, 1));
   (KeyEndTxn, (EndTxn, 0, 1));
   (KeyWriteTxnMarkers, (WriteTxnMarkers, 0, 0));
   (KeyTxnOffsetCommit, (TxnOffsetCommit, 0, 2));
   (KeyDescribeAcls, (DescribeAcls, 0, 1));
   (KeyCreateAcls, (CreateAcls, 0, 1));
   (KeyDeleteAcls, (DeleteAcls, 0, 1));
   (KeyDescribeConfigs, (DescribeConfigs, 0, 2));
   (KeyAlterConfigs, (AlterConfigs, 0, 1));
   (KeyAlterReplicaLogDirs, (AlterReplicaLogDirs, 0, 1));
   (KeyDescribeLogDirs, (DescribeLogDirs, 0, 1));
   (KeySaslAuthenticate, (SaslAuthenticate, 0, 1));
   (KeyCreatePartitions, (CreatePartitions, 0, 1));
   (KeyCreateDelegationToken, (CreateDelegationToken, 0, 2));
   (KeyRenewDelegationToken, (RenewDelegationToken, 0, 1));
   (KeyExpireDelegationToken, (ExpireDelegationToken, 0, 1));
   (KeyDescribeDelegationToken, (DescribeDelegationToken, 0, 1));
   (KeyDeleteGroups, (DeleteGroups, 0, 2));
   (KeyElectLeaders, (ElectLeaders, 0, 2));
   (KeyIncrementalAlterConfigs, (IncrementalAlterConfigs, 0, 1));
   (KeyAlterPartitionReassignments, (AlterPartitionReassignments, 0, 0));
   (KeyListPartitionReassignments, (ListPartitionReassignments, 0, 0));
   (KeyOffsetDelete, (OffsetDelete, 0, 0))].

(** What the 48 request methods of Broker differ in.  The shape they share is
    modelled in Broker.v. *)
Record method : Type := Method {
  m_name : string;       (** the method *)
  m_key : Z;             (** RequestApiKey of the header *)
  m_v_header : api;      (** field giving RequestApiVersion *)
  m_header_size : Z;     (** literal in hdr.Size *)
  m_v_size : api;        (** field in req.Size *)
  m_header_encode : Z;   (** literal in hdr.Encode *)
  m_v_encode : api;      (** field in req.Encode *)
  m_v_decode : api;      (** field in resp.Decode *)
  m_req_name : string; m_req : codec;
  m_resp_name : string; m_resp : codec
}.

(** gen.broker.go:66-88 *)
Definition method_Produce : method :=
  Method "Produce" KeyProduce Produce 2 Produce 2 Produce Produce "ProduceRequest" ProduceRequest_codec "ProduceResponse" ProduceResponse_codec.
(** gen.broker.go:91-113 *)
Definition method_Fetch : method :=
  Method "Fetch" KeyFetch Fetch 2 Fetch 2 Fetch Fetch "FetchRequest" FetchRequest_codec "FetchResponse" FetchResponse_codec.
(** gen.broker.go:116-138 *)
Definition method_ListOffset : method :=
  Method "ListOffset" KeyListOffset ListOffset 2 ListOffset 2 ListOffset ListOffset "ListOffsetRequest" ListOffsetRequest_codec "ListOffsetResponse" ListOffsetResponse_codec.
(** gen.broker.go:141-163 *)
Definition method_Metadata : method :=
  Method "Metadata" KeyMetadata Metadata 2 Metadata 2 Metadata Metadata "MetadataRequest" MetadataRequest_codec "MetadataResponse" MetadataResponse_codec.
(** gen.broker.go:166-188 *)
Definition method_LeaderAndIsr : method :=
  Method "LeaderAndIsr" KeyLeaderAndIsr LeaderAndIsr 2 LeaderAndIsr 2 LeaderAndIsr LeaderAndIsr "LeaderAndIsrRequest" LeaderAndIsrRequest_codec "LeaderAndIsrResponse" LeaderAndIsrResponse_codec.
(** gen.broker.go:191-213 *)
Definition method_StopReplica : method :=
  Method "StopReplica" KeyStopReplica StopReplica 2 StopReplica 2 StopReplica StopReplica "StopReplicaRequest" StopReplicaRequest_codec "StopReplicaResponse" StopReplicaResponse_codec.
(** gen.broker.go:216-238 *)
Definition method_UpdateMetadata : method :=
  Method "UpdateMetadata" KeyUpdateMetadata UpdateMetadata 2 UpdateMetadata 2 UpdateMetadata UpdateMetadata "UpdateMetadataRequest" UpdateMetadataRequest_codec "UpdateMetadataResponse" UpdateMetadataResponse_codec.
(** gen.broker.go:241-263 *)
Definition method_ControlledShutdown : method :=
  Method "ControlledShutdown" KeyControlledShutdown ControlledShutdown 2 ControlledShutdown 2 ControlledShutdown ControlledShutdown "ControlledShutdownRequest" ControlledShutdownRequest_codec "ControlledShutdownResponse" ControlledShutdownResponse_codec.
(** gen.broker.go:266-288 *)
Definition method_OffsetCommit : method :=
  Method "OffsetCommit" KeyOffsetCommit OffsetCommit 2 OffsetCommit 2 OffsetCommit OffsetCommit "OffsetCommitRequest" OffsetCommitRequest_codec "OffsetCommitResponse" OffsetCommitResponse_codec.
(** gen.broker.go:291-313 *)
Definition method_OffsetFetch : method :=
  Method "OffsetFetch" KeyOffsetFetch OffsetFetch 2 OffsetFetch 2 OffsetFetch OffsetFetch "OffsetFetchRequest" OffsetFetchRequest_codec "OffsetFetchResponse" OffsetFetchResponse_codec.
(** gen.broker.go:316-338 *)
Definition method_FindCoordinator : method :=
  Method "FindCoordinator" KeyFindCoordinator FindCoordinator 2 FindCoordinator 2 FindCoordinator FindCoordinator "FindCoordinatorRequest" FindCoordinatorRequest_codec "FindCoordinatorResponse" FindCoordinatorResponse_codec.
(** gen.broker.go:341-363 *)
Definition method_JoinGroup : method :=
  Method "JoinGroup" KeyJoinGroup JoinGroup 2 JoinGroup 2 JoinGroup JoinGroup "JoinGroupRequest" JoinGroupRequest_codec "JoinGroupResponse" JoinGroupResponse_codec.
(** gen.broker.go:366-388 *)
Definition method_Heartbeat : method :=
  Method "Heartbeat" KeyHeartbeat Heartbeat 2 Heartbeat 2 Heartbeat Heartbeat "HeartbeatRequest" HeartbeatRequest_codec "HeartbeatResponse" HeartbeatResponse_codec.
(** gen.broker.go:391-413 *)
Definition method_LeaveGroup : method :=
  Method "LeaveGroup" KeyLeaveGroup LeaveGroup 2 LeaveGroup 2 LeaveGroup LeaveGroup "LeaveGroupRequest" LeaveGroupRequest_codec "LeaveGroupResponse" LeaveGroupResponse_codec.
(** gen.broker.go:416-438 *)
Definition method_SyncGroup : method :=
  Method "SyncGroup" KeySyncGroup SyncGroup 2 SyncGroup 2 SyncGroup SyncGroup "SyncGroupRequest" SyncGroupRequest_codec "SyncGroupResponse" SyncGroupResponse_codec.
(** gen.broker.go:441-463 *)
Definition method_DescribeGroups : method :=
  Method "DescribeGroups" KeyDescribeGroups DescribeGroups 2 DescribeGroups 2 DescribeGroups DescribeGroups "DescribeGroupsRequest" DescribeGroupsRequest_codec "DescribeGroupsResponse" DescribeGroupsResponse_codec.
(** gen.broker.go:466-488 *)
Definition method_ListGroups : method :=
  Method "ListGroups" KeyListGroups ListGroups 2 ListGroups 2 ListGroups ListGroups "ListGroupsRequest" ListGroupsRequest_codec "ListGroupsResponse" ListGroupsResponse_codec.
(** gen.broker.go:491-513 *)
Definition method_SaslHandshake : method :=
  Method "SaslHandshake" KeySaslHandshake SaslHandshake 2 SaslHandshake 2 SaslHandshake SaslHandshake "SaslHandshakeRequest" SaslHandshakeRequest_codec "SaslHandshakeResponse" SaslHandshakeResponse_codec.
(** gen.broker.go:516-538 *)
Definition method_ApiVersions : method :=
  Method "ApiVersions" KeyApiVersions ApiVersions 2 ApiVersions 2 ApiVersions ApiVersions "ApiVersionsRequest" ApiVersionsRequest_codec "ApiVersionsResponse" ApiVersionsResponse_codec.
(** gen.broker.go:541-563 *)
Definition method_CreateTopics : method :=
  Method "CreateTopics" KeyCreateTopics CreateTopics 2 CreateTopics 2 CreateTopics CreateTopics "CreateTopicsRequest" CreateTopicsRequest_codec "CreateTopicsResponse" CreateTopicsResponse_codec.
(** gen.broker.go:566-588 *)
Definition method_DeleteTopics : method :=
  Method "DeleteTopics" KeyDeleteTopics DeleteTopics 2 DeleteTopics 2 DeleteTopics DeleteTopics "DeleteTopicsRequest" DeleteTopicsRequest_codec "DeleteTopicsResponse" DeleteTopicsResponse_codec.
(** gen.broker.go:591-613 *)
Definition method_DeleteRecords : method :=
  Method "DeleteRecords" KeyDeleteRecords DeleteRecords 2 DeleteRecords 2 DeleteRecords DeleteRecords "DeleteRecordsRequest" DeleteRecordsRequest_codec "DeleteRecordsResponse" DeleteRecordsResponse_codec.
(** gen.broker.go:616-638 *)
Definition method_InitProducerId : method :=
  Method "InitProducerId" KeyInitProducerId InitProducerId 2 InitProducerId 2 InitProducerId InitProducerId "InitProducerIdRequest" InitProducerIdRequest_codec "InitProducerIdResponse" InitProducerIdResponse_codec.
(** gen.broker.go:641-663 *)
Definition method_OffsetForLeaderEpoch : method :=
  Method "OffsetForLeaderEpoch" KeyOffsetForLeaderEpoch OffsetForLeaderEpoch 2 OffsetForLeaderEpoch 2 OffsetForLeaderEpoch OffsetForLeaderEpoch "OffsetForLeaderEpochRequest" OffsetForLeaderEpochRequest_codec "OffsetForLeaderEpochResponse" OffsetForLeaderEpochResponse_codec.
(** gen.broker.go:666-688 *)
Definition method_AddPartitionsToTxn : method :=
  Method "AddPartitionsToTxn" KeyAddPartitionsToTxn AddPartitionsToTxn 2 AddPartitionsToTxn 2 AddPartitionsToTxn AddPartitionsToTxn "AddPartitionsToTxnRequest" AddPartitionsToTxnRequest_codec "AddPartitionsToTxnResponse" AddPartitionsToTxnResponse_codec.
(** gen.broker.go:691-713 *)
Definition method_AddOffsetsToTxn : method :=
  Method "AddOffsetsToTxn" KeyAddOffsetsToTxn AddOffsetsToTxn 2 AddOffsetsToTxn 2 AddOffsetsToTxn AddOffsetsToTxn "AddOffsetsToTxnRequest" AddOffsetsToTxnRequest_codec "AddOffsetsToTxnResponse" AddOffsetsToTxnResponse_codec.
(** gen.broker.go:716-738 *)
Definition method_EndTxn : method :=
  Method "EndTxn" KeyEndTxn EndTxn 2 EndTxn 2 EndTxn EndTxn "EndTxnRequest" EndTxnRequest_codec "EndTxnResponse" EndTxnResponse_codec.
(** gen.broker.go:741-763 *)
Definition method_WriteTxnMarkers : method :=
  Method "WriteTxnMarkers" KeyWriteTxnMarkers WriteTxnMarkers 2 WriteTxnMarkers 2 WriteTxnMarkers WriteTxnMarkers "WriteTxnMarkersRequest" WriteTxnMarkersRequest_codec "WriteTxnMarkersResponse" WriteTxnMarkersResponse_codec.
(** gen.broker.go:766-788 *)
Definition method_TxnOffsetCommit : method :=
  Method "TxnOffsetCommit" KeyTxnOffsetCommit TxnOffsetCommit 2 TxnOffsetCommit 2 TxnOffsetCommit TxnOffsetCommit "TxnOffsetCommitRequest" TxnOffsetCommitRequest_codec "TxnOffsetCommitResponse" TxnOffsetCommitResponse_codec.
(** gen.broker.go:791-813 *)
Definition method_DescribeAcls : method :=
  Method "DescribeAcls" KeyDescribeAcls DescribeAcls 2 DescribeAcls 2 DescribeAcls DescribeAcls "DescribeAclsRequest" DescribeAclsRequest_codec "DescribeAclsResponse" DescribeAclsResponse_codec.
(** gen.broker.go:816-838 *)
Definition method_CreateAcls : method :=
  Method "CreateAcls" KeyCreateAcls CreateAcls 2 CreateAcls 2 CreateAcls CreateAcls "CreateAclsRequest" CreateAclsRequest_codec "CreateAclsResponse" CreateAclsResponse_codec.
(** gen.broker.go:841-863 *)
Definition method_DeleteAcls : method :=
  Method "DeleteAcls" KeyDeleteAcls DeleteAcls 2 DeleteAcls 2 DeleteAcls DeleteAcls "DeleteAclsRequest" DeleteAclsRequest_codec "DeleteAclsResponse" DeleteAclsResponse_codec.
(** gen.broker.go:866-888 *)
Definition method_DescribeConfigs : method :=
  Method "DescribeConfigs" KeyDescribeConfigs DescribeConfigs 2 DescribeConfigs 2 DescribeConfigs DescribeConfigs "DescribeConfigsRequest" DescribeConfigsRequest_codec "DescribeConfigsResponse" DescribeConfigsResponse_codec.
(** gen.broker.go:891-913 *)
Definition method_AlterConfigs : method :=
  Method "AlterConfigs" KeyAlterConfigs AlterConfigs 2 AlterConfigs 2 AlterConfigs AlterConfigs "AlterConfigsRequest" AlterConfigsRequest_codec "AlterConfigsResponse" AlterConfigsResponse_codec.
(** gen.broker.go:916-938 *)
Definition method_AlterReplicaLogDirs : method :=
  Method "AlterReplicaLogDirs" KeyAlterReplicaLogDirs AlterReplicaLogDirs 2 AlterReplicaLogDirs 2 AlterReplicaLogDirs AlterReplicaLogDirs "AlterReplicaLogDirsRequest" AlterReplicaLogDirsRequest_codec "AlterReplicaLogDirsResponse" AlterReplicaLogDirsResponse_codec.
(** gen.broker.go:941-963 *)
Definition method_DescribeLogDirs : method :=
  Method "DescribeLogDirs" KeyDescribeLogDirs DescribeLogDirs 2 DescribeLogDirs 2 DescribeLogDirs DescribeLogDirs "DescribeLogDirsRequest" DescribeLogDirsRequest_codec "DescribeLogDirsResponse" DescribeLogDirsResponse_codec.
(** gen.broker.go:966-988 *)
Definition method_SaslAuthenticate : method :=
  Method "SaslAuthenticate" KeySaslAuthenticate SaslAuthenticate 2 SaslAuthenticate 2 SaslAuthenticate SaslAuthenticate "SaslAuthenticateRequest" SaslAuthenticateRequest_codec "SaslAuthenticateResponse" SaslAuthenticateResponse_codec.
(** gen.broker.go:991-1013 *)
Definition method_CreatePartitions : method :=
  Method "CreatePartitions" KeyCreatePartitions CreatePartitions 2 CreatePartitions 2 CreatePartitions CreatePartitions "CreatePartitionsRequest" CreatePartitionsRequest_codec "CreatePartitionsResponse" CreatePartitionsResponse_codec.
(** gen.broker.go:1016-1038 *)
Definition method_CreateDelegationToken : method :=
  Method "CreateDelegationToken" KeyCreateDelegationToken CreateDelegationToken 2 CreateDelegationToken 2 CreateDelegationToken CreateDelegationToken "CreateDelegationTokenRequest" CreateDelegationTokenRequest_codec "CreateDelegationTokenResponse" CreateDelegationTokenResponse_codec.
(** gen.broker.go:1041-1063 *)
Definition method_RenewDelegationToken : method :=
  Method "RenewDelegationToken" KeyRenewDelegationToken RenewDelegationToken 2 RenewDelegationToken 2 RenewDelegationToken RenewDelegationToken "RenewDelegationTokenRequest" RenewDelegationTokenRequest_codec "RenewDelegationTokenResponse" RenewDelegationTokenResponse_codec.
(** gen.broker.go:1066-1088 *)
Definition method_ExpireDelegationToken : method :=
  Method "ExpireDelegationToken" KeyExpireDelegationToken ExpireDelegationToken 2 ExpireDelegationToken 2 ExpireDelegationToken ExpireDelegationToken "ExpireDelegationTokenRequest" ExpireDelegationTokenRequest_codec "ExpireDelegationTokenResponse" ExpireDelegationTokenResponse_codec.
(** gen.broker.go:1091-1113 *)
Definition method_DescribeDelegationToken : method :=
  Method "DescribeDelegationToken" KeyDescribeDelegationToken DescribeDelegationToken 2 DescribeDelegationToken 2 DescribeDelegationToken DescribeDelegationToken "DescribeDelegationTokenRequest" DescribeDelegationTokenRequest_codec "DescribeDelegationTokenResponse" DescribeDelegationTokenResponse_codec.
(** gen.broker.go:1116-1138 *)
Definition method_DeleteGroups : method :=
  Method "DeleteGroups" KeyDeleteGroups DeleteGroups 2 DeleteGroups 2 DeleteGroups DeleteGroups "DeleteGroupsRequest" DeleteGroupsRequest_codec "DeleteGroupsResponse" DeleteGroupsResponse_codec.
(** gen.broker.go:1141-1163 *)
Definition method_ElectLeaders : method :=
  Method "ElectLeaders" KeyElectLeaders ElectLeaders 2 ElectLeaders 2 ElectLeaders ElectLeaders "ElectLeadersRequest" ElectLeadersRequest_codec "ElectLeadersResponse" ElectLeadersResponse_codec.
(** gen.broker.go:1166-1188 *)
Definition method_IncrementalAlterConfigs : method :=
  Method "IncrementalAlterConfigs" KeyIncrementalAlterConfigs IncrementalAlterConfigs 2 IncrementalAlterConfigs 2 IncrementalAlterConfigs IncrementalAlterConfigs "IncrementalAlterConfigsRequest" IncrementalAlterConfigsRequest_codec "IncrementalAlterConfigsResponse" IncrementalAlterConfigsResponse_codec.
(** gen.broker.go:1191-1213 *)
Definition method_AlterPartitionReassignments : method :=
  Method "AlterPartitionReassignments" KeyAlterPartitionReassignments AlterPartitionReassignments 2 AlterPartitionReassignments 2 AlterPartitionReassignments AlterPartitionReassignments "AlterPartitionReassignmentsRequest" AlterPartitionReassignmentsRequest_codec "AlterPartitionReassignmentsResponse" AlterPartitionReassignmentsResponse_codec.
(** gen.broker.go:1216-1238 *)
Definition method_ListPartitionReassignments : method :=
  Method "ListPartitionReassignments" KeyListPartitionReassignments ListPartitionReassignments 2 ListPartitionReassignments 2 ListPartitionReassignments ListPartitionReassignments "ListPartitionReassignmentsRequest" ListPartitionReassignmentsRequest_codec "ListPartitionReassignmentsResponse" ListPartitionReassignmentsResponse_codec.
(** gen.broker.go:1241-1263 *)
Definition method_OffsetDelete : method :=
  Method "OffsetDelete" KeyOffsetDelete OffsetDelete 2 OffsetDelete 2 OffsetDelete OffsetDelete "OffsetDeleteRequest" OffsetDeleteRequest_codec "OffsetDeleteResponse" OffsetDeleteResponse_codec.

Definition all_methods : list method :=
  [method_Produce;
   method_Fetch;
   method_ListOffset;
   method_Metadata;
   method_LeaderAndIsr;
   method_StopReplica;
   method_UpdateMetadata;
   method_ControlledShutdown;
   method_OffsetCommit;
   method_OffsetFetch;
   method_FindCoordinator;
   method_JoinGroup;
   method_Heartbeat;
   method_LeaveGroup;
   method_SyncGroup;
   method_DescribeGroups;
   method_ListGroups;
   method_SaslHandshake;
   method_ApiVersions;
   method_CreateTopics;
   method_DeleteTopics;
   method_DeleteRecords;
   method_InitProducerId;
   method_OffsetForLeaderEpoch;
   method_AddPartitionsToTxn;
   method_AddOffsetsToTxn;
   method_EndTxn;
   method_WriteTxnMarkers;
   method_TxnOffsetCommit;
   method_DescribeAcls;
   method_CreateAcls;
   method_DeleteAcls;
   method_DescribeConfigs;
   method_AlterConfigs;
   method_AlterReplicaLogDirs;
   method_DescribeLogDirs;
   method_SaslAuthenticate;
   method_CreatePartitions;
   method_CreateDelegationToken;
   method_RenewDelegationToken;
   method_ExpireDelegationToken;
   method_DescribeDelegationToken;
   method_DeleteGroups;
   method_ElectLeaders;
   method_IncrementalAlterConfigs;
   method_AlterPartitionReassignments;
   method_ListPartitionReassignments;
   method_OffsetDelete].
