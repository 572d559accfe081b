(** * message/keys.go, gen.option.go, gen.broker.go and client.go as terms of GoLang.v

    Written by tools/go_source.py, which see. *)
From Coq Require Import String.
From Verif Require Import GoBase GoLang.
Local Open Scope string_scope.
Local Open Scope list_scope.
Local Open Scope Z_scope.

(** gen.option.go:36 *)
Definition go_kafka_WithDialer : func := mkFunc [("dialer", GPtr (GNamed "net.Dialer"))] [GNamed "Option"]
  [SReturn [(EFunc "kafka.WithDialer.func1")]].
(** gen.option.go:47 *)
Definition go_kafka_WithTLS : func := mkFunc [("tlsConfig", GPtr (GNamed "tls.Config"))] [GNamed "Option"]
  [SReturn [(EFunc "kafka.WithTLS.func1")]].
(** gen.option.go:53 *)
Definition go_kafka_buildConfig : func := mkFunc [("opts", GSlice (GNamed "Option"))] [GNamed "config"]
  [SDefine ["c"] [(EStruct "config" [("clientID", (EGlobal "kafka.defaultClientID")); ("dialer", (ENew "net.Dialer" []))])];
   SRange "_" "opt" (EVar "opts")
     [SExpr (EApply (EVar "opt") [(EAddr (EVar "c"))])];
   SReturn [(EVar "c")]].
(** gen.broker.go:33 *)
Definition go_kafka_NewBroker : func := mkFunc [("addr", GString); ("opts", GDots (GNamed "Option"))] [GPtr (GNamed "Broker"); GNamed "error"]
  [SDefine ["config"] [(ECall "kafka.buildConfig" [(EVar "opts")])];
   SDefine ["conn"; "err"] [(ECall "kafka.Connect" [(EVar "addr"); (ESpread (EVar "opts"))])];
   SIf [] (EBin Ne (EVar "err") ENil)
     [SReturn [ENil; (EVar "err")]]
     [];
   SDefine ["broker"] [(ENew "Broker" [("config", (EVar "config")); ("conn", (EVar "conn"))])];
   SDefine ["resp"; "err"] [(EMethod (EVar "broker") "ApiVersions" [(EStruct "ApiVersionsRequest" [])])];
   SIf [] (EBin Ne (EVar "err") ENil)
     [SReturn [ENil; (ECall "fmt.Errorf" [(EStr [117; 110; 97; 98; 108; 101; 32; 116; 111; 32; 99; 114; 101; 97; 116; 101; 32; 98; 114; 111; 107; 101; 114; 58; 32; 37; 119]); (EVar "err")])]]
     [];
   SDefine ["apiVersion"; "err"] [(ECall "kafka.negotiateApiVersions" [(EField (EVar "resp") "ApiKeys")])];
   SIf [] (EBin Ne (EVar "err") ENil)
     [SReturn [ENil; (ECall "fmt.Errorf" [(EStr [117; 110; 97; 98; 108; 101; 32; 116; 111; 32; 99; 114; 101; 97; 116; 101; 32; 98; 114; 111; 107; 101; 114; 58; 32; 37; 119]); (EVar "err")])]]
     [];
   SAssign [(EField (EVar "broker") "apiVersion")] [(EVar "apiVersion")];
   SReturn [(EVar "broker"); ENil]].
(** gen.broker.go:61 *)
Definition go_Broker_Close : func := mkFunc [("b", GPtr (GNamed "Broker"))] [GNamed "error"]
  [SReturn [(EMethod (EField (EVar "b") "conn") "Close" [])]].
(** gen.broker.go:66 *)
Definition go_Broker_Produce : func := mkFunc [("b", GPtr (GNamed "Broker")); ("req", GNamed "ProduceRequest")] [GNamed "ProduceResponse"; GNamed "error"]
  [SVar "resp" (Some (GNamed "ProduceResponse")) None;
   SDefine ["err"] [(EMethod (EField (EVar "b") "conn") "Do" [(EFunc "Broker.Produce.func1"); (EFunc "Broker.Produce.func2")])];
   SReturn [(EVar "resp"); (EVar "err")]].
(** gen.broker.go:91 *)
Definition go_Broker_Fetch : func := mkFunc [("b", GPtr (GNamed "Broker")); ("req", GNamed "FetchRequest")] [GNamed "FetchResponse"; GNamed "error"]
  [SVar "resp" (Some (GNamed "FetchResponse")) None;
   SDefine ["err"] [(EMethod (EField (EVar "b") "conn") "Do" [(EFunc "Broker.Fetch.func1"); (EFunc "Broker.Fetch.func2")])];
   SReturn [(EVar "resp"); (EVar "err")]].
(** gen.broker.go:116 *)
Definition go_Broker_ListOffset : func := mkFunc [("b", GPtr (GNamed "Broker")); ("req", GNamed "ListOffsetRequest")] [GNamed "ListOffsetResponse"; GNamed "error"]
  [SVar "resp" (Some (GNamed "ListOffsetResponse")) None;
   SDefine ["err"] [(EMethod (EField (EVar "b") "conn") "Do" [(EFunc "Broker.ListOffset.func1"); (EFunc "Broker.ListOffset.func2")])];
   SReturn [(EVar "resp"); (EVar "err")]].
(** gen.broker.go:141 *)
Definition go_Broker_Metadata : func := mkFunc [("b", GPtr (GNamed "Broker")); ("req", GNamed "MetadataRequest")] [GNamed "MetadataResponse"; GNamed "error"]
  [SVar "resp" (Some (GNamed "MetadataResponse")) None;
   SDefine ["err"] [(EMethod (EField (EVar "b") "conn") "Do" [(EFunc "Broker.Metadata.func1"); (EFunc "Broker.Metadata.func2")])];
   SReturn [(EVar "resp"); (EVar "err")]].
(** gen.broker.go:166 *)
Definition go_Broker_LeaderAndIsr : func := mkFunc [("b", GPtr (GNamed "Broker")); ("req", GNamed "LeaderAndIsrRequest")] [GNamed "LeaderAndIsrResponse"; GNamed "error"]
  [SVar "resp" (Some (GNamed "LeaderAndIsrResponse")) None;
   SDefine ["err"] [(EMethod (EField (EVar "b") "conn") "Do" [(EFunc "Broker.LeaderAndIsr.func1"); (EFunc "Broker.LeaderAndIsr.func2")])];
   SReturn [(EVar "resp"); (EVar "err")]].
(** gen.broker.go:191 *)
Definition go_Broker_StopReplica : func := mkFunc [("b", GPtr (GNamed "Broker")); ("req", GNamed "StopReplicaRequest")] [GNamed "StopReplicaResponse"; GNamed "error"]
  [SVar "resp" (Some (GNamed "StopReplicaResponse")) None;
   SDefine ["err"] [(EMethod (EField (EVar "b") "conn") "Do" [(EFunc "Broker.StopReplica.func1"); (EFunc "Broker.StopReplica.func2")])];
   SReturn [(EVar "resp"); (EVar "err")]].
(** gen.broker.go:216 *)
Definition go_Broker_UpdateMetadata : func := mkFunc [("b", GPtr (GNamed "Broker")); ("req", GNamed "UpdateMetadataRequest")] [GNamed "UpdateMetadataResponse"; GNamed "error"]
  [SVar "resp" (Some (GNamed "UpdateMetadataResponse")) None;
   SDefine ["err"] [(EMethod (EField (EVar "b") "conn") "Do" [(EFunc "Broker.UpdateMetadata.func1"); (EFunc "Broker.UpdateMetadata.func2")])];
   SReturn [(EVar "resp"); (EVar "err")]].
(** gen.broker.go:241 *)
Definition go_Broker_ControlledShutdown : func := mkFunc [("b", GPtr (GNamed "Broker")); ("req", GNamed "ControlledShutdownRequest")] [GNamed "ControlledShutdownResponse"; GNamed "error"]
  [SVar "resp" (Some (GNamed "ControlledShutdownResponse")) None;
   SDefine ["err"] [(EMethod (EField (EVar "b") "conn") "Do" [(EFunc "Broker.ControlledShutdown.func1"); (EFunc "Broker.ControlledShutdown.func2")])];
   SReturn [(EVar "resp"); (EVar "err")]].
(** gen.broker.go:266 *)
Definition go_Broker_OffsetCommit : func := mkFunc [("b", GPtr (GNamed "Broker")); ("req", GNamed "OffsetCommitRequest")] [GNamed "OffsetCommitResponse"; GNamed "error"]
  [SVar "resp" (Some (GNamed "OffsetCommitResponse")) None;
   SDefine ["err"] [(EMethod (EField (EVar "b") "conn") "Do" [(EFunc "Broker.OffsetCommit.func1"); (EFunc "Broker.OffsetCommit.func2")])];
   SReturn [(EVar "resp"); (EVar "err")]].
(** gen.broker.go:291 *)
Definition go_Broker_OffsetFetch : func := mkFunc [("b", GPtr (GNamed "Broker")); ("req", GNamed "OffsetFetchRequest")] [GNamed "OffsetFetchResponse"; GNamed "error"]
  [SVar "resp" (Some (GNamed "OffsetFetchResponse")) None;
   SDefine ["err"] [(EMethod (EField (EVar "b") "conn") "Do" [(EFunc "Broker.OffsetFetch.func1"); (EFunc "Broker.OffsetFetch.func2")])];
   SReturn [(EVar "resp"); (EVar "err")]].
(** gen.broker.go:316 *)
Definition go_Broker_FindCoordinator : func := mkFunc [("b", GPtr (GNamed "Broker")); ("req", GNamed "FindCoordinatorRequest")] [GNamed "FindCoordinatorResponse"; GNamed "error"]
  [SVar "resp" (Some (GNamed "FindCoordinatorResponse")) None;
   SDefine ["err"] [(EMethod (EField (EVar "b") "conn") "Do" [(EFunc "Broker.FindCoordinator.func1"); (EFunc "Broker.FindCoordinator.func2")])];
   SReturn [(EVar "resp"); (EVar "err")]].
(** gen.broker.go:341 *)
Definition go_Broker_JoinGroup : func := mkFunc [("b", GPtr (GNamed "Broker")); ("req", GNamed "JoinGroupRequest")] [GNamed "JoinGroupResponse"; GNamed "error"]
  [SVar "resp" (Some (GNamed "JoinGroupResponse")) None;
   SDefine ["err"] [(EMethod (EField (EVar "b") "conn") "Do" [(EFunc "Broker.JoinGroup.func1"); (EFunc "Broker.JoinGroup.func2")])];
   SReturn [(EVar "resp"); (EVar "err")]].
(** gen.broker.go:366 *)
Definition go_Broker_Heartbeat : func := mkFunc [("b", GPtr (GNamed "Broker")); ("req", GNamed "HeartbeatRequest")] [GNamed "HeartbeatResponse"; GNamed "error"]
  [SVar "resp" (Some (GNamed "HeartbeatResponse")) None;
   SDefine ["err"] [(EMethod (EField (EVar "b") "conn") "Do" [(EFunc "Broker.Heartbeat.func1"); (EFunc "Broker.Heartbeat.func2")])];
   SReturn [(EVar "resp"); (EVar "err")]].
(** gen.broker.go:391 *)
Definition go_Broker_LeaveGroup : func := mkFunc [("b", GPtr (GNamed "Broker")); ("req", GNamed "LeaveGroupRequest")] [GNamed "LeaveGroupResponse"; GNamed "error"]
  [SVar "resp" (Some (GNamed "LeaveGroupResponse")) None;
   SDefine ["err"] [(EMethod (EField (EVar "b") "conn") "Do" [(EFunc "Broker.LeaveGroup.func1"); (EFunc "Broker.LeaveGroup.func2")])];
   SReturn [(EVar "resp"); (EVar "err")]].
(** gen.broker.go:416 *)
Definition go_Broker_SyncGroup : func := mkFunc [("b", GPtr (GNamed "Broker")); ("req", GNamed "SyncGroupRequest")] [GNamed "SyncGroupResponse"; GNamed "error"]
  [SVar "resp" (Some (GNamed "SyncGroupResponse")) None;
   SDefine ["err"] [(EMethod (EField (EVar "b") "conn") "Do" [(EFunc "Broker.SyncGroup.func1"); (EFunc "Broker.SyncGroup.func2")])];
   SReturn [(EVar "resp"); (EVar "err")]].
(** gen.broker.go:441 *)
Definition go_Broker_DescribeGroups : func := mkFunc [("b", GPtr (GNamed "Broker")); ("req", GNamed "DescribeGroupsRequest")] [GNamed "DescribeGroupsResponse"; GNamed "error"]
  [SVar "resp" (Some (GNamed "DescribeGroupsResponse")) None;
   SDefine ["err"] [(EMethod (EField (EVar "b") "conn") "Do" [(EFunc "Broker.DescribeGroups.func1"); (EFunc "Broker.DescribeGroups.func2")])];
   SReturn [(EVar "resp"); (EVar "err")]].
(** gen.broker.go:466 *)
Definition go_Broker_ListGroups : func := mkFunc [("b", GPtr (GNamed "Broker")); ("req", GNamed "ListGroupsRequest")] [GNamed "ListGroupsResponse"; GNamed "error"]
  [SVar "resp" (Some (GNamed "ListGroupsResponse")) None;
   SDefine ["err"] [(EMethod (EField (EVar "b") "conn") "Do" [(EFunc "Broker.ListGroups.func1"); (EFunc "Broker.ListGroups.func2")])];
   SReturn [(EVar "resp"); (EVar "err")]].
(** gen.broker.go:491 *)
Definition go_Broker_SaslHandshake : func := mkFunc [("b", GPtr (GNamed "Broker")); ("req", GNamed "SaslHandshakeRequest")] [GNamed "SaslHandshakeResponse"; GNamed "error"]
  [SVar "resp" (Some (GNamed "SaslHandshakeResponse")) None;
   SDefine ["err"] [(EMethod (EField (EVar "b") "conn") "Do" [(EFunc "Broker.SaslHandshake.func1"); (EFunc "Broker.SaslHandshake.func2")])];
   SReturn [(EVar "resp"); (EVar "err")]].
(** gen.broker.go:516 *)
Definition go_Broker_ApiVersions : func := mkFunc [("b", GPtr (GNamed "Broker")); ("req", GNamed "ApiVersionsRequest")] [GNamed "ApiVersionsResponse"; GNamed "error"]
  [SVar "resp" (Some (GNamed "ApiVersionsResponse")) None;
   SDefine ["err"] [(EMethod (EField (EVar "b") "conn") "Do" [(EFunc "Broker.ApiVersions.func1"); (EFunc "Broker.ApiVersions.func2")])];
   SReturn [(EVar "resp"); (EVar "err")]].
(** gen.broker.go:541 *)
Definition go_Broker_CreateTopics : func := mkFunc [("b", GPtr (GNamed "Broker")); ("req", GNamed "CreateTopicsRequest")] [GNamed "CreateTopicsResponse"; GNamed "error"]
  [SVar "resp" (Some (GNamed "CreateTopicsResponse")) None;
   SDefine ["err"] [(EMethod (EField (EVar "b") "conn") "Do" [(EFunc "Broker.CreateTopics.func1"); (EFunc "Broker.CreateTopics.func2")])];
   SReturn [(EVar "resp"); (EVar "err")]].
(** gen.broker.go:566 *)
Definition go_Broker_DeleteTopics : func := mkFunc [("b", GPtr (GNamed "Broker")); ("req", GNamed "DeleteTopicsRequest")] [GNamed "DeleteTopicsResponse"; GNamed "error"]
  [SVar "resp" (Some (GNamed "DeleteTopicsResponse")) None;
   SDefine ["err"] [(EMethod (EField (EVar "b") "conn") "Do" [(EFunc "Broker.DeleteTopics.func1"); (EFunc "Broker.DeleteTopics.func2")])];
   SReturn [(EVar "resp"); (EVar "err")]].
(** gen.broker.go:591 *)
Definition go_Broker_DeleteRecords : func := mkFunc [("b", GPtr (GNamed "Broker")); ("req", GNamed "DeleteRecordsRequest")] [GNamed "DeleteRecordsResponse"; GNamed "error"]
  [SVar "resp" (Some (GNamed "DeleteRecordsResponse")) None;
   SDefine ["err"] [(EMethod (EField (EVar "b") "conn") "Do" [(EFunc "Broker.DeleteRecords.func1"); (EFunc "Broker.DeleteRecords.func2")])];
   SReturn [(EVar "resp"); (EVar "err")]].
(** gen.broker.go:616 *)
Definition go_Broker_InitProducerId : func := mkFunc [("b", GPtr (GNamed "Broker")); ("req", GNamed "InitProducerIdRequest")] [GNamed "InitProducerIdResponse"; GNamed "error"]
  [SVar "resp" (Some (GNamed "InitProducerIdResponse")) None;
   SDefine ["err"] [(EMethod (EField (EVar "b") "conn") "Do" [(EFunc "Broker.InitProducerId.func1"); (EFunc "Broker.InitProducerId.func2")])];
   SReturn [(EVar "resp"); (EVar "err")]].
(** gen.broker.go:641 *)
Definition go_Broker_OffsetForLeaderEpoch : func := mkFunc [("b", GPtr (GNamed "Broker")); ("req", GNamed "OffsetForLeaderEpochRequest")] [GNamed "OffsetForLeaderEpochResponse"; GNamed "error"]
  [SVar "resp" (Some (GNamed "OffsetForLeaderEpochResponse")) None;
   SDefine ["err"] [(EMethod (EField (EVar "b") "conn") "Do" [(EFunc "Broker.OffsetForLeaderEpoch.func1"); (EFunc "Broker.OffsetForLeaderEpoch.func2")])];
   SReturn [(EVar "resp"); (EVar "err")]].
(** gen.broker.go:666 *)
Definition go_Broker_AddPartitionsToTxn : func := mkFunc [("b", GPtr (GNamed "Broker")); ("req", GNamed "AddPartitionsToTxnRequest")] [GNamed "AddPartitionsToTxnResponse"; GNamed "error"]
  [SVar "resp" (Some (GNamed "AddPartitionsToTxnResponse")) None;
   SDefine ["err"] [(EMethod (EField (EVar "b") "conn") "Do" [(EFunc "Broker.AddPartitionsToTxn.func1"); (EFunc "Broker.AddPartitionsToTxn.func2")])];
   SReturn [(EVar "resp"); (EVar "err")]].
(** gen.broker.go:691 *)
Definition go_Broker_AddOffsetsToTxn : func := mkFunc [("b", GPtr (GNamed "Broker")); ("req", GNamed "AddOffsetsToTxnRequest")] [GNamed "AddOffsetsToTxnResponse"; GNamed "error"]
  [SVar "resp" (Some (GNamed "AddOffsetsToTxnResponse")) None;
   SDefine ["err"] [(EMethod (EField (EVar "b") "conn") "Do" [(EFunc "Broker.AddOffsetsToTxn.func1"); (EFunc "Broker.AddOffsetsToTxn.func2")])];
   SReturn [(EVar "resp"); (EVar "err")]].
(** gen.broker.go:716 *)
Definition go_Broker_EndTxn : func := mkFunc [("b", GPtr (GNamed "Broker")); ("req", GNamed "EndTxnRequest")] [GNamed "EndTxnResponse"; GNamed "error"]
  [SVar "resp" (Some (GNamed "EndTxnResponse")) None;
   SDefine ["err"] [(EMethod (EField (EVar "b") "conn") "Do" [(EFunc "Broker.EndTxn.func1"); (EFunc "Broker.EndTxn.func2")])];
   SReturn [(EVar "resp"); (EVar "err")]].
(** gen.broker.go:741 *)
Definition go_Broker_WriteTxnMarkers : func := mkFunc [("b", GPtr (GNamed "Broker")); ("req", GNamed "WriteTxnMarkersRequest")] [GNamed "WriteTxnMarkersResponse"; GNamed "error"]
  [SVar "resp" (Some (GNamed "WriteTxnMarkersResponse")) None;
   SDefine ["err"] [(EMethod (EField (EVar "b") "conn") "Do" [(EFunc "Broker.WriteTxnMarkers.func1"); (EFunc "Broker.WriteTxnMarkers.func2")])];
   SReturn [(EVar "resp"); (EVar "err")]].
(** gen.broker.go:766 *)
Definition go_Broker_TxnOffsetCommit : func := mkFunc [("b", GPtr (GNamed "Broker")); ("req", GNamed "TxnOffsetCommitRequest")] [GNamed "TxnOffsetCommitResponse"; GNamed "error"]
  [SVar "resp" (Some (GNamed "TxnOffsetCommitResponse")) None;
   SDefine ["err"] [(EMethod (EField (EVar "b") "conn") "Do" [(EFunc "Broker.TxnOffsetCommit.func1"); (EFunc "Broker.TxnOffsetCommit.func2")])];
   SReturn [(EVar "resp"); (EVar "err")]].
(** gen.broker.go:791 *)
Definition go_Broker_DescribeAcls : func := mkFunc [("b", GPtr (GNamed "Broker")); ("req", GNamed "DescribeAclsRequest")] [GNamed "DescribeAclsResponse"; GNamed "error"]
  [SVar "resp" (Some (GNamed "DescribeAclsResponse")) None;
   SDefine ["err"] [(EMethod (EField (EVar "b") "conn") "Do" [(EFunc "Broker.DescribeAcls.func1"); (EFunc "Broker.DescribeAcls.func2")])];
   SReturn [(EVar "resp"); (EVar "err")]].
(** gen.broker.go:816 *)
Definition go_Broker_CreateAcls : func := mkFunc [("b", GPtr (GNamed "Broker")); ("req", GNamed "CreateAclsRequest")] [GNamed "CreateAclsResponse"; GNamed "error"]
  [SVar "resp" (Some (GNamed "CreateAclsResponse")) None;
   SDefine ["err"] [(EMethod (EField (EVar "b") "conn") "Do" [(EFunc "Broker.CreateAcls.func1"); (EFunc "Broker.CreateAcls.func2")])];
   SReturn [(EVar "resp"); (EVar "err")]].
(** gen.broker.go:841 *)
Definition go_Broker_DeleteAcls : func := mkFunc [("b", GPtr (GNamed "Broker")); ("req", GNamed "DeleteAclsRequest")] [GNamed "DeleteAclsResponse"; GNamed "error"]
  [SVar "resp" (Some (GNamed "DeleteAclsResponse")) None;
   SDefine ["err"] [(EMethod (EField (EVar "b") "conn") "Do" [(EFunc "Broker.DeleteAcls.func1"); (EFunc "Broker.DeleteAcls.func2")])];
   SReturn [(EVar "resp"); (EVar "err")]].
(** gen.broker.go:866 *)
Definition go_Broker_DescribeConfigs : func := mkFunc [("b", GPtr (GNamed "Broker")); ("req", GNamed "DescribeConfigsRequest")] [GNamed "DescribeConfigsResponse"; GNamed "error"]
  [SVar "resp" (Some (GNamed "DescribeConfigsResponse")) None;
   SDefine ["err"] [(EMethod (EField (EVar "b") "conn") "Do" [(EFunc "Broker.DescribeConfigs.func1"); (EFunc "Broker.DescribeConfigs.func2")])];
   SReturn [(EVar "resp"); (EVar "err")]].
(** gen.broker.go:891 *)
Definition go_Broker_AlterConfigs : func := mkFunc [("b", GPtr (GNamed "Broker")); ("req", GNamed "AlterConfigsRequest")] [GNamed "AlterConfigsResponse"; GNamed "error"]
  [SVar "resp" (Some (GNamed "AlterConfigsResponse")) None;
   SDefine ["err"] [(EMethod (EField (EVar "b") "conn") "Do" [(EFunc "Broker.AlterConfigs.func1"); (EFunc "Broker.AlterConfigs.func2")])];
   SReturn [(EVar "resp"); (EVar "err")]].
(** gen.broker.go:916 *)
Definition go_Broker_AlterReplicaLogDirs : func := mkFunc [("b", GPtr (GNamed "Broker")); ("req", GNamed "AlterReplicaLogDirsRequest")] [GNamed "AlterReplicaLogDirsResponse"; GNamed "error"]
  [SVar "resp" (Some (GNamed "AlterReplicaLogDirsResponse")) None;
   SDefine ["err"] [(EMethod (EField (EVar "b") "conn") "Do" [(EFunc "Broker.AlterReplicaLogDirs.func1"); (EFunc "Broker.AlterReplicaLogDirs.func2")])];
   SReturn [(EVar "resp"); (EVar "err")]].
(** gen.broker.go:941 *)
Definition go_Broker_DescribeLogDirs : func := mkFunc [("b", GPtr (GNamed "Broker")); ("req", GNamed "DescribeLogDirsRequest")] [GNamed "DescribeLogDirsResponse"; GNamed "error"]
  [SVar "resp" (Some (GNamed "DescribeLogDirsResponse")) None;
   SDefine ["err"] [(EMethod (EField (EVar "b") "conn") "Do" [(EFunc "Broker.DescribeLogDirs.func1"); (EFunc "Broker.DescribeLogDirs.func2")])];
   SReturn [(EVar "resp"); (EVar "err")]].
(** gen.broker.go:966 *)
Definition go_Broker_SaslAuthenticate : func := mkFunc [("b", GPtr (GNamed "Broker")); ("req", GNamed "SaslAuthenticateRequest")] [GNamed "SaslAuthenticateResponse"; GNamed "error"]
  [SVar "resp" (Some (GNamed "SaslAuthenticateResponse")) None;
   SDefine ["err"] [(EMethod (EField (EVar "b") "conn") "Do" [(EFunc "Broker.SaslAuthenticate.func1"); (EFunc "Broker.SaslAuthenticate.func2")])];
   SReturn [(EVar "resp"); (EVar "err")]].
(** gen.broker.go:991 *)
Definition go_Broker_CreatePartitions : func := mkFunc [("b", GPtr (GNamed "Broker")); ("req", GNamed "CreatePartitionsRequest")] [GNamed "CreatePartitionsResponse"; GNamed "error"]
  [SVar "resp" (Some (GNamed "CreatePartitionsResponse")) None;
   SDefine ["err"] [(EMethod (EField (EVar "b") "conn") "Do" [(EFunc "Broker.CreatePartitions.func1"); (EFunc "Broker.CreatePartitions.func2")])];
   SReturn [(EVar "resp"); (EVar "err")]].
(** gen.broker.go:1016 *)
Definition go_Broker_CreateDelegationToken : func := mkFunc [("b", GPtr (GNamed "Broker")); ("req", GNamed "CreateDelegationTokenRequest")] [GNamed "CreateDelegationTokenResponse"; GNamed "error"]
  [SVar "resp" (Some (GNamed "CreateDelegationTokenResponse")) None;
   SDefine ["err"] [(EMethod (EField (EVar "b") "conn") "Do" [(EFunc "Broker.CreateDelegationToken.func1"); (EFunc "Broker.CreateDelegationToken.func2")])];
   SReturn [(EVar "resp"); (EVar "err")]].
(** gen.broker.go:1041 *)
Definition go_Broker_RenewDelegationToken : func := mkFunc [("b", GPtr (GNamed "Broker")); ("req", GNamed "RenewDelegationTokenRequest")] [GNamed "RenewDelegationTokenResponse"; GNamed "error"]
  [SVar "resp" (Some (GNamed "RenewDelegationTokenResponse")) None;
   SDefine ["err"] [(EMethod (EField (EVar "b") "conn") "Do" [(EFunc "Broker.RenewDelegationToken.func1"); (EFunc "Broker.RenewDelegationToken.func2")])];
   SReturn [(EVar "resp"); (EVar "err")]].
(** gen.broker.go:1066 *)
Definition go_Broker_ExpireDelegationToken : func := mkFunc [("b", GPtr (GNamed "Broker")); ("req", GNamed "ExpireDelegationTokenRequest")] [GNamed "ExpireDelegationTokenResponse"; GNamed "error"]
  [SVar "resp" (Some (GNamed "ExpireDelegationTokenResponse")) None;
   SDefine ["err"] [(EMethod (EField (EVar "b") "conn") "Do" [(EFunc "Broker.ExpireDelegationToken.func1"); (EFunc "Broker.ExpireDelegationToken.func2")])];
   SReturn [(EVar "resp"); (EVar "err")]].
(** gen.broker.go:1091 *)
Definition go_Broker_DescribeDelegationToken : func := mkFunc [("b", GPtr (GNamed "Broker")); ("req", GNamed "DescribeDelegationTokenRequest")] [GNamed "DescribeDelegationTokenResponse"; GNamed "error"]
  [SVar "resp" (Some (GNamed "DescribeDelegationTokenResponse")) None;
   SDefine ["err"] [(EMethod (EField (EVar "b") "conn") "Do" [(EFunc "Broker.DescribeDelegationToken.func1"); (EFunc "Broker.DescribeDelegationToken.func2")])];
   SReturn [(EVar "resp"); (EVar "err")]].
(** gen.broker.go:1116 *)
Definition go_Broker_DeleteGroups : func := mkFunc [("b", GPtr (GNamed "Broker")); ("req", GNamed "DeleteGroupsRequest")] [GNamed "DeleteGroupsResponse"; GNamed "error"]
  [SVar "resp" (Some (GNamed "DeleteGroupsResponse")) None;
   SDefine ["err"] [(EMethod (EField (EVar "b") "conn") "Do" [(EFunc "Broker.DeleteGroups.func1"); (EFunc "Broker.DeleteGroups.func2")])];
   SReturn [(EVar "resp"); (EVar "err")]].
(** gen.broker.go:1141 *)
Definition go_Broker_ElectLeaders : func := mkFunc [("b", GPtr (GNamed "Broker")); ("req", GNamed "ElectLeadersRequest")] [GNamed "ElectLeadersResponse"; GNamed "error"]
  [SVar "resp" (Some (GNamed "ElectLeadersResponse")) None;
   SDefine ["err"] [(EMethod (EField (EVar "b") "conn") "Do" [(EFunc "Broker.ElectLeaders.func1"); (EFunc "Broker.ElectLeaders.func2")])];
   SReturn [(EVar "resp"); (EVar "err")]].
(** gen.broker.go:1166 *)
Definition go_Broker_IncrementalAlterConfigs : func := mkFunc [("b", GPtr (GNamed "Broker")); ("req", GNamed "IncrementalAlterConfigsRequest")] [GNamed "IncrementalAlterConfigsResponse"; GNamed "error"]
  [SVar "resp" (Some (GNamed "IncrementalAlterConfigsResponse")) None;
   SDefine ["err"] [(EMethod (EField (EVar "b") "conn") "Do" [(EFunc "Broker.IncrementalAlterConfigs.func1"); (EFunc "Broker.IncrementalAlterConfigs.func2")])];
   SReturn [(EVar "resp"); (EVar "err")]].
(** gen.broker.go:1191 *)
Definition go_Broker_AlterPartitionReassignments : func := mkFunc [("b", GPtr (GNamed "Broker")); ("req", GNamed "AlterPartitionReassignmentsRequest")] [GNamed "AlterPartitionReassignmentsResponse"; GNamed "error"]
  [SVar "resp" (Some (GNamed "AlterPartitionReassignmentsResponse")) None;
   SDefine ["err"] [(EMethod (EField (EVar "b") "conn") "Do" [(EFunc "Broker.AlterPartitionReassignments.func1"); (EFunc "Broker.AlterPartitionReassignments.func2")])];
   SReturn [(EVar "resp"); (EVar "err")]].
(** gen.broker.go:1216 *)
Definition go_Broker_ListPartitionReassignments : func := mkFunc [("b", GPtr (GNamed "Broker")); ("req", GNamed "ListPartitionReassignmentsRequest")] [GNamed "ListPartitionReassignmentsResponse"; GNamed "error"]
  [SVar "resp" (Some (GNamed "ListPartitionReassignmentsResponse")) None;
   SDefine ["err"] [(EMethod (EField (EVar "b") "conn") "Do" [(EFunc "Broker.ListPartitionReassignments.func1"); (EFunc "Broker.ListPartitionReassignments.func2")])];
   SReturn [(EVar "resp"); (EVar "err")]].
(** gen.broker.go:1241 *)
Definition go_Broker_OffsetDelete : func := mkFunc [("b", GPtr (GNamed "Broker")); ("req", GNamed "OffsetDeleteRequest")] [GNamed "OffsetDeleteResponse"; GNamed "error"]
  [SVar "resp" (Some (GNamed "OffsetDeleteResponse")) None;
   SDefine ["err"] [(EMethod (EField (EVar "b") "conn") "Do" [(EFunc "Broker.OffsetDelete.func1"); (EFunc "Broker.OffsetDelete.func2")])];
   SReturn [(EVar "resp"); (EVar "err")]].
(** gen.broker.go:1270 *)
Definition go_Broker_Subscribe : func := mkFunc [("b", GPtr (GNamed "Broker")); ("topics", GString); ("handler", GNamed "MessageHandler")] [GPtr (GNamed "Subscription"); GNamed "error"]
  [SReturn [ENil; ENil]].
(** gen.broker.go:1329 *)
Definition go_kafka_negotiateApiVersions : func := mkFunc [("apiKeys", GSlice (GNamed "ApiVersionsResponseKey18"))] [GNamed "apiVersion"; GNamed "error"]
  [SVar "av" (Some (GNamed "apiVersion")) None;
   SVar "err" (Some (GNamed "error")) None;
   SRange "_" "apiKey" (EVar "apiKeys")
     [SSwitch (EField (EVar "apiKey") "ApiKey")
       [((EGlobal "message.KeyProduce"), [SAssign [(EField (EVar "av") "Produce"); (EVar "err")] [(ECall "kafka.matchVersion" [(EVar "apiKey"); (EInt 0); (EInt 8)])];
        SIf [] (EBin Ne (EVar "err") ENil)
         [SReturn [(EStruct "apiVersion" []); (EVar "err")]]
         []]);
        ((EGlobal "message.KeyFetch"), [SAssign [(EField (EVar "av") "Fetch"); (EVar "err")] [(ECall "kafka.matchVersion" [(EVar "apiKey"); (EInt 0); (EInt 11)])];
        SIf [] (EBin Ne (EVar "err") ENil)
         [SReturn [(EStruct "apiVersion" []); (EVar "err")]]
         []]);
        ((EGlobal "message.KeyListOffset"), [SAssign [(EField (EVar "av") "ListOffset"); (EVar "err")] [(ECall "kafka.matchVersion" [(EVar "apiKey"); (EInt 0); (EInt 5)])];
        SIf [] (EBin Ne (EVar "err") ENil)
         [SReturn [(EStruct "apiVersion" []); (EVar "err")]]
         []]);
        ((EGlobal "message.KeyMetadata"), [SAssign [(EField (EVar "av") "Metadata"); (EVar "err")] [(ECall "kafka.matchVersion" [(EVar "apiKey"); (EInt 0); (EInt 9)])];
        SIf [] (EBin Ne (EVar "err") ENil)
         [SReturn [(EStruct "apiVersion" []); (EVar "err")]]
         []]);
        ((EGlobal "message.KeyLeaderAndIsr"), [SAssign [(EField (EVar "av") "LeaderAndIsr"); (EVar "err")] [(ECall "kafka.matchVersion" [(EVar "apiKey"); (EInt 0); (EInt 4)])];
        SIf [] (EBin Ne (EVar "err") ENil)
         [SReturn [(EStruct "apiVersion" []); (EVar "err")]]
         []]);
        ((EGlobal "message.KeyStopReplica"), [SAssign [(EField (EVar "av") "StopReplica"); (EVar "err")] [(ECall "kafka.matchVersion" [(EVar "apiKey"); (EInt 0); (EInt 2)])];
        SIf [] (EBin Ne (EVar "err") ENil)
         [SReturn [(EStruct "apiVersion" []); (EVar "err")]]
         []]);
        ((EGlobal "message.KeyUpdateMetadata"), [SAssign [(EField (EVar "av") "UpdateMetadata"); (EVar "err")] [(ECall "kafka.matchVersion" [(EVar "apiKey"); (EInt 0); (EInt 6)])];
        SIf [] (EBin Ne (EVar "err") ENil)
         [SReturn [(EStruct "apiVersion" []); (EVar "err")]]
         []]);
        ((EGlobal "message.KeyControlledShutdown"), [SAssign [(EField (EVar "av") "ControlledShutdown"); (EVar "err")] [(ECall "kafka.matchVersion" [(EVar "apiKey"); (EInt 0); (EInt 3)])];
        SIf [] (EBin Ne (EVar "err") ENil)
         [SReturn [(EStruct "apiVersion" []); (EVar "err")]]
         []]);
        ((EGlobal "message.KeyOffsetCommit"), [SAssign [(EField (EVar "av") "OffsetCommit"); (EVar "err")] [(ECall "kafka.matchVersion" [(EVar "apiKey"); (EInt 0); (EInt 8)])];
        SIf [] (EBin Ne (EVar "err") ENil)
         [SReturn [(EStruct "apiVersion" []); (EVar "err")]]
         []]);
        ((EGlobal "message.KeyOffsetFetch"), [SAssign [(EField (EVar "av") "OffsetFetch"); (EVar "err")] [(ECall "kafka.matchVersion" [(EVar "apiKey"); (EInt 0); (EInt 6)])];
        SIf [] (EBin Ne (EVar "err") ENil)
         [SReturn [(EStruct "apiVersion" []); (EVar "err")]]
         []]);
        ((EGlobal "message.KeyFindCoordinator"), [SAssign [(EField (EVar "av") "FindCoordinator"); (EVar "err")] [(ECall "kafka.matchVersion" [(EVar "apiKey"); (EInt 0); (EInt 3)])];
        SIf [] (EBin Ne (EVar "err") ENil)
         [SReturn [(EStruct "apiVersion" []); (EVar "err")]]
         []]);
        ((EGlobal "message.KeyJoinGroup"), [SAssign [(EField (EVar "av") "JoinGroup"); (EVar "err")] [(ECall "kafka.matchVersion" [(EVar "apiKey"); (EInt 0); (EInt 6)])];
        SIf [] (EBin Ne (EVar "err") ENil)
         [SReturn [(EStruct "apiVersion" []); (EVar "err")]]
         []]);
        ((EGlobal "message.KeyHeartbeat"), [SAssign [(EField (EVar "av") "Heartbeat"); (EVar "err")] [(ECall "kafka.matchVersion" [(EVar "apiKey"); (EInt 0); (EInt 4)])];
        SIf [] (EBin Ne (EVar "err") ENil)
         [SReturn [(EStruct "apiVersion" []); (EVar "err")]]
         []]);
        ((EGlobal "message.KeyLeaveGroup"), [SAssign [(EField (EVar "av") "LeaveGroup"); (EVar "err")] [(ECall "kafka.matchVersion" [(EVar "apiKey"); (EInt 0); (EInt 4)])];
        SIf [] (EBin Ne (EVar "err") ENil)
         [SReturn [(EStruct "apiVersion" []); (EVar "err")]]
         []]);
        ((EGlobal "message.KeySyncGroup"), [SAssign [(EField (EVar "av") "SyncGroup"); (EVar "err")] [(ECall "kafka.matchVersion" [(EVar "apiKey"); (EInt 0); (EInt 4)])];
        SIf [] (EBin Ne (EVar "err") ENil)
         [SReturn [(EStruct "apiVersion" []); (EVar "err")]]
         []]);
        ((EGlobal "message.KeyDescribeGroups"), [SAssign [(EField (EVar "av") "DescribeGroups"); (EVar "err")] [(ECall "kafka.matchVersion" [(EVar "apiKey"); (EInt 0); (EInt 5)])];
        SIf [] (EBin Ne (EVar "err") ENil)
         [SReturn [(EStruct "apiVersion" []); (EVar "err")]]
         []]);
        ((EGlobal "message.KeyListGroups"), [SAssign [(EField (EVar "av") "ListGroups"); (EVar "err")] [(ECall "kafka.matchVersion" [(EVar "apiKey"); (EInt 0); (EInt 3)])];
        SIf [] (EBin Ne (EVar "err") ENil)
         [SReturn [(EStruct "apiVersion" []); (EVar "err")]]
         []]);
        ((EGlobal "message.KeySaslHandshake"), [SAssign [(EField (EVar "av") "SaslHandshake"); (EVar "err")] [(ECall "kafka.matchVersion" [(EVar "apiKey"); (EInt 0); (EInt 1)])];
        SIf [] (EBin Ne (EVar "err") ENil)
         [SReturn [(EStruct "apiVersion" []); (EVar "err")]]
         []]);
        ((EGlobal "message.KeyApiVersions"), [SAssign [(EField (EVar "av") "ApiVersions"); (EVar "err")] [(ECall "kafka.matchVersion" [(EVar "apiKey"); (EInt 0); (EInt 3)])];
        SIf [] (EBin Ne (EVar "err") ENil)
         [SReturn [(EStruct "apiVersion" []); (EVar "err")]]
         []]);
        ((EGlobal "message.KeyCreateTopics"), [SAssign [(EField (EVar "av") "CreateTopics"); (EVar "err")] [(ECall "kafka.matchVersion" [(EVar "apiKey"); (EInt 0); (EInt 5)])];
        SIf [] (EBin Ne (EVar "err") ENil)
         [SReturn [(EStruct "apiVersion" []); (EVar "err")]]
         []]);
        ((EGlobal "message.KeyDeleteTopics"), [SAssign [(EField (EVar "av") "DeleteTopics"); (EVar "err")] [(ECall "kafka.matchVersion" [(EVar "apiKey"); (EInt 0); (EInt 4)])];
        SIf [] (EBin Ne (EVar "err") ENil)
         [SReturn [(EStruct "apiVersion" []); (EVar "err")]]
         []]);
        ((EGlobal "message.KeyDeleteRecords"), [SAssign [(EField (EVar "av") "DeleteRecords"); (EVar "err")] [(ECall "kafka.matchVersion" [(EVar "apiKey"); (EInt 0); (EInt 1)])];
        SIf [] (EBin Ne (EVar "err") ENil)
         [SReturn [(EStruct "apiVersion" []); (EVar "err")]]
         []]);
        ((EGlobal "message.KeyInitProducerId"), [SAssign [(EField (EVar "av") "InitProducerId"); (EVar "err")] [(ECall "kafka.matchVersion" [(EVar "apiKey"); (EInt 0); (EInt 2)])];
        SIf [] (EBin Ne (EVar "err") ENil)
         [SReturn [(EStruct "apiVersion" []); (EVar "err")]]
         []]);
        ((EGlobal "message.KeyOffsetForLeaderEpoch"), [SAssign [(EField (EVar "av") "OffsetForLeaderEpoch"); (EVar "err")] [(ECall "kafka.matchVersion" [(EVar "apiKey"); (EInt 0); (EInt 3)])];
        SIf [] (EBin Ne (EVar "err") ENil)
         [SReturn [(EStruct "apiVersion" []); (EVar "err")]]
         []]);
        ((EGlobal "message.KeyAddPartitionsToTxn"), [SAssign [(EField (EVar "av") "AddPartitionsToTxn"); (EVar "err")] [(ECall "kafka.matchVersion" [(EVar "apiKey"); (EInt 0); (EInt 1)])];
        SIf [] (EBin Ne (EVar "err") ENil)
         [SReturn [(EStruct "apiVersion" []); (EVar "err")]]
         []]);
        ((EGlobal "message.KeyAddOffsetsToTxn"), [SAssign [(EField (EVar "av") "AddOffsetsToTxn"); (EVar "err")] [(ECall "kafka.matchVersion" [(EVar "apiKey"); (EInt 0); (EInt 1)])];
        SIf [] (EBin Ne (EVar "err") ENil)
         [SReturn [(EStruct "apiVersion" []); (EVar "err")]]
         []]);
        ((EGlobal "message.KeyEndTxn"), [SAssign [(EField (EVar "av") "EndTxn"); (EVar "err")] [(ECall "kafka.matchVersion" [(EVar "apiKey"); (EInt 0); (EInt 1)])];
        SIf [] (EBin Ne (EVar "err") ENil)
         [SReturn [(EStruct "apiVersion" []); (EVar "err")]]
         []]);
        ((EGlobal "message.KeyWriteTxnMarkers"), [SAssign [(EField (EVar "av") "WriteTxnMarkers"); (EVar "err")] [(ECall "kafka.matchVersion" [(EVar "apiKey"); (EInt 0); (EInt 0)])];
        SIf [] (EBin Ne (EVar "err") ENil)
         [SReturn [(EStruct "apiVersion" []); (EVar "err")]]
         []]);
        ((EGlobal "message.KeyTxnOffsetCommit"), [SAssign [(EField (EVar "av") "TxnOffsetCommit"); (EVar "err")] [(ECall "kafka.matchVersion" [(EVar "apiKey"); (EInt 0); (EInt 2)])];
        SIf [] (EBin Ne (EVar "err") ENil)
         [SReturn [(EStruct "apiVersion" []); (EVar "err")]]
         []]);
        ((EGlobal "message.KeyDescribeAcls"), [SAssign [(EField (EVar "av") "DescribeAcls"); (EVar "err")] [(ECall "kafka.matchVersion" [(EVar "apiKey"); (EInt 0); (EInt 1)])];
        SIf [] (EBin Ne (EVar "err") ENil)
         [SReturn [(EStruct "apiVersion" []); (EVar "err")]]
         []]);
        ((EGlobal "message.KeyCreateAcls"), [SAssign [(EField (EVar "av") "CreateAcls"); (EVar "err")] [(ECall "kafka.matchVersion" [(EVar "apiKey"); (EInt 0); (EInt 1)])];
        SIf [] (EBin Ne (EVar "err") ENil)
         [SReturn [(EStruct "apiVersion" []); (EVar "err")]]
         []]);
        ((EGlobal "message.KeyDeleteAcls"), [SAssign [(EField (EVar "av") "DeleteAcls"); (EVar "err")] [(ECall "kafka.matchVersion" [(EVar "apiKey"); (EInt 0); (EInt 1)])];
        SIf [] (EBin Ne (EVar "err") ENil)
         [SReturn [(EStruct "apiVersion" []); (EVar "err")]]
         []]);
        ((EGlobal "message.KeyDescribeConfigs"), [SAssign [(EField (EVar "av") "DescribeConfigs"); (EVar "err")] [(ECall "kafka.matchVersion" [(EVar "apiKey"); (EInt 0); (EInt 2)])];
        SIf [] (EBin Ne (EVar "err") ENil)
         [SReturn [(EStruct "apiVersion" []); (EVar "err")]]
         []]);
        ((EGlobal "message.KeyAlterConfigs"), [SAssign [(EField (EVar "av") "AlterConfigs"); (EVar "err")] [(ECall "kafka.matchVersion" [(EVar "apiKey"); (EInt 0); (EInt 1)])];
        SIf [] (EBin Ne (EVar "err") ENil)
         [SReturn [(EStruct "apiVersion" []); (EVar "err")]]
         []]);
        ((EGlobal "message.KeyAlterReplicaLogDirs"), [SAssign [(EField (EVar "av") "AlterReplicaLogDirs"); (EVar "err")] [(ECall "kafka.matchVersion" [(EVar "apiKey"); (EInt 0); (EInt 1)])];
        SIf [] (EBin Ne (EVar "err") ENil)
         [SReturn [(EStruct "apiVersion" []); (EVar "err")]]
         []]);
        ((EGlobal "message.KeyDescribeLogDirs"), [SAssign [(EField (EVar "av") "DescribeLogDirs"); (EVar "err")] [(ECall "kafka.matchVersion" [(EVar "apiKey"); (EInt 0); (EInt 1)])];
        SIf [] (EBin Ne (EVar "err") ENil)
         [SReturn [(EStruct "apiVersion" []); (EVar "err")]]
         []]);
        ((EGlobal "message.KeySaslAuthenticate"), [SAssign [(EField (EVar "av") "SaslAuthenticate"); (EVar "err")] [(ECall "kafka.matchVersion" [(EVar "apiKey"); (EInt 0); (EInt 1)])];
        SIf [] (EBin Ne (EVar "err") ENil)
         [SReturn [(EStruct "apiVersion" []); (EVar "err")]]
         []]);
        ((EGlobal "message.KeyCreatePartitions"), [SAssign [(EField (EVar "av") "CreatePartitions"); (EVar "err")] [(ECall "kafka.matchVersion" [(EVar "apiKey"); (EInt 0); (EInt 1)])];
        SIf [] (EBin Ne (EVar "err") ENil)
         [SReturn [(EStruct "apiVersion" []); (EVar "err")]]
         []]);
        ((EGlobal "message.KeyCreateDelegationToken"), [SAssign [(EField (EVar "av") "CreateDelegationToken"); (EVar "err")] [(ECall "kafka.matchVersion" [(EVar "apiKey"); (EInt 0); (EInt 2)])];
        SIf [] (EBin Ne (EVar "err") ENil)
         [SReturn [(EStruct "apiVersion" []); (EVar "err")]]
         []]);
        ((EGlobal "message.KeyRenewDelegationToken"), [SAssign [(EField (EVar "av") "RenewDelegationToken"); (EVar "err")] [(ECall "kafka.matchVersion" [(EVar "apiKey"); (EInt 0); (EInt 1)])];
        SIf [] (EBin Ne (EVar "err") ENil)
         [SReturn [(EStruct "apiVersion" []); (EVar "err")]]
         []]);
        ((EGlobal "message.KeyExpireDelegationToken"), [SAssign [(EField (EVar "av") "ExpireDelegationToken"); (EVar "err")] [(ECall "kafka.matchVersion" [(EVar "apiKey"); (EInt 0); (EInt 1)])];
        SIf [] (EBin Ne (EVar "err") ENil)
         [SReturn [(EStruct "apiVersion" []); (EVar "err")]]
         []]);
        ((EGlobal "message.KeyDescribeDelegationToken"), [SAssign [(EField (EVar "av") "DescribeDelegationToken"); (EVar "err")] [(ECall "kafka.matchVersion" [(EVar "apiKey"); (EInt 0); (EInt 1)])];
        SIf [] (EBin Ne (EVar "err") ENil)
         [SReturn [(EStruct "apiVersion" []); (EVar "err")]]
         []]);
        ((EGlobal "message.KeyDeleteGroups"), [SAssign [(EField (EVar "av") "DeleteGroups"); (EVar "err")] [(ECall "kafka.matchVersion" [(EVar "apiKey"); (EInt 0); (EInt 2)])];
        SIf [] (EBin Ne (EVar "err") ENil)
         [SReturn [(EStruct "apiVersion" []); (EVar "err")]]
         []]);
        ((EGlobal "message.KeyElectLeaders"), [SAssign [(EField (EVar "av") "ElectLeaders"); (EVar "err")] [(ECall "kafka.matchVersion" [(EVar "apiKey"); (EInt 0); (EInt 2)])];
        SIf [] (EBin Ne (EVar "err") ENil)
         [SReturn [(EStruct "apiVersion" []); (EVar "err")]]
         []]);
        ((EGlobal "message.KeyIncrementalAlterConfigs"), [SAssign [(EField (EVar "av") "IncrementalAlterConfigs"); (EVar "err")] [(ECall "kafka.matchVersion" [(EVar "apiKey"); (EInt 0); (EInt 1)])];
        SIf [] (EBin Ne (EVar "err") ENil)
         [SReturn [(EStruct "apiVersion" []); (EVar "err")]]
         []]);
        ((EGlobal "message.KeyAlterPartitionReassignments"), [SAssign [(EField (EVar "av") "AlterPartitionReassignments"); (EVar "err")] [(ECall "kafka.matchVersion" [(EVar "apiKey"); (EInt 0); (EInt 0)])];
        SIf [] (EBin Ne (EVar "err") ENil)
         [SReturn [(EStruct "apiVersion" []); (EVar "err")]]
         []]);
        ((EGlobal "message.KeyListPartitionReassignments"), [SAssign [(EField (EVar "av") "ListPartitionReassignments"); (EVar "err")] [(ECall "kafka.matchVersion" [(EVar "apiKey"); (EInt 0); (EInt 0)])];
        SIf [] (EBin Ne (EVar "err") ENil)
         [SReturn [(EStruct "apiVersion" []); (EVar "err")]]
         []]);
        ((EGlobal "message.KeyOffsetDelete"), [SAssign [(EField (EVar "av") "OffsetDelete"); (EVar "err")] [(ECall "kafka.matchVersion" [(EVar "apiKey"); (EInt 0); (EInt 0)])];
        SIf [] (EBin Ne (EVar "err") ENil)
         [SReturn [(EStruct "apiVersion" []); (EVar "err")]]
         []])]
       []];
   SReturn [(EVar "av"); ENil]].
(** gen.broker.go:1582 *)
Definition go_kafka_matchVersion : func := mkFunc [("apiKey", GNamed "ApiVersionsResponseKey18"); ("minVersion", GInt I16); ("maxVersion", GInt I16)] [GInt I16; GNamed "error"]
  [SFor [SDefine ["version"] [(EField (EVar "apiKey") "MaxVersion")]] (EBin Ge (EVar "version") (EField (EVar "apiKey") "MinVersion")) [SOp (EVar "version") Sub (EInt 1)]
     [SIf [SDefine ["version"] [(EField (EVar "apiKey") "MaxVersion")]] (EBin And (EBin Ge (EVar "version") (EVar "minVersion")) (EBin Le (EVar "version") (EVar "maxVersion")))
       [SReturn [(EVar "version"); ENil]]
       []];
   SReturn [(EInt 0); (ECall "fmt.Errorf" [(EStr [117; 110; 97; 98; 108; 101; 32; 116; 111; 32; 110; 101; 103; 111; 116; 105; 97; 116; 101; 32; 118; 101; 114; 115; 105; 111; 110; 32; 102; 111; 114; 32; 97; 112; 105; 32; 107; 101; 121; 44; 32; 37; 118]); (EField (EVar "apiKey") "ApiKey")])]].
(** client.go:32 *)
Definition go_kafka_NewClient : func := mkFunc [("bootstrap", GSlice (GString)); ("opts", GDots (GNamed "Option"))] [GPtr (GNamed "Client")]
  [SReturn [(ENew "Client" [("bootstrap", (EVar "bootstrap")); ("opts", (EVar "opts"))])]].
(** client.go:40 *)
Definition go_Client_dialBootstrap : func := mkFunc [("c", GPtr (GNamed "Client")); ("callback", GFunc)] [GNamed "error"]
  [SVar "broker" (Some (GPtr (GNamed "Broker"))) None;
   SVar "err" (Some (GNamed "error")) None;
   SRange "_" "addr" (EField (EVar "c") "bootstrap")
     [SAssign [(EVar "broker"); (EVar "err")] [(ECall "kafka.NewBroker" [(EVar "addr"); (ESpread (EField (EVar "c") "opts"))])];
      SIf [] (EBin Ne (EVar "err") ENil)
       [SContinue]
       [];
      SReturn [(EApply (EVar "callback") [(EVar "broker")])]];
   SReturn [(EVar "err")]].
(** client.go:55 *)
Definition go_Client_dialNode : func := mkFunc [("c", GPtr (GNamed "Client")); ("meta", GNamed "MetadataResponse"); ("nodeID", GInt I32)] [GPtr (GNamed "Broker"); GNamed "error"]
  [SRange "_" "broker" (EField (EVar "meta") "Brokers")
     [SIf [] (EBin Eq (EField (EVar "broker") "NodeId") (EVar "nodeID"))
       [SDefine ["addr"] [(EBin Add (EBin Add (EField (EVar "broker") "Host") (EStr [58])) (ECall "strconv.Itoa" [(EConv (GInt INT) (EField (EVar "broker") "Port"))]))];
        SReturn [(ECall "kafka.NewBroker" [(EVar "addr"); (ESpread (EField (EVar "c") "opts"))])]]
       []];
   SReturn [ENil; (ECall "fmt.Errorf" [(EStr [110; 111; 32; 115; 117; 99; 104; 32; 98; 114; 111; 107; 101; 114; 32; 110; 111; 100; 101; 44; 32; 37; 118]); (EVar "nodeID")])]].
(** client.go:65 *)
Definition go_Client_dialCoordinator : func := mkFunc [("c", GPtr (GNamed "Client")); ("ctx", GNamed "context.Context"); ("req", GNamed "FindCoordinatorRequest")] [GPtr (GNamed "Broker"); GNamed "error"]
  [SVar "resp" (Some (GNamed "FindCoordinatorResponse")) None;
   SDefine ["callback"] [(EFunc "Client.dialCoordinator.func1")];
   SIf [SDefine ["err"] [(EMethod (EVar "c") "dialBootstrap" [(EVar "callback")])]] (EBin Ne (EVar "err") ENil)
     [SReturn [ENil; (EVar "err")]]
     [];
   SDefine ["addr"] [(EBin Add (EBin Add (EField (EVar "resp") "Host") (EStr [58])) (ECall "strconv.Itoa" [(EConv (GInt INT) (EField (EVar "resp") "Port"))]))];
   SReturn [(ECall "kafka.NewBroker" [(EVar "addr"); (ESpread (EField (EVar "c") "opts"))])]].
(** client.go:84 *)
Definition go_Client_DialController : func := mkFunc [("c", GPtr (GNamed "Client")); ("ctx", GNamed "context.Context")] [GPtr (GNamed "Broker"); GNamed "error"]
  [SDefine ["meta"; "err"] [(EMethod (EVar "c") "Metadata" [(EVar "ctx")])];
   SIf [] (EBin Ne (EVar "err") ENil)
     [SReturn [ENil; (EVar "err")]]
     [];
   SReturn [(EMethod (EVar "c") "dialNode" [(EVar "meta"); (EField (EVar "meta") "ControllerId")])]].
(** client.go:94 *)
Definition go_Client_DialGroupCoordinator : func := mkFunc [("c", GPtr (GNamed "Client")); ("ctx", GNamed "context.Context"); ("groupId", GString)] [GPtr (GNamed "Broker"); GNamed "error"]
  [SReturn [(EMethod (EVar "c") "dialCoordinator" [(EVar "ctx"); (EStruct "FindCoordinatorRequest" [("Key", (EVar "groupId")); ("KeyType", (EInt 0))])])]].
(** client.go:102 *)
Definition go_Client_DialLeader : func := mkFunc [("c", GPtr (GNamed "Client")); ("ctx", GNamed "context.Context"); ("topic", GString); ("partition", GInt I32)] [GPtr (GNamed "Broker"); GNamed "error"]
  [SDefine ["meta"; "err"] [(EMethod (EVar "c") "Metadata" [(EVar "ctx"); (EVar "topic")])];
   SIf [] (EBin Ne (EVar "err") ENil)
     [SReturn [ENil; (EVar "err")]]
     [];
   SDefine ["t"; "err"] [(ECall "kafka.findTopic" [(EVar "meta"); (EVar "topic")])];
   SIf [] (EBin Ne (EVar "err") ENil)
     [SReturn [ENil; (ECall "fmt.Errorf" [(EStr [117; 110; 97; 98; 108; 101; 32; 116; 111; 32; 100; 105; 97; 108; 32; 108; 101; 97; 100; 101; 114; 58; 32; 37; 119]); (EVar "err")])]]
     [];
   SDefine ["p"; "err"] [(ECall "kafka.findPartition" [(EVar "t"); (EVar "partition")])];
   SIf [] (EBin Ne (EVar "err") ENil)
     [SReturn [ENil; (ECall "fmt.Errorf" [(EStr [117; 110; 97; 98; 108; 101; 32; 116; 111; 32; 100; 105; 97; 108; 32; 108; 101; 97; 100; 101; 114; 58; 32; 37; 119]); (EVar "err")])]]
     [];
   SReturn [(EMethod (EVar "c") "dialNode" [(EVar "meta"); (EField (EVar "p") "LeaderId")])]].
(** client.go:122 *)
Definition go_Client_Metadata : func := mkFunc [("c", GPtr (GNamed "Client")); ("ctx", GNamed "context.Context"); ("topics", GDots (GString))] [GNamed "MetadataResponse"; GNamed "error"]
  [SVar "meta" (Some (GNamed "MetadataResponse")) None;
   SDefine ["callback"] [(EFunc "Client.Metadata.func1")];
   SIf [SDefine ["err"] [(EMethod (EVar "c") "dialBootstrap" [(EVar "callback")])]] (EBin Ne (EVar "err") ENil)
     [SReturn [(EStruct "MetadataResponse" []); (EVar "err")]]
     [];
   SReturn [(EVar "meta"); ENil]].
(** client.go:142 *)
Definition go_kafka_findPartition : func := mkFunc [("topic", GNamed "MetadataResponseTopic3"); ("partition", GInt I32)] [GNamed "MetadataResponsePartition3"; GNamed "error"]
  [SRange "_" "p" (EField (EVar "topic") "Partitions")
     [SIf [] (EBin Eq (EField (EVar "p") "PartitionIndex") (EVar "partition"))
       [SReturn [(EVar "p"); ENil]]
       []];
   SReturn [(EStruct "MetadataResponsePartition3" []); (ECall "fmt.Errorf" [(EStr [117; 110; 97; 98; 108; 101; 32; 116; 111; 32; 102; 105; 110; 100; 32; 112; 97; 114; 116; 105; 116; 105; 111; 110; 44; 32; 37; 118; 44; 32; 102; 111; 114; 32; 116; 111; 112; 105; 99; 44; 32; 37; 118]); (EVar "partition"); (EField (EVar "topic") "Name")])]].
(** client.go:151 *)
Definition go_kafka_findTopic : func := mkFunc [("meta", GNamed "MetadataResponse"); ("topicName", GString)] [GNamed "MetadataResponseTopic3"; GNamed "error"]
  [SRange "_" "topic" (EField (EVar "meta") "Topics")
     [SIf [] (EBin Eq (EField (EVar "topic") "Name") (EVar "topicName"))
       [SReturn [(EVar "topic"); ENil]]
       []];
   SReturn [(EStruct "MetadataResponseTopic3" []); (ECall "fmt.Errorf" [(EStr [110; 111; 32; 115; 117; 99; 104; 32; 116; 111; 112; 105; 99; 44; 32; 37; 118]); (EVar "topicName")])]].
(** gen.option.go:37 *)
Definition go_kafka_WithDialer_func1 : func := mkFunc [("c", GPtr (GNamed "config"))] []
  [SIf [] (EBin Eq (EVar "dialer") ENil)
     [SAssign [(EField (EVar "c") "dialer")] [(ENew "net.Dialer" [])];
      SReturn []]
     [];
   SAssign [(EField (EVar "c") "dialer")] [(EVar "dialer")]].
(** gen.option.go:48 *)
Definition go_kafka_WithTLS_func1 : func := mkFunc [("c", GPtr (GNamed "config"))] []
  [SAssign [(EField (EVar "c") "tlsConfig")] [(EVar "tlsConfig")]].
(** gen.broker.go:70 *)
Definition go_Broker_Produce_func1 : func := mkFunc [("e", GPtr (GNamed "Encoder")); ("correlationID", GInt I32)] []
  [SDefine ["hdr"] [(EStruct "RequestHeader" [("RequestApiKey", (EGlobal "message.KeyProduce")); ("RequestApiVersion", (EField (EField (EVar "b") "apiVersion") "Produce")); ("CorrelationId", (EVar "correlationID")); ("ClientId", (EField (EField (EVar "b") "config") "clientID"))])];
   SDefine ["size"] [(EBin Add (EMethod (EVar "hdr") "Size" [(EInt 2)]) (EMethod (EVar "req") "Size" [(EField (EField (EVar "b") "apiVersion") "Produce")]))];
   SExpr (EMethod (EVar "e") "PutInt32" [(EVar "size")]);
   SExpr (EMethod (EVar "hdr") "Encode" [(EVar "e"); (EInt 2)]);
   SExpr (EMethod (EVar "req") "Encode" [(EVar "e"); (EField (EField (EVar "b") "apiVersion") "Produce")])].
(** gen.broker.go:83 *)
Definition go_Broker_Produce_func2 : func := mkFunc [("d", GPtr (GNamed "Decoder"))] [GNamed "error"]
  [SReturn [(EMethod (EAddr (EVar "resp")) "Decode" [(EVar "d"); (EField (EField (EVar "b") "apiVersion") "Produce")])]].
(** gen.broker.go:95 *)
Definition go_Broker_Fetch_func1 : func := mkFunc [("e", GPtr (GNamed "Encoder")); ("correlationID", GInt I32)] []
  [SDefine ["hdr"] [(EStruct "RequestHeader" [("RequestApiKey", (EGlobal "message.KeyFetch")); ("RequestApiVersion", (EField (EField (EVar "b") "apiVersion") "Fetch")); ("CorrelationId", (EVar "correlationID")); ("ClientId", (EField (EField (EVar "b") "config") "clientID"))])];
   SDefine ["size"] [(EBin Add (EMethod (EVar "hdr") "Size" [(EInt 2)]) (EMethod (EVar "req") "Size" [(EField (EField (EVar "b") "apiVersion") "Fetch")]))];
   SExpr (EMethod (EVar "e") "PutInt32" [(EVar "size")]);
   SExpr (EMethod (EVar "hdr") "Encode" [(EVar "e"); (EInt 2)]);
   SExpr (EMethod (EVar "req") "Encode" [(EVar "e"); (EField (EField (EVar "b") "apiVersion") "Fetch")])].
(** gen.broker.go:108 *)
Definition go_Broker_Fetch_func2 : func := mkFunc [("d", GPtr (GNamed "Decoder"))] [GNamed "error"]
  [SReturn [(EMethod (EAddr (EVar "resp")) "Decode" [(EVar "d"); (EField (EField (EVar "b") "apiVersion") "Fetch")])]].
(** gen.broker.go:120 *)
Definition go_Broker_ListOffset_func1 : func := mkFunc [("e", GPtr (GNamed "Encoder")); ("correlationID", GInt I32)] []
  [SDefine ["hdr"] [(EStruct "RequestHeader" [("RequestApiKey", (EGlobal "message.KeyListOffset")); ("RequestApiVersion", (EField (EField (EVar "b") "apiVersion") "ListOffset")); ("CorrelationId", (EVar "correlationID")); ("ClientId", (EField (EField (EVar "b") "config") "clientID"))])];
   SDefine ["size"] [(EBin Add (EMethod (EVar "hdr") "Size" [(EInt 2)]) (EMethod (EVar "req") "Size" [(EField (EField (EVar "b") "apiVersion") "ListOffset")]))];
   SExpr (EMethod (EVar "e") "PutInt32" [(EVar "size")]);
   SExpr (EMethod (EVar "hdr") "Encode" [(EVar "e"); (EInt 2)]);
   SExpr (EMethod (EVar "req") "Encode" [(EVar "e"); (EField (EField (EVar "b") "apiVersion") "ListOffset")])].
(** gen.broker.go:133 *)
Definition go_Broker_ListOffset_func2 : func := mkFunc [("d", GPtr (GNamed "Decoder"))] [GNamed "error"]
  [SReturn [(EMethod (EAddr (EVar "resp")) "Decode" [(EVar "d"); (EField (EField (EVar "b") "apiVersion") "ListOffset")])]].
(** gen.broker.go:145 *)
Definition go_Broker_Metadata_func1 : func := mkFunc [("e", GPtr (GNamed "Encoder")); ("correlationID", GInt I32)] []
  [SDefine ["hdr"] [(EStruct "RequestHeader" [("RequestApiKey", (EGlobal "message.KeyMetadata")); ("RequestApiVersion", (EField (EField (EVar "b") "apiVersion") "Metadata")); ("CorrelationId", (EVar "correlationID")); ("ClientId", (EField (EField (EVar "b") "config") "clientID"))])];
   SDefine ["size"] [(EBin Add (EMethod (EVar "hdr") "Size" [(EInt 2)]) (EMethod (EVar "req") "Size" [(EField (EField (EVar "b") "apiVersion") "Metadata")]))];
   SExpr (EMethod (EVar "e") "PutInt32" [(EVar "size")]);
   SExpr (EMethod (EVar "hdr") "Encode" [(EVar "e"); (EInt 2)]);
   SExpr (EMethod (EVar "req") "Encode" [(EVar "e"); (EField (EField (EVar "b") "apiVersion") "Metadata")])].
(** gen.broker.go:158 *)
Definition go_Broker_Metadata_func2 : func := mkFunc [("d", GPtr (GNamed "Decoder"))] [GNamed "error"]
  [SReturn [(EMethod (EAddr (EVar "resp")) "Decode" [(EVar "d"); (EField (EField (EVar "b") "apiVersion") "Metadata")])]].
(** gen.broker.go:170 *)
Definition go_Broker_LeaderAndIsr_func1 : func := mkFunc [("e", GPtr (GNamed "Encoder")); ("correlationID", GInt I32)] []
  [SDefine ["hdr"] [(EStruct "RequestHeader" [("RequestApiKey", (EGlobal "message.KeyLeaderAndIsr")); ("RequestApiVersion", (EField (EField (EVar "b") "apiVersion") "LeaderAndIsr")); ("CorrelationId", (EVar "correlationID")); ("ClientId", (EField (EField (EVar "b") "config") "clientID"))])];
   SDefine ["size"] [(EBin Add (EMethod (EVar "hdr") "Size" [(EInt 2)]) (EMethod (EVar "req") "Size" [(EField (EField (EVar "b") "apiVersion") "LeaderAndIsr")]))];
   SExpr (EMethod (EVar "e") "PutInt32" [(EVar "size")]);
   SExpr (EMethod (EVar "hdr") "Encode" [(EVar "e"); (EInt 2)]);
   SExpr (EMethod (EVar "req") "Encode" [(EVar "e"); (EField (EField (EVar "b") "apiVersion") "LeaderAndIsr")])].
(** gen.broker.go:183 *)
Definition go_Broker_LeaderAndIsr_func2 : func := mkFunc [("d", GPtr (GNamed "Decoder"))] [GNamed "error"]
  [SReturn [(EMethod (EAddr (EVar "resp")) "Decode" [(EVar "d"); (EField (EField (EVar "b") "apiVersion") "LeaderAndIsr")])]].
(** gen.broker.go:195 *)
Definition go_Broker_StopReplica_func1 : func := mkFunc [("e", GPtr (GNamed "Encoder")); ("correlationID", GInt I32)] []
  [SDefine ["hdr"] [(EStruct "RequestHeader" [("RequestApiKey", (EGlobal "message.KeyStopReplica")); ("RequestApiVersion", (EField (EField (EVar "b") "apiVersion") "StopReplica")); ("CorrelationId", (EVar "correlationID")); ("ClientId", (EField (EField (EVar "b") "config") "clientID"))])];
   SDefine ["size"] [(EBin Add (EMethod (EVar "hdr") "Size" [(EInt 2)]) (EMethod (EVar "req") "Size" [(EField (EField (EVar "b") "apiVersion") "StopReplica")]))];
   SExpr (EMethod (EVar "e") "PutInt32" [(EVar "size")]);
   SExpr (EMethod (EVar "hdr") "Encode" [(EVar "e"); (EInt 2)]);
   SExpr (EMethod (EVar "req") "Encode" [(EVar "e"); (EField (EField (EVar "b") "apiVersion") "StopReplica")])].
(** gen.broker.go:208 *)
Definition go_Broker_StopReplica_func2 : func := mkFunc [("d", GPtr (GNamed "Decoder"))] [GNamed "error"]
  [SReturn [(EMethod (EAddr (EVar "resp")) "Decode" [(EVar "d"); (EField (EField (EVar "b") "apiVersion") "StopReplica")])]].
(** gen.broker.go:220 *)
Definition go_Broker_UpdateMetadata_func1 : func := mkFunc [("e", GPtr (GNamed "Encoder")); ("correlationID", GInt I32)] []
  [SDefine ["hdr"] [(EStruct "RequestHeader" [("RequestApiKey", (EGlobal "message.KeyUpdateMetadata")); ("RequestApiVersion", (EField (EField (EVar "b") "apiVersion") "UpdateMetadata")); ("CorrelationId", (EVar "correlationID")); ("ClientId", (EField (EField (EVar "b") "config") "clientID"))])];
   SDefine ["size"] [(EBin Add (EMethod (EVar "hdr") "Size" [(EInt 2)]) (EMethod (EVar "req") "Size" [(EField (EField (EVar "b") "apiVersion") "UpdateMetadata")]))];
   SExpr (EMethod (EVar "e") "PutInt32" [(EVar "size")]);
   SExpr (EMethod (EVar "hdr") "Encode" [(EVar "e"); (EInt 2)]);
   SExpr (EMethod (EVar "req") "Encode" [(EVar "e"); (EField (EField (EVar "b") "apiVersion") "UpdateMetadata")])].
(** gen.broker.go:233 *)
Definition go_Broker_UpdateMetadata_func2 : func := mkFunc [("d", GPtr (GNamed "Decoder"))] [GNamed "error"]
  [SReturn [(EMethod (EAddr (EVar "resp")) "Decode" [(EVar "d"); (EField (EField (EVar "b") "apiVersion") "UpdateMetadata")])]].
(** gen.broker.go:245 *)
Definition go_Broker_ControlledShutdown_func1 : func := mkFunc [("e", GPtr (GNamed "Encoder")); ("correlationID", GInt I32)] []
  [SDefine ["hdr"] [(EStruct "RequestHeader" [("RequestApiKey", (EGlobal "message.KeyControlledShutdown")); ("RequestApiVersion", (EField (EField (EVar "b") "apiVersion") "ControlledShutdown")); ("CorrelationId", (EVar "correlationID")); ("ClientId", (EField (EField (EVar "b") "config") "clientID"))])];
   SDefine ["size"] [(EBin Add (EMethod (EVar "hdr") "Size" [(EInt 2)]) (EMethod (EVar "req") "Size" [(EField (EField (EVar "b") "apiVersion") "ControlledShutdown")]))];
   SExpr (EMethod (EVar "e") "PutInt32" [(EVar "size")]);
   SExpr (EMethod (EVar "hdr") "Encode" [(EVar "e"); (EInt 2)]);
   SExpr (EMethod (EVar "req") "Encode" [(EVar "e"); (EField (EField (EVar "b") "apiVersion") "ControlledShutdown")])].
(** gen.broker.go:258 *)
Definition go_Broker_ControlledShutdown_func2 : func := mkFunc [("d", GPtr (GNamed "Decoder"))] [GNamed "error"]
  [SReturn [(EMethod (EAddr (EVar "resp")) "Decode" [(EVar "d"); (EField (EField (EVar "b") "apiVersion") "ControlledShutdown")])]].
(** gen.broker.go:270 *)
Definition go_Broker_OffsetCommit_func1 : func := mkFunc [("e", GPtr (GNamed "Encoder")); ("correlationID", GInt I32)] []
  [SDefine ["hdr"] [(EStruct "RequestHeader" [("RequestApiKey", (EGlobal "message.KeyOffsetCommit")); ("RequestApiVersion", (EField (EField (EVar "b") "apiVersion") "OffsetCommit")); ("CorrelationId", (EVar "correlationID")); ("ClientId", (EField (EField (EVar "b") "config") "clientID"))])];
   SDefine ["size"] [(EBin Add (EMethod (EVar "hdr") "Size" [(EInt 2)]) (EMethod (EVar "req") "Size" [(EField (EField (EVar "b") "apiVersion") "OffsetCommit")]))];
   SExpr (EMethod (EVar "e") "PutInt32" [(EVar "size")]);
   SExpr (EMethod (EVar "hdr") "Encode" [(EVar "e"); (EInt 2)]);
   SExpr (EMethod (EVar "req") "Encode" [(EVar "e"); (EField (EField (EVar "b") "apiVersion") "OffsetCommit")])].
(** gen.broker.go:283 *)
Definition go_Broker_OffsetCommit_func2 : func := mkFunc [("d", GPtr (GNamed "Decoder"))] [GNamed "error"]
  [SReturn [(EMethod (EAddr (EVar "resp")) "Decode" [(EVar "d"); (EField (EField (EVar "b") "apiVersion") "OffsetCommit")])]].
(** gen.broker.go:295 *)
Definition go_Broker_OffsetFetch_func1 : func := mkFunc [("e", GPtr (GNamed "Encoder")); ("correlationID", GInt I32)] []
  [SDefine ["hdr"] [(EStruct "RequestHeader" [("RequestApiKey", (EGlobal "message.KeyOffsetFetch")); ("RequestApiVersion", (EField (EField (EVar "b") "apiVersion") "OffsetFetch")); ("CorrelationId", (EVar "correlationID")); ("ClientId", (EField (EField (EVar "b") "config") "clientID"))])];
   SDefine ["size"] [(EBin Add (EMethod (EVar "hdr") "Size" [(EInt 2)]) (EMethod (EVar "req") "Size" [(EField (EField (EVar "b") "apiVersion") "OffsetFetch")]))];
   SExpr (EMethod (EVar "e") "PutInt32" [(EVar "size")]);
   SExpr (EMethod (EVar "hdr") "Encode" [(EVar "e"); (EInt 2)]);
   SExpr (EMethod (EVar "req") "Encode" [(EVar "e"); (EField (EField (EVar "b") "apiVersion") "OffsetFetch")])].
(** gen.broker.go:308 *)
Definition go_Broker_OffsetFetch_func2 : func := mkFunc [("d", GPtr (GNamed "Decoder"))] [GNamed "error"]
  [SReturn [(EMethod (EAddr (EVar "resp")) "Decode" [(EVar "d"); (EField (EField (EVar "b") "apiVersion") "OffsetFetch")])]].
(** gen.broker.go:320 *)
Definition go_Broker_FindCoordinator_func1 : func := mkFunc [("e", GPtr (GNamed "Encoder")); ("correlationID", GInt I32)] []
  [SDefine ["hdr"] [(EStruct "RequestHeader" [("RequestApiKey", (EGlobal "message.KeyFindCoordinator")); ("RequestApiVersion", (EField (EField (EVar "b") "apiVersion") "FindCoordinator")); ("CorrelationId", (EVar "correlationID")); ("ClientId", (EField (EField (EVar "b") "config") "clientID"))])];
   SDefine ["size"] [(EBin Add (EMethod (EVar "hdr") "Size" [(EInt 2)]) (EMethod (EVar "req") "Size" [(EField (EField (EVar "b") "apiVersion") "FindCoordinator")]))];
   SExpr (EMethod (EVar "e") "PutInt32" [(EVar "size")]);
   SExpr (EMethod (EVar "hdr") "Encode" [(EVar "e"); (EInt 2)]);
   SExpr (EMethod (EVar "req") "Encode" [(EVar "e"); (EField (EField (EVar "b") "apiVersion") "FindCoordinator")])].
(** gen.broker.go:333 *)
Definition go_Broker_FindCoordinator_func2 : func := mkFunc [("d", GPtr (GNamed "Decoder"))] [GNamed "error"]
  [SReturn [(EMethod (EAddr (EVar "resp")) "Decode" [(EVar "d"); (EField (EField (EVar "b") "apiVersion") "FindCoordinator")])]].
(** gen.broker.go:345 *)
Definition go_Broker_JoinGroup_func1 : func := mkFunc [("e", GPtr (GNamed "Encoder")); ("correlationID", GInt I32)] []
  [SDefine ["hdr"] [(EStruct "RequestHeader" [("RequestApiKey", (EGlobal "message.KeyJoinGroup")); ("RequestApiVersion", (EField (EField (EVar "b") "apiVersion") "JoinGroup")); ("CorrelationId", (EVar "correlationID")); ("ClientId", (EField (EField (EVar "b") "config") "clientID"))])];
   SDefine ["size"] [(EBin Add (EMethod (EVar "hdr") "Size" [(EInt 2)]) (EMethod (EVar "req") "Size" [(EField (EField (EVar "b") "apiVersion") "JoinGroup")]))];
   SExpr (EMethod (EVar "e") "PutInt32" [(EVar "size")]);
   SExpr (EMethod (EVar "hdr") "Encode" [(EVar "e"); (EInt 2)]);
   SExpr (EMethod (EVar "req") "Encode" [(EVar "e"); (EField (EField (EVar "b") "apiVersion") "JoinGroup")])].
(** gen.broker.go:358 *)
Definition go_Broker_JoinGroup_func2 : func := mkFunc [("d", GPtr (GNamed "Decoder"))] [GNamed "error"]
  [SReturn [(EMethod (EAddr (EVar "resp")) "Decode" [(EVar "d"); (EField (EField (EVar "b") "apiVersion") "JoinGroup")])]].
(** gen.broker.go:370 *)
Definition go_Broker_Heartbeat_func1 : func := mkFunc [("e", GPtr (GNamed "Encoder")); ("correlationID", GInt I32)] []
  [SDefine ["hdr"] [(EStruct "RequestHeader" [("RequestApiKey", (EGlobal "message.KeyHeartbeat")); ("RequestApiVersion", (EField (EField (EVar "b") "apiVersion") "Heartbeat")); ("CorrelationId", (EVar "correlationID")); ("ClientId", (EField (EField (EVar "b") "config") "clientID"))])];
   SDefine ["size"] [(EBin Add (EMethod (EVar "hdr") "Size" [(EInt 2)]) (EMethod (EVar "req") "Size" [(EField (EField (EVar "b") "apiVersion") "Heartbeat")]))];
   SExpr (EMethod (EVar "e") "PutInt32" [(EVar "size")]);
   SExpr (EMethod (EVar "hdr") "Encode" [(EVar "e"); (EInt 2)]);
   SExpr (EMethod (EVar "req") "Encode" [(EVar "e"); (EField (EField (EVar "b") "apiVersion") "Heartbeat")])].
(** gen.broker.go:383 *)
Definition go_Broker_Heartbeat_func2 : func := mkFunc [("d", GPtr (GNamed "Decoder"))] [GNamed "error"]
  [SReturn [(EMethod (EAddr (EVar "resp")) "Decode" [(EVar "d"); (EField (EField (EVar "b") "apiVersion") "Heartbeat")])]].
(** gen.broker.go:395 *)
Definition go_Broker_LeaveGroup_func1 : func := mkFunc [("e", GPtr (GNamed "Encoder")); ("correlationID", GInt I32)] []
  [SDefine ["hdr"] [(EStruct "RequestHeader" [("RequestApiKey", (EGlobal "message.KeyLeaveGroup")); ("RequestApiVersion", (EField (EField (EVar "b") "apiVersion") "LeaveGroup")); ("CorrelationId", (EVar "correlationID")); ("ClientId", (EField (EField (EVar "b") "config") "clientID"))])];
   SDefine ["size"] [(EBin Add (EMethod (EVar "hdr") "Size" [(EInt 2)]) (EMethod (EVar "req") "Size" [(EField (EField (EVar "b") "apiVersion") "LeaveGroup")]))];
   SExpr (EMethod (EVar "e") "PutInt32" [(EVar "size")]);
   SExpr (EMethod (EVar "hdr") "Encode" [(EVar "e"); (EInt 2)]);
   SExpr (EMethod (EVar "req") "Encode" [(EVar "e"); (EField (EField (EVar "b") "apiVersion") "LeaveGroup")])].
(** gen.broker.go:408 *)
Definition go_Broker_LeaveGroup_func2 : func := mkFunc [("d", GPtr (GNamed "Decoder"))] [GNamed "error"]
  [SReturn [(EMethod (EAddr (EVar "resp")) "Decode" [(EVar "d"); (EField (EField (EVar "b") "apiVersion") "LeaveGroup")])]].
(** gen.broker.go:420 *)
Definition go_Broker_SyncGroup_func1 : func := mkFunc [("e", GPtr (GNamed "Encoder")); ("correlationID", GInt I32)] []
  [SDefine ["hdr"] [(EStruct "RequestHeader" [("RequestApiKey", (EGlobal "message.KeySyncGroup")); ("RequestApiVersion", (EField (EField (EVar "b") "apiVersion") "SyncGroup")); ("CorrelationId", (EVar "correlationID")); ("ClientId", (EField (EField (EVar "b") "config") "clientID"))])];
   SDefine ["size"] [(EBin Add (EMethod (EVar "hdr") "Size" [(EInt 2)]) (EMethod (EVar "req") "Size" [(EField (EField (EVar "b") "apiVersion") "SyncGroup")]))];
   SExpr (EMethod (EVar "e") "PutInt32" [(EVar "size")]);
   SExpr (EMethod (EVar "hdr") "Encode" [(EVar "e"); (EInt 2)]);
   SExpr (EMethod (EVar "req") "Encode" [(EVar "e"); (EField (EField (EVar "b") "apiVersion") "SyncGroup")])].
(** gen.broker.go:433 *)
Definition go_Broker_SyncGroup_func2 : func := mkFunc [("d", GPtr (GNamed "Decoder"))] [GNamed "error"]
  [SReturn [(EMethod (EAddr (EVar "resp")) "Decode" [(EVar "d"); (EField (EField (EVar "b") "apiVersion") "SyncGroup")])]].
(** gen.broker.go:445 *)
Definition go_Broker_DescribeGroups_func1 : func := mkFunc [("e", GPtr (GNamed "Encoder")); ("correlationID", GInt I32)] []
  [SDefine ["hdr"] [(EStruct "RequestHeader" [("RequestApiKey", (EGlobal "message.KeyDescribeGroups")); ("RequestApiVersion", (EField (EField (EVar "b") "apiVersion") "DescribeGroups")); ("CorrelationId", (EVar "correlationID")); ("ClientId", (EField (EField (EVar "b") "config") "clientID"))])];
   SDefine ["size"] [(EBin Add (EMethod (EVar "hdr") "Size" [(EInt 2)]) (EMethod (EVar "req") "Size" [(EField (EField (EVar "b") "apiVersion") "DescribeGroups")]))];
   SExpr (EMethod (EVar "e") "PutInt32" [(EVar "size")]);
   SExpr (EMethod (EVar "hdr") "Encode" [(EVar "e"); (EInt 2)]);
   SExpr (EMethod (EVar "req") "Encode" [(EVar "e"); (EField (EField (EVar "b") "apiVersion") "DescribeGroups")])].
(** gen.broker.go:458 *)
Definition go_Broker_DescribeGroups_func2 : func := mkFunc [("d", GPtr (GNamed "Decoder"))] [GNamed "error"]
  [SReturn [(EMethod (EAddr (EVar "resp")) "Decode" [(EVar "d"); (EField (EField (EVar "b") "apiVersion") "DescribeGroups")])]].
(** gen.broker.go:470 *)
Definition go_Broker_ListGroups_func1 : func := mkFunc [("e", GPtr (GNamed "Encoder")); ("correlationID", GInt I32)] []
  [SDefine ["hdr"] [(EStruct "RequestHeader" [("RequestApiKey", (EGlobal "message.KeyListGroups")); ("RequestApiVersion", (EField (EField (EVar "b") "apiVersion") "ListGroups")); ("CorrelationId", (EVar "correlationID")); ("ClientId", (EField (EField (EVar "b") "config") "clientID"))])];
   SDefine ["size"] [(EBin Add (EMethod (EVar "hdr") "Size" [(EInt 2)]) (EMethod (EVar "req") "Size" [(EField (EField (EVar "b") "apiVersion") "ListGroups")]))];
   SExpr (EMethod (EVar "e") "PutInt32" [(EVar "size")]);
   SExpr (EMethod (EVar "hdr") "Encode" [(EVar "e"); (EInt 2)]);
   SExpr (EMethod (EVar "req") "Encode" [(EVar "e"); (EField (EField (EVar "b") "apiVersion") "ListGroups")])].
(** gen.broker.go:483 *)
Definition go_Broker_ListGroups_func2 : func := mkFunc [("d", GPtr (GNamed "Decoder"))] [GNamed "error"]
  [SReturn [(EMethod (EAddr (EVar "resp")) "Decode" [(EVar "d"); (EField (EField (EVar "b") "apiVersion") "ListGroups")])]].
(** gen.broker.go:495 *)
Definition go_Broker_SaslHandshake_func1 : func := mkFunc [("e", GPtr (GNamed "Encoder")); ("correlationID", GInt I32)] []
  [SDefine ["hdr"] [(EStruct "RequestHeader" [("RequestApiKey", (EGlobal "message.KeySaslHandshake")); ("RequestApiVersion", (EField (EField (EVar "b") "apiVersion") "SaslHandshake")); ("CorrelationId", (EVar "correlationID")); ("ClientId", (EField (EField (EVar "b") "config") "clientID"))])];
   SDefine ["size"] [(EBin Add (EMethod (EVar "hdr") "Size" [(EInt 2)]) (EMethod (EVar "req") "Size" [(EField (EField (EVar "b") "apiVersion") "SaslHandshake")]))];
   SExpr (EMethod (EVar "e") "PutInt32" [(EVar "size")]);
   SExpr (EMethod (EVar "hdr") "Encode" [(EVar "e"); (EInt 2)]);
   SExpr (EMethod (EVar "req") "Encode" [(EVar "e"); (EField (EField (EVar "b") "apiVersion") "SaslHandshake")])].
(** gen.broker.go:508 *)
Definition go_Broker_SaslHandshake_func2 : func := mkFunc [("d", GPtr (GNamed "Decoder"))] [GNamed "error"]
  [SReturn [(EMethod (EAddr (EVar "resp")) "Decode" [(EVar "d"); (EField (EField (EVar "b") "apiVersion") "SaslHandshake")])]].
(** gen.broker.go:520 *)
Definition go_Broker_ApiVersions_func1 : func := mkFunc [("e", GPtr (GNamed "Encoder")); ("correlationID", GInt I32)] []
  [SDefine ["hdr"] [(EStruct "RequestHeader" [("RequestApiKey", (EGlobal "message.KeyApiVersions")); ("RequestApiVersion", (EField (EField (EVar "b") "apiVersion") "ApiVersions")); ("CorrelationId", (EVar "correlationID")); ("ClientId", (EField (EField (EVar "b") "config") "clientID"))])];
   SDefine ["size"] [(EBin Add (EMethod (EVar "hdr") "Size" [(EInt 2)]) (EMethod (EVar "req") "Size" [(EField (EField (EVar "b") "apiVersion") "ApiVersions")]))];
   SExpr (EMethod (EVar "e") "PutInt32" [(EVar "size")]);
   SExpr (EMethod (EVar "hdr") "Encode" [(EVar "e"); (EInt 2)]);
   SExpr (EMethod (EVar "req") "Encode" [(EVar "e"); (EField (EField (EVar "b") "apiVersion") "ApiVersions")])].
(** gen.broker.go:533 *)
Definition go_Broker_ApiVersions_func2 : func := mkFunc [("d", GPtr (GNamed "Decoder"))] [GNamed "error"]
  [SReturn [(EMethod (EAddr (EVar "resp")) "Decode" [(EVar "d"); (EField (EField (EVar "b") "apiVersion") "ApiVersions")])]].
(** gen.broker.go:545 *)
Definition go_Broker_CreateTopics_func1 : func := mkFunc [("e", GPtr (GNamed "Encoder")); ("correlationID", GInt I32)] []
  [SDefine ["hdr"] [(EStruct "RequestHeader" [("RequestApiKey", (EGlobal "message.KeyCreateTopics")); ("RequestApiVersion", (EField (EField (EVar "b") "apiVersion") "CreateTopics")); ("CorrelationId", (EVar "correlationID")); ("ClientId", (EField (EField (EVar "b") "config") "clientID"))])];
   SDefine ["size"] [(EBin Add (EMethod (EVar "hdr") "Size" [(EInt 2)]) (EMethod (EVar "req") "Size" [(EField (EField (EVar "b") "apiVersion") "CreateTopics")]))];
   SExpr (EMethod (EVar "e") "PutInt32" [(EVar "size")]);
   SExpr (EMethod (EVar "hdr") "Encode" [(EVar "e"); (EInt 2)]);
   SExpr (EMethod (EVar "req") "Encode" [(EVar "e"); (EField (EField (EVar "b") "apiVersion") "CreateTopics")])].
(** gen.broker.go:558 *)
Definition go_Broker_CreateTopics_func2 : func := mkFunc [("d", GPtr (GNamed "Decoder"))] [GNamed "error"]
  [SReturn [(EMethod (EAddr (EVar "resp")) "Decode" [(EVar "d"); (EField (EField (EVar "b") "apiVersion") "CreateTopics")])]].
(** gen.broker.go:570 *)
Definition go_Broker_DeleteTopics_func1 : func := mkFunc [("e", GPtr (GNamed "Encoder")); ("correlationID", GInt I32)] []
  [SDefine ["hdr"] [(EStruct "RequestHeader" [("RequestApiKey", (EGlobal "message.KeyDeleteTopics")); ("RequestApiVersion", (EField (EField (EVar "b") "apiVersion") "DeleteTopics")); ("CorrelationId", (EVar "correlationID")); ("ClientId", (EField (EField (EVar "b") "config") "clientID"))])];
   SDefine ["size"] [(EBin Add (EMethod (EVar "hdr") "Size" [(EInt 2)]) (EMethod (EVar "req") "Size" [(EField (EField (EVar "b") "apiVersion") "DeleteTopics")]))];
   SExpr (EMethod (EVar "e") "PutInt32" [(EVar "size")]);
   SExpr (EMethod (EVar "hdr") "Encode" [(EVar "e"); (EInt 2)]);
   SExpr (EMethod (EVar "req") "Encode" [(EVar "e"); (EField (EField (EVar "b") "apiVersion") "DeleteTopics")])].
(** gen.broker.go:583 *)
Definition go_Broker_DeleteTopics_func2 : func := mkFunc [("d", GPtr (GNamed "Decoder"))] [GNamed "error"]
  [SReturn [(EMethod (EAddr (EVar "resp")) "Decode" [(EVar "d"); (EField (EField (EVar "b") "apiVersion") "DeleteTopics")])]].
(** gen.broker.go:595 *)
Definition go_Broker_DeleteRecords_func1 : func := mkFunc [("e", GPtr (GNamed "Encoder")); ("correlationID", GInt I32)] []
  [SDefine ["hdr"] [(EStruct "RequestHeader" [("RequestApiKey", (EGlobal "message.KeyDeleteRecords")); ("RequestApiVersion", (EField (EField (EVar "b") "apiVersion") "DeleteRecords")); ("CorrelationId", (EVar "correlationID")); ("ClientId", (EField (EField (EVar "b") "config") "clientID"))])];
   SDefine ["size"] [(EBin Add (EMethod (EVar "hdr") "Size" [(EInt 2)]) (EMethod (EVar "req") "Size" [(EField (EField (EVar "b") "apiVersion") "DeleteRecords")]))];
   SExpr (EMethod (EVar "e") "PutInt32" [(EVar "size")]);
   SExpr (EMethod (EVar "hdr") "Encode" [(EVar "e"); (EInt 2)]);
   SExpr (EMethod (EVar "req") "Encode" [(EVar "e"); (EField (EField (EVar "b") "apiVersion") "DeleteRecords")])].
(** gen.broker.go:608 *)
Definition go_Broker_DeleteRecords_func2 : func := mkFunc [("d", GPtr (GNamed "Decoder"))] [GNamed "error"]
  [SReturn [(EMethod (EAddr (EVar "resp")) "Decode" [(EVar "d"); (EField (EField (EVar "b") "apiVersion") "DeleteRecords")])]].
(** gen.broker.go:620 *)
Definition go_Broker_InitProducerId_func1 : func := mkFunc [("e", GPtr (GNamed "Encoder")); ("correlationID", GInt I32)] []
  [SDefine ["hdr"] [(EStruct "RequestHeader" [("RequestApiKey", (EGlobal "message.KeyInitProducerId")); ("RequestApiVersion", (EField (EField (EVar "b") "apiVersion") "InitProducerId")); ("CorrelationId", (EVar "correlationID")); ("ClientId", (EField (EField (EVar "b") "config") "clientID"))])];
   SDefine ["size"] [(EBin Add (EMethod (EVar "hdr") "Size" [(EInt 2)]) (EMethod (EVar "req") "Size" [(EField (EField (EVar "b") "apiVersion") "InitProducerId")]))];
   SExpr (EMethod (EVar "e") "PutInt32" [(EVar "size")]);
   SExpr (EMethod (EVar "hdr") "Encode" [(EVar "e"); (EInt 2)]);
   SExpr (EMethod (EVar "req") "Encode" [(EVar "e"); (EField (EField (EVar "b") "apiVersion") "InitProducerId")])].
(** gen.broker.go:633 *)
Definition go_Broker_InitProducerId_func2 : func := mkFunc [("d", GPtr (GNamed "Decoder"))] [GNamed "error"]
  [SReturn [(EMethod (EAddr (EVar "resp")) "Decode" [(EVar "d"); (EField (EField (EVar "b") "apiVersion") "InitProducerId")])]].
(** gen.broker.go:645 *)
Definition go_Broker_OffsetForLeaderEpoch_func1 : func := mkFunc [("e", GPtr (GNamed "Encoder")); ("correlationID", GInt I32)] []
  [SDefine ["hdr"] [(EStruct "RequestHeader" [("RequestApiKey", (EGlobal "message.KeyOffsetForLeaderEpoch")); ("RequestApiVersion", (EField (EField (EVar "b") "apiVersion") "OffsetForLeaderEpoch")); ("CorrelationId", (EVar "correlationID")); ("ClientId", (EField (EField (EVar "b") "config") "clientID"))])];
   SDefine ["size"] [(EBin Add (EMethod (EVar "hdr") "Size" [(EInt 2)]) (EMethod (EVar "req") "Size" [(EField (EField (EVar "b") "apiVersion") "OffsetForLeaderEpoch")]))];
   SExpr (EMethod (EVar "e") "PutInt32" [(EVar "size")]);
   SExpr (EMethod (EVar "hdr") "Encode" [(EVar "e"); (EInt 2)]);
   SExpr (EMethod (EVar "req") "Encode" [(EVar "e"); (EField (EField (EVar "b") "apiVersion") "OffsetForLeaderEpoch")])].
(** gen.broker.go:658 *)
Definition go_Broker_OffsetForLeaderEpoch_func2 : func := mkFunc [("d", GPtr (GNamed "Decoder"))] [GNamed "error"]
  [SReturn [(EMethod (EAddr (EVar "resp")) "Decode" [(EVar "d"); (EField (EField (EVar "b") "apiVersion") "OffsetForLeaderEpoch")])]].
(** gen.broker.go:670 *)
Definition go_Broker_AddPartitionsToTxn_func1 : func := mkFunc [("e", GPtr (GNamed "Encoder")); ("correlationID", GInt I32)] []
  [SDefine ["hdr"] [(EStruct "RequestHeader" [("RequestApiKey", (EGlobal "message.KeyAddPartitionsToTxn")); ("RequestApiVersion", (EField (EField (EVar "b") "apiVersion") "AddPartitionsToTxn")); ("CorrelationId", (EVar "correlationID")); ("ClientId", (EField (EField (EVar "b") "config") "clientID"))])];
   SDefine ["size"] [(EBin Add (EMethod (EVar "hdr") "Size" [(EInt 2)]) (EMethod (EVar "req") "Size" [(EField (EField (EVar "b") "apiVersion") "AddPartitionsToTxn")]))];
   SExpr (EMethod (EVar "e") "PutInt32" [(EVar "size")]);
   SExpr (EMethod (EVar "hdr") "Encode" [(EVar "e"); (EInt 2)]);
   SExpr (EMethod (EVar "req") "Encode" [(EVar "e"); (EField (EField (EVar "b") "apiVersion") "AddPartitionsToTxn")])].
(** gen.broker.go:683 *)
Definition go_Broker_AddPartitionsToTxn_func2 : func := mkFunc [("d", GPtr (GNamed "Decoder"))] [GNamed "error"]
  [SReturn [(EMethod (EAddr (EVar "resp")) "Decode" [(EVar "d"); (EField (EField (EVar "b") "apiVersion") "AddPartitionsToTxn")])]].
(** gen.broker.go:695 *)
Definition go_Broker_AddOffsetsToTxn_func1 : func := mkFunc [("e", GPtr (GNamed "Encoder")); ("correlationID", GInt I32)] []
  [SDefine ["hdr"] [(EStruct "RequestHeader" [("RequestApiKey", (EGlobal "message.KeyAddOffsetsToTxn")); ("RequestApiVersion", (EField (EField (EVar "b") "apiVersion") "AddOffsetsToTxn")); ("CorrelationId", (EVar "correlationID")); ("ClientId", (EField (EField (EVar "b") "config") "clientID"))])];
   SDefine ["size"] [(EBin Add (EMethod (EVar "hdr") "Size" [(EInt 2)]) (EMethod (EVar "req") "Size" [(EField (EField (EVar "b") "apiVersion") "AddOffsetsToTxn")]))];
   SExpr (EMethod (EVar "e") "PutInt32" [(EVar "size")]);
   SExpr (EMethod (EVar "hdr") "Encode" [(EVar "e"); (EInt 2)]);
   SExpr (EMethod (EVar "req") "Encode" [(EVar "e"); (EField (EField (EVar "b") "apiVersion") "AddOffsetsToTxn")])].
(** gen.broker.go:708 *)
Definition go_Broker_AddOffsetsToTxn_func2 : func := mkFunc [("d", GPtr (GNamed "Decoder"))] [GNamed "error"]
  [SReturn [(EMethod (EAddr (EVar "resp")) "Decode" [(EVar "d"); (EField (EField (EVar "b") "apiVersion") "AddOffsetsToTxn")])]].
(** gen.broker.go:720 *)
Definition go_Broker_EndTxn_func1 : func := mkFunc [("e", GPtr (GNamed "Encoder")); ("correlationID", GInt I32)] []
  [SDefine ["hdr"] [(EStruct "RequestHeader" [("RequestApiKey", (EGlobal "message.KeyEndTxn")); ("RequestApiVersion", (EField (EField (EVar "b") "apiVersion") "EndTxn")); ("CorrelationId", (EVar "correlationID")); ("ClientId", (EField (EField (EVar "b") "config") "clientID"))])];
   SDefine ["size"] [(EBin Add (EMethod (EVar "hdr") "Size" [(EInt 2)]) (EMethod (EVar "req") "Size" [(EField (EField (EVar "b") "apiVersion") "EndTxn")]))];
   SExpr (EMethod (EVar "e") "PutInt32" [(EVar "size")]);
   SExpr (EMethod (EVar "hdr") "Encode" [(EVar "e"); (EInt 2)]);
   SExpr (EMethod (EVar "req") "Encode" [(EVar "e"); (EField (EField (EVar "b") "apiVersion") "EndTxn")])].
(** gen.broker.go:733 *)
Definition go_Broker_EndTxn_func2 : func := mkFunc [("d", GPtr (GNamed "Decoder"))] [GNamed "error"]
  [SReturn [(EMethod (EAddr (EVar "resp")) "Decode" [(EVar "d"); (EField (EField (EVar "b") "apiVersion") "EndTxn")])]].
(** gen.broker.go:745 *)
Definition go_Broker_WriteTxnMarkers_func1 : func := mkFunc [("e", GPtr (GNamed "Encoder")); ("correlationID", GInt I32)] []
  [SDefine ["hdr"] [(EStruct "RequestHeader" [("RequestApiKey", (EGlobal "message.KeyWriteTxnMarkers")); ("RequestApiVersion", (EField (EField (EVar "b") "apiVersion") "WriteTxnMarkers")); ("CorrelationId", (EVar "correlationID")); ("ClientId", (EField (EField (EVar "b") "config") "clientID"))])];
   SDefine ["size"] [(EBin Add (EMethod (EVar "hdr") "Size" [(EInt 2)]) (EMethod (EVar "req") "Size" [(EField (EField (EVar "b") "apiVersion") "WriteTxnMarkers")]))];
   SExpr (EMethod (EVar "e") "PutInt32" [(EVar "size")]);
   SExpr (EMethod (EVar "hdr") "Encode" [(EVar "e"); (EInt 2)]);
   SExpr (EMethod (EVar "req") "Encode" [(EVar "e"); (EField (EField (EVar "b") "apiVersion") "WriteTxnMarkers")])].
(** gen.broker.go:758 *)
Definition go_Broker_WriteTxnMarkers_func2 : func := mkFunc [("d", GPtr (GNamed "Decoder"))] [GNamed "error"]
  [SReturn [(EMethod (EAddr (EVar "resp")) "Decode" [(EVar "d"); (EField (EField (EVar "b") "apiVersion") "WriteTxnMarkers")])]].
(** gen.broker.go:770 *)
Definition go_Broker_TxnOffsetCommit_func1 : func := mkFunc [("e", GPtr (GNamed "Encoder")); ("correlationID", GInt I32)] []
  [SDefine ["hdr"] [(EStruct "RequestHeader" [("RequestApiKey", (EGlobal "message.KeyTxnOffsetCommit")); ("RequestApiVersion", (EField (EField (EVar "b") "apiVersion") "TxnOffsetCommit")); ("CorrelationId", (EVar "correlationID")); ("ClientId", (EField (EField (EVar "b") "config") "clientID"))])];
   SDefine ["size"] [(EBin Add (EMethod (EVar "hdr") "Size" [(EInt 2)]) (EMethod (EVar "req") "Size" [(EField (EField (EVar "b") "apiVersion") "TxnOffsetCommit")]))];
   SExpr (EMethod (EVar "e") "PutInt32" [(EVar "size")]);
   SExpr (EMethod (EVar "hdr") "Encode" [(EVar "e"); (EInt 2)]);
   SExpr (EMethod (EVar "req") "Encode" [(EVar "e"); (EField (EField (EVar "b") "apiVersion") "TxnOffsetCommit")])].
(** gen.broker.go:783 *)
Definition go_Broker_TxnOffsetCommit_func2 : func := mkFunc [("d", GPtr (GNamed "Decoder"))] [GNamed "error"]
  [SReturn [(EMethod (EAddr (EVar "resp")) "Decode" [(EVar "d"); (EField (EField (EVar "b") "apiVersion") "TxnOffsetCommit")])]].
(** gen.broker.go:795 *)
Definition go_Broker_DescribeAcls_func1 : func := mkFunc [("e", GPtr (GNamed "Encoder")); ("correlationID", GInt I32)] []
  [SDefine ["hdr"] [(EStruct "RequestHeader" [("RequestApiKey", (EGlobal "message.KeyDescribeAcls")); ("RequestApiVersion", (EField (EField (EVar "b") "apiVersion") "DescribeAcls")); ("CorrelationId", (EVar "correlationID")); ("ClientId", (EField (EField (EVar "b") "config") "clientID"))])];
   SDefine ["size"] [(EBin Add (EMethod (EVar "hdr") "Size" [(EInt 2)]) (EMethod (EVar "req") "Size" [(EField (EField (EVar "b") "apiVersion") "DescribeAcls")]))];
   SExpr (EMethod (EVar "e") "PutInt32" [(EVar "size")]);
   SExpr (EMethod (EVar "hdr") "Encode" [(EVar "e"); (EInt 2)]);
   SExpr (EMethod (EVar "req") "Encode" [(EVar "e"); (EField (EField (EVar "b") "apiVersion") "DescribeAcls")])].
(** gen.broker.go:808 *)
Definition go_Broker_DescribeAcls_func2 : func := mkFunc [("d", GPtr (GNamed "Decoder"))] [GNamed "error"]
  [SReturn [(EMethod (EAddr (EVar "resp")) "Decode" [(EVar "d"); (EField (EField (EVar "b") "apiVersion") "DescribeAcls")])]].
(** gen.broker.go:820 *)
Definition go_Broker_CreateAcls_func1 : func := mkFunc [("e", GPtr (GNamed "Encoder")); ("correlationID", GInt I32)] []
  [SDefine ["hdr"] [(EStruct "RequestHeader" [("RequestApiKey", (EGlobal "message.KeyCreateAcls")); ("RequestApiVersion", (EField (EField (EVar "b") "apiVersion") "CreateAcls")); ("CorrelationId", (EVar "correlationID")); ("ClientId", (EField (EField (EVar "b") "config") "clientID"))])];
   SDefine ["size"] [(EBin Add (EMethod (EVar "hdr") "Size" [(EInt 2)]) (EMethod (EVar "req") "Size" [(EField (EField (EVar "b") "apiVersion") "CreateAcls")]))];
   SExpr (EMethod (EVar "e") "PutInt32" [(EVar "size")]);
   SExpr (EMethod (EVar "hdr") "Encode" [(EVar "e"); (EInt 2)]);
   SExpr (EMethod (EVar "req") "Encode" [(EVar "e"); (EField (EField (EVar "b") "apiVersion") "CreateAcls")])].
(** gen.broker.go:833 *)
Definition go_Broker_CreateAcls_func2 : func := mkFunc [("d", GPtr (GNamed "Decoder"))] [GNamed "error"]
  [SReturn [(EMethod (EAddr (EVar "resp")) "Decode" [(EVar "d"); (EField (EField (EVar "b") "apiVersion") "CreateAcls")])]].
(** gen.broker.go:845 *)
Definition go_Broker_DeleteAcls_func1 : func := mkFunc [("e", GPtr (GNamed "Encoder")); ("correlationID", GInt I32)] []
  [SDefine ["hdr"] [(EStruct "RequestHeader" [("RequestApiKey", (EGlobal "message.KeyDeleteAcls")); ("RequestApiVersion", (EField (EField (EVar "b") "apiVersion") "DeleteAcls")); ("CorrelationId", (EVar "correlationID")); ("ClientId", (EField (EField (EVar "b") "config") "clientID"))])];
   SDefine ["size"] [(EBin Add (EMethod (EVar "hdr") "Size" [(EInt 2)]) (EMethod (EVar "req") "Size" [(EField (EField (EVar "b") "apiVersion") "DeleteAcls")]))];
   SExpr (EMethod (EVar "e") "PutInt32" [(EVar "size")]);
   SExpr (EMethod (EVar "hdr") "Encode" [(EVar "e"); (EInt 2)]);
   SExpr (EMethod (EVar "req") "Encode" [(EVar "e"); (EField (EField (EVar "b") "apiVersion") "DeleteAcls")])].
(** gen.broker.go:858 *)
Definition go_Broker_DeleteAcls_func2 : func := mkFunc [("d", GPtr (GNamed "Decoder"))] [GNamed "error"]
  [SReturn [(EMethod (EAddr (EVar "resp")) "Decode" [(EVar "d"); (EField (EField (EVar "b") "apiVersion") "DeleteAcls")])]].
(** gen.broker.go:870 *)
Definition go_Broker_DescribeConfigs_func1 : func := mkFunc [("e", GPtr (GNamed "Encoder")); ("correlationID", GInt I32)] []
  [SDefine ["hdr"] [(EStruct "RequestHeader" [("RequestApiKey", (EGlobal "message.KeyDescribeConfigs")); ("RequestApiVersion", (EField (EField (EVar "b") "apiVersion") "DescribeConfigs")); ("CorrelationId", (EVar "correlationID")); ("ClientId", (EField (EField (EVar "b") "config") "clientID"))])];
   SDefine ["size"] [(EBin Add (EMethod (EVar "hdr") "Size" [(EInt 2)]) (EMethod (EVar "req") "Size" [(EField (EField (EVar "b") "apiVersion") "DescribeConfigs")]))];
   SExpr (EMethod (EVar "e") "PutInt32" [(EVar "size")]);
   SExpr (EMethod (EVar "hdr") "Encode" [(EVar "e"); (EInt 2)]);
   SExpr (EMethod (EVar "req") "Encode" [(EVar "e"); (EField (EField (EVar "b") "apiVersion") "DescribeConfigs")])].
(** gen.broker.go:883 *)
Definition go_Broker_DescribeConfigs_func2 : func := mkFunc [("d", GPtr (GNamed "Decoder"))] [GNamed "error"]
  [SReturn [(EMethod (EAddr (EVar "resp")) "Decode" [(EVar "d"); (EField (EField (EVar "b") "apiVersion") "DescribeConfigs")])]].
(** gen.broker.go:895 *)
Definition go_Broker_AlterConfigs_func1 : func := mkFunc [("e", GPtr (GNamed "Encoder")); ("correlationID", GInt I32)] []
  [SDefine ["hdr"] [(EStruct "RequestHeader" [("RequestApiKey", (EGlobal "message.KeyAlterConfigs")); ("RequestApiVersion", (EField (EField (EVar "b") "apiVersion") "AlterConfigs")); ("CorrelationId", (EVar "correlationID")); ("ClientId", (EField (EField (EVar "b") "config") "clientID"))])];
   SDefine ["size"] [(EBin Add (EMethod (EVar "hdr") "Size" [(EInt 2)]) (EMethod (EVar "req") "Size" [(EField (EField (EVar "b") "apiVersion") "AlterConfigs")]))];
   SExpr (EMethod (EVar "e") "PutInt32" [(EVar "size")]);
   SExpr (EMethod (EVar "hdr") "Encode" [(EVar "e"); (EInt 2)]);
   SExpr (EMethod (EVar "req") "Encode" [(EVar "e"); (EField (EField (EVar "b") "apiVersion") "AlterConfigs")])].
(** gen.broker.go:908 *)
Definition go_Broker_AlterConfigs_func2 : func := mkFunc [("d", GPtr (GNamed "Decoder"))] [GNamed "error"]
  [SReturn [(EMethod (EAddr (EVar "resp")) "Decode" [(EVar "d"); (EField (EField (EVar "b") "apiVersion") "AlterConfigs")])]].
(** gen.broker.go:920 *)
Definition go_Broker_AlterReplicaLogDirs_func1 : func := mkFunc [("e", GPtr (GNamed "Encoder")); ("correlationID", GInt I32)] []
  [SDefine ["hdr"] [(EStruct "RequestHeader" [("RequestApiKey", (EGlobal "message.KeyAlterReplicaLogDirs")); ("RequestApiVersion", (EField (EField (EVar "b") "apiVersion") "AlterReplicaLogDirs")); ("CorrelationId", (EVar "correlationID")); ("ClientId", (EField (EField (EVar "b") "config") "clientID"))])];
   SDefine ["size"] [(EBin Add (EMethod (EVar "hdr") "Size" [(EInt 2)]) (EMethod (EVar "req") "Size" [(EField (EField (EVar "b") "apiVersion") "AlterReplicaLogDirs")]))];
   SExpr (EMethod (EVar "e") "PutInt32" [(EVar "size")]);
   SExpr (EMethod (EVar "hdr") "Encode" [(EVar "e"); (EInt 2)]);
   SExpr (EMethod (EVar "req") "Encode" [(EVar "e"); (EField (EField (EVar "b") "apiVersion") "AlterReplicaLogDirs")])].
(** gen.broker.go:933 *)
Definition go_Broker_AlterReplicaLogDirs_func2 : func := mkFunc [("d", GPtr (GNamed "Decoder"))] [GNamed "error"]
  [SReturn [(EMethod (EAddr (EVar "resp")) "Decode" [(EVar "d"); (EField (EField (EVar "b") "apiVersion") "AlterReplicaLogDirs")])]].
(** gen.broker.go:945 *)
Definition go_Broker_DescribeLogDirs_func1 : func := mkFunc [("e", GPtr (GNamed "Encoder")); ("correlationID", GInt I32)] []
  [SDefine ["hdr"] [(EStruct "RequestHeader" [("RequestApiKey", (EGlobal "message.KeyDescribeLogDirs")); ("RequestApiVersion", (EField (EField (EVar "b") "apiVersion") "DescribeLogDirs")); ("CorrelationId", (EVar "correlationID")); ("ClientId", (EField (EField (EVar "b") "config") "clientID"))])];
   SDefine ["size"] [(EBin Add (EMethod (EVar "hdr") "Size" [(EInt 2)]) (EMethod (EVar "req") "Size" [(EField (EField (EVar "b") "apiVersion") "DescribeLogDirs")]))];
   SExpr (EMethod (EVar "e") "PutInt32" [(EVar "size")]);
   SExpr (EMethod (EVar "hdr") "Encode" [(EVar "e"); (EInt 2)]);
   SExpr (EMethod (EVar "req") "Encode" [(EVar "e"); (EField (EField (EVar "b") "apiVersion") "DescribeLogDirs")])].
(** gen.broker.go:958 *)
Definition go_Broker_DescribeLogDirs_func2 : func := mkFunc [("d", GPtr (GNamed "Decoder"))] [GNamed "error"]
  [SReturn [(EMethod (EAddr (EVar "resp")) "Decode" [(EVar "d"); (EField (EField (EVar "b") "apiVersion") "DescribeLogDirs")])]].
(** gen.broker.go:970 *)
Definition go_Broker_SaslAuthenticate_func1 : func := mkFunc [("e", GPtr (GNamed "Encoder")); ("correlationID", GInt I32)] []
  [SDefine ["hdr"] [(EStruct "RequestHeader" [("RequestApiKey", (EGlobal "message.KeySaslAuthenticate")); ("RequestApiVersion", (EField (EField (EVar "b") "apiVersion") "SaslAuthenticate")); ("CorrelationId", (EVar "correlationID")); ("ClientId", (EField (EField (EVar "b") "config") "clientID"))])];
   SDefine ["size"] [(EBin Add (EMethod (EVar "hdr") "Size" [(EInt 2)]) (EMethod (EVar "req") "Size" [(EField (EField (EVar "b") "apiVersion") "SaslAuthenticate")]))];
   SExpr (EMethod (EVar "e") "PutInt32" [(EVar "size")]);
   SExpr (EMethod (EVar "hdr") "Encode" [(EVar "e"); (EInt 2)]);
   SExpr (EMethod (EVar "req") "Encode" [(EVar "e"); (EField (EField (EVar "b") "apiVersion") "SaslAuthenticate")])].
(** gen.broker.go:983 *)
Definition go_Broker_SaslAuthenticate_func2 : func := mkFunc [("d", GPtr (GNamed "Decoder"))] [GNamed "error"]
  [SReturn [(EMethod (EAddr (EVar "resp")) "Decode" [(EVar "d"); (EField (EField (EVar "b") "apiVersion") "SaslAuthenticate")])]].
(** gen.broker.go:995 *)
Definition go_Broker_CreatePartitions_func1 : func := mkFunc [("e", GPtr (GNamed "Encoder")); ("correlationID", GInt I32)] []
  [SDefine ["hdr"] [(EStruct "RequestHeader" [("RequestApiKey", (EGlobal "message.KeyCreatePartitions")); ("RequestApiVersion", (EField (EField (EVar "b") "apiVersion") "CreatePartitions")); ("CorrelationId", (EVar "correlationID")); ("ClientId", (EField (EField (EVar "b") "config") "clientID"))])];
   SDefine ["size"] [(EBin Add (EMethod (EVar "hdr") "Size" [(EInt 2)]) (EMethod (EVar "req") "Size" [(EField (EField (EVar "b") "apiVersion") "CreatePartitions")]))];
   SExpr (EMethod (EVar "e") "PutInt32" [(EVar "size")]);
   SExpr (EMethod (EVar "hdr") "Encode" [(EVar "e"); (EInt 2)]);
   SExpr (EMethod (EVar "req") "Encode" [(EVar "e"); (EField (EField (EVar "b") "apiVersion") "CreatePartitions")])].
(** gen.broker.go:1008 *)
Definition go_Broker_CreatePartitions_func2 : func := mkFunc [("d", GPtr (GNamed "Decoder"))] [GNamed "error"]
  [SReturn [(EMethod (EAddr (EVar "resp")) "Decode" [(EVar "d"); (EField (EField (EVar "b") "apiVersion") "CreatePartitions")])]].
(** gen.broker.go:1020 *)
Definition go_Broker_CreateDelegationToken_func1 : func := mkFunc [("e", GPtr (GNamed "Encoder")); ("correlationID", GInt I32)] []
  [SDefine ["hdr"] [(EStruct "RequestHeader" [("RequestApiKey", (EGlobal "message.KeyCreateDelegationToken")); ("RequestApiVersion", (EField (EField (EVar "b") "apiVersion") "CreateDelegationToken")); ("CorrelationId", (EVar "correlationID")); ("ClientId", (EField (EField (EVar "b") "config") "clientID"))])];
   SDefine ["size"] [(EBin Add (EMethod (EVar "hdr") "Size" [(EInt 2)]) (EMethod (EVar "req") "Size" [(EField (EField (EVar "b") "apiVersion") "CreateDelegationToken")]))];
   SExpr (EMethod (EVar "e") "PutInt32" [(EVar "size")]);
   SExpr (EMethod (EVar "hdr") "Encode" [(EVar "e"); (EInt 2)]);
   SExpr (EMethod (EVar "req") "Encode" [(EVar "e"); (EField (EField (EVar "b") "apiVersion") "CreateDelegationToken")])].
(** gen.broker.go:1033 *)
Definition go_Broker_CreateDelegationToken_func2 : func := mkFunc [("d", GPtr (GNamed "Decoder"))] [GNamed "error"]
  [SReturn [(EMethod (EAddr (EVar "resp")) "Decode" [(EVar "d"); (EField (EField (EVar "b") "apiVersion") "CreateDelegationToken")])]].
(** gen.broker.go:1045 *)
Definition go_Broker_RenewDelegationToken_func1 : func := mkFunc [("e", GPtr (GNamed "Encoder")); ("correlationID", GInt I32)] []
  [SDefine ["hdr"] [(EStruct "RequestHeader" [("RequestApiKey", (EGlobal "message.KeyRenewDelegationToken")); ("RequestApiVersion", (EField (EField (EVar "b") "apiVersion") "RenewDelegationToken")); ("CorrelationId", (EVar "correlationID")); ("ClientId", (EField (EField (EVar "b") "config") "clientID"))])];
   SDefine ["size"] [(EBin Add (EMethod (EVar "hdr") "Size" [(EInt 2)]) (EMethod (EVar "req") "Size" [(EField (EField (EVar "b") "apiVersion") "RenewDelegationToken")]))];
   SExpr (EMethod (EVar "e") "PutInt32" [(EVar "size")]);
   SExpr (EMethod (EVar "hdr") "Encode" [(EVar "e"); (EInt 2)]);
   SExpr (EMethod (EVar "req") "Encode" [(EVar "e"); (EField (EField (EVar "b") "apiVersion") "RenewDelegationToken")])].
(** gen.broker.go:1058 *)
Definition go_Broker_RenewDelegationToken_func2 : func := mkFunc [("d", GPtr (GNamed "Decoder"))] [GNamed "error"]
  [SReturn [(EMethod (EAddr (EVar "resp")) "Decode" [(EVar "d"); (EField (EField (EVar "b") "apiVersion") "RenewDelegationToken")])]].
(** gen.broker.go:1070 *)
Definition go_Broker_ExpireDelegationToken_func1 : func := mkFunc [("e", GPtr (GNamed "Encoder")); ("correlationID", GInt I32)] []
  [SDefine ["hdr"] [(EStruct "RequestHeader" [("RequestApiKey", (EGlobal "message.KeyExpireDelegationToken")); ("RequestApiVersion", (EField (EField (EVar "b") "apiVersion") "ExpireDelegationToken")); ("CorrelationId", (EVar "correlationID")); ("ClientId", (EField (EField (EVar "b") "config") "clientID"))])];
   SDefine ["size"] [(EBin Add (EMethod (EVar "hdr") "Size" [(EInt 2)]) (EMethod (EVar "req") "Size" [(EField (EField (EVar "b") "apiVersion") "ExpireDelegationToken")]))];
   SExpr (EMethod (EVar "e") "PutInt32" [(EVar "size")]);
   SExpr (EMethod (EVar "hdr") "Encode" [(EVar "e"); (EInt 2)]);
   SExpr (EMethod (EVar "req") "Encode" [(EVar "e"); (EField (EField (EVar "b") "apiVersion") "ExpireDelegationToken")])].
(** gen.broker.go:1083 *)
Definition go_Broker_ExpireDelegationToken_func2 : func := mkFunc [("d", GPtr (GNamed "Decoder"))] [GNamed "error"]
  [SReturn [(EMethod (EAddr (EVar "resp")) "Decode" [(EVar "d"); (EField (EField (EVar "b") "apiVersion") "ExpireDelegationToken")])]].
(** gen.broker.go:1095 *)
Definition go_Broker_DescribeDelegationToken_func1 : func := mkFunc [("e", GPtr (GNamed "Encoder")); ("correlationID", GInt I32)] []
  [SDefine ["hdr"] [(EStruct "RequestHeader" [("RequestApiKey", (EGlobal "message.KeyDescribeDelegationToken")); ("RequestApiVersion", (EField (EField (EVar "b") "apiVersion") "DescribeDelegationToken")); ("CorrelationId", (EVar "correlationID")); ("ClientId", (EField (EField (EVar "b") "config") "clientID"))])];
   SDefine ["size"] [(EBin Add (EMethod (EVar "hdr") "Size" [(EInt 2)]) (EMethod (EVar "req") "Size" [(EField (EField (EVar "b") "apiVersion") "DescribeDelegationToken")]))];
   SExpr (EMethod (EVar "e") "PutInt32" [(EVar "size")]);
   SExpr (EMethod (EVar "hdr") "Encode" [(EVar "e"); (EInt 2)]);
   SExpr (EMethod (EVar "req") "Encode" [(EVar "e"); (EField (EField (EVar "b") "apiVersion") "DescribeDelegationToken")])].
(** gen.broker.go:1108 *)
Definition go_Broker_DescribeDelegationToken_func2 : func := mkFunc [("d", GPtr (GNamed "Decoder"))] [GNamed "error"]
  [SReturn [(EMethod (EAddr (EVar "resp")) "Decode" [(EVar "d"); (EField (EField (EVar "b") "apiVersion") "DescribeDelegationToken")])]].
(** gen.broker.go:1120 *)
Definition go_Broker_DeleteGroups_func1 : func := mkFunc [("e", GPtr (GNamed "Encoder")); ("correlationID", GInt I32)] []
  [SDefine ["hdr"] [(EStruct "RequestHeader" [("RequestApiKey", (EGlobal "message.KeyDeleteGroups")); ("RequestApiVersion", (EField (EField (EVar "b") "apiVersion") "DeleteGroups")); ("CorrelationId", (EVar "correlationID")); ("ClientId", (EField (EField (EVar "b") "config") "clientID"))])];
   SDefine ["size"] [(EBin Add (EMethod (EVar "hdr") "Size" [(EInt 2)]) (EMethod (EVar "req") "Size" [(EField (EField (EVar "b") "apiVersion") "DeleteGroups")]))];
   SExpr (EMethod (EVar "e") "PutInt32" [(EVar "size")]);
   SExpr (EMethod (EVar "hdr") "Encode" [(EVar "e"); (EInt 2)]);
   SExpr (EMethod (EVar "req") "Encode" [(EVar "e"); (EField (EField (EVar "b") "apiVersion") "DeleteGroups")])].
(** gen.broker.go:1133 *)
Definition go_Broker_DeleteGroups_func2 : func := mkFunc [("d", GPtr (GNamed "Decoder"))] [GNamed "error"]
  [SReturn [(EMethod (EAddr (EVar "resp")) "Decode" [(EVar "d"); (EField (EField (EVar "b") "apiVersion") "DeleteGroups")])]].
(** gen.broker.go:1145 *)
Definition go_Broker_ElectLeaders_func1 : func := mkFunc [("e", GPtr (GNamed "Encoder")); ("correlationID", GInt I32)] []
  [SDefine ["hdr"] [(EStruct "RequestHeader" [("RequestApiKey", (EGlobal "message.KeyElectLeaders")); ("RequestApiVersion", (EField (EField (EVar "b") "apiVersion") "ElectLeaders")); ("CorrelationId", (EVar "correlationID")); ("ClientId", (EField (EField (EVar "b") "config") "clientID"))])];
   SDefine ["size"] [(EBin Add (EMethod (EVar "hdr") "Size" [(EInt 2)]) (EMethod (EVar "req") "Size" [(EField (EField (EVar "b") "apiVersion") "ElectLeaders")]))];
   SExpr (EMethod (EVar "e") "PutInt32" [(EVar "size")]);
   SExpr (EMethod (EVar "hdr") "Encode" [(EVar "e"); (EInt 2)]);
   SExpr (EMethod (EVar "req") "Encode" [(EVar "e"); (EField (EField (EVar "b") "apiVersion") "ElectLeaders")])].
(** gen.broker.go:1158 *)
Definition go_Broker_ElectLeaders_func2 : func := mkFunc [("d", GPtr (GNamed "Decoder"))] [GNamed "error"]
  [SReturn [(EMethod (EAddr (EVar "resp")) "Decode" [(EVar "d"); (EField (EField (EVar "b") "apiVersion") "ElectLeaders")])]].
(** gen.broker.go:1170 *)
Definition go_Broker_IncrementalAlterConfigs_func1 : func := mkFunc [("e", GPtr (GNamed "Encoder")); ("correlationID", GInt I32)] []
  [SDefine ["hdr"] [(EStruct "RequestHeader" [("RequestApiKey", (EGlobal "message.KeyIncrementalAlterConfigs")); ("RequestApiVersion", (EField (EField (EVar "b") "apiVersion") "IncrementalAlterConfigs")); ("CorrelationId", (EVar "correlationID")); ("ClientId", (EField (EField (EVar "b") "config") "clientID"))])];
   SDefine ["size"] [(EBin Add (EMethod (EVar "hdr") "Size" [(EInt 2)]) (EMethod (EVar "req") "Size" [(EField (EField (EVar "b") "apiVersion") "IncrementalAlterConfigs")]))];
   SExpr (EMethod (EVar "e") "PutInt32" [(EVar "size")]);
   SExpr (EMethod (EVar "hdr") "Encode" [(EVar "e"); (EInt 2)]);
   SExpr (EMethod (EVar "req") "Encode" [(EVar "e"); (EField (EField (EVar "b") "apiVersion") "IncrementalAlterConfigs")])].
(** gen.broker.go:1183 *)
Definition go_Broker_IncrementalAlterConfigs_func2 : func := mkFunc [("d", GPtr (GNamed "Decoder"))] [GNamed "error"]
  [SReturn [(EMethod (EAddr (EVar "resp")) "Decode" [(EVar "d"); (EField (EField (EVar "b") "apiVersion") "IncrementalAlterConfigs")])]].
(** gen.broker.go:1195 *)
Definition go_Broker_AlterPartitionReassignments_func1 : func := mkFunc [("e", GPtr (GNamed "Encoder")); ("correlationID", GInt I32)] []
  [SDefine ["hdr"] [(EStruct "RequestHeader" [("RequestApiKey", (EGlobal "message.KeyAlterPartitionReassignments")); ("RequestApiVersion", (EField (EField (EVar "b") "apiVersion") "AlterPartitionReassignments")); ("CorrelationId", (EVar "correlationID")); ("ClientId", (EField (EField (EVar "b") "config") "clientID"))])];
   SDefine ["size"] [(EBin Add (EMethod (EVar "hdr") "Size" [(EInt 2)]) (EMethod (EVar "req") "Size" [(EField (EField (EVar "b") "apiVersion") "AlterPartitionReassignments")]))];
   SExpr (EMethod (EVar "e") "PutInt32" [(EVar "size")]);
   SExpr (EMethod (EVar "hdr") "Encode" [(EVar "e"); (EInt 2)]);
   SExpr (EMethod (EVar "req") "Encode" [(EVar "e"); (EField (EField (EVar "b") "apiVersion") "AlterPartitionReassignments")])].
(** gen.broker.go:1208 *)
Definition go_Broker_AlterPartitionReassignments_func2 : func := mkFunc [("d", GPtr (GNamed "Decoder"))] [GNamed "error"]
  [SReturn [(EMethod (EAddr (EVar "resp")) "Decode" [(EVar "d"); (EField (EField (EVar "b") "apiVersion") "AlterPartitionReassignments")])]].
(** gen.broker.go:1220 *)
Definition go_Broker_ListPartitionReassignments_func1 : func := mkFunc [("e", GPtr (GNamed "Encoder")); ("correlationID", GInt I32)] []
  [SDefine ["hdr"] [(EStruct "RequestHeader" [("RequestApiKey", (EGlobal "message.KeyListPartitionReassignments")); ("RequestApiVersion", (EField (EField (EVar "b") "apiVersion") "ListPartitionReassignments")); ("CorrelationId", (EVar "correlationID")); ("ClientId", (EField (EField (EVar "b") "config") "clientID"))])];
   SDefine ["size"] [(EBin Add (EMethod (EVar "hdr") "Size" [(EInt 2)]) (EMethod (EVar "req") "Size" [(EField (EField (EVar "b") "apiVersion") "ListPartitionReassignments")]))];
   SExpr (EMethod (EVar "e") "PutInt32" [(EVar "size")]);
   SExpr (EMethod (EVar "hdr") "Encode" [(EVar "e"); (EInt 2)]);
   SExpr (EMethod (EVar "req") "Encode" [(EVar "e"); (EField (EField (EVar "b") "apiVersion") "ListPartitionReassignments")])].
(** gen.broker.go:1233 *)
Definition go_Broker_ListPartitionReassignments_func2 : func := mkFunc [("d", GPtr (GNamed "Decoder"))] [GNamed "error"]
  [SReturn [(EMethod (EAddr (EVar "resp")) "Decode" [(EVar "d"); (EField (EField (EVar "b") "apiVersion") "ListPartitionReassignments")])]].
(** gen.broker.go:1245 *)
Definition go_Broker_OffsetDelete_func1 : func := mkFunc [("e", GPtr (GNamed "Encoder")); ("correlationID", GInt I32)] []
  [SDefine ["hdr"] [(EStruct "RequestHeader" [("RequestApiKey", (EGlobal "message.KeyOffsetDelete")); ("RequestApiVersion", (EField (EField (EVar "b") "apiVersion") "OffsetDelete")); ("CorrelationId", (EVar "correlationID")); ("ClientId", (EField (EField (EVar "b") "config") "clientID"))])];
   SDefine ["size"] [(EBin Add (EMethod (EVar "hdr") "Size" [(EInt 2)]) (EMethod (EVar "req") "Size" [(EField (EField (EVar "b") "apiVersion") "OffsetDelete")]))];
   SExpr (EMethod (EVar "e") "PutInt32" [(EVar "size")]);
   SExpr (EMethod (EVar "hdr") "Encode" [(EVar "e"); (EInt 2)]);
   SExpr (EMethod (EVar "req") "Encode" [(EVar "e"); (EField (EField (EVar "b") "apiVersion") "OffsetDelete")])].
(** gen.broker.go:1258 *)
Definition go_Broker_OffsetDelete_func2 : func := mkFunc [("d", GPtr (GNamed "Decoder"))] [GNamed "error"]
  [SReturn [(EMethod (EAddr (EVar "resp")) "Decode" [(EVar "d"); (EField (EField (EVar "b") "apiVersion") "OffsetDelete")])]].
(** client.go:67 *)
Definition go_Client_dialCoordinator_func1 : func := mkFunc [("b", GPtr (GNamed "Broker"))] [GNamed "error"]
  [SDefine ["v"; "err"] [(EMethod (EVar "b") "FindCoordinator" [(EVar "req")])];
   SIf [] (EBin Ne (EVar "err") ENil)
     [SReturn [(EVar "err")]]
     [];
   SAssign [(EVar "resp")] [(EVar "v")];
   SReturn [ENil]].
(** client.go:124 *)
Definition go_Client_Metadata_func1 : func := mkFunc [("b", GPtr (GNamed "Broker"))] [GNamed "error"]
  [SDefine ["req"] [(EStruct "MetadataRequest" [])];
   SRange "_" "topic" (EVar "topics")
     [SAssign [(EField (EVar "req") "Topics")] [(EAppend (EField (EVar "req") "Topics") (EStruct "MetadataRequestTopic3" [("Name", (EVar "topic"))]))]];
   SDefine ["v"; "err"] [(EMethod (EVar "b") "Metadata" [(EVar "req")])];
   SIf [] (EBin Ne (EVar "err") ENil)
     [SReturn [(EVar "err")]]
     [];
   SAssign [(EVar "meta")] [(EVar "v")];
   SReturn [ENil]].

Definition client_source : package := mkPackage
  [("config", [("clientID", GString); ("dialer", GPtr (GNamed "net.Dialer")); ("tlsConfig", GPtr (GNamed "tls.Config"))]);
   ("Broker", [("apiVersion", GNamed "apiVersion"); ("config", GNamed "config"); ("conn", GPtr (GNamed "Conn"))]);
   ("Subscription", []);
   ("apiVersion", [("Produce", GInt I16); ("Fetch", GInt I16); ("ListOffset", GInt I16); ("Metadata", GInt I16); ("LeaderAndIsr", GInt I16); ("StopReplica", GInt I16); ("UpdateMetadata", GInt I16); ("ControlledShutdown", GInt I16); ("OffsetCommit", GInt I16); ("OffsetFetch", GInt I16); ("FindCoordinator", GInt I16); ("JoinGroup", GInt I16); ("Heartbeat", GInt I16); ("LeaveGroup", GInt I16); ("SyncGroup", GInt I16); ("DescribeGroups", GInt I16); ("ListGroups", GInt I16); ("SaslHandshake", GInt I16); ("ApiVersions", GInt I16); ("CreateTopics", GInt I16); ("DeleteTopics", GInt I16); ("DeleteRecords", GInt I16); ("InitProducerId", GInt I16); ("OffsetForLeaderEpoch", GInt I16); ("AddPartitionsToTxn", GInt I16); ("AddOffsetsToTxn", GInt I16); ("EndTxn", GInt I16); ("WriteTxnMarkers", GInt I16); ("TxnOffsetCommit", GInt I16); ("DescribeAcls", GInt I16); ("CreateAcls", GInt I16); ("DeleteAcls", GInt I16); ("DescribeConfigs", GInt I16); ("AlterConfigs", GInt I16); ("AlterReplicaLogDirs", GInt I16); ("DescribeLogDirs", GInt I16); ("SaslAuthenticate", GInt I16); ("CreatePartitions", GInt I16); ("CreateDelegationToken", GInt I16); ("RenewDelegationToken", GInt I16); ("ExpireDelegationToken", GInt I16); ("DescribeDelegationToken", GInt I16); ("DeleteGroups", GInt I16); ("ElectLeaders", GInt I16); ("IncrementalAlterConfigs", GInt I16); ("AlterPartitionReassignments", GInt I16); ("ListPartitionReassignments", GInt I16); ("OffsetDelete", GInt I16)]);
   ("Client", [("bootstrap", GSlice (GString)); ("opts", GSlice (GNamed "Option"))])]
  [("message.KeyProduce", (None, (EInt 0)));
   ("message.KeyFetch", (None, (EInt 1)));
   ("message.KeyListOffset", (None, (EInt 2)));
   ("message.KeyMetadata", (None, (EInt 3)));
   ("message.KeyLeaderAndIsr", (None, (EInt 4)));
   ("message.KeyStopReplica", (None, (EInt 5)));
   ("message.KeyUpdateMetadata", (None, (EInt 6)));
   ("message.KeyControlledShutdown", (None, (EInt 7)));
   ("message.KeyOffsetCommit", (None, (EInt 8)));
   ("message.KeyOffsetFetch", (None, (EInt 9)));
   ("message.KeyFindCoordinator", (None, (EInt 10)));
   ("message.KeyJoinGroup", (None, (EInt 11)));
   ("message.KeyHeartbeat", (None, (EInt 12)));
   ("message.KeyLeaveGroup", (None, (EInt 13)));
   ("message.KeySyncGroup", (None, (EInt 14)));
   ("message.KeyDescribeGroups", (None, (EInt 15)));
   ("message.KeyListGroups", (None, (EInt 16)));
   ("message.KeySaslHandshake", (None, (EInt 17)));
   ("message.KeyApiVersions", (None, (EInt 18)));
   ("message.KeyCreateTopics", (None, (EInt 19)));
   ("message.KeyDeleteTopics", (None, (EInt 20)));
   ("message.KeyDeleteRecords", (None, (EInt 21)));
   ("message.KeyInitProducerId", (None, (EInt 22)));
   ("message.KeyOffsetForLeaderEpoch", (None, (EInt 23)));
   ("message.KeyAddPartitionsToTxn", (None, (EInt 24)));
   ("message.KeyAddOffsetsToTxn", (None, (EInt 25)));
   ("message.KeyEndTxn", (None, (EInt 26)));
   ("message.KeyWriteTxnMarkers", (None, (EInt 27)));
   ("message.KeyTxnOffsetCommit", (None, (EInt 28)));
   ("message.KeyDescribeAcls", (None, (EInt 29)));
   ("message.KeyCreateAcls", (None, (EInt 30)));
   ("message.KeyDeleteAcls", (None, (EInt 31)));
   ("message.KeyDescribeConfigs", (None, (EInt 32)));
   ("message.KeyAlterConfigs", (None, (EInt 33)));
   ("message.KeyAlterReplicaLogDirs", (None, (EInt 34)));
   ("message.KeyDescribeLogDirs", (None, (EInt 35)));
   ("message.KeySaslAuthenticate", (None, (EInt 36)));
   ("message.KeyCreatePartitions", (None, (EInt 37)));
   ("message.KeyCreateDelegationToken", (None, (EInt 38)));
   ("message.KeyRenewDelegationToken", (None, (EInt 39)));
   ("message.KeyExpireDelegationToken", (None, (EInt 40)));
   ("message.KeyDescribeDelegationToken", (None, (EInt 41)));
   ("message.KeyDeleteGroups", (None, (EInt 42)));
   ("message.KeyElectLeaders", (None, (EInt 43)));
   ("message.KeyIncrementalAlterConfigs", (None, (EInt 44)));
   ("message.KeyAlterPartitionReassignments", (None, (EInt 45)));
   ("message.KeyListPartitionReassignments", (None, (EInt 46)));
   ("message.KeyOffsetDelete", (None, (EInt 47)));
   ("kafka.defaultClientID", (None, (EStr [103; 105; 116; 104; 117; 98; 46; 99; 111; 109; 47; 115; 97; 118; 97; 107; 105; 47; 107; 97; 102; 107; 97])))]
  [("kafka.WithDialer", go_kafka_WithDialer);
   ("kafka.WithTLS", go_kafka_WithTLS);
   ("kafka.buildConfig", go_kafka_buildConfig);
   ("kafka.NewBroker", go_kafka_NewBroker);
   ("Broker.Close", go_Broker_Close);
   ("Broker.Produce", go_Broker_Produce);
   ("Broker.Fetch", go_Broker_Fetch);
   ("Broker.ListOffset", go_Broker_ListOffset);
   ("Broker.Metadata", go_Broker_Metadata);
   ("Broker.LeaderAndIsr", go_Broker_LeaderAndIsr);
   ("Broker.StopReplica", go_Broker_StopReplica);
   ("Broker.UpdateMetadata", go_Broker_UpdateMetadata);
   ("Broker.ControlledShutdown", go_Broker_ControlledShutdown);
   ("Broker.OffsetCommit", go_Broker_OffsetCommit);
   ("Broker.OffsetFetch", go_Broker_OffsetFetch);
   ("Broker.FindCoordinator", go_Broker_FindCoordinator);
   ("Broker.JoinGroup", go_Broker_JoinGroup);
   ("Broker.Heartbeat", go_Broker_Heartbeat);
   ("Broker.LeaveGroup", go_Broker_LeaveGroup);
   ("Broker.SyncGroup", go_Broker_SyncGroup);
   ("Broker.DescribeGroups", go_Broker_DescribeGroups);
   ("Broker.ListGroups", go_Broker_ListGroups);
   ("Broker.SaslHandshake", go_Broker_SaslHandshake);
   ("Broker.ApiVersions", go_Broker_ApiVersions);
   ("Broker.CreateTopics", go_Broker_CreateTopics);
   ("Broker.DeleteTopics", go_Broker_DeleteTopics);
   ("Broker.DeleteRecords", go_Broker_DeleteRecords);
   ("Broker.InitProducerId", go_Broker_InitProducerId);
   ("Broker.OffsetForLeaderEpoch", go_Broker_OffsetForLeaderEpoch);
   ("Broker.AddPartitionsToTxn", go_Broker_AddPartitionsToTxn);
   ("Broker.AddOffsetsToTxn", go_Broker_AddOffsetsToTxn);
   ("Broker.EndTxn", go_Broker_EndTxn);
   ("Broker.WriteTxnMarkers", go_Broker_WriteTxnMarkers);
   ("Broker.TxnOffsetCommit", go_Broker_TxnOffsetCommit);
   ("Broker.DescribeAcls", go_Broker_DescribeAcls);
   ("Broker.CreateAcls", go_Broker_CreateAcls);
   ("Broker.DeleteAcls", go_Broker_DeleteAcls);
   ("Broker.DescribeConfigs", go_Broker_DescribeConfigs);
   ("Broker.AlterConfigs", go_Broker_AlterConfigs);
   ("Broker.AlterReplicaLogDirs", go_Broker_AlterReplicaLogDirs);
   ("Broker.DescribeLogDirs", go_Broker_DescribeLogDirs);
   ("Broker.SaslAuthenticate", go_Broker_SaslAuthenticate);
   ("Broker.CreatePartitions", go_Broker_CreatePartitions);
   ("Broker.CreateDelegationToken", go_Broker_CreateDelegationToken);
   ("Broker.RenewDelegationToken", go_Broker_RenewDelegationToken);
   ("Broker.ExpireDelegationToken", go_Broker_ExpireDelegationToken);
   ("Broker.DescribeDelegationToken", go_Broker_DescribeDelegationToken);
   ("Broker.DeleteGroups", go_Broker_DeleteGroups);
   ("Broker.ElectLeaders", go_Broker_ElectLeaders);
   ("Broker.IncrementalAlterConfigs", go_Broker_IncrementalAlterConfigs);
   ("Broker.AlterPartitionReassignments", go_Broker_AlterPartitionReassignments);
   ("Broker.ListPartitionReassignments", go_Broker_ListPartitionReassignments);
   ("Broker.OffsetDelete", go_Broker_OffsetDelete);
   ("Broker.Subscribe", go_Broker_Subscribe);
   ("kafka.negotiateApiVersions", go_kafka_negotiateApiVersions);
   ("kafka.matchVersion", go_kafka_matchVersion);
   ("kafka.NewClient", go_kafka_NewClient);
   ("Client.dialBootstrap", go_Client_dialBootstrap);
   ("Client.dialNode", go_Client_dialNode);
   ("Client.dialCoordinator", go_Client_dialCoordinator);
   ("Client.DialController", go_Client_DialController);
   ("Client.DialGroupCoordinator", go_Client_DialGroupCoordinator);
   ("Client.DialLeader", go_Client_DialLeader);
   ("Client.Metadata", go_Client_Metadata);
   ("kafka.findPartition", go_kafka_findPartition);
   ("kafka.findTopic", go_kafka_findTopic);
   ("kafka.WithDialer.func1", go_kafka_WithDialer_func1);
   ("kafka.WithTLS.func1", go_kafka_WithTLS_func1);
   ("Broker.Produce.func1", go_Broker_Produce_func1);
   ("Broker.Produce.func2", go_Broker_Produce_func2);
   ("Broker.Fetch.func1", go_Broker_Fetch_func1);
   ("Broker.Fetch.func2", go_Broker_Fetch_func2);
   ("Broker.ListOffset.func1", go_Broker_ListOffset_func1);
   ("Broker.ListOffset.func2", go_Broker_ListOffset_func2);
   ("Broker.Metadata.func1", go_Broker_Metadata_func1);
   ("Broker.Metadata.func2", go_Broker_Metadata_func2);
   ("Broker.LeaderAndIsr.func1", go_Broker_LeaderAndIsr_func1);
   ("Broker.LeaderAndIsr.func2", go_Broker_LeaderAndIsr_func2);
   ("Broker.StopReplica.func1", go_Broker_StopReplica_func1);
   ("Broker.StopReplica.func2", go_Broker_StopReplica_func2);
   ("Broker.UpdateMetadata.func1", go_Broker_UpdateMetadata_func1);
   ("Broker.UpdateMetadata.func2", go_Broker_UpdateMetadata_func2);
   ("Broker.ControlledShutdown.func1", go_Broker_ControlledShutdown_func1);
   ("Broker.ControlledShutdown.func2", go_Broker_ControlledShutdown_func2);
   ("Broker.OffsetCommit.func1", go_Broker_OffsetCommit_func1);
   ("Broker.OffsetCommit.func2", go_Broker_OffsetCommit_func2);
   ("Broker.OffsetFetch.func1", go_Broker_OffsetFetch_func1);
   ("Broker.OffsetFetch.func2", go_Broker_OffsetFetch_func2);
   ("Broker.FindCoordinator.func1", go_Broker_FindCoordinator_func1);
   ("Broker.FindCoordinator.func2", go_Broker_FindCoordinator_func2);
   ("Broker.JoinGroup.func1", go_Broker_JoinGroup_func1);
   ("Broker.JoinGroup.func2", go_Broker_JoinGroup_func2);
   ("Broker.Heartbeat.func1", go_Broker_Heartbeat_func1);
   ("Broker.Heartbeat.func2", go_Broker_Heartbeat_func2);
   ("Broker.LeaveGroup.func1", go_Broker_LeaveGroup_func1);
   ("Broker.LeaveGroup.func2", go_Broker_LeaveGroup_func2);
   ("Broker.SyncGroup.func1", go_Broker_SyncGroup_func1);
   ("Broker.SyncGroup.func2", go_Broker_SyncGroup_func2);
   ("Broker.DescribeGroups.func1", go_Broker_DescribeGroups_func1);
   ("Broker.DescribeGroups.func2", go_Broker_DescribeGroups_func2);
   ("Broker.ListGroups.func1", go_Broker_ListGroups_func1);
   ("Broker.ListGroups.func2", go_Broker_ListGroups_func2);
   ("Broker.SaslHandshake.func1", go_Broker_SaslHandshake_func1);
   ("Broker.SaslHandshake.func2", go_Broker_SaslHandshake_func2);
   ("Broker.ApiVersions.func1", go_Broker_ApiVersions_func1);
   ("Broker.ApiVersions.func2", go_Broker_ApiVersions_func2);
   ("Broker.CreateTopics.func1", go_Broker_CreateTopics_func1);
   ("Broker.CreateTopics.func2", go_Broker_CreateTopics_func2);
   ("Broker.DeleteTopics.func1", go_Broker_DeleteTopics_func1);
   ("Broker.DeleteTopics.func2", go_Broker_DeleteTopics_func2);
   ("Broker.DeleteRecords.func1", go_Broker_DeleteRecords_func1);
   ("Broker.DeleteRecords.func2", go_Broker_DeleteRecords_func2);
   ("Broker.InitProducerId.func1", go_Broker_InitProducerId_func1);
   ("Broker.InitProducerId.func2", go_Broker_InitProducerId_func2);
   ("Broker.OffsetForLeaderEpoch.func1", go_Broker_OffsetForLeaderEpoch_func1);
   ("Broker.OffsetForLeaderEpoch.func2", go_Broker_OffsetForLeaderEpoch_func2);
   ("Broker.AddPartitionsToTxn.func1", go_Broker_AddPartitionsToTxn_func1);
   ("Broker.AddPartitionsToTxn.func2", go_Broker_AddPartitionsToTxn_func2);
   ("Broker.AddOffsetsToTxn.func1", go_Broker_AddOffsetsToTxn_func1);
   ("Broker.AddOffsetsToTxn.func2", go_Broker_AddOffsetsToTxn_func2);
   ("Broker.EndTxn.func1", go_Broker_EndTxn_func1);
   ("Broker.EndTxn.func2", go_Broker_EndTxn_func2);
   ("Broker.WriteTxnMarkers.func1", go_Broker_WriteTxnMarkers_func1);
   ("Broker.WriteTxnMarkers.func2", go_Broker_WriteTxnMarkers_func2);
   ("Broker.TxnOffsetCommit.func1", go_Broker_TxnOffsetCommit_func1);
   ("Broker.TxnOffsetCommit.func2", go_Broker_TxnOffsetCommit_func2);
   ("Broker.DescribeAcls.func1", go_Broker_DescribeAcls_func1);
   ("Broker.DescribeAcls.func2", go_Broker_DescribeAcls_func2);
   ("Broker.CreateAcls.func1", go_Broker_CreateAcls_func1);
   ("Broker.CreateAcls.func2", go_Broker_CreateAcls_func2);
   ("Broker.DeleteAcls.func1", go_Broker_DeleteAcls_func1);
   ("Broker.DeleteAcls.func2", go_Broker_DeleteAcls_func2);
   ("Broker.DescribeConfigs.func1", go_Broker_DescribeConfigs_func1);
   ("Broker.DescribeConfigs.func2", go_Broker_DescribeConfigs_func2);
   ("Broker.AlterConfigs.func1", go_Broker_AlterConfigs_func1);
   ("Broker.AlterConfigs.func2", go_Broker_AlterConfigs_func2);
   ("Broker.AlterReplicaLogDirs.func1", go_Broker_AlterReplicaLogDirs_func1);
   ("Broker.AlterReplicaLogDirs.func2", go_Broker_AlterReplicaLogDirs_func2);
   ("Broker.DescribeLogDirs.func1", go_Broker_DescribeLogDirs_func1);
   ("Broker.DescribeLogDirs.func2", go_Broker_DescribeLogDirs_func2);
   ("Broker.SaslAuthenticate.func1", go_Broker_SaslAuthenticate_func1);
   ("Broker.SaslAuthenticate.func2", go_Broker_SaslAuthenticate_func2);
   ("Broker.CreatePartitions.func1", go_Broker_CreatePartitions_func1);
   ("Broker.CreatePartitions.func2", go_Broker_CreatePartitions_func2);
   ("Broker.CreateDelegationToken.func1", go_Broker_CreateDelegationToken_func1);
   ("Broker.CreateDelegationToken.func2", go_Broker_CreateDelegationToken_func2);
   ("Broker.RenewDelegationToken.func1", go_Broker_RenewDelegationToken_func1);
   ("Broker.RenewDelegationToken.func2", go_Broker_RenewDelegationToken_func2);
   ("Broker.ExpireDelegationToken.func1", go_Broker_ExpireDelegationToken_func1);
   ("Broker.ExpireDelegationToken.func2", go_Broker_ExpireDelegationToken_func2);
   ("Broker.DescribeDelegationToken.func1", go_Broker_DescribeDelegationToken_func1);
   ("Broker.DescribeDelegationToken.func2", go_Broker_DescribeDelegationToken_func2);
   ("Broker.DeleteGroups.func1", go_Broker_DeleteGroups_func1);
   ("Broker.DeleteGroups.func2", go_Broker_DeleteGroups_func2);
   ("Broker.ElectLeaders.func1", go_Broker_ElectLeaders_func1);
   ("Broker.ElectLeaders.func2", go_Broker_ElectLeaders_func2);
   ("Broker.IncrementalAlterConfigs.func1", go_Broker_IncrementalAlterConfigs_func1);
   ("Broker.IncrementalAlterConfigs.func2", go_Broker_IncrementalAlterConfigs_func2);
   ("Broker.AlterPartitionReassignments.func1", go_Broker_AlterPartitionReassignments_func1);
   ("Broker.AlterPartitionReassignments.func2", go_Broker_AlterPartitionReassignments_func2);
   ("Broker.ListPartitionReassignments.func1", go_Broker_ListPartitionReassignments_func1);
   ("Broker.ListPartitionReassignments.func2", go_Broker_ListPartitionReassignments_func2);
   ("Broker.OffsetDelete.func1", go_Broker_OffsetDelete_func1);
   ("Broker.OffsetDelete.func2", go_Broker_OffsetDelete_func2);
   ("Client.dialCoordinator.func1", go_Client_dialCoordinator_func1);
   ("Client.Metadata.func1", go_Client_Metadata_func1)].
