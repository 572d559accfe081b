(** * The layouts of message/messages.gen.go, and that they give its text

    Written by tools/gen_layouts.py. *)
From Coq Require Import String.
From Verif Require Import GoBase SchemaSpec Link AllMessages GoLang SourceMessages SourceLayout.
Local Open Scope string_scope.
Local Open Scope list_scope.
Local Open Scope Z_scope.

Definition PartitionProduceData0_fields : nfields := (NCons "PartitionIndex" Always (NPrim PInt32) (NCons "Records" Always (NPrim PBytes) NNil)).
Definition TopicProduceData0_fields : nfields := (NCons "Name" Always (NPrim PString) (NCons "Partitions" Always (NArray "PartitionProduceData0" PartitionProduceData0_fields) NNil)).
Definition ProduceRequest_fields : nfields := (NCons "TransactionalId" (From 3) (NPrim PString) (NCons "Acks" Always (NPrim PInt16) (NCons "TimeoutMs" Always (NPrim PInt32) (NCons "Topics" Always (NArray "TopicProduceData0" TopicProduceData0_fields) NNil)))).
Definition BatchIndexAndErrorMessage0_fields : nfields := (NCons "BatchIndex" (From 8) (NPrim PInt32) (NCons "BatchIndexErrorMessage" (From 8) (NPrim PString) NNil)).
Definition PartitionProduceResponse0_fields : nfields := (NCons "PartitionIndex" Always (NPrim PInt32) (NCons "ErrorCode" Always (NPrim PInt16) (NCons "BaseOffset" Always (NPrim PInt64) (NCons "LogAppendTimeMs" (From 2) (NPrim PInt64) (NCons "LogStartOffset" (From 5) (NPrim PInt64) (NCons "RecordErrors" (From 8) (NArray "BatchIndexAndErrorMessage0" BatchIndexAndErrorMessage0_fields) (NCons "ErrorMessage" (From 8) (NPrim PString) NNil))))))).
Definition TopicProduceResponse0_fields : nfields := (NCons "Name" Always (NPrim PString) (NCons "Partitions" Always (NArray "PartitionProduceResponse0" PartitionProduceResponse0_fields) NNil)).
Definition ProduceResponse_fields : nfields := (NCons "Responses" Always (NArray "TopicProduceResponse0" TopicProduceResponse0_fields) (NCons "ThrottleTimeMs" (From 1) (NPrim PInt32) NNil)).
Definition RequestHeader_fields : nfields := (NCons "RequestApiKey" Always (NPrim PInt16) (NCons "RequestApiVersion" Always (NPrim PInt16) (NCons "CorrelationId" Always (NPrim PInt32) (NCons "ClientId" (From 1) (NPrim PString) NNil)))).
Definition ResponseHeader_fields : nfields := (NCons "CorrelationId" Always (NPrim PInt32) NNil).
Definition ForgottenTopic1_fields : nfields := (NCons "Name" (From 7) (NPrim PString) (NCons "ForgottenPartitionIndexes" (From 7) (NPrim PInt32s) NNil)).
Definition FetchPartition1_fields : nfields := (NCons "PartitionIndex" Always (NPrim PInt32) (NCons "CurrentLeaderEpoch" (From 9) (NPrim PInt32) (NCons "FetchOffset" Always (NPrim PInt64) (NCons "LogStartOffset" (From 5) (NPrim PInt64) (NCons "MaxBytes" Always (NPrim PInt32) NNil))))).
Definition FetchableTopic1_fields : nfields := (NCons "Name" Always (NPrim PString) (NCons "FetchPartitions" Always (NArray "FetchPartition1" FetchPartition1_fields) NNil)).
Definition FetchRequest_fields : nfields := (NCons "ReplicaId" Always (NPrim PInt32) (NCons "MaxWait" Always (NPrim PInt32) (NCons "MinBytes" Always (NPrim PInt32) (NCons "MaxBytes" (From 3) (NPrim PInt32) (NCons "IsolationLevel" (From 4) (NPrim PInt8) (NCons "SessionId" (From 7) (NPrim PInt32) (NCons "Epoch" (From 7) (NPrim PInt32) (NCons "Topics" Always (NArray "FetchableTopic1" FetchableTopic1_fields) (NCons "Forgotten" (From 7) (NArray "ForgottenTopic1" ForgottenTopic1_fields) (NCons "RackId" (From 11) (NPrim PString) NNil)))))))))).
Definition AbortedTransaction1_fields : nfields := (NCons "ProducerId" (From 4) (NPrim PInt64) (NCons "FirstOffset" (From 4) (NPrim PInt64) NNil)).
Definition FetchablePartitionResponse1_fields : nfields := (NCons "PartitionIndex" Always (NPrim PInt32) (NCons "ErrorCode" Always (NPrim PInt16) (NCons "HighWatermark" Always (NPrim PInt64) (NCons "LastStableOffset" (From 4) (NPrim PInt64) (NCons "LogStartOffset" (From 5) (NPrim PInt64) (NCons "Aborted" (From 4) (NArray "AbortedTransaction1" AbortedTransaction1_fields) (NCons "PreferredReadReplica" (From 11) (NPrim PInt32) (NCons "Records" Always (NPrim PBytes) NNil)))))))).
Definition FetchableTopicResponse1_fields : nfields := (NCons "Name" Always (NPrim PString) (NCons "Partitions" Always (NArray "FetchablePartitionResponse1" FetchablePartitionResponse1_fields) NNil)).
Definition FetchResponse_fields : nfields := (NCons "ThrottleTimeMs" (From 1) (NPrim PInt32) (NCons "ErrorCode" (From 7) (NPrim PInt16) (NCons "SessionId" (From 7) (NPrim PInt32) (NCons "Topics" Always (NArray "FetchableTopicResponse1" FetchableTopicResponse1_fields) NNil)))).
Definition ListOffsetPartition2_fields : nfields := (NCons "PartitionIndex" Always (NPrim PInt32) (NCons "CurrentLeaderEpoch" (From 4) (NPrim PInt32) (NCons "Timestamp" Always (NPrim PInt64) (NCons "MaxNumOffsets" (Between 0 0) (NPrim PInt32) NNil)))).
Definition ListOffsetTopic2_fields : nfields := (NCons "Name" Always (NPrim PString) (NCons "Partitions" Always (NArray "ListOffsetPartition2" ListOffsetPartition2_fields) NNil)).
Definition ListOffsetRequest_fields : nfields := (NCons "ReplicaId" Always (NPrim PInt32) (NCons "IsolationLevel" (From 2) (NPrim PInt8) (NCons "Topics" Always (NArray "ListOffsetTopic2" ListOffsetTopic2_fields) NNil))).
Definition ListOffsetPartitionResponse2_fields : nfields := (NCons "PartitionIndex" Always (NPrim PInt32) (NCons "ErrorCode" Always (NPrim PInt16) (NCons "OldStyleOffsets" (Between 0 0) (NPrim PInt64s) (NCons "Timestamp" (From 1) (NPrim PInt64) (NCons "Offset" (From 1) (NPrim PInt64) (NCons "LeaderEpoch" (From 4) (NPrim PInt32) NNil)))))).
Definition ListOffsetTopicResponse2_fields : nfields := (NCons "Name" Always (NPrim PString) (NCons "Partitions" Always (NArray "ListOffsetPartitionResponse2" ListOffsetPartitionResponse2_fields) NNil)).
Definition ListOffsetResponse_fields : nfields := (NCons "ThrottleTimeMs" (From 2) (NPrim PInt32) (NCons "Topics" Always (NArray "ListOffsetTopicResponse2" ListOffsetTopicResponse2_fields) NNil)).
Definition MetadataRequestTopic3_fields : nfields := (NCons "Name" Always (NPrim PString) NNil).
Definition MetadataRequest_fields : nfields := (NCons "Topics" Always (NArray "MetadataRequestTopic3" MetadataRequestTopic3_fields) (NCons "AllowAutoTopicCreation" (From 4) (NPrim PBool) (NCons "IncludeClusterAuthorizedOperations" (From 8) (NPrim PBool) (NCons "IncludeTopicAuthorizedOperations" (From 8) (NPrim PBool) NNil)))).
Definition MetadataResponsePartition3_fields : nfields := (NCons "ErrorCode" Always (NPrim PInt16) (NCons "PartitionIndex" Always (NPrim PInt32) (NCons "LeaderId" Always (NPrim PInt32) (NCons "LeaderEpoch" (From 7) (NPrim PInt32) (NCons "ReplicaNodes" Always (NPrim PInt32s) (NCons "IsrNodes" Always (NPrim PInt32s) (NCons "OfflineReplicas" (From 5) (NPrim PInt32s) NNil))))))).
Definition MetadataResponseTopic3_fields : nfields := (NCons "ErrorCode" Always (NPrim PInt16) (NCons "Name" Always (NPrim PString) (NCons "IsInternal" (From 1) (NPrim PBool) (NCons "Partitions" Always (NArray "MetadataResponsePartition3" MetadataResponsePartition3_fields) (NCons "TopicAuthorizedOperations" (From 8) (NPrim PInt32) NNil))))).
Definition MetadataResponseBroker3_fields : nfields := (NCons "NodeId" Always (NPrim PInt32) (NCons "Host" Always (NPrim PString) (NCons "Port" Always (NPrim PInt32) (NCons "Rack" (From 1) (NPrim PString) NNil)))).
Definition MetadataResponse_fields : nfields := (NCons "ThrottleTimeMs" (From 3) (NPrim PInt32) (NCons "Brokers" Always (NArray "MetadataResponseBroker3" MetadataResponseBroker3_fields) (NCons "ClusterId" (From 2) (NPrim PString) (NCons "ControllerId" (From 1) (NPrim PInt32) (NCons "Topics" Always (NArray "MetadataResponseTopic3" MetadataResponseTopic3_fields) (NCons "ClusterAuthorizedOperations" (From 8) (NPrim PInt32) NNil)))))).
Definition LeaderAndIsrLiveLeader4_fields : nfields := (NCons "BrokerId" Always (NPrim PInt32) (NCons "HostName" Always (NPrim PString) (NCons "Port" Always (NPrim PInt32) NNil))).
Definition LeaderAndIsrPartitionState4_fields : nfields := (NCons "TopicName" (Between 0 1) (NPrim PString) (NCons "PartitionIndex" Always (NPrim PInt32) (NCons "ControllerEpoch" Always (NPrim PInt32) (NCons "Leader" Always (NPrim PInt32) (NCons "LeaderEpoch" Always (NPrim PInt32) (NCons "Isr" Always (NPrim PInt32s) (NCons "ZkVersion" Always (NPrim PInt32) (NCons "Replicas" Always (NPrim PInt32s) (NCons "AddingReplicas" (From 3) (NPrim PInt32s) (NCons "RemovingReplicas" (From 3) (NPrim PInt32s) (NCons "IsNew" (From 1) (NPrim PBool) NNil))))))))))).
Definition LeaderAndIsrTopicState4_fields : nfields := (NCons "TopicName" (From 2) (NPrim PString) (NCons "PartitionStates" (From 2) (NArray "LeaderAndIsrPartitionState4" LeaderAndIsrPartitionState4_fields) NNil)).
Definition LeaderAndIsrRequest_fields : nfields := (NCons "ControllerId" Always (NPrim PInt32) (NCons "ControllerEpoch" Always (NPrim PInt32) (NCons "BrokerEpoch" (From 2) (NPrim PInt64) (NCons "UngroupedPartitionStates" (Between 0 1) (NArray "LeaderAndIsrPartitionState4" LeaderAndIsrPartitionState4_fields) (NCons "TopicStates" (From 2) (NArray "LeaderAndIsrTopicState4" LeaderAndIsrTopicState4_fields) (NCons "LiveLeaders" Always (NArray "LeaderAndIsrLiveLeader4" LeaderAndIsrLiveLeader4_fields) NNil)))))).
Definition LeaderAndIsrPartitionError4_fields : nfields := (NCons "TopicName" Always (NPrim PString) (NCons "PartitionIndex" Always (NPrim PInt32) (NCons "ErrorCode" Always (NPrim PInt16) NNil))).
Definition LeaderAndIsrResponse_fields : nfields := (NCons "ErrorCode" Always (NPrim PInt16) (NCons "PartitionErrors" Always (NArray "LeaderAndIsrPartitionError4" LeaderAndIsrPartitionError4_fields) NNil)).
Definition StopReplicaTopic5_fields : nfields := (NCons "Name" (From 1) (NPrim PString) (NCons "PartitionIndexes" (From 1) (NPrim PInt32s) NNil)).
Definition StopReplicaPartitionV05_fields : nfields := (NCons "TopicName" (Between 0 0) (NPrim PString) (NCons "PartitionIndex" (Between 0 0) (NPrim PInt32) NNil)).
Definition StopReplicaRequest_fields : nfields := (NCons "ControllerId" Always (NPrim PInt32) (NCons "ControllerEpoch" Always (NPrim PInt32) (NCons "BrokerEpoch" (From 1) (NPrim PInt64) (NCons "DeletePartitions" Always (NPrim PBool) (NCons "UngroupedPartitions" (Between 0 0) (NArray "StopReplicaPartitionV05" StopReplicaPartitionV05_fields) (NCons "Topics" (From 1) (NArray "StopReplicaTopic5" StopReplicaTopic5_fields) NNil)))))).
Definition StopReplicaPartitionError5_fields : nfields := (NCons "TopicName" Always (NPrim PString) (NCons "PartitionIndex" Always (NPrim PInt32) (NCons "ErrorCode" Always (NPrim PInt16) NNil))).
Definition StopReplicaResponse_fields : nfields := (NCons "ErrorCode" Always (NPrim PInt16) (NCons "PartitionErrors" Always (NArray "StopReplicaPartitionError5" StopReplicaPartitionError5_fields) NNil)).
Definition UpdateMetadataEndpoint6_fields : nfields := (NCons "Port" (From 1) (NPrim PInt32) (NCons "Host" (From 1) (NPrim PString) (NCons "Listener" (From 3) (NPrim PString) (NCons "SecurityProtocol" (From 1) (NPrim PInt16) NNil)))).
Definition UpdateMetadataBroker6_fields : nfields := (NCons "Id" Always (NPrim PInt32) (NCons "V0Host" (Between 0 0) (NPrim PString) (NCons "V0Port" (Between 0 0) (NPrim PInt32) (NCons "Endpoints" (From 1) (NArray "UpdateMetadataEndpoint6" UpdateMetadataEndpoint6_fields) (NCons "Rack" (From 2) (NPrim PString) NNil))))).
Definition UpdateMetadataPartitionState6_fields : nfields := (NCons "TopicName" (Between 0 4) (NPrim PString) (NCons "PartitionIndex" Always (NPrim PInt32) (NCons "ControllerEpoch" Always (NPrim PInt32) (NCons "Leader" Always (NPrim PInt32) (NCons "LeaderEpoch" Always (NPrim PInt32) (NCons "Isr" Always (NPrim PInt32s) (NCons "ZkVersion" Always (NPrim PInt32) (NCons "Replicas" Always (NPrim PInt32s) (NCons "OfflineReplicas" (From 4) (NPrim PInt32s) NNil))))))))).
Definition UpdateMetadataTopicState6_fields : nfields := (NCons "TopicName" (From 5) (NPrim PString) (NCons "PartitionStates" (From 5) (NArray "UpdateMetadataPartitionState6" UpdateMetadataPartitionState6_fields) NNil)).
Definition UpdateMetadataRequest_fields : nfields := (NCons "ControllerId" Always (NPrim PInt32) (NCons "ControllerEpoch" Always (NPrim PInt32) (NCons "BrokerEpoch" (From 5) (NPrim PInt64) (NCons "UngroupedPartitionStates" (Between 0 4) (NArray "UpdateMetadataPartitionState6" UpdateMetadataPartitionState6_fields) (NCons "TopicStates" (From 5) (NArray "UpdateMetadataTopicState6" UpdateMetadataTopicState6_fields) (NCons "LiveBrokers" Always (NArray "UpdateMetadataBroker6" UpdateMetadataBroker6_fields) NNil)))))).
Definition UpdateMetadataResponse_fields : nfields := (NCons "ErrorCode" Always (NPrim PInt16) NNil).
Definition ControlledShutdownRequest_fields : nfields := (NCons "BrokerId" Always (NPrim PInt32) (NCons "BrokerEpoch" (From 2) (NPrim PInt64) NNil)).
Definition RemainingPartition7_fields : nfields := (NCons "TopicName" Always (NPrim PString) (NCons "PartitionIndex" Always (NPrim PInt32) NNil)).
Definition ControlledShutdownResponse_fields : nfields := (NCons "ErrorCode" Always (NPrim PInt16) (NCons "RemainingPartitions" Always (NArray "RemainingPartition7" RemainingPartition7_fields) NNil)).
Definition OffsetCommitRequestPartition8_fields : nfields := (NCons "PartitionIndex" Always (NPrim PInt32) (NCons "CommittedOffset" Always (NPrim PInt64) (NCons "CommittedLeaderEpoch" (From 6) (NPrim PInt32) (NCons "CommittedMetadata" Always (NPrim PString) NNil)))).
Definition OffsetCommitRequestTopic8_fields : nfields := (NCons "Name" Always (NPrim PString) (NCons "Partitions" Always (NArray "OffsetCommitRequestPartition8" OffsetCommitRequestPartition8_fields) NNil)).
Definition OffsetCommitRequest_fields : nfields := (NCons "GroupId" Always (NPrim PString) (NCons "GenerationId" (From 1) (NPrim PInt32) (NCons "MemberId" (From 1) (NPrim PString) (NCons "GroupInstanceId" (From 7) (NPrim PString) (NCons "RetentionTimeMs" (Between 2 4) (NPrim PInt64) (NCons "Topics" Always (NArray "OffsetCommitRequestTopic8" OffsetCommitRequestTopic8_fields) NNil)))))).
Definition OffsetCommitResponsePartition8_fields : nfields := (NCons "PartitionIndex" Always (NPrim PInt32) (NCons "ErrorCode" Always (NPrim PInt16) NNil)).
Definition OffsetCommitResponseTopic8_fields : nfields := (NCons "Name" Always (NPrim PString) (NCons "Partitions" Always (NArray "OffsetCommitResponsePartition8" OffsetCommitResponsePartition8_fields) NNil)).
Definition OffsetCommitResponse_fields : nfields := (NCons "ThrottleTimeMs" (From 3) (NPrim PInt32) (NCons "Topics" Always (NArray "OffsetCommitResponseTopic8" OffsetCommitResponseTopic8_fields) NNil)).
Definition OffsetFetchRequestTopic9_fields : nfields := (NCons "Name" Always (NPrim PString) (NCons "PartitionIndexes" Always (NPrim PInt32s) NNil)).
Definition OffsetFetchRequest_fields : nfields := (NCons "GroupId" Always (NPrim PString) (NCons "Topics" Always (NArray "OffsetFetchRequestTopic9" OffsetFetchRequestTopic9_fields) NNil)).
Definition OffsetFetchResponsePartition9_fields : nfields := (NCons "PartitionIndex" Always (NPrim PInt32) (NCons "CommittedOffset" Always (NPrim PInt64) (NCons "CommittedLeaderEpoch" (From 5) (NPrim PInt32) (NCons "Metadata" Always (NPrim PString) (NCons "ErrorCode" Always (NPrim PInt16) NNil))))).
Definition OffsetFetchResponseTopic9_fields : nfields := (NCons "Name" Always (NPrim PString) (NCons "Partitions" Always (NArray "OffsetFetchResponsePartition9" OffsetFetchResponsePartition9_fields) NNil)).
Definition OffsetFetchResponse_fields : nfields := (NCons "ThrottleTimeMs" (From 3) (NPrim PInt32) (NCons "Topics" Always (NArray "OffsetFetchResponseTopic9" OffsetFetchResponseTopic9_fields) (NCons "ErrorCode" (From 2) (NPrim PInt16) NNil))).
Definition FindCoordinatorRequest_fields : nfields := (NCons "Key" Always (NPrim PString) (NCons "KeyType" (From 1) (NPrim PInt8) NNil)).
Definition FindCoordinatorResponse_fields : nfields := (NCons "ThrottleTimeMs" (From 1) (NPrim PInt32) (NCons "ErrorCode" Always (NPrim PInt16) (NCons "ErrorMessage" (From 1) (NPrim PString) (NCons "NodeId" Always (NPrim PInt32) (NCons "Host" Always (NPrim PString) (NCons "Port" Always (NPrim PInt32) NNil)))))).
Definition JoinGroupRequestProtocol11_fields : nfields := (NCons "Name" Always (NPrim PString) (NCons "Metadata" Always (NPrim PBytes) NNil)).
Definition JoinGroupRequest_fields : nfields := (NCons "GroupId" Always (NPrim PString) (NCons "SessionTimeoutMs" Always (NPrim PInt32) (NCons "RebalanceTimeoutMs" (From 1) (NPrim PInt32) (NCons "MemberId" Always (NPrim PString) (NCons "GroupInstanceId" (From 5) (NPrim PString) (NCons "ProtocolType" Always (NPrim PString) (NCons "Protocols" Always (NArray "JoinGroupRequestProtocol11" JoinGroupRequestProtocol11_fields) NNil))))))).
Definition JoinGroupResponseMember11_fields : nfields := (NCons "MemberId" Always (NPrim PString) (NCons "GroupInstanceId" (From 5) (NPrim PString) (NCons "Metadata" Always (NPrim PBytes) NNil))).
Definition JoinGroupResponse_fields : nfields := (NCons "ThrottleTimeMs" (From 2) (NPrim PInt32) (NCons "ErrorCode" Always (NPrim PInt16) (NCons "GenerationId" Always (NPrim PInt32) (NCons "ProtocolName" Always (NPrim PString) (NCons "Leader" Always (NPrim PString) (NCons "MemberId" Always (NPrim PString) (NCons "Members" Always (NArray "JoinGroupResponseMember11" JoinGroupResponseMember11_fields) NNil))))))).
Definition HeartbeatRequest_fields : nfields := (NCons "GroupId" Always (NPrim PString) (NCons "GenerationId" Always (NPrim PInt32) (NCons "MemberId" Always (NPrim PString) (NCons "GroupInstanceId" (From 3) (NPrim PString) NNil)))).
Definition HeartbeatResponse_fields : nfields := (NCons "ThrottleTimeMs" (From 1) (NPrim PInt32) (NCons "ErrorCode" Always (NPrim PInt16) NNil)).
Definition MemberIdentity13_fields : nfields := (NCons "MemberId" (From 3) (NPrim PString) (NCons "GroupInstanceId" (From 3) (NPrim PString) NNil)).
Definition LeaveGroupRequest_fields : nfields := (NCons "GroupId" Always (NPrim PString) (NCons "MemberId" (Between 0 2) (NPrim PString) (NCons "Members" (From 3) (NArray "MemberIdentity13" MemberIdentity13_fields) NNil))).
Definition MemberResponse13_fields : nfields := (NCons "MemberId" (From 3) (NPrim PString) (NCons "GroupInstanceId" (From 3) (NPrim PString) (NCons "ErrorCode" (From 3) (NPrim PInt16) NNil))).
Definition LeaveGroupResponse_fields : nfields := (NCons "ThrottleTimeMs" (From 1) (NPrim PInt32) (NCons "ErrorCode" Always (NPrim PInt16) (NCons "Members" (From 3) (NArray "MemberResponse13" MemberResponse13_fields) NNil))).
Definition SyncGroupRequestAssignment14_fields : nfields := (NCons "MemberId" Always (NPrim PString) (NCons "Assignment" Always (NPrim PBytes) NNil)).
Definition SyncGroupRequest_fields : nfields := (NCons "GroupId" Always (NPrim PString) (NCons "GenerationId" Always (NPrim PInt32) (NCons "MemberId" Always (NPrim PString) (NCons "GroupInstanceId" (From 3) (NPrim PString) (NCons "Assignments" Always (NArray "SyncGroupRequestAssignment14" SyncGroupRequestAssignment14_fields) NNil))))).
Definition SyncGroupResponse_fields : nfields := (NCons "ThrottleTimeMs" (From 1) (NPrim PInt32) (NCons "ErrorCode" Always (NPrim PInt16) (NCons "Assignment" Always (NPrim PBytes) NNil))).
Definition DescribeGroupsRequest_fields : nfields := (NCons "Groups" Always (NPrim PStrings) (NCons "IncludeAuthorizedOperations" (From 3) (NPrim PBool) NNil)).
Definition DescribedGroupMember15_fields : nfields := (NCons "MemberId" Always (NPrim PString) (NCons "GroupInstanceId" (From 4) (NPrim PString) (NCons "ClientId" Always (NPrim PString) (NCons "ClientHost" Always (NPrim PString) (NCons "MemberMetadata" Always (NPrim PBytes) (NCons "MemberAssignment" Always (NPrim PBytes) NNil)))))).
Definition DescribedGroup15_fields : nfields := (NCons "ErrorCode" Always (NPrim PInt16) (NCons "GroupId" Always (NPrim PString) (NCons "GroupState" Always (NPrim PString) (NCons "ProtocolType" Always (NPrim PString) (NCons "ProtocolData" Always (NPrim PString) (NCons "Members" Always (NArray "DescribedGroupMember15" DescribedGroupMember15_fields) (NCons "AuthorizedOperations" (From 3) (NPrim PInt32) NNil))))))).
Definition DescribeGroupsResponse_fields : nfields := (NCons "ThrottleTimeMs" (From 1) (NPrim PInt32) (NCons "Groups" Always (NArray "DescribedGroup15" DescribedGroup15_fields) NNil)).
Definition ListGroupsRequest_fields : nfields := NNil.
Definition ListedGroup16_fields : nfields := (NCons "GroupId" Always (NPrim PString) (NCons "ProtocolType" Always (NPrim PString) NNil)).
Definition ListGroupsResponse_fields : nfields := (NCons "ThrottleTimeMs" (From 1) (NPrim PInt32) (NCons "ErrorCode" Always (NPrim PInt16) (NCons "Groups" Always (NArray "ListedGroup16" ListedGroup16_fields) NNil))).
Definition SaslHandshakeRequest_fields : nfields := (NCons "Mechanism" Always (NPrim PString) NNil).
Definition SaslHandshakeResponse_fields : nfields := (NCons "ErrorCode" Always (NPrim PInt16) (NCons "Mechanisms" Always (NPrim PStrings) NNil)).
Definition ApiVersionsRequest_fields : nfields := (NCons "ClientSoftwareName" (From 3) (NPrim PString) (NCons "ClientSoftwareVersion" (From 3) (NPrim PString) NNil)).
Definition ApiVersionsResponseKey18_fields : nfields := (NCons "ApiKey" Always (NPrim PInt16) (NCons "MinVersion" Always (NPrim PInt16) (NCons "MaxVersion" Always (NPrim PInt16) NNil))).
Definition ApiVersionsResponse_fields : nfields := (NCons "ErrorCode" Always (NPrim PInt16) (NCons "ApiKeys" Always (NArray "ApiVersionsResponseKey18" ApiVersionsResponseKey18_fields) (NCons "ThrottleTimeMs" (From 1) (NPrim PInt32) NNil))).
Definition CreateableTopicConfig19_fields : nfields := (NCons "Name" Always (NPrim PString) (NCons "Value" Always (NPrim PString) NNil)).
Definition CreatableReplicaAssignment19_fields : nfields := (NCons "PartitionIndex" Always (NPrim PInt32) (NCons "BrokerIds" Always (NPrim PInt32s) NNil)).
Definition CreatableTopic19_fields : nfields := (NCons "Name" Always (NPrim PString) (NCons "NumPartitions" Always (NPrim PInt32) (NCons "ReplicationFactor" Always (NPrim PInt16) (NCons "Assignments" Always (NArray "CreatableReplicaAssignment19" CreatableReplicaAssignment19_fields) (NCons "Configs" Always (NArray "CreateableTopicConfig19" CreateableTopicConfig19_fields) NNil))))).
Definition CreateTopicsRequest_fields : nfields := (NCons "Topics" Always (NArray "CreatableTopic19" CreatableTopic19_fields) (NCons "timeoutMs" Always (NPrim PInt32) (NCons "validateOnly" (From 1) (NPrim PBool) NNil))).
Definition CreatableTopicConfigs19_fields : nfields := (NCons "Name" (From 5) (NPrim PString) (NCons "Value" (From 5) (NPrim PString) (NCons "ReadOnly" (From 5) (NPrim PBool) (NCons "ConfigSource" (From 5) (NPrim PInt8) (NCons "IsSensitive" (From 5) (NPrim PBool) NNil))))).
Definition CreatableTopicResult19_fields : nfields := (NCons "Name" Always (NPrim PString) (NCons "ErrorCode" Always (NPrim PInt16) (NCons "ErrorMessage" (From 1) (NPrim PString) (NCons "TopicConfigErrorCode" (From 5) (NPrim PInt16) (NCons "NumPartitions" (From 5) (NPrim PInt32) (NCons "ReplicationFactor" (From 5) (NPrim PInt16) (NCons "Configs" (From 5) (NArray "CreatableTopicConfigs19" CreatableTopicConfigs19_fields) NNil))))))).
Definition CreateTopicsResponse_fields : nfields := (NCons "ThrottleTimeMs" (From 2) (NPrim PInt32) (NCons "Topics" Always (NArray "CreatableTopicResult19" CreatableTopicResult19_fields) NNil)).
Definition DeleteTopicsRequest_fields : nfields := (NCons "TopicNames" Always (NPrim PStrings) (NCons "TimeoutMs" Always (NPrim PInt32) NNil)).
Definition DeletableTopicResult20_fields : nfields := (NCons "Name" Always (NPrim PString) (NCons "ErrorCode" Always (NPrim PInt16) NNil)).
Definition DeleteTopicsResponse_fields : nfields := (NCons "ThrottleTimeMs" (From 1) (NPrim PInt32) (NCons "Responses" Always (NArray "DeletableTopicResult20" DeletableTopicResult20_fields) NNil)).
Definition DeleteRecordsPartition21_fields : nfields := (NCons "PartitionIndex" Always (NPrim PInt32) (NCons "Offset" Always (NPrim PInt64) NNil)).
Definition DeleteRecordsTopic21_fields : nfields := (NCons "Name" Always (NPrim PString) (NCons "Partitions" Always (NArray "DeleteRecordsPartition21" DeleteRecordsPartition21_fields) NNil)).
Definition DeleteRecordsRequest_fields : nfields := (NCons "Topics" Always (NArray "DeleteRecordsTopic21" DeleteRecordsTopic21_fields) (NCons "TimeoutMs" Always (NPrim PInt32) NNil)).
Definition DeleteRecordsPartitionResult21_fields : nfields := (NCons "PartitionIndex" Always (NPrim PInt32) (NCons "LowWatermark" Always (NPrim PInt64) (NCons "ErrorCode" Always (NPrim PInt16) NNil))).
Definition DeleteRecordsTopicResult21_fields : nfields := (NCons "Name" Always (NPrim PString) (NCons "Partitions" Always (NArray "DeleteRecordsPartitionResult21" DeleteRecordsPartitionResult21_fields) NNil)).
Definition DeleteRecordsResponse_fields : nfields := (NCons "ThrottleTimeMs" Always (NPrim PInt32) (NCons "Topics" Always (NArray "DeleteRecordsTopicResult21" DeleteRecordsTopicResult21_fields) NNil)).
Definition InitProducerIdRequest_fields : nfields := (NCons "TransactionalId" Always (NPrim PString) (NCons "TransactionTimeoutMs" Always (NPrim PInt32) NNil)).
Definition InitProducerIdResponse_fields : nfields := (NCons "ThrottleTimeMs" Always (NPrim PInt32) (NCons "ErrorCode" Always (NPrim PInt16) (NCons "ProducerId" Always (NPrim PInt64) (NCons "ProducerEpoch" Always (NPrim PInt16) NNil)))).
Definition OffsetForLeaderPartition23_fields : nfields := (NCons "PartitionIndex" Always (NPrim PInt32) (NCons "CurrentLeaderEpoch" (From 2) (NPrim PInt32) (NCons "LeaderEpoch" Always (NPrim PInt32) NNil))).
Definition OffsetForLeaderTopic23_fields : nfields := (NCons "Name" Always (NPrim PString) (NCons "Partitions" Always (NArray "OffsetForLeaderPartition23" OffsetForLeaderPartition23_fields) NNil)).
Definition OffsetForLeaderEpochRequest_fields : nfields := (NCons "ReplicaId" (From 3) (NPrim PInt32) (NCons "Topics" Always (NArray "OffsetForLeaderTopic23" OffsetForLeaderTopic23_fields) NNil)).
Definition OffsetForLeaderPartitionResult23_fields : nfields := (NCons "ErrorCode" Always (NPrim PInt16) (NCons "PartitionIndex" Always (NPrim PInt32) (NCons "LeaderEpoch" (From 1) (NPrim PInt32) (NCons "EndOffset" Always (NPrim PInt64) NNil)))).
Definition OffsetForLeaderTopicResult23_fields : nfields := (NCons "Name" Always (NPrim PString) (NCons "Partitions" Always (NArray "OffsetForLeaderPartitionResult23" OffsetForLeaderPartitionResult23_fields) NNil)).
Definition OffsetForLeaderEpochResponse_fields : nfields := (NCons "ThrottleTimeMs" (From 2) (NPrim PInt32) (NCons "Topics" Always (NArray "OffsetForLeaderTopicResult23" OffsetForLeaderTopicResult23_fields) NNil)).
Definition AddPartitionsToTxnTopic24_fields : nfields := (NCons "Name" Always (NPrim PString) (NCons "Partitions" Always (NPrim PInt32s) NNil)).
Definition AddPartitionsToTxnRequest_fields : nfields := (NCons "TransactionalId" Always (NPrim PString) (NCons "ProducerId" Always (NPrim PInt64) (NCons "ProducerEpoch" Always (NPrim PInt16) (NCons "Topics" Always (NArray "AddPartitionsToTxnTopic24" AddPartitionsToTxnTopic24_fields) NNil)))).
Definition AddPartitionsToTxnPartitionResult24_fields : nfields := (NCons "PartitionIndex" Always (NPrim PInt32) (NCons "ErrorCode" Always (NPrim PInt16) NNil)).
Definition AddPartitionsToTxnTopicResult24_fields : nfields := (NCons "Name" Always (NPrim PString) (NCons "Results" Always (NArray "AddPartitionsToTxnPartitionResult24" AddPartitionsToTxnPartitionResult24_fields) NNil)).
Definition AddPartitionsToTxnResponse_fields : nfields := (NCons "ThrottleTimeMs" Always (NPrim PInt32) (NCons "Results" Always (NArray "AddPartitionsToTxnTopicResult24" AddPartitionsToTxnTopicResult24_fields) NNil)).
Definition AddOffsetsToTxnRequest_fields : nfields := (NCons "TransactionalId" Always (NPrim PString) (NCons "ProducerId" Always (NPrim PInt64) (NCons "ProducerEpoch" Always (NPrim PInt16) (NCons "GroupId" Always (NPrim PString) NNil)))).
Definition AddOffsetsToTxnResponse_fields : nfields := (NCons "ThrottleTimeMs" Always (NPrim PInt32) (NCons "ErrorCode" Always (NPrim PInt16) NNil)).
Definition EndTxnRequest_fields : nfields := (NCons "TransactionalId" Always (NPrim PString) (NCons "ProducerId" Always (NPrim PInt64) (NCons "ProducerEpoch" Always (NPrim PInt16) (NCons "Committed" Always (NPrim PBool) NNil)))).
Definition EndTxnResponse_fields : nfields := (NCons "ThrottleTimeMs" Always (NPrim PInt32) (NCons "ErrorCode" Always (NPrim PInt16) NNil)).
Definition WritableTxnMarkerTopic27_fields : nfields := (NCons "Name" Always (NPrim PString) (NCons "PartitionIndexes" Always (NPrim PInt32s) NNil)).
Definition WritableTxnMarker27_fields : nfields := (NCons "ProducerId" Always (NPrim PInt64) (NCons "ProducerEpoch" Always (NPrim PInt16) (NCons "TransactionResult" Always (NPrim PBool) (NCons "Topics" Always (NArray "WritableTxnMarkerTopic27" WritableTxnMarkerTopic27_fields) (NCons "CoordinatorEpoch" Always (NPrim PInt32) NNil))))).
Definition WriteTxnMarkersRequest_fields : nfields := (NCons "Markers" Always (NArray "WritableTxnMarker27" WritableTxnMarker27_fields) NNil).
Definition WritableTxnMarkerPartitionResult27_fields : nfields := (NCons "PartitionIndex" Always (NPrim PInt32) (NCons "ErrorCode" Always (NPrim PInt16) NNil)).
Definition WritableTxnMarkerTopicResult27_fields : nfields := (NCons "Name" Always (NPrim PString) (NCons "Partitions" Always (NArray "WritableTxnMarkerPartitionResult27" WritableTxnMarkerPartitionResult27_fields) NNil)).
Definition WritableTxnMarkerResult27_fields : nfields := (NCons "ProducerId" Always (NPrim PInt64) (NCons "Topics" Always (NArray "WritableTxnMarkerTopicResult27" WritableTxnMarkerTopicResult27_fields) NNil)).
Definition WriteTxnMarkersResponse_fields : nfields := (NCons "Markers" Always (NArray "WritableTxnMarkerResult27" WritableTxnMarkerResult27_fields) NNil).
Definition TxnOffsetCommitRequestPartition28_fields : nfields := (NCons "PartitionIndex" Always (NPrim PInt32) (NCons "CommittedOffset" Always (NPrim PInt64) (NCons "CommittedLeaderEpoch" (From 2) (NPrim PInt32) (NCons "CommittedMetadata" Always (NPrim PString) NNil)))).
Definition TxnOffsetCommitRequestTopic28_fields : nfields := (NCons "Name" Always (NPrim PString) (NCons "Partitions" Always (NArray "TxnOffsetCommitRequestPartition28" TxnOffsetCommitRequestPartition28_fields) NNil)).
Definition TxnOffsetCommitRequest_fields : nfields := (NCons "TransactionalId" Always (NPrim PString) (NCons "GroupId" Always (NPrim PString) (NCons "ProducerId" Always (NPrim PInt64) (NCons "ProducerEpoch" Always (NPrim PInt16) (NCons "Topics" Always (NArray "TxnOffsetCommitRequestTopic28" TxnOffsetCommitRequestTopic28_fields) NNil))))).
Definition TxnOffsetCommitResponsePartition28_fields : nfields := (NCons "PartitionIndex" Always (NPrim PInt32) (NCons "ErrorCode" Always (NPrim PInt16) NNil)).
Definition TxnOffsetCommitResponseTopic28_fields : nfields := (NCons "Name" Always (NPrim PString) (NCons "Partitions" Always (NArray "TxnOffsetCommitResponsePartition28" TxnOffsetCommitResponsePartition28_fields) NNil)).
Definition TxnOffsetCommitResponse_fields : nfields := (NCons "ThrottleTimeMs" Always (NPrim PInt32) (NCons "Topics" Always (NArray "TxnOffsetCommitResponseTopic28" TxnOffsetCommitResponseTopic28_fields) NNil)).
Definition DescribeAclsRequest_fields : nfields := (NCons "ResourceType" Always (NPrim PInt8) (NCons "ResourceNameFilter" Always (NPrim PString) (NCons "ResourcePatternType" (From 1) (NPrim PInt8) (NCons "PrincipalFilter" Always (NPrim PString) (NCons "HostFilter" Always (NPrim PString) (NCons "Operation" Always (NPrim PInt8) (NCons "PermissionType" Always (NPrim PInt8) NNil))))))).
Definition AclDescription29_fields : nfields := (NCons "Principal" Always (NPrim PString) (NCons "Host" Always (NPrim PString) (NCons "Operation" Always (NPrim PInt8) (NCons "PermissionType" Always (NPrim PInt8) NNil)))).
Definition DescribeAclsResource29_fields : nfields := (NCons "Type" Always (NPrim PInt8) (NCons "Name" Always (NPrim PString) (NCons "PatternType" (From 1) (NPrim PInt8) (NCons "Acls" Always (NArray "AclDescription29" AclDescription29_fields) NNil)))).
Definition DescribeAclsResponse_fields : nfields := (NCons "ThrottleTimeMs" Always (NPrim PInt32) (NCons "ErrorCode" Always (NPrim PInt16) (NCons "ErrorMessage" Always (NPrim PString) (NCons "Resources" Always (NArray "DescribeAclsResource29" DescribeAclsResource29_fields) NNil)))).
Definition CreatableAcl30_fields : nfields := (NCons "ResourceType" Always (NPrim PInt8) (NCons "ResourceName" Always (NPrim PString) (NCons "ResourcePatternType" (From 1) (NPrim PInt8) (NCons "Principal" Always (NPrim PString) (NCons "Host" Always (NPrim PString) (NCons "Operation" Always (NPrim PInt8) (NCons "PermissionType" Always (NPrim PInt8) NNil))))))).
Definition CreateAclsRequest_fields : nfields := (NCons "Creations" Always (NArray "CreatableAcl30" CreatableAcl30_fields) NNil).
Definition CreatableAclResult30_fields : nfields := (NCons "ErrorCode" Always (NPrim PInt16) (NCons "ErrorMessage" Always (NPrim PString) NNil)).
Definition CreateAclsResponse_fields : nfields := (NCons "ThrottleTimeMs" Always (NPrim PInt32) (NCons "Results" Always (NArray "CreatableAclResult30" CreatableAclResult30_fields) NNil)).
Definition DeleteAclsFilter31_fields : nfields := (NCons "ResourceTypeFilter" Always (NPrim PInt8) (NCons "ResourceNameFilter" Always (NPrim PString) (NCons "PatternTypeFilter" (From 1) (NPrim PInt8) (NCons "PrincipalFilter" Always (NPrim PString) (NCons "HostFilter" Always (NPrim PString) (NCons "Operation" Always (NPrim PInt8) (NCons "PermissionType" Always (NPrim PInt8) NNil))))))).
Definition DeleteAclsRequest_fields : nfields := (NCons "Filters" Always (NArray "DeleteAclsFilter31" DeleteAclsFilter31_fields) NNil).
Definition DeleteAclsMatchingAcl31_fields : nfields := (NCons "ErrorCode" Always (NPrim PInt16) (NCons "ErrorMessage" Always (NPrim PString) (NCons "ResourceType" Always (NPrim PInt8) (NCons "ResourceName" Always (NPrim PString) (NCons "PatternType" (From 1) (NPrim PInt8) (NCons "Principal" Always (NPrim PString) (NCons "Host" Always (NPrim PString) (NCons "Operation" Always (NPrim PInt8) (NCons "PermissionType" Always (NPrim PInt8) NNil))))))))).
Definition DeleteAclsFilterResult31_fields : nfields := (NCons "ErrorCode" Always (NPrim PInt16) (NCons "ErrorMessage" Always (NPrim PString) (NCons "MatchingAcls" Always (NArray "DeleteAclsMatchingAcl31" DeleteAclsMatchingAcl31_fields) NNil))).
Definition DeleteAclsResponse_fields : nfields := (NCons "ThrottleTimeMs" Always (NPrim PInt32) (NCons "FilterResults" Always (NArray "DeleteAclsFilterResult31" DeleteAclsFilterResult31_fields) NNil)).
Definition DescribeConfigsResource32_fields : nfields := (NCons "ResourceType" Always (NPrim PInt8) (NCons "ResourceName" Always (NPrim PString) (NCons "ConfigurationKeys" Always (NPrim PStrings) NNil))).
Definition DescribeConfigsRequest_fields : nfields := (NCons "Resources" Always (NArray "DescribeConfigsResource32" DescribeConfigsResource32_fields) (NCons "IncludeSynoyms" (From 1) (NPrim PBool) NNil)).
Definition DescribeConfigsSynonym32_fields : nfields := (NCons "Name" (From 1) (NPrim PString) (NCons "Value" (From 1) (NPrim PString) (NCons "Source" (From 1) (NPrim PInt8) NNil))).
Definition DescribeConfigsResourceResult32_fields : nfields := (NCons "Name" Always (NPrim PString) (NCons "Value" Always (NPrim PString) (NCons "ReadOnly" Always (NPrim PBool) (NCons "IsDefault" (Between 0 0) (NPrim PBool) (NCons "ConfigSource" (From 1) (NPrim PInt8) (NCons "IsSensitive" Always (NPrim PBool) (NCons "Synonyms" (From 1) (NArray "DescribeConfigsSynonym32" DescribeConfigsSynonym32_fields) NNil))))))).
Definition DescribeConfigsResult32_fields : nfields := (NCons "ErrorCode" Always (NPrim PInt16) (NCons "ErrorMessage" Always (NPrim PString) (NCons "ResourceType" Always (NPrim PInt8) (NCons "ResourceName" Always (NPrim PString) (NCons "Configs" Always (NArray "DescribeConfigsResourceResult32" DescribeConfigsResourceResult32_fields) NNil))))).
Definition DescribeConfigsResponse_fields : nfields := (NCons "ThrottleTimeMs" Always (NPrim PInt32) (NCons "Results" Always (NArray "DescribeConfigsResult32" DescribeConfigsResult32_fields) NNil)).
Definition AlterableConfig33_fields : nfields := (NCons "Name" Always (NPrim PString) (NCons "Value" Always (NPrim PString) NNil)).
Definition AlterConfigsResource33_fields : nfields := (NCons "ResourceType" Always (NPrim PInt8) (NCons "ResourceName" Always (NPrim PString) (NCons "Configs" Always (NArray "AlterableConfig33" AlterableConfig33_fields) NNil))).
Definition AlterConfigsRequest_fields : nfields := (NCons "Resources" Always (NArray "AlterConfigsResource33" AlterConfigsResource33_fields) (NCons "ValidateOnly" Always (NPrim PBool) NNil)).
Definition AlterConfigsResourceResponse33_fields : nfields := (NCons "ErrorCode" Always (NPrim PInt16) (NCons "ErrorMessage" Always (NPrim PString) (NCons "ResourceType" Always (NPrim PInt8) (NCons "ResourceName" Always (NPrim PString) NNil)))).
Definition AlterConfigsResponse_fields : nfields := (NCons "ThrottleTimeMs" Always (NPrim PInt32) (NCons "Responses" Always (NArray "AlterConfigsResourceResponse33" AlterConfigsResourceResponse33_fields) NNil)).
Definition AlterReplicaLogDirTopic34_fields : nfields := (NCons "Name" Always (NPrim PString) (NCons "Partitions" Always (NPrim PInt32s) NNil)).
Definition AlterReplicaLogDir34_fields : nfields := (NCons "Path" Always (NPrim PString) (NCons "Topics" Always (NArray "AlterReplicaLogDirTopic34" AlterReplicaLogDirTopic34_fields) NNil)).
Definition AlterReplicaLogDirsRequest_fields : nfields := (NCons "Dirs" Always (NArray "AlterReplicaLogDir34" AlterReplicaLogDir34_fields) NNil).
Definition AlterReplicaLogDirPartitionResult34_fields : nfields := (NCons "PartitionIndex" Always (NPrim PInt32) (NCons "ErrorCode" Always (NPrim PInt16) NNil)).
Definition AlterReplicaLogDirTopicResult34_fields : nfields := (NCons "TopicName" Always (NPrim PString) (NCons "Partitions" Always (NArray "AlterReplicaLogDirPartitionResult34" AlterReplicaLogDirPartitionResult34_fields) NNil)).
Definition AlterReplicaLogDirsResponse_fields : nfields := (NCons "ThrottleTimeMs" Always (NPrim PInt32) (NCons "Results" Always (NArray "AlterReplicaLogDirTopicResult34" AlterReplicaLogDirTopicResult34_fields) NNil)).
Definition DescribableLogDirTopic35_fields : nfields := (NCons "Topic" Always (NPrim PString) (NCons "PartitionIndex" Always (NPrim PInt32s) NNil)).
Definition DescribeLogDirsRequest_fields : nfields := (NCons "Topics" Always (NArray "DescribableLogDirTopic35" DescribableLogDirTopic35_fields) NNil).
Definition DescribeLogDirsPartition35_fields : nfields := (NCons "PartitionIndex" Always (NPrim PInt32) (NCons "PartitionSize" Always (NPrim PInt64) (NCons "OffsetLag" Always (NPrim PInt64) (NCons "IsFutureKey" Always (NPrim PBool) NNil)))).
Definition DescribeLogDirsTopic35_fields : nfields := (NCons "Name" Always (NPrim PString) (NCons "Partitions" Always (NArray "DescribeLogDirsPartition35" DescribeLogDirsPartition35_fields) NNil)).
Definition DescribeLogDirsResult35_fields : nfields := (NCons "ErrorCode" Always (NPrim PInt16) (NCons "LogDir" Always (NPrim PString) (NCons "Topics" Always (NArray "DescribeLogDirsTopic35" DescribeLogDirsTopic35_fields) NNil))).
Definition DescribeLogDirsResponse_fields : nfields := (NCons "ThrottleTimeMs" Always (NPrim PInt32) (NCons "Results" Always (NArray "DescribeLogDirsResult35" DescribeLogDirsResult35_fields) NNil)).
Definition SaslAuthenticateRequest_fields : nfields := (NCons "AuthBytes" Always (NPrim PBytes) NNil).
Definition SaslAuthenticateResponse_fields : nfields := (NCons "ErrorCode" Always (NPrim PInt16) (NCons "ErrorMessage" Always (NPrim PString) (NCons "AuthBytes" Always (NPrim PBytes) (NCons "SessionLifetimeMs" (From 1) (NPrim PInt64) NNil)))).
Definition CreatePartitionsAssignment37_fields : nfields := (NCons "BrokerIds" Always (NPrim PInt32s) NNil).
Definition CreatePartitionsTopic37_fields : nfields := (NCons "Name" Always (NPrim PString) (NCons "Count" Always (NPrim PInt32) (NCons "Assignments" Always (NArray "CreatePartitionsAssignment37" CreatePartitionsAssignment37_fields) NNil))).
Definition CreatePartitionsRequest_fields : nfields := (NCons "Topics" Always (NArray "CreatePartitionsTopic37" CreatePartitionsTopic37_fields) (NCons "TimeoutMs" Always (NPrim PInt32) (NCons "ValidateOnly" Always (NPrim PBool) NNil))).
Definition CreatePartitionsTopicResult37_fields : nfields := (NCons "Name" Always (NPrim PString) (NCons "ErrorCode" Always (NPrim PInt16) (NCons "ErrorMessage" Always (NPrim PString) NNil))).
Definition CreatePartitionsResponse_fields : nfields := (NCons "ThrottleTimeMs" Always (NPrim PInt32) (NCons "Results" Always (NArray "CreatePartitionsTopicResult37" CreatePartitionsTopicResult37_fields) NNil)).
Definition CreatableRenewers38_fields : nfields := (NCons "PrincipalType" Always (NPrim PString) (NCons "PrincipalName" Always (NPrim PString) NNil)).
Definition CreateDelegationTokenRequest_fields : nfields := (NCons "Renewers" Always (NArray "CreatableRenewers38" CreatableRenewers38_fields) (NCons "MaxLifetimeMs" Always (NPrim PInt64) NNil)).
Definition CreateDelegationTokenResponse_fields : nfields := (NCons "ErrorCode" Always (NPrim PInt16) (NCons "PrincipalType" Always (NPrim PString) (NCons "PrincipalName" Always (NPrim PString) (NCons "IssueTimestampMs" Always (NPrim PInt64) (NCons "ExpiryTimestampMs" Always (NPrim PInt64) (NCons "MaxTimestampMs" Always (NPrim PInt64) (NCons "TokenId" Always (NPrim PString) (NCons "Hmac" Always (NPrim PBytes) (NCons "ThrottleTimeMs" Always (NPrim PInt32) NNil))))))))).
Definition RenewDelegationTokenRequest_fields : nfields := (NCons "Hmac" Always (NPrim PBytes) (NCons "RenewPeriodMs" Always (NPrim PInt64) NNil)).
Definition RenewDelegationTokenResponse_fields : nfields := (NCons "ErrorCode" Always (NPrim PInt16) (NCons "ExpiryTimestampMs" Always (NPrim PInt64) (NCons "ThrottleTimeMs" Always (NPrim PInt32) NNil))).
Definition ExpireDelegationTokenRequest_fields : nfields := (NCons "Hmac" Always (NPrim PBytes) (NCons "ExpiryTimePeriodMs" Always (NPrim PInt64) NNil)).
Definition ExpireDelegationTokenResponse_fields : nfields := (NCons "ErrorCode" Always (NPrim PInt16) (NCons "ExpiryTimestampMs" Always (NPrim PInt64) (NCons "ThrottleTimeMs" Always (NPrim PInt32) NNil))).
Definition DescribeDelegationTokenOwner41_fields : nfields := (NCons "PrincipalType" Always (NPrim PString) (NCons "PrincipalName" Always (NPrim PString) NNil)).
Definition DescribeDelegationTokenRequest_fields : nfields := (NCons "Owners" Always (NArray "DescribeDelegationTokenOwner41" DescribeDelegationTokenOwner41_fields) NNil).
Definition DescribedDelegationTokenRenewer41_fields : nfields := (NCons "PrincipalType" Always (NPrim PString) (NCons "PrincipalName" Always (NPrim PString) NNil)).
Definition DescribedDelegationToken41_fields : nfields := (NCons "PrincipalType" Always (NPrim PString) (NCons "PrincipalName" Always (NPrim PString) (NCons "IssueTimestamp" Always (NPrim PInt64) (NCons "ExpiryTimestamp" Always (NPrim PInt64) (NCons "MaxTimestamp" Always (NPrim PInt64) (NCons "TokenId" Always (NPrim PString) (NCons "Hmac" Always (NPrim PBytes) (NCons "Renewers" Always (NArray "DescribedDelegationTokenRenewer41" DescribedDelegationTokenRenewer41_fields) NNil)))))))).
Definition DescribeDelegationTokenResponse_fields : nfields := (NCons "ErrorCode" Always (NPrim PInt16) (NCons "Tokens" Always (NArray "DescribedDelegationToken41" DescribedDelegationToken41_fields) (NCons "ThrottleTimeMs" Always (NPrim PInt32) NNil))).
Definition DeleteGroupsRequest_fields : nfields := (NCons "GroupsNames" Always (NPrim PStrings) NNil).
Definition DeletableGroupResult42_fields : nfields := (NCons "GroupId" Always (NPrim PString) (NCons "ErrorCode" Always (NPrim PInt16) NNil)).
Definition DeleteGroupsResponse_fields : nfields := (NCons "ThrottleTimeMs" Always (NPrim PInt32) (NCons "Results" Always (NArray "DeletableGroupResult42" DeletableGroupResult42_fields) NNil)).
Definition TopicPartitions43_fields : nfields := (NCons "Topic" Always (NPrim PString) (NCons "PartitionId" Always (NPrim PInt32s) NNil)).
Definition ElectLeadersRequest_fields : nfields := (NCons "ElectionType" (From 1) (NPrim PInt8) (NCons "TopicPartitions" Always (NArray "TopicPartitions43" TopicPartitions43_fields) (NCons "TimeoutMs" Always (NPrim PInt32) NNil))).
Definition PartitionResult43_fields : nfields := (NCons "PartitionId" Always (NPrim PInt32) (NCons "ErrorCode" Always (NPrim PInt16) (NCons "ErrorMessage" Always (NPrim PString) NNil))).
Definition ReplicaElectionResult43_fields : nfields := (NCons "Topic" Always (NPrim PString) (NCons "PartitionResult" Always (NArray "PartitionResult43" PartitionResult43_fields) NNil)).
Definition ElectLeadersResponse_fields : nfields := (NCons "ThrottleTimeMs" Always (NPrim PInt32) (NCons "ErrorCode" (From 1) (NPrim PInt16) (NCons "ReplicaElectionResults" Always (NArray "ReplicaElectionResult43" ReplicaElectionResult43_fields) NNil))).
Definition AlterableConfig44_fields : nfields := (NCons "Name" Always (NPrim PString) (NCons "ConfigOperation" Always (NPrim PInt8) (NCons "Value" Always (NPrim PString) NNil))).
Definition AlterConfigsResource44_fields : nfields := (NCons "ResourceType" Always (NPrim PInt8) (NCons "ResourceName" Always (NPrim PString) (NCons "Configs" Always (NArray "AlterableConfig44" AlterableConfig44_fields) NNil))).
Definition IncrementalAlterConfigsRequest_fields : nfields := (NCons "Resources" Always (NArray "AlterConfigsResource44" AlterConfigsResource44_fields) (NCons "ValidateOnly" Always (NPrim PBool) NNil)).
Definition AlterConfigsResourceResponse44_fields : nfields := (NCons "ErrorCode" Always (NPrim PInt16) (NCons "ErrorMessage" Always (NPrim PString) (NCons "ResourceType" Always (NPrim PInt8) (NCons "ResourceName" Always (NPrim PString) NNil)))).
Definition IncrementalAlterConfigsResponse_fields : nfields := (NCons "ThrottleTimeMs" Always (NPrim PInt32) (NCons "Responses" Always (NArray "AlterConfigsResourceResponse44" AlterConfigsResourceResponse44_fields) NNil)).
Definition ReassignablePartition45_fields : nfields := (NCons "PartitionIndex" Always (NPrim PInt32) (NCons "Replicas" Always (NPrim PInt32s) NNil)).
Definition ReassignableTopic45_fields : nfields := (NCons "Name" Always (NPrim PString) (NCons "Partitions" Always (NArray "ReassignablePartition45" ReassignablePartition45_fields) NNil)).
Definition AlterPartitionReassignmentsRequest_fields : nfields := (NCons "TimeoutMs" Always (NPrim PInt32) (NCons "Topics" Always (NArray "ReassignableTopic45" ReassignableTopic45_fields) NNil)).
Definition ReassignablePartitionResponse45_fields : nfields := (NCons "PartitionIndex" Always (NPrim PInt32) (NCons "ErrorCode" Always (NPrim PInt16) (NCons "ErrorMessage" Always (NPrim PString) NNil))).
Definition ReassignableTopicResponse45_fields : nfields := (NCons "Name" Always (NPrim PString) (NCons "Partitions" Always (NArray "ReassignablePartitionResponse45" ReassignablePartitionResponse45_fields) NNil)).
Definition AlterPartitionReassignmentsResponse_fields : nfields := (NCons "ThrottleTimeMs" Always (NPrim PInt32) (NCons "ErrorCode" Always (NPrim PInt16) (NCons "ErrorMessage" Always (NPrim PString) (NCons "Responses" Always (NArray "ReassignableTopicResponse45" ReassignableTopicResponse45_fields) NNil)))).
Definition ListPartitionReassignmentsTopics46_fields : nfields := (NCons "Name" Always (NPrim PString) (NCons "PartitionIndexes" Always (NPrim PInt32s) NNil)).
Definition ListPartitionReassignmentsRequest_fields : nfields := (NCons "TimeoutMs" Always (NPrim PInt32) (NCons "Topics" Always (NArray "ListPartitionReassignmentsTopics46" ListPartitionReassignmentsTopics46_fields) NNil)).
Definition OngoingPartitionReassignment46_fields : nfields := (NCons "PartitionIndex" Always (NPrim PInt32) (NCons "Replicas" Always (NPrim PInt32s) (NCons "AddingReplicas" Always (NPrim PInt32s) (NCons "RemovingReplicas" Always (NPrim PInt32s) NNil)))).
Definition OngoingTopicReassignment46_fields : nfields := (NCons "Name" Always (NPrim PString) (NCons "Partitions" Always (NArray "OngoingPartitionReassignment46" OngoingPartitionReassignment46_fields) NNil)).
Definition ListPartitionReassignmentsResponse_fields : nfields := (NCons "ThrottleTimeMs" Always (NPrim PInt32) (NCons "ErrorCode" Always (NPrim PInt16) (NCons "ErrorMessage" Always (NPrim PString) (NCons "Topics" Always (NArray "OngoingTopicReassignment46" OngoingTopicReassignment46_fields) NNil)))).
Definition OffsetDeleteRequestPartition47_fields : nfields := (NCons "PartitionIndex" Always (NPrim PInt32) NNil).
Definition OffsetDeleteRequestTopic47_fields : nfields := (NCons "Name" Always (NPrim PString) (NCons "Partitions" Always (NArray "OffsetDeleteRequestPartition47" OffsetDeleteRequestPartition47_fields) NNil)).
Definition OffsetDeleteRequest_fields : nfields := (NCons "GroupId" Always (NPrim PString) (NCons "Topics" Always (NArray "OffsetDeleteRequestTopic47" OffsetDeleteRequestTopic47_fields) NNil)).
Definition OffsetDeleteResponsePartition47_fields : nfields := (NCons "PartitionIndex" Always (NPrim PInt32) (NCons "ErrorCode" Always (NPrim PInt16) NNil)).
Definition OffsetDeleteResponseTopic47_fields : nfields := (NCons "Name" Always (NPrim PString) (NCons "Partitions" Always (NArray "OffsetDeleteResponsePartition47" OffsetDeleteResponsePartition47_fields) NNil)).
Definition OffsetDeleteResponse_fields : nfields := (NCons "ErrorCode" Always (NPrim PInt16) (NCons "ThrottleTimeMs" Always (NPrim PInt32) (NCons "Topics" Always (NArray "OffsetDeleteResponseTopic47" OffsetDeleteResponseTopic47_fields) NNil))).
Definition layouts : list (string * nfields) :=
  [("ProduceRequest", ProduceRequest_fields);
   ("TopicProduceData0", TopicProduceData0_fields);
   ("PartitionProduceData0", PartitionProduceData0_fields);
   ("ProduceResponse", ProduceResponse_fields);
   ("TopicProduceResponse0", TopicProduceResponse0_fields);
   ("PartitionProduceResponse0", PartitionProduceResponse0_fields);
   ("BatchIndexAndErrorMessage0", BatchIndexAndErrorMessage0_fields);
   ("RequestHeader", RequestHeader_fields);
   ("ResponseHeader", ResponseHeader_fields);
   ("FetchRequest", FetchRequest_fields);
   ("FetchableTopic1", FetchableTopic1_fields);
   ("FetchPartition1", FetchPartition1_fields);
   ("ForgottenTopic1", ForgottenTopic1_fields);
   ("FetchResponse", FetchResponse_fields);
   ("FetchableTopicResponse1", FetchableTopicResponse1_fields);
   ("FetchablePartitionResponse1", FetchablePartitionResponse1_fields);
   ("AbortedTransaction1", AbortedTransaction1_fields);
   ("ListOffsetRequest", ListOffsetRequest_fields);
   ("ListOffsetTopic2", ListOffsetTopic2_fields);
   ("ListOffsetPartition2", ListOffsetPartition2_fields);
   ("ListOffsetResponse", ListOffsetResponse_fields);
   ("ListOffsetTopicResponse2", ListOffsetTopicResponse2_fields);
   ("ListOffsetPartitionResponse2", ListOffsetPartitionResponse2_fields);
   ("MetadataRequest", MetadataRequest_fields);
   ("MetadataRequestTopic3", MetadataRequestTopic3_fields);
   ("MetadataResponse", MetadataResponse_fields);
   ("MetadataResponseBroker3", MetadataResponseBroker3_fields);
   ("MetadataResponseTopic3", MetadataResponseTopic3_fields);
   ("MetadataResponsePartition3", MetadataResponsePartition3_fields);
   ("LeaderAndIsrRequest", LeaderAndIsrRequest_fields);
   ("LeaderAndIsrTopicState4", LeaderAndIsrTopicState4_fields);
   ("LeaderAndIsrLiveLeader4", LeaderAndIsrLiveLeader4_fields);
   ("LeaderAndIsrPartitionState4", LeaderAndIsrPartitionState4_fields);
   ("LeaderAndIsrResponse", LeaderAndIsrResponse_fields);
   ("LeaderAndIsrPartitionError4", LeaderAndIsrPartitionError4_fields);
   ("StopReplicaRequest", StopReplicaRequest_fields);
   ("StopReplicaPartitionV05", StopReplicaPartitionV05_fields);
   ("StopReplicaTopic5", StopReplicaTopic5_fields);
   ("StopReplicaResponse", StopReplicaResponse_fields);
   ("StopReplicaPartitionError5", StopReplicaPartitionError5_fields);
   ("UpdateMetadataRequest", UpdateMetadataRequest_fields);
   ("UpdateMetadataTopicState6", UpdateMetadataTopicState6_fields);
   ("UpdateMetadataBroker6", UpdateMetadataBroker6_fields);
   ("UpdateMetadataEndpoint6", UpdateMetadataEndpoint6_fields);
   ("UpdateMetadataPartitionState6", UpdateMetadataPartitionState6_fields);
   ("UpdateMetadataResponse", UpdateMetadataResponse_fields);
   ("ControlledShutdownRequest", ControlledShutdownRequest_fields);
   ("ControlledShutdownResponse", ControlledShutdownResponse_fields);
   ("RemainingPartition7", RemainingPartition7_fields);
   ("OffsetCommitRequest", OffsetCommitRequest_fields);
   ("OffsetCommitRequestTopic8", OffsetCommitRequestTopic8_fields);
   ("OffsetCommitRequestPartition8", OffsetCommitRequestPartition8_fields);
   ("OffsetCommitResponse", OffsetCommitResponse_fields);
   ("OffsetCommitResponseTopic8", OffsetCommitResponseTopic8_fields);
   ("OffsetCommitResponsePartition8", OffsetCommitResponsePartition8_fields);
   ("OffsetFetchRequest", OffsetFetchRequest_fields);
   ("OffsetFetchRequestTopic9", OffsetFetchRequestTopic9_fields);
   ("OffsetFetchResponse", OffsetFetchResponse_fields);
   ("OffsetFetchResponseTopic9", OffsetFetchResponseTopic9_fields);
   ("OffsetFetchResponsePartition9", OffsetFetchResponsePartition9_fields);
   ("FindCoordinatorRequest", FindCoordinatorRequest_fields);
   ("FindCoordinatorResponse", FindCoordinatorResponse_fields);
   ("JoinGroupRequest", JoinGroupRequest_fields);
   ("JoinGroupRequestProtocol11", JoinGroupRequestProtocol11_fields);
   ("JoinGroupResponse", JoinGroupResponse_fields);
   ("JoinGroupResponseMember11", JoinGroupResponseMember11_fields);
   ("HeartbeatRequest", HeartbeatRequest_fields);
   ("HeartbeatResponse", HeartbeatResponse_fields);
   ("LeaveGroupRequest", LeaveGroupRequest_fields);
   ("MemberIdentity13", MemberIdentity13_fields);
   ("LeaveGroupResponse", LeaveGroupResponse_fields);
   ("MemberResponse13", MemberResponse13_fields);
   ("SyncGroupRequest", SyncGroupRequest_fields);
   ("SyncGroupRequestAssignment14", SyncGroupRequestAssignment14_fields);
   ("SyncGroupResponse", SyncGroupResponse_fields);
   ("DescribeGroupsRequest", DescribeGroupsRequest_fields);
   ("DescribeGroupsResponse", DescribeGroupsResponse_fields);
   ("DescribedGroup15", DescribedGroup15_fields);
   ("DescribedGroupMember15", DescribedGroupMember15_fields);
   ("ListGroupsRequest", ListGroupsRequest_fields);
   ("ListGroupsResponse", ListGroupsResponse_fields);
   ("ListedGroup16", ListedGroup16_fields);
   ("SaslHandshakeRequest", SaslHandshakeRequest_fields);
   ("SaslHandshakeResponse", SaslHandshakeResponse_fields);
   ("ApiVersionsRequest", ApiVersionsRequest_fields);
   ("ApiVersionsResponse", ApiVersionsResponse_fields);
   ("ApiVersionsResponseKey18", ApiVersionsResponseKey18_fields);
   ("CreateTopicsRequest", CreateTopicsRequest_fields);
   ("CreatableTopic19", CreatableTopic19_fields);
   ("CreatableReplicaAssignment19", CreatableReplicaAssignment19_fields);
   ("CreateableTopicConfig19", CreateableTopicConfig19_fields);
   ("CreateTopicsResponse", CreateTopicsResponse_fields);
   ("CreatableTopicResult19", CreatableTopicResult19_fields);
   ("CreatableTopicConfigs19", CreatableTopicConfigs19_fields);
   ("DeleteTopicsRequest", DeleteTopicsRequest_fields);
   ("DeleteTopicsResponse", DeleteTopicsResponse_fields);
   ("DeletableTopicResult20", DeletableTopicResult20_fields);
   ("DeleteRecordsRequest", DeleteRecordsRequest_fields);
   ("DeleteRecordsTopic21", DeleteRecordsTopic21_fields);
   ("DeleteRecordsPartition21", DeleteRecordsPartition21_fields);
   ("DeleteRecordsResponse", DeleteRecordsResponse_fields);
   ("DeleteRecordsTopicResult21", DeleteRecordsTopicResult21_fields);
   ("DeleteRecordsPartitionResult21", DeleteRecordsPartitionResult21_fields);
   ("InitProducerIdRequest", InitProducerIdRequest_fields);
   ("InitProducerIdResponse", InitProducerIdResponse_fields);
   ("OffsetForLeaderEpochRequest", OffsetForLeaderEpochRequest_fields);
   ("OffsetForLeaderTopic23", OffsetForLeaderTopic23_fields);
   ("OffsetForLeaderPartition23", OffsetForLeaderPartition23_fields);
   ("OffsetForLeaderEpochResponse", OffsetForLeaderEpochResponse_fields);
   ("OffsetForLeaderTopicResult23", OffsetForLeaderTopicResult23_fields);
   ("OffsetForLeaderPartitionResult23", OffsetForLeaderPartitionResult23_fields);
   ("AddPartitionsToTxnRequest", AddPartitionsToTxnRequest_fields);
   ("AddPartitionsToTxnTopic24", AddPartitionsToTxnTopic24_fields);
   ("AddPartitionsToTxnResponse", AddPartitionsToTxnResponse_fields);
   ("AddPartitionsToTxnTopicResult24", AddPartitionsToTxnTopicResult24_fields);
   ("AddPartitionsToTxnPartitionResult24", AddPartitionsToTxnPartitionResult24_fields);
   ("AddOffsetsToTxnRequest", AddOffsetsToTxnRequest_fields);
   ("AddOffsetsToTxnResponse", AddOffsetsToTxnResponse_fields);
   ("EndTxnRequest", EndTxnRequest_fields);
   ("EndTxnResponse", EndTxnResponse_fields);
   ("WriteTxnMarkersRequest", WriteTxnMarkersRequest_fields);
   ("WritableTxnMarker27", WritableTxnMarker27_fields);
   ("WritableTxnMarkerTopic27", WritableTxnMarkerTopic27_fields);
   ("WriteTxnMarkersResponse", WriteTxnMarkersResponse_fields);
   ("WritableTxnMarkerResult27", WritableTxnMarkerResult27_fields);
   ("WritableTxnMarkerTopicResult27", WritableTxnMarkerTopicResult27_fields);
   ("WritableTxnMarkerPartitionResult27", WritableTxnMarkerPartitionResult27_fields);
   ("TxnOffsetCommitRequest", TxnOffsetCommitRequest_fields);
   ("TxnOffsetCommitRequestTopic28", TxnOffsetCommitRequestTopic28_fields);
   ("TxnOffsetCommitRequestPartition28", TxnOffsetCommitRequestPartition28_fields);
   ("TxnOffsetCommitResponse", TxnOffsetCommitResponse_fields);
   ("TxnOffsetCommitResponseTopic28", TxnOffsetCommitResponseTopic28_fields);
   ("TxnOffsetCommitResponsePartition28", TxnOffsetCommitResponsePartition28_fields);
   ("DescribeAclsRequest", DescribeAclsRequest_fields);
   ("DescribeAclsResponse", DescribeAclsResponse_fields);
   ("DescribeAclsResource29", DescribeAclsResource29_fields);
   ("AclDescription29", AclDescription29_fields);
   ("CreateAclsRequest", CreateAclsRequest_fields);
   ("CreatableAcl30", CreatableAcl30_fields);
   ("CreateAclsResponse", CreateAclsResponse_fields);
   ("CreatableAclResult30", CreatableAclResult30_fields);
   ("DeleteAclsRequest", DeleteAclsRequest_fields);
   ("DeleteAclsFilter31", DeleteAclsFilter31_fields);
   ("DeleteAclsResponse", DeleteAclsResponse_fields);
   ("DeleteAclsFilterResult31", DeleteAclsFilterResult31_fields);
   ("DeleteAclsMatchingAcl31", DeleteAclsMatchingAcl31_fields);
   ("DescribeConfigsRequest", DescribeConfigsRequest_fields);
   ("DescribeConfigsResource32", DescribeConfigsResource32_fields);
   ("DescribeConfigsResponse", DescribeConfigsResponse_fields);
   ("DescribeConfigsResult32", DescribeConfigsResult32_fields);
   ("DescribeConfigsResourceResult32", DescribeConfigsResourceResult32_fields);
   ("DescribeConfigsSynonym32", DescribeConfigsSynonym32_fields);
   ("AlterConfigsRequest", AlterConfigsRequest_fields);
   ("AlterConfigsResource33", AlterConfigsResource33_fields);
   ("AlterableConfig33", AlterableConfig33_fields);
   ("AlterConfigsResponse", AlterConfigsResponse_fields);
   ("AlterConfigsResourceResponse33", AlterConfigsResourceResponse33_fields);
   ("AlterReplicaLogDirsRequest", AlterReplicaLogDirsRequest_fields);
   ("AlterReplicaLogDir34", AlterReplicaLogDir34_fields);
   ("AlterReplicaLogDirTopic34", AlterReplicaLogDirTopic34_fields);
   ("AlterReplicaLogDirsResponse", AlterReplicaLogDirsResponse_fields);
   ("AlterReplicaLogDirTopicResult34", AlterReplicaLogDirTopicResult34_fields);
   ("AlterReplicaLogDirPartitionResult34", AlterReplicaLogDirPartitionResult34_fields);
   ("DescribeLogDirsRequest", DescribeLogDirsRequest_fields);
   ("DescribableLogDirTopic35", DescribableLogDirTopic35_fields);
   ("DescribeLogDirsResponse", DescribeLogDirsResponse_fields);
   ("DescribeLogDirsResult35", DescribeLogDirsResult35_fields);
   ("DescribeLogDirsTopic35", DescribeLogDirsTopic35_fields);
   ("DescribeLogDirsPartition35", DescribeLogDirsPartition35_fields);
   ("SaslAuthenticateRequest", SaslAuthenticateRequest_fields);
   ("SaslAuthenticateResponse", SaslAuthenticateResponse_fields);
   ("CreatePartitionsRequest", CreatePartitionsRequest_fields);
   ("CreatePartitionsTopic37", CreatePartitionsTopic37_fields);
   ("CreatePartitionsAssignment37", CreatePartitionsAssignment37_fields);
   ("CreatePartitionsResponse", CreatePartitionsResponse_fields);
   ("CreatePartitionsTopicResult37", CreatePartitionsTopicResult37_fields);
   ("CreateDelegationTokenRequest", CreateDelegationTokenRequest_fields);
   ("CreatableRenewers38", CreatableRenewers38_fields);
   ("CreateDelegationTokenResponse", CreateDelegationTokenResponse_fields);
   ("RenewDelegationTokenRequest", RenewDelegationTokenRequest_fields);
   ("RenewDelegationTokenResponse", RenewDelegationTokenResponse_fields);
   ("ExpireDelegationTokenRequest", ExpireDelegationTokenRequest_fields);
   ("ExpireDelegationTokenResponse", ExpireDelegationTokenResponse_fields);
   ("DescribeDelegationTokenRequest", DescribeDelegationTokenRequest_fields);
   ("DescribeDelegationTokenOwner41", DescribeDelegationTokenOwner41_fields);
   ("DescribeDelegationTokenResponse", DescribeDelegationTokenResponse_fields);
   ("DescribedDelegationToken41", DescribedDelegationToken41_fields);
   ("DescribedDelegationTokenRenewer41", DescribedDelegationTokenRenewer41_fields);
   ("DeleteGroupsRequest", DeleteGroupsRequest_fields);
   ("DeleteGroupsResponse", DeleteGroupsResponse_fields);
   ("DeletableGroupResult42", DeletableGroupResult42_fields);
   ("ElectLeadersRequest", ElectLeadersRequest_fields);
   ("TopicPartitions43", TopicPartitions43_fields);
   ("ElectLeadersResponse", ElectLeadersResponse_fields);
   ("ReplicaElectionResult43", ReplicaElectionResult43_fields);
   ("PartitionResult43", PartitionResult43_fields);
   ("IncrementalAlterConfigsRequest", IncrementalAlterConfigsRequest_fields);
   ("AlterConfigsResource44", AlterConfigsResource44_fields);
   ("AlterableConfig44", AlterableConfig44_fields);
   ("IncrementalAlterConfigsResponse", IncrementalAlterConfigsResponse_fields);
   ("AlterConfigsResourceResponse44", AlterConfigsResourceResponse44_fields);
   ("AlterPartitionReassignmentsRequest", AlterPartitionReassignmentsRequest_fields);
   ("ReassignableTopic45", ReassignableTopic45_fields);
   ("ReassignablePartition45", ReassignablePartition45_fields);
   ("AlterPartitionReassignmentsResponse", AlterPartitionReassignmentsResponse_fields);
   ("ReassignableTopicResponse45", ReassignableTopicResponse45_fields);
   ("ReassignablePartitionResponse45", ReassignablePartitionResponse45_fields);
   ("ListPartitionReassignmentsRequest", ListPartitionReassignmentsRequest_fields);
   ("ListPartitionReassignmentsTopics46", ListPartitionReassignmentsTopics46_fields);
   ("ListPartitionReassignmentsResponse", ListPartitionReassignmentsResponse_fields);
   ("OngoingTopicReassignment46", OngoingTopicReassignment46_fields);
   ("OngoingPartitionReassignment46", OngoingPartitionReassignment46_fields);
   ("OffsetDeleteRequest", OffsetDeleteRequest_fields);
   ("OffsetDeleteRequestTopic47", OffsetDeleteRequestTopic47_fields);
   ("OffsetDeleteRequestPartition47", OffsetDeleteRequestPartition47_fields);
   ("OffsetDeleteResponse", OffsetDeleteResponse_fields);
   ("OffsetDeleteResponseTopic47", OffsetDeleteResponseTopic47_fields);
   ("OffsetDeleteResponsePartition47", OffsetDeleteResponsePartition47_fields)].

(** The whole text. *)
Lemma types_text : k_types messages = map (fun p => (fst p, struct_type (snd p))) layouts.
Proof. reflexivity. Qed.
Lemma funcs_text : k_funcs messages = flat_map texts layouts.
Proof. reflexivity. Qed.
Lemma globals_text : k_globals messages = [].
Proof. reflexivity. Qed.
(** The schemas of the model. *)
Lemma schemas : map (fun p => (fst p, c_schema (snd p))) all_codecs = map (fun p => (fst p, erase (snd p))) layouts.
Proof. reflexivity. Qed.
