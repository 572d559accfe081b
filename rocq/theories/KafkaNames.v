(** * The fields of the messages by name

    Written by tools/gen_names.py from tools/kafka_names.txt: for each type the
    names of its fields in the order in which they go over the wire.  That file was
    typed by hand from memory of Kafka's message definitions (release 2.4), by
    somebody who had been working with the code for hours; it is a second reading,
    not an independent source.  The type names (with their numbers) are the code's.
    One entry was changed after comparing with the code: CreateTopicsRequest has
    timeoutMs and validateOnly, in lower case. *)
From Coq Require Import String.
From Verif Require Import GoBase SchemaSpec Link Msg01 Msg02 Msg03 Msg04 Msg05 Msg06 Msg07 Msg08 Msg09 Msg10.
Open Scope string_scope.

Definition RequestHeader_named (t : RequestHeader) : dens RequestHeader_schema := (RequestHeader_RequestApiKey t, (RequestHeader_RequestApiVersion t, (RequestHeader_CorrelationId t, (RequestHeader_ClientId t, tt)))).
Definition ResponseHeader_named (t : ResponseHeader) : dens ResponseHeader_schema := (ResponseHeader_CorrelationId t, tt).
Definition PartitionProduceData0_named (t : PartitionProduceData0) : dens PartitionProduceData0_schema := (PartitionProduceData0_PartitionIndex t, (PartitionProduceData0_Records t, tt)).
Definition TopicProduceData0_named (t : TopicProduceData0) : dens TopicProduceData0_schema := (TopicProduceData0_Name t, (option_map (map PartitionProduceData0_named) (TopicProduceData0_Partitions t), tt)).
Definition ProduceRequest_named (t : ProduceRequest) : dens ProduceRequest_schema := (ProduceRequest_TransactionalId t, (ProduceRequest_Acks t, (ProduceRequest_TimeoutMs t, (option_map (map TopicProduceData0_named) (ProduceRequest_Topics t), tt)))).
Definition BatchIndexAndErrorMessage0_named (t : BatchIndexAndErrorMessage0) : dens BatchIndexAndErrorMessage0_schema := (BatchIndexAndErrorMessage0_BatchIndex t, (BatchIndexAndErrorMessage0_BatchIndexErrorMessage t, tt)).
Definition PartitionProduceResponse0_named (t : PartitionProduceResponse0) : dens PartitionProduceResponse0_schema := (PartitionProduceResponse0_PartitionIndex t, (PartitionProduceResponse0_ErrorCode t, (PartitionProduceResponse0_BaseOffset t, (PartitionProduceResponse0_LogAppendTimeMs t, (PartitionProduceResponse0_LogStartOffset t, (option_map (map BatchIndexAndErrorMessage0_named) (PartitionProduceResponse0_RecordErrors t), (PartitionProduceResponse0_ErrorMessage t, tt))))))).
Definition TopicProduceResponse0_named (t : TopicProduceResponse0) : dens TopicProduceResponse0_schema := (TopicProduceResponse0_Name t, (option_map (map PartitionProduceResponse0_named) (TopicProduceResponse0_Partitions t), tt)).
Definition ProduceResponse_named (t : ProduceResponse) : dens ProduceResponse_schema := (option_map (map TopicProduceResponse0_named) (ProduceResponse_Responses t), (ProduceResponse_ThrottleTimeMs t, tt)).
Definition FetchPartition1_named (t : FetchPartition1) : dens FetchPartition1_schema := (FetchPartition1_PartitionIndex t, (FetchPartition1_CurrentLeaderEpoch t, (FetchPartition1_FetchOffset t, (FetchPartition1_LogStartOffset t, (FetchPartition1_MaxBytes t, tt))))).
Definition FetchableTopic1_named (t : FetchableTopic1) : dens FetchableTopic1_schema := (FetchableTopic1_Name t, (option_map (map FetchPartition1_named) (FetchableTopic1_FetchPartitions t), tt)).
Definition ForgottenTopic1_named (t : ForgottenTopic1) : dens ForgottenTopic1_schema := (ForgottenTopic1_Name t, (ForgottenTopic1_ForgottenPartitionIndexes t, tt)).
Definition FetchRequest_named (t : FetchRequest) : dens FetchRequest_schema := (FetchRequest_ReplicaId t, (FetchRequest_MaxWait t, (FetchRequest_MinBytes t, (FetchRequest_MaxBytes t, (FetchRequest_IsolationLevel t, (FetchRequest_SessionId t, (FetchRequest_Epoch t, (option_map (map FetchableTopic1_named) (FetchRequest_Topics t), (option_map (map ForgottenTopic1_named) (FetchRequest_Forgotten t), (FetchRequest_RackId t, tt)))))))))).
Definition AbortedTransaction1_named (t : AbortedTransaction1) : dens AbortedTransaction1_schema := (AbortedTransaction1_ProducerId t, (AbortedTransaction1_FirstOffset t, tt)).
Definition FetchablePartitionResponse1_named (t : FetchablePartitionResponse1) : dens FetchablePartitionResponse1_schema := (FetchablePartitionResponse1_PartitionIndex t, (FetchablePartitionResponse1_ErrorCode t, (FetchablePartitionResponse1_HighWatermark t, (FetchablePartitionResponse1_LastStableOffset t, (FetchablePartitionResponse1_LogStartOffset t, (option_map (map AbortedTransaction1_named) (FetchablePartitionResponse1_Aborted t), (FetchablePartitionResponse1_PreferredReadReplica t, (FetchablePartitionResponse1_Records t, tt)))))))).
Definition FetchableTopicResponse1_named (t : FetchableTopicResponse1) : dens FetchableTopicResponse1_schema := (FetchableTopicResponse1_Name t, (option_map (map FetchablePartitionResponse1_named) (FetchableTopicResponse1_Partitions t), tt)).
Definition FetchResponse_named (t : FetchResponse) : dens FetchResponse_schema := (FetchResponse_ThrottleTimeMs t, (FetchResponse_ErrorCode t, (FetchResponse_SessionId t, (option_map (map FetchableTopicResponse1_named) (FetchResponse_Topics t), tt)))).
Definition ListOffsetPartition2_named (t : ListOffsetPartition2) : dens ListOffsetPartition2_schema := (ListOffsetPartition2_PartitionIndex t, (ListOffsetPartition2_CurrentLeaderEpoch t, (ListOffsetPartition2_Timestamp t, (ListOffsetPartition2_MaxNumOffsets t, tt)))).
Definition ListOffsetTopic2_named (t : ListOffsetTopic2) : dens ListOffsetTopic2_schema := (ListOffsetTopic2_Name t, (option_map (map ListOffsetPartition2_named) (ListOffsetTopic2_Partitions t), tt)).
Definition ListOffsetRequest_named (t : ListOffsetRequest) : dens ListOffsetRequest_schema := (ListOffsetRequest_ReplicaId t, (ListOffsetRequest_IsolationLevel t, (option_map (map ListOffsetTopic2_named) (ListOffsetRequest_Topics t), tt))).
Definition ListOffsetPartitionResponse2_named (t : ListOffsetPartitionResponse2) : dens ListOffsetPartitionResponse2_schema := (ListOffsetPartitionResponse2_PartitionIndex t, (ListOffsetPartitionResponse2_ErrorCode t, (ListOffsetPartitionResponse2_OldStyleOffsets t, (ListOffsetPartitionResponse2_Timestamp t, (ListOffsetPartitionResponse2_Offset t, (ListOffsetPartitionResponse2_LeaderEpoch t, tt)))))).
Definition ListOffsetTopicResponse2_named (t : ListOffsetTopicResponse2) : dens ListOffsetTopicResponse2_schema := (ListOffsetTopicResponse2_Name t, (option_map (map ListOffsetPartitionResponse2_named) (ListOffsetTopicResponse2_Partitions t), tt)).
Definition ListOffsetResponse_named (t : ListOffsetResponse) : dens ListOffsetResponse_schema := (ListOffsetResponse_ThrottleTimeMs t, (option_map (map ListOffsetTopicResponse2_named) (ListOffsetResponse_Topics t), tt)).
Definition MetadataRequestTopic3_named (t : MetadataRequestTopic3) : dens MetadataRequestTopic3_schema := (MetadataRequestTopic3_Name t, tt).
Definition MetadataRequest_named (t : MetadataRequest) : dens MetadataRequest_schema := (option_map (map MetadataRequestTopic3_named) (MetadataRequest_Topics t), (MetadataRequest_AllowAutoTopicCreation t, (MetadataRequest_IncludeClusterAuthorizedOperations t, (MetadataRequest_IncludeTopicAuthorizedOperations t, tt)))).
Definition MetadataResponseBroker3_named (t : MetadataResponseBroker3) : dens MetadataResponseBroker3_schema := (MetadataResponseBroker3_NodeId t, (MetadataResponseBroker3_Host t, (MetadataResponseBroker3_Port t, (MetadataResponseBroker3_Rack t, tt)))).
Definition MetadataResponsePartition3_named (t : MetadataResponsePartition3) : dens MetadataResponsePartition3_schema := (MetadataResponsePartition3_ErrorCode t, (MetadataResponsePartition3_PartitionIndex t, (MetadataResponsePartition3_LeaderId t, (MetadataResponsePartition3_LeaderEpoch t, (MetadataResponsePartition3_ReplicaNodes t, (MetadataResponsePartition3_IsrNodes t, (MetadataResponsePartition3_OfflineReplicas t, tt))))))).
Definition MetadataResponseTopic3_named (t : MetadataResponseTopic3) : dens MetadataResponseTopic3_schema := (MetadataResponseTopic3_ErrorCode t, (MetadataResponseTopic3_Name t, (MetadataResponseTopic3_IsInternal t, (option_map (map MetadataResponsePartition3_named) (MetadataResponseTopic3_Partitions t), (MetadataResponseTopic3_TopicAuthorizedOperations t, tt))))).
Definition MetadataResponse_named (t : MetadataResponse) : dens MetadataResponse_schema := (MetadataResponse_ThrottleTimeMs t, (option_map (map MetadataResponseBroker3_named) (MetadataResponse_Brokers t), (MetadataResponse_ClusterId t, (MetadataResponse_ControllerId t, (option_map (map MetadataResponseTopic3_named) (MetadataResponse_Topics t), (MetadataResponse_ClusterAuthorizedOperations t, tt)))))).
Definition LeaderAndIsrPartitionState4_named (t : LeaderAndIsrPartitionState4) : dens LeaderAndIsrPartitionState4_schema := (LeaderAndIsrPartitionState4_TopicName t, (LeaderAndIsrPartitionState4_PartitionIndex t, (LeaderAndIsrPartitionState4_ControllerEpoch t, (LeaderAndIsrPartitionState4_Leader t, (LeaderAndIsrPartitionState4_LeaderEpoch t, (LeaderAndIsrPartitionState4_Isr t, (LeaderAndIsrPartitionState4_ZkVersion t, (LeaderAndIsrPartitionState4_Replicas t, (LeaderAndIsrPartitionState4_AddingReplicas t, (LeaderAndIsrPartitionState4_RemovingReplicas t, (LeaderAndIsrPartitionState4_IsNew t, tt))))))))))).
Definition LeaderAndIsrTopicState4_named (t : LeaderAndIsrTopicState4) : dens LeaderAndIsrTopicState4_schema := (LeaderAndIsrTopicState4_TopicName t, (option_map (map LeaderAndIsrPartitionState4_named) (LeaderAndIsrTopicState4_PartitionStates t), tt)).
Definition LeaderAndIsrLiveLeader4_named (t : LeaderAndIsrLiveLeader4) : dens LeaderAndIsrLiveLeader4_schema := (LeaderAndIsrLiveLeader4_BrokerId t, (LeaderAndIsrLiveLeader4_HostName t, (LeaderAndIsrLiveLeader4_Port t, tt))).
Definition LeaderAndIsrRequest_named (t : LeaderAndIsrRequest) : dens LeaderAndIsrRequest_schema := (LeaderAndIsrRequest_ControllerId t, (LeaderAndIsrRequest_ControllerEpoch t, (LeaderAndIsrRequest_BrokerEpoch t, (option_map (map LeaderAndIsrPartitionState4_named) (LeaderAndIsrRequest_UngroupedPartitionStates t), (option_map (map LeaderAndIsrTopicState4_named) (LeaderAndIsrRequest_TopicStates t), (option_map (map LeaderAndIsrLiveLeader4_named) (LeaderAndIsrRequest_LiveLeaders t), tt)))))).
Definition LeaderAndIsrPartitionError4_named (t : LeaderAndIsrPartitionError4) : dens LeaderAndIsrPartitionError4_schema := (LeaderAndIsrPartitionError4_TopicName t, (LeaderAndIsrPartitionError4_PartitionIndex t, (LeaderAndIsrPartitionError4_ErrorCode t, tt))).
Definition LeaderAndIsrResponse_named (t : LeaderAndIsrResponse) : dens LeaderAndIsrResponse_schema := (LeaderAndIsrResponse_ErrorCode t, (option_map (map LeaderAndIsrPartitionError4_named) (LeaderAndIsrResponse_PartitionErrors t), tt)).
Definition StopReplicaPartitionV05_named (t : StopReplicaPartitionV05) : dens StopReplicaPartitionV05_schema := (StopReplicaPartitionV05_TopicName t, (StopReplicaPartitionV05_PartitionIndex t, tt)).
Definition StopReplicaTopic5_named (t : StopReplicaTopic5) : dens StopReplicaTopic5_schema := (StopReplicaTopic5_Name t, (StopReplicaTopic5_PartitionIndexes t, tt)).
Definition StopReplicaRequest_named (t : StopReplicaRequest) : dens StopReplicaRequest_schema := (StopReplicaRequest_ControllerId t, (StopReplicaRequest_ControllerEpoch t, (StopReplicaRequest_BrokerEpoch t, (StopReplicaRequest_DeletePartitions t, (option_map (map StopReplicaPartitionV05_named) (StopReplicaRequest_UngroupedPartitions t), (option_map (map StopReplicaTopic5_named) (StopReplicaRequest_Topics t), tt)))))).
Definition StopReplicaPartitionError5_named (t : StopReplicaPartitionError5) : dens StopReplicaPartitionError5_schema := (StopReplicaPartitionError5_TopicName t, (StopReplicaPartitionError5_PartitionIndex t, (StopReplicaPartitionError5_ErrorCode t, tt))).
Definition StopReplicaResponse_named (t : StopReplicaResponse) : dens StopReplicaResponse_schema := (StopReplicaResponse_ErrorCode t, (option_map (map StopReplicaPartitionError5_named) (StopReplicaResponse_PartitionErrors t), tt)).
Definition UpdateMetadataPartitionState6_named (t : UpdateMetadataPartitionState6) : dens UpdateMetadataPartitionState6_schema := (UpdateMetadataPartitionState6_TopicName t, (UpdateMetadataPartitionState6_PartitionIndex t, (UpdateMetadataPartitionState6_ControllerEpoch t, (UpdateMetadataPartitionState6_Leader t, (UpdateMetadataPartitionState6_LeaderEpoch t, (UpdateMetadataPartitionState6_Isr t, (UpdateMetadataPartitionState6_ZkVersion t, (UpdateMetadataPartitionState6_Replicas t, (UpdateMetadataPartitionState6_OfflineReplicas t, tt))))))))).
Definition UpdateMetadataTopicState6_named (t : UpdateMetadataTopicState6) : dens UpdateMetadataTopicState6_schema := (UpdateMetadataTopicState6_TopicName t, (option_map (map UpdateMetadataPartitionState6_named) (UpdateMetadataTopicState6_PartitionStates t), tt)).
Definition UpdateMetadataEndpoint6_named (t : UpdateMetadataEndpoint6) : dens UpdateMetadataEndpoint6_schema := (UpdateMetadataEndpoint6_Port t, (UpdateMetadataEndpoint6_Host t, (UpdateMetadataEndpoint6_Listener t, (UpdateMetadataEndpoint6_SecurityProtocol t, tt)))).
Definition UpdateMetadataBroker6_named (t : UpdateMetadataBroker6) : dens UpdateMetadataBroker6_schema := (UpdateMetadataBroker6_Id t, (UpdateMetadataBroker6_V0Host t, (UpdateMetadataBroker6_V0Port t, (option_map (map UpdateMetadataEndpoint6_named) (UpdateMetadataBroker6_Endpoints t), (UpdateMetadataBroker6_Rack t, tt))))).
Definition UpdateMetadataRequest_named (t : UpdateMetadataRequest) : dens UpdateMetadataRequest_schema := (UpdateMetadataRequest_ControllerId t, (UpdateMetadataRequest_ControllerEpoch t, (UpdateMetadataRequest_BrokerEpoch t, (option_map (map UpdateMetadataPartitionState6_named) (UpdateMetadataRequest_UngroupedPartitionStates t), (option_map (map UpdateMetadataTopicState6_named) (UpdateMetadataRequest_TopicStates t), (option_map (map UpdateMetadataBroker6_named) (UpdateMetadataRequest_LiveBrokers t), tt)))))).
Definition UpdateMetadataResponse_named (t : UpdateMetadataResponse) : dens UpdateMetadataResponse_schema := (UpdateMetadataResponse_ErrorCode t, tt).
Definition ControlledShutdownRequest_named (t : ControlledShutdownRequest) : dens ControlledShutdownRequest_schema := (ControlledShutdownRequest_BrokerId t, (ControlledShutdownRequest_BrokerEpoch t, tt)).
Definition RemainingPartition7_named (t : RemainingPartition7) : dens RemainingPartition7_schema := (RemainingPartition7_TopicName t, (RemainingPartition7_PartitionIndex t, tt)).
Definition ControlledShutdownResponse_named (t : ControlledShutdownResponse) : dens ControlledShutdownResponse_schema := (ControlledShutdownResponse_ErrorCode t, (option_map (map RemainingPartition7_named) (ControlledShutdownResponse_RemainingPartitions t), tt)).
Definition OffsetCommitRequestPartition8_named (t : OffsetCommitRequestPartition8) : dens OffsetCommitRequestPartition8_schema := (OffsetCommitRequestPartition8_PartitionIndex t, (OffsetCommitRequestPartition8_CommittedOffset t, (OffsetCommitRequestPartition8_CommittedLeaderEpoch t, (OffsetCommitRequestPartition8_CommittedMetadata t, tt)))).
Definition OffsetCommitRequestTopic8_named (t : OffsetCommitRequestTopic8) : dens OffsetCommitRequestTopic8_schema := (OffsetCommitRequestTopic8_Name t, (option_map (map OffsetCommitRequestPartition8_named) (OffsetCommitRequestTopic8_Partitions t), tt)).
Definition OffsetCommitRequest_named (t : OffsetCommitRequest) : dens OffsetCommitRequest_schema := (OffsetCommitRequest_GroupId t, (OffsetCommitRequest_GenerationId t, (OffsetCommitRequest_MemberId t, (OffsetCommitRequest_GroupInstanceId t, (OffsetCommitRequest_RetentionTimeMs t, (option_map (map OffsetCommitRequestTopic8_named) (OffsetCommitRequest_Topics t), tt)))))).
Definition OffsetCommitResponsePartition8_named (t : OffsetCommitResponsePartition8) : dens OffsetCommitResponsePartition8_schema := (OffsetCommitResponsePartition8_PartitionIndex t, (OffsetCommitResponsePartition8_ErrorCode t, tt)).
Definition OffsetCommitResponseTopic8_named (t : OffsetCommitResponseTopic8) : dens OffsetCommitResponseTopic8_schema := (OffsetCommitResponseTopic8_Name t, (option_map (map OffsetCommitResponsePartition8_named) (OffsetCommitResponseTopic8_Partitions t), tt)).
Definition OffsetCommitResponse_named (t : OffsetCommitResponse) : dens OffsetCommitResponse_schema := (OffsetCommitResponse_ThrottleTimeMs t, (option_map (map OffsetCommitResponseTopic8_named) (OffsetCommitResponse_Topics t), tt)).
Definition OffsetFetchRequestTopic9_named (t : OffsetFetchRequestTopic9) : dens OffsetFetchRequestTopic9_schema := (OffsetFetchRequestTopic9_Name t, (OffsetFetchRequestTopic9_PartitionIndexes t, tt)).
Definition OffsetFetchRequest_named (t : OffsetFetchRequest) : dens OffsetFetchRequest_schema := (OffsetFetchRequest_GroupId t, (option_map (map OffsetFetchRequestTopic9_named) (OffsetFetchRequest_Topics t), tt)).
Definition OffsetFetchResponsePartition9_named (t : OffsetFetchResponsePartition9) : dens OffsetFetchResponsePartition9_schema := (OffsetFetchResponsePartition9_PartitionIndex t, (OffsetFetchResponsePartition9_CommittedOffset t, (OffsetFetchResponsePartition9_CommittedLeaderEpoch t, (OffsetFetchResponsePartition9_Metadata t, (OffsetFetchResponsePartition9_ErrorCode t, tt))))).
Definition OffsetFetchResponseTopic9_named (t : OffsetFetchResponseTopic9) : dens OffsetFetchResponseTopic9_schema := (OffsetFetchResponseTopic9_Name t, (option_map (map OffsetFetchResponsePartition9_named) (OffsetFetchResponseTopic9_Partitions t), tt)).
Definition OffsetFetchResponse_named (t : OffsetFetchResponse) : dens OffsetFetchResponse_schema := (OffsetFetchResponse_ThrottleTimeMs t, (option_map (map OffsetFetchResponseTopic9_named) (OffsetFetchResponse_Topics t), (OffsetFetchResponse_ErrorCode t, tt))).
Definition FindCoordinatorRequest_named (t : FindCoordinatorRequest) : dens FindCoordinatorRequest_schema := (FindCoordinatorRequest_Key t, (FindCoordinatorRequest_KeyType t, tt)).
Definition FindCoordinatorResponse_named (t : FindCoordinatorResponse) : dens FindCoordinatorResponse_schema := (FindCoordinatorResponse_ThrottleTimeMs t, (FindCoordinatorResponse_ErrorCode t, (FindCoordinatorResponse_ErrorMessage t, (FindCoordinatorResponse_NodeId t, (FindCoordinatorResponse_Host t, (FindCoordinatorResponse_Port t, tt)))))).
Definition JoinGroupRequestProtocol11_named (t : JoinGroupRequestProtocol11) : dens JoinGroupRequestProtocol11_schema := (JoinGroupRequestProtocol11_Name t, (JoinGroupRequestProtocol11_Metadata t, tt)).
Definition JoinGroupRequest_named (t : JoinGroupRequest) : dens JoinGroupRequest_schema := (JoinGroupRequest_GroupId t, (JoinGroupRequest_SessionTimeoutMs t, (JoinGroupRequest_RebalanceTimeoutMs t, (JoinGroupRequest_MemberId t, (JoinGroupRequest_GroupInstanceId t, (JoinGroupRequest_ProtocolType t, (option_map (map JoinGroupRequestProtocol11_named) (JoinGroupRequest_Protocols t), tt))))))).
Definition JoinGroupResponseMember11_named (t : JoinGroupResponseMember11) : dens JoinGroupResponseMember11_schema := (JoinGroupResponseMember11_MemberId t, (JoinGroupResponseMember11_GroupInstanceId t, (JoinGroupResponseMember11_Metadata t, tt))).
Definition JoinGroupResponse_named (t : JoinGroupResponse) : dens JoinGroupResponse_schema := (JoinGroupResponse_ThrottleTimeMs t, (JoinGroupResponse_ErrorCode t, (JoinGroupResponse_GenerationId t, (JoinGroupResponse_ProtocolName t, (JoinGroupResponse_Leader t, (JoinGroupResponse_MemberId t, (option_map (map JoinGroupResponseMember11_named) (JoinGroupResponse_Members t), tt))))))).
Definition HeartbeatRequest_named (t : HeartbeatRequest) : dens HeartbeatRequest_schema := (HeartbeatRequest_GroupId t, (HeartbeatRequest_GenerationId t, (HeartbeatRequest_MemberId t, (HeartbeatRequest_GroupInstanceId t, tt)))).
Definition HeartbeatResponse_named (t : HeartbeatResponse) : dens HeartbeatResponse_schema := (HeartbeatResponse_ThrottleTimeMs t, (HeartbeatResponse_ErrorCode t, tt)).
Definition MemberIdentity13_named (t : MemberIdentity13) : dens MemberIdentity13_schema := (MemberIdentity13_MemberId t, (MemberIdentity13_GroupInstanceId t, tt)).
Definition LeaveGroupRequest_named (t : LeaveGroupRequest) : dens LeaveGroupRequest_schema := (LeaveGroupRequest_GroupId t, (LeaveGroupRequest_MemberId t, (option_map (map MemberIdentity13_named) (LeaveGroupRequest_Members t), tt))).
Definition MemberResponse13_named (t : MemberResponse13) : dens MemberResponse13_schema := (MemberResponse13_MemberId t, (MemberResponse13_GroupInstanceId t, (MemberResponse13_ErrorCode t, tt))).
Definition LeaveGroupResponse_named (t : LeaveGroupResponse) : dens LeaveGroupResponse_schema := (LeaveGroupResponse_ThrottleTimeMs t, (LeaveGroupResponse_ErrorCode t, (option_map (map MemberResponse13_named) (LeaveGroupResponse_Members t), tt))).
Definition SyncGroupRequestAssignment14_named (t : SyncGroupRequestAssignment14) : dens SyncGroupRequestAssignment14_schema := (SyncGroupRequestAssignment14_MemberId t, (SyncGroupRequestAssignment14_Assignment t, tt)).
Definition SyncGroupRequest_named (t : SyncGroupRequest) : dens SyncGroupRequest_schema := (SyncGroupRequest_GroupId t, (SyncGroupRequest_GenerationId t, (SyncGroupRequest_MemberId t, (SyncGroupRequest_GroupInstanceId t, (option_map (map SyncGroupRequestAssignment14_named) (SyncGroupRequest_Assignments t), tt))))).
Definition SyncGroupResponse_named (t : SyncGroupResponse) : dens SyncGroupResponse_schema := (SyncGroupResponse_ThrottleTimeMs t, (SyncGroupResponse_ErrorCode t, (SyncGroupResponse_Assignment t, tt))).
Definition DescribeGroupsRequest_named (t : DescribeGroupsRequest) : dens DescribeGroupsRequest_schema := (DescribeGroupsRequest_Groups t, (DescribeGroupsRequest_IncludeAuthorizedOperations t, tt)).
Definition DescribedGroupMember15_named (t : DescribedGroupMember15) : dens DescribedGroupMember15_schema := (DescribedGroupMember15_MemberId t, (DescribedGroupMember15_GroupInstanceId t, (DescribedGroupMember15_ClientId t, (DescribedGroupMember15_ClientHost t, (DescribedGroupMember15_MemberMetadata t, (DescribedGroupMember15_MemberAssignment t, tt)))))).
Definition DescribedGroup15_named (t : DescribedGroup15) : dens DescribedGroup15_schema := (DescribedGroup15_ErrorCode t, (DescribedGroup15_GroupId t, (DescribedGroup15_GroupState t, (DescribedGroup15_ProtocolType t, (DescribedGroup15_ProtocolData t, (option_map (map DescribedGroupMember15_named) (DescribedGroup15_Members t), (DescribedGroup15_AuthorizedOperations t, tt))))))).
Definition DescribeGroupsResponse_named (t : DescribeGroupsResponse) : dens DescribeGroupsResponse_schema := (DescribeGroupsResponse_ThrottleTimeMs t, (option_map (map DescribedGroup15_named) (DescribeGroupsResponse_Groups t), tt)).
Definition ListGroupsRequest_named (t : ListGroupsRequest) : dens ListGroupsRequest_schema := tt.
Definition ListedGroup16_named (t : ListedGroup16) : dens ListedGroup16_schema := (ListedGroup16_GroupId t, (ListedGroup16_ProtocolType t, tt)).
Definition ListGroupsResponse_named (t : ListGroupsResponse) : dens ListGroupsResponse_schema := (ListGroupsResponse_ThrottleTimeMs t, (ListGroupsResponse_ErrorCode t, (option_map (map ListedGroup16_named) (ListGroupsResponse_Groups t), tt))).
Definition SaslHandshakeRequest_named (t : SaslHandshakeRequest) : dens SaslHandshakeRequest_schema := (SaslHandshakeRequest_Mechanism t, tt).
Definition SaslHandshakeResponse_named (t : SaslHandshakeResponse) : dens SaslHandshakeResponse_schema := (SaslHandshakeResponse_ErrorCode t, (SaslHandshakeResponse_Mechanisms t, tt)).
Definition ApiVersionsRequest_named (t : ApiVersionsRequest) : dens ApiVersionsRequest_schema := (ApiVersionsRequest_ClientSoftwareName t, (ApiVersionsRequest_ClientSoftwareVersion t, tt)).
Definition ApiVersionsResponseKey18_named (t : ApiVersionsResponseKey18) : dens ApiVersionsResponseKey18_schema := (ApiVersionsResponseKey18_ApiKey t, (ApiVersionsResponseKey18_MinVersion t, (ApiVersionsResponseKey18_MaxVersion t, tt))).
Definition ApiVersionsResponse_named (t : ApiVersionsResponse) : dens ApiVersionsResponse_schema := (ApiVersionsResponse_ErrorCode t, (option_map (map ApiVersionsResponseKey18_named) (ApiVersionsResponse_ApiKeys t), (ApiVersionsResponse_ThrottleTimeMs t, tt))).
Definition CreatableReplicaAssignment19_named (t : CreatableReplicaAssignment19) : dens CreatableReplicaAssignment19_schema := (CreatableReplicaAssignment19_PartitionIndex t, (CreatableReplicaAssignment19_BrokerIds t, tt)).
Definition CreateableTopicConfig19_named (t : CreateableTopicConfig19) : dens CreateableTopicConfig19_schema := (CreateableTopicConfig19_Name t, (CreateableTopicConfig19_Value t, tt)).
Definition CreatableTopic19_named (t : CreatableTopic19) : dens CreatableTopic19_schema := (CreatableTopic19_Name t, (CreatableTopic19_NumPartitions t, (CreatableTopic19_ReplicationFactor t, (option_map (map CreatableReplicaAssignment19_named) (CreatableTopic19_Assignments t), (option_map (map CreateableTopicConfig19_named) (CreatableTopic19_Configs t), tt))))).
Definition CreateTopicsRequest_named (t : CreateTopicsRequest) : dens CreateTopicsRequest_schema := (option_map (map CreatableTopic19_named) (CreateTopicsRequest_Topics t), (CreateTopicsRequest_timeoutMs t, (CreateTopicsRequest_validateOnly t, tt))).
Definition CreatableTopicConfigs19_named (t : CreatableTopicConfigs19) : dens CreatableTopicConfigs19_schema := (CreatableTopicConfigs19_Name t, (CreatableTopicConfigs19_Value t, (CreatableTopicConfigs19_ReadOnly t, (CreatableTopicConfigs19_ConfigSource t, (CreatableTopicConfigs19_IsSensitive t, tt))))).
Definition CreatableTopicResult19_named (t : CreatableTopicResult19) : dens CreatableTopicResult19_schema := (CreatableTopicResult19_Name t, (CreatableTopicResult19_ErrorCode t, (CreatableTopicResult19_ErrorMessage t, (CreatableTopicResult19_TopicConfigErrorCode t, (CreatableTopicResult19_NumPartitions t, (CreatableTopicResult19_ReplicationFactor t, (option_map (map CreatableTopicConfigs19_named) (CreatableTopicResult19_Configs t), tt))))))).
Definition CreateTopicsResponse_named (t : CreateTopicsResponse) : dens CreateTopicsResponse_schema := (CreateTopicsResponse_ThrottleTimeMs t, (option_map (map CreatableTopicResult19_named) (CreateTopicsResponse_Topics t), tt)).
Definition DeleteTopicsRequest_named (t : DeleteTopicsRequest) : dens DeleteTopicsRequest_schema := (DeleteTopicsRequest_TopicNames t, (DeleteTopicsRequest_TimeoutMs t, tt)).
Definition DeletableTopicResult20_named (t : DeletableTopicResult20) : dens DeletableTopicResult20_schema := (DeletableTopicResult20_Name t, (DeletableTopicResult20_ErrorCode t, tt)).
Definition DeleteTopicsResponse_named (t : DeleteTopicsResponse) : dens DeleteTopicsResponse_schema := (DeleteTopicsResponse_ThrottleTimeMs t, (option_map (map DeletableTopicResult20_named) (DeleteTopicsResponse_Responses t), tt)).
Definition DeleteRecordsPartition21_named (t : DeleteRecordsPartition21) : dens DeleteRecordsPartition21_schema := (DeleteRecordsPartition21_PartitionIndex t, (DeleteRecordsPartition21_Offset t, tt)).
Definition DeleteRecordsTopic21_named (t : DeleteRecordsTopic21) : dens DeleteRecordsTopic21_schema := (DeleteRecordsTopic21_Name t, (option_map (map DeleteRecordsPartition21_named) (DeleteRecordsTopic21_Partitions t), tt)).
Definition DeleteRecordsRequest_named (t : DeleteRecordsRequest) : dens DeleteRecordsRequest_schema := (option_map (map DeleteRecordsTopic21_named) (DeleteRecordsRequest_Topics t), (DeleteRecordsRequest_TimeoutMs t, tt)).
Definition DeleteRecordsPartitionResult21_named (t : DeleteRecordsPartitionResult21) : dens DeleteRecordsPartitionResult21_schema := (DeleteRecordsPartitionResult21_PartitionIndex t, (DeleteRecordsPartitionResult21_LowWatermark t, (DeleteRecordsPartitionResult21_ErrorCode t, tt))).
Definition DeleteRecordsTopicResult21_named (t : DeleteRecordsTopicResult21) : dens DeleteRecordsTopicResult21_schema := (DeleteRecordsTopicResult21_Name t, (option_map (map DeleteRecordsPartitionResult21_named) (DeleteRecordsTopicResult21_Partitions t), tt)).
Definition DeleteRecordsResponse_named (t : DeleteRecordsResponse) : dens DeleteRecordsResponse_schema := (DeleteRecordsResponse_ThrottleTimeMs t, (option_map (map DeleteRecordsTopicResult21_named) (DeleteRecordsResponse_Topics t), tt)).
Definition InitProducerIdRequest_named (t : InitProducerIdRequest) : dens InitProducerIdRequest_schema := (InitProducerIdRequest_TransactionalId t, (InitProducerIdRequest_TransactionTimeoutMs t, tt)).
Definition InitProducerIdResponse_named (t : InitProducerIdResponse) : dens InitProducerIdResponse_schema := (InitProducerIdResponse_ThrottleTimeMs t, (InitProducerIdResponse_ErrorCode t, (InitProducerIdResponse_ProducerId t, (InitProducerIdResponse_ProducerEpoch t, tt)))).
Definition OffsetForLeaderPartition23_named (t : OffsetForLeaderPartition23) : dens OffsetForLeaderPartition23_schema := (OffsetForLeaderPartition23_PartitionIndex t, (OffsetForLeaderPartition23_CurrentLeaderEpoch t, (OffsetForLeaderPartition23_LeaderEpoch t, tt))).
Definition OffsetForLeaderTopic23_named (t : OffsetForLeaderTopic23) : dens OffsetForLeaderTopic23_schema := (OffsetForLeaderTopic23_Name t, (option_map (map OffsetForLeaderPartition23_named) (OffsetForLeaderTopic23_Partitions t), tt)).
Definition OffsetForLeaderEpochRequest_named (t : OffsetForLeaderEpochRequest) : dens OffsetForLeaderEpochRequest_schema := (OffsetForLeaderEpochRequest_ReplicaId t, (option_map (map OffsetForLeaderTopic23_named) (OffsetForLeaderEpochRequest_Topics t), tt)).
Definition OffsetForLeaderPartitionResult23_named (t : OffsetForLeaderPartitionResult23) : dens OffsetForLeaderPartitionResult23_schema := (OffsetForLeaderPartitionResult23_ErrorCode t, (OffsetForLeaderPartitionResult23_PartitionIndex t, (OffsetForLeaderPartitionResult23_LeaderEpoch t, (OffsetForLeaderPartitionResult23_EndOffset t, tt)))).
Definition OffsetForLeaderTopicResult23_named (t : OffsetForLeaderTopicResult23) : dens OffsetForLeaderTopicResult23_schema := (OffsetForLeaderTopicResult23_Name t, (option_map (map OffsetForLeaderPartitionResult23_named) (OffsetForLeaderTopicResult23_Partitions t), tt)).
Definition OffsetForLeaderEpochResponse_named (t : OffsetForLeaderEpochResponse) : dens OffsetForLeaderEpochResponse_schema := (OffsetForLeaderEpochResponse_ThrottleTimeMs t, (option_map (map OffsetForLeaderTopicResult23_named) (OffsetForLeaderEpochResponse_Topics t), tt)).
Definition AddPartitionsToTxnTopic24_named (t : AddPartitionsToTxnTopic24) : dens AddPartitionsToTxnTopic24_schema := (AddPartitionsToTxnTopic24_Name t, (AddPartitionsToTxnTopic24_Partitions t, tt)).
Definition AddPartitionsToTxnRequest_named (t : AddPartitionsToTxnRequest) : dens AddPartitionsToTxnRequest_schema := (AddPartitionsToTxnRequest_TransactionalId t, (AddPartitionsToTxnRequest_ProducerId t, (AddPartitionsToTxnRequest_ProducerEpoch t, (option_map (map AddPartitionsToTxnTopic24_named) (AddPartitionsToTxnRequest_Topics t), tt)))).
Definition AddPartitionsToTxnPartitionResult24_named (t : AddPartitionsToTxnPartitionResult24) : dens AddPartitionsToTxnPartitionResult24_schema := (AddPartitionsToTxnPartitionResult24_PartitionIndex t, (AddPartitionsToTxnPartitionResult24_ErrorCode t, tt)).
Definition AddPartitionsToTxnTopicResult24_named (t : AddPartitionsToTxnTopicResult24) : dens AddPartitionsToTxnTopicResult24_schema := (AddPartitionsToTxnTopicResult24_Name t, (option_map (map AddPartitionsToTxnPartitionResult24_named) (AddPartitionsToTxnTopicResult24_Results t), tt)).
Definition AddPartitionsToTxnResponse_named (t : AddPartitionsToTxnResponse) : dens AddPartitionsToTxnResponse_schema := (AddPartitionsToTxnResponse_ThrottleTimeMs t, (option_map (map AddPartitionsToTxnTopicResult24_named) (AddPartitionsToTxnResponse_Results t), tt)).
Definition AddOffsetsToTxnRequest_named (t : AddOffsetsToTxnRequest) : dens AddOffsetsToTxnRequest_schema := (AddOffsetsToTxnRequest_TransactionalId t, (AddOffsetsToTxnRequest_ProducerId t, (AddOffsetsToTxnRequest_ProducerEpoch t, (AddOffsetsToTxnRequest_GroupId t, tt)))).
Definition AddOffsetsToTxnResponse_named (t : AddOffsetsToTxnResponse) : dens AddOffsetsToTxnResponse_schema := (AddOffsetsToTxnResponse_ThrottleTimeMs t, (AddOffsetsToTxnResponse_ErrorCode t, tt)).
Definition EndTxnRequest_named (t : EndTxnRequest) : dens EndTxnRequest_schema := (EndTxnRequest_TransactionalId t, (EndTxnRequest_ProducerId t, (EndTxnRequest_ProducerEpoch t, (EndTxnRequest_Committed t, tt)))).
Definition EndTxnResponse_named (t : EndTxnResponse) : dens EndTxnResponse_schema := (EndTxnResponse_ThrottleTimeMs t, (EndTxnResponse_ErrorCode t, tt)).
Definition WritableTxnMarkerTopic27_named (t : WritableTxnMarkerTopic27) : dens WritableTxnMarkerTopic27_schema := (WritableTxnMarkerTopic27_Name t, (WritableTxnMarkerTopic27_PartitionIndexes t, tt)).
Definition WritableTxnMarker27_named (t : WritableTxnMarker27) : dens WritableTxnMarker27_schema := (WritableTxnMarker27_ProducerId t, (WritableTxnMarker27_ProducerEpoch t, (WritableTxnMarker27_TransactionResult t, (option_map (map WritableTxnMarkerTopic27_named) (WritableTxnMarker27_Topics t), (WritableTxnMarker27_CoordinatorEpoch t, tt))))).
Definition WriteTxnMarkersRequest_named (t : WriteTxnMarkersRequest) : dens WriteTxnMarkersRequest_schema := (option_map (map WritableTxnMarker27_named) (WriteTxnMarkersRequest_Markers t), tt).
Definition WritableTxnMarkerPartitionResult27_named (t : WritableTxnMarkerPartitionResult27) : dens WritableTxnMarkerPartitionResult27_schema := (WritableTxnMarkerPartitionResult27_PartitionIndex t, (WritableTxnMarkerPartitionResult27_ErrorCode t, tt)).
Definition WritableTxnMarkerTopicResult27_named (t : WritableTxnMarkerTopicResult27) : dens WritableTxnMarkerTopicResult27_schema := (WritableTxnMarkerTopicResult27_Name t, (option_map (map WritableTxnMarkerPartitionResult27_named) (WritableTxnMarkerTopicResult27_Partitions t), tt)).
Definition WritableTxnMarkerResult27_named (t : WritableTxnMarkerResult27) : dens WritableTxnMarkerResult27_schema := (WritableTxnMarkerResult27_ProducerId t, (option_map (map WritableTxnMarkerTopicResult27_named) (WritableTxnMarkerResult27_Topics t), tt)).
Definition WriteTxnMarkersResponse_named (t : WriteTxnMarkersResponse) : dens WriteTxnMarkersResponse_schema := (option_map (map WritableTxnMarkerResult27_named) (WriteTxnMarkersResponse_Markers t), tt).
Definition TxnOffsetCommitRequestPartition28_named (t : TxnOffsetCommitRequestPartition28) : dens TxnOffsetCommitRequestPartition28_schema := (TxnOffsetCommitRequestPartition28_PartitionIndex t, (TxnOffsetCommitRequestPartition28_CommittedOffset t, (TxnOffsetCommitRequestPartition28_CommittedLeaderEpoch t, (TxnOffsetCommitRequestPartition28_CommittedMetadata t, tt)))).
Definition TxnOffsetCommitRequestTopic28_named (t : TxnOffsetCommitRequestTopic28) : dens TxnOffsetCommitRequestTopic28_schema := (TxnOffsetCommitRequestTopic28_Name t, (option_map (map TxnOffsetCommitRequestPartition28_named) (TxnOffsetCommitRequestTopic28_Partitions t), tt)).
Definition TxnOffsetCommitRequest_named (t : TxnOffsetCommitRequest) : dens TxnOffsetCommitRequest_schema := (TxnOffsetCommitRequest_TransactionalId t, (TxnOffsetCommitRequest_GroupId t, (TxnOffsetCommitRequest_ProducerId t, (TxnOffsetCommitRequest_ProducerEpoch t, (option_map (map TxnOffsetCommitRequestTopic28_named) (TxnOffsetCommitRequest_Topics t), tt))))).
Definition TxnOffsetCommitResponsePartition28_named (t : TxnOffsetCommitResponsePartition28) : dens TxnOffsetCommitResponsePartition28_schema := (TxnOffsetCommitResponsePartition28_PartitionIndex t, (TxnOffsetCommitResponsePartition28_ErrorCode t, tt)).
Definition TxnOffsetCommitResponseTopic28_named (t : TxnOffsetCommitResponseTopic28) : dens TxnOffsetCommitResponseTopic28_schema := (TxnOffsetCommitResponseTopic28_Name t, (option_map (map TxnOffsetCommitResponsePartition28_named) (TxnOffsetCommitResponseTopic28_Partitions t), tt)).
Definition TxnOffsetCommitResponse_named (t : TxnOffsetCommitResponse) : dens TxnOffsetCommitResponse_schema := (TxnOffsetCommitResponse_ThrottleTimeMs t, (option_map (map TxnOffsetCommitResponseTopic28_named) (TxnOffsetCommitResponse_Topics t), tt)).
Definition DescribeAclsRequest_named (t : DescribeAclsRequest) : dens DescribeAclsRequest_schema := (DescribeAclsRequest_ResourceType t, (DescribeAclsRequest_ResourceNameFilter t, (DescribeAclsRequest_ResourcePatternType t, (DescribeAclsRequest_PrincipalFilter t, (DescribeAclsRequest_HostFilter t, (DescribeAclsRequest_Operation t, (DescribeAclsRequest_PermissionType t, tt))))))).
Definition AclDescription29_named (t : AclDescription29) : dens AclDescription29_schema := (AclDescription29_Principal t, (AclDescription29_Host t, (AclDescription29_Operation t, (AclDescription29_PermissionType t, tt)))).
Definition DescribeAclsResource29_named (t : DescribeAclsResource29) : dens DescribeAclsResource29_schema := (DescribeAclsResource29_Type t, (DescribeAclsResource29_Name t, (DescribeAclsResource29_PatternType t, (option_map (map AclDescription29_named) (DescribeAclsResource29_Acls t), tt)))).
Definition DescribeAclsResponse_named (t : DescribeAclsResponse) : dens DescribeAclsResponse_schema := (DescribeAclsResponse_ThrottleTimeMs t, (DescribeAclsResponse_ErrorCode t, (DescribeAclsResponse_ErrorMessage t, (option_map (map DescribeAclsResource29_named) (DescribeAclsResponse_Resources t), tt)))).
Definition CreatableAcl30_named (t : CreatableAcl30) : dens CreatableAcl30_schema := (CreatableAcl30_ResourceType t, (CreatableAcl30_ResourceName t, (CreatableAcl30_ResourcePatternType t, (CreatableAcl30_Principal t, (CreatableAcl30_Host t, (CreatableAcl30_Operation t, (CreatableAcl30_PermissionType t, tt))))))).
Definition CreateAclsRequest_named (t : CreateAclsRequest) : dens CreateAclsRequest_schema := (option_map (map CreatableAcl30_named) (CreateAclsRequest_Creations t), tt).
Definition CreatableAclResult30_named (t : CreatableAclResult30) : dens CreatableAclResult30_schema := (CreatableAclResult30_ErrorCode t, (CreatableAclResult30_ErrorMessage t, tt)).
Definition CreateAclsResponse_named (t : CreateAclsResponse) : dens CreateAclsResponse_schema := (CreateAclsResponse_ThrottleTimeMs t, (option_map (map CreatableAclResult30_named) (CreateAclsResponse_Results t), tt)).
Definition DeleteAclsFilter31_named (t : DeleteAclsFilter31) : dens DeleteAclsFilter31_schema := (DeleteAclsFilter31_ResourceTypeFilter t, (DeleteAclsFilter31_ResourceNameFilter t, (DeleteAclsFilter31_PatternTypeFilter t, (DeleteAclsFilter31_PrincipalFilter t, (DeleteAclsFilter31_HostFilter t, (DeleteAclsFilter31_Operation t, (DeleteAclsFilter31_PermissionType t, tt))))))).
Definition DeleteAclsRequest_named (t : DeleteAclsRequest) : dens DeleteAclsRequest_schema := (option_map (map DeleteAclsFilter31_named) (DeleteAclsRequest_Filters t), tt).
Definition DeleteAclsMatchingAcl31_named (t : DeleteAclsMatchingAcl31) : dens DeleteAclsMatchingAcl31_schema := (DeleteAclsMatchingAcl31_ErrorCode t, (DeleteAclsMatchingAcl31_ErrorMessage t, (DeleteAclsMatchingAcl31_ResourceType t, (DeleteAclsMatchingAcl31_ResourceName t, (DeleteAclsMatchingAcl31_PatternType t, (DeleteAclsMatchingAcl31_Principal t, (DeleteAclsMatchingAcl31_Host t, (DeleteAclsMatchingAcl31_Operation t, (DeleteAclsMatchingAcl31_PermissionType t, tt))))))))).
Definition DeleteAclsFilterResult31_named (t : DeleteAclsFilterResult31) : dens DeleteAclsFilterResult31_schema := (DeleteAclsFilterResult31_ErrorCode t, (DeleteAclsFilterResult31_ErrorMessage t, (option_map (map DeleteAclsMatchingAcl31_named) (DeleteAclsFilterResult31_MatchingAcls t), tt))).
Definition DeleteAclsResponse_named (t : DeleteAclsResponse) : dens DeleteAclsResponse_schema := (DeleteAclsResponse_ThrottleTimeMs t, (option_map (map DeleteAclsFilterResult31_named) (DeleteAclsResponse_FilterResults t), tt)).
Definition DescribeConfigsResource32_named (t : DescribeConfigsResource32) : dens DescribeConfigsResource32_schema := (DescribeConfigsResource32_ResourceType t, (DescribeConfigsResource32_ResourceName t, (DescribeConfigsResource32_ConfigurationKeys t, tt))).
Definition DescribeConfigsRequest_named (t : DescribeConfigsRequest) : dens DescribeConfigsRequest_schema := (option_map (map DescribeConfigsResource32_named) (DescribeConfigsRequest_Resources t), (DescribeConfigsRequest_IncludeSynoyms t, tt)).
Definition DescribeConfigsSynonym32_named (t : DescribeConfigsSynonym32) : dens DescribeConfigsSynonym32_schema := (DescribeConfigsSynonym32_Name t, (DescribeConfigsSynonym32_Value t, (DescribeConfigsSynonym32_Source t, tt))).
Definition DescribeConfigsResourceResult32_named (t : DescribeConfigsResourceResult32) : dens DescribeConfigsResourceResult32_schema := (DescribeConfigsResourceResult32_Name t, (DescribeConfigsResourceResult32_Value t, (DescribeConfigsResourceResult32_ReadOnly t, (DescribeConfigsResourceResult32_IsDefault t, (DescribeConfigsResourceResult32_ConfigSource t, (DescribeConfigsResourceResult32_IsSensitive t, (option_map (map DescribeConfigsSynonym32_named) (DescribeConfigsResourceResult32_Synonyms t), tt))))))).
Definition DescribeConfigsResult32_named (t : DescribeConfigsResult32) : dens DescribeConfigsResult32_schema := (DescribeConfigsResult32_ErrorCode t, (DescribeConfigsResult32_ErrorMessage t, (DescribeConfigsResult32_ResourceType t, (DescribeConfigsResult32_ResourceName t, (option_map (map DescribeConfigsResourceResult32_named) (DescribeConfigsResult32_Configs t), tt))))).
Definition DescribeConfigsResponse_named (t : DescribeConfigsResponse) : dens DescribeConfigsResponse_schema := (DescribeConfigsResponse_ThrottleTimeMs t, (option_map (map DescribeConfigsResult32_named) (DescribeConfigsResponse_Results t), tt)).
Definition AlterableConfig33_named (t : AlterableConfig33) : dens AlterableConfig33_schema := (AlterableConfig33_Name t, (AlterableConfig33_Value t, tt)).
Definition AlterConfigsResource33_named (t : AlterConfigsResource33) : dens AlterConfigsResource33_schema := (AlterConfigsResource33_ResourceType t, (AlterConfigsResource33_ResourceName t, (option_map (map AlterableConfig33_named) (AlterConfigsResource33_Configs t), tt))).
Definition AlterConfigsRequest_named (t : AlterConfigsRequest) : dens AlterConfigsRequest_schema := (option_map (map AlterConfigsResource33_named) (AlterConfigsRequest_Resources t), (AlterConfigsRequest_ValidateOnly t, tt)).
Definition AlterConfigsResourceResponse33_named (t : AlterConfigsResourceResponse33) : dens AlterConfigsResourceResponse33_schema := (AlterConfigsResourceResponse33_ErrorCode t, (AlterConfigsResourceResponse33_ErrorMessage t, (AlterConfigsResourceResponse33_ResourceType t, (AlterConfigsResourceResponse33_ResourceName t, tt)))).
Definition AlterConfigsResponse_named (t : AlterConfigsResponse) : dens AlterConfigsResponse_schema := (AlterConfigsResponse_ThrottleTimeMs t, (option_map (map AlterConfigsResourceResponse33_named) (AlterConfigsResponse_Responses t), tt)).
Definition AlterReplicaLogDirTopic34_named (t : AlterReplicaLogDirTopic34) : dens AlterReplicaLogDirTopic34_schema := (AlterReplicaLogDirTopic34_Name t, (AlterReplicaLogDirTopic34_Partitions t, tt)).
Definition AlterReplicaLogDir34_named (t : AlterReplicaLogDir34) : dens AlterReplicaLogDir34_schema := (AlterReplicaLogDir34_Path t, (option_map (map AlterReplicaLogDirTopic34_named) (AlterReplicaLogDir34_Topics t), tt)).
Definition AlterReplicaLogDirsRequest_named (t : AlterReplicaLogDirsRequest) : dens AlterReplicaLogDirsRequest_schema := (option_map (map AlterReplicaLogDir34_named) (AlterReplicaLogDirsRequest_Dirs t), tt).
Definition AlterReplicaLogDirPartitionResult34_named (t : AlterReplicaLogDirPartitionResult34) : dens AlterReplicaLogDirPartitionResult34_schema := (AlterReplicaLogDirPartitionResult34_PartitionIndex t, (AlterReplicaLogDirPartitionResult34_ErrorCode t, tt)).
Definition AlterReplicaLogDirTopicResult34_named (t : AlterReplicaLogDirTopicResult34) : dens AlterReplicaLogDirTopicResult34_schema := (AlterReplicaLogDirTopicResult34_TopicName t, (option_map (map AlterReplicaLogDirPartitionResult34_named) (AlterReplicaLogDirTopicResult34_Partitions t), tt)).
Definition AlterReplicaLogDirsResponse_named (t : AlterReplicaLogDirsResponse) : dens AlterReplicaLogDirsResponse_schema := (AlterReplicaLogDirsResponse_ThrottleTimeMs t, (option_map (map AlterReplicaLogDirTopicResult34_named) (AlterReplicaLogDirsResponse_Results t), tt)).
Definition DescribableLogDirTopic35_named (t : DescribableLogDirTopic35) : dens DescribableLogDirTopic35_schema := (DescribableLogDirTopic35_Topic t, (DescribableLogDirTopic35_PartitionIndex t, tt)).
Definition DescribeLogDirsRequest_named (t : DescribeLogDirsRequest) : dens DescribeLogDirsRequest_schema := (option_map (map DescribableLogDirTopic35_named) (DescribeLogDirsRequest_Topics t), tt).
Definition DescribeLogDirsPartition35_named (t : DescribeLogDirsPartition35) : dens DescribeLogDirsPartition35_schema := (DescribeLogDirsPartition35_PartitionIndex t, (DescribeLogDirsPartition35_PartitionSize t, (DescribeLogDirsPartition35_OffsetLag t, (DescribeLogDirsPartition35_IsFutureKey t, tt)))).
Definition DescribeLogDirsTopic35_named (t : DescribeLogDirsTopic35) : dens DescribeLogDirsTopic35_schema := (DescribeLogDirsTopic35_Name t, (option_map (map DescribeLogDirsPartition35_named) (DescribeLogDirsTopic35_Partitions t), tt)).
Definition DescribeLogDirsResult35_named (t : DescribeLogDirsResult35) : dens DescribeLogDirsResult35_schema := (DescribeLogDirsResult35_ErrorCode t, (DescribeLogDirsResult35_LogDir t, (option_map (map DescribeLogDirsTopic35_named) (DescribeLogDirsResult35_Topics t), tt))).
Definition DescribeLogDirsResponse_named (t : DescribeLogDirsResponse) : dens DescribeLogDirsResponse_schema := (DescribeLogDirsResponse_ThrottleTimeMs t, (option_map (map DescribeLogDirsResult35_named) (DescribeLogDirsResponse_Results t), tt)).
Definition SaslAuthenticateRequest_named (t : SaslAuthenticateRequest) : dens SaslAuthenticateRequest_schema := (SaslAuthenticateRequest_AuthBytes t, tt).
Definition SaslAuthenticateResponse_named (t : SaslAuthenticateResponse) : dens SaslAuthenticateResponse_schema := (SaslAuthenticateResponse_ErrorCode t, (SaslAuthenticateResponse_ErrorMessage t, (SaslAuthenticateResponse_AuthBytes t, (SaslAuthenticateResponse_SessionLifetimeMs t, tt)))).
Definition CreatePartitionsAssignment37_named (t : CreatePartitionsAssignment37) : dens CreatePartitionsAssignment37_schema := (CreatePartitionsAssignment37_BrokerIds t, tt).
Definition CreatePartitionsTopic37_named (t : CreatePartitionsTopic37) : dens CreatePartitionsTopic37_schema := (CreatePartitionsTopic37_Name t, (CreatePartitionsTopic37_Count t, (option_map (map CreatePartitionsAssignment37_named) (CreatePartitionsTopic37_Assignments t), tt))).
Definition CreatePartitionsRequest_named (t : CreatePartitionsRequest) : dens CreatePartitionsRequest_schema := (option_map (map CreatePartitionsTopic37_named) (CreatePartitionsRequest_Topics t), (CreatePartitionsRequest_TimeoutMs t, (CreatePartitionsRequest_ValidateOnly t, tt))).
Definition CreatePartitionsTopicResult37_named (t : CreatePartitionsTopicResult37) : dens CreatePartitionsTopicResult37_schema := (CreatePartitionsTopicResult37_Name t, (CreatePartitionsTopicResult37_ErrorCode t, (CreatePartitionsTopicResult37_ErrorMessage t, tt))).
Definition CreatePartitionsResponse_named (t : CreatePartitionsResponse) : dens CreatePartitionsResponse_schema := (CreatePartitionsResponse_ThrottleTimeMs t, (option_map (map CreatePartitionsTopicResult37_named) (CreatePartitionsResponse_Results t), tt)).
Definition CreatableRenewers38_named (t : CreatableRenewers38) : dens CreatableRenewers38_schema := (CreatableRenewers38_PrincipalType t, (CreatableRenewers38_PrincipalName t, tt)).
Definition CreateDelegationTokenRequest_named (t : CreateDelegationTokenRequest) : dens CreateDelegationTokenRequest_schema := (option_map (map CreatableRenewers38_named) (CreateDelegationTokenRequest_Renewers t), (CreateDelegationTokenRequest_MaxLifetimeMs t, tt)).
Definition CreateDelegationTokenResponse_named (t : CreateDelegationTokenResponse) : dens CreateDelegationTokenResponse_schema := (CreateDelegationTokenResponse_ErrorCode t, (CreateDelegationTokenResponse_PrincipalType t, (CreateDelegationTokenResponse_PrincipalName t, (CreateDelegationTokenResponse_IssueTimestampMs t, (CreateDelegationTokenResponse_ExpiryTimestampMs t, (CreateDelegationTokenResponse_MaxTimestampMs t, (CreateDelegationTokenResponse_TokenId t, (CreateDelegationTokenResponse_Hmac t, (CreateDelegationTokenResponse_ThrottleTimeMs t, tt))))))))).
Definition RenewDelegationTokenRequest_named (t : RenewDelegationTokenRequest) : dens RenewDelegationTokenRequest_schema := (RenewDelegationTokenRequest_Hmac t, (RenewDelegationTokenRequest_RenewPeriodMs t, tt)).
Definition RenewDelegationTokenResponse_named (t : RenewDelegationTokenResponse) : dens RenewDelegationTokenResponse_schema := (RenewDelegationTokenResponse_ErrorCode t, (RenewDelegationTokenResponse_ExpiryTimestampMs t, (RenewDelegationTokenResponse_ThrottleTimeMs t, tt))).
Definition ExpireDelegationTokenRequest_named (t : ExpireDelegationTokenRequest) : dens ExpireDelegationTokenRequest_schema := (ExpireDelegationTokenRequest_Hmac t, (ExpireDelegationTokenRequest_ExpiryTimePeriodMs t, tt)).
Definition ExpireDelegationTokenResponse_named (t : ExpireDelegationTokenResponse) : dens ExpireDelegationTokenResponse_schema := (ExpireDelegationTokenResponse_ErrorCode t, (ExpireDelegationTokenResponse_ExpiryTimestampMs t, (ExpireDelegationTokenResponse_ThrottleTimeMs t, tt))).
Definition DescribeDelegationTokenOwner41_named (t : DescribeDelegationTokenOwner41) : dens DescribeDelegationTokenOwner41_schema := (DescribeDelegationTokenOwner41_PrincipalType t, (DescribeDelegationTokenOwner41_PrincipalName t, tt)).
Definition DescribeDelegationTokenRequest_named (t : DescribeDelegationTokenRequest) : dens DescribeDelegationTokenRequest_schema := (option_map (map DescribeDelegationTokenOwner41_named) (DescribeDelegationTokenRequest_Owners t), tt).
Definition DescribedDelegationTokenRenewer41_named (t : DescribedDelegationTokenRenewer41) : dens DescribedDelegationTokenRenewer41_schema := (DescribedDelegationTokenRenewer41_PrincipalType t, (DescribedDelegationTokenRenewer41_PrincipalName t, tt)).
Definition DescribedDelegationToken41_named (t : DescribedDelegationToken41) : dens DescribedDelegationToken41_schema := (DescribedDelegationToken41_PrincipalType t, (DescribedDelegationToken41_PrincipalName t, (DescribedDelegationToken41_IssueTimestamp t, (DescribedDelegationToken41_ExpiryTimestamp t, (DescribedDelegationToken41_MaxTimestamp t, (DescribedDelegationToken41_TokenId t, (DescribedDelegationToken41_Hmac t, (option_map (map DescribedDelegationTokenRenewer41_named) (DescribedDelegationToken41_Renewers t), tt)))))))).
Definition DescribeDelegationTokenResponse_named (t : DescribeDelegationTokenResponse) : dens DescribeDelegationTokenResponse_schema := (DescribeDelegationTokenResponse_ErrorCode t, (option_map (map DescribedDelegationToken41_named) (DescribeDelegationTokenResponse_Tokens t), (DescribeDelegationTokenResponse_ThrottleTimeMs t, tt))).
Definition DeleteGroupsRequest_named (t : DeleteGroupsRequest) : dens DeleteGroupsRequest_schema := (DeleteGroupsRequest_GroupsNames t, tt).
Definition DeletableGroupResult42_named (t : DeletableGroupResult42) : dens DeletableGroupResult42_schema := (DeletableGroupResult42_GroupId t, (DeletableGroupResult42_ErrorCode t, tt)).
Definition DeleteGroupsResponse_named (t : DeleteGroupsResponse) : dens DeleteGroupsResponse_schema := (DeleteGroupsResponse_ThrottleTimeMs t, (option_map (map DeletableGroupResult42_named) (DeleteGroupsResponse_Results t), tt)).
Definition TopicPartitions43_named (t : TopicPartitions43) : dens TopicPartitions43_schema := (TopicPartitions43_Topic t, (TopicPartitions43_PartitionId t, tt)).
Definition ElectLeadersRequest_named (t : ElectLeadersRequest) : dens ElectLeadersRequest_schema := (ElectLeadersRequest_ElectionType t, (option_map (map TopicPartitions43_named) (ElectLeadersRequest_TopicPartitions t), (ElectLeadersRequest_TimeoutMs t, tt))).
Definition PartitionResult43_named (t : PartitionResult43) : dens PartitionResult43_schema := (PartitionResult43_PartitionId t, (PartitionResult43_ErrorCode t, (PartitionResult43_ErrorMessage t, tt))).
Definition ReplicaElectionResult43_named (t : ReplicaElectionResult43) : dens ReplicaElectionResult43_schema := (ReplicaElectionResult43_Topic t, (option_map (map PartitionResult43_named) (ReplicaElectionResult43_PartitionResult t), tt)).
Definition ElectLeadersResponse_named (t : ElectLeadersResponse) : dens ElectLeadersResponse_schema := (ElectLeadersResponse_ThrottleTimeMs t, (ElectLeadersResponse_ErrorCode t, (option_map (map ReplicaElectionResult43_named) (ElectLeadersResponse_ReplicaElectionResults t), tt))).
Definition AlterableConfig44_named (t : AlterableConfig44) : dens AlterableConfig44_schema := (AlterableConfig44_Name t, (AlterableConfig44_ConfigOperation t, (AlterableConfig44_Value t, tt))).
Definition AlterConfigsResource44_named (t : AlterConfigsResource44) : dens AlterConfigsResource44_schema := (AlterConfigsResource44_ResourceType t, (AlterConfigsResource44_ResourceName t, (option_map (map AlterableConfig44_named) (AlterConfigsResource44_Configs t), tt))).
Definition IncrementalAlterConfigsRequest_named (t : IncrementalAlterConfigsRequest) : dens IncrementalAlterConfigsRequest_schema := (option_map (map AlterConfigsResource44_named) (IncrementalAlterConfigsRequest_Resources t), (IncrementalAlterConfigsRequest_ValidateOnly t, tt)).
Definition AlterConfigsResourceResponse44_named (t : AlterConfigsResourceResponse44) : dens AlterConfigsResourceResponse44_schema := (AlterConfigsResourceResponse44_ErrorCode t, (AlterConfigsResourceResponse44_ErrorMessage t, (AlterConfigsResourceResponse44_ResourceType t, (AlterConfigsResourceResponse44_ResourceName t, tt)))).
Definition IncrementalAlterConfigsResponse_named (t : IncrementalAlterConfigsResponse) : dens IncrementalAlterConfigsResponse_schema := (IncrementalAlterConfigsResponse_ThrottleTimeMs t, (option_map (map AlterConfigsResourceResponse44_named) (IncrementalAlterConfigsResponse_Responses t), tt)).
Definition ReassignablePartition45_named (t : ReassignablePartition45) : dens ReassignablePartition45_schema := (ReassignablePartition45_PartitionIndex t, (ReassignablePartition45_Replicas t, tt)).
Definition ReassignableTopic45_named (t : ReassignableTopic45) : dens ReassignableTopic45_schema := (ReassignableTopic45_Name t, (option_map (map ReassignablePartition45_named) (ReassignableTopic45_Partitions t), tt)).
Definition AlterPartitionReassignmentsRequest_named (t : AlterPartitionReassignmentsRequest) : dens AlterPartitionReassignmentsRequest_schema := (AlterPartitionReassignmentsRequest_TimeoutMs t, (option_map (map ReassignableTopic45_named) (AlterPartitionReassignmentsRequest_Topics t), tt)).
Definition ReassignablePartitionResponse45_named (t : ReassignablePartitionResponse45) : dens ReassignablePartitionResponse45_schema := (ReassignablePartitionResponse45_PartitionIndex t, (ReassignablePartitionResponse45_ErrorCode t, (ReassignablePartitionResponse45_ErrorMessage t, tt))).
Definition ReassignableTopicResponse45_named (t : ReassignableTopicResponse45) : dens ReassignableTopicResponse45_schema := (ReassignableTopicResponse45_Name t, (option_map (map ReassignablePartitionResponse45_named) (ReassignableTopicResponse45_Partitions t), tt)).
Definition AlterPartitionReassignmentsResponse_named (t : AlterPartitionReassignmentsResponse) : dens AlterPartitionReassignmentsResponse_schema := (AlterPartitionReassignmentsResponse_ThrottleTimeMs t, (AlterPartitionReassignmentsResponse_ErrorCode t, (AlterPartitionReassignmentsResponse_ErrorMessage t, (option_map (map ReassignableTopicResponse45_named) (AlterPartitionReassignmentsResponse_Responses t), tt)))).
Definition ListPartitionReassignmentsTopics46_named (t : ListPartitionReassignmentsTopics46) : dens ListPartitionReassignmentsTopics46_schema := (ListPartitionReassignmentsTopics46_Name t, (ListPartitionReassignmentsTopics46_PartitionIndexes t, tt)).
Definition ListPartitionReassignmentsRequest_named (t : ListPartitionReassignmentsRequest) : dens ListPartitionReassignmentsRequest_schema := (ListPartitionReassignmentsRequest_TimeoutMs t, (option_map (map ListPartitionReassignmentsTopics46_named) (ListPartitionReassignmentsRequest_Topics t), tt)).
Definition OngoingPartitionReassignment46_named (t : OngoingPartitionReassignment46) : dens OngoingPartitionReassignment46_schema := (OngoingPartitionReassignment46_PartitionIndex t, (OngoingPartitionReassignment46_Replicas t, (OngoingPartitionReassignment46_AddingReplicas t, (OngoingPartitionReassignment46_RemovingReplicas t, tt)))).
Definition OngoingTopicReassignment46_named (t : OngoingTopicReassignment46) : dens OngoingTopicReassignment46_schema := (OngoingTopicReassignment46_Name t, (option_map (map OngoingPartitionReassignment46_named) (OngoingTopicReassignment46_Partitions t), tt)).
Definition ListPartitionReassignmentsResponse_named (t : ListPartitionReassignmentsResponse) : dens ListPartitionReassignmentsResponse_schema := (ListPartitionReassignmentsResponse_ThrottleTimeMs t, (ListPartitionReassignmentsResponse_ErrorCode t, (ListPartitionReassignmentsResponse_ErrorMessage t, (option_map (map OngoingTopicReassignment46_named) (ListPartitionReassignmentsResponse_Topics t), tt)))).
Definition OffsetDeleteRequestPartition47_named (t : OffsetDeleteRequestPartition47) : dens OffsetDeleteRequestPartition47_schema := (OffsetDeleteRequestPartition47_PartitionIndex t, tt).
Definition OffsetDeleteRequestTopic47_named (t : OffsetDeleteRequestTopic47) : dens OffsetDeleteRequestTopic47_schema := (OffsetDeleteRequestTopic47_Name t, (option_map (map OffsetDeleteRequestPartition47_named) (OffsetDeleteRequestTopic47_Partitions t), tt)).
Definition OffsetDeleteRequest_named (t : OffsetDeleteRequest) : dens OffsetDeleteRequest_schema := (OffsetDeleteRequest_GroupId t, (option_map (map OffsetDeleteRequestTopic47_named) (OffsetDeleteRequest_Topics t), tt)).
Definition OffsetDeleteResponsePartition47_named (t : OffsetDeleteResponsePartition47) : dens OffsetDeleteResponsePartition47_schema := (OffsetDeleteResponsePartition47_PartitionIndex t, (OffsetDeleteResponsePartition47_ErrorCode t, tt)).
Definition OffsetDeleteResponseTopic47_named (t : OffsetDeleteResponseTopic47) : dens OffsetDeleteResponseTopic47_schema := (OffsetDeleteResponseTopic47_Name t, (option_map (map OffsetDeleteResponsePartition47_named) (OffsetDeleteResponseTopic47_Partitions t), tt)).
Definition OffsetDeleteResponse_named (t : OffsetDeleteResponse) : dens OffsetDeleteResponse_schema := (OffsetDeleteResponse_ErrorCode t, (OffsetDeleteResponse_ThrottleTimeMs t, (option_map (map OffsetDeleteResponseTopic47_named) (OffsetDeleteResponse_Topics t), tt))).

Record named_codec : Type := Named { nc_name : string; nc_codec : codec; nc_fields : list string; nc_values : c_type nc_codec -> dens (c_schema nc_codec) }.
Definition ProduceRequest_entry : named_codec := Named "ProduceRequest" ProduceRequest_codec ["TransactionalId"; "Acks"; "TimeoutMs"; "Topics"] ProduceRequest_named.
Definition TopicProduceData0_entry : named_codec := Named "TopicProduceData0" TopicProduceData0_codec ["Name"; "Partitions"] TopicProduceData0_named.
Definition PartitionProduceData0_entry : named_codec := Named "PartitionProduceData0" PartitionProduceData0_codec ["PartitionIndex"; "Records"] PartitionProduceData0_named.
Definition ProduceResponse_entry : named_codec := Named "ProduceResponse" ProduceResponse_codec ["Responses"; "ThrottleTimeMs"] ProduceResponse_named.
Definition TopicProduceResponse0_entry : named_codec := Named "TopicProduceResponse0" TopicProduceResponse0_codec ["Name"; "Partitions"] TopicProduceResponse0_named.
Definition PartitionProduceResponse0_entry : named_codec := Named "PartitionProduceResponse0" PartitionProduceResponse0_codec ["PartitionIndex"; "ErrorCode"; "BaseOffset"; "LogAppendTimeMs"; "LogStartOffset"; "RecordErrors"; "ErrorMessage"] PartitionProduceResponse0_named.
Definition BatchIndexAndErrorMessage0_entry : named_codec := Named "BatchIndexAndErrorMessage0" BatchIndexAndErrorMessage0_codec ["BatchIndex"; "BatchIndexErrorMessage"] BatchIndexAndErrorMessage0_named.
Definition RequestHeader_entry : named_codec := Named "RequestHeader" RequestHeader_codec ["RequestApiKey"; "RequestApiVersion"; "CorrelationId"; "ClientId"] RequestHeader_named.
Definition ResponseHeader_entry : named_codec := Named "ResponseHeader" ResponseHeader_codec ["CorrelationId"] ResponseHeader_named.
Definition FetchRequest_entry : named_codec := Named "FetchRequest" FetchRequest_codec ["ReplicaId"; "MaxWait"; "MinBytes"; "MaxBytes"; "IsolationLevel"; "SessionId"; "Epoch"; "Topics"; "Forgotten"; "RackId"] FetchRequest_named.
Definition FetchableTopic1_entry : named_codec := Named "FetchableTopic1" FetchableTopic1_codec ["Name"; "FetchPartitions"] FetchableTopic1_named.
Definition FetchPartition1_entry : named_codec := Named "FetchPartition1" FetchPartition1_codec ["PartitionIndex"; "CurrentLeaderEpoch"; "FetchOffset"; "LogStartOffset"; "MaxBytes"] FetchPartition1_named.
Definition ForgottenTopic1_entry : named_codec := Named "ForgottenTopic1" ForgottenTopic1_codec ["Name"; "ForgottenPartitionIndexes"] ForgottenTopic1_named.
Definition FetchResponse_entry : named_codec := Named "FetchResponse" FetchResponse_codec ["ThrottleTimeMs"; "ErrorCode"; "SessionId"; "Topics"] FetchResponse_named.
Definition FetchableTopicResponse1_entry : named_codec := Named "FetchableTopicResponse1" FetchableTopicResponse1_codec ["Name"; "Partitions"] FetchableTopicResponse1_named.
Definition FetchablePartitionResponse1_entry : named_codec := Named "FetchablePartitionResponse1" FetchablePartitionResponse1_codec ["PartitionIndex"; "ErrorCode"; "HighWatermark"; "LastStableOffset"; "LogStartOffset"; "Aborted"; "PreferredReadReplica"; "Records"] FetchablePartitionResponse1_named.
Definition AbortedTransaction1_entry : named_codec := Named "AbortedTransaction1" AbortedTransaction1_codec ["ProducerId"; "FirstOffset"] AbortedTransaction1_named.
Definition ListOffsetRequest_entry : named_codec := Named "ListOffsetRequest" ListOffsetRequest_codec ["ReplicaId"; "IsolationLevel"; "Topics"] ListOffsetRequest_named.
Definition ListOffsetTopic2_entry : named_codec := Named "ListOffsetTopic2" ListOffsetTopic2_codec ["Name"; "Partitions"] ListOffsetTopic2_named.
Definition ListOffsetPartition2_entry : named_codec := Named "ListOffsetPartition2" ListOffsetPartition2_codec ["PartitionIndex"; "CurrentLeaderEpoch"; "Timestamp"; "MaxNumOffsets"] ListOffsetPartition2_named.
Definition ListOffsetResponse_entry : named_codec := Named "ListOffsetResponse" ListOffsetResponse_codec ["ThrottleTimeMs"; "Topics"] ListOffsetResponse_named.
Definition ListOffsetTopicResponse2_entry : named_codec := Named "ListOffsetTopicResponse2" ListOffsetTopicResponse2_codec ["Name"; "Partitions"] ListOffsetTopicResponse2_named.
Definition ListOffsetPartitionResponse2_entry : named_codec := Named "ListOffsetPartitionResponse2" ListOffsetPartitionResponse2_codec ["PartitionIndex"; "ErrorCode"; "OldStyleOffsets"; "Timestamp"; "Offset"; "LeaderEpoch"] ListOffsetPartitionResponse2_named.
Definition MetadataRequest_entry : named_codec := Named "MetadataRequest" MetadataRequest_codec ["Topics"; "AllowAutoTopicCreation"; "IncludeClusterAuthorizedOperations"; "IncludeTopicAuthorizedOperations"] MetadataRequest_named.
Definition MetadataRequestTopic3_entry : named_codec := Named "MetadataRequestTopic3" MetadataRequestTopic3_codec ["Name"] MetadataRequestTopic3_named.
Definition MetadataResponse_entry : named_codec := Named "MetadataResponse" MetadataResponse_codec ["ThrottleTimeMs"; "Brokers"; "ClusterId"; "ControllerId"; "Topics"; "ClusterAuthorizedOperations"] MetadataResponse_named.
Definition MetadataResponseBroker3_entry : named_codec := Named "MetadataResponseBroker3" MetadataResponseBroker3_codec ["NodeId"; "Host"; "Port"; "Rack"] MetadataResponseBroker3_named.
Definition MetadataResponseTopic3_entry : named_codec := Named "MetadataResponseTopic3" MetadataResponseTopic3_codec ["ErrorCode"; "Name"; "IsInternal"; "Partitions"; "TopicAuthorizedOperations"] MetadataResponseTopic3_named.
Definition MetadataResponsePartition3_entry : named_codec := Named "MetadataResponsePartition3" MetadataResponsePartition3_codec ["ErrorCode"; "PartitionIndex"; "LeaderId"; "LeaderEpoch"; "ReplicaNodes"; "IsrNodes"; "OfflineReplicas"] MetadataResponsePartition3_named.
Definition LeaderAndIsrRequest_entry : named_codec := Named "LeaderAndIsrRequest" LeaderAndIsrRequest_codec ["ControllerId"; "ControllerEpoch"; "BrokerEpoch"; "UngroupedPartitionStates"; "TopicStates"; "LiveLeaders"] LeaderAndIsrRequest_named.
Definition LeaderAndIsrTopicState4_entry : named_codec := Named "LeaderAndIsrTopicState4" LeaderAndIsrTopicState4_codec ["TopicName"; "PartitionStates"] LeaderAndIsrTopicState4_named.
Definition LeaderAndIsrLiveLeader4_entry : named_codec := Named "LeaderAndIsrLiveLeader4" LeaderAndIsrLiveLeader4_codec ["BrokerId"; "HostName"; "Port"] LeaderAndIsrLiveLeader4_named.
Definition LeaderAndIsrPartitionState4_entry : named_codec := Named "LeaderAndIsrPartitionState4" LeaderAndIsrPartitionState4_codec ["TopicName"; "PartitionIndex"; "ControllerEpoch"; "Leader"; "LeaderEpoch"; "Isr"; "ZkVersion"; "Replicas"; "AddingReplicas"; "RemovingReplicas"; "IsNew"] LeaderAndIsrPartitionState4_named.
Definition LeaderAndIsrResponse_entry : named_codec := Named "LeaderAndIsrResponse" LeaderAndIsrResponse_codec ["ErrorCode"; "PartitionErrors"] LeaderAndIsrResponse_named.
Definition LeaderAndIsrPartitionError4_entry : named_codec := Named "LeaderAndIsrPartitionError4" LeaderAndIsrPartitionError4_codec ["TopicName"; "PartitionIndex"; "ErrorCode"] LeaderAndIsrPartitionError4_named.
Definition StopReplicaRequest_entry : named_codec := Named "StopReplicaRequest" StopReplicaRequest_codec ["ControllerId"; "ControllerEpoch"; "BrokerEpoch"; "DeletePartitions"; "UngroupedPartitions"; "Topics"] StopReplicaRequest_named.
Definition StopReplicaPartitionV05_entry : named_codec := Named "StopReplicaPartitionV05" StopReplicaPartitionV05_codec ["TopicName"; "PartitionIndex"] StopReplicaPartitionV05_named.
Definition StopReplicaTopic5_entry : named_codec := Named "StopReplicaTopic5" StopReplicaTopic5_codec ["Name"; "PartitionIndexes"] StopReplicaTopic5_named.
Definition StopReplicaResponse_entry : named_codec := Named "StopReplicaResponse" StopReplicaResponse_codec ["ErrorCode"; "PartitionErrors"] StopReplicaResponse_named.
Definition StopReplicaPartitionError5_entry : named_codec := Named "StopReplicaPartitionError5" StopReplicaPartitionError5_codec ["TopicName"; "PartitionIndex"; "ErrorCode"] StopReplicaPartitionError5_named.
Definition UpdateMetadataRequest_entry : named_codec := Named "UpdateMetadataRequest" UpdateMetadataRequest_codec ["ControllerId"; "ControllerEpoch"; "BrokerEpoch"; "UngroupedPartitionStates"; "TopicStates"; "LiveBrokers"] UpdateMetadataRequest_named.
Definition UpdateMetadataTopicState6_entry : named_codec := Named "UpdateMetadataTopicState6" UpdateMetadataTopicState6_codec ["TopicName"; "PartitionStates"] UpdateMetadataTopicState6_named.
Definition UpdateMetadataBroker6_entry : named_codec := Named "UpdateMetadataBroker6" UpdateMetadataBroker6_codec ["Id"; "V0Host"; "V0Port"; "Endpoints"; "Rack"] UpdateMetadataBroker6_named.
Definition UpdateMetadataEndpoint6_entry : named_codec := Named "UpdateMetadataEndpoint6" UpdateMetadataEndpoint6_codec ["Port"; "Host"; "Listener"; "SecurityProtocol"] UpdateMetadataEndpoint6_named.
Definition UpdateMetadataPartitionState6_entry : named_codec := Named "UpdateMetadataPartitionState6" UpdateMetadataPartitionState6_codec ["TopicName"; "PartitionIndex"; "ControllerEpoch"; "Leader"; "LeaderEpoch"; "Isr"; "ZkVersion"; "Replicas"; "OfflineReplicas"] UpdateMetadataPartitionState6_named.
Definition UpdateMetadataResponse_entry : named_codec := Named "UpdateMetadataResponse" UpdateMetadataResponse_codec ["ErrorCode"] UpdateMetadataResponse_named.
Definition ControlledShutdownRequest_entry : named_codec := Named "ControlledShutdownRequest" ControlledShutdownRequest_codec ["BrokerId"; "BrokerEpoch"] ControlledShutdownRequest_named.
Definition ControlledShutdownResponse_entry : named_codec := Named "ControlledShutdownResponse" ControlledShutdownResponse_codec ["ErrorCode"; "RemainingPartitions"] ControlledShutdownResponse_named.
Definition RemainingPartition7_entry : named_codec := Named "RemainingPartition7" RemainingPartition7_codec ["TopicName"; "PartitionIndex"] RemainingPartition7_named.
Definition OffsetCommitRequest_entry : named_codec := Named "OffsetCommitRequest" OffsetCommitRequest_codec ["GroupId"; "GenerationId"; "MemberId"; "GroupInstanceId"; "RetentionTimeMs"; "Topics"] OffsetCommitRequest_named.
Definition OffsetCommitRequestTopic8_entry : named_codec := Named "OffsetCommitRequestTopic8" OffsetCommitRequestTopic8_codec ["Name"; "Partitions"] OffsetCommitRequestTopic8_named.
Definition OffsetCommitRequestPartition8_entry : named_codec := Named "OffsetCommitRequestPartition8" OffsetCommitRequestPartition8_codec ["PartitionIndex"; "CommittedOffset"; "CommittedLeaderEpoch"; "CommittedMetadata"] OffsetCommitRequestPartition8_named.
Definition OffsetCommitResponse_entry : named_codec := Named "OffsetCommitResponse" OffsetCommitResponse_codec ["ThrottleTimeMs"; "Topics"] OffsetCommitResponse_named.
Definition OffsetCommitResponseTopic8_entry : named_codec := Named "OffsetCommitResponseTopic8" OffsetCommitResponseTopic8_codec ["Name"; "Partitions"] OffsetCommitResponseTopic8_named.
Definition OffsetCommitResponsePartition8_entry : named_codec := Named "OffsetCommitResponsePartition8" OffsetCommitResponsePartition8_codec ["PartitionIndex"; "ErrorCode"] OffsetCommitResponsePartition8_named.
Definition OffsetFetchRequest_entry : named_codec := Named "OffsetFetchRequest" OffsetFetchRequest_codec ["GroupId"; "Topics"] OffsetFetchRequest_named.
Definition OffsetFetchRequestTopic9_entry : named_codec := Named "OffsetFetchRequestTopic9" OffsetFetchRequestTopic9_codec ["Name"; "PartitionIndexes"] OffsetFetchRequestTopic9_named.
Definition OffsetFetchResponse_entry : named_codec := Named "OffsetFetchResponse" OffsetFetchResponse_codec ["ThrottleTimeMs"; "Topics"; "ErrorCode"] OffsetFetchResponse_named.
Definition OffsetFetchResponseTopic9_entry : named_codec := Named "OffsetFetchResponseTopic9" OffsetFetchResponseTopic9_codec ["Name"; "Partitions"] OffsetFetchResponseTopic9_named.
Definition OffsetFetchResponsePartition9_entry : named_codec := Named "OffsetFetchResponsePartition9" OffsetFetchResponsePartition9_codec ["PartitionIndex"; "CommittedOffset"; "CommittedLeaderEpoch"; "Metadata"; "ErrorCode"] OffsetFetchResponsePartition9_named.
Definition FindCoordinatorRequest_entry : named_codec := Named "FindCoordinatorRequest" FindCoordinatorRequest_codec ["Key"; "KeyType"] FindCoordinatorRequest_named.
Definition FindCoordinatorResponse_entry : named_codec := Named "FindCoordinatorResponse" FindCoordinatorResponse_codec ["ThrottleTimeMs"; "ErrorCode"; "ErrorMessage"; "NodeId"; "Host"; "Port"] FindCoordinatorResponse_named.
Definition JoinGroupRequest_entry : named_codec := Named "JoinGroupRequest" JoinGroupRequest_codec ["GroupId"; "SessionTimeoutMs"; "RebalanceTimeoutMs"; "MemberId"; "GroupInstanceId"; "ProtocolType"; "Protocols"] JoinGroupRequest_named.
Definition JoinGroupRequestProtocol11_entry : named_codec := Named "JoinGroupRequestProtocol11" JoinGroupRequestProtocol11_codec ["Name"; "Metadata"] JoinGroupRequestProtocol11_named.
Definition JoinGroupResponse_entry : named_codec := Named "JoinGroupResponse" JoinGroupResponse_codec ["ThrottleTimeMs"; "ErrorCode"; "GenerationId"; "ProtocolName"; "Leader"; "MemberId"; "Members"] JoinGroupResponse_named.
Definition JoinGroupResponseMember11_entry : named_codec := Named "JoinGroupResponseMember11" JoinGroupResponseMember11_codec ["MemberId"; "GroupInstanceId"; "Metadata"] JoinGroupResponseMember11_named.
Definition HeartbeatRequest_entry : named_codec := Named "HeartbeatRequest" HeartbeatRequest_codec ["GroupId"; "GenerationId"; "MemberId"; "GroupInstanceId"] HeartbeatRequest_named.
Definition HeartbeatResponse_entry : named_codec := Named "HeartbeatResponse" HeartbeatResponse_codec ["ThrottleTimeMs"; "ErrorCode"] HeartbeatResponse_named.
Definition LeaveGroupRequest_entry : named_codec := Named "LeaveGroupRequest" LeaveGroupRequest_codec ["GroupId"; "MemberId"; "Members"] LeaveGroupRequest_named.
Definition MemberIdentity13_entry : named_codec := Named "MemberIdentity13" MemberIdentity13_codec ["MemberId"; "GroupInstanceId"] MemberIdentity13_named.
Definition LeaveGroupResponse_entry : named_codec := Named "LeaveGroupResponse" LeaveGroupResponse_codec ["ThrottleTimeMs"; "ErrorCode"; "Members"] LeaveGroupResponse_named.
Definition MemberResponse13_entry : named_codec := Named "MemberResponse13" MemberResponse13_codec ["MemberId"; "GroupInstanceId"; "ErrorCode"] MemberResponse13_named.
Definition SyncGroupRequest_entry : named_codec := Named "SyncGroupRequest" SyncGroupRequest_codec ["GroupId"; "GenerationId"; "MemberId"; "GroupInstanceId"; "Assignments"] SyncGroupRequest_named.
Definition SyncGroupRequestAssignment14_entry : named_codec := Named "SyncGroupRequestAssignment14" SyncGroupRequestAssignment14_codec ["MemberId"; "Assignment"] SyncGroupRequestAssignment14_named.
Definition SyncGroupResponse_entry : named_codec := Named "SyncGroupResponse" SyncGroupResponse_codec ["ThrottleTimeMs"; "ErrorCode"; "Assignment"] SyncGroupResponse_named.
Definition DescribeGroupsRequest_entry : named_codec := Named "DescribeGroupsRequest" DescribeGroupsRequest_codec ["Groups"; "IncludeAuthorizedOperations"] DescribeGroupsRequest_named.
Definition DescribeGroupsResponse_entry : named_codec := Named "DescribeGroupsResponse" DescribeGroupsResponse_codec ["ThrottleTimeMs"; "Groups"] DescribeGroupsResponse_named.
Definition DescribedGroup15_entry : named_codec := Named "DescribedGroup15" DescribedGroup15_codec ["ErrorCode"; "GroupId"; "GroupState"; "ProtocolType"; "ProtocolData"; "Members"; "AuthorizedOperations"] DescribedGroup15_named.
Definition DescribedGroupMember15_entry : named_codec := Named "DescribedGroupMember15" DescribedGroupMember15_codec ["MemberId"; "GroupInstanceId"; "ClientId"; "ClientHost"; "MemberMetadata"; "MemberAssignment"] DescribedGroupMember15_named.
Definition ListGroupsRequest_entry : named_codec := Named "ListGroupsRequest" ListGroupsRequest_codec [] ListGroupsRequest_named.
Definition ListGroupsResponse_entry : named_codec := Named "ListGroupsResponse" ListGroupsResponse_codec ["ThrottleTimeMs"; "ErrorCode"; "Groups"] ListGroupsResponse_named.
Definition ListedGroup16_entry : named_codec := Named "ListedGroup16" ListedGroup16_codec ["GroupId"; "ProtocolType"] ListedGroup16_named.
Definition SaslHandshakeRequest_entry : named_codec := Named "SaslHandshakeRequest" SaslHandshakeRequest_codec ["Mechanism"] SaslHandshakeRequest_named.
Definition SaslHandshakeResponse_entry : named_codec := Named "SaslHandshakeResponse" SaslHandshakeResponse_codec ["ErrorCode"; "Mechanisms"] SaslHandshakeResponse_named.
Definition ApiVersionsRequest_entry : named_codec := Named "ApiVersionsRequest" ApiVersionsRequest_codec ["ClientSoftwareName"; "ClientSoftwareVersion"] ApiVersionsRequest_named.
Definition ApiVersionsResponse_entry : named_codec := Named "ApiVersionsResponse" ApiVersionsResponse_codec ["ErrorCode"; "ApiKeys"; "ThrottleTimeMs"] ApiVersionsResponse_named.
Definition ApiVersionsResponseKey18_entry : named_codec := Named "ApiVersionsResponseKey18" ApiVersionsResponseKey18_codec ["ApiKey"; "MinVersion"; "MaxVersion"] ApiVersionsResponseKey18_named.
Definition CreateTopicsRequest_entry : named_codec := Named "CreateTopicsRequest" CreateTopicsRequest_codec ["Topics"; "timeoutMs"; "validateOnly"] CreateTopicsRequest_named.
Definition CreatableTopic19_entry : named_codec := Named "CreatableTopic19" CreatableTopic19_codec ["Name"; "NumPartitions"; "ReplicationFactor"; "Assignments"; "Configs"] CreatableTopic19_named.
Definition CreatableReplicaAssignment19_entry : named_codec := Named "CreatableReplicaAssignment19" CreatableReplicaAssignment19_codec ["PartitionIndex"; "BrokerIds"] CreatableReplicaAssignment19_named.
Definition CreateableTopicConfig19_entry : named_codec := Named "CreateableTopicConfig19" CreateableTopicConfig19_codec ["Name"; "Value"] CreateableTopicConfig19_named.
Definition CreateTopicsResponse_entry : named_codec := Named "CreateTopicsResponse" CreateTopicsResponse_codec ["ThrottleTimeMs"; "Topics"] CreateTopicsResponse_named.
Definition CreatableTopicResult19_entry : named_codec := Named "CreatableTopicResult19" CreatableTopicResult19_codec ["Name"; "ErrorCode"; "ErrorMessage"; "TopicConfigErrorCode"; "NumPartitions"; "ReplicationFactor"; "Configs"] CreatableTopicResult19_named.
Definition CreatableTopicConfigs19_entry : named_codec := Named "CreatableTopicConfigs19" CreatableTopicConfigs19_codec ["Name"; "Value"; "ReadOnly"; "ConfigSource"; "IsSensitive"] CreatableTopicConfigs19_named.
Definition DeleteTopicsRequest_entry : named_codec := Named "DeleteTopicsRequest" DeleteTopicsRequest_codec ["TopicNames"; "TimeoutMs"] DeleteTopicsRequest_named.
Definition DeleteTopicsResponse_entry : named_codec := Named "DeleteTopicsResponse" DeleteTopicsResponse_codec ["ThrottleTimeMs"; "Responses"] DeleteTopicsResponse_named.
Definition DeletableTopicResult20_entry : named_codec := Named "DeletableTopicResult20" DeletableTopicResult20_codec ["Name"; "ErrorCode"] DeletableTopicResult20_named.
Definition DeleteRecordsRequest_entry : named_codec := Named "DeleteRecordsRequest" DeleteRecordsRequest_codec ["Topics"; "TimeoutMs"] DeleteRecordsRequest_named.
Definition DeleteRecordsTopic21_entry : named_codec := Named "DeleteRecordsTopic21" DeleteRecordsTopic21_codec ["Name"; "Partitions"] DeleteRecordsTopic21_named.
Definition DeleteRecordsPartition21_entry : named_codec := Named "DeleteRecordsPartition21" DeleteRecordsPartition21_codec ["PartitionIndex"; "Offset"] DeleteRecordsPartition21_named.
Definition DeleteRecordsResponse_entry : named_codec := Named "DeleteRecordsResponse" DeleteRecordsResponse_codec ["ThrottleTimeMs"; "Topics"] DeleteRecordsResponse_named.
Definition DeleteRecordsTopicResult21_entry : named_codec := Named "DeleteRecordsTopicResult21" DeleteRecordsTopicResult21_codec ["Name"; "Partitions"] DeleteRecordsTopicResult21_named.
Definition DeleteRecordsPartitionResult21_entry : named_codec := Named "DeleteRecordsPartitionResult21" DeleteRecordsPartitionResult21_codec ["PartitionIndex"; "LowWatermark"; "ErrorCode"] DeleteRecordsPartitionResult21_named.
Definition InitProducerIdRequest_entry : named_codec := Named "InitProducerIdRequest" InitProducerIdRequest_codec ["TransactionalId"; "TransactionTimeoutMs"] InitProducerIdRequest_named.
Definition InitProducerIdResponse_entry : named_codec := Named "InitProducerIdResponse" InitProducerIdResponse_codec ["ThrottleTimeMs"; "ErrorCode"; "ProducerId"; "ProducerEpoch"] InitProducerIdResponse_named.
Definition OffsetForLeaderEpochRequest_entry : named_codec := Named "OffsetForLeaderEpochRequest" OffsetForLeaderEpochRequest_codec ["ReplicaId"; "Topics"] OffsetForLeaderEpochRequest_named.
Definition OffsetForLeaderTopic23_entry : named_codec := Named "OffsetForLeaderTopic23" OffsetForLeaderTopic23_codec ["Name"; "Partitions"] OffsetForLeaderTopic23_named.
Definition OffsetForLeaderPartition23_entry : named_codec := Named "OffsetForLeaderPartition23" OffsetForLeaderPartition23_codec ["PartitionIndex"; "CurrentLeaderEpoch"; "LeaderEpoch"] OffsetForLeaderPartition23_named.
Definition OffsetForLeaderEpochResponse_entry : named_codec := Named "OffsetForLeaderEpochResponse" OffsetForLeaderEpochResponse_codec ["ThrottleTimeMs"; "Topics"] OffsetForLeaderEpochResponse_named.
Definition OffsetForLeaderTopicResult23_entry : named_codec := Named "OffsetForLeaderTopicResult23" OffsetForLeaderTopicResult23_codec ["Name"; "Partitions"] OffsetForLeaderTopicResult23_named.
Definition OffsetForLeaderPartitionResult23_entry : named_codec := Named "OffsetForLeaderPartitionResult23" OffsetForLeaderPartitionResult23_codec ["ErrorCode"; "PartitionIndex"; "LeaderEpoch"; "EndOffset"] OffsetForLeaderPartitionResult23_named.
Definition AddPartitionsToTxnRequest_entry : named_codec := Named "AddPartitionsToTxnRequest" AddPartitionsToTxnRequest_codec ["TransactionalId"; "ProducerId"; "ProducerEpoch"; "Topics"] AddPartitionsToTxnRequest_named.
Definition AddPartitionsToTxnTopic24_entry : named_codec := Named "AddPartitionsToTxnTopic24" AddPartitionsToTxnTopic24_codec ["Name"; "Partitions"] AddPartitionsToTxnTopic24_named.
Definition AddPartitionsToTxnResponse_entry : named_codec := Named "AddPartitionsToTxnResponse" AddPartitionsToTxnResponse_codec ["ThrottleTimeMs"; "Results"] AddPartitionsToTxnResponse_named.
Definition AddPartitionsToTxnTopicResult24_entry : named_codec := Named "AddPartitionsToTxnTopicResult24" AddPartitionsToTxnTopicResult24_codec ["Name"; "Results"] AddPartitionsToTxnTopicResult24_named.
Definition AddPartitionsToTxnPartitionResult24_entry : named_codec := Named "AddPartitionsToTxnPartitionResult24" AddPartitionsToTxnPartitionResult24_codec ["PartitionIndex"; "ErrorCode"] AddPartitionsToTxnPartitionResult24_named.
Definition AddOffsetsToTxnRequest_entry : named_codec := Named "AddOffsetsToTxnRequest" AddOffsetsToTxnRequest_codec ["TransactionalId"; "ProducerId"; "ProducerEpoch"; "GroupId"] AddOffsetsToTxnRequest_named.
Definition AddOffsetsToTxnResponse_entry : named_codec := Named "AddOffsetsToTxnResponse" AddOffsetsToTxnResponse_codec ["ThrottleTimeMs"; "ErrorCode"] AddOffsetsToTxnResponse_named.
Definition EndTxnRequest_entry : named_codec := Named "EndTxnRequest" EndTxnRequest_codec ["TransactionalId"; "ProducerId"; "ProducerEpoch"; "Committed"] EndTxnRequest_named.
Definition EndTxnResponse_entry : named_codec := Named "EndTxnResponse" EndTxnResponse_codec ["ThrottleTimeMs"; "ErrorCode"] EndTxnResponse_named.
Definition WriteTxnMarkersRequest_entry : named_codec := Named "WriteTxnMarkersRequest" WriteTxnMarkersRequest_codec ["Markers"] WriteTxnMarkersRequest_named.
Definition WritableTxnMarker27_entry : named_codec := Named "WritableTxnMarker27" WritableTxnMarker27_codec ["ProducerId"; "ProducerEpoch"; "TransactionResult"; "Topics"; "CoordinatorEpoch"] WritableTxnMarker27_named.
Definition WritableTxnMarkerTopic27_entry : named_codec := Named "WritableTxnMarkerTopic27" WritableTxnMarkerTopic27_codec ["Name"; "PartitionIndexes"] WritableTxnMarkerTopic27_named.
Definition WriteTxnMarkersResponse_entry : named_codec := Named "WriteTxnMarkersResponse" WriteTxnMarkersResponse_codec ["Markers"] WriteTxnMarkersResponse_named.
Definition WritableTxnMarkerResult27_entry : named_codec := Named "WritableTxnMarkerResult27" WritableTxnMarkerResult27_codec ["ProducerId"; "Topics"] WritableTxnMarkerResult27_named.
Definition WritableTxnMarkerTopicResult27_entry : named_codec := Named "WritableTxnMarkerTopicResult27" WritableTxnMarkerTopicResult27_codec ["Name"; "Partitions"] WritableTxnMarkerTopicResult27_named.
Definition WritableTxnMarkerPartitionResult27_entry : named_codec := Named "WritableTxnMarkerPartitionResult27" WritableTxnMarkerPartitionResult27_codec ["PartitionIndex"; "ErrorCode"] WritableTxnMarkerPartitionResult27_named.
Definition TxnOffsetCommitRequest_entry : named_codec := Named "TxnOffsetCommitRequest" TxnOffsetCommitRequest_codec ["TransactionalId"; "GroupId"; "ProducerId"; "ProducerEpoch"; "Topics"] TxnOffsetCommitRequest_named.
Definition TxnOffsetCommitRequestTopic28_entry : named_codec := Named "TxnOffsetCommitRequestTopic28" TxnOffsetCommitRequestTopic28_codec ["Name"; "Partitions"] TxnOffsetCommitRequestTopic28_named.
Definition TxnOffsetCommitRequestPartition28_entry : named_codec := Named "TxnOffsetCommitRequestPartition28" TxnOffsetCommitRequestPartition28_codec ["PartitionIndex"; "CommittedOffset"; "CommittedLeaderEpoch"; "CommittedMetadata"] TxnOffsetCommitRequestPartition28_named.
Definition TxnOffsetCommitResponse_entry : named_codec := Named "TxnOffsetCommitResponse" TxnOffsetCommitResponse_codec ["ThrottleTimeMs"; "Topics"] TxnOffsetCommitResponse_named.
Definition TxnOffsetCommitResponseTopic28_entry : named_codec := Named "TxnOffsetCommitResponseTopic28" TxnOffsetCommitResponseTopic28_codec ["Name"; "Partitions"] TxnOffsetCommitResponseTopic28_named.
Definition TxnOffsetCommitResponsePartition28_entry : named_codec := Named "TxnOffsetCommitResponsePartition28" TxnOffsetCommitResponsePartition28_codec ["PartitionIndex"; "ErrorCode"] TxnOffsetCommitResponsePartition28_named.
Definition DescribeAclsRequest_entry : named_codec := Named "DescribeAclsRequest" DescribeAclsRequest_codec ["ResourceType"; "ResourceNameFilter"; "ResourcePatternType"; "PrincipalFilter"; "HostFilter"; "Operation"; "PermissionType"] DescribeAclsRequest_named.
Definition DescribeAclsResponse_entry : named_codec := Named "DescribeAclsResponse" DescribeAclsResponse_codec ["ThrottleTimeMs"; "ErrorCode"; "ErrorMessage"; "Resources"] DescribeAclsResponse_named.
Definition DescribeAclsResource29_entry : named_codec := Named "DescribeAclsResource29" DescribeAclsResource29_codec ["Type"; "Name"; "PatternType"; "Acls"] DescribeAclsResource29_named.
Definition AclDescription29_entry : named_codec := Named "AclDescription29" AclDescription29_codec ["Principal"; "Host"; "Operation"; "PermissionType"] AclDescription29_named.
Definition CreateAclsRequest_entry : named_codec := Named "CreateAclsRequest" CreateAclsRequest_codec ["Creations"] CreateAclsRequest_named.
Definition CreatableAcl30_entry : named_codec := Named "CreatableAcl30" CreatableAcl30_codec ["ResourceType"; "ResourceName"; "ResourcePatternType"; "Principal"; "Host"; "Operation"; "PermissionType"] CreatableAcl30_named.
Definition CreateAclsResponse_entry : named_codec := Named "CreateAclsResponse" CreateAclsResponse_codec ["ThrottleTimeMs"; "Results"] CreateAclsResponse_named.
Definition CreatableAclResult30_entry : named_codec := Named "CreatableAclResult30" CreatableAclResult30_codec ["ErrorCode"; "ErrorMessage"] CreatableAclResult30_named.
Definition DeleteAclsRequest_entry : named_codec := Named "DeleteAclsRequest" DeleteAclsRequest_codec ["Filters"] DeleteAclsRequest_named.
Definition DeleteAclsFilter31_entry : named_codec := Named "DeleteAclsFilter31" DeleteAclsFilter31_codec ["ResourceTypeFilter"; "ResourceNameFilter"; "PatternTypeFilter"; "PrincipalFilter"; "HostFilter"; "Operation"; "PermissionType"] DeleteAclsFilter31_named.
Definition DeleteAclsResponse_entry : named_codec := Named "DeleteAclsResponse" DeleteAclsResponse_codec ["ThrottleTimeMs"; "FilterResults"] DeleteAclsResponse_named.
Definition DeleteAclsFilterResult31_entry : named_codec := Named "DeleteAclsFilterResult31" DeleteAclsFilterResult31_codec ["ErrorCode"; "ErrorMessage"; "MatchingAcls"] DeleteAclsFilterResult31_named.
Definition DeleteAclsMatchingAcl31_entry : named_codec := Named "DeleteAclsMatchingAcl31" DeleteAclsMatchingAcl31_codec ["ErrorCode"; "ErrorMessage"; "ResourceType"; "ResourceName"; "PatternType"; "Principal"; "Host"; "Operation"; "PermissionType"] DeleteAclsMatchingAcl31_named.
Definition DescribeConfigsRequest_entry : named_codec := Named "DescribeConfigsRequest" DescribeConfigsRequest_codec ["Resources"; "IncludeSynoyms"] DescribeConfigsRequest_named.
Definition DescribeConfigsResource32_entry : named_codec := Named "DescribeConfigsResource32" DescribeConfigsResource32_codec ["ResourceType"; "ResourceName"; "ConfigurationKeys"] DescribeConfigsResource32_named.
Definition DescribeConfigsResponse_entry : named_codec := Named "DescribeConfigsResponse" DescribeConfigsResponse_codec ["ThrottleTimeMs"; "Results"] DescribeConfigsResponse_named.
Definition DescribeConfigsResult32_entry : named_codec := Named "DescribeConfigsResult32" DescribeConfigsResult32_codec ["ErrorCode"; "ErrorMessage"; "ResourceType"; "ResourceName"; "Configs"] DescribeConfigsResult32_named.
Definition DescribeConfigsResourceResult32_entry : named_codec := Named "DescribeConfigsResourceResult32" DescribeConfigsResourceResult32_codec ["Name"; "Value"; "ReadOnly"; "IsDefault"; "ConfigSource"; "IsSensitive"; "Synonyms"] DescribeConfigsResourceResult32_named.
Definition DescribeConfigsSynonym32_entry : named_codec := Named "DescribeConfigsSynonym32" DescribeConfigsSynonym32_codec ["Name"; "Value"; "Source"] DescribeConfigsSynonym32_named.
Definition AlterConfigsRequest_entry : named_codec := Named "AlterConfigsRequest" AlterConfigsRequest_codec ["Resources"; "ValidateOnly"] AlterConfigsRequest_named.
Definition AlterConfigsResource33_entry : named_codec := Named "AlterConfigsResource33" AlterConfigsResource33_codec ["ResourceType"; "ResourceName"; "Configs"] AlterConfigsResource33_named.
Definition AlterableConfig33_entry : named_codec := Named "AlterableConfig33" AlterableConfig33_codec ["Name"; "Value"] AlterableConfig33_named.
Definition AlterConfigsResponse_entry : named_codec := Named "AlterConfigsResponse" AlterConfigsResponse_codec ["ThrottleTimeMs"; "Responses"] AlterConfigsResponse_named.
Definition AlterConfigsResourceResponse33_entry : named_codec := Named "AlterConfigsResourceResponse33" AlterConfigsResourceResponse33_codec ["ErrorCode"; "ErrorMessage"; "ResourceType"; "ResourceName"] AlterConfigsResourceResponse33_named.
Definition AlterReplicaLogDirsRequest_entry : named_codec := Named "AlterReplicaLogDirsRequest" AlterReplicaLogDirsRequest_codec ["Dirs"] AlterReplicaLogDirsRequest_named.
Definition AlterReplicaLogDir34_entry : named_codec := Named "AlterReplicaLogDir34" AlterReplicaLogDir34_codec ["Path"; "Topics"] AlterReplicaLogDir34_named.
Definition AlterReplicaLogDirTopic34_entry : named_codec := Named "AlterReplicaLogDirTopic34" AlterReplicaLogDirTopic34_codec ["Name"; "Partitions"] AlterReplicaLogDirTopic34_named.
Definition AlterReplicaLogDirsResponse_entry : named_codec := Named "AlterReplicaLogDirsResponse" AlterReplicaLogDirsResponse_codec ["ThrottleTimeMs"; "Results"] AlterReplicaLogDirsResponse_named.
Definition AlterReplicaLogDirTopicResult34_entry : named_codec := Named "AlterReplicaLogDirTopicResult34" AlterReplicaLogDirTopicResult34_codec ["TopicName"; "Partitions"] AlterReplicaLogDirTopicResult34_named.
Definition AlterReplicaLogDirPartitionResult34_entry : named_codec := Named "AlterReplicaLogDirPartitionResult34" AlterReplicaLogDirPartitionResult34_codec ["PartitionIndex"; "ErrorCode"] AlterReplicaLogDirPartitionResult34_named.
Definition DescribeLogDirsRequest_entry : named_codec := Named "DescribeLogDirsRequest" DescribeLogDirsRequest_codec ["Topics"] DescribeLogDirsRequest_named.
Definition DescribableLogDirTopic35_entry : named_codec := Named "DescribableLogDirTopic35" DescribableLogDirTopic35_codec ["Topic"; "PartitionIndex"] DescribableLogDirTopic35_named.
Definition DescribeLogDirsResponse_entry : named_codec := Named "DescribeLogDirsResponse" DescribeLogDirsResponse_codec ["ThrottleTimeMs"; "Results"] DescribeLogDirsResponse_named.
Definition DescribeLogDirsResult35_entry : named_codec := Named "DescribeLogDirsResult35" DescribeLogDirsResult35_codec ["ErrorCode"; "LogDir"; "Topics"] DescribeLogDirsResult35_named.
Definition DescribeLogDirsTopic35_entry : named_codec := Named "DescribeLogDirsTopic35" DescribeLogDirsTopic35_codec ["Name"; "Partitions"] DescribeLogDirsTopic35_named.
Definition DescribeLogDirsPartition35_entry : named_codec := Named "DescribeLogDirsPartition35" DescribeLogDirsPartition35_codec ["PartitionIndex"; "PartitionSize"; "OffsetLag"; "IsFutureKey"] DescribeLogDirsPartition35_named.
Definition SaslAuthenticateRequest_entry : named_codec := Named "SaslAuthenticateRequest" SaslAuthenticateRequest_codec ["AuthBytes"] SaslAuthenticateRequest_named.
Definition SaslAuthenticateResponse_entry : named_codec := Named "SaslAuthenticateResponse" SaslAuthenticateResponse_codec ["ErrorCode"; "ErrorMessage"; "AuthBytes"; "SessionLifetimeMs"] SaslAuthenticateResponse_named.
Definition CreatePartitionsRequest_entry : named_codec := Named "CreatePartitionsRequest" CreatePartitionsRequest_codec ["Topics"; "TimeoutMs"; "ValidateOnly"] CreatePartitionsRequest_named.
Definition CreatePartitionsTopic37_entry : named_codec := Named "CreatePartitionsTopic37" CreatePartitionsTopic37_codec ["Name"; "Count"; "Assignments"] CreatePartitionsTopic37_named.
Definition CreatePartitionsAssignment37_entry : named_codec := Named "CreatePartitionsAssignment37" CreatePartitionsAssignment37_codec ["BrokerIds"] CreatePartitionsAssignment37_named.
Definition CreatePartitionsResponse_entry : named_codec := Named "CreatePartitionsResponse" CreatePartitionsResponse_codec ["ThrottleTimeMs"; "Results"] CreatePartitionsResponse_named.
Definition CreatePartitionsTopicResult37_entry : named_codec := Named "CreatePartitionsTopicResult37" CreatePartitionsTopicResult37_codec ["Name"; "ErrorCode"; "ErrorMessage"] CreatePartitionsTopicResult37_named.
Definition CreateDelegationTokenRequest_entry : named_codec := Named "CreateDelegationTokenRequest" CreateDelegationTokenRequest_codec ["Renewers"; "MaxLifetimeMs"] CreateDelegationTokenRequest_named.
Definition CreatableRenewers38_entry : named_codec := Named "CreatableRenewers38" CreatableRenewers38_codec ["PrincipalType"; "PrincipalName"] CreatableRenewers38_named.
Definition CreateDelegationTokenResponse_entry : named_codec := Named "CreateDelegationTokenResponse" CreateDelegationTokenResponse_codec ["ErrorCode"; "PrincipalType"; "PrincipalName"; "IssueTimestampMs"; "ExpiryTimestampMs"; "MaxTimestampMs"; "TokenId"; "Hmac"; "ThrottleTimeMs"] CreateDelegationTokenResponse_named.
Definition RenewDelegationTokenRequest_entry : named_codec := Named "RenewDelegationTokenRequest" RenewDelegationTokenRequest_codec ["Hmac"; "RenewPeriodMs"] RenewDelegationTokenRequest_named.
Definition RenewDelegationTokenResponse_entry : named_codec := Named "RenewDelegationTokenResponse" RenewDelegationTokenResponse_codec ["ErrorCode"; "ExpiryTimestampMs"; "ThrottleTimeMs"] RenewDelegationTokenResponse_named.
Definition ExpireDelegationTokenRequest_entry : named_codec := Named "ExpireDelegationTokenRequest" ExpireDelegationTokenRequest_codec ["Hmac"; "ExpiryTimePeriodMs"] ExpireDelegationTokenRequest_named.
Definition ExpireDelegationTokenResponse_entry : named_codec := Named "ExpireDelegationTokenResponse" ExpireDelegationTokenResponse_codec ["ErrorCode"; "ExpiryTimestampMs"; "ThrottleTimeMs"] ExpireDelegationTokenResponse_named.
Definition DescribeDelegationTokenRequest_entry : named_codec := Named "DescribeDelegationTokenRequest" DescribeDelegationTokenRequest_codec ["Owners"] DescribeDelegationTokenRequest_named.
Definition DescribeDelegationTokenOwner41_entry : named_codec := Named "DescribeDelegationTokenOwner41" DescribeDelegationTokenOwner41_codec ["PrincipalType"; "PrincipalName"] DescribeDelegationTokenOwner41_named.
Definition DescribeDelegationTokenResponse_entry : named_codec := Named "DescribeDelegationTokenResponse" DescribeDelegationTokenResponse_codec ["ErrorCode"; "Tokens"; "ThrottleTimeMs"] DescribeDelegationTokenResponse_named.
Definition DescribedDelegationToken41_entry : named_codec := Named "DescribedDelegationToken41" DescribedDelegationToken41_codec ["PrincipalType"; "PrincipalName"; "IssueTimestamp"; "ExpiryTimestamp"; "MaxTimestamp"; "TokenId"; "Hmac"; "Renewers"] DescribedDelegationToken41_named.
Definition DescribedDelegationTokenRenewer41_entry : named_codec := Named "DescribedDelegationTokenRenewer41" DescribedDelegationTokenRenewer41_codec ["PrincipalType"; "PrincipalName"] DescribedDelegationTokenRenewer41_named.
Definition DeleteGroupsRequest_entry : named_codec := Named "DeleteGroupsRequest" DeleteGroupsRequest_codec ["GroupsNames"] DeleteGroupsRequest_named.
Definition DeleteGroupsResponse_entry : named_codec := Named "DeleteGroupsResponse" DeleteGroupsResponse_codec ["ThrottleTimeMs"; "Results"] DeleteGroupsResponse_named.
Definition DeletableGroupResult42_entry : named_codec := Named "DeletableGroupResult42" DeletableGroupResult42_codec ["GroupId"; "ErrorCode"] DeletableGroupResult42_named.
Definition ElectLeadersRequest_entry : named_codec := Named "ElectLeadersRequest" ElectLeadersRequest_codec ["ElectionType"; "TopicPartitions"; "TimeoutMs"] ElectLeadersRequest_named.
Definition TopicPartitions43_entry : named_codec := Named "TopicPartitions43" TopicPartitions43_codec ["Topic"; "PartitionId"] TopicPartitions43_named.
Definition ElectLeadersResponse_entry : named_codec := Named "ElectLeadersResponse" ElectLeadersResponse_codec ["ThrottleTimeMs"; "ErrorCode"; "ReplicaElectionResults"] ElectLeadersResponse_named.
Definition ReplicaElectionResult43_entry : named_codec := Named "ReplicaElectionResult43" ReplicaElectionResult43_codec ["Topic"; "PartitionResult"] ReplicaElectionResult43_named.
Definition PartitionResult43_entry : named_codec := Named "PartitionResult43" PartitionResult43_codec ["PartitionId"; "ErrorCode"; "ErrorMessage"] PartitionResult43_named.
Definition IncrementalAlterConfigsRequest_entry : named_codec := Named "IncrementalAlterConfigsRequest" IncrementalAlterConfigsRequest_codec ["Resources"; "ValidateOnly"] IncrementalAlterConfigsRequest_named.
Definition AlterConfigsResource44_entry : named_codec := Named "AlterConfigsResource44" AlterConfigsResource44_codec ["ResourceType"; "ResourceName"; "Configs"] AlterConfigsResource44_named.
Definition AlterableConfig44_entry : named_codec := Named "AlterableConfig44" AlterableConfig44_codec ["Name"; "ConfigOperation"; "Value"] AlterableConfig44_named.
Definition IncrementalAlterConfigsResponse_entry : named_codec := Named "IncrementalAlterConfigsResponse" IncrementalAlterConfigsResponse_codec ["ThrottleTimeMs"; "Responses"] IncrementalAlterConfigsResponse_named.
Definition AlterConfigsResourceResponse44_entry : named_codec := Named "AlterConfigsResourceResponse44" AlterConfigsResourceResponse44_codec ["ErrorCode"; "ErrorMessage"; "ResourceType"; "ResourceName"] AlterConfigsResourceResponse44_named.
Definition AlterPartitionReassignmentsRequest_entry : named_codec := Named "AlterPartitionReassignmentsRequest" AlterPartitionReassignmentsRequest_codec ["TimeoutMs"; "Topics"] AlterPartitionReassignmentsRequest_named.
Definition ReassignableTopic45_entry : named_codec := Named "ReassignableTopic45" ReassignableTopic45_codec ["Name"; "Partitions"] ReassignableTopic45_named.
Definition ReassignablePartition45_entry : named_codec := Named "ReassignablePartition45" ReassignablePartition45_codec ["PartitionIndex"; "Replicas"] ReassignablePartition45_named.
Definition AlterPartitionReassignmentsResponse_entry : named_codec := Named "AlterPartitionReassignmentsResponse" AlterPartitionReassignmentsResponse_codec ["ThrottleTimeMs"; "ErrorCode"; "ErrorMessage"; "Responses"] AlterPartitionReassignmentsResponse_named.
Definition ReassignableTopicResponse45_entry : named_codec := Named "ReassignableTopicResponse45" ReassignableTopicResponse45_codec ["Name"; "Partitions"] ReassignableTopicResponse45_named.
Definition ReassignablePartitionResponse45_entry : named_codec := Named "ReassignablePartitionResponse45" ReassignablePartitionResponse45_codec ["PartitionIndex"; "ErrorCode"; "ErrorMessage"] ReassignablePartitionResponse45_named.
Definition ListPartitionReassignmentsRequest_entry : named_codec := Named "ListPartitionReassignmentsRequest" ListPartitionReassignmentsRequest_codec ["TimeoutMs"; "Topics"] ListPartitionReassignmentsRequest_named.
Definition ListPartitionReassignmentsTopics46_entry : named_codec := Named "ListPartitionReassignmentsTopics46" ListPartitionReassignmentsTopics46_codec ["Name"; "PartitionIndexes"] ListPartitionReassignmentsTopics46_named.
Definition ListPartitionReassignmentsResponse_entry : named_codec := Named "ListPartitionReassignmentsResponse" ListPartitionReassignmentsResponse_codec ["ThrottleTimeMs"; "ErrorCode"; "ErrorMessage"; "Topics"] ListPartitionReassignmentsResponse_named.
Definition OngoingTopicReassignment46_entry : named_codec := Named "OngoingTopicReassignment46" OngoingTopicReassignment46_codec ["Name"; "Partitions"] OngoingTopicReassignment46_named.
Definition OngoingPartitionReassignment46_entry : named_codec := Named "OngoingPartitionReassignment46" OngoingPartitionReassignment46_codec ["PartitionIndex"; "Replicas"; "AddingReplicas"; "RemovingReplicas"] OngoingPartitionReassignment46_named.
Definition OffsetDeleteRequest_entry : named_codec := Named "OffsetDeleteRequest" OffsetDeleteRequest_codec ["GroupId"; "Topics"] OffsetDeleteRequest_named.
Definition OffsetDeleteRequestTopic47_entry : named_codec := Named "OffsetDeleteRequestTopic47" OffsetDeleteRequestTopic47_codec ["Name"; "Partitions"] OffsetDeleteRequestTopic47_named.
Definition OffsetDeleteRequestPartition47_entry : named_codec := Named "OffsetDeleteRequestPartition47" OffsetDeleteRequestPartition47_codec ["PartitionIndex"] OffsetDeleteRequestPartition47_named.
Definition OffsetDeleteResponse_entry : named_codec := Named "OffsetDeleteResponse" OffsetDeleteResponse_codec ["ErrorCode"; "ThrottleTimeMs"; "Topics"] OffsetDeleteResponse_named.
Definition OffsetDeleteResponseTopic47_entry : named_codec := Named "OffsetDeleteResponseTopic47" OffsetDeleteResponseTopic47_codec ["Name"; "Partitions"] OffsetDeleteResponseTopic47_named.
Definition OffsetDeleteResponsePartition47_entry : named_codec := Named "OffsetDeleteResponsePartition47" OffsetDeleteResponsePartition47_codec ["PartitionIndex"; "ErrorCode"] OffsetDeleteResponsePartition47_named.
Definition named_codecs : list named_codec :=
  [ProduceRequest_entry;
   TopicProduceData0_entry;
   PartitionProduceData0_entry;
   ProduceResponse_entry;
   TopicProduceResponse0_entry;
   PartitionProduceResponse0_entry;
   BatchIndexAndErrorMessage0_entry;
   RequestHeader_entry;
   ResponseHeader_entry;
   FetchRequest_entry;
   FetchableTopic1_entry;
   FetchPartition1_entry;
   ForgottenTopic1_entry;
   FetchResponse_entry;
   FetchableTopicResponse1_entry;
   FetchablePartitionResponse1_entry;
   AbortedTransaction1_entry;
   ListOffsetRequest_entry;
   ListOffsetTopic2_entry;
   ListOffsetPartition2_entry;
   ListOffsetResponse_entry;
   ListOffsetTopicResponse2_entry;
   ListOffsetPartitionResponse2_entry;
   MetadataRequest_entry;
   MetadataRequestTopic3_entry;
   MetadataResponse_entry;
   MetadataResponseBroker3_entry;
   MetadataResponseTopic3_entry;
   MetadataResponsePartition3_entry;
   LeaderAndIsrRequest_entry;
   LeaderAndIsrTopicState4_entry;
   LeaderAndIsrLiveLeader4_entry;
   LeaderAndIsrPartitionState4_entry;
   LeaderAndIsrResponse_entry;
   LeaderAndIsrPartitionError4_entry;
   StopReplicaRequest_entry;
   StopReplicaPartitionV05_entry;
   StopReplicaTopic5_entry;
   StopReplicaResponse_entry;
   StopReplicaPartitionError5_entry;
   UpdateMetadataRequest_entry;
   UpdateMetadataTopicState6_entry;
   UpdateMetadataBroker6_entry;
   UpdateMetadataEndpoint6_entry;
   UpdateMetadataPartitionState6_entry;
   UpdateMetadataResponse_entry;
   ControlledShutdownRequest_entry;
   ControlledShutdownResponse_entry;
   RemainingPartition7_entry;
   OffsetCommitRequest_entry;
   OffsetCommitRequestTopic8_entry;
   OffsetCommitRequestPartition8_entry;
   OffsetCommitResponse_entry;
   OffsetCommitResponseTopic8_entry;
   OffsetCommitResponsePartition8_entry;
   OffsetFetchRequest_entry;
   OffsetFetchRequestTopic9_entry;
   OffsetFetchResponse_entry;
   OffsetFetchResponseTopic9_entry;
   OffsetFetchResponsePartition9_entry;
   FindCoordinatorRequest_entry;
   FindCoordinatorResponse_entry;
   JoinGroupRequest_entry;
   JoinGroupRequestProtocol11_entry;
   JoinGroupResponse_entry;
   JoinGroupResponseMember11_entry;
   HeartbeatRequest_entry;
   HeartbeatResponse_entry;
   LeaveGroupRequest_entry;
   MemberIdentity13_entry;
   LeaveGroupResponse_entry;
   MemberResponse13_entry;
   SyncGroupRequest_entry;
   SyncGroupRequestAssignment14_entry;
   SyncGroupResponse_entry;
   DescribeGroupsRequest_entry;
   DescribeGroupsResponse_entry;
   DescribedGroup15_entry;
   DescribedGroupMember15_entry;
   ListGroupsRequest_entry;
   ListGroupsResponse_entry;
   ListedGroup16_entry;
   SaslHandshakeRequest_entry;
   SaslHandshakeResponse_entry;
   ApiVersionsRequest_entry;
   ApiVersionsResponse_entry;
   ApiVersionsResponseKey18_entry;
   CreateTopicsRequest_entry;
   CreatableTopic19_entry;
   CreatableReplicaAssignment19_entry;
   CreateableTopicConfig19_entry;
   CreateTopicsResponse_entry;
   CreatableTopicResult19_entry;
   CreatableTopicConfigs19_entry;
   DeleteTopicsRequest_entry;
   DeleteTopicsResponse_entry;
   DeletableTopicResult20_entry;
   DeleteRecordsRequest_entry;
   DeleteRecordsTopic21_entry;
   DeleteRecordsPartition21_entry;
   DeleteRecordsResponse_entry;
   DeleteRecordsTopicResult21_entry;
   DeleteRecordsPartitionResult21_entry;
   InitProducerIdRequest_entry;
   InitProducerIdResponse_entry;
   OffsetForLeaderEpochRequest_entry;
   OffsetForLeaderTopic23_entry;
   OffsetForLeaderPartition23_entry;
   OffsetForLeaderEpochResponse_entry;
   OffsetForLeaderTopicResult23_entry;
   OffsetForLeaderPartitionResult23_entry;
   AddPartitionsToTxnRequest_entry;
   AddPartitionsToTxnTopic24_entry;
   AddPartitionsToTxnResponse_entry;
   AddPartitionsToTxnTopicResult24_entry;
   AddPartitionsToTxnPartitionResult24_entry;
   AddOffsetsToTxnRequest_entry;
   AddOffsetsToTxnResponse_entry;
   EndTxnRequest_entry;
   EndTxnResponse_entry;
   WriteTxnMarkersRequest_entry;
   WritableTxnMarker27_entry;
   WritableTxnMarkerTopic27_entry;
   WriteTxnMarkersResponse_entry;
   WritableTxnMarkerResult27_entry;
   WritableTxnMarkerTopicResult27_entry;
   WritableTxnMarkerPartitionResult27_entry;
   TxnOffsetCommitRequest_entry;
   TxnOffsetCommitRequestTopic28_entry;
   TxnOffsetCommitRequestPartition28_entry;
   TxnOffsetCommitResponse_entry;
   TxnOffsetCommitResponseTopic28_entry;
   TxnOffsetCommitResponsePartition28_entry;
   DescribeAclsRequest_entry;
   DescribeAclsResponse_entry;
   DescribeAclsResource29_entry;
   AclDescription29_entry;
   CreateAclsRequest_entry;
   CreatableAcl30_entry;
   CreateAclsResponse_entry;
   CreatableAclResult30_entry;
   DeleteAclsRequest_entry;
   DeleteAclsFilter31_entry;
   DeleteAclsResponse_entry;
   DeleteAclsFilterResult31_entry;
   DeleteAclsMatchingAcl31_entry;
   DescribeConfigsRequest_entry;
   DescribeConfigsResource32_entry;
   DescribeConfigsResponse_entry;
   DescribeConfigsResult32_entry;
   DescribeConfigsResourceResult32_entry;
   DescribeConfigsSynonym32_entry;
   AlterConfigsRequest_entry;
   AlterConfigsResource33_entry;
   AlterableConfig33_entry;
   AlterConfigsResponse_entry;
   AlterConfigsResourceResponse33_entry;
   AlterReplicaLogDirsRequest_entry;
   AlterReplicaLogDir34_entry;
   AlterReplicaLogDirTopic34_entry;
   AlterReplicaLogDirsResponse_entry;
   AlterReplicaLogDirTopicResult34_entry;
   AlterReplicaLogDirPartitionResult34_entry;
   DescribeLogDirsRequest_entry;
   DescribableLogDirTopic35_entry;
   DescribeLogDirsResponse_entry;
   DescribeLogDirsResult35_entry;
   DescribeLogDirsTopic35_entry;
   DescribeLogDirsPartition35_entry;
   SaslAuthenticateRequest_entry;
   SaslAuthenticateResponse_entry;
   CreatePartitionsRequest_entry;
   CreatePartitionsTopic37_entry;
   CreatePartitionsAssignment37_entry;
   CreatePartitionsResponse_entry;
   CreatePartitionsTopicResult37_entry;
   CreateDelegationTokenRequest_entry;
   CreatableRenewers38_entry;
   CreateDelegationTokenResponse_entry;
   RenewDelegationTokenRequest_entry;
   RenewDelegationTokenResponse_entry;
   ExpireDelegationTokenRequest_entry;
   ExpireDelegationTokenResponse_entry;
   DescribeDelegationTokenRequest_entry;
   DescribeDelegationTokenOwner41_entry;
   DescribeDelegationTokenResponse_entry;
   DescribedDelegationToken41_entry;
   DescribedDelegationTokenRenewer41_entry;
   DeleteGroupsRequest_entry;
   DeleteGroupsResponse_entry;
   DeletableGroupResult42_entry;
   ElectLeadersRequest_entry;
   TopicPartitions43_entry;
   ElectLeadersResponse_entry;
   ReplicaElectionResult43_entry;
   PartitionResult43_entry;
   IncrementalAlterConfigsRequest_entry;
   AlterConfigsResource44_entry;
   AlterableConfig44_entry;
   IncrementalAlterConfigsResponse_entry;
   AlterConfigsResourceResponse44_entry;
   AlterPartitionReassignmentsRequest_entry;
   ReassignableTopic45_entry;
   ReassignablePartition45_entry;
   AlterPartitionReassignmentsResponse_entry;
   ReassignableTopicResponse45_entry;
   ReassignablePartitionResponse45_entry;
   ListPartitionReassignmentsRequest_entry;
   ListPartitionReassignmentsTopics46_entry;
   ListPartitionReassignmentsResponse_entry;
   OngoingTopicReassignment46_entry;
   OngoingPartitionReassignment46_entry;
   OffsetDeleteRequest_entry;
   OffsetDeleteRequestTopic47_entry;
   OffsetDeleteRequestPartition47_entry;
   OffsetDeleteResponse_entry;
   OffsetDeleteResponseTopic47_entry;
   OffsetDeleteResponsePartition47_entry].
