RequestHeader: RequestApiKey RequestApiVersion CorrelationId ClientId
ResponseHeader: CorrelationId
PartitionProduceData0: PartitionIndex Records
TopicProduceData0: Name Partitions[PartitionProduceData0]
ProduceRequest: TransactionalId Acks TimeoutMs Topics[TopicProduceData0]
BatchIndexAndErrorMessage0: BatchIndex BatchIndexErrorMessage
PartitionProduceResponse0: PartitionIndex ErrorCode BaseOffset LogAppendTimeMs LogStartOffset RecordErrors[BatchIndexAndErrorMessage0] ErrorMessage
TopicProduceResponse0: Name Partitions[PartitionProduceResponse0]
ProduceResponse: Responses[TopicProduceResponse0] ThrottleTimeMs
FetchPartition1: PartitionIndex CurrentLeaderEpoch FetchOffset LogStartOffset MaxBytes
FetchableTopic1: Name FetchPartitions[FetchPartition1]
ForgottenTopic1: Name ForgottenPartitionIndexes
FetchRequest: ReplicaId MaxWait MinBytes MaxBytes IsolationLevel SessionId Epoch Topics[FetchableTopic1] Forgotten[ForgottenTopic1] RackId
AbortedTransaction1: ProducerId FirstOffset
FetchablePartitionResponse1: PartitionIndex ErrorCode HighWatermark LastStableOffset LogStartOffset Aborted[AbortedTransaction1] PreferredReadReplica Records
FetchableTopicResponse1: Name Partitions[FetchablePartitionResponse1]
FetchResponse: ThrottleTimeMs ErrorCode SessionId Topics[FetchableTopicResponse1]
ListOffsetPartition2: PartitionIndex CurrentLeaderEpoch Timestamp MaxNumOffsets
ListOffsetTopic2: Name Partitions[ListOffsetPartition2]
ListOffsetRequest: ReplicaId IsolationLevel Topics[ListOffsetTopic2]
ListOffsetPartitionResponse2: PartitionIndex ErrorCode OldStyleOffsets Timestamp Offset LeaderEpoch
ListOffsetTopicResponse2: Name Partitions[ListOffsetPartitionResponse2]
ListOffsetResponse: ThrottleTimeMs Topics[ListOffsetTopicResponse2]
MetadataRequestTopic3: Name
MetadataRequest: Topics[MetadataRequestTopic3] AllowAutoTopicCreation IncludeClusterAuthorizedOperations IncludeTopicAuthorizedOperations
MetadataResponseBroker3: NodeId Host Port Rack
MetadataResponsePartition3: ErrorCode PartitionIndex LeaderId LeaderEpoch ReplicaNodes IsrNodes OfflineReplicas
MetadataResponseTopic3: ErrorCode Name IsInternal Partitions[MetadataResponsePartition3] TopicAuthorizedOperations
MetadataResponse: ThrottleTimeMs Brokers[MetadataResponseBroker3] ClusterId ControllerId Topics[MetadataResponseTopic3] ClusterAuthorizedOperations
LeaderAndIsrPartitionState4: TopicName PartitionIndex ControllerEpoch Leader LeaderEpoch Isr ZkVersion Replicas AddingReplicas RemovingReplicas IsNew
LeaderAndIsrTopicState4: TopicName PartitionStates[LeaderAndIsrPartitionState4]
LeaderAndIsrLiveLeader4: BrokerId HostName Port
LeaderAndIsrRequest: ControllerId ControllerEpoch BrokerEpoch UngroupedPartitionStates[LeaderAndIsrPartitionState4] TopicStates[LeaderAndIsrTopicState4] LiveLeaders[LeaderAndIsrLiveLeader4]
LeaderAndIsrPartitionError4: TopicName PartitionIndex ErrorCode
LeaderAndIsrResponse: ErrorCode PartitionErrors[LeaderAndIsrPartitionError4]
StopReplicaPartitionV05: TopicName PartitionIndex
StopReplicaTopic5: Name PartitionIndexes
StopReplicaRequest: ControllerId ControllerEpoch BrokerEpoch DeletePartitions UngroupedPartitions[StopReplicaPartitionV05] Topics[StopReplicaTopic5]
StopReplicaPartitionError5: TopicName PartitionIndex ErrorCode
StopReplicaResponse: ErrorCode PartitionErrors[StopReplicaPartitionError5]
UpdateMetadataPartitionState6: TopicName PartitionIndex ControllerEpoch Leader LeaderEpoch Isr ZkVersion Replicas OfflineReplicas
UpdateMetadataTopicState6: TopicName PartitionStates[UpdateMetadataPartitionState6]
UpdateMetadataEndpoint6: Port Host Listener SecurityProtocol
UpdateMetadataBroker6: Id V0Host V0Port Endpoints[UpdateMetadataEndpoint6] Rack
UpdateMetadataRequest: ControllerId ControllerEpoch BrokerEpoch UngroupedPartitionStates[UpdateMetadataPartitionState6] TopicStates[UpdateMetadataTopicState6] LiveBrokers[UpdateMetadataBroker6]
UpdateMetadataResponse: ErrorCode
ControlledShutdownRequest: BrokerId BrokerEpoch
RemainingPartition7: TopicName PartitionIndex
ControlledShutdownResponse: ErrorCode RemainingPartitions[RemainingPartition7]
OffsetCommitRequestPartition8: PartitionIndex CommittedOffset CommittedLeaderEpoch CommittedMetadata
OffsetCommitRequestTopic8: Name Partitions[OffsetCommitRequestPartition8]
OffsetCommitRequest: GroupId GenerationId MemberId GroupInstanceId RetentionTimeMs Topics[OffsetCommitRequestTopic8]
OffsetCommitResponsePartition8: PartitionIndex ErrorCode
OffsetCommitResponseTopic8: Name Partitions[OffsetCommitResponsePartition8]
OffsetCommitResponse: ThrottleTimeMs Topics[OffsetCommitResponseTopic8]
OffsetFetchRequestTopic9: Name PartitionIndexes
OffsetFetchRequest: GroupId Topics[OffsetFetchRequestTopic9]
OffsetFetchResponsePartition9: PartitionIndex CommittedOffset CommittedLeaderEpoch Metadata ErrorCode
OffsetFetchResponseTopic9: Name Partitions[OffsetFetchResponsePartition9]
OffsetFetchResponse: ThrottleTimeMs Topics[OffsetFetchResponseTopic9] ErrorCode
FindCoordinatorRequest: Key KeyType
FindCoordinatorResponse: ThrottleTimeMs ErrorCode ErrorMessage NodeId Host Port
JoinGroupRequestProtocol11: Name Metadata
JoinGroupRequest: GroupId SessionTimeoutMs RebalanceTimeoutMs MemberId GroupInstanceId ProtocolType Protocols[JoinGroupRequestProtocol11]
JoinGroupResponseMember11: MemberId GroupInstanceId Metadata
JoinGroupResponse: ThrottleTimeMs ErrorCode GenerationId ProtocolName Leader MemberId Members[JoinGroupResponseMember11]
HeartbeatRequest: GroupId GenerationId MemberId GroupInstanceId
HeartbeatResponse: ThrottleTimeMs ErrorCode
MemberIdentity13: MemberId GroupInstanceId
LeaveGroupRequest: GroupId MemberId Members[MemberIdentity13]
MemberResponse13: MemberId GroupInstanceId ErrorCode
LeaveGroupResponse: ThrottleTimeMs ErrorCode Members[MemberResponse13]
SyncGroupRequestAssignment14: MemberId Assignment
SyncGroupRequest: GroupId GenerationId MemberId GroupInstanceId Assignments[SyncGroupRequestAssignment14]
SyncGroupResponse: ThrottleTimeMs ErrorCode Assignment
DescribeGroupsRequest: Groups IncludeAuthorizedOperations
DescribedGroupMember15: MemberId GroupInstanceId ClientId ClientHost MemberMetadata MemberAssignment
DescribedGroup15: ErrorCode GroupId GroupState ProtocolType ProtocolData Members[DescribedGroupMember15] AuthorizedOperations
DescribeGroupsResponse: ThrottleTimeMs Groups[DescribedGroup15]
ListGroupsRequest:
ListedGroup16: GroupId ProtocolType
ListGroupsResponse: ThrottleTimeMs ErrorCode Groups[ListedGroup16]
SaslHandshakeRequest: Mechanism
SaslHandshakeResponse: ErrorCode Mechanisms
ApiVersionsRequest: ClientSoftwareName ClientSoftwareVersion
ApiVersionsResponseKey18: ApiKey MinVersion MaxVersion
ApiVersionsResponse: ErrorCode ApiKeys[ApiVersionsResponseKey18] ThrottleTimeMs
CreatableReplicaAssignment19: PartitionIndex BrokerIds
CreateableTopicConfig19: Name Value
CreatableTopic19: Name NumPartitions ReplicationFactor Assignments[CreatableReplicaAssignment19] Configs[CreateableTopicConfig19]
CreateTopicsRequest: Topics[CreatableTopic19] timeoutMs validateOnly
CreatableTopicConfigs19: Name Value ReadOnly ConfigSource IsSensitive
CreatableTopicResult19: Name ErrorCode ErrorMessage TopicConfigErrorCode NumPartitions ReplicationFactor Configs[CreatableTopicConfigs19]
CreateTopicsResponse: ThrottleTimeMs Topics[CreatableTopicResult19]
DeleteTopicsRequest: TopicNames TimeoutMs
DeletableTopicResult20: Name ErrorCode
DeleteTopicsResponse: ThrottleTimeMs Responses[DeletableTopicResult20]
DeleteRecordsPartition21: PartitionIndex Offset
DeleteRecordsTopic21: Name Partitions[DeleteRecordsPartition21]
DeleteRecordsRequest: Topics[DeleteRecordsTopic21] TimeoutMs
DeleteRecordsPartitionResult21: PartitionIndex LowWatermark ErrorCode
DeleteRecordsTopicResult21: Name Partitions[DeleteRecordsPartitionResult21]
DeleteRecordsResponse: ThrottleTimeMs Topics[DeleteRecordsTopicResult21]
InitProducerIdRequest: TransactionalId TransactionTimeoutMs
InitProducerIdResponse: ThrottleTimeMs ErrorCode ProducerId ProducerEpoch
OffsetForLeaderPartition23: PartitionIndex CurrentLeaderEpoch LeaderEpoch
OffsetForLeaderTopic23: Name Partitions[OffsetForLeaderPartition23]
OffsetForLeaderEpochRequest: ReplicaId Topics[OffsetForLeaderTopic23]
OffsetForLeaderPartitionResult23: ErrorCode PartitionIndex LeaderEpoch EndOffset
OffsetForLeaderTopicResult23: Name Partitions[OffsetForLeaderPartitionResult23]
OffsetForLeaderEpochResponse: ThrottleTimeMs Topics[OffsetForLeaderTopicResult23]
AddPartitionsToTxnTopic24: Name Partitions
AddPartitionsToTxnRequest: TransactionalId ProducerId ProducerEpoch Topics[AddPartitionsToTxnTopic24]
AddPartitionsToTxnPartitionResult24: PartitionIndex ErrorCode
AddPartitionsToTxnTopicResult24: Name Results[AddPartitionsToTxnPartitionResult24]
AddPartitionsToTxnResponse: ThrottleTimeMs Results[AddPartitionsToTxnTopicResult24]
AddOffsetsToTxnRequest: TransactionalId ProducerId ProducerEpoch GroupId
AddOffsetsToTxnResponse: ThrottleTimeMs ErrorCode
EndTxnRequest: TransactionalId ProducerId ProducerEpoch Committed
EndTxnResponse: ThrottleTimeMs ErrorCode
WritableTxnMarkerTopic27: Name PartitionIndexes
WritableTxnMarker27: ProducerId ProducerEpoch TransactionResult Topics[WritableTxnMarkerTopic27] CoordinatorEpoch
WriteTxnMarkersRequest: Markers[WritableTxnMarker27]
WritableTxnMarkerPartitionResult27: PartitionIndex ErrorCode
WritableTxnMarkerTopicResult27: Name Partitions[WritableTxnMarkerPartitionResult27]
WritableTxnMarkerResult27: ProducerId Topics[WritableTxnMarkerTopicResult27]
WriteTxnMarkersResponse: Markers[WritableTxnMarkerResult27]
TxnOffsetCommitRequestPartition28: PartitionIndex CommittedOffset CommittedLeaderEpoch CommittedMetadata
TxnOffsetCommitRequestTopic28: Name Partitions[TxnOffsetCommitRequestPartition28]
TxnOffsetCommitRequest: TransactionalId GroupId ProducerId ProducerEpoch Topics[TxnOffsetCommitRequestTopic28]
TxnOffsetCommitResponsePartition28: PartitionIndex ErrorCode
TxnOffsetCommitResponseTopic28: Name Partitions[TxnOffsetCommitResponsePartition28]
TxnOffsetCommitResponse: ThrottleTimeMs Topics[TxnOffsetCommitResponseTopic28]
DescribeAclsRequest: ResourceType ResourceNameFilter ResourcePatternType PrincipalFilter HostFilter Operation PermissionType
AclDescription29: Principal Host Operation PermissionType
DescribeAclsResource29: Type Name PatternType Acls[AclDescription29]
DescribeAclsResponse: ThrottleTimeMs ErrorCode ErrorMessage Resources[DescribeAclsResource29]
CreatableAcl30: ResourceType ResourceName ResourcePatternType Principal Host Operation PermissionType
CreateAclsRequest: Creations[CreatableAcl30]
CreatableAclResult30: ErrorCode ErrorMessage
CreateAclsResponse: ThrottleTimeMs Results[CreatableAclResult30]
DeleteAclsFilter31: ResourceTypeFilter ResourceNameFilter PatternTypeFilter PrincipalFilter HostFilter Operation PermissionType
DeleteAclsRequest: Filters[DeleteAclsFilter31]
DeleteAclsMatchingAcl31: ErrorCode ErrorMessage ResourceType ResourceName PatternType Principal Host Operation PermissionType
DeleteAclsFilterResult31: ErrorCode ErrorMessage MatchingAcls[DeleteAclsMatchingAcl31]
DeleteAclsResponse: ThrottleTimeMs FilterResults[DeleteAclsFilterResult31]
DescribeConfigsResource32: ResourceType ResourceName ConfigurationKeys
DescribeConfigsRequest: Resources[DescribeConfigsResource32] IncludeSynoyms
DescribeConfigsSynonym32: Name Value Source
DescribeConfigsResourceResult32: Name Value ReadOnly IsDefault ConfigSource IsSensitive Synonyms[DescribeConfigsSynonym32]
DescribeConfigsResult32: ErrorCode ErrorMessage ResourceType ResourceName Configs[DescribeConfigsResourceResult32]
DescribeConfigsResponse: ThrottleTimeMs Results[DescribeConfigsResult32]
AlterableConfig33: Name Value
AlterConfigsResource33: ResourceType ResourceName Configs[AlterableConfig33]
AlterConfigsRequest: Resources[AlterConfigsResource33] ValidateOnly
AlterConfigsResourceResponse33: ErrorCode ErrorMessage ResourceType ResourceName
AlterConfigsResponse: ThrottleTimeMs Responses[AlterConfigsResourceResponse33]
AlterReplicaLogDirTopic34: Name Partitions
AlterReplicaLogDir34: Path Topics[AlterReplicaLogDirTopic34]
AlterReplicaLogDirsRequest: Dirs[AlterReplicaLogDir34]
AlterReplicaLogDirPartitionResult34: PartitionIndex ErrorCode
AlterReplicaLogDirTopicResult34: TopicName Partitions[AlterReplicaLogDirPartitionResult34]
AlterReplicaLogDirsResponse: ThrottleTimeMs Results[AlterReplicaLogDirTopicResult34]
DescribableLogDirTopic35: Topic PartitionIndex
DescribeLogDirsRequest: Topics[DescribableLogDirTopic35]
DescribeLogDirsPartition35: PartitionIndex PartitionSize OffsetLag IsFutureKey
DescribeLogDirsTopic35: Name Partitions[DescribeLogDirsPartition35]
DescribeLogDirsResult35: ErrorCode LogDir Topics[DescribeLogDirsTopic35]
DescribeLogDirsResponse: ThrottleTimeMs Results[DescribeLogDirsResult35]
SaslAuthenticateRequest: AuthBytes
SaslAuthenticateResponse: ErrorCode ErrorMessage AuthBytes SessionLifetimeMs
CreatePartitionsAssignment37: BrokerIds
CreatePartitionsTopic37: Name Count Assignments[CreatePartitionsAssignment37]
CreatePartitionsRequest: Topics[CreatePartitionsTopic37] TimeoutMs ValidateOnly
CreatePartitionsTopicResult37: Name ErrorCode ErrorMessage
CreatePartitionsResponse: ThrottleTimeMs Results[CreatePartitionsTopicResult37]
CreatableRenewers38: PrincipalType PrincipalName
CreateDelegationTokenRequest: Renewers[CreatableRenewers38] MaxLifetimeMs
CreateDelegationTokenResponse: ErrorCode PrincipalType PrincipalName IssueTimestampMs ExpiryTimestampMs MaxTimestampMs TokenId Hmac ThrottleTimeMs
RenewDelegationTokenRequest: Hmac RenewPeriodMs
RenewDelegationTokenResponse: ErrorCode ExpiryTimestampMs ThrottleTimeMs
ExpireDelegationTokenRequest: Hmac ExpiryTimePeriodMs
ExpireDelegationTokenResponse: ErrorCode ExpiryTimestampMs ThrottleTimeMs
DescribeDelegationTokenOwner41: PrincipalType PrincipalName
DescribeDelegationTokenRequest: Owners[DescribeDelegationTokenOwner41]
DescribedDelegationTokenRenewer41: PrincipalType PrincipalName
DescribedDelegationToken41: PrincipalType PrincipalName IssueTimestamp ExpiryTimestamp MaxTimestamp TokenId Hmac Renewers[DescribedDelegationTokenRenewer41]
DescribeDelegationTokenResponse: ErrorCode Tokens[DescribedDelegationToken41] ThrottleTimeMs
DeleteGroupsRequest: GroupsNames
DeletableGroupResult42: GroupId ErrorCode
DeleteGroupsResponse: ThrottleTimeMs Results[DeletableGroupResult42]
TopicPartitions43: Topic PartitionId
ElectLeadersRequest: ElectionType TopicPartitions[TopicPartitions43] TimeoutMs
PartitionResult43: PartitionId ErrorCode ErrorMessage
ReplicaElectionResult43: Topic PartitionResult[PartitionResult43]
ElectLeadersResponse: ThrottleTimeMs ErrorCode ReplicaElectionResults[ReplicaElectionResult43]
AlterableConfig44: Name ConfigOperation Value
AlterConfigsResource44: ResourceType ResourceName Configs[AlterableConfig44]
IncrementalAlterConfigsRequest: Resources[AlterConfigsResource44] ValidateOnly
AlterConfigsResourceResponse44: ErrorCode ErrorMessage ResourceType ResourceName
IncrementalAlterConfigsResponse: ThrottleTimeMs Responses[AlterConfigsResourceResponse44]
ReassignablePartition45: PartitionIndex Replicas
ReassignableTopic45: Name Partitions[ReassignablePartition45]
AlterPartitionReassignmentsRequest: TimeoutMs Topics[ReassignableTopic45]
ReassignablePartitionResponse45: PartitionIndex ErrorCode ErrorMessage
ReassignableTopicResponse45: Name Partitions[ReassignablePartitionResponse45]
AlterPartitionReassignmentsResponse: ThrottleTimeMs ErrorCode ErrorMessage Responses[ReassignableTopicResponse45]
ListPartitionReassignmentsTopics46: Name PartitionIndexes
ListPartitionReassignmentsRequest: TimeoutMs Topics[ListPartitionReassignmentsTopics46]
OngoingPartitionReassignment46: PartitionIndex Replicas AddingReplicas RemovingReplicas
OngoingTopicReassignment46: Name Partitions[OngoingPartitionReassignment46]
ListPartitionReassignmentsResponse: ThrottleTimeMs ErrorCode ErrorMessage Topics[OngoingTopicReassignment46]
OffsetDeleteRequestPartition47: PartitionIndex
OffsetDeleteRequestTopic47: Name Partitions[OffsetDeleteRequestPartition47]
OffsetDeleteRequest: GroupId Topics[OffsetDeleteRequestTopic47]
OffsetDeleteResponsePartition47: PartitionIndex ErrorCode
OffsetDeleteResponseTopic47: Name Partitions[OffsetDeleteResponsePartition47]
OffsetDeleteResponse: ErrorCode ThrottleTimeMs Topics[OffsetDeleteResponseTopic47]
