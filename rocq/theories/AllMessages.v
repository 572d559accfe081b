(** * The list of all 218 generated message types.

    Written by tools/gen_messages.py; do not edit. *)
From Coq Require Import String.
From Verif Require Import GoBase Link Msg01 Msg02 Msg03 Msg04 Msg05 Msg06 Msg07 Msg08 Msg09 Msg10.
Open Scope string_scope.

Definition all_codecs : list (string * codec) :=
  [("ProduceRequest", ProduceRequest_codec);
   ("TopicProduceData0", TopicProduceData0_codec);
   ("PartitionProduceData0", PartitionProduceData0_codec);
   ("ProduceResponse", ProduceResponse_codec);
   ("TopicProduceResponse0", TopicProduceResponse0_codec);
   ("PartitionProduceResponse0", PartitionProduceResponse0_codec);
   ("BatchIndexAndErrorMessage0", BatchIndexAndErrorMessage0_codec);
   ("RequestHeader", RequestHeader_codec);
   ("ResponseHeader", ResponseHeader_codec);
   ("FetchRequest", FetchRequest_codec);
   ("FetchableTopic1", FetchableTopic1_codec);
   ("FetchPartition1", FetchPartition1_codec);
   ("ForgottenTopic1", ForgottenTopic1_codec);
   ("FetchResponse", FetchResponse_codec);
   ("FetchableTopicResponse1", FetchableTopicResponse1_codec);
   ("FetchablePartitionResponse1", FetchablePartitionResponse1_codec);
   ("AbortedTransaction1", AbortedTransaction1_codec);
   ("ListOffsetRequest", ListOffsetRequest_codec);
   ("ListOffsetTopic2", ListOffsetTopic2_codec);
   ("ListOffsetPartition2", ListOffsetPartition2_codec);
   ("ListOffsetResponse", ListOffsetResponse_codec);
   ("ListOffsetTopicResponse2", ListOffsetTopicResponse2_codec);
   ("ListOffsetPartitionResponse2", ListOffsetPartitionResponse2_codec);
   ("MetadataRequest", MetadataRequest_codec);
   ("MetadataRequestTopic3", MetadataRequestTopic3_codec);
   ("MetadataResponse", MetadataResponse_codec);
   ("MetadataResponseBroker3", MetadataResponseBroker3_codec);
   ("MetadataResponseTopic3", MetadataResponseTopic3_codec);
   ("MetadataResponsePartition3", MetadataResponsePartition3_codec);
   ("LeaderAndIsrRequest", LeaderAndIsrRequest_codec);
   ("LeaderAndIsrTopicState4", LeaderAndIsrTopicState4_codec);
   ("LeaderAndIsrLiveLeader4", LeaderAndIsrLiveLeader4_codec);
   ("LeaderAndIsrPartitionState4", LeaderAndIsrPartitionState4_codec);
   ("LeaderAndIsrResponse", LeaderAndIsrResponse_codec);
   ("LeaderAndIsrPartitionError4", LeaderAndIsrPartitionError4_codec);
   ("StopReplicaRequest", StopReplicaRequest_codec);
   ("StopReplicaPartitionV05", StopReplicaPartitionV05_codec);
   ("StopReplicaTopic5", StopReplicaTopic5_codec);
   ("StopReplicaResponse", StopReplicaResponse_codec);
   ("StopReplicaPartitionError5", StopReplicaPartitionError5_codec);
   ("UpdateMetadataRequest", UpdateMetadataRequest_codec);
   ("UpdateMetadataTopicState6", UpdateMetadataTopicState6_codec);
   ("UpdateMetadataBroker6", UpdateMetadataBroker6_codec);
   ("UpdateMetadataEndpoint6", UpdateMetadataEndpoint6_codec);
   ("UpdateMetadataPartitionState6", UpdateMetadataPartitionState6_codec);
   ("UpdateMetadataResponse", UpdateMetadataResponse_codec);
   ("ControlledShutdownRequest", ControlledShutdownRequest_codec);
   ("ControlledShutdownResponse", ControlledShutdownResponse_codec);
   ("RemainingPartition7", RemainingPartition7_codec);
   ("OffsetCommitRequest", OffsetCommitRequest_codec);
   ("OffsetCommitRequestTopic8", OffsetCommitRequestTopic8_codec);
   ("OffsetCommitRequestPartition8", OffsetCommitRequestPartition8_codec);
   ("OffsetCommitResponse", OffsetCommitResponse_codec);
   ("OffsetCommitResponseTopic8", OffsetCommitResponseTopic8_codec);
   ("OffsetCommitResponsePartition8", OffsetCommitResponsePartition8_codec);
   ("OffsetFetchRequest", OffsetFetchRequest_codec);
   ("OffsetFetchRequestTopic9", OffsetFetchRequestTopic9_codec);
   ("OffsetFetchResponse", OffsetFetchResponse_codec);
   ("OffsetFetchResponseTopic9", OffsetFetchResponseTopic9_codec);
   ("OffsetFetchResponsePartition9", OffsetFetchResponsePartition9_codec);
   ("FindCoordinatorRequest", FindCoordinatorRequest_codec);
   ("FindCoordinatorResponse", FindCoordinatorResponse_codec);
   ("JoinGroupRequest", JoinGroupRequest_codec);
   ("JoinGroupRequestProtocol11", JoinGroupRequestProtocol11_codec);
   ("JoinGroupResponse", JoinGroupResponse_codec);
   ("JoinGroupResponseMember11", JoinGroupResponseMember11_codec);
   ("HeartbeatRequest", HeartbeatRequest_codec);
   ("HeartbeatResponse", HeartbeatResponse_codec);
   ("LeaveGroupRequest", LeaveGroupRequest_codec);
   ("MemberIdentity13", MemberIdentity13_codec);
   ("LeaveGroupResponse", LeaveGroupResponse_codec);
   ("MemberResponse13", MemberResponse13_codec);
   ("SyncGroupRequest", SyncGroupRequest_codec);
   ("SyncGroupRequestAssignment14", SyncGroupRequestAssignment14_codec);
   ("SyncGroupResponse", SyncGroupResponse_codec);
   ("DescribeGroupsRequest", DescribeGroupsRequest_codec);
   ("DescribeGroupsResponse", DescribeGroupsResponse_codec);
   ("DescribedGroup15", DescribedGroup15_codec);
   ("DescribedGroupMember15", DescribedGroupMember15_codec);
   ("ListGroupsRequest", ListGroupsRequest_codec);
   ("ListGroupsResponse", ListGroupsResponse_codec);
   ("ListedGroup16", ListedGroup16_codec);
   ("SaslHandshakeRequest", SaslHandshakeRequest_codec);
   ("SaslHandshakeResponse", SaslHandshakeResponse_codec);
   ("ApiVersionsRequest", ApiVersionsRequest_codec);
   ("ApiVersionsResponse", ApiVersionsResponse_codec);
   ("ApiVersionsResponseKey18", ApiVersionsResponseKey18_codec);
   ("CreateTopicsRequest", CreateTopicsRequest_codec);
   ("CreatableTopic19", CreatableTopic19_codec);
   ("CreatableReplicaAssignment19", CreatableReplicaAssignment19_codec);
   ("CreateableTopicConfig19", CreateableTopicConfig19_codec);
   ("CreateTopicsResponse", CreateTopicsResponse_codec);
   ("CreatableTopicResult19", CreatableTopicResult19_codec);
   ("CreatableTopicConfigs19", CreatableTopicConfigs19_codec);
   ("DeleteTopicsRequest", DeleteTopicsRequest_codec);
   ("DeleteTopicsResponse", DeleteTopicsResponse_codec);
   ("DeletableTopicResult20", DeletableTopicResult20_codec);
   ("DeleteRecordsRequest", DeleteRecordsRequest_codec);
   ("DeleteRecordsTopic21", DeleteRecordsTopic21_codec);
   ("DeleteRecordsPartition21", DeleteRecordsPartition21_codec);
   ("DeleteRecordsResponse", DeleteRecordsResponse_codec);
   ("DeleteRecordsTopicResult21", DeleteRecordsTopicResult21_codec);
   ("DeleteRecordsPartitionResult21", DeleteRecordsPartitionResult21_codec);
   ("InitProducerIdRequest", InitProducerIdRequest_codec);
   ("InitProducerIdResponse", InitProducerIdResponse_codec);
   ("OffsetForLeaderEpochRequest", OffsetForLeaderEpochRequest_codec);
   ("OffsetForLeaderTopic23", OffsetForLeaderTopic23_codec);
   ("OffsetForLeaderPartition23", OffsetForLeaderPartition23_codec);
   ("OffsetForLeaderEpochResponse", OffsetForLeaderEpochResponse_codec);
   ("OffsetForLeaderTopicResult23", OffsetForLeaderTopicResult23_codec);
   ("OffsetForLeaderPartitionResult23", OffsetForLeaderPartitionResult23_codec);
   ("AddPartitionsToTxnRequest", AddPartitionsToTxnRequest_codec);
   ("AddPartitionsToTxnTopic24", AddPartitionsToTxnTopic24_codec);
   ("AddPartitionsToTxnResponse", AddPartitionsToTxnResponse_codec);
   ("AddPartitionsToTxnTopicResult24", AddPartitionsToTxnTopicResult24_codec);
   ("AddPartitionsToTxnPartitionResult24", AddPartitionsToTxnPartitionResult24_codec);
   ("AddOffsetsToTxnRequest", AddOffsetsToTxnRequest_codec);
   ("AddOffsetsToTxnResponse", AddOffsetsToTxnResponse_codec);
   ("EndTxnRequest", EndTxnRequest_codec);
   ("EndTxnResponse", EndTxnResponse_codec);
   ("WriteTxnMarkersRequest", WriteTxnMarkersRequest_codec);
   ("WritableTxnMarker27", WritableTxnMarker27_codec);
   ("WritableTxnMarkerTopic27", WritableTxnMarkerTopic27_codec);
   ("WriteTxnMarkersResponse", WriteTxnMarkersResponse_codec);
   ("WritableTxnMarkerResult27", WritableTxnMarkerResult27_codec);
   ("WritableTxnMarkerTopicResult27", WritableTxnMarkerTopicResult27_codec);
   ("WritableTxnMarkerPartitionResult27", WritableTxnMarkerPartitionResult27_codec);
   ("TxnOffsetCommitRequest", TxnOffsetCommitRequest_codec);
   ("TxnOffsetCommitRequestTopic28", TxnOffsetCommitRequestTopic28_codec);
   ("TxnOffsetCommitRequestPartition28", TxnOffsetCommitRequestPartition28_codec);
   ("TxnOffsetCommitResponse", TxnOffsetCommitResponse_codec);
   ("TxnOffsetCommitResponseTopic28", TxnOffsetCommitResponseTopic28_codec);
   ("TxnOffsetCommitResponsePartition28", TxnOffsetCommitResponsePartition28_codec);
   ("DescribeAclsRequest", DescribeAclsRequest_codec);
   ("DescribeAclsResponse", DescribeAclsResponse_codec);
   ("DescribeAclsResource29", DescribeAclsResource29_codec);
   ("AclDescription29", AclDescription29_codec);
   ("CreateAclsRequest", CreateAclsRequest_codec);
   ("CreatableAcl30", CreatableAcl30_codec);
   ("CreateAclsResponse", CreateAclsResponse_codec);
   ("CreatableAclResult30", CreatableAclResult30_codec);
   ("DeleteAclsRequest", DeleteAclsRequest_codec);
   ("DeleteAclsFilter31", DeleteAclsFilter31_codec);
   ("DeleteAclsResponse", DeleteAclsResponse_codec);
   ("DeleteAclsFilterResult31", DeleteAclsFilterResult31_codec);
   ("DeleteAclsMatchingAcl31", DeleteAclsMatchingAcl31_codec);
   ("DescribeConfigsRequest", DescribeConfigsRequest_codec);
   ("DescribeConfigsResource32", DescribeConfigsResource32_codec);
   ("DescribeConfigsResponse", DescribeConfigsResponse_codec);
   ("DescribeConfigsResult32", DescribeConfigsResult32_codec);
   ("DescribeConfigsResourceResult32", DescribeConfigsResourceResult32_codec);
   ("DescribeConfigsSynonym32", DescribeConfigsSynonym32_codec);
   ("AlterConfigsRequest", AlterConfigsRequest_codec);
   ("AlterConfigsResource33", AlterConfigsResource33_codec);
   ("AlterableConfig33", AlterableConfig33_codec);
   ("AlterConfigsResponse", AlterConfigsResponse_codec);
   ("AlterConfigsResourceResponse33", AlterConfigsResourceResponse33_codec);
   ("AlterReplicaLogDirsRequest", AlterReplicaLogDirsRequest_codec);
   ("AlterReplicaLogDir34", AlterReplicaLogDir34_codec);
   ("AlterReplicaLogDirTopic34", AlterReplicaLogDirTopic34_codec);
   ("AlterReplicaLogDirsResponse", AlterReplicaLogDirsResponse_codec);
   ("AlterReplicaLogDirTopicResult34", AlterReplicaLogDirTopicResult34_codec);
   ("AlterReplicaLogDirPartitionResult34", AlterReplicaLogDirPartitionResult34_codec);
   ("DescribeLogDirsRequest", DescribeLogDirsRequest_codec);
   ("DescribableLogDirTopic35", DescribableLogDirTopic35_codec);
   ("DescribeLogDirsResponse", DescribeLogDirsResponse_codec);
   ("DescribeLogDirsResult35", DescribeLogDirsResult35_codec);
   ("DescribeLogDirsTopic35", DescribeLogDirsTopic35_codec);
   ("DescribeLogDirsPartition35", DescribeLogDirsPartition35_codec);
   ("SaslAuthenticateRequest", SaslAuthenticateRequest_codec);
   ("SaslAuthenticateResponse", SaslAuthenticateResponse_codec);
   ("CreatePartitionsRequest", CreatePartitionsRequest_codec);
   ("CreatePartitionsTopic37", CreatePartitionsTopic37_codec);
   ("CreatePartitionsAssignment37", CreatePartitionsAssignment37_codec);
   ("CreatePartitionsResponse", CreatePartitionsResponse_codec);
   ("CreatePartitionsTopicResult37", CreatePartitionsTopicResult37_codec);
   ("CreateDelegationTokenRequest", CreateDelegationTokenRequest_codec);
   ("CreatableRenewers38", CreatableRenewers38_codec);
   ("CreateDelegationTokenResponse", CreateDelegationTokenResponse_codec);
   ("RenewDelegationTokenRequest", RenewDelegationTokenRequest_codec);
   ("RenewDelegationTokenResponse", RenewDelegationTokenResponse_codec);
   ("ExpireDelegationTokenRequest", ExpireDelegationTokenRequest_codec);
   ("ExpireDelegationTokenResponse", ExpireDelegationTokenResponse_codec);
   ("DescribeDelegationTokenRequest", DescribeDelegationTokenRequest_codec);
   ("DescribeDelegationTokenOwner41", DescribeDelegationTokenOwner41_codec);
   ("DescribeDelegationTokenResponse", DescribeDelegationTokenResponse_codec);
   ("DescribedDelegationToken41", DescribedDelegationToken41_codec);
   ("DescribedDelegationTokenRenewer41", DescribedDelegationTokenRenewer41_codec);
   ("DeleteGroupsRequest", DeleteGroupsRequest_codec);
   ("DeleteGroupsResponse", DeleteGroupsResponse_codec);
   ("DeletableGroupResult42", DeletableGroupResult42_codec);
   ("ElectLeadersRequest", ElectLeadersRequest_codec);
   ("TopicPartitions43", TopicPartitions43_codec);
   ("ElectLeadersResponse", ElectLeadersResponse_codec);
   ("ReplicaElectionResult43", ReplicaElectionResult43_codec);
   ("PartitionResult43", PartitionResult43_codec);
   ("IncrementalAlterConfigsRequest", IncrementalAlterConfigsRequest_codec);
   ("AlterConfigsResource44", AlterConfigsResource44_codec);
   ("AlterableConfig44", AlterableConfig44_codec);
   ("IncrementalAlterConfigsResponse", IncrementalAlterConfigsResponse_codec);
   ("AlterConfigsResourceResponse44", AlterConfigsResourceResponse44_codec);
   ("AlterPartitionReassignmentsRequest", AlterPartitionReassignmentsRequest_codec);
   ("ReassignableTopic45", ReassignableTopic45_codec);
   ("ReassignablePartition45", ReassignablePartition45_codec);
   ("AlterPartitionReassignmentsResponse", AlterPartitionReassignmentsResponse_codec);
   ("ReassignableTopicResponse45", ReassignableTopicResponse45_codec);
   ("ReassignablePartitionResponse45", ReassignablePartitionResponse45_codec);
   ("ListPartitionReassignmentsRequest", ListPartitionReassignmentsRequest_codec);
   ("ListPartitionReassignmentsTopics46", ListPartitionReassignmentsTopics46_codec);
   ("ListPartitionReassignmentsResponse", ListPartitionReassignmentsResponse_codec);
   ("OngoingTopicReassignment46", OngoingTopicReassignment46_codec);
   ("OngoingPartitionReassignment46", OngoingPartitionReassignment46_codec);
   ("OffsetDeleteRequest", OffsetDeleteRequest_codec);
   ("OffsetDeleteRequestTopic47", OffsetDeleteRequestTopic47_codec);
   ("OffsetDeleteRequestPartition47", OffsetDeleteRequestPartition47_codec);
   ("OffsetDeleteResponse", OffsetDeleteResponse_codec);
   ("OffsetDeleteResponseTopic47", OffsetDeleteResponseTopic47_codec);
   ("OffsetDeleteResponsePartition47", OffsetDeleteResponsePartition47_codec)].

Lemma all_linked : Forall (fun nc => linked (snd nc)) all_codecs.
Proof.
  unfold all_codecs.
  apply Forall_cons; [exact ProduceRequest_linked|].
  apply Forall_cons; [exact TopicProduceData0_linked|].
  apply Forall_cons; [exact PartitionProduceData0_linked|].
  apply Forall_cons; [exact ProduceResponse_linked|].
  apply Forall_cons; [exact TopicProduceResponse0_linked|].
  apply Forall_cons; [exact PartitionProduceResponse0_linked|].
  apply Forall_cons; [exact BatchIndexAndErrorMessage0_linked|].
  apply Forall_cons; [exact RequestHeader_linked|].
  apply Forall_cons; [exact ResponseHeader_linked|].
  apply Forall_cons; [exact FetchRequest_linked|].
  apply Forall_cons; [exact FetchableTopic1_linked|].
  apply Forall_cons; [exact FetchPartition1_linked|].
  apply Forall_cons; [exact ForgottenTopic1_linked|].
  apply Forall_cons; [exact FetchResponse_linked|].
  apply Forall_cons; [exact FetchableTopicResponse1_linked|].
  apply Forall_cons; [exact FetchablePartitionResponse1_linked|].
  apply Forall_cons; [exact AbortedTransaction1_linked|].
  apply Forall_cons; [exact ListOffsetRequest_linked|].
  apply Forall_cons; [exact ListOffsetTopic2_linked|].
  apply Forall_cons; [exact ListOffsetPartition2_linked|].
  apply Forall_cons; [exact ListOffsetResponse_linked|].
  apply Forall_cons; [exact ListOffsetTopicResponse2_linked|].
  apply Forall_cons; [exact ListOffsetPartitionResponse2_linked|].
  apply Forall_cons; [exact MetadataRequest_linked|].
  apply Forall_cons; [exact MetadataRequestTopic3_linked|].
  apply Forall_cons; [exact MetadataResponse_linked|].
  apply Forall_cons; [exact MetadataResponseBroker3_linked|].
  apply Forall_cons; [exact MetadataResponseTopic3_linked|].
  apply Forall_cons; [exact MetadataResponsePartition3_linked|].
  apply Forall_cons; [exact LeaderAndIsrRequest_linked|].
  apply Forall_cons; [exact LeaderAndIsrTopicState4_linked|].
  apply Forall_cons; [exact LeaderAndIsrLiveLeader4_linked|].
  apply Forall_cons; [exact LeaderAndIsrPartitionState4_linked|].
  apply Forall_cons; [exact LeaderAndIsrResponse_linked|].
  apply Forall_cons; [exact LeaderAndIsrPartitionError4_linked|].
  apply Forall_cons; [exact StopReplicaRequest_linked|].
  apply Forall_cons; [exact StopReplicaPartitionV05_linked|].
  apply Forall_cons; [exact StopReplicaTopic5_linked|].
  apply Forall_cons; [exact StopReplicaResponse_linked|].
  apply Forall_cons; [exact StopReplicaPartitionError5_linked|].
  apply Forall_cons; [exact UpdateMetadataRequest_linked|].
  apply Forall_cons; [exact UpdateMetadataTopicState6_linked|].
  apply Forall_cons; [exact UpdateMetadataBroker6_linked|].
  apply Forall_cons; [exact UpdateMetadataEndpoint6_linked|].
  apply Forall_cons; [exact UpdateMetadataPartitionState6_linked|].
  apply Forall_cons; [exact UpdateMetadataResponse_linked|].
  apply Forall_cons; [exact ControlledShutdownRequest_linked|].
  apply Forall_cons; [exact ControlledShutdownResponse_linked|].
  apply Forall_cons; [exact RemainingPartition7_linked|].
  apply Forall_cons; [exact OffsetCommitRequest_linked|].
  apply Forall_cons; [exact OffsetCommitRequestTopic8_linked|].
  apply Forall_cons; [exact OffsetCommitRequestPartition8_linked|].
  apply Forall_cons; [exact OffsetCommitResponse_linked|].
  apply Forall_cons; [exact OffsetCommitResponseTopic8_linked|].
  apply Forall_cons; [exact OffsetCommitResponsePartition8_linked|].
  apply Forall_cons; [exact OffsetFetchRequest_linked|].
  apply Forall_cons; [exact OffsetFetchRequestTopic9_linked|].
  apply Forall_cons; [exact OffsetFetchResponse_linked|].
  apply Forall_cons; [exact OffsetFetchResponseTopic9_linked|].
  apply Forall_cons; [exact OffsetFetchResponsePartition9_linked|].
  apply Forall_cons; [exact FindCoordinatorRequest_linked|].
  apply Forall_cons; [exact FindCoordinatorResponse_linked|].
  apply Forall_cons; [exact JoinGroupRequest_linked|].
  apply Forall_cons; [exact JoinGroupRequestProtocol11_linked|].
  apply Forall_cons; [exact JoinGroupResponse_linked|].
  apply Forall_cons; [exact JoinGroupResponseMember11_linked|].
  apply Forall_cons; [exact HeartbeatRequest_linked|].
  apply Forall_cons; [exact HeartbeatResponse_linked|].
  apply Forall_cons; [exact LeaveGroupRequest_linked|].
  apply Forall_cons; [exact MemberIdentity13_linked|].
  apply Forall_cons; [exact LeaveGroupResponse_linked|].
  apply Forall_cons; [exact MemberResponse13_linked|].
  apply Forall_cons; [exact SyncGroupRequest_linked|].
  apply Forall_cons; [exact SyncGroupRequestAssignment14_linked|].
  apply Forall_cons; [exact SyncGroupResponse_linked|].
  apply Forall_cons; [exact DescribeGroupsRequest_linked|].
  apply Forall_cons; [exact DescribeGroupsResponse_linked|].
  apply Forall_cons; [exact DescribedGroup15_linked|].
  apply Forall_cons; [exact DescribedGroupMember15_linked|].
  apply Forall_cons; [exact ListGroupsRequest_linked|].
  apply Forall_cons; [exact ListGroupsResponse_linked|].
  apply Forall_cons; [exact ListedGroup16_linked|].
  apply Forall_cons; [exact SaslHandshakeRequest_linked|].
  apply Forall_cons; [exact SaslHandshakeResponse_linked|].
  apply Forall_cons; [exact ApiVersionsRequest_linked|].
  apply Forall_cons; [exact ApiVersionsResponse_linked|].
  apply Forall_cons; [exact ApiVersionsResponseKey18_linked|].
  apply Forall_cons; [exact CreateTopicsRequest_linked|].
  apply Forall_cons; [exact CreatableTopic19_linked|].
  apply Forall_cons; [exact CreatableReplicaAssignment19_linked|].
  apply Forall_cons; [exact CreateableTopicConfig19_linked|].
  apply Forall_cons; [exact CreateTopicsResponse_linked|].
  apply Forall_cons; [exact CreatableTopicResult19_linked|].
  apply Forall_cons; [exact CreatableTopicConfigs19_linked|].
  apply Forall_cons; [exact DeleteTopicsRequest_linked|].
  apply Forall_cons; [exact DeleteTopicsResponse_linked|].
  apply Forall_cons; [exact DeletableTopicResult20_linked|].
  apply Forall_cons; [exact DeleteRecordsRequest_linked|].
  apply Forall_cons; [exact DeleteRecordsTopic21_linked|].
  apply Forall_cons; [exact DeleteRecordsPartition21_linked|].
  apply Forall_cons; [exact DeleteRecordsResponse_linked|].
  apply Forall_cons; [exact DeleteRecordsTopicResult21_linked|].
  apply Forall_cons; [exact DeleteRecordsPartitionResult21_linked|].
  apply Forall_cons; [exact InitProducerIdRequest_linked|].
  apply Forall_cons; [exact InitProducerIdResponse_linked|].
  apply Forall_cons; [exact OffsetForLeaderEpochRequest_linked|].
  apply Forall_cons; [exact OffsetForLeaderTopic23_linked|].
  apply Forall_cons; [exact OffsetForLeaderPartition23_linked|].
  apply Forall_cons; [exact OffsetForLeaderEpochResponse_linked|].
  apply Forall_cons; [exact OffsetForLeaderTopicResult23_linked|].
  apply Forall_cons; [exact OffsetForLeaderPartitionResult23_linked|].
  apply Forall_cons; [exact AddPartitionsToTxnRequest_linked|].
  apply Forall_cons; [exact AddPartitionsToTxnTopic24_linked|].
  apply Forall_cons; [exact AddPartitionsToTxnResponse_linked|].
  apply Forall_cons; [exact AddPartitionsToTxnTopicResult24_linked|].
  apply Forall_cons; [exact AddPartitionsToTxnPartitionResult24_linked|].
  apply Forall_cons; [exact AddOffsetsToTxnRequest_linked|].
  apply Forall_cons; [exact AddOffsetsToTxnResponse_linked|].
  apply Forall_cons; [exact EndTxnRequest_linked|].
  apply Forall_cons; [exact EndTxnResponse_linked|].
  apply Forall_cons; [exact WriteTxnMarkersRequest_linked|].
  apply Forall_cons; [exact WritableTxnMarker27_linked|].
  apply Forall_cons; [exact WritableTxnMarkerTopic27_linked|].
  apply Forall_cons; [exact WriteTxnMarkersResponse_linked|].
  apply Forall_cons; [exact WritableTxnMarkerResult27_linked|].
  apply Forall_cons; [exact WritableTxnMarkerTopicResult27_linked|].
  apply Forall_cons; [exact WritableTxnMarkerPartitionResult27_linked|].
  apply Forall_cons; [exact TxnOffsetCommitRequest_linked|].
  apply Forall_cons; [exact TxnOffsetCommitRequestTopic28_linked|].
  apply Forall_cons; [exact TxnOffsetCommitRequestPartition28_linked|].
  apply Forall_cons; [exact TxnOffsetCommitResponse_linked|].
  apply Forall_cons; [exact TxnOffsetCommitResponseTopic28_linked|].
  apply Forall_cons; [exact TxnOffsetCommitResponsePartition28_linked|].
  apply Forall_cons; [exact DescribeAclsRequest_linked|].
  apply Forall_cons; [exact DescribeAclsResponse_linked|].
  apply Forall_cons; [exact DescribeAclsResource29_linked|].
  apply Forall_cons; [exact AclDescription29_linked|].
  apply Forall_cons; [exact CreateAclsRequest_linked|].
  apply Forall_cons; [exact CreatableAcl30_linked|].
  apply Forall_cons; [exact CreateAclsResponse_linked|].
  apply Forall_cons; [exact CreatableAclResult30_linked|].
  apply Forall_cons; [exact DeleteAclsRequest_linked|].
  apply Forall_cons; [exact DeleteAclsFilter31_linked|].
  apply Forall_cons; [exact DeleteAclsResponse_linked|].
  apply Forall_cons; [exact DeleteAclsFilterResult31_linked|].
  apply Forall_cons; [exact DeleteAclsMatchingAcl31_linked|].
  apply Forall_cons; [exact DescribeConfigsRequest_linked|].
  apply Forall_cons; [exact DescribeConfigsResource32_linked|].
  apply Forall_cons; [exact DescribeConfigsResponse_linked|].
  apply Forall_cons; [exact DescribeConfigsResult32_linked|].
  apply Forall_cons; [exact DescribeConfigsResourceResult32_linked|].
  apply Forall_cons; [exact DescribeConfigsSynonym32_linked|].
  apply Forall_cons; [exact AlterConfigsRequest_linked|].
  apply Forall_cons; [exact AlterConfigsResource33_linked|].
  apply Forall_cons; [exact AlterableConfig33_linked|].
  apply Forall_cons; [exact AlterConfigsResponse_linked|].
  apply Forall_cons; [exact AlterConfigsResourceResponse33_linked|].
  apply Forall_cons; [exact AlterReplicaLogDirsRequest_linked|].
  apply Forall_cons; [exact AlterReplicaLogDir34_linked|].
  apply Forall_cons; [exact AlterReplicaLogDirTopic34_linked|].
  apply Forall_cons; [exact AlterReplicaLogDirsResponse_linked|].
  apply Forall_cons; [exact AlterReplicaLogDirTopicResult34_linked|].
  apply Forall_cons; [exact AlterReplicaLogDirPartitionResult34_linked|].
  apply Forall_cons; [exact DescribeLogDirsRequest_linked|].
  apply Forall_cons; [exact DescribableLogDirTopic35_linked|].
  apply Forall_cons; [exact DescribeLogDirsResponse_linked|].
  apply Forall_cons; [exact DescribeLogDirsResult35_linked|].
  apply Forall_cons; [exact DescribeLogDirsTopic35_linked|].
  apply Forall_cons; [exact DescribeLogDirsPartition35_linked|].
  apply Forall_cons; [exact SaslAuthenticateRequest_linked|].
  apply Forall_cons; [exact SaslAuthenticateResponse_linked|].
  apply Forall_cons; [exact CreatePartitionsRequest_linked|].
  apply Forall_cons; [exact CreatePartitionsTopic37_linked|].
  apply Forall_cons; [exact CreatePartitionsAssignment37_linked|].
  apply Forall_cons; [exact CreatePartitionsResponse_linked|].
  apply Forall_cons; [exact CreatePartitionsTopicResult37_linked|].
  apply Forall_cons; [exact CreateDelegationTokenRequest_linked|].
  apply Forall_cons; [exact CreatableRenewers38_linked|].
  apply Forall_cons; [exact CreateDelegationTokenResponse_linked|].
  apply Forall_cons; [exact RenewDelegationTokenRequest_linked|].
  apply Forall_cons; [exact RenewDelegationTokenResponse_linked|].
  apply Forall_cons; [exact ExpireDelegationTokenRequest_linked|].
  apply Forall_cons; [exact ExpireDelegationTokenResponse_linked|].
  apply Forall_cons; [exact DescribeDelegationTokenRequest_linked|].
  apply Forall_cons; [exact DescribeDelegationTokenOwner41_linked|].
  apply Forall_cons; [exact DescribeDelegationTokenResponse_linked|].
  apply Forall_cons; [exact DescribedDelegationToken41_linked|].
  apply Forall_cons; [exact DescribedDelegationTokenRenewer41_linked|].
  apply Forall_cons; [exact DeleteGroupsRequest_linked|].
  apply Forall_cons; [exact DeleteGroupsResponse_linked|].
  apply Forall_cons; [exact DeletableGroupResult42_linked|].
  apply Forall_cons; [exact ElectLeadersRequest_linked|].
  apply Forall_cons; [exact TopicPartitions43_linked|].
  apply Forall_cons; [exact ElectLeadersResponse_linked|].
  apply Forall_cons; [exact ReplicaElectionResult43_linked|].
  apply Forall_cons; [exact PartitionResult43_linked|].
  apply Forall_cons; [exact IncrementalAlterConfigsRequest_linked|].
  apply Forall_cons; [exact AlterConfigsResource44_linked|].
  apply Forall_cons; [exact AlterableConfig44_linked|].
  apply Forall_cons; [exact IncrementalAlterConfigsResponse_linked|].
  apply Forall_cons; [exact AlterConfigsResourceResponse44_linked|].
  apply Forall_cons; [exact AlterPartitionReassignmentsRequest_linked|].
  apply Forall_cons; [exact ReassignableTopic45_linked|].
  apply Forall_cons; [exact ReassignablePartition45_linked|].
  apply Forall_cons; [exact AlterPartitionReassignmentsResponse_linked|].
  apply Forall_cons; [exact ReassignableTopicResponse45_linked|].
  apply Forall_cons; [exact ReassignablePartitionResponse45_linked|].
  apply Forall_cons; [exact ListPartitionReassignmentsRequest_linked|].
  apply Forall_cons; [exact ListPartitionReassignmentsTopics46_linked|].
  apply Forall_cons; [exact ListPartitionReassignmentsResponse_linked|].
  apply Forall_cons; [exact OngoingTopicReassignment46_linked|].
  apply Forall_cons; [exact OngoingPartitionReassignment46_linked|].
  apply Forall_cons; [exact OffsetDeleteRequest_linked|].
  apply Forall_cons; [exact OffsetDeleteRequestTopic47_linked|].
  apply Forall_cons; [exact OffsetDeleteRequestPartition47_linked|].
  apply Forall_cons; [exact OffsetDeleteResponse_linked|].
  apply Forall_cons; [exact OffsetDeleteResponseTopic47_linked|].
  apply Forall_cons; [exact OffsetDeleteResponsePartition47_linked|].
  apply Forall_nil.
Qed.

(** The doc comment of each top-level message: api key, lowest and highest
    version (e.g. message/messages.gen.go:23). *)
Definition message_docs : list (string * (Z * Z * Z)) :=
  [("ProduceRequest", (0, 0, 8)%Z);
   ("ProduceResponse", (0, 0, 8)%Z);
   ("RequestHeader", (0, 0, 2)%Z);
   ("ResponseHeader", (0, 0, 1)%Z);
   ("FetchRequest", (1, 0, 11)%Z);
   ("FetchResponse", (1, 0, 11)%Z);
   ("ListOffsetRequest", (2, 0, 5)%Z);
   ("ListOffsetResponse", (2, 0, 5)%Z);
   ("MetadataRequest", (3, 0, 9)%Z);
   ("MetadataResponse", (3, 0, 9)%Z);
   ("LeaderAndIsrRequest", (4, 0, 4)%Z);
   ("LeaderAndIsrResponse", (4, 0, 4)%Z);
   ("StopReplicaRequest", (5, 0, 2)%Z);
   ("StopReplicaResponse", (5, 0, 2)%Z);
   ("UpdateMetadataRequest", (6, 0, 6)%Z);
   ("UpdateMetadataResponse", (6, 0, 6)%Z);
   ("ControlledShutdownRequest", (7, 0, 3)%Z);
   ("ControlledShutdownResponse", (7, 0, 3)%Z);
   ("OffsetCommitRequest", (8, 0, 8)%Z);
   ("OffsetCommitResponse", (8, 0, 8)%Z);
   ("OffsetFetchRequest", (9, 0, 6)%Z);
   ("OffsetFetchResponse", (9, 0, 6)%Z);
   ("FindCoordinatorRequest", (10, 0, 3)%Z);
   ("FindCoordinatorResponse", (10, 0, 3)%Z);
   ("JoinGroupRequest", (11, 0, 6)%Z);
   ("JoinGroupResponse", (11, 0, 6)%Z);
   ("HeartbeatRequest", (12, 0, 4)%Z);
   ("HeartbeatResponse", (12, 0, 4)%Z);
   ("LeaveGroupRequest", (13, 0, 4)%Z);
   ("LeaveGroupResponse", (13, 0, 4)%Z);
   ("SyncGroupRequest", (14, 0, 4)%Z);
   ("SyncGroupResponse", (14, 0, 4)%Z);
   ("DescribeGroupsRequest", (15, 0, 5)%Z);
   ("DescribeGroupsResponse", (15, 0, 5)%Z);
   ("ListGroupsRequest", (16, 0, 3)%Z);
   ("ListGroupsResponse", (16, 0, 3)%Z);
   ("SaslHandshakeRequest", (17, 0, 1)%Z);
   ("SaslHandshakeResponse", (17, 0, 1)%Z);
   ("ApiVersionsRequest", (18, 0, 3)%Z);
   ("ApiVersionsResponse", (18, 0, 3)%Z);
   ("CreateTopicsRequest", (19, 0, 5)%Z);
   ("CreateTopicsResponse", (19, 0, 5)%Z);
   ("DeleteTopicsRequest", (20, 0, 4)%Z);
   ("DeleteTopicsResponse", (20, 0, 4)%Z);
   ("DeleteRecordsRequest", (21, 0, 1)%Z);
   ("DeleteRecordsResponse", (21, 0, 1)%Z);
   ("InitProducerIdRequest", (22, 0, 2)%Z);
   ("InitProducerIdResponse", (22, 0, 2)%Z);
   ("OffsetForLeaderEpochRequest", (23, 0, 3)%Z);
   ("OffsetForLeaderEpochResponse", (23, 0, 3)%Z);
   ("AddPartitionsToTxnRequest", (24, 0, 1)%Z);
   ("AddPartitionsToTxnResponse", (24, 0, 1)%Z);
   ("AddOffsetsToTxnRequest", (25, 0, 1)%Z);
   ("AddOffsetsToTxnResponse", (25, 0, 1)%Z);
   ("EndTxnRequest", (26, 0, 1)%Z);
   ("EndTxnResponse", (26, 0, 1)%Z);
   ("WriteTxnMarkersRequest", (27, 0, 0)%Z);
   ("WriteTxnMarkersResponse", (27, 0, 0)%Z);
   ("TxnOffsetCommitRequest", (28, 0, 2)%Z);
   ("TxnOffsetCommitResponse", (28, 0, 2)%Z);
   ("DescribeAclsRequest", (29, 0, 1)%Z);
   ("DescribeAclsResponse", (29, 0, 1)%Z);
   ("CreateAclsRequest", (30, 0, 1)%Z);
   ("CreateAclsResponse", (30, 0, 1)%Z);
   ("DeleteAclsRequest", (31, 0, 1)%Z);
   ("DeleteAclsResponse", (31, 0, 1)%Z);
   ("DescribeConfigsRequest", (32, 0, 2)%Z);
   ("DescribeConfigsResponse", (32, 0, 2)%Z);
   ("AlterConfigsRequest", (33, 0, 1)%Z);
   ("AlterConfigsResponse", (33, 0, 1)%Z);
   ("AlterReplicaLogDirsRequest", (34, 0, 1)%Z);
   ("AlterReplicaLogDirsResponse", (34, 0, 1)%Z);
   ("DescribeLogDirsRequest", (35, 0, 1)%Z);
   ("DescribeLogDirsResponse", (35, 0, 1)%Z);
   ("SaslAuthenticateRequest", (36, 0, 1)%Z);
   ("SaslAuthenticateResponse", (36, 0, 1)%Z);
   ("CreatePartitionsRequest", (37, 0, 1)%Z);
   ("CreatePartitionsResponse", (37, 0, 1)%Z);
   ("CreateDelegationTokenRequest", (38, 0, 2)%Z);
   ("CreateDelegationTokenResponse", (38, 0, 2)%Z);
   ("RenewDelegationTokenRequest", (39, 0, 1)%Z);
   ("RenewDelegationTokenResponse", (39, 0, 1)%Z);
   ("ExpireDelegationTokenRequest", (40, 0, 1)%Z);
   ("ExpireDelegationTokenResponse", (40, 0, 1)%Z);
   ("DescribeDelegationTokenRequest", (41, 0, 1)%Z);
   ("DescribeDelegationTokenResponse", (41, 0, 1)%Z);
   ("DeleteGroupsRequest", (42, 0, 2)%Z);
   ("DeleteGroupsResponse", (42, 0, 2)%Z);
   ("ElectLeadersRequest", (43, 0, 2)%Z);
   ("ElectLeadersResponse", (43, 0, 2)%Z);
   ("IncrementalAlterConfigsRequest", (44, 0, 1)%Z);
   ("IncrementalAlterConfigsResponse", (44, 0, 1)%Z);
   ("AlterPartitionReassignmentsRequest", (45, 0, 0)%Z);
   ("AlterPartitionReassignmentsResponse", (45, 0, 0)%Z);
   ("ListPartitionReassignmentsRequest", (46, 0, 0)%Z);
   ("ListPartitionReassignmentsResponse", (46, 0, 0)%Z);
   ("OffsetDeleteRequest", (47, 0, 0)%Z);
   ("OffsetDeleteResponse", (47, 0, 0)%Z)].
