(** * Messages of Apache Kafka 2.4

    The APIs with their keys and highest versions, and the layout of requests
    and responses at the versions before the flexible ones.

    Where this comes from.  Kafka's message definitions were not at hand: the tables
    were typed from memory of the protocol guide, by someone who had already
    read the code's own tables and schemas.  They are written per version and
    without the code's field names, and no script reads or writes them, but an
    error of memory that coincides with one of the code would go unseen.  For the
    messages between brokers and of administration at the end of the table,
    less familiar, memory was hardly independent of the code.  Absent are only
    the two reassignment APIs, flexible from their first version. *)
From Coq Require Import String.
From Verif Require Import GoBase Spec SchemaSpec.
Local Open Scope string_scope.
Local Open Scope Z_scope.

(** Name, key, highest version; the lowest is 0 for all of them. *)
Definition kafka_apis : list (string * Z * Z) := [
  ("Produce", 0, 8); ("Fetch", 1, 11); ("ListOffset", 2, 5); ("Metadata", 3, 9);
  ("LeaderAndIsr", 4, 4); ("StopReplica", 5, 2); ("UpdateMetadata", 6, 6);
  ("ControlledShutdown", 7, 3); ("OffsetCommit", 8, 8); ("OffsetFetch", 9, 6);
  ("FindCoordinator", 10, 3); ("JoinGroup", 11, 6); ("Heartbeat", 12, 4); ("LeaveGroup", 13, 4);
  ("SyncGroup", 14, 4); ("DescribeGroups", 15, 5); ("ListGroups", 16, 3); ("SaslHandshake", 17, 1);
  ("ApiVersions", 18, 3); ("CreateTopics", 19, 5); ("DeleteTopics", 20, 4);
  ("DeleteRecords", 21, 1); ("InitProducerId", 22, 2); ("OffsetForLeaderEpoch", 23, 3);
  ("AddPartitionsToTxn", 24, 1); ("AddOffsetsToTxn", 25, 1); ("EndTxn", 26, 1);
  ("WriteTxnMarkers", 27, 0); ("TxnOffsetCommit", 28, 2); ("DescribeAcls", 29, 1);
  ("CreateAcls", 30, 1); ("DeleteAcls", 31, 1); ("DescribeConfigs", 32, 2);
  ("AlterConfigs", 33, 1); ("AlterReplicaLogDirs", 34, 1); ("DescribeLogDirs", 35, 1);
  ("SaslAuthenticate", 36, 1); ("CreatePartitions", 37, 1); ("CreateDelegationToken", 38, 2);
  ("RenewDelegationToken", 39, 1); ("ExpireDelegationToken", 40, 1);
  ("DescribeDelegationToken", 41, 1); ("DeleteGroups", 42, 2); ("ElectLeaders", 43, 2);
  ("IncrementalAlterConfigs", 44, 1); ("AlterPartitionReassignments", 45, 0);
  ("ListPartitionReassignments", 46, 0); ("OffsetDelete", 47, 0)].

(** ** Layouts *)
Inductive item : Type := B | I8 | I16 | I32 | I64 | S | D | A (l : list item).

(** Message, first and last version, layout ([S] a string, [D] a byte array). *)
Definition kafka_layouts : list (string * Z * Z * list item) := [
  ("RequestHeader", 0, 0, [I16; I16; I32]);
  ("RequestHeader", 1, 1, [I16; I16; I32; S]);
  ("ResponseHeader", 0, 0, [I32]);
  ("ProduceRequest", 0, 2, [I16; I32; A [S; A [I32; D]]]);
  ("ProduceRequest", 3, 8, [S; I16; I32; A [S; A [I32; D]]]);
  ("ProduceResponse", 0, 0, [A [S; A [I32; I16; I64]]]);
  ("ProduceResponse", 1, 1, [A [S; A [I32; I16; I64]]; I32]);
  ("ProduceResponse", 2, 4, [A [S; A [I32; I16; I64; I64]]; I32]);
  ("ProduceResponse", 5, 7, [A [S; A [I32; I16; I64; I64; I64]]; I32]);
  ("ProduceResponse", 8, 8, [A [S; A [I32; I16; I64; I64; I64; A [I32; S]; S]]; I32]);
  ("FetchRequest", 0, 2, [I32; I32; I32; A [S; A [I32; I64; I32]]]);
  ("FetchRequest", 3, 3, [I32; I32; I32; I32; A [S; A [I32; I64; I32]]]);
  ("FetchRequest", 4, 4, [I32; I32; I32; I32; I8; A [S; A [I32; I64; I32]]]);
  ("FetchRequest", 5, 6, [I32; I32; I32; I32; I8; A [S; A [I32; I64; I64; I32]]]);
  ("FetchRequest", 7, 8, [I32; I32; I32; I32; I8; I32; I32; A [S; A [I32; I64; I64; I32]]; A [S; A [I32]]]);
  ("FetchRequest", 9, 10, [I32; I32; I32; I32; I8; I32; I32; A [S; A [I32; I32; I64; I64; I32]]; A [S; A [I32]]]);
  ("FetchRequest", 11, 11, [I32; I32; I32; I32; I8; I32; I32; A [S; A [I32; I32; I64; I64; I32]]; A [S; A [I32]]; S]);
  ("FetchResponse", 0, 0, [A [S; A [I32; I16; I64; D]]]);
  ("FetchResponse", 1, 3, [I32; A [S; A [I32; I16; I64; D]]]);
  ("FetchResponse", 4, 4, [I32; A [S; A [I32; I16; I64; I64; A [I64; I64]; D]]]);
  ("FetchResponse", 5, 6, [I32; A [S; A [I32; I16; I64; I64; I64; A [I64; I64]; D]]]);
  ("FetchResponse", 7, 10, [I32; I16; I32; A [S; A [I32; I16; I64; I64; I64; A [I64; I64]; D]]]);
  ("FetchResponse", 11, 11, [I32; I16; I32; A [S; A [I32; I16; I64; I64; I64; A [I64; I64]; I32; D]]]);
  ("ListOffsetRequest", 0, 0, [I32; A [S; A [I32; I64; I32]]]);
  ("ListOffsetRequest", 1, 1, [I32; A [S; A [I32; I64]]]);
  ("ListOffsetRequest", 2, 3, [I32; I8; A [S; A [I32; I64]]]);
  ("ListOffsetRequest", 4, 5, [I32; I8; A [S; A [I32; I32; I64]]]);
  ("ListOffsetResponse", 0, 0, [A [S; A [I32; I16; A [I64]]]]);
  ("ListOffsetResponse", 1, 1, [A [S; A [I32; I16; I64; I64]]]);
  ("ListOffsetResponse", 2, 3, [I32; A [S; A [I32; I16; I64; I64]]]);
  ("ListOffsetResponse", 4, 5, [I32; A [S; A [I32; I16; I64; I64; I32]]]);
  ("MetadataRequest", 0, 3, [A [S]]);
  ("MetadataRequest", 4, 7, [A [S]; B]);
  ("MetadataRequest", 8, 8, [A [S]; B; B; B]);
  ("MetadataResponse", 0, 0, [A [I32; S; I32]; A [I16; S; A [I16; I32; I32; A [I32]; A [I32]]]]);
  ("MetadataResponse", 1, 1, [A [I32; S; I32; S]; I32; A [I16; S; B; A [I16; I32; I32; A [I32]; A [I32]]]]);
  ("MetadataResponse", 2, 2, [A [I32; S; I32; S]; S; I32; A [I16; S; B; A [I16; I32; I32; A [I32]; A [I32]]]]);
  ("MetadataResponse", 3, 4, [I32; A [I32; S; I32; S]; S; I32; A [I16; S; B; A [I16; I32; I32; A [I32]; A [I32]]]]);
  ("MetadataResponse", 5, 6, [I32; A [I32; S; I32; S]; S; I32; A [I16; S; B; A [I16; I32; I32; A [I32]; A [I32]; A [I32]]]]);
  ("MetadataResponse", 7, 7, [I32; A [I32; S; I32; S]; S; I32; A [I16; S; B; A [I16; I32; I32; I32; A [I32]; A [I32]; A [I32]]]]);
  ("MetadataResponse", 8, 8, [I32; A [I32; S; I32; S]; S; I32; A [I16; S; B; A [I16; I32; I32; I32; A [I32]; A [I32]; A [I32]]; I32]; I32]);
  ("OffsetCommitRequest", 0, 0, [S; A [S; A [I32; I64; S]]]);
  ("OffsetCommitRequest", 1, 1, [S; I32; S; A [S; A [I32; I64; I64; S]]]);
  ("OffsetCommitRequest", 2, 4, [S; I32; S; I64; A [S; A [I32; I64; S]]]);
  ("OffsetCommitRequest", 5, 5, [S; I32; S; A [S; A [I32; I64; S]]]);
  ("OffsetCommitRequest", 6, 6, [S; I32; S; A [S; A [I32; I64; I32; S]]]);
  ("OffsetCommitRequest", 7, 7, [S; I32; S; S; A [S; A [I32; I64; I32; S]]]);
  ("OffsetCommitResponse", 0, 2, [A [S; A [I32; I16]]]);
  ("OffsetCommitResponse", 3, 7, [I32; A [S; A [I32; I16]]]);
  ("OffsetFetchRequest", 0, 5, [S; A [S; A [I32]]]);
  ("OffsetFetchResponse", 0, 1, [A [S; A [I32; I64; S; I16]]]);
  ("OffsetFetchResponse", 2, 2, [A [S; A [I32; I64; S; I16]]; I16]);
  ("OffsetFetchResponse", 3, 4, [I32; A [S; A [I32; I64; S; I16]]; I16]);
  ("OffsetFetchResponse", 5, 5, [I32; A [S; A [I32; I64; I32; S; I16]]; I16]);
  ("FindCoordinatorRequest", 0, 0, [S]);
  ("FindCoordinatorRequest", 1, 2, [S; I8]);
  ("FindCoordinatorResponse", 0, 0, [I16; I32; S; I32]);
  ("FindCoordinatorResponse", 1, 2, [I32; I16; S; I32; S; I32]);
  ("JoinGroupRequest", 0, 0, [S; I32; S; S; A [S; D]]);
  ("JoinGroupRequest", 1, 4, [S; I32; I32; S; S; A [S; D]]);
  ("JoinGroupRequest", 5, 5, [S; I32; I32; S; S; S; A [S; D]]);
  ("JoinGroupResponse", 0, 1, [I16; I32; S; S; S; A [S; D]]);
  ("JoinGroupResponse", 2, 4, [I32; I16; I32; S; S; S; A [S; D]]);
  ("JoinGroupResponse", 5, 5, [I32; I16; I32; S; S; S; A [S; S; D]]);
  ("HeartbeatRequest", 0, 2, [S; I32; S]);
  ("HeartbeatRequest", 3, 3, [S; I32; S; S]);
  ("HeartbeatResponse", 0, 0, [I16]);
  ("HeartbeatResponse", 1, 3, [I32; I16]);
  ("LeaveGroupRequest", 0, 2, [S; S]);
  ("LeaveGroupRequest", 3, 3, [S; A [S; S]]);
  ("LeaveGroupResponse", 0, 0, [I16]);
  ("LeaveGroupResponse", 1, 2, [I32; I16]);
  ("LeaveGroupResponse", 3, 3, [I32; I16; A [S; S; I16]]);
  ("SyncGroupRequest", 0, 2, [S; I32; S; A [S; D]]);
  ("SyncGroupRequest", 3, 3, [S; I32; S; S; A [S; D]]);
  ("SyncGroupResponse", 0, 0, [I16; D]);
  ("SyncGroupResponse", 1, 3, [I32; I16; D]);
  ("DescribeGroupsRequest", 0, 2, [A [S]]);
  ("DescribeGroupsRequest", 3, 4, [A [S]; B]);
  ("DescribeGroupsResponse", 0, 0, [A [I16; S; S; S; S; A [S; S; S; D; D]]]);
  ("DescribeGroupsResponse", 1, 2, [I32; A [I16; S; S; S; S; A [S; S; S; D; D]]]);
  ("DescribeGroupsResponse", 3, 3, [I32; A [I16; S; S; S; S; A [S; S; S; D; D]; I32]]);
  ("DescribeGroupsResponse", 4, 4, [I32; A [I16; S; S; S; S; A [S; S; S; S; D; D]; I32]]);
  ("ListGroupsRequest", 0, 2, []);
  ("ListGroupsResponse", 0, 0, [I16; A [S; S]]);
  ("ListGroupsResponse", 1, 2, [I32; I16; A [S; S]]);
  ("SaslHandshakeRequest", 0, 1, [S]);
  ("SaslHandshakeResponse", 0, 1, [I16; A [S]]);
  ("ApiVersionsRequest", 0, 2, []);
  ("ApiVersionsResponse", 0, 0, [I16; A [I16; I16; I16]]);
  ("ApiVersionsResponse", 1, 2, [I16; A [I16; I16; I16]; I32]);
  ("CreateTopicsRequest", 0, 0, [A [S; I32; I16; A [I32; A [I32]]; A [S; S]]; I32]);
  ("CreateTopicsRequest", 1, 4, [A [S; I32; I16; A [I32; A [I32]]; A [S; S]]; I32; B]);
  ("CreateTopicsResponse", 0, 0, [A [S; I16]]);
  ("CreateTopicsResponse", 1, 1, [A [S; I16; S]]);
  ("CreateTopicsResponse", 2, 4, [I32; A [S; I16; S]]);
  ("DeleteTopicsRequest", 0, 3, [A [S]; I32]);
  ("DeleteTopicsResponse", 0, 0, [A [S; I16]]);
  ("DeleteTopicsResponse", 1, 3, [I32; A [S; I16]]);
  ("DeleteRecordsRequest", 0, 1, [A [S; A [I32; I64]]; I32]);
  ("DeleteRecordsResponse", 0, 1, [I32; A [S; A [I32; I64; I16]]]);
  ("InitProducerIdRequest", 0, 1, [S; I32]);
  ("InitProducerIdResponse", 0, 1, [I32; I16; I64; I16]);
  ("OffsetForLeaderEpochRequest", 0, 1, [A [S; A [I32; I32]]]);
  ("OffsetForLeaderEpochRequest", 2, 2, [A [S; A [I32; I32; I32]]]);
  ("OffsetForLeaderEpochRequest", 3, 3, [I32; A [S; A [I32; I32; I32]]]);
  ("OffsetForLeaderEpochResponse", 0, 0, [A [S; A [I16; I32; I64]]]);
  ("OffsetForLeaderEpochResponse", 1, 1, [A [S; A [I16; I32; I32; I64]]]);
  ("OffsetForLeaderEpochResponse", 2, 3, [I32; A [S; A [I16; I32; I32; I64]]]);
  ("AddPartitionsToTxnRequest", 0, 1, [S; I64; I16; A [S; A [I32]]]);
  ("AddPartitionsToTxnResponse", 0, 1, [I32; A [S; A [I32; I16]]]);
  ("AddOffsetsToTxnRequest", 0, 1, [S; I64; I16; S]);
  ("AddOffsetsToTxnResponse", 0, 1, [I32; I16]);
  ("EndTxnRequest", 0, 1, [S; I64; I16; B]);
  ("EndTxnResponse", 0, 1, [I32; I16]);
  ("TxnOffsetCommitRequest", 0, 1, [S; S; I64; I16; A [S; A [I32; I64; S]]]);
  ("TxnOffsetCommitRequest", 2, 2, [S; S; I64; I16; A [S; A [I32; I64; I32; S]]]);
  ("TxnOffsetCommitResponse", 0, 2, [I32; A [S; A [I32; I16]]]);
  ("DescribeConfigsRequest", 0, 0, [A [I8; S; A [S]]]);
  ("DescribeConfigsRequest", 1, 2, [A [I8; S; A [S]]; B]);
  ("DescribeConfigsResponse", 0, 0, [I32; A [I16; S; I8; S; A [S; S; B; B; B]]]);
  ("DescribeConfigsResponse", 1, 2, [I32; A [I16; S; I8; S; A [S; S; B; I8; B; A [S; S; I8]]]]);
  ("SaslAuthenticateRequest", 0, 1, [D]);
  ("SaslAuthenticateResponse", 0, 0, [I16; S; D]);
  ("SaslAuthenticateResponse", 1, 1, [I16; S; D; I64]);
  ("CreatePartitionsRequest", 0, 1, [A [S; I32; A [A [I32]]]; I32; B]);
  ("CreatePartitionsResponse", 0, 1, [I32; A [S; I16; S]]);
  ("DeleteGroupsRequest", 0, 1, [A [S]]);
  ("DeleteGroupsResponse", 0, 1, [I32; A [S; I16]]);
  ("IncrementalAlterConfigsRequest", 0, 0, [A [I8; S; A [S; I8; S]]; B]);
  ("IncrementalAlterConfigsResponse", 0, 0, [I32; A [I16; S; I8; S]]);
  (* messages between brokers *)
  ("LeaderAndIsrRequest", 0, 0, [I32; I32; A [S; I32; I32; I32; I32; A [I32]; I32; A [I32]]; A [I32; S; I32]]);
  ("LeaderAndIsrRequest", 1, 1, [I32; I32; A [S; I32; I32; I32; I32; A [I32]; I32; A [I32]; B]; A [I32; S; I32]]);
  ("LeaderAndIsrRequest", 2, 2, [I32; I32; I64; A [S; A [I32; I32; I32; I32; A [I32]; I32; A [I32]; B]]; A [I32; S; I32]]);
  ("LeaderAndIsrRequest", 3, 3, [I32; I32; I64; A [S; A [I32; I32; I32; I32; A [I32]; I32; A [I32]; A [I32]; A [I32]; B]]; A [I32; S; I32]]);
  ("LeaderAndIsrResponse", 0, 3, [I16; A [S; I32; I16]]);
  ("StopReplicaRequest", 0, 0, [I32; I32; B; A [S; I32]]);
  ("StopReplicaRequest", 1, 1, [I32; I32; I64; B; A [S; A [I32]]]);
  ("StopReplicaResponse", 0, 1, [I16; A [S; I32; I16]]);
  ("UpdateMetadataRequest", 0, 0, [I32; I32; A [S; I32; I32; I32; I32; A [I32]; I32; A [I32]]; A [I32; S; I32]]);
  ("UpdateMetadataRequest", 1, 1, [I32; I32; A [S; I32; I32; I32; I32; A [I32]; I32; A [I32]]; A [I32; A [I32; S; I16]]]);
  ("UpdateMetadataRequest", 2, 2, [I32; I32; A [S; I32; I32; I32; I32; A [I32]; I32; A [I32]]; A [I32; A [I32; S; I16]; S]]);
  ("UpdateMetadataRequest", 3, 3, [I32; I32; A [S; I32; I32; I32; I32; A [I32]; I32; A [I32]]; A [I32; A [I32; S; S; I16]; S]]);
  ("UpdateMetadataRequest", 4, 4, [I32; I32; A [S; I32; I32; I32; I32; A [I32]; I32; A [I32]; A [I32]]; A [I32; A [I32; S; S; I16]; S]]);
  ("UpdateMetadataRequest", 5, 5, [I32; I32; I64; A [S; A [I32; I32; I32; I32; A [I32]; I32; A [I32]; A [I32]]]; A [I32; A [I32; S; S; I16]; S]]);
  ("UpdateMetadataResponse", 0, 5, [I16]);
  ("ControlledShutdownRequest", 0, 1, [I32]);
  ("ControlledShutdownRequest", 2, 2, [I32; I64]);
  ("ControlledShutdownResponse", 0, 2, [I16; A [S; I32]]);
  ("WriteTxnMarkersRequest", 0, 0, [A [I64; I16; B; A [S; A [I32]]; I32]]);
  ("WriteTxnMarkersResponse", 0, 0, [A [I64; A [S; A [I32; I16]]]]);
  (* administration *)
  ("DescribeAclsRequest", 0, 0, [I8; S; S; S; I8; I8]);
  ("DescribeAclsRequest", 1, 1, [I8; S; I8; S; S; I8; I8]);
  ("DescribeAclsResponse", 0, 0, [I32; I16; S; A [I8; S; A [S; S; I8; I8]]]);
  ("DescribeAclsResponse", 1, 1, [I32; I16; S; A [I8; S; I8; A [S; S; I8; I8]]]);
  ("CreateAclsRequest", 0, 0, [A [I8; S; S; S; I8; I8]]);
  ("CreateAclsRequest", 1, 1, [A [I8; S; I8; S; S; I8; I8]]);
  ("CreateAclsResponse", 0, 1, [I32; A [I16; S]]);
  ("DeleteAclsRequest", 0, 0, [A [I8; S; S; S; I8; I8]]);
  ("DeleteAclsRequest", 1, 1, [A [I8; S; I8; S; S; I8; I8]]);
  ("DeleteAclsResponse", 0, 0, [I32; A [I16; S; A [I16; S; I8; S; S; S; I8; I8]]]);
  ("DeleteAclsResponse", 1, 1, [I32; A [I16; S; A [I16; S; I8; S; I8; S; S; I8; I8]]]);
  ("AlterConfigsRequest", 0, 1, [A [I8; S; A [S; S]]; B]);
  ("AlterConfigsResponse", 0, 1, [I32; A [I16; S; I8; S]]);
  ("AlterReplicaLogDirsRequest", 0, 1, [A [S; A [S; A [I32]]]]);
  ("AlterReplicaLogDirsResponse", 0, 1, [I32; A [S; A [I32; I16]]]);
  ("DescribeLogDirsRequest", 0, 1, [A [S; A [I32]]]);
  ("DescribeLogDirsResponse", 0, 1, [I32; A [I16; S; A [S; A [I32; I64; I64; B]]]]);
  ("CreateDelegationTokenRequest", 0, 1, [A [S; S]; I64]);
  ("CreateDelegationTokenResponse", 0, 1, [I16; S; S; I64; I64; I64; S; D; I32]);
  ("RenewDelegationTokenRequest", 0, 1, [D; I64]);
  ("RenewDelegationTokenResponse", 0, 1, [I16; I64; I32]);
  ("ExpireDelegationTokenRequest", 0, 1, [D; I64]);
  ("ExpireDelegationTokenResponse", 0, 1, [I16; I64; I32]);
  ("DescribeDelegationTokenRequest", 0, 1, [A [S; S]]);
  ("DescribeDelegationTokenResponse", 0, 1, [I16; A [S; S; I64; I64; I64; S; D; A [S; S]]; I32]);
  ("ElectLeadersRequest", 0, 0, [A [S; A [I32]]; I32]);
  ("ElectLeadersRequest", 1, 1, [I8; A [S; A [I32]]; I32]);
  ("ElectLeadersResponse", 0, 0, [I32; A [S; A [I32; I16; S]]]);
  ("ElectLeadersResponse", 1, 1, [I32; I16; A [S; A [I32; I16; S]]]);
  ("OffsetDeleteRequest", 0, 0, [S; A [S; A [I32]]]);
  ("OffsetDeleteResponse", 0, 0, [I16; I32; A [S; A [I32; I16]]])].

(** The layout of a schema at one version. *)
Fixpoint item_of (t : ty) (v : Z) : item :=
  match t with
  | TBool => B | TInt8 => I8 | TInt16 => I16 | TInt32 => I32 | TInt64 => I64
  | TString => S | TBytes => D
  | TInt32Array => A [I32] | TInt64Array => A [I64] | TStringArray => A [S]
  | TArray fs => A (items_of fs v)
  end
with items_of (fs : fields) (v : Z) : list item :=
  match fs with
  | FNil => []
  | FCons _ r t rest => if active r v then item_of t v :: items_of rest v else items_of rest v
  end.

(** [bs] reads as the layout; arrays may be null (count -1). *)
Fixpoint laid (i : item) (bs : list Z) {struct i} : Prop :=
  match i with
  | B => bs = [0] \/ bs = [1]
  | I8 => zlen bs = 1
  | I16 => zlen bs = 2
  | I32 => zlen bs = 4
  | I64 => zlen bs = 8
  | S => exists s, zlen s < 2 ^ 15 /\ (bs = be 2 (zlen s) ++ s)%list
  | D => exists s, zlen s < 2 ^ 31 /\ (bs = be 4 (zlen s) ++ s)%list
  | A l => bs = be 4 (-1) \/ exists parts, zlen parts < 2 ^ 31 /\ (bs = be 4 (zlen parts) ++ concat parts)%list /\
      Forall ((fix go l b := match l with
        | [] => b = []
        | j :: l' => exists b1 b2, (b = b1 ++ b2)%list /\ laid j b1 /\ go l' b2 end) l) parts
  end.
Fixpoint laid_out (l : list item) (bs : list Z) : Prop :=
  match l with
  | [] => bs = []
  | i :: l' => exists b1 b2, (bs = b1 ++ b2)%list /\ laid i b1 /\ laid_out l' b2
  end.

(** Fields directly in a request or its header that Kafka lets be null, and
    from which version.  Null is not empty: a null list of topics asks for all of
    them, a null group instance id makes a member a dynamic one, a null
    transactional id a producer a plain one, a null filter matches anything. *)
Definition nullable_fields : list (string * string * Z) := [
  ("RequestHeader", "ClientId", 1);
  ("ProduceRequest", "TransactionalId", 3);
  ("MetadataRequest", "Topics", 1);
  ("OffsetCommitRequest", "GroupInstanceId", 7);
  ("OffsetFetchRequest", "Topics", 2);
  ("JoinGroupRequest", "GroupInstanceId", 5);
  ("HeartbeatRequest", "GroupInstanceId", 3);
  ("SyncGroupRequest", "GroupInstanceId", 3);
  ("InitProducerIdRequest", "TransactionalId", 0);
  ("DescribeAclsRequest", "ResourceNameFilter", 0);
  ("DescribeAclsRequest", "PrincipalFilter", 0);
  ("DescribeAclsRequest", "HostFilter", 0);
  ("DescribeLogDirsRequest", "Topics", 0);
  ("DescribeDelegationTokenRequest", "Owners", 0);
  ("ElectLeadersRequest", "TopicPartitions", 0);
  ("ListPartitionReassignmentsRequest", "Topics", 0)].

(** The fields before one, its versions and type. *)
Fixpoint before (field : string) (fs : fields) : fields :=
  match fs with
  | FNil => FNil
  | FCons n r t rest => if String.eqb n field then FNil else FCons n r t (before field rest)
  end.
Fixpoint field_of (field : string) (fs : fields) : option (range * ty) :=
  match fs with
  | FNil => None
  | FCons n r t rest => if String.eqb n field then Some (r, t) else field_of field rest
  end.
(** The length -1 in place of a value. *)
Definition null_mark (t : ty) : list Z :=
  match t with TString => [255; 255] | _ => [255; 255; 255; 255] end.
(** In the message [bs] the field is null. *)
Definition null_in (fs : fields) (field : string) (v : Z) (bs : list Z) : Prop :=
  exists r t x rest, field_of field fs = Some (r, t) /\ fit (before field fs) v x /\
    (bs = wires (before field fs) v x ++ null_mark t ++ rest)%list.
