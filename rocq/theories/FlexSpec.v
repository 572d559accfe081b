(** * Kafka's flexible versions

    Since KIP-482 (Apache Kafka 2.4) an API has a first "flexible" version.  From that
    version on strings, byte arrays and arrays have compact lengths (the length
    plus one in base 128, zero for null), every structure ends with a section of
    tagged fields (zero when there is none), and the request header ends with
    such a section too.  [first_flexible] is the "flexibleVersions" of the Apache
    Kafka 2.4 message definitions, for the APIs of gen.broker.go that reach it.
    These are facts about Kafka, not about this code; they were written down from
    memory, as Kafka's sources were not at hand. *)
From Verif Require Import GoBase Spec SchemaSpec BrokerTable.

Definition first_flexible (a : api) : option Z :=
  match a with
  | Metadata => Some 9
  | LeaderAndIsr => Some 4
  | StopReplica => Some 2
  | UpdateMetadata => Some 6
  | ControlledShutdown => Some 3
  | OffsetCommit => Some 8
  | OffsetFetch => Some 6
  | FindCoordinator => Some 3
  | JoinGroup => Some 6
  | Heartbeat => Some 4
  | LeaveGroup => Some 4
  | SyncGroup => Some 4
  | DescribeGroups => Some 5
  | ListGroups => Some 3
  | ApiVersions => Some 3
  | CreateTopics => Some 5
  | DeleteTopics => Some 4
  | InitProducerId => Some 2
  | CreateDelegationToken => Some 2
  | DeleteGroups => Some 2
  | ElectLeaders => Some 2
  | IncrementalAlterConfigs => Some 1
  | AlterPartitionReassignments => Some 0
  | ListPartitionReassignments => Some 0
  | _ => None
  end.
Definition flexible (a : api) (v : Z) : Prop := exists f, first_flexible a = Some f /\ f <= v.

(** A compact length and what it counts. *)
Definition compact_prefix (n : Z) (body bs : list Z) : Prop := exists pre, is_base128 (n + 1) pre /\ bs = pre ++ body.

(** [bs] is the compact form of [x].  A nil byte array or array of structures is read
    as empty, as in the plain form. *)
Fixpoint compact (t : ty) (v : Z) : den t -> list Z -> Prop :=
  match t return den t -> list Z -> Prop with
  | TBool => fun x bs => bs = w_bool x
  | TInt8 => fun x bs => bs = be 1 x
  | TInt16 => fun x bs => bs = be 2 x
  | TInt32 => fun x bs => bs = be 4 x
  | TInt64 => fun x bs => bs = be 8 x
  | TString => fun s bs => compact_prefix (zlen s) s bs
  | TBytes => fun s bs => compact_prefix (glen s) (items s) bs
  | TInt32Array => fun s bs => match s with None => bs = [0] | Some l => compact_prefix (zlen l) (flat_map (be 4) l) bs end
  | TInt64Array => fun s bs => match s with None => bs = [0] | Some l => compact_prefix (zlen l) (flat_map (be 8) l) bs end
  | TStringArray => fun s bs => match s with
      | None => bs = [0]
      | Some l => exists parts, Forall2 (fun x => compact_prefix (zlen x) x) l parts /\ compact_prefix (zlen l) (concat parts) bs end
  | TArray fs => fun s bs => exists parts, Forall2 (compacts fs v) (items s) parts /\ compact_prefix (glen s) (concat parts) bs
  end
with compacts (fs : fields) (v : Z) : dens fs -> list Z -> Prop :=
  match fs return dens fs -> list Z -> Prop with
  | FNil => fun _ bs => bs = [0]
  | FCons _ r t rest => fun x bs => exists b1 b2, bs = b1 ++ b2 /\
      (if active r v then compact t v (fst x) b1 else b1 = []) /\ compacts rest v (snd x) b2
  end.

(** The request as Kafka wants it after the size field: header, then body. *)
Definition kafka_request (a : api) (key v corr : Z) (clientID : gostring) (fs : fields) (x : dens fs) (bs : list Z) : Prop :=
  let hdr := be 2 key ++ be 2 v ++ be 4 corr ++ w_string clientID in
  (flexible a v -> exists body, compacts fs v x body /\ bs = hdr ++ [0] ++ body) /\
  (~ flexible a v -> bs = hdr ++ wires fs v x).

(** Byte arrays and arrays carried at version [v] have fewer than 2^23 elements. *)
Definition short_field (t : ty) : den t -> Prop :=
  match t return den t -> Prop with
  | TBytes | TInt32Array | TInt64Array => fun s => glen s < 2 ^ 23
  | TStringArray => fun s => glen s < 2 ^ 23
  | TArray _ => fun s => glen s < 2 ^ 23
  | _ => fun _ => True
  end.
Fixpoint short (fs : fields) (v : Z) : dens fs -> Prop :=
  match fs return dens fs -> Prop with
  | FNil => fun _ => True
  | FCons _ r t rest => fun x => (active r v = true -> short_field t (fst x)) /\ short rest v (snd x)
  end.
