(** * What the text of client.go, gen.option.go and NewBroker is run by

    GoShare.v gives a call of such a function as a tree of questions.  Here they are
    answered as the world of Client.v answers ([Client.env]), with the same record of what
    happened; and here is what it means that values in memory are those of the model. *)
From Coq Require Import Ascii String.
From Verif Require Import GoBase Msg02 Msg03 Msg04 BrokerTable Broker BrokerSpec BrokerProofs Options Client ClientSpec GoLang GoShare SourceMessages SourceConn SourceClient.
Local Open Scope string_scope.
Local Open Scope list_scope.
Local Open Scope Z_scope.

(** ** The program: client.go, gen.option.go, NewBroker, negotiateApiVersions and matchVersion of gen.broker.go,
    and dial and Connect of gen.conn.go; not the 48 request methods. *)
Definition request_methods : list string := map (fun a => "Broker." ++ api_name a)%string all_apis.
Definition client_program : package := mkPackage
  (k_types client_source ++ k_types conn_source ++ k_types messages ++ [("net.Dialer", []); ("sync.Mutex", [])])
  (k_globals client_source)
  (filter (fun p => negb (existsb (String.eqb (fst p)) request_methods)) (k_funcs client_source) ++ [("kafka.dial", go_kafka_dial); ("kafka.Connect", go_kafka_Connect)]).

(** ** Values *)
Definition chars (s : string) : list Z := map (fun a => Z.of_nat (nat_of_ascii a)) (list_ascii_of_string s).
Definition slice_of_model {A} (f : list A -> val) (x : gslice A) : val := match x with Some l => f l | None => VNil end.
Definition partition_fields (p : MetadataResponsePartition3) : list (string * val) :=
  [("ErrorCode", VInt I16 (MetadataResponsePartition3_ErrorCode p)); ("PartitionIndex", VInt I32 (MetadataResponsePartition3_PartitionIndex p));
   ("LeaderId", VInt I32 (MetadataResponsePartition3_LeaderId p)); ("LeaderEpoch", VInt I32 (MetadataResponsePartition3_LeaderEpoch p));
   ("ReplicaNodes", slice_of_model (VInts I32) (MetadataResponsePartition3_ReplicaNodes p));
   ("IsrNodes", slice_of_model (VInts I32) (MetadataResponsePartition3_IsrNodes p));
   ("OfflineReplicas", slice_of_model (VInts I32) (MetadataResponsePartition3_OfflineReplicas p))].
Definition topic_fields (t : MetadataResponseTopic3) : list (string * val) :=
  [("ErrorCode", VInt I16 (MetadataResponseTopic3_ErrorCode t)); ("Name", VStr (MetadataResponseTopic3_Name t)); ("IsInternal", VBool (MetadataResponseTopic3_IsInternal t));
   ("Partitions", slice_of_model (fun l => VStructs "MetadataResponsePartition3" (map partition_fields l)) (MetadataResponseTopic3_Partitions t));
   ("TopicAuthorizedOperations", VInt I32 (MetadataResponseTopic3_TopicAuthorizedOperations t))].
Definition node_fields (b : MetadataResponseBroker3) : list (string * val) :=
  [("NodeId", VInt I32 (MetadataResponseBroker3_NodeId b)); ("Host", VStr (MetadataResponseBroker3_Host b)); ("Port", VInt I32 (MetadataResponseBroker3_Port b)); ("Rack", VStr (MetadataResponseBroker3_Rack b))].
Definition metadata_fields (m : MetadataResponse) : list (string * val) :=
  [("ThrottleTimeMs", VInt I32 (MetadataResponse_ThrottleTimeMs m));
   ("Brokers", slice_of_model (fun l => VStructs "MetadataResponseBroker3" (map node_fields l)) (MetadataResponse_Brokers m));
   ("ClusterId", VStr (MetadataResponse_ClusterId m)); ("ControllerId", VInt I32 (MetadataResponse_ControllerId m));
   ("Topics", slice_of_model (fun l => VStructs "MetadataResponseTopic3" (map topic_fields l)) (MetadataResponse_Topics m));
   ("ClusterAuthorizedOperations", VInt I32 (MetadataResponse_ClusterAuthorizedOperations m))].
Definition coordinator_fields (r : FindCoordinatorResponse) : list (string * val) :=
  [("ThrottleTimeMs", VInt I32 (FindCoordinatorResponse_ThrottleTimeMs r)); ("ErrorCode", VInt I16 (FindCoordinatorResponse_ErrorCode r));
   ("ErrorMessage", VStr (FindCoordinatorResponse_ErrorMessage r)); ("NodeId", VInt I32 (FindCoordinatorResponse_NodeId r));
   ("Host", VStr (FindCoordinatorResponse_Host r)); ("Port", VInt I32 (FindCoordinatorResponse_Port r))].
Definition find_fields (r : FindCoordinatorRequest) : list (string * val) :=
  [("Key", VStr (FindCoordinatorRequest_Key r)); ("KeyType", VInt I8 (FindCoordinatorRequest_KeyType r))].
Definition key_fields (k : ApiVersionsResponseKey18) : list (string * val) :=
  [("ApiKey", VInt I16 (ApiVersionsResponseKey18_ApiKey k)); ("MinVersion", VInt I16 (ApiVersionsResponseKey18_MinVersion k)); ("MaxVersion", VInt I16 (ApiVersionsResponseKey18_MaxVersion k))].
Definition versions_fields (r : ApiVersionsResponse) : list (string * val) :=
  [("ErrorCode", VInt I16 (ApiVersionsResponse_ErrorCode r));
   ("ApiKeys", slice_of_model (fun l => VStructs "ApiVersionsResponseKey18" (map key_fields l)) (ApiVersionsResponse_ApiKeys r));
   ("ThrottleTimeMs", VInt I32 (ApiVersionsResponse_ThrottleTimeMs r))].
Definition metadata_val (m : MetadataResponse) : val := VStruct "MetadataResponse" (metadata_fields m).
(** The structure apiVersion *)
Definition versions_val (av : apiVersion) : val := VStruct "apiVersion" (map (fun a => (api_name a, VInt I16 (av a))) all_apis).
(** A pointer to something of another package that the caller has *)
Definition foreign (kind : string) (p : pointer) : val := match p with None => VNil | Some z => VBox (VStruct kind [("id", VInt I64 z)]) end.
(** fmt.Errorf(f, args...) *)
Definition errorf (f : string) (args : list val) : val := VBox (VStruct "error" [("format", VStr (chars f)); ("args", VList args)]).

(** ** The machine *)
Definition id_of (fs : list (string * val)) : option Z := match fs with [(_, VInt I64 p)] => Some p | _ => None end.
Definition dialer_of (m : mem) (w : val) : option dialer :=
  match w with
  | VRef l => match get l m with Some (VStruct "net.Dialer" []) => Some NewDialer | _ => None end
  | VBox (VStruct "net.Dialer" fs) => option_map CallersDialer (id_of fs)
  | _ => None
  end.
Definition tls_of (w : val) : option Z := match w with VBox (VStruct "tls.Config" fs) => id_of fs | _ => None end.
(** The number of the connection of a *Conn, and that and the version of a *Broker *)
Definition conn_of (m : mem) (w : val) : option nat :=
  match w with VRef l => match get l m with Some (VStruct "Conn" fs) => match lookup "raw" fs with Some (VHandle "net.Conn" n) => Some n | _ => None end | _ => None end | _ => None end.
Definition broker_of (m : mem) (a : api) (w : val) : option (nat * Z) :=
  match w with
  | VRef l =>
      match get l m with
      | Some (VStruct "Broker" fs) =>
          match lookup "apiVersion" fs, lookup "conn" fs with
          | Some (VStruct "apiVersion" vs), Some c => match lookup (api_name a) vs, conn_of m c with Some (VInt I16 x), Some n => Some (n, x) | _, _ => None end
          | _, _ => None
          end
      | _ => None
      end
  | _ => None
  end.
Fixpoint topics_of (l : list (list (string * val))) : option (list MetadataRequestTopic3) :=
  match l with
  | [] => Some []
  | fs :: l => match lookup "Name" fs, topics_of l with Some (VStr s), Some ts => Some (mkMetadataRequestTopic3 s :: ts) | _, _ => None end
  end.
Definition metadata_of (fs : list (string * val)) : option MetadataRequest :=
  match lookup "Topics" fs, lookup "AllowAutoTopicCreation" fs, lookup "IncludeClusterAuthorizedOperations" fs, lookup "IncludeTopicAuthorizedOperations" fs with
  | Some VNil, Some (VBool a), Some (VBool b), Some (VBool c) => Some (mkMetadataRequest None a b c)
  | Some (VStructs "MetadataRequestTopic3" l), Some (VBool a), Some (VBool b), Some (VBool c) => option_map (fun ts => mkMetadataRequest (Some ts) a b c) (topics_of l)
  | _, _, _, _ => None
  end.
Definition find_of (fs : list (string * val)) : option FindCoordinatorRequest :=
  match lookup "Key" fs, lookup "KeyType" fs with Some (VStr s), Some (VInt I8 z) => Some (mkFindCoordinatorRequest s z) | _, _ => None end.

Inductive reply := Reply (a : val) (h : list event) | Silence (h : list event) | NotUnderstood.
Section Machine.
(** [junk]: what a request method returns beside an error. *)
Context (v : Client.env) (junk : list event -> val).
Definition dialed_with (d : dialing) (h : list event) : reply :=
  match v_dial v h d with
  | Some x => Reply (VTuple [VNil; VErr x]) (h ++ [EDial d (Some x)])
  | None => Reply (VTuple [VHandle "net.Conn" (opened h); VNil]) (h ++ [EDial d None])
  end.
Definition answered {A} (fields : A -> list (string * val)) (t : string) (r : answer A) (h h' : list event) : reply :=
  match r with
  | Answer a => Reply (VTuple [VStruct t (fields a); VNil]) h'
  | Error x => Reply (VTuple [junk h; VErr x]) h'
  | NoReturn => Silence h'
  end.
Definition replies : list (string * (list val -> mem -> list event -> reply)) :=
  [ ("net.Dialer.Dial", fun vs m h => match vs with
       | [d; VStr net; VStr addr] => match dialer_of m d with Some d => if list_eq_dec Z.eq_dec net (chars "tcp") then dialed_with (Plain d addr) h else NotUnderstood | None => NotUnderstood end
       | _ => NotUnderstood end);
    ("tls.DialWithDialer", fun vs m h => match vs with
       | [d; VStr net; VStr addr; t] => match dialer_of m d, tls_of t with
           | Some d, Some t => if list_eq_dec Z.eq_dec net (chars "tcp") then dialed_with (Tls d addr t) h else NotUnderstood | _, _ => NotUnderstood end
       | _ => NotUnderstood end);
    ("Broker.ApiVersions", fun vs m h => match vs with
       | [b; VStruct "ApiVersionsRequest" [(_, VStr []); (_, VStr [])]] =>
           match broker_of m ApiVersions b with Some (n, 0) => let r := v_versions v h n in answered versions_fields "ApiVersionsResponse" r h (h ++ [EVersions n r]) | _ => NotUnderstood end
       | _ => NotUnderstood end);
    ("Broker.Metadata", fun vs m h => match vs with
       | [b; VStruct "MetadataRequest" fs] => match broker_of m BrokerTable.Metadata b, metadata_of fs with
           | Some (n, x), Some q => let r := v_metadata v h n x q in answered metadata_fields "MetadataResponse" r h (h ++ [EMetadata n x q r]) | _, _ => NotUnderstood end
       | _ => NotUnderstood end);
    ("Broker.FindCoordinator", fun vs m h => match vs with
       | [b; VStruct "FindCoordinatorRequest" fs] => match broker_of m FindCoordinator b, find_of fs with
           | Some (n, x), Some q => let r := v_find v h n x q in answered coordinator_fields "FindCoordinatorResponse" r h (h ++ [EFind n x q r]) | _, _ => NotUnderstood end
       | _ => NotUnderstood end);
    ("Conn.Close", fun vs m h => match vs with [c] => match conn_of m c with Some n => Reply VNil (h ++ [EClose n]) | None => NotUnderstood end | _ => NotUnderstood end);
    ("fmt.Errorf", fun vs m h => match vs with VStr f :: args => Reply (VBox (VStruct "error" [("format", VStr f); ("args", VList args)])) h | _ => NotUnderstood end);
    ("strconv.Itoa", fun vs m h => match vs with [VInt INT z] => Reply (VStr (Itoa z)) h | _ => NotUnderstood end);
    (* what Connect does once there is a connection is modelled in ConnRing.v, and C90 is about its text *)
    ("context.Background", fun vs m h => Reply (VHandle "context.Context" 0) h);
    ("context.WithCancel", fun vs m h => Reply (VTuple [VHandle "context.Context" (opened h); VHandle "context.CancelFunc" (opened h)]) h);
    ("ring.New", fun vs m h => Reply (VHandle "ring.Buffer" (opened h)) h);
    ("make(chan)", fun vs m h => Reply (VHandle "chan" (opened h)) h);
    ("make(chan struct{})", fun vs m h => Reply (VHandle "chan struct{}" (opened h)) h);
    ("make(map)", fun vs m h => Reply (VHandle "map" (opened h)) h);
    ("bufio.NewWriter", fun vs m h => Reply (VHandle "bufio.Writer" (opened h)) h);
    ("message.NewEncoder", fun vs m h => Reply (VHandle "message.Encoder" (opened h)) h);
    ("go Conn.readLoop", fun vs m h => Reply (VTuple []) h);
    ("go Conn.messageLoop", fun vs m h => Reply (VTuple []) h) ].
(** How a call ends: it returns, panics, waits forever for an answer, is in a loop longer than the
    fuel, or is not a program. *)
Inductive ending := Returned (w : val) (m : mem) | Panicked | Waits | Loops | Nonsense.
Fixpoint machine (p : proc) (h : list event) : ending * list event :=
  match p with
  | GoShare.Done w m => (Returned w m, h)
  | Crash => (Panicked, h)
  | Wrong => (Nonsense, h)
  | More => (Loops, h)
  | Ask what vs m k =>
      match lookup what replies with
      | Some f => match f vs m h with Reply a h => machine (k a m) h | Silence h => (Waits, h) | NotUnderstood => (Nonsense, h) end
      | None => (Nonsense, h)
      end
  end.
End Machine.

(** ** What is in memory *)
(** Everything that was there is as it was. *)
Definition grows (m m' : mem) : Prop := (next m <= next m')%nat /\ forall l, (l < next m)%nat -> get l m' = get l m.
(** An option: nil, or what WithDialer or WithTLS gave. *)
Definition option_of_go (s : option setting) : Option := match s with None => None | Some s => option_of s end.
Definition option_at (m : mem) (s : option setting) (w : val) : Prop :=
  match s with
  | None => w = VNil
  | Some (Dialer p) => exists l, w = VBox (VStruct "kafka.WithDialer.func1" [("dialer", VRef l); ("{", VNil)]) /\ (l < next m)%nat /\ get l m = Some (foreign "net.Dialer" p)
  | Some (TLS p) => exists l, w = VBox (VStruct "kafka.WithTLS.func1" [("tlsConfig", VRef l); ("{", VNil)]) /\ (l < next m)%nat /\ get l m = Some (foreign "tls.Config" p)
  end.
Definition options_at (m : mem) (os : list (option setting)) (w : val) : Prop :=
  exists ws, elements_of w = Some ws /\ Forall2 (option_at m) os ws.
Definition dialer_at (m : mem) (d : dialer) (w : val) : Prop :=
  match d with
  | NewDialer => exists l, w = VRef l /\ (l < next m)%nat /\ get l m = Some (VStruct "net.Dialer" [])
  | CallersDialer p => w = foreign "net.Dialer" (Some p)
  end.
Definition config_at (m : mem) (c : config) (w : val) : Prop :=
  exists d, w = VStruct "config" [("clientID", VStr (chars (f_clientID c))); ("dialer", d); ("tlsConfig", foreign "tls.Config" (f_tls c))] /\ dialer_at m (f_dialer c) d.
Definition conn_at (m : mem) (n : nat) (w : val) : Prop := exists l, w = VRef l /\ (l < next m)%nat /\ conn_of m w = Some n.
Definition broker_at (m : mem) (b : Client.Broker) (w : val) : Prop :=
  exists l cw w', w = VRef l /\ (l < next m)%nat /\ get l m = Some (VStruct "Broker" [("apiVersion", versions_val (b_apiVersion b)); ("config", cw); ("conn", w')]) /\
    config_at m (b_config b) cw /\ conn_at m (b_conn b) w'.
(** A *Client with these bootstrap servers and options *)
Definition client_at (m : mem) (addrs : list gostring) (os : list (option setting)) (w : val) : Prop :=
  exists l bw ow, w = VRef l /\ (l < next m)%nat /\ get l m = Some (VStruct "Client" [("bootstrap", bw); ("opts", ow)]) /\
    elements_of bw = Some (map VStr addrs) /\ options_at m os ow.
(** The error that a failure of the model is. *)
Definition failure_val (f : failure) (w : val) : Prop :=
  match f with
  | DialFailed addr x => w = errorf "failed to dial broker, %v: %w" [VStr addr; VErr x]
  | VersionsFailed x => w = errorf "unable to create broker: %w" [VErr x]
  | NegotiationFailed => exists key, w = errorf "unable to create broker: %w" [errorf "unable to negotiate version for api key, %v" [VInt I16 key]]
  | RequestFailed x => w = VErr x
  | NoSuchNode n => w = errorf "no such broker node, %v" [VInt I32 n]
  | NoSuchTopic t => w = errorf "unable to dial leader: %w" [errorf "no such topic, %v" [VStr t]]
  | NoSuchPartition p t => w = errorf "unable to dial leader: %w" [errorf "unable to find partition, %v, for topic, %v" [VInt I32 p; VStr t]]
  end.
Definition hung (e : ending) : Prop := match e with Panicked | Waits | Loops => True | _ => False end.
(** What the text did is what the model says: [good] is the relation between the results. *)
Definition follows {A} (m : mem) (good : mem -> A -> val -> Prop) (bad : val) (text : ending * list event) (model : outcome A * list event) : Prop :=
  snd text = snd model /\
  match fst model with
  | Client.Done a => exists w m', fst text = Returned (VTuple [w; VNil]) m' /\ grows m m' /\ good m' a w
  | Failed f => exists w m', fst text = Returned (VTuple [bad; w]) m' /\ grows m m' /\ failure_val f w
  | Client.Stuck => hung (fst text)
  end.

(** Ports in answers are int32, as their type in Go is. *)
Definition ports_ok (v : Client.env) : Prop :=
  (forall h n x q r, v_metadata v h n x q = Answer r -> Forall (fun b => is_int32 (MetadataResponseBroker3_Port b)) (items (MetadataResponse_Brokers r))) /\
  (forall h n x q r, v_find v h n x q = Answer r -> is_int32 (FindCoordinatorResponse_Port r)).
