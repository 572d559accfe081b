(** * Vocabulary: a client and the cluster it talks to (C81)

    Client.v takes the answers to requests from an arbitrary world.  Here they come
    from connections as in Conn.v, at whose other ends are brokers. *)
From Coq Require Import String Ascii.
From Verif Require Import GoBase Spec SchemaSpec Link Msg01 Msg02 Msg03 Msg04 BrokerTable Broker BrokerSpec BufIO Conn ConnSpec EndSpec ServeSpec Options Client ClientSpec SentSpec.
Local Open Scope Z_scope.
Local Open Scope list_scope.

(** Who answers at an address, and what it may answer; nothing is assumed about it. *)
Definition cluster : Type := gostring -> service.

(** ** What the client did *)
Definition addr_of (d : dialing) : gostring := match d with Plain _ a | Tls _ a _ => a end.
(** The addresses of the connections opened, in order. *)
Definition conns (h : list Client.event) : list gostring :=
  flat_map (fun e => match e with EDial d None => [addr_of d] | _ => [] end) h.
(** The requests made on connection [n], in order. *)
Definition made_on (n : nat) (e : Client.event) : bool :=
  match e with EVersions m _ | EMetadata m _ _ _ | EFind m _ _ _ => Nat.eqb m n | EDial _ _ | EClose _ => false end.
Definition questions (n : nat) (h : list Client.event) : list Client.event := filter (made_on n) h.

(** ** What this is on the connection *)
(** The ASCII characters of a string. *)
Definition text (s : string) : gostring := map (fun a => Z.of_nat (nat_of_ascii a)) (list_ascii_of_string s).
(** The method call that makes a request. *)
Definition call_of (name : gostring) (e : Client.event) (o : order) : Prop :=
  match e with
  | EVersions _ _ => o = mkOrder method_ApiVersions ApiVersions no_versions name ApiVersionsRequest_zero
  | EMetadata _ x req _ => exists av, av BrokerTable.Metadata = x /\ o = mkOrder method_Metadata BrokerTable.Metadata av name req
  | EFind _ x req _ => exists av, av FindCoordinator = x /\ o = mkOrder method_FindCoordinator FindCoordinator av name req
  | EDial _ _ | EClose _ => False
  end.
(** The k-th call gave the client this answer. *)
Definition gave (evs : list (Conn.event response)) (k : nat) (m : method) (r : answer (c_type (m_resp m))) : Prop :=
  match r with
  | Answer a => In (EReturn k (Reply (Value (existT (fun m => c_type (m_resp m)) m a)))) evs
  | Error x => In (EReturn k (WriteError x)) evs \/ In (EReturn k (Reply (Failure x))) evs
  | NoReturn => forall r, ~ In (EReturn k r) evs
  end.
Definition outcome_of (evs : list (Conn.event response)) (k : nat) (e : Client.event) : Prop :=
  match e with
  | EVersions _ r => gave evs k method_ApiVersions r
  | EMetadata _ _ _ r => gave evs k method_Metadata r
  | EFind _ _ _ r => gave evs k method_FindCoordinator r
  | EDial _ _ | EClose _ => True
  end.
(** These requests were made over one connection to a broker that answers by [F]. *)
Definition carried (name : gostring) (F : service) (qs : list Client.event) : Prop :=
  exists raw cap sched s evs os, 4 <= cap /\ executes raw cap sched s evs /\ makes sched os /\ Forall2 (call_of name) qs os /\
    (forall g id tl, In g (frames evs) -> g = be 4 id ++ tl -> In id (ids evs) -> served F (wire evs) g) /\
    forall k e, nth_error qs k = Some e -> outcome_of evs k e.
(** All that happened happened over connections to the brokers of [K]. *)
Definition happened (name : gostring) (K : cluster) (h : list Client.event) : Prop :=
  forall n addr, nth_error (conns h) n = Some addr -> carried name (K addr) (questions n h).

(** ** Requests that fit on the wire *)
Definition fitting (e : Client.event) : Prop :=
  match e with
  | EMetadata _ x req _ => is_int16 x /\ fit MetadataRequest_schema x (MetadataRequest_to req) /\
      zlen (wires MetadataRequest_schema x (MetadataRequest_to req)) < 2 ^ 30
  | EFind _ x req _ => is_int16 x /\ fit FindCoordinatorRequest_schema x (FindCoordinatorRequest_to req) /\
      zlen (wires FindCoordinatorRequest_schema x (FindCoordinatorRequest_to req)) < 2 ^ 30
  | _ => True
  end.
(** Names of fewer than 2^15 bytes, fewer than 2^28 bytes and names in all. *)
Definition short_names (names : list gostring) : Prop :=
  Forall (fun t => zlen t < 2 ^ 15) names /\ zlen (List.concat names) + zlen names < 2 ^ 28.

(** ** What the cluster said *)
(** The broker at [addr], asked at version [x] by a Metadata request for [topics],
    may say [sent]. *)
Definition says_metadata (K : cluster) (name addr : gostring) (x : Z) (topics : list gostring) (sent : MetadataResponse) : Prop :=
  exists id req, map MetadataRequestTopic3_Name (items (MetadataRequest_Topics req)) = topics /\
    K addr (mkRequestHeader 3 x id name) (existT (fun m => c_type (m_req m)) method_Metadata req) (existT (fun m => c_type (m_resp m)) method_Metadata sent).
Definition says_coordinator (K : cluster) (name addr : gostring) (x : Z) (group : gostring) (sent : FindCoordinatorResponse) : Prop :=
  exists id req, FindCoordinatorRequest_Key req = group /\
    K addr (mkRequestHeader 10 x id name) (existT (fun m => c_type (m_req m)) method_FindCoordinator req) (existT (fun m => c_type (m_resp m)) method_FindCoordinator sent).
(** The broker at [addr], asked for its versions, may give an answer from which [av] is negotiated. *)
Definition says_versions (K : cluster) (name addr : gostring) (av : apiVersion) : Prop :=
  exists id req sent resp,
    K addr (mkRequestHeader 18 0 id name) (existT (fun m => c_type (m_req m)) method_ApiVersions req) (existT (fun m => c_type (m_resp m)) method_ApiVersions sent) /\
    ApiVersionsResponse_to resp = receive ApiVersionsResponse_schema 0 (zeros ApiVersionsResponse_schema) (ApiVersionsResponse_to sent) /\
    negotiates (items (ApiVersionsResponse_ApiKeys resp)) (Some av).
(** The broker returned is connected to [addr], and its versions are negotiated with
    the broker there. *)
Definition connected_to (K : cluster) (name : gostring) (h : list Client.event) (b : Client.Broker) (addr : gostring) : Prop :=
  nth_error (conns h) (b_conn b) = Some addr /\ says_versions K name addr (b_apiVersion b).
(** What the theorems assume of a client and its history: at least one bootstrap
    server, a name that fits; what was asked before fits too; fewer than 2^32 events. *)
Definition sane (cl : Client) (c : config) (h h' : list Client.event) : Prop :=
  buildConfig (c_opts cl) = Some c /\ c_bootstrap cl <> [] /\ zlen (text (f_clientID c)) < 2 ^ 15 /\ Forall fitting h /\ zlen h' <= 2 ^ 32.
