(** * Vocabulary for the client properties *)
From Coq Require Import String.
From Verif Require Import GoBase Msg02 Msg03 Msg04 BrokerTable Broker BrokerSpec BrokerProofs Options Client.
Local Open Scope Z_scope.
Local Open Scope list_scope.

(** The settings a list of options asks for (C52): what the caller wrote. *)
Inductive setting := Dialer (p : pointer) | TLS (p : pointer).
Definition option_of (s : setting) : Option := match s with Dialer p => WithDialer p | TLS p => WithTLS p end.
Fixpoint last_dialer (l : list setting) : option pointer :=
  match l with
  | [] => None
  | Dialer p :: rest => match last_dialer rest with Some q => Some q | None => Some p end
  | TLS _ :: rest => last_dialer rest
  end.
Fixpoint last_tls (l : list setting) : option pointer :=
  match l with
  | [] => None
  | TLS p :: rest => match last_tls rest with Some q => Some q | None => Some p end
  | Dialer _ :: rest => last_tls rest
  end.

(** ** What happened *)

(** The answers recorded in the events [tr] are those of the world, which had seen [h]. *)
Fixpoint honest (v : env) (h tr : list event) : Prop :=
  match tr with
  | [] => True
  | e :: rest =>
      match e with
      | EDial d r => r = v_dial v h d
      | EVersions n r => r = v_versions v h n
      | EMetadata n x req r => r = v_metadata v h n x req
      | EFind n x req r => r = v_find v h n x req
      | EClose _ => True
      end /\ honest v (h ++ [e]) rest
  end.

(** The fields of a response are in the range of their Go types. *)
Definition env_ok (v : env) : Prop :=
  forall h n resp, v_versions v h n = Answer resp -> Forall entry_ok (items (ApiVersionsResponse_ApiKeys resp)).

(** A server that cannot be used: it cannot be connected to, does not say which
    versions it supports, or supports none of ours. *)
Definition unusable (c : config) (addr : gostring) (n : nat) (tr : list event) (f : failure) : Prop :=
  (exists x, tr = [EDial (dial c addr) (Some x)] /\ f = DialFailed addr x) \/
  (exists x, tr = [EDial (dial c addr) None; EVersions n (Error x)] /\ f = VersionsFailed x) \/
  (exists resp, tr = [EDial (dial c addr) None; EVersions n (Answer resp)] /\
     negotiates (items (ApiVersionsResponse_ApiKeys resp)) None /\ f = NegotiationFailed).
Definition usable (c : config) (addr : gostring) (n : nat) (tr : list event) (b : Broker) : Prop :=
  exists resp av, tr = [EDial (dial c addr) None; EVersions n (Answer resp)] /\
     negotiates (items (ApiVersionsResponse_ApiKeys resp)) (Some av) /\ b = mkBroker av c n.
(** A server that makes the attempt hang. *)
Definition hangs (c : config) (addr : gostring) (n : nat) (tr : list event) : Prop :=
  tr = [EDial (dial c addr) None; EVersions n NoReturn] \/
  exists resp, tr = [EDial (dial c addr) None; EVersions n (Answer resp)] /\ diverges (items (ApiVersionsResponse_ApiKeys resp)).

(** All of these servers were tried, in this order, and none could be used; [err] is
    the error of the last. *)
Inductive none_usable (c : config) : list event -> list gostring -> list event -> option failure -> Prop :=
| none_nil h : none_usable c h [] [] None
| none_cons h addr rest tr1 f tr2 err : unusable c addr (opened h) tr1 f -> none_usable c (h ++ tr1) rest tr2 err ->
    none_usable c h (addr :: rest) (tr1 ++ tr2) (match err with None => Some f | Some g => Some g end).

(** The network addresses dialed. *)
Definition dialed (tr : list event) : list dialing := flat_map (fun e => match e with EDial d _ => [d] | _ => [] end) tr.

(** Connections opened and not closed. *)
Definition closed (h : list event) (n : nat) : bool := existsb (fun e => match e with EClose m => Nat.eqb n m | _ => false end) h.
Definition still_open (h : list event) : list nat := filter (fun n => negb (closed h n)) (seq 0 (opened h)).

(** Only connections that were opened have been closed. *)
Definition history_ok (h : list event) : Prop := forall n, closed h n = true -> (n < opened h)%nat.

(** What a request method returns. *)
Definition result_of {A} (r : answer A) : outcome A :=
  match r with Answer a => Done a | Error x => Failed (RequestFailed x) | NoReturn => Stuck end.

(** Some bootstrap server is asked a question: [tr] is what happens, [o] the result.
    Either all servers were tried in order and none could be used, and the result
    is the error of the last; or the first one that could be used was asked, and the
    result is what it answered. *)
Definition contacts {A} (c : config) (h : list event) (addrs : list gostring) (question : Broker -> answer A -> event)
  (tr : list event) (o : outcome A) : Prop :=
  (exists f, none_usable c h addrs tr (Some f) /\ o = Failed f) \/
  exists pre addr post tr1 err tr2, addrs = pre ++ addr :: post /\ none_usable c h pre tr1 err /\ tr = tr1 ++ tr2 /\
    ((hangs c addr (opened (h ++ tr1)) tr2 /\ o = Stuck) \/
     exists b tr3 r, usable c addr (opened (h ++ tr1)) tr3 b /\ tr2 = tr3 ++ [question b r] /\ o = result_of r).
(** The questions, sent at the negotiated version. *)
Definition about_topics (topics : list gostring) (b : Broker) (r : answer MetadataResponse) : event :=
  EMetadata (b_conn b) (b_apiVersion b BrokerTable.Metadata)
    (mkMetadataRequest (match topics with [] => None | _ => Some (map mkMetadataRequestTopic3 topics) end) false false false) r.
Definition about_group (group : gostring) (b : Broker) (r : answer FindCoordinatorResponse) : event :=
  EFind (b_conn b) (b_apiVersion b FindCoordinator) (mkFindCoordinatorRequest group 0) r.
(** One attempt to connect to [addr]. *)
Definition connects (c : config) (h : list event) (addr : gostring) (tr : list event) (o : outcome Broker) : Prop :=
  match o with
  | Done b => usable c addr (opened h) tr b
  | Failed f => unusable c addr (opened h) tr f
  | Stuck => hangs c addr (opened h) tr
  end.
(** The operation ends in [o] when its first part ended without a value. *)
Definition gives_up {A B} (o1 : outcome A) (tr : list event) (o : outcome B) : Prop :=
  tr = [] /\ match o1 with Done _ => False | Failed f => o = Failed f | Stuck => o = Stuck end.

(** [x] is the first element of [l] with property [P]. *)
Definition first_such {A} (P : A -> Prop) (l : list A) (x : A) : Prop :=
  exists l1 l2, l = l1 ++ x :: l2 /\ P x /\ Forall (fun y => ~ P y) l1.

(** The node with this id, if there is one, is connected to. *)
Definition node_dialed (c : config) (meta : MetadataResponse) (node : Z) (h tr : list event) (o : outcome Broker) : Prop :=
  (exists nb, first_such (fun b => MetadataResponseBroker3_NodeId b = node) (items (MetadataResponse_Brokers meta)) nb /\
     connects c h (address (MetadataResponseBroker3_Host nb) (MetadataResponseBroker3_Port nb)) tr o) \/
  (Forall (fun b => MetadataResponseBroker3_NodeId b <> node) (items (MetadataResponse_Brokers meta)) /\ tr = [] /\ o = Failed (NoSuchNode node)).
(** The leader of the partition is connected to. *)
Definition leader_dialed (c : config) (meta : MetadataResponse) (topic : gostring) (partition : Z) (h tr : list event) (o : outcome Broker) : Prop :=
  (exists t p, first_such (fun t => MetadataResponseTopic3_Name t = topic) (items (MetadataResponse_Topics meta)) t /\
     first_such (fun p => MetadataResponsePartition3_PartitionIndex p = partition) (items (MetadataResponseTopic3_Partitions t)) p /\
     node_dialed c meta (MetadataResponsePartition3_LeaderId p) h tr o) \/
  (exists t, first_such (fun t => MetadataResponseTopic3_Name t = topic) (items (MetadataResponse_Topics meta)) t /\
     Forall (fun p => MetadataResponsePartition3_PartitionIndex p <> partition) (items (MetadataResponseTopic3_Partitions t)) /\
     tr = [] /\ o = Failed (NoSuchPartition partition topic)) \/
  (Forall (fun t => MetadataResponseTopic3_Name t <> topic) (items (MetadataResponse_Topics meta)) /\ tr = [] /\ o = Failed (NoSuchTopic topic)).

(** ** Addresses *)

(** The value of a decimal numeral, [None] if it is not one: digits, at least one,
    perhaps after a minus sign. *)
Fixpoint digits_value (acc : Z) (s : list Z) : option Z :=
  match s with
  | [] => Some acc
  | c :: rest => if (48 <=? c) && (c <=? 57) then digits_value (10 * acc + (c - 48)) rest else None
  end.
Definition decimal_value (s : gostring) : option Z :=
  match s with
  | [] => None
  | c :: rest => if c =? 45 then match rest with [] => None | _ => option_map Z.opp (digits_value 0 rest) end
                 else digits_value 0 s
  end.
(** Everything before and after the last colon. *)
Fixpoint split_colon (s : gostring) : option (gostring * gostring) :=
  match s with
  | [] => None
  | c :: rest => match split_colon rest with
                 | Some (a, b) => Some (c :: a, b)
                 | None => if c =? 58 then Some ([], rest) else None
                 end
  end.

(** Go's net.SplitHostPort (Go 1.13, net/ipsock.go), by which the dialer reads an address;
    [None]: an error. *)
Fixpoint index_of (x : Z) (s : gostring) : option Z :=
  match s with [] => None | c :: rest => if c =? x then Some 0 else option_map (Z.add 1) (index_of x rest) end.
Fixpoint last_of (x : Z) (s : gostring) : option Z :=
  match s with
  | [] => None
  | c :: rest => match last_of x rest with Some i => Some (i + 1) | None => if c =? x then Some 0 else None end
  end.
Definition from (i : Z) (s : gostring) : gostring := skipn (Z.to_nat i) s.
Definition upto (i : Z) (s : gostring) : gostring := firstn (Z.to_nat i) s.
Definition SplitHostPort (hostport : gostring) : option (gostring * gostring) :=
  match last_of 58 hostport with
  | None => None
  | Some i =>
      let finish host j k :=
        match index_of 91 (from j hostport), index_of 93 (from k hostport) with
        | None, None => Some (host, from (i + 1) hostport)
        | _, _ => None
        end in
      match hostport with
      | 91 :: _ =>
          match index_of 93 hostport with
          | None => None
          | Some e => if e + 1 =? i then finish (from 1 (upto e hostport)) 1 (e + 1) else None
          end
      | _ =>
          let host := upto i hostport in
          match index_of 58 host with Some _ => None | None => finish host 0 0 end
      end
  end.
(** A host without colon and square brackets. *)
Definition plain_host (host : gostring) : Prop := ~ In 58 host /\ ~ In 91 host /\ ~ In 93 host.
