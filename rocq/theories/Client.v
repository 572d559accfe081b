(** * Model of client.go and of NewBroker (gen.broker.go:33-63) *)
From Coq Require Import String.
From Verif Require Import GoBase Link Msg02 Msg03 Msg04 BrokerTable Broker BrokerProofs Options.
Local Open Scope Z_scope.
Local Open Scope list_scope.

(** Errors returned by the functions of client.go and NewBroker; [x] is the error of
    the network or of a request. *)
Inductive failure :=
| DialFailed (addr : gostring) (x : error)          (* gen.conn.go:66 *)
| VersionsFailed (x : error)                        (* gen.broker.go:49 *)
| NegotiationFailed                                 (* gen.broker.go:53 *)
| RequestFailed (x : error)                         (* the error of a request *)
| NoSuchNode (node : Z)                             (* client.go:62 *)
| NoSuchTopic (topic : gostring)                    (* client.go:157, 110 *)
| NoSuchPartition (partition : Z) (topic : gostring). (* client.go:148, 115 *)

(** What a function does: it returns a value, returns an error, or neither
    (it never returns, or the process dies). *)
Inductive outcome (A : Type) := Done (a : A) | Failed (f : failure) | Stuck.
Arguments Done {A}. Arguments Failed {A}. Arguments Stuck {A}.

(** The result of a request (Broker methods, gen.broker.go): the decoded response, an
    error, or neither. *)
Inductive answer (A : Type) := Answer (a : A) | Error (x : error) | NoReturn.
Arguments Answer {A}. Arguments Error {A}. Arguments NoReturn {A}.

(** What the outside world sees.  Connections are numbered in the order they are opened. *)
Inductive event :=
| EDial (d : dialing) (r : option error)                                     (* [None]: connected *)
| EVersions (conn : nat) (r : answer ApiVersionsResponse)                    (* request sent at version 0 *)
| EMetadata (conn : nat) (version : Z) (req : MetadataRequest) (r : answer MetadataResponse)
| EFind (conn : nat) (version : Z) (req : FindCoordinatorRequest) (r : answer FindCoordinatorResponse)
| EClose (conn : nat).

(** The outside world: arbitrary functions of everything that has happened. *)
Record env := mkEnv {
  v_dial : list event -> dialing -> option error;
  v_versions : list event -> nat -> answer ApiVersionsResponse;
  v_metadata : list event -> nat -> Z -> MetadataRequest -> answer MetadataResponse;
  v_find : list event -> nat -> Z -> FindCoordinatorRequest -> answer FindCoordinatorResponse }.

(** Computations over the history, oldest event first. *)
Definition M (A : Type) : Type := env -> list event -> outcome A * list event.
Definition ret {A} (a : A) : M A := fun _ h => (Done a, h).
Definition fail {A} (f : failure) : M A := fun _ h => (Failed f, h).
Definition stuck {A} : M A := fun _ h => (Stuck, h).
Definition bind {A B} (m : M A) (k : A -> M B) : M B := fun v h =>
  match m v h with
  | (Done a, h') => k a v h'
  | (Failed f, h') => (Failed f, h')
  | (Stuck, h') => (Stuck, h')
  end.
(** [x, err := m; if err != nil { ... }] with another branch for the error. *)
Definition or_else {A B} (m : M A) (k : A -> M B) (kerr : failure -> M B) : M B := fun v h =>
  match m v h with
  | (Done a, h') => k a v h'
  | (Failed f, h') => kerr f v h'
  | (Stuck, h') => (Stuck, h')
  end.
Notation "x <- m ;; f" := (bind m (fun x => f)) (at level 61, m at next level, right associativity).

Definition opened (h : list event) : nat :=
  length (filter (fun e => match e with EDial _ None => true | _ => false end) h).

(** gen.broker.go:26-30 *)
Record Broker := mkBroker { b_apiVersion : apiVersion; b_config : config; b_conn : nat }.

(** gen.conn.go:61-90; the goroutines of the connection are modelled in ConnRing.v. *)
Definition Connect (addr : gostring) (opts : list Option) : M nat := fun v h =>
  match buildConfig opts with
  | None => (Stuck, h)
  | Some c =>
      match v_dial v h (dial c addr) with
      | Some x => (Failed (DialFailed addr x), h ++ [EDial (dial c addr) (Some x)])
      | None => (Done (opened h), h ++ [EDial (dial c addr) None])
      end
  end.

(** The request methods of gen.broker.go, seen from outside. *)
Definition ask_versions (n : nat) : M ApiVersionsResponse := fun v h =>
  let r := v_versions v h n in
  (match r with Answer a => Done a | Error x => Failed (RequestFailed x) | NoReturn => Stuck end, h ++ [EVersions n r]).
Definition ask_metadata (b : Broker) (req : MetadataRequest) : M MetadataResponse := fun v h =>
  let r := v_metadata v h (b_conn b) (b_apiVersion b Metadata) req in
  (match r with Answer a => Done a | Error x => Failed (RequestFailed x) | NoReturn => Stuck end,
   h ++ [EMetadata (b_conn b) (b_apiVersion b Metadata) req r]).
Definition ask_find (b : Broker) (req : FindCoordinatorRequest) : M FindCoordinatorResponse := fun v h =>
  let r := v_find v h (b_conn b) (b_apiVersion b FindCoordinator) req in
  (match r with Answer a => Done a | Error x => Failed (RequestFailed x) | NoReturn => Stuck end,
   h ++ [EFind (b_conn b) (b_apiVersion b FindCoordinator) req r]).

(** gen.broker.go:33-58.  The loop of matchVersion ends within [enough] tests
    or never (lemma [negotiates_enough]). *)
Definition NewBroker (addr : gostring) (opts : list Option) : M Broker :=
  match buildConfig opts with
  | None => stuck
  | Some c =>
      conn <- Connect addr opts ;;
      or_else (ask_versions conn)
        (fun resp =>
           match negotiateApiVersions enough (items (ApiVersionsResponse_ApiKeys resp)) with
           | Some (Some av) => ret (mkBroker av c conn)
           | Some None => fail NegotiationFailed
           | None => stuck
           end)
        (fun f => fail (match f with RequestFailed x => VersionsFailed x | _ => f end))
  end.

(** gen.broker.go:61-63: Conn.Close, modelled in ConnRing.v. *)
Definition Close (b : Broker) : M unit := fun _ h => (Done tt, h ++ [EClose (b_conn b)]).

(** strconv.Itoa: decimal digits, with a minus sign if negative. *)
Fixpoint digits (fuel : nat) (z : Z) : list Z :=
  match fuel with
  | O => []
  | S fuel' => (if z <? 10 then [] else digits fuel' (z / 10)) ++ [48 + z mod 10]
  end.
Definition Itoa (z : Z) : gostring := if z <? 0 then 45 :: digits 20 (- z) else digits 20 z.

(** client.go:58, 79: [host + ":" + strconv.Itoa(int(port))] *)
Definition address (host : gostring) (port : Z) : gostring := host ++ [58] ++ Itoa port.

(** client.go:26-29 *)
Record Client := mkClient { c_bootstrap : list gostring; c_opts : list Option }.

(** client.go:40-52.  [callback] returns the value it assigns to the captured
    variable; the result is [None] if it was not called. *)
Fixpoint bootstrap_loop {A} (opts : list Option) (addrs : list gostring) (callback : Broker -> M A) (err : option failure) : M (option A) :=
  match addrs with
  | [] => match err with None => ret None | Some f => fail f end
  | addr :: rest =>
      or_else (NewBroker addr opts)
        (fun broker => a <- callback broker ;; ret (Some a))
        (fun f => bootstrap_loop opts rest callback (Some f))
  end.
Definition dialBootstrap {A} (c : Client) (callback : Broker -> M A) : M (option A) :=
  bootstrap_loop (c_opts c) (c_bootstrap c) callback None.

(** client.go:55-63 *)
Definition dialNode (c : Client) (meta : MetadataResponse) (nodeID : Z) : M Broker :=
  match find (fun b => MetadataResponseBroker3_NodeId b =? nodeID) (items (MetadataResponse_Brokers meta)) with
  | Some b => NewBroker (address (MetadataResponseBroker3_Host b) (MetadataResponseBroker3_Port b)) (c_opts c)
  | None => fail (NoSuchNode nodeID)
  end.

(** client.go:65-81 *)
Definition dialCoordinator (c : Client) (req : FindCoordinatorRequest) : M Broker :=
  r <- dialBootstrap c (fun b => ask_find b req) ;;
  let resp := match r with Some v => v | None => FindCoordinatorResponse_zero end in
  NewBroker (address (FindCoordinatorResponse_Host resp) (FindCoordinatorResponse_Port resp)) (c_opts c).

(** client.go:122-140.  The topics of the request are nil if there are none. *)
Definition metadata_request (topics : list gostring) : MetadataRequest :=
  mkMetadataRequest (match topics with [] => None | _ => Some (map mkMetadataRequestTopic3 topics) end) false false false.
Definition Metadata (c : Client) (topics : list gostring) : M MetadataResponse :=
  r <- dialBootstrap c (fun b => ask_metadata b (metadata_request topics)) ;;
  ret (match r with Some v => v | None => MetadataResponse_zero end).

(** client.go:84-91 *)
Definition DialController (c : Client) : M Broker :=
  meta <- Metadata c [] ;; dialNode c meta (MetadataResponse_ControllerId meta).

(** client.go:94-99 *)
Definition DialGroupCoordinator (c : Client) (groupId : gostring) : M Broker :=
  dialCoordinator c (mkFindCoordinatorRequest groupId 0).

Definition string_eqb (a b : gostring) : bool := if list_eq_dec Z.eq_dec a b then true else false.

(** client.go:142-149 *)
Definition findPartition (topic : MetadataResponseTopic3) (partition : Z) : outcome MetadataResponsePartition3 :=
  match find (fun p => MetadataResponsePartition3_PartitionIndex p =? partition) (items (MetadataResponseTopic3_Partitions topic)) with
  | Some p => Done p
  | None => Failed (NoSuchPartition partition (MetadataResponseTopic3_Name topic))
  end.
(** client.go:151-158 *)
Definition findTopic (meta : MetadataResponse) (topicName : gostring) : outcome MetadataResponseTopic3 :=
  match find (fun t => string_eqb (MetadataResponseTopic3_Name t) topicName) (items (MetadataResponse_Topics meta)) with
  | Some t => Done t
  | None => Failed (NoSuchTopic topicName)
  end.
Definition lift {A} (o : outcome A) : M A := fun _ h => (o, h).

(** client.go:102-119.  The texts the errors are wrapped in are not modelled. *)
Definition DialLeader (c : Client) (topic : gostring) (partition : Z) : M Broker :=
  meta <- Metadata c [topic] ;;
  t <- lift (findTopic meta topic) ;;
  p <- lift (findPartition t partition) ;;
  dialNode c meta (MetadataResponsePartition3_LeaderId p).
