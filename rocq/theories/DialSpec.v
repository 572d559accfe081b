(** * Vocabulary: the operations of a client and what they dial (C82 to C84) *)
From Verif Require Import GoBase Msg02 Msg03 Msg04 Options Client ClientSpec.
Local Open Scope Z_scope.
Local Open Scope list_scope.

(** The methods of Client (client.go:84, 94, 102, 122). *)
Inductive operation :=
| CallMetadata (topics : list gostring)
| CallController
| CallCoordinator (group : gostring)
| CallLeader (topic : gostring) (partition : Z).

(** Everything that has happened after the operation, in a world that had seen [h]. *)
Definition after (cl : Client) (op : operation) (v : env) (h : list event) : list event :=
  match op with
  | CallMetadata topics => snd (Metadata cl topics v h)
  | CallController => snd (DialController cl v h)
  | CallCoordinator g => snd (DialGroupCoordinator cl g v h)
  | CallLeader topic p => snd (DialLeader cl topic p v h)
  end.
(** ... after one operation after the other. *)
Definition after_all (cl : Client) (ops : list operation) (v : env) (h : list event) : list event :=
  fold_left (fun h op => after cl op v h) ops h.

(** Dialed as the caller's options say: with TLS and that configuration if and only if the last
    TLS option is not nil, and by the dialer of the last Dialer option, if that is not nil. *)
Definition as_told (l : list setting) (d : dialing) : Prop :=
  let by_ := match last_dialer l with Some (Some p) => CallersDialer p | _ => NewDialer end in
  exists addr, d = match last_tls l with Some (Some t) => Tls by_ addr t | _ => Plain by_ addr end.

(** The address is one of the bootstrap servers, or made from a host and a port in an answer
    that is among these events. *)
Definition named (cl : Client) (tr : list event) (addr : gostring) : Prop :=
  In addr (c_bootstrap cl) \/
  (exists n x req meta nb, In (EMetadata n x req (Answer meta)) tr /\ In nb (items (MetadataResponse_Brokers meta)) /\
     addr = MetadataResponseBroker3_Host nb ++ [58] ++ Itoa (MetadataResponseBroker3_Port nb)) \/
  (exists n x req resp, In (EFind n x req (Answer resp)) tr /\
     addr = FindCoordinatorResponse_Host resp ++ [58] ++ Itoa (FindCoordinatorResponse_Port resp)).
Definition address_of (d : dialing) : gostring := match d with Plain _ a => a | Tls _ a _ => a end.

(** Numbers of events. *)
Definition dial_events (tr : list event) : nat := length (dialed tr).
Definition asks_other (e : event) : bool := match e with EMetadata _ _ _ _ | EFind _ _ _ _ => true | _ => false end.
Definition other_requests (tr : list event) : nat := length (filter asks_other tr).
(** The connections on which ApiVersions was asked for. *)
Definition versions_asked (tr : list event) : list nat := flat_map (fun e => match e with EVersions n _ => [n] | _ => [] end) tr.
