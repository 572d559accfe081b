(** * Vocabulary: a broker that reads the requests and answers them (C80) *)
From Verif Require Import GoBase Encoder Decoder Spec SchemaSpec Link Msg01 AllMessages BrokerTable Broker BufIO Conn ConnSpec ConnRing EndSpec.
Local Open Scope Z_scope.

(** ** What the client asks for *)
(** A call of a broker method: the method, its API, the negotiated versions, the
    name of the client, the request. *)
Record order := mkOrder {
  o_method : method; o_api : api; o_versions : apiVersion; o_client : gostring; o_req : c_type (m_req o_method) }.
Definition o_version (o : order) : Z := o_versions o (o_api o).
Definition o_encode (o : order) : Z -> Encoder -> Encoder := encode_request (o_method o) (o_versions o) (o_client o) (o_req o).
(** The Go types of the parts, a name and a request whose lengths fit their prefixes. *)
Definition sendable (o : order) : Prop :=
  In (o_method o) all_methods /\ m_name (o_method o) = api_name (o_api o) /\
  is_int16 (o_version o) /\ zlen (o_client o) < 2 ^ 15 /\
  fit (c_schema (m_req (o_method o))) (o_version o) (c_to (m_req (o_method o)) (o_req o)) /\
  forall id bytes, Emits (o_encode o id) bytes -> zlen bytes < 2 ^ 31.
(** The calls of Do, in order, are the method calls [os]. *)
Definition makes (sched : list (clabel response)) (os : list order) : Prop :=
  flat_map (fun a => match a with DoCall enc dec => [(enc, dec)] | _ => [] end) sched =
  map (fun o => (o_encode o, decode_any (o_method o) (o_versions o))) os.

(** The same for the whole client, with readLoop, the ring buffer and Close. *)
Definition orders (sched : list (nlabel response)) (os : list order) : Prop :=
  calls sched = map (fun o => (o_encode o, decode_any (o_method o) (o_versions o))) os.

(** ** What a broker reads *)
Definition any_request : Type := {m : method & c_type (m_req m)}.
Definition method_of (key : Z) : option method := find (fun m => m_key m =? key) all_methods.
(** A frame: the header; the method by its key; the body at the version of the header. *)
Definition read_frame : Dec (RequestHeader * any_request) :=
  h <- RequestHeader_Decode 2 RequestHeader_zero ;;
  match method_of (RequestHeader_RequestApiKey h) with
  | None => fun d => DErr (ErrOther 0) d
  | Some m =>
      r <- c_decode (m_req m) (RequestHeader_RequestApiVersion h) (c_zero (m_req m)) ;;
      ret (h, existT _ m r)
  end.
(** The header and the request the broker should find for the call [o] with id
    [id]: fields the version does not have are zero. *)
Definition header_of (o : order) (id : Z) : RequestHeader := mkRequestHeader (m_key (o_method o)) (o_version o) id (o_client o).
Definition asked (o : order) (q : any_request) : Prop :=
  exists r, q = existT _ (o_method o) r /\
    c_to (m_req (o_method o)) r =
      receive (c_schema (m_req (o_method o))) (o_version o) (zeros (c_schema (m_req (o_method o)))) (c_to (m_req (o_method o)) (o_req o)).
Definition reads_call (os : list order) (evs : list (event response)) (k : nat) (f : list Z) : Prop :=
  exists o id q, nth_error os k = Some o /\ In (EId k id) evs /\ asked o q /\ Decodes read_frame f (header_of o id, q).

(** ** What a broker answers *)
(** Which responses a broker may give; nothing is assumed about it. *)
Definition service : Type := RequestHeader -> any_request -> response -> Prop.
(** [g] answers one of the requests in the stream [w]. *)
Definition served (F : service) (w g : list Z) : Prop :=
  exists fs rest f h q m x, parses w fs rest /\ In f fs /\ Decodes read_frame f (h, q) /\
    projT1 q = m /\ F h q (existT _ m x) /\ fit (c_schema (m_resp m)) (RequestHeader_RequestApiVersion h) (c_to (m_resp m) x) /\
    g = be 4 (RequestHeader_CorrelationId h) ++ wires (c_schema (m_resp m)) (RequestHeader_RequestApiVersion h) (c_to (m_resp m) x).
(** [p'] is [p] after the wire at version [v]. *)
Definition received (v : Z) (p p' : response) : Prop :=
  exists m x x', p = existT _ m x /\ p' = existT _ m x' /\
    c_to (m_resp m) x' = receive (c_schema (m_resp m)) v (zeros (c_schema (m_resp m))) (c_to (m_resp m) x).
