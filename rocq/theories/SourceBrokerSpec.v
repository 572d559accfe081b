(** * The text of the 48 request methods: vocabulary of C92 *)
From Coq Require Import String.
From Verif Require Import GoBase Encoder Decoder Link Msg01 BrokerTable Broker Options Client GoLang GoShare SourceMessages SourceConn SourceClient SourceClientSpec.
Local Open Scope string_scope.
Local Open Scope list_scope.
Local Open Scope Z_scope.

(** ** The program: gen.broker.go, with client.go and gen.option.go *)
Definition broker_program : package := mkPackage
  (k_types client_source ++ k_types conn_source ++ k_types messages ++ [("net.Dialer", []); ("sync.Mutex", [])])
  (k_globals client_source) (k_funcs client_source).

(** ** Encoding.  What the first closure asks, answered by the model of package message: the sizes
    and the bytes of the header and of the request.  [value]: which request a struct is. *)
Definition the_encoder : val := VHandle "message.Encoder" 0.
Definition header_of (w : val) : option RequestHeader :=
  match w with
  | VStruct "RequestHeader" fs =>
      match lookup "RequestApiKey" fs, lookup "RequestApiVersion" fs, lookup "CorrelationId" fs, lookup "ClientId" fs with
      | Some (VInt I16 k), Some (VInt I16 x), Some (VInt I32 c), Some (VStr s) => Some (mkRequestHeader k x c s)
      | _, _, _, _ => None
      end
  | _ => None
  end.
(** An int16 argument; an untyped constant becomes one. *)
Definition version_of (w : val) : option Z := match w with VInt I16 x => Some x | VConst x => Some (int16 x) | _ => None end.
Definition is_encoder (w : val) : bool := match w with VHandle "message.Encoder" 0 => true | _ => false end.
Section Encoding.
Context (m : BrokerTable.method) (value : list (string * val) -> option (c_type (m_req m))).
Definition request_of (w : val) : option (c_type (m_req m)) :=
  match w with VStruct t fs => if String.eqb t (m_req_name m) then value fs else None | _ => None end.
Definition encoder_replies : list (string * (list val -> Encoder -> option (val * Encoder))) :=
  [ ("RequestHeader.Size", fun vs e => match vs with
       | [h; x] => match header_of h, version_of x with Some h, Some x => Some (VInt I32 (RequestHeader_Size x h), e) | _, _ => None end | _ => None end);
    ("RequestHeader.Encode", fun vs e => match vs with
       | [h; w; x] => match header_of h, version_of x, is_encoder w with Some h, Some x, true => Some (VTuple [], RequestHeader_Encode x h e) | _, _, _ => None end | _ => None end);
    ("message.Encoder.PutInt32", fun vs e => match vs with
       | [w; VInt I32 z] => if is_encoder w then Some (VTuple [], PutInt32 z e) else None | _ => None end);
    ((m_req_name m ++ ".Size")%string, fun vs e => match vs with
       | [r; x] => match request_of r, version_of x with Some r, Some x => Some (VInt I32 (c_size (m_req m) x r), e) | _, _ => None end | _ => None end);
    ((m_req_name m ++ ".Encode")%string, fun vs e => match vs with
       | [r; w; x] => match request_of r, version_of x, is_encoder w with Some r, Some x, true => Some (VTuple [], c_encode (m_req m) x r e) | _, _, _ => None end | _ => None end) ].
(** The result of the closure, and the encoder after it. *)
Fixpoint encoding (p : proc) (e : Encoder) : option (val * mem * Encoder) :=
  match p with
  | GoShare.Done v mm => Some (v, mm, e)
  | Ask what vs mm k => match lookup what encoder_replies with
                        | Some f => match f vs e with Some (v, e) => encoding (k v mm) e | None => None end
                        | None => None end
  | _ => None
  end.
End Encoding.

(** ** What the closures of a method see: resp, req and b.  [req]: the fields of the request *)
Definition sees (m : BrokerTable.method) (mm : mem) (b : Client.Broker) (req : list (string * val)) (l : nat) (E : env) : Prop :=
  exists lq lb bw, E = [("resp", VRef l); ("req", VRef lq); ("b", VRef lb); ("{", VNil)] /\ (lq < next mm)%nat /\ (lb < next mm)%nat /\
    get lq mm = Some (VStruct (m_req_name m) req) /\ get lb mm = Some bw /\ broker_at mm b bw.
Definition closure (m : BrokerTable.method) (i : string) (E : env) : val := VBox (VStruct ("Broker." ++ m_name m ++ "." ++ i)%string E).
(** A value of type error *)
Definition is_error (w : val) : Prop := w = VNil \/ (exists x, w = VErr x) \/ exists x, w = VBox x.
