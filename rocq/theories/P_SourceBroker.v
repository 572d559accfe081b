(** * Properties of the text of the 48 request methods: C92, and C20 for the text *)
From Coq Require Import String Lia.
From Verif Require Import GoBase Encoder Decoder Link Spec Msg01 Msg03 SchemaSpec AllMessages BrokerTable Broker BrokerSpec Options Client P_Broker
  GoLang GoShare SourceClient SourceClientSpec SourceBrokerSpec SourceBrokerProofs.
Local Open Scope string_scope.
Local Open Scope list_scope.
Local Open Scope Z_scope.

(** [broker_program] (SourceBrokerSpec.v) has the text of all request methods of Broker and of
    their closures (SourceClient.v).  [sees m mm b req l E]: the variables [E] of the closures in
    memory [mm] are req, with fields [req], b, a pointer to a broker that is [b] in the model, and
    resp, at place [l].

    ** C92.  For every width of int, the text of a method of Broker, given a request, asks Conn.Do
    of the connection of the broker, once, to call its two closures; resp is a new variable with the
    zero value of the response type.  Whatever Do returns as error and has left in resp then is the
    result. *)
Theorem C92_method : forall W m n b bw req mm k, In m all_methods -> (2 <= n)%nat -> broker_at mm b bw ->
  exists l E mm1 cw zero kk,
    call W broker_program n ("Broker." ++ m_name m) [] [bw; VStruct (m_req_name m) req] mm k = Ask "Conn.Do" [cw; closure m "func1" E; closure m "func2" E] mm1 kk /\
    grows mm mm1 /\ conn_at mm1 (b_conn b) cw /\ sees m mm1 b req l E /\ (next mm <= l < next mm1)%nat /\
    zero_val broker_program 4 (GNamed (m_resp_name m)) = Some zero /\ get l mm1 = Some zero /\
    forall err mm2 r, (next mm1 <= next mm2)%nat -> is_error err -> get l mm2 = Some (VStruct (m_resp_name m) r) ->
      exists mm3, kk err mm2 = k (VTuple [VStruct (m_resp_name m) r; err]) mm3 /\ grows mm2 mm3.
Proof. intros W m n b bw req mm k Hm Hn. destruct n as [|[|n]]; [lia..|]. exact (method_text W m (fun _ => None) n b bw req mm k Hm). Qed.
Print Assumptions C92_method.
(** The text of the first closure does to the encoder what [encode_request] does, if the methods
    Size and Encode of RequestHeader and of the request do what they do in the model (C88), whichever
    request ([value]) its struct is. *)
Theorem C92_encode : forall W m value n b rfs req l E corr mm e, In m all_methods -> (2 <= n)%nat -> sees m mm b rfs l E -> value rfs = Some req ->
  exists mm', encoding m value (call W broker_program n ("Broker." ++ m_name m ++ ".func1") E [the_encoder; VInt I32 corr] mm GoShare.Done) e
    = Some (VTuple [], mm', encode_request m (b_apiVersion b) (chars (f_clientID (b_config b))) req corr e) /\ grows mm mm'.
Proof. intros W m value n b rfs req l E corr mm e Hm Hn. destruct n as [|[|n]]; [lia..|]. exact (encode_text W m value n b rfs req l E corr mm e Hm). Qed.
Print Assumptions C92_encode.
(** The text of the second closure asks once for what [decode_response] is in the model: Decode of
    resp with the decoder it was given and the version of this API, and returns that error. *)
Theorem C92_decode : forall W m n b rfs l E fs d mm k, In m all_methods -> (2 <= n)%nat -> sees m mm b rfs l E -> (l < next mm)%nat -> get l mm = Some (VStruct (m_resp_name m) fs) ->
  exists mm1 kk, call W broker_program n ("Broker." ++ m_name m ++ ".func2") E [VHandle "message.Decoder" d] mm k
      = Ask (m_resp_name m ++ ".Decode") [VRef l; VHandle "message.Decoder" d; VInt I16 (b_apiVersion b (m_v_decode m))] mm1 kk /\ grows mm mm1 /\
    forall err mm2, is_error err -> kk err mm2 = k err mm2.
Proof. intros W m n b rfs l E fs d mm k Hm Hn. destruct n as [|[|n]]; [lia..|]. exact (decode_text W m (fun _ => None) n b rfs l E fs d mm k Hm). Qed.
Print Assumptions C92_decode.
(** ** C20 for the text: what the first closure has an encoder emit *)
Theorem C20_text_frame : forall W m value, In m all_methods -> exists a lo hi, declared a = Some (m_key m, lo, hi) /\ m_name m = api_name a /\
  forall n b rfs req l E corr mm e, (2 <= n)%nat -> sees m mm b rfs l E -> value rfs = Some req -> reliable e -> exists mm' e' body,
    encoding m value (call W broker_program n ("Broker." ++ m_name m ++ ".func1") E [the_encoder; VInt I32 corr] mm GoShare.Done) e = Some (VTuple [], mm', e') /\
    Emits (c_encode (m_req m) (b_apiVersion b a) req) body /\ reliable e' /\
    let hdr := be 2 (m_key m) ++ be 2 (b_apiVersion b a) ++ be 4 corr ++ w_string (chars (f_clientID (b_config b))) in
    output e' = output e ++ be 4 (zlen (hdr ++ body)) ++ hdr ++ body.
Proof.
  intros W m value Hm. destruct (C20_request_frame m Hm) as (a & lo & hi & H1 & H2 & _ & _ & H). exists a, lo, hi. split; [exact H1|]. split; [exact H2|].
  intros n b rfs req l E corr mm e Hn Hs Hv He. destruct (H (b_apiVersion b) (chars (f_clientID (b_config b))) req corr) as (body & B1 & B2).
  destruct (C92_encode W m value n b rfs req l E corr mm e Hm Hn Hs Hv) as (mm' & -> & _). destruct (B2 e He) as [R1 R2].
  exists mm', (encode_request m (b_apiVersion b) (chars (f_clientID (b_config b))) req corr e), body. split; [reflexivity|]. split; [exact B1|]. split; [exact R1|exact R2].
Qed.
Print Assumptions C20_text_frame.

(** An example: the request of C20_example, by the interpreter *)
Definition ex_broker : Client.Broker := mkBroker (fun _ => 1) (mkConfig "c" NewDialer None) 0.
Definition ex_request : list (string * val) := [("Key", VStr [103]); ("KeyType", VInt I8 0)].
Definition ex_broker_memory : mem :=
  push VNil (push (VStruct "FindCoordinatorRequest" ex_request) (push (VRef 2) (
  push (VStruct "Broker" [("apiVersion", versions_val (fun _ => 1)); ("config", VStruct "config" [("clientID", VStr [99]); ("dialer", VRef 1); ("tlsConfig", VNil)]); ("conn", VRef 0)]) (
  push (VStruct "net.Dialer" []) (push (VStruct "Conn" [("raw", VHandle "net.Conn" 0)]) (mkMem 0 [])))))).
Definition ex_sees : env := [("resp", VRef 5); ("req", VRef 4); ("b", VRef 3); ("{", VNil)].
Definition ex_value (fs : list (string * val)) : option FindCoordinatorRequest :=
  match fs with [(_, VStr k); (_, VInt I8 t)] => Some (mkFindCoordinatorRequest k t) | _ => None end.
Example C92_example : sees method_FindCoordinator ex_broker_memory ex_broker ex_request 5 ex_sees /\ ex_value ex_request = Some (mkFindCoordinatorRequest [103] 0) /\
  option_map (fun x => output (snd x)) (encoding method_FindCoordinator ex_value
    (call 64 broker_program 2 "Broker.FindCoordinator.func1" ex_sees [the_encoder; VInt I32 7] ex_broker_memory GoShare.Done) (NewEncoder (mkTarget (fun _ _ => None) None []))) =
  Some [0;0;0;15; 0;10; 0;1; 0;0;0;7; 0;1;99; 0;1;103; 0].
Proof.
  split; [|split; [reflexivity|vm_compute; reflexivity]].
  exists 4%nat, 3%nat, (VRef 2). split; [reflexivity|]. split; [cbn; lia|]. split; [cbn; lia|]. split; [reflexivity|]. split; [reflexivity|].
  do 3 eexists. split; [reflexivity|]. split; [cbn; lia|]. split; [reflexivity|]. split.
  - eexists. split; [reflexivity|]. exists 1%nat. split; [reflexivity|]. split; [cbn; lia|reflexivity].
  - exists 0%nat. split; [reflexivity|]. split; [cbn; lia|reflexivity].
Qed.
