(** * Property of responses at flexible versions: C68 *)
From Coq Require Import String.
From Verif Require Import GoBase GoLemmas Encoder Decoder Spec SchemaSpec EncProofs DecProofs PrimProofs Link Msg01 Msg02 Msg03 Msg04 AllMessages MsgProofs
  BrokerTable Broker BrokerSpec BrokerProofs FlexSpec FlexRespSpec FlexRespProofs.
Local Open Scope list_scope.
Local Open Scope Z_scope.
Ltac Zify.zify_post_hook ::= idtac.

(** ** C68.  Full statement: a method reads a response in the form Kafka defines for
    the version negotiated ([kafka_response], FlexRespSpec.v) as that response:
      In m all_methods -> m_name m = api_name a -> fit schema (av a) resp -> kafka_response a (av a) schema resp bs ->
      exists resp', Decodes (decode_response m av) bs resp' /\ resp' = receive schema (av a) zeros resp.
    It is false for each of the 24 APIs that have a flexible version: whatever Kafka
    sends (with arrays below 2^23 elements), if the method reads what was sent, then
    nothing was sent but zeros.  Otherwise it returns an error, panics or returns
    something else.  (C59_reached_refuted: such versions are negotiated.) *)
Theorem C68_misread_refuted : forall m, In m all_methods -> forall a, m_name m = api_name a -> forall av resp bs d rest resp' d',
  flexible a (av a) -> fit (c_schema (m_resp m)) (av a) (c_to (m_resp m) resp) -> short (c_schema (m_resp m)) (av a) (c_to (m_resp m) resp) ->
  kafka_response a (av a) (c_schema (m_resp m)) (c_to (m_resp m) resp) bs ->
  dec_ok d -> frame d = bs ++ rest -> Forall is_byte (frame d) -> decode_response m av d = DOk resp' d' ->
  c_to (m_resp m) resp' = receive (c_schema (m_resp m)) (av a) (zeros (c_schema (m_resp m))) (c_to (m_resp m) resp) ->
  a <> ApiVersions /\ blank (c_schema (m_resp m)) (av a) (c_to (m_resp m) resp).
Proof. exact flexible_misread. Qed.
Print Assumptions C68_misread_refuted.
(** A response that carries a string or an array is therefore never read right. *)
Theorem C68_never_refuted : forall m, In m all_methods -> forall a, m_name m = api_name a -> forall av resp bs d rest resp' d',
  flexible a (av a) -> numbers (c_schema (m_resp m)) (av a) = false ->
  fit (c_schema (m_resp m)) (av a) (c_to (m_resp m) resp) -> short (c_schema (m_resp m)) (av a) (c_to (m_resp m) resp) ->
  kafka_response a (av a) (c_schema (m_resp m)) (c_to (m_resp m) resp) bs ->
  dec_ok d -> frame d = bs ++ rest -> Forall is_byte (frame d) -> decode_response m av d = DOk resp' d' ->
  c_to (m_resp m) resp' <> receive (c_schema (m_resp m)) (av a) (zeros (c_schema (m_resp m))) (c_to (m_resp m) resp).
Proof.
  intros m Hm a Hn av resp bs d rest resp' d' Hf N Hfit Hs K Hd Hfr Hb E Q.
  destruct (flexible_misread m Hm a Hn av resp bs d rest resp' d' Hf Hfit Hs K Hd Hfr Hb E Q) as [_ B]. apply blank_numbers in B. congruence.
Qed.
Print Assumptions C68_never_refuted.
(** These are 21 of the 24 at their first flexible version; the others are: *)
Definition first_v (a : api) : Z := match first_flexible a with Some f => f | None => 0 end.
Definition by_name (m : method) (a : api) : bool := String.eqb (m_name m) (api_name a).
Example C68_numbers : map m_name (filter (fun m => existsb (fun a => by_name m a && match first_flexible a with Some f => numbers (c_schema (m_resp m)) f | None => false end) all_apis) all_methods) =
  ["UpdateMetadata"; "Heartbeat"; "InitProducerId"]%string.
Proof. reflexivity. Qed.

(** What this does: from version 4 on, every error code up to 255 in the response to
    a Heartbeat (27 is "rebalance in progress", 25 "unknown member") is read as
    success. *)
Theorem C68_heartbeat_refuted : forall av code bs d rest, 4 <= av Heartbeat -> 0 <= code < 256 ->
  kafka_response Heartbeat (av Heartbeat) HeartbeatResponse_schema (HeartbeatResponse_to (mkHeartbeatResponse 0 code)) bs ->
  dec_ok d -> frame d = bs ++ rest -> exists d', decode_response method_Heartbeat av d = DOk (mkHeartbeatResponse 0 0) d'.
Proof.
  intros av code bs d rest Hv Hc [K _] Hd Hfr.
  assert (F : flexible Heartbeat (av Heartbeat)) by (exists 4; split; [reflexivity|exact Hv]).
  destruct (K F) as (body & Hb & ->). unfold HeartbeatResponse_schema, HeartbeatResponse_to in Hb. cbn [compacts compact active fst snd HeartbeatResponse_ThrottleTimeMs HeartbeatResponse_ErrorCode] in Hb.
  replace (1 <=? av Heartbeat) with true in Hb by lia. destruct Hb as (b1 & b2 & -> & -> & b3 & b4 & -> & -> & ->).
  assert (B : be 2 code = [0; code]) by (cbn; rewrite Z.div_1_r, Z.div_small, !Z.mod_small by lia; reflexivity).
  rewrite B in Hfr. eexists. unfold decode_response.
  change (m_resp method_Heartbeat) with HeartbeatResponse_codec. change (m_v_decode method_Heartbeat) with Heartbeat.
  change (c_decode HeartbeatResponse_codec (av Heartbeat) (c_zero HeartbeatResponse_codec) d) with (HeartbeatResponse_Decode (av Heartbeat) HeartbeatResponse_zero d).
  unfold HeartbeatResponse_Decode, dec_if. replace (1 <=? av Heartbeat) with true by lia.
  assert (D : Decodes (bind dInt32 (fun x => bind dInt16 (fun y => ret (mkHeartbeatResponse x y)))) (be 4 0 ++ be 2 0) (mkHeartbeatResponse 0 0)).
  { eapply Decodes_bind; [apply Decodes_int32; unfold is_int32; lia|]. rewrite <- (app_nil_r (be 2 0)).
    eapply Decodes_bind; [apply Decodes_int16; unfold is_int16; lia|]. apply Decodes_ret. }
  apply (D d (code :: 0 :: rest) Hd). rewrite Hfr. reflexivity.
Qed.
Print Assumptions C68_heartbeat_refuted.

(** Missing: exactly the flexible versions. *)
Theorem C68_plain_partial : forall m, In m all_methods -> forall a, m_name m = api_name a -> forall av resp bs,
  ~ flexible a (av a) -> fit (c_schema (m_resp m)) (av a) (c_to (m_resp m) resp) ->
  kafka_response a (av a) (c_schema (m_resp m)) (c_to (m_resp m) resp) bs ->
  exists resp', Decodes (decode_response m av) bs resp' /\
  c_to (m_resp m) resp' = receive (c_schema (m_resp m)) (av a) (zeros (c_schema (m_resp m))) (c_to (m_resp m) resp).
Proof. exact plain_read. Qed.
Print Assumptions C68_plain_partial.

(** FindCoordinator at version 3: no error, no message, node 1 at "h", port 9092, as
    Kafka sends it; the library takes the lengths of the strings from the wrong bytes
    and finds the buffer short.  At version 2 it is read.  And a Heartbeat response with
    error 27 at version 4, read as success. *)
Definition coordinator : FindCoordinatorResponse := mkFindCoordinatorResponse 0 0 [] 1 [104] 9092.
Example C68_case :
  kafka_response FindCoordinator 3 FindCoordinatorResponse_schema (FindCoordinatorResponse_to coordinator)
    [0; 0;0;0;0; 0;0; 1; 0;0;0;1; 2;104; 0;0;35;132; 0] /\
  (exists d', decode_response method_FindCoordinator (fun _ => 3) (NewDecoder [0; 0;0;0;0; 0;0; 1; 0;0;0;1; 2;104; 0;0;35;132; 0] 19) = DErr ErrShortBuffer d') /\
  kafka_response FindCoordinator 2 FindCoordinatorResponse_schema (FindCoordinatorResponse_to coordinator)
    [0;0;0;0; 0;0; 0;0; 0;0;0;1; 0;1;104; 0;0;35;132] /\
  (exists d', decode_response method_FindCoordinator (fun _ => 2) (NewDecoder [0;0;0;0; 0;0; 0;0; 0;0;0;1; 0;1;104; 0;0;35;132] 19) = DOk coordinator d') /\
  kafka_response Heartbeat 4 HeartbeatResponse_schema (HeartbeatResponse_to (mkHeartbeatResponse 0 27)) [0; 0;0;0;0; 0;27; 0] /\
  (exists d', decode_response method_Heartbeat (fun _ => 4) (NewDecoder [0; 0;0;0;0; 0;27; 0] 8) = DOk (mkHeartbeatResponse 0 0) d').
Proof.
  split; [|split; [eexists; reflexivity|split; [|split; [eexists; reflexivity|split; [|eexists; reflexivity]]]]].
  - split; [|intros N; exfalso; apply N; exists 3; split; [reflexivity|lia]]. intros _.
    exists [0;0;0;0; 0;0; 1; 0;0;0;1; 2;104; 0;0;35;132; 0]. split; [|reflexivity].
    exists [0;0;0;0], [0;0; 1; 0;0;0;1; 2;104; 0;0;35;132; 0]. split; [reflexivity|]. split; [reflexivity|].
    exists [0;0], [1; 0;0;0;1; 2;104; 0;0;35;132; 0]. split; [reflexivity|]. split; [reflexivity|].
    exists [1], [0;0;0;1; 2;104; 0;0;35;132; 0]. split; [reflexivity|]. split; [exists [1]; split; [exists 1%nat; repeat split; cbn; lia|reflexivity]|].
    exists [0;0;0;1], [2;104; 0;0;35;132; 0]. split; [reflexivity|]. split; [reflexivity|].
    exists [2;104], [0;0;35;132; 0]. split; [reflexivity|]. split; [exists [2]; split; [exists 1%nat; repeat split; cbn; lia|reflexivity]|].
    exists [0;0;35;132], [0]. repeat split.
  - split; [intros (f & E & L); injection E as <-; lia|]. intros _. reflexivity.
  - split; [|intros N; exfalso; apply N; exists 4; split; [reflexivity|lia]]. intros _.
    exists [0;0;0;0; 0;27; 0]. split; [|reflexivity]. exists [0;0;0;0], [0;27;0]. split; [reflexivity|]. split; [reflexivity|].
    exists [0;27], [0]. repeat split.
Qed.
