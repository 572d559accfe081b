(** * Property of the flexible versions: C59 *)
From Coq Require Import String.
From Verif Require Import GoBase Encoder Decoder Spec SchemaSpec Link Msg01 Msg02 Msg03 Msg04 AllMessages
  BrokerTable Broker BrokerSpec BrokerProofs FlexSpec FlexProofs.
Local Open Scope list_scope.
Local Open Scope Z_scope.

(** ** C59.  Full statement: at the version negotiated, every request has the form
    Kafka defines for that version ([kafka_request], FlexSpec.v).  False for
    every one of the 24 APIs that have a flexible version: no request (with
    arrays below 2^23 elements) is then encoded as Kafka defines it. *)
Theorem C59_flexible_refuted : forall m, In m all_methods -> forall a, m_name m = api_name a ->
  forall av clientID req corr size bytes,
  flexible a (av a) -> fit (c_schema (m_req m)) (av a) (c_to (m_req m) req) -> short (c_schema (m_req m)) (av a) (c_to (m_req m) req) ->
  zlen size = 4 -> Emits (encode_request m av clientID req corr) (size ++ bytes) ->
  ~ kafka_request a (m_key m) (av a) corr clientID (c_schema (m_req m)) (c_to (m_req m) req) bytes.
Proof. exact flexible_wrong. Qed.
Print Assumptions C59_flexible_refuted.
(** Such versions are negotiated: the library declares each of these APIs up to its
    first flexible version, and uses it with every broker whose highest version
    that is. *)
Theorem C59_reached_refuted : forall a f, first_flexible a = Some f -> exists key lo, declared a = Some (key, lo, f) /\
  forall keys av e, negotiates keys (Some av) -> last_entry keys e -> e_key e = key -> e_max e = f ->
  av a = f /\ flexible a (av a).
Proof. exact flexible_reached. Qed.
Print Assumptions C59_reached_refuted.
(** Kafka's form exists for every message: the claim is not empty. *)
Theorem C59_compact_exists : forall fs v x, exists bs, compacts fs v x bs.
Proof. exact (proj2 compact_exists). Qed.
Print Assumptions C59_compact_exists.
(** Missing: exactly the flexible versions. *)
Theorem C59_plain_partial : forall m, In m all_methods -> forall a, m_name m = api_name a ->
  forall av clientID req corr, ~ flexible a (av a) -> exists size bytes, zlen size = 4 /\
  Emits (encode_request m av clientID req corr) (size ++ bytes) /\
  kafka_request a (m_key m) (av a) corr clientID (c_schema (m_req m)) (c_to (m_req m) req) bytes.
Proof. exact plain_right. Qed.
Print Assumptions C59_plain_partial.
(** FindCoordinator for "g" at version 3, client "c", id 7: written, and as Kafka has it. *)
Example C59_case :
  output (encode_request method_FindCoordinator (fun _ => 3) [99] (mkFindCoordinatorRequest [103] 0) 7
    (NewEncoder (mkTarget (fun _ _ => None) None []))) =
  [0;0;0;15; 0;10; 0;3; 0;0;0;7; 0;1;99; 0;1;103; 0] /\
  kafka_request FindCoordinator 10 3 7 [99] FindCoordinatorRequest_schema
    (FindCoordinatorRequest_to (mkFindCoordinatorRequest [103] 0))
    [0;10; 0;3; 0;0;0;7; 0;1;99; 0; 2;103; 0; 0].
Proof.
  split; [reflexivity|]. split.
  - intros _. exists [2; 103; 0; 0]. split; [|reflexivity]. exists [2; 103], [0; 0]. split; [reflexivity|]. split.
    + exists [2]. split; [|reflexivity]. exists 1%nat. repeat split; cbn; lia.
    + exists [0], [0]. repeat split.
  - intros N. exfalso. apply N. exists 3. split; [reflexivity|lia].
Qed.
