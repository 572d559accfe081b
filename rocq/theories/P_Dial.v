(** * Properties of what a client dials and asks: C82, C83, C84 *)
From Verif Require Import GoBase GoLemmas Msg02 Msg03 Msg04 BrokerTable Broker BrokerProofs Options Client ClientSpec ClientProofs P_Client DialSpec DialProofs.
Local Open Scope Z_scope.
Local Open Scope list_scope.
Ltac Zify.zify_post_hook ::= idtac.

(** ** C82.  Whatever the world answers, all that a client ever dials is dialed by the dialer and
    with the TLS configuration of its options, nodes found in answers included, ... *)
Theorem C82_as_told : forall l bootstrap ops v h,
  exists tr, after_all (mkClient bootstrap (map option_of l)) ops v h = h ++ tr /\ Forall (as_told l) (dialed tr).
Proof. exact operations_as_told. Qed.
Print Assumptions C82_as_told.
(** ... so that with TLS there is never a plain connection. *)
Theorem C82_never_plain : forall l t bootstrap ops v h, last_tls l = Some (Some t) ->
  exists tr, after_all (mkClient bootstrap (map option_of l)) ops v h = h ++ tr /\ forall d, In d (dialed tr) -> exists by_ addr, d = Tls by_ addr t.
Proof.
  intros l t bootstrap ops v h Ht. destruct (operations_as_told l bootstrap ops v h) as (tr & E & F). exists tr. split; [exact E|].
  intros d Hd. rewrite Forall_forall in F. destruct (F d Hd) as (addr & ->). rewrite Ht. eauto.
Qed.
Print Assumptions C82_never_plain.
(** The cluster of P_Client.v (server "a" listens, for it refuses plain connections only). *)
Example C82_example : dialed (after_all (mkClient [[97]; [98]] (map option_of [Dialer (Some 3); TLS (Some 5)])) [CallLeader [116] 0; CallMetadata []] ex_env []) =
  [Tls (CallersDialer 3) [97] 5; Tls (CallersDialer 3) [121;58;57;48;57;51] 5; Tls (CallersDialer 3) [97] 5].
Proof. vm_compute. reflexivity. Qed.

(** ** C83.  Full statement: every address an operation dials is one of the bootstrap servers or
    the host and port of a node in an answer received before, in the same operation.  Missing:
    DialGroupCoordinator of a client without bootstrap servers. *)
Theorem C83_named_partial : forall cl op v h tr1 d r tr2, c_bootstrap cl <> [] -> after cl op v h = h ++ tr1 ++ EDial d r :: tr2 -> named cl tr1 (address_of d).
Proof. exact operation_named. Qed.
Print Assumptions C83_named_partial.
Theorem C83_others_partial : forall cl op v h tr1 d r tr2, match op with CallCoordinator _ => False | _ => True end ->
  after cl op v h = h ++ tr1 ++ EDial d r :: tr2 -> named cl tr1 (address_of d).
Proof. intros cl op v h tr1 d r tr2 H. apply operation_named_not. destruct op; [reflexivity..|contradiction|reflexivity]. Qed.
Print Assumptions C83_others_partial.
(** That dials ":0", which nobody named. *)
Theorem C83_nobody_named_refuted : forall opts c g v h, buildConfig opts = Some c ->
  exists r tr2, after (mkClient [] opts) (CallCoordinator g) v h = h ++ EDial (dial c [58; 48]) r :: tr2 /\ ~ named (mkClient [] opts) [] [58; 48].
Proof.
  intros opts c g v h Hc. destruct (coordinator_empty v opts c g h Hc) as (o & x & tr & E). exists x, tr. split; [cbn [after]; rewrite E; reflexivity|].
  intros [[]|[(n & y & req & meta & nb & [] & _)|(n & y & req & resp & [] & _)]].
Qed.
Print Assumptions C83_nobody_named_refuted.
Example C83_example : exists tr1 d r tr2, after ex_client (CallLeader [116] 0) ex_env [] = [] ++ tr1 ++ EDial d r :: tr2 /\ address_of d = [121;58;57;48;57;51] /\ length tr1 = 4%nat.
Proof. do 4 eexists. split; [|split]; [cbn [app]; match goal with |- ?l = _ => change l with (firstn 4 l ++ skipn 4 l) end; reflexivity|reflexivity|reflexivity]. Qed.

(** ** C84.  An operation dials each bootstrap server at most once and one node besides, sends
    at most one request apart from ApiVersions, and asks every connection it opens for its
    versions once: nothing is retried. *)
Theorem C84_no_retries : forall cl op v h, exists tr, after cl op v h = h ++ tr /\
  (dial_events tr <= length (c_bootstrap cl) + match op with CallMetadata _ => 0 | _ => 1 end)%nat /\
  (other_requests tr <= 1)%nat /\ versions_asked tr = seq (opened h) (opened tr).
Proof. exact operation_costs. Qed.
Print Assumptions C84_no_retries.
Example C84_example : let tr := after ex_client (CallLeader [116] 0) ex_env [] in
  (dial_events tr, other_requests tr, versions_asked tr, opened tr) = (3%nat, 1%nat, [0%nat; 1%nat], 2%nat).
Proof. vm_compute. reflexivity. Qed.
