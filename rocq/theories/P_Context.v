(** * C75, C76: contexts and subscriptions *)
From Coq Require Import String.
From Verif Require Import GoBase GoLemmas Msg02 Msg03 Msg04 BrokerTable Broker BrokerSpec BrokerProofs Options Client ClientSpec ClientProofs P_Client Context.
Local Open Scope Z_scope.
Local Open Scope list_scope.
Ltac Zify.zify_post_hook ::= idtac.

(** The operations that take a context. *)
Inductive operation (cl : Client) : (context -> M Broker) + (context -> M MetadataResponse) -> Prop :=
| OpMetadata topics : operation cl (inr (fun ctx => Metadata_ ctx cl topics))
| OpController : operation cl (inl (fun ctx => DialController_ ctx cl))
| OpGroup g : operation cl (inl (fun ctx => DialGroupCoordinator_ ctx cl g))
| OpLeader topic p : operation cl (inl (fun ctx => DialLeader_ ctx cl topic p)).

(** ** C75.  Full statement: an operation called with a context that is done contacts nobody
    and returns an error, and one whose context becomes done returns:
      forall cl op ctx v h o h', operation cl (inl op) -> lasting ctx -> op ctx v h = (o, h') ->
        (ctx h <> None -> h' = h /\ exists f, o = Failed f) /\ (ctx h' <> None -> o <> Stuck)
    It is false: the contexts are ignored. *)
Theorem C75_ignored_refuted : forall cl ctx v h,
  (forall op, operation cl (inl op) -> op ctx v h = op Background v h) /\ (forall op, operation cl (inr op) -> op ctx v h = op Background v h).
Proof. intros cl ctx v h. split; intros op H; inversion H; reflexivity. Qed.
Print Assumptions C75_ignored_refuted.
(** An operation whose context is done from the start connects all the same, ... *)
Theorem C75_done_refuted : forall ctx, exists b h', DialLeader_ ctx ex_client [116] 0 ex_env [] = (Done b, h') /\
  dialed h' = map (dial ex_config) [[97]; [98]; [121;58;57;48;57;51]].
Proof. intros ctx. exact C41_example. Qed.
Print Assumptions C75_done_refuted.
(** ... and if the first server that accepts the connection does not answer, no context makes
    any operation return. *)
Theorem C75_hangs_refuted : forall cl c addr addrs v ctx, c_bootstrap cl = addr :: addrs -> buildConfig (c_opts cl) = Some c ->
  v_dial v [] (dial c addr) = None -> v_versions v [EDial (dial c addr) None] 0%nat = NoReturn ->
  (forall op, operation cl (inl op) -> fst (op ctx v []) = Stuck) /\ (forall op, operation cl (inr op) -> fst (op ctx v []) = Stuck).
Proof.
  intros cl c addr addrs v ctx Hb Hc Hd Hv.
  assert (N : forall h, h = [] -> NewBroker addr (c_opts cl) v h = (Stuck, [EDial (dial c addr) None; EVersions 0 NoReturn])).
  { intros h ->. unfold NewBroker, bind, or_else, Connect. rewrite Hc, Hd. cbn. unfold ask_versions. rewrite Hv. reflexivity. }
  assert (B : forall A (cb : Broker -> M A), fst (dialBootstrap cl cb v []) = Stuck).
  { intros A cb. unfold dialBootstrap. rewrite Hb. cbn [bootstrap_loop]. unfold or_else. rewrite N by reflexivity. reflexivity. }
  assert (Mt : forall topics, fst (Metadata cl topics v []) = Stuck).
  { intros topics. unfold Metadata, bind. pose proof (B _ (fun b => ask_metadata b (metadata_request topics))) as H. destruct (dialBootstrap _ _ _ _) as [[| |] h']; try discriminate. reflexivity. }
  split; intros op H; inversion H; subst.
  - unfold DialController_, Metadata_, bind at 1. pose proof (Mt []) as E. destruct (Metadata _ _ _ _) as [[| |] h']; try discriminate. reflexivity.
  - unfold DialGroupCoordinator_, dialCoordinator_, dialCoordinator, bind at 1. match goal with |- context [dialBootstrap cl ?cb v []] => pose proof (B _ cb) as E end.
    destruct (dialBootstrap _ _ _ _) as [[| |] h']; try discriminate. reflexivity.
  - unfold DialLeader_, Metadata_, bind at 1. pose proof (Mt [topic]) as E. destruct (Metadata _ _ _ _) as [[| |] h']; try discriminate. reflexivity.
  - apply Mt.
Qed.
Print Assumptions C75_hangs_refuted.
Definition silent_env : env := mkEnv (fun _ _ => None) (fun _ _ => NoReturn) (fun _ _ _ _ => NoReturn) (fun _ _ _ _ => NoReturn).
Definition cancelled : context := fun _ => Some (ErrOther 9).
Example C75_example : lasting cancelled /\ fst (Metadata_ cancelled (mkClient [[98]] []) [] silent_env []) = Stuck /\
  exists b h', DialLeader_ cancelled ex_client [116] 0 ex_env [] = (Done b, h').
Proof.
  split; [intros h e x H; exact H|]. split; [vm_compute; reflexivity|]. destruct (C75_done_refuted cancelled) as (b & h' & H & _). eauto.
Qed.
(** What holds, missing: contexts that are done.  With a context that is never done the
    operations are those of C41-C46. *)
Theorem C75_never_done_partial : forall cl ctx, (forall h, ctx h = None) ->
  (forall topics, Metadata_ ctx cl topics = Metadata cl topics) /\ DialController_ ctx cl = DialController cl /\
  (forall g, DialGroupCoordinator_ ctx cl g = DialGroupCoordinator cl g) /\ (forall topic p, DialLeader_ ctx cl topic p = DialLeader cl topic p).
Proof. intros cl ctx _. repeat split. Qed.
Print Assumptions C75_never_done_partial.

(** ** C76.  Full statement: when Subscribe returns without an error there is a subscription,
    and the handler gets the messages of the topics:
      forall b topics handler v h s h', Subscribe b topics handler v h = (Done s, h') -> s <> None
    It is false, always: Subscribe returns no error and no subscription, contacts nobody
    and never calls the handler. *)
Theorem C76_subscribe_refuted : forall (Message : Type) b topics (handler : MessageHandler Message) v h,
  Subscribe b topics handler v h = (Done None, h).
Proof. reflexivity. Qed.
Print Assumptions C76_subscribe_refuted.
(** What holds: it does no harm: brokers, connections and the handler are as before
    (C76_subscribe_refuted); in particular what is done after it has the same outcome. *)
Theorem C76_harmless_partial : forall (Message : Type) b topics (handler : MessageHandler Message) A (m : option Subscription -> M A) v h,
  bind (Subscribe b topics handler) m v h = m None v h.
Proof. reflexivity. Qed.
Print Assumptions C76_harmless_partial.
Example C76_example : bind (Subscribe (Message := unit) (mkBroker no_versions ex_config 0) [116] (fun _ => fail (NoSuchNode 1))) (fun _ => Metadata ex_client []) ex_env [] =
  Metadata ex_client [] ex_env [].
Proof. reflexivity. Qed.
