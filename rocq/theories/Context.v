(** * Model of the context parameters of client.go and of Broker.Subscribe *)
From Verif Require Import GoBase Msg02 Msg03 Msg04 BrokerTable Options Client.

(** context.Context as far as it matters here: the result of Err after a history.
    Once non-nil it stays so ([lasting]). *)
Definition context : Type := list event -> option error.
Definition lasting (ctx : context) : Prop := forall h e x, ctx h = Some x -> ctx (h ++ e) = Some x.
Definition Background : context := fun _ => None.

(** client.go:65, 84, 94, 102, 122: each takes a context first and hands it at most to
    another of them. *)
Definition Metadata_ (ctx : context) (c : Client) (topics : list gostring) : M MetadataResponse := Metadata c topics.
Definition DialController_ (ctx : context) (c : Client) : M Broker :=
  meta <- Metadata_ ctx c [] ;; dialNode c meta (MetadataResponse_ControllerId meta).
Definition dialCoordinator_ (ctx : context) (c : Client) (req : FindCoordinatorRequest) : M Broker := dialCoordinator c req.
Definition DialGroupCoordinator_ (ctx : context) (c : Client) (groupId : gostring) : M Broker :=
  dialCoordinator_ ctx c (mkFindCoordinatorRequest groupId 0).
Definition DialLeader_ (ctx : context) (c : Client) (topic : gostring) (partition : Z) : M Broker :=
  meta <- Metadata_ ctx c [topic] ;;
  t <- lift (findTopic meta topic) ;;
  p <- lift (findPartition t partition) ;;
  dialNode c meta (MetadataResponsePartition3_LeaderId p).

(** gen.broker.go:1265-1272.  A pointer to Subscription is nil or not; a handler is
    called with messages and may itself do anything. *)
Inductive Subscription := mkSubscription.
Definition MessageHandler (Message : Type) : Type := Message -> M unit.
Definition Subscribe {Message} (b : Broker) (topics : gostring) (handler : MessageHandler Message) : M (option Subscription) := ret None.
