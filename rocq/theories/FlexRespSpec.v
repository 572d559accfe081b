(** * Responses at Kafka's flexible versions

    As for requests (FlexSpec.v): from the first flexible version of an API on, the
    response header, which is the correlation id, is followed by a section of tagged
    fields, and the body has the compact form.  The response to ApiVersions alone keeps
    the header without tagged fields, at all versions (KIP-511), since a client that
    sends it does not know the versions of the broker yet.  Facts about Kafka, written
    down from memory. *)
From Verif Require Import GoBase Spec SchemaSpec BrokerTable FlexSpec.
Local Open Scope Z_scope.
Local Open Scope list_scope.

(** [bs] is what Kafka sends after the correlation id. *)
Definition kafka_response (a : api) (v : Z) (fs : fields) (x : dens fs) (bs : list Z) : Prop :=
  (flexible a v -> exists body, compacts fs v x body /\ bs = match a with ApiVersions => body | _ => 0 :: body end) /\
  (~ flexible a v -> bs = wires fs v x).

(** Every field carried at version [v] is a number or a boolean, and is zero. *)
Definition blank_field (t : ty) : den t -> Prop :=
  match t return den t -> Prop with
  | TBool => fun x => x = false
  | TInt8 | TInt16 | TInt32 | TInt64 => fun x => x = 0
  | _ => fun _ => False
  end.
Fixpoint blank (fs : fields) (v : Z) : dens fs -> Prop :=
  match fs return dens fs -> Prop with
  | FNil => fun _ => True
  | FCons _ r t rest => fun x => (active r v = true -> blank_field t (fst x)) /\ blank rest v (snd x)
  end.
(** Every field carried at version [v] is a number or a boolean. *)
Definition number (t : ty) : bool := match t with TBool | TInt8 | TInt16 | TInt32 | TInt64 => true | _ => false end.
Fixpoint numbers (fs : fields) (v : Z) : bool := match fs with FNil => true | FCons _ r t rest => (negb (active r v) || number t) && numbers rest v end.
