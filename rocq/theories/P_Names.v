(** * Properties of the messages by field name: C64, C65 *)
From Coq Require Import String Ascii.
From Verif Require Import GoBase Encoder Decoder Spec SchemaSpec EncProofs Link Msg01 Msg02 Msg03 Msg04 AllMessages MsgProps BrokerProofs KafkaNames.
Local Open Scope list_scope.
Local Open Scope Z_scope.

Fixpoint field_names (fs : fields) : list string :=
  match fs with FNil => [] | FCons name _ _ rest => name :: field_names rest end.

Lemma named_all : map (fun n => (nc_name n, nc_codec n)) named_codecs = all_codecs.
Proof. reflexivity. Qed.
Lemma named_each : Forall (fun n => field_names (c_schema (nc_codec n)) = nc_fields n /\ forall m, c_to (nc_codec n) m = nc_values n m) named_codecs.
Proof. unfold named_codecs. repeat (apply Forall_cons; [split; [reflexivity|intros m; reflexivity]|]). apply Forall_nil. Qed.
Lemma named_In n : In n named_codecs -> In (nc_name n, nc_codec n) all_codecs.
Proof. intros H. rewrite <- named_all. exact (in_map (fun n => (nc_name n, nc_codec n)) _ _ H). Qed.

(** ** C64.  Every type of the package is in the list of KafkaNames.v, ... *)
Theorem C64_all : map (fun n => (nc_name n, nc_codec n)) named_codecs = all_codecs.
Proof. exact named_all. Qed.
Print Assumptions C64_all.
(** ... has the fields of the list, ... *)
Theorem C64_fields : forall n, In n named_codecs -> field_names (c_schema (nc_codec n)) = nc_fields n.
Proof. intros n H. apply (proj1 (Forall_forall _ _) named_each n H). Qed.
Print Assumptions C64_fields.
(** ... and Encode writes the values of these fields, in this order ([nc_values]
    is the tuple of the fields of the struct, by name; [wires] leaves out those
    the version does not carry); *)
Theorem C64_written : forall n, In n named_codecs -> forall v m, Emits (c_encode (nc_codec n) v m) (wires (c_schema (nc_codec n)) v (nc_values n m)).
Proof.
  intros n H v m. destruct (proj1 (Forall_forall _ _) named_each n H) as [_ E]. rewrite <- E. exact (layout _ _ (named_In n H) v m).
Qed.
Print Assumptions C64_written.
(** Decode puts the values it reads back into the fields of the same names. *)
Theorem C64_read : forall n, In n named_codecs -> forall v m, fit (c_schema (nc_codec n)) v (nc_values n m) ->
  exists bs m', Emits (c_encode (nc_codec n) v m) bs /\ Decodes (c_decode (nc_codec n) v (c_zero (nc_codec n))) bs m' /\
    nc_values n m' = receive (c_schema (nc_codec n)) v (zeros (c_schema (nc_codec n))) (nc_values n m).
Proof.
  intros n H v m. destruct (proj1 (Forall_forall _ _) named_each n H) as [_ E]. rewrite <- E. intros F.
  destruct (round_trip _ _ (named_In n H) v m F) as (bs & m' & A & B & C). exists bs, m'. rewrite <- E. auto.
Qed.
Print Assumptions C64_read.
(** FindCoordinatorResponse, where the node and the port are both int32: error
    code 0, no message, node 7, host "h", port 9092. *)
Example C64_example :
  output (FindCoordinatorResponse_Encode 0 (mkFindCoordinatorResponse 0 0 [] 7 [104] 9092) (NewEncoder (mkTarget (fun _ _ => None) None []))) =
  [0; 0] ++ [0; 0; 0; 7] ++ [0; 1; 104] ++ [0; 0; 35; 132].
Proof. reflexivity. Qed.

(** ** C65.  A field a caller outside the package can set has a name that begins
    with a capital letter (the Go specification, "Exported identifiers"; the
    names here are ASCII). *)
Definition exported (s : string) : bool :=
  match s with EmptyString => false | String c _ => (65 <=? Z.of_nat (nat_of_ascii c)) && (Z.of_nat (nat_of_ascii c) <=? 90) end.

(** The full property: every field of every message can be set. *)
Definition all_exported (c : codec) : Prop := forall s, In s (field_names (c_schema c)) -> exported s = true.

(** It fails: the time-out and the validate-only flag of CreateTopicsRequest
    cannot be set (message/messages.gen.go:5361-5362), ... *)
Theorem C65_not_exported_refuted : ~ (forall name c, In (name, c) all_codecs -> all_exported c).
Proof.
  intros H. assert (I : In ("CreateTopicsRequest"%string, CreateTopicsRequest_codec) all_codecs) by (apply codec_named_In; reflexivity).
  specialize (H _ _ I "timeoutMs"%string (or_intror (or_introl eq_refl))). discriminate H.
Qed.
Print Assumptions C65_not_exported_refuted.
(** ... so that every request built outside the package, as a literal, asks for
    a time-out of 0 and for the topics to be created for good. *)
Definition literal_CreateTopicsRequest (topics : gslice CreatableTopic19) : CreateTopicsRequest := mkCreateTopicsRequest topics 0 false.
Theorem C65_literal_refuted : forall v topics,
  Emits (CreateTopicsRequest_Encode v (literal_CreateTopicsRequest topics))
    (w_array (wires CreatableTopic19_schema v) (option_map (map CreatableTopic19_to) topics) ++ [0; 0; 0; 0] ++ (if 1 <=? v then [0] else [])).
Proof.
  intros v topics. assert (I : In ("CreateTopicsRequest"%string, CreateTopicsRequest_codec) all_codecs) by (apply codec_named_In; reflexivity).
  pose proof (layout _ _ I v (literal_CreateTopicsRequest topics)) as H. cbn [c_encode CreateTopicsRequest_codec c_schema c_to CreateTopicsRequest_codec] in H.
  cbv [CreateTopicsRequest_schema CreateTopicsRequest_to] in H. cbn [wires wire fst snd active CreateTopicsRequest_Topics CreateTopicsRequest_timeoutMs CreateTopicsRequest_validateOnly literal_CreateTopicsRequest] in H.
  rewrite app_nil_r in H. exact H.
Qed.
Print Assumptions C65_literal_refuted.
(** What holds: these are the only ones.  (C65_..._partial: missing is
    CreateTopicsRequest.)  The method CreateTopics of BrokerClient takes the
    request from the caller and sets neither field. *)
Theorem C65_exported_partial : forall name c, In (name, c) all_codecs -> name <> "CreateTopicsRequest"%string -> all_exported c.
Proof.
  assert (H : forallb (fun p => String.eqb (fst p) "CreateTopicsRequest" || forallb exported (field_names (c_schema (snd p)))) all_codecs = true) by reflexivity.
  intros name c I N. rewrite forallb_forall in H. specialize (H _ I). cbn [fst snd] in H.
  destruct (String.eqb_spec name "CreateTopicsRequest"); [contradiction|]. cbn [orb] in H. rewrite forallb_forall in H. exact H.
Qed.
Print Assumptions C65_exported_partial.
Example C65_example :
  output (CreateTopicsRequest_Encode 1 (literal_CreateTopicsRequest (Some [])) (NewEncoder (mkTarget (fun _ _ => None) None []))) = [0; 0; 0; 0; 0; 0; 0; 0; 0] /\
  output (CreateTopicsRequest_Encode 1 (mkCreateTopicsRequest (Some []) 30000 true) (NewEncoder (mkTarget (fun _ _ => None) None []))) = [0; 0; 0; 0; 0; 0; 117; 48; 1].
Proof. split; reflexivity. Qed.
