(** * What the operations of a client dial (C82 to C84) *)
From Verif Require Import GoBase GoLemmas Msg02 Msg03 Msg04 BrokerTable Broker BrokerProofs Options Client ClientSpec ClientProofs DialSpec.
Local Open Scope Z_scope.
Local Open Scope list_scope.
Ltac Zify.zify_post_hook ::= idtac.

(** ** Every dial, with what had happened before it *)
Section Dials.
Context (P : list event -> dialing -> Prop).
Fixpoint dials_ok (s tr : list event) : Prop :=
  match tr with
  | [] => True
  | e :: rest => match e with EDial d _ => P s d | _ => True end /\ dials_ok (s ++ [e]) rest
  end.
Lemma dials_ok_app t1 : forall s t2, dials_ok s t1 -> dials_ok (s ++ t1) t2 -> dials_ok s (t1 ++ t2).
Proof.
  induction t1 as [|e t1 IH]; intros s t2 H1 H2; cbn [app]; [rewrite app_nil_r in H2; exact H2|]. destruct H1 as [H0 H1].
  split; [exact H0|]. apply IH; [exact H1|]. rewrite <- app_assoc. exact H2.
Qed.
Lemma dials_ok_at t1 : forall s d r t2, dials_ok s (t1 ++ EDial d r :: t2) -> P (s ++ t1) d.
Proof.
  induction t1 as [|e t1 IH]; intros s d r t2 H; cbn [app] in H; destruct H as [H0 H1]; [rewrite app_nil_r; exact H0|].
  specialize (IH _ _ _ _ H1). rewrite <- app_assoc in IH. exact IH.
Qed.

(** [m], started when [s] has happened and [pre s] holds, dials only what it may. *)
Definition Dials {A} (pre : list event -> Prop) (m : M A) (post : list event -> A -> Prop) : Prop :=
  forall v h s, pre s -> exists tr, snd (m v h) = h ++ tr /\ dials_ok s tr /\ forall a, fst (m v h) = Done a -> post (s ++ tr) a.
Lemma Dials_ret {A} (pre : list event -> Prop) (post : list event -> A -> Prop) a : (forall s, pre s -> post s a) -> Dials pre (ret a) post.
Proof. intros H v h s Hs. exists []. cbn. rewrite !app_nil_r. repeat split. intros b E. injection E as <-. auto. Qed.
Lemma Dials_fail {A} pre (post : list event -> A -> Prop) f : Dials pre (fail f) post.
Proof. intros v h s Hs. exists []. cbn. rewrite !app_nil_r. repeat split. intros b E. discriminate E. Qed.
Lemma Dials_stuck {A} pre (post : list event -> A -> Prop) : Dials pre stuck post.
Proof. intros v h s Hs. exists []. cbn. rewrite !app_nil_r. repeat split. intros b E. discriminate E. Qed.
Lemma Dials_or_else {A B} (pre : list event -> Prop) (mid : list event -> A -> Prop) (mide : list event -> Prop) (post : list event -> B -> Prop) (m : M A) (k : A -> M B) (kerr : failure -> M B) :
  (forall v h s, pre s -> exists tr, snd (m v h) = h ++ tr /\ dials_ok s tr /\ (forall a, fst (m v h) = Done a -> mid (s ++ tr) a) /\ (forall f, fst (m v h) = Failed f -> mide (s ++ tr))) ->
  (forall a, Dials (fun s => mid s a) (k a) post) -> (forall f, Dials mide (kerr f) post) -> Dials pre (or_else m k kerr) post.
Proof.
  intros Hm Hk He v h s Hs. unfold or_else. destruct (Hm v h s Hs) as (t1 & E1 & D1 & M1 & M2). destruct (m v h) as [[a|f|] h1]; cbn [fst snd] in *; subst h1.
  - destruct (Hk a v (h ++ t1) (s ++ t1) (M1 a eq_refl)) as (t2 & E2 & D2 & M3). exists (t1 ++ t2). rewrite E2, !app_assoc. split; [reflexivity|]. split; [apply dials_ok_app; assumption|exact M3].
  - destruct (He f v (h ++ t1) (s ++ t1) (M2 f eq_refl)) as (t2 & E2 & D2 & M3). exists (t1 ++ t2). rewrite E2, !app_assoc. split; [reflexivity|]. split; [apply dials_ok_app; assumption|exact M3].
  - exists t1. repeat split; [exact D1|]. intros b E. discriminate E.
Qed.
Lemma Dials_bind {A B} (pre : list event -> Prop) (mid : list event -> A -> Prop) (post : list event -> B -> Prop) m k :
  Dials pre m mid -> (forall a, Dials (fun s => mid s a) (k a) post) -> Dials pre (bind m k) post.
Proof.
  intros Hm Hk v h s Hs. unfold bind. destruct (Hm v h s Hs) as (t1 & E1 & D1 & M1). destruct (m v h) as [[a|f|] h1]; cbn [fst snd] in *; subst h1.
  - destruct (Hk a v (h ++ t1) (s ++ t1) (M1 a eq_refl)) as (t2 & E2 & D2 & M3). exists (t1 ++ t2). rewrite E2, !app_assoc. split; [reflexivity|]. split; [apply dials_ok_app; assumption|exact M3].
  - exists t1. repeat split; [exact D1|]. intros b E. discriminate E.
  - exists t1. repeat split; [exact D1|]. intros b E. discriminate E.
Qed.
Lemma Dials_weak {A} (pre pre' : list event -> Prop) (post post' : list event -> A -> Prop) m : Dials pre m post -> (forall s, pre' s -> pre s) -> (forall s a, post s a -> post' s a) -> Dials pre' m post'.
Proof. intros H Hp Hq v h s Hs. destruct (H v h s (Hp s Hs)) as (tr & E & D & Q). exists tr. auto. Qed.
End Dials.

(** ** C82: as told, at a named address *)
Section Client.
Context (cl : Client) (c : config) (Hc : buildConfig (c_opts cl) = Some c).
Definition at_named (s : list event) (d : dialing) : Prop := exists addr, d = dial c addr /\ named cl s addr.
Lemma named_more s tr addr : named cl s addr -> named cl (s ++ tr) addr.
Proof.
  intros [H|[(n & x & req & meta & nb & H & H')|(n & x & req & resp & H & H')]]; [left; exact H| |].
  - right. left. exists n, x, req, meta, nb. split; [apply in_or_app; left; exact H|exact H'].
  - right. right. exists n, x, req, resp. split; [apply in_or_app; left; exact H|exact H'].
Qed.
Context (exception : list event -> gostring -> Prop) (Hex : forall s tr addr, exception s addr -> exception (s ++ tr) addr).
Definition may (s : list event) (d : dialing) : Prop := exists addr, d = dial c addr /\ (named cl s addr \/ exception s addr).
Lemma Dials_NewBroker (Q : list event -> Prop) addr : (forall s tr, Q s -> Q (s ++ tr)) ->
  forall v h s, (named cl s addr \/ exception s addr) /\ Q s -> exists tr, snd (NewBroker addr (c_opts cl) v h) = h ++ tr /\ dials_ok may s tr /\
    (forall a, fst (NewBroker addr (c_opts cl) v h) = Done a -> Q (s ++ tr)) /\ (forall f, fst (NewBroker addr (c_opts cl) v h) = Failed f -> Q (s ++ tr)).
Proof.
  intros HQ v h s [Hs Hq]. unfold NewBroker. rewrite Hc. unfold bind, Connect. rewrite Hc.
  assert (D : forall r tr, Forall (fun e => match e with EDial _ _ => False | _ => True end) tr -> dials_ok may s (EDial (dial c addr) r :: tr)).
  { intros r tr Ht. split; [exists addr; auto|]. generalize (s ++ [EDial (dial c addr) r]). induction Ht as [|e tr He Ht IH]; intros s'; [exact I|]. split; [destruct e; tauto|apply IH]. }
  destruct (v_dial v h (dial c addr)) as [x|]; cbn [fst snd].
  - eexists. split; [reflexivity|]. split; [apply D; constructor|]. split; intros; apply HQ, Hq.
  - unfold or_else, ask_versions. cbn zeta. set (r := v_versions v _ _).
    exists [EDial (dial c addr) None; EVersions (opened h) r]. split; [|split; [apply D; constructor; [exact I|constructor]|split; intros; apply HQ, Hq]].
    destruct r as [resp|x|]; [|cbn; rewrite <- app_assoc; reflexivity..].
    destruct (negotiateApiVersions enough _) as [[av|]|]; cbn; rewrite <- app_assoc; reflexivity.
Qed.
Lemma Dials_broker (Q : list event -> Prop) addr : (forall s tr, Q s -> Q (s ++ tr)) ->
  Dials may (fun s => (named cl s addr \/ exception s addr) /\ Q s) (NewBroker addr (c_opts cl)) (fun s _ => Q s).
Proof. intros HQ v h s Hs. destruct (Dials_NewBroker Q addr HQ v h s Hs) as (tr & E & D & H1 & H2). exists tr. auto. Qed.
Lemma Dials_loop {A} (cb : Broker -> M A) (post : list event -> A -> Prop) : (forall b, Dials may (fun _ => True) (cb b) post) ->
  forall addrs err, incl addrs (c_bootstrap cl) -> Dials may (fun _ => True) (bootstrap_loop (c_opts cl) addrs cb err)
    (fun s o => match o with Some a => post s a | None => addrs = [] /\ err = None end).
Proof.
  intros Hcb. induction addrs as [|addr rest IH]; intros err Hi; cbn [bootstrap_loop]; [destruct err; [apply Dials_fail|apply Dials_ret; auto]|].
  eapply (Dials_or_else may _ (fun _ _ => True) (fun _ => True)).
  - intros v h s _. destruct (Dials_NewBroker (fun _ => True) addr (fun _ _ _ => I) v h s) as (tr & E & D & _); [split; [left; left; apply Hi; left; reflexivity|exact I]|]. exists tr. auto.
  - intros b. eapply Dials_bind; [apply Hcb|]. intros a. apply Dials_ret. auto.
  - intros f. eapply Dials_weak; [apply (IH (Some f)); intros x Hx; apply Hi; right; exact Hx|auto|]. intros s [a|] H; [exact H|destruct H; discriminate].
Qed.
Definition meta_named (s : list event) (meta : MetadataResponse) : Prop :=
  (exists n x req, In (EMetadata n x req (Answer meta)) s) \/ (c_bootstrap cl = [] /\ meta = MetadataResponse_zero).
Lemma Dials_meta topics : Dials may (fun _ => True) (Metadata cl topics) meta_named.
Proof.
  unfold Metadata. eapply Dials_bind.
  - apply (Dials_loop _ (fun s meta => exists n x req, In (EMetadata n x req (Answer meta)) s)); [|apply incl_refl].
    intros b v h s _. unfold ask_metadata. cbn zeta. set (r := v_metadata v _ _ _ _). exists [EMetadata (b_conn b) (b_apiVersion b BrokerTable.Metadata) (metadata_request topics) r].
    split; [reflexivity|]. split; [split; exact I|]. intros a E. cbn [fst] in E. do 3 eexists. apply in_or_app. right. left. f_equal. destruct r; [injection E as ->; reflexivity|discriminate E..].
  - intros [meta|]; apply Dials_ret; intros s H; [left; exact H|right; split; [exact (proj1 H)|reflexivity]].
Qed.
Lemma Dials_node meta node : Dials may (fun s => meta_named s meta) (dialNode cl meta node) (fun _ _ => True).
Proof.
  unfold dialNode. destruct (find _ _) as [nb|] eqn:F; [|apply Dials_fail]. eapply Dials_weak; [apply (Dials_broker (fun _ => True)); auto| |auto].
  intros s H. split; [|exact I]. left. destruct H as [(n & x & req & H)|[_ ->]]; [|discriminate F]. right. left. exists n, x, req, meta, nb. split; [exact H|]. split; [exact (proj1 (find_some _ _ F))|reflexivity].
Qed.
End Client.

Definition zero_port (cl : Client) (coordinator : bool) (_ : list event) (addr : gostring) : Prop := coordinator = true /\ c_bootstrap cl = [] /\ addr = [58; 48].
Definition is_coordinator (op : operation) : bool := match op with CallCoordinator _ => true | _ => false end.
Lemma operation_dials cl c op v h : buildConfig (c_opts cl) = Some c ->
  exists tr, after cl op v h = h ++ tr /\ dials_ok (may cl c (zero_port cl (is_coordinator op))) [] tr.
Proof.
  intros Hc. set (X := zero_port cl (is_coordinator op)). assert (HX : forall s tr addr, X s addr -> X (s ++ tr) addr) by (intros s tr addr H; exact H).
  destruct op as [topics| |g|topic p]; cbn [after].
  - destruct (Dials_meta cl c Hc X topics v h [] I) as (tr & E & D & _). exists tr. auto.
  - assert (D : Dials (may cl c X) (fun _ => True) (DialController cl) (fun _ _ => True)) by (unfold DialController; eapply Dials_bind; [apply Dials_meta; assumption|intros meta; apply Dials_node; assumption]).
    destruct (D v h [] I) as (tr & E & D' & _). exists tr. auto.
  - assert (D : Dials (may cl c X) (fun _ => True) (DialGroupCoordinator cl g) (fun _ _ => True)).
    { unfold DialGroupCoordinator, dialCoordinator, dialBootstrap. eapply Dials_bind.
      - apply (Dials_loop cl c Hc X _ (fun s resp => exists n x req, In (EFind n x req (Answer resp)) s)); [|apply incl_refl].
        intros b v' h' s _. unfold ask_find. cbn zeta. set (r := v_find v' _ _ _ _). exists [EFind (b_conn b) (b_apiVersion b FindCoordinator) (mkFindCoordinatorRequest g 0) r].
        split; [reflexivity|]. split; [split; exact I|]. intros a E. cbn [fst] in E. do 3 eexists. apply in_or_app. right. left. f_equal. destruct r; [injection E as ->; reflexivity|discriminate E..].
      - intros o. eapply Dials_weak; [apply (Dials_broker cl c Hc X (fun _ => True)); auto| |auto]. intros s H. split; [|exact I]. destruct o as [resp|].
        + left. right. right. destruct H as (n & x & req & H). exists n, x, req, resp. split; [exact H|reflexivity].
        + right. split; [reflexivity|]. split; [exact (proj1 H)|reflexivity]. }
    destruct (D v h [] I) as (tr & E & D' & _). exists tr. auto.
  - assert (D : Dials (may cl c X) (fun _ => True) (DialLeader cl topic p) (fun _ _ => True)).
    { unfold DialLeader. eapply Dials_bind; [apply Dials_meta; assumption|intros meta]. eapply (Dials_bind _ _ (fun s _ => meta_named cl s meta)).
      - intros v' h' s Hs. exists []. unfold lift. cbn. rewrite !app_nil_r. auto.
      - intros t. eapply (Dials_bind _ _ (fun s _ => meta_named cl s meta)); [|intros q; apply Dials_node; assumption]. intros v' h' s Hs. exists []. unfold lift. cbn. rewrite !app_nil_r. auto. }
    destruct (D v h [] I) as (tr & E & D' & _). exists tr. auto.
Qed.

Lemma no_config cl op v h : buildConfig (c_opts cl) = None -> dialed (skipn (length h) (after cl op v h)) = [].
Proof.
  intros Hc. assert (N : forall addr v h, NewBroker addr (c_opts cl) v h = (Stuck, h)) by (intros; unfold NewBroker; rewrite Hc; reflexivity).
  assert (L : forall A (cb : Broker -> M A) addrs err v h, snd (bootstrap_loop (c_opts cl) addrs cb err v h) = h) by (intros A cb [|a l] err v' h'; cbn [bootstrap_loop]; [destruct err; reflexivity|unfold or_else; rewrite N; reflexivity]).
  assert (E : after cl op v h = h).
  { destruct op as [topics| |g|topic p]; cbn [after]; unfold DialController, DialGroupCoordinator, dialCoordinator, DialLeader, Metadata, dialBootstrap, bind.
    - specialize (L _ (fun b => ask_metadata b (metadata_request topics)) (c_bootstrap cl) None v h). destruct (bootstrap_loop _ _ _ _ _ _) as [[o|f|] h1]; cbn in *; assumption.
    - specialize (L _ (fun b => ask_metadata b (metadata_request [])) (c_bootstrap cl) None v h). destruct (bootstrap_loop _ _ _ _ _ _) as [[o|f|] h1]; cbn in *; subst; try reflexivity.
      unfold dialNode. destruct (find _ _); [rewrite N|]; reflexivity.
    - specialize (L _ (fun b => ask_find b (mkFindCoordinatorRequest g 0)) (c_bootstrap cl) None v h). destruct (bootstrap_loop _ _ _ _ _ _) as [[o|f|] h1]; cbn [fst snd] in *; subst; try reflexivity. rewrite N. reflexivity.
    - specialize (L _ (fun b => ask_metadata b (metadata_request [topic])) (c_bootstrap cl) None v h). destruct (bootstrap_loop _ _ _ _ _ _) as [[o|f|] h1]; cbn [fst snd ret] in *; subst; try reflexivity.
      unfold lift. destruct (findTopic _ _) as [t|f|]; cbn [fst snd]; try reflexivity. destruct (findPartition _ _) as [q|f|]; cbn [fst snd]; try reflexivity. unfold dialNode. destruct (find _ _); [rewrite N|]; reflexivity. }
  rewrite E, skipn_all. reflexivity.
Qed.

Lemma dial_as_told l addr c : buildConfig (map option_of l) = Some c -> as_told l (dial c addr).
Proof. intros H. exists addr. exact (options_dial l c addr H). Qed.
Lemma operation_as_told l boot op v h : exists tr, after (mkClient boot (map option_of l)) op v h = h ++ tr /\ Forall (as_told l) (dialed tr).
Proof.
  destruct (options_spec l) as (c & Hc & _). destruct (operation_dials (mkClient boot (map option_of l)) c op v h Hc) as (tr & E & D). exists tr. split; [exact E|].
  clear E. revert D. generalize (@nil event). induction tr as [|e tr IH]; intros s D; [constructor|]. destruct D as [D0 D]. specialize (IH _ D). destruct e; try exact IH. cbn.
  constructor; [|exact IH]. destruct D0 as (addr & -> & _). exact (dial_as_told l addr c Hc).
Qed.
Lemma operations_as_told l boot ops v : forall h, exists tr, after_all (mkClient boot (map option_of l)) ops v h = h ++ tr /\ Forall (as_told l) (dialed tr).
Proof.
  induction ops as [|op ops IH]; intros h; [exists []; rewrite app_nil_r; split; [reflexivity|constructor]|]. unfold after_all. cbn [fold_left].
  destruct (operation_as_told l boot op v h) as (t1 & E1 & F1). rewrite E1. destruct (IH (h ++ t1)) as (t2 & E2 & F2). exists (t1 ++ t2). split; [rewrite app_assoc; exact E2|]. rewrite dialed_app. apply Forall_app. auto.
Qed.
Lemma dial_address c addr : address_of (dial c addr) = addr.
Proof. unfold dial. destruct (f_tls c); reflexivity. Qed.
Lemma operation_named cl op v h tr1 d r tr2 : c_bootstrap cl <> [] -> after cl op v h = h ++ tr1 ++ EDial d r :: tr2 -> named cl tr1 (address_of d).
Proof.
  intros Hn E. destruct (buildConfig (c_opts cl)) as [c|] eqn:Hc.
  - destruct (operation_dials cl c op v h Hc) as (tr & E' & D). rewrite E in E'. apply app_inv_head in E'. subst tr. apply dials_ok_at in D. destruct D as (addr & -> & [D|D]); rewrite dial_address; [exact D|].
    destruct D as (_ & D & _). contradiction.
  - pose proof (no_config cl op v h Hc) as N. rewrite E, skipn_app, skipn_all, Nat.sub_diag in N. cbn [app skipn] in N. rewrite dialed_app in N. apply app_eq_nil in N. destruct N as [_ N]. discriminate N.
Qed.
Lemma operation_named_not cl op v h tr1 d r tr2 : is_coordinator op = false -> after cl op v h = h ++ tr1 ++ EDial d r :: tr2 -> named cl tr1 (address_of d).
Proof.
  intros Hn E. destruct (buildConfig (c_opts cl)) as [c|] eqn:Hc.
  - destruct (operation_dials cl c op v h Hc) as (tr & E' & D). rewrite E in E'. apply app_inv_head in E'. subst tr. apply dials_ok_at in D. destruct D as (addr & -> & [D|D]); rewrite dial_address; [exact D|].
    destruct D as (D & _). congruence.
  - pose proof (no_config cl op v h Hc) as N. rewrite E, skipn_app, skipn_all, Nat.sub_diag in N. cbn [app skipn] in N. rewrite dialed_app in N. apply app_eq_nil in N. destruct N as [_ N]. discriminate N.
Qed.

(** ** C84: how much is sent *)
Definition Costs {A} (m : M A) (k q : nat) : Prop :=
  forall v h, exists tr, snd (m v h) = h ++ tr /\ (dial_events tr <= k)%nat /\ (other_requests tr <= q)%nat /\ versions_asked tr = seq (opened h) (opened tr).
Lemma dial_events_app a b : dial_events (a ++ b) = (dial_events a + dial_events b)%nat.
Proof. unfold dial_events. rewrite dialed_app, app_length. reflexivity. Qed.
Lemma other_app a b : other_requests (a ++ b) = (other_requests a + other_requests b)%nat.
Proof. unfold other_requests. rewrite filter_app, app_length. reflexivity. Qed.
Lemma version_app a b : versions_asked (a ++ b) = versions_asked a ++ versions_asked b.
Proof. apply flat_map_app. Qed.
Lemma Costs_nothing {A} (m : M A) : (forall v h, snd (m v h) = h) -> Costs m 0 0.
Proof. intros H v h. exists []. rewrite app_nil_r. split; [apply H|]. cbn. repeat split; lia. Qed.
Lemma Costs_join v h (h1 : list event) (k1 q1 k2 q2 : nat) {B} (x : outcome B * list event) t1 :
  (dial_events t1 <= k1)%nat -> (other_requests t1 <= q1)%nat -> versions_asked t1 = seq (opened h) (opened t1) -> forall m : M B, Costs m k2 q2 -> m v (h ++ t1) = x ->
  exists tr, snd x = h ++ tr /\ (dial_events tr <= k1 + k2)%nat /\ (other_requests tr <= q1 + q2)%nat /\ versions_asked tr = seq (opened h) (opened tr).
Proof.
  intros H1 H2 H3 m Hm Ex. destruct (Hm v (h ++ t1)) as (t2 & E & G1 & G2 & G3). rewrite Ex in E. exists (t1 ++ t2). rewrite dial_events_app, other_app, version_app, opened_app.
  split; [rewrite app_assoc; exact E|]. rewrite H3, G3, opened_app, seq_app. repeat split; lia.
Qed.
Lemma Costs_or_else {A B} (m : M A) (k : A -> M B) kerr k1 q1 k2 q2 : Costs m k1 q1 -> (forall a, Costs (k a) k2 q2) -> (forall f, Costs (kerr f) k2 q2) -> Costs (or_else m k kerr) (k1 + k2) (q1 + q2).
Proof.
  intros Hm Hk He v h. unfold or_else. destruct (Hm v h) as (t1 & E1 & H1 & H2 & H3). destruct (m v h) as [[a|f|] h1]; cbn [snd] in E1; subst h1.
  - apply (Costs_join v h h k1 q1 k2 q2 _ t1 H1 H2 H3 (k a) (Hk a) eq_refl).
  - apply (Costs_join v h h k1 q1 k2 q2 _ t1 H1 H2 H3 (kerr f) (He f) eq_refl).
  - exists t1. split; [reflexivity|]. repeat split; [lia|lia|exact H3].
Qed.
Lemma Costs_bind {A B} (m : M A) (k : A -> M B) k1 q1 k2 q2 : Costs m k1 q1 -> (forall a, Costs (k a) k2 q2) -> Costs (bind m k) (k1 + k2) (q1 + q2).
Proof.
  intros Hm Hk v h. unfold bind. destruct (Hm v h) as (t1 & E1 & H1 & H2 & H3). destruct (m v h) as [[a|f|] h1]; cbn [snd] in E1; subst h1.
  - apply (Costs_join v h h k1 q1 k2 q2 _ t1 H1 H2 H3 (k a) (Hk a) eq_refl).
  - exists t1. split; [reflexivity|]. repeat split; [lia|lia|exact H3].
  - exists t1. split; [reflexivity|]. repeat split; [lia|lia|exact H3].
Qed.
Lemma Costs_more {A} (m : M A) k q k' q' : Costs m k q -> (k <= k')%nat -> (q <= q')%nat -> Costs m k' q'.
Proof. intros H Hk Hq v h. destruct (H v h) as (tr & E & H1 & H2 & H3). exists tr. split; [exact E|]. repeat split; [lia|lia|exact H3]. Qed.
Lemma Costs_broker addr opts : Costs (NewBroker addr opts) 1 0.
Proof.
  intros v h. unfold NewBroker, bind, Connect. destruct (buildConfig opts) as [c|] eqn:Hc; [|exists []; rewrite app_nil_r; split; [reflexivity|cbn; repeat split; lia]].
  rewrite ?Hc. destruct (v_dial v h (dial c addr)) as [x|]; [eexists; split; [reflexivity|]; cbn; repeat split; lia|]. unfold or_else, ask_versions. cbn zeta. set (r := v_versions v _ _).
  exists [EDial (dial c addr) None; EVersions (opened h) r]. split; [|cbn; repeat split; lia]. destruct r as [resp|x|]; [|cbn; rewrite <- app_assoc; reflexivity..].
  destruct (negotiateApiVersions enough _) as [[av|]|]; cbn; rewrite <- app_assoc; reflexivity.
Qed.
Lemma Costs_loop {A} opts (cb : Broker -> M A) : (forall b, Costs (cb b) 0 1) -> forall addrs err, Costs (bootstrap_loop opts addrs cb err) (length addrs) 1.
Proof.
  intros Hcb. induction addrs as [|addr rest IH]; intros err; cbn [bootstrap_loop length].
  - apply (Costs_more _ 0 0); [|lia..]. destruct err; apply Costs_nothing; reflexivity.
  - apply (Costs_or_else _ _ _ 1 0 (length rest) 1); [apply Costs_broker| |intros f; apply IH]. intros b. apply (Costs_more _ (0 + 0) (1 + 0)); [|lia..].
    apply Costs_bind; [apply Hcb|]. intros a. apply Costs_nothing. reflexivity.
Qed.
Lemma Costs_metadata cl topics : Costs (Metadata cl topics) (length (c_bootstrap cl)) 1.
Proof.
  apply (Costs_more _ (length (c_bootstrap cl) + 0) (1 + 0)); [|lia..]. apply Costs_bind; [|intros a; apply Costs_nothing; reflexivity].
  apply Costs_loop. intros b v h. eexists. split; [reflexivity|]. cbn. repeat split; lia.
Qed.
Lemma Costs_node cl meta node : Costs (dialNode cl meta node) 1 0.
Proof. unfold dialNode. destruct (find _ _); [apply Costs_broker|]. apply (Costs_more _ 0 0); [apply Costs_nothing; reflexivity|lia..]. Qed.
Lemma operation_costs cl op v h : exists tr, after cl op v h = h ++ tr /\
  (dial_events tr <= length (c_bootstrap cl) + match op with CallMetadata _ => 0 | _ => 1 end)%nat /\ (other_requests tr <= 1)%nat /\ versions_asked tr = seq (opened h) (opened tr).
Proof.
  destruct op as [topics| |g|topic p]; cbn [after].
  - destruct (Costs_metadata cl topics v h) as (tr & E & H1 & H2 & H3). exists tr. split; [exact E|]. repeat split; [lia|lia|exact H3].
  - apply (Costs_bind (Metadata cl []) _ (length (c_bootstrap cl)) 1 1 0); [apply Costs_metadata|intros; apply Costs_node].
  - apply (Costs_bind (dialBootstrap cl _) _ (length (c_bootstrap cl)) 1 1 0); [|intros; apply Costs_broker]. apply Costs_loop. intros b v' h'. eexists. split; [reflexivity|]. cbn. repeat split; lia.
  - apply (Costs_bind (Metadata cl [topic]) _ (length (c_bootstrap cl)) 1 (0 + (0 + 1)) 0); [apply Costs_metadata|]. intros meta. apply (Costs_bind (lift _) _ 0 0 (0 + 1) 0); [apply Costs_nothing; reflexivity|].
    intros t. apply (Costs_bind (lift _) _ 0 0 1 0); [apply Costs_nothing; reflexivity|]. intros; apply Costs_node.
Qed.
