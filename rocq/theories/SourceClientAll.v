(** * The methods of Client: the text does what the model does *)
From Coq Require Import Ascii String Lia ZArith.
From Verif Require Import GoBase GoLemmas Msg02 Msg03 Msg04 BrokerTable Broker BrokerSpec BrokerProofs Options Client ClientSpec ClientProofs GoLang GoShare SourceMessages SourceConn SourceClient SourceClientSpec SourceClientProofs.
Local Open Scope string_scope.
Local Open Scope list_scope.
Local Open Scope Z_scope.

Notation prog := client_program.
(** ** The methods of Client *)
Lemma client_grows a b addrs os w : grows a b -> client_at a addrs os w -> client_at b addrs os w.
Proof.
  intros G (l & bw & ow & -> & H1 & H2 & H3 & H4). exists l, bw, ow. split; [reflexivity|]. split; [destruct G as [G _]; lia|]. split; [rewrite (proj2 G) by exact H1; exact H2|].
  split; [exact H3|eapply options_grow; eassumption].
Qed.
Lemma group_struct W g : struct_val W prog "FindCoordinatorRequest" [("Key", VStr g); ("KeyType", VConst 0)] = Some (find_val (mkFindCoordinatorRequest g 0)).
Proof. vm_compute. reflexivity. Qed.
Lemma client_struct W bw ow : struct_val W prog "Client" [("bootstrap", bw); ("opts", ow)] = Some (VStruct "Client" [("bootstrap", bw); ("opts", ow)]).
Proof. reflexivity. Qed.
Lemma conn_struct m l n : conn_of m (VRef l) = Some n -> exists fs, get l m = Some (VStruct "Conn" fs).
Proof.
  unfold conn_of. destruct (get l m) as [[]|]; try discriminate. intros H.
  match type of H with context [match ?t with EmptyString => _ | String _ _ => _ end] => rename t into s end.
  destruct (String.eqb_spec s "Conn") as [->|N]; [eexists; reflexivity|]. exfalso. revert H N.
  repeat match goal with |- context [match ?s with EmptyString => _ | String _ _ => _ end] => destruct s as [|[[] [] [] [] [] [] [] []] s]; try discriminate end; intros; congruence.
Qed.
Section Text.
Context (W : Z) (v : Client.env) (junk : list event -> val).
Notation mach := (machine v junk).
Notation go := (call W prog).
Lemma group_text n g ctx addrs os cw m k h R : 32 <= W -> (enough <= S n)%nat -> env_ok v -> ports_ok v -> client_at m addrs os cw ->
  mach (go (S (S (S (S (S (S (S n))))))) "Client.DialGroupCoordinator" [] [cw; ctx; VStr g] m k) h = R ->
  results v junk m R k broker_at VNil (DialGroupCoordinator (mkClient addrs (map option_of_go os)) g v h).
Proof.
  intros HW Hn Hv Hp Hc ER. assert (Hc' := Hc). destruct Hc' as (l & bw & ow & -> & Ll & Hcl & _ & Ho).
  rewrite (find_fn _ _ _ go_Client_DialGroupCoordinator) in ER by has. unfold invoke, go_Client_DialGroupCoordinator in ER. go_in ER.
  rewrite group_struct in ER. go_in ER.
  apply (coordinator_text W v junk n _ _ addrs os) in ER; [|exact HW|exact Hn|exact Hv|exact Hp|eapply client_grows; [|exact Hc]; grown].
  eapply results_from; [| |exact ER]; [grown|]. intros. reflexivity.
Qed.
Lemma controller_text n ctx addrs os cw m k h R : 32 <= W -> (enough <= S n)%nat -> env_ok v -> ports_ok v -> client_at m addrs os cw ->
  mach (go (S (S (S (S (S (S (S n))))))) "Client.DialController" [] [cw; ctx] m k) h = R ->
  results v junk m R k broker_at VNil (DialController (mkClient addrs (map option_of_go os)) v h).
Proof.
  intros HW Hn Hv Hp Hc ER. assert (Hc' := Hc). destruct Hc' as (l & bw & ow & -> & Ll & Hcl & _ & Ho).
  rewrite (find_fn _ _ _ go_Client_DialController) in ER by has. unfold invoke, go_Client_DialController in ER. go_in ER.
  apply (metadata_text W v junk n [] _ addrs os) in ER; [|exact Hn|exact Hv|eapply client_grows; [|exact Hc]; grown].
  unfold DialController, bind. destruct (Client.Metadata _ _ v h) as [[a|f|] h2] eqn:EM; cbn [results] in ER; [| |exact ER].
  - destruct ER as (w & m2 & G2 & (x & -> & ->) & ER). assert (N2 : (S (S (next m)) <= next m2)%nat) by (destruct G2 as [? _]; fin).
    assert (H0 : get (next m) m2 = Some (VRef l)) by (rewrite (proj2 G2) by fin; repeat look; reflexivity).
    assert (G3 : grows m m2) by (eapply grows_trans; [|exact G2]; grown). clear G2.
    symmetry in ER. go_in ER.
    apply (node_text W v junk (S n) _ _ addrs os) in ER; [|exact HW|lia|exact Hv|eapply client_grows; [|exact Hc]; grown|exact (metadata_ports _ _ _ _ _ _ Hp EM)].
    eapply results_from; [| |exact ER]; [grown|]. intros. reflexivity.
  - destruct ER as (w & m2 & G2 & (x & -> & Hx & Hf) & ER). assert (N2 : (S (S (next m)) <= next m2)%nat) by (destruct G2 as [? _]; fin).
    assert (G3 : grows m m2) by (eapply grows_trans; [|exact G2]; grown). clear G2.
    symmetry in ER.
    assert (ER' : mach (k (VTuple [VNil; x]) (push x (push (metadata_val MetadataResponse_zero) m2))) h2 = R).
    { destruct (failure_shape _ _ Hf) as [[y ->]|[y ->]]; go_in ER; exact ER. }
    eexists _, _. split; [|split; [|symmetry; exact ER']]; [grown|]. exists x. split; [reflexivity|]. split; [exact Hx|exact Hf].
Qed.
Lemma leader_text n topic id ctx addrs os cw m k h R : 32 <= W -> (enough <= S n)%nat -> env_ok v -> ports_ok v -> client_at m addrs os cw ->
  mach (go (S (S (S (S (S (S (S n))))))) "Client.DialLeader" [] [cw; ctx; VStr topic; VInt I32 id] m k) h = R ->
  results v junk m R k broker_at VNil (DialLeader (mkClient addrs (map option_of_go os)) topic id v h).
Proof.
  intros HW Hn Hv Hp Hc ER. assert (Hc' := Hc). destruct Hc' as (l & bw & ow & -> & Ll & Hcl & _ & Ho).
  rewrite (find_fn _ _ _ go_Client_DialLeader) in ER by has. unfold invoke, go_Client_DialLeader in ER. go_in ER.
  apply (metadata_text W v junk n [topic] _ addrs os) in ER; [|exact Hn|exact Hv|eapply client_grows; [|exact Hc]; grown].
  unfold DialLeader, bind. destruct (Client.Metadata _ _ v h) as [[a|f|] h2] eqn:EM; cbn [results] in ER; [| |exact ER].
  - destruct ER as (w & m2 & G2 & (x & -> & ->) & ER). assert (N2 : (S (S (S (S (next m)))) <= next m2)%nat) by (destruct G2 as [? _]; fin).
    assert (H0 : get (next m) m2 = Some (VRef l)) by (rewrite (proj2 G2) by fin; repeat look; reflexivity).
    assert (H1 : get (S (S (next m))) m2 = Some (VStr topic)) by (rewrite (proj2 G2) by fin; repeat look; reflexivity).
    assert (H2 : get (S (S (S (next m)))) m2 = Some (VInt I32 id)) by (rewrite (proj2 G2) by fin; repeat look; reflexivity).
    assert (G3 : grows m m2) by (eapply grows_trans; [|exact G2]; grown). clear G2.
    symmetry in ER. go_in ER.
    apply (topic_text W v junk) in ER. unfold lift.
    assert (HF : match findTopic a topic with Client.Stuck => False | Failed f => f = NoSuchTopic topic | Client.Done t => MetadataResponseTopic3_Name t = topic end).
    { unfold findTopic. destruct (find _ _) as [t|] eqn:EF; [|reflexivity]. apply find_some in EF as [_ EF]. unfold string_eqb in EF. destruct (list_eq_dec Z.eq_dec (MetadataResponseTopic3_Name t) topic); [assumption|discriminate EF]. }
    destruct (findTopic a topic) as [t|f|]; [| |destruct HF].
    + destruct ER as (w & m4 & G4 & -> & ER). assert (N4 : (S (S (next m2)) <= next m4)%nat) by (destruct G4 as [? _]; fin).
      assert (H0' : get (next m) m4 = Some (VRef l)) by (rewrite (proj2 G4) by fin; repeat look; reflexivity).
      assert (H2' : get (S (S (S (next m)))) m4 = Some (VInt I32 id)) by (rewrite (proj2 G4) by fin; repeat look; reflexivity).
      assert (H3' : get (next m2) m4 = Some (metadata_val a)) by (rewrite (proj2 G4) by fin; repeat look; reflexivity).
      assert (H4' : get (S (next m2)) m4 = Some VNil) by (rewrite (proj2 G4) by fin; repeat look; reflexivity).
      assert (G5 : grows m m4) by (eapply grows_trans; [|exact G4]; grown). clear G4 H0 H1 H2 G3.
      symmetry in ER. go_in ER. apply (partition_text W v junk) in ER.

      assert (HF2 : match findPartition t id with Client.Stuck => False | Failed f => f = NoSuchPartition id (MetadataResponseTopic3_Name t) | Client.Done _ => True end)
        by (unfold findPartition; destruct (find _ _); [exact I|reflexivity]).
      destruct (findPartition t id) as [p|f|]; [| |destruct HF2].
      * destruct ER as (w & m6 & G6 & -> & ER). assert (N6 : (S (next m4) <= next m6)%nat) by (destruct G6 as [? _]; fin).
        assert (I0 : get (next m) m6 = Some (VRef l)) by (rewrite (proj2 G6) by fin; repeat look; reflexivity).
        assert (I3 : get (next m2) m6 = Some (metadata_val a)) by (rewrite (proj2 G6) by fin; repeat look; reflexivity).
        assert (I4 : get (S (next m2)) m6 = Some VNil) by (rewrite (proj2 G6) by fin; repeat look; reflexivity).
        assert (G7 : grows m m6) by (eapply grows_trans; [|exact G6]; grown). clear G6 H0' H2' H3' H4' G5.
        symmetry in ER. go_in ER.
        apply (node_text W v junk (S n) _ _ addrs os) in ER; [|exact HW|lia|exact Hv|eapply client_grows; [|exact Hc]; grown|exact (metadata_ports _ _ _ _ _ _ Hp EM)].
        eapply results_from; [| |exact ER]; [grown|]. intros. reflexivity.
      * destruct ER as (w & m6 & G6 & -> & ER). assert (N6 : (S (next m4) <= next m6)%nat) by (destruct G6 as [? _]; fin).
        assert (I4 : get (S (next m2)) m6 = Some VNil) by (rewrite (proj2 G6) by fin; repeat look; reflexivity).
        assert (G7 : grows m m6) by (eapply grows_trans; [|exact G6]; grown). clear G6 H0' H2' H3' H4' G5.
        symmetry in ER. unfold errorf in ER. go_in ER. rewrite no_fn in ER by has. erewrite say in ER; [|reflexivity|reflexivity]. go_in ER.
        subst f. eexists _, _. split; [|split; [|symmetry; exact ER]]; [grown|]. eexists. split; [reflexivity|]. split; [discriminate|]. reflexivity.
    + destruct ER as (w & m4 & G4 & -> & ER). assert (N4 : (S (S (next m2)) <= next m4)%nat) by (destruct G4 as [? _]; fin).
      assert (H4' : get (S (next m2)) m4 = Some VNil) by (rewrite (proj2 G4) by fin; repeat look; reflexivity).
      assert (G5 : grows m m4) by (eapply grows_trans; [|exact G4]; grown). clear G4 H0 H1 H2 G3.
      symmetry in ER. unfold errorf in ER. go_in ER. rewrite no_fn in ER by has. erewrite say in ER; [|reflexivity|reflexivity]. go_in ER.
      subst f. eexists _, _. split; [|split; [|symmetry; exact ER]]; [grown|]. eexists. split; [reflexivity|]. split; [discriminate|]. reflexivity.
  - destruct ER as (w & m2 & G2 & (x & -> & Hx & Hf) & ER). assert (N2 : (S (S (next m)) <= next m2)%nat) by (destruct G2 as [? _]; fin).
    assert (G3 : grows m m2) by (eapply grows_trans; [|exact G2]; grown). clear G2.
    symmetry in ER.
    assert (ER' : mach (k (VTuple [VNil; x]) (push x (push (metadata_val MetadataResponse_zero) m2))) h2 = R).
    { destruct (failure_shape _ _ Hf) as [[y ->]|[y ->]]; go_in ER; exact ER. }
    eexists _, _. split; [|split; [|symmetry; exact ER']]; [grown|]. exists x. split; [reflexivity|]. split; [exact Hx|exact Hf].
Qed.

(** ** From outside *)
Lemma results_follow {A} m R good bad (o : outcome A * list event) : results v junk m R GoShare.Done good bad o -> follows m good bad R o.
Proof.
  intros H. destruct o as [[a|f|] h]; cbn [results] in H; unfold follows; cbn [fst snd].
  - destruct H as (w & m' & G & (x & -> & Hx) & ->). split; [reflexivity|]. exists x, m'. split; [reflexivity|]. split; [exact G|exact Hx].
  - destruct H as (w & m' & G & (x & -> & _ & Hx) & ->). split; [reflexivity|]. exists x, m'. split; [reflexivity|]. split; [exact G|exact Hx].
  - destruct H as [H1 H2]. split; [exact H2|exact H1].
Qed.
Lemma close_text n b bw m h : broker_at m b bw -> exists m', mach (go (S (S n)) "Broker.Close" [] [bw] m GoShare.Done) h = (Returned VNil m', h ++ [EClose (b_conn b)]) /\ grows m m'.
Proof.
  intros Hb. assert (Hb' := Hb). destruct Hb' as (l & cw & w & -> & Ll & Hl & _ & Hc).
  remember (mach (go (S (S n)) "Broker.Close" [] [VRef l] m GoShare.Done) h) as R eqn:ER.
  rewrite (find_fn _ _ _ go_Broker_Close) in ER by has. unfold invoke, go_Broker_Close in ER. go_in ER.
  apply (conn_grows m (push (VRef l) m)) in Hc; [|grown].
  assert (Hc' := conn_is _ _ _ Hc). destruct Hc as (lc & -> & Lc & Hn). apply conn_struct in Hn. destruct Hn as [fs Hn].
  cbn [method] in ER. rewrite Hn in ER. cbn [append] in ER. rewrite no_fn in ER by has.
  erewrite say in ER; [|reflexivity|cbn -[conn_of]; rewrite Hc'; reflexivity]. go_in ER. eexists. split; [exact ER|grown].
Qed.
Lemma client_text n addrs bw os ws m h : elements_of bw = Some (map VStr addrs) -> Forall2 (option_at m) os ws ->
  exists w m', mach (go (S n) "kafka.NewClient" [] (bw :: ws) m GoShare.Done) h = (Returned w m', h) /\ grows m m' /\ client_at m' addrs os w.
Proof.
  intros Hb Ho. remember (mach (go (S n) "kafka.NewClient" [] (bw :: ws) m GoShare.Done) h) as R eqn:ER.
  rewrite (find_fn _ _ _ go_kafka_NewClient) in ER by has. unfold invoke, go_kafka_NewClient in ER. cbn [f_params arguments] in ER. go_in ER.
  assert (Hd : exists ow, dots (GNamed "Option") ws = Some ow /\ options_at m os ow).
  { inversion Ho as [|o x os' ws' H1 H2 E1 E2]; subst; [exists VNil; split; [reflexivity|]; exists []; split; [reflexivity|constructor]|].
    exists (VList (x :: ws')). split; [|exists (x :: ws'); split; [reflexivity|constructor; assumption]].
    destruct o as [[]|]; cbn [option_at] in H1; [destruct H1 as (? & -> & _)|destruct H1 as (? & -> & _)|subst x]; destruct ws'; reflexivity. }
  destruct Hd as (ow & Hd & Hw). rewrite Hd in ER. go_in ER. rewrite client_struct in ER. go_in ER.
  eexists _, _. split; [exact ER|]. split; [grown|]. eexists _, bw, ow. split; [reflexivity|]. split; [fin|]. split; [repeat look; reflexivity|]. split; [exact Hb|].
  eapply options_grow; [|exact Hw]. grown.
Qed.
Lemma dialer_text n p m h : exists w m', mach (go (S n) "kafka.WithDialer" [] [foreign "net.Dialer" p] m GoShare.Done) h = (Returned w m', h) /\ grows m m' /\ option_at m' (Some (Dialer p)) w.
Proof.
  remember (mach _ h) as R eqn:ER. rewrite (find_fn _ _ _ go_kafka_WithDialer) in ER by has. unfold invoke, go_kafka_WithDialer in ER. 
  destruct p; cbn [foreign] in ER; go_in ER; eexists _, _; (split; [exact ER|]); (split; [grown|]); eexists; (split; [reflexivity|]); (split; [fin|]); look; reflexivity.
Qed.
Lemma tls_text n p m h : exists w m', mach (go (S n) "kafka.WithTLS" [] [foreign "tls.Config" p] m GoShare.Done) h = (Returned w m', h) /\ grows m m' /\ option_at m' (Some (TLS p)) w.
Proof.
  remember (mach _ h) as R eqn:ER. rewrite (find_fn _ _ _ go_kafka_WithTLS) in ER by has. unfold invoke, go_kafka_WithTLS in ER. 
  destruct p; cbn [foreign] in ER; go_in ER; eexists _, _; (split; [exact ER|]); (split; [grown|]); eexists; (split; [reflexivity|]); (split; [fin|]); look; reflexivity.
Qed.
End Text.

(** ** All of it, for a caller *)
Section All.
Context (W : Z) (v : Client.env) (junk : list event -> val).
Context (HW : 32 <= W) (Hv : env_ok v) (Hp : ports_ok v).
Notation runs n f args m h := (machine v junk (call W prog n f [] args m GoShare.Done) h).
Lemma fuel_is k n : (enough + k <= n)%nat -> exists x, n = (k + x)%nat /\ (enough <= x)%nat.
Proof. intros H. exists (n - k)%nat. lia. Qed.
Lemma broker_all n addr os ov m h : (enough + 7 <= n)%nat -> options_at m os ov ->
  follows m broker_at VNil (runs n "kafka.NewBroker" [VStr addr; VTuple [ov]] m h) (NewBroker addr (map option_of_go os) v h).
Proof.
  intros Hn Ho. destruct (fuel_is 4 n) as (x & -> & Hx); [lia|]. apply (results_follow v junk). eapply (broker_text W v junk x); [lia|exact Hv|exact Ho|]. reflexivity.
Qed.
Lemma metadata_all n topics ctx addrs os cw m h : (enough + 7 <= n)%nat -> client_at m addrs os cw ->
  follows m (fun _ a w => w = metadata_val a) (metadata_val MetadataResponse_zero) (runs n "Client.Metadata" (cw :: ctx :: map VStr topics) m h)
    (Client.Metadata (mkClient addrs (map option_of_go os)) topics v h).
Proof.
  intros Hn Hc. destruct (fuel_is 6 n) as (x & -> & Hx); [lia|]. apply (results_follow v junk). eapply (metadata_text W v junk x); [lia|exact Hv|exact Hc|]. reflexivity.
Qed.
Lemma leader_all n topic p ctx addrs os cw m h : (enough + 7 <= n)%nat -> client_at m addrs os cw ->
  follows m broker_at VNil (runs n "Client.DialLeader" [cw; ctx; VStr topic; VInt I32 p] m h) (DialLeader (mkClient addrs (map option_of_go os)) topic p v h).
Proof.
  intros Hn Hc. destruct (fuel_is 7 n) as (x & -> & Hx); [lia|]. apply (results_follow v junk). eapply (leader_text W v junk x); [exact HW|lia|exact Hv|exact Hp|exact Hc|]. reflexivity.
Qed.
Lemma controller_all n ctx addrs os cw m h : (enough + 7 <= n)%nat -> client_at m addrs os cw ->
  follows m broker_at VNil (runs n "Client.DialController" [cw; ctx] m h) (DialController (mkClient addrs (map option_of_go os)) v h).
Proof.
  intros Hn Hc. destruct (fuel_is 7 n) as (x & -> & Hx); [lia|]. apply (results_follow v junk). eapply (controller_text W v junk x); [exact HW|lia|exact Hv|exact Hp|exact Hc|]. reflexivity.
Qed.
Lemma group_all n g ctx addrs os cw m h : (enough + 7 <= n)%nat -> client_at m addrs os cw ->
  follows m broker_at VNil (runs n "Client.DialGroupCoordinator" [cw; ctx; VStr g] m h) (DialGroupCoordinator (mkClient addrs (map option_of_go os)) g v h).
Proof.
  intros Hn Hc. destruct (fuel_is 7 n) as (x & -> & Hx); [lia|]. apply (results_follow v junk). eapply (group_text W v junk x); [exact HW|lia|exact Hv|exact Hp|exact Hc|]. reflexivity.
Qed.
End All.
(** Whoever is given no error was given a result of the model. *)
Lemma failure_not_nil f : ~ failure_val f VNil.
Proof. intros H. destruct (failure_shape _ _ H) as [[y E]|[y E]]; discriminate E. Qed.
Lemma follows_done {A} m good bad R (o : outcome A * list event) w m' h' : follows m good bad R o -> R = (Returned (VTuple [w; VNil]) m', h') ->
  exists a, o = (Client.Done a, h') /\ grows m m' /\ good m' a w.
Proof.
  intros [H1 H2] ->. destruct o as [[a|f|] h]; cbn [fst snd] in *; subst h.
  - destruct H2 as (w1 & m1 & E & G & Q). injection E as <- <-. exists a. split; [reflexivity|]. split; assumption.
  - destruct H2 as (w1 & m1 & E & G & Q). injection E as _ <- _. destruct (failure_not_nil f Q).
  - destruct H2.
Qed.
Lemma follows_error {A} m good bad R (o : outcome A * list event) w e m' h' : follows m good bad R o -> R = (Returned (VTuple [w; e]) m', h') -> e <> VNil ->
  exists f, o = (Failed f, h') /\ w = bad /\ failure_val f e.
Proof.
  intros [H1 H2] -> N. destruct o as [[a|f|] h]; cbn [fst snd] in *; subst h.
  - destruct H2 as (w1 & m1 & E & G & Q). injection E as _ E _. congruence.
  - destruct H2 as (w1 & m1 & E & G & Q). injection E as <- <- _. exists f. split; [reflexivity|]. split; [reflexivity|exact Q].
  - destruct H2.
Qed.
Lemma follows_history {A} m good bad R (o : outcome A * list event) : follows m good bad R o -> exists x, o = (x, snd R).
Proof. intros [H _]. destruct o as [x h]. exists x. cbn in H. congruence. Qed.
