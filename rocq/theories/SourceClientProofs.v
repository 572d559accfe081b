(** * The text of client.go, gen.option.go and NewBroker does what the model does *)
From Coq Require Import Ascii String Lia ZArith.
From Verif Require Import GoBase GoLemmas Msg02 Msg03 Msg04 BrokerTable Broker BrokerSpec BrokerProofs Options Client ClientSpec ClientProofs GoLang GoShare SourceMessages SourceConn SourceClient SourceClientSpec.
Local Open Scope string_scope.
Local Open Scope list_scope.
Local Open Scope Z_scope.

(** ** Memory *)
Lemma get_push v m : get (next m) (push v m) = Some v.
Proof. unfold get, push. cbn [cells assoc]. rewrite Nat.eqb_refl. reflexivity. Qed.
Lemma get_push_old l v m : (l < next m)%nat -> get l (push v m) = get l m.
Proof. intros H. unfold get, push. cbn [cells assoc]. destruct (Nat.eqb_spec l (next m)); [lia|reflexivity]. Qed.
Lemma get_put l v m : get l (put l v m) = Some v.
Proof. unfold get, put. cbn [cells assoc]. rewrite Nat.eqb_refl. reflexivity. Qed.
Lemma get_put_other l k v m : l <> k -> get l (put k v m) = get l m.
Proof. intros H. unfold get, put. cbn [cells assoc]. destruct (Nat.eqb_spec l k); [contradiction|reflexivity]. Qed.
Lemma get_push_at l v m : l = next m -> get l (push v m) = Some v.
Proof. intros ->. apply get_push. Qed.
Lemma grows_refl m : grows m m.
Proof. split; [lia|reflexivity]. Qed.
Lemma grows_trans a b c : grows a b -> grows b c -> grows a c.
Proof. intros [H1 H2] [H3 H4]. split; [lia|]. intros l H. rewrite H4 by lia. apply H2, H. Qed.
Lemma grows_push m v : grows m (push v m).
Proof. split; [cbn [push next]; lia|]. intros l H. apply get_push_old, H. Qed.
Lemma grows_put m m' l v : grows m m' -> (next m <= l)%nat -> grows m (put l v m').
Proof. intros [H1 H2] H. split; [cbn [put next]; lia|]. intros k Hk. rewrite get_put_other by lia. apply H2, Hk. Qed.
Lemma grows_push' m m' v : grows m m' -> grows m (push v m').
Proof. intros H. exact (grows_trans _ _ _ H (grows_push _ _)). Qed.

Ltac fin := cbn [next push put] in *; lia.
(** One look into memory. *)
Ltac look :=
  match goal with
  | |- context [get ?l (push ?v ?m)] => first [rewrite (get_push_at l v m) by fin | rewrite (get_push_old l v m) by fin]
  | |- context [get ?l (put ?l ?v ?m)] => rewrite (get_put l v m)
  | |- context [get ?l (put ?k ?v ?m)] => first [rewrite (get_put_other l k v m) by fin | replace l with k by fin; rewrite (get_put k v m)]
  | H : get ?l ?m = Some _ |- context [get ?l ?m] => rewrite H
  | G : grows ?a ?b |- context [get ?l ?b] => rewrite (proj2 G l) by fin
  end.
Ltac grown := repeat first [assumption | apply grows_refl | apply grows_push' | (apply grows_put; [|fin])].

(** ** The program *)
Notation prog := client_program.
Lemma find_fn W n f fn E vs m k : lookup f (k_funcs prog) = Some fn -> call W prog (S n) f E vs m k = invoke W prog (call W prog n) n fn E vs m k.
Proof. intros H. cbn [call]. rewrite H. reflexivity. Qed.
Lemma no_fn W n f vs m k : lookup f (k_funcs prog) = None -> call W prog (S n) f [] vs m k = Ask f vs m k.
Proof. intros H. cbn [call]. rewrite H. reflexivity. Qed.
Ltac has := vm_compute; reflexivity.
Ltac sym := cbn -[get put push call machine struct_val zero_val const_val each rounds switch Z.add Z.sub Z.leb Z.ltb Z.eqb conv wrap int16 int32 enough chars errorf elements_of list_eq_dec map negotiation_cases versions_val find_case set_version api_name].

(** The outcome [R] of a call is that of what follows it, with a result in [Q] in a larger memory. *)
Definition leads {T} (m : mem) (R : T) (goes : val -> mem -> T) (Q : val -> mem -> Prop) : Prop :=
  exists w m', grows m m' /\ Q w m' /\ R = goes w m'.
Ltac sym_in H := cbn -[get put push call machine struct_val zero_val const_val each rounds switch Z.add Z.sub Z.leb Z.ltb Z.eqb conv wrap int16 int32 enough chars errorf elements_of list_eq_dec map negotiation_cases versions_val find_case set_version api_name] in H.
Ltac look_in H :=
  match type of H with
  | context [get ?l (push ?v ?m)] => first [rewrite (get_push_at l v m) in H by fin | rewrite (get_push_old l v m) in H by fin]
  | context [get ?l (put ?l ?v ?m)] => rewrite (get_put l v m) in H
  | context [get ?l (put ?k ?v ?m)] => first [rewrite (get_put_other l k v m) in H by fin | replace l with k in H by fin; rewrite (get_put k v m) in H]
  | context [get ?l ?m] => match goal with
      | G : get l m = Some _ |- _ => rewrite G in H
      | G : grows ?a m |- _ => rewrite (proj2 G l) in H by fin
      end
  end.
Lemma next_push v m : next (push v m) = S (next m).
Proof. reflexivity. Qed.
Lemma next_put l v m : next (put l v m) = next m.
Proof. reflexivity. Qed.
Ltac go_in H := sym_in H; rewrite ?next_push, ?next_put in H; repeat (look_in H; sym_in H; rewrite ?next_push, ?next_put in H).

Section Text.
Context (W : Z) (v : Client.env) (junk : list event -> val).
Notation mach := (machine v junk).
Notation go := (call W prog).

Lemma say_errorf f args m k h : mach (Ask "fmt.Errorf" (VStr f :: args) m k) h = mach (k (VBox (VStruct "error" [("format", VStr f); ("args", VList args)])) m) h.
Proof. reflexivity. Qed.

(** ** matchVersion *)
Lemma match_text n key lo hi m k h R : int16 lo = lo -> int16 hi = hi ->
  mach (go (S (S n)) "kafka.matchVersion" [] [VStruct "ApiVersionsResponseKey18" (key_fields key); VConst lo; VConst hi] m k) h = R ->
  match matchVersion (S n) key lo hi with
  | Some (Some x) => leads m R (fun w m' => mach (k w m') h) (fun w _ => w = VTuple [VInt I16 x; VNil])
  | Some None => leads m R (fun w m' => mach (k w m') h) (fun w _ => w = VTuple [VInt I16 0; errorf "unable to negotiate version for api key, %v" [VInt I16 (ApiVersionsResponseKey18_ApiKey key)]])
  | None => R = (Loops, h)
  end.
Proof.
  intros Hlo Hhi ER. rewrite (find_fn _ _ _ go_kafka_matchVersion) in ER by has.
  unfold invoke, go_kafka_matchVersion in ER. go_in ER.
  unfold matchVersion.
  change (conv W I16) with int16 in ER. rewrite Hlo, Hhi in ER.
  match type of ER with context [rounds (S n) ?t ?b ?p ?M ?K] => set (test := t) in ER; set (body := b) in ER; set (post := p) in ER; set (KK := K) in ER end.
  assert (L : forall f m1 ver, grows m m1 -> (S (S (S (S (next m)))) <= next m1)%nat -> get (next m) m1 = Some (VStruct "ApiVersionsResponseKey18" (key_fields key)) ->
    get (S (next m)) m1 = Some (VInt I16 lo) -> get (S (S (next m))) m1 = Some (VInt I16 hi) -> get (S (S (S (next m)))) m1 = Some (VInt I16 ver) ->
    match match_loop f key lo hi ver with
    | Some (Some x) => exists m', grows m m' /\ mach (rounds f test body post m1 KK) h = mach (KK (Some [VInt I16 x; VNil]) m') h
    | Some None => exists m', grows m m' /\ get (next m) m' = Some (VStruct "ApiVersionsResponseKey18" (key_fields key)) /\ mach (rounds f test body post m1 KK) h = mach (KK None m') h
    | None => mach (rounds f test body post m1 KK) h = (Loops, h)
    end).
  { induction f as [|f IH]; intros m1 ver G N H1 H2 H3 H4; [reflexivity|]. cbn [match_loop].
    remember (mach (rounds (S f) test body post m1 KK) h) as r eqn:Er in |- *. cbn [rounds] in Er. unfold test at 1 in Er. go_in Er.
    destruct (ApiVersionsResponseKey18_MinVersion key <=? ver) eqn:T1.
    - unfold body at 1 in Er. go_in Er.
      destruct (lo <=? ApiVersionsResponseKey18_MaxVersion key) eqn:T2; cbn [andb]; go_in Er.
      + destruct (ApiVersionsResponseKey18_MaxVersion key <=? hi) eqn:T3; go_in Er.
        * eexists. split; [|exact Er]. grown.
        * unfold post at 1 in Er. go_in Er. rewrite Er.  apply IH; grown; try fin; repeat look; try assumption; try reflexivity.
      + unfold post at 1 in Er. go_in Er. rewrite Er.  apply IH; grown; try fin; repeat look; try assumption; try reflexivity.
    - exists m1. split; [exact G|]. split; [exact H1|]. rewrite Er. unfold KK. sym. repeat (look; sym). reflexivity. }
  match type of ER with mach (rounds _ _ _ _ ?M _) _ = _ => specialize (L (S n) M (ApiVersionsResponseKey18_MaxVersion key)) end.
  rewrite ER in L. change (int16 0) with 0 in *.
  destruct (match_loop (S n) key lo hi (ApiVersionsResponseKey18_MaxVersion key)) as [[x|]|].
  - destruct L as (m' & G & L); [grown| | | | | |]; try fin; try (repeat look; reflexivity).
    exists (VTuple [VInt I16 x; VNil]), m'. split; [exact G|]. split; [reflexivity|]. exact L.
  - destruct L as (m' & G & H & L); [grown| | | | | |]; try fin; try (repeat look; reflexivity).
    eexists _, m'. split; [exact G|]. split; [reflexivity|]. unfold KK in L. go_in L. rewrite no_fn, say_errorf in L by has. exact L.
  - apply L; [grown| | | | |]; try fin; try (repeat look; reflexivity).
Qed.
End Text.
(** ** negotiateApiVersions *)
Definition case_body (a : api) (lo hi : Z) : list stmt :=
  [SAssign [(EField (EVar "av") (api_name a)); (EVar "err")] [(ECall "kafka.matchVersion" [(EVar "apiKey"); (EInt lo); (EInt hi)])];
   SIf [] (EBin Ne (EVar "err") ENil) [SReturn [(EStruct "apiVersion" []); (EVar "err")]] []].
Definition case_text (c : Z * (api * Z * Z)) : expr * list stmt :=
  let '(_, (a, lo, hi)) := c in (EGlobal ("message.Key" ++ api_name a), case_body a lo hi).
Lemma negotiate_shape : go_kafka_negotiateApiVersions = mkFunc [("apiKeys", GSlice (GNamed "ApiVersionsResponseKey18"))] [GNamed "apiVersion"; GNamed "error"]
  [SVar "av" (Some (GNamed "apiVersion")) None;
   SVar "err" (Some (GNamed "error")) None;
   SRange "_" "apiKey" (EVar "apiKeys") [SSwitch (EField (EVar "apiKey") "ApiKey") (map case_text negotiation_cases) []];
   SReturn [(EVar "av"); ENil]].
Proof. vm_compute. reflexivity. Qed.
Definition case_okb (c : Z * (api * Z * Z)) : bool :=
  let '(key, (a, lo, hi)) := c in
  match const_val prog ("message.Key" ++ api_name a) with Some (VConst z) => z =? key | _ => false end && (int16 key =? key) && (int16 lo =? lo) && (int16 hi =? hi).
Lemma cases_ok : forallb case_okb negotiation_cases = true.
Proof. vm_compute. reflexivity. Qed.
Lemma version_at av a : lookup (api_name a) (map (fun a => (api_name a, VInt I16 (av a))) all_apis) = Some (VInt I16 (av a)).
Proof. destruct a; reflexivity. Qed.
Lemma version_set av a x : update (api_name a) (VInt I16 x) (map (fun a => (api_name a, VInt I16 (av a))) all_apis) = Some (map (fun b => (api_name b, VInt I16 (set_version a x av b))) all_apis).
Proof. destruct a; reflexivity. Qed.
Lemma set_versions_at W l m av a x : get l m = Some (versions_val av) -> set_at W l (api_name a) (VInt I16 x) m = Some (put l (versions_val (set_version a x av)) m).
Proof. intros H. unfold set_at. rewrite H. unfold versions_val at 1. rewrite version_at. cbn [settle_as]. rewrite version_set. reflexivity. Qed.
Lemma no_versions_val : zero_val prog 4 (GNamed "apiVersion") = Some (versions_val no_versions).
Proof. vm_compute. reflexivity. Qed.
Lemma no_versions_struct W : struct_val W prog "apiVersion" [] = Some (versions_val no_versions).
Proof. vm_compute. reflexivity. Qed.
Lemma switch_find W call z F blk E m (default : mem -> proc) : forall cases, forallb case_okb cases = true -> (forall e cs, F (e, cs) = (e, blk cs)) ->
  switch W prog call (VInt I16 z) (map F (map case_text cases)) default E m =
  match find_case z cases with Some (a, lo, hi) => blk (case_body a lo hi) m | None => default m end.
Proof.
  intros cases H HF. induction cases as [|[key [[a lo] hi]] cases IH]; [reflexivity|].
  cbn [forallb] in H. apply andb_true_iff in H as [H1 H2]. cbn [map case_text]. rewrite HF. cbn [switch find_case]. unfold case_okb in H1.
  apply andb_true_iff in H1 as [H1 _]. apply andb_true_iff in H1 as [H1 _]. apply andb_true_iff in H1 as [H1 H3]. apply Z.eqb_eq in H3.
  cbn [eval]. destruct (const_val prog ("message.Key" ++ api_name a)) as [w|]; [|discriminate H1]. destruct w; try discriminate H1. apply Z.eqb_eq in H1. subst z0.
  cbn [want operate binary on_ints compare is_true]. change (conv W I16 key) with (int16 key). rewrite H3. destruct (z =? key); [reflexivity|]. apply IH, H2.
Qed.

Lemma zero_error : zero_val prog 4 (GNamed "error") = Some VNil.
Proof. reflexivity. Qed.

Section Text.
Context (W : Z) (v : Client.env) (junk : list event -> val).
Notation mach := (machine v junk).
Notation go := (call W prog).
Definition key_val (key : ApiVersionsResponseKey18) : val := VStruct "ApiVersionsResponseKey18" (key_fields key).
Lemma found_ok : forall cases z a lo hi, forallb case_okb cases = true -> find_case z cases = Some (a, lo, hi) -> int16 lo = lo /\ int16 hi = hi.
Proof.
  induction cases as [|[key [[b x] y]] cases IH]; intros z a lo hi H F; [discriminate F|]. cbn [forallb] in H. apply andb_true_iff in H as [H1 H2]. cbn [find_case] in F.
  destruct (z =? key); [|exact (IH _ _ _ _ H2 F)]. injection F as -> -> ->. unfold case_okb in H1.
  apply andb_true_iff in H1 as [H1 H5]. apply andb_true_iff in H1 as [_ H4]. split; apply Z.eqb_eq; assumption.
Qed.
Lemma negotiate_text n keys kv m k h R : elements_of kv = Some (map key_val keys) ->
  mach (go (S (S (S n))) "kafka.negotiateApiVersions" [] [kv] m k) h = R ->
  match negotiateApiVersions (S n) keys with
  | Some (Some av) => leads m R (fun w m' => mach (k w m') h) (fun w _ => w = VTuple [versions_val av; VNil])
  | Some None => leads m R (fun w m' => mach (k w m') h) (fun w _ => exists key, w = VTuple [versions_val no_versions; errorf "unable to negotiate version for api key, %v" [VInt I16 key]])
  | None => R = (Loops, h)
  end.
Proof.
  intros Hkv ER. rewrite (find_fn _ _ _ go_kafka_negotiateApiVersions) in ER by has. rewrite negotiate_shape in ER.
  unfold invoke in ER. go_in ER. rewrite no_versions_val in ER. go_in ER. rewrite zero_error in ER. go_in ER. rewrite Hkv in ER. go_in ER.

  match type of ER with context [each _ ?b _ ?K] => set (body := b) in ER; set (KK := K) in ER end.
  assert (L : forall keys m1 av, grows m m1 -> (S (S (S (S (next m)))) <= next m1)%nat ->
    get (S (next m)) m1 = Some (versions_val av) -> get (S (S (next m))) m1 = Some VNil -> (exists o, get (S (S (S (next m)))) m1 = Some o) ->
    match negotiate_loop (S n) keys av with
    | Some (Some av') => exists m', grows m m' /\ get (S (next m)) m' = Some (versions_val av') /\ mach (each (map key_val keys) body m1 KK) h = mach (KK None m') h
    | Some None => exists m' key, grows m m' /\ mach (each (map key_val keys) body m1 KK) h = mach (KK (Some [versions_val no_versions; errorf "unable to negotiate version for api key, %v" [VInt I16 key]]) m') h
    | None => mach (each (map key_val keys) body m1 KK) h = (Loops, h)
    end).
  { clear ER Hkv keys kv. induction keys as [|key keys IH]; intros m1 av G N H1 H2 [o H3].
    { exists m1. split; [exact G|]. split; [exact H1|]. reflexivity. }
    cbn [negotiate_loop].
    remember (mach (each (map key_val (key :: keys)) body m1 KK) h) as r eqn:Er in |- *. cbn [map each] in Er. unfold body at 1 in Er. go_in Er.
    replace (settle_as W o (key_val key)) with (key_val key) in Er by (destruct o; reflexivity). go_in Er.
    match type of Er with context [switch _ _ ?c _ (map ?F _) ?d ?E ?M] => rewrite (switch_find W c _ F (fun cs => snd (F (ENil, cs))) E M d negotiation_cases cases_ok) in Er by reflexivity end.
    destruct (find_case (ApiVersionsResponseKey18_ApiKey key) negotiation_cases) as [[[a lo] hi]|] eqn:F.
    - destruct (found_ok _ _ _ _ _ cases_ok F) as [Hlo Hhi].
      unfold case_body in Er. go_in Er. 
      symmetry in Er. apply match_text in Er; [|assumption|assumption].
      
      assert (G1 : grows m (put (S (S (S (next m)))) (key_val key) m1)) by grown.
      destruct (matchVersion (S n) key lo hi) as [[x|]|].
      + destruct Er as (w & m2 & G2 & -> & Er). cbn beta in Er. sym_in Er.
        assert (Ga : get (S (next m)) m2 = Some (versions_val av)) by (rewrite (proj2 G2) by fin; repeat look; reflexivity).
        assert (Ge : get (S (S (next m))) m2 = Some VNil) by (rewrite (proj2 G2) by fin; repeat look; reflexivity).
        assert (Gk : get (S (S (S (next m)))) m2 = Some (key_val key)) by (rewrite (proj2 G2) by fin; repeat look; reflexivity).
        assert (N2 : (next m1 <= next m2)%nat) by (destruct G2 as [G2 _]; fin).
        assert (G3 : grows m m2) by (eapply grows_trans; eassumption).
        clear G2.

        rewrite (set_versions_at W _ m2 av a x Ga) in Er. unfold versions_val at 1 in Ga. rewrite Ga in Er. clear Ga. go_in Er.
        replace (settle_as W VNil VNil) with VNil in Er by reflexivity. rewrite Er. apply IH; grown; try fin; repeat look; try reflexivity. eexists; reflexivity.
      + destruct Er as (w & m2 & G2 & -> & Er). cbn beta in Er. sym_in Er.
        assert (Ga : get (S (next m)) m2 = Some (versions_val av)) by (rewrite (proj2 G2) by fin; repeat look; reflexivity).
        assert (Ge : get (S (S (next m))) m2 = Some VNil) by (rewrite (proj2 G2) by fin; repeat look; reflexivity).
        assert (N2 : (next m1 <= next m2)%nat) by (destruct G2 as [G2 _]; fin).
        assert (G3 : grows m m2) by (eapply grows_trans; eassumption).
        clear G2.
        rewrite (set_versions_at W _ m2 av a 0 Ga) in Er. unfold versions_val at 1 in Ga. rewrite Ga in Er. clear Ga. go_in Er.
        unfold errorf in Er. go_in Er. rewrite no_versions_struct in Er. go_in Er.
        eexists _, _. split; [|rewrite Er; unfold KK; reflexivity]. grown.
      + exact Er.
    - go_in Er. rewrite Er. apply IH; grown; try fin; repeat look; try reflexivity. eexists; reflexivity. }
  match type of ER with mach (each _ _ ?M _) _ = _ => specialize (L keys M no_versions) end.
  rewrite ER in L. unfold negotiateApiVersions.
  destruct (negotiate_loop (S n) keys no_versions) as [[av|]|].
  - destruct L as (m' & G & H & L); [grown| | | | |]; try fin; try (repeat look; reflexivity); [eexists; repeat look; reflexivity|].
    exists (VTuple [versions_val av; VNil]), m'. split; [exact G|]. split; [reflexivity|]. rewrite L. unfold KK. sym. look. reflexivity.
  - destruct L as (m' & key & G & L); [grown| | | | |]; try fin; try (repeat look; reflexivity); [eexists; repeat look; reflexivity|].
    eexists _, m'. split; [exact G|]. split; [exists key; reflexivity|]. exact L.
  - apply L; [grown| | | |]; try fin; try (repeat look; reflexivity); [eexists; repeat look; reflexivity].
Qed.
End Text.
(** ** gen.option.go *)
Lemma option_grows a b s w : grows a b -> option_at a s w -> option_at b s w.
Proof.
  intros G H. destruct s as [[p|p]|]; cbn [option_at] in *; [| |exact H]; destruct H as (l & -> & H1 & H3); exists l; repeat split; try assumption;
    try (destruct G as [G _]; lia); rewrite (proj2 G) by assumption; exact H3.
Qed.
Lemma options_grow a b os w : grows a b -> options_at a os w -> options_at b os w.
Proof. intros G (ws & E & H). exists ws. split; [exact E|]. clear E. induction H; constructor; [eapply option_grows; eassumption|assumption]. Qed.
Lemma dialer_grows a b d w : grows a b -> dialer_at a d w -> dialer_at b d w.
Proof.
  intros G H. destruct d; cbn [dialer_at] in *; [|exact H]. destruct H as (l & -> & H1 & H2). exists l. repeat split; [destruct G as [G _]; lia|]. rewrite (proj2 G) by assumption. exact H2.
Qed.
Lemma config_grows a b c w : grows a b -> config_at a c w -> config_at b c w.
Proof. intros G (d & E & H). exists d. split; [exact E|]. eapply dialer_grows; eassumption. Qed.

(** Everything is as it was, but for what is at [l]. *)
Definition grows_but (l : nat) (m m' : mem) : Prop := (next m <= next m')%nat /\ forall k, (k < next m)%nat -> k <> l -> get k m' = get k m.
Lemma dialer_but l m m' d w x : grows_but l m m' -> get l m = Some (VStruct "config" x) -> dialer_at m d w -> dialer_at m' d w.
Proof.
  intros [G1 G2] Hl H. destruct d; cbn [dialer_at] in *; [|exact H]. destruct H as (k & -> & H1 & H2). exists k. repeat split; [lia|].
  rewrite G2; [exact H2|exact H1|]. intros ->. rewrite Hl in H2. discriminate H2.
Qed.
Definition plain (o : val) : Prop := match o with VStruct _ _ => False | _ => True end.
Lemma config_put l m o c w x : get l m = Some o -> plain o -> config_at m c w -> config_at (put l x m) c w.
Proof.
  intros H P (d & -> & Hd). exists d. split; [reflexivity|]. destruct (f_dialer c); cbn [dialer_at] in *; [|exact Hd]. destruct Hd as (k & -> & H1 & H2).
  exists k. repeat split; [exact H1|]. rewrite get_put_other; [exact H2|]. intros ->. rewrite H in H2. injection H2 as ->. exact P.
Qed.
Lemma option_plain m s w : option_at m s w -> plain w.
Proof. destruct s as [[?|?]|]; cbn [option_at]; [intros (? & -> & _)|intros (? & -> & _)|intros ->]; exact I. Qed.
Lemma option_settle W m s w o : option_at m s w -> settle_as W o w = w.
Proof. destruct s as [[?|?]|]; cbn [option_at]; [intros (? & -> & _)|intros (? & -> & _)|intros ->]; destruct o; reflexivity. Qed.
Definition set_config (s : setting) (c : config) : config :=
  match s with
  | Dialer None => mkConfig (f_clientID c) NewDialer (f_tls c)
  | Dialer (Some p) => mkConfig (f_clientID c) (CallersDialer p) (f_tls c)
  | TLS p => mkConfig (f_clientID c) (f_dialer c) p
  end.
Lemma dialer_struct W : struct_val W prog "net.Dialer" [] = Some (VStruct "net.Dialer" []).
Proof. reflexivity. Qed.
Lemma set_config_dialer W l m a d t x : get l m = Some (VStruct "config" [("clientID", a); ("dialer", d); ("tlsConfig", t)]) -> settle_as W d x = x ->
  set_at W l "dialer" x m = Some (put l (VStruct "config" [("clientID", a); ("dialer", x); ("tlsConfig", t)]) m).
Proof. intros H E. unfold set_at. rewrite H. cbn. rewrite E. reflexivity. Qed.
Lemma set_config_tls W l m a d t x : get l m = Some (VStruct "config" [("clientID", a); ("dialer", d); ("tlsConfig", t)]) -> settle_as W t x = x ->
  set_at W l "tlsConfig" x m = Some (put l (VStruct "config" [("clientID", a); ("dialer", d); ("tlsConfig", x)]) m).
Proof. intros H E. unfold set_at. rewrite H. cbn. rewrite E. reflexivity. Qed.
Lemma settle_box W d x : settle_as W d (VBox x) = VBox x.
Proof. destruct d; reflexivity. Qed.
Lemma settle_ref W d x : settle_as W d (VRef x) = VRef x.
Proof. destruct d; reflexivity. Qed.
Lemma settle_foreign W d k p : settle_as W d (foreign k p) = foreign k p.
Proof. destruct d, p; reflexivity. Qed.
Section Text.
Context (W : Z) (v : Client.env) (junk : list event -> val).
Notation mach := (machine v junk).
Notation go := (call W prog).
Lemma option_text n s w m l c cw k h R : option_at m (Some s) w -> get l m = Some cw -> (l < next m)%nat -> config_at m c cw ->
  mach (apply (go (S n)) w [VRef l] m k) h = R ->
  exists m' cw', R = mach (k (VTuple []) m') h /\ grows_but l m m' /\ get l m' = Some cw' /\ config_at m' (set_config s c) cw'.
Proof.
  intros Hs Hl Ll (d & -> & Hd) ER. destruct s as [p|p]; cbn [option_at] in Hs; destruct Hs as (q & -> & Lq & Hq); cbn [apply] in ER.
  - rewrite (find_fn _ _ _ go_kafka_WithDialer_func1) in ER by has. unfold invoke, go_kafka_WithDialer_func1 in ER. go_in ER. 
    destruct p as [p|]; cbn [foreign] in ER; go_in ER.
    + erewrite set_config_dialer in ER; [|repeat look; reflexivity|apply settle_box]. go_in ER.
      eexists _, _. split; [symmetry; exact ER|]. split; [split; [fin|intros x H1 H2; repeat look; reflexivity]|]. split; [look; reflexivity|].
      eexists. split; [reflexivity|]. reflexivity.
    + rewrite dialer_struct in ER. go_in ER. erewrite set_config_dialer in ER; [|repeat look; reflexivity|apply settle_ref]. go_in ER.
      eexists _, _. split; [symmetry; exact ER|]. split; [split; [fin|intros x H1 H2; repeat look; reflexivity]|]. split; [look; reflexivity|].
      eexists. split; [reflexivity|]. exists (S (next m)). split; [reflexivity|]. split; [fin|]. repeat look. reflexivity.
  - rewrite (find_fn _ _ _ go_kafka_WithTLS_func1) in ER by has. unfold invoke, go_kafka_WithTLS_func1 in ER. go_in ER.
    replace (spread (foreign "tls.Config" p)) with [foreign "tls.Config" p] in ER by (destruct p; reflexivity).
    erewrite set_config_tls in ER; [|repeat look; reflexivity|apply settle_foreign]. go_in ER.
    assert (B : grows_but l m (put l (VStruct "config" [("clientID", VStr (chars (f_clientID c))); ("dialer", d); ("tlsConfig", foreign "tls.Config" p)]) (push (VRef l) m)))
      by (split; [fin|intros x H1 H2; repeat look; reflexivity]).
    eexists _, _. split; [symmetry; exact ER|]. split; [exact B|]. split; [look; reflexivity|].
    eexists. split; [reflexivity|]. exact (dialer_but _ _ _ _ _ _ B Hl Hd).
Qed.

Lemma build_text n os ov m k h R : options_at m os ov ->
  mach (go (S (S n)) "kafka.buildConfig" [] [ov] m k) h = R ->
  match buildConfig (map option_of_go os) with
  | Some c => leads m R (fun w m' => mach (k w m') h) (fun w m' => config_at m' c w)
  | None => R = (Panicked, h)
  end.
Proof.
  intros (ws & Hov & Hos) ER. rewrite (find_fn _ _ _ go_kafka_buildConfig) in ER by has. unfold invoke, go_kafka_buildConfig in ER. go_in ER.
  replace (const_val prog "kafka.defaultClientID") with (Some (VStr (chars defaultClientID))) in ER by reflexivity. go_in ER. rewrite dialer_struct in ER. go_in ER.
  change (struct_val W prog "config" [("clientID", VStr (chars defaultClientID)); ("dialer", VRef (S (next m)))])
    with (Some (VStruct "config" [("clientID", VStr (chars defaultClientID)); ("dialer", VRef (S (next m))); ("tlsConfig", foreign "tls.Config" None)])) in ER. go_in ER.
  rewrite Hov in ER. go_in ER.
  match type of ER with context [each _ ?b ?M ?K] => set (body := b) in ER; set (KK := K) in ER; set (m0 := M) in ER end.
  assert (L : forall os ws, Forall2 (option_at m) os ws -> forall m1 c cw, grows m m1 -> (S (S (S (S (next m)))) <= next m1)%nat ->
    get (S (S (next m))) m1 = Some cw -> config_at m1 c cw -> (exists o, get (S (S (S (next m)))) m1 = Some o /\ plain o) ->
    match fold_left (fun c o => match c, o with Some c, Some f => Some (f c) | _, _ => None end) (map option_of_go os) (Some c) with
    | Some c' => exists m' cw', grows m m' /\ get (S (S (next m))) m' = Some cw' /\ config_at m' c' cw' /\ mach (each ws body m1 KK) h = mach (KK None m') h
    | None => mach (each ws body m1 KK) h = (Panicked, h)
    end).
  { clear. induction 1 as [|s w os ws Hs Hos IH]; intros m1 c cw G N Hc Hw [o Ho].
    { exists m1, cw. repeat split; try assumption; apply G. }
    remember (mach (each (w :: ws) body m1 KK) h) as r eqn:Er in |- *. cbn [each] in Er. unfold body at 1 in Er. pose proof (proj1 Ho) as Ho'. go_in Er.
    rewrite (option_settle W m s w o Hs) in Er.
    go_in Er. destruct s as [s|].
    - symmetry in Er. apply (option_text n s w _ _ c cw) in Er.
      + destruct Er as (m2 & cw2 & Er & [B1 B2] & Hc2 & Hw2). cbn [map option_of_go fold_left].
        replace (match option_of s with Some f => Some (f c) | None => None end) with (Some (set_config s c)) by (destruct s as [[?|]|?]; reflexivity).
        rewrite Er. apply (IH m2 _ cw2); [|fin|exact Hc2|exact Hw2|].
        * split; [destruct G as [G _]; fin|]. intros x Hx. rewrite B2 by fin. rewrite get_put_other by fin. apply G, Hx.
        * exists w. split; [|exact (option_plain _ _ _ Hs)]. rewrite B2 by fin. look. reflexivity.
      + apply (option_grows m); [grown|exact Hs].
      + repeat look. reflexivity.
      + fin.
      + eapply config_put; [exact (proj1 Ho)|exact (proj2 Ho)|exact Hw].
    - cbn [option_at] in Hs. subst w. cbn [map option_of_go fold_left].
      replace (fold_left _ (map option_of_go os) None) with (@None config) by (clear; induction os; [reflexivity|assumption]).
      exact Er. }
  specialize (L os ws Hos m0 (mkConfig defaultClientID NewDialer None)). unfold buildConfig.
  match type of L with forall cw, _ -> _ -> get _ _ = Some _ -> _ => idtac end.
  assert (G0 : grows m m0) by (unfold m0; grown).
  assert (C0 : get (S (S (next m))) m0 = Some (VStruct "config" [("clientID", VStr (chars defaultClientID)); ("dialer", VRef (S (next m))); ("tlsConfig", foreign "tls.Config" None)]))
    by (unfold m0; repeat look; reflexivity).
  specialize (L _ G0 ltac:(unfold m0; fin) C0).
  match type of L with ?A -> ?B -> _ => assert (L1 : A); [|assert (L2 : B); [|specialize (L L1 L2)]] end.
  { eexists. split; [reflexivity|]. exists (S (next m)). split; [reflexivity|]. unfold m0. split; [fin|]. repeat look. reflexivity. }
  { exists VNil. split; [unfold m0; repeat look; reflexivity|exact I]. }
  rewrite ER in L. destruct (fold_left _ _ _) as [c|]; [|exact L].
  destruct L as (m' & cw & G & Hc & Hw & L). exists cw, m'. split; [exact G|]. split; [exact Hw|]. rewrite L. unfold KK. sym. look. destruct Hw as (d & -> & _). reflexivity.
Qed.
End Text.
(** ** dial and Connect *)
Lemma dialer_is m d w : dialer_at m d w -> dialer_of m w = Some d.
Proof. destruct d; cbn [dialer_at]; [intros (l & -> & _ & H); cbn; rewrite H; reflexivity|intros ->; reflexivity]. Qed.
Lemma conn_struct W a b c d e f g i : exists fs, struct_val W prog "Conn" [("cancel", VHandle "context.CancelFunc" a); ("ch", VHandle "chan" b); ("doneMessage", VHandle "chan struct{}" c); ("doneRead", VHandle "chan struct{}" d);
  ("encoder", VHandle "message.Encoder" e); ("raw", VHandle "net.Conn" f); ("rb", VHandle "ring.Buffer" g); ("requests", VHandle "map" i)] = Some (VStruct "Conn" fs) /\ lookup "raw" fs = Some (VHandle "net.Conn" f).
Proof. eexists. split; [vm_compute; reflexivity|reflexivity]. Qed.
Section Text.
Context (W : Z) (v : Client.env) (junk : list event -> val).
Notation mach := (machine v junk).
Notation go := (call W prog).
Definition dial_reply (d : dialing) (k : val -> mem -> proc) (m : mem) (h : list event) : ending * list event :=
  match v_dial v h d with
  | Some x => mach (k (VTuple [VNil; VErr x]) m) (h ++ [EDial d (Some x)])
  | None => mach (k (VTuple [VHandle "net.Conn" (opened h); VNil]) m) (h ++ [EDial d None])
  end.
Lemma say_dial w d addr m k h : dialer_of m w = Some d -> mach (Ask "net.Dialer.Dial" [w; VStr [116; 99; 112]; VStr addr] m k) h = dial_reply (Plain d addr) k m h.
Proof. intros H. cbn -[dialer_of]. rewrite H. unfold dialed_with, dial_reply. destruct (v_dial v h (Plain d addr)); reflexivity. Qed.
Lemma say_tls w d t tw addr m k h : dialer_of m w = Some d -> tls_of tw = Some t -> mach (Ask "tls.DialWithDialer" [w; VStr [116; 99; 112]; VStr addr; tw] m k) h = dial_reply (Tls d addr t) k m h.
Proof. intros H H2. cbn -[dialer_of tls_of]. rewrite H, H2. unfold dialed_with, dial_reply. destruct (v_dial v h (Tls d addr t)); reflexivity. Qed.
Lemma say what vs m k h f a h' : lookup what (replies v junk) = Some f -> f vs m h = Reply a h' -> mach (Ask what vs m k) h = mach (k a m) h'.
Proof. intros H1 H2. cbn [machine]. rewrite H1, H2. reflexivity. Qed.
Lemma dial_text n c cw addr m k h R : config_at m c cw ->
  mach (go (S (S n)) "kafka.dial" [] [cw; VStr addr] m k) h = R ->
  exists m', grows m m' /\ R = dial_reply (Options.dial c addr) k m' h.
Proof.
  intros (d & -> & Hd) ER. rewrite (find_fn _ _ _ go_kafka_dial) in ER by has. unfold invoke, go_kafka_dial in ER. go_in ER.
  set (m0 := push (VStr addr) (push _ m)) in ER.
  assert (G : grows m m0) by (unfold m0; grown). apply (dialer_grows _ m0) in Hd; [|exact G].
  assert (HM : forall vs k', method (go (S n)) d "Dial" vs m0 k' = Ask "net.Dialer.Dial" (d :: vs) m0 k').
  { intros. destruct (f_dialer c); cbn [dialer_at] in Hd; [destruct Hd as (l & -> & _ & Hd); cbn [method]; rewrite Hd|subst d; cbn [foreign method]]; apply no_fn; has. }
  unfold Options.dial. destruct (f_tls c) as [t|]; go_in ER.
  - rewrite no_fn in ER by has. erewrite say_tls in ER; [|apply dialer_is; exact Hd|reflexivity]. exists m0. split; [exact G|]. rewrite <- ER. unfold dial_reply. destruct (v_dial _ _ _); reflexivity.
  - rewrite HM in ER. erewrite say_dial in ER; [|apply dialer_is; exact Hd]. exists m0. split; [exact G|]. rewrite <- ER. unfold dial_reply. destruct (v_dial _ _ _); reflexivity.
Qed.
Definition connect_reply (c : config) (addr : gostring) (k : val -> mem -> proc) (m : mem) (h : list event) (R : ending * list event) : Prop :=
  match v_dial v h (Options.dial c addr) with
  | Some x => leads m R (fun w m' => mach (k w m') (h ++ [EDial (Options.dial c addr) (Some x)])) (fun w _ => w = VTuple [VNil; errorf "failed to dial broker, %v: %w" [VStr addr; VErr x]])
  | None => leads m R (fun w m' => mach (k w m') (h ++ [EDial (Options.dial c addr) None])) (fun w m' => exists cw, w = VTuple [cw; VNil] /\ conn_at m' (opened h) cw)
  end.
Lemma connect_text n os ov addr m k h R : options_at m os ov ->
  mach (go (S (S (S n))) "kafka.Connect" [] [VStr addr; VTuple [ov]] m k) h = R ->
  match buildConfig (map option_of_go os) with
  | Some c => connect_reply c addr k m h R
  | None => R = (Panicked, h)
  end.
Proof.
  intros Ho ER. rewrite (find_fn _ _ _ go_kafka_Connect) in ER by has. unfold invoke, go_kafka_Connect in ER. go_in ER.
  apply (build_text W v junk n os) in ER; [|eapply options_grow; [|exact Ho]; grown]. destruct (buildConfig (map option_of_go os)) as [c|]; [|exact ER].
  destruct ER as (cw & m1 & G1 & Hc & ER).
  assert (Ha : get (next m) m1 = Some (VStr addr)) by (repeat look; reflexivity).
  assert (G : grows m m1) by (eapply grows_trans; [|exact G1]; grown).
  assert (N : (S (S (next m)) <= next m1)%nat) by (destruct G1 as [G1 _]; fin). clear G1.
  symmetry in ER. assert (Hc' := Hc). destruct Hc' as (d & Ecw & _). rewrite Ecw in ER. go_in ER. rewrite <- Ecw in ER.
  apply (dial_text n c) in ER; [|eapply config_grows; [|exact Hc]; grown]. destruct ER as (m2 & G2 & ER).
  assert (Ha2 : get (next m) m2 = Some (VStr addr)) by (repeat look; reflexivity).
  assert (N2 : (S (next m1) <= next m2)%nat) by (destruct G2 as [G2' _]; fin).
  assert (GG : grows m m2) by (eapply grows_trans; [|exact G2]; grown). clear G2.
  unfold connect_reply. unfold dial_reply in ER. destruct (v_dial v h (Options.dial c addr)) as [x|].
  - symmetry in ER. go_in ER. rewrite no_fn in ER by has. erewrite say in ER; [|reflexivity|reflexivity]. go_in ER.
    eexists _, _. split; [|split; [reflexivity|symmetry; exact ER]]. grown.
  - symmetry in ER. go_in ER. rewrite no_fn in ER by has. erewrite say in ER; [|reflexivity|reflexivity]. go_in ER.
    rewrite no_fn in ER by has. erewrite say in ER; [|reflexivity|reflexivity]. go_in ER.
    rewrite no_fn in ER by has. erewrite say in ER; [|reflexivity|reflexivity]. go_in ER.
    erewrite say in ER; [|reflexivity|reflexivity]. go_in ER.
    rewrite no_fn in ER by has. erewrite say in ER; [|reflexivity|reflexivity]. go_in ER.
    rewrite no_fn in ER by has. erewrite say in ER; [|reflexivity|reflexivity]. go_in ER.
    erewrite say in ER; [|reflexivity|reflexivity]. go_in ER.
    erewrite say in ER; [|reflexivity|reflexivity]. go_in ER.
    erewrite say in ER; [|reflexivity|reflexivity]. go_in ER.
    match type of ER with context [struct_val W prog "Conn" [_; (_, VHandle _ ?b); (_, VHandle _ ?c); (_, VHandle _ ?d); (_, VHandle _ ?e); (_, VHandle _ ?f); (_, VHandle _ ?g); (_, VHandle _ ?i)]] =>
      match type of ER with context [struct_val W prog "Conn" [(_, VHandle _ ?a); _; _; _; _; _; _; _]] => destruct (conn_struct W a b c d e f g i) as (fs & Hs & Hr) end end.
    rewrite Hs in ER. go_in ER.
    erewrite say in ER; [|reflexivity|reflexivity]. go_in ER.
    erewrite say in ER; [|reflexivity|reflexivity]. go_in ER.
    eexists _, _. split; [|split; [|symmetry; exact ER]]; [grown|].
    eexists. split; [reflexivity|]. eexists. split; [reflexivity|]. split; [fin|]. unfold conn_of. repeat look. rewrite Hr. reflexivity.
Qed.
End Text.

(** ** NewBroker *)
Lemma same_negotiation n keys : (enough <= n)%nat -> Forall entry_ok keys -> negotiateApiVersions n keys = negotiateApiVersions enough keys.
Proof.
  intros H K. unfold negotiateApiVersions. destruct (negotiate_loop n keys no_versions) as [r|] eqn:E; [symmetry; eapply negotiate_enough; eassumption|].
  destruct (negotiate_loop enough keys no_versions) as [r|] eqn:F; [|reflexivity]. apply (negotiate_mono enough n r H) in F. congruence.
Qed.
Lemma versions_struct W : struct_val W prog "ApiVersionsRequest" [] = Some (VStruct "ApiVersionsRequest" [("ClientSoftwareName", VStr []); ("ClientSoftwareVersion", VStr [])]).
Proof. vm_compute. reflexivity. Qed.
Lemma broker_struct W cw l : struct_val W prog "Broker" [("config", cw); ("conn", VRef l)] = Some (VStruct "Broker" [("apiVersion", versions_val no_versions); ("config", cw); ("conn", VRef l)]).
Proof. vm_compute. reflexivity. Qed.
Lemma elements_structs {A} t (f : A -> list (string * val)) (x : gslice A) :
  elements_of (slice_of_model (fun l => VStructs t (map f l)) x) = Some (map (fun a => VStruct t (f a)) (items x)).
Proof. destruct x as [l|]; [|reflexivity]. cbn. rewrite map_map. reflexivity. Qed.
Lemma conn_is m n w : conn_at m n w -> conn_of m w = Some n.
Proof. intros (l & -> & _ & H). exact H. Qed.
Lemma conn_grows a b n w : grows a b -> conn_at a n w -> conn_at b n w.
Proof. intros G (l & -> & H1 & H2). exists l. split; [reflexivity|]. split; [destruct G as [G _]; lia|]. unfold conn_of in *. rewrite (proj2 G) by exact H1. exact H2. Qed.
Lemma broker_is m l av cw w n a : get l m = Some (VStruct "Broker" [("apiVersion", versions_val av); ("config", cw); ("conn", w)]) -> conn_at m n w -> broker_of m a (VRef l) = Some (n, av a).
Proof.
  intros H Hc. unfold broker_of. rewrite H. unfold versions_val. cbn [lookup]. cbn -[conn_of api_name all_apis lookup map]. rewrite version_at. rewrite (conn_is _ _ _ Hc). reflexivity.
Qed.
Lemma set_broker W l m av cw w x : get l m = Some (VStruct "Broker" [("apiVersion", versions_val av); ("config", cw); ("conn", w)]) ->
  set_at W l "apiVersion" (versions_val x) m = Some (put l (VStruct "Broker" [("apiVersion", versions_val x); ("config", cw); ("conn", w)]) m).
Proof. intros H. unfold set_at. rewrite H. reflexivity. Qed.
Section Text.
Context (W : Z) (v : Client.env) (junk : list event -> val).
Notation mach := (machine v junk).
Notation go := (call W prog).
Lemma say_versions b n a c m k h : broker_of m ApiVersions b = Some (n, 0) ->
  mach (Ask "Broker.ApiVersions" [b; VStruct "ApiVersionsRequest" [(a, VStr []); (c, VStr [])]] m k) h =
  let r := v_versions v h n in
  match r with
  | Answer x => mach (k (VTuple [VStruct "ApiVersionsResponse" (versions_fields x); VNil]) m) (h ++ [EVersions n r])
  | Error x => mach (k (VTuple [junk h; VErr x]) m) (h ++ [EVersions n r])
  | NoReturn => (Waits, h ++ [EVersions n r])
  end.
Proof. intros H. cbn -[broker_of versions_fields]. rewrite H. destruct (v_versions v h n); reflexivity. Qed.
(** What is known of a call that the model describes by [o] *)
Definition results {A} (m : mem) (R : ending * list event) (k : val -> mem -> proc) (good : mem -> A -> val -> Prop) (bad : val) (o : outcome A * list event) : Prop :=
  match o with
  | (Client.Done a, h) => leads m R (fun w m' => mach (k w m') h) (fun w m' => exists x, w = VTuple [x; VNil] /\ good m' a x)
  | (Failed f, h) => leads m R (fun w m' => mach (k w m') h) (fun w m' => exists x, w = VTuple [bad; x] /\ x <> VNil /\ failure_val f x)
  | (Client.Stuck, h) => hung (fst R) /\ snd R = h
  end.
Lemma broker_text n os ov addr m k h R : (enough <= S n)%nat -> env_ok v -> options_at m os ov ->
  mach (go (S (S (S (S n)))) "kafka.NewBroker" [] [VStr addr; VTuple [ov]] m k) h = R ->
  results m R k broker_at VNil (NewBroker addr (map option_of_go os) v h).
Proof.
  intros Hn Hv Ho ER. rewrite (find_fn _ _ _ go_kafka_NewBroker) in ER by has. unfold invoke, go_kafka_NewBroker in ER. go_in ER.
  apply (build_text W v junk (S n) os) in ER; [|eapply options_grow; [|exact Ho]; grown].
  unfold NewBroker, bind, Client.Connect. destruct (buildConfig (map option_of_go os)) as [c|] eqn:Eb; [|rewrite ER; split; [exact I|reflexivity]].
  destruct ER as (cw & m1 & G1 & Hc & ER).
  assert (Ha : get (next m) m1 = Some (VStr addr)) by (repeat look; reflexivity).
  assert (Hov : get (S (next m)) m1 = Some ov) by (repeat look; reflexivity).
  assert (G : grows m m1) by (eapply grows_trans; [|exact G1]; grown).
  assert (N : (S (S (next m)) <= next m1)%nat) by (destruct G1 as [G1 _]; fin). clear G1.
  symmetry in ER. assert (Hc' := Hc). destruct Hc' as (d & Ecw & _). rewrite Ecw in ER. go_in ER. rewrite <- Ecw in ER.
  apply (connect_text W v junk n os) in ER; [|eapply options_grow; [|exact Ho]; grown]. rewrite Eb in ER. unfold connect_reply in ER.
  destruct (v_dial v h (Options.dial c addr)) as [x|].
  { destruct ER as (w & m2 & G2 & -> & ER). assert (N2 : (S (next m1) <= next m2)%nat) by (destruct G2 as [G2' _]; fin).
    symmetry in ER. unfold errorf in ER. go_in ER. eexists _, _. split; [|split; [|symmetry; exact ER]].
    - repeat apply grows_push'. eapply grows_trans; [|exact G2]. grown.
    - eexists. split; [reflexivity|]. split; [discriminate|reflexivity]. }
  destruct ER as (w & m2 & G2 & (lw & -> & Hl) & ER). assert (N2 : (S (next m1) <= next m2)%nat) by (destruct G2 as [G2' _]; fin).
  assert (Hcw : get (next m1) m2 = Some cw) by (rewrite (proj2 G2) by fin; rewrite get_push; reflexivity).
  assert (GG : grows m m2) by (eapply grows_trans; [|exact G2]; grown).
  assert (Hc2 : config_at m2 c cw) by (eapply config_grows; [exact G2|]; eapply config_grows; [|exact Hc]; grown).
  clear G2. symmetry in ER. assert (Hl' := Hl). destruct Hl' as (l & El & _). rewrite El in ER. go_in ER. 
  rewrite broker_struct in ER. go_in ER. rewrite versions_struct in ER. go_in ER. rewrite no_fn in ER by has.
  set (m3 := push (VRef (S (S (next m2)))) _) in ER.
  assert (Hb : broker_of m3 ApiVersions (VRef (S (S (next m2)))) = Some (opened h, 0)).
  { apply (broker_is m3 _ no_versions cw (VRef l) _ ApiVersions); [unfold m3; repeat look; reflexivity|]. rewrite <- El. eapply conn_grows; [|exact Hl]. unfold m3. grown. }
  rewrite (say_versions _ _ _ _ _ _ _ Hb) in ER. cbn zeta in ER. unfold or_else, ask_versions. cbn zeta.
  pose proof (Hv (h ++ [EDial (Options.dial c addr) None]) (opened h)) as Hk.
  destruct (v_versions v (h ++ [EDial (Options.dial c addr) None]) (opened h)) as [resp|x|].
  - specialize (Hk _ eq_refl). rewrite <- (same_negotiation (S n)) by assumption. unfold m3 in ER. go_in ER. 
    set (m4 := push _ _) in ER.

    apply (negotiate_text W v junk n (items (ApiVersionsResponse_ApiKeys resp))) in ER; [|apply elements_structs].
    assert (G4 : grows m (put (S (next m2)) VNil m4)) by (unfold m4; grown).
    assert (M4 : (S (S (S (S (next m2)))) < next (put (S (next m2)) VNil m4))%nat) by (unfold m4; fin).
    assert (D4 : (next m <= next m2)%nat) by (destruct GG as [? _]; assumption).
    assert (He : get (S (next m2)) (put (S (next m2)) VNil m4) = Some VNil) by (look; reflexivity).
    assert (Hr : get (S (S (next m2))) (put (S (next m2)) VNil m4) = Some (VStruct "Broker" [("apiVersion", versions_val no_versions); ("config", cw); ("conn", VRef l)])) by (unfold m4; repeat look; reflexivity).
    assert (Hp : get (S (S (S (next m2)))) (put (S (next m2)) VNil m4) = Some (VRef (S (S (next m2))))) by (unfold m4; repeat look; reflexivity).
    assert (G5 : grows m2 (put (S (next m2)) VNil m4)) by (unfold m4; grown).
    clearbody m4. set (m5 := put (S (next m2)) VNil m4) in *. clearbody m5.
    destruct (negotiateApiVersions (S n) (items (ApiVersionsResponse_ApiKeys resp))) as [[av|]|].
    + destruct ER as (w & m6 & G6 & -> & ER). symmetry in ER.

      assert (N6 : (next m5 <= next m6)%nat) by (destruct G6 as [? _]; assumption).
      assert (G7 : grows m m6) by exact (grows_trans _ _ _ G4 G6).
      assert (G9 : grows m2 m6) by exact (grows_trans _ _ _ G5 G6).
      assert (Hb6 : get (S (S (next m2))) m6 = Some (VStruct "Broker" [("apiVersion", versions_val no_versions); ("config", cw); ("conn", VRef l)])) by (rewrite (proj2 G6) by fin; exact Hr).
      rewrite <- (proj2 G6) in He, Hp by fin. clear Hr G6.
      unfold versions_val in ER. go_in ER. fold (versions_val av) in ER.
      erewrite set_broker in ER; [|repeat look; reflexivity]. go_in ER. 
      eexists _, _. split; [|split; [|symmetry; exact ER]]; [grown|].
      eexists. split; [reflexivity|]. eexists _, cw, (VRef l). split; [reflexivity|]. split; [fin|]. split; [repeat look; reflexivity|].
      rewrite <- El. split; [eapply config_grows; [|exact Hc2]; grown|eapply conn_grows; [|exact Hl]; grown].
    + destruct ER as (w & m6 & G6 & (key & ->) & ER). symmetry in ER.
      assert (N6 : (next m5 <= next m6)%nat) by (destruct G6 as [? _]; assumption).
      assert (G7 : grows m m6) by exact (grows_trans _ _ _ G4 G6).
      rewrite <- (proj2 G6) in He by fin. clear Hr G6.
      unfold versions_val, errorf in ER. go_in ER. rewrite no_fn in ER by has. erewrite say in ER; [|reflexivity|reflexivity]. go_in ER.
      eexists _, _. split; [|split; [|symmetry; exact ER]]; [grown|].
      eexists. split; [reflexivity|]. split; [discriminate|]. exists key. reflexivity.
    + rewrite ER. split; [exact I|reflexivity].
  - unfold m3 in ER. go_in ER. rewrite no_fn in ER by has. erewrite say in ER; [|reflexivity|reflexivity]. go_in ER.
    eexists _, _. split; [|split; [|symmetry; exact ER]]; [grown|].
    eexists. split; [reflexivity|]. split; [discriminate|]. reflexivity.
  - rewrite <- ER. split; [exact I|reflexivity].
Qed.
End Text.
(** ** dialBootstrap *)
Lemma failure_shape f x : failure_val f x -> (exists y, x = VBox y) \/ (exists y, x = VErr y).
Proof. destruct f; cbn [failure_val]; intros H; [| |destruct H as [key H]| | | |]; rewrite H; unfold errorf; [left|left|left|right|left|left|left]; eexists; reflexivity. Qed.
Lemma but_refl l m : grows_but l m m.
Proof. split; [lia|reflexivity]. Qed.
Lemma but_grows l a b c : grows_but l a b -> grows b c -> grows_but l a c.
Proof. intros [H1 H2] [H3 H4]. split; [lia|]. intros k Hk N. rewrite H4 by lia. apply H2; assumption. Qed.
Lemma but_trans l a b c : grows_but l a b -> grows_but l b c -> grows_but l a c.
Proof. intros [H1 H2] [H3 H4]. split; [lia|]. intros k Hk N. rewrite H4 by (try lia; exact N). apply H2; assumption. Qed.
Lemma grows_is_but l a b : grows a b -> grows_but l a b.
Proof. intros H. exact (but_grows _ _ _ _ (but_refl _ _) H). Qed.
Lemma grows_then_but l a b c : grows a b -> (next a <= l)%nat -> grows_but l b c -> grows a c.
Proof. intros [H1 H2] H [H3 H4]. split; [lia|]. intros k Hk. rewrite H4 by lia. apply H2, Hk. Qed.

Lemma conn_put l m o n w x : get l m = Some o -> plain o -> conn_at m n w -> conn_at (put l x m) n w.
Proof.
  intros H P (k & -> & H1 & H2). exists k. split; [reflexivity|]. split; [exact H1|]. unfold conn_of in *. rewrite get_put_other; [exact H2|]. intros ->. rewrite H in H2. destruct o; try discriminate H2. exact P.
Qed.
Lemma broker_put l m o b w x : get l m = Some o -> plain o -> broker_at m b w -> broker_at (put l x m) b w.
Proof.
  intros H P (k & cw & w' & -> & H1 & H2 & H3 & H4). exists k, cw, w'. split; [reflexivity|]. split; [exact H1|]. split.
  - rewrite get_put_other; [exact H2|]. intros ->. rewrite H in H2. injection H2 as ->. exact P.
  - split; [eapply config_put; eassumption|eapply conn_put; eassumption].
Qed.
Lemma failure_plain f x : failure_val f x -> plain x.
Proof. intros H. destruct (failure_shape _ _ H) as [[y ->]|[y ->]]; exact I. Qed.
Lemma settle_str W o s : settle_as W o (VStr s) = VStr s.
Proof. destruct o; reflexivity. Qed.
Lemma settle_nil W o : settle_as W o VNil = VNil.
Proof. destruct o; reflexivity. Qed.
Lemma settle_err W o s : settle_as W o (VErr s) = VErr s.
Proof. destruct o; reflexivity. Qed.
Section Text.
Context (W : Z) (v : Client.env) (junk : list event -> val).
Notation mach := (machine v junk).
Notation go := (call W prog).
(** [lc]: the variable the callback assigns to *)
Definition called {A} (lc : nat) (value : A -> val) (m : mem) (R : ending * list event) (k : val -> mem -> proc) (o : outcome A * list event) : Prop :=
  match o with
  | (Client.Done a, h) => exists m', grows_but lc m m' /\ get lc m' = Some (value a) /\ R = mach (k VNil m') h
  | (Failed f, h) => exists x m', grows_but lc m m' /\ failure_val f x /\ R = mach (k x m') h
  | (Client.Stuck, h) => hung (fst R) /\ snd R = h
  end.
Definition booted {A} (lc : nat) (value : A -> val) (m : mem) (R : ending * list event) (k : val -> mem -> proc) (o : outcome (option A) * list event) : Prop :=
  match o with
  | (Client.Done (Some a), h) => exists m', grows_but lc m m' /\ get lc m' = Some (value a) /\ R = mach (k VNil m') h
  | (Client.Done None, h) => exists m', grows m m' /\ R = mach (k VNil m') h
  | (Failed f, h) => exists x m', grows_but lc m m' /\ failure_val f x /\ R = mach (k x m') h
  | (Client.Stuck, h) => hung (fst R) /\ snd R = h
  end.
Lemma bootstrap_text {A} n (callback : Client.Broker -> M A) value cb lc addrs os cw m0 m k h R : (enough <= S n)%nat -> env_ok v ->
  client_at m0 addrs os cw -> grows m0 m -> (next m0 <= lc < next m)%nat -> 
  (forall m1 b bw k' h' R', grows m m1 -> broker_at m1 b bw -> mach (apply (go (S (S (S (S n))))) cb [bw] m1 k') h' = R' -> called lc value m1 R' k' (callback b v h')) ->
  mach (go (S (S (S (S (S n))))) "Client.dialBootstrap" [] [cw; cb] m k) h = R ->
  booted lc value m R k (dialBootstrap (mkClient addrs (map option_of_go os)) callback v h).
Proof.
  intros Hn Hv (l & bw & ow & -> & Ll & Hcl & Hbw & Ho) G0 Hlc Hcb ER.
  rewrite (find_fn _ _ _ go_Client_dialBootstrap) in ER by has. unfold invoke, go_Client_dialBootstrap in ER. go_in ER.
  change (zero_val prog 4 (GPtr (GNamed "Broker"))) with (Some VNil) in ER. go_in ER. rewrite zero_error in ER. go_in ER. rewrite Hbw in ER. go_in ER.
  match type of ER with context [each _ ?b ?M ?K] => set (body := b) in ER; set (KK := K) in ER; set (m1 := M) in ER end.
  assert (L : forall addrs err m1 h, grows m m1 -> (S (S (S (S (S (next m))))) <= next m1)%nat ->
    get (next m) m1 = Some (VRef l) -> get (S (next m)) m1 = Some cb -> (exists o, get (S (S (next m))) m1 = Some o /\ plain o) ->
    (exists e, get (S (S (S (next m)))) m1 = Some e /\ match err with None => e = VNil | Some f => failure_val f e end) -> (exists o, get (S (S (S (S (next m))))) m1 = Some o) ->
    booted lc value m (mach (each (map VStr addrs) body m1 KK) h) k (bootstrap_loop (map option_of_go os) addrs callback err v h)).
  { clear ER Hbw addrs. induction addrs as [|addr addrs IH]; intros err m2 h2 G2 N2 Hc2 Hcb2 (o1 & Hb2 & P1) (e & He & Hf) (o2 & Ha2).
    { cbn [map each bootstrap_loop]. unfold KK. sym. repeat (look; sym). destruct err as [f|].
      - destruct (failure_shape _ _ Hf) as [[y ->]|[y ->]]; sym; (exists e || eexists); exists m2; (split; [apply grows_is_but; exact G2|]); split; [exact Hf|reflexivity|exact Hf|reflexivity].
      - subst e. sym. exists m2. split; [exact G2|reflexivity]. }
    remember (mach (each (map VStr (addr :: addrs)) body m2 KK) h2) as r eqn:Er in |- *. cbn [map each] in Er. unfold body at 1 in Er. go_in Er.
    rewrite settle_str in Er. symmetry in Er. apply (broker_text W v junk n os) in Er; [|exact Hn|exact Hv|eapply options_grow; [|exact Ho]; eapply grows_trans; [exact G0|]; grown].
    cbn [bootstrap_loop]. unfold or_else at 1. destruct (NewBroker addr (map option_of_go os) v h2) as [[b|f|] h3]; cbn [results] in Er.
    - destruct Er as (w & m3 & G3 & (x & -> & Hx) & Er).
      assert (N3 : (next m2 <= next m3)%nat) by (destruct G3 as [G3' _]; fin).
      assert (Hb3 : get (S (S (next m))) m3 = Some o1) by (rewrite (proj2 G3) by fin; repeat look; reflexivity).
      assert (He3 : get (S (S (S (next m)))) m3 = Some e) by (rewrite (proj2 G3) by fin; repeat look; reflexivity).
      assert (Hcb3 : get (S (next m)) m3 = Some cb) by (rewrite (proj2 G3) by fin; repeat look; reflexivity).
      assert (Gm : grows m m3) by (eapply grows_trans; [|exact G3]; grown). clear G3.
      assert (Hx' := Hx). destruct Hx' as (lb & ? & ? & -> & _).
      symmetry in Er. go_in Er. rewrite !settle_ref, !settle_nil in Er. go_in Er.
      assert (Pe : plain e) by (destruct err as [f|]; [exact (failure_plain _ _ Hf)|subst e; exact I]).
      apply (Hcb _ b) in Er.
      + unfold bind. destruct (callback b v h3) as [[a|f|] h4]; cbn [called booted] in *.
        * destruct Er as (m4 & B4 & Hm4 & Er). exists m4. split; [|split; [exact Hm4|exact Er]].
          eapply but_trans; [|exact B4]. apply grows_is_but. grown.
        * destruct Er as (y & m4 & B4 & Hm4 & Er). exists y, m4. split; [|split; [exact Hm4|]].
          -- eapply but_trans; [|exact B4]. apply grows_is_but. grown.
          -- destruct (failure_shape _ _ Hm4) as [[z ->]|[z ->]]; exact Er.
        * exact Er.
      + grown.
      + eapply broker_put; [|exact Pe|]; [rewrite get_put_other by lia; exact He3|]. eapply broker_put; [exact Hb3|exact P1|exact Hx].
    - destruct Er as (w & m3 & G3 & (x & -> & _ & Hx) & Er).
      assert (N3 : (next m2 <= next m3)%nat) by (destruct G3 as [G3' _]; fin).
      assert (Hb3 : get (S (S (next m))) m3 = Some o1) by (rewrite (proj2 G3) by fin; repeat look; reflexivity).
      assert (He3 : get (S (S (S (next m)))) m3 = Some e) by (rewrite (proj2 G3) by fin; repeat look; reflexivity).
      assert (Hcb3 : get (S (next m)) m3 = Some cb) by (rewrite (proj2 G3) by fin; repeat look; reflexivity).
      assert (Hc3 : get (next m) m3 = Some (VRef l)) by (rewrite (proj2 G3) by fin; repeat look; reflexivity).
      assert (Ha3 : get (S (S (S (S (next m))))) m3 = Some (VStr addr)) by (rewrite (proj2 G3) by fin; repeat look; reflexivity).
      assert (Gm : grows m m3) by (eapply grows_trans; [|exact G3]; grown). clear G3.
      symmetry in Er. go_in Er. rewrite !settle_nil in Er.
      assert (Er' : mach (each (map VStr addrs) body (put (S (S (S (next m)))) x (put (S (S (next m))) VNil m3)) KK) h3 = r).
      { destruct (failure_shape _ _ Hx) as [[y ->]|[y ->]]; rewrite ?settle_box, ?settle_err in Er; exact Er. }
      rewrite <- Er'. apply IH; [grown|fin| | | | |].
      + repeat look. reflexivity.
      + repeat look. reflexivity.
      + exists VNil. split; [repeat look; reflexivity|exact I].
      + exists x. split; [repeat look; reflexivity|exact Hx].
      + eexists. repeat look. reflexivity.
    - exact Er. }
  rewrite <- ER. apply L; unfold m1; [grown|fin| | | | |].
  + repeat look. reflexivity.
  + repeat look. reflexivity.
  + exists VNil. split; [repeat look; reflexivity|exact I].
  + exists VNil. split; [repeat look; reflexivity|reflexivity].
  + eexists. repeat look. reflexivity.
Qed.
End Text.
(** ** dialNode *)
Lemma conv_port W z : 32 <= W -> is_int32 z -> conv W INT z = z.
Proof.
  intros H1 H2. cbn [conv]. apply wrap_id; [lia|]. unfold is_int32 in H2. change (2147483648) with (2 ^ 31) in *. assert (2 ^ 31 <= 2 ^ (W - 1)) by (apply Z.pow_le_mono_r; lia). lia.
Qed.
Section Text.
Context (W : Z) (v : Client.env) (junk : list event -> val).
Notation mach := (machine v junk).
Notation go := (call W prog).
Lemma results_from {A} a b R k k' good bad (o : outcome A * list event) : grows a b -> (forall x y m' h, mach (k' (VTuple [x; y]) m') h = mach (k (VTuple [x; y]) m') h) ->
  results v junk b R k' good bad o -> results v junk a R k good bad o.
Proof.
  intros G E H. destruct o as [[r|f|] h]; cbn [results] in *; [| |exact H]; destruct H as (w & m' & G' & (x & -> & Hx) & H); rewrite E in H;
    (eexists _, m'; split; [exact (grows_trans _ _ _ G G')|]; split; [exists x; split; [reflexivity|exact Hx]|exact H]).
Qed.
Lemma node_text n meta id addrs os cw m k h R : 32 <= W -> (enough <= S n)%nat -> env_ok v ->
  client_at m addrs os cw -> Forall (fun b => is_int32 (MetadataResponseBroker3_Port b)) (items (MetadataResponse_Brokers meta)) ->
  mach (go (S (S (S (S (S n))))) "Client.dialNode" [] [cw; metadata_val meta; VInt I32 id] m k) h = R ->
  results v junk m R k broker_at VNil (dialNode (mkClient addrs (map option_of_go os)) meta id v h).
Proof.
  intros HW Hn Hv (l & bw & ow & -> & Ll & Hcl & Hbw & Ho) Hp ER.
  rewrite (find_fn _ _ _ go_Client_dialNode) in ER by has. unfold invoke, go_Client_dialNode in ER. go_in ER.
  rewrite elements_structs in ER. go_in ER.
  match type of ER with context [each _ ?b ?M ?K] => set (body := b) in ER; set (KK := K) in ER; set (m1 := M) in ER end.
  unfold dialNode.
  assert (L : forall bs m1, Forall (fun b => is_int32 (MetadataResponseBroker3_Port b)) bs -> grows m m1 -> (S (S (S (S (next m)))) <= next m1)%nat ->
    get (next m) m1 = Some (VRef l) -> get (S (S (next m))) m1 = Some (VInt I32 id) -> (exists o, get (S (S (S (next m)))) m1 = Some o) ->
    results v junk m (mach (each (map (fun a => VStruct "MetadataResponseBroker3" (node_fields a)) bs) body m1 KK) h) k broker_at VNil
      (match find (fun b => MetadataResponseBroker3_NodeId b =? id) bs with
       | Some b => NewBroker (address (MetadataResponseBroker3_Host b) (MetadataResponseBroker3_Port b)) (map option_of_go os)
       | None => fail (NoSuchNode id)
       end v h)).
  { clear ER Hp. induction bs as [|b bs IH]; intros m2 Hp G2 N2 Hc2 Hi2 (o & Ho2).
    { cbn [map each find]. remember (mach (KK None m2) h) as r eqn:Er in |- *. unfold KK in Er. go_in Er. rewrite no_fn in Er by has. erewrite say in Er; [|reflexivity|reflexivity].
      eexists _, _. split; [exact G2|]. split; [|exact Er]. eexists. split; [reflexivity|]. split; [discriminate|]. reflexivity. }
    inversion Hp as [|? ? Hp1 Hp2]; subst. cbn [find].
    remember (mach (each (map (fun a => VStruct "MetadataResponseBroker3" (node_fields a)) (b :: bs)) body m2 KK) h) as r eqn:Er in |- *. cbn [map each] in Er. unfold body at 1 in Er. go_in Er.
    replace (settle_as W o (VStruct "MetadataResponseBroker3" (node_fields b))) with (VStruct "MetadataResponseBroker3" (node_fields b)) in Er by (destruct o; reflexivity). go_in Er.
    destruct (MetadataResponseBroker3_NodeId b =? id); go_in Er.
    - rewrite (conv_port W _ HW Hp1) in Er.
      rewrite no_fn in Er by has. erewrite say in Er; [|reflexivity|reflexivity]. go_in Er.
      replace ((MetadataResponseBroker3_Host b ++ [58]) ++ Itoa (MetadataResponseBroker3_Port b)) with (address (MetadataResponseBroker3_Host b) (MetadataResponseBroker3_Port b)) in Er
        by (unfold address; rewrite <- app_assoc; reflexivity).
      symmetry in Er. apply (broker_text W v junk n os) in Er; [|exact Hn|exact Hv|eapply options_grow; [|exact Ho]; grown].
      eapply results_from; [| |exact Er]; [grown|]. intros. reflexivity.
    - rewrite Er. apply IH; [exact Hp2|grown|fin|repeat look; reflexivity|repeat look; reflexivity|eexists; repeat look; reflexivity]. }
  rewrite <- ER. apply L; unfold m1; [exact Hp|grown|fin| | |].
  + repeat look. reflexivity.
  + repeat look. reflexivity.
  + eexists. repeat look. reflexivity.
Qed.
End Text.
(** ** Metadata *)
Definition topic_val (t : gostring) : list (string * val) := [("Name", VStr t)].
Definition topics_val (ts : list gostring) : val := match ts with [] => VNil | _ => VStructs "MetadataRequestTopic3" (map topic_val ts) end.
Definition request_val (ts : list gostring) : val :=
  VStruct "MetadataRequest" [("Topics", topics_val ts); ("AllowAutoTopicCreation", VBool false); ("IncludeClusterAuthorizedOperations", VBool false); ("IncludeTopicAuthorizedOperations", VBool false)].
Lemma request_struct W : struct_val W prog "MetadataRequest" [] = Some (request_val []).
Proof. vm_compute. reflexivity. Qed.
Lemma topic_struct W t : struct_val W prog "MetadataRequestTopic3" [("Name", VStr t)] = Some (VStruct "MetadataRequestTopic3" (topic_val t)).
Proof. vm_compute. reflexivity. Qed.
Lemma append_topic ts t : append_val (topics_val ts) (VStruct "MetadataRequestTopic3" (topic_val t)) = Some (topics_val (ts ++ [t])).
Proof. destruct ts as [|a ts]; [reflexivity|]. cbn -[topic_val]. rewrite map_app. reflexivity. Qed.
Lemma set_topics W l m ts us : get l m = Some (request_val ts) -> set_at W l "Topics" (topics_val us) m = Some (put l (request_val us) m).
Proof. intros H. unfold set_at. rewrite H. cbn -[topics_val put]. destruct ts, us; reflexivity. Qed.
Lemma topics_back ts : topics_of (map topic_val ts) = Some (map mkMetadataRequestTopic3 ts).
Proof. induction ts as [|t ts IH]; [reflexivity|]. cbn [map topics_of]. rewrite IH. reflexivity. Qed.
Lemma request_back ts : metadata_of [("Topics", topics_val ts); ("AllowAutoTopicCreation", VBool false); ("IncludeClusterAuthorizedOperations", VBool false); ("IncludeTopicAuthorizedOperations", VBool false)] = Some (metadata_request ts).
Proof. destruct ts as [|t ts]; [reflexivity|]. unfold metadata_of, topics_val. cbn -[topics_of map]. rewrite topics_back. reflexivity. Qed.
Lemma broker_knows m b w a : broker_at m b w -> broker_of m a w = Some (b_conn b, b_apiVersion b a).
Proof. intros (l & cw & w' & -> & _ & H1 & _ & H2). eapply broker_is; eassumption. Qed.
Lemma broker_grows a b x w : grows a b -> broker_at a x w -> broker_at b x w.
Proof.
  intros G (l & cw & w' & -> & H1 & H2 & H3 & H4). exists l, cw, w'. split; [reflexivity|]. split; [destruct G as [G _]; lia|]. split; [rewrite (proj2 G) by exact H1; exact H2|].
  split; [eapply config_grows; eassumption|eapply conn_grows; eassumption].
Qed.
Lemma meta_zero : zero_val prog 4 (GNamed "MetadataResponse") = Some (metadata_val MetadataResponse_zero).
Proof. vm_compute. reflexivity. Qed.
Lemma meta_struct W : struct_val W prog "MetadataResponse" [] = Some (metadata_val MetadataResponse_zero).
Proof. vm_compute. reflexivity. Qed.
Definition strings_val (ts : list gostring) : val := match ts with [] => VNil | _ => VStrs ts end.
Lemma strings_all ts : strings (map VStr ts) = Some ts.
Proof. induction ts as [|t ts IH]; [reflexivity|]. cbn [map strings]. rewrite IH. reflexivity. Qed.
Lemma dots_strings ts : dots GString (map VStr ts) = Some (strings_val ts).
Proof. destruct ts as [|t ts]; [reflexivity|]. cbn [map dots]. destruct ts as [|u ts]; [reflexivity|]. cbn [map dots strings_val]. change (VStr t :: VStr u :: map VStr ts) with (map VStr (t :: u :: ts)). rewrite strings_all. reflexivity. Qed.
Lemma elements_strings ts : elements_of (strings_val ts) = Some (map VStr ts).
Proof. destruct ts; reflexivity. Qed.
Lemma settle_struct W o t fs : settle_as W o (VStruct t fs) = VStruct t fs.
Proof. destruct o; reflexivity. Qed.
Section Text.
Context (W : Z) (v : Client.env) (junk : list event -> val).
Notation mach := (machine v junk).
Notation go := (call W prog).
Lemma say_metadata b n x ts m k h : broker_of m BrokerTable.Metadata b = Some (n, x) ->
  mach (Ask "Broker.Metadata" [b; request_val ts] m k) h =
  let r := v_metadata v h n x (metadata_request ts) in let h' := h ++ [EMetadata n x (metadata_request ts) r] in
  match r with
  | Answer a => mach (k (VTuple [metadata_val a; VNil]) m) h'
  | Error x => mach (k (VTuple [junk h; VErr x]) m) h'
  | NoReturn => (Waits, h')
  end.
Proof. intros H. cbn -[broker_of metadata_of metadata_fields topics_val metadata_request]. rewrite H, request_back. cbn zeta. destruct (v_metadata v h n x (metadata_request ts)); reflexivity. Qed.
Definition meta_env (p : nat) : GoLang.env := ("meta", VRef (S (S (S p)))) :: ("topics", VRef (S (S p))) :: ("ctx", VRef (S p)) :: ("c", VRef p) :: open_block [].
Lemma meta_call n p topics tv b bw m k h R : elements_of tv = Some (map VStr topics) -> get (S (S p)) m = Some tv -> (S (S (S p)) < next m)%nat -> (exists o, get (S (S (S p))) m = Some o) -> broker_at m b bw ->
  mach (apply (go (S (S (S (S n))))) (VBox (VStruct "Client.Metadata.func1" (meta_env p))) [bw] m k) h = R ->
  called v junk (S (S (S p))) metadata_val m R k (ask_metadata b (metadata_request topics) v h).
Proof.
  intros Ht Htv Np (o & Hm) Hb ER. cbn [apply] in ER. rewrite (find_fn _ _ _ go_Client_Metadata_func1) in ER by has. unfold invoke, go_Client_Metadata_func1 in ER. go_in ER.
  rewrite request_struct in ER. go_in ER. 
  rewrite Ht in ER. go_in ER.
  match type of ER with context [each _ ?b ?M ?K] => set (body := b) in ER; set (KK := K) in ER; set (m1 := M) in ER end.
  assert (L : forall ts ds m1, grows m m1 -> (S (S (S (next m))) <= next m1)%nat -> get (next m) m1 = Some bw -> get (S (next m)) m1 = Some (request_val ds) -> (exists o, get (S (S (next m))) m1 = Some o) ->
    exists m', grows m m' /\ (S (S (S (next m))) <= next m')%nat /\ get (next m) m' = Some bw /\ get (S (next m)) m' = Some (request_val (ds ++ ts)) /\ mach (each (map VStr ts) body m1 KK) h = mach (KK None m') h).
  { clear. induction ts as [|t ts IH]; intros ds m1 G N H1 H2 (o & H3).
    { exists m1. rewrite app_nil_r. repeat split; try assumption; apply G. }
    remember (mach (each (map VStr (t :: ts)) body m1 KK) h) as r eqn:Er in |- *. cbn [map each] in Er. unfold body at 1 in Er. go_in Er.
    rewrite settle_str in Er. go_in Er. rewrite topic_struct in Er. go_in Er. rewrite append_topic in Er. go_in Er.
    replace (spread (topics_val (ds ++ [t]))) with [topics_val (ds ++ [t])] in Er by (destruct ds; reflexivity). go_in Er.
    erewrite set_topics in Er; [|repeat look; reflexivity]. go_in Er.
    rewrite Er. replace (ds ++ t :: ts) with ((ds ++ [t]) ++ ts) by (rewrite <- app_assoc; reflexivity).
    apply IH; [grown|fin|repeat look; reflexivity|repeat look; reflexivity|eexists; repeat look; reflexivity]. }
  specialize (L topics [] m1). rewrite ER in L. destruct L as (m2 & G2 & N2 & H1 & H2 & L); unfold m1; [grown|fin|repeat look; reflexivity|repeat look; reflexivity|eexists; repeat look; reflexivity|].
  cbn [app] in H2. symmetry in L. clear ER. unfold KK in L. go_in L.
  assert (Hb2 : broker_at m2 b bw) by exact (broker_grows _ _ _ _ G2 Hb).
  assert (HM : forall vs k', method (go (S (S (S n)))) bw "Metadata" vs m2 k' = Ask "Broker.Metadata" (bw :: vs) m2 k').
  { intros. destruct Hb2 as (lb & ? & ? & -> & _ & Hg & _). cbn [method]. rewrite Hg. apply no_fn. has. }
  rewrite HM in L. fold (request_val topics) in L. rewrite (say_metadata bw (b_conn b) (b_apiVersion b BrokerTable.Metadata)) in L by exact (broker_knows _ _ _ _ Hb2).
  cbn zeta in L. unfold ask_metadata, called. cbn zeta. destruct (v_metadata v h _ _ _) as [a|x|].
  - go_in L. 
    unfold metadata_val at 1 in L. rewrite settle_struct in L. fold (metadata_val a) in L.
    eexists. split; [|split; [|symmetry; exact L]]; [|look; reflexivity].
    split; [fin|]. intros x Hx Hn. repeat look. reflexivity.
  - go_in L. exists (VErr x). eexists. split; [|split; [reflexivity|symmetry; exact L]]. apply grows_is_but. grown.
  - rewrite <- L. split; [exact I|reflexivity].
Qed.
Lemma metadata_text n topics ctx addrs os cw m k h R : (enough <= S n)%nat -> env_ok v -> client_at m addrs os cw ->
  mach (go (S (S (S (S (S (S n)))))) "Client.Metadata" [] (cw :: ctx :: map VStr topics) m k) h = R ->
  results v junk m R k (fun _ a w => w = metadata_val a) (metadata_val MetadataResponse_zero) (Client.Metadata (mkClient addrs (map option_of_go os)) topics v h).
Proof.
  intros Hn Hv Hc ER. assert (Hc' := Hc). destruct Hc' as (l & bw & ow & -> & Ll & Hcl & _).
  rewrite (find_fn _ _ _ go_Client_Metadata) in ER by has. unfold invoke, go_Client_Metadata in ER. cbn [f_params arguments] in ER. rewrite dots_strings in ER. go_in ER.
  rewrite meta_zero in ER. go_in ER.
  set (m1 := push _ _) in ER.
  assert (G1 : grows m m1) by (unfold m1; grown).
  assert (N1 : (S (S (S (S (S (next m))))) <= next m1)%nat) by (unfold m1; fin).
  assert (H1 : get (S (S (next m))) m1 = Some (strings_val topics)) by (unfold m1; repeat look; reflexivity).
  assert (H2 : get (S (S (S (next m)))) m1 = Some (metadata_val MetadataResponse_zero)) by (unfold m1; repeat look; reflexivity).
  clearbody m1.
  apply (bootstrap_text W v junk n (fun b => ask_metadata b (metadata_request topics)) metadata_val _ (S (S (S (next m)))) addrs os (VRef l) m) in ER; [|exact Hn|exact Hv|exact Hc|exact G1|lia|].
  - unfold Client.Metadata, bind. destruct (dialBootstrap _ _ v h) as [[[a|]|f|] h2]; cbn [booted results] in *.
    + destruct ER as (m2 & B & Hm & ER). assert (N2 : (next m1 <= next m2)%nat) by (destruct B as [? _]; assumption). symmetry in ER. go_in ER.
      eexists _, _. split; [|split; [|symmetry; exact ER]]; [|eexists; split; reflexivity].
      apply grows_push'. eapply grows_then_but; [exact G1| |exact B]. lia.
    + destruct ER as (m2 & G2 & ER). assert (N2 : (next m1 <= next m2)%nat) by (destruct G2 as [? _]; assumption). symmetry in ER. go_in ER.
      eexists _, _. split; [|split; [|symmetry; exact ER]]; [|eexists; split; reflexivity].
      apply grows_push'. exact (grows_trans _ _ _ G1 G2).
    + destruct ER as (x & m2 & B & Hx & ER). symmetry in ER.
      assert (ER' : mach (k (VTuple [metadata_val MetadataResponse_zero; x]) (push x m2)) h2 = R).
      { destruct (failure_shape _ _ Hx) as [[y ->]|[y ->]]; go_in ER; rewrite meta_struct in ER; go_in ER; exact ER. }
      eexists _, _. split; [|split; [|symmetry; exact ER']].
      * apply grows_push'. eapply grows_then_but; [exact G1| |exact B]. lia.
      * exists x. split; [reflexivity|]. split; [|exact Hx]. destruct (failure_shape _ _ Hx) as [[y ->]|[y ->]]; discriminate.
    + exact ER.
  - intros m2 b bw' k' h' R' G2 Hb E. assert (N2 : (next m1 <= next m2)%nat) by (destruct G2 as [? _]; assumption). eapply (meta_call n (next m) topics (strings_val topics)); [apply elements_strings| |lia| |exact Hb|exact E].
    + repeat look. reflexivity.
    + eexists. repeat look. reflexivity.
Qed.
End Text.
(** ** dialCoordinator *)
Lemma bootstrap_pred {A} (P : A -> Prop) (callback : Client.Broker -> M A) v opts : (forall b h a h', callback b v h = (Client.Done a, h') -> P a) ->
  forall addrs err h a h', bootstrap_loop opts addrs callback err v h = (Client.Done (Some a), h') -> P a.
Proof.
  intros HP. induction addrs as [|addr addrs IH]; intros err h a h' H; cbn [bootstrap_loop] in H.
  - destruct err; discriminate H.
  - unfold or_else at 1 in H. destruct (NewBroker addr opts v h) as [[b|f|] h1]; [|exact (IH _ _ _ _ H)|discriminate H].
    unfold bind in H. destruct (callback b v h1) as [[x|f|] h2] eqn:E; try discriminate H. injection H as -> ->. exact (HP _ _ _ _ E).
Qed.
Lemma found_port v c req h a h' : ports_ok v -> dialBootstrap c (fun b => ask_find b req) v h = (Client.Done (Some a), h') -> is_int32 (FindCoordinatorResponse_Port a).
Proof.
  intros [_ Hp]. apply (bootstrap_pred (fun a => is_int32 (FindCoordinatorResponse_Port a))). intros b h1 x h2 E. unfold ask_find in E. cbn zeta in E.
  destruct (v_find v h1 _ _ req) eqn:F; try discriminate E. injection E as -> _. exact (Hp _ _ _ _ _ F).
Qed.
Lemma metadata_ports v c topics h a h' : ports_ok v -> Client.Metadata c topics v h = (Client.Done a, h') -> Forall (fun b => is_int32 (MetadataResponseBroker3_Port b)) (items (MetadataResponse_Brokers a)).
Proof.
  intros [Hp _] H. unfold Client.Metadata, bind in H. destruct (dialBootstrap c _ v h) as [[[x|]|f|] h1] eqn:E; try discriminate H; injection H as <- _; [|constructor].
  revert E. apply (bootstrap_pred (fun a => Forall (fun b => is_int32 (MetadataResponseBroker3_Port b)) (items (MetadataResponse_Brokers a)))). intros b h2 y h3 E. unfold ask_metadata in E. cbn zeta in E.
  destruct (v_metadata v h2 _ _ _) eqn:F; try discriminate E. injection E as -> _. exact (Hp _ _ _ _ _ F).
Qed.
Definition find_val (r : FindCoordinatorRequest) : val := VStruct "FindCoordinatorRequest" (find_fields r).
Definition coordinator_val (r : FindCoordinatorResponse) : val := VStruct "FindCoordinatorResponse" (coordinator_fields r).
Lemma coordinator_zero : zero_val prog 4 (GNamed "FindCoordinatorResponse") = Some (coordinator_val FindCoordinatorResponse_zero).
Proof. vm_compute. reflexivity. Qed.
Section Text.
Context (W : Z) (v : Client.env) (junk : list event -> val).
Notation mach := (machine v junk).
Notation go := (call W prog).
Lemma say_find b n x q m k h : broker_of m FindCoordinator b = Some (n, x) ->
  mach (Ask "Broker.FindCoordinator" [b; find_val q] m k) h =
  let r := v_find v h n x q in let h' := h ++ [EFind n x q r] in
  match r with
  | Answer a => mach (k (VTuple [coordinator_val a; VNil]) m) h'
  | Error x => mach (k (VTuple [junk h; VErr x]) m) h'
  | NoReturn => (Waits, h')
  end.
Proof. intros H. destruct q as [key ty]. cbn -[broker_of coordinator_fields]. rewrite H. cbn zeta. destruct (v_find v h n x _); reflexivity. Qed.
Definition find_env (p : nat) : GoLang.env := ("resp", VRef (S (S (S p)))) :: ("req", VRef (S (S p))) :: ("ctx", VRef (S p)) :: ("c", VRef p) :: open_block [].
Lemma find_call n p q b bw m k h R : get (S (S p)) m = Some (find_val q) -> (S (S (S p)) < next m)%nat -> (exists o, get (S (S (S p))) m = Some o) -> broker_at m b bw ->
  mach (apply (go (S (S (S (S n))))) (VBox (VStruct "Client.dialCoordinator.func1" (find_env p))) [bw] m k) h = R ->
  called v junk (S (S (S p))) coordinator_val m R k (ask_find b q v h).
Proof.
  intros Hq Np (o & Hm) Hb ER. cbn [apply] in ER. rewrite (find_fn _ _ _ go_Client_dialCoordinator_func1) in ER by has. unfold invoke, go_Client_dialCoordinator_func1 in ER. go_in ER.
  assert (Hb2 : broker_at (push bw m) b bw) by (eapply broker_grows; [|exact Hb]; grown).
  assert (HM : forall vs k', method (go (S (S (S n)))) bw "FindCoordinator" vs (push bw m) k' = Ask "Broker.FindCoordinator" (bw :: vs) (push bw m) k').
  { intros. destruct Hb2 as (lb & ? & ? & -> & _ & Hg & _). cbn [method]. rewrite Hg. apply no_fn. has. }
  rewrite HM in ER. rewrite (say_find bw (b_conn b) (b_apiVersion b FindCoordinator)) in ER by exact (broker_knows _ _ _ _ Hb2).
  cbn zeta in ER. unfold ask_find, called. cbn zeta. destruct (v_find v h _ _ _) as [a|x|].
  - go_in ER. unfold coordinator_val at 1 in ER. rewrite settle_struct in ER. fold (coordinator_val a) in ER.
    eexists. split; [|split; [|symmetry; exact ER]]; [|look; reflexivity].
    split; [fin|]. intros x Hx Hn. repeat look. reflexivity.
  - go_in ER. exists (VErr x). eexists. split; [|split; [reflexivity|symmetry; exact ER]]. apply grows_is_but. grown.
  - rewrite <- ER. split; [exact I|reflexivity].
Qed.
Lemma coordinator_text n q ctx addrs os cw m k h R : 32 <= W -> (enough <= S n)%nat -> env_ok v -> ports_ok v -> client_at m addrs os cw ->
  mach (go (S (S (S (S (S (S n)))))) "Client.dialCoordinator" [] [cw; ctx; find_val q] m k) h = R ->
  results v junk m R k broker_at VNil (dialCoordinator (mkClient addrs (map option_of_go os)) q v h).
Proof.
  intros HW Hn Hv Hp Hc ER. assert (Hc' := Hc). destruct Hc' as (l & bw & ow & -> & Ll & Hcl & _ & Ho).
  rewrite (find_fn _ _ _ go_Client_dialCoordinator) in ER by has. unfold invoke, go_Client_dialCoordinator in ER. go_in ER.
  rewrite coordinator_zero in ER. go_in ER.
  set (m1 := push _ _) in ER.
  assert (G1 : grows m m1) by (unfold m1; grown).
  assert (N1 : (S (S (S (S (S (next m))))) <= next m1)%nat) by (unfold m1; fin).
  assert (H0 : get (next m) m1 = Some (VRef l)) by (unfold m1; repeat look; reflexivity).
  assert (H1 : get (S (S (next m))) m1 = Some (find_val q)) by (unfold m1; repeat look; reflexivity).
  assert (H2 : get (S (S (S (next m)))) m1 = Some (coordinator_val FindCoordinatorResponse_zero)) by (unfold m1; repeat look; reflexivity).
  clearbody m1.
  apply (bootstrap_text W v junk n (fun b => ask_find b q) coordinator_val _ (S (S (S (next m)))) addrs os (VRef l) m) in ER; [|exact Hn|exact Hv|exact Hc|exact G1|lia|].
  - unfold dialCoordinator, bind. destruct (dialBootstrap _ _ v h) as [[[a|]|f|] h2] eqn:ED; cbn [booted results] in *.
    + destruct ER as (m2 & B & Hm & ER). assert (N2 : (next m1 <= next m2)%nat) by (destruct B as [? _]; assumption).
      assert (H0' : get (next m) m2 = Some (VRef l)) by (rewrite (proj2 B) by lia; exact H0).
      assert (G2 : grows m m2) by (eapply grows_then_but; [exact G1| |exact B]; lia).
      symmetry in ER. go_in ER. rewrite (conv_port W _ HW (found_port _ _ _ _ _ _ Hp ED)) in ER.
      rewrite no_fn in ER by has. erewrite say in ER; [|reflexivity|reflexivity]. go_in ER.
      replace ((FindCoordinatorResponse_Host a ++ [58]) ++ Itoa (FindCoordinatorResponse_Port a)) with (address (FindCoordinatorResponse_Host a) (FindCoordinatorResponse_Port a)) in ER
        by (unfold address; rewrite <- app_assoc; reflexivity).
      apply (broker_text W v junk (S n) os) in ER; [|lia|exact Hv|eapply options_grow; [|exact Ho]; grown].
      eapply results_from; [| |exact ER]; [grown|]. intros. reflexivity.
    + destruct ER as (m2 & G2 & ER). assert (N2 : (next m1 <= next m2)%nat) by (destruct G2 as [? _]; assumption).
      rewrite <- (proj2 G2) in H0, H2 by lia.
      assert (G3 : grows m m2) by exact (grows_trans _ _ _ G1 G2). clear G2.
      symmetry in ER. go_in ER. rewrite (conv_port W 0 HW) in ER by (unfold is_int32; lia).
      rewrite no_fn in ER by has. erewrite say in ER; [|reflexivity|reflexivity]. go_in ER.
      apply (broker_text W v junk (S n) os) in ER; [|lia|exact Hv|eapply options_grow; [|exact Ho]; grown].
      eapply results_from; [| |exact ER]; [grown|]. intros. reflexivity.
    + destruct ER as (x & m2 & B & Hx & ER). symmetry in ER.
      assert (ER' : mach (k (VTuple [VNil; x]) (push x m2)) h2 = R).
      { destruct (failure_shape _ _ Hx) as [[y ->]|[y ->]]; go_in ER; exact ER. }
      eexists _, _. split; [|split; [|symmetry; exact ER']].
      * apply grows_push'. eapply grows_then_but; [exact G1| |exact B]. lia.
      * exists x. split; [reflexivity|]. split; [|exact Hx]. destruct (failure_shape _ _ Hx) as [[y ->]|[y ->]]; discriminate.
    + exact ER.
  - intros m2 b bw' k' h' R' G2 Hb E. assert (N2 : (next m1 <= next m2)%nat) by (destruct G2 as [? _]; assumption).
    eapply (find_call n (next m) q); [| lia| |exact Hb|exact E].
    + repeat look. reflexivity.
    + eexists. repeat look. reflexivity.
Qed.
End Text.
(** ** findTopic and findPartition *)
Definition topic_of_val (t : MetadataResponseTopic3) : val := VStruct "MetadataResponseTopic3" (topic_fields t).
Definition partition_of_val (p : MetadataResponsePartition3) : val := VStruct "MetadataResponsePartition3" (partition_fields p).
Lemma topic_none W : struct_val W prog "MetadataResponseTopic3" [] = Some (topic_of_val MetadataResponseTopic3_zero).
Proof. vm_compute. reflexivity. Qed.
Lemma partition_none W : struct_val W prog "MetadataResponsePartition3" [] = Some (partition_of_val MetadataResponsePartition3_zero).
Proof. vm_compute. reflexivity. Qed.
Section Text.
Context (W : Z) (v : Client.env) (junk : list event -> val).
Notation mach := (machine v junk).
Notation go := (call W prog).
Lemma topic_text n meta name m k h R : mach (go (S (S n)) "kafka.findTopic" [] [metadata_val meta; VStr name] m k) h = R ->
  match findTopic meta name with
  | Client.Done t => leads m R (fun w m' => mach (k w m') h) (fun w _ => w = VTuple [topic_of_val t; VNil])
  | _ => leads m R (fun w m' => mach (k w m') h) (fun w _ => w = VTuple [topic_of_val MetadataResponseTopic3_zero; errorf "no such topic, %v" [VStr name]])
  end.
Proof.
  intros ER. rewrite (find_fn _ _ _ go_kafka_findTopic) in ER by has. unfold invoke, go_kafka_findTopic in ER. go_in ER.
  rewrite elements_structs in ER. go_in ER.
  match type of ER with context [each _ ?b ?M ?K] => set (body := b) in ER; set (KK := K) in ER; set (m1 := M) in ER end.
  unfold findTopic.
  assert (L : forall ts m1, grows m m1 -> (S (S (S (next m))) <= next m1)%nat -> get (S (next m)) m1 = Some (VStr name) -> (exists o, get (S (S (next m))) m1 = Some o) ->
    let R := mach (each (map (fun a => VStruct "MetadataResponseTopic3" (topic_fields a)) ts) body m1 KK) h in
    match find (fun t => string_eqb (MetadataResponseTopic3_Name t) name) ts with
    | Some t => leads m R (fun w m' => mach (k w m') h) (fun w _ => w = VTuple [topic_of_val t; VNil])
    | None => leads m R (fun w m' => mach (k w m') h) (fun w _ => w = VTuple [topic_of_val MetadataResponseTopic3_zero; errorf "no such topic, %v" [VStr name]])
    end).
  { clear ER. induction ts as [|t ts IH]; intros m2 G2 N2 Hn2 (o & Ho2).
    { cbn [map each find]. cbn zeta. remember (mach (KK None m2) h) as r eqn:Er in |- *. unfold KK in Er. go_in Er. rewrite topic_none in Er. go_in Er. rewrite no_fn in Er by has. erewrite say in Er; [|reflexivity|reflexivity].
      eexists _, _. split; [exact G2|]. split; [|exact Er]. reflexivity. }
    cbn [find]. cbn zeta.
    remember (mach (each (map (fun a => VStruct "MetadataResponseTopic3" (topic_fields a)) (t :: ts)) body m2 KK) h) as r eqn:Er in |- *. cbn [map each] in Er. unfold body at 1 in Er. go_in Er.
    rewrite settle_struct in Er. go_in Er. unfold string_eqb at 1.
    destruct (list_eq_dec Z.eq_dec (MetadataResponseTopic3_Name t) name); go_in Er.
    - eexists _, _. split; [|split; [|exact Er]]; [grown|reflexivity].
    - rewrite Er. apply IH; [grown|fin|repeat look; reflexivity|eexists; repeat look; reflexivity]. }
  specialize (L (items (MetadataResponse_Topics meta)) m1). cbn zeta in L. rewrite ER in L. destruct (find _ _); apply L; unfold m1; (grown || fin || (repeat look; reflexivity) || (eexists; repeat look; reflexivity)).
Qed.
Lemma partition_text n topic id m k h R : mach (go (S (S n)) "kafka.findPartition" [] [topic_of_val topic; VInt I32 id] m k) h = R ->
  match findPartition topic id with
  | Client.Done p => leads m R (fun w m' => mach (k w m') h) (fun w _ => w = VTuple [partition_of_val p; VNil])
  | _ => leads m R (fun w m' => mach (k w m') h)
      (fun w _ => w = VTuple [partition_of_val MetadataResponsePartition3_zero; errorf "unable to find partition, %v, for topic, %v" [VInt I32 id; VStr (MetadataResponseTopic3_Name topic)]])
  end.
Proof.
  intros ER. rewrite (find_fn _ _ _ go_kafka_findPartition) in ER by has. unfold invoke, go_kafka_findPartition in ER. go_in ER.
  rewrite elements_structs in ER. go_in ER.
  match type of ER with context [each _ ?b ?M ?K] => set (body := b) in ER; set (KK := K) in ER; set (m1 := M) in ER end.
  unfold findPartition.
  assert (L : forall ts m1, grows m m1 -> (S (S (S (next m))) <= next m1)%nat -> get (next m) m1 = Some (topic_of_val topic) -> get (S (next m)) m1 = Some (VInt I32 id) -> (exists o, get (S (S (next m))) m1 = Some o) ->
    let R := mach (each (map (fun a => VStruct "MetadataResponsePartition3" (partition_fields a)) ts) body m1 KK) h in
    match find (fun t => MetadataResponsePartition3_PartitionIndex t =? id) ts with
    | Some t => leads m R (fun w m' => mach (k w m') h) (fun w _ => w = VTuple [partition_of_val t; VNil])
    | None => leads m R (fun w m' => mach (k w m') h)
      (fun w _ => w = VTuple [partition_of_val MetadataResponsePartition3_zero; errorf "unable to find partition, %v, for topic, %v" [VInt I32 id; VStr (MetadataResponseTopic3_Name topic)]])
    end).
  { clear ER. induction ts as [|t ts IH]; intros m2 G2 N2 Ht2 Hn2 (o & Ho2).
    { cbn [map each find]. cbn zeta. remember (mach (KK None m2) h) as r eqn:Er in |- *. unfold KK in Er. go_in Er. rewrite partition_none in Er. go_in Er. rewrite no_fn in Er by has. erewrite say in Er; [|reflexivity|reflexivity].
      eexists _, _. split; [exact G2|]. split; [|exact Er]. reflexivity. }
    cbn [find]. cbn zeta.
    remember (mach (each (map (fun a => VStruct "MetadataResponsePartition3" (partition_fields a)) (t :: ts)) body m2 KK) h) as r eqn:Er in |- *. cbn [map each] in Er. unfold body at 1 in Er. go_in Er.
    rewrite settle_struct in Er. go_in Er.
    destruct (MetadataResponsePartition3_PartitionIndex t =? id); go_in Er.
    - eexists _, _. split; [|split; [|exact Er]]; [grown|reflexivity].
    - rewrite Er. apply IH; [grown|fin|repeat look; reflexivity|repeat look; reflexivity|eexists; repeat look; reflexivity]. }
  specialize (L (items (MetadataResponseTopic3_Partitions topic)) m1). cbn zeta in L. rewrite ER in L. destruct (find _ _); apply L; unfold m1; (grown || fin || (repeat look; reflexivity) || (eexists; repeat look; reflexivity)).
Qed.
End Text.
