(** * The text of the 48 request methods does what the model does *)
From Coq Require Import Ascii String Lia ZArith.
From Verif Require Import GoBase GoLemmas Encoder Decoder Sizeof Link Msg01 BrokerTable Broker Options Client GoLang GoShare SourceMessages SourceConn SourceClient SourceClientSpec SourceClientProofs SourceClientAll SourceBrokerSpec.
Local Open Scope string_scope.
Local Open Scope list_scope.
Local Open Scope Z_scope.
Notation bprog := broker_program.

(** ** All 48 are of one form. *)
Definition version_expr (a : api) : expr := EField (EField (EVar "b") "apiVersion") (api_name a).
Definition the_method (m : BrokerTable.method) : func := mkFunc [("b", GPtr (GNamed "Broker")); ("req", GNamed (m_req_name m))] [GNamed (m_resp_name m); GNamed "error"]
  [SVar "resp" (Some (GNamed (m_resp_name m))) None;
   SDefine ["err"] [EMethod (EField (EVar "b") "conn") "Do" [EFunc ("Broker." ++ m_name m ++ ".func1")%string; EFunc ("Broker." ++ m_name m ++ ".func2")%string]];
   SReturn [EVar "resp"; EVar "err"]].
Definition the_func1 (m : BrokerTable.method) : func := mkFunc [("e", GPtr (GNamed "Encoder")); ("correlationID", GInt I32)] []
  [SDefine ["hdr"] [EStruct "RequestHeader" [("RequestApiKey", EGlobal ("message.Key" ++ m_name m)%string); ("RequestApiVersion", version_expr (m_v_header m));
                                             ("CorrelationId", EVar "correlationID"); ("ClientId", EField (EField (EVar "b") "config") "clientID")]];
   SDefine ["size"] [EBin Add (EMethod (EVar "hdr") "Size" [EInt (m_header_size m)]) (EMethod (EVar "req") "Size" [version_expr (m_v_size m)])];
   SExpr (EMethod (EVar "e") "PutInt32" [EVar "size"]);
   SExpr (EMethod (EVar "hdr") "Encode" [EVar "e"; EInt (m_header_encode m)]);
   SExpr (EMethod (EVar "req") "Encode" [EVar "e"; version_expr (m_v_encode m)])].
Definition the_func2 (m : BrokerTable.method) : func := mkFunc [("d", GPtr (GNamed "Decoder"))] [GNamed "error"]
  [SReturn [EMethod (EAddr (EVar "resp")) "Decode" [EVar "d"; version_expr (m_v_decode m)]]].
Definition of_form (m : BrokerTable.method) : Prop :=
  lookup ("Broker." ++ m_name m) (k_funcs bprog) = Some (the_method m) /\
  lookup ("Broker." ++ m_name m ++ ".func1") (k_funcs bprog) = Some (the_func1 m) /\
  lookup ("Broker." ++ m_name m ++ ".func2") (k_funcs bprog) = Some (the_func2 m) /\
  const_val bprog ("message.Key" ++ m_name m) = Some (VConst (m_key m)) /\ int16 (m_key m) = m_key m /\
  int16 (m_header_size m) = m_header_size m /\ int16 (m_header_encode m) = m_header_encode m /\
  lookup (m_req_name m ++ ".Size") (k_funcs bprog) = None /\ lookup (m_req_name m ++ ".Encode") (k_funcs bprog) = None /\ lookup (m_resp_name m ++ ".Decode") (k_funcs bprog) = None /\
  (exists fs, zero_val bprog 4 (GNamed (m_resp_name m)) = Some (VStruct (m_resp_name m) fs)) /\
  forall T (a b c d e : T), let l := [("RequestHeader.Size", a); ("RequestHeader.Encode", b); ("message.Encoder.PutInt32", c); ((m_req_name m ++ ".Size")%string, d); ((m_req_name m ++ ".Encode")%string, e)] in
    lookup (m_req_name m ++ ".Size") l = Some d /\ lookup (m_req_name m ++ ".Encode") l = Some e.
Lemma all_form : Forall of_form all_methods.
Proof.
  unfold all_methods. repeat (apply Forall_cons; [|]); [..|apply Forall_nil].
  all: (repeat (split; [vm_compute; reflexivity|]); split; [vm_compute; eexists; reflexivity|]; intros; split; reflexivity).
Qed.
Lemma form m : In m all_methods -> of_form m.
Proof. intros H. exact (proj1 (Forall_forall _ _) all_form m H). Qed.
Lemma bfind W n f fn E vs m k : lookup f (k_funcs bprog) = Some fn -> call W bprog (S n) f E vs m k = invoke W bprog (call W bprog n) n fn E vs m k.
Proof. intros H. cbn [call]. rewrite H. reflexivity. Qed.
Lemma bno W n f vs m k : lookup f (k_funcs bprog) = None -> call W bprog (S n) f [] vs m k = Ask f vs m k.
Proof. intros H. cbn [call]. rewrite H. reflexivity. Qed.
Lemma version_lookup av a : lookup (api_name a) (map (fun a => (api_name a, VInt I16 (av a))) all_apis) = Some (VInt I16 (av a)).
Proof. apply version_at. Qed.
Lemma header_struct W x k c s : int16 k = k -> struct_val W bprog "RequestHeader" [("RequestApiKey", VConst k); ("RequestApiVersion", VInt I16 x); ("CorrelationId", VInt I32 c); ("ClientId", VStr s)]
  = Some (VStruct "RequestHeader" [("RequestApiKey", VInt I16 k); ("RequestApiVersion", VInt I16 x); ("CorrelationId", VInt I32 c); ("ClientId", VStr s)]).
Proof. intros H. rewrite <- H at 2. reflexivity. Qed.

Lemma field_version av a m k : field (versions_val av) (api_name a) m k = k (VInt I16 (av a)) m.
Proof. unfold field, versions_val. rewrite version_at. reflexivity. Qed.
Lemma header_is k x c s : header_of (VStruct "RequestHeader" [("RequestApiKey", VInt I16 k); ("RequestApiVersion", VInt I16 x); ("CorrelationId", VInt I32 c); ("ClientId", VStr s)]) = Some (mkRequestHeader k x c s).
Proof. reflexivity. Qed.
Ltac bsym_in H := cbn -[get put push call encoding struct_val zero_val const_val each rounds switch Z.add Z.sub Z.leb Z.ltb Z.eqb conv wrap int16 int32 add32 chars elements_of map versions_val api_name
  RequestHeader_Size RequestHeader_Encode PutInt32 encoder_replies] in H.
Ltac bgo_in H := bsym_in H; rewrite ?next_push, ?next_put in H; repeat (look_in H; bsym_in H; rewrite ?next_push, ?next_put in H).
Lemma esay m value what vs mm k e f v e' : lookup what (encoder_replies m value) = Some f -> f vs e = Some (v, e') -> encoding m value (Ask what vs mm k) e = encoding m value (k v mm) e'.
Proof. intros H1 H2. cbn [encoding]. rewrite H1, H2. reflexivity. Qed.
Section Text.
Context (W : Z) (m : BrokerTable.method) (value : list (string * val) -> option (c_type (m_req m))).
Notation go := (call W bprog).
Lemma encode_text n b rfs req l E corr mm e : In m all_methods -> sees m mm b rfs l E -> value rfs = Some req ->
  exists mm', encoding m value (go (S (S n)) ("Broker." ++ m_name m ++ ".func1")%string E [the_encoder; VInt I32 corr] mm GoShare.Done) e
    = Some (VTuple [], mm', encode_request m (b_apiVersion b) (chars (f_clientID (b_config b))) req corr e) /\ grows mm mm'.
Proof.
  intros Hm (lq & lb & bw & -> & Lq & Lb & Hq & Hb & Hbw) Hr.
  destruct (form m Hm) as (_ & F1 & _ & Fk & Fi & Fs & Fe & Ns & Ne & _ & _ & Fl).
  destruct Hbw as (lw & cw & cn & -> & Lw & Hw & (dw & -> & _) & _).
  remember (encoding m value (go (S (S n)) ("Broker." ++ m_name m ++ ".func1")%string _ _ mm GoShare.Done) e) as R eqn:ER.
  rewrite (bfind _ _ _ _ _ _ _ _ F1) in ER. unfold invoke, the_func1, version_expr in ER. bsym_in ER. bsym_in Fk. rewrite Fk in ER. bgo_in ER.
  rewrite field_version in ER. bgo_in ER. rewrite header_struct in ER by exact Fi. bgo_in ER.
  rewrite bno in ER by has. erewrite esay in ER; [|reflexivity|cbn -[header_of]; rewrite header_is, Fs; reflexivity]. bgo_in ER.
  rewrite field_version in ER. bgo_in ER.
  rewrite bno in ER by exact Ns. erewrite esay in ER; [|exact (proj1 (Fl _ _ _ _ _ _))|cbn; rewrite String.eqb_refl, Hr; reflexivity]. bgo_in ER.
  erewrite esay in ER; [|reflexivity|reflexivity]. bgo_in ER.
  rewrite bno in ER by has. erewrite esay in ER; [|reflexivity|cbn -[header_of]; rewrite header_is, Fe; reflexivity]. bgo_in ER.
  rewrite field_version in ER. bgo_in ER.
  rewrite bno in ER by exact Ne. erewrite esay in ER; [|exact (proj2 (Fl _ _ _ _ _ _))|cbn; rewrite String.eqb_refl, Hr; reflexivity]. bgo_in ER.
  eexists. split; [exact ER|grown].
Qed.
(** The method: it has Do make the request and returns what is in resp then. *)
Lemma method_text n b bw rfs mm k : In m all_methods -> broker_at mm b bw ->
  exists l E mm1 cw zero kk, go (S (S n)) ("Broker." ++ m_name m)%string [] [bw; VStruct (m_req_name m) rfs] mm k = Ask "Conn.Do" [cw; closure m "func1" E; closure m "func2" E] mm1 kk /\
    grows mm mm1 /\ conn_at mm1 (b_conn b) cw /\ sees m mm1 b rfs l E /\ (next mm <= l < next mm1)%nat /\ zero_val bprog 4 (GNamed (m_resp_name m)) = Some zero /\ get l mm1 = Some zero /\
    forall err mm2 r, (next mm1 <= next mm2)%nat -> is_error err -> get l mm2 = Some (VStruct (m_resp_name m) r) -> exists mm3, kk err mm2 = k (VTuple [VStruct (m_resp_name m) r; err]) mm3 /\ grows mm2 mm3.
Proof.
  intros Hm Hb. destruct (form m Hm) as (F0 & _ & _ & _ & _ & _ & _ & _ & _ & _ & (fs & Fz) & _).
  assert (Hb' := Hb). destruct Hb' as (lw & cw & cn & -> & Lw & Hw & (dw & -> & _) & Hc).
  assert (Hc' := Hc). destruct Hc' as (lc & -> & Lc & Hn). apply conn_struct in Hn. destruct Hn as [cfs Hn].
  remember (go (S (S n)) ("Broker." ++ m_name m)%string _ _ mm k) as X eqn:EX.
  rewrite (bfind _ _ _ _ _ _ _ _ F0) in EX. unfold invoke, the_method in EX. bsym_in EX. rewrite Fz in EX. bgo_in EX.
  rewrite bno in EX by has.
  exists (S (S (next mm))), [("resp", VRef (S (S (next mm)))); ("req", VRef (S (next mm))); ("b", VRef (next mm)); ("{", VNil)]; eexists _, _, _, _.
  split; [exact EX|]. split; [grown|]. split; [eapply conn_grows; [|exact Hc]; grown|].
  split; [|split; [cbn [next push]; lia|split; [exact Fz|split; [look; reflexivity|]]]].
  - eexists _, _, _. split; [reflexivity|]. split; [fin|]. split; [fin|]. split; [repeat look; reflexivity|]. split; [repeat look; reflexivity|]. eapply broker_grows; [|exact Hb]. grown.
  - intros err mm2 r L2 He Hr. rewrite !next_push in L2.
    destruct He as [->|[[x ->]|[x ->]]]; cbn -[get push]; repeat (look; cbn -[get push]); (eexists; split; [reflexivity|grown]).
Qed.
Lemma decode_text n b rfs l E fs d mm k : In m all_methods -> sees m mm b rfs l E -> (l < next mm)%nat -> get l mm = Some (VStruct (m_resp_name m) fs) ->
  exists mm1 kk, go (S (S n)) ("Broker." ++ m_name m ++ ".func2")%string E [VHandle "message.Decoder" d] mm k
      = Ask (m_resp_name m ++ ".Decode") [VRef l; VHandle "message.Decoder" d; VInt I16 (b_apiVersion b (m_v_decode m))] mm1 kk /\ grows mm mm1 /\
    forall err mm2, is_error err -> kk err mm2 = k err mm2.
Proof.
  intros Hm (lq & lb & bw & -> & Lq & Lb & Hq & Hb & Hbw) Ll Hl.
  destruct (form m Hm) as (_ & _ & F2 & _ & _ & _ & _ & _ & _ & Nd & _ & _).
  destruct Hbw as (lw & cw & cn & -> & Lw & Hw & (dw & -> & _) & _).
  remember (go (S (S n)) ("Broker." ++ m_name m ++ ".func2")%string _ _ mm k) as X eqn:EX.
  rewrite (bfind _ _ _ _ _ _ _ _ F2) in EX. unfold invoke, the_func2, version_expr in EX. bgo_in EX. rewrite field_version in EX. bgo_in EX.
  rewrite bno in EX by exact Nd. 
  eexists _, _. split; [exact EX|]. split; [grown|]. intros err mm2 [->|[[x ->]|[x ->]]]; reflexivity.
Qed.
End Text.
