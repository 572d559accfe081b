(** * Property of a method call as a whole: C66 *)
From Verif Require Import GoBase GoLemmas Encoder Decoder Spec SchemaSpec EncProofs Link Msg01 Msg03 Msg04 AllMessages MsgProps BrokerTable Broker BrokerSpec BrokerProofs BufIO
  Conn ConnSpec ConnProofs ConnProps ConnFrames ConnRing ConnRingSpec ConnRingProofs ConnRingProps ConnClose P_Conn P_Framing EndSpec ConnEnd.
From Verif Require Ring RingSpec.
Local Open Scope Z_scope.
Ltac Zify.zify_post_hook ::= idtac.

(** The words of the statements: [calls sched] are the calls of Do; [parses (arrived
    sched) fs rest] and [incomplete rest]: [fs] are the frames in the bytes the network
    delivered; [answers fs id body]: the frames that carry [id] carry [body];
    [c_to resp] is a response as a list of field values, [fit] says that they are in the
    ranges of their types, [wires] writes them at a version and [receive] is what a
    struct whose fields were zero holds after they were read (the fields of the version
    set, the others zero). *)

(** ** C66.  Full statement: whenever the frames that arrive for the id of a method
    call carry a response of the method's type at the version negotiated, the call
    returns that response:
      nexecutes raw size cap sched s evs -> parses (arrived sched) fs rest -> incomplete rest ->
      In m all_methods -> m_name m = api_name a ->
      nth_error (calls sched) k = Some (encode_request m av clientID req, decode_any m av) -> In (EId k id) evs ->
      fit (c_schema (m_resp m)) (av a) (c_to (m_resp m) resp) ->
      answers fs id (wires (c_schema (m_resp m)) (av a) (c_to (m_resp m) resp)) ->
      (forall r, In (EReturn k (Reply r)) evs -> r is that response) /\
      (answered fs id and nothing left to do -> the call has returned).
    It is false: a Heartbeat call is answered, its response arrives in pieces of 2 and 8
    bytes, everything has been read and nothing can go on, and the call has not returned
    (ring of 64 and receive buffers of 16 bytes). *)
Definition hb_request : HeartbeatRequest := mkHeartbeatRequest [103] 1 [109] [].
Definition hb_response : HeartbeatResponse := mkHeartbeatResponse 0 0.
Definition hb_start : list (nlabel response) :=
  LDo (encode_request method_Heartbeat no_versions [99] hb_request) (decode_any method_Heartbeat no_versions) :: repeat (LCall 0) 6 ++ LLoop :: rsteps 5.
Definition hb_stream : list Z := [0;0;0;6; 0;0;0;1; 0;0].
Definition hb_one : list (nlabel response) :=
  hb_start ++ LNet hb_stream :: wsteps 14 ++ LRing Ring.SyncRead :: rsteps 16 ++ [LLoop; LLoop; LLoop] ++ rsteps 5 ++ [LCall 0].
Definition hb_two : list (nlabel response) := hb_start ++ LNet [0;0] :: wsteps 6 ++ LRing Ring.SyncRead :: rsteps 4 ++
  LNet [0;6; 0;0;0;1; 0;0] :: wsteps 12 ++ rsteps 5 ++ LLoop :: rsteps 13 ++ LLoop :: rsteps 7.

(** The state and events of the examples without the values of type [response], which
    are too big to compute with. *)
Definition erase_result {R} (r : result R) : result unit := match r with WriteError x => WriteError x | Reply (Value _) => Reply (Value tt) | Reply (Failure x) => Reply (Failure x) end.
Definition erase {R} (e : event R) : event unit :=
  match e with
  | ECall k => ECall k | EId k id => EId k id | ERegister k => ERegister k | ELock k => ELock k
  | ESent k bs => ESent k bs | EFlushed k fl => EFlushed k fl | EReturn k r => EReturn k (erase_result r)
  | EFrame raw size => EFrame raw size | EDropped id => EDropped id
  | EReply k (Value _) => EReply k (Value tt) | EReply k (Failure x) => EReply k (Failure x)
  end.
Definition outline {R} (p : client R * list (event R)) :=
  (map erase (snd p), match nstep (fst p) (LCall 0) with None => true | Some _ => false end,
   (n_rd (fst p), RingSpec.occupancy (n_ring (fst p)), Ring.r_waiting (Ring.g_r (n_ring (fst p))), n_dead (fst p), s_crashed (n_conn (fst p)), s_rawclosed (n_conn (fst p)))).
Lemma outline_executes {R} raw size cap (sched : list (nlabel R)) x : Forall nlegal sched -> option_map outline (nrun (Connect raw size cap) sched) = Some x ->
  exists s evs, nexecutes raw size cap sched s evs /\ outline (s, evs) = x.
Proof.
  intros Hl H. destruct (nrun (Connect raw size cap) sched) as [[s evs]|] eqn:E; [|discriminate]. injection H as <-. exists s, evs. repeat split; assumption.
Qed.
Lemma hb_method : In method_Heartbeat all_methods.
Proof. exact (nth_error_In all_methods 12 eq_refl). Qed.
Lemma hb_legal rest : forallb nlegalb rest = true -> Forall nlegal (hb_start ++ rest).
Proof.
  intros H. apply Forall_app. split; [|apply nlegalb_ok, H]. constructor; [|apply nlegalb_ok; reflexivity]. cbn [nlegal].
  intros id. destruct (request_runs method_Heartbeat hb_method no_versions [99] hb_request id) as (cs & H1 & _). exists cs. exact H1.
Qed.
Lemma erase_frame {R} (evs : list (event R)) pre raw size post : evs = pre ++ EFrame raw size :: post ->
  map erase evs = map erase pre ++ EFrame raw size :: map erase post.
Proof. intros ->. rewrite map_app. reflexivity. Qed.
Lemma erase_In {R} (evs : list (event R)) e : In (erase e) (map erase evs) -> match e with EId _ _ | EFrame _ _ => In e evs | _ => True end.
Proof.
  intros H. apply in_map_iff in H. destruct H as (e' & E & H). destruct e; try exact I; destruct e'; cbn in E; try discriminate; try (destruct r; discriminate); injection E as -> ->; exact H.
Qed.
Lemma erase_sent {R} (evs : list (event R)) k : sent_by k (map erase evs) = sent_by k evs.
Proof. unfold sent_by. induction evs as [|e evs IH]; [reflexivity|]. cbn [map flat_map]. rewrite IH. f_equal. destruct e as [| | | | | | |raw size| |k' [r|r]]; reflexivity. Qed.
Lemma erase_solicited {R} (evs : list (event R)) : solicited (map erase evs) -> solicited evs.
Proof.
  intros H pre raw size post id E Hc. destruct (H _ _ _ _ _ (erase_frame _ _ _ _ _ E) Hc) as [(k & H1 & H2) H3]. split.
  - exists k. split; [exact (erase_In pre (EId k id) H1)|]. rewrite <- erase_sent. exact H2.
  - intros raw' size' F. apply H3. apply (in_map erase) in F. exact F.
Qed.
Lemma hb_parses : parses hb_stream [be 4 1 ++ [0; 0]] [].
Proof. exact (parses_frame 6 (be 4 1 ++ [0; 0]) [] [] [] ltac:(unfold is_int32; lia) eq_refl (parses_rest [])). Qed.
Lemma nil_incomplete : incomplete [].
Proof. intros f fs rest H. inversion H. Qed.

Lemma erase_ids {R} (evs : list (event R)) : ids (map erase evs) = ids evs.
Proof. unfold ids. induction evs as [|e evs IH]; [reflexivity|]. cbn [map flat_map]. rewrite IH. f_equal. destruct e as [| | | | | | |raw size| |k' [r|r]]; reflexivity. Qed.
Lemma erase_returns {R} (evs : list (event R)) k : returns_of k (map erase evs) = map erase_result (returns_of k evs).
Proof.
  unfold returns_of. induction evs as [|e evs IH]; [reflexivity|]. cbn [map flat_map]. rewrite IH, map_app. f_equal.
  destruct e as [| | | | | |k' r|raw size| |k' [r|r]]; try reflexivity. cbn [erase]. destruct (Nat.eqb k' k); reflexivity.
Qed.
Lemma hb_answers : answers [be 4 1 ++ [0; 0]] 1 (wires HeartbeatResponse_schema 0 (HeartbeatResponse_to hb_response)).
Proof. intros f tl [<-|[]] E. apply app_inv_head in E. subst tl. exists []. reflexivity. Qed.

Theorem C66_returned_refuted : exists s evs,
  nexecutes good_raw 64 16 hb_two s evs /\ parses (arrived hb_two) [be 4 1 ++ [0; 0]] [] /\ incomplete [] /\ solicited evs /\
  nth_error (calls hb_two) 0 = Some (encode_request method_Heartbeat no_versions [99] hb_request, decode_any method_Heartbeat no_versions) /\ In (EId 0 1) evs /\
  fit HeartbeatResponse_schema 0 (HeartbeatResponse_to hb_response) /\
  answers [be 4 1 ++ [0; 0]] 1 (wires HeartbeatResponse_schema 0 (HeartbeatResponse_to hb_response)) /\ answered [be 4 1 ++ [0; 0]] 1 /\
  reliable good_raw /\ n_dead s = false /\ s_crashed (n_conn s) = false /\ s_rawclosed (n_conn s) = false /\ consumed s /\ nstep s (LCall 0) = None /\
  returns_of 0 evs = [].
Proof.
  edestruct (outline_executes good_raw 64 16 hb_two) as (s & evs & E & S); [apply hb_legal; reflexivity|vm_compute; reflexivity|].
  exists s, evs. unfold outline in S. cbn [fst snd] in S. injection S as A1 A2 A3 A4 A5 A6 A7 A8.
  split; [exact E|]. split; [exact hb_parses|]. split; [exact nil_incomplete|]. split; [|split; [reflexivity|]].
  { apply erase_solicited. rewrite A1. intros pre raw size post id Ep Hc. exfalso. pose proof (carries_long _ _ _ Hc) as L.
    do 6 (destruct pre as [|? pre]; [discriminate|injection Ep as <- Ep]).
    destruct pre as [|? pre]; [injection Ep as <- <- <-; lia|injection Ep as <- Ep].
    destruct pre as [|? pre]; [injection Ep as <- <- <-; lia|injection Ep as <- Ep]. destruct pre; discriminate. }
  split; [apply (erase_In evs (EId 0 1)); rewrite A1; cbn; tauto|]. split; [cbn; unfold is_int32, is_int16; lia|]. split; [exact hb_answers|].
  split; [exists (be 4 1 ++ [0; 0]); split; [left; reflexivity|exists [0; 0]; reflexivity]|]. split; [intros log data; reflexivity|].
  do 3 (split; [assumption|]). split; [split; [rewrite A3; discriminate|split; assumption]|]. split; [destruct (nstep s (LCall 0)); [discriminate|reflexivity]|].
  pose proof (erase_returns evs 0) as F. rewrite A1 in F. cbn in F. destruct (returns_of 0 evs); [reflexivity|discriminate].
Qed.
Print Assumptions C66_returned_refuted.

(** What holds, missing: the executions in which a Wait of the ring returns before the
    rest of the call can go through ([good_step]; that is C27).  For every method,
    version, request, response and number of other callers, in every interleaving: if a
    call returns something other than a write error, it returns the response, ... *)
Theorem C66_returns_partial : forall raw size cap (sched : list (nlabel response)) s evs fs rest m a av clientID req resp k id r,
  2 <= size < 2 ^ 31 -> 4 <= cap -> nexecutes raw size cap sched s evs -> all_nsteps good_step (Connect raw size cap) sched ->
  parses (arrived sched) fs rest -> incomplete rest ->
  In m all_methods -> m_name m = api_name a -> nth_error (calls sched) k = Some (encode_request m av clientID req, decode_any m av) -> In (EId k id) evs ->
  fit (c_schema (m_resp m)) (av a) (c_to (m_resp m) resp) -> answers fs id (wires (c_schema (m_resp m)) (av a) (c_to (m_resp m) resp)) ->
  In (EReturn k (Reply r)) evs ->
  exists resp', r = Value (existT _ m resp') /\
    c_to (m_resp m) resp' = receive (c_schema (m_resp m)) (av a) (zeros (c_schema (m_resp m))) (c_to (m_resp m) resp).
Proof. exact returns_sent. Qed.
Print Assumptions C66_returns_partial.
(** ... and once the response has arrived and everything that arrived has been read,
    the call has returned, exactly once, the response, unless writing failed, which it
    does not on a connection that takes every write and is not closed.  [solicited]:
    the broker answers requests it was sent, once each; at most 2^32 ids were used. *)
Theorem C66_returned_partial : forall raw size cap (sched : list (nlabel response)) s evs fs rest m a av clientID req resp k id,
  2 <= size < 2 ^ 31 -> 4 <= cap -> nexecutes raw size cap sched s evs -> all_nsteps good_step (Connect raw size cap) sched ->
  parses (arrived sched) fs rest -> incomplete rest -> zlen (ids evs) <= 2 ^ 32 -> solicited evs ->
  n_dead s = false -> s_crashed (n_conn s) = false -> consumed s -> nstep s (LCall k) = None ->
  In m all_methods -> m_name m = api_name a -> nth_error (calls sched) k = Some (encode_request m av clientID req, decode_any m av) -> In (EId k id) evs ->
  fit (c_schema (m_resp m)) (av a) (c_to (m_resp m) resp) -> answers fs id (wires (c_schema (m_resp m)) (av a) (c_to (m_resp m) resp)) ->
  answered fs id ->
  (exists resp', returns_of k evs = [Reply (Value (existT _ m resp'))] /\
    c_to (m_resp m) resp' = receive (c_schema (m_resp m)) (av a) (zeros (c_schema (m_resp m))) (c_to (m_resp m) resp)) \/
  (exists x, returns_of k evs = [WriteError x] /\ ~ (reliable raw /\ s_rawclosed (n_conn s) = false)).
Proof. exact returns_answer. Qed.
Print Assumptions C66_returned_partial.
(** The same call with the response in one piece: every hypothesis holds, and the
    Heartbeat response the broker sent is returned. *)
Example C66_example : exists s evs resp',
  nexecutes good_raw 64 16 hb_one s evs /\ all_nsteps good_step (Connect good_raw 64 16) hb_one /\
  parses (arrived hb_one) [be 4 1 ++ [0; 0]] [] /\ incomplete [] /\ zlen (ids evs) <= 2 ^ 32 /\ solicited evs /\
  n_dead s = false /\ s_crashed (n_conn s) = false /\ consumed s /\ nstep s (LCall 0) = None /\
  In method_Heartbeat all_methods /\ m_name method_Heartbeat = api_name Heartbeat /\
  nth_error (calls hb_one) 0 = Some (encode_request method_Heartbeat no_versions [99] hb_request, decode_any method_Heartbeat no_versions) /\ In (EId 0 1) evs /\
  fit HeartbeatResponse_schema 0 (HeartbeatResponse_to hb_response) /\
  answers [be 4 1 ++ [0; 0]] 1 (wires HeartbeatResponse_schema 0 (HeartbeatResponse_to hb_response)) /\ answered [be 4 1 ++ [0; 0]] 1 /\
  reliable good_raw /\ s_rawclosed (n_conn s) = false /\
  returns_of 0 evs = [Reply (Value (existT _ method_Heartbeat resp'))] /\ resp' = hb_response.
Proof.
  edestruct (outline_executes good_raw 64 16 hb_one) as (s & evs & E & S); [apply hb_legal; reflexivity|vm_compute; reflexivity|].
  exists s, evs. unfold outline in S. cbn [fst snd] in S. injection S as A1 A2 A3 A4 A5 A6 A7 A8.
  assert (G : all_nsteps good_step (Connect good_raw 64 16) hb_one) by (apply all_goodb_ok; vm_compute; reflexivity).
  assert (Hi : zlen (ids evs) <= 2 ^ 32) by (rewrite <- erase_ids, A1; discriminate).
  assert (Hs : solicited evs).
  { apply erase_solicited. rewrite A1. intros pre raw size post id Ep Hc.
    do 6 (destruct pre as [|? pre]; [discriminate|injection Ep as <- Ep]).
    destruct pre as [|? pre]; [injection Ep as <- <- _|exfalso; injection Ep as <- Ep; do 2 (destruct pre as [|? pre]; [discriminate|injection Ep as <- Ep]); destruct pre; discriminate].
    assert (id = 1). { refine (carries_unique _ 6 id 1 Hc _). split; [unfold is_int32; lia|]. split; [vm_compute; discriminate|]. exists [0; 0]. reflexivity. }
    subst id. split; [exists 0%nat; cbn; split; [tauto|discriminate]|]. cbn. intros ? ? Hin. repeat (destruct Hin as [Hin|Hin]; [discriminate|]). destruct Hin. }
  assert (Hq : consumed s) by (split; [rewrite A3; discriminate|split; assumption]).
  assert (Hst : nstep s (LCall 0) = None) by (destruct (nstep s (LCall 0)); [discriminate|reflexivity]).
  assert (Hid : In (EId 0 1) evs) by (apply (erase_In evs (EId 0 1)); rewrite A1; cbn; tauto).
  assert (Hf : fit HeartbeatResponse_schema 0 (HeartbeatResponse_to hb_response)) by (cbn; unfold is_int32, is_int16; lia).
  assert (Ha : answered [be 4 1 ++ [0; 0]] 1) by (exists (be 4 1 ++ [0; 0]); split; [left; reflexivity|exists [0; 0]; reflexivity]).
  assert (Hr : reliable good_raw) by (intros log data; reflexivity).
  destruct (C66_returned_partial good_raw 64 16 hb_one s evs _ _ method_Heartbeat Heartbeat no_versions [99] hb_request hb_response 0 1
    ltac:(lia) ltac:(lia) E G hb_parses nil_incomplete Hi Hs A6 A7 Hq Hst hb_method eq_refl eq_refl Hid Hf hb_answers Ha) as [(resp' & R1 & R2)|(x & _ & R2)];
    [|exfalso; exact (R2 (conj Hr A8))].
  exists resp'. split; [exact E|]. split; [exact G|]. split; [exact hb_parses|]. split; [exact nil_incomplete|]. split; [exact Hi|]. split; [exact Hs|].
  split; [exact A6|]. split; [exact A7|]. split; [exact Hq|]. split; [exact Hst|]. split; [exact hb_method|]. split; [reflexivity|]. split; [reflexivity|].
  split; [exact Hid|]. split; [exact Hf|]. split; [exact hb_answers|]. split; [exact Ha|]. split; [exact Hr|]. split; [exact A8|]. split; [exact R1|].
  destruct resp' as [x y]. cbn in R2. injection R2 as -> ->. reflexivity.
Qed.
