(** * C80: a method call is a remote procedure call *)
From Verif Require Import GoBase GoLemmas Encoder Decoder Sizeof Spec SchemaSpec EncProofs DecProofs Link Msg01 Msg03 Msg04 AllMessages MsgProofs MsgProps BrokerTable Broker BrokerSpec BrokerProofs BufIO
  Conn ConnSpec ConnProofs ConnProps ConnFrames ConnRing ConnRingSpec EndSpec ConnEnd P_Conn P_Framing P_End ServeSpec ServeProofs.
Local Open Scope Z_scope.
Ltac Zify.zify_post_hook ::= idtac.

(** [makes sched os]: the calls of the schedule are the method calls [os], any number,
    methods, versions and requests, from any number of goroutines in any interleaving,
    over any connection.

    A broker that takes the stream it gets apart, frame by frame, finds in the n-th
    frame exactly the request of the call that took the mutex as the n-th one: its
    method, version, id, client name and request.  A rest that is no frame yet is left
    only while a call is sending or after a Write has failed. *)
Theorem C80_broker_reads : forall raw cap sched s evs os, 4 <= cap -> executes raw cap sched s evs -> makes sched os -> Forall sendable os ->
  exists fs rest, parses (wire evs) fs rest /\ incomplete rest /\ (length fs <= length (locks evs))%nat /\
    Forall2 (reads_call os evs) (firstn (length fs) (locks evs)) fs /\
    (s_lock s = None -> b_err (s_buf s) = None -> length fs = length (locks evs) /\ rest = []).
Proof. exact broker_reads. Qed.
Print Assumptions C80_broker_reads.

(** If the broker answers what it has read by [F], in any order and at any time
    ([served F (wire evs) g]: the frame [g] is an answer allowed by [F] to a request in
    the stream; frames with other ids may say anything), then every call that returns
    without an error returns an answer of [F] to its own request. *)
Theorem C80_call : forall raw cap sched s evs os, 4 <= cap -> executes raw cap sched s evs -> makes sched os -> Forall sendable os ->
  forall F, zlen (ids evs) <= 2 ^ 32 ->
  (forall g id tl, In g (frames evs) -> g = be 4 id ++ tl -> In id (ids evs) -> served F (wire evs) g) ->
  forall k r, In (EReturn k (Reply r)) evs ->
  exists o id q p p', nth_error os k = Some o /\ In (EId k id) evs /\ asked o q /\ F (header_of o id) q p /\ received (o_version o) p p' /\ r = Value p'.
Proof. exact call_answered. Qed.
Print Assumptions C80_call.

(** The same for the whole client, with readLoop, the ring buffer and Close, whatever
    these do ([orders] is [makes] for its schedules). *)
Theorem C80_client_reads : forall raw size cap sched s evs os, 4 <= cap -> nexecutes raw size cap sched s evs -> orders sched os -> Forall sendable os ->
  exists fs rest, parses (wire evs) fs rest /\ incomplete rest /\ (length fs <= length (locks evs))%nat /\
    Forall2 (reads_call os evs) (firstn (length fs) (locks evs)) fs /\
    (s_lock (n_conn s) = None -> b_err (s_buf (n_conn s)) = None -> length fs = length (locks evs) /\ rest = []).
Proof. exact client_reads. Qed.
Print Assumptions C80_client_reads.

(** The answers to calls of the whole client; [parses (arrived sched) fs rest] and
    [incomplete rest]: [fs] are the frames in the bytes the network delivered.  Missing,
    as in C66 (P_End.v, with the full statement and its refutation): the executions in
    which a Wait of the ring returns before the rest of the call can go through. *)
Theorem C66_call_partial : forall raw size cap sched s evs os, 4 <= cap -> nexecutes raw size cap sched s evs -> orders sched os -> Forall sendable os ->
  forall F fs rest, 2 <= size < 2 ^ 31 -> all_nsteps good_step (Connect raw size cap) sched -> zlen (ids evs) <= 2 ^ 32 ->
  parses (arrived sched) fs rest -> incomplete rest ->
  (forall g id tl, In g fs -> g = be 4 id ++ tl -> In id (ids evs) -> served F (wire evs) g) ->
  forall k r, In (EReturn k (Reply r)) evs ->
  exists o id q p p', nth_error os k = Some o /\ In (EId k id) evs /\ asked o q /\ F (header_of o id) q p /\ received (o_version o) p p' /\ r = Value p'.
Proof. exact client_answered. Qed.
Print Assumptions C66_call_partial.

(** ** Two Heartbeats answered in the other order by a broker that sends back the
    generation as error code. *)
Definition beat (generation : Z) : order :=
  mkOrder method_Heartbeat Heartbeat no_versions [99] (mkHeartbeatRequest [103] generation [109] []).
Definition echo : service := fun h q p => exists r, q = existT _ method_Heartbeat r /\
  p = existT (fun m => c_type (m_resp m)) method_Heartbeat (mkHeartbeatResponse 0 (HeartbeatRequest_GenerationId r)).
Definition beats : list order := [beat 7; beat 8].
Definition beat_call (o : order) : clabel response := DoCall (o_encode o) (decode_any (o_method o) (o_versions o)).
Definition ex_beats : list (clabel response) := [beat_call (beat 7); beat_call (beat 8);
  CStep 1; CStep 0; CStep 0; CStep 1; CStep 1; CStep 1; CStep 1; CStep 1; CStep 0; CStep 0; CStep 0; CStep 0;
  MStep; MRead [0;0;0;6]; MRead [0;0;0;2; 0;7]; MStep; MStep; CStep 0;
  MStep; MRead [0;0;0;6]; MRead [0;0;0;1; 0;8]; MStep; MStep; CStep 1].
Definition contour {R} (p : conn R * list (event R)) := (map erase (snd p), s_lock (fst p), b_err (s_buf (fst p))).
Lemma contour_executes {R} raw cap (sched : list (clabel R)) x : Forall legal sched -> option_map contour (crun (Connected raw cap) sched) = Some x ->
  exists s evs, executes raw cap sched s evs /\ contour (s, evs) = x.
Proof.
  intros Hl H. destruct (crun (Connected raw cap) sched) as [[s evs]|] eqn:E; [|discriminate]. injection H as <-. exists s, evs. repeat split; assumption.
Qed.
Lemma beat_legal g : legal (beat_call (beat g)).
Proof. intros id. destruct (request_runs method_Heartbeat hb_method no_versions [99] (o_req (beat g)) id) as (cs & H & _). exists cs. exact H. Qed.
Lemma beat_sendable g : is_int32 g -> sendable (beat g).
Proof.
  intros Hg. split; [exact hb_method|]. split; [reflexivity|]. split; [unfold is_int16, o_version, beat; cbn [o_versions o_api no_versions]; unfold no_versions; lia|]. split; [reflexivity|]. split.
  - cbn. unfold is_int32 in *. repeat split; lia.
  - intros id bytes E. destruct (request_frame method_Heartbeat hb_method) as (a & lo & hi & _ & Ea & _ & Hin & F).
    destruct (F no_versions [99] (o_req (beat g)) id) as (body & Eb & E'). cbn zeta in E'. pose proof (Emits_inj _ _ _ E E') as ->.
    pose proof (Emits_inj _ _ _ Eb (linked_emits _ (codec_linked _ _ Hin) (no_versions a) (o_req (beat g)))) as ->.
    rewrite !zlen_app, !zlen_be. cbn. lia.
Qed.
Lemma erase_wire {R} (evs : list (event R)) : wire (map erase evs) = wire evs.
Proof. unfold wire. induction evs as [|e evs IH]; [reflexivity|]. cbn [map flat_map]. rewrite IH. f_equal. destruct e as [| | | | | | |raw size| |k' [r|r]]; reflexivity. Qed.
Lemma erase_locks {R} (evs : list (event R)) : locks (map erase evs) = locks evs.
Proof. unfold locks. induction evs as [|e evs IH]; [reflexivity|]. cbn [map flat_map]. rewrite IH. f_equal. destruct e as [| | | | | | |raw size| |k' [r|r]]; reflexivity. Qed.
Lemma erase_frames {R} (evs : list (event R)) : frames (map erase evs) = frames evs.
Proof. unfold frames. induction evs as [|e evs IH]; [reflexivity|]. cbn [map flat_map]. rewrite IH. f_equal. destruct e as [| | | | | | |raw size| |k' [r|r]]; reflexivity. Qed.
Example C80_example : exists s evs r0 r1, executes good_raw 16 ex_beats s evs /\ makes ex_beats beats /\ Forall sendable beats /\ zlen (ids evs) <= 2 ^ 32 /\
  (forall g id tl, In g (frames evs) -> g = be 4 id ++ tl -> In id (ids evs) -> served echo (wire evs) g) /\
  In (EReturn 0 (Reply r0)) evs /\ In (EReturn 1 (Reply r1)) evs /\ locks evs = [1%nat; 0%nat] /\ frames evs = [be 4 2 ++ [0; 7]; be 4 1 ++ [0; 8]].
Proof.
  edestruct (contour_executes good_raw 16 ex_beats) as (s & evs & E & S); [|vm_compute; reflexivity|].
  { unfold ex_beats. do 2 (constructor; [apply beat_legal|]). repeat (apply Forall_cons || apply Forall_nil); cbn [legal]; try exact I; repeat (apply Forall_cons || apply Forall_nil); unfold is_byte; lia. }
  unfold contour in S. cbn [fst snd] in S. injection S as A1 A2 A3.
  assert (Hs : Forall sendable beats) by (do 2 (apply Forall_cons; [apply beat_sendable; unfold is_int32; lia|]); apply Forall_nil).
  assert (Hl : locks evs = [1%nat; 0%nat]) by (rewrite <- erase_locks, A1; reflexivity).
  assert (Hfr : frames evs = [be 4 2 ++ [0; 7]; be 4 1 ++ [0; 8]]) by (rewrite <- erase_frames, A1; reflexivity).
  assert (Hr : forall k, (k < 2)%nat -> exists r, In (EReturn k (Reply r)) evs).
  { intros k Hk.
    assert (F : In (EReturn k (Reply (Value tt))) (map erase evs)) by (rewrite A1; destruct k as [|[|k]]; [cbn; tauto|cbn; tauto|lia]).
    apply in_map_iff in F. destruct F as (e & F1 & F2). destruct e as [| | | | | |k' [x|[p|x]]|raw size| |k' [r|r]]; try discriminate F1. injection F1 as ->. eauto. }
  destruct (Hr 0%nat ltac:(lia)) as [r0 R0]. destruct (Hr 1%nat ltac:(lia)) as [r1 R1]. exists s, evs, r0, r1.
  split; [exact E|]. split; [reflexivity|]. split; [exact Hs|]. split; [rewrite <- erase_ids, A1; vm_compute; discriminate|]. split; [|auto].
  destruct (broker_reads good_raw 16 ex_beats s evs beats ltac:(lia) E eq_refl Hs) as (fs & rest & P1 & P2 & _ & P3 & P4).
  destruct (P4 A2 A3) as [L ->]. rewrite Hl in P3, L. rewrite L in P3. cbn [length firstn] in P3.
  inversion P3 as [|? f1 ? ? Q1 P5]; subst. inversion P5 as [|? f0 ? ? Q0 P6]; subst. inversion P6; subst. clear P3 P5 P6 L.
  assert (G : forall k f g id, reads_call beats evs k f -> In f [f1; f0] -> nth_error beats k = Some (beat g) -> In (EId k id) evs -> is_int16 g ->
    served echo (wire evs) (be 4 id ++ be 2 g)).
  { intros k f g id (o & id' & q & U1 & U2 & (r & -> & U3) & U4) Hin Ho Hid Hg. rewrite Ho in U1. injection U1 as <-.
    assert (id' = id) by (exact (one_id _ _ _ _ _ _ (cinv good_raw 16 ex_beats s evs ltac:(lia) E) U2 Hid)). subst id'.
    exists [f1; f0], [], f, (header_of (beat g) id), (existT _ method_Heartbeat r), method_Heartbeat, (mkHeartbeatResponse 0 g).
    split; [exact P1|]. split; [exact Hin|]. split; [exact U4|]. split; [reflexivity|]. split.
    - exists r. split; [reflexivity|]. do 2 f_equal. symmetry. exact (f_equal (fun x : dens HeartbeatRequest_schema => fst (snd x)) U3).
    - split; [cbn; unfold is_int32, is_int16 in *; lia|]. reflexivity. }
  intros g id tl Hg Eg _. rewrite Hfr in Hg.
  destruct Hg as [<-|[<-|[]]].
  - change [0; 7] with (be 2 7). apply (G 0%nat f0 7 2 Q0); [right; left; reflexivity|reflexivity|exact (erase_In evs (EId 0 2) ltac:(rewrite A1; cbn; tauto))|unfold is_int16; lia].
  - change [0; 8] with (be 2 8). apply (G 1%nat f1 8 1 Q1); [left; reflexivity|reflexivity|exact (erase_In evs (EId 1 1) ltac:(rewrite A1; cbn; tauto))|unfold is_int16; lia].
Qed.

(** The call of C66_example, as an order; the broker answers it. *)
Definition hb_order : order := mkOrder method_Heartbeat Heartbeat no_versions [99] hb_request.
Definition content : service := fun h q p => p = existT (fun m => c_type (m_resp m)) method_Heartbeat hb_response.
Example C66_call_example : exists s evs r, nexecutes good_raw 64 16 hb_one s evs /\ orders hb_one [hb_order] /\ Forall sendable [hb_order] /\
  all_nsteps good_step (Connect good_raw 64 16) hb_one /\ zlen (ids evs) <= 2 ^ 32 /\ parses (arrived hb_one) [be 4 1 ++ [0; 0]] [] /\ incomplete [] /\
  (forall g id tl, In g [be 4 1 ++ [0; 0]] -> g = be 4 id ++ tl -> In id (ids evs) -> served content (wire evs) g) /\ In (EReturn 0 (Reply r)) evs.
Proof.
  edestruct (outline_executes good_raw 64 16 hb_one) as (s & evs & E & S); [apply hb_legal; reflexivity|vm_compute; reflexivity|].
  unfold outline in S. cbn [fst snd] in S. injection S as A1 _ _ _ _ _ _ _.
  assert (Hs : Forall sendable [hb_order]) by (apply Forall_cons; [apply (beat_sendable 1); unfold is_int32; lia|apply Forall_nil]).
  assert (Hr : exists r, In (EReturn 0 (Reply r)) evs).
  { assert (F : In (EReturn 0 (Reply (Value tt))) (map erase evs)) by (rewrite A1; cbn; tauto).
    apply in_map_iff in F. destruct F as (e & F1 & F2). destruct e as [| | | | | |k' [x|[p|x]]|raw size| |k' [r|r]]; try discriminate F1. injection F1 as ->. eauto. }
  destruct Hr as [r Hr]. exists s, evs, r. split; [exact E|]. split; [reflexivity|]. split; [exact Hs|].
  split; [apply all_goodb_ok; vm_compute; reflexivity|]. split; [rewrite <- erase_ids, A1; discriminate|]. split; [exact hb_parses|]. split; [exact nil_incomplete|].
  split; [|exact Hr]. intros g id tl [<-|[]] _ _.
  destruct (client_reads good_raw 64 16 hb_one s evs [hb_order] ltac:(lia) E eq_refl Hs) as (fs & rest & P1 & P2 & _ & P3 & _).
  assert (Hl : locks evs = [0%nat]) by (rewrite <- erase_locks, A1; reflexivity). rewrite Hl in P3.
  assert (Hw : exists f, parses (wire evs) [f] []).
  { rewrite <- erase_wire, A1. eexists. match goal with |- parses ?w _ _ => let w' := eval vm_compute in w in change w with w' end.
    match goal with |- parses (?a :: ?b :: ?c :: ?d :: ?f) _ _ => let n := eval vm_compute in (zlen f) in
      change (a :: b :: c :: d :: f) with (be 4 n ++ f ++ []); apply (parses_frame n f [] [] []); [unfold is_int32; lia|reflexivity|apply parses_rest] end. }
  destruct Hw as [f Hw]. destruct (parses_complete_unique _ _ _ _ _ P1 P2 Hw nil_incomplete) as [-> ->]. cbn [length firstn] in P3.
  inversion P3 as [|? ? ? ? (o & id' & q & U1 & U2 & (rq & -> & U3) & U4) _]; subst. injection U1 as <-.
  assert (id' = 1). { apply in_map with (f := erase) in U2. rewrite A1 in U2. cbn in U2. repeat (destruct U2 as [U2|U2]; [try discriminate U2; try (injection U2 as <-; reflexivity)|]). destruct U2. }
  subst id'. exists [f], [], f, (header_of hb_order 1), (existT _ method_Heartbeat rq), method_Heartbeat, hb_response.
  split; [exact P1|]. split; [left; reflexivity|]. split; [exact U4|]. split; [reflexivity|]. split; [reflexivity|]. split; [cbn; unfold is_int32, is_int16; lia|reflexivity].
Qed.
