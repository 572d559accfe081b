(** * Property of a connection treated with courtesy: C85 *)
From Verif Require Import GoBase GoLemmas Encoder Decoder Spec SchemaSpec EncProofs Link Msg01 Msg03 Msg04 AllMessages MsgProps BrokerTable Broker BrokerSpec BrokerProofs BufIO
  Conn ConnSpec ConnProofs ConnProps ConnFrames ConnRing ConnRingSpec ConnRingProofs ConnRingProps ConnClose P_Conn P_Framing EndSpec ConnEnd P_End
  OrderlySpec OrderlyProofs OrderlyLive OrderlyBound OrderlyEnd.
From Verif Require Ring RingSpec.
Local Open Scope Z_scope.
Ltac Zify.zify_post_hook ::= idtac.

(** C36 and C66 hold where no Wait of the ring returns too early ([good_step]).  Here is
    what the network, the scheduler and the program have to do for that, in their own
    terms.  The five courtesies ([heeds], OrderlySpec.v): what raw.Read returns is one or
    more whole frames ([Whole]), which fit into the ring ([Room]); the message loop does
    not run while readLoop is storing them ([LoopPauses]); they come while the message
    loop is outside ReadN or waits there ([NetPauses]); nobody calls Close ([Open]).
    [always c raw size cap sched]: every step of the execution heeds [c].  [stream fs]:
    the frames [fs], each after its size.  The library has [size] 5,000,000 and [cap]
    2,000,000. *)

(** ** C85.  The frames the message loop sees are the frames that came, in order, and
    no index leaves the ring's bounds (NetPauses is not needed for this). *)
Theorem C85_frames : forall R raw size cap (sched : list (nlabel R)) s evs, 2 <= size < 2 ^ 31 -> 4 <= cap < 2 ^ 31 -> nexecutes raw size cap sched s evs ->
  (forall c, In c [Whole; Room; LoopPauses; Open] -> always c raw size cap sched) ->
  n_dead s = false /\ all_nsteps good_step (Connect raw size cap) sched /\ exists more, arrived sched = stream (frames evs ++ more).
Proof. exact @orderly_frames. Qed.
Print Assumptions C85_frames.
(** Once bytes stop coming, the two goroutines of the connection make at most 21 moves
    for every byte not yet seen in a frame, and 23 more, whatever the callers do ... *)
Theorem C85_bounded : forall R raw size cap, 2 <= size < 2 ^ 31 -> 4 <= cap < 2 ^ 31 -> forall (sched : list (nlabel R)) s evs, nexecutes raw size cap sched s evs ->
  forall more s' evs', nexecutes raw size cap (sched ++ more) s' evs' ->
  (forall c, In c [Whole; Room; LoopPauses; Open] -> always c raw size cap (sched ++ more)) -> silent more ->
  loop_moves more <= 21 * unseen sched evs + 23.
Proof. exact @moves_bounded. Qed.
Print Assumptions C85_bounded.
(** ... and when none is left that heeds the courtesies, everything has been seen:
    nothing sticks in the ring, and nobody waits for anybody. *)
Theorem C85_delivered : forall R raw size cap (sched : list (nlabel R)) s evs, 2 <= size < 2 ^ 31 -> 4 <= cap < 2 ^ 31 -> nexecutes raw size cap sched s evs ->
  (forall c, In c all_courtesies -> always c raw size cap sched) -> s_crashed (n_conn s) = false -> at_rest all_courtesies size cap sched evs s ->
  consumed s /\ arrived sched = stream (frames evs).
Proof. exact @orderly_delivered. Qed.
Print Assumptions C85_delivered.
(** So a method call whose response came has returned it (C66, where the words are
    explained), unless writing the request failed. *)
Theorem C85_call : forall raw size cap (sched : list (nlabel response)) s evs fs m a av clientID req resp k id,
  2 <= size < 2 ^ 31 -> 4 <= cap < 2 ^ 31 -> nexecutes raw size cap sched s evs -> (forall c, In c all_courtesies -> always c raw size cap sched) ->
  s_crashed (n_conn s) = false -> at_rest all_courtesies size cap sched evs s -> nstep s (LCall k) = None ->
  zlen (ids evs) <= 2 ^ 32 -> solicited evs ->
  In m all_methods -> m_name m = api_name a -> nth_error (calls sched) k = Some (encode_request m av clientID req, decode_any m av) -> In (EId k id) evs ->
  fit (c_schema (m_resp m)) (av a) (c_to (m_resp m) resp) ->
  arrived sched = stream fs -> Forall (fun f => zlen f <= cap) fs -> answers fs id (wires (c_schema (m_resp m)) (av a) (c_to (m_resp m) resp)) -> answered fs id ->
  (exists resp', returns_of k evs = [Reply (Value (existT _ m resp'))] /\
    c_to (m_resp m) resp' = receive (c_schema (m_resp m)) (av a) (zeros (c_schema (m_resp m))) (c_to (m_resp m) resp)) \/
  (exists x, returns_of k evs = [WriteError x] /\ ~ reliable raw).
Proof. exact orderly_call. Qed.
Print Assumptions C85_call.

(** ** Deciding the courtesies of an execution, for the examples. *)
Fixpoint cut (fuel : nat) (bs : list Z) : list (list Z) :=
  match fuel, bs with
  | S fuel, a :: b :: c :: d :: w => let n := Z.to_nat (((a * 256 + b) * 256 + c) * 256 + d) in firstn n w :: cut fuel (skipn n w)
  | _, _ => []
  end.
Definition wholeb (cap : Z) (bs : list Z) : bool :=
  let fs := cut (length bs) bs in
  match fs with [] => false | _ => true end && (if list_eq_dec Z.eq_dec bs (stream fs) then true else false) && forallb (fun f => zlen f <=? cap) fs.
Definition heedsb {R} (c : courtesy) (size cap : Z) (before : list (nlabel R)) (evs : list (event R)) (s : client R) (a : nlabel R) : bool :=
  match c, a with
  | Whole, LNet bs => wholeb cap bs
  | Room, LNet bs => zlen (arrived before ++ bs) - zlen (stream (frames evs)) <=? size - 2
  | LoopPauses, LLoop | LoopPauses, LRing Ring.RStep => match n_rd s with RdWrite => Ring.w_waiting (Ring.g_w (n_ring s)) | _ => true end
  | NetPauses, LNet _ => match Ring.g_r (n_ring s) with Ring.RIdle | Ring.RWait_sel _ => true | _ => false end
  | Open, LClose => false
  | _, _ => true
  end.
Lemma heedsb_ok {R} c size cap before evs (s : client R) a : heedsb c size cap before evs s a = true <-> match c, a with
  | Whole, LNet bs => wholeb cap bs = true | _, _ => heeds c size cap before evs s a end.
Proof.
  destruct c, a as [ | | |b|bs|bs| | ]; cbn [heedsb heeds]; try (split; intros _; exact I || reflexivity); try reflexivity.
  - apply Z.leb_le.
  - destruct (n_rd s); split; auto; try (intros _; left; discriminate). intros [H|H]; [congruence|exact H].
  - destruct b; try (split; intros _; exact I || reflexivity). destruct (n_rd s); split; auto; try (intros _; left; discriminate). intros [H|H]; [congruence|exact H].
  - destruct (Ring.g_r (n_ring s)); cbn; split; auto; try discriminate; intros [H|H]; discriminate.
  - split; [discriminate|contradiction].
Qed.
Lemma wholeb_ok cap bs : wholeb cap bs = true -> exists fs, fs <> [] /\ bs = stream fs /\ Forall (fun f => zlen f <= cap) fs.
Proof.
  unfold wholeb. cbn zeta. intros H. apply andb_true_iff in H. destruct H as [H H3]. apply andb_true_iff in H. destruct H as [H1 H2].
  exists (cut (length bs) bs). split; [intros F; rewrite F in H1; discriminate|]. split; [destruct (list_eq_dec Z.eq_dec bs (stream (cut (length bs) bs))) as [E|E]; [exact E|discriminate]|].
  apply Forall_forall. intros f Hf. rewrite forallb_forall in H3. apply Z.leb_le, H3, Hf.
Qed.
Lemma heedsb_true {R} c size cap before evs (s : client R) a : heedsb c size cap before evs s a = true -> heeds c size cap before evs s a.
Proof. intros H. apply heedsb_ok in H. destruct c; try exact H. destruct a; try exact H. apply wholeb_ok, H. Qed.
Fixpoint heedb {R} (cs : list courtesy) (size cap : Z) (before : list (nlabel R)) (evs : list (event R)) (s : client R) (sched : list (nlabel R)) : bool :=
  match sched with
  | [] => true
  | a :: rest => forallb (fun c => heedsb c size cap before evs s a) cs &&
      match nstep s a with Some (s', e) => heedb cs size cap (before ++ [a]) (evs ++ e) s' rest | None => true end
  end.
Lemma heedb_ok {R} raw cs size cap (sched : list (nlabel R)) : heedb cs size cap [] [] (Connect raw size cap) sched = true -> forall c, In c cs -> always c raw size cap sched.
Proof.
  assert (G : forall (sched : list (nlabel R)) s before evs, heedb cs size cap before evs s sched = true -> forall c, In c cs -> forall pre a post s1 evs1, sched = pre ++ a :: post -> nrun s pre = Some (s1, evs1) ->
    heeds c size cap (before ++ pre) (evs ++ evs1) s1 a).
  { clear sched. induction sched as [|b sched IH]; intros s before evs H c Hc pre a post s1 evs1 E Hr; [destruct pre; discriminate|].
    cbn [heedb] in H. apply andb_true_iff in H. destruct H as [H1 H2]. destruct pre as [|b' pre]; cbn [app] in E; injection E as -> E.
    - cbn in Hr. injection Hr as <- <-. rewrite !app_nil_r. rewrite forallb_forall in H1. apply heedsb_true, H1, Hc.
    - cbn [nrun] in Hr. destruct (nstep s b') as [[s2 e2]|]; [|discriminate]. destruct (nrun s2 pre) as [[s3 e3]|] eqn:E3; [|discriminate]. injection Hr as -> <-.
      specialize (IH s2 (before ++ [b']) (evs ++ e2) H2 c Hc pre a post s1 e3 E E3). rewrite <- !app_assoc in IH. exact IH. }
  intros H c Hc before a after s evs E Hr. exact (G sched _ [] [] H c Hc before a after s evs E Hr).
Qed.
Definition restb {R} (cs : list courtesy) (size cap : Z) (sched : list (nlabel R)) (evs : list (event R)) (s : client R) : bool :=
  forallb (fun a => negb (forallb (fun c => heedsb c size cap sched evs s a) cs) || match nstep s a with Some _ => false | None => true end)
    [LLoop; LRing Ring.WStep; LRing Ring.RStep; LRing Ring.SyncRead; LRing Ring.SyncWrite; LRing Ring.WDone; LRing Ring.RDone].
Lemma restb_ok {R} cs size cap (sched : list (nlabel R)) evs s : restb cs size cap sched evs s = true -> at_rest cs size cap sched evs s.
Proof.
  intros H a Ha Hc. unfold restb in H. rewrite forallb_forall in H.
  assert (G : In a [LLoop; LRing Ring.WStep; LRing Ring.RStep; LRing Ring.SyncRead; LRing Ring.SyncWrite; LRing Ring.WDone; LRing Ring.RDone] -> nstep s a = None).
  { intros Hin. specialize (H a Hin). apply orb_true_iff in H. destruct H as [H|H]; [|destruct (nstep s a); [discriminate|reflexivity]]. exfalso. apply negb_true_iff in H.
    assert (F : forallb (fun c => heedsb c size cap sched evs s a) cs = true); [|congruence]. apply forallb_forall. intros c Hi. apply heedsb_ok. specialize (Hc c Hi). destruct a; try discriminate Ha; destruct c; exact Hc. }
  destruct a as [ | | |b| | | | ]; try discriminate Ha; [apply G; cbn; tauto|]. destruct b; try (apply G; cbn; tauto); unfold nstep; destruct (_ || _); reflexivity.
Qed.
Definition report {R} (cs : list courtesy) size cap sched (p : client R * list (event R)) :=
  (frames (snd p), restb cs size cap sched (snd p) (fst p), (n_dead (fst p), s_crashed (n_conn (fst p)))).
Lemma report_executes {R} raw cs size cap (sched : list (nlabel R)) x : Forall nlegal sched -> option_map (report cs size cap sched) (nrun (Connect raw size cap) sched) = Some x ->
  exists s evs, nexecutes raw size cap sched s evs /\ report cs size cap sched (s, evs) = x.
Proof.
  intros Hl H. destruct (nrun (Connect raw size cap) sched) as [[s evs]|] eqn:E; [|discriminate]. injection H as <-. exists s, evs. repeat split; assumption.
Qed.

(** None of the five can be left out: an execution that heeds the other four, comes to
    rest alive, and something else was seen than came.  The ring has 8 or 16 bytes. *)
Definition others (c : courtesy) : list courtesy := filter (fun c' => match c, c' with
  Whole, Whole | Room, Room | LoopPauses, LoopPauses | NetPauses, NetPauses | Open, Open => false | _, _ => true end) all_courtesies.
(** The message loop waits for a header. *)
Definition waiting : list (nlabel Z) := LLoop :: rsteps 5.
Definition without (c : courtesy) : list (nlabel Z) :=
  match c with
  | Whole =>      (* two bytes come, and are taken for a header *)
      waiting ++ LNet [0;0] :: wsteps 6 ++ LRing Ring.SyncRead :: rsteps 9 ++ LLoop :: rsteps 11 ++ LLoop :: rsteps 8
  | Room =>       (* 12 bytes for a ring of 8: readLoop stores 8 that were not read, and the full ring looks empty *)
      waiting ++ LNet ex_stream :: wsteps 11 ++ LRing Ring.SyncRead :: wsteps 2 ++ rsteps 6 ++ LRing Ring.SyncWrite :: wsteps 7 ++ rsteps 5
  | LoopPauses => (* the frame is seen before readLoop is done; then an empty one, and then the frame again *)
      LNet ex_stream :: wsteps 15 ++ LLoop :: rsteps 20 ++ LLoop :: LLoop :: rsteps 5 ++ wsteps 1 ++ LRing Ring.SyncRead :: rsteps 9 ++ LLoop :: rsteps 20 ++ LLoop :: LLoop :: rsteps 5
  | NetPauses =>  (* the frame comes between the message loop's look at the ring and its wait *)
      LLoop :: rsteps 4 ++ LNet ex_stream :: wsteps 16 ++ rsteps 1
  | Open =>       (* Close between frame and message loop *)
      LNet ex_stream :: wsteps 16 ++ [LClose; LCloser 0; LLoop]
  end.
Definition small (c : courtesy) : Z := match c with Whole | Room => 8 | _ => 16 end.
Theorem C85_needed : forall c, exists s evs, nexecutes good_raw (small c) 16 (without c) s evs /\
  (forall c', In c' (others c) -> always c' good_raw (small c) 16 (without c)) /\
  n_dead s = false /\ s_crashed (n_conn s) = false /\ at_rest (others c) (small c) 16 (without c) evs s /\
  arrived (without c) <> stream (frames evs).
Proof.
  intros c. assert (L : Forall nlegal (without c)) by (apply nlegalb_ok; destruct c; reflexivity).
  assert (H : heedb (others c) (small c) 16 [] [] (Connect good_raw (small c) 16) (without c) = true) by (destruct c; vm_compute; reflexivity).
  assert (E : exists fs, option_map (report (others c) (small c) 16 (without c)) (nrun (Connect good_raw (small c) 16) (without c)) = Some (fs, true, (false, false)) /\
    arrived (without c) <> stream fs).
  { destruct c; (eexists; split; [vm_compute; reflexivity|vm_compute; discriminate]). }
  destruct E as (fs & E & D). destruct (report_executes good_raw _ _ _ _ _ L E) as (s & evs & X & S). exists s, evs. unfold report in S. cbn [fst snd] in S. injection S as A1 A2 A3 A4.
  split; [exact X|]. split; [exact (heedb_ok good_raw _ _ _ _ H)|]. split; [exact A3|]. split; [exact A4|]. split; [apply restb_ok; exact A2|]. rewrite A1. exact D.
Qed.
Print Assumptions C85_needed.

(** A Heartbeat call and its response, in one piece: every hypothesis of the theorems
    above holds.  The response is returned, and 39 moves were made after it came, of at
    most 21 * 10 + 23. *)
Definition hb_before : list (nlabel response) := hb_start ++ [LNet hb_stream].
Definition hb_after : list (nlabel response) := wsteps 14 ++ LRing Ring.SyncRead :: rsteps 16 ++ [LLoop; LLoop; LLoop] ++ rsteps 5 ++ [LCall 0].
Example C85_example : exists s0 evs0 s evs resp',
  nexecutes good_raw 64 16 hb_before s0 evs0 /\ nexecutes good_raw 64 16 (hb_before ++ hb_after) s evs /\
  (forall c, In c all_courtesies -> always c good_raw 64 16 (hb_before ++ hb_after)) /\ silent hb_after /\ loop_moves hb_after = 39 /\ unseen hb_before evs0 = 10 /\
  s_crashed (n_conn s) = false /\ at_rest all_courtesies 64 16 (hb_before ++ hb_after) evs s /\ nstep s (LCall 0) = None /\
  zlen (ids evs) <= 2 ^ 32 /\ solicited evs /\
  In method_Heartbeat all_methods /\ m_name method_Heartbeat = api_name Heartbeat /\
  nth_error (calls (hb_before ++ hb_after)) 0 = Some (encode_request method_Heartbeat no_versions [99] hb_request, decode_any method_Heartbeat no_versions) /\ In (EId 0 1) evs /\
  fit HeartbeatResponse_schema 0 (HeartbeatResponse_to hb_response) /\
  arrived (hb_before ++ hb_after) = stream [be 4 1 ++ [0; 0]] /\
  answers [be 4 1 ++ [0; 0]] 1 (wires HeartbeatResponse_schema 0 (HeartbeatResponse_to hb_response)) /\ answered [be 4 1 ++ [0; 0]] 1 /\
  returns_of 0 evs = [Reply (Value (existT _ method_Heartbeat resp'))] /\ resp' = hb_response.
Proof.
  destruct C66_example as (s & evs & resp' & E & _ & _ & _ & H5 & H6 & _ & H8 & _ & H10 & H11 & H12 & H13 & H14 & H15 & H16 & H17 & _ & _ & H20 & H21).
  assert (Es : hb_one = hb_before ++ hb_after) by reflexivity. rewrite Es in *.
  assert (L0 : Forall nlegal hb_before) by (apply hb_legal; reflexivity).
  edestruct (report_executes good_raw [] 64 16 hb_before) as (s0 & evs0 & E0 & S0); [exact L0|vm_compute; reflexivity|].
  unfold report in S0. cbn [fst snd] in S0. injection S0 as B1 B2 B3 B4.
  assert (R : option_map (report all_courtesies 64 16 (hb_before ++ hb_after)) (nrun (Connect good_raw 64 16) (hb_before ++ hb_after)) = Some ([be 4 1 ++ [0; 0]], true, (false, false))) by (vm_compute; reflexivity).
  destruct (report_executes good_raw _ _ _ _ _ (proj1 E) R) as (s1 & evs1 & E1 & S1). assert (Eq : (s1, evs1) = (s, evs)) by (destruct E as [_ Q1], E1 as [_ Q2]; congruence). injection Eq as -> ->.
  unfold report in S1. cbn [fst snd] in S1. injection S1 as A1 A2 A3 A4.
  exists s0, evs0, s, evs, resp'. split; [exact E0|]. split; [exact E|]. split; [apply heedb_ok; vm_compute; reflexivity|].
  split; [apply Forall_forall; intros a Ha; unfold hb_after in Ha; assert (F : forallb (fun a : nlabel response => match a with LNet _ => false | _ => true end) hb_after = true) by reflexivity;
    rewrite forallb_forall in F; specialize (F a Ha); destruct a; try exact I; discriminate F|].
  split; [reflexivity|]. split; [unfold unseen; rewrite B1; reflexivity|]. split; [exact H8|]. split; [apply restb_ok; exact A2|].
  repeat (split; [assumption|]). split; [reflexivity|]. repeat (split; [assumption|]). assumption.
Qed.
