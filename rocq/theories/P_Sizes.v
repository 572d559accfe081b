(** * C77: the counterexamples do not depend on the small buffers they are written in *)
From Coq Require Import String.
From Verif Require Import GoBase GoLemmas Encoder Decoder Spec SchemaSpec EncProofs DecProofs Link Msg01 Msg02 Msg03 Msg04 AllMessages MsgProofs MsgProps BrokerTable Broker BrokerSpec BrokerProofs BufIO
  Conn ConnSpec ConnProofs ConnProps ConnFrames ConnRing ConnRingSpec ConnRingProofs ConnRingProps ConnClose P_Conn P_Framing P_ConnLife P_Table EndSpec ConnEnd P_End ConnRaceSpec P_ConnRace
  SizesSpec SizesProofs.
From Verif Require Ring RingSpec.
Local Open Scope Z_scope.
Local Open Scope list_scope.
Ltac Zify.zify_post_hook ::= idtac.

(** What a connection does with a ring of [size] and receive buffers of [cap] bytes it
    does, with the same schedule, with all larger ones, as long as the positions in the ring
    stay short of its end ([never_wraps]) and the DecodeFuncs look at nothing but the frame
    ([Local], as those of the library do: C12_messages_local).  The larger buffers
    hold the same and, behind it, zeros. *)
Theorem C77_larger : forall R raw size cap size' cap' (sched : list (nlabel R)) s evs,
  0 <= size <= size' -> size' < 2 ^ 31 -> 4 <= cap <= cap' ->
  nexecutes raw size cap sched s evs -> never_wraps raw size cap sched -> Forall (fun c => Local (snd c)) (calls sched) ->
  nexecutes raw size' cap' sched
    (larger_client size' cap' (repeat 0 (Z.to_nat (size' - size))) (repeat 0 (Z.to_nat (cap' - cap))) s)
    (map (larger_event (repeat 0 (Z.to_nat (cap' - cap)))) evs).
Proof. exact @larger_executes. Qed.
Print Assumptions C77_larger.
(** So everything a caller, the broker and the reader of the stream can see is the same. *)
Theorem C77_seen : forall R raw size cap size' cap' (sched : list (nlabel R)) s evs,
  0 <= size <= size' -> size' < 2 ^ 31 -> 4 <= cap <= cap' ->
  nexecutes raw size cap sched s evs -> never_wraps raw size cap sched -> Forall (fun c => Local (snd c)) (calls sched) ->
  exists s' evs', nexecutes raw size' cap' sched s' evs' /\ frames evs' = frames evs /\ ids evs' = ids evs /\ wire evs' = wire evs /\
    (forall k, returns_of k evs' = returns_of k evs) /\ s_calls (n_conn s') = s_calls (n_conn s) /\
    n_rd s' = n_rd s /\ n_closers s' = n_closers s /\ n_dead s' = n_dead s /\ s_crashed (n_conn s') = s_crashed (n_conn s).
Proof.
  intros R raw size cap size' cap' sched s evs H1 H2 H3 H Hs HL. eexists. eexists. split; [exact (larger_executes raw size cap size' cap' sched s evs H1 H2 H3 H Hs HL)|].
  split; [eapply frames_of; [|exact H]; lia|]. split; [apply ids_larger|]. split; [apply wire_larger|]. split; [intros k; apply returns_larger|].
  split; [reflexivity|]. split; [reflexivity|]. split; [reflexivity|]. split; reflexivity.
Qed.
Print Assumptions C77_seen.
(** Without the ring (Conn.v) nothing has to be assumed about it. *)
Theorem C77_callers : forall R raw cap cap' (sched : list (clabel R)) s evs, 4 <= cap <= cap' -> executes raw cap sched s evs ->
  Forall (fun a => match a with DoCall _ dec => Local dec | MReadPanic => False | _ => True end) sched ->
  executes raw cap' sched (larger_conn cap' (repeat 0 (Z.to_nat (cap' - cap))) s) (map (larger_event (repeat 0 (Z.to_nat (cap' - cap)))) evs).
Proof. exact @larger_executes_conn. Qed.
Print Assumptions C77_callers.

(** ** The counterexamples in rings and receive buffers of any larger size, among them
    those of the library (5,000,000 and 2,000,000) *)
Fixpoint all_ringsb {R} (P : Ring.ring -> bool) (s : client R) (sched : list (nlabel R)) : bool :=
  match sched with
  | [] => true
  | a :: rest => P (n_ring s) && match nstep s a with Some (s', _) => all_ringsb P s' rest | None => true end
  end.
Lemma all_ringsb_ok {R} P (sched : list (nlabel R)) : forall s, all_ringsb P s sched = true -> all_nsteps (fun s _ => P (n_ring s) = true) s sched.
Proof.
  induction sched as [|a sched IH]; intros s H; [exact I|]. cbn [all_ringsb all_nsteps] in *. apply andb_true_iff in H. destruct H as [H1 H2].
  split; [exact H1|]. destruct (nstep s a) as [[s' e]|]; [apply IH, H2|exact I].
Qed.
Definition zs (n m : Z) : list Z := repeat 0 (Z.to_nat (n - m)).
Definition large {R} (size cap : Z) (s : client R) : client R := larger_client size cap (zs size 64) (zs cap 16) s.
Definition large_ev {R} (cap : Z) (evs : list (event R)) : list (event R) := map (larger_event (zs cap 16)) evs.
Lemma in_large (sched : list (nlabel Z)) x size cap : Forall nlegal sched -> Forall (fun c => Local (snd c)) (calls sched) ->
  option_map summary (nrun (Connect good_raw 64 16) sched) = Some x -> all_ringsb short (Connect good_raw 64 16) sched = true ->
  64 <= size < 2 ^ 31 -> 16 <= cap ->
  exists s evs, nexecutes good_raw 64 16 sched s evs /\ nexecutes good_raw size cap sched (large size cap s) (large_ev cap evs) /\ summary (s, evs) = x /\
    frames (large_ev cap evs) = frames evs.
Proof.
  intros Hl HL Hx Hs H1 H2. destruct (summary_executes good_raw 64 16 sched x Hl Hx) as (s & evs & E & S). exists s, evs. split; [exact E|].
  split; [|split; [exact S|eapply frames_of; [|exact E]; lia]].
  exact (larger_executes good_raw 64 16 size cap sched s evs ltac:(lia) ltac:(lia) ltac:(lia) E (all_ringsb_ok _ _ _ Hs) HL).
Qed.
Lemma ex_local rest : calls (R := Z) rest = [] -> Forall (fun c => Local (snd c)) (calls (LDo ex_enc dInt32 :: rest)).
Proof. intros H. unfold calls in *. cbn [flat_map app]. rewrite H. constructor; [apply Local_int32|constructor]. Qed.
Lemma large_drained {R} size cap (s : client R) : n_rd s = RdRead -> Ring.g_next (n_ring s) = Ring.g_start (n_ring s) ->
  Ring.r_waiting (Ring.g_r (n_ring s)) = true -> drained (large size cap s).
Proof.
  intros H1 H2 H3. split; [exact H1|]. split.
  - unfold RingSpec.occupancy. cbn. rewrite H2, Z.sub_diag. apply Zmod_0_l.
  - cbn. rewrite larger_waiting. exact H3.
Qed.
Lemma large_consumed {R} size cap (s : client R) : n_rd s <> RdWrite -> Ring.g_next (n_ring s) = Ring.g_start (n_ring s) ->
  Ring.r_waiting (Ring.g_r (n_ring s)) = true -> consumed (large size cap s).
Proof.
  intros H1 H2 H3. split; [exact H1|]. split.
  - unfold RingSpec.occupancy. cbn. rewrite H2, Z.sub_diag. apply Zmod_0_l.
  - cbn. rewrite larger_waiting. exact H3.
Qed.
Definition places {R} (p : client R * list (event R)) := (Ring.g_next (n_ring (fst p)), Ring.g_start (n_ring (fst p)), Ring.g_w (n_ring (fst p))).
Lemma places_of {R} raw size cap (sched : list (nlabel R)) s evs x : nexecutes raw size cap sched s evs -> option_map places (nrun (Connect raw size cap) sched) = Some x ->
  places (s, evs) = x.
Proof. intros [_ H] E. rewrite H in E. cbn in E. injection E as <-. reflexivity. Qed.

(** C36: how the response is cut decides what is seen of it. *)
Theorem C36_any_size_refuted : forall size cap, 64 <= size < 2 ^ 31 -> 16 <= cap -> exists s1 evs1 s2 evs2,
  nexecutes good_raw size cap ex_one s1 evs1 /\ nexecutes good_raw size cap ex_two s2 evs2 /\
  arrived ex_one = ex_stream /\ arrived ex_two = ex_stream /\ drained s1 /\ drained s2 /\ n_dead s1 = false /\ n_dead s2 = false /\
  frames evs1 = [[0;0;0;1; 0;0;0;7]] /\ returns_of 0 evs1 = [Reply (Value 7)] /\
  frames evs2 = [[]; [0]] /\ returns_of 0 evs2 = [] /\ waits (n_conn s2) 0.
Proof.
  intros size cap H1 H2.
  edestruct (in_large ex_one) as (s1 & evs1 & E1 & L1 & S1 & F1); [apply ex_start_legal; reflexivity|apply ex_local; reflexivity|vm_compute; reflexivity|vm_compute; reflexivity|exact H1|exact H2|].
  edestruct (in_large ex_two) as (s2 & evs2 & E2 & L2 & S2 & F2); [apply ex_start_legal; reflexivity|apply ex_local; reflexivity|vm_compute; reflexivity|vm_compute; reflexivity|exact H1|exact H2|].
  pose proof (places_of _ _ _ _ _ _ _ E1 ltac:(vm_compute; reflexivity)) as P1. pose proof (places_of _ _ _ _ _ _ _ E2 ltac:(vm_compute; reflexivity)) as P2.
  unfold summary in S1, S2. unfold places in P1, P2. cbn [fst snd] in *. injection S1 as A1 A2 A3 A4 A5 A6 A7 A8 A9 A10 A11 A12 A13. injection S2 as B1 B2 B3 B4 B5 B6 B7 B8 B9 B10 B11 B12 B13.
  injection P1 as P1 P1' P1''. injection P2 as P2 P2' P2''.
  eexists. eexists. eexists. eexists. split; [exact L1|]. split; [exact L2|]. split; [reflexivity|]. split; [reflexivity|].
  split; [apply large_drained; [assumption|congruence|assumption]|]. split; [apply large_drained; [assumption|congruence|assumption]|].
  split; [exact A7|]. split; [exact B7|]. rewrite F1, F2. split; [exact A1|]. split; [unfold large_ev; rewrite returns_larger; exact A2|]. split; [exact B1|].
  split; [unfold large_ev; rewrite returns_larger; exact B2|]. exact (is_waiting_waits (n_conn s2) 0 B3).
Qed.
Print Assumptions C36_any_size_refuted.
Theorem C36_own_piece_any_size_refuted : forall size cap, 64 <= size < 2 ^ 31 -> 16 <= cap -> exists s evs, nexecutes good_raw size cap ex_own s evs /\
  pieces ex_own = [be 4 8 ++ [0;0;0;1; 0;0;0;7]] /\ n_dead s = false /\ returns_of 0 evs = [Reply (Value 7)] /\
  frames evs = [[0;0;0;1; 0;0;0;7]; []].
Proof.
  intros size cap H1 H2.
  edestruct (in_large ex_own) as (s & evs & E & L & S & F); [|apply ex_local; reflexivity|vm_compute; reflexivity|vm_compute; reflexivity|exact H1|exact H2|].
  { constructor; [cbn; intros id; exists [be 4 id]; apply Runs_PutInt32|]. apply nlegalb_ok. reflexivity. }
  unfold summary in S. cbn [fst snd] in S. injection S as A1 A2 A3 A4 A5 A6 A7 A8 A9 A10 A11 A12 A13.
  eexists. eexists. split; [exact L|]. split; [reflexivity|]. split; [exact A7|]. split; [unfold large_ev; rewrite returns_larger; exact A2|]. rewrite F. exact A1.
Qed.
Print Assumptions C36_own_piece_any_size_refuted.

(** C38: the connection is lost, or closed, and the call waits for ever. *)
Theorem C38_lost_any_size_refuted : forall size cap, 64 <= size < 2 ^ 31 -> 16 <= cap ->
  exists s evs, nexecutes good_raw size cap (ex_start ++ [LNetErr []]) s evs /\ waits (n_conn s) 0 /\
  forall sched s' evs', Forall nlegal sched -> ~ In LClose sched -> nrun s sched = Some (s', evs') -> returns_of 0 evs' = [] /\ nstep s' (LCall 0) = None.
Proof.
  intros size cap H1 H2.
  edestruct (in_large (ex_start ++ [LNetErr []])) as (s & evs & E & L & S & F); [apply ex_start_legal; reflexivity|apply ex_local; reflexivity|vm_compute; reflexivity|vm_compute; reflexivity|exact H1|exact H2|].
  pose proof (places_of _ _ _ _ _ _ _ E ltac:(vm_compute; reflexivity)) as P. unfold summary in S. unfold places in P. cbn [fst snd] in *.
  injection S as A1 A2 A3 A4 A5 A6 A7 A8 A9 A10 A11 A12 A13. injection P as P1 P2 P3.
  eexists. eexists. split; [exact L|]. pose proof (is_waiting_waits (n_conn (large size cap s)) 0 A3) as Hw. split; [exact Hw|]. intros sched s' evs' Hl Hn H.
  destruct (cut_off_for_ever sched (large size cap s) s' evs' 0) as (R1 & R2 & _); try assumption.
  - unfold cut_off, large. cbn. rewrite A9, larger_waiting. cbn. auto 10.
  - split; [exact R1|apply waits_stuck, R2].
Qed.
Print Assumptions C38_lost_any_size_refuted.
Theorem C38_closed_any_size_refuted : forall size cap, 64 <= size < 2 ^ 31 -> 16 <= cap ->
  exists s evs, nexecutes good_raw size cap ex_close s evs /\ n_closers s = [KReturned] /\ returns_of 0 evs = [] /\ waits (n_conn s) 0 /\
  forall sched s' evs', Forall nlegal sched -> nrun s sched = Some (s', evs') -> returns_of 0 evs' = [] /\ nstep s' (LCall 0) = None.
Proof.
  intros size cap H1 H2.
  edestruct (in_large ex_close) as (s & evs & E & L & S & F); [apply ex_start_legal; reflexivity|apply ex_local; reflexivity|vm_compute; reflexivity|vm_compute; reflexivity|exact H1|exact H2|].
  unfold summary in S. cbn [fst snd] in S. injection S as A1 A2 A3 A4 A5 A6 A7 A8 A9 A10 A11 A12 A13.
  eexists. eexists. split; [exact L|]. split; [exact A13|]. split; [unfold large_ev; rewrite returns_larger; exact A2|].
  pose proof (is_waiting_waits (n_conn (large size cap s)) 0 A3) as Hw. split; [exact Hw|]. intros sched s' evs' Hl H.
  destruct (done_for_ever _ _ _ _ _ _ _ L ltac:(cbn; rewrite A9; reflexivity) Hw sched s' evs' Hl H) as (R1 & R2). split; [exact R1|apply waits_stuck, R2].
Qed.
Print Assumptions C38_closed_any_size_refuted.

(** C53: Close ends in a crash (the size the message loop takes the two bytes for is
    0x7fff0000). *)
Theorem C53_any_size_refuted : forall size cap, 64 <= size < 2 ^ 31 -> 16 <= cap < 2147418112 ->
  exists s evs, nexecutes good_raw size cap ex_crash s evs /\ n_dead s = false /\ s_crashed (n_conn s) = false /\ n_closers s = [KMessage] /\
  (exists sched' s' evs', Forall (fun a => a = LRing Ring.RStep \/ a = LRing Ring.RDone) sched' /\ nrun s sched' = Some (s', evs') /\ n_dead s' = true) /\
  forall sched' s' evs', Forall nlegal sched' -> nrun s sched' = Some (s', evs') -> s_mpc (n_conn s') <> MDone.
Proof.
  intros size cap H1 H2.
  edestruct (in_large ex_crash) as (s & evs & E & L & S & F); [|apply ex_local; reflexivity|vm_compute; reflexivity|vm_compute; reflexivity|exact H1|exact (proj1 H2)|].
  { unfold ex_crash. apply Forall_app. split; [|apply nlegalb_ok; reflexivity]. constructor; [cbn; intros id; exists [be 4 id]; apply Runs_PutInt32|]. apply nlegalb_ok. reflexivity. }
  unfold summary in S. cbn [fst snd] in S. injection S as A1 A2 A3 A4 A5 A6 A7 A8 A9 A10 A11 A12 A13.
  assert (D : doomed cap (large size cap s)) by (eexists; split; [cbn; rewrite A9; reflexivity|lia]).
  eexists. eexists. split; [exact L|]. split; [exact A7|]. split; [exact A8|]. split; [exact A13|]. split.
  - refine (doomed_crashes good_raw size cap ex_crash _ _ ltac:(lia) L _ A7 A8 D). exact A11.
  - intros sched' s' evs' Hl H G. destruct (doomed_for_ever good_raw size cap ex_crash _ _ ltac:(lia) L D sched' s' evs' Hl H) as (n & Hn & _). congruence.
Qed.
Print Assumptions C53_any_size_refuted.

(** C63: the response that comes with an error is lost. *)
Theorem C63_any_size_refuted : forall size cap, 64 <= size < 2 ^ 31 -> 16 <= cap ->
  exists s evs, nexecutes good_raw size cap (ex_start ++ [LNetErr ex_stream]) s evs /\
  all_nsteps good_step (Connect good_raw size cap) (ex_start ++ [LNetErr ex_stream]) /\ n_dead s = false /\ consumed s /\
  parses (returned (ex_start ++ [LNetErr ex_stream])) [[0;0;0;1; 0;0;0;7]] [] /\ frames evs = [] /\
  forall sched s' evs', Forall nlegal sched -> ~ In LClose sched -> nrun s sched = Some (s', evs') -> returns_of 0 evs' = [] /\ nstep s' (LCall 0) = None.
Proof.
  intros size cap H1 H2.
  edestruct (in_large (ex_start ++ [LNetErr ex_stream])) as (s & evs & E & L & S & F); [apply ex_start_legal; reflexivity|apply ex_local; reflexivity|vm_compute; reflexivity|vm_compute; reflexivity|exact H1|exact H2|].
  pose proof (places_of _ _ _ _ _ _ _ E ltac:(vm_compute; reflexivity)) as P. unfold summary in S. unfold places in P. cbn [fst snd] in *.
  injection S as A1 A2 A3 A4 A5 A6 A7 A8 A9 A10 A11 A12 A13. injection P as P1 P2 P3.
  eexists. eexists. split; [exact L|]. split.
  { refine (larger_good good_raw 64 16 size cap _ s evs ltac:(lia) ltac:(lia) ltac:(lia) E (all_ringsb_ok _ _ _ _) _ (all_ringsb_ok _ _ _ _) (all_goodb_ok _ _ _)); [vm_compute; reflexivity|apply ex_local; reflexivity|vm_compute; reflexivity|vm_compute; reflexivity]. }
  split; [exact A7|]. split; [apply large_consumed; [congruence|congruence|assumption]|]. split.
  { refine (parses_frame 8 [0;0;0;1; 0;0;0;7] [] [] [] _ _ (parses_rest [])); [unfold is_int32; lia|reflexivity]. }
  split; [rewrite F; exact A1|].
  pose proof (is_waiting_waits (n_conn (large size cap s)) 0 A3) as Hw. intros sched s' evs' Hl Hn H.
  destruct (cut_off_for_ever sched (large size cap s) s' evs' 0) as (R1 & R2 & _); try assumption.
  - unfold cut_off, large. cbn. rewrite A9, larger_waiting. cbn. auto 10.
  - split; [exact R1|apply waits_stuck, R2].
Qed.
Print Assumptions C63_any_size_refuted.

(** C66: a Heartbeat call that has been answered does not return. *)
Lemma hb_local rest : calls (R := response) rest = [] ->
  Forall (fun c => Local (snd c)) (calls (LDo (encode_request method_Heartbeat no_versions [99] hb_request) (decode_any method_Heartbeat no_versions) :: rest)).
Proof.
  intros H. unfold calls in *. cbn [flat_map app]. rewrite H. constructor; [|constructor]. cbn [snd].
  destruct (method_codecs_In method_Heartbeat hb_method) as [_ Hin]. intros d1 d2 D1 D2 Hf.
  pose proof (linked_local _ (codec_linked _ _ Hin) (no_versions (m_v_decode method_Heartbeat)) (c_zero (m_resp method_Heartbeat)) d1 d2 D1 D2 Hf) as Ho.
  unfold decode_any, decode_response. destruct (c_decode _ _ _ d1), (c_decode _ _ _ d2); cbn [same_outcome] in *; try contradiction; try assumption.
  destruct Ho as (-> & Ho). split; [reflexivity|exact Ho].
Qed.
Lemma erase_larger {R} bytes (evs : list (event R)) : map erase (map (larger_event bytes) evs) = map (larger_event bytes) (map erase evs).
Proof. rewrite !map_map. apply map_ext. intros e. destruct e as [| | | | | | |raw size| |k' [r|r]]; reflexivity. Qed.
Lemma call_stuck_larger {R} size cap cells bytes (s : client R) k : nstep s (LCall k) = None -> nstep (larger_client size cap cells bytes s) (LCall k) = None.
Proof.
  unfold nstep. change (n_dead (larger_client size cap cells bytes s)) with (n_dead s). change (s_crashed (n_conn (larger_client size cap cells bytes s))) with (s_crashed (n_conn s)).
  destruct (n_dead s || s_crashed (n_conn s)); [reflexivity|]. cbn zeta. unfold cstep. change (n_conn (larger_client size cap cells bytes s)) with (larger_conn cap bytes (n_conn s)).
  change (s_crashed (larger_conn cap bytes (n_conn s))) with (s_crashed (n_conn s)). destruct (s_crashed (n_conn s)); [reflexivity|].
  change (s_calls (larger_conn cap bytes (n_conn s))) with (s_calls (n_conn s)). destruct (nth_error (s_calls (n_conn s)) k) as [c|]; [|reflexivity].
  unfold call_step. change (s_lock (larger_conn cap bytes (n_conn s))) with (s_lock (n_conn s)).
  destruct (k_pc c) as [ | | |[|p pieces] err b fl|[x|]| |r]; try discriminate; try reflexivity.
  - destruct (s_lock (n_conn s)); [reflexivity|]. destruct (transmit _ _ _ _) as [[err b] fl]. discriminate.
  - destruct (k_reply c); [discriminate|reflexivity].
Qed.
Theorem C66_any_size_refuted : forall size cap, 64 <= size < 2 ^ 31 -> 16 <= cap -> exists s evs,
  nexecutes good_raw size cap hb_two s evs /\ parses (arrived hb_two) [be 4 1 ++ [0; 0]] [] /\ incomplete [] /\ solicited evs /\
  nth_error (calls hb_two) 0 = Some (encode_request method_Heartbeat no_versions [99] hb_request, decode_any method_Heartbeat no_versions) /\ In (EId 0 1) evs /\
  fit HeartbeatResponse_schema 0 (HeartbeatResponse_to hb_response) /\
  answers [be 4 1 ++ [0; 0]] 1 (wires HeartbeatResponse_schema 0 (HeartbeatResponse_to hb_response)) /\ answered [be 4 1 ++ [0; 0]] 1 /\
  reliable good_raw /\ n_dead s = false /\ s_crashed (n_conn s) = false /\ s_rawclosed (n_conn s) = false /\ consumed s /\ nstep s (LCall 0) = None /\
  returns_of 0 evs = [].
Proof.
  intros size cap H1 H2.
  edestruct (outline_executes good_raw 64 16 hb_two) as (s & evs & E & S); [apply hb_legal; reflexivity|vm_compute; reflexivity|].
  assert (L : nexecutes good_raw size cap hb_two (large size cap s) (large_ev cap evs)).
  { refine (larger_executes good_raw 64 16 size cap hb_two s evs ltac:(lia) ltac:(lia) ltac:(lia) E (all_ringsb_ok _ _ _ _) _); [vm_compute; reflexivity|apply hb_local; reflexivity]. }
  pose proof (places_of _ _ _ _ _ _ _ E ltac:(vm_compute; reflexivity)) as P. unfold places in P. cbn [fst snd] in P. injection P as P1 P2 P3.
  unfold outline in S. cbn [fst snd] in S. injection S as A1 A2 A3 A4 A5 A6 A7 A8.
  eexists. eexists. split; [exact L|]. split; [exact hb_parses|]. split; [exact nil_incomplete|]. split; [|split; [reflexivity|]].
  { apply erase_solicited. unfold large_ev. rewrite erase_larger, A1. cbn [map larger_event]. intros pre raw sz post id Ep Hc. exfalso. pose proof (carries_long _ _ _ Hc) as L4.
    do 6 (destruct pre as [|? pre]; [discriminate|injection Ep as <- Ep]).
    destruct pre as [|? pre]; [injection Ep as _ <- _; lia|injection Ep as _ Ep].
    destruct pre as [|? pre]; [injection Ep as _ <- _; lia|injection Ep as _ Ep]. destruct pre; discriminate. }
  split; [unfold large_ev; apply in_map_iff; exists (EId 0 1); split; [reflexivity|]; apply (erase_In evs (EId 0 1)); rewrite A1; cbn; tauto|].
  split; [cbn; unfold is_int32, is_int16; lia|]. split; [exact hb_answers|].
  split; [exists (be 4 1 ++ [0; 0]); split; [left; reflexivity|exists [0; 0]; reflexivity]|]. split; [intros log data; reflexivity|].
  split; [exact A6|]. split; [exact A7|]. split; [exact A8|]. split; [apply large_consumed; [rewrite A3; discriminate|congruence|assumption]|].
  split; [apply call_stuck_larger; destruct (nstep s (LCall 0)); [discriminate|reflexivity]|].
  unfold large_ev. rewrite returns_larger. pose proof (erase_returns evs 0) as F. rewrite A1 in F. cbn in F. destruct (returns_of 0 evs); [reflexivity|discriminate].
Qed.
Print Assumptions C66_any_size_refuted.

(** C37, C62, C74 (without the ring): a frame the decoder panics on, a DecodeFunc run after Do has
    returned, and the race for it. *)
Theorem C37_fetch_any_size_refuted : forall cap, 128 <= cap -> exists s evs, executes good_raw cap ex_fetch s evs /\ s_crashed s = true.
Proof.
  intros cap H. destruct C37_fetch_refuted as (s & evs & E & C). eexists. eexists. split; [apply (larger_executes_conn good_raw 128 cap ex_fetch s evs ltac:(lia) E)|exact C].
  unfold ex_fetch. cbn [repeat app]. constructor; [|repeat (constructor; [exact I|]); constructor].
  apply (linked_local _ (codec_linked "FetchResponse"%string FetchResponse_codec ltac:(cbn; tauto)) 11).
Qed.
Print Assumptions C37_fetch_any_size_refuted.
Theorem C62_any_size_refuted : forall cap, 10 <= cap -> exists s evs pre post, executes late_raw cap ex_late s evs /\
  evs = pre ++ EReturn 0 (WriteError (ErrOther 5)) :: post /\ wire pre = [0;0;0;1] /\ In (EReply 0 (Value 7)) post.
Proof.
  intros cap H. destruct C62_decode_after_return_refuted as (s & evs & pre & post & E & -> & W & Hin).
  eexists. eexists. eexists. eexists. split; [apply (larger_executes_conn late_raw 10 cap ex_late s _ ltac:(lia) E)|].
  { unfold ex_late. cbn [repeat app]. constructor; [apply Local_int32|repeat (constructor; [exact I|]); constructor]. }
  rewrite map_app. cbn [map larger_event]. split; [reflexivity|]. split; [rewrite wire_larger; exact W|]. apply (in_map (larger_event (repeat 0 (Z.to_nat (cap - 10))))) in Hin. exact Hin.
Qed.
Print Assumptions C62_any_size_refuted.
Theorem C74_any_size_refuted : forall shares cap, 10 <= cap -> exists s evs, executes late_raw cap ex_torn s evs /\ wire evs = [0;0;0;1] /\ races shares s (Caller 0) Loop (Response 0).
Proof.
  intros shares cap H. destruct (C74_response_refuted shares) as (s & evs & E & W & N & w1 & w2 & A1 & A2 & A3).
  eexists. eexists. split; [apply (larger_executes_conn late_raw 10 cap ex_torn s _ ltac:(lia) E)|].
  { unfold ex_torn. cbn [repeat app]. constructor; [apply Local_int32|repeat (constructor; [exact I|]); constructor]. }
  split; [rewrite wire_larger; exact W|]. split; [exact N|]. exists w1, w2. split; [exact A1|]. split; [|exact A3].
  cbn [next_access] in *. unfold larger_conn. cbn [s_mpc]. destruct (s_mpc s); exact A2.
Qed.
Print Assumptions C74_any_size_refuted.

(** For instance with the sizes of the library (gen.conn.go:71, 95, 111). *)
Example C77_example : exists s evs, nexecutes good_raw 5000000 2000000 ex_two s evs /\ frames evs = [[]; [0]] /\ returns_of 0 evs = [] /\ waits (n_conn s) 0.
Proof. destruct (C36_any_size_refuted 5000000 2000000 ltac:(lia) ltac:(lia)) as (s1 & evs1 & s2 & evs2 & H). exists s2, evs2. tauto. Qed.
(** That the ring does not fill matters: here a WriteN waits for room in a ring of 8, not in one of 64. *)
Definition ex_full : list (nlabel Z) := LDo ex_enc dInt32 :: LNet ex_stream :: wsteps 13 ++ [LClose; LCloser 0; LCloser 0; LRing Ring.WDone].
Example C77_ex_full : (exists s evs, nexecutes good_raw 8 16 ex_full s evs) /\ forall s evs, ~ nexecutes good_raw 64 16 ex_full s evs.
Proof.
  split.
  - edestruct (summary_executes good_raw 8 16 ex_full) as (s & evs & E & _); [|vm_compute; reflexivity|eauto].
    constructor; [cbn; intros id; exists [be 4 id]; apply Runs_PutInt32|]. apply nlegalb_ok. reflexivity.
  - intros s evs [_ H]. assert (F : option_map summary (nrun (Connect good_raw 64 16) ex_full) = None) by (vm_compute; reflexivity). rewrite H in F. discriminate.
Qed.
