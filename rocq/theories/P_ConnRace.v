(** * C74: data races on a connection *)
From Verif Require Import GoBase GoLemmas Encoder Decoder Spec EncProofs BufIO Msg01 Msg02 Msg04
  Conn ConnSpec ConnProofs ConnProps ConnRing ConnRingSpec ConnRingProofs P_Conn P_ConnLife P_Table ConnRaceSpec ConnRaceProofs.
Ltac Zify.zify_post_hook ::= idtac.

(** "However many goroutines call a connection, they and its message loop never access the
    encoder, a response or the receive buffer at the same time with one of them writing":

      forall raw cap sched s evs shares g1 g2 p, 4 <= cap -> executes raw cap sched s evs ->
        ~ races shares s g1 g2 p

    It is false.  If the write of a request fails after the request has reached the broker,
    the method returns resp (gen.broker.go:89) while the message loop decodes the reply into
    it (gen.conn.go:145): *)
Definition ex_torn : list (clabel Z) := DoCall ex_enc dInt32 :: repeat (CStep 0) 5 ++ [MStep; MRead [0;0;0;8]; MRead [0;0;0;1; 0;0;0;7]; MStep].
Theorem C74_response_refuted : forall shares, exists s evs, executes late_raw 10 ex_torn s evs /\ wire evs = [0;0;0;1] /\ races shares s (Caller 0) Loop (Response 0).
Proof.
  intros shares.
  edestruct (show_executes late_raw 10 ex_torn) as (s & Hex & Hcr & _); [unfold ex_torn; cbn [repeat app]; all_legal|vm_compute; reflexivity|].
  exists s. eexists. split; [exact Hex|]. split; [reflexivity|]. destruct Hex as [_ Hex].
  assert (E : option_map (fun p => (next_access shares (fst p) (Caller 0), next_access shares (fst p) Loop)) (crun (Connected late_raw 10) ex_torn) =
    Some (Some (Response 0, false), Some (Response 0, true))) by (vm_compute; reflexivity).
  rewrite Hex in E. cbn [option_map fst] in E. injection E as E1 E2. split; [discriminate|]. exists false, true. auto.
Qed.
Print Assumptions C74_response_refuted.
(** ... and whoever has received a response with a byte field reads it while the message
    loop reads the next frame into the buffer it is a part of: always, not in a rare schedule. *)
Theorem C74_buffer_refuted : forall R raw cap (sched : list (clabel R)) s evs shares k r, 4 <= cap -> executes raw cap sched s evs ->
  In (EReturn k (Reply (Value r))) evs -> shares r = true -> (s_mpc s = MHead \/ exists n, s_mpc s = MBody n) ->
  races shares s (Caller k) Loop ReceiveBuffer.
Proof. exact @buffer_races. Qed.
Print Assumptions C74_buffer_refuted.
(** For instance SyncGroup, once it has returned an assignment. *)
Definition assigned (r : SyncGroupResponse) : bool := match SyncGroupResponse_Assignment r with Some (_ :: _) => true | _ => false end.
Example C74_ex_SyncGroup : exists s evs, executes good_raw 64 ex_sync s evs /\ races assigned s (Caller 0) Loop ReceiveBuffer.
Proof.
  destruct C40_SyncGroup_refuted as (s & evs & _ & _ & _ & Hex & Hr & _). exists s, evs. split; [exact Hex|].
  eapply C74_buffer_refuted; [|exact Hex|apply in_returns; rewrite Hr; left; reflexivity|reflexivity|]; [lia|]. left. destruct Hex as [_ Hex].
  assert (E : option_map (fun p => match s_mpc (fst p) with MHead => true | _ => false end) (crun (Connected good_raw 64) ex_sync) = Some true) by (vm_compute; reflexivity).
  rewrite Hex in E. cbn [option_map fst] in E. destruct (s_mpc s); try discriminate. reflexivity.
Qed.

(** What holds, missing: these two.  There is no other race on these places, in any execution: *)
Theorem C74_races_partial : forall R raw cap (sched : list (clabel R)) s evs shares g1 g2 p, 4 <= cap -> executes raw cap sched s evs -> races shares s g1 g2 p ->
  exists k, ((g1 = Caller k /\ g2 = Loop) \/ (g1 = Loop /\ g2 = Caller k)) /\
    ((p = Response k /\ (exists d, s_mpc s = MReply k d) /\ exists c x, nth_error (s_calls s) k = Some c /\ k_pc c = PUnlock (Some x)) \/
     (p = ReceiveBuffer /\ (s_mpc s = MHead \/ exists n, s_mpc s = MBody n) /\ exists r, In (EReturn k (Reply (Value r))) evs /\ shares r = true)).
Proof. exact @all_races. Qed.
Print Assumptions C74_races_partial.
(** so two goroutines never use the encoder at once, two calls never race, *)
Theorem C74_calls_partial : forall R raw cap (sched : list (clabel R)) s evs shares k j p, 4 <= cap -> executes raw cap sched s evs ->
  ~ races shares s (Caller k) (Caller j) p.
Proof.
  intros R raw cap sched s evs shares k j p Hc Hx H. destruct (all_races _ _ _ _ _ _ _ _ _ Hc Hx H) as (i & [(_ & E)|(E & _)] & _); discriminate.
Qed.
Print Assumptions C74_calls_partial.
Theorem C74_encoder_partial : forall R raw cap (sched : list (clabel R)) s evs shares g1 g2, 4 <= cap -> executes raw cap sched s evs ->
  ~ races shares s g1 g2 TheEncoder.
Proof.
  intros R raw cap sched s evs shares g1 g2 Hc Hx H. destruct (all_races _ _ _ _ _ _ _ _ _ Hc Hx H) as (i & _ & [(E & _)|(E & _)]); discriminate.
Qed.
Print Assumptions C74_encoder_partial.
(** and while no flush has failed and no response with byte fields has been returned, nothing races. *)
Theorem C74_none_partial : forall R raw cap (sched : list (clabel R)) s evs shares g1 g2 p, 4 <= cap -> executes raw cap sched s evs ->
  (forall k x, ~ In (EFlushed k (Some x)) evs) -> (forall k r, In (EReturn k (Reply (Value r))) evs -> shares r = false) ->
  ~ races shares s g1 g2 p.
Proof. exact @no_races. Qed.
Print Assumptions C74_none_partial.
(** With the ring buffer, the network and Close as they are, the same. *)
Theorem C74_network_partial : forall R raw size cap (sched : list (nlabel R)) s evs shares g1 g2 p, 4 <= cap -> nexecutes raw size cap sched s evs -> races shares (n_conn s) g1 g2 p ->
  exists k, ((g1 = Caller k /\ g2 = Loop) \/ (g1 = Loop /\ g2 = Caller k)) /\
    ((p = Response k /\ exists x, In (EFlushed k (Some x)) evs) \/
     (p = ReceiveBuffer /\ exists r, In (EReturn k (Reply (Value r))) evs /\ shares r = true)).
Proof.
  intros R raw size cap sched s evs shares g1 g2 p Hc Hx H. destruct (project _ _ _ _ _ _ Hx) as (cs & rs & re & Hex & _).
  destruct (all_races _ _ _ _ _ _ _ _ _ Hc Hex H) as (k & Hp & [(E & _ & c & x & Hk & Hq)|(E & _ & r & Hr)]); exists k; (split; [exact Hp|]).
  - left. split; [exact E|]. exists x. eapply unlock_flushed; eassumption.
  - right. eauto.
Qed.
Print Assumptions C74_network_partial.
(** Two calls at once: call 1 is in the encoder, call 2 waits for the lock, the loop is about
    to decode the reply of call 0 while that call waits for it.  Nothing races. *)
Definition ex_busy : list (clabel Z) := DoCall ex_enc dInt32 :: repeat (CStep 0) 6 ++ [DoCall ex_enc dInt32; DoCall ex_enc dInt32;
  CStep 1; CStep 2; CStep 2; CStep 1; CStep 1; MStep; MRead [0;0;0;8]; MRead [0;0;0;1; 0;0;0;7]; MStep].
Example C74_ex_busy : exists s evs, executes good_raw 10 ex_busy s evs /\
  next_access (fun _ => true) s (Caller 1) = Some (TheEncoder, true) /\ next_access (fun _ => true) s Loop = Some (Response 0, true) /\
  forall g1 g2 p, ~ races (fun _ => true) s g1 g2 p.
Proof.
  edestruct (show_executes good_raw 10 ex_busy) as (s & Hex & Hcr & _); [unfold ex_busy; cbn [repeat app]; all_legal|vm_compute; reflexivity|].
  exists s. eexists. split; [exact Hex|].
  assert (E : option_map (fun p => (next_access (fun _ => true) (fst p) (Caller 1), next_access (fun _ => true) (fst p) Loop)) (crun (Connected good_raw 10) ex_busy) =
    Some (Some (TheEncoder, true), Some (Response 0, true))) by (vm_compute; reflexivity).
  rewrite (proj2 Hex) in E. cbn [option_map fst] in E. injection E as E1 E2. split; [exact E1|]. split; [exact E2|].
  intros g1 g2 p. eapply C74_none_partial; [|exact Hex| |]; [lia|..].
  - intros k x F. cbn in F. repeat (destruct F as [F|F]; [discriminate|]). exact F.
  - intros k r F. cbn in F. repeat (destruct F as [F|F]; [discriminate|]). contradiction.
Qed.
