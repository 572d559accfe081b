(** * Connection properties: C62, C63 *)
From Verif Require Import GoBase GoLemmas Encoder Decoder Spec EncProofs BufIO Msg01 Conn ConnSpec ConnProofs ConnProps ConnFrames ConnTable
  ConnRing ConnRingSpec ConnRingProofs ConnRingProps ConnClose P_Conn P_Framing.
From Verif Require Ring RingSpec.
Local Open Scope Z_scope.
Ltac Zify.zify_post_hook ::= idtac.

(** ** C62.  Full statement: once a call of Do has returned, the connection has forgotten it:
      executes raw cap sched s (pre ++ EReturn k res :: post) ->
        (forall id, s_requests s id <> Some k) /\ (forall r, ~ In (EReply k r) post)
    ([s_requests] is the table of outstanding requests, [EReply k r] the run of the
    DecodeFunc of call [k], which writes into the response the caller provided).
    It is false for a call whose write fails.  Its entry stays in the table in
    every later state, unless a frame comes with its id, ... *)
Theorem C62_entry_stays_refuted : forall R raw cap (sched : list (clabel R)) s evs k x id, 4 <= cap -> executes raw cap sched s evs -> zlen (ids evs) <= 2 ^ 32 ->
  In (EReturn k (WriteError x)) evs -> In (EId k id) evs -> (forall buf size, In (EFrame buf size) evs -> ~ carries buf size id) -> s_requests s id = Some k.
Proof. exact @failed_stays. Qed.
Print Assumptions C62_entry_stays_refuted.
(** ... so the table grows by an entry with every call on a broken connection, all
    of them returned, ... *)
Theorem C62_table_grows_refuted : forall n, Z.of_nat (S n) <= 2 ^ 32 -> exists sched s evs, @executes Z torn 10 sched s evs /\ length (s_calls s) = S n /\
  (forall k, (k <= n)%nat -> In (EReturn k (WriteError (ErrOther 5))) evs /\ s_requests s (int32 (Z.of_nat k + 1)) = Some k).
Proof. exact table_grows. Qed.
Print Assumptions C62_table_grows_refuted.
(** ... and the DecodeFunc can run after Do has returned: here Write sends the whole
    request and yet reports an error, and the broker answers. *)
Definition late_raw : rawconn := mkRaw (fun _ _ => Some (4, ErrOther 5)) (fun _ _ => true).
Definition ex_late : list (clabel Z) := DoCall ex_enc dInt32 :: repeat (CStep 0) 6 ++ [MStep; MRead [0;0;0;8]; MRead [0;0;0;1; 0;0;0;7]; MStep; MStep].
Theorem C62_decode_after_return_refuted : exists s evs pre post, executes late_raw 10 ex_late s evs /\
  evs = pre ++ EReturn 0 (WriteError (ErrOther 5)) :: post /\ wire pre = [0;0;0;1] /\ In (EReply 0 (Value 7)) post.
Proof.
  edestruct (show_executes late_raw 10 ex_late) as (s & Hex & Hcr & _); [unfold ex_late; cbn [repeat app]; all_legal|vm_compute; reflexivity|].
  exists s. eexists. exists [ECall 0; EId 0 1; ERegister 0; ELock 0; ESent 0 [0;0;0;1]; EFlushed 0 (Some (ErrOther 5))]. eexists. split; [exact Hex|].
  split; [cbn [app]; reflexivity|]. split; [reflexivity|]. cbn. tauto.
Qed.
Print Assumptions C62_decode_after_return_refuted.
(** What holds, missing: the calls whose write fails.  A call that returns a reply is forgotten: *)
Theorem C62_answered_partial : forall R raw cap (sched : list (clabel R)) s pre k r post, 4 <= cap -> executes raw cap sched s (pre ++ EReturn k (Reply r) :: post) ->
  (forall id, s_requests s id <> Some k) /\ (forall r', ~ In (EReply k r') post).
Proof.
  intros R raw cap sched s pre k r post Hc H. split; [|eapply no_decode_after; eassumption].
  eapply answered_gone; try eassumption. apply in_or_app. right. left. reflexivity.
Qed.
Print Assumptions C62_answered_partial.
(** every entry is that of a call in progress or of one whose write failed, under its own id; *)
Theorem C62_entries_partial : forall R raw cap (sched : list (clabel R)) s evs k id, 4 <= cap -> executes raw cap sched s evs -> s_requests s id = Some k ->
  In (EId k id) evs /\ forall res, In (EReturn k res) evs -> exists x, res = WriteError x.
Proof. exact @entry_of. Qed.
Print Assumptions C62_entries_partial.
(** and exactly those calls are in the table that have entered themselves and have not been
    taken out for a reply (at most 2^32 calls, so that ids do not repeat). *)
Theorem C62_table_partial : forall R raw cap (sched : list (clabel R)) s evs, 4 <= cap -> executes raw cap sched s evs -> zlen (ids evs) <= 2 ^ 32 ->
  forall k id, s_requests s id = Some k <->
    In (EId k id) evs /\ In (ERegister k) evs /\ (forall r, ~ In (EReply k r) evs) /\ (forall d, s_mpc s <> MReply k d).
Proof. exact @table_exact. Qed.
Print Assumptions C62_table_partial.
(** Three calls: the first is answered and returns; the second fails; the third too. *)
Example C62_example : exists s evs, executes bad_raw 10 (ex_fail ++ [MStep; MRead [0;0;0;8]; MRead [0;0;0;1; 0;0;0;7]; MStep; MStep; CStep 0]) s evs /\
  returns_of 0 evs = [Reply (Value 7)] /\ returns_of 1 evs = [WriteError (ErrOther 5)] /\ returns_of 2 evs = [WriteError (ErrOther 5)] /\
  s_requests s 1 = None /\ s_requests s 2 = Some 1%nat /\ s_requests s 3 = Some 2%nat.
Proof.
  set (sched := ex_fail ++ [MStep; MRead [0;0;0;8]; MRead [0;0;0;1; 0;0;0;7]; MStep; MStep; CStep 0]).
  assert (E : option_map (fun p => (returns_of 0 (snd p), returns_of 1 (snd p), returns_of 2 (snd p), map (s_requests (fst p)) [1;2;3])) (crun (Connected bad_raw 10) sched) =
    Some ([Reply (Value 7)], [WriteError (ErrOther 5)], [WriteError (ErrOther 5)], [None; Some 1%nat; Some 2%nat])) by (vm_compute; reflexivity).
  destruct (crun (Connected bad_raw 10) sched) as [[s evs]|] eqn:Er; [|discriminate]. cbn [option_map fst snd map] in E. injection E as E1 E2 E3 E4 E5 E6.
  exists s, evs. split; [split; [unfold sched, ex_fail; cbn [app]; all_legal|exact Er]|]. auto 10.
Qed.

(** ** C63.  Full statement: the bytes raw.Read returns are processed, whether it also
    returns an error or not (a Reader may return both, and "callers should always process the
    n > 0 bytes returned before considering the error", package io):
      nexecutes raw size cap sched s evs -> all_nsteps good_step (Connect raw size cap) sched -> n_dead s = false -> consumed s ->
        exists rest, parses (returned sched) (frames evs) rest /\ incomplete rest.
    It is false: the bytes that come with the error are thrown away. *)
Theorem C63_bytes_ignored_refuted : forall R (s : client R) bs, nstep s (LNetErr bs) = nstep s (LNetErr []).
Proof. reflexivity. Qed.
Print Assumptions C63_bytes_ignored_refuted.
(** Here the whole response comes with the error: its call never returns (until
    somebody calls Close, and then neither, C38). *)
Theorem C63_response_lost_refuted : exists s evs, nexecutes good_raw 64 16 (ex_start ++ [LNetErr ex_stream]) s evs /\
  all_nsteps good_step (Connect good_raw 64 16) (ex_start ++ [LNetErr ex_stream]) /\ n_dead s = false /\ consumed s /\
  parses (returned (ex_start ++ [LNetErr ex_stream])) [[0;0;0;1; 0;0;0;7]] [] /\ frames evs = [] /\
  forall sched s' evs', Forall nlegal sched -> ~ In LClose sched -> nrun s sched = Some (s', evs') -> returns_of 0 evs' = [] /\ nstep s' (LCall 0) = None.
Proof.
  edestruct (summary_executes good_raw 64 16 (ex_start ++ [LNetErr ex_stream])) as (s & evs & E & S); [apply ex_start_legal; reflexivity|vm_compute; reflexivity|].
  assert (W : option_map (fun p => Ring.g_w (n_ring (fst p))) (nrun (Connect good_raw 64 16) (ex_start ++ [LNetErr ex_stream])) = Some Ring.WIdle) by (vm_compute; reflexivity).
  rewrite (proj2 E) in W. cbn [option_map fst] in W. injection W as W.
  unfold summary in S. cbn [fst snd] in S. injection S as A1 A2 A3 A4 A5 A6 A7 A8 A9 A10 A11 A12 A13.
  exists s, evs. split; [exact E|]. split; [apply all_goodb_ok; vm_compute; reflexivity|]. split; [exact A7|].
  split; [split; [congruence|split; assumption]|]. split.
  { refine (parses_frame 8 [0;0;0;1; 0;0;0;7] [] [] [] _ _ (parses_rest [])); [unfold is_int32; lia|reflexivity]. }
  split; [exact A1|].
  pose proof (is_waiting_waits _ _ A3) as Hw. intros sched s' evs' Hl Hn H.
  destruct (cut_off_for_ever sched s s' evs' 0 ltac:(unfold cut_off; rewrite A9; auto 10) Hw Hl Hn H) as (R1 & R2 & _). split; [exact R1|].
  apply waits_stuck, R2.
Qed.
Print Assumptions C63_response_lost_refuted.
(** What holds, missing: the bytes that come with an error (and the ring's early wakes,
    [good_step], C27).  What came without an error is processed, also after the connection is lost. *)
Theorem C63_before_error_partial : forall R raw size cap (sched : list (nlabel R)) s evs, 2 <= size < 2 ^ 31 -> 4 <= cap -> nexecutes raw size cap sched s evs ->
  all_nsteps good_step (Connect raw size cap) sched -> n_dead s = false -> consumed s ->
  exists rest, parses (arrived sched) (frames evs) rest /\ incomplete rest.
Proof. exact @all_frames_consumed. Qed.
Print Assumptions C63_before_error_partial.
(** The response comes, then the error: the call returns it. *)
Definition ex_then_error : list (nlabel Z) := ex_start ++ LNet ex_stream :: wsteps 16 ++ LRing Ring.SyncRead :: LNetErr [1;2] :: rsteps 18 ++ [LLoop; LLoop; LLoop] ++ rsteps 5 ++ [LCall 0].
Example C63_example : exists s evs, nexecutes good_raw 64 16 ex_then_error s evs /\ all_nsteps good_step (Connect good_raw 64 16) ex_then_error /\
  n_dead s = false /\ consumed s /\ n_rd s = RdDone /\ frames evs = [[0;0;0;1; 0;0;0;7]] /\ returns_of 0 evs = [Reply (Value 7)].
Proof.
  edestruct (summary_executes good_raw 64 16 ex_then_error) as (s & evs & E & S); [apply ex_start_legal; reflexivity|vm_compute; reflexivity|].
  unfold summary in S. cbn [fst snd] in S. injection S as A1 A2 A3 A4 A5 A6 A7 A8 A9 A10 A11 A12 A13.
  exists s, evs. split; [exact E|]. split; [apply all_goodb_ok; vm_compute; reflexivity|]. split; [exact A7|]. split; [split; [congruence|split; assumption]|].
  split; [exact A4|]. split; [exact A1|exact A2].
Qed.
