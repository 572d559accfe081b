(** * Properties of whole connections: C38 (with the network), C40, C53 *)
From Coq Require Import String.
From Verif Require Import GoBase GoLemmas Encoder Decoder Spec SchemaSpec EncProofs DecProofs Link AllMessages MsgProps Alias ConnAlias BufIO Msg01 Msg02 Msg04
  Conn ConnSpec ConnProofs ConnProps ConnFrames ConnRing ConnRingSpec ConnRingProofs ConnRingProps ConnClose P_Conn P_Framing.
From Verif Require Ring RingSpec.
Local Open Scope Z_scope.
Local Open Scope list_scope.
Ltac Zify.zify_post_hook ::= idtac.

(** ** C38, with the network and Close as they are.
    The connection is lost while the call waits: no schedule without a call of Close
    lets it return, ... *)
Theorem C38_connection_lost_refuted : exists s evs, nexecutes good_raw 64 16 (ex_start ++ [LNetErr []]) s evs /\ waits (n_conn s) 0 /\
  forall sched s' evs', Forall nlegal sched -> ~ In LClose sched -> nrun s sched = Some (s', evs') ->
    returns_of 0 evs' = [] /\ nstep s' (LCall 0) = None.
Proof.
  edestruct (summary_executes good_raw 64 16 (ex_start ++ [LNetErr []])) as (s & evs & E & S); [apply ex_start_legal; reflexivity|vm_compute; reflexivity|].
  assert (W : option_map (fun p => Ring.g_w (n_ring (fst p))) (nrun (Connect good_raw 64 16) (ex_start ++ [LNetErr []])) = Some Ring.WIdle) by (vm_compute; reflexivity).
  rewrite (proj2 E) in W. cbn [option_map fst] in W. injection W as W.
  unfold summary in S. cbn [fst snd] in S. injection S as A1 A2 A3 A4 A5 A6 A7 A8 A9 A10 A11 A12 A13.
  exists s, evs. split; [exact E|]. pose proof (is_waiting_waits _ _ A3) as Hw. split; [exact Hw|]. intros sched s' evs' Hl Hn H.
  destruct (cut_off_for_ever sched s s' evs' 0 ltac:(unfold cut_off; rewrite A9; auto 10) Hw Hl Hn H) as (R1 & R2 & _). split; [exact R1|apply waits_stuck, R2].
Qed.
Print Assumptions C38_connection_lost_refuted.
(** ... and in general so for every call waiting when the connection was lost ... *)
Theorem C38_cut_off_refuted : forall R (sched : list (nlabel R)) s s' e k, cut_off s -> waits (n_conn s) k -> Forall nlegal sched -> ~ In LClose sched ->
  nrun s sched = Some (s', e) -> returns_of k e = [] /\ waits (n_conn s') k /\ cut_off s'.
Proof. exact @cut_off_for_ever. Qed.
Print Assumptions C38_cut_off_refuted.
(** ... and a call of Close that returns leaves the call waiting for ever. *)
Definition ex_close : list (nlabel Z) := ex_start ++ [LClose; LCloser 0; LCloser 0; LCloser 0; LRing Ring.RDone] ++ rsteps 9 ++ [LLoop; LNetErr []; LCloser 0; LCloser 0].
Theorem C38_after_Close_refuted : exists s evs, nexecutes good_raw 64 16 ex_close s evs /\ n_closers s = [KReturned] /\ returns_of 0 evs = [] /\ waits (n_conn s) 0 /\
  forall sched s' evs', Forall nlegal sched -> nrun s sched = Some (s', evs') -> returns_of 0 evs' = [] /\ nstep s' (LCall 0) = None.
Proof.
  edestruct (summary_executes good_raw 64 16 ex_close) as (s & evs & E & S); [apply ex_start_legal; reflexivity|vm_compute; reflexivity|].
  unfold summary in S. cbn [fst snd] in S. injection S as A1 A2 A3 A4 A5 A6 A7 A8 A9 A10 A11 A12 A13.
  exists s, evs. split; [exact E|]. split; [assumption|]. split; [assumption|]. pose proof (is_waiting_waits _ _ A3) as Hw. split; [exact Hw|]. intros sched s' evs' Hl H.
  destruct (done_for_ever _ _ _ _ _ _ _ E A9 Hw sched s' evs' Hl H) as (R1 & R2). split; [exact R1|apply waits_stuck, R2].
Qed.
Print Assumptions C38_after_Close_refuted.

(** ** C40.  Full statement: the value of a response returned by Do does not change:
    for every later state s', resolves (c_schema c) (s_rbuf s') r = resolves (c_schema c) (s_rbuf s) r,
    where r is the response, its byte fields being windows of the receive buffer
    (Alias.v; [alias_link] relates it to Decode).  It is false for every
    response with a non-empty byte field: the next frame can alter it. *)
Theorem C40_next_frame_refuted : forall R raw cap (sched : list (clabel R)) s evs fs v size r d', 4 <= cap -> executes raw cap sched s evs ->
  s_crashed s = false -> s_mpc s = MHead -> 4 <= size <= cap -> cap < 2 ^ 31 ->
  vdecodes fs v (vzeros fs) (mkDecoder (s_rbuf s) size 4) = DOk r d' ->
  (exists o n, In (o, n) (windowss fs r) /\ 0 < n) ->
  exists body s' evs', Forall is_byte body /\ zlen body = size /\ crun s [MRead (be 4 size); MRead body] = Some (s', evs') /\ s_crashed s' = false /\
    resolves fs (s_rbuf s') r <> resolves fs (s_rbuf s) r.
Proof. exact @next_frame_alters. Qed.
Print Assumptions C40_next_frame_refuted.
(** For instance: SyncGroup returns the assignment [1;2;3] to its caller; after the
    next frame the caller reads [9;9;9]. *)
Definition ex_sync : list (clabel SyncGroupResponse) := DoCall ex_enc (SyncGroupResponse_Decode 0 SyncGroupResponse_zero) :: repeat (CStep 0) 6 ++ [MStep;
  MRead [0;0;0;13]; MRead [0;0;0;1; 0;0; 0;0;0;3; 1;2;3]; MStep; MStep; CStep 0; MStep].
Definition ex_next : list (clabel SyncGroupResponse) := [MRead [0;0;0;13]; MRead [0;0;0;7; 9;9; 9;9;9;9; 9;9;9]].
Definition ex_held : vdens SyncGroupResponse_schema := (0, (0, (Window 10 3, tt))).
Theorem C40_SyncGroup_refuted : exists s evs s' evs' d', executes good_raw 64 ex_sync s evs /\
  returns_of 0 evs = [Reply (Value (mkSyncGroupResponse 0 0 (Some [1;2;3])))] /\
  vdecodes SyncGroupResponse_schema 0 (vzeros SyncGroupResponse_schema) (mkDecoder (s_rbuf s) 13 4) = DOk ex_held d' /\
  SyncGroupResponse_of (resolves SyncGroupResponse_schema (s_rbuf s) ex_held) = mkSyncGroupResponse 0 0 (Some [1;2;3]) /\
  crun s ex_next = Some (s', evs') /\ s_crashed s' = false /\
  SyncGroupResponse_of (resolves SyncGroupResponse_schema (s_rbuf s') ex_held) = mkSyncGroupResponse 0 0 (Some [9;9;9]).
Proof.
  assert (E1 : option_map (fun p => (returns_of 0 (snd p), s_rbuf (fst p))) (crun (Connected good_raw 64) ex_sync) =
    Some ([Reply (Value (mkSyncGroupResponse 0 0 (Some [1;2;3])))], [0;0;0;1; 0;0; 0;0;0;3; 1;2;3] ++ repeat 0 51)) by (vm_compute; reflexivity).
  assert (E2 : option_map (fun p => (s_crashed (fst p), s_rbuf (fst p))) (crun (Connected good_raw 64) (ex_sync ++ ex_next)) =
    Some (false, [0;0;0;7; 9;9; 9;9;9;9; 9;9;9] ++ repeat 0 51)) by (vm_compute; reflexivity).
  rewrite crun_app in E2. destruct (crun (Connected good_raw 64) ex_sync) as [[s evs]|] eqn:Er; [|discriminate].
  destruct (crun s ex_next) as [[s' evs']|] eqn:Er'; [|discriminate]. cbn [option_map fst snd] in E1, E2.
  exists s, evs, s', evs', (mkDecoder (s_rbuf s) 13 13). injection E1 as H1 H2. injection E2 as H3 H4.
  split; [split; [|exact Er]|].
  - unfold ex_sync. constructor; [cbn; intros id; exists [be 4 id]; apply Runs_PutInt32|]. cbn [repeat app]. repeat (constructor; [first [exact I|cbn; repeat (constructor; [unfold is_byte; lia|]); constructor]|]). constructor.
  - split; [exact H1|]. rewrite H2, H4. split; [vm_compute; reflexivity|]. split; [vm_compute; reflexivity|]. split; [exact Er'|]. split; [exact H3|]. vm_compute. reflexivity.
Qed.
Print Assumptions C40_SyncGroup_refuted.
(** What holds, missing: the responses with byte fields.  A response of a version
    without byte fields is the same whatever the buffer holds; *)
Theorem C40_never_altered_partial : forall name c, In (name, c) all_codecs -> forall v, have_bytes (c_schema c) v = false ->
  forall d r d', vdecodes (c_schema c) v (vzeros (c_schema c)) d = DOk r d' ->
  forall buf1 buf2, resolves (c_schema c) buf1 r = resolves (c_schema c) buf2 r.
Proof. exact never_altered. Qed.
Print Assumptions C40_never_altered_partial.
(** any other changes exactly when a read writes other bytes into one of its windows. *)
Theorem C40_changes_partial : forall R raw cap (sched : list (clabel R)) s evs a s' e, 4 <= cap -> executes raw cap sched s evs -> legal a -> cstep s a = Some (s', e) -> s_crashed s' = false ->
  forall fs (r : vdens fs),
  resolves fs (s_rbuf s') r = resolves fs (s_rbuf s) r <->
  match a with MRead bs => forall o n, In (o, n) (windowss fs r) -> window (overwrite (s_rbuf s) bs) o n = window (s_rbuf s) o n | _ => True end.
Proof. exact @held_changes. Qed.
Print Assumptions C40_changes_partial.
(** The windows are those of the decoded bytes: Decode is decoding to windows and reading them. *)
Theorem C40_Decode : forall name c, In (name, c) all_codecs -> forall v d, dec_ok d ->
  c_decode c v (c_zero c) d = match vdecodes (c_schema c) v (vzeros (c_schema c)) d with
                              | DOk r d' => DOk (c_of c (resolves (c_schema c) (d_raw d) r)) d'
                              | DErr x d' => DErr x d'
                              | DPanic => DPanic
                              end.
Proof. exact alias_link. Qed.
Print Assumptions C40_Decode.
(** The responses concerned, at one of the versions 0 to 11 at least. *)
Definition is_response (name : string) : bool := String.eqb (substring (String.length name - 8) 8 name) "Response".
Example C40_affected : map fst (filter (fun p => is_response (fst p) && existsb (have_bytes (c_schema (snd p))) [0;1;2;3;4;5;6;7;8;9;10;11]) all_codecs) =
  ["FetchResponse"; "JoinGroupResponse"; "SyncGroupResponse"; "DescribeGroupsResponse"; "SaslAuthenticateResponse"; "CreateDelegationTokenResponse"; "DescribeDelegationTokenResponse"]%string.
Proof. vm_compute. reflexivity. Qed.
Example C40_example : In ("MetadataResponse"%string, MetadataResponse_codec) all_codecs /\ have_bytes (c_schema MetadataResponse_codec) 8 = false.
Proof. split; [cbn; tauto|reflexivity]. Qed.

(** ** C53.  Full statement: a call of Close returns, given that the goroutines get their turns:
      nexecutes raw size cap sched s evs -> ~ dead s -> nth_error (n_closers s) k = Some p ->
        every execution from s in which enabled goroutines move is finite up to
        the steps of others, keeps ~ dead, and ends with nth_error (n_closers s') k = Some KReturned.
    It is false: Close makes a ReadN that had only a part of the header return what was in
    the receive buffer, the message loop takes this for a size, and the process dies; here
    two bytes 127, 255 had arrived. *)
Definition ex_crash : list (nlabel Z) := (LDo ex_enc dInt32 :: repeat (LCall 0) 6) ++ LNet [127;255] :: wsteps 6 ++ LLoop :: rsteps 8 ++
  [LClose; LCloser 0; LCloser 0; LCloser 0; LRing Ring.RDone] ++ rsteps 10.
Theorem C53_crash_refuted : exists s evs, nexecutes good_raw 64 16 ex_crash s evs /\ n_dead s = false /\ s_crashed (n_conn s) = false /\ n_closers s = [KMessage] /\
  (exists sched' s' evs', Forall (fun a => a = LRing Ring.RStep \/ a = LRing Ring.RDone) sched' /\ nrun s sched' = Some (s', evs') /\ n_dead s' = true) /\
  forall sched' s' evs', Forall nlegal sched' -> nrun s sched' = Some (s', evs') -> s_mpc (n_conn s') <> MDone.
Proof.
  edestruct (summary_executes good_raw 64 16 ex_crash) as (s & evs & E & S); [|vm_compute; reflexivity|].
  { unfold ex_crash. apply Forall_app. split; [|apply nlegalb_ok; reflexivity]. constructor; [cbn; intros id; exists [be 4 id]; apply Runs_PutInt32|]. apply nlegalb_ok. reflexivity. }
  unfold summary in S. cbn [fst snd] in S. injection S as A1 A2 A3 A4 A5 A6 A7 A8 A9 A10 A11 A12 A13.
  assert (D : doomed 16 s) by (eexists; split; [exact A9|lia]).
  exists s, evs. split; [exact E|]. split; [assumption|]. split; [assumption|]. split; [assumption|]. split.
  - exact (doomed_crashes good_raw 64 16 ex_crash s evs ltac:(lia) E A11 A7 A8 D).
  - intros sched' s' evs' Hl H F. destruct (doomed_for_ever good_raw 64 16 ex_crash s evs ltac:(lia) E D sched' s' evs' Hl H) as (n & Hn & _). congruence.
Qed.
Print Assumptions C53_crash_refuted.
(** What holds, missing: the crash.  Once Close has cancelled the context and closed ring
    and socket, the connection's goroutines make boundedly many moves, ... *)
Theorem C53_bounded_partial : forall R raw size cap (sched : list (nlabel R)) s evs, 4 <= cap -> nexecutes raw size cap sched s evs -> closing s ->
  forall sched' s' evs', Forall nlegal sched' -> nrun s sched' = Some (s', evs') -> ncount sched' <= moves_left s + 1.
Proof. exact @close_bounded. Qed.
Print Assumptions C53_bounded_partial.
(** ... one of them can move until both have returned or the process is dead, ... *)
Theorem C53_progress_partial : forall R raw size cap (sched : list (nlabel R)) s evs, 4 <= cap -> nexecutes raw size cap sched s evs -> closing s ->
  dead s \/ finished s \/ exists a s' e, moves a = true /\ nlegal a /\ nstep s a = Some (s', e).
Proof. exact @close_progress. Qed.
Print Assumptions C53_progress_partial.
(** ... and then Close returns by its own steps. *)
Theorem C53_returns_partial : forall R (s : client R) k p, ~ dead s -> closing s -> finished s -> nth_error (n_closers s) k = Some p ->
  exists n s' evs', nrun s (repeat (LCloser k) n) = Some (s', evs') /\ nth_error (n_closers s') k = Some KReturned /\ evs' = [].
Proof. exact @close_returns. Qed.
Print Assumptions C53_returns_partial.
Example C53_example : exists s evs, nexecutes good_raw 64 16 ex_close s evs /\ closing s /\ finished s /\ n_closers s = [KReturned].
Proof.
  edestruct (summary_executes good_raw 64 16 ex_close) as (s & evs & E & S); [apply ex_start_legal; reflexivity|vm_compute; reflexivity|].
  unfold summary in S. cbn [fst snd] in S. injection S as A1 A2 A3 A4 A5 A6 A7 A8 A9 A10 A11 A12 A13.
  exists s, evs. split; [exact E|]. unfold closing, finished. auto 10.
Qed.
