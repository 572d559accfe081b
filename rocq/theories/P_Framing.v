(** * Properties of whole connections: C36, C37 *)
From Coq Require Import String.
From Verif Require Import GoBase GoLemmas Encoder Decoder Spec SchemaSpec EncProofs DecProofs Link AllMessages MsgProps Alias ConnAlias BufIO Msg01 Msg02 Msg04
  Conn ConnSpec ConnProofs ConnProps ConnFrames ConnRing ConnRingSpec ConnRingProofs ConnRingProps ConnClose P_Conn.
From Verif Require Ring RingSpec.
Local Open Scope Z_scope.
Local Open Scope list_scope.
Ltac Zify.zify_post_hook ::= idtac.

(** [nexecutes raw size cap sched s evs]: the schedule is an execution of a new
    connection with a ring of [size] bytes (5,000,000 in the library) and receive
    buffers of [cap] bytes (2,000,000; the examples below use smaller ones, which are quicker to compute with), ending in [s], in which [evs] is seen. *)

(** The composition adds no restriction of its own: in a live state every step the
    ring can make inside a call, and every step of the message loop, is possible. *)
Theorem composition_is_free : forall R raw size cap (sched : list (nlabel R)) s evs, 4 <= cap -> nexecutes raw size cap sched s evs ->
  n_dead s = false -> s_crashed (n_conn s) = false ->
  (forall b, inside b = true -> Ring.step (n_ring s) b <> None -> nstep s (LRing b) <> None) /\
  (cstep (n_conn s) MStep <> None -> nstep s LLoop <> None) /\
  (n_rd s = RdRead -> s_rawclosed (n_conn s) = false -> forall bs, nstep s (LNet bs) <> None).
Proof. exact @composition_free. Qed.
Print Assumptions composition_is_free.

(** A summary of a state and its events, small enough to be computed. *)
Definition summary {R} (p : client R * list (event R)) :=
  (frames (snd p), returns_of 0 (snd p), is_waiting (n_conn (fst p)) 0,
   (n_rd (fst p), RingSpec.occupancy (n_ring (fst p)), Ring.r_waiting (Ring.g_r (n_ring (fst p))), n_dead (fst p), s_crashed (n_conn (fst p))),
   (s_mpc (n_conn (fst p)), s_closed (n_conn (fst p)), Ring.g_closed (n_ring (fst p)), s_rawclosed (n_conn (fst p)), n_closers (fst p))).
Lemma summary_executes {R} raw size cap (sched : list (nlabel R)) x : Forall nlegal sched -> option_map summary (nrun (Connect raw size cap) sched) = Some x ->
  exists s evs, nexecutes raw size cap sched s evs /\ summary (s, evs) = x.
Proof.
  intros Hl H. destruct (nrun (Connect raw size cap) sched) as [[s evs]|] eqn:E; [|discriminate]. injection H as <-. exists s, evs. repeat split; assumption.
Qed.
Ltac all_nlegal := repeat (apply Forall_cons || apply Forall_nil || apply Forall_app; [split|]); cbn [nlegal];
  try (intros id; exists [be 4 id]; apply Runs_PutInt32); try exact I; repeat (apply Forall_cons || apply Forall_nil); unfold is_byte; lia.
Definition nlegalb {R} (a : nlabel R) : bool := match a with LDo _ _ => false | LNet bs => forallb (fun b => (0 <=? b) && (b <? 256)) bs | _ => true end.
Lemma nlegalb_ok {R} (sched : list (nlabel R)) : forallb nlegalb sched = true -> Forall nlegal sched.
Proof.
  intros H. apply Forall_forall. intros a Ha. rewrite forallb_forall in H. specialize (H a Ha). destruct a; try exact I; try discriminate. cbn in *.
  apply Forall_forall. intros b Hb. rewrite forallb_forall in H. specialize (H b Hb). apply andb_true_iff in H. unfold is_byte. lia.
Qed.

Definition rsteps {R} n : list (nlabel R) := repeat (LRing Ring.RStep) n.
Definition wsteps {R} n : list (nlabel R) := repeat (LRing Ring.WStep) n.
(** A call sends its request and the message loop waits for a header. *)
Definition ex_start : list (nlabel Z) := LDo ex_enc dInt32 :: repeat (LCall 0) 6 ++ LLoop :: rsteps 5.
(** The response to it: frame size 8, correlation id 1, value 7. *)
Definition ex_stream : list Z := [0;0;0;8; 0;0;0;1; 0;0;0;7].
(** It arrives in one piece. *)
Definition ex_one : list (nlabel Z) := ex_start ++ LNet ex_stream :: wsteps 16 ++ LRing Ring.SyncRead :: rsteps 18 ++ [LLoop; LLoop; LLoop] ++ rsteps 5 ++ [LCall 0].
(** It arrives in two pieces, of 2 and 10 bytes. *)
Definition ex_two : list (nlabel Z) := ex_start ++ LNet [0;0] :: wsteps 6 ++ LRing Ring.SyncRead :: rsteps 4 ++
  LNet [0;8; 0;0;0;1; 0;0;0;7] :: wsteps 14 ++ rsteps 5 ++ LLoop :: rsteps 13 ++ LLoop :: rsteps 9.
Lemma ex_start_legal rest : forallb nlegalb rest = true -> Forall nlegal (ex_start ++ rest).
Proof. intros H. apply Forall_app. split; [|apply nlegalb_ok, H]. constructor; [cbn; intros id; exists [be 4 id]; apply Runs_PutInt32|]. apply nlegalb_ok. reflexivity. Qed.

(** ** C36.  Full statement: for all executions sched1, sched2 (ring size >= 2, receive
    buffer >= 4) of which the network delivered the same bytes and which are both
    drained, frames evs1 = frames evs2, and these are the frames of the stream:
      nexecutes raw size cap sched s evs -> drained s -> n_dead s = false ->
        exists rest, parses (arrived sched) (frames evs) rest /\ incomplete rest.
    It is false (here with a ring of 64 and receive buffers of 16 bytes): the two executions below differ only
    in how the response was cut into pieces; in the first the call returns the value 7, in the
    second the message loop sees two frames that were never sent and the call
    waits although its response has arrived and been consumed. *)
Theorem C36_segmentation_refuted : exists s1 evs1 s2 evs2,
  nexecutes good_raw 64 16 ex_one s1 evs1 /\ nexecutes good_raw 64 16 ex_two s2 evs2 /\
  arrived ex_one = ex_stream /\ arrived ex_two = ex_stream /\ drained s1 /\ drained s2 /\ n_dead s1 = false /\ n_dead s2 = false /\
  frames evs1 = [[0;0;0;1; 0;0;0;7]] /\ returns_of 0 evs1 = [Reply (Value 7)] /\
  frames evs2 = [[]; [0]] /\ returns_of 0 evs2 = [] /\ waits (n_conn s2) 0.
Proof.
  edestruct (summary_executes good_raw 64 16 ex_one) as (s1 & evs1 & E1 & S1); [apply ex_start_legal; reflexivity|vm_compute; reflexivity|].
  edestruct (summary_executes good_raw 64 16 ex_two) as (s2 & evs2 & E2 & S2); [apply ex_start_legal; reflexivity|vm_compute; reflexivity|].
  exists s1, evs1, s2, evs2. unfold summary in S1, S2. cbn [fst snd] in S1, S2. injection S1 as A1 A2 A3 A4 A5 A6 A7 A8 A9 A10 A11 A12 A13. injection S2 as B1 B2 B3 B4 B5 B6 B7 B8 B9 B10 B11 B12 B13.
  split; [exact E1|]. split; [exact E2|]. split; [reflexivity|]. split; [reflexivity|]. split; [split; [exact A4|split; assumption]|]. split; [split; [exact B4|split; assumption]|].
  repeat (split; [assumption|]). apply is_waiting_waits, B3.
Qed.
Print Assumptions C36_segmentation_refuted.
(** No way of cutting the stream helps: here it is one response, in a piece of its
    own.  The message loop takes it between the moment WriteN makes it visible and
    WriteN's Release, goes on to wait for the next header, and is woken by that Release.
    It sees a second frame, which nobody sent. *)
Definition ex_own : list (nlabel Z) := LDo ex_enc dInt32 :: repeat (LCall 0) 6 ++ LNet ex_stream :: wsteps 15 ++ LLoop :: rsteps 20 ++
  LLoop :: LLoop :: LLoop :: rsteps 5 ++ LCall 0 :: wsteps 1 ++ LRing Ring.SyncRead :: rsteps 9.
Definition pieces {R} (sched : list (nlabel R)) : list (list Z) := flat_map (fun a => match a with LNet bs => [bs] | _ => [] end) sched.
Theorem C36_own_piece_refuted : exists s evs, nexecutes good_raw 64 16 ex_own s evs /\
  pieces ex_own = [be 4 8 ++ [0;0;0;1; 0;0;0;7]] /\ n_dead s = false /\ returns_of 0 evs = [Reply (Value 7)] /\
  frames evs = [[0;0;0;1; 0;0;0;7]; []].
Proof.
  edestruct (summary_executes good_raw 64 16 ex_own) as (s & evs & E & S);
    [constructor; [cbn; intros id; exists [be 4 id]; apply Runs_PutInt32|]; apply nlegalb_ok; reflexivity|vm_compute; reflexivity|].
  exists s, evs. unfold summary in S. cbn [fst snd] in S. injection S as A1 A2 A3 A4 A5 A6 A7 A8 A9 A10 A11 A12 A13.
  split; [exact E|]. split; [reflexivity|]. split; [exact A7|]. split; [exact A2|exact A1].
Qed.
Print Assumptions C36_own_piece_refuted.

(** What holds, missing: the executions in which a Wait of the ring returns before
    the rest of the call can go through ([good_step]; that is C27).
    The frames seen are then the first frames of the stream, ... *)
Theorem C36_frames_partial : forall R raw size cap (sched : list (nlabel R)) s evs fs rest, 2 <= size < 2 ^ 31 -> 4 <= cap -> nexecutes raw size cap sched s evs ->
  all_nsteps good_step (Connect raw size cap) sched -> parses (arrived sched) fs rest -> incomplete rest ->
  exists hs, fs = frames evs ++ hs.
Proof. exact @frames_of_stream. Qed.
Print Assumptions C36_frames_partial.
(** ... all of them once the connection is drained, ... *)
Theorem C36_all_frames_partial : forall R raw size cap (sched : list (nlabel R)) s evs, 2 <= size < 2 ^ 31 -> 4 <= cap -> nexecutes raw size cap sched s evs ->
  all_nsteps good_step (Connect raw size cap) sched -> n_dead s = false -> drained s ->
  exists rest, parses (arrived sched) (frames evs) rest /\ incomplete rest.
Proof. exact @all_frames_of_stream. Qed.
Print Assumptions C36_all_frames_partial.
(** ... whatever the pieces. *)
Theorem C36_segmentation_partial : forall R raw1 raw2 size cap (sched1 sched2 : list (nlabel R)) s1 s2 evs1 evs2, 2 <= size < 2 ^ 31 -> 4 <= cap ->
  nexecutes raw1 size cap sched1 s1 evs1 -> nexecutes raw2 size cap sched2 s2 evs2 ->
  all_nsteps good_step (Connect raw1 size cap) sched1 -> all_nsteps good_step (Connect raw2 size cap) sched2 ->
  n_dead s1 = false -> n_dead s2 = false -> drained s1 -> drained s2 -> arrived sched1 = arrived sched2 -> frames evs1 = frames evs2.
Proof. exact @segmentation. Qed.
Print Assumptions C36_segmentation_partial.
(** The message loop itself, given the bytes in order, frames them correctly,
    however ReadN gets them. *)
Theorem C36_loop : forall R raw cap (sched : list (clabel R)) s evs, 4 <= cap -> executes raw cap sched s evs ->
  exists rest, parses (read_bytes sched) (frames evs) rest.
Proof. intros. eexists. eapply loop_parses; eassumption. Qed.
Print Assumptions C36_loop.
(** Streams have at most one reading as frames. *)
Theorem C36_parse_unique : forall w fs1 r1 fs2 r2, parses w fs1 r1 -> incomplete r1 -> parses w fs2 r2 -> incomplete r2 -> fs1 = fs2 /\ r1 = r2.
Proof. intros w fs1 r1 fs2 r2 H1 H2 H3 H4. exact (parses_complete_unique _ _ _ _ _ H1 H2 H3 H4). Qed.
Print Assumptions C36_parse_unique.

Definition goodb (g : Ring.ring) (b : Ring.label) : bool :=
  match RingSpec.reader_wakes g b with Some k => k <=? RingSpec.occupancy g | None => true end &&
  match RingSpec.writer_wakes g b with Some k => RingSpec.occupancy g + k <=? Ring.g_size g - 2 | None => true end.
Fixpoint all_goodb {R} (s : client R) (sched : list (nlabel R)) : bool :=
  match sched with
  | [] => true
  | a :: rest => match a with LRing b => goodb (n_ring s) b | _ => true end && match nstep s a with Some (s', _) => all_goodb s' rest | None => true end
  end.
Lemma all_goodb_ok {R} (sched : list (nlabel R)) : forall s, all_goodb s sched = true -> all_nsteps good_step s sched.
Proof.
  induction sched as [|a sched IH]; intros s H; [exact I|]. cbn [all_goodb all_nsteps] in *. apply andb_true_iff in H. destruct H as [H1 H2]. split.
  - destruct a; try exact I. cbn. unfold goodb in H1. apply andb_true_iff in H1. destruct H1 as [H1 H3]. split; intros k Hk; rewrite Hk in *; lia.
  - destruct (nstep s a) as [[s' e]|]; [apply IH, H2|exact I].
Qed.
(** The response in one piece, and again with a good wake after each of two pieces. *)
Definition ex_two_good : list (nlabel Z) := ex_start ++ LNet [0;0;0;8; 0;0] :: wsteps 10 ++ LRing Ring.SyncRead :: rsteps 14 ++
  LNet [0;1; 0;0;0;7] :: wsteps 10 ++ LRing Ring.SyncRead :: rsteps 8 ++ [LLoop; LLoop; LLoop] ++ rsteps 5 ++ [LCall 0].
Example C36_example : exists s1 evs1 s2 evs2, nexecutes good_raw 64 16 ex_one s1 evs1 /\ nexecutes good_raw 64 16 ex_two_good s2 evs2 /\
  all_nsteps good_step (Connect good_raw 64 16) ex_one /\ all_nsteps good_step (Connect good_raw 64 16) ex_two_good /\
  n_dead s1 = false /\ n_dead s2 = false /\ drained s1 /\ drained s2 /\ arrived ex_one = arrived ex_two_good /\ frames evs2 = [[0;0;0;1; 0;0;0;7]].
Proof.
  edestruct (summary_executes good_raw 64 16 ex_one) as (s1 & evs1 & E1 & S1); [apply ex_start_legal; reflexivity|vm_compute; reflexivity|].
  edestruct (summary_executes good_raw 64 16 ex_two_good) as (s2 & evs2 & E2 & S2); [apply ex_start_legal; reflexivity|vm_compute; reflexivity|].
  exists s1, evs1, s2, evs2. unfold summary in S1, S2. cbn [fst snd] in S1, S2. injection S1 as A1 A2 A3 A4 A5 A6 A7 A8 A9 A10 A11 A12 A13. injection S2 as B1 B2 B3 B4 B5 B6 B7 B8 B9 B10 B11 B12 B13.
  split; [exact E1|]. split; [exact E2|]. split; [apply all_goodb_ok; vm_compute; reflexivity|]. split; [apply all_goodb_ok; vm_compute; reflexivity|].
  split; [assumption|]. split; [assumption|]. split; [split; [exact A4|split; assumption]|]. split; [split; [exact B4|split; assumption]|]. split; [reflexivity|assumption].
Qed.

(** ** C37.  Full statement: for every size field and content, from any reachable
    state in which the message loop waits for a header,
      crun s [MRead (be 4 size); MRead body; MStep; ...] reaches MTop, not crashed, and
      a registered call the frame belongs to gets a reply.
    It is false.  A size field larger than the receive buffer takes the process down: *)
Theorem C37_big_size_refuted : forall R raw cap (sched : list (clabel R)) s evs size, 4 <= cap -> executes raw cap sched s evs ->
  s_crashed s = false -> s_mpc s = MHead -> is_int32 size -> cap < size ->
  exists s', crun s [MRead (be 4 size); MReadPanic] = Some (s', []) /\ s_crashed s' = true /\
    forall bs s1 e1, cstep s (MRead (be 4 size)) = Some (s1, e1) -> cstep s1 (MRead bs) = None.
Proof. exact @big_size_crashes. Qed.
Print Assumptions C37_big_size_refuted.
(** with the ring in between, the message loop never gets past such a header, ... *)
Theorem C37_stuck_refuted : forall R raw size cap (sched : list (nlabel R)) s evs, 4 <= cap -> nexecutes raw size cap sched s evs -> doomed cap s ->
  forall sched' s' evs', Forall nlegal sched' -> nrun s sched' = Some (s', evs') -> doomed cap s'.
Proof. exact @doomed_for_ever. Qed.
Print Assumptions C37_stuck_refuted.
(** ... and the process dies when enough bytes arrive, here with receive buffers of 8
    bytes, a size field of 9 and the 9 bytes it announces. *)
Definition ex_big : list (nlabel Z) := ex_start ++ LNet [0;0;0;9; 0;0;0;1; 0;0;0;7; 9] :: wsteps 17 ++ LRing Ring.SyncRead :: rsteps 17.
Theorem C37_dies_refuted : exists s evs, nexecutes good_raw 64 8 ex_big s evs /\ n_dead s = true /\ forall a, nstep s a = None.
Proof.
  edestruct (summary_executes good_raw 64 8 ex_big) as (s & evs & E & S); [apply ex_start_legal; reflexivity|vm_compute; reflexivity|].
  unfold summary in S. cbn [fst snd] in S. injection S as A1 A2 A3 A4 A5 A6 A7 A8 A9 A10 A11 A12 A13.
  exists s, evs. split; [exact E|]. split; [assumption|]. intros a. apply crashed_stops. left. assumption.
Qed.
Print Assumptions C37_dies_refuted.
(** A response that makes its decoder panic (C13) takes the process down as well,
    for every response type and version that has one. *)
Theorem C37_panic_refuted : forall name c, In (name, c) all_codecs -> forall v, safes (c_schema c) v = false ->
  exists bs, Forall is_byte bs /\ forall old raw cap sched (s : conn (c_type c)) evs id k call, 4 <= cap -> executes raw cap sched s evs ->
    s_crashed s = false -> s_mpc s = MHead -> is_int32 id -> s_requests s id = Some k -> nth_error (s_calls s) k = Some call -> k_dec call = c_decode c v old ->
    4 + zlen bs <= cap -> cap < 2 ^ 31 ->
    exists s' evs', crun s [MRead (be 4 (4 + zlen bs)); MRead (be 4 id ++ bs); MStep; MStep] = Some (s', evs') /\ s_crashed s' = true.
Proof.
  intros name c Hin v Hs. destruct (messages_panic name c Hin v Hs) as (bs & Hb & Hp). exists bs. split; [exact Hb|].
  intros old raw cap sched s evs id k call Hc Hx Hcr Hm Hid Hr Hk Hd Hz Hcap. eapply panic_crashes; try eassumption.
  intros d Hok Hf. rewrite Hd. apply (Hp old d []); [exact Hok|]. rewrite app_nil_r. exact Hf.
Qed.
Print Assumptions C37_panic_refuted.
(** For instance a Fetch response of 66 bytes with null records. *)
Definition ex_fetch : list (clabel FetchResponse) := DoCall ex_enc (FetchResponse_Decode 11 FetchResponse_zero) :: repeat (CStep 0) 6 ++ [MStep;
  MRead [0;0;0;66];
  MRead ([0;0;0;1; 0;0;0;0; 0;0; 0;0;0;0; 0;0;0;1; 0;0; 0;0;0;1; 0;0;0;0; 0;0] ++ repeat 0 24 ++ [0;0;0;0; 0;0;0;0; 255;255;255;255]); MStep; MStep].
Theorem C37_fetch_refuted : exists s evs, executes good_raw 128 ex_fetch s evs /\ s_crashed s = true.
Proof.
  assert (E : option_map (fun p => s_crashed (fst p)) (crun (Connected good_raw 128) ex_fetch) = Some true) by (vm_compute; reflexivity).
  destruct (crun (Connected good_raw 128) ex_fetch) as [[s evs]|] eqn:Er; [|discriminate]. cbn [option_map fst] in E. injection E as E.
  exists s, evs. split; [|exact E]. split; [|exact Er]. unfold ex_fetch.
  constructor; [cbn; intros id; exists [be 4 id]; apply Runs_PutInt32|]. cbn [repeat app]. repeat (constructor; [first [exact I|cbn; repeat (constructor; [unfold is_byte; lia|]); constructor]|]). constructor.
Qed.
Print Assumptions C37_fetch_refuted.
(** What holds, missing: size fields beyond the receive buffer and panicking decoders:
    every other frame is processed, the caller it belongs to gets a reply, and the
    loop is back at its start. *)
Theorem C37_processed_partial : forall R raw cap (sched : list (clabel R)) s evs size body, 4 <= cap -> executes raw cap sched s evs ->
  s_crashed s = false -> s_mpc s = MHead -> is_int32 size -> size <= cap -> Forall is_byte body -> zlen body = Z.max 0 size ->
  (forall k c buf, nth_error (s_calls s) k = Some c -> zlen buf = cap -> firstn (Z.to_nat size) buf = body -> k_dec c (mkDecoder buf size 4) <> DPanic) ->
  exists n s' evs', crun s (MRead (be 4 size) :: MRead body :: repeat MStep n) = Some (s', evs') /\ s_crashed s' = false /\
    s_mpc s' = MTop /\ frames evs' = [body] /\
    forall id k, carries body size id -> s_requests s id = Some k -> exists r, In (EReply k r) evs'.
Proof. exact @frame_processed. Qed.
Print Assumptions C37_processed_partial.
(** And nothing else takes the process down. *)
Theorem C37_only_partial : forall R raw cap (sched : list (clabel R)) s evs a s' e, 4 <= cap -> executes raw cap sched s evs -> legal a -> cstep s a = Some (s', e) ->
  s_crashed s' = true ->
  (a = MReadPanic /\ exists size, s_mpc s = MBody size /\ cap < size) \/
  (a = MStep /\ exists k c buf size id, nth_error (s_calls s) k = Some c /\ In (EFrame buf size) evs /\ carries buf size id /\ In (EId k id) evs /\
     k_dec c (mkDecoder buf size 4) = DPanic).
Proof. exact @crash_only. Qed.
Print Assumptions C37_only_partial.
(** The reachable state of these theorems: a call is registered and the loop waits
    for a header; its decoder does not panic on any bytes. *)
Definition ex_header (dec : Dec Z) : list (clabel Z) := DoCall ex_enc dec :: repeat (CStep 0) 6 ++ [MStep].
Example C37_example : exists s evs, executes good_raw 128 (ex_header dInt32) s evs /\ s_crashed s = false /\ s_mpc s = MHead /\ s_requests s 1 = Some 0%nat /\
  (forall k c, nth_error (s_calls s) k = Some c -> k_dec c = dInt32) /\ (forall d, dec_ok d -> dInt32 d <> DPanic).
Proof.
  assert (E : forall dec, option_map (fun p => (s_crashed (fst p), s_mpc (fst p), s_requests (fst p) 1, map k_dec (s_calls (fst p)))) (crun (Connected good_raw 128) (ex_header dec)) = Some (false, MHead, Some 0%nat, [dec])) by (intros dec; vm_compute; reflexivity).
  specialize (E dInt32).
  destruct (crun (Connected good_raw 128) (ex_header dInt32)) as [[s evs]|] eqn:Er; [|discriminate]. cbn [option_map fst] in E. injection E as E1 E2 E3 E4.
  exists s, evs. split; [split; [|exact Er]|].
  - unfold ex_header. constructor; [cbn; intros id; exists [be 4 id]; apply Runs_PutInt32|]. cbn [repeat app]. repeat (constructor; [exact I|]). constructor.
  - repeat (split; [assumption|]). split; [|exact NoPanic_int32].
    intros k c H. apply (map_nth_error k_dec) in H. rewrite E4 in H. destruct k as [|[|k]]; try discriminate. injection H as <-. reflexivity.
Qed.
