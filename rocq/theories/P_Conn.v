(** * Connection properties: C32 to C35, C38, C39 *)
From Verif Require Import GoBase GoLemmas Encoder Decoder Spec EncProofs DecProofs BufIO Link AllMessages MsgProofs MsgProps BrokerTable Broker BrokerSpec BrokerProofs
  RingSpec Msg01 Conn ConnSpec ConnProofs ConnProps.
Local Open Scope Z_scope.
Ltac Zify.zify_post_hook ::= idtac.

(** [executes raw cap sched s evs]: [sched] is an execution of a new connection over
    [raw] with a receive buffer of [cap] bytes (2,000,000 in the library), it ends in
    [s] and shows [evs].  Calls, message loop, closing and what ReadN returns are
    labels of [sched] in any order and number, so each theorem covers all
    interleavings, all numbers of callers and all broker behaviours.

    Every request method of the library meets the condition on EncodeFuncs in
    [executes]. *)
Lemma request_runs : forall m, In m all_methods -> forall av clientID req corr,
  exists cs, Runs (encode_request m av clientID req corr) cs /\ concat cs <> [].
Proof.
  intros m Hm av cid req corr. destruct (method_codecs_In m Hm) as [Hin _]. pose proof (codec_linked _ _ Hin) as L.
  eexists. split.
  - unfold encode_request. apply Runs_seq; [apply Runs_PutInt32|]. apply Runs_seq.
    + apply (linked_runs _ RequestHeader_linked).
    + apply (linked_runs _ L).
  - cbn [app concat]. intros F. apply app_eq_nil in F. destruct F as [F _]. discriminate F.
Qed.
Print Assumptions request_runs.

(** ** C32.  The ids handed out are 1, 2, 3, ... wrapped to int32, in order. *)
Theorem C32_ids : forall R raw cap (sched : list (clabel R)) s evs, 4 <= cap -> executes raw cap sched s evs ->
  ids evs = map (fun n => int32 (Z.of_nat n)) (List.seq 1 (length (ids evs))).
Proof. exact @ids_are. Qed.
Print Assumptions C32_ids.
Theorem C32_distinct : forall R raw cap (sched : list (clabel R)) s evs, 4 <= cap -> executes raw cap sched s evs ->
  zlen (ids evs) <= 2 ^ 32 -> NoDup (ids evs).
Proof. exact @ids_distinct. Qed.
Print Assumptions C32_distinct.
Theorem C32_calls_distinct : forall R raw cap (sched : list (clabel R)) s evs k j id, 4 <= cap -> executes raw cap sched s evs ->
  zlen (ids evs) <= 2 ^ 32 -> In (EId k id) evs -> In (EId j id) evs -> k = j.
Proof. exact @calls_distinct. Qed.
Print Assumptions C32_calls_distinct.

(** ** C33.  A Do that returns a reply has been assigned an id, a frame carrying this
    id has been received before, and the reply is what its own DecodeFunc makes
    of that frame, starting after the id. *)
Theorem C33_reply_is_own : forall R raw cap (sched : list (clabel R)) s pre k r post, 4 <= cap ->
  executes raw cap sched s (pre ++ EReturn k (Reply r) :: post) ->
  exists c id buf size, nth_error (s_calls s) k = Some c /\ In (EId k id) pre /\ In (EFrame buf size) pre /\ carries buf size id /\
    seen (k_dec c (mkDecoder buf size 4)) = Some r.
Proof. exact @reply_is_own. Qed.
Print Assumptions C33_reply_is_own.
(** For the DecodeFuncs of the library the result is determined by the bytes of the
    frame, whatever else the receive buffer holds. *)
Lemma local_seen {R} (dec : Dec R) buf size id : Local dec -> carries buf size id ->
  seen (dec (mkDecoder buf size 4)) = seen (dec (mkDecoder (firstn (Z.to_nat size) buf) size 4)).
Proof.
  intros HL (Hi & Hs & rest & E).
  assert (H4 : 4 <= size).
  { assert (zlen (firstn (Z.to_nat size) buf) <= Z.max 0 size) by (unfold zlen; rewrite firstn_length; lia).
    rewrite E, zlen_app, zlen_be in H. pose proof (zlen_nonneg rest). lia. }
  assert (Hz : zlen (firstn (Z.to_nat size) buf) = size) by (unfold zlen in *; rewrite firstn_length; lia).
  specialize (HL (mkDecoder buf size 4) (mkDecoder (firstn (Z.to_nat size) buf) size 4)).
  assert (Ho : same_outcome (dec (mkDecoder buf size 4)) (dec (mkDecoder (firstn (Z.to_nat size) buf) size 4))).
  { apply HL.
    - unfold dec_ok. cbn [d_offset d_length d_raw]. lia.
    - unfold dec_ok. cbn [d_offset d_length d_raw]. lia.
    - unfold frame. cbn [d_offset d_length d_raw]. rewrite skipn_firstn_comm. rewrite firstn_firstn. f_equal. lia. }
  destruct (dec (mkDecoder buf size 4)), (dec (mkDecoder (firstn (Z.to_nat size) buf) size 4)); cbn in Ho; try contradiction; cbn [seen]; try reflexivity.
  - destruct Ho as [-> _]. reflexivity.
  - congruence.
Qed.
Theorem C33_decodes_the_frame : forall m, In m all_methods -> forall av buf size id, carries buf size id ->
  seen (decode_response m av (mkDecoder buf size 4)) = seen (decode_response m av (mkDecoder (firstn (Z.to_nat size) buf) size 4)).
Proof.
  intros m Hm av buf size id. apply local_seen. destruct (method_codecs_In m Hm) as [_ Hin].
  apply (linked_local _ (codec_linked _ _ Hin)).
Qed.
Print Assumptions C33_decodes_the_frame.
(** At most one reply and one return per call, and no more replies than frames. *)
Theorem C33_at_most_one : forall R raw cap (sched : list (clabel R)) s evs k, 4 <= cap -> executes raw cap sched s evs ->
  (length (replies_to k evs) <= 1)%nat /\ (length (returns_of k evs) <= 1)%nat.
Proof. exact @one_reply. Qed.
Print Assumptions C33_at_most_one.
Theorem C33_replies_le_frames : forall R raw cap (sched : list (clabel R)) s evs, 4 <= cap -> executes raw cap sched s evs ->
  (length (all_replies evs) <= length (all_frames evs))%nat.
Proof. exact @replies_le_frames. Qed.
Print Assumptions C33_replies_le_frames.
(** A frame whose id is unknown, repeated or already answered changes no call and
    no registration. *)
Theorem C33_unknown_ignored : forall R (s s' : conn R) a id, legal a -> cstep s a = Some (s', [EDropped id]) ->
  s_calls s' = s_calls s /\ forall i, s_requests s' i = s_requests s i.
Proof. exact @unknown_ignored. Qed.
Print Assumptions C33_unknown_ignored.
(** Any frame at all touches only the call registered under the id it carries. *)
Theorem C33_others_untouched : forall R (s s' : conn R) a e,
  (a = MStep \/ exists bs, a = MRead bs /\ Forall is_byte bs) -> cstep s a = Some (s', e) ->
  (forall j, (forall d, s_mpc s <> MReply j d) -> nth_error (s_calls s') j = nth_error (s_calls s) j) /\
  (forall i, (forall d, s_mpc s <> MLookup i d) -> s_requests s' i = s_requests s i) /\
  (forall j d, s_mpc s' = MReply j d -> s_mpc s' = s_mpc s \/ exists i, s_mpc s = MLookup i d /\ s_requests s i = Some j).
Proof. exact @loop_touches. Qed.
Print Assumptions C33_others_untouched.

(** ** C34.  [solicited evs]: every frame carrying an id comes after some byte of the
    request with that id has gone out, and no two frames carry the same id. *)
Theorem C34_none_dropped : forall R raw cap (sched : list (clabel R)) s evs, 4 <= cap -> executes raw cap sched s evs ->
  zlen (ids evs) <= 2 ^ 32 -> solicited evs -> forall id, ~ In (EDropped id) evs.
Proof. exact @none_dropped. Qed.
Print Assumptions C34_none_dropped.
(** Once the response has been processed, the call returns by its own steps alone. *)
Theorem C34_completes : forall R raw cap (sched : list (clabel R)) s evs k r, 4 <= cap -> executes raw cap sched s evs ->
  In (EReply k r) evs -> sent_by k evs <> [] -> s_crashed s = false -> returns_of k evs = [] ->
  exists n s' evs' res, crun s (repeat (CStep k) n) = Some (s', evs') /\ In (EReturn k res) evs' /\ (res = Reply r \/ exists x, res = WriteError x).
Proof. exact @answered_completes. Qed.
Print Assumptions C34_completes.

(** ** C35.  [locks evs] is the list of the calls in the order in which they obtained
    the write lock; [request s k bs]: the EncodeFunc of call [k], given the id of
    the call, writes [bs] over a reliable writer. *)
Theorem C35_wire : forall R raw cap (sched : list (clabel R)) s evs, 4 <= cap -> executes raw cap sched s evs ->
  NoDup (locks evs) /\ exists reqs, Forall2 (request s) (locks evs) reqs /\ prefix (wire evs) (concat reqs) /\
    (s_lock s = None -> b_err (s_buf s) = None -> wire evs = concat reqs).
Proof. exact @wire_prefix. Qed.
Print Assumptions C35_wire.
(** What went out is the concatenation of what the calls sent, one after the other. *)
Theorem C35_by_call : forall R raw cap (sched : list (clabel R)) s evs, 4 <= cap -> executes raw cap sched s evs ->
  wire evs = concat (map (fun k => sent_by k evs) (locks evs)).
Proof. exact @wire_by_call. Qed.
Print Assumptions C35_by_call.

(** ** C39.  After Flush has failed with [x]: nothing is sent, every Flush fails with
    [x], and the call itself and all calls that had not taken the lock return
    [x] if they return. *)
Theorem C39_fail_stop : forall R raw cap (sched : list (clabel R)) s pre k x post, 4 <= cap ->
  executes raw cap sched s (pre ++ EFlushed k (Some x) :: post) ->
  wire post = [] /\ (forall j fl, In (EFlushed j fl) post -> fl = Some x) /\
  (forall j res, j = k \/ ~ In j (locks pre) -> In (EReturn j res) post -> res = WriteError x).
Proof. exact @fail_stop. Qed.
Print Assumptions C39_fail_stop.
(** And they do return: whenever the lock is free, by their own steps alone. *)
Theorem C39_returns : forall R raw cap (sched : list (clabel R)) s evs k c x, 4 <= cap -> executes raw cap sched s evs ->
  (exists j, In (EFlushed j (Some x)) evs) -> s_crashed s = false -> s_lock s = None ->
  nth_error (s_calls s) k = Some c -> past_lock (k_pc c) = false ->
  exists n s' evs', crun s (repeat (CStep k) n) = Some (s', evs') /\ In (EReturn k (WriteError x)) evs'.
Proof. exact @failed_returns. Qed.
Print Assumptions C39_returns.

(** ** A concrete connection: requests are the id as 4 bytes, responses one int32. *)
Definition ex_enc (id : Z) : Encoder -> Encoder := PutInt32 id.
Definition good_raw : rawconn := mkRaw (fun _ _ => None) (fun _ _ => true).
(** Runs a schedule and shows whether the process crashed, who holds the lock and the events. *)
Definition show {R} raw cap (sched : list (clabel R)) := option_map (fun p => (s_crashed (fst p), s_lock (fst p), snd p)) (crun (Connected raw cap) sched).
Lemma show_executes {R} raw cap (sched : list (clabel R)) cr l evs : Forall legal sched -> show raw cap sched = Some (cr, l, evs) ->
  exists s, executes raw cap sched s evs /\ s_crashed s = cr /\ s_lock s = l.
Proof.
  intros Hl. unfold show. destruct (crun (Connected raw cap) sched) as [[s e]|] eqn:E; [|discriminate]. cbn. intros F. injection F as <- <- <-.
  exists s. repeat split; assumption.
Qed.
Ltac all_legal := repeat (apply Forall_cons || apply Forall_nil); cbn [legal];
  try (intros id; exists [be 4 id]; apply Runs_PutInt32); try exact I; repeat (apply Forall_cons || apply Forall_nil); unfold is_byte; lia.
Definition ex_calls : list (clabel Z) := [DoCall ex_enc dInt32; DoCall ex_enc dInt32; CStep 1; CStep 0; CStep 0; CStep 1; CStep 1; CStep 1; CStep 1; CStep 1;
  CStep 0; CStep 0; CStep 0; CStep 0].
(** The response to the second request (id 2) comes first, then an unknown id, then id 1. *)
Definition ex_frames : list (clabel Z) := [MStep; MRead [0;0;0;8]; MRead [0;0;0;2; 0;0;0;22]; MStep; MStep; CStep 0;
  MStep; MRead [0;0;0;4]; MRead [0;0;0;9]; MStep;
  MStep; MRead [0;0;0;8]; MRead [0;0;0;1; 0;0;0;11]; MStep; MStep; CStep 1].
Example Conn_example : exists s evs, executes good_raw 10 (ex_calls ++ ex_frames) s evs /\ ids evs = [1; 2] /\
  id_of 1 evs = [1] /\ id_of 0 evs = [2] /\ locks evs = [1%nat; 0%nat] /\ wire evs = [0;0;0;1; 0;0;0;2] /\
  returns_of 0 evs = [Reply (Value 22)] /\ returns_of 1 evs = [Reply (Value 11)] /\ In (EDropped 9) evs.
Proof.
  edestruct (show_executes good_raw 10 (ex_calls ++ ex_frames)) as (s & Hex & _); [unfold ex_calls, ex_frames; cbn [app]; all_legal|vm_compute; reflexivity|].
  exists s. eexists. split; [exact Hex|]. repeat split; try (vm_compute; reflexivity). cbn. tauto.
Qed.
(** An execution with solicited frames only, up to the point where the reply is
    there and the call has not returned. *)
Definition ex_solicited : list (clabel Z) := [DoCall ex_enc dInt32; CStep 0; CStep 0; CStep 0; CStep 0; MStep; MRead [0;0;0;8]; MRead [0;0;0;1; 0;0;0;7]; MStep; MStep].
Example C34_example : exists s evs, executes good_raw 10 ex_solicited s evs /\ solicited evs /\ zlen (ids evs) = 1 /\
  In (EReply 0 (Value 7)) evs /\ sent_by 0 evs = [0;0;0;1] /\ s_crashed s = false /\ returns_of 0 evs = [].
Proof.
  edestruct (show_executes good_raw 10 ex_solicited) as (s & Hex & Hcr & _); [unfold ex_solicited; all_legal|vm_compute; reflexivity|].
  exists s. eexists. split; [exact Hex|]. split; [|repeat split; cbn; try tauto; exact Hcr].
  intros pre raw size post id E Hc.
  assert (G : pre = [ECall 0; EId 0 1; ERegister 0; ELock 0; ESent 0 [0;0;0;1]] /\ size = 8 /\ firstn 8 raw = be 4 1 ++ [0;0;0;7]).
  { do 5 (destruct pre as [|? pre]; [discriminate|injection E as <- E]).
    destruct pre as [|? pre]; [injection E; intros; subst; repeat split|injection E as <- E].
    exfalso. destruct pre as [|? pre]; [discriminate|injection E as <- E]. destruct pre; discriminate. }
  destruct G as (-> & -> & Hf).
  assert (id = 1).
  { refine (carries_unique raw 8 id 1 Hc _). split; [unfold is_int32; lia|]. split; [apply Hc|]. exists [0;0;0;7]. exact Hf. }
  subst id. split; [exists 0%nat; cbn; split; [tauto|discriminate]|]. cbn. intros ? ? Hin. repeat (destruct Hin as [Hin|Hin]; [discriminate|]). destruct Hin.
Qed.
(** A connection whose second Write fails after one byte: call 1 gets the error after
    a byte of its request went out; call 2 gets it too and sends nothing. *)
Definition bad_raw : rawconn := mkRaw (fun log _ => match log with [] => None | _ => Some (1, ErrOther 5) end) (fun _ _ => true).
Definition ex_fail : list (clabel Z) := [DoCall ex_enc dInt32; CStep 0; CStep 0; CStep 0; CStep 0; CStep 0; CStep 0;
  DoCall ex_enc dInt32; CStep 1; CStep 1; CStep 1; CStep 1; CStep 1; CStep 1; DoCall ex_enc dInt32; CStep 2; CStep 2; CStep 2; CStep 2; CStep 2].
Example C39_example : exists s evs pre post, executes bad_raw 10 ex_fail s evs /\ evs = pre ++ EFlushed 1 (Some (ErrOther 5)) :: post /\
  wire evs = [0;0;0;1; 0] /\ In 2%nat (locks post) /\ returns_of 1 post = [WriteError (ErrOther 5)] /\ returns_of 2 post = [WriteError (ErrOther 5)].
Proof.
  edestruct (show_executes bad_raw 10 ex_fail) as (s & Hex & Hcr & _); [unfold ex_fail; all_legal|vm_compute; reflexivity|].
  exists s. eexists. exists [ECall 0; EId 0 1; ERegister 0; ELock 0; ESent 0 [0;0;0;1]; EFlushed 0 None; ECall 1; EId 1 2; ERegister 1; ELock 1; ESent 1 [0]].
  eexists. split; [exact Hex|].
  split; [cbn [app]; reflexivity|]. repeat split; try (vm_compute; reflexivity). cbn. tauto.
Qed.

(** ** C38.  Full statement: for every execution of a connection in which Close has
    been called (or which was lost), every call that has not returned does so,
    with an error, whatever the schedule does, as long as it and the loops are
    given their turns.  It is false: a call that waits for its reply when the
    message loop ends, or when nothing is read any more, waits for ever. *)
Definition ex_closed : list (clabel Z) := [DoCall ex_enc dInt32; CStep 0; CStep 0; CStep 0; CStep 0; CStep 0; CStep 0; MStep;
  Cancel; RawClose; MRead [0;0;0;0]; MRead []; MStep].
Definition is_waiting {R} (s : conn R) (k : nat) : bool :=
  match nth_error (s_calls s) k with Some c => match k_pc c, k_reply c with PWait, None => true | _, _ => false end | None => false end.
Lemma is_waiting_waits {R} (s : conn R) k : is_waiting s k = true -> waits s k.
Proof.
  unfold is_waiting, waits. destruct (nth_error (s_calls s) k) as [c|]; [|discriminate]. intros H. exists c. split; [reflexivity|].
  destruct (k_pc c); try discriminate. destruct (k_reply c); [discriminate|]. auto.
Qed.
Theorem C38_close_refuted : exists s evs, executes good_raw 10 ex_closed s evs /\ s_closed s = true /\ s_rawclosed s = true /\ s_mpc s = MDone /\
  returns_of 0 evs = [] /\
  forall sched s' evs', Forall legal sched -> crun s sched = Some (s', evs') -> returns_of 0 evs' = [] /\ cstep s' (CStep 0) = None.
Proof.
  assert (E : option_map (fun p => (s_closed (fst p), s_rawclosed (fst p), s_mpc (fst p), s_crashed (fst p), is_waiting (fst p) 0,
    returns_of 0 (snd p))) (crun (Connected good_raw 10) ex_closed) = Some (true, true, MDone, false, true, [])) by (vm_compute; reflexivity).
  destruct (crun (Connected good_raw 10) ex_closed) as [[s evs]|] eqn:Er; [|discriminate]. cbn [option_map fst snd] in E. injection E as E1 E2 E3 E4 E5 E6.
  exists s, evs. split; [split; [unfold ex_closed; all_legal|exact Er]|]. repeat (split; [assumption|]).
  intros sched s' evs' Hl H.
  pose proof (is_waiting_waits _ _ E5) as Hw.
  destruct (starved sched s s' evs' 0 Hl) as [(c' & W1 & W2 & W3) Hr]; try assumption.
  - apply Forall_forall. intros a _. left. exact E3.
  - unfold outside. rewrite E3. exact I.
  - split; [exact Hr|]. unfold cstep. destruct (s_crashed s'); [reflexivity|]. rewrite W1. unfold call_step. rewrite W2, W3. reflexivity.
Qed.
Print Assumptions C38_close_refuted.
(** In general: a call waiting without a reply never returns if the message loop
    has ended or never gets another frame (no label [MRead]). *)
Theorem C38_lost_refuted : forall R (sched : list (clabel R)) s s' evs k, Forall legal sched ->
  Forall (fun a => s_mpc s = MDone \/ ~ reads a) sched -> outside s -> waits s k ->
  crun s sched = Some (s', evs) -> waits s' k /\ returns_of k evs = [].
Proof. exact @starved. Qed.
Print Assumptions C38_lost_refuted.
(** What holds: a call that has not obtained the write lock when the connection is
    closed returns an error by its own steps.  Missing: the calls already waiting. *)
Theorem C38_later_calls_partial : forall R raw cap (sched : list (clabel R)) s evs k c, 4 <= cap -> executes raw cap sched s evs ->
  s_rawclosed s = true -> s_crashed s = false -> s_lock s = None -> nth_error (s_calls s) k = Some c -> past_lock (k_pc c) = false ->
  (forall id, ~ Emits (k_enc c id) []) ->
  exists n s' evs' x, crun s (repeat (CStep k) n) = Some (s', evs') /\ In (EReturn k (WriteError x)) evs'.
Proof. exact @closed_returns. Qed.
Print Assumptions C38_later_calls_partial.
Example C38_example : exists s evs c, executes good_raw 10 (ex_closed ++ [DoCall ex_enc dInt32]) s evs /\ s_rawclosed s = true /\ s_crashed s = false /\ s_lock s = None /\
  nth_error (s_calls s) 1 = Some c /\ past_lock (k_pc c) = false /\ forall id, ~ Emits (k_enc c id) [].
Proof.
  destruct C38_close_refuted as (s & evs & [Hl Hr] & H1 & H2 & H3 & H4 & H5).
  assert (E : option_map (fun p => (s_crashed (fst p), s_lock (fst p), length (s_calls (fst p)))) (crun (Connected good_raw 10) ex_closed) = Some (false, None, 1%nat)) by (vm_compute; reflexivity).
  rewrite Hr in E. cbn [option_map fst] in E. injection E as E1 E2 E3.
  eexists. eexists. eexists. split; [split|].
  - apply Forall_app. split; [exact Hl|all_legal].
  - rewrite crun_app, Hr. cbn [crun]. unfold cstep. rewrite E1. reflexivity.
  - cbn [s_rawclosed s_crashed s_lock s_calls set_calls]. repeat (split; [assumption|]). split.
    + rewrite nth_error_app2 by lia. rewrite E3. reflexivity.
    + split; [reflexivity|]. intros id F. cbn [k_enc] in F. pose proof (Runs_Emits _ _ (Runs_PutInt32 id)) as G. pose proof (Emits_inj _ _ _ F G) as Q. discriminate Q.
Qed.
