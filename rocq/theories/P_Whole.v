(** * C78: a request reaches the broker whole or not at all *)
From Verif Require Import GoBase GoLemmas Encoder Decoder Sizeof Spec EncProofs DecProofs BufIO Link AllMessages MsgProofs MsgProps BrokerTable Broker BrokerSpec BrokerProofs
  RingSpec Msg01 Msg03 Conn ConnSpec ConnProofs ConnProps WholeSpec WholeProofs P_Conn.
Local Open Scope Z_scope.
Ltac Zify.zify_post_hook ::= idtac.

(** [writes_of k evs]: what the connection accepted of each Write made for call
    [k]; [atomic raw]: a failing Write of [raw] accepts nothing.  The full property:
    over an atomic connection, of every request either all or nothing arrives,

      forall R raw cap sched s evs k bs, 4 <= cap -> executes raw cap sched s evs ->
        request s k bs -> atomic raw -> sent_by k evs = [] \/ sent_by k evs = bs

    once its Flush has ended.  It is false for every request longer than the
    buffer of the bufio.Writer, 4096 bytes, and true for all others, which are
    sent with one Write; for these it holds at every moment. *)
Theorem C78_whole_partial : forall R raw cap (sched : list (clabel R)) s evs k bs, 4 <= cap -> executes raw cap sched s evs ->
  request s k bs -> zlen bs <= 4096 -> atomic raw -> sent_by k evs = [] \/ sent_by k evs = bs.
Proof. exact @whole_or_nothing. Qed.
Print Assumptions C78_whole_partial.
(** At most one Write, whatever the connection does; exactly one, of the whole
    request, if Flush returns no error. *)
Theorem C78_one_write_partial : forall R raw cap (sched : list (clabel R)) s evs k bs, 4 <= cap -> executes raw cap sched s evs ->
  request s k bs -> zlen bs <= 4096 -> (length (writes_of k evs) <= 1)%nat.
Proof. exact @one_write. Qed.
Print Assumptions C78_one_write_partial.
Theorem C78_exactly_partial : forall R raw cap (sched : list (clabel R)) s evs k bs, 4 <= cap -> executes raw cap sched s evs ->
  request s k bs -> bs <> [] -> zlen bs <= 4096 -> In (EFlushed k None) evs -> writes_of k evs = [bs].
Proof. exact @flushed_one. Qed.
Print Assumptions C78_exactly_partial.
(** Without a bound on the length: a Flush that returns no error has sent the
    whole request. *)
Theorem C78_flushed : forall R raw cap (sched : list (clabel R)) s evs k bs, 4 <= cap -> executes raw cap sched s evs ->
  request s k bs -> In (EFlushed k None) evs -> sent_by k evs = bs.
Proof. exact @flushed_sent. Qed.
Print Assumptions C78_flushed.

(** Every request of every method that is longer than 4096 bytes can be torn: the
    connection accepts one Write whole and of the next one nothing; the first
    4096 bytes have arrived when the call returns the error. *)
Theorem C78_torn_refuted : forall m, In m all_methods -> forall av clientID (req : c_type (m_req m)) bs,
  Emits (encode_request m av clientID req 1) bs -> 4096 < zlen bs ->
  forall R (dec : Dec R) direct x cap, atomic (once direct x) /\
  exists s evs, executes (once direct x) cap (DoCall (encode_request m av clientID req) dec :: repeat (CStep 0) 7) s evs /\
    request s 0 bs /\ sent_by 0 evs = firstn 4096 bs /\ In (EReturn 0 (WriteError x)) evs.
Proof.
  intros m Hm av cid req bs Hb Hl R dec direct x cap. split; [apply atomic_once|].
  destruct (method_codecs_In m Hm) as [Hin _]. pose proof (codec_linked _ _ Hin) as L.
  set (hdr := mkRequestHeader (m_key m) (av (m_v_header m)) 1 cid).
  set (size := add32 (RequestHeader_Size (m_header_size m) hdr) (c_size (m_req m) (av (m_v_size m)) req)).
  assert (Hr : exists cs, Runs (encode_request m av cid req 1) (be 4 size :: cs)).
  { eexists. unfold encode_request. apply (Runs_seq _ _ [be 4 size]); [apply Runs_PutInt32|]. apply Runs_seq.
    - apply (linked_runs _ RequestHeader_linked).
    - apply (linked_runs _ L). }
  destruct Hr as [cs Hr]. pose proof (Emits_inj _ _ _ Hb (Runs_Emits _ _ Hr)) as ->.
  assert (L4 : zlen (be 4 size) = 4) by reflexivity.
  destruct (torn direct x cap (encode_request m av cid req) dec (be 4 size) cs) as (s & H1 & H2).
  - intros id. destruct (request_runs m Hm av cid req id) as (cs' & H & _). eauto.
  - exact Hr.
  - intros F. rewrite F in L4. discriminate.
  - rewrite L4. unfold buf_size. lia.
  - exact Hl.
  - eexists s, _. split; [exact H1|]. split; [exact H2|]. split; [|cbn [In]; tauto].
    cbn [sent_by flat_map Nat.eqb]. rewrite !app_nil_r. reflexivity.
Qed.
Print Assumptions C78_torn_refuted.

(** FindCoordinator at version 1 of client "cl" with a key of [n] bytes: a request
    of [n] + 19 bytes. *)
Definition long_key (n : nat) : c_type (m_req method_FindCoordinator) := mkFindCoordinatorRequest (repeat 97 n) 0.
Lemma find_length n : exists bs, Emits (encode_request method_FindCoordinator (fun _ => 1) [99; 108] (long_key n) 1) bs /\ zlen bs = Z.of_nat n + 19.
Proof.
  eexists. split.
  - unfold encode_request. apply Runs_Emits. apply Runs_seq; [apply Runs_PutInt32|]. apply Runs_seq.
    + cbn [method_FindCoordinator m_header_encode]. unfold RequestHeader_Encode.
      repeat (apply Runs_seq; [apply Runs_PutInt16|]). apply Runs_seq; [apply Runs_PutInt32|]. apply Runs_seq; [apply Runs_put_if, Runs_PutString|apply Runs_skip].
    + cbn [method_FindCoordinator m_req FindCoordinatorRequest_codec c_encode]. unfold FindCoordinatorRequest_Encode.
      apply Runs_seq; [apply Runs_PutString|]. apply Runs_seq; [apply Runs_put_if, Runs_PutInt8|apply Runs_skip].
  - change (1 <=? 2) with true. change (1 <=? 1) with true. cbv iota. rewrite !concat_app. cbn [concat app]. rewrite !zlen_app.
    assert (E : zlen (FindCoordinatorRequest_Key (long_key n)) = Z.of_nat n) by (unfold zlen; cbn [long_key FindCoordinatorRequest_Key]; rewrite repeat_length; reflexivity).
    rewrite E. repeat match goal with |- context [zlen (be ?k ?x)] => change (zlen (be k x)) with (Z.of_nat k) end. cbn [RequestHeader_ClientId]. unfold zlen. cbn [length]. lia.
Qed.
(** With a key of 4077 bytes the request is one Write over any connection; with one
    byte more it can be torn. *)
Example C78_example : exists bs, Emits (encode_request method_FindCoordinator (fun _ => 1) [99; 108] (long_key (Z.to_nat 4077)) 1) bs /\ zlen bs = 4096.
Proof. destruct (find_length (Z.to_nat 4077)) as (bs & H1 & H2). exists bs. split; [exact H1|]. rewrite H2, Z2Nat.id; lia. Qed.
Example C78_ex_long : In method_FindCoordinator all_methods /\
  exists bs, Emits (encode_request method_FindCoordinator (fun _ => 1) [99; 108] (long_key (Z.to_nat 4078)) 1) bs /\ zlen bs = 4097.
Proof.
  split; [cbn [all_methods In]; tauto|].
  destruct (find_length (Z.to_nat 4078)) as (bs & H1 & H2). exists bs. split; [exact H1|]. rewrite H2, Z2Nat.id; lia.
Qed.
(** Two calls over a connection that accepts one Write: the first request arrives
    whole, of the second nothing. *)
Example C78_ex_small : show (once (fun _ _ => true) (ErrOther 5)) 16
    [DoCall ex_enc dInt32; DoCall ex_enc dInt32; CStep 0; CStep 0; CStep 0; CStep 0; CStep 0; CStep 0; CStep 1; CStep 1; CStep 1; CStep 1; CStep 1; CStep 1] =
  Some (false, None, [ECall 0; ECall 1; EId 0 1; ERegister 0; ELock 0; ESent 0 [0; 0; 0; 1]; EFlushed 0 None;
    EId 1 2; ERegister 1; ELock 1; ESent 1 []; EFlushed 1 (Some (ErrOther 5)); EReturn 1 (WriteError (ErrOther 5))]).
Proof. reflexivity. Qed.
