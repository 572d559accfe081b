(** * Properties of the text of the connection: C90, and C32, C33, C35, C39 and C80 for the text *)
From Coq Require Import String.
From Verif Require Import GoBase GoLemmas Encoder Decoder Spec EncProofs BufIO Conn ConnSpec ConnRing ConnRingSpec EndSpec ServeSpec P_Conn P_Framing P_Table
  GoLang GoFlow SourceConn SourceConnSpec SourceConnStart SourceConnProofs SourceConnAll.
From Verif Require RingSpec.
Local Open Scope list_scope.
Local Open Scope Z_scope.

(** [conn_source] (SourceConn.v) is the text of gen.conn.go as terms, written by
    tools/go_source.py.  GoFlow.v says what such a text does, as a tree of questions to its
    surroundings (the memory, the mutexes and channels, the encoder and decoder, the network and
    the ring); SourceConnSpec.v has the surroundings and the goroutines: any number of calls of Do
    and Close, readLoop and messageLoop.  [opened dl tls width fuel raw addr]: Connect is called
    ([dl] is an error of dialling); [started]: the two goroutines it starts run to their first
    question that concerns others; [tstep]: a goroutine asks one such question, gets its answer and
    runs to the next one; [texecutes tls width fuel raw addr sched c evs]: the moves [sched] of a
    connection that Connect has made lead to [c], and [evs] is seen.  The theorems are for ints of
    any width from 32 bits and any number of rounds of the loops ([fuel]) that suffices for the
    length of the execution.

    ** C90.  Connect returns the connection, with the two loops running, as in the model; with an
    error of dialling it returns that. *)
Theorem C90_connect : forall R tls width fuel raw addr, (3 <= fuel)%nat -> exists m c0,
  opened (R := R) None tls width fuel raw addr = (m, Done (VTuple [the_conn; VNil])) /\ started None tls width fuel m = Some c0 /\
  shows c0 (Connect raw 5000000 2000000).
Proof. exact @connected. Qed.
Print Assumptions C90_connect.
Theorem C90_dial_error : forall R tls width fuel raw addr x, (3 <= fuel)%nat -> exists m,
  opened (R := R) (Some x) tls width fuel raw addr = (m, Done (VTuple [VNil; VErr x])).
Proof. exact @not_connected. Qed.
Print Assumptions C90_dial_error.
(** Whatever the text does under whatever interleaving, the model does, and shows the same: the
    same events, the same calls of Do and bytes from the network ([outside]), the same calls of Do
    and Close have returned, with the same results, and the process has crashed in both or in
    neither ([shows]). *)
Theorem C90_text_to_model : forall R tls width fuel raw addr (sched : list (@tlabel R)) c evs, 32 <= width -> (length sched + 3 <= fuel)%nat ->
  texecutes tls width fuel raw addr sched c evs ->
  exists msched s, nexecutes raw 5000000 2000000 msched s evs /\ outside msched = outside_text sched /\ shows c s.
Proof. exact @text_to_model. Qed.
Print Assumptions C90_text_to_model.
(** Whatever the model does, the text can do (if Read returns no more bytes than asked for), with
    at most 4 moves for each. *)
Theorem C90_model_to_text : forall R tls width fuel raw addr (sched : list (nlabel R)) s evs, 32 <= width -> (4 * length sched + 3 <= fuel)%nat ->
  (forall bs, In (LNet bs) sched -> zlen bs <= 2000000) -> nexecutes raw 5000000 2000000 sched s evs ->
  exists ts c, texecutes tls width fuel raw addr ts c evs /\ outside_text ts = outside sched /\ shows c s /\ (length ts <= 4 * length sched)%nat.
Proof. exact @model_to_text. Qed.
Print Assumptions C90_model_to_text.
(** As long as the process has not crashed, no question is senseless ([Wrong]: an unknown
    function, a mutex unlocked by one who does not hold it, a channel closed twice ...). *)
Theorem C90_sensible : forall R tls width fuel raw addr, 32 <= width -> forall (sched : list (@tlabel R)) c evs, (length sched + 3 <= fuel)%nat ->
  texecutes tls width fuel raw addr sched c evs -> SourceConnSpec.dead c = false -> sensible c.
Proof. exact @text_calls. Qed.
Print Assumptions C90_sensible.
(** What the text of Do returns is what the events say: the error of the flush, the error of the
    decoder or nil. *)
Theorem C90_results : forall R tls width fuel raw addr, 32 <= width -> forall (sched : list (@tlabel R)) c evs, (length sched + 3 <= fuel)%nat ->
  texecutes tls width fuel raw addr sched c evs -> SourceConnSpec.dead c = false ->
  forall k v, nth_error (t_calls c) k = Some (Done v) <-> exists r, returns_of k evs = [r] /\ v = result_val r.
Proof. exact @text_results. Qed.
Print Assumptions C90_results.

(** ** Earlier properties, for the text *)
Theorem C32_text : forall R tls width fuel raw addr, 32 <= width -> forall (sched : list (@tlabel R)) c evs, (length sched + 3 <= fuel)%nat ->
  texecutes tls width fuel raw addr sched c evs -> ids evs = map (fun n => int32 (Z.of_nat n)) (List.seq 1 (length (ids evs))).
Proof. exact @text_ids. Qed.
Print Assumptions C32_text.
Theorem C33_text_once : forall R tls width fuel raw addr, 32 <= width -> forall (sched : list (@tlabel R)) c evs k, (length sched + 3 <= fuel)%nat ->
  texecutes tls width fuel raw addr sched c evs -> (length (replies_to k evs) <= 1)%nat /\ (length (returns_of k evs) <= 1)%nat.
Proof. exact @text_once. Qed.
Print Assumptions C33_text_once.
(** [calls (outside_text sched)]: the calls of Do, with their EncodeFunc and DecodeFunc. *)
Theorem C33_text_own : forall R tls width fuel raw addr, 32 <= width -> forall (sched : list (@tlabel R)) c pre k r post, (length sched + 3 <= fuel)%nat ->
  texecutes tls width fuel raw addr sched c (pre ++ EReturn k (Reply r) :: post) ->
  exists enc dec id buf size, nth_error (calls (outside_text sched)) k = Some (enc, dec) /\ In (EId k id) pre /\ In (EFrame buf size) pre /\ carries buf size id /\
    seen (dec (mkDecoder buf size 4)) = Some r.
Proof. exact @text_own. Qed.
Print Assumptions C33_text_own.
Theorem C35_text : forall R tls width fuel raw addr, 32 <= width -> forall (sched : list (@tlabel R)) c evs, (length sched + 3 <= fuel)%nat ->
  texecutes tls width fuel raw addr sched c evs ->
  NoDup (locks evs) /\ exists reqs, RingSpec.prefix (wire evs) (concat reqs) /\
    Forall2 (fun k bs => exists enc dec id, nth_error (calls (outside_text sched)) k = Some (enc, dec) /\ In (EId k id) evs /\ Emits (enc id) bs) (locks evs) reqs.
Proof. exact @text_wire. Qed.
Print Assumptions C35_text.
Theorem C39_text : forall R tls width fuel raw addr, 32 <= width -> forall (sched : list (@tlabel R)) c pre k x post, (length sched + 3 <= fuel)%nat ->
  texecutes tls width fuel raw addr sched c (pre ++ EFlushed k (Some x) :: post) ->
  wire post = [] /\ (forall j fl, In (EFlushed j fl) post -> fl = Some x) /\
  (forall j res, j = k \/ ~ In j (locks pre) -> In (EReturn j res) post -> res = WriteError x).
Proof. exact @text_fails. Qed.
Print Assumptions C39_text.
(** What the brokers get from the text: the requests ordered by the callers. *)
Theorem C80_text : forall tls width fuel raw addr sched c evs os, 32 <= width -> (length sched + 3 <= fuel)%nat -> texecutes tls width fuel raw addr sched c evs ->
  orders (outside_text sched) os -> Forall sendable os ->
  exists fs rest, parses (wire evs) fs rest /\ incomplete rest /\ (length fs <= length (locks evs))%nat /\ Forall2 (reads_call os evs) (firstn (length fs) (locks evs)) fs.
Proof. exact text_broker. Qed.
Print Assumptions C80_text.

(** A call of Do sends its request, bytes arrive, and Close is called; with a network that fails
    after 4 bytes Do returns its error. *)
Definition C90_sched : list (nlabel Z) := [LDo ex_enc dInt32] ++ repeat (LCall 0) 6 ++ [LNet ex_stream; LClose; LCloser 0; LCloser 0; LCloser 0].
Lemma C90_legal rest : forallb nlegalb rest = true -> Forall nlegal ([LDo ex_enc dInt32] ++ rest).
Proof. intros H. constructor; [cbn; intros id; exists [be 4 id]; apply Runs_PutInt32|]. apply nlegalb_ok, H. Qed.
Definition C90_events : list (Conn.event Z) := [Conn.ECall 0; EId 0 1; ERegister 0; ELock 0; ESent 0 [0;0;0;1]; EFlushed 0 None].
Lemma C90_computed raw rest evs : forallb nlegalb rest = true ->
  option_map (fun p => (snd p, n_dead (fst p) || s_crashed (n_conn (fst p)))) (nrun (Connect raw 5000000 2000000) ([LDo ex_enc dInt32] ++ rest)) = Some (evs, false) ->
  exists s, nexecutes raw 5000000 2000000 ([LDo ex_enc dInt32] ++ rest) s evs /\ n_dead s || s_crashed (n_conn s) = false.
Proof.
  intros Hl H. destruct (nrun (Connect raw 5000000 2000000) ([LDo ex_enc dInt32] ++ rest)) as [[s e]|] eqn:E; [|discriminate H]. injection H as <- Hd.
  exists s. split; [split; [apply C90_legal, Hl|exact E]|exact Hd].
Qed.
Definition C90_failing : list (nlabel Z) := [LDo ex_enc dInt32] ++ repeat (LCall 0) 6.
Definition C90_failure : list (Conn.event Z) :=
  [Conn.ECall 0; EId 0 1; ERegister 0; ELock 0; ESent 0 [0;0;0;1]; EFlushed 0 (Some (ErrOther 5)); EReturn 0 (WriteError (ErrOther 5))].
Example C90_example :
  (exists ts c, texecutes true 64 100 good_raw [104] ts c C90_events /\ outside_text ts = [LDo ex_enc dInt32; LNet ex_stream]) /\
  (exists ts c, texecutes true 64 100 late_raw [104] ts c C90_failure /\ nth_error (t_calls c) 0 = Some (Done (VErr (ErrOther 5)))).
Proof.
  split.
  - destruct (C90_computed good_raw (repeat (LCall 0) 6 ++ [LNet ex_stream; LClose; LCloser 0; LCloser 0; LCloser 0]) C90_events eq_refl eq_refl) as (s & H & Hd).
    destruct (C90_model_to_text Z true 64 100 good_raw [104] C90_sched s C90_events ltac:(lia) ltac:(cbn; lia)) with (2 := H) as (ts & c & T & O & _).
    { intros bs Hin. cbn in Hin. repeat (destruct Hin as [Hin|Hin]; [try discriminate Hin; injection Hin as <-; cbn; lia|]). contradiction Hin. }
    exists ts, c. split; [exact T|exact O].
  - destruct (C90_computed late_raw (repeat (LCall 0) 6) C90_failure eq_refl eq_refl) as (s & H & Hd).
    destruct (C90_model_to_text Z true 64 100 late_raw [104] C90_failing s C90_failure ltac:(lia) ltac:(cbn; lia)) with (2 := H) as (ts & c & T & _ & Sh & L).
    { intros bs Hin. cbn in Hin. repeat (destruct Hin as [Hin|Hin]; [discriminate Hin|]). contradiction Hin. }
    exists ts, c. split; [exact T|]. assert (Hc : SourceConnSpec.dead c = false) by (rewrite (proj1 Sh); exact Hd).
    apply (C90_results Z true 64 100 late_raw [104] ltac:(lia) ts c C90_failure ltac:(cbn in L; lia) T Hc). exists (WriteError (ErrOther 5)). split; reflexivity.
Qed.
