(** * Properties of connections, for executions of the text *)
From Verif Require Import GoBase GoLemmas Encoder Decoder Spec EncProofs BufIO Conn ConnSpec ConnProofs ConnProps ConnRing ConnRingSpec ConnRingProofs EndSpec ConnEnd ServeSpec ServeProofs
  GoLang GoFlow SourceConn SourceConnSpec SourceConnLoop SourceConnProofs.
From Verif Require RingSpec.
Local Open Scope list_scope.
Local Open Scope Z_scope.

Lemma forall2_at {A B} (P : A -> B -> Prop) l l' k x : Forall2 P l l' -> nth_error l k = Some x -> exists y, nth_error l' k = Some y /\ P x y.
Proof. intros H. revert k. induction H as [|a b l l' Hab _ IH]; intros [|k] E; try discriminate; [injection E as <-; exists b; auto|apply IH, E]. Qed.
Lemma forall2_weaken {A B} (P Q : A -> B -> Prop) l l' : Forall2 P l l' -> (forall x y, P x y -> Q x y) -> Forall2 Q l l'.
Proof. intros H HQ. induction H; constructor; auto. Qed.

Lemma cap_ok : 4 <= 2000000.
Proof. lia. Qed.

Section All.
Context {R : Type} (tls : bool) (width : Z) (fuel : nat) (raw : rawconn) (addr : list Z).
Hypothesis (Hwidth : 32 <= width).
Local Notation texecutes := (@texecutes R tls width fuel raw addr).

Lemma calls_outside (sched : list (nlabel R)) : calls (outside sched) = calls sched.
Proof. induction sched as [|a sched IH]; [reflexivity|]. destruct a; cbn; first [exact IH|f_equal; exact IH]. Qed.

Lemma text_executes sched c evs : (length sched + 3 <= fuel)%nat -> texecutes sched c evs ->
  exists cs ms s, executes raw 2000000 cs (n_conn s) evs /\ nexecutes raw 5000000 2000000 ms s evs /\ calls ms = calls (outside_text sched) /\
    map signature (s_calls (n_conn s)) = calls (outside_text sched) /\ shows c s.
Proof.
  intros Hf H. destruct (text_to_model tls width fuel raw addr sched c evs Hwidth Hf H) as (ms & s & N & O & Sh).
  destruct (project _ _ _ _ _ _ N) as (cs & rs & re & P & _). assert (E : calls ms = calls (outside_text sched)) by (rewrite <- O, calls_outside; reflexivity).
  exists cs, ms, s. split; [exact P|]. split; [exact N|]. split; [exact E|]. split; [|exact Sh]. rewrite (nrun_calls _ _ _ _ (proj2 N)), <- E. reflexivity.
Qed.

Lemma text_ids sched c evs : (length sched + 3 <= fuel)%nat -> texecutes sched c evs ->
  ids evs = map (fun n => int32 (Z.of_nat n)) (List.seq 1 (length (ids evs))).
Proof. intros Hf H. destruct (text_executes _ _ _ Hf H) as (cs & ms & s & P & _). exact (ids_are _ _ _ _ _ cap_ok P). Qed.
Lemma text_once sched c evs k : (length sched + 3 <= fuel)%nat -> texecutes sched c evs ->
  (length (replies_to k evs) <= 1)%nat /\ (length (returns_of k evs) <= 1)%nat.
Proof. intros Hf H. destruct (text_executes _ _ _ Hf H) as (cs & ms & s & P & _). exact (one_reply _ _ _ _ _ _ cap_ok P). Qed.
Lemma signature_nth (s : conn R) l k c : map signature (s_calls s) = l -> nth_error (s_calls s) k = Some c -> nth_error l k = Some (k_enc c, k_dec c).
Proof. intros <- H. rewrite nth_error_map, H. reflexivity. Qed.
Lemma text_own sched c pre k r post : (length sched + 3 <= fuel)%nat -> texecutes sched c (pre ++ EReturn k (Reply r) :: post) ->
  exists enc dec id buf size, nth_error (calls (outside_text sched)) k = Some (enc, dec) /\ In (EId k id) pre /\ In (EFrame buf size) pre /\ carries buf size id /\
    seen (dec (mkDecoder buf size 4)) = Some r.
Proof.
  intros Hf H. destruct (text_executes _ _ _ Hf H) as (cs & ms & s & P & _ & _ & Sg & _).
  destruct (reply_is_own _ _ _ _ _ _ _ _ cap_ok P) as (cl & id & buf & size & H1 & H2 & H3 & H4 & H5).
  exists (k_enc cl), (k_dec cl), id, buf, size. split; [exact (signature_nth _ _ _ _ Sg H1)|]. auto.
Qed.
Lemma id_in (evs : list (Conn.event R)) k id : id_of k evs = [id] -> In (EId k id) evs.
Proof.
  intros H. assert (G : In id (id_of k evs)) by (rewrite H; left; reflexivity). unfold id_of in G. apply in_flat_map in G. destruct G as (e & He & G).
  destruct e; try contradiction G. destruct (Nat.eqb _ _) eqn:E in G; [|contradiction G]. apply Nat.eqb_eq in E. destruct G as [->|[]]. subst. exact He.
Qed.
Lemma text_wire sched c evs : (length sched + 3 <= fuel)%nat -> texecutes sched c evs ->
  NoDup (locks evs) /\ exists reqs, RingSpec.prefix (wire evs) (concat reqs) /\
    Forall2 (fun k bs => exists enc dec id, nth_error (calls (outside_text sched)) k = Some (enc, dec) /\ In (EId k id) evs /\ Emits (enc id) bs) (locks evs) reqs.
Proof.
  intros Hf H. destruct (text_executes _ _ _ Hf H) as (cs & ms & s & P & _ & _ & Sg & _).
  destruct (wire_prefix _ _ _ _ _ cap_ok P) as (D & reqs & F & Pf & _). split; [exact D|]. exists reqs. split; [exact Pf|].
  destruct (ainv _ _ _ _ _ cap_ok P) as [I _].
  apply (forall2_weaken _ _ _ _ F). intros k bs (cl & H1 & H2 & H3). exists (k_enc cl), (k_dec cl), (k_id cl). split; [exact (signature_nth _ _ _ _ Sg H1)|]. split; [|exact H3].
  pose proof (i_view _ _ _ I k) as V. rewrite H1 in V. apply id_in. rewrite (v_id _ _ _ V). destruct (k_pc cl); try reflexivity. contradiction.
Qed.
Lemma text_fails sched c pre k x post : (length sched + 3 <= fuel)%nat -> texecutes sched c (pre ++ EFlushed k (Some x) :: post) ->
  wire post = [] /\ (forall j fl, In (EFlushed j fl) post -> fl = Some x) /\
  (forall j res, j = k \/ ~ In j (locks pre) -> In (EReturn j res) post -> res = WriteError x).
Proof. intros Hf H. destruct (text_executes _ _ _ Hf H) as (cs & ms & s & P & _). exact (fail_stop _ _ _ _ _ _ _ _ cap_ok P). Qed.
(** What the text of Do returns is what is seen to be returned. *)
Lemma text_results sched c evs : (length sched + 3 <= fuel)%nat -> texecutes sched c evs -> SourceConnSpec.dead c = false ->
  forall k v, nth_error (t_calls c) k = Some (Done v) <-> exists r, returns_of k evs = [r] /\ v = result_val r.
Proof.
  intros Hf H Hd k v. destruct (text_executes _ _ _ Hf H) as (cs & ms & s & P & _ & _ & Sg & Sh).
  destruct (proj2 Sh Hd) as (_ & F & _). destruct (ainv _ _ _ _ _ cap_ok P) as [I _]. pose proof (i_view _ _ _ I k) as V. split.
  - intros E. destruct (forall2_at _ _ _ _ _ F E) as (cl & H1 & H2). rewrite H1 in V. rewrite (v_ret _ _ _ V). unfold call_same in H2.
    destruct (k_pc cl); try (exfalso; exact (H2 v eq_refl)). exists r. split; [reflexivity|]. injection H2 as <-. reflexivity.
  - intros (r & E & ->). destruct (nth_error (s_calls (n_conn s)) k) as [cl|] eqn:H1.
    + rewrite (v_ret _ _ _ V) in E. destruct (forall2_nth _ _ _ _ _ F H1) as (p & H2 & H3). unfold call_same in H3. destruct (k_pc cl); try discriminate E. injection E as ->.
      rewrite H2, H3. reflexivity.
    + destruct V as (_ & _ & V & _). rewrite V in E. discriminate E.
Qed.
Lemma text_calls sched c evs : (length sched + 3 <= fuel)%nat -> texecutes sched c evs -> SourceConnSpec.dead c = false -> sensible c.
Proof. intros Hf H Hd. destruct (text_executes _ _ _ Hf H) as (cs & ms & s & _ & _ & _ & _ & Sh). exact (proj1 (proj2 Sh Hd)). Qed.
End All.

Lemma text_broker tls width fuel raw addr sched c evs os : 32 <= width -> (length sched + 3 <= fuel)%nat -> texecutes tls width fuel raw addr sched c evs ->
  orders (outside_text sched) os -> Forall sendable os ->
  exists fs rest, parses (wire evs) fs rest /\ incomplete rest /\ (length fs <= length (locks evs))%nat /\ Forall2 (reads_call os evs) (firstn (length fs) (locks evs)) fs.
Proof.
  intros Hw Hf H Ho Hs. destruct (text_executes tls width fuel raw addr Hw _ _ _ Hf H) as (cs & ms & s & _ & N & E & _).
  assert (Ho' : orders ms os) by (unfold orders in *; rewrite E; exact Ho).
  destruct (client_reads _ _ _ _ _ _ _ cap_ok N Ho' Hs) as (fs & rest & A & B & C & D & _). exists fs, rest. auto.
Qed.
