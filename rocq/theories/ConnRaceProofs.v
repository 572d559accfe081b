(** * Data races on a connection: proofs *)
From Verif Require Import GoBase GoLemmas Encoder Decoder Spec EncProofs BufIO Msg01 Conn ConnSpec ConnProofs ConnProps ConnRaceSpec.
Ltac Zify.zify_post_hook ::= idtac.

Lemma caller_access {R} shares (s : conn R) k p w : next_access shares s (Caller k) = Some (p, w) -> exists c, nth_error (s_calls s) k = Some c /\
  ((p = TheEncoder /\ holding (k_pc c) = true) \/
   (p = Response k /\ w = false /\ ((exists x, k_pc c = PUnlock (Some x)) \/ (k_pc c = PWait /\ k_reply c <> None))) \/
   (p = ReceiveBuffer /\ w = false /\ exists r, k_pc c = PReturned (Reply (Value r)) /\ shares r = true)).
Proof.
  cbn [next_access]. destruct (nth_error (s_calls s) k) as [c|]; [|discriminate]. intros H. exists c. split; [reflexivity|].
  destruct (k_pc c) as [| | | |[x|]| |[x|[r|x]]] eqn:E; try discriminate.
  - injection H as <- <-. left. auto.
  - injection H as <- <-. right. left. eauto 6.
  - destruct (k_reply c); [|discriminate]. injection H as <- <-. right. left. split; [reflexivity|]. split; [reflexivity|]. right. split; [reflexivity|discriminate].
  - destruct (shares r) eqn:Es; [|discriminate]. injection H as <- <-. right. right. eauto 6.
Qed.
Lemma loop_access {R} shares (s : conn R) p w : next_access shares s Loop = Some (p, w) -> w = true /\
  ((p = ReceiveBuffer /\ (s_mpc s = MHead \/ exists n, s_mpc s = MBody n)) \/ exists k d, p = Response k /\ s_mpc s = MReply k d).
Proof. cbn [next_access]. destruct (s_mpc s) eqn:E; try discriminate; intros H; injection H as <- <-; eauto 8. Qed.

Definition pair {A} (x y a b : A) : Prop := (x = a /\ y = b) \/ (x = b /\ y = a).

(** Call [k] is about to be given its reply: it has none yet. *)
Lemma mreply_no_reply {R} cap (s : conn R) evs k d c : AInv cap s evs -> s_mpc s = MReply k d -> nth_error (s_calls s) k = Some c -> k_reply c = None.
Proof.
  intros [CI _] Hm Hc. destruct (i_mreply _ _ _ CI _ _ Hm) as [H _]. pose proof (i_view _ _ _ CI k) as V. rewrite Hc in V.
  rewrite (v_reply _ _ _ V) in H. destruct (k_reply c); [discriminate|reflexivity].
Qed.

Theorem all_races {R} : forall raw cap (sched : list (clabel R)) s evs shares g1 g2 p, 4 <= cap -> executes raw cap sched s evs -> races shares s g1 g2 p ->
  exists k, pair g1 g2 (Caller k) Loop /\
    ((p = Response k /\ (exists d, s_mpc s = MReply k d) /\ exists c x, nth_error (s_calls s) k = Some c /\ k_pc c = PUnlock (Some x)) \/
     (p = ReceiveBuffer /\ (s_mpc s = MHead \/ exists n, s_mpc s = MBody n) /\ exists r, In (EReturn k (Reply (Value r))) evs /\ shares r = true)).
Proof.
  intros raw cap sched s evs shares g1 g2 p Hc Hx (Hne & w1 & w2 & H1 & H2 & Hw). pose proof (ainv _ _ _ _ _ Hc Hx) as AI. pose proof AI as [CI WI].
  assert (Hcl : forall k w w', next_access shares s (Caller k) = Some (p, w) -> next_access shares s Loop = Some (p, w') ->
    (p = Response k /\ (exists d, s_mpc s = MReply k d) /\ exists c x, nth_error (s_calls s) k = Some c /\ k_pc c = PUnlock (Some x)) \/
    (p = ReceiveBuffer /\ (s_mpc s = MHead \/ exists n, s_mpc s = MBody n) /\ exists r, In (EReturn k (Reply (Value r))) evs /\ shares r = true)).
  { intros k w w' Ha Hb. apply caller_access in Ha. destruct Ha as (c & Ec & Ha). apply loop_access in Hb. destruct Hb as [_ Hb].
    destruct Ha as [(-> & _)|[(-> & _ & Ha)|(-> & _ & r & E & Es)]].
    - destruct Hb as [(Hb & _)|(j & d & Hb & _)]; discriminate.
    - destruct Hb as [(Hb & _)|(j & d & Hb & Hm)]; [discriminate|]. injection Hb as <-. left. split; [reflexivity|]. split; [eauto|].
      destruct Ha as [(x & Ha)|(_ & Ha)]; [eauto|]. rewrite (mreply_no_reply _ _ _ _ _ _ AI Hm Ec) in Ha. congruence.
    - destruct Hb as [(_ & Hb)|(j & d & Hb & _)]; [|discriminate]. right. split; [reflexivity|]. split; [exact Hb|]. exists r. split; [|exact Es].
      pose proof (i_view _ _ _ CI k) as V. rewrite Ec in V. pose proof (v_ret _ _ _ V) as Hr. rewrite E in Hr. apply in_returns. rewrite Hr. left. reflexivity. }
  destruct g1 as [k|], g2 as [j|].
  - exfalso. apply caller_access in H1, H2. destruct H1 as (c1 & E1 & H1), H2 as (c2 & E2 & H2).
    destruct H1 as [(-> & A1)|[(-> & -> & A1)|(-> & -> & A1)]], H2 as [(B & B1)|[(B & -> & B1)|(B & -> & B1)]]; try discriminate.
    assert (j = k) by (eapply one_holder; eassumption). congruence.
  - exists k. split; [left; auto|]. eapply Hcl; eassumption.
  - exists j. split; [right; auto|]. eapply Hcl; eassumption.
  - congruence.
Qed.

(** And these are races. *)
Theorem response_races {R} : forall (s : conn R) shares k c x d, nth_error (s_calls s) k = Some c -> k_pc c = PUnlock (Some x) -> s_mpc s = MReply k d ->
  races shares s (Caller k) Loop (Response k).
Proof.
  intros s shares k c x d Hc Hp Hm. split; [discriminate|]. exists false, true. cbn [next_access]. rewrite Hc, Hp, Hm. auto.
Qed.
Theorem buffer_races {R} : forall raw cap (sched : list (clabel R)) s evs shares k r, 4 <= cap -> executes raw cap sched s evs ->
  In (EReturn k (Reply (Value r))) evs -> shares r = true -> (s_mpc s = MHead \/ exists n, s_mpc s = MBody n) ->
  races shares s (Caller k) Loop ReceiveBuffer.
Proof.
  intros raw cap sched s evs shares k r Hc Hx Hin Hs Hm. destruct (ainv _ _ _ _ _ Hc Hx) as [CI _].
  pose proof (i_view _ _ _ CI k) as V. apply in_returns in Hin.
  split; [discriminate|]. exists false, true. cbn [next_access].
  destruct (nth_error (s_calls s) k) as [c|].
  - rewrite (v_ret _ _ _ V) in Hin. destruct (k_pc c); try contradiction. destruct Hin as [->|[]]. rewrite Hs.
    destruct Hm as [->|(n & ->)]; auto.
  - destruct V as (_ & _ & V & _). rewrite V in Hin. contradiction.
Qed.

(** A call on its way out with an error has seen its flush fail. *)
Lemma unlock_flushed {R} raw cap (sched : list (clabel R)) s evs : 4 <= cap -> executes raw cap sched s evs ->
  forall k c x, nth_error (s_calls s) k = Some c -> k_pc c = PUnlock (Some x) -> In (EFlushed k (Some x)) evs.
Proof.
  intros Hc. revert sched s evs.
  refine (exec_ind_inv (fun s evs => forall k c x, nth_error (s_calls s) k = Some c -> k_pc c = PUnlock (Some x) -> In (EFlushed k (Some x)) evs) raw cap Hc _ _).
  { intros k c x H. destruct k; discriminate. }
  intros s evs s' e _ _ IH T j c' x Hj Hp. apply in_or_app.
  assert (Hput : forall s0 k c0 c1, s_calls s0 = s_calls s -> nth_error (s_calls s) k = Some c0 ->
    nth_error (s_calls (put_call s0 k c1)) j = Some c' -> (j = k /\ c' = c1) \/ nth_error (s_calls s) j = Some c').
  { intros s0 k c0 c1 E0 Hk Hn. unfold put_call in Hn. cbn [s_calls set_calls] in Hn. rewrite E0 in Hn. destruct (Nat.eq_dec j k) as [->|Hne].
    - rewrite (nth_same _ _ _ _ Hk) in Hn. injection Hn as <-. auto.
    - rewrite nth_other in Hn by exact Hne. auto. }
  destruct T; try (left; eapply IH; eassumption).
  - cbn [s_calls set_calls] in Hj. destruct (Nat.lt_ge_cases j (length (s_calls s))) as [Hlt|Hge].
    + rewrite nth_error_app1 in Hj by exact Hlt. left. eapply IH; eassumption.
    + rewrite nth_error_app2 in Hj by exact Hge. destruct (j - length (s_calls s))%nat as [|[|n]]; cbn in Hj; try discriminate. injection Hj as <-. discriminate.
  - destruct (Hput (set_id s _) k c _ eq_refl H Hj) as [[-> ->]|Ho]; [discriminate|]. left. eapply IH; eassumption.
  - destruct (Hput (set_requests s _) k c _ eq_refl H Hj) as [[-> ->]|Ho]; [discriminate|]. left. eapply IH; eassumption.
  - destruct (Hput (set_lock s _) k c _ eq_refl H Hj) as [[-> ->]|Ho]; [discriminate|]. left. eapply IH; eassumption.
  - destruct (Hput s k c _ eq_refl H Hj) as [[-> ->]|Ho]; [discriminate|]. left. eapply IH; eassumption.
  - destruct (Hput (set_encoder s _ _) k c _ eq_refl H Hj) as [[-> ->]|Ho]; [|left; eapply IH; eassumption].
    right. left. cbn in Hp. injection Hp as ->. reflexivity.
  - destruct (Hput (set_lock s _) k c _ eq_refl H Hj) as [[-> ->]|Ho]; [discriminate|]. left. eapply IH; eassumption.
  - destruct (Hput (set_lock s _) k c _ eq_refl H Hj) as [[-> ->]|Ho]; [discriminate|]. left. eapply IH; eassumption.
  - destruct (Hput s k c _ eq_refl H Hj) as [[-> ->]|Ho]; [discriminate|]. left. eapply IH; eassumption.
  - destruct (Hput (set_mpc s _) k c _ eq_refl H0 Hj) as [[-> ->]|Ho]; left; eapply IH; eassumption.
Qed.
Theorem no_races {R} : forall raw cap (sched : list (clabel R)) s evs shares g1 g2 p, 4 <= cap -> executes raw cap sched s evs ->
  (forall k x, ~ In (EFlushed k (Some x)) evs) -> (forall k r, In (EReturn k (Reply (Value r))) evs -> shares r = false) ->
  ~ races shares s g1 g2 p.
Proof.
  intros raw cap sched s evs shares g1 g2 p Hc Hx Hf Hr H. destruct (all_races _ _ _ _ _ _ _ _ _ Hc Hx H) as (k & _ & [(_ & _ & c & x & Hk & Hp)|(_ & _ & r & Hin & Hs)]).
  - exact (Hf _ _ (unlock_flushed _ _ _ _ _ Hc Hx _ _ _ Hk Hp)).
  - rewrite (Hr _ _ Hin) in Hs. discriminate.
Qed.
