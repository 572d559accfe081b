(** * Proofs: endless executions in which everybody gets a turn (C79) *)
From Verif Require Import GoBase GoLemmas Encoder Decoder Spec EncProofs BufIO BufIOProofs Msg01 Conn ConnSpec ConnProofs ConnProps ConnTable LiveSpec.
Local Open Scope Z_scope.
Ltac Zify.zify_post_hook ::= idtac.

Lemma search (f : nat -> bool) : forall d n, (exists i, (n <= i < n + d)%nat /\ f i = true /\ forall j, (n <= j < i)%nat -> f j = false) \/
  (forall i, (n <= i < n + d)%nat -> f i = false).
Proof.
  induction d as [|d IH]; intros n; [right; intros; lia|].
  destruct (f n) eqn:E; [left; exists n; split; [lia|]; split; [exact E|intros; lia]|].
  destruct (IH (S n)) as [(i & H1 & H2 & H3)|H].
  - left. exists i. split; [lia|]. split; [exact H2|]. intros j Hj. destruct (Nat.eq_dec j n) as [->|]; [exact E|apply H3; lia].
  - right. intros i Hi. destruct (Nat.eq_dec i n) as [->|]; [exact E|apply H; lia].
Qed.

(** ** Which labels change what *)
Lemma other_call {R} (s s' : conn R) a e k c : cstep s a = Some (s', e) -> a <> CStep k -> nth_error (s_calls s) k = Some c ->
  exists c', nth_error (s_calls s') k = Some c' /\ k_pc c' = k_pc c.
Proof.
  intros H Ha Hk. unfold cstep in H. destruct (s_crashed s); [discriminate|].
  assert (Keep : s_calls s' = s_calls s -> exists c', nth_error (s_calls s') k = Some c' /\ k_pc c' = k_pc c) by (intros ->; eauto).
  destruct a as [enc dec|j| |bs| | |].
  - injection H as <- <-. exists c. cbn [set_calls s_calls]. split; [|reflexivity]. rewrite nth_error_app1; [exact Hk|]. apply nth_error_Some. congruence.
  - assert (Hj : k <> j) by congruence. destruct (nth_error (s_calls s) j) as [cj|]; [|discriminate]. unfold call_step in H.
    assert (P : forall s0 c1, s_calls s0 = s_calls s -> exists c', nth_error (s_calls (put_call s0 j c1)) k = Some c' /\ k_pc c' = k_pc c).
    { intros s0 c1 E. exists c. split; [|reflexivity]. cbn [put_call set_calls s_calls]. rewrite E, nth_other by exact Hj. exact Hk. }
    destruct (k_pc cj) as [ | | |[|p ps] err b fl|[x|]| |r]; try discriminate; try (injection H as <- <-; apply P; reflexivity).
    + destruct (s_lock s); [discriminate|]. destruct (transmit _ _ _ _) as [[err b] fl]. injection H as <- <-. apply P. reflexivity.
    + destruct (k_reply cj); [|discriminate]. injection H as <- <-. apply P. reflexivity.
  - unfold loop_step in H. destruct (s_mpc s) as [ | |size|id d|j d|]; try discriminate.
    + injection H as <- <-. apply Keep. reflexivity.
    + destruct (s_requests s id); injection H as <- <-; apply Keep; reflexivity.
    + destruct (nth_error (s_calls s) j) as [cj|] eqn:Ej; [|discriminate].
      assert (P : forall r s1 e1, match k_reply cj with Some _ => None | None => Some (put_call (set_mpc s MTop) j (mkCall (k_enc cj) (k_dec cj) (k_id cj) (k_pc cj) (Some r)), [EReply j r]) end = Some (s1, e1) ->
        exists c', nth_error (s_calls s1) k = Some c' /\ k_pc c' = k_pc c).
      { intros r s1 e1 E. destruct (k_reply cj); [discriminate|]. injection E as <- <-. cbn [put_call set_calls s_calls set_mpc]. destruct (Nat.eq_dec k j) as [->|Hn].
        - rewrite (nth_same _ _ _ _ Ej). rewrite Hk in Ej. injection Ej as <-. eauto.
        - rewrite nth_other by exact Hn. eauto. }
      destruct (k_dec cj d); [eapply P; exact H|eapply P; exact H|]. injection H as <- <-. apply Keep. reflexivity.
  - unfold loop_read in H. destruct (s_mpc s); try discriminate.
    + destruct (zlen bs =? 4); [|discriminate]. cbv zeta in H. destruct (dInt32 _); injection H as <- <-; apply Keep; reflexivity.
    + destruct (_ && _); [|discriminate]. cbv zeta in H. destruct (ResponseHeader_Decode _ _ _); injection H as <- <-; apply Keep; reflexivity.
  - destruct (s_mpc s); try discriminate. destruct (_ <? _); [|discriminate]. injection H as <- <-. apply Keep. reflexivity.
  - injection H as <- <-. apply Keep. reflexivity.
  - injection H as <- <-. apply Keep. reflexivity.
Qed.
Lemma other_mpc {R} (s s' : conn R) a e : cstep s a = Some (s', e) -> a <> MStep -> ~ reading s -> s_mpc s' = s_mpc s.
Proof.
  intros H Ha Hr. unfold cstep in H. destruct (s_crashed s); [discriminate|]. unfold reading in Hr. destruct a as [enc dec|j| |bs| | |]; try (injection H as <- <-; reflexivity).
  - destruct (nth_error (s_calls s) j) as [cj|]; [|discriminate]. unfold call_step in H.
    destruct (k_pc cj) as [ | | |[|p ps] err b fl|[x|]| |r]; try discriminate; try (injection H as <- <-; reflexivity).
    + destruct (s_lock s); [discriminate|]. destruct (transmit _ _ _ _) as [[err b] fl]. injection H as <- <-. reflexivity.
    + destruct (k_reply cj); [|discriminate]. injection H as <- <-. reflexivity.
  - congruence.
  - unfold loop_read in H. destruct (s_mpc s); try discriminate; exfalso; apply Hr; exact I.
  - destruct (s_mpc s); try discriminate; exfalso; apply Hr; exact I.
Qed.
(** While the loop is in ReadN, only its return moves it. *)
Lemma reading_mpc {R} (s s' : conn R) a e : cstep s a = Some (s', e) -> s_crashed s' = false -> (forall bs, a <> MRead bs) -> reading s -> s_mpc s' = s_mpc s.
Proof.
  intros H Hc Ha Hr. unfold cstep in H. destruct (s_crashed s); [discriminate|]. unfold reading in Hr. destruct a as [enc dec|j| |bs| | |]; try (injection H as <- <-; reflexivity).
  - destruct (nth_error (s_calls s) j) as [cj|]; [|discriminate]. unfold call_step in H.
    destruct (k_pc cj) as [ | | |[|p ps] err b fl|[x|]| |r]; try discriminate; try (injection H as <- <-; reflexivity).
    + destruct (s_lock s); [discriminate|]. destruct (transmit _ _ _ _) as [[err b] fl]. injection H as <- <-. reflexivity.
    + destruct (k_reply cj); [|discriminate]. injection H as <- <-. reflexivity.
  - unfold loop_step in H. destruct (s_mpc s); try discriminate; contradiction.
  - exfalso. apply (Ha bs). reflexivity.
  - destruct (s_mpc s); try discriminate. destruct (_ <? _); [|discriminate]. injection H as <- <-. discriminate Hc.
Qed.

Lemma carries_decodes raw size id : carries raw size id -> exists v d, dInt32 (mkDecoder raw size 0) = DOk v d.
Proof.
  intros (_ & Hs & rest & E).
  assert (L : (4 <= length (firstn (Z.to_nat size) raw))%nat) by (rewrite E, app_length; change (length (be 4 id)) with 4%nat; lia).
  rewrite firstn_length in L. destruct raw as [|b0 [|b1 [|b2 [|b3 raw]]]]; try (cbn in L; lia).
  unfold dInt32, fixed, remains. cbn [d_length d_offset d_raw]. replace (negb (size - 0 <? 4)) with true by (symmetry; apply negb_true_iff, Z.ltb_ge; lia).
  unfold slice_from, slice. rewrite Z.sub_0_r. cbn [Z.to_nat skipn].
  replace ((0 <=? 0) && (0 <=? zlen (b0 :: b1 :: b2 :: b3 :: raw)) && (zlen (b0 :: b1 :: b2 :: b3 :: raw) <=? zlen (b0 :: b1 :: b2 :: b3 :: raw))) with true
    by (symmetry; rewrite !andb_true_iff, !Z.leb_le; unfold zlen; lia).
  unfold zlen at 1. rewrite Nat2Z.id, firstn_all. cbn. eauto.
Qed.

Section Live.
Context {R : Type} (raw : rawconn) (cap : Z) (h : history R).
Hypothesis (Hcap : 4 <= cap) (Hh : happens raw cap h).
Notation st := (h_state h).
Notation lab := (h_label h).

Lemma past_S n : past h (S n) = past h n ++ h_events h n.
Proof. unfold past. rewrite seq_S, flat_map_app. cbn [flat_map]. rewrite app_nil_r. reflexivity. Qed.
Lemma past_more n m : (n <= m)%nat -> exists more, past h m = past h n ++ more.
Proof.
  intros H. induction H as [|m H [more IH]]; [exists []; rewrite app_nil_r; reflexivity|].
  exists (more ++ h_events h m). rewrite past_S, IH, app_assoc. reflexivity.
Qed.
Lemma past_in n m x : (n <= m)%nat -> In x (past h n) -> In x (past h m).
Proof. intros H Hi. destruct (past_more n m H) as [more ->]. apply in_or_app. left. exact Hi. Qed.
Lemma past_when n x : In x (past h n) -> exists i, (i < n)%nat /\ In x (h_events h i).
Proof. intros H. apply in_flat_map in H. destruct H as (i & H1 & H2). apply in_seq in H1. exists i. split; [lia|exact H2]. Qed.
Lemma one_step n : (lab n = None /\ st (S n) = st n /\ h_events h n = []) \/
  exists a, lab n = Some a /\ legal a /\ cstep (st n) a = Some (st (S n), h_events h n).
Proof. pose proof (proj2 Hh n) as H. destruct (lab n) as [a|]; [right; exists a; tauto|left; tauto]. Qed.
Lemma so_far n : exists sched, executes raw cap sched (st n) (past h n).
Proof.
  induction n as [|n [sched [IH1 IH2]]].
  - exists []. split; [constructor|]. rewrite (proj1 Hh). reflexivity.
  - rewrite past_S. destruct (one_step n) as [(_ & -> & ->)|(a & _ & L & E)].
    + exists sched. rewrite app_nil_r. split; assumption.
    + exists (sched ++ [a]). split; [apply Forall_app; auto|]. rewrite crun_app, IH2. cbn [crun]. rewrite E. rewrite app_nil_r. reflexivity.
Qed.
Lemma inv n : AInv cap (st n) (past h n).
Proof. destruct (so_far n) as [sched E]. exact (ainv _ _ _ _ _ Hcap E). Qed.
Lemma one_trans n : (lab n = None /\ st (S n) = st n /\ h_events h n = []) \/
  exists a, lab n = Some a /\ cstep (st n) a = Some (st (S n), h_events h n) /\ trans (st n) (st (S n)) (h_events h n).
Proof.
  destruct (one_step n) as [H|(a & H1 & H2 & H3)]; [left; exact H|right]. exists a. split; [exact H1|]. split; [exact H3|]. exact (proj2 (cstep_trans _ _ _ _ H2 H3)).
Qed.

Definition takes (k i : nat) : bool := match lab i with Some (CStep j) => Nat.eqb j k | _ => false end.
Lemma takes_true k i : takes k i = true <-> lab i = Some (CStep k).
Proof.
  unfold takes. destruct (lab i) as [[]|]; try (split; discriminate). rewrite Nat.eqb_eq. split; congruence.
Qed.
Lemma takes_false k i : takes k i = false -> lab i <> Some (CStep k).
Proof. intros H F. apply takes_true in F. congruence. Qed.

(** The position of a call until it moves. *)
Lemma same_pc k n c : nth_error (s_calls (st n)) k = Some c -> forall m, (n <= m)%nat -> (forall i, (n <= i < m)%nat -> takes k i = false) ->
  exists c', nth_error (s_calls (st m)) k = Some c' /\ k_pc c' = k_pc c.
Proof.
  intros Hk m Hm. induction Hm as [|m Hm IH]; intros Hn; [eauto|].
  destruct IH as (c1 & H1 & H2); [intros; apply Hn; lia|]. destruct (one_step m) as [(_ & -> & _)|(a & La & _ & E)]; [eauto|].
  destruct (other_call _ _ _ _ k c1 E) as (c2 & H3 & H4); [|exact H1|exists c2; split; [exact H3|congruence]].
  intros ->. apply (takes_false k m); [apply Hn; lia|exact La].
Qed.

Hypothesis (Hfair : callers_move h) (Hok : forall n, s_crashed (st n) = false).

Lemma first_take k n : (forall m, (n <= m)%nat -> exists i, (m <= i)%nat /\ ((exists j, (n <= j < i)%nat /\ takes k j = true) \/ enabled (st i) (CStep k))) ->
  exists m, (n <= m)%nat /\ takes k m = true /\ forall i, (n <= i < m)%nat -> takes k i = false.
Proof.
  intros H.
  assert (G : exists j, (n <= j)%nat /\ takes k j = true).
  { destruct (Hfair k n) as (m & Hm & [F|F]); [exists m; split; [exact Hm|apply takes_true, F]|].
    destruct (H m Hm) as (i & Hi & [(j & Hj & Ht)|He]); [exists j; split; [lia|exact Ht]|]. exfalso. exact (F i Hi He). }
  destruct G as (j & Hj & Ht). destruct (search (takes k) (S j - n) n) as [(i & H1 & H2 & H3)|F].
  - exists i. split; [lia|]. auto.
  - rewrite F in Ht by lia. discriminate.
Qed.
(** A call that is not waiting for the lock or a reply moves. *)
Lemma moves k n c : nth_error (s_calls (st n)) k = Some c ->
  match k_pc c with PId | PRegister | PSend _ _ _ _ | PUnlock _ => True | PWait => k_reply c <> None | _ => False end ->
  match k_pc c with PWait => forall m c', (n <= m)%nat -> nth_error (s_calls (st m)) k = Some c' -> k_pc c' = PWait -> k_reply c' <> None | _ => True end ->
  exists m c', (n <= m)%nat /\ nth_error (s_calls (st m)) k = Some c' /\ k_pc c' = k_pc c /\ call_step (st m) k c' = Some (st (S m), h_events h m).
Proof.
  intros Hk Hp Hw. destruct (first_take k n) as (m & Hm & Ht & Hn).
  - intros m Hm. exists m. split; [lia|]. destruct (search (takes k) (m - n) n) as [(j & H1 & H2 & _)|F]; [left; exists j; split; [lia|exact H2]|right].
    destruct (same_pc k n c Hk m Hm) as (c' & H1 & H2); [intros; apply F; lia|].
    unfold enabled, cstep. rewrite Hok, H1. unfold call_step. destruct (k_pc c) as [ | | |[|p ps] err b fl|[x|]| |r] eqn:Ep; try contradiction; rewrite H2; try discriminate.
    specialize (Hw m c' Hm H1 H2). destruct (k_reply c'); [discriminate|congruence].
  - destruct (same_pc k n c Hk m Hm Hn) as (c' & H1 & H2). exists m, c'. split; [exact Hm|]. split; [exact H1|]. split; [exact H2|].
    apply takes_true in Ht. destruct (one_step m) as [(F & _)|(a & La & _ & E)]; [congruence|]. rewrite Ht in La. injection La as <-.
    unfold cstep in E. rewrite Hok, H1 in E. exact E.
Qed.
Ltac steady := cbn; exact I || discriminate || auto.

(** To the lock. *)
Lemma to_lock k n c : nth_error (s_calls (st n)) k = Some c -> past_lock (k_pc c) = false ->
  exists m c', (n <= m)%nat /\ nth_error (s_calls (st m)) k = Some c' /\ k_pc c' = PLock.
Proof.
  assert (G : forall n c, nth_error (s_calls (st n)) k = Some c -> k_pc c = PRegister -> exists m c', (n <= m)%nat /\ nth_error (s_calls (st m)) k = Some c' /\ k_pc c' = PLock).
  { clear n c. intros n c Hk Hp. destruct (moves k n c Hk) as (m & c' & Hm & H1 & H2 & E); [rewrite Hp; exact I|rewrite Hp; exact I|].
    unfold call_step in E. rewrite H2, Hp in E. injection E as Es _. exists (S m). rewrite <- Es. eexists. split; [lia|].
    split; [apply (put_same (set_requests (st m) _) k c'); exact H1|reflexivity]. }
  intros Hk Hp. destruct (k_pc c) eqn:Ep; try discriminate.
  - destruct (moves k n c Hk) as (m & c' & Hm & H1 & H2 & E); [rewrite Ep; exact I|rewrite Ep; exact I|].
    unfold call_step in E. rewrite H2, Ep in E. injection E as Es _.
    destruct (G (S m) (mkCall (k_enc c') (k_dec c') (int32 (s_id (st m) + 1)) PRegister (k_reply c'))) as (m2 & c2 & Hm2 & H3 & H4).
    + rewrite <- Es. apply (put_same (set_id (st m) _) k c'). exact H1.
    + reflexivity.
    + exists m2, c2. split; [lia|auto].
  - exact (G n c Hk Ep).
  - exists n, c. auto.
Qed.
(** From the lock to the end of Flush, and on. *)
Lemma to_flush k : forall ps n c err b fl, nth_error (s_calls (st n)) k = Some c -> k_pc c = PSend ps err b fl ->
  exists m c', (n <= m)%nat /\ nth_error (s_calls (st m)) k = Some c' /\ k_pc c' = PUnlock fl /\ In (EFlushed k fl) (past h m).
Proof.
  induction ps as [|p ps IH]; intros n c err b fl Hk Hp; (destruct (moves k n c Hk) as (m & c' & Hm & H1 & H2 & E); [rewrite Hp; exact I|rewrite Hp; exact I|]);
    unfold call_step in E; rewrite H2, Hp in E; injection E as Es Ee.
  - exists (S m), (at_pc c' (PUnlock fl)). split; [lia|]. split; [rewrite <- Es; apply (put_same (set_encoder (st m) _ _) k c'); exact H1|]. split; [reflexivity|].
    rewrite past_S. apply in_or_app. right. rewrite <- Ee. left. reflexivity.
  - destruct (IH (S m) (at_pc c' (PSend ps err b fl)) err b fl) as (m2 & c2 & Hm2 & G).
    + rewrite <- Es. apply (put_same (st m) k c'). exact H1.
    + reflexivity.
    + exists m2, c2. split; [lia|exact G].
Qed.
Lemma to_unlock k n c fl : nth_error (s_calls (st n)) k = Some c -> k_pc c = PUnlock fl ->
  exists m, (n <= m)%nat /\ s_lock (st m) = None /\
    match fl with Some x => In (EReturn k (WriteError x)) (past h m) | None => exists c', nth_error (s_calls (st m)) k = Some c' /\ k_pc c' = PWait end.
Proof.
  intros Hk Hp. destruct (moves k n c Hk) as (m & c' & Hm & H1 & H2 & E); [rewrite Hp; exact I|rewrite Hp; exact I|].
  unfold call_step in E. rewrite H2, Hp in E. exists (S m). split; [lia|]. destruct fl as [x|]; injection E as Es Ee; rewrite <- Es.
  - split; [reflexivity|]. rewrite past_S. apply in_or_app. right. rewrite <- Ee. left. reflexivity.
  - split; [reflexivity|]. eexists. split; [apply (put_same (set_lock (st m) None) k c'); exact H1|reflexivity].
Qed.
Lemma freed n : exists m, (n <= m)%nat /\ s_lock (st m) = None.
Proof.
  destruct (s_lock (st n)) as [j|] eqn:El; [|exists n; auto]. destruct (inv n) as [_ W]. destruct (w_held _ _ W j El) as [c Hc].
  pose proof (proj2 (w_hold _ _ W j c Hc) El) as HH. destruct (k_pc c) as [ | | |ps err b fl|fl| |r] eqn:Ep; try discriminate.
  - destruct (to_flush j ps n c err b fl Hc Ep) as (m & c' & Hm & H1 & H2 & _). destruct (to_unlock j m c' fl H1 H2) as (m2 & Hm2 & H3 & _). exists m2. split; [lia|exact H3].
  - destruct (to_unlock j n c fl Hc Ep) as (m2 & Hm2 & H3 & _). exists m2. auto.
Qed.
Lemma take_lock k n c : nth_error (s_calls (st n)) k = Some c -> k_pc c = PLock ->
  exists m c' ps err b fl, (n <= m)%nat /\ nth_error (s_calls (st m)) k = Some c' /\ k_pc c' = PSend ps err b fl.
Proof.
  intros Hk Hp. destruct (first_take k n) as (m & Hm & Ht & Hn).
  - intros m Hm. destruct (freed m) as (i & Hi & El). exists i. split; [exact Hi|].
    destruct (search (takes k) (i - n) n) as [(j & H1 & H2 & _)|F]; [left; exists j; split; [lia|exact H2]|right].
    destruct (same_pc k n c Hk i) as (c' & H1 & H2); [lia|intros; apply F; lia|].
    unfold enabled, cstep. rewrite Hok, H1. unfold call_step. rewrite H2, Hp, El. destruct (transmit _ _ _ _) as [[err b] fl]. discriminate.
  - destruct (same_pc k n c Hk m Hm Hn) as (c' & H1 & H2). apply takes_true in Ht.
    destruct (one_step m) as [(F & _)|(a & La & _ & E)]; [congruence|]. rewrite Ht in La. injection La as <-.
    unfold cstep in E. rewrite Hok, H1 in E. unfold call_step in E. rewrite H2, Hp in E. destruct (s_lock (st m)); [discriminate|].
    destruct (transmit _ _ _ _) as [[err b] fl]. injection E as Es _.
    do 6 eexists. split; [|split; [rewrite <- Es; apply (put_same (set_lock (st m) (Some k)) k c'); exact H1|reflexivity]]. lia.
Qed.
(** Every call ends its Flush. *)
Lemma flush_ends k n c : nth_error (s_calls (st n)) k = Some c -> past_lock (k_pc c) = false ->
  exists m c' fl, (n <= m)%nat /\ nth_error (s_calls (st m)) k = Some c' /\ k_pc c' = PUnlock fl /\ In (EFlushed k fl) (past h m).
Proof.
  intros Hk Hp. destruct (to_lock k n c Hk Hp) as (m1 & c1 & Hm1 & H1 & H2). destruct (take_lock k m1 c1 H1 H2) as (m2 & c2 & ps & err & b & fl & Hm2 & H3 & H4).
  destruct (to_flush k ps m2 c2 err b fl H3 H4) as (m3 & c3 & Hm3 & H5). exists m3, c3, fl. split; [lia|exact H5].
Qed.
Lemma called k n : In (ECall k) (past h n) -> exists m c, nth_error (s_calls (st m)) k = Some c /\ k_pc c = PId.
Proof.
  intros H. apply past_when in H. destruct H as (i & Hi & H). destruct (one_trans i) as [(_ & _ & E)|(a & _ & _ & T)]; [rewrite E in H; contradiction|].
  exists (S i). remember (h_events h i) as e eqn:Ee. clear Ee. destruct T; cbn [In] in H; try (destruct H as [F|[]]; discriminate F); try contradiction.
  destruct H as [H|[]]. injection H as <-. exists (mkCall enc dec 0 PId None). split; [|reflexivity]. cbn [set_calls s_calls].
  rewrite nth_error_app2, Nat.sub_diag by lia. reflexivity.
Qed.
Theorem sends k n : In (ECall k) (past h n) -> exists m fl, In (EFlushed k fl) (past h m).
Proof.
  intros H. destruct (called k n H) as (m & c & H1 & H2). destruct (flush_ends k m c H1) as (m2 & c2 & fl & _ & _ & _ & G); [rewrite H2; reflexivity|]. eauto.
Qed.
(** A call at PWait stays there until it returns. *)
Lemma wait_or_back k n c : nth_error (s_calls (st n)) k = Some c -> k_pc c = PWait -> forall m, (n <= m)%nat ->
  exists c', nth_error (s_calls (st m)) k = Some c' /\ (k_pc c' = PWait \/ exists r, k_pc c' = PReturned r).
Proof.
  intros Hk Hp m Hm. induction Hm as [|m Hm (c1 & H1 & H2)]; [eauto|].
  destruct (takes k m) eqn:Et.
  - apply takes_true in Et. destruct (one_step m) as [(F & _)|(a & La & _ & E)]; [congruence|]. rewrite Et in La. injection La as <-.
    unfold cstep in E. rewrite Hok, H1 in E. unfold call_step in E. destruct H2 as [H2|[r H2]]; rewrite H2 in E; [|discriminate].
    destruct (k_reply c1); [|discriminate]. injection E as Es _. eexists. split; [rewrite <- Es; apply (put_same (st m) k c1); exact H1|right; eexists; reflexivity].
  - destruct (same_pc k m c1 H1 (S m)) as (c2 & H3 & H4); [lia|intros i Hi; replace i with m by lia; exact Et|]. exists c2. rewrite H4. auto.
Qed.
Lemma returned_in k n c r : nth_error (s_calls (st n)) k = Some c -> k_pc c = PReturned r -> In (EReturn k r) (past h n).
Proof.
  intros Hk Hp. destruct (inv n) as [I _]. pose proof (i_view _ _ _ I k) as V. rewrite Hk in V. apply in_returns. rewrite (v_ret _ _ _ V), Hp. left. reflexivity.
Qed.
(** A reply that is there is returned. *)
Lemma replied_returns k n c : nth_error (s_calls (st n)) k = Some c -> k_pc c = PWait -> replies_to k (past h n) <> [] ->
  exists m res, In (EReturn k res) (past h m).
Proof.
  intros Hk Hp Hr.
  assert (Keep : forall m c', (n <= m)%nat -> nth_error (s_calls (st m)) k = Some c' -> k_pc c' = PWait -> k_reply c' <> None).
  { intros m c' Hm H1 H2 F. destruct (inv m) as [I _]. pose proof (i_view _ _ _ I k) as V. rewrite H1 in V. pose proof (v_reply _ _ _ V) as E.
    rewrite F, H2 in E. cbn in E. destruct (past_more n m Hm) as [more Em]. rewrite Em, grow_rep in E. apply app_eq_nil in E. destruct E. congruence. }
  destruct (moves k n c Hk) as (m & c' & Hm & H1 & H2 & E); [rewrite Hp; exact (Keep n c (le_n n) Hk Hp)|rewrite Hp; exact Keep|].
  unfold call_step in E. rewrite H2, Hp in E. destruct (k_reply c') as [r|]; [|discriminate]. injection E as _ Ee.
  exists (S m), (Reply r). rewrite past_S. apply in_or_app. right. rewrite <- Ee. left. reflexivity.
Qed.
Lemma write_failed k n x : In (EFlushed k (Some x)) (past h n) -> exists m, In (EReturn k (WriteError x)) (past h m).
Proof.
  intros H. apply past_when in H. destruct H as (i & Hi & H). destruct (one_trans i) as [(_ & _ & E)|(a & _ & _ & T)]; [rewrite E in H; contradiction|].
  assert (G : exists c, nth_error (s_calls (st (S i))) k = Some c /\ k_pc c = PUnlock (Some x)).
  { remember (h_events h i) as e eqn:Ee. clear Ee. destruct T; cbn [In] in H; try (destruct H as [F|[]]; discriminate F); try contradiction.
    destruct H as [H|[]]. injection H as -> ->. eexists. split; [apply (put_same (set_encoder (st i) _ _) k c); assumption|reflexivity]. }
  destruct G as (c & H1 & H2). destruct (to_unlock k (S i) c _ H1 H2) as (m & _ & _ & G). eauto.
Qed.

(** ** The message loop *)
Hypothesis (Hloop : loop_moves h) (Hopen : forall n, s_closed (st n) = false) (Hcome : bytes_come h).

Definition steps (i : nat) : bool := match lab i with Some MStep => true | _ => false end.
Lemma steps_false i : steps i = false -> lab i <> Some MStep.
Proof. unfold steps. destruct (lab i) as [[]|]; congruence. Qed.
Lemma same_mpc n : ~ reading (st n) -> forall m, (n <= m)%nat -> (forall i, (n <= i < m)%nat -> steps i = false) -> s_mpc (st m) = s_mpc (st n).
Proof.
  intros Hr m Hm. induction Hm as [|m Hm IH]; intros Hn; [reflexivity|].
  assert (E0 : s_mpc (st m) = s_mpc (st n)) by (apply IH; intros; apply Hn; lia).
  destruct (one_step m) as [(_ & -> & _)|(a & La & _ & E)]; [exact E0|]. rewrite <- E0. apply (other_mpc _ _ _ _ E).
  - intros ->. apply (steps_false m); [apply Hn; lia|exact La].
  - unfold reading. rewrite E0. exact Hr.
Qed.
Lemma can_step n : match s_mpc (st n) with MTop | MLookup _ _ | MReply _ _ => True | _ => False end -> enabled (st n) MStep.
Proof.
  intros H. unfold enabled, cstep. rewrite Hok. unfold loop_step. destruct (s_mpc (st n)) as [ | |size|id d|k d|] eqn:Em; try contradiction.
  - discriminate.
  - destruct (s_requests (st n) id); discriminate.
  - destruct (inv n) as [I _]. destruct (i_mreply _ _ _ I k d Em) as (E1 & E2 & _).
    destruct (reg_exists _ _ _ (i_view _ _ _ I) E2) as (c & C1 & _). rewrite C1. pose proof (i_view _ _ _ I k) as V. rewrite C1 in V. pose proof (v_reply _ _ _ V) as E.
    rewrite E1 in E. destruct (k_reply c); [discriminate|]. destruct (k_dec c d); discriminate.
Qed.
Lemma loop_goes n : match s_mpc (st n) with MTop | MLookup _ _ | MReply _ _ => True | _ => False end ->
  exists m, (n <= m)%nat /\ s_mpc (st m) = s_mpc (st n) /\ loop_step (st m) = Some (st (S m), h_events h m).
Proof.
  intros H. assert (Hr : ~ reading (st n)) by (unfold reading; destruct (s_mpc (st n)); tauto).
  destruct (Hloop n) as (m & Hm & Ht).
  assert (G : exists i, (n <= i)%nat /\ steps i = true /\ forall j, (n <= j < i)%nat -> steps j = false).
  { destruct (search steps (S m - n) n) as [(i & H1 & H2 & H3)|F]; [exists i; split; [lia|auto]|]. exfalso.
    destruct Ht as [Ht|Ht]; [assert (Hs : steps m = false) by (apply F; lia); apply (steps_false m Hs), Ht|].
    apply Ht, can_step. rewrite (same_mpc n Hr m Hm); [exact H|]. intros; apply F; lia. }
  destruct G as (i & Hi & Hs & Hb). exists i. split; [exact Hi|]. split; [apply same_mpc; assumption|].
  unfold steps in Hs. destruct (one_step i) as [(F & _)|(a & La & _ & E)]; [rewrite F in Hs; discriminate|]. rewrite La in Hs.
  destruct a; try discriminate. unfold cstep in E. rewrite Hok in E. exact E.
Qed.
Lemma not_done n : s_mpc (st n) <> MDone.
Proof.
  induction n as [|n IH]; [rewrite (proj1 Hh); discriminate|].
  destruct (one_trans n) as [(_ & -> & _)|(a & _ & _ & T)]; [exact IH|]. pose proof (Hopen n) as Ho.
  destruct T; cbn [set_mpc s_mpc set_calls put_call set_id set_requests set_lock set_encoder set_rbuf crash set_closed set_rawclosed]; try exact IH; try discriminate.
  rewrite Ho. discriminate.
Qed.
Lemma to_head n : exists m, (n <= m)%nat /\ reading (st m).
Proof.
  assert (Top : forall n, s_mpc (st n) = MTop -> exists m, (n <= m)%nat /\ reading (st m)).
  { clear n. intros n Hm. destruct (loop_goes n) as (m & H1 & H2 & H3); [rewrite Hm; exact I|]. unfold loop_step in H3. rewrite H2, Hm, Hopen in H3.
    injection H3 as Es _. exists (S m). split; [lia|]. rewrite <- Es. exact I. }
  assert (Rep : forall n k d, s_mpc (st n) = MReply k d -> exists m, (n <= m)%nat /\ reading (st m)).
  { clear n. intros n k d Hm. destruct (loop_goes n) as (m & H1 & H2 & H3); [rewrite Hm; exact I|]. unfold loop_step in H3. rewrite H2, Hm in H3.
    assert (E : s_mpc (st (S m)) = MTop).
    { destruct (nth_error (s_calls (st m)) k) as [c|]; [|discriminate]. pose proof (Hok (S m)) as Hc.
      destruct (k_dec c d); [destruct (k_reply c); [discriminate|]; injection H3 as Es _; rewrite <- Es; reflexivity..|].
      injection H3 as Es _. rewrite <- Es in Hc. discriminate. }
    destruct (Top (S m) E) as (m2 & Hm2 & G). exists m2. split; [lia|exact G]. }
  destruct (s_mpc (st n)) as [ | |size|id d|k d|] eqn:Em.
  - apply Top, Em.
  - exists n. split; [lia|]. unfold reading. rewrite Em. exact I.
  - exists n. split; [lia|]. unfold reading. rewrite Em. exact I.
  - destruct (loop_goes n) as (m & H1 & H2 & H3); [rewrite Em; exact I|]. unfold loop_step in H3. rewrite H2, Em in H3.
    destruct (s_requests (st m) id) as [k|]; injection H3 as Es _.
    + destruct (Rep (S m) k d) as (m2 & Hm2 & G); [rewrite <- Es; reflexivity|]. exists m2. split; [lia|exact G].
    + destruct (Top (S m)) as (m2 & Hm2 & G); [rewrite <- Es; reflexivity|]. exists m2. split; [lia|exact G].
  - eapply Rep; exact Em.
  - exfalso. exact (not_done n Em).
Qed.

Definition reads_at (i : nat) : bool := match lab i with Some (MRead _) => true | _ => false end.
Lemma same_reading n : reading (st n) -> forall m, (n <= m)%nat -> (forall i, (n <= i < m)%nat -> reads_at i = false) -> s_mpc (st m) = s_mpc (st n).
Proof.
  intros Hr m Hm. induction Hm as [|m Hm IH]; intros Hn; [reflexivity|].
  assert (E0 : s_mpc (st m) = s_mpc (st n)) by (apply IH; intros; apply Hn; lia).
  destruct (one_step m) as [(_ & -> & _)|(a & La & _ & E)]; [exact E0|]. rewrite <- E0. apply (reading_mpc _ _ _ _ E (Hok (S m))).
  - intros bs ->. assert (F : reads_at m = false) by (apply Hn; lia). unfold reads_at in F. rewrite La in F. discriminate.
  - unfold reading. rewrite E0. exact Hr.
Qed.
Definition waits_at (k n : nat) : Prop := waits (st n) k.
Lemma read_next n k : reading (st n) -> exists m, (n <= m)%nat /\
  ((exists bs, s_mpc (st m) = s_mpc (st n) /\ loop_read (st m) bs = Some (st (S m), h_events h m)) \/ ~ waits (st m) k).
Proof.
  intros Hr. destruct (Hcome n) as (m & Hm & Ht).
  destruct (search reads_at (S m - n) n) as [(i & H1 & H2 & H3)|F].
  - exists i. split; [lia|]. left. unfold reads_at in H2. destruct (one_step i) as [(F & _)|(a & La & _ & E)]; [rewrite F in H2; discriminate|].
    rewrite La in H2. destruct a; try discriminate. exists bs. split; [apply same_reading; [exact Hr|lia|exact H3]|]. unfold cstep in E. rewrite Hok in E. exact E.
  - exists m. split; [exact Hm|]. right. intros Hw. destruct Ht as [[bs Ht]|Ht].
    + assert (E : reads_at m = false) by (apply F; lia). unfold reads_at in E. rewrite Ht in E. discriminate.
    + apply Ht. split; [|destruct Hw as (c & Hw); exists k, c; exact Hw]. unfold reading. rewrite (same_reading n Hr m Hm); [exact Hr|]. intros; apply F; lia.
Qed.
Lemma frames_more n m : (n <= m)%nat -> (length (frames (past h n)) <= length (frames (past h m)))%nat.
Proof. intros H. destruct (past_more n m H) as [more ->]. unfold frames. rewrite flat_map_app, app_length. lia. Qed.
Lemma frame_next n k : exists m, (n <= m)%nat /\ ((length (frames (past h n)) < length (frames (past h m)))%nat \/ ~ waits (st m) k).
Proof.
  assert (Body : forall n size, s_mpc (st n) = MBody size -> exists m, (n <= m)%nat /\ ((length (frames (past h n)) < length (frames (past h m)))%nat \/ ~ waits (st m) k)).
  { clear n. intros n size Hm. destruct (read_next n k) as (m & H1 & [(bs & H2 & H3)|H2]); [unfold reading; rewrite Hm; exact I| |exists m; auto].
    exists (S m). split; [lia|]. left. unfold loop_read in H3. rewrite H2, Hm in H3. destruct (_ && _); [|discriminate]. cbv zeta in H3.
    rewrite past_S. unfold frames. rewrite flat_map_app, app_length. pose proof (frames_more n m H1) as L. unfold frames in L. pose proof (Hok (S m)) as Hc.
    destruct (ResponseHeader_Decode _ _ _); injection H3 as Es Ee; try (rewrite <- Ee; cbn [flat_map length app]; lia). rewrite <- Es in Hc. discriminate. }
  destruct (to_head n) as (m1 & Hm1 & Hr). pose proof (frames_more n m1 Hm1) as L1.
  destruct (s_mpc (st m1)) as [ | |size| | |] eqn:Em; try (unfold reading in Hr; rewrite Em in Hr; contradiction).
  - destruct (read_next m1 k Hr) as (m2 & H1 & [(bs & H2 & H3)|H2]); [|exists m2; split; [lia|auto]].
    unfold loop_read in H3. rewrite H2, Em in H3. destruct (_ =? _); [|discriminate]. cbv zeta in H3. pose proof (Hok (S m2)) as Hc.
    assert (E : exists size, s_mpc (st (S m2)) = MBody size).
    { destruct (dInt32 _); injection H3 as Es _; rewrite <- Es; try (eexists; reflexivity). rewrite <- Es in Hc. discriminate. }
    destruct E as [size E]. destruct (Body (S m2) size E) as (m3 & Hm3 & G). exists m3. split; [lia|]. destruct G as [G|G]; [left|right; exact G].
    pose proof (frames_more m1 (S m2)). lia.
  - destruct (Body m1 size Em) as (m3 & Hm3 & G). exists m3. split; [lia|]. destruct G as [G|G]; [left; lia|right; exact G].
Qed.
Lemma frames_many k N : forall n, exists m, (n <= m)%nat /\ ((N <= length (frames (past h m)))%nat \/ ~ waits (st m) k).
Proof.
  induction N as [|N IH]; intros n; [exists n; split; [lia|left; lia]|].
  destruct (IH n) as (m & Hm & [G|G]); [|exists m; auto]. destruct (frame_next m k) as (m2 & Hm2 & G2). exists m2. split; [lia|].
  destruct G2 as [G2|G2]; [left; lia|auto].
Qed.
Lemma not_waiting k n c m : nth_error (s_calls (st n)) k = Some c -> k_pc c = PWait -> (n <= m)%nat -> ~ waits (st m) k -> exists i res, In (EReturn k res) (past h i).
Proof.
  intros Hk Hp Hm Hw. destruct (wait_or_back k n c Hk Hp m Hm) as (c' & H1 & [H2|[r H2]]); [|exists m, r; exact (returned_in k m c' r H1 H2)].
  destruct (k_reply c') as [r|] eqn:Er; [|exfalso; apply Hw; exists c'; auto].
  apply (replied_returns k m c' H1 H2). destruct (inv m) as [I _]. pose proof (i_view _ _ _ I k) as V. rewrite H1 in V. rewrite (v_reply _ _ _ V), Er. discriminate.
Qed.

Hypothesis (Hfew : few_calls h).
(** A frame with the id of a registered call leads to its reply. *)
Lemma frame_replies k id i buf size : In (EId k id) (past h i) -> In (ERegister k) (past h i) -> In (EFrame buf size) (h_events h i) -> carries buf size id ->
  exists m, replies_to k (past h m) <> [].
Proof.
  intros Hid Hreg Hf Hc.
  assert (E : exists d, s_mpc (st (S i)) = MLookup id d).
  { destruct (one_trans i) as [(_ & _ & E)|(a & _ & _ & T)]; [rewrite E in Hf; contradiction|]. destruct (inv i) as [I _]. pose proof (i_buf _ _ _ I) as [B1 B2].
    remember (h_events h i) as e eqn:Ee. clear Ee. destruct T; cbn [In] in Hf; try (destruct Hf as [F|[]]; discriminate F); try contradiction;
      destruct Hf as [Hf|[]]; injection Hf as <- <-.
    - destruct (decode_carries (overwrite (s_rbuf (st i)) bs) size0 id0 d) as [Hcar _]; [|apply Hc|assumption|].
      + apply (overwrite_ok _ _ cap); auto. pose proof (proj1 (i_cap _ _ _ I)). pose proof (proj2 (i_cap _ _ _ I)). lia.
      + pose proof (carries_unique _ _ _ _ Hc Hcar) as <-. exists d. reflexivity.
    - destruct (carries_decodes _ _ _ Hc) as (v & d' & F). congruence. }
  destruct E as [d E]. destruct (loop_goes (S i)) as (m & Hm & H2 & H3); [rewrite E; exact I|].
  destruct (replies_to k (past h m)) as [|r rs] eqn:Er; [|exists m; rewrite Er; discriminate].
  assert (Et : s_requests (st m) id = Some k).
  { destruct (so_far m) as [sched Hs]. apply (table_exact _ _ _ _ _ Hcap Hs (Hfew m)). split; [apply (past_in i); [lia|exact Hid]|].
    split; [apply (past_in i); [lia|exact Hreg]|]. split; [apply replies_nonempty, Er|]. intros d'. rewrite H2, E. discriminate. }
  unfold loop_step in H3. rewrite H2, E, Et in H3. injection H3 as Es _.
  assert (E2 : s_mpc (st (S m)) = MReply k d) by (rewrite <- Es; reflexivity).
  destruct (loop_goes (S m)) as (m2 & Hm2 & H4 & H5); [rewrite E2; exact I|]. exists (S m2). rewrite past_S, grow_rep.
  unfold loop_step in H5. rewrite H4, E2 in H5. pose proof (Hok (S m2)) as Hcr.
  destruct (nth_error (s_calls (st m2)) k) as [c|]; [|discriminate].
  assert (G : forall r, [EReply k r] = h_events h m2 -> replies_to k (past h m2) ++ replies_to k (h_events h m2) <> []).
  { intros r <-. cbn. rewrite Nat.eqb_refl. intros F. apply app_eq_nil in F. destruct F. discriminate. }
  destruct (k_dec c d); [destruct (k_reply c); [discriminate|]; injection H5 as _ Ee; eapply G; exact Ee..|].
  injection H5 as Ex _. rewrite <- Ex in Hcr. discriminate.
Qed.

Theorem all_return : answers h -> forall k n, In (ECall k) (past h n) -> exists m res, In (EReturn k res) (past h m).
Proof.
  intros Ha k n H. destruct (called k n H) as (m & c & H1 & H2).
  destruct (flush_ends k m c H1) as (m1 & c1 & fl & Hm1 & H3 & H4 & H5); [rewrite H2; reflexivity|].
  destruct fl as [x|]; [destruct (write_failed k m1 x H5) as [m2 G]; eauto|].
  destruct (to_unlock k m1 c1 None H3 H4) as (m2 & Hm2 & _ & c2 & H6 & H7).
  assert (Hid : exists id, In (EId k id) (past h m2)).
  { destruct (inv m2) as [I _]. pose proof (i_view _ _ _ I k) as V. rewrite H6 in V. exists (k_id c2). apply in_id_of. rewrite (v_id _ _ _ V), H7. left. reflexivity. }
  destruct Hid as [id Hid]. destruct (Ha k id m2 Hid (past_in m1 m2 _ Hm2 H5)) as [N HN].
  destruct (frames_many k N m2) as (m3 & Hm3 & [G|G]); [|exact (not_waiting k m2 c2 m3 H6 H7 Hm3 G)].
  destruct (HN m3 G) as (i & buf & size & Hi & Hr & Hf & Hc).
  assert (Hid2 : In (EId k id) (past h i)).
  { destruct (inv i) as [I _]. destruct (so_far i) as [sched Hs]. pose proof (i_view _ _ _ I k) as V.
    assert (Hx : In tt (registrations k (past h i))) by (unfold registrations; apply in_flat_map; exists (ERegister k); split; [exact Hr|cbn; rewrite Nat.eqb_refl; left; reflexivity]).
    destruct (nth_error (s_calls (st i)) k) as [ci|] eqn:Ei; [|destruct V as (_ & E & _); rewrite E in Hx; contradiction].
    rewrite (v_reg _ _ _ V) in Hx. assert (Eid : id_of k (past h i) = [k_id ci]) by (rewrite (v_id _ _ _ V); destruct (k_pc ci); try contradiction; reflexivity).
    assert (E2 : In (EId k (k_id ci)) (past h i)) by (apply in_id_of; rewrite Eid; left; reflexivity).
    assert (E3 : k_id ci = id).
    { destruct (inv m3) as [I3 _]. pose proof (i_view _ _ _ I3 k) as V3. assert (A : In (EId k (k_id ci)) (past h m3)) by (apply (past_in i); [lia|exact E2]).
      assert (B : In (EId k id) (past h m3)) by (apply (past_in m2); assumption). apply in_id_of in A. apply in_id_of in B.
      destruct (nth_error (s_calls (st m3)) k) as [c3|]; [|destruct V3 as (E & _); rewrite E in A; contradiction].
      rewrite (v_id _ _ _ V3) in A, B. destruct (k_pc c3); cbn in A, B; try contradiction; destruct A as [<-|[]]; destruct B as [<-|[]]; reflexivity. }
    rewrite <- E3. exact E2. }
  destruct (frame_replies k id i buf size Hid2 Hr Hf Hc) as [m4 G4].
  destruct (wait_or_back k m2 c2 H6 H7 (max m2 m4)) as (c5 & H8 & [H9|[r H9]]); [lia| |exists (max m2 m4), r; exact (returned_in k _ c5 r H8 H9)].
  apply (replied_returns k (max m2 m4) c5 H8 H9). intros F. destruct (past_more m4 (max m2 m4)) as [more Em]; [lia|]. rewrite Em, grow_rep in F.
  apply app_eq_nil in F. destruct F. congruence.
Qed.
End Live.
