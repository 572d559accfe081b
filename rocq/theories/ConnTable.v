(** * Proofs about the table of outstanding requests *)
From Verif Require Import GoBase GoLemmas Encoder Decoder Spec EncProofs BufIO BufIOProofs RingSpec Conn ConnSpec ConnProofs ConnProps.
Local Open Scope Z_scope.
Ltac Zify.zify_post_hook ::= idtac.

(** The call is in the table under [id]: it has put itself there and the message loop
    has not taken it out. *)
Lemma kept_in_map {R} raw cap (sched : list (clabel R)) s evs : 4 <= cap -> executes raw cap sched s evs -> NoDup (ids evs) ->
  forall k id, id_of k evs = [id] -> registrations k evs = [tt] -> replies_to k evs = [] -> (forall d, s_mpc s <> MReply k d) -> s_requests s id = Some k.
Proof.
  intros Hc. revert sched s evs. refine (exec_ind_inv (fun s evs => NoDup (ids evs) -> forall k id, id_of k evs = [id] -> registrations k evs = [tt] ->
    replies_to k evs = [] -> (forall d, s_mpc s <> MReply k d) -> s_requests s id = Some k) raw cap Hc _ _).
  - intros _ k id F. discriminate.
  - intros s evs s' e [I W] [I' W'] IH T HN k id Hid Hreg Hrep Hm.
    assert (HN0 : NoDup (ids evs)) by (rewrite grow_ids in HN; apply NoDup_front in HN; exact HN).
    assert (Hrep0 : replies_to k evs = []) by (rewrite grow_rep in Hrep; apply app_eq_nil in Hrep; apply Hrep).
    assert (Old : (forall j, e <> [ERegister j]) -> (forall d, s_mpc s <> MReply k d) -> s_requests s' id = s_requests s id -> s_requests s' id = Some k).
    { intros Hne Hm0 ->. rewrite grow_reg in Hreg. assert (Er : registrations k e = []) by (destruct T; try reflexivity; exfalso; eapply Hne; reflexivity).
      rewrite Er, app_nil_r in Hreg.
      assert (Ei : id_of k evs = [id]).
      { destruct (reg_exists _ _ _ (i_view _ _ _ I) Hreg) as (c & C1 & C2). pose proof (i_view _ _ _ I k) as V. rewrite C1 in V.
        assert (E : exists i, id_of k evs = [i]) by (rewrite (v_id _ _ _ V); destruct (k_pc c); try discriminate C2; eauto).
        destruct E as [i Ei]. pose proof (stable_id _ _ _ _ _ (i_view _ _ _ I') Ei). congruence. }
      apply IH; assumption. }
    destruct T; cbn [set_mpc s_mpc set_calls put_call set_id set_requests set_lock set_encoder set_rbuf crash set_closed set_rawclosed] in Hm;
      try (apply Old; [discriminate|try exact Hm; try (intros d'; congruence)|reflexivity]).
    + (* register *)
      pose proof (i_view _ _ _ I k0) as V0. rewrite H in V0. pose proof (v_id _ _ _ V0) as Ei0. rewrite H0 in Ei0.
      cbn [put_call set_calls set_requests s_requests]. unfold map_set. destruct (Nat.eq_dec k k0) as [->|Hk].
      * rewrite (stable_id _ _ _ _ _ (i_view _ _ _ I') Ei0) in Hid. injection Hid as <-. rewrite Z.eqb_refl. reflexivity.
      * assert (Hr0 : registrations k evs = [tt]).
        { rewrite grow_reg in Hreg. cbn in Hreg. apply not_eq_sym in Hk. apply Nat.eqb_neq in Hk. rewrite Hk, app_nil_r in Hreg. exact Hreg. }
        assert (Hid0 : id_of k evs = [id]) by (rewrite grow_id, app_nil_r in Hid; exact Hid).
        destruct (Z.eqb_spec id (k_id c)) as [->|]; [|apply IH; assumption].
        exfalso. apply Hk. apply (same_id_same_call _ _ (k_id c) evs HN0); apply in_id_of; [rewrite Hid0|rewrite Ei0]; left; reflexivity.
    + (* found *)
      assert (Hk : k <> k0) by (intros ->; apply (Hm d); reflexivity).
      assert (E : s_requests s id = Some k).
      { rewrite grow_id, app_nil_r in Hid. rewrite grow_reg, app_nil_r in Hreg. apply IH; try assumption. intros d'. congruence. }
      cbn. unfold map_set. destruct (Z.eqb_spec id id0) as [->|]; [congruence|exact E].
    + (* not found *)
      assert (E : s_requests s id = Some k).
      { rewrite grow_id, app_nil_r in Hid. rewrite grow_reg, app_nil_r in Hreg. apply IH; try assumption. intros d'. congruence. }
      cbn. unfold map_set. destruct (Z.eqb_spec id id0) as [->|]; [congruence|exact E].
    + (* reply *)
      rewrite grow_rep in Hrep. apply app_eq_nil in Hrep. destruct Hrep as [_ Hrep]. cbn in Hrep.
      intros d' F. rewrite H in F. injection F as -> ->. rewrite Nat.eqb_refl in Hrep. discriminate.
Qed.

Lemma table_exact {R} raw cap (sched : list (clabel R)) s evs : 4 <= cap -> executes raw cap sched s evs -> zlen (ids evs) <= 2 ^ 32 ->
  forall k id, s_requests s id = Some k <->
    In (EId k id) evs /\ In (ERegister k) evs /\ (forall r, ~ In (EReply k r) evs) /\ (forall d, s_mpc s <> MReply k d).
Proof.
  intros Hc H Hn k id. pose proof (ids_distinct _ _ _ _ _ Hc H Hn) as HN. pose proof (cinv _ _ _ _ _ Hc H) as I.
  assert (Reg : In (ERegister k) evs <-> registrations k evs = [tt]).
  { split.
    - intros Hin. pose proof (i_view _ _ _ I k) as V.
      assert (Hx : In tt (registrations k evs)) by (unfold registrations; apply in_flat_map; exists (ERegister k); split; [exact Hin|cbn; rewrite Nat.eqb_refl; left; reflexivity]).
      destruct (nth_error (s_calls s) k) as [c|].
      + rewrite (v_reg _ _ _ V) in Hx |- *. destruct (registered (k_pc c)); [reflexivity|contradiction].
      + destruct V as (_ & E & _). rewrite E in Hx. contradiction.
    - intros E. assert (Hx : In tt (registrations k evs)) by (rewrite E; left; reflexivity). apply in_flat_map in Hx. destruct Hx as (x & X1 & X2).
      destruct x; cbn in X2; try contradiction. destruct (Nat.eqb_spec k0 k); [|contradiction]. subst. exact X1. }
  assert (Id : In (EId k id) evs <-> id_of k evs = [id]).
  { rewrite in_id_of. split; [|intros ->; left; reflexivity]. intros Hin. pose proof (i_view _ _ _ I k) as V. destruct (nth_error (s_calls s) k) as [c|].
    - rewrite (v_id _ _ _ V) in Hin |- *. destruct (k_pc c); cbn in Hin; try contradiction; destruct Hin as [->|[]]; reflexivity.
    - destruct V as (E & _). rewrite E in Hin. contradiction. }
  rewrite Reg, Id. rewrite <- replies_nonempty. split.
  - apply (i_req _ _ _ I).
  - intros (H1 & H2 & H3 & H4). eapply kept_in_map; eassumption.
Qed.

(** Calls that failed are in the table, unless a frame has come with their id. *)
Lemma failed_registered {R} raw cap (sched : list (clabel R)) s evs k x : 4 <= cap -> executes raw cap sched s evs -> In (EReturn k (WriteError x)) evs ->
  exists id, id_of k evs = [id] /\ registrations k evs = [tt].
Proof.
  intros Hc H Hin. pose proof (cinv _ _ _ _ _ Hc H) as I. apply in_returns in Hin. pose proof (i_view _ _ _ I k) as V. destruct (nth_error (s_calls s) k) as [c|].
  - rewrite (v_ret _ _ _ V) in Hin. destruct (k_pc c) eqn:E; cbn in Hin; try contradiction. exists (k_id c). rewrite (v_id _ _ _ V), (v_reg _ _ _ V), E. split; reflexivity.
  - destruct V as (_ & _ & E & _). rewrite E in Hin. contradiction.
Qed.
Lemma failed_stays {R} raw cap (sched : list (clabel R)) s evs k x id : 4 <= cap -> executes raw cap sched s evs -> zlen (ids evs) <= 2 ^ 32 ->
  In (EReturn k (WriteError x)) evs -> In (EId k id) evs -> (forall buf size, In (EFrame buf size) evs -> ~ carries buf size id) -> s_requests s id = Some k.
Proof.
  intros Hc H Hn Hr Hi Hf. destruct (failed_registered _ _ _ _ _ _ _ Hc H Hr) as (i & E1 & E2).
  apply in_id_of in Hi. rewrite E1 in Hi. destruct Hi as [->|[]].
  eapply waiting_in_map; try eassumption. exact (ids_distinct _ _ _ _ _ Hc H Hn).
Qed.
(** A call given its reply is not. *)
Lemma answered_gone {R} raw cap (sched : list (clabel R)) s evs k r : 4 <= cap -> executes raw cap sched s evs ->
  In (EReturn k (Reply r)) evs -> forall id, s_requests s id <> Some k.
Proof.
  intros Hc H Hin id F. pose proof (cinv _ _ _ _ _ Hc H) as I. destruct (i_req _ _ _ I _ _ F) as (_ & _ & E & _).
  apply in_returns in Hin. pose proof (i_view _ _ _ I k) as V. destruct (nth_error (s_calls s) k) as [c|].
  - rewrite (v_ret _ _ _ V) in Hin. pose proof (v_reply _ _ _ V) as Er. rewrite E in Er. destruct (k_pc c); cbn in Hin; try contradiction.
    destruct Hin as [->|[]]. destruct (k_reply c); discriminate Er.
  - destruct V as (_ & _ & E' & _). rewrite E' in Hin. contradiction.
Qed.
(** An entry belongs to a call that has not returned or whose write failed. *)
Lemma entry_of {R} raw cap (sched : list (clabel R)) s evs k id : 4 <= cap -> executes raw cap sched s evs -> s_requests s id = Some k ->
  In (EId k id) evs /\ forall res, In (EReturn k res) evs -> exists x, res = WriteError x.
Proof.
  intros Hc H F. pose proof (cinv _ _ _ _ _ Hc H) as I. destruct (i_req _ _ _ I _ _ F) as (E & _).
  split; [apply in_id_of; rewrite E; left; reflexivity|]. intros [x|r] Hin; [eauto|]. exfalso. exact (answered_gone _ _ _ _ _ _ _ Hc H Hin _ F).
Qed.

(** ** A call on a connection whose writes fail *)
Lemma set_nth_end {A} (ys : list A) : forall c l x, set_nth (ys ++ c :: l) (length ys) x = ys ++ x :: l.
Proof. induction ys as [|y ys IH]; intros; cbn; [reflexivity|]. rewrite IH. reflexivity. Qed.
Lemma fail_again {R} cap (s : conn R) evs0 x enc dec : AInv cap s evs0 -> (forall id, exists cs, Runs (enc id) cs) ->
  s_crashed s = false -> s_lock s = None -> b_err (s_buf s) = Some x -> s_mpc s = MTop ->
  let k := length (s_calls s) in
  exists s' evs, crun s (DoCall enc dec :: repeat (CStep k) 5) = Some (s', evs) /\ s_crashed s' = false /\ s_lock s' = None /\ b_err (s_buf s') = Some x /\
    s_mpc s' = MTop /\ length (s_calls s') = S k /\ ids evs = [int32 (s_id s + 1)] /\ s_id s' = int32 (s_id s + 1) /\
    evs = [ECall k; EId k (int32 (s_id s + 1)); ERegister k; ELock k; EFlushed k (Some x); EReturn k (WriteError x)].
Proof.
  intros [I W] Hr Hc Hl Hb Hm k.
  assert (Hk : forall c l, nth_error (s_calls s ++ c :: l) k = Some c) by (intros; unfold k; rewrite nth_error_app2, Nat.sub_diag by lia; reflexivity).
  assert (Hset : forall c l x0, set_nth (s_calls s ++ c :: l) k x0 = s_calls s ++ x0 :: l).
  { intros. apply set_nth_end. }
  destruct (Hr (int32 (s_id s + 1))) as [cs Hcs].
  destruct (transmit (raw_now s) (enc (int32 (s_id s + 1))) (s_encerr s) (s_buf s)) as [[err b] fl] eqn:Et.
  destruct (transmit_ok _ _ _ _ _ _ _ _ Hcs (w_small _ _ W) (w_err _ _ W) Et) as (K1 & _ & K3 & _).
  pose proof (took_err _ _ _ _ K1 Hb) as ->. rewrite Hb in K3. subst fl.
  eexists. eexists. split.
  - cbn [repeat crun]. unfold cstep at 1. rewrite Hc.
    unfold cstep at 1. cbn [set_calls s_crashed s_calls]. rewrite Hc, Hk. cbn [call_step k_pc].
    unfold cstep at 1. cbn [put_call set_calls set_id s_crashed s_calls]. rewrite !Hset, Hc, Hk. cbn [call_step k_pc].
    unfold cstep at 1. cbn [put_call set_calls set_requests set_id s_crashed s_calls k_id s_requests]. rewrite !Hset, Hc, Hk. cbn [call_step k_pc at_pc].
    cbn [put_call set_calls set_requests set_id s_lock]. rewrite Hl. unfold raw_now. cbn [put_call set_calls set_requests set_id s_rawclosed s_raw s_encerr s_buf s_id k_enc k_dec k_id k_reply at_pc].
    unfold raw_now in Et. rewrite Et. rewrite skipn_all.
    unfold cstep at 1. cbn [put_call set_calls set_requests set_id set_lock s_crashed s_calls]. rewrite !Hset, Hc, Hk. cbn [call_step k_pc at_pc].
    unfold cstep at 1. cbn [put_call set_calls set_requests set_id set_lock set_encoder s_crashed s_calls]. rewrite !Hset, Hc, Hk. cbn [call_step k_pc at_pc].
    cbn [app]. reflexivity.
  - cbn [put_call set_calls set_requests set_id set_lock set_encoder s_crashed s_calls s_lock s_buf s_mpc s_id k_id k_enc k_dec k_reply at_pc]. rewrite !Hset.
    repeat split; try assumption. rewrite app_length. cbn. unfold k. lia.
Qed.

(** As many entries as calls. *)
Definition torn : rawconn := mkRaw (fun _ _ => Some (0, ErrOther 5)) (fun _ _ => true).
Lemma table_grows (n : nat) : Z.of_nat (S n) <= 2 ^ 32 -> exists sched s evs, @executes Z torn 10 sched s evs /\ length (s_calls s) = S n /\
  (forall k, (k <= n)%nat -> In (EReturn k (WriteError (ErrOther 5))) evs /\ s_requests s (int32 (Z.of_nat k + 1)) = Some k).
Proof.
  intros Hn.
  assert (G : exists sched s evs, @executes Z torn 10 sched s evs /\ s_crashed s = false /\ s_lock s = None /\ b_err (s_buf s) = Some (ErrOther 5) /\ s_mpc s = MTop /\
    length (s_calls s) = S n /\ s_id s = int32 (Z.of_nat n + 1) /\ length (ids evs) = S n /\
    (forall buf size, ~ In (EFrame buf size) evs) /\
    (forall k, (k <= n)%nat -> In (EReturn k (WriteError (ErrOther 5))) evs /\ In (EId k (int32 (Z.of_nat k + 1))) evs)).
  { clear Hn. induction n as [|n IH].
    - set (sched0 := DoCall (fun id => PutInt32 id) dInt32 :: repeat (CStep 0) 6).
      assert (E : option_map (fun p => (s_crashed (fst p), s_lock (fst p), b_err (s_buf (fst p)), s_mpc (fst p), length (s_calls (fst p)), s_id (fst p), snd p))
        (crun (@Connected Z torn 10) sched0) = Some (false, None, Some (ErrOther 5), MTop, 1%nat, 1,
          [ECall 0; EId 0 1; ERegister 0; ELock 0; ESent 0 []; EFlushed 0 (Some (ErrOther 5)); EReturn 0 (WriteError (ErrOther 5))])) by (vm_compute; reflexivity).
      destruct (crun (Connected torn 10) sched0) as [[s evs]|] eqn:Er; [|discriminate]. cbn [option_map fst snd] in E. injection E as E1 E2 E3 E4 E5 E6 E7.
      exists sched0, s, evs. split; [split; [|exact Er]|].
      + constructor; [cbn; intros id; exists [be 4 id]; apply Runs_PutInt32|]. apply Forall_forall. intros a Ha. apply repeat_spec in Ha. subst a. exact Logic.I.
      + repeat (split; [assumption|]). subst evs. split; [reflexivity|]. split.
        * intros buf size F. cbn in F. repeat (destruct F as [F|F]; [discriminate|]). exact F.
        * intros k Hk. assert (k = 0%nat) by lia. subst k. cbn. tauto.
    - destruct IH as (sched & s & evs & H & H1 & H2 & H3 & H4 & H5 & H6 & H7 & H8 & H9).
      destruct (fail_again 10 s evs (ErrOther 5) (fun id => PutInt32 id) dInt32 (ainv torn 10 sched s evs ltac:(lia) H)) as (s' & e' & R1 & R2 & R3 & R4 & R5 & R6 & R7 & R8 & R9); try assumption.
      { intros id. exists [be 4 id]. apply Runs_PutInt32. }
      rewrite H5 in *. rewrite H6, int32_add_l in R7, R8, R9.
      replace (Z.of_nat n + 1 + 1) with (Z.of_nat (S n) + 1) in R7, R8, R9 by lia.
      eexists. exists s', (evs ++ e'). split.
      { destruct H as [Hl Hr]. split; [|rewrite crun_app, Hr, R1; reflexivity]. apply Forall_app. split; [exact Hl|].
        constructor; [cbn; intros id; exists [be 4 id]; apply Runs_PutInt32|]. apply Forall_forall. intros a Ha. apply repeat_spec in Ha. subst a. exact Logic.I. }
      repeat (split; [assumption|]). split; [rewrite grow_ids, app_length, H7, R7; cbn; lia|]. split.
      + intros buf size F. apply in_app_or in F. destruct F as [F|F]; [exact (H8 _ _ F)|]. rewrite R9 in F. cbn in F. repeat (destruct F as [F|F]; [discriminate|]). exact F.
      + intros k Hk. destruct (Nat.eq_dec k (S n)) as [->|Hne].
        * rewrite R9. split; apply in_or_app; right; cbn; tauto.
        * destruct (H9 k ltac:(lia)). split; apply in_or_app; left; assumption. }
  destruct G as (sched & s & evs & H & H1 & H2 & H3 & H4 & H5 & H6 & H7 & H8 & H9). exists sched, s, evs. split; [exact H|]. split; [exact H5|].
  intros k Hk. destruct (H9 k Hk) as [K1 K2]. split; [exact K1|].
  apply (failed_stays torn 10 sched s evs k (ErrOther 5)); try assumption; [lia|unfold zlen; rewrite H7; exact Hn|]. intros buf size F. exfalso. exact (H8 _ _ F).
Qed.

(** After its reply has been returned, a call's DecodeFunc is not run. *)
Lemma no_decode_after {R} raw cap (sched : list (clabel R)) s pre k r post : 4 <= cap -> executes raw cap sched s (pre ++ EReturn k (Reply r) :: post) ->
  forall r', ~ In (EReply k r') post.
Proof.
  intros Hc H r' F. pose proof H as H0. change (EReturn k (Reply r) :: post) with ([EReturn k (Reply r)] ++ post) in H. rewrite app_assoc in H.
  destruct (executes_prefix _ _ _ _ _ _ H) as (sc1 & s1 & H1 & _). pose proof (cinv _ _ _ _ _ Hc H1) as I.
  assert (Hin : In (Reply r) (returns_of k (pre ++ [EReturn k (Reply r)]))) by (apply in_returns, in_or_app; right; left; reflexivity).
  assert (Hr : replies_to k pre <> []).
  { pose proof (i_view _ _ _ I k) as V. destruct (nth_error (s_calls s1) k) as [c|].
    - rewrite (v_ret _ _ _ V) in Hin. pose proof (v_reply _ _ _ V) as E. rewrite grow_rep in E. cbn in E. rewrite app_nil_r in E. rewrite E.
      destruct (k_pc c); cbn in Hin; try contradiction. destruct Hin as [->|[]]. destruct (k_reply c); discriminate.
    - destruct V as (_ & _ & E & _). rewrite E in Hin. contradiction. }
  destruct (one_reply _ _ _ _ _ k Hc H0) as [L _]. rewrite grow_rep, app_length in L. cbn in L. apply in_replies in F.
  change (flat_map _ post) with (replies_to k post) in L. destruct (replies_to k pre); [congruence|]. destruct (replies_to k post); [contradiction|]. cbn in L. lia.
Qed.
