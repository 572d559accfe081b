(** * Proofs about connections *)
From Verif Require Import GoBase GoLemmas Encoder Decoder Spec EncProofs DecProofs PrimProofs BufIO BufIOProofs RingSpec Msg01 Conn ConnSpec.
Local Open Scope Z_scope.
Ltac Zify.zify_post_hook ::= idtac.

(** ** Lists of calls *)
Lemma nth_set_nth {A} (l : list A) : forall k j x, nth_error (set_nth l k x) j =
  if Nat.eqb j k then match nth_error l j with Some _ => Some x | None => None end else nth_error l j.
Proof.
  induction l as [|y l IH]; intros k j x; cbn [set_nth].
  - destruct k, j; cbn; try reflexivity. destruct (Nat.eqb j k); reflexivity.
  - destruct k as [|k], j as [|j]; cbn; try reflexivity. apply IH.
Qed.
Lemma nth_same {A} (l : list A) k x y : nth_error l k = Some y -> nth_error (set_nth l k x) k = Some x.
Proof. intros H. rewrite nth_set_nth, Nat.eqb_refl, H. reflexivity. Qed.
Lemma nth_other {A} (l : list A) k j x : j <> k -> nth_error (set_nth l k x) j = nth_error l j.
Proof. intros H. rewrite nth_set_nth. apply Nat.eqb_neq in H. rewrite H. reflexivity. Qed.
Lemma set_nth_length {A} (l : list A) : forall k x, length (set_nth l k x) = length l.
Proof. induction l as [|y l IH]; intros [|k] x; cbn; try reflexivity. rewrite IH. reflexivity. Qed.

(** ** The transitions, one by one *)
Inductive trans {R} (s : conn R) : conn R -> list (event R) -> Prop :=
| T_call enc dec : (forall id, exists cs, Runs (enc id) cs) ->
    trans s (set_calls s (s_calls s ++ [mkCall enc dec 0 PId None])) [ECall (length (s_calls s))]
| T_id k c : nth_error (s_calls s) k = Some c -> k_pc c = PId ->
    trans s (put_call (set_id s (int32 (s_id s + 1))) k (mkCall (k_enc c) (k_dec c) (int32 (s_id s + 1)) PRegister (k_reply c)))
      [EId k (int32 (s_id s + 1))]
| T_register k c : nth_error (s_calls s) k = Some c -> k_pc c = PRegister ->
    trans s (put_call (set_requests s (map_set (s_requests s) (k_id c) (Some k))) k (at_pc c PLock)) [ERegister k]
| T_lock k c err b fl : nth_error (s_calls s) k = Some c -> k_pc c = PLock -> s_lock s = None ->
    transmit (raw_now s) (k_enc c (k_id c)) (s_encerr s) (s_buf s) = (err, b, fl) ->
    trans s (put_call (set_lock s (Some k)) k (at_pc c (PSend (skipn (length (b_sent (s_buf s))) (b_sent b)) err b fl))) [ELock k]
| T_send k c p pieces err b fl : nth_error (s_calls s) k = Some c -> k_pc c = PSend (p :: pieces) err b fl ->
    trans s (put_call s k (at_pc c (PSend pieces err b fl))) [ESent k p]
| T_flushed k c err b fl : nth_error (s_calls s) k = Some c -> k_pc c = PSend [] err b fl ->
    trans s (put_call (set_encoder s err b) k (at_pc c (PUnlock fl))) [EFlushed k fl]
| T_fail k c x : nth_error (s_calls s) k = Some c -> k_pc c = PUnlock (Some x) ->
    trans s (put_call (set_lock s None) k (at_pc c (PReturned (WriteError x)))) [EReturn k (WriteError x)]
| T_unlock k c : nth_error (s_calls s) k = Some c -> k_pc c = PUnlock None ->
    trans s (put_call (set_lock s None) k (at_pc c PWait)) []
| T_return k c r : nth_error (s_calls s) k = Some c -> k_pc c = PWait -> k_reply c = Some r ->
    trans s (put_call s k (mkCall (k_enc c) (k_dec c) (k_id c) (PReturned (Reply r)) None)) [EReturn k (Reply r)]
| T_top : s_mpc s = MTop -> trans s (set_mpc s (if s_closed s then MDone else MHead)) []
| T_found id d k : s_mpc s = MLookup id d -> s_requests s id = Some k ->
    trans s (set_mpc (set_requests s (map_set (s_requests s) id None)) (MReply k d)) []
| T_drop id d : s_mpc s = MLookup id d -> s_requests s id = None ->
    trans s (set_mpc (set_requests s (map_set (s_requests s) id None)) MTop) [EDropped id]
| T_reply k d c r : s_mpc s = MReply k d -> nth_error (s_calls s) k = Some c -> k_reply c = None -> seen (k_dec c d) = Some r ->
    trans s (put_call (set_mpc s MTop) k (mkCall (k_enc c) (k_dec c) (k_id c) (k_pc c) (Some r))) [EReply k r]
| T_head bs v : s_mpc s = MHead -> zlen bs = 4 -> Forall is_byte bs -> (exists d, dInt32 (mkDecoder (overwrite (s_rbuf s) bs) 4 0) = DOk v d) ->
    trans s (set_mpc (set_rbuf s (overwrite (s_rbuf s) bs)) (MBody v)) []
| T_frame bs size id d : s_mpc s = MBody size -> zlen bs = Z.max 0 size -> size <= s_cap s -> Forall is_byte bs ->
    dInt32 (mkDecoder (overwrite (s_rbuf s) bs) size 0) = DOk id d ->
    trans s (set_mpc (set_rbuf s (overwrite (s_rbuf s) bs)) (MLookup id d)) [EFrame (overwrite (s_rbuf s) bs) size]
| T_short bs size x d : s_mpc s = MBody size -> zlen bs = Z.max 0 size -> size <= s_cap s -> Forall is_byte bs ->
    dInt32 (mkDecoder (overwrite (s_rbuf s) bs) size 0) = DErr x d ->
    trans s (set_mpc (set_rbuf s (overwrite (s_rbuf s) bs)) MTop) [EFrame (overwrite (s_rbuf s) bs) size]
| T_crash : trans s (crash s) []
| T_cancel : trans s (set_closed s true) []
| T_rawclose : trans s (set_rawclosed s true) [].

Lemma head_ok raw : 4 <= zlen raw -> exists v d, dInt32 (mkDecoder raw 4 0) = DOk v d.
Proof.
  intros H. destruct raw as [|b0 [|b1 [|b2 [|b3 raw]]]]; try (unfold zlen in H; cbn in H; lia).
  unfold dInt32, fixed, remains. cbn [d_length d_offset d_raw]. change (negb (4 - 0 <? 4)) with true. cbn match.
  unfold slice_from, slice. rewrite Z.sub_0_r. cbn [Z.to_nat skipn].
  replace ((0 <=? 0) && (0 <=? zlen (b0 :: b1 :: b2 :: b3 :: raw)) && (zlen (b0 :: b1 :: b2 :: b3 :: raw) <=? zlen (b0 :: b1 :: b2 :: b3 :: raw))) with true
    by (symmetry; rewrite !andb_true_iff, !Z.leb_le; unfold zlen; lia).
  unfold zlen at 1. rewrite Nat2Z.id, firstn_all. cbn. eauto.
Qed.

Lemma cstep_trans {R} (s s' : conn R) a e : legal a -> cstep s a = Some (s', e) -> s_crashed s = false /\ trans s s' e.
Proof.
  intros Hl H. unfold cstep in H. destruct (s_crashed s); [discriminate|]. split; [reflexivity|].
  destruct a as [enc dec|k| |bs| | |]; cbn [legal] in Hl.
  - injection H as <- <-. constructor. exact Hl.
  - destruct (nth_error (s_calls s) k) as [c|] eqn:Ek; [|discriminate]. unfold call_step in H.
    destruct (k_pc c) as [ | | |[|p pieces] err b fl|[x|]| |r] eqn:Ep; try discriminate.
    + injection H as <- <-. apply T_id; assumption.
    + injection H as <- <-. apply T_register; assumption.
    + destruct (s_lock s) eqn:El; [discriminate|]. destruct (transmit _ _ _ _) as [[err b] fl] eqn:Et. injection H as <- <-.
      apply T_lock; assumption.
    + injection H as <- <-. apply T_flushed with (1 := Ek) (2 := Ep).
    + injection H as <- <-. apply T_send; assumption.
    + injection H as <- <-. apply T_fail; assumption.
    + injection H as <- <-. apply T_unlock; assumption.
    + destruct (k_reply c) as [r|] eqn:Er; [|discriminate]. injection H as <- <-. apply T_return; assumption.
  - unfold loop_step in H. destruct (s_mpc s) as [ | |size|id d|k d|] eqn:Em; try discriminate.
    + injection H as <- <-. apply T_top, Em.
    + destruct (s_requests s id) as [k|] eqn:Er; injection H as <- <-; [apply T_found; assumption|apply (T_drop s id d); assumption].
    + destruct (nth_error (s_calls s) k) as [c|] eqn:Ek; [|discriminate].
      destruct (k_dec c d) as [r d'|x d'|] eqn:Ed.
      * destruct (k_reply c) eqn:Er; [discriminate|]. injection H as <- <-. apply (T_reply s k d); try assumption. rewrite Ed. reflexivity.
      * destruct (k_reply c) eqn:Er; [discriminate|]. injection H as <- <-. apply (T_reply s k d); try assumption. rewrite Ed. reflexivity.
      * injection H as <- <-. apply T_crash.
  - unfold loop_read in H. destruct (s_mpc s) as [ | |size|id d|k d|] eqn:Em; try discriminate.
    + destruct (Z.eqb_spec (zlen bs) 4) as [E4|]; [|discriminate]. cbn zeta in H. unfold Reset in H. cbn [d_raw] in H.
      destruct (head_ok (overwrite (s_rbuf s) bs)) as (v & d & Ed).
      { unfold overwrite. rewrite zlen_app. pose proof (zlen_nonneg (skipn (length bs) (s_rbuf s))). lia. }
      rewrite Ed in H. injection H as <- <-. apply T_head; try assumption. eauto.
    + destruct (Z.eqb_spec (zlen bs) (Z.max 0 size)) as [E4|]; [|discriminate]. destruct (Z.leb_spec size (s_cap s)); [|discriminate]. cbn [andb] in H.
      cbn zeta in H. unfold Reset in H. cbn [d_raw] in H. unfold ResponseHeader_Decode, bind, ret in H.
      destruct (dInt32 (mkDecoder (overwrite (s_rbuf s) bs) size 0)) as [id d|x d|] eqn:Ed; injection H as <- <-; cbn [ResponseHeader_CorrelationId].
      * apply T_frame; assumption.
      * apply (T_short s bs size x d); assumption.
      * apply T_crash.
  - destruct (s_mpc s); try discriminate. destruct (s_cap s <? size); [|discriminate]. injection H as <- <-. apply T_crash.
  - injection H as <- <-. apply T_cancel.
  - injection H as <- <-. apply T_rawclose.
Qed.

Lemma crun_app {R} (s1 : list (clabel R)) : forall s s2, crun s (s1 ++ s2) =
  match crun s s1 with None => None | Some (t, e1) =>
    match crun t s2 with None => None | Some (u, e2) => Some (u, e1 ++ e2) end end.
Proof.
  induction s1 as [|a s1 IH]; intros s s2; cbn [crun app].
  - destruct (crun s s2) as [[u e2]|]; reflexivity.
  - destruct (cstep s a) as [[t e1]|]; [|reflexivity]. rewrite IH. destruct (crun t s1) as [[u e2]|]; [|reflexivity].
    destruct (crun u s2) as [[v e3]|]; [|reflexivity]. rewrite app_assoc. reflexivity.
Qed.

(** Induction over executions. *)
Lemma run_ind {R} (P : conn R -> list (event R) -> Prop) : forall sched,
  (forall s evs s' e, P s evs -> trans s s' e -> P s' (evs ++ e)) ->
  forall s0 evs0 s evs, P s0 evs0 -> Forall legal sched -> crun s0 sched = Some (s, evs) -> P s (evs0 ++ evs).
Proof.
  intros sched Hstep. induction sched as [|a sched IH]; intros s0 evs0 s evs H0 Hl H; cbn [crun] in H.
  - injection H as <- <-. rewrite app_nil_r. exact H0.
  - inversion Hl as [|? ? Ha Hl']. subst. destruct (cstep s0 a) as [[s1 e1]|] eqn:E; [|discriminate].
    destruct (crun s1 sched) as [[s2 e2]|] eqn:E2; [|discriminate]. injection H as <- <-. rewrite app_assoc.
    apply (IH s1); try assumption. apply (Hstep s0); [exact H0|]. apply (cstep_trans _ _ a); assumption.
Qed.
Lemma exec_ind {R} (P : conn R -> list (event R) -> Prop) raw cap : P (Connected raw cap) [] ->
  (forall s evs s' e, P s evs -> trans s s' e -> P s' (evs ++ e)) ->
  forall sched s evs, executes raw cap sched s evs -> P s evs.
Proof. intros H0 Hs sched s evs [Hl H]. apply (run_ind P sched Hs _ [] s evs H0 Hl H). Qed.

(** Every prefix of what is seen is seen by a prefix of the execution. *)
Lemma trans_events {R} (s s' : conn R) e : trans s s' e -> e = [] \/ exists x, e = [x].
Proof. intros []; eauto. Qed.
Lemma crun_split {R} (sched : list (clabel R)) : forall s0 s pre x post, Forall legal sched ->
  crun s0 sched = Some (s, pre ++ x :: post) ->
  exists sched1 a sched2 s1 s2, sched = sched1 ++ a :: sched2 /\ crun s0 sched1 = Some (s1, pre) /\ cstep s1 a = Some (s2, [x]) /\
    crun s2 sched2 = Some (s, post).
Proof.
  induction sched as [|a sched IH]; intros s0 s pre x post Hl H; cbn [crun] in H.
  - injection H as _ F. destruct pre; discriminate.
  - inversion Hl as [|? ? Ha Hl']. subst. destruct (cstep s0 a) as [[s1 e1]|] eqn:E; [|discriminate].
    destruct (crun s1 sched) as [[s2 e2]|] eqn:E2; [|discriminate]. injection H as <- H.
    destruct (trans_events _ _ _ (proj2 (cstep_trans _ _ _ _ Ha E))) as [->|[y ->]]; cbn [app] in H.
    + subst e2. destruct (IH _ _ _ _ _ Hl' E2) as (sc1 & b & sc2 & t1 & t2 & -> & R1 & R2 & R3).
      exists (a :: sc1), b, sc2, t1, t2. split; [reflexivity|]. split; [|auto]. cbn [crun]. rewrite E, R1. reflexivity.
    + destruct pre as [|z pre]; injection H as -> H.
      * subst e2. exists [], a, sched, s0, s1. auto.
      * subst e2. destruct (IH _ _ _ _ _ Hl' E2) as (sc1 & b & sc2 & t1 & t2 & -> & R1 & R2 & R3).
        exists (a :: sc1), b, sc2, t1, t2. split; [reflexivity|]. split; [|auto]. cbn [crun]. rewrite E, R1. reflexivity.
Qed.
Lemma executes_prefix {R} raw cap (sched : list (clabel R)) s pre post : executes raw cap sched s (pre ++ post) ->
  exists sched1 s1, executes raw cap sched1 s1 pre /\ exists sched2, Forall legal sched2 /\ crun s1 sched2 = Some (s, post).
Proof.
  intros [Hl H]. destruct post as [|x post].
  - rewrite app_nil_r in H. exists sched, s. split; [split; assumption|]. exists []. auto.
  - destruct (crun_split _ _ _ _ _ _ Hl H) as (sc1 & a & sc2 & s1 & s2 & -> & R1 & R2 & R3).
    apply Forall_app in Hl. destruct Hl as [Hl1 Hl2]. exists sc1, s1. split; [split; assumption|].
    exists (a :: sc2). split; [exact Hl2|]. cbn [crun]. rewrite R2, R3. reflexivity.
Qed.

(** ** What is seen of a call *)
Definition registered {R} (p : pc R) : bool := match p with PId | PRegister => false | _ => true end.
Record call_view {R} (evs : list (event R)) (k : nat) (c : docall R) : Prop := mkView {
  v_id : id_of k evs = match k_pc c with PId => [] | _ => [k_id c] end;
  v_reg : registrations k evs = if registered (k_pc c) then [tt] else [];
  v_ret : returns_of k evs = match k_pc c with PReturned r => [r] | _ => [] end;
  v_reply : replies_to k evs = (match k_reply c with Some r => [r] | None => [] end) ++
                               (match k_pc c with PReturned (Reply r) => [r] | _ => [] end);
  v_runs : forall id, exists cs, Runs (k_enc c id) cs }.
Definition nothing {R} (evs : list (event R)) (k : nat) : Prop :=
  id_of k evs = [] /\ registrations k evs = [] /\ returns_of k evs = [] /\ replies_to k evs = [].
Definition view {R} (s : conn R) (evs : list (event R)) : Prop :=
  forall k, match nth_error (s_calls s) k with Some c => call_view evs k c | None => nothing evs k end.

Ltac ev_app := unfold id_of, registrations, returns_of, replies_to in *; rewrite ?flat_map_app; cbn [flat_map]; rewrite ?app_nil_r.

(** The lists of a call not touched by the step. *)
Definition silent {R} (k : nat) (e : list (event R)) : Prop :=
  id_of k e = [] /\ registrations k e = [] /\ returns_of k e = [] /\ replies_to k e = [].
Lemma view_silent {R} evs e k (c : docall R) : silent k e -> call_view evs k c -> call_view (evs ++ e) k c.
Proof.
  intros (H1 & H2 & H3 & H4) [V1 V2 V3 V4 V5]. unfold id_of, registrations, returns_of, replies_to in *.
  constructor; unfold id_of, registrations, returns_of, replies_to; rewrite ?flat_map_app, ?H1, ?H2, ?H3, ?H4, ?app_nil_r; assumption.
Qed.
Lemma nothing_silent {R} (evs e : list (event R)) k : silent k e -> nothing evs k -> nothing (evs ++ e) k.
Proof.
  intros (H1 & H2 & H3 & H4) (V1 & V2 & V3 & V4). unfold nothing, id_of, registrations, returns_of, replies_to in *.
  rewrite !flat_map_app, H1, H2, H3, H4, !app_nil_r. auto.
Qed.
Lemma silent_nil {R} k : @silent R k [].
Proof. repeat split. Qed.

(** A step changing call [k] only. *)
Lemma view_put {R} (s s' : conn R) evs e k c c' : view s evs -> nth_error (s_calls s) k = Some c ->
  s_calls s' = set_nth (s_calls s) k c' -> (forall j, j <> k -> silent j e) ->
  (call_view evs k c -> call_view (evs ++ e) k c') -> view s' (evs ++ e).
Proof.
  intros V Hk Es Ho Hc j. rewrite Es. destruct (Nat.eq_dec j k) as [->|Hj].
  - rewrite (nth_same _ _ _ _ Hk). apply Hc. specialize (V k). rewrite Hk in V. exact V.
  - rewrite nth_other by exact Hj. specialize (V j). destruct (nth_error (s_calls s) j); [apply view_silent|apply nothing_silent]; auto.
Qed.
Lemma view_same {R} (s s' : conn R) evs e : view s evs -> s_calls s' = s_calls s -> (forall j, silent j e) -> view s' (evs ++ e).
Proof.
  intros V Es Ho j. rewrite Es. specialize (V j). destruct (nth_error (s_calls s) j); [apply view_silent|apply nothing_silent]; auto.
Qed.

Ltac silent_tac := let j := fresh in let Hj := fresh in intros j; intros;
  repeat split; cbn; rewrite ?app_nil_r; try reflexivity;
  match goal with |- context [Nat.eqb ?a ?b] => destruct (Nat.eqb_spec a b); [subst; congruence|reflexivity] end.
Ltac view_tac := let V1 := fresh in let V2 := fresh in let V3 := fresh in let V4 := fresh in let V5 := fresh in
  intros [V1 V2 V3 V4 V5]; constructor; ev_app; rewrite ?Nat.eqb_refl;
  repeat match goal with H : k_pc _ = _ |- _ => rewrite H in * | H : k_reply _ = _ |- _ => rewrite H in * end; cbn [k_pc k_id k_reply k_enc at_pc registered] in *;
  rewrite ?V1, ?V2, ?V3, ?V4, ?app_nil_r; auto.

Lemma view_step {R} (s s' : conn R) evs e : view s evs -> (forall k d, s_mpc s = MReply k d -> replies_to k evs = []) ->
  trans s s' e -> view s' (evs ++ e).
Proof.
  intros V Hm T. destruct T.
  - intros j. cbn [set_calls s_calls].
    assert (Hsil : silent j [@ECall R (length (s_calls s))]) by (repeat split).
    specialize (V j). destruct (Nat.lt_ge_cases j (length (s_calls s))) as [Hj|Hj].
    + rewrite nth_error_app1 by exact Hj. destruct (nth_error (s_calls s) j); [apply view_silent|apply nothing_silent]; auto.
    + rewrite nth_error_app2 by exact Hj. rewrite (proj2 (nth_error_None _ _) Hj) in V.
      destruct (j - length (s_calls s))%nat as [|n]; cbn [nth_error].
      * destruct (nothing_silent _ _ _ Hsil V) as (H1 & H2 & H3 & H4). constructor; cbn [k_pc k_reply registered k_enc app]; auto.
      * destruct n; apply nothing_silent; auto.
  - eapply view_put; [exact V|eassumption|reflexivity|silent_tac|view_tac].
  - eapply view_put; [exact V|eassumption|reflexivity|silent_tac|view_tac].
  - eapply view_put; [exact V|eassumption|reflexivity|silent_tac|view_tac].
  - eapply view_put; [exact V|eassumption|reflexivity|silent_tac|view_tac].
  - eapply view_put; [exact V|eassumption|reflexivity|silent_tac|view_tac].
  - eapply view_put; [exact V|eassumption|reflexivity|silent_tac|view_tac].
  - eapply view_put; [exact V|eassumption|reflexivity|silent_tac|view_tac].
  - eapply view_put; [exact V|eassumption|reflexivity|silent_tac|view_tac].
  - eapply view_same; [exact V|reflexivity|silent_tac].
  - eapply view_same; [exact V|reflexivity|silent_tac].
  - eapply view_same; [exact V|reflexivity|silent_tac].
  - eapply view_put; [exact V|eassumption|reflexivity|silent_tac|]. specialize (Hm k d ltac:(assumption)).
    intros [V1 V2 V3 V4 V5]. rewrite Hm in V4. match goal with H : k_reply c = None |- _ => rewrite H in V4 end. cbn [app] in V4.
    constructor; ev_app; rewrite ?Nat.eqb_refl; cbn [k_pc k_id k_reply k_enc]; auto. rewrite Hm, <- V4. reflexivity.
  - eapply view_same; [exact V|reflexivity|silent_tac].
  - eapply view_same; [exact V|reflexivity|silent_tac].
  - eapply view_same; [exact V|reflexivity|silent_tac].
  - eapply view_same; [exact V|reflexivity|silent_tac].
  - eapply view_same; [exact V|reflexivity|silent_tac].
  - eapply view_same; [exact V|reflexivity|silent_tac].
Qed.

(** ** Frames *)
Lemma bytes4_be b0 b1 b2 b3 : is_byte b0 -> is_byte b1 -> is_byte b2 -> is_byte b3 -> exists z, is_int32 z /\ [b0; b1; b2; b3] = be 4 z.
Proof.
  unfold is_byte. intros H0 H1 H2 H3. set (x := b0 * 16777216 + b1 * 65536 + b2 * 256 + b3).
  exists (if x <? 2147483648 then x else x - 4294967296). assert (Hx : 0 <= x < 4294967296) by (unfold x; lia).
  split; [unfold is_int32; destruct (Z.ltb_spec x 2147483648); lia|].
  assert (E : forall y, y mod 4294967296 = x -> [b0; b1; b2; b3] = be 4 y).
  { intros y Hy. cbn [be]. change (256 ^ Z.of_nat 3) with 16777216. change (256 ^ Z.of_nat 2) with 65536.
    change (256 ^ Z.of_nat 1) with 256. change (256 ^ Z.of_nat 0) with 1.
    assert (Ey : exists q, y = q * 4294967296 + x) by (exists (y / 4294967296); rewrite <- Hy; pose proof (Z.div_mod y 4294967296); lia).
    destruct Ey as [q ->]. unfold x.
    repeat f_equal.
    - replace (q * 4294967296 + (b0 * 16777216 + b1 * 65536 + b2 * 256 + b3)) with ((b1 * 65536 + b2 * 256 + b3) + (q * 256 + b0) * 16777216) by lia.
      rewrite Z.div_add, (Z.div_small (b1 * 65536 + b2 * 256 + b3)) by lia. rewrite Z.add_0_l, Z.add_comm, Z.mod_add, Z.mod_small by lia. reflexivity.
    - replace (q * 4294967296 + (b0 * 16777216 + b1 * 65536 + b2 * 256 + b3)) with ((b2 * 256 + b3) + (b1 + (q * 256 + b0) * 256) * 65536) by lia.
      rewrite Z.div_add, (Z.div_small (b2 * 256 + b3)) by lia. rewrite Z.add_0_l, Z.mod_add, Z.mod_small by lia. reflexivity.
    - replace (q * 4294967296 + (b0 * 16777216 + b1 * 65536 + b2 * 256 + b3)) with (b3 + (b2 + (q * 65536 + b0 * 256 + b1) * 256) * 256) by lia.
      rewrite Z.div_add, (Z.div_small b3) by lia. rewrite Z.add_0_l, Z.mod_add, Z.mod_small by lia. reflexivity.
    - rewrite Z.div_1_r. replace (q * 4294967296 + (b0 * 16777216 + b1 * 65536 + b2 * 256 + b3)) with (b3 + (b2 + b1 * 256 + b0 * 65536 + q * 16777216) * 256) by lia.
      rewrite Z.mod_add, Z.mod_small by lia. reflexivity. }
  apply E. destruct (Z.ltb_spec x 2147483648).
  - apply Z.mod_small. lia.
  - replace (x - 4294967296) with (x + (-1) * 4294967296) by lia. rewrite Z.mod_add by lia. apply Z.mod_small. lia.
Qed.

Lemma decode_carries raw size id d : Forall is_byte raw -> size <= zlen raw ->
  dInt32 (mkDecoder raw size 0) = DOk id d -> carries raw size id /\ d = mkDecoder raw size 4.
Proof.
  intros Hb Hs H.
  assert (H4 : 4 <= size).
  { unfold dInt32, fixed, remains in H. cbn [d_length d_offset] in H. destruct (Z.ltb_spec (size - 0) 4); [discriminate|lia]. }
  destruct raw as [|b0 [|b1 [|b2 [|b3 raw]]]]; try (unfold zlen in Hs; cbn in Hs; lia).
  inversion Hb as [|? ? B0 Hb1]; inversion Hb1 as [|? ? B1 Hb2]; inversion Hb2 as [|? ? B2 Hb3]; inversion Hb3 as [|? ? B3 Hb4]; subst.
  destruct (bytes4_be b0 b1 b2 b3 B0 B1 B2 B3) as (z & Hz & Ez).
  assert (Hn : exists n, Z.to_nat size = (4 + n)%nat) by (exists (Z.to_nat (size - 4)); lia). destruct Hn as [n Hn].
  assert (Ef : firstn (Z.to_nat size) (b0 :: b1 :: b2 :: b3 :: raw) = be 4 z ++ firstn n raw).
  { rewrite Hn, <- Ez. reflexivity. }
  assert (D : dInt32 (mkDecoder (b0 :: b1 :: b2 :: b3 :: raw) size 0) = DOk z (advance (zlen (be 4 z)) (mkDecoder (b0 :: b1 :: b2 :: b3 :: raw) size 0))).
  { apply (Decodes_int32 z Hz _ (firstn n raw)).
    - unfold dec_ok. cbn [d_offset d_length d_raw]. lia.
    - unfold frame. cbn [d_offset d_length d_raw]. rewrite Z.sub_0_r. cbn [Z.to_nat skipn]. exact Ef. }
  rewrite D in H. injection H as <- <-. split.
  - split; [exact Hz|]. split; [exact Hs|]. eauto.
  - reflexivity.
Qed.
Lemma carries_unique raw size i j : carries raw size i -> carries raw size j -> i = j.
Proof.
  intros (Hi & Hs & r1 & E1) (Hj & _ & r2 & E2).
  assert (Hn : 0 <= size).
  { destruct (Z.le_gt_cases 0 size); [assumption|]. replace (Z.to_nat size) with 0%nat in E1 by lia. discriminate. }
  set (d := mkDecoder raw size 0). assert (Hd : dec_ok d) by (unfold dec_ok, d; cbn; lia).
  assert (F : frame d = firstn (Z.to_nat size) raw) by (unfold frame, d; cbn [d_offset d_length d_raw]; rewrite Z.sub_0_r; reflexivity).
  pose proof (Decodes_int32 i Hi d r1 Hd ltac:(rewrite F; exact E1)) as D1.
  pose proof (Decodes_int32 j Hj d r2 Hd ltac:(rewrite F; exact E2)) as D2. congruence.
Qed.

(** ** The main invariant *)
Record CInv {R} (cap : Z) (s : conn R) (evs : list (event R)) : Prop := mkCInv {
  i_cap : s_cap s = cap /\ 4 <= cap;
  i_view : view s evs;
  i_id : s_id s = int32 (zlen (ids evs));
  i_ids : ids evs = map (fun n => int32 (Z.of_nat n)) (List.seq 1 (length (ids evs)));
  i_buf : Forall is_byte (s_rbuf s) /\ zlen (s_rbuf s) = cap;
  i_req : forall i k, s_requests s i = Some k ->
    id_of k evs = [i] /\ registrations k evs = [tt] /\ replies_to k evs = [] /\ (forall d, s_mpc s <> MReply k d);
  i_lookup : forall id d, s_mpc s = MLookup id d ->
    exists raw size, In (EFrame raw size) evs /\ carries raw size id /\ d = mkDecoder raw size 4;
  i_mreply : forall k d, s_mpc s = MReply k d -> replies_to k evs = [] /\ registrations k evs = [tt] /\
    exists id raw size, id_of k evs = [id] /\ In (EFrame raw size) evs /\ carries raw size id /\ d = mkDecoder raw size 4;
  i_reply : forall k r, In (EReply k r) evs -> registrations k evs = [tt] /\
    exists c id raw size, nth_error (s_calls s) k = Some c /\ id_of k evs = [id] /\ In (EFrame raw size) evs /\ carries raw size id /\
      seen (k_dec c (mkDecoder raw size 4)) = Some r }.

Lemma overwrite_ok buf bs cap : Forall is_byte buf -> zlen buf = cap -> Forall is_byte bs -> zlen bs <= cap ->
  Forall is_byte (overwrite buf bs) /\ zlen (overwrite buf bs) = cap.
Proof.
  intros H1 H2 H3 H4. unfold overwrite. split.
  - apply Forall_app. split; [exact H3|]. rewrite <- (firstn_skipn (length bs) buf) in H1. apply Forall_app in H1. exact (proj2 H1).
  - rewrite zlen_app. unfold zlen in *. rewrite skipn_length. lia.
Qed.

Lemma replies_nonempty {R} k (evs : list (event R)) : replies_to k evs = [] <-> forall r, ~ In (EReply k r) evs.
Proof.
  unfold replies_to. split.
  - intros H r Hin. assert (In r (flat_map (fun e => match e with EReply j r => if Nat.eqb j k then [r] else [] | _ => [] end) evs)).
    { apply in_flat_map. exists (EReply k r). split; [exact Hin|]. cbn. rewrite Nat.eqb_refl. left. reflexivity. }
    rewrite H in H0. exact H0.
  - intros H. destruct (flat_map _ evs) as [|r l] eqn:E; [reflexivity|]. exfalso.
    assert (Hin : In r (flat_map (fun e => match e with EReply j r => if Nat.eqb j k then [r] else [] | _ => [] end) evs)) by (rewrite E; left; reflexivity).
    apply in_flat_map in Hin. destruct Hin as (e & He & Hr). destruct e; cbn in Hr; try contradiction.
    destruct (Nat.eqb_spec k0 k); [|contradiction]. destruct Hr as [->|[]]. subst. apply (H r He).
Qed.

(** How the lists of call [k] grow. *)
Lemma grow_id {R} k (evs e : list (event R)) : id_of k (evs ++ e) = id_of k evs ++ id_of k e.
Proof. apply flat_map_app. Qed.
Lemma grow_reg {R} k (evs e : list (event R)) : registrations k (evs ++ e) = registrations k evs ++ registrations k e.
Proof. apply flat_map_app. Qed.
Lemma grow_rep {R} k (evs e : list (event R)) : replies_to k (evs ++ e) = replies_to k evs ++ replies_to k e.
Proof. apply flat_map_app. Qed.
Lemma grow_ret {R} k (evs e : list (event R)) : returns_of k (evs ++ e) = returns_of k evs ++ returns_of k e.
Proof. apply flat_map_app. Qed.
Lemma grow_ids {R} (evs e : list (event R)) : ids (evs ++ e) = ids evs ++ ids e.
Proof. apply flat_map_app. Qed.

Lemma stable_id {R} (s : conn R) evs e k i : view s (evs ++ e) -> id_of k evs = [i] -> id_of k (evs ++ e) = [i].
Proof.
  intros V H. specialize (V k). destruct (nth_error (s_calls s) k) as [c|].
  - pose proof (v_id _ _ _ V) as E. rewrite grow_id, H in E. rewrite grow_id, H. destruct (k_pc c); [discriminate|..];
      injection E as E1 E2; rewrite E2; reflexivity.
  - destruct V as [E _]. rewrite grow_id, H in E. discriminate.
Qed.
Lemma stable_reg {R} (s : conn R) evs e k : view s (evs ++ e) -> registrations k evs = [tt] -> registrations k (evs ++ e) = [tt].
Proof.
  intros V H. specialize (V k). destruct (nth_error (s_calls s) k) as [c|].
  - pose proof (v_reg _ _ _ V) as E. rewrite grow_reg, H in E. rewrite grow_reg, H. destruct (registered (k_pc c)); [|discriminate].
    injection E as E2; rewrite E2; reflexivity.
  - destruct V as [_ [E _]]. rewrite grow_reg, H in E. discriminate.
Qed.
Lemma reg_exists {R} (s : conn R) evs k : view s evs -> registrations k evs = [tt] -> exists c, nth_error (s_calls s) k = Some c /\ registered (k_pc c) = true.
Proof.
  intros V H. specialize (V k). destruct (nth_error (s_calls s) k) as [c|].
  - exists c. split; [reflexivity|]. pose proof (v_reg _ _ _ V) as E. rewrite H in E. destruct (registered (k_pc c)); [reflexivity|discriminate].
  - destruct V as [_ [E _]]. rewrite H in E. discriminate.
Qed.

(** A call keeps its arguments and, once assigned, its id. *)
Lemma calls_keep {R} (s s' : conn R) e k c : trans s s' e -> nth_error (s_calls s) k = Some c ->
  exists c', nth_error (s_calls s') k = Some c' /\ k_dec c' = k_dec c /\ k_enc c' = k_enc c /\
    (k_pc c <> PId -> k_id c' = k_id c /\ k_pc c' <> PId).
Proof.
  assert (P : forall (s0 : conn R) j c0 c1, s_calls s0 = s_calls s -> nth_error (s_calls s) j = Some c0 -> k_dec c1 = k_dec c0 -> k_enc c1 = k_enc c0 ->
    (k_pc c0 <> PId -> k_id c1 = k_id c0 /\ k_pc c1 <> PId) -> nth_error (s_calls s) k = Some c ->
    exists c', nth_error (s_calls (put_call s0 j c1)) k = Some c' /\ k_dec c' = k_dec c /\ k_enc c' = k_enc c /\
    (k_pc c <> PId -> k_id c' = k_id c /\ k_pc c' <> PId)).
  { intros s0 j c0 c1 E0 Hj H1 H2 H3 Hk. cbn [put_call s_calls set_calls]. rewrite E0. destruct (Nat.eq_dec k j) as [->|Hn].
    - rewrite (nth_same _ _ _ _ Hj). rewrite Hk in Hj. injection Hj as <-. eauto.
    - rewrite nth_other by exact Hn. exists c. auto. }
  intros T Hk. destruct T; try (eapply P; [reflexivity|eassumption|reflexivity|reflexivity| |exact Hk]; cbn [k_id k_pc at_pc]; intros; split; congruence);
    try (exists c; cbn; auto; fail).
  exists c. cbn [set_calls s_calls]. rewrite nth_error_app1 by (apply nth_error_Some; congruence). auto.
Qed.

(** A frame read at a step stays among the events. *)
Lemma in_more {A} (x : A) l e : In x l -> In x (l ++ e).
Proof. intros. apply in_or_app. left. assumption. Qed.

Lemma int32_add_l a b : int32 (int32 a + b) = int32 (a + b).
Proof.
  unfold int32, wrap. replace ((a + 2 ^ (32 - 1)) mod 2 ^ 32 - 2 ^ (32 - 1) + b + 2 ^ (32 - 1)) with ((a + 2 ^ (32 - 1)) mod 2 ^ 32 + b) by lia.
  rewrite Zplus_mod_idemp_l. f_equal. f_equal. lia.
Qed.
Lemma ids_step {R} cap (s s' : conn R) evs e : CInv cap s evs -> trans s s' e ->
  s_id s' = int32 (zlen (ids (evs ++ e))) /\ ids (evs ++ e) = map (fun n => int32 (Z.of_nat n)) (List.seq 1 (length (ids (evs ++ e)))).
Proof.
  intros I T. pose proof (i_id _ _ _ I) as H1. pose proof (i_ids _ _ _ I) as H2. rewrite grow_ids.
  destruct T; try (cbn [ids flat_map app]; rewrite app_nil_r; split; [exact H1|exact H2]).
  cbn [ids flat_map app put_call set_calls s_id set_id]. rewrite zlen_app. change (zlen [int32 (s_id s + 1)]) with 1.
  assert (E : int32 (s_id s + 1) = int32 (zlen (ids evs) + 1)) by (rewrite H1; apply int32_add_l).
  rewrite E. split; [reflexivity|]. rewrite app_length. cbn [length]. rewrite seq_app, map_app, <- H2. cbn [List.seq map]. f_equal. f_equal. f_equal. unfold zlen. lia.
Qed.

Lemma unregistered {R} cap (s : conn R) evs k : CInv cap s evs -> registrations k evs = [] ->
  replies_to k evs = [] /\ (forall d, s_mpc s <> MReply k d) /\ (forall i, s_requests s i <> Some k).
Proof.
  intros I H. split; [|split].
  - apply replies_nonempty. intros r Hin. destruct (i_reply _ _ _ I _ _ Hin) as [E _]. congruence.
  - intros d E. destruct (i_mreply _ _ _ I _ _ E) as (_ & F & _). congruence.
  - intros i E. destruct (i_req _ _ _ I _ _ E) as (_ & F & _). congruence.
Qed.

Lemma req_keep {R} cap (s s' : conn R) evs e : CInv cap s evs -> view s' (evs ++ e) ->
  (forall i k, s_requests s' i = Some k -> s_requests s i = Some k) ->
  (forall k, replies_to k e = []) -> (forall k d, s_mpc s' = MReply k d -> s_mpc s = MReply k d) ->
  forall i k, s_requests s' i = Some k ->
    id_of k (evs ++ e) = [i] /\ registrations k (evs ++ e) = [tt] /\ replies_to k (evs ++ e) = [] /\ (forall d, s_mpc s' <> MReply k d).
Proof.
  intros I V Hr He Hm i k Hk. destruct (i_req _ _ _ I _ _ (Hr _ _ Hk)) as (H1 & H2 & H3 & H4).
  split; [eapply stable_id; eassumption|]. split; [eapply stable_reg; eassumption|]. split.
  - rewrite grow_rep, H3. apply He.
  - intros d E. exact (H4 d (Hm _ _ E)).
Qed.
Lemma lookup_keep {R} cap (s s' : conn R) evs e : CInv cap s evs ->
  (forall id d, s_mpc s' = MLookup id d -> s_mpc s = MLookup id d) ->
  forall id d, s_mpc s' = MLookup id d ->
    exists raw size, In (EFrame raw size) (evs ++ e) /\ carries raw size id /\ d = mkDecoder raw size 4.
Proof.
  intros I Hm id d E. destruct (i_lookup _ _ _ I _ _ (Hm _ _ E)) as (raw & size & H1 & H2 & H3). exists raw, size. split; [apply in_more, H1|auto].
Qed.
Lemma mreply_keep {R} cap (s s' : conn R) evs e : CInv cap s evs -> view s' (evs ++ e) ->
  (forall k d, s_mpc s' = MReply k d -> s_mpc s = MReply k d) -> (forall k, replies_to k e = []) ->
  forall k d, s_mpc s' = MReply k d -> replies_to k (evs ++ e) = [] /\ registrations k (evs ++ e) = [tt] /\
    exists id raw size, id_of k (evs ++ e) = [id] /\ In (EFrame raw size) (evs ++ e) /\ carries raw size id /\ d = mkDecoder raw size 4.
Proof.
  intros I V Hm He k d E. destruct (i_mreply _ _ _ I _ _ (Hm _ _ E)) as (H1 & H2 & id & raw & size & H3 & H4 & H5 & H6).
  split; [rewrite grow_rep, H1; apply He|]. split; [eapply stable_reg; eassumption|].
  exists id, raw, size. split; [eapply stable_id; eassumption|]. split; [apply in_more, H4|auto].
Qed.
Lemma reply_keep {R} cap (s s' : conn R) evs e : CInv cap s evs -> view s' (evs ++ e) -> trans s s' e ->
  forall k r, In (EReply k r) evs -> registrations k (evs ++ e) = [tt] /\
    exists c id raw size, nth_error (s_calls s') k = Some c /\ id_of k (evs ++ e) = [id] /\ In (EFrame raw size) (evs ++ e) /\ carries raw size id /\
      seen (k_dec c (mkDecoder raw size 4)) = Some r.
Proof.
  intros I V T k r Hin. destruct (i_reply _ _ _ I _ _ Hin) as (H1 & c & id & raw & size & H2 & H3 & H4 & H5 & H6).
  split; [eapply stable_reg; eassumption|]. destruct (calls_keep _ _ _ _ _ T H2) as (c' & K1 & K2 & _).
  exists c', id, raw, size. split; [exact K1|]. split; [eapply stable_id; eassumption|]. split; [apply in_more, H4|]. split; [exact H5|]. rewrite K2. exact H6.
Qed.

Lemma cinv_step {R} cap (s s' : conn R) evs e : CInv cap s evs -> trans s s' e -> CInv cap s' (evs ++ e).
Proof.
  intros I T.
  assert (V : view s' (evs ++ e)).
  { eapply view_step; [exact (i_view _ _ _ I)| |exact T]. intros k d E. exact (proj1 (i_mreply _ _ _ I _ _ E)). }
  destruct (ids_step _ _ _ _ _ I T) as [Hid Hids].
  pose proof (i_cap _ _ _ I) as Hcap. pose proof (i_buf _ _ _ I) as Hbuf.
  pose proof (reply_keep _ _ _ _ _ I V T) as RK.
  pose proof (req_keep _ s s' _ _ I V) as QK. pose proof (lookup_keep _ s s' _ e I) as LK. pose proof (mreply_keep _ s s' _ _ I V) as MK.
  assert (RE : (forall k r, ~ In (EReply k r) e) -> forall k r, In (EReply k r) (evs ++ e) -> registrations k (evs ++ e) = [tt] /\
    exists c id raw size, nth_error (s_calls s') k = Some c /\ id_of k (evs ++ e) = [id] /\ In (EFrame raw size) (evs ++ e) /\ carries raw size id /\
      seen (k_dec c (mkDecoder raw size 4)) = Some r).
  { intros Hn k r Hin. apply in_app_or in Hin. destruct Hin as [Hin|Hin]; [apply RK, Hin|exfalso; eapply Hn, Hin]. }
  assert (NE : (forall k r, ~ In (EReply k r) e) -> forall k, replies_to k e = []).
  { intros Hn k. apply replies_nonempty. intros r. apply Hn. }
  destruct T.
  - assert (N : forall k r, ~ In (@EReply R k r) [ECall (length (s_calls s))]) by (intros k r [F|[]]; discriminate).
    constructor; auto.
  - assert (N : forall j r, ~ In (@EReply R j r) [EId k (int32 (s_id s + 1))]) by (intros j r [F|[]]; discriminate).
    constructor; auto.
  - assert (N : forall j r, ~ In (@EReply R j r) [ERegister k]) by (intros j r [F|[]]; discriminate).
    pose proof (i_view _ _ _ I k) as Vk. rewrite H in Vk. destruct Vk as [V1 V2 V3 V4 V5]. rewrite H0 in V1, V2. cbn [registered] in V2.
    destruct (unregistered _ _ _ _ I V2) as (U1 & U2 & U3).
    constructor; auto. intros i j Hj. cbn [put_call set_calls set_requests s_requests] in Hj. unfold map_set in Hj.
    destruct (Z.eqb_spec i (k_id c)) as [->|Hi].
    + injection Hj as <-. split; [eapply stable_id; eassumption|]. split; [rewrite grow_reg, V2; cbn; rewrite Nat.eqb_refl; reflexivity|].
      split; [rewrite grow_rep, U1; reflexivity|]. exact U2.
    + destruct (i_req _ _ _ I _ _ Hj) as (Q1 & Q2 & Q3 & Q4).
      split; [eapply stable_id; eassumption|]. split; [eapply stable_reg; eassumption|]. split; [rewrite grow_rep, Q3; reflexivity|exact Q4].
  - assert (N : forall j r, ~ In (@EReply R j r) [ELock k]) by (intros j r [F|[]]; discriminate).
    constructor; auto.
  - assert (N : forall j r, ~ In (@EReply R j r) [ESent k p]) by (intros j r [F|[]]; discriminate).
    constructor; auto.
  - assert (N : forall j r, ~ In (@EReply R j r) [EFlushed k fl]) by (intros j r [F|[]]; discriminate).
    constructor; auto.
  - assert (N : forall j r, ~ In (@EReply R j r) [EReturn k (WriteError x)]) by (intros j r [F|[]]; discriminate).
    constructor; auto.
  - assert (N : forall j r, ~ In (@EReply R j r) []) by (intros j r []). constructor; auto.
  - assert (N : forall j r', ~ In (@EReply R j r') [EReturn k (Reply r)]) by (intros j r' [F|[]]; discriminate).
    constructor; auto.
  - assert (N : forall j r, ~ In (@EReply R j r) []) by (intros j r []).
    constructor; auto; cbn [set_mpc s_mpc s_requests] in *.
    + apply QK; auto. destruct (s_closed s); discriminate.
    + destruct (s_closed s); discriminate.
    + destruct (s_closed s); discriminate.
  - assert (N : forall j r, ~ In (@EReply R j r) []) by (intros j r []).
    destruct (i_req _ _ _ I _ _ H0) as (Q1 & Q2 & Q3 & Q4).
    constructor; auto; cbn [set_mpc s_mpc s_requests set_requests] in *.
    + intros i j Hj. unfold map_set in Hj. destruct (Z.eqb_spec i id) as [->|Hi]; [discriminate|].
      destruct (i_req _ _ _ I _ _ Hj) as (P1 & P2 & P3 & P4). rewrite app_nil_r. split; [exact P1|]. split; [exact P2|]. split; [exact P3|].
      intros d' F. injection F as -> _. congruence.
    + discriminate.
    + intros k' d' F. injection F as <- <-. rewrite app_nil_r. split; [exact Q3|]. split; [exact Q2|].
      destruct (i_lookup _ _ _ I _ _ H) as (raw & size & F1 & F2 & F3). exists id, raw, size. auto.
  - assert (N : forall j r, ~ In (@EReply R j r) [EDropped id]) by (intros j r [F|[]]; discriminate).
    constructor; auto; cbn [set_mpc s_mpc s_requests set_requests] in *.
    + apply QK; auto; try discriminate. intros i k. unfold map_set. destruct (i =? id); [discriminate|auto].
    + discriminate.
    + discriminate.
  - destruct (i_mreply _ _ _ I _ _ H) as (M1 & M2 & id & raw & size & M3 & M4 & M5 & M6).
    constructor; auto; cbn [set_mpc s_mpc s_requests set_requests put_call set_calls] in *.
    + intros i j Hj. destruct (i_req _ _ _ I _ _ Hj) as (P1 & P2 & P3 & P4).
      split; [eapply stable_id; eassumption|]. split; [eapply stable_reg; eassumption|]. split; [|discriminate].
      rewrite grow_rep, P3. cbn. destruct (Nat.eqb_spec k j) as [->|]; [exfalso; apply (P4 d), H|reflexivity].
    + discriminate.
    + discriminate.
    + intros j r' Hin. apply in_app_or in Hin. destruct Hin as [Hin|[F|[]]]; [apply RK, Hin|]. injection F as <- <-.
      split; [eapply stable_reg; eassumption|].
      exists (mkCall (k_enc c) (k_dec c) (k_id c) (k_pc c) (Some r)), id, raw, size. split; [apply (nth_same _ _ _ _ H0)|].
      split; [eapply stable_id; eassumption|]. split; [apply in_more, M4|]. split; [exact M5|]. cbn [k_dec]. rewrite <- M6. exact H2.
  - assert (N : forall j r, ~ In (@EReply R j r) []) by (intros j r []).
    destruct (overwrite_ok (s_rbuf s) bs cap) as [B1 B2]; try tauto; [lia|].
    constructor; auto; cbn [set_mpc s_mpc s_requests set_rbuf s_rbuf] in *; try discriminate.
    apply QK; auto. discriminate.
  - assert (N : forall j r, ~ In (@EReply R j r) [EFrame (overwrite (s_rbuf s) bs) size]) by (intros j r [F|[]]; discriminate).
    destruct (overwrite_ok (s_rbuf s) bs cap) as [B1 B2]; try tauto; [lia|].
    constructor; auto; cbn [set_mpc s_mpc s_requests set_rbuf s_rbuf] in *; try discriminate.
    + apply QK; auto. discriminate.
    + intros id' d' F. injection F as <- <-. exists (overwrite (s_rbuf s) bs), size. split; [apply in_or_app; right; left; reflexivity|].
      apply decode_carries; [exact B1|lia|assumption].
  - assert (N : forall j r, ~ In (@EReply R j r) [EFrame (overwrite (s_rbuf s) bs) size]) by (intros j r [F|[]]; discriminate).
    destruct (overwrite_ok (s_rbuf s) bs cap) as [B1 B2]; try tauto; [lia|].
    constructor; auto; cbn [set_mpc s_mpc s_requests set_rbuf s_rbuf] in *; try discriminate.
    apply QK; auto. discriminate.
  - assert (N : forall j r, ~ In (@EReply R j r) []) by (intros j r []). constructor; auto.
  - assert (N : forall j r, ~ In (@EReply R j r) []) by (intros j r []). constructor; auto.
  - assert (N : forall j r, ~ In (@EReply R j r) []) by (intros j r []). constructor; auto.
Qed.

Lemma cinv {R} raw cap (sched : list (clabel R)) s evs : 4 <= cap -> executes raw cap sched s evs -> CInv cap s evs.
Proof.
  intros Hc. apply (exec_ind (fun s evs => CInv cap s evs)).
  - constructor; try (cbn; intros; discriminate || contradiction).
    + split; [reflexivity|exact Hc].
    + intros k. unfold Connected. cbn [s_calls]. destruct k; repeat split.
    + reflexivity.
    + reflexivity.
    + cbn. split; [apply Forall_forall; intros x Hx; apply repeat_spec in Hx; subst; unfold is_byte; lia|].
      unfold zlen. rewrite repeat_length. lia.
  - intros. eapply cinv_step; eassumption.
Qed.

(** ** The lock and the bytes on the wire *)
Lemma NoDup_app_single {A} (l : list A) x : NoDup l -> ~ In x l -> NoDup (l ++ [x]).
Proof.
  intros H. induction H as [|y l Hy H IH]; intros Hx; cbn; [repeat constructor; auto|]. constructor.
  - rewrite in_app_iff. intros [F|[F|[]]]; [auto|]. subst. apply Hx. left. reflexivity.
  - apply IH. intros F. apply Hx. right. exact F.
Qed.
Definition past_lock {R} (p : pc R) : bool := match p with PId | PRegister | PLock => false | _ => true end.
Definition holding {R} (p : pc R) : bool := match p with PSend _ _ _ _ | PUnlock _ => true | _ => false end.
Definition settled (b : bufio) (data : list Z) : Prop :=
  match b_err b with None => b_buf b = [] /\ sent_bytes b = data | Some _ => prefix (sent_bytes b) data end.
Definition asked {R} (s : conn R) (evs : list (event R)) (b : bufio) : Prop :=
  exists reqs, Forall2 (request s) (locks evs) reqs /\ settled b (concat reqs).

Record WInv {R} (s : conn R) (evs : list (event R)) : Prop := mkWInv {
  w_small : small (s_buf s);
  w_err : forall x, s_encerr s = Some x -> b_err (s_buf s) = Some x;
  w_hold : forall k c, nth_error (s_calls s) k = Some c -> (holding (k_pc c) = true <-> s_lock s = Some k);
  w_held : forall k, s_lock s = Some k -> exists c, nth_error (s_calls s) k = Some c;
  w_nodup : NoDup (locks evs);
  w_locked : forall k, In k (locks evs) <-> exists c, nth_error (s_calls s) k = Some c /\ past_lock (k_pc c) = true;
  w_send : forall k c ps err b fl, nth_error (s_calls s) k = Some c -> k_pc c = PSend ps err b fl ->
    wire evs ++ concat ps = sent_bytes b /\ small b /\ fl = b_err b /\ (forall x, err = Some x -> b_err b = Some x) /\
    asked s evs b /\ (forall x, b_err (s_buf s) = Some x -> b = s_buf s /\ ps = []);
  w_idle : (forall k c ps err b fl, nth_error (s_calls s) k = Some c -> k_pc c <> PSend ps err b fl) ->
    wire evs = sent_bytes (s_buf s) /\ asked s evs (s_buf s);
  w_unlock : forall k c fl, nth_error (s_calls s) k = Some c -> k_pc c = PUnlock fl -> fl = b_err (s_buf s) }.

Lemma request_keep {R} (s s' : conn R) e k bs : trans s s' e -> request s k bs -> request s' k bs.
Proof.
  intros T (c & H1 & H2 & H3). destruct (calls_keep _ _ _ _ _ T H1) as (c' & K1 & _ & K3 & K4). destruct (K4 H2) as [K5 K6].
  exists c'. rewrite K3, K5. auto.
Qed.
Lemma asked_keep {R} (s s' : conn R) evs e b : trans s s' e -> locks e = [] -> asked s evs b -> asked s' (evs ++ e) b.
Proof.
  intros T He (reqs & H1 & H2). exists reqs. split; [|exact H2]. unfold locks in *. rewrite flat_map_app, He, app_nil_r.
  clear H2. induction H1; constructor; [eapply request_keep; eassumption|assumption].
Qed.
Lemma grow_locks {R} (evs e : list (event R)) : locks (evs ++ e) = locks evs ++ locks e.
Proof. apply flat_map_app. Qed.
Lemma grow_wire {R} (evs e : list (event R)) : wire (evs ++ e) = wire evs ++ wire e.
Proof. apply flat_map_app. Qed.

(** A step that leaves the writer alone: no lock, nothing sent, every call keeps
    the part of its position that concerns the writer. *)
Definition same_class {R} (p p' : pc R) : Prop :=
  match p, p' with
  | (PId | PRegister | PLock), (PId | PRegister | PLock) => True
  | PSend _ _ _ _, _ | _, PSend _ _ _ _ => p = p'
  | PUnlock _, _ | _, PUnlock _ => p = p'
  | (PWait | PReturned _), (PWait | PReturned _) => True
  | _, _ => False
  end.
Lemma same_class_refl {R} (p : pc R) : same_class p p.
Proof. destruct p; cbn; auto. Qed.
Lemma same_class_facts {R} (p p' : pc R) : same_class p p' -> holding p' = holding p /\ past_lock p' = past_lock p /\
  (forall ps err b fl, p' = PSend ps err b fl <-> p = PSend ps err b fl) /\ (forall fl, p' = PUnlock fl <-> p = PUnlock fl).
Proof.
  destruct p, p'; cbn; intros H; try contradiction; try discriminate; try (inversion H; subst); repeat split; intros; try discriminate; try assumption; try reflexivity.
Qed.

Lemma winv_quiet {R} (s s' : conn R) evs e : WInv s evs -> trans s s' e -> locks e = [] -> wire e = [] ->
  s_buf s' = s_buf s -> s_encerr s' = s_encerr s -> s_lock s' = s_lock s ->
  (forall k, match nth_error (s_calls s') k with
             | Some c' => match nth_error (s_calls s) k with Some c => same_class (k_pc c) (k_pc c') | None => k_pc c' = PId end
             | None => nth_error (s_calls s) k = None end) ->
  WInv s' (evs ++ e).
Proof.
  intros [W1 W2 W3 W4 W5 W6 W7 W8 W9] T El Ew Eb Ee Elk HC.
  assert (EL : locks (evs ++ e) = locks evs) by (rewrite grow_locks, El, app_nil_r; reflexivity).
  assert (EW : wire (evs ++ e) = wire evs) by (rewrite grow_wire, Ew, app_nil_r; reflexivity).
  constructor.
  - rewrite Eb. exact W1.
  - rewrite Eb, Ee. exact W2.
  - intros k c Hk. rewrite Elk. specialize (HC k). rewrite Hk in HC. destruct (nth_error (s_calls s) k) as [c0|] eqn:E0.
    + apply same_class_facts in HC. destruct HC as (-> & _). apply W3, E0.
    + rewrite HC. cbn. split; [discriminate|]. intros F. destruct (W4 _ F). congruence.
  - intros k Hk. rewrite Elk in Hk. destruct (W4 k Hk) as [c Hc]. destruct (calls_keep _ _ _ _ _ T Hc) as (c' & H & _). eauto.
  - rewrite EL. exact W5.
  - intros k. rewrite EL, W6. specialize (HC k). split.
    + intros (c & H1 & H2). rewrite H1 in HC. destruct (nth_error (s_calls s') k) as [c'|]; [|discriminate].
      exists c'. split; [reflexivity|]. apply same_class_facts in HC. destruct HC as (_ & -> & _). exact H2.
    + intros (c' & H1 & H2). rewrite H1 in HC. destruct (nth_error (s_calls s) k) as [c|].
      * exists c. split; [reflexivity|]. apply same_class_facts in HC. destruct HC as (_ & <- & _). exact H2.
      * rewrite HC in H2. discriminate.
  - intros k c ps err b fl Hk Hp. specialize (HC k). rewrite Hk in HC. destruct (nth_error (s_calls s) k) as [c0|] eqn:E0; [|congruence].
    apply same_class_facts in HC. destruct HC as (_ & _ & H & _). apply H in Hp. rewrite EW, Eb.
    destruct (W7 _ _ _ _ _ _ E0 Hp) as (P1 & P2 & P3 & P4 & P5 & P6). repeat (split; try assumption). apply (asked_keep s); assumption.
  - intros HN. rewrite EW, Eb. destruct W8 as [P1 P2].
    + intros k c ps err b fl Hk Hp. specialize (HC k). rewrite Hk in HC. destruct (nth_error (s_calls s') k) as [c'|] eqn:E0; [|congruence].
      apply same_class_facts in HC. destruct HC as (_ & _ & H & _). apply H in Hp. exact (HN _ _ _ _ _ _ E0 Hp).
    + split; [exact P1|]. apply (asked_keep s); assumption.
  - intros k c fl Hk Hp. rewrite Eb. specialize (HC k). rewrite Hk in HC. destruct (nth_error (s_calls s) k) as [c0|] eqn:E0; [|congruence].
    apply same_class_facts in HC. destruct HC as (_ & _ & _ & H). apply H in Hp. exact (W9 _ _ _ E0 Hp).
Qed.
Lemma class_put {R} (s s0 : conn R) k c c' : s_calls s0 = s_calls s -> nth_error (s_calls s) k = Some c -> same_class (k_pc c) (k_pc c') ->
  forall j, match nth_error (s_calls (put_call s0 k c')) j with
             | Some c1 => match nth_error (s_calls s) j with Some c0 => same_class (k_pc c0) (k_pc c1) | None => k_pc c1 = PId end
             | None => nth_error (s_calls s) j = None end.
Proof.
  intros E0 Hk Hc j. cbn [put_call set_calls s_calls]. rewrite E0. destruct (Nat.eq_dec j k) as [->|Hj].
  - rewrite (nth_same _ _ _ _ Hk), Hk. exact Hc.
  - rewrite nth_other by exact Hj. destruct (nth_error (s_calls s) j); [apply same_class_refl|reflexivity].
Qed.
Lemma class_same {R} (s s' : conn R) : s_calls s' = s_calls s ->
  forall j, match nth_error (s_calls s') j with
             | Some c1 => match nth_error (s_calls s) j with Some c0 => same_class (k_pc c0) (k_pc c1) | None => k_pc c1 = PId end
             | None => nth_error (s_calls s) j = None end.
Proof. intros -> j. destruct (nth_error (s_calls s) j); [apply same_class_refl|reflexivity]. Qed.

(** Put a call elsewhere: what the list of calls says afterwards. *)
Lemma put_cases {R} (s0 : conn R) k c' j c1 : nth_error (s_calls (put_call s0 k c')) j = Some c1 ->
  (j = k /\ c1 = c' /\ exists c, nth_error (s_calls s0) k = Some c) \/ (j <> k /\ nth_error (s_calls s0) j = Some c1).
Proof.
  cbn [put_call set_calls s_calls]. rewrite nth_set_nth. destruct (Nat.eqb_spec j k) as [->|Hj].
  - destruct (nth_error (s_calls s0) k) as [c|]; [|discriminate]. intros H. injection H as <-. left. eauto.
  - intros H. right. auto.
Qed.
Lemma put_same {R} (s0 : conn R) k c c' : nth_error (s_calls s0) k = Some c -> nth_error (s_calls (put_call s0 k c')) k = Some c'.
Proof. apply nth_same. Qed.

(** Only the holder of the lock is at lines 165-167. *)
Lemma one_holder {R} (s : conn R) evs k c j c0 : WInv s evs -> nth_error (s_calls s) k = Some c -> holding (k_pc c) = true ->
  nth_error (s_calls s) j = Some c0 -> holding (k_pc c0) = true -> j = k.
Proof.
  intros W H1 H2 H3 H4. apply (w_hold _ _ W _ _ H1) in H2. apply (w_hold _ _ W _ _ H3) in H4. congruence.
Qed.

Lemma locked_put {R} (s s0 : conn R) (evs : list (event R)) k c c' : s_calls s0 = s_calls s -> nth_error (s_calls s) k = Some c ->
  past_lock (k_pc c) = past_lock (k_pc c') ->
  (forall j, In j (locks evs) <-> exists c, nth_error (s_calls s) j = Some c /\ past_lock (k_pc c) = true) ->
  (forall j, In j (locks evs) <-> exists c, nth_error (s_calls (put_call s0 k c')) j = Some c /\ past_lock (k_pc c) = true).
Proof.
  intros E0 Hk Hp H j. rewrite H. cbn [put_call set_calls s_calls]. rewrite E0. destruct (Nat.eq_dec j k) as [->|Hj].
  - rewrite (nth_same _ _ _ _ Hk), Hk. split; intros (c1 & F1 & F2); injection F1 as <-; eexists; (split; [reflexivity|congruence]).
  - rewrite nth_other by exact Hj. reflexivity.
Qed.

Lemma winv_step {R} (s s' : conn R) evs e : view s evs -> WInv s evs -> trans s s' e -> WInv s' (evs ++ e).
Proof.
  intros V W T0. pose proof T0 as T. destruct T0.
  - apply (winv_quiet s); auto. intros j. cbn [set_calls s_calls]. destruct (Nat.lt_ge_cases j (length (s_calls s))) as [Hj|Hj].
    + rewrite nth_error_app1 by exact Hj. destruct (nth_error (s_calls s) j); [apply same_class_refl|reflexivity].
    + rewrite nth_error_app2 by exact Hj. rewrite (proj2 (nth_error_None _ _) Hj). destruct (j - length (s_calls s))%nat as [|n]; [reflexivity|destruct n; reflexivity].
  - apply (winv_quiet s); auto. apply (class_put s _ k c); auto. rewrite H0. exact I.
  - apply (winv_quiet s); auto. apply (class_put s _ k c); auto. rewrite H0. exact I.
  - (* lock *)
    destruct W as [W1 W2 W3 W4 W5 W6 W7 W8 W9].
    pose proof (V k) as Vk. rewrite H in Vk. destruct (v_runs _ _ _ Vk (k_id c)) as [cs Hcs].
    destruct (transmit_ok _ _ _ _ _ _ _ _ Hcs W1 W2 H2) as (K1 & K2 & K3 & K4 & K5).
    assert (NS : forall j c1, nth_error (s_calls s) j = Some c1 -> holding (k_pc c1) = false).
    { intros j c1 Hj. destruct (holding (k_pc c1)) eqn:E; [|reflexivity]. apply (W3 _ _ Hj) in E. congruence. }
    destruct W8 as [E1 (reqs & E2 & E3)].
    { intros j c1 ps err0 b0 fl0 Hj F. specialize (NS _ _ Hj). rewrite F in NS. discriminate. }
    assert (NL : ~ In k (locks evs)).
    { rewrite W6. intros (c1 & F1 & F2). rewrite H in F1. injection F1 as <-. rewrite H0 in F2. discriminate. }
    assert (A' : asked (put_call (set_lock s (Some k)) k (at_pc c (PSend (skipn (length (b_sent (s_buf s))) (b_sent b)) err b fl))) (evs ++ [ELock k]) b).
    { exists (reqs ++ [concat cs]). split.
      - rewrite grow_locks. apply Forall2_app; [clear - E2 T; induction E2; constructor; [eapply request_keep; eassumption|assumption]|].
        constructor; [|constructor]. exists (at_pc c (PSend (skipn (length (b_sent (s_buf s))) (b_sent b)) err b fl)).
        split; [apply (put_same (set_lock s (Some k)) k c); exact H|]. split; [discriminate|]. apply Runs_Emits, Hcs.
      - rewrite concat_app. cbn [concat]. rewrite app_nil_r. destruct K1 as [_ K1]. unfold settled in *.
        destruct (b_err (s_buf s)) as [x|] eqn:Ex.
        + subst b. rewrite Ex. apply prefix_app, E3.
        + destruct E3 as [E3 E4]. destruct (b_err b) as [y|] eqn:Ey.
          * unfold all_bytes in K1. rewrite E3, app_nil_r, E4 in K1. exact K1.
          * split; [apply K5; congruence|]. unfold all_bytes in K1. rewrite E3, app_nil_r, E4, (K5 K3), app_nil_r in K1. exact K1. }
    constructor; cbn [put_call set_calls set_lock s_buf s_encerr s_lock].
    + exact W1.
    + exact W2.
    + intros j c1 Hj. apply put_cases in Hj. destruct Hj as [(-> & -> & _)|[Hn Hj]]; [split; reflexivity|].
      rewrite (NS _ _ Hj). split; [discriminate|]. congruence.
    + intros j Hj. injection Hj as <-. eexists. apply (put_same (set_lock s (Some k)) k c); exact H.
    + rewrite grow_locks. cbn. apply NoDup_app_single; assumption.
    + intros j. rewrite grow_locks, in_app_iff. cbn [locks flat_map app In]. rewrite W6. split.
      * intros [(c1 & F1 & F2)|[<-|[]]].
        -- destruct (Nat.eq_dec j k) as [->|Hj]; [rewrite H in F1; injection F1 as <-; rewrite H0 in F2; discriminate|].
           exists c1. split; [|exact F2]. cbn [put_call set_calls set_lock s_calls]. rewrite nth_other; assumption.
        -- eexists. split; [apply (put_same (set_lock s (Some k)) k c); exact H|reflexivity].
      * intros (c1 & F1 & F2). apply put_cases in F1. destruct F1 as [(-> & _)|[Hn F1]]; [right; left; reflexivity|]. left. eauto.
    + intros j c1 ps err0 b0 fl0 Hj Hp. apply put_cases in Hj. destruct Hj as [(-> & -> & _)|[Hn Hj]].
      * cbn [at_pc k_pc] in Hp. injection Hp as <- <- <- <-. split; [|split; [exact K2|split; [exact K3|split; [exact K4|split; [exact A'|]]]]].
        -- rewrite grow_wire. cbn [wire flat_map]. rewrite app_nil_r, E1. destruct K1 as [[more Em] _]. unfold sent_bytes. rewrite Em, concat_app.
           rewrite skipn_app, skipn_all, Nat.sub_diag. reflexivity.
        -- intros x Hx. rewrite (took_err _ _ _ _ K1 Hx). split; [reflexivity|]. apply skipn_all.
      * specialize (NS _ _ Hj). rewrite Hp in NS. discriminate.
    + intros HN. exfalso. eapply HN; [apply (put_same (set_lock s (Some k)) k c); exact H|reflexivity].
    + intros j c1 fl0 Hj Hp. apply put_cases in Hj. destruct Hj as [(-> & -> & _)|[Hn Hj]]; [discriminate|].
      specialize (NS _ _ Hj). rewrite Hp in NS. discriminate.
  - (* send *)
    assert (HH : holding (k_pc c) = true) by (rewrite H0; reflexivity).
    pose proof (fun j c0 => one_holder _ _ k c j c0 W H HH) as OH.
    destruct W as [W1 W2 W3 W4 W5 W6 W7 W8 W9]. destruct (W7 _ _ _ _ _ _ H H0) as (P1 & P2 & P3 & P4 & P5 & P6).
    assert (EL : locks (evs ++ [ESent k p]) = locks evs) by (rewrite grow_locks; apply app_nil_r).
    constructor; cbn [put_call set_calls s_buf s_encerr s_lock].
    + exact W1.
    + exact W2.
    + intros j c1 Hj. apply put_cases in Hj. destruct Hj as [(-> & -> & _)|[Hn Hj]]; [|apply W3, Hj].
      cbn. rewrite <- (W3 _ _ H), H0. reflexivity.
    + intros j Hj. destruct (W4 _ Hj) as [c1 Hc1]. destruct (calls_keep _ _ _ _ _ T Hc1) as (c2 & F & _). eauto.
    + rewrite EL. exact W5.
    + rewrite EL. apply (locked_put s s evs k c); auto. rewrite H0. reflexivity.
    + intros j c1 ps err0 b0 fl0 Hj Hp. apply put_cases in Hj. destruct Hj as [(-> & -> & _)|[Hn Hj]].
      * cbn [at_pc k_pc] in Hp. injection Hp as <- <- <- <-. split; [|split; [exact P2|split; [exact P3|split; [exact P4|split; [|]]]]].
        -- rewrite grow_wire. cbn [wire flat_map]. rewrite app_nil_r, <- P1, <- app_assoc. reflexivity.
        -- apply (asked_keep s); auto.
        -- intros x Hx. destruct (P6 _ Hx) as [_ F]. discriminate.
      * exfalso. apply Hn, (OH j c1 Hj). rewrite Hp. reflexivity.
    + intros HN. exfalso. eapply HN; [apply (put_same s k c); exact H|reflexivity].
    + intros j c1 fl0 Hj Hp. apply put_cases in Hj. destruct Hj as [(-> & -> & _)|[Hn Hj]]; [discriminate|].
      exfalso. apply Hn, (OH j c1 Hj). rewrite Hp. reflexivity.
  - (* flushed *)
    assert (HH : holding (k_pc c) = true) by (rewrite H0; reflexivity).
    pose proof (fun j c0 => one_holder _ _ k c j c0 W H HH) as OH.
    destruct W as [W1 W2 W3 W4 W5 W6 W7 W8 W9]. destruct (W7 _ _ _ _ _ _ H H0) as (P1 & P2 & P3 & P4 & P5 & P6).
    assert (EL : locks (evs ++ [EFlushed k fl]) = locks evs) by (rewrite grow_locks; apply app_nil_r).
    constructor; cbn [put_call set_calls set_encoder s_buf s_encerr s_lock].
    + exact P2.
    + exact P4.
    + intros j c1 Hj. apply put_cases in Hj. destruct Hj as [(-> & -> & _)|[Hn Hj]]; [|apply W3, Hj].
      cbn. rewrite <- (W3 _ _ H), H0. reflexivity.
    + intros j Hj. destruct (W4 _ Hj) as [c1 Hc1]. destruct (calls_keep _ _ _ _ _ T Hc1) as (c2 & F & _). eauto.
    + rewrite EL. exact W5.
    + rewrite EL. apply (locked_put s (set_encoder s err b) evs k c); auto. rewrite H0. reflexivity.
    + intros j c1 ps err0 b0 fl0 Hj Hp. apply put_cases in Hj. destruct Hj as [(-> & -> & _)|[Hn Hj]]; [discriminate|].
      exfalso. apply Hn, (OH j c1 Hj). rewrite Hp. reflexivity.
    + intros HN. split; [rewrite grow_wire; cbn [wire flat_map]; cbn [concat] in P1; exact P1|]. apply (asked_keep s); auto.
    + intros j c1 fl0 Hj Hp. apply put_cases in Hj. destruct Hj as [(-> & -> & _)|[Hn Hj]]; [|exfalso; apply Hn, (OH j c1 Hj); rewrite Hp; reflexivity].
      cbn in Hp. congruence.
  - (* fail *)
    assert (HH : holding (k_pc c) = true) by (rewrite H0; reflexivity).
    pose proof (fun j c0 => one_holder _ _ k c j c0 W H HH) as OH.
    destruct W as [W1 W2 W3 W4 W5 W6 W7 W8 W9].
    assert (EL : locks (evs ++ [EReturn k (WriteError x)]) = locks evs) by (rewrite grow_locks; apply app_nil_r).
    constructor; cbn [put_call set_calls set_lock s_buf s_encerr s_lock].
    + exact W1.
    + exact W2.
    + intros j c1 Hj. apply put_cases in Hj. destruct Hj as [(-> & -> & _)|[Hn Hj]]; [cbn; split; discriminate|].
      split; [|discriminate]. intros F. exfalso. apply Hn, (OH j c1 Hj F).
    + discriminate.
    + rewrite EL. exact W5.
    + rewrite EL. apply (locked_put s (set_lock s None) evs k c); auto. rewrite H0. reflexivity.
    + intros j c1 ps err0 b0 fl0 Hj Hp. apply put_cases in Hj. destruct Hj as [(-> & -> & _)|[Hn Hj]]; [discriminate|].
      exfalso. apply Hn, (OH j c1 Hj). rewrite Hp. reflexivity.
    + intros HN. rewrite grow_wire. cbn [wire flat_map]. rewrite app_nil_r. destruct W8 as [F1 F2].
      { intros j c1 ps err0 b0 fl0 Hj Hp. assert (j = k) by (apply (OH j c1 Hj); rewrite Hp; reflexivity). subst. congruence. }
      split; [exact F1|]. apply (asked_keep s); auto.
    + intros j c1 fl0 Hj Hp. apply put_cases in Hj. destruct Hj as [(-> & -> & _)|[Hn Hj]]; [discriminate|].
      exfalso. apply Hn, (OH j c1 Hj). rewrite Hp. reflexivity.
  - (* unlock *)
    assert (HH : holding (k_pc c) = true) by (rewrite H0; reflexivity).
    pose proof (fun j c0 => one_holder _ _ k c j c0 W H HH) as OH.
    destruct W as [W1 W2 W3 W4 W5 W6 W7 W8 W9]. rewrite app_nil_r.
    constructor; cbn [put_call set_calls set_lock s_buf s_encerr s_lock].
    + exact W1.
    + exact W2.
    + intros j c1 Hj. apply put_cases in Hj. destruct Hj as [(-> & -> & _)|[Hn Hj]]; [cbn; split; discriminate|].
      split; [|discriminate]. intros F. exfalso. apply Hn, (OH j c1 Hj F).
    + discriminate.
    + exact W5.
    + apply (locked_put s (set_lock s None) evs k c); auto. rewrite H0. reflexivity.
    + intros j c1 ps err0 b0 fl0 Hj Hp. apply put_cases in Hj. destruct Hj as [(-> & -> & _)|[Hn Hj]]; [discriminate|].
      exfalso. apply Hn, (OH j c1 Hj). rewrite Hp. reflexivity.
    + intros HN. destruct W8 as [F1 F2].
      { intros j c1 ps err0 b0 fl0 Hj Hp. assert (j = k) by (apply (OH j c1 Hj); rewrite Hp; reflexivity). subst. congruence. }
      split; [exact F1|]. rewrite <- (app_nil_r evs). apply (asked_keep s); auto.
    + intros j c1 fl0 Hj Hp. apply put_cases in Hj. destruct Hj as [(-> & -> & _)|[Hn Hj]]; [discriminate|].
      exfalso. apply Hn, (OH j c1 Hj). rewrite Hp. reflexivity.
  - apply (winv_quiet s); auto. apply (class_put s _ k c); auto. rewrite H0. exact I.
  - apply (winv_quiet s); auto. apply class_same. reflexivity.
  - apply (winv_quiet s); auto. apply class_same. reflexivity.
  - apply (winv_quiet s); auto. apply class_same. reflexivity.
  - apply (winv_quiet s); auto. apply (class_put s _ k c); auto. apply same_class_refl.
  - apply (winv_quiet s); auto. apply class_same. reflexivity.
  - apply (winv_quiet s); auto. apply class_same. reflexivity.
  - apply (winv_quiet s); auto. apply class_same. reflexivity.
  - apply (winv_quiet s); auto. apply class_same. reflexivity.
  - apply (winv_quiet s); auto. apply class_same. reflexivity.
  - apply (winv_quiet s); auto. apply class_same. reflexivity.
Qed.
