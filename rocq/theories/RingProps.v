(** * The ring buffer: refutations, sequential use, blocking, closing, positions *)
From Verif Require Import GoBase GoLemmas Ring RingSpec RingProofs.
Local Open Scope Z_scope.
Ltac Zify.zify_post_hook ::= idtac.

(** ** Executions that break FIFO *)

Definition wsteps (k : nat) : list label := repeat WStep k.
Definition rsteps (k : nat) : list label := repeat RStep k.


Lemma not_prefix a b : zlen b < zlen a \/ (exists k, (k < length a)%nat /\ nth k a 0 <> nth k b 0) -> ~ prefix a b.
Proof.
  intros H [c E]. rewrite E in H. destruct H as [H|(k & Hk & H)].
  - rewrite zlen_app in H. pose proof (zlen_nonneg c). lia.
  - rewrite app_nth1 in H by exact Hk. congruence.
Qed.

(** A read of 4 bytes is woken after 2 and returns 2 bytes nobody wrote. *)
Definition sched_garbage : list label :=
  RCall 4 4 :: rsteps 5 ++ WCall [1;2] 2 :: wsteps 6 ++ [SyncRead] ++ rsteps 6.
(** A write of 10 bytes into a ring of 4 overwrites bytes not yet read. *)
Definition sched_overrun : list label :=
  WCall [1;2;3;4;5;6;7;8;9;10] 10 :: wsteps 9 ++ RCall 1 1 :: rsteps 5 ++ [SyncWrite] ++ wsteps 7 ++ RCall 2 2 :: rsteps 6.
(** Reads of single bytes: a reader that has caught up is woken by the Release
    of a write it has already seen. *)
Definition sched_spurious : list label :=
  WCall [1;2] 2 :: wsteps 5 ++ RCall 1 1 :: rsteps 5 ++ RCall 1 1 :: rsteps 5 ++
  RCall 1 1 :: rsteps 5 ++ wsteps 1 ++ [SyncRead] ++ rsteps 3.
(** Closing makes a waiting read return a byte nobody wrote. *)
Definition sched_close : list label := RCall 1 1 :: rsteps 5 ++ [CloseCall; RDone] ++ rsteps 3.

Lemma fifo_refuted : forall size sched,
  In (size, sched) [(8, sched_garbage); (4, sched_overrun); (8, sched_spurious); (8, sched_close)] ->
  Forall legal_call sched /\ exists g evs, run (New size) sched = Some (g, evs) /\ ~ prefix (delivered evs) (written evs).
Proof.
  intros size sched H. cbn [In] in H.
  destruct H as [H|[H|[H|[H|[]]]]]; injection H as <- <-;
    (split; [repeat constructor; cbn; unfold zlen; cbn; lia|]); eexists; eexists; (split; [vm_compute; reflexivity|]); apply not_prefix.
  - left. reflexivity.
  - right. exists 1%nat. cbn. split; [lia|discriminate].
  - left. reflexivity.
  - left. reflexivity.
Qed.

(** ** Deadlocks *)
Definition sched_deadlock_empty : list label :=
  WCall [1;2;3;4] 4 :: wsteps 8 ++ RCall 3 3 :: rsteps 7 ++ RCall 1 1 :: rsteps 5 ++ wsteps 1.
Definition sched_deadlock_full : list label := RCall 1 1 :: rsteps 4 ++ WCall [1;2;3] 3 :: wsteps 9 ++ rsteps 1.
Definition sched_lost_wakeup : list label := RCall 1 1 :: rsteps 5 ++ WCall [7] 1 :: wsteps 4.

Lemma deadlock_reachable : exists size sched g evs, Forall legal_call sched /\ run (New size) sched = Some (g, evs) /\
  g_closed g = false /\ w_blocked g /\ r_blocked g.
Proof.
  exists 4, sched_deadlock_empty. eexists. eexists. split; [repeat constructor; cbn; unfold zlen; cbn; lia|].
  split; [vm_compute; reflexivity|]. cbn. unfold w_blocked, r_blocked. cbn. repeat split; discriminate.
Qed.
Lemma deadlock_full_reachable : exists size sched g evs, Forall legal_call sched /\ run (New size) sched = Some (g, evs) /\
  g_closed g = false /\ w_blocked g /\ r_blocked g /\ occupancy g = size - 1.
Proof.
  exists 4, sched_deadlock_full. eexists. eexists. split; [repeat constructor; cbn; unfold zlen; cbn; lia|].
  split; [vm_compute; reflexivity|]. cbn. unfold w_blocked, r_blocked. cbn. repeat split; discriminate.
Qed.
Lemma lost_wakeup_reachable : exists size sched g evs, Forall legal_call sched /\ run (New size) sched = Some (g, evs) /\
  g_closed g = false /\ g_w g = WIdle /\ r_blocked g /\ written evs = [7] /\ occupancy g = 1.
Proof.
  exists 8, sched_lost_wakeup. eexists. eexists. split; [repeat constructor; cbn; unfold zlen; cbn; lia|].
  split; [vm_compute; reflexivity|]. cbn. unfold w_blocked, r_blocked. cbn. repeat split; discriminate.
Qed.

(** A blocked party stays blocked until someone else acts: a deadlock is final
    (only Close ends it). *)
Lemma deadlock_final : forall g, w_blocked g -> r_blocked g -> forall a r, a <> CloseCall -> step g a = Some r -> False.
Proof.
  intros g (Hw & H1 & H2 & H3 & H4) (Hr & H5 & H6 & _) a r Ha H.
  destruct a; try congruence; cbn [step] in H.
  - destruct (g_w g); congruence.
  - destruct (g_r g); congruence.
Qed.

(** ** The mutex protocol while the ring is open *)
Record MInv (g : ring) : Prop := {
  m_rset : g_rset g = true -> r_waiting (g_r g) = true /\ w_releasing (g_w g) = false;
  m_rrel : w_releasing (g_w g) = true -> r_waiting (g_r g) = true;
  m_rwait : r_waiting (g_r g) = true -> g_rset g = true \/ w_releasing (g_w g) = true;
  m_wset : g_wset g = true -> w_waiting (g_w g) = true /\ r_releasing (g_r g) = false;
  m_wrel : r_releasing (g_r g) = true -> w_waiting (g_w g) = true;
  m_wwait : w_waiting (g_w g) = true -> g_wset g = true \/ r_releasing (g_r g) = true
}.

Ltac fields g := destruct g as [cells gsize start next rset wset closed wp rp]; cbn [g_cells g_size g_start g_next g_rset g_wset g_closed g_w g_r set_w set_r set_cells set_start set_next set_rset set_wset w_again w_releasing w_waiting r_releasing r_waiting andb] in *.
Ltac red_fields := cbn [g_cells g_size g_start g_next g_rset g_wset g_closed g_w g_r set_w set_r set_cells set_start set_next set_rset set_wset w_again w_releasing w_waiting r_releasing r_waiting andb] in *.

Ltac split_step H :=
  repeat (match type of H with
    | (match ?x with _ => _ end) = Some _ => destruct x eqn:?; try discriminate H
    | (let '(_, _) := ?x in _) = Some _ => destruct x eqn:?
    end; red_fields).

Lemma step_minv g a g' evs : MInv g -> g_closed g = false -> step g a = Some (g', evs) -> MInv g'.
Proof.
  intros [M1 M2 M3 M4 M5 M6] Hc H. fields g. subst closed.
  destruct a; unfold step, leave_both, w_step, r_step, w_leave, r_leave, r_get in H; red_fields; try discriminate H.
  5,6: destruct wp; try discriminate H; destruct rp; try discriminate H; injection H as <- <-; constructor; red_fields; intuition congruence.
  all: split_step H; injection H as <- <-; constructor; red_fields;
    repeat (match goal with |- context [if ?b then _ else _] => destruct b end; red_fields); try solve [intuition congruence].
  - intros _. split; [reflexivity|]. destruct (r_releasing rp); [specialize (M5 eq_refl); discriminate|reflexivity].
  - intros _. split; [reflexivity|]. destruct (w_releasing wp); [specialize (M2 eq_refl); discriminate|reflexivity].
Qed.

Lemma new_minv size : MInv (New size).
Proof. constructor; cbn; discriminate. Qed.

Lemma closed_mono g a g' evs : step g a = Some (g', evs) -> g_closed g = true -> g_closed g' = true.
Proof.
  intros H Hc. fields g. subst closed.
  destruct a; unfold step, leave_both, w_step, r_step, w_leave, r_leave, r_get in H; red_fields.
  5,6: destruct wp; try (destruct rp; discriminate H); destruct rp; try discriminate H; injection H as <- <-; reflexivity.
  all: split_step H; injection H as <- <-; reflexivity.
Qed.
Lemma run_closed_mono sched : forall g g' evs, run g sched = Some (g', evs) -> g_closed g = true -> g_closed g' = true.
Proof.
  induction sched as [|a sched IH]; intros g g' evs H Hc; cbn [run] in H.
  - injection H as <- <-. exact Hc.
  - destruct (step g a) as [[g1 e1]|] eqn:E; [|discriminate]. destruct (run g1 sched) as [[g2 e2]|] eqn:E2; [|discriminate].
    injection H as <- <-. apply (IH _ _ _ E2). apply (closed_mono _ _ _ _ E Hc).
Qed.
Lemma run_minv sched : forall g g' evs, MInv g -> run g sched = Some (g', evs) -> g_closed g' = false -> MInv g'.
Proof.
  induction sched as [|a sched IH]; intros g g' evs HM H Hc; cbn [run] in H.
  - injection H as <- <-. exact HM.
  - destruct (step g a) as [[g1 e1]|] eqn:E; [|discriminate]. destruct (run g1 sched) as [[g2 e2]|] eqn:E2; [|discriminate].
    injection H as <- <-.
    assert (Hc1 : g_closed g1 = false).
    { destruct (g_closed g1) eqn:F; [|reflexivity]. rewrite (run_closed_mono _ _ _ _ E2 F) in Hc. discriminate. }
    assert (Hc0 : g_closed g = false).
    { destruct (g_closed g) eqn:F; [|reflexivity]. rewrite (closed_mono _ _ _ _ E F) in Hc1. discriminate. }
    apply (IH _ _ _ (step_minv _ _ _ _ HM Hc0 E) E2 Hc).
Qed.

(** Who is blocked in an open ring: exactly the parties inside Wait that nobody
    is releasing. *)
Lemma blocked_iff : forall size sched g evs, run (New size) sched = Some (g, evs) -> g_closed g = false ->
  (w_blocked g <-> g_w g = WCrash \/ exists l, g_w g = WWait_sel l /\ r_releasing (g_r g) = false) /\
  (r_blocked g <-> g_r g = RCrash \/ exists l, g_r g = RWait_sel l /\ w_releasing (g_w g) = false).
Proof.
  intros size sched g evs H Hc. pose proof (run_minv _ _ _ _ (new_minv size) H Hc) as [M1 M2 M3 M4 M5 M6].
  clear H. fields g. subst closed. unfold w_blocked, r_blocked, step, leave_both, w_step, r_step, w_leave, r_leave, r_get. red_fields. split; split.
  - intros (Hn & H1 & _ & H3 & H4). destruct wp; red_fields; try congruence; auto.
    + destruct (w_i l <? w_n l); [|destruct (w_wrote l + 1 <? w_n l); discriminate].
      destruct (index (w_data l) (w_i l)); [|discriminate]. destruct (store cells (w_pos l) z); discriminate.
    + destruct rset; discriminate.
    + specialize (M2 eq_refl). destruct rp; discriminate.
    + destruct wset; discriminate.
    + right. exists l. split; [reflexivity|]. destruct rp; red_fields; congruence.
    + destruct rset; discriminate.
    + specialize (M2 eq_refl). destruct rp; discriminate.
  - intros [E|(l & E & Hr)]; subst wp; red_fields.
    + split; [discriminate|]. repeat split; destruct (r_waiting rp); reflexivity.
    + rewrite Hr. split; [discriminate|]. repeat split; destruct (r_waiting rp); reflexivity.
  - intros (Hn & H1 & _ & H3 & H4). destruct rp; red_fields; try congruence; auto.
    + destruct (r_i l <? r_n l); [|destruct (0 <? r_read l); discriminate].
      destruct (r_pos l =? r_next l); [discriminate|]. destruct (index cells (r_pos l)); [|discriminate]. destruct (r_i l <? r_cap l); discriminate.
    + destruct wset; discriminate.
    + specialize (M5 eq_refl). destruct wp; discriminate.
    + destruct rset; discriminate.
    + right. exists l. split; [reflexivity|]. destruct wp; red_fields; congruence.
    + destruct (index cells (r_pos l)); [|discriminate]. destruct (r_i l <? r_cap l); discriminate.
    + destruct wset; discriminate.
    + specialize (M5 eq_refl). destruct wp; discriminate.
  - intros [E|(l & E & Hr)]; subst rp; red_fields.
    + split; [discriminate|]. repeat split; destruct (w_waiting wp); reflexivity.
    + rewrite Hr. split; [discriminate|]. repeat split; destruct (w_waiting wp); reflexivity.
Qed.

(** ** Wake-ups *)
(** No new call of the writer (reader), no Close. *)
Definition no_wcall (a : label) : Prop := match a with WCall _ _ | CloseCall => False | _ => True end.
Definition no_rcall (a : label) : Prop := match a with RCall _ _ | CloseCall => False | _ => True end.

(** The writer is inside a call that has not released readLock yet, while the
    reader waits; or it is releasing it. *)
Definition will_release (g : ring) : Prop :=
  g_closed g = false /\ r_waiting (g_r g) = true /\
  ((g_rset g = true /\
     match g_w g with
     | WLoadNext _ n | WLoadStart _ n _ => 2 <= n
     | WLoop l => w_wrote l = 0 /\ 2 <= w_n l
     | WFullStore _ | WFullRelease _ | WEndRelease _ | WCrash => True
     | _ => False
     end) \/ w_releasing (g_w g) = true).

Lemma will_release_step g a g' evs : will_release g -> no_wcall a -> a <> SyncRead ->
  step g a = Some (g', evs) -> will_release g'.
Proof.
  intros (Hc & Hr & Hw) Ha Hs H. fields g. subst closed.
  destruct rp; try discriminate Hr. unfold will_release.
  destruct a; try contradiction; try congruence; unfold step, leave_both, w_step, r_step, w_leave, r_leave, r_get in H; red_fields;
    try discriminate H.
  - destruct Hw as [[-> Hw]|Hw].
    + destruct wp; try contradiction; try discriminate H; split_step H; injection H as <- <-; red_fields; cbn [w_wrote w_n w_i] in *; (split; [reflexivity|]); (split; [reflexivity|]); try (left; split; [reflexivity|]; auto; fail).
      * left. split; [reflexivity|]. red_fields. destruct (incr (incr (w_pos l0) gsize) gsize =? w_start l0); [exact I|]. cbn [w_wrote w_n]. exact Hw.
      * exfalso. apply Z.ltb_ge in Heqb0. lia.
      * right. reflexivity.
      * right. reflexivity.
    + destruct wp; try discriminate Hw; discriminate H.
  - destruct wp; red_fields; try discriminate H.
Qed.

Lemma run_until sched (P : ring -> Prop) (ok : label -> Prop) (bad : label) :
  (forall g a g' evs, P g -> ok a -> a <> bad -> step g a = Some (g', evs) -> P g') ->
  forall g g' evs, P g -> Forall ok sched -> run g sched = Some (g', evs) -> ~ P g' -> In bad sched.
Proof.
  intros Hstep. induction sched as [|a sched IH]; intros g g' evs HP Hok Hrun HnP; cbn [run] in Hrun.
  - injection Hrun as <- <-. contradiction.
  - inversion Hok as [|? ? Ha Hrest]; subst. destruct (step g a) as [[g1 e1]|] eqn:E; [|discriminate].
    destruct (run g1 sched) as [[g2 e2]|] eqn:E2; [|discriminate]. injection Hrun as <- <-.
    assert (D : a = bad \/ a <> bad).
    { destruct a; destruct bad; try (right; discriminate); try (left; reflexivity).
      - destruct (list_eq_dec Z.eq_dec data data0) as [->|]; [|right; congruence]. destruct (Z.eq_dec n n0) as [->|]; [left; reflexivity|right; congruence].
      - destruct (Z.eq_dec cap cap0) as [->|]; [|right; congruence]. destruct (Z.eq_dec n n0) as [->|]; [left; reflexivity|right; congruence]. }
    destruct D as [->|D]; [left; reflexivity|right]. apply (IH g1 g2 e2); try assumption. apply (Hstep g a g1 e1); assumption.
Qed.

Lemma write_wakes : forall size sched0 g evs0, run (New size) sched0 = Some (g, evs0) -> g_closed g = false ->
  r_waiting (g_r g) = true -> g_w g = WIdle ->
  forall data n sched g' evs, 2 <= n -> Forall no_wcall sched ->
  run g (WCall data n :: sched) = Some (g', evs) -> g_w g' = WIdle -> In SyncRead sched.
Proof.
  intros size sched0 g evs0 H0 Hc Hr Hw data n sched g' evs Hn Hno Hrun Hw'.
  pose proof (run_minv _ _ _ _ (new_minv size) H0 Hc) as M. cbn [run step] in Hrun. rewrite Hw in Hrun.
  destruct (run (set_w g (WLoadNext data n)) sched) as [[g2 e2]|] eqn:E; [|discriminate]. injection Hrun as <- <-.
  apply (run_until sched will_release no_wcall SyncRead will_release_step (set_w g (WLoadNext data n)) g2 e2); try assumption.
  - unfold will_release. cbn [set_w g_closed g_r g_rset g_w]. split; [exact Hc|]. split; [exact Hr|].
    left. split; [|exact Hn]. destruct (m_rwait g M Hr) as [F|F]; [exact F|]. rewrite Hw in F. discriminate.
  - intros (_ & _ & [[_ F]|F]); rewrite Hw' in F; [exact F|discriminate].
Qed.

Definition will_free (g : ring) : Prop :=
  g_closed g = false /\ w_waiting (g_w g) = true /\
  ((g_wset g = true /\
     match g_r g with
     | RLoadStart _ n | RLoadNext _ n _ => 1 <= n
     | RLoop l => 1 <= r_n l /\ r_read l = r_i l /\ 0 <= r_i l
     | REmptyLoad l | RWait l | RWait_sel l | RGet l => 1 <= r_n l /\ r_read l = r_i l /\ 0 <= r_i l
     | REmptyRelease _ | REndRelease _ | RCrash => True
     | _ => False
     end) \/ r_releasing (g_r g) = true).

Lemma will_free_step g a g' evs : will_free g -> no_rcall a -> a <> SyncWrite ->
  step g a = Some (g', evs) -> will_free g'.
Proof.
  intros (Hc & Hw & Hr) Ha Hs H. fields g. subst closed.
  destruct wp; try discriminate Hw. unfold will_free.
  destruct a; try contradiction; try congruence; unfold step, leave_both, w_step, r_step, w_leave, r_leave, r_get in H; red_fields;
    try discriminate H.
  - destruct Hr as [[-> Hr]|Hr].
    + destruct rp; try contradiction; try discriminate H; split_step H; injection H as <- <-; red_fields; cbn [r_read r_n r_i] in *; (split; [reflexivity|]); (split; [reflexivity|]);
       try (left; split; [reflexivity|]; auto; lia); try (right; reflexivity);
       try (exfalso; repeat match goal with H : (_ <? _) = false |- _ => apply Z.ltb_ge in H end; lia).
      * left. split; [reflexivity|]. destruct (0 <? r_read l0); red_fields; auto.
      * left. split; [reflexivity|]. destruct (r_pos l0 =? next); red_fields; cbn [r_read r_n r_i]; auto.
    + destruct rp; try discriminate Hr; discriminate H.
  - destruct rp; red_fields; try discriminate H.
Qed.

Lemma read_wakes : forall size sched0 g evs0, run (New size) sched0 = Some (g, evs0) -> g_closed g = false ->
  w_waiting (g_w g) = true -> g_r g = RIdle ->
  forall cap n sched g' evs, 1 <= n -> Forall no_rcall sched ->
  run g (RCall cap n :: sched) = Some (g', evs) -> g_r g' = RIdle -> In SyncWrite sched.
Proof.
  intros size sched0 g evs0 H0 Hc Hw Hr cap n sched g' evs Hn Hno Hrun Hr'.
  pose proof (run_minv _ _ _ _ (new_minv size) H0 Hc) as M. cbn [run step] in Hrun. rewrite Hr in Hrun.
  destruct (run (set_r g (RLoadStart cap n)) sched) as [[g2 e2]|] eqn:E; [|discriminate]. injection Hrun as <- <-.
  apply (run_until sched will_free no_rcall SyncWrite will_free_step (set_r g (RLoadStart cap n)) g2 e2); try assumption.
  - unfold will_free. cbn [set_r g_closed g_w g_wset g_r]. split; [exact Hc|]. split; [exact Hw|].
    left. split; [|exact Hn]. destruct (m_wwait g M Hw) as [F|F]; [exact F|]. rewrite Hr in F. discriminate.
  - intros (_ & _ & [[_ F]|F]); rewrite Hr' in F; [exact F|discriminate].
Qed.

(** ** Closing *)

(** Upper bound of the number of moves left in the call. *)
Definition w_left (p : wpc) : Z :=
  match p with
  | WIdle | WCrash => 0
  | WLoadNext _ n => 7 * Z.max 0 n + 5
  | WLoadStart _ n _ => 7 * Z.max 0 n + 4
  | WLoop l => 7 * Z.max 0 (w_n l - w_i l) + 3
  | WFullStore l => 7 * Z.max 0 (w_n l - w_i l - 1) + 9
  | WFullRelease l => 7 * Z.max 0 (w_n l - w_i l - 1) + 8
  | WFullRelease_sel l => 7 * Z.max 0 (w_n l - w_i l - 1) + 7
  | WFullLoad l => 7 * Z.max 0 (w_n l - w_i l - 1) + 6
  | WWait l => 7 * Z.max 0 (w_n l - w_i l - 1) + 5
  | WWait_sel l => 7 * Z.max 0 (w_n l - w_i l - 1) + 4
  | WEndRelease _ => 2
  | WEndRelease_sel _ => 1
  end.
Definition r_left (p : rpc) : Z :=
  match p with
  | RIdle | RCrash => 0
  | RLoadStart _ n => 7 * Z.max 0 n + 5
  | RLoadNext _ n _ => 7 * Z.max 0 n + 4
  | RLoop l => 7 * Z.max 0 (r_n l - r_i l) + 3
  | REmptyRelease l => 7 * Z.max 0 (r_n l - r_i l - 1) + 9
  | REmptyRelease_sel l => 7 * Z.max 0 (r_n l - r_i l - 1) + 8
  | REmptyLoad l => 7 * Z.max 0 (r_n l - r_i l - 1) + 7
  | RWait l => 7 * Z.max 0 (r_n l - r_i l - 1) + 6
  | RWait_sel l => 7 * Z.max 0 (r_n l - r_i l - 1) + 5
  | RGet l => 7 * Z.max 0 (r_n l - r_i l - 1) + 4
  | REndRelease _ => 2
  | REndRelease_sel _ => 1
  end.
Lemma w_left_nonneg p : 0 <= w_left p.
Proof. destruct p; cbn [w_left r_left]; lia. Qed.
Lemma r_left_nonneg p : 0 <= r_left p.
Proof. destruct p; cbn [w_left r_left]; lia. Qed.

Ltac finish_left := cbn [w_left r_left w_n w_i r_n r_i w_again] in *;
  repeat (match goal with |- context [if ?b then _ else _] => destruct b eqn:? end; cbn [w_left r_left w_n w_i r_n r_i w_again] in * );
  repeat match goal with H : (_ <? _) = true |- _ => apply Z.ltb_lt in H | H : (_ <? _) = false |- _ => apply Z.ltb_ge in H end; lia.

Definition b2z (b : bool) : Z := if b then 1 else 0.

(** Every move of a call uses up one of them. *)
Lemma left_step g a g' evs : step g a = Some (g', evs) ->
  (match a with WCall _ _ => True | _ => w_left (g_w g') + b2z (w_moves a) <= w_left (g_w g) end) /\
  (match a with RCall _ _ => True | _ => r_left (g_r g') + b2z (r_moves a) <= r_left (g_r g) end).
Proof.
  intros H. fields g.
  destruct a; unfold step, leave_both, w_step, r_step, w_leave, r_leave, r_get in H; red_fields; cbn [w_moves r_moves b2z].
  5,6: destruct wp; try (destruct rp; discriminate H); destruct rp; try discriminate H; injection H as <- <-; red_fields; split; finish_left.
  all: split_step H; injection H as <- <-; red_fields; split; try exact I; finish_left.
Qed.

Fixpoint count (f : label -> bool) (sched : list label) : Z :=
  match sched with [] => 0 | a :: rest => b2z (f a) + count f rest end.
Definition is_wcall (a : label) : Prop := match a with WCall _ _ => True | _ => False end.
Definition is_rcall (a : label) : Prop := match a with RCall _ _ => True | _ => False end.

Lemma w_moves_bound sched : forall g g' evs, run g sched = Some (g', evs) -> Forall (fun a => ~ is_wcall a) sched ->
  w_left (g_w g') + count w_moves sched <= w_left (g_w g).
Proof.
  induction sched as [|a sched IH]; intros g g' evs H Hno; cbn [run count] in *.
  - injection H as <- <-. lia.
  - inversion Hno as [|? ? Ha Hrest]; subst. destruct (step g a) as [[g1 e1]|] eqn:E; [|discriminate].
    destruct (run g1 sched) as [[g2 e2]|] eqn:E2; [|discriminate]. injection H as <- <-.
    specialize (IH _ _ _ E2 Hrest). pose proof (proj1 (left_step _ _ _ _ E)) as L. destruct a; cbn [is_wcall] in Ha; try tauto; lia.
Qed.
Lemma r_moves_bound sched : forall g g' evs, run g sched = Some (g', evs) -> Forall (fun a => ~ is_rcall a) sched ->
  r_left (g_r g') + count r_moves sched <= r_left (g_r g).
Proof.
  induction sched as [|a sched IH]; intros g g' evs H Hno; cbn [run count] in *.
  - injection H as <- <-. lia.
  - inversion Hno as [|? ? Ha Hrest]; subst. destruct (step g a) as [[g1 e1]|] eqn:E; [|discriminate].
    destruct (run g1 sched) as [[g2 e2]|] eqn:E2; [|discriminate]. injection H as <- <-.
    specialize (IH _ _ _ E2 Hrest). pose proof (proj2 (left_step _ _ _ _ E)) as L. destruct a; cbn [is_rcall] in Ha; try tauto; lia.
Qed.

Lemma w_step_enabled g : match g_w g with WIdle | WCrash | WFullRelease_sel _ | WWait_sel _ | WEndRelease_sel _ => True
  | _ => step g WStep <> None end.
Proof.
  fields g. cbn [step]. unfold w_step. red_fields.
  destruct wp; try exact I; try discriminate; red_fields.
  - destruct (w_i l <? w_n l); [|destruct (w_wrote l + 1 <? w_n l); discriminate].
    destruct (index (w_data l) (w_i l)); [|discriminate]. destruct (store cells (w_pos l) z); discriminate.
  - destruct rset; discriminate.
  - destruct wset; discriminate.
  - destruct rset; discriminate.
Qed.
Lemma r_step_enabled g : match g_r g with RIdle | RCrash | REmptyRelease_sel _ | RWait_sel _ | REndRelease_sel _ => True
  | _ => step g RStep <> None end.
Proof.
  fields g. cbn [step]. unfold r_step, r_get. red_fields.
  destruct rp; try exact I; try discriminate; red_fields.
  - destruct (r_i l <? r_n l); [|destruct (0 <? r_read l); discriminate].
    destruct (r_pos l =? r_next l); [discriminate|]. destruct (index cells (r_pos l)); [|discriminate]. destruct (r_i l <? r_cap l); discriminate.
  - destruct wset; discriminate.
  - destruct rset; discriminate.
  - destruct (index cells (r_pos l)); [|discriminate]. destruct (r_i l <? r_cap l); discriminate.
  - destruct wset; discriminate.
Qed.

Lemma closed_unblocks_writer : forall g, g_closed g = true ->
  exists bound, forall sched g' evs, run g sched = Some (g', evs) -> Forall (fun a => ~ is_wcall a) sched ->
    count w_moves sched <= bound /\
    (g_w g' = WIdle \/ g_w g' = WCrash \/ step g' WStep <> None \/ step g' WDone <> None).
Proof.
  intros g Hc. exists (w_left (g_w g)). intros sched g' evs H Hno. split.
  - pose proof (w_moves_bound _ _ _ _ H Hno). pose proof (w_left_nonneg (g_w g')). lia.
  - pose proof (run_closed_mono _ _ _ _ H Hc) as Hc'. pose proof (w_step_enabled g') as E. cbn [step] in *. rewrite Hc'. unfold w_leave.
    destruct (g_w g'); auto; right; right; right; discriminate.
Qed.
Lemma closed_unblocks_reader : forall g, g_closed g = true ->
  exists bound, forall sched g' evs, run g sched = Some (g', evs) -> Forall (fun a => ~ is_rcall a) sched ->
    count r_moves sched <= bound /\
    (g_r g' = RIdle \/ g_r g' = RCrash \/ step g' RStep <> None \/ step g' RDone <> None).
Proof.
  intros g Hc. exists (r_left (g_r g)). intros sched g' evs H Hno. split.
  - pose proof (r_moves_bound _ _ _ _ H Hno). pose proof (r_left_nonneg (g_r g')). lia.
  - pose proof (run_closed_mono _ _ _ _ H Hc) as Hc'. pose proof (r_step_enabled g') as E. cbn [step] in *. rewrite Hc'. unfold r_leave.
    destruct (g_r g'); auto; right; right; right; discriminate.
Qed.
Lemma call_bounds : forall g,
  (forall data n g1 evs1 sched g' evs, step g (WCall data n) = Some (g1, evs1) -> run g1 sched = Some (g', evs) ->
     Forall (fun a => ~ is_wcall a) sched -> count w_moves sched <= 7 * Z.max 0 n + 5) /\
  (forall cap n g1 evs1 sched g' evs, step g (RCall cap n) = Some (g1, evs1) -> run g1 sched = Some (g', evs) ->
     Forall (fun a => ~ is_rcall a) sched -> count r_moves sched <= 7 * Z.max 0 n + 5).
Proof.
  intros g. split.
  - intros data n g1 evs1 sched g' evs H1 H2 Hno. cbn [step] in H1. destruct (g_w g); try discriminate. injection H1 as <- <-.
    pose proof (w_moves_bound _ _ _ _ H2 Hno) as B. pose proof (w_left_nonneg (g_w g')). cbn [set_w g_w w_left] in B. lia.
  - intros cap n g1 evs1 sched g' evs H1 H2 Hno. cbn [step] in H1. destruct (g_r g); try discriminate. injection H1 as <- <-.
    pose proof (r_moves_bound _ _ _ _ H2 Hno) as B. pose proof (r_left_nonneg (g_r g')). cbn [set_r g_r r_left] in B. lia.
Qed.

(** ** Positions *)
Definition in_range (N x : Z) : Prop := 0 <= x < N.
Definition wPos (N : Z) (p : wpc) : Prop :=
  match p with
  | WIdle => True
  | WLoadNext data n => n <= zlen data
  | WLoadStart data n pos => n <= zlen data /\ in_range N pos
  | WLoop l | WFullStore l | WFullRelease l | WFullRelease_sel l | WFullLoad l | WWait l | WWait_sel l
  | WEndRelease l | WEndRelease_sel l => w_n l <= zlen (w_data l) /\ 0 <= w_i l /\ in_range N (w_pos l)
  | WCrash => False
  end.
Definition rPos (N : Z) (p : rpc) : Prop :=
  match p with
  | RIdle => True
  | RLoadStart cap n => n <= cap
  | RLoadNext cap n pos => n <= cap /\ in_range N pos
  | RLoop l => r_n l <= r_cap l /\ 0 <= r_i l /\ in_range N (r_pos l)
  | REmptyRelease l | REmptyRelease_sel l | REmptyLoad l | RWait l | RWait_sel l | RGet l =>
      r_n l <= r_cap l /\ 0 <= r_i l /\ in_range N (r_pos l) /\ r_i l < r_n l
  | REndRelease l | REndRelease_sel l => in_range N (r_pos l)
  | RCrash => False
  end.
Record PInv (N : Z) (g : ring) : Prop := {
  p_N : 1 <= N < 2 ^ 31;
  p_size : g_size g = N;
  p_cells : zlen (g_cells g) = N;
  p_start : in_range N (g_start g);
  p_next : in_range N (g_next g);
  p_w : wPos N (g_w g);
  p_r : rPos N (g_r g)
}.
Lemma incr_range N x : 1 <= N < 2 ^ 31 -> in_range N x -> in_range N (incr x N).
Proof.
  intros HN Hx. rewrite <- (Z.mod_small x N) by exact Hx. rewrite incr_mod by lia. apply Z.mod_pos_bound. lia.
Qed.

Ltac p_fields := cbn [g_cells g_size g_start g_next g_rset g_wset g_closed g_w g_r set_w set_r set_cells set_start set_next set_rset set_wset w_again wPos rPos w_n w_i w_pos w_data w_start w_wrote r_n r_i r_pos r_cap r_next r_read r_out] in *.

Lemma r_get_pos N g l g' evs : PInv N g -> r_n l <= r_cap l -> 0 <= r_i l -> in_range N (r_pos l) -> r_i l < r_n l ->
  r_get g l = Some (g', evs) -> PInv N g'.
Proof.
  intros [HN Hs Hc H1 H2 Hw Hr] Hcap Hi Hp Hlt H. unfold r_get in H.
  destruct (index_some (g_cells g) (r_pos l)) as [b E]; [rewrite Hc; exact Hp|]. rewrite E in H.
  destruct (Z.ltb_spec (r_i l) (r_cap l)); [|lia]. injection H as <- <-.
  constructor; p_fields; try assumption. rewrite Hs. split; [exact Hcap|]. split; [lia|]. apply incr_range; assumption.
Qed.

Lemma step_pinv N g a g' evs : PInv N g -> legal_call a -> step g a = Some (g', evs) -> PInv N g'.
Proof.
  intros HP Hl H. pose proof HP as [HN Hs Hc H1 H2 Hw Hr]. destruct a; cbn [step] in H.
  - destruct (g_w g); try discriminate. injection H as <- <-. constructor; p_fields; assumption.
  - destruct (g_r g); try discriminate. injection H as <- <-. constructor; p_fields; assumption.
  - unfold w_step in H. destruct (g_w g) eqn:E; try discriminate; p_fields.
    + injection H as <- <-. constructor; p_fields; try assumption. auto.
    + injection H as <- <-. constructor; p_fields; try assumption. destruct Hw. auto with zarith.
    + destruct Hw as (Hn & Hi & Hp). destruct (Z.ltb_spec (w_i l) (w_n l)) as [Hlt|Hge].
      * destruct (index_some (w_data l) (w_i l)) as [b Eb]; [lia|]. rewrite Eb in H.
        destruct (store_some (g_cells g) (w_pos l) b) as [c Ec]; [rewrite Hc; exact Hp|]. rewrite Ec in H.
        injection H as <- <-. constructor; p_fields; try assumption.
        -- rewrite (proj1 (store_zlen _ _ _ _ Ec)). exact Hc.
        -- rewrite Hs. pose proof (incr_range N (w_pos l) HN Hp).
           destruct (incr (incr (w_pos l) N) N =? w_start l); p_fields; auto with zarith.
      * destruct (w_wrote l + 1 <? w_n l); injection H as <- <-; constructor; p_fields; auto.
    + injection H as <- <-. constructor; p_fields; try assumption. tauto.
    + destruct (g_rset g); injection H as <- <-; constructor; p_fields; assumption.
    + injection H as <- <-. constructor; p_fields; try assumption.
      destruct Hw as (Hn & Hi & Hp). destruct (incr (w_pos l) (g_size g) =? g_start g); p_fields; auto with zarith.
    + destruct Hw as (Hn & Hi & Hp). destruct (g_wset g); injection H as <- <-; constructor; p_fields; auto with zarith.
    + destruct (g_rset g); injection H as <- <-; constructor; p_fields; auto.
  - unfold r_step in H. destruct (g_r g) eqn:E; try discriminate; p_fields.
    + injection H as <- <-. constructor; p_fields; try assumption. auto.
    + injection H as <- <-. constructor; p_fields; try assumption. destruct Hr. auto with zarith.
    + destruct Hr as (Hn & Hi & Hp). destruct (Z.ltb_spec (r_i l) (r_n l)) as [Hlt|Hge].
      * destruct (r_pos l =? r_next l); [|apply (r_get_pos N g l g' evs); assumption].
        injection H as <- <-. constructor; p_fields; try assumption. destruct (0 <? r_read l); p_fields; auto.
      * destruct (0 <? r_read l); injection H as <- <-; constructor; p_fields; auto.
    + destruct (g_wset g); injection H as <- <-; constructor; p_fields; assumption.
    + injection H as <- <-. constructor; p_fields; try assumption. destruct (r_pos l =? g_next g); p_fields; assumption.
    + destruct (g_rset g); injection H as <- <-; constructor; p_fields; assumption.
    + destruct Hr as (Hn & Hi & Hp & Hlt). apply (r_get_pos N g l g' evs); assumption.
    + destruct (g_wset g); injection H as <- <-; constructor; p_fields; auto.
  - destruct (r_waiting (g_r g) && w_releasing (g_w g)); [|discriminate]. unfold leave_both, w_leave, r_leave in H.
    destruct (g_w g) eqn:Ew; try discriminate; p_fields; destruct (g_r g) eqn:Er; try discriminate; injection H as <- <-; constructor; p_fields; auto; destruct Hw as (? & ? & ?); auto with zarith.
  - destruct (w_waiting (g_w g) && r_releasing (g_r g)); [|discriminate]. unfold leave_both, w_leave, r_leave in H.
    destruct (g_w g) eqn:Ew; try discriminate; p_fields; destruct (g_r g) eqn:Er; try discriminate; injection H as <- <-; constructor; p_fields; auto; destruct Hw as (? & ? & ?); auto with zarith.
  - destruct (g_closed g); [|discriminate]. unfold w_leave in H.
    destruct (g_w g) eqn:Ew; try discriminate; p_fields; injection H as <- <-; constructor; p_fields; auto; destruct Hw as (? & ? & ?); auto with zarith.
  - destruct (g_closed g); [|discriminate]. unfold r_leave in H.
    destruct (g_r g) eqn:Er; try discriminate; p_fields; injection H as <- <-; constructor; p_fields; auto.
  - injection H as <- <-. constructor; p_fields; assumption.
Qed.

Lemma new_pinv N : 1 <= N < 2 ^ 31 -> PInv N (New N).
Proof.
  intros HN. constructor; p_fields; cbn [New g_size g_cells g_start g_next g_w g_r wPos rPos]; try exact I; unfold in_range; try lia.
  - apply int32_id. unfold is_int32. lia.
  - unfold zlen. rewrite repeat_length. lia.
Qed.
Lemma run_pinv N sched : forall g g' evs, PInv N g -> Forall legal_call sched -> run g sched = Some (g', evs) -> PInv N g'.
Proof.
  induction sched as [|a sched IH]; intros g g' evs HP Hl H; cbn [run] in H.
  - injection H as <- <-. exact HP.
  - inversion Hl as [|? ? Ha Hrest]; subst. destruct (step g a) as [[g1 e1]|] eqn:E; [|discriminate].
    destruct (run g1 sched) as [[g2 e2]|] eqn:E2; [|discriminate]. injection H as <- <-.
    apply (IH _ _ _ (step_pinv _ _ _ _ _ HP Ha E) Hrest E2).
Qed.
Lemma positions : forall size sched g evs, 1 <= size < 2 ^ 31 -> Forall legal_call sched ->
  run (New size) sched = Some (g, evs) ->
  0 <= g_start g < size /\ 0 <= g_next g < size /\ zlen (g_cells g) = size /\ g_w g <> WCrash /\ g_r g <> RCrash.
Proof.
  intros size sched g evs HN Hl H. destruct (run_pinv size sched _ _ _ (new_pinv size HN) Hl H) as [H0 H1 H2 H3 H4 H5 H6].
  split; [exact H3|]. split; [exact H4|]. split; [exact H2|]. split; intros E; rewrite E in *; contradiction.
Qed.

(** Blocked parties, for callers that respect their slices. *)
Lemma deadlock_iff : forall size sched g evs, 1 <= size < 2 ^ 31 -> Forall legal_call sched ->
  run (New size) sched = Some (g, evs) -> g_closed g = false ->
  (w_blocked g <-> w_waiting (g_w g) = true /\ r_releasing (g_r g) = false) /\
  (r_blocked g <-> r_waiting (g_r g) = true /\ w_releasing (g_w g) = false) /\
  (w_releasing (g_w g) = true -> step g SyncRead <> None) /\
  (r_releasing (g_r g) = true -> step g SyncWrite <> None).
Proof.
  intros size sched g evs HN Hl H Hc. destruct (positions size sched g evs HN Hl H) as (_ & _ & _ & Hw & Hr).
  destruct (blocked_iff size sched g evs H Hc) as [B1 B2].
  pose proof (run_minv _ _ _ _ (new_minv size) H Hc) as [M1 M2 M3 M4 M5 M6].
  rewrite B1, B2. clear B1 B2. split; [|split; [|split]].
  - split; [intros [E|(l & E & F)]; [contradiction|rewrite E; auto]|]. intros [E F]. right. destruct (g_w g); try discriminate. eauto.
  - split; [intros [E|(l & E & F)]; [contradiction|rewrite E; auto]|]. intros [E F]. right. destruct (g_r g); try discriminate. eauto.
  - intros E. specialize (M2 E). cbn [step]. rewrite M2, E. unfold leave_both, w_leave, r_leave, set_w.
    destruct (g_w g); try discriminate; cbn; destruct (g_r g); try discriminate.
  - intros E. specialize (M5 E). cbn [step]. rewrite M5, E. unfold leave_both, w_leave, r_leave, set_w.
    destruct (g_w g); try discriminate; cbn; destruct (g_r g); try discriminate.
Qed.
