(** * Callers that obey the rules: no bad wake-up *)
From Verif Require Import GoBase GoLemmas Ring RingSpec RingProofs RingProps RingSeq RaceSpec RaceProofs CallerSpec.
Ltac Zify.zify_post_hook ::= idtac.

(** The invariant.  [S] and [P] are the bytes consumed and published; [t] the totals. *)
Definition wC (N : Z) (t : totals) (S P : Z) (p : wpc) : Prop :=
  match p with
  | WIdle => P = w_called t /\ w_returned t = w_called t
  | WLoadNext _ n => 0 <= n /\ P = w_returned t /\ w_called t = P + n /\ (n = 0 \/ r_called t <= w_called t)
  | WLoadStart _ n pos => 0 <= n /\ P = w_returned t /\ w_called t = P + n /\ (n = 0 \/ r_called t <= w_called t) /\ pos = P mod N
  | WLoop l => P = w_returned t /\ w_called t = P + w_n l /\ (w_n l = 0 \/ r_called t <= w_called t) /\ 0 <= w_i l <= w_n l /\
      w_pos l = (P + w_i l) mod N /\ w_wrote l = 0 /\
      exists Sl, w_start l = Sl mod N /\ Sl <= S /\ w_called t - Sl <= N - 2
  | WEndRelease _ | WEndRelease_sel _ => P = w_called t /\ w_returned t < P /\ r_called t <= P
  | _ => False
  end.
(** What the reader knows of [next]: [V] bytes published; or, once woken, an old value. *)
Definition view (N S P R goal : Z) (next : Z) : Prop :=
  (exists V, next = V mod N /\ R <= V <= P) \/ (next = S mod N /\ S < R /\ goal <= P).
Definition rL (N : Z) (t : totals) (l : rlocal) : Prop :=
  r_called t = r_returned t + r_n l /\ 0 <= r_i l <= r_n l /\ r_pos l = (r_returned t + r_i l) mod N.
Definition rC (N : Z) (t : totals) (S P : Z) (p : rpc) : Prop :=
  match p with
  | RIdle => S = r_called t /\ r_returned t = r_called t
  | RLoadStart _ n => 0 <= n /\ S = r_returned t /\ r_called t = S + n
  | RLoadNext _ n pos => 0 <= n /\ S = r_returned t /\ r_called t = S + n /\ pos = S mod N
  | RLoop l => rL N t l /\ S <= r_returned t + r_i l <= P /\ view N S P (r_returned t + r_i l) (r_called t) (r_next l)
  | REmptyRelease l | REmptyLoad l => rL N t l /\ r_i l < r_n l /\ S = r_returned t + r_i l
  | RWait l | RWait_sel l => rL N t l /\ r_i l < r_n l /\ S = r_returned t + r_i l /\ r_next l = S mod N
  | RGet l => rL N t l /\ r_i l < r_n l /\ S = r_returned t + r_i l /\
      ((exists V, r_next l = V mod N /\ S < V <= P) \/ (r_next l = S mod N /\ r_called t <= P))
  | REndRelease _ => S = r_called t /\ r_returned t <= S
  | _ => False
  end.
Record CInv (N : Z) (t : totals) (g : ring) : Prop := mkC {
  c_size : g_size g = N;
  c_pos : exists S P, g_start g = S mod N /\ g_next g = P mod N /\ r_returned t <= S <= P /\ P <= w_called t /\
            w_called t - S <= N - 2 /\ wC N t S P (g_w g) /\ rC N t S P (g_r g);
  c_rset : g_rset g = true -> r_waiting (g_r g) = true;
  c_rel : w_releasing (g_w g) = true -> r_waiting (g_r g) = true /\ g_rset g = false;
  c_wset : g_wset g = false;
  c_open : g_closed g = false }.

Lemma mod_differ N a b : 2 <= N -> 1 <= a - b <= N - 1 -> a mod N <> b mod N.
Proof. intros HN H E. apply (mod_near N) in E; lia. Qed.

Ltac fields := unfold rL in *; cbn [g_cells g_size g_start g_next g_rset g_wset g_closed g_w g_r set_w set_r set_cells set_start set_next set_rset set_wset w_again w_n w_i w_pos w_data w_start w_wrote r_n r_i r_pos r_cap r_next r_read r_out w_called w_returned r_called r_returned tally called returned fold_left app wC rC w_releasing r_waiting w_waiting r_releasing] in *.
Ltac keep S P := constructor; fields; try assumption; try congruence; try tauto; try (exists S, P; repeat split; fields; try assumption; try lia; tauto).

Lemma wC_mono N t S S' P p : S <= S' -> wC N t S P p -> wC N t S' P p.
Proof.
  intros H. destruct p; cbn [wC]; try tauto. intros (W1 & W2 & W3 & W4 & W5 & W6 & Sl & W7 & W8 & W9).
  repeat (split; [assumption|]). exists Sl. repeat split; try assumption. lia.
Qed.

(** Lines 146-148, with a byte there. *)
Lemma get_inv N t g l S P g' evs : 2 <= N < 2 ^ 31 -> g_size g = N -> g_start g = S mod N -> g_next g = P mod N ->
  r_returned t <= S <= P -> P <= w_called t -> w_called t - S <= N - 2 -> wC N t S P (g_w g) ->
  rL N t l -> r_i l < r_n l -> S <= r_returned t + r_i l < P -> view N S P (r_returned t + (r_i l + 1)) (r_called t) (r_next l) ->
  (g_rset g = true -> False) -> (w_releasing (g_w g) = true -> False) -> g_wset g = false -> g_closed g = false ->
  r_get g l = Some (g', evs) -> g_r g' <> RCrash -> CInv N (fold_left returned evs t) g'.
Proof.
  intros HN Hs HS HP HSP HPw Hroom HW (L1 & L2 & L3) Hlt HR HV Hrs Hrel Hws Hcl H Hc. unfold r_get in H.
  destruct (index (g_cells g) (r_pos l)) as [b|]; [|injection H as <- <-; fields; congruence].
  destruct (r_i l <? r_cap l); [|injection H as <- <-; fields; congruence]. injection H as <- <-. fields.
  constructor; fields; try assumption.
  - exists S, P. fields. split; [exact HS|]. split; [exact HP|]. split; [exact HSP|]. split; [exact HPw|]. split; [exact Hroom|].
    split; [exact HW|]. split; [|split; [destruct HR; lia|exact HV]].
    unfold rL. fields. split; [exact L1|]. split; [lia|]. rewrite Hs, L3, incr_mod by lia. f_equal. lia.
  - intros K. destruct (Hrs K).
  - intros K. destruct (Hrel K).
Qed.

Lemma caller_step N t g a g' evs : 2 <= N < 2 ^ 31 -> CInv N t g -> (forall r, In r rules -> obeys r N t a = true) ->
  step g a = Some (g', evs) -> g_w g' <> WCrash -> g_r g' <> RCrash ->
  good_wake g a /\ CInv N (tally t a evs) g'.
Proof.
  intros HN HI Ho H Hw Hr. destruct HI as [Hs (S & P & HS & HP & HSP & HPw & Hroom & HW & HR) Hrs Hrel Hws Hcl].
  assert (GW : reader_wakes g a = None -> writer_wakes g a = None -> good_wake g a).
  { intros E1 E2. unfold good_wake. rewrite E1, E2. split; discriminate. }
  assert (HnP : forall x y, 1 <= x - y <= N - 1 -> (x mod N =? y mod N) = false).
  { intros x y D. apply Z.eqb_neq, mod_differ; lia. }
  destruct a as [data n|cap n| | | | | | |]; cbn [step] in H.
  - (* WCall *)
    pose proof (Ho Enough ltac:(cbn; tauto)) as O1. pose proof (Ho Fits ltac:(cbn; tauto)) as O2. cbn [obeys] in O1, O2.
    apply andb_prop in O1 as [O1 O3]. apply Z.leb_le in O1, O2, O3.
    destruct (g_w g) eqn:E; try discriminate. injection H as <- <-. fields.
    split; [apply GW; unfold reader_wakes, writer_wakes; rewrite ?E; destruct (g_r g); reflexivity|].
    destruct HW as [-> HW]. constructor; fields; try assumption; try discriminate.
    exists S, (w_called t). repeat split; try assumption; try lia.
  - (* RCall *)
    pose proof (Ho Settled ltac:(cbn; tauto)) as O1. cbn [obeys] in O1. apply andb_prop in O1 as [O1 O3]. apply Z.leb_le in O1.
    apply Bool.orb_prop in O3. rewrite Z.eqb_eq, Z.leb_le in O3.
    destruct (g_r g) eqn:E; try discriminate. injection H as <- <-. fields.
    split; [apply GW; unfold reader_wakes, writer_wakes; rewrite ?E; destruct (g_w g); reflexivity|].
    destruct HR as [-> HR]. constructor; fields; try assumption.
    exists (r_called t), P. repeat split; try assumption; try lia.
    destruct (g_w g); fields; try assumption; intuition lia.
  - (* WStep *)
    unfold w_step in H. destruct (g_w g) eqn:E; try discriminate; try contradiction; fields.
    + injection H as <- <-. fields. split; [apply GW; unfold reader_wakes, writer_wakes; rewrite ?E; destruct (g_r g); reflexivity|].
      constructor; fields; try assumption; try discriminate. exists S, P. fields. repeat split; try assumption; try lia; tauto.
    + injection H as <- <-. fields. split; [apply GW; unfold reader_wakes, writer_wakes; rewrite ?E; destruct (g_r g); reflexivity|].
      constructor; fields; try assumption; try discriminate. exists S, P. fields. repeat split; try assumption; try lia; try tauto.
      * replace (P + 0) with P by lia. tauto.
      * exists S. repeat split; try assumption; lia.
    + split; [apply GW; unfold reader_wakes, writer_wakes; rewrite ?E; destruct (g_r g); reflexivity|].
      destruct HW as (W1 & W2 & W3 & W4 & W5 & W6 & Sl & W7 & W8 & W9).
      destruct (Z.ltb_spec (w_i l) (w_n l)) as [Hlt|Hge].
      * destruct (index (w_data l) (w_i l)) as [b|]; [|injection H as <- <-; fields; congruence].
        destruct (store (g_cells g) (w_pos l) b) as [cells|]; [|injection H as <- <-; fields; congruence].
        rewrite Hs, W5, W7, !incr_mod, HnP in H by lia. injection H as <- <-. fields.
        constructor; fields; try assumption; try discriminate. exists S, P. fields.
        repeat split; try assumption; try lia.
        -- f_equal. lia.
        -- exists Sl. repeat split; try assumption; lia.
      * assert (Ei : w_i l = w_n l) by lia. rewrite W6, W5, Ei in H. rewrite <- W2 in H.
        assert (HRP : rC N t S (w_called t) (g_r g)).
        { destruct (g_r g); fields; try assumption.
          - destruct HR as (R1 & R2 & R3). split; [exact R1|]. split; [lia|]. destruct R3 as [(V & R4 & R5)|R3].
            + left. exists V. split; [exact R4|lia].
            + right. intuition lia.
          - destruct HR as (R1 & R2 & R3 & R4). split; [exact R1|]. split; [exact R2|]. split; [exact R3|].
            destruct R4 as [(V & R4 & R5)|R4].
            + left. exists V. split; [exact R4|lia].
            + right. intuition lia. }
        destruct (0 + 1 <? w_n l) eqn:En; injection H as <- <-; fields.
        -- apply Z.ltb_lt in En. constructor; fields; try assumption; try discriminate.
           exists S, (w_called t). fields. repeat split; try assumption; try lia.
        -- apply Z.ltb_ge in En. constructor; fields; try assumption; try discriminate.
           exists S, (w_called t). fields. repeat split; try assumption; try lia.
          
    + split; [apply GW; unfold reader_wakes, writer_wakes; rewrite ?E; destruct (g_r g); reflexivity|].
      destruct (g_rset g) eqn:Ers; injection H as <- <-; fields.
      * constructor; fields; try assumption; try discriminate; [|auto].
        exists S, P. fields. repeat split; try assumption; try lia.
      * constructor; fields; try assumption; try discriminate; try congruence.
        exists S, P. fields. repeat split; try assumption; try lia.
  - (* RStep *)
    unfold r_step in H. destruct (g_r g) eqn:E; try discriminate; try contradiction; fields.
    + injection H as <- <-. fields. split; [apply GW; unfold reader_wakes, writer_wakes; rewrite ?E; destruct (g_w g); reflexivity|].
      constructor; fields; try assumption. exists S, P. fields. repeat split; try assumption; try lia; try tauto.
    + injection H as <- <-. fields. split; [apply GW; unfold reader_wakes, writer_wakes; rewrite ?E; destruct (g_w g); reflexivity|].
      destruct HR as (R1 & R2 & R3 & R4).
      constructor; fields; try assumption. exists S, P. fields. repeat split; try assumption; try lia.
      * rewrite R4. f_equal. lia.
      * left. exists P. split; [exact HP|lia].
    + split; [apply GW; unfold reader_wakes, writer_wakes; rewrite ?E; destruct (g_w g); reflexivity|].
      destruct HR as (R1 & R2 & R3). pose proof R1 as (L1 & L2 & L3).
      destruct (Z.ltb_spec (r_i l) (r_n l)) as [Hlt|Hge].
      * destruct (Z.eqb_spec (r_pos l) (r_next l)) as [En|En].
        -- assert (CInv N t (set_r (set_start g (r_pos l)) (REmptyRelease l)) /\
                   CInv N t (set_r (set_start g (r_pos l)) (REmptyLoad l))) as [HA HB].
           { assert (HW' : wC N t (r_returned t + r_i l) P (g_w g)) by (apply (wC_mono N t S); [lia|exact HW]).
             split; (constructor; fields; try assumption;
               exists (r_returned t + r_i l), P; fields;
               split; [exact L3|]; split; [exact HP|]; split; [lia|]; split; [lia|]; split; [lia|]; split; [exact HW'|];
               split; [exact R1|]; split; [exact Hlt|reflexivity]). }
           injection H as <- <-. cbn [count called fold_left]. destruct (0 <? r_read l); assumption.
        -- refine (get_inv N t g l S P g' evs HN Hs HS HP HSP HPw Hroom HW R1 Hlt _ _ _ _ Hws Hcl H Hr).
           ++ destruct R3 as [(V & R3 & R4)|(R3 & R4 & R5)]; [|lia].
              assert (r_returned t + r_i l <> V) by (intros K; apply En; rewrite L3, R3, K; reflexivity). lia.
           ++ destruct R3 as [(V & R3 & R4)|(R3 & R4 & R5)]; [left|right].
              ** exists V. split; [exact R3|].
                 assert (r_returned t + r_i l <> V) by (intros K; apply En; rewrite L3, R3, K; reflexivity). lia.
              ** repeat split; try assumption; lia.
           ++ intros K. apply Hrs in K. discriminate.
           ++ intros K. apply Hrel in K. destruct K. discriminate.
      * assert (Ei : r_i l = r_n l) by lia. rewrite L3, Ei, <- L1 in H.
        assert (HW' : wC N t (r_called t) P (g_w g)) by (apply (wC_mono N t S); [lia|exact HW]).
        destruct (0 <? r_read l); injection H as <- <-; fields.
        -- constructor; fields; try assumption. exists (r_called t), P. fields. repeat split; try assumption; lia.
        -- constructor; fields; try assumption. exists (r_called t), P. fields. repeat split; try assumption; lia.
    + split; [apply GW; unfold reader_wakes, writer_wakes; rewrite ?E; destruct (g_w g); reflexivity|].
      rewrite Hws in H. injection H as <- <-. fields. constructor; fields; try assumption. exists S, P. fields. repeat split; try assumption; try lia; tauto.
    + split; [apply GW; unfold reader_wakes, writer_wakes; rewrite ?E; destruct (g_w g); reflexivity|].
      destruct HR as (R1 & R2 & R3). pose proof R1 as (L1 & L2 & L3). rewrite <- R3 in L3.
      destruct (Z.eqb_spec (r_pos l) (g_next g)) as [En|En]; injection H as <- <-; fields.
      * constructor; fields; try assumption. exists S, P. fields. repeat split; try assumption; try lia.
      * constructor; fields; try assumption. exists S, P. fields. repeat split; try assumption; try lia.
        left. exists P. split; [exact HP|].
        assert (S <> P) by (intros K; apply En; rewrite L3, HP, K; reflexivity). lia.
    + destruct (g_rset g) eqn:Ers; [specialize (Hrs eq_refl); discriminate|].
      split; [apply GW; unfold reader_wakes, writer_wakes; rewrite ?E, ?Ers; destruct (g_w g); reflexivity|].
      injection H as <- <-. fields. constructor; fields; try assumption; try reflexivity.
      * exists S, P. fields. repeat split; try assumption; try lia; tauto.
      * intros K. apply Hrel in K. destruct K. discriminate.
    + split; [apply GW; unfold reader_wakes, writer_wakes; rewrite ?E; destruct (g_w g); reflexivity|].
      destruct HR as (R1 & R2 & R3 & R4). pose proof R1 as (L1 & L2 & L3).
      refine (get_inv N t g l S P g' evs HN Hs HS HP HSP HPw Hroom HW R1 R2 _ _ _ _ Hws Hcl H Hr).
      * destruct R4 as [(V & R4 & R5)|(R4 & R5)]; lia.
      * destruct R4 as [(V & R4 & R5)|(R4 & R5)]; [left; exists V; split; [exact R4|lia]|right].
        repeat split; try assumption; lia.
      * intros K. apply Hrs in K. discriminate.
      * intros K. apply Hrel in K. destruct K. discriminate.
    + split; [apply GW; unfold reader_wakes, writer_wakes; rewrite ?E; destruct (g_w g); reflexivity|].
      rewrite Hws in H. injection H as <- <-. fields. constructor; fields; try assumption. exists S, P. fields. repeat split; try assumption; try lia; tauto.
  - (* SyncRead *)
    destruct (r_waiting (g_r g) && w_releasing (g_w g)) eqn:Eg; [|discriminate]. apply andb_prop in Eg as [Er Ew].
    destruct (g_w g) eqn:E1; try discriminate; try contradiction. destruct (g_r g) eqn:E2; try discriminate; try contradiction.
    fields. destruct HR as (R1 & R2 & R3 & R4). pose proof R1 as (L1 & L2 & L3).
    unfold leave_both, w_leave in H. rewrite E1 in H. unfold r_leave in H. fields. rewrite E2 in H. injection H as <- <-. fields.
    split.
    + unfold good_wake, reader_wakes, writer_wakes. rewrite E1, E2. split; [|discriminate].
      intros k K. injection K as <-. rewrite (occupancy_eq N g S P); try assumption; lia.
    + constructor; fields; try assumption; try discriminate.
      * exists S, P. fields. repeat split; try assumption; try lia.
      * destruct (Hrel eq_refl) as [_ K]. rewrite K. discriminate.
  - (* SyncWrite *)
    destruct (g_w g); cbn in H; try discriminate; contradiction.
  - rewrite Hcl in H. discriminate.
  - rewrite Hcl in H. discriminate.
  - specialize (Ho NoClose ltac:(cbn; tauto)). discriminate.
Qed.

Lemma new_cinv N : 2 <= N < 2 ^ 31 -> CInv N no_calls (New N).
Proof.
  intros HN. constructor; cbn [New g_size g_start g_next g_w g_r g_rset g_wset g_closed no_calls wC rC w_called w_returned r_called r_returned w_releasing]; try discriminate; try reflexivity.
  - apply int32_id. unfold is_int32. lia.
  - exists 0, 0. repeat split; lia.
Qed.

Lemma step_no_crash N g a g' evs : PInv N g -> legal_call a -> step g a = Some (g', evs) -> g_w g' <> WCrash /\ g_r g' <> RCrash.
Proof.
  intros HP Ha E. destruct (step_pinv N g a g' evs HP Ha E) as [_ _ _ _ _ H5 H6].
  split; intros K; rewrite K in *; contradiction.
Qed.

(** A property [K] kept by the steps that obey the rules in [rs]. *)
Lemma caller_run (K : totals -> ring -> Prop) (rs : list rule) N sched : 2 <= N < 2 ^ 31 -> incl rules rs ->
  (forall t g a g' evs, CInv N t g -> CInv N (tally t a evs) g' -> (forall r, In r rs -> obeys r N t a = true) ->
     step g a = Some (g', evs) -> K t g -> K (tally t a evs) g') ->
  forall t g g' evs, CInv N t g -> PInv N g -> K t g -> Forall legal_call sched ->
  (forall r, In r rs -> follows r N t g sched = true) -> run g sched = Some (g', evs) ->
  all_steps good_wake g sched /\ exists t', CInv N t' g' /\ K t' g'.
Proof.
  intros HN Hrs HK. induction sched as [|a sched IH]; intros t g g' evs HC HP HKt Hl Hf H; cbn [all_steps].
  { injection H as <- <-. split; [exact I|]. exists t. auto. }
  inversion Hl as [|? ? Ha Hrest]; subst. cbn [run] in H.
  destruct (step g a) as [[g1 e1]|] eqn:E; [|discriminate].
  destruct (run g1 sched) as [[g2 e2]|] eqn:E2; [|discriminate]. injection H as <- <-.
  assert (Ho : forall r, In r rs -> obeys r N t a = true /\ follows r N (tally t a e1) g1 sched = true).
  { intros r Hin. specialize (Hf r Hin). cbn [follows] in Hf. rewrite E in Hf. apply andb_prop, Hf. }
  destruct (step_no_crash N g a g1 e1 HP Ha E) as [Hw Hr].
  destruct (caller_step N t g a g1 e1 HN HC (fun r Hin => proj1 (Ho r (Hrs r Hin))) E Hw Hr) as [Hg HC1].
  assert (HK1 : K (tally t a e1) g1).
  { apply (HK t g a g1 e1 HC HC1); try assumption. intros r Hin. apply (Ho r Hin). }
  destruct (IH _ _ g2 e2 HC1 (step_pinv N g a g1 e1 HP Ha E) HK1 Hrest (fun r Hin => proj2 (Ho r Hin)) E2) as [H1 H2].
  split; [split; assumption|exact H2].
Qed.

Lemma follows_no_close size sched : forall t g g' evs, follows NoClose size t g sched = true ->
  run g sched = Some (g', evs) -> ~ In CloseCall sched.
Proof.
  induction sched as [|a sched IH]; intros t g g' evs Hf H; cbn [In]; [tauto|].
  cbn [follows] in Hf. apply andb_prop in Hf as [Ho Hf]. cbn [run] in H.
  destruct (step g a) as [[g1 e1]|]; [|discriminate]. destruct (run g1 sched) as [[g2 e2]|] eqn:E2; [|discriminate].
  intros [->|K]; [discriminate|]. apply (IH _ _ g2 e2 Hf E2 K).
Qed.

(** The writer is never stuck. *)
Lemma writer_not_blocked N t g : CInv N t g -> ~ w_blocked g.
Proof.
  intros [Hs (S & P & _ & _ & _ & _ & _ & HW & _) Hrs Hrel _ _] (B1 & B2 & B3 & B4 & B5). cbn [step] in B2, B4. unfold w_step in B2.
  destruct (g_w g) eqn:E; cbn [wC] in HW; try contradiction; try discriminate.
  - destruct (w_i l <? w_n l); [|destruct (w_wrote l + 1 <? w_n l); discriminate].
    destruct (index _ _); [|discriminate]. destruct (store _ _ _); discriminate.
  - destruct (g_rset g); discriminate.
  - destruct (Hrel eq_refl) as [K _]. rewrite K in B4. cbn [w_releasing andb] in B4.
    unfold leave_both, w_leave in B4. rewrite E in B4. unfold r_leave in B4. cbn [set_w g_r] in B4.
    destruct (g_r g); discriminate.
Qed.

Lemma callers_safe : forall size sched g evs, 2 <= size < 2 ^ 31 -> Forall legal_call sched ->
  (forall r, In r rules -> follows r size no_calls (New size) sched = true) -> run (New size) sched = Some (g, evs) ->
  all_steps good_wake (New size) sched /\ ~ w_blocked g.
Proof.
  intros size sched g evs HN Hl Hf H.
  destruct (caller_run (fun _ _ => True) rules size sched HN (incl_refl _) (fun _ _ _ _ _ _ _ _ _ _ => I)
    no_calls (New size) g evs (new_cinv size HN) (new_pinv size ltac:(lia)) I Hl Hf H) as [H1 (t & H2 & _)].
  split; [exact H1|]. apply (writer_not_blocked size t g H2).
Qed.

Lemma callers_fifo : forall size sched g evs, 2 <= size < 2 ^ 31 -> Forall legal_call sched ->
  (forall r, In r rules -> follows r size no_calls (New size) sched = true) -> run (New size) sched = Some (g, evs) ->
  prefix (delivered evs) (written evs) /\
  (g_w g = WIdle -> g_r g = RIdle -> written evs = delivered evs ++ contents g) /\
  ~ race (trace (New size) sched) /\ ~ w_blocked g.
Proof.
  intros size sched g evs HN Hl Hf H. destruct (callers_safe size sched g evs HN Hl Hf H) as [Hg Hb].
  split; [apply (ring_fifo size sched g evs); assumption|].
  split; [apply (ring_complete size sched g evs); assumption|]. split; [|exact Hb].
  apply (ring_race_free size sched g evs); try assumption.
  apply (follows_no_close size sched no_calls (New size) g evs (Hf NoClose ltac:(cbn; tauto)) H).
Qed.

(** ** Reads of what is there *)
Definition unwaiting (t : totals) (g : ring) : Prop :=
  r_called t <= w_returned t /\ match g_r g with RWait _ | RWait_sel _ => False | _ => True end.
Lemma unwaiting_step N t g a g' evs : 2 <= N -> CInv N t g -> CInv N (tally t a evs) g' ->
  (forall r, In r (Ready :: rules) -> obeys r N t a = true) ->
  step g a = Some (g', evs) -> unwaiting t g -> unwaiting (tally t a evs) g'.
Proof.
  intros HN [Hs (S & P & HS & HP & HSP & HPw & Hroom & HW & HR) Hrs Hrel Hws Hcl] _ Ho H [U1 U2]. unfold unwaiting.
  assert (HwP : w_returned t <= P).
  { destruct (g_w g); cbn [wC] in HW; try contradiction; lia. }
  destruct a as [data n|cap n| | | | | | |]; cbn [step] in H.
  - destruct (g_w g) eqn:E; try discriminate. injection H as <- <-. fields. split; assumption.
  - pose proof (Ho Ready ltac:(cbn; tauto)) as O. cbn [obeys] in O. apply andb_prop in O as [_ O]. apply Z.leb_le in O.
    destruct (g_r g) eqn:E; try discriminate. injection H as <- <-. fields. split; [lia|exact I].
  - unfold w_step in H. destruct (g_w g) eqn:E; try discriminate; try contradiction; fields.
    + injection H as <- <-. fields. split; assumption.
    + injection H as <- <-. fields. split; assumption.
    + destruct (w_i l <? w_n l).
      * destruct (index _ _); [|injection H as <- <-; fields; split; assumption].
        destruct (store _ _ _); injection H as <- <-; fields; split; assumption.
      * destruct (w_wrote l + 1 <? w_n l); injection H as <- <-; fields; split; try assumption; lia.
    + destruct (g_rset g); injection H as <- <-; fields; split; try assumption; lia.
  - unfold r_step in H. destruct (g_r g) eqn:E; try discriminate; try contradiction; fields.
    + injection H as <- <-. fields. split; [assumption|exact I].
    + injection H as <- <-. fields. split; [assumption|exact I].
    + unfold r_get in H. destruct (r_i l <? r_n l).
      * destruct (r_pos l =? r_next l).
        -- injection H as <- <-. destruct (0 <? r_read l); fields; auto.
        -- destruct (index _ _); [|injection H as <- <-; fields; auto]. destruct (r_i l <? r_cap l); injection H as <- <-; fields; auto.
      * destruct (0 <? r_read l); injection H as <- <-; fields; auto.
    + rewrite Hws in H. injection H as <- <-. fields. auto.
    + assert ((r_pos l =? g_next g) = false) as K.
      { destruct HR as ((L1 & L2 & L3) & R1 & R2). rewrite L3, HP. apply Z.eqb_neq. intros K. symmetry in K. revert K. apply mod_differ; lia. }
      rewrite K in H. injection H as <- <-. fields. auto.
    + unfold r_get in H. destruct (index _ _); [|injection H as <- <-; fields; auto].
      destruct (r_i l <? r_cap l); injection H as <- <-; fields; auto.
    + rewrite Hws in H. injection H as <- <-. fields. auto.
  - destruct (g_r g); try contradiction; discriminate.
  - destruct (g_w g); cbn in H; try discriminate; contradiction.
  - rewrite Hcl in H. discriminate.
  - rewrite Hcl in H. discriminate.
  - specialize (Ho NoClose ltac:(cbn; tauto)). discriminate.
Qed.

Lemma callers_ready : forall size sched g evs, 2 <= size < 2 ^ 31 -> Forall legal_call sched ->
  (forall r, In r (Ready :: rules) -> follows r size no_calls (New size) sched = true) -> run (New size) sched = Some (g, evs) ->
  ~ w_blocked g /\ ~ r_blocked g.
Proof.
  intros size sched g evs HN Hl Hf H.
  destruct (caller_run unwaiting (Ready :: rules) size sched HN (incl_tl _ (incl_refl _))
    (fun t g a g' e => unwaiting_step size t g a g' e ltac:(lia))
    no_calls (New size) g evs (new_cinv size HN) (new_pinv size ltac:(lia))) as [H1 (t & H2 & U1 & U2)]; try assumption.
  { split; cbn; [lia|exact I]. }
  split; [apply (writer_not_blocked size t g H2)|].
  destruct H2 as [Hs (S & P & HS & HP & HSP & HPw & Hroom & HW & HR) Hrs Hrel Hws Hcl].
  intros (B1 & B2 & _). cbn [step] in B2. unfold r_step, r_get in B2.
  destruct (g_r g) eqn:E; cbn [rC] in HR; try contradiction; try discriminate.
  - destruct (r_i l <? r_n l); [|destruct (0 <? r_read l); discriminate].
    destruct (r_pos l =? r_next l); [discriminate|]. destruct (index _ _); [|discriminate]. destruct (r_i l <? r_cap l); discriminate.
  - rewrite Hws in B2. discriminate.
  - destruct (index _ _); [|discriminate]. destruct (r_i l <? r_cap l); discriminate.
  - rewrite Hws in B2. discriminate.
Qed.

(** ** No rule can be dropped, and the rules do not end every wait *)
Definition breaks (r : rule) : Z * list label :=
  match r with
  | Enough => (8, sched_garbage)
  | Fits => (4, WCall [0] 1 :: wsteps 4 ++ WCall [1;2;3;4;5] 5 :: wsteps 8 ++ RCall 1 1 :: rsteps 5 ++ [SyncWrite] ++ wsteps 5 ++ RCall 1 1 :: rsteps 5)
  | Settled => (8, sched_spurious)
  | _ => (8, sched_close)
  end.
Lemma rules_needed : forall r, In r rules -> exists size sched g evs, Forall legal_call sched /\
  (forall r', In r' rules -> r' <> r -> follows r' size no_calls (New size) sched = true) /\
  run (New size) sched = Some (g, evs) /\ ~ prefix (delivered evs) (written evs).
Proof.
  intros r Hr. exists (fst (breaks r)), (snd (breaks r)). cbn [In rules] in Hr.
  destruct Hr as [<-|[<-|[<-|[<-|[]]]]]; cbn [breaks fst snd]; eexists; eexists;
    (split; [repeat constructor; cbn; unfold zlen; cbn; lia|]);
    (split; [intros r' Hr' Hne; destruct r'; try congruence; try (vm_compute; reflexivity); cbn in Hr'; intuition discriminate|]);
    (split; [vm_compute; reflexivity|]); apply not_prefix.
  - left. reflexivity.
  - right. exists 1%nat. split; [cbn; lia|cbn; discriminate].
  - left. reflexivity.
  - left. reflexivity.
Qed.
Definition sched_hang : list label := RCall 2 2 :: rsteps 4 ++ WCall [1;2] 2 :: wsteps 6 ++ rsteps 1.
Lemma follows_cons r size t g a s g1 e1 : obeys r size t a = true -> step g a = Some (g1, e1) ->
  follows r size (tally t a e1) g1 s = true -> follows r size t g (a :: s) = true.
Proof. intros H1 H2 H3. cbn [follows]. rewrite H1, H2, H3. reflexivity. Qed.
Lemma rules_hang : forall size, 8 <= size < 2 ^ 31 -> Forall legal_call sched_hang /\
  (forall r, In r rules -> follows r size no_calls (New size) sched_hang = true) /\
  exists g evs, run (New size) sched_hang = Some (g, evs) /\ g_w g = WIdle /\ r_blocked g /\ occupancy g = 2.
Proof.
  intros size HN. split; [repeat constructor; cbn; unfold zlen; cbn; lia|].
  unfold New. rewrite int32_id by (unfold is_int32; lia).
  destruct (new_cells size ltac:(lia)) as [m ->]. generalize (repeat 0 m). intros rest. split.
  - intros r Hr. assert (H2 : (2 <=? size - 2) = true) by (apply Z.leb_le; lia). cbn [In rules] in Hr.
    destruct Hr as [<-|[<-|[<-|[<-|[]]]]]; unfold sched_hang;
    repeat (eapply follows_cons; [try exact H2; reflexivity|sym_step HN; reflexivity|]); reflexivity.
  - eexists. eexists. split; [sym_run HN|]. unfold r_blocked, occupancy. cbn -[Z.modulo].
    split; [reflexivity|]. split; [repeat split; discriminate|]. apply Z.mod_small. lia.
Qed.
