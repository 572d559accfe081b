(** * The ring buffer used sequentially *)
From Verif Require Import GoBase GoLemmas Ring RingSpec RingProofs RingProps.
Local Open Scope Z_scope.
Ltac Zify.zify_post_hook ::= idtac.

Lemma run_app s1 : forall g s2, run g (s1 ++ s2) =
  match run g s1 with None => None | Some (g1, e1) =>
    match run g1 s2 with None => None | Some (g2, e2) => Some (g2, e1 ++ e2) end end.
Proof.
  induction s1 as [|a s1 IH]; intros g s2; cbn [run app].
  - destruct (run g s2) as [[g2 e2]|]; reflexivity.
  - destruct (step g a) as [[g1 e1]|]; [|reflexivity]. rewrite IH. destruct (run g1 s1) as [[g2 e2]|]; [|reflexivity].
    destruct (run g2 s2) as [[g3 e3]|]; [|reflexivity]. rewrite app_assoc. reflexivity.
Qed.
Lemma all_steps_app P s1 : forall g s2 g1 e1, run g s1 = Some (g1, e1) ->
  (all_steps P g (s1 ++ s2) <-> all_steps P g s1 /\ all_steps P g1 s2).
Proof.
  induction s1 as [|a s1 IH]; intros g s2 g1 e1 H; cbn [run app all_steps] in *.
  - injection H as <- <-. tauto.
  - destruct (step g a) as [[g2 e2]|] eqn:E; [|discriminate]. destruct (run g2 s1) as [[g3 e3]|] eqn:E2; [|discriminate].
    injection H as <- <-. rewrite (IH g2 s2 g3 e3 E2). tauto.
Qed.

(** Nobody is in a call, no lock is set, the queue holds [q]. *)
Definition Rest (N : Z) (g : ring) (wr dl q : list Z) : Prop :=
  exists w S Sl, Inv N g wr dl w [] dl S (zlen w) Sl /\ w = dl ++ q /\ S = zlen dl /\
    g_w g = WIdle /\ g_r g = RIdle /\ g_rset g = false /\ g_wset g = false.

Definition quiet (g : ring) (a : label) : Prop := no_wake g a.
Lemma no_good g a : no_wake g a -> good_wake g a.
Proof. intros [H1 H2]. split; intros k E; congruence. Qed.
Lemma all_no_good g s : all_steps no_wake g s -> all_steps good_wake g s.
Proof.
  revert g. induction s as [|a s IH]; intros g; cbn [all_steps]; [auto|]. intros [H1 H2]. split; [apply no_good, H1|].
  destruct (step g a) as [[g1 e1]|]; auto.
Qed.

(** The loop of WriteN when there is room. *)
Lemma write_loop N S m : forall g l, 2 <= N < 2 ^ 31 -> g_size g = N -> zlen (g_cells g) = N ->
  g_w g = WLoop l -> g_rset g = false -> w_start l = S mod N ->
  0 <= w_i l -> w_n l - w_i l = Z.of_nat m -> w_n l <= zlen (w_data l) ->
  (exists W, w_pos l = W mod N /\ 0 <= W - S /\ W + Z.of_nat m - S <= N - 2) ->
  exists k g', run g (repeat WStep k) = Some (g', [EWrote]) /\ all_steps no_wake g (repeat WStep k) /\
    g_w g' = WIdle /\ g_r g' = g_r g /\ g_rset g' = false /\ g_wset g' = g_wset g.
Proof.
  induction m as [|m IH]; intros g l HN Hsz Hcl Hpc Hrs Hst Hi Hm Hn (W & HW & HW1 & HW2).
  - destruct (w_wrote l + 1 <? w_n l) eqn:Hwr.
    + exists 2%nat. eexists. cbn [repeat run step]. unfold w_step at 1. rewrite Hpc.
      destruct (Z.ltb_spec (w_i l) (w_n l)); [lia|]. rewrite Hwr. unfold w_step at 1. cbn [set_w set_next g_w g_rset]. rewrite Hrs.
      split; [reflexivity|]. split; [|cbn [set_w set_next g_w g_r g_rset g_wset]; auto].
      cbn [all_steps step]. split; [unfold no_wake, reader_wakes, writer_wakes; rewrite Hpc; destruct (g_r g); auto|].
      unfold w_step at 1. rewrite Hpc. destruct (Z.ltb_spec (w_i l) (w_n l)); [lia|]. rewrite Hwr. cbn [all_steps].
      split; [unfold no_wake, reader_wakes, writer_wakes; cbn [set_w set_next g_w g_r]; destruct (g_r g); auto|].
      match goal with |- match ?x with _ => _ end => destruct x as [[? ?]|]; exact I end.
    + exists 1%nat. eexists. cbn [repeat run step]. unfold w_step at 1. rewrite Hpc.
      destruct (Z.ltb_spec (w_i l) (w_n l)); [lia|]. rewrite Hwr.
      split; [reflexivity|]. split; [|cbn [set_w set_next g_w g_r g_rset g_wset]; auto].
      cbn [all_steps step]. split; [unfold no_wake, reader_wakes, writer_wakes; rewrite Hpc; destruct (g_r g); auto|].
      unfold w_step at 1. rewrite Hpc. destruct (Z.ltb_spec (w_i l) (w_n l)); [lia|]. rewrite Hwr. exact I.
  - destruct (index_some (w_data l) (w_i l)) as [b Eb]; [lia|].
    destruct (store_some (g_cells g) (w_pos l) b) as [c Ec]; [rewrite HW, Hcl; apply Z.mod_pos_bound; lia|].
    set (l' := mkW (w_data l) (w_n l) (w_i l + 1) (incr (w_pos l) (g_size g)) (w_start l) (w_wrote l)).
    set (g1 := set_w (set_cells g c) (WLoop l')).
    assert (Hstep : step g WStep = Some (g1, [])).
    { cbn [step]. unfold w_step. rewrite Hpc. destruct (Z.ltb_spec (w_i l) (w_n l)); [|lia]. rewrite Eb, Ec. cbn zeta.
      replace (incr (incr (w_pos l) (g_size g)) (g_size g) =? w_start l) with false; [reflexivity|].
      symmetry. apply Z.eqb_neq. rewrite HW, Hsz, !incr_mod, Hst by lia. intros E.
      apply mod_near in E; lia. }
    destruct (IH g1 l') as (k & g' & Hrun & Hall & Hrest); try assumption; try reflexivity.
    + cbn [set_w set_cells g1 g_cells]. rewrite (proj1 (store_zlen _ _ _ _ Ec)). exact Hcl.
    + cbn [l' w_i]. lia.
    + cbn [l' w_i w_n]. lia.
    + exists (W + 1). cbn [l' w_pos]. rewrite HW, Hsz, incr_mod by lia. split; [reflexivity|]. lia.
    + exists (1 + k)%nat, g'. cbn [repeat Nat.add run all_steps]. rewrite Hstep, Hrun. split; [reflexivity|].
      split; [|exact Hrest]. split; [|exact Hall]. unfold no_wake, reader_wakes, writer_wakes. rewrite Hpc. destruct (g_r g); auto.
Qed.

Lemma no_wake_w g a : g_r g = RIdle -> writer_wakes g a = None -> no_wake g a.
Proof. intros H1 H2. split; [|exact H2]. unfold reader_wakes. rewrite H1. reflexivity. Qed.
Lemma no_wake_r g a : g_w g = WIdle -> reader_wakes g a = None -> no_wake g a.
Proof. intros H1 H2. split; [exact H2|]. unfold writer_wakes. rewrite H1. reflexivity. Qed.

Lemma write_call N g wr dl q data n : Rest N g wr dl q -> 0 <= n <= zlen data -> zlen q + n <= N - 2 ->
  exists k g', run g (WCall data n :: repeat WStep k) = Some (g', [EWrite (firstn (Z.to_nat n) data); EWrote]) /\
    Rest N g' (wr ++ firstn (Z.to_nat n) data) dl (q ++ firstn (Z.to_nat n) data).
Proof.
  intros (w & S & Sl & HI & Hw0 & HS & Hwi & Hri & Hrs & Hws) Hn Hq. pose proof HI as HI0. use_inv HI0.
  assert (HW : zlen w = S + zlen q) by (rewrite Hw0, zlen_app; lia).
  set (g2 := set_w (set_w (set_w g (WLoadNext data n)) (WLoadStart data n (g_next g))) (WLoop (mkW data n 0 (g_next g) (g_start g) 0))).
  destruct (write_loop N S (Z.to_nat n) g2 (mkW data n 0 (g_next g) (g_start g) 0)) as (k & g' & Hrun & Hall & E1 & E2 & E3 & E4);
    try assumption; try reflexivity; cbn [w_i w_n w_data w_pos w_start]; try lia.
  { exists (zlen w). split; [exact Hnext|]. pose proof (zlen_nonneg q). lia. }
  exists (2 + k)%nat, g'.
  assert (R : run g (WCall data n :: repeat WStep (2 + k)) = Some (g', [EWrite (firstn (Z.to_nat n) data); EWrote])).
  { cbn [repeat Nat.add run step]. rewrite Hwi. cbn [w_step set_w g_w g_next g_start]. unfold g2 in Hrun. cbn [set_w] in Hrun.
    cbn [set_w g_cells g_size g_start g_next g_rset g_wset g_closed g_w g_r]. 
    cbn [set_w g_cells g_size g_start g_next g_rset g_wset g_closed g_w g_r] in Hrun. rewrite Hrun. reflexivity. }
  split; [exact R|].
  assert (A : all_steps no_wake g (WCall data n :: repeat WStep (2 + k))).
  { cbn [repeat Nat.add all_steps step]. split; [apply no_wake_w; [exact Hri|unfold writer_wakes; rewrite Hwi; reflexivity]|]. rewrite Hwi.
    split; [apply no_wake_w; [exact Hri|reflexivity]|]. cbn [w_step set_w g_w g_next g_start].
    split; [apply no_wake_w; [exact Hri|reflexivity]|]. exact Hall. }
  destruct (run_inv N _ _ _ _ _ _ _ _ _ _ _ _ HI (all_no_good _ _ A) R) as (w' & todo' & rd' & S' & P' & Sl' & HI').
  cbn [written delivered flat_map] in HI'. rewrite !app_nil_r in HI'.
  pose proof HI' as HI1. destruct HI1 as [_ _ _ Hwr' Hrd' _ _ _ _ Hw' Hr']. rewrite E1 in Hw'. rewrite E2 in Hr'.
  change (g_r g2) with (g_r g) in Hr'. rewrite Hri in Hr'. cbn [wInv rInv] in Hw', Hr'.
  destruct Hw' as (-> & -> & _). destruct Hr' as [-> ->]. rewrite app_nil_r in Hwr'.
  exists w', (zlen dl), Sl'. split; [exact HI'|]. split.
  - rewrite <- Hwr', Hwr, app_nil_r, Hw0, <- app_assoc. reflexivity.
  - split; [reflexivity|]. rewrite E1, E2, E3, E4. unfold g2. cbn [set_w g_r g_rset g_wset]. auto.
Qed.

(** The loop of ReadN when there is enough to read. *)
Lemma read_loop N P m : forall g l, 2 <= N < 2 ^ 31 -> g_size g = N -> zlen (g_cells g) = N ->
  g_r g = RLoop l -> g_wset g = false -> g_w g = WIdle -> r_next l = P mod N ->
  r_n l - r_i l = Z.of_nat m -> r_n l <= r_cap l ->
  (exists R, r_pos l = R mod N /\ R + Z.of_nat m <= P /\ P - R <= N - 1) ->
  exists k g' out, run g (repeat RStep k) = Some (g', [ERead (r_out l ++ out)]) /\ zlen out = Z.of_nat m /\
    all_steps no_wake g (repeat RStep k) /\
    g_r g' = RIdle /\ g_w g' = g_w g /\ g_rset g' = g_rset g /\ g_wset g' = false.
Proof.
  induction m as [|m IH]; intros g l HN Hsz Hcl Hpc Hws Hwi Hnx Hm Hn (R & HR & HR1 & HR2).
  - destruct (0 <? r_read l) eqn:Hrd.
    + exists 2%nat. eexists. exists []. cbn [repeat run step]. unfold r_step at 1. rewrite Hpc.
      destruct (Z.ltb_spec (r_i l) (r_n l)); [lia|]. rewrite Hrd. unfold r_step at 1. cbn [set_r set_start g_r g_wset]. rewrite Hws.
      split; [rewrite (app_nil_r (r_out l)); reflexivity|]. split; [reflexivity|]. split; [|cbn [set_r set_start g_w g_r g_rset g_wset]; auto].
      cbn [all_steps step]. split; [apply no_wake_r; [exact Hwi|unfold reader_wakes; rewrite Hpc; reflexivity]|].
      unfold r_step at 1. rewrite Hpc. destruct (Z.ltb_spec (r_i l) (r_n l)); [lia|]. rewrite Hrd. cbn [all_steps].
      split; [apply no_wake_r; [exact Hwi|reflexivity]|].
      match goal with |- match ?x with _ => _ end => destruct x as [[? ?]|]; exact I end.
    + exists 1%nat. eexists. exists []. cbn [repeat run step]. unfold r_step at 1. rewrite Hpc.
      destruct (Z.ltb_spec (r_i l) (r_n l)); [lia|]. rewrite Hrd.
      split; [rewrite (app_nil_r (r_out l)); reflexivity|]. split; [reflexivity|]. split; [|cbn [set_r set_start g_w g_r g_rset g_wset]; auto].
      cbn [all_steps step]. split; [apply no_wake_r; [exact Hwi|unfold reader_wakes; rewrite Hpc; reflexivity]|].
      unfold r_step at 1. rewrite Hpc. destruct (Z.ltb_spec (r_i l) (r_n l)); [lia|]. rewrite Hrd. exact I.
  - destruct (index_some (g_cells g) (r_pos l)) as [b Eb]; [rewrite HR, Hcl; apply Z.mod_pos_bound; lia|].
    set (l' := mkR (r_cap l) (r_n l) (r_i l + 1) (incr (r_pos l) (g_size g)) (r_next l) (r_read l + 1) (r_out l ++ [b])).
    set (g1 := set_r g (RLoop l')).
    assert (Hstep : step g RStep = Some (g1, [])).
    { cbn [step]. unfold r_step. rewrite Hpc. destruct (Z.ltb_spec (r_i l) (r_n l)); [|lia].
      destruct (Z.eqb_spec (r_pos l) (r_next l)) as [E|E].
      - exfalso. rewrite HR, Hnx in E. apply mod_near in E; lia.
      - unfold r_get. rewrite Eb. destruct (Z.ltb_spec (r_i l) (r_cap l)); [reflexivity|lia]. }
    destruct (IH g1 l') as (k & g' & out & Hrun & Hlen & Hall & Hrest); try assumption; try reflexivity.
    + cbn [l' r_i r_n]. lia.
    + exists (R + 1). cbn [l' r_pos]. rewrite HR, Hsz, incr_mod by lia. split; [reflexivity|]. lia.
    + exists (1 + k)%nat, g', (b :: out). cbn [repeat Nat.add run all_steps]. rewrite Hstep, Hrun. cbn [l' r_out]. rewrite <- app_assoc.
      split; [reflexivity|]. split; [unfold zlen in *; cbn [length]; lia|].
      split; [|exact Hrest]. split; [|exact Hall]. apply no_wake_r; [exact Hwi|]. unfold reader_wakes. rewrite Hpc. reflexivity.
Qed.

Lemma read_call N g wr dl q cap n : Rest N g wr dl q -> 0 <= n <= cap -> n <= zlen q ->
  exists k g', run g (RCall cap n :: repeat RStep k) = Some (g', [ERead (firstn (Z.to_nat n) q)]) /\
    Rest N g' wr (dl ++ firstn (Z.to_nat n) q) (skipn (Z.to_nat n) q).
Proof.
  intros (w & S & Sl & HI & Hw0 & HS & Hwi & Hri & Hrs & Hws) Hn Hq. pose proof HI as HI0. use_inv HI0.
  assert (HW : zlen w = S + zlen q) by (rewrite Hw0, zlen_app; lia).
  set (l0 := mkR cap n 0 (g_start g) (g_next g) 0 []).
  set (g2 := set_r (set_r (set_r g (RLoadStart cap n)) (RLoadNext cap n (g_start g))) (RLoop l0)).
  destruct (read_loop N (zlen w) (Z.to_nat n) g2 l0) as (k & g' & out & Hrun & Hlen & Hall & E1 & E2 & E3 & E4);
    try assumption; try reflexivity; cbn [l0 r_i r_n r_cap r_pos r_next]; try lia.
  { exists S. split; [exact Hstart|]. lia. }
  exists (2 + k)%nat, g'.
  assert (R : run g (RCall cap n :: repeat RStep (2 + k)) = Some (g', [ERead out])).
  { cbn [repeat Nat.add run step]. rewrite Hri. cbn [r_step set_r g_r g_next g_start].
    unfold g2 in Hrun. cbn [set_r g_cells g_size g_start g_next g_rset g_wset g_closed g_w g_r] in *. fold l0. rewrite Hrun. reflexivity. }
  assert (A : all_steps no_wake g (RCall cap n :: repeat RStep (2 + k))).
  { cbn [repeat Nat.add all_steps step]. split; [apply no_wake_r; [exact Hwi|unfold reader_wakes; rewrite Hri; reflexivity]|]. rewrite Hri.
    split; [apply no_wake_r; [exact Hwi|reflexivity]|]. cbn [r_step set_r g_r g_next g_start].
    split; [apply no_wake_r; [exact Hwi|reflexivity]|]. exact Hall. }
  destruct (run_inv N _ _ _ _ _ _ _ _ _ _ _ _ HI (all_no_good _ _ A) R) as (w' & todo' & rd' & S' & P' & Sl' & HI').
  cbn [written delivered flat_map] in HI'. rewrite !app_nil_r in HI'.
  pose proof HI' as HI1. destruct HI1 as [_ _ _ Hwr' Hrd' _ _ _ _ Hw' Hr']. rewrite E1 in Hr'. rewrite E2 in Hw'.
  change (g_w g2) with (g_w g) in Hw'. rewrite Hwi in Hw'. cbn [wInv rInv] in Hw', Hr'.
  destruct Hw' as (-> & -> & _). destruct Hr' as [-> ->]. rewrite app_nil_r in *.
  assert (Eout : out = firstn (Z.to_nat n) q).
  { destruct Hrd' as [c Ec]. rewrite <- Hwr', Hwr, Hw0, <- app_assoc in Ec. apply app_inv_head in Ec.
    rewrite Ec, firstn_app. replace (Z.to_nat n - length out)%nat with 0%nat by (unfold zlen in Hlen; lia).
    cbn [firstn]. rewrite app_nil_r, firstn_all2 by (unfold zlen in Hlen; lia). reflexivity. }
  rewrite <- Eout. split; [exact R|].
  exists w', (zlen (dl ++ out)), Sl'. split; [exact HI'|]. split.
  - rewrite <- Hwr', Hwr, Hw0, <- app_assoc. f_equal. rewrite Eout. symmetry. apply firstn_skipn.
  - split; [reflexivity|]. rewrite E1, E2, E3, E4. unfold g2. cbn [set_r g_w g_rset g_wset]. auto.
Qed.

Lemma reads_app a b : reads (a ++ b) = reads a ++ reads b.
Proof. unfold reads. apply flat_map_app. Qed.

Lemma calls_ok N : forall calls g wr dl q q' outs, Rest N g wr dl q -> queue (N - 2) q calls = Some (q', outs) ->
  exists sched g' evs, performs calls sched /\ run g sched = Some (g', evs) /\ reads evs = outs /\
    exists wr' dl', Rest N g' wr' dl' q'.
Proof.
  induction calls as [|c calls IH]; intros g wr dl q q' outs HR Hq; cbn [queue] in Hq.
  - injection Hq as <- <-. exists [], g, []. split; [constructor|]. split; [reflexivity|]. split; [reflexivity|]. eauto.
  - destruct c as [data n|cap n].
    + destruct (Z.leb_spec 0 n); [|discriminate]. destruct (Z.leb_spec n (zlen data)); [|discriminate].
      destruct (Z.leb_spec (zlen q + n) (N - 2)); [|discriminate]. cbn [andb] in Hq.
      destruct (write_call N g wr dl q data n HR ltac:(lia) ltac:(lia)) as (k & g1 & R1 & HR1).
      destruct (IH _ _ _ _ _ _ HR1 Hq) as (sched & g' & evs & Hp & Hrun & Ho & HR').
      exists (WCall data n :: repeat WStep k ++ sched), g', ([EWrite (firstn (Z.to_nat n) data); EWrote] ++ evs).
      split; [constructor; exact Hp|]. split; [|split; [exact Ho|exact HR']].
      change (WCall data n :: repeat WStep k ++ sched) with ((WCall data n :: repeat WStep k) ++ sched).
      rewrite run_app, R1, Hrun. reflexivity.
    + destruct (Z.leb_spec 0 n); [|discriminate]. destruct (Z.leb_spec n cap); [|discriminate].
      destruct (Z.leb_spec n (zlen q)); [|discriminate]. cbn [andb] in Hq.
      destruct (queue (N - 2) (skipn (Z.to_nat n) q) calls) as [[q2 outs2]|] eqn:Hq2; [|discriminate]. injection Hq as <- <-.
      destruct (read_call N g wr dl q cap n HR ltac:(lia) ltac:(lia)) as (k & g1 & R1 & HR1).
      destruct (IH _ _ _ _ _ _ HR1 Hq2) as (sched & g' & evs & Hp & Hrun & Ho & HR').
      exists (RCall cap n :: repeat RStep k ++ sched), g', ([ERead (firstn (Z.to_nat n) q)] ++ evs).
      split; [constructor; exact Hp|]. split; [|split; [rewrite reads_app, Ho; reflexivity|exact HR']].
      change (RCall cap n :: repeat RStep k ++ sched) with ((RCall cap n :: repeat RStep k) ++ sched).
      rewrite run_app, R1, Hrun. reflexivity.
Qed.

Lemma new_rest N : 2 <= N < 2 ^ 31 -> Rest N (New N) [] [] [].
Proof. intros HN. exists [], 0, 0. split; [apply init_inv, HN|]. repeat split. Qed.

Lemma rest_contents N g wr dl q : Rest N g wr dl q -> contents g = q.
Proof.
  intros (w & S & Sl & HI & Hw0 & HS & _). use_inv HI.
  assert (Hq : zlen q = zlen w - S) by (rewrite Hw0, zlen_app; lia).
  assert (Ho : occupancy g = zlen q) by (rewrite (occupancy_eq N g S (zlen w)); try assumption; lia).
  apply nth_eq_list.
  - unfold contents. rewrite map_length, seq_length, Ho. unfold zlen. lia.
  - intros k Hk. unfold contents in *. rewrite map_length, seq_length in Hk.
    set (f := fun k0 : nat => nth (Z.to_nat ((g_start g + Z.of_nat k0) mod g_size g)) (g_cells g) 0).
    rewrite (nth_indep (map f _) 0 (f 0%nat)) by (rewrite map_length, seq_length; exact Hk). rewrite map_nth, seq_nth by exact Hk.
    rewrite Ho in Hk. unfold f. rewrite Hstart, Hsize, Zplus_mod_idemp_l.
    rewrite (Hdata (S + Z.of_nat (0 + k))) by (unfold zlen in *; lia).
    rewrite Hw0, app_nth2 by (unfold zlen in *; lia). f_equal. unfold zlen in *. lia.
Qed.

Lemma ring_sequential : forall size calls q outs, 2 <= size < 2 ^ 31 -> queue (size - 2) [] calls = Some (q, outs) ->
  exists sched g evs, performs calls sched /\ run (New size) sched = Some (g, evs) /\ reads evs = outs /\
    contents g = q /\ g_w g = WIdle /\ g_r g = RIdle.
Proof.
  intros size calls q outs HN Hq.
  destruct (calls_ok size calls _ _ _ _ _ _ (new_rest size HN) Hq) as (sched & g & evs & Hp & Hrun & Ho & wr & dl & HR).
  exists sched, g, evs. split; [exact Hp|]. split; [exact Hrun|]. split; [exact Ho|]. split; [apply (rest_contents _ _ _ _ _ HR)|].
  destruct HR as (w & S & Sl & _ & _ & _ & E1 & E2 & _). auto.
Qed.

(** ** The same failures in rings of any size *)
Lemma small_incr N k : 8 <= N < 2 ^ 31 -> 0 <= k < 7 -> incr k N = k + 1.
Proof. intros HN Hk. unfold incr. rewrite int32_id by (unfold is_int32; lia). destruct (Z.eqb_spec (k + 1) N); lia. Qed.
Lemma new_cells N : 8 <= N -> exists m, repeat 0 (Z.to_nat N) = 0 :: 0 :: 0 :: 0 :: 0 :: 0 :: 0 :: 0 :: repeat 0 m.
Proof. intros HN. exists (Z.to_nat (N - 8)). replace (Z.to_nat N) with (8 + Z.to_nat (N - 8))%nat by lia. reflexivity. Qed.

Lemma run_cons g a s g1 e1 g2 e2 : step g a = Some (g1, e1) -> run g1 s = Some (g2, e2) -> run g (a :: s) = Some (g2, e1 ++ e2).
Proof. intros H1 H2. cbn [run]. rewrite H1, H2. reflexivity. Qed.
Ltac sym_step HN :=
  cbv -[incr]; rewrite ?(small_incr _ 0 HN), ?(small_incr _ 1 HN), ?(small_incr _ 2 HN), ?(small_incr _ 3 HN),
    ?(small_incr _ 4 HN), ?(small_incr _ 5 HN), ?(small_incr _ 6 HN) by lia; cbv -[incr];
  rewrite ?(small_incr _ 0 HN), ?(small_incr _ 1 HN), ?(small_incr _ 2 HN), ?(small_incr _ 3 HN),
    ?(small_incr _ 4 HN), ?(small_incr _ 5 HN), ?(small_incr _ 6 HN) by lia; cbv -[incr].
Ltac sym_run HN := repeat (eapply run_cons; [sym_step HN; reflexivity|]); reflexivity.

Lemma fifo_refuted_any_size : forall size sched, 8 <= size < 2 ^ 31 -> In sched [sched_garbage; sched_spurious; sched_close] ->
  Forall legal_call sched /\ exists g evs, run (New size) sched = Some (g, evs) /\ ~ prefix (delivered evs) (written evs).
Proof.
  intros size sched HN H. unfold New. rewrite int32_id by (unfold is_int32; lia).
  destruct (new_cells size ltac:(lia)) as [m ->]. generalize (repeat 0 m). intros rest. cbn [In] in H.
  destruct H as [H|[H|[H|[]]]]; subst sched;
    (split; [repeat constructor; cbn; unfold zlen; cbn; lia|]); eexists; eexists.
  - split; [sym_run HN|]. apply not_prefix. left. reflexivity.
  - split; [sym_run HN|]. apply not_prefix. left. reflexivity.
  - split; [sym_run HN|]. apply not_prefix. left. reflexivity.
Qed.

Lemma lost_wakeup_any_size : forall size, 8 <= size < 2 ^ 31 -> exists sched g evs, Forall legal_call sched /\ run (New size) sched = Some (g, evs) /\
  g_closed g = false /\ g_w g = WIdle /\ r_blocked g /\ written evs = [7] /\ occupancy g = 1.
Proof.
  intros size HN. exists sched_lost_wakeup. unfold New. rewrite int32_id by (unfold is_int32; lia).
  destruct (new_cells size ltac:(lia)) as [m ->]. generalize (repeat 0 m). intros rest.
  eexists. eexists. split; [repeat constructor; cbn; unfold zlen; cbn; lia|].
  split; [sym_run HN|]. unfold r_blocked, occupancy. cbn -[Z.modulo].
  split; [reflexivity|]. split; [reflexivity|]. split; [repeat split; discriminate|]. split; [reflexivity|].
  apply Z.mod_small. lia.
Qed.

(** ** After Close, for callers that respect their slices *)
Lemma run_legal_after size sched0 g evs0 sched g' evs : 1 <= size < 2 ^ 31 -> Forall legal_call (sched0 ++ sched) ->
  run (New size) sched0 = Some (g, evs0) -> run g sched = Some (g', evs) -> g_w g' <> WCrash /\ g_r g' <> RCrash.
Proof.
  intros HN Hl H0 H. assert (R : run (New size) (sched0 ++ sched) = Some (g', evs0 ++ evs)) by (rewrite run_app, H0, H; reflexivity).
  destruct (positions _ _ _ _ HN Hl R) as (_ & _ & _ & H1 & H2). auto.
Qed.

Lemma close_unblocks : forall size sched0 g evs0 sched g' evs, 1 <= size < 2 ^ 31 -> Forall legal_call (sched0 ++ sched) ->
  run (New size) sched0 = Some (g, evs0) -> g_closed g = true -> run g sched = Some (g', evs) ->
  (g_w g' = WIdle \/ step g' WStep <> None \/ step g' WDone <> None) /\
  (g_r g' = RIdle \/ step g' RStep <> None \/ step g' RDone <> None).
Proof.
  intros size sched0 g evs0 sched g' evs HN Hl H0 Hc H.
  destruct (run_legal_after _ _ _ _ _ _ _ HN Hl H0 H) as [Nw Nr]. pose proof (run_closed_mono _ _ _ _ H Hc) as Hc'.
  destruct (closed_unblocks_writer g' Hc') as [b1 B1]. destruct (closed_unblocks_reader g' Hc') as [b2 B2].
  destruct (B1 [] g' [] eq_refl (Forall_nil _)) as [_ C1]. destruct (B2 [] g' [] eq_refl (Forall_nil _)) as [_ C2]. tauto.
Qed.
Lemma calls_finite : forall g, exists bw br, forall sched g' evs, run g sched = Some (g', evs) ->
  (Forall (fun a => ~ is_wcall a) sched -> count w_moves sched <= bw) /\
  (Forall (fun a => ~ is_rcall a) sched -> count r_moves sched <= br).
Proof.
  intros g. exists (w_left (g_w g)), (r_left (g_r g)). intros sched g' evs H. split; intros Hno.
  - pose proof (w_moves_bound _ _ _ _ H Hno). pose proof (w_left_nonneg (g_w g')). lia.
  - pose proof (r_moves_bound _ _ _ _ H Hno). pose proof (r_left_nonneg (g_r g')). lia.
Qed.
