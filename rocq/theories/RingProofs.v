(** * The ring buffer: positions, delivery order *)
From Verif Require Import GoBase GoLemmas Ring RingSpec.
Local Open Scope Z_scope.
Ltac Zify.zify_post_hook ::= idtac.

(** ** Lists *)
Lemma upd_some {A} (s : list A) i x : (i < length s)%nat -> exists s', upd s i x = Some s'.
Proof.
  revert i. induction s as [|y s IH]; intros i Hi; cbn in Hi; [lia|]. destruct i as [|i]; cbn; [eauto|].
  destruct (IH i) as [s' E]; [lia|]. rewrite E. cbn. eauto.
Qed.
Lemma upd_length {A} (s s' : list A) i x : upd s i x = Some s' -> length s' = length s.
Proof.
  revert i s'. induction s as [|y s IH]; intros i s'; cbn; [destruct i; discriminate|].
  destruct i as [|i]; [intros E; injection E as <-; reflexivity|].
  destruct (upd s i x) as [t|] eqn:E; cbn; [|discriminate]. intros H. injection H as <-. cbn. f_equal. eauto.
Qed.
Lemma upd_nth {A} (s s' : list A) i x : upd s i x = Some s' ->
  forall j d, nth j s' d = if Nat.eqb j i then x else nth j s d.
Proof.
  revert i s'. induction s as [|y s IH]; intros i s'; cbn; [destruct i; discriminate|].
  destruct i as [|i].
  - intros E; injection E as <-. intros [|j] d; reflexivity.
  - destruct (upd s i x) as [t|] eqn:E; cbn; [|discriminate]. intros H. injection H as <-.
    intros [|j] d; cbn; [reflexivity|]. apply IH, E.
Qed.
Lemma store_some {A} (s : list A) i x : 0 <= i < zlen s -> exists s', store s i x = Some s'.
Proof.
  intros H. unfold store. destruct (Z.leb_spec 0 i); [|lia]. apply upd_some. unfold zlen in H. lia.
Qed.
Lemma store_zlen {A} (s s' : list A) i x : store s i x = Some s' -> zlen s' = zlen s /\ 0 <= i.
Proof.
  unfold store. destruct (Z.leb_spec 0 i); [|discriminate]. intros E. unfold zlen. rewrite (upd_length _ _ _ _ E). auto.
Qed.
Lemma store_nth (s s' : list Z) i x : store s i x = Some s' ->
  forall j, 0 <= j -> nth (Z.to_nat j) s' 0 = if j =? i then x else nth (Z.to_nat j) s 0.
Proof.
  unfold store. destruct (Z.leb_spec 0 i); [|discriminate]. intros E j Hj. rewrite (upd_nth _ _ _ _ E).
  destruct (Nat.eqb_spec (Z.to_nat j) (Z.to_nat i)); destruct (Z.eqb_spec j i); subst; try reflexivity; lia.
Qed.
Lemma index_some {A} (s : list A) i : 0 <= i < zlen s -> exists x, index s i = Some x.
Proof.
  intros H. unfold index. destruct (Z.leb_spec 0 i); [|lia]. destruct (nth_error s (Z.to_nat i)) eqn:E; [eauto|].
  apply nth_error_None in E. unfold zlen in H. lia.
Qed.
Lemma index_nth (s : list Z) i x : index s i = Some x -> 0 <= i < zlen s /\ nth (Z.to_nat i) s 0 = x.
Proof.
  unfold index. destruct (Z.leb_spec 0 i); [|discriminate]. intros E. split; [|apply nth_error_nth, E].
  assert (nth_error s (Z.to_nat i) <> None) by congruence. apply nth_error_Some in H0. unfold zlen. lia.
Qed.

(** ** Positions *)
Lemma mod_near N a b : 0 < N -> a mod N = b mod N -> - N < a - b < N -> a = b.
Proof.
  intros HN E H. assert (D : (a - b) mod N = 0) by (rewrite Zminus_mod, E, Z.sub_diag; apply Zmod_0_l).
  apply Z.mod_divide in D; [|lia]. destruct D as [q Hq]. clear E.
  assert (Hz : q = 0); [|rewrite Hz in Hq; lia]. destruct (Z.lt_trichotomy q 0) as [H1|[H1|H1]]; [|exact H1|].
  - assert (q * N <= -1 * N) by (apply Z.mul_le_mono_nonneg_r; lia). lia.
  - assert (1 * N <= q * N) by (apply Z.mul_le_mono_nonneg_r; lia). lia.
Qed.
Lemma incr_mod N k : 1 <= N < 2 ^ 31 -> incr (k mod N) N = (k + 1) mod N.
Proof.
  intros HN. pose proof (Z.mod_pos_bound k N ltac:(lia)) as B. unfold incr. cbn zeta.
  rewrite int32_id by (unfold is_int32; lia). rewrite <- (Zplus_mod_idemp_l k 1).
  destruct (Z.eqb_spec (k mod N + 1) N) as [->|H].
  - symmetry. apply Z_mod_same_full.
  - symmetry. apply Z.mod_small. lia.
Qed.

(** ** Delivery order *)

(** What the writer's position says about the bytes already stored ([W] of
    them), those still to come ([todo]), the published positions [S], [P] and
    the lower bound [Sl] the writer relies on. *)
Definition start_ok (N W Sl rem start : Z) : Prop :=
  start = Sl mod N \/
  exists S0, start = S0 mod N /\ N - 1 <= W - S0 /\ W - S0 + rem <= 2 * N - 3 /\ W + rem <= Sl + N - 2.

Definition wInv (N W P Sl : Z) (todo : list Z) (p : wpc) : Prop :=
  match p with
  | WIdle => todo = [] /\ P = W /\ W - Sl <= N - 2
  | WLoadNext data n => todo = firstn (Z.to_nat n) data /\ P = W /\ W - Sl <= N - 2
  | WLoadStart data n pos => todo = firstn (Z.to_nat n) data /\ P = W /\ W - Sl <= N - 2 /\ pos = W mod N
  | WLoop l =>
      todo = skipn (Z.to_nat (w_i l)) (firstn (Z.to_nat (w_n l)) (w_data l)) /\ 0 <= w_i l /\ w_pos l = W mod N /\
      W - Sl <= N - 2 /\ start_ok N W Sl (zlen todo) (w_start l)
  | WFullStore l =>
      todo = skipn (Z.to_nat (w_i l + 1)) (firstn (Z.to_nat (w_n l)) (w_data l)) /\ 0 <= w_i l < w_n l /\ w_pos l = W mod N /\
      W - Sl = N - 1
  | WFullRelease l | WFullRelease_sel l | WFullLoad l =>
      todo = skipn (Z.to_nat (w_i l + 1)) (firstn (Z.to_nat (w_n l)) (w_data l)) /\ 0 <= w_i l < w_n l /\ w_pos l = W mod N /\
      W - Sl = N - 1 /\ P = W
  | WWait l | WWait_sel l =>
      todo = skipn (Z.to_nat (w_i l + 1)) (firstn (Z.to_nat (w_n l)) (w_data l)) /\ 0 <= w_i l < w_n l /\ w_pos l = W mod N /\
      W - Sl = N - 1 /\ P = W /\ w_start l = Sl mod N
  | WEndRelease l | WEndRelease_sel l => todo = [] /\ P = W /\ W - Sl <= N - 2
  | WCrash => True
  end.

Definition next_ok (N R P rem next : Z) : Prop :=
  (exists P', next = P' mod N /\ R <= P' <= P) \/
  (exists P0, next = P0 mod N /\ P0 < R /\ R - P0 + rem <= N - 1 /\ R + rem <= P).
Definition next_get (N R P rem next : Z) : Prop :=
  (exists P', next = P' mod N /\ R < P' <= P) \/
  (exists P0, next = P0 mod N /\ P0 <= R /\ R - P0 + rem <= N - 1 /\ R + rem <= P /\ 1 <= rem).

(** The reader: [rd] are the bytes read so far, [R] their number. *)
Definition rInv (N S P R : Z) (dl rd : list Z) (p : rpc) : Prop :=
  match p with
  | RIdle | RLoadStart _ _ => rd = dl /\ S = R
  | RLoadNext _ _ pos => rd = dl /\ S = R /\ pos = R mod N
  | RLoop l => rd = dl ++ r_out l /\ r_pos l = R mod N /\ next_ok N R P (Z.max 0 (r_n l - r_i l)) (r_next l)
  | REmptyRelease l | REmptyRelease_sel l | REmptyLoad l =>
      rd = dl ++ r_out l /\ r_pos l = R mod N /\ S = R /\ r_i l < r_n l
  | RWait l | RWait_sel l => rd = dl ++ r_out l /\ r_pos l = R mod N /\ S = R /\ r_next l = R mod N /\ r_i l < r_n l
  | RGet l => rd = dl ++ r_out l /\ r_pos l = R mod N /\ next_get N R P (r_n l - r_i l) (r_next l) /\ r_i l < r_n l
  | REndRelease l | REndRelease_sel l => rd = dl ++ r_out l /\ S = R
  | RCrash => exists x, rd = dl ++ x
  end.

Record Inv (N : Z) (g : ring) (wr dl w todo rd : list Z) (S P Sl : Z) : Prop := mkInv {
  i_N : 2 <= N < 2 ^ 31;
  i_size : g_size g = N;
  i_cells : zlen (g_cells g) = N;
  i_wr : wr = w ++ todo;
  i_rd : prefix rd w;
  i_start : g_start g = S mod N;
  i_next : g_next g = P mod N;
  i_order : 0 <= Sl <= S /\ S <= zlen rd <= P /\ P <= zlen w /\ zlen w - Sl <= N - 1;
  i_data : forall k, Sl <= k < zlen w -> nth (Z.to_nat (k mod N)) (g_cells g) 0 = nth (Z.to_nat k) w 0;
  i_w : wInv N (zlen w) P Sl todo (g_w g);
  i_r : rInv N S P (zlen rd) dl rd (g_r g)
}.

Lemma prefix_zlen a b : prefix a b -> zlen a <= zlen b.
Proof. intros [c ->]. rewrite zlen_app. pose proof (zlen_nonneg c). lia. Qed.

Lemma prefix_snoc a b : prefix a b -> zlen a < zlen b -> prefix (a ++ [nth (Z.to_nat (zlen a)) b 0]) b.
Proof.
  intros [c ->] H. destruct c as [|x c].
  - rewrite app_nil_r in H. lia.
  - exists c. rewrite app_nth2 by (unfold zlen; lia). unfold zlen. rewrite Nat2Z.id, Nat.sub_diag. cbn.
    rewrite <- app_assoc. reflexivity.
Qed.

Lemma skipn_index {A} (l : list A) n i b : 0 <= i < n -> index l i = Some b ->
  skipn (Z.to_nat i) (firstn (Z.to_nat n) l) = b :: skipn (Z.to_nat (i + 1)) (firstn (Z.to_nat n) l).
Proof.
  intros Hi. unfold index. destruct (Z.leb_spec 0 i); [|lia]. intros E.
  replace (Z.to_nat (i + 1)) with (S (Z.to_nat i)) by lia.
  assert (Hn : (Z.to_nat i < Z.to_nat n)%nat) by lia. clear H Hi.
  revert Hn E. generalize (Z.to_nat n), (Z.to_nat i). intros k j. revert k l.
  induction j as [|j IH]; intros k l Hn E.
  - destruct l; [discriminate|]. cbn in E. injection E as ->. destruct k; [lia|]. reflexivity.
  - destruct l as [|y l]; [discriminate|]. destruct k; [lia|]. cbn [firstn]. cbn in E.
    cbn [skipn]. apply IH; [lia|exact E].
Qed.

Ltac use_inv H := destruct H as [HN Hsize Hcells Hwr Hrd Hstart Hnext Hord Hdata Hw Hr].
Ltac same := first [assumption | lia | auto].

Lemma next_ok_mono N R P P' rem next : P <= P' -> next_ok N R P rem next -> next_ok N R P' rem next.
Proof.
  intros H [(Q & E & B)|(P0 & E & B1 & B2 & B3)]; [left; exists Q; split; [exact E|lia]|].
  right. exists P0. repeat split; try assumption. lia.
Qed.
Lemma next_get_mono N R P P' rem next : P <= P' -> next_get N R P rem next -> next_get N R P' rem next.
Proof.
  intros H [(Q & E & B)|(P0 & E & B1 & B2 & B3 & B4)]; [left; exists Q; split; [exact E|lia]|].
  right. exists P0. repeat split; try assumption. lia.
Qed.
Lemma rInv_mono N S P P' R dl rd p : P <= P' -> rInv N S P R dl rd p -> rInv N S P' R dl rd p.
Proof.
  intros H. destruct p; cbn [rInv]; try tauto.
  - intros (H1 & H2 & H3). split; [exact H1|]. split; [exact H2|]. apply (next_ok_mono N R P), H3. exact H.
  - intros (H1 & H2 & H3 & H4). split; [exact H1|]. split; [exact H2|]. split; [|exact H4]. apply (next_get_mono N R P), H3. exact H.
Qed.

Lemma occupancy_eq N g S P : 2 <= N -> g_size g = N -> g_start g = S mod N -> g_next g = P mod N ->
  0 <= P - S <= N - 1 -> occupancy g = P - S.
Proof.
  intros HN H1 H2 H3 H4. unfold occupancy. rewrite H1, H2, H3, <- Zminus_mod. apply Z.mod_small. lia.
Qed.

(** The writer goes on after Wait. *)
Lemma w_again_inv N g wr dl w todo rd S P Sl l :
  Inv N g wr dl w todo rd S P Sl -> g_w g = WWait l \/ g_w g = WWait_sel l ->
  occupancy g + (w_n l - 1 - w_i l) <= g_size g - 2 ->
  wInv N (zlen w) P S todo (w_again l).
Proof.
  intros HI Hpc Hocc. use_inv HI.
  assert (Hw' : todo = skipn (Z.to_nat (w_i l + 1)) (firstn (Z.to_nat (w_n l)) (w_data l)) /\ 0 <= w_i l < w_n l /\
      w_pos l = zlen w mod N /\ zlen w - Sl = N - 1 /\ P = zlen w /\ w_start l = Sl mod N).
  { destruct Hpc as [E|E]; rewrite E in Hw; exact Hw. }
  clear Hw Hpc. destruct Hw' as (Ht & Hi & Hpos & HW & HP & Hs).
  rewrite (occupancy_eq N g S P) in Hocc; [|lia|assumption|assumption|assumption|lia]. rewrite Hsize in Hocc.
  unfold w_again. cbn [wInv w_i w_n w_data w_pos w_start]. split; [exact Ht|]. split; [lia|]. split; [exact Hpos|].
  assert (Hrem : zlen todo <= w_n l - 1 - w_i l).
  { rewrite Ht. unfold zlen. rewrite skipn_length, firstn_length. lia. }
  pose proof (zlen_nonneg todo). split; [lia|]. right. exists Sl. split; [exact Hs|]. lia.
Qed.

Lemma set_w_inv N g p wr dl w todo rd S P Sl : forall Sl' P',
  Inv N g wr dl w todo rd S P Sl -> Sl <= Sl' <= S -> P = P' -> wInv N (zlen w) P' Sl' todo p ->
  Inv N (set_w g p) wr dl w todo rd S P' Sl'.
Proof.
  intros Sl' P' HI HS <- Hp. use_inv HI. constructor; cbn [set_w g_size g_cells g_start g_next g_w g_r]; try assumption.
  - lia.
  - intros k Hk. apply Hdata. lia.
Qed.

Lemma w_step_inv N g wr dl w todo rd S P Sl g' evs :
  Inv N g wr dl w todo rd S P Sl -> good_wake g WStep -> w_step g = Some (g', evs) ->
  (evs = [] \/ evs = [EWrote]) /\ exists w' todo' P' Sl', Inv N g' wr dl w' todo' rd S P' Sl'.
Proof.
  intros HI Hgood Hstep. pose proof HI as HI0. use_inv HI0. unfold w_step in Hstep.
  destruct (g_w g) as [|data n|data n pos|l|l|l|l|l|l|l|l|l|] eqn:Hpc; try discriminate Hstep; cbn [wInv] in Hw.
  - (* WLoadNext *)
    injection Hstep as <- <-. split; [auto|]. exists w, todo, P, Sl. apply (set_w_inv N g _ _ _ _ _ _ _ P Sl); try assumption; try lia.
    cbn [wInv]. destruct Hw as (H1 & H2 & H3). repeat split; try assumption. rewrite Hnext, H2. reflexivity.
  - (* WLoadStart *)
    injection Hstep as <- <-. split; [auto|]. exists w, todo, P, S. apply (set_w_inv N g _ _ _ _ _ _ _ P Sl); try assumption; try lia.
    cbn [wInv w_i w_n w_data w_pos w_start]. destruct Hw as (H1 & H2 & H3 & H4). split; [exact H1|].
    split; [lia|]. split; [exact H4|]. split; [lia|]. left. exact Hstart.
  - (* WLoop *)
    destruct Hw as (Ht & Hi & Hpos & HW & Hs). destruct (Z.ltb_spec (w_i l) (w_n l)) as [Hlt|Hge].
    + destruct (index (w_data l) (w_i l)) as [b|] eqn:Hb.
      2:{ injection Hstep as <- <-. split; [auto|]. exists w, todo, P, Sl.
          apply (set_w_inv N g _ _ _ _ _ _ _ P Sl); try assumption; try lia. exact I. }
      assert (Htodo : todo = b :: skipn (Z.to_nat (w_i l + 1)) (firstn (Z.to_nat (w_n l)) (w_data l))).
      { rewrite Ht. apply skipn_index; [lia|exact Hb]. }
      set (todo' := skipn (Z.to_nat (w_i l + 1)) (firstn (Z.to_nat (w_n l)) (w_data l))) in *.
      pose proof (Z.mod_pos_bound (zlen w) N ltac:(lia)) as Bp.
      destruct (store (g_cells g) (w_pos l) b) as [cells|] eqn:Hst.
      2:{ exfalso. destruct (store_some (g_cells g) (w_pos l) b) as [s' E]; [rewrite Hpos; lia|congruence]. }
      injection Hstep as <- <-. split; [auto|]. exists (w ++ [b]), todo', P, Sl.
      assert (HW1 : zlen (w ++ [b]) = zlen w + 1) by (rewrite zlen_app; reflexivity).
      assert (Hrem : zlen todo = zlen todo' + 1) by (rewrite Htodo; unfold zlen; cbn [length]; lia).
      assert (Hp1 : incr (w_pos l) (g_size g) = zlen (w ++ [b]) mod N).
      { rewrite Hpos, Hsize, HW1. apply incr_mod. lia. }
      pose proof (zlen_nonneg todo') as Ht0.
      constructor; cbn [set_w set_cells g_size g_cells g_start g_next g_w g_r]; try assumption.
      * rewrite (proj1 (store_zlen _ _ _ _ Hst)). exact Hcells.
      * rewrite Hwr, Htodo, <- app_assoc. reflexivity.
      * destruct Hrd as [c ->]. exists (c ++ [b]). rewrite <- app_assoc. reflexivity.
      * lia.
      * intros k Hk. rewrite (store_nth _ _ _ _ Hst) by (apply Z.mod_pos_bound; lia). rewrite Hpos.
        destruct (Z.eqb_spec (k mod N) (zlen w mod N)) as [E|E].
        -- apply mod_near in E; [|lia|lia]. subst k. rewrite app_nth2 by (unfold zlen; lia).
           unfold zlen. rewrite Nat2Z.id, Nat.sub_diag. reflexivity.
        -- assert (k <> zlen w) by congruence. rewrite app_nth1 by (unfold zlen in *; lia). apply Hdata. lia.
      * rewrite Hp1, Hsize, incr_mod by lia. rewrite HW1.
        destruct (Z.eqb_spec ((zlen w + 1 + 1) mod N) (w_start l)) as [E|E].
        -- cbn [wInv w_i w_n w_data w_pos]. split; [reflexivity|]. split; [lia|]. split; [reflexivity|].
           destruct Hs as [Hs|(S0 & Hs & B1 & B2 & B3)]; rewrite Hs in E.
           ++ replace ((zlen w + 1 + 1) mod N) with ((zlen w + 2 - N) mod N) in E.
              ** apply mod_near in E; lia.
              ** rewrite <- (Z_mod_plus_full (zlen w + 2 - N) 1 N). f_equal. lia.
           ++ exfalso. replace ((zlen w + 1 + 1) mod N) with ((zlen w + 2 - N) mod N) in E.
              ** apply mod_near in E; lia.
              ** rewrite <- (Z_mod_plus_full (zlen w + 2 - N) 1 N). f_equal. lia.
        -- cbn [w_again wInv w_i w_n w_data w_pos w_start]. split; [reflexivity|]. split; [lia|]. split; [reflexivity|].
           destruct Hs as [Hs|(S0 & Hs & B1 & B2 & B3)].
           ++ split; [|left; exact Hs]. destruct (Z.eq_dec (zlen w + 1 - Sl) (N - 1)) as [E1|E1]; [|lia].
              exfalso. apply E. rewrite Hs. rewrite <- (Z_mod_plus_full Sl 1 N). f_equal. lia.
           ++ split; [lia|]. right. exists S0. split; [exact Hs|]. lia.
    + assert (Ht0 : todo = []).
      { rewrite Ht. apply skipn_all2. rewrite firstn_length. lia. }
      assert (HI' : forall p, wInv N (zlen w) (zlen w) Sl todo p -> Inv N (set_w (set_next g (w_pos l)) p) wr dl w todo rd S (zlen w) Sl).
      { intros p Hp. constructor; cbn [set_w set_next g_size g_cells g_start g_next g_w g_r]; try assumption; try lia.
        apply (rInv_mono N S P); [lia|exact Hr]. }
      destruct (w_wrote l + 1 <? w_n l); injection Hstep as <- <-; (split; [auto|]); exists w, todo, (zlen w), Sl; apply HI'; cbn [wInv]; auto with zarith.
  - (* WFullStore *)
    destruct Hw as (Ht & Hi & Hpos & HW). injection Hstep as <- <-. split; [auto|]. exists w, todo, (zlen w), Sl.
    constructor; cbn [set_w set_next g_size g_cells g_start g_next g_w g_r]; try assumption; try lia.
    + cbn [wInv]. repeat split; try assumption; lia.
    + apply (rInv_mono N S P); [lia|exact Hr].
  - (* WFullRelease *)
    destruct (g_rset g); injection Hstep as <- <-; (split; [auto|]); exists w, todo, P, Sl.
    + constructor; cbn [set_w set_rset g_size g_cells g_start g_next g_w g_r]; try assumption; try lia.
    + apply (set_w_inv N g _ _ _ _ _ _ _ P Sl); try assumption; lia.
  - (* WFullLoad *)
    destruct Hw as (Ht & Hi & Hpos & HW & HP). injection Hstep as <- <-. split; [auto|].
    exists w, todo, P, S. apply (set_w_inv N g _ _ _ _ _ _ _ P Sl); try assumption; try lia.
    rewrite Hpos, Hsize, incr_mod by lia.
    destruct (Z.eqb_spec ((zlen w + 1) mod N) (g_start g)) as [E|E].
    + cbn [wInv w_i w_n w_data w_pos w_start]. rewrite Hstart in E.
      replace ((zlen w + 1) mod N) with ((zlen w + 1 - N) mod N) in E.
      * apply mod_near in E; [|lia|lia]. repeat split; try assumption; lia.
      * rewrite <- (Z_mod_plus_full (zlen w + 1 - N) 1 N). f_equal. lia.
    + cbn [w_again wInv w_i w_n w_data w_pos w_start]. split; [exact Ht|]. split; [lia|]. split; [reflexivity|].
      split; [|left; exact Hstart]. destruct (Z.eq_dec (zlen w - S) (N - 1)) as [E1|E1]; [|lia].
      exfalso. apply E. rewrite Hstart. rewrite <- (Z_mod_plus_full S 1 N). f_equal. lia.
  - (* WWait *)
    destruct (g_wset g) eqn:Hset; injection Hstep as <- <-; (split; [auto|]).
    + exists w, todo, P, S. apply (set_w_inv N g _ _ _ _ _ _ _ P Sl); try assumption; try lia.
      apply (w_again_inv N g wr dl w todo rd S P Sl); [exact HI|left; exact Hpc|].
      apply (proj2 Hgood). unfold writer_wakes. rewrite Hpc, Hset. reflexivity.
    + exists w, todo, P, Sl. constructor; cbn [set_w set_wset g_size g_cells g_start g_next g_w g_r]; try assumption; try lia.
  - (* WEndRelease *)
    destruct (g_rset g); injection Hstep as <- <-; (split; [auto|]); exists w, todo, P, Sl.
    + constructor; cbn [set_w set_rset g_size g_cells g_start g_next g_w g_r]; try assumption; try lia.
    + apply (set_w_inv N g _ _ _ _ _ _ _ P Sl); try assumption; lia.
Qed.

Lemma set_r_inv N g p wr dl w todo rd S P Sl : forall dl',
  Inv N g wr dl w todo rd S P Sl -> rInv N S P (zlen rd) dl' rd p ->
  Inv N (set_r g p) wr dl' w todo rd S P Sl.
Proof.
  intros dl' HI Hp. use_inv HI. constructor; cbn [set_r g_size g_cells g_start g_next g_w g_r]; assumption.
Qed.

(** Reading one byte. *)
Lemma r_get_inv N g wr dl w todo rd S P Sl l g' evs :
  Inv N g wr dl w todo rd S P Sl ->
  rd = dl ++ r_out l -> r_pos l = zlen rd mod N -> next_get N (zlen rd) P (r_n l - r_i l) (r_next l) ->
  r_get g l = Some (g', evs) ->
  evs = [] /\ exists rd', Inv N g' wr dl w todo rd' S P Sl.
Proof.
  intros HI Hout Hpos Hng Hstep. use_inv HI. unfold r_get in Hstep.
  assert (HR : zlen rd < P). { destruct Hng as [(P' & _ & B)|(P0 & _ & B)]; lia. }
  destruct (index (g_cells g) (r_pos l)) as [b|] eqn:Hb.
  2:{ exfalso. destruct (index_some (g_cells g) (r_pos l)) as [x E]; [|congruence].
      rewrite Hpos, Hcells. apply Z.mod_pos_bound. lia. }
  assert (Hb' : b = nth (Z.to_nat (zlen rd)) w 0).
  { apply index_nth in Hb. destruct Hb as [_ <-]. rewrite Hpos. apply Hdata. lia. }
  destruct (r_i l <? r_cap l); injection Hstep as <- <-; (split; [reflexivity|]).
  - exists (rd ++ [b]). assert (HR1 : zlen (rd ++ [b]) = zlen rd + 1) by (rewrite zlen_app; reflexivity).
    constructor; cbn [set_r g_size g_cells g_start g_next g_w g_r]; try assumption; try lia.
    + rewrite Hb'. apply prefix_snoc; [exact Hrd|lia].
    + cbn [rInv r_out r_pos r_n r_i r_next]. split; [rewrite Hout, <- app_assoc; reflexivity|].
      rewrite Hpos, Hsize, HR1. split; [apply incr_mod; lia|].
      destruct Hng as [(P' & E & B)|(P0 & E & B1 & B2 & B3 & B4)].
      * left. exists P'. split; [exact E|lia].
      * right. exists P0. split; [exact E|]. replace (Z.max 0 (r_n l - (r_i l + 1))) with (r_n l - r_i l - 1) by lia. lia.
  - exists rd. constructor; cbn [set_r g_size g_cells g_start g_next g_w g_r]; try assumption. cbn [rInv]. eauto.
Qed.

Lemma r_step_inv N g wr dl w todo rd S P Sl g' evs :
  Inv N g wr dl w todo rd S P Sl -> good_wake g RStep -> r_step g = Some (g', evs) ->
  written evs = [] /\ exists rd' S', Inv N g' wr (dl ++ delivered evs) w todo rd' S' P Sl.
Proof.
  intros HI Hgood Hstep. pose proof HI as HI0. use_inv HI0. unfold r_step in Hstep.
  destruct (g_r g) as [|cap n|cap n pos|l|l|l|l|l|l|l|l|l|] eqn:Hpc; try discriminate Hstep; cbn [rInv] in Hr.
  - (* RLoadStart *)
    injection Hstep as <- <-. split; [reflexivity|]. exists rd, S. cbn [delivered flat_map]. rewrite app_nil_r.
    apply (set_r_inv N g _ _ dl); [exact HI|]. cbn [rInv]. destruct Hr as [H1 H2]. repeat split; try assumption. rewrite Hstart, H2. reflexivity.
  - (* RLoadNext *)
    injection Hstep as <- <-. split; [reflexivity|]. exists rd, S. cbn [delivered flat_map]. rewrite app_nil_r.
    apply (set_r_inv N g _ _ dl); [exact HI|]. cbn [rInv r_out r_pos r_n r_i r_next]. destruct Hr as (H1 & H2 & H3). rewrite app_nil_r.
    split; [exact H1|]. split; [exact H3|]. left. exists P. split; [exact Hnext|lia].
  - (* RLoop *)
    destruct Hr as (Hout & Hpos & Hnok). destruct (Z.ltb_spec (r_i l) (r_n l)) as [Hlt|Hge].
    + destruct (Z.eqb_spec (r_pos l) (r_next l)) as [E|E].
      * assert (HS : forall p, rInv N (zlen rd) P (zlen rd) dl rd p ->
            Inv N (set_r (set_start g (r_pos l)) p) wr (dl ++ delivered []) w todo rd (zlen rd) P Sl).
        { intros p Hp. cbn [delivered flat_map]. rewrite app_nil_r.
          constructor; cbn [set_r set_start g_size g_cells g_start g_next g_w g_r]; try assumption; try lia. }
        destruct (0 <? r_read l); injection Hstep as <- <-; (split; [reflexivity|]); exists rd, (zlen rd); apply HS; cbn [rInv];
          repeat split; try assumption; lia.
      * assert (Hng : next_get N (zlen rd) P (r_n l - r_i l) (r_next l)).
        { rewrite Hpos in E. destruct Hnok as [(P' & E1 & B)|(P0 & E1 & B1 & B2 & B3)].
          - left. exists P'. split; [exact E1|]. assert (zlen rd <> P') by congruence. lia.
          - right. exists P0. split; [exact E1|]. lia. }
        destruct (r_get_inv N g wr dl w todo rd S P Sl l g' evs HI Hout Hpos Hng Hstep) as [-> [rd' HI']].
        split; [reflexivity|]. exists rd', S. cbn [delivered flat_map]. rewrite app_nil_r. exact HI'.
    + assert (HS : forall p dl', rInv N (zlen rd) P (zlen rd) dl' rd p ->
            Inv N (set_r (set_start g (r_pos l)) p) wr dl' w todo rd (zlen rd) P Sl).
      { intros p dl' Hp.
        constructor; cbn [set_r set_start g_size g_cells g_start g_next g_w g_r]; try assumption; try lia. }
      destruct (0 <? r_read l); injection Hstep as <- <-; (split; [reflexivity|]); exists rd, (zlen rd); apply HS;
        cbn [rInv delivered flat_map]; rewrite ?app_nil_r; auto.
  - (* REmptyRelease *)
    destruct (g_wset g); injection Hstep as <- <-; (split; [reflexivity|]); exists rd, S; cbn [delivered flat_map]; rewrite app_nil_r.
    + constructor; cbn [set_r set_wset g_size g_cells g_start g_next g_w g_r]; try assumption.
    + apply (set_r_inv N g _ _ dl); assumption.
  - (* REmptyLoad *)
    destruct Hr as (Hout & Hpos & HS & Hi). injection Hstep as <- <-. split; [reflexivity|]. exists rd, S. cbn [delivered flat_map]. rewrite app_nil_r.
    apply (set_r_inv N g _ _ dl); [exact HI|].
    destruct (Z.eqb_spec (r_pos l) (g_next g)) as [E|E]; cbn [rInv r_out r_pos r_n r_i r_next].
    + repeat split; try assumption. congruence.
    + split; [exact Hout|]. split; [exact Hpos|]. split; [|exact Hi]. left. exists P. split; [exact Hnext|].
      assert (zlen rd <> P) by (intros F; apply E; rewrite Hpos, Hnext, F; reflexivity). lia.
  - (* RWait *)
    destruct Hr as (Hout & Hpos & HS & Hn & Hi).
    destruct (g_rset g) eqn:Hset; injection Hstep as <- <-; (split; [reflexivity|]); exists rd, S; cbn [delivered flat_map]; rewrite app_nil_r.
    + apply (set_r_inv N g _ _ dl); [exact HI|]. cbn [rInv]. split; [exact Hout|]. split; [exact Hpos|]. split; [|exact Hi].
      assert (Ho : r_n l - r_i l <= occupancy g).
      { apply (proj1 Hgood). unfold reader_wakes. rewrite Hpc, Hset. reflexivity. }
      rewrite (occupancy_eq N g S P) in Ho by (try assumption; lia).
      right. exists (zlen rd). split; [exact Hn|]. lia.
    + constructor; cbn [set_r set_rset g_size g_cells g_start g_next g_w g_r]; try assumption. cbn [rInv]. auto.
  - (* RGet *)
    destruct Hr as (Hout & Hpos & Hng & Hi).
    destruct (r_get_inv N g wr dl w todo rd S P Sl l g' evs HI Hout Hpos Hng Hstep) as [-> [rd' HI']].
    split; [reflexivity|]. exists rd', S. cbn [delivered flat_map]. rewrite app_nil_r. exact HI'.
  - (* REndRelease *)
    destruct Hr as (Hout & HS). destruct (g_wset g); injection Hstep as <- <-; (split; [reflexivity|]); exists rd, S; cbn [delivered flat_map]; rewrite ?app_nil_r.
    + constructor; cbn [set_r set_wset g_size g_cells g_start g_next g_w g_r]; try assumption. cbn [rInv]. auto.
    + apply (set_r_inv N g _ _ dl); [exact HI|]. cbn [rInv]. auto.
Qed.

(** Leaving a select. *)
Lemma w_leave_inv N g wr dl w todo rd S P Sl g' evs :
  Inv N g wr dl w todo rd S P Sl ->
  (forall l, g_w g = WWait_sel l -> occupancy g + (w_n l - 1 - w_i l) <= g_size g - 2) ->
  w_leave g = Some (g', evs) ->
  (evs = [] \/ evs = [EWrote]) /\ exists Sl', Inv N g' wr dl w todo rd S P Sl' /\ g_r g' = g_r g /\ occupancy g' = occupancy g.
Proof.
  intros HI Hg Hstep. pose proof HI as HI0. use_inv HI0. unfold w_leave in Hstep.
  destruct (g_w g) eqn:Hpc; try discriminate Hstep; injection Hstep as <- <-; (split; [auto|]).
  - exists Sl. split; [|split; reflexivity]. apply (set_w_inv N g _ _ _ _ _ _ _ P Sl); try assumption; lia.
  - exists S. split; [|split; reflexivity]. apply (set_w_inv N g _ _ _ _ _ _ _ P Sl); try assumption; try lia.
    apply (w_again_inv N g wr dl w todo rd S P Sl); [exact HI|right; exact Hpc|]. apply Hg. reflexivity.
  - exists Sl. split; [|split; reflexivity]. apply (set_w_inv N g _ _ _ _ _ _ _ P Sl); try assumption; lia.
Qed.
Lemma r_leave_inv N g wr dl w todo rd S P Sl g' evs :
  Inv N g wr dl w todo rd S P Sl ->
  (forall l, g_r g = RWait_sel l -> r_n l - r_i l <= occupancy g) ->
  r_leave g = Some (g', evs) ->
  written evs = [] /\ Inv N g' wr (dl ++ delivered evs) w todo rd S P Sl.
Proof.
  intros HI Hg Hstep. pose proof HI as HI0. use_inv HI0. unfold r_leave in Hstep.
  destruct (g_r g) as [| | | | |l| | |l| | |l|] eqn:Hpc; try discriminate Hstep; injection Hstep as <- <-; (split; [reflexivity|]); cbn [delivered flat_map]; rewrite ?app_nil_r.
  - apply (set_r_inv N g _ _ dl); assumption.
  - apply (set_r_inv N g _ _ dl); [exact HI|]. cbn [rInv] in Hr |- *. destruct Hr as (Hout & Hpos & HS & Hn & Hi).
    split; [exact Hout|]. split; [exact Hpos|]. split; [|exact Hi].
    specialize (Hg l eq_refl). rewrite (occupancy_eq N g S P) in Hg by (try assumption; lia).
    right. exists (zlen rd). split; [exact Hn|]. lia.
  - apply (set_r_inv N g _ _ dl); [exact HI|]. cbn [rInv] in Hr |- *. exact Hr.
Qed.

Lemma zeros_cells n k : nth k (repeat 0 n) 0 = 0.
Proof. revert k. induction n; intros [|k]; cbn; auto. Qed.

Lemma init_inv N : 2 <= N < 2 ^ 31 -> Inv N (New N) [] [] [] [] [] 0 0 0.
Proof.
  intros HN. constructor; cbn [New g_size g_cells g_start g_next g_w g_r wInv rInv]; auto.
  - apply int32_id. unfold is_int32. lia.
  - unfold zlen. rewrite repeat_length. lia.
  - exists []. reflexivity.
  - unfold zlen. cbn. lia.
  - unfold zlen. cbn. intros. lia.
  - unfold zlen. cbn. repeat split; lia.
Qed.

Lemma step_inv N g wr dl w todo rd S P Sl a g' evs :
  Inv N g wr dl w todo rd S P Sl -> good_wake g a -> step g a = Some (g', evs) ->
  exists w' todo' rd' S' P' Sl', Inv N g' (wr ++ written evs) (dl ++ delivered evs) w' todo' rd' S' P' Sl'.
Proof.
  intros HI Hg Hstep. destruct a; cbn [step] in Hstep.
  - (* WCall *)
    destruct (g_w g) eqn:Hpc; try discriminate Hstep. injection Hstep as <- <-.
    exists w, (firstn (Z.to_nat n) data), rd, S, P, Sl. cbn [written delivered flat_map]. rewrite !app_nil_r.
    use_inv HI. rewrite Hpc in Hw. cbn [wInv] in Hw. destruct Hw as (-> & Hw).
    constructor; cbn [set_w g_size g_cells g_start g_next g_w g_r]; try assumption.
    + rewrite Hwr, app_nil_r. reflexivity.
    + cbn [wInv]. auto.
  - (* RCall *)
    destruct (g_r g) eqn:Hpc; try discriminate Hstep. injection Hstep as <- <-.
    exists w, todo, rd, S, P, Sl. cbn [written delivered flat_map]. rewrite !app_nil_r.
    apply (set_r_inv N g _ _ dl); [exact HI|]. use_inv HI. rewrite Hpc in Hr. exact Hr.
  - destruct (w_step_inv _ _ _ _ _ _ _ _ _ _ _ _ HI Hg Hstep) as [He (w' & todo' & P' & Sl' & H)].
    exists w', todo', rd, S, P', Sl'. destruct He as [-> | ->]; cbn [written delivered flat_map]; rewrite !app_nil_r; exact H.
  - destruct (r_step_inv _ _ _ _ _ _ _ _ _ _ _ _ HI Hg Hstep) as [He (rd' & S' & H)].
    rewrite He, app_nil_r. exists w, todo, rd', S', P, Sl. exact H.
  - (* SyncRead *)
    destruct (r_waiting (g_r g)) eqn:Hrw; [|discriminate]. destruct (w_releasing (g_w g)) eqn:Hwr'; [|discriminate].
    cbn [andb] in Hstep. unfold leave_both in Hstep. destruct (w_leave g) as [[g1 e1]|] eqn:E1; [|discriminate].
    destruct (w_leave_inv _ _ _ _ _ _ _ _ _ _ _ _ HI ltac:(intros l E; rewrite E in Hwr'; discriminate) E1) as [He1 (Sl' & HI1 & Hr1 & Ho1)].
    destruct (r_leave g1) as [[g2 e2]|] eqn:E2; [|discriminate]. injection Hstep as <- <-.
    assert (Hg2 : forall l, g_r g1 = RWait_sel l -> r_n l - r_i l <= occupancy g1).
    { intros l E. rewrite Hr1 in E. rewrite Ho1. apply (proj1 Hg). unfold reader_wakes. rewrite E. reflexivity. }
    destruct (r_leave_inv _ _ _ _ _ _ _ _ _ _ _ _ HI1 Hg2 E2) as [He2 HI2].
    exists w, todo, rd, S, P, Sl'.
    assert (Hw0 : written (e1 ++ e2) = []) by (unfold written in *; rewrite flat_map_app, He2; destruct He1 as [-> | ->]; reflexivity).
    assert (Hd0 : delivered (e1 ++ e2) = delivered e2) by (unfold delivered; rewrite flat_map_app; destruct He1 as [-> | ->]; reflexivity).
    rewrite Hw0, Hd0, app_nil_r. exact HI2.
  - (* SyncWrite *)
    destruct (w_waiting (g_w g)) eqn:Hww; [|discriminate]. destruct (r_releasing (g_r g)) eqn:Hrr; [|discriminate].
    cbn [andb] in Hstep. unfold leave_both in Hstep. destruct (w_leave g) as [[g1 e1]|] eqn:E1; [|discriminate].
    assert (Hg1 : forall l, g_w g = WWait_sel l -> occupancy g + (w_n l - 1 - w_i l) <= g_size g - 2).
    { intros l E. apply (proj2 Hg). unfold writer_wakes. rewrite E. reflexivity. }
    destruct (w_leave_inv _ _ _ _ _ _ _ _ _ _ _ _ HI Hg1 E1) as [He1 (Sl' & HI1 & Hr1 & Ho1)].
    destruct (r_leave g1) as [[g2 e2]|] eqn:E2; [|discriminate]. injection Hstep as <- <-.
    assert (Hg2 : forall l, g_r g1 = RWait_sel l -> r_n l - r_i l <= occupancy g1).
    { intros l E. rewrite Hr1 in E. rewrite E in Hrr. discriminate. }
    destruct (r_leave_inv _ _ _ _ _ _ _ _ _ _ _ _ HI1 Hg2 E2) as [He2 HI2].
    exists w, todo, rd, S, P, Sl'.
    assert (Hw0 : written (e1 ++ e2) = []) by (unfold written in *; rewrite flat_map_app, He2; destruct He1 as [-> | ->]; reflexivity).
    assert (Hd0 : delivered (e1 ++ e2) = delivered e2) by (unfold delivered; rewrite flat_map_app; destruct He1 as [-> | ->]; reflexivity).
    rewrite Hw0, Hd0, app_nil_r. exact HI2.
  - (* WDone *)
    destruct (g_closed g); [|discriminate].
    assert (Hg1 : forall l, g_w g = WWait_sel l -> occupancy g + (w_n l - 1 - w_i l) <= g_size g - 2).
    { intros l E. apply (proj2 Hg). unfold writer_wakes. rewrite E. reflexivity. }
    destruct (w_leave_inv _ _ _ _ _ _ _ _ _ _ _ _ HI Hg1 Hstep) as [He1 (Sl' & HI1 & _)].
    exists w, todo, rd, S, P, Sl'. destruct He1 as [-> | ->]; cbn [written delivered flat_map]; rewrite !app_nil_r; exact HI1.
  - (* RDone *)
    destruct (g_closed g); [|discriminate].
    assert (Hg2 : forall l, g_r g = RWait_sel l -> r_n l - r_i l <= occupancy g).
    { intros l E. apply (proj1 Hg). unfold reader_wakes. rewrite E. reflexivity. }
    destruct (r_leave_inv _ _ _ _ _ _ _ _ _ _ _ _ HI Hg2 Hstep) as [He2 HI2].
    exists w, todo, rd, S, P, Sl. rewrite He2, app_nil_r. exact HI2.
  - (* Close *)
    injection Hstep as <- <-. exists w, todo, rd, S, P, Sl. cbn [written delivered flat_map]. rewrite !app_nil_r.
    use_inv HI. constructor; assumption.
Qed.

Lemma run_inv N : forall sched g wr dl w todo rd S P Sl g' evs,
  Inv N g wr dl w todo rd S P Sl -> all_steps good_wake g sched -> run g sched = Some (g', evs) ->
  exists w' todo' rd' S' P' Sl', Inv N g' (wr ++ written evs) (dl ++ delivered evs) w' todo' rd' S' P' Sl'.
Proof.
  induction sched as [|a sched IH]; intros g wr dl w todo rd S P Sl g' evs HI Hall Hrun; cbn [run] in Hrun.
  - injection Hrun as <- <-. cbn. rewrite !app_nil_r. eauto 10.
  - cbn [all_steps] in Hall. destruct Hall as [Hg Hall]. destruct (step g a) as [[g1 e1]|] eqn:E; [|discriminate].
    destruct (step_inv _ _ _ _ _ _ _ _ _ _ _ _ _ HI Hg E) as (w1 & todo1 & rd1 & S1 & P1 & Sl1 & HI1).
    destruct (run g1 sched) as [[g2 e2]|] eqn:E2; [|discriminate]. injection Hrun as <- <-.
    destruct (IH _ _ _ _ _ _ _ _ _ _ _ HI1 Hall E2) as (w2 & todo2 & rd2 & S2 & P2 & Sl2 & HI2).
    unfold written, delivered in *. rewrite !flat_map_app, !app_assoc. eauto 10.
Qed.

Lemma rd_prefix N S P R dl rd p : rInv N S P R dl rd p -> prefix dl rd.
Proof.
  destruct p; cbn [rInv]; intros H;
    try (destruct H as [-> _]; try (exists (r_out l); reflexivity); exists []; rewrite app_nil_r; reflexivity).
  destruct H as [x ->]. exists x. reflexivity.
Qed.

Lemma prefix_trans a b c : prefix a b -> prefix b c -> prefix a c.
Proof. intros [x ->] [y ->]. exists (x ++ y). rewrite app_assoc. reflexivity. Qed.

Lemma ring_fifo : forall size sched g evs, 2 <= size < 2 ^ 31 ->
  run (New size) sched = Some (g, evs) -> all_steps good_wake (New size) sched ->
  prefix (delivered evs) (written evs).
Proof.
  intros size sched g evs HN0 Hrun Hall.
  destruct (run_inv size sched _ _ _ _ _ _ _ _ _ _ _ (init_inv size HN0) Hall Hrun) as (w & todo & rd & S & P & Sl & HI).
  use_inv HI. cbn [app] in *. rewrite Hwr.
  apply (prefix_trans _ w); [|exists todo; reflexivity]. apply (prefix_trans _ rd); [|exact Hrd]. apply (rd_prefix _ _ _ _ _ _ _ Hr).
Qed.

Lemma nth_eq_list (a b : list Z) : length a = length b -> (forall k, (k < length a)%nat -> nth k a 0 = nth k b 0) -> a = b.
Proof. intros H1 H2. apply (nth_ext a b 0 0 H1 H2). Qed.

Lemma ring_complete : forall size sched g evs, 2 <= size < 2 ^ 31 ->
  run (New size) sched = Some (g, evs) -> all_steps good_wake (New size) sched ->
  g_w g = WIdle -> g_r g = RIdle -> written evs = delivered evs ++ contents g.
Proof.
  intros size sched g evs HN0 Hrun Hall Ew Er.
  destruct (run_inv size sched _ _ _ _ _ _ _ _ _ _ _ (init_inv size HN0) Hall Hrun) as (w & todo & rd & S & P & Sl & HI).
  use_inv HI. cbn [app] in *. rewrite Ew in Hw. rewrite Er in Hr. cbn [wInv rInv] in Hw, Hr.
  destruct Hw as (-> & HP & _). destruct Hr as (<- & HS). rewrite app_nil_r in Hwr. rewrite Hwr.
  assert (Ho : occupancy g = zlen w - zlen rd) by (rewrite (occupancy_eq size g S P); try assumption; lia).
  destruct Hrd as [c Ec]. rewrite Ec. f_equal.
  assert (Hc : zlen c = zlen w - zlen rd) by (rewrite Ec, zlen_app; lia).
  apply nth_eq_list.
  - unfold contents. rewrite map_length, seq_length, Ho. unfold zlen in *. lia.
  - intros k Hk. unfold contents. rewrite Ho.
    set (f := fun k0 : nat => nth (Z.to_nat ((g_start g + Z.of_nat k0) mod g_size g)) (g_cells g) 0).
    assert (Hk' : (k < length (List.seq 0 (Z.to_nat (zlen w - zlen rd))))%nat) by (rewrite seq_length; unfold zlen in *; lia).
    rewrite (nth_indep (map f _) 0 (f 0%nat)) by (rewrite map_length; exact Hk'). rewrite map_nth, seq_nth by (rewrite seq_length in Hk'; exact Hk').
    unfold f. rewrite Hstart, Hsize, Zplus_mod_idemp_l.
    rewrite (Hdata (S + Z.of_nat (0 + k))) by (unfold zlen in *; lia).
    rewrite Ec, app_nth2 by (unfold zlen in *; lia). f_equal. unfold zlen in *. lia.
Qed.
