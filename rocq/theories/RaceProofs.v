(** * Data races in the ring buffer *)
From Verif Require Import GoBase GoLemmas Ring RingSpec RingProofs RingProps RingSeq RaceSpec.
Local Open Scope Z_scope.
Ltac Zify.zify_post_hook ::= idtac.

(** The steps of the writer, with what they do to the numbers of the invariant. *)
Lemma w_full N g wr dl w todo rd S P Sl g' evs :
  Inv N g wr dl w todo rd S P Sl -> MInv g -> w_step g = Some (g', evs) -> g_w g' <> WCrash ->
  exists w' todo' P' Sl', Inv N g' wr dl w' todo' rd S P' Sl' /\
    match access (g, WStep) with Some (q, c) => q = Writer /\ c = zlen w mod N /\ zlen w' = zlen w + 1 | None => w' = w end /\
    (P' = P \/ atomic_store (g, WStep) = Some Writer /\ P' = zlen w) /\
    (Sl' = Sl \/ atomic_load (g, WStep) = Some Writer /\ Sl' = S) /\
    (forall l, g_w g = WLoop l -> w_i l < w_n l -> zlen w - Sl <= N - 2).
Proof.
  intros HI HM Hstep Hcr. pose proof HI as HI0. use_inv HI0. unfold w_step in Hstep. unfold access, atomic_store, atomic_load.
  destruct (g_w g) as [|data n|data n pos|l|l|l|l|l|l|l|l|l|] eqn:Hpc; try discriminate Hstep; cbn [wInv] in Hw.
  - (* WLoadNext *)
    injection Hstep as <- <-. exists w, todo, P, Sl. split; [|repeat split; auto; discriminate]. apply (set_w_inv N g _ _ _ _ _ _ _ P Sl); try assumption; try lia.
    cbn [wInv]. destruct Hw as (H1 & H2 & H3). repeat split; try assumption. rewrite Hnext, H2. reflexivity.
  - (* WLoadStart *)
    injection Hstep as <- <-. exists w, todo, P, S. split; [|repeat split; auto; discriminate]. apply (set_w_inv N g _ _ _ _ _ _ _ P Sl); try assumption; try lia.
    cbn [wInv w_i w_n w_data w_pos w_start]. destruct Hw as (H1 & H2 & H3 & H4). split; [exact H1|].
    split; [lia|]. split; [exact H4|]. split; [lia|]. left. exact Hstart.
  - (* WLoop *)
    destruct Hw as (Ht & Hi & Hpos & HW & Hs). destruct (Z.ltb_spec (w_i l) (w_n l)) as [Hlt|Hge].
    + destruct (index (w_data l) (w_i l)) as [b|] eqn:Hb; [|injection Hstep as <- <-; elim Hcr; reflexivity].
      assert (Htodo : todo = b :: skipn (Z.to_nat (w_i l + 1)) (firstn (Z.to_nat (w_n l)) (w_data l))).
      { rewrite Ht. apply skipn_index; [lia|exact Hb]. }
      set (todo' := skipn (Z.to_nat (w_i l + 1)) (firstn (Z.to_nat (w_n l)) (w_data l))) in *.
      pose proof (Z.mod_pos_bound (zlen w) N ltac:(lia)) as Bp.
      destruct (store (g_cells g) (w_pos l) b) as [cells|] eqn:Hst; [|injection Hstep as <- <-; elim Hcr; reflexivity].
      injection Hstep as <- <-. exists (w ++ [b]), todo', P, Sl.
      assert (HW1 : zlen (w ++ [b]) = zlen w + 1) by (rewrite zlen_app; reflexivity).
      split; [|split; [auto|split; [auto|split; [auto|intros; lia]]]].
      assert (Hrem : zlen todo = zlen todo' + 1) by (rewrite Htodo; unfold zlen; cbn [length]; lia).
      assert (Hp1 : incr (w_pos l) (g_size g) = zlen (w ++ [b]) mod N).
      { rewrite Hpos, Hsize, HW1. apply incr_mod. lia. }
      pose proof (zlen_nonneg todo') as Ht0.
      constructor; cbn [set_w set_cells g_size g_cells g_start g_next g_w g_r]; try assumption.
      * rewrite (proj1 (store_zlen _ _ _ _ Hst)). exact Hcells.
      * rewrite Hwr, Htodo, <- app_assoc. reflexivity.
      * destruct Hrd as [c ->]. exists (c ++ [b]). rewrite <- app_assoc. reflexivity.
      * lia.
      * intros k Hk. rewrite (store_nth _ _ _ _ Hst) by (apply Z.mod_pos_bound; lia). rewrite Hpos.
        destruct (Z.eqb_spec (k mod N) (zlen w mod N)) as [E|E].
        -- apply mod_near in E; [|lia|lia]. subst k. rewrite app_nth2 by (unfold zlen; lia).
           unfold zlen. rewrite Nat2Z.id, Nat.sub_diag. reflexivity.
        -- assert (k <> zlen w) by congruence. rewrite app_nth1 by (unfold zlen in *; lia). apply Hdata. lia.
      * rewrite Hp1, Hsize, incr_mod by lia. rewrite HW1.
        destruct (Z.eqb_spec ((zlen w + 1 + 1) mod N) (w_start l)) as [E|E].
        -- cbn [wInv w_i w_n w_data w_pos]. split; [reflexivity|]. split; [lia|]. split; [reflexivity|].
           destruct Hs as [Hs|(S0 & Hs & B1 & B2 & B3)]; rewrite Hs in E.
           ++ replace ((zlen w + 1 + 1) mod N) with ((zlen w + 2 - N) mod N) in E.
              ** apply mod_near in E; lia.
              ** rewrite <- (Z_mod_plus_full (zlen w + 2 - N) 1 N). f_equal. lia.
           ++ exfalso. replace ((zlen w + 1 + 1) mod N) with ((zlen w + 2 - N) mod N) in E.
              ** apply mod_near in E; lia.
              ** rewrite <- (Z_mod_plus_full (zlen w + 2 - N) 1 N). f_equal. lia.
        -- cbn [w_again wInv w_i w_n w_data w_pos w_start]. split; [reflexivity|]. split; [lia|]. split; [reflexivity|].
           destruct Hs as [Hs|(S0 & Hs & B1 & B2 & B3)].
           ++ split; [|left; exact Hs]. destruct (Z.eq_dec (zlen w + 1 - Sl) (N - 1)) as [E1|E1]; [|lia].
              exfalso. apply E. rewrite Hs. rewrite <- (Z_mod_plus_full Sl 1 N). f_equal. lia.
           ++ split; [lia|]. right. exists S0. split; [exact Hs|]. lia.
    + assert (Ht0 : todo = []).
      { rewrite Ht. apply skipn_all2. rewrite firstn_length. lia. }
      assert (HI' : forall p, wInv N (zlen w) (zlen w) Sl todo p -> Inv N (set_w (set_next g (w_pos l)) p) wr dl w todo rd S (zlen w) Sl).
      { intros p Hp. constructor; cbn [set_w set_next g_size g_cells g_start g_next g_w g_r]; try assumption; try lia.
        apply (rInv_mono N S P); [lia|exact Hr]. }
      destruct (w_wrote l + 1 <? w_n l); injection Hstep as <- <-; exists w, todo, (zlen w), Sl;
        (split; [apply HI'; cbn [wInv]; auto with zarith|split; [auto|split; [auto|split; [auto|intros; lia]]]]).
  - (* WFullStore *)
    destruct Hw as (Ht & Hi & Hpos & HW). injection Hstep as <- <-. exists w, todo, (zlen w), Sl.
    split; [|repeat split; auto; discriminate].
    constructor; cbn [set_w set_next g_size g_cells g_start g_next g_w g_r]; try assumption; try lia.
    + cbn [wInv]. repeat split; try assumption; lia.
    + apply (rInv_mono N S P); [lia|exact Hr].
  - (* WFullRelease *)
    destruct (g_rset g); injection Hstep as <- <-; exists w, todo, P, Sl; (split; [|repeat split; auto; discriminate]).
    + constructor; cbn [set_w set_rset g_size g_cells g_start g_next g_w g_r]; try assumption; try lia.
    + apply (set_w_inv N g _ _ _ _ _ _ _ P Sl); try assumption; lia.
  - (* WFullLoad *)
    destruct Hw as (Ht & Hi & Hpos & HW & HP). injection Hstep as <- <-.
    exists w, todo, P, S. split; [|repeat split; auto; discriminate]. apply (set_w_inv N g _ _ _ _ _ _ _ P Sl); try assumption; try lia.
    rewrite Hpos, Hsize, incr_mod by lia.
    destruct (Z.eqb_spec ((zlen w + 1) mod N) (g_start g)) as [E|E].
    + cbn [wInv w_i w_n w_data w_pos w_start]. rewrite Hstart in E.
      replace ((zlen w + 1) mod N) with ((zlen w + 1 - N) mod N) in E.
      * apply mod_near in E; [|lia|lia]. repeat split; try assumption; lia.
      * rewrite <- (Z_mod_plus_full (zlen w + 1 - N) 1 N). f_equal. lia.
    + cbn [w_again wInv w_i w_n w_data w_pos w_start]. split; [exact Ht|]. split; [lia|]. split; [reflexivity|].
      split; [|left; exact Hstart]. destruct (Z.eq_dec (zlen w - S) (N - 1)) as [E1|E1]; [|lia].
      exfalso. apply E. rewrite Hstart. rewrite <- (Z_mod_plus_full S 1 N). f_equal. lia.
  - (* WWait *)
    destruct (g_wset g) eqn:Hset; injection Hstep as <- <-.
    + exfalso. pose proof (m_wset g HM Hset) as [F _]. rewrite Hpc in F. discriminate.
    + exists w, todo, P, Sl. split; [|repeat split; auto; discriminate].
      constructor; cbn [set_w set_wset g_size g_cells g_start g_next g_w g_r]; try assumption; try lia.
  - (* WEndRelease *)
    destruct (g_rset g); injection Hstep as <- <-; exists w, todo, P, Sl; (split; [|repeat split; auto; discriminate]).
    + constructor; cbn [set_w set_rset g_size g_cells g_start g_next g_w g_r]; try assumption; try lia.
    + apply (set_w_inv N g _ _ _ _ _ _ _ P Sl); try assumption; lia.
Qed.

(** The steps of the reader; [K] is how many of the bytes stored it knows of. *)
Lemma get_full N g wr dl w todo rd S P Sl K l g' evs :
  Inv N g wr dl w todo rd S P Sl ->
  rd = dl ++ r_out l -> r_pos l = zlen rd mod N -> next_get N (zlen rd) P (r_n l - r_i l) (r_next l) ->
  next_get N (zlen rd) K (r_n l - r_i l) (r_next l) ->
  r_get g l = Some (g', evs) -> g_r g' <> RCrash ->
  evs = [] /\ exists rd', Inv N g' wr dl w todo rd' S P Sl /\ zlen rd' = zlen rd + 1 /\ zlen rd < K /\
    rInv N S K (zlen rd') dl rd' (g_r g').
Proof.
  intros HI Hout Hpos Hng HngK Hstep Hcr. use_inv HI. unfold r_get in Hstep.
  assert (HR : zlen rd < P). { destruct Hng as [(P' & _ & B)|(P0 & _ & B)]; lia. }
  assert (HK : zlen rd < K). { destruct HngK as [(P' & _ & B)|(P0 & _ & B)]; lia. }
  destruct (index (g_cells g) (r_pos l)) as [b|] eqn:Hb; [|injection Hstep as <- <-; elim Hcr; reflexivity].
  assert (Hb' : b = nth (Z.to_nat (zlen rd)) w 0).
  { apply index_nth in Hb. destruct Hb as [_ <-]. rewrite Hpos. apply Hdata. lia. }
  destruct (r_i l <? r_cap l); injection Hstep as <- <-; [|elim Hcr; reflexivity]. split; [reflexivity|].
  exists (rd ++ [b]). assert (HR1 : zlen (rd ++ [b]) = zlen rd + 1) by (rewrite zlen_app; reflexivity).
  assert (V : forall P, next_get N (zlen rd) P (r_n l - r_i l) (r_next l) ->
    rInv N S P (zlen (rd ++ [b])) dl (rd ++ [b]) (RLoop (mkR (r_cap l) (r_n l) (r_i l + 1) (incr (r_pos l) (g_size g)) (r_next l) (r_read l + 1) (r_out l ++ [b])))).
  { intros Q Hq. cbn [rInv r_out r_pos r_n r_i r_next]. split; [rewrite Hout, <- app_assoc; reflexivity|].
    rewrite Hpos, Hsize, HR1. split; [apply incr_mod; lia|].
    destruct Hq as [(P' & E & B)|(P0 & E & B1 & B2 & B3 & B4)].
    * left. exists P'. split; [exact E|lia].
    * right. exists P0. split; [exact E|]. replace (Z.max 0 (r_n l - (r_i l + 1))) with (r_n l - r_i l - 1) by lia. lia. }
  split; [|split; [exact HR1|split; [exact HK|exact (V K HngK)]]].
  constructor; cbn [set_r g_size g_cells g_start g_next g_w g_r]; try assumption; try lia.
  - rewrite Hb'. apply prefix_snoc; [exact Hrd|lia].
  - exact (V P Hng).
Qed.

Lemma r_full N g wr dl w todo rd S P Sl K g' evs :
  Inv N g wr dl w todo rd S P Sl -> MInv g -> r_step g = Some (g', evs) -> g_r g' <> RCrash ->
  rInv N S K (zlen rd) dl rd (g_r g) -> zlen rd <= K <= P ->
  exists rd' S', Inv N g' wr (dl ++ delivered evs) w todo rd' S' P Sl /\
    match access (g, RStep) with Some (q, c) => q = Reader /\ c = zlen rd mod N /\ zlen rd' = zlen rd + 1 /\ zlen rd < K | None => rd' = rd end /\
    (S' = S \/ atomic_store (g, RStep) = Some Reader /\ S' = zlen rd) /\
    (atomic_load (g, RStep) = Some Reader \/
     rInv N S' K (zlen rd') (dl ++ delivered evs) rd' (g_r g')).
Proof.
  intros HI HM Hstep Hcr HrK HK. pose proof HI as HI0. use_inv HI0. unfold r_step in Hstep. unfold access, atomic_store, atomic_load.
  destruct (g_r g) as [|cap n|cap n pos|l|l|l|l|l|l|l|l|l|] eqn:Hpc; try discriminate Hstep; cbn [rInv] in Hr, HrK.
  - (* RLoadStart *)
    injection Hstep as <- <-. exists rd, S. cbn [delivered flat_map]. rewrite app_nil_r.
    assert (V : forall Q, rInv N S Q (zlen rd) dl rd (RLoadNext cap n (g_start g))).
    { intros Q. cbn [rInv]. destruct Hr as [H1 H2]. repeat split; try assumption. rewrite Hstart, H2. reflexivity. }
    split; [apply (set_r_inv N g _ _ dl); [exact HI|apply V]|]. split; [reflexivity|]. split; [auto|]. right. apply V.
  - (* RLoadNext *)
    injection Hstep as <- <-. exists rd, S. cbn [delivered flat_map]. rewrite app_nil_r. split; [|auto].
    apply (set_r_inv N g _ _ dl); [exact HI|]. cbn [rInv r_out r_pos r_n r_i r_next]. destruct Hr as (H1 & H2 & H3). rewrite app_nil_r.
    split; [exact H1|]. split; [exact H3|]. left. exists P. split; [exact Hnext|lia].
  - (* RLoop *)
    destruct Hr as (Hout & Hpos & Hnok). destruct HrK as (_ & _ & HnokK). destruct (Z.ltb_spec (r_i l) (r_n l)) as [Hlt|Hge]; cbn [andb].
    + destruct (Z.eqb_spec (r_pos l) (r_next l)) as [E|E]; cbn [negb].
      * assert (HS : forall p, rInv N (zlen rd) P (zlen rd) dl rd p ->
            Inv N (set_r (set_start g (r_pos l)) p) wr (dl ++ delivered []) w todo rd (zlen rd) P Sl).
        { intros p Hp. cbn [delivered flat_map]. rewrite app_nil_r.
          constructor; cbn [set_r set_start g_size g_cells g_start g_next g_w g_r]; try assumption; try lia. }
        destruct (0 <? r_read l); injection Hstep as <- <-; exists rd, (zlen rd);
          (split; [apply HS; cbn [rInv]; repeat split; try assumption; lia|split; [reflexivity|split; [auto|right]]]);
          cbn [set_r g_r rInv delivered flat_map]; rewrite ?app_nil_r; repeat split; try assumption; lia.
      * assert (Hng : forall Q, next_ok N (zlen rd) Q (Z.max 0 (r_n l - r_i l)) (r_next l) -> next_get N (zlen rd) Q (r_n l - r_i l) (r_next l)).
        { intros Q Hq. rewrite Hpos in E. destruct Hq as [(P' & E1 & B)|(P0 & E1 & B1 & B2 & B3)].
          - left. exists P'. split; [exact E1|]. assert (zlen rd <> P') by congruence. lia.
          - right. exists P0. split; [exact E1|]. lia. }
        destruct (get_full N g wr dl w todo rd S P Sl K l g' evs HI Hout Hpos (Hng _ Hnok) (Hng _ HnokK) Hstep Hcr) as [-> (rd' & HI' & E1 & E2 & E3)].
        exists rd', S. cbn [delivered flat_map]. rewrite app_nil_r. split; [exact HI'|]. split; [auto|]. split; [auto|]. right. exact E3.
    + assert (HS : forall p dl', rInv N (zlen rd) P (zlen rd) dl' rd p ->
            Inv N (set_r (set_start g (r_pos l)) p) wr dl' w todo rd (zlen rd) P Sl).
      { intros p dl' Hp.
        constructor; cbn [set_r set_start g_size g_cells g_start g_next g_w g_r]; try assumption; try lia. }
      destruct (0 <? r_read l); injection Hstep as <- <-; exists rd, (zlen rd);
        (split; [apply HS; cbn [rInv delivered flat_map]; rewrite ?app_nil_r; auto|split; [reflexivity|split; [auto|right]]]);
        cbn [set_r g_r rInv delivered flat_map]; rewrite ?app_nil_r; auto.
  - (* REmptyRelease *)
    destruct (g_wset g); injection Hstep as <- <-; exists rd, S; cbn [delivered flat_map]; rewrite app_nil_r;
      (split; [|split; [reflexivity|split; [auto|right; cbn [set_r set_wset g_r rInv]; exact HrK]]]).
    + constructor; cbn [set_r set_wset g_size g_cells g_start g_next g_w g_r]; try assumption.
    + apply (set_r_inv N g _ _ dl); assumption.
  - (* REmptyLoad *)
    destruct Hr as (Hout & Hpos & HS & Hi). injection Hstep as <- <-. exists rd, S. cbn [delivered flat_map]. rewrite app_nil_r. split; [|auto].
    apply (set_r_inv N g _ _ dl); [exact HI|].
    destruct (Z.eqb_spec (r_pos l) (g_next g)) as [E|E]; cbn [rInv r_out r_pos r_n r_i r_next].
    + repeat split; try assumption. congruence.
    + split; [exact Hout|]. split; [exact Hpos|]. split; [|exact Hi]. left. exists P. split; [exact Hnext|].
      assert (zlen rd <> P) by (intros F; apply E; rewrite Hpos, Hnext, F; reflexivity). lia.
  - (* RWait *)
    destruct Hr as (Hout & Hpos & HS & Hn & Hi).
    destruct (g_rset g) eqn:Hset; injection Hstep as <- <-.
    + exfalso. pose proof (m_rset g HM Hset) as [F _]. rewrite Hpc in F. discriminate.
    + exists rd, S. cbn [delivered flat_map]. rewrite app_nil_r.
      split; [|split; [reflexivity|split; [auto|right; cbn [set_r set_rset g_r rInv]; exact HrK]]].
      constructor; cbn [set_r set_rset g_size g_cells g_start g_next g_w g_r]; try assumption; cbn [rInv]; auto.
  - (* RGet *)
    destruct Hr as (Hout & Hpos & Hng & Hi). destruct HrK as (_ & _ & HngK & _).
    destruct (get_full N g wr dl w todo rd S P Sl K l g' evs HI Hout Hpos Hng HngK Hstep Hcr) as [-> (rd' & HI' & E1 & E2 & E3)].
    exists rd', S. cbn [delivered flat_map]. rewrite app_nil_r. split; [exact HI'|]. split; [auto|]. split; [auto|]. right. exact E3.
  - (* REndRelease *)
    destruct Hr as (Hout & HS). destruct (g_wset g); injection Hstep as <- <-; exists rd, S; cbn [delivered flat_map]; rewrite ?app_nil_r.
    + split; [|split; [reflexivity|split; [auto|right; cbn [set_r set_wset g_r rInv]; exact HrK]]].
      constructor; cbn [set_r set_wset g_size g_cells g_start g_next g_w g_r]; try assumption; cbn [rInv]; auto.
    + split; [apply (set_r_inv N g _ _ dl); [exact HI|cbn [rInv]; auto]|]. split; [reflexivity|]. split; [auto|]. right. cbn [set_r g_r rInv]. auto.
Qed.

(** ** Who knows of which accesses *)
(** After step [i], [p] has stored to its variable. *)
Definition stored (tr : list (ring * label)) (i : nat) (p : party) : Prop :=
  exists k s, (i < k)%nat /\ nth_error tr k = Some s /\ atomic_store s = Some p.
(** Step [i], taken by [p], happens before whatever the other party does next. *)
Definition known (tr : list (ring * label)) (i : nat) (p : party) : Prop := happens_before tr i (length tr) p.

Lemma nth_snoc {A} (l : list A) x k y : nth_error l k = Some y -> nth_error (l ++ [x]) k = Some y.
Proof. intros H. rewrite nth_error_app1; [exact H|]. apply nth_error_Some. congruence. Qed.
Lemma nth_lt {A} (l : list A) k y : nth_error l k = Some y -> (k < length l)%nat.
Proof. intros H. apply nth_error_Some. congruence. Qed.
Lemma nth_new {A} (l : list A) x : nth_error (l ++ [x]) (length l) = Some x.
Proof. rewrite nth_error_app2, Nat.sub_diag by lia. reflexivity. Qed.

Lemma stored_snoc tr x i p : stored tr i p -> stored (tr ++ [x]) i p.
Proof. intros (k & s & H1 & H2 & H3). exists k, s. split; [exact H1|]. split; [apply nth_snoc, H2|exact H3]. Qed.
Lemma stored_now tr x i p : (i < length tr)%nat -> atomic_store x = Some p -> stored (tr ++ [x]) i p.
Proof. intros Hi H. exists (length tr), x. split; [exact Hi|]. split; [apply nth_new|exact H]. Qed.
Lemma known_snoc tr x i p : known tr i p -> known (tr ++ [x]) i p.
Proof.
  unfold known, happens_before. rewrite app_length. cbn [length].
  intros [(k & l & s & t & q & H1 & H2 & H3 & H4 & H5)|(m & s & H1 & H2 & H3)].
  - left. exists k, l, s, t, q. split; [exact H1|]. split; [lia|]. split; [apply nth_snoc, H3|]. split; [apply nth_snoc, H4|exact H5].
  - right. exists m, s. split; [lia|]. split; [apply nth_snoc, H2|exact H3].
Qed.
Lemma known_load tr x i p q : stored tr i p -> atomic_load x = Some q -> q <> p -> known (tr ++ [x]) i p.
Proof.
  intros (k & s & H1 & H2 & H3) Hl Hq. left. exists k, (length tr), s, x, q. rewrite app_length. cbn [length].
  pose proof (nth_lt _ _ _ H2). split; [lia|]. split; [lia|]. split; [apply nth_snoc, H2|]. split; [apply nth_new|auto].
Qed.
Lemma known_meet tr x i p : (i < length tr)%nat -> rendezvous x -> known (tr ++ [x]) i p.
Proof. intros Hi H. right. exists (length tr), x. rewrite app_length. cbn [length]. split; [lia|]. split; [apply nth_new|exact H]. Qed.
Lemma hb_snoc tr x i p : known tr i p -> happens_before (tr ++ [x]) i (length tr) p.
Proof.
  intros [(k & l & s & t & q & H1 & H2 & H3 & H4 & H5)|(m & s & H1 & H2 & H3)].
  - left. exists k, l, s, t, q. split; [exact H1|]. split; [lia|]. split; [apply nth_snoc, H3|]. split; [apply nth_snoc, H4|exact H5].
  - right. exists m, s. split; [lia|]. split; [apply nth_snoc, H2|exact H3].
Qed.

(** Every access so far: the byte it was about, whether it is published, and whether
    the other side knows ([K] bytes of the writer's, [KW] of the reader's). *)
Definition accesses (N : Z) (tr : list (ring * label)) (p : party) (total published seen : Z) : Prop :=
  forall i s c, nth_error tr i = Some s -> access s = Some (p, c) ->
  exists k, 0 <= k < total /\ c = k mod N /\ (k < published -> stored tr i p) /\ (k < seen -> known tr i p).

Record RInv (N : Z) (tr : list (ring * label)) (g : ring) : Prop := mkRInv {
  v_open : g_closed g = false;
  v_m : MInv g;
  v_inv : exists wr dl w todo rd S P Sl K KW, Inv N g wr dl w todo rd S P Sl /\
    accesses N tr Writer (zlen w) P K /\ accesses N tr Reader (zlen rd) S KW /\
    rInv N S K (zlen rd) dl rd (g_r g) /\ zlen rd <= K <= P /\ Sl <= KW <= zlen rd }.

(** A step that accesses nothing of [p]'s. *)
Lemma accesses_skip N tr x p total published seen published' seen' :
  accesses N tr p total published seen -> (forall c, access x <> Some (p, c)) ->
  (published' = published \/ published' <= total /\ atomic_store x = Some p) ->
  (seen' = seen \/ (exists q, seen' = published /\ atomic_load x = Some q /\ q <> p) \/ seen' <= total /\ rendezvous x) ->
  accesses N (tr ++ [x]) p total published' seen'.
Proof.
  intros H Hx Hp Hs i s c Hi Ha.
  destruct (Nat.eq_dec i (length tr)) as [->|Hne].
  { rewrite nth_new in Hi. injection Hi as <-. elim (Hx c Ha). }
  assert (Hl : (i < length tr)%nat). { pose proof (nth_lt _ _ _ Hi) as L. rewrite app_length in L. cbn [length] in L. lia. }
  rewrite nth_error_app1 in Hi by exact Hl.
  destruct (H i s c Hi Ha) as (k & Hk & Hc & H1 & H2). exists k. split; [exact Hk|]. split; [exact Hc|]. split.
  - intros Hlt. destruct Hp as [->|[_ Hp]]; [apply stored_snoc, H1, Hlt|apply stored_now; assumption].
  - intros Hlt. destruct Hs as [->|[(q & -> & Hq & Hqp)|[_ Hs]]].
    + apply known_snoc, H2, Hlt.
    + apply (known_load _ _ _ _ q); [apply H1, Hlt|exact Hq|exact Hqp].
    + apply known_meet; assumption.
Qed.
(** An access of [p]'s, to byte number [total]. *)
Lemma accesses_add N tr x p total published seen :
  accesses N tr p total published seen -> access x = Some (p, total mod N) -> published <= total -> seen <= total -> 0 <= total ->
  accesses N (tr ++ [x]) p (total + 1) published seen.
Proof.
  intros H Hx Hp Hs H0 i s c Hi Ha.
  destruct (Nat.eq_dec i (length tr)) as [->|Hne].
  { rewrite nth_new in Hi. injection Hi as <-. rewrite Hx in Ha. injection Ha as <-. exists total. split; [lia|]. split; [reflexivity|]. split; intros; lia. }
  assert (Hl : (i < length tr)%nat). { pose proof (nth_lt _ _ _ Hi) as L. rewrite app_length in L. cbn [length] in L. lia. }
  rewrite nth_error_app1 in Hi by exact Hl.
  destruct (H i s c Hi Ha) as (k & Hk & Hc & H1 & H2). exists k. split; [lia|]. split; [exact Hc|]. split.
  - intros Hlt. apply stored_snoc, H1, Hlt.
  - intros Hlt. apply known_snoc, H2, Hlt.
Qed.

Lemma access_party g a p c : access (g, a) = Some (p, c) -> (a = WStep /\ p = Writer) \/ (a = RStep /\ p = Reader).
Proof.
  destruct a; cbn [access]; try discriminate.
  - destruct (g_w g); try discriminate. destruct (w_i l <? w_n l); [|discriminate]. intros H. injection H as <- _. auto.
  - destruct (g_r g); try discriminate.
    + destruct ((r_i l <? r_n l) && negb (r_pos l =? r_next l)); [|discriminate]. intros H. injection H as <- _. auto.
    + intros H. injection H as <- _. auto.
Qed.

Lemma race_step N tr g a g' evs : RInv N tr g -> good_wake g a -> a <> CloseCall -> step g a = Some (g', evs) ->
  g_w g' <> WCrash -> g_r g' <> RCrash -> RInv N (tr ++ [(g, a)]) g'.
Proof.
  intros [Hopen HM (wr & dl & w & todo & rd & S & P & Sl & K & KW & HI & AW & AR & HrK & HK & HKW)] Hg Ha Hstep Cw Cr.
  assert (HM' : MInv g') by (apply (step_minv g a g' evs); assumption).
  assert (Hopen' : g_closed g' = false).
  { clear - Hopen Ha Hstep. fields g. subst closed.
    destruct a; try congruence; unfold step, leave_both, w_step, r_step, w_leave, r_leave, r_get in Hstep; red_fields.
    5,6: destruct wp; try (destruct rp; discriminate Hstep); destruct rp; try discriminate Hstep; injection Hstep as <- <-; reflexivity.
    all: try discriminate Hstep; split_step Hstep; injection Hstep as <- <-; reflexivity. }
  constructor; [exact Hopen'|exact HM'|].
  pose proof HI as HI0. use_inv HI0.
  destruct a; cbn [step] in Hstep.
  - (* WCall *)
    destruct (g_w g) eqn:Hpc; try discriminate Hstep. injection Hstep as <- <-.
    exists (wr ++ firstn (Z.to_nat n) data), dl, w, (firstn (Z.to_nat n) data), rd, S, P, Sl, K, KW.
    cbn [wInv] in Hw. destruct Hw as (-> & Hw). split.
    { constructor; cbn [set_w g_size g_cells g_start g_next g_w g_r]; try assumption.
      + rewrite Hwr, app_nil_r. reflexivity.
      + cbn [wInv]. auto. }
    split; [apply (accesses_skip _ _ _ _ _ P K); auto; discriminate|].
    split; [apply (accesses_skip _ _ _ _ _ S KW); auto; discriminate|]. auto.
  - (* RCall *)
    destruct (g_r g) eqn:Hpc; try discriminate Hstep. injection Hstep as <- <-.
    exists wr, dl, w, todo, rd, S, P, Sl, K, KW. split; [apply (set_r_inv N g _ _ dl); [exact HI|exact Hr]|].
    split; [apply (accesses_skip _ _ _ _ _ P K); auto; discriminate|].
    split; [apply (accesses_skip _ _ _ _ _ S KW); auto; discriminate|]. auto.
  - (* WStep *)
    destruct (w_full _ _ _ _ _ _ _ _ _ _ _ _ HI HM Hstep Cw) as (w' & todo' & P' & Sl' & HI' & E1 & E2 & E3 & _).
    assert (Er : g_r g' = g_r g).
    { clear - Hstep. unfold w_step in Hstep. destruct (g_w g); try discriminate Hstep;
        repeat match type of Hstep with (match ?x with _ => _ end) = Some _ => destruct x end; injection Hstep as <- _; reflexivity. }
    set (KW' := if atomic_load (g, WStep) then S else KW).
    exists wr, dl, w', todo', rd, S, P', Sl', K, KW'.
    pose proof HI' as HI0'. assert (HO' := i_order _ _ _ _ _ _ _ _ _ _ HI0').
    assert (NR : forall c, access (g, WStep) <> Some (Reader, c)).
    { intros c E. destruct (access_party _ _ _ _ E) as [[_ F]|[F _]]; discriminate. }
    split; [exact HI'|]. split; [|split; [|split; [rewrite Er; exact HrK|]]].
    + destruct (access (g, WStep)) as [[q c]|] eqn:Eacc.
      * destruct E1 as (-> & -> & ->). destruct E2 as [->|[E2 _]].
        -- apply accesses_add; [exact AW|exact Eacc|lia|lia|apply zlen_nonneg].
        -- exfalso. clear - Eacc E2. unfold access, atomic_store in *. destruct (g_w g); try discriminate. destruct (w_i l <? w_n l); discriminate.
      * subst w'. apply (accesses_skip _ _ _ _ _ P K); auto; [rewrite Eacc; discriminate|].
        destruct E2 as [->|[E2 ->]]; [auto|right; split; [lia|exact E2]].
    + apply (accesses_skip _ _ _ _ _ S KW); auto. unfold KW'. destruct (atomic_load (g, WStep)) as [q|] eqn:El; [|auto].
      right. left. exists q. split; [reflexivity|]. split; [reflexivity|]. clear - El. unfold atomic_load in El. destruct (g_w g); try discriminate; injection El as <-; discriminate.
    + split; [destruct E2 as [->|[_ ->]]; lia|]. unfold KW'.
      destruct E3 as [->|[El ->]]; [|rewrite El; lia]. destruct (atomic_load (g, WStep)); lia.
  - (* RStep *)
    destruct (r_full _ _ _ _ _ _ _ _ _ _ K _ _ HI HM Hstep Cr HrK HK) as (rd' & S' & HI' & E1 & E2 & E3).
    set (K' := if atomic_load (g, RStep) then P else K).
    exists wr, (dl ++ delivered evs), w, todo, rd', S', P, Sl, K', KW.
    assert (HO' := i_order _ _ _ _ _ _ _ _ _ _ HI').
    assert (NW : forall c, access (g, RStep) <> Some (Writer, c)).
    { intros c E. destruct (access_party _ _ _ _ E) as [[F _]|[_ F]]; discriminate. }
    assert (HL : atomic_load (g, RStep) <> None -> access (g, RStep) = None).
    { clear. unfold access, atomic_load. destruct (g_r g); congruence. }
    split; [exact HI'|]. split; [|split; [|split]].
    + apply (accesses_skip _ _ _ _ _ P K); auto. unfold K'. destruct (atomic_load (g, RStep)) as [q|] eqn:El; [|auto].
      right. left. exists q. split; [reflexivity|]. split; [reflexivity|]. clear - El. unfold atomic_load in El. destruct (g_r g); try discriminate; injection El as <-; discriminate.
    + destruct (access (g, RStep)) as [[q c]|] eqn:Eacc.
      * destruct E1 as (-> & -> & -> & _). destruct E2 as [->|[E2 _]].
        -- apply accesses_add; [exact AR|exact Eacc|lia|lia|apply zlen_nonneg].
        -- exfalso. clear - Eacc E2. unfold access, atomic_store in *. destruct (g_r g); try discriminate. destruct ((r_i l <? r_n l) && negb (r_pos l =? r_next l)); discriminate.
      * subst rd'. apply (accesses_skip _ _ _ _ _ S KW); auto; [rewrite Eacc; discriminate|].
        destruct E2 as [->|[E2 ->]]; [auto|right; split; [lia|exact E2]].
    + unfold K'. destruct E3 as [El|E3]; [rewrite El; apply (i_r _ _ _ _ _ _ _ _ _ _ HI')|].
      destruct (atomic_load (g, RStep)); [apply (i_r _ _ _ _ _ _ _ _ _ _ HI')|exact E3].
    + unfold K'. destruct (access (g, RStep)) as [[q c]|] eqn:Eacc.
      * destruct E1 as (_ & _ & -> & E1). destruct (atomic_load (g, RStep)); lia.
      * subst rd'. destruct (atomic_load (g, RStep)); lia.
  - (* SyncRead *)
    destruct (r_waiting (g_r g)) eqn:Hrw; [|discriminate]. destruct (w_releasing (g_w g)) eqn:Hwr'; [|discriminate].
    cbn [andb] in Hstep. unfold leave_both in Hstep. destruct (w_leave g) as [[g1 e1]|] eqn:E1; [|discriminate].
    destruct (w_leave_inv _ _ _ _ _ _ _ _ _ _ _ _ HI ltac:(intros l E; rewrite E in Hwr'; discriminate) E1) as [He1 (Sl' & HI1 & Hr1 & Ho1)].
    destruct (r_leave g1) as [[g2 e2]|] eqn:E2; [|discriminate]. injection Hstep as <- <-.
    assert (Hg2 : forall l, g_r g1 = RWait_sel l -> r_n l - r_i l <= occupancy g1).
    { intros l E. rewrite Hr1 in E. rewrite Ho1. apply (proj1 Hg). unfold reader_wakes. rewrite E. reflexivity. }
    destruct (r_leave_inv _ _ _ _ _ _ _ _ _ _ _ _ HI1 Hg2 E2) as [He2 HI2].
    exists wr, (dl ++ delivered e2), w, todo, rd, S, P, Sl', P, (zlen rd).
    assert (HO' := i_order _ _ _ _ _ _ _ _ _ _ HI2).
    split; [exact HI2|]. split; [|split; [|split; [apply (i_r _ _ _ _ _ _ _ _ _ _ HI2)|lia]]].
    + apply (accesses_skip _ _ _ _ _ P K); auto; [discriminate|]. right. right. split; [lia|left; reflexivity].
    + apply (accesses_skip _ _ _ _ _ S KW); auto; [discriminate|]. right. right. split; [lia|left; reflexivity].
  - (* SyncWrite *)
    destruct (w_waiting (g_w g)) eqn:Hww; [|discriminate]. destruct (r_releasing (g_r g)) eqn:Hrr; [|discriminate].
    cbn [andb] in Hstep. unfold leave_both in Hstep. destruct (w_leave g) as [[g1 e1]|] eqn:E1; [|discriminate].
    assert (Hg1 : forall l, g_w g = WWait_sel l -> occupancy g + (w_n l - 1 - w_i l) <= g_size g - 2).
    { intros l E. apply (proj2 Hg). unfold writer_wakes. rewrite E. reflexivity. }
    destruct (w_leave_inv _ _ _ _ _ _ _ _ _ _ _ _ HI Hg1 E1) as [He1 (Sl' & HI1 & Hr1 & Ho1)].
    destruct (r_leave g1) as [[g2 e2]|] eqn:E2; [|discriminate]. injection Hstep as <- <-.
    assert (Hg2 : forall l, g_r g1 = RWait_sel l -> r_n l - r_i l <= occupancy g1).
    { intros l E. rewrite Hr1 in E. rewrite E in Hrr. discriminate. }
    destruct (r_leave_inv _ _ _ _ _ _ _ _ _ _ _ _ HI1 Hg2 E2) as [He2 HI2].
    exists wr, (dl ++ delivered e2), w, todo, rd, S, P, Sl', P, (zlen rd).
    assert (HO' := i_order _ _ _ _ _ _ _ _ _ _ HI2).
    split; [exact HI2|]. split; [|split; [|split; [apply (i_r _ _ _ _ _ _ _ _ _ _ HI2)|lia]]].
    + apply (accesses_skip _ _ _ _ _ P K); auto; [discriminate|]. right. right. split; [lia|right; reflexivity].
    + apply (accesses_skip _ _ _ _ _ S KW); auto; [discriminate|]. right. right. split; [lia|right; reflexivity].
  - rewrite Hopen in Hstep. discriminate.
  - rewrite Hopen in Hstep. discriminate.
  - congruence.
Qed.

(** An access now, after all others of the same cell by the other party. *)
Lemma race_access N tr g a g' evs p q c i s : RInv N tr g -> step g a = Some (g', evs) -> g_w g' <> WCrash -> g_r g' <> RCrash ->
  access (g, a) = Some (q, c) -> nth_error tr i = Some s -> access s = Some (p, c) -> p <> q ->
  happens_before (tr ++ [(g, a)]) i (length tr) p.
Proof.
  intros [Hopen HM (wr & dl & w & todo & rd & S & P & Sl & K & KW & HI & AW & AR & HrK & HK & HKW)] Hstep Cw Cr Hacc Hi Hs Hpq.
  apply hb_snoc. pose proof HI as HI0. use_inv HI0.
  destruct (access_party _ _ _ _ Hacc) as [[-> ->]|[-> ->]]; destruct p; try congruence.
  - (* the writer, after a read *)
    destruct (AR i s c Hi Hs) as (k & Hk & Hc & _ & Hn). apply Hn.
    destruct (w_full _ _ _ _ _ _ _ _ _ _ _ _ HI HM Hstep Cw) as (w' & todo' & P' & Sl' & _ & E1 & _ & _ & E4).
    rewrite Hacc in E1. destruct E1 as (_ & E1 & _). unfold access in Hacc. destruct (g_w g) as [| | |l| | | | | | | | |] eqn:Hpc; try discriminate.
    destruct (Z.ltb_spec (w_i l) (w_n l)) as [Hlt|]; [|discriminate].
    specialize (E4 l eq_refl Hlt).
    destruct (Z.lt_ge_cases k KW) as [Hlt2|Hge]; [exact Hlt2|]. exfalso.
    assert (k = zlen w) by (apply (mod_near N); [lia|congruence|lia]). lia.
  - (* the reader, after a write *)
    destruct (AW i s c Hi Hs) as (k & Hk & Hc & _ & Hn). apply Hn.
    destruct (r_full _ _ _ _ _ _ _ _ _ _ K _ _ HI HM Hstep Cr HrK HK) as (rd' & S' & HI' & E1 & _).
    rewrite Hacc in E1. destruct E1 as (_ & E1 & _ & E2).
    destruct (Z.lt_ge_cases k K) as [Hlt2|Hge]; [exact Hlt2|]. exfalso.
    assert (k = zlen rd) by (apply (mod_near N); [lia|congruence|lia]). lia.
Qed.

(** ** Executions *)
Lemma trace_app s1 : forall g s2 g1 e1, run g s1 = Some (g1, e1) -> trace g (s1 ++ s2) = trace g s1 ++ trace g1 s2.
Proof.
  induction s1 as [|a s1 IH]; intros g s2 g1 e1 H; cbn [run] in H.
  - injection H as <- <-. reflexivity.
  - destruct (step g a) as [[ga ea]|] eqn:E; [|discriminate]. destruct (run ga s1) as [[gb eb]|] eqn:E2; [|discriminate]. injection H as <- <-.
    cbn [trace app]. rewrite E, (IH _ s2 _ _ E2). reflexivity.
Qed.
Lemma trace_length s1 : forall g g1 e1, run g s1 = Some (g1, e1) -> length (trace g s1) = length s1.
Proof.
  induction s1 as [|a s1 IH]; intros g g1 e1 H; cbn [run] in H; [reflexivity|].
  destruct (step g a) as [[ga ea]|] eqn:E; [|discriminate]. destruct (run ga s1) as [[gb eb]|] eqn:E2; [|discriminate].
  cbn [trace length]. rewrite E, (IH _ _ _ E2). reflexivity.
Qed.
Lemma run_split s1 : forall g s2 g2 e, run g (s1 ++ s2) = Some (g2, e) -> exists g1 e1 e2, run g s1 = Some (g1, e1) /\ run g1 s2 = Some (g2, e2).
Proof.
  induction s1 as [|a s1 IH]; intros g s2 g2 e H; cbn [app run] in H.
  - exists g, [], e. split; [reflexivity|exact H].
  - destruct (step g a) as [[ga ea]|] eqn:E; [|discriminate]. destruct (run ga (s1 ++ s2)) as [[gb eb]|] eqn:E2; [|discriminate]. injection H as <- <-.
    destruct (IH _ _ _ _ E2) as (g1 & e1 & e2 & H1 & H2). exists g1, (ea ++ e1), e2. cbn [run]. rewrite E, H1. auto.
Qed.
Lemma all_steps_app Q s1 : forall g s2 g1 e1, run g s1 = Some (g1, e1) -> all_steps Q g (s1 ++ s2) -> all_steps Q g s1 /\ all_steps Q g1 s2.
Proof.
  induction s1 as [|a s1 IH]; intros g s2 g1 e1 H HA; cbn [run] in H.
  - injection H as <- <-. split; [exact I|exact HA].
  - destruct (step g a) as [[ga ea]|] eqn:E; [|discriminate]. destruct (run ga s1) as [[gb eb]|] eqn:E2; [|discriminate]. injection H as <- <-.
    cbn [app all_steps] in HA |- *. rewrite E in *. destruct HA as [H1 H2]. destruct (IH _ s2 _ _ E2 H2) as [H3 H4]. auto.
Qed.

Lemma new_race N : 2 <= N < 2 ^ 31 -> RInv N [] (New N).
Proof.
  intros HN. constructor; [reflexivity|apply new_minv|].
  exists [], [], [], [], [], 0, 0, 0, 0, 0. split; [apply init_inv, HN|].
  split; [intros [|i] s c H; discriminate H|]. split; [intros [|i] s c H; discriminate H|].
  split; [cbn [New g_r rInv]; auto|]. unfold zlen. cbn. lia.
Qed.
Lemma run_race N sched : forall g evs, 2 <= N < 2 ^ 31 -> Forall legal_call sched -> ~ In CloseCall sched ->
  run (New N) sched = Some (g, evs) -> all_steps good_wake (New N) sched -> RInv N (trace (New N) sched) g.
Proof.
  induction sched as [|a sched IH] using rev_ind; intros g evs HN Hl Hc Hrun Hall.
  - injection Hrun as <- <-. apply new_race, HN.
  - pose proof Hrun as Hrun0. destruct (run_split _ _ _ _ _ Hrun) as (g1 & e1 & e2 & H1 & H2).
    destruct (all_steps_app _ _ _ _ _ _ H1 Hall) as [A1 A2]. rewrite (trace_app _ _ _ _ _ H1). pose proof Hl as Hl0. apply Forall_app in Hl. destruct Hl as [Hl1 _].
    specialize (IH g1 e1 HN Hl1 ltac:(intros F; apply Hc, in_or_app; auto) H1 A1).
    cbn [run] in H2. destruct (step g1 a) as [[g2 e3]|] eqn:E; [|discriminate]. injection H2 as <- <-.
    cbn [trace]. rewrite E. destruct (positions N _ _ _ ltac:(lia) Hl0 Hrun0) as (_ & _ & _ & C1 & C2).
    apply (race_step N _ g1 a g2 e3); try assumption; [apply A2|]. intros ->. apply Hc, in_or_app. right. left. reflexivity.
Qed.

Lemma hb_more tr x rest i p : happens_before (tr ++ [x]) i (length tr) p -> happens_before (tr ++ x :: rest) i (length tr) p.
Proof.
  assert (B : forall k y, (k < length tr)%nat -> nth_error (tr ++ [x]) k = Some y -> nth_error (tr ++ x :: rest) k = Some y).
  { intros k y Hk H. rewrite nth_error_app1 in H |- * by exact Hk. exact H. }
  intros [(k & l & s & t & q & H1 & H2 & H3 & H4 & H5)|(m & s & H1 & H2 & H3)].
  - left. exists k, l, s, t, q. split; [exact H1|]. split; [exact H2|]. split; [apply B; [lia|exact H3]|]. split; [apply B; [lia|exact H4]|exact H5].
  - right. exists m, s. split; [exact H1|]. split; [apply B; [lia|exact H2]|exact H3].
Qed.

Theorem ring_race_free : forall size sched g evs, 2 <= size < 2 ^ 31 -> Forall legal_call sched -> ~ In CloseCall sched ->
  run (New size) sched = Some (g, evs) -> all_steps good_wake (New size) sched -> ~ race (trace (New size) sched).
Proof.
  intros size sched g evs HN Hl Hc Hrun Hall (i & j & s & t & p & q & c & Hij & Hi & Hj & As & At & Hpq & Hno).
  assert (Lj : (j < length sched)%nat). { rewrite <- (trace_length _ _ _ _ Hrun). apply (nth_lt _ _ _ Hj). }
  destruct (nth_error sched j) as [a|] eqn:Ea; [|apply nth_error_None in Ea; lia].
  destruct (nth_error_split sched j Ea) as (s1 & s2 & -> & Hlen). subst j.
  destruct (run_split _ _ _ _ _ Hrun) as (g1 & e1 & e2 & H1 & H2).
  rewrite (trace_app _ _ _ _ _ H1) in *.
  destruct (all_steps_app _ _ _ _ _ _ H1 Hall) as [A1 A2]. pose proof Hl as Hl0. apply Forall_app in Hl. destruct Hl as [Hl1 Hl2].
  pose proof (run_race size s1 g1 e1 HN Hl1 ltac:(intros F; apply Hc, in_or_app; auto) H1 A1) as HR.
  pose proof (trace_length _ _ _ _ H1) as TL.
  rewrite nth_error_app1 in Hi by lia. rewrite nth_error_app2 in Hj by lia. rewrite <- TL, Nat.sub_diag in Hj.
  cbn [trace nth_error] in Hj. injection Hj as <-.
  cbn [run] in H2. destruct (step g1 a) as [[g2 e3]|] eqn:E; [|discriminate].
  assert (Hrun1 : run (New size) (s1 ++ [a]) = Some (g2, e1 ++ e3)).
  { clear - H1 E. revert H1. generalize (New size) e1. induction s1 as [|b s1 IH]; intros h f H; cbn [run app] in *.
    - injection H as -> <-. rewrite E. rewrite app_nil_r. reflexivity.
    - destruct (step h b) as [[ga ea]|]; [|discriminate]. destruct (run ga s1) as [[gb eb]|] eqn:F; [|discriminate]. injection H as -> <-.
      rewrite (IH _ _ F), app_assoc. reflexivity. }
  assert (Hl1' : Forall legal_call (s1 ++ [a])). { apply Forall_app. inversion Hl2; subst. auto. }
  destruct (positions size _ _ _ ltac:(lia) Hl1' Hrun1) as (_ & _ & _ & C1 & C2).
  apply Hno. rewrite <- TL. cbn [trace]. rewrite E. apply hb_more.
  apply (race_access size _ g1 a g2 e3 p q c i s); assumption.
Qed.

(** ** Races *)
Lemma trace_snd sched : forall g g1 e1 k s, run g sched = Some (g1, e1) -> nth_error (trace g sched) k = Some s -> nth_error sched k = Some (snd s).
Proof.
  induction sched as [|a sched IH]; intros g g1 e1 k s H Hk; cbn [run] in H; [destruct k; discriminate|].
  destruct (step g a) as [[ga ea]|] eqn:E; [|discriminate]. destruct (run ga sched) as [[gb eb]|] eqn:E2; [|discriminate].
  cbn [trace] in Hk. rewrite E in Hk. destruct k as [|k]; cbn [nth_error] in *; [injection Hk as <-; reflexivity|]. apply (IH _ _ _ _ _ E2 Hk).
Qed.
Lemma race_found g0 pre mid g1 e1 g2 e2 g3 e3 c : run g0 pre = Some (g1, e1) -> access (g1, RStep) = Some (Reader, c) ->
  run g0 (pre ++ RStep :: mid) = Some (g2, e2) -> Forall not_reader mid -> access (g2, WStep) = Some (Writer, c) -> step g2 WStep = Some (g3, e3) ->
  plain_race (trace g0 (pre ++ RStep :: mid ++ [WStep])).
Proof.
  intros H1 A1 H2 Q A2 H3. exists (length pre), (length (pre ++ RStep :: mid)), (g1, RStep), (g2, WStep), c.
  replace (pre ++ RStep :: mid ++ [WStep]) with ((pre ++ RStep :: mid) ++ [WStep]) by (rewrite <- app_assoc; reflexivity).
  assert (T : trace g0 ((pre ++ RStep :: mid) ++ [WStep]) = trace g0 (pre ++ RStep :: mid) ++ [(g2, WStep)]).
  { rewrite (trace_app _ _ _ _ _ H2). cbn [trace]. rewrite H3. reflexivity. }
  rewrite T. pose proof (trace_length _ _ _ _ H2) as TL. pose proof (trace_length _ _ _ _ H1) as TL1.
  split; [rewrite app_length; cbn [length]; lia|]. split.
  { rewrite nth_error_app1 by (rewrite TL, app_length; cbn [length]; lia). rewrite (trace_app _ _ _ _ _ H1), nth_error_app2 by lia.
    rewrite TL1, Nat.sub_diag. cbn [trace nth_error]. reflexivity. }
  split; [rewrite <- TL; apply nth_new|]. split; [exact A1|]. split; [exact A2|].
  intros k s Hk Hs. rewrite nth_error_app1 in Hs by lia. apply (trace_snd _ _ _ _ _ _ H2) in Hs.
  rewrite nth_error_app2 in Hs by lia. destruct (k - length pre)%nat as [|m] eqn:Em; [lia|]. cbn [nth_error] in Hs.
  rewrite Forall_forall in Q. apply Q. apply nth_error_In in Hs. exact Hs.
Qed.
Lemma plain_is_race tr : plain_race tr -> race tr.
Proof.
  intros (i & j & s & t & c & Hij & Hi & Hj & As & At & Q). exists i, j, s, t, Reader, Writer, c.
  do 5 (split; [assumption|]). split; [discriminate|].
  intros [(k & l & u & v & q & K1 & K2 & K3 & K4 & K5 & K6 & K7)|(m & u & K1 & K2 & K3)].
  - pose proof (Q k u ltac:(lia) K3) as F. destruct u as [h b]. cbn [snd] in F. unfold atomic_store in K5.
    destruct b; try contradiction; try discriminate K5. destruct (g_w h); try discriminate K5. destruct (w_i l0 <? w_n l0); discriminate K5.
  - pose proof (Q m u ltac:(lia) K2) as F. destruct K3 as [E|E]; rewrite E in F; exact F.
Qed.

(** A read that has caught up is woken by the Release of a write it has already seen
    ([sched_spurious]); it then reads the cell the next Write is about to fill. *)
Definition race_pre : list label :=
  WCall [1;2] 2 :: wsteps 5 ++ RCall 1 1 :: rsteps 5 ++ RCall 1 1 :: rsteps 5 ++ RCall 1 1 :: rsteps 5 ++ wsteps 1 ++ [SyncRead].
Definition race_mid : list label := WCall [3] 1 :: wsteps 2.
Definition sched_race : list label := race_pre ++ RStep :: race_mid ++ [WStep].
(** A waiting read and Close. *)
Definition race_close_pre : list label := RCall 1 1 :: rsteps 5 ++ [CloseCall; RDone].
Definition sched_race_close : list label := race_close_pre ++ RStep :: race_mid ++ [WStep].

Theorem ring_races : forall size sched, 8 <= size < 2 ^ 31 -> In sched [sched_race; sched_race_close] ->
  Forall legal_call sched /\ (exists g evs, run (New size) sched = Some (g, evs)) /\ plain_race (trace (New size) sched).
Proof.
  intros size sched HN H. unfold New. rewrite int32_id by (unfold is_int32; lia).
  destruct (new_cells size ltac:(lia)) as [m ->]. generalize (repeat 0 m). intros rest. cbn [In] in H.
  destruct H as [H|[H|[]]]; subst sched;
    (split; [repeat constructor; cbn; unfold zlen; cbn; lia|]); (split; [eexists; eexists; sym_run HN|]).
  - unfold sched_race. eapply race_found; [sym_run HN|reflexivity|sym_run HN|repeat constructor|reflexivity|sym_step HN; reflexivity].
  - unfold sched_race_close. eapply race_found; [sym_run HN|reflexivity|sym_run HN|repeat constructor|reflexivity|sym_step HN; reflexivity].
Qed.
