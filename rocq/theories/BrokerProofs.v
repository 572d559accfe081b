(** * Proofs about requests, responses and negotiation *)
From Coq Require Import String Permutation.
From Verif Require Import GoBase Encoder Decoder Sizeof Spec SchemaSpec GoLemmas EncProofs DecProofs SizeProofs
  Schema Link Msg01 Msg04 AllMessages MsgProofs BrokerTable Broker BrokerSpec.
Ltac Zify.zify_post_hook ::= Z.div_mod_to_equations.
Local Open Scope list_scope.
Local Open Scope Z_scope.

(** ** Tables *)

Definition api_of (i : Z) : option api := nth_error all_apis (Z.to_nat i).
Lemma api_of_index a : api_of (api_index a) = Some a.
Proof. destruct a; reflexivity. Qed.
Lemma api_index_inj a b : api_index a = api_index b -> a = b.
Proof. intros H. pose proof (api_of_index a) as A. rewrite H, api_of_index in A. congruence. Qed.
Lemma api_eqb_spec a b : reflect (a = b) (api_eqb a b).
Proof.
  unfold api_eqb. destruct (Z.eqb_spec (api_index a) (api_index b)); constructor.
  - apply api_index_inj. assumption.
  - congruence.
Qed.
Lemma api_index_range a : 0 <= api_index a <= 47.
Proof. destruct a; cbn; lia. Qed.

Lemma case_of a : exists lo hi, declared a = Some (api_index a, lo, hi) /\
  find_case (api_index a) negotiation_cases = Some (a, lo, hi) /\ 0 <= lo <= hi /\ hi < 2 ^ 15.
Proof. destruct a; eexists; eexists; (split; [vm_compute; reflexivity|]); (split; [vm_compute; reflexivity|]); vm_compute; repeat split; congruence. Qed.

Lemma find_case_In key c l : find_case key l = Some c -> In (key, c) l.
Proof.
  induction l as [|[k c'] l IH]; cbn [find_case]; [discriminate|].
  destruct (Z.eqb_spec key k); [|intros H; right; apply IH, H]. intros H. injection H as ->. subst. left. reflexivity.
Qed.
Lemma cases_keys : Forall (fun kc => fst kc = api_index (fst (fst (snd kc)))) negotiation_cases.
Proof. repeat constructor. Qed.
Lemma find_case_key key a lo hi : find_case key negotiation_cases = Some (a, lo, hi) -> key = api_index a.
Proof.
  intros H. apply find_case_In in H. pose proof cases_keys as F. rewrite Forall_forall in F. exact (F _ H).
Qed.
Lemma find_case_declared key a lo hi : find_case key negotiation_cases = Some (a, lo, hi) ->
  declared a = Some (key, lo, hi).
Proof.
  intros H. pose proof (find_case_key _ _ _ _ H) as ->. destruct (case_of a) as (lo' & hi' & D & C & _).
  rewrite C in H. injection H as -> ->. exact D.
Qed.
Lemma declared_find_case a key lo hi : declared a = Some (key, lo, hi) ->
  key = api_index a /\ find_case key negotiation_cases = Some (a, lo, hi).
Proof.
  intros H. destruct (case_of a) as (lo' & hi' & D & C & _). rewrite D in H. injection H as <- <- <-. auto.
Qed.

(** ** matchVersion *)

(** An entry the code accepts. *)
Definition accepted (e : ApiVersionsResponseKey18) (lo hi : Z) : Prop :=
  e_min e <= e_max e /\ lo <= e_max e <= hi.

Lemma match_accepted e lo hi f : accepted e lo hi -> matchVersion (S f) e lo hi = Some (Some (e_max e)).
Proof.
  intros (H1 & H2 & H3). unfold matchVersion. cbn [match_loop].
  rewrite (proj2 (Z.leb_le _ _) H1), (proj2 (Z.leb_le _ _) H2), (proj2 (Z.leb_le _ _) H3). reflexivity.
Qed.
Lemma match_loop_ok f : forall e lo hi version x, match_loop f e lo hi version = Some (Some x) ->
  e_min e <= version /\ x = e_max e /\ lo <= x <= hi.
Proof.
  induction f as [|f IH]; intros e lo hi version x; cbn [match_loop]; [discriminate|].
  destruct (Z.leb_spec (e_min e) version); [|discriminate]. cbn zeta.
  destruct (Z.leb_spec lo (e_max e)); cbn [andb].
  - destruct (Z.leb_spec (e_max e) hi).
    + intros H2. injection H2 as <-. auto.
    + intros H2. apply IH in H2. tauto.
  - intros H2. apply IH in H2. tauto.
Qed.
Lemma match_ok f e lo hi x : matchVersion f e lo hi = Some (Some x) -> accepted e lo hi /\ x = e_max e.
Proof. intros H. apply match_loop_ok in H. destruct H as (H1 & -> & H2). unfold accepted. auto. Qed.

Lemma match_loop_S f e lo hi version : match_loop (S f) e lo hi version =
  if e_min e <=? version then
    if (lo <=? e_max e) && (e_max e <=? hi) then Some (Some (e_max e)) else match_loop f e lo hi (int16 (version - 1))
  else Some None.
Proof. reflexivity. Qed.

Lemma match_loop_err n : forall e lo hi version, is_int16 version -> - 2 ^ 15 < e_min e ->
  ~ (lo <= e_max e <= hi) -> version - e_min e < Z.of_nat n ->
  match_loop (S n) e lo hi version = Some None.
Proof.
  induction n as [|n IH]; intros e lo hi version Hv Hm Hr Hn; rewrite match_loop_S.
  - destruct (Z.leb_spec (e_min e) version); [lia|reflexivity].
  - destruct (Z.leb_spec (e_min e) version); [|reflexivity]. cbn zeta.
    replace ((lo <=? e_max e) && (e_max e <=? hi)) with false.
    + unfold is_int16 in Hv. rewrite int16_id by (unfold is_int16; lia). apply (IH e lo hi (version - 1)).
      * unfold is_int16. lia. * exact Hm. * exact Hr. * lia.
    + symmetry. apply andb_false_iff. destruct (Z.leb_spec lo (e_max e)); [right|left; reflexivity].
      apply Z.leb_gt. lia.
Qed.

Definition enough : nat := Z.to_nat 65538.

Lemma match_rejected e lo hi : entry_ok e -> - 2 ^ 15 < e_min e -> ~ accepted e lo hi ->
  matchVersion enough e lo hi = Some None.
Proof.
  intros (Hk & Hmin & Hmax) Hm Ha. unfold matchVersion, enough. unfold is_int16 in *.
  replace (Z.to_nat 65538) with (S (Z.to_nat 65537)) by lia.
  unfold accepted in Ha. destruct (Z.leb_spec (e_min e) (e_max e)) as [H|H].
  - apply match_loop_err; unfold is_int16; try lia.
  - cbn [match_loop]. destruct (Z.leb_spec (e_min e) (e_max e)); [lia|reflexivity].
Qed.

Lemma match_loop_forever f : forall e lo hi version, is_int16 version -> e_min e = - 2 ^ 15 ->
  ~ (lo <= e_max e <= hi) -> match_loop f e lo hi version = None.
Proof.
  induction f as [|f IH]; intros e lo hi version Hv Hm Hr; cbn [match_loop]; [reflexivity|].
  unfold is_int16 in Hv. destruct (Z.leb_spec (e_min e) version); [|lia]. cbn zeta.
  replace ((lo <=? e_max e) && (e_max e <=? hi)) with false.
  - apply IH; [|exact Hm|exact Hr]. apply (wrap_range 16). lia.
  - symmetry. apply andb_false_iff. destruct (Z.leb_spec lo (e_max e)); [right|left; reflexivity].
    apply Z.leb_gt. lia.
Qed.

(** ** The loop over the entries *)

Lemma negotiate_ok f : forall keys av0 av, negotiate_loop f keys av0 = Some (Some av) ->
  (forall e a key lo hi, In e keys -> declared a = Some (key, lo, hi) -> e_key e = key -> accepted e lo hi) /\
  (forall a key lo hi, declared a = Some (key, lo, hi) ->
     (forall e, last_entry keys e -> e_key e = key -> av a = e_max e) /\
     ((forall e, In e keys -> e_key e <> key) -> av a = av0 a)).
Proof.
  induction keys as [|e keys IH]; intros av0 av; cbn [negotiate_loop].
  - intros H. injection H as <-. split; [intros ? ? ? ? ? []|]. intros a key lo hi D. split; [|reflexivity].
    intros e (pre & post & E & _). destruct pre; discriminate.
  - destruct (find_case (e_key e) negotiation_cases) as [[[f' lo'] hi']|] eqn:C.
    + destruct (matchVersion f e lo' hi') as [[x|]|] eqn:M; [|discriminate|discriminate].
      apply match_ok in M. destruct M as [Hacc ->]. intros H. apply IH in H. destruct H as [Hall Hav].
      pose proof (find_case_key _ _ _ _ C) as Hk. split.
      * intros e1 a key lo hi [<-|Hin] D Hkey; [|eapply Hall; eassumption].
        destruct (declared_find_case _ _ _ _ D) as [_ C']. rewrite <- Hkey, C in C'. injection C' as <- <- <-. exact Hacc.
      * intros a key lo hi D. destruct (Hav a key lo hi D) as [H1 H2]. destruct (declared_find_case _ _ _ _ D) as [Hka _]. split.
        -- intros e1 (pre & post & E & Hlast) Hkey. destruct pre as [|p pre].
           ++ cbn in E. injection E as <- <-. rewrite H2.
              ** unfold set_version. destruct (api_eqb_spec a f') as [->|Hne]; [reflexivity|].
                 exfalso. apply Hne, api_index_inj. congruence.
              ** intros e' He'. specialize (Hlast e' He'). congruence.
           ++ cbn in E. injection E as <- E. apply H1; [|exact Hkey]. exists pre, post. auto.
        -- intros Hnone. rewrite H2 by (intros e' He'; apply Hnone; right; exact He').
           unfold set_version. destruct (api_eqb_spec a f') as [->|Hne]; [|reflexivity].
           exfalso. apply (Hnone e); [left; reflexivity|congruence].
    + intros H. apply IH in H. destruct H as [Hall Hav]. split.
      * intros e1 a key lo hi [<-|Hin] D Hkey; [|eapply Hall; eassumption].
        destruct (declared_find_case _ _ _ _ D) as [_ C']. rewrite Hkey in C. congruence.
      * intros a key lo hi D. destruct (Hav a key lo hi D) as [H1 H2]. destruct (declared_find_case _ _ _ _ D) as [_ C'].
        split.
        -- intros e1 (pre & post & E & Hlast) Hkey. destruct pre as [|p pre].
           ++ cbn in E. injection E as <- <-. rewrite Hkey in C. congruence.
           ++ cbn in E. injection E as <- E. apply H1; [|exact Hkey]. exists pre, post. auto.
        -- intros Hnone. apply H2. intros e' He'. apply Hnone. right. exact He'.
Qed.

(** Every entry of a known API is accepted. *)
Definition all_accepted (keys : list ApiVersionsResponseKey18) : Prop :=
  forall e a key lo hi, In e keys -> declared a = Some (key, lo, hi) -> e_key e = key -> accepted e lo hi.

Lemma negotiate_accepts f : forall keys av0, all_accepted keys ->
  exists av, negotiate_loop (S f) keys av0 = Some (Some av).
Proof.
  induction keys as [|e keys IH]; intros av0 Ha; cbn [negotiate_loop]; [eauto|].
  assert (Hk : all_accepted keys) by (intros e1 a k lo hi Hin; apply Ha; right; exact Hin).
  destruct (find_case (e_key e) negotiation_cases) as [[[f' lo'] hi']|] eqn:C; [|apply IH, Hk].
  rewrite match_accepted; [apply IH, Hk|].
  apply (Ha e f' (e_key e) lo' hi'); [left; reflexivity| |reflexivity]. apply find_case_declared, C.
Qed.

Lemma negotiate_iff keys : (exists av, negotiates keys (Some av)) <-> all_accepted keys.
Proof.
  split.
  - intros (av & f & H). apply negotiate_ok in H. exact (proj1 H).
  - intros H. destruct (negotiate_accepts 0 keys no_versions H) as [av E]. exists av, 1%nat. exact E.
Qed.

Lemma negotiate_terminates : forall keys av0, Forall entry_ok keys -> (forall e, In e keys -> - 2 ^ 15 < e_min e) ->
  exists r, negotiate_loop enough keys av0 = Some r.
Proof.
  induction keys as [|e keys IH]; intros av0 Hok Hm; cbn [negotiate_loop]; [eauto|].
  inversion Hok as [|? ? He Hks]; subst.
  assert (IH' : forall av0, exists r, negotiate_loop enough keys av0 = Some r)
    by (intros; apply IH; [assumption|intros; apply Hm; right; assumption]).
  destruct (find_case (e_key e) negotiation_cases) as [[[f' lo'] hi']|]; [|apply IH'].
  assert (D : accepted e lo' hi' \/ ~ accepted e lo' hi') by (unfold accepted; lia).
  destruct D as [D|D].
  - unfold enough at 1. replace (Z.to_nat 65538) with (S (Z.to_nat 65537)) by lia. rewrite match_accepted by exact D. apply IH'.
  - rewrite match_rejected; [eauto|exact He|apply Hm; left; reflexivity|exact D].
Qed.

Lemma match_loop_mono f : forall f' e lo hi version r, (f <= f')%nat ->
  match_loop f e lo hi version = Some r -> match_loop f' e lo hi version = Some r.
Proof.
  induction f as [|f IH]; intros f' e lo hi version r Hf; [discriminate|].
  destruct f' as [|f']; [lia|]. rewrite !match_loop_S. destruct (e_min e <=? version); [|auto].
  destruct ((lo <=? e_max e) && (e_max e <=? hi)); [auto|]. apply IH. lia.
Qed.
Lemma match_mono f f' e lo hi r : (f <= f')%nat -> matchVersion f e lo hi = Some r -> matchVersion f' e lo hi = Some r.
Proof. apply match_loop_mono. Qed.
Lemma negotiate_mono f f' r : (f <= f')%nat -> forall keys av0,
  negotiate_loop f keys av0 = Some r -> negotiate_loop f' keys av0 = Some r.
Proof.
  intros Hf. induction keys as [|e keys IH]; intros av0; cbn [negotiate_loop]; [auto|].
  destruct (find_case (e_key e) negotiation_cases) as [[[f1 lo1] hi1]|]; [|apply IH].
  destruct (matchVersion f e lo1 hi1) as [r1|] eqn:M; [|discriminate].
  rewrite (match_mono f f' e lo1 hi1 r1 Hf M). destruct r1; [apply IH|auto].
Qed.
Lemma negotiates_det keys r1 r2 : negotiates keys r1 -> negotiates keys r2 -> r1 = r2.
Proof.
  intros (f1 & H1) (f2 & H2).
  apply (negotiate_mono f1 (f1 + f2)) in H1; [|lia]. apply (negotiate_mono f2 (f1 + f2)) in H2; [|lia].
  congruence.
Qed.

Lemma diverges_intro e keys a lo hi : entry_ok e -> declared a = Some (e_key e, lo, hi) ->
  e_min e = - 2 ^ 15 -> ~ (lo <= e_max e <= hi) -> diverges (e :: keys).
Proof.
  intros (_ & _ & Hmax) D Hm Hr f. unfold negotiateApiVersions. cbn [negotiate_loop].
  destruct (declared_find_case _ _ _ _ D) as [_ C]. rewrite C.
  unfold matchVersion. rewrite match_loop_forever; [reflexivity|exact Hmax|exact Hm|exact Hr].
Qed.

(** Exactly which answers make the negotiation run forever. *)
Lemma diverges_iff keys : Forall entry_ok keys ->
  (diverges keys <-> exists pre e post a lo hi, keys = pre ++ e :: post /\ all_accepted pre /\
     declared a = Some (e_key e, lo, hi) /\ e_min e = - 2 ^ 15 /\ ~ (lo <= e_max e <= hi)).
Proof.
  intros Hok. unfold diverges, negotiateApiVersions. generalize no_versions as av0. induction Hok as [|e keys He Hok IH]; intros av0.
  - split.
    + intros H. specialize (H 0%nat). discriminate.
    + intros (pre & e & post & _ & _ & _ & E & _). destruct pre; discriminate.
  - cbn [negotiate_loop]. destruct (find_case (e_key e) negotiation_cases) as [[[f' lo'] hi']|] eqn:C.
    + assert (D : (e_min e = - 2 ^ 15 /\ ~ (lo' <= e_max e <= hi')) \/ accepted e lo' hi' \/ (- 2 ^ 15 < e_min e /\ ~ accepted e lo' hi')).
      { destruct He as (_ & H1 & H2). unfold is_int16, accepted in *. lia. }
      destruct D as [[D1 D2]|[D|[D1 D2]]].
      * split; [|intros _ f; unfold matchVersion; rewrite match_loop_forever; [reflexivity| apply He |exact D1|exact D2]].
        intros _. exists [], e, keys, f', lo', hi'. split; [reflexivity|].
        split; [intros ? ? ? ? ? []|]. split; [apply find_case_declared, C|auto].
      * split.
        -- intros H. assert (H' : forall f, negotiate_loop f keys (set_version f' (e_max e) av0) = None).
           { intros f. specialize (H (S f)). rewrite match_accepted in H by exact D.
             destruct (negotiate_loop f keys (set_version f' (e_max e) av0)) eqn:E; [|reflexivity].
             apply (negotiate_mono f (S f)) in E; [congruence|lia]. }
           apply IH in H'. destruct H' as (pre & e1 & post & a & lo & hi & -> & Ha & Hd).
           exists (e :: pre), e1, post, a, lo, hi. split; [reflexivity|]. split; [|exact Hd].
           intros e2 a2 k2 lo2 hi2 [<-|Hin] D2 K2; [|eapply Ha; eassumption].
           destruct (declared_find_case _ _ _ _ D2) as [_ C2]. rewrite <- K2, C in C2. injection C2 as <- <- <-. exact D.
        -- intros (pre & e1 & post & a & lo & hi & E & Ha & Hd & Hm & Hr). destruct pre as [|p pre].
           { cbn in E. injection E as <- _. exfalso. destruct (declared_find_case _ _ _ _ Hd) as [_ C2].
             rewrite C in C2. injection C2 as <- <- <-. unfold accepted in D. lia. }
           cbn in E. injection E as <- E. intros [|f]; [reflexivity|]. rewrite match_accepted by exact D.
           apply (proj2 (IH (set_version f' (e_max e) av0))). exists pre, e1, post, a, lo, hi. split; [exact E|].
           split; [|auto]. intros e2 a2 k2 lo2 hi2 Hin. apply Ha. right. exact Hin.
      * split.
        -- intros H. specialize (H enough). rewrite match_rejected in H; [discriminate|exact He|exact D1|exact D2].
        -- intros (pre & e1 & post & a & lo & hi & E & Ha & Hd & Hm & Hr). exfalso. destruct pre as [|p pre].
           ++ cbn in E. injection E as <- _. lia.
           ++ cbn in E. injection E as <- E. apply D2. apply (Ha e f' (e_key e) lo' hi'); [left; reflexivity| |reflexivity].
              apply find_case_declared, C.
    + rewrite IH. split.
      * intros (pre & e1 & post & a & lo & hi & -> & Ha & Hd). exists (e :: pre), e1, post, a, lo, hi.
        split; [reflexivity|]. split; [|exact Hd]. intros e2 a2 k2 lo2 hi2 [<-|Hin] D2 K2; [|eapply Ha; eassumption].
        destruct (declared_find_case _ _ _ _ D2) as [_ C2]. rewrite <- K2, C in C2. discriminate.
      * intros (pre & e1 & post & a & lo & hi & E & Ha & Hd & Hm & Hr). destruct pre as [|p pre].
        -- cbn in E. injection E as <- _. destruct (declared_find_case _ _ _ _ Hd) as [_ C2]. congruence.
        -- cbn in E. injection E as <- E. exists pre, e1, post, a, lo, hi. split; [exact E|]. split; [|auto].
           intros e2 a2 k2 lo2 hi2 Hin. apply Ha. right. exact Hin.
Qed.

(** ** Consequences *)

Lemma negotiation_sound : forall keys av, negotiates keys (Some av) ->
  forall e a key lo hi, last_entry keys e -> declared a = Some (key, lo, hi) -> e_key e = key ->
  e_min e <= av a <= e_max e /\ lo <= av a <= hi.
Proof.
  intros keys av (f & H) e a key lo hi Hl D Hk. apply negotiate_ok in H. destruct H as [H1 H2].
  assert (Hin : In e keys).
  { destruct Hl as (pre & post & -> & _). apply in_app_iff. right. left. reflexivity. }
  pose proof (H1 e a key lo hi Hin D Hk) as (A & B & C).
  rewrite (proj1 (H2 a key lo hi D) e Hl Hk). lia.
Qed.

Lemma negotiation_highest : forall keys av, negotiates keys (Some av) ->
  forall e a key lo hi, last_entry keys e -> declared a = Some (key, lo, hi) -> e_key e = key ->
  highest_common e lo hi (av a).
Proof.
  intros keys av (f & H) e a key lo hi Hl D Hk.
  pose proof (negotiation_sound keys av (ex_intro _ f H) e a key lo hi Hl D Hk) as [A B].
  apply negotiate_ok in H. destruct H as [H1 H2]. rewrite (proj1 (H2 a key lo hi D) e Hl Hk) in *.
  unfold highest_common. repeat split; lia.
Qed.

Definition entry_of (k mn mx : Z) : ApiVersionsResponseKey18 := mkApiVersionsResponseKey18 k mn mx.

Lemma negotiation_incomplete : exists keys, Forall entry_ok keys /\
  (forall e a key lo hi, In e keys -> declared a = Some (key, lo, hi) -> e_key e = key -> overlap e lo hi) /\
  negotiates keys None.
Proof.
  exists [entry_of 0 0 9]. split; [|split].
  - repeat constructor; cbn; unfold is_int16; lia.
  - intros e a key lo hi [<-|[]] D K. cbn in K. subst key.
    destruct (declared_find_case _ _ _ _ D) as [_ C]. cbn in C. injection C as <- <- <-.
    exists 0. cbn. lia.
  - exists 11%nat. reflexivity.
Qed.

Lemma last_entry_of keys key : (exists e, In e keys /\ e_key e = key) ->
  exists e, last_entry keys e /\ e_key e = key.
Proof.
  intros H. induction keys as [|k keys IH] using rev_ind; [destruct H as (e & [] & _)|].
  destruct (Z.eq_dec (e_key k) key) as [Hk|Hk].
  - exists k. split; [|exact Hk]. exists keys, []. split; [reflexivity|intros ? []].
  - destruct IH as (e & (pre & post & E & Hl) & He).
    + destruct H as (e & Hin & He). apply in_app_iff in Hin. destruct Hin as [Hin|[<-|[]]]; [eauto|congruence].
    + exists e. split; [|exact He]. exists pre, (post ++ [k]). split; [rewrite E, <- app_assoc; reflexivity|].
      intros e' Hin. apply in_app_iff in Hin. destruct Hin as [Hin|[<-|[]]]; [apply Hl, Hin|congruence].
Qed.

Lemma negotiation_complete : forall keys,
  (forall e a key lo hi, In e keys -> declared a = Some (key, lo, hi) -> e_key e = key ->
     overlap e lo hi /\ e_max e <= hi) ->
  exists av, negotiates keys (Some av) /\
    forall e a key lo hi, last_entry keys e -> declared a = Some (key, lo, hi) -> e_key e = key ->
      highest_common e lo hi (av a).
Proof.
  intros keys H. destruct (proj2 (negotiate_iff keys)) as [av E].
  - intros e a key lo hi Hin D K. destruct (H e a key lo hi Hin D K) as [(v & H1 & H2) H3]. unfold accepted. lia.
  - exists av. split; [exact E|]. apply negotiation_highest, E.
Qed.

Lemma negotiation_exact : forall keys,
  (exists av, negotiates keys (Some av)) <->
  (forall e a key lo hi, In e keys -> declared a = Some (key, lo, hi) -> e_key e = key ->
     e_min e <= e_max e /\ lo <= e_max e <= hi).
Proof. exact negotiate_iff. Qed.

Lemma negotiation_terminates : forall keys, Forall entry_ok keys -> (forall e, In e keys -> - 2 ^ 15 < e_min e) ->
  exists r, negotiates keys r.
Proof.
  intros keys H1 H2. destruct (negotiate_terminates keys no_versions H1 H2) as [r E]. exists r, enough. exact E.
Qed.

Lemma negotiation_loops : exists keys, Forall entry_ok keys /\ diverges keys.
Proof.
  exists [entry_of 0 (-32768) 20]. split.
  - repeat constructor; cbn; unfold is_int16; lia.
  - apply (diverges_intro _ [] Produce 0 8); cbn; [unfold entry_ok, is_int16; cbn; lia|reflexivity|reflexivity|lia].
Qed.

Lemma unadvertised_zero : forall keys av, negotiates keys (Some av) ->
  forall a key lo hi, declared a = Some (key, lo, hi) -> (forall e, In e keys -> e_key e <> key) -> av a = 0.
Proof.
  intros keys av (f & H) a key lo hi D Hn. apply negotiate_ok in H. destruct H as [_ H].
  rewrite (proj2 (H a key lo hi D) Hn). reflexivity.
Qed.

Lemma last_wins : forall keys av, negotiates keys (Some av) ->
  forall e a key lo hi, last_entry keys e -> declared a = Some (key, lo, hi) -> e_key e = key -> av a = e_max e.
Proof.
  intros keys av (f & H) e a key lo hi Hl D K. apply negotiate_ok in H. exact (proj1 (proj2 H a key lo hi D) e Hl K).
Qed.

Lemma find_case_unknown key : (forall a k lo hi, declared a = Some (k, lo, hi) -> key <> k) ->
  find_case key negotiation_cases = None.
Proof.
  intros H. destruct (find_case key negotiation_cases) as [[[a lo] hi]|] eqn:C; [|reflexivity].
  exfalso. apply (H a key lo hi); [apply find_case_declared, C|reflexivity].
Qed.

Lemma unknown_ignored : forall pre e post r,
  (forall a key lo hi, declared a = Some (key, lo, hi) -> e_key e <> key) ->
  (negotiates (pre ++ e :: post) r <-> negotiates (pre ++ post) r).
Proof.
  intros pre e post r H.
  assert (E : forall f av0, negotiate_loop f (pre ++ e :: post) av0 = negotiate_loop f (pre ++ post) av0).
  { intros f. induction pre as [|p pre IH]; intros av0; cbn [app negotiate_loop].
    - rewrite find_case_unknown by exact H. reflexivity.
    - destruct (find_case (e_key p) negotiation_cases) as [[[f' lo'] hi']|]; [|apply IH].
      destruct (matchVersion f p lo' hi') as [[x|]|]; [apply IH|reflexivity|reflexivity]. }
  unfold negotiates, negotiateApiVersions. split; intros (f & Hf); exists f; [rewrite <- E|rewrite E]; exact Hf.
Qed.

Lemma permutation_irrelevant : forall keys keys' av, Permutation keys keys' -> NoDup (map e_key keys) ->
  negotiates keys (Some av) -> exists av', negotiates keys' (Some av') /\ forall a, av' a = av a.
Proof.
  intros keys keys' av P N H.
  assert (A : all_accepted keys) by (apply negotiate_iff; eauto).
  assert (A' : all_accepted keys').
  { intros e a key lo hi Hin. apply A. eapply Permutation_in; [symmetry; exact P|exact Hin]. }
  destruct (proj2 (negotiate_iff keys') A') as [av' H']. exists av'. split; [exact H'|]. intros a.
  destruct (case_of a) as (lo & hi & D & _).
  assert (Dec : (exists e, In e keys /\ e_key e = api_index a) \/ forall e, In e keys -> e_key e <> api_index a).
  { clear. induction keys as [|k keys IH]; [right; intros ? []|].
    destruct (Z.eq_dec (e_key k) (api_index a)); [left; exists k; cbn; auto|].
    destruct IH as [(e & Hin & He)|IH]; [left; exists e; cbn; auto|right].
    intros e [<-|Hin]; [assumption|apply IH, Hin]. }
  destruct Dec as [Hex|Hn].
  - destruct (last_entry_of keys _ Hex) as (e & Hl & He).
    assert (Hin : In e keys) by (destruct Hl as (pre & post & -> & _); apply in_app_iff; right; left; reflexivity).
    assert (Hl' : last_entry keys' e).
    { pose proof (Permutation_in _ P Hin) as Hin'. apply in_split in Hin'. destruct Hin' as (l1 & l2 & E).
      exists l1, l2. split; [exact E|]. intros e' Hin2 Heq.
      assert (N' : NoDup (map e_key keys')) by (eapply Permutation_NoDup; [apply Permutation_map, P|exact N]).
      rewrite E, map_app in N'. cbn [map] in N'. apply NoDup_remove_2 in N'. apply N'.
      apply in_app_iff. right. rewrite <- Heq. apply in_map. exact Hin2. }
    rewrite (last_wins keys av H e a _ lo hi Hl D He), (last_wins keys' av' H' e a _ lo hi Hl' D He). reflexivity.
  - rewrite (unadvertised_zero keys av H a _ lo hi D Hn).
    apply (unadvertised_zero keys' av' H' a _ lo hi D). intros e Hin. apply Hn. eapply Permutation_in; [symmetry; exact P|exact Hin].
Qed.

(** ** Requests and responses *)

Definition opt_api_eqb := api_eqb.
Definition pair_eqb (x y : option (Z * Z * Z)) : bool :=
  match x, y with
  | Some (a, b, c), Some (a', b', c') => (a =? a') && (b =? b') && (c =? c')
  | _, _ => false
  end.

(** The boolean check of one row of the method table against its name. *)
Definition row_ok (m : method) (a : api) : bool :=
  String.eqb (m_name m) (api_name a) &&
  (m_key m =? api_index a) &&
  (m_header_size m =? 2) && (m_header_encode m =? 2) &&
  api_eqb (m_v_header m) a && api_eqb (m_v_size m) a && api_eqb (m_v_encode m) a && api_eqb (m_v_decode m) a &&
  String.eqb (m_req_name m) (api_name a ++ "Request") && String.eqb (m_resp_name m) (api_name a ++ "Response").

Lemma rows_ok : map m_name all_methods = map api_name all_apis /\
  forallb (fun ma => row_ok (fst ma) (snd ma)) (combine all_methods all_apis) = true /\
  List.length all_methods = List.length all_apis.
Proof. split; [reflexivity|]. split; vm_compute; reflexivity. Qed.

Lemma method_row m : In m all_methods -> exists a, row_ok m a = true.
Proof.
  destruct rows_ok as (_ & H & L). revert H L. generalize all_methods, all_apis. intros l1.
  induction l1 as [|x l1 IH]; intros l2 H L Hin; [destruct Hin|]. destruct l2 as [|y l2]; [discriminate|].
  cbn [combine forallb fst snd] in H. apply andb_true_iff in H. destruct H as [H1 H2].
  destruct Hin as [<-|Hin]; [eauto|]. apply (IH l2 H2); [cbn in L; congruence|exact Hin].
Qed.

Lemma method_exists a : exists m, In m all_methods /\ m_name m = api_name a.
Proof.
  assert (In (api_name a) (map m_name all_methods)).
  { destruct rows_ok as (-> & _). apply in_map. destruct a; cbn [all_apis In]; tauto. }
  apply in_map_iff in H. destruct H as (m & E & Hin). eauto.
Qed.

Lemma row_facts m a : row_ok m a = true ->
  m_name m = api_name a /\ m_key m = api_index a /\ m_header_size m = 2 /\ m_header_encode m = 2 /\
  m_v_header m = a /\ m_v_size m = a /\ m_v_encode m = a /\ m_v_decode m = a /\
  m_req_name m = (api_name a ++ "Request")%string /\ m_resp_name m = (api_name a ++ "Response")%string.
Proof.
  unfold row_ok. intros H. repeat (apply andb_true_iff in H; destruct H as [H ?]).
  repeat match goal with
    | H : String.eqb _ _ = true |- _ => apply String.eqb_eq in H
    | H : (_ =? _) = true |- _ => apply Z.eqb_eq in H
    | H : api_eqb _ _ = true |- _ => apply (reflect_iff _ _ (api_eqb_spec _ _)) in H
    end.
  repeat split; assumption.
Qed.

(** The codecs in the method table are those of the message list. *)
Fixpoint codec_named (name : string) (l : list (string * codec)) : option codec :=
  match l with [] => None | (n, c) :: rest => if String.eqb name n then Some c else codec_named name rest end.
Lemma codec_named_In name c l : codec_named name l = Some c -> In (name, c) l.
Proof.
  induction l as [|[n c'] l IH]; cbn [codec_named]; [discriminate|].
  destruct (String.eqb_spec name n); [intros H; injection H as ->; subst; left; reflexivity|intros H; right; apply IH, H].
Qed.
Lemma method_codecs : Forall (fun m => codec_named (m_req_name m) all_codecs = Some (m_req m) /\
  codec_named (m_resp_name m) all_codecs = Some (m_resp m)) all_methods.
Proof.
  unfold all_methods.
  repeat (apply Forall_cons; [split; reflexivity|]). apply Forall_nil.
Qed.
Lemma method_codecs_In m : In m all_methods ->
  In (m_req_name m, m_req m) all_codecs /\ In (m_resp_name m, m_resp m) all_codecs.
Proof.
  intros H. pose proof method_codecs as F. rewrite Forall_forall in F. destruct (F m H) as [H1 H2].
  split; apply codec_named_In; assumption.
Qed.

Lemma zlen_w_string s : zlen (w_string s) = 2 + zlen s.
Proof. unfold w_string. rewrite zlen_app, zlen_be. reflexivity. Qed.

Lemma be4_int32 z : be 4 (int32 z) = be 4 z.
Proof.
  assert (E : forall x y, x mod 2 ^ 32 = y mod 2 ^ 32 -> be 4 x = be 4 y).
  { intros x y H. rewrite <- (put_uint32_be x), <- (put_uint32_be y). unfold uint32. rewrite H. reflexivity. }
  apply E. unfold int32. apply wrap_residue. lia.
Qed.

Lemma RequestHeader_emits k v corr cid :
  let bs := be 2 k ++ be 2 v ++ be 4 corr ++ w_string cid in
  Emits (RequestHeader_Encode 2 (mkRequestHeader k v corr cid)) bs /\
  RequestHeader_Size 2 (mkRequestHeader k v corr cid) = int32 (zlen bs).
Proof.
  cbn zeta. pose proof (linked_emits _ RequestHeader_linked 2 (mkRequestHeader k v corr cid)) as E.
  pose proof (linked_size _ RequestHeader_linked 2 (mkRequestHeader k v corr cid)) as S.
  cbn [RequestHeader_codec c_encode c_size c_schema c_to] in E, S.
  replace (wires RequestHeader_schema 2 (RequestHeader_to (mkRequestHeader k v corr cid)))
    with (be 2 k ++ be 2 v ++ be 4 corr ++ w_string cid) in E, S; [auto|].
  unfold RequestHeader_schema, RequestHeader_to. cbn [wires wire active fst snd RequestHeader_RequestApiKey RequestHeader_RequestApiVersion RequestHeader_CorrelationId RequestHeader_ClientId].
  change (1 <=? 2) with true. cbv iota. rewrite app_nil_r. reflexivity.
Qed.

Lemma request_frame : forall m, In m all_methods -> exists a lo hi, declared a = Some (m_key m, lo, hi) /\
  m_name m = api_name a /\ m_req_name m = (api_name a ++ "Request")%string /\
  In (m_req_name m, m_req m) all_codecs /\
  forall av clientID req corr, exists body,
    Emits (c_encode (m_req m) (av a) req) body /\
    let hdr := be 2 (m_key m) ++ be 2 (av a) ++ be 4 corr ++ w_string clientID in
    Emits (encode_request m av clientID req corr) (be 4 (zlen (hdr ++ body)) ++ hdr ++ body).
Proof.
  intros m Hm. destruct (method_row m Hm) as [a Ha]. destruct (row_facts m a Ha) as (E1 & E2 & E3 & E4 & E5 & E6 & E7 & E8 & E9 & E10).
  destruct (case_of a) as (lo & hi & D & _). exists a, lo, hi. rewrite E2.
  split; [exact D|]. split; [exact E1|]. split; [exact E9|].
  destruct (method_codecs_In m Hm) as [Hin _]. split; [exact Hin|].
  intros av cid req corr. pose proof (codec_linked _ _ Hin) as L.
  exists (wires (c_schema (m_req m)) (av a) (c_to (m_req m) req)). split; [apply (linked_emits _ L)|]. cbn zeta.
  unfold encode_request. rewrite E2, E3, E4, E5, E6, E7.
  destruct (RequestHeader_emits (api_index a) (av a) corr cid) as [He Hs].
  rewrite Hs, (linked_size _ L).
  apply Emits_seq; [|apply Emits_seq; [exact He|apply (linked_emits _ L)]].
  pose proof (Runs_Emits _ _ (Runs_PutInt32 (add32 (int32 (zlen (be 2 (api_index a) ++ be 2 (av a) ++ be 4 corr ++ w_string cid)))
     (int32 (zlen (wires (c_schema (m_req m)) (av a) (c_to (m_req m) req))))))) as P.
  cbn [concat] in P. rewrite app_nil_r in P. unfold add32 in P. rewrite be4_int32 in P.
  replace (be 4 (zlen ((be 2 (api_index a) ++ be 2 (av a) ++ be 4 corr ++ w_string cid) ++
     wires (c_schema (m_req m)) (av a) (c_to (m_req m) req)))) with
   (be 4 (int32 (zlen (be 2 (api_index a) ++ be 2 (av a) ++ be 4 corr ++ w_string cid)) +
     int32 (zlen (wires (c_schema (m_req m)) (av a) (c_to (m_req m) req))))); [exact P|].
  rewrite <- be4_int32. fold (add32 (int32 (zlen (be 2 (api_index a) ++ be 2 (av a) ++ be 4 corr ++ w_string cid)))
     (int32 (zlen (wires (c_schema (m_req m)) (av a) (c_to (m_req m) req))))).
  rewrite add32_lr, be4_int32, <- zlen_app. reflexivity.
Qed.

Lemma response_version : forall m, In m all_methods -> exists a lo hi, declared a = Some (m_key m, lo, hi) /\
  m_name m = api_name a /\ m_resp_name m = (api_name a ++ "Response")%string /\
  In (m_resp_name m, m_resp m) all_codecs /\
  forall av resp, fit (c_schema (m_resp m)) (av a) (c_to (m_resp m) resp) ->
    exists bs resp', Emits (c_encode (m_resp m) (av a) resp) bs /\ Decodes (decode_response m av) bs resp' /\
      c_to (m_resp m) resp' = receive (c_schema (m_resp m)) (av a) (zeros (c_schema (m_resp m))) (c_to (m_resp m) resp).
Proof.
  intros m Hm. destruct (method_row m Hm) as [a Ha]. destruct (row_facts m a Ha) as (E1 & E2 & E3 & E4 & E5 & E6 & E7 & E8 & E9 & E10).
  destruct (case_of a) as (lo & hi & D & _). exists a, lo, hi. rewrite E2.
  split; [exact D|]. split; [exact E1|]. split; [exact E10|].
  destruct (method_codecs_In m Hm) as [_ Hin]. split; [exact Hin|].
  intros av resp Hf. pose proof (codec_linked _ _ Hin) as L. unfold decode_response. rewrite E8.
  eexists. eexists. split; [apply (linked_emits _ L)|]. split; [apply (linked_decodes _ L), Hf|].
  rewrite (l_to_of _ L), (l_zero _ L). reflexivity.
Qed.

(** Keys. *)
Lemma keys_consistent :
  map m_key all_methods = map Z.of_nat (List.seq 0 48) /\
  NoDup (map m_key all_methods) /\
  NoDup (map m_name all_methods) /\
  (forall m, In m all_methods -> exists a lo hi,
     m_name m = api_name a /\
     doc (m_req_name m) message_docs = Some (m_key m, lo, hi) /\
     doc (m_resp_name m) message_docs = Some (m_key m, lo, hi) /\
     m_req_name m = (m_name m ++ "Request")%string /\ m_resp_name m = (m_name m ++ "Response")%string /\
     m_v_header m = a /\ m_v_encode m = a /\ m_v_decode m = a /\
     forall e av, e_key e = m_key m -> negotiates [e] (Some av) ->
       lo <= av a <= hi /\ forall b, b <> a -> av b = 0).
Proof.
  assert (K : map m_key all_methods = map Z.of_nat (List.seq 0 48)) by reflexivity.
  split; [exact K|]. split.
  { rewrite K. apply FinFun.Injective_map_NoDup; [intros x y; apply Nat2Z.inj|apply seq_NoDup]. }
  split.
  { destruct rows_ok as (-> & _). assert (N : NoDup (map api_index all_apis)).
    - replace (map api_index all_apis) with (map Z.of_nat (List.seq 0 48)) by reflexivity.
      apply FinFun.Injective_map_NoDup; [intros x y; apply Nat2Z.inj|apply seq_NoDup].
    - apply FinFun.Injective_map_NoDup; [|apply NoDup_map_inv with (f := api_index); exact N].
      intros a b. destruct a; destruct b; intros H; try reflexivity; discriminate H. }
  intros m Hm. destruct (method_row m Hm) as [a Ha]. destruct (row_facts m a Ha) as (E1 & E2 & E3 & E4 & E5 & E6 & E7 & E8 & E9 & E10).
  destruct (case_of a) as (lo & hi & D & C & _). exists a, lo, hi.
  split; [exact E1|]. rewrite E2, E9, E10, E1. split; [exact D|]. split.
  { revert D. unfold declared. destruct a; vm_compute; exact (fun x => x). }
  split; [reflexivity|]. split; [reflexivity|]. split; [exact E5|]. split; [exact E7|]. split; [exact E8|].
  intros e av Hk H. assert (Hl : last_entry [e] e) by (exists [], []; split; [reflexivity|intros ? []]). split.
  - apply (negotiation_sound [e] av H e a _ lo hi Hl D Hk).
  - intros b Hb. destruct (case_of b) as (lo2 & hi2 & D2 & _). apply (unadvertised_zero [e] av H b _ lo2 hi2 D2).
    intros e' [<-|[]] He. apply Hb, api_index_inj. congruence.
Qed.

Lemma api_name_inj a b : api_name a = api_name b -> a = b.
Proof. destruct a; destruct b; intros H; try reflexivity; discriminate H. Qed.

Lemma request_readable : forall m, In m all_methods -> forall a, m_name m = api_name a ->
  forall av clientID req corr bytes,
    is_int16 (av a) -> is_int32 corr -> zlen clientID < 2 ^ 15 ->
    fit (c_schema (m_req m)) (av a) (c_to (m_req m) req) ->
    Emits (encode_request m av clientID req corr) bytes -> zlen bytes < 2 ^ 31 ->
    exists req', Decodes (read_request m (av a)) bytes
      (zlen bytes - 4, (mkRequestHeader (m_key m) (av a) corr clientID, req')) /\
      c_to (m_req m) req' = receive (c_schema (m_req m)) (av a) (zeros (c_schema (m_req m))) (c_to (m_req m) req).
Proof.
  intros m Hm a Hn av cid req corr bytes Hv Hc Hl Hf He Hb.
  destruct (request_frame m Hm) as (a' & lo & hi & D & N & _ & Hin & F).
  assert (a' = a) as -> by (apply api_name_inj; congruence).
  destruct (declared_find_case _ _ _ _ D) as [Hk _]. pose proof (api_index_range a) as Hr.
  pose proof (codec_linked _ _ Hin) as L. destruct (F av cid req corr) as (body & Eb & E). clear F. cbn zeta in E.
  pose proof (Emits_inj _ _ _ Eb (linked_emits _ L (av a) req)) as ->.
  set (body := wires (c_schema (m_req m)) (av a) (c_to (m_req m) req)) in *.
  set (hdr := be 2 (m_key m) ++ be 2 (av a) ++ be 4 corr ++ w_string cid) in *.
  pose proof (Emits_inj _ _ _ He E) as ->.
  pose proof (zlen_nonneg (hdr ++ body)) as H0.
  assert (Hz : zlen (be 4 (zlen (hdr ++ body)) ++ hdr ++ body) = 4 + zlen (hdr ++ body)) by (rewrite zlen_app, zlen_be; reflexivity).
  rewrite Hz in *. replace (4 + zlen (hdr ++ body) - 4) with (zlen (hdr ++ body)) by lia.
  eexists. split.
  - unfold read_request. eapply Decodes_bind; [apply Decodes_int32; unfold is_int32; lia|]. cbn beta.
    eapply Decodes_bind.
    + pose proof (linked_decodes _ RequestHeader_linked 2 RequestHeader_zero (mkRequestHeader (m_key m) (av a) corr cid)) as Dh.
      cbn [RequestHeader_codec c_encode c_size c_schema c_to c_decode c_of] in Dh.
      replace (wires RequestHeader_schema 2 (RequestHeader_to (mkRequestHeader (m_key m) (av a) corr cid))) with hdr in Dh.
      * replace (RequestHeader_of (receive RequestHeader_schema 2 (RequestHeader_to RequestHeader_zero)
          (RequestHeader_to (mkRequestHeader (m_key m) (av a) corr cid)))) with (mkRequestHeader (m_key m) (av a) corr cid) in Dh by reflexivity.
        apply Dh. unfold RequestHeader_schema, RequestHeader_to. cbn [fit fits fst snd active RequestHeader_RequestApiKey RequestHeader_RequestApiVersion RequestHeader_CorrelationId RequestHeader_ClientId].
        repeat match goal with |- _ /\ _ => split | |- _ -> _ => intros _ end; try assumption; try exact I; try (unfold is_int16; lia).
      * unfold hdr, RequestHeader_schema, RequestHeader_to.
        cbn [wires wire active fst snd RequestHeader_RequestApiKey RequestHeader_RequestApiVersion RequestHeader_CorrelationId RequestHeader_ClientId].
        change (1 <=? 2) with true. cbv iota. rewrite app_nil_r. reflexivity.
    + cbn beta. rewrite <- (app_nil_r body). eapply Decodes_bind; [apply (linked_decodes _ L), Hf|]. cbn beta.
      apply Decodes_ret.
  - rewrite (l_to_of _ L), (l_zero _ L). reflexivity.
Qed.

Lemma negotiates_own_field : forall m, In m all_methods -> exists a lo hi,
  m_name m = api_name a /\ doc (m_req_name m) message_docs = Some (m_key m, lo, hi) /\ lo <= hi /\
  forall v, lo <= v <= hi -> exists av, negotiates [entry_of (m_key m) v v] (Some av) /\ av a = v.
Proof.
  intros m Hm. destruct (method_row m Hm) as [a Ha]. destruct (row_facts m a Ha) as (E1 & E2 & _ & _ & _ & _ & _ & _ & E9 & _).
  destruct (case_of a) as (lo & hi & D & C & H & _). exists a, lo, hi. split; [exact E1|]. rewrite E2, E9.
  split; [exact D|]. split; [lia|]. intros v Hv.
  destruct (proj2 (negotiate_iff [entry_of (api_index a) v v])) as [av Hav].
  - intros e b key lo' hi' [<-|[]] D' K. cbn in K. subst key. destruct (declared_find_case _ _ _ _ D') as [_ C'].
    rewrite C in C'. injection C' as <- <- <-. unfold accepted. cbn. lia.
  - exists av. split; [exact Hav|].
    rewrite (last_wins _ av Hav (entry_of (api_index a) v v) a (api_index a) lo hi); [reflexivity| |exact D|reflexivity].
    exists [], []. split; [reflexivity|intros ? []].
Qed.
