(** * Responses in Kafka's flexible form are not read *)
From Coq Require Import String.
From Verif Require Import GoBase GoLemmas Encoder Decoder Spec SchemaSpec GrammarSpec EncProofs GrammarProofs Schema Link AllMessages MsgProps MsgProofs
  BrokerTable Broker BrokerSpec BrokerProofs FlexSpec FlexProofs FlexRespSpec.
Local Open Scope list_scope.
Local Open Scope Z_scope.
Ltac Zify.zify_post_hook ::= idtac.

Lemma shift_all b : forall c (X Y : list Z), c :: b ++ X = b ++ Y -> b = repeat c (length b) /\ Y = c :: X.
Proof.
  induction b as [|y b IH]; intros c X Y E; [split; [reflexivity|symmetry; exact E]|]. cbn [app] in E. injection E as -> E.
  destruct (IH _ _ _ E) as [Hb ->]. cbn [length repeat]. rewrite <- Hb. auto.
Qed.
Lemma be_zero k : be k 0 = repeat 0 k.
Proof. induction k as [|k IH]; [reflexivity|]. cbn [be repeat]. rewrite IH, Z.div_0_l; [reflexivity|]. apply Z.pow_nonzero; lia. Qed.
Lemma shift_int k x X Y : - 256 ^ Z.of_nat k <= 2 * x < 256 ^ Z.of_nat k -> 0 :: be k x ++ X = be k x ++ Y -> x = 0 /\ Y = 0 :: X.
Proof.
  intros Hx E. assert (P : 0 < 256 ^ Z.of_nat k) by (apply Z.pow_pos_nonneg; lia). destruct (shift_all _ _ _ _ E) as [Hb ->]. split; [|reflexivity]. rewrite length_be, <- be_zero in Hb.
  apply (f_equal unbe) in Hb. rewrite !unbe_be, Z.mod_0_l in Hb by lia. apply Z.mod_divide in Hb; [|lia]. destruct Hb as [q Hq].
  set (P256 := 256 ^ Z.of_nat k) in *. clearbody P256. destruct (Z.eq_dec q 0) as [->|Hq0]; [lia|]. exfalso. assert (q <= -1 \/ 1 <= q) as [G|G] by lia; nia.
Qed.
Lemma seen_items {A} (f : A -> A) s : zlen (map f (items s)) = glen s.
Proof. unfold zlen. rewrite map_length. reflexivity. Qed.

(** One field behind the byte of the header's tagged fields. *)
Lemma shift_field t v x b1 r p q : fits t v x -> short_field t x -> compact t v x b1 ->
  0 :: b1 ++ r = p ++ q -> accepts t v (zero t) p (seen t v x) -> blank_field t x /\ q = 0 :: r.
Proof.
  destruct t; cbn [fits short_field compact accepts zero seen blank_field den] in *; intros Hf Hs Hc E Ha.
  - subst b1. destruct Ha as (b & _ & -> & Hx). cbn [app] in E. injection E as <- E. change (0 =? 1) with false in Hx. subst x. cbn in E. split; [reflexivity|symmetry; exact E].
  - subst b1. destruct Ha as [_ ->]. apply shift_int in E; [exact E|]. unfold is_int8 in Hf. change (256 ^ Z.of_nat 1) with 256. lia.
  - subst b1. destruct Ha as [_ ->]. apply shift_int in E; [exact E|]. unfold is_int16 in Hf. change (256 ^ Z.of_nat 2) with 65536. lia.
  - subst b1. destruct Ha as [_ ->]. apply shift_int in E; [exact E|]. unfold is_int32 in Hf. change (256 ^ Z.of_nat 4) with 4294967296. lia.
  - subst b1. destruct Ha as [_ ->]. apply shift_int in E; [exact E|]. unfold is_int64 in Hf. change (256 ^ Z.of_nat 8) with 18446744073709551616. lia.
  - exfalso. destruct Hc as (pre & Hp & ->). destruct Ha as [[-> _]|[-> _]]; [discriminate E|].
    rewrite <- !app_assoc in E. revert E. apply shift_string; [exact Hp|]. pose proof (zlen_nonneg x). lia.
  - exfalso. destruct Ha as (s & Hx & -> & _). injection Hx as <-. revert E. eapply shift_prefix; [exact Hc|]. split; [apply zlen_nonneg|exact Hs].
  - exfalso. destruct Ha as [[-> ->]|(n & bs' & xs & Hn & -> & Hl & ->)]; [subst b1; discriminate E|].
    apply accepts_list_length in Hl. subst n. revert E. eapply shift_prefix; [exact Hc|]. split; [apply zlen_nonneg|exact Hs].
  - exfalso. destruct Ha as [[-> ->]|(n & bs' & xs & Hn & -> & Hl & ->)]; [subst b1; discriminate E|].
    apply accepts_list_length in Hl. subst n. revert E. eapply shift_prefix; [exact Hc|]. split; [apply zlen_nonneg|exact Hs].
  - exfalso. destruct Ha as [[-> ->]|(n & bs' & xs & Hn & -> & Hl & ->)]; [subst b1; discriminate E|].
    destruct Hc as (parts & _ & Hc). apply accepts_list_length in Hl. subst n. revert E. eapply shift_prefix; [exact Hc|]. split; [apply zlen_nonneg|exact Hs].
  - exfalso. destruct Hc as (parts & _ & Hc). destruct Ha as [(n & _ & _ & Hx)|(n & bs' & xs & Hn & -> & Hl & Hx)]; [discriminate Hx|].
    injection Hx as <-. apply accepts_list_length in Hl. rewrite seen_items in Hl. subst n. revert E. eapply shift_prefix; [exact Hc|].
    split; [apply zlen_nonneg|exact Hs].
Qed.
Lemma shift_read fs v : forall x bs r p q, fit fs v x -> short fs v x -> compacts fs v x bs -> 0 :: bs ++ r = p ++ q ->
  acceptss fs v (zeros fs) p (receive fs v (zeros fs) x) -> blank fs v x.
Proof.
  induction fs as [|name rg t rest IH]; cbn [fit short compacts acceptss receive zeros blank fst snd]; intros x bs r p q Hf Hs Hc E Ha; [exact I|].
  destruct Hf as [Hf Hfr]. destruct Hs as [Hs Hsr]. destruct Hc as (b1 & b2 & -> & H1 & H2). destruct Ha as (p1 & p2 & -> & A1 & A2).
  rewrite <- !app_assoc in E. destruct (active rg v).
  - destruct (shift_field t v (fst x) b1 (b2 ++ r) p1 (p2 ++ q) (Hf eq_refl) (Hs eq_refl) H1 E A1) as [Hb E'].
    split; [intros _; exact Hb|]. eapply IH; try eassumption. symmetry. exact E'.
  - destruct A1 as [-> _]. subst b1. cbn [app] in E. split; [discriminate|]. eapply IH; eassumption.
Qed.

(** Without that byte. *)
Lemma same_field t v x b1 r p q : fits t v x -> compact t v x b1 ->
  b1 ++ r = p ++ q -> accepts t v (zero t) p (seen t v x) -> number t = true /\ q = r.
Proof.
  destruct t; cbn [fits compact accepts zero seen number den] in *; intros Hf Hc E Ha.
  - subst b1. destruct Ha as (b & _ & -> & Hx). destruct x; cbn in E; injection E as _ E; (split; [reflexivity|symmetry; exact E]).
  - subst b1. destruct Ha as [_ ->]. apply app_inv_head in E. split; [reflexivity|symmetry; exact E].
  - subst b1. destruct Ha as [_ ->]. apply app_inv_head in E. split; [reflexivity|symmetry; exact E].
  - subst b1. destruct Ha as [_ ->]. apply app_inv_head in E. split; [reflexivity|symmetry; exact E].
  - subst b1. destruct Ha as [_ ->]. apply app_inv_head in E. split; [reflexivity|symmetry; exact E].
  - exfalso. destruct Hc as (pre & Hp & ->). destruct Ha as [[-> ->]|[-> _]].
    + destruct Hp as (m & Hm & -> & Hr & _). destruct m as [|[|m]]; [lia| |]; cbn in E; discriminate E.
    + rewrite <- !app_assoc in E. revert E. apply (compact_first _ _ _ _ 1); [exact Hp|]. pose proof (zlen_nonneg x). lia.
  - exfalso. destruct Ha as (s & Hx & -> & Hs). injection Hx as <-. revert E. apply (compact_differs _ _ _ _ _ _ 3 Hc). split; [apply zlen_nonneg|exact Hf].
  - exfalso. destruct Ha as [[-> ->]|(n & bs' & xs & Hn & -> & Hl & ->)]; [subst b1; discriminate E|].
    apply accepts_list_length in Hl. subst n. revert E. apply (compact_differs _ _ _ _ _ _ 3 Hc). exact Hn.
  - exfalso. destruct Ha as [[-> ->]|(n & bs' & xs & Hn & -> & Hl & ->)]; [subst b1; discriminate E|].
    apply accepts_list_length in Hl. subst n. revert E. apply (compact_differs _ _ _ _ _ _ 3 Hc). exact Hn.
  - exfalso. destruct Ha as [[-> ->]|(n & bs' & xs & Hn & -> & Hl & ->)]; [subst b1; discriminate E|].
    destruct Hc as (parts & _ & Hc). apply accepts_list_length in Hl. subst n. revert E. apply (compact_differs _ _ _ _ _ _ 3 Hc). exact Hn.
  - exfalso. destruct Hc as (parts & _ & Hc). destruct Ha as [(n & _ & _ & Hx)|(n & bs' & xs & Hn & -> & Hl & Hx)]; [discriminate Hx|].
    injection Hx as <-. apply accepts_list_length in Hl. rewrite seen_items in Hl. subst n. revert E. apply (compact_differs _ _ _ _ _ _ 3 Hc). exact Hn.
Qed.
Lemma same_read fs v : forall x bs r p q, fit fs v x -> compacts fs v x bs -> bs ++ r = p ++ q ->
  acceptss fs v (zeros fs) p (receive fs v (zeros fs) x) -> numbers fs v = true.
Proof.
  induction fs as [|name rg t rest IH]; cbn [fit compacts acceptss receive zeros numbers fst snd]; intros x bs r p q Hf Hc E Ha; [reflexivity|].
  destruct Hf as [Hf Hfr]. destruct Hc as (b1 & b2 & -> & H1 & H2). destruct Ha as (p1 & p2 & -> & A1 & A2).
  rewrite <- !app_assoc in E. destruct (active rg v).
  - destruct (same_field t v (fst x) b1 (b2 ++ r) p1 (p2 ++ q) (Hf eq_refl) H1 E A1) as [Hb E'].
    rewrite Hb. cbn. eapply IH; try eassumption. symmetry. exact E'.
  - destruct A1 as [-> _]. subst b1. cbn [app] in E. cbn. eapply IH; eassumption.
Qed.
Lemma blank_numbers fs v : forall x, blank fs v x -> numbers fs v = true.
Proof.
  induction fs as [|name r t rest IH]; cbn [blank numbers]; intros x H; [reflexivity|]. destruct H as [H1 H2]. rewrite (IH _ H2), andb_true_r.
  destruct (active r v); [|reflexivity]. specialize (H1 eq_refl). destruct t; cbn in *; reflexivity || destruct H1.
Qed.
(** An array that is carried at all versions. *)
Fixpoint has_items (fs : fields) : bool := match fs with FNil => false | FCons _ Always (TArray _) _ => true | FCons _ _ _ rest => has_items rest end.
Lemma has_items_numbers fs v : has_items fs = true -> numbers fs v = false.
Proof.
  induction fs as [|name r t rest IH]; cbn [has_items numbers]; [discriminate|]. destruct r, t; intros H; try (rewrite (IH H)); cbn [active negb orb number andb]; rewrite ?andb_false_r; reflexivity.
Qed.
Lemma ApiVersions_items : forallb (fun m => negb (String.eqb (m_name m) "ApiVersions") || has_items (c_schema (m_resp m))) all_methods = true.
Proof. vm_compute. reflexivity. Qed.

Section Response.
Context (m : method) (Hm : In m all_methods) (a : api) (Hn : m_name m = api_name a).
Lemma response_in : In (m_resp_name m, m_resp m) all_codecs /\ forall av, decode_response m av = c_decode (m_resp m) (av a) (c_zero (m_resp m)).
Proof.
  destruct (method_row m Hm) as [a' Ha]. destruct (row_facts m a' Ha) as (E1 & E2 & E3 & E4 & E5 & E6 & E7 & E8 & E9 & E10).
  assert (a' = a) as -> by (apply api_name_inj; congruence). split; [apply (method_codecs_In m Hm)|].
  intros av. unfold decode_response. rewrite E8. reflexivity.
Qed.

Lemma flexible_misread : forall av resp bs d rest resp' d',
  flexible a (av a) -> fit (c_schema (m_resp m)) (av a) (c_to (m_resp m) resp) -> short (c_schema (m_resp m)) (av a) (c_to (m_resp m) resp) ->
  kafka_response a (av a) (c_schema (m_resp m)) (c_to (m_resp m) resp) bs ->
  dec_ok d -> frame d = bs ++ rest -> Forall is_byte (frame d) -> decode_response m av d = DOk resp' d' ->
  c_to (m_resp m) resp' = receive (c_schema (m_resp m)) (av a) (zeros (c_schema (m_resp m))) (c_to (m_resp m) resp) ->
  a <> ApiVersions /\ blank (c_schema (m_resp m)) (av a) (c_to (m_resp m) resp).
Proof.
  intros av resp bs d rest resp' d' Hf Hfit Hs [K _] Hd Hfr Hb E Hx. destruct response_in as [Hin Hdec]. rewrite Hdec in E.
  pose proof (codec_linked _ _ Hin) as L.
  apply (decode_exact _ _ Hin (av a) _ d Hd Hb) in E. destruct E as (p & q & Hp & Ha & _). rewrite Hx, (l_zero _ L) in Ha. rewrite Hfr in Hp.
  destruct (K Hf) as (body & Hc & ->). assert (D : {a = ApiVersions} + {a <> ApiVersions}) by (destruct a; auto; right; discriminate).
  destruct D as [Ea|Ea].
  - exfalso. rewrite Ea in Hp. pose proof (same_read _ _ _ _ _ _ _ Hfit Hc Hp Ha) as N.
    pose proof ApiVersions_items as I. rewrite forallb_forall in I. specialize (I m Hm). cbn beta in I. rewrite Hn, Ea in I. cbn [api_name String.eqb negb orb] in I.
    rewrite (has_items_numbers _ (av a)) in N by exact I. discriminate N.
  - split; [exact Ea|]. eapply shift_read; [exact Hfit|exact Hs|exact Hc| |exact Ha]. rewrite <- Hp. destruct a; try reflexivity. congruence.
Qed.
Lemma plain_read : forall av resp bs, ~ flexible a (av a) -> fit (c_schema (m_resp m)) (av a) (c_to (m_resp m) resp) ->
  kafka_response a (av a) (c_schema (m_resp m)) (c_to (m_resp m) resp) bs ->
  exists resp', Decodes (decode_response m av) bs resp' /\
  c_to (m_resp m) resp' = receive (c_schema (m_resp m)) (av a) (zeros (c_schema (m_resp m))) (c_to (m_resp m) resp).
Proof.
  intros av resp bs Hf Hfit [_ K]. rewrite (K Hf). destruct response_in as [Hin Hdec]. pose proof (codec_linked _ _ Hin) as L. rewrite Hdec.
  eexists. split; [apply (linked_decodes _ L), Hfit|]. rewrite (l_to_of _ L), (l_zero _ L). reflexivity.
Qed.
End Response.
