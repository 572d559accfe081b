(** * Lemmas about Kafka's message definitions *)
From Coq Require Import String.
From Verif Require Import GoBase Binary Encoder Decoder Spec SchemaSpec GoLemmas EncProofs DecProofs Schema Link
  Msg01 Msg02 Msg03 Msg04 Msg07 Msg09 AllMessages MsgProofs MsgProps BrokerTable Broker BrokerSpec BrokerProofs FlexSpec KafkaSpec.
Local Open Scope list_scope.
Local Open Scope Z_scope.
Ltac Zify.zify_post_hook ::= idtac.

(** ** The tables agree *)
Definition api_row (a : api) : option (string * Z * Z) :=
  match declared a with Some (k, 0, hi) => Some (api_name a, k, hi) | _ => None end.
Lemma api_rows : map Some kafka_apis = map api_row all_apis.
Proof. vm_compute. reflexivity. Qed.
Lemma kafka_keys : map (fun m => (m_name m, m_key m)) all_methods = map fst kafka_apis /\
  forall name key hi, In (name, key, hi) kafka_apis -> exists a, api_name a = name /\ declared a = Some (key, 0, hi).
Proof.
  split; [reflexivity|]. intros name key hi H. apply (in_map Some) in H. rewrite api_rows in H.
  apply in_map_iff in H. destruct H as (a & H & _). exists a. unfold api_row in H.
  destruct (declared a) as [[[k lo] h]|]; [|discriminate H]. destruct lo; try discriminate H.
  injection H as <- <- <-. split; reflexivity.
Qed.
(** ** Null fields *)
Lemma split_field field r t fs : field_of field fs = Some (r, t) -> forall v x, fit fs v x ->
  exists x0 xv rest, fit (before field fs) v x0 /\ (active r v = true -> fits t v xv) /\
    wires fs v x = wires (before field fs) v x0 ++ (if active r v then wire t v xv else []) ++ rest.
Proof.
  induction fs as [|n r' t' fs IH]; cbn [field_of before]; [discriminate|]. destruct (String.eqb n field).
  - intros H v x [H1 _]. injection H as -> ->. exists tt, (fst x), (wires fs v (snd x)).
    split; [exact I|]. split; [exact H1|]. reflexivity.
  - intros H v x [H1 H2]. destruct (IH H v (snd x) H2) as (x0 & xv & rest & F0 & Fv & E).
    exists (fst x, x0), xv, rest. split; [split; assumption|]. split; [exact Fv|].
    cbn [wires fst snd]. rewrite E, <- app_assoc. reflexivity.
Qed.

Definition has_no_null (t : ty) : bool := match t with TString | TBytes | TArray _ => true | _ => false end.
Lemma be_head n z r : 0 <= z < 2 ^ (8 * Z.of_nat (Datatypes.S n) - 1) -> exists b l, be (Datatypes.S n) z ++ r = b :: l /\ 0 <= b < 128.
Proof.
  intros H. cbn [be app]. eexists. eexists. split; [reflexivity|].
  replace (8 * Z.of_nat (Datatypes.S n) - 1) with (7 + 8 * Z.of_nat n) in H by lia. rewrite Z.pow_add_r in H by lia.
  change 256 with (2 ^ 8). rewrite <- Z.pow_mul_r by lia.
  assert (P : 0 < 2 ^ (8 * Z.of_nat n)) by (apply Z.pow_pos_nonneg; lia).
  assert (0 <= z / 2 ^ (8 * Z.of_nat n) < 128).
  { split; [apply Z.div_pos; lia|]. apply Z.div_lt_upper_bound; [exact P|]. change (2 ^ 7) with 128 in H. lia. }
  rewrite Z.mod_small; [exact H0|]. change (2 ^ 8) with 256. lia.
Qed.
Lemma wire_head t v x r : has_no_null t = true -> fits t v x -> exists b l, wire t v x ++ r = b :: l /\ 0 <= b < 128.
Proof.
  destruct t; cbn [has_no_null]; intros H F; try discriminate H; cbn [wire fits] in *.
  - unfold w_string. rewrite <- app_assoc. apply be_head. pose proof (zlen_nonneg x). split; [assumption|exact F].
  - unfold w_bytes. rewrite <- app_assoc. apply be_head. split; [apply zlen_nonneg|exact F].
  - unfold w_array. rewrite <- app_assoc. apply be_head. split; [apply zlen_nonneg|exact (proj1 F)].
Qed.
Lemma null_mark_head t : exists l, null_mark t = 255 :: l.
Proof. destruct t; eexists; reflexivity. Qed.

Lemma never_null fs field v r t x : field_of field fs = Some (r, t) -> active r v = true -> has_no_null t = true ->
  fit fs v x -> ~ null_in fs field v (wires fs v x).
Proof.
  intros Hf Ha Hn F (r' & t' & y & rest & E & Fy & B). rewrite Hf in E. injection E as <- <-.
  destruct (split_field field r t fs Hf v x F) as (x0 & xv & rest' & F0 & Fv & W). rewrite Ha in W. rewrite W in B.
  pose proof (proj2 gdecode_spec (before field fs) v (zeros (before field fs)) x0 F0) as D0.
  pose proof (proj2 gdecode_spec (before field fs) v (zeros (before field fs)) y Fy) as D1.
  destruct (Decodes_prefix _ _ _ _ _ _ _ D0 D1 B) as [Ep _]. rewrite Ep in B. apply app_inv_head in B.
  destruct (wire_head t v xv rest' Hn (Fv Ha)) as (b & l & E & Hb). rewrite E in B.
  destruct (null_mark_head t) as [l' El]. rewrite El in B. cbn [app] in B. injection B as -> _. lia.
Qed.

Definition nullable_ok (e : string * string * Z) : bool :=
  match codec_named (fst (fst e)) all_codecs with
  | Some c => match field_of (snd (fst e)) (c_schema c) with
    | Some (Always, t) => has_no_null t
    | Some (From a, t) => (a <=? snd e) && has_no_null t
    | _ => false end
  | None => false end.
Lemma nullable_all : forallb nullable_ok nullable_fields = true.
Proof. vm_compute. reflexivity. Qed.
Lemma no_null_sent : forall msg field v0, In (msg, field, v0) nullable_fields -> exists c, In (msg, c) all_codecs /\
  forall v m bs, v0 <= v -> fit (c_schema c) v (c_to c m) -> Emits (c_encode c v m) bs -> ~ null_in (c_schema c) field v bs.
Proof.
  intros msg field v0 H. pose proof nullable_all as A. rewrite forallb_forall in A. specialize (A _ H).
  unfold nullable_ok in A. cbn [fst snd] in A. destruct (codec_named msg all_codecs) as [c|] eqn:Ec; [|discriminate A].
  pose proof (codec_named_In _ _ _ Ec) as Hc. exists c. split; [exact Hc|]. intros v m bs Hv Hf He.
  rewrite (Emits_inj _ _ _ He (layout msg c Hc v m)).
  destruct (field_of field (c_schema c)) as [[r t]|] eqn:Er; [|discriminate A].
  destruct r as [|a|]; [| |discriminate A].
  - apply (never_null _ _ _ Always t); auto.
  - apply andb_true_iff in A. destruct A as [A1 A2]. apply (never_null _ _ _ (From a) t); auto.
    cbn [active]. apply Z.leb_le in A1. apply Z.leb_le. lia.
Qed.
Lemma null_possible fs field r t v : field_of field fs = Some (r, t) -> exists bs, null_in fs field v bs.
Proof.
  intros H. exists (wires (before field fs) v (zeros (before field fs)) ++ null_mark t ++ []).
  exists r, t, (zeros (before field fs)), []. split; [exact H|]. split; [|reflexivity].
  apply (proj2 fits_zero).
Qed.
Lemma null_keys : forall v ty name, Emits (DescribeConfigsResource32_Encode v (mkDescribeConfigsResource32 ty name None))
  (be 1 ty ++ w_string name ++ [255; 255; 255; 255]).
Proof.
  intros v ty name. assert (H : In ("DescribeConfigsResource32"%string, DescribeConfigsResource32_codec) all_codecs).
  { apply codec_named_In. reflexivity. }
  exact (layout _ _ H v (mkDescribeConfigsResource32 ty name None)).
Qed.
Lemma null_replicas : forall v i, Emits (ReassignablePartition45_Encode v (mkReassignablePartition45 i None))
  (be 4 i ++ [255; 255; 255; 255]).
Proof.
  intros v i. assert (H : In ("ReassignablePartition45"%string, ReassignablePartition45_codec) all_codecs).
  { apply codec_named_In. reflexivity. }
  exact (layout _ _ H v (mkReassignablePartition45 i None)).
Qed.

(** ** Layouts *)
Lemma laid_array l bs : laid (A l) bs <-> bs = be 4 (-1) \/
  exists parts, zlen parts < 2 ^ 31 /\ bs = be 4 (zlen parts) ++ concat parts /\ Forall (laid_out l) parts.
Proof. reflexivity. Qed.
Lemma laid_parts {X} (w : X -> list Z) l (s : gslice X) : glen s < 2 ^ 31 -> (forall x, In x (items s) -> laid_out l (w x)) ->
  laid (A l) (w_array w s).
Proof.
  intros Hl Hw. apply laid_array. right. exists (map w (items s)). unfold w_array.
  assert (E : zlen (map w (items s)) = glen s) by (unfold glen, zlen; rewrite map_length; reflexivity).
  rewrite E, flat_map_concat_map. split; [exact Hl|]. split; [reflexivity|]. apply Forall_forall.
  intros b Hb. apply in_map_iff in Hb. destruct Hb as (x & <- & Hx). apply Hw, Hx.
Qed.
Lemma laid_nullable {X} (w : X -> list Z) l (s : gslice X) : glen s < 2 ^ 31 -> (forall x, In x (items s) -> laid_out l (w x)) ->
  laid (A l) (w_nullable_array w s).
Proof.
  intros Hl Hw. destruct s as [xs|]; [apply (laid_parts w l (Some xs) Hl Hw)|]. apply laid_array. left. reflexivity.
Qed.
Lemma laid_one i bs : laid i bs -> laid_out [i] bs.
Proof. intros H. exists bs, []. rewrite app_nil_r. split; [reflexivity|]. split; [exact H|reflexivity]. Qed.
Lemma laid_string s : zlen s < 2 ^ 15 -> laid S (w_string s).
Proof. intros H. exists s. split; [exact H|reflexivity]. Qed.

Lemma wire_laid :
  (forall t v x, fits t v x -> laid (item_of t v) (wire t v x)) /\
  (forall fs v x, fit fs v x -> laid_out (items_of fs v) (wires fs v x)).
Proof.
  apply schema_mind; intros; cbn [wire wires fits fit item_of items_of den dens] in *.
  - destruct x; [right|left]; reflexivity.
  - apply (zlen_be 1).
  - apply (zlen_be 2).
  - apply (zlen_be 4).
  - apply (zlen_be 8).
  - apply laid_string. assumption.
  - exists (items x). split; [assumption|reflexivity].
  - apply laid_nullable; [tauto|]. intros y _. apply laid_one. apply (zlen_be 4).
  - apply laid_nullable; [tauto|]. intros y _. apply laid_one. apply (zlen_be 8).
  - apply laid_nullable; [tauto|]. intros y Hy. apply laid_one, laid_string.
    destruct H as [_ H]. rewrite Forall_forall in H. apply (H y Hy).
  - destruct H0 as [H1 H2]. apply laid_parts; [exact H1|]. intros y Hy. apply H. rewrite Forall_forall in H2. apply H2, Hy.
  - reflexivity.
  - destruct H1 as [H1 H2]. destruct (active r v) eqn:Ea.
    + exists (wire t v (fst x)), (wires rest v (snd x)). split; [reflexivity|]. split; [apply H, H1; reflexivity|apply H0, H2].
    + apply H0, H2.
Qed.

Fixpoint same (a b : item) {struct a} : bool :=
  match a, b with
  | B, B | I8, I8 | I16, I16 | I32, I32 | I64, I64 | S, S | D, D => true
  | A l, A m => (fix go l m := match l, m with
      | [], [] => true
      | x :: l', y :: m' => same x y && go l' m'
      | _, _ => false end) l m
  | _, _ => false
  end.
Fixpoint same_eq (a : item) : forall b, same a b = true -> a = b.
Proof.
  destruct a as [| | | | | | |l]; intros [| | | | | | |m] H; try reflexivity; try discriminate H.
  cbn [same] in H. f_equal. revert m H. induction l as [|x l IH]; intros [|y m] H; try reflexivity; try discriminate H.
  apply andb_true_iff in H. destruct H as [H1 H2]. f_equal; [apply same_eq, H1|apply IH, H2].
Qed.
Definition schema_named (n : string) : option fields := option_map c_schema (codec_named n all_codecs).
Definition versions (lo hi : Z) : list Z := map (fun k => lo + Z.of_nat k) (List.seq 0 (Z.to_nat (hi - lo + 1))).
Lemma versions_in lo hi v : lo <= v <= hi -> In v (versions lo hi).
Proof.
  intros H. apply in_map_iff. exists (Z.to_nat (v - lo)). split; [lia|]. apply in_seq. lia.
Qed.
Definition layout_ok (e : string * Z * Z * list item) : bool :=
  match e with (n, lo, hi, l) =>
    (String.eqb n "OffsetCommitRequest" && (lo =? 1)) ||
    match schema_named n with
    | Some fs => forallb (fun v => same (A (items_of fs v)) (A l)) (versions lo hi)
    | None => false
    end end.
Lemma layouts_ok : forallb layout_ok kafka_layouts = true.
Proof. vm_compute. reflexivity. Qed.

Lemma layout_agrees : forall name lo hi l, In (name, lo, hi, l) kafka_layouts -> (name, lo) <> ("OffsetCommitRequest"%string, 1) ->
  exists c, In (name, c) all_codecs /\ forall v, lo <= v <= hi -> items_of (c_schema c) v = l /\
  forall m, fit (c_schema c) v (c_to c m) -> exists bs, Emits (c_encode c v m) bs /\ laid_out l bs.
Proof.
  intros name lo hi l H N. pose proof layouts_ok as F. rewrite forallb_forall in F. specialize (F _ H).
  unfold layout_ok in F. apply orb_true_iff in F. destruct F as [F|F].
  { exfalso. apply N. apply andb_true_iff in F. destruct F as [F1 F2]. apply String.eqb_eq in F1. apply Z.eqb_eq in F2. congruence. }
  unfold schema_named in F. destruct (codec_named name all_codecs) as [c|] eqn:Ec; [|discriminate F].
  cbn [option_map] in F. apply codec_named_In in Ec. exists c. split; [exact Ec|]. intros v Hv.
  rewrite forallb_forall in F. specialize (F v (versions_in lo hi v Hv)). apply same_eq in F. injection F as F.
  split; [exact F|]. intros m Hm. exists (wires (c_schema c) v (c_to c m)). split; [apply (layout name c Ec)|].
  rewrite <- F. apply (proj2 wire_laid), Hm.
Qed.

(** At version 1 Kafka has a timestamp after the offset. *)
Lemma string_front s r s' r' : zlen s < 2 ^ 15 -> zlen s' < 2 ^ 15 -> (w_string s ++ r = w_string s' ++ r')%list -> r = r'.
Proof.
  intros H H' E. destruct (Decodes_prefix _ _ _ _ _ _ _ (Decodes_string s H) (Decodes_string s' H') E) as [Eb _].
  rewrite Eb in E. apply app_inv_head in E. exact E.
Qed.
Lemma fixed_front (a r b r' : list Z) : zlen a = zlen b -> a ++ r = b ++ r' -> a = b /\ r = r'.
Proof.
  intros Hl E. assert (L : List.length a = List.length b) by (unfold zlen in Hl; lia). clear Hl.
  revert b L E. induction a as [|x a IH]; intros [|y b] L E; try discriminate L; [split; [reflexivity|exact E]|].
  cbn [app] in E. injection E as -> E. destruct (IH b) as [-> ->]; [cbn in L; lia|exact E|]. split; reflexivity.
Qed.
Lemma one_part l part bs rest : be 4 1 ++ part ++ rest = bs -> forall b1 b2, bs = b1 ++ b2 -> laid (A l) b1 ->
  exists p, part ++ rest = p ++ b2 /\ laid_out l p.
Proof.
  intros E b1 b2 Eb [Hn|(parts & Hl & Hb & Hp)].
  - exfalso. rewrite Hn in Eb. rewrite <- E in Eb. apply fixed_front in Eb; [|reflexivity]. destruct Eb as [Eb _]. discriminate Eb.
  - rewrite Hb, <- E, <- app_assoc in Eb. apply fixed_front in Eb; [|rewrite !zlen_be; reflexivity]. destruct Eb as [Ec Er].
    assert (P : zlen parts = 1).
    { assert (I1 : is_int32 1) by (unfold is_int32; lia).
      assert (I2 : is_int32 (zlen parts)) by (unfold is_int32; pose proof (zlen_nonneg parts); lia).
      assert (Ec' : be 4 1 ++ [] = be 4 (zlen parts) ++ []) by (rewrite Ec; reflexivity).
      destruct (Decodes_prefix _ _ _ _ _ _ _ (Decodes_int32 1 I1) (Decodes_int32 _ I2) Ec') as [_ Ez]. symmetry. exact Ez. }
    destruct parts as [|p [|q parts]]; unfold zlen in P; cbn in P; try lia.
    cbn [concat] in Er. rewrite app_nil_r in Er. exists p. split; [exact Er|]. inversion Hp. assumption.
Qed.
Definition commit1 group gen member topic i off meta : OffsetCommitRequest :=
  mkOffsetCommitRequest group gen member [] 0
    (Some [mkOffsetCommitRequestTopic8 topic (Some [mkOffsetCommitRequestPartition8 i off 0 meta])]).
Lemma commit1_wrong : forall group gen member topic i off meta bs,
  zlen group < 2 ^ 15 -> zlen member < 2 ^ 15 -> zlen topic < 2 ^ 15 -> zlen meta < 8 ->
  Emits (OffsetCommitRequest_Encode 1 (commit1 group gen member topic i off meta)) bs ->
  ~ laid_out [S; I32; S; A [S; A [I32; I64; I64; S]]] bs.
Proof.
  intros group gen member topic i off meta bs Hg Hm Ht Hme He.
  assert (H : In ("OffsetCommitRequest"%string, OffsetCommitRequest_codec) all_codecs) by (apply codec_named_In; reflexivity).
  assert (W : bs = w_string group ++ be 4 gen ++ w_string member ++ be 4 1 ++ (w_string topic ++ be 4 1 ++ (be 4 i ++ be 8 off ++ w_string meta) ++ []) ++ []).
  { pose proof (layout _ _ H 1 (commit1 group gen member topic i off meta)) as Lw.
    rewrite (Emits_inj (c_encode OffsetCommitRequest_codec 1 (commit1 group gen member topic i off meta)) _ _ He Lw).
    cbn [c_schema c_to OffsetCommitRequest_codec].
    cbv [OffsetCommitRequest_schema OffsetCommitRequestTopic8_schema OffsetCommitRequestPartition8_schema
      OffsetCommitRequest_to OffsetCommitRequestTopic8_to OffsetCommitRequestPartition8_to commit1].
    cbn [wires wire fst snd active Z.leb Z.compare Pos.compare Pos.compare_cont andb option_map map items glen w_array flat_map
      OffsetCommitRequest_GroupId OffsetCommitRequest_GenerationId OffsetCommitRequest_MemberId OffsetCommitRequest_Topics
      OffsetCommitRequestTopic8_Name OffsetCommitRequestTopic8_Partitions OffsetCommitRequestPartition8_PartitionIndex
      OffsetCommitRequestPartition8_CommittedOffset OffsetCommitRequestPartition8_CommittedMetadata].
    unfold w_array, glen. cbn [items flat_map fst snd]. change (@zlen (dens _) _) with 1. rewrite !app_nil_r. reflexivity. }
  clear He. intros (g & r1 & E1 & (s1 & L1 & G1) & n & r2 & E2 & N2 & m & r3 & E3 & (s3 & L3 & M3) & ts & r4 & E4 & T4 & E5).
  subst bs g m. change (be 2 (zlen s1) ++ s1) with (w_string s1) in *. change (be 2 (zlen s3) ++ s3) with (w_string s3) in *.
  apply string_front in E1; [|assumption|assumption]. subst r1.
  apply fixed_front in E2; [|rewrite zlen_be; symmetry; exact N2]. destruct E2 as [_ E2]. subst r2.
  apply string_front in E3; [|assumption|assumption]. subst r3.
  destruct (one_part _ _ _ _ eq_refl _ _ E4 T4) as (p & Ep & Hp). cbn [laid_out] in E5. subst r4. rewrite !app_nil_r in Ep.
  destruct Hp as (t & q & Eq & (st & Lt & Gt) & ps & q2 & Eq2 & Hps & Eq3). cbn [laid_out] in Eq3. subst p t q2.
  change (be 2 (zlen st) ++ st) with (w_string st) in *. rename Eq into Ep. apply string_front in Ep; [|assumption|assumption].
  rewrite app_nil_r in Eq2. subst ps.
  assert (Ep' : be 4 1 ++ (be 4 i ++ be 8 off ++ w_string meta) ++ [] = q) by (rewrite app_nil_r; exact Ep).
  destruct (one_part _ _ _ _ Ep' q [] (eq_sym (app_nil_r q)) Hps) as (z & Ez & Hz). rewrite !app_nil_r in Ez.
  destruct Hz as (z1 & y1 & F1 & Z1 & z2 & y2 & F2 & Z2 & z3 & y3 & F3 & Z3 & z4 & y4 & F4 & (s4 & _ & Z4) & F5).
  cbn [laid_out laid] in *. apply (f_equal zlen) in Ez. subst z y1 y2 y3 z4 y4. unfold w_string in Ez. rewrite !zlen_app, !zlen_be in Ez.
  pose proof (zlen_nonneg s4). change (zlen (@nil Z)) with 0 in Ez. lia.
Qed.

(** ** Nothing but the flexible versions is left out *)
Definition covered (n : string) (v : Z) : bool :=
  existsb (fun e => match e with (n', lo, hi, _) => String.eqb n n' && (lo <=? v) && (v <=? hi) end) kafka_layouts.
Definition last_plain (a : api) (hi : Z) : Z := match first_flexible a with Some f => Z.min hi (f - 1) | None => hi end.
Definition api_covered (a : api) : bool :=
  match declared a with
  | Some (_, lo, hi) => forallb (fun v => covered (api_name a ++ "Request")%string v && covered (api_name a ++ "Response")%string v)
      (versions lo (last_plain a hi))
  | None => false end.
Lemma apis_covered : forall a, api_covered a = true.
Proof. intros a. destruct a; vm_compute; reflexivity. Qed.
Lemma covered_spec n v : covered n v = true -> exists lo hi l, In (n, lo, hi, l) kafka_layouts /\ lo <= v <= hi.
Proof.
  intros H. apply existsb_exists in H. destruct H as ([[[n' lo] hi] l] & Hin & H).
  apply andb_true_iff in H. destruct H as [H H3]. apply andb_true_iff in H. destruct H as [H1 H2].
  apply String.eqb_eq in H1. apply Z.leb_le in H2, H3. subst n'. exists lo, hi, l. split; [exact Hin|lia].
Qed.
Lemma layouts_cover : forall a key lo hi v, declared a = Some (key, lo, hi) -> lo <= v <= hi -> ~ flexible a v ->
  forall suffix, suffix = "Request"%string \/ suffix = "Response"%string ->
  exists lo' hi' l, In ((api_name a ++ suffix)%string, lo', hi', l) kafka_layouts /\ lo' <= v <= hi'.
Proof.
  intros a key lo hi v Hd Hv Hf suffix Hs. pose proof (apis_covered a) as C. unfold api_covered in C. rewrite Hd in C.
  rewrite forallb_forall in C. assert (P : lo <= v <= last_plain a hi).
  { unfold last_plain, flexible in *. destruct (first_flexible a) as [f|]; [|lia]. 
    destruct (Z.le_gt_cases f v) as [L|L]; [exfalso; apply Hf; exists f; split; [reflexivity|exact L]|lia]. }
  specialize (C v (versions_in _ _ _ P)). apply andb_true_iff in C. destruct C as [C1 C2]. apply covered_spec.
  destruct Hs as [-> | ->]; assumption.
Qed.
