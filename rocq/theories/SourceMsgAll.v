(** * The text of message/messages.gen.go does what the model does *)
From Coq Require Import Ascii String.
From Verif Require Import GoBase GoLemmas Binary Utf8 Sizeof Decoder Encoder Spec EncProofs SchemaSpec Schema Link AllMessages MsgProofs Memory MemoryProofs Platform PlatformSpec PlatformProofs Calls Scratch GoLang Source SourceSpec SourceBase SourceDecoder SourceLoops SourceEncoder SourceSizeof SourceWire SourceMessages SourceLayout SourceTable SourceMsgSpec SourceMsg.
From Coq Require Import Lia ZArith.
Local Open Scope list_scope.
Local Open Scope string_scope.
Local Open Scope Z_scope.

Local Notation eventually := SourceSpec.eventually.
(** ** Every layout in the table has its methods in the text *)
Definition prim_eqb (a b : prim) : bool :=
  match a, b with
  | PBool, PBool | PInt8, PInt8 | PInt16, PInt16 | PInt32, PInt32 | PInt64, PInt64 | PString, PString | PBytes, PBytes | PInt32s, PInt32s | PInt64s, PInt64s | PStrings, PStrings => true
  | _, _ => false
  end.
Definition range_eqb (a b : range) : bool :=
  match a, b with Always, Always => true | From x, From y => x =? y | Between x y, Between z w => (x =? z) && (y =? w) | _, _ => false end.
Fixpoint nty_eqb (a b : nty) : bool :=
  match a, b with NPrim p, NPrim q => prim_eqb p q | NArray x fs, NArray y gs => String.eqb x y && nfields_eqb fs gs | _, _ => false end
with nfields_eqb (a b : nfields) : bool :=
  match a, b with NNil, NNil => true | NCons f r t x, NCons g q u y => String.eqb f g && range_eqb r q && nty_eqb t u && nfields_eqb x y | _, _ => false end.
Lemma range_eqb_eq a b : range_eqb a b = true -> a = b.
Proof.
  destruct a as [|x|x y], b as [|z|z w]; cbn [range_eqb]; intros H; try discriminate H; [reflexivity|apply Z.eqb_eq in H; congruence|].
  apply andb_true_iff in H as [H1 H2]. apply Z.eqb_eq in H1. apply Z.eqb_eq in H2. congruence.
Qed.
Lemma layout_eqb : (forall a b, nty_eqb a b = true -> a = b) /\ (forall a b, nfields_eqb a b = true -> a = b).
Proof.
  apply layout_mind.
  - intros p b H. destruct b as [q|]; [|discriminate H]. destruct p, q; first [discriminate H|reflexivity].
  - intros name fs IH b H. destruct b as [|x gs]; [discriminate H|]. cbn [nty_eqb] in H. apply andb_true_iff in H as [H1 H2]. apply String.eqb_eq in H1. apply IH in H2. congruence.
  - intros b H. destruct b; [reflexivity|discriminate H].
  - intros f r t IHt rest IHr b H. destruct b as [|g q u y]; [discriminate H|]. cbn [nfields_eqb] in H. apply andb_true_iff in H as [H H4]. apply andb_true_iff in H as [H H3]. apply andb_true_iff in H as [H1 H2].
    apply String.eqb_eq in H1. apply range_eqb_eq in H2. apply IHt in H3. apply IHr in H4. congruence.
Qed.
Definition range_okb (r : range) : bool := match r with Always => true | From a => int16 a =? a | Between a b => (int16 a =? a) && (int16 b =? b) end.
Definition inb (f : string) (l : list string) : bool := existsb (String.eqb f) l.
Fixpoint known_t (t : nty) : bool :=
  match t with NPrim _ => true | NArray name fs => match lookup name layouts with Some gs => nfields_eqb gs fs && known fs | None => false end end
with known (fs : nfields) : bool :=
  match fs with NNil => true | NCons f r t rest => range_okb r && negb (inb f (names rest)) && known_t t && known rest end.
Fixpoint nodupb (l : list string) : bool := match l with [] => true | x :: l => negb (inb x l) && nodupb l end.
Lemma inb_in f l : inb f l = false -> ~ In f l.
Proof.
  intros H Hin. unfold inb in H. assert (X : existsb (String.eqb f) l = true) by (apply existsb_exists; exists f; split; [exact Hin|apply String.eqb_refl]). rewrite X in H. discriminate H.
Qed.
Lemma nodupb_nodup l : nodupb l = true -> NoDup l.
Proof.
  induction l as [|x l IH]; cbn [nodupb]; intros H; constructor; apply andb_true_iff in H as [H1 H2]; [|apply IH, H2]. apply inb_in. destruct (inb x l); [discriminate H1|reflexivity].
Qed.
Lemma lookup_not {A} : forall (m : list (string * A)) f, ~ In f (map fst m) -> lookup f m = None.
Proof.
  induction m as [|[g w] m IH]; intros f H; [reflexivity|]. cbn [lookup]. destruct (String.eqb_spec f g) as [->|N]; [exfalso; apply H; left; reflexivity|apply IH; intros X; apply H; right; exact X].
Qed.
Lemma lookup_gives {A} : forall (m : list (string * A)) f v, lookup f m = Some v -> In (f, v) m.
Proof.
  induction m as [|[g w] m IH]; intros f v H; cbn [lookup] in H; [discriminate H|]. destruct (String.eqb_spec f g) as [->|N]; [injection H as ->; left; reflexivity|right; apply IH, H].
Qed.
Definition lib_names : list string :=
  ["binary.BigEndian.Uint16"; "binary.BigEndian.Uint32"; "binary.BigEndian.Uint64"; "binary.BigEndian.PutUint16"; "binary.BigEndian.PutUint32"; "binary.BigEndian.PutUint64"; "binary.Varint"; "binary.PutVarint"; "utf8.DecodeRune"; "utf8.EncodeRune"; "io.WriteString"; "errors.Is"].
Lemma lib_table_names L sc : map fst (lib_table L sc) = lib_names.
Proof. reflexivity. Qed.
Definition methods := [".Size"; ".Encode"; ".Decode"].
Lemma layouts_nodup : nodupb (map fst layouts) = true.
Proof. vm_compute. reflexivity. Qed.
Lemma texts_nodup : nodupb (flat_map (fun p => map (fun m => fst p ++ m) methods) layouts) = true.
Proof. vm_compute. reflexivity. Qed.
Lemma texts_own : forallb (fun p => forallb (fun m => negb (inb (fst p ++ m) lib_names)) methods) layouts = true.
Proof. vm_compute. reflexivity. Qed.
Lemma layouts_known : forallb (fun p => known (snd p)) layouts = true.
Proof. vm_compute. reflexivity. Qed.

Lemma layout_in name fs : In (name, fs) layouts -> lookup name layouts = Some fs.
Proof. apply lookup_in, nodupb_nodup, layouts_nodup. Qed.
Lemma text_in name fs m fn : In (name, fs) layouts -> In (name ++ m, fn) (texts (name, fs)) -> lookup (name ++ m) (k_funcs messages) = Some fn.
Proof.
  intros H Hm. apply lookup_in.
  - rewrite funcs_text. replace (map fst (flat_map texts layouts)) with (flat_map (fun p => map (fun m => fst p ++ m) methods) layouts); [apply nodupb_nodup, texts_nodup|].
    generalize layouts. intros l. induction l as [|[n gs] l IH]; [reflexivity|]. cbn [flat_map]. rewrite map_app, <- IH. reflexivity.
  - rewrite funcs_text. apply in_flat_map. exists (name, fs). split; assumption.
Qed.
Lemma type_in name fs : In (name, fs) layouts -> lookup name (k_types messages) = Some (struct_type fs).
Proof.
  intros H. apply lookup_in; rewrite types_text; [|apply in_map_iff; exists (name, fs); split; [reflexivity|exact H]].
  rewrite map_map. replace (map (fun x : string * nfields => fst (fst x, struct_type (snd x))) layouts) with (map fst layouts) by (apply map_ext; reflexivity). apply nodupb_nodup, layouts_nodup.
Qed.

Section All.
Context (P : platform) (GP : go_platform P) (scribble : list (list Z) -> list Z -> list Z) (prog : package) (X1 : extends prog source) (X2 : extends prog messages).
Context (Hs : forall log buf, length buf = 16%nat -> length (scribble log buf) = 16%nat).
Context (Builtin : lookup "error" (k_types prog) = None).
Notation W := (p_int P).
Notation L := (p_late P).
Notation R := (room_of P message_structs).
Notation go := (call W L R scribble prog).

Lemma layout_entry name fs : In (name, fs) layouts -> entry prog message_structs name fs.
Proof.
  intros H. destruct X2 as (Xf & _ & Xt). split; [|split; [|split; [|split; [|split]]]].
  - apply Xf, (text_in name fs); [exact H|left; reflexivity].
  - apply Xf, (text_in name fs); [exact H|right; left; reflexivity].
  - apply Xf, (text_in name fs); [exact H|right; right; left; reflexivity].
  - intros L' sc m Hm. apply lookup_not. rewrite lib_table_names. pose proof texts_own as T. rewrite forallb_forall in T. specialize (T _ H). cbn [fst] in T. rewrite forallb_forall in T. specialize (T m Hm).
    apply inb_in. destruct (inb (name ++ m) lib_names); [discriminate T|reflexivity].
  - apply Xt, type_in, H.
  - unfold message_structs. rewrite (layout_in _ _ H). reflexivity.
Qed.
Lemma known_knows : (forall t, known_t t = true -> knows_t prog message_structs t) /\ (forall fs, known fs = true -> knows prog message_structs fs).
Proof.
  apply layout_mind.
  - intros p _. exact I.
  - intros name fs IH H. cbn [known_t] in H. destruct (lookup name layouts) as [gs|] eqn:E; [|discriminate H]. apply andb_true_iff in H as [H1 H2]. apply layout_eqb in H1. subst gs.
    split; [apply layout_entry, lookup_gives, E|apply IH, H2].
  - intros _. exact I.
  - intros f r t IHt rest IHr H. cbn [known] in H. apply andb_true_iff in H as [H H4]. apply andb_true_iff in H as [H H3]. apply andb_true_iff in H as [H1 H2].
    split; [|split; [|split; [apply IHt, H3|apply IHr, H4]]].
    + destruct r as [|a|a b]; cbn [range_okb range_ok] in *; [exact I|apply Z.eqb_eq, H1|]. apply andb_true_iff in H1 as [A B]. split; apply Z.eqb_eq; assumption.
    + apply inb_in. destruct (inb f (names rest)); [discriminate H2|reflexivity].
Qed.
Lemma layout_knows name fs : In (name, fs) layouts -> knows prog message_structs fs.
Proof. intros H. apply known_knows. pose proof layouts_known as T. rewrite forallb_forall in T. exact (T _ H). Qed.

Lemma layout_size name fs : In (name, fs) layouts -> forall v x, sizeds (2 ^ (W - 1)) (erase fs) x ->
  eventually (fun n => forall s, go n (name ++ ".Size") [VStruct name (nvals fs x); VInt I16 v] s = Ok (VInt I32 (gsizes (erase fs) v x 0)) s).
Proof. intros H v x Hx. exact (size_call P message_structs scribble prog fs (proj2 (size_all P GP message_structs scribble prog X1) fs) (layout_knows _ _ H) name (layout_entry _ _ H) v x Hx). Qed.
Lemma layout_encode name fs : In (name, fs) layouts -> forall v x, sizeds (2 ^ (W - 1)) (erase fs) x ->
  eventually (fun n => forall l b, effect l b (gencodes (erase fs) v x) (go n (name ++ ".Encode") [VStruct name (nvals fs x); VRef l; VInt I16 v])).
Proof. intros H v x Hx. exact (encode_call P message_structs scribble prog fs (proj2 (encode_all P GP message_structs scribble prog X1 Hs) fs) (layout_knows _ _ H) name (layout_entry _ _ H) v x Hx). Qed.
Lemma layout_decode name fs : In (name, fs) layouts -> forall v old d,
  eventually (fun n => forall s t l, t <> l -> nth_error (heap s) l = Some (decoder_cell d) -> nth_error (heap s) t = Some (CStruct name (nvals fs old)) ->
    decoded (nvals fs) name t l s (pdecodes P (erase fs) v old d) (go n (name ++ ".Decode") [VRef t; VRef l; VInt I16 v] s)).
Proof. intros H v old d. exact (decode_call P message_structs scribble prog Builtin fs (proj2 (decode_all P GP message_structs scribble prog X1 Builtin) fs) (layout_knows _ _ H) name (layout_entry _ _ H) v old d). Qed.

(** ** Round trip *)
Lemma layout_reads f v old d : makes_all P -> exists_on P d -> pdecodes P f v old d = gdecodes f v old d.
Proof.
  intros MA Hd. rewrite <- (proj2 mdecode_snd). apply (proj2 (agree_decode P GP) f v old d Hd). intros t n Hn H0. apply MA.
  pose proof (proj2 log_small f v old d) as F. rewrite Forall_forall in F. specialize (F _ Hn). cbn beta in F. lia.
Qed.
Lemma new_frame buf : dec_ok (NewDecoder buf (zlen buf)) /\ frame (NewDecoder buf (zlen buf)) = buf.
Proof.
  split; [unfold dec_ok; cbn; unfold zlen; lia|]. unfold frame. cbn [NewDecoder d_raw d_offset d_length]. rewrite Z.sub_0_r. change (Z.to_nat 0) with O. rewrite skipn_O. unfold zlen. rewrite Nat2Z.id. apply firstn_all.
Qed.
Lemma layout_round_trip name fs : In (name, fs) layouts -> makes_all P -> forall v x old, fit (erase fs) v x -> sizeds (2 ^ (W - 1)) (erase fs) x ->
  message_survives W go name v (nvals fs x) (nvals fs old) (nvals fs (receive (erase fs) v old x)) (wires (erase fs) v x).
Proof.
  intros H MA v x old Hf Hx s Hl Hw. destruct (layout_size name fs H v x Hx) as [N1 H1]. destruct (layout_encode name fs H v x Hx) as [N2 H2].
  exists (S (Nat.max N1 N2)). intros n Hn. set (bs := wires (erase fs) v x).
  destruct (NewEncoder_source L R scribble prog W (n - 1) s) as (s1 & C1 & E1 & _); [destruct X1 as (Xf & _ & _); apply Xf; reflexivity|destruct X1 as (_ & _ & Xt); apply Xt; reflexivity|].
  replace (S (n - 1)) with n in C1 by lia. destruct (H2 n ltac:(lia) _ _ s1 _ E1) as (s2 & C2 & (_ & _ & W2) & _).
  exists (S (length (heap s))), s1, s2. split; [exact C1|]. split; [exact C2|].
  assert (Out : concat (t_log (world s2)) = bs).
  { rewrite W2. assert (Rel : reliable (NewEncoder (world s))) by (split; [reflexivity|exact Hw]).
    assert (Em : Emits (gencodes (erase fs) v x) bs) by (unfold bs; rewrite <- (proj2 gchunks_wire); apply Runs_Emits, gencode_runs).
    destruct (Em _ Rel) as [_ O]. unfold output in O. rewrite O. cbn [NewEncoder e_target]. rewrite Hl. reflexivity. }
  split; [exact Out|]. split.
  { rewrite (H1 n ltac:(lia)). change 0 with (int32 0) at 1. rewrite (proj2 gsize_spec). reflexivity. }
  assert (New : forall k buf, (1 <= k)%nat -> let d := NewDecoder buf (zlen buf) in let s3 := mkState (heap s2 ++ [decoder_cell d])%list (world s2) in let s4 := mkState (heap s3 ++ [CStruct name (nvals fs old)])%list (world s3) in
    go k "message.NewDecoder" [VInts U8 buf; VInt INT (zlen buf)] s2 = Ok (VRef (length (heap s2))) s3 /\ length (heap s3) <> length (heap s2) /\
    nth_error (heap s4) (length (heap s2)) = Some (decoder_cell d) /\ nth_error (heap s4) (length (heap s3)) = Some (CStruct name (nvals fs old))).
  { intros k buf Hk d s3 s4. destruct k as [|k]; [lia|]. rewrite (NewDecoder_source P message_structs scribble prog X1). split; [reflexivity|].
    assert (L3 : length (heap s3) = S (length (heap s2))) by (unfold s3; cbn [heap]; rewrite app_length; cbn [length]; lia). split; [lia|]. unfold s4. cbn [heap]. split.
    - rewrite nth_error_app1 by lia. unfold s3. cbn [heap]. rewrite nth_error_app2, Nat.sub_diag by lia. reflexivity.
    - rewrite nth_error_app2, Nat.sub_diag by lia. reflexivity. }
  split.
  - intros rest. cbv zeta. intros Hz. destruct (new_frame (bs ++ rest)%list) as [Ok1 Fr].
    destruct (layout_decode name fs H v old (NewDecoder (bs ++ rest)%list (zlen (bs ++ rest)%list))) as [N3 H3]. exists (S N3). intros k Hk.
    destruct (New k (bs ++ rest)%list ltac:(lia)) as (C3 & Ne & A3 & A4). specialize (H3 k ltac:(lia) _ _ _ Ne A3 A4).
    rewrite (layout_reads _ _ _ _ MA (conj Ok1 Hz)) in H3. rewrite (proj2 gdecode_spec (erase fs) v old x Hf _ rest Ok1 Fr) in H3.
    unfold decoded in H3. destruct H3 as (s5 & C5 & D5 & T5 & _). eexists _, _, s5. split; [exact C3|]. cbv zeta. split; [exact C5|]. split; [exact T5|exact D5].
  - intros part missing Eb Em Hz. destruct (new_frame part) as [Ok1 Fr].
    assert (Lb : (length part < length bs)%nat) by (rewrite Eb, app_length; destruct missing; [contradiction|cbn [length]; lia]).
    destruct (layout_decode name fs H v old (NewDecoder part (zlen part))) as [N3 H3]. exists (S N3). intros k Hk.
    destruct (New k part ltac:(lia)) as (C3 & Ne & A3 & A4). specialize (H3 k ltac:(lia) _ _ _ Ne A3 A4).
    assert (Hz' : zlen part < 2 ^ (W - 1)) by (unfold zlen in *; lia). rewrite (layout_reads _ _ _ _ MA (conj Ok1 Hz')) in H3.
    destruct (proj2 gdecode_starves (erase fs) v old x Hf (NewDecoder part (zlen part)) (length part) Ok1 Lb) as (d' & Ed).
    { rewrite Fr. fold bs. rewrite Eb, firstn_app, firstn_all, Nat.sub_diag, app_nil_r. reflexivity. }
    rewrite Ed in H3. unfold decoded in H3. destruct H3 as (s5 & fs5 & C5 & _). eexists _, _, s5. split; [exact C3|exact C5].
Qed.

(** ** The methods of the model *)
Context (name : string) (c : codec) (Hc : In (name, c) all_codecs) (fs : nfields) (Hl : In (name, fs) layouts) (same : c_schema c = erase fs).
Lemma model_size v m : slices_ok W c m -> eventually (fun n => forall s, go n (name ++ ".Size") [VStruct name (go_fields c fs same m); VInt I16 v] s = Ok (VInt I32 (c_size c v m)) s).
Proof.
  pose proof (codec_linked _ _ Hc) as Lk. rewrite (l_size _ Lk). unfold slices_ok, go_fields. destruct c as [T z sz en de sch to of]. cbn [c_schema c_to c_type] in *. subst sch. cbn [eq_rect].
  apply layout_size, Hl.
Qed.
Lemma model_encode v m : slices_ok W c m -> eventually (fun n => forall l b, effect l b (c_encode c v m) (go n (name ++ ".Encode") [VStruct name (go_fields c fs same m); VRef l; VInt I16 v])).
Proof.
  intros Hm. assert (E : eventually (fun n => forall l b, effect l b (gencodes (c_schema c) v (c_to c m)) (go n (name ++ ".Encode") [VStruct name (go_fields c fs same m); VRef l; VInt I16 v]))).
  { unfold slices_ok, go_fields in *. destruct c as [T z sz en de sch to of]. cbn [c_schema c_to c_type] in *. subst sch. cbn [eq_rect]. apply layout_encode; [exact Hl|exact Hm]. }
  destruct E as [N HN]. exists N. intros n Hn l b s e He. rewrite (l_encode _ (codec_linked _ _ Hc)). exact (HN n Hn l b s e He).
Qed.
Lemma model_decode v old d : eventually (fun n => forall s t l, t <> l -> nth_error (heap s) l = Some (decoder_cell d) -> nth_error (heap s) t = Some (CStruct name (go_fields c fs same old)) ->
  decoded (go_fields c fs same) name t l s (p_decode P c v old d) (go n (name ++ ".Decode") [VRef t; VRef l; VInt I16 v] s)).
Proof.
  assert (E : eventually (fun n => forall s t l, t <> l -> nth_error (heap s) l = Some (decoder_cell d) -> nth_error (heap s) t = Some (CStruct name (go_fields c fs same old)) ->
    decoded (fun x => nvals fs (eq_rect _ dens x _ same)) name t l s (pdecodes P (c_schema c) v (c_to c old) d) (go n (name ++ ".Decode") [VRef t; VRef l; VInt I16 v] s))).
  { unfold go_fields in *. destruct c as [T z sz en de sch to of]. cbn [c_schema c_to c_type] in *. subst sch. cbn [eq_rect]. apply layout_decode, Hl. }
  destruct E as [N HN]. exists N. intros n Hn s t l Ne H1 H2. specialize (HN n Hn s t l Ne H1 H2). unfold p_decode, dmap, decoded in *. destruct (pdecodes P (c_schema c) v (c_to c old) d) as [x d'|e d'|]; [|exact HN|exact HN].
  unfold go_fields. rewrite (l_to_of _ (codec_linked _ _ Hc)). exact HN.
Qed.
End All.
Lemma layout_of name c : In (name, c) all_codecs -> exists fs, In (name, fs) layouts /\ c_schema c = erase fs.
Proof.
  intros H. assert (E : In (name, c_schema c) (map (fun p => (fst p, erase (snd p))) layouts)) by (rewrite <- schemas; apply in_map_iff; exists (name, c); split; [reflexivity|exact H]).
  apply in_map_iff in E as ([n fs] & E & Hin). cbn [fst snd] in E. injection E as -> E2. exists fs. split; [exact Hin|symmetry; exact E2].
Qed.

(** ** The whole program *)
Definition program : package := mkPackage (k_types source ++ k_types messages) (k_globals source ++ k_globals messages) (k_funcs source ++ k_funcs messages).
Lemma lookup_app {A} (a b : list (string * A)) f : lookup f (a ++ b)%list = match lookup f a with Some v => Some v | None => lookup f b end.
Proof. induction a as [|[g w] a IH]; [reflexivity|]. cbn [app lookup]. destruct (String.eqb f g); [reflexivity|exact IH]. Qed.
Lemma apart {A} (a b : list (string * A)) : forallb (fun p => negb (inb (fst p) (map fst a))) b = true -> forall f v, lookup f b = Some v -> lookup f (a ++ b)%list = Some v.
Proof.
  intros H f v E. rewrite lookup_app, lookup_not; [exact E|]. rewrite forallb_forall in H. specialize (H _ (lookup_gives _ _ _ E)). apply inb_in. cbn [fst] in H. destruct (inb f (map fst a)); [discriminate H|reflexivity].
Qed.
Lemma program_whole : extends program source /\ extends program messages /\ lookup "error" (k_types program) = None.
Proof.
  split; [|split; [|vm_compute; reflexivity]].
  - split; [|split]; intros f v E; unfold program; cbn [k_types k_funcs k_globals]; rewrite lookup_app, E; reflexivity.
  - split; [|split]; unfold program; cbn [k_types k_funcs k_globals]; apply apart; vm_compute; reflexivity.
Qed.
