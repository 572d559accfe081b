(** * Byte fields share memory with the receive buffer

    message/decoder.go:99 returns the slice [d.raw[a:b:b]] itself, not a copy
    (String, line 227, copies).  Here a byte slice is what it is in memory: nil, or
    a window on the decoder's buffer.  [vdecode] are the decoders of Schema.v with
    such slices; [vdecodes_resolves] shows that, seen through the buffer at the
    time of decoding, they give the values of the translated methods. *)
From Coq Require Import String.
From Verif Require Import GoBase Encoder Decoder Spec SchemaSpec GoLemmas EncProofs DecProofs Schema Link AllMessages MsgProofs.
Local Open Scope Z_scope.
Local Open Scope list_scope.
Ltac Zify.zify_post_hook ::= idtac.

(** [Window o n]: the n bytes from position o. *)
Inductive slicev := Nil | Window (o n : Z).
Definition window (buf : list Z) (o n : Z) : list Z := firstn (Z.to_nat n) (skipn (Z.to_nat o) buf).
Definition deref (buf : list Z) (s : slicev) : gslice Z :=
  match s with Nil => None | Window o n => Some (window buf o n) end.

(** message/decoder.go:86-102 *)
Definition vBytes : Dec slicev :=
  n <- dInt32 ;;
  (fun d =>
     if remains n d then
       match slice (d_raw d) (d_offset d) (d_offset d + n) with
       | Some _ => DOk (Window (d_offset d) n) (advance n d)
       | None => DPanic
       end
     else DErr ErrShortBuffer d).

(** Values with such slices. *)
Fixpoint vden (t : ty) : Type :=
  match t with
  | TBytes => slicev
  | TArray fs => gslice (vdens fs)
  | TBool => bool
  | TInt8 | TInt16 | TInt32 | TInt64 => Z
  | TString => gostring
  | TInt32Array | TInt64Array => gslice Z
  | TStringArray => gslice gostring
  end
with vdens (fs : fields) : Type :=
  match fs with
  | FNil => unit
  | FCons _ _ t rest => (vden t * vdens rest)%type
  end.
Definition vzero (t : ty) : vden t :=
  match t return vden t with
  | TBool => false
  | TInt8 | TInt16 | TInt32 | TInt64 => 0
  | TString => []
  | TBytes => Nil
  | TInt32Array | TInt64Array => None
  | TStringArray => None
  | TArray _ => None
  end.
Fixpoint vzeros (fs : fields) : vdens fs :=
  match fs return vdens fs with
  | FNil => tt
  | FCons _ _ t rest => (vzero t, vzeros rest)
  end.

Fixpoint vdecode (t : ty) (v : Z) : vden t -> Dec (vden t) :=
  match t return vden t -> Dec (vden t) with
  | TBool => fun _ => dBool
  | TInt8 => fun _ => dInt8
  | TInt16 => fun _ => dInt16
  | TInt32 => fun _ => dInt32
  | TInt64 => fun _ => dInt64
  | TString => fun _ => dString
  | TBytes => fun _ => vBytes
  | TInt32Array => fun _ => dInt32Array
  | TInt64Array => fun _ => dInt64Array
  | TStringArray => fun _ => dStringArray
  | TArray fs => fun old => dec_array (vdecodes fs v (vzeros fs)) old
  end
with vdecodes (fs : fields) (v : Z) : vdens fs -> Dec (vdens fs) :=
  match fs return vdens fs -> Dec (vdens fs) with
  | FNil => fun _ => ret tt
  | FCons _ r t rest => fun old =>
      x <- dec_if (active r v) (vdecode t v (fst old)) (fst old) ;;
      xs <- vdecodes rest v (snd old) ;;
      ret (x, xs)
  end.

(** What the holder of the value sees when the buffer holds [buf]. *)
Fixpoint resolve (t : ty) (buf : list Z) : vden t -> den t :=
  match t return vden t -> den t with
  | TBytes => deref buf
  | TArray fs => option_map (map (resolves fs buf))
  | TBool => fun x => x
  | TInt8 | TInt16 | TInt32 | TInt64 => fun x => x
  | TString => fun x => x
  | TInt32Array | TInt64Array => fun x => x
  | TStringArray => fun x => x
  end
with resolves (fs : fields) (buf : list Z) : vdens fs -> dens fs :=
  match fs return vdens fs -> dens fs with
  | FNil => fun _ => tt
  | FCons _ _ t rest => fun x => (resolve t buf (fst x), resolves rest buf (snd x))
  end.

(** The windows in a value. *)
Definition window_of (s : slicev) : list (Z * Z) := match s with Nil => [] | Window o n => [(o, n)] end.
Fixpoint windows (t : ty) : vden t -> list (Z * Z) :=
  match t return vden t -> list (Z * Z) with
  | TBytes => window_of
  | TArray fs => fun s => match s with None => [] | Some l => flat_map (windowss fs) l end
  | _ => fun _ => []
  end
with windowss (fs : fields) : vdens fs -> list (Z * Z) :=
  match fs return vdens fs -> list (Z * Z) with
  | FNil => fun _ => []
  | FCons _ _ t rest => fun x => windows t (fst x) ++ windowss rest (snd x)
  end.

(** The schema carries byte fields at version [v]. *)
Fixpoint has_bytes (t : ty) (v : Z) : bool :=
  match t with
  | TBytes => true
  | TArray fs => have_bytes fs v
  | _ => false
  end
with have_bytes (fs : fields) (v : Z) : bool :=
  match fs with
  | FNil => false
  | FCons _ r t rest => (active r v && has_bytes t v) || have_bytes rest v
  end.

(** ** The decoders agree *)
(** On decoders over [buf]: [m'] does as [m], seen through [f]; windows of the result
    are in [old] or in the bytes just read. *)
Definition Agree {A B} (buf : list Z) (f : A -> B) (ws : A -> list (Z * Z)) (old : list (Z * Z)) (m : Dec A) (m' : Dec B) : Prop :=
  forall d, dec_ok d -> d_raw d = buf ->
    match m d with
    | DOk a d' => m' d = DOk (f a) d' /\ (exists n, 0 <= n <= zlen (frame d) /\ d' = advance n d) /\
                  forall o n, In (o, n) (ws a) -> In (o, n) old \/ d_offset d <= o /\ 0 <= n /\ o + n <= d_offset d'
    | DErr x d' => m' d = DErr x d'
    | DPanic => m' d = DPanic
    end.

Lemma Agree_same {A} buf (m : Dec A) old : Bounded m -> Agree buf (fun x => x) (fun _ => []) old m m.
Proof.
  intros H d Hd _. specialize (H d Hd). destruct (m d) as [a d'|x d'|]; try reflexivity. split; [reflexivity|]. split; [exact H|]. intros o n [].
Qed.
Lemma Agree_ret {A B} buf (f : A -> B) ws old a b : f a = b -> (forall w, In w (ws a) -> In w old) -> Agree buf f ws old (ret a) (ret b).
Proof.
  intros H1 H2 d Hd _. cbn. rewrite H1. split; [reflexivity|]. split; [exists 0; rewrite advance_0; pose proof (zlen_nonneg (frame d)); split; [lia|reflexivity]|].
  intros o n Hin. left. apply H2, Hin.
Qed.
Lemma Agree_bind {A A' B B'} buf (f : A -> A') ws (g : B -> B') ws' old (m : Dec A) m' (k : A -> Dec B) (k' : A' -> Dec B') :
  Agree buf f ws old m m' -> (forall a, Agree buf g ws' (ws a ++ old) (k a) (k' (f a))) ->
  Agree buf g ws' old (bind m k) (bind m' k').
Proof.
  intros Hm Hk d Hd Hb. unfold bind. pose proof (Hm d Hd Hb) as H. destruct (m d) as [a d1|x d1|] eqn:E; [|rewrite H; reflexivity|rewrite H; reflexivity].
  destruct H as (H1 & (n & Hn & ->) & H3). rewrite H1.
  pose proof (Hk a (advance n d) (dec_ok_advance _ _ Hd Hn) Hb) as H. destruct (k a (advance n d)) as [b d2|x d2|]; try exact H.
  destruct H as (Q1 & (n2 & Hn2 & ->) & Q3). split; [exact Q1|]. rewrite frame_length in Hn2 by (apply dec_ok_advance; assumption). rewrite frame_length in * by assumption. cbn [advance d_length d_offset] in *.
  split; [exists (n + n2); rewrite advance_advance; split; [lia|f_equal; lia]|].
  intros o m0 Hin. destruct (Q3 _ _ Hin) as [F|F]; [|right; lia]. apply in_app_or in F. destruct F as [F|F]; [|left; exact F].
  destruct (H3 _ _ F) as [G|G]; [left; exact G|right; lia].
Qed.
Lemma Agree_weaken {A B} buf (f : A -> B) ws old old' m m' : (forall w, In w old -> In w old') -> Agree buf f ws old m m' -> Agree buf f ws old' m m'.
Proof.
  intros H Ha d Hd Hb. specialize (Ha d Hd Hb). destruct (m d); try exact Ha. destruct Ha as (H1 & H2 & H3). split; [exact H1|]. split; [exact H2|].
  intros o n Hin. destruct (H3 _ _ Hin); auto.
Qed.
Lemma Agree_bytes buf old : Agree buf (deref buf) window_of old vBytes dBytes.
Proof.
  intros d Hd <-. unfold vBytes, dBytes, bind. pose proof (Bounded_int32 d Hd) as H. destruct (dInt32 d) as [n d1|x d1|]; try reflexivity.
  destruct H as (k & Hk & ->). unfold take_slice. destruct (remains n (advance k d)) eqn:Er; [|reflexivity].
  destruct (slice (d_raw (advance k d)) (d_offset (advance k d)) (d_offset (advance k d) + n)) as [v|] eqn:Es; [|reflexivity].
  unfold slice in Es. destruct (_ && _ && _) eqn:Ec; [|discriminate]. injection Es as <-. apply andb_true_iff in Ec. destruct Ec as [Ec1 Ec2]. apply andb_true_iff in Ec1. destruct Ec1 as [Ec0 Ec1].
  apply Z.leb_le in Ec0, Ec1, Ec2. rewrite remains_spec in Er by (apply dec_ok_advance; assumption). apply Z.leb_le in Er.
  rewrite frame_length in Er by (apply dec_ok_advance; assumption). rewrite frame_length in * by assumption. cbn [advance d_length d_offset d_raw] in *.
  split; [unfold ret, deref, window; replace (d_offset d + k + n - (d_offset d + k)) with n by lia; reflexivity|]. split; [exists (k + n); rewrite advance_advance; split; [lia|f_equal; lia]|].
  intros o m [F|[]]. injection F as <- <-. right. lia.
Qed.
Lemma Agree_repeat {A B} buf (f : A -> B) ws (m : Dec A) m' n old : Agree buf f ws [] m m' ->
  Agree buf (map f) (flat_map ws) old (repeat_dec n m) (repeat_dec n m').
Proof.
  intros H. revert old. induction n as [|n IH]; intros old; cbn [repeat_dec]; [apply Agree_ret; [reflexivity|intros w []]|].
  apply (Agree_bind buf f ws); [eapply Agree_weaken; [|exact H]; intros w []|]. intros a.
  apply (Agree_bind buf (map f) (flat_map ws)); [apply IH|]. intros xs. apply Agree_ret; [reflexivity|].
  intros w. cbn [flat_map]. rewrite !in_app_iff. tauto.
Qed.
Lemma Agree_dec_array {A B} buf (f : A -> B) ws (m : Dec A) m' o : Agree buf f ws [] m m' ->
  Agree buf (option_map (map f)) (fun s => match s with None => [] | Some l => flat_map ws l end)
    (match o with None => [] | Some l => flat_map ws l end) (dec_array m o) (dec_array m' (option_map (map f) o)).
Proof.
  intros H. apply (Agree_bind buf (fun x => x) (fun _ => [])); [apply Agree_same, Bounded_int32|]. intros n. cbn [app].
  destruct (0 <=? n); [|apply Agree_ret; auto]. apply (Agree_bind buf (map f) (flat_map ws)); [apply Agree_repeat, H|].
  intros xs. apply Agree_ret; [reflexivity|]. intros w. rewrite in_app_iff. tauto.
Qed.
Lemma zero_windows : (forall t, windows t (vzero t) = []) /\ (forall fs, windowss fs (vzeros fs) = []).
Proof. apply schema_mind; cbn; intros; try reflexivity. rewrite H, H0. reflexivity. Qed.
Lemma zero_resolve : (forall t buf, resolve t buf (vzero t) = zero t) /\ (forall fs buf, resolves fs buf (vzeros fs) = zeros fs).
Proof. apply schema_mind; cbn; intros; try reflexivity. rewrite H, H0. reflexivity. Qed.

Lemma vdecode_agrees :
  (forall t v buf old, Agree buf (resolve t buf) (windows t) (windows t old) (vdecode t v old) (gdecode t v (resolve t buf old))) /\
  (forall fs v buf old, Agree buf (resolves fs buf) (windowss fs) (windowss fs old) (vdecodes fs v old) (gdecodes fs v (resolves fs buf old))).
Proof.
  apply schema_mind; cbn [vdecode vdecodes gdecode gdecodes resolve resolves windows windowss vden vdens den dens].
  1-6, 8-10: intros; apply Agree_same.
  - apply Bounded_bool.
  - apply Bounded_int8.
  - apply Bounded_int16.
  - apply Bounded_int32.
  - apply Bounded_int64.
  - apply Bounded_string.
  - apply Bounded_prim_array, Bounded_int32.
  - apply Bounded_prim_array, Bounded_int64.
  - apply Bounded_prim_array, Bounded_string.
  - intros. apply Agree_bytes.
  - intros fs IH v buf old. apply Agree_dec_array. pose proof (IH v buf (vzeros fs)) as H. rewrite (proj2 zero_windows), (proj2 zero_resolve) in H. exact H.
  - intros. apply Agree_ret; [reflexivity|intros w []].
  - intros name r t IHt rest IHr v buf [o os]. cbn [fst snd].
    apply (Agree_bind buf (resolve t buf) (windows t)).
    + unfold dec_if. destruct (active r v); [eapply Agree_weaken; [|apply IHt]; intros w; rewrite in_app_iff; tauto|].
      apply Agree_ret; [reflexivity|]. intros w. rewrite in_app_iff. tauto.
    + intros x. apply (Agree_bind buf (resolves rest buf) (windowss rest)); [eapply Agree_weaken; [|apply IHr]; intros w; rewrite !in_app_iff; tauto|].
      intros xs. apply Agree_ret; [reflexivity|]. intros w. cbn [fst snd]. rewrite !in_app_iff. tauto.
Qed.

(** ** What a change of the buffer does *)
Lemma resolve_iff :
  (forall t b1 b2 x, resolve t b1 x = resolve t b2 x <-> forall o n, In (o, n) (windows t x) -> window b1 o n = window b2 o n) /\
  (forall fs b1 b2 x, resolves fs b1 x = resolves fs b2 x <-> forall o n, In (o, n) (windowss fs x) -> window b1 o n = window b2 o n).
Proof.
  apply schema_mind; cbn [resolve resolves windows windowss vden vdens den dens].
  1-6, 8-10: intros; split; [intros _ o n []|reflexivity].
  - intros b1 b2 [|o n]; cbn; [split; [intros _ o n []|reflexivity]|]. split; [intros F o' n' [G|[]]; injection F as F; injection G as <- <-; exact F|].
    intros H. rewrite (H o n) by (left; reflexivity). reflexivity.
  - intros fs IH b1 b2 [l|]; [|split; [intros _ o n []|reflexivity]]. cbn [option_map]. induction l as [|x l IHl]; [split; [intros _ o n []|reflexivity]|].
    cbn [map flat_map]. split.
    + intros F o n Hin. injection F as F1 F2. apply in_app_or in Hin. destruct Hin as [Hin|Hin]; [exact (proj1 (IH _ _ _) F1 o n Hin)|].
      apply (proj1 IHl); [congruence|exact Hin].
    + intros H. assert (E1 : resolves fs b1 x = resolves fs b2 x) by (apply IH; intros; apply H, in_or_app; auto).
      assert (E2 : Some (map (resolves fs b1) l) = Some (map (resolves fs b2) l)) by (apply IHl; intros; apply H, in_or_app; auto). congruence.
  - intros; split; [intros _ o n []|reflexivity].
  - intros name r t IHt rest IHr b1 b2 [x xs]. cbn [fst snd]. split.
    + intros F o n Hin. injection F as F1 F2. apply in_app_or in Hin. destruct Hin as [Hin|Hin]; [exact (proj1 (IHt _ _ _) F1 o n Hin)|exact (proj1 (IHr _ _ _) F2 o n Hin)].
    + intros H. f_equal; [apply IHt|apply IHr]; intros; apply H, in_or_app; auto.
Qed.

(** No byte fields, no windows. *)
Lemma flat_map_nil {A B} (f : A -> list B) l : (forall x, In x l -> f x = []) -> flat_map f l = [].
Proof. induction l as [|x l IH]; intros H; [reflexivity|]. cbn. rewrite (H x) by (left; reflexivity). apply IH. intros y Hy. apply H. right. exact Hy. Qed.
Definition Windowless {A} (ws : A -> list (Z * Z)) (m : Dec A) : Prop := forall d a d', m d = DOk a d' -> ws a = [].
Lemma Windowless_bind {A B} (ws : A -> list (Z * Z)) (ws' : B -> list (Z * Z)) m k : Windowless ws m -> (forall a, ws a = [] -> Windowless ws' (k a)) -> Windowless ws' (bind m k).
Proof. intros Hm Hk d b d' H. unfold bind in H. destruct (m d) as [a d1|x d1|] eqn:E; try discriminate. exact (Hk a (Hm _ _ _ E) _ _ _ H). Qed.
Lemma Windowless_ret {A} (ws : A -> list (Z * Z)) a : ws a = [] -> Windowless ws (ret a).
Proof. intros H d b d' F. injection F as <- _. exact H. Qed.
Lemma Windowless_repeat {A} (ws : A -> list (Z * Z)) m n : Windowless ws m -> Windowless (flat_map ws) (repeat_dec n m).
Proof.
  intros H. induction n as [|n IH]; cbn [repeat_dec]; [apply Windowless_ret; reflexivity|]. apply (Windowless_bind ws); [exact H|]. intros a Ha.
  apply (Windowless_bind (flat_map ws)); [exact IH|]. intros xs Hxs. apply Windowless_ret. cbn. rewrite Ha, Hxs. reflexivity.
Qed.
Lemma windowless :
  (forall t v old, has_bytes t v = false -> windows t old = [] -> Windowless (windows t) (vdecode t v old)) /\
  (forall fs v old, have_bytes fs v = false -> windowss fs old = [] -> Windowless (windowss fs) (vdecodes fs v old)).
Proof.
  apply schema_mind; cbn [vdecode vdecodes windows windowss has_bytes have_bytes vden vdens].
  1-6, 8-10: intros; intros d a d' _; reflexivity.
  - discriminate.
  - intros fs IH v old Hb Ho. apply (Windowless_bind (fun _ => [])); [intros d a d' _; reflexivity|]. intros n _. destruct (0 <=? n); [|apply Windowless_ret, Ho].
    apply (Windowless_bind (flat_map (windowss fs))); [apply Windowless_repeat, IH; [exact Hb|apply zero_windows]|]. intros xs Hxs. apply Windowless_ret, Hxs.
  - intros. apply Windowless_ret. reflexivity.
  - intros name r t IHt rest IHr v [o os] Hb Ho. cbn [fst snd] in *. apply orb_false_iff in Hb. destruct Hb as [Hb1 Hb2]. apply app_eq_nil in Ho. destruct Ho as [Ho1 Ho2].
    apply (Windowless_bind (windows t)); [unfold dec_if; destruct (active r v); [apply IHt; assumption|apply Windowless_ret, Ho1]|].
    intros x Hx. apply (Windowless_bind (windowss rest)); [apply IHr; assumption|]. intros xs Hxs. apply Windowless_ret. cbn [fst snd]. rewrite Hx, Hxs. reflexivity.
Qed.

(** ** The generated response types *)
(** What the translated Decode returns is the memory value seen through the buffer. *)
Lemma alias_link name c : In (name, c) all_codecs -> forall v d, dec_ok d ->
  c_decode c v (c_zero c) d = match vdecodes (c_schema c) v (vzeros (c_schema c)) d with
                              | DOk r d' => DOk (c_of c (resolves (c_schema c) (d_raw d) r)) d'
                              | DErr x d' => DErr x d'
                              | DPanic => DPanic
                              end.
Proof.
  intros Hin v d Hd. pose proof all_linked as L. rewrite Forall_forall in L. specialize (L _ Hin). cbn in L.
  rewrite (l_decode _ L), (l_zero _ L). unfold dmap. pose proof (proj2 vdecode_agrees (c_schema c) v (d_raw d) (vzeros (c_schema c)) d Hd eq_refl) as H.
  rewrite (proj2 zero_resolve) in H. destruct (vdecodes _ _ _ d) as [r d'|x d'|]; [destruct H as [-> _]|rewrite H|rewrite H]; reflexivity.
Qed.
(** The windows of a decoded response lie in the part of the frame that was read. *)
Lemma alias_windows fs v d r d' : dec_ok d -> vdecodes fs v (vzeros fs) d = DOk r d' ->
  forall o n, In (o, n) (windowss fs r) -> d_offset d <= o /\ 0 <= n /\ o + n <= d_length d.
Proof.
  intros Hd H o n Hin. pose proof (proj2 vdecode_agrees fs v (d_raw d) (vzeros fs) d Hd eq_refl) as Q. rewrite H in Q. destruct Q as (_ & (k & Hk & ->) & Q).
  destruct (Q _ _ Hin) as [F|F]; [rewrite (proj2 zero_windows) in F; destruct F|]. rewrite frame_length in Hk by exact Hd. cbn [advance d_offset] in F. lia.
Qed.
