(** * Linking the translated methods of one message type to its schema *)
From Coq Require Import String.
From Verif Require Import GoBase Binary Encoder Decoder Sizeof Spec SchemaSpec GoLemmas EncProofs DecProofs SizeProofs Schema.

(** The three methods of a generated type, its zero value, and the reading of
    its struct declaration as a schema. *)
Record codec : Type := Codec {
  c_type : Type;
  c_zero : c_type;
  c_size : Z -> c_type -> Z;
  c_encode : Z -> c_type -> Encoder -> Encoder;
  c_decode : Z -> c_type -> Dec c_type;
  c_schema : fields;
  c_to : c_type -> dens c_schema;
  c_of : dens c_schema -> c_type
}.

Definition dmap {A B} (f : A -> B) (m : Dec A) : Dec B := fun d =>
  match m d with
  | DOk a d' => DOk (f a) d'
  | DErr e d' => DErr e d'
  | DPanic => DPanic
  end.

(** The methods agree with the schema-driven ones. *)
Record linked (c : codec) : Prop := Linked {
  l_of_to : forall m, c_of c (c_to c m) = m;
  l_to_of : forall x, c_to c (c_of c x) = x;
  l_zero : c_to c (c_zero c) = zeros (c_schema c);
  l_size : forall v m, c_size c v m = gsizes (c_schema c) v (c_to c m) 0;
  l_encode : forall v m e, c_encode c v m e = gencodes (c_schema c) v (c_to c m) e;
  l_decode : forall v m d, c_decode c v m d = dmap (c_of c) (gdecodes (c_schema c) v (c_to c m)) d
}.

Lemma option_map_map_inv {A B} (f : A -> B) (g : B -> A) (xs : gslice A) :
  (forall x, g (f x) = x) -> option_map (map g) (option_map (map f) xs) = xs.
Proof.
  intros H. destruct xs as [l|]; [|reflexivity]. cbn [option_map]. f_equal.
  rewrite map_map. erewrite map_ext; [apply map_id|]. exact H.
Qed.

Lemma size_array_link {A B} (f : A -> Z) (g : B -> Z) (to : A -> B) :
  (forall x, f x = g (to x)) ->
  forall xs sz, size_array f xs sz = size_array g (option_map (map to) xs) sz.
Proof.
  intros H xs sz. unfold size_array. destruct xs as [l|]; [|reflexivity].
  cbn [items option_map]. rewrite <- map_rev. generalize (rev l). clear l. intros l. revert sz.
  induction l as [|x l IH]; intros sz; [reflexivity|]. cbn [map fold_left]. rewrite H. apply IH.
Qed.

Lemma put_array_link {A B} (f : A -> Encoder -> Encoder) (g : B -> Encoder -> Encoder) (to : A -> B) :
  (forall x e, f x e = g (to x) e) ->
  forall xs e, put_array f xs e = put_array g (option_map (map to) xs) e.
Proof.
  intros H xs e. unfold put_array, glen, zlen. destruct xs as [l|]; [|reflexivity].
  cbn [items option_map]. rewrite map_length. generalize (PutArrayLength (Z.of_nat (length l)) e).
  clear e. unfold foreach. induction l as [|x l IH]; intros e; [reflexivity|].
  cbn [map fold_left]. rewrite H. apply IH.
Qed.

Lemma size_field_link {A} (f : A -> Z) (fs : fields) (to : A -> dens fs) v :
  (forall x, f x = gsizes fs v (to x) 0) -> forall c xs sz,
  size_if c (size_loop f xs) sz = size_if c (gsize (TArray fs) v (option_map (map to) xs)) sz.
Proof.
  intros H c xs sz. unfold size_if. destruct c; [|reflexivity]. cbn [gsize]. unfold size_loop.
  apply (size_array_link f (fun y => gsizes fs v y 0) to H).
Qed.

Lemma put_field_link {A} (f : A -> Encoder -> Encoder) (fs : fields) (to : A -> dens fs) v :
  (forall x e, f x e = gencodes fs v (to x) e) -> forall c xs e,
  put_if c (put_array f xs) e = put_if c (gencode (TArray fs) v (option_map (map to) xs)) e.
Proof.
  intros H c xs e. unfold put_if. destruct c; [|reflexivity]. cbn [gencode].
  apply (put_array_link f (gencodes fs v) to H).
Qed.

Lemma size_step (f g : Z -> Z) name r t rest v x xs :
  (forall sz, f sz = size_if (active r v) (gsize t v x) sz) ->
  (forall sz, g sz = gsizes rest v xs sz) ->
  forall sz, size_seq f g sz = gsizes (FCons name r t rest) v (x, xs) sz.
Proof. intros Hf Hg sz. unfold size_seq. rewrite Hf, Hg. reflexivity. Qed.

Lemma size_start (f : Z -> Z) fs v x : (forall sz, f sz = gsizes fs v x sz) -> f 0 = gsizes fs v x 0.
Proof. intros H. apply H. Qed.

Lemma enc_step (f g : Encoder -> Encoder) name r t rest v x xs :
  (forall e, f e = put_if (active r v) (gencode t v x) e) ->
  (forall e, g e = gencodes rest v xs e) ->
  forall e, seq f g e = gencodes (FCons name r t rest) v (x, xs) e.
Proof. intros Hf Hg e. unfold seq. rewrite Hf, Hg. reflexivity. Qed.

Lemma repeat_link {A B} (f : Dec A) (g : Dec B) (of : B -> A) n :
  (forall d, f d = dmap of g d) -> forall d, repeat_dec n f d = dmap (map of) (repeat_dec n g) d.
Proof.
  intros H. induction n as [|n IH]; intros d; [reflexivity|].
  cbn [repeat_dec]. unfold bind, dmap at 1, ret. rewrite H. unfold dmap.
  destruct (g d) as [b d1|e d1|]; [|reflexivity|reflexivity].
  rewrite IH. unfold dmap. destruct (repeat_dec n g d1); reflexivity.
Qed.

Lemma dec_array_link {A B} (f : Dec A) (g : Dec B) (of : B -> A) (to : A -> B) :
  (forall d, f d = dmap of g d) -> (forall x, of (to x) = x) ->
  forall old d, dec_array f old d = dmap (option_map (map of)) (dec_array g (option_map (map to) old)) d.
Proof.
  intros H Hinv old d. unfold dec_array, bind, dmap at 1.
  destruct (dArrayLength d) as [n d1|e d1|]; [|reflexivity|reflexivity].
  destruct (0 <=? n).
  - rewrite (repeat_link f g of) by exact H. unfold dmap. destruct (repeat_dec (Z.to_nat n) g d1); reflexivity.
  - unfold ret. rewrite option_map_map_inv by exact Hinv. reflexivity.
Qed.

Lemma dmap_id {A} (m : Dec A) d : m d = dmap (fun x => x) m d.
Proof. unfold dmap. destruct (m d); reflexivity. Qed.

Lemma dec_if_link {A B} c (m : Dec A) (m' : Dec B) (conv : B -> A) old old' :
  (forall d, m d = dmap conv m' d) -> old = conv old' ->
  forall d, dec_if c m old d = dmap conv (dec_if c m' old') d.
Proof. intros H -> d. unfold dec_if. destruct c; [apply H|reflexivity]. Qed.

Lemma link_step {A A' X C} (m : Dec A) (m' : Dec A') (conv : A' -> A) (k : A -> Dec C)
    (rest : Dec X) (f : A' * X -> C) :
  (forall d, m d = dmap conv m' d) ->
  (forall a' d, k (conv a') d = dmap (fun xs => f (a', xs)) rest d) ->
  forall d, bind m k d = dmap f (x <- m' ;; xs <- rest ;; ret (x, xs)) d.
Proof.
  intros H Hk d. unfold bind at 1. rewrite H. unfold dmap, bind, ret.
  destruct (m' d) as [a' d1|e d1|]; [|reflexivity|reflexivity].
  rewrite Hk. unfold dmap. destruct (rest d1); reflexivity.
Qed.

Lemma dec_step {A C name r t rest v x xs} (conv : den t -> A) (m : Dec A) (k : A -> Dec C)
    (f : dens (FCons name r t rest) -> C) :
  (forall d, m d = dmap conv (dec_if (active r v) (gdecode t v x) x) d) ->
  (forall a' d, k (conv a') d = dmap (fun ys => f (a', ys)) (gdecodes rest v xs) d) ->
  forall d, bind m k d = dmap f (gdecodes (FCons name r t rest) v (x, xs)) d.
Proof. exact (link_step m (dec_if (active r v) (gdecode t v x) x) conv k (gdecodes rest v xs) f). Qed.

Ltac dec_field conv :=
  lazymatch goal with
  | |- forall d, bind _ _ d = dmap _ (gdecodes (FCons ?n ?r ?t ?rest) _ _) d =>
      apply (dec_step (name := n) (r := r) (t := t) (rest := rest) conv)
  end.

(** ** The properties, for one linked codec *)

Section Linked.
Context (c : codec) (L : linked c).

Lemma linked_runs v m : Runs (c_encode c v m) (gchunkss (c_schema c) v (c_to c m)).
Proof.
  apply Runs_ext with (g := gencodes (c_schema c) v (c_to c m)); [apply (l_encode c L)|apply gencode_runs].
Qed.
Lemma linked_emits v m : Emits (c_encode c v m) (wires (c_schema c) v (c_to c m)).
Proof. rewrite <- (proj2 gchunks_wire). apply Runs_Emits, linked_runs. Qed.

Lemma linked_size v m : c_size c v m = int32 (zlen (wires (c_schema c) v (c_to c m))).
Proof. rewrite (l_size c L). change 0 with (int32 0) at 1. rewrite (proj2 gsize_spec). reflexivity. Qed.

Lemma linked_decodes v old m : fit (c_schema c) v (c_to c m) ->
  Decodes (c_decode c v old) (wires (c_schema c) v (c_to c m))
          (c_of c (receive (c_schema c) v (c_to c old) (c_to c m))).
Proof.
  intros Hf d rest Hd Hfr. rewrite (l_decode c L). unfold dmap.
  rewrite (proj2 gdecode_spec _ _ _ _ Hf d rest Hd Hfr). reflexivity.
Qed.

Lemma linked_starves v old m : fit (c_schema c) v (c_to c m) ->
  Starves (c_decode c v old) (wires (c_schema c) v (c_to c m)).
Proof.
  intros Hf d k Hd Hk Hfr. rewrite (l_decode c L). unfold dmap.
  destruct (proj2 gdecode_starves _ _ (c_to c old) _ Hf d k Hd Hk Hfr) as [d' E]. rewrite E. eauto.
Qed.

Lemma linked_local v old : Local (c_decode c v old).
Proof.
  intros d1 d2 H1 H2 Hf. rewrite !(l_decode c L). unfold dmap.
  pose proof (proj2 gdecode_local (c_schema c) v (c_to c old) d1 d2 H1 H2 Hf) as H.
  destruct (gdecodes _ _ _ d1), (gdecodes _ _ _ d2); cbn in H |- *; try contradiction; try exact H; try exact I.
  destruct H as (-> & H). split; [reflexivity|exact H].
Qed.

Lemma linked_bounded v old : Bounded (c_decode c v old).
Proof.
  intros d Hd. rewrite (l_decode c L). unfold dmap.
  pose proof (proj2 gdecode_bounded (c_schema c) v (c_to c old) d Hd) as H.
  destruct (gdecodes _ _ _ d); exact H.
Qed.

Lemma linked_nopanic v old : safes (c_schema c) v = true -> NoPanic (c_decode c v old).
Proof.
  intros Hs d Hd. rewrite (l_decode c L). unfold dmap.
  pose proof (proj2 gdecode_nopanic (c_schema c) v (c_to c old) Hs d Hd) as H.
  destruct (gdecodes _ _ _ d); congruence.
Qed.
End Linked.
