(** * Proofs about the encoder primitives *)
From Verif Require Import GoBase Binary Utf8 Encoder Decoder Spec GoLemmas.
Ltac Zify.zify_post_hook ::= Z.div_mod_to_equations.

(** [act] makes the writes [cs] in order, one after the other, stopping at the
    first one that fails, and does nothing on an encoder that has failed. *)
Definition put_chunk (c : list Z) (e : Encoder) : Encoder :=
  match e_err e with Some _ => e | None => write c e end.
Definition run_chunks (cs : list (list Z)) (e : Encoder) : Encoder :=
  fold_left (fun e c => put_chunk c e) cs e.
Definition Runs (act : Encoder -> Encoder) (cs : list (list Z)) : Prop :=
  forall e, act e = run_chunks cs e.

Lemma run_chunks_app a b e : run_chunks (a ++ b) e = run_chunks b (run_chunks a e).
Proof. unfold run_chunks. apply fold_left_app. Qed.

Lemma run_chunks_err cs e x : e_err e = Some x -> run_chunks cs e = e.
Proof.
  intros He. induction cs as [|c cs IH]; [reflexivity|].
  unfold run_chunks in *. cbn [fold_left]. unfold put_chunk at 2. rewrite He. exact IH.
Qed.

Lemma Runs_seq f g a b : Runs f a -> Runs g b -> Runs (seq f g) (a ++ b).
Proof. intros Hf Hg e. unfold seq. rewrite Hf, Hg, run_chunks_app. reflexivity. Qed.

Lemma Runs_skip : Runs skip [].
Proof. intros e. reflexivity. Qed.

Lemma Runs_put_if c f a : Runs f a -> Runs (put_if c f) (if c then a else []).
Proof. intros Hf e. unfold put_if. destruct c; [apply Hf|reflexivity]. Qed.

Lemma Runs_foreach {A} (f : A -> Encoder -> Encoder) (cs : A -> list (list Z)) xs :
  (forall x, In x xs -> Runs (f x) (cs x)) -> Runs (foreach f xs) (flat_map cs xs).
Proof.
  intros Hf e. revert e. induction xs as [|x xs IH]; intros e; [reflexivity|].
  unfold foreach in *. cbn [fold_left flat_map]. rewrite run_chunks_app.
  rewrite <- (Hf x (or_introl eq_refl)). apply IH. intros y Hy. apply Hf. right. exact Hy.
Qed.

Lemma Runs_ext f g a : (forall e, f e = g e) -> Runs g a -> Runs f a.
Proof. intros H Hg e. rewrite H. apply Hg. Qed.

Lemma uint32_int32 z : uint32 (int32 z) = uint32 z.
Proof. unfold uint32, int32. apply wrap_residue. lia. Qed.
Lemma uint16_int16 z : uint16 (int16 z) = uint16 z.
Proof. unfold uint16, int16. apply wrap_residue. lia. Qed.

Lemma Runs_PutInt8 i : Runs (PutInt8 i) [be 1 i].
Proof. intros e. unfold PutInt8. rewrite put_uint8_be. reflexivity. Qed.
Lemma Runs_PutInt16 i : Runs (PutInt16 i) [be 2 i].
Proof. intros e. unfold PutInt16. rewrite put_uint16_be. reflexivity. Qed.
Lemma Runs_PutInt32 i : Runs (PutInt32 i) [be 4 i].
Proof. intros e. unfold PutInt32. rewrite put_uint32_be. reflexivity. Qed.
Lemma Runs_PutInt64 i : Runs (PutInt64 i) [be 8 i].
Proof. intros e. unfold PutInt64. rewrite put_uint64_be. reflexivity. Qed.
Lemma Runs_PutBool b : Runs (PutBool b) [w_bool b].
Proof.
  intros e. unfold PutBool. destruct b; rewrite Runs_PutInt8; reflexivity.
Qed.
Lemma Runs_PutArrayLength n : Runs (PutArrayLength n) [be 4 n].
Proof.
  intros e. unfold PutArrayLength, PutInt32. rewrite uint32_int32, put_uint32_be. reflexivity.
Qed.

Lemma Runs_PutString s : Runs (PutString s) [be 2 (zlen s); s].
Proof.
  intros e. unfold PutString.
  assert (H : PutInt16 (int16 (zlen s)) e = put_chunk (be 2 (zlen s)) e).
  { unfold PutInt16. rewrite uint16_int16, put_uint16_be. reflexivity. }
  rewrite H. unfold run_chunks. cbn [fold_left].
  set (e1 := put_chunk (be 2 (zlen s)) e). unfold put_chunk. destruct (e_err e1); reflexivity.
Qed.
Lemma Runs_PutBytes s : Runs (PutBytes s) [be 4 (glen s); items s].
Proof.
  intros e. unfold PutBytes.
  assert (H : PutInt32 (int32 (glen s)) e = put_chunk (be 4 (glen s)) e).
  { unfold PutInt32. rewrite uint32_int32, put_uint32_be. reflexivity. }
  rewrite H. unfold run_chunks. cbn [fold_left].
  set (e1 := put_chunk (be 4 (glen s)) e). unfold put_chunk. destruct (e_err e1); reflexivity.
Qed.
Lemma Runs_PutNullableString s :
  Runs (PutNullableString s) (match s with None => [be 2 (-1)] | Some s => [be 2 (zlen s); s] end).
Proof.
  intros e. destruct s as [s|]; cbn [PutNullableString]; [apply Runs_PutString|apply Runs_PutInt16].
Qed.

Lemma flat_map_singleton {A B} (f : A -> B) l : flat_map (fun x => [f x]) l = map f l.
Proof. induction l as [|x l IH]; cbn; [reflexivity|rewrite IH; reflexivity]. Qed.

Definition nullable_chunks {A} (cs : A -> list (list Z)) (xs : gslice A) : list (list Z) :=
  match xs with None => [be 4 (-1)] | Some l => be 4 (zlen l) :: flat_map cs l end.

Lemma Runs_nullable_array {A} (f : A -> Encoder -> Encoder) cs (xs : gslice A) :
  (forall x, Runs (f x) (cs x)) ->
  Runs (fun e => match e_err e with
                 | Some _ => e
                 | None => match xs with
                           | None => PutInt32 (-1) e
                           | Some l => foreach f l (PutArrayLength (zlen l) e)
                           end
                 end) (nullable_chunks cs xs).
Proof.
  intros Hf e. destruct (e_err e) as [x|] eqn:He.
  - rewrite run_chunks_err with (x := x); [reflexivity|exact He].
  - destruct xs as [l|]; cbn [nullable_chunks].
    + rewrite (Runs_foreach f cs l) by (intros y _; apply Hf).
      rewrite Runs_PutArrayLength.
      rewrite <- run_chunks_app. reflexivity.
    + apply Runs_PutInt32.
Qed.
Lemma Runs_PutInt32Array ii : Runs (PutInt32Array ii) (nullable_chunks (fun i => [be 4 i]) ii).
Proof. apply (Runs_nullable_array PutInt32). intros x. apply Runs_PutInt32. Qed.
Lemma Runs_PutInt64Array ii : Runs (PutInt64Array ii) (nullable_chunks (fun i => [be 8 i]) ii).
Proof. apply (Runs_nullable_array PutInt64). intros x. apply Runs_PutInt64. Qed.
Lemma Runs_PutStringArray ss :
  Runs (PutStringArray ss) (nullable_chunks (fun s => [be 2 (zlen s); s]) ss).
Proof. apply (Runs_nullable_array PutString). intros x. apply Runs_PutString. Qed.

Lemma Runs_put_array {A} (f : A -> Encoder -> Encoder) cs (xs : gslice A) :
  (forall x, In x (items xs) -> Runs (f x) (cs x)) ->
  Runs (put_array f xs) (be 4 (glen xs) :: flat_map cs (items xs)).
Proof.
  intros Hf e. unfold put_array. rewrite (Runs_foreach f cs) by exact Hf.
  rewrite Runs_PutArrayLength, <- run_chunks_app. reflexivity.
Qed.

(** ** From chunk runs to emitted bytes *)

Lemma write_reliable c e : reliable e -> reliable (write c e) /\ output (write c e) = output e ++ c.
Proof.
  intros [He Hw]. unfold reliable, write, output. cbn. rewrite Hw, concat_app. cbn.
  rewrite app_nil_r. auto.
Qed.

Lemma run_chunks_reliable cs e :
  reliable e -> reliable (run_chunks cs e) /\ output (run_chunks cs e) = output e ++ concat cs.
Proof.
  revert e. induction cs as [|c cs IH]; intros e He.
  - cbn. rewrite app_nil_r. auto.
  - unfold run_chunks in *. cbn [fold_left concat]. unfold put_chunk at 2 4.
    rewrite (proj1 He).
    destruct (write_reliable c e He) as [Hr Ho].
    destruct (IH _ Hr) as [Hr' Ho']. split; [exact Hr'|].
    rewrite Ho', Ho, app_assoc. reflexivity.
Qed.

Lemma Runs_Emits act cs : Runs act cs -> Emits act (concat cs).
Proof. intros H e He. rewrite H. apply run_chunks_reliable. exact He. Qed.

Lemma Emits_seq f g a b : Emits f a -> Emits g b -> Emits (seq f g) (a ++ b).
Proof.
  intros Hf Hg e He. unfold seq. destruct (Hf e He) as [H1 H2]. destruct (Hg _ H1) as [H3 H4].
  split; [exact H3|]. rewrite H4, H2, app_assoc. reflexivity.
Qed.

(** Emitted bytes are unique. *)
Definition reliable_target : target := {| t_write := fun _ _ => None; t_flush := None; t_log := [] |}.
Lemma reliable_new : reliable (NewEncoder reliable_target).
Proof. split; reflexivity. Qed.
Lemma Emits_inj act a b : Emits act a -> Emits act b -> a = b.
Proof.
  intros Ha Hb. destruct (Ha _ reliable_new) as [_ H1]. destruct (Hb _ reliable_new) as [_ H2].
  cbn in H1, H2. congruence.
Qed.

Lemma concat_nullable {A} (cs : A -> list (list Z)) (w : A -> list Z) xs :
  (forall x, concat (cs x) = w x) -> concat (nullable_chunks cs xs) = w_nullable_array w xs.
Proof.
  intros H. destruct xs as [l|]; cbn [nullable_chunks w_nullable_array]; [|apply app_nil_r].
  unfold w_array, glen. cbn [items concat]. f_equal.
  induction l as [|x l IH]; [reflexivity|]. cbn [flat_map]. rewrite concat_app, H, IH. reflexivity.
Qed.

Lemma concat_flat_map {A} (cs : A -> list (list Z)) (w : A -> list Z) l :
  (forall x, In x l -> concat (cs x) = w x) -> concat (flat_map cs l) = flat_map w l.
Proof.
  intros H. induction l as [|x l IH]; [reflexivity|].
  cbn [flat_map]. rewrite concat_app, IH, H; [reflexivity| |].
  - left; reflexivity.
  - intros y Hy. apply H. right. exact Hy.
Qed.
