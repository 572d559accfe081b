(** * The text of RecordBatch.Size *)
From Coq Require Import Ascii String Lia ZArith.
From Verif Require Import GoBase GoLemmas Encoder Sizeof RecordBatch GoLang GoShare Source SourceRecords SourceClientSpec SourceClientProofs SourceRecordsSpec SourceRecordsProofs.
Local Open Scope string_scope.
Local Open Scope list_scope.
Local Open Scope Z_scope.
Notation enc := (VHandle "message.Encoder" 0).
Ltac bstep H := first [ rewrite zero_32 in H | rewrite c_8 in H | rewrite c_16 in H | rewrite c_32 in H | rewrite c_64 in H | rewrite c_magic in H | rewrite op_const in H by reflexivity
  | rewrite rno in H by has | rewrite ask_8_2 in H | rewrite ask_16 in H | rewrite ask_32 in H | rewrite ask_64 in H ].

Fixpoint index (i : nat) (ms : list Message) : list (nat * Message) := match ms with [] => [] | m :: ms => (i, m) :: index (S i) ms end.
Lemma message_index i ms : message_vals i ms = map (fun p => message_val (fst p) (snd p)) (index i ms).
Proof. revert i. induction ms as [|m ms IH]; intros i; cbn [message_vals index map fst snd]; [|rewrite IH]; reflexivity. Qed.
Lemma records_elements r : elements_of (match r_Records r with Some ms => VList (message_vals 0 ms) | None => VNil end) = Some (map (fun p => message_val (fst p) (snd p)) (index 0 (items (r_Records r)))).
Proof. destruct (r_Records r) as [ms|]; cbn [elements_of items]; [rewrite message_index|]; reflexivity. Qed.

(** Places as numbers *)
Ltac places H := repeat match type of H with
  | context [next (push ?v ?m)] => change (next (push v m)) with (S (next m)) in H
  | context [next (put ?l ?v ?m)] => change (next (put l v m)) with (next m) in H end.
Lemma settle_message W a i m : settle_as W a (message_val i m) = message_val i m.
Proof. destruct a; reflexivity. Qed.
Section Text.
Context (W : Z) (orders : nat -> list (gostring * gostring)).
Notation rec := (recording orders).
Notation go := (call W rprog).
Definition sizes (r : RecordBatch) (version : Z) : nat -> list Message -> Z -> Z :=
  fix loop i ms sz := match ms with [] => sz | m :: rest => loop (S i) rest (add32 sz (sizeofMessage (orders i) m version (r_BaseOffset r) (r_FirstTimestamp r))) end.
Lemma size_fold r version ms i sz : ofold (fun p sz => Some (add32 sz (sizeofMessage (orders (fst p)) (snd p) version (r_BaseOffset r) (r_FirstTimestamp r)))) (index i ms) sz = Some (sizes r version i ms sz).
Proof. revert i sz. induction ms as [|m ms IH]; intros i sz; cbn [index ofold sizes fst snd]; [reflexivity|apply IH]. Qed.
(** sz += g for each of a list of constants *)
Definition adds (gs : list (string * Z)) : list stmt := map (fun p => SOp (EVar "sz") Add (EGlobal (fst p))) gs.
Lemma adds_text f n E l cs k gs : lookup "sz" E = Some (VRef l) -> Forall (fun p => const_val rprog (fst p) = Some (VConst (snd p)) /\ int32 (snd p) = snd p) gs ->
  forall z m, get l m = Some (VInt I32 z) -> exists m', get l m' = Some (VInt I32 (fold_left add32 (map snd gs) z)) /\ next m' = next m /\ (forall j, j <> l -> get j m' = get j m) /\
    run W rprog f n (adds gs ++ cs) E m k = run W rprog f n cs E m' k.
Proof.
  intros HE Hg. induction Hg as [|[g c] gs [H1 H2] Hg IH]; intros z m Hm; [exists m; auto|].
  cbn [fst snd] in *. destruct (IH (add32 z c) (put l (VInt I32 (add32 z c)) m)) as (m' & A & B & C & D); [apply get_put|].
  exists m'. split; [exact A|]. split; [exact B|]. split; [intros j J; rewrite C by exact J; apply get_put_other; exact J|]. rewrite <- D.
  cbn [adds map fst app run exec eval var]. unfold var. rewrite HE, Hm. cbn [want]. rewrite H1. cbn [want]. rewrite op_const by exact H2. cbn [want assign String.eqb Ascii.eqb Bool.eqb]. rewrite HE, Hm. reflexivity.
Qed.
Lemma head_constants : Forall (fun p : string * Z => const_val rprog (fst p) = Some (VConst (snd p)) /\ int32 (snd p) = snd p)
  [("sizeof.Int64", 8); ("sizeof.Int32", 4); ("sizeof.Int32", 4); ("sizeof.Int8", 1); ("sizeof.Int32", 4); ("sizeof.Int16", 2); ("sizeof.Int32", 4); ("sizeof.Int64", 8); ("sizeof.Int64", 8); ("sizeof.Int64", 8); ("sizeof.Int16", 2); ("sizeof.Int32", 4)].
Proof. repeat (apply Forall_cons; [split; has|]). apply Forall_nil. Qed.
Lemma head_size : RecordBatch_Size orders = fun r version => sizes r version O (items (r_Records r)) (fold_left add32 [8; 4; 4; 1; 4; 2; 4; 8; 8; 8; 2; 4] 0).
Proof. reflexivity. Qed.
Lemma size_text n r version mm k e : exists mm', grows mm mm' /\
  rec (go (S (S (S (S (S n))))) "RecordBatch.Size" [] [batch_val r; VInt I16 version] mm k) e = rec (k (VInt I32 (RecordBatch_Size orders r version)) mm') e.
Proof.
  rewrite head_size. generalize (eq_refl (fold_left add32 [8; 4; 4; 1; 4; 2; 4; 8; 8; 8; 2; 4] 0)). generalize (fold_left add32 [8; 4; 4; 1; 4; 2; 4; 8; 8; 8; 2; 4] 0) at 2 3. intros z0 Hz.
  remember (rec (go _ "RecordBatch.Size" _ _ mm k) e) as R eqn:ER.
  rewrite (rfind _ _ _ go_RecordBatch_Size) in ER by reflexivity. unfold invoke in ER. cbn [go_RecordBatch_Size f_params f_body f_results arguments settle option_map want new_vars] in ER.
  match type of ER with _ = rec (run _ _ _ _ _ (fst ?v) _ _) _ => change v with (([("version", VRef (S (next mm))); ("r", VRef (next mm)); ("{", VNil)], push (VInt I16 version) (push (batch_val r) mm))) in ER end. cbn [fst snd] in ER.
  match type of ER with _ = rec (run _ _ ?f ?m (?c :: ?cs) ?E ?M ?K) _ =>
    change (run W rprog f m (c :: cs) E M K) with (run W rprog f m (adds [("sizeof.Int64", 8); ("sizeof.Int32", 4); ("sizeof.Int32", 4); ("sizeof.Int8", 1); ("sizeof.Int32", 4); ("sizeof.Int16", 2); ("sizeof.Int32", 4); ("sizeof.Int64", 8); ("sizeof.Int64", 8); ("sizeof.Int64", 8); ("sizeof.Int16", 2); ("sizeof.Int32", 4)]
      ++ skipn 12 cs) (("sz", VRef (S (S (next mm)))) :: E) (push (VInt I32 0) M) K) in ER;
    destruct (adds_text f m (("sz", VRef (S (S (next mm)))) :: E) (S (S (next mm))) (skipn 12 cs) K _ eq_refl head_constants 0 (push (VInt I32 0) M)) as (M1 & A1 & A2 & A3 & A4) end.
  { look. reflexivity. }
  rewrite A4 in ER. clear A4. cbn [map snd] in A1. rewrite Hz in A1. rewrite !next_push in A2.
  assert (A5 : get (next mm) M1 = Some (batch_val r)) by (rewrite A3 by lia; repeat look; reflexivity).
  assert (A6 : get (S (next mm)) M1 = Some (VInt I16 version)) by (rewrite A3 by lia; repeat look; reflexivity).
  assert (A7 : grows mm M1) by (split; [lia|]; intros l L; rewrite A3 by lia; repeat look; reflexivity).
  clear A3. cbn [skipn] in ER. assert (A8 := A5). unfold batch_val in A8. rgo_in ER.
  rewrite records_elements in ER. cbn [want] in ER. places ER. rewrite ?A2 in ER.
  match type of ER with _ = rec (each _ ?b ?M ?K) _ => 
    pose proof (each_ofold orders (fun p => message_val (fst p) (snd p)) (fun p sz => Some (add32 sz (sizeofMessage (orders (fst p)) (snd p) version (r_BaseOffset r) (r_FirstTimestamp r))))
      (fun sz m' e' => e' = e /\ get (S (S (next mm))) m' = Some (VInt I32 sz) /\ get (next mm) m' = Some (batch_val r) /\ get (S (next mm)) m' = Some (VInt I16 version) /\
         (exists a, get (S (S (S (next mm)))) m' = Some a) /\ grows mm m' /\ (S (S (S (S (next mm)))) <= next m')%nat) b K) as HE;
    match type of HE with ?A -> _ => assert (HA : A) end;
    [|specialize (HE HA (index 0 (items (r_Records r))) z0 M e); clear HA; rewrite size_fold in HE; destruct HE as (m2 & e2 & (-> & Q1 & Q2 & Q3 & Q4 & Q5 & Q6) & Q)]
  end.
  - clear ER HE. intros [i m] sz m1 e1 kk (-> & H1 & H2 & H3 & (a & H4) & H5 & H6). cbn [fst snd].
    match goal with |- exists E mm' e', _ /\ ?X = _ => remember X as RX eqn:EX end.
    cbv beta in EX. rewrite H4 in EX. cbn [want] in EX. rewrite settle_message in EX. unfold batch_val in H2. rgo_in EX.
    match type of EX with _ = rec (call W rprog _ _ [] _ ?m2 ?k2) _ => destruct (sizeof_text W orders n i m version (r_BaseOffset r) (r_FirstTimestamp r) m2 k2 e) as (m3 & G & Q); rewrite Q in EX; clear Q end.
    assert (L3 := proj1 G). rewrite next_put in L3.
    rgo_in EX. rewrite op_add in EX. rgo_in EX.
    eexists _, _, _. split; [|exact EX].
    split; [reflexivity|]. split; [look; reflexivity|]. rewrite next_put.
    assert (Go : forall l, (l < next m1)%nat -> l <> S (S (next mm)) -> l <> S (S (S (next mm))) -> get l (put (S (S (next mm))) (VInt I32 (add32 sz (sizeofMessage (orders i) m version (r_BaseOffset r) (r_FirstTimestamp r)))) m3) = get l m1).
    { intros l L N1 N2. rewrite get_put_other by exact N1. rewrite (proj2 G) by (rewrite next_put; exact L). apply get_put_other. exact N2. }
    split; [rewrite Go by lia; exact H2|]. split; [rewrite Go by lia; exact H3|].
    split; [eexists; rewrite get_put_other by lia; rewrite (proj2 G) by (rewrite next_put; lia); apply get_put|].
    split; [|lia]. destruct H5 as [H5 H5']. split; [rewrite next_put; lia|]. intros l L. rewrite Go by lia. apply H5'. exact L.
  - clear ER. split; [reflexivity|]. split; [repeat look; reflexivity|]. split; [repeat look; reflexivity|]. split; [repeat look; reflexivity|]. split; [eexists; repeat look; reflexivity|]. split; [grown|]. rewrite ?next_push, ?next_put, ?next_push. cbn [next push put]. lia.
  - pose proof (eq_trans ER Q) as E2. clear ER Q. cbn -[get recording] in E2. rewrite Q1 in E2. cbn -[get recording sizes] in E2. exists m2. split; [exact Q5|exact E2].
Qed.
End Text.
