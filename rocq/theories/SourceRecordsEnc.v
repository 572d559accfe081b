(** * The text of RecordBatch.Encode *)
From Coq Require Import Ascii String Lia ZArith.
From Verif Require Import GoBase GoLemmas Encoder Sizeof RecordBatch GoLang GoShare Source SourceRecords SourceClientSpec SourceClientProofs SourceRecordsSpec SourceRecordsProofs SourceRecordsAll.
Local Open Scope string_scope.
Local Open Scope list_scope.
Local Open Scope Z_scope.
Section Text.
Context (W : Z) (orders : nat -> list (gostring * gostring)).
Notation rec := (recording orders).
Notation go := (call W rprog).
Lemma encode_fold ms i version ft e : ofold (fun p e => encodeMessage (orders (fst p)) (snd p) version ft e) (index i ms) e = encode_records orders i ms version ft e.
Proof. revert i e. induction ms as [|m ms IH]; intros i e; cbn [index ofold encode_records fst snd]; [reflexivity|]. destruct (encodeMessage _ _ _ _ _); [apply IH|reflexivity]. Qed.
Lemma batch_encode_text n r version mm k e : match RecordBatch_Encode orders r version e with
  | Some e' => exists mm', grows mm mm' /\ rec (go (S (S (S (S (S n))))) "RecordBatch.Encode" [] [batch_val r; enc; VInt I16 version] mm k) e = rec (k (VTuple []) mm') e'
  | None => fst (rec (go (S (S (S (S (S n))))) "RecordBatch.Encode" [] [batch_val r; enc; VInt I16 version] mm k) e) = Panics end.
Proof.
  remember (rec (go _ "RecordBatch.Encode" _ _ mm k) e) as R eqn:ER.
  rewrite (rfind _ _ _ go_RecordBatch_Encode) in ER by reflexivity. unfold invoke, go_RecordBatch_Encode, batch_val in ER. rgo_in ER.
  repeat (bstep ER; rgo_in ER).
  rewrite records_elements in ER. cbn [want] in ER. places ER.
  unfold RecordBatch_Encode. cbv zeta. change magic with 2.
  match type of ER with _ = rec _ ?e0 => set (e1 := e0) in * end. rewrite <- encode_fold.
  match type of ER with _ = rec (each _ ?b ?M ?K) _ => 
    pose proof (each_ofold orders (fun p => message_val (fst p) (snd p)) (fun p e => encodeMessage (orders (fst p)) (snd p) version (r_FirstTimestamp r) e)
      (fun s m' e' => e' = s /\ get (S (next mm)) m' = Some enc /\ get (next mm) m' = Some (batch_val r) /\ get (S (S (next mm))) m' = Some (VInt I16 version) /\
         (exists a, get (S (S (S (next mm)))) m' = Some a) /\ grows mm m' /\ (S (S (S (S (next mm)))) <= next m')%nat) b K) as HE;
    match type of HE with ?A -> _ => assert (HA : A) end;
    [|specialize (HE HA (index 0 (items (r_Records r))) e1 M e1); clear HA; match type of HE with ?A -> _ => assert (HA : A) end; [|specialize (HE HA); clear HA]]
  end.
  - clear ER HE. intros [i m] s m1 e2 kk (-> & H1 & H2 & H3 & (a & H4) & H5 & H6). cbn [fst snd].
    match goal with |- match _ with Some s' => exists E mm' e', _ /\ ?X = _ | None => _ end => remember X as RX eqn:EX end.
    cbv beta in EX. rewrite H4 in EX. cbn [want] in EX. rewrite settle_message in EX. unfold batch_val in H2. rgo_in EX.
    match type of EX with _ = rec (call W rprog _ _ [] _ ?m2 ?k2) _ => pose proof (encode_text W orders n i m version (r_FirstTimestamp r) m2 k2 s) as Q end.
    destruct (encodeMessage (orders i) m version (r_FirstTimestamp r) s) as [s'|]; [|rewrite EX; exact Q].
    destruct Q as (m3 & G & Q). rewrite Q in EX. clear Q.
    assert (L3 := proj1 G). rewrite next_put in L3. rgo_in EX.
    eexists _, _, _. split; [|exact EX].
    assert (Go : forall l, (l < next m1)%nat -> l <> S (S (S (next mm))) -> get l m3 = get l m1).
    { intros l L N2. rewrite (proj2 G) by (rewrite next_put; exact L). apply get_put_other. exact N2. }
    split; [reflexivity|]. split; [rewrite Go by lia; exact H1|].
    split; [rewrite Go by lia; exact H2|]. split; [rewrite Go by lia; exact H3|].
    split; [eexists; rewrite (proj2 G) by (rewrite next_put; lia); apply get_put|].
    split; [|lia]. destruct H5 as [H5 H5']. split; [lia|]. intros l L. rewrite Go by lia. apply H5'. exact L.
  - split; [reflexivity|]. split; [repeat look; reflexivity|]. split; [repeat look; reflexivity|]. split; [repeat look; reflexivity|]. split; [eexists; repeat look; reflexivity|]. split; [grown|]. rewrite ?next_push, ?next_put, ?next_push. cbn [next push put]. lia.
  - destruct (ofold _ _ _) as [s'|]; [|rewrite ER; exact HE]. destruct HE as (m2 & e2 & (-> & _ & _ & _ & _ & Q5 & _) & Q).
    pose proof (eq_trans ER Q) as E2. cbn -[get recording] in E2. exists m2. split; [exact Q5|exact E2].
Qed.
End Text.
