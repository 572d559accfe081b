(** * The text of gen.record_batch.go does what the model does *)
From Coq Require Import Ascii String Lia ZArith.
From Verif Require Import GoBase GoLemmas Encoder Sizeof RecordBatch GoLang GoShare Source SourceRecords SourceClientSpec SourceClientProofs SourceRecordsSpec.
Local Open Scope string_scope.
Local Open Scope list_scope.
Local Open Scope Z_scope.
Notation rprog := records_program.

Lemma rfind W n f fn E vs m k : lookup f (k_funcs rprog) = Some fn -> call W rprog (S n) f E vs m k = invoke W rprog (call W rprog n) n fn E vs m k.
Proof. intros H. cbn [call]. rewrite H. reflexivity. Qed.
Lemma rno W n f vs m k : lookup f (k_funcs rprog) = None -> call W rprog (S n) f [] vs m k = Ask f vs m k.
Proof. intros H. cbn [call]. rewrite H. reflexivity. Qed.
Ltac rsym_in H := cbn -[get put push call recording zero_val const_val each apply Z.add Z.sub Z.leb Z.ltb Z.eqb conv wrap int8 int16 int32 int64 add32 elements_of map zlen message_vals message_val len_of operate
  PutInt8 PutInt16 PutInt32 PutInt64 PutVarInt PutVarBytes PutRecordHeader sz_VarInt sz_Bytes sz_VarString record_replies bytes_val] in H.
Ltac rgo_in H := rsym_in H; rewrite ?next_push, ?next_put in H; repeat (look_in H; rsym_in H; rewrite ?next_push, ?next_put in H).

Section Text.
Context (W : Z) (orders : nat -> list (gostring * gostring)).
Notation rec := (recording orders).
Notation go := (call W rprog).
Lemma rsay what vs mm k e f v e' : lookup what (record_replies orders) = Some f -> f vs e = Some (v, e') -> rec (Ask what vs mm k) e = rec (k v mm) e'.
Proof. intros H1 H2. cbn [recording]. rewrite H1, H2. reflexivity. Qed.

(** ** Rounds of a range, one of which may panic *)
Fixpoint ofold {A S} (step : A -> S -> option S) (xs : list A) (s : S) : option S :=
  match xs with [] => Some s | x :: xs => match step x s with Some s => ofold step xs s | None => None end end.
Lemma each_ofold {A S} (val_of : A -> val) (step : A -> S -> option S) (P : S -> mem -> Encoder -> Prop) body (k : option (list val) -> mem -> proc) :
  (forall x s mm e kk, P s mm e -> match step x s with
     | Some s' => exists E mm' e', P s' mm' e' /\ rec (body (val_of x) mm kk) e = rec (kk (On E) mm') e'
     | None => fst (rec (body (val_of x) mm kk) e) = Panics end) ->
  forall xs s mm e, P s mm e -> match ofold step xs s with
     | Some s' => exists mm' e', P s' mm' e' /\ rec (each (map val_of xs) body mm k) e = rec (k None mm') e'
     | None => fst (rec (each (map val_of xs) body mm k) e) = Panics end.
Proof.
  intros Hb. induction xs as [|x xs IH]; intros s mm e Hs; cbn [ofold map each]; [exists mm, e; auto|].
  specialize (Hb x s mm e (fun f m => match f with Leave r => k (Some r) m | _ => each (map val_of xs) body m k end) Hs). destruct (step x s) as [s'|]; [|exact Hb].
  destruct Hb as (E & mm' & e' & Hs' & ->). apply IH. exact Hs'.
Qed.
Lemma ofold_total {A S} (step : A -> S -> S) xs s : ofold (fun x s => Some (step x s)) xs s = Some (fold_left (fun s x => step x s) xs s).
Proof. revert s. induction xs as [|x xs IH]; intros s; cbn; [reflexivity|apply IH]. Qed.

(** ** MapHeader *)
Lemma get_text n i key mm k e : exists mm', grows mm mm' /\
  rec (go (S n) "MapHeader.Get" [] [map_val i; VStr key] mm k) e = rec (k (VTuple [VStr (fst (MapHeader_Get (orders i) key)); VBool (snd (MapHeader_Get (orders i) key))]) mm') e.
Proof.
  remember (rec (go (S n) "MapHeader.Get" _ _ mm k) e) as R eqn:ER.
  rewrite (rfind _ _ _ go_MapHeader_Get) in ER by reflexivity. unfold invoke, go_MapHeader_Get, map_val in ER. rgo_in ER.
  erewrite rsay in ER; [|reflexivity|reflexivity]. rgo_in ER.
  eexists. split; [|exact ER]. grown.
Qed.
Lemma range_text n i fn {S} (step : gostring -> gostring -> S -> S) (B : nat -> Prop) (P : S -> mem -> Encoder -> Prop) mm k :
  (forall l, B l -> (l < next mm)%nat) ->
  (forall s m1 m2 e, P s m1 e -> (forall l, (l < next mm)%nat -> get l m2 = get l m1) -> P s m2 e) ->
  (forall kv s m1 e kk, (next mm <= next m1)%nat -> P s m1 e -> exists w m2 e', P (step (fst kv) (snd kv) s) m2 e' /\ (next m1 <= next m2)%nat /\
     (forall l, (l < next m1)%nat -> ~ B l -> get l m2 = get l m1) /\ rec (apply (go n) fn [VStr (fst kv); VStr (snd kv)] m1 kk) e = rec (kk w m2) e') ->
  settle W GFunc fn = fn ->
  forall s e, P s mm e -> exists m2 e', P (MapHeader_Range (orders i) step s) m2 e' /\ (next mm <= next m2)%nat /\ (forall l, (l < next mm)%nat -> ~ B l -> get l m2 = get l mm) /\
    rec (go (Datatypes.S n) "MapHeader.Range" [] [map_val i; fn] mm k) e = rec (k (VTuple []) m2) e'.
Proof.
  intros HB Hst Hfn Hset s e HP.
  remember (rec (go (Datatypes.S n) "MapHeader.Range" _ _ mm k) e) as R eqn:ER.
  rewrite (rfind _ _ _ go_MapHeader_Range) in ER by reflexivity. unfold invoke, go_MapHeader_Range, map_val in ER.
  cbn [f_params arguments] in ER. rewrite Hset in ER. rgo_in ER.
  erewrite rsay in ER; [|reflexivity|reflexivity]. rgo_in ER. cbn [elements_of want] in ER.
  match type of ER with _ = rec (each _ ?b ?m ?kk) ?e0 =>
    pose proof (each_ofold (fun kv : gostring * gostring => VTuple [VStr (fst kv); VStr (snd kv)]) (fun kv s => Some (step (fst kv) (snd kv) s))
      (fun s m' e' => P s m' e' /\ (next m <= next m')%nat /\ get (Datatypes.S (next mm)) m' = Some fn /\ (exists a, get (Datatypes.S (Datatypes.S (next mm))) m' = Some a) /\ (exists a, get (Datatypes.S (Datatypes.S (Datatypes.S (next mm)))) m' = Some a) /\ (forall l, (l < next mm)%nat -> ~ B l -> get l m' = get l mm)) b kk) as HE
  end.
  match type of HE with ?A -> _ => assert (HA : A) end.
  - clear HE ER. intros kv s1 m1 e1 kk (H1 & H2 & H3 & (a & H4) & (b & H5) & H6). rewrite !next_push in H2.
    cbn -[get put push recording apply]. rewrite H4. cbn -[get put push recording apply]. rewrite get_put_other by lia. rewrite H5. cbn -[get put push recording apply].
    match goal with |- context [want (get (Datatypes.S (next mm)) ?m)] => set (m2 := m) end.
    assert (G1 : get (Datatypes.S (next mm)) m2 = Some fn) by (unfold m2; rewrite !get_put_other by lia; exact H3).
    assert (G2 : get (Datatypes.S (Datatypes.S (next mm))) m2 = Some (settle_as W a (VStr (fst kv)))) by (unfold m2; rewrite get_put_other, get_put by lia; reflexivity).
    assert (G3 : get (Datatypes.S (Datatypes.S (Datatypes.S (next mm)))) m2 = Some (settle_as W b (VStr (snd kv)))) by (unfold m2; rewrite get_put by lia; reflexivity).
    assert (G4 : next m2 = next m1) by reflexivity.
    assert (G5 : forall l, (l < next mm)%nat -> get l m2 = get l m1) by (intros l L; unfold m2; rewrite !get_put_other by lia; reflexivity).
    clearbody m2. replace (settle_as W a (VStr (fst kv))) with (VStr (fst kv)) in G2 by (destruct a; reflexivity). replace (settle_as W b (VStr (snd kv))) with (VStr (snd kv)) in G3 by (destruct b; reflexivity).
    rewrite G1, G2, G3. cbn -[get put push recording apply].
    match goal with |- context [rec (apply (go n) fn _ m2 ?q) e1] => destruct (Hfn kv s1 m2 e1 q) as (w & m3 & e3 & Q1 & Q2 & Q3 & Q4) end; [lia|eapply Hst; [exact H1|exact G5]|].
    eexists _, m3, e3. split; [|exact Q4].
    assert (NB : forall l, (next mm <= l)%nat -> ~ B l) by (intros l L Bl; apply HB in Bl; lia).
    split; [exact Q1|]. rewrite !next_push. split; [lia|]. split; [rewrite Q3 by (try apply NB; lia); exact G1|]. split; [eexists; rewrite Q3 by (try apply NB; lia); exact G2|].
    split; [eexists; rewrite Q3 by (try apply NB; lia); exact G3|]. intros l L Bl. rewrite Q3 by (try assumption; lia). rewrite G5 by lia. apply H6; assumption.
  - match type of ER with _ = rec (each _ _ ?m _) _ => specialize (HE HA (orders i) s m e) end. clear HA. rewrite ofold_total in HE. destruct HE as (m2 & e2 & (Q1 & Q2 & Q3 & Q4 & Q5 & Q6) & Q).
    { split; [eapply Hst; [exact HP|]; intros; repeat look; reflexivity|]. split; [reflexivity|]. split; [repeat look; reflexivity|]. split; [eexists; repeat look; reflexivity|]. split; [eexists; repeat look; reflexivity|].
      intros l L _. repeat look; reflexivity. }
    exists m2, e2. rewrite !next_push in Q2. split; [exact Q1|]. split; [lia|]. split; [exact Q6|]. exact (eq_trans ER Q).
Qed.

(** ** The size of a message *)
Lemma len_bytes b : len_of (bytes_val b) = Some (glen b).
Proof. destruct b; reflexivity. Qed.
Lemma zero_32 : zero_val rprog 4 (GInt I32) = Some (VInt I32 0).
Proof. reflexivity. Qed.
Lemma c_8 : const_val rprog "sizeof.Int8" = Some (VConst 1). Proof. has. Qed.
Lemma c_16 : const_val rprog "sizeof.Int16" = Some (VConst 2). Proof. has. Qed.
Lemma c_32 : const_val rprog "sizeof.Int32" = Some (VConst 4). Proof. has. Qed.
Lemma c_64 : const_val rprog "sizeof.Int64" = Some (VConst 8). Proof. has. Qed.
Lemma c_magic : const_val rprog "kafka.magic" = Some (VConst 2). Proof. has. Qed.
Lemma op_const a c : int32 c = c -> operate W Add (VInt I32 a) (VConst c) = Some (VInt I32 (add32 a c)).
Proof. intros H. unfold add32. rewrite <- H at 2. reflexivity. Qed.
Lemma op_add a c : operate W Add (VInt I32 a) (VInt I32 c) = Some (VInt I32 (add32 a c)).
Proof. reflexivity. Qed.
Lemma op_sub a c : operate W Sub (VInt I64 a) (VInt I64 c) = Some (VInt I64 (int64 (a - c))).
Proof. reflexivity. Qed.
Lemma op_ge a : operate W Ge (VInt I16 a) (VConst 2) = Some (VBool (2 <=? a)).
Proof. reflexivity. Qed.
Lemma conv_64 z : conv W I64 z = int64 z.
Proof. reflexivity. Qed.
Lemma ask_unix mm z kk e : rec (Ask "time.Time.Unix" [VStruct "time.Time" [("unix", VInt I64 z)]] mm kk) e = rec (kk (VInt I64 z) mm) e.
Proof. reflexivity. Qed.
Lemma ask_varint mm z kk e : rec (Ask "sizeof.VarInt" [VInt I64 z] mm kk) e = rec (kk (VInt I32 (sz_VarInt z)) mm) e.
Proof. reflexivity. Qed.
Lemma ask_bytes mm b kk e : rec (Ask "sizeof.Bytes" [bytes_val b] mm kk) e = rec (kk (VInt I32 (sz_Bytes b)) mm) e.
Proof. destruct b; reflexivity. Qed.
Lemma ask_string mm b kk e : rec (Ask "sizeof.VarString" [VStr b] mm kk) e = rec (kk (VInt I32 (sz_VarString b)) mm) e.
Proof. reflexivity. Qed.
Ltac rstep H := first [ rewrite zero_32 in H | rewrite c_8 in H | rewrite c_16 in H | rewrite c_32 in H | rewrite c_64 in H | rewrite c_magic in H | rewrite len_bytes in H | rewrite op_const in H by reflexivity
  | rewrite op_add in H | rewrite op_sub in H | rewrite conv_64 in H | rewrite rno in H by has | rewrite ask_unix in H | rewrite ask_varint in H | rewrite ask_bytes in H | rewrite ask_string in H ].
Lemma sizeof_text n i m version bo ft mm k e : exists mm', grows mm mm' /\
  rec (go (S (S (S (S n)))) "kafka.sizeofMessage" [] [message_val i m; VInt I16 version; VInt I64 bo; VInt I64 ft] mm k) e
  = rec (k (VInt I32 (sizeofMessage (orders i) m version bo ft)) mm') e.
Proof.
  remember (rec (go _ "kafka.sizeofMessage" _ _ mm k) e) as R eqn:ER.
  rewrite (rfind _ _ _ go_kafka_sizeofMessage) in ER by reflexivity. unfold invoke, go_kafka_sizeofMessage, message_val in ER. rgo_in ER.
  repeat (rstep ER; rgo_in ER). rewrite op_ge in ER. rsym_in ER.
  unfold sizeofMessage. change magic with 2. change sz_Int8 with 1. cbv zeta.
  destruct (2 <=? version); cbn [andb].
  2: { rgo_in ER. eexists. split; [|exact ER]. grown. }
  destruct (m_header m).
  2: { cbn [operate binary is_nil option_map] in ER. rgo_in ER. eexists. split; [|exact ER]. grown. }
  unfold map_val in ER at 1. cbn [operate binary is_nil option_map] in ER. rsym_in ER.
  match type of ER with _ = rec (go _ "MapHeader.Range" _ [_; ?f] ?M ?K) _ => set (M0 := M) in ER; set (K0 := K) in ER; set (f0 := f) in ER end.
  assert (N0 : next M0 = S (S (S (S (S (next mm)))))) by reflexivity.
  assert (G0 : grows mm M0) by (unfold M0; grown).
  match goal with |- exists mm', _ /\ _ = rec (k (VInt I32 (MapHeader_Range _ ?st ?z)) _) _ =>
    assert (Z0 : get (S (S (S (S (next mm))))) M0 = Some (VInt I32 z)) by (unfold M0; look; reflexivity);
    destruct (range_text (S (S n)) i f0 st (eq (S (S (S (S (next mm)))))) (fun s m' e' => e' = e /\ get (S (S (S (S (next mm))))) m' = Some (VInt I32 s)) M0 K0) with (s := z) (e := e) as (m2 & e2 & (Q1 & Q2) & Q3 & Q4 & Q5)
  end.
  - intros l <-. rewrite N0. lia.
  - intros s m1 m2 e1 [-> H1] H2. split; [reflexivity|]. rewrite H2 by (rewrite N0; lia). exact H1.
  - clear ER. intros [a b] s m1 e1 kk L [-> H]. cbn [fst snd]. rewrite N0 in L. clearbody M0. clear Z0 G0 N0 K0.
    remember (rec (apply (go (S (S n))) f0 _ m1 kk) e) as X eqn:EX.
    unfold f0 in EX. cbn [apply] in EX. rewrite (rfind _ _ _ go_kafka_sizeofMessage_func1) in EX by reflexivity. unfold invoke, go_kafka_sizeofMessage_func1 in EX. rgo_in EX.
    repeat (rstep EX; rgo_in EX).
    eexists _, _, _. split; [|split; [|split; [|exact EX]]].
    + split; [reflexivity|]. look. reflexivity.
    + rewrite ?next_put, ?next_push. lia.
    + intros l L1 L2. repeat look. reflexivity.
  - reflexivity.
  - split; [reflexivity|exact Z0].
  - rewrite Q5 in ER. subst e2. unfold K0 in ER. cbn -[get recording] in ER. rewrite Q2 in ER. cbn -[get recording] in ER. eexists. split; [|exact ER].
    destruct G0 as [G1 G2]. split; [lia|]. intros l L. rewrite Q4 by (rewrite ?N0; lia). apply G2. exact L.
Qed.

(** ** Encoding a message *)
Notation enc := (VHandle "message.Encoder" 0).
Lemma ask_8 mm z kk e : rec (Ask "message.Encoder.PutInt8" [enc; VInt I8 z] mm kk) e = rec (kk (VTuple []) mm) (PutInt8 z e).
Proof. reflexivity. Qed.
Lemma ask_8_0 mm kk e : rec (Ask "message.Encoder.PutInt8" [enc; VConst 0] mm kk) e = rec (kk (VTuple []) mm) (PutInt8 0 e).
Proof. reflexivity. Qed.
Lemma ask_8_2 mm kk e : rec (Ask "message.Encoder.PutInt8" [enc; VConst 2] mm kk) e = rec (kk (VTuple []) mm) (PutInt8 2 e).
Proof. reflexivity. Qed.
Lemma ask_16 mm z kk e : rec (Ask "message.Encoder.PutInt16" [enc; VInt I16 z] mm kk) e = rec (kk (VTuple []) mm) (PutInt16 z e).
Proof. reflexivity. Qed.
Lemma ask_32 mm z kk e : rec (Ask "message.Encoder.PutInt32" [enc; VInt I32 z] mm kk) e = rec (kk (VTuple []) mm) (PutInt32 z e).
Proof. reflexivity. Qed.
Lemma ask_64 mm z kk e : rec (Ask "message.Encoder.PutInt64" [enc; VInt I64 z] mm kk) e = rec (kk (VTuple []) mm) (PutInt64 z e).
Proof. reflexivity. Qed.
Lemma ask_var mm z kk e : rec (Ask "message.Encoder.PutVarInt" [enc; VInt I64 z] mm kk) e = rec (kk (VTuple []) mm) (PutVarInt z e).
Proof. reflexivity. Qed.
Lemma ask_var_0 mm kk e : rec (Ask "message.Encoder.PutVarInt" [enc; VConst 0] mm kk) e = rec (kk (VTuple []) mm) (PutVarInt 0 e).
Proof. reflexivity. Qed.
Lemma ask_varbytes mm b kk e : rec (Ask "message.Encoder.PutVarBytes" [enc; bytes_val b] mm kk) e = rec (kk (VTuple []) mm) (PutVarBytes b e).
Proof. destruct b; reflexivity. Qed.
Lemma ask_header mm a b kk e : rec (Ask "message.Encoder.PutRecordHeader" [enc; VStr a; VStr b] mm kk) e = rec (kk (VTuple []) mm) (PutRecordHeader a b e).
Proof. reflexivity. Qed.
Ltac estep H := first [ rstep H | rewrite ask_8 in H | rewrite ask_8_0 in H | rewrite ask_8_2 in H | rewrite ask_16 in H | rewrite ask_32 in H | rewrite ask_64 in H | rewrite ask_var in H | rewrite ask_var_0 in H
  | rewrite ask_varbytes in H | (rewrite (rfind _ _ "Message.Size" go_Message_Size) in H by reflexivity; unfold invoke, go_Message_Size in H) ].
Lemma encode_text n i m version ft mm k e : match encodeMessage (orders i) m version ft e with
  | Some e' => exists mm', grows mm mm' /\ rec (go (S (S (S (S n)))) "kafka.encodeMessage" [] [message_val i m; enc; VInt I16 version; VInt I64 ft] mm k) e = rec (k (VTuple []) mm') e'
  | None => fst (rec (go (S (S (S (S n)))) "kafka.encodeMessage" [] [message_val i m; enc; VInt I16 version; VInt I64 ft] mm k) e) = Panics end.
Proof.
  remember (rec (go _ "kafka.encodeMessage" _ _ mm k) e) as R eqn:ER.
  rewrite (rfind _ _ _ go_kafka_encodeMessage) in ER by reflexivity. unfold invoke, go_kafka_encodeMessage, message_val in ER. rgo_in ER.
  repeat (estep ER; rgo_in ER).
  unfold encodeMessage. cbv zeta. change (int64 (Message_Size version m)) with (int64 0).
  match type of ER with _ = rec _ ?e0 => set (e1 := e0) in * end.
  destruct (m_header m).
  2: { rsym_in ER. rewrite ER. reflexivity. }
  unfold map_val in ER at 1. rsym_in ER.
  match type of ER with _ = rec (go _ "MapHeader.Range" _ [_; ?f] ?M ?K) _ => set (M0 := M) in ER; set (K0 := K) in ER; set (f0 := f) in ER end.
  assert (G0 : grows mm M0) by (unfold M0; grown).
  destruct (range_text (S (S n)) i f0 PutRecordHeader (fun _ => False) (fun s m' e' => e' = s) M0 K0) with (s := e1) (e := e1) as (m2 & e2 & Q1 & Q3 & Q4 & Q5).
  - intros l [].
  - intros s m1 m2 e2 H _. exact H.
  - intros [a b] s m1 e2 kk L ->. cbn [fst snd]. exists (VTuple []), m1, (PutRecordHeader a b s). split; [reflexivity|]. split; [lia|]. split; [reflexivity|]. reflexivity.
  - reflexivity.
  - reflexivity.
  - exists m2. split; [|exact (eq_trans ER (eq_trans Q5 (f_equal _ Q1)))].
    destruct G0 as [G1 G2]. split; [lia|]. intros l L. rewrite Q4 by (try tauto; lia). apply G2. exact L.
Qed.
End Text.
