(** * The message properties, proved (stated again in P_Messages.v) *)
From Coq Require String.
From Verif Require Import GoBase Binary Utf8 Encoder Decoder Sizeof Calls Spec SchemaSpec GoLemmas
  EncProofs DecProofs VarProofs Utf8Proofs SizeProofs PrimProofs Schema Link Msg01 Msg02 AllMessages MsgProofs CodecProps.
Local Open Scope list_scope.
Local Open Scope Z_scope.

Section One.
Context (name : String.string) (c : codec) (H : In (name, c) all_codecs).
Let L := codec_linked name c H.

Lemma message_output : forall v m, exists bs, forall e, reliable e ->
  reliable (c_encode c v m e) /\ output (c_encode c v m e) = output e ++ bs /\
  exists new, t_log (e_target (c_encode c v m e)) = t_log (e_target e) ++ new.
Proof.
  intros v m. exists (wires (c_schema c) v (c_to c m)). intros e He.
  destruct (linked_emits c L v m e He) as [H1 H2]. split; [exact H1|]. split; [exact H2|].
  rewrite (linked_runs c L v m e). apply run_grows.
Qed.

Lemma messages_local : forall v old, Local (c_decode c v old).
Proof. exact (linked_local c L). Qed.
Lemma messages_bounded : forall v old, Bounded (c_decode c v old).
Proof. exact (linked_bounded c L). Qed.

Lemma messages_panic : forall v, safes (c_schema c) v = false ->
  exists bs, Forall is_byte bs /\ forall old d rest, dec_ok d -> frame d = bs ++ rest -> c_decode c v old d = DPanic.
Proof.
  intros v Hs. destruct (linked_panics c L v Hs) as (bs & Hb & Hp). exists bs. split; [exact Hb|].
  intros old. apply Hp.
Qed.
Lemma messages_nopanic : forall v, safes (c_schema c) v = true -> forall old d, dec_ok d -> c_decode c v old d <> DPanic.
Proof. intros v Hs old. apply (linked_nopanic c L v old Hs). Qed.

Lemma size_is_length : forall v m, exists bs, Emits (c_encode c v m) bs /\ c_size c v m = int32 (zlen bs).
Proof. intros v m. eexists. split; [apply (linked_emits c L)|apply (linked_size c L)]. Qed.

Lemma round_trip : forall v m, fit (c_schema c) v (c_to c m) ->
  exists bs m', Emits (c_encode c v m) bs /\ Decodes (c_decode c v (c_zero c)) bs m' /\
    c_to c m' = receive (c_schema c) v (zeros (c_schema c)) (c_to c m).
Proof.
  intros v m Hf. eexists. eexists. split; [apply (linked_emits c L)|].
  split; [apply (linked_decodes c L), Hf|]. rewrite (l_to_of c L), (l_zero c L). reflexivity.
Qed.

Lemma fields_faithful : (forall m1 m2, c_to c m1 = c_to c m2 -> m1 = m2) /\ (forall x, exists m, c_to c m = x) /\
  c_to c (c_zero c) = zeros (c_schema c).
Proof.
  split; [|split].
  - intros m1 m2 E. rewrite <- (l_of_to c L m1), <- (l_of_to c L m2), E. reflexivity.
  - intros x. exists (c_of c x). apply (l_to_of c L).
  - apply (l_zero c L).
Qed.

Lemma truncated : forall v m, fit (c_schema c) v (c_to c m) -> forall old bs, Emits (c_encode c v m) bs ->
  forall d k, dec_ok d -> (k < length bs)%nat -> frame d = firstn k bs ->
  exists e d', c_decode c v old d = DErr e d' /\ IsInsufficientDataError e = true.
Proof.
  intros v m Hf old bs Hb d k Hd Hk Hfr.
  assert (bs = wires (c_schema c) v (c_to c m)) by (eapply Emits_inj; [exact Hb|apply (linked_emits c L)]).
  subst bs. destruct (linked_starves c L v old m Hf d k Hd Hk Hfr) as [d' E]. exists ErrShortBuffer, d'. auto.
Qed.

Lemma injective : forall v m1 m2 bs1 bs2 r1 r2,
  fit (c_schema c) v (c_to c m1) -> fit (c_schema c) v (c_to c m2) ->
  Emits (c_encode c v m1) bs1 -> Emits (c_encode c v m2) bs2 -> bs1 ++ r1 = bs2 ++ r2 ->
  bs1 = bs2 /\
  receive (c_schema c) v (zeros (c_schema c)) (c_to c m1) = receive (c_schema c) v (zeros (c_schema c)) (c_to c m2).
Proof.
  intros v m1 m2 bs1 bs2 r1 r2 F1 F2 E1 E2 E.
  assert (bs1 = wires (c_schema c) v (c_to c m1)) by (eapply Emits_inj; [exact E1|apply (linked_emits c L)]).
  assert (bs2 = wires (c_schema c) v (c_to c m2)) by (eapply Emits_inj; [exact E2|apply (linked_emits c L)]).
  subst. pose proof (linked_decodes c L v (c_zero c) m1 F1) as D1. pose proof (linked_decodes c L v (c_zero c) m2 F2) as D2.
  destruct (Decodes_prefix _ _ _ _ _ _ _ D1 D2 E) as [Eb Em]. split; [exact Eb|].
  apply (f_equal (c_to c)) in Em. rewrite !(l_to_of c L), (l_zero c L) in Em. exact Em.
Qed.

Lemma sequence : forall v ms, (forall m, In m ms -> fit (c_schema c) v (c_to c m)) ->
  exists bs ms', Emits (foreach (c_encode c v) ms) bs /\
    Decodes (repeat_dec (length ms) (c_decode c v (c_zero c))) bs ms' /\
    map (c_to c) ms' = map (fun m => receive (c_schema c) v (zeros (c_schema c)) (c_to c m)) ms.
Proof.
  intros v ms Hf.
  exists (flat_map (fun m => wires (c_schema c) v (c_to c m)) ms),
    (map (fun m => c_of c (receive (c_schema c) v (c_to c (c_zero c)) (c_to c m))) ms).
  split; [|split].
  - rewrite <- (concat_flat_map (fun m => gchunkss (c_schema c) v (c_to c m))).
    + apply Runs_Emits, Runs_foreach. intros m _. apply (linked_runs c L).
    + intros m _. apply (proj2 gchunks_wire).
  - apply Decodes_repeat. intros m Hm. apply (linked_decodes c L), Hf, Hm.
  - rewrite map_map. apply map_ext. intros m. rewrite (l_to_of c L), (l_zero c L). reflexivity.
Qed.

Lemma layout : forall v m, Emits (c_encode c v m) (wires (c_schema c) v (c_to c m)).
Proof. exact (linked_emits c L). Qed.

Lemma failing_writer : forall v m t, t_log t = [] ->
  let e := c_encode c v m (NewEncoder t) in
  exists bs rest, Emits (c_encode c v m) bs /\ bs = output e ++ rest /\
    (forall k x, failed_at (e_target e) k x -> length (t_log (e_target e)) = S k /\ Flush e = Some x) /\
    ((forall k x, ~ failed_at (e_target e) k x) -> rest = []).
Proof.
  intros v m t Ht e. exists (wires (c_schema c) v (c_to c m)).
  pose proof (linked_runs c L v m) as R. unfold Runs in R.
  assert (T : tracks e) by (unfold e; rewrite R; apply tracks_run, tracks_new, Ht).
  destruct (run_chunks_prefix (gchunkss (c_schema c) v (c_to c m)) (NewEncoder t)) as (done & rest & E & Hl & Hr).
  rewrite <- R in Hl, Hr. fold e in Hl, Hr. cbn [NewEncoder e_target] in Hl. rewrite Ht in Hl. cbn [app] in Hl.
  exists (concat rest). split; [apply (linked_emits c L)|]. split.
  - rewrite <- (proj2 gchunks_wire), E, concat_app. unfold output. rewrite Hl. reflexivity.
  - split; [intros k x; apply tracks_flush, T|]. intros Hn. rewrite Hr; [reflexivity|].
    unfold tracks in T. destruct (e_err e) as [x|]; [|reflexivity]. destruct T as (k & _ & Hk & _). exfalso. eapply Hn, Hk.
Qed.
End One.

Lemma receive_whole :
  (forall t v x, whole t v x -> seen t v x = x) /\
  (forall fs v old x, wholes fs v x -> receive fs v old x = x).
Proof.
  apply schema_mind; cbn [whole wholes seen receive]; intros; try reflexivity.
  - destruct x; [reflexivity|congruence].
  - destruct x as [l|]; [|contradiction]. cbn [items]. f_equal. rewrite <- (map_id l) at 2. apply map_ext_in.
    intros y Hy. rewrite Forall_forall in H0. apply H, H0, Hy.
  - destruct x. reflexivity.
  - destruct H1 as (-> & Ht & Hr). rewrite H, H0 by assumption. destruct x. reflexivity.
Qed.

Lemma round_trip_same name c (H : In (name, c) all_codecs) : forall v m,
  fit (c_schema c) v (c_to c m) -> wholes (c_schema c) v (c_to c m) ->
  exists bs, Emits (c_encode c v m) bs /\ Decodes (c_decode c v (c_zero c)) bs m.
Proof.
  intros v m Hf Hw. destruct (round_trip name c H v m Hf) as (bs & m' & He & Hd & E).
  rewrite (proj2 receive_whole) in E by exact Hw. apply (proj1 (fields_faithful name c H)) in E. subst m'. eauto.
Qed.

(** ** Samples *)
Definition sample_response : FetchResponse :=
  mkFetchResponse 100 0 5 (Some [mkFetchableTopicResponse1 [116; 49]
    (Some [mkFetchablePartitionResponse1 0 0 42 40 1 (Some [mkAbortedTransaction1 7 3]) (-1) (Some [1; 2; 3])])]).
Definition sample_request : MetadataRequest :=
  mkMetadataRequest (Some [mkMetadataRequestTopic3 [97]; mkMetadataRequestTopic3 []]) true false true.

Lemma samples_ok : fit FetchResponse_schema 11 (c_to FetchResponse_codec sample_response) /\
  fit MetadataRequest_schema 9 (c_to MetadataRequest_codec sample_request) /\
  wholes FetchResponse_schema 11 (c_to FetchResponse_codec sample_response).
Proof.
  unfold sample_response, sample_request.
  repeat first
    [ match goal with
      | |- _ /\ _ => split | |- True => exact I | |- ?a = ?b => reflexivity | |- _ -> _ => intro
      | |- Some _ <> None => discriminate
      | |- Forall _ [] => constructor | |- Forall _ (_ :: _) => constructor
      | |- is_int16 _ => unfold is_int16; lia | |- is_int32 _ => unfold is_int32; lia | |- is_int64 _ => unfold is_int64; lia
      | |- _ < _ => reflexivity end
    | progress cbn ].
Qed.

Lemma null_records_panic : exists bs, Forall is_byte bs /\
  FetchResponse_Decode 11 FetchResponse_zero (NewDecoder bs (zlen bs)) = DPanic.
Proof.
  exists (be 4 0 ++ be 2 0 ++ be 4 0 ++ be 4 1 ++ be 2 0 ++ be 4 1 ++
          be 4 0 ++ be 2 0 ++ be 8 0 ++ be 8 0 ++ be 8 0 ++ be 4 0 ++ be 4 0 ++ be 4 (-1)).
  split; [repeat (apply bytes_app; [apply be_bytes|]); apply be_bytes|]. vm_compute. reflexivity.
Qed.

Fixpoint distinct (l : list String.string) : bool :=
  match l with [] => true | x :: l' => negb (existsb (String.eqb x) l') && distinct l' end.
Lemma distinct_NoDup l : distinct l = true -> NoDup l.
Proof.
  induction l as [|x l IH]; cbn [distinct]; [constructor|]. intros H. apply andb_true_iff in H. destruct H as [H1 H2].
  constructor; [|apply IH, H2]. intros Hin. apply negb_true_iff in H1.
  assert (existsb (String.eqb x) l = true); [|congruence]. apply existsb_exists. exists x. split; [exact Hin|apply String.eqb_refl].
Qed.
Lemma codec_names_distinct : NoDup (map fst all_codecs).
Proof. apply distinct_NoDup. vm_compute. reflexivity. Qed.
