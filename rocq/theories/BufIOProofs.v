(** * Proofs about the buffered writer *)
From Verif Require Import GoBase GoLemmas Encoder Spec EncProofs Calls BufIO RingSpec RingProofs.
Local Open Scope Z_scope.
Ltac Zify.zify_post_hook ::= idtac.

Definition sent_bytes (b : bufio) : list Z := concat (b_sent b).
Definition all_bytes (b : bufio) : list Z := sent_bytes b ++ b_buf b.

(** [b'] comes from [b] by writing [data]: as long as there is no error,
    everything is sent or pending; when an error occurs, what has been sent is a
    prefix of what should have been; after an error nothing changes. *)
Definition took (b b' : bufio) (data : list Z) : Prop :=
  (exists more, b_sent b' = b_sent b ++ more) /\
  match b_err b with
  | Some x => b' = b
  | None => match b_err b' with
            | None => all_bytes b' = all_bytes b ++ data
            | Some _ => prefix (sent_bytes b') (all_bytes b ++ data)
            end
  end.
Definition small (b : bufio) : Prop := b_err b = None -> zlen (b_buf b) <= buf_size.

Lemma prefix_app a b c : prefix a b -> prefix a (b ++ c).
Proof. intros [x ->]. exists (x ++ c). rewrite app_assoc. reflexivity. Qed.
Lemma prefix_refl a : prefix a a.
Proof. exists []. rewrite app_nil_r. reflexivity. Qed.
Lemma prefix_firstn k (a : list Z) : prefix (firstn k a) a.
Proof. exists (skipn k a). rewrite firstn_skipn. reflexivity. Qed.
Lemma prefix_cancel a b c : prefix b c -> prefix (a ++ b) (a ++ c).
Proof. intros [x ->]. exists x. rewrite app_assoc. reflexivity. Qed.

Lemma took_refl b : took b b [].
Proof.
  split; [exists []; rewrite app_nil_r; reflexivity|]. destruct (b_err b) eqn:E; [reflexivity|]. rewrite app_nil_r. reflexivity.
Qed.
Lemma took_trans b b1 b2 d1 d2 : took b b1 d1 -> took b1 b2 d2 -> took b b2 (d1 ++ d2).
Proof.
  intros [[m1 E1] H1] [[m2 E2] H2]. split; [exists (m1 ++ m2); rewrite E2, E1, app_assoc; reflexivity|].
  destruct (b_err b) as [x|] eqn:Eb.
  - subst b1. rewrite Eb in H2. exact H2.
  - destruct (b_err b1) as [x|] eqn:Eb1.
    + subst b2. rewrite Eb1, app_assoc. apply prefix_app, H1.
    + rewrite H1 in H2. rewrite app_assoc. exact H2.
Qed.

Lemma sent_snoc b x buf err log : sent_bytes (mkBuf buf err log (b_sent b ++ [x])) = sent_bytes b ++ x.
Proof. unfold sent_bytes. cbn [b_sent]. rewrite concat_app. cbn [concat]. rewrite app_nil_r. reflexivity. Qed.
Lemma accepted_prefix r data : prefix (accepted r data) data.
Proof. destruct r as [[n x]|]; cbn [accepted]; [apply prefix_firstn|apply prefix_refl]. Qed.

Lemma flush_took c b : took b (b_flush c b) [] /\ small (b_flush c b) /\ (b_err (b_flush c b) = None -> b_buf (b_flush c b) = []).
Proof.
  unfold b_flush. destruct (b_err b) as [x|] eqn:Eb.
  - split; [apply took_refl|]. split; [intros F; congruence|intros F; congruence].
  - destruct (b_buf b) as [|y buf] eqn:Ebuf.
    + split; [apply took_refl|]. split; [intros _; rewrite Ebuf; unfold zlen, buf_size; cbn; lia|auto].
    + set (d := y :: buf). destruct (c_write c (b_log b) d) as [[n x]|] eqn:Ew.
      * split; [|split; intros F; discriminate]. split; [eexists; cbn [b_sent]; reflexivity|]. rewrite Eb. cbn [b_err].
        rewrite sent_snoc, app_nil_r. unfold all_bytes. rewrite Ebuf. apply prefix_cancel, accepted_prefix.
      * split; [|split; [intros _; unfold zlen, buf_size; cbn; lia|auto]]. split; [eexists; cbn [b_sent]; reflexivity|]. rewrite Eb. cbn [b_err].
        unfold all_bytes at 1. rewrite sent_snoc. cbn [b_buf accepted]. rewrite !app_nil_r. unfold all_bytes. rewrite Ebuf. reflexivity.
Qed.

Lemma write_loop_took c : forall fuel data b, small b ->
  (length data + (if (zlen (b_buf b) =? buf_size)%Z then 2 else 1) <= fuel)%nat ->
  took b (b_write_loop fuel c data b) data /\ small (b_write_loop fuel c data b).
Proof.
  induction fuel as [|fuel IH]; intros data b Hs Hf; [destruct (zlen (b_buf b) =? buf_size); lia|].
  cbn [b_write_loop]. destruct (b_err b) as [x|] eqn:Eb.
  - split; [|intros F; congruence]. split; [exists []; rewrite app_nil_r; reflexivity|]. rewrite Eb. reflexivity.
  - specialize (Hs Eb). destruct (Z.ltb_spec (buf_size - zlen (b_buf b)) (zlen data)) as [Hl|Hl].
    + destruct ((zlen (b_buf b) =? 0) && c_direct c (b_log b) data) eqn:Ed.
      * apply andb_prop in Ed. destruct Ed as [E0 _]. apply Z.eqb_eq in E0.
        assert (Enil : b_buf b = []) by (destruct (b_buf b); [reflexivity|unfold zlen in E0; cbn in E0; lia]).
        destruct (c_write c (b_log b) data) as [[n x]|] eqn:Ew.
        -- split; [|intros F; discriminate]. split; [eexists; cbn [b_sent]; reflexivity|]. rewrite Eb. cbn [b_err].
           rewrite sent_snoc. unfold all_bytes. rewrite Enil, app_nil_r. apply prefix_cancel, accepted_prefix.
        -- split; [|intros _; unfold zlen, buf_size; cbn; lia]. split; [eexists; cbn [b_sent]; reflexivity|]. rewrite Eb. cbn [b_err].
           unfold all_bytes at 1. rewrite sent_snoc. cbn [b_buf accepted]. unfold all_bytes. rewrite Enil, !app_nil_r. reflexivity.
      * set (avail := Z.to_nat (buf_size - zlen (b_buf b))).
        set (b1 := mkBuf (b_buf b ++ firstn avail data) None (b_log b) (b_sent b)).
        destruct (flush_took c b1) as (T & S1 & Hnil).
        assert (T1 : took b b1 (firstn avail data)).
        { split; [exists []; cbn [b1 b_sent]; rewrite app_nil_r; reflexivity|]. rewrite Eb. cbn [b1 b_err]. unfold all_bytes, sent_bytes.
          cbn [b1 b_sent b_buf]. rewrite app_assoc. reflexivity. }
        destruct (b_err (b_flush c b1)) as [x|] eqn:Ef.
        -- assert (E : b_write_loop fuel c (skipn avail data) (b_flush c b1) = b_flush c b1).
           { destruct fuel; [reflexivity|]. cbn [b_write_loop]. rewrite Ef. reflexivity. }
           rewrite E. split; [|exact S1]. enough (G : took b (b_flush c b1) (firstn avail data ++ skipn avail data)) by (rewrite firstn_skipn in G; exact G).
           apply (took_trans b b1); [exact T1|]. split; [apply T|]. destruct T as [_ T]. cbn [b1 b_err] in *. rewrite Ef in *.
           rewrite app_nil_r in T. apply prefix_app, T.
        -- specialize (Hnil eq_refl).
           destruct (IH (skipn avail data) (b_flush c b1) S1) as [T2 S2].
           { rewrite Hnil. change (zlen [] =? buf_size) with false. cbn match. rewrite skipn_length.
             unfold avail, zlen in *. destruct (Z.eqb_spec (Z.of_nat (length (b_buf b))) buf_size); lia. }
           split; [|exact S2].
           enough (G : took b (b_write_loop fuel c (skipn avail data) (b_flush c b1)) (firstn avail data ++ skipn avail data)) by (rewrite firstn_skipn in G; exact G).
           apply (took_trans b b1); [exact T1|]. apply (took_trans b1 _ _ _ _ T T2).
    + split.
      * split; [exists []; cbn [b_sent]; rewrite app_nil_r; reflexivity|]. rewrite Eb. cbn [b_err]. unfold all_bytes, sent_bytes.
        cbn [b_sent b_buf]. rewrite app_assoc. reflexivity.
      * intros _. cbn [b_buf]. rewrite zlen_app. lia.
Qed.
Lemma write_took c data b : small b -> took b (b_write c data b) data /\ small (b_write c data b).
Proof. intros Hs. apply write_loop_took; [exact Hs|]. destruct (zlen (b_buf b) =? buf_size); lia. Qed.

Lemma took_err b b' data x : took b b' data -> b_err b = Some x -> b' = b.
Proof. intros [_ H] E. rewrite E in H. exact H. Qed.

Lemma replay_snoc c log d b : replay c (log ++ [d]) b = b_write c d (replay c log b).
Proof. unfold replay. rewrite fold_left_app. reflexivity. Qed.

(** An encoder over the buffered writer that started in state [b]. *)
Definition over (c : rawconn) (b : bufio) (e : Encoder) : Prop :=
  t_write (e_target e) = t_write (target_of c b) /\ t_flush (e_target e) = t_flush (target_of c b).

Lemma run_chunks_over c b : forall cs e, over c b e -> small (replay c (t_log (e_target e)) b) ->
  (forall x, e_err e = Some x -> b_err (replay c (t_log (e_target e)) b) = Some x) ->
  let e' := run_chunks cs e in
  let b' := replay c (t_log (e_target e')) b in
  over c b e' /\ small b' /\ (forall x, e_err e' = Some x -> b_err b' = Some x) /\
  (e_err e' = None -> e_err e = None) /\
  took (replay c (t_log (e_target e)) b) b' (concat cs).
Proof.
  induction cs as [|d cs IH]; intros e Ho Hs Hx; cbn zeta.
  - split; [exact Ho|]. split; [exact Hs|]. split; [exact Hx|]. split; [auto|apply took_refl].
  - change (run_chunks (d :: cs) e) with (run_chunks cs (put_chunk d e)). unfold put_chunk.
    destruct (e_err e) as [x|] eqn:Ee.
    + rewrite (run_chunks_err cs e x Ee). split; [exact Ho|]. split; [exact Hs|]. split; [rewrite Ee; exact Hx|].
      split; [congruence|]. specialize (Hx x eq_refl). split; [exists []; rewrite app_nil_r; reflexivity|]. rewrite Hx. reflexivity.
    + destruct (write_took c d _ Hs) as [T1 S1].
      assert (Elog : t_log (e_target (write d e)) = t_log (e_target e) ++ [d]) by reflexivity.
      assert (Eerr : e_err (write d e) = b_err (b_write c d (replay c (t_log (e_target e)) b))).
      { cbn [write e_err]. rewrite (proj1 Ho). reflexivity. }
      destruct (IH (write d e)) as (H1 & H2 & H3 & H4 & H5).
      * split; cbn [write e_target t_write t_flush]; apply Ho.
      * rewrite Elog, replay_snoc. exact S1.
      * intros x Ex. rewrite Elog, replay_snoc, <- Eerr. exact Ex.
      * split; [exact H1|]. split; [exact H2|]. split; [exact H3|]. split; [auto|]. cbn [concat].
        apply (took_trans _ (replay c (t_log (e_target (write d e))) b)); [|exact H5]. rewrite Elog, replay_snoc. exact T1.
Qed.

Lemma transmit_ok c act cs err b err' b' fl : Runs act cs -> small b -> (forall x, err = Some x -> b_err b = Some x) ->
  transmit c act err b = (err', b', fl) ->
  took b b' (concat cs) /\ small b' /\ fl = b_err b' /\ (forall x, err' = Some x -> b_err b' = Some x) /\
  (fl = None -> b_buf b' = []).
Proof.
  intros HR Hs Hx H. unfold transmit in H. rewrite (HR (mkEncoder (target_of c b) err)) in H.
  destruct (run_chunks_over c b cs (mkEncoder (target_of c b) err)) as (H1 & H2 & H3 & H4 & H5); try assumption.
  { split; reflexivity. }
  cbn [e_target target_of t_log e_err] in *. change (replay c [] b) with b in H5.
  set (e := run_chunks cs (mkEncoder (target_of c b) err)) in *. unfold Flush in H.
  destruct (e_err e) as [x|] eqn:Ee; injection H as <- <- <-.
  - split; [exact H5|]. split; [exact H2|]. split; [symmetry; apply H3; reflexivity|]. split; [exact H3|discriminate].
  - destruct (flush_took c (replay c (t_log (e_target e)) b)) as (T & S1 & Hnil).
    split; [rewrite <- (app_nil_r (concat cs)); apply (took_trans _ _ _ _ _ H5 T)|]. split; [exact S1|].
    rewrite (proj2 H1). cbn [target_of t_flush]. split; [reflexivity|]. split; [discriminate|exact Hnil].
Qed.
