(** * Responses held by callers while the connection goes on *)
From Coq Require Import String.
From Verif Require Import GoBase GoLemmas Encoder Decoder Spec SchemaSpec EncProofs DecProofs Schema Link AllMessages Alias BufIO Msg01 Conn ConnSpec ConnProofs ConnProps ConnFrames.
Local Open Scope Z_scope.
Local Open Scope list_scope.
Ltac Zify.zify_post_hook ::= idtac.

Lemma mread_rbuf {R} (s s' : conn R) bs e : cstep s (MRead bs) = Some (s', e) -> s_crashed s' = false -> s_rbuf s' = overwrite (s_rbuf s) bs.
Proof.
  intros H Hcr. unfold cstep in H. destruct (s_crashed s); [discriminate|]. unfold loop_read in H. destruct (s_mpc s); try discriminate.
  - destruct (zlen bs =? 4); [|discriminate]. cbn zeta in H. destruct (dInt32 _); injection H as <- <-; try reflexivity. discriminate.
  - destruct (_ && _); [|discriminate]. cbn zeta in H. destruct (ResponseHeader_Decode _ _ _); injection H as <- <-; try reflexivity. discriminate.
Qed.

Lemma window_app bs buf o n : zlen bs <= o -> zlen bs <= zlen buf -> window (overwrite buf bs) o n = window buf o n.
Proof.
  intros H1 H2. unfold window, overwrite. f_equal. unfold zlen in *. rewrite skipn_app. rewrite skipn_all2 by lia. cbn [app]. rewrite skipn_skipn'. f_equal. lia.
Qed.

(** A step changes what the holder of a response sees only if it is a read, and a
    read changes it iff it changes the bytes of one of its windows. *)
Lemma held_changes {R} raw cap (sched : list (clabel R)) s evs a s' e : 4 <= cap -> executes raw cap sched s evs -> legal a -> cstep s a = Some (s', e) -> s_crashed s' = false ->
  forall fs (r : vdens fs),
  resolves fs (s_rbuf s') r = resolves fs (s_rbuf s) r <->
  match a with MRead bs => forall o n, In (o, n) (windowss fs r) -> window (overwrite (s_rbuf s) bs) o n = window (s_rbuf s) o n | _ => True end.
Proof.
  intros Hc Hx Hl H Hcr fs r. destruct (is_read a) as [[bs ->]|Hn].
  - rewrite (mread_rbuf _ _ _ _ H Hcr). apply resolve_iff.
  - destruct (other_step _ _ _ _ Hl Hn H) as (_ & _ & ->). split; [|reflexivity]. intros _. destruct a; try exact I. exfalso. eapply Hn. reflexivity.
Qed.

Definition other_byte (b : Z) : Z := if b =? 0 then 1 else 0.
Lemma other_byte_neq b : other_byte b <> b.
Proof. unfold other_byte. destruct (Z.eqb_spec b 0); lia. Qed.
Lemma map_other l : l <> [] -> map other_byte l <> l.
Proof. destruct l as [|b l]; [congruence|]. intros _ F. injection F as F _. exact (other_byte_neq b F). Qed.

(** Every response with a non-empty byte field can be altered by the next frame. *)
Lemma next_frame_alters {R} raw cap (sched : list (clabel R)) s evs fs v size r d' : 4 <= cap -> executes raw cap sched s evs ->
  s_crashed s = false -> s_mpc s = MHead -> 4 <= size <= cap -> cap < 2 ^ 31 ->
  vdecodes fs v (vzeros fs) (mkDecoder (s_rbuf s) size 4) = DOk r d' ->
  (exists o n, In (o, n) (windowss fs r) /\ 0 < n) ->
  exists body s' evs', Forall is_byte body /\ zlen body = size /\ crun s [MRead (be 4 size); MRead body] = Some (s', evs') /\ s_crashed s' = false /\
    resolves fs (s_rbuf s') r <> resolves fs (s_rbuf s) r.
Proof.
  intros Hc Hx Hcr Hm Hs Hcap Hd (o & n & Hin & Hn). destruct (ainv _ _ _ _ _ Hc Hx) as [CI _]. destruct (i_cap _ _ _ CI) as [Ecap _]. destruct (i_buf _ _ _ CI) as [Bbuf Ebuf].
  assert (Hi : is_int32 size) by (unfold is_int32; lia).
  assert (Hok : dec_ok (mkDecoder (s_rbuf s) size 4)) by (unfold dec_ok; cbn; lia).
  destruct (alias_windows _ _ _ _ _ Hok Hd _ _ Hin) as (W1 & W2 & W3). cbn [d_offset d_length] in W1, W3.
  set (body := map other_byte (firstn (Z.to_nat size) (s_rbuf s))).
  assert (Hz : zlen body = size). { unfold body, zlen in *. rewrite map_length, firstn_length. lia. }
  assert (Hb : Forall is_byte body). { unfold body. apply Forall_forall. intros x Hx0. apply in_map_iff in Hx0. destruct Hx0 as (y & <- & _). unfold other_byte, is_byte. destruct (y =? 0); lia. }
  pose proof (head_read s size Hcr Hm Hi ltac:(congruence) ltac:(lia)) as H1.
  set (s1 := set_mpc (set_rbuf s (overwrite (s_rbuf s) (be 4 size))) (MBody size)) in *.
  assert (H2 : exists s' e, cstep s1 (MRead body) = Some (s', e)).
  { unfold cstep. unfold s1 at 1. cbn [s_crashed set_mpc set_rbuf]. rewrite Hcr. unfold loop_read, s1. cbn [s_mpc set_mpc set_rbuf s_cap]. rewrite Hz.
    replace (size =? Z.max 0 size) with true by (symmetry; apply Z.eqb_eq; lia). replace (size <=? s_cap s) with true by (symmetry; apply Z.leb_le; lia). cbn [andb]. cbn zeta.
    destruct (ResponseHeader_Decode _ _ _); eauto. }
  destruct H2 as (s' & e & H2).
  assert (L1 : zlen (be 4 size) <= zlen (s_rbuf s)) by (rewrite zlen_be; lia).
  destruct (read_step s1 s' body e Hb) as [Hcr' _]; [|unfold s1; cbn [s_cap set_mpc set_rbuf]; lia|exact H2|].
  { unfold s1; cbn [s_rbuf s_cap set_mpc set_rbuf]. rewrite Ecap, <- Ebuf. unfold overwrite, zlen in *. rewrite app_length, skipn_length. lia. }
  pose proof (mread_rbuf _ _ _ _ H2 Hcr') as E. exists body, s', e. split; [exact Hb|]. split; [exact Hz|]. split; [cbn [crun]; rewrite H1, H2, app_nil_r; reflexivity|]. split; [exact Hcr'|].
  intros F. rewrite (proj2 resolve_iff) in F. specialize (F o n Hin). rewrite E in F. unfold s1 in F. cbn [s_rbuf set_mpc set_rbuf] in F.
  revert F.
  assert (Q : window (overwrite (overwrite (s_rbuf s) (be 4 size)) body) o n = map other_byte (window (s_rbuf s) o n)).
  { unfold window. unfold overwrite at 1. unfold zlen in *. rewrite skipn_app, firstn_app, skipn_length.
    replace (Z.to_nat n - (length body - Z.to_nat o))%nat with 0%nat by lia. cbn [firstn]. rewrite app_nil_r.
    unfold body. rewrite skipn_map, firstn_map, skipn_firstn_comm, firstn_firstn, min_l by lia. reflexivity. }
  rewrite Q. apply map_other. unfold window. intros F. apply (f_equal (@length Z)) in F. unfold zlen in *. rewrite firstn_length, skipn_length in F. cbn in F. lia.
Qed.

(** A response without byte fields is never altered. *)
Lemma never_altered name c : In (name, c) all_codecs -> forall v, have_bytes (c_schema c) v = false ->
  forall d r d', vdecodes (c_schema c) v (vzeros (c_schema c)) d = DOk r d' ->
  forall buf1 buf2, resolves (c_schema c) buf1 r = resolves (c_schema c) buf2 r.
Proof.
  intros Hin v Hb d r d' H buf1 buf2. apply resolve_iff. intros o n F.
  rewrite (proj2 windowless _ v (vzeros (c_schema c)) Hb (proj2 zero_windows _) d r d' H) in F. destruct F.
Qed.
