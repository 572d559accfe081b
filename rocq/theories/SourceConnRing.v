(** * The text of gen.conn.go and the model of the connection: inside the ring *)
From Coq Require Import String.
From Verif Require Import GoBase GoLemmas Encoder Decoder BufIO BufIOProofs Msg01 Conn ConnProofs ConnRing ConnRingProofs GoLang GoFlow SourceConn SourceConnSpec SourceConnPoints SourceConnSim SourceConnCalls SourceConnLoop.
From Verif Require Ring.
Local Open Scope string_scope.
Local Open Scope list_scope.
Local Open Scope Z_scope.

Lemma int32_read width d v d' : 32 <= width -> dInt32 d = DOk v d' -> wrap width v = v.
Proof.
  intros Hw H.
  assert (Hv : - 2 ^ 31 <= v < 2 ^ 31).
  { unfold dInt32, fixed in H. destruct (remains 4 d); [|discriminate]. destruct (slice_from _ _) as [bs|]; [|discriminate].
    destruct (Binary.get_uint32 bs); cbn in H; [|discriminate]. injection H as <- _. exact (wrap_range 32 _ ltac:(lia)). }
  apply wrap_id; [lia|]. assert (2 ^ 31 <= 2 ^ (width - 1)) by (apply Z.pow_le_mono_r; lia). lia.
Qed.

Section Inside.
Context {R : Type} (dl : option error) (tls : bool) (width : Z) (fuel : nat).
Local Notation mem := (memory R).
Local Notation tstep := (tstep dl tls width fuel).
Local Notation ltop := (l_top width).

(** readLoop, when WriteN returns or does not. *)
Lemma writer_goes b rl wl (c : @conf R) (s : client R) a g re : abs width (S b) rl wl c s -> inside a = true -> Ring.step (n_ring s) a = Some (g, re) ->
  exists rd, (if wrote re then released dl tls Reader (put_ring g (t_mem c)) (t_reader c) else (put_ring g (t_mem c), t_reader c)) = (put_ring g (t_mem c), rd) /\
    reader_at b (if wrote re then RdRead else n_rd s) rd /\ ((if wrote re then RdRead else n_rd s) = RdWrite <-> Ring.g_w g <> Ring.WIdle) /\
    is_rddone (if wrote re then RdRead else n_rd s) = is_rddone (n_rd s) /\ asks "close" rd = asks "close" (t_reader c).
Proof.
  intros A Hi Hs. destruct (inside_writer _ _ _ _ Hs Hi) as [W1 W2]. destruct (wrote re) eqn:Ew.
  - assert (E : n_rd s = RdWrite) by (apply (a_writer _ _ _ _ _ _ A); exact (wrote_busy _ _ _ _ Hs Hi Ew)).
    pose proof (a_reader _ _ _ _ _ _ A) as Hr. rewrite E in Hr. inversion Hr as [| |n z p Hn Q Ep|]; subst. destruct Q as (K & EK & Q). rewrite EK. cbn [released].
    destruct (top_read b n _ Hn Q) as (n' & Hn' & Q'). pose proof Q' as (K2 & EK2 & _). exists (K unit_val). split; [|split; [|split; [|split]]].
    + rewrite EK2. apply adv_shared. reflexivity.
    + eapply ra_read; [exact Hn'|exact Q'].
    + rewrite (W1 eq_refl). split; [discriminate|intros F; contradiction].
    + rewrite E. reflexivity.
    + rewrite EK2. reflexivity.
  - exists (t_reader c). split; [reflexivity|]. split; [refine (reader_frame _ _ _ _ (a_reader _ _ _ _ _ _ A) _); lia|]. split; [|split; reflexivity].
    rewrite (a_writer _ _ _ _ _ _ A). specialize (W2 eq_refl). tauto.
Qed.

Lemma ring_moves b rl wl (c : @conf R) (s : client R) a g re : 32 <= width -> abs width (S b) rl wl c s -> inside a = true -> Ring.step (n_ring s) a = Some (g, re) ->
  exists c' s' e, tstep c (TRing a) = Some (c', e) /\ nrun s [LRing a] = Some (s', e) /\ asks "close" (t_reader c') = asks "close" (t_reader c) /\ (abs width b rl wl c' s' \/ stopped c' s').
Proof.
  intros Hwd A Hi Hs. destruct (writer_goes _ _ _ _ _ _ _ _ A Hi Hs) as (rd & Hrel & Hrd & Hwr & Hdn & Hask). set (rdp := if wrote re then RdRead else n_rd s) in *.
  pose proof (a_at _ _ _ _ _ _ A) as Hat. pose proof (a_cap _ _ _ _ _ _ A) as Hcap. set (cap := s_cap (n_conn s)) in *.
  assert (Hcap0 : 0 <= cap) by (rewrite <- Hcap; unfold zlen; lia).
  set (m1 := put_ring g (t_mem c)) in *.
  destruct (bytes_read re) as [bs|] eqn:Eb.
  - (* ReadN returns *)
    destruct (read_returns _ _ _ _ _ Hs Hi Eb (a_whole _ _ _ _ _ _ A)) as [Hidle Hwhole].
    set (buf := overwrite (m_buffer (t_mem c)) bs). set (m2 := put_buffer buf m1).
    assert (TT : forall p m' p', t_loop c = p -> released dl tls Loop m2 p = (m', p') ->
       tstep c (TRing a) = Some (mkConf m' (t_calls c) p' rd (t_closers c), match p with Ask _ [_; _; VInt INT size] _ => if panicked p' then [] else [EFrame buf size] | _ => [] end)).
    { intros p m' p' Ep Er. unfold SourceConnSpec.tstep. rewrite (abs_alive _ _ _ _ _ _ A), Hi, (a_ring _ _ _ _ _ _ A), Hs. cbn zeta. fold m1. rewrite Hrel, Eb. cbn zeta.
      change (m_buffer m1) with (m_buffer (t_mem c)). fold buf. fold m2. rewrite Ep, Er. reflexivity. }
    assert (MM : forall cc e g', cstep (n_conn s) (MRead bs) = Some (cc, e) -> call_readn cc g = Some g' ->
       nrun s [LRing a] = Some (mkClient cc g' rdp (n_closers s) false, e)).
    { intros cc e g' H1 H2. cbn [nrun]. unfold nstep. rewrite (a_fine _ _ _ _ _ _ A), (a_alive _ _ _ _ _ _ A), Hi, Hs. cbn [orb]. cbn zeta. fold rdp. rewrite Eb, H1, H2, Hwhole, app_nil_r. reflexivity. }
    assert (Hm2 : m_buffer m2 = overwrite (s_rbuf (n_conn s)) bs) by (unfold m2, buf; rewrite (a_buf _ _ _ _ _ _ A); reflexivity).
    destruct (s_mpc (n_conn s)) as [ | |size|id d|k d|] eqn:E;
      try (exfalso; destruct (idle_reader_step _ _ _ _ Hat Hi Hs) as [_ F]; congruence).
    + (* the four bytes of the size *)
      destruct (reading_step cap 4 _ _ _ _ Hcap0 Hat Hi Hs) as [[F _]|(bs' & F & Hz & Hle)]; [congruence|]. rewrite Eb in F. injection F as <-. change (Z.max 0 4) with 4 in Hz.
      pose proof (a_loop _ _ _ _ _ _ A) as L. inversion L as [n p Hn Q M Ep|p Q M Z Ep|n p Hn Q M Ep|n sz p Hn Q M Ep|n p Hn Q M Ep|n p Hn Q M Lk Ep|n p Hn Q M Lk Ep|n o p Hn Q M Lk Ep|n k p Hn Q M Ep|n k v d p Hn Q M D Ep|M Ep]; try congruence;
        try (exfalso; rewrite E in M; destruct o; discriminate).
      clear L. destruct Q as (K & EK & Q). destruct Q as (K1 & EK1 & Q). destruct Q as (K2 & EK2 & Q).
      set (raw := overwrite (s_rbuf (n_conn s)) bs) in *. set (d0 := Reset 4 (mkDecoder raw 0 0)).
      set (m3 := put_decoder d0 m2).
      assert (R1 : released dl tls Loop m2 (Ask "ring.Buffer.ReadN" [the_ring; buffer0; VConst 4] K) =
                   advance dl tls Loop m3 (K1 unit_val)).
      { cbn [released]. rewrite EK1. rewrite (adv_answer dl tls Loop m2 _ _ K1 unit_val m3); [reflexivity|]. unfold alone. cbn -[m_buffer Reset put_decoder]. rewrite Hm2. reflexivity. }
      assert (Hd : forall (size : Z) (d' : Decoder) (e : val), wrap width size = size ->
         alone dl tls Loop "message.Decoder.Int32" [the_decoder] m3 = Answer (VTuple [VInt I32 size; e]) (put_decoder d' m3) ->
         cstep (n_conn s) (MRead bs) = Some (set_mpc (set_rbuf (n_conn s) raw) (MBody size), []) ->
         exists c' s' e, tstep c (TRing a) = Some (c', e) /\ nrun s [LRing a] = Some (s', e) /\ asks "close" (t_reader c') = asks "close" (t_reader c) /\ (abs width b rl wl c' s' \/ stopped c' s')).
      { intros size d' e Hsz Ha Hc. pose proof (Q size e) as Q'. rewrite Hsz in Q'. pose proof Q' as (K3 & EK3 & Q3).
        set (g' := Ring.set_r g (Ring.RLoadStart cap size)).
        assert (Hg : Ring.step g (Ring.RCall cap size) = Some (g', [])) by (apply readn_starts, Hidle).
        set (m4 := put_ring g' (put_decoder d' m3)).
        assert (Hbz : zlen (m_buffer m2) = cap) by (rewrite Hm2, <- Hcap; apply overwrite_zlen; rewrite Hcap; exact Hle).
        assert (R2 : released dl tls Loop m2 (Ask "ring.Buffer.ReadN" [the_ring; buffer0; VConst 4] K) = (m4, K2 (VTuple [VInt I32 size; e]))).
        { rewrite R1, EK2. erewrite adv_answer by exact Ha. rewrite EK3. apply adv_stay. unfold alone. cbn -[m_ring m_buffer zlen Ring.step put_ring put_decoder].
          change (m_buffer (put_decoder d' m3)) with (m_buffer m2). change (m_ring (put_decoder d' m3)) with g. rewrite Hbz, Hg. reflexivity. }
        eexists _, _, _. split; [exact (TT _ _ _ EK R2)|]. split.
        { refine (MM _ _ g' Hc _). unfold call_readn. cbn [s_mpc set_mpc]. change (s_cap (set_mpc (set_rbuf (n_conn s) raw) (MBody size))) with cap. rewrite Hg. reflexivity. }
        split; [exact Hask|]. left. after_loop A.
        - reflexivity.
        - exact Hm2.
        - cbn. unfold raw. rewrite overwrite_zlen; [exact Hcap|rewrite Hcap; exact Hle].
        - exact I.
        - etransitivity; [exact (a_signals _ _ _ _ _ _ A)|]. rewrite E, Hdn. reflexivity.
        - same_calls A.
        - eapply la_body; [|exact Q'|reflexivity]. lia.
        - exact Hrd.
        - reflexivity.
        - apply readn_whole, Hwhole.
        - cbn. split; reflexivity.
        - exact Hwr. }
      assert (Hcs : cstep (n_conn s) (MRead bs) = match dInt32 d0 with
         | DOk v _ => Some (set_mpc (set_rbuf (n_conn s) raw) (MBody v), [])
         | DErr _ _ => Some (set_mpc (set_rbuf (n_conn s) raw) (MBody 0), [])
         | DPanic => Some (crash (n_conn s), []) end).
      { unfold cstep, loop_read. rewrite (a_alive _ _ _ _ _ _ A), E, Hz. reflexivity. }
      assert (Ha : alone dl tls Loop "message.Decoder.Int32" [the_decoder] m3 = match dInt32 d0 with
         | DOk v d => Answer (VTuple [VInt I32 v; VNil]) (put_decoder d m3)
         | DErr x d => Answer (VTuple [VInt I32 0; VErr x]) (put_decoder d m3)
         | DPanic => Panics end).
      { unfold alone. cbn -[m_decoder dInt32 put_decoder]. change (m_decoder m3) with d0. reflexivity. }
      destruct (dInt32 d0) as [v d'|x d'|] eqn:Ed.
      * exact (Hd v d' VNil (int32_read width d0 v d' Hwd Ed) Ha Hcs).
      * refine (Hd 0 d' (VErr x) _ Ha Hcs). apply wrap_id; [lia|]. assert (0 < 2 ^ (width - 1)) by (apply Z.pow_pos_nonneg; lia). lia.
      * eexists _, _, _. split.
        { refine (TT _ m3 Crash EK _). rewrite R1, EK2. cbn [advance]. rewrite Ha. reflexivity. }
        split; [refine (MM (crash (n_conn s)) [] (Ring.set_r g (Ring.RLoadStart cap 4)) Hcs _)|].
        -- unfold call_readn. cbn [s_mpc crash]. change (s_mpc (crash (n_conn s))) with (s_mpc (n_conn s)). rewrite E. change (s_cap (crash (n_conn s))) with cap. rewrite (readn_starts g cap 4 Hidle). reflexivity.
        -- split; [exact Hask|]. right. split; [|reflexivity]. unfold dead. cbn [t_loop panicked]. rewrite orb_true_r. reflexivity.
    + (* the response *)
      destruct (reading_step cap size _ _ _ _ Hcap0 Hat Hi Hs) as [[F _]|(bs' & F & Hz & Hle)]; [congruence|]. rewrite Eb in F. injection F as <-.
      pose proof (a_loop _ _ _ _ _ _ A) as L. inversion L as [n p Hn Q M Ep|p Q M Z Ep|n p Hn Q M Ep|n sz p Hn Q M Ep|n p Hn Q M Ep|n p Hn Q M Lk Ep|n p Hn Q M Lk Ep|n o p Hn Q M Lk Ep|n k p Hn Q M Ep|n k v d p Hn Q M D Ep|M Ep]; try congruence;
        try (exfalso; rewrite E in M; destruct o; discriminate).
      clear L. assert (sz = size) as -> by congruence. destruct Q as (K & EK & Q). destruct Q as (K1 & EK1 & Q). destruct Q as (K2 & EK2 & Q). destruct Q as (K3 & EK3 & Ql & Qp).
      set (raw := overwrite (s_rbuf (n_conn s)) bs) in *. set (d0 := Reset size (mkDecoder raw 0 0)).
      set (m3 := put_header ResponseHeader_zero (put_decoder d0 m2)).
      assert (R1 : released dl tls Loop m2 (Ask "ring.Buffer.ReadN" [the_ring; buffer0; VInt INT size] K) =
                   advance dl tls Loop m3 (K2 header)).
      { cbn [released]. rewrite EK1. rewrite (adv_answer dl tls Loop m2 _ _ K1 unit_val (put_decoder d0 m2)).
        - rewrite EK2. erewrite adv_answer by reflexivity. reflexivity.
        - unfold alone. cbn -[m_buffer Reset put_decoder]. rewrite Hm2. reflexivity. }
      assert (Ha : alone dl tls Loop "header.Decode" [header; the_decoder; VConst 1] m3 = match ResponseHeader_Decode 1 ResponseHeader_zero d0 with
         | DOk h d => Answer VNil (put_header h (put_decoder d m3))
         | DErr x d => Answer (VErr x) (put_decoder d m3)
         | DPanic => Panics end).
      { unfold alone. cbn -[m_decoder m_header ResponseHeader_Decode put_decoder put_header]. change (m_decoder m3) with d0. change (m_header m3) with ResponseHeader_zero. reflexivity. }
      assert (Hsc : size <= cap) by lia.
      assert (Hcs : cstep (n_conn s) (MRead bs) = match ResponseHeader_Decode 1 ResponseHeader_zero d0 with
        | DOk resp d => Some (set_mpc (set_rbuf (n_conn s) raw) (MLookup (ResponseHeader_CorrelationId resp) d), [EFrame raw size])
        | DErr _ _ => Some (set_mpc (set_rbuf (n_conn s) raw) MTop, [EFrame raw size])
        | DPanic => Some (crash (n_conn s), []) end).
      { unfold cstep, loop_read. rewrite (a_alive _ _ _ _ _ _ A), E, Hz, Z.eqb_refl. fold cap. replace (size <=? cap) with true by (symmetry; apply Z.leb_le; exact Hsc). reflexivity. }
      destruct (ResponseHeader_Decode 1 ResponseHeader_zero d0) as [h d'|x d'|] eqn:Ed.
      * pose proof Ql as (K4 & EK4 & Q4). set (m4 := put_header h (put_decoder d' m3)).
        assert (R2 : released dl tls Loop m2 (Ask "ring.Buffer.ReadN" [the_ring; buffer0; VInt INT size] K) = (m4, K3 VNil)).
        { rewrite R1, EK3. erewrite adv_answer by exact Ha. rewrite EK4. apply adv_shared. reflexivity. }
        eexists _, _, _. split; [exact (TT _ _ _ EK R2)|]. rewrite EK4. cbn [panicked]. split.
        { change buf with (m_buffer m2). rewrite Hm2. refine (MM _ _ g Hcs _). reflexivity. }
        split; [exact Hask|]. left. after_loop A.
        -- reflexivity.
        -- exact Hm2.
        -- cbn. unfold raw. rewrite overwrite_zlen; [exact Hcap|rewrite Hcap; exact Hle].
        -- exact I.
        -- etransitivity; [exact (a_signals _ _ _ _ _ _ A)|]. rewrite E, Hdn. reflexivity.
        -- same_calls A.
        -- rewrite <- EK4. eapply la_lock; [|exact Ql|reflexivity]. lia.
        -- exact Hrd.
        -- reflexivity.
        -- exact Hwhole.
        -- exact Hidle.
        -- exact Hwr.
      * destruct (Qp x) as (K4 & EK4 & Q4). set (m4 := put_decoder d' m3).
        destruct (top_poll dl tls width m4 b n _ Hn Q4) as (n' & p' & Hn' & Ap & Qp').
        assert (R2 : released dl tls Loop m2 (Ask "ring.Buffer.ReadN" [the_ring; buffer0; VInt INT size] K) = (m4, p')).
        { rewrite R1, EK3. erewrite adv_answer by exact Ha. rewrite EK4. erewrite adv_answer by reflexivity. exact Ap. }
        assert (Hpp : panicked p' = false) by (destruct Qp' as (K5 & -> & _); reflexivity).
        eexists _, _, _. split; [exact (TT _ _ _ EK R2)|]. rewrite Hpp. split.
        { change buf with (m_buffer m2). rewrite Hm2. refine (MM _ _ g Hcs _). reflexivity. }
        split; [exact Hask|]. left. after_loop A.
        -- reflexivity.
        -- exact Hm2.
        -- cbn. unfold raw. rewrite overwrite_zlen; [exact Hcap|rewrite Hcap; exact Hle].
        -- exact I.
        -- etransitivity; [exact (a_signals _ _ _ _ _ _ A)|]. rewrite E, Hdn. reflexivity.
        -- same_calls A.
        -- eapply la_poll; [exact Hn'|exact Qp'|reflexivity].
        -- exact Hrd.
        -- reflexivity.
        -- exact Hwhole.
        -- exact Hidle.
        -- exact Hwr.
      * eexists _, _, _. split.
        { refine (TT _ m3 Crash EK _). rewrite R1, EK3. cbn [advance]. rewrite Ha. reflexivity. }
        split; [refine (MM (crash (n_conn s)) [] (Ring.set_r g (Ring.RLoadStart cap size)) Hcs _)|].
        -- unfold call_readn. change (s_mpc (crash (n_conn s))) with (s_mpc (n_conn s)). rewrite E. change (s_cap (crash (n_conn s))) with cap. rewrite (readn_starts g cap size Hidle). reflexivity.
        -- split; [exact Hask|]. right. split; [|reflexivity]. unfold dead. cbn [t_loop panicked]. rewrite orb_true_r. reflexivity.
  - (* ReadN goes on *)
    eexists _, _, []. split; [|split; [|split]].
    + unfold SourceConnSpec.tstep. rewrite (abs_alive _ _ _ _ _ _ A), Hi, (a_ring _ _ _ _ _ _ A), Hs. cbn zeta. fold m1. rewrite Hrel, Eb. reflexivity.
    + cbn [nrun]. unfold nstep. rewrite (a_fine _ _ _ _ _ _ A), (a_alive _ _ _ _ _ _ A), Hi, Hs. cbn [orb]. cbn zeta. fold rdp. rewrite Eb. reflexivity.
    + exact Hask.
    + destruct (ring_crashed g) eqn:Ec.
      * right. split; [|reflexivity]. unfold dead. cbn [t_mem]. change (m_ring m1) with g. rewrite Ec. reflexivity.
      * left. after_loop A.
        -- reflexivity.
        -- etransitivity; [exact (a_signals _ _ _ _ _ _ A)|]. rewrite Hdn. reflexivity.
        -- same_calls A.
        -- same_loop A. intros; split; reflexivity.
        -- exact Hrd.
        -- reflexivity.
        -- exact Ec.
        -- cbn. assert (HC : Ring.g_r g <> Ring.RCrash) by (intros F; unfold ring_crashed in Ec; rewrite F in Ec; discriminate).
           unfold n_at in *. fold cap. destruct (s_mpc (n_conn s)) as [ | |size|id d|k d|]; try (exact (proj1 (idle_reader_step _ _ _ _ Hat Hi Hs)));
             (destruct (reading_step _ _ _ _ _ _ Hcap0 Hat Hi Hs) as [[_ [F|F]]|(bs' & F & _)]; [contradiction|exact F|congruence]).
        -- exact Hwr.
Qed.
End Inside.
