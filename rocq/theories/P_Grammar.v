(** * Properties of decoding arbitrary bytes: C57, C58 *)
From Coq Require Import String.
From Verif Require Import GoBase Binary Encoder Decoder Spec SchemaSpec GrammarSpec Link
  GoLemmas Msg01 Msg02 Msg03 Msg04 AllMessages MsgProps GrammarProofs.
Local Open Scope list_scope.
Local Open Scope Z_scope.

(** ** C57.  Every decoder, on every frame of bytes: it succeeds exactly when the
    frame begins with bytes of the grammar and has then consumed those; it panics
    exactly when the frame begins with rejected bytes; everything else is a short
    buffer. *)
Theorem C57_grammar : forall name c, In (name, c) all_codecs -> forall v old d, dec_ok d -> Forall is_byte (frame d) ->
  (forall m d', c_decode c v old d = DOk m d' <->
     exists bs rest, frame d = bs ++ rest /\ acceptss (c_schema c) v (c_to c old) bs (c_to c m) /\ d' = advance (zlen bs) d) /\
  (c_decode c v old d = DPanic <-> exists bs rest, frame d = bs ++ rest /\ rejectss (c_schema c) v bs) /\
  (forall e d', c_decode c v old d = DErr e d' -> e = ErrShortBuffer).
Proof. exact decode_exact. Qed.
Print Assumptions C57_grammar.
(** The encodings of the messages that fit are in the grammar. *)
Theorem C57_encodings : forall name c, In (name, c) all_codecs -> forall v old m, fit (c_schema c) v (c_to c m) ->
  acceptss (c_schema c) v (c_to c old) (wires (c_schema c) v (c_to c m))
    (receive (c_schema c) v (c_to c old) (c_to c m)).
Proof. intros name c _. exact (encodings_accepted c). Qed.
Print Assumptions C57_encodings.
(** A boolean is true for the byte 1 only, and the second topic's name is null. *)
Example C57_case :
  let bs := [0; 0; 0; 2; 0; 1; 97; 255; 255; 2] in
  Forall is_byte bs /\
  MetadataRequest_Decode 4 MetadataRequest_zero (NewDecoder (bs ++ [7]) 11) =
    DOk (mkMetadataRequest (Some [mkMetadataRequestTopic3 [97]; mkMetadataRequestTopic3 []]) false false false)
        (mkDecoder (bs ++ [7]) 11 10) /\
  MetadataRequest_Decode 4 MetadataRequest_zero (NewDecoder [0; 0; 0; 2; 0; 1; 97; 255; 254] 9) = DPanic /\
  rejectss MetadataRequest_schema 4 [0; 0; 0; 2; 0; 1; 97; 255; 254].
Proof. exact grammar_case. Qed.

(** ** C58.  Full statement: encoding a decoded message again gives the bytes it was
    decoded from.  False: the null list of topics (all topics, to Kafka) becomes
    the empty list (no topics). *)
Theorem C58_null_topics_refuted : forall v, 4 <= v <= 7 -> exists bs m, Forall is_byte bs /\
  MetadataRequest_Decode v MetadataRequest_zero (NewDecoder bs (zlen bs)) = DOk m (mkDecoder bs (zlen bs) (zlen bs)) /\
  MetadataRequest_Topics m = None /\
  Emits (MetadataRequest_Encode v m) [0; 0; 0; 0; 1] /\ bs = [255; 255; 255; 255; 1].
Proof. exact null_topics. Qed.
Print Assumptions C58_null_topics_refuted.
(** It holds for the bytes that Encode produces; missing are null strings, negative
    counts and boolean bytes other than 0 and 1. *)
Theorem C58_forward_partial : forall name c, In (name, c) all_codecs -> forall v old m d m' d',
  fit (c_schema c) v (c_to c m) -> dec_ok d -> frame d = wires (c_schema c) v (c_to c m) ->
  c_decode c v old d = DOk m' d' -> Emits (c_encode c v m') (wires (c_schema c) v (c_to c m)).
Proof. exact forwarded. Qed.
Print Assumptions C58_forward_partial.
(** Exactly which bytes come back: those without null strings, negative counts of
    structures and boolean bytes other than 0 and 1 ([plains]); missing are exactly the others. *)
Theorem C58_exactly_partial : forall name c, In (name, c) all_codecs -> forall v d m d', dec_ok d -> Forall is_byte (frame d) ->
  c_decode c v (c_zero c) d = DOk m d' ->
  exists bs rest, frame d = bs ++ rest /\ zlen bs = d_offset d' - d_offset d /\ (Emits (c_encode c v m) bs <-> plains (c_schema c) v bs).
Proof. exact comes_back. Qed.
Print Assumptions C58_exactly_partial.
(** For all bytes, the length is that of what was read; so is Size, modulo 2^32. *)
Theorem C58_length : forall name c, In (name, c) all_codecs -> forall v d m d', dec_ok d -> Forall is_byte (frame d) ->
  c_decode c v (c_zero c) d = DOk m d' ->
  exists bs, Emits (c_encode c v m) bs /\ zlen bs = d_offset d' - d_offset d.
Proof. exact same_length. Qed.
Print Assumptions C58_length.
Theorem C58_size : forall name c, In (name, c) all_codecs -> forall v d m d', dec_ok d -> Forall is_byte (frame d) ->
  c_decode c v (c_zero c) d = DOk m d' -> c_size c v m = int32 (d_offset d' - d_offset d).
Proof. exact size_read. Qed.
Print Assumptions C58_size.
Example C58_case : MetadataRequest_Size 4 (mkMetadataRequest (Some [mkMetadataRequestTopic3 [97]; mkMetadataRequestTopic3 []]) false false false) = 10.
Proof. reflexivity. Qed.
(** One topic "a", auto creation true: these bytes are plain and come back. *)
Example C58_plain : let bs := [0; 0; 0; 1; 0; 1; 97; 1] in
  plains MetadataRequest_schema 4 bs /\
  MetadataRequest_Decode 4 MetadataRequest_zero (NewDecoder bs 8) = DOk (mkMetadataRequest (Some [mkMetadataRequestTopic3 [97]]) true false false) (mkDecoder bs 8 8) /\
  Emits (MetadataRequest_Encode 4 (mkMetadataRequest (Some [mkMetadataRequestTopic3 [97]]) true false false)) bs.
Proof.
  cbv zeta. assert (P : plains MetadataRequest_schema 4 [0; 0; 0; 1; 0; 1; 97; 1]).
  { exists [0; 0; 0; 1; 0; 1; 97], [1]. split; [reflexivity|]. split.
    - exists [[0; 1; 97]]. split; [reflexivity|]. split; [reflexivity|]. constructor; [|constructor].
      exists [0; 1; 97], []. split; [reflexivity|]. split; [|reflexivity]. exists [97]. split; reflexivity.
    - exists [1], []. split; [reflexivity|]. split; [right; reflexivity|]. exists [], []. split; [reflexivity|]. split; [reflexivity|].
      exists [], []. repeat split; reflexivity. }
  split; [exact P|]. split; [reflexivity|].
  destruct (C58_exactly_partial "MetadataRequest" MetadataRequest_codec ltac:(exact (nth_error_In all_codecs 23 eq_refl)) 4 (NewDecoder [0; 0; 0; 1; 0; 1; 97; 1] 8) _ (mkDecoder [0; 0; 0; 1; 0; 1; 97; 1] 8 8)
    ltac:(unfold dec_ok; cbn; lia) ltac:(repeat (apply Forall_cons; [unfold is_byte; lia|]); apply Forall_nil) eq_refl) as (bs & rest & E & L & H).
  assert (rest = []).
  { apply (f_equal (@zlen Z)) in E. rewrite zlen_app, L in E. change (8 = 8 + zlen rest) in E. destruct rest; [reflexivity|]. exfalso. unfold zlen in E. cbn [List.length] in E. lia. }
  subst rest. rewrite app_nil_r in E. cbn in E. subst bs. apply H, P.
Qed.
