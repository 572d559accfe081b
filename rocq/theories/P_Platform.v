(** * Property of the decoder on different platforms: C72 *)
From Coq Require Import String.
From Verif Require Import GoBase GoLemmas Binary Decoder Spec SchemaSpec Link Msg09 AllMessages MsgProps Memory MemorySpec Platform PlatformSpec PlatformProofs.
Local Open Scope Z_scope.
Local Open Scope list_scope.
Ltac Zify.zify_post_hook ::= idtac.

(** The decoders called [p...] are those of Platform.v, on a platform [P]: width of int,
    release of Go, what make gives; all arithmetic on int wraps.  Those called [d...] and
    [c_decode] are the ones all other theorems are about.

    ** C72.  Full statement: on every platform every method of the decoder and every
    Decode of a message gives the same result.  For messages: *)
Theorem C72_messages : forall P, go_platform P -> makes_all P -> forall name c, In (name, c) all_codecs ->
  forall v old d, exists_on P d -> p_decode P c v old d = c_decode c v old d.
Proof. exact platform_same. Qed.
Print Assumptions C72_messages.
(** Where make gives less: a message that is read elsewhere is read here, if make gives
    as many elements as the frame has bytes; and the only other thing that can happen to
    any input is a panic. *)
Theorem C72_messages_read : forall P, go_platform P -> forall name c, In (name, c) all_codecs ->
  forall v old d m d', exists_on P d -> makes_up_to (zlen (frame d)) P -> c_decode c v old d = DOk m d' -> p_decode P c v old d = DOk m d'.
Proof. exact platform_success. Qed.
Print Assumptions C72_messages_read.
Theorem C72_messages_otherwise : forall P, go_platform P -> forall name c, In (name, c) all_codecs ->
  forall v old d, exists_on P d -> p_decode P c v old d = c_decode c v old d \/ p_decode P c v old d = DPanic.
Proof. exact platform_otherwise. Qed.
Print Assumptions C72_messages_otherwise.

(** For the methods of the decoder without "Var" in their names: *)
Theorem C72_methods : forall P, go_platform P -> makes_all P -> forall d, exists_on P d ->
  pBool P d = dBool d /\ pInt8 P d = dInt8 d /\ pInt16 P d = dInt16 d /\ pInt32 P d = dInt32 d /\ pInt64 P d = dInt64 d /\
  pArrayLength P d = dArrayLength d /\ pBytes P d = dBytes d /\ pString P d = dString d /\ pNullableString P d = dNullableString d /\
  pInt32Array P d = dInt32Array d /\ pInt64Array P d = dInt64Array d /\ pStringArray P d = dStringArray d /\
  (forall n, - 2 ^ (p_int P - 1) <= n < 2 ^ (p_int P - 1) -> pDiscard P n d = dDiscard n d).
Proof. exact primitives_same. Qed.
Print Assumptions C72_methods.

(** False for VarBytes and VarString on 32 bits: of every length that is too long only the
    low 32 bits count.  If they make a length that is there, that many bytes are returned
    instead of the error. *)
Theorem C72_narrow_refuted : forall P, p_int P = 32 -> forall d a b payload, exists_on P d -> frame d = a ++ b :: payload ->
  Forall is_byte a -> Forall continues a -> 0 <= b < 128 -> ~ overlong a b ->
  let n := unzz (value128 (a ++ [b])) in let k := wrap 32 n in 0 <= k <= zlen payload -> zlen payload < n ->
  (exists d', dVarBytes d = DErr ErrShortBuffer d') /\ (exists d', dVarString d = DErr ErrShortBuffer d') /\
  pVarBytes P d = DOk (Some (firstn (Z.to_nat k) payload)) (advance (zlen a + 1 + k) d) /\
  (exists s, pVarString P d = DOk s (advance (zlen a + 1 + k) d)).
Proof. exact narrow_var. Qed.
Print Assumptions C72_narrow_refuted.
(** False for VarInt with later releases of Go: where a number is cut off by the end of
    the buffer after more than ten bytes, it is no error but 0, and the decoder moves
    backwards. *)
Theorem C72_late_refuted : forall P, go_platform P -> forall d, exists_on P d -> d_length d = zlen (d_raw d) -> 10 < zlen (frame d) -> Forall continues (frame d) ->
  (exists d', dVarInt d = DErr ErrShortBuffer d') /\ (p_late P = true -> pVarInt P d = DOk 0 (advance (-11) d)).
Proof. exact late_var. Qed.
Print Assumptions C72_late_refuted.

(** What holds for them.  VarInt: on every platform, for every input, unless ten bytes
    that continue a number are followed by another byte and Go is a later release;
    [ahead d] are the bytes from the position to the end of the buffer. *)
Theorem C72_varint_partial : forall P, go_platform P -> forall d, exists_on P d -> p_late P = false \/ ~ runaway (ahead d) ->
  pVarInt P d = dVarInt d.
Proof. exact varint_all. Qed.
Print Assumptions C72_varint_partial.
(** VarBytes and VarString: likewise on 64 bits, in buffers shorter than 2^62 bytes; *)
Theorem C72_wide_partial : forall P, p_int P = 64 -> forall d, dec_ok d -> zlen (d_raw d) < 2 ^ 62 -> p_late P = false \/ ~ runaway (ahead d) ->
  pVarBytes P d = dVarBytes d /\ pVarString P d = dVarString d.
Proof. exact var_wide. Qed.
Print Assumptions C72_wide_partial.
(** on 32 bits, if the length is a complete number that fits 32 bits.  (Missing: lengths
    on 32 bits that do not.) *)
Theorem C72_var_partial : forall P, go_platform P -> forall d a b rest, exists_on P d -> frame d = a ++ b :: rest ->
  Forall is_byte a -> Forall continues a -> 0 <= b < 128 -> ~ overlong a b ->
  pVarInt P d = dVarInt d /\
  (p_int P = 64 \/ is_int32 (unzz (value128 (a ++ [b]))) -> pVarBytes P d = dVarBytes d /\ pVarString P d = dVarString d).
Proof. exact var_same. Qed.
Print Assumptions C72_var_partial.
(** A 32-bit platform where make gives up to 2^26 elements, with a later Go.  The
    length 2^32 + 2 is read as 2; DeleteGroups with two names is read as on 64 bits, the
    announcement of 2^31 - 1 names is a panic. *)
Definition small : platform := mkPlatform 32 true (fun _ n => n <=? 2 ^ 26).
Definition two_names : Decoder := mkDecoder [0;0;0;2; 0;1;97; 0;1;98] 10 0.
Definition all_names : Decoder := mkDecoder [127;255;255;255] 4 0.
Definition long_length : Decoder := mkDecoder [132;128;128;128;32; 65;66;67] 8 0.
Example C72_small : go_platform small /\ makes_up_to 10 small /\ exists_on small two_names /\ exists_on small all_names /\ exists_on small long_length.
Proof.
  split; [left; reflexivity|]. split; [intros t n Hn; cbn [small p_make]; apply Z.leb_le; lia|].
  unfold exists_on, dec_ok. cbn. lia.
Qed.
Example C72_names : p_decode small DeleteGroupsRequest_codec 0 DeleteGroupsRequest_zero two_names =
    DOk (mkDeleteGroupsRequest (Some [[97]; [98]])) (mkDecoder (d_raw two_names) 10 10) /\
  p_decode small DeleteGroupsRequest_codec 0 DeleteGroupsRequest_zero all_names = DPanic.
Proof. split; reflexivity. Qed.
Example C72_long : unzz (value128 ([132;128;128;128] ++ [32])) = 2 ^ 32 + 2 /\ ~ overlong [132;128;128;128] 32 /\
  dVarBytes long_length = DErr ErrShortBuffer (mkDecoder (d_raw long_length) 8 5) /\
  pVarBytes small long_length = DOk (Some [65;66]) (mkDecoder (d_raw long_length) 8 7).
Proof. split; [reflexivity|]. split; [unfold overlong, zlen; cbn; lia|]. split; reflexivity. Qed.
(** A number cut off after two bytes is an error on [small] too. *)
Example C72_cut : let d := mkDecoder [128; 128] 2 0 in exists_on small d /\ ~ runaway (ahead d) /\
  pVarInt small d = DErr ErrShortBuffer (mkDecoder [128; 128] 2 2).
Proof.
  split; [unfold exists_on, dec_ok; cbn; lia|]. split; [|reflexivity]. intros (a & b & rest & E & L & _). apply (f_equal zlen) in E.
  rewrite zlen_app, zlen_cons, L in E. pose proof (zlen_nonneg rest).
  change (zlen (ahead (mkDecoder [128; 128] 2 0))) with 2 in E. lia.
Qed.
