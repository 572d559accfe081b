(** * Properties of the primitive codec: C01 to C12 *)
From Verif Require Import GoBase Binary Utf8 Encoder Decoder Sizeof Calls Spec GoLemmas
  EncProofs DecProofs VarProofs Utf8Proofs SizeProofs PrimProofs MsgProofs CodecProps.

(** ** C01 *)
Theorem C01_fixed_width_round_trip :
  (forall i, is_int8 i -> Emits (PutInt8 i) (be 1 i) /\ length (be 1 i) = 1%nat /\ Decodes dInt8 (be 1 i) i) /\
  (forall i, is_int16 i -> Emits (PutInt16 i) (be 2 i) /\ length (be 2 i) = 2%nat /\ Decodes dInt16 (be 2 i) i) /\
  (forall i, is_int32 i -> Emits (PutInt32 i) (be 4 i) /\ length (be 4 i) = 4%nat /\ Decodes dInt32 (be 4 i) i) /\
  (forall i, is_int64 i -> Emits (PutInt64 i) (be 8 i) /\ length (be 8 i) = 8%nat /\ Decodes dInt64 (be 8 i) i) /\
  (forall b, Emits (PutBool b) (w_bool b) /\ length (w_bool b) = 1%nat /\ Decodes dBool (w_bool b) b).
Proof. exact fixed_width_round_trip. Qed.
Print Assumptions C01_fixed_width_round_trip.

Example C01_case : is_int64 (-9223372036854775808) /\ is_int16 (-2) /\
  be 8 (-9223372036854775808) = [128; 0; 0; 0; 0; 0; 0; 0] /\ be 2 (-2) = [255; 254].
Proof. vm_compute. repeat split; congruence. Qed.

(** ** C02 *)
Theorem C02_strings_bytes_arrays_round_trip :
  (forall s, zlen s < 2 ^ 15 -> Emits (PutString s) (w_string s) /\ Decodes dString (w_string s) s) /\
  (forall s, glen s < 2 ^ 31 -> Emits (PutBytes s) (w_bytes s) /\ Decodes dBytes (w_bytes s) (Some (items s))) /\
  (forall s, glen s < 2 ^ 31 -> Forall is_int32 (items s) ->
     Emits (PutInt32Array s) (w_nullable_array (be 4) s) /\ Decodes dInt32Array (w_nullable_array (be 4) s) s) /\
  (forall s, glen s < 2 ^ 31 -> Forall is_int64 (items s) ->
     Emits (PutInt64Array s) (w_nullable_array (be 8) s) /\ Decodes dInt64Array (w_nullable_array (be 8) s) s) /\
  (forall s, glen s < 2 ^ 31 -> Forall (fun x => zlen x < 2 ^ 15) (items s) ->
     Emits (PutStringArray s) (w_nullable_array w_string s) /\ Decodes dStringArray (w_nullable_array w_string s) s).
Proof. exact composite_round_trip. Qed.
Print Assumptions C02_strings_bytes_arrays_round_trip.

Example C02_case : glen (Some [[65; 66]; []]) < 2 ^ 31 /\ Forall (fun x : list Z => zlen x < 2 ^ 15) (items (Some [[65; 66]; []])) /\
  w_nullable_array w_string (Some [[65; 66]; []]) = [0; 0; 0; 2; 0; 2; 65; 66; 0; 0] /\
  w_nullable_array w_string None = [255; 255; 255; 255].
Proof. split; [reflexivity|]. split; [repeat constructor|]. split; reflexivity. Qed.

(** ** C03 *)
Theorem C03_varint_round_trip : forall i, is_int64 i ->
  exists bs, Emits (PutVarInt i) bs /\ (1 <= length bs <= 10)%nat /\ Decodes dVarInt bs i /\
    is_base128 (zz i) bs /\
    forall k, 1 <= k -> - 2 ^ (7 * k - 1) <= i < 2 ^ (7 * k - 1) -> zlen bs <= k.
Proof. exact varint_round_trip. Qed.
Print Assumptions C03_varint_round_trip.

Example C03_case : is_int64 (-9223372036854775808) /\ is_int64 300 /\
  put_varint 300 = Some [216; 4] /\ varint [216; 4; 9; 9] = (300, 2).
Proof. vm_compute. repeat split; congruence. Qed.

(** ** C04.  [pre] is the varint of the byte length. *)
Theorem C04_var_strings_round_trip :
  (forall s, valid_utf8 s -> zlen s < 2 ^ 63 -> exists pre, is_base128 (zz (zlen s)) pre /\
     Emits (PutVarString s) (pre ++ s) /\ Decodes dVarString (pre ++ s) s) /\
  (forall s, glen s < 2 ^ 63 -> exists pre, is_base128 (zz (glen s)) pre /\
     Emits (PutVarBytes s) (pre ++ items s) /\ Decodes dVarBytes (pre ++ items s) (Some (items s))) /\
  (forall k v, valid_utf8 k -> zlen k < 2 ^ 63 -> valid_utf8 v -> zlen v < 2 ^ 63 ->
     exists bs, Emits (PutRecordHeader k v) bs /\
       Decodes (x <- dVarString ;; y <- dVarString ;; ret (x, y)) bs (k, v)) /\
  (forall s, Forall is_byte s -> zlen s < 2 ^ 63 -> ~ valid_utf8 s -> exists pre payload,
     is_base128 (zz (zlen s)) pre /\ Emits (PutVarString s) (pre ++ payload) /\ zlen s < zlen payload).
Proof. exact var_strings_round_trip. Qed.
Print Assumptions C04_var_strings_round_trip.

Example C04_valid_case : valid_utf8 [104; 195; 169; 226; 130; 172].
Proof. exists [104; 233; 8364]. split; [|reflexivity]. repeat constructor; unfold is_scalar; lia. Qed.
Example C04_invalid_case : ~ valid_utf8 [255] /\ flat_map encode_rune (runes [255]) = [239; 191; 189].
Proof. split; [|reflexivity]. exact invalid_255. Qed.

(** ** C05 *)
Theorem C05_sizeof_exact :
  (forall b, exists bs, Emits (PutBool b) bs /\ sz_Bool = zlen bs) /\
  (forall i, exists bs, Emits (PutInt8 i) bs /\ sz_Int8 = zlen bs) /\
  (forall i, exists bs, Emits (PutInt16 i) bs /\ sz_Int16 = zlen bs) /\
  (forall i, exists bs, Emits (PutInt32 i) bs /\ sz_Int32 = zlen bs) /\
  (forall i, exists bs, Emits (PutInt64 i) bs /\ sz_Int64 = zlen bs) /\
  (forall n, exists bs, Emits (PutArrayLength n) bs /\ sz_ArrayLength = zlen bs) /\
  (forall s, exists bs, Emits (PutBytes s) bs /\ sz_Bytes s = int32 (zlen bs)) /\
  (forall s, exists bs, Emits (PutString s) bs /\ sz_String s = int32 (zlen bs)) /\
  (forall s, exists bs, Emits (PutInt32Array s) bs /\ sz_Int32Array s = int32 (zlen bs)) /\
  (forall s, exists bs, Emits (PutInt64Array s) bs /\ sz_Int64Array s = int32 (zlen bs)) /\
  (forall s, exists bs, Emits (PutStringArray s) bs /\ sz_StringArray s = int32 (zlen bs)) /\
  (forall i, exists bs, Emits (PutVarInt i) bs /\ sz_VarInt i = zlen bs) /\
  (forall s, exists bs, Emits (PutVarBytes s) bs /\ sz_VarBytes s = int32 (zlen bs)) /\
  (forall s, valid_utf8 s -> exists bs, Emits (PutVarString s) bs /\ sz_VarString s = int32 (zlen bs)).
Proof. exact sizeof_exact. Qed.
Print Assumptions C05_sizeof_exact.

Example C05_case : sz_StringArray (Some [[65; 66]; []]) = 10 /\ sz_VarInt (-65) = 2 /\ valid_utf8 [65].
Proof.
  split; [reflexivity|]. split; [reflexivity|]. exists [65]. split; [|reflexivity].
  repeat constructor; unfold is_scalar; lia.
Qed.

(** ** C06.  Full statement: for every [s] that fits, what PutNullableString
    emits is read back by NullableString as [s].  False for nil: *)
Theorem C06_nullable_string_refuted :
  exists bs, Emits (PutNullableString None) bs /\ Decodes dNullableString bs (Some []) /\
    ~ Decodes dNullableString bs None.
Proof. exact nullable_null. Qed.
Print Assumptions C06_nullable_string_refuted.

(** In fact NullableString never returns nil. *)
Theorem C06_never_null_refuted : forall d d', dNullableString d <> DOk None d'.
Proof. exact nullable_never_null. Qed.
Print Assumptions C06_never_null_refuted.

(** Missing: the nil case. *)
Theorem C06_nullable_string_partial : forall s, zlen s < 2 ^ 15 ->
  exists bs, Emits (PutNullableString (Some s)) bs /\ Decodes dNullableString bs (Some s).
Proof. exact nullable_some. Qed.
Print Assumptions C06_nullable_string_partial.

(** ** C07.  Full statement: for every string and array the encoder either
    reports an error or what it emits is read back as the same value.  False:
    no error is ever reported by a writer that works ([Emits] includes it), and
    an overlong value is never read back, at any length beyond the limit. *)
Theorem C07_length_corruption_refuted :
  (forall s, 2 ^ 15 <= zlen s -> exists bs, Emits (PutString s) bs /\ ~ Decodes dString bs s) /\
  (forall s, 2 ^ 31 <= glen s -> exists bs, Emits (PutBytes s) bs /\ ~ Decodes dBytes bs s) /\
  (forall s, 2 ^ 31 <= glen s -> exists bs, Emits (PutInt32Array s) bs /\ ~ Decodes dInt32Array bs s) /\
  (forall s, 2 ^ 31 <= glen s -> exists bs, Emits (PutInt64Array s) bs /\ ~ Decodes dInt64Array bs s) /\
  (forall s, 2 ^ 31 <= glen s -> exists bs, Emits (PutStringArray s) bs /\ ~ Decodes dStringArray bs s).
Proof. exact length_corruption. Qed.
Print Assumptions C07_length_corruption_refuted.

(** A concrete long string: what 32768 bytes look like to the reader. *)
Theorem C07_long_string_witness_refuted :
  exists s, zlen s = 32768 /\ Forall is_byte s /\
    forall d rest, dec_ok d -> frame d = be 2 (zlen s) ++ s ++ rest -> dString d = DPanic.
Proof. exact long_string_witness. Qed.
Print Assumptions C07_long_string_witness_refuted.

(** Missing: values beyond the limits (exactly those, by the theorem above). *)
Theorem C07_no_length_corruption_partial :
  (forall s, zlen s < 2 ^ 15 -> exists bs, Emits (PutString s) bs /\ Decodes dString bs s) /\
  (forall s, glen s < 2 ^ 31 -> exists bs, Emits (PutBytes s) bs /\ Decodes dBytes bs (Some (items s))) /\
  (forall s, glen s < 2 ^ 31 -> Forall is_int32 (items s) ->
     exists bs, Emits (PutInt32Array s) bs /\ Decodes dInt32Array bs s) /\
  (forall s, glen s < 2 ^ 31 -> Forall is_int64 (items s) ->
     exists bs, Emits (PutInt64Array s) bs /\ Decodes dInt64Array bs s) /\
  (forall s, glen s < 2 ^ 31 -> Forall (fun x => zlen x < 2 ^ 15) (items s) ->
     exists bs, Emits (PutStringArray s) bs /\ Decodes dStringArray bs s).
Proof. exact no_length_corruption. Qed.
Print Assumptions C07_no_length_corruption_partial.

(** ** C08.  Full statement: for every writer and every sequence of calls on a
    new encoder, if write number k failed with x then it is the last write and
    Flush returns x.  False for PutVarBytes, PutVarString and PutRecordHeader: *)
Theorem C08_sticky_errors_refuted :
  exists t cs k x, t_log t = [] /\ let e := perform_all cs (NewEncoder t) in
    failed_at (e_target e) k x /\ length (t_log (e_target e)) <> S k /\ Flush e = None.
Proof. exact sticky_refuted. Qed.
Print Assumptions C08_sticky_errors_refuted.

(** For all the other methods, any writer. Missing: the three methods above. *)
Theorem C08_sticky_errors_partial : forall t cs, t_log t = [] ->
  forallb (fun c => negb (unguarded c)) cs = true ->
  let e := perform_all cs (NewEncoder t) in
  forall k x, failed_at (e_target e) k x -> length (t_log (e_target e)) = S k /\ Flush e = Some x.
Proof. exact sticky_guarded. Qed.
Print Assumptions C08_sticky_errors_partial.

(** For all methods, writers that keep reporting their first error (bufio does):
    Flush returns the first error, and at most one further write is attempted. *)
Theorem C08_sticky_writer_partial : forall t cs, t_log t = [] -> sticky t ->
  let e := perform_all cs (NewEncoder t) in
  forall k x, failed_at (e_target e) k x ->
    Flush e = Some x /\
    exists k0, failed_at (e_target e) k0 x /\ (length (t_log (e_target e)) <= k0 + 2)%nat.
Proof. exact sticky_writer. Qed.
Print Assumptions C08_sticky_writer_partial.

(** Calls after a recorded failure: nothing written, the error kept. All methods, all writers. *)
Theorem C08_after_error : forall cs e x, e_err e = Some x -> perform_all cs e = e /\ Flush (perform_all cs e) = Some x.
Proof. exact after_error. Qed.
Print Assumptions C08_after_error.

Example C08_case : let t := mkTarget (fun log _ => if (1 <? zlen log) then Some (ErrOther 7) else None) None [] in
  let e := perform_all [CallInt8 1; CallString [65; 66]; CallInt64 5; CallVarString [65]] (NewEncoder t) in
  t_log (e_target e) = [[1]; [0; 2]; [65; 66]] /\ Flush e = Some (ErrOther 7).
Proof. split; reflexivity. Qed.

(** ** C09, Put methods (messages: C09_message_output in P_Messages) *)
Theorem C09_put_output : forall c, exists bs, forall e, reliable e ->
  reliable (perform c e) /\ output (perform c e) = output e ++ bs /\
  exists new, t_log (e_target (perform c e)) = t_log (e_target e) ++ new.
Proof. exact put_output. Qed.
Print Assumptions C09_put_output.

Example C09_case : reliable (NewEncoder reliable_target) /\
  output (perform (CallString [65]) (perform (CallInt8 3) (NewEncoder reliable_target))) = [3; 0; 1; 65].
Proof. split; [exact reliable_new|reflexivity]. Qed.

(** ** C10 *)
Theorem C10_decoder_bounds :
  Bounded dBool /\ Bounded dInt8 /\ Bounded dInt16 /\ Bounded dInt32 /\ Bounded dInt64 /\ Bounded dArrayLength /\
  Bounded dString /\ Bounded dNullableString /\ Bounded dBytes /\
  Bounded dInt32Array /\ Bounded dInt64Array /\ Bounded dStringArray /\
  (forall n, 0 <= n -> Bounded (dDiscard n)).
Proof. exact decoder_bounds. Qed.
Print Assumptions C10_decoder_bounds.

(** A fixed-width read succeeds exactly when enough bytes remain, and moves by
    its width; otherwise it reports insufficient data and does not move. *)
Definition reads_exactly {A} (m : Dec A) (n : Z) : Prop :=
  forall d, dec_ok d ->
    (n <= zlen (frame d) /\ exists x, m d = DOk x (advance n d)) \/
    (zlen (frame d) < n /\ m d = DErr ErrShortBuffer d).
Theorem C10_fixed_width_reads :
  reads_exactly dBool 1 /\ reads_exactly dInt8 1 /\ reads_exactly dInt16 2 /\
  reads_exactly dInt32 4 /\ reads_exactly dInt64 8.
Proof. exact fixed_width_reads. Qed.
Print Assumptions C10_fixed_width_reads.

(** The other outcome, a panic, happens exactly on a negative length prefix. *)
Theorem C10_panics_exactly_on_negative_length : forall d, dec_ok d ->
  (dString d = DPanic <-> exists n d', dInt16 d = DOk n d' /\ n < -1) /\
  (dBytes d = DPanic <-> exists n d', dInt32 d = DOk n d' /\ n < 0) /\
  (dInt32Array d = DPanic <-> exists n d', dInt32 d = DOk n d' /\ n < -1) /\
  (dInt64Array d = DPanic <-> exists n d', dInt32 d = DOk n d' /\ n < -1).
Proof. exact panics_on_negative_length. Qed.
Print Assumptions C10_panics_exactly_on_negative_length.

Example C10_case : dec_ok (NewDecoder [0; 5; 65; 66] 4) /\
  dString (NewDecoder [0; 5; 65; 66] 4) = DErr ErrShortBuffer (mkDecoder [0; 5; 65; 66] 4 2) /\
  dString (NewDecoder [255; 254; 65; 66] 4) = DPanic.
Proof. split; [unfold dec_ok; cbn; lia|]. split; reflexivity. Qed.

(** ** C11.  Full statement: on a sequence that does not fit 64 bits VarInt
    returns the overflow error and the decoder is exhausted.  False, for every
    such sequence: it returns 0 without error and moves backwards. *)
Theorem C11_varint_overflow_refuted : forall d a b rest, dec_ok d -> frame d = a ++ b :: rest ->
  Forall continues a -> b < 128 -> overlong a b ->
  dVarInt d = DOk 0 (advance (- (zlen a + 1)) d).
Proof. exact dVarInt_overlong. Qed.
Print Assumptions C11_varint_overflow_refuted.
Theorem C11_no_overflow_error_refuted : forall d d', dVarInt d <> DErr ErrVarIntOverflow d'.
Proof. exact dVarInt_no_overflow_error. Qed.
Print Assumptions C11_no_overflow_error_refuted.

(** Missing: overlong sequences.  All the others are read as the number they denote. *)
Theorem C11_varint_value_partial : forall d a b rest, dec_ok d -> frame d = a ++ b :: rest ->
  Forall is_byte a -> Forall continues a -> 0 <= b < 128 -> ~ overlong a b ->
  dVarInt d = DOk (unzz (value128 (a ++ [b]))) (advance (zlen a + 1) d) /\ is_int64 (unzz (value128 (a ++ [b]))).
Proof. exact varint_denotes. Qed.
Print Assumptions C11_varint_value_partial.

Example C11_case : overlong (repeat 255 9) 2 /\ Forall continues (repeat 255 9) /\
  dVarInt (on (repeat 255 9 ++ [2])) = DOk 0 (mkDecoder (repeat 255 9 ++ [2]) 10 (-10)) /\
  dInt8 (mkDecoder (repeat 255 9 ++ [2]) 10 (-10)) = DPanic.
Proof. split; [right; cbn; lia|]. split; [repeat constructor; discriminate|]. split; reflexivity. Qed.

(** ** C12, primitive decoders (messages: C12_messages_local in P_Messages).
    Full statement: every decoder method is [Local].  False for VarInt (hence
    VarBytes, VarString): *)
Theorem C12_varint_local_refuted : ~ Local dVarInt.
Proof. exact varint_not_local. Qed.
Print Assumptions C12_varint_local_refuted.

(** Missing: the var decoders on unterminated or overlong varints. *)
Theorem C12_primitives_local_partial :
  Local dBool /\ Local dInt8 /\ Local dInt16 /\ Local dInt32 /\ Local dInt64 /\ Local dArrayLength /\
  Local dString /\ Local dNullableString /\ Local dBytes /\
  Local dInt32Array /\ Local dInt64Array /\ Local dStringArray /\ (forall n, 0 <= n -> Local (dDiscard n)).
Proof. exact primitives_local. Qed.
Print Assumptions C12_primitives_local_partial.
Theorem C12_varint_local_partial : forall d1 d2 a b rest, dec_ok d1 -> dec_ok d2 ->
  frame d1 = a ++ b :: rest -> frame d2 = a ++ b :: rest ->
  Forall continues a -> b < 128 -> ~ overlong a b ->
  same_outcome (dVarInt d1) (dVarInt d2).
Proof. exact varint_local. Qed.
Print Assumptions C12_varint_local_partial.

Example C12_case : let d1 := mkDecoder [1; 2; 3; 4; 5; 6] 4 1 in let d2 := mkDecoder [9; 9; 2; 3; 4; 77] 5 2 in
  dec_ok d1 /\ dec_ok d2 /\ frame d1 = frame d2 /\ dInt16 d1 = DOk 515 (mkDecoder [1; 2; 3; 4; 5; 6] 4 3).
Proof. unfold dec_ok; cbn; repeat split; lia. Qed.
