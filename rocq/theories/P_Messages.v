(** * Properties of the 218 generated message types: C09, C12 to C19 *)
From Coq Require Import String.
From Verif Require Import GoBase Binary Utf8 Encoder Decoder Sizeof Calls Spec SchemaSpec Link
  Msg01 Msg02 Msg03 Msg04 AllMessages MsgProps.
Local Open Scope list_scope.
Local Open Scope Z_scope.

(** [all_codecs] lists every generated type with its methods, as translated
    from message/messages.gen.go.  [c_to] reads a Go struct as the tuple of its
    fields; it loses nothing and reaches every tuple: *)
Theorem all_codecs_faithful : List.length all_codecs = 218%nat /\ NoDup (map fst all_codecs) /\
  forall name c, In (name, c) all_codecs ->
    (forall m1 m2, c_to c m1 = c_to c m2 -> m1 = m2) /\ (forall x, exists m, c_to c m = x) /\
    c_to c (c_zero c) = zeros (c_schema c).
Proof. exact (conj eq_refl (conj codec_names_distinct fields_faithful)). Qed.
Print Assumptions all_codecs_faithful.

(** The examples use [sample_response] and [sample_request] of MsgProps.v: one
    Fetch response with a nested topic, partition and aborted transaction, and
    one Metadata request. *)
Example samples_listed : In ("FetchResponse"%string, FetchResponse_codec) all_codecs /\
  In ("MetadataRequest"%string, MetadataRequest_codec) all_codecs.
Proof. split; cbn [all_codecs In]; tauto. Qed.
Example samples_fit : fit FetchResponse_schema 11 (c_to FetchResponse_codec sample_response) /\
  fit MetadataRequest_schema 9 (c_to MetadataRequest_codec sample_request) /\
  wholes FetchResponse_schema 11 (c_to FetchResponse_codec sample_response).
Proof. exact samples_ok. Qed.

(** ** C09 *)
Theorem C09_message_output : forall name c, In (name, c) all_codecs -> forall v m,
  exists bs, forall e, reliable e ->
    reliable (c_encode c v m e) /\ output (c_encode c v m e) = output e ++ bs /\
    exists new, t_log (e_target (c_encode c v m e)) = t_log (e_target e) ++ new.
Proof. exact message_output. Qed.
Print Assumptions C09_message_output.

(** ** C10, C12 *)
Theorem C10_messages_bounded : forall name c, In (name, c) all_codecs -> forall v old, Bounded (c_decode c v old).
Proof. exact messages_bounded. Qed.
Print Assumptions C10_messages_bounded.
Theorem C12_messages_local : forall name c, In (name, c) all_codecs -> forall v old, Local (c_decode c v old).
Proof. exact messages_local. Qed.
Print Assumptions C12_messages_local.

(** ** C13.  Full statement: no decoder panics on any bytes.  False for every
    message that carries a string, byte array or primitive array: *)
Theorem C13_panic_refuted : forall name c, In (name, c) all_codecs -> forall v, safes (c_schema c) v = false ->
  exists bs, Forall is_byte bs /\
    forall old d rest, dec_ok d -> frame d = bs ++ rest -> c_decode c v old d = DPanic.
Proof. exact messages_panic. Qed.
Print Assumptions C13_panic_refuted.
(** For instance a Fetch response (the API's main answer) with null records. *)
Theorem C13_null_records_refuted : exists bs, Forall is_byte bs /\
  FetchResponse_Decode 11 FetchResponse_zero (NewDecoder bs (zlen bs)) = DPanic.
Proof. exact null_records_panic. Qed.
Print Assumptions C13_null_records_refuted.
(** Missing: exactly the types of C13_panic_refuted. *)
Theorem C13_no_panic_partial : forall name c, In (name, c) all_codecs -> forall v, safes (c_schema c) v = true ->
  forall old d, dec_ok d -> c_decode c v old d <> DPanic.
Proof. exact messages_nopanic. Qed.
Print Assumptions C13_no_panic_partial.
Example C13_case : safes HeartbeatResponse_schema 3 = true /\ safes FetchResponse_schema 11 = false.
Proof. split; reflexivity. Qed.

(** ** C14 *)
Theorem C14_size_is_encoded_length : forall name c, In (name, c) all_codecs -> forall v m,
  exists bs, Emits (c_encode c v m) bs /\ c_size c v m = int32 (zlen bs).
Proof. exact size_is_length. Qed.
Print Assumptions C14_size_is_encoded_length.
Example C14_case : FetchResponse_Size 11 sample_response = 83 /\
  zlen (output (FetchResponse_Encode 11 sample_response (NewEncoder (mkTarget (fun _ _ => None) None [])))) = 83.
Proof. split; reflexivity. Qed.

(** ** C15 *)
Theorem C15_round_trip : forall name c, In (name, c) all_codecs -> forall v m,
  fit (c_schema c) v (c_to c m) ->
  exists bs m', Emits (c_encode c v m) bs /\ Decodes (c_decode c v (c_zero c)) bs m' /\
    c_to c m' = receive (c_schema c) v (zeros (c_schema c)) (c_to c m).
Proof. exact round_trip. Qed.
Print Assumptions C15_round_trip.
(** When every field is carried and none is nil, the very same message comes back. *)
Theorem C15_round_trip_same : forall name c, In (name, c) all_codecs -> forall v m,
  fit (c_schema c) v (c_to c m) -> wholes (c_schema c) v (c_to c m) ->
  exists bs, Emits (c_encode c v m) bs /\ Decodes (c_decode c v (c_zero c)) bs m.
Proof. exact round_trip_same. Qed.
Print Assumptions C15_round_trip_same.
Example C15_case :
  let out := output (FetchResponse_Encode 3 sample_response (NewEncoder (mkTarget (fun _ _ => None) None []))) in
  FetchResponse_Decode 3 FetchResponse_zero (NewDecoder (out ++ [9; 9]) (zlen out + 2)) =
  DOk (mkFetchResponse 100 0 0 (Some [mkFetchableTopicResponse1 [116; 49]
        (Some [mkFetchablePartitionResponse1 0 0 42 0 0 None 0 (Some [1; 2; 3])])]))
      (mkDecoder (out ++ [9; 9]) (zlen out + 2) (zlen out)).
Proof. vm_compute. reflexivity. Qed.

(** ** C16 *)
Theorem C16_truncation : forall name c, In (name, c) all_codecs -> forall v m,
  fit (c_schema c) v (c_to c m) -> forall old bs, Emits (c_encode c v m) bs ->
  forall d k, dec_ok d -> (k < List.length bs)%nat -> frame d = firstn k bs ->
  exists e d', c_decode c v old d = DErr e d' /\ IsInsufficientDataError e = true.
Proof. exact truncated. Qed.
Print Assumptions C16_truncation.

(** ** C17 *)
Theorem C17_injective : forall name c, In (name, c) all_codecs -> forall v m1 m2 bs1 bs2 r1 r2,
  fit (c_schema c) v (c_to c m1) -> fit (c_schema c) v (c_to c m2) ->
  Emits (c_encode c v m1) bs1 -> Emits (c_encode c v m2) bs2 -> bs1 ++ r1 = bs2 ++ r2 ->
  bs1 = bs2 /\
  receive (c_schema c) v (zeros (c_schema c)) (c_to c m1) = receive (c_schema c) v (zeros (c_schema c)) (c_to c m2).
Proof. exact injective. Qed.
Print Assumptions C17_injective.
Theorem C17_sequence : forall name c, In (name, c) all_codecs -> forall v ms,
  (forall m, In m ms -> fit (c_schema c) v (c_to c m)) ->
  exists bs ms', Emits (foreach (c_encode c v) ms) bs /\
    Decodes (repeat_dec (List.length ms) (c_decode c v (c_zero c))) bs ms' /\
    map (c_to c) ms' = map (fun m => receive (c_schema c) v (zeros (c_schema c)) (c_to c m)) ms.
Proof. exact sequence. Qed.
Print Assumptions C17_sequence.

(** ** C18 *)
Theorem C18_layout : forall name c, In (name, c) all_codecs -> forall v m,
  Emits (c_encode c v m) (wires (c_schema c) v (c_to c m)).
Proof. exact layout. Qed.
Print Assumptions C18_layout.
Example C18_case : wires MetadataRequest_schema 4 (c_to MetadataRequest_codec sample_request) =
  [0; 0; 0; 2; 0; 1; 97; 0; 0; 1].
Proof. vm_compute. reflexivity. Qed.

(** ** C19 *)
Theorem C19_failing_writer : forall name c, In (name, c) all_codecs -> forall v m t, t_log t = [] ->
  let e := c_encode c v m (NewEncoder t) in
  exists bs rest, Emits (c_encode c v m) bs /\ bs = output e ++ rest /\
    (forall k x, failed_at (e_target e) k x -> List.length (t_log (e_target e)) = S k /\ Flush e = Some x) /\
    ((forall k x, ~ failed_at (e_target e) k x) -> rest = []).
Proof. exact failing_writer. Qed.
Print Assumptions C19_failing_writer.
Example C19_case : let t := mkTarget (fun log _ => if 1 <? zlen log then Some (ErrOther 7) else None) None [] in
  let e := MetadataRequest_Encode 4 sample_request (NewEncoder t) in
  t_log t = [] /\ output e = [0; 0; 0; 2; 0; 1; 97] /\ Flush e = Some (ErrOther 7).
Proof. repeat split. Qed.
