(** * Broker properties: C20 to C26 *)
From Coq Require Import String Permutation.
From Verif Require Import GoBase Encoder Decoder Sizeof Spec SchemaSpec Link Msg01 Msg03 Msg04 AllMessages
  BrokerTable Broker BrokerSpec BrokerProofs.
Local Open Scope list_scope.
Local Open Scope Z_scope.

(** [all_methods] holds one row per Broker method, read off gen.broker.go:61-1273;
    [declared a] is the api key and version range of the doc comment of the
    API's request type. *)

(** ** C20.  Size field, header with the method's key, the version in use, the
    correlation id and the client id, then the request at that version. *)
Theorem C20_request_frame : forall m, In m all_methods -> exists a lo hi, declared a = Some (m_key m, lo, hi) /\
  m_name m = api_name a /\ m_req_name m = (api_name a ++ "Request")%string /\
  In (m_req_name m, m_req m) all_codecs /\
  forall av clientID req corr, exists body,
    Emits (c_encode (m_req m) (av a) req) body /\
    let hdr := be 2 (m_key m) ++ be 2 (av a) ++ be 4 corr ++ w_string clientID in
    Emits (encode_request m av clientID req corr) (be 4 (zlen (hdr ++ body)) ++ hdr ++ body).
Proof. exact request_frame. Qed.
Print Assumptions C20_request_frame.
(** So a broker reading size, header and request finds exactly them and nothing
    else, for every request whose frame is shorter than 2^31 bytes. *)
Theorem C20_request_readable : forall m, In m all_methods -> forall a, m_name m = api_name a ->
  forall av clientID req corr bytes,
    is_int16 (av a) -> is_int32 corr -> zlen clientID < 2 ^ 15 ->
    fit (c_schema (m_req m)) (av a) (c_to (m_req m) req) ->
    Emits (encode_request m av clientID req corr) bytes -> zlen bytes < 2 ^ 31 ->
    exists req', Decodes (read_request m (av a)) bytes
      (zlen bytes - 4, (mkRequestHeader (m_key m) (av a) corr clientID, req')) /\
      c_to (m_req m) req' = receive (c_schema (m_req m)) (av a) (zeros (c_schema (m_req m))) (c_to (m_req m) req).
Proof. exact request_readable. Qed.
Print Assumptions C20_request_readable.
Example C20_all_methods : List.length all_methods = 48%nat /\ forall a, exists m, In m all_methods /\ m_name m = api_name a.
Proof. exact (conj eq_refl method_exists). Qed.
(** A FindCoordinator request for group "g" at version 1, client "c", id 7. *)
Example C20_example :
  output (encode_request method_FindCoordinator (fun _ => 1) [99] (mkFindCoordinatorRequest [103] 0) 7
    (NewEncoder (mkTarget (fun _ _ => None) None []))) =
  [0;0;0;15; 0;10; 0;1; 0;0;0;7; 0;1;99; 0;1;103; 0].
Proof. reflexivity. Qed.

(** ** C21 *)
Theorem C21_response_version : forall m, In m all_methods -> exists a lo hi, declared a = Some (m_key m, lo, hi) /\
  m_name m = api_name a /\ m_resp_name m = (api_name a ++ "Response")%string /\
  In (m_resp_name m, m_resp m) all_codecs /\
  forall av resp, fit (c_schema (m_resp m)) (av a) (c_to (m_resp m) resp) ->
    exists bs resp', Emits (c_encode (m_resp m) (av a) resp) bs /\ Decodes (decode_response m av) bs resp' /\
      c_to (m_resp m) resp' = receive (c_schema (m_resp m)) (av a) (zeros (c_schema (m_resp m))) (c_to (m_resp m) resp).
Proof. exact response_version. Qed.
Print Assumptions C21_response_version.
Example C21_example : fit FindCoordinatorResponse_schema 1
  (FindCoordinatorResponse_to (mkFindCoordinatorResponse 0 0 [] 3 [104] 9092)).
Proof.
  unfold FindCoordinatorResponse_schema, FindCoordinatorResponse_to. cbn. unfold zlen, is_int32, is_int16. cbn. repeat split; lia.
Qed.

(** ** C22 *)
Theorem C22_negotiated_supported : forall keys av, negotiates keys (Some av) ->
  forall e a key lo hi, last_entry keys e -> declared a = Some (key, lo, hi) -> e_key e = key ->
  e_min e <= av a <= e_max e /\ lo <= av a <= hi.
Proof. exact negotiation_sound. Qed.
Print Assumptions C22_negotiated_supported.
Example C22_example : exists av, negotiates [entry_of 3 0 8; entry_of 18 0 3; entry_of 99 0 4] (Some av) /\
  last_entry [entry_of 3 0 8; entry_of 18 0 3; entry_of 99 0 4] (entry_of 3 0 8) /\
  declared Metadata = Some (3, 0, 9) /\ av Metadata = 8 /\ av ApiVersions = 3.
Proof.
  eexists. split; [exists 1%nat; reflexivity|]. split; [|repeat split].
  exists [], [entry_of 18 0 3; entry_of 99 0 4]. split; [reflexivity|]. cbn. intros e' [<-|[<-|[]]]; discriminate.
Qed.

(** ** C23.  Full statement: if all ranges intersect, negotiation succeeds with
    the highest common version.  False: *)
Theorem C23_overlap_refuted : exists keys, Forall entry_ok keys /\
  (forall e a key lo hi, In e keys -> declared a = Some (key, lo, hi) -> e_key e = key -> overlap e lo hi) /\
  negotiates keys None.
Proof. exact negotiation_incomplete. Qed.
Print Assumptions C23_overlap_refuted.
(** Missing: brokers whose highest version exceeds the library's. *)
Theorem C23_overlap_partial : forall keys,
  (forall e a key lo hi, In e keys -> declared a = Some (key, lo, hi) -> e_key e = key ->
     overlap e lo hi /\ e_max e <= hi) ->
  exists av, negotiates keys (Some av) /\
    forall e a key lo hi, last_entry keys e -> declared a = Some (key, lo, hi) -> e_key e = key ->
      highest_common e lo hi (av a).
Proof. exact negotiation_complete. Qed.
Print Assumptions C23_overlap_partial.
(** The exact condition. *)
Theorem C23_success_iff : forall keys,
  (exists av, negotiates keys (Some av)) <->
  (forall e a key lo hi, In e keys -> declared a = Some (key, lo, hi) -> e_key e = key ->
     e_min e <= e_max e /\ lo <= e_max e <= hi).
Proof. exact negotiation_exact. Qed.
Print Assumptions C23_success_iff.
(** Whenever it succeeds the version is the highest common one. *)
Theorem C23_highest_common : forall keys av, negotiates keys (Some av) ->
  forall e a key lo hi, last_entry keys e -> declared a = Some (key, lo, hi) -> e_key e = key ->
  highest_common e lo hi (av a).
Proof. exact negotiation_highest. Qed.
Print Assumptions C23_highest_common.

(** ** C24.  Full statement: negotiation returns for every answer.  False: *)
Theorem C24_loops_refuted : exists keys, Forall entry_ok keys /\ diverges keys.
Proof. exact negotiation_loops. Qed.
Print Assumptions C24_loops_refuted.
(** Exactly these answers make it run forever. *)
Theorem C24_diverges_iff : forall keys, Forall entry_ok keys ->
  (diverges keys <-> exists pre e post a lo hi, keys = pre ++ e :: post /\
     (forall e' a' key' lo' hi', In e' pre -> declared a' = Some (key', lo', hi') -> e_key e' = key' ->
        e_min e' <= e_max e' /\ lo' <= e_max e' <= hi') /\
     declared a = Some (e_key e, lo, hi) /\ e_min e = - 2 ^ 15 /\ ~ (lo <= e_max e <= hi)).
Proof. exact diverges_iff. Qed.
Print Assumptions C24_diverges_iff.
(** Missing: entries with lowest version -32768. *)
Theorem C24_terminates_partial : forall keys, Forall entry_ok keys -> (forall e, In e keys -> - 2 ^ 15 < e_min e) ->
  exists r, negotiates keys r.
Proof. exact negotiation_terminates. Qed.
Print Assumptions C24_terminates_partial.
Theorem C24_deterministic : forall keys r1 r2, negotiates keys r1 -> negotiates keys r2 -> r1 = r2.
Proof. exact negotiates_det. Qed.
Print Assumptions C24_deterministic.
Example C24_example : Forall entry_ok [entry_of 0 3 40] /\ negotiates [entry_of 0 3 40] None.
Proof. split; [repeat constructor; cbn; unfold is_int16; lia|]. exists 100%nat. reflexivity. Qed.

(** ** C25 *)
Theorem C25_unadvertised_zero : forall keys av, negotiates keys (Some av) ->
  forall a key lo hi, declared a = Some (key, lo, hi) -> (forall e, In e keys -> e_key e <> key) -> av a = 0.
Proof. exact unadvertised_zero. Qed.
Print Assumptions C25_unadvertised_zero.
Theorem C25_unknown_ignored : forall pre e post r,
  (forall a key lo hi, declared a = Some (key, lo, hi) -> e_key e <> key) ->
  (negotiates (pre ++ e :: post) r <-> negotiates (pre ++ post) r).
Proof. exact unknown_ignored. Qed.
Print Assumptions C25_unknown_ignored.
Theorem C25_last_wins : forall keys av, negotiates keys (Some av) ->
  forall e a key lo hi, last_entry keys e -> declared a = Some (key, lo, hi) -> e_key e = key -> av a = e_max e.
Proof. exact last_wins. Qed.
Print Assumptions C25_last_wins.
Theorem C25_order_irrelevant : forall keys keys' av, Permutation keys keys' -> NoDup (map e_key keys) ->
  negotiates keys (Some av) -> exists av', negotiates keys' (Some av') /\ forall a, av' a = av a.
Proof. exact permutation_irrelevant. Qed.
Print Assumptions C25_order_irrelevant.
Example C25_example : exists av, negotiates [entry_of 3 0 8; entry_of 3 1 2; entry_of 99 5 4] (Some av) /\
  av Metadata = 2 /\ av Fetch = 0 /\ last_entry [entry_of 3 0 8; entry_of 3 1 2; entry_of 99 5 4] (entry_of 3 1 2).
Proof.
  eexists. split; [exists 1%nat; reflexivity|]. split; [reflexivity|]. split; [reflexivity|].
  exists [entry_of 3 0 8], [entry_of 99 5 4]. split; [reflexivity|]. cbn. intros e' [<-|[]]; discriminate.
Qed.

(** ** C26 *)
Theorem C26_keys_consistent :
  map m_key all_methods = map Z.of_nat (List.seq 0 48) /\
  NoDup (map m_key all_methods) /\
  NoDup (map m_name all_methods) /\
  (forall m, In m all_methods -> exists a lo hi,
     m_name m = api_name a /\
     doc (m_req_name m) message_docs = Some (m_key m, lo, hi) /\
     doc (m_resp_name m) message_docs = Some (m_key m, lo, hi) /\
     m_req_name m = (m_name m ++ "Request")%string /\ m_resp_name m = (m_name m ++ "Response")%string /\
     m_v_header m = a /\ m_v_encode m = a /\ m_v_decode m = a /\
     forall e av, e_key e = m_key m -> negotiates [e] (Some av) ->
       lo <= av a <= hi /\ forall b, b <> a -> av b = 0).
Proof. exact keys_consistent. Qed.
Print Assumptions C26_keys_consistent.
(** The other direction: a broker offering exactly one supported version of one
    API gets that version in that API's field. *)
Theorem C26_negotiates_own_field : forall m, In m all_methods -> exists a lo hi,
  m_name m = api_name a /\ doc (m_req_name m) message_docs = Some (m_key m, lo, hi) /\ lo <= hi /\
  forall v, lo <= v <= hi -> exists av, negotiates [entry_of (m_key m) v v] (Some av) /\ av a = v.
Proof. exact negotiates_own_field. Qed.
Print Assumptions C26_negotiates_own_field.
