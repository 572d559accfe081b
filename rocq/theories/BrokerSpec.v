(** * Vocabulary for the broker properties *)
From Coq Require Import String.
From Verif Require Import GoBase Decoder Link Msg01 Msg04 AllMessages BrokerTable Broker.

(** One line of the broker's answer to ApiVersions. *)
Notation entry := ApiVersionsResponseKey18 (only parsing).
Notation e_key := ApiVersionsResponseKey18_ApiKey (only parsing).
Notation e_min := ApiVersionsResponseKey18_MinVersion (only parsing).
Notation e_max := ApiVersionsResponseKey18_MaxVersion (only parsing).

(** Negotiation returns [r] ([None]: an error). *)
Definition negotiates (keys : list entry) (r : option apiVersion) : Prop :=
  exists fuel, negotiateApiVersions fuel keys = Some r.
(** Negotiation never returns. *)
Definition diverges (keys : list entry) : Prop := forall fuel, negotiateApiVersions fuel keys = None.

(** What the library declares for an API, taken from the doc comment of its
    request type in message/messages.gen.go: api key, lowest and highest version. *)
Fixpoint doc (name : string) (l : list (string * (Z * Z * Z))) : option (Z * Z * Z) :=
  match l with
  | [] => None
  | (n, d) :: rest => if String.eqb name n then Some d else doc name rest
  end.
Definition declared (a : api) : option (Z * Z * Z) := doc (api_name a ++ "Request")%string message_docs.

(** [e] is the last entry of [keys] with its key. *)
Definition last_entry (keys : list entry) (e : entry) : Prop :=
  exists pre post, keys = (pre ++ e :: post)%list /\ forall e', In e' post -> e_key e' <> e_key e.

(** The two ranges have a version in common. *)
Definition overlap (e : entry) (lo hi : Z) : Prop := exists v, e_min e <= v <= e_max e /\ lo <= v <= hi.
(** [v] is the highest one. *)
Definition highest_common (e : entry) (lo hi v : Z) : Prop :=
  e_min e <= v <= e_max e /\ lo <= v <= hi /\ forall v', e_min e <= v' <= e_max e -> lo <= v' <= hi -> v' <= v.

(** int16 fields. *)
Definition entry_ok (e : entry) : Prop := is_int16 (e_key e) /\ is_int16 (e_min e) /\ is_int16 (e_max e).

(** Reading a request the way a broker does: size, header, body at version [v]. *)
Definition read_request (m : method) (v : Z) : Dec (Z * (RequestHeader * c_type (m_req m))) :=
  (size <- dInt32 ;;
   h <- RequestHeader_Decode 2 RequestHeader_zero ;;
   r <- c_decode (m_req m) v (c_zero (m_req m)) ;;
   ret (size, (h, r))).
