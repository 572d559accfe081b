(** * Model of gen.broker.go: requests, responses and version negotiation *)
From Coq Require Import String.
From Verif Require Import GoBase Encoder Decoder Sizeof Link Msg01 Msg04 BrokerTable.

(** gen.broker.go:1275-1324.  The struct of 48 int16 fields, read as a function
    from field to value. *)
Definition apiVersion : Type := api -> Z.

(** [var av apiVersion], [apiVersion{}] *)
Definition no_versions : apiVersion := fun _ => 0.

Definition api_eqb (a b : api) : bool := api_index a =? api_index b.

(** [av.F = x] *)
Definition set_version (a : api) (x : Z) (av : apiVersion) : apiVersion :=
  fun b => if api_eqb b a then x else av b.

(** The first closure of every request method (e.g. gen.broker.go:71-82 for
    Produce): [size] is the int32 sum of the two sizes. *)
Definition encode_request (m : method) (av : apiVersion) (clientID : gostring)
    (req : c_type (m_req m)) (correlationID : Z) : Encoder -> Encoder :=
  let hdr := mkRequestHeader (m_key m) (av (m_v_header m)) correlationID clientID in
  let size := add32 (RequestHeader_Size (m_header_size m) hdr) (c_size (m_req m) (av (m_v_size m)) req) in
  (PutInt32 size >>
   RequestHeader_Encode (m_header_encode m) hdr >>
   c_encode (m_req m) (av (m_v_encode m)) req)%enc.

(** The second closure of every request method (e.g. gen.broker.go:84-86): decodes
    into [var resp], the zero value. *)
Definition decode_response (m : method) (av : apiVersion) : Dec (c_type (m_resp m)) :=
  c_decode (m_resp m) (av (m_v_decode m)) (c_zero (m_resp m)).

(** ** Negotiation *)

(** gen.broker.go:1582-1589.  [Some None] is the error return, [None] means the
    loop has not ended after [fuel] tests of its condition.  The variable
    tested in the body is not the loop variable but a new one, initialised to
    apiKey.MaxVersion.  [version--] wraps as int16. *)
Fixpoint match_loop (fuel : nat) (apiKey : ApiVersionsResponseKey18) (minVersion maxVersion : Z) (version : Z)
  : option (option Z) :=
  match fuel with
  | O => None
  | S fuel' =>
      if ApiVersionsResponseKey18_MinVersion apiKey <=? version then
        let version' := ApiVersionsResponseKey18_MaxVersion apiKey in
        if (minVersion <=? version') && (version' <=? maxVersion) then Some (Some version')
        else match_loop fuel' apiKey minVersion maxVersion (int16 (version - 1))
      else Some None
  end.
Definition matchVersion (fuel : nat) (apiKey : ApiVersionsResponseKey18) (minVersion maxVersion : Z) :=
  match_loop fuel apiKey minVersion maxVersion (ApiVersionsResponseKey18_MaxVersion apiKey).

(** [switch apiKey.ApiKey]: the first case with an equal constant, if any
    (gen.broker.go:1336-1577). *)
Fixpoint find_case (key : Z) (cases : list (Z * (api * Z * Z))) : option (api * Z * Z) :=
  match cases with
  | [] => None
  | (k, c) :: rest => if key =? k then Some c else find_case key rest
  end.

(** gen.broker.go:1329-1580: [Some None] is the error return. *)
Fixpoint negotiate_loop (fuel : nat) (apiKeys : list ApiVersionsResponseKey18) (av : apiVersion)
  : option (option apiVersion) :=
  match apiKeys with
  | [] => Some (Some av)
  | apiKey :: rest =>
      match find_case (ApiVersionsResponseKey18_ApiKey apiKey) negotiation_cases with
      | None => negotiate_loop fuel rest av
      | Some (f, lo, hi) =>
          match matchVersion fuel apiKey lo hi with
          | Some (Some x) => negotiate_loop fuel rest (set_version f x av)
          | Some None => Some None
          | None => None
          end
      end
  end.
Definition negotiateApiVersions (fuel : nat) (apiKeys : list ApiVersionsResponseKey18) : option (option apiVersion) :=
  negotiate_loop fuel apiKeys no_versions.
