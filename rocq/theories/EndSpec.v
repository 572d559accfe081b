(** * Vocabulary for the properties of method calls over a connection *)
From Verif Require Import GoBase Encoder Decoder Spec Link BrokerTable Broker BufIO Conn ConnRing.

(** The calls of Do, in order: what they are to write and how they are to read. *)
Definition calls {R} (sched : list (nlabel R)) : list ((Z -> Encoder -> Encoder) * Dec R) :=
  flat_map (fun a => match a with LDo enc dec => [(enc, dec)] | _ => [] end) sched.

(** Methods have responses of different types; a response together with its method. *)
Definition response : Type := {m : method & c_type (m_resp m)}.
Definition decode_any (m : method) (av : apiVersion) : Dec response := fun d =>
  match decode_response m av d with
  | DOk r d' => DOk (existT _ m r) d'
  | DErr x d' => DErr x d'
  | DPanic => DPanic
  end.

(** The connection accepts every write. *)
Definition reliable (raw : rawconn) : Prop := forall log data, c_write raw log data = None.

(** What the broker sent in answer to the request with id [id]: every frame with this
    id carries [body], and maybe more bytes after it. *)
Definition answers (fs : list (list Z)) (id : Z) (body : list Z) : Prop :=
  forall f tl, In f fs -> f = be 4 id ++ tl -> exists junk, tl = body ++ junk.
(** It has sent such a frame. *)
Definition answered (fs : list (list Z)) (id : Z) : Prop := exists f, In f fs /\ exists tl, f = be 4 id ++ tl.
