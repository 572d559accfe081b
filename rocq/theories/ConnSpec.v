(** * Vocabulary for the connection properties *)
From Verif Require Import GoBase Encoder Decoder Spec EncProofs BufIO Conn.

(** Executions considered: an EncodeFunc makes some writes in order, stopping at
    the first that fails ([Runs], EncProofs.v; every request method does, see
    [request_runs]); what ReadN stores are bytes. *)
Definition legal {R} (a : clabel R) : Prop :=
  match a with
  | DoCall enc _ => forall id, exists cs, Runs (enc id) cs
  | MRead bs => Forall is_byte bs
  | _ => True
  end.
(** [sched] is an execution of a new connection ending in [s], in which [evs] is seen. *)
Definition executes {R} (raw : rawconn) (cap : Z) (sched : list (clabel R)) (s : conn R) (evs : list (event R)) : Prop :=
  Forall legal sched /\ crun (Connected raw cap) sched = Some (s, evs).

(** The correlation ids handed out, in order. *)
Definition ids {R} (evs : list (event R)) : list Z :=
  flat_map (fun e => match e with EId _ id => [id] | _ => [] end) evs.
(** All bytes that went out on the connection; those of call [k]. *)
Definition wire {R} (evs : list (event R)) : list Z :=
  flat_map (fun e => match e with ESent _ bs => bs | _ => [] end) evs.
Definition sent_by {R} (k : nat) (evs : list (event R)) : list Z :=
  flat_map (fun e => match e with ESent j bs => if Nat.eqb j k then bs else [] | _ => [] end) evs.
(** The calls in the order they obtained the write lock. *)
Definition locks {R} (evs : list (event R)) : list nat :=
  flat_map (fun e => match e with ELock k => [k] | _ => [] end) evs.
(** The replies given to call [k]. *)
Definition replies_to {R} (k : nat) (evs : list (event R)) : list (reply R) :=
  flat_map (fun e => match e with EReply j r => if Nat.eqb j k then [r] else [] | _ => [] end) evs.
(** What call [k] returned. *)
Definition returns_of {R} (k : nat) (evs : list (event R)) : list (result R) :=
  flat_map (fun e => match e with EReturn j r => if Nat.eqb j k then [r] else [] | _ => [] end) evs.

(** The frame in the first [size] bytes of [raw] starts with correlation id [id]. *)
Definition carries (raw : list Z) (size id : Z) : Prop :=
  is_int32 id /\ size <= zlen raw /\ exists rest, firstn (Z.to_nat size) raw = be 4 id ++ rest.
(** What a caller gets to see of a decoding. *)
Definition seen {R} (o : dres R) : option (reply R) :=
  match o with DOk r _ => Some (Value r) | DErr x _ => Some (Failure x) | DPanic => None end.

(** The bytes of the request of call [k] of [s]. *)
Definition request {R} (s : conn R) (k : nat) (bs : list Z) : Prop :=
  exists c, nth_error (s_calls s) k = Some c /\ k_pc c <> PId /\ Emits (k_enc c (k_id c)) bs.
(** The ids of call [k] (at most one); its registrations. *)
Definition id_of {R} (k : nat) (evs : list (event R)) : list Z :=
  flat_map (fun e => match e with EId j id => if Nat.eqb j k then [id] else [] | _ => [] end) evs.
Definition registrations {R} (k : nat) (evs : list (event R)) : list unit :=
  flat_map (fun e => match e with ERegister j => if Nat.eqb j k then [tt] else [] | _ => [] end) evs.
(** What call [k] got from Flush. *)
Definition flushes_of {R} (k : nat) (evs : list (event R)) : list (option error) :=
  flat_map (fun e => match e with EFlushed j fl => if Nat.eqb j k then [fl] else [] | _ => [] end) evs.

(** The broker answers a request only after at least a part of it has reached it,
    and answers it once. *)
Definition solicited {R} (evs : list (event R)) : Prop :=
  forall pre raw size post id, evs = pre ++ EFrame raw size :: post -> carries raw size id ->
    (exists k, In (EId k id) pre /\ sent_by k pre <> []) /\
    (forall raw' size', In (EFrame raw' size') pre -> ~ carries raw' size' id).

(** ** Frames *)
(** The bytes ReadN returned to the message loop. *)
Definition read_bytes {R} (sched : list (clabel R)) : list Z :=
  flat_map (fun a => match a with MRead bs => bs | _ => [] end) sched.
(** The frames the message loop has seen. *)
Definition frames {R} (evs : list (event R)) : list (list Z) :=
  flat_map (fun e => match e with EFrame raw size => [firstn (Z.to_nat size) raw] | _ => [] end) evs.
(** The stream is these frames, each after its size as 4 bytes, and a rest. *)
Inductive parses : list Z -> list (list Z) -> list Z -> Prop :=
| parses_rest w : parses w [] w
| parses_frame size f w fs rest : is_int32 size -> zlen f = Z.max 0 size -> parses w fs rest ->
    parses (be 4 size ++ f ++ w) (f :: fs) rest.
(** No frame can be split off. *)
Definition incomplete (w : list Z) : Prop := forall f fs rest, ~ parses w (f :: fs) rest.
