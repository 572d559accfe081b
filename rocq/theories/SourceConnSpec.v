(** * The connection as the text has it

    The machine that runs the trees GoFlow.v makes of gen.conn.go.  Callers of Do, the message
    loop, readLoop and callers of Close are trees; what they share is a [memory].  A move
    is one answer to one question, of whoever the scheduler picks, or one step inside a
    call of the ring; the questions that concern only the one who asks (and beginning
    an operation that others can see the end of) are answered at once ([alone]).

    What the packages around gen.conn.go offer is here as it is in the model: the ring
    (Ring.v), the buffered writer (BufIO.v), the encoder and decoder (Encoder.v,
    Decoder.v), ResponseHeader (Msg01.v).  As in Conn.v whether the connection is closed is
    looked at when a request starts to be encoded, and as in ConnRing.v WriteN is given the
    bytes that came and not the array they are in. *)
From Coq Require Import String.
From Verif Require Import GoBase Encoder Decoder BufIO Msg01 Spec EncProofs Conn ConnRing GoLang GoFlow SourceConn.
From Verif Require Ring.
Local Open Scope string_scope.
Local Open Scope list_scope.
Local Open Scope Z_scope.

Inductive who := Opener | Caller (k : nat) | Loop | Reader | Closer (k : nat).

(** ** What is shared *)
Record memory (R : Type) := mkMem {
  m_raw : rawconn; m_rawclosed : bool;             (* the connection *)
  m_id : Z;                                        (* Conn.id *)
  m_requests : Z -> option val;                    (* Conn.requests *)
  m_mutexes : list (option who);                   (* who holds them *)
  m_signals : list bool;                           (* channels of struct{}: closed? *)
  m_ended : bool;                                  (* the context *)
  m_replies : nat -> option (reply R);             (* the channel made by each call of Do *)
  m_ring : Ring.ring;
  m_encoder : Encoder; m_bufio : bufio;            (* Conn.encoder and the buffered writer under it *)
  m_using : rawconn; m_pieces : list (list Z);     (* while bytes are sent: the connection, what is still to be seen *)
  m_funcs : list ((Z -> Encoder -> Encoder) * Dec R); (* the arguments of each call of Do *)
  m_buffer : list Z; m_decoder : Decoder;          (* of the message loop *)
  m_header : ResponseHeader; m_filled : option R;  (* the response header; what the last DecodeFunc has read *)
  m_came : list Z;                                 (* what raw.Read stored *)
  m_room : Z;                                      (* size of the buffer of readLoop *)
  m_go : list (string * list val) }.               (* goroutines started *)
Arguments mkMem {R}. Arguments m_raw {R}. Arguments m_rawclosed {R}. Arguments m_id {R}. Arguments m_requests {R}.
Arguments m_mutexes {R}. Arguments m_signals {R}. Arguments m_ended {R}. Arguments m_replies {R}. Arguments m_ring {R}.
Arguments m_encoder {R}. Arguments m_bufio {R}. Arguments m_using {R}. Arguments m_pieces {R}. Arguments m_funcs {R}.
Arguments m_buffer {R}. Arguments m_decoder {R}. Arguments m_header {R}. Arguments m_filled {R}. Arguments m_came {R}.
Arguments m_room {R}. Arguments m_go {R}.
Definition put_rawclosed {R} x (m : memory R) : memory R := mkMem (m_raw m) x (m_id m) (m_requests m) (m_mutexes m) (m_signals m) (m_ended m) (m_replies m) (m_ring m) (m_encoder m) (m_bufio m) (m_using m) (m_pieces m) (m_funcs m) (m_buffer m) (m_decoder m) (m_header m) (m_filled m) (m_came m) (m_room m) (m_go m).
Definition put_id {R} x (m : memory R) : memory R := mkMem (m_raw m) (m_rawclosed m) x (m_requests m) (m_mutexes m) (m_signals m) (m_ended m) (m_replies m) (m_ring m) (m_encoder m) (m_bufio m) (m_using m) (m_pieces m) (m_funcs m) (m_buffer m) (m_decoder m) (m_header m) (m_filled m) (m_came m) (m_room m) (m_go m).
Definition put_requests {R} x (m : memory R) : memory R := mkMem (m_raw m) (m_rawclosed m) (m_id m) x (m_mutexes m) (m_signals m) (m_ended m) (m_replies m) (m_ring m) (m_encoder m) (m_bufio m) (m_using m) (m_pieces m) (m_funcs m) (m_buffer m) (m_decoder m) (m_header m) (m_filled m) (m_came m) (m_room m) (m_go m).
Definition put_mutexes {R} x (m : memory R) : memory R := mkMem (m_raw m) (m_rawclosed m) (m_id m) (m_requests m) x (m_signals m) (m_ended m) (m_replies m) (m_ring m) (m_encoder m) (m_bufio m) (m_using m) (m_pieces m) (m_funcs m) (m_buffer m) (m_decoder m) (m_header m) (m_filled m) (m_came m) (m_room m) (m_go m).
Definition put_signals {R} x (m : memory R) : memory R := mkMem (m_raw m) (m_rawclosed m) (m_id m) (m_requests m) (m_mutexes m) x (m_ended m) (m_replies m) (m_ring m) (m_encoder m) (m_bufio m) (m_using m) (m_pieces m) (m_funcs m) (m_buffer m) (m_decoder m) (m_header m) (m_filled m) (m_came m) (m_room m) (m_go m).
Definition put_ended {R} x (m : memory R) : memory R := mkMem (m_raw m) (m_rawclosed m) (m_id m) (m_requests m) (m_mutexes m) (m_signals m) x (m_replies m) (m_ring m) (m_encoder m) (m_bufio m) (m_using m) (m_pieces m) (m_funcs m) (m_buffer m) (m_decoder m) (m_header m) (m_filled m) (m_came m) (m_room m) (m_go m).
Definition put_replies {R} x (m : memory R) : memory R := mkMem (m_raw m) (m_rawclosed m) (m_id m) (m_requests m) (m_mutexes m) (m_signals m) (m_ended m) x (m_ring m) (m_encoder m) (m_bufio m) (m_using m) (m_pieces m) (m_funcs m) (m_buffer m) (m_decoder m) (m_header m) (m_filled m) (m_came m) (m_room m) (m_go m).
Definition put_ring {R} x (m : memory R) : memory R := mkMem (m_raw m) (m_rawclosed m) (m_id m) (m_requests m) (m_mutexes m) (m_signals m) (m_ended m) (m_replies m) x (m_encoder m) (m_bufio m) (m_using m) (m_pieces m) (m_funcs m) (m_buffer m) (m_decoder m) (m_header m) (m_filled m) (m_came m) (m_room m) (m_go m).
Definition put_encoder {R} x (m : memory R) : memory R := mkMem (m_raw m) (m_rawclosed m) (m_id m) (m_requests m) (m_mutexes m) (m_signals m) (m_ended m) (m_replies m) (m_ring m) x (m_bufio m) (m_using m) (m_pieces m) (m_funcs m) (m_buffer m) (m_decoder m) (m_header m) (m_filled m) (m_came m) (m_room m) (m_go m).
Definition put_bufio {R} x (m : memory R) : memory R := mkMem (m_raw m) (m_rawclosed m) (m_id m) (m_requests m) (m_mutexes m) (m_signals m) (m_ended m) (m_replies m) (m_ring m) (m_encoder m) x (m_using m) (m_pieces m) (m_funcs m) (m_buffer m) (m_decoder m) (m_header m) (m_filled m) (m_came m) (m_room m) (m_go m).
Definition put_using {R} x (m : memory R) : memory R := mkMem (m_raw m) (m_rawclosed m) (m_id m) (m_requests m) (m_mutexes m) (m_signals m) (m_ended m) (m_replies m) (m_ring m) (m_encoder m) (m_bufio m) x (m_pieces m) (m_funcs m) (m_buffer m) (m_decoder m) (m_header m) (m_filled m) (m_came m) (m_room m) (m_go m).
Definition put_pieces {R} x (m : memory R) : memory R := mkMem (m_raw m) (m_rawclosed m) (m_id m) (m_requests m) (m_mutexes m) (m_signals m) (m_ended m) (m_replies m) (m_ring m) (m_encoder m) (m_bufio m) (m_using m) x (m_funcs m) (m_buffer m) (m_decoder m) (m_header m) (m_filled m) (m_came m) (m_room m) (m_go m).
Definition put_funcs {R} x (m : memory R) : memory R := mkMem (m_raw m) (m_rawclosed m) (m_id m) (m_requests m) (m_mutexes m) (m_signals m) (m_ended m) (m_replies m) (m_ring m) (m_encoder m) (m_bufio m) (m_using m) (m_pieces m) x (m_buffer m) (m_decoder m) (m_header m) (m_filled m) (m_came m) (m_room m) (m_go m).
Definition put_buffer {R} x (m : memory R) : memory R := mkMem (m_raw m) (m_rawclosed m) (m_id m) (m_requests m) (m_mutexes m) (m_signals m) (m_ended m) (m_replies m) (m_ring m) (m_encoder m) (m_bufio m) (m_using m) (m_pieces m) (m_funcs m) x (m_decoder m) (m_header m) (m_filled m) (m_came m) (m_room m) (m_go m).
Definition put_decoder {R} x (m : memory R) : memory R := mkMem (m_raw m) (m_rawclosed m) (m_id m) (m_requests m) (m_mutexes m) (m_signals m) (m_ended m) (m_replies m) (m_ring m) (m_encoder m) (m_bufio m) (m_using m) (m_pieces m) (m_funcs m) (m_buffer m) x (m_header m) (m_filled m) (m_came m) (m_room m) (m_go m).
Definition put_header {R} x (m : memory R) : memory R := mkMem (m_raw m) (m_rawclosed m) (m_id m) (m_requests m) (m_mutexes m) (m_signals m) (m_ended m) (m_replies m) (m_ring m) (m_encoder m) (m_bufio m) (m_using m) (m_pieces m) (m_funcs m) (m_buffer m) (m_decoder m) x (m_filled m) (m_came m) (m_room m) (m_go m).
Definition put_filled {R} x (m : memory R) : memory R := mkMem (m_raw m) (m_rawclosed m) (m_id m) (m_requests m) (m_mutexes m) (m_signals m) (m_ended m) (m_replies m) (m_ring m) (m_encoder m) (m_bufio m) (m_using m) (m_pieces m) (m_funcs m) (m_buffer m) (m_decoder m) (m_header m) x (m_came m) (m_room m) (m_go m).
Definition put_came {R} x (m : memory R) : memory R := mkMem (m_raw m) (m_rawclosed m) (m_id m) (m_requests m) (m_mutexes m) (m_signals m) (m_ended m) (m_replies m) (m_ring m) (m_encoder m) (m_bufio m) (m_using m) (m_pieces m) (m_funcs m) (m_buffer m) (m_decoder m) (m_header m) (m_filled m) x (m_room m) (m_go m).
Definition put_room {R} x (m : memory R) : memory R := mkMem (m_raw m) (m_rawclosed m) (m_id m) (m_requests m) (m_mutexes m) (m_signals m) (m_ended m) (m_replies m) (m_ring m) (m_encoder m) (m_bufio m) (m_using m) (m_pieces m) (m_funcs m) (m_buffer m) (m_decoder m) (m_header m) (m_filled m) (m_came m) x (m_go m).
Definition put_go {R} x (m : memory R) : memory R := mkMem (m_raw m) (m_rawclosed m) (m_id m) (m_requests m) (m_mutexes m) (m_signals m) (m_ended m) (m_replies m) (m_ring m) (m_encoder m) (m_bufio m) (m_using m) (m_pieces m) (m_funcs m) (m_buffer m) (m_decoder m) (m_header m) (m_filled m) (m_came m) (m_room m) x.
Definition map_put (m : Z -> option val) (i : Z) (v : option val) : Z -> option val := fun j => if j =? i then v else m j.
Definition put_reply {R} (f : nat -> option (reply R)) (k : nat) (x : option (reply R)) : nat -> option (reply R) :=
  fun j => if Nat.eqb j k then x else f j.

(** ** Questions *)
Inductive outcome (R : Type) :=
| Answer (v : val) (m : memory R)
| Stay (m : memory R)              (* not finished: the question stays *)
| Blocked
| Panics
| Senseless
| Shared.                          (* [alone] only: a question for [together] *)
Arguments Answer {R}. Arguments Stay {R}. Arguments Blocked {R}. Arguments Panics {R}. Arguments Senseless {R}. Arguments Shared {R}.

Definition the_encoder : val := VHandle "message.Encoder" 0.
Definition the_decoder : val := VHandle "message.Decoder" 0.
Definition the_ring : val := VHandle "ring.Buffer" 0.
Definition the_net : val := VHandle "net.Conn" 0.
Definition the_map : val := VHandle "map" 0.
Definition handle (kind : string) (n : nat) (v : val) : bool :=
  match v with VHandle k m => String.eqb k kind && Nat.eqb m n | _ => false end.
Definition number (v : val) : option Z := match v with VInt INT z => Some z | VConst z => Some z | _ => None end.
(** What is new of the bytes accepted by the connection. *)
Definition since (b b' : bufio) : list (list Z) := skipn (length (b_sent b)) (b_sent b').
(** The connection as it is now. *)
Definition net_now {R} (m : memory R) : rawconn := if m_rawclosed m then closed_raw (m_raw m) else m_raw m.
Definition error_of {R} (r : reply R) : val := match r with Value _ => VNil | Failure x => VErr x end.

Section Machine.
(** [dialled]: the error of Dial; [tls]: whether there is a tls configuration. *)
Context {R : Type} (dialled : option error) (tls : bool).
Local Notation mem := (memory R).

(** *** Opening *)
Definition config_val : val :=
  VStruct "config" [("dialer", VHandle "net.Dialer" 0); ("tlsConfig", if tls then VHandle "tls.Config" 0 else VNil)].
Definition connected : val := match dialled with Some x => VTuple [VNil; VErr x] | None => VTuple [the_net; VNil] end.
Definition opening (what : string) (vs : list val) (m : mem) : outcome R :=
  if String.eqb what "kafka.buildConfig" then match vs with [VHandle _ _] => Answer config_val m | _ => Senseless end
  else if String.eqb what "net.Dialer.Dial" then match vs with [d; VStr [116; 99; 112]; VStr _] => if handle "net.Dialer" 0 d then Answer connected m else Senseless | _ => Senseless end
  else if String.eqb what "tls.DialWithDialer" then match vs with
    [d; VStr [116; 99; 112]; VStr _; c] => if handle "net.Dialer" 0 d && handle "tls.Config" 0 c then Answer connected m else Senseless | _ => Senseless end
  else if String.eqb what "fmt.Errorf" then match vs with [VStr _; VStr _; VErr x] => Answer (VErr x) m | _ => Senseless end
  else if String.eqb what "context.Background" then match vs with [] => Answer (VHandle "background" 0) m | _ => Senseless end
  else if String.eqb what "context.WithCancel" then match vs with
    [c] => if handle "background" 0 c then Answer (VTuple [VHandle "context" 0; VHandle "cancel" 0]) m else Senseless | _ => Senseless end
  else if String.eqb what "ring.New" then match vs with [VConst n] => Answer the_ring (put_ring (Ring.New n) m) | _ => Senseless end
  else if String.eqb what "make(chan)" then match vs with [VConst _] => Answer (VHandle "chan request" 0) m | _ => Senseless end
  else if String.eqb what "bufio.NewWriter" then match vs with [c] => if handle "net.Conn" 0 c then Answer (VHandle "bufio.Writer" 0) (put_bufio NewWriter m) else Senseless | _ => Senseless end
  else if String.eqb what "message.NewEncoder" then match vs with
    [w] => if handle "bufio.Writer" 0 w then Answer the_encoder (put_encoder (NewEncoder (target_of (m_raw m) (m_bufio m))) m) else Senseless | _ => Senseless end
  else if String.eqb what "make(chan struct{})" then match vs with [VConst 0] => Answer (VHandle "signal" (length (m_signals m))) (put_signals (m_signals m ++ [false]) m) | _ => Senseless end
  else if String.eqb what "make(map)" then match vs with [VConst 0] => Answer the_map (put_requests (fun _ => None) m) | _ => Senseless end
  else if String.eqb what "new(int32)" then Answer (VHandle "int32" 0) (put_id 0 m)
  else if String.eqb what "new(sync.Mutex)" then Answer (VHandle "mutex" (length (m_mutexes m))) (put_mutexes (m_mutexes m ++ [None]) m)
  else if String.eqb what "go Conn.readLoop" then Answer unit_val (put_go (m_go m ++ [("Conn.readLoop", vs)]) m)
  else if String.eqb what "go Conn.messageLoop" then Answer unit_val (put_go (m_go m ++ [("Conn.messageLoop", vs)]) m)
  else Senseless.

(** *** Questions of one goroutine alone, and beginnings *)
Definition alone (w : who) (what : string) (vs : list val) (m : mem) : outcome R :=
  match w with
  | Opener => opening what vs m
  | Caller k =>
      if String.eqb what "make(chan)" then match vs with [VConst 1] => Answer (VHandle "chan" k) m | _ => Senseless end
      else if String.eqb what "encode()" then
        match vs with
        | [VHandle _ f; e; VInt I32 id] =>
            match nth_error (m_funcs m) f with
            | Some (enc, _) =>
                if handle "message.Encoder" 0 e then
                  let c := net_now m in
                  let e := enc id (mkEncoder (target_of c (m_bufio m)) (e_err (m_encoder m))) in
                  let b := replay c (t_log (e_target e)) (m_bufio m) in
                  Stay (put_using c (put_pieces (since (m_bufio m) b) (put_bufio b (put_encoder e m))))
                else Senseless
            | None => Senseless
            end
        | _ => Senseless
        end
      else if String.eqb what "message.Encoder.Flush" then
        match vs with
        | [e] =>
            if handle "message.Encoder" 0 e then
              let b := match e_err (m_encoder m) with Some _ => m_bufio m | None => b_flush (m_using m) (m_bufio m) end in
              Stay (put_pieces (since (m_bufio m) b) (put_bufio b m))
            else Senseless
        | _ => Senseless
        end
      else Shared
  | Loop =>
      if String.eqb what "make([]byte)" then match vs with [VConst n] => if n <? 0 then Panics else Answer (VHandle "buffer" 0) (put_buffer (repeat 0 (Z.to_nat n)) m) | _ => Senseless end
      else if String.eqb what "len" then match vs with [b] => if handle "buffer" 0 b then Answer (VInt INT (zlen (m_buffer m))) m else Senseless | _ => Senseless end
      else if String.eqb what "message.NewDecoder" then match vs with
        [b; VInt INT n] => if handle "buffer" 0 b then Answer the_decoder (put_decoder (mkDecoder (m_buffer m) 0 n) m) else Senseless | _ => Senseless end
      else if String.eqb what "context.Done" then match vs with [c] => if handle "context" 0 c then Answer (VHandle "done" 0) m else Senseless | _ => Senseless end
      else if String.eqb what "ring.Buffer.ReadN" then
        match vs with
        | [b; buf; n] =>
            match number n with
            | Some n => if handle "ring.Buffer" 0 b && handle "buffer" 0 buf then
                          match Ring.step (m_ring m) (Ring.RCall (zlen (m_buffer m)) n) with Some (g, _) => Stay (put_ring g m) | None => Senseless end
                        else Senseless
            | None => Senseless
            end
        | _ => Senseless
        end
      else if String.eqb what "message.Decoder.Reset" then match vs with
        [d; n] => match number n with Some n => if handle "message.Decoder" 0 d then Answer unit_val (put_decoder (Reset n (mkDecoder (m_buffer m) 0 0)) m) else Senseless | None => Senseless end | _ => Senseless end
      else if String.eqb what "message.Decoder.Int32" then match vs with
        [d] => if handle "message.Decoder" 0 d then
                 match dInt32 (m_decoder m) with
                 | DOk v d => Answer (VTuple [VInt I32 v; VNil]) (put_decoder d m)
                 | DErr x d => Answer (VTuple [VInt I32 0; VErr x]) (put_decoder d m)
                 | DPanic => Panics end
               else Senseless
        | _ => Senseless end
      else if String.eqb what "new(message.ResponseHeader)" then Answer (VHandle "header" 0) (put_header ResponseHeader_zero m)
      else if String.eqb what "header.Decode" then match vs with
        [h; d; VConst v] => if handle "header" 0 h && handle "message.Decoder" 0 d then
                 match ResponseHeader_Decode v (m_header m) (m_decoder m) with
                 | DOk h d => Answer VNil (put_header h (put_decoder d m))
                 | DErr x d => Answer (VErr x) (put_decoder d m)
                 | DPanic => Panics end
               else Senseless
        | _ => Senseless end
      else if String.eqb what "header.CorrelationId" then match vs with [h] => if handle "header" 0 h then Answer (VInt I32 (ResponseHeader_CorrelationId (m_header m))) m else Senseless | _ => Senseless end
      else if String.eqb what "fmt.Println" then Answer unit_val m
      else Shared
  | Reader =>
      if String.eqb what "make([]byte)" then match vs with [VConst n] => if n <? 0 then Panics else Answer (VHandle "buffer" 1) (put_room n m) | _ => Senseless end
      else if String.eqb what "fmt.Println" then Answer unit_val m
      else if String.eqb what "ring.Buffer.WriteN" then
        match vs with
        | [b; buf; VInt INT n] =>
            if handle "ring.Buffer" 0 b && handle "buffer" 1 buf && (n =? zlen (m_came m)) then
              match Ring.step (m_ring m) (Ring.WCall (m_came m) n) with Some (g, _) => Stay (put_ring g m) | None => Senseless end
            else Senseless
        | _ => Senseless
        end
      else Shared
  | Closer _ => Shared
  end.
Fixpoint advance (w : who) (m : mem) (p : proc) {struct p} : mem * proc :=
  match p with
  | Ask what vs k => match alone w what vs m with
                     | Answer v m => advance w m (k v)
                     | Stay m => (m, p)
                     | Shared => (m, p)
                     | Panics => (m, Crash)
                     | Blocked | Senseless => (m, Wrong)
                     end
  | _ => (m, p)
  end.

(** *** Questions whose answers others see *)
Definition next_piece (m : mem) : option (list Z * mem) :=
  match m_pieces m with [] => None | p :: ps => Some (p, put_pieces ps m) end.
Definition together (w : who) (what : string) (vs : list val) (m : mem) : outcome R * list (Conn.event R) :=
  if String.eqb what "atomic.AddInt32" then
    match w, vs with
    | Caller k, [c; VConst d] => if handle "int32" 0 c then let id := int32 (m_id m + d) in (Answer (VInt I32 id) (put_id id m), [EId k id]) else (Senseless, [])
    | _, _ => (Senseless, []) end
  else if String.eqb what "mutex.Lock" then
    match vs with
    | [VHandle _ n] => match nth_error (m_mutexes m) n with
                       | Some None => (Answer unit_val (put_mutexes (set_nth n (Some w) (m_mutexes m)) m), [])
                       | Some (Some _) => (Blocked, [])
                       | None => (Senseless, []) end
    | _ => (Senseless, []) end
  else if String.eqb what "mutex.Unlock" then
    match vs with
    | [VHandle _ n] => match nth_error (m_mutexes m) n with
                       | Some (Some _) => (Answer unit_val (put_mutexes (set_nth n None (m_mutexes m)) m), [])
                       | Some None => (Panics, [])
                       | None => (Senseless, []) end
    | _ => (Senseless, []) end
  else if String.eqb what "m[i]=" then
    match w, vs with
    | Caller k, [t; VInt I32 i; v] => if handle "map" 0 t then (Answer unit_val (put_requests (map_put (m_requests m) i (Some v)) m), [ERegister k]) else (Senseless, [])
    | _, _ => (Senseless, []) end
  else if String.eqb what "m[i]" then
    match vs with
    | [t; VInt I32 i] => if handle "map" 0 t then
        (Answer (VTuple match m_requests m i with
                        | Some v => [v; VBool true]
                        | None => [VStruct "request" [("decode", VNil); ("reply", VNil)]; VBool false] end) m, []) else (Senseless, [])
    | _ => (Senseless, []) end
  else if String.eqb what "delete" then
    match vs with
    | [t; VInt I32 i] => if handle "map" 0 t then
        (Answer unit_val (put_requests (map_put (m_requests m) i None) m), match m_requests m i with Some _ => [] | None => [EDropped i] end) else (Senseless, [])
    | _ => (Senseless, []) end
  else if String.eqb what "encode()" then
    match w, next_piece m with
    | Caller k, Some (p, m) => (Stay m, [ESent k p])
    | Caller _, None => (Answer unit_val m, [])
    | _, _ => (Senseless, []) end
  else if String.eqb what "message.Encoder.Flush" then
    match w, next_piece m with
    | Caller k, Some (p, m) => (Stay m, [ESent k p])
    | Caller k, None => (Answer (as_error (Flush (m_encoder m))) m, [EFlushed k (Flush (m_encoder m))])
    | _, _ => (Senseless, []) end
  else if String.eqb what "<-" then
    match vs with
    | [VHandle kind n] =>
        if String.eqb kind "chan" then
          match m_replies m n with Some r => (Answer (error_of r) (put_replies (put_reply (m_replies m) n None) m), []) | None => (Blocked, []) end
        else if String.eqb kind "signal" then
          match nth_error (m_signals m) n with Some true => (Answer unit_val m, []) | Some false => (Blocked, []) | None => (Senseless, []) end
        else (Senseless, [])
    | _ => (Senseless, []) end
  else if String.eqb what "send" then
    match vs with
    | [VHandle kind n; v] =>
        if String.eqb kind "chan" then
          match m_replies m n, v, m_filled m with
          | Some _, _, _ => (Blocked, [])
          | None, VNil, Some r => (Answer unit_val (put_replies (put_reply (m_replies m) n (Some (Value r))) m), [EReply n (Value r)])
          | None, VErr x, _ => (Answer unit_val (put_replies (put_reply (m_replies m) n (Some (Failure x))) m), [EReply n (Failure x)])
          | _, _, _ => (Senseless, []) end
        else (Senseless, [])
    | _ => (Senseless, []) end
  else if String.eqb what "decode()" then
    match vs with
    | [VHandle _ f; d] =>
        if handle "message.Decoder" 0 d then
          match nth_error (m_funcs m) f with
          | Some (_, dec) => match dec (m_decoder m) with
                             | DOk r d => (Answer VNil (put_filled (Some r) (put_decoder d m)), [])
                             | DErr x d => (Answer (VErr x) (put_filled None (put_decoder d m)), [])
                             | DPanic => (Panics, []) end
          | None => (Senseless, []) end
        else (Senseless, [])
    | _ => (Senseless, []) end
  else if String.eqb what "poll" then
    match vs with [c] => if handle "done" 0 c then (Answer (VBool (m_ended m)) m, []) else (Senseless, []) | _ => (Senseless, []) end
  else if String.eqb what "close" then
    match vs with
    | [VHandle kind n] =>
        if String.eqb kind "signal" then
          match nth_error (m_signals m) n with Some false => (Answer unit_val (put_signals (set_nth n true (m_signals m)) m), []) | Some true => (Panics, []) | None => (Senseless, []) end
        else (Senseless, [])
    | _ => (Senseless, []) end
  else if String.eqb what "cancel()" then
    match vs with [c] => if handle "cancel" 0 c then (Answer unit_val (put_ended true m), []) else (Senseless, []) | _ => (Senseless, []) end
  else if String.eqb what "ring.Buffer.Close" then
    match vs with
    | [b] => if handle "ring.Buffer" 0 b then
               match Ring.step (m_ring m) Ring.CloseCall with Some (g, _) => (Answer unit_val (put_ring g m), []) | None => (Senseless, []) end
             else (Senseless, [])
    | _ => (Senseless, []) end
  else if String.eqb what "net.Conn.Close" then
    match vs with [c] => if handle "net.Conn" 0 c then (Answer VNil (put_rawclosed true m), []) else (Senseless, []) | _ => (Senseless, []) end
  else (Senseless, []).

(** What an observer sees of call [k], which now is at [p]: that it holds the lock and encodes,
    and what it returns. *)
Definition seen_after (k : nat) (what : string) (m : mem) (p : proc) : list (Conn.event R) :=
  if String.eqb what "mutex.Lock" then match p with Ask next _ _ => if String.eqb next "encode()" then [ELock k] else [] | _ => [] end
  else match p with
       | Done v =>
           if String.eqb what "<-" then match m_replies m k with Some r => [EReturn k (Reply r)] | None => [] end
           else match v with VErr x => [EReturn k (WriteError x)] | _ => [] end
       | _ => []
       end.

(** *** Moves *)
Record conf := mkConf { t_mem : mem; t_calls : list proc; t_loop : proc; t_reader : proc; t_closers : list proc }.
Inductive result_of := Fine (m : mem) (p : proc) (evs : list (Conn.event R)) | Not.
(** [w] gets the answer to its question. *)
Definition moves (w : who) (m : mem) (p : proc) : result_of :=
  match p with
  | Ask what vs k =>
      match together w what vs m with
      | (Answer v m1, evs) =>
          let '(m2, p2) := advance w m1 (k v) in
          Fine m2 p2 (evs ++ match w with Caller j => seen_after j what m p2 | _ => [] end)
      | (Stay m1, evs) => Fine m1 p evs
      | (Panics, _) => Fine m Crash []
      | (Blocked, _) => Not
      | (Senseless, _) | (Shared, _) => Fine m Wrong []
      end
  | _ => Not
  end.
(** [w] gets the answer of an operation that others have brought to its end. *)
Definition released (w : who) (m : mem) (p : proc) : mem * proc :=
  match p with Ask _ _ k => advance w m (k unit_val) | _ => (m, Wrong) end.
Definition asks (what : string) (p : proc) : bool := match p with Ask w _ _ => String.eqb w what | _ => false end.

Inductive tlabel :=
| TDo (enc : Z -> Encoder -> Encoder) (dec : Dec R)   (* some goroutine calls Do *)
| TCall (k : nat)            (* call k *)
| TLoop                      (* the message loop *)
| TRing (a : Ring.label)     (* a step inside ReadN or WriteN *)
| TNet (bs : list Z)         (* raw.Read returns these bytes *)
| TNetErr (x : error)        (* raw.Read returns an error *)
| TReader                    (* readLoop otherwise *)
| TClose                     (* some goroutine calls Close *)
| TCloser (k : nat).         (* call k of Close *)

(** The process has panicked. *)
Definition panicked (p : proc) : bool := match p with Crash => true | _ => false end.
Definition dead (c : conf) : bool :=
  ring_crashed (m_ring (t_mem c)) || panicked (t_loop c) || panicked (t_reader c) || existsb panicked (t_calls c) || existsb panicked (t_closers c).

(** [Conn] as Connect makes it. *)
Definition the_conn : val :=
  VStruct "Conn" [("cancel", VHandle "cancel" 0); ("ch", VHandle "chan request" 0); ("doneMessage", VHandle "signal" 0); ("doneRead", VHandle "signal" 1);
    ("encoder", the_encoder); ("err", VNil); ("id", VHandle "int32" 0); ("raw", the_net); ("rb", the_ring);
    ("writeLock", VHandle "mutex" 0); ("readLock", VHandle "mutex" 1); ("requests", the_map)].

(** [fuel]: bounds the rounds of the loops; theorems are about executions shorter than that, for all [fuel]. *)
Context (width : Z) (fuel : nat).
Definition text (f : string) (vs : list val) : proc := call width conn_source fuel f vs Done.

Definition tstep (c : conf) (a : tlabel) : option (conf * list (Conn.event R)) :=
  if dead c then None else
  let m := t_mem c in
  match a with
  | TDo enc dec =>
      let k := length (t_calls c) in
      let '(m, p) := advance (Caller k) (put_funcs (m_funcs m ++ [(enc, dec)]) m) (text "Conn.Do" [the_conn; VHandle "encode" k; VHandle "decode" k]) in
      Some (mkConf m (t_calls c ++ [p]) (t_loop c) (t_reader c) (t_closers c), [Conn.ECall k])
  | TCall k =>
      match nth_error (t_calls c) k with
      | Some p => match moves (Caller k) m p with
                  | Fine m p evs => Some (mkConf m (set_nth k p (t_calls c)) (t_loop c) (t_reader c) (t_closers c), evs)
                  | Not => None end
      | None => None
      end
  | TLoop =>
      if asks "ring.Buffer.ReadN" (t_loop c) then None else
      match moves Loop m (t_loop c) with
      | Fine m p evs => Some (mkConf m (t_calls c) p (t_reader c) (t_closers c), evs)
      | Not => None end
  | TRing b =>
      if inside b then
        match Ring.step (m_ring m) b with
        | None => None
        | Some (g, re) =>
            let m := put_ring g m in
            let '(m, rd) := if wrote re then released Reader m (t_reader c) else (m, t_reader c) in
            match bytes_read re with
            | None => Some (mkConf m (t_calls c) (t_loop c) rd (t_closers c), [])
            | Some bs =>
                let buf := overwrite (m_buffer m) bs in
                let '(m, p) := released Loop (put_buffer buf m) (t_loop c) in
                Some (mkConf m (t_calls c) p rd (t_closers c),
                      match t_loop c with Ask _ [_; _; VInt INT size] _ => if panicked p then [] else [EFrame buf size] | _ => [] end)
            end
        end
      else None
  | TNet bs =>
      match t_reader c with
      | Ask what [c0; b] k =>
          if String.eqb what "net.Conn.Read" && handle "net.Conn" 0 c0 && handle "buffer" 1 b && negb (m_rawclosed m) && (zlen bs <=? m_room m) then
            let '(m, p) := advance Reader (put_came bs m) (k (VTuple [VInt INT (zlen bs); VNil])) in
            Some (mkConf m (t_calls c) (t_loop c) p (t_closers c), [])
          else None
      | _ => None
      end
  | TNetErr x =>
      match t_reader c with
      | Ask what [c0; b] k =>
          if String.eqb what "net.Conn.Read" && handle "net.Conn" 0 c0 && handle "buffer" 1 b then
            let '(m, p) := advance Reader m (k (VTuple [VInt INT 0; VErr x])) in
            Some (mkConf m (t_calls c) (t_loop c) p (t_closers c), [])
          else None
      | _ => None
      end
  | TReader =>
      if asks "ring.Buffer.WriteN" (t_reader c) || asks "net.Conn.Read" (t_reader c) then None else
      match moves Reader m (t_reader c) with
      | Fine m p evs => Some (mkConf m (t_calls c) (t_loop c) p (t_closers c), evs)
      | Not => None end
  | TClose =>
      let k := length (t_closers c) in
      let '(m, p) := advance (Closer k) m (text "Conn.Close" [the_conn]) in
      Some (mkConf m (t_calls c) (t_loop c) (t_reader c) (t_closers c ++ [p]), [])
  | TCloser k =>
      match nth_error (t_closers c) k with
      | Some p => match moves (Closer k) m p with
                  | Fine m p evs => Some (mkConf m (t_calls c) (t_loop c) (t_reader c) (set_nth k p (t_closers c)), evs)
                  | Not => None end
      | None => None
      end
  end.
Fixpoint truns (c : conf) (sched : list tlabel) : option (conf * list (Conn.event R)) :=
  match sched with
  | [] => Some (c, [])
  | a :: rest => match tstep c a with
                 | None => None
                 | Some (c1, e1) => match truns c1 rest with None => None | Some (c2, e2) => Some (c2, e1 ++ e2) end
                 end
  end.

(** *** The start *)
(** Before Connect: nothing has been made. *)
Definition blank (raw : rawconn) : mem :=
  mkMem raw false 0 (fun _ => None) [] [] false (fun _ => None) (Ring.New 0) (NewEncoder (target_of raw NewWriter)) NewWriter raw [] [] []
        (mkDecoder [] 0 0) ResponseHeader_zero None [] 0 [].
(** Connect(addr, opts) *)
Definition opened (raw : rawconn) (addr : list Z) : mem * proc :=
  advance Opener (blank raw) (text "kafka.Connect" [VStr addr; VHandle "options" 0]).
(** The goroutines Connect has started begin. *)
Definition started (m : mem) : option conf :=
  match lookup "Conn.readLoop" (m_go m), lookup "Conn.messageLoop" (m_go m) with
  | Some vs, Some us =>
      let '(m, rd) := advance Reader m (text "Conn.readLoop" vs) in
      let '(m, p) := advance Loop m (text "Conn.messageLoop" us) in
      Some (mkConf m [] p rd [])
  | _, _ => None
  end.
End Machine.
Arguments mkConf {R}. Arguments t_mem {R}. Arguments t_calls {R}. Arguments t_loop {R}. Arguments t_reader {R}. Arguments t_closers {R}.
Arguments TDo {R}. Arguments TCall {R}. Arguments TLoop {R}. Arguments TRing {R}. Arguments TNet {R}. Arguments TNetErr {R}. Arguments TReader {R}.
Arguments TClose {R}. Arguments TCloser {R}. Arguments Fine {R}. Arguments Not {R}.

(** ** Executions *)
(** Encoders write what they write with the methods of message.Encoder, and bytes are bytes. *)
Definition tlegal {R} (a : @tlabel R) : Prop :=
  match a with
  | TDo enc _ => forall id, exists cs, Runs (enc id) cs
  | TNet bs => Forall is_byte bs
  | _ => True
  end.
(** [sched] is an execution, ending in [c], of a connection made by Connect; [evs] is seen. *)
Definition texecutes {R} (tls : bool) (width : Z) (fuel : nat) (raw : rawconn) (addr : list Z) (sched : list (@tlabel R)) (c : conf) (evs : list (Conn.event R)) : Prop :=
  Forall tlegal sched /\ exists m c0,
    opened None tls width fuel raw addr = (m, Done (VTuple [the_conn; VNil])) /\ started None tls width fuel m = Some c0 /\
    truns None tls width fuel c0 sched = Some (c, evs).

(** What comes from outside: calls of Do, and bytes from the network. *)
Definition outside {R} (sched : list (nlabel R)) : list (nlabel R) :=
  filter (fun a => match a with LDo _ _ | LNet _ => true | _ => false end) sched.
Definition outside_text {R} (sched : list (@tlabel R)) : list (nlabel R) :=
  flat_map (fun a => match a with TDo enc dec => [LDo enc dec] | TNet bs => [LNet bs] | _ => [] end) sched.

(** What a call of Do returns *)
Definition result_val {R} (r : result R) : val := match r with WriteError x => VErr x | Reply r => error_of r end.
(** No question was senseless. *)
Definition sensible {R} (c : @conf R) : Prop :=
  t_loop c <> Wrong /\ t_reader c <> Wrong /\ (forall p, In p (t_calls c) -> p <> Wrong) /\ (forall p, In p (t_closers c) -> p <> Wrong).
(** The same calls have returned, with the same results. *)
Definition call_same {R} (p : proc) (c : docall R) : Prop :=
  match k_pc c with PReturned r => p = Done (result_val r) | _ => forall v, p <> Done v end.
Definition closer_same (p : proc) (k : clpc) : Prop :=
  match k with KReturned => p = Done VNil | _ => forall v, p <> Done v end.
Definition shows {R} (c : @conf R) (s : client R) : Prop :=
  dead c = (n_dead s || s_crashed (n_conn s)) /\
  (dead c = false -> sensible c /\ Forall2 call_same (t_calls c) (s_calls (n_conn s)) /\ Forall2 closer_same (t_closers c) (n_closers s)).
