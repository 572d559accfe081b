(** * Vocabulary for the text of ring/buffer.go

    A ring, one goroutine that calls WriteN, one that calls ReadN, anybody that calls
    Close; what the calls do is what GoConc.v makes of the text (SourceRing.v). *)
From Coq Require Import String.
From Verif Require Import GoBase GoLang GoConc SourceRing Ring RingSpec.
Local Open Scope string_scope.
Local Open Scope list_scope.
Local Open Scope Z_scope.

Section Text.
Context (width : Z) (room : Z -> bool) (fuel : nat).

(** A call of a function of the package, up to its first access. *)
Definition enters (m : memory) (f : string) (vs : list val) (s : heap) (m' : memory) (p : proc) : Prop :=
  advance m (GoConc.call width room ring_source fuel f vs s Return) = (m', p).

(** The writer is in no call or at a point of one; the reader's point comes with the n of the call. *)
Record conf := mkConf { c_memory : memory; c_ring : val; c_writer : option proc; c_reader : option (Z * proc) }.

(** What the callers and the scheduler may do.  [n] for ReadN comes with what is in the
    caller's slice. *)
Inductive move :=
| TWrite (data : list Z) (n : Z) | TRead (buf : list Z) (n : Z)
| TWriter | TReader                 (* the goroutine's next access *)
| TMeet (c : nat)                   (* the two meet at a channel *)
| TWriterExpired | TReaderExpired   (* a select takes the case of the ended context *)
| TClose.

(** A call that is done is forgotten; the reader's caller looks at the first n bytes of its slice. *)
Definition written_to (p : proc) : option proc * list event :=
  match p with Return _ _ => (None, [EWrote]) | p => (Some p, []) end.
Definition read_to (n : Z) (p : proc) : option (Z * proc) * list event :=
  match p with Return _ s => (None, [ERead (firstn (Z.to_nat n) (hd [] s))]) | p => (Some (n, p), []) end.

Inductive tstep : conf -> move -> conf -> list event -> Prop :=
| t_write m r rd data n m' p : enters m "Buffer.WriteN" [r; VInts U8 data; VInt INT n] [] m' p ->
    tstep (mkConf m r None rd) (TWrite data n) (mkConf m' r (fst (written_to p)) rd) (EWrite (firstn (Z.to_nat n) data) :: snd (written_to p))
| t_read m r w buf n m' p : enters m "Buffer.ReadN" [r; VView 0 0 (zlen buf); VInt INT n] [buf] m' p ->
    tstep (mkConf m r w None) (TRead buf n) (mkConf m' r w (fst (read_to n p))) (snd (read_to n p))
| t_writer m r p rd m' p' : moves m p m' p' ->
    tstep (mkConf m r (Some p) rd) TWriter (mkConf m' r (fst (written_to p')) rd) (snd (written_to p'))
| t_reader m r w n p m' p' : moves m p m' p' ->
    tstep (mkConf m r w (Some (n, p))) TReader (mkConf m' r w (fst (read_to n p'))) (snd (read_to n p'))
| t_meet c m r p n q m' p' q' : meets c m p q m' p' q' ->
    tstep (mkConf m r (Some p) (Some (n, q))) (TMeet c) (mkConf m' r (fst (written_to p')) (fst (read_to n q'))) (snd (written_to p') ++ snd (read_to n q'))
| t_writer_expired m r p rd m' p' : expires m p m' p' ->
    tstep (mkConf m r (Some p) rd) TWriterExpired (mkConf m' r (fst (written_to p')) rd) (snd (written_to p'))
| t_reader_expired m r w n p m' p' : expires m p m' p' ->
    tstep (mkConf m r w (Some (n, p))) TReaderExpired (mkConf m' r w (fst (read_to n p'))) (snd (read_to n p'))
| t_close m r w rd m1 p m2 s : enters m "Buffer.Close" [r] [] m1 p -> moves m1 p m2 (Return VNil s) ->
    tstep (mkConf m r w rd) TClose (mkConf m2 r w rd) [].

Inductive truns : conf -> list move -> conf -> list event -> Prop :=
| truns_nil c : truns c [] c []
| truns_cons c a c1 e1 rest c2 e2 : tstep c a c1 e1 -> truns c1 rest c2 e2 -> truns c (a :: rest) c2 (e1 ++ e2).

(** What New returns, in a memory with nothing in it. *)
Definition tnew (size : Z) (c : conf) : Prop :=
  exists m l s, enters (mkMemory [] [] 0 []) "ring.New" [VInt INT size] [] m (Return (VRef l) s) /\ c = mkConf m (VRef l) None None.
End Text.

(** The same move in the model: the first channel made is that of readLock, the second that of writeLock. *)
Definition as_label (a : move) : label :=
  match a with
  | TWrite data n => WCall data n | TRead buf n => RCall (zlen buf) n
  | TWriter => WStep | TReader => RStep
  | TMeet 0 => SyncRead | TMeet _ => SyncWrite
  | TWriterExpired => WDone | TReaderExpired => RDone
  | TClose => CloseCall
  end.
(** The memory of a ring. *)
Definition mutex_of (c : nat) (set : bool) : string * list (string * val) :=
  ("mutex", [("ctx", VHandle "context" 0); ("ch", VHandle "chan" c); ("set", VInt I32 (if set then 1 else 0))]).
Definition image (g : ring) : memory :=
  mkMemory
    [mutex_of 0 (g_rset g); mutex_of 1 (g_wset g);
     ("Buffer", [("ctx", VHandle "context" 0); ("cancel", VHandle "cancel" 0); ("data", VHandle "bytes" 0); ("start", VInt I32 (g_start g));
                 ("next", VInt I32 (g_next g)); ("readLock", VRef 0); ("writeLock", VRef 1); ("size", VInt I32 (g_size g))])]
    [g_cells g] 2 [g_closed g].
(** The next thing the writer does is to index its caller's slice out of range. *)
Definition doomed (g : ring) : Prop := exists l, g_w g = WLoop l /\ w_i l < w_n l /\ index (w_data l) (w_i l) = None.
(** A state of the text and one of the model that show the same. *)
Definition shows (c : conf) (g : ring) : Prop :=
  c_memory c = image g /\
  (c_writer c = None <-> g_w g = WIdle) /\ (c_writer c = Some Crash <-> g_w g = WCrash \/ doomed g) /\ c_writer c <> Some Wrong /\
  (c_reader c = None <-> g_r g = RIdle) /\ ((exists n, c_reader c = Some (n, Crash)) <-> g_r g = RCrash) /\ (forall n, c_reader c <> Some (n, Wrong)).

(** The n of every call is an int, and the text is given enough rounds for it. *)
Definition sized (width : Z) (fuel : nat) (a : move) : Prop :=
  match a with TWrite _ n | TRead _ n => n < 2 ^ (width - 1) /\ (Z.to_nat n + 5 <= fuel)%nat | _ => True end.
(** Besides, the channels are those of the ring: there are two. *)
Definition proper (width : Z) (fuel : nat) (a : move) : Prop := sized width fuel a /\ match a with TMeet c => (c < 2)%nat | _ => True end.
(** The slice has n elements: what ring.go asks of its callers without saying so. *)
Definition legal (a : move) : Prop := match a with TWrite data n => n <= zlen data | TRead buf n => n <= zlen buf | _ => True end.

(** The move of a step of the model; the caller's slice is full of zeros. *)
Definition as_move (a : label) : move :=
  match a with
  | WCall data n => TWrite data n | RCall cap n => TRead (repeat 0 (Z.to_nat cap)) n
  | WStep => TWriter | RStep => TReader | SyncRead => TMeet 0 | SyncWrite => TMeet 1
  | WDone => TWriterExpired | RDone => TReaderExpired | CloseCall => TClose
  end.
(** A slice has no negative length. *)
Definition real (a : label) : Prop := match a with RCall cap _ => 0 <= cap | _ => True end.
(** The rounds that suffice for a schedule. *)
Definition enough (sched : list label) : nat :=
  fold_right (fun a m => Nat.max (match a with WCall _ n | RCall _ n => Z.to_nat n + 5 | _ => 3 end) m) 3%nat sched.
Definition int_counts (width : Z) (sched : list label) : Prop :=
  Forall (fun a => match a with WCall _ n | RCall _ n => n < 2 ^ (width - 1) | _ => True end) sched.
