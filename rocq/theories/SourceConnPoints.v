(** * The points of gen.conn.go

    Where a goroutine of gen.conn.go can be, as what it asks and how it goes on; and that the
    text of the functions is of that form. *)
From Coq Require Import String.
From Verif Require Import GoBase GoLemmas Encoder Decoder BufIO Msg01 Conn ConnRing GoLang GoFlow SourceConn SourceConnSpec.
Local Open Scope string_scope.
Local Open Scope list_scope.
Local Open Scope Z_scope.

Section Points.
Context (width : Z).
Definition at_ask (what : string) (vs : list val) (Q : (val -> proc) -> Prop) (p : proc) : Prop := exists k, p = Ask what vs k /\ Q k.
Definition wmutex : val := VHandle "mutex" 0.
Definition rmutex : val := VHandle "mutex" 1.
Definition chan (k : nat) : val := VHandle "chan" k.
Definition req_of (k : nat) : val := VStruct "request" [("decode", VHandle "decode" k); ("reply", chan k)].

(** ** Do *)
Definition q_recv (k : nat) : proc -> Prop := at_ask "<-" [chan k] (fun K => K VNil = Done VNil /\ forall x, K (VErr x) = Done (VErr x)).
Definition q_unlock2 (k : nat) (fl : option error) : proc -> Prop :=
  at_ask "mutex.Unlock" [wmutex] (fun K => match fl with Some x => K unit_val = Done (VErr x) | None => q_recv k (K unit_val) end).
Definition q_flush (k : nat) : proc -> Prop := at_ask "message.Encoder.Flush" [the_encoder] (fun K => forall fl, q_unlock2 k fl (K (as_error fl))).
Definition q_encode (k : nat) (id : Z) : proc -> Prop :=
  at_ask "encode()" [VHandle "encode" k; the_encoder; VInt I32 id] (fun K => q_flush k (K unit_val)).
Definition q_lock2 (k : nat) (id : Z) : proc -> Prop := at_ask "mutex.Lock" [wmutex] (fun K => q_encode k id (K unit_val)).
Definition q_unlock1 (k : nat) (id : Z) : proc -> Prop := at_ask "mutex.Unlock" [rmutex] (fun K => q_lock2 k id (K unit_val)).
Definition q_set (k : nat) (id : Z) : proc -> Prop := at_ask "m[i]=" [the_map; VInt I32 id; req_of k] (fun K => q_unlock1 k id (K unit_val)).
Definition q_lock1 (k : nat) (id : Z) : proc -> Prop := at_ask "mutex.Lock" [rmutex] (fun K => q_set k id (K unit_val)).
Definition q_make (k : nat) (id : Z) : proc -> Prop := at_ask "make(chan)" [VConst 1] (fun K => q_lock1 k id (K (chan k))).
Definition q_add (k : nat) : proc -> Prop := at_ask "atomic.AddInt32" [VHandle "int32" 0; VConst 1] (fun K => forall id, q_make k id (K (VInt I32 id))).

(** ** Close *)
Definition z_read : proc -> Prop := at_ask "<-" [VHandle "signal" 1] (fun K => K unit_val = Done VNil).
Definition z_message : proc -> Prop := at_ask "<-" [VHandle "signal" 0] (fun K => z_read (K unit_val)).
Definition z_raw : proc -> Prop := at_ask "net.Conn.Close" [the_net] (fun K => z_message (K VNil)).
Definition z_ring : proc -> Prop := at_ask "ring.Buffer.Close" [the_ring] (fun K => z_raw (K unit_val)).
Definition z_cancel : proc -> Prop := at_ask "cancel()" [VHandle "cancel" 0] (fun K => z_ring (K unit_val)).

(** ** messageLoop; [top] is the top of the next round *)
Definition header : val := VHandle "header" 0.
Definition buffer0 : val := VHandle "buffer" 0.
Definition buffer1 : val := VHandle "buffer" 1.
Definition l_close : proc -> Prop := at_ask "close" [VHandle "signal" 0] (fun K => K unit_val = Done unit_val).
Section Round.
Context (top : proc -> Prop).
Definition l_send (k : nat) (v : val) : proc -> Prop := at_ask "send" [chan k; v] (fun K => top (K unit_val)).
Definition l_decode (k : nat) : proc -> Prop := at_ask "decode()" [VHandle "decode" k; the_decoder] (fun K => forall v, l_send k v (K v)).
Definition l_unlock (o : option nat) : proc -> Prop :=
  at_ask "mutex.Unlock" [rmutex] (fun K => match o with Some k => l_decode k (K unit_val) | None => top (K unit_val) end).
Definition l_delete (id : Z) (o : option nat) : proc -> Prop := at_ask "delete" [the_map; VInt I32 id] (fun K => l_unlock o (K unit_val)).
Definition l_id2 (o : option nat) : proc -> Prop := at_ask "header.CorrelationId" [header] (fun K => forall id, l_delete id o (K (VInt I32 id))).
Definition l_get (id : Z) : proc -> Prop := at_ask "m[i]" [the_map; VInt I32 id] (fun K =>
  (forall k, l_id2 (Some k) (K (VTuple [req_of k; VBool true]))) /\ (forall v, l_id2 None (K (VTuple [v; VBool false])))).
Definition l_id1 : proc -> Prop := at_ask "header.CorrelationId" [header] (fun K => forall id, l_get id (K (VInt I32 id))).
Definition l_lock : proc -> Prop := at_ask "mutex.Lock" [rmutex] (fun K => l_id1 (K unit_val)).
Definition l_print (x : error) : proc -> Prop := at_ask "fmt.Println" [VErr x] (fun K => top (K unit_val)).
Definition l_header : proc -> Prop := at_ask "header.Decode" [header; the_decoder; VConst 1] (fun K => l_lock (K VNil) /\ forall x, l_print x (K (VErr x))).
Definition l_new : proc -> Prop := at_ask "new(message.ResponseHeader)" [] (fun K => l_header (K header)).
Definition l_reset2 (size : Z) : proc -> Prop := at_ask "message.Decoder.Reset" [the_decoder; VInt INT size] (fun K => l_new (K unit_val)).
Definition l_body (size : Z) : proc -> Prop := at_ask "ring.Buffer.ReadN" [the_ring; buffer0; VInt INT size] (fun K => l_reset2 size (K unit_val)).
Definition l_int32 : proc -> Prop := at_ask "message.Decoder.Int32" [the_decoder] (fun K => forall v e, l_body (wrap width v) (K (VTuple [VInt I32 v; e]))).
Definition l_reset1 : proc -> Prop := at_ask "message.Decoder.Reset" [the_decoder; VConst 4] (fun K => l_int32 (K unit_val)).
Definition l_head : proc -> Prop := at_ask "ring.Buffer.ReadN" [the_ring; buffer0; VConst 4] (fun K => l_reset1 (K unit_val)).
Definition l_poll : proc -> Prop := at_ask "poll" [VHandle "done" 0] (fun K => l_close (K (VBool true)) /\ l_head (K (VBool false))).
Definition l_done : proc -> Prop := at_ask "context.Done" [VHandle "context" 0] (fun K => l_poll (K (VHandle "done" 0))).
End Round.
Fixpoint l_top (n : nat) : proc -> Prop := match n with O => fun _ => True | S n => l_done (l_top n) end.
Definition l_decoder (n : nat) (m : Z) : proc -> Prop := at_ask "message.NewDecoder" [buffer0; VInt INT m] (fun K => l_top n (K the_decoder)).
Definition l_len (n : nat) : proc -> Prop := at_ask "len" [buffer0] (fun K => forall m, l_decoder n m (K (VInt INT m))).
Definition l_start (n : nat) (cap : Z) : proc -> Prop := at_ask "make([]byte)" [VConst cap] (fun K => l_len n (K buffer0)).

(** ** readLoop *)
Definition d_close : proc -> Prop := at_ask "close" [VHandle "signal" 1] (fun K => K unit_val = Done unit_val).
Definition d_print (x : error) : proc -> Prop := at_ask "fmt.Println" [VErr x] (fun K => d_close (K unit_val)).
Definition d_write (top : proc -> Prop) (n : Z) : proc -> Prop := at_ask "ring.Buffer.WriteN" [the_ring; buffer1; VInt INT n] (fun K => top (K unit_val)).
Definition d_read (top : proc -> Prop) : proc -> Prop := at_ask "net.Conn.Read" [the_net; buffer1] (fun K =>
  (forall n, d_write top n (K (VTuple [VInt INT n; VNil]))) /\ forall n x, d_print x (K (VTuple [VInt INT n; VErr x]))).
Fixpoint d_top (n : nat) : proc -> Prop := match n with O => fun _ => True | S n => d_read (d_top n) end.
Definition d_start (n : nat) (cap : Z) : proc -> Prop := at_ask "make([]byte)" [VConst cap] (fun K => d_top n (K buffer1)).

(** ** The text *)
Lemma text_Do n k : q_add k (text width (S (S n)) "Conn.Do" [the_conn; VHandle "encode" k; VHandle "decode" k]).
Proof.
  eexists. split; [reflexivity|]. intros id.
  do 6 (eexists; split; [reflexivity|]). eexists. split; [reflexivity|].
  intros [x|]; (eexists; split; [reflexivity|]); [reflexivity|].
  eexists. split; [reflexivity|]. split; reflexivity.
Qed.
Lemma text_Close n : z_cancel (text width (S (S n)) "Conn.Close" [the_conn]).
Proof. do 5 (eexists; split; [reflexivity|]). reflexivity. Qed.

Definition loop_args : list val := [the_conn; VHandle "context" 0; the_ring; VHandle "chan request" 0].
Definition reader_args : list val := [the_conn; VHandle "context" 0; the_ring; the_net].
Definition reader_body : list stmt :=
  match f_body go_Conn_readLoop with [_; _; SFor _ _ _ body] => body | _ => [] end.
Definition loop_body : list stmt :=
  match f_body go_Conn_messageLoop with [_; _; _; SFor _ _ _ body] => body | _ => [] end.
Definition reader_env : env := [("buffer", buffer1); ("c", the_conn); ("ctx", VHandle "context" 0); ("rb", the_ring); ("raw", the_net)].
Definition loop_env : env := [("d", the_decoder); ("buffer", buffer0); ("c", the_conn); ("ctx", VHandle "context" 0); ("rb", the_ring); ("ch", VHandle "chan request" 0)].
Lemma reader_rounds fuel call (k : flow -> proc) : (d_close (k (Leave []))) -> (forall vs K, call "fmt.Println" vs K = Ask "fmt.Println" vs K) -> forall j,
  d_top j (rounds j (run width conn_source call fuel reader_body) reader_env k).
Proof.
  intros Hk Hc. induction j as [|j IH]; [exact I|]. cbn [rounds d_top]. eexists. split; [reflexivity|]. split.
  - intros n. eexists. split; [reflexivity|]. exact IH.
  - intros n x. eexists. split; [cbn; rewrite Hc; reflexivity|exact Hk].
Qed.
Lemma loop_rounds fuel call (k : flow -> proc) : (l_close (k (Leave []))) -> (forall vs K, call "fmt.Println" vs K = Ask "fmt.Println" vs K) ->
  (forall vs K, call "delete" vs K = Ask "delete" vs K) -> forall j,
  l_top j (rounds j (run width conn_source call fuel loop_body) loop_env k).
Proof.
  intros Hk Hp Hd. induction j as [|j IH]; [exact I|]. cbn [rounds l_top]. do 2 (eexists; split; [reflexivity|]). split; [exact Hk|].
  do 2 (eexists; split; [reflexivity|]). eexists. split; [reflexivity|]. intros v e.
  do 4 (eexists; split; [reflexivity|]). split.
  - eexists. split; [reflexivity|]. eexists. split; [reflexivity|]. intros id. eexists. split; [reflexivity|]. split.
    + intros k0. eexists. split; [reflexivity|]. intros id2. eexists. split; [cbn; rewrite Hd; reflexivity|]. eexists. split; [reflexivity|].
      eexists. split; [reflexivity|]. intros w. eexists. split; [reflexivity|]. exact IH.
    + intros w. eexists. split; [reflexivity|]. intros id2. eexists. split; [cbn; rewrite Hd; reflexivity|]. eexists. split; [reflexivity|]. exact IH.
  - intros x. eexists. split; [cbn; rewrite Hp; reflexivity|]. exact IH.
Qed.
(** A function that is not of gen.conn.go is a question. *)
Definition asks_library (call : string -> list val -> (val -> proc) -> proc) : Prop :=
  forall f vs K, lookup f (k_funcs conn_source) = None -> call f vs K = Ask f vs K.
Lemma reader_invoke call m : asks_library call -> d_start m 2000000 (invoke width conn_source call m go_Conn_readLoop reader_args Done).
Proof.
  intros Hc. eexists. split; [reflexivity|].
  refine (reader_rounds m call _ _ (fun vs K => Hc "fmt.Println" vs K eq_refl) m).
  eexists. split; [apply (Hc "close"); reflexivity|]. reflexivity.
Qed.
Lemma loop_invoke_body call m body : asks_library call ->
  (forall k, l_close (k (Leave [])) -> l_top m (rounds m (run width conn_source call m body) loop_env k)) ->
  l_start m 2000000 (invoke width conn_source call m
    (mkFunc (f_params go_Conn_messageLoop) [] (firstn 3 (f_body go_Conn_messageLoop) ++ [SFor [] (EBool true) [] body])) loop_args Done).
Proof.
  intros Hc Hb. do 2 (eexists; split; [reflexivity|]). intros z. eexists. split; [apply (Hc "message.NewDecoder"); reflexivity|].
  refine (Hb _ _). eexists. split; [apply (Hc "close"); reflexivity|]. reflexivity.
Qed.
Lemma loop_invoke call m : asks_library call -> l_start m 2000000 (invoke width conn_source call m go_Conn_messageLoop loop_args Done).
Proof.
  intros Hc. refine (loop_invoke_body call m loop_body Hc (fun k Hk => _)).
  exact (loop_rounds m call k Hk (fun vs K => Hc "fmt.Println" vs K eq_refl) (fun vs K => Hc "delete" vs K eq_refl) m).
Qed.
Lemma call_library n : n <> O -> asks_library (call width conn_source n).
Proof. intros Hn. destruct n; [contradiction|]. intros f vs K H. cbn [call]. rewrite H. reflexivity. Qed.
Lemma reader_text m : m <> O -> d_start m 2000000 (text width (S m) "Conn.readLoop" reader_args).
Proof. intros Hm. exact (reader_invoke (call width conn_source m) m (call_library m Hm)). Qed.
Lemma loop_text m : m <> O -> l_start m 2000000 (text width (S m) "Conn.messageLoop" loop_args).
Proof. intros Hm. exact (loop_invoke (call width conn_source m) m (call_library m Hm)). Qed.
End Points.
