(** * The text of ring/buffer.go: proofs *)
From Coq Require Import String.
From Verif Require Import GoBase GoLemmas GoLang GoConc SourceRing Ring RingSpec SourceRingSpec.
Local Open Scope string_scope.
Local Open Scope list_scope.
Local Open Scope Z_scope.

(** One access, as a function. *)
Definition moved_to (m : memory) (p : proc) : option (memory * proc) :=
  match p with
  | Act a k => Some (match effect a m with Answer v m1 => advance m1 (k v) | Panics => (m, Crash) | Senseless => (m, Wrong) end)
  | _ => None
  end.
Lemma moves_iff m p m' p' : moves m p m' p' <-> moved_to m p = Some (m', p').
Proof.
  split.
  - intros [m0 a k v m1 m2 q H A|m0 a k H|m0 a k H]; cbn; rewrite H; congruence.
  - destruct p as [| | |a k|]; try discriminate. cbn. destruct (effect a m) as [v m1| |] eqn:H; intros [=].
    + subst. eapply moves_on; [eassumption|assumption].
    + subst. apply moves_panic. exact H.
    + subst. apply moves_wrong. exact H.
Qed.
Lemma effect_put g i b : effect (APut 0 i b) (image g) = match store (g_cells g) i b with Some c => Answer (VTuple []) (image (set_cells g c)) | None => Panics end.
Proof.
  unfold store. cbn [effect image m_arrays nth_error].
  assert (U : forall (l : list Z) n, upd l n b = if (n <? length l)%nat then Some (set_nth n b l) else None).
  { induction l as [|x l IH]; intros [|n]; try reflexivity. cbn [upd set_nth length]. rewrite IH. change (S n <? S (length l))%nat with (n <? length l)%nat. destruct (n <? length l)%nat; reflexivity. }
  destruct (0 <=? i) eqn:P; [|reflexivity]. apply Z.leb_le in P. rewrite U. cbn [andb].
  replace (Z.to_nat i <? length (g_cells g))%nat with (i <? zlen (g_cells g)).
  - destruct (i <? zlen (g_cells g)); reflexivity.
  - unfold zlen. destruct (Z.ltb_spec i (Z.of_nat (length (g_cells g)))); symmetry; [apply Nat.ltb_lt|apply Nat.ltb_ge]; lia.
Qed.

Section Text.
Context (width : Z) (room : Z -> bool) (F : nat).
Hypothesis Wide : 32 <= width.
Local Notation call := (GoConc.call width room ring_source F).
Local Notation run := (GoConc.run width room ring_source call F).
Local Notation eval := (GoConc.eval width room ring_source call).

(** ** Functions called *)
Lemma incr_call a b s k : (2 <= F)%nat -> call "ring.incr" [VInt I32 a; VInt I32 b] s k = k (VInt I32 (incr a b)) s.
Proof.
  intros H. destruct F as [|[|F']]; try lia. unfold incr. replace (int32 (a + 1)) with (int32 (a + int32 1)) by reflexivity.
  lazy -[int32 Z.eqb Z.add]. destruct (int32 (a + int32 1) =? b); reflexivity.
Qed.
Lemma load_call l f s k : (1 <= F)%nat -> call "atomic.LoadInt32" [VAddr l f] s k = Act (ALoad l f) (fun v => k v s).
Proof. intros H. destruct F; [lia|]. reflexivity. Qed.
Lemma store_call l f z s k : (1 <= F)%nat -> call "atomic.StoreInt32" [VAddr l f; VInt I32 z] s k = Act (AStore l f z) (fun v => k v s).
Proof. intros H. destruct F; [lia|]. reflexivity. Qed.

Definition after_swap (f : string) (l : nat) (s : heap) (k : val -> heap -> proc) : val -> proc :=
  match call f [VRef l] s k with Act _ c => c | _ => fun _ => Wrong end.
Hypothesis Deep : (2 <= F)%nat.
Ltac deep := unfold after_swap; destruct F as [|[|F']]; try lia.
Lemma release_call l s k : call "mutex.Release" [VRef l] s k = Act (ASwap l "set" 1 0) (after_swap "mutex.Release" l s k).
Proof. deep. reflexivity. Qed.
Lemma wait_call l s k : call "mutex.Wait" [VRef l] s k = Act (ASwap l "set" 0 1) (after_swap "mutex.Wait" l s k).
Proof. deep. reflexivity. Qed.
Lemma released_not l s k : after_swap "mutex.Release" l s k (VBool false) = k (VTuple []) s.
Proof. deep. reflexivity. Qed.
Lemma waited_not l s k : after_swap "mutex.Wait" l s k (VBool false) = k (VTuple []) s.
Proof. deep. reflexivity. Qed.
Lemma released g l s k : (l < 2)%nat ->
  advance (image g) (after_swap "mutex.Release" l s k (VBool true)) = (image g, Choose [(Expired 0, k (VTuple []) s); (Recv l, k (VTuple []) s)]).
Proof. intros H. deep. destruct l as [|[|]]; [reflexivity|reflexivity|lia]. Qed.
Lemma waited g l s k : (l < 2)%nat ->
  advance (image g) (after_swap "mutex.Wait" l s k (VBool true)) = (image g, Choose [(Expired 0, k (VTuple []) s); (Send l, k (VTuple []) s)]).
Proof. intros H. deep. destruct l as [|[|]]; [reflexivity|reflexivity|lia]. Qed.

(** ** WriteN *)
Definition parts (f : func) : list stmt * expr * list stmt * list stmt * list stmt :=
  match f_body f with [_; _; _; SFor init c post body; e; g] => (init, c, post, body, [e; g]) | _ => ([], ENil, [], [], []) end.
Definition returning (r : flow) (s : heap) : proc :=
  want (settle_results width [] (match r with Leave vs => vs | On _ => [] end)) (fun out => Return (single out) s).
Definition Ew (l : wlocal) : env :=
  [("i", VInt INT (w_i l)); ("wrote", VInt INT (w_wrote l)); ("start", VInt I32 (w_start l)); ("pos", VInt I32 (w_pos l));
   ("r", VRef 2); ("data", VInts U8 (w_data l)); ("n", VInt INT (w_n l))].
Definition l0 : wlocal := mkW [] 0 0 0 0 0.
Definition w_body : list stmt := snd (fst (parts go_Buffer_WriteN)).
Definition w_rest : list stmt := snd (parts go_Buffer_WriteN).
Definition w_test : expr := snd (fst (fst (fst (parts go_Buffer_WriteN)))).
Definition w_post : list stmt := snd (fst (fst (parts go_Buffer_WriteN))).
Definition w_end : flow -> heap -> proc :=
  leaving (tl (Ew l0)) (fun f s => match f with On E => run w_rest E s returning | Leave vs => returning (Leave vs) s end).
Definition w_loop (k : nat) (E : env) : proc :=
  rounds k (eval w_test) (fun E s k => run w_body E s (leaving E k)) (run w_post) E [] w_end.

Definition next_of (size pos : Z) : string * val := ("next", VInt I32 (incr pos size)).
(** After the body of the loop, after the if in it, at the end of the if's block. *)
Definition w_bodied (k : nat) : flow -> heap -> proc :=
  leaving (Ew l0) (fun f s => match f with
    | Leave vs => w_end (Leave vs) s
    | On E => run w_post E s (fun f s => match f with On E => rounds k (eval w_test) (fun E s k => run w_body E s (leaving E k)) (run w_post) E s w_end | Leave _ => Wrong end)
    end).
Definition w_joined (k : nat) : flow -> heap -> proc :=
  leaving (Ew l0) (fun f s => match f with On E => w_bodied k (On E) s | Leave vs => w_bodied k (Leave vs) s end).
Definition w_yes : list stmt := match w_body with [_; _; SIf _ _ yes _] => yes | _ => [] end.
Definition w_yes_wait : list stmt := match w_yes with [_; _; _; _; SIf _ _ yes _] => yes | _ => [] end.
Definition w_yes_end : list stmt := match w_rest with [_; SIf _ _ yes _] => yes | _ => [] end.
Definition w_full (size : Z) (k : nat) (cs : list stmt) (l : wlocal) (s : heap) : proc :=
  run cs (next_of size (w_pos l) :: Ew l) s (leaving (next_of 0 0 :: Ew l0) (w_joined k)).
Definition w_waiting_at (size : Z) (k : nat) (cs : list stmt) (l : wlocal) (s : heap) : proc :=
  run cs (next_of size (w_pos l) :: next_of size (w_pos l) :: Ew l) s
    (leaving (next_of 0 0 :: next_of 0 0 :: Ew l0)
      (leaving (next_of 0 0 :: Ew l0)
        (fun f s => match f with On E => leaving (next_of 0 0 :: Ew l0) (w_joined k) (On E) s | Leave vs => leaving (next_of 0 0 :: Ew l0) (w_joined k) (Leave vs) s end))).
Definition w_leaving (cs : list stmt) (l : wlocal) (s : heap) : proc :=
  run cs (tl (Ew l)) s (leaving (tl (Ew l0)) (leaving (tl (Ew l0)) (fun f s => match f with On E => returning (On E) s | Leave vs => returning (Leave vs) s end))).
Definition start_w (data : list Z) (n : Z) : env := [("r", VRef 2); ("data", VInts U8 data); ("n", VInt INT n)].

(** Where the text of WriteN is at a position of the model; [k]: rounds left for the loop. *)
Definition w_text (size : Z) (k : nat) (p : wpc) : proc :=
  match p with
  | WIdle => Return (VTuple []) []
  | WCrash => Crash
  | WLoadNext data n => Act (ALoad 2 "next") (fun v => run (skipn 1 (f_body go_Buffer_WriteN)) (("pos", settle_int width v) :: start_w data n) [] returning)
  | WLoadStart data n pos =>
      Act (ALoad 2 "start") (fun v => run (skipn 2 (f_body go_Buffer_WriteN)) (("start", settle_int width v) :: ("pos", VInt I32 pos) :: start_w data n) [] returning)
  | WLoop l =>
      if w_i l <? w_n l then
        match index (w_data l) (w_i l) with
        | Some b => Act (APut 0 (w_pos l) b) (fun _ => run (skipn 1 w_body) (Ew l) [] (w_bodied k))
        | None => Crash
        end
      else Act (AStore 2 "next" (w_pos l)) (fun _ => run (skipn 1 w_rest) (tl (Ew l)) [] returning)
  | WFullStore l => Act (AStore 2 "next" (w_pos l)) (fun _ => w_full size k (skipn 1 w_yes) l [])
  | WFullRelease l => Act (ASwap 0 "set" 1 0) (after_swap "mutex.Release" 0 [] (fun _ => w_full size k (skipn 2 w_yes) l))
  | WFullRelease_sel l => Choose [(Expired 0, w_full size k (skipn 2 w_yes) l []); (Recv 0, w_full size k (skipn 2 w_yes) l [])]
  | WFullLoad l =>
      Act (ALoad 2 "start") (fun v =>
        GoConc.assign_all width room ring_source call [EVar "start"] (spread v) (next_of size (w_pos l) :: Ew (mkW (w_data l) (w_n l) (w_i l) (w_pos l) (w_start l) (w_i l))) []
          (fun E s => run (skipn 4 w_yes) E s (leaving (next_of 0 0 :: Ew l0) (w_joined k))))
  | WWait l => Act (ASwap 1 "set" 0 1) (after_swap "mutex.Wait" 1 [] (fun _ => w_waiting_at size k [] l))
  | WWait_sel l => Choose [(Expired 0, w_waiting_at size k [] l []); (Send 1, w_waiting_at size k [] l [])]
  | WEndRelease l => Act (ASwap 0 "set" 1 0) (after_swap "mutex.Release" 0 [] (fun _ => w_leaving [] l))
  | WEndRelease_sel l => Choose [(Expired 0, w_leaving [] l []); (Recv 0, w_leaving [] l [])]
  end.

Lemma wrap_int z : - 2 ^ (width - 1) <= z < 2 ^ (width - 1) -> wrap width z = z.
Proof. intros H. apply wrap_id; lia. Qed.
Lemma half : 2 ^ 31 <= 2 ^ (width - 1).
Proof. apply Z.pow_le_mono_r; lia. Qed.

(** Steps of the interpreter. *)
Local Notation exec := (GoConc.exec width room ring_source call F).
Local Notation assign_all := (GoConc.assign_all width room ring_source call).
Lemma run_nil E s k : run [] E s k = k (On E) s.
Proof. reflexivity. Qed.
Lemma run_cons c cs E s k : run (c :: cs) E s k = exec c E s (fun f s => match f with On E => run cs E s k | Leave vs => k (Leave vs) s end).
Proof. reflexivity. Qed.
Lemma exec_set x e E s k : exec (SAssign [EVar x] [e]) E s k = eval e E s (fun v s => assign_all [EVar x] (spread v) E s (fun E s => k (On E) s)).
Proof. reflexivity. Qed.
Lemma exec_def x e E s k : exec (SDefine [x] [e]) E s k = eval e E s (fun v s => want (declare_all width [x] (spread v) E) (fun E => k (On E) s)).
Proof. reflexivity. Qed.
Lemma exec_expr e E s k : exec (SExpr e) E s k = eval e E s (fun _ s => k (On E) s).
Proof. reflexivity. Qed.
Lemma exec_if init c yes no E s k : exec (SIf init c yes no) E s k =
  run init E s (fun f s => match f with
    | On E' => eval c E' s (fun v s => match v with
                 | VBool true => run yes E' s (leaving E' (leaving E k)) | VBool false => run no E' s (leaving E' (leaving E k)) | _ => Wrong end)
    | Leave vs => k (Leave vs) s
    end).
Proof. reflexivity. Qed.
Lemma eval_incr g E s k pos : lookup "pos" E = Some (VInt I32 pos) -> lookup "r" E = Some (VRef 2) ->
  advance (image g) (eval (ECall "ring.incr" [EVar "pos"; EField (EVar "r") "size"]) E s k) = advance (image g) (k (VInt I32 (incr pos (g_size g))) s).
Proof.
  intros A B.
  transitivity (advance (image g) (want (lookup "pos" E) (fun v => want (lookup "r" E) (fun w => match w with
     VRef l => Act (ALook l "size") (fun x => call "ring.incr" [v; x] s k) | VNil => Crash | _ => Wrong end)))).
  - reflexivity.
  - rewrite A, B. change (advance (image g) (call "ring.incr" [VInt I32 pos; VInt I32 (g_size g)] s k) = advance (image g) (k (VInt I32 (incr pos (g_size g))) s)).
    rewrite incr_call by exact Deep. reflexivity.
Qed.
Ltac see t := let t' := eval vm_compute in t in change t with t'.
Lemma rounds_S k test body post E s kk : rounds (S k) test body post E s kk =
  test E s (fun v s => match v with
    | VBool false => kk (On E) s
    | VBool true => body E s (fun f s => match f with
        | Leave vs => kk (Leave vs) s
        | On E => post E s (fun f s => match f with On E => rounds k test body post E s kk | Leave _ => Wrong end) end)
    | _ => Wrong end).
Proof. reflexivity. Qed.
Lemma w_tested l s k : eval w_test (Ew l) s k = k (VBool (w_i l <? w_n l)) s.
Proof. reflexivity. Qed.
Lemma w_ended l : w_end (On (Ew l)) [] = run w_rest (tl (Ew l)) [] returning.
Proof. reflexivity. Qed.
Lemma exec_store g f E s k pos : lookup "pos" E = Some (VInt I32 pos) -> lookup "r" E = Some (VRef 2) ->
  advance (image g) (exec (SExpr (ECall "atomic.StoreInt32" [EAddr (EField (EVar "r") f); EVar "pos"])) E s k)
  = (image g, Act (AStore 2 f pos) (fun _ => k (On E) s)).
Proof.
  intros A B.
  transitivity (advance (image g) (want (lookup "r" E) (fun w => match w with
     VRef l => want (lookup "pos" E) (fun v => call "atomic.StoreInt32" [VAddr l f; v] s (fun _ s => k (On E) s)) | VNil => Crash | _ => Wrong end))).
  - reflexivity.
  - rewrite A, B. cbv beta iota delta [want]. rewrite store_call by lia. reflexivity.
Qed.
Lemma exec_put l s k : exec (SAssign [EIndex (EField (EVar "r") "data") (EVar "pos")] [EIndex (EVar "data") (EVar "i")]) (Ew l) s k
  = need (index (w_data l) (w_i l)) (fun b => Act (ALook 2 "data") (fun a => put_at a (w_pos l) (VInt U8 b) s (fun s => k (On (Ew l)) s))).
Proof. reflexivity. Qed.
Lemma exec_load g x f E s k : lookup "r" E = Some (VRef 2) ->
  advance (image g) (exec (SVar x None (Some (ECall "atomic.LoadInt32" [EAddr (EField (EVar "r") f)]))) E s k)
  = (image g, Act (ALoad 2 f) (fun v => k (On (declare x (settle_int width v) E)) s)).
Proof.
  intros B.
  transitivity (advance (image g) (want (lookup "r" E) (fun w => match w with
     VRef l => call "atomic.LoadInt32" [VAddr l f] s (fun v s => k (On (declare x (settle_int width v) E)) s) | VNil => Crash | _ => Wrong end))).
  - reflexivity.
  - rewrite B. cbv beta iota delta [want]. rewrite load_call by lia. reflexivity.
Qed.
Lemma exec_reload g x f E s k : lookup "r" E = Some (VRef 2) ->
  advance (image g) (exec (SAssign [EVar x] [ECall "atomic.LoadInt32" [EAddr (EField (EVar "r") f)]]) E s k)
  = (image g, Act (ALoad 2 f) (fun v => assign_all [EVar x] (spread v) E s (fun E s => k (On E) s))).
Proof.
  intros B.
  transitivity (advance (image g) (want (lookup "r" E) (fun w => match w with
     VRef l => call "atomic.LoadInt32" [VAddr l f] s (fun v s => assign_all [EVar x] (spread v) E s (fun E s => k (On E) s)) | VNil => Crash | _ => Wrong end))).
  - reflexivity.
  - rewrite B. cbv beta iota delta [want]. rewrite load_call by lia. reflexivity.
Qed.
(** r.readLock.Release(), r.writeLock.Wait() and so on *)
Lemma exec_lock g (which : bool) m E s k : lookup "r" E = Some (VRef 2) -> In m ["Release"; "Wait"] ->
  advance (image g) (exec (SExpr (EMethod (EField (EVar "r") (if which then "writeLock" else "readLock")) m [])) E s k)
  = advance (image g) (call ("mutex." ++ m) [VRef (if which then 1 else 0)] s (fun _ s => k (On E) s)).
Proof.
  intros B M.
  destruct which; cbv iota;
  [transitivity (advance (image g) (want (lookup "r" E) (fun w => match w with
     VRef l => Act (ALook l "writeLock") (fun v => match v with VRef l => Act (AType l) (fun w => match w with
       VStruct t _ => if is_some (lookup (t ++ "." ++ m) (k_funcs ring_source)) then call (t ++ "." ++ m) [v] s (fun _ s => k (On E) s) else Wrong
       | _ => Wrong end) | _ => Wrong end)
     | VNil => Crash | _ => Wrong end)))
  |transitivity (advance (image g) (want (lookup "r" E) (fun w => match w with
     VRef l => Act (ALook l "readLock") (fun v => match v with VRef l => Act (AType l) (fun w => match w with
       VStruct t _ => if is_some (lookup (t ++ "." ++ m) (k_funcs ring_source)) then call (t ++ "." ++ m) [v] s (fun _ s => k (On E) s) else Wrong
       | _ => Wrong end) | _ => Wrong end)
     | VNil => Crash | _ => Wrong end)))];
  try (rewrite B; destruct M as [<-|[<-|[]]]; reflexivity);
  change (eval (EVar "r") E s) with (fun k => want (lookup "r" E) (fun v => k v s));
  rewrite exec_expr; cbn [GoConc.eval]; rewrite B; destruct M as [<-|[<-|[]]]; reflexivity.
Qed.

(** ** Where the text of WriteN goes *)
Definition moved (l : wlocal) (pos : Z) : wlocal := mkW (w_data l) (w_n l) (w_i l) pos (w_start l) (w_wrote l).
Definition again (l : wlocal) : wlocal := mkW (w_data l) (w_n l) (w_i l + 1) (w_pos l) (w_start l) (w_wrote l).
Definition noted (l : wlocal) (start : Z) : wlocal := mkW (w_data l) (w_n l) (w_i l) (w_pos l) start (w_i l).

Lemma to_WLoadNext g k data n :
  advance (image g) (GoConc.call width room ring_source (S F) "Buffer.WriteN" [VRef 2; VInts U8 data; VInt INT n] [] Return)
  = (image g, w_text (g_size g) k (WLoadNext data n)).
Proof.
  change (GoConc.call width room ring_source (S F) "Buffer.WriteN" [VRef 2; VInts U8 data; VInt INT n] [] Return)
    with (run (hd (SReturn []) (f_body go_Buffer_WriteN) :: skipn 1 (f_body go_Buffer_WriteN)) (start_w data n) [] returning).
  see (hd (SReturn []) (f_body go_Buffer_WriteN)). rewrite run_cons, exec_load by reflexivity. reflexivity.
Qed.
Lemma to_WLoadStart g k data n pos :
  advance (image g) (run (skipn 1 (f_body go_Buffer_WriteN)) (("pos", VInt I32 pos) :: start_w data n) [] returning)
  = (image g, w_text (g_size g) k (WLoadStart data n pos)).
Proof.
  change (skipn 1 (f_body go_Buffer_WriteN)) with (hd (SReturn []) (skipn 1 (f_body go_Buffer_WriteN)) :: skipn 2 (f_body go_Buffer_WriteN)).
  see (hd (SReturn []) (skipn 1 (f_body go_Buffer_WriteN))). rewrite run_cons, exec_load by reflexivity. reflexivity.
Qed.
Lemma loop_text g k l : advance (image g) (w_loop (S k) (Ew l)) = (image g, w_text (g_size g) k (WLoop l)).
Proof.
  unfold w_loop. rewrite rounds_S, w_tested. cbn [w_text]. destruct (w_i l <? w_n l) eqn:D.
  - change (run w_body) with (run (hd (SReturn []) w_body :: skipn 1 w_body)). see (hd (SReturn []) w_body).
    rewrite run_cons, exec_put. destruct (index (w_data l) (w_i l)) as [b|]; [|reflexivity].
    cbv beta iota delta [need]. reflexivity.
  - rewrite w_ended. see w_rest. rewrite run_cons, exec_store with (pos := w_pos l) by reflexivity. reflexivity.
Qed.
Lemma enter_loop data n pos start :
  run (skipn 2 (f_body go_Buffer_WriteN)) (("start", VInt I32 start) :: ("pos", VInt I32 pos) :: start_w data n) [] returning
  = w_loop F (Ew (mkW data n (wrap width 0) pos start 0)).
Proof. reflexivity. Qed.
Lemma to_WLoop g k data n pos start : F = S k ->
  advance (image g) (run (skipn 2 (f_body go_Buffer_WriteN)) (("start", VInt I32 start) :: ("pos", VInt I32 pos) :: start_w data n) [] returning)
  = (image g, w_text (g_size g) k (WLoop (mkW data n 0 pos start 0))).
Proof.
  intros E. rewrite enter_loop. rewrite wrap_int by (pose proof half; lia).
  transitivity (advance (image g) (w_loop (S k) (Ew (mkW data n 0 pos start 0)))); [rewrite <- E; reflexivity|apply loop_text].
Qed.
Lemma looped k l : - 2 ^ (width - 1) <= w_i l + 1 < 2 ^ (width - 1) -> w_bodied k (On (Ew l)) [] = w_loop k (Ew (again l)).
Proof.
  intros R. transitivity (w_loop k (Ew (mkW (w_data l) (w_n l) (wrap width (w_i l + wrap width 1)) (w_pos l) (w_start l) (w_wrote l)))).
  - reflexivity.
  - rewrite (wrap_int 1) by (pose proof half; lia). rewrite wrap_int by lia. reflexivity.
Qed.
Lemma set_pos l p s k : assign_all [EVar "pos"] (spread (VInt I32 p)) (Ew l) s k = k (Ew (moved l p)) s.
Proof. reflexivity. Qed.
Lemma set_wrote size pos l s k : assign_all [EVar "wrote"] (spread (VInt INT (w_i l))) (next_of size pos :: Ew l) s k = k (next_of size pos :: Ew (mkW (w_data l) (w_n l) (w_i l) (w_pos l) (w_start l) (w_i l))) s.
Proof. reflexivity. Qed.
Lemma set_start_var size pos l z s k :
  assign_all [EVar "start"] (spread (VInt I32 z)) (next_of size pos :: Ew (mkW (w_data l) (w_n l) (w_i l) (w_pos l) (w_start l) (w_i l))) s k = k (next_of size pos :: Ew (noted l z)) s.
Proof. reflexivity. Qed.
Lemma define_next x E s (k : env -> heap -> proc) : want (declare_all width ["next"] (spread (VInt I32 x)) E) (fun E => k E s) = k (("next", VInt I32 x) :: E) s.
Proof. reflexivity. Qed.
Lemma compared x l s k : eval (EBin Eq (EVar "next") (EVar "start")) (("next", VInt I32 x) :: Ew l) s k = k (VBool (x =? w_start l)) s.
Proof. reflexivity. Qed.
Lemma compared_again x y l s k : eval (EBin Eq (EVar "next") (EVar "start")) (("next", VInt I32 x) :: y :: Ew l) s k = eval (EBin Eq (EVar "next") (EVar "start")) (("next", VInt I32 x) :: y :: Ew l) s k.
Proof. reflexivity. Qed.

Lemma after_put g k l : advance (image g) (run (skipn 1 w_body) (Ew l) [] (w_bodied (S k))) =
  let pos := incr (w_pos l) (g_size g) in
  if incr pos (g_size g) =? w_start l then (image g, w_text (g_size g) (S k) (WFullStore (moved l pos)))
  else advance (image g) (w_bodied (S k) (On (Ew (moved l pos))) []).
Proof.
  see (skipn 1 w_body). rewrite run_cons, exec_set, eval_incr with (pos := w_pos l) by reflexivity.
  rewrite set_pos. set (pos := incr (w_pos l) (g_size g)). cbv beta iota zeta.
  rewrite run_cons, exec_if, run_cons, exec_def, eval_incr with (pos := pos) by reflexivity.
  cbv beta. 
  match goal with |- context[want (declare_all width ["next"] (spread (VInt I32 ?x)) ?E) ?kk] => change (want (declare_all width ["next"] (spread (VInt I32 x)) E) kk) with (kk (("next", VInt I32 x) :: E)) end.
  cbv beta iota. rewrite run_nil. cbv beta iota. rewrite compared.
  cbv beta iota. change (w_start (moved l pos)) with (w_start l). destruct (incr pos (g_size g) =? w_start l).
  - rewrite run_cons, exec_store with (pos := pos) by reflexivity. reflexivity.
  - rewrite run_nil. reflexivity.
Qed.

Lemma to_WFullRelease g k l : advance (image g) (w_full (g_size g) k (skipn 1 w_yes) l []) = (image g, w_text (g_size g) k (WFullRelease l)).
Proof.
  unfold w_full. change (skipn 1 w_yes) with (hd (SReturn []) (skipn 1 w_yes) :: skipn 2 w_yes). see (hd (SReturn []) (skipn 1 w_yes)).
  rewrite run_cons. rewrite (exec_lock g false) by (reflexivity || (left; reflexivity)).
  change ("mutex." ++ "Release")%string with "mutex.Release". rewrite release_call. reflexivity.
Qed.
Lemma to_WFullLoad g k l : advance (image g) (w_full (g_size g) k (skipn 2 w_yes) l []) = (image g, w_text (g_size g) k (WFullLoad l)).
Proof.
  unfold w_full. change (skipn 2 w_yes) with (hd (SReturn []) (skipn 2 w_yes) :: hd (SReturn []) (skipn 3 w_yes) :: skipn 4 w_yes).
  see (hd (SReturn []) (skipn 2 w_yes)). see (hd (SReturn []) (skipn 3 w_yes)).
  rewrite run_cons, exec_set.
  change (eval (EVar "i") (next_of (g_size g) (w_pos l) :: Ew l) []) with (fun k : val -> heap -> proc => k (VInt INT (w_i l)) ([] : heap)). cbv beta.
  rewrite set_wrote. cbv beta iota. rewrite run_cons, exec_reload by reflexivity. reflexivity.
Qed.
Lemma after_reload g k l z :
  advance (image g) (GoConc.assign_all width room ring_source call [EVar "start"] (spread (VInt I32 z))
    (next_of (g_size g) (w_pos l) :: Ew (mkW (w_data l) (w_n l) (w_i l) (w_pos l) (w_start l) (w_i l))) []
    (fun E s => run (skipn 4 w_yes) E s (leaving (next_of 0 0 :: Ew l0) (w_joined k)))) =
  if incr (w_pos l) (g_size g) =? z then (image g, w_text (g_size g) k (WWait (noted l z)))
  else advance (image g) (w_bodied k (On (Ew (noted l z))) []).
Proof.
  rewrite set_start_var. cbv beta. see (skipn 4 w_yes).
  rewrite run_cons, exec_if, run_cons, exec_def, eval_incr with (pos := w_pos l) by reflexivity.
  match goal with |- context[want (declare_all width ["next"] (spread (VInt I32 ?x)) ?E) ?kk] => change (want (declare_all width ["next"] (spread (VInt I32 x)) E) kk) with (kk (("next", VInt I32 x) :: E)) end.
  cbv beta iota. rewrite run_nil. cbv beta iota.
  match goal with |- context[GoConc.eval width room ring_source call (EBin Eq (EVar "next") (EVar "start")) ?E ?s ?kk] =>
    change (GoConc.eval width room ring_source call (EBin Eq (EVar "next") (EVar "start")) E s kk) with (kk (VBool (incr (w_pos l) (g_size g) =? z)) s) end.
  cbv beta iota. destruct (incr (w_pos l) (g_size g) =? z).
  - rewrite run_cons. rewrite (exec_lock g true) by (reflexivity || (right; left; reflexivity)).
    change ("mutex." ++ "Wait")%string with "mutex.Wait". rewrite wait_call. reflexivity.
  - rewrite run_nil. reflexivity.
Qed.
Lemma after_wait size k l : w_waiting_at size k [] l [] = w_bodied k (On (Ew l)) [].
Proof. unfold w_waiting_at. rewrite run_nil. reflexivity. Qed.
Lemma after_end g k l : - 2 ^ (width - 1) <= w_wrote l + 1 < 2 ^ (width - 1) ->
  advance (image g) (run (skipn 1 w_rest) (tl (Ew l)) [] returning) =
  (image g, if w_wrote l + 1 <? w_n l then w_text (g_size g) k (WEndRelease l) else w_text (g_size g) k WIdle).
Proof.
  intros R. see (skipn 1 w_rest). rewrite run_cons, exec_if, run_nil. cbv beta iota.
  match goal with |- context[GoConc.eval width room ring_source call (EBin Gt ?a ?b) ?E ?s ?kk] =>
    change (GoConc.eval width room ring_source call (EBin Gt a b) E s kk) with (kk (VBool (wrap width (w_wrote l + wrap width 1) <? w_n l)) s) end.
  rewrite (wrap_int 1) by (pose proof half; lia). rewrite wrap_int by lia. cbv beta iota.
  destruct (w_wrote l + 1 <? w_n l).
  - rewrite run_cons. rewrite (exec_lock g false) by (reflexivity || (left; reflexivity)).
    change ("mutex." ++ "Release")%string with "mutex.Release". rewrite release_call. reflexivity.
  - rewrite run_nil. reflexivity.
Qed.
Lemma after_leaving l : w_leaving [] l [] = Return (VTuple []) [].
Proof. reflexivity. Qed.

(** ** The writer: text and model *)
(** [k] rounds are enough, and nothing overflows. *)
Definition w_fit (k : nat) (p : wpc) : Prop :=
  match p with
  | WLoadNext _ n | WLoadStart _ n _ => k = pred F /\ n <= Z.of_nat k /\ n < 2 ^ (width - 1)
  | WLoop l => 0 <= w_wrote l <= w_i l /\ (w_wrote l = 0 \/ w_wrote l < w_i l) /\ (w_i l = 0 \/ w_i l <= w_n l) /\ w_n l - w_i l <= Z.of_nat k /\ w_n l < 2 ^ (width - 1)
  | WFullStore l | WFullRelease l | WFullRelease_sel l | WFullLoad l | WWait l | WWait_sel l =>
      0 <= w_wrote l <= w_i l /\ w_i l < w_n l /\ w_n l - w_i l <= Z.of_nat k /\ w_n l < 2 ^ (width - 1)
  | _ => True
  end.
(** What is left of a goroutine at [p]. *)
Definition w_at (g : ring) (p : proc) : Prop := exists k, w_fit k (g_w g) /\ p = w_text (g_size g) k (g_w g).
Lemma loop_again g k l : 0 <= w_wrote l <= w_i l -> w_i l < w_n l -> w_n l - w_i l <= Z.of_nat k -> w_n l < 2 ^ (width - 1) ->
  exists k', advance (image g) (w_bodied k (On (Ew l)) []) = (image g, w_text (g_size g) k' (w_again l)) /\ w_fit k' (w_again l).
Proof.
  intros A B C D. destruct k as [|k]; [lia|]. exists k. rewrite looped by (pose proof half; lia).
  rewrite loop_text. split; [reflexivity|]. cbn. lia.
Qed.
Lemma image_w g p : image (set_w g p) = image g.
Proof. reflexivity. Qed.

Definition w_events (g : ring) : list event := match g_w g with WIdle => [EWrote] | _ => [] end.
Lemma w_moves_text g p : w_at g p -> g_w g <> WIdle ->
  match w_step g with
  | Some (g', evs) => (exists p', moved_to (image g) p = Some (image g', p') /\ w_at g' p' /\ evs = w_events g') \/ (doomed g /\ p = Crash)
  | None => moved_to (image g) p = None
  end.
Proof.
  intros (k & Fit & ->) NI. pose proof half as Hf. unfold w_step. destruct (g_w g) as [|data n|data n pos|l|l|l|l|l|l|l|l|l|] eqn:W; try (exfalso; apply NI; reflexivity).
  - left. eexists. cbn [w_text moved_to]. split; [|split; [exists k; split|]].
    + change (effect (ALoad 2 "next") (image g)) with (Answer (VInt I32 (g_next g)) (image g)). cbv iota.
      change (settle_int width (VInt I32 (g_next g))) with (VInt I32 (g_next g)). rewrite (to_WLoadStart g k). reflexivity.
    + exact Fit.
    + reflexivity.
    + reflexivity.
  - left. cbn in Fit. eexists. cbn [w_text moved_to]. split; [|split; [exists k; split|]].
    + change (effect (ALoad 2 "start") (image g)) with (Answer (VInt I32 (g_start g)) (image g)). cbv iota.
      change (settle_int width (VInt I32 (g_start g))) with (VInt I32 (g_start g)). rewrite (to_WLoop g k) by lia. reflexivity.
    + cbn. lia.
    + reflexivity.
    + reflexivity.
  - cbn in Fit. cbn [w_text]. destruct (w_i l <? w_n l) eqn:D.
    + apply Z.ltb_lt in D. destruct (index (w_data l) (w_i l)) as [b|] eqn:Ib.
      2:{ right. split; [exists l; auto|reflexivity]. }
      cbn [moved_to]. rewrite effect_put. destruct (store (g_cells g) (w_pos l) b) as [cells|] eqn:St.
      2:{ left. exists Crash. split; [reflexivity|]. split; [exists k; split; [exact I|reflexivity]|reflexivity]. }
      left. destruct k as [|k]; [lia|]. rewrite after_put. cbv zeta. set (g1 := set_cells g cells). change (g_size g) with (g_size g1).
      destruct (incr (incr (w_pos l) (g_size g1)) (g_size g1) =? w_start l).
      * eexists. split; [reflexivity|]. split; [|reflexivity]. exists (S k). split; [cbn; lia|reflexivity].
      * destruct (loop_again g1 (S k) (moved l (incr (w_pos l) (g_size g1)))) as (k' & E & Ft); cbn [moved w_wrote w_i w_n]; try lia.
        rewrite E. eexists. split; [reflexivity|]. split; [|reflexivity]. exists k'. split; [exact Ft|reflexivity].
    + apply Z.ltb_ge in D. cbn [moved_to].
      change (effect (AStore 2 "next" (w_pos l)) (image g)) with (Answer (VTuple []) (image (set_next g (w_pos l)))). cbv iota.
      rewrite (after_end _ k) by lia. destruct (w_wrote l + 1 <? w_n l); left.
      * eexists. split; [reflexivity|]. split; [|reflexivity]. exists k. split; [exact I|reflexivity].
      * eexists. split; [reflexivity|]. split; [|reflexivity]. exists k. split; [exact I|reflexivity].
  - left. cbn [w_text moved_to]. change (effect (AStore 2 "next" (w_pos l)) (image g)) with (Answer (VTuple []) (image (set_next g (w_pos l)))). cbv iota.
    change (g_size g) with (g_size (set_next g (w_pos l))). rewrite to_WFullRelease.
    eexists. split; [reflexivity|]. split; [|reflexivity]. exists k. split; [exact Fit|reflexivity].
  - cbn [w_text moved_to].
    change (effect (ASwap 0 "set" 1 0) (image g)) with (if (if g_rset g then 1 else 0) =? 1 then Answer (VBool true) (image (set_rset g false)) else Answer (VBool false) (image g)).
    destruct (g_rset g) eqn:Rs; left; cbv iota; cbn [Z.eqb Pos.eqb].
    + rewrite released by lia. eexists. split; [reflexivity|]. split; [|reflexivity]. exists k. split; [exact Fit|reflexivity].
    + rewrite released_not. rewrite to_WFullLoad. eexists. split; [reflexivity|]. split; [|reflexivity]. exists k. split; [exact Fit|reflexivity].
  - reflexivity.
  - left. cbn in Fit. cbn [w_text moved_to]. change (effect (ALoad 2 "start") (image g)) with (Answer (VInt I32 (g_start g)) (image g)). cbv iota.
    rewrite after_reload. destruct (incr (w_pos l) (g_size g) =? g_start g).
    + eexists. split; [reflexivity|]. split; [|reflexivity]. exists k. split; [cbn; lia|reflexivity].
    + destruct (loop_again g k (noted l (g_start g))) as (k' & E & Ft); cbn [noted w_wrote w_i w_n]; try lia.
      rewrite E. eexists. split; [reflexivity|]. split; [|reflexivity]. exists k'. split; [exact Ft|reflexivity].
  - cbn in Fit. cbn [w_text moved_to].
    change (effect (ASwap 1 "set" 0 1) (image g)) with (if (if g_wset g then 1 else 0) =? 0 then Answer (VBool true) (image (set_wset g true)) else Answer (VBool false) (image g)).
    destruct (g_wset g) eqn:Rs; left; cbv iota; cbn [Z.eqb Pos.eqb].
    + rewrite waited_not. rewrite after_wait.
      destruct (loop_again g k l) as (k' & E & Ft); try lia.
      rewrite E. eexists. split; [reflexivity|]. split; [|reflexivity]. exists k'. split; [exact Ft|reflexivity].
    + rewrite waited by lia. eexists. split; [reflexivity|]. split; [|reflexivity]. exists k. split; [exact Fit|reflexivity].
  - reflexivity.
  - cbn [w_text moved_to].
    change (effect (ASwap 0 "set" 1 0) (image g)) with (if (if g_rset g then 1 else 0) =? 1 then Answer (VBool true) (image (set_rset g false)) else Answer (VBool false) (image g)).
    destruct (g_rset g) eqn:Rs; left; cbv iota; cbn [Z.eqb Pos.eqb].
    + rewrite released by lia. eexists. split; [reflexivity|]. split; [|reflexivity]. exists k. split; [exact Fit|reflexivity].
    + rewrite released_not. rewrite after_leaving. eexists. split; [reflexivity|]. split; [|reflexivity]. exists k. split; [exact I|reflexivity].
  - reflexivity.
  - reflexivity.
Qed.

Lemma w_branches g p ps : w_at g p -> g_w g <> WIdle -> p = Choose ps ->
  exists q p' g' evs, ps = [(Expired 0, q); (if w_waiting (g_w g) then Send 1 else Recv 0, q)] /\ w_waiting (g_w g) = negb (w_releasing (g_w g)) /\
    w_leave g = Some (g', evs) /\ (exists pc, g' = set_w g pc) /\ advance (image g) q = (image g, p') /\ w_at g' p' /\ evs = w_events g'.
Proof.
  intros (k & Fit & ->) NI. unfold w_leave. destruct (g_w g) as [|data n|data n pos|l|l|l|l|l|l|l|l|l|] eqn:W; try (exfalso; apply NI; reflexivity); cbn [w_text];
    try discriminate.
  - destruct (w_i l <? w_n l); [destruct (index (w_data l) (w_i l))|]; discriminate.
  - intros [= <-]. do 4 eexists. do 2 (split; [reflexivity|]). split; [reflexivity|]. split; [eexists; reflexivity|].
    split; [apply to_WFullLoad|]. split; [|reflexivity]. exists k. split; [exact Fit|reflexivity].
  - intros [= <-]. cbn in Fit. destruct (loop_again g k l) as (k' & E & Ft); try lia.
    do 4 eexists. do 2 (split; [reflexivity|]). split; [reflexivity|]. split; [eexists; reflexivity|].
    split; [rewrite after_wait; exact E|]. split; [|reflexivity]. exists k'. split; [exact Ft|reflexivity].
  - intros [= <-]. do 4 eexists. do 2 (split; [reflexivity|]). split; [reflexivity|]. split; [eexists; reflexivity|].
    split; [rewrite after_leaving; reflexivity|]. split; [|reflexivity]. exists k. split; [exact I|reflexivity].
Qed.
Lemma w_chooses g p r : w_at g p -> w_leave g = Some r -> exists ps, p = Choose ps.
Proof.
  intros (k & Fit & ->). unfold w_leave. destruct (g_w g); try discriminate; intros _; cbn [w_text]; eexists; reflexivity.
Qed.

(** ** ReadN *)
Definition Er (l : rlocal) : env :=
  [("i", VInt INT (r_i l)); ("read", VInt INT (r_read l)); ("next", VInt I32 (r_next l)); ("pos", VInt I32 (r_pos l));
   ("r", VRef 2); ("data", VView 0 0 (r_cap l)); ("n", VInt INT (r_n l))].
Definition m0 : rlocal := mkR 0 0 0 0 0 0 [].
Definition r_body : list stmt := snd (fst (parts go_Buffer_ReadN)).
Definition r_rest : list stmt := snd (parts go_Buffer_ReadN).
Definition r_test : expr := snd (fst (fst (fst (parts go_Buffer_ReadN)))).
Definition r_post : list stmt := snd (fst (fst (parts go_Buffer_ReadN))).
Definition r_end : flow -> heap -> proc :=
  leaving (tl (Er m0)) (fun f s => match f with On E => run r_rest E s returning | Leave vs => returning (Leave vs) s end).
Definition r_loop (k : nat) (E : env) (s : heap) : proc :=
  rounds k (eval r_test) (fun E s k => run r_body E s (leaving E k)) (run r_post) E s r_end.
Definition r_bodied (k : nat) : flow -> heap -> proc :=
  leaving (Er m0) (fun f s => match f with
    | Leave vs => r_end (Leave vs) s
    | On E => run r_post E s (fun f s => match f with On E => rounds k (eval r_test) (fun E s k => run r_body E s (leaving E k)) (run r_post) E s r_end | Leave _ => Wrong end)
    end).
(** After the if at the start of the body. *)
Definition r_joined (k : nat) (f : flow) (s : heap) : proc := match f with On E => run (skipn 1 r_body) E s (r_bodied k) | Leave vs => r_bodied k (Leave vs) s end.
Definition r_yes : list stmt := match r_body with SIf _ _ yes _ :: _ => yes | _ => [] end.
Definition r_empty (k : nat) (cs : list stmt) (l : rlocal) (s : heap) : proc := run cs (Er l) s (leaving (Er m0) (leaving (Er m0) (r_joined k))).
Definition r_inner (k : nat) (next : list stmt) (l : rlocal) (s : heap) : proc :=
  run [] (Er l) s (leaving (Er m0) (leaving (Er m0)
    (fun f s => match f with On E => run next E s (leaving (Er m0) (leaving (Er m0) (r_joined k))) | Leave vs => leaving (Er m0) (leaving (Er m0) (r_joined k)) (Leave vs) s end))).
Definition r_leaving (l : rlocal) (s : heap) : proc :=
  run [] (tl (Er l)) s (leaving (tl (Er m0)) (leaving (tl (Er m0)) (fun f s => match f with On E => returning (On E) s | Leave vs => returning (Leave vs) s end))).
Definition start_r (cap n : Z) : env := [("r", VRef 2); ("data", VView 0 0 cap); ("n", VInt INT n)].
(** The caller's slice, of which [buf] is what it held before. *)
Definition filled (buf : list Z) (l : rlocal) : heap := [r_out l ++ skipn (length (r_out l)) buf].
Definition r_getting (k : nat) (buf : list Z) (l : rlocal) : proc :=
  Act (AGet 0 (r_pos l)) (fun v => GoConc.assign_all width room ring_source call [EIndex (EVar "data") (EVar "i")] (spread v) (Er l) (filled buf l)
    (fun E s => run (skipn 2 r_body) E s (r_bodied k))).
Definition r_text (buf : list Z) (k : nat) (p : rpc) : proc :=
  match p with
  | RIdle => Wrong
  | RCrash => Crash
  | RLoadStart cap n => Act (ALoad 2 "start") (fun v => run (skipn 1 (f_body go_Buffer_ReadN)) (("pos", settle_int width v) :: start_r cap n) [buf] returning)
  | RLoadNext cap n pos =>
      Act (ALoad 2 "next") (fun v => run (skipn 2 (f_body go_Buffer_ReadN)) (("next", settle_int width v) :: ("pos", VInt I32 pos) :: start_r cap n) [buf] returning)
  | RLoop l =>
      if r_i l <? r_n l then
        if r_pos l =? r_next l then Act (AStore 2 "start" (r_pos l)) (fun _ => r_empty k (skipn 1 r_yes) l (filled buf l))
        else r_getting k buf l
      else Act (AStore 2 "start" (r_pos l)) (fun _ => run (skipn 1 r_rest) (tl (Er l)) (filled buf l) returning)
  | REmptyRelease l => Act (ASwap 1 "set" 1 0) (after_swap "mutex.Release" 1 (filled buf l) (fun _ => r_inner k (skipn 2 r_yes) l))
  | REmptyRelease_sel l => Choose [(Expired 0, r_inner k (skipn 2 r_yes) l (filled buf l)); (Recv 1, r_inner k (skipn 2 r_yes) l (filled buf l))]
  | REmptyLoad l =>
      Act (ALoad 2 "next") (fun v => GoConc.assign_all width room ring_source call [EVar "next"] (spread v) (Er l) (filled buf l)
        (fun E s => run (skipn 3 r_yes) E s (leaving (Er m0) (leaving (Er m0) (r_joined k)))))
  | RWait l => Act (ASwap 0 "set" 0 1) (after_swap "mutex.Wait" 0 (filled buf l) (fun _ => r_inner k [] l))
  | RWait_sel l => Choose [(Expired 0, r_inner k [] l (filled buf l)); (Send 0, r_inner k [] l (filled buf l))]
  | RGet l => r_getting k buf l
  | REndRelease l => Act (ASwap 1 "set" 1 0) (after_swap "mutex.Release" 1 (filled buf l) (fun _ => r_leaving l))
  | REndRelease_sel l => Choose [(Expired 0, r_leaving l (filled buf l)); (Recv 1, r_leaving l (filled buf l))]
  end.

Lemma to_RLoadStart g k buf cap n :
  advance (image g) (GoConc.call width room ring_source (S F) "Buffer.ReadN" [VRef 2; VView 0 0 cap; VInt INT n] [buf] Return)
  = (image g, r_text buf k (RLoadStart cap n)).
Proof.
  change (GoConc.call width room ring_source (S F) "Buffer.ReadN" [VRef 2; VView 0 0 cap; VInt INT n] [buf] Return)
    with (run (hd (SReturn []) (f_body go_Buffer_ReadN) :: skipn 1 (f_body go_Buffer_ReadN)) (start_r cap n) [buf] returning).
  see (hd (SReturn []) (f_body go_Buffer_ReadN)). rewrite run_cons, exec_load by reflexivity. reflexivity.
Qed.
Lemma to_RLoadNext g k buf cap n pos :
  advance (image g) (run (skipn 1 (f_body go_Buffer_ReadN)) (("pos", VInt I32 pos) :: start_r cap n) [buf] returning)
  = (image g, r_text buf k (RLoadNext cap n pos)).
Proof.
  change (skipn 1 (f_body go_Buffer_ReadN)) with (hd (SReturn []) (skipn 1 (f_body go_Buffer_ReadN)) :: skipn 2 (f_body go_Buffer_ReadN)).
  see (hd (SReturn []) (skipn 1 (f_body go_Buffer_ReadN))). rewrite run_cons, exec_load by reflexivity. reflexivity.
Qed.
Lemma r_tested l s k : eval r_test (Er l) s k = k (VBool (r_i l <? r_n l)) s.
Proof. reflexivity. Qed.
Lemma r_compared l s k : eval (EBin Eq (EVar "pos") (EVar "next")) (Er l) s k = k (VBool (r_pos l =? r_next l)) s.
Proof. reflexivity. Qed.
Lemma r_ended l s : r_end (On (Er l)) s = run r_rest (tl (Er l)) s returning.
Proof. reflexivity. Qed.
Lemma exec_get g l s k : advance (image g) (exec (SAssign [EIndex (EVar "data") (EVar "i")] [EIndex (EField (EVar "r") "data") (EVar "pos")]) (Er l) s k)
  = (image g, Act (AGet 0 (r_pos l)) (fun v => assign_all [EIndex (EVar "data") (EVar "i")] (spread v) (Er l) s (fun E s => k (On E) s))).
Proof. reflexivity. Qed.
Lemma to_get g k buf l : advance (image g) (run (skipn 1 r_body) (Er l) (filled buf l) (r_bodied k)) = (image g, r_getting k buf l).
Proof.
  change (skipn 1 r_body) with (hd (SReturn []) (skipn 1 r_body) :: skipn 2 r_body). see (hd (SReturn []) (skipn 1 r_body)).
  rewrite run_cons, exec_get. reflexivity.
Qed.
Lemma r_loop_text g k buf l : advance (image g) (r_loop (S k) (Er l) (filled buf l)) = (image g, r_text buf k (RLoop l)).
Proof.
  unfold r_loop. rewrite rounds_S, r_tested. cbn [r_text]. destruct (r_i l <? r_n l) eqn:D.
  - change (run r_body) with (run (hd (SReturn []) r_body :: skipn 1 r_body)). see (hd (SReturn []) r_body).
    rewrite run_cons, exec_if, run_nil. cbv beta iota. rewrite r_compared. cbv iota. destruct (r_pos l =? r_next l).
    + rewrite run_cons, exec_store with (pos := r_pos l) by reflexivity. reflexivity.
    + rewrite run_nil. change (advance (image g) (run (skipn 1 r_body) (Er l) (filled buf l) (r_bodied k)) = (image g, r_getting k buf l)). apply to_get.
  - rewrite r_ended. see r_rest. rewrite run_cons, exec_store with (pos := r_pos l) by reflexivity. reflexivity.
Qed.
Lemma enter_r_loop buf cap n pos next :
  run (skipn 2 (f_body go_Buffer_ReadN)) (("next", VInt I32 next) :: ("pos", VInt I32 pos) :: start_r cap n) [buf] returning
  = r_loop F (Er (mkR cap n (wrap width 0) pos next (wrap width 0) [])) (filled buf (mkR cap n (wrap width 0) pos next (wrap width 0) [])).
Proof. reflexivity. Qed.
Lemma to_RLoop g k buf cap n pos next : F = S k ->
  advance (image g) (run (skipn 2 (f_body go_Buffer_ReadN)) (("next", VInt I32 next) :: ("pos", VInt I32 pos) :: start_r cap n) [buf] returning)
  = (image g, r_text buf k (RLoop (mkR cap n 0 pos next 0 []))).
Proof.
  intros E. rewrite enter_r_loop. rewrite wrap_int by (pose proof half; lia).
  rewrite <- (r_loop_text g). rewrite <- E. reflexivity.
Qed.
Lemma r_looped k l s : - 2 ^ (width - 1) <= r_i l + 1 < 2 ^ (width - 1) ->
  r_bodied k (On (Er l)) s = r_loop k (Er (mkR (r_cap l) (r_n l) (r_i l + 1) (r_pos l) (r_next l) (r_read l) (r_out l))) s.
Proof.
  intros R. transitivity (r_loop k (Er (mkR (r_cap l) (r_n l) (wrap width (r_i l + wrap width 1)) (r_pos l) (r_next l) (r_read l) (r_out l))) s).
  - reflexivity.
  - rewrite (wrap_int 1) by (pose proof half; lia). rewrite wrap_int by lia. reflexivity.
Qed.
Lemma set_r_pos l p s k : assign_all [EVar "pos"] (spread (VInt I32 p)) (Er l) s k = k (Er (mkR (r_cap l) (r_n l) (r_i l) p (r_next l) (r_read l) (r_out l))) s.
Proof. reflexivity. Qed.
Lemma add_read l s k : exec (SOp (EVar "read") Add (EInt 1)) (Er l) s k
  = k (On (Er (mkR (r_cap l) (r_n l) (r_i l) (r_pos l) (r_next l) (wrap width (r_read l + wrap width 1)) (r_out l)))) s.
Proof. reflexivity. Qed.
Definition got (size : Z) (l : rlocal) (b : Z) : rlocal := mkR (r_cap l) (r_n l) (r_i l + 1) (incr (r_pos l) size) (r_next l) (r_read l + 1) (r_out l ++ [b]).
Lemma set_nth_app (a c : list Z) b x : set_nth (length a) b (a ++ x :: c) = (a ++ [b]) ++ c.
Proof. rewrite <- app_assoc. induction a as [|y a IH]; [reflexivity|]. cbn. rewrite IH. reflexivity. Qed.
Lemma fill_one (buf out : list Z) b : (length out < length buf)%nat -> set_nth (length out) b (out ++ skipn (length out) buf) = (out ++ [b]) ++ skipn (length (out ++ [b])) buf.
Proof.
  intros H. destruct (skipn (length out) buf) as [|x c] eqn:E.
  - assert (length (skipn (length out) buf) = 0%nat) by (rewrite E; reflexivity). rewrite skipn_length in *. lia.
  - rewrite set_nth_app. f_equal. rewrite app_length. cbn [length]. rewrite Nat.add_1_r.
    clear H. revert buf E. induction (length out) as [|n IH]; intros [|y buf] E; try discriminate.
    + cbn in E. injection E as -> ->. reflexivity.
    + cbn [skipn] in *. apply (IH buf E).
Qed.
Lemma after_get g k buf l b : zlen (r_out l) = r_i l -> r_read l = r_i l -> 0 <= r_i l -> r_i l + 1 < 2 ^ (width - 1) -> r_cap l = zlen buf ->
  advance (image g) (GoConc.assign_all width room ring_source call [EIndex (EVar "data") (EVar "i")] (spread (VInt U8 b)) (Er l) (filled buf l)
    (fun E s => run (skipn 2 r_body) E s (r_bodied (S k)))) =
  (image g, if r_i l <? r_cap l then r_text buf k (RLoop (got (g_size g) l b)) else Crash).
Proof.
  intros O R N B C. pose proof half as Hf.
  transitivity (advance (image g) (if (0 <=? r_i l) && (r_i l <? r_cap l - 0)
     then run (skipn 2 r_body) (Er l) [set_nth (Z.to_nat (0 + r_i l)) b (r_out l ++ skipn (length (r_out l)) buf)] (r_bodied (S k)) else Crash)).
  { reflexivity. }
  replace (0 <=? r_i l) with true by (symmetry; apply Z.leb_le; lia). cbn [andb]. rewrite Z.sub_0_r.
  destruct (r_i l <? r_cap l) eqn:D; [|reflexivity]. apply Z.ltb_lt in D.
  see (skipn 2 r_body). rewrite run_cons, exec_set, eval_incr with (pos := r_pos l) by reflexivity.
  rewrite set_r_pos. cbv beta iota. rewrite run_cons, add_read. cbv beta iota. rewrite run_nil.
  rewrite (wrap_int 1) by lia. cbn [r_cap r_n r_i r_pos r_next r_read r_out]. rewrite wrap_int by lia.
  rewrite r_looped by (cbn; lia). cbn [r_cap r_n r_i r_pos r_next r_read r_out].
  rewrite <- (r_loop_text g k buf (got (g_size g) l b)).
  replace [set_nth (Z.to_nat (0 + r_i l)) b (r_out l ++ skipn (length (r_out l)) buf)] with (filled buf (got (g_size g) l b)); [reflexivity|].
  unfold filled, got. cbn [r_out]. f_equal. symmetry.
  replace (Z.to_nat (0 + r_i l)) with (length (r_out l)) by (unfold zlen in O; lia).
  apply fill_one. unfold zlen in *. lia.
Qed.

Lemma tested_read l s k : eval (EBin Gt (EVar "read") (EInt 0)) (Er l) s k = k (VBool (wrap width 0 <? r_read l)) s.
Proof. reflexivity. Qed.
Lemma to_REmptyLoad g k buf l : advance (image g) (r_empty k (skipn 2 r_yes) l (filled buf l)) = (image g, r_text buf k (REmptyLoad l)).
Proof.
  unfold r_empty. change (skipn 2 r_yes) with (hd (SReturn []) (skipn 2 r_yes) :: skipn 3 r_yes). see (hd (SReturn []) (skipn 2 r_yes)).
  rewrite run_cons, exec_reload by reflexivity. reflexivity.
Qed.
Lemma inner_then k cs l s : r_inner k cs l s = r_empty k cs l s.
Proof. unfold r_inner. rewrite run_nil. reflexivity. Qed.
Lemma inner_done g k buf l : advance (image g) (r_inner k [] l (filled buf l)) = (image g, r_text buf k (RGet l)).
Proof.
  rewrite inner_then. unfold r_empty. rewrite run_nil.
  change (advance (image g) (run (skipn 1 r_body) (Er l) (filled buf l) (r_bodied k)) = (image g, r_getting k buf l)). apply to_get.
Qed.
Lemma after_empty g k buf l : advance (image g) (r_empty k (skipn 1 r_yes) l (filled buf l)) =
  (image g, r_text buf k (if 0 <? r_read l then REmptyRelease l else REmptyLoad l)).
Proof.
  unfold r_empty. change (skipn 1 r_yes) with (hd (SReturn []) (skipn 1 r_yes) :: skipn 2 r_yes). see (hd (SReturn []) (skipn 1 r_yes)).
  rewrite run_cons, exec_if, run_nil. cbv beta iota. rewrite tested_read, wrap_int by (pose proof half; lia). cbv iota.
  destruct (0 <? r_read l).
  - rewrite run_cons. rewrite (exec_lock g true) by (reflexivity || (left; reflexivity)).
    change ("mutex." ++ "Release")%string with "mutex.Release". rewrite release_call. reflexivity.
  - rewrite run_nil. rewrite <- (to_REmptyLoad g). reflexivity.
Qed.
Definition renewed (l : rlocal) (z : Z) : rlocal := mkR (r_cap l) (r_n l) (r_i l) (r_pos l) z (r_read l) (r_out l).
Lemma set_next_var l z s k : assign_all [EVar "next"] (spread (VInt I32 z)) (Er l) s k = k (Er (renewed l z)) s.
Proof. reflexivity. Qed.
Lemma after_r_reload g k buf l z :
  advance (image g) (GoConc.assign_all width room ring_source call [EVar "next"] (spread (VInt I32 z)) (Er l) (filled buf l)
        (fun E s => run (skipn 3 r_yes) E s (leaving (Er m0) (leaving (Er m0) (r_joined k))))) =
  (image g, r_text buf k (if r_pos l =? z then RWait (renewed l z) else RGet (renewed l z))).
Proof.
  rewrite set_next_var. cbv beta. see (skipn 3 r_yes). rewrite run_cons, exec_if, run_nil. cbv beta iota. rewrite r_compared. cbv iota.
  change (r_pos (renewed l z) =? r_next (renewed l z)) with (r_pos l =? z). destruct (r_pos l =? z).
  - rewrite run_cons. rewrite (exec_lock g false) by (reflexivity || (right; left; reflexivity)).
    change ("mutex." ++ "Wait")%string with "mutex.Wait". rewrite wait_call. reflexivity.
  - rewrite run_nil. rewrite <- (inner_done g k buf (renewed l z)). reflexivity.
Qed.
Lemma after_r_end g k buf l : advance (image g) (run (skipn 1 r_rest) (tl (Er l)) (filled buf l) returning) =
  (image g, if 0 <? r_read l then r_text buf k (REndRelease l) else Return (VTuple []) (filled buf l)).
Proof.
  see (skipn 1 r_rest). rewrite run_cons, exec_if, run_nil. cbv beta iota.
  match goal with |- context[GoConc.eval width room ring_source call (EBin Gt ?a ?b) ?E ?s ?kk] =>
    change (GoConc.eval width room ring_source call (EBin Gt a b) E s kk) with (kk (VBool (wrap width 0 <? r_read l)) s) end.
  rewrite wrap_int by (pose proof half; lia). cbv beta iota.
  destruct (0 <? r_read l).
  - rewrite run_cons. rewrite (exec_lock g true) by (reflexivity || (left; reflexivity)).
    change ("mutex." ++ "Release")%string with "mutex.Release". rewrite release_call. reflexivity.
  - rewrite run_nil. reflexivity.
Qed.
Lemma after_r_leaving l s : r_leaving l s = Return (VTuple []) s.
Proof. reflexivity. Qed.

(** ** The reader: text and model *)
Definition r_loc (buf : list Z) (n : Z) (l : rlocal) : Prop :=
  r_cap l = zlen buf /\ r_n l = n /\ zlen (r_out l) = r_i l /\ r_read l = r_i l /\ (r_i l = 0 \/ r_i l <= n).
Definition r_fit (buf : list Z) (n : Z) (k : nat) (p : rpc) : Prop :=
  n < 2 ^ (width - 1) /\
  match p with
  | RLoadStart cap m | RLoadNext cap m _ => k = pred F /\ m = n /\ n <= Z.of_nat k /\ cap = zlen buf
  | RLoop l => r_loc buf n l /\ n - r_i l <= Z.of_nat k
  | REmptyRelease l | REmptyRelease_sel l | REmptyLoad l | RWait l | RWait_sel l | RGet l => r_loc buf n l /\ r_i l < n /\ n - r_i l <= Z.of_nat k
  | REndRelease l | REndRelease_sel l => r_loc buf n l /\ n <= r_i l
  | _ => True
  end.
Definition r_at (g : ring) (n : Z) (p : proc) : Prop := exists buf k, r_fit buf n k (g_r g) /\ p = r_text buf k (g_r g).
(** A step of the reader that ends in [g'] with [evs]: the text is at [p]. *)
Definition r_ends (g' : ring) (n : Z) (evs : list event) (p : proc) : Prop :=
  match g_r g' with
  | RIdle => exists v s, p = Return v s /\ evs = [ERead (firstn (Z.to_nat n) (hd [] s))]
  | _ => r_at g' n p /\ evs = []
  end.
Lemma r_returns g' n evs p : r_ends g' n evs p -> (g_r g' = RIdle /\ read_to n p = (None, evs)) \/ (g_r g' <> RIdle /\ read_to n p = (Some (n, p), evs) /\ r_at g' n p).
Proof.
  unfold r_ends. intros H. destruct (g_r g') eqn:R; try (right; destruct H as [A ->]; split; [discriminate|]; split; [|exact A];
    destruct A as (buf & k & _ & ->); rewrite R; cbn [r_text]; try reflexivity; unfold r_getting).
  - left. destruct H as (v & s & -> & ->). split; reflexivity.
  - destruct (r_i l <? r_n l); [destruct (r_pos l =? r_next l)|]; reflexivity.
Qed.

Lemma returned_bytes buf n l : r_loc buf n l -> n <= r_i l -> [ERead (r_out l)] = [ERead (firstn (Z.to_nat n) (hd [] (filled buf l)))].
Proof.
  intros (C & N & O & R & M) H. unfold filled. cbn [hd]. do 2 f_equal.
  assert (L : length (r_out l) = Z.to_nat n) by (unfold zlen in O; destruct M as [M|M]; [rewrite M in *; lia|lia]).
  rewrite <- L, firstn_app, Nat.sub_diag, firstn_all. cbn [firstn]. symmetry. apply app_nil_r.
Qed.
Lemma r_get_text g n buf k l : n < 2 ^ (width - 1) -> r_loc buf n l -> r_i l < n -> n - r_i l <= Z.of_nat k ->
  match r_get g l with
  | Some (g', evs) => exists p', moved_to (image g) (r_getting k buf l) = Some (image g', p') /\ r_ends g' n evs p'
  | None => moved_to (image g) (r_getting k buf l) = None
  end.
Proof.
  intros B L I K. destruct L as (C & N & O & R & M). unfold r_get. cbn [moved_to r_getting].
  change (effect (AGet 0 (r_pos l)) (image g)) with (match index (g_cells g) (r_pos l) with Some b => Answer (VInt U8 b) (image g) | None => Panics end).
  destruct (index (g_cells g) (r_pos l)) as [b|].
  2:{ exists Crash. split; [reflexivity|]. split; [|reflexivity]. exists buf, k. split; [split; [exact B|exact Logic.I]|reflexivity]. }
  destruct k as [|k]; [lia|]. rewrite after_get by (unfold zlen in *; lia). destruct (r_i l <? r_cap l).
  - eexists. split; [reflexivity|]. split; [|reflexivity]. exists buf, k. split; [|reflexivity]. split; [exact B|]. cbn.
    unfold r_loc. cbn. unfold zlen in *. rewrite app_length. cbn [length]. lia.
  - eexists. split; [reflexivity|]. split; [|reflexivity]. exists buf, k. split; [split; [exact B|exact Logic.I]|reflexivity].
Qed.
Ltac lands := eexists; split; [reflexivity|]; split; [|reflexivity].
Lemma r_moves_text g n p : r_at g n p -> g_r g <> RIdle ->
  match r_step g with
  | Some (g', evs) => exists p', moved_to (image g) p = Some (image g', p') /\ r_ends g' n evs p'
  | None => moved_to (image g) p = None
  end.
Proof.
  intros (buf & k & (B & Fit) & ->) NI. pose proof half as Hf. unfold r_step. destruct (g_r g) as [|cap m|cap m pos|l|l|l|l|l|l|l|l|l|] eqn:W; try (exfalso; apply NI; reflexivity).
  - cbn [r_text moved_to]. change (effect (ALoad 2 "start") (image g)) with (Answer (VInt I32 (g_start g)) (image g)). cbv iota.
    change (settle_int width (VInt I32 (g_start g))) with (VInt I32 (g_start g)). rewrite (to_RLoadNext g k).
    lands. exists buf, k. split; [split; [exact B|exact Fit]|reflexivity].
  - cbn [r_text moved_to]. change (effect (ALoad 2 "next") (image g)) with (Answer (VInt I32 (g_next g)) (image g)). cbv iota.
    change (settle_int width (VInt I32 (g_next g))) with (VInt I32 (g_next g)). rewrite (to_RLoop g k) by lia.
    lands. exists buf, k. split; [split; [exact B|]|reflexivity]. cbn. unfold r_loc. cbn. lia.
  - destruct Fit as [L K]. pose proof L as (C & N & O & R & M). cbn [r_text]. destruct (r_i l <? r_n l) eqn:D.
    + apply Z.ltb_lt in D. destruct (r_pos l =? r_next l).
      * cbn [moved_to]. change (effect (AStore 2 "start" (r_pos l)) (image g)) with (Answer (VTuple []) (image (set_start g (r_pos l)))). cbv iota.
        rewrite after_empty. eexists. split; [reflexivity|]. 
        destruct (0 <? r_read l); (split; [|reflexivity]; exists buf, k; split; [split; [exact B|]|reflexivity]; cbn; split; [exact L|lia]).
      * apply r_get_text; try assumption; lia.
    + apply Z.ltb_ge in D. cbn [moved_to]. change (effect (AStore 2 "start" (r_pos l)) (image g)) with (Answer (VTuple []) (image (set_start g (r_pos l)))). cbv iota.
      rewrite (after_r_end _ k). destruct (0 <? r_read l).
      * lands. exists buf, k. split; [split; [exact B|]|reflexivity]. cbn. split; [exact L|lia].
      * eexists. split; [reflexivity|]. exists (VTuple []), (filled buf l). split; [reflexivity|]. apply returned_bytes; [exact L|lia].
  - cbn [r_text moved_to].
    change (effect (ASwap 1 "set" 1 0) (image g)) with (if (if g_wset g then 1 else 0) =? 1 then Answer (VBool true) (image (set_wset g false)) else Answer (VBool false) (image g)).
    destruct (g_wset g) eqn:Rs; cbv iota; cbn [Z.eqb Pos.eqb].
    + rewrite released by lia. lands. exists buf, k. split; [split; [exact B|exact Fit]|reflexivity].
    + rewrite released_not, inner_then, to_REmptyLoad. lands. exists buf, k. split; [split; [exact B|exact Fit]|reflexivity].
  - reflexivity.
  - cbn [r_text moved_to]. change (effect (ALoad 2 "next") (image g)) with (Answer (VInt I32 (g_next g)) (image g)). cbv iota.
    rewrite after_r_reload. eexists. split; [reflexivity|]. destruct (r_pos l =? g_next g); (split; [|reflexivity]; exists buf, k; split; [split; [exact B|exact Fit]|reflexivity]).
  - cbn [r_text moved_to].
    change (effect (ASwap 0 "set" 0 1) (image g)) with (if (if g_rset g then 1 else 0) =? 0 then Answer (VBool true) (image (set_rset g true)) else Answer (VBool false) (image g)).
    destruct (g_rset g) eqn:Rs; cbv iota; cbn [Z.eqb Pos.eqb].
    + rewrite waited_not, inner_done. lands. exists buf, k. split; [split; [exact B|exact Fit]|reflexivity].
    + rewrite waited by lia. lands. exists buf, k. split; [split; [exact B|exact Fit]|reflexivity].
  - reflexivity.
  - destruct Fit as (L & I & K). apply r_get_text; assumption.
  - destruct Fit as (L & I). cbn [r_text moved_to].
    change (effect (ASwap 1 "set" 1 0) (image g)) with (if (if g_wset g then 1 else 0) =? 1 then Answer (VBool true) (image (set_wset g false)) else Answer (VBool false) (image g)).
    destruct (g_wset g) eqn:Rs; cbv iota; cbn [Z.eqb Pos.eqb].
    + rewrite released by lia. lands. exists buf, k. split; [split; [exact B|split; assumption]|reflexivity].
    + rewrite released_not, after_r_leaving. eexists. split; [reflexivity|]. exists (VTuple []), (filled buf l). split; [reflexivity|]. apply returned_bytes; assumption.
  - reflexivity.
  - reflexivity.
Qed.
Lemma r_branches g n p ps : r_at g n p -> g_r g <> RIdle -> p = Choose ps ->
  exists q p' pc evs, ps = [(Expired 0, q); (if r_waiting (g_r g) then Send 0 else Recv 1, q)] /\ r_waiting (g_r g) = negb (r_releasing (g_r g)) /\
    (forall x, r_leave (set_w g x) = Some (set_r (set_w g x) pc, evs)) /\ advance (image g) q = (image g, p') /\ (forall x, r_ends (set_r (set_w g x) pc) n evs p').
Proof.
  intros (buf & k & (B & Fit) & ->) NI. unfold r_leave. cbn [set_w g_r]. destruct (g_r g) as [|cap m|cap m pos|l|l|l|l|l|l|l|l|l|] eqn:W; try (exfalso; apply NI; reflexivity); cbn [r_text];
    try discriminate.
  - destruct (r_i l <? r_n l); [destruct (r_pos l =? r_next l)|]; discriminate.
  - intros [= <-]. do 4 eexists. do 2 (split; [reflexivity|]). split; [intros; reflexivity|].
    split; [rewrite inner_then; apply to_REmptyLoad|]. intros x. split; [|reflexivity]. exists buf, k. split; [split; [exact B|exact Fit]|reflexivity].
  - intros [= <-]. do 4 eexists. do 2 (split; [reflexivity|]). split; [intros; reflexivity|].
    split; [apply inner_done|]. intros x. split; [|reflexivity]. exists buf, k. split; [split; [exact B|exact Fit]|reflexivity].
  - intros [= <-]. destruct Fit as (L & I). do 4 eexists. do 2 (split; [reflexivity|]). split; [intros; reflexivity|].
    split; [rewrite after_r_leaving; reflexivity|]. intros x. exists (VTuple []), (filled buf l). split; [reflexivity|]. apply returned_bytes; assumption.
Qed.
Lemma r_chooses g n p r : r_at g n p -> r_leave g = Some r -> exists ps, p = Choose ps.
Proof.
  intros (buf & k & _ & ->). unfold r_leave. destruct (g_r g); try discriminate; intros _; cbn [r_text]; eexists; reflexivity.
Qed.

Lemma w_text_not_return g k pc : pc <> WIdle -> written_to (w_text (g_size g) k pc) = (Some (w_text (g_size g) k pc), []).
Proof.
  destruct pc as [|data n|data n pos|l|l|l|l|l|l|l|l|l|]; cbn [w_text]; intros H; try reflexivity; [destruct (H eq_refl)|].
  destruct (w_i l <? w_n l); [destruct (index (w_data l) (w_i l))|]; reflexivity.
Qed.
Lemma w_returns g p : w_at g p -> (g_w g = WIdle /\ written_to p = (None, w_events g)) \/ (g_w g <> WIdle /\ written_to p = (Some p, w_events g)).
Proof.
  intros (k & _ & ->). unfold w_events.
  assert (D : g_w g = WIdle \/ g_w g <> WIdle) by (destruct (g_w g); (left; reflexivity) || (right; discriminate)).
  destruct D as [D|D]; [left|right]; (split; [exact D|]).
  - rewrite D. reflexivity.
  - rewrite (w_text_not_return g) by exact D. destruct (g_w g); try reflexivity. destruct (D eq_refl).
Qed.

(** ** Both *)
Definition abs (c : conf) (g : ring) : Prop :=
  c_memory c = image g /\ c_ring c = VRef 2 /\
  match c_writer c with None => g_w g = WIdle | Some p => g_w g <> WIdle /\ w_at g p end /\
  match c_reader c with None => g_r g = RIdle | Some (n, p) => g_r g <> RIdle /\ r_at g n p end.
Lemma w_at_same g g' p : g_size g' = g_size g -> g_w g' = g_w g -> w_at g p -> w_at g' p.
Proof. intros A B (k & Fit & ->). exists k. rewrite A, B. auto. Qed.
Lemma r_at_same g g' n p : g_r g' = g_r g -> r_at g n p -> r_at g' n p.
Proof. intros B (buf & k & Fit & ->). exists buf, k. rewrite B. auto. Qed.
Lemma w_step_keeps g g' evs : w_step g = Some (g', evs) -> g_size g' = g_size g /\ g_r g' = g_r g.
Proof.
  unfold w_step. destruct (g_w g); try discriminate; try (intros [= <- _]; split; reflexivity).
  - destruct (w_i l <? w_n l).
    + destruct (index (w_data l) (w_i l)); [destruct (store (g_cells g) (w_pos l) z)|]; intros [= <- _]; split; reflexivity.
    + destruct (w_wrote l + 1 <? w_n l); intros [= <- _]; split; reflexivity.
  - destruct (g_rset g); intros [= <- _]; split; reflexivity.
  - destruct (g_wset g); intros [= <- _]; split; reflexivity.
  - destruct (g_rset g); intros [= <- _]; split; reflexivity.
Qed.
Lemma r_step_keeps g g' evs : r_step g = Some (g', evs) -> g_size g' = g_size g /\ g_w g' = g_w g.
Proof.
  assert (G : forall l, r_get g l = Some (g', evs) -> g_size g' = g_size g /\ g_w g' = g_w g).
  { intros l. unfold r_get. destruct (index (g_cells g) (r_pos l)); [destruct (r_i l <? r_cap l)|]; intros [= <- _]; split; reflexivity. }
  unfold r_step. destruct (g_r g); try discriminate; try (intros [= <- _]; split; reflexivity); try apply G.
  - destruct (r_i l <? r_n l).
    + destruct (r_pos l =? r_next l); [|apply G]. intros [= <- _]; split; reflexivity.
    + destruct (0 <? r_read l); intros [= <- _]; split; reflexivity.
  - destruct (g_wset g); intros [= <- _]; split; reflexivity.
  - destruct (g_rset g); intros [= <- _]; split; reflexivity.
  - destruct (g_wset g); intros [= <- _]; split; reflexivity.
Qed.
Definition closed (g : ring) : ring := mkRing (g_cells g) (g_size g) (g_start g) (g_next g) (g_rset g) (g_wset g) true (g_w g) (g_r g).
Lemma enters_close g : exists k, advance (image g) (GoConc.call width room ring_source (S F) "Buffer.Close" [VRef 2] [] Return) = (image g, Act (ACancel 0) k) /\
  moved_to (image g) (Act (ACancel 0) k) = Some (image (closed g), Return VNil []).
Proof. eexists. split; [reflexivity|]. reflexivity. Qed.
Lemma set_w_same g : set_w g (g_w g) = g. Proof. destruct g; reflexivity. Qed.

Lemma expired_in m (q : proc) x (c0 : nat) (p : proc) : In (Expired c0, p) [(Expired 0, q); (x, q)] -> (forall c, x <> Expired c) -> c0 = 0%nat /\ p = q /\ nth_error (m_ended (image m)) c0 = Some (g_closed m).
Proof.
  intros [H|[H|[]]] X; injection H as A B; subst.
  - auto.
  - exfalso. exact (X c0 eq_refl).
Qed.
Lemma keep_writer g g' w : g_size g' = g_size g -> g_w g' = g_w g ->
  match w with None => g_w g = WIdle | Some p => g_w g <> WIdle /\ w_at g p end -> match w with None => g_w g' = WIdle | Some p => g_w g' <> WIdle /\ w_at g' p end.
Proof. intros A B. destruct w as [p|]; rewrite B; [|auto]. intros [C D]. split; [exact C|]. eapply w_at_same; eassumption. Qed.
Lemma keep_reader g g' w : g_r g' = g_r g ->
  match w with None => g_r g = RIdle | Some (n, p) => g_r g <> RIdle /\ r_at g n p end -> match w with None => g_r g' = RIdle | Some (n, p) => g_r g' <> RIdle /\ r_at g' n p end.
Proof. intros B. destruct w as [[n p]|]; rewrite B; [|auto]. intros [C D]. split; [exact C|]. eapply r_at_same; eassumption. Qed.
(** The writer moved to [p'] in [g']. *)
Definition w_part (g : ring) (w : option proc) : Prop := match w with None => g_w g = WIdle | Some p => g_w g <> WIdle /\ w_at g p end.
Definition r_part (g : ring) (rd : option (Z * proc)) : Prop := match rd with None => g_r g = RIdle | Some (n, p) => g_r g <> RIdle /\ r_at g n p end.
Lemma lands_w g' p' : w_at g' p' -> w_part g' (fst (written_to p')) /\ snd (written_to p') = w_events g'.
Proof. intros A. destruct (w_returns g' p' A) as [[D E]|[D E]]; rewrite E; cbn; auto. Qed.
Lemma lands_r g' n p' evs : r_ends g' n evs p' -> r_part g' (fst (read_to n p')) /\ snd (read_to n p') = evs.
Proof. intros A. destruct (r_returns g' n evs p' A) as [[D E]|(D & E & G)]; rewrite E; cbn; auto. Qed.
Lemma to_abs g w rd : w_part g w -> r_part g rd -> abs (mkConf (image g) (VRef 2) w rd) g.
Proof. intros A B. split; [reflexivity|]. split; [reflexivity|]. split; assumption. Qed.
Lemma sized_fuel n : (Z.to_nat n + 5 <= S F)%nat -> n <= Z.of_nat (pred F). Proof. lia. Qed.
Lemma forward c a c' evs g : tstep width room (S F) c a c' evs -> abs c g ->
  match a with TWrite _ n | TRead _ n => n < 2 ^ (width - 1) /\ (Z.to_nat n + 5 <= S F)%nat | _ => True end ->
  exists g', step g (as_label a) = Some (g', evs) /\ abs c' g'.
Proof.
  intros T (M & R & Wt & Rd) P. destruct T as
    [m r rd data n m' p E|m r w buf n m' p E|m r p rd m' p' E|m r w n p m' p' E|c m r p n q m' p' q' E|m r p rd m' p' E|m r w n p m' p' E|m r w rd m1 p m2 s E E2];
    cbn in M, R, Wt, Rd; subst m r; cbn [as_label step].
  - rewrite Wt. unfold enters in E. rewrite (to_WLoadNext g (pred F)) in E. injection E as <- <-.
    cbn [w_text written_to fst snd]. eexists. split; [reflexivity|]. split; [reflexivity|]. split; [reflexivity|]. cbn [c_writer c_reader set_w g_w g_r].
    split; [|exact Rd]. split; [discriminate|]. exists (pred F). split; [cbn; lia|reflexivity].
  - rewrite Rd. unfold enters in E. rewrite (to_RLoadStart g (pred F)) in E. injection E as <- <-.
    cbn [r_text read_to fst snd]. eexists. split; [reflexivity|]. split; [reflexivity|]. split; [reflexivity|]. cbn [c_writer c_reader set_r g_w g_r].
    split; [apply (keep_writer g (set_r g (RLoadStart (zlen buf) n))); [reflexivity|reflexivity|exact Wt]|]. split; [discriminate|]. exists buf, (pred F). split; [cbn; split; lia|reflexivity].
  - destruct Wt as [NI Wt]. apply moves_iff in E. pose proof (w_moves_text g p Wt NI) as S. destruct (w_step g) as [[g' evs']|] eqn:W; [|congruence].
    destruct S as [(p1 & S1 & S2 & ->)|[D ->]]; [|discriminate]. rewrite S1 in E. injection E as <- <-. destruct (w_step_keeps _ _ _ W) as [K1 K2].
    destruct (lands_w g' p1 S2) as [A ->]. exists g'. split; [reflexivity|]. apply to_abs; [exact A|apply (keep_reader g); assumption].
  - destruct Rd as [NI Rd]. apply moves_iff in E. pose proof (r_moves_text g n p Rd NI) as S. destruct (r_step g) as [[g' evs']|] eqn:W; [|congruence].
    destruct S as (p1 & S1 & S2). rewrite S1 in E. injection E as <- <-. destruct (r_step_keeps _ _ _ W) as [K1 K2].
    destruct (lands_r g' n p1 evs' S2) as [A ->]. exists g'. split; [reflexivity|]. apply to_abs; [apply (keep_writer g); assumption|exact A].
  - destruct Wt as [NW Wt], Rd as [NR Rd]. inversion E as [ps qs x y p1 q1 m0' m1' m2' p2 q2 Ip Iq Op Ap Aq]; subst.
    destruct (w_branches g _ ps Wt NW eq_refl) as (qw & pw & gw & ew & -> & Nw & Lw & (pc & ->) & Aw & Tw & ->).
    destruct (r_branches g n _ qs Rd NR eq_refl) as (qr & pr & pcr & er & -> & Nr & Lr & Ar & Tr).
    assert (p1 = qw /\ x = (if w_waiting (g_w g) then Send 1 else Recv 0)) as [-> ->].
    { destruct Ip as [H|[H|[]]]; injection H as <- <-; [destruct Op as [[? ?]|[? ?]]; discriminate|auto]. }
    assert (q1 = qr /\ y = (if r_waiting (g_r g) then Send 0 else Recv 1)) as [-> ->].
    { destruct Iq as [H|[H|[]]]; injection H as <- <-; [destruct Op as [[? ?]|[? ?]]; discriminate|auto]. }
    rewrite Aw in Ap. injection Ap as <- <-. rewrite Ar in Aq. injection Aq as <- <-.
    assert (LB : leave_both g = Some (set_r (set_w g pc) pcr, w_events (set_w g pc) ++ er)).
    { unfold leave_both. rewrite Lw. rewrite Lr. reflexivity. }
    assert (ST : step g (match c with O => SyncRead | S _ => SyncWrite end) = Some (set_r (set_w g pc) pcr, w_events (set_w g pc) ++ er)).
    { destruct (w_waiting (g_w g)) eqn:W1, (r_waiting (g_r g)) eqn:W2; destruct Op as [[H1 H2]|[H1 H2]]; try discriminate; injection H1 as <-; try discriminate;
        cbn [step]; rewrite ?W1, ?W2.
      - replace (r_releasing (g_r g)) with true by (destruct (r_releasing (g_r g)); [reflexivity|discriminate]). exact LB.
      - replace (w_releasing (g_w g)) with true by (destruct (w_releasing (g_w g)); [reflexivity|discriminate]). exact LB. }
    destruct (lands_w (set_w g pc) pw Tw) as [A ->]. destruct (lands_r _ n pr er (Tr pc)) as [B ->].
    exists (set_r (set_w g pc) pcr). split; [exact ST|]. apply (to_abs (set_r (set_w g pc) pcr)); [|exact B]. apply (keep_writer (set_w g pc)); [reflexivity|reflexivity|exact A].
  - destruct Wt as [NW Wt]. inversion E as [ps c p1 m0' m1' p2 Ip Ic Ap]; subst.
    destruct (w_branches g _ ps Wt NW eq_refl) as (qw & pw & gw & ew & -> & Nw & Lw & (pc & ->) & Aw & Tw & ->).
    apply (expired_in g) in Ip; [|intros c'; destruct (w_waiting (g_w g)); discriminate]. destruct Ip as (-> & -> & Cl). rewrite Cl in Ic. injection Ic as ->.
    rewrite Aw in Ap. injection Ap as <- <-. rewrite Lw. destruct (lands_w (set_w g pc) pw Tw) as [A ->].
    exists (set_w g pc). split; [reflexivity|]. apply (to_abs (set_w g pc)); [exact A|apply (keep_reader g); [reflexivity|exact Rd]].
  - destruct Rd as [NR Rd]. inversion E as [qs c p1 m0' m1' p2 Ip Ic Ap]; subst.
    destruct (r_branches g n _ qs Rd NR eq_refl) as (qr & pr & pcr & er & -> & Nr & Lr & Ar & Tr).
    apply (expired_in g) in Ip; [|intros c'; destruct (r_waiting (g_r g)); discriminate]. destruct Ip as (-> & -> & Cl). rewrite Cl in Ic. injection Ic as ->.
    rewrite Ar in Ap. injection Ap as <- <-. specialize (Lr (g_w g)). specialize (Tr (g_w g)). rewrite set_w_same in Lr, Tr. rewrite Lr.
    destruct (lands_r _ n pr er Tr) as [B ->].
    exists (set_r g pcr). split; [reflexivity|]. apply (to_abs (set_r g pcr)); [apply (keep_writer g); [reflexivity|reflexivity|exact Wt]|exact B].
  - destruct (enters_close g) as (k & E3 & E4). unfold enters in E. rewrite E3 in E. injection E as <- <-. apply moves_iff in E2. rewrite E4 in E2. injection E2 as <- <-.
    exists (closed g). split; [reflexivity|]. apply (to_abs (closed g)); [apply (keep_writer g); [reflexivity|reflexivity|exact Wt]|apply (keep_reader g); [reflexivity|exact Rd]].
Qed.

(** Backwards: what the model can do, the text can do. *)
Lemma backward c a g g' evs : step g (as_label a) = Some (g', evs) -> abs c g -> proper width (S F) a -> ~ doomed g ->
  exists c', tstep width room (S F) c a c' evs /\ abs c' g'.
Proof.
  intros ST (M & R & Wt & Rd) P ND. destruct c as [m r w rd]. cbn in M, R, Wt, Rd. subst m r.
  destruct a as [data n|buf n| | |c| | |]; cbn [as_label step] in ST; destruct P as [P P2]; cbn [sized] in P.
  - destruct w as [p|]; [destruct Wt as [NI _]; destruct (g_w g); congruence|]. rewrite Wt in ST. injection ST as <- <-.
    pose proof (to_WLoadNext g (pred F) data n) as E. eexists. split; [apply (t_write _ _ _ (image g) (VRef 2) rd data n _ _ E)|].
    cbn [w_text written_to fst]. apply (to_abs (set_w g (WLoadNext data n))); [|exact Rd]. split; [discriminate|]. exists (pred F). split; [cbn; lia|reflexivity].
  - destruct rd as [[n0 p]|]; [destruct Rd as [NI _]; destruct (g_r g); congruence|]. rewrite Rd in ST. injection ST as <- <-.
    pose proof (to_RLoadStart g (pred F) buf (zlen buf) n) as E. eexists. split; [apply (t_read _ _ _ (image g) (VRef 2) w buf n _ _ E)|].
    cbn [r_text read_to fst]. apply (to_abs (set_r g (RLoadStart (zlen buf) n))); [apply (keep_writer g); [reflexivity|reflexivity|exact Wt]|].
    split; [discriminate|]. exists buf, (pred F). split; [cbn; split; lia|reflexivity].
  - destruct w as [p|]; [|unfold w_step in ST; rewrite Wt in ST; discriminate]. destruct Wt as [NI Wt].
    pose proof (w_moves_text g p Wt NI) as S. rewrite ST in S. destruct S as [(p1 & S1 & S2 & ->)|[D _]]; [|destruct (ND D)].
    apply moves_iff in S1. destruct (w_step_keeps _ _ _ ST) as [K1 K2]. destruct (lands_w g' p1 S2) as [A B].
    eexists. split; [rewrite <- B; apply (t_writer _ _ _ _ _ _ _ _ _ S1)|]. apply to_abs; [exact A|apply (keep_reader g); assumption].
  - destruct rd as [[n p]|]; [|unfold r_step in ST; rewrite Rd in ST; discriminate]. destruct Rd as [NI Rd].
    pose proof (r_moves_text g n p Rd NI) as S. rewrite ST in S. destruct S as (p1 & S1 & S2).
    apply moves_iff in S1. destruct (r_step_keeps _ _ _ ST) as [K1 K2]. destruct (lands_r g' n p1 evs S2) as [A B].
    eexists. split; [rewrite <- B; apply (t_reader _ _ _ _ _ _ _ _ _ _ S1)|]. apply to_abs; [apply (keep_writer g); assumption|exact A].
  - assert (LB : leave_both g = Some (g', evs) /\ exists x y, opposite c x y /\ x = (if w_waiting (g_w g) then Send 1 else Recv 0) /\ y = (if r_waiting (g_r g) then Send 0 else Recv 1)).
    { destruct c as [|[|]]; [| |lia]; cbn [step] in ST.
      - destruct (r_waiting (g_r g)) eqn:A; [|discriminate]. destruct (w_releasing (g_w g)) eqn:B; [|discriminate]. split; [exact ST|].
        replace (w_waiting (g_w g)) with false by (destruct (g_w g); try discriminate; reflexivity).
        exists (Recv 0), (Send 0). split; [right; auto|]. split; reflexivity.
      - destruct (w_waiting (g_w g)) eqn:A; [|discriminate]. destruct (r_releasing (g_r g)) eqn:B; [|discriminate]. split; [exact ST|].
        replace (r_waiting (g_r g)) with false by (destruct (g_r g); try discriminate; reflexivity).
        exists (Send 1), (Recv 1). split; [left; auto|]. split; reflexivity. }
    destruct LB as (LB & x & y & Op & Hx & Hy). clear ST. unfold leave_both in LB.
    destruct (w_leave g) as [[g1 e1]|] eqn:Lw; [|discriminate]. destruct (r_leave g1) as [[g2 e2]|] eqn:Lr; [|discriminate]. injection LB as <- <-.
    destruct w as [p|]; [|unfold w_leave in Lw; rewrite Wt in Lw; discriminate]. destruct Wt as [NW Wt].
    destruct (w_chooses g p _ Wt Lw) as (ps & ->).
    destruct (w_branches g _ ps Wt NW eq_refl) as (qw & pw & gw & ew & -> & Nw & Lw' & (pc & ->) & Aw & Tw & ->).
    rewrite Lw in Lw'. injection Lw' as -> ->.
    destruct rd as [[n q]|]; [|unfold r_leave in Lr; cbn in Lr; rewrite Rd in Lr; discriminate]. destruct Rd as [NR Rd].
    destruct (r_chooses (set_w g pc) n q _ ltac:(apply (r_at_same g); [reflexivity|exact Rd]) Lr) as (qs & ->).
    destruct (r_branches g n _ qs Rd NR eq_refl) as (qr & pr & pcr & er & -> & Nr & Lr' & Ar & Tr).
    rewrite Lr' in Lr. injection Lr as <- <-.
    destruct (lands_w (set_w g pc) pw Tw) as [A A2]. destruct (lands_r _ n pr er (Tr pc)) as [B B2].
    eexists. split.
    + rewrite <- A2, <- B2. eapply t_meet. eapply meets_at; [right; left; rewrite <- Hx; reflexivity|right; left; rewrite <- Hy; reflexivity|exact Op|exact Aw|exact Ar].
    + apply (to_abs (set_r (set_w g pc) pcr)); [|exact B]. apply (keep_writer (set_w g pc)); [reflexivity|reflexivity|exact A].
  - destruct (g_closed g) eqn:Cl; [|discriminate]. destruct w as [p|]; [|unfold w_leave in ST; rewrite Wt in ST; discriminate]. destruct Wt as [NW Wt].
    destruct (w_chooses g p _ Wt ST) as (ps & ->).
    destruct (w_branches g _ ps Wt NW eq_refl) as (qw & pw & gw & ew & -> & Nw & Lw' & (pc & ->) & Aw & Tw & ->).
    rewrite ST in Lw'. injection Lw' as -> ->. destruct (lands_w (set_w g pc) pw Tw) as [A A2].
    eexists. split.
    + rewrite <- A2. eapply t_writer_expired. eapply expires_now; [left; reflexivity|cbn; rewrite Cl; reflexivity|exact Aw].
    + apply (to_abs (set_w g pc)); [exact A|apply (keep_reader g); [reflexivity|exact Rd]].
  - destruct (g_closed g) eqn:Cl; [|discriminate]. destruct rd as [[n q]|]; [|unfold r_leave in ST; rewrite Rd in ST; discriminate]. destruct Rd as [NR Rd].
    destruct (r_chooses g n q _ Rd ST) as (qs & ->).
    destruct (r_branches g n _ qs Rd NR eq_refl) as (qr & pr & pcr & er & -> & Nr & Lr & Ar & Tr).
    specialize (Lr (g_w g)). specialize (Tr (g_w g)). rewrite set_w_same in Lr, Tr. rewrite ST in Lr. injection Lr as -> ->.
    destruct (lands_r _ n pr er Tr) as [B B2].
    eexists. split.
    + rewrite <- B2. eapply t_reader_expired. eapply expires_now; [left; reflexivity|cbn; rewrite Cl; reflexivity|exact Ar].
    + apply (to_abs (set_r g pcr)); [apply (keep_writer g); [reflexivity|reflexivity|exact Wt]|exact B].
  - injection ST as <- <-. destruct (enters_close g) as (k & E3 & E4). apply moves_iff in E4.
    eexists. split; [eapply t_close; [exact E3|exact E4]|].
    apply (to_abs (closed g)); [apply (keep_writer g); [reflexivity|reflexivity|exact Wt]|apply (keep_reader g); [reflexivity|exact Rd]].
Qed.

Lemma run_forward c moves c' evs : truns width room (S F) c moves c' evs -> forall g, abs c g ->
  Forall (sized width (S F)) moves -> exists g', Ring.run g (map as_label moves) = Some (g', evs) /\ abs c' g'.
Proof.
  induction 1 as [c|c a c1 e1 rest c2 e2 T _ IH]; intros g A P.
  - exists g. auto.
  - inversion P as [|? ? P1 P2]; subst. destruct (forward c a c1 e1 g T A P1) as (g1 & S1 & A1). destruct (IH g1 A1 P2) as (g2 & S2 & A2).
    exists g2. cbn [map Ring.run]. rewrite S1, S2. auto.
Qed.
Definition fed (g : ring) : Prop :=
  match g_w g with
  | WLoadNext data n | WLoadStart data n _ => n <= zlen data
  | WLoop l | WFullStore l | WFullRelease l | WFullRelease_sel l | WFullLoad l | WWait l | WWait_sel l => w_n l <= zlen (w_data l)
  | _ => True
  end.
Lemma r_leave_w g g' evs : r_leave g = Some (g', evs) -> g_w g' = g_w g.
Proof. unfold r_leave. destruct (g_r g); intros [= <- _]; reflexivity. Qed.
Lemma fed_same g g' : g_w g' = g_w g -> fed g -> fed g'.
Proof. unfold fed. intros ->. auto. Qed.
Lemma fed_leave g g' evs : fed g -> w_leave g = Some (g', evs) -> fed g'.
Proof. unfold w_leave, fed. destruct (g_w g); intros H [= <- _]; exact H || exact I. Qed.
Lemma fed_step g a g' evs : fed g -> legal_call a -> step g a = Some (g', evs) -> fed g'.
Proof.
  intros Fd L. destruct a as [data n|cap n| | | | | | |]; cbn [step].
  - destruct (g_w g); try discriminate. intros [= <- _]. exact L.
  - destruct (g_r g); try discriminate. intros [= <- _]. exact Fd.
  - unfold w_step, fed in *. destruct (g_w g); try discriminate; try (intros [= <- _]; exact Fd).
    + destruct (w_i l <? w_n l).
      * destruct (index (w_data l) (w_i l)) as [b|]; [destruct (store (g_cells g) (w_pos l) b)|]; intros [= <- _]; try exact I.
        cbn [set_w g_w]. destruct (_ =? w_start l); exact Fd.
      * destruct (w_wrote l + 1 <? w_n l); intros [= <- _]; exact I.
    + destruct (g_rset g); intros [= <- _]; exact Fd.
    + intros [= <- _]. cbn [set_w g_w]. destruct (_ =? g_start g); exact Fd.
    + destruct (g_wset g); intros [= <- _]; exact Fd.
    + destruct (g_rset g); intros [= <- _]; exact I.
  - intros R. destruct (r_step_keeps _ _ _ R) as [_ K]. exact (fed_same g g' K Fd).
  - destruct (r_waiting (g_r g) && w_releasing (g_w g)); [|discriminate]. unfold leave_both. destruct (w_leave g) as [[g1 e1]|] eqn:W; [|discriminate].
    destruct (r_leave g1) as [[g2 e2]|] eqn:R; [|discriminate]. intros [= <- _]. apply (fed_same g1); [exact (r_leave_w _ _ _ R)|exact (fed_leave g g1 e1 Fd W)].
  - destruct (w_waiting (g_w g) && r_releasing (g_r g)); [|discriminate]. unfold leave_both. destruct (w_leave g) as [[g1 e1]|] eqn:W; [|discriminate].
    destruct (r_leave g1) as [[g2 e2]|] eqn:R; [|discriminate]. intros [= <- _]. apply (fed_same g1); [exact (r_leave_w _ _ _ R)|exact (fed_leave g g1 e1 Fd W)].
  - destruct (g_closed g); [|discriminate]. exact (fed_leave g g' evs Fd).
  - destruct (g_closed g); [|discriminate]. intros R. apply (fed_same g); [exact (r_leave_w _ _ _ R)|exact Fd].
  - intros [= <- _]. exact Fd.
Qed.
Lemma fed_not_doomed c g : abs c g -> fed g -> ~ doomed g.
Proof.
  intros (_ & _ & W & _) Fd (l & E & H & I). unfold fed in Fd. rewrite E in Fd.
  destruct (c_writer c) as [p|]; [|congruence]. destruct W as [_ (k & Fit & _)]. rewrite E in Fit. cbn in Fit.
  unfold index in I. replace (0 <=? w_i l) with true in I by (symmetry; apply Z.leb_le; lia).
  apply nth_error_None in I. unfold zlen in Fd. lia.
Qed.
Lemma run_backward moves : forall c g g' evs, Ring.run g (map as_label moves) = Some (g', evs) -> abs c g -> fed g ->
  Forall (proper width (S F)) moves -> Forall legal_call (map as_label moves) -> exists c', truns width room (S F) c moves c' evs /\ abs c' g'.
Proof.
  induction moves as [|a moves IH]; intros c g g' evs R A Fd P L; cbn [map Ring.run] in R.
  - injection R as <- <-. exists c. split; [constructor|exact A].
  - destruct (step g (as_label a)) as [[g1 e1]|] eqn:S1; [|discriminate]. destruct (Ring.run g1 (map as_label moves)) as [[g2 e2]|] eqn:S2; [|discriminate].
    injection R as <- <-. inversion P as [|? ? P1 P2]; subst. inversion L as [|? ? L1 L2]; subst.
    destruct (backward c a g g1 e1 S1 A P1 (fed_not_doomed c g A Fd)) as (c1 & T1 & A1).
    destruct (IH c1 g1 g2 e2 S2 A1 (fed_step g _ g1 e1 Fd L1 S1) P2 L2) as (c2 & T2 & A2).
    exists c2. split; [econstructor; eassumption|exact A2].
Qed.
Lemma w_crashes g k : (w_text (g_size g) k (g_w g) = Crash <-> g_w g = WCrash \/ doomed g) /\ w_text (g_size g) k (g_w g) <> Wrong.
Proof.
  destruct (g_w g) as [| data n | data n pos | l | l | l | l | l | l | l | l | l | ] eqn:E; cbn [w_text];
    try (split; [split; [discriminate|intros [X|(m & X & _)]; congruence]|discriminate]).
  - destruct (w_i l <? w_n l) eqn:L; [destruct (index (w_data l) (w_i l)) as [b|] eqn:I|].
    + split; [split; [discriminate|]|discriminate]. intros [X|(m & X & _ & Y)]; [congruence|]. rewrite E in X. injection X as <-. congruence.
    + split; [split; [|reflexivity]|discriminate]. intros _. right. exists l. split; [exact E|]. split; [apply Z.ltb_lt; exact L|exact I].
    + split; [split; [discriminate|]|discriminate]. intros [X|(m & X & Y & _)]; [congruence|]. rewrite E in X. injection X as <-. apply Z.ltb_ge in L. lia.
  - split; [split; [auto|reflexivity]|discriminate].
Qed.
Lemma r_crashes buf k p : p <> RIdle -> (r_text buf k p = Crash <-> p = RCrash) /\ r_text buf k p <> Wrong.
Proof.
  intros N. destruct p as [| cap n | cap n pos | l | l | l | l | l | l | l | l | l | ]; cbn [r_text]; unfold r_getting;
    try (split; [split; [discriminate|discriminate]|discriminate]).
  - destruct (N eq_refl).
  - destruct (r_i l <? r_n l); [destruct (r_pos l =? r_next l)|]; (split; [split; [discriminate|discriminate]|discriminate]).
  - split; [split; reflexivity|discriminate].
Qed.
Lemma abs_shows c g : abs c g -> shows c g.
Proof.
  intros (M & _ & W & Rd). unfold shows. split; [exact M|].
  assert (A : (c_writer c = None <-> g_w g = WIdle) /\ (c_writer c = Some Crash <-> g_w g = WCrash \/ doomed g) /\ c_writer c <> Some Wrong).
  { destruct (c_writer c) as [p|].
    - destruct W as [NW (k & _ & ->)]. destruct (w_crashes g k) as [[C1 C2] C3]. split; [split; [discriminate|intros X; destruct (NW X)]|].
      split; [split; [intros [= X]; exact (C1 X)|intros X; rewrite (C2 X); reflexivity]|intros [= X]; exact (C3 X)].
    - split; [split; auto|]. split; [split; [discriminate|]|discriminate]. intros [X|(l & X & _)]; congruence. }
  destruct A as (A1 & A2 & A3). split; [exact A1|]. split; [exact A2|]. split; [exact A3|].
  destruct (c_reader c) as [[n p]|].
  - destruct Rd as [NR (buf & k & _ & ->)]. destruct (r_crashes buf k (g_r g) NR) as [[C1 C2] C3]. split; [split; [discriminate|intros X; destruct (NR X)]|].
    split; [split; [intros [m [= _ X]]; exact (C1 X)|intros X; exists n; rewrite (C2 X); reflexivity]|intros m [= _ X]; exact (C3 X)].
  - split; [split; auto|]. split; [split; [intros [m X]; discriminate X|congruence]|intros m X; discriminate X].
Qed.

(** New. *)
Lemma enters_new size :
  advance (mkMemory [] [] 0 []) (GoConc.call width room ring_source (S F) "ring.New" [VInt INT size] [] Return)
  = if (size <? 0) || negb (room size) then (mkMemory [] [] 0 [false], Crash) else (image (New size), Return (VRef 2) []).

Proof.
  destruct F as [|[|f]]; [lia|lia|].
  simple refine (eq_trans (y := advance (mkMemory [] [] 0 [false]) (if (size <? 0) || negb (room size) then Crash else Act (ABytes size) _)) _ _); [shelve|reflexivity|].
  destruct ((size <? 0) || negb (room size)); reflexivity.
Qed.
Lemma new_text size : 0 <= size -> room size = true -> exists c, tnew width room (S F) size c.
Proof.
  intros A B. exists (mkConf (image (New size)) (VRef 2) None None), (image (New size)), 2%nat, []. split; [|reflexivity].
  unfold enters. rewrite enters_new, B. replace (size <? 0) with false by (symmetry; apply Z.ltb_ge; exact A). reflexivity.
Qed.
Lemma new_abs size c : tnew width room (S F) size c -> abs c (New size) /\ 0 <= size /\ room size = true.
Proof.
  intros (m & l & s & E & ->). unfold enters in E. rewrite enters_new in E.
  destruct (Z.ltb_spec size 0) as [H|H]; [discriminate E|]. destruct (room size); [|discriminate E]. cbn [orb negb] in E. injection E as <- <- <-.
  split; [|auto]. split; [reflexivity|]. split; [reflexivity|]. split; reflexivity.
Qed.
End Text.

