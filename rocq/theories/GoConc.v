(** * Goroutines: what a function does to the memory it shares

    A second meaning of the terms of GoLang.v, for functions that run beside others.  What a
    function does is a tree: it asks for a piece of the shared memory, or to change one, and
    the answer decides how it goes on ([Act]); it waits in a select ([Choose]); it is done.
    Trees do not say when the others run: the machine that runs the trees (below, and
    SourceRingSpec.v) does.

    Structures made with &T{...}, channels, contexts and arrays made with make are in the
    shared memory; the slice a caller passes is in a memory of its own ([heap]), and a
    slice nobody changes is a list.  As in GoLang.v what a compiler would reject is [Wrong].
    Fields are read plainly ([ALook]) or through sync/atomic; a plain read is done together
    with the access before it, see [advance]. *)
From Coq Require Import String.
From Verif Require Import GoBase GoLang.
Local Open Scope string_scope.
Local Open Scope list_scope.
Local Open Scope Z_scope.

Inductive action :=
| ALoad (l : nat) (f : string)                   (* atomic.LoadInt32(&l.f) *)
| AStore (l : nat) (f : string) (z : Z)          (* atomic.StoreInt32(&l.f, z) *)
| ASwap (l : nat) (f : string) (old new : Z)     (* atomic.CompareAndSwapInt32(&l.f, old, new) *)
| AGet (a : nat) (i : Z)                         (* a[i] *)
| APut (a : nat) (i b : Z)                       (* a[i] = b *)
| ACancel (c : nat)                              (* the function that context.WithCancel gave *)
| ALook (l : nat) (f : string)                   (* l.f *)
| AType (l : nat)                                (* the type of l, for a method call *)
| ANew (t : string) (fields : list (string * val))
| ABytes (n : Z)                                 (* make([]byte, n) *)
| AChan                                          (* make(chan struct{}) *)
| AContext.                                      (* context.WithCancel *)
(** What a case of a select waits for: a value from a channel, a taker for one, the end of a context. *)
Inductive party := Recv (c : nat) | Send (c : nat) | Expired (c : nat).
Definition heap := list (list Z).
Inductive proc :=
| Return (v : val) (s : heap)
| Crash                                          (* panic *)
| Wrong
| Act (a : action) (k : val -> proc)
| Choose (cases : list (party * proc)).

Section Meaning.
(** [width]: bits of int.  [room n]: make([]byte, n) with n >= 0 succeeds. *)
Context (width : Z) (room : Z -> bool) (prog : package).

Definition want {A} (o : option A) (k : A -> proc) : proc := match o with Some a => k a | None => Wrong end.
Definition need {A} (o : option A) (k : A -> proc) : proc := match o with Some a => k a | None => Crash end.

(** ** Sharing in Go's library *)
Definition as_int32 (v : val) : option Z := match GoLang.settle width (GInt I32) v with VInt I32 z => Some z | _ => None end.
Definition shared_table : list (string * (list val -> heap -> (val -> heap -> proc) -> proc)) :=
  [ ("atomic.LoadInt32", fun vs s k => match vs with [VAddr l f] => Act (ALoad l f) (fun v => k v s) | _ => Wrong end);
    ("atomic.StoreInt32", fun vs s k => match vs with [VAddr l f; v] => want (as_int32 v) (fun z => Act (AStore l f z) (fun v => k v s)) | _ => Wrong end);
    ("atomic.CompareAndSwapInt32", fun vs s k => match vs with
        | [VAddr l f; v; w] => want (as_int32 v) (fun a => want (as_int32 w) (fun b => Act (ASwap l f a b) (fun v => k v s))) | _ => Wrong end);
    ("context.Background", fun vs s k => match vs with [] => k (VHandle "background" 0) s | _ => Wrong end);
    ("context.WithCancel", fun vs s k => match vs with
        | [VHandle kind _] => if String.eqb kind "background" then
            Act AContext (fun v => match v with VHandle _ c => k (VTuple [VHandle "context" c; VHandle "cancel" c]) s | _ => Wrong end) else Wrong
        | _ => Wrong end) ].

(** The fields of T{...} *)
Definition zero_of (t : gty) : val :=
  match t with GInt t => VInt t 0 | GBool => VBool false | GString => VStr [] | _ => VNil end.
Definition fill (decl : list (string * gty)) (given : list (string * val)) : list (string * val) :=
  map (fun '(f, t) => (f, match lookup f given with Some v => GoLang.settle width t v | None => zero_of t end)) decl.

(** v[i] *)
Definition index_at (v : val) (i : Z) (s : heap) (k : val -> heap -> proc) : proc :=
  match v with
  | VInts t l => need (index l i) (fun z => k (VInt t z) s)
  | VView l lo hi => want (nth_error s l) (fun bs => need (if (0 <=? i) && (i <? hi - lo) then index bs (lo + i) else None) (fun z => k (VInt U8 z) s))
  | VHandle kind a => if String.eqb kind "bytes" then Act (AGet a i) (fun v => k v s) else Wrong
  | VNil => Crash
  | _ => Wrong
  end.
(** v[i] = x *)
Definition put_at (v : val) (i : Z) (x : val) (s : heap) (k : heap -> proc) : proc :=
  match v, x with
  | VView l lo hi, VInt U8 z => want (nth_error s l) (fun bs => if (0 <=? i) && (i <? hi - lo) then k (set_nth l (set_nth (Z.to_nat (lo + i)) z bs) s) else Crash)
  | VHandle kind a, VInt U8 z => if String.eqb kind "bytes" then Act (APut a i z) (fun _ => k s) else Wrong
  | VNil, _ => Crash
  | _, _ => Wrong
  end.

(** ** Expressions *)
Section Level.
Context (call : string -> list val -> heap -> (val -> heap -> proc) -> proc) (fuel : nat).
Fixpoint eval (e : expr) (E : env) (s : heap) (k : val -> heap -> proc) {struct e} : proc :=
  let evals := fix evals (es : list expr) (s : heap) (k : list val -> heap -> proc) : proc :=
    match es with [] => k [] s | e :: es => eval e E s (fun v s => evals es s (fun vs s => k (v :: vs) s)) end in
  match e with
  | ENil => k VNil s | EInt z => k (VConst z) s | EStr l => k (VStr l) s | EBool b => k (VBool b) s | EEmpty => k (VStruct "" []) s
  | EVar x => want (lookup x E) (fun v => k v s)
  | EField e f => eval e E s (fun v s => match v with VRef l => Act (ALook l f) (fun v => k v s) | VNil => Crash | _ => Wrong end)
  | EAddr (EField e f) => eval e E s (fun v s => match v with VRef l => k (VAddr l f) s | VNil => Crash | _ => Wrong end)
  | EIndex e i => eval e E s (fun v s => eval i E s (fun w s => want (number w) (fun z => index_at v z s k)))
  | EBin And a b => eval a E s (fun v s => match v with VBool true => eval b E s k | VBool false => k v s | _ => Wrong end)
  | EBin Or a b => eval a E s (fun v s => match v with VBool false => eval b E s k | VBool true => k v s | _ => Wrong end)
  | EBin op a b => eval a E s (fun v s => eval b E s (fun w s => want (binary width op v w) (fun x => k x s)))
  | ENot e => eval e E s (fun v s => match v with VBool b => k (VBool (negb b)) s | _ => Wrong end)
  | EConv t e => eval e E s (fun v s => want (convert width t v) (fun x => k x s))
  | EMake (GSlice (GInt U8)) n => eval n E s (fun v s => want (number v) (fun z => if (z <? 0) || negb (room z) then Crash else Act (ABytes z) (fun v => k v s)))
  | EMake GChan n => eval n E s (fun v s => match v with VConst 0 => Act AChan (fun v => k v s) | _ => Wrong end)
  | ECall f args => evals args s (fun vs s => call f vs s k)
  | EMethod e m args =>
      eval e E s (fun v s => evals args s (fun vs s =>
        match v with
        | VRef l => Act (AType l) (fun w => match w with
            | VStruct t _ =>
                if is_some (lookup (t ++ "." ++ m)%string (k_funcs prog)) then call (t ++ "." ++ m)%string (v :: vs) s k
                else match vs with                                  (* a function in a field *)
                     | [] => Act (ALook l m) (fun f => match f with
                               | VHandle kind c => if String.eqb kind "cancel" then Act (ACancel c) (fun _ => k (VTuple []) s) else Wrong
                               | _ => Wrong end)
                     | _ => Wrong end
            | _ => Wrong end)
        | VHandle kind c => if String.eqb kind "context" && String.eqb m "Done" then k (VHandle "done" c) s else Wrong
        | VNil => Crash
        | _ => Wrong
        end))
  | ENew t fs =>
      (fix go (fs : list (string * expr)) (s : heap) (k : list (string * val) -> heap -> proc) : proc :=
        match fs with [] => k [] s | (f, e) :: fs => eval e E s (fun v s => go fs s (fun vs s => k ((f, v) :: vs) s)) end) fs s
        (fun given s => want (lookup t (k_types prog)) (fun decl => Act (ANew t (fill decl given)) (fun v => k v s)))
  | _ => Wrong
  end.
Definition eval_all (es : list expr) (E : env) (s : heap) (k : list val -> heap -> proc) : proc :=
  (fix go (es : list expr) (s : heap) (k : list val -> heap -> proc) : proc :=
    match es with [] => k [] s | e :: es => eval e E s (fun v s => go es s (fun vs s => k (v :: vs) s)) end) es s k.
Definition eval_values (es : list expr) (E : env) (s : heap) (k : list val -> heap -> proc) : proc :=
  match es with [e] => eval e E s (fun v s => k (spread v) s) | _ => eval_all es E s k end.

(** ** Statements *)
Definition assign (l : expr) (v : val) (E : env) (s : heap) (k : env -> heap -> proc) : proc :=
  match l with
  | EVar x => if String.eqb x "_" then k E s else want (lookup x E) (fun old => want (update x (settle_as width old v) E) (fun E => k E s))
  | EIndex e i => eval e E s (fun a s => eval i E s (fun w s => want (number w) (fun z => put_at a z v s (fun s => k E s))))
  | _ => Wrong
  end.
Fixpoint assign_all (ls : list expr) (vs : list val) (E : env) (s : heap) (k : env -> heap -> proc) : proc :=
  match ls, vs with
  | [], [] => k E s
  | l :: ls, v :: vs => assign l v E s (fun E s => assign_all ls vs E s k)
  | _, _ => Wrong
  end.
(** Leaving a block forgets what was declared in it. *)
Definition leaving (E : env) (k : flow -> heap -> proc) (f : flow) (s : heap) : proc :=
  match f with On E' => k (On (skipn (length E' - length E) E')) s | Leave vs => k (Leave vs) s end.
Fixpoint rounds (n : nat) (test : env -> heap -> (val -> heap -> proc) -> proc) (body post : env -> heap -> (flow -> heap -> proc) -> proc)
    (E : env) (s : heap) (k : flow -> heap -> proc) : proc :=
  match n with
  | O => Wrong
  | S n =>
      test E s (fun v s =>
        match v with
        | VBool false => k (On E) s
        | VBool true =>
            body E s (fun f s =>
              match f with
              | Leave vs => k (Leave vs) s
              | On E => post E s (fun f s => match f with On E => rounds n test body post E s k | Leave _ => Wrong end)
              end)
        | _ => Wrong
        end)
  end.
(** What a case waits for. *)
Definition ear (v : val) : option party :=
  match v with
  | VHandle kind c => if String.eqb kind "chan" then Some (Recv c) else if String.eqb kind "done" then Some (Expired c) else None
  | _ => None
  end.
Definition mouth (v : val) : option party :=
  match v with VHandle kind c => if String.eqb kind "chan" then Some (Send c) else None | _ => None end.
Fixpoint exec (c : stmt) (E : env) (s : heap) (k : flow -> heap -> proc) {struct c} : proc :=
  let run := fix run (cs : list stmt) (E : env) (s : heap) (k : flow -> heap -> proc) : proc :=
    match cs with [] => k (On E) s | c :: cs => exec c E s (fun f s => match f with On E => run cs E s k | Leave vs => k (Leave vs) s end) end in
  let block (cs : list stmt) (E : env) (s : heap) (k : flow -> heap -> proc) := run cs E s (leaving E k) in
  match c with
  | SDefine xs es => eval_values es E s (fun vs s => want (declare_all width xs vs E) (fun E => k (On E) s))
  | SAssign ls es => eval_values es E s (fun vs s => assign_all ls vs E s (fun E s => k (On E) s))
  | SOp l op e =>
      eval l E s (fun v s => eval e E s (fun w s => want (binary width op v w) (fun x => assign l x E s (fun E s => k (On E) s))))
  | SVar x (Some t) None => k (On (declare x (zero_of t) E)) s
  | SVar x (Some t) (Some e) => eval e E s (fun v s => k (On (declare x (GoLang.settle width t v) E)) s)
  | SVar x None (Some e) => eval e E s (fun v s => k (On (declare x (settle_int width v) E)) s)
  | SIf init c yes no =>
      run init E s (fun f s =>
        match f with
        | On E' => eval c E' s (fun v s => match v with
                     | VBool true => block yes E' s (leaving E k) | VBool false => block no E' s (leaving E k) | _ => Wrong end)
        | Leave vs => k (Leave vs) s
        end)
  | SFor init c post body =>
      run init E s (fun f s =>
        match f with
        | On E' => rounds fuel (eval c) (block body) (run post) E' s (leaving E k)
        | Leave vs => k (Leave vs) s
        end)
  | SSelect cases => let k0 := k in
      (fix go (cs : list (comm * list stmt)) (s : heap) (k : list (party * (heap -> proc)) -> heap -> proc) : proc :=
        match cs with
        | [] => k [] s
        | (CRecv e, b) :: cs => eval e E s (fun v s => want (ear v) (fun p => go cs s (fun ps s => k ((p, fun s => block b E s k0) :: ps) s)))
        | (CSend e x, b) :: cs =>
            eval e E s (fun v s => eval x E s (fun _ s => want (mouth v) (fun p => go cs s (fun ps s => k ((p, fun s => block b E s k0) :: ps) s))))
        end) cases s (fun ps s => Choose (map (fun '(p, f) => (p, f s)) ps))
  | SReturn es => eval_values es E s (fun vs s => k (Leave vs) s)
  | SExpr e => eval e E s (fun _ s => k (On E) s)
  | _ => Wrong
  end.
Definition run (cs : list stmt) (E : env) (s : heap) (k : flow -> heap -> proc) : proc :=
  (fix run (cs : list stmt) (E : env) (s : heap) (k : flow -> heap -> proc) : proc :=
    match cs with [] => k (On E) s | c :: cs => exec c E s (fun f s => match f with On E => run cs E s k | Leave vs => k (Leave vs) s end) end) cs E s k.
Definition invoke (f : func) (vs : list val) (s : heap) (k : val -> heap -> proc) : proc :=
  want (bind_params width (f_params f) vs) (fun E =>
    run (f_body f) E s (fun r s =>
      want (settle_results width (f_results f) (match r with Leave vs => vs | On _ => [] end)) (fun out => k (single out) s))).
End Level.

(** [call n]: calls nested at most [n] deep, and a bit less than [n] rounds of a loop; [Wrong] if that is not enough. *)
Fixpoint call (n : nat) (f : string) (vs : list val) (s : heap) (k : val -> heap -> proc) : proc :=
  match n with
  | O => Wrong
  | S n => match lookup f shared_table with
           | Some g => g vs s k
           | None => match lookup f (k_funcs prog) with Some fn => invoke (call n) n fn vs s k | None => Wrong end
           end
  end.
End Meaning.

(** ** The shared memory *)
Record memory := mkMemory {
  m_structs : list (string * list (string * val));
  m_arrays : list (list Z);
  m_chans : nat;                                  (* how many there are: they hold nothing *)
  m_ended : list bool }.                          (* contexts *)
Inductive outcome := Answer (v : val) (m : memory) | Panics | Senseless.
Definition field_of (l : nat) (f : string) (m : memory) : option val :=
  match nth_error (m_structs m) l with Some (_, fs) => lookup f fs | None => None end.
Definition set_field (l : nat) (f : string) (v : val) (m : memory) : outcome :=
  match nth_error (m_structs m) l with
  | Some (t, fs) => match update f v fs with
                    | Some fs => Answer (VTuple []) (mkMemory (set_nth l (t, fs) (m_structs m)) (m_arrays m) (m_chans m) (m_ended m))
                    | None => Senseless end
  | None => Senseless
  end.
Definition effect (a : action) (m : memory) : outcome :=
  match a with
  | ALoad l f => match field_of l f m with Some (VInt I32 z) => Answer (VInt I32 z) m | _ => Senseless end
  | AStore l f z => match field_of l f m with Some (VInt I32 _) => set_field l f (VInt I32 z) m | _ => Senseless end
  | ASwap l f old new =>
      match field_of l f m with
      | Some (VInt I32 z) => if z =? old then match set_field l f (VInt I32 new) m with Answer _ m => Answer (VBool true) m | o => o end else Answer (VBool false) m
      | _ => Senseless end
  | AGet a i => match nth_error (m_arrays m) a with
                | Some bs => match index bs i with Some b => Answer (VInt U8 b) m | None => Panics end
                | None => Senseless end
  | APut a i b => match nth_error (m_arrays m) a with
                  | Some bs => if (0 <=? i) && (i <? zlen bs)
                               then Answer (VTuple []) (mkMemory (m_structs m) (set_nth a (set_nth (Z.to_nat i) b bs) (m_arrays m)) (m_chans m) (m_ended m))
                               else Panics
                  | None => Senseless end
  | ACancel c => if (Nat.ltb c (length (m_ended m))) then Answer (VTuple []) (mkMemory (m_structs m) (m_arrays m) (m_chans m) (set_nth c true (m_ended m))) else Senseless
  | ALook l f => match field_of l f m with Some v => Answer v m | None => Senseless end
  | AType l => match nth_error (m_structs m) l with Some (t, _) => Answer (VStruct t []) m | None => Senseless end
  | ANew t fs => Answer (VRef (length (m_structs m))) (mkMemory (m_structs m ++ [(t, fs)]) (m_arrays m) (m_chans m) (m_ended m))
  | ABytes n => Answer (VHandle "bytes" (length (m_arrays m))) (mkMemory (m_structs m) (m_arrays m ++ [repeat 0 (Z.to_nat n)]) (m_chans m) (m_ended m))
  | AChan => Answer (VHandle "chan" (m_chans m)) (mkMemory (m_structs m) (m_arrays m) (S (m_chans m)) (m_ended m))
  | AContext => Answer (VHandle "context" (length (m_ended m))) (mkMemory (m_structs m) (m_arrays m) (m_chans m) (m_ended m ++ [false]))
  end.

(** ** Running *)
(** Actions done together with the one before: making something, which nobody else knows
    yet, and plain reads of fields.  Which plain reads a program makes is for its proofs to
    see: those of ring/buffer.go are of fields that are never written after New. *)
Definition private (a : action) : bool :=
  match a with ALook _ _ | AType _ | ANew _ _ | ABytes _ | AChan | AContext => true | _ => false end.
Fixpoint advance (m : memory) (p : proc) {struct p} : memory * proc :=
  match p with
  | Act a k => if private a then match effect a m with Answer v m => advance m (k v) | Panics => (m, Crash) | Senseless => (m, Wrong) end
               else (m, p)
  | _ => (m, p)
  end.
(** A goroutine makes one access. *)
Inductive moves : memory -> proc -> memory -> proc -> Prop :=
| moves_on m a k v m1 m2 p : effect a m = Answer v m1 -> advance m1 (k v) = (m2, p) -> moves m (Act a k) m2 p
| moves_panic m a k : effect a m = Panics -> moves m (Act a k) m Crash
| moves_wrong m a k : effect a m = Senseless -> moves m (Act a k) m Wrong.
(** Two goroutines, each in a select, meet at a channel. *)
Definition opposite (c : nat) (x y : party) : Prop := (x = Send c /\ y = Recv c) \/ (x = Recv c /\ y = Send c).
Inductive meets (c : nat) : memory -> proc -> proc -> memory -> proc -> proc -> Prop :=
| meets_at ps qs x y p q m m1 m2 p' q' : In (x, p) ps -> In (y, q) qs -> opposite c x y ->
    advance m p = (m1, p') -> advance m1 q = (m2, q') -> meets c m (Choose ps) (Choose qs) m2 p' q'.
(** A select takes the case of an ended context. *)
Inductive expires : memory -> proc -> memory -> proc -> Prop :=
| expires_now ps c p m m1 p' : In (Expired c, p) ps -> nth_error (m_ended m) c = Some true ->
    advance m p = (m1, p') -> expires m (Choose ps) m1 p'.
