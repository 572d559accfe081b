(** * Functions as values, and variables they share

    A fourth meaning of the terms of GoLang.v, for client.go, gen.option.go,
    gen.broker.go and gen.record_batch.go.  Every variable has a place in memory.  A function literal is a value:
    its name, and the places of the variables it sees.  What functions of other files and
    packages do is a question ([Ask]), as in GoFlow.v; whoever answers it sees the memory
    and may change it.

    A structure is a value; a pointer is the place of a variable ([VRef]), or, to something
    of another package, a [VBox].  [:=] gives a new place to the names that are not yet
    declared in the same block, and assigns to the others.  A range with two names is over a map;
    its entries are asked for, and so is an element of a map.  As in GoLang.v what a compiler
    would reject is [Wrong]. *)
From Coq Require Import String.
From Verif Require Import GoBase GoLang.
Local Open Scope string_scope.
Local Open Scope list_scope.
Local Open Scope Z_scope.

(** ** Memory *)
Record mem := mkMem { next : nat; cells : list (nat * val) }.
Fixpoint assoc (l : nat) (cs : list (nat * val)) : option val :=
  match cs with [] => None | (k, v) :: cs => if Nat.eqb l k then Some v else assoc l cs end.
Definition get (l : nat) (m : mem) : option val := assoc l (cells m).
Definition put (l : nat) (v : val) (m : mem) : mem := mkMem (next m) ((l, v) :: cells m).
Definition push (v : val) (m : mem) : mem := mkMem (S (next m)) ((next m, v) :: cells m).

Inductive proc :=
| Done (v : val) (m : mem)
| Crash                                          (* panic *)
| Wrong
| More                                           (* the fuel is not enough *)
| Ask (what : string) (vs : list val) (m : mem) (k : val -> mem -> proc).
Definition want {A} (o : option A) (k : A -> proc) : proc := match o with Some a => k a | None => Wrong end.

Section Meaning.
(** [width]: bits of int. *)
Context (width : Z) (prog : package).

(** var x T; [n]: structures in structures. *)
Fixpoint zero_val (n : nat) (t : gty) : option val :=
  match n with
  | O => None
  | S n =>
      let zeros := fix zeros (fs : list (string * gty)) : option (list (string * val)) :=
        match fs with
        | [] => Some []
        | (f, t) :: fs => match zero_val n t, zeros fs with Some v, Some vs => Some ((f, v) :: vs) | _, _ => None end
        end in
      match t with
      | GInt t => Some (VInt t 0)
      | GBool => Some (VBool false)
      | GString => Some (VStr [])
      | GSlice _ | GDots _ | GPtr _ | GChan | GChanOf _ | GMap _ _ | GFunc => Some VNil
      | GNamed t => if String.eqb t "error" then Some VNil else match lookup t (k_types prog) with Some fs => option_map (VStruct t) (zeros fs) | None => None end
      | GArray _ _ => None
      end
  end.
(** T{...} *)
Fixpoint fill (decl : list (string * gty)) (given : list (string * val)) : option (list (string * val)) :=
  match decl with
  | [] => Some []
  | (f, t) :: decl =>
      match match lookup f given with Some v => Some (settle width t v) | None => zero_val 3 t end, fill decl given with
      | Some v, Some vs => Some ((f, v) :: vs)
      | _, _ => None
      end
  end.
Definition struct_val (t : string) (given : list (string * val)) : option val :=
  match lookup t (k_types prog) with Some decl => option_map (VStruct t) (fill decl given) | None => None end.
Definition make_name (t : gty) : option string :=
  match t with GChan => Some "make(chan struct{})" | GChanOf _ => Some "make(chan)" | GMap _ _ => Some "make(map)" | _ => None end.
Definition const_val (g : string) : option val :=
  match lookup g (k_globals prog) with Some (_, EInt z) => Some (VConst z) | Some (_, EStr s) => Some (VStr s) | _ => None end.
Definition operate (op : binop) (a b : val) : option val :=
  match op, a, b with
  | Add, VStr x, VStr y => Some (VStr (x ++ y))
  | Eq, VStr x, VStr y => Some (VBool (if list_eq_dec Z.eq_dec x y then true else false))
  | _, _, _ => binary width op a b
  end.
Definition append_val (v x : val) : option val :=
  match v, x with
  | VNil, VStruct t fs => Some (VStructs t [fs])
  | VStructs t l, VStruct u fs => if String.eqb t u then Some (VStructs t (l ++ [fs])) else None
  | _, _ => None
  end.
Definition elements_of (v : val) : option (list val) := match v with VList vs => Some vs | v => elements v end.
Definition len_of (v : val) : option Z := match v with VNil => Some 0 | VStr l => Some (zlen l) | VInts _ l => Some (zlen l) | _ => None end.
(** The last parameters of f(a ...T) *)
Fixpoint strings (vs : list val) : option (list (list Z)) :=
  match vs with [] => Some [] | VStr s :: vs => option_map (cons s) (strings vs) | _ => None end.
Definition dots (t : gty) (vs : list val) : option val :=
  match vs, t with
  | [], _ => Some VNil
  | [VTuple [v]], _ => Some v                        (* f(v...) *)
  | _, GString => option_map VStrs (strings vs)
  | _, _ => Some (VList vs)
  end.
Fixpoint arguments (ps : list (string * gty)) (vs : list val) : option (list (string * val)) :=
  match ps, vs with
  | [], [] => Some []
  | [(x, GDots t)], vs => option_map (fun v => [(x, v)]) (dots t vs)
  | (x, t) :: ps, v :: vs => option_map (cons (x, settle width t v)) (arguments ps vs)
  | _, _ => None
  end.

(** ** Variables: an environment has the place of each; ["{"] is where a block begins. *)
Definition open_block (E : env) : env := ("{", VNil) :: E.
Definition new_var (x : string) (v : val) (E : env) (m : mem) : env * mem :=
  if String.eqb x "_" then (E, m) else ((x, VRef (next m)) :: E, push v m).
Fixpoint here (x : string) (E : env) : option nat :=
  match E with
  | [] => None
  | (y, v) :: E => if String.eqb y "{" then None else if String.eqb x y then match v with VRef l => Some l | _ => None end else here x E
  end.
Fixpoint define_all (xs : list string) (vs : list val) (E : env) (m : mem) : option (env * mem) :=
  match xs, vs with
  | [], [] => Some (E, m)
  | x :: xs, v :: vs =>
      match here x E with
      | Some l => match get l m with Some old => define_all xs vs E (put l (settle_as width old v) m) | None => None end
      | None => let '(E, m) := new_var x (settle_int width v) E m in define_all xs vs E m
      end
  | _, _ => None
  end.
Fixpoint new_vars (xs : list (string * val)) (E : env) (m : mem) : env * mem :=
  match xs with [] => (E, m) | (x, v) :: xs => let '(E, m) := new_var x v E m in new_vars xs E m end.
Definition outer (E E' : env) : env := skipn (length E' - length E) E'.

(** ** Expressions *)
Section Level.
(** [call f E]: the function [f] with the variables it sees *)
Context (call : string -> env -> list val -> mem -> (val -> mem -> proc) -> proc) (fuel : nat).
(** v.m(...); a function in a field of that name is called too *)
Definition method (v : val) (name : string) (vs : list val) (m : mem) (k : val -> mem -> proc) : proc :=
  match v with
  | VStruct t _ | VBox (VStruct t _) => call (t ++ "." ++ name)%string [] (v :: vs) m k
  | VRef l => match get l m with Some (VStruct t _) => call (t ++ "." ++ name)%string [] (v :: vs) m k | _ => Wrong end
  | VHandle kind _ => Ask (kind ++ "." ++ name)%string (v :: vs) m k
  | VNil => Crash
  | _ => Wrong
  end.
Definition apply (v : val) (vs : list val) (m : mem) (k : val -> mem -> proc) : proc :=
  match v with VBox (VStruct f E) => call f E vs m k | VBox (VTuple [w; VStruct name []]) => method w name vs m k (* w.name as a value *) | VNil => Crash | _ => Wrong end.
Definition field (v : val) (f : string) (m : mem) (k : val -> mem -> proc) : proc :=
  match v with
  | VStruct _ fs => want (lookup f fs) (fun w => k w m)
  | VRef l => match get l m with Some (VStruct _ fs) => want (lookup f fs) (fun w => k w m) | _ => Wrong end
  | VHandle _ _ => k (VBox (VTuple [v; VStruct f []])) m      (* a method as a value *)
  | VNil => Crash
  | _ => Wrong
  end.
Definition var (x : string) (E : env) (m : mem) : option val :=
  match lookup x E with Some (VRef l) => get l m | _ => None end.
Fixpoint eval (e : expr) (E : env) (m : mem) (k : val -> mem -> proc) {struct e} : proc :=
  let evals := fix evals (es : list expr) (m : mem) (k : list val -> mem -> proc) : proc :=
    match es with [] => k [] m | e :: es => eval e E m (fun v m => evals es m (fun vs m => k (v :: vs) m)) end in
  let fields := fix fields (fs : list (string * expr)) (m : mem) (k : list (string * val) -> mem -> proc) : proc :=
    match fs with [] => k [] m | (f, e) :: fs => eval e E m (fun v m => fields fs m (fun vs m => k ((f, v) :: vs) m)) end in
  match e with
  | ENil => k VNil m | EInt z => k (VConst z) m | EStr l => k (VStr l) m | EBool b => k (VBool b) m
  | EVar x => want (var x E m) (fun v => k v m)
  | EGlobal g => want (const_val g) (fun v => k v m)
  | EFunc f => k (VBox (VStruct f E)) m
  | EField e f => eval e E m (fun v m => field v f m k)
  | EAddr (EVar x) => want (lookup x E) (fun v => k v m)
  | EBin And a b => eval a E m (fun v m => match v with VBool true => eval b E m k | VBool false => k v m | _ => Wrong end)
  | EBin Or a b => eval a E m (fun v m => match v with VBool false => eval b E m k | VBool true => k v m | _ => Wrong end)
  | EBin op a b => eval a E m (fun v m => eval b E m (fun w m => want (operate op v w) (fun x => k x m)))
  | EConv t e => eval e E m (fun v m => want (convert width t v) (fun x => k x m))
  | ELen e => eval e E m (fun v m => want (len_of v) (fun z => k (VInt INT z) m))
  | EIndex e i => eval e E m (fun v m => eval i E m (fun w m => Ask "index map" [v; w] m k))
  | EMake t n => eval n E m (fun v m => want (make_name t) (fun name => Ask name [v] m k))
  | EAppend e x => eval e E m (fun v m => eval x E m (fun w m => want (append_val v w) (fun x => k x m)))
  | ECall f args => evals args m (fun vs m => call f [] vs m k)
  | EApply e args => eval e E m (fun v m => evals args m (fun vs m => apply v vs m k))
  | EMethod e name args => eval e E m (fun v m => evals args m (fun vs m => method v name vs m k))
  | EStruct t fs => fields fs m (fun given m => want (struct_val t given) (fun v => k v m))
  | ENew t fs => fields fs m (fun given m => want (struct_val t given) (fun v => k (VRef (next m)) (push v m)))
  | ESpread e => eval e E m (fun v m => k (VTuple [v]) m)
  | _ => Wrong
  end.
Definition eval_all (es : list expr) (E : env) (m : mem) (k : list val -> mem -> proc) : proc :=
  (fix go (es : list expr) (m : mem) (k : list val -> mem -> proc) : proc :=
    match es with [] => k [] m | e :: es => eval e E m (fun v m => go es m (fun vs m => k (v :: vs) m)) end) es m k.
Definition eval_values (es : list expr) (E : env) (m : mem) (k : list val -> mem -> proc) : proc :=
  match es with [e] => eval e E m (fun v m => k (spread v) m) | _ => eval_all es E m k end.

(** ** Statements *)
(** v.f = x *)
Definition set_at (l : nat) (f : string) (x : val) (m : mem) : option mem :=
  match get l m with
  | Some (VStruct t fs) => match lookup f fs with Some old => option_map (fun fs => put l (VStruct t fs) m) (update f (settle_as width old x) fs) | None => None end
  | _ => None
  end.
Definition assign (l : expr) (x : val) (E : env) (m : mem) (k : mem -> proc) : proc :=
  match l with
  | EVar y => if String.eqb y "_" then k m
              else match lookup y E with Some (VRef l) => want (get l m) (fun old => k (put l (settle_as width old x) m)) | _ => Wrong end
  | EField (EVar y) f =>
      match lookup y E with
      | Some (VRef l) => match get l m with
                         | Some (VRef l) => want (set_at l f x m) k       (* through a pointer *)
                         | Some VNil => Crash
                         | _ => want (set_at l f x m) k end
      | _ => Wrong
      end
  | _ => Wrong
  end.
Fixpoint assign_all (ls : list expr) (vs : list val) (E : env) (m : mem) (k : mem -> proc) : proc :=
  match ls, vs with
  | [], [] => k m
  | l :: ls, v :: vs => assign l v E m (fun m => assign_all ls vs E m k)
  | _, _ => Wrong
  end.
Inductive flow := On (E : env) | Again (E : env) | Leave (vs : list val).
Definition leaving (E : env) (k : flow -> mem -> proc) (f : flow) (m : mem) : proc :=
  match f with On E' => k (On (outer E E')) m | Again E' => k (Again (outer E E')) m | Leave vs => k (Leave vs) m end.
(** The rounds of a for, and those of a range whose variables [k] and [x] have places. *)
Fixpoint rounds (n : nat) (test : mem -> (val -> mem -> proc) -> proc) (body post : mem -> (flow -> mem -> proc) -> proc) (m : mem) (k : option (list val) -> mem -> proc) : proc :=
  match n with
  | O => More
  | S n => test m (fun v m => match v with
             | VBool false => k None m
             | VBool true => body m (fun f m => match f with Leave vs => k (Some vs) m | _ => post m (fun _ m => rounds n test body post m k) end)
             | _ => Wrong end)
  end.
Fixpoint each (vs : list val) (body : val -> mem -> (flow -> mem -> proc) -> proc) (m : mem) (k : option (list val) -> mem -> proc) : proc :=
  match vs with
  | [] => k None m
  | v :: vs => body v m (fun f m => match f with Leave r => k (Some r) m | _ => each vs body m k end)
  end.
Definition ended (E : env) (k : flow -> mem -> proc) (r : option (list val)) (m : mem) : proc :=
  match r with None => k (On E) m | Some vs => k (Leave vs) m end.
Definition is_true (v : option val) : option bool := match v with Some (VBool b) => Some b | _ => None end.
Fixpoint switch (v : val) (cases : list (expr * (mem -> proc))) (default : mem -> proc) (E : env) (m : mem) : proc :=
  match cases with
  | [] => default m
  | (e, go) :: cases => eval e E m (fun w m => match is_true (operate Eq v w) with Some true => go m | Some false => switch v cases default E m | None => Wrong end)
  end.
Fixpoint exec (c : stmt) (E : env) (m : mem) (k : flow -> mem -> proc) {struct c} : proc :=
  let run := fix run (cs : list stmt) (E : env) (m : mem) (k : flow -> mem -> proc) : proc :=
    match cs with [] => k (On E) m | c :: cs => exec c E m (fun f m => match f with On E => run cs E m k | f => k f m end) end in
  let block (cs : list stmt) (E : env) (m : mem) (k : flow -> mem -> proc) := run cs (open_block E) m (leaving E k) in
  match c with
  | SDefine xs es => eval_values es E m (fun vs m => want (define_all xs vs E m) (fun r => k (On (fst r)) (snd r)))
  | SAssign ls es => eval_values es E m (fun vs m => assign_all ls vs E m (k (On E)))
  | SOp l op e => eval l E m (fun v m => eval e E m (fun w m => want (operate op v w) (fun x => assign l x E m (k (On E)))))
  | SVar x (Some t) None => want (zero_val 4 t) (fun v => let r := new_var x v E m in k (On (fst r)) (snd r))
  | SVar x None (Some e) => eval e E m (fun v m => let r := new_var x (settle_int width v) E m in k (On (fst r)) (snd r))
  | SIf init c yes no =>
      run init (open_block E) m (fun f m =>
        match f with
        | On E' => eval c E' m (fun v m => match v with
                     | VBool true => block yes E' m (leaving E k) | VBool false => block no E' m (leaving E k) | _ => Wrong end)
        | _ => Wrong
        end)
  | SFor init c post body =>
      run init (open_block E) m (fun f m =>
        match f with
        | On E' => rounds fuel (eval c E') (block body E') (run post E') m (ended E k)
        | _ => Wrong
        end)
  | SRange i x e body =>
      if String.eqb i "_" then
        eval e E m (fun v m => want (elements_of v) (fun vs =>
          let r := new_var x VNil (open_block E) m in
          each vs (fun v m k => assign (EVar x) v (fst r) m (fun m => block body (fst r) m k)) (snd r) (ended E k)))
      else
        eval e E m (fun v m => Ask "range map" [v] m (fun l m => want (elements_of l) (fun vs =>
          let r := new_vars [(i, VNil); (x, VNil)] (open_block E) m in
          each vs (fun v m k => assign_all [EVar i; EVar x] (spread v) (fst r) m (fun m => block body (fst r) m k)) (snd r) (ended E k))))
  | SSwitch e cases default => eval e E m (fun v m => switch v (map (fun p => let '(e, cs) := p in (e, fun m => block cs E m k)) cases) (fun m => block default E m k) E m)
  | SGo (EMethod e name args) =>
      eval e E m (fun v m => eval_all args E m (fun vs m => match v with
        | VRef l => match get l m with Some (VStruct t _) => Ask ("go " ++ t ++ "." ++ name)%string (v :: vs) m (fun _ => k (On E)) | _ => Wrong end
        | _ => Wrong end))
  | SContinue => k (Again E) m
  | SReturn es => eval_values es E m (fun vs => k (Leave vs))
  | SExpr e => eval e E m (fun _ => k (On E))
  | _ => Wrong
  end.
Definition run (cs : list stmt) (E : env) (m : mem) (k : flow -> mem -> proc) : proc :=
  (fix run (cs : list stmt) (E : env) (m : mem) (k : flow -> mem -> proc) : proc :=
    match cs with [] => k (On E) m | c :: cs => exec c E m (fun f m => match f with On E => run cs E m k | f => k f m end) end) cs E m k.
(** A call: [E] has the variables a function literal sees. *)
Definition invoke (f : func) (E : env) (vs : list val) (m : mem) (k : val -> mem -> proc) : proc :=
  want (arguments (f_params f) vs) (fun ps =>
    let r := new_vars ps (open_block E) m in
    run (f_body f) (fst r) (snd r) (fun r m =>
      match r with
      | Again _ => Wrong
      | _ => want (settle_results width (f_results f) (match r with Leave vs => vs | _ => [] end)) (fun out => k (single out) m)
      end)).
End Level.

(** [call n]: own calls nested at most [n] deep, and less than [n] rounds of a for; [More] if that is not enough. *)
Fixpoint call (n : nat) (f : string) (E : env) (vs : list val) (m : mem) (k : val -> mem -> proc) : proc :=
  match n with
  | O => More
  | S n => match lookup f (k_funcs prog), E with
           | Some fn, _ => invoke (call n) n fn E vs m k
           | None, [] => Ask f vs m k
           | None, _ => Wrong
           end
  end.
End Meaning.
