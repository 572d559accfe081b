(** * Goroutines: what a function asks of the rest of the program

    A third meaning of the terms of GoLang.v, for functions that mostly use what others
    offer: mutexes, channels, maps, connections, functions of other packages.  Only the
    control flow and the local variables have a meaning here.  All else is a question
    ([Ask]): its name, its arguments, and how the function goes on for each answer.  What
    the answers are, and when they are given, is for the machine that runs the trees
    (SourceConnSpec.v).

    A pointer to a structure whose fields are not assigned is the structure; a field
    that can change, and one that is a mutex, is a handle of the machine ([VHandle]).  As in
    GoLang.v what a compiler would reject is [Wrong]. *)
From Coq Require Import String.
From Verif Require Import GoBase GoLang.
Local Open Scope string_scope.
Local Open Scope list_scope.
Local Open Scope Z_scope.

Inductive proc :=
| Done (v : val)
| Crash                                          (* panic *)
| Wrong
| Ask (what : string) (vs : list val) (k : val -> proc).
Definition unit_val : val := VTuple [].

Section Meaning.
(** [width]: bits of int. *)
Context (width : Z) (prog : package).

Definition want {A} (o : option A) (k : A -> proc) : proc := match o with Some a => k a | None => Wrong end.
(** The name of what make makes. *)
Definition make_name (t : gty) : option string :=
  match t with
  | GSlice (GInt U8) => Some "make([]byte)" | GChan => Some "make(chan struct{})" | GChanOf _ => Some "make(chan)" | GMap _ _ => Some "make(map)"
  | _ => None
  end.
(** The name of a variable that is made where it is declared. *)
Definition new_name (t : gty) : option string :=
  match t with GInt I32 => Some "new(int32)" | GNamed t => if String.eqb t "error" then None else Some ("new(" ++ t ++ ")")%string | _ => None end.
(** The fields of T{...} in the order of the declaration; a missing one that can change is made. *)
Fixpoint fill (decl : list (string * gty)) (given : list (string * val)) (k : list (string * val) -> proc) : proc :=
  match decl with
  | [] => k []
  | (f, t) :: decl =>
      match lookup f given, new_name t with
      | Some v, _ => fill decl given (fun fs => k ((f, v) :: fs))
      | None, Some name => Ask name [] (fun v => fill decl given (fun fs => k ((f, v) :: fs)))
      | None, None => fill decl given (fun fs => k ((f, VNil) :: fs))
      end
  end.

(** ** Expressions *)
Section Level.
Context (call : string -> list val -> (val -> proc) -> proc) (fuel : nat).
Fixpoint eval (e : expr) (E : env) (k : val -> proc) {struct e} : proc :=
  let evals := fix evals (es : list expr) (k : list val -> proc) : proc :=
    match es with [] => k [] | e :: es => eval e E (fun v => evals es (fun vs => k (v :: vs))) end in
  let fields := fix fields (fs : list (string * expr)) (k : list (string * val) -> proc) : proc :=
    match fs with [] => k [] | (f, e) :: fs => eval e E (fun v => fields fs (fun vs => k ((f, v) :: vs))) end in
  match e with
  | ENil => k VNil | EInt z => k (VConst z) | EStr l => k (VStr l) | EBool b => k (VBool b) | EEmpty => k (VStruct "" [])
  | EVar x => want (lookup x E) k
  | EField e f => eval e E (fun v => match v with
      | VStruct _ fs => want (lookup f fs) k
      | VHandle kind _ => Ask (kind ++ "." ++ f)%string [v] k          (* of a structure of another package *)
      | VNil => Crash | _ => Wrong end)
  | EAddr e => eval e E (fun v => match v with VHandle _ _ => k v | _ => Wrong end)
  | EBin And a b => eval a E (fun v => match v with VBool true => eval b E k | VBool false => k v | _ => Wrong end)
  | EBin Or a b => eval a E (fun v => match v with VBool false => eval b E k | VBool true => k v | _ => Wrong end)
  | EBin op a b => eval a E (fun v => eval b E (fun w => want (binary width op v w) k))
  | ENot e => eval e E (fun v => match v with VBool b => k (VBool (negb b)) | _ => Wrong end)
  | EConv t e => eval e E (fun v => want (convert width t v) k)
  | ELen e => eval e E (fun v => Ask "len" [v] k)
  | EMake t n => eval n E (fun v => want (make_name t) (fun name => Ask name [v] k))
  | ECall f args => evals args (fun vs => call f vs k)
  | EApply e args =>
      eval e E (fun v => evals args (fun vs => match v with VHandle kind _ => Ask (kind ++ "()")%string (v :: vs) k | VNil => Crash | _ => Wrong end))
  | EMethod e m args =>
      eval e E (fun v => evals args (fun vs =>
        match v with
        | VHandle kind _ => Ask (kind ++ "." ++ m)%string (v :: vs) k
        | VStruct t fs =>
            if is_some (lookup (t ++ "." ++ m)%string (k_funcs prog)) then call (t ++ "." ++ m)%string (v :: vs) k
            else match lookup m fs with                               (* a function in a field *)
                 | Some (VHandle kind n) => Ask (kind ++ "()")%string (VHandle kind n :: vs) k
                 | Some VNil => Crash
                 | _ => Wrong end
        | VNil => Crash
        | _ => Wrong
        end))
  | ENew t fs => fields fs (fun given => want (lookup t (k_types prog)) (fun decl => fill decl given (fun fs => k (VStruct t fs))))
  | EStruct t fs => fields fs (fun given => want (lookup t (k_types prog)) (fun decl => fill decl given (fun fs => k (VStruct t fs))))
  | ERecv e => eval e E (fun v => Ask "<-" [v] k)
  | _ => Wrong
  end.
Definition eval_all (es : list expr) (E : env) (k : list val -> proc) : proc :=
  (fix go (es : list expr) (k : list val -> proc) : proc :=
    match es with [] => k [] | e :: es => eval e E (fun v => go es (fun vs => k (v :: vs))) end) es k.
Definition eval_values (es : list expr) (E : env) (k : list val -> proc) : proc :=
  match es with [e] => eval e E (fun v => k (spread v)) | _ => eval_all es E k end.

(** ** Statements *)
Inductive flow := On (E : env) | Again (E : env) | Leave (vs : list val).
(** Leaving a block forgets what was declared in it. *)
Definition outer (E E' : env) : env := skipn (length E' - length E) E'.
Definition leaving (E : env) (k : flow -> proc) (f : flow) : proc :=
  match f with On E' => k (On (outer E E')) | Again E' => k (Again (outer E E')) | Leave vs => k (Leave vs) end.
(** for { ... } *)
Fixpoint rounds (n : nat) (body : env -> (flow -> proc) -> proc) (E : env) (k : flow -> proc) : proc :=
  match n with
  | O => Wrong
  | S n => body E (fun f => match f with Leave vs => k (Leave vs) | On E' | Again E' => rounds n body (outer E E') k end)
  end.
Fixpoint exec (c : stmt) (E : env) (k : flow -> proc) {struct c} : proc :=
  let run := fix run (cs : list stmt) (E : env) (k : flow -> proc) : proc :=
    match cs with [] => k (On E) | c :: cs => exec c E (fun f => match f with On E => run cs E k | f => k f end) end in
  let block (cs : list stmt) (E : env) (k : flow -> proc) := run cs E (leaving E k) in
  match c with
  | SDefine [x; y] [EIndex m i] =>                                    (* x, y := m[i] *)
      eval m E (fun v => eval i E (fun w => Ask "m[i]" [v; w] (fun a =>
        want (declare_all width [x; y] (spread a) E) (fun E => k (On E)))))
  | SDefine xs es => eval_values es E (fun vs => want (declare_all width xs vs E) (fun E => k (On E)))
  | SAssign [EIndex m i] [e] => eval m E (fun v => eval i E (fun w => eval e E (fun x => Ask "m[i]=" [v; w; x] (fun _ => k (On E)))))
  | SVar x (Some t) None => want (new_name t) (fun name => Ask name [] (fun v => k (On (declare x v E))))
  | SVar x None (Some e) => eval e E (fun v => k (On (declare x (settle_int width v) E)))
  | SIf init c yes no =>
      run init E (fun f =>
        match f with
        | On E' => eval c E' (fun v => match v with
                     | VBool true => block yes E' (leaving E k) | VBool false => block no E' (leaving E k) | _ => Wrong end)
        | f => k f
        end)
  | SFor [] (EBool true) [] body => rounds fuel (run body) E k
  | SSelectElse [(CRecv e, yes)] no =>
      eval e E (fun v => Ask "poll" [v] (fun a => match a with VBool true => block yes E k | VBool false => block no E k | _ => Wrong end))
  | SSend e x => eval e E (fun v => eval x E (fun w => Ask "send" [v; w] (fun _ => k (On E))))
  | SGo (EMethod e m args) =>
      eval e E (fun v => eval_all args E (fun vs => match v with VStruct t _ => Ask ("go " ++ t ++ "." ++ m)%string (v :: vs) (fun _ => k (On E)) | _ => Wrong end))
  | SContinue => k (Again E)
  | SReturn es => eval_values es E (fun vs => k (Leave vs))
  | SExpr e => eval e E (fun _ => k (On E))
  | _ => Wrong
  end.
Definition run (cs : list stmt) (E : env) (k : flow -> proc) : proc :=
  (fix run (cs : list stmt) (E : env) (k : flow -> proc) : proc :=
    match cs with [] => k (On E) | c :: cs => exec c E (fun f => match f with On E => run cs E k | f => k f end) end) cs E k.
(** A function may begin with a defer: its arguments are evaluated there, the call is made when the function returns. *)
Definition invoke (f : func) (vs : list val) (k : val -> proc) : proc :=
  want (bind_params width (f_params f) vs) (fun E =>
    let body cs k := run cs E (fun r =>
      match r with
      | Again _ => Wrong
      | _ => want (settle_results width (f_results f) (match r with Leave vs => vs | _ => [] end)) (fun out => k (single out))
      end) in
    match f_body f with
    | SDefer (ECall g args) :: cs => eval_all args E (fun vs => body cs (fun out => call g vs (fun _ => k out)))
    | cs => body cs k
    end).
End Level.

(** [call n]: own calls nested at most [n] deep, and less than [n] rounds of a loop; [Wrong] if that is not enough. *)
Fixpoint call (n : nat) (f : string) (vs : list val) (k : val -> proc) : proc :=
  match n with
  | O => Wrong
  | S n => match lookup f (k_funcs prog) with Some fn => invoke (call n) n fn vs k | None => Ask f vs k end
  end.
End Meaning.
