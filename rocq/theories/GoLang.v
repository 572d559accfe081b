(** * A part of Go: syntax and meaning

    The part of the language in which message/encoder.go, message/decoder.go and
    message/sizeof/sizeof.go are written.  Source.v has these files as terms of type
    [func], translated by tools/go_source.py, which knows the grammar of Go and nothing of
    the model.  Here is what such a term does.

    Values carry their type, as Go's static types are not kept: an operation on operands
    whose types do not fit is [Stuck], and so is everything else a compiler would reject.
    A number written in the source is an untyped constant until it meets a type.  Slices of
    things nobody changes are lists; arrays, and structures behind pointers, live in a
    heap.

    What is done together with other goroutines has its meaning in GoConc.v and GoFlow.v,
    functions as values and variables they share in GoShare.v. *)
From Coq Require Import String.
From Verif Require Import GoBase Binary Utf8 Encoder Platform Scratch.
Open Scope string_scope.
Open Scope list_scope.
Open Scope Z_scope.

(** ** Syntax *)
Inductive ity := I8 | I16 | I32 | I64 | INT | U8 | U16 | U32 | U64.
Inductive gty := GInt (t : ity) | GBool | GString | GSlice (t : gty) | GDots (t : gty) (* ...T *) | GArray (n : Z) (t : gty) | GPtr (t : gty) | GChan (* of struct{} *) | GChanOf (t : gty) | GMap (k t : gty) | GFunc | GNamed (s : string).
Inductive binop := Add | Sub | Mul | Eq | Ne | Lt | Le | Gt | Ge | And | Or.
Inductive expr :=
| ENil | EInt (z : Z) | EStr (s : list Z) | EBool (b : bool)
| EVar (x : string)
| EGlobal (x : string)                            (* constant or variable of a package *)
| EField (e : expr) (f : string)
| EIndex (e i : expr)
| ESlice (e : expr) (lo hi max : option expr)
| EBin (op : binop) (a b : expr)
| ENot (e : expr) | ENeg (e : expr) | EAddr (e : expr) | EDeref (e : expr)
| EConv (t : gty) (e : expr)
| ELen (e : expr) | EMake (t : gty) (n : expr) | EAppend (e x : expr)
| ECall (f : string) (args : list expr)           (* function of a package *)
| EMethod (e : expr) (m : string) (args : list expr)
| ENew (t : string) (fields : list (string * expr)) (* &T{...} *)
| EAssert (e : expr) (t : string)                 (* x, ok := e.(t) *)
| EEmpty                                          (* struct{}{} *)
| EStruct (t : string) (fields : list (string * expr)) (* T{...} *)
| EApply (e : expr) (args : list expr)            (* call of a function in a variable *)
| ERecv (e : expr)                                (* <-e *)
| EFunc (f : string)                              (* func(...) { ... }: a function of that name, with the variables it sees *)
| ESpread (e : expr).                             (* e... *)
Inductive comm := CRecv (e : expr) | CSend (e x : expr).
Inductive stmt :=
| SDefine (xs : list string) (es : list expr)
| SAssign (ls : list expr) (es : list expr)       (* "_" is [EVar "_"] *)
| SOp (l : expr) (op : binop) (e : expr)          (* l op= e, l++ *)
| SVar (x : string) (t : option gty) (e : option expr)
| SIf (init : list stmt) (c : expr) (yes no : list stmt)
| SFor (init : list stmt) (c : expr) (post body : list stmt)
| SRange (k x : string) (e : expr) (body : list stmt)
| SSwitch (e : expr) (cases : list (expr * list stmt)) (default : list stmt)
| SSelect (cases : list (comm * list stmt))
| SSelectElse (cases : list (comm * list stmt)) (default : list stmt)
| SSend (e x : expr)                              (* e <- x *)
| SGo (e : expr)
| SDefer (e : expr)
| SContinue
| SReturn (es : list expr)
| SExpr (e : expr).
Record func := mkFunc { f_params : list (string * gty); f_results : list gty; f_body : list stmt }.
Record package := mkPackage {
  k_types : list (string * list (string * gty));          (* structures *)
  k_globals : list (string * (option gty * expr));
  k_funcs : list (string * func) }.

(** ** Values *)
Inductive val :=
| VNil
| VConst (z : Z)                    (* untyped constant *)
| VInt (t : ity) (z : Z)
| VBool (b : bool)
| VStr (s : list Z)
| VInts (t : ity) (l : list Z)      (* slice of integers *)
| VStrs (l : list (list Z))         (* slice of strings *)
| VErr (e : error)
| VStruct (t : string) (fields : list (string * val))
| VStructs (t : string) (l : list (list (string * val))) (* slice of structures *)
| VBox (v : val)                    (* pointer to a variable that nobody changes *)
| VCell (l : nat)                   (* of a variable only: its value, a structure, is in the heap *)
| VRef (l : nat)                    (* pointer to a structure in the heap *)
| VArr (l : nat)                    (* array in the heap *)
| VView (l : nat) (lo hi : Z)       (* slice of it *)
| VWriter                           (* the io.Writer *)
| VAddr (l : nat) (f : string)      (* pointer to a field of a structure in the heap *)
| VHandle (kind : string) (l : nat) (* something of another package *)
| VList (vs : list val)             (* slice of other things *)
| VTuple (vs : list val).           (* zero or several results *)
Inductive cell := CStruct (t : string) (fields : list (string * val)) | CArray (bytes : list Z).
(** The io.Writer ([target], Encoder.v) is the rest of the world. *)
Record state := mkState { heap : list cell; world : target }.
Inductive res (A : Type) := Ok (a : A) (s : state) | Panic | Stuck.
Arguments Ok {A}. Arguments Panic {A}. Arguments Stuck {A}.
Definition rbind {A B} (m : res A) (f : A -> state -> res B) : res B :=
  match m with Ok a s => f a s | Panic => Panic | Stuck => Stuck end.
Notation "'let*' ( x , s ) := m 'in' f" := (rbind m (fun x s => f)) (at level 200, x name, s name, f at level 200).
Definition env := list (string * val).
Fixpoint lookup {A} (x : string) (m : list (string * A)) : option A :=
  match m with [] => None | (y, v) :: m => if String.eqb x y then Some v else lookup x m end.
(** The innermost variable of that name. *)
Fixpoint update (x : string) (v : val) (m : env) : option env :=
  match m with
  | [] => None
  | (y, w) :: m => if String.eqb x y then Some ((y, v) :: m) else option_map (cons (y, w)) (update x v m)
  end.
Definition declare (x : string) (v : val) (m : env) : env := if String.eqb x "_" then m else (x, v) :: m.
Fixpoint set_nth {A} (n : nat) (x : A) (l : list A) : list A :=
  match l, n with [], _ => [] | _ :: l, O => x :: l | y :: l, S n => y :: set_nth n x l end.
Definition set_cell (l : nat) (c : cell) (s : state) : state := mkState (set_nth l c (heap s)) (world s).
Definition alloc (c : cell) (s : state) : nat * state := (length (heap s), mkState (heap s ++ [c]) (world s)).
Definition is_some {A} (o : option A) : bool := match o with Some _ => true | None => false end.
Definition opt {A} (o : option A) (s : state) : res A := match o with Some a => Ok a s | None => Stuck end.
Definition guard {A} (o : option A) (s : state) : res A := match o with Some a => Ok a s | None => Panic end.
Definition as_error (o : option error) : val := match o with Some e => VErr e | None => VNil end.

(** ** The platform and the program *)
Section Meaning.
(** [width]: bits of int.  [late]: binary.Varint of Go 1.16 and later (Platform.v).  [room t n]: make([]t, n) of
    n >= 0 elements succeeds.  [scribble]: what a Write leaves in an array whose slice it was given (Scratch.v). *)
Context (width : Z) (late : bool) (room : gty -> Z -> bool) (scribble : list (list Z) -> list Z -> list Z) (prog : package).

(** T(z) *)
Definition conv (t : ity) (z : Z) : Z :=
  match t with
  | I8 => int8 z | I16 => int16 z | I32 => int32 z | I64 => int64 z | INT => wrap width z
  | U8 => uint8 z | U16 => uint16 z | U32 => uint32 z | U64 => uint64 z
  end.
Definition ity_eqb (a b : ity) : bool :=
  match a, b with I8, I8 | I16, I16 | I32, I32 | I64, I64 | INT, INT | U8, U8 | U16, U16 | U32, U32 | U64, U64 => true | _, _ => false end.
(** An untyped constant that meets a type. *)
Definition settle (t : gty) (v : val) : val :=
  match t, v with GInt t, VConst z => VInt t (conv t z) | _, _ => v end.
Definition settle_as (old v : val) : val :=
  match old, v with VInt t _, VConst z => VInt t (conv t z) | _, _ => v end.
Definition settle_int (v : val) : val := settle (GInt INT) v.
Definition number (v : val) : option Z := match v with VInt _ z | VConst z => Some z | _ => None end.

Definition arith (op : binop) (a b : Z) : option Z :=
  match op with Add => Some (a + b) | Sub => Some (a - b) | Mul => Some (a * b) | _ => None end.
Definition compare (op : binop) (a b : Z) : option bool :=
  match op with
  | Eq => Some (a =? b) | Ne => Some (negb (a =? b)) | Lt => Some (a <? b) | Le => Some (a <=? b) | Gt => Some (b <? a) | Ge => Some (b <=? a)
  | _ => None
  end.
Definition on_ints (op : binop) (t : ity) (a b : Z) : option val :=
  match compare op a b with Some c => Some (VBool c) | None => option_map (fun z => VInt t (conv t z)) (arith op a b) end.
Definition is_nil (v : val) : option bool :=
  match v with VNil => Some true | VErr _ | VBox _ | VRef _ | VInts _ _ | VStrs _ | VStructs _ _ | VWriter | VView _ _ _ | VHandle _ _ => Some false | _ => None end.
Definition binary (op : binop) (a b : val) : option val :=
  match a, b with
  | VInt t x, VInt u y => if ity_eqb t u then on_ints op t x y else None
  | VInt t x, VConst y => on_ints op t x (conv t y)
  | VConst x, VInt t y => on_ints op t (conv t x) y
  | _, VNil => match op with Eq => option_map VBool (is_nil a) | Ne => option_map (fun b => VBool (negb b)) (is_nil a) | _ => None end
  | _, _ => None
  end.

(** The bytes of a slice of bytes. *)
Definition bytes_of (v : val) (s : state) : option (list Z) :=
  match v with
  | VNil => Some []
  | VInts U8 l => Some l
  | VView l lo hi => match nth_error (heap s) l with Some (CArray bs) => slice bs lo hi | _ => None end
  | _ => None
  end.
(** Bytes stored at the start of a slice of an array; a panic if there is not enough room in it. *)
Definition poke (v : val) (bs : list Z) (s : state) : res unit :=
  match v with
  | VView l lo hi =>
      match nth_error (heap s) l with
      | Some (CArray buf) => if zlen bs <=? hi - lo then let* (buf, s) := guard (store_all (Z.to_nat lo) bs buf) s in Ok tt (set_cell l (CArray buf) s) else Panic
      | _ => Stuck
      end
  | _ => Stuck
  end.
Definition do_write (data : list Z) (s : state) : res val :=
  let t := world s in
  Ok (VTuple [VInt INT (zlen data); as_error (t_write t (t_log t) data)])
    (mkState (map (fun c => match c with CArray l => CArray (scribble (t_log t) l) | _ => c end) (heap s))
             {| t_write := t_write t; t_flush := t_flush t; t_log := t_log t ++ [data] |}).

(** Functions of Go's library: Binary.v, Utf8.v, Platform.v. *)
Definition lib_table : list (string * (list val -> state -> res val)) :=
  [ ("binary.BigEndian.Uint16", fun vs s => match vs with [v] => match bytes_of v s with Some b => let* (z, s) := guard (get_uint16 b) s in Ok (VInt U16 z) s | None => Stuck end | _ => Stuck end);
    ("binary.BigEndian.Uint32", fun vs s => match vs with [v] => match bytes_of v s with Some b => let* (z, s) := guard (get_uint32 b) s in Ok (VInt U32 z) s | None => Stuck end | _ => Stuck end);
    ("binary.BigEndian.Uint64", fun vs s => match vs with [v] => match bytes_of v s with Some b => let* (z, s) := guard (get_uint64 b) s in Ok (VInt U64 z) s | None => Stuck end | _ => Stuck end);
    ("binary.BigEndian.PutUint16", fun vs s => match vs with [v; VInt U16 z] => let* (_, s) := poke v (put_uint16 z) s in Ok (VTuple []) s | _ => Stuck end);
    ("binary.BigEndian.PutUint32", fun vs s => match vs with [v; VInt U32 z] => let* (_, s) := poke v (put_uint32 z) s in Ok (VTuple []) s | _ => Stuck end);
    ("binary.BigEndian.PutUint64", fun vs s => match vs with [v; VInt U64 z] => let* (_, s) := poke v (put_uint64 z) s in Ok (VTuple []) s | _ => Stuck end);
    ("binary.Varint", fun vs s => match vs with [v] => match bytes_of v s with
        | Some b => let '(x, n) := if late then late_varint b else varint b in Ok (VTuple [VInt I64 x; VInt INT n]) s | None => Stuck end | _ => Stuck end);
    ("binary.PutVarint", fun vs s => match vs with [VView l lo hi; VInt I64 x] => match nth_error (heap s) l with
        | Some (CArray buf) => match store_uvarint 17 (Z.to_nat lo) (zigzag x) (firstn (Z.to_nat hi) buf) with
                               | Some (front, n) => Ok (VInt INT (Z.of_nat n - lo)) (set_cell l (CArray (front ++ skipn (Z.to_nat hi) buf)) s) | None => Panic end
        | _ => Stuck end | _ => Stuck end);
    ("utf8.DecodeRune", fun vs s => match vs with [v] => match bytes_of v s with Some b => let '(r, n) := decode_rune b in Ok (VTuple [VInt I32 r; VInt INT n]) s | None => Stuck end | _ => Stuck end);
    ("utf8.EncodeRune", fun vs s => match vs with [v; VInt I32 r] => let bs := encode_rune r in let* (_, s) := poke v bs s in Ok (VInt INT (zlen bs)) s | _ => Stuck end);
    ("io.WriteString", fun vs s => match vs with [VWriter; VStr l] => do_write l s | _ => Stuck end);
    ("errors.Is", fun vs s => match vs with [VErr a; VErr b] => Ok (VBool (match a, b with
        | ErrShortBuffer, ErrShortBuffer | ErrVarIntOverflow, ErrVarIntOverflow => true | ErrOther x, ErrOther y => x =? y | _, _ => false end)) s
      | [VNil; VErr _] => Ok (VBool false) s | _ => Stuck end) ].
(** Methods of the io.Writer: Write, and Flush if it has that (the interface flusher). *)
Definition writer_method (m : string) (vs : list val) (s : state) : res val :=
  if String.eqb m "Write" then match vs with [v] => match bytes_of v s with Some b => do_write b s | None => Stuck end | _ => Stuck end
  else if String.eqb m "Flush" then match vs, t_flush (world s) with [], Some f => Ok (as_error (f (t_log (world s)))) s | _, _ => Stuck end
  else Stuck.

(** Variables and constants of packages; a variable made by errors.New is the error of that
    text. *)
Definition lib_globals : list (string * val) := [("io.ErrShortBuffer", VErr ErrShortBuffer)].
Definition new_error (text : list Z) : error :=
  if list_eq_dec Z.eq_dec text [118; 97; 114; 32; 105; 110; 116; 32; 111; 118; 101; 114; 102; 108; 111; 119] (* var int overflow *) then ErrVarIntOverflow else ErrOther (-1).
Fixpoint global (fuel : nat) (g : string) : option val :=
  match fuel with
  | O => None
  | S fuel =>
      match lookup g lib_globals, lookup g (k_globals prog) with
      | Some v, _ => Some v
      | None, Some (t, e) =>
          match e with
          | EInt z => Some (match t with Some t => settle t (VConst z) | None => VConst z end)
          | EGlobal g => global fuel g
          | ECall "errors.New" [EStr text] => Some (VErr (new_error text))
          | _ => None
          end
      | None, None => None
      end
  end.

(** var x T *)
Definition zero (t : gty) (s : state) : res val :=
  match t with
  | GInt t => Ok (VInt t 0) s
  | GBool => Ok (VBool false) s
  | GString => Ok (VStr []) s
  | GSlice _ | GDots _ | GPtr _ | GChan | GChanOf _ | GMap _ _ | GFunc => Ok VNil s
  | GNamed t => if String.eqb t "error" || String.eqb t "io.Writer" then Ok VNil s else Stuck
  | GArray n (GInt U8) => let '(l, s) := alloc (CArray (repeat 0 (Z.to_nat n))) s in Ok (VArr l) s
  | GArray _ _ => Stuck
  end.
(** The fields of T{...} *)
Fixpoint zero_fields (fs : list (string * gty)) (given : list (string * val)) (s : state) : res (list (string * val)) :=
  match fs with
  | [] => Ok [] s
  | (f, t) :: fs =>
      let* (v, s) := match lookup f given with Some v => Ok (settle t v) s | None => zero t s end in
      let* (rest, s) := zero_fields fs given s in Ok ((f, v) :: rest) s
  end.
Definition new_struct (t : string) (given : list (string * val)) (s : state) : res (list (string * val)) :=
  let* (decl, s) := opt (lookup t (k_types prog)) s in zero_fields decl given s.
(** A variable of that type: a structure is in the heap. *)
Definition new_variable (t : gty) (s : state) : res val :=
  match t with
  | GNamed x => if is_some (lookup x (k_types prog))
                then let* (fs, s) := new_struct x [] s in let '(l, s) := alloc (CStruct x fs) s in Ok (VCell l) s
                else zero t s
  | _ => zero t s
  end.

(** T(v) *)
Definition convert (t : gty) (v : val) : option val :=
  match t, v with
  | GInt t, VInt _ z | GInt t, VConst z => Some (VInt t (conv t z))
  | GString, VInts U8 l => Some (VStr l)
  | GString, VInts I32 l => Some (VStr (string_of_runes l))
  | GString, VNil => Some (VStr [])
  | _, _ => None
  end.
Definition length_of (v : val) (s : state) : option Z :=
  match v with
  | VNil => Some 0 | VStr l => Some (zlen l) | VInts _ l => Some (zlen l) | VStrs l => Some (zlen l) | VStructs _ l => Some (zlen l) | VView _ lo hi => Some (hi - lo)
  | VArr l => match nth_error (heap s) l with Some (CArray bs) => Some (zlen bs) | _ => None end
  | _ => None
  end.
(** v[i] *)
Definition index_of (v : val) (i : Z) (s : state) : res val :=
  match v with
  | VInts t l => let* (z, s) := guard (index l i) s in Ok (VInt t z) s
  | VStrs l => let* (z, s) := guard (index l i) s in Ok (VStr z) s
  | VStructs t l => let* (fs, s) := guard (index l i) s in Ok (VStruct t fs) s
  | VNil => Panic
  | _ => Stuck
  end.
(** v[lo:hi]; the capacity of a slice is its length. *)
Definition slice_of (v : val) (lo hi : option Z) (s : state) : res val :=
  let from := match lo with Some z => z | None => 0 end in
  match v with
  | VInts t l => let* (l, s) := guard (slice l from (match hi with Some z => z | None => zlen l end)) s in Ok (VInts t l) s
  | VNil => let* (_, s) := guard (slice (@nil Z) from (match hi with Some z => z | None => 0 end)) s in Ok VNil s
  | VArr l => match nth_error (heap s) l with
              | Some (CArray bs) => let upto := match hi with Some z => z | None => zlen bs end in
                                    let* (_, s) := guard (slice bs from upto) s in Ok (VView l from upto) s
              | _ => Stuck end
  | _ => Stuck
  end.
(** make([]T, n) *)
Definition make_slice (t : gty) (n : Z) (s : state) : res val :=
  if (n <? 0) || negb (room t n) then Panic
  else match t with
       | GInt t => Ok (VInts t (repeat 0 (Z.to_nat n))) s
       | GString => Ok (VStrs (repeat [] (Z.to_nat n))) s
       | GNamed t => let* (fs, s) := new_struct t [] s in Ok (VStructs t (repeat fs (Z.to_nat n))) s
       | _ => Stuck
       end.
Definition append_to (v x : val) : option val :=
  match v, x with
  | VNil, VInt t z => Some (VInts t [z])
  | VInts t l, VInt u z => if ity_eqb t u then Some (VInts t (l ++ [z])) else None
  | _, _ => None
  end.
(** v[i] = x, for a variable or a field that holds a slice *)
Definition store_at (v : val) (i : Z) (x : val) (s : state) : res val :=
  match v, x with
  | VInts t l, VInt u z => if ity_eqb t u then if (0 <=? i) && (i <? zlen l) then Ok (VInts t (set_nth (Z.to_nat i) z l)) s else Panic else Stuck
  | VStrs l, VStr z => if (0 <=? i) && (i <? zlen l) then Ok (VStrs (set_nth (Z.to_nat i) z l)) s else Panic
  | VStructs t l, VStruct u fs => if String.eqb t u then if (0 <=? i) && (i <? zlen l) then Ok (VStructs t (set_nth (Z.to_nat i) fs l)) s else Panic else Stuck
  | _, _ => Stuck
  end.

Definition single (vs : list val) : val := match vs with [v] => v | _ => VTuple vs end.
Definition spread (v : val) : list val := match v with VTuple vs => vs | v => [v] end.

(** ** Expressions *)
Section Level.
(** [call]: the functions of the program; [fuel]: rounds allowed to a for loop. *)
Context (call : string -> list val -> state -> res val) (fuel : nat).
Fixpoint eval (e : expr) (E : env) (s : state) {struct e} : res val :=
  let evals := fix evals (es : list expr) (s : state) : res (list val) :=
    match es with [] => Ok [] s | e :: es => let* (v, s) := eval e E s in let* (vs, s) := evals es s in Ok (v :: vs) s end in
  let eval_opt (o : option expr) (s : state) : res (option Z) :=
    match o with None => Ok None s | Some e => let* (v, s) := eval e E s in let* (z, s) := opt (number v) s in Ok (Some z) s end in
  match e with
  | ENil => Ok VNil s | EInt z => Ok (VConst z) s | EStr l => Ok (VStr l) s | EBool b => Ok (VBool b) s
  | EVar x =>
      let* (v, s) := opt (lookup x E) s in
      match v with VCell l => match nth_error (heap s) l with Some (CStruct t fs) => Ok (VStruct t fs) s | _ => Stuck end | _ => Ok v s end
  | EGlobal g => opt (global 5 g) s
  | EField e f =>
      let* (v, s) := eval e E s in
      match v with
      | VRef l => match nth_error (heap s) l with Some (CStruct _ fs) => opt (lookup f fs) s | _ => Stuck end
      | VStruct _ fs => opt (lookup f fs) s
      | VNil => Panic
      | _ => Stuck
      end
  | EIndex e i => let* (v, s) := eval e E s in let* (w, s) := eval i E s in let* (z, s) := opt (number w) s in index_of v z s
  | ESlice e lo hi max =>
      let* (v, s) := eval e E s in let* (a, s) := eval_opt lo s in let* (b, s) := eval_opt hi s in let* (c, s) := eval_opt max s in
      match b, c with                                             (* a max, where there is one, is the upper bound here *)
      | Some b', Some c' => if b' =? c' then slice_of v a b s else Stuck
      | _, Some _ => Stuck
      | _, None => slice_of v a b s
      end
  | EBin And a b => let* (v, s) := eval a E s in match v with VBool true => eval b E s | VBool false => Ok v s | _ => Stuck end
  | EBin Or a b => let* (v, s) := eval a E s in match v with VBool false => eval b E s | VBool true => Ok v s | _ => Stuck end
  | EBin op a b => let* (v, s) := eval a E s in let* (w, s) := eval b E s in opt (binary op v w) s
  | ENot e => let* (v, s) := eval e E s in match v with VBool b => Ok (VBool (negb b)) s | _ => Stuck end
  | ENeg e => let* (v, s) := eval e E s in match v with VConst z => Ok (VConst (- z)) s | VInt t z => Ok (VInt t (conv t (- z))) s | _ => Stuck end
  | EAddr (EVar x) => let* (v, s) := opt (lookup x E) s in match v with VCell l => Ok (VRef l) s | _ => Ok (VBox v) s end
  | EAddr _ => Stuck
  | EDeref e => let* (v, s) := eval e E s in match v with VBox v => Ok v s | VNil => Panic | _ => Stuck end
  | EConv t e => let* (v, s) := eval e E s in opt (convert t v) s
  | ELen e => let* (v, s) := eval e E s in let* (z, s) := opt (length_of v s) s in Ok (VInt INT z) s
  | EMake (GSlice t) n => let* (v, s) := eval n E s in let* (z, s) := opt (number v) s in make_slice t z s
  | EMake _ _ => Stuck
  | EAppend e x => let* (v, s) := eval e E s in let* (w, s) := eval x E s in opt (append_to v w) s
  | ECall f args => let* (vs, s) := evals args s in call f vs s
  | EMethod e m args =>
      let* (v, s) := eval e E s in let* (vs, s) := evals args s in
      match v with
      | VRef l => match nth_error (heap s) l with Some (CStruct t _) => call (t ++ "." ++ m)%string (v :: vs) s | _ => Stuck end
      | VStruct t _ => call (t ++ "." ++ m)%string (v :: vs) s
      | VWriter => writer_method m vs s
      | VNil => Panic
      | _ => Stuck
      end
  | ENew t fs =>
      let* (given, s) := (fix go (fs : list (string * expr)) (s : state) : res (list (string * val)) :=
        match fs with [] => Ok [] s | (f, e) :: fs => let* (v, s) := eval e E s in let* (vs, s) := go fs s in Ok ((f, v) :: vs) s end) fs s in
      let* (fields, s) := new_struct t given s in
      let '(l, s) := alloc (CStruct t fields) s in Ok (VRef l) s
  | EAssert e t =>                                                 (* the only one is e.target.(flusher) *)
      let* (v, s) := eval e E s in
      match v with VWriter => if String.eqb t "flusher" then Ok (VTuple [v; VBool (is_some (t_flush (world s)))]) s else Stuck | _ => Stuck end
  | EEmpty => Ok (VStruct "" []) s
  | EStruct _ _ | EApply _ _ | ERecv _ | EFunc _ | ESpread _ => Stuck (* GoFlow.v, GoShare.v *)
  end.
Definition eval_all (es : list expr) (E : env) (s : state) : res (list val) :=
  (fix go (es : list expr) (s : state) := match es with [] => Ok [] s | e :: es => let* (v, s) := eval e E s in let* (vs, s) := go es s in Ok (v :: vs) s end) es s.
(** The values on the right of an assignment or of return: one call may give several. *)
Definition eval_values (es : list expr) (E : env) (s : state) : res (list val) :=
  match es with [e] => let* (v, s) := eval e E s in Ok (spread v) s | _ => eval_all es E s end.

(** ** Statements *)
Inductive flow := On (E : env) | Leave (vs : list val).
Fixpoint declare_all (xs : list string) (vs : list val) (E : env) : option env :=
  match xs, vs with
  | [], [] => Some E
  | x :: xs, v :: vs => declare_all xs vs (declare x (settle_int v) E)
  | _, _ => None
  end.
(** w.f = new, from the old value *)
Definition set_field (w : val) (f : string) (new : val -> state -> res val) (E : env) (s : state) : res env :=
  match w with
  | VRef l => match nth_error (heap s) l with
              | Some (CStruct t fs) =>
                  let* (old, s) := opt (lookup f fs) s in let* (x, s) := new old s in let* (fs, s) := opt (update f x fs) s in Ok E (set_cell l (CStruct t fs) s)
              | _ => Stuck end
  | VNil => Panic
  | _ => Stuck
  end.
(** l = v *)
Definition assign (l : expr) (v : val) (E : env) (s : state) : res env :=
  match l with
  | EVar x => if String.eqb x "_" then Ok E s else let* (old, s) := opt (lookup x E) s in opt (update x (settle_as old v) E) s
  | EField e f => let* (w, s) := eval e E s in set_field w f (fun old s => Ok (settle_as old v) s) E s
  | EIndex (EVar x) i =>
      let* (w, s) := eval i E s in let* (z, s) := opt (number w) s in
      let* (old, s) := opt (lookup x E) s in let* (new, s) := store_at old z v s in opt (update x new E) s
  | EIndex (EField e f) i =>
      let* (r, s) := eval e E s in let* (w, s) := eval (EField e f) E s in let* (k, s) := eval i E s in let* (z, s) := opt (number k) s in
      match w, v with
      | VArr l, VInt U8 b => match nth_error (heap s) l with
                             | Some (CArray bs) => if z <? 0 then Panic else let* (bs, s) := guard (store (Z.to_nat z) b bs) s in Ok E (set_cell l (CArray bs) s)
                             | _ => Stuck end
      | _, _ => set_field r f (fun old s => store_at old z v s) E s
      end
  | _ => Stuck
  end.
Fixpoint assign_all (ls : list expr) (vs : list val) (E : env) (s : state) : res env :=
  match ls, vs with
  | [], [] => Ok E s
  | l :: ls, v :: vs => let* (E, s) := assign l v E s in assign_all ls vs E s
  | _, _ => Stuck
  end.
(** Leaving a block forgets what was declared in it. *)
Definition leave_block (E : env) (m : res flow) : res flow :=
  match m with Ok (On E') s => Ok (On (skipn (length E' - length E) E')) s | m => m end.
Fixpoint rounds (n : nat) (test : env -> state -> res val) (body post : env -> state -> res flow) (E : env) (s : state) : res flow :=
  match n with
  | O => Stuck
  | S n =>
      let* (v, s) := test E s in
      match v with
      | VBool false => Ok (On E) s
      | VBool true =>
          let* (f, s) := body E s in
          match f with
          | Leave vs => Ok (Leave vs) s
          | On E => let* (f, s) := post E s in match f with On E => rounds n test body post E s | Leave _ => Stuck end
          end
      | _ => Stuck
      end
  end.
(** What range goes through. *)
Definition elements (v : val) : option (list val) :=
  match v with
  | VNil => Some []
  | VInts t l => Some (map (VInt t) l)
  | VStrs l => Some (map VStr l)
  | VStructs t l => Some (map (VStruct t) l)
  | VStr l => Some (map (VInt I32) (runes l))
  | _ => None
  end.
Fixpoint each (vs : list val) (body : val -> env -> state -> res flow) (E : env) (s : state) : res flow :=
  match vs with
  | [] => Ok (On E) s
  | v :: vs => let* (f, s) := body v E s in match f with On E => each vs body E s | Leave r => Ok (Leave r) s end
  end.
Fixpoint exec (c : stmt) (E : env) (s : state) {struct c} : res flow :=
  let run := fix run (cs : list stmt) (E : env) (s : state) : res flow :=
    match cs with [] => Ok (On E) s | c :: cs => let* (f, s) := exec c E s in match f with On E => run cs E s | Leave vs => Ok (Leave vs) s end end in
  let block (cs : list stmt) (E : env) (s : state) := leave_block E (run cs E s) in
  match c with
  | SDefine xs es => let* (vs, s) := eval_values es E s in let* (E, s) := opt (declare_all xs vs E) s in Ok (On E) s
  | SAssign ls es => let* (vs, s) := eval_values es E s in let* (E, s) := assign_all ls vs E s in Ok (On E) s
  | SOp l op e =>
      let* (v, s) := eval l E s in let* (w, s) := eval e E s in let* (x, s) := opt (binary op v w) s in let* (E, s) := assign l x E s in Ok (On E) s
  | SVar x (Some t) None => let* (v, s) := new_variable t s in Ok (On (declare x v E)) s
  | SVar x (Some t) (Some e) => let* (v, s) := eval e E s in Ok (On (declare x (settle t v) E)) s
  | SVar x None (Some e) => let* (v, s) := eval e E s in Ok (On (declare x (settle_int v) E)) s
  | SVar _ None None => Stuck
  | SIf init c yes no =>
      leave_block E
        (let* (f, s) := run init E s in
         match f with
         | On E => let* (v, s) := eval c E s in match v with VBool true => block yes E s | VBool false => block no E s | _ => Stuck end
         | Leave vs => Ok (Leave vs) s
         end)
  | SFor init c post body =>
      leave_block E
        (let* (f, s) := run init E s in
         match f with
         | On E => rounds fuel (eval c) (block body) (run post) E s
         | Leave vs => Ok (Leave vs) s
         end)
  | SRange k x e body =>
      if String.eqb k "_" then
        let* (v, s) := eval e E s in let* (vs, s) := opt (elements v) s in
        each vs (fun v E s => leave_block E (run body (declare x v E) s)) E s
      else Stuck
  | SSwitch e cases default =>
      let* (v, s) := eval e E s in
      (fix go (cs : list (expr * list stmt)) (s : state) : res flow :=
        match cs with
        | [] => block default E s
        | (e, b) :: cs => let* (w, s) := eval e E s in let* (t, s) := opt (binary Eq v w) s in
                          match t with VBool true => block b E s | VBool false => go cs s | _ => Stuck end
        end) cases s
  | SSelect _ | SSelectElse _ _ | SSend _ _ | SGo _ | SDefer _ | SContinue => Stuck (* GoConc.v, GoFlow.v *)
  | SReturn es => let* (vs, s) := eval_values es E s in Ok (Leave vs) s
  | SExpr e => let* (_, s) := eval e E s in Ok (On E) s
  end.
Definition run (cs : list stmt) (E : env) (s : state) : res flow :=
  (fix run (cs : list stmt) (E : env) (s : state) : res flow :=
    match cs with [] => Ok (On E) s | c :: cs => let* (f, s) := exec c E s in match f with On E => run cs E s | Leave vs => Ok (Leave vs) s end end) cs E s.
Fixpoint bind_params (ps : list (string * gty)) (vs : list val) : option env :=
  match ps, vs with
  | [], [] => Some []
  | (x, t) :: ps, v :: vs => option_map (cons (x, settle t v)) (bind_params ps vs)
  | _, _ => None
  end.
Fixpoint settle_results (ts : list gty) (vs : list val) : option (list val) :=
  match ts, vs with
  | [], [] => Some []
  | t :: ts, v :: vs => option_map (cons (settle t v)) (settle_results ts vs)
  | _, _ => None
  end.
Definition invoke (f : func) (vs : list val) (s : state) : res val :=
  let* (E, s) := opt (bind_params (f_params f) vs) s in
  let* (r, s) := run (f_body f) E s in
  let* (out, s) := opt (settle_results (f_results f) (match r with Leave vs => vs | On _ => [] end)) s in
  Ok (single out) s.
End Level.

(** [call n]: calls nested at most [n] deep, and a bit less than [n] rounds of a loop; [Stuck] if that is not enough. *)
Fixpoint call (n : nat) (f : string) (vs : list val) (s : state) : res val :=
  match n with
  | O => Stuck
  | S n => match lookup f lib_table with
           | Some g => g vs s
           | None => match lookup f (k_funcs prog) with Some fn => invoke (call n) n fn vs s | None => Stuck end
           end
  end.
End Meaning.
