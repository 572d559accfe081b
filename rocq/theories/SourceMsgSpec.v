(** * Messages as values of Go, and what their methods do to memory *)
From Coq Require Import String.
From Verif Require Import GoBase Decoder Encoder SchemaSpec Link AllMessages Platform GoLang SourceSpec SourceLayout SourceTable.
Local Open Scope list_scope.
Local Open Scope string_scope.
Local Open Scope Z_scope.

(** ** Values *)
Definition prim_val (p : prim) : den (prim_ty p) -> val :=
  match p return den (prim_ty p) -> val with
  | PBool => VBool | PInt8 => VInt I8 | PInt16 => VInt I16 | PInt32 => VInt I32 | PInt64 => VInt I64 | PString => VStr
  | PBytes => slice_val (VInts U8) | PInt32s => slice_val (VInts I32) | PInt64s => slice_val (VInts I64) | PStrings => slice_val VStrs
  end.
Fixpoint nval (t : nty) : den (erase_t t) -> val :=
  match t return den (erase_t t) -> val with
  | NPrim p => prim_val p
  | NArray name fs => slice_val (fun l => VStructs name (map (nvals fs) l))
  end
with nvals (fs : nfields) : dens (erase fs) -> list (string * val) :=
  match fs return dens (erase fs) -> list (string * val) with
  | NNil => fun _ => []
  | NCons f _ t rest => fun x => (f, nval t (fst x)) :: nvals rest (snd x)
  end.

(** Every array of structures has fewer than [B] elements: with [B = 2 ^ (width - 1)] so it is with
    every slice there is, as its length is an int. *)
Fixpoint sized (B : Z) (t : ty) : den t -> Prop :=
  match t return den t -> Prop with
  | TArray fs => fun xs => glen xs < B /\ Forall (sizeds B fs) (items xs)
  | _ => fun _ => True
  end
with sizeds (B : Z) (fs : fields) : dens fs -> Prop :=
  match fs return dens fs -> Prop with
  | FNil => fun _ => True
  | FCons _ _ t rest => fun x => sized B t (fst x) /\ sizeds B rest (snd x)
  end.

(** From [s] to [s'] only the structures at [a] and [b] change, and there may be new ones. *)
Definition besides (a b : nat) (s s' : state) : Prop :=
  world s' = world s /\ (length (heap s) <= length (heap s'))%nat /\
  forall k, k <> a -> k <> b -> (k < length (heap s))%nat -> nth_error (heap s') k = nth_error (heap s) k.

(** ** All messages *)
(** The kind of array a slice of that structure is. *)
Definition message_structs (name : string) : ty := match lookup name layouts with Some fs => TArray (erase fs) | None => TBool end.
(** The fields of a message of the model, as those of the structure in Go; [same] says that the
    layout is that of the model. *)
Definition go_fields (c : codec) (fs : nfields) (same : c_schema c = erase fs) (m : c_type c) : list (string * val) :=
  nvals fs (eq_rect _ dens (c_to c m) _ same).
(** Every slice in a message has a length that is an int. *)
Definition slices_ok (W : Z) (c : codec) (m : c_type c) : Prop := sizeds (2 ^ (W - 1)) (c_schema c) (c_to c m).
(** What a Decode method on the structure at [t] and the Decoder at [d] does: nil, or the error; these
    two are all that changes. *)
Definition decoded {A} (fields_of : A -> list (string * val)) (name : string) (t d : nat) (s : state) (r : dres A) (m : res val) : Prop :=
  match r with
  | DOk x d' => exists s', m = Ok VNil s' /\ nth_error (heap s') d = Some (decoder_cell d') /\ nth_error (heap s') t = Some (CStruct name (fields_of x)) /\ besides d t s s'
  | DErr e d' => exists s' fs, m = Ok (VErr e) s' /\ nth_error (heap s') d = Some (decoder_cell d') /\ nth_error (heap s') t = Some (CStruct name fs) /\ besides d t s s'
  | DPanic => m = Panic
  end.

(** ** A message written by the text of its Encode and read by the text of its Decode *)
(** A new Encoder over a writer that never fails, one call of T.Encode on a structure with the fields [sent], and of T.Size:
    the bytes [bs], and their number.  Then a new Decoder over [bs] and anything else, and a structure with the fields [before]:
    T.Decode gives nil and leaves [received] in the structure, and the position is after [bs].  A new Decoder over less than
    all of [bs]: T.Decode gives io.ErrShortBuffer. *)
Definition message_survives (W : Z) (go : nat -> string -> list val -> state -> res val) (name : string) (v : Z) (sent before received : list (string * val)) (bs : list Z) : Prop :=
  forall s, t_log (world s) = [] -> (forall log data, t_write (world s) log data = None) ->
  SourceSpec.eventually (fun n => exists e s1 s2, go n "message.NewEncoder" [VWriter] s = Ok (VRef e) s1 /\
    go n (name ++ ".Encode") [VStruct name sent; VRef e; VInt I16 v] s1 = Ok (VTuple []) s2 /\ concat (t_log (world s2)) = bs /\
    go n (name ++ ".Size") [VStruct name sent; VInt I16 v] s2 = Ok (VInt I32 (int32 (zlen bs))) s2 /\
    (forall rest, let buf := (bs ++ rest)%list in zlen buf < 2 ^ (W - 1) ->
     SourceSpec.eventually (fun k => exists d s3 s4, go k "message.NewDecoder" [VInts U8 buf; VInt INT (zlen buf)] s2 = Ok (VRef d) s3 /\
       let t := length (heap s3) in
       go k (name ++ ".Decode") [VRef t; VRef d; VInt I16 v] (mkState (heap s3 ++ [CStruct name before])%list (world s3)) = Ok VNil s4 /\
       nth_error (heap s4) t = Some (CStruct name received) /\
       nth_error (heap s4) d = Some (CStruct "Decoder" [("raw", VInts U8 buf); ("length", VInt INT (zlen buf)); ("offset", VInt INT (zlen bs))]))) /\
    (forall part missing, bs = (part ++ missing)%list -> missing <> [] -> zlen bs < 2 ^ (W - 1) ->
     SourceSpec.eventually (fun k => exists d s3 s4, go k "message.NewDecoder" [VInts U8 part; VInt INT (zlen part)] s2 = Ok (VRef d) s3 /\
       go k (name ++ ".Decode") [VRef (length (heap s3)); VRef d; VInt I16 v] (mkState (heap s3 ++ [CStruct name before])%list (world s3)) = Ok (VErr ErrShortBuffer) s4))).
