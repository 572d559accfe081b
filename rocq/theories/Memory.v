(** * Memory asked for while decoding

    The decoders of Schema.v (and by [linked] the translated Decode methods) once
    more, now with a log of the lengths given to [make]: message/decoder.go:156
    (Int32Array), :189 (Int64Array), :243 (StringArray) and, for arrays of structures, the
    generated Decode methods (e.g. message/messages.gen.go:82).  What strings copy is
    not counted; that is at most the bytes they are read from. *)
From Verif Require Import GoBase Decoder SchemaSpec Schema Link.
Local Open Scope Z_scope.
Local Open Scope list_scope.

Definition MDec (A : Type) : Type := Decoder -> list Z * dres A.
Definition mret {A} (a : A) : MDec A := fun d => ([], DOk a d).
Definition mlift {A} (m : Dec A) : MDec A := fun d => ([], m d).
Definition mbind {A B} (m : MDec A) (f : A -> MDec B) : MDec B := fun d =>
  match m d with
  | (log, DOk a d') => let '(log', r) := f a d' in (log ++ log', r)
  | (log, DErr x d') => (log, DErr x d')
  | (log, DPanic) => (log, DPanic)
  end.
(** [make([]T, n)] *)
Definition mmake (n : Z) : MDec unit := fun d => ([n], if n <? 0 then DPanic else DOk tt d).

Fixpoint mrepeat {A} (n : nat) (f : MDec A) : MDec (list A) :=
  match n with
  | O => mret []
  | S n' => mbind f (fun x => mbind (mrepeat n' f) (fun xs => mret (x :: xs)))
  end.
(** message/decoder.go:145-166, 178-199, 232-253 *)
Definition mprim_array {A} (f : Dec A) : MDec (gslice A) :=
  mbind (mlift dArrayLength) (fun n =>
    if n =? -1 then mret None
    else mbind (mmake n) (fun _ => mbind (mrepeat (Z.to_nat n) (mlift f)) (fun xs => mret (Some xs)))).
(** e.g. message/messages.gen.go:78-90 *)
Definition mdec_array {A} (f : MDec A) (old : gslice A) : MDec (gslice A) :=
  mbind (mlift dArrayLength) (fun n =>
    if 0 <=? n then mbind (mmake n) (fun _ => mbind (mrepeat (Z.to_nat n) f) (fun xs => mret (Some xs))) else mret old).

Fixpoint mdecode (t : ty) (v : Z) : den t -> MDec (den t) :=
  match t return den t -> MDec (den t) with
  | TInt32Array => fun _ => mprim_array dInt32
  | TInt64Array => fun _ => mprim_array dInt64
  | TStringArray => fun _ => mprim_array dString
  | TArray fs => fun old => mdec_array (mdecodes fs v (zeros fs)) old
  | t => fun old => mlift (gdecode t v old)
  end
with mdecodes (fs : fields) (v : Z) : dens fs -> MDec (dens fs) :=
  match fs return dens fs -> MDec (dens fs) with
  | FNil => fun _ => mret tt
  | FCons _ r t rest => fun old =>
      mbind (if active r v then mdecode t v (fst old) else mret (fst old)) (fun x =>
      mbind (mdecodes rest v (snd old)) (fun xs =>
      mret (x, xs)))
  end.

(** A Decode method: the lengths given to make, and the result. *)
Definition c_makes (c : codec) (v : Z) (old : c_type c) (d : Decoder) : list Z :=
  fst (mdecodes (c_schema c) v (c_to c old) d).
