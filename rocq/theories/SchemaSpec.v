(** * Message schemas: what a Kafka message looks like on the wire.

    A schema is a list of named fields, each with the range of versions that
    carry it and a type.  This file is the specification against which the
    generated Size/Encode/Decode methods are judged; it mentions none of them. *)
From Coq Require Import String.
From Verif Require Import GoBase Spec.

Inductive range : Type :=
| Always
| From (a : Z)
| Between (a b : Z).

Definition active (r : range) (v : Z) : bool :=
  match r with
  | Always => true
  | From a => a <=? v
  | Between a b => (a <=? v) && (v <=? b)
  end.

Inductive ty : Type :=
| TBool | TInt8 | TInt16 | TInt32 | TInt64
| TString | TBytes
| TInt32Array | TInt64Array | TStringArray
| TArray (fs : fields)
with fields : Type :=
| FNil
| FCons (name : string) (r : range) (t : ty) (rest : fields).

(** Values of a type, of a list of fields. *)
Fixpoint den (t : ty) : Type :=
  match t with
  | TBool => bool
  | TInt8 | TInt16 | TInt32 | TInt64 => Z
  | TString => gostring
  | TBytes => gslice Z
  | TInt32Array | TInt64Array => gslice Z
  | TStringArray => gslice gostring
  | TArray fs => gslice (dens fs)
  end
with dens (fs : fields) : Type :=
  match fs with
  | FNil => unit
  | FCons _ _ t rest => (den t * dens rest)%type
  end.

(** The wire format: fields carried at version [v], in order, nothing else. *)
Fixpoint wire (t : ty) (v : Z) : den t -> list Z :=
  match t return den t -> list Z with
  | TBool => w_bool
  | TInt8 => be 1
  | TInt16 => be 2
  | TInt32 => be 4
  | TInt64 => be 8
  | TString => w_string
  | TBytes => w_bytes
  | TInt32Array => w_nullable_array (be 4)
  | TInt64Array => w_nullable_array (be 8)
  | TStringArray => w_nullable_array w_string
  | TArray fs => w_array (wires fs v)
  end
with wires (fs : fields) (v : Z) : dens fs -> list Z :=
  match fs return dens fs -> list Z with
  | FNil => fun _ => []
  | FCons _ r t rest => fun x =>
      (if active r v then wire t v (fst x) else []) ++ wires rest v (snd x)
  end.

(** Integers within the range of their Go type, strings, byte arrays and arrays
    that fit their length prefix; only for fields carried at version [v]. *)
Fixpoint fits (t : ty) (v : Z) : den t -> Prop :=
  match t return den t -> Prop with
  | TBool => fun _ => True
  | TInt8 => is_int8
  | TInt16 => is_int16
  | TInt32 => is_int32
  | TInt64 => is_int64
  | TString => fun s => zlen s < 2 ^ 15
  | TBytes => fun s => glen s < 2 ^ 31
  | TInt32Array => fun s => glen s < 2 ^ 31 /\ Forall is_int32 (items s)
  | TInt64Array => fun s => glen s < 2 ^ 31 /\ Forall is_int64 (items s)
  | TStringArray => fun s => glen s < 2 ^ 31 /\ Forall (fun x => zlen x < 2 ^ 15) (items s)
  | TArray fs => fun s => glen s < 2 ^ 31 /\ Forall (fit fs v) (items s)
  end
with fit (fs : fields) (v : Z) : dens fs -> Prop :=
  match fs return dens fs -> Prop with
  | FNil => fun _ => True
  | FCons _ r t rest => fun x =>
      (active r v = true -> fits t v (fst x)) /\ fit rest v (snd x)
  end.

(** The zero value of a Go struct. *)
Definition zero (t : ty) : den t :=
  match t return den t with
  | TBool => false
  | TInt8 | TInt16 | TInt32 | TInt64 => 0
  | TString => []
  | TBytes => None
  | TInt32Array | TInt64Array => None
  | TStringArray => None
  | TArray _ => None
  end.
Fixpoint zeros (fs : fields) : dens fs :=
  match fs return dens fs with
  | FNil => tt
  | FCons _ _ t rest => (zero t, zeros rest)
  end.

(** What a receiver gets to see of a value [x] sent at version [v], when its own
    value was [old]: carried fields come from [x], the others stay as they
    were.  A byte array or an array of structures arrives non-nil; the elements
    of an array of structures start from the zero value. *)
Fixpoint seen (t : ty) (v : Z) : den t -> den t :=
  match t return den t -> den t with
  | TBytes => fun s => Some (items s)
  | TArray fs => fun s => Some (map (receive fs v (zeros fs)) (items s))
  | _ => fun x => x
  end
with receive (fs : fields) (v : Z) : dens fs -> dens fs -> dens fs :=
  match fs return dens fs -> dens fs -> dens fs with
  | FNil => fun _ _ => tt
  | FCons _ r t rest => fun old x =>
      (if active r v then seen t v (fst x) else fst old, receive rest v (snd old) (snd x))
  end.

(** At version [v] the type carries only fixed-width integers and booleans, and
    arrays of structures of such: no string, byte array or primitive array. *)
Fixpoint safe (t : ty) (v : Z) : bool :=
  match t with
  | TBool | TInt8 | TInt16 | TInt32 | TInt64 => true
  | TArray fs => safes fs v
  | _ => false
  end
with safes (fs : fields) (v : Z) : bool :=
  match fs with
  | FNil => true
  | FCons _ r t rest => (negb (active r v) || safe t v) && safes rest v
  end.

(** At version [v] every field of [x] is carried, and no byte array or array of
    structures in it is nil. *)
Fixpoint whole (t : ty) (v : Z) : den t -> Prop :=
  match t return den t -> Prop with
  | TBytes => fun s => s <> None
  | TArray fs => fun s => match s with None => False | Some l => Forall (wholes fs v) l end
  | _ => fun _ => True
  end
with wholes (fs : fields) (v : Z) : dens fs -> Prop :=
  match fs return dens fs -> Prop with
  | FNil => fun _ => True
  | FCons _ r t rest => fun x => active r v = true /\ whole t v (fst x) /\ wholes rest v (snd x)
  end.
