(** * Model of message/sizeof/sizeof.go.  All results are int32: sums and
    products wrap. *)
From Verif Require Import GoBase Binary.

(** message/sizeof/sizeof.go:21-28 *)
Definition sz_Bool : Z := 1.
Definition sz_Int8 : Z := 1.
Definition sz_Int16 : Z := 2.
Definition sz_Int32 : Z := 4.
Definition sz_Int64 : Z := 8.
Definition sz_ArrayLength : Z := sz_Int32.

(** int32 addition and multiplication of Go. *)
Definition add32 (a b : Z) : Z := int32 (a + b).
Definition mul32 (a b : Z) : Z := int32 (a * b).

(** message/sizeof/sizeof.go:30-33 *)
Definition sz_Bytes (data : gslice Z) : Z := add32 sz_ArrayLength (int32 (glen data)).

(** message/sizeof/sizeof.go:35-38 *)
Definition sz_Int32Array (ii : gslice Z) : Z :=
  add32 sz_ArrayLength (mul32 (int32 (glen ii)) sz_Int32).

(** message/sizeof/sizeof.go:40-43 *)
Definition sz_Int64Array (ii : gslice Z) : Z :=
  add32 sz_ArrayLength (mul32 (int32 (glen ii)) sz_Int64).

(** message/sizeof/sizeof.go:45-48 *)
Definition sz_String (s : gostring) : Z := add32 sz_Int16 (int32 (zlen s)).

(** message/sizeof/sizeof.go:50-58 *)
Definition sz_StringArray (ss : gslice gostring) : Z :=
  fold_left (fun sz s => add32 sz (sz_String s)) (items ss) (add32 0 sz_ArrayLength).

(** message/sizeof/sizeof.go:66-71; the [None] of [put_varint] (panic) is unreachable,
    lemma [put_varint_total]. *)
Definition sz_VarInt (i : Z) : Z :=
  match put_varint i with Some bs => int32 (zlen bs) | None => 0 end.

(** message/sizeof/sizeof.go:60-64 *)
Definition sz_VarBytes (data : gslice Z) : Z :=
  add32 (sz_VarInt (int64 (glen data))) (int32 (glen data)).

(** message/sizeof/sizeof.go:73-77 *)
Definition sz_VarString (s : gostring) : Z :=
  add32 (sz_VarInt (int64 (zlen s))) (int32 (zlen s)).

(** ** Combinators for the generated Size methods (message/messages.gen.go) *)

(** [sz += x] *)
Definition size_add (x : Z) (sz : Z) : Z := add32 sz x.
(** [if cond { sz += ... }] *)
Definition size_if (cond : bool) (f : Z -> Z) (sz : Z) : Z := if cond then f sz else sz.
(** [for i := len(xs) - 1; i >= 0; i-- { sz += xs[i].Size(version) }], from the
    last element to the first (e.g. messages.gen.go:40-42). *)
Definition size_array {A} (f : A -> Z) (xs : gslice A) (sz : Z) : Z :=
  fold_left (fun sz x => add32 sz (f x)) (rev (items xs)) sz.
(** [sz += sizeof.ArrayLength] followed by that loop. *)
Definition size_loop {A} (f : A -> Z) (xs : gslice A) (sz : Z) : Z :=
  size_array f xs (size_add sz_ArrayLength sz).
(** Statement sequencing, [return sz]. *)
Definition size_seq (f g : Z -> Z) (sz : Z) : Z := g (f sz).
Definition size_done (sz : Z) : Z := sz.
Declare Scope size_scope.
Notation "f +> g" := (size_seq f g) (at level 60, right associativity) : size_scope.
Delimit Scope size_scope with size.
