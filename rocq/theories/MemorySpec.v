(** * Vocabulary for the memory property *)
From Verif Require Import GoBase Decoder SchemaSpec.
Local Open Scope Z_scope.

Fixpoint sum (l : list Z) : Z := match l with [] => 0 | x :: r => x + sum r end.
(** An array of some kind is carried at version [v], at the top level. *)
Definition is_array (t : ty) : bool := match t with TInt32Array | TInt64Array | TStringArray | TArray _ => true | _ => false end.
Fixpoint has_array (fs : fields) (v : Z) : bool :=
  match fs with FNil => false | FCons _ r t rest => (active r v && is_array t) || has_array rest v end.
(** Whenever [r] carries a field, so does [r']. *)
Definition within (r r' : range) : bool :=
  match r, r' with
  | _, Always => true
  | From a, From a' | Between a _, From a' => a' <=? a
  | Between a b, Between a' b' => (a' <=? a) && (b <=? b')
  | _, _ => false
  end.
(** Some field is carried whenever [r] is. *)
Fixpoint filled (r : range) (fs : fields) : bool :=
  match fs with FNil => false | FCons _ r' _ rest => within r r' || filled r rest end.
(** No array has elements without bytes. *)
Fixpoint solid (t : ty) (r : range) : bool := match t with TArray fs => filled r fs && solids fs | _ => true end
with solids (fs : fields) : bool := match fs with FNil => true | FCons _ r t rest => solid t r && solids rest end.
(** How deep arrays are nested. *)
Fixpoint nest (t : ty) : Z := match t with TInt32Array | TInt64Array | TStringArray => 1 | TArray fs => 1 + nests fs | _ => 0 end
with nests (fs : fields) : Z := match fs with FNil => 0 | FCons _ _ t rest => Z.max (nest t) (nests rest) end.
