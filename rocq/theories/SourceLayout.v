(** * The shape of the generated methods

    All 654 functions of message/messages.gen.go are instances of three patterns.  An [nfields]
    is the declaration of a structure with the versions of each field; [size_text], [encode_text] and
    [decode_text] are the patterns.  That the functions are these is checked, not assumed
    (SourceTable.v), so nothing here needs to be trusted. *)
From Coq Require Import String DecimalString.
From Verif Require Import GoBase SchemaSpec GoLang.
Local Open Scope list_scope.
Local Open Scope string_scope.
Local Open Scope Z_scope.

Inductive prim := PBool | PInt8 | PInt16 | PInt32 | PInt64 | PString | PBytes | PInt32s | PInt64s | PStrings.
Inductive nty := NPrim (p : prim) | NArray (name : string) (fs : nfields)
with nfields := NNil | NCons (f : string) (r : range) (t : nty) (rest : nfields).
Scheme nty_mind := Induction for nty Sort Prop with nfields_mind := Induction for nfields Sort Prop.
Combined Scheme layout_mind from nty_mind, nfields_mind.

(** ** Types *)
Definition prim_ty (p : prim) : ty :=
  match p with
  | PBool => TBool | PInt8 => TInt8 | PInt16 => TInt16 | PInt32 => TInt32 | PInt64 => TInt64 | PString => TString | PBytes => TBytes
  | PInt32s => TInt32Array | PInt64s => TInt64Array | PStrings => TStringArray
  end.
Fixpoint erase_t (t : nty) : ty := match t with NPrim p => prim_ty p | NArray _ fs => TArray (erase fs) end
with erase (fs : nfields) : fields := match fs with NNil => FNil | NCons f r t rest => FCons f r (erase_t t) (erase rest) end.
Definition prim_gty (p : prim) : gty :=
  match p with
  | PBool => GBool | PInt8 => GInt I8 | PInt16 => GInt I16 | PInt32 => GInt I32 | PInt64 => GInt I64 | PString => GString | PBytes => GSlice (GInt U8)
  | PInt32s => GSlice (GInt I32) | PInt64s => GSlice (GInt I64) | PStrings => GSlice GString
  end.
Definition nty_gty (t : nty) : gty := match t with NPrim p => prim_gty p | NArray name _ => GSlice (GNamed name) end.
Fixpoint struct_type (fs : nfields) : list (string * gty) := match fs with NNil => [] | NCons f _ t rest => (f, nty_gty t) :: struct_type rest end.

(** ** The patterns *)
(** The method's name: Decoder.X, Encoder.PutX, sizeof.X *)
Definition prim_name (p : prim) : string :=
  match p with
  | PBool => "Bool" | PInt8 => "Int8" | PInt16 => "Int16" | PInt32 => "Int32" | PInt64 => "Int64" | PString => "String" | PBytes => "Bytes"
  | PInt32s => "Int32Array" | PInt64s => "Int64Array" | PStrings => "StringArray"
  end.
Definition fixed_size (p : prim) : bool := match p with PBool | PInt8 | PInt16 | PInt32 | PInt64 => true | _ => false end.
Definition since (a : Z) := EBin Ge (EVar "version") (EInt a).
Definition guarded (r : range) (body : list stmt) : list stmt :=
  match r with
  | Always => body
  | From a => [SIf [] (since a) body []]
  | Between a b => [SIf [] (EBin And (since a) (EBin Le (EVar "version") (EInt b))) body []]
  end.
Definition field (f : string) := EField (EVar "t") f.
Definition item_of (f : string) := EIndex (field f) (EVar "i").
Definition count_up (bound : string) (body : list stmt) := SFor [SDefine ["i"] [EInt 0]] (EBin Lt (EVar "i") (EVar bound)) [SOp (EVar "i") Add (EInt 1)] body.
Definition err_return := [SReturn [EVar "err"]].
Definition err_set := EBin Ne (EVar "err") ENil.

Definition size_field (f : string) (t : nty) : list stmt :=
  match t with
  | NPrim p => [SOp (EVar "sz") Add (if fixed_size p then EGlobal ("sizeof." ++ prim_name p) else ECall ("sizeof." ++ prim_name p) [field f])]
  | NArray _ _ =>
      [SOp (EVar "sz") Add (EGlobal "sizeof.ArrayLength");
       SFor [SDefine ["i"] [EBin Sub (ELen (field f)) (EInt 1)]] (EBin Ge (EVar "i") (EInt 0)) [SOp (EVar "i") Sub (EInt 1)]
         [SOp (EVar "sz") Add (EMethod (item_of f) "Size" [EVar "version"])]]
  end.
Fixpoint size_fields (fs : nfields) : list stmt := match fs with NNil => [] | NCons f r t rest => (guarded r (size_field f t) ++ size_fields rest)%list end.
Definition size_text (name : string) (fs : nfields) : func :=
  mkFunc [("t", GNamed name); ("version", GInt I16)] [GInt I32] (SVar "sz" (Some (GInt I32)) None :: size_fields fs ++ [SReturn [EVar "sz"]])%list.

Definition len_name (i : nat) : string := "len" ++ NilEmpty.string_of_uint (Nat.to_uint i).
Definition encode_field (i : nat) (f : string) (t : nty) : list stmt :=
  match t with
  | NPrim p => [SExpr (EMethod (EVar "e") ("Put" ++ prim_name p) [field f])]
  | NArray _ _ =>
      [SDefine [len_name i] [ELen (field f)];
       SExpr (EMethod (EVar "e") "PutArrayLength" [EVar (len_name i)]);
       count_up (len_name i) [SExpr (EMethod (item_of f) "Encode" [EVar "e"; EVar "version"])]]
  end.
Fixpoint encode_fields (i : nat) (fs : nfields) : list stmt := match fs with NNil => [] | NCons f r t rest => (guarded r (encode_field i f t) ++ encode_fields (S i) rest)%list end.
Definition encode_text (name : string) (fs : nfields) : func :=
  mkFunc [("t", GNamed name); ("e", GPtr (GNamed "Encoder")); ("version", GInt I16)] [] (encode_fields 0 fs).

Definition decode_field (f : string) (t : nty) : list stmt :=
  match t with
  | NPrim p => [SAssign [field f; EVar "err"] [EMethod (EVar "d") (prim_name p) []]; SIf [] err_set err_return []]
  | NArray name _ =>
      [SIf [SDefine ["n"; "err"] [EMethod (EVar "d") "ArrayLength" []]] err_set err_return
         [SIf [] (EBin Ge (EVar "n") (EInt 0))
            [SAssign [field f] [EMake (GSlice (GNamed name)) (EVar "n")];
             count_up "n"
               [SVar "item" (Some (GNamed name)) None;
                SIf [SDefine ["err"] [EMethod (EAddr (EVar "item")) "Decode" [EVar "d"; EVar "version"]]] err_set err_return [];
                SAssign [item_of f] [EVar "item"]]]
            []]]
  end.
Fixpoint decode_fields (fs : nfields) : list stmt := match fs with NNil => [] | NCons f r t rest => (guarded r (decode_field f t) ++ decode_fields rest)%list end.
Definition decode_text (name : string) (fs : nfields) : func :=
  mkFunc [("t", GPtr (GNamed name)); ("d", GPtr (GNamed "Decoder")); ("version", GInt I16)] [GNamed "error"]
    (SVar "err" (Some (GNamed "error")) None :: decode_fields fs ++ [SReturn [EVar "err"]])%list.
Definition texts (entry : string * nfields) : list (string * func) :=
  let '(name, fs) := entry in [(name ++ ".Size", size_text name fs); (name ++ ".Encode", encode_text name fs); (name ++ ".Decode", decode_text name fs)].
