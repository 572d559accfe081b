(** * What every decoder does with every sequence of bytes

    [accepts t v old bs x]: at version [v] the bytes [bs] are read as the value [x] of
    type [t], when the receiver's own value was [old].  [rejects t v bs]: the bytes
    [bs] cannot be continued to a value (the Go code panics on them).  Both are
    written over the schemas of SchemaSpec.v and mention no decoder. *)
From Verif Require Import GoBase Spec SchemaSpec.

(** A string: -1 (null) is read as the empty string. *)
Definition accepts_string (bs : list Z) (s : gostring) : Prop :=
  (bs = be 2 (-1) /\ s = []) \/ (bs = be 2 (zlen s) ++ s /\ zlen s < 2 ^ 15).
(** [n] elements, one after the other. *)
Definition accepts_list {A} (accept : list Z -> A -> Prop) (n : Z) (bs : list Z) (xs : list A) : Prop :=
  exists parts, bs = concat parts /\ Forall2 accept parts xs /\ zlen xs = n.
(** A nullable array: count -1 for nil, else a count that is not negative. *)
Definition accepts_array {A} (accept : list Z -> A -> Prop) (bs : list Z) (x : gslice A) : Prop :=
  (bs = be 4 (-1) /\ x = None) \/
  (exists n bs' xs, 0 <= n < 2 ^ 31 /\ bs = be 4 n ++ bs' /\ accepts_list accept n bs' xs /\ x = Some xs).

Fixpoint accepts (t : ty) (v : Z) : den t -> list Z -> den t -> Prop :=
  match t return den t -> list Z -> den t -> Prop with
  | TBool => fun _ bs x => exists b, is_byte b /\ bs = [b] /\ x = (b =? 1)
  | TInt8 => fun _ bs x => is_int8 x /\ bs = be 1 x
  | TInt16 => fun _ bs x => is_int16 x /\ bs = be 2 x
  | TInt32 => fun _ bs x => is_int32 x /\ bs = be 4 x
  | TInt64 => fun _ bs x => is_int64 x /\ bs = be 8 x
  | TString => fun _ bs x => accepts_string bs x
  | TBytes => fun _ bs x => exists s, x = Some s /\ bs = be 4 (zlen s) ++ s /\ zlen s < 2 ^ 31
  | TInt32Array => fun _ => accepts_array (fun bs x => is_int32 x /\ bs = be 4 x)
  | TInt64Array => fun _ => accepts_array (fun bs x => is_int64 x /\ bs = be 8 x)
  | TStringArray => fun _ => accepts_array accepts_string
  | TArray fs => fun old bs x =>
      (* any negative count leaves the receiver's value as it was *)
      (exists n, - 2 ^ 31 <= n < 0 /\ bs = be 4 n /\ x = old) \/
      (exists n bs' xs, 0 <= n < 2 ^ 31 /\ bs = be 4 n ++ bs' /\ accepts_list (acceptss fs v (zeros fs)) n bs' xs /\ x = Some xs)
  end
with acceptss (fs : fields) (v : Z) : dens fs -> list Z -> dens fs -> Prop :=
  match fs return dens fs -> list Z -> dens fs -> Prop with
  | FNil => fun _ bs _ => bs = []
  | FCons _ r t rest => fun old bs x =>
      exists b1 b2, bs = b1 ++ b2 /\
        (if active r v then accepts t v (fst old) b1 (fst x) else b1 = [] /\ fst x = fst old) /\
        acceptss rest v (snd old) b2 (snd x)
  end.

(** Fewer than [n] good elements and then a bad one. *)
Definition rejects_list {A} (accept : list Z -> A -> Prop) (reject : list Z -> Prop) (n : Z) (bs : list Z) : Prop :=
  exists k good xs bad, accepts_list accept k good xs /\ k < n /\ reject bad /\ bs = good ++ bad.
Definition rejects_string (bs : list Z) : Prop := exists n, - 2 ^ 15 <= n < -1 /\ bs = be 2 n.
Definition rejects_count (bs : list Z) : Prop := exists n, - 2 ^ 31 <= n < -1 /\ bs = be 4 n.

Fixpoint rejects (t : ty) (v : Z) : list Z -> Prop :=
  match t with
  | TBool | TInt8 | TInt16 | TInt32 | TInt64 => fun _ => False
  | TString => rejects_string
  | TBytes => fun bs => exists n, - 2 ^ 31 <= n < 0 /\ bs = be 4 n
  | TInt32Array | TInt64Array => rejects_count
  | TStringArray => fun bs => rejects_count bs \/
      exists n bs', 0 <= n < 2 ^ 31 /\ bs = be 4 n ++ bs' /\ rejects_list accepts_string rejects_string n bs'
  | TArray fs => fun bs =>
      exists n bs', 0 <= n < 2 ^ 31 /\ bs = be 4 n ++ bs' /\ rejects_list (acceptss fs v (zeros fs)) (rejectss fs v) n bs'
  end
with rejectss (fs : fields) (v : Z) : list Z -> Prop :=
  match fs with
  | FNil => fun _ => False
  | FCons _ r t rest => fun bs =>
      (active r v = true /\ rejects t v bs) \/
      exists b1 b2, bs = b1 ++ b2 /\ (if active r v then exists old x, accepts t v old b1 x else b1 = []) /\ rejectss rest v b2
  end.

(** ** The bytes without null strings, null or otherwise negative counts of structures, and
    boolean bytes other than 0 and 1; arrays of numbers and of strings may be null *)
Definition plain_string (bs : list Z) : Prop := exists s, zlen s < 2 ^ 15 /\ bs = be 2 (zlen s) ++ s.
Definition plain_list (plain : list Z -> Prop) (bs : list Z) : Prop :=
  exists parts, zlen parts < 2 ^ 31 /\ bs = be 4 (zlen parts) ++ concat parts /\ Forall plain parts.
Definition plain_nullable (plain : list Z -> Prop) (bs : list Z) : Prop := bs = be 4 (-1) \/ plain_list plain bs.
Fixpoint plain (t : ty) (v : Z) : list Z -> Prop :=
  match t with
  | TBool => fun bs => bs = [0] \/ bs = [1]
  | TInt8 => fun bs => exists x, is_int8 x /\ bs = be 1 x
  | TInt16 => fun bs => exists x, is_int16 x /\ bs = be 2 x
  | TInt32 => fun bs => exists x, is_int32 x /\ bs = be 4 x
  | TInt64 => fun bs => exists x, is_int64 x /\ bs = be 8 x
  | TString => plain_string
  | TBytes => fun bs => exists s, zlen s < 2 ^ 31 /\ bs = be 4 (zlen s) ++ s
  | TInt32Array => plain_nullable (fun bs => exists x, is_int32 x /\ bs = be 4 x)
  | TInt64Array => plain_nullable (fun bs => exists x, is_int64 x /\ bs = be 8 x)
  | TStringArray => plain_nullable plain_string
  | TArray fs => plain_list (plains fs v)
  end
with plains (fs : fields) (v : Z) : list Z -> Prop :=
  match fs with
  | FNil => fun bs => bs = []
  | FCons _ r t rest => fun bs => exists b1 b2, bs = b1 ++ b2 /\ (if active r v then plain t v b1 else b1 = []) /\ plains rest v b2
  end.
