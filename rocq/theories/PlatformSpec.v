(** * Vocabulary for decoding on different platforms *)
From Verif Require Import GoBase Decoder Spec SchemaSpec Platform.
Local Open Scope Z_scope.

(** A platform Go runs on. *)
Definition go_platform (P : platform) : Prop := p_int P = 32 \/ p_int P = 64.
(** A decoder that exists there: its buffer's length is an int. *)
Definition exists_on (P : platform) (d : Decoder) : Prop := dec_ok d /\ zlen (d_raw d) < 2 ^ (p_int P - 1).
(** [make] always gives what an int32 can ask for. *)
Definition makes_all (P : platform) : Prop := forall t n, 0 <= n < 2 ^ 31 -> p_make P t n = true.
(** [make] gives arrays of up to [k] elements. *)
Definition makes_up_to (k : Z) (P : platform) : Prop := forall t n, 0 <= n <= k -> p_make P t n = true.
(** What lies ahead of the decoder in its buffer, and whether it starts with ten bytes
    that continue a number and another byte. *)
Definition ahead (d : Decoder) : list Z := skipn (Z.to_nat (d_offset d)) (d_raw d).
Definition runaway (bs : list Z) : Prop := exists a b rest, bs = a ++ b :: rest /\ zlen a = 10 /\ Forall continues a.
