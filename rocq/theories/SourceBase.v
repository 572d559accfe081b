(** * The source does what the model says *)
From Coq Require Import String.
From Verif Require Import GoBase GoLemmas Binary Utf8 Decoder Encoder SchemaSpec Platform PlatformSpec PlatformProofs Scratch GoLang Source SourceSpec.
From Coq Require Import Lia ZArith.
Local Open Scope string_scope.
Local Open Scope list_scope.
Local Open Scope Z_scope.

Lemma nth_set_nth {A} : forall (h : list A) l c x, nth_error h l = Some x -> nth_error (set_nth l c h) l = Some c.
Proof. induction h as [|y h IH]; intros [|l] c x H; cbn in *; try discriminate H; [reflexivity|]. eapply IH, H. Qed.
Lemma nth_set_other {A} : forall (h : list A) l k c, l <> k -> nth_error (set_nth l c h) k = nth_error h k.
Proof. induction h as [|y h IH]; intros [|l] [|k] c H; cbn; try reflexivity; [congruence|]. apply IH. congruence. Qed.
Lemma set_set_nth {A} : forall (h : list A) l c c', set_nth l c (set_nth l c' h) = set_nth l c h.
Proof. induction h as [|y h IH]; intros [|l] c c'; cbn; try reflexivity. f_equal. apply IH. Qed.
Lemma set_same_nth {A} : forall (h : list A) l c, nth_error h l = Some c -> set_nth l c h = h.
Proof. induction h as [|y h IH]; intros [|l] c H; cbn in *; try reflexivity; [congruence|]. f_equal. apply IH, H. Qed.
Lemma set_nth_length {A} : forall (h : list A) l c, length (set_nth l c h) = length h.
Proof. induction h as [|y h IH]; intros [|l] c; cbn; try reflexivity. f_equal. apply IH. Qed.
Lemma at_set s l c x : nth_error (heap s) l = Some x -> nth_error (heap (set_cell l c s)) l = Some c.
Proof. apply nth_set_nth. Qed.
Lemma set_set s l c c' : set_cell l c (set_cell l c' s) = set_cell l c s.
Proof. unfold set_cell. cbn. rewrite set_set_nth. reflexivity. Qed.
Lemma set_same s l c : nth_error (heap s) l = Some c -> set_cell l c s = s.
Proof. destruct s as [h w]. unfold set_cell. cbn. intros H. rewrite set_same_nth by exact H. reflexivity. Qed.

Section Source.
Context (P : platform) (GP : go_platform P) (structs : string -> ty) (scribble : list (list Z) -> list Z -> list Z) (prog : package) (X : extends prog source).
Notation W := (p_int P).
Notation L := (p_late P).
Notation R := (room_of P structs).
Notation go := (call W L R scribble prog).

Lemma called n f fn vs s : lookup f (lib_table L scribble) = None -> lookup f (k_funcs source) = Some fn ->
  go (S n) f vs s = invoke W R scribble prog (go n) n fn vs s.
Proof. intros N H. cbn [call]. rewrite N. destruct X as [Xf _]. rewrite (Xf f fn H). reflexivity. Qed.
Lemma called_lib n f g vs s : lookup f (lib_table L scribble) = Some g -> go (S n) f vs s = g vs s.
Proof. intros H. cbn [call]. rewrite H. reflexivity. Qed.

(** Constants of the program. *)
Lemma g_short : global W prog 5 "io.ErrShortBuffer" = Some (VErr ErrShortBuffer).
Proof. reflexivity. Qed.
Lemma g_overflow : global W prog 5 "message.errVarIntOverflow" = Some (VErr ErrVarIntOverflow).
Proof.
  destruct X as (_ & Xg & _). cbn [global lookup lib_globals]. cbn [String.eqb Ascii.eqb Bool.eqb].
  rewrite (Xg "message.errVarIntOverflow" _ eq_refl). reflexivity.
Qed.
Lemma small z : - 2 ^ 31 <= z < 2 ^ 31 -> wrap W z = z.
Proof. intros H. apply (pint_int32 P z GP). exact H. Qed.
Lemma w0 : wrap W 0 = 0. Proof. apply small; lia. Qed.
Lemma w1 : wrap W 1 = 1. Proof. apply small; lia. Qed.
Lemma w2 : wrap W 2 = 2. Proof. apply small; lia. Qed.
Lemma w4 : wrap W 4 = 4. Proof. apply small; lia. Qed.
Lemma w8 : wrap W 8 = 8. Proof. apply small; lia. Qed.
Lemma wm1 : wrap W (-1) = -1. Proof. apply small; lia. Qed.

Lemma run_cons c0 k c cs E s : run W R scribble prog c0 k (c :: cs) E s =
  match exec W R scribble prog c0 k c E s with Ok (On E) s => run W R scribble prog c0 k cs E s | Ok (Leave vs) s => Ok (Leave vs) s | Panic => Panic | Stuck => Stuck end.
Proof. reflexivity. Qed.
(** A for loop and a range loop, not looked into. *)
Lemma exec_for c0 k init c post body E s : exec W R scribble prog c0 k (SFor init c post body) E s =
  leave_block E (match run W R scribble prog c0 k init E s with
    | Ok (On E) s => rounds k (eval W R scribble prog c0 c) (fun E s => leave_block E (run W R scribble prog c0 k body E s)) (run W R scribble prog c0 k post) E s
    | Ok (Leave vs) s => Ok (Leave vs) s | Panic => Panic | Stuck => Stuck end).
Proof. reflexivity. Qed.
Lemma exec_range c0 k x e body E s : exec W R scribble prog c0 k (SRange "_" x e body) E s =
  let* (v, s) := eval W R scribble prog c0 e E s in let* (vs, s) := opt (elements v) s in
  each vs (fun v E s => leave_block E (run W R scribble prog c0 k body (declare x v E) s)) E s.
Proof. reflexivity. Qed.
Lemma run_nil c0 k E s : run W R scribble prog c0 k [] E s = Ok (On E) s.
Proof. reflexivity. Qed.
End Source.

Ltac crunch := lazy beta iota zeta delta
  [invoke exec eval eval_all eval_values rbind opt guard lookup update declare declare_all assign assign_all set_field bind_params settle_results
   settle settle_as settle_int option_map single spread leave_block number conv convert binary on_ints compare arith is_nil ity_eqb
   String.eqb Ascii.eqb Bool.eqb String.append slice_of index_of length_of negb skipn Datatypes.length Nat.sub
   f_params f_results f_body decoder_cell is_some as_error lib_table bytes_of
   go_Decoder_remains go_Decoder_Reset go_Decoder_Discard go_Decoder_Bool go_Decoder_Int8 go_Decoder_Int16 go_Decoder_Int32 go_Decoder_Int64
   go_Decoder_ArrayLength go_Decoder_Bytes go_Decoder_String go_Decoder_NullableString go_Decoder_VarInt go_Decoder_VarBytes go_Decoder_VarString
   go_Decoder_Int32Array go_Decoder_Int64Array go_Decoder_StringArray].
Ltac enter := match goal with X : extends _ source |- _ => erewrite (called _ _ _ _ X) by reflexivity end; crunch.
(** Look at the memory, then go on. *)
Ltac look := repeat (first
  [ match goal with H : nth_error (heap ?s) ?l = Some _ |- context [nth_error (heap ?s) ?l] => rewrite H end
  | rewrite set_set
  | match goal with H : nth_error (heap ?s) ?l = Some ?x |- context [nth_error (heap (set_cell ?l ?c ?s)) ?l] => rewrite (at_set s l c x H) end
  | match goal with G : go_platform ?P |- context [wrap (p_int ?P) 0] => rewrite (w0 P G) | G : go_platform ?P |- context [wrap (p_int ?P) 1] => rewrite (w1 P G)
                  | G : go_platform ?P |- context [wrap (p_int ?P) 2] => rewrite (w2 P G) | G : go_platform ?P |- context [wrap (p_int ?P) 4] => rewrite (w4 P G)
                  | G : go_platform ?P |- context [wrap (p_int ?P) 8] => rewrite (w8 P G) | G : go_platform ?P |- context [wrap (p_int ?P) (-1)] => rewrite (wm1 P G) end
  | rewrite g_short | match goal with X : extends _ source |- _ => rewrite (g_overflow _ _ X) end | match goal with |- context [run _ _ _ _ _ _ (?c :: _) _ _] => lazymatch c with SFor _ _ _ _ => fail | SRange _ _ _ _ => fail | _ => rewrite run_cons end end | rewrite run_nil]; crunch).
Ltac library := erewrite called_lib by reflexivity; crunch.
Ltac start H := intros H; unfold decoder_cell in H; enter; look.
(** After a method that left [d'] in the Decoder at [l]: the state as a whole, with what is known of it. *)
Ltac settled s l d' H s' H' S' :=
  pose proof (at_set s l (decoder_cell d') _ H) as H'; pose proof (fun c => set_set s l c (decoder_cell d')) as S';
  set (s' := set_cell l (decoder_cell d') s) in *; clearbody s'; unfold decoder_cell in H'; crunch; look; rewrite ?S'.
