(** * Property of the memory decoders ask for: C67 *)
From Coq Require Import String.
From Verif Require Import GoBase GoLemmas Encoder Decoder Spec SchemaSpec EncProofs Link Msg09 AllMessages MsgProps Memory MemorySpec MemoryProofs.
Local Open Scope Z_scope.
Local Open Scope list_scope.
Ltac Zify.zify_post_hook ::= idtac.

(** [c_makes c v old d] is the list of the lengths that Decode of [c] gives to [make]
    while it reads from [d] (Memory.v), [frame d] the bytes it may read, [sum] the sum of
    a list.  The decoders of Memory.v are the Decode methods: without the log they give
    the same result. *)
Theorem C67_log : forall name c, In (name, c) all_codecs -> forall v old d,
  c_decode c v old d = dmap (c_of c) (fun d => snd (mdecodes (c_schema c) v (c_to c old) d)) d.
Proof. exact log_erased. Qed.
Print Assumptions C67_log.

(** ** C67.  Full statement: a decoder asks for no more elements than the frame has bytes:
      In (name, c) all_codecs -> dec_ok d -> sum (c_makes c v old d) <= zlen (frame d).
    It is false: the count in front of an array is believed before anything of the array
    is read.  For every message and version with an array (at its top level), and every
    count an int32 can hold, there are at most as many bytes as an all-zero message has,
    which make Decode ask for an array of that count, whatever follows them. *)
Theorem C67_count_refuted : forall name c, In (name, c) all_codecs -> forall v n, has_array (c_schema c) v = true -> 0 <= n < 2 ^ 31 ->
  exists bs, zlen bs <= zlen (wires (c_schema c) v (zeros (c_schema c))) /\
    forall old d rest, dec_ok d -> frame d = bs ++ rest -> In n (c_makes c v old d).
Proof.
  intros name c _ v n H Hn. destruct (count_believed (c_schema c) v n H Hn) as (bs & Hl & Hb). exists bs. split; [exact Hl|].
  intros old d rest Hd E. exact (Hb _ d rest Hd E).
Qed.
Print Assumptions C67_count_refuted.

(** What holds.  A decoding that succeeds has asked for at most as many elements as the
    frame has bytes: no array, at any version, has elements of no bytes.  (Missing from
    the full statement: decodings that fail.) *)
Theorem C67_memory_partial : forall name c, In (name, c) all_codecs -> forall v old d m d', dec_ok d ->
  c_decode c v old d = DOk m d' -> sum (c_makes c v old d) <= zlen (frame d).
Proof. exact memory_paid. Qed.
Print Assumptions C67_memory_partial.

(** A decoding that returns an error has asked for at most that and three arrays of the
    greatest count, one for each level of nesting: the arrays it was in when it failed.
    (Missing: the bound by the frame alone.) *)
Theorem C67_failed_partial : forall name c, In (name, c) all_codecs -> forall v old d x d', dec_ok d ->
  c_decode c v old d = DErr x d' -> sum (c_makes c v old d) <= zlen (frame d) + 3 * (2 ^ 31 - 1).
Proof. exact memory_owed. Qed.
Print Assumptions C67_failed_partial.

(** Four bytes for DeleteGroups make it ask for 2147483647 strings; a well-formed frame
    with two names for two; one that announces nine and has one for nine, and fails. *)
Lemma DeleteGroupsRequest_in : In ("DeleteGroupsRequest"%string, DeleteGroupsRequest_codec) all_codecs.
Proof. exact (nth_error_In all_codecs 188 eq_refl). Qed.
Example C67_four : has_array (c_schema DeleteGroupsRequest_codec) 0 = true /\
  zlen (wires (c_schema DeleteGroupsRequest_codec) 0 (zeros (c_schema DeleteGroupsRequest_codec))) = 4.
Proof. split; reflexivity. Qed.
Definition two_names : Decoder := mkDecoder [0;0;0;2; 0;1;97; 0;1;98] 10 0.
Definition nine_names : Decoder := mkDecoder [0;0;0;9; 0;1;97] 7 0.
Example C67_two : dec_ok two_names /\ c_makes DeleteGroupsRequest_codec 0 DeleteGroupsRequest_zero two_names = [2] /\
  c_decode DeleteGroupsRequest_codec 0 DeleteGroupsRequest_zero two_names = DOk (mkDeleteGroupsRequest (Some [[97]; [98]])) (mkDecoder (d_raw two_names) 10 10).
Proof. split; [|split; reflexivity]. unfold dec_ok. cbn. lia. Qed.
Example C67_nine : dec_ok nine_names /\ c_makes DeleteGroupsRequest_codec 0 DeleteGroupsRequest_zero nine_names = [9] /\
  exists d', c_decode DeleteGroupsRequest_codec 0 DeleteGroupsRequest_zero nine_names = DErr ErrShortBuffer d'.
Proof. split; [|split; [reflexivity|eexists; reflexivity]]. unfold dec_ok. cbn. lia. Qed.
(** How many messages and parts of messages have such an array, at version 0: *)
Example C67_many : List.length (filter (fun nc => has_array (c_schema (snd nc)) 0) all_codecs) = 125%nat /\ List.length all_codecs = 218%nat.
Proof. split; reflexivity. Qed.
