(** * The repository's own unit tests, replayed on the model

    Each case of message/decoder_test.go, message/encoder_test.go,
    message/sizeof/sizeof_test.go and the sequential part of ring/buffer_test.go as
    a computation in the model with the result the Go test demands.  These are
    tests of the model, not claims about the code. *)
From Verif Require Import GoBase Binary Utf8 Encoder Decoder Sizeof Spec.

Definition buffer : target := mkTarget (fun _ _ => None) None [].
(** [e := &Encoder{target: buf}; put; Flush; makeTestDecoder(buf.Bytes())], then [get]:
    no error on either side, and this value. *)
Definition gets {A} (put : Encoder -> Encoder) (get : Dec A) (want : A) : Prop :=
  let e := put (NewEncoder buffer) in
  Flush e = None /\ exists d, get (NewDecoder (output e) (zlen (output e))) = DOk want d.
Ltac through := split; [reflexivity|]; eexists; vm_compute; reflexivity.

Definition hello := [104; 101; 108; 108; 111].
Definition hello_world := hello ++ [32; 119; 111; 114; 108; 100].
Definition nihao := [228; 189; 160; 229; 165; 189].

(** decoder_test.go:31-69 *)
Example PutBool_true : gets (PutBool true) dBool true. Proof. through. Qed.
Example PutBool_false : gets (PutBool false) dBool false. Proof. through. Qed.
(** 70-111, [bytes.Equal]: nil and empty are equal *)
Example PutBytes_nil : gets (PutBytes None) dBytes (Some []). Proof. through. Qed.
Example PutBytes_none : gets (PutBytes (Some [])) dBytes (Some []). Proof. through. Qed.
Example PutBytes_some : gets (PutBytes (Some hello)) dBytes (Some hello). Proof. through. Qed.
(** 112-228 *)
Example PutInt8_pos : gets (PutInt8 123) dInt8 123. Proof. through. Qed.
Example PutInt8_neg : gets (PutInt8 (-123)) dInt8 (-123). Proof. through. Qed.
Example PutInt16_pos : gets (PutInt16 123) dInt16 123. Proof. through. Qed.
Example PutInt16_neg : gets (PutInt16 (-123)) dInt16 (-123). Proof. through. Qed.
Example PutInt32_pos : gets (PutInt32 123) dInt32 123. Proof. through. Qed.
Example PutInt32_neg : gets (PutInt32 (-123)) dInt32 (-123). Proof. through. Qed.
(** 229-270, [reflect.DeepEqual]: nil and empty differ *)
Example PutInt32Array_nil : gets (PutInt32Array None) dInt32Array None. Proof. through. Qed.
Example PutInt32Array_pos : gets (PutInt32Array (Some [1; 2; 3])) dInt32Array (Some [1; 2; 3]). Proof. through. Qed.
Example PutInt32Array_neg : gets (PutInt32Array (Some [-1; -2; -3])) dInt32Array (Some [-1; -2; -3]). Proof. through. Qed.
(** 271-351 *)
Example PutInt64_pos : gets (PutInt64 123) dInt64 123. Proof. through. Qed.
Example PutInt64_neg : gets (PutInt64 (-123)) dInt64 (-123). Proof. through. Qed.
Example PutInt64Array_nil : gets (PutInt64Array None) dInt64Array None. Proof. through. Qed.
Example PutInt64Array_pos : gets (PutInt64Array (Some [1; 2; 3])) dInt64Array (Some [1; 2; 3]). Proof. through. Qed.
Example PutInt64Array_neg : gets (PutInt64Array (Some [-1; -2; -3])) dInt64Array (Some [-1; -2; -3]). Proof. through. Qed.
(** 352-390 *)
Example PutString_none : gets (PutString []) dString []. Proof. through. Qed.
Example PutString_some : gets (PutString [97; 98; 99]) dString [97; 98; 99]. Proof. through. Qed.
(** 391-443; the case called "nil" has the same blank string *)
Example PutNullableString_blank : gets (PutNullableString (Some [])) dNullableString (Some []). Proof. through. Qed.
Example PutNullableString_some : gets (PutNullableString (Some [115; 111; 109; 101])) dNullableString (Some [115; 111; 109; 101]). Proof. through. Qed.
(** 444-485 *)
Example PutStringArray_nil : gets (PutStringArray None) dStringArray None. Proof. through. Qed.
Example PutStringArray_empty : gets (PutStringArray (Some [])) dStringArray (Some []). Proof. through. Qed.
Example PutStringArray_some : gets (PutStringArray (Some [[97]; [98]; [99]])) dStringArray (Some [[97]; [98]; [99]]). Proof. through. Qed.
(** 486-524 *)
Example PutVarBytes_none : gets (PutVarBytes (Some [])) dVarBytes (Some []). Proof. through. Qed.
Example PutVarBytes_some : gets (PutVarBytes (Some hello_world)) dVarBytes (Some hello_world). Proof. through. Qed.
(** 525-572; the case called "-1" has 1 *)
Example PutVarInt_0 : gets (PutVarInt 0) dVarInt 0. Proof. through. Qed.
Example PutVarInt_1 : gets (PutVarInt 1) dVarInt 1. Proof. through. Qed.
Example PutVarInt_min : gets (PutVarInt (- 2 ^ 63)) dVarInt (- 2 ^ 63). Proof. through. Qed.
Example PutVarInt_max : gets (PutVarInt (2 ^ 63 - 1)) dVarInt (2 ^ 63 - 1). Proof. through. Qed.
(** 573-614, 634-640 *)
Example PutVarString_none : gets (PutVarString []) dVarString []. Proof. through. Qed.
Example PutVarString_some : gets (PutVarString hello_world) dVarString hello_world. Proof. through. Qed.
Example PutVarString_unicode : gets (PutVarString nihao) dVarString nihao. Proof. through. Qed.
Example StringLength : zlen nihao = 6. Proof. reflexivity. Qed.
(** 660-741: one decoder without data, used again after each error *)
Definition short {A} (m : Dec A) (d : Decoder) : Prop :=
  exists e d', m d = DErr e d' /\ IsInsufficientDataError e = true /\ d' = d.
Ltac runs_short := eexists; eexists; split; [vm_compute; reflexivity|split; reflexivity].
Example Decoder_remain : let d := mkDecoder [] 0 0 in
  short dBool d /\ short dBytes d /\ short (dDiscard 100) d /\ short dInt8 d /\ short dInt16 d /\ short dInt32 d /\
  short dInt32Array d /\ short dInt64 d /\ short dInt64Array d /\ short dNullableString d /\ short dString d /\
  short dStringArray d /\ short dVarBytes d /\ short dVarInt d /\ short dVarString d.
Proof. cbv zeta. repeat match goal with |- _ /\ _ => split end; runs_short. Qed.
(** 742-771 *)
Example Decoder_Discard : exists d, dDiscard 10 (NewDecoder (repeat 0 100) 100) = DOk tt d /\ d_offset d = 10 /\ d_length d = 100.
Proof. eexists. split; [vm_compute; reflexivity|split; reflexivity]. Qed.
Example Decoder_Reset : let d := Reset 5 (mkDecoder [] 20 10) in d_offset d = 0 /\ d_length d = 5.
Proof. split; reflexivity. Qed.

(** encoder_test.go:25-83 *)
Example Encoder_err :
  let e := PutVarString hello_world (PutVarInt 123 (PutVarBytes (Some hello_world) (PutStringArray None (PutString []
    (PutRecordHeader hello [119; 111; 114; 108; 100] (PutNullableString None (PutInt64Array None (PutInt64 0
    (PutInt32Array None (PutInt32 0 (PutInt16 0 (PutInt8 0 (PutBytes None (PutBool false
    {| e_target := buffer; e_err := Some (ErrOther 1) |})))))))))))))) in
  zlen (output e) = 0 /\ Flush e = Some (ErrOther 1).
Proof. vm_compute. split; reflexivity. Qed.

(** sizeof_test.go *)
Example Sizeof_tests :
  sz_Bytes None = sz_ArrayLength /\ sz_Bytes (Some hello_world) = sz_ArrayLength + zlen hello_world /\
  sz_StringArray None = 4 /\ sz_StringArray (Some [hello; [119; 111; 114; 108; 100]]) = 18 /\
  sz_Int32Array None = 4 /\ sz_Int32Array (Some [1; 2; 3]) = 16 /\
  sz_Int64Array None = 4 /\ sz_Int64Array (Some [1; 2; 3]) = 28 /\
  sz_VarInt 0 = 1 /\ sz_VarInt (2 ^ 15 - 1) = 3 /\ sz_VarInt (2 ^ 63 - 1) = 10 /\
  sz_VarBytes None = 1 /\ sz_VarBytes (Some []) = 1 /\ sz_VarBytes (Some hello_world) = 12 /\
  sz_VarString [] = 1 /\ sz_VarString hello_world = 12 /\ sz_VarString nihao = 7.
Proof. vm_compute. repeat split. Qed.

(** ring/buffer_test.go:28-39: [New(15)], [WriteN("hello world", 11)], then [ring.data[0:11]] *)
From Verif Require Import Ring RingSpec.
Example Buffer_WriteN : exists g evs, run (New 15) (WCall hello_world 11 :: repeat WStep 15) = Some (g, evs) /\
  g_w g = WIdle /\ firstn 11 (g_cells g) = hello_world.
Proof. eexists. eexists. split; [vm_compute; reflexivity|split; reflexivity]. Qed.
