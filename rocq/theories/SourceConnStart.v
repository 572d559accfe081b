(** * The text of Connect *)
From Coq Require Import String.
From Verif Require Import GoBase GoLemmas Encoder Decoder BufIO BufIOProofs Msg01 Conn ConnProofs ConnRing ConnRingProofs GoLang GoFlow SourceConn SourceConnSpec SourceConnPoints SourceConnSim SourceConnCalls SourceConnLoop.
From Verif Require Ring.
Local Open Scope string_scope.
Local Open Scope list_scope.
Local Open Scope Z_scope.

Section Start.
Context {R : Type} (width : Z).
Local Notation mem := (memory R).

Lemma adv_go dl tls (w : who) (m m' : mem) p what vs k v r : p = Ask what vs k -> alone dl tls w what vs m = Answer v m' -> advance dl tls w m' (k v) = r -> advance dl tls w m p = r.
Proof. intros -> H <-. apply adv_answer, H. Qed.
Lemma adv_end dl tls (w : who) (m : mem) p v : p = Done v -> advance dl tls w m p = (m, Done v).
Proof. intros ->. reflexivity. Qed.

Definition made (raw : rawconn) : mem :=
  mkMem raw false 0 (fun _ => None) [None; None] [false; false] false (fun _ => None) (Ring.New 5000000) (NewEncoder (target_of raw NewWriter)) NewWriter raw [] [] []
        (mkDecoder [] 0 0) ResponseHeader_zero None [] 0 [("Conn.readLoop", reader_args); ("Conn.messageLoop", loop_args)].
Lemma text_Connect tls n raw addr : opened None tls width (S (S (S n))) raw addr = (made raw, Done (VTuple [the_conn; VNil])).
Proof.
  unfold opened. destruct tls.
  - repeat (eapply adv_go; [reflexivity|reflexivity|]).
    apply adv_end. reflexivity.
  - repeat (eapply adv_go; [reflexivity|reflexivity|]).
    apply adv_end. reflexivity.
Qed.
Lemma text_Connect_fails tls n raw addr x : opened (R := R) (Some x) tls width (S (S (S n))) raw addr = (blank raw, Done (VTuple [VNil; VErr x])).
Proof.
  unfold opened. destruct tls; repeat (eapply adv_go; [reflexivity|reflexivity|]); apply adv_end; reflexivity.
Qed.

End Start.
