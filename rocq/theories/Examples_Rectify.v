(** C75: instances. *)

From Coq Require Import Arith NArith List Bool.
From Verif Require Import Word Spec_Sha1 Model_Go Model_Rectify Rectify.
Import ListNotations.
Local Open Scope N_scope.

Definition rc_m1 : list word := map (fun i => N.of_nat i + 1) (seq 0 80).
Example rc_wf : Forall wf rc_m1 /\ wfst IV /\ wfst (mkst 1 2 3 4 5).
Proof. split; [|repeat split; reflexivity]. apply Forall_forall. intros x H. vm_compute in H. repeat (destruct H as [<-|H]; [reflexivity|]). destruct H. Qed.
(** Changing word 57 changes the result; changing word 58 does not. *)
Example rc_57 : rectifyCompressionState (Some (upd 57 0 rc_m1)) (Some [arr_of IV; arr_of IV; arr_of IV]) <> rectifyCompressionState (Some rc_m1) (Some [arr_of IV; arr_of IV; arr_of IV]).
Proof. vm_compute. discriminate. Qed.
Example rc_58 : rectifyCompressionState (Some (upd 58 0 rc_m1)) (Some [arr_of IV; arr_of IV; arr_of IV]) = rectifyCompressionState (Some rc_m1) (Some [arr_of IV; arr_of IV; arr_of IV]).
Proof. vm_compute. reflexivity. Qed.
(** The test fails on a function that does nothing, and on one that forgets the test for nil. *)
Example rc_test : TestRectifyCompressionState (fun _ cs => Some cs) = [Some false; Some false; Some true] /\
  TestRectifyCompressionState (fun m cs => do c <- cs; rectifyCompressionState m (Some c)) = [Some true; Some true; None].
Proof. split; vm_compute; reflexivity. Qed.
