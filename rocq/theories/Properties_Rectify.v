(** C75: rectifyCompressionState on all its arguments, and its test. *)

From Coq Require Import Arith NArith List Bool.
From Verif Require Import Word Spec_Sha1 Model_Go Model_Rectify Rectify.
Import ListNotations.
Local Open Scope N_scope.

(** A nil cs is left alone, whatever m1 is; a nil m1 with a cs panics. *)
Theorem C75_nil : forall m1, rectifyCompressionState m1 None = Some None.
Proof. exact rectify_nil. Qed.
Print Assumptions C75_nil.

Theorem C75_panic : forall cs, rectifyCompressionState None (Some cs) = None.
Proof. exact rectify_panic. Qed.
Print Assumptions C75_panic.

(** Any states, any words: steps 56 and 57 of SHA-1 on the second, step 64 on the third, the first unchanged. *)
Theorem C75_steps : forall m1 s0 s1 s2, wfst s1 -> wfst s2 ->
  rectifyCompressionState (Some m1) (Some [arr_of s0; arr_of s1; arr_of s2]) =
  Some (Some [arr_of s0; arr_of (steps 56 [nth 56 m1 0; nth 57 m1 0] s1); arr_of (steps 64 [nth 64 m1 0] s2)]).
Proof. exact rectify_steps. Qed.
Print Assumptions C75_steps.

(** Exactly three words of m1 matter. *)
Theorem C75_words : forall m1 m1' s0 s1 s2, Forall wf m1 -> Forall wf m1' -> wfst s1 -> wfst s2 ->
  (rectifyCompressionState (Some m1) (Some [arr_of s0; arr_of s1; arr_of s2]) = rectifyCompressionState (Some m1') (Some [arr_of s0; arr_of s1; arr_of s2]) <->
   nth 56 m1 0 = nth 56 m1' 0 /\ nth 57 m1 0 = nth 57 m1' 0 /\ nth 64 m1 0 = nth 64 m1' 0).
Proof. exact rectify_words. Qed.
Print Assumptions C75_words.

(** It is the function used in the models of the assembly builds. *)
Theorem C75_model : forall m1 cs,
  rectifyCompressionState (Some m1) (Some [arr_of (cs0 cs); arr_of (cs1 cs); arr_of (cs2 cs)]) =
  Some (Some [arr_of (cs0 (rectify m1 cs)); arr_of (cs1 (rectify m1 cs)); arr_of (cs2 (rectify m1 cs))]).
Proof. exact rectify_model. Qed.
Print Assumptions C75_model.

(** The repository's test passes. *)
Theorem C75_test : TestRectifyCompressionState rectifyCompressionState = [Some true; Some true; Some true].
Proof. exact rectify_test. Qed.
Print Assumptions C75_test.
