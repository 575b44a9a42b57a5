(** Facts about [Model_Rectify]. *)

From Coq Require Import Arith ZArith NArith List Strings.Byte Lia ZifyNat Bool.
From Verif Require Import Word WordFacts Spec_Sha1 Sha1Facts Model_Go GoCheck GoBlock GoDetect Model_Rectify.
Import ListNotations.
Local Open Scope N_scope.
Ltac Zify.zify_post_hook ::= idtac.

Definition arr_of (s : st) : list word := [sa s; sb s; sc s; sd s; se s].
Lemma func3_eq m1 s i : (40 <= i < 60)%nat -> wfst s -> r_func3 (Some m1) (arr_of s) i = Some (arr_of (step i (nth i m1 0) s)).
Proof.
  intros Hi Hs. rewrite <- (g_round_eq (repeat x00 64) (le_n _) g_maj K2 i (nth i m1 0) s (ft_maj i Hi) Hs).
  unfold r_func3, arr_of, g_round, g_maj. cbn [deref obind nth sa sb sc sd se]. reflexivity.
Qed.
Lemma func4_eq m1 s i : (60 <= i)%nat -> wfst s -> r_func4 (Some m1) (arr_of s) i = Some (arr_of (step i (nth i m1 0) s)).
Proof.
  intros Hi Hs. rewrite <- (g_round_eq (repeat x00 64) (le_n _) g_par K3 i (nth i m1 0) s (ft_par3 i Hi) Hs).
  unfold r_func4, arr_of, g_round, g_par. cbn [deref obind nth sa sb sc sd se]. reflexivity.
Qed.
Theorem rectify_steps m1 s0 s1 s2 : wfst s1 -> wfst s2 ->
  rectifyCompressionState (Some m1) (Some [arr_of s0; arr_of s1; arr_of s2]) =
  Some (Some [arr_of s0; arr_of (steps 56 [nth 56 m1 0; nth 57 m1 0] s1); arr_of (steps 64 [nth 64 m1 0] s2)]).
Proof.
  intros H1 H2. unfold rectifyCompressionState. change (nth 1 [arr_of s0; arr_of s1; arr_of s2] []) with (arr_of s1).
  rewrite func3_eq by (auto; lia). cbn [obind]. rewrite func3_eq by (try lia; apply wfst_step; assumption). cbn [obind]. cbn [upd nth].
  rewrite func4_eq by (auto; lia). reflexivity.
Qed.
Theorem rectify_model m1 cs :
  rectifyCompressionState (Some m1) (Some [arr_of (cs0 cs); arr_of (cs1 cs); arr_of (cs2 cs)]) =
  Some (Some [arr_of (cs0 (rectify m1 cs)); arr_of (cs1 (rectify m1 cs)); arr_of (cs2 (rectify m1 cs))]).
Proof. reflexivity. Qed.
Theorem rectify_nil m1 : rectifyCompressionState m1 None = Some None.
Proof. reflexivity. Qed.
Theorem rectify_panic cs : rectifyCompressionState None (Some cs) = None.
Proof. reflexivity. Qed.
Lemma step_word t w w' s : wf w -> wf w' -> sa (step t w s) = sa (step t w' s) -> w = w'.
Proof.
  intros W W' E. unfold step in E. cbn [sa] in E. rewrite (add32_comm _ w), (add32_comm _ w') in E. apply add32_cancel in E; auto with wf.
Qed.
Lemma arr_inj s s' : arr_of s = arr_of s' -> sa s = sa s' /\ sb s = sb s'.
Proof. unfold arr_of. intros E. injection E. auto. Qed.
Lemma sb_step t w s : sb (step t w s) = sa s. Proof. reflexivity. Qed.
Local Opaque step arr_of.
Theorem rectify_words m1 m1' s0 s1 s2 : Forall wf m1 -> Forall wf m1' -> wfst s1 -> wfst s2 ->
  (rectifyCompressionState (Some m1) (Some [arr_of s0; arr_of s1; arr_of s2]) = rectifyCompressionState (Some m1') (Some [arr_of s0; arr_of s1; arr_of s2]) <->
   nth 56 m1 0 = nth 56 m1' 0 /\ nth 57 m1 0 = nth 57 m1' 0 /\ nth 64 m1 0 = nth 64 m1' 0).
Proof.
  intros W W' H1 H2. rewrite !rectify_steps by assumption.
  assert (A : forall i, wf (nth i m1 0)) by (intros; apply nth_wf; assumption). assert (A' : forall i, wf (nth i m1' 0)) by (intros; apply nth_wf; assumption).
  split; [|intros (-> & -> & ->); reflexivity].
  generalize (nth 56 m1 0) (A 56%nat) (nth 57 m1 0) (A 57%nat) (nth 64 m1 0) (A 64%nat) (nth 56 m1' 0) (A' 56%nat) (nth 57 m1' 0) (A' 57%nat) (nth 64 m1' 0) (A' 64%nat).
  intros u Wu v Wv z Wz u' Wu' v' Wv' z' Wz' E. cbn [steps] in E.
  assert (E1 : arr_of (step 57 v (step 56 u s1)) = arr_of (step 57 v' (step 56 u' s1))) by congruence.
  assert (E2 : arr_of (step 64 z s2) = arr_of (step 64 z' s2)) by congruence. clear E.
  assert (U : u = u').
  { apply (step_word 56 u u' s1); auto. apply arr_inj in E1. rewrite !sb_step in E1. apply E1. }
  subst u'. split; [reflexivity|]. split.
  - apply (step_word 57 v v' (step 56 u s1)); auto. apply arr_inj in E1. apply E1.
  - apply (step_word 64 z z' s2); auto. apply arr_inj in E2. apply E2.
Qed.
Theorem rectify_test : TestRectifyCompressionState rectifyCompressionState = [Some true; Some true; Some true].
Proof. vm_compute. reflexivity. Qed.
