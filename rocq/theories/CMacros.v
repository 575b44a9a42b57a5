(** ubc_check and the macros of sha1.c with C's integer types: results. *)

From Coq Require Import Arith NArith ZArith List Bool Lia ZifyNat ZifyN.
From Verif Require Import Word WordFacts Model_Go Model_Ubc Gen_UbcC Model_CSteps Model_C Model_CTypes Gen_CTyped CTypes.
Import ListNotations.
Local Open Scope N_scope.
Ltac Zify.zify_post_hook ::= idtac.

Lemma nth_wf W : Forall wf W -> forall i, nth i W 0 < M32.
Proof. intros H i. destruct (nth_in_or_default i W 0) as [X| ->]; [|reflexivity]. rewrite Forall_forall in H. exact (H _ X). Qed.
Theorem ubc_typed_ok w W : wide_int w -> Forall wf W -> ubc_check_typed w ubc_typed W = Some (ubc_check W).
Proof.
  intros Hw HW. pose proof (nth_wf W HW) as H. unfold ubc_check_typed, ubc_check.
  assert (HO : forall k, objects W 0 k < M32) by (intros k; unfold objects; destruct (k <? 80); [apply H|reflexivity]).
  destruct (both_ok w (objects W 0) (ENot (ECast (EL 0))) Hw HO eq_refl) as [A L]. rewrite A. cbn [obind neval].
  exact (proj1 (crun_ok w W Hw H ubc_typed ubc_prog_c 0xFFFFFFFF eq_refl ubc_checked ubc_erased)).
Qed.
Theorem bits_ok w n e : wide_int w -> In (n, e) bit_inits -> assigned w (fun _ => 0) e = Some n.
Proof.
  intros Hw H. assert (A : forallb (fun x => both (snd x) && (neval (fun _ => 0) (snd x) =? fst x)) bit_inits = true) by (vm_compute; reflexivity).
  rewrite forallb_forall in A. specialize (A _ H). cbn [fst snd] in A. apply andb_prop in A. destruct A as [A B]. apply N.eqb_eq in B. rewrite <- B.
  apply both_ok; [exact Hw|reflexivity|exact A].
Qed.

Section Macros.
  Variable w : Z.
  Variable env : N -> N.
  Hypothesis Hw : wide_int w.
  Hypothesis He : forall k, wf (env k).
  Let ok (e : cexp) : both e = true -> assigned w env e = Some (neval env e) := fun H => proj1 (both_ok w env e Hw He H).

  Theorem rotations_ok x : assigned w env (e_rotate_left (EV x) (EL 1)) = Some (rotate_left (env x) 1) /\
    assigned w env (e_rotate_left (EV x) (EL 5)) = Some (rotate_left (env x) 5) /\
    assigned w env (e_rotate_left (EV x) (EL 30)) = Some (rotate_left (env x) 30) /\
    assigned w env (e_rotate_right (EV x) (EL 30)) = Some (rotate_right (env x) 30).
  Proof. repeat split; (rewrite ok by reflexivity; reflexivity). Qed.
  Theorem bswap_ok x y : assigned w env (e_bswap1 (EV x)) = Some (env y) -> assigned w env (e_bswap2 (EV y)) = Some (sha1_bswap32 (env x)).
  Proof.
    rewrite !ok by reflexivity. intros E. apply (f_equal (fun o => match o with Some v => v | None => 0 end)) in E. f_equal. unfold sha1_bswap32. cbv zeta.
    unfold e_bswap1, e_bswap2 in *. cbn [neval] in *. rewrite <- E. reflexivity.
  Qed.
  Theorem mix_ok a b c d : assigned w env (e_mix (EV a) (EV b) (EV c) (EV d)) = Some (rotate_left (N.lxor (N.lxor (N.lxor (env a) (env b)) (env c)) (env d)) 1).
  Proof. rewrite ok by reflexivity. reflexivity. Qed.
  Theorem steps_ok r a b c d e t :
    assigned w env (e_step r (EV a) (EV b) (EV c) (EV d) (EV e) (EV t)) =
      Some (add32 (env e) (add32 (add32 (add32 (rotate_left (env a) 5) (c_f r (env b) (env c) (env d))) (c_K r)) (env t))) /\
    assigned w env (e_step_bw r (EV a) (EV b) (EV c) (EV d) (EV e) (EV t)) =
      Some (sub32 (env e) (add32 (add32 (add32 (rotate_left (env a) 5) (c_f r (env b) (env c) (env d))) (c_K r)) (env t))) /\
    assigned w env (e_full r (EV a) (EV b) (EV c) (EV d) (EV e) (EV t)) =
      Some (add32 (env e) (add32 (add32 (add32 (env t) (rotate_left (env a) 5)) (c_f r (env b) (env c) (env d))) (c_K r))).
  Proof. destruct r as [|[|[|[|r]]]]; (split; [|split]); (rewrite ok by reflexivity; reflexivity). Qed.
  Theorem words_ok x y : assigned w env (e_sum (EV x) (EV y)) = Some (add32 (env x) (env y)) /\
    assigned w env (e_xor (EV x) (EV y)) = Some (N.lxor (env x) (env y)).
  Proof. split; (rewrite ok by reflexivity; reflexivity). Qed.
  Theorem same_ok x y : condition w env (e_same (fun i => EV (x + i)) (fun i => EV (y + i))) =
    Some (same_words (mkst (env x) (env (x + 1)) (env (x + 2)) (env (x + 3)) (env (x + 4)))
                     (mkst (env y) (env (y + 1)) (env (y + 2)) (env (y + 3)) (env (y + 4)))).
  Proof.
    rewrite (both_tests_ok w env _ Hw He) by reflexivity. f_equal. unfold e_same, same_words. cbn [neval sa sb sc sd se]. rewrite !N.add_0_r.
    match goal with |- context [0 =? ?v] => rewrite (N.eqb_sym 0 v); destruct (v =? 0) end; reflexivity.
  Qed.
End Macros.
