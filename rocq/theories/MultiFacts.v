(** Witnesses for the assembly routines on slices that are not one block. *)

From Coq Require Import Arith NArith List Strings.Byte Bool Lia ZifyNat.
From Verif Require Import Word WordFacts Spec_Sha1 Sha1Facts Model_Go Model_Asm Model_Amd64 Gen_Amd64 Model_Arm64 Gen_Arm64 GoAsm AsmMulti AsmMultiArm.
Import ListNotations.
Ltac Zify.zify_post_hook ::= idtac.
Local Open Scope N_scope.

(** The layout of [lay0] with n bytes of p. *)
Definition lay_n (n : N) : layout := mklay 0x1000 0x2001 0x3000 0x4000 0x5008 0x6000 0x7000 0x7010 n.
Lemma lay_n_ok n : n < 4095 -> layout_for n (lay_n n).
Proof.
  intros Hn. split; [|split; [|split; [reflexivity|split; reflexivity]]].
  - cbn [regions lay_n all_apart l_h l_p l_m1 l_cs l_frame l_args l_ro1 l_ro2 l_np].
    repeat apply conj; try exact I; repeat (apply Forall_cons; [unfold apart; cbn [rbase rsize]; lia|]); apply Forall_nil.
  - assert (B : 0x2001 + n < M64) by (change M64 with 18446744073709551616; lia).
    apply Forall_cons; [reflexivity|]. apply Forall_cons; [exact B|]. repeat (apply Forall_cons; [reflexivity|]). apply Forall_nil.
Qed.
Definition amd_n (n : N) : env := mkenv (lay_n n) (fun _ => 0x1234567) (fun _ => mkv 1 2 3 4) (fun _ => xff) true.
Definition arm_n (n r16 : N) : aenv := mkaenv (lay_n n) (fun r => if (r =? 16)%nat then r16 else 0x1234567) (fun _ => mkv 1 2 3 4) (fun _ => xff) true.
Definition zero_cs : csarr := mkcs IV IV IV.

Lemma exec_stuck L prog n : forall s t i, run_n L prog n s = Some t -> nth_error prog (pc t) = Some i -> i <> RET -> step_instr L i t = None ->
  forall fuel, exec L prog fuel s = None.
Proof.
  induction n as [|n IH]; intros s t i R E D S fuel; cbn [run_n] in R; (destruct fuel as [|fuel]; [reflexivity|]); cbn [exec].
  - injection R as ->. rewrite E. destruct i; try congruence; rewrite S; reflexivity.
  - destruct (nth_error prog (pc s)) as [j|]; [|discriminate]. cbn [obind] in R. destruct (step_instr L j s) as [s1|] eqn:F; [|discriminate].
    cbn [obind] in R. destruct j; try discriminate F; cbn [obind]; eapply IH; eassumption.
Qed.
Lemma amd64_tail : exists e h p m1 cs, layout_for (N.of_nat (length p)) (e_lay e) /\ wfst h /\ length p = 65%nat /\ length m1 = 80%nat /\
  forall fuel, exec (e_lay e) amd64_prog fuel (entry upper_mask shuffle_mask e h p m1 cs) = None.
Proof.
  exists (amd_n 65), IV, (abc_block ++ [x00]), (repeat 0 80), zero_cs.
  split; [apply lay_n_ok; reflexivity|]. split; [repeat split|]. split; [reflexivity|]. split; [reflexivity|].
  set (s0 := entry upper_mask shuffle_mask (amd_n 65) IV (abc_block ++ [x00]) (repeat 0 80) zero_cs). change (e_lay (amd_n 65)) with (lay_n 65).
  assert (E : match run_n (lay_n 65) amd64_prog 202 s0 with
              | Some t => match nth_error amd64_prog (pc t) with
                          | Some (VMOVDQU_load a x) => match step_instr (lay_n 65) (VMOVDQU_load a x) t with None => true | Some _ => false end
                          | _ => false
                          end
              | None => false
              end = true) by (vm_compute; reflexivity).
  destruct (run_n (lay_n 65) amd64_prog 202 s0) as [t|] eqn:R; [|discriminate E].
  destruct (nth_error amd64_prog (pc t)) as [i|] eqn:P; [|discriminate E]. destruct i; try discriminate E.
  apply (exec_stuck _ _ _ _ _ _ R P); [discriminate|]. destruct (step_instr _ _ t); [discriminate E|reflexivity].
Qed.
Lemma arm64_first_only : exists e h p m1 cs s, layout_for (N.of_nat (length p)) (ae_lay e) /\ wfst h /\ length p = 128%nat /\ length m1 = 80%nat /\
  ae_g e 16%nat mod M64 + N.of_nat (length p) < M64 /\
  xexec (ae_lay e) arm64_prog 1000 (aentry sha1Ks e h p m1 cs) = Some s /\ st_at (xm s) (l_h (ae_lay e)) <> sha1_blocks h (blocks p).
Proof.
  destruct (arm64_multi (arm_n 128 42) IV abc_block abc_block (repeat 0 80) zero_cs) as (s & E & H & _).
  - apply lay_n_ok. reflexivity.
  - repeat split.
  - reflexivity.
  - reflexivity.
  - reflexivity.
  - exists (arm_n 128 42), IV, (abc_block ++ abc_block), (repeat 0 80), zero_cs, s.
    split; [apply lay_n_ok; reflexivity|]. split; [repeat split|]. split; [reflexivity|]. split; [reflexivity|]. split; [reflexivity|].
    split; [exact E|]. rewrite H. intros C.
    assert (A : sa (compress IV (words_of abc_block)) = 0xa9993e36) by (vm_compute; reflexivity).
    rewrite C in A. revert A. vm_compute. discriminate.
Qed.
