(** For each theorem of Properties_Multi a concrete case that meets its hypotheses (tests, not proofs). *)

From Coq Require Import Arith NArith List Strings.Byte Bool Lia.
From Verif Require Import Word Spec_Sha1 Model_Go Model_Asm Model_Amd64 Gen_Amd64 Model_Arm64 Gen_Arm64 GoAsm AsmMulti AsmMultiArm MultiFacts
  Data_Shambles Examples_Go Properties_Multi.
Import ListNotations.
Local Open Scope N_scope.

(** Two blocks in one call: both are hashed, and the stored state before step 0 is that after the first. *)
Example C60_example_amd64 : layout_for (N.of_nat (length (sh_b1 ++ abc_block))) (e_lay (amd_n 128)) /\ wfst sh_h1 /\ (length sh_b1 mod 64 = 0)%nat /\
  length abc_block = 64%nat /\
  match exec (lay_n 128) amd64_prog 392 (entry upper_mask shuffle_mask (amd_n 128) sh_h1 (sh_b1 ++ abc_block) (repeat 7 80) zero_cs) with
  | Some s => st_at (mm s) (l_h (lay_n 128)) = compress (compress sh_h1 (words_of sh_b1)) (words_of abc_block) /\
              cs0 (cs_at (mm s) (l_cs (lay_n 128))) = compress sh_h1 (words_of sh_b1)
  | None => False
  end.
Proof. split; [apply lay_n_ok; reflexivity|]. split; [repeat split|]. split; [reflexivity|]. split; [reflexivity|]. vm_compute. split; reflexivity. Qed.

Example C60_example_empty : layout_for 0 (e_lay (amd_n 0)) /\
  match exec (lay_n 0) amd64_prog 8 (entry upper_mask shuffle_mask (amd_n 0) sh_h1 [] (repeat 7 80) zero_cs) with
  | Some s => pc s = 199%nat
  | None => False
  end /\ exec (lay_n 0) amd64_prog 7 (entry upper_mask shuffle_mask (amd_n 0) sh_h1 [] (repeat 7 80) zero_cs) = None.
Proof. split; [apply lay_n_ok; reflexivity|]. split; vm_compute; reflexivity. Qed.

(** The same two blocks and a rest: the first one only. *)
Example C60_example_arm64 : layout_for (N.of_nat (length (sh_b1 ++ abc_block ++ [x01]))) (ae_lay (arm_n 129 42)) /\
  ae_g (arm_n 129 42) 16%nat mod M64 + 64 * (N.of_nat (length (sh_b1 ++ abc_block ++ [x01])) / 64) < M64 /\
  match xexec (lay_n 129) arm64_prog 1000 (aentry sha1Ks (arm_n 129 42) sh_h1 (sh_b1 ++ abc_block ++ [x01]) (repeat 7 80) zero_cs) with
  | Some s => st_at (xm s) (l_h (lay_n 129)) = compress sh_h1 (words_of sh_b1)
  | None => False
  end.
Proof. split; [apply lay_n_ok; reflexivity|]. split; [reflexivity|]. vm_compute. reflexivity. Qed.

Example C60_example_nothing : layout_for 63 (ae_lay (arm_n 63 42)) /\ layout_for 128 (ae_lay (arm_n 128 (2 ^ 64 - 100))) /\
  M64 <= ae_g (arm_n 128 (2 ^ 64 - 100)) 16%nat mod M64 + 64 * (128 / 64) /\
  match xexec (lay_n 63) arm64_prog 1000 (aentry sha1Ks (arm_n 63 42) sh_h1 (repeat x61 63) (repeat 7 80) zero_cs) with
  | Some s => st_at (xm s) (l_h (lay_n 63)) = sh_h1
  | None => False
  end.
Proof. split; [apply lay_n_ok; reflexivity|]. split; [apply lay_n_ok; reflexivity|]. split; [discriminate|]. vm_compute. reflexivity. Qed.
