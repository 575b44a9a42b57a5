(** For the theorems of Properties_Work concrete cases that meet the hypotheses (tests, not proofs). *)

From Coq Require Import Arith NArith ZArith List Strings.Byte Bool Lia.
From Verif Require Import Word WordFacts Spec_Sha1 Spec_DV Spec_Cd Spec_Api Spec_C Spec_Work Model_Ubc Model_Go Model_Api Model_Block Model_C Model_CApi Model_Work
  GoCheck GoProps CCtx Data_Shambles Examples_Go Examples_C Properties_Work.
Import ListNotations.
Local Open Scope N_scope.

Definition the_ubc (d : nat) (W : list word) : bool := N.testbit (CalculateDvMask (Some W)) (N.of_nat d).
Lemma the_ubc_ok : decides_ubc the_ubc.
Proof. intros d W Hd. apply mask_go_spec. exact Hd. Qed.

(** A block of the SHAmbles file takes three passes and one test (one vector passes the bit conditions), a block of text one and none. *)
Definition dg1 : digest := mkd sh_h1 (repeat x00 64) 0 576 false.
Example C56_example : decides go_decide go_detects /\ decides_ubc the_ubc /\ wfst (dh dg1) /\
  map (candidates the_ubc) (blocks (sh_b1 ++ repeat x61 70)) = [1%nat; 0%nat] /\
  option_map (fun r => (dcol (fst (fst r)), snd (fst r), snd r)) (block_of_n Generic dg1 (sh_b1 ++ repeat x61 70)) = Some (true, 4%nat, 1%nat).
Proof.
  split; [exact go_decide_ok|]. split; [exact the_ubc_ok|]. split; [repeat split; vm_compute; reflexivity|].
  split; vm_compute; reflexivity.
Qed.

(** The C library on the same block, with and without the filter and safe hash. *)
Definition cx (safe ubc : Z) : ctx :=
  mkctx 576 sh_h1 (repeat x00 64) 0 safe 1 ubc 0 0 st0 st0 (repeat 0 80) (repeat 0 80) (repeat st0 80).
Example C56_c_example : cdecides cdec /\ wfst (c_ihv (cx 1 1)) /\ length sh_b1 = 64%nat /\
  option_map (fun r => (c_found (fst (fst r)), snd (fst r), snd r)) (sha1_process_n lecfg (cx 1 1) sh_b1) = Some (1%Z, 3%nat, 1%nat) /\
  option_map (fun r => (c_found (fst (fst r)), snd (fst r), snd r)) (sha1_process_n lecfg (cx 0 1) sh_b1) = Some (1%Z, 1%nat, 1%nat) /\
  option_map (fun r => (c_found (fst (fst r)), snd (fst r), snd r)) (sha1_process_n lecfg (cx 1 0) sh_b1) = Some (1%Z, 3%nat, 28%nat) /\
  option_map (fun r => (c_found (fst (fst r)), snd (fst r), snd r)) (sha1_process_n lecfg (cx 1 0) (repeat x61 64)) = Some (0%Z, 1%nat, 32%nat).
Proof.
  split; [exact cdec_decides|]. split; [repeat split; vm_compute; reflexivity|]. split; [reflexivity|].
  repeat split; vm_compute; reflexivity.
Qed.
