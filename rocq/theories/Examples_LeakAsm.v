(** C74: instances and tests. *)

From Coq Require Import Arith NArith List Strings.Byte Bool.
From Verif Require Import Word Spec_Sha1 Model_Go Model_Asm Model_Amd64 Model_Arm64 Spec_Api Model_Api Model_Block GoAsm GoTable Model_Leak Spec_Leak Leak Model_LeakAsm LeakAsm
  Examples_Vectors Examples_Leak.
Import ListNotations.
Local Open Scope N_scope.

(** Two blocks with different digests and the same trace on both machines. *)
Example ex_amd64 : (forall k : nat, layout_ok (e_lay ((fun _ => amd0) k))) /\ wfst (dh New) /\ length lk_a = length lk_b /\
  option_map dcol (block_amd64 (fun _ => amd0) New lk_a) = Some false /\ map leaked (blocks lk_a) = map leaked (blocks lk_b).
Proof. split; [intros; exact lay0_ok|]. split; [repeat split|]. split; [reflexivity|]. split; vm_compute; reflexivity. Qed.
Example ex_arm64 : (forall k : nat, layout_ok (ae_lay ((fun _ => arm0 42) k)) /\ ae_g (arm0 42) 16%nat mod M64 + 64 < M64) /\
  option_map dcol (block_arm64 (fun _ => arm0 42) New lk_a) = Some false.
Proof. split; [intros; split; [exact lay0_ok|reflexivity]|]. vm_compute. reflexivity. Qed.

(** Tests: equal traces, different messages, different chaining values, a collision; the number of instructions executed in a block. *)
Definition same_ev (a b : list ev) : bool := if list_eq_dec ev_eq a b then true else false.
Definition amd_trace (d : digest) (p : list byte) : list ev := fst (l_block_amd64 (fun _ => amd0) d p).
Definition arm_trace (d : digest) (p : list byte) : list ev := fst (l_block_arm64 (fun _ => arm0 42) d p).
Definition asm_runs (t : list ev) : list nat := flat_map (fun e => match e with EAsm l => [length l] | _ => [] end) t.
Definition C74_test : unit := ltac:(passed (
  same_ev (amd_trace New lk_a) (amd_trace New lk_b) && same_ev (arm_trace New lk_a) (arm_trace New lk_b) &&
  same_ev (amd_trace tb_d lk_a) (amd_trace New lk_b) && same_ev (arm_trace tb_d lk_a) (arm_trace New lk_b) &&
  negb (same_ev (amd_trace New lk_a) (amd_trace New lk_z)) && negb (same_ev (arm_trace New lk_a) (arm_trace New lk_z)) &&
  negb (same_ev (amd_trace New tb_b) (amd_trace tb_d tb_b)) && negb (same_ev (arm_trace New tb_b) (arm_trace tb_d tb_b)) &&
  (length (asm_runs (amd_trace New (lk_a ++ lk_b))) =? 2)%nat && (length (asm_runs (amd_trace tb_d tb_b)) =? 3)%nat &&
  (length (asm_runs (arm_trace New (lk_a ++ lk_b))) =? 2)%nat && (length (asm_runs (arm_trace tb_d tb_b)) =? 3)%nat &&
  forallb (fun n => (100 <? n)%nat) (asm_runs (amd_trace tb_d tb_b) ++ asm_runs (arm_trace tb_d tb_b)))%bool).

(** Sessions: the calls of C73, on both machines; a flag that was raised before is not seen. *)
Example ex_sessions : hasher New /\ same_calls (calls lk_a) (calls lk_b) /\ session blockGeneric New (calls lk_a) = Some ex_ra /\ session blockGeneric New (calls lk_b) = Some ex_rb /\
  quiet ex_ra /\ quiet ex_rb /\ fst (l_session (l_block_amd64 (fun _ => amd0)) New (calls lk_a)) = fst (l_session (l_block_amd64 (fun _ => amd0)) New (calls lk_b)).
Proof.
  assert (SC : same_calls (calls lk_a) (calls lk_b)) by (repeat (constructor; [reflexivity|]); constructor).
  assert (Q : quiet ex_ra /\ quiet ex_rb) by (repeat split; repeat (constructor; [reflexivity|]); constructor). destruct Q as [Q1 Q2].
  split; [exact hasher_New|]. split; [exact SC|]. split; [exact ex_a|]. split; [exact ex_b|]. split; [exact Q1|]. split; [exact Q2|].
  assert (La : forall k : nat, layout_ok (e_lay ((fun _ => amd0) k))) by (intros; exact lay0_ok).
  assert (Lr : forall k : nat, layout_ok (ae_lay ((fun _ => arm0 42) k)) /\ ae_g ((fun _ => arm0 42) k) 16%nat mod M64 + 64 < M64) by (intros; split; [exact lay0_ok|reflexivity]).
  exact (proj2 (proj1 (leak_builds (fun _ => amd0) (fun _ => arm0 42) New New (calls lk_a) (calls lk_b) ex_ra ex_rb La Lr hasher_New hasher_New eq_refl eq_refl SC ex_a ex_b Q1 Q2)) ex_trace).
Qed.
Definition amd_session (d : digest) (os : list lop) : list ev := fst (l_session (l_block_amd64 (fun _ => amd0)) d os).
Definition arm_session (d : digest) (os : list lop) : list ev := fst (l_session (l_block_arm64 (fun _ => arm0 42)) d os).
Definition C74_sessions_test : unit := ltac:(passed (
  same_ev (amd_session New (calls lk_a)) (amd_session New (calls lk_b)) && same_ev (arm_session New (calls lk_a)) (arm_session New (calls lk_b)) &&
  negb (same_ev (amd_session New (calls lk_a)) (amd_session New (calls lk_z))) && negb (same_ev (arm_session New (calls lk_a)) (arm_session New (calls lk_z))) &&
  negb (same_ev (amd_session New [LWrite tb_b]) (amd_session tb_d [LWrite tb_b])) &&
  same_ev (amd_trace (flagged true New) lk_a) (amd_trace New lk_a) && same_ev (arm_trace (flagged true New) lk_a) (arm_trace New lk_a))%bool).
