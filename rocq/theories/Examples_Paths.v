(** For each theorem of Properties_Paths a concrete case that meets its hypotheses (tests, not proofs). *)

From Coq Require Import Arith NArith String List Strings.Byte Bool Lia.
From Verif Require Import Word Spec_Sha1 Spec_Asm Model_Go Model_Asm Model_Amd64 Gen_Amd64 Model_Arm64 Gen_Arm64 Model_Trace Model_Api
  Model_Block Model_Build Model_Cpu GoAmd64 GoArm64 GoAsm BuildFacts Data_Shambles Examples_Go Examples_Build Properties_Paths.
Import ListNotations.
Local Open Scope N_scope.

Definition s_amd : mach := entry upper_mask shuffle_mask amd0 sh_h1 sh_b1 (repeat 7 80) (mkcs sh_h1 sh_h1 sh_h1).
Definition s_arm : amach := aentry sha1Ks (arm0 42) sh_h1 sh_b1 (repeat 7 80) (mkcs sh_h1 sh_h1 sh_h1).
(** After n instructions. *)
Fixpoint after (n : nat) (s : mach) : option mach :=
  match n with
  | O => Some s
  | S n => do s <- after n s; do i <- nth_error amd64_prog (pc s); step_instr lay0 i s
  end.
Fixpoint xafter (n : nat) (s : amach) : option amach :=
  match n with
  | O => Some s
  | S n => do s <- xafter n s; do i <- nth_error arm64_prog (xpc s); xstep lay0 i s
  end.
Lemma after_reached n : forall s t, after n s = Some t -> reached lay0 amd64_prog s t.
Proof.
  induction n as [|n IH]; intros s t E; [injection E as <-; constructor|]. cbn [after] in E.
  destruct (after n s) as [u|] eqn:U; [|discriminate]. cbn [obind] in E.
  destruct (nth_error amd64_prog (pc u)) as [i|] eqn:I; [|discriminate]. eapply r_step; [apply IH, U|exact I|exact E].
Qed.
Lemma xafter_reached n : forall s t, xafter n s = Some t -> xreached lay0 arm64_prog s t.
Proof.
  induction n as [|n IH]; intros s t E; [injection E as <-; constructor|]. cbn [xafter] in E.
  destruct (xafter n s) as [u|] eqn:U; [|discriminate]. cbn [obind] in E.
  destruct (nth_error arm64_prog (xpc u)) as [i|] eqn:I; [|discriminate]. eapply xr_step; [apply IH, U|exact I|exact E].
Qed.

Lemma after_some {A} (f : mach -> A) n s v : option_map f (after n s) = Some v -> exists t, reached lay0 amd64_prog s t /\ f t = v.
Proof. intros H. destruct (after n s) as [t|] eqn:E; [|discriminate]. injection H as H. exists t. split; [exact (after_reached n s t E)|exact H]. Qed.
Lemma xafter_some {A} (f : amach -> A) n s v : option_map f (xafter n s) = Some v -> exists t, xreached lay0 arm64_prog s t /\ f t = v.
Proof. intros H. destruct (xafter n s) as [t|] eqn:E; [|discriminate]. injection H as H. exists t. split; [exact (xafter_reached n s t E)|exact H]. Qed.

(** C36: the 18th instruction of the amd64 routine stores to the aligned part of an unaligned frame, the last but one to h;
    the arm64 routine comes to its first store to m1. *)
Example C36_accesses_example : layout_ok (e_lay amd0) /\ List.length sh_b1 = 64%nat /\
  (exists t, reached lay0 amd64_prog s_amd t /\ nth_error amd64_prog (pc t) = Some (VMOVDQA_store 5 (mka (BReg AX) 0)) /\
     written lay0 (VMOVDQA_store 5 (mka (BReg AX) 0)) t = [(l_frame lay0 + 8, 16)] /\
     aligned_16 lay0 (VMOVDQA_store 5 (mka (BReg AX) 0)) t = [(l_frame lay0 + 8, 16)]) /\
  (exists t i, reached lay0 amd64_prog s_amd t /\ nth_error amd64_prog (pc t) = Some i /\ written lay0 i t = [(l_h lay0 + 16, 4)]) /\
  (exists t i, xreached lay0 arm64_prog s_arm t /\ nth_error arm64_prog (xpc t) = Some i /\ xwritten lay0 i t = [(l_h lay0, 16)]).
Proof.
  split; [exact lay0_ok|]. split; [reflexivity|]. split; [|split].
  - destruct (after_some (fun t => (pc t, addr lay0 t (mka (BReg AX) 0))) 17 s_amd (17%nat, l_frame lay0 + 8)) as (t & R & E); [vm_compute; reflexivity|].
    pose proof (f_equal fst E) as X1. pose proof (f_equal snd E) as X2. cbn [fst snd] in X1, X2.
    exists t. split; [exact R|]. rewrite X1. split; [reflexivity|]. cbn [written aligned_16]. rewrite X2. split; reflexivity.
  - destruct (after_some (fun t => (pc t, addr lay0 t (mka (BReg DI) 16))) 198 s_amd (198%nat, l_h lay0 + 16)) as (t & R & E); [vm_compute; reflexivity|].
    pose proof (f_equal fst E) as X1. pose proof (f_equal snd E) as X2. cbn [fst snd] in X1, X2.
    eexists t, _. split; [exact R|]. rewrite X1. split; [reflexivity|]. cbn [written]. rewrite X2. reflexivity.
  - destruct (xafter_some (fun t => (xpc t, xg t 0%nat)) 170 s_arm (170%nat, l_h lay0)) as (t & R & E); [vm_compute; reflexivity|].
    pose proof (f_equal fst E) as X1. pose proof (f_equal snd E) as X2. cbn [fst snd] in X1, X2.
    eexists t, _. split; [exact R|]. rewrite X1. split; [reflexivity|]. cbn [xwritten]. rewrite X2. reflexivity.
Qed.
(** A store and an address outside it. *)
Example C36_stores_example : exists s', step_instr lay0 (MOVL_store R12 (mka BFP 0)) s_amd = None /\
  step_instr lay0 (MOVL_store R12 (mka (BReg SP) 0)) s_amd = Some s' /\ ~ covered (written lay0 (MOVL_store R12 (mka (BReg SP) 0)) s_amd) (l_frame lay0 + 4).
Proof.
  assert (X : option_map pc (step_instr lay0 (MOVL_store R12 (mka (BReg SP) 0)) s_amd) = Some 1%nat) by (vm_compute; reflexivity).
  destruct (step_instr lay0 (MOVL_store R12 (mka (BReg SP) 0)) s_amd) as [s'|]; [|discriminate].
  exists s'. split; [vm_compute; reflexivity|]. split; [reflexivity|]. intros (a & n & H & Hx). cbn [written] in H. destruct H as [H|[]].
  assert (Ea : a = l_frame lay0) by (apply (f_equal fst) in H; cbn [fst] in H; rewrite <- H; vm_compute; reflexivity).
  assert (En : n = 4) by (apply (f_equal snd) in H; cbn [snd] in H; congruence). rewrite Ea, En in Hx. lia.
Qed.

(** C55: with R16 at the end of the address space, 16 of the 173 instructions. *)
Example C55_path_example : layout_ok (ae_lay (arm0 (M64 - 64))) /\ wfst sh_h1 /\
  List.length (xtrace lay0 arm64_prog 1000 (aentry sha1Ks (arm0 (M64 - 64)) sh_h1 sh_b1 (repeat 7 80) (mkcs sh_h1 sh_h1 sh_h1))) = 16%nat.
Proof. split; [exact lay0_ok|]. split; [repeat split|]. vm_compute. reflexivity. Qed.

(** C48: goldmont runs the routine; a CPU with the four tested extensions does not; the block function faults on it, but not
    with 63 bytes. *)
Example C48_needs_example : layout_ok (e_lay amd0) /\ wfst sh_h1 /\
  call_amd64_cpu goldmont amd0 sh_h1 sh_b1 (repeat 0 80) (mkcs st0 st0 st0) <> None /\
  call_amd64_cpu no_ssse3 amd0 sh_h1 sh_b1 (repeat 0 80) (mkcs st0 st0 st0) = None /\
  block_on_amd64 no_ssse3 false (fun _ => amd0) New sh_b1 = None /\
  block_on_amd64 no_ssse3 false (fun _ => amd0) New (firstn 63 sh_b1) <> None /\
  call_arm64_cpu m1 (arm0 16) sh_h1 sh_b1 (repeat 0 80) (mkcs st0 st0 st0) <> None.
Proof.
  split; [exact lay0_ok|]. split; [repeat split|]. split; [vm_compute; discriminate|]. split; [vm_compute; reflexivity|].
  split; [vm_compute; reflexivity|]. split; vm_compute; discriminate.
Qed.
