(** What the control flow and the addresses of the assembly builds reveal: the Go side with the record of Model_Leak, in which a call of
    the routine is recorded with its instructions and the memory they touch (Model_Trace). *)

From Coq Require Import Arith NArith List Strings.Byte Bool.
From Verif Require Import Word Model_Go Model_Asm Model_Amd64 Model_Arm64 Gen_Amd64 Gen_Arm64 Spec_Api Model_Api Model_Block Model_Trace Model_Leak.
Import ListNotations.
Local Open Scope N_scope.

(** What a call of the routine executes and touches; the arguments are those of [asm_call]. *)
Definition asm_rec := nat -> st -> list byte -> list word -> csarr -> list (nat * list access).
Definition l_call (call : asm_call) (rec : asm_rec) (k : nat) (h : st) (p : list byte) (m1 : list word) (cs : csarr) : lk (st * list word * csarr) :=
  ([EAsm (rec k h p m1 cs)], call k h p m1 cs).

(** /repo/sha1cdblock_generic.go lines 285-312: rectifyCompressionState; the test of cs against nil and the words of m1. *)
Definition l_rectify (m1 : list word) (cs : csarr) : lk csarr :=
  let* _ := test false in
  let* _ := rd AM1 m1 56 0 in
  let* _ := rd AM1 m1 57 0 in
  let* _ := rd AM1 m1 64 0 in
  lret (rectify m1 cs).

(** /repo/sha1cdblock_amd64.go lines 34-51 and sha1cdblock_arm64.go lines 30-47. *)
Fixpoint l_asm_blocks (call : asm_call) (rec : asm_rec) (fuel k : nat) (p : list byte) (h : st) (m1 : list word) (cs : csarr) (col : bool)
    : lk (st * bool) :=
  let* t := test (64 <=? length p)%nat in
  if t then
    match fuel with
    | O => lpanic
    | S fuel =>
      let chunk := firstn 64 p in
      let* r := l_call call rec k h chunk m1 cs in
      let '(h, m1, cs) := r in
      let* cs := l_rectify m1 cs in
      let* c := l_checkCollision m1 cs h in
      let* c := test c in
      if c then
        let* r := l_call call rec (k + 1)%nat h chunk m1 cs in
        let '(h, m1, cs) := r in
        let* r := l_call call rec (k + 2)%nat h chunk m1 cs in
        let '(h, m1, cs) := r in
        l_asm_blocks call rec fuel (k + 3) (skipn 64 p) h m1 cs true
      else l_asm_blocks call rec fuel (k + 1) (skipn 64 p) h m1 cs col
    end
  else lret (h, col).

(** Lines 25-52 and 21-48: the branch is that on forceGeneric and the CPU features. *)
Definition l_asm_block (call : asm_call) (rec : asm_rec) (d : digest) (p : list byte) : lk digest :=
  let* _ := test false in
  let* r := l_asm_blocks call rec (length p) 0 p (dh d) (repeat 0 80) (mkcs st0 st0 st0) (dcol d) in
  lret (mkd (fst r) (dx d) (dnx d) (dlen d) (snd r)).
Definition rec_amd64 (e : nat -> env) : asm_rec :=
  fun k h p m1 cs => trace (e_lay (e k)) amd64_prog 1000 (entry upper_mask shuffle_mask (e k) h p m1 cs).
Definition l_block_amd64 (e : nat -> env) : digest -> list byte -> lk digest :=
  l_asm_block (fun k => call_amd64 amd64_prog upper_mask shuffle_mask (e k)) (rec_amd64 e).
Definition rec_arm64 (e : nat -> aenv) : asm_rec :=
  fun k h p m1 cs => xtrace (ae_lay (e k)) arm64_prog 1000 (aentry sha1Ks (e k) h p m1 cs).
Definition l_block_arm64 (e : nat -> aenv) : digest -> list byte -> lk digest :=
  l_asm_block (fun k => call_arm64 arm64_prog sha1Ks (e k)) (rec_arm64 e).
