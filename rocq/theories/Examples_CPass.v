(** Examples for C71. *)

From Coq Require Import String Ascii Arith NArith ZArith List Strings.Byte Bool Lia ZifyNat.
From Verif Require Import Word WordFacts Spec_Sha1 Spec_Api Spec_C Spec_Build Model_Go Model_CSteps Gen_CSteps Model_C Model_CApi Model_CBuild Model_CMem Spec_CMem
  Data_Shambles GoRefute CProcess CCtx CProps CGo CMem Spec_CPass CPass Examples_Go Examples_C Examples_Vectors Examples_CMem.
Import ListNotations.
Ltac Zify.zify_post_hook ::= idtac.
Local Open Scope N_scope.

(** A memory with the context at 4 * k, and behind its buffer sha1_padding, 20 bytes for a digest and data. *)
Definition at_ (k : N) : N := 4 * k.
Definition b_of (k : N) : N := buffer_at lp64 (at_ k).
Definition mem_of (k : N) (c : ctx) (p : list byte) : cmem :=
  mstore (mstore (mstore (fun _ => x55) (b_of k + 148) p) (b_of k + 64) sha1_padding) (b_of k) (c_buffer c).
Lemma mem_ctx k c p : List.length (c_buffer c) = 64%nat -> context_at lp64 (at_ k) (mem_of k c p) c = c.
Proof.
  intros L. unfold context_at, mem_of, b_of. rewrite <- L, mload_mstore. destruct c. reflexivity.
Qed.
Lemma mem_pad k c p : List.length (c_buffer c) = 64%nat -> mload (mem_of k c p) (b_of k + 64) 64 = sha1_padding.
Proof.
  intros L. unfold mem_of. transitivity (mload (mstore (mstore (fun _ => x55) (b_of k + 148) p) (b_of k + 64) sha1_padding) (b_of k + 64) 64).
  - apply mload_ext. intros x Hx. apply mstore_outside. rewrite L. lia.
  - change 64%nat with (List.length sha1_padding). apply mload_mstore.
Qed.
Lemma mem_data k c p : List.length (c_buffer c) = 64%nat -> mload (mem_of k c p) (b_of k + 148) (List.length p) = p.
Proof.
  intros L. unfold mem_of. transitivity (mload (mstore (fun _ => x55) (b_of k + 148) p) (b_of k + 148) (List.length p)); [|apply mload_mstore].
  apply mload_ext. intros x Hx. rewrite mstore_outside by (rewrite L; lia). apply mstore_outside. change (N.of_nat (List.length sha1_padding)) with 64. lia.
Qed.
Lemma at_ok k : at_ k mod a32 lp64 = 0.
Proof. unfold at_. rewrite N.mul_comm. apply N.mod_mul. discriminate. Qed.

(** Every list of calls, with the context at any addresses. *)
Lemma anywhere cfg : unaligned cfg = false -> host_be cfg = macro_be cfg -> forall os (place : nat -> N) c a, CR c a -> exists c2 rs, moved lp64 cfg c os c2 rs.
Proof.
  intros U Hcfg. pose proof (proj1 C64_layout) as HT. induction os as [|o os IH]; intros place c a K; [do 2 eexists; constructor|].
  assert (L : List.length (c_buffer c) = 64%nat) by (apply (k_buffer _ _ _ _ (proj1 K))).
  assert (X : match o with CUpdate _ | CFinal => False | _ => True end \/ (exists p, o = CUpdate p) \/ o = CFinal) by (destruct o; eauto).
  destruct X as [X|[[p ->]| ->]].
  - destruct (exec_ok cfg Hcfg c a o K) as (c1 & E & K1). destruct (IH (fun n => place (S n)) c1 _ K1) as (c2 & rs & M).
    do 2 eexists. eapply mv_set; eassumption.
  - destruct (update_ok cfg Hcfg c a p K) as (c1 & E & K1). set (k := place 0%nat). pose proof (mem_ctx k c p L) as S1. pose proof (mem_data k c p L) as D1.
    rewrite <- S1 in E. rewrite <- D1 in E at 2.
    destruct (m_Update_ok lp64 cfg (at_ k) HT (at_ok k) (mem_of k c p) c (b_of k + 148) (List.length p) c1 (or_introl U) ltac:(left; unfold b_of; lia) E) as (x & y & E1 & Q & _).
    destruct (IH (fun n => place (S n)) c1 _ K1) as (c2 & rs & M). do 2 eexists.
    eapply mv_update; [apply (at_ok k)| |exact S1|exact D1|exact E1|]; [left; unfold b_of; lia|]. unfold sync in Q. unfold context_at. rewrite <- Q. exact M.
  - pose proof (final_ok cfg Hcfg c a K) as F. destruct (ch_final cdec a) as [a2 [d f]] eqn:Ef. destruct F as (c1 & F & K1).
    assert (Ld : List.length d = 20%nat).
    { unfold ch_final in Ef. injection Ef as _ <- _. destruct (fst _). reflexivity. }
    set (k := place 0%nat). pose proof (mem_ctx k c [] L) as S1. pose proof (mem_pad k c [] L) as D1. rewrite <- S1 in F.
    destruct (m_Final_ok lp64 cfg (at_ k) HT (at_ok k) (b_of k + 64) (mem_of k c []) c (b_of k + 128) c1 d _ D1 ltac:(left; unfold b_of; lia) F) as (x & y & E1 & Q & _).
    destruct (IH (fun n => place (S n)) c1 _ K1) as (c2 & rs & M). do 2 eexists.
    eapply mv_final; [apply (at_ok k)| | |exact S1|exact D1|exact E1|]; [left; unfold b_of; lia|left; unfold b_of; lia|].
    unfold context_at. rewrite mload_store_apart by (rewrite Ld; left; unfold b_of; lia). unfold sync in Q. rewrite <- Q. exact M.
Qed.
Example C71_moved_example : exists c rs, moved lp64 (build gcc_s390x true) junk [CInit; CUpdate shambles1; CSetSafeHash 0; CUpdate m130; CFinal; CFinal] c rs.
Proof.
  destruct (anywhere (build gcc_s390x true) eq_refl eq_refl [CUpdate shambles1; CSetSafeHash 0; CUpdate m130; CFinal; CFinal] (fun n => 1024 * N.of_nat n)
    (SHA1DCInit junk) _ (init_ok junk ltac:(repeat split; reflexivity))) as (c & rs & M).
  do 2 eexists. eapply mv_set; [exact I|reflexivity|exact M].
Qed.
(** The hypotheses of C71_update and C71_final: a context with three bytes at 4096 and at 8192. *)
Definition c3 : ctx := match SHA1DCUpdate (build gcc_s390x true) (SHA1DCInit junk) (firstn 3 m130) with Some c => c | None => junk end.
Example C71_places : capi_run (build gcc_s390x true) junk [CInit; CUpdate (firstn 3 m130)] = Some (c3, [CNone; CNone]) /\ ctx_typed junk /\
  context_at lp64 4096 (mem_of 1024 c3 []) c3 = c3 /\ context_at lp64 8192 (mem_of 2048 c3 [x61]) c3 = c3 /\ mem_of 1024 c3 [] 8300 <> mem_of 2048 c3 [x61] 8300.
Proof.
  split; [reflexivity|]. split; [repeat split; reflexivity|]. split; [apply (mem_ctx 1024); reflexivity|]. split; [apply (mem_ctx 2048); reflexivity|].
  vm_compute. discriminate.
Qed.
Definition C71_test_update : unit := ltac:(passed (match m_Update lp64 (build gcc_s390x true) 4096 (mem_of 1024 c3 m130) c3 (b_of 1024 + 148) 130,
    m_Update lp64 (build gcc_s390x true) 8192 (mem_of 2048 c3 m130) c3 (b_of 2048 + 148) 130 with
  | Some (m1, c1), Some (m2, c2) => bytes_eqb (c_buffer (context_at lp64 4096 m1 c1)) (c_buffer (context_at lp64 8192 m2 c2)) &&
      st_eqb (c_ihv c1) (c_ihv c2)
  | _, _ => false end)%bool).
