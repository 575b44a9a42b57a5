(** Properties of the assembly routines (properties.jsonl), continued: what they access, which instructions they execute, and on
    which CPUs they run.

    Reading guide: [reached L prog s t]: started in machine state s, the routine comes to t.  [touched], [written], [aligned_16]:
    the accesses of one instruction, those of them that store, and those that must be 16-aligned.  [may_load], [may_store]: the
    ranges that belong to the call.  [trace]: the executed instructions, by index, with their accesses.  A [cpu] is a set of
    instruction set extensions. *)

From Coq Require Import Arith NArith String List Strings.Byte Bool.
From Verif Require Import Word Spec_Sha1 Spec_Asm Model_Go Model_Asm Model_Amd64 Gen_Amd64 Model_Arm64 Gen_Arm64 Model_Trace Model_Api
  Model_Block Model_Build Model_Cpu AsmPaths.
Import ListNotations.
Local Open Scope N_scope.

Theorem C36_amd64_accesses : forall e h p m1 cs t i,
  layout_ok (e_lay e) -> wfst h -> List.length p = 64%nat -> List.length m1 = 80%nat ->
  reached (e_lay e) amd64_prog (entry upper_mask shuffle_mask e h p m1 cs) t -> nth_error amd64_prog (pc t) = Some i ->
  (forall a n, In (a, n) (touched (e_lay e) i t) -> lies_in (may_load (e_lay e)) a n) /\
  (forall a n, In (a, n) (written (e_lay e) i t) -> lies_in (may_store (e_lay e)) a n) /\
  (forall a n, In (a, n) (aligned_16 (e_lay e) i t) -> a mod 16 = 0).
Proof. exact amd64_reached. Qed.
Print Assumptions C36_amd64_accesses.

(** For any content of R16. *)
Theorem C36_arm64_accesses : forall e h p m1 cs t i,
  layout_ok (ae_lay e) -> wfst h -> List.length p = 64%nat -> List.length m1 = 80%nat ->
  xreached (ae_lay e) arm64_prog (aentry sha1Ks e h p m1 cs) t -> nth_error arm64_prog (xpc t) = Some i ->
  (forall a n, In (a, n) (xtouched (ae_lay e) i t) -> lies_in (may_load (ae_lay e)) a n) /\
  (forall a n, In (a, n) (xwritten (ae_lay e) i t) -> lies_in (may_store (ae_lay e)) a n).
Proof. exact arm64_reached. Qed.
Print Assumptions C36_arm64_accesses.

(** [written] lists all stores. *)
Theorem C36_amd64_stores : forall L i s s', step_instr L i s = Some s' -> forall x, ~ covered (written L i s) x -> mm s' x = mm s x.
Proof. exact step_written. Qed.
Print Assumptions C36_amd64_stores.

Theorem C36_arm64_stores : forall L i s s', xstep L i s = Some s' -> forall x, ~ covered (xwritten L i s) x -> xm s' x = xm s x.
Proof. exact xstep_written. Qed.
Print Assumptions C36_arm64_stores.

(** On one block, every instruction of the listing is executed once, in order. *)
Theorem C55_amd64_path : forall e h p m1 cs, layout_ok (e_lay e) -> wfst h -> List.length p = 64%nat -> List.length m1 = 80%nat ->
  map fst (trace (e_lay e) amd64_prog 1000 (entry upper_mask shuffle_mask e h p m1 cs)) = seq 0 200.
Proof. exact amd64_path. Qed.
Print Assumptions C55_amd64_path.

(** On arm64 if R16 does not wrap around; otherwise (C35) the rounds are jumped over. *)
Theorem C55_arm64_path : forall e h p m1 cs, layout_ok (ae_lay e) -> wfst h -> List.length p = 64%nat -> List.length m1 = 80%nat ->
  map fst (xtrace (ae_lay e) arm64_prog 1000 (aentry sha1Ks e h p m1 cs)) =
    if M64 <=? ae_g e 16%nat mod M64 + 64 then seq 0 13 ++ seq 170 3 else seq 0 173.
Proof. exact arm64_path. Qed.
Print Assumptions C55_arm64_path.

(** The extensions without which the routine faults are these and no others. *)
Theorem C48_amd64_needs_partial : forall c e h p m1 cs, layout_ok (e_lay e) -> wfst h -> List.length p = 64%nat -> List.length m1 = 80%nat ->
  (call_amd64_cpu c e h p m1 cs <> None <->
   c "AVX"%string = true /\ c "SHA"%string = true /\ c "SSE4"%string = true /\ c "SSSE3"%string = true).
Proof. exact amd64_cpu_iff. Qed.
Print Assumptions C48_amd64_needs_partial.

Theorem C48_arm64_needs_partial : forall c e h p m1 cs, layout_ok (ae_lay e) -> ae_g e 16%nat mod M64 + 64 < M64 ->
  wfst h -> List.length p = 64%nat -> List.length m1 = 80%nat ->
  (call_arm64_cpu c e h p m1 cs <> None <-> c "SHA1"%string = true).
Proof. exact arm64_cpu_iff. Qed.
Print Assumptions C48_arm64_needs_partial.

(** Exactly when block faults: on the CPUs that pass the test of hasSHANI and lack SSSE3, for every input of at least a block. *)
Theorem C48_amd64_faults_partial : forall c force e d p, (forall k, layout_ok (e_lay (e k))) -> wfst (dh d) ->
  (block_on_amd64 c force e d p = None <->
   force = false /\ (64 <= List.length p)%nat /\ c "AVX"%string = true /\ c "SHA"%string = true /\ c "SSE3"%string = true /\ c "SSE4"%string = true /\
   c "SSSE3"%string = false).
Proof. exact amd64_fault_iff. Qed.
Print Assumptions C48_amd64_faults_partial.
