(** Properties of the assembly routines (properties.jsonl), stated about the model.

    Reading guide: [amd64_prog] and [arm64_prog] are the instruction listings, run on the machines of [Model_Amd64] and
    [Model_Arm64].  An [env] ([aenv]) is everything about the machine that the caller does not fix: addresses, all
    registers, flags, the rest of memory.  [layout_ok]: the memory ranges of the arguments, the frame and the constants are
    disjoint and do not wrap around.  [block_amd64 e], [block_arm64 e]: the Go function block of these builds, with
    environment [e k] at the k-th call of the routine. *)

From Coq Require Import Arith NArith List Strings.Byte Bool.
From Verif Require Import Word Spec_Sha1 Spec_Api Model_Go Model_Asm Model_Amd64 Gen_Amd64 Model_Arm64 Gen_Arm64 Model_Trace Model_Api Model_Block GoArm64 GoAsm AsmTrace.
Import ListNotations.
Local Open Scope N_scope.

Theorem C20_amd64_same_as_generic : forall e d p, (forall k, layout_ok (e_lay (e k))) -> wfst (dh d) ->
  exists d', block_amd64 e d p = Some d' /\ blockGeneric d p = Some d'.
Proof. exact amd64_block_same. Qed.
Print Assumptions C20_amd64_same_as_generic.

(** The states that the routine stores, after rectification, are those before steps 0, 58 and 65 ... *)
Theorem C26_amd64_states : forall e h p m1 cs, layout_ok (e_lay e) -> wfst h -> length p = 64%nat -> length m1 = 80%nat ->
  exists cs', call_amd64 amd64_prog upper_mask shuffle_mask e h p m1 cs = Some (compress h (words_of p), schedule (words_of p), cs') /\
    rectify (schedule (words_of p)) cs' = mkcs h (state_at 58 h (words_of p)) (state_at 65 h (words_of p)).
Proof. exact amd64_states. Qed.
Print Assumptions C26_amd64_states.

Theorem C26_arm64_states : forall e h p m1 cs, layout_ok (ae_lay e) -> ae_g e 16%nat mod M64 + 64 < M64 ->
  wfst h -> length p = 64%nat -> length m1 = 80%nat ->
  exists cs', call_arm64 arm64_prog sha1Ks e h p m1 cs = Some (compress h (words_of p), schedule (words_of p), cs') /\
    rectify (schedule (words_of p)) cs' = mkcs h (state_at 58 h (words_of p)) (state_at 65 h (words_of p)).
Proof. exact arm64_states. Qed.
Print Assumptions C26_arm64_states.

(** ... as in the generic code, which stores them directly. *)
Theorem C26_generic_states : forall h p w m1 cs, wfst h -> length p = 64%nat -> length w = 16%nat -> length m1 = 80%nat ->
  pm (g_pass p h w m1 cs) = schedule (words_of p) /\
  pcs (g_pass p h w m1 cs) = mkcs h (state_at 58 h (words_of p)) (state_at 65 h (words_of p)).
Proof. exact generic_states. Qed.
Print Assumptions C26_generic_states.

(** The same calls with any choice of implementation per call ([Arm64] includes that R16 + 64 does not wrap around). *)
Theorem C31_any_implementation_partial : forall early p q, calls p = calls q -> run_program early p = run_program early q.
Proof. exact run_program_same. Qed.
Print Assumptions C31_any_implementation_partial.

(** C35 is false: with R16 = 2^64 - 1 at entry the block is silently skipped. *)
Theorem C35_arm64_uninitialised_refuted :
  exists e d p d1 d2, layout_ok (ae_lay (e 0%nat)) /\ (forall k, e k = e 0%nat) /\ wfst (dh d) /\ length p = 64%nat /\
    block_arm64 e d p = Some d1 /\ blockGeneric d p = Some d2 /\ dh d1 <> dh d2.
Proof. exact arm64_skips. Qed.
Print Assumptions C35_arm64_uninitialised_refuted.

(** In general: the routine leaves h alone whenever R16 + 64 wraps around. *)
Theorem C35_arm64_skip : forall e, layout_ok (ae_lay e) -> forall h p m1 cs, wfst h -> length p = 64%nat -> length m1 = 80%nat ->
  M64 <= ae_g e 16%nat mod M64 + 64 -> exists m1' cs', call_arm64 arm64_prog sha1Ks e h p m1 cs = Some (h, m1', cs').
Proof. exact call_arm64_skip. Qed.
Print Assumptions C35_arm64_skip.

(** C35 for all contents of R16 that do not wrap around.  Full statement: without the condition on R16. *)
Theorem C35_arm64_same_as_generic_partial : forall e d p,
  (forall k, layout_ok (ae_lay (e k)) /\ ae_g (e k) 16%nat mod M64 + 64 < M64) -> wfst (dh d) ->
  exists d', block_arm64 e d p = Some d' /\ blockGeneric d p = Some d'.
Proof. exact arm64_block_same. Qed.
Print Assumptions C35_arm64_same_as_generic_partial.

(** [exec] is None at the first access that leaves the ranges of the layout, writes a read-only one, or is an unaligned
    operand of an instruction that needs alignment. *)
Theorem C36_amd64_memory_safe : forall e h p m1 cs, layout_ok (e_lay e) -> wfst h -> length p = 64%nat -> length m1 = 80%nat ->
  let s0 := entry upper_mask shuffle_mask e h p m1 cs in
  exists s, Model_Amd64.exec (e_lay e) amd64_prog 1000 s0 = Some s /\
    forall a, (forall r, In r (regions (e_lay e)) -> rwrite r = true -> a < rbase r \/ rbase r + rsize r <= a) -> mm s a = mm s0 a.
Proof. exact amd64_safe. Qed.
Print Assumptions C36_amd64_memory_safe.

(** For any content of R16. *)
Theorem C36_arm64_memory_safe : forall e h p m1 cs, layout_ok (ae_lay e) -> wfst h -> length p = 64%nat -> length m1 = 80%nat ->
  let s0 := aentry sha1Ks e h p m1 cs in
  exists s, xexec (ae_lay e) arm64_prog 1000 s0 = Some s /\
    forall a, (forall r, In r (regions (ae_lay e)) -> rwrite r = true -> a < rbase r \/ rbase r + rsize r <= a) -> xm s a = xm s0 a.
Proof. exact arm64_safe. Qed.
Print Assumptions C36_arm64_memory_safe.

(** The stack pointer and the vector registers from X11 on (X15 holds zero in Go code) are as at entry. *)
Theorem C54_amd64_registers : forall e h p m1 cs fuel s,
  let s0 := entry upper_mask shuffle_mask e h p m1 cs in
  Model_Amd64.exec (e_lay e) amd64_prog fuel s0 = Some s ->
  gr s SP = l_frame (e_lay e) /\ (forall x, (11 <= x)%nat -> xr s x = e_xr e x).
Proof. exact amd64_keeps. Qed.
Print Assumptions C54_amd64_registers.

(** So are R18 (platform register), R23 to R31 (among them g = R28, frame pointer R29, link register R30) and the vector
    registers V8 to V15 and from V21 on. *)
Theorem C54_arm64_registers : forall e h p m1 cs fuel s, xexec (ae_lay e) arm64_prog fuel (aentry sha1Ks e h p m1 cs) = Some s ->
  (forall r, (r = 18 \/ 23 <= r)%nat -> xg s r = ae_g e r mod M64) /\ (forall x, (8 <= x <= 15 \/ 21 <= x)%nat -> xv s x = ae_v e x).
Proof. exact arm64_keeps. Qed.
Print Assumptions C54_arm64_registers.

(** The executed instructions and the accessed addresses are the same for all chaining values, blocks and old contents of m1 and cs. *)
Theorem C55_amd64_trace : forall e h p m1 cs h' p' m1' cs', layout_ok (e_lay e) ->
  length p = 64%nat -> length m1 = 80%nat -> length p' = 64%nat -> length m1' = 80%nat ->
  forall fuel, trace (e_lay e) amd64_prog fuel (entry upper_mask shuffle_mask e h p m1 cs) =
               trace (e_lay e) amd64_prog fuel (entry upper_mask shuffle_mask e h' p' m1' cs').
Proof. exact amd64_trace. Qed.
Print Assumptions C55_amd64_trace.

Theorem C55_arm64_trace : forall e h p m1 cs h' p' m1' cs', layout_ok (ae_lay e) ->
  length p = 64%nat -> length m1 = 80%nat -> length p' = 64%nat -> length m1' = 80%nat ->
  forall fuel, xtrace (ae_lay e) arm64_prog fuel (aentry sha1Ks e h p m1 cs) =
               xtrace (ae_lay e) arm64_prog fuel (aentry sha1Ks e h' p' m1' cs').
Proof. exact arm64_trace. Qed.
Print Assumptions C55_arm64_trace.

(** The accesses listed in a trace are all there are: the registers after an instruction depend on no other memory, and no
    other memory changes. *)
Theorem C55_amd64_accesses : forall L i s m' s1, step_instr L i s = Some s1 -> (forall x, covered (touched L i s) x -> m' x = mm s x) ->
  (exists s2, step_instr L i (with_mem m' s) = Some s2 /\ pc s2 = pc s1 /\ gr s2 = gr s1 /\ xr s2 = xr s1 /\ zf s2 = zf s1) /\
  (forall x, ~ covered (touched L i s) x -> mm s1 x = mm s x).
Proof. exact accesses_complete. Qed.
Print Assumptions C55_amd64_accesses.

Theorem C55_arm64_accesses : forall L i s m' s1, xstep L i s = Some s1 -> (forall x, covered (xtouched L i s) x -> m' x = xm s x) ->
  (exists s2, xstep L i (xwith_mem m' s) = Some s2 /\ xpc s2 = xpc s1 /\ xg s2 = xg s1 /\ xv s2 = xv s1 /\ xls s2 = xls s1) /\
  (forall x, ~ covered (xtouched L i s) x -> xm s1 x = xm s x).
Proof. exact xaccesses_complete. Qed.
Print Assumptions C55_arm64_accesses.
