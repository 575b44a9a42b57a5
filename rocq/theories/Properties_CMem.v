(** Memory accesses of the C code. *)

From Coq Require Import Arith NArith ZArith String List Strings.Byte Bool.
From Verif Require Import Word Spec_C Spec_Build Model_Go Gen_CSteps Model_C Model_CApi Model_CBuild Model_CMem Spec_CMem CMem.
Import ListNotations.
Local Open Scope N_scope.

(** C64: the buffer of a context is where a uint32_t may be, for every target. *)
Theorem C64_buffer : forall t, abi_ok t -> offset_of t "buffer"%string = 28 /\ 28 + 64 <= ctx_size t.
Proof. exact buffer_offset. Qed.
Print Assumptions C64_buffer.

(** Every list of calls in a memory: the digests, the verdicts and the rest of the memory are right if no block that
    SHA1DCUpdate reads where the caller put it is at a wrong address; without SHA1DC_ALLOW_UNALIGNED_ACCESS always. *)
Theorem C64_memory : forall t cfg A P D m c os, abi_ok t -> A mod a32 t = 0 -> host_be cfg = macro_be cfg -> apart A (ctx_size t) P 64 ->
  cdecides D -> ctx_typed c -> mload m P 64 = sha1_padding -> Forall (separate_call A (ctx_size t) P) os ->
  unaligned cfg = false \/ ~ straddles (a32 t) 0 os ->
  match u_run D m ch_init os with (mu, rs) =>
    exists m' c', m_run t cfg A P m c (MSet CInit :: os) = Some (m', c', None :: rs) /\
      forall x, x < A \/ A + ctx_size t <= x -> m' x = mu x end.
Proof. exact memory_right. Qed.
Print Assumptions C64_memory.

(** Undefined behaviour exactly when there is such a block. *)
Theorem C64_undefined_iff : forall t cfg A P, abi_ok t -> A mod a32 t = 0 -> host_be cfg = macro_be cfg -> apart A (ctx_size t) P 64 ->
  forall m c os, ctx_typed c -> mload m P 64 = sha1_padding -> Forall (separate_call A (ctx_size t) P) os ->
  (m_run t cfg A P m c (MSet CInit :: os) = None <-> unaligned cfg = true /\ straddles (a32 t) 0 os).
Proof. exact memory_undefined. Qed.
Print Assumptions C64_undefined_iff.

(** A build for x86 without SHA1DC_FORCE_ALIGNED_ACCESS, one call with one block. *)
Theorem C64_x86 : forall mac be t A P m c b x, abi_ok t -> A mod a32 t = 0 -> apart A (ctx_size t) P 64 -> ctx_typed c -> mload m P 64 = sha1_padding ->
  host_be (build mac be) = macro_be (build mac be) ->
  In x x86_macros -> mac x <> None -> mac "SHA1DC_FORCE_ALIGNED_ACCESS"%string = None -> apart A (ctx_size t) b 64 ->
  (m_run t (build mac be) A P m c [MSet CInit; MUpdate b 64] = None <-> b mod a32 t <> 0).
Proof. exact memory_x86. Qed.
Print Assumptions C64_x86.
