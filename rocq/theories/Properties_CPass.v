(** Passing Go memory to C. *)

From Coq Require Import Arith NArith ZArith List Strings.Byte.
From Verif Require Import Word Spec_Sha1 Spec_Api Spec_C Model_Go Model_C Gen_CSteps Model_CApi Model_CMem Spec_CMem Spec_CPass CPass.
Import ListNotations.
Local Open Scope N_scope.

(** C71: SHA1DCUpdate with the context and the data at two places: the same context afterwards, and no byte outside of the context's buffer
    is written. *)
Theorem C71_update : forall t cfg c0 os c rs A m b A' m' b' n m1 c1 m1' c1',
  abi_ok t -> host_be cfg = macro_be cfg -> ctx_typed c0 -> capi_run cfg c0 (CInit :: os) = Some (c, rs) ->
  A mod a32 t = 0 -> A' mod a32 t = 0 -> apart (buffer_at t A) 64 b (N.of_nat n) -> apart (buffer_at t A') 64 b' (N.of_nat n) ->
  context_at t A m c = c -> context_at t A' m' c = c -> mload m b n = mload m' b' n ->
  m_Update t cfg A m c b n = Some (m1, c1) -> m_Update t cfg A' m' c b' n = Some (m1', c1') ->
  context_at t A m1 c1 = context_at t A' m1' c1' /\ only (buffer_at t A) 64 m m1 /\ only (buffer_at t A') 64 m' m1'.
Proof. exact pass_update. Qed.
Print Assumptions C71_update.

(** SHA1DCFinal at two places: the same verdict, digest and context; only the buffer and the digest's bytes are written. *)
Theorem C71_final : forall t cfg c0 os c rs A m P out A' m' P' out',
  abi_ok t -> host_be cfg = macro_be cfg -> ctx_typed c0 -> capi_run cfg c0 (CInit :: os) = Some (c, rs) ->
  A mod a32 t = 0 -> A' mod a32 t = 0 ->
  apart (buffer_at t A) 64 out 20 -> apart (buffer_at t A') 64 out' 20 -> apart (buffer_at t A) 64 P 64 -> apart (buffer_at t A') 64 P' 64 ->
  context_at t A m c = c -> context_at t A' m' c = c -> mload m P 64 = sha1_padding -> mload m' P' 64 = sha1_padding ->
  exists m1 c1 m1' c1' v,
    m_Final t cfg A P m c out = Some (m1, c1, v) /\ m_Final t cfg A' P' m' c out' = Some (m1', c1', v) /\
    context_at t A m1 c1 = context_at t A' m1' c1' /\ mload m1 out 20 = mload m1' out' 20 /\
    (forall x, x < buffer_at t A \/ buffer_at t A + 64 <= x -> x < out \/ out + 20 <= x -> m1 x = m x) /\
    (forall x, x < buffer_at t A' \/ buffer_at t A' + 64 <= x -> x < out' \/ out' + 20 <= x -> m1' x = m' x).
Proof. exact pass_final. Qed.
Print Assumptions C71_final.

(** Every list of calls, each call with memory and addresses of its own: the results are those of the calls without addresses. *)
Theorem C71_moved : forall t cfg c0 os c rs, abi_ok t -> host_be cfg = macro_be cfg -> ctx_typed c0 -> moved t cfg c0 (CInit :: os) c rs ->
  capi_run cfg c0 (CInit :: os) = Some (c, rs).
Proof. exact moved_right. Qed.
Print Assumptions C71_moved.

(** Every program with package cgo: the one pointer in a context is null, so a context given to C holds no Go pointer and C calls nothing back. *)
Theorem C71_callback : forall cfg os ds rs, c_run cfg [] os = Some (ds, rs) -> forall d, In d ds -> c_callback (g_ctx d) = 0.
Proof. exact pass_pointer. Qed.
Print Assumptions C71_callback.
