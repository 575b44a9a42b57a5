(** C74: what the branches and addresses of the assembly builds reveal. *)

From Coq Require Import Arith NArith List Strings.Byte Bool.
From Verif Require Import Word Spec_Sha1 Model_Go Model_Asm Model_Amd64 Model_Arm64 Spec_Api Model_Api Model_Block Model_Leak Spec_Leak Model_LeakAsm LeakAsm.
Import ListNotations.
Local Open Scope N_scope.

(** The instrumented block functions compute what the block functions do. *)
Theorem C74_amd64_erase : forall e d p, snd (l_block_amd64 e d p) = block_amd64 e d p.
Proof. exact leak_amd64_erase. Qed.
Print Assumptions C74_amd64_erase.

Theorem C74_arm64_erase : forall e d p, snd (l_block_arm64 e d p) = block_arm64 e d p.
Proof. exact leak_arm64_erase. Qed.
Print Assumptions C74_arm64_erase.

(** Two runs on the same machine, at the same addresses: the verdict is revealed, and as long as it is negative the branches, the
    indices, the instructions and their addresses are the same if and only if CalculateDvMask takes the same path to the same mask in every block. *)
Theorem C74_amd64 : forall e d d' p p' r r', (forall k, layout_ok (e_lay (e k))) -> wfst (dh d) -> wfst (dh d') -> dcol d = dcol d' -> length p = length p' ->
  block_amd64 e d p = Some r -> block_amd64 e d' p' = Some r' ->
  (fst (l_block_amd64 e d p) = fst (l_block_amd64 e d' p') -> dcol r = dcol r') /\
  (dcol r = false -> dcol r' = false -> (fst (l_block_amd64 e d p) = fst (l_block_amd64 e d' p') <-> map leaked (blocks p) = map leaked (blocks p'))).
Proof. exact leak_amd64. Qed.
Print Assumptions C74_amd64.

Theorem C74_arm64 : forall e d d' p p' r r', (forall k, layout_ok (ae_lay (e k)) /\ ae_g (e k) 16%nat mod M64 + 64 < M64) ->
  wfst (dh d) -> wfst (dh d') -> dcol d = dcol d' -> length p = length p' ->
  block_arm64 e d p = Some r -> block_arm64 e d' p' = Some r' ->
  (fst (l_block_arm64 e d p) = fst (l_block_arm64 e d' p') -> dcol r = dcol r') /\
  (dcol r = false -> dcol r' = false -> (fst (l_block_arm64 e d p) = fst (l_block_arm64 e d' p') <-> map leaked (blocks p) = map leaked (blocks p'))).
Proof. exact leak_arm64. Qed.
Print Assumptions C74_arm64.

(** So the assembly builds reveal neither more nor less than the generic code. *)
Theorem C74_generic : forall d d' p p' r r', wfst (dh d) -> wfst (dh d') -> dcol d = dcol d' -> length p = length p' ->
  blockGeneric d p = Some r -> blockGeneric d' p' = Some r' -> dcol r = false -> dcol r' = false ->
  (fst (l_blockGeneric d p) = fst (l_blockGeneric d' p') <-> map leaked (blocks p) = map leaked (blocks p')).
Proof. exact leak_generic. Qed.
Print Assumptions C74_generic.

(** Whole sessions of Write and CollisionResistantSum: every build computes the same results. *)
Theorem C74_session_erase : forall ea er d os, (forall k, layout_ok (e_lay (ea k))) -> (forall k, layout_ok (ae_lay (er k)) /\ ae_g (er k) 16%nat mod M64 + 64 < M64) -> hasher d ->
  exists r, session blockGeneric d os = Some r /\ session (block_amd64 ea) d os = Some r /\ session (block_arm64 er) d os = Some r /\
    snd (l_session (l_block_amd64 ea) d os) = Some r /\ snd (l_session (l_block_arm64 er) d os) = Some r.
Proof. exact leak_session_erase. Qed.
Print Assumptions C74_session_erase.

Theorem C74_amd64_session : forall e d d' os os' r r', (forall k, layout_ok (e_lay (e k))) -> hasher d -> hasher d' -> dlen d = dlen d' -> dcol d = dcol d' -> same_calls os os' ->
  session (block_amd64 e) d os = Some r -> session (block_amd64 e) d' os' = Some r' ->
  (fst (l_session (l_block_amd64 e) d os) = fst (l_session (l_block_amd64 e) d' os') -> dcol (fst r) = dcol (fst r') /\ map snd (snd r) = map snd (snd r')) /\
  (quiet r -> quiet r' -> (fst (l_session (l_block_amd64 e) d os) = fst (l_session (l_block_amd64 e) d' os') <->
    map leaked (fed (buffered d) (dlen d) os) = map leaked (fed (buffered d') (dlen d') os'))).
Proof. exact leak_amd64_session. Qed.
Print Assumptions C74_amd64_session.

Theorem C74_arm64_session : forall e d d' os os' r r', (forall k, layout_ok (ae_lay (e k)) /\ ae_g (e k) 16%nat mod M64 + 64 < M64) ->
  hasher d -> hasher d' -> dlen d = dlen d' -> dcol d = dcol d' -> same_calls os os' ->
  session (block_arm64 e) d os = Some r -> session (block_arm64 e) d' os' = Some r' ->
  (fst (l_session (l_block_arm64 e) d os) = fst (l_session (l_block_arm64 e) d' os') -> dcol (fst r) = dcol (fst r') /\ map snd (snd r) = map snd (snd r')) /\
  (quiet r -> quiet r' -> (fst (l_session (l_block_arm64 e) d os) = fst (l_session (l_block_arm64 e) d' os') <->
    map leaked (fed (buffered d) (dlen d) os) = map leaked (fed (buffered d') (dlen d') os'))).
Proof. exact leak_arm64_session. Qed.
Print Assumptions C74_arm64_session.

(** While the verdicts are negative, each assembly build tells apart the pairs of sessions that the generic build does, and no others. *)
Theorem C74_builds : forall ea er d d' os os' r r', (forall k, layout_ok (e_lay (ea k))) -> (forall k, layout_ok (ae_lay (er k)) /\ ae_g (er k) 16%nat mod M64 + 64 < M64) ->
  hasher d -> hasher d' -> dlen d = dlen d' -> dcol d = dcol d' -> same_calls os os' ->
  session blockGeneric d os = Some r -> session blockGeneric d' os' = Some r' -> quiet r -> quiet r' ->
  (fst (l_session (l_block_amd64 ea) d os) = fst (l_session (l_block_amd64 ea) d' os') <-> fst (l_session l_blockGeneric d os) = fst (l_session l_blockGeneric d' os')) /\
  (fst (l_session (l_block_arm64 er) d os) = fst (l_session (l_block_arm64 er) d' os') <-> fst (l_session l_blockGeneric d os) = fst (l_session l_blockGeneric d' os')).
Proof. exact leak_builds. Qed.
Print Assumptions C74_builds.

(** The record of a call of block does not depend on the flag of the hasher: it tells whether this call found a collision, not whether an earlier one did. *)
Theorem C74_flag : forall d p c, fst (l_blockGeneric (mkd (dh d) (dx d) (dnx d) (dlen d) c) p) = fst (l_blockGeneric d p) /\
  (forall e, fst (l_block_amd64 e (mkd (dh d) (dx d) (dnx d) (dlen d) c) p) = fst (l_block_amd64 e d p)) /\
  (forall e, fst (l_block_arm64 e (mkd (dh d) (dx d) (dnx d) (dlen d) c) p) = fst (l_block_arm64 e d p)).
Proof. exact leak_flag. Qed.
Print Assumptions C74_flag.
