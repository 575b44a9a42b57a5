(** C73: what the branches and indices of the generic Go code reveal. *)

From Coq Require Import Arith NArith List Strings.Byte Bool.
From Verif Require Import Word Spec_Sha1 Spec_DV Model_Go Model_Leak Spec_Leak Leak LeakTrace.
Import ListNotations.
Local Open Scope N_scope.

(** The instrumented session computes what the session does, and no session panics. *)
Theorem C73_erase : forall d os, hasher d -> exists r, snd (l_session l_blockGeneric d os) = Some r /\ session blockGeneric d os = Some r.
Proof. exact leak_erase. Qed.
Print Assumptions C73_erase.

(** As long as no collision is reported, two sessions with the same calls and the same lengths take the same branches and touch the
    same indices if and only if, block by block, CalculateDvMask takes the same path and returns the same mask. *)
Theorem C73_exact : forall d d' os os' r r', hasher d -> hasher d' -> dlen d = dlen d' -> dcol d = dcol d' -> same_calls os os' ->
  session blockGeneric d os = Some r -> session blockGeneric d' os' = Some r' -> quiet r -> quiet r' ->
  (fst (l_session l_blockGeneric d os) = fst (l_session l_blockGeneric d' os') <-> map leaked (fed (buffered d) (dlen d) os) = map leaked (fed (buffered d') (dlen d') os')).
Proof. exact leak_exact. Qed.
Print Assumptions C73_exact.

(** The chaining value, which depends on everything hashed before, is not revealed. *)
Theorem C73_chaining : forall d h h' os r r', let e := mkd h (dx d) (dnx d) (dlen d) (dcol d) in let e' := mkd h' (dx d) (dnx d) (dlen d) (dcol d) in
  hasher e -> hasher e' -> session blockGeneric e os = Some r -> session blockGeneric e' os = Some r' -> quiet r -> quiet r' -> fst (l_session l_blockGeneric e os) = fst (l_session l_blockGeneric e' os).
Proof. exact leak_chaining. Qed.
Print Assumptions C73_chaining.

(** The verdicts are always revealed. *)
Theorem C73_verdicts : forall d d' os os' r r', hasher d -> hasher d' -> dlen d = dlen d' -> dcol d = dcol d' -> same_calls os os' ->
  session blockGeneric d os = Some r -> session blockGeneric d' os' = Some r' -> fst (l_session l_blockGeneric d os) = fst (l_session l_blockGeneric d' os') -> dcol (fst r) = dcol (fst r') /\ map snd (snd r) = map snd (snd r').
Proof. exact leak_verdicts. Qed.
Print Assumptions C73_verdicts.

(** So are, for every block, the disturbance vectors whose conditions it meets. *)
Theorem C73_conditions : forall d d' os os' r r', hasher d -> hasher d' -> dlen d = dlen d' -> dcol d = dcol d' -> same_calls os os' ->
  session blockGeneric d os = Some r -> session blockGeneric d' os' = Some r' -> quiet r -> quiet r' -> fst (l_session l_blockGeneric d os) = fst (l_session l_blockGeneric d' os') ->
  Forall2 (fun b b' => forall v, (v < 32)%nat -> (ubc_holds v (schedule (words_of b)) <-> ubc_holds v (schedule (words_of b'))))
    (fed (buffered d) (dlen d) os) (fed (buffered d') (dlen d') os').
Proof. exact leak_conditions. Qed.
Print Assumptions C73_conditions.

(** The code is not constant-time: two messages of 64 bytes without a collision take different paths. *)
Theorem C73_message_refuted : exists p p' r r', length p = length p' /\ session blockGeneric New [LWrite p] = Some r /\ session blockGeneric New [LWrite p'] = Some r' /\ quiet r /\ quiet r' /\
  fst (l_session l_blockGeneric New [LWrite p]) <> fst (l_session l_blockGeneric New [LWrite p']).
Proof. exact leak_message. Qed.
Print Assumptions C73_message_refuted.

(** Once a collision is reported in one of the runs the chaining value does matter. *)
Theorem C73_collision_refuted : exists d h h' os r r', let e := mkd h (dx d) (dnx d) (dlen d) (dcol d) in let e' := mkd h' (dx d) (dnx d) (dlen d) (dcol d) in
  hasher e /\ hasher e' /\ session blockGeneric e os = Some r /\ session blockGeneric e' os = Some r' /\ quiet r' /\ fst (l_session l_blockGeneric e os) <> fst (l_session l_blockGeneric e' os).
Proof. exact leak_collision. Qed.
Print Assumptions C73_collision_refuted.

(** All indices are within the arrays, whether or not a collision is found. *)
Theorem C73_bounds : forall d p, wfst (dh d) -> Forall (in_bounds (length p)) (fst (l_blockGeneric d p)).
Proof. exact leak_bounds. Qed.
Print Assumptions C73_bounds.

(** The whole blocks of the input are read from the first byte to the last, an unflagged block once and a flagged one three times. *)
Theorem C73_reads : forall d p, wfst (dh d) -> input_reads (fst (l_blockGeneric d p)) = reads_of 0 (flags d (blocks p)).
Proof. exact leak_reads. Qed.
Print Assumptions C73_reads.
