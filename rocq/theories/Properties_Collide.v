(** Collisions of digests reduced to collisions of the compression function (properties.jsonl), stated about the model.

    Reading guide: as in Properties_Go.v and Properties_C.v.  [processed D m h M], [sha1_processed m h M],
    [c_processed D o m h M]: block [M] of the padded message [m] is processed from chaining value [h] ([Spec_Collide]). *)

From Coq Require Import Arith NArith ZArith List Strings.Byte Bool.
From Verif Require Import Word Spec_Sha1 Spec_DV Spec_Cd Spec_Api Spec_C Spec_Collide Model_Api Model_Block Model_C Model_CApi Collide.
Import ListNotations.
Local Open Scope N_scope.

(** Flagged or not: a collision of the digest contains a collision of the block function of counter-cryptanalysis. *)
Theorem C53_collision_is_block_collision : forall early early' D p p' k k' i i' inp inp' m m' x v v' ds ds' rs rs', decides D go_detects ->
  scoped 0 (calls p) -> scoped 0 (calls p') ->
  nth_error (calls p) k = Some (OCRSum i inp) -> nth_error (calls p') k' = Some (OCRSum i' inp') ->
  written i (firstn k (calls p)) = Some m -> written i' (firstn k' (calls p')) = Some m' ->
  in_range m -> in_range m' -> m <> m' ->
  run_program early p = Some (ds, rs) -> run_program early' p' = Some (ds', rs') ->
  nth_error rs k = Some (RVerdict (inp ++ x) v) -> nth_error rs' k' = Some (RVerdict (inp' ++ x) v') ->
  exists h M h' M', processed D m h M /\ processed D m' h' M' /\ (h, M) <> (h', M') /\ cd_block D h M = cd_block D h' M'.
Proof. exact go_collision. Qed.
Print Assumptions C53_collision_is_block_collision.

(** The same read the other way: no block collision, no digest collision. *)
Theorem C53_distinct_digests : forall early early' D p p' k k' i i' inp inp' m m' x x' v v' ds ds' rs rs', decides D go_detects ->
  scoped 0 (calls p) -> scoped 0 (calls p') ->
  nth_error (calls p) k = Some (OCRSum i inp) -> nth_error (calls p') k' = Some (OCRSum i' inp') ->
  written i (firstn k (calls p)) = Some m -> written i' (firstn k' (calls p')) = Some m' ->
  in_range m -> in_range m' -> m <> m' ->
  run_program early p = Some (ds, rs) -> run_program early' p' = Some (ds', rs') ->
  nth_error rs k = Some (RVerdict (inp ++ x) v) -> nth_error rs' k' = Some (RVerdict (inp' ++ x') v') ->
  (forall h M h' M', processed D m h M -> processed D m' h' M' -> cd_block D h M = cd_block D h' M' -> (h, M) = (h', M')) ->
  x <> x'.
Proof. exact go_distinct. Qed.
Print Assumptions C53_distinct_digests.

(** An undetected collision of the Go package is a SHA-1 collision whose colliding blocks are not detected; in particular
    neither is attacked along a vector with test step 65. *)
Theorem C53_undetected_collision : forall early early' p p' k k' i i' inp inp' m m' x ds ds' rs rs',
  scoped 0 (calls p) -> scoped 0 (calls p') ->
  nth_error (calls p) k = Some (OCRSum i inp) -> nth_error (calls p') k' = Some (OCRSum i' inp') ->
  written i (firstn k (calls p)) = Some m -> written i' (firstn k' (calls p')) = Some m' ->
  in_range m -> in_range m' -> m <> m' ->
  run_program early p = Some (ds, rs) -> run_program early' p' = Some (ds', rs') ->
  nth_error rs k = Some (RVerdict (inp ++ x) false) -> nth_error rs' k' = Some (RVerdict (inp' ++ x) false) ->
  sha1 m = sha1 m' /\
  exists h M h' M', sha1_processed m h M /\ sha1_processed m' h' M' /\ (h, M) <> (h', M') /\ compress h M = compress h' M' /\
    (forall d, test_step (the_dv d) = 65%nat -> ~ attacked_by d h M /\ ~ attacked_by d h' M') /\
    ~ go_detects h M /\ ~ go_detects h' M'.
Proof. exact go_undetected. Qed.
Print Assumptions C53_undetected_collision.

(** The C library, any options. *)
Theorem C53_c_collision : forall cfg cfg' D c c' sets ws ws' c1 c1' r r' x v v',
  host_be cfg = macro_be cfg -> host_be cfg' = macro_be cfg' -> cdecides D -> ctx_typed c -> ctx_typed c' ->
  Forall (fun c => setter c = true) sets ->
  capi_run cfg c (session sets ws) = Some (c1, r ++ [CDigest x v]) ->
  capi_run cfg' c' (session sets ws') = Some (c1', r' ++ [CDigest x v']) ->
  in_range (concat ws) -> in_range (concat ws') -> concat ws <> concat ws' ->
  exists h M h' M', c_processed D (opts_of sets) (concat ws) h M /\ c_processed D (opts_of sets) (concat ws') h' M' /\
    (h, M) <> (h', M') /\ c_step D (opts_of sets) h M = c_step D (opts_of sets) h' M'.
Proof. exact c_collision. Qed.
Print Assumptions C53_c_collision.

(** With safe hash off, or with both verdicts 0, it is a collision of the SHA-1 compression function; a message with verdict 0
    contributes a block that is not flagged, whatever the vector. *)
Theorem C53_c_plain_collision : forall cfg cfg' c c' sets ws ws' c1 c1' r r' x v v',
  host_be cfg = macro_be cfg -> host_be cfg' = macro_be cfg' -> ctx_typed c -> ctx_typed c' ->
  Forall (fun c => setter c = true) sets -> (o_safe (opts_of sets) = false \/ (v = 0 /\ v' = 0)%Z) ->
  capi_run cfg c (session sets ws) = Some (c1, r ++ [CDigest x v]) ->
  capi_run cfg' c' (session sets ws') = Some (c1', r' ++ [CDigest x v']) ->
  in_range (concat ws) -> in_range (concat ws') -> concat ws <> concat ws' ->
  exists h M h' M', sha1_processed (concat ws) h M /\ sha1_processed (concat ws') h' M' /\
    (h, M) <> (h', M') /\ compress h M = compress h' M' /\
    (v = 0%Z -> ~ flagged (opts_of sets) h M) /\ (v' = 0%Z -> ~ flagged (opts_of sets) h' M').
Proof. exact c_plain_collision. Qed.
Print Assumptions C53_c_plain_collision.
