(** Properties of the C library and of package cgo (properties.jsonl), stated about the model.

    Reading guide: [cfg] is the byte order of the machine, the byte order the preprocessor chose and whether unaligned
    blocks are read in place; the premise [host_be cfg = macro_be cfg] is the subject of C44.  [c_run cfg [] os]: a history of calls on
    cgo hashers, as for the Go package; [None] would be a panic or undefined behaviour in C.  [capi_run cfg c os]: a history of calls of
    the C API on one SHA1_CTX with arbitrary initial contents.  [flagged o h M], [cc_sum D o m], [ch_run]: the
    specification of the C library under options [o] ([Spec_C]).  [attacked]: the bit conditions of a vector hold and the sibling
    test fires ([Spec_DV]).  [decides]/[cdecides]: computes that predicate; such procedures exist
    (C39_detection_decidable, C38_detection_decidable). *)

From Coq Require Import Arith NArith ZArith String List Strings.Byte Bool.
From Verif Require Import Word Spec_Sha1 Spec_DV Spec_Cd Spec_Api Spec_C Model_Go Model_Api Model_Block Model_CSteps Model_C Model_CBuild Model_CApi
  CSteps CProcess CCtx CGo CProps GoProps.
Import ListNotations.
Local Open Scope N_scope.

(** C21; missing: messages one of whose blocks satisfies the bit conditions of a vector with test step 58 and
    on which the two sibling tests differ (Go tests a rotated state there, C40). *)
Theorem C21_agree_partial : forall cfg early D p os k k' i i' inp m, host_be cfg = macro_be cfg ->
  decides D attacked -> scoped 0 (calls p) -> scoped 0 os -> Forall cgo_call os ->
  nth_error (calls p) k = Some (OCRSum i inp) -> written i (firstn k (calls p)) = Some m ->
  nth_error os k' = Some (OCRSum i' inp) -> written i' (firstn k' os) = Some m ->
  (forall j b, nth_error (blocks (pad m)) j = Some b ->
     let h := fst (cd_blocks D (IV, false) (firstn j (blocks (pad m)))) in attacked h (words_of b) <-> go_detects h (words_of b)) ->
  exists ds rs ds' rs' r, run_program early p = Some (ds, rs) /\ c_run cfg [] os = Some (ds', rs') /\
    nth_error rs k = Some r /\ nth_error rs' k' = Some r.
Proof. exact go_cgo_agree. Qed.
Print Assumptions C21_agree_partial.

(** The premise of C21_agree_partial as a condition on the message alone. *)
Theorem C21_no_58_partial : forall cfg early p os k k' i i' inp m, host_be cfg = macro_be cfg ->
  scoped 0 (calls p) -> scoped 0 os -> Forall cgo_call os ->
  nth_error (calls p) k = Some (OCRSum i inp) -> written i (firstn k (calls p)) = Some m ->
  nth_error os k' = Some (OCRSum i' inp) -> written i' (firstn k' os) = Some m ->
  (forall b d, In b (blocks (pad m)) -> (d < 32)%nat -> test_step (the_dv d) = 58%nat -> ~ ubc_holds d (schedule (words_of b))) ->
  exists ds rs ds' rs' r, run_program early p = Some (ds, rs) /\ c_run cfg [] os = Some (ds', rs') /\
    nth_error rs k = Some r /\ nth_error rs' k' = Some r.
Proof. exact go_cgo_no_58. Qed.
Print Assumptions C21_no_58_partial.

Theorem C30_digest_and_verdict : forall cfg, host_be cfg = macro_be cfg -> forall D os k i inp m,
  decides D attacked -> scoped 0 os -> Forall cgo_call os ->
  nth_error os k = Some (OCRSum i inp) -> written i (firstn k os) = Some m ->
  exists ds rs, c_run cfg [] os = Some (ds, rs) /\
    nth_error rs k = Some (RVerdict (inp ++ fst (cd_sum D m)) (snd (cd_sum D m))).
Proof. exact cgo_crsum_exact. Qed.
Print Assumptions C30_digest_and_verdict.

Theorem C30_sum : forall cfg, host_be cfg = macro_be cfg -> forall D os k i inp m,
  decides D attacked -> scoped 0 os -> Forall cgo_call os ->
  nth_error os k = Some (OSum i inp) -> written i (firstn k os) = Some m ->
  exists ds rs, c_run cfg [] os = Some (ds, rs) /\ nth_error rs k = Some (RBytes (inp ++ fst (cd_sum D m))).
Proof. exact cgo_sum_exact. Qed.
Print Assumptions C30_sum.

Theorem C30_oneshot : forall cfg, host_be cfg = macro_be cfg -> forall D os k m,
  decides D attacked -> scoped 0 os -> Forall cgo_call os -> nth_error os k = Some (OSumPkg m) ->
  exists ds rs, c_run cfg [] os = Some (ds, rs) /\ nth_error rs k = Some (RVerdict (fst (cd_sum D m)) (snd (cd_sum D m))).
Proof. exact cgo_oneshot_exact. Qed.
Print Assumptions C30_oneshot.

(** No panic, no undefined behaviour in C, and the sizes of all results. *)
Theorem C30_total : forall cfg, host_be cfg = macro_be cfg -> forall os, scoped 0 os -> Forall cgo_call os ->
  exists ds rs, c_run cfg [] os = Some (ds, rs) /\ length rs = length os /\
    forall k o, nth_error os k = Some o -> exists r, nth_error rs k = Some r /\
      match o with
      | OWrite _ w => r = RNum (length w)
      | OSize _ => r = RNum 20
      | OBlockSize _ => r = RNum 64
      | OSum _ inp => exists b, r = RBytes b /\ length b = (length inp + 20)%nat /\ firstn (length inp) b = inp
      | OCRSum _ inp => exists b v, r = RVerdict b v /\ length b = (length inp + 20)%nat /\ firstn (length inp) b = inp
      | OSumPkg _ => exists b v, r = RVerdict b v /\ length b = 20%nat
      | _ => True
      end.
Proof. exact cgo_total. Qed.
Print Assumptions C30_total.

Theorem C30_observers_pure : forall cfg, host_be cfg = macro_be cfg -> forall os, scoped 0 os -> Forall cgo_call os ->
  exists ds rs, c_run cfg [] os = Some (ds, rs) /\
    c_run cfg [] (filter (fun o => negb (observer o)) os) =
    Some (ds, map snd (filter (fun x => negb (observer (fst x))) (combine os rs))).
Proof. exact cgo_observers_pure. Qed.
Print Assumptions C30_observers_pure.

Theorem C30_reset_is_new : forall cfg, host_be cfg = macro_be cfg -> forall p q i,
  scoped 0 (p ++ OReset i :: q) -> Forall cgo_call (p ++ OReset i :: q) ->
  exists ds ds' rs1 rs2, c_run cfg [] (p ++ OReset i :: q) = Some (ds, rs1 ++ RUnit :: rs2) /\
    length rs1 = length p /\ c_run cfg [] (solo i q) = Some (ds', RNew 0 :: pick i q rs2).
Proof. exact cgo_reset_is_new. Qed.
Print Assumptions C30_reset_is_new.

Theorem C30_independent : forall cfg, host_be cfg = macro_be cfg -> forall os i,
  scoped 0 os -> Forall cgo_call os -> (i < created os)%nat ->
  exists ds rs ds', c_run cfg [] os = Some (ds, rs) /\ c_run cfg [] (solo i os) = Some (ds', RNew 0 :: pick i os rs).
Proof. exact cgo_independent. Qed.
Print Assumptions C30_independent.

(** The first pass over a block followed by a recompression. *)
Theorem C37_recompression_inverts : forall cfg h block W0 sts0, host_be cfg = macro_be cfg ->
  wfst h -> length block = 64%nat -> length W0 = 80%nat -> length sts0 = 80%nat ->
  exists sts, sha1_compression_states cfg h block W0 sts0 = (compress h (words_of block), schedule (words_of block), sts) /\
    forall T, (T = 58 \/ T = 65)%nat ->
      sha1_recompression_step T (schedule (words_of block)) (nth T sts st0) = Some (h, compress h (words_of block)).
Proof. exact recompression_inverts. Qed.
Print Assumptions C37_recompression_inverts.

(** A recompression from any state with any 80 words; the states saved before step 58 have their words rotated, and
    the routine is defined only for the two test steps. *)
Theorem C37_recompression_any : forall T W s, length W = 80%nat -> wfst s ->
  match sha1_recompression_step T W s with
  | Some (hin, hout) => (T = 58 \/ T = 65)%nat /\ wfst hin /\
      steps 0 (firstn T W) hin = (if (T =? 58)%nat then mkst (sc s) (sd s) (se s) (sa s) (sb s) else s) /\
      hout = addst hin (steps 0 W hin)
  | None => (T <> 58 /\ T <> 65)%nat
  end.
Proof. exact recompression_any. Qed.
Print Assumptions C37_recompression_any.

(** Initialise, set options, hash a message in pieces, finish. *)
Theorem C38_session : forall cfg D c sets ws, host_be cfg = macro_be cfg -> cdecides D -> ctx_typed c ->
  Forall (fun c => setter c = true) sets ->
  exists c', capi_run cfg c (session sets ws) = Some (c', repeat CNone (1 + length sets + length ws) ++
    [CDigest (fst (cc_sum D (opts_of sets) (concat ws))) (if snd (cc_sum D (opts_of sets) (concat ws)) then 1 else 0)%Z]).
Proof. exact session_ok. Qed.
Print Assumptions C38_session.

Theorem C38_detection_decidable : exists D, cdecides D.
Proof. exact flagged_decidable. Qed.
Print Assumptions C38_detection_decidable.

Theorem C38_detection_off : forall cfg c sets ws, host_be cfg = macro_be cfg -> ctx_typed c ->
  Forall (fun c => setter c = true) sets -> o_detect (opts_of sets) = false ->
  exists c', capi_run cfg c (session sets ws) =
    Some (c', repeat CNone (1 + length sets + length ws) ++ [CDigest (sha1 (concat ws)) 0%Z]).
Proof. exact detection_off. Qed.
Print Assumptions C38_detection_off.

Theorem C38_safe_hash_off : forall cfg c sets ws, host_be cfg = macro_be cfg -> ctx_typed c ->
  Forall (fun c => setter c = true) sets -> o_safe (opts_of sets) = false ->
  exists c' v, capi_run cfg c (session sets ws) =
    Some (c', repeat CNone (1 + length sets + length ws) ++ [CDigest (sha1 (concat ws)) v]) /\ (v = 0 \/ v = 1)%Z /\
    (v = 1%Z <-> exists k b, nth_error (blocks (pad (concat ws))) k = Some b /\
       flagged (opts_of sets) (sha1_blocks IV (firstn k (blocks (pad (concat ws))))) (words_of b)).
Proof. exact safe_off. Qed.
Print Assumptions C38_safe_hash_off.

(** Switching detection on, the filter off, reduced rounds on, or safe hash either way, never loses a verdict. *)
Theorem C38_monotone : forall cfg cfg' c c0 sets sets' ws ws', host_be cfg = macro_be cfg -> host_be cfg' = macro_be cfg' ->
  ctx_typed c -> ctx_typed c0 -> Forall (fun c => setter c = true) sets -> Forall (fun c => setter c = true) sets' ->
  concat ws = concat ws' -> weaker (opts_of sets) (opts_of sets') ->
  exists c1 c2 r r' b b' v v', capi_run cfg c (session sets ws) = Some (c1, r ++ [CDigest b v]) /\
    capi_run cfg' c0 (session sets' ws') = Some (c2, r' ++ [CDigest b' v']) /\ (v <> 0 -> v' <> 0)%Z.
Proof. exact options_monotone. Qed.
Print Assumptions C38_monotone.

Theorem C39_verdict_iff : forall cfg, host_be cfg = macro_be cfg -> forall D os k i inp m,
  decides D attacked -> scoped 0 os -> Forall cgo_call os ->
  nth_error os k = Some (OCRSum i inp) -> written i (firstn k os) = Some m ->
  exists ds rs b v, c_run cfg [] os = Some (ds, rs) /\ nth_error rs k = Some (RVerdict b v) /\
    (v = true <-> exists j b, nth_error (blocks (pad m)) j = Some b /\
      attacked (fst (cd_blocks D (IV, false) (firstn j (blocks (pad m))))) (words_of b)).
Proof. exact cgo_verdict_iff. Qed.
Print Assumptions C39_verdict_iff.

Theorem C39_unflagged_is_sha1 : forall cfg, host_be cfg = macro_be cfg -> forall os k i inp m b,
  scoped 0 os -> Forall cgo_call os ->
  nth_error os k = Some (OCRSum i inp) -> written i (firstn k os) = Some m ->
  forall ds rs, c_run cfg [] os = Some (ds, rs) -> nth_error rs k = Some (RVerdict b false) -> b = inp ++ sha1 m.
Proof. exact cgo_unflagged. Qed.
Print Assumptions C39_unflagged_is_sha1.

Theorem C39_detection_decidable : exists D, decides D attacked.
Proof. exact attacked_decidable. Qed.
Print Assumptions C39_detection_decidable.

Theorem C41_c_api : forall cfg D c ops, host_be cfg = macro_be cfg -> cdecides D -> ctx_typed c ->
  exists c', capi_run cfg c (CInit :: ops) = Some (c', CNone :: snd (ch_run D ch_init ops)).
Proof. exact capi_refines. Qed.
Print Assumptions C41_c_api.

(** For every vector, including those with test step 58. *)
Theorem C42_both_members : forall cfg cfg' c c0 d b, host_be cfg = macro_be cfg -> host_be cfg' = macro_be cfg' ->
  ctx_typed c -> ctx_typed c0 -> wfst (c_ihv c) -> truth (c_detect c) = true -> truth (c_detect c0) = true ->
  length b = 64%nat -> attacked_by d (c_ihv c) (words_of b) ->
  exists h' b', wfst h' /\ length b' = 64%nat /\ b' <> b /\ words_of b' = sib_block (the_dv d) (words_of b) /\
    compress h' (words_of b') = compress (c_ihv c) (words_of b) /\
    (exists c', sha1_process cfg c b = Some c' /\ c_found c' = 1%Z) /\
    (c_ihv c0 = h' -> exists c', sha1_process cfg' c0 b' = Some c' /\ c_found c' = 1%Z).
Proof. exact c_both_detected. Qed.
Print Assumptions C42_both_members.

Theorem C43_callback_inert : forall cfg c ops, host_be cfg = macro_be cfg -> ctx_typed c ->
  exists c1 c2 rs, capi_run cfg c (CInit :: ops) = Some (c1, CNone :: rs) /\
    capi_run cfg c (CInit :: filter not_callback ops) =
      Some (c2, CNone :: map snd (filter (fun x => not_callback (fst x)) (combine ops rs))).
Proof. exact capi_callback. Qed.
Print Assumptions C43_callback_inert.

(** A compiler that defines the two macros and tells the truth with them, whatever else is defined. *)
Theorem C44_byte_order : forall m be, isdef m "__BYTE_ORDER__" = true -> isdef m "__ORDER_BIG_ENDIAN__" = true ->
  (m "__BYTE_ORDER__"%string = m "__ORDER_BIG_ENDIAN__"%string <-> be = true) ->
  isdef m "SHA1DC_FORCE_LITTLEENDIAN" = false -> isdef m "SHA1DC_FORCE_BIGENDIAN" = false ->
  host_be (build m be) = macro_be (build m be).
Proof. exact gcc_order. Qed.
Print Assumptions C44_byte_order.

(** Package cgo without cgo, on any of the block implementations. *)
Theorem C45_fallback_sum : forall D m data, decides D go_detects -> fallback_Sum (block_of m) data = Some (cd_sum D data).
Proof. exact fallback_exact. Qed.
Print Assumptions C45_fallback_sum.

(** A hasher made by New behaves as a fresh hasher of package sha1cd in every history. *)
Theorem C45_fallback_new : forall early D p, decides D go_detects -> scoped 1 (calls p) ->
  exists ds hs rs, run early [fallback_New] (map (fun x => (block_of (fst x), snd x)) p) = Some (ds, rs) /\
    a_run early D [a_new] (calls p) = Some (hs, rs).
Proof. exact fallback_New_exact. Qed.
Print Assumptions C45_fallback_new.

(** CalculateDvMask of package cgo, with and without cgo. *)
Theorem C22_package_cgo : forall W d, (d < 32)%nat ->
  (N.testbit (cgo_CalculateDvMask W) (N.of_nat d) = true <-> ubc_holds d W) /\
  (N.testbit (fallback_CalculateDvMask (Some W)) (N.of_nat d) = true <-> ubc_holds d W) /\
  cgo_CalculateDvMask W = fallback_CalculateDvMask (Some W).
Proof. exact cgo_masks. Qed.
Print Assumptions C22_package_cgo.
