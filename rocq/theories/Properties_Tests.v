(** Properties of the repository's own tests (properties.jsonl), stated about [Model_Tests]: what passing means, for all tables of vectors.

    Reading guide: [run_test early cfg ms 0 [] [] t] runs test [t] from the start; [early] chooses the evaluation order in Sum, [ms] the
    implementation of each call of package sha1cd, [cfg] the compilation of the C code; [None] is a panic or undefined behaviour.
    [decides D go_detects] and [decides E attacked]: D and E are the detections of the Go and of the C code; [cd_sum] is digest and
    verdict; [printed b s]: s is b in hexadecimal. *)

From Coq Require Import Arith NArith List Strings.Byte.
From Verif Require Import Word Spec_Sha1 Spec_DV Spec_Cd Spec_Api Model_Block Model_C Model_Tests Spec_Tests Tests.
Import ListNotations.

(** Every client of both packages, also one whose calls depend on earlier results, runs to its end, and no choice of implementations and of
    the compilation of the C code changes what it reports. *)
Theorem C68_adaptive : forall early cfg ms t, host_be cfg = macro_be cfg -> fits 0 0 t ->
  exists b, run_test early cfg ms 0 [] [] t = Some b /\
    forall cfg' ms', host_be cfg' = macro_be cfg' -> run_test early cfg' ms' 0 [] [] t = Some b.
Proof. exact adaptive. Qed.
Print Assumptions C68_adaptive.

(** The formatting of digests in the tests loses nothing. *)
Theorem C68_hex : forall b s, (hex b = s <-> printed b s) /\ forall b', hex b = hex b' -> b = b'.
Proof. exact hex_exact. Qed.
Print Assumptions C68_hex.

(** TestGolden passes exactly if each entry is the digest of package sha1cd; where no block is flagged it is that of SHA-1. *)
Theorem C68_golden : forall early cfg ms D golden, host_be cfg = macro_be cfg -> decides D go_detects ->
  exists b, run_test early cfg ms 0 [] [] (TestGolden golden) = Some b /\
    (b = true <-> forall out inp, In (out, inp) golden -> printed (fst (cd_sum D inp)) out).
Proof. exact golden_passes. Qed.
Print Assumptions C68_golden.

Theorem C68_golden_sha1 : forall early cfg ms D golden out inp, host_be cfg = macro_be cfg -> decides D go_detects ->
  run_test early cfg ms 0 [] [] (TestGolden golden) = Some true -> In (out, inp) golden -> snd (cd_sum D inp) = false ->
  printed (sha1 inp) out.
Proof. exact golden_sha1. Qed.
Print Assumptions C68_golden_sha1.

(** TestGoldenMarshal passes exactly if each halfState is the checkpoint after the first half: its comparison of sums never fails. *)
Theorem C68_marshal : forall early cfg ms D golden, host_be cfg = macro_be cfg -> decides D go_detects ->
  exists b, run_test early cfg ms 0 [] [] (TestGoldenMarshal golden) = Some b /\
    (b = true <-> forall inp half, In (inp, half) golden -> half = checkpoint_after D (firstn (length inp / 2) inp)).
Proof. exact marshal_passes. Qed.
Print Assumptions C68_marshal.

Theorem C68_large : forall early cfg ms D tests, host_be cfg = macro_be cfg -> decides D go_detects ->
  exists b, run_test early cfg ms 0 [] [] (TestLargeHashes tests) = Some b /\
    (b = true <-> forall state sum, In (state, sum) tests ->
       accepted state = true /\ printed (st_bytes (fst (resumed D state false []))) sum).
Proof. exact large_passes. Qed.
Print Assumptions C68_large.

(** TestCollisionDetection also passes only if Go and C agree on its files. *)
Theorem C68_detection : forall early cfg ms D E tests, host_be cfg = macro_be cfg -> decides D go_detects -> decides E attacked ->
  exists b, run_test early cfg ms 0 [] [] (TestCollisionDetection tests) = Some b /\
    (b = true <-> forall data wantHash wantCollision, In (data, (wantHash, wantCollision)) tests ->
       printed (fst (cd_sum D data)) wantHash /\ snd (cd_sum D data) = wantCollision /\ cd_sum E data = cd_sum D data).
Proof. exact detection_passes. Qed.
Print Assumptions C68_detection.

(** The fuzz target fails exactly on an input for which Go and C differ, whatever inputs the process has tried before; no input does whose
    blocks all fail the bit conditions of the vectors with test step 58. *)
Theorem C68_fuzz : forall early cfg ms D E inputs, host_be cfg = macro_be cfg -> decides D go_detects -> decides E attacked ->
  exists b, run_test early cfg ms 0 [] [] (FuzzDeviationDetection inputs) = Some b /\
    (b = true <-> forall m, In m inputs -> cd_sum D m = cd_sum E m).
Proof. exact fuzz_passes. Qed.
Print Assumptions C68_fuzz.

Theorem C68_fuzz_no_58 : forall early cfg ms inputs, host_be cfg = macro_be cfg ->
  (forall m b d, In m inputs -> In b (blocks (pad m)) -> (d < 32)%nat -> test_step (the_dv d) = 58%nat -> ~ ubc_holds d (schedule (words_of b))) ->
  run_test early cfg ms 0 [] [] (FuzzDeviationDetection inputs) = Some true.
Proof. exact fuzz_no_58. Qed.
Print Assumptions C68_fuzz_no_58.

(** The remaining ones pass, TestCalculateDvMask_Shattered1 for any table of expanded messages. *)
Theorem C68_fixed : forall early cfg ms m1s, host_be cfg = macro_be cfg ->
  run_test early cfg ms 0 [] [] TestSize = Some true /\ run_test early cfg ms 0 [] [] TestBlockSize = Some true /\ TestCalculateDvMask m1s = true.
Proof. exact fixed_passes. Qed.
Print Assumptions C68_fixed.
