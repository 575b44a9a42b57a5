(** Properties of the repository's benchmarks and of its test of allocations (properties.jsonl), stated about [Model_Bench].

    Reading guide: [slice_of H v]: v is a slice of an array of heap H; [contents H v] are its bytes; [length H] is the number of arrays
    that have been allocated; [brand_new h]: h is what New returned; [detection D E h]: the detection of its package. *)

From Coq Require Import Arith NArith List Strings.Byte.
From Verif Require Import Word Spec_Sha1 Spec_DV Spec_Cd Spec_Api Spec_C Model_Go Model_Block Model_Slice Model_C Model_Bench Spec_Bench Bench BenchRefute.
Import ListNotations.

(** BenchmarkHashWithCollision replaces the first 20 bytes of the file's content by a digest in each iteration, so that each iteration hashes
    what the one before left, also across the three hashers.  Nothing is allocated and no other array changes. *)
Theorem C69_content : forall cfg, host_be cfg = macro_be cfg -> forall D E, decides D go_detects -> decides E attacked ->
  forall grow runs H v, Forall (fun x => brand_new (fst x)) runs -> slice_of H v -> 20 <= s_len v ->
  exists H', BenchmarkHashWithCollision cfg grow H runs v = Some H' /\ length H' = length H /\
    contents H' v = fold_left (fun m x => Nat.iter (snd x) (overwritten (detection D E (fst x))) m) runs (contents H v) /\
    (forall a, a <> s_arr v -> nth a H' [] = nth a H []).
Proof. exact content_bench. Qed.
Print Assumptions C69_content.

(** The intent, that every iteration hashes a message with a collision, fails in the second iteration on sha-mbles-1.bin. *)
Theorem C69_collision_refuted : exists data, length data = 640 /\
  forall cfg grow D m H v, host_be cfg = macro_be cfg -> decides D go_detects -> slice_of H v -> contents H v = data ->
  snd (cd_sum D data) = true /\
  exists H', BenchmarkHashWithCollision cfg grow H [(BGo m New, 1)] v = Some H' /\ snd (cd_sum D (contents H' v)) = false.
Proof. exact collision_gone. Qed.
Print Assumptions C69_collision_refuted.

(** benchmarkSize has its own destination: every iteration hashes the same bytes, nothing is allocated. *)
Theorem C69_size : forall cfg, host_be cfg = macro_be cfg -> forall D E, decides D go_detects -> decides E attacked ->
  forall grow n H h v w, brand_new h -> slice_of H v -> slice_of H w -> s_arr v <> s_arr w -> 20 <= s_cap w ->
  exists H' h', b_loop cfg grow n H h v w = Some (H', h') /\ length H' = length H /\ contents H' v = contents H v /\
    (n <> 0 -> contents H' (mksl (s_arr w) (s_off w) 20 (s_cap w)) = fst (cd_sum (detection D E h) (contents H v))).
Proof. exact size_new. Qed.
Print Assumptions C69_size.

(** testAllocations: Reset, Write and Sum(out[:0]) allocate no array as long as out has capacity 20, and out stays in its array. *)
Theorem C69_allocations : forall cfg, host_be cfg = macro_be cfg -> forall D E, decides D go_detects -> decides E attacked ->
  forall grow n H h v w, brand_new h -> slice_of H v -> slice_of H w -> s_arr v <> s_arr w -> 20 <= s_cap w ->
  exists H' r, alloc_loop cfg grow n H h v w = Some (H', r) /\ length H' = length H /\ contents H' v = contents H v /\
    s_arr r = s_arr w /\ s_off r = s_off w /\ s_cap r = s_cap w /\
    (n <> 0 -> contents H' r = fst (cd_sum (detection D E h) (contents H v))).
Proof. exact alloc_new. Qed.
Print Assumptions C69_allocations.

(** With less capacity each iteration on the same slice allocates one array. *)
Theorem C69_too_small : forall cfg, host_be cfg = macro_be cfg -> forall grow n H h v w, brand_new h -> s_cap w < 20 ->
  exists H' h', b_loop cfg grow n H h v w = Some (H', h') /\ length H' = length H + n.
Proof. exact small_new. Qed.
Print Assumptions C69_too_small.
