(** Work done per block (properties.jsonl), stated about the model.

    Reading guide: [block_of_n], [sha1_process_n]: the block functions with counters ([Model_Work]); the counters are
    passes over the 80 steps and tests of a disturbance vector.  [detected D h bs]: how many of the blocks are detected;
    [candidates U b]: how many vectors have their bit conditions met by block [b] ([Spec_Work]). *)

From Coq Require Import Arith NArith ZArith List Strings.Byte Bool.
From Verif Require Import Word Spec_Sha1 Spec_DV Spec_Cd Spec_Api Spec_C Spec_Work Model_Go Model_Block Model_C Model_Work MoreWork.
Import ListNotations.
Local Open Scope N_scope.

(** The counters do not change what is computed. *)
Theorem C56_erasure : forall m d p, option_map (fun r => fst (fst r)) (block_of_n m d p) = block_of m d p.
Proof. exact impl_erase. Qed.
Print Assumptions C56_erasure.

Theorem C56_c_erasure : forall cfg c b, option_map (fun r => fst (fst r)) (sha1_process_n cfg c b) = sha1_process cfg c b.
Proof. exact process_erase. Qed.
Print Assumptions C56_c_erasure.

(** One pass per block and two more per detected block; no more tests than candidates, and all of them unless one succeeds. *)
Theorem C56_go_work : forall m D U d p, decides D go_detects -> decides_ubc U -> wfst (dh d) ->
  exists d' q t, block_of_n m d p = Some (d', q, t) /\ block_of m d p = Some d' /\
    q = (length (blocks p) + 2 * detected D (dh d) (blocks p))%nat /\
    (detected D (dh d) (blocks p) <= t <= total (candidates U) (blocks p))%nat /\
    (detected D (dh d) (blocks p) = O -> t = total (candidates U) (blocks p)).
Proof. exact impl_work. Qed.
Print Assumptions C56_go_work.

(** The C library, for the options in the context. *)
Theorem C56_c_work : forall D U cfg c b, cdecides D -> decides_ubc U -> host_be cfg = macro_be cfg -> wfst (c_ihv c) -> length b = 64%nat ->
  length (c_m1 c) = 80%nat -> length (c_states c) = 80%nat ->
  let o := ctx_opts c in let f := D o (c_ihv c) (words_of b) in
  exists c' q t, sha1_process_n cfg c b = Some (c', q, t) /\ sha1_process cfg c b = Some c' /\
    q = (if f && o_safe o then 3 else 1)%nat /\ (t <= c_candidates U o b)%nat /\ (f = false -> t = c_candidates U o b).
Proof. exact c_work. Qed.
Print Assumptions C56_c_work.
