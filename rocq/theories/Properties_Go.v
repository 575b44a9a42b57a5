(** Properties of the Go package (properties.jsonl), stated about the model.

    Reading guide: a program is a list of calls on hashers numbered in the order of creation, each
    call with the block implementation it runs on ([Model_Block]); [run_program] gives the final
    structs and the result of each call, or [None] for a panic.  [early] is the evaluation order of
    the return statement of the package-level Sum.  [scoped 0 (calls p)]: the program only uses hashers it has
    created.  [written i os]: the bytes written to hasher [i] since New or Reset, [None] if it was
    restored from a checkpoint.  [sha1], [pad], [blocks], [compress]: FIPS 180-4 ([Spec_Sha1]).  [cd_sum D],
    [cd_blocks D]: SHA-1 with counter-cryptanalysis for detection [D] ([Spec_Cd]).  [decides D go_detects]: [D]
    computes the detection predicate of the code ([Spec_DV]); such a [D] exists (C02_detection_decidable). *)

From Coq Require Import Arith NArith List Strings.Byte Bool.
From Verif Require Import Word Spec_Sha1 Spec_DV Spec_Cd Spec_Api Model_Ubc Gen_UbcGo Gen_UbcC Gen_DvsGo Gen_DvsC
  Model_Go Model_Api Model_Block Model_Slice GoProps GoProps2 GoProps3 GoDetect GoRefute GoSlices DvFacts.
Import ListNotations.
Local Open Scope N_scope.

Theorem C01_unflagged_is_sha1 : forall early p k i inp m b v, scoped 0 (calls p) ->
  nth_error (calls p) k = Some (OCRSum i inp) -> written i (firstn k (calls p)) = Some m ->
  forall ds rs, run_program early p = Some (ds, rs) -> nth_error rs k = Some (RVerdict b v) ->
  v = false -> b = inp ++ sha1 m.
Proof. exact unflagged_is_sha1. Qed.
Print Assumptions C01_unflagged_is_sha1.

Theorem C02_digest_and_verdict : forall early D p k i inp m, decides D go_detects -> scoped 0 (calls p) ->
  nth_error (calls p) k = Some (OCRSum i inp) -> written i (firstn k (calls p)) = Some m ->
  exists ds rs, run_program early p = Some (ds, rs) /\
    nth_error rs k = Some (RVerdict (inp ++ fst (cd_sum D m)) (snd (cd_sum D m))).
Proof. exact crsum_exact. Qed.
Print Assumptions C02_digest_and_verdict.

Theorem C02_sum : forall early D p k i inp m, decides D go_detects -> scoped 0 (calls p) ->
  nth_error (calls p) k = Some (OSum i inp) -> written i (firstn k (calls p)) = Some m ->
  exists ds rs, run_program early p = Some (ds, rs) /\ nth_error rs k = Some (RBytes (inp ++ fst (cd_sum D m))).
Proof. exact sum_exact. Qed.
Print Assumptions C02_sum.

Theorem C02_detection_decidable : exists D, decides D go_detects.
Proof. exact go_detects_decidable. Qed.
Print Assumptions C02_detection_decidable.

Theorem C03_chunking : forall early1 early2 p1 p2 k1 k2 i1 i2 m o1 o2,
  scoped 0 (calls p1) -> scoped 0 (calls p2) ->
  nth_error (calls p1) k1 = Some o1 -> nth_error (calls p2) k2 = Some o2 ->
  ((exists b, o1 = OSum i1 b /\ o2 = OSum i2 b) \/ (exists b, o1 = OCRSum i1 b /\ o2 = OCRSum i2 b) \/
   (o1 = OMarshal i1 /\ o2 = OMarshal i2)) ->
  written i1 (firstn k1 (calls p1)) = Some m -> written i2 (firstn k2 (calls p2)) = Some m ->
  exists ds1 rs1 ds2 rs2 r, run_program early1 p1 = Some (ds1, rs1) /\ run_program early2 p2 = Some (ds2, rs2) /\
    nth_error rs1 k1 = Some r /\ nth_error rs2 k2 = Some r.
Proof. exact same_written. Qed.
Print Assumptions C03_chunking.

(** Removing all observer calls changes no other result and no final state. *)
Theorem C04_observers_pure : forall early p, scoped 0 (calls p) ->
  exists ds rs, run_program early p = Some (ds, rs) /\
    run_program early (filter silent p) =
    Some (ds, map snd (filter (fun x => negb (observer (fst x))) (combine (calls p) rs))).
Proof. exact observers_pure. Qed.
Print Assumptions C04_observers_pure.

(** [alone m0 i q]: the calls of [q] on hasher [i], on a single new hasher. *)
Theorem C05_reset_is_new : forall early m0 m p q i, scoped 0 (calls (p ++ (m, OReset i) :: q)) ->
  exists ds ds' rs1 rs2, run_program early (p ++ (m, OReset i) :: q) = Some (ds, rs1 ++ RUnit :: rs2) /\
    length rs1 = length p /\
    run_program early (alone m0 i q) = Some (ds', RNew 0 :: pick i (calls q) rs2).
Proof. exact reset_is_new. Qed.
Print Assumptions C05_reset_is_new.

Theorem C06_no_panic : forall early p, scoped 0 (calls p) ->
  exists ds rs, run_program early p = Some (ds, rs) /\ length rs = length p /\
    forall k i w, nth_error (calls p) k = Some (OWrite i w) -> nth_error rs k = Some (RNum (length w)).
Proof. exact no_panic. Qed.
Print Assumptions C06_no_panic.

(** Programs with slices ([Model_Slice]): no call panics whose own indices are in range. *)
Theorem C06_no_panic_slices : forall early p s log grow m o, hrun early hinit p = Some (s, log) -> hscoped s o ->
  exists s' r, hexec early grow (block_of m) s o = Some (s', match call_of s o with Some o' => Some (o', r) | None => None end).
Proof. exact slices_no_panic. Qed.
Print Assumptions C06_no_panic_slices.

(** [s]: any state reached by a program with slices; [grow]: capacity chosen by append. *)
Theorem C07_sum_appends : forall early p s log grow m o i v sl, hrun early hinit p = Some (s, log) ->
  (o = HSum i v \/ o = HCRSum i v) -> (i < length (hdigs s))%nat -> nth_error (hvars s) v = Some sl ->
  exists s' x r dig, hexec early grow (block_of m) s o = Some (s', x) /\
    hvars s' = hvars s ++ [r] /\ hdigs s' = hdigs s /\
    exec early (block_of m) (hdigs s) (OSum i []) = Some (hdigs s, RBytes dig) /\ length dig = 20%nat /\
    contents (hheap s') r = contents (hheap s) sl ++ dig /\
    (forall a k, (a < length (hheap s))%nat ->
      ~ (a = s_arr sl /\ s_len sl + 20 <= s_cap sl /\ s_off sl + s_len sl <= k < s_off sl + s_len sl + 20)%nat ->
      nth_error (array (hheap s') a) k = nth_error (array (hheap s) a) k) /\
    (s_cap sl < s_len sl + 20 -> s_arr r >= length (hheap s))%nat.
Proof. exact sum_appends. Qed.
Print Assumptions C07_sum_appends.

(** [c1]: any further calls on the hasher; the same calls are made after restoring the blob [b] in hasher [j] of
    another program [q].  All results agree, except possibly verdicts. *)
Theorem C08_checkpoint_digest : forall early1 early2 p q i j b m1 c1 c2 m2 ds0 rs0,
  scoped 0 (calls p) -> (i < created (calls p))%nat -> scoped 0 (calls q) -> (j < created (calls q))%nat ->
  run_program early1 (p ++ [(m1, OMarshal i)]) = Some (ds0, rs0 ++ [RBytes b]) ->
  on_hasher c1 -> calls c1 = calls c2 ->
  exists ds1 ds2 rs1 rs2 rs3 rs4,
    run_program early1 (p ++ to i c1) = Some (ds1, rs1 ++ rs2) /\ length rs1 = length p /\
    run_program early2 (q ++ (m2, OUnmarshal j b) :: to j c2) = Some (ds2, rs3 ++ RUnit :: rs4) /\ length rs3 = length q /\
    Forall2 same_digest rs2 rs4.
Proof. exact checkpoint_digest. Qed.
Print Assumptions C08_checkpoint_digest.

(** C09 is false: a hasher that has seen a collision loses its verdict in the checkpoint ... *)
Theorem C09_verdict_lost_refuted :
  exists (m b : list byte) (d : list byte) ds1 ds2 ds3,
    run_program false (prog1 [ONew; OWrite 0 m; OMarshal 0]) = Some (ds1, [RNew 0; RNum (length m); RBytes b]) /\
    run_program false (prog1 [ONew; OWrite 0 m; OCRSum 0 []]) = Some (ds2, [RNew 0; RNum (length m); RVerdict d true]) /\
    run_program false (prog1 [ONew; OUnmarshal 0 b; OCRSum 0 []]) = Some (ds3, [RNew 0; RUnit; RVerdict d false]).
Proof. exact checkpoint_loses_verdict. Qed.
Print Assumptions C09_verdict_lost_refuted.

(** ... and a hasher that has seen a collision keeps its verdict when an innocent checkpoint is restored. *)
Theorem C09_verdict_stale_refuted :
  exists (m w b : list byte) (d : list byte) ds1 ds2 ds3,
    run_program false (prog1 [ONew; OWrite 0 m; OMarshal 0]) = Some (ds1, [RNew 0; RNum (length m); RBytes b]) /\
    run_program false (prog1 [ONew; OWrite 0 m; OCRSum 0 []]) = Some (ds2, [RNew 0; RNum (length m); RVerdict d false]) /\
    run_program false (prog1 [ONew; OWrite 0 w; OUnmarshal 0 b; OCRSum 0 []]) =
      Some (ds3, [RNew 0; RNum (length w); RUnit; RVerdict d true]).
Proof. exact checkpoint_keeps_stale_verdict. Qed.
Print Assumptions C09_verdict_stale_refuted.

(** What holds of C09: the verdict is preserved when the source and the destination have the same verdict at the time of
    the checkpoint (in particular when neither has seen a detected block).  Missing: the other cases, refuted above. *)
Theorem C09_verdict_preserved_partial : forall early1 early2 D p q i j b m1 c1 c2 m2 ds0 rs0 m m', decides D go_detects ->
  scoped 0 (calls p) -> (i < created (calls p))%nat -> scoped 0 (calls q) -> (j < created (calls q))%nat ->
  run_program early1 (p ++ [(m1, OMarshal i)]) = Some (ds0, rs0 ++ [RBytes b]) ->
  on_hasher c1 -> calls c1 = calls c2 ->
  written i (calls p) = Some m -> written j (calls q) = Some m' ->
  snd (cd_blocks D (IV, false) (blocks m)) = snd (cd_blocks D (IV, false) (blocks m')) ->
  exists ds1 ds2 rs1 rs2 rs3,
    run_program early1 (p ++ to i c1) = Some (ds1, rs1 ++ rs2) /\ length rs1 = length p /\
    run_program early2 (q ++ (m2, OUnmarshal j b) :: to j c2) = Some (ds2, rs3 ++ RUnit :: rs2) /\ length rs3 = length q.
Proof. exact checkpoint_verdict. Qed.
Print Assumptions C09_verdict_preserved_partial.

Theorem C10_unmarshal_accepts : forall early p k j b, scoped 0 (calls p) -> nth_error (calls p) k = Some (OUnmarshal j b) ->
  exists ds rs r, run_program early p = Some (ds, rs) /\ nth_error rs k = Some r /\
    (r = RUnit <-> length b = 98%nat /\ firstn 6 b = magic) /\
    (r = RBadMagic <-> firstn 6 b <> magic) /\
    (r = RBadSize <-> firstn 6 b = magic /\ length b <> 98%nat).
Proof. exact unmarshal_accepts. Qed.
Print Assumptions C10_unmarshal_accepts.

Theorem C10_error_leaves_hasher : forall early p m j b, scoped 0 (calls (p ++ [(m, OUnmarshal j b)])) -> accepted b = false ->
  exists ds rs r, run_program early p = Some (ds, rs) /\ run_program early (p ++ [(m, OUnmarshal j b)]) = Some (ds, rs ++ [r]).
Proof. exact unmarshal_error_inert. Qed.
Print Assumptions C10_error_leaves_hasher.

Theorem C11_marshal_canonical : forall early D p k i m, decides D go_detects -> scoped 0 (calls p) ->
  nth_error (calls p) k = Some (OMarshal i) -> written i (firstn k (calls p)) = Some m ->
  exists ds rs b, run_program early p = Some (ds, rs) /\ nth_error rs k = Some (RBytes b) /\ length b = 98%nat /\
    let n := (64 * (length m / 64))%nat in
    b = magic ++ st_bytes (fst (cd_blocks D (IV, false) (blocks m))) ++
        (skipn n m ++ zeros (64 - (length m - n))) ++ be64 (N.of_nat (length m) mod M64).
Proof. exact marshal_formula. Qed.
Print Assumptions C11_marshal_canonical.

(** [f]: the verdict before restoring; [resumed D b f m]: hashing [m] from chaining value, buffer and length read from [b]. *)
Theorem C12_hostile_checkpoint : forall early D p j, decides D go_detects -> scoped 0 (calls p) -> (j < created (calls p))%nat ->
  exists f,
    (forall m, written j (calls p) = Some m -> f = snd (cd_blocks D (IV, false) (blocks m))) /\
    forall b ws inp c, accepted b = true -> calls c = OUnmarshal j b :: map (OWrite j) ws ++ [OCRSum j inp; OSum j inp] ->
      exists ds rs,
        run_program early (p ++ c) = Some (ds, rs ++ RUnit :: map (fun w => RNum (length w)) ws ++
          [RVerdict (inp ++ st_bytes (fst (resumed D b false (concat ws)))) (f || snd (resumed D b false (concat ws)));
           RBytes (inp ++ st_bytes (fst (resumed D b false (concat ws))))]) /\ length rs = length p.
Proof. exact hostile. Qed.
Print Assumptions C12_hostile_checkpoint.

Theorem C13_reencode : forall early p j b c, scoped 0 (calls p) -> (j < created (calls p))%nat -> accepted b = true ->
  calls c = [OUnmarshal j b; OMarshal j; OUnmarshal j (canon b); OMarshal j] ->
  exists ds rs, run_program early (p ++ c) = Some (ds, rs ++ [RUnit; RBytes (canon b); RUnit; RBytes (canon b)]) /\ length rs = length p.
Proof. exact reencode. Qed.
Print Assumptions C13_reencode.

Theorem C13_marshal_is_canonical : forall early p k i, scoped 0 (calls p) -> nth_error (calls p) k = Some (OMarshal i) ->
  exists ds rs b, run_program early p = Some (ds, rs) /\ nth_error rs k = Some (RBytes b) /\ accepted b = true /\ canon b = b.
Proof. exact marshal_canon. Qed.
Print Assumptions C13_marshal_is_canonical.

(** C14 for vectors with test step 65 (14 of 32).  Missing: for test step 58 the code's test is wrong (C40), so
    a report through such a vector only gives the relation [siblings_rot]. *)
Theorem C14_reported_real_partial : forall early D p k i inp m, decides D go_detects -> scoped 0 (calls p) ->
  nth_error (calls p) k = Some (OCRSum i inp) -> written i (firstn k (calls p)) = Some m ->
  forall ds rs o, run_program early p = Some (ds, rs) -> nth_error rs k = Some (RVerdict o true) ->
  exists j b d, nth_error (blocks (pad m)) j = Some b /\ (d < 32)%nat /\ ubc_holds d (schedule (words_of b)) /\
    let h := fst (cd_blocks D (IV, false) (firstn j (blocks (pad m)))) in let M := words_of b in let M' := sib_block (the_dv d) M in
    (test_step (the_dv d) = 65%nat -> M' <> M /\ exists h', wfst h' /\ compress h' M' = compress h M /\ state_at 65 h' M' = state_at 65 h M) /\
    (test_step (the_dv d) = 58%nat -> exists h', siblings_rot (the_dv d) h M h').
Proof. exact reported_real. Qed.
Print Assumptions C14_reported_real_partial.

(** C15 for vectors with test step 65.  Missing: test step 58, where attacks are missed (C15_missed_58). *)
Theorem C15_attack_reported_partial : forall early D p k i inp m j b d, decides D go_detects -> scoped 0 (calls p) ->
  nth_error (calls p) k = Some (OCRSum i inp) -> written i (firstn k (calls p)) = Some m ->
  nth_error (blocks (pad m)) j = Some b -> test_step (the_dv d) = 65%nat ->
  attacked_by d (fst (cd_blocks D (IV, false) (firstn j (blocks (pad m))))) (words_of b) ->
  exists ds rs o, run_program early p = Some (ds, rs) /\ nth_error rs k = Some (RVerdict o true).
Proof. exact attacked_reported. Qed.
Print Assumptions C15_attack_reported_partial.

(** The part of C15 that fails: an attack along a vector with test step 58 is found by the test for
    that vector only if the five words of the middle state are all equal. *)
Theorem C15_missed_58 : forall d h M, (d < 32)%nat -> wfst h -> length M = 16%nat -> test_step (the_dv d) = 58%nat ->
  attacked_by d h M -> (go_detects_by d h M <-> all_equal (state_at 58 h M)).
Proof. exact missed_58. Qed.
Print Assumptions C15_missed_58.

(** C16 for vectors with test step 65.  Missing: test step 58. *)
Theorem C16_both_detected_partial : forall m1 m2 d h b x nx len, (d < 32)%nat -> test_step (the_dv d) = 65%nat ->
  wfst h -> length b = 64%nat -> attacked_by d h (words_of b) ->
  exists h' b', wfst h' /\ length b' = 64%nat /\ b' <> b /\
    words_of b' = sib_block (the_dv d) (words_of b) /\ compress h' (words_of b') = compress h (words_of b) /\
    (exists g, block_of m1 (mkd h x nx len false) b = Some (mkd g x nx len true)) /\
    (exists g, block_of m2 (mkd h' x nx len false) b' = Some (mkd g x nx len true)).
Proof. exact both_detected. Qed.
Print Assumptions C16_both_detected_partial.

Theorem C17_sticky : forall early D p q i k inp m, decides D go_detects -> scoped 0 (calls (p ++ q)) -> (i < created (calls p))%nat ->
  written i (calls p) = Some m -> snd (cd_blocks D (IV, false) (blocks m)) = true ->
  Forall (fun o => o <> OReset i) (firstn k (calls q)) -> nth_error (calls q) k = Some (OCRSum i inp) ->
  exists ds rs b, run_program early (p ++ q) = Some (ds, rs) /\ nth_error rs (length p + k) = Some (RVerdict b true).
Proof. exact sticky. Qed.
Print Assumptions C17_sticky.

(** C18 for compilers that evaluate the call d.checkSum() before reading d.col. *)
Theorem C18_oneshot : forall p k data q, scoped 0 (calls p) -> nth_error (calls p) k = Some (OSumPkg data) ->
  calls q = [ONew; OWrite 0 data; OCRSum 0 []] ->
  exists ds rs ds2 b v, run_program false p = Some (ds, rs) /\ nth_error rs k = Some (RVerdict b v) /\
    run_program false q = Some (ds2, [RNew 0; RNum (length data); RVerdict b v]).
Proof. exact oneshot. Qed.
Print Assumptions C18_oneshot.

(** C18 for the other evaluation order, which the Go specification also permits: the digest agrees, and the verdict is
    at most that of streaming (a detection in the last block or two is missed). *)
Theorem C18_oneshot_early_partial : forall p k data q, scoped 0 (calls p) -> nth_error (calls p) k = Some (OSumPkg data) ->
  calls q = [ONew; OWrite 0 data; OCRSum 0 []] ->
  exists ds rs ds2 b v v', run_program true p = Some (ds, rs) /\ nth_error rs k = Some (RVerdict b v) /\
    run_program true q = Some (ds2, [RNew 0; RNum (length data); RVerdict b v']) /\ (v = true -> v' = true).
Proof. exact oneshot_early. Qed.
Print Assumptions C18_oneshot_early_partial.

Theorem C19_three_times : forall early D p j h b len c, decides D go_detects -> scoped 0 (calls p) -> (j < created (calls p))%nat ->
  wfst h -> length b = 64%nat -> len < M64 -> len mod 64 = 0 ->
  calls c = [OUnmarshal j (blob_of h (zeros 64) len); OWrite j b; OMarshal j] ->
  let M := words_of b in
  exists ds rs, run_program early (p ++ c) = Some (ds, rs ++ [RUnit; RNum 64;
      RBytes (blob_of (if D h M then compress (compress (compress h M) M) M else compress h M) (zeros 64) ((len + 64) mod M64))]) /\
    length rs = length p.
Proof. exact thrice. Qed.
Print Assumptions C19_three_times.

Theorem C22_mask_is_conditions : forall W d, (d < 32)%nat ->
  (N.testbit (CalculateDvMask (Some W)) (N.of_nat d) = true <-> ubc_holds d W) /\ wf (CalculateDvMask (Some W)).
Proof. exact mask_spec_both. Qed.
Print Assumptions C22_mask_is_conditions.

Theorem C22_mask_c_equals_go : forall W, urun W ubc_prog_c 0xFFFFFFFF = urun W ubc_prog_go 0xFFFFFFFF.
Proof. exact mask_c_go. Qed.
Print Assumptions C22_mask_c_equals_go.

Theorem C23_mask_total : forall W W', CalculateDvMask None = 0 /\ wf (CalculateDvMask (Some W)) /\
  ((forall t, (35 <= t <= 64)%nat -> nth t W 0 = nth t W' 0) -> CalculateDvMask (Some W) = CalculateDvMask (Some W')).
Proof. exact mask_total. Qed.
Print Assumptions C23_mask_total.

Theorem C24_table_is_manuels :
  length dvs_go = 33%nat /\ nth 32 dvs_go (mkdv 9 9 9 9 9 9 []) = mkdv 0 0 0 0 0 0 (repeat 0 80) /\
  forall d, (d < 32)%nat ->
    let v := the_dv d in
    nth d dvs_go (mkdv 9 9 9 9 9 9 []) =
      mkdv (match dty v with TypeI => 1 | TypeII => 2 end) (N.of_nat (dK v)) (N.of_nat (dB v)) (N.of_nat (test_step v)) 0 (N.of_nat d) (dmsg v) /\
    dmsg v = schedule (firstn 16 (dmsg v)) /\
    (forall t, (test_step v - 5 <= t < test_step v)%nat -> nth (t + 5) (dvec v) 0 = 0) /\
    (forall W, N.testbit (CalculateDvMask (Some W)) (maskB (nth d dvs_go (mkdv 9 9 9 9 9 9 []))) = true <-> ubc_holds d W).
Proof. exact table_manuel. Qed.
Print Assumptions C24_table_is_manuels.

Theorem C25_tables_equal : dvs_go = dvs_c.
Proof. exact tables_equal. Qed.
Print Assumptions C25_tables_equal.

Theorem C27_conditions_symmetric : forall d W, (d < 32)%nat -> length W = 80%nat ->
  let e := nth d dvs_go terminator in
  N.testbit (CalculateDvMask (Some (xorl W (dm e)))) (maskB e) = N.testbit (CalculateDvMask (Some W)) (maskB e).
Proof. exact mask_symmetric. Qed.
Print Assumptions C27_conditions_symmetric.

(** The detection is a function of chaining value and block only, and false when no bit condition set holds. *)
Theorem C28_filter : exists D,
  (forall h M, wfst h -> length M = 16%nat -> Forall wf M -> (forall d, (d < 32)%nat -> ~ ubc_holds d (schedule M)) -> D h M = false) /\
  forall early p k i inp m, scoped 0 (calls p) ->
    nth_error (calls p) k = Some (OCRSum i inp) -> written i (firstn k (calls p)) = Some m ->
    exists ds rs, run_program early p = Some (ds, rs) /\
      nth_error rs k = Some (RVerdict (inp ++ fst (cd_sum D m)) (snd (cd_sum D m))).
Proof. exact unconditioned. Qed.
Print Assumptions C28_filter.

Theorem C28_unconditioned_is_sha1 : forall early p k i inp m, scoped 0 (calls p) ->
  nth_error (calls p) k = Some (OCRSum i inp) -> written i (firstn k (calls p)) = Some m ->
  (forall b d, In b (blocks (pad m)) -> (d < 32)%nat -> ~ ubc_holds d (schedule (words_of b))) ->
  exists ds rs, run_program early p = Some (ds, rs) /\ nth_error rs k = Some (RVerdict (inp ++ sha1 m) false).
Proof. exact unconditioned_sha1. Qed.
Print Assumptions C28_unconditioned_is_sha1.

Theorem C29_sizes : forall early p k o, scoped 0 (calls p) -> nth_error (calls p) k = Some o ->
  exists ds rs r, run_program early p = Some (ds, rs) /\ nth_error rs k = Some r /\
    match o with
    | OSize _ => r = RNum 20
    | OBlockSize _ => r = RNum 64
    | OSum _ inp => exists b, r = RBytes b /\ length b = (length inp + 20)%nat /\ firstn (length inp) b = inp
    | OCRSum _ inp => exists b v, r = RVerdict b v /\ length b = (length inp + 20)%nat /\ firstn (length inp) b = inp
    | OSumPkg _ => exists b v, r = RVerdict b v /\ length b = 20%nat
    | _ => True
    end.
Proof. exact sizes. Qed.
Print Assumptions C29_sizes.

Theorem C29_whole_blocks : forall early D p i m, decides D go_detects -> scoped 0 (calls p) -> (i < created (calls p))%nat ->
  written i (calls p) = Some m ->
  exists ds rs d, run_program early p = Some (ds, rs) /\ nth_error ds i = Some d /\
    dh d = fst (cd_blocks D (IV, false) (blocks (firstn (64 * (length m / 64)) m))) /\
    dnx d = (length m mod 64)%nat.
Proof. exact whole_blocks. Qed.
Print Assumptions C29_whole_blocks.

Theorem C32_independent : forall early m0 p i, scoped 0 (calls p) -> (i < created (calls p))%nat ->
  exists ds rs ds', run_program early p = Some (ds, rs) /\
    run_program early (alone m0 i p) = Some (ds', RNew 0 :: pick i (calls p) rs).
Proof. exact independent. Qed.
Print Assumptions C32_independent.

(** [log]: the calls with the bytes their slice arguments hold at the time of the call, and their results. *)
Theorem C33_slices_by_value : forall early p s log, hrun early hinit p = Some (s, log) ->
  run_program early (map fst log) = Some (hdigs s, map snd log).
Proof. exact slices_erase. Qed.
Print Assumptions C33_slices_by_value.

(** A step that is not a call of the package leaves all hashers alone; calls other than Sum and CollisionResistantSum
    (C07) leave all existing arrays alone. *)
Theorem C33_buffers_untouched : forall early p s log grow m o s' x, hrun early hinit p = Some (s, log) ->
  hexec early grow (block_of m) s o = Some (s', x) ->
  x = match call_of s o with Some o' => match x with Some (_, r) => Some (o', r) | None => None end | None => None end /\
  (call_of s o = None -> hdigs s' = hdigs s) /\
  (reader o = true -> forall a, (a < length (hheap s))%nat -> array (hheap s') a = array (hheap s) a).
Proof. exact slices_readers. Qed.
Print Assumptions C33_buffers_untouched.

Theorem C34_padding_injective : forall m m', N.of_nat (length m) < 2 ^ 61 -> N.of_nat (length m') < 2 ^ 61 ->
  blocks (pad m) = blocks (pad m') -> m = m'.
Proof. exact blocks_pad_inj. Qed.
Print Assumptions C34_padding_injective.

(** The bytes the code appends, for every length and every block function. *)
Theorem C34_code_pads : forall blk d, dlen d < M64 ->
  checkSum blk d = (do (d', _) <- Write blk d (padding (dlen d));
                    if (dnx d' =? 0)%nat then Some (d', st_bytes (dh d')) else None).
Proof. exact checkSum_padding. Qed.
Print Assumptions C34_code_pads.

Theorem C34_padding_shape : forall len,
  (N.of_nat (length (padding len)) + len) mod 64 = 0 /\ (9 <= length (padding len) <= 72)%nat /\
  padding len = x80 :: zeros (length (padding len) - 9) ++ be64 ((8 * len) mod M64).
Proof. exact padding_facts. Qed.
Print Assumptions C34_padding_shape.

(** C40 is false for test step 58, in both directions. *)
Theorem C40_sibling_test_58_refuted :
  (runs_through 58 (xorl zero80 zero80) sample_state sample_h /\ hasCollided 58 zero80 zero80 sample_state sample_h = false) /\
  (~ runs_through 58 (xorl zero80 zero80) sample_state sample_h_rot /\ hasCollided 58 zero80 zero80 sample_state sample_h_rot = true).
Proof. exact hasCollided_58_wrong. Qed.
Print Assumptions C40_sibling_test_58_refuted.

(** C40 for test step 65; missing: test step 58, refuted above. *)
Theorem C40_sibling_test_65_partial : forall m1 dm s h, length m1 = 80%nat -> length dm = 80%nat -> wfst s ->
  (hasCollided 65 m1 dm s h = true <-> runs_through 65 (xorl m1 dm) s h).
Proof. exact hasCollided_exact_65. Qed.
Print Assumptions C40_sibling_test_65_partial.

(** What the code computes for test step 58. *)
Theorem C40_sibling_test_58_exact : forall m1 dm s h, length m1 = 80%nat -> length dm = 80%nat -> wfst s ->
  (hasCollided 58 m1 dm s h = true <->
   exists h', wfst h' /\ steps 0 (firstn 58 (xorl m1 dm)) h' = rot2 s /\
     addst h' (steps 58 (skipn 58 (xorl m1 dm)) s) = h).
Proof. exact hasCollided_exact_58. Qed.
Print Assumptions C40_sibling_test_58_exact.
