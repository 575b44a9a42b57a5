(** Examples for Properties_Bench. *)

From Coq Require Import Arith NArith List Strings.Byte Bool Lia.
From Verif Require Import Word Spec_Sha1 Spec_DV Spec_Cd Spec_Api Spec_C Model_Go Model_Block Model_Slice Model_C Model_Bench Spec_Bench
  GoCheck GoStore GoProps CGo CProps Data_Shambles Examples_C Examples_Vectors Bench BenchRefute Properties_Bench.
Import ListNotations.

(** A heap with "abc" twelve times in the middle of its first array and 25 bytes in the second. *)
Definition bh : heap := [repeat xff 3 ++ concat (repeat [x61; x62; x63] 12) ++ [xee]; repeat x11 25].
Definition bv : slice := mksl 0 3 36 37.
Definition bw : slice := mksl 1 4 0 20.
Example slices_ok : slice_of bh bv /\ slice_of bh bw /\ s_arr bv <> s_arr bw /\ 20 <= s_len bv /\ 20 <= s_cap bw.
Proof. unfold slice_of. cbn. lia. Qed.

Definition abcs : list byte := concat (repeat [x61; x62; x63] 12).
Lemma bv_abcs : contents bh bv = abcs.
Proof. reflexivity. Qed.
Lemma three D E d c m : fold_left (fun m x => Nat.iter (snd x) (overwritten (detection D E (fst x))) m) [(BGo Generic d, 2); (BCgo c, 1)] m =
  overwritten E (overwritten D (overwritten D m)).
Proof. reflexivity. Qed.

Example C69_content_example : exists H', BenchmarkHashWithCollision lecfg 7 bh [(BGo Generic New, 2); (BCgo cgo_New, 1)] bv = Some H' /\
  length H' = 2 /\ nth 1 H' [] = nth 1 bh [] /\
  contents H' bv = overwritten cgo_decide (overwritten go_decide (overwritten go_decide abcs)).
Proof.
  destruct (C69_content lecfg eq_refl go_decide cgo_decide go_decide_ok cgo_decides 7 [(BGo Generic New, 2); (BCgo cgo_New, 1)] bh bv)
    as (H' & E & L & C & O); [repeat constructor|apply slices_ok|apply slices_ok|].
  exists H'. split; [exact E|]. split; [exact L|]. split; [apply O; discriminate|].
  rewrite three, bv_abcs in C. exact C.
Qed.
Example C69_size_example : exists H' h', b_loop lecfg 7 2 bh (BCgo cgo_New) bv bw = Some (H', h') /\ length H' = 2 /\
  contents H' (mksl (s_arr bw) (s_off bw) 20 (s_cap bw)) = fst (cd_sum (detection go_decide cgo_decide (BCgo cgo_New)) abcs).
Proof.
  destruct slices_ok as (Hv & Hw & N & _ & C).
  destruct (C69_size lecfg eq_refl go_decide cgo_decide go_decide_ok cgo_decides 7 2 bh (BCgo cgo_New) bv bw eq_refl Hv Hw N C)
    as (H' & h' & E & L & _ & S'). rewrite bv_abcs in S'. exists H', h'. split; [exact E|]. split; [exact L|]. exact (S' (Nat.neq_succ_0 1)).
Qed.
Example C69_allocations_example : exists H' r, alloc_loop lecfg 7 10 bh (BGo Generic New) bv bw = Some (H', r) /\ length H' = 2 /\ s_arr r = 1.
Proof.
  destruct slices_ok as (Hv & Hw & N & _ & C).
  destruct (C69_allocations lecfg eq_refl go_decide cgo_decide go_decide_ok cgo_decides 7 10 bh (BGo Generic New) bv bw eq_refl Hv Hw N C)
    as (H' & r & E & L & _ & A & _). exists H', r. split; [exact E|]. split; [exact L|exact A].
Qed.
Example C69_too_small_example : exists H' h', b_loop lecfg 7 10 bh (BGo Generic New) bv (mksl 1 4 0 19) = Some (H', h') /\ length H' = 12.
Proof. apply (C69_too_small lecfg eq_refl 7 10 bh (BGo Generic New) bv); [reflexivity|cbn; lia]. Qed.
Example C69_refuted_example : slice_of [shambles1] (mksl 0 0 640 640) /\ contents [shambles1] (mksl 0 0 640 640) = shambles1.
Proof. split; [unfold slice_of; cbn [s_arr s_len s_off s_cap length nth]; change (length shambles1) with 640; lia|reflexivity]. Qed.

(** The model run: the second iteration writes the digest of what the first one left, and the hasher of the other package gives the same. *)
Definition beq (a b : list byte) : bool := if list_eq_dec byte_eq_dec a b then true else false.
Definition after (h : bhasher) (n : nat) : list byte :=
  match b_loop lecfg 7 n bh h bv bv with Some (H, _) => contents H bv | None => [] end.
Definition bench_runs : unit := ltac:(passed (
  beq (after (BGo Generic New) 1) (sha1 abcs ++ skipn 20 abcs) &&
  beq (after (BGo Generic New) 2) (sha1 (after (BGo Generic New) 1) ++ skipn 20 (after (BGo Generic New) 1)) &&
  beq (after (BCgo cgo_New) 2) (after (BGo Generic New) 2) && negb (beq (after (BGo Generic New) 2) (after (BGo Generic New) 1)))%bool).
