(** The benchmark of collisions on a file with a collision. *)

From Coq Require Import Arith NArith List Strings.Byte Lia.
From Verif Require Import Word Spec_Sha1 Spec_DV Spec_Cd Spec_C Model_Go Model_Block Model_Slice Model_C GoCheck GoStore GoProps CGo
  Data_Shambles Examples_Go Tests Model_Bench Spec_Bench Bench.
Import ListNotations.

Lemma fast_sum m : cd_sum go_decide m = cd_sum fast_decide m.
Proof. unfold cd_sum. rewrite fast_blocks. reflexivity. Qed.
Definition sh_over : list byte := Eval vm_compute in overwritten fast_decide shambles1.
Lemma sh_sum : cd_sum fast_decide shambles1 = (firstn 20 sh_over, true).
Proof. vm_compute. reflexivity. Qed.
Lemma sh_over_ok : overwritten go_decide shambles1 = sh_over /\ snd (cd_sum go_decide shambles1) = true.
Proof. unfold overwritten. rewrite fast_sum, sh_sum. split; reflexivity. Qed.
Lemma sh_over_unflagged : snd (cd_sum go_decide sh_over) = false.
Proof. rewrite fast_sum. vm_compute. reflexivity. Qed.

Lemma gone data : length data = 640 -> snd (cd_sum go_decide data) = true -> snd (cd_sum go_decide (overwritten go_decide data)) = false ->
  forall cfg grow D m H v, host_be cfg = macro_be cfg -> decides D go_detects -> slice_of H v -> contents H v = data ->
  snd (cd_sum D data) = true /\
  exists H', BenchmarkHashWithCollision cfg grow H [(BGo m New, 1)] v = Some H' /\ snd (cd_sum D (contents H' v)) = false.
Proof.
  intros L F U cfg grow D m H v Hc HD Hv Ev. rewrite (go_agree D) by exact HD. split; [exact F|].
  assert (Hl : 20 <= s_len v).
  { rewrite <- Ev in L. unfold contents in L. rewrite firstn_length in L. lia. }
  destruct (content_bench cfg Hc D cgo_decide HD cgo_decides grow [(BGo m New, 1)] H v) as (H' & E & _ & C & _); [repeat constructor|exact Hv|exact Hl|].
  exists H'. split; [exact E|]. rewrite C, Ev. cbn [fold_left snd fst detection]. rewrite (go_agree D) by exact HD.
  change (snd (cd_sum go_decide (overwritten D data)) = false). unfold overwritten. rewrite (go_agree D) by exact HD. exact U.
Qed.
Lemma sh_gone : snd (cd_sum go_decide (overwritten go_decide shambles1)) = false.
Proof. rewrite (proj1 sh_over_ok). exact sh_over_unflagged. Qed.
Lemma collision_gone : exists data, length data = 640 /\
  forall cfg grow D m H v, host_be cfg = macro_be cfg -> decides D go_detects -> slice_of H v -> contents H v = data ->
  snd (cd_sum D data) = true /\
  exists H', BenchmarkHashWithCollision cfg grow H [(BGo m New, 1)] v = Some H' /\ snd (cd_sum D (contents H' v)) = false.
Proof. exists shambles1. split; [reflexivity|]. exact (gone shambles1 eq_refl (proj2 sh_over_ok) sh_gone). Qed.
