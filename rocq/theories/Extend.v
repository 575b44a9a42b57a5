(** Length extension. *)

From Coq Require Import Arith NArith List Strings.Byte Lia Bool ZifyNat.
From Verif Require Import Word WordFacts Spec_Sha1 Sha1Facts Spec_DV Spec_Cd Spec_Api Model_Go Model_Api Model_Block GoBlock GoApi GoStore GoDetect GoProps GoProps2 Spec_Extend.
Import ListNotations.
Ltac Zify.zify_post_hook ::= idtac.
Local Open Scope N_scope.

Section D.
  Variable D : st -> list word -> bool.

  Lemma extended m x : cd_blocks D (IV, false) (blocks (pad (pad m ++ x))) =
    cd_blocks D (cd_blocks D (IV, false) (blocks (pad m))) (blocks (x ++ padding (N.of_nat (length (pad m) + length x)))).
  Proof.
    destruct (pad_whole m) as [n Hn].
    replace (pad (pad m ++ x)) with (pad m ++ (x ++ padding (N.of_nat (length (pad m) + length x)))).
    - rewrite (blocks_app n) by exact Hn. apply cd_blocks_app.
    - unfold pad at 3. rewrite app_length, app_assoc. reflexivity.
  Qed.
  Lemma cd_sum_bytes m : fst (cd_sum D m) = st_bytes (fst (cd_blocks D (IV, false) (blocks (pad m)))) /\
    snd (cd_sum D m) = snd (cd_blocks D (IV, false) (blocks (pad m))).
  Proof. unfold cd_sum. destruct (cd_blocks D (IV, false) (blocks (pad m))). split; reflexivity. Qed.
  Lemma wf_end m : wfst (fst (cd_blocks D (IV, false) (blocks (pad m)))).
  Proof. apply wfst_cd_blocks, wfst_IV. Qed.

  Lemma pad_length m : length (pad m) = (length m + length (padding (N.of_nat (length m))))%nat.
  Proof. unfold pad. apply app_length. Qed.

  Lemma extend_collision m m' x : fst (cd_sum D m) = fst (cd_sum D m') -> length m = length m' ->
    fst (cd_sum D (pad m ++ x)) = fst (cd_sum D (pad m' ++ x)) /\
    (snd (cd_sum D m) = snd (cd_sum D m') -> snd (cd_sum D (pad m ++ x)) = snd (cd_sum D (pad m' ++ x))).
  Proof.
    intros E L. rewrite !(proj1 (cd_sum_bytes _)), !(proj2 (cd_sum_bytes _)) in *. rewrite !extended.
    apply st_bytes_inj in E; [|apply wf_end|apply wf_end].
    assert (L' : length (pad m) = length (pad m')) by (rewrite !pad_length, L; reflexivity). rewrite L'.
    destruct (cd_blocks D (IV, false) (blocks (pad m))) as [h f], (cd_blocks D (IV, false) (blocks (pad m'))) as [h' f']. cbn [fst snd] in *. subst h'.
    destruct (cd_blocks_flag D (blocks (x ++ padding (N.of_nat (length (pad m') + length x)))) h f) as [-> ->].
    destruct (cd_blocks_flag D (blocks (x ++ padding (N.of_nat (length (pad m') + length x)))) h f') as [-> ->].
    split; [reflexivity|intros ->; reflexivity].
  Qed.

  Lemma forged_blob m : forged (fst (cd_sum D m)) (length m) =
    blob_of (fst (cd_blocks D (IV, false) (blocks (pad m)))) (zeros 64) (N.of_nat (length (pad m)) mod M64).
  Proof. unfold forged, blob_of. rewrite pad_length, (proj1 (cd_sum_bytes m)). reflexivity. Qed.
  Lemma forged_accepted m : accepted (forged (fst (cd_sum D m)) (length m)) = true.
  Proof. rewrite forged_blob. apply accepted_ok. split; [apply blob_length; reflexivity|apply has_magic_ok, blob_magic]. Qed.
  Lemma forged_resumed m x :
    st_bytes (fst (resumed D (forged (fst (cd_sum D m)) (length m)) false x)) = fst (cd_sum D (pad m ++ x)) /\
    snd (cd_sum D (pad m ++ x)) = snd (cd_sum D m) || snd (resumed D (forged (fst (cd_sum D m)) (length m)) false x).
  Proof.
    rewrite forged_blob, !(proj1 (cd_sum_bytes _)), !(proj2 (cd_sum_bytes _)), extended. unfold resumed.
    destruct (blob_fields (fst (cd_blocks D (IV, false) (blocks (pad m)))) (zeros 64) (N.of_nat (length (pad m)) mod M64) (wf_end m) eq_refl
      (N.mod_upper_bound _ M64 ltac:(discriminate))) as (-> & -> & ->).
    assert (Z : (N.of_nat (length (pad m)) mod M64) mod 64 = 0).
    { rewrite mod64_mod. destruct (pad_whole m) as [n ->]. replace (N.of_nat (64 * n)) with (N.of_nat n * 64) by lia. apply N.mod_mul. discriminate. }
    rewrite Z. cbn [N.to_nat firstn app].
    replace (padding (N.of_nat (length (pad m)) mod M64 + N.of_nat (length x))) with (padding (N.of_nat (length (pad m) + length x))).
    2: { rewrite <- (padding_mod (N.of_nat (length (pad m) + length x))), <- (padding_mod (_ mod M64 + _)). f_equal.
         rewrite N.add_mod_idemp_l by discriminate. f_equal. lia. }
    destruct (cd_blocks D (IV, false) (blocks (pad m))) as [h f]. cbn [fst snd].
    destruct (cd_blocks_flag D (blocks (x ++ padding (N.of_nat (length (pad m) + length x)))) h f) as [E1 E2].
    rewrite E1, E2. split; reflexivity.
  Qed.
End D.


Lemma forgery early D m ws c : decides D go_detects ->
  calls c = ONew :: OUnmarshal 0 (forged (fst (cd_sum D m)) (length m)) :: map (OWrite 0) ws ++ [OCRSum 0 []; OSum 0 []] ->
  exists ds v, run_program early c = Some (ds, RNew 0 :: RUnit :: map (fun w => RNum (length w)) ws ++
      [RVerdict (fst (cd_sum D (pad m ++ concat ws))) v; RBytes (fst (cd_sum D (pad m ++ concat ws)))]) /\
    snd (cd_sum D (pad m ++ concat ws)) = snd (cd_sum D m) || v.
Proof.
  intros HD Hc. destruct c as [|[i o] c]; [discriminate Hc|]. unfold calls in Hc. cbn [map snd] in Hc. injection Hc as -> Hc.
  destruct (hostile early D [(i, ONew)] 0 HD) as (f & Hf & H); [cbn; auto|cbn; auto|].
  specialize (Hf [] eq_refl). subst f.
  destruct (H (forged (fst (cd_sum D m)) (length m)) ws [] c (forged_accepted D m) Hc) as (ds & rs & E & L).
  destruct (forged_resumed D m (concat ws)) as [R1 R2].
  exists ds, (snd (resumed D (forged (fst (cd_sum D m)) (length m)) false (concat ws))). split; [|exact R2].
  cbn [app] in E. rewrite E, <- R1. destruct rs as [|r [|? ?]]; [discriminate L| |discriminate L].
  assert (X : r = RNew 0).
  { unfold run_program in E. cbn [map fst snd run exec obind] in E.
    destruct (run early _ _) as [[ds' xs]|] in E; cbn [obind] in E; [|discriminate E]. symmetry. exact (f_equal (fun o => match o with Some (_, x :: _) => x | _ => r end) E). }
  rewrite X. reflexivity.
Qed.
