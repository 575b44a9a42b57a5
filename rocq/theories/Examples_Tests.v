(** Examples for Properties_Tests. *)

From Coq Require Import String Arith NArith List Strings.Byte Bool Lia.
From Verif Require Import Word Spec_Sha1 Spec_DV Spec_Cd Spec_Api Spec_C WordFacts Sha1Facts Model_Go Model_Block Model_C Model_Tests Spec_Tests
  GoCheck GoBlock GoStore GoProps CGo CProps Data_Shambles Data_Vectors Examples_C Examples_Vectors Tests Properties_Tests.
Import ListNotations.

(** The tests with the tables of the repository, in the generic code; a wrong entry makes them fail.  As in Examples_Vectors nothing is proved. *)
Definition text (s : string) : list byte := list_byte_of_string s.
Definition goldens := map (fun g : string * string * string => let '(out, inp, _) := g in (text out, unhex inp)) golden.
Definition halves := map (fun g : string * string * string => let '(_, inp, half) := g in (unhex inp, unhex half)) golden.
Definition larges := map (fun g : string * string => (unhex (fst g), text (snd g))) large_unmarshal.
Definition files := [(shambles1, (text want_shambles1, true)); (shambles2, (text want_shambles2, true)); (unhex valid_file, (text want_valid, false))].
Definition outcome (t : test) : nat := match run_test false lecfg (fun _ => Generic) 0 [] [] t with Some true => 1 | Some false => 0 | None => 2 end.
Definition tests_run : unit := ltac:(passed (
  (outcome (TestGolden goldens) =? 1)%nat && (outcome (TestGolden (goldens ++ [(text "00", [x00])])) =? 0)%nat &&
  (outcome (TestGoldenMarshal halves) =? 1)%nat && (outcome (TestGoldenMarshal [([x41], [])]) =? 0)%nat &&
  (outcome (TestLargeHashes larges) =? 1)%nat && (outcome (TestLargeHashes [([x73], [])]) =? 0)%nat &&
  (outcome (TestCollisionDetection files) =? 1)%nat && (outcome (TestCollisionDetection [(shambles1, (text want_shambles1, false))]) =? 0)%nat &&
  (outcome (FuzzDeviationDetection [[]; shambles1; unhex valid_file; shambles2]) =? 1)%nat)%bool).

(** One entry, "abc". *)
Definition abc : list byte := [x61; x62; x63].
Definition abc_hex : list byte := text "a9993e364706816aba3e25717850c26c9cd0d89d".
(** No bit of the mask is set for its only block, so that the block is not flagged. *)
Lemma quiet h b : wfst h -> List.length b = 64%nat -> CalculateDvMask (Some (schedule (words_of b))) = 0%N -> go_decide h (words_of b) = false.
Proof.
  intros Hh Hb Hm. destruct (go_decide h (words_of b)) eqn:E; [|reflexivity].
  assert (HM : List.length (words_of b) = 16%nat) by (apply words_of_length; exact Hb).
  apply (go_decide_ok h (words_of b) Hh HM (wf_words_of b)) in E. destruct E as (d & Hd & Hu & _).
  apply (mask_go_spec _ d Hd) in Hu. rewrite Hm, N.bits_0 in Hu. discriminate Hu.
Qed.
Lemma abc_blocks : blocks (pad abc) = [pad abc].
Proof. reflexivity. Qed.
Lemma abc_mask : CalculateDvMask (Some (schedule (words_of (pad abc)))) = 0%N.
Proof. vm_compute. reflexivity. Qed.
Lemma abc_unflagged : snd (cd_sum go_decide abc) = false.
Proof.
  unfold cd_sum. rewrite abc_blocks, cd_blocks_cons, quiet by (reflexivity || apply wfst_IV || exact abc_mask). reflexivity.
Qed.
Example abc_sum : hex (fst (cd_sum go_decide abc)) = abc_hex /\ snd (cd_sum go_decide abc) = false.
Proof. split; [|exact abc_unflagged]. rewrite (cd_sum_unflagged go_decide abc abc_unflagged). vm_compute. reflexivity. Qed.
Example C68_golden_example early ms : run_test early lecfg ms 0 [] [] (TestGolden [(abc_hex, abc)]) = Some true /\
  run_test early lecfg ms 0 [] [] (TestGolden [(abc, abc)]) = Some false.
Proof.
  split.
  - destruct (C68_golden early lecfg ms go_decide [(abc_hex, abc)] eq_refl go_decide_ok) as (b & E & H). rewrite E. f_equal. apply H.
    intros out inp [X|[]]. injection X as <- <-. apply (C68_hex (fst (cd_sum go_decide abc)) abc_hex), abc_sum.
  - destruct (C68_golden early lecfg ms go_decide [(abc, abc)] eq_refl go_decide_ok) as (b & E & H). rewrite E. destruct b; [|reflexivity].
    destruct (proj1 H eq_refl abc abc (or_introl eq_refl)) as [L _]. rewrite <- (proj1 (hex_printed (fst (cd_sum go_decide abc)))) in L.
    rewrite (proj1 abc_sum) in L. discriminate L.
Qed.
Example C68_golden_sha1_example : printed (sha1 abc) abc_hex.
Proof. exact (C68_golden_sha1 true lecfg (fun _ => Generic) go_decide _ abc_hex abc eq_refl go_decide_ok (proj1 (C68_golden_example _ _)) (or_introl eq_refl) (proj2 abc_sum)). Qed.
Example C68_hex_example : hex [x0a; xff] = [x30; x61; x66; x66] /\ ~ printed [x0a] [x30; x41].
Proof.
  split; [reflexivity|]. intros H. apply C68_hex in H. discriminate H.
Qed.

(** The checkpoint after "a", the first half of "abc". *)
Example C68_marshal_example early ms :
  run_test early lecfg ms 0 [] [] (TestGoldenMarshal [(abc, magic ++ st_bytes IV ++ (x61 :: repeat x00 63) ++ [x00; x00; x00; x00; x00; x00; x00; x01])]) = Some true /\
  run_test early lecfg ms 0 [] [] (TestGoldenMarshal [(abc, magic ++ st_bytes IV ++ (x61 :: repeat x00 63) ++ [x00; x00; x00; x00; x00; x00; x00; x02])]) = Some false.
Proof.
  split; match goal with |- context [TestGoldenMarshal ?g] =>
    destruct (C68_marshal early lecfg ms go_decide g eq_refl go_decide_ok) as (b & E & H); rewrite E end.
  - f_equal. apply H. intros inp half [X|[]]. injection X as <- <-. reflexivity.
  - destruct b; [|reflexivity]. pose proof (f_equal (fun l => nth 97 l x00) (proj1 H eq_refl _ _ (or_introl eq_refl))) as X. discriminate X.
Qed.
(** A checkpoint of nothing, and one that is not accepted. *)
Definition nothing : list byte := magic ++ st_bytes IV ++ repeat x00 72.
Lemma nothing_sum : hex (st_bytes (fst (resumed go_decide nothing false []))) = text "da39a3ee5e6b4b0d3255bfef95601890afd80709".
Proof.
  replace (resumed go_decide nothing false []) with (cd_blocks go_decide (IV, false) [padding 0]) by reflexivity.
  rewrite cd_blocks_cons, quiet by (reflexivity || apply wfst_IV || (vm_compute; reflexivity)).
  unfold cd_block. rewrite quiet by (reflexivity || apply wfst_IV || (vm_compute; reflexivity)). vm_compute. reflexivity.
Qed.
Example C68_large_example early ms :
  run_test early lecfg ms 0 [] [] (TestLargeHashes [(nothing, text "da39a3ee5e6b4b0d3255bfef95601890afd80709")]) = Some true /\
  run_test early lecfg ms 0 [] [] (TestLargeHashes [(abc, abc)]) = Some false.
Proof.
  split; match goal with |- context [TestLargeHashes ?g] =>
    destruct (C68_large early lecfg ms go_decide g eq_refl go_decide_ok) as (b & E & H); rewrite E end.
  - f_equal. apply H. intros s u [X|[]]. injection X as <- <-. split; [reflexivity|]. apply C68_hex. exact nothing_sum.
  - destruct b; [|reflexivity]. destruct (proj1 H eq_refl _ _ (or_introl eq_refl)) as [A _]. discriminate A.
Qed.

(** Bit conditions that "abc" does not meet; the fuzz target passes on it and TestCollisionDetection too. *)
Example abc_no_58 : forall m b d, In m [abc] -> In b (blocks (pad m)) -> (d < 32)%nat -> test_step (the_dv d) = 58%nat -> ~ ubc_holds d (schedule (words_of b)).
Proof.
  intros m b d [<-|[]] Hb Hd _ Hu. apply (GoCheck.mask_go_spec _ d Hd) in Hu. revert Hu.
  rewrite abc_blocks in Hb. destruct Hb as [<-|[]]. rewrite abc_mask, N.bits_0. discriminate.
Qed.
Example C68_fuzz_example early ms : run_test early lecfg ms 0 [] [] (FuzzDeviationDetection [abc]) = Some true.
Proof. exact (C68_fuzz_no_58 early lecfg ms [abc] eq_refl abc_no_58). Qed.
Example C68_detection_example early ms : run_test early lecfg ms 0 [] [] (TestCollisionDetection [(abc, (abc_hex, false))]) = Some true /\
  run_test early lecfg ms 0 [] [] (TestCollisionDetection [(abc, (abc_hex, true))]) = Some false.
Proof.
  split; match goal with |- context [TestCollisionDetection ?g] =>
    destruct (C68_detection early lecfg ms go_decide cgo_decide g eq_refl go_decide_ok cgo_decides) as (b & E & H); rewrite E end.
  - f_equal. apply H. intros m s v [X|[]]. injection X as <- <- <-. split; [|split].
    + apply C68_hex, abc_sum.
    + apply abc_sum.
    + symmetry. apply no_58_meet; [exact go_decide_ok|exact cgo_decides|]. intros b' d. exact (abc_no_58 abc b' d (or_introl eq_refl)).
  - destruct b; [|reflexivity]. destruct (proj1 H eq_refl _ _ _ (or_introl eq_refl)) as (_ & X & _). rewrite (proj2 abc_sum) in X. discriminate X.
Qed.

(** A client whose calls depend on the results: it writes digests until one starts with a zero byte, at most n times. *)
Fixpoint chase (n : nat) : test :=
  match n with
  | O => Fail
  | S n => t_sum InGo 0 (fun b => match b with x00 :: _ => Pass | _ => t_write InGo 0 b (chase n) end)
  end.
Example C68_adaptive_example n : fits 0 0 (t_new InGo (fun _ => chase n)).
Proof.
  apply fit_new_go. induction n as [|n IH]; cbn [chase]; [apply FFail|]. apply fit_sum_go; [lia|].
  intros [|[] b]; try apply FPass; apply fit_write_go; try lia; exact IH.
Qed.
