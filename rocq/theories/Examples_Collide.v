(** For the theorems of Properties_Collide concrete cases that meet the hypotheses (tests, not proofs). *)

From Coq Require Import Arith NArith ZArith List Strings.Byte Bool Lia.
From Verif Require Import Word WordFacts Spec_Sha1 Spec_DV Spec_Cd Spec_Api Spec_C Spec_Collide Model_Go Model_Api Model_Block Model_C Model_CApi
  GoCheck GoProps GoRefute CCtx CProps Collide Data_Shambles Examples_Go Examples_C Properties_Collide.
Import ListNotations.
Local Open Scope N_scope.

(** The two SHAmbles files collide when safe hash is off. *)
Definition only_unsafe : list cop := [CSetSafeHash 0].
Definition sh_sha1 : list byte := Eval vm_compute in sha1 shambles1.
Lemma sh_differ : shambles1 <> shambles2.
Proof. intros E. apply (f_equal (fun l => b2n (nth 576 l x00))) in E. vm_compute in E. discriminate. Qed.
Example C53_c_example : ctx_typed zero_ctx /\ Forall (fun c => setter c = true) only_unsafe /\ o_safe (opts_of only_unsafe) = false /\
  (exists c1, capi_run lecfg zero_ctx (session only_unsafe [shambles1]) = Some (c1, [CNone; CNone; CNone] ++ [CDigest sh_sha1 1%Z])) /\
  (exists c1, capi_run becfg zero_ctx (session only_unsafe [shambles2]) = Some (c1, [CNone; CNone; CNone] ++ [CDigest sh_sha1 1%Z])) /\
  in_range (concat [shambles1]) /\ in_range (concat [shambles2]) /\ concat [shambles1] <> concat [shambles2].
Proof.
  split; [repeat split; reflexivity|]. split; [repeat constructor|]. split; [reflexivity|].
  assert (Run : forall cfg m d, host_be cfg = macro_be cfg ->
    option_map snd (capi_run cfg zero_ctx (session only_unsafe [m])) = Some ([CNone; CNone; CNone] ++ [CDigest d 1%Z]) ->
    exists c1, capi_run cfg zero_ctx (session only_unsafe [m]) = Some (c1, [CNone; CNone; CNone] ++ [CDigest d 1%Z])).
  { intros cfg m d _ E. destruct (capi_run cfg zero_ctx (session only_unsafe [m])) as [[c1 r]|]; [|discriminate].
    cbn [option_map snd] in E. injection E as ->. eauto. }
  split; [apply Run; [reflexivity|vm_compute; reflexivity]|]. split; [apply Run; [reflexivity|vm_compute; reflexivity]|].
  split; [vm_compute; reflexivity|]. split; [vm_compute; reflexivity|]. cbn [concat]. rewrite !app_nil_r. exact sh_differ.
Qed.

(** No digest collision is known for the Go package; the case of "abc" and "abd" for the converse reading. *)
Definition abd : list byte := [x61; x62; x64].
Definition abc3 : list byte := [x61; x62; x63].
Definition pr_abc : program := prog1 [ONew; OWrite 0 abc3; OCRSum 0 []].
Definition pr_abd : program := prog1 [ONew; OWrite 0 [x61]; OWrite 0 [x62; x64]; OCRSum 0 [xff]].
Lemma one_block m h M : length (blocks (pad m)) = 1%nat -> processed go_decide m h M -> h = IV /\ M = words_of (nth 0 (blocks (pad m)) []).
Proof.
  intros L (j & b & Hj & -> & ->). assert (Lj : (j < 1)%nat) by (rewrite <- L; apply nth_error_Some; congruence).
  destruct j; [|lia]. split; [reflexivity|]. f_equal. symmetry. apply nth_error_nth. assumption.
Qed.
Lemma cd_fast h M : cd_block go_decide h M = cd_block fast_decide h M.
Proof. unfold cd_block. rewrite fast_decide_ok. reflexivity. Qed.
Example C53_distinct_example : decides go_decide go_detects /\ scoped 0 (calls pr_abc) /\ scoped 0 (calls pr_abd) /\
  nth_error (calls pr_abc) 2 = Some (OCRSum 0 []) /\ nth_error (calls pr_abd) 3 = Some (OCRSum 0 [xff]) /\
  written 0 (firstn 2 (calls pr_abc)) = Some abc3 /\ written 0 (firstn 3 (calls pr_abd)) = Some abd /\
  in_range abc3 /\ in_range abd /\ abc3 <> abd /\
  option_map (fun r => nth_error r 2) (results (run_program false pr_abc)) = Some (Some (RVerdict ([] ++ sha1 abc3) false)) /\
  option_map (fun r => nth_error r 3) (results (run_program true pr_abd)) = Some (Some (RVerdict ([xff] ++ sha1 abd) false)) /\
  (forall h M h' M', processed go_decide abc3 h M -> processed go_decide abd h' M' ->
     cd_block go_decide h M = cd_block go_decide h' M' -> (h, M) = (h', M')).
Proof.
  split; [exact go_decide_ok|]. split; [scope|]. split; [scope|]. split; [reflexivity|]. split; [reflexivity|]. split; [reflexivity|].
  split; [reflexivity|]. split; [vm_compute; reflexivity|]. split; [vm_compute; reflexivity|]. split; [discriminate|].
  split; [vm_compute; reflexivity|]. split; [vm_compute; reflexivity|].
  intros h M h' M' P P' E. apply one_block in P; [|reflexivity]. apply one_block in P'; [|reflexivity].
  destruct P as [-> ->], P' as [-> ->]. pose proof (eq_trans (eq_sym (cd_fast _ _)) (eq_trans E (cd_fast _ _))) as F. clear E. rename F into E. exfalso. apply (f_equal sa) in E. vm_compute in E. discriminate.
Qed.
