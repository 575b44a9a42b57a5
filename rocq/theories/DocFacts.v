(** Proofs about the promises of README.md. *)

From Coq Require Import String Arith NArith List Strings.Byte Bool Lia ZifyNat.
From Verif Require Import Word WordFacts Spec_Sha1 Sha1Facts Spec_DV Spec_Cd Spec_Api Spec_Doc Model_Ubc Gen_UbcGo Model_Go Model_Api Model_Block
  Model_Build Gen_Build BuildFacts GoCheck GoDetect GoBlock GoProps GoProps2 GoWork.
Import ListNotations.
Ltac Zify.zify_post_hook ::= idtac.

Definition declared (e : tags) (f : string * string) : Prop := exists g, decls e pkg_sha1cd (fst f) = [g] /\ f_sig g = snd f.

Ltac sha_decls e := unfold declared, decls, funcs, consts; rewrite ?(filter_pick (included e)), ?included_sha1cd;
  destruct (e "noasm"%string), (e "gc"%string), (e "amd64"%string), (e "arm64"%string).

Lemma dropin (e : tags) : (forall f, In f std_sha1_funcs -> fst f <> "Sum"%string -> declared e f) /\
  consts e pkg_sha1cd = std_sha1_consts.
Proof.
  split.
  - intros f [<-|[<-|[]]] Hn; [|exfalso; apply Hn; reflexivity]. sha_decls e; (eexists; split; reflexivity).
  - sha_decls e; reflexivity.
Qed.
Lemma sum_decl (e : tags) : exists g, decls e pkg_sha1cd "Sum" = [g] /\ f_sig g = "(data []byte) ([Size]byte, bool)"%string /\ nresults (f_sig g) = 2.
Proof. sha_decls e; (eexists; split; [reflexivity|split; reflexivity]). Qed.
Lemma no_dropin_sum : exists f, In f std_sha1_funcs /\ forall e : tags, ~ declared e f.
Proof.
  exists ("Sum", "(data []byte) [Size]byte")%string. split; [right; left; reflexivity|]. intros e (g & E & S).
  destruct (sum_decl e) as (g' & E' & S' & _). cbn [fst snd] in E, S. rewrite E in E'. injection E' as <-. rewrite S in S'. discriminate S'.
Qed.
Lemma no_readme_call c : In c readme_calls -> forall (e : tags) g, In g (decls e pkg_sha1cd (fst c)) -> nresults (f_sig g) <> snd c.
Proof.
  intros [<-|[<-|[]]] e g H.
  - destruct (sum_decl e) as (g' & E & _ & R). cbn [fst snd] in *. rewrite E in H. destruct H as [<-|[]]. rewrite R. discriminate.
  - exfalso. revert H. cbn [fst]. sha_decls e; intros [].
Qed.

Local Open Scope N_scope.

(** A block of the padded message meets the conditions of a vector. *)
Lemma cd_blocks_detect bs : forall h f, wfst h -> Forall (fun b => length b = 64%nat) bs -> snd (cd_blocks go_decide (h, f) bs) = true -> f = false ->
  exists b g, In b bs /\ wfst g /\ go_decide g (words_of b) = true.
Proof.
  induction bs as [|b bs IH]; intros h f Hh Hl H ->; [discriminate H|]. inversion Hl; subst.
  destruct (go_decide h (words_of b)) eqn:E; [exists b, h; split; [left; reflexivity|split; assumption]|].
  rewrite cd_blocks_cons in H. cbn [fst snd] in H. rewrite E in H. cbn [orb] in H.
  destruct (IH (cd_block go_decide h (words_of b)) false) as (b' & g & I & W & D); [apply wfst_cd_block; assumption|assumption|assumption|reflexivity|].
  exists b', g. split; [right; assumption|]. split; assumption.
Qed.

Lemma differs_conditions early p k i inp m b v ds rs : scoped 0 (calls p) ->
  nth_error (calls p) k = Some (OCRSum i inp) -> written i (firstn k (calls p)) = Some m ->
  run_program early p = Some (ds, rs) -> nth_error rs k = Some (RVerdict b v) -> b <> inp ++ sha1 m ->
  v = true /\ exists c d, In c (blocks (pad m)) /\ (d < 32)%nat /\ ubc_holds d (schedule (words_of c)).
Proof.
  intros Hs Hk Hm E Er Hn. assert (Hv : v = true).
  { destruct v; [reflexivity|]. exfalso. apply Hn. eapply unflagged_is_sha1; eauto. }
  split; [assumption|]. destruct (crsum_exact early go_decide p k i inp m go_decide_ok Hs Hk Hm) as (ds' & rs' & E' & Er').
  rewrite E in E'. injection E' as <- <-. rewrite Er in Er'. injection Er' as _ Ev. rewrite Hv in Ev.
  unfold cd_sum in Ev. destruct (cd_blocks go_decide (IV, false) (blocks (pad m))) as [g f] eqn:Eg. cbn [snd] in Ev. subst f.
  assert (Hl : Forall (fun b => length b = 64%nat) (blocks (pad m))) by apply blocks_len.
  destruct (cd_blocks_detect (blocks (pad m)) IV false wfst_IV Hl) as (c & h & I & W & D); [rewrite Eg; reflexivity|reflexivity|].
  apply (go_decide_ok h (words_of c)) in D; [|assumption|apply words_of_length; rewrite Forall_forall in Hl; auto|apply wf_words_of].
  destruct D as (d & Hd & U & _). exists c, d. auto.
Qed.

Definition ten_a : list byte := repeat "a"%byte 10.
Definition ten_block : list byte := nth 0 (blocks (pad ten_a)) [].
Lemma ten_mask : CalculateDvMask (Some (schedule (words_of ten_block))) = 16.
Proof. vm_compute. reflexivity. Qed.
Lemma ten_blocks : blocks (pad ten_a) = [ten_block].
Proof. vm_compute. reflexivity. Qed.
Lemma ten_unflagged : go_decide IV (words_of ten_block) = false.
Proof. unfold go_decide. rewrite ten_mask. vm_compute. reflexivity. Qed.

(** Writing ten letters to a fresh hasher and asking for the verdict. *)
Definition ten_program : program := [(Generic, ONew); (Generic, OWrite 0 ten_a); (Generic, OCRSum 0 [])].
Lemma conditions_unchanged : exists early p k i inp m ds rs c d, scoped 0 (calls p) /\
  nth_error (calls p) k = Some (OCRSum i inp) /\ written i (firstn k (calls p)) = Some m /\
  In c (blocks (pad m)) /\ (d < 32)%nat /\ ubc_holds d (schedule (words_of c)) /\
  run_program early p = Some (ds, rs) /\ nth_error rs k = Some (RVerdict (inp ++ sha1 m) false).
Proof.
  assert (S : scoped 0 (calls ten_program)) by (cbn; auto).
  destruct (crsum_exact false go_decide ten_program 2 0 [] ten_a go_decide_ok S) as (ds & rs & E & Er); [reflexivity|reflexivity|].
  exists false, ten_program, 2%nat, 0%nat, [], ten_a, ds, rs, ten_block, 4%nat.
  split; [assumption|]. split; [reflexivity|]. split; [reflexivity|].
  split; [rewrite ten_blocks; left; reflexivity|]. split; [lia|].
  split; [apply mask_go_spec; [lia|rewrite ten_mask; reflexivity]|]. split; [assumption|].
  assert (V : snd (cd_sum go_decide ten_a) = false).
  { unfold cd_sum. rewrite ten_blocks, cd_blocks_cons. cbn [fst snd]. rewrite ten_unflagged. cbn [orb].
    destruct (cd_block go_decide IV (words_of ten_block)). reflexivity. }
  rewrite Er, V, (cd_sum_unflagged _ _ V). reflexivity.
Qed.
