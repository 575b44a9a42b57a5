(** Statements that are false of the code, with witnesses, and the parts of them that hold. *)

From Coq Require Import Arith ZArith NArith List Strings.Byte Lia Bool ZifyNat.
From Verif Require Import Word WordFacts Spec_Sha1 Sha1Facts Spec_DV Spec_Cd Spec_Api DvFacts
  Model_Go Model_Api Model_Block GoCheck GoBlock GoApi GoStore GoProps GoProps2 Data_Shambles.
Import ListNotations.
Local Open Scope N_scope.
Ltac Zify.zify_post_hook ::= idtac.

(** ** C40 *)

Lemma runs_through_iff t W s h : length W = 80%nat -> (t <= 80)%nat -> wfst s ->
  (runs_through t W s h <-> addst (unsteps 0 (firstn t W) s) (steps t (skipn t W) s) = h).
Proof.
  intros HW Ht Hs.
  assert (Sp : forall h', steps 0 W h' = steps t (skipn t W) (steps 0 (firstn t W) h')).
  { intros h'. rewrite <- (firstn_skipn t W) at 1. rewrite steps_app, firstn_length, HW, Nat.min_l by assumption. reflexivity. }
  split.
  - intros (h' & Wh & E & C). rewrite Sp, E in C. rewrite <- E at 1. rewrite unsteps_steps by assumption. assumption.
  - intros C. exists (unsteps 0 (firstn t W) s). split; [auto with wf|].
    assert (E : steps 0 (firstn t W) (unsteps 0 (firstn t W) s) = s) by (apply steps_unsteps; assumption).
    split; [assumption|]. rewrite Sp, E. assumption.
Qed.

Lemma hasCollided_exact_65 m1 dm s h : length m1 = 80%nat -> length dm = 80%nat -> wfst s ->
  (hasCollided 65 m1 dm s h = true <-> runs_through 65 (xorl m1 dm) s h).
Proof.
  intros L1 L2 Hs. rewrite hasCollided_65, st_eqb_eq by assumption. rewrite runs_through_iff; auto; [tauto| |lia].
  rewrite xorl_length, L1, L2. reflexivity.
Qed.
(** At test step 58: true exactly when undoing starts from the rotated state. *)
Lemma hasCollided_exact_58 m1 dm s h : length m1 = 80%nat -> length dm = 80%nat -> wfst s ->
  (hasCollided 58 m1 dm s h = true <->
   exists h', wfst h' /\ steps 0 (firstn 58 (xorl m1 dm)) h' = rot2 s /\
     addst h' (steps 58 (skipn 58 (xorl m1 dm)) s) = h).
Proof.
  intros L1 L2 Hs. rewrite hasCollided_58, st_eqb_eq by assumption.
  assert (H2 : wfst (rot2 s)) by (revert Hs; unfold wfst, rot2; cbn; tauto).
  split.
  - intros E. eexists. split; [|split; [|exact E]]; [auto with wf|]. apply steps_unsteps. assumption.
  - intros (h' & Wh & E & C). rewrite <- E, unsteps_steps by assumption. assumption.
Qed.

Definition zero80 : list word := repeat 0 80.
Definition sample_state : st := mkst 1 2 3 4 5.
(** The sibling execution of the all-zero schedule through [sample_state] at step 58. *)
Definition sample_h : st := addst (unsteps 0 (firstn 58 zero80) sample_state) (steps 58 (skipn 58 zero80) sample_state).
(** What the code takes for it. *)
Definition sample_h_rot : st := addst (unsteps 0 (firstn 58 zero80) (rot2 sample_state)) (steps 58 (skipn 58 zero80) sample_state).

Lemma hasCollided_58_wrong :
  (runs_through 58 (xorl zero80 zero80) sample_state sample_h /\ hasCollided 58 zero80 zero80 sample_state sample_h = false) /\
  (~ runs_through 58 (xorl zero80 zero80) sample_state sample_h_rot /\ hasCollided 58 zero80 zero80 sample_state sample_h_rot = true).
Proof.
  assert (W : wfst sample_state) by (repeat split).
  split; split.
  - apply runs_through_iff; [reflexivity|lia|assumption|vm_compute; reflexivity].
  - vm_compute. reflexivity.
  - rewrite runs_through_iff; [vm_compute; discriminate|reflexivity|lia|assumption].
  - vm_compute. reflexivity.
Qed.

(** ** C09 *)
Definition results {A} (r : option (A * list res)) : option (list res) := option_map snd r.
Lemma results_ex {A} (r : option (A * list res)) l : results r = Some l -> exists ds, r = Some (ds, l).
Proof. destruct r as [[ds l']|]; cbn; [|discriminate]. intros H. injection H as ->. eauto. Qed.
Definition last_bytes (r : option (list res)) : list byte :=
  match r with
  | Some l => match last l RUnit with RBytes b | RVerdict b _ => b | _ => [] end
  | None => []
  end.

Definition abc : list byte := [x61; x62; x63].
Definition blob_after (m : list byte) : list byte :=
  last_bytes (results (run_program false (prog1 [ONew; OWrite 0 m; OMarshal 0]))).
Definition digest_after (m : list byte) : list byte :=
  last_bytes (results (run_program false (prog1 [ONew; OWrite 0 m; OCRSum 0 []]))).

Lemma checkpoint_loses_verdict :
  exists (m b : list byte) (d : list byte) ds1 ds2 ds3,
    run_program false (prog1 [ONew; OWrite 0 m; OMarshal 0]) = Some (ds1, [RNew 0; RNum (length m); RBytes b]) /\
    run_program false (prog1 [ONew; OWrite 0 m; OCRSum 0 []]) = Some (ds2, [RNew 0; RNum (length m); RVerdict d true]) /\
    run_program false (prog1 [ONew; OUnmarshal 0 b; OCRSum 0 []]) = Some (ds3, [RNew 0; RUnit; RVerdict d false]).
Proof.
  assert (A : results (run_program false (prog1 [ONew; OWrite 0 shambles1; OMarshal 0])) = Some [RNew 0; RNum (length shambles1); RBytes (blob_after shambles1)]).
  { vm_compute. reflexivity. }
  assert (B : results (run_program false (prog1 [ONew; OWrite 0 shambles1; OCRSum 0 []])) = Some [RNew 0; RNum (length shambles1); RVerdict (digest_after shambles1) true]).
  { vm_compute. reflexivity. }
  assert (C : results (run_program false (prog1 [ONew; OUnmarshal 0 (blob_after shambles1); OCRSum 0 []])) = Some [RNew 0; RUnit; RVerdict (digest_after shambles1) false]).
  { vm_compute. reflexivity. }
  apply results_ex in A, B, C. destruct A as [ds1 A], B as [ds2 B], C as [ds3 C].
  exists shambles1, (blob_after shambles1), (digest_after shambles1), ds1, ds2, ds3. auto.
Qed.
(** The other way round: a clean stream resumed in a hasher that has seen a collision is reported. *)
Lemma checkpoint_keeps_stale_verdict :
  exists (m w b : list byte) (d : list byte) ds1 ds2 ds3,
    run_program false (prog1 [ONew; OWrite 0 m; OMarshal 0]) = Some (ds1, [RNew 0; RNum (length m); RBytes b]) /\
    run_program false (prog1 [ONew; OWrite 0 m; OCRSum 0 []]) = Some (ds2, [RNew 0; RNum (length m); RVerdict d false]) /\
    run_program false (prog1 [ONew; OWrite 0 w; OUnmarshal 0 b; OCRSum 0 []]) =
      Some (ds3, [RNew 0; RNum (length w); RUnit; RVerdict d true]).
Proof.
  assert (A : results (run_program false (prog1 [ONew; OWrite 0 abc; OMarshal 0])) = Some [RNew 0; RNum (length abc); RBytes (blob_after abc)]).
  { vm_compute. reflexivity. }
  assert (B : results (run_program false (prog1 [ONew; OWrite 0 abc; OCRSum 0 []])) = Some [RNew 0; RNum (length abc); RVerdict (digest_after abc) false]).
  { vm_compute. reflexivity. }
  assert (C : results (run_program false (prog1 [ONew; OWrite 0 shambles1; OUnmarshal 0 (blob_after abc); OCRSum 0 []])) = Some [RNew 0; RNum (length shambles1); RUnit; RVerdict (digest_after abc) true]).
  { vm_compute. reflexivity. }
  apply results_ex in A, B, C. destruct A as [ds1 A], B as [ds2 B], C as [ds3 C].
  exists abc, shambles1, (blob_after abc), (digest_after abc), ds1, ds2, ds3. auto.
Qed.
