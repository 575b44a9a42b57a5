(** Facts about disturbance vectors and siblings. *)

From Coq Require Import Arith ZArith NArith List Lia Bool.
From Verif Require Import Word WordFacts Spec_Sha1 Sha1Facts Spec_DV Model_Ubc Gen_DvsGo Gen_DvsC.
Import ListNotations.
Local Open Scope N_scope.

Lemma dv_list_length : length dv_list = 32%nat. Proof. reflexivity. Qed.

(** Reduces a statement about all indices below 32 to a computation. *)
Lemma forall_below (P : nat -> bool) n : forallb P (seq 0 n) = true -> forall i, (i < n)%nat -> P i = true.
Proof. rewrite forallb_forall. intros H i Hi. apply H, in_seq. lia. Qed.

Definition listN_eqb (x y : list N) : bool := if list_eq_dec N.eq_dec x y then true else false.
Lemma listN_eqb_eq x y : listN_eqb x y = true <-> x = y.
Proof. unfold listN_eqb. destruct (list_eq_dec N.eq_dec x y); split; congruence. Qed.

(** The message differences satisfy the message expansion. *)
Lemma dmsg_schedule d : (d < 32)%nat -> dmsg (the_dv d) = schedule (firstn 16 (dmsg (the_dv d))).
Proof.
  intros Hd. apply listN_eqb_eq. revert d Hd.
  apply (forall_below (fun d => listN_eqb (dmsg (the_dv d)) (schedule (firstn 16 (dmsg (the_dv d)))))).
  vm_compute. reflexivity.
Qed.

Lemma dmsg_length v : length (dmsg v) = 80%nat.
Proof. unfold dmsg. rewrite map_length, seq_length. reflexivity. Qed.

Definition wfb (x : N) : bool := x <? M32.
Lemma wfb_wf x : wfb x = true <-> wf x. Proof. apply N.ltb_lt. Qed.

Lemma dmsg_wf d : (d < 32)%nat -> Forall wf (dmsg (the_dv d)).
Proof.
  intros Hd. apply Forall_forall. intros x Hx. apply wfb_wf. revert x Hx.
  apply forallb_forall. revert d Hd.
  apply (forall_below (fun d => forallb wfb (dmsg (the_dv d)))).
  vm_compute. reflexivity.
Qed.

Lemma dm16_length v : length (firstn 16 (dmsg v)) = 16%nat.
Proof. rewrite firstn_length, dmsg_length. reflexivity. Qed.

Lemma Forall_firstn {A} (P : A -> Prop) n l : Forall P l -> Forall P (firstn n l).
Proof. intros H. rewrite <- (firstn_skipn n l) in H. apply Forall_app in H. tauto. Qed.

Lemma dm16_wf d : (d < 32)%nat -> Forall wf (firstn 16 (dmsg (the_dv d))).
Proof. intros. apply Forall_firstn, dmsg_wf. assumption. Qed.

Lemma Forall_xorl x : forall y, Forall wf x -> Forall wf y -> Forall wf (xorl x y).
Proof.
  induction x as [|a x IH]; intros [|b y] Hx Hy; simpl; try constructor; inversion Hx; inversion Hy; subst; auto with wf.
Qed.

Lemma sib_block_length d M : length M = 16%nat -> length (sib_block (the_dv d) M) = 16%nat.
Proof. intros. unfold sib_block. rewrite xorl_length, dm16_length, H. reflexivity. Qed.
Lemma sib_block_wf d M : (d < 32)%nat -> Forall wf M -> Forall wf (sib_block (the_dv d) M).
Proof. intros. apply Forall_xorl; [assumption|apply dm16_wf; assumption]. Qed.

(** Changing a block by the difference changes its whole schedule by the difference. *)
Lemma sib_schedule d M : (d < 32)%nat -> length M = 16%nat -> Forall wf M ->
  schedule (sib_block (the_dv d) M) = xorl (schedule M) (dmsg (the_dv d)).
Proof.
  intros Hd HM WM. unfold sib_block.
  rewrite schedule_xor; auto using dm16_length, dm16_wf. rewrite <- dmsg_schedule by assumption. reflexivity.
Qed.

Lemma xorl_invol x : forall y, length x = length y -> xorl (xorl x y) y = x.
Proof.
  induction x as [|a x IH]; intros [|b y] H; try discriminate; simpl; [reflexivity|].
  rewrite N.lxor_assoc, N.lxor_nilpotent, N.lxor_0_r. f_equal. apply IH. injection H; auto.
Qed.

Lemma sib_block_invol v M : length M = 16%nat -> sib_block v (sib_block v M) = M.
Proof. intros H. apply xorl_invol. rewrite dm16_length. assumption. Qed.

(** The sibling block is a different block. *)
Lemma sib_block_neq d M : (d < 32)%nat -> length M = 16%nat -> sib_block (the_dv d) M <> M.
Proof.
  intros Hd HM E.
  assert (Z : forall i, (i < 16)%nat -> nth i (firstn 16 (dmsg (the_dv d))) 0 = 0).
  { intros i Hi. assert (H := f_equal (fun l => nth i l 0) E). cbv beta in H.
    unfold sib_block in H. rewrite nth_xorl in H by (rewrite dm16_length; assumption).
    apply (f_equal (N.lxor (nth i M 0))) in H.
    rewrite <- N.lxor_assoc, N.lxor_nilpotent, N.lxor_0_l in H. exact H. }
  assert (T : existsb (fun i => negb (nth i (firstn 16 (dmsg (the_dv d))) 0 =? 0)) (seq 0 16) = true).
  { revert d Hd E Z.
    assert (A : forall d, (d < 32)%nat -> existsb (fun i => negb (nth i (firstn 16 (dmsg (the_dv d))) 0 =? 0)) (seq 0 16) = true).
    { apply forall_below. vm_compute. reflexivity. }
    intros. apply A. assumption. }
  apply existsb_exists in T. destruct T as (i & Hi & Hn). apply in_seq in Hi.
  rewrite Z in Hn by lia. discriminate.
Qed.

(** ** The tables *)

Definition dvtype_num (t : dvtype) : N := match t with TypeI => 1 | TypeII => 2 end.

(** The entry the table should have for vector number d. *)
Definition expected_entry (d : nat) : dvinfo :=
  let v := the_dv d in
  mkdv (dvtype_num (dty v)) (N.of_nat (dK v)) (N.of_nat (dB v)) (N.of_nat (test_step v)) 0 (N.of_nat d) (dmsg v).
Definition terminator : dvinfo := mkdv 0 0 0 0 0 0 (repeat 0 80).

Lemma dvs_go_eq : dvs_go = map expected_entry (seq 0 32) ++ [terminator].
Proof. vm_compute. reflexivity. Qed.
Lemma dvs_c_eq : dvs_c = map expected_entry (seq 0 32) ++ [terminator].
Proof. vm_compute. reflexivity. Qed.

Lemma test_step_cases d : (d < 32)%nat -> test_step (the_dv d) = 58%nat \/ test_step (the_dv d) = 65%nat.
Proof. intros _. unfold test_step. destruct (_ <=? _)%nat; auto. Qed.

(** ** Siblings *)

(** The chaining value of a sibling is determined by the state at the test step. *)
Lemma siblings_iff v h M :
  wfst h ->
  (exists h', siblings v h M h') <->
  (let T := test_step v in let M' := sib_block v M in
   compress (back_to T (state_at T h M) M') M' = compress h M).
Proof.
  intros Hh. cbv zeta. set (T := test_step v). set (M' := sib_block v M). split.
  - intros (h' & W & S & C). fold T M' in S, C. rewrite <- S, back_state_at by assumption. assumption.
  - intros C. exists (back_to T (state_at T h M) M'). split; [|split].
    + apply wfst_unsteps, wfst_state_at, Hh.
    + apply state_at_back, wfst_state_at, Hh.
    + exact C.
Qed.

Lemma siblings_rot_iff v h M :
  wfst h ->
  (exists h', siblings_rot v h M h') <->
  (let T := test_step v in let M' := sib_block v M in
   addst (back_to T (rot2 (state_at T h M)) M') (steps T (skipn T (schedule M')) (state_at T h M)) = compress h M).
Proof.
  intros Hh. cbv zeta. set (T := test_step v). set (M' := sib_block v M).
  assert (W2 : wfst (rot2 (state_at T h M))).
  { pose proof (wfst_state_at T h M Hh) as W. revert W. unfold wfst, rot2. simpl. tauto. }
  split.
  - intros (h' & W & S & C). fold T M' in S, C. rewrite <- S, back_state_at by assumption. assumption.
  - intros C. exists (back_to T (rot2 (state_at T h M)) M'). split; [|split].
    + apply wfst_unsteps, W2.
    + apply state_at_back, W2.
    + exact C.
Qed.

Lemma compress_split t h M : length M = 16%nat -> (t <= 80)%nat ->
  compress h M = addst h (steps t (skipn t (schedule M)) (state_at t h M)).
Proof.
  intros HM Ht. unfold compress. rewrite (state_at_split t 80) by (auto; lia).
  rewrite firstn_all2; [reflexivity|]. rewrite skipn_length, schedule_length by assumption. lia.
Qed.
