(** The collision check of the Go code decides the predicate [go_detects]. *)

From Coq Require Import Arith ZArith NArith List Lia Bool.
From Verif Require Import Word WordFacts Spec_Sha1 Sha1Facts Spec_DV DvFacts Model_Ubc UbcReflect
  Gen_UbcGo Gen_UbcC Gen_DvsGo Model_Go.
Import ListNotations.
Local Open Scope N_scope.

(** ** Bit conditions *)

Lemma ubc_go_checked : ubc_check_prog ubc_prog_go = true.
Proof. vm_compute. reflexivity. Qed.
Lemma ubc_c_checked : ubc_check_prog ubc_prog_c = true.
Proof. vm_compute. reflexivity. Qed.

Lemma full_mask_bit d : (d < 32)%nat -> N.testbit 0xFFFFFFFF (N.of_nat d) = true.
Proof. intros. change 0xFFFFFFFF with ones32. rewrite testbit_ones32. apply N.ltb_lt. lia. Qed.

Lemma mask_go_spec W d : (d < 32)%nat ->
  (N.testbit (CalculateDvMask (Some W)) (N.of_nat d) = true <-> ubc_holds d W).
Proof. intros. apply ubc_check_prog_sound; auto using ubc_go_checked, full_mask_bit. Qed.

Lemma mask_go_wf W : wf (CalculateDvMask W).
Proof. destruct W; [apply urun_wf; reflexivity|reflexivity]. Qed.

(** ** Round functions as written in Go *)

Lemma g_ch_eq b c d : wf b -> wf c -> wf d -> g_ch b c d = Ch b c d.
Proof.
  intros Hb Hc Hd. unfold g_ch, Ch. apply N.bits_inj. intros i.
  rewrite N.lor_spec, N.lxor_spec, !N.land_spec, testbit_not32.
  rewrite wf_bits in Hb, Hc, Hd.
  destruct (N.ltb_spec i 32).
  - destruct (N.testbit b i), (N.testbit c i), (N.testbit d i); reflexivity.
  - rewrite Hb, Hc, Hd by assumption. reflexivity.
Qed.
Lemma g_maj_eq b c d : g_maj b c d = Maj b c d.
Proof.
  unfold g_maj, Maj. apply N.bits_inj. intros i.
  rewrite !N.lor_spec, !N.lxor_spec, !N.land_spec, !N.lor_spec.
  destruct (N.testbit b i), (N.testbit c i), (N.testbit d i); reflexivity.
Qed.
Lemma g_par_eq b c d : g_par b c d = Parity b c d.
Proof. reflexivity. Qed.

(** f and K agree with step i of the specification. *)
Definition is_ft (f : N -> N -> N -> N) (K : N) (i : nat) : Prop :=
  (forall b c d, wf b -> wf c -> wf d -> f b c d = ft i b c d) /\ K = Kt i.

Lemma ft_ch i : (i < 20)%nat -> is_ft g_ch K0 i.
Proof.
  intros H. unfold is_ft, ft, Kt. apply Nat.ltb_lt in H. rewrite H.
  split; [intros; apply g_ch_eq; assumption|reflexivity].
Qed.
Lemma ft_par1 i : (20 <= i < 40)%nat -> is_ft g_par K1 i.
Proof.
  intros H. unfold is_ft, ft, Kt.
  destruct (Nat.ltb_spec i 20); [lia|]. destruct (Nat.ltb_spec i 40); [|lia].
  split; [intros; apply g_par_eq|reflexivity].
Qed.
Lemma ft_maj i : (40 <= i < 60)%nat -> is_ft g_maj K2 i.
Proof.
  intros H. unfold is_ft, ft, Kt.
  destruct (Nat.ltb_spec i 20); [lia|]. destruct (Nat.ltb_spec i 40); [lia|].
  destruct (Nat.ltb_spec i 60); [|lia].
  split; [intros; apply g_maj_eq|reflexivity].
Qed.
Lemma ft_par3 i : (60 <= i)%nat -> is_ft g_par K3 i.
Proof.
  intros H. unfold is_ft, ft, Kt.
  destruct (Nat.ltb_spec i 20); [lia|]. destruct (Nat.ltb_spec i 40); [lia|].
  destruct (Nat.ltb_spec i 60); [lia|].
  split; [intros; apply g_par_eq|reflexivity].
Qed.

(** ** Undo and redo *)

Definition rotv (s : st) : st := mkst (sb s) (sc s) (sd s) (se s) (sa s).

Lemma wfst_rotv s : wfst s -> wfst (rotv s).
Proof. unfold wfst, rotv; simpl; tauto. Qed.
#[local] Hint Resolve wfst_rotv : wf.

Lemma g_undo_skip f K step m1 dm s i : (step <= i)%nat -> g_undo f K step m1 dm s i = rotv s.
Proof. intros. unfold g_undo. destruct (Nat.ltb_spec i step); [lia|]. reflexivity. Qed.

Lemma g_undo_eq f K step m1 dm s i : is_ft f K i -> (i < step)%nat -> wfst s ->
  g_undo f K step m1 dm s i = unstep i (N.lxor (nth i m1 0) (nth i dm 0)) s.
Proof.
  intros [Hf ->] Hi (Ha & Hb & Hc & Hd & He). unfold g_undo.
  destruct (Nat.ltb_spec i step); [|lia].
  unfold unstep. rewrite Hf by auto with wf. reflexivity.
Qed.

Lemma g_redo_skip f K step m1 dm s i : (i < step)%nat -> g_redo f K step m1 dm s i = s.
Proof. intros. unfold g_redo. destruct (Nat.leb_spec step i); [lia|]. reflexivity. Qed.

Lemma g_redo_eq f K step0 m1 dm s i : is_ft f K i -> (step0 <= i)%nat -> wfst s ->
  g_redo f K step0 m1 dm s i = step i (N.lxor (nth i m1 0) (nth i dm 0)) s.
Proof.
  intros [Hf ->] Hi (Ha & Hb & Hc & Hd & He). unfold g_redo.
  destruct (Nat.leb_spec step0 i); [|lia].
  unfold step. rewrite Hf by auto with wf. reflexivity.
Qed.

(** Folding over a list of indices. *)
Lemma fold_undo f K step m1 dm (l : list nat) : (forall i, In i l -> is_ft f K i /\ (i < step)%nat) ->
  forall s, wfst s ->
  fold_left (g_undo f K step m1 dm) l s
  = fold_left (fun s i => unstep i (N.lxor (nth i m1 0) (nth i dm 0)) s) l s.
Proof.
  induction l as [|i l IH]; simpl; intros H s Hs; [reflexivity|].
  destruct (H i (or_introl eq_refl)). rewrite g_undo_eq by assumption.
  apply IH; [|auto with wf]. intros j Hj. apply H. auto.
Qed.

Lemma fold_redo f K step0 m1 dm (l : list nat) : (forall i, In i l -> is_ft f K i /\ (step0 <= i)%nat) ->
  forall s, wfst s ->
  fold_left (g_redo f K step0 m1 dm) l s
  = fold_left (fun s i => step i (N.lxor (nth i m1 0) (nth i dm 0)) s) l s.
Proof.
  induction l as [|i l IH]; simpl; intros H s Hs; [reflexivity|].
  destruct (H i (or_introl eq_refl)). rewrite g_redo_eq by assumption.
  apply IH; [|auto with wf]. intros j Hj. apply H. auto.
Qed.

Lemma fold_skip f K step m1 dm (l : list nat) : (forall i, In i l -> (step <= i)%nat) ->
  forall s, fold_left (g_undo f K step m1 dm) l s = fold_left (fun s _ => rotv s) l s.
Proof.
  induction l as [|i l IH]; simpl; intros H s; [reflexivity|].
  rewrite g_undo_skip by auto. apply IH. auto.
Qed.

Lemma fold_redo_skip f K step0 m1 dm (l : list nat) : (forall i, In i l -> (i < step0)%nat) ->
  forall s, fold_left (g_redo f K step0 m1 dm) l s = s.
Proof.
  induction l as [|i l IH]; simpl; intros H s; [reflexivity|].
  rewrite g_redo_skip by auto. apply IH. auto.
Qed.

Lemma in_down hi lo i : In i (down hi lo) -> (lo <= i <= hi)%nat.
Proof. unfold down. rewrite <- in_rev, in_seq. lia. Qed.

Lemma nth_skipn' (W : list N) n : forall a, nth n (skipn a W) 0 = nth (a + n) W 0.
Proof.
  induction W as [|w W IH]; intros a.
  - rewrite skipn_nil. destruct (a + n)%nat, n; reflexivity.
  - destruct a; [reflexivity|]. simpl. apply IH.
Qed.

(** Undoing in descending order is [unsteps]. *)
Lemma fold_unsteps W : forall n a s, (a + n <= length W)%nat ->
  fold_left (fun s i => unstep i (nth i W 0) s) (rev (seq a n)) s = unsteps a (firstn n (skipn a W)) s.
Proof.
  induction n as [|n IH]; intros a s H; [reflexivity|].
  rewrite seq_S, rev_app_distr. cbn [rev app fold_left].
  rewrite IH by lia.
  rewrite (firstn_S_nth _ n 0) by (rewrite skipn_length; lia).
  rewrite unsteps_snoc, firstn_length, skipn_length.
  replace (a + Nat.min n (length W - a))%nat with (a + n)%nat by lia.
  rewrite nth_skipn'. reflexivity.
Qed.

(** Replaying in ascending order is [steps]. *)
Lemma fold_steps W : forall n a s, (a + n <= length W)%nat ->
  fold_left (fun s i => step i (nth i W 0) s) (seq a n) s = steps a (firstn n (skipn a W)) s.
Proof.
  induction n as [|n IH]; intros a s H; [reflexivity|].
  rewrite seq_S, fold_left_app. cbn [fold_left].
  rewrite IH by lia.
  rewrite (firstn_S_nth _ n 0) by (rewrite skipn_length; lia).
  rewrite steps_snoc, firstn_length, skipn_length.
  replace (a + Nat.min n (length W - a))%nat with (a + n)%nat by lia.
  rewrite nth_skipn'. reflexivity.
Qed.

(** The comparison at the end of hasCollided. *)
Lemma xor_eq_test x h :
  ((N.lor (N.lor (N.lor (N.lor (N.lxor (sa x) (sa h)) (N.lxor (sb x) (sb h)))
     (N.lxor (sc x) (sc h))) (N.lxor (sd x) (sd h))) (N.lxor (se x) (se h))) =? 0) = st_eqb x h.
Proof.
  apply eq_true_iff_eq. rewrite N.eqb_eq, !N.lor_eq_0_iff, !N.lxor_eq_0_iff, st_eqb_eq.
  destruct x, h; simpl. split.
  - intros [[[[]]]]; congruence.
  - intros H; injection H; intros; subst; tauto.
Qed.

Lemma fold_nth_xor {A} (g : A -> nat -> N -> A) (m1 dm : list N) l : length m1 = length dm -> forall (s : A),
  fold_left (fun s i => g s i (N.lxor (nth i m1 0) (nth i dm 0))) l s
  = fold_left (fun s i => g s i (nth i (xorl m1 dm) 0)) l s.
Proof.
  intros H. induction l as [|i l IH]; simpl; intros s; [reflexivity|].
  rewrite nth_xorl by assumption. apply IH.
Qed.

Lemma undo_all f K step m1 dm l s : length m1 = length dm ->
  (forall i, In i l -> is_ft f K i /\ (i < step)%nat) -> wfst s ->
  fold_left (g_undo f K step m1 dm) l s = fold_left (fun s i => unstep i (nth i (xorl m1 dm) 0) s) l s.
Proof.
  intros HL Hl Hs. rewrite fold_undo by assumption.
  apply (fold_nth_xor (fun s i w => unstep i w s)). assumption.
Qed.
Lemma redo_all f K step0 m1 dm l s : length m1 = length dm ->
  (forall i, In i l -> is_ft f K i /\ (step0 <= i)%nat) -> wfst s ->
  fold_left (g_redo f K step0 m1 dm) l s = fold_left (fun s i => step i (nth i (xorl m1 dm) 0) s) l s.
Proof.
  intros HL Hl Hs. rewrite fold_redo by assumption.
  apply (fold_nth_xor (fun s i w => step i w s)). assumption.
Qed.

Lemma wfst_fold_unstep W l : forall s, wfst s -> wfst (fold_left (fun s i => unstep i (nth i W 0) s) l s).
Proof. induction l; simpl; auto with wf. Qed.
Lemma wfst_fold_step W l : forall s, wfst s -> wfst (fold_left (fun s i => step i (nth i W 0) s) l s).
Proof. induction l; simpl; auto with wf. Qed.

Lemma in_seq' a n i : In i (seq a n) -> (a <= i < a + n)%nat.
Proof. apply in_seq. Qed.

(** Test step 65: the sibling execution through [s], forwards and backwards. *)
Lemma hasCollided_65 m1 dm s h : length m1 = 80%nat -> length dm = 80%nat -> wfst s ->
  hasCollided 65 m1 dm s h =
  st_eqb (addst (unsteps 0 (firstn 65 (xorl m1 dm)) s) (steps 65 (skipn 65 (xorl m1 dm)) s)) h.
Proof.
  intros L1 L2 Hs. unfold hasCollided. rewrite xor_eq_test.
  assert (LL : length m1 = length dm) by congruence.
  assert (LX : length (xorl m1 dm) = 80%nat) by (rewrite xorl_length, L1, L2; reflexivity).
  f_equal. f_equal.
  - rewrite (undo_all g_par K3), (undo_all g_maj K2), (undo_all g_par K1), (undo_all g_ch K0);
      repeat apply wfst_fold_unstep; auto;
      try (intros i Hi; apply in_down in Hi; split; [|lia]).
    + rewrite <- !fold_left_app.
      match goal with |- fold_left _ ?l _ = _ => change l with (rev (seq 0 65)) end.
      rewrite fold_unsteps by lia. reflexivity.
    + apply ft_ch; lia.
    + apply ft_par1; lia.
    + apply ft_maj; lia.
    + apply ft_par3; lia.
  - rewrite (fold_redo_skip g_maj K2) by (intros i Hi; apply in_seq' in Hi; lia).
    change (seq 60 20) with (seq 60 5 ++ seq 65 15). rewrite fold_left_app.
    rewrite (fold_redo_skip g_par K3 _ _ _ (seq 60 5)) by (intros i Hi; apply in_seq' in Hi; lia).
    rewrite redo_all; auto.
    + rewrite fold_steps by lia. rewrite firstn_all2; [reflexivity|]. rewrite skipn_length. lia.
    + intros i Hi. apply in_seq' in Hi. split; [|lia]. apply ft_par3; lia.
Qed.

(** Test step 58: undoing starts from the rotated state. *)
Lemma hasCollided_58 m1 dm s h : length m1 = 80%nat -> length dm = 80%nat -> wfst s ->
  hasCollided 58 m1 dm s h =
  st_eqb (addst (unsteps 0 (firstn 58 (xorl m1 dm)) (rot2 s)) (steps 58 (skipn 58 (xorl m1 dm)) s)) h.
Proof.
  intros L1 L2 Hs. unfold hasCollided. rewrite xor_eq_test.
  assert (LL : length m1 = length dm) by congruence.
  assert (LX : length (xorl m1 dm) = 80%nat) by (rewrite xorl_length, L1, L2; reflexivity).
  assert (W2 : wfst (rot2 s)) by (revert Hs; unfold wfst, rot2; simpl; tauto).
  f_equal. f_equal.
  - rewrite (fold_skip g_par K3) by (intros i Hi; apply in_down in Hi; lia).
    change (down 59 40) with (down 59 58 ++ down 57 40). rewrite fold_left_app.
    rewrite (fold_skip g_maj K2 _ _ _ (down 59 58)) by (intros i Hi; apply in_down in Hi; lia).
    replace (fold_left (fun s _ => rotv s) (down 59 58) (fold_left (fun s _ => rotv s) (down 64 60) s))
      with (rot2 s) by (destruct s; reflexivity).
    rewrite (undo_all g_maj K2), (undo_all g_par K1), (undo_all g_ch K0);
      repeat apply wfst_fold_unstep; auto;
      try (intros i Hi; apply in_down in Hi; split; [|lia]).
    + rewrite <- !fold_left_app.
      match goal with |- fold_left _ ?l _ = _ => change l with (rev (seq 0 58)) end.
      rewrite fold_unsteps by lia. reflexivity.
    + apply ft_ch; lia.
    + apply ft_par1; lia.
    + apply ft_maj; lia.
  - change (seq 40 20) with (seq 40 18 ++ seq 58 2). rewrite fold_left_app.
    rewrite (fold_redo_skip g_maj K2 _ _ _ (seq 40 18)) by (intros i Hi; apply in_seq' in Hi; lia).
    rewrite (redo_all g_maj K2), (redo_all g_par K3);
      repeat apply wfst_fold_step; auto;
      try (intros i Hi; apply in_seq' in Hi; split; [|lia]).
    + rewrite <- fold_left_app. change (seq 58 2 ++ seq 60 20) with (seq 58 22).
      rewrite fold_steps by lia. rewrite firstn_all2; [reflexivity|]. rewrite skipn_length. lia.
    + apply ft_par3; lia.
    + apply ft_maj; lia.
Qed.

(** ** The loop over the table *)

(** Boolean version of the detection predicate for one vector. *)
Definition go_test (d : nat) (h : st) (M : list N) : bool :=
  let v := the_dv d in let T := test_step v in let M' := sib_block v M in
  if (T =? 65)%nat
  then st_eqb (compress (back_to T (state_at T h M) M') M') (compress h M)
  else st_eqb (addst (back_to T (rot2 (state_at T h M)) M')
                     (steps T (skipn T (schedule M')) (state_at T h M))) (compress h M).

Definition cs_of (h : st) (M : list N) : csarr := mkcs h (state_at 58 h M) (state_at 65 h M).

Lemma entry_test d h M : (d < 32)%nat -> wfst h -> length M = 16%nat -> Forall wf M ->
  hasCollided (N.to_nat (testT (expected_entry d))) (schedule M) (Model_Ubc.dm (expected_entry d))
    (if testT (expected_entry d) =? 58 then cs1 (cs_of h M) else cs2 (cs_of h M)) (compress h M)
  = go_test d h M.
Proof.
  intros Hd Hh HM WM. unfold expected_entry, go_test. cbv zeta. cbn [testT Model_Ubc.dm]. rewrite Nat2N.id.
  assert (LS := schedule_length M HM). assert (LD := dmsg_length (the_dv d)).
  assert (LM' := sib_block_length d M HM).
  destruct (test_step_cases d Hd) as [E|E]; rewrite E.
  - change (N.of_nat 58 =? 58) with true. change (58 =? 65)%nat with false. cbv iota. cbn [cs_of cs1].
    rewrite hasCollided_58 by auto with wf.
    rewrite <- sib_schedule by assumption. unfold back_to. reflexivity.
  - change (N.of_nat 65 =? 58) with false. change (65 =? 65)%nat with true. cbv iota. cbn [cs_of cs2].
    rewrite hasCollided_65 by auto with wf.
    rewrite <- sib_schedule by assumption.
    rewrite (compress_split 65 (back_to _ _ _)) by (auto; lia).
    rewrite state_at_back by auto with wf. unfold back_to. reflexivity.
Qed.

Lemma mask_bit_test mask d : (d < 32)%nat ->
  (N.land mask (shl32 1 (N.of_nat d)) =? 0) = negb (N.testbit mask (N.of_nat d)).
Proof.
  intros Hd. assert (E : shl32 1 (N.of_nat d) = 2 ^ N.of_nat d).
  { unfold shl32. rewrite N.shiftl_1_l. apply wf_mod_id. unfold wf. rewrite M32_pow.
    apply N.pow_lt_mono_r; lia. }
  rewrite E, land_pow2. destruct (N.testbit mask (N.of_nat d)); simpl; [|reflexivity].
  apply N.eqb_neq, N.pow_nonzero. discriminate.
Qed.

Lemma checkLoop_eq mask h M : wfst h -> length M = 16%nat -> Forall wf M ->
  forall n a, (a + n = 32)%nat ->
  checkLoop (map expected_entry (seq a n) ++ [terminator]) mask (schedule M) (cs_of h M) (compress h M)
  = Some (existsb (fun d => N.testbit mask (N.of_nat d) && go_test d h M) (seq a n)).
Proof.
  intros Hh HM WM. induction n as [|n IH]; intros a Ha; [reflexivity|].
  assert (Hd : (a < 32)%nat) by lia.
  cbn [seq map app checkLoop existsb].
  assert (Ty : (dvType (expected_entry a) =? 0) = false).
  { unfold expected_entry. cbn [dvType]. destruct (dty (the_dv a)); reflexivity. }
  rewrite Ty. change (maskB (expected_entry a)) with (N.of_nat a).
  rewrite mask_bit_test by assumption.
  destruct (N.testbit mask (N.of_nat a)); cbn [negb andb orb]; [|apply IH; lia].
  assert (ET := entry_test a h M Hd Hh HM WM). revert ET.
  assert (TT : testT (expected_entry a) = 58 \/ testT (expected_entry a) = 65).
  { unfold expected_entry. cbn [testT]. destruct (test_step_cases a Hd) as [E|E]; rewrite E; auto. }
  destruct TT as [E|E]; rewrite E.
  - change (58 =? 58) with true. cbv iota. cbn [obind]. intros ->.
    destruct (go_test a h M); [reflexivity|]. apply IH. lia.
  - change (65 =? 58) with false. change (65 =? 65) with true. cbv iota. cbn [obind]. intros ->.
    destruct (go_test a h M); [reflexivity|]. apply IH. lia.
Qed.

(** What checkCollision computes. *)
Definition go_decide (h : st) (M : list N) : bool :=
  existsb (fun d => N.testbit (CalculateDvMask (Some (schedule M))) (N.of_nat d) && go_test d h M) (seq 0 32).

Lemma checkCollision_eq h M : wfst h -> length M = 16%nat -> Forall wf M ->
  checkCollision (schedule M) (cs_of h M) (compress h M) = Some (go_decide h M).
Proof.
  intros Hh HM WM. unfold checkCollision, go_decide.
  set (mask := CalculateDvMask (Some (schedule M))).
  destruct (N.eqb_spec mask 0) as [E|E].
  - rewrite E. reflexivity.
  - rewrite dvs_go_eq. apply checkLoop_eq; auto.
Qed.

Lemma go_test_iff d h M : (d < 32)%nat -> wfst h ->
  (go_test d h M = true <->
   exists h', if (test_step (the_dv d) =? 65)%nat
              then siblings (the_dv d) h M h' else siblings_rot (the_dv d) h M h').
Proof.
  intros Hd Hh. unfold go_test. destruct (test_step (the_dv d) =? 65)%nat; rewrite st_eqb_eq.
  - symmetry. apply siblings_iff. assumption.
  - symmetry. apply siblings_rot_iff. assumption.
Qed.

Theorem go_decide_decides h M : wfst h -> length M = 16%nat -> Forall wf M ->
  (go_decide h M = true <-> go_detects h M).
Proof.
  intros Hh HM WM. unfold go_decide. rewrite existsb_exists. unfold go_detects, go_detects_by. split.
  - intros (d & Hd & H). apply in_seq' in Hd. apply andb_true_iff in H. destruct H as [H1 H2].
    exists d. split; [lia|]. split; [apply mask_go_spec; [lia|assumption]|].
    apply go_test_iff; [lia|assumption|assumption].
  - intros (d & Hd & U & S). exists d. split; [apply in_seq; lia|]. apply andb_true_iff. split.
    + apply mask_go_spec; assumption.
    + apply go_test_iff; assumption.
Qed.
