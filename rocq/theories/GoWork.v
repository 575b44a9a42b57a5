(** The counters of [Model_Work] compared with [Spec_Work]. *)

From Coq Require Import Arith ZArith NArith List Strings.Byte Lia ZifyNat Bool.
From Verif Require Import Word WordFacts Spec_Sha1 Sha1Facts Spec_DV Spec_Cd DvFacts Model_Ubc Gen_DvsGo Model_Go GoCheck GoBlock Spec_Work Model_Work.
Import ListNotations.
Local Open Scope N_scope.
Ltac Zify.zify_post_hook ::= idtac.

(** ** Erasure *)

Lemma checkLoop_erase dvs mask m1 cs h : forall t, option_map fst (checkLoop_n dvs mask m1 cs h t) = checkLoop dvs mask m1 cs h.
Proof.
  induction dvs as [|dv rest IH]; intros t; cbn [checkLoop_n checkLoop]; [reflexivity|].
  destruct (dvType dv =? 0); [reflexivity|]. destruct (_ =? 0); [apply IH|].
  match goal with |- context [obind ?a _] => destruct a as [s|] end; cbn [obind]; [|reflexivity].
  destruct (hasCollided _ _ _ _ _); [reflexivity|apply IH].
Qed.

Lemma checkCollision_erase m1 cs h t : option_map fst (checkCollision_n m1 cs h t) = checkCollision m1 cs h.
Proof.
  unfold checkCollision_n, checkCollision. generalize (CalculateDvMask (Some m1)). intros mask.
  destruct (mask =? 0); [reflexivity|apply checkLoop_erase].
Qed.

Lemma rehash_erase : forall fuel p hi h w m1 cs col q t,
  option_map fst (g_rehash_n fuel p hi h w m1 cs col q t) = g_rehash fuel p hi h w m1 cs col.
Proof.
  induction fuel as [|fuel IH]; intros p hi h w m1 cs col q t; cbn [g_rehash_n g_rehash]; [reflexivity|].
  generalize (g_pass p h w m1 cs). intros x. cbv zeta.
  destruct (hi =? 2)%nat; [apply IH|]. destruct (hi =? 1)%nat; [|reflexivity].
  rewrite <- (checkCollision_erase _ _ _ t). destruct (checkCollision_n (pm x) (pcs x) (addst h (ps x)) t) as [[c t1]|]; [|reflexivity].
  cbn [option_map obind fst snd]. destruct c; [apply IH|reflexivity].
Qed.

Lemma blocks_erase : forall fuel p h w cs col q t,
  option_map fst (g_blocks_n fuel p h w cs col q t) = g_blocks fuel p h w cs col.
Proof.
  induction fuel as [|fuel IH]; intros p h w cs col q t; cbn [g_blocks_n g_blocks]; destruct (64 <=? length p)%nat; try reflexivity.
  rewrite <- (rehash_erase _ _ _ _ _ _ _ _ q t).
  destruct (g_rehash_n 3 p 1 h w (repeat 0 80) cs col q t) as [[[[[h1 w1] cs1] col1] [q1 t1]]|]; [|reflexivity].
  cbn [option_map obind fst]. apply IH.
Qed.

Theorem work_erase d p : option_map (fun r => fst (fst r)) (blockGeneric_n d p) = blockGeneric d p.
Proof.
  unfold blockGeneric_n, blockGeneric. rewrite <- (blocks_erase _ _ _ _ _ _ 0 0).
  destruct (g_blocks_n _ _ _ _ _ _ _ _) as [[[h col] [q t]]|]; reflexivity.
Qed.

(** ** Counting *)

Definition mask_of (M : list N) : N := CalculateDvMask (Some (schedule M)).

(** The tests made for one block: candidates in order, up to the first success. *)
Fixpoint ntests (mask : N) (h : st) (M : list N) (l : list nat) : nat :=
  match l with
  | [] => O
  | d :: l => if N.testbit mask (N.of_nat d) then S (if go_test d h M then O else ntests mask h M l) else ntests mask h M l
  end.

Lemma checkLoop_n_eq mask h M : wfst h -> length M = 16%nat -> Forall wf M ->
  forall n a t, (a + n = 32)%nat ->
  checkLoop_n (map expected_entry (seq a n) ++ [terminator]) mask (schedule M) (cs_of h M) (compress h M) t
  = Some (existsb (fun d => N.testbit mask (N.of_nat d) && go_test d h M) (seq a n), (t + ntests mask h M (seq a n))%nat).
Proof.
  intros Hh HM WM. induction n as [|n IH]; intros a t Ha.
  { cbn [seq map app checkLoop_n existsb ntests]. change (dvType terminator =? 0) with true. cbv iota. rewrite Nat.add_0_r. reflexivity. }
  assert (Hd : (a < 32)%nat) by lia.
  cbn [seq map app checkLoop_n existsb ntests].
  assert (Ty : (dvType (expected_entry a) =? 0) = false).
  { unfold expected_entry. cbn [dvType]. destruct (dty (the_dv a)); reflexivity. }
  rewrite Ty. change (maskB (expected_entry a)) with (N.of_nat a).
  rewrite mask_bit_test by assumption.
  destruct (N.testbit mask (N.of_nat a)); cbn [negb andb orb]; [|apply IH; lia].
  assert (ET := entry_test a h M Hd Hh HM WM). revert ET.
  assert (TT : testT (expected_entry a) = 58 \/ testT (expected_entry a) = 65).
  { unfold expected_entry. cbn [testT]. destruct (test_step_cases a Hd) as [E|E]; rewrite E; auto. }
  destruct TT as [E|E]; rewrite E.
  - change (58 =? 58) with true. cbv iota. cbn [obind]. intros ->.
    destruct (go_test a h M); cbn [orb]; [rewrite Nat.add_1_r; reflexivity|]. rewrite IH by lia. f_equal. f_equal. lia.
  - change (65 =? 58) with false. change (65 =? 65) with true. cbv iota. cbn [obind]. intros ->.
    destruct (go_test a h M); cbn [orb]; [rewrite Nat.add_1_r; reflexivity|]. rewrite IH by lia. f_equal. f_equal. lia.
Qed.

Lemma ntests_0 h M l : ntests 0 h M l = O.
Proof. induction l as [|d l IH]; cbn [ntests]; auto. Qed.

Lemma checkCollision_n_eq h M t : wfst h -> length M = 16%nat -> Forall wf M ->
  checkCollision_n (schedule M) (cs_of h M) (compress h M) t = Some (go_decide h M, (t + ntests (mask_of M) h M (seq 0 32))%nat).
Proof.
  intros Hh HM WM. unfold checkCollision_n, go_decide, mask_of.
  set (mask := CalculateDvMask (Some (schedule M))).
  destruct (N.eqb_spec mask 0) as [E|E].
  - rewrite E, ntests_0, Nat.add_0_r. reflexivity.
  - rewrite dvs_go_eq. apply checkLoop_n_eq; auto.
Qed.

Lemma rehash_n_eq p h w cs col q t : (64 <= length p)%nat -> wfst h -> length w = 16%nat ->
  let M := words_of (firstn 64 p) in
  exists w' cs', length w' = 16%nat /\
  g_rehash_n 3 p 1 h w (repeat 0 80) cs col q t =
  Some (cd_block go_decide h M, w', cs', (col || go_decide h M)%bool,
        (q + (if go_decide h M then 3 else 1), t + ntests (mask_of M) h M (seq 0 32))%nat).
Proof.
  intros Hp Hh Hw M.
  assert (HM : length M = 16%nat) by (apply M_length; assumption).
  assert (WM : Forall wf M) by (apply M_wf).
  destruct (pass_eq p Hp h Hh w (repeat 0 80) cs Hw (repeat_length _ _)) as (E1 & E2 & E3 & E4).
  fold M in E1, E2, E3.
  unfold g_rehash_n. cbn [Nat.eqb Nat.add].
  set (x := g_pass p h w (repeat 0 80) cs) in *. rewrite E1, E2, E3.
  change (addst h (state_at 80 h M)) with (compress h M).
  rewrite checkCollision_n_eq by assumption. cbn [obind fst snd].
  unfold cd_block. destruct (go_decide h M) eqn:D.
  - assert (L1 : length (schedule M) = 80%nat) by (apply schedule_length; assumption).
    destruct (pass_eq p Hp (compress h M) (wfst_compress h M) (pw x) (schedule M) (cs_of h M) E4 L1) as (F1 & F2 & F3 & F4).
    fold M in F1, F2, F3.
    set (y := g_pass p (compress h M) (pw x) (schedule M) (cs_of h M)) in *. rewrite F1, F2, F3.
    change (addst (compress h M) (state_at 80 (compress h M) M)) with (compress (compress h M) M).
    destruct (pass_eq p Hp (compress (compress h M) M) (wfst_compress _ M) (pw y) (schedule M) (cs_of (compress h M) M) F4 L1)
      as (G1 & G2 & G3 & G4).
    fold M in G1, G2, G3.
    set (z := g_pass p (compress (compress h M) M) (pw y) (schedule M) (cs_of (compress h M) M)) in *.
    rewrite G2, G3. rewrite orb_true_r.
    change (addst (compress (compress h M) M) (state_at 80 (compress (compress h M) M) M)) with (compress (compress (compress h M) M) M).
    replace (S (S (S q))) with (q + 3)%nat by lia.
    eexists _, _. split; [exact G4|reflexivity].
  - rewrite orb_false_r. replace (S q) with (q + 1)%nat by lia. eexists _, _. split; [exact E4|reflexivity].
Qed.

(** Tests over a list of blocks. *)
Fixpoint ntotal (h : st) (bs : list (list byte)) : nat :=
  match bs with
  | [] => O
  | b :: bs => (ntests (mask_of (words_of b)) h (words_of b) (seq 0 32) + ntotal (cd_block go_decide h (words_of b)) bs)%nat
  end.

Lemma g_blocks_n_eq : forall fuel p h w cs col q t, (length p <= fuel)%nat -> wfst h -> length w = 16%nat ->
  g_blocks_n fuel p h w cs col q t =
  Some (cd_blocks go_decide (h, col) (blocks p),
        (q + (length (blocks p) + 2 * detected go_decide h (blocks p)), t + ntotal h (blocks p))%nat).
Proof.
  induction fuel as [|fuel IH]; intros p h w cs col q t Hl Hh Hw; cbn [g_blocks_n];
    destruct (Nat.leb_spec 64 (length p)).
  - lia.
  - rewrite blocks_short by assumption. cbn [length detected ntotal Nat.add Nat.mul]. rewrite !Nat.add_0_r. reflexivity.
  - destruct (rehash_n_eq p h w cs col q t) as (w' & cs' & L & E); auto. rewrite E. cbn [obind].
    rewrite IH; auto using wfst_cd_block.
    + rewrite (blocks_cons p) by assumption. rewrite cd_blocks_cons. cbn [fst snd length detected ntotal].
      f_equal. f_equal. f_equal; [destruct (go_decide h (words_of (firstn 64 p))); lia|lia].
    + rewrite skipn_length. lia.
  - rewrite blocks_short by assumption. cbn [length detected ntotal Nat.add Nat.mul]. rewrite !Nat.add_0_r. reflexivity.
Qed.

(** ** Comparison with the specification *)

Lemma filter_ext_in' {A} (f g : A -> bool) l : (forall x, In x l -> f x = g x) -> filter f l = filter g l.
Proof. induction l as [|x l IH]; intros H; cbn; [reflexivity|]. rewrite (H x) by (left; reflexivity). rewrite IH; [reflexivity|]. intros y Hy. apply H. right. assumption. Qed.

Lemma ntests_le mask h M l : (ntests mask h M l <= length (filter (fun d => N.testbit mask (N.of_nat d)) l))%nat.
Proof.
  induction l as [|d l IH]; cbn [ntests filter]; [apply le_n|].
  destruct (N.testbit mask (N.of_nat d)); [|assumption]. cbn [length]. destruct (go_test d h M); lia.
Qed.

Lemma ntests_eq mask h M l : existsb (fun d => N.testbit mask (N.of_nat d) && go_test d h M) l = false ->
  ntests mask h M l = length (filter (fun d => N.testbit mask (N.of_nat d)) l).
Proof.
  induction l as [|d l IH]; cbn [ntests filter existsb]; [reflexivity|]. intros E. apply orb_false_elim in E. destruct E as [E1 E2].
  destruct (N.testbit mask (N.of_nat d)); [|auto]. cbn [length]. cbn [andb] in E1. rewrite E1. f_equal. auto.
Qed.

Lemma ntests_pos mask h M l : existsb (fun d => N.testbit mask (N.of_nat d) && go_test d h M) l = true -> (1 <= ntests mask h M l)%nat.
Proof.
  induction l as [|d l IH]; cbn [ntests existsb]; [discriminate|].
  destruct (N.testbit mask (N.of_nat d)); [lia|]. cbn [andb orb]. auto.
Qed.

Lemma candidates_mask U b : decides_ubc U ->
  candidates U b = length (filter (fun d => N.testbit (mask_of (words_of b)) (N.of_nat d)) (seq 0 32)).
Proof.
  intros HU. unfold candidates. f_equal. apply filter_ext_in'. intros d Hd. apply in_seq in Hd.
  assert (Hd' : (d < 32)%nat) by lia.
  pose proof (HU d (schedule (words_of b)) Hd') as A. pose proof (mask_go_spec (schedule (words_of b)) d Hd') as B. unfold mask_of.
  revert A B. generalize (N.testbit (CalculateDvMask (Some (schedule (words_of b)))) (N.of_nat d)). intros x.
  destruct (U d (schedule (words_of b))), x; intros A B; try reflexivity; exfalso.
  - apply proj1 in A. apply proj2 in B. specialize (B (A eq_refl)). discriminate.
  - apply proj2 in A. apply proj1 in B. specialize (A (B eq_refl)). discriminate.
Qed.

Lemma go_decide_mask h M : go_decide h M = existsb (fun d => N.testbit (mask_of M) (N.of_nat d) && go_test d h M) (seq 0 32).
Proof. unfold go_decide, mask_of. reflexivity. Qed.

Lemma ntotal_le U bs : decides_ubc U -> forall h, (ntotal h bs <= total (candidates U) bs)%nat.
Proof.
  intros HU. induction bs as [|b bs IH]; intros h; cbn [ntotal total fold_right]; [apply le_n|].
  rewrite (candidates_mask U b HU). pose proof (ntests_le (mask_of (words_of b)) h (words_of b) (seq 0 32)).
  specialize (IH (cd_block go_decide h (words_of b))). unfold total in IH. lia.
Qed.

Lemma ntotal_eq U bs : decides_ubc U -> forall h, detected go_decide h bs = O -> ntotal h bs = total (candidates U) bs.
Proof.
  intros HU. induction bs as [|b bs IH]; intros h; cbn [ntotal total fold_right detected]; [reflexivity|]. intros E.
  rewrite (candidates_mask U b HU). destruct (go_decide h (words_of b)) eqn:G; [discriminate|].
  cbn [Nat.add] in E. rewrite (IH _ E). f_equal. rewrite go_decide_mask in G. apply ntests_eq. exact G.
Qed.

Lemma ntotal_ge bs : forall h, (detected go_decide h bs <= ntotal h bs)%nat.
Proof.
  induction bs as [|b bs IH]; intros h; cbn [ntotal detected]; [apply le_n|].
  specialize (IH (cd_block go_decide h (words_of b))).
  destruct (go_decide h (words_of b)) eqn:G; [|lia].
  assert (1 <= ntests (mask_of (words_of b)) h (words_of b) (seq 0 32))%nat by (rewrite go_decide_mask in G; apply ntests_pos; exact G). lia.
Qed.

Lemma dec_agree D E P h M : decides D P -> decides E P -> wfst h -> length M = 16%nat -> Forall wf M -> D h M = E h M.
Proof.
  intros HD HE Hh HM WM. pose proof (HD h M Hh HM WM) as A. pose proof (HE h M Hh HM WM) as B.
  revert A B. destruct (D h M), (E h M); intros A B; try reflexivity; exfalso.
  - apply proj1 in A. apply proj2 in B. specialize (B (A eq_refl)). discriminate.
  - apply proj2 in A. apply proj1 in B. specialize (A (B eq_refl)). discriminate.
Qed.

Lemma detected_ext D E P bs : decides D P -> decides E P -> Forall (fun b => length b = 64%nat) bs -> forall h, wfst h ->
  detected D h bs = detected E h bs.
Proof.
  intros HD HE. induction bs as [|b bs IH]; intros F h Hh; cbn [detected]; [reflexivity|].
  inversion F as [|? ? Fb F']; subst.
  assert (X : D h (words_of b) = E h (words_of b)).
  { apply (dec_agree D E P); auto. - apply words_of_length. assumption. - apply wf_words_of. }
  unfold cd_block. rewrite X. destruct (E h (words_of b)); f_equal; apply IH; auto using wfst_compress.
Qed.

(** The result in terms of [D] and [U], from the counts in terms of the code. *)
Lemma work_from D U d p (r : option (digest * nat * nat)) (r0 : option digest) : decides D go_detects -> decides_ubc U -> wfst (dh d) ->
  r = Some (mkd (fst (cd_blocks go_decide (dh d, dcol d) (blocks p))) (dx d) (dnx d) (dlen d) (snd (cd_blocks go_decide (dh d, dcol d) (blocks p))),
            (length (blocks p) + 2 * detected go_decide (dh d) (blocks p))%nat, ntotal (dh d) (blocks p)) ->
  option_map (fun r => fst (fst r)) r = r0 ->
  exists d' q t, r = Some (d', q, t) /\ r0 = Some d' /\
    q = (length (blocks p) + 2 * detected D (dh d) (blocks p))%nat /\
    (detected D (dh d) (blocks p) <= t <= total (candidates U) (blocks p))%nat /\
    (detected D (dh d) (blocks p) = O -> t = total (candidates U) (blocks p)).
Proof.
  intros HD HU Hh -> <-. eexists _, _, _. split; [reflexivity|]. split; [reflexivity|].
  assert (X : detected D (dh d) (blocks p) = detected go_decide (dh d) (blocks p)).
  { apply (detected_ext D go_decide go_detects); auto.
    - intros h M A B C. apply go_decide_decides; assumption.
    - apply blocks_len. }
  rewrite X. split; [reflexivity|]. split; [split; [apply ntotal_ge|apply ntotal_le; assumption]|]. apply ntotal_eq. assumption.
Qed.

Theorem go_work D U d p : decides D go_detects -> decides_ubc U -> wfst (dh d) ->
  exists d' q t, blockGeneric_n d p = Some (d', q, t) /\ blockGeneric d p = Some d' /\
    q = (length (blocks p) + 2 * detected D (dh d) (blocks p))%nat /\
    (detected D (dh d) (blocks p) <= t <= total (candidates U) (blocks p))%nat /\
    (detected D (dh d) (blocks p) = O -> t = total (candidates U) (blocks p)).
Proof.
  intros HD HU Hh. apply (work_from D U d p _ _ HD HU Hh); [|apply work_erase]. unfold blockGeneric_n.
  rewrite g_blocks_n_eq by (auto using repeat_length). cbn [obind Nat.add].
  generalize (cd_blocks go_decide (dh d, dcol d) (blocks p)). intros [h1 c1]. reflexivity.
Qed.
