(** The counters of the assembly builds and of the C library. *)

From Coq Require Import Arith ZArith NArith List Strings.Byte Lia ZifyNat Bool.
From Verif Require Import Word WordFacts Spec_Sha1 Sha1Facts Spec_DV Spec_Cd Spec_Api Spec_C DvFacts Model_Ubc Gen_DvsGo Gen_DvsC Model_Go Model_Asm Model_Amd64
  Gen_Amd64 Model_Arm64 Gen_Arm64 GoCheck GoBlock GoAmd64 GoArm64 Model_Api Model_Block GoAsm Model_CSteps Model_C CSteps CProcess CCtx Spec_Work Model_Work GoWork.
Import ListNotations.
Local Open Scope N_scope.
Ltac Zify.zify_post_hook ::= idtac.

(** ** Assembly builds *)

Lemma asm_blocks_erase call : forall fuel k p h m1 cs col t,
  option_map fst (asm_blocks_n call fuel k p h m1 cs col t) = asm_blocks call fuel k p h m1 cs col.
Proof.
  induction fuel as [|fuel IH]; intros k p h m1 cs col t; cbn [asm_blocks_n asm_blocks]; destruct (64 <=? length p)%nat; try reflexivity.
  cbv zeta. destruct (call k h (firstn 64 p) m1 cs) as [[[h1 m2] cs1]|]; [|reflexivity]. cbn [obind].
  rewrite <- (checkCollision_erase _ _ _ t).
  destruct (checkCollision_n m2 (rectify m2 cs1) h1 t) as [[c t1]|]; [|reflexivity]. cbn [option_map obind fst snd].
  destruct c; [|apply IH].
  destruct (call (k + 1)%nat h1 (firstn 64 p) m2 (rectify m2 cs1)) as [[[h2 m3] cs2]|]; [|reflexivity]. cbn [obind].
  destruct (call (k + 2)%nat h2 (firstn 64 p) m3 cs2) as [[[h3 m4] cs3]|]; [|reflexivity]. cbn [obind]. apply IH.
Qed.

Lemma asm_block_erase call d p : option_map (fun r => fst (fst r)) (asm_block_n call d p) = asm_block call d p.
Proof.
  unfold asm_block_n, asm_block. rewrite <- (asm_blocks_erase _ _ _ _ _ _ _ _ 0).
  destruct (asm_blocks_n _ _ _ _ _ _ _ _ _) as [[[h col] [q t]]|]; reflexivity.
Qed.

Theorem impl_erase m d p : option_map (fun r => fst (fst r)) (block_of_n m d p) = block_of m d p.
Proof. destruct m; cbn [block_of_n block_of]; [apply work_erase|apply asm_block_erase|apply asm_block_erase]. Qed.

Lemma asm_blocks_n_eq call : call_ok call -> forall fuel k p h m1 cs col t, (length p <= fuel)%nat -> wfst h -> length m1 = 80%nat ->
  asm_blocks_n call fuel k p h m1 cs col t =
  Some (cd_blocks go_decide (h, col) (blocks p),
        (k + (length (blocks p) + 2 * detected go_decide h (blocks p)), t + ntotal h (blocks p))%nat).
Proof.
  intros Hc. induction fuel as [|fuel IH]; intros k p h m1 cs col t Hl Hh Hm; cbn [asm_blocks_n];
    destruct (Nat.leb_spec 64 (length p)).
  - lia.
  - rewrite blocks_short by assumption. cbn [length detected ntotal Nat.add Nat.mul]. rewrite !Nat.add_0_r. reflexivity.
  - assert (Hf : length (firstn 64 p) = 64%nat) by (rewrite firstn_length; lia).
    set (M := words_of (firstn 64 p)).
    assert (Ml : length M = 16%nat) by (apply words_of_length; rewrite Hf; reflexivity).
    assert (Mw : Forall wf M) by apply wf_words_of.
    assert (Sl : length (schedule M) = 80%nat) by (apply schedule_length; exact Ml).
    rewrite (blocks_cons p) by assumption. rewrite cd_blocks_cons. cbn [fst snd length detected ntotal]. fold M.
    rewrite Hc by assumption. fold M. cbn [obind].
    rewrite rectify_eq by assumption. rewrite checkCollision_n_eq by assumption. cbn [obind fst snd].
    unfold cd_block. destruct (go_decide h M).
    + rewrite Hc by auto with wf. fold M. cbn [obind]. rewrite Hc by auto with wf. fold M. cbn [obind].
      rewrite IH; auto with wf; [|rewrite skipn_length; lia]. rewrite orb_true_r. f_equal. f_equal. f_equal; lia.
    + rewrite IH; auto with wf; [|rewrite skipn_length; lia]. rewrite orb_false_r. f_equal. f_equal. f_equal; lia.
  - rewrite blocks_short by assumption. cbn [length detected ntotal Nat.add Nat.mul]. rewrite !Nat.add_0_r. reflexivity.
Qed.

Lemma asm_block_n_eq call d p : call_ok call -> wfst (dh d) -> asm_block_n call d p =
  Some (mkd (fst (cd_blocks go_decide (dh d, dcol d) (blocks p))) (dx d) (dnx d) (dlen d) (snd (cd_blocks go_decide (dh d, dcol d) (blocks p))),
        (length (blocks p) + 2 * detected go_decide (dh d) (blocks p))%nat, ntotal (dh d) (blocks p)).
Proof.
  intros Hc Hd. unfold asm_block_n. rewrite (asm_blocks_n_eq call Hc) by (auto using repeat_length). cbn [obind Nat.add].
  generalize (cd_blocks go_decide (dh d, dcol d) (blocks p)). intros [h1 c1]. reflexivity.
Qed.

Theorem impl_work m D U d p : decides D go_detects -> decides_ubc U -> wfst (dh d) ->
  exists d' q t, block_of_n m d p = Some (d', q, t) /\ block_of m d p = Some d' /\
    q = (length (blocks p) + 2 * detected D (dh d) (blocks p))%nat /\
    (detected D (dh d) (blocks p) <= t <= total (candidates U) (blocks p))%nat /\
    (detected D (dh d) (blocks p) = O -> t = total (candidates U) (blocks p)).
Proof.
  intros HD HU Hh. destruct m as [|e ok|e ok].
  - apply go_work; assumption.
  - apply (work_from D U d p _ _ HD HU Hh); [|apply impl_erase]. cbn [block_of_n]. apply asm_block_n_eq; [|assumption].
    intros k h q m1 cs A B C. apply call_amd64_ok; auto.
  - apply (work_from D U d p _ _ HD HU Hh); [|apply impl_erase]. cbn [block_of_n]. apply asm_block_n_eq; [|assumption].
    intros k h q m1 cs A B C. apply call_arm64_ok; auto; apply ok.
Qed.

(** ** The C library *)

Lemma process_loop_erase dvs mask : forall c q t,
  option_map (fun r => fst (fst r)) (process_loop_n dvs mask c q t) = process_loop dvs mask c.
Proof.
  induction dvs as [|dv rest IH]; intros c q t; cbn [process_loop_n process_loop]; [reflexivity|].
  destruct (dvType dv =? 0); [reflexivity|]. destruct (32 <=? maskB dv); [reflexivity|]. destruct (N.land _ _ =? 0); [apply IH|]. cbv zeta.
  destruct (nth_error (c_states c) (N.to_nat (testT dv))) as [s|]; cbn [obind]; [|reflexivity].
  destruct (sha1_recompression_step _ _ s) as [[i1 i2]|]; cbn [obind]; [|reflexivity].
  destruct (_ || _); [|apply IH]. cbn [option_map]. match goal with |- context [truth ?x] => destruct (truth x) end; reflexivity.
Qed.

Theorem process_erase cfg c b : option_map (fun r => fst (fst r)) (sha1_process_n cfg c b) = sha1_process cfg c b.
Proof.
  unfold sha1_process_n, sha1_process. cbv zeta. destruct (sha1_compression_states _ _ _ _ _) as [[i m] s].
  destruct (truth _); [|reflexivity]. generalize (c_m1 (set_m1_states m s (set_ihv i (set_ihv1 (c_ihv c) c)))). intros m1.
  match goal with |- context [negb (?x =? 0)] => generalize x end. intros mask.
  destruct (negb (mask =? 0)); [|reflexivity]. apply process_loop_erase.
Qed.

Fixpoint ctests (red : bool) (mask : N) (h : st) (M : list N) (l : list nat) : nat :=
  match l with
  | [] => O
  | d :: l => if N.testbit mask (N.of_nat d) then S (if c_test red d h M then O else ctests red mask h M l) else ctests red mask h M l
  end.

Lemma process_loop_n_cons dv rest mask c q t : process_loop_n (dv :: rest) mask c q t =
    if dvType dv =? 0 then Some (c, q, t)
    else if 32 <=? maskB dv then None
    else if N.land mask (shl32 1 (maskB dv)) =? 0 then process_loop_n rest mask c q t
    else
      let m2 := map (fun j => N.lxor (nth j (c_m1 c) 0) (nth j (dm dv) 0)) (seq 0 80) in
      do state <- nth_error (c_states c) (N.to_nat (testT dv));
      do (ihv2, ihvtmp) <- sha1_recompression_step (N.to_nat (testT dv)) m2 state;
      let c := set_ihv2_m2 ihv2 m2 c in
      if same_words ihvtmp (c_ihv c) || (truth (c_reduced c) && same_words (c_ihv1 c) (c_ihv2 c)) then
        let c := set_found 1 c in
        Some (if truth (c_safe c)
              then (set_ihv (sha1_compression_W (sha1_compression_W (c_ihv c) (c_m1 c)) (c_m1 c)) c, S (S q), S t)
              else (c, q, S t))
      else process_loop_n rest mask c q (S t).
Proof. reflexivity. Qed.

Lemma c_loop_n_eq h M mask : wfst h -> length M = 16%nat -> Forall wf M ->
  forall n a c q t, (a + n = 32)%nat ->
  c_m1 c = schedule M -> c_ihv c = compress h M -> c_ihv1 c = h -> length (c_states c) = 80%nat ->
  view 58 (nth 58 (c_states c) st0) = state_at 58 h M -> view 65 (nth 65 (c_states c) st0) = state_at 65 h M ->
  exists c', process_loop_n (map expected_entry (seq a n) ++ [terminator]) mask c q t =
    Some (c', (q + if existsb (fun d => N.testbit mask (N.of_nat d) && c_test (truth (c_reduced c)) d h M) (seq a n) && truth (c_safe c) then 2 else 0)%nat,
              (t + ctests (truth (c_reduced c)) mask h M (seq a n))%nat).
Proof.
  intros Hh HM HMw. induction n as [|n IH]; intros a c q t Ha E1 E2 E3 E4 E58 E65.
  - exists c. cbn [seq map app existsb andb ctests]. rewrite process_loop_n_cons. change (dvType terminator =? 0) with true. cbv iota.
    rewrite !Nat.add_0_r. reflexivity.
  - change (seq a (S n)) with (a :: seq (S a) n). rewrite map_cons, <- app_comm_cons, process_loop_n_cons.
    assert (T0 : (dvType (expected_entry a) =? 0) = false) by (unfold expected_entry; cbv zeta; cbn [dvType]; destruct (dty (the_dv a)); reflexivity).
    rewrite T0. replace (maskB (expected_entry a)) with (N.of_nat a) by reflexivity.
    replace (32 <=? N.of_nat a) with false by (symmetry; apply N.leb_gt; lia).
    rewrite mask_bit_test by lia. cbn [existsb ctests].
    destruct (N.testbit mask (N.of_nat a)) eqn:Eb; cbn [negb andb orb].
    2:{ apply IH; auto; lia. }
    replace (N.to_nat (testT (expected_entry a))) with (test_step (the_dv a))
      by (unfold expected_entry; cbv zeta; cbn [testT]; rewrite Nat2N.id; reflexivity).
    replace (Model_Ubc.dm (expected_entry a)) with (dmsg (the_dv a)) by reflexivity.
    rewrite E1, (map_xor_eq _ _ (schedule_length M HM) (dmsg_length (the_dv a))).
    destruct (entry_step h M c Hh HM HMw E4 E58 E65 a ltac:(lia)) as (s & -> & E). cbn [obind]. rewrite E.
    clear E. cbv zeta. cbn [obind]. set (T := test_step (the_dv a)). set (M' := sib_block (the_dv a) M).
    set (h' := back_to T (state_at T h M) M'). set (c1 := set_ihv2_m2 h' _ c).
    assert (X : same_words (compress h' M') (c_ihv c1) || truth (c_reduced c1) && same_words (c_ihv1 c1) (c_ihv2 c1)
                = c_test (truth (c_reduced c)) a h M).
    { unfold same_words. rewrite !xor_eq_test. change (c_ihv c1) with (c_ihv c). change (c_ihv1 c1) with (c_ihv1 c).
      change (c_ihv2 c1) with h'. change (c_reduced c1) with (c_reduced c). rewrite E2, E3. reflexivity. }
    rewrite X. destruct (c_test (truth (c_reduced c)) a h M) eqn:Et; cbn [orb andb].
    + change (c_safe (set_found 1 c1)) with (c_safe c). destruct (truth (c_safe c)).
      * replace (S (S q)) with (q + 2)%nat by lia. replace (S t) with (t + 1)%nat by lia. eexists. reflexivity.
      * replace (q + 0)%nat with q by lia. replace (S t) with (t + 1)%nat by lia. eexists. reflexivity.
    + destruct (IH (S a) c1 q (S t)) as (c' & Ec); auto; try lia.
      exists c'. eapply eq_trans; [exact Ec|]. change (c_reduced c1) with (c_reduced c). change (c_safe c1) with (c_safe c).
      rewrite Nat.add_succ_r. reflexivity.
Qed.

Lemma ctests_le red mask h M l : (ctests red mask h M l <= length (filter (fun d => N.testbit mask (N.of_nat d)) l))%nat.
Proof.
  induction l as [|d l IH]; cbn [ctests filter]; [apply le_n|].
  destruct (N.testbit mask (N.of_nat d)); [|assumption]. cbn [length]. destruct (c_test red d h M); lia.
Qed.
Lemma ctests_eq red mask h M l : existsb (fun d => N.testbit mask (N.of_nat d) && c_test red d h M) l = false ->
  ctests red mask h M l = length (filter (fun d => N.testbit mask (N.of_nat d)) l).
Proof.
  induction l as [|d l IH]; cbn [ctests filter existsb]; [reflexivity|]. intros E. apply orb_false_elim in E. destruct E as [E1 E2].
  destruct (N.testbit mask (N.of_nat d)); [|auto]. cbn [length]. cbn [andb] in E1. rewrite E1. f_equal. auto.
Qed.
Lemma ctests_0 red h M l : ctests red 0 h M l = O.
Proof. induction l as [|d l IH]; cbn [ctests]; auto. Qed.

Lemma process_n_eq cfg c block : host_be cfg = macro_be cfg -> wfst (c_ihv c) -> length block = 64%nat ->
  length (c_m1 c) = 80%nat -> length (c_states c) = 80%nat ->
  let h := c_ihv c in let M := words_of block in
  exists c', sha1_process_n cfg c block =
    Some (c', (1 + if c_decide (truth (c_detect c)) (truth (c_ubc c)) (truth (c_reduced c)) h M && truth (c_safe c) then 2 else 0)%nat,
              if truth (c_detect c) then ctests (truth (c_reduced c)) (c_mask (truth (c_ubc c)) M) h M (seq 0 32) else O).
Proof.
  intros Hcfg Hh Hb Hm1 Hst. unfold sha1_process_n. cbv zeta.
  set (h := c_ihv c) in *. set (M := words_of block).
  assert (HM : length M = 16%nat) by (apply words_of_length; rewrite Hb; reflexivity).
  assert (HMw : Forall wf M) by apply wf_words_of.
  pose proof (schedule_length M HM) as LW.
  change (c_ihv (set_ihv1 h c)) with h. change (c_m1 (set_ihv1 h c)) with (c_m1 c). change (c_states (set_ihv1 h c)) with (c_states c).
  destruct (compression_states_eq cfg h block Hcfg Hh Hb (c_m1 c) (c_states c) Hm1 Hst) as (sts & -> & Ls & E58 & E65).
  fold M in E58, E65. fold M. cbv zeta.
  set (c1 := set_m1_states (schedule M) sts (set_ihv (compress h M) (set_ihv1 h c))).
  change (c_detect c1) with (c_detect c). change (c_ubc c1) with (c_ubc c). change (c_m1 c1) with (schedule M).
  unfold c_decide, c_mask.
  destruct (truth (c_detect c)); cbn [andb].
  2:{ exists c1. reflexivity. }
  set (mask := if truth (c_ubc c) then ubc_check (schedule M) else 4294967295).
  destruct (N.eqb_spec mask 0) as [Hz|Hz]; cbn [negb].
  - exists c1.
    replace (existsb (fun d => N.testbit mask (N.of_nat d) && c_test (truth (c_reduced c)) d h M) (seq 0 32)) with false.
    2:{ symmetry. rewrite Hz. generalize (seq 0 32). induction l as [|x l IH]; [reflexivity|].
        cbn [existsb]. rewrite IH, N.bits_0. reflexivity. }
    rewrite Hz, ctests_0. reflexivity.
  - rewrite dvs_c_eq.
    destruct (c_loop_n_eq h M mask Hh HM HMw 32 0 c1 1 0) as (c' & Ec); auto.
    exists c'. eapply eq_trans; [exact Ec|]. change (c_reduced c1) with (c_reduced c). change (c_safe c1) with (c_safe c). reflexivity.
Qed.

Lemma c_candidates_mask U b c : decides_ubc U ->
  c_candidates U (ctx_opts c) b =
  if truth (c_detect c) then length (filter (fun d => N.testbit (c_mask (truth (c_ubc c)) (words_of b)) (N.of_nat d)) (seq 0 32)) else O.
Proof.
  intros HU. unfold c_candidates, ctx_opts. cbn [o_detect o_ubc]. destruct (truth (c_detect c)); [|reflexivity].
  destruct (truth (c_ubc c)); [|reflexivity]. unfold candidates, c_mask. f_equal. apply filter_ext_in'. intros d Hd. apply in_seq in Hd.
  assert (Hd' : (d < 32)%nat) by lia.
  pose proof (HU d (schedule (words_of b)) Hd') as A. pose proof (mask_c_spec (schedule (words_of b)) d Hd') as B.
  revert A B. generalize (N.testbit (ubc_check (schedule (words_of b))) (N.of_nat d)). intros x.
  destruct (U d (schedule (words_of b))), x; intros A B; try reflexivity; exfalso.
  - apply proj1 in A. apply proj2 in B. specialize (B (A eq_refl)). discriminate.
  - apply proj2 in A. apply proj1 in B. specialize (A (B eq_refl)). discriminate.
Qed.

Theorem c_work D U cfg c b : cdecides D -> decides_ubc U -> host_be cfg = macro_be cfg -> wfst (c_ihv c) -> length b = 64%nat ->
  length (c_m1 c) = 80%nat -> length (c_states c) = 80%nat ->
  let o := ctx_opts c in let f := D o (c_ihv c) (words_of b) in
  exists c' q t, sha1_process_n cfg c b = Some (c', q, t) /\ sha1_process cfg c b = Some c' /\
    q = (if f && o_safe o then 3 else 1)%nat /\ (t <= c_candidates U o b)%nat /\ (f = false -> t = c_candidates U o b).
Proof.
  intros HD HU Hcfg Hh Hb Hm Hs o f.
  destruct (process_n_eq cfg c b Hcfg Hh Hb Hm Hs) as (c' & E).
  pose proof (process_erase cfg c b) as ER. rewrite E in ER. cbn [option_map fst] in ER.
  eexists c', _, _. split; [exact E|]. split; [symmetry; exact ER|].
  assert (F : f = c_decide (truth (c_detect c)) (truth (c_ubc c)) (truth (c_reduced c)) (c_ihv c) (words_of b)).
  { assert (Ml : length (words_of b) = 16%nat) by (apply words_of_length; rewrite Hb; reflexivity).
    pose proof (HD o (c_ihv c) (words_of b) Hh Ml (wf_words_of b)) as A.
    pose proof (cdec_decides o (c_ihv c) (words_of b) Hh Ml (wf_words_of b)) as B. unfold cdec in B.
    change (o_detect o) with (truth (c_detect c)) in B. change (o_ubc o) with (truth (c_ubc c)) in B. change (o_reduced o) with (truth (c_reduced c)) in B.
    fold f in A. revert A B. generalize (c_decide (truth (c_detect c)) (truth (c_ubc c)) (truth (c_reduced c)) (c_ihv c) (words_of b)).
    generalize f. intros x y A B. destruct x, y; try reflexivity; exfalso.
    - apply proj1 in A. apply proj2 in B. specialize (B (A eq_refl)). discriminate.
    - apply proj2 in A. apply proj1 in B. specialize (A (B eq_refl)). discriminate. }
  rewrite F. change (o_safe o) with (truth (c_safe c)). unfold o. rewrite (c_candidates_mask U b c HU).
  split; [destruct (_ && _); reflexivity|]. unfold c_decide. destruct (truth (c_detect c)); [|split; [apply le_n|reflexivity]].
  split; [apply ctests_le|]. cbn [andb]. apply ctests_eq.
Qed.
