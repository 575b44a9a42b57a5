(** What the verdict means: bit conditions, tables, sibling collisions. *)

From Coq Require Import Arith ZArith NArith List Strings.Byte Lia Bool ZifyNat.
From Verif Require Import Word WordFacts Spec_Sha1 Sha1Facts Spec_DV Spec_Cd Spec_Api DvFacts
  Model_Ubc Gen_UbcGo Gen_UbcC Gen_DvsGo Gen_DvsC UbcReflect Model_Go Model_Api Model_Block
  GoCheck GoBlock GoApi GoStore GoAsm GoProps GoProps2.
Import ListNotations.
Local Open Scope N_scope.
Ltac Zify.zify_post_hook ::= idtac.

(** ** Bit conditions *)

(** C22, C23 *)
Lemma mask_ext p q : ubc_check_prog p = true -> ubc_check_prog q = true ->
  forall W, urun W p 0xFFFFFFFF = urun W q 0xFFFFFFFF.
Proof.
  intros Hp Hq W. apply N.bits_inj. intros i.
  pose proof (urun_wf W p 0xFFFFFFFF eq_refl) as Wp. pose proof (urun_wf W q 0xFFFFFFFF eq_refl) as Wq.
  rewrite wf_bits in Wp, Wq.
  destruct (N.ltb_spec i 32) as [Hi|Hi]; [|rewrite Wp, Wq by assumption; reflexivity].
  rewrite <- (N2Nat.id i) in *. set (d := N.to_nat i) in *. assert (Hd : (d < 32)%nat) by lia.
  pose proof (ubc_check_prog_sound p Hp W d _ Hd (full_mask_bit d Hd)) as A.
  pose proof (ubc_check_prog_sound q Hq W d _ Hd (full_mask_bit d Hd)) as B.
  apply eq_true_iff_eq. tauto.
Qed.
Lemma mask_c_go W : urun W ubc_prog_c 0xFFFFFFFF = urun W ubc_prog_go 0xFFFFFFFF.
Proof. apply mask_ext; [apply ubc_c_checked|apply ubc_go_checked]. Qed.

Definition conds_in_range : bool :=
  forallb (forallb (fun c : cond => let '(t1, b1, t2, b2, _) := c in
    (35 <=? t1) && (t1 <=? 64) && (35 <=? t2) && (t2 <=? 64) && (b1 <? 32) && (b2 <? 32))%nat%bool) ubc_table.
Lemma conds_in_range_ok : conds_in_range = true. Proof. vm_compute. reflexivity. Qed.
Lemma ubc_in_range d c : In c (nth d ubc_table []) ->
  let '(t1, b1, t2, b2, _) := c in (35 <= t1 <= 64 /\ 35 <= t2 <= 64 /\ b1 < 32 /\ b2 < 32)%nat.
Proof.
  intros H. pose proof conds_in_range_ok as A. unfold conds_in_range in A. rewrite forallb_forall in A.
  destruct (Nat.lt_ge_cases d (length ubc_table)) as [Hd|Hd].
  2:{ rewrite nth_overflow in H by assumption. destruct H. }
  specialize (A _ (nth_In ubc_table [] Hd)). rewrite forallb_forall in A. specialize (A _ H).
  destruct c as [[[[t1 b1] t2] b2] v]. rewrite !andb_true_iff, !Nat.leb_le, !Nat.ltb_lt in A. tauto.
Qed.
Lemma ubc_local d W W' : (forall t, (35 <= t <= 64)%nat -> nth t W 0 = nth t W' 0) -> ubc_holds d W -> ubc_holds d W'.
Proof.
  intros H. unfold ubc_holds. rewrite !Forall_forall. intros A c Hc. specialize (A c Hc).
  pose proof (ubc_in_range d c Hc) as R. destruct c as [[[[t1 b1] t2] b2] v].
  unfold cond_holds in *. rewrite <- !H by tauto. assumption.
Qed.
Lemma mask_local W W' : (forall t, (35 <= t <= 64)%nat -> nth t W 0 = nth t W' 0) ->
  CalculateDvMask (Some W) = CalculateDvMask (Some W').
Proof.
  intros H. apply N.bits_inj. intros i.
  pose proof (mask_go_wf (Some W)) as A. pose proof (mask_go_wf (Some W')) as B. rewrite wf_bits in A, B.
  destruct (N.ltb_spec i 32) as [Hi|Hi]; [|rewrite A, B by assumption; reflexivity].
  rewrite <- (N2Nat.id i) in *. set (d := N.to_nat i) in *. assert (Hd : (d < 32)%nat) by lia.
  pose proof (mask_go_spec W d Hd) as C. pose proof (mask_go_spec W' d Hd) as E.
  apply eq_true_iff_eq. rewrite C, E. split; apply ubc_local; [|symmetry]; auto.
Qed.

(** C27 *)
Definition cond_sym (D : list word) (c : cond) : bool :=
  let '(t1, b1, t2, b2, _) := c in
  Bool.eqb (N.testbit (nth t1 D 0) (N.of_nat b1)) (N.testbit (nth t2 D 0) (N.of_nat b2)).
Definition conds_sym (d : nat) : bool :=
  (fun D => forallb (cond_sym D) (nth d ubc_table [])) (dmsg (the_dv d)).
Lemma conds_sym_ok d : (d < 32)%nat -> conds_sym d = true.
Proof. revert d. apply forall_below. vm_compute. reflexivity. Qed.
Lemma ubc_symmetric d W : (d < 32)%nat -> length W = 80%nat ->
  (ubc_holds d (xorl W (dmsg (the_dv d))) <-> ubc_holds d W).
Proof.
  intros Hd HW. unfold ubc_holds. rewrite !Forall_forall.
  assert (E : forall c, In c (nth d ubc_table []) -> (cond_holds (xorl W (dmsg (the_dv d))) c <-> cond_holds W c)).
  { intros c Hc. pose proof (conds_sym_ok d Hd) as A. unfold conds_sym in A. cbv beta in A.
    rewrite forallb_forall in A. specialize (A c Hc).
    destruct c as [[[[t1 b1] t2] b2] v]. unfold cond_sym in A. apply Bool.eqb_prop in A. unfold cond_holds.
    rewrite !nth_xorl by (rewrite HW, dmsg_length; reflexivity). rewrite !N.lxor_spec, A.
    destruct (N.testbit (nth t1 W 0) (N.of_nat b1)), (N.testbit (nth t2 W 0) (N.of_nat b2)),
      (N.testbit (nth t2 (dmsg (the_dv d)) 0) (N.of_nat b2)); tauto. }
  split; intros H c Hc; apply E; auto.
Qed.
Lemma dvs_go_entry d : (d < 32)%nat -> nth d dvs_go terminator = expected_entry d.
Proof.
  intros Hd. rewrite dvs_go_eq, app_nth1 by (rewrite map_length, seq_length; assumption).
  rewrite (nth_indep _ terminator (expected_entry 0)) by (rewrite map_length, seq_length; assumption).
  rewrite map_nth. f_equal. rewrite seq_nth by assumption. reflexivity.
Qed.
Lemma mask_symmetric d W : (d < 32)%nat -> length W = 80%nat ->
  let e := nth d dvs_go terminator in
  N.testbit (CalculateDvMask (Some (xorl W (dm e)))) (maskB e) = N.testbit (CalculateDvMask (Some W)) (maskB e).
Proof.
  intros Hd HW. cbv zeta. rewrite (dvs_go_entry d Hd). unfold expected_entry. cbv zeta. cbn [Model_Ubc.dm maskB].
  apply eq_true_iff_eq. rewrite !mask_go_spec by assumption. apply ubc_symmetric; assumption.
Qed.

(** C24: the window without disturbances. *)
Lemma quiet_window d : (d < 32)%nat -> forall t, (test_step (the_dv d) - 5 <= t < test_step (the_dv d))%nat ->
  nth (t + 5) (dvec (the_dv d)) 0 = 0.
Proof.
  intros Hd t Ht.
  assert (A : forallb (fun d => forallb (fun k => nth (test_step (the_dv d) + k) (dvec (the_dv d)) 0 =? 0) (seq 0 5)) (seq 0 32) = true).
  { vm_compute. reflexivity. }
  rewrite forallb_forall in A. specialize (A d ltac:(apply in_seq; lia)). rewrite forallb_forall in A.
  assert (T5 : (5 <= test_step (the_dv d))%nat) by (destruct (test_step_cases d Hd) as [->| ->]; lia).
  specialize (A (t + 5 - test_step (the_dv d))%nat ltac:(apply in_seq; lia)). apply N.eqb_eq in A.
  replace (test_step (the_dv d) + (t + 5 - test_step (the_dv d)))%nat with (t + 5)%nat in A by lia. exact A.
Qed.

(** ** Siblings *)
Lemma add32_cancel x y z : wf x -> wf y -> wf z -> add32 x z = add32 y z -> x = y.
Proof.
  intros Hx Hy Hz H. apply (f_equal (fun v => sub32 v z)) in H.
  rewrite !sub32_add32 in H by assumption. assumption.
Qed.
Lemma addst_cancel x y z : wfst x -> wfst y -> wfst z -> addst x z = addst y z -> x = y.
Proof.
  destruct x, y, z. unfold wfst, addst. cbn [Word.sa Word.sb Word.sc Word.sd Word.se]. intros (?&?&?&?&?) (?&?&?&?&?) (?&?&?&?&?) Heq.
  injection Heq as X1 X2 X3 X4 X5. f_equal; match goal with X : add32 ?x ?z = add32 ?y ?z |- ?x = ?y => apply (add32_cancel x y z); assumption end.
Qed.
Lemma test_step_le v : (test_step v <= 80)%nat.
Proof. unfold test_step. destruct (_ <=? _)%nat; lia. Qed.

(** At step 58 the test of the Go code finds an attacked block only if all five state words
    are equal. *)
Lemma rot2_fix s : rot2 s = s <-> all_equal s.
Proof. destruct s. unfold rot2, all_equal. cbn. split; [intros H; injection H; intros; subst; auto|intros (?&?&?&?); subst; reflexivity]. Qed.

Lemma missed_58 d h M : (d < 32)%nat -> wfst h -> length M = 16%nat -> test_step (the_dv d) = 58%nat ->
  attacked_by d h M -> (go_detects_by d h M <-> all_equal (state_at 58 h M)).
Proof.
  intros Hd Hh HM HT (_ & Hu & h' & W' & S' & C'). rewrite <- rot2_fix. unfold go_detects_by. rewrite HT. cbn [Nat.eqb].
  unfold siblings_rot. rewrite HT in *.
  assert (Et : compress h' (sib_block (the_dv d) M) = addst h' (steps 58 (skipn 58 (schedule (sib_block (the_dv d) M))) (state_at 58 h M))).
  { rewrite (compress_split 58) by (auto using sib_block_length; lia). rewrite S'. reflexivity. }
  split.
  - intros (_ & _ & h2 & W2 & S2 & C2).
    assert (h2 = h').
    { rewrite <- C', Et in C2. eapply addst_cancel; [| | |exact C2]; auto with wf. }
    subst h2. congruence.
  - intros E. split; [assumption|]. split; [assumption|]. exists h'. rewrite E. split; [assumption|].
    split; [assumption|]. congruence.
Qed.

(** C16 *)
Lemma siblings_sym d h M h' : (d < 32)%nat -> length M = 16%nat -> wfst h ->
  siblings (the_dv d) h M h' -> siblings (the_dv d) h' (sib_block (the_dv d) M) h.
Proof.
  intros Hd HM Hh (W & S & C). split; [assumption|]. rewrite sib_block_invol by assumption. split; congruence.
Qed.
Lemma attacked_sym d h M : wfst h -> length M = 16%nat -> Forall wf M -> attacked_by d h M ->
  exists h', siblings (the_dv d) h M h' /\ attacked_by d h' (sib_block (the_dv d) M).
Proof.
  intros Hh HM WM (Hd & Hu & h' & S). exists h'. split; [assumption|]. split; [assumption|]. split.
  - rewrite sib_schedule by assumption. apply ubc_symmetric; auto using schedule_length.
  - exists h. apply siblings_sym; assumption.
Qed.

Definition bytes_of (M : list word) : list byte := concat (map be32 M).
Lemma bytes_of_length M : length (bytes_of M) = (4 * length M)%nat.
Proof. unfold bytes_of. induction M as [|w M IH]; [reflexivity|]. cbn [map concat]. rewrite app_length, IH. cbn [length be32]. lia. Qed.
Lemma words_of_bytes_of M : Forall wf M -> words_of (bytes_of M) = M.
Proof.
  unfold bytes_of. induction 1 as [|w M Hw _ IH]; [reflexivity|]. cbn [map concat].
  pose proof (be_val_be32 w Hw) as E. unfold be32 in *. cbn [app words_of]. rewrite E, IH. reflexivity.
Qed.

Lemma both_detected m1 m2 d h b x nx len : (d < 32)%nat -> test_step (the_dv d) = 65%nat ->
  wfst h -> length b = 64%nat -> attacked_by d h (words_of b) ->
  exists h' b', wfst h' /\ length b' = 64%nat /\ b' <> b /\
    words_of b' = sib_block (the_dv d) (words_of b) /\ compress h' (words_of b') = compress h (words_of b) /\
    (exists g, block_of m1 (mkd h x nx len false) b = Some (mkd g x nx len true)) /\
    (exists g, block_of m2 (mkd h' x nx len false) b' = Some (mkd g x nx len true)).
Proof.
  intros Hd HT Hh Hb Ha. pose proof (words_of_length b 16 Hb) as HM. pose proof (wf_words_of b) as WM.
  destruct (attacked_sym d h (words_of b) Hh HM WM Ha) as (h' & S & Ha').
  set (M' := sib_block (the_dv d) (words_of b)) in *.
  assert (HM' : length M' = 16%nat) by (apply sib_block_length; assumption).
  assert (WM' : Forall wf M') by (apply sib_block_wf; assumption).
  assert (Lb : length (bytes_of M') = 64%nat) by (rewrite bytes_of_length, HM'; reflexivity).
  assert (Det : forall m h M b, wfst h -> length b = 64%nat -> words_of b = M -> attacked_by d h M ->
     exists g, block_of m (mkd h x nx len false) b = Some (mkd g x nx len true)).
  { clear - HT. intros m h M b Hh Hb <- (Hd & Hu & h' & S). rewrite block_of_ok by exact Hh.
    unfold block_result. cbn [dh dx dnx dlen dcol]. rewrite (blocks_one b Hb), cd_blocks_cons. cbn [fst snd orb cd_blocks fold_left].
    assert (E : go_decide h (words_of b) = true).
    { apply (go_decide_ok h _ Hh (words_of_length b 16 Hb) (wf_words_of b)). exists d. split; [assumption|]. split; [assumption|].
      exists h'. rewrite HT. exact S. }
    rewrite E. eauto. }
  exists h', (bytes_of M'). rewrite (words_of_bytes_of M' WM'). destruct S as (W' & S & C).
  split; [assumption|]. split; [assumption|]. split.
  { intros E. apply (f_equal words_of) in E. rewrite words_of_bytes_of in E by assumption. revert E. apply sib_block_neq; assumption. }
  split; [reflexivity|]. split; [assumption|]. split; [apply (Det m1 h (words_of b)); auto|].
  apply (Det m2 h' M'); auto. apply words_of_bytes_of. assumption.
Qed.

(** ** C14, C15 *)
Lemma cd_blocks_verdict D bs : forall s, snd (cd_blocks D s bs) = true <->
  snd s = true \/ exists k b, nth_error bs k = Some b /\ D (fst (cd_blocks D s (firstn k bs))) (words_of b) = true.
Proof.
  induction bs as [|b bs IH]; intros s.
  - cbn. split; [auto|]. intros [H|(k & b & H & _)]; [assumption|]. destruct k; discriminate.
  - rewrite cd_blocks_cons, IH. cbn [fst snd]. rewrite orb_true_iff. split.
    + intros [[H|H]|(k & b' & H1 & H2)]; [auto| |].
      * right. exists 0%nat, b. auto.
      * right. exists (S k), b'. cbn [nth_error firstn]. rewrite cd_blocks_cons. auto.
    + intros [H|(k & b' & H1 & H2)]; [auto|]. destruct k as [|k].
      * injection H1 as ->. auto.
      * cbn [nth_error firstn] in *. rewrite cd_blocks_cons in H2. right. eauto.
Qed.
Lemma nth_blocks_len m k b : nth_error (blocks m) k = Some b -> length b = 64%nat.
Proof. intros H. pose proof (blocks_len m) as L. rewrite Forall_forall in L. apply L. eapply nth_error_In. eassumption. Qed.
Lemma sha_detect D m : decides D go_detects ->
  (snd (cd_sum D m) = true <->
   exists k b, nth_error (blocks (pad m)) k = Some b /\
     go_detects (fst (cd_blocks D (IV, false) (firstn k (blocks (pad m))))) (words_of b)).
Proof.
  intros HD. unfold cd_sum. pose proof (cd_blocks_verdict D (blocks (pad m)) (IV, false)) as H.
  destruct (cd_blocks D (IV, false) (blocks (pad m))) as [h f] eqn:E. cbn [snd fst] in *. rewrite H.
  split.
  - intros [A|(k & b & A & B)]; [discriminate|]. exists k, b. split; [assumption|].
    apply (HD _ _ (wfst_cd_blocks D _ (IV, false) wfst_IV) (words_of_length b 16 (nth_blocks_len _ _ _ A)) (wf_words_of b)). assumption.
  - intros (k & b & A & B). right. exists k, b. split; [assumption|].
    apply (HD _ _ (wfst_cd_blocks D _ (IV, false) wfst_IV) (words_of_length b 16 (nth_blocks_len _ _ _ A)) (wf_words_of b)). assumption.
Qed.

Lemma verdict_iff early D p k i inp m : decides D go_detects -> scoped 0 (calls p) ->
  nth_error (calls p) k = Some (OCRSum i inp) -> written i (firstn k (calls p)) = Some m ->
  exists ds rs b v, run_program early p = Some (ds, rs) /\ nth_error rs k = Some (RVerdict b v) /\
    (v = true <-> exists k b, nth_error (blocks (pad m)) k = Some b /\
       go_detects (fst (cd_blocks D (IV, false) (firstn k (blocks (pad m))))) (words_of b)).
Proof.
  intros HD Hs Hk Hm. destruct (crsum_exact early D p k i inp m HD Hs Hk Hm) as (ds & rs & E & Er).
  exists ds, rs. do 2 eexists. split; [eassumption|]. split; [eassumption|]. apply sha_detect. assumption.
Qed.
Lemma attacked_65_detected d h M : test_step (the_dv d) = 65%nat -> (attacked_by d h M <-> go_detects_by d h M).
Proof. intros HT. unfold attacked_by, go_detects_by. rewrite HT. tauto. Qed.

Lemma attacked_reported early D p k i inp m j b d : decides D go_detects -> scoped 0 (calls p) ->
  nth_error (calls p) k = Some (OCRSum i inp) -> written i (firstn k (calls p)) = Some m ->
  nth_error (blocks (pad m)) j = Some b -> test_step (the_dv d) = 65%nat ->
  attacked_by d (fst (cd_blocks D (IV, false) (firstn j (blocks (pad m))))) (words_of b) ->
  exists ds rs o, run_program early p = Some (ds, rs) /\ nth_error rs k = Some (RVerdict o true).
Proof.
  intros HD Hs Hk Hm Hj HT Ha. destruct (verdict_iff early D p k i inp m HD Hs Hk Hm) as (ds & rs & o & v & E & Er & V).
  assert (v = true) as ->. { apply V. exists j, b. split; [assumption|]. exists d. apply attacked_65_detected; assumption. }
  eauto.
Qed.
Lemma reported_real early D p k i inp m : decides D go_detects -> scoped 0 (calls p) ->
  nth_error (calls p) k = Some (OCRSum i inp) -> written i (firstn k (calls p)) = Some m ->
  forall ds rs o, run_program early p = Some (ds, rs) -> nth_error rs k = Some (RVerdict o true) ->
  exists j b d, nth_error (blocks (pad m)) j = Some b /\ (d < 32)%nat /\ ubc_holds d (schedule (words_of b)) /\
    let h := fst (cd_blocks D (IV, false) (firstn j (blocks (pad m)))) in let M := words_of b in let M' := sib_block (the_dv d) M in
    (test_step (the_dv d) = 65%nat -> M' <> M /\ exists h', wfst h' /\ compress h' M' = compress h M /\ state_at 65 h' M' = state_at 65 h M) /\
    (test_step (the_dv d) = 58%nat -> exists h', siblings_rot (the_dv d) h M h').
Proof.
  intros HD Hs Hk Hm ds rs o E Er. destruct (verdict_iff early D p k i inp m HD Hs Hk Hm) as (ds' & rs' & o' & v & E' & Er' & V).
  rewrite E in E'. injection E' as <- <-. rewrite Er in Er'. injection Er' as <- <-.
  destruct V as [V _]. destruct (V eq_refl) as (j & b & Hj & d & Hd & Hu & h' & S).
  exists j, b, d. split; [assumption|]. split; [assumption|]. split; [assumption|]. cbv zeta. split.
  - intros HT. rewrite HT in S. cbn [Nat.eqb] in S. split.
    + apply sib_block_neq; [assumption|]. apply words_of_length with (n := 16%nat). eapply nth_blocks_len. eassumption.
    + destruct S as (A & B & C). rewrite HT in B. exists h'. auto.
  - intros HT. rewrite HT in S. cbn [Nat.eqb] in S. eauto.
Qed.

(** ** C34 *)
Lemma be64_inj x y : x < M64 -> y < M64 -> be64 x = be64 y -> x = y.
Proof. intros Hx Hy H. rewrite <- (be_val_be64 x Hx), H. apply be_val_be64. assumption. Qed.
Lemma be64_length x : length (be64 x) = 8%nat. Proof. reflexivity. Qed.
Lemma pad_inj m m' : N.of_nat (length m) < 2 ^ 61 -> N.of_nat (length m') < 2 ^ 61 -> pad m = pad m' -> m = m'.
Proof.
  intros Hm Hm' E. unfold pad, padding in E. rewrite !app_assoc in E.
  assert (L : 8 * N.of_nat (length m) < M64) by (change M64 with (8 * 2 ^ 61); apply N.mul_lt_mono_pos_l; [reflexivity|assumption]).
  assert (L' : 8 * N.of_nat (length m') < M64) by (change M64 with (8 * 2 ^ 61); apply N.mul_lt_mono_pos_l; [reflexivity|assumption]).
  assert (Tl : forall (a a' b b' : list byte), length b = length b' -> a ++ b = a' ++ b' -> a = a' /\ b = b').
  { intros a a' b b' Hl H. assert (La : length a = length a') by (apply (f_equal (@length _)) in H; rewrite !app_length in H; lia).
    assert (A : firstn (length a) (a ++ b) = firstn (length a) (a' ++ b')) by (rewrite H; reflexivity).
    assert (B : skipn (length a) (a ++ b) = skipn (length a) (a' ++ b')) by (rewrite H; reflexivity).
    rewrite firstn_app, firstn_all, Nat.sub_diag, firstn_O, app_nil_r in A.
    rewrite skipn_app, skipn_all, Nat.sub_diag in B. cbn in B.
    rewrite La, firstn_app, firstn_all, Nat.sub_diag, firstn_O, app_nil_r in A.
    rewrite La, skipn_app, skipn_all, Nat.sub_diag in B. auto. }
  apply Tl in E; [|reflexivity]. destruct E as [E1 E2].
  apply be64_inj in E2; [|apply N.mod_upper_bound; discriminate|apply N.mod_upper_bound; discriminate].
  rewrite !N.mod_small in E2 by assumption.
  assert (El : length m = length m') by lia. rewrite El in E1.
  apply Tl in E1; [|reflexivity]. destruct E1 as [E1 _]. apply Tl in E1; [tauto|reflexivity].
Qed.
Lemma cut_concat n : forall l, length l = (64 * n)%nat -> concat (cut n l) = l.
Proof.
  induction n as [|n IH]; intros l H; cbn [cut concat].
  - destruct l; [reflexivity|discriminate].
  - rewrite IH by (rewrite skipn_length; lia). apply firstn_skipn.
Qed.
Lemma pad_whole m : exists n, length (pad m) = (64 * n)%nat.
Proof.
  unfold pad. rewrite app_length, <- padding_mod.
  assert (L : N.of_nat (length m) mod M64 < M64) by (apply N.mod_upper_bound; discriminate).
  rewrite (padding_len _ L), mod64_mod.
  pose proof (N.mod_upper_bound (N.of_nat (length m)) 64 ltac:(discriminate)) as Hr.
  pose proof (N.div_mod (N.of_nat (length m)) 64 ltac:(discriminate)) as Hd.
  set (r := N.of_nat (length m) mod 64) in *. set (q := N.of_nat (length m) / 64) in *. clearbody q r.
  destruct (N.ltb_spec r 56).
  - exists (N.to_nat (q + 1)). lia.
  - exists (N.to_nat (q + 2)). lia.
Qed.
Lemma blocks_concat m : concat (blocks (pad m)) = pad m.
Proof.
  destruct (pad_whole m) as [n E]. unfold blocks. rewrite E, Nat.mul_comm, Nat.div_mul by discriminate.
  apply cut_concat. assumption.
Qed.
Lemma blocks_pad_inj m m' : N.of_nat (length m) < 2 ^ 61 -> N.of_nat (length m') < 2 ^ 61 ->
  blocks (pad m) = blocks (pad m') -> m = m'.
Proof. intros H H' E. apply pad_inj; auto. rewrite <- (blocks_concat m), E. apply blocks_concat. Qed.
