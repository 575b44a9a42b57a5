(** The block function of the C library. *)

From Coq Require Import Arith NArith ZArith String List Strings.Byte Lia Bool ZifyNat.
From Verif Require Import Word WordFacts Spec_Sha1 Sha1Facts Spec_Cd Spec_DV DvFacts GoCheck GoBlock GoDetect Model_Ubc UbcReflect
  Gen_UbcC Gen_DvsC Model_Go Model_CSteps Gen_CSteps Model_C CSteps.
Import ListNotations.
Local Open Scope N_scope.
Ltac Zify.zify_post_hook ::= idtac.

(** ** Loading a block *)

Lemma testbit_byte b i : 8 <= i -> N.testbit (b2n b) i = false.
Proof.
  intros H. pose proof (b2n_lt b). destruct (N.eq_dec (b2n b) 0) as [->|Z]; [apply N.bits_0|].
  apply N.bits_above_log2. apply N.log2_lt_pow2; [lia|].
  apply N.lt_le_trans with (2 ^ 8); [assumption|]. apply N.pow_le_mono_r; lia.
Qed.


Lemma be_val_lor a b c d : be_val [a; b; c; d] =
  N.lor (N.lor (N.lor (shl32 (b2n a) 24) (shl32 (b2n b) 16)) (shl32 (b2n c) 8)) (b2n d).
Proof. rewrite be_val_4, lor4 by apply b2n_lt. reflexivity. Qed.

Lemma bswap_eq a b c d : sha1_bswap32 (be_val [d; c; b; a]) = be_val [a; b; c; d].
Proof.
  apply N.bits_inj. intros i. destruct (N.lt_ge_cases i 32) as [Hi|Hi].
  2:{ assert (X : forall x, wf x -> N.testbit x i = false) by (intros x Hx; rewrite wf_bits in Hx; auto).
      rewrite !X; [reflexivity|apply be_val_4_wf|]. unfold sha1_bswap32. pose proof (be_val_4_wf d c b a).
      cbv zeta. auto 10 with wf. }
  rewrite !be_val_lor. unfold sha1_bswap32. cbv zeta.
  repeat rewrite ?N.lor_spec, ?N.land_spec, ?testbit_shl32, ?testbit_shr32.
  assert (E : exists k, (k < 32)%nat /\ i = N.of_nat k) by (exists (N.to_nat i); split; lia).
  destruct E as (k & Hk & ->). clear Hi.
  generalize (testbit_byte a) (testbit_byte b) (testbit_byte c) (testbit_byte d).
  generalize (N.testbit (b2n a)) (N.testbit (b2n b)) (N.testbit (b2n c)) (N.testbit (b2n d)). clear a b c d.
  intros fa fb fc fd Ha Hb Hc Hd.
  do 32 (destruct k as [|k]; [clear Hk; cbv -[orb andb];
    repeat match goal with
      | |- context [fa ?n] => rewrite (Ha n) by (apply N.leb_le; reflexivity)
      | |- context [fb ?n] => rewrite (Hb n) by (apply N.leb_le; reflexivity)
      | |- context [fc ?n] => rewrite (Hc n) by (apply N.leb_le; reflexivity)
      | |- context [fd ?n] => rewrite (Hd n) by (apply N.leb_le; reflexivity) end;
    rewrite ?andb_true_r, ?andb_false_r; cbn [andb orb]; rewrite ?orb_false_r, ?andb_true_r; reflexivity|]). lia.
Qed.

Lemma firstn4_skipn {A} (d : A) l i : (4 * i + 3 < length l)%nat ->
  firstn 4 (skipn (4 * i) l) = [nth (4*i) l d; nth (4*i+1) l d; nth (4*i+2) l d; nth (4*i+3) l d].
Proof.
  generalize (4 * i)%nat. intros n. revert l.
  induction n as [|n IH]; intros l H.
  - destruct l as [|a [|b [|c [|e l]]]]; simpl in *; try lia. reflexivity.
  - destruct l as [|a l]; simpl in H; [lia|]. cbn [skipn]. rewrite IH by lia. reflexivity.
Qed.

Lemma sha1_load_eq cfg block t : host_be cfg = macro_be cfg -> (4 * t + 3 < length block)%nat ->
  sha1_load cfg block t = nth t (words_of block) 0.
Proof.
  intros He Ht. rewrite nth_words_of by assumption. unfold sha1_load, machine_word.
  rewrite (firstn4_skipn x00) by assumption. cbv zeta. rewrite <- He.
  destruct (host_be cfg); [reflexivity|]. cbn [rev app]. apply bswap_eq.
Qed.

(** ** sha1_compression_states *)

Definition ckind_of (t : nat) : ckind := if (t <? 16)%nat then FLoad else if (t <? 20)%nat then FExpand else FRound (round_of t).
Definition cfull (t : nat) : citem :=
  let k := canon t in CFull (ckind_of t) (cs_a k) (cs_b k) (cs_c k) (cs_d k) (cs_e k) t.
Definition live (it : citem) : bool := match it with CStore g _ => defined g | _ => true end.
Definition item_at (t : nat) : list citem :=
  (if (t =? 58)%nat then [CStore "DOSTORESTATE58" 58] else if (t =? 65)%nat then [CStore "DOSTORESTATE65" 65] else [])
  ++ [cfull t].

Lemma comp_states_items_eq : filter live comp_states_items = flat_map item_at (seq 0 80).
Proof. vm_compute. reflexivity. Qed.

Lemma fold_live cfg block l : forall x, fold_left (c_item cfg block) l x = fold_left (c_item cfg block) (filter live l) x.
Proof.
  induction l as [|it l IH]; intros x; [reflexivity|]. cbn [fold_left filter]. rewrite IH.
  destruct it as [g i|]; cbn [live]; [|reflexivity].
  destruct (defined g) eqn:E; [reflexivity|]. cbn [c_item]. rewrite E. reflexivity.
Qed.

Lemma kind_round_of t : (t < 80)%nat -> kind_round (ckind_of t) = round_of t.
Proof.
  intros H. unfold ckind_of. destruct (Nat.ltb_spec t 16); [|destruct (Nat.ltb_spec t 20)]; [..|reflexivity];
  unfold round_of; rewrite Nat.div_small by lia; reflexivity.
Qed.

Section Pass.
  Variables (cfg : ccfg) (h : st) (block : list byte).
  Hypothesis Hcfg : host_be cfg = macro_be cfg.
  Hypothesis Hh : wfst h.
  Hypothesis Hb : length block = 64%nat.
  Let M := words_of block.
  Let W := schedule M.

  Lemma CM_length : length M = 16%nat.
  Proof. apply words_of_length. rewrite Hb. reflexivity. Qed.

  Record CInv (t : nat) (x : cpass) : Prop := mkCInv {
    ci_W : length (cp_W x) = 80%nat;
    ci_st : length (cp_states x) = 80%nat;
    ci_pre : forall j, (j < t)%nat -> nth j (cp_W x) 0 = nth j W 0;
    ci_s : view t (cp_s x) = state_at t h M;
    ci_58 : (58 < t)%nat -> view 58 (nth 58 (cp_states x) st0) = state_at 58 h M;
    ci_65 : (65 < t)%nat -> view 65 (nth 65 (cp_states x) st0) = state_at 65 h M }.

  Lemma cfull_temp t x : (t < 80)%nat -> CInv t x ->
    match ckind_of t with FLoad => sha1_load cfg block t | _ => sha1_mix (cp_W x) t end = nth t W 0.
  Proof.
    intros Ht I. pose proof CM_length as LM.
    assert (X : (16 <= t)%nat -> sha1_mix (cp_W x) t = nth t W 0).
    { intros H. unfold W. rewrite schedule_rec by (assumption || lia). unfold sha1_mix.
      rewrite !(ci_pre _ _ I) by lia. unfold W, mix. rewrite rotate_left_eq. reflexivity. }
    unfold ckind_of. destruct (Nat.ltb_spec t 16); [|destruct (Nat.ltb_spec t 20); auto].
    rewrite sha1_load_eq by (assumption || lia). unfold W. rewrite schedule_low by assumption. reflexivity.
  Qed.

  Lemma cfull_state t x w : (t < 80)%nat -> wfst (cp_s x) ->
    let k := canon t in let r := kind_round (ckind_of t) in let s := cp_s x in
    let s := setv (cs_e k) (add32 (getv (cs_e k) s)
               (add32 (add32 (add32 w (rotate_left (getv (cs_a k) s) 5))
                  (c_f r (getv (cs_b k) s) (getv (cs_c k) s) (getv (cs_d k) s))) (c_K r))) s in
    view (S t) (setv (cs_b k) (rotate_left (getv (cs_b k) s) 30) s) = step t w (view t (cp_s x)).
  Proof.
    intros Ht Hs. cbv zeta. rewrite kind_round_of by assumption. destruct (c_ft t Ht) as [Hf HK].
    unfold view, canon, step. destruct (mod5_cases t) as (n & -> & Hn & ->).
    destruct Hs as (Va & Vb & Vc & Vd & Ve). destruct (cp_s x) as [a b c d e]. simpl in Va, Vb, Vc, Vd, Ve.
    five n; crunch; rewrite Hf, HK by assumption; rewrite !rotate_left_eq; f_equal; add32_eq.
  Qed.

  Lemma cinv_full t x : (t < 80)%nat -> (t <> 58 /\ t <> 65)%nat \/
      (nth t (cp_states x) st0 = cp_s x) -> CInv t x -> CInv (S t) (c_item cfg block x (cfull t)).
  Proof.
    intros Ht Hst I. pose proof CM_length as LM.
    assert (Hs : wfst (cp_s x)) by (apply (view_wf t); rewrite (ci_s _ _ I); auto with wf).
    unfold cfull. cbv zeta. cbn [c_item]. rewrite cfull_temp by assumption.
    constructor; cbn [cp_W cp_states cp_s].
    - rewrite upd_length. apply (ci_W _ _ I).
    - apply (ci_st _ _ I).
    - intros j Hj. destruct (Nat.eq_dec j t) as [->|Hne].
      + apply nth_upd_eq. rewrite (ci_W _ _ I). assumption.
      + rewrite nth_upd_neq by congruence. apply (ci_pre _ _ I). lia.
    - rewrite cfull_state by assumption. rewrite (ci_s _ _ I). symmetry. apply state_at_S; assumption.
    - intros H. destruct (Nat.eq_dec t 58) as [->|]; [|apply (ci_58 _ _ I); lia].
      destruct Hst as [[? ?]|Hst]; [lia|]. rewrite Hst. apply (ci_s _ _ I).
    - intros H. destruct (Nat.eq_dec t 65) as [->|]; [|apply (ci_65 _ _ I); lia].
      destruct Hst as [[? ?]|Hst]; [lia|]. rewrite Hst. apply (ci_s _ _ I).
  Qed.

  Lemma cinv_store t g x : (t < 80)%nat -> defined g = true -> CInv t x ->
    CInv t (c_item cfg block x (CStore g t)) /\
    nth t (cp_states (c_item cfg block x (CStore g t))) st0 = cp_s (c_item cfg block x (CStore g t)).
  Proof.
    intros Ht Hg I. cbn [c_item]. rewrite Hg. split.
    - constructor; cbn [cp_W cp_states cp_s]; try apply I.
      + rewrite upd_length. apply (ci_st _ _ I).
      + intros H. rewrite nth_upd_neq by lia. apply (ci_58 _ _ I H).
      + intros H. rewrite nth_upd_neq by lia. apply (ci_65 _ _ I H).
    - cbn [cp_states cp_s]. apply nth_upd_eq. rewrite (ci_st _ _ I). assumption.
  Qed.

  Lemma cinv_at t x : (t < 80)%nat -> CInv t x -> CInv (S t) (fold_left (c_item cfg block) (item_at t) x).
  Proof.
    intros Ht I. unfold item_at. destruct (Nat.eqb_spec t 58) as [->|H1]; [|destruct (Nat.eqb_spec t 65) as [->|H2]].
    - cbn [app fold_left]. destruct (cinv_store 58 "DOSTORESTATE58" x) as [A B]; [lia|reflexivity|assumption|].
      apply cinv_full; auto.
    - cbn [app fold_left]. destruct (cinv_store 65 "DOSTORESTATE65" x) as [A B]; [lia|reflexivity|assumption|].
      apply cinv_full; auto.
    - cbn [app fold_left]. apply cinv_full; auto.
  Qed.

  Lemma cinv_all n : forall t x, (t + n <= 80)%nat -> CInv t x ->
    CInv (t + n) (fold_left (c_item cfg block) (flat_map item_at (seq t n)) x).
  Proof.
    induction n as [|n IH]; intros t x Ht I.
    - rewrite Nat.add_0_r. assumption.
    - cbn [seq flat_map]. rewrite fold_left_app. replace (t + S n)%nat with (S t + n)%nat by lia.
      apply IH; [lia|]. apply cinv_at; [lia|assumption].
  Qed.

  Lemma compression_states_eq W0 sts : length W0 = 80%nat -> length sts = 80%nat ->
    exists sts', sha1_compression_states cfg h block W0 sts = (compress h M, W, sts') /\
      length sts' = 80%nat /\
      view 58 (nth 58 sts' st0) = state_at 58 h M /\ view 65 (nth 65 sts' st0) = state_at 65 h M.
  Proof.
    intros HW Hsts. unfold sha1_compression_states. cbv zeta. rewrite fold_live, comp_states_items_eq.
    assert (I : CInv (0 + 80) (fold_left (c_item cfg block) (flat_map item_at (seq 0 80)) (mkcp W0 sts h))).
    { apply cinv_all; [lia|]. constructor; cbn [cp_W cp_states cp_s]; auto; try lia. }
    change (0 + 80)%nat with 80%nat in I. revert I.
    generalize (fold_left (c_item cfg block) (flat_map item_at (seq 0 80)) (mkcp W0 sts h)). intros x I.
    exists (cp_states x). pose proof (ci_s _ _ I) as E. rewrite view_80 in E. rewrite E.
    assert (EW : cp_W x = W).
    { apply nth_ext with (d := 0) (d' := 0).
      - rewrite (ci_W _ _ I). unfold W. symmetry. apply schedule_length, CM_length.
      - intros n Hn. apply (ci_pre _ _ I). rewrite (ci_W _ _ I) in Hn. assumption. }
    rewrite EW. split; [reflexivity|]. split; [apply (ci_st _ _ I)|].
    split; [apply (ci_58 _ _ I)|apply (ci_65 _ _ I)]; lia.
  Qed.
End Pass.

(** ** The collision check *)

(** The test for vector d; [red] is the reduced-round option. *)
Definition c_test (red : bool) (d : nat) (h : st) (M : list N) : bool :=
  let v := the_dv d in let T := test_step v in let M' := sib_block v M in
  let h' := back_to T (state_at T h M) M' in
  st_eqb (compress h' M') (compress h M) || (red && st_eqb h h').

(** The mask the loop runs with. *)
Definition c_mask (ubc : bool) (M : list N) : word := if ubc then ubc_check (schedule M) else 0xFFFFFFFF.

Definition c_decide (det ubc red : bool) (h : st) (M : list N) : bool :=
  det && existsb (fun d => N.testbit (c_mask ubc M) (N.of_nat d) && c_test red d h M) (seq 0 32).

(** The fields that sha1_process leaves alone, and those it sets. *)
Record after (c : ctx) (ihv : st) (found : Z) (c' : ctx) : Prop := mkafter {
  af_total : c_total c' = c_total c;
  af_buffer : c_buffer c' = c_buffer c;
  af_safe : c_safe c' = c_safe c;
  af_detect : c_detect c' = c_detect c;
  af_ubc : c_ubc c' = c_ubc c;
  af_reduced : c_reduced c' = c_reduced c;
  af_callback : c_callback c' = c_callback c;
  af_ihv : c_ihv c' = ihv;
  af_found : c_found c' = found;
  af_m1 : length (c_m1 c') = 80%nat;
  af_states : length (c_states c') = 80%nat }.

Lemma map_xor_eq m d : length m = 80%nat -> length d = 80%nat ->
  map (fun j => N.lxor (nth j m 0) (nth j d 0)) (seq 0 80) = xorl m d.
Proof.
  intros Hm Hd. assert (L : length (xorl m d) = 80%nat) by (rewrite xorl_length, Hm, Hd; reflexivity).
  apply nth_ext with (d := 0) (d' := 0); [rewrite map_length, seq_length; symmetry; exact L|].
  intros n Hn. rewrite map_length, seq_length in Hn.
  rewrite nth_xorl by congruence.
  rewrite (nth_indep _ 0 ((fun j => N.lxor (nth j m 0) (nth j d 0)) 0%nat)) by (rewrite map_length, seq_length; assumption).
  rewrite (map_nth (fun j => N.lxor (nth j m 0) (nth j d 0))), seq_nth by assumption. reflexivity.
Qed.

Section Loop.
  Variables (h : st) (M : list N) (c : ctx) (mask : word).
  Hypothesis Hh : wfst h.
  Hypothesis HM : length M = 16%nat.
  Hypothesis HMw : Forall wf M.
  Hypothesis E_m1 : c_m1 c = schedule M.
  Hypothesis E_ihv : c_ihv c = compress h M.
  Hypothesis E_ihv1 : c_ihv1 c = h.
  Hypothesis E_st : length (c_states c) = 80%nat.
  Hypothesis E_58 : view 58 (nth 58 (c_states c) st0) = state_at 58 h M.
  Hypothesis E_65 : view 65 (nth 65 (c_states c) st0) = state_at 65 h M.

  Lemma entry_step d : (d < 32)%nat ->
    exists s, nth_error (c_states c) (test_step (the_dv d)) = Some s /\
    sha1_recompression_step (test_step (the_dv d)) (xorl (schedule M) (dmsg (the_dv d))) s =
    Some (let v := the_dv d in let T := test_step v in let M' := sib_block v M in
          let h' := back_to T (state_at T h M) M' in (h', compress h' M')).
  Proof.
    intros Hd. set (T := test_step (the_dv d)).
    assert (HT : (T = 58 \/ T = 65)%nat) by (apply test_step_cases; assumption).
    assert (X : (T < length (c_states c))%nat) by (rewrite E_st; lia).
    exists (nth T (c_states c) st0). split; [apply nth_error_nth'; assumption|].
    rewrite recompression_step_eq.
    replace ((T =? 58)%nat || (T =? 65)%nat) with true by (destruct HT as [-> | ->]; reflexivity).
    assert (V : view T (nth T (c_states c) st0) = state_at T h M) by (destruct HT as [-> | ->]; assumption).
    rewrite <- sib_schedule by assumption.
    pose proof (sib_block_length d M HM) as L.
    rewrite recompress_fast_eq.
    - rewrite V. cbv zeta. fold T. f_equal. unfold back_to. f_equal.
      rewrite (compress_split T) by (assumption || lia). f_equal. f_equal.
      symmetry. apply (state_at_back T (state_at T h M) (sib_block (the_dv d) M)). auto with wf.
    - lia.
    - apply schedule_length; assumption.
    - apply (view_wf T). rewrite V. auto with wf.
  Qed.
End Loop.

Lemma process_loop_cons dv rest mask c : process_loop (dv :: rest) mask c =
    if dvType dv =? 0 then Some c
    else if 32 <=? maskB dv then None
    else if N.land mask (shl32 1 (maskB dv)) =? 0 then process_loop rest mask c
    else
      let m2 := map (fun j => N.lxor (nth j (c_m1 c) 0) (nth j (dm dv) 0)) (seq 0 80) in
      do state <- nth_error (c_states c) (N.to_nat (testT dv));
      do (ihv2, ihvtmp) <- sha1_recompression_step (N.to_nat (testT dv)) m2 state;
      let c := set_ihv2_m2 ihv2 m2 c in
      if same_words ihvtmp (c_ihv c) || (truth (c_reduced c) && same_words (c_ihv1 c) (c_ihv2 c)) then
        let c := set_found 1 c in
        Some (if truth (c_safe c)
              then set_ihv (sha1_compression_W (sha1_compression_W (c_ihv c) (c_m1 c)) (c_m1 c)) c
              else c)
      else process_loop rest mask c.
Proof. reflexivity. Qed.

Lemma loop_eq h M mask : wfst h -> length M = 16%nat -> Forall wf M ->
  forall n a c, (a + n = 32)%nat ->
  c_m1 c = schedule M -> c_ihv c = compress h M -> c_ihv1 c = h -> length (c_states c) = 80%nat ->
  view 58 (nth 58 (c_states c) st0) = state_at 58 h M -> view 65 (nth 65 (c_states c) st0) = state_at 65 h M ->
  exists c', process_loop (map expected_entry (seq a n) ++ [terminator]) mask c = Some c' /\
    (let b := existsb (fun d => N.testbit mask (N.of_nat d) && c_test (truth (c_reduced c)) d h M) (seq a n) in
     after c (if b && truth (c_safe c) then compress (compress (compress h M) M) M else compress h M)
             (if b then 1%Z else c_found c) c').
Proof.
  intros Hh HM HMw. induction n as [|n IH]; intros a c Ha E1 E2 E3 E4 E58 E65.
  - exists c. split; [reflexivity|]. cbn [seq existsb andb]. constructor; auto. rewrite E1. apply schedule_length; assumption.
  - change (seq a (S n)) with (a :: seq (S a) n). rewrite map_cons, <- app_comm_cons, process_loop_cons.
    assert (T0 : (dvType (expected_entry a) =? 0) = false) by (unfold expected_entry; cbv zeta; cbn [dvType]; destruct (dty (the_dv a)); reflexivity).
    rewrite T0. replace (maskB (expected_entry a)) with (N.of_nat a) by reflexivity.
    replace (32 <=? N.of_nat a) with false by (symmetry; apply N.leb_gt; lia).
    rewrite mask_bit_test by lia. cbn [existsb].
    destruct (N.testbit mask (N.of_nat a)) eqn:Eb; cbn [negb andb orb].
    2:{ apply IH; auto; lia. }
    replace (N.to_nat (testT (expected_entry a))) with (test_step (the_dv a))
      by (unfold expected_entry; cbv zeta; cbn [testT]; rewrite Nat2N.id; reflexivity).
    replace (Model_Ubc.dm (expected_entry a)) with (dmsg (the_dv a)) by reflexivity.
    rewrite E1, (map_xor_eq _ _ (schedule_length M HM) (dmsg_length (the_dv a))).
    destruct (entry_step h M c Hh HM HMw E4 E58 E65 a ltac:(lia)) as (s & -> & E). cbn [obind]. rewrite E.
    clear E. cbv zeta. cbn [obind]. set (T := test_step (the_dv a)). set (M' := sib_block (the_dv a) M).
    set (h' := back_to T (state_at T h M) M'). set (c1 := set_ihv2_m2 h' _ c).
    assert (X : same_words (compress h' M') (c_ihv c1) || truth (c_reduced c1) && same_words (c_ihv1 c1) (c_ihv2 c1)
                = c_test (truth (c_reduced c)) a h M).
    { unfold same_words. rewrite !xor_eq_test. change (c_ihv c1) with (c_ihv c). change (c_ihv1 c1) with (c_ihv1 c).
      change (c_ihv2 c1) with h'. change (c_reduced c1) with (c_reduced c). rewrite E2, E3. reflexivity. }
    rewrite X. destruct (c_test (truth (c_reduced c)) a h M) eqn:Et; cbn [orb andb].
    + eexists. split; [reflexivity|]. change (c_safe (set_found 1 c1)) with (c_safe c).
      change (c_ihv (set_found 1 c1)) with (c_ihv c). change (c_m1 (set_found 1 c1)) with (c_m1 c).
      pose proof (schedule_length M HM) as L.
      rewrite E1, E2, (compression_W_eq (compress h M) M (wfst_compress h M) HM),
        (compression_W_eq (compress (compress h M) M) M (wfst_compress _ M) HM).
      destruct (truth (c_safe c)); constructor; cbn [set_ihv set_found c_total c_buffer c_safe c_detect c_ubc c_reduced c_callback c_ihv c_found c_m1 c_states];
        try reflexivity; try assumption; unfold c1; cbn [set_ihv2_m2 c_m1 c_ihv c_states]; try assumption; rewrite E1; exact L.
    + destruct (IH (S a) c1) as (c' & Ec & Af); auto; try lia.
      exists c'. split; [exact Ec|]. destruct Af. constructor; assumption.
Qed.

Lemma process_eq cfg c block : host_be cfg = macro_be cfg -> wfst (c_ihv c) -> length block = 64%nat ->
  length (c_m1 c) = 80%nat -> length (c_states c) = 80%nat ->
  exists c', sha1_process cfg c block = Some c' /\
    (let h := c_ihv c in let M := words_of block in
     let b := c_decide (truth (c_detect c)) (truth (c_ubc c)) (truth (c_reduced c)) h M in
     after c (if b && truth (c_safe c) then compress (compress (compress h M) M) M else compress h M)
             (if b then 1%Z else c_found c) c').
Proof.
  intros Hcfg Hh Hb Hm1 Hst. unfold sha1_process. cbv zeta.
  set (h := c_ihv c) in *. set (M := words_of block).
  assert (HM : length M = 16%nat) by (apply words_of_length; rewrite Hb; reflexivity).
  assert (HMw : Forall wf M) by apply wf_words_of.
  pose proof (schedule_length M HM) as LW.
  change (c_ihv (set_ihv1 h c)) with h. change (c_m1 (set_ihv1 h c)) with (c_m1 c). change (c_states (set_ihv1 h c)) with (c_states c).
  destruct (compression_states_eq cfg h block Hcfg Hh Hb (c_m1 c) (c_states c) Hm1 Hst) as (sts & -> & Ls & E58 & E65).
  fold M in E58, E65. fold M. cbv zeta.
  set (c1 := set_m1_states (schedule M) sts (set_ihv (compress h M) (set_ihv1 h c))).
  change (c_detect c1) with (c_detect c). change (c_ubc c1) with (c_ubc c). change (c_m1 c1) with (schedule M).
  unfold c_decide, c_mask.
  destruct (truth (c_detect c)); cbn [andb].
  2:{ exists c1. split; [reflexivity|]. constructor; try reflexivity; assumption. }
  set (mask := if truth (c_ubc c) then ubc_check (schedule M) else 4294967295).
  destruct (N.eqb_spec mask 0) as [Hz|Hz]; cbn [negb].
  - exists c1. split; [reflexivity|].
    replace (existsb (fun d => N.testbit mask (N.of_nat d) && c_test (truth (c_reduced c)) d h M) (seq 0 32)) with false.
    2:{ symmetry. rewrite Hz. generalize (seq 0 32). induction l as [|x l IH]; [reflexivity|].
        cbn [existsb]. rewrite IH, N.bits_0. reflexivity. }
    cbn [andb]. constructor; try reflexivity; assumption.
  - rewrite dvs_c_eq.
    destruct (loop_eq h M mask Hh HM HMw 32 0 c1) as (c' & Ec & Af); auto.
    exists c'. split; [exact Ec|]. change (c_reduced c1) with (c_reduced c) in Af. change (c_safe c1) with (c_safe c) in Af.
    change (c_found c1) with (c_found c) in Af. cbv zeta in Af. destruct Af. constructor; assumption.
Qed.

(** ** What the check decides *)

Lemma mask_c_spec W d : (d < 32)%nat -> (N.testbit (ubc_check W) (N.of_nat d) = true <-> ubc_holds d W).
Proof.
  intros Hd. unfold ubc_check.
  exact (ubc_check_prog_sound ubc_prog_c ubc_c_checked W d 0xFFFFFFFF Hd (full_mask_bit d Hd)).
Qed.

Lemma c_test_iff red d h M : wfst h ->
  (c_test red d h M = true <->
   (exists h', siblings (the_dv d) h M h') \/
   (red = true /\ let T := test_step (the_dv d) in state_at T h (sib_block (the_dv d) M) = state_at T h M)).
Proof.
  intros Hh. unfold c_test. cbv zeta. rewrite orb_true_iff, andb_true_iff, !st_eqb_eq.
  rewrite (siblings_iff (the_dv d) h M Hh). cbv zeta.
  set (T := test_step (the_dv d)). set (M' := sib_block (the_dv d) M).
  assert (E : h = back_to T (state_at T h M) M' <-> state_at T h M' = state_at T h M).
  { split; intros E.
    - rewrite E at 1. apply state_at_back. auto with wf.
    - rewrite <- E. symmetry. apply back_state_at. assumption. }
  rewrite E. reflexivity.
Qed.
