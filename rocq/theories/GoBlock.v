(** The generic block function computes the specification. *)

From Coq Require Import Arith ZArith NArith List Strings.Byte Lia Bool.
From Verif Require Import Word WordFacts Spec_Sha1 Sha1Facts Spec_DV Spec_Cd DvFacts Model_Go GoCheck.
Import ListNotations.
Local Open Scope N_scope.

Lemma upd_length {A} (v : A) l : forall i, length (upd i v l) = length l.
Proof. induction l as [|x l IH]; intros [|i]; simpl; auto. Qed.
Lemma nth_upd_eq {A} (v d : A) l : forall i, (i < length l)%nat -> nth i (upd i v l) d = v.
Proof.
  induction l as [|x l IH]; intros [|i] H; simpl in *; try lia; auto.
  apply IH. lia.
Qed.
Lemma nth_upd_neq {A} (v d : A) l : forall i j, i <> j -> nth j (upd i v l) d = nth j l d.
Proof.
  induction l as [|x l IH]; intros [|i] [|j] H; simpl; auto; congruence.
Qed.

Lemma land15 i : Nat.land i 15 = (i mod 16)%nat.
Proof. change 15%nat with (Nat.ones 4). rewrite Nat.land_ones. reflexivity. Qed.

(** Big-endian load. *)
Lemma lor_add_shift x y n : y < 2 ^ n -> N.lor (x * 2 ^ n) y = x * 2 ^ n + y.
Proof.
  intros H. rewrite N.add_nocarry_lxor.
  - apply N.bits_inj. intros i. rewrite N.lor_spec, N.lxor_spec.
    destruct (N.lt_ge_cases i n).
    + rewrite N.mul_pow2_bits_low by assumption. destruct (N.testbit y i); reflexivity.
    + assert (E : N.testbit y i = false).
      { destruct (N.eq_dec y 0) as [->|]; [apply N.bits_0|].
        apply N.bits_above_log2. apply N.log2_lt_pow2 in H; lia. }
      rewrite E. destruct (N.testbit (x * 2 ^ n) i); reflexivity.
  - apply N.bits_inj. intros i. rewrite N.land_spec, N.bits_0.
    destruct (N.lt_ge_cases i n).
    + rewrite N.mul_pow2_bits_low by assumption. reflexivity.
    + assert (E : N.testbit y i = false).
      { destruct (N.eq_dec y 0) as [->|]; [apply N.bits_0|].
        apply N.bits_above_log2. apply N.log2_lt_pow2 in H; lia. }
      rewrite E. apply andb_false_r.
Qed.

Lemma shl32_small x n : x < 2 ^ 8 -> n <= 24 -> shl32 x n = x * 2 ^ n.
Proof.
  intros Hx Hn. unfold shl32. rewrite N.shiftl_mul_pow2. apply N.mod_small.
  apply N.lt_le_trans with (2 ^ 8 * 2 ^ n).
  - apply N.mul_lt_mono_pos_r; [|assumption]. apply N.neq_0_lt_0, N.pow_nonzero. discriminate.
  - rewrite <- N.pow_add_r, M32_pow. apply N.pow_le_mono_r; lia.
Qed.

Lemma lor4 a b c d : a < 256 -> b < 256 -> c < 256 -> d < 256 ->
  N.lor (N.lor (N.lor (shl32 a 24) (shl32 b 16)) (shl32 c 8)) d
  = a * 2^24 + b * 2^16 + c * 2^8 + d.
Proof.
  intros. rewrite !shl32_small by (change (2^8) with 256; lia).
  rewrite (lor_add_shift a (b * 2^16) 24) by (change (2^24) with (256 * 2^16); apply N.mul_lt_mono_pos_r; [reflexivity|assumption]).
  replace (a * 2^24 + b * 2^16) with ((a * 256 + b) * 2^16) by (change (2^24) with (256 * 2^16); lia).
  rewrite (lor_add_shift _ (c * 2^8) 16) by (change (2^16) with (256 * 2^8); apply N.mul_lt_mono_pos_r; [reflexivity|assumption]).
  replace ((a * 256 + b) * 2^16 + c * 2^8) with (((a * 256 + b) * 256 + c) * 2^8) by (change (2^16) with (256 * 2^8); lia).
  rewrite (lor_add_shift _ d 8) by assumption.
  change (2^24) with (256*256*256). change (2^16) with (256*256). change (2^8) with 256. lia.
Qed.

Lemma load_eq p i : (4 * i + 3 < length p)%nat -> load p i = nth i (words_of p) 0.
Proof.
  intros H. rewrite nth_words_of by assumption. rewrite be_val_4.
  unfold load. rewrite lor4 by apply b2n_lt.
  replace (i * 4)%nat with (4 * i)%nat by lia. reflexivity.
Qed.

Lemma mix_form a b c d : N.lor (shl32 (N.lxor (N.lxor (N.lxor a b) c) d) 1)
  (shr32 (N.lxor (N.lxor (N.lxor a b) c) d) (32 - 1)) = mix a b c d.
Proof. reflexivity. Qed.

Section Pass.
  Variable p : list byte.
  Hypothesis Hp : (64 <= length p)%nat.
  Variable h : st.
  Hypothesis Hh : wfst h.

  Let M := words_of (firstn 64 p).
  Let W := schedule M.

  Lemma M_length : length M = 16%nat.
  Proof. apply words_of_length. rewrite firstn_length. lia. Qed.
  Lemma M_wf : Forall wf M.
  Proof. apply wf_words_of. Qed.
  Lemma W_wf i : wf (nth i W 0).
  Proof. apply nth_wf, schedule_wf, M_wf. Qed.

  Record Inv (i : nat) (x : pass) : Prop := mkInv {
    inv_w : length (pw x) = 16%nat;
    inv_m : length (pm x) = 80%nat;
    inv_ring : forall j, (j < i)%nat -> (i <= j + 16)%nat -> nth (j mod 16) (pw x) 0 = nth j W 0;
    inv_m1 : forall j, (j < i)%nat -> nth j (pm x) 0 = nth j W 0;
    inv_s : ps x = state_at i h M;
    inv_0 : cs0 (pcs x) = h;
    inv_58 : (58 < i)%nat -> cs1 (pcs x) = state_at 58 h M;
    inv_65 : (65 < i)%nat -> cs2 (pcs x) = state_at 65 h M }.

  Lemma g_round_eq f K i w s : is_ft f K i -> wfst s -> g_round f K w s = step i w s.
  Proof.
    intros [Hf ->] (Ha & Hb & Hc & Hd & He). unfold g_round, step. rewrite Hf by assumption.
    f_equal. add32_eq.
  Qed.

  Lemma nth_load i : (i < 16)%nat -> load p i = nth i W 0.
  Proof.
    intros Hi. unfold W. rewrite schedule_low by (auto using M_length). unfold M.
    rewrite <- load_eq by (rewrite firstn_length; lia).
    unfold load. rewrite <- (firstn_skipn 64 p) at 1 2 3 4.
    rewrite !app_nth1 by (rewrite firstn_length; lia). reflexivity.
  Qed.

  Lemma load_step i x : (i < 16)%nat -> Inv i x -> Inv (S i) (body_load p x i).
  Proof.
    intros Hi I. unfold body_load. rewrite land15, Nat.mod_small by assumption.
    rewrite (nth_upd_eq _ _ (pw x)) by (rewrite inv_w with (i := i); assumption).
    rewrite nth_load by assumption.
    constructor; cbn [pw pm pcs ps].
    - rewrite upd_length. apply (inv_w _ _ I).
    - rewrite upd_length. apply (inv_m _ _ I).
    - intros j Hj Hj'. destruct (Nat.eq_dec j i) as [->|Hne].
      + rewrite Nat.mod_small by assumption. apply nth_upd_eq. rewrite (inv_w _ _ I). assumption.
      + rewrite Nat.mod_small by lia. rewrite nth_upd_neq by congruence.
        rewrite <- (Nat.mod_small j 16) at 1 by lia. apply (inv_ring _ _ I); lia.
    - intros j Hj. destruct (Nat.eq_dec j i) as [->|Hne].
      + apply nth_upd_eq. rewrite (inv_m _ _ I). lia.
      + rewrite nth_upd_neq by congruence. apply (inv_m1 _ _ I). lia.
    - rewrite state_at_S by (auto using M_length; lia). rewrite (inv_s _ _ I).
      apply g_round_eq; [apply ft_ch; lia|auto with wf].
    - apply (inv_0 _ _ I).
    - lia.
    - lia.
  Qed.

  (** What the store does at index i. *)
  Definition save_ok (save : nat -> st -> csarr -> csarr) (i : nat) : Prop :=
    forall s cs, cs0 (save i s cs) = cs0 cs /\
      cs1 (save i s cs) = (if (i =? 58)%nat then s else cs1 cs) /\
      cs2 (save i s cs) = (if (i =? 65)%nat then s else cs2 cs).

  Lemma mix_step f K save i x : is_ft f K i -> save_ok save i -> (16 <= i < 80)%nat ->
    Inv i x -> Inv (S i) (body_mix f K save x i).
  Proof.
    intros Hf Hs Hi I. unfold body_mix. rewrite !land15.
    assert (R : forall k, (1 <= k <= 16)%nat -> nth ((i - k) mod 16) (pw x) 0 = nth (i - k) W 0).
    { intros k Hk. apply (inv_ring _ _ I); lia. }
    assert (R16 : nth (i mod 16) (pw x) 0 = nth (i - 16) W 0).
    { rewrite <- (R 16%nat) by lia. f_equal.
      replace i with ((i - 16) + 1 * 16)%nat at 1 by lia. apply Nat.mod_add. discriminate. }
    rewrite !R, R16 by lia.
    assert (E : N.lor (shl32 (N.lxor (N.lxor (N.lxor (nth (i - 3) W 0) (nth (i - 8) W 0)) (nth (i - 14) W 0)) (nth (i - 16) W 0)) 1)
       (shr32 (N.lxor (N.lxor (N.lxor (nth (i - 3) W 0) (nth (i - 8) W 0)) (nth (i - 14) W 0)) (nth (i - 16) W 0)) (32 - 1))
       = nth i W 0).
    { rewrite mix_form. symmetry. apply (schedule_rec M i M_length Hi). }
    rewrite E.
    assert (Hmod : (i mod 16 < length (pw x))%nat).
    { rewrite (inv_w _ _ I). apply Nat.mod_upper_bound. discriminate. }
    rewrite (nth_upd_eq _ _ (pw x)) by assumption.
    destruct (Hs (ps x) (pcs x)) as (S0 & S1 & S2).
    constructor; cbn [pw pm pcs ps].
    - rewrite upd_length. apply (inv_w _ _ I).
    - rewrite upd_length. apply (inv_m _ _ I).
    - intros j Hj Hj'. destruct (Nat.eq_dec j i) as [->|Hne].
      + apply nth_upd_eq. assumption.
      + rewrite nth_upd_neq.
        * apply (inv_ring _ _ I); lia.
        * intros C. pose proof (Nat.div_mod i 16 ltac:(discriminate)). pose proof (Nat.div_mod j 16 ltac:(discriminate)). lia.
    - intros j Hj. destruct (Nat.eq_dec j i) as [->|Hne].
      + apply nth_upd_eq. rewrite (inv_m _ _ I). lia.
      + rewrite nth_upd_neq by congruence. apply (inv_m1 _ _ I). lia.
    - rewrite state_at_S by (auto using M_length; lia). rewrite (inv_s _ _ I).
      apply g_round_eq; [assumption|auto with wf].
    - rewrite S0. apply (inv_0 _ _ I).
    - intros H58. rewrite S1. destruct (Nat.eqb_spec i 58) as [->|Hne].
      + apply (inv_s _ _ I).
      + apply (inv_58 _ _ I). lia.
    - intros H65. rewrite S2. destruct (Nat.eqb_spec i 65) as [->|Hne].
      + apply (inv_s _ _ I).
      + apply (inv_65 _ _ I). lia.
  Qed.

  Lemma loop_inv (body : pass -> nat -> pass) n : forall a x,
    (forall i x, (a <= i < a + n)%nat -> Inv i x -> Inv (S i) (body x i)) ->
    Inv a x -> Inv (a + n)%nat (fold_left body (seq a n) x).
  Proof.
    induction n as [|n IH]; intros a x Hb I; simpl.
    - rewrite Nat.add_0_r. assumption.
    - replace (a + S n)%nat with (S a + n)%nat by lia. apply IH.
      + intros i y Hi. apply Hb. lia.
      + apply Hb; [lia|assumption].
  Qed.

  Lemma pass_inv w m1 cs : length w = 16%nat -> length m1 = 80%nat -> Inv 80 (g_pass p h w m1 cs).
  Proof.
    intros Hw Hm. unfold g_pass.
    apply (loop_inv _ 20 60).
    { intros i x Hi. apply mix_step; [apply ft_par3; lia| |lia].
      intros s c. unfold save65. destruct (Nat.eqb_spec i 65), (Nat.eqb_spec i 58); try lia; auto. }
    apply (loop_inv _ 20 40).
    { intros i x Hi. apply mix_step; [apply ft_maj; lia| |lia].
      intros s c. unfold save58. destruct (Nat.eqb_spec i 65), (Nat.eqb_spec i 58); try lia; auto. }
    apply (loop_inv _ 20 20).
    { intros i x Hi. apply mix_step; [apply ft_par1; lia| |lia].
      intros s c. unfold save_none. destruct (Nat.eqb_spec i 65), (Nat.eqb_spec i 58); try lia; auto. }
    apply (loop_inv _ 4 16).
    { intros i x Hi. apply mix_step; [apply ft_ch; lia| |lia].
      intros s c. unfold save_none. destruct (Nat.eqb_spec i 65), (Nat.eqb_spec i 58); try lia; auto. }
    apply (loop_inv _ 16 0).
    { intros i x Hi. apply load_step. lia. }
    constructor; cbn [pw pm pcs ps cs0]; auto; try lia.
  Qed.

  (** One pass: schedule, stored states, final working state. *)
  Lemma pass_eq w m1 cs : length w = 16%nat -> length m1 = 80%nat ->
    let x := g_pass p h w m1 cs in
    pm x = W /\ pcs x = cs_of h M /\ ps x = state_at 80 h M /\ length (pw x) = 16%nat.
  Proof.
    intros Hw Hm x. pose proof (pass_inv w m1 cs Hw Hm) as I. fold x in I. split; [|split; [|split]].
    - apply (nth_ext _ _ 0 0).
      + rewrite (inv_m _ _ I). unfold W. rewrite schedule_length; auto using M_length.
      + rewrite (inv_m _ _ I). intros j Hj. apply (inv_m1 _ _ I). assumption.
    - pose proof (inv_0 _ _ I) as A. pose proof (inv_58 _ _ I ltac:(lia)) as B. pose proof (inv_65 _ _ I ltac:(lia)) as C.
      destruct (pcs x) as [q0 q1 q2]. cbn [cs0 cs1 cs2] in A, B, C. rewrite A, B, C. reflexivity.
    - apply (inv_s _ _ I).
    - apply (inv_w _ _ I).
  Qed.
End Pass.

(** One block, including the re-hash loop. *)
Lemma rehash_eq p h w cs col : (64 <= length p)%nat -> wfst h -> length w = 16%nat ->
  let M := words_of (firstn 64 p) in
  exists w' cs', length w' = 16%nat /\
  g_rehash 3 p 1 h w (repeat 0 80) cs col =
  Some (cd_block go_decide h M, w', cs', (col || go_decide h M)%bool).
Proof.
  intros Hp Hh Hw M.
  assert (HM : length M = 16%nat) by (apply M_length; assumption).
  assert (WM : Forall wf M) by (apply M_wf).
  destruct (pass_eq p Hp h Hh w (repeat 0 80) cs Hw (repeat_length _ _)) as (E1 & E2 & E3 & E4).
  fold M in E1, E2, E3.
  unfold g_rehash. cbn [Nat.eqb Nat.add].
  set (x := g_pass p h w (repeat 0 80) cs) in *. rewrite E1, E2, E3.
  change (addst h (state_at 80 h M)) with (compress h M).
  rewrite checkCollision_eq by assumption. cbn [obind].
  unfold cd_block. destruct (go_decide h M) eqn:D.
  - assert (L1 : length (schedule M) = 80%nat) by (apply schedule_length; assumption).
    destruct (pass_eq p Hp (compress h M) (wfst_compress h M) (pw x) (schedule M) (cs_of h M) E4 L1) as (F1 & F2 & F3 & F4).
    fold M in F1, F2, F3.
    set (y := g_pass p (compress h M) (pw x) (schedule M) (cs_of h M)) in *. rewrite F1, F2, F3.
    change (addst (compress h M) (state_at 80 (compress h M) M)) with (compress (compress h M) M).
    destruct (pass_eq p Hp (compress (compress h M) M) (wfst_compress _ M) (pw y) (schedule M) (cs_of (compress h M) M) F4 L1)
      as (G1 & G2 & G3 & G4).
    fold M in G1, G2, G3.
    set (z := g_pass p (compress (compress h M) M) (pw y) (schedule M) (cs_of (compress h M) M)) in *.
    rewrite G2, G3. rewrite orb_true_r.
    eexists _, _. split; [exact G4|]. reflexivity.
  - rewrite orb_false_r. eexists _, _. split; [exact E4|]. reflexivity.
Qed.

Lemma wfst_cd_block D h M : wfst (cd_block D h M).
Proof. unfold cd_block. destruct (D h M); apply wfst_compress. Qed.
#[export] Hint Resolve wfst_cd_block : wf.

Lemma cd_blocks_cons D s b bs :
  cd_blocks D s (b :: bs) =
  cd_blocks D (cd_block D (fst s) (words_of b), (snd s || D (fst s) (words_of b))%bool) bs.
Proof. reflexivity. Qed.

Lemma cd_blocks_app D s bs cs : cd_blocks D s (bs ++ cs) = cd_blocks D (cd_blocks D s bs) cs.
Proof. apply fold_left_app. Qed.

Lemma wfst_cd_blocks D bs : forall s, wfst (fst s) -> wfst (fst (cd_blocks D s bs)).
Proof.
  induction bs as [|b bs IH]; intros s H; [assumption|].
  rewrite cd_blocks_cons. apply IH. cbn [fst]. auto with wf.
Qed.

Lemma g_blocks_eq : forall fuel p h w cs col, (length p <= fuel)%nat -> wfst h -> length w = 16%nat ->
  g_blocks fuel p h w cs col = Some (cd_blocks go_decide (h, col) (blocks p)).
Proof.
  induction fuel as [|fuel IH]; intros p h w cs col Hl Hh Hw; cbn [g_blocks];
    destruct (Nat.leb_spec 64 (length p)).
  - lia.
  - rewrite blocks_short by assumption. reflexivity.
  - destruct (rehash_eq p h w cs col) as (w' & cs' & L & E); auto. rewrite E. cbn [obind].
    rewrite IH; auto with wf.
    + rewrite (blocks_cons p) by assumption. rewrite cd_blocks_cons. reflexivity.
    + rewrite skipn_length. lia.
  - rewrite blocks_short by assumption. reflexivity.
Qed.

(** What a block function must do to be correct. *)
Definition block_result (d : digest) (p : list byte) : digest :=
  let r := cd_blocks go_decide (dh d, dcol d) (blocks p) in
  mkd (fst r) (dx d) (dnx d) (dlen d) (snd r).
Definition block_ok (blk : blockfn) : Prop :=
  forall d p, wfst (dh d) -> blk d p = Some (block_result d p).

Theorem blockGeneric_ok : block_ok blockGeneric.
Proof.
  intros d p Hd. unfold blockGeneric. rewrite g_blocks_eq; auto.
  cbn [obind]. unfold block_result. destruct (cd_blocks _ _ _). reflexivity.
Qed.
