(** Facts about words and byte strings. *)

From Coq Require Import Arith ZArith NArith List Strings.Byte Lia Bool.
From Verif Require Import Word.
Import ListNotations.
Local Open Scope N_scope.

Ltac Zify.zify_post_hook ::= Z.to_euclidean_division_equations.

Lemma M32_pow : M32 = 2 ^ 32. Proof. reflexivity. Qed.
Lemma M64_pow : M64 = 2 ^ 64. Proof. reflexivity. Qed.
Lemma ones32_ones : ones32 = N.ones 32. Proof. reflexivity. Qed.
Lemma M32_nz : M32 <> 0. Proof. discriminate. Qed.
Lemma M64_nz : M64 <> 0. Proof. discriminate. Qed.
#[export] Hint Resolve M32_nz M64_nz : core.

(** ** Bits *)

Lemma wf_bits x : wf x <-> forall i, 32 <= i -> N.testbit x i = false.
Proof.
  unfold wf. rewrite M32_pow. split.
  - intros H i Hi. destruct (N.eq_dec x 0) as [->|Hx]; [apply N.bits_0|].
    apply N.bits_above_log2. apply N.log2_lt_pow2 in H; lia.
  - intros H. destruct (N.eq_dec x 0) as [->|Hx]; [reflexivity|].
    apply N.log2_lt_pow2; [lia|].
    destruct (N.lt_ge_cases (N.log2 x) 32) as [|Hge]; [assumption|].
    exfalso. specialize (H _ Hge). rewrite N.bit_log2 in H; congruence.
Qed.

Lemma testbit_mod32 x i : N.testbit (x mod M32) i = (i <? 32) && N.testbit x i.
Proof.
  rewrite M32_pow. destruct (N.ltb_spec i 32).
  - rewrite N.mod_pow2_bits_low by assumption. reflexivity.
  - rewrite N.mod_pow2_bits_high by assumption. reflexivity.
Qed.

Lemma testbit_ones32 i : N.testbit ones32 i = (i <? 32).
Proof.
  rewrite ones32_ones. destruct (N.ltb_spec i 32).
  - apply N.ones_spec_low; assumption.
  - apply N.ones_spec_high; assumption.
Qed.

Lemma testbit_not32 x i : N.testbit (not32 x) i = xorb (N.testbit x i) (i <? 32).
Proof. unfold not32. rewrite N.lxor_spec, testbit_ones32. reflexivity. Qed.

Lemma testbit_shl32 x n i :
  N.testbit (shl32 x n) i = (i <? 32) && (n <=? i) && N.testbit x (i - n).
Proof.
  unfold shl32. rewrite testbit_mod32.
  destruct (N.ltb_spec i 32); [|reflexivity]. simpl.
  destruct (N.leb_spec n i).
  - rewrite N.shiftl_spec_high'; [reflexivity|assumption].
  - rewrite N.shiftl_spec_low; [reflexivity|assumption].
Qed.

Lemma testbit_shr32 x n i : N.testbit (shr32 x n) i = N.testbit x (i + n).
Proof. unfold shr32. apply N.shiftr_spec'. Qed.

Lemma testbit_rotl32 x n i : wf x -> n < 32 ->
  N.testbit (rotl32 x n) i = (i <? 32) && N.testbit x ((i + 32 - n) mod 32).
Proof.
  intros Hx Hn. rewrite wf_bits in Hx.
  unfold rotl32. rewrite N.lor_spec, testbit_shl32, testbit_shr32.
  destruct (N.ltb_spec i 32); simpl.
  - destruct (N.leb_spec n i); simpl.
    + rewrite (Hx (i + (32 - n))) by lia. rewrite orb_false_r. f_equal. lia.
    + f_equal. lia.
  - apply Hx. lia.
Qed.

(** ** Well-formedness *)

Lemma wf_mod x : wf (x mod M32).
Proof. apply N.mod_lt. auto. Qed.
Lemma wf_add32 x y : wf (add32 x y). Proof. apply wf_mod. Qed.
Lemma wf_sub32 x y : wf (sub32 x y). Proof. apply wf_mod. Qed.
Lemma wf_shl32 x y : wf (shl32 x y). Proof. apply wf_mod. Qed.
Lemma wf_land x y : wf x -> wf (N.land x y).
Proof. rewrite !wf_bits. intros H i Hi. rewrite N.land_spec, H by assumption. reflexivity. Qed.
Lemma wf_land_r x y : wf y -> wf (N.land x y).
Proof. rewrite N.land_comm. apply wf_land. Qed.
Lemma wf_lor x y : wf x -> wf y -> wf (N.lor x y).
Proof. rewrite !wf_bits. intros H H' i Hi. rewrite N.lor_spec, H, H' by assumption. reflexivity. Qed.
Lemma wf_lxor x y : wf x -> wf y -> wf (N.lxor x y).
Proof. rewrite !wf_bits. intros H H' i Hi. rewrite N.lxor_spec, H, H' by assumption. reflexivity. Qed.
Lemma wf_not32 x : wf x -> wf (not32 x).
Proof. intros H. apply wf_lxor; [assumption|reflexivity]. Qed.
Lemma wf_shr32 x n : wf x -> wf (shr32 x n).
Proof. rewrite !wf_bits. intros H i Hi. rewrite testbit_shr32. apply H. lia. Qed.
Lemma wf_rotl32 x n : wf x -> wf (rotl32 x n).
Proof. intros H. apply wf_lor; [apply wf_shl32|apply wf_shr32, H]. Qed.
Lemma wf_0 : wf 0. Proof. reflexivity. Qed.

#[export] Hint Resolve wf_mod wf_add32 wf_sub32 wf_shl32 wf_land wf_lor wf_lxor wf_not32
  wf_shr32 wf_rotl32 wf_0 : wf.

Lemma wf_mod_id x : wf x -> x mod M32 = x.
Proof. intros H. apply N.mod_small, H. Qed.

(** ** Addition *)

Lemma add32_comm x y : add32 x y = add32 y x.
Proof. unfold add32. f_equal. lia. Qed.
Lemma add32_assoc x y z : add32 (add32 x y) z = add32 x (add32 y z).
Proof. unfold add32. rewrite N.add_mod_idemp_l, N.add_mod_idemp_r by auto. f_equal. lia. Qed.
Lemma add32_0_l x : wf x -> add32 0 x = x.
Proof. intros H. unfold add32. simpl. apply wf_mod_id, H. Qed.
Lemma add32_0_r x : wf x -> add32 x 0 = x.
Proof. intros H. rewrite add32_comm. apply add32_0_l, H. Qed.

Lemma sub32_add32 x y : wf x -> sub32 (add32 x y) y = x.
Proof. unfold wf, sub32, add32, M32. intros. lia. Qed.
Lemma add32_sub32 x y : wf x -> add32 (sub32 x y) y = x.
Proof. unfold wf, sub32, add32, M32. intros. lia. Qed.

Lemma add32_cong x y a b : x mod M32 = a mod M32 -> y mod M32 = b mod M32 ->
  (add32 x y) mod M32 = (a + b) mod M32.
Proof.
  intros H H'. unfold add32. rewrite N.mod_mod by auto.
  rewrite (N.add_mod x y), H, H', <- N.add_mod by auto. reflexivity.
Qed.
Lemma add32_top x y z t : (add32 x y) mod M32 = (add32 z t) mod M32 -> add32 x y = add32 z t.
Proof. unfold add32. rewrite !N.mod_mod by auto. trivial. Qed.

(** Proves equations between sums of the same summands. *)
Ltac add32_sum :=
  repeat match goal with |- (add32 _ _) mod _ = _ => eapply add32_cong end; reflexivity.
Ltac add32_eq :=
  apply add32_top; etransitivity; [add32_sum|];
  symmetry; etransitivity; [add32_sum|]; f_equal; lia.

(** ** Rotations *)

Lemma rotl32_inv x n m : wf x -> n < 32 -> m < 32 -> (n + m) mod 32 = 0 -> rotl32 (rotl32 x n) m = x.
Proof.
  intros Hx Hn Hm Hnm. apply N.bits_inj. intros i.
  rewrite testbit_rotl32 by auto with wf.
  destruct (N.ltb_spec i 32); simpl.
  - rewrite testbit_rotl32 by auto with wf.
    destruct (N.ltb_spec ((i + 32 - m) mod 32) 32) as [Hl|Hl].
    + rewrite andb_true_l. f_equal. lia.
    + exfalso. revert Hl. apply N.lt_nge. apply N.mod_lt. discriminate.
  - symmetry. rewrite wf_bits in Hx. apply Hx; assumption.
Qed.

Lemma rotl32_lxor x y n : rotl32 (N.lxor x y) n = N.lxor (rotl32 x n) (rotl32 y n) \/ ~ (wf x /\ wf y /\ n < 32).
Proof.
  destruct (N.lt_ge_cases x M32); [|right; unfold wf; lia].
  destruct (N.lt_ge_cases y M32); [|right; unfold wf; lia].
  destruct (N.lt_ge_cases n 32); [|right; lia].
  left. apply N.bits_inj. intros i.
  rewrite N.lxor_spec, !testbit_rotl32 by auto with wf.
  rewrite N.lxor_spec. destruct (i <? 32); simpl; [reflexivity|reflexivity].
Qed.

Lemma rotl32_xor x y n : wf x -> wf y -> n < 32 ->
  rotl32 (N.lxor x y) n = N.lxor (rotl32 x n) (rotl32 y n).
Proof. intros. destruct (rotl32_lxor x y n); [assumption|tauto]. Qed.

(** ** xor lists *)

Lemma xorl_length x y : length (xorl x y) = Nat.min (length x) (length y).
Proof. revert y; induction x as [|a x IH]; intros [|b y]; simpl; auto. Qed.

Lemma nth_xorl x y i : length x = length y -> nth i (xorl x y) 0 = N.lxor (nth i x 0) (nth i y 0).
Proof.
  revert y i; induction x as [|a x IH]; intros [|b y] i H; try discriminate.
  - destruct i; reflexivity.
  - destruct i; simpl; [reflexivity|]. apply IH. injection H; auto.
Qed.

(** ** Bytes *)

Lemma b2n_lt b : b2n b < 256.
Proof. pose proof (Byte.to_N_bounded b). unfold b2n. lia. Qed.

Lemma n2b_b2n b : n2b (b2n b) = b.
Proof.
  unfold n2b, b2n. rewrite N.mod_small by (pose proof (b2n_lt b); unfold b2n in *; lia).
  rewrite Byte.of_to_N. reflexivity.
Qed.

Lemma b2n_n2b v : b2n (n2b v) = v mod 256.
Proof.
  unfold n2b, b2n. destruct (Byte.of_N (v mod 256)) eqn:E.
  - apply Byte.to_of_N in E. assumption.
  - exfalso. apply Byte.of_N_None_iff in E.
    assert (v mod 256 < 256) by (apply N.mod_lt; discriminate). lia.
Qed.

Lemma b2n_inj a b : b2n a = b2n b -> a = b.
Proof. intros H. rewrite <- (n2b_b2n a), <- (n2b_b2n b), H. reflexivity. Qed.

Lemma n2b_mod v : n2b (v mod 256) = n2b v.
Proof. unfold n2b. rewrite N.mod_mod by discriminate. reflexivity. Qed.

Lemma be32_length v : length (be32 v) = 4%nat. Proof. reflexivity. Qed.
Lemma be64_length v : length (be64 v) = 8%nat. Proof. reflexivity. Qed.

Lemma be_val_4 a b c d :
  be_val [a; b; c; d] = b2n a * 2^24 + b2n b * 2^16 + b2n c * 2^8 + b2n d.
Proof. unfold be_val. simpl be_acc. change (2^24) with (256*256*256). change (2^16) with (256*256). change (2^8) with 256. lia. Qed.

Lemma be_val_4_wf a b c d : wf (be_val [a; b; c; d]).
Proof.
  rewrite be_val_4. pose proof (b2n_lt a). pose proof (b2n_lt b). pose proof (b2n_lt c). pose proof (b2n_lt d).
  unfold wf, M32. change (2^24) with 16777216. change (2^16) with 65536. change (2^8) with 256. lia.
Qed.

Lemma be_val_be32 v : wf v -> be_val (be32 v) = v.
Proof.
  unfold be32. intros H. rewrite be_val_4, !b2n_n2b. unfold wf, M32 in H.
  change (2^24) with 16777216. change (2^16) with 65536. change (2^8) with 256. lia.
Qed.

Lemma be32_be_val a b c d : be32 (be_val [a; b; c; d]) = [a; b; c; d].
Proof.
  rewrite be_val_4. unfold be32.
  pose proof (b2n_lt a). pose proof (b2n_lt b). pose proof (b2n_lt c). pose proof (b2n_lt d).
  change (2^24) with 16777216. change (2^16) with 65536. change (2^8) with 256.
  repeat f_equal; apply b2n_inj; rewrite b2n_n2b; lia.
Qed.

Lemma be32_inj u v : wf u -> wf v -> be32 u = be32 v -> u = v.
Proof. intros Hu Hv H. rewrite <- (be_val_be32 u Hu), <- (be_val_be32 v Hv), H. reflexivity. Qed.

Lemma st_bytes_length s : length (st_bytes s) = 20%nat.
Proof. reflexivity. Qed.

Lemma st_bytes_inj s t : wfst s -> wfst t -> st_bytes s = st_bytes t -> s = t.
Proof.
  destruct s as [a b c d e], t as [a' b' c' d' e']. unfold wfst; simpl. intros Hs Ht H.
  unfold st_bytes in H; simpl in H. injection H. intros.
  f_equal; apply be32_inj; try tauto; unfold be32; congruence.
Qed.

(** ** States *)

Lemma st_eqb_eq x y : st_eqb x y = true <-> x = y.
Proof.
  unfold st_eqb. rewrite !andb_true_iff, !N.eqb_eq. destruct x, y; simpl. split.
  - intros [[[[]]]]; congruence.
  - intros H; injection H; intros; subst; repeat split; reflexivity.
Qed.

Lemma wfst_addst x y : wfst (addst x y).
Proof. repeat split; apply wf_add32. Qed.
#[export] Hint Resolve wfst_addst : wf.

Lemma addst_inj_l x y z : wfst x -> wfst y -> addst x z = addst y z -> x = y.
Proof.
  destruct x, y, z. unfold wfst, addst; simpl. intros Hx Hy H. injection H. intros.
  assert (C : forall u v w, wf u -> wf v -> add32 u w = add32 v w -> u = v).
  { intros u v w Hu Hv E. rewrite <- (sub32_add32 u w Hu), E. apply sub32_add32, Hv. }
  f_equal; eapply C; eauto; tauto.
Qed.
