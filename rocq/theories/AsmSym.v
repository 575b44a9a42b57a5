(** Symbolic values and symbolic memory for the assembly proofs (shared by both architectures):
    lanes are described in terms of the message schedule and the SHA-1 working states of one block. *)

From Coq Require Import Arith NArith List Strings.Byte Bool Lia ZifyNat.
From Verif Require Import Word WordFacts Spec_Sha1 Sha1Facts Model_Go Model_Asm.
Import ListNotations.
Ltac Zify.zify_post_hook ::= idtac.
Local Open Scope N_scope.

(** ** Bytes and memory *)

Lemma peek_length m a n : length (peek m a n) = n.
Proof. unfold peek. rewrite map_length, seq_length. reflexivity. Qed.
Lemma peek_ext m m' a n : (forall i, (i < n)%nat -> m (a + N.of_nat i) = m' (a + N.of_nat i)) -> peek m a n = peek m' a n.
Proof. intros H. unfold peek. apply map_ext_in. intros i Hi. apply in_seq in Hi. apply H. lia. Qed.
Lemma poke_in m a l i : (i < length l)%nat -> poke m a l (a + N.of_nat i) = nth i l x00.
Proof.
  intros H. unfold poke.
  replace (a <=? a + N.of_nat i) with true by (symmetry; apply N.leb_le; lia).
  replace (a + N.of_nat i <? a + N.of_nat (length l)) with true by (symmetry; apply N.ltb_lt; lia).
  cbn [andb]. f_equal. lia.
Qed.
Lemma poke_out m a l x : x < a \/ a + N.of_nat (length l) <= x -> poke m a l x = m x.
Proof.
  intros H. unfold poke.
  destruct (N.leb_spec a x), (N.ltb_spec x (a + N.of_nat (length l))); cbn [andb]; try reflexivity. lia.
Qed.
Lemma peek_poke_same m a l : peek (poke m a l) a (length l) = l.
Proof.
  unfold peek. apply (nth_ext _ _ x00 x00); [rewrite map_length, seq_length; reflexivity|].
  rewrite map_length, seq_length. intros i Hi.
  rewrite (nth_indep _ x00 (poke m a l (a + N.of_nat 0))) by (rewrite map_length, seq_length; assumption).
  rewrite (map_nth (fun i => poke m a l (a + N.of_nat i))), seq_nth by assumption. apply poke_in. assumption.
Qed.
Lemma peek_poke_apart m a l b n : b + N.of_nat n <= a \/ a + N.of_nat (length l) <= b -> peek (poke m a l) b n = peek m b n.
Proof. intros H. apply peek_ext. intros i Hi. apply poke_out. lia. Qed.
Lemma peek_app m a n k : peek m a (n + k) = peek m a n ++ peek m (a + N.of_nat n) k.
Proof.
  unfold peek. rewrite seq_app, map_app. f_equal. rewrite Nat.add_0_l.
  replace (seq n k) with (map (fun i => n + i)%nat (seq 0 k)).
  - rewrite map_map. apply map_ext. intros i. f_equal. lia.
  - clear. revert n. induction k as [|k IH]; intros n; [reflexivity|]. cbn [seq map]. f_equal; [lia|].
    rewrite <- seq_shift, map_map, <- (IH (S n)). apply map_ext. intros i. lia.
Qed.

Lemma le_val_le32 v : wf v -> le_val (le32 v) = v.
Proof.
  intros H. unfold le32. cbn [le_val]. rewrite !b2n_n2b.
  rewrite <- (be_val_be32 v H) at 5. unfold be32. rewrite be_val_4, !b2n_n2b.
  set (a := v mod 256). set (b := (v / 2^8) mod 256). set (c := (v / 2^16) mod 256). set (d := (v / 2^24) mod 256).
  clearbody a b c d. change (2^24) with 16777216. change (2^16) with 65536. change (2^8) with 256. lia.
Qed.
Lemma le_val_lt l : le_val l < 256 ^ N.of_nat (length l).
Proof.
  induction l as [|b l IH]; [reflexivity|]. cbn [le_val length].
  rewrite Nat2N.inj_succ, N.pow_succ_r'. pose proof (b2n_lt b). nia.
Qed.
Lemma le64_length v : length (le64 v) = 8%nat. Proof. reflexivity. Qed.
Lemma le_val_app a b : le_val (a ++ b) = le_val a + 256 ^ N.of_nat (length a) * le_val b.
Proof.
  induction a as [|x a IH]; cbn [app le_val length].
  - change (256 ^ N.of_nat 0) with 1. lia.
  - rewrite IH, Nat2N.inj_succ, N.pow_succ_r'. lia.
Qed.
Lemma le64_split v : le64 v = le32 (v mod M32) ++ le32 (v / M32).
Proof.
  unfold le64, le32. cbn [app].
  assert (E : forall k, k <= 24 -> n2b (v / 2 ^ k) = n2b ((v mod M32) / 2 ^ k)).
  { intros k Hk. rewrite <- (n2b_mod (v / 2 ^ k)), <- (n2b_mod ((v mod M32) / 2 ^ k)). f_equal.
    apply N.bits_inj. intros i. change 256 with (2 ^ 8). rewrite M32_pow.
    destruct (N.ltb_spec i 8).
    - rewrite !N.mod_pow2_bits_low by assumption. rewrite <- !N.shiftr_div_pow2, !N.shiftr_spec'.
      rewrite N.mod_pow2_bits_low by lia. reflexivity.
    - rewrite !N.mod_pow2_bits_high by assumption. reflexivity. }
  assert (F : forall k, n2b (v / 2 ^ (32 + k)) = n2b (v / M32 / 2 ^ k)).
  { intros k. rewrite N.pow_add_r, M32_pow, <- N.div_div by (apply N.pow_nonzero; discriminate). reflexivity. }
  rewrite (E 8), (E 16), (E 24) by lia.
  rewrite <- (F 8), <- (F 16), <- (F 24).
  change (32 + 8) with 40. change (32 + 16) with 48. change (32 + 24) with 56.
  f_equal.
  pose proof (E 0 ltac:(lia)) as E0. rewrite !N.div_1_r in E0. assumption.
Qed.
Lemma le_val_le64 v : v < M64 -> le_val (le64 v) = v.
Proof.
  intros H. rewrite le64_split, le_val_app. change (length (le32 (v mod M32))) with 4%nat. change (256 ^ N.of_nat 4) with M32.
  rewrite !le_val_le32.
  - rewrite N.add_comm. symmetry. apply N.div_mod. discriminate.
  - apply N.div_lt_upper_bound; [discriminate|exact H].
  - apply wf_mod.
Qed.

Lemma lxor4_rev a b c d : N.lxor (N.lxor (N.lxor a b) c) d = N.lxor (N.lxor (N.lxor d c) b) a.
Proof.
  apply N.bits_inj. intros i. rewrite !N.lxor_spec.
  destruct (N.testbit a i), (N.testbit b i), (N.testbit c i), (N.testbit d i); reflexivity.
Qed.

(** ** Symbolic lanes *)

(** AU: unknown; AC: constant; AW t: schedule word; AR t: the four message bytes of word t read little-endian; AS t i: component i
    of the working state before step t; AE t: W_t + e_t; AX2 t: W_t xor W_{t+2}; AX3 t: that xor W_{t+8}; AK t: K_t + W_t;
    AF i: component i of the new chaining value. *)
Inductive aw := AU | AC (n : N) | AW (t : nat) | AR (t : nat) | AS (t i : nat) | AE (t : nat) | AX2 (t : nat) | AX3 (t : nat)
  | AK (t : nat) | AF (i : nat).
Definition comp (i : nat) (s : st) : word :=
  match i with 0 => sa s | 1 => sb s | 2 => sc s | 3 => sd s | _ => se s end%nat.
Lemma comp_wf i s : wfst s -> wf (comp i s).
Proof. intros (A & B & C & D & E). destruct i as [|[|[|[|i]]]]; assumption. Qed.

Record avec := mkav { a0 : aw; a1 : aw; a2 : aw; a3 : aw }.

Section Sym.
  Variables (h : st) (p : list byte).
  Hypothesis Hh : wfst h.
  Hypothesis Hp : length p = 64%nat.
  Let M := words_of p.
  Let W := schedule M.
  Let w (t : nat) : word := nth t W 0.
  Let S' (t : nat) : st := state_at t h M.
  Definition raw (t : nat) : word := le_val (firstn 4 (skipn (4 * t) p)).

  Lemma Ml : length M = 16%nat. Proof. apply words_of_length. rewrite Hp. reflexivity. Qed.
  Lemma Mw : Forall wf M. Proof. apply wf_words_of. Qed.
  Lemma w_wf t : wf (w t). Proof. apply nth_wf, schedule_wf, Mw. Qed.
  Lemma S_wf t : wfst (S' t). Proof. apply wfst_state_at. exact Hh. Qed.

  (** What a symbolic lane says about a value. *)
  Definition lv (x : aw) (v : word) : Prop :=
    match x with
    | AU => True
    | AC n => v = n /\ wf n
    | AW t => v = w t
    | AR t => v = raw t /\ (t < 16)%nat
    | AS t i => v = comp i (S' t)
    | AE t => v = add32 (w t) (se (S' t))
    | AX2 t => v = N.lxor (w t) (w (t + 2))
    | AX3 t => v = N.lxor (N.lxor (w t) (w (t + 2))) (w (t + 8))
    | AK t => v = add32 (Kt t) (w t)
    | AF i => v = comp i (compress h M)
    end.
  Lemma raw_wf t : (t < 16)%nat -> wf (raw t).
  Proof.
    intros Ht. unfold raw, wf. pose proof (le_val_lt (firstn 4 (skipn (4 * t) p))) as A.
    rewrite firstn_length, skipn_length, Hp in A. replace (Nat.min 4 (64 - 4 * t)) with 4%nat in A by lia. exact A.
  Qed.
  Lemma lv_wf x v : lv x v -> x <> AU -> wf v.
  Proof.
    intros H Hx. destruct x; cbn [lv] in H; try congruence.
    - destruct H as [-> H]. exact H.
    - subst. apply w_wf.
    - destruct H as [-> H]. apply raw_wf. exact H.
    - subst. apply comp_wf, S_wf.
    - subst. auto with wf.
    - subst. apply wf_lxor; apply w_wf.
    - subst. apply wf_lxor; [apply wf_lxor|]; apply w_wf.
    - subst. auto with wf.
    - subst. apply comp_wf, wfst_compress.
  Qed.
  Lemma lv_store x v : lv x v -> lv x (le_val (le32 v)).
  Proof.
    intros H. destruct x; [exact I|..]; rewrite le_val_le32; try exact H; eapply lv_wf; try exact H; discriminate.
  Qed.
  Definition vlv (x : avec) (v : vec) : Prop := lv (a0 x) (v0 v) /\ lv (a1 x) (v1 v) /\ lv (a2 x) (v2 v) /\ lv (a3 x) (v3 v).
  Lemma vlv_store x v : vlv x v -> vlv x (bytes_vec (vec_bytes v)).
  Proof. intros (A & B & C & D). repeat split; cbn [v0 v1 v2 v3 bytes_vec]; apply lv_store; assumption. Qed.

  (** ** Operations on lanes *)

  Definition axor (x y : aw) : aw :=
    match x, y with
    | AW t, AW u => if (u =? t + 2)%nat then AX2 t else if (t =? u + 2)%nat then AX2 u else AU
    | AX2 t, AW u => if (u =? t + 8)%nat then AX3 t else AU
    | AW u, AX2 t => if (u =? t + 8)%nat then AX3 t else AU
    | _, _ => AU
    end.
  Lemma axor_ok x y u v : lv x u -> lv y v -> lv (axor x y) (N.lxor u v).
  Proof.
    destruct x; try (intros; exact I); destruct y; try (intros; exact I); cbn [axor lv]; intros -> ->.
    - destruct (Nat.eqb_spec t0 (t + 2)) as [->|_]; [reflexivity|].
      destruct (Nat.eqb_spec t (t0 + 2)) as [->|_]; [apply N.lxor_comm|exact I].
    - destruct (Nat.eqb_spec t (t0 + 8)) as [->|_]; [apply N.lxor_comm|exact I].
    - destruct (Nat.eqb_spec t0 (t + 8)) as [->|_]; [reflexivity|exact I].
  Qed.

  (** rotl (x xor y) 1 *)
  Definition arolx (x y : aw) : aw :=
    match x, y with
    | AX3 t, AW u => if ((u =? t + 13) && (t + 16 <? 80))%nat then AW (t + 16) else AU
    | _, _ => AU
    end.
  Lemma w_rec t : (t + 16 < 80)%nat ->
    w (t + 16) = rotl32 (N.lxor (N.lxor (N.lxor (w t) (w (t + 2))) (w (t + 8))) (w (t + 13))) 1.
  Proof.
    intros Ht. unfold w, W. rewrite schedule_rec by (auto using Ml; lia). unfold mix.
    replace (t + 16 - 3)%nat with (t + 13)%nat by lia. replace (t + 16 - 8)%nat with (t + 8)%nat by lia.
    replace (t + 16 - 14)%nat with (t + 2)%nat by lia. replace (t + 16 - 16)%nat with t by lia.
    rewrite lxor4_rev. reflexivity.
  Qed.
  Lemma arolx_ok x y u v : lv x u -> lv y v -> lv (arolx x y) (rotl32 (N.lxor u v) 1).
  Proof.
    destruct x; try (intros; exact I); destruct y; try (intros; exact I); cbn [arolx lv]; intros -> ->.
    destruct (Nat.eqb_spec t0 (t + 13)) as [->|_]; [|exact I]. destruct (Nat.ltb_spec (t + 16) 80); [|exact I].
    cbn [andb lv]. rewrite w_rec by assumption. reflexivity.
  Qed.

  Definition aadd (x y : aw) : aw :=
    match x, y with
    | AS t i, AW u => if ((u =? t) && (i =? 4))%nat then AE t else AU
    | AW u, AS t i => if ((u =? t) && (i =? 4))%nat then AE t else AU
    | AC 0, _ => y
    | _, AC 0 => x
    | AS t i, AS u j => if ((i =? j) && ((t =? 0) && (u =? 80) || (t =? 80) && (u =? 0)))%nat then AF i else AU
    | AC k, AW t => if ((k =? Kt t) && (t <? 80)%nat)%bool then AK t else AU
    | _, _ => AU
    end.
  Lemma comp_add i s t : comp i (addst s t) = add32 (comp i s) (comp i t).
  Proof. destruct i as [|[|[|[|i]]]]; reflexivity. Qed.
  Lemma compress_comp i : comp i (compress h M) = add32 (comp i (S' 0)) (comp i (S' 80)).
  Proof. unfold compress. rewrite comp_add. reflexivity. Qed.
  Lemma comp4 i s : (i =? 4)%nat = true -> comp i s = se s.
  Proof. intros H. apply Nat.eqb_eq in H. subst. reflexivity. Qed.
  Lemma aadd_0l y v : lv y v -> lv y (add32 0 v).
  Proof.
    intros H. assert (D : y = AU \/ y <> AU) by (destruct y; (left; reflexivity) || (right; discriminate)).
    destruct D as [->|D]; [exact I|]. rewrite add32_0_l; [exact H|]. eapply lv_wf; eassumption.
  Qed.
  Lemma aadd_ok x y u v : lv x u -> lv y v -> lv (aadd x y) (add32 u v).
  Proof.
    assert (X : forall t i u v, lv (AS t i) u -> lv (AW v) (w v) -> lv (if ((v =? t) && (i =? 4))%nat then AE t else AU) (add32 (w v) u)).
    { intros t i u' v' A _. cbn [lv] in A. subst u'. destruct (Nat.eqb_spec v' t) as [->|_]; [|exact I]. cbn [andb].
      destruct (i =? 4)%nat eqn:E; [|exact I]. rewrite (comp4 _ _ E). reflexivity. }
    intros A B. unfold aadd.
    destruct x as [|n|t|t|t i|t|t|t|t|i]; try exact I.
    - destruct y as [|k|t|t|t i|t|t|t|t|i]; try exact I. destruct k; try exact I. 
    - destruct n as [|n].
      { destruct A as [-> _]. apply aadd_0l. exact B. }
      destruct y as [|k|t|t|t i|t|t|t|t|i]; try exact I.
      + destruct k as [|k]; [|exact I]. destruct B as [-> _]. rewrite add32_comm. apply aadd_0l. exact A.
      + destruct A as [-> _]. cbn [lv] in B. subst v. destruct (N.eqb_spec (N.pos n) (Kt t)) as [E|_]; [|exact I].
        destruct (t <? 80)%nat; [|exact I]. cbn [andb lv]. rewrite <- E. reflexivity.
    - destruct y as [|k|u'|u'|u' j|u'|u'|u'|u'|j]; try exact I.
      + destruct k as [|k]; [|exact I]. destruct B as [-> _]. rewrite add32_comm. apply aadd_0l. exact A.
      + cbn [lv] in A. subst u. apply X; [exact B|reflexivity].
    - destruct y as [|k|u'|u'|u' j|u'|u'|u'|u'|j]; try exact I.
      destruct k as [|k]; [|exact I]. destruct B as [-> _]. rewrite add32_comm. apply aadd_0l. exact A.
    - destruct y as [|k|u'|u'|u' j|u'|u'|u'|u'|j]; try exact I.
      + destruct k as [|k]; [|exact I]. destruct B as [-> _]. rewrite add32_comm. apply aadd_0l. exact A.
      + cbn [lv] in B. subst v. rewrite add32_comm. apply X; [exact A|reflexivity].
      + cbn [lv] in A, B. subst u v. destruct (Nat.eqb_spec i j) as [->|_]; [|exact I]. cbn [andb].
        destruct (Nat.eqb_spec t 0) as [->|Ht]; cbn [andb orb].
        * destruct (Nat.eqb_spec u' 80) as [->|_]; cbn [andb orb]; [|exact I].
          cbn [lv]. rewrite compress_comp. reflexivity.
        * destruct (Nat.eqb_spec t 80) as [->|_]; cbn [andb orb]; [|exact I].
          destruct (Nat.eqb_spec u' 0) as [->|_]; cbn [andb orb]; [|exact I].
          cbn [lv]. rewrite compress_comp. apply add32_comm.
    - destruct y as [|k|u'|u'|u' j|u'|u'|u'|u'|j]; try exact I.
      destruct k as [|k]; [|exact I]. destruct B as [-> _]. rewrite add32_comm. apply aadd_0l. exact A.
    - destruct y as [|k|u'|u'|u' j|u'|u'|u'|u'|j]; try exact I.
      destruct k as [|k]; [|exact I]. destruct B as [-> _]. rewrite add32_comm. apply aadd_0l. exact A.
    - destruct y as [|k|u'|u'|u' j|u'|u'|u'|u'|j]; try exact I.
      destruct k as [|k]; [|exact I]. destruct B as [-> _]. rewrite add32_comm. apply aadd_0l. exact A.
    - destruct y as [|k|u'|u'|u' j|u'|u'|u'|u'|j]; try exact I.
      destruct k as [|k]; [|exact I]. destruct B as [-> _]. rewrite add32_comm. apply aadd_0l. exact A.
    - destruct y as [|k|u'|u'|u' j|u'|u'|u'|u'|j]; try exact I.
      destruct k as [|k]; [|exact I]. destruct B as [-> _]. rewrite add32_comm. apply aadd_0l. exact A.
  Qed.

  (** rotl x 30 *)
  Definition arol30 (x : aw) : aw :=
    match x with
    | AS t i => if ((i =? 0) && (t + 4 <=? 80))%nat then AS (t + 4) 4 else AU
    | _ => AU
    end.
  Lemma S_step t : (t < 80)%nat -> S' (S t) = step t (w t) (S' t).
  Proof. intros Ht. apply state_at_S; [exact Ml|exact Ht]. Qed.
  Lemma S_step4 t : (t + 4 <= 80)%nat ->
    S' (t + 4) = step (t + 3) (w (t + 3)) (step (t + 2) (w (t + 2)) (step (t + 1) (w (t + 1)) (step t (w t) (S' t)))).
  Proof.
    intros Ht.
    assert (A : S' (t + 1) = step t (w t) (S' t)) by (replace (t + 1)%nat with (S t) by lia; apply S_step; lia).
    assert (B : S' (t + 2) = step (t + 1) (w (t + 1)) (S' (t + 1))) by (replace (t + 2)%nat with (S (t + 1)) by lia; apply S_step; lia).
    assert (C : S' (t + 3) = step (t + 2) (w (t + 2)) (S' (t + 2))) by (replace (t + 3)%nat with (S (t + 2)) by lia; apply S_step; lia).
    rewrite <- A, <- B, <- C. replace (t + 4)%nat with (S (t + 3)) by lia. apply S_step. lia.
  Qed.
  Lemma arol30_ok x u : lv x u -> lv (arol30 x) (rotl32 u 30).
  Proof.
    destruct x; try (intros; exact I). cbn [arol30 lv]. intros ->.
    destruct (Nat.eqb_spec i 0) as [->|_]; [|exact I]. cbn [andb].
    destruct (Nat.leb_spec (t + 4) 80); [|exact I]. cbn [lv]. rewrite S_step4 by assumption. reflexivity.
  Qed.

  Definition aw_eqb (x y : aw) : bool :=
    match x, y with
    | AC n, AC k => n =? k
    | AW t, AW u | AR t, AR u | AE t, AE u | AX2 t, AX2 u | AX3 t, AX3 u | AK t, AK u | AF t, AF u => (t =? u)%nat
    | AS t i, AS u j => ((t =? u) && (i =? j))%nat
    | _, _ => false
    end.
  Lemma aw_eqb_eq x y : aw_eqb x y = true -> x = y.
  Proof.
    destruct x, y; cbn [aw_eqb]; try discriminate; intros H;
      try (apply Nat.eqb_eq in H; subst; reflexivity); try (apply N.eqb_eq in H; subst; reflexivity).
    apply andb_prop in H. destruct H as [H1 H2]. apply Nat.eqb_eq in H1, H2. subst. reflexivity.
  Qed.
  Definition av_eqb (x y : avec) : bool :=
    aw_eqb (a0 x) (a0 y) && aw_eqb (a1 x) (a1 y) && aw_eqb (a2 x) (a2 y) && aw_eqb (a3 x) (a3 y).
  Lemma av_eqb_eq x y : av_eqb x y = true -> x = y.
  Proof.
    destruct x, y. unfold av_eqb. cbn [a0 a1 a2 a3]. intros H.
    apply andb_prop in H. destruct H as [H H4]. apply andb_prop in H. destruct H as [H H3]. apply andb_prop in H. destruct H as [H1 H2].
    apply aw_eqb_eq in H1, H2, H3, H4. subst. reflexivity.
  Qed.
  Definition alane (i : nat) (x : avec) : aw := match i with 0 => a0 x | 1 => a1 x | 2 => a2 x | _ => a3 x end%nat.
  Lemma alane_ok i x v : vlv x v -> lv (alane i x) (lane i v).
  Proof. intros (A & B & C & D). destruct i as [|[|[|i]]]; assumption. Qed.
  Definition amap2 (f : aw -> aw -> aw) (x y : avec) : avec := mkav (f (a0 x) (a0 y)) (f (a1 x) (a1 y)) (f (a2 x) (a2 y)) (f (a3 x) (a3 y)).
  Lemma amap2_ok af f x y u v : (forall x y u v, lv x u -> lv y v -> lv (af x y) (f u v)) ->
    vlv x u -> vlv y v -> vlv (amap2 af x y) (map2v f u v).
  Proof. intros H (A & B & C & D) (A' & B' & C' & D'). repeat split; cbn; apply H; assumption. Qed.

  (** Message words: big-endian reading of the block is the byte-swapped little-endian one. *)
  Lemma raw_bytes t : (t < 16)%nat -> exists b0 b1 b2 b3,
    firstn 4 (skipn (4 * t) p) = [b0; b1; b2; b3] /\ raw t = le_val [b0; b1; b2; b3] /\ w t = be_val [b0; b1; b2; b3].
  Proof.
    intros Ht. exists (nth (4*t) p x00), (nth (4*t+1) p x00), (nth (4*t+2) p x00), (nth (4*t+3) p x00).
    assert (E : firstn 4 (skipn (4 * t) p) = [nth (4*t) p x00; nth (4*t+1) p x00; nth (4*t+2) p x00; nth (4*t+3) p x00]).
    { apply (nth_ext _ _ x00 x00); [rewrite firstn_length, skipn_length, Hp; cbn [length]; lia|].
      rewrite firstn_length, skipn_length, Hp. intros i Hi.
      assert (G : forall i, (i < 4)%nat -> nth i (firstn 4 (skipn (4 * t) p)) x00 = nth (4 * t + i) p x00).
      { clear i Hi. intros i Hi. rewrite <- (firstn_skipn (4 * t) p) at 2.
        rewrite app_nth2 by (rewrite firstn_length, Hp; lia).
        rewrite firstn_length, Hp. replace (4 * t + i - Nat.min (4 * t) 64)%nat with i by lia.
        rewrite <- (firstn_skipn 4 (skipn (4 * t) p)) at 2. rewrite app_nth1; [reflexivity|].
        rewrite firstn_length, skipn_length, Hp. lia. }
      rewrite G by lia. destruct i as [|[|[|[|i]]]]; cbn [nth]; [f_equal; lia..|lia]. }
    split; [exact E|]. split; [unfold raw; rewrite E; reflexivity|].
    unfold w, W. rewrite schedule_low by (auto using Ml). unfold M. apply nth_words_of. rewrite Hp. lia.
  Qed.
End Sym.

(** ** Symbolic memory *)

Ltac case8 r := destruct r as [|[|[|[|[|[|[|[|r]]]]]]]].

Section Mem.
  Variable L : layout.
  Hypothesis HL : layout_ok L.

  (** The start of the 16-aligned part of the frame, as computed by the amd64 code. *)
  Definition al : N := (l_frame L + 15) - (l_frame L + 15) mod 16.
  Lemma al_bounds : l_frame L <= al /\ al + 32 <= l_frame L + 80 /\ al mod 16 = 0.
  Proof.
    unfold al. pose proof (N.mod_upper_bound (l_frame L + 15) 16 ltac:(discriminate)) as A.
    pose proof (N.div_mod (l_frame L + 15) 16 ltac:(discriminate)) as B.
    split; [lia|]. split; [lia|].
    replace (l_frame L + 15 - (l_frame L + 15) mod 16) with (((l_frame L + 15) / 16) * 16) by lia.
    apply N.mod_mul. discriminate.
  Qed.

  (** Symbolic regions: 0 h, 1 p, 2 m1, 3 cs, 4 the aligned 32 bytes in the frame, 5 arguments, 6 and 7 symbols. *)
  Definition abase (r : nat) : N :=
    match r with 0 => l_h L | 1 => l_p L | 2 => l_m1 L | 3 => l_cs L | 4 => al | 5 => l_args L | 6 => l_ro1 L | _ => l_ro2 L end%nat.
  Definition asize (r : nat) : N :=
    match r with 0%nat => 20 | 1%nat => 64 | 2%nat => 320 | 3%nat => 60 | 4%nat => 32 | 5%nat => 96 | 6%nat => 16 | 7%nat => 16 | _ => 0 end.
  Definition awr (r : nat) : bool := match r with 0 | 2 | 3 | 4 => true | _ => false end%nat.
  Definition aal (r : nat) : bool := match r with 4 | 6 | 7 => true | _ => false end%nat.

  Lemma lay_facts :
    let R := regions L in
    (forall i j a b, (i < j)%nat -> nth_error R i = Some a -> nth_error R j = Some b -> apart a b) /\
    (forall i a, nth_error R i = Some a -> rbase a + rsize a < M64).
  Proof.
    destruct HL as (A & B & _). cbv zeta. split.
    - revert A. generalize (regions L). intros l. induction l as [|x l IH]; intros A i j a b Hij Hi Hj.
      + destruct i; discriminate.
      + destruct A as [A1 A2]. destruct j as [|j]; [lia|]. cbn [nth_error] in Hj. destruct i as [|i].
        * cbn in Hi. injection Hi as <-. rewrite Forall_forall in A1. apply A1. eapply nth_error_In; eassumption.
        * cbn [nth_error] in Hi. apply (IH A2 i j); [lia|assumption|assumption].
    - intros i a Hi. rewrite Forall_forall in B. apply B. eapply nth_error_In; eassumption.
  Qed.
  (** The enclosing concrete region. *)
  Definition creg (r : nat) : region := nth r (regions L) (mkreg 0 0 false).
  Lemma creg_nth r : (r < 8)%nat -> nth_error (regions L) r = Some (creg r).
  Proof. intros H. apply nth_error_nth'. exact H. Qed.
  Lemma creg_in r : (r < 8)%nat -> rbase (creg r) <= abase r /\ abase r + asize r <= rbase (creg r) + rsize (creg r).
  Proof.
    intros H. pose proof al_bounds as (A & B & _). destruct HL as (_ & _ & _ & _ & Hn).
    case8 r; cbn [creg nth regions rbase rsize abase asize]; lia.
  Qed.
  Lemma abs_apart r q : (r < 8)%nat -> (q < 8)%nat -> r <> q -> abase r + asize r <= abase q \/ abase q + asize q <= abase r.
  Proof.
    intros Hr Hq Hne. destruct (creg_in r Hr) as [A B]. destruct (creg_in q Hq) as [C D].
    destruct lay_facts as [F _]. destruct (Nat.lt_ge_cases r q) as [H|H].
    - pose proof (F r q _ _ H (creg_nth r Hr) (creg_nth q Hq)) as [E|E]; lia.
    - pose proof (F q r _ _ ltac:(lia) (creg_nth q Hq) (creg_nth r Hr)) as [E|E]; lia.
  Qed.
  Lemma abs_bound r : (r < 8)%nat -> abase r + asize r < M64.
  Proof.
    intros Hr. destruct (creg_in r Hr) as [A B]. destruct lay_facts as [_ F]. pose proof (F r _ (creg_nth r Hr)). lia.
  Qed.
  Lemma frame_bound : l_frame L + 80 < M64.
  Proof. destruct lay_facts as [_ F]. exact (F 4%nat _ eq_refl). Qed.
  Lemma size_id r n : 0 < n -> n <= asize r -> (r < 8)%nat.
  Proof. intros H1 H2. case8 r; cbn [asize] in H2; lia. Qed.
  Lemma inside_creg r off n : (r < 8)%nat -> off + n <= asize r -> inside (abase r + off) n (creg r) = true.
  Proof.
    intros Hr H. destruct (creg_in r Hr) as [A B]. unfold inside. apply andb_true_intro. split; apply N.leb_le; lia.
  Qed.
  Lemma readable_ok r off n : 0 < n -> off + n <= asize r -> readable (regions L) (abase r + off) n = true.
  Proof.
    intros Hn H. assert (Hr : (r < 8)%nat) by (apply (size_id r (off + n)); lia).
    apply existsb_exists. exists (creg r). split; [eapply nth_error_In, creg_nth, Hr|]. apply inside_creg; assumption.
  Qed.
  Lemma writable_ok r off n : 0 < n -> off + n <= asize r -> awr r = true -> writable (regions L) (abase r + off) n = true.
  Proof.
    intros Hn H Hw. assert (Hr : (r < 8)%nat) by (apply (size_id r (off + n)); lia).
    apply existsb_exists. exists (creg r). split; [eapply nth_error_In, creg_nth, Hr|]. apply andb_true_intro. split.
    - case8 r; (reflexivity || discriminate).
    - apply inside_creg; assumption.
  Qed.
  Lemma aligned_ok r off : aal r = true -> off mod 16 = 0 -> aligned (abase r + off) = true.
  Proof.
    intros Hr Ho. unfold aligned. apply N.eqb_eq. rewrite <- N.add_mod_idemp_r, Ho, N.add_0_r by discriminate.
    destruct HL as (_ & _ & A & B & _). pose proof al_bounds as (_ & _ & C). case8 r; try discriminate; assumption.
  Qed.

  (** Contents: general-purpose values. GW: a 32-bit lane; GP: pointer into a region; GF: frame pointer plus offset. *)
  Inductive ag := GU | GI (n : N) | GP (r : nat) (off : N) | GW (x : aw) | GF (off : N).
  Inductive kind := KV (x : avec) | KW (x : aw) | KQ (g : ag).
  Record cell := mkcell { c_r : nat; c_off : N; c_k : kind }.
  Definition ksize (k : kind) : nat := match k with KV _ => 16 | KW _ => 4 | KQ _ => 8 end.

  Variables (h : st) (p : list byte).
  Hypothesis Hh : wfst h.
  Hypothesis Hp : length p = 64%nat.
  Definition gv (g : ag) (v : N) : Prop :=
    match g with
    | GU => True
    | GI n => v = n /\ n < M64
    | GP r off => v = abase r + off /\ (r < 8)%nat /\ off <= asize r
    | GW x => lv h p x v
    | GF off => v = l_frame L + off /\ off <= 80
    end.
  Definition holds (k : kind) (l : list byte) : Prop :=
    match k with
    | KV x => vlv h p x (bytes_vec l)
    | KW x => lv h p x (le_val l)
    | KQ g => gv g (le_val l)
    end.
  Definition cell_ok (m : mem) (c : cell) : Prop :=
    c_off c + N.of_nat (ksize (c_k c)) <= asize (c_r c) /\ holds (c_k c) (peek m (abase (c_r c) + c_off c) (ksize (c_k c))).

  Lemma ksize_pos k : (0 < ksize k)%nat. Proof. destruct k; cbn; lia. Qed.
  Lemma cell_id m c : cell_ok m c -> (c_r c < 8)%nat.
  Proof. intros [A _]. pose proof (ksize_pos (c_k c)). apply (size_id _ (c_off c + N.of_nat (ksize (c_k c)))); lia. Qed.

  (** Bytes that no store may change. *)
  Definition off_limits (a : N) : Prop := forall r, awr r = true -> a < rbase (creg r) \/ rbase (creg r) + rsize (creg r) <= a.
  Definition memrel (m0 : mem) (cs : list cell) (m : mem) : Prop :=
    Forall (cell_ok m) cs /\ forall a, off_limits a -> m a = m0 a.

  Definition at_cell (r : nat) (off : N) (c : cell) : bool := ((c_r c =? r)%nat && (c_off c =? off))%bool.
  Definition alook (cs : list cell) (r : nat) (off : N) : option kind :=
    match find (at_cell r off) cs with Some c => Some (c_k c) | None => None end.
  Lemma alook_ok m0 cs m r off k : memrel m0 cs m -> alook cs r off = Some k ->
    rd (regions L) m (abase r + off) (ksize k) = Some (peek m (abase r + off) (ksize k)) /\ holds k (peek m (abase r + off) (ksize k)) /\
    (r < 8)%nat /\ off + N.of_nat (ksize k) <= asize r.
  Proof.
    intros [H _] E. unfold alook in E. destruct (find _ cs) as [c|] eqn:F; [|discriminate]. injection E as <-.
    apply find_some in F. destruct F as [Hin Hc]. apply andb_prop in Hc. destruct Hc as [H1 H2].
    apply Nat.eqb_eq in H1. apply N.eqb_eq in H2. subst r off.
    rewrite Forall_forall in H. pose proof (H _ Hin) as [A B]. pose proof (cell_id m c (conj A B)) as Hr.
    split; [|split; [exact B|split; [exact Hr|exact A]]].
    unfold rd. rewrite readable_ok; [reflexivity| |exact A]. pose proof (ksize_pos (c_k c)). lia.
  Qed.

  Definition clear_of (r : nat) (off n : N) (c : cell) : bool :=
    negb (c_r c =? r)%nat || (c_off c + N.of_nat (ksize (c_k c)) <=? off) || (off + n <=? c_off c).
  Definition astore (cs : list cell) (r : nat) (off : N) (k : kind) : option (list cell) :=
    if ((off + N.of_nat (ksize k) <=? asize r) && awr r)%bool
    then Some (mkcell r off k :: filter (clear_of r off (N.of_nat (ksize k))) cs) else None.
  Lemma astore_ok m0 cs m r off k l cs' : memrel m0 cs m -> astore cs r off k = Some cs' -> length l = ksize k -> holds k l ->
    wr (regions L) m (abase r + off) l = Some (poke m (abase r + off) l) /\ memrel m0 cs' (poke m (abase r + off) l) /\ (r < 8)%nat.
  Proof.
    intros [H Hf] E Hl Hk. unfold astore in E.
    destruct ((off + N.of_nat (ksize k) <=? asize r) && awr r)%bool eqn:C; [|discriminate]. injection E as <-.
    apply andb_prop in C. destruct C as [C Hw]. apply N.leb_le in C.
    pose proof (ksize_pos k) as Hpos.
    assert (Hr : (r < 8)%nat) by (apply (size_id r (off + N.of_nat (ksize k))); lia).
    split; [unfold wr; rewrite Hl, writable_ok; [reflexivity|lia|exact C|exact Hw]|]. split; [|exact Hr]. split.
    - constructor.
      + split; [exact C|]. cbn [c_k c_r c_off]. rewrite <- Hl, peek_poke_same. exact Hk.
      + rewrite Forall_forall. intros c Hc. apply filter_In in Hc. destruct Hc as [Hc Hcl].
        rewrite Forall_forall in H. pose proof (H _ Hc) as [A B]. split; [exact A|].
        rewrite peek_poke_apart; [exact B|]. rewrite Hl.
        pose proof (cell_id m c (conj A B)) as Hcr.
        unfold clear_of in Hcl. destruct (Nat.eqb_spec (c_r c) r) as [->|Hne].
        * cbn [negb orb] in Hcl. apply orb_prop in Hcl. destruct Hcl as [X|X]; apply N.leb_le in X; lia.
        * pose proof (abs_apart _ _ Hcr Hr Hne). lia.
    - intros a Ha. rewrite poke_out; [apply Hf; exact Ha|]. rewrite Hl.
      destruct (creg_in r Hr) as [X Y]. pose proof (Ha r Hw). lia.
  Qed.
End Mem.

(** ** The memory at entry *)

Lemma peek_sub m a n : forall off k, (off + k <= n)%nat -> peek m (a + N.of_nat off) k = firstn k (skipn off (peek m a n)).
Proof.
  intros off k H. replace n with (off + (k + (n - off - k)))%nat by lia. rewrite peek_app, skipn_app, peek_length, Nat.sub_diag.
  rewrite skipn_all2 by (rewrite peek_length; lia). cbn [app skipn]. rewrite peek_app, firstn_app, peek_length, Nat.sub_diag.
  rewrite firstn_all2 by (rewrite peek_length; lia). cbn [firstn]. rewrite app_nil_r. reflexivity.
Qed.
Lemma words_bytes_length l : length (words_bytes l) = (4 * length l)%nat.
Proof. induction l as [|x l IH]; [reflexivity|]. unfold words_bytes in *. cbn [map concat]. rewrite app_length, IH. cbn [length le32]. lia. Qed.
Lemma args_length L n : length (args_bytes L n) = 96%nat. Proof. reflexivity. Qed.

Lemma skipn_add {A} n : forall m (l : list A), skipn n (skipn m l) = skipn (m + n) l.
Proof. induction m as [|m IH]; intros l; [reflexivity|]. destruct l; [cbn [skipn]; destruct n; reflexivity|]. cbn [skipn Nat.add]. apply IH. Qed.

Section Entry.
  Variable L : layout.
  Hypothesis HL : layout_ok L.
  Variables (ro1 ro2 : list byte) (m : mem) (h : st) (p : list byte) (m1 : list word) (cs : csarr).
  Hypothesis H1 : length ro1 = 16%nat.
  Hypothesis H2 : length ro2 = 16%nat.
  Hypothesis Hp : length p = 64%nat.
  Hypothesis Hm : length m1 = 80%nat.
  Let E := entry_mem L ro1 ro2 m h p m1 cs.

  Lemma apart_lay i j : (i < 8)%nat -> (j < 8)%nat -> i <> j ->
    rbase (creg L i) + rsize (creg L i) <= rbase (creg L j) \/ rbase (creg L j) + rsize (creg L j) <= rbase (creg L i).
  Proof.
    intros Hi Hj Hne. destruct (lay_facts L HL) as [F _]. destruct (Nat.lt_ge_cases i j) as [H|H].
    - exact (F i j _ _ H (creg_nth L i Hi) (creg_nth L j Hj)).
    - destruct (F j i _ _ ltac:(lia) (creg_nth L j Hj) (creg_nth L i Hi)); auto.
  Qed.
  Lemma Hnp : l_np L = 64.
  Proof. destruct HL as (_ & _ & _ & _ & Hn). exact Hn. Qed.
  Ltac skip i j := rewrite peek_poke_apart by
    (rewrite ?words_bytes_length, ?Hp, ?Hm, ?H1, ?H2, ?args_length; pose proof (apart_lay i j ltac:(lia) ltac:(lia) ltac:(lia)) as X;
     cbn [creg nth regions rbase rsize] in X; pose proof Hnp; cbn [length cs_words st_words app]; lia).
  Lemma entry_h : peek E (l_h L) 20 = words_bytes (st_words h).
  Proof. unfold E, entry_mem. exact (peek_poke_same _ _ (words_bytes (st_words h))). Qed.
  Lemma entry_p : peek E (l_p L) 64 = p.
  Proof. unfold E, entry_mem. skip 1%nat 0%nat. rewrite <- Hp. apply peek_poke_same. Qed.
  Lemma entry_args : peek E (l_args L) 96 = args_bytes L 64.
  Proof.
    unfold E, entry_mem. skip 5%nat 0%nat. skip 5%nat 1%nat. skip 5%nat 2%nat. skip 5%nat 3%nat. rewrite Hp.
    exact (peek_poke_same _ _ (args_bytes L 64)).
  Qed.
  Lemma entry_ro1 : peek E (l_ro1 L) 16 = ro1.
  Proof.
    unfold E, entry_mem. skip 6%nat 0%nat. skip 6%nat 1%nat. skip 6%nat 2%nat. skip 6%nat 3%nat. skip 6%nat 5%nat.
    rewrite <- H1. apply peek_poke_same.
  Qed.
  Lemma entry_ro2 : peek E (l_ro2 L) 16 = ro2.
  Proof.
    unfold E, entry_mem. skip 7%nat 0%nat. skip 7%nat 1%nat. skip 7%nat 2%nat. skip 7%nat 3%nat. skip 7%nat 5%nat. skip 7%nat 6%nat.
    rewrite <- H2. apply peek_poke_same.
  Qed.

  Hypothesis Hh : wfst h.
  (** The cells of the entry memory that both routines start from. *)
  Definition entry_cells : list cell :=
    [mkcell 0 0 (KV (mkav (AS 0 0) (AS 0 1) (AS 0 2) (AS 0 3))); mkcell 0 16 (KW (AS 0 4));
     mkcell 1 0 (KV (mkav (AR 0) (AR 1) (AR 2) (AR 3))); mkcell 1 16 (KV (mkav (AR 4) (AR 5) (AR 6) (AR 7)));
     mkcell 1 32 (KV (mkav (AR 8) (AR 9) (AR 10) (AR 11))); mkcell 1 48 (KV (mkav (AR 12) (AR 13) (AR 14) (AR 15)));
     mkcell 5 0 (KQ (GP 0 0)); mkcell 5 24 (KQ (GP 1 0)); mkcell 5 32 (KQ (GI 64)); mkcell 5 48 (KQ (GP 2 0)); mkcell 5 72 (KQ (GP 3 0))].

  Lemma arg_ok off g v : (off + 8 <= 96)%nat -> firstn 8 (skipn off (args_bytes L 64)) = le64 v -> v < M64 -> gv L h p g v ->
    cell_ok L h p E (mkcell 5 (N.of_nat off) (KQ g)).
  Proof.
    intros Ho Hb Hv Hg. split; cbn [c_off c_k c_r ksize asize]; [lia|]. cbn [abase holds].
    rewrite (peek_sub E (l_args L) 96) by assumption. rewrite entry_args, Hb, le_val_le64 by assumption. exact Hg.
  Qed.
  Lemma base_lt r : (r < 8)%nat -> abase L r < M64.
  Proof. intros Hr. pose proof (abs_bound L HL r Hr). lia. Qed.
  Lemma entry_cells_ok : Forall (cell_ok L h p E) entry_cells.
  Proof.
    assert (St : forall i, comp i (state_at 0 h (words_of p)) = comp i h) by (intros; reflexivity).
    unfold entry_cells.
    constructor.
    { split; [cbn; lia|]. cbn [c_off c_k c_r ksize abase holds]. rewrite N.add_0_r.
      rewrite <- (N.add_0_r (l_h L)). change 0 with (N.of_nat 0). rewrite (peek_sub E (l_h L) 20) by lia. rewrite entry_h.
      change (firstn 16 (skipn 0 (words_bytes (st_words h)))) with (vec_bytes (mkv (sa h) (sb h) (sc h) (sd h))).
      apply vlv_store; auto. repeat split. }
    constructor.
    { split; [cbn; lia|]. cbn [c_off c_k c_r ksize abase holds]. change 16 with (N.of_nat 16).
      rewrite (peek_sub E (l_h L) 20) by lia. rewrite entry_h.
      change (firstn 4 (skipn 16 (words_bytes (st_words h)))) with (le32 (se h)).
      apply lv_store; auto. reflexivity. }
    assert (P : forall k, (k < 4)%nat -> cell_ok L h p E (mkcell 1 (N.of_nat (16 * k))
       (KV (mkav (AR (4 * k)) (AR (4 * k + 1)) (AR (4 * k + 2)) (AR (4 * k + 3)))))).
    { intros k Hk. split; [cbn [c_off c_k c_r ksize asize]; lia|]. cbn [c_off c_k c_r ksize abase holds].
      rewrite (peek_sub E (l_p L) 64) by lia. rewrite entry_p.
      assert (Q : forall i, (i < 4)%nat -> firstn 4 (skipn (4 * i) (firstn 16 (skipn (16 * k) p))) = firstn 4 (skipn (4 * (4 * k + i)) p)).
      { intros i Hi. rewrite skipn_firstn_comm, firstn_firstn, skipn_add. f_equal; [lia|f_equal; lia]. }
      unfold vlv, bytes_vec. cbn [a0 a1 a2 a3 v0 v1 v2 v3 lv]. unfold raw.
      pose proof (Q 0%nat ltac:(lia)) as Q0. pose proof (Q 1%nat ltac:(lia)) as Q1. pose proof (Q 2%nat ltac:(lia)) as Q2.
      pose proof (Q 3%nat ltac:(lia)) as Q3. change (4 * 0)%nat with 0%nat in Q0. change (4 * 1)%nat with 4%nat in Q1.
      change (4 * 2)%nat with 8%nat in Q2. change (4 * 3)%nat with 12%nat in Q3. cbn [skipn] in Q0.
      rewrite Q0, Q1, Q2, Q3, Nat.add_0_r. repeat split; lia. }
    constructor; [exact (P 0%nat ltac:(lia))|]. constructor; [exact (P 1%nat ltac:(lia))|].
    constructor; [exact (P 2%nat ltac:(lia))|]. constructor; [exact (P 3%nat ltac:(lia))|].
    assert (G : forall r, (r < 8)%nat -> gv L h p (GP r 0) (abase L r)) by (intros r Hr; cbn [gv]; split; [lia|]; split; [assumption|lia]).
    constructor; [apply (arg_ok 0 _ (l_h L)); [lia|reflexivity|apply (base_lt 0); lia|apply G; lia]|].
    constructor; [apply (arg_ok 24 _ (l_p L)); [lia|reflexivity|apply (base_lt 1); lia|apply (G 1%nat); lia]|].
    constructor; [apply (arg_ok 32 _ 64); [lia|reflexivity|reflexivity|split; reflexivity]|].
    constructor; [apply (arg_ok 48 _ (l_m1 L)); [lia|reflexivity|apply (base_lt 2); lia|apply (G 2%nat); lia]|].
    constructor; [apply (arg_ok 72 _ (l_cs L)); [lia|reflexivity|apply (base_lt 3); lia|apply (G 3%nat); lia]|].
    constructor.
  Qed.
End Entry.

(** ** The memory at exit *)

(** The cells both routines must end with: new chaining value in h, the schedule in m1, states before steps 0, 56 and 64 in cs. *)
Definition sched_cell (k : nat) : cell :=
  mkcell 2 (N.of_nat (16 * k)) (KV (mkav (AW (4 * k)) (AW (4 * k + 1)) (AW (4 * k + 2)) (AW (4 * k + 3)))).
Definition state_cells (off : N) (t : nat) : list cell :=
  [mkcell 3 off (KV (mkav (AS t 0) (AS t 1) (AS t 2) (AS t 3))); mkcell 3 (off + 16) (KW (AS t 4))].
Definition exit_cells : list cell :=
  [mkcell 0 0 (KV (mkav (AF 0) (AF 1) (AF 2) (AF 3))); mkcell 0 16 (KW (AF 4))] ++
  map sched_cell (seq 0 20) ++ state_cells 0 0 ++ state_cells 20 56 ++ state_cells 40 64.
Definition kind_eqb (a b : kind) : bool :=
  match a, b with
  | KV x, KV y => av_eqb x y
  | KW x, KW y => aw_eqb x y
  | _, _ => false
  end.
Lemma kind_eqb_eq a b : kind_eqb a b = true -> a = b.
Proof.
  destruct a, b; cbn [kind_eqb]; try discriminate; intros H.
  - apply av_eqb_eq in H. congruence.
  - apply aw_eqb_eq in H. congruence.
Qed.
Definition has_cells (want cs : list cell) : bool :=
  forallb (fun c => match alook cs (c_r c) (c_off c) with Some k => kind_eqb k (c_k c) | None => false end) want.

Lemma bytes_vec_at m a : bytes_vec (peek m a 16) = mkv (word_at m a) (word_at m (a + 4)) (word_at m (a + 8)) (word_at m (a + 12)).
Proof.
  unfold bytes_vec, word_at.
  rewrite <- (peek_sub m a 16 4 4), <- (peek_sub m a 16 8 4), <- (peek_sub m a 16 12 4) by lia.
  pose proof (peek_sub m a 16 0 4 ltac:(lia)) as E. cbn [skipn] in E. rewrite <- E.
  rewrite N.add_0_r. reflexivity.
Qed.

Section Exit.
  Variable L : layout.
  Hypothesis HL : layout_ok L.
  Variables (h : st) (p : list byte).
  Hypothesis Hh : wfst h.
  Hypothesis Hp : length p = 64%nat.
  Variables (m0 m : mem) (cs : list cell).
  Hypothesis R : memrel L h p m0 cs m.
  Hypothesis C : has_cells exit_cells cs = true.
  Let M := words_of p.

  Lemma exit_cell c : In c exit_cells -> holds L h p (c_k c) (peek m (abase L (c_r c) + c_off c) (ksize (c_k c))).
  Proof.
    intros H. unfold has_cells in C. rewrite forallb_forall in C. pose proof (C c H) as E.
    destruct (alook cs (c_r c) (c_off c)) as [k|] eqn:F; [|discriminate]. apply kind_eqb_eq in E. subst k.
    apply (alook_ok L HL h p Hp m0 cs m) in F; [|exact R]. apply F.
  Qed.
  Lemma exit_state off t : In (mkcell 3 off (KV (mkav (AS t 0) (AS t 1) (AS t 2) (AS t 3)))) exit_cells ->
    In (mkcell 3 (off + 16) (KW (AS t 4))) exit_cells -> st_at m (l_cs L + off) = state_at t h M.
  Proof.
    intros A B. apply exit_cell in A, B. cbn [c_r c_off c_k ksize abase holds] in A, B. rewrite bytes_vec_at in A.
    destruct A as (A1 & A2 & A3 & A4). cbn [lv a0 a1 a2 a3 v0 v1 v2 v3 comp] in A1, A2, A3, A4. cbn [lv comp] in B.
    change (le_val (peek m (l_cs L + (off + 16)) 4)) with (word_at m (l_cs L + (off + 16))) in B. rewrite N.add_assoc in B.
    unfold st_at. rewrite A1, A2, A3, A4, B. unfold M. destruct (state_at t h (words_of p)). reflexivity.
  Qed.
  Lemma exit_h : st_at m (l_h L) = compress h M.
  Proof.
    assert (A := exit_cell (mkcell 0 0 (KV (mkav (AF 0) (AF 1) (AF 2) (AF 3)))) ltac:(left; reflexivity)).
    assert (B := exit_cell (mkcell 0 16 (KW (AF 4))) ltac:(right; left; reflexivity)).
    cbn [c_r c_off c_k ksize abase holds] in A, B. rewrite N.add_0_r, bytes_vec_at in A.
    destruct A as (A1 & A2 & A3 & A4). cbn [lv a0 a1 a2 a3 v0 v1 v2 v3 comp] in A1, A2, A3, A4. cbn [lv comp] in B.
    change (le_val (peek m (l_h L + 16) 4)) with (word_at m (l_h L + 16)) in B.
    unfold st_at. rewrite A1, A2, A3, A4, B. unfold M. destruct (compress h (words_of p)). reflexivity.
  Qed.
  Lemma exit_cs : cs_at m (l_cs L) = mkcs h (state_at 56 h M) (state_at 64 h M).
  Proof.
    unfold cs_at. rewrite <- (N.add_0_r (l_cs L)) at 1.
    rewrite (exit_state 0 0), (exit_state 20 56), (exit_state 40 64).
    - reflexivity.
    - unfold exit_cells. rewrite !in_app_iff. right. right. right. right. left. reflexivity.
    - unfold exit_cells. rewrite !in_app_iff. right. right. right. right. right. left. reflexivity.
    - unfold exit_cells. rewrite !in_app_iff. right. right. right. left. left. reflexivity.
    - unfold exit_cells. rewrite !in_app_iff. right. right. right. left. right. left. reflexivity.
    - unfold exit_cells. rewrite !in_app_iff. right. right. left. left. reflexivity.
    - unfold exit_cells. rewrite !in_app_iff. right. right. left. right. left. reflexivity.
  Qed.
  Lemma exit_m1 : words_at m (l_m1 L) 80 = schedule M.
  Proof.
    assert (Q : forall k j, (k < 20)%nat -> (j < 4)%nat -> word_at m (l_m1 L + 4 * N.of_nat (4 * k + j)) = nth (4 * k + j) (schedule M) 0).
    { intros k j Hk Hj.
      assert (A : In (sched_cell k) exit_cells).
      { unfold exit_cells. rewrite !in_app_iff. right. left. apply in_map. apply in_seq. lia. }
      apply exit_cell in A. cbn [sched_cell c_r c_off c_k ksize abase holds] in A. rewrite bytes_vec_at in A.
      destruct A as (A1 & A2 & A3 & A4). cbn [lv a0 a1 a2 a3 v0 v1 v2 v3] in A1, A2, A3, A4. fold M in A1, A2, A3, A4.
      assert (X : l_m1 L + 4 * N.of_nat (4 * k + j) = l_m1 L + N.of_nat (16 * k) + 4 * N.of_nat j) by lia. rewrite X. clear X.
      destruct j as [|[|[|[|j]]]]; [| | | |lia].
      - change (4 * N.of_nat 0) with 0. rewrite N.add_0_r, Nat.add_0_r. exact A1.
      - exact A2.
      - exact A3.
      - exact A4. }
    apply (nth_ext _ _ 0 0).
    - unfold words_at. rewrite map_length, seq_length, schedule_length; [reflexivity|]. apply words_of_length. rewrite Hp. reflexivity.
    - unfold words_at. rewrite map_length, seq_length. intros i Hi.
      rewrite (nth_indep _ 0 ((fun i => word_at m (l_m1 L + 4 * N.of_nat i)) 0%nat)) by (rewrite map_length, seq_length; exact Hi).
      rewrite (map_nth (fun i => word_at m (l_m1 L + 4 * N.of_nat i))), seq_nth by exact Hi. cbn [Nat.add].
      pose proof (Nat.div_mod i 4 ltac:(discriminate)) as D. pose proof (Nat.mod_upper_bound i 4 ltac:(discriminate)) as B.
      rewrite D. apply Q; [|exact B]. apply Nat.div_lt_upper_bound; lia.
  Qed.
End Exit.
