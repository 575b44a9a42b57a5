(** Facts about the SHA-1 specification. *)

From Coq Require Import Arith ZArith NArith List Strings.Byte Lia Bool.
From Verif Require Import Word WordFacts Spec_Sha1.
Import ListNotations.
Local Open Scope N_scope.

(** ** Round functions *)

Lemma wf_Ch x y z : wf x -> wf y -> wf z -> wf (Ch x y z).
Proof. unfold Ch. auto with wf. Qed.
Lemma wf_Parity x y z : wf x -> wf y -> wf z -> wf (Parity x y z).
Proof. unfold Parity. auto with wf. Qed.
Lemma wf_Maj x y z : wf x -> wf y -> wf z -> wf (Maj x y z).
Proof. unfold Maj. auto with wf. Qed.
Lemma wf_ft t x y z : wf x -> wf y -> wf z -> wf (ft t x y z).
Proof.
  unfold ft. intros. destruct (_ <? _)%nat; [apply wf_Ch; auto|].
  destruct (_ <? _)%nat; [apply wf_Parity; auto|].
  destruct (_ <? _)%nat; [apply wf_Maj; auto|apply wf_Parity; auto].
Qed.

Lemma wfst_step t w s : wfst s -> wfst (step t w s).
Proof. unfold wfst, step; simpl. intuition auto with wf. Qed.

Lemma wfst_steps ws : forall t s, wfst s -> wfst (steps t ws s).
Proof. induction ws as [|w r IH]; simpl; intros; auto. apply IH, wfst_step; assumption. Qed.

Lemma wfst_IV : wfst IV. Proof. repeat split. Qed.
Lemma wfst_compress h M : wfst (compress h M).
Proof. apply wfst_addst. Qed.
Lemma wfst_state_at t h M : wfst h -> wfst (state_at t h M).
Proof. intros. apply wfst_steps. assumption. Qed.
#[export] Hint Resolve wfst_step wfst_steps wfst_IV wfst_compress wfst_state_at : wf.

(** ** Steps *)

Lemma steps_app u : forall t v s, steps t (u ++ v) s = steps (t + length u) v (steps t u s).
Proof.
  induction u as [|w u IH]; simpl; intros t v s.
  - rewrite Nat.add_0_r. reflexivity.
  - rewrite IH. f_equal. lia.
Qed.

Lemma steps_snoc t u w s : steps t (u ++ [w]) s = step (t + length u) w (steps t u s).
Proof. rewrite steps_app. reflexivity. Qed.

(** The step function is a bijection on states. *)
Definition unstep (t : nat) (w : word) (s : st) : st :=
  let b := rotl32 (sc s) 2 in
  mkst (sb s) b (sd s) (se s)
    (sub32 (sa s) (add32 (add32 (add32 (rotl32 (sb s) 5) (ft t b (sd s) (se s))) (Kt t)) w)).

Lemma unstep_step t w s : wfst s -> unstep t w (step t w s) = s.
Proof.
  destruct s as [a b c d e]. unfold wfst; simpl. intros (Ha & Hb & Hc & Hd & He).
  unfold unstep, step; simpl. rewrite (rotl32_inv b 30 2) by (auto; reflexivity).
  f_equal.
  replace (add32 (add32 (add32 (add32 (rotl32 a 5) (ft t b c d)) e) (Kt t)) w)
    with (add32 e (add32 (add32 (add32 (rotl32 a 5) (ft t b c d)) (Kt t)) w)) by add32_eq.
  apply sub32_add32, He.
Qed.

Lemma step_unstep t w s : wfst s -> step t w (unstep t w s) = s.
Proof.
  destruct s as [a b c d e]. unfold wfst; simpl. intros (Ha & Hb & Hc & Hd & He).
  unfold unstep, step; simpl. rewrite (rotl32_inv c 2 30) by (auto; reflexivity).
  f_equal.
  match goal with |- add32 (add32 (add32 (add32 ?A ?F) (sub32 a ?Z)) ?K) w = a =>
    replace (add32 (add32 (add32 (add32 A F) (sub32 a Z)) K) w) with (add32 (sub32 a Z) Z) by add32_eq end.
  apply add32_sub32, Ha.
Qed.

Lemma wfst_unstep t w s : wfst s -> wfst (unstep t w s).
Proof. destruct s. unfold wfst, unstep; simpl. intuition auto with wf. Qed.
#[export] Hint Resolve wfst_unstep : wf.

Lemma step_inj t w x y : wfst x -> wfst y -> step t w x = step t w y -> x = y.
Proof. intros Hx Hy H. rewrite <- (unstep_step t w x Hx), H. apply unstep_step, Hy. Qed.

(** Undo steps t, t+1, ... in reverse. *)
Fixpoint unsteps (t : nat) (ws : list word) (s : st) : st :=
  match ws with
  | [] => s
  | w :: r => unstep t w (unsteps (S t) r s)
  end.

Lemma wfst_unsteps ws : forall t s, wfst s -> wfst (unsteps t ws s).
Proof. induction ws as [|w r IH]; simpl; intros; auto with wf. Qed.
#[export] Hint Resolve wfst_unsteps : wf.

Lemma unsteps_steps ws : forall t s, wfst s -> unsteps t ws (steps t ws s) = s.
Proof.
  induction ws as [|w r IH]; simpl; intros t s Hs; [reflexivity|].
  rewrite IH by auto with wf. apply unstep_step, Hs.
Qed.

Lemma steps_unsteps ws : forall t s, wfst s -> steps t ws (unsteps t ws s) = s.
Proof.
  induction ws as [|w r IH]; simpl; intros t s Hs; [reflexivity|].
  rewrite step_unstep by auto with wf. apply IH, Hs.
Qed.

Lemma steps_inj t ws x y : wfst x -> wfst y -> steps t ws x = steps t ws y -> x = y.
Proof. intros Hx Hy H. rewrite <- (unsteps_steps ws t x Hx), H. apply unsteps_steps, Hy. Qed.

Lemma unsteps_snoc u : forall t w s, unsteps t (u ++ [w]) s = unsteps t u (unstep (t + length u) w s).
Proof.
  induction u as [|x u IH]; simpl; intros t w s.
  - rewrite Nat.add_0_r. reflexivity.
  - rewrite IH. do 3 f_equal. lia.
Qed.

(** ** Schedule *)

Lemma expand_length n : forall l, length (expand n l) = (n + length l)%nat.
Proof. induction n as [|n IH]; intros l; simpl; [reflexivity|]. rewrite IH, app_length. simpl. lia. Qed.

Lemma schedule_length M : length M = 16%nat -> length (schedule M) = 80%nat.
Proof. intros H. unfold schedule. rewrite expand_length, H. reflexivity. Qed.

Lemma expand_prefix n : forall l i, (i < length l)%nat -> nth i (expand n l) 0 = nth i l 0.
Proof.
  induction n as [|n IH]; intros l i Hi; simpl; [reflexivity|].
  rewrite IH by (rewrite app_length; simpl; lia). apply app_nth1, Hi.
Qed.

Lemma expand_S n : forall l, expand (S n) l = expand n l ++ [next_w (expand n l)].
Proof.
  induction n as [|n IH]; intros l; [reflexivity|].
  change (expand (S (S n)) l) with (expand (S n) (l ++ [next_w l])). rewrite IH. reflexivity.
Qed.

Definition mix (w3 w8 w14 w16 : word) : word := rotl32 (N.lxor (N.lxor (N.lxor w3 w8) w14) w16) 1.

Lemma expand_rec n : forall l i, (length l <= i < n + length l)%nat -> (16 <= length l)%nat ->
  nth i (expand n l) 0 =
  mix (nth (i - 3) (expand n l) 0) (nth (i - 8) (expand n l) 0) (nth (i - 14) (expand n l) 0) (nth (i - 16) (expand n l) 0).
Proof.
  induction n as [|n IH]; intros l i Hi Hl; [lia|].
  rewrite expand_S.
  destruct (Nat.eq_dec i (n + length l)) as [->|Hne].
  - rewrite !app_nth2 with (n := (n + length l)%nat) by (rewrite expand_length; lia).
    rewrite expand_length, Nat.sub_diag. simpl nth at 1.
    rewrite !app_nth1 by (rewrite expand_length; lia).
    unfold next_w. rewrite expand_length. reflexivity.
  - rewrite !app_nth1 by (rewrite expand_length; lia). apply IH; lia.
Qed.

Lemma schedule_low M i : length M = 16%nat -> (i < 16)%nat -> nth i (schedule M) 0 = nth i M 0.
Proof. intros H Hi. apply expand_prefix. lia. Qed.

Lemma schedule_rec M i : length M = 16%nat -> (16 <= i < 80)%nat ->
  nth i (schedule M) 0 =
  mix (nth (i - 3) (schedule M) 0) (nth (i - 8) (schedule M) 0)
      (nth (i - 14) (schedule M) 0) (nth (i - 16) (schedule M) 0).
Proof. intros H Hi. apply expand_rec; lia. Qed.

Lemma nth_wf l i : Forall wf l -> wf (nth i l 0).
Proof.
  intros H. destruct (Nat.lt_ge_cases i (length l)) as [Hi|Hi].
  - rewrite Forall_forall in H. apply H, nth_In, Hi.
  - rewrite nth_overflow by assumption. reflexivity.
Qed.
#[export] Hint Resolve nth_wf : wf.

Lemma wf_mix a b c d : wf a -> wf b -> wf c -> wf d -> wf (mix a b c d).
Proof. unfold mix. auto with wf. Qed.

Lemma expand_wf n : forall l, Forall wf l -> Forall wf (expand n l).
Proof.
  induction n as [|n IH]; intros l H; simpl; [assumption|].
  apply IH. apply Forall_app. split; [assumption|]. constructor; [|constructor].
  apply wf_mix; auto with wf.
Qed.
Lemma schedule_wf M : Forall wf M -> Forall wf (schedule M).
Proof. apply expand_wf. Qed.
#[export] Hint Resolve schedule_wf : wf.

(** A list of 80 words that starts with M and satisfies the recurrence is the schedule. *)
Lemma schedule_unique M l : length M = 16%nat -> length l = 80%nat ->
  (forall i, (i < 16)%nat -> nth i l 0 = nth i M 0) ->
  (forall i, (16 <= i < 80)%nat ->
     nth i l 0 = mix (nth (i - 3) l 0) (nth (i - 8) l 0) (nth (i - 14) l 0) (nth (i - 16) l 0)) ->
  l = schedule M.
Proof.
  intros HM Hl Hlow Hrec. apply (nth_ext _ _ 0 0).
  - rewrite schedule_length; assumption.
  - rewrite Hl. induction n as [n IH] using lt_wf_ind. intros Hn.
    destruct (Nat.lt_ge_cases n 16).
    + rewrite schedule_low by assumption. apply Hlow; assumption.
    + rewrite (schedule_rec M n HM), (Hrec n) by lia. rewrite !IH by lia. reflexivity.
Qed.

Lemma mix_xor a b c d a' b' c' d' : wf a -> wf b -> wf c -> wf d -> wf a' -> wf b' -> wf c' -> wf d' ->
  mix (N.lxor a a') (N.lxor b b') (N.lxor c c') (N.lxor d d') = N.lxor (mix a b c d) (mix a' b' c' d').
Proof.
  intros. unfold mix. rewrite <- rotl32_xor by (auto with wf; reflexivity). f_equal.
  apply N.bits_inj. intros i. rewrite !N.lxor_spec.
  repeat match goal with |- context [N.testbit ?x i] => destruct (N.testbit x i) end; reflexivity.
Qed.

(** The message expansion is linear. *)
Lemma schedule_xor M D : length M = 16%nat -> length D = 16%nat -> Forall wf M -> Forall wf D ->
  schedule (xorl M D) = xorl (schedule M) (schedule D).
Proof.
  intros HM HD WM WD. symmetry.
  assert (LM := schedule_length M HM). assert (LD := schedule_length D HD).
  apply schedule_unique.
  - rewrite xorl_length, HM, HD. reflexivity.
  - rewrite xorl_length, LM, LD. reflexivity.
  - intros i Hi. rewrite !nth_xorl by congruence. rewrite !schedule_low by assumption. reflexivity.
  - intros i Hi. rewrite !nth_xorl by congruence.
    rewrite (schedule_rec M), (schedule_rec D) by assumption.
    symmetry. apply mix_xor; auto with wf.
Qed.

(** ** Working states *)

Lemma firstn_S_nth {A} (l : list A) : forall n d, (n < length l)%nat -> firstn (S n) l = firstn n l ++ [nth n l d].
Proof.
  induction l as [|x l IH]; intros n d H; simpl in H; [lia|].
  destruct n; simpl; [reflexivity|]. f_equal. apply IH. lia.
Qed.

Lemma state_at_0 h M : state_at 0 h M = h.
Proof. reflexivity. Qed.

Lemma state_at_S t h M : length M = 16%nat -> (t < 80)%nat ->
  state_at (S t) h M = step t (nth t (schedule M) 0) (state_at t h M).
Proof.
  intros HM Ht. unfold state_at.
  assert (L := schedule_length M HM).
  rewrite (firstn_S_nth _ t 0) by lia. rewrite steps_snoc, firstn_length. f_equal. lia.
Qed.

Lemma firstn_split_at {A} (l : list A) a b : (a <= b)%nat -> firstn b l = firstn a l ++ firstn (b - a) (skipn a l).
Proof.
  intros H. rewrite <- (firstn_skipn a l) at 1. rewrite firstn_app, firstn_firstn.
  destruct (Nat.le_gt_cases a (length l)).
  - rewrite firstn_length. f_equal; [f_equal; lia|f_equal; lia].
  - rewrite skipn_all2 by lia. rewrite !firstn_nil. f_equal. f_equal. lia.
Qed.

Lemma state_at_split t u h M : length M = 16%nat -> (t <= u <= 80)%nat ->
  state_at u h M = steps t (firstn (u - t) (skipn t (schedule M))) (state_at t h M).
Proof.
  intros HM Ht. unfold state_at.
  assert (L := schedule_length M HM).
  rewrite (firstn_split_at _ t u) by lia. rewrite steps_app, firstn_length. f_equal. lia.
Qed.

Lemma state_at_inj t h h' M : wfst h -> wfst h' -> state_at t h M = state_at t h' M -> h = h'.
Proof. intros Hh Hh'. apply steps_inj; assumption. Qed.

(** Any state is reached by exactly one chaining value. *)
Definition back_to (t : nat) (s : st) (M : list word) : st := unsteps 0 (firstn t (schedule M)) s.
Lemma state_at_back t s M : wfst s -> state_at t (back_to t s M) M = s.
Proof. apply steps_unsteps. Qed.
Lemma back_state_at t h M : wfst h -> back_to t (state_at t h M) M = h.
Proof. apply unsteps_steps. Qed.

(** ** Blocks *)

Lemma words_of_length l : forall n, length l = (4 * n)%nat -> length (words_of l) = n.
Proof.
  intros n. revert l. induction n as [|n IH]; intros l H.
  - destruct l; [reflexivity|simpl in H; lia].
  - destruct l as [|a [|b [|c [|d l]]]]; simpl in H; try lia.
    simpl. f_equal. apply IH. lia.
Qed.

Lemma words_of_wf : forall n l, (length l <= n)%nat -> Forall wf (words_of l).
Proof.
  induction n as [|n IH]; intros l H.
  - destruct l; [constructor|simpl in H; lia].
  - destruct l as [|a [|b [|c [|d l]]]]; try constructor.
    + apply be_val_4_wf.
    + apply IH. simpl in H. lia.
Qed.
Lemma wf_words_of l : Forall wf (words_of l).
Proof. apply (words_of_wf (length l)). lia. Qed.
#[export] Hint Resolve wf_words_of : wf.

Lemma nth_words_of : forall i l, (4 * i + 3 < length l)%nat ->
  nth i (words_of l) 0 = be_val [nth (4*i) l x00; nth (4*i+1) l x00; nth (4*i+2) l x00; nth (4*i+3) l x00].
Proof.
  induction i as [|i IH]; intros l H.
  - destruct l as [|a [|b [|c [|d l]]]]; simpl in H; try lia. reflexivity.
  - destruct l as [|a [|b [|c [|d l]]]]; simpl length in H; try lia.
    change (words_of (a :: b :: c :: d :: l)) with (be_val [a; b; c; d] :: words_of l).
    change (nth (S i) (be_val [a; b; c; d] :: words_of l) 0) with (nth i (words_of l) 0).
    rewrite IH by lia.
    replace (4 * S i)%nat with (S (S (S (S (4 * i))))) by lia. reflexivity.
Qed.

Lemma blocks_nil : blocks [] = []. Proof. reflexivity. Qed.

Lemma blocks_short l : (length l < 64)%nat -> blocks l = [].
Proof. intros H. unfold blocks. rewrite Nat.div_small by assumption. reflexivity. Qed.

Lemma blocks_cons l : (64 <= length l)%nat -> blocks l = firstn 64 l :: blocks (skipn 64 l).
Proof.
  intros H. unfold blocks. rewrite skipn_length.
  replace (length l / 64)%nat with (S ((length l - 64) / 64)); [reflexivity|].
  replace (length l) with ((length l - 64) + 1 * 64)%nat at 2 by lia.
  rewrite Nat.div_add by lia. lia.
Qed.

Lemma blocks_app : forall n a b, length a = (64 * n)%nat -> blocks (a ++ b) = blocks a ++ blocks b.
Proof.
  induction n as [|n IH]; intros a b H.
  - destruct a; [reflexivity|simpl in H; lia].
  - rewrite (blocks_cons (a ++ b)) by (rewrite app_length; lia).
    rewrite (blocks_cons a) by lia.
    rewrite firstn_app, skipn_app.
    replace (64 - length a)%nat with 0%nat by lia. rewrite firstn_O, app_nil_r, skipn_O, <- app_comm_cons. f_equal.
    apply IH. rewrite skipn_length. lia.
Qed.

Lemma blocks_one b : length b = 64%nat -> blocks b = [b].
Proof.
  intros H. rewrite blocks_cons by lia. rewrite firstn_all2 by lia.
  rewrite skipn_all2 by lia. reflexivity.
Qed.

Lemma blocks_len l : Forall (fun b => length b = 64%nat) (blocks l).
Proof.
  remember (length l) as n. revert l Heqn. induction n as [n IH] using lt_wf_ind. intros l ->.
  destruct (Nat.lt_ge_cases (length l) 64).
  - rewrite blocks_short by assumption. constructor.
  - rewrite blocks_cons by assumption. constructor.
    + rewrite firstn_length. lia.
    + eapply IH; [|reflexivity]. rewrite skipn_length. lia.
Qed.
