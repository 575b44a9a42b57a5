(** The step lists of the C library are the SHA-1 steps: facts about Model_CSteps, Gen_CSteps and the
    compression functions of Model_C. *)

From Coq Require Import Arith NArith ZArith String List Strings.Byte Lia Bool ZifyNat.
From Verif Require Import Word WordFacts Spec_Sha1 Sha1Facts Spec_DV DvFacts GoCheck GoBlock Model_Ubc Model_Go
  Model_CSteps Gen_CSteps Model_C.
Import ListNotations.
Local Open Scope N_scope.
Ltac Zify.zify_post_hook ::= idtac.

(** ** Words *)

Lemma rotate_left_eq x n : rotate_left x n = rotl32 x n.
Proof. reflexivity. Qed.

Lemma rotate_right_30 x : wf x -> rotate_right x 30 = rotl32 x 2.
Proof. intros H. unfold rotate_right, rotl32. rewrite N.lor_comm. reflexivity. Qed.

Lemma f1_eq b c d : wf b -> wf c -> wf d -> sha1_f1 b c d = Ch b c d.
Proof.
  intros Hb Hc Hd. unfold sha1_f1, Ch. apply N.bits_inj. intros i.
  rewrite !N.lxor_spec, !N.land_spec, testbit_not32, N.lxor_spec.
  rewrite wf_bits in Hb, Hc, Hd.
  destruct (N.ltb_spec i 32).
  - destruct (N.testbit b i), (N.testbit c i), (N.testbit d i); reflexivity.
  - rewrite Hb, Hc, Hd by assumption. reflexivity.
Qed.

Lemma f3_eq b c d : wf b -> wf c -> wf d -> sha1_f3 b c d = Maj b c d.
Proof.
  intros Hb Hc Hd. unfold sha1_f3, add32. rewrite N.add_nocarry_lxor.
  - rewrite wf_mod_id by auto with wf. unfold Maj. apply N.bits_inj. intros i.
    rewrite !N.lxor_spec, !N.land_spec, !N.lxor_spec.
    destruct (N.testbit b i), (N.testbit c i), (N.testbit d i); reflexivity.
  - apply N.bits_inj. intros i. rewrite N.bits_0, !N.land_spec, N.lxor_spec.
    destruct (N.testbit b i), (N.testbit c i), (N.testbit d i); reflexivity.
Qed.

(** Round of step t. *)
Definition round_of (t : nat) : nat := S (t / 20).

Lemma c_ft t : (t < 80)%nat -> is_ft (c_f (round_of t)) (c_K (round_of t)) t.
Proof.
  intros H. unfold is_ft, round_of, ft, Kt.
  destruct (Nat.ltb_spec t 20); [|destruct (Nat.ltb_spec t 40); [|destruct (Nat.ltb_spec t 60)]].
  - replace (t / 20)%nat with 0%nat by (symmetry; apply Nat.div_small; assumption).
    split; [intros; apply f1_eq; assumption|reflexivity].
  - replace (t / 20)%nat with 1%nat by (apply (Nat.div_unique t 20 1 (t - 20)); lia).
    split; [intros; reflexivity|reflexivity].
  - replace (t / 20)%nat with 2%nat by (apply (Nat.div_unique t 20 2 (t - 40)); lia).
    split; [intros; apply f3_eq; assumption|reflexivity].
  - replace (t / 20)%nat with 3%nat by (apply (Nat.div_unique t 20 3 (t - 60)); lia).
    split; [intros; reflexivity|reflexivity].
Qed.

(** ** The hand-rotated variable names *)

(** The values in the roles a, ..., e at a step whose number is n modulo 5. *)
Definition vw (n : nat) (s : st) : st :=
  match n with
  | 0%nat => s
  | 1%nat => mkst (se s) (sa s) (sb s) (sc s) (sd s)
  | 2%nat => mkst (sd s) (se s) (sa s) (sb s) (sc s)
  | 3%nat => mkst (sc s) (sd s) (se s) (sa s) (sb s)
  | _ => mkst (sb s) (sc s) (sd s) (se s) (sa s)
  end.
Definition view (t : nat) (s : st) : st := vw (t mod 5) s.

Definition canon (t : nat) : cstep :=
  let r := round_of t in
  match (t mod 5)%nat with
  | 0%nat => mkcstep r Va Vb Vc Vd Ve t
  | 1%nat => mkcstep r Ve Va Vb Vc Vd t
  | 2%nat => mkcstep r Vd Ve Va Vb Vc t
  | 3%nat => mkcstep r Vc Vd Ve Va Vb t
  | _ => mkcstep r Vb Vc Vd Ve Va t
  end.

Lemma mod5_cases t : exists n, (t mod 5 = n /\ n < 5 /\ S t mod 5 = if n =? 4 then 0 else S n)%nat.
Proof.
  exists (t mod 5)%nat. split; [reflexivity|].
  pose proof (Nat.mod_upper_bound t 5 ltac:(lia)). split; [assumption|].
  pose proof (Nat.div_mod t 5 ltac:(lia)).
  destruct (Nat.eqb_spec (t mod 5) 4).
  - symmetry. apply (Nat.mod_unique (S t) 5 (S (t / 5))); lia.
  - symmetry. apply (Nat.mod_unique (S t) 5 (t / 5)); lia.
Qed.

Ltac crunch := cbn [vw Nat.eqb cs_r cs_a cs_b cs_c cs_d cs_e cs_t getv setv sa sb sc sd se].
Ltac five n := destruct n as [|[|[|[|[|n]]]]]; [..|exfalso; lia].

Lemma vw_wf n s : wfst (vw n s) <-> wfst s.
Proof. unfold wfst. destruct n as [|[|[|[|n]]]]; simpl; tauto. Qed.
Lemma view_wf t s : wfst (view t s) <-> wfst s.
Proof. apply vw_wf. Qed.
Lemma view_0 s : view 0 s = s. Proof. reflexivity. Qed.
Lemma view_80 s : view 80 s = s. Proof. reflexivity. Qed.
Lemma view_inj t x y : view t x = view t y -> x = y.
Proof.
  unfold view. destruct (mod5_cases t) as (n & -> & Hn & _). destruct x, y. five n; simpl; intros E;
    injection E; intros; subst; reflexivity.
Qed.

Lemma wfst_setv v x s : wf x -> wfst s -> wfst (setv v x s).
Proof. unfold wfst. destruct v; simpl; tauto. Qed.
Lemma wf_getv v s : wfst s -> wf (getv v s).
Proof. unfold wfst. destruct v; simpl; tauto. Qed.
#[export] Hint Resolve wfst_setv wf_getv : wf.

Lemma hc_step_wf W k s : wfst s -> wfst (hc_step W k s).
Proof. intros H. unfold hc_step, rotate_left. auto 8 with wf. Qed.

Lemma hc_step_view t W s : (t < 80)%nat -> wfst s ->
  view (S t) (hc_step W (canon t) s) = step t (nth t W 0) (view t s).
Proof.
  intros Ht Hs. destruct (c_ft t Ht) as [Hf HK]. unfold view, canon, step, hc_step.
  destruct (mod5_cases t) as (n & -> & Hn & ->).
  destruct Hs as (Ha & Hb & Hc & Hd & He). destruct s as [a b c d e]. simpl in Ha, Hb, Hc, Hd, He.
  five n; crunch; rewrite Hf, HK by assumption; rewrite !rotate_left_eq; f_equal;
    add32_eq.
Qed.

Lemma hc_bw_view t W s : (t < 80)%nat -> wfst s ->
  view t (hc_step_bw W (canon t) s) = unstep t (nth t W 0) (view (S t) s).
Proof.
  intros Ht Hs. destruct (c_ft t Ht) as [Hf HK]. unfold view, canon, unstep, hc_step_bw.
  destruct (mod5_cases t) as (n & -> & Hn & ->).
  destruct Hs as (Ha & Hb & Hc & Hd & He). destruct s as [a b c d e]. simpl in Ha, Hb, Hc, Hd, He.
  five n; crunch; rewrite !rotate_right_30 by assumption; rewrite Hf, HK by auto with wf; reflexivity.
Qed.

(** ** The generated lists *)

Lemma comp_W_steps_eq : comp_W_steps = map canon (seq 0 80).
Proof. vm_compute. reflexivity. Qed.
Lemma recomp_fwd_eq : recomp_fwd = map (fun k => (k, canon k)) (seq 0 80).
Proof. vm_compute. reflexivity. Qed.
Lemma recomp_back_eq : recomp_back = map (fun k => (k, canon k)) (rev (seq 0 80)).
Proof. vm_compute. reflexivity. Qed.

Lemma fold_fwd W : length W = 80%nat -> forall n t s, (t + n <= 80)%nat -> wfst s ->
  view (t + n) (fold_left (fun s k => hc_step W k s) (map canon (seq t n)) s)
  = fold_left (fun s i => step i (nth i W 0) s) (seq t n) (view t s).
Proof.
  intros HW. induction n as [|n IH]; intros t s Ht Hs; simpl.
  - rewrite Nat.add_0_r. reflexivity.
  - rewrite <- hc_step_view by (assumption || lia). rewrite <- IH by (auto using hc_step_wf; lia).
    f_equal. lia.
Qed.

Lemma hc_bw_wf W k s : wfst s -> wfst (hc_step_bw W k s).
Proof. intros H. unfold hc_step_bw, rotate_right, rotate_left. auto 8 with wf. Qed.

Lemma fold_bwd W : length W = 80%nat -> forall n s, (n <= 80)%nat -> wfst s ->
  fold_left (fun s k => hc_step_bw W k s) (map canon (rev (seq 0 n))) s
  = fold_left (fun s i => unstep i (nth i W 0) s) (rev (seq 0 n)) (view n s).
Proof.
  intros HW. induction n as [|n IH]; intros s Hn Hs; [reflexivity|].
  rewrite seq_S, rev_app_distr. cbn [rev app map fold_left plus].
  rewrite IH by (auto using hc_bw_wf; lia). rewrite hc_bw_view by (assumption || lia). reflexivity.
Qed.

(** sha1_compression_W compresses, given the schedule. *)
Lemma compression_W_eq h M : wfst h -> length M = 16%nat -> sha1_compression_W h (schedule M) = compress h M.
Proof.
  intros Hh HM. unfold sha1_compression_W, compress. f_equal.
  pose proof (schedule_length M HM) as L.
  rewrite comp_W_steps_eq. pose proof (fold_fwd (schedule M) L 80 0 h ltac:(lia) Hh) as E.
  rewrite view_0 in E. change (0 + 80)%nat with 80%nat in E. rewrite view_80 in E. rewrite E.
  rewrite fold_steps by lia. unfold state_at. rewrite skipn_O. reflexivity.
Qed.

Lemma fold_guard {A B} (g : A -> bool) (f : B -> A -> B) l : forall s,
  fold_left (fun s p => if g p then f s p else s) l s = fold_left f (filter g l) s.
Proof. induction l as [|x l IH]; intros s; simpl; [reflexivity|]. rewrite IH. destruct (g x); reflexivity. Qed.

Lemma filter_map {A B} (f : A -> B) g l : filter g (map f l) = map f (filter (fun x => g (f x)) l).
Proof. induction l as [|x l IH]; [reflexivity|]. simpl. destruct (g (f x)); simpl; rewrite IH; reflexivity. Qed.

Lemma filter_all {A} (g : A -> bool) l : (forall x, In x l -> g x = true) -> filter g l = l.
Proof. induction l as [|x l IH]; intros H; [reflexivity|]. simpl. rewrite H by (simpl; auto). f_equal. apply IH. intros; apply H; simpl; auto. Qed.
Lemma filter_none {A} (g : A -> bool) l : (forall x, In x l -> g x = false) -> filter g l = [].
Proof. induction l as [|x l IH]; intros H; [reflexivity|]. simpl. rewrite H by (simpl; auto). apply IH. intros; apply H; simpl; auto. Qed.

Lemma fold_left_map {A B C} (f : C -> B -> C) (g : A -> B) l : forall s,
  fold_left f (map g l) s = fold_left (fun s x => f s (g x)) l s.
Proof. induction l as [|x l IH]; intros s; simpl; [reflexivity|]. apply IH. Qed.

(** sha1recompress_fast_t: back to the start with the given schedule, and forward to the end. *)
Lemma recompress_fast_eq t W s : (t <= 80)%nat -> length W = 80%nat -> wfst s ->
  sha1recompress_fast t W s =
  (unsteps 0 (firstn t W) (view t s),
   addst (unsteps 0 (firstn t W) (view t s)) (steps t (skipn t W) (view t s))).
Proof.
  intros Ht HW Hs. unfold sha1recompress_fast. cbv zeta.
  assert (B : fold_left (fun s p => if (fst p <? t)%nat then hc_step_bw W (snd p) s else s) recomp_back s
              = unsteps 0 (firstn t W) (view t s)).
  { rewrite recomp_back_eq. rewrite (fold_guard (fun p : nat * cstep => fst p <? t)%nat (fun s p => hc_step_bw W (snd p) s)), filter_map. cbn [fst].
    rewrite fold_left_map. cbn [snd].
    replace (filter (fun x => x <? t)%nat (rev (seq 0 80))) with (rev (seq 0 t)).
    - rewrite <- (fold_left_map (fun s k => hc_step_bw W k s) canon), fold_bwd by assumption.
      rewrite fold_unsteps by lia. rewrite skipn_O. reflexivity.
    - replace 80%nat with (t + (80 - t))%nat by lia. rewrite seq_app, rev_app_distr, filter_app.
      rewrite filter_none, filter_all; [reflexivity| |].
      + intros x Hx. apply in_rev, in_seq in Hx. apply Nat.ltb_lt. lia.
      + intros x Hx. apply in_rev, in_seq in Hx. apply Nat.ltb_ge. lia. }
  rewrite B. f_equal. f_equal.
  rewrite recomp_fwd_eq. rewrite (fold_guard (fun p : nat * cstep => t <=? fst p)%nat (fun s p => hc_step W (snd p) s)), filter_map. cbn [fst].
  rewrite fold_left_map. cbn [snd].
  replace (filter (fun x => t <=? x)%nat (seq 0 80)) with (seq t (80 - t)).
  - rewrite <- (fold_left_map (fun s k => hc_step W k s) canon).
    pose proof (fold_fwd W HW (80 - t) t s ltac:(lia) Hs) as E.
    replace (t + (80 - t))%nat with 80%nat in E by lia. rewrite view_80 in E. rewrite E.
    rewrite fold_steps by lia. f_equal. rewrite firstn_all2; [reflexivity|]. rewrite skipn_length. lia.
  - replace 80%nat with (t + (80 - t))%nat at 2 by lia. rewrite seq_app, filter_app.
    rewrite filter_none, filter_all; [reflexivity| |].
    + intros x Hx. apply in_seq in Hx. apply Nat.leb_le. lia.
    + intros x Hx. apply in_seq in Hx. apply Nat.leb_gt. lia.
Qed.

(** Which test steps are compiled in. *)
Lemma recompression_step_eq T W s : sha1_recompression_step T W s =
  if (T =? 58)%nat || (T =? 65)%nat then Some (sha1recompress_fast T W s) else None.
Proof.
  unfold sha1_recompression_step.
  assert (E : filter (fun c => match c with (g, _, _) => defined g end) recomp_cases
              = [("DOSTORESTATE65"%string, 65%nat, 65%nat); ("DOSTORESTATE58"%string, 58%nat, 58%nat)]
           \/ filter (fun c => match c with (g, _, _) => defined g end) recomp_cases
              = [("DOSTORESTATE58"%string, 58%nat, 58%nat); ("DOSTORESTATE65"%string, 65%nat, 65%nat)])
    by (vm_compute; auto).
  assert (F : forall l, find (fun c : string * nat * nat => match c with (g, l, _) => defined g && (l =? T)%nat end) l
     = find (fun c => match c with (_, l, _) => (l =? T)%nat end) (filter (fun c => match c with (g, _, _) => defined g end) l)).
  { induction l as [|[[g x] y] l IH]; [reflexivity|]. simpl. destruct (defined g); simpl; [|assumption].
    destruct (x =? T)%nat; [reflexivity|assumption]. }
  rewrite F. clear F.
  assert (D58 : existsb (fun d => defined (fst d) && (snd d =? 58)%nat) recomp_defs = true) by (vm_compute; reflexivity).
  assert (D65 : existsb (fun d => defined (fst d) && (snd d =? 65)%nat) recomp_defs = true) by (vm_compute; reflexivity).
  rewrite (Nat.eqb_sym T 58), (Nat.eqb_sym T 65).
  destruct E as [-> | ->]; cbn [find];
  destruct (Nat.eqb_spec 58 T), (Nat.eqb_spec 65 T); subst; try discriminate; rewrite ?D58, ?D65; reflexivity.
Qed.
