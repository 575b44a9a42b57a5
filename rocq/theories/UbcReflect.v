(** Reflection for the bit-condition programs: a symbolic evaluator computes, for each
    bit of the mask, the list of linear conditions on the bits of W, and is proved sound. *)

From Coq Require Import Arith ZArith NArith List Lia Bool.
From Verif Require Import Word WordFacts Sha1Facts Model_Ubc Spec_UbcTable Spec_DV.
Import ListNotations.
Local Open Scope N_scope.

(** An xor of bits W[t].b and a constant. *)
Definition sbit := (list (nat * N) * bool)%type.
Definition wbit (W : list N) (p : nat * N) : bool := N.testbit (nth (fst p) W 0) (snd p).
Definition den (W : list N) (s : sbit) : bool :=
  fold_right (fun p acc => xorb (wbit W p) acc) (snd s) (fst s).

Definition sflip (s : sbit) : sbit := (fst s, negb (snd s)).
Definition sxor (x y : sbit) : sbit := (fst x ++ fst y, xorb (snd x) (snd y)).

Lemma den_flip W s : den W (sflip s) = negb (den W s).
Proof.
  destruct s as [l c]. unfold den, sflip; simpl. induction l as [|p l IH]; simpl; [reflexivity|].
  rewrite IH. destruct (wbit W p), (fold_right _ c l); reflexivity.
Qed.
Lemma den_xor W x y : den W (sxor x y) = xorb (den W x) (den W y).
Proof.
  destruct x as [l c], y as [m d]. unfold den, sxor; simpl.
  induction l as [|p l IH]; simpl.
  - induction m as [|p m IH]; simpl; [reflexivity|]. rewrite IH.
    destruct (wbit W p), c, (fold_right _ d m); reflexivity.
  - rewrite IH. destruct (wbit W p), (fold_right _ c l), (fold_right _ d m); reflexivity.
Qed.

(** Constant expressions. *)
Fixpoint cval (e : uexp) : option N :=
  match e with
  | UC n => Some n
  | UNot e => match cval e with Some n => Some (not32 n) | None => None end
  | UOr x y => match cval x, cval y with Some a, Some b => Some (N.lor a b) | _, _ => None end
  | UShl x y => match cval x, cval y with Some a, Some b => Some (shl32 a b) | _, _ => None end
  | _ => None
  end.
Lemma cval_sound W mask e n : cval e = Some n -> ueval W mask e = n.
Proof.
  revert n; induction e; simpl; intros v H; try discriminate.
  - congruence.
  - destruct (cval e); [|discriminate]. injection H; intros; subst. rewrite (IHe n); reflexivity.
  - destruct (cval e1), (cval e2); try discriminate. injection H; intros; subst.
    rewrite (IHe1 n), (IHe2 n0); reflexivity.
  - destruct (cval e1), (cval e2); try discriminate. injection H; intros; subst.
    rewrite (IHe1 n), (IHe2 n0); reflexivity.
Qed.

(** Single-bit constants. *)
Definition pow2 (n : N) : option N := if n =? 2 ^ N.log2 n then Some (N.log2 n) else None.
Lemma pow2_sound n k : pow2 n = Some k -> n = 2 ^ k.
Proof. unfold pow2. destruct (N.eqb_spec n (2 ^ N.log2 n)); [|discriminate]. congruence. Qed.

Definition zero_bit : sbit := ([], false).
Definition one_bit : sbit := ([], true).

(** Bit k of an expression. *)
Fixpoint symbit (e : uexp) (k : N) : option sbit :=
  if 32 <=? k then None else
  match e with
  | UW i => Some ([(i, k)], false)
  | UC n => Some ([], N.testbit n k)
  | UNot e => match symbit e k with Some s => Some (sflip s) | None => None end
  | UXor x y => match symbit x k, symbit y k with Some a, Some b => Some (sxor a b) | _, _ => None end
  | UAnd x c => match cval c with
                | Some n => if N.testbit n k then symbit x k else Some zero_bit
                | None => None end
  | UOr x c => match cval c with
               | Some n => if N.testbit n k then Some one_bit else symbit x k
               | None => None end
  | UShr x c => match cval c with
                | Some n => if k + n <? 32 then symbit x (k + n) else None
                | None => None end
  | UShl x c => match cval c with
                | Some n => if k <? n then Some zero_bit else symbit x (k - n)
                | None => None end
  | USub (UAnd x c) c' =>      (* (x & 2^j) - 2^j at bit k >= j *)
      match cval c, cval c' with
      | Some n, Some n' =>
        match pow2 n with
        | Some j => if (n =? n') && (j <=? k) then
                      match symbit x j with Some s => Some (sflip s) | None => None end
                    else None
        | None => None end
      | _, _ => None end
  | USub z (UAnd x c) =>       (* 0 - (x & 2^j) at bit k >= j *)
      match cval z, cval c with
      | Some 0, Some n =>
        match pow2 n with
        | Some j => if j <=? k then symbit x j else None
        | None => None end
      | _, _ => None end
  | _ => None
  end.

Lemma land_pow2 x j : N.land x (2 ^ j) = if N.testbit x j then 2 ^ j else 0.
Proof.
  apply N.bits_inj. intros i. rewrite N.land_spec, N.pow2_bits_eqb.
  destruct (N.eqb_spec j i) as [->|Hne].
  - destruct (N.testbit x i); simpl; [rewrite N.pow2_bits_true; reflexivity|rewrite N.bits_0; reflexivity].
  - rewrite andb_false_r. destruct (N.testbit x j); [rewrite N.pow2_bits_false by assumption; reflexivity|].
    symmetry. apply N.bits_0.
Qed.

(** Bits of -2^j. *)
Lemma neg_pow2_bit j k : j <= k -> k < 32 -> N.testbit (sub32 0 (2 ^ j)) k = true.
Proof.
  intros Hj Hk. unfold sub32. rewrite testbit_mod32.
  apply N.ltb_lt in Hk as Hk'. rewrite Hk'. simpl. rewrite N.add_0_l.
  assert (P : 2 ^ j < M32) by (rewrite M32_pow; apply N.pow_lt_mono_r; lia).
  rewrite (N.mod_small (2 ^ j)) by assumption.
  replace (M32 - 2 ^ j) with (N.shiftl (2 ^ (32 - j) - 1) j).
  - rewrite N.shiftl_spec_high' by assumption.
    replace (2 ^ (32 - j) - 1) with (N.ones (32 - j)) by (rewrite N.ones_equiv; lia).
    apply N.ones_spec_low. lia.
  - rewrite N.shiftl_mul_pow2, N.mul_sub_distr_r, <- N.pow_add_r, M32_pow.
    replace (32 - j + j) with 32 by lia. lia.
Qed.

Lemma sub32_self x : sub32 x x = 0.
Proof. unfold sub32, M32. lia. Qed.
Lemma sub32_0 : sub32 0 0 = 0. Proof. reflexivity. Qed.

Lemma symbit_lt e k s : symbit e k = Some s -> k < 32.
Proof. destruct e; simpl; destruct (N.leb_spec 32 k); intros; (discriminate || lia). Qed.

Lemma symbit_sound W mask e : forall k s, symbit e k = Some s ->
  N.testbit (ueval W mask e) k = den W s.
Proof.
  induction e; intros k s H; assert (Hk := symbit_lt _ _ _ H); simpl in H;
    destruct (N.leb_spec 32 k) as [Hk'|_]; try discriminate; try lia; simpl.
  - injection H; intros; subst. unfold den, wbit; simpl. rewrite xorb_false_r. reflexivity.
  - injection H; intros; subst. reflexivity.
  - destruct (symbit e k) eqn:E; [|discriminate]. injection H; intros; subst.
    rewrite den_flip, testbit_not32, (IHe _ _ E).
    apply N.ltb_lt in Hk. rewrite Hk. apply xorb_true_r.
  - destruct (cval e2) eqn:E; [|discriminate]. rewrite N.land_spec, (cval_sound W mask _ _ E).
    destruct (N.testbit n k).
    + rewrite andb_true_r. apply IHe1. assumption.
    + rewrite andb_false_r. injection H; intros; subst. reflexivity.
  - destruct (cval e2) eqn:E; [|discriminate]. rewrite N.lor_spec, (cval_sound W mask _ _ E).
    destruct (N.testbit n k).
    + rewrite orb_true_r. injection H; intros; subst. reflexivity.
    + rewrite orb_false_r. apply IHe1. assumption.
  - destruct (symbit e1 k) eqn:E1; [|discriminate]. destruct (symbit e2 k) eqn:E2; [|discriminate].
    injection H; intros; subst. rewrite N.lxor_spec, den_xor. f_equal; auto.
  - (* USub *)
    assert (B : forall x c, e2 = UAnd x c ->
      (match cval e1, cval c with
      | Some 0, Some n =>
        match pow2 n with
        | Some j => if j <=? k then symbit x j else None
        | None => None end
      | _, _ => None end) = Some s ->
      N.testbit (sub32 (ueval W mask e1) (ueval W mask e2)) k = den W s).
    { intros x c -> HH. destruct (cval e1) as [[|]|] eqn:E1; try discriminate.
      destruct (cval c) eqn:E2; [|discriminate].
      destruct (pow2 n) eqn:E3; [|discriminate]. apply pow2_sound in E3.
      destruct (N.leb_spec n0 k); [|discriminate].
      rewrite (cval_sound W mask _ _ E1). cbn [ueval]. rewrite (cval_sound W mask _ _ E2), E3, land_pow2.
      assert (IH2 : N.testbit (ueval W mask x) n0 = den W s).
      { assert (A : symbit (UAnd x c) n0 = Some s).
        { cbn [symbit]. destruct (N.leb_spec 32 n0); [lia|]. rewrite E2, E3, N.pow2_bits_true. assumption. }
        apply IHe2 in A. cbn [ueval] in A. rewrite (cval_sound W mask _ _ E2), E3 in A.
        rewrite N.land_spec, N.pow2_bits_true, andb_true_r in A. assumption. }
      rewrite <- IH2. destruct (N.testbit (ueval W mask x) n0).
      - apply neg_pow2_bit; assumption.
      - rewrite sub32_0. apply N.bits_0. }
    assert (C : forall x c, e1 = UAnd x c ->
      (match cval c, cval e2 with
      | Some n, Some n' =>
        match pow2 n with
        | Some j => if (n =? n') && (j <=? k) then
                      match symbit x j with Some s => Some (sflip s) | None => None end
                    else None
        | None => None end
      | _, _ => None end) = Some s ->
      N.testbit (sub32 (ueval W mask e1) (ueval W mask e2)) k = den W s).
    { intros x c -> HH. destruct (cval c) eqn:E1; [|discriminate].
      destruct (cval e2) eqn:E2; [|discriminate].
      destruct (pow2 n) eqn:E3; [|discriminate]. apply pow2_sound in E3.
      destruct (N.eqb_spec n n0); [|discriminate]. subst n0.
      destruct (N.leb_spec n1 k); [|discriminate]. cbn [andb] in HH.
      destruct (symbit x n1) eqn:E4; [|discriminate]. injection HH; intros; subst s.
      rewrite den_flip. rewrite (cval_sound W mask _ _ E2). cbn [ueval].
      rewrite (cval_sound W mask _ _ E1), E3, land_pow2.
      assert (IH2 : N.testbit (ueval W mask x) n1 = den W s0).
      { assert (A : symbit (UAnd x c) n1 = Some s0).
        { cbn [symbit]. destruct (N.leb_spec 32 n1); [lia|]. rewrite E1, E3, N.pow2_bits_true. assumption. }
        apply IHe1 in A. cbn [ueval] in A. rewrite (cval_sound W mask _ _ E1), E3 in A.
        rewrite N.land_spec, N.pow2_bits_true, andb_true_r in A. assumption. }
      rewrite <- IH2. destruct (N.testbit (ueval W mask x) n1).
      - rewrite sub32_self. apply N.bits_0.
      - apply neg_pow2_bit; assumption. }
    destruct e1; try (eapply C; [reflexivity|exact H]); clear C; (destruct e2; first [discriminate H | eapply B; [reflexivity|exact H]]).
  - destruct (cval e2) eqn:E; [|discriminate].
    rewrite testbit_shl32, (cval_sound W mask _ _ E).
    apply N.ltb_lt in Hk. rewrite Hk. cbn [andb].
    destruct (N.ltb_spec k n).
    + destruct (N.leb_spec n k); [lia|]. injection H; intros; subst. reflexivity.
    + destruct (N.leb_spec n k); [|lia]. cbn [andb]. apply IHe1. assumption.
  - destruct (cval e2) eqn:E; [|discriminate]. destruct (N.ltb_spec (k + n) 32); [|discriminate].
    rewrite testbit_shr32, (cval_sound W mask _ _ E). apply IHe1. assumption.
Qed.

(** [zero_iff e = Some s]: the value of e is zero exactly when s is true. *)
Fixpoint zero_iff (e : uexp) : option sbit :=
  match e with
  | ULNot e => match zero_iff e with Some s => Some (sflip s) | None => None end
  | UAnd x c => match cval c with
                | Some n => match pow2 n with
                            | Some j => match symbit x j with Some s => Some (sflip s) | None => None end
                            | None => None end
                | None => None end
  | UNe x (UC 0) => zero_iff x
  | _ => None
  end.

Lemma zero_iff_sound W mask e : forall s, zero_iff e = Some s -> (ueval W mask e =? 0) = den W s.
Proof.
  induction e; intros s H; try discriminate; simpl in H; cbn [ueval].
  - destruct (zero_iff e); [|discriminate]. injection H; intros; subst. rewrite den_flip.
    rewrite <- (IHe _ eq_refl). destruct (ueval W mask e =? 0); reflexivity.
  - destruct (cval e2) eqn:E2; [|discriminate]. destruct (pow2 n) eqn:E3; [|discriminate].
    destruct (symbit e1 n0) eqn:E4; [|discriminate]. injection H; intros; subst.
    apply pow2_sound in E3. rewrite den_flip, (cval_sound W mask _ _ E2), E3, land_pow2.
    rewrite <- (symbit_sound W mask _ _ _ E4).
    destruct (N.testbit (ueval W mask e1) n0); [|reflexivity].
    apply N.eqb_neq. apply N.pow_nonzero. discriminate.
  - destruct e2; try discriminate. destruct n; [|discriminate]. rewrite <- (IHe1 _ H). cbn [ueval].
    destruct (ueval W mask e1 =? 0); reflexivity.
Qed.

(** A disjunction is zero exactly when all the returned bits are true. *)
Fixpoint zero_all (e : uexp) : option (list sbit) :=
  match e with
  | ULor x y => match zero_all x, zero_all y with Some a, Some b => Some (a ++ b) | _, _ => None end
  | e => match zero_iff e with Some s => Some [s] | None => None end
  end.

Lemma forallb_app' {A} (f : A -> bool) l m : forallb f (l ++ m) = forallb f l && forallb f m.
Proof. apply forallb_app. Qed.

Lemma zero_all_sound W mask e : forall l, zero_all e = Some l -> (ueval W mask e =? 0) = forallb (den W) l.
Proof.
  assert (base : forall e l, match zero_iff e with Some s => Some [s] | None => None end = Some l ->
    (ueval W mask e =? 0) = forallb (den W) l).
  { intros e0 l H. destruct (zero_iff e0) eqn:E; [|discriminate]. injection H; intros; subst. simpl.
    rewrite andb_true_r. apply zero_iff_sound. assumption. }
  induction e; intros l H; try (apply base; exact H).
  simpl in H. destruct (zero_all e1); [|discriminate]. destruct (zero_all e2); [|discriminate].
  injection H; intros; subst. rewrite forallb_app', <- (IHe1 _ eq_refl), <- (IHe2 _ eq_refl). cbn [ueval].
  destruct (ueval W mask e1 =? 0), (ueval W mask e2 =? 0); reflexivity.
Qed.

(** Guards that look at the mask only: [Some g] means the guard is true whenever the
    mask has a bit in common with g. *)
Definition guard_bits (c : uexp) : option N :=
  match c with
  | UMask => Some ones32
  | UNe UMask (UC 0) => Some ones32
  | UAnd UMask e => cval e
  | UNe (UAnd UMask e) (UC 0) => cval e
  | _ => None
  end.

Lemma guard_sound W mask c g d : guard_bits c = Some g -> N.testbit g d = true ->
  N.testbit mask d = true -> ueval W mask c =? 0 = false.
Proof.
  intros H Hg Hm.
  assert (nz : forall x, N.testbit x d = true -> x =? 0 = false).
  { intros x Hx. destruct (N.eqb_spec x 0) as [->|]; [rewrite N.bits_0 in Hx; discriminate|reflexivity]. }
  assert (A : forall e, cval e = Some g -> N.land mask (ueval W mask e) =? 0 = false).
  { intros e He. apply nz. rewrite (cval_sound W mask _ _ He), N.land_spec, Hm, Hg. reflexivity. }
  destruct c; try discriminate H.
  - apply nz. assumption.
  - destruct c1; try discriminate H. apply A. exact H.
  - destruct c1; try discriminate H.
    + destruct c2; try discriminate H. destruct n; [|discriminate H]. cbn [ueval].
      rewrite (nz mask Hm). reflexivity.
    + destruct c1_1; try discriminate H. destruct c2; try discriminate H. destruct n; [|discriminate H].
      cbn [ueval]. rewrite A by exact H. reflexivity.
Qed.

Definition trivial_bit (s : sbit) : bool := match s with ([], true) => true | _ => false end.
Lemma trivial_den W l : forallb trivial_bit l = true -> forallb (den W) l = true.
Proof.
  rewrite !forallb_forall. intros H s Hs. specialize (H s Hs). destruct s as [[|] [|]]; try discriminate. reflexivity.
Qed.

(** The conditions a program puts on bit d of the mask. *)
Fixpoint pconds (p : prog) (d : N) : option (list sbit) :=
  match p with
  | PEnd => Some []
  | PAnd e r =>
    match symbit e d, pconds r d with
    | Some s, Some l => Some (if trivial_bit s then l else s :: l)
    | _, _ => None end
  | PIf c b r =>
    match pconds b d, pconds r d with
    | Some lb, Some lr =>
      if forallb trivial_bit lb then Some lr
      else match guard_bits c with
           | Some g => if N.testbit g d then Some (lb ++ lr) else None
           | None =>
             match b with
             | PAnd e PEnd =>
               match symbit e d, zero_all c with
               | Some ([], false), Some l => Some (l ++ lr)
               | _, _ => None end
             | _ => None end
           end
    | _, _ => None end
  end.

Lemma pconds_sound W p d : forall l, pconds p d = Some l ->
  forall mask, N.testbit (urun W p mask) d = N.testbit mask d && forallb (den W) l.
Proof.
  induction p; intros l H mask; cbn [pconds] in H; cbn [urun].
  - injection H; intros; subst. simpl. rewrite andb_true_r. reflexivity.
  - destruct (symbit e d) eqn:E; [|discriminate]. destruct (pconds p d) eqn:E2; [|discriminate].
    rewrite (IHp _ eq_refl), N.land_spec, (symbit_sound W mask _ _ _ E).
    injection H; intros; subst l. destruct s as [[|] [|]]; cbn [trivial_bit]; cbn [forallb];
      rewrite ?andb_assoc; try reflexivity.
    unfold den at 1. simpl. rewrite andb_true_r. reflexivity.
  - destruct (pconds p1 d) as [lb|] eqn:E1; [|discriminate]. destruct (pconds p2 d) as [lr|] eqn:E2; [|discriminate].
    rewrite (IHp2 _ eq_refl). destruct (forallb trivial_bit lb) eqn:T.
    + injection H; intros; subst l. f_equal. destruct (ueval W mask c =? 0); [reflexivity|].
      rewrite (IHp1 _ eq_refl), trivial_den by assumption. apply andb_true_r.
    + destruct (guard_bits c) as [g|] eqn:G.
      * destruct (N.testbit g d) eqn:Gd; [|discriminate]. injection H; intros; subst l.
        rewrite forallb_app', andb_assoc. f_equal.
        destruct (N.testbit mask d) eqn:Md.
        -- rewrite (guard_sound W mask _ _ _ G Gd Md), (IHp1 _ eq_refl), Md. reflexivity.
        -- simpl. destruct (ueval W mask c =? 0); [assumption|]. rewrite (IHp1 _ eq_refl), Md. reflexivity.
      * destruct p1 as [|e [| |]|]; try discriminate.
        destruct (symbit e d) as [[[|] [|]]|] eqn:Se; try discriminate.
        destruct (zero_all c) as [lc|] eqn:Zc; [|discriminate]. injection H; intros; subst l.
        rewrite forallb_app', andb_assoc. f_equal.
        rewrite <- (zero_all_sound W mask _ _ Zc). destruct (ueval W mask c =? 0).
        -- rewrite andb_true_r. reflexivity.
        -- rewrite andb_false_r. cbn [urun]. rewrite N.land_spec, (symbit_sound W mask _ _ _ Se).
           unfold den; simpl. apply andb_false_r.
Qed.

(** ** Comparison with the table *)

Definition cond_of (s : sbit) : option cond :=
  match s with
  | ([(t1, b1); (t2, b2)], c) =>
    let x := (t1, N.to_nat b1) in let y := (t2, N.to_nat b2) in
    let lt := ((t1 <? t2) || ((t1 =? t2) && (N.to_nat b1 <? N.to_nat b2)))%nat%bool in
    let '((u1, v1), (u2, v2)) := if lt then (x, y) else (y, x) in
    Some (u1, v1, u2, v2, negb c)
  | _ => None
  end.

Lemma cond_of_sound W s c : cond_of s = Some c -> (den W s = true <-> cond_holds W c).
Proof.
  destruct s as [[|[t1 b1] [|[t2 b2] [|]]] v]; try discriminate. simpl.
  set (lt := ((t1 <? t2) || ((t1 =? t2) && (N.to_nat b1 <? N.to_nat b2)))%nat%bool).
  intros H. unfold den, wbit; simpl. unfold cond_holds.
  destruct lt; injection H; intros; subst c; rewrite !N2Nat.id;
    destruct (N.testbit (nth t1 W 0) b1), (N.testbit (nth t2 W 0) b2), v; simpl; intuition congruence.
Qed.

Definition cond_eqb (x y : cond) : bool :=
  let '(a, b, c, d, e) := x in let '(a', b', c', d', e') := y in
  ((a =? a') && (b =? b') && (c =? c') && (d =? d'))%nat && Bool.eqb e e'.
Lemma cond_eqb_eq x y : cond_eqb x y = true <-> x = y.
Proof.
  destruct x as [[[[a b] c] d] e], y as [[[[a' b'] c'] d'] e']. unfold cond_eqb.
  rewrite !andb_true_iff, !Nat.eqb_eq, Bool.eqb_true_iff. intuition congruence.
Qed.

Fixpoint all_conds (l : list sbit) : option (list cond) :=
  match l with
  | [] => Some []
  | s :: r => match cond_of s, all_conds r with Some c, Some l => Some (c :: l) | _, _ => None end
  end.

Lemma all_conds_sound W l : forall cs, all_conds l = Some cs ->
  (forallb (den W) l = true <-> Forall (cond_holds W) cs).
Proof.
  induction l as [|s l IH]; intros cs H; simpl in H.
  - injection H; intros; subst. split; [constructor|reflexivity].
  - destruct (cond_of s) eqn:E; [|discriminate]. destruct (all_conds l); [|discriminate].
    injection H; intros; subst. simpl. rewrite andb_true_iff, (cond_of_sound W _ _ E), (IH _ eq_refl).
    split; [intros []; constructor; assumption|]. intros HF; inversion HF; subst; auto.
Qed.

Definition incl_b (x y : list cond) : bool := forallb (fun c => existsb (cond_eqb c) y) x.
Lemma incl_b_sound x y : incl_b x y = true -> incl x y.
Proof.
  unfold incl_b. rewrite forallb_forall. intros H c Hc. specialize (H c Hc).
  apply existsb_exists in H. destruct H as (c' & Hc' & E). apply cond_eqb_eq in E. subst. assumption.
Qed.

(** The whole check: for each of the 32 bits the program has exactly the conditions of the table. *)
Definition ubc_check_prog (p : prog) : bool :=
  forallb (fun d =>
    match pconds p (N.of_nat d) with
    | Some l => match all_conds l with
                | Some cs => incl_b cs (nth d ubc_table []) && incl_b (nth d ubc_table []) cs
                | None => false end
    | None => false end) (seq 0 32).

Theorem ubc_check_prog_sound p : ubc_check_prog p = true ->
  forall W d mask, (d < 32)%nat -> N.testbit mask (N.of_nat d) = true ->
  (N.testbit (urun W p mask) (N.of_nat d) = true <-> ubc_holds d W).
Proof.
  intros H W d mask Hd Hm. unfold ubc_check_prog in H. rewrite forallb_forall in H.
  specialize (H d ltac:(apply in_seq; lia)). cbv beta in H.
  destruct (pconds p (N.of_nat d)) as [l|] eqn:E; [|discriminate].
  destruct (all_conds l) as [cs|] eqn:E2; [|discriminate].
  apply andb_true_iff in H. destruct H as [H1 H2].
  apply incl_b_sound in H1. apply incl_b_sound in H2.
  rewrite (pconds_sound W _ _ _ E), Hm. simpl. rewrite (all_conds_sound W _ _ E2).
  unfold ubc_holds. rewrite !Forall_forall. split; intros HF c Hc; apply HF; auto.
Qed.

(** The mask never gains bits. *)
Lemma urun_submask W p d : forall mask, N.testbit mask d = false -> N.testbit (urun W p mask) d = false.
Proof.
  induction p; intros mask H; cbn [urun]; [assumption| |].
  - apply IHp. rewrite N.land_spec, H. reflexivity.
  - apply IHp2. destruct (_ =? 0); auto.
Qed.
Lemma urun_wf W p mask : wf mask -> wf (urun W p mask).
Proof. rewrite !wf_bits. intros H i Hi. apply urun_submask, H, Hi. Qed.
