(** The expressions of the C code with C's integer types are defined and have the value of arithmetic modulo 2^32. *)

From Coq Require Import Arith NArith ZArith List Bool Lia ZifyNat ZifyN.
From Verif Require Import Word WordFacts Model_Go Model_Ubc Gen_UbcC Model_CTypes Gen_CTyped.
Import ListNotations.
Local Open Scope Z_scope.
Ltac Zify.zify_post_hook ::= idtac.

(** * Z and N *)
Lemma two32_pow : two32 = 2 ^ 32.
Proof. reflexivity. Qed.
Lemma ofM32 : Z.of_N M32 = two32.
Proof. reflexivity. Qed.
Lemma of_N_bits (f : N -> N -> N) (g : Z -> Z -> Z) (h : bool -> bool -> bool) :
  (forall a b n, N.testbit (f a b) n = h (N.testbit a n) (N.testbit b n)) ->
  (forall a b n, 0 <= n -> Z.testbit (g a b) n = h (Z.testbit a n) (Z.testbit b n)) ->
  forall a b, Z.of_N (f a b) = g (Z.of_N a) (Z.of_N b).
Proof.
  intros F G a b. apply Z.bits_inj'. intros n Hn. rewrite G by exact Hn. rewrite <- (Z2N.id n Hn). rewrite !Z.testbit_of_N. apply F.
Qed.
Lemma of_N_land a b : Z.of_N (N.land a b) = Z.land (Z.of_N a) (Z.of_N b).
Proof. revert a b. apply (of_N_bits _ _ andb); intros; [apply N.land_spec|apply Z.land_spec]. Qed.
Lemma of_N_lor a b : Z.of_N (N.lor a b) = Z.lor (Z.of_N a) (Z.of_N b).
Proof. revert a b. apply (of_N_bits _ _ orb); intros; [apply N.lor_spec|apply Z.lor_spec]. Qed.
Lemma of_N_lxor a b : Z.of_N (N.lxor a b) = Z.lxor (Z.of_N a) (Z.of_N b).
Proof. revert a b. apply (of_N_bits _ _ xorb); intros; [apply N.lxor_spec|apply Z.lxor_spec]. Qed.
Lemma mod_bits (g : Z -> Z -> Z) (h : bool -> bool -> bool) : h false false = false ->
  (forall a b n, 0 <= n -> Z.testbit (g a b) n = h (Z.testbit a n) (Z.testbit b n)) ->
  forall a b, g a b mod two32 = g (a mod two32) (b mod two32).
Proof.
  intros H G a b. rewrite two32_pow. apply Z.bits_inj'. intros n Hn. rewrite G by exact Hn. destruct (Z.lt_ge_cases n 32) as [L|L].
  - rewrite !Z.mod_pow2_bits_low by exact L. apply G. exact Hn.
  - rewrite !Z.mod_pow2_bits_high by lia. symmetry. exact H.
Qed.
Lemma mod_land a b : Z.land a b mod two32 = Z.land (a mod two32) (b mod two32).
Proof. revert a b. apply (mod_bits _ andb); [reflexivity|]. intros. apply Z.land_spec. Qed.
Lemma mod_lor a b : Z.lor a b mod two32 = Z.lor (a mod two32) (b mod two32).
Proof. revert a b. apply (mod_bits _ orb); [reflexivity|]. intros. apply Z.lor_spec. Qed.
Lemma mod_lxor a b : Z.lxor a b mod two32 = Z.lxor (a mod two32) (b mod two32).
Proof. revert a b. apply (mod_bits _ xorb); [reflexivity|]. intros. apply Z.lxor_spec. Qed.
Lemma mod_small_N n : (n < M32)%N -> Z.of_N n mod two32 = Z.of_N n.
Proof. intros H. apply Z.mod_small. rewrite <- ofM32. lia. Qed.
Lemma of_N_mod n : Z.of_N (n mod M32) = Z.of_N n mod two32.
Proof. rewrite N2Z.inj_mod, ofM32. reflexivity. Qed.
Lemma of_N_add32 a b : Z.of_N (add32 a b) = (Z.of_N a + Z.of_N b) mod two32.
Proof. unfold add32. rewrite of_N_mod, N2Z.inj_add. reflexivity. Qed.
Lemma of_N_sub32 a b : Z.of_N (sub32 a b) = (Z.of_N a - Z.of_N b) mod two32.
Proof.
  unfold sub32. rewrite of_N_mod, N2Z.inj_add, N2Z.inj_sub by (apply N.lt_le_incl, N.mod_lt; discriminate). rewrite of_N_mod, ofM32.
  replace (Z.of_N a + (two32 - Z.of_N b mod two32)) with (Z.of_N a - Z.of_N b mod two32 + 1 * two32) by ring.
  rewrite Z.mod_add by discriminate. apply Zminus_mod_idemp_r.
Qed.
Lemma of_N_not32 n : (n < M32)%N -> Z.of_N (not32 n) = Z.lnot (Z.of_N n) mod two32.
Proof.
  intros H. unfold not32. rewrite of_N_lxor. change (Z.of_N ones32) with (Z.ones 32). rewrite two32_pow. apply Z.bits_inj'. intros k Hk.
  rewrite Z.lxor_spec. destruct (Z.lt_ge_cases k 32) as [L|L].
  - rewrite Z.ones_spec_low by lia. rewrite Z.mod_pow2_bits_low by exact L. rewrite Z.lnot_spec by exact Hk. destruct (Z.testbit _ k); reflexivity.
  - rewrite Z.ones_spec_high by lia. rewrite Z.mod_pow2_bits_high by lia. rewrite xorb_false_r.
    rewrite <- (mod_small_N n H), two32_pow. apply Z.mod_pow2_bits_high. lia.
Qed.
Lemma of_N_shl32 a c : Z.of_N (shl32 a c) = (Z.of_N a * 2 ^ Z.of_N c) mod two32.
Proof. unfold shl32. rewrite of_N_mod, N.shiftl_mul_pow2, N2Z.inj_mul, N2Z.inj_pow. reflexivity. Qed.
Lemma of_N_shr32 a c : Z.of_N (shr32 a c) = Z.of_N a / 2 ^ Z.of_N c.
Proof. unfold shr32. rewrite N.shiftr_div_pow2, N2Z.inj_div, N2Z.inj_pow. reflexivity. Qed.

(** * Ranges *)
Definition within (k z : Z) : Prop := - 2 ^ k <= z < 2 ^ k.
Lemma within_shiftr k z : 0 <= k -> within k z <-> (Z.shiftr z k = 0 \/ Z.shiftr z k = -1).
Proof.
  intros Hk. rewrite Z.shiftr_div_pow2 by exact Hk. assert (P : 0 < 2 ^ k) by (apply Z.pow_pos_nonneg; lia). unfold within. split.
  - intros [A B]. destruct (Z.lt_ge_cases z 0) as [N|N].
    + right. symmetry. apply (Z.div_unique z (2 ^ k) (-1) (z + 2 ^ k)); [left; lia|ring].
    + left. apply Z.div_small. lia.
  - pose proof (Z.div_mod z (2 ^ k) ltac:(lia)) as D. pose proof (Z.mod_pos_bound z (2 ^ k) P) as M. intros [E|E]; rewrite E in D; lia.
Qed.
Lemma within_bits (g : Z -> Z -> Z) k a b : 0 <= k -> (forall x y n, 0 <= n -> Z.shiftr (g x y) n = g (Z.shiftr x n) (Z.shiftr y n)) ->
  (forall x y, (x = 0 \/ x = -1) -> (y = 0 \/ y = -1) -> g x y = 0 \/ g x y = -1) -> within k a -> within k b -> within k (g a b).
Proof.
  intros Hk S T A B. apply within_shiftr; [exact Hk|]. rewrite S by exact Hk. apply T; apply within_shiftr; assumption.
Qed.
Lemma within_land k a b : 0 <= k -> within k a -> within k b -> within k (Z.land a b).
Proof.
  intros Hk. apply within_bits; [exact Hk|intros; apply Z.shiftr_land|]. intros x y [-> | ->] [-> | ->]; cbn; auto.
Qed.
Lemma within_lor k a b : 0 <= k -> within k a -> within k b -> within k (Z.lor a b).
Proof.
  intros Hk. apply within_bits; [exact Hk|intros; apply Z.shiftr_lor|]. intros x y [-> | ->] [-> | ->]; cbn; auto.
Qed.
Lemma within_lxor k a b : 0 <= k -> within k a -> within k b -> within k (Z.lxor a b).
Proof.
  intros Hk. apply within_bits; [exact Hk|intros; apply Z.shiftr_lxor|]. intros x y [-> | ->] [-> | ->]; cbn; auto.
Qed.
Lemma within_le j k z : 0 <= j <= k -> within j z -> within k z.
Proof. intros H. pose proof (Z.pow_le_mono_r 2 j k ltac:(lia) ltac:(lia)). unfold within. lia. Qed.
Lemma land_le a b : 0 <= a -> 0 <= Z.land a b <= a.
Proof.
  intros H. split; [apply Z.land_nonneg; left; exact H|].
  assert (E : Z.land a b + Z.land a (Z.lnot b) = a).
  { rewrite Z.add_nocarry_lxor.
    - apply Z.bits_inj'. intros n Hn. rewrite Z.lxor_spec, !Z.land_spec, Z.lnot_spec by exact Hn. destruct (Z.testbit a n), (Z.testbit b n); reflexivity.
    - apply Z.bits_inj'. intros n Hn. rewrite !Z.land_spec, Z.lnot_spec, Z.bits_0 by exact Hn. destruct (Z.testbit a n), (Z.testbit b n); reflexivity. }
  assert (0 <= Z.land a (Z.lnot b)) by (apply Z.land_nonneg; left; exact H). lia.
Qed.

(** * Arithmetic modulo 2^32 *)
Section Value.
  Variable env : N -> N.
  Fixpoint neval (e : cexp) : N :=
    match e with
    | EV k => env k
    | EL n | EO n => n
    | ECast e => neval e
    | ENot e => not32 (neval e)
    | ELNot e => b2w (neval e =? 0)%N
    | EAnd x y => N.land (neval x) (neval y)
    | EOr x y => N.lor (neval x) (neval y)
    | EXor x y => N.lxor (neval x) (neval y)
    | EAdd x y => add32 (neval x) (neval y)
    | ESub x y => sub32 (neval x) (neval y)
    | EShl x y => shl32 (neval x) (neval y)
    | EShr x y => shr32 (neval x) (neval y)
    | ENe x y => b2w (negb (neval x =? neval y)%N)
    | ELor x y => b2w (negb (neval x =? 0)%N || negb (neval y =? 0)%N)
    end.
End Value.

(** * Analysis: unsigned, or an int with at most k bits (and not negative) *)
Inductive abs := AU | AI (nn : bool) (k : Z).
Section Analysis.
  Variable w : Z.
  Definition ai (nn : bool) (k : Z) : option abs := if (0 <=? k) && (k <=? w - 1) then Some (AI nn k) else None.
  Definition aobj : option abs := if 32 <? w then ai true 32 else Some AU.
  (** Constant shift counts. *)
  Definition cst (e : cexp) : option Z :=
    match e with
    | EL n => if Z.of_N n <? 256 then Some (Z.of_N n) else None
    | ESub (EL a) (EL b) => if (Z.of_N b <=? Z.of_N a) && (Z.of_N a <? 256) then Some (Z.of_N a - Z.of_N b) else None
    | _ => None
    end.
  (** The value is 0 only if it is 0 modulo 2^32. *)
  Definition tests (a : abs) : bool := match a with AU => true | AI nn k => if nn then k <=? 32 else k <=? 31 end.
  (** The value is in 0 ... 2^32 - 1. *)
  Definition exact_ (a : abs) : bool := match a with AU => true | AI nn k => nn && (k <=? 32) end.
  Definition a2 (f : bool -> Z -> bool -> Z -> option abs) (a b : option abs) : option abs :=
    do a <- a; do b <- b;
    match a, b with
    | AI n j, AI m k => f n j m k
    | _, _ => Some AU
    end.
  Fixpoint an (e : cexp) : option abs :=
    match e with
    | EV _ => aobj
    | EO n => if Z.of_N n <? two32 then aobj else None
    | EL n => let z := Z.of_N n in
        if z <? two32 then (if z <? 2 ^ (w - 1) then ai true (Z.log2 z + 1) else if w =? 32 then Some AU else None) else None
    | ECast e => do a <- an e; match a with AI true k => if (k <=? 32) && (32 <? w) then ai true k else aobj | _ => aobj end
    | ENot e => do a <- an e; match a with AU => Some AU | AI _ k => ai false k end
    | ELNot e => do a <- an e; if tests a then ai true 1 else None
    | EAnd x y => a2 (fun n j m k => if n then (if m then ai true (Z.min j k) else ai true j) else if m then ai true k else ai false (Z.max j k)) (an x) (an y)
    | EOr x y | EXor x y => a2 (fun n j m k => ai (n && m) (Z.max j k)) (an x) (an y)
    | EAdd x y => a2 (fun n j m k => ai (n && m) (Z.max j k + 1)) (an x) (an y)
    | ESub x y => a2 (fun n j m k => ai false (Z.max j k + 1)) (an x) (an y)
    | EShl x y => do a <- an x; do c <- cst y;
        if 0 <=? c then match a with AU => if c <? 32 then Some AU else None | AI n k => if n && (c <? w) then ai true (k + c) else None end else None
    | EShr x y => do a <- an x; do c <- cst y;
        if 0 <=? c then match a with AU => if c <? 32 then Some AU else None | AI n k => if exact_ a && (c <? w) then ai true k else None end else None
    | ENe x y => do a <- an x; do b <- an y; if exact_ a && exact_ b then ai true 1 else None
    | ELor x y => do a <- an x; do b <- an y; if tests a && tests b then ai true 1 else None
    end.

  Definition rep (a : abs) (v : cval) (n : N) : Prop :=
    match a with
    | AU => v = VU (Z.of_N n)
    | AI nn k => exists z, v = VI z /\ z mod two32 = Z.of_N n /\ 0 <= k <= w - 1 /\ within k z /\ (nn = true -> 0 <= z)
    end.

  Hypothesis Hw : 32 <= w.
  Variable env : N -> N.
  Hypothesis Henv : forall k, (env k < M32)%N.

  Lemma ai_inv nn k a : ai nn k = Some a -> a = AI nn k /\ 0 <= k <= w - 1.
  Proof. unfold ai. destruct (_ && _) eqn:E; [|discriminate]. intros H. injection H as <-. split; [reflexivity|lia]. Qed.
  Lemma int_ok k z : 0 <= k <= w - 1 -> within k z -> int w z = Some (VI z).
  Proof.
    intros Hk H. unfold int. apply (within_le k (w - 1)) in H; [|exact Hk]. unfold within in H.
    replace (_ && _) with true; [reflexivity|]. symmetry. apply andb_true_intro. split; [apply Z.leb_le|apply Z.ltb_lt]; lia.
  Qed.
  Lemma tou_rep a v n : (n < M32)%N -> rep a v n -> tou v = Z.of_N n.
  Proof.
    intros Hn. destruct a as [|nn k]; cbn [rep].
    - intros ->. cbn [tou]. apply mod_small_N. exact Hn.
    - intros (z & -> & E & _). exact E.
  Qed.
  Lemma obj_rep n a : (n < M32)%N -> aobj = Some a -> rep a (load w (Z.of_N n)) n.
  Proof.
    intros Hn. unfold aobj, load. destruct (32 <? w) eqn:L.
    - intros H. apply ai_inv in H. destruct H as [-> Hk]. exists (Z.of_N n). split; [reflexivity|]. split; [apply mod_small_N; exact Hn|]. split; [exact Hk|].
      split; [|lia]. unfold within. change (2 ^ 32) with two32. rewrite <- ofM32. lia.
    - intros H. injection H as <-. reflexivity.
  Qed.
  Lemma zero_rep a v n : (n < M32)%N -> rep a v n -> tests a = true -> zero v = (n =? 0)%N.
  Proof.
    intros Hn. destruct a as [|nn k]; cbn [rep tests].
    - intros -> _. cbn [zero]. destruct n; reflexivity.
    - intros (z & -> & E & Hk & Hz & Hnn) T. cbn [zero].
      assert (Z : - two32 < z < two32).
      { unfold within in Hz. rewrite two32_pow. destruct nn.
        - pose proof (Z.pow_le_mono_r 2 k 32 ltac:(lia) ltac:(lia)). specialize (Hnn eq_refl). lia.
        - pose proof (Z.pow_le_mono_r 2 k 31 ltac:(lia) ltac:(lia)). change (2 ^ 32) with (2 * 2 ^ 31). lia. }
      destruct (N.eqb_spec n 0) as [->|N0].
      + apply Z.eqb_eq. apply Z.mod_divide in E; [|discriminate]. destruct E as (q & ->). unfold two32 in Z. assert (q = 0) by lia. subst q. reflexivity.
      + apply Z.eqb_neq. intros ->. rewrite Z.mod_0_l in E by discriminate. lia.
  Qed.
  Lemma exact_rep a v n : (n < M32)%N -> rep a v n -> exact_ a = true -> v = VI (Z.of_N n) \/ v = VU (Z.of_N n).
  Proof.
    intros Hn. destruct a as [|nn k]; cbn [rep exact_]; [auto|]. intros (z & -> & E & Hk & Hz & Hnn) T. apply andb_prop in T. destruct T as [-> T].
    left. f_equal. rewrite <- E. symmetry. apply Z.mod_small. specialize (Hnn eq_refl). unfold within in Hz. rewrite two32_pow.
    pose proof (Z.pow_le_mono_r 2 k 32 ltac:(lia) ltac:(lia)). lia.
  Qed.
  Lemma truth_rep b a : ai true 1 = Some a -> rep a (truth b) (b2w b).
  Proof.
    intros H. apply ai_inv in H. destruct H as [-> Hk]. exists (if b then 1 else 0). split; [reflexivity|]. split; [destruct b; reflexivity|].
    split; [exact Hk|]. split; [|destruct b; lia]. unfold within. change (2 ^ 1) with 2. destruct b; lia.
  Qed.
  Lemma b2w_lt b : (b2w b < M32)%N.
  Proof. destruct b; reflexivity. Qed.
  Lemma cst_ok e c : cst e = Some c -> 0 <= c -> (ceval w env e = Some (VI c)) /\ Z.of_N (neval env e) = c.
  Proof.
    assert (P : 256 < 2 ^ (w - 1)).
    { pose proof (Z.pow_le_mono_r 2 31 (w - 1) ltac:(lia) ltac:(lia)) as Q. change (2 ^ 31) with 2147483648 in Q. lia. }
    assert (Lt : forall n, Z.of_N n < 256 -> literal w (Z.of_N n) = Some (VI (Z.of_N n))).
    { intros n H. unfold literal. replace (_ <? _) with true; [reflexivity|]. symmetry. apply Z.ltb_lt. lia. }
    destruct e as [|n| | | | | | | | |x y| | | |]; try discriminate; cbn [cst].
    - destruct (_ <? _) eqn:E; [|discriminate]. intros H _. injection H as <-. split; [|reflexivity]. cbn [ceval]. apply Lt. lia.
    - destruct x; try discriminate. destruct y; try discriminate. destruct (_ && _) eqn:E; [|discriminate]. intros H Hc. injection H as <-.
      cbn [ceval neval]. rewrite !Lt by lia. cbn [obind arith]. split.
      + unfold int. replace (_ && _) with true; [reflexivity|]. symmetry. apply andb_true_intro. split; [apply Z.leb_le|apply Z.ltb_lt]; lia.
      + rewrite of_N_sub32. apply Z.mod_small. unfold two32. lia.
  Qed.

  (** Operators on two values. *)
  Lemma arith_rep (g : Z -> Z -> Z) (f : N -> N -> N) F a b r v1 v2 n1 n2 :
    (n1 < M32)%N -> (n2 < M32)%N -> rep a v1 n1 -> rep b v2 n2 -> a2 F (Some a) (Some b) = Some r ->
    (Z.of_N (f n1 n2) = g (Z.of_N n1) (Z.of_N n2) mod two32) ->
    (forall x y, g x y mod two32 = g (x mod two32) (y mod two32) mod two32) ->
    (forall n j m k x y r, within j x -> within k y -> 0 <= j -> 0 <= k -> (n = true -> 0 <= x) -> (m = true -> 0 <= y) ->
       F n j m k = Some r -> exists nn l, r = AI nn l /\ 0 <= l <= w - 1 /\ within l (g x y) /\ (nn = true -> 0 <= g x y)) ->
    exists v, arith w g v1 v2 = Some v /\ rep r v (f n1 n2).
  Proof.
    intros H1 H2 R1 R2 A Ef Eg Hr. pose proof (tou_rep a v1 n1 H1 R1) as T1. pose proof (tou_rep b v2 n2 H2 R2) as T2. cbn [a2 obind] in A.
    assert (U : Some (VU (g (tou v1) (tou v2) mod two32)) = Some (VU (Z.of_N (f n1 n2)))) by (rewrite T1, T2, Ef; reflexivity).
    destruct a as [|n j], b as [|m k]; cbn [rep] in R1, R2.
    - injection A as <-. subst v1 v2. eexists. split; [exact U|reflexivity].
    - injection A as <-. destruct R2 as (y & -> & _). subst v1. eexists. split; [exact U|reflexivity].
    - injection A as <-. destruct R1 as (x & -> & _). subst v2. eexists. split; [exact U|reflexivity].
    - destruct R1 as (x & -> & E1 & K1 & W1 & N1). destruct R2 as (y & -> & E2 & K2 & W2 & N2).
      destruct (Hr n j m k x y r W1 W2 ltac:(lia) ltac:(lia) N1 N2 A) as (nn & l & -> & Hl & Wl & Nl). cbn [arith]. exists (VI (g x y)). split; [exact (int_ok l _ Hl Wl)|].
      exists (g x y). split; [reflexivity|]. split; [rewrite Eg, E1, E2; symmetry; exact Ef|]. auto.
  Qed.
  Lemma max_within j k x y : 0 <= j -> 0 <= k -> within j x -> within k y -> within (Z.max j k) x /\ within (Z.max j k) y.
  Proof. intros. split; [apply (within_le j)|apply (within_le k)]; try assumption; lia. Qed.

  Lemma mod_land2 x y : Z.land x y mod two32 = Z.land (x mod two32) (y mod two32) mod two32.
  Proof. rewrite <- mod_land, Z.mod_mod by discriminate. reflexivity. Qed.
  Lemma mod_lor2 x y : Z.lor x y mod two32 = Z.lor (x mod two32) (y mod two32) mod two32.
  Proof. rewrite <- mod_lor, Z.mod_mod by discriminate. reflexivity. Qed.
  Lemma mod_lxor2 x y : Z.lxor x y mod two32 = Z.lxor (x mod two32) (y mod two32) mod two32.
  Proof. rewrite <- mod_lxor, Z.mod_mod by discriminate. reflexivity. Qed.
  Lemma bits_of_N (g : Z -> Z -> Z) a b : (a < M32)%N -> (b < M32)%N -> (forall x y, g x y mod two32 = g (x mod two32) (y mod two32)) ->
    g (Z.of_N a) (Z.of_N b) = g (Z.of_N a) (Z.of_N b) mod two32.
  Proof. intros A B G. rewrite G, !mod_small_N by assumption. reflexivity. Qed.

  Theorem an_ok : forall e a, an e = Some a -> exists v, ceval w env e = Some v /\ rep a v (neval env e) /\ (neval env e < M32)%N.
  Proof.
    induction e as [k|n|n|e IH|e IH|e IH|x IHx y IHy|x IHx y IHy|x IHx y IHy|x IHx y IHy|x IHx y IHy|x IHx y IHy|x IHx y IHy|x IHx y IHy|x IHx y IHy];
      intros a A; cbn [an] in A; cbn [ceval neval].
    - eexists. split; [reflexivity|]. split; [apply obj_rep; [apply Henv|exact A]|apply Henv].
    - cbv zeta in A. destruct (Z.of_N n <? two32) eqn:L; [|discriminate].
      assert (Hn : (n < M32)%N) by (apply Z.ltb_lt in L; rewrite <- ofM32 in L; lia). unfold literal.
      destruct (Z.of_N n <? 2 ^ (w - 1)) eqn:I.
      + apply ai_inv in A. destruct A as [-> Hk]. eexists. split; [reflexivity|]. split; [|exact Hn]. exists (Z.of_N n). split; [reflexivity|].
        split; [apply mod_small_N; exact Hn|]. split; [exact Hk|]. split; [|lia]. unfold within.
        assert (Z.of_N n < 2 ^ (Z.log2 (Z.of_N n) + 1)).
        { destruct (Z.eq_dec (Z.of_N n) 0) as [->|N0]; [reflexivity|]. apply Z.log2_spec. lia. }
        lia.
      + destruct (w =? 32); [|discriminate]. injection A as <-. rewrite L. cbn [andb]. eexists. split; [reflexivity|]. split; [reflexivity|exact Hn].
    - destruct (Z.of_N n <? two32) eqn:L; [|discriminate]. assert (Hn : (n < M32)%N) by (apply Z.ltb_lt in L; rewrite <- ofM32 in L; lia).
      eexists. split; [reflexivity|]. split; [apply obj_rep; assumption|exact Hn].
    - destruct (an e) as [b|] eqn:E; [|discriminate]. cbn [obind] in A. destruct (IH b eq_refl) as (v & Ev & R & L). rewrite Ev. cbn [obind].
      rewrite (tou_rep b v _ L R). eexists. split; [reflexivity|]. split; [|exact L].
      destruct b as [|[|] k]; [apply obj_rep; assumption| |apply obj_rep; assumption]. destruct ((k <=? 32) && (32 <? w)) eqn:K; [|apply obj_rep; assumption].
      apply andb_prop in K. destruct K as [K W32]. unfold load. rewrite W32. apply ai_inv in A. destruct A as [-> Hk].
      destruct (exact_rep _ v _ L R ltac:(exact K)) as [-> | ->]; [exact R|]. destruct R as (z & R & _). discriminate R.
    - destruct (an e) as [b|] eqn:E; [|discriminate]. cbn [obind] in A. destruct (IH b eq_refl) as (v & Ev & R & L). rewrite Ev. cbn [obind].
      eexists. split; [reflexivity|]. assert (L' : (not32 (neval env e) < M32)%N) by (apply wf_not32; exact L). split; [|exact L'].
      destruct b as [|nn k]; cbn [rep] in R.
      + injection A as <-. subst v. cbn [rep]. rewrite of_N_not32 by exact L. reflexivity.
      + apply ai_inv in A. destruct A as [-> Hk]. destruct R as (z & -> & Em & _ & Wz & _). exists (Z.lnot z). split; [reflexivity|]. split.
        * rewrite of_N_not32 by exact L. rewrite <- Em. rewrite two32_pow. apply Z.bits_inj'. intros i Hi. destruct (Z.lt_ge_cases i 32) as [Li|Li].
          -- rewrite !Z.mod_pow2_bits_low by exact Li. rewrite !Z.lnot_spec by exact Hi. rewrite Z.mod_pow2_bits_low by exact Li. reflexivity.
          -- rewrite !Z.mod_pow2_bits_high by lia. reflexivity.
        * split; [exact Hk|]. split; [|discriminate]. unfold within in *. unfold Z.lnot. lia.
    - destruct (an e) as [b|] eqn:E; [|discriminate]. cbn [obind] in A. destruct (IH b eq_refl) as (v & Ev & R & L). rewrite Ev. cbn [obind].
      destruct (tests b) eqn:T; [|discriminate]. eexists. split; [reflexivity|]. rewrite (zero_rep b v _ L R T). split; [apply truth_rep; exact A|apply b2w_lt].
    - destruct (an x) as [a1|] eqn:E1; [|discriminate]. destruct (an y) as [b1|] eqn:E2; [|discriminate].
      destruct (IHx a1 eq_refl) as (v1 & Ev1 & R1 & L1). destruct (IHy b1 eq_refl) as (v2 & Ev2 & R2 & L2). rewrite Ev1, Ev2. cbn [obind].
      assert (L : (N.land (neval env x) (neval env y) < M32)%N) by (apply wf_land; exact L1).
      destruct (arith_rep Z.land N.land _ a1 b1 a v1 v2 _ _ L1 L2 R1 R2 A) as (v & Ev & R).
      + rewrite of_N_land. apply (bits_of_N Z.land); [exact L1|exact L2|exact mod_land].
      + exact mod_land2.
      + clear. intros n j m k x y r Wx Wy Hj Hk Nx Ny E. destruct n, m; apply ai_inv in E; destruct E as [-> Hl].
        * exists true, (Z.min j k). split; [reflexivity|]. split; [exact Hl|]. pose proof (land_le x y (Nx eq_refl)). pose proof (land_le y x (Ny eq_refl)) as Y. rewrite Z.land_comm in Y.
          split; [|lia]. unfold within in *. destruct (Z.min_spec j k) as [[_ ->]|[_ ->]]; lia.
        * exists true, j. split; [reflexivity|]. split; [exact Hl|]. pose proof (land_le x y (Nx eq_refl)). split; [|lia]. unfold within in *. lia.
        * exists true, k. split; [reflexivity|]. split; [exact Hl|]. pose proof (land_le y x (Ny eq_refl)) as Y. rewrite Z.land_comm in Y. split; [|lia]. unfold within in *. lia.
        * exists false, (Z.max j k). split; [reflexivity|]. split; [exact Hl|]. split; [|discriminate].
          apply within_land; [lia| |]; [apply (within_le j); [lia|exact Wx]|apply (within_le k); [lia|exact Wy]].
      + exists v. auto.
    - destruct (an x) as [a1|] eqn:E1; [|discriminate]. destruct (an y) as [b1|] eqn:E2; [|discriminate].
      destruct (IHx a1 eq_refl) as (v1 & Ev1 & R1 & L1). destruct (IHy b1 eq_refl) as (v2 & Ev2 & R2 & L2). rewrite Ev1, Ev2. cbn [obind].
      assert (L : (N.lor (neval env x) (neval env y) < M32)%N) by (apply wf_lor; [exact L1|exact L2]).
      destruct (arith_rep Z.lor N.lor _ a1 b1 a v1 v2 _ _ L1 L2 R1 R2 A) as (v & Ev & R).
      + rewrite of_N_lor. apply (bits_of_N Z.lor); [exact L1|exact L2|exact mod_lor].
      + exact mod_lor2.
      + clear. intros n j m k x y r Wx Wy Hj Hk Nx Ny E. apply ai_inv in E; destruct E as [-> Hl].
        exists (n && m), (Z.max j k). split; [reflexivity|]. split; [exact Hl|]. split.
        * apply within_lor; [lia| |]; [apply (within_le j); [lia|exact Wx]|apply (within_le k); [lia|exact Wy]].
        * intros Q. apply andb_prop in Q. destruct Q as [Q1 Q2]. apply Z.lor_nonneg. auto.
      + exists v. auto.
    - destruct (an x) as [a1|] eqn:E1; [|discriminate]. destruct (an y) as [b1|] eqn:E2; [|discriminate].
      destruct (IHx a1 eq_refl) as (v1 & Ev1 & R1 & L1). destruct (IHy b1 eq_refl) as (v2 & Ev2 & R2 & L2). rewrite Ev1, Ev2. cbn [obind].
      assert (L : (N.lxor (neval env x) (neval env y) < M32)%N) by (apply wf_lxor; [exact L1|exact L2]).
      destruct (arith_rep Z.lxor N.lxor _ a1 b1 a v1 v2 _ _ L1 L2 R1 R2 A) as (v & Ev & R).
      + rewrite of_N_lxor. apply (bits_of_N Z.lxor); [exact L1|exact L2|exact mod_lxor].
      + exact mod_lxor2.
      + clear. intros n j m k x y r Wx Wy Hj Hk Nx Ny E. apply ai_inv in E; destruct E as [-> Hl].
        exists (n && m), (Z.max j k). split; [reflexivity|]. split; [exact Hl|]. split.
        * apply within_lxor; [lia| |]; [apply (within_le j); [lia|exact Wx]|apply (within_le k); [lia|exact Wy]].
        * intros Q. apply andb_prop in Q. destruct Q as [Q1 Q2]. apply Z.lxor_nonneg. split; auto.
      + exists v. auto.
    - destruct (an x) as [a1|] eqn:E1; [|discriminate]. destruct (an y) as [b1|] eqn:E2; [|discriminate].
      destruct (IHx a1 eq_refl) as (v1 & Ev1 & R1 & L1). destruct (IHy b1 eq_refl) as (v2 & Ev2 & R2 & L2). rewrite Ev1, Ev2. cbn [obind].
      destruct (arith_rep Z.add add32 _ a1 b1 a v1 v2 _ _ L1 L2 R1 R2 A) as (v & Ev & R).
      + apply of_N_add32.
      + intros p q. apply Zplus_mod.
      + clear. intros n j m k x y r Wx Wy Hj Hk Nx Ny E. apply ai_inv in E; destruct E as [-> Hl].
        exists (n && m), (Z.max j k + 1). split; [reflexivity|]. split; [exact Hl|]. destruct (max_within j k x y Hj Hk Wx Wy) as [A B]. split.
        * unfold within in *. rewrite Z.pow_add_r by lia. change (2 ^ 1) with 2. lia.
        * intros Q. apply andb_prop in Q. destruct Q as [Q1 Q2]. specialize (Nx Q1). specialize (Ny Q2). lia.
      + exists v. split; [exact Ev|]. split; [exact R|]. apply wf_add32.
    - destruct (an x) as [a1|] eqn:E1; [|discriminate]. destruct (an y) as [b1|] eqn:E2; [|discriminate].
      destruct (IHx a1 eq_refl) as (v1 & Ev1 & R1 & L1). destruct (IHy b1 eq_refl) as (v2 & Ev2 & R2 & L2). rewrite Ev1, Ev2. cbn [obind].
      destruct (arith_rep Z.sub sub32 _ a1 b1 a v1 v2 _ _ L1 L2 R1 R2 A) as (v & Ev & R).
      + apply of_N_sub32.
      + intros p q. apply Zminus_mod.
      + clear. intros n j m k x y r Wx Wy Hj Hk Nx Ny E. apply ai_inv in E; destruct E as [-> Hl].
        exists false, (Z.max j k + 1). split; [reflexivity|]. split; [exact Hl|]. destruct (max_within j k x y Hj Hk Wx Wy) as [A B]. split; [|discriminate].
        unfold within in *. rewrite Z.pow_add_r by lia. change (2 ^ 1) with 2. lia.
      + exists v. split; [exact Ev|]. split; [exact R|]. apply wf_sub32.
    - destruct (an x) as [a1|] eqn:E1; [|discriminate]. cbn [obind] in A. destruct (cst y) as [c|] eqn:C; [|discriminate]. cbn [obind] in A.
      destruct (0 <=? c) eqn:C0; [|discriminate]. apply Z.leb_le in C0. destruct (cst_ok y c C C0) as [Ey Ny].
      destruct (IHx a1 eq_refl) as (v1 & Ev1 & R1 & L1). rewrite Ev1, Ey. cbn [obind]. assert (L : (shl32 (neval env x) (neval env y) < M32)%N) by apply wf_shl32.
      destruct a1 as [|nn k]; cbn [rep] in R1.
      + destruct (c <? 32) eqn:C32; [|discriminate]. injection A as <-. subst v1. unfold shl. replace (0 <=? c) with true by (symmetry; apply Z.leb_le; exact C0).
        rewrite C32. cbn [andb]. eexists. split; [reflexivity|]. split; [|exact L]. cbn [rep]. rewrite of_N_shl32, Ny. reflexivity.
      + destruct nn; [|discriminate]. destruct (c <? w) eqn:Cw; [|discriminate]. cbn [andb] in A. apply ai_inv in A. destruct A as [-> Hk].
        destruct R1 as (z & -> & Em & K1 & Wz & Nz). specialize (Nz eq_refl). unfold shl. replace (0 <=? c) with true by (symmetry; apply Z.leb_le; exact C0).
        rewrite Cw. replace (0 <=? z) with true by (symmetry; apply Z.leb_le; exact Nz). cbn [andb].
        assert (P : 0 < 2 ^ c) by (apply Z.pow_pos_nonneg; lia).
        assert (W : within (k + c) (z * 2 ^ c)).
        { unfold within in *. rewrite Z.pow_add_r by lia. split; [|apply Z.mul_lt_mono_pos_r; lia].
          pose proof (Z.mul_nonneg_nonneg z (2 ^ c) Nz ltac:(lia)). pose proof (Z.mul_nonneg_nonneg (2 ^ k) (2 ^ c) ltac:(lia) ltac:(lia)). lia. }
        rewrite (int_ok _ _ Hk W). eexists. split; [reflexivity|]. split; [|exact L]. exists (z * 2 ^ c). split; [reflexivity|]. split.
        * rewrite of_N_shl32, Ny, <- Em, Zmult_mod_idemp_l. reflexivity.
        * split; [exact Hk|]. split; [exact W|]. intros _. apply Z.mul_nonneg_nonneg; lia.
    - destruct (an x) as [a1|] eqn:E1; [|discriminate]. cbn [obind] in A. destruct (cst y) as [c|] eqn:C; [|discriminate]. cbn [obind] in A.
      destruct (0 <=? c) eqn:C0; [|discriminate]. apply Z.leb_le in C0. destruct (cst_ok y c C C0) as [Ey Ny].
      destruct (IHx a1 eq_refl) as (v1 & Ev1 & R1 & L1). rewrite Ev1, Ey. cbn [obind].
      assert (P : 0 < 2 ^ c) by (apply Z.pow_pos_nonneg; lia).
      assert (L : (shr32 (neval env x) (neval env y) < M32)%N) by (apply wf_shr32; exact L1).
      assert (C1 : (0 <=? c) = true) by (apply Z.leb_le; exact C0).
      destruct a1 as [|nn k].
      + cbn [rep] in R1. destruct (c <? 32) eqn:C32; [|discriminate]. injection A as <-. subst v1. unfold shr. rewrite C1, C32. cbn [andb]. eexists. split; [reflexivity|].
        split; [|exact L]. cbn [rep]. rewrite of_N_shr32, Ny. reflexivity.
      + destruct (exact_ (AI nn k)) eqn:X; [|discriminate]. destruct (c <? w) eqn:Cw; [|discriminate]. cbn [andb] in A. apply ai_inv in A. destruct A as [-> Hk].
        pose proof (exact_rep _ _ _ L1 R1 X) as Ex. destruct R1 as (z & -> & Em & K1 & Wz & Nz). destruct Ex as [Ex|Ex]; [|discriminate Ex]. injection Ex as ->.
        unfold shr. rewrite C1, Cw. replace (0 <=? Z.of_N (neval env x)) with true by (symmetry; apply Z.leb_le; lia). cbn [andb].
        eexists. split; [reflexivity|]. split; [|exact L].
        exists (Z.of_N (neval env x) / 2 ^ c). split; [reflexivity|]. rewrite <- Ny, <- of_N_shr32. split; [apply mod_small_N; exact L|]. split; [exact Hk|]. split; [|lia].
        rewrite of_N_shr32, Ny. unfold within in *. pose proof (Z.div_pos (Z.of_N (neval env x)) (2 ^ c) ltac:(lia) P).
        pose proof (Z.div_le_upper_bound (Z.of_N (neval env x)) (2 ^ c) (Z.of_N (neval env x)) P ltac:(nia)). lia.
    - destruct (an x) as [a1|] eqn:E1; [|discriminate]. destruct (an y) as [b1|] eqn:E2; [|discriminate]. cbn [obind] in A.
      destruct (IHx a1 eq_refl) as (v1 & Ev1 & R1 & L1). destruct (IHy b1 eq_refl) as (v2 & Ev2 & R2 & L2). rewrite Ev1, Ev2. cbn [obind].
      destruct (exact_ a1) eqn:X1; [|discriminate]. destruct (exact_ b1) eqn:X2; [|discriminate]. cbn [andb] in A.
      eexists. split; [reflexivity|]. split; [|apply b2w_lt].
      assert (Q : differ v1 v2 = negb (neval env x =? neval env y)%N).
      { assert (Q : forall p q : N, (Z.of_N p =? Z.of_N q) = (p =? q)%N) by (intros p q; destruct (N.eqb_spec p q) as [->|D]; [apply Z.eqb_refl|apply Z.eqb_neq; lia]).
        destruct (exact_rep _ _ _ L1 R1 X1) as [-> | ->], (exact_rep _ _ _ L2 R2 X2) as [-> | ->]; cbn [differ tou]; rewrite ?mod_small_N by assumption; rewrite Q; reflexivity. }
      rewrite Q. apply truth_rep. exact A.
    - destruct (an x) as [a1|] eqn:E1; [|discriminate]. destruct (an y) as [b1|] eqn:E2; [|discriminate]. cbn [obind] in A.
      destruct (IHx a1 eq_refl) as (v1 & Ev1 & R1 & L1). destruct (IHy b1 eq_refl) as (v2 & Ev2 & R2 & L2). rewrite Ev1. cbn [obind].
      destruct (tests a1) eqn:T1; [|discriminate]. destruct (tests b1) eqn:T2; [|discriminate]. cbn [andb] in A.
      rewrite (zero_rep a1 v1 _ L1 R1 T1), Ev2. cbn [obind]. rewrite (zero_rep b1 v2 _ L2 R2 T2). destruct (neval env x =? 0)%N; cbn [negb orb].
      + eexists. split; [reflexivity|]. split; [apply truth_rep; exact A|apply b2w_lt].
      + eexists. split; [reflexivity|]. split; [exact (truth_rep true a A)|reflexivity].
  Qed.
  Corollary an_assigned e a : an e = Some a -> assigned w env e = Some (neval env e) /\ (neval env e < M32)%N.
  Proof.
    intros A. destruct (an_ok e a A) as (v & Ev & R & L). unfold assigned. rewrite Ev. cbn [obind]. rewrite (tou_rep a v _ L R), N2Z.id. auto.
  Qed.
  Corollary an_condition e a : an e = Some a -> tests a = true -> condition w env e = Some (negb (neval env e =? 0)%N).
  Proof.
    intros A T. destruct (an_ok e a A) as (v & Ev & R & L). unfold condition. rewrite Ev. cbn [obind]. rewrite (zero_rep a v _ L R T). reflexivity.
  Qed.
End Analysis.

(** * An int of more bits *)
Lemma ai_mono v w nn k a : v <= w -> ai v nn k = Some a -> ai w nn k = Some a.
Proof.
  intros H. unfold ai. destruct (_ && _) eqn:E; [|discriminate]. intros X. injection X as <-.
  replace (_ && _) with true; [reflexivity|]. symmetry. apply andb_true_intro. split; [apply Z.leb_le|apply Z.leb_le]; lia.
Qed.
Lemma a2_mono f g x y a b r : (forall n j m k r, f n j m k = Some r -> g n j m k = Some r) ->
  (forall r, x = Some r -> a = Some r) -> (forall r, y = Some r -> b = Some r) -> a2 f x y = Some r -> a2 g a b = Some r.
Proof.
  intros F A B. unfold a2. destruct x as [x|]; [|discriminate]. destruct y as [y|]; [|discriminate]. rewrite (A x eq_refl), (B y eq_refl). cbn [obind].
  destruct x; [auto|]. destruct y; [auto|]. apply F.
Qed.
Lemma an_mono v w : 63 <= v <= w -> forall e a, an v e = Some a -> an w e = Some a.
Proof.
  intros H. assert (M : forall nn k a, ai v nn k = Some a -> ai w nn k = Some a) by (intros nn k a; apply ai_mono; lia).
  assert (O : forall a, aobj v = Some a -> aobj w = Some a).
  { unfold aobj. replace (32 <? v) with true by (symmetry; apply Z.ltb_lt; lia). replace (32 <? w) with true by (symmetry; apply Z.ltb_lt; lia). apply M. }
  induction e as [k|n|n|e IH|e IH|e IH|x IHx y IHy|x IHx y IHy|x IHx y IHy|x IHx y IHy|x IHx y IHy|x IHx y IHy|x IHx y IHy|x IHx y IHy|x IHx y IHy];
    intros a; cbn [an].
  - apply O.
  - cbv zeta. destruct (Z.of_N n <? two32) eqn:L; [|discriminate]. apply Z.ltb_lt in L.
    assert (P : forall u, 63 <= u -> (Z.of_N n <? 2 ^ (u - 1)) = true).
    { intros u Hu. apply Z.ltb_lt. pose proof (Z.pow_le_mono_r 2 32 (u - 1) ltac:(lia) ltac:(lia)). change (2 ^ 32) with two32 in *. lia. }
    rewrite !P by lia. apply M.
  - destruct (Z.of_N n <? two32); [apply O|discriminate].
  - destruct (an v e) as [b|]; [|discriminate]. rewrite (IH b eq_refl). cbn [obind]. destruct b as [|[|] k]; [apply O| |apply O].
    replace (32 <? v) with true by (symmetry; apply Z.ltb_lt; lia). replace (32 <? w) with true by (symmetry; apply Z.ltb_lt; lia).
    destruct (_ && _); [apply M|apply O].
  - destruct (an v e) as [b|]; [|discriminate]. rewrite (IH b eq_refl). cbn [obind]. destruct b; [auto|apply M].
  - destruct (an v e) as [b|]; [|discriminate]. rewrite (IH b eq_refl). cbn [obind]. destruct (tests b); [apply M|discriminate].
  - apply a2_mono; [|exact IHx|exact IHy]. intros n j m k r. destruct n, m; apply M.
  - apply a2_mono; [|exact IHx|exact IHy]. intros n j m k r. apply M.
  - apply a2_mono; [|exact IHx|exact IHy]. intros n j m k r. apply M.
  - apply a2_mono; [|exact IHx|exact IHy]. intros n j m k r. apply M.
  - apply a2_mono; [|exact IHx|exact IHy]. intros n j m k r. apply M.
  - destruct (an v x) as [b|]; [|discriminate]. rewrite (IHx b eq_refl). cbn [obind]. destruct (cst y) as [c|]; [|discriminate]. cbn [obind].
    destruct (0 <=? c); [|discriminate]. destruct b as [|n k]; [auto|]. destruct n; [|discriminate]. cbn [andb]. destruct (Z.ltb_spec c v); [|discriminate].
    replace (c <? w) with true by (symmetry; apply Z.ltb_lt; lia). apply M.
  - destruct (an v x) as [b|]; [|discriminate]. rewrite (IHx b eq_refl). cbn [obind]. destruct (cst y) as [c|]; [|discriminate]. cbn [obind].
    destruct (0 <=? c); [|discriminate]. destruct b as [|n k]; [auto|]. destruct (exact_ _); [|discriminate]. cbn [andb]. destruct (Z.ltb_spec c v); [|discriminate].
    replace (c <? w) with true by (symmetry; apply Z.ltb_lt; lia). apply M.
  - destruct (an v x) as [b|]; [|discriminate]. rewrite (IHx b eq_refl). cbn [obind]. destruct (an v y) as [c|]; [|discriminate]. rewrite (IHy c eq_refl). cbn [obind].
    destruct (_ && _); [apply M|discriminate].
  - destruct (an v x) as [b|]; [|discriminate]. rewrite (IHx b eq_refl). cbn [obind]. destruct (an v y) as [c|]; [|discriminate]. rewrite (IHy c eq_refl). cbn [obind].
    destruct (_ && _); [apply M|discriminate].
Qed.

(** The widths of int considered. *)
Definition wide_int (w : Z) : Prop := w = 32 \/ 63 <= w.
Definition both (e : cexp) : bool := match an 32 e, an 63 e with Some _, Some _ => true | _, _ => false end.
Definition both_tests (e : cexp) : bool := match an 32 e, an 63 e with Some a, Some b => tests a && tests b | _, _ => false end.
Lemma both_ok w env e : wide_int w -> (forall k, (env k < M32)%N) -> both e = true -> assigned w env e = Some (neval env e) /\ (neval env e < M32)%N.
Proof.
  unfold both. intros Hw He B. destruct (an 32 e) as [a|] eqn:A; [|discriminate]. destruct (an 63 e) as [b|] eqn:A'; [|discriminate]. destruct Hw as [->|Hw].
  - exact (an_assigned 32 ltac:(lia) env He e a A).
  - exact (an_assigned w ltac:(lia) env He e b (an_mono 63 w ltac:(lia) e b A')).
Qed.
Lemma both_tests_ok w env e : wide_int w -> (forall k, (env k < M32)%N) -> both_tests e = true -> condition w env e = Some (negb (neval env e =? 0)%N).
Proof.
  unfold both_tests. intros Hw He B. destruct (an 32 e) as [a|] eqn:A; [|discriminate]. destruct (an 63 e) as [b|] eqn:A'; [|discriminate].
  apply andb_prop in B. destruct B as [Ta Tb]. destruct Hw as [->|Hw].
  - exact (an_condition 32 ltac:(lia) env He e a A Ta).
  - exact (an_condition w ltac:(lia) env He e b (an_mono 63 w ltac:(lia) e b A') Tb).
Qed.

(** * ubc_check *)
Fixpoint checked (p : cprog) : bool :=
  match p with
  | TEnd => true
  | TAnd e r => both (EAnd (EV 80) e) && checked r
  | TIf c b r => both_tests c && checked b && checked r
  end.
Lemma ubc_checked : checked ubc_typed = true.
Proof. vm_compute. reflexivity. Qed.

(** The program without types. *)
Fixpoint erase (e : cexp) : option uexp :=
  match e with
  | EV k => Some (if (k <? 80)%N then UW (N.to_nat k) else UMask)
  | EL n | EO n => Some (UC n)
  | ECast _ | EAdd _ _ => None
  | ENot e => do x <- erase e; Some (UNot x)
  | ELNot e => do x <- erase e; Some (ULNot x)
  | EAnd x y => do a <- erase x; do b <- erase y; Some (UAnd a b)
  | EOr x y => do a <- erase x; do b <- erase y; Some (UOr a b)
  | EXor x y => do a <- erase x; do b <- erase y; Some (UXor a b)
  | ESub x y => do a <- erase x; do b <- erase y; Some (USub a b)
  | EShl x y => do a <- erase x; do b <- erase y; Some (UShl a b)
  | EShr x y => do a <- erase x; do b <- erase y; Some (UShr a b)
  | ENe x y => do a <- erase x; do b <- erase y; Some (UNe a b)
  | ELor x y => do a <- erase x; do b <- erase y; Some (ULor a b)
  end.
Fixpoint erasep (p : cprog) : option prog :=
  match p with
  | TEnd => Some PEnd
  | TAnd e r => do x <- erase e; do q <- erasep r; Some (PAnd x q)
  | TIf c b r => do x <- erase c; do y <- erasep b; do q <- erasep r; Some (PIf x y q)
  end.
Lemma ubc_erased : erasep ubc_typed = Some ubc_prog_c.
Proof. vm_compute. reflexivity. Qed.
Ltac er := repeat match goal with
  | H : obind ?x _ = Some _ |- _ => let E := fresh "E" in destruct x eqn:E; [cbn [obind] in H|discriminate H]
  | H : Some _ = Some _ |- _ => injection H as <-
  | IH : forall u, Some ?x = Some u -> _ |- _ => specialize (IH x eq_refl)
  end.
Lemma erase_ok W mask : forall e u, erase e = Some u -> ueval W mask u = neval (objects W mask) e.
Proof.
  induction e as [k|n|n|e IH|e IH|e IH|x IHx y IHy|x IHx y IHy|x IHx y IHy|x IHx y IHy|x IHx y IHy|x IHx y IHy|x IHx y IHy|x IHx y IHy|x IHx y IHy];
    intros u Eu; cbn [erase] in Eu; try discriminate Eu; er; cbn [ueval neval]; try congruence.
  unfold objects. destruct (k <? 80)%N; reflexivity.
Qed.
Lemma crun_ok w W (Hw : wide_int w) (HW : forall i, (nth i W 0 < M32)%N) : forall p q mask, (mask < M32)%N -> checked p = true -> erasep p = Some q ->
  crun w W p mask = Some (urun W q mask) /\ (urun W q mask < M32)%N.
Proof.
  assert (HO : forall mask, (mask < M32)%N -> forall k, (objects W mask k < M32)%N) by (intros mask Hm k; unfold objects; destruct (k <? 80)%N; auto).
  induction p as [|e r IH|c b IHb r IHr]; intros q mask Hm C E; cbn [checked erasep] in C, E.
  - injection E as <-. cbn [crun urun]. auto.
  - destruct (erase e) as [x|] eqn:Ex; [|discriminate]. destruct (erasep r) as [s|] eqn:Er; [|discriminate]. injection E as <-. apply andb_prop in C. destruct C as [C1 C2].
    cbn [crun urun]. destruct (both_ok w (objects W mask) _ Hw (HO mask Hm) C1) as [A L]. rewrite A. cbn [obind]. cbn [neval] in L |- *.
    change (objects W mask 80) with mask in *. rewrite (erase_ok W mask e x Ex). apply IH; [exact L|exact C2|reflexivity].
  - destruct (erase c) as [x|] eqn:Ex; [|discriminate]. destruct (erasep b) as [s|] eqn:Es; [|discriminate]. destruct (erasep r) as [t|] eqn:Et; [|discriminate]. injection E as <-.
    apply andb_prop in C. destruct C as [C C3]. apply andb_prop in C. destruct C as [C1 C2].
    cbn [crun urun]. rewrite (both_tests_ok w (objects W mask) c Hw (HO mask Hm) C1). cbn [obind]. rewrite (erase_ok W mask c x Ex).
    destruct (neval (objects W mask) c =? 0)%N; cbn [negb].
    + cbn [obind]. apply IHr; [exact Hm|exact C3|reflexivity].
    + destruct (IHb s mask Hm C2 eq_refl) as [A L]. rewrite A. cbn [obind]. apply IHr; [exact L|exact C3|reflexivity].
Qed.
