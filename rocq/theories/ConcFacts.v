(** Calls that run at the same time do what they do alone. *)

From Coq Require Import Arith NArith List Strings.Byte Bool Lia ZifyNat.
From Verif Require Import Word Spec_Sha1 Model_Go Model_Asm Model_Amd64 Model_Arm64 Model_Trace Model_Conc Spec_Conc.
Import ListNotations.
Local Open Scope N_scope.
Ltac Zify.zify_post_hook ::= idtac.

(** * Memory *)
Lemma inside_range a n r x : inside a n r = true -> a <= x < a + n -> in_range x r.
Proof. unfold inside, in_range. intros H X. apply andb_prop in H. destruct H as [A B]. apply N.leb_le in A, B. lia. Qed.
Lemma agree_rd L m m' a n : agree L m m' -> rd (regions L) m a n = rd (regions L) m' a n.
Proof.
  intros G. unfold rd. destruct (readable (regions L) a (N.of_nat n)) eqn:R; [|reflexivity]. f_equal.
  unfold readable in R. apply existsb_exists in R. destruct R as (r & Hr & R). unfold peek. apply map_ext_in. intros i Hi.
  apply in_seq in Hi. apply (G _ r Hr). apply (inside_range _ _ _ _ R). lia.
Qed.
Definition out_writable (L : layout) (a : N) : Prop := forall r, In r (regions L) -> rwrite r = true -> ~ in_range a r.
Lemma poke_out m a l x : ~ (a <= x < a + N.of_nat (length l)) -> poke m a l x = m x.
Proof.
  intros H. unfold poke. destruct (N.leb_spec a x), (N.ltb_spec x (a + N.of_nat (length l))); cbn [andb]; try reflexivity. lia.
Qed.
Lemma agree_wr L m m' a l m1 : agree L m m' -> wr (regions L) m' a l = Some m1 ->
  exists m2, wr (regions L) m a l = Some m2 /\ agree L m2 m1 /\ forall x, out_writable L x -> m2 x = m x.
Proof.
  intros G. unfold wr. destruct (writable (regions L) a (N.of_nat (length l))) eqn:W; [|discriminate]. intros E. injection E as <-.
  eexists. split; [reflexivity|]. split.
  - intros x r Hr Hx. unfold poke. destruct ((a <=? x) && (x <? a + N.of_nat (length l))); [reflexivity|]. exact (G _ _ Hr Hx).
  - intros x Hx. unfold writable in W. apply existsb_exists in W. destruct W as (r & Hr & W). apply andb_prop in W. destruct W as [Hw W].
    apply poke_out. intros X. exact (Hx r Hr Hw (inside_range _ _ _ _ W X)).
Qed.

(** * One turn depends only on the ranges of the layout *)
Lemma step_frame L i s m s' : agree L m (mm s) -> step_instr L i s = Some s' ->
  exists t, step_instr L i (with_mem m s) = Some t /\ (forall n, with_mem n t = with_mem n s') /\ agree L (mm t) (mm s') /\
    forall x, out_writable L x -> mm t x = m x.
Proof.
  intros G E.
  assert (Ad : forall a, addr L (with_mem m s) a = addr L s a) by reflexivity.
  assert (R : forall a n, rd (regions L) (mm (with_mem m s)) a n = rd (regions L) (mm s) a n) by (intros; apply agree_rd; exact G).
  assert (VG : forall v, vget L (with_mem m s) v = vget L s v).
  { intros [x|a]; [reflexivity|]. cbn [vget]. unfold load128a, load128. rewrite Ad, R. reflexivity. }
  assert (ST : forall a l, store L s a l = Some s' ->
    exists t, store L (with_mem m s) a l = Some t /\ (forall n, with_mem n t = with_mem n s') /\ agree L (mm t) (mm s') /\
      forall x, out_writable L x -> mm t x = m x).
  { intros a l. unfold store. rewrite Ad. destruct (wr (regions L) (mm s) (addr L s a) l) as [m1|] eqn:W; [|discriminate].
    cbn [obind]. intros X. injection X as <-. destruct (agree_wr L m (mm s) _ _ _ G W) as (m2 & W2 & G2 & O2).
    cbn [with_mem mm]. rewrite W2. cbn [obind]. eexists. split; [reflexivity|]. repeat split; assumption. }
  destruct i; cbn [step_instr] in E |- *; try discriminate E; try (exact (ST _ _ E));
    try (injection E as <-; eexists; split; [reflexivity|]; split; [reflexivity|]; split; [exact G|reflexivity]);
    try (unfold load32, load64, load128 in E |- *; rewrite ?R, ?VG; rewrite ?Ad;
         match type of E with obind ?x _ = _ => destruct x; [|discriminate E] end; cbn [obind] in E |- *;
         injection E as <-; eexists; split; [reflexivity|]; split; [reflexivity|]; split; [exact G|reflexivity]).
  - injection E as <-. cbn [with_mem zf]. destruct (zf s); (eexists; split; [reflexivity|]; split; [reflexivity|]; split; [exact G|reflexivity]).
  - injection E as <-. cbn [with_mem zf]. destruct (zf s); (eexists; split; [reflexivity|]; split; [reflexivity|]; split; [exact G|reflexivity]).
  - rewrite Ad. destruct (aligned (addr L s a)); [exact (ST _ _ E)|discriminate E].
Qed.
Lemma turn_frame prog L s m s' : agree L m (mm s) -> turn prog L s = Some s' ->
  exists t, turn prog L (with_mem m s) = Some t /\ (forall n, with_mem n t = with_mem n s') /\ agree L (mm t) (mm s') /\
    forall x, out_writable L x -> mm t x = m x.
Proof.
  intros G. unfold turn. cbn [with_mem pc]. destruct (nth_error prog (pc s)) as [i|]; [|discriminate]. intros E.
  assert (X : i = RET \/ step_instr L i s = Some s') by (destruct i; auto). destruct X as [->|X].
  - injection E as <-. eexists. split; [reflexivity|]. split; [reflexivity|]. split; [exact G|reflexivity].
  - destruct (step_frame L i s m s' G X) as (t & Et & H). exists t. split; [|exact H]. destruct i; try exact Et. discriminate X.
Qed.
Lemma xstep_frame L i s m s' : agree L m (xm s) -> xstep L i s = Some s' ->
  exists t, xstep L i (xwith_mem m s) = Some t /\ (forall n, xwith_mem n t = xwith_mem n s') /\ agree L (xm t) (xm s') /\
    forall x, out_writable L x -> xm t x = m x.
Proof.
  intros G E.
  assert (R : forall a n, rd (regions L) (xm (xwith_mem m s)) a n = rd (regions L) (xm s) a n) by (intros; apply agree_rd; exact G).
  destruct i; cbn [xstep] in E |- *; try discriminate E;
    try (injection E as <-; eexists; split; [reflexivity|]; split; [reflexivity|]; split; [exact G|reflexivity]);
    try (rewrite ?R; cbn [xwith_mem xg xv xls];
         match type of E with obind (rd ?a ?b ?c ?d) _ = _ => destruct (rd a b c d); [|discriminate E] end; cbn [obind] in E |- *;
         injection E as <-; eexists; split; [reflexivity|]; split; [reflexivity|]; split; [exact G|reflexivity]);
    try (match type of E with obind (wr ?a ?b ?c ?d) _ = _ => destruct (wr a b c d) as [m1|] eqn:W; [|discriminate E] end; cbn [obind] in E |- *;
         injection E as <-; destruct (agree_wr L m (xm s) _ _ _ G W) as (m2 & W2 & G2 & O2);
         cbn [xwith_mem xm xg xv]; rewrite W2; cbn [obind]; eexists; split; [reflexivity|]; repeat split; assumption).
  injection E as <-. cbn [xwith_mem xls]. destruct (xls s); (eexists; split; [reflexivity|]; split; [reflexivity|]; split; [exact G|reflexivity]).
Qed.
Lemma xturn_frame prog L s m s' : agree L m (xm s) -> xturn prog L s = Some s' ->
  exists t, xturn prog L (xwith_mem m s) = Some t /\ (forall n, xwith_mem n t = xwith_mem n s') /\ agree L (xm t) (xm s') /\
    forall x, out_writable L x -> xm t x = m x.
Proof.
  intros G. unfold xturn. cbn [xwith_mem xpc]. destruct (nth_error prog (xpc s)) as [i|]; [|discriminate]. intros E.
  assert (X : i = ARET \/ xstep L i s = Some s') by (destruct i; auto). destruct X as [->|X].
  - injection E as <-. eexists. split; [reflexivity|]. split; [reflexivity|]. split; [exact G|reflexivity].
  - destruct (xstep_frame L i s m s' G X) as (t & Et & H). exists t. split; [|exact H]. destruct i; try exact Et. discriminate X.
Qed.

(** * Many calls *)
Section Many.
  Variable core : Type.
  Variable view : core -> mem.
  Variable see : mem -> core -> core.
  Variable step : layout -> core -> option core.
  Hypothesis see_see : forall m n c, see m (see n c) = see m c.
  Hypothesis frame : forall L s m s', agree L m (view s) -> step L s = Some s' ->
    exists t, step L (see m s) = Some t /\ (forall n, see n t = see n s') /\ agree L (view t) (view s') /\
      forall x, out_writable L x -> view t x = m x.

  (** A call alone. *)
  Fixpoint alone (n : nat) (L : layout) (c : core) : option core :=
    match n with
    | O => Some c
    | S n => do c <- step L c; alone n L c
    end.

  Lemma put_nth {A} (l : list A) : forall k x j, nth_error (put k x l) j = if (j =? k)%nat then (match nth_error l k with Some _ => Some x | None => None end) else nth_error l j.
  Proof.
    induction l as [|y l IH]; intros [|k] x [|j]; cbn [put nth_error Nat.eqb]; try reflexivity.
    - destruct (_ =? _)%nat; reflexivity.
    - apply IH.
  Qed.

  (** ts: what the calls have done together, us: what they have done alone. *)
  Definition tied (ls : list layout) (ts : list (layout * core)) (m : mem) (us : list core) : Prop :=
    length us = length ls /\ length ts = length ls /\
    forall k L u, nth_error ls k = Some L -> nth_error us k = Some u ->
      exists t, nth_error ts k = Some (L, t) /\ see m t = see m u /\ agree L m (view u).

  Lemma agree_out L L' m m' n : separate L L' -> agree L' m n -> (forall x, out_writable L x -> m' x = m x) -> agree L' m' n.
  Proof.
    intros Sp G O a r Hr Ha. rewrite O; [apply (G a r Hr Ha)|]. intros r' Hr' Hw Ha'. specialize (Sp r' r Hr' Hr (or_introl Hw)).
    unfold apart, in_range in *. lia.
  Qed.
  Lemma conc_ok ls (Hls : pairwise ls) : forall ev ts m us, tied ls ts m us ->
    (forall L, In L ls -> undisturbed L ev) ->
    (forall k L u, nth_error ls k = Some L -> nth_error us k = Some u -> alone (turns k ev) L u <> None) ->
    exists S, conc core view see step ev (mksys _ ts m) = Some S /\
      (forall k L u, nth_error ls k = Some L -> nth_error us k = Some u -> exists u', alone (turns k ev) L u = Some u' /\ agree L (shared _ S) (view u')) /\
      (forall a, (forall L, In L ls -> out_writable L a) -> (forall b, ~ In (Store a b) ev) -> shared _ S a = m a).
  Proof.
    induction ev as [|e ev IH]; intros ts m us (Lu & Lt & T) Q F.
    - eexists. split; [reflexivity|]. split; [|reflexivity]. intros k L u Hk Hu. exists u. split; [reflexivity|].
      destruct (T k L u Hk Hu) as (t & _ & _ & G). exact G.
    - assert (Q' : forall L, In L ls -> undisturbed L ev) by (intros L HL a b r Hin; apply (Q L HL a b r); right; exact Hin).
      cbn [conc]. destruct e as [k|a b]; cbn [happen cores shared].
      + destruct (nth_error ls k) as [L|] eqn:HL.
        * assert (Hu : exists u, nth_error us k = Some u).
          { destruct (nth_error us k) eqn:E; [eauto|]. apply nth_error_None in E. assert (k < length ls)%nat by (apply nth_error_Some; congruence). lia. }
          destruct Hu as (u & Hu). destruct (T k L u HL Hu) as (t & Ht & Se & G). rewrite Ht.
          pose proof (F k L u HL Hu) as Fk. cbn [turns] in Fk. rewrite Nat.eqb_refl in Fk. cbn [alone Nat.add] in Fk.
          destruct (step L u) as [u1|] eqn:Eu; [|exfalso; apply Fk; reflexivity]. cbn [obind] in Fk.
          destruct (frame L u m u1 G Eu) as (t1 & Et & Se1 & G1 & O1). rewrite Se, Et. cbn [obind].
          assert (T1 : tied ls (put k (L, t1) ts) (view t1) (put k u1 us)).
          { assert (LP : forall A (x : A) l j, length (put j x l) = length l).
            { intros A x l. induction l as [|y l IHl]; intros [|j]; cbn [put length]; auto. }
            split; [rewrite LP; exact Lu|]. split; [rewrite LP; exact Lt|]. intros j L' v HL' Hv. rewrite put_nth in Hv. rewrite put_nth.
            destruct (Nat.eqb_spec j k) as [->|Hjk].
            - rewrite Hu in Hv. injection Hv as <-. rewrite HL in HL'. injection HL' as <-. rewrite Ht. eauto.
            - destruct (T j L' v HL' Hv) as (t' & Ht' & Se' & G'). exists t'. split; [exact Ht'|]. split.
              + rewrite <- (see_see _ m t'), Se', see_see. reflexivity.
              + exact (agree_out L L' m (view t1) (view v) (Hls k j L L' (not_eq_sym Hjk) HL HL') G' O1). }
          destruct (IH _ _ _ T1 Q') as (S & ES & RS & OS).
          { intros j L' v HL' Hv. rewrite put_nth in Hv. destruct (Nat.eqb_spec j k) as [->|Hjk].
            - rewrite Hu in Hv. injection Hv as <-. rewrite HL in HL'. injection HL' as <-. exact Fk.
            - specialize (F j L' v HL' Hv). cbn [turns] in F. destruct (Nat.eqb_spec k j); [congruence|]. exact F. }
          exists S. split; [exact ES|]. split.
          { intros j L' v HL' Hv. cbn [turns]. destruct (Nat.eqb_spec k j) as [<-|Hkj].
            - rewrite Hu in Hv. injection Hv as <-. rewrite HL in HL'. injection HL' as <-. cbn [Nat.add alone]. rewrite Eu. cbn [obind].
              apply (RS k L u1 HL). rewrite put_nth, Nat.eqb_refl, Hu. reflexivity.
            - apply (RS j L' v HL'). rewrite put_nth. destruct (Nat.eqb_spec j k); [congruence|]. exact Hv. }
          { intros a Ha Hb. rewrite OS; [|exact Ha|intros b Hin; apply (Hb b); right; exact Hin]. apply O1. apply Ha. exact (nth_error_In _ _ HL). }
        * assert (Ht : nth_error ts k = None) by (apply nth_error_None; apply nth_error_None in HL; lia). rewrite Ht. cbn [obind].
          destruct (IH ts m us (conj Lu (conj Lt T)) Q') as (S & ES & RS & OS).
          { intros j L' v HL' Hv. specialize (F j L' v HL' Hv). cbn [turns] in F. destruct (Nat.eqb_spec k j); [congruence|]. exact F. }
          exists S. split; [exact ES|]. split.
          { intros j L' v HL' Hv. cbn [turns]. destruct (Nat.eqb_spec k j); [congruence|]. exact (RS j L' v HL' Hv). }
          { intros a Ha Hb. apply OS; [exact Ha|]. intros b Hin. apply (Hb b). right. exact Hin. }
      + cbn [obind]. destruct (IH ts (poke m a [b]) us) as (S & ES & RS & OS).
        { split; [exact Lu|]. split; [exact Lt|]. intros k L u HL Hu. destruct (T k L u HL Hu) as (t & Ht & Se & G). exists t. split; [exact Ht|]. split.
          - rewrite <- (see_see _ m t), Se, see_see. reflexivity.
          - intros x r Hr Hx. rewrite poke_out; [exact (G x r Hr Hx)|]. cbn [length]. intros X. assert (x = a) by lia. subst x.
            apply (Q L (nth_error_In _ _ HL) a b r); [left; reflexivity|exact Hr|exact Hx]. }
        { exact Q'. }
        { exact F. }
        exists S. split; [exact ES|]. split; [exact RS|]. intros x Hx Hb. rewrite OS; [|exact Hx|intros c Hin; apply (Hb c); right; exact Hin].
        apply poke_out. cbn [length]. intros X. apply (Hb b). left. f_equal. lia.
  Qed.
End Many.
