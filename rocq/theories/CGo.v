(** Histories of cgo hashers against the abstract program. *)

From Coq Require Import Arith ZArith NArith List Strings.Byte Lia Bool ZifyNat.
From Verif Require Import Word WordFacts Spec_Sha1 Sha1Facts Spec_DV Spec_Cd DvFacts Model_Go Model_Api Model_Block GoCheck GoBlock GoApi GoStore
  GoProps GoProps2 GoDetect Spec_Api Model_CSteps Gen_CSteps Model_C Spec_C Model_CApi CSteps CProcess CCtx.
Import ListNotations.
Local Open Scope N_scope.
Ltac Zify.zify_post_hook ::= idtac.

(** The verdict with the options of SHA1DCInit, which package cgo never changes. *)
Definition cgo_decide : st -> list word -> bool := cdec default_opts.
Lemma cgo_decides : decides cgo_decide attacked.
Proof.
  intros h M Hh HM HMw. unfold cgo_decide. rewrite (cdec_decides default_opts h M Hh HM HMw).
  unfold flagged, flagged_by, attacked, attacked_by, default_opts. cbn [o_detect o_ubc o_reduced]. split.
  - intros (_ & d & H1 & H2 & [H3|[H3 _]]); [|discriminate]. exists d. auto.
  - intros (d & H1 & H2 & H3). split; [reflexivity|]. exists d. auto.
Qed.

Lemma cc_cd bs : forall s, cc_blocks cdec default_opts s bs = cd_blocks cgo_decide s bs.
Proof.
  induction bs as [|b bs IH]; intros s; [reflexivity|].
  assert (X : cc_block cdec default_opts s b = (cd_block cgo_decide (fst s) (words_of b), snd s || cgo_decide (fst s) (words_of b))).
  { unfold cc_block, cd_block, cgo_decide. cbv zeta. change (o_safe default_opts) with true. rewrite andb_true_r. reflexivity. }
  rewrite cd_blocks_cons, <- X. exact (IH _).
Qed.

Lemma blocks_pending m : forall p, blocks (m ++ p) = blocks m ++ blocks (pending m ++ p) /\ pending (m ++ p) = pending (pending m ++ p).
Proof.
  intros p. destruct (pending_split m) as (A & k & E & L & B).
  assert (X : m ++ p = A ++ (pending m ++ p)) by (rewrite app_assoc, <- E; reflexivity).
  rewrite X, B. split; [apply (blocks_app k _ _ L)|]. clear - L.
  generalize (pending m ++ p) as q. intros q. revert A L. induction k as [|k IH]; intros A L.
  - destruct A; [reflexivity|discriminate].
  - rewrite <- (firstn_skipn 64 A), <- app_assoc, pending_step; [apply IH; rewrite skipn_length; lia|rewrite firstn_length; lia].
Qed.

Definition conc (a : ahash) : chash := mkch (a_mid cgo_decide a) (pending (ah_bytes a)) (a_len a) default_opts.
Definition CD (a : ahash) (d : cdigest) : Prop := CR (g_ctx d) (conc a).

Lemma conc_write a p : conc (a_write a p) = ch_write cdec (conc a) p.
Proof.
  unfold conc, ch_write, a_mid, a_len. cbn [ch_mid ch_pend ch_len ch_opts a_write ah_start ah_before ah_bytes].
  destruct (blocks_pending (ah_bytes a) p) as [E1 E2]. rewrite E1, E2, cd_blocks_app, cc_cd, app_length. f_equal. lia.
Qed.
Lemma conc_final a : snd (ch_final cdec (conc a)) = a_sum cgo_decide a.
Proof.
  unfold conc, ch_final, a_sum, a_mid. cbn [ch_mid ch_pend ch_len ch_opts snd].
  destruct (blocks_pending (ah_bytes a) (padding (a_len a))) as [E1 _]. rewrite E1, cd_blocks_app, cc_cd. reflexivity.
Qed.

Lemma ctx_typed_zero : ctx_typed zero_ctx.
Proof. repeat split; cbn; rewrite ?repeat_length; reflexivity. Qed.
Lemma CD_new : CD a_new cgo_New.
Proof. exact (init_ok zero_ctx ctx_typed_zero). Qed.

Section Cfg.
  Variable cfg : ccfg.
  Hypothesis Hcfg : host_be cfg = macro_be cfg.

  Lemma cgo_reset_ok a d : CD a d -> CD a_new (cgo_Reset d).
  Proof.
    intros ([] & Lp & F). unfold CD, cgo_Reset. cbn [g_ctx]. change (conc a_new) with ch_init.
    split; [|split; reflexivity]. constructor; try reflexivity; try assumption. apply wfst_IV.
  Qed.
  Lemma cgo_write_ok a d p : CD a d -> exists d', cgo_Write cfg d p = Some (d', length p) /\ CD (a_write a p) d'.
  Proof.
    intros H. unfold cgo_Write. destruct (Nat.eqb_spec (length p) 0) as [E|E].
    - apply length_zero_iff_nil in E. subst p. exists d. split; [reflexivity|]. rewrite a_write_nil. exact H.
    - destruct (update_ok cfg Hcfg _ _ p H) as (c' & -> & R). cbn [obind]. eexists. split; [reflexivity|].
      unfold CD. cbn [g_ctx]. rewrite conc_write. exact R.
  Qed.
  Lemma cgo_sum_ok a d : CD a d -> exists d', cgo_sum cfg d = Some (d', fst (a_sum cgo_decide a), snd (a_sum cgo_decide a)).
  Proof.
    intros H. unfold cgo_sum. pose proof (final_ok cfg Hcfg _ _ H) as F. rewrite <- conc_final.
    destruct (ch_final cdec (conc a)) as [a' [out f]]. destruct F as (c' & -> & _). cbn [obind fst snd].
    eexists. destruct f; reflexivity.
  Qed.
  Lemma cgo_crsum_ok a d inp : CD a d ->
    cgo_CollisionResistantSum cfg d inp = Some (inp ++ fst (a_sum cgo_decide a), snd (a_sum cgo_decide a)).
  Proof. intros H. unfold cgo_CollisionResistantSum. destruct (cgo_sum_ok a d H) as (d' & ->). reflexivity. Qed.

  Lemma c_exec_ok hs ds o hs' r : cgo_call o -> Forall2 CD hs ds ->
    a_exec false cgo_decide hs o = Some (hs', r) ->
    exists ds', c_exec cfg ds o = Some (ds', r) /\ Forall2 CD hs' ds'.
  Proof.
    intros Ho H E.
    assert (On : forall i (f : ahash -> ahash * res),
      match nth_error hs i with Some a => let '(a', r) := f a in Some (put i a' hs, r) | None => None end = Some (hs', r) ->
      exists a d, nth_error hs i = Some a /\ nth_error ds i = Some d /\ CD a d /\ r = snd (f a) /\ hs' = upd i (fst (f a)) hs).
    { intros i f X. destruct (nth_error hs i) as [a|] eqn:Ea; [|discriminate].
      destruct (Forall2_nth _ _ _ _ _ H Ea) as (d & Ed & Hd).
      exists a, d. destruct (f a) as [a' r']. cbn [fst snd]. rewrite put_upd in X. injection X as <- <-. auto. }
    destruct o; cbn [a_exec] in E; cbn [c_exec]; try contradiction.
    - injection E as <- <-. eexists. rewrite <- (Forall2_length _ _ _ H). split; [reflexivity|].
      apply Forall2_app; [assumption|]. constructor; [exact CD_new|constructor].
    - apply (On i (fun a => (a_write a p, RNum (length p)))) in E. destruct E as (a & d & Ea & Ed & Hd & -> & ->). rewrite Ed. cbn [obind fst snd].
      destruct (cgo_write_ok a d p Hd) as (d' & E & Hd'). rewrite E. cbn [obind].
      eexists. split; [reflexivity|]. apply Forall2_upd; assumption.
    - apply (On i (fun a => (a, RBytes (inp ++ fst (a_sum cgo_decide a))))) in E. destruct E as (a & d & Ea & Ed & Hd & -> & ->). rewrite Ed. cbn [obind fst snd].
      unfold cgo_Sum. rewrite (cgo_crsum_ok a d inp Hd). cbn [obind]. rewrite upd_same by assumption. eauto.
    - apply (On i (fun a => (a, RVerdict (inp ++ fst (a_sum cgo_decide a)) (snd (a_sum cgo_decide a))))) in E. destruct E as (a & d & Ea & Ed & Hd & -> & ->). rewrite Ed. cbn [obind fst snd].
      rewrite (cgo_crsum_ok a d inp Hd). cbn [obind]. rewrite upd_same by assumption. eauto.
    - apply (On i (fun a => (a_new, RUnit))) in E. destruct E as (a & d & Ea & Ed & Hd & -> & ->). rewrite Ed. cbn [obind fst snd].
      eexists. split; [reflexivity|]. apply Forall2_upd; [assumption|]. eapply cgo_reset_ok; eassumption.
    - apply (On i (fun a => (a, RNum 20))) in E. destruct E as (a & d & Ea & Ed & Hd & -> & ->). rewrite Ed. cbn [obind fst snd]. rewrite upd_same by assumption. eauto.
    - apply (On i (fun a => (a, RNum 64))) in E. destruct E as (a & d & Ea & Ed & Hd & -> & ->). rewrite Ed. cbn [obind fst snd]. rewrite upd_same by assumption. eauto.
    - injection E as <- <-. unfold cgo_SumPkg. change (cgo_Reset zero_cdigest) with cgo_New. cbv zeta.
      destruct (cgo_write_ok a_new cgo_New data CD_new) as (d1 & -> & H1). cbn [obind].
      destruct (cgo_sum_ok _ _ H1) as (d2 & ->). cbn [obind]. rewrite a_sum_new. eauto.
  Qed.

  Lemma c_run_ok os : Forall cgo_call os -> forall hs ds hs' rs, Forall2 CD hs ds ->
    a_run false cgo_decide hs os = Some (hs', rs) ->
    exists ds', c_run cfg ds os = Some (ds', rs) /\ Forall2 CD hs' ds'.
  Proof.
    induction 1 as [|o os Ho Hos IH]; intros hs ds hs' rs H E; cbn [a_run] in E.
    - injection E as <- <-. cbn. eauto.
    - destruct (a_exec false cgo_decide hs o) as [[hs1 x]|] eqn:E1; [|discriminate].
      destruct (a_run false cgo_decide hs1 os) as [[hs2 xs]|] eqn:E2; [|discriminate].
      injection E as <- <-.
      destruct (c_exec_ok hs ds o hs1 x Ho H E1) as (ds1 & X1 & H1).
      destruct (IH hs1 ds1 hs2 xs H1 E2) as (ds2 & X2 & H2).
      cbn [c_run]. rewrite X1. cbn [obind]. rewrite X2. cbn [obind]. eauto.
  Qed.

  Lemma cgo_refines D os : decides D attacked -> scoped 0 os -> Forall cgo_call os ->
    exists ds hs rs, c_run cfg [] os = Some (ds, rs) /\ a_run false D [] os = Some (hs, rs) /\ Forall2 CD hs ds.
  Proof.
    intros HD Hs Hc. destruct (a_run_scoped false D os [] Hs) as (hs & rs & E).
    rewrite (a_run_agree2 false D cgo_decide) in E |- * by (auto using (decides_same _ _ _ HD cgo_decides)).
    destruct (c_run_ok os Hc [] [] hs rs (Forall2_nil _) E) as (ds & X & Y). eauto 6.
  Qed.

  Lemma cgo_call_at D os k o : decides D attacked -> scoped 0 os -> Forall cgo_call os -> nth_error os k = Some o ->
    exists ds rs hs0 rs0 hs1 r, c_run cfg [] os = Some (ds, rs) /\ nth_error rs k = Some r /\
      a_run false D [] (firstn k os) = Some (hs0, rs0) /\ a_exec false D hs0 o = Some (hs1, r) /\
      match target o with Some i => (i < created (firstn k os))%nat | None => True end.
  Proof.
    intros HD Hs Hc Hk. destruct (cgo_refines D os HD Hs Hc) as (ds & hs & rs & E & A & _).
    assert (Ec : os = firstn k os ++ o :: skipn (S k) os).
    { clear - Hk. revert k Hk. induction os as [|x l IH]; intros [|k] H; simpl in *; try discriminate.
      - injection H as ->. reflexivity.
      - f_equal. apply IH. assumption. }
    pose proof Hs as Hs'. rewrite Ec in Hs'. apply scoped_app in Hs'. destruct Hs' as [_ [Ht _]]. cbn [Nat.add] in Ht.
    pose proof A as A'. rewrite Ec, a_run_app in A'.
    destruct (a_run false D [] (firstn k os)) as [[hs0 rs0]|] eqn:E0; [|discriminate].
    cbn [a_run] in A'. destruct (a_exec false D hs0 o) as [[hs1 r]|] eqn:E1; [|discriminate].
    destruct (a_run false D hs1 (skipn (S k) os)) as [[hs2 rs2]|]; [|discriminate].
    injection A' as _ A'. exists ds, rs, hs0, rs0, hs1, r.
    assert (L : length rs0 = k).
    { apply a_run_length in E0. destruct E0 as [E0 _]. rewrite E0, firstn_length.
      assert (k < length os)%nat by (apply nth_error_Some; congruence). lia. }
    split; [assumption|]. split; [|auto].
    rewrite <- A', nth_error_app2 by lia. rewrite L, Nat.sub_diag. reflexivity.
  Qed.

  Lemma cgo_crsum_exact D os k i inp m : decides D attacked -> scoped 0 os -> Forall cgo_call os ->
    nth_error os k = Some (OCRSum i inp) -> written i (firstn k os) = Some m ->
    exists ds rs, c_run cfg [] os = Some (ds, rs) /\
      nth_error rs k = Some (RVerdict (inp ++ fst (cd_sum D m)) (snd (cd_sum D m))).
  Proof.
    intros HD Hs Hc Hk Hm. destruct (cgo_call_at D os k _ HD Hs Hc Hk) as (ds & rs & hs0 & rs0 & hs1 & r & E & Er & A & X & T).
    cbn [target] in T. pose proof (a_run_written _ _ _ _ _ _ _ A Hm T) as Ha.
    destruct (a_exec_on false D hs0 i (fun a => (a, RVerdict (inp ++ fst (a_sum D a)) (snd (a_sum D a)))) (OCRSum i inp) _ _ _ eq_refl X Ha) as [-> _].
    cbn [snd] in Er. rewrite a_sum_new in Er. eauto.
  Qed.
  Lemma cgo_sum_exact D os k i inp m : decides D attacked -> scoped 0 os -> Forall cgo_call os ->
    nth_error os k = Some (OSum i inp) -> written i (firstn k os) = Some m ->
    exists ds rs, c_run cfg [] os = Some (ds, rs) /\ nth_error rs k = Some (RBytes (inp ++ fst (cd_sum D m))).
  Proof.
    intros HD Hs Hc Hk Hm. destruct (cgo_call_at D os k _ HD Hs Hc Hk) as (ds & rs & hs0 & rs0 & hs1 & r & E & Er & A & X & T).
    cbn [target] in T. pose proof (a_run_written _ _ _ _ _ _ _ A Hm T) as Ha.
    destruct (a_exec_on false D hs0 i (fun a => (a, RBytes (inp ++ fst (a_sum D a)))) (OSum i inp) _ _ _ eq_refl X Ha) as [-> _].
    cbn [snd] in Er. rewrite a_sum_new in Er. eauto.
  Qed.
  Lemma cgo_oneshot_exact D os k m : decides D attacked -> scoped 0 os -> Forall cgo_call os ->
    nth_error os k = Some (OSumPkg m) ->
    exists ds rs, c_run cfg [] os = Some (ds, rs) /\ nth_error rs k = Some (RVerdict (fst (cd_sum D m)) (snd (cd_sum D m))).
  Proof.
    intros HD Hs Hc Hk. destruct (cgo_call_at D os k _ HD Hs Hc Hk) as (ds & rs & hs0 & rs0 & hs1 & r & E & Er & A & X & T).
    cbn [a_exec] in X. injection X as _ <-. eauto.
  Qed.

  Lemma cgo_total os : scoped 0 os -> Forall cgo_call os ->
    exists ds rs, c_run cfg [] os = Some (ds, rs) /\ length rs = length os /\
      forall k o, nth_error os k = Some o -> exists r, nth_error rs k = Some r /\
        match o with
        | OWrite _ w => r = RNum (length w)
        | OSize _ => r = RNum 20
        | OBlockSize _ => r = RNum 64
        | OSum _ inp => exists b, r = RBytes b /\ length b = (length inp + 20)%nat /\ firstn (length inp) b = inp
        | OCRSum _ inp => exists b v, r = RVerdict b v /\ length b = (length inp + 20)%nat /\ firstn (length inp) b = inp
        | OSumPkg _ => exists b v, r = RVerdict b v /\ length b = 20%nat
        | _ => True
        end.
  Proof.
    intros Hs Hc. destruct (cgo_refines cgo_decide os cgo_decides Hs Hc) as (ds & hs & rs & E & A & _).
    exists ds, rs. split; [exact E|]. split; [apply a_run_length in A; tauto|].
    intros k o Hk. destruct (cgo_call_at cgo_decide os k o cgo_decides Hs Hc Hk) as (ds' & rs' & hs0 & rs0 & hs1 & r & E' & Er & _ & X & T).
    rewrite E in E'. injection E' as <- <-. exists r. split; [exact Er|].
    destruct o; try exact I; cbn [a_exec] in X;
      try (destruct (nth_error hs0 i) as [a|]; [|discriminate]; injection X as _ <-); try reflexivity.
    - eexists. split; [reflexivity|]. rewrite app_length, firstn_app, Nat.sub_diag, firstn_all, firstn_O, app_nil_r.
      split; [|reflexivity]. reflexivity.
    - eexists _, _. split; [reflexivity|]. rewrite app_length, firstn_app, Nat.sub_diag, firstn_all, firstn_O, app_nil_r.
      split; [|reflexivity]. reflexivity.
    - injection X as _ <-. eexists _, _. split; [reflexivity|]. unfold cd_sum. destruct (cd_blocks _ _ _). reflexivity.
  Qed.

  Lemma c_exec_observer ds o ds' r : observer o = true -> c_exec cfg ds o = Some (ds', r) -> ds' = ds.
  Proof.
    destruct o; cbn [observer c_exec]; intros H E; try discriminate;
      try (destruct (nth_error ds i) as [d|]; [|discriminate]; cbn [obind] in E).
    - destruct (cgo_Sum cfg d inp); [|discriminate]. injection E as <- _. reflexivity.
    - destruct (cgo_CollisionResistantSum cfg d inp) as [[? ?]|]; [|discriminate]. injection E as <- _. reflexivity.
    - injection E as <- _. reflexivity.
    - injection E as <- _. reflexivity.
    - destruct (cgo_SumPkg cfg data) as [[? ?]|]; [|discriminate]. injection E as <- _. reflexivity.
  Qed.
  Lemma c_run_observers os : forall ds ds' rs, c_run cfg ds os = Some (ds', rs) ->
    c_run cfg ds (filter (fun o => negb (observer o)) os) =
    Some (ds', map snd (filter (fun x => negb (observer (fst x))) (combine os rs))).
  Proof.
    induction os as [|o os IH]; intros ds ds' rs E; cbn [c_run] in E.
    - injection E as <- <-. reflexivity.
    - destruct (c_exec cfg ds o) as [[ds1 x]|] eqn:E1; [|discriminate]. cbn [obind] in E.
      destruct (c_run cfg ds1 os) as [[ds2 xs]|] eqn:E2; [|discriminate]. cbn [obind] in E. injection E as <- <-.
      cbn [filter combine fst]. destruct (observer o) eqn:Eo; cbn [negb].
      + rewrite (c_exec_observer ds o ds1 x Eo E1) in E2. apply IH. exact E2.
      + cbn [c_run]. rewrite E1. cbn [obind]. rewrite (IH _ _ _ E2). reflexivity.
  Qed.
  Lemma cgo_observers_pure os : scoped 0 os -> Forall cgo_call os ->
    exists ds rs, c_run cfg [] os = Some (ds, rs) /\
      c_run cfg [] (filter (fun o => negb (observer o)) os) =
      Some (ds, map snd (filter (fun x => negb (observer (fst x))) (combine os rs))).
  Proof.
    intros Hs Hc. destruct (cgo_refines cgo_decide os cgo_decides Hs Hc) as (ds & hs & rs & E & _).
    exists ds, rs. split; [exact E|]. apply c_run_observers. exact E.
  Qed.

  Lemma cgo_call_retarget j o : cgo_call o -> cgo_call (retarget j o).
  Proof. destruct o; cbn; auto. Qed.
  Lemma cgo_solo i os : Forall cgo_call os ->
    exists ds, c_run cfg [] (solo i os) = Some (ds, RNew 0 :: snd (a_calls cgo_decide a_new (filter (target_is i) os))).
  Proof.
    intros Hc. destruct (cgo_refines cgo_decide (solo i os) cgo_decides) as (ds & hs & rs & E & A & _).
    - cbn [solo scoped target]. split; [exact I|]. apply scoped_alone, filter_target_ex.
    - constructor; [exact I|]. apply Forall_forall. intros o Hin. apply in_map_iff in Hin. destruct Hin as (o' & <- & Hin).
      apply filter_In in Hin. destruct Hin as [Hin _]. rewrite Forall_forall in Hc. apply cgo_call_retarget. auto.
    - unfold solo in A. cbn [a_run a_exec app] in A.
      rewrite a_run_alone in A by apply filter_target_ex. injection A as <- <-. eauto.
  Qed.

  Lemma cgo_reset_is_new p q i : scoped 0 (p ++ OReset i :: q) -> Forall cgo_call (p ++ OReset i :: q) ->
    exists ds ds' rs1 rs2, c_run cfg [] (p ++ OReset i :: q) = Some (ds, rs1 ++ RUnit :: rs2) /\
      length rs1 = length p /\
      c_run cfg [] (solo i q) = Some (ds', RNew 0 :: pick i q rs2).
  Proof.
    intros Hs Hc. destruct (cgo_refines cgo_decide _ cgo_decides Hs Hc) as (ds & hs & rs & E & A & _).
    assert (Hq : Forall cgo_call q). { apply Forall_app in Hc. destruct Hc as [_ Hc]. inversion Hc; assumption. }
    destruct (cgo_solo i q Hq) as (ds' & E'). rewrite a_run_app in A.
    destruct (a_run false cgo_decide [] p) as [[h1 r1]|] eqn:E1; [|discriminate].
    cbn [a_run] in A.
    destruct (a_exec false cgo_decide h1 (OReset i)) as [[h2 x]|] eqn:E2; [|discriminate].
    destruct (a_run false cgo_decide h2 q) as [[h3 r3]|] eqn:E3; [|discriminate]. injection A as _ <-.
    cbn [a_exec] in E2. destruct (nth_error h1 i) as [a|] eqn:Ea; [|discriminate]. injection E2 as <- <-.
    exists ds, ds', r1, r3. split; [assumption|]. split.
    - apply a_run_length in E1. destruct E1 as [E1 _]. exact E1.
    - rewrite E'. do 3 f_equal. symmetry. apply (a_run_pick false cgo_decide i _ _ _ _ a_new E3).
      apply nth_error_put_eq. apply nth_error_Some. congruence.
  Qed.

  Lemma cgo_independent os i : scoped 0 os -> Forall cgo_call os -> (i < created os)%nat ->
    exists ds rs ds', c_run cfg [] os = Some (ds, rs) /\ c_run cfg [] (solo i os) = Some (ds', RNew 0 :: pick i os rs).
  Proof.
    intros Hs Hc Hi. destruct (cgo_refines cgo_decide os cgo_decides Hs Hc) as (ds & hs & rs & E & A & _).
    destruct (cgo_solo i os Hc) as (ds' & E').
    exists ds, rs, ds'. split; [assumption|]. rewrite E'. do 3 f_equal. symmetry.
    destruct (created_split os 0 i) as (o1 & o2 & Ec & En); [lia|]. cbn [Nat.add] in En.
    rewrite Ec in A, Hs |- *. rewrite a_run_app in A.
    destruct (a_run false cgo_decide [] o1) as [[h1 r1]|] eqn:E1; [|discriminate].
    cbn [a_run a_exec] in A.
    destruct (a_run false cgo_decide (h1 ++ [a_new]) o2) as [[h2 r2]|] eqn:E2; [|discriminate]. injection A as _ <-.
    destruct (a_run_length _ _ _ _ _ _ E1) as [L1 L2]. cbn [length] in L2.
    apply scoped_app in Hs. destruct Hs as [Hs1 _].
    rewrite pick_app by lia. rewrite (pick_none i o1) by (apply (scoped_none _ _ 0 Hs1); lia).
    rewrite pick_cons. cbn [target_is target app].
    rewrite filter_app. rewrite (scoped_none o1 i 0 Hs1) by lia. cbn [app filter target_is target].
    destruct (a_run_pick false cgo_decide i o2 _ _ _ a_new E2) as [_ P].
    - rewrite nth_error_app2 by lia. replace (i - length h1)%nat with 0%nat by lia. reflexivity.
    - exact P.
  Qed.

  (** The verdict. *)
  Lemma attacked_verdict D m : decides D attacked ->
    (snd (cd_sum D m) = true <->
     exists k b, nth_error (blocks (pad m)) k = Some b /\
       attacked (fst (cd_blocks D (IV, false) (firstn k (blocks (pad m))))) (words_of b)).
  Proof.
    intros HD. unfold cd_sum.
    pose proof (cd_blocks_verdict D (blocks (pad m)) (IV, false)) as V.
    destruct (cd_blocks D (IV, false) (blocks (pad m))) as [h f]. cbn [snd] in *. rewrite V. clear V. split.
    - intros [H|(k & b & Hk & Hd)]; [discriminate|]. exists k, b. split; [exact Hk|].
      apply HD in Hd; auto using wf_words_of, words_of_length.
      + apply wfst_cd_blocks. cbn [fst]. apply wfst_IV.
      + apply words_of_length. apply nth_blocks_len in Hk. exact Hk.
    - intros (k & b & Hk & Ha). right. exists k, b. split; [exact Hk|].
      apply HD; auto using wf_words_of.
      + apply wfst_cd_blocks. cbn [fst]. apply wfst_IV.
      + apply words_of_length. apply nth_blocks_len in Hk. exact Hk.
  Qed.
  Lemma cgo_verdict_iff D os k i inp m : decides D attacked -> scoped 0 os -> Forall cgo_call os ->
    nth_error os k = Some (OCRSum i inp) -> written i (firstn k os) = Some m ->
    exists ds rs b v, c_run cfg [] os = Some (ds, rs) /\ nth_error rs k = Some (RVerdict b v) /\
      (v = true <-> exists j b, nth_error (blocks (pad m)) j = Some b /\
        attacked (fst (cd_blocks D (IV, false) (firstn j (blocks (pad m))))) (words_of b)).
  Proof.
    intros HD Hs Hc Hk Hm. destruct (cgo_crsum_exact D os k i inp m HD Hs Hc Hk Hm) as (ds & rs & E & Er).
    exists ds, rs, (inp ++ fst (cd_sum D m)), (snd (cd_sum D m)). split; [exact E|]. split; [exact Er|].
    apply attacked_verdict. exact HD.
  Qed.
  Lemma cgo_unflagged os k i inp m b : scoped 0 os -> Forall cgo_call os ->
    nth_error os k = Some (OCRSum i inp) -> written i (firstn k os) = Some m ->
    forall ds rs, c_run cfg [] os = Some (ds, rs) -> nth_error rs k = Some (RVerdict b false) -> b = inp ++ sha1 m.
  Proof.
    intros Hs Hc Hk Hm ds rs E Er. destruct (cgo_crsum_exact cgo_decide os k i inp m cgo_decides Hs Hc Hk Hm) as (ds' & rs' & E' & Er').
    rewrite E in E'. injection E' as <- <-. rewrite Er in Er'. injection Er' as -> Hv.
    rewrite (cd_sum_unflagged _ _ (eq_sym Hv)). reflexivity.
  Qed.
End Cfg.

(** Go and cgo. *)
Lemma cd_blocks_meet D E bs : forall s, 
  (forall j b, nth_error bs j = Some b -> D (fst (cd_blocks D s (firstn j bs))) (words_of b) = E (fst (cd_blocks D s (firstn j bs))) (words_of b)) ->
  cd_blocks D s bs = cd_blocks E s bs.
Proof.
  induction bs as [|b bs IH]; intros s H; [reflexivity|].
  pose proof (H 0%nat b eq_refl) as H0. cbn [firstn] in H0. change (cd_blocks D s []) with s in H0.
  rewrite !cd_blocks_cons. unfold cd_block. rewrite <- H0. apply IH.
  intros j b' Hj. specialize (H (S j) b' Hj). cbn [firstn] in H. rewrite cd_blocks_cons in H. exact H.
Qed.

Lemma go_cgo_agree cfg early D p os k k' i i' inp m : host_be cfg = macro_be cfg ->
  decides D attacked -> scoped 0 (calls p) -> scoped 0 os -> Forall cgo_call os ->
  nth_error (calls p) k = Some (OCRSum i inp) -> written i (firstn k (calls p)) = Some m ->
  nth_error os k' = Some (OCRSum i' inp) -> written i' (firstn k' os) = Some m ->
  (forall j b, nth_error (blocks (pad m)) j = Some b ->
     let h := fst (cd_blocks D (IV, false) (firstn j (blocks (pad m)))) in attacked h (words_of b) <-> go_detects h (words_of b)) ->
  exists ds rs ds' rs' r, run_program early p = Some (ds, rs) /\ c_run cfg [] os = Some (ds', rs') /\
    nth_error rs k = Some r /\ nth_error rs' k' = Some r.
Proof.
  intros Hcfg HD Hp Hs Hc Hk Hm Hk' Hm' H.
  destruct (crsum_exact early go_decide p k i inp m go_decide_ok Hp Hk Hm) as (ds & rs & E & Er).
  destruct (cgo_crsum_exact cfg Hcfg D os k' i' inp m HD Hs Hc Hk' Hm') as (ds' & rs' & E' & Er').
  exists ds, rs, ds', rs'. eexists. split; [exact E|]. split; [exact E'|]. split; [exact Er|]. rewrite Er'. do 2 f_equal.
  all: assert (X : cd_sum D m = cd_sum go_decide m);
    [unfold cd_sum; rewrite (cd_blocks_meet D go_decide); [reflexivity|]|rewrite X; reflexivity].
  all: intros j b Hj; specialize (H j b Hj); cbv zeta in H;
    set (h := fst (cd_blocks D (IV, false) (firstn j (blocks (pad m))))) in *;
    assert (Hh : wfst h) by (apply wfst_cd_blocks; apply wfst_IV);
    assert (LM : length (words_of b) = 16%nat) by (apply words_of_length; exact (nth_blocks_len _ _ _ Hj));
    pose proof (HD h (words_of b) Hh LM (wf_words_of b)) as A; pose proof (go_decide_ok h (words_of b) Hh LM (wf_words_of b)) as B;
    destruct (D h (words_of b)), (go_decide h (words_of b)); intuition congruence.
Qed.
