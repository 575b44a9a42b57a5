(** Checkpoints, sticky verdicts, one-shot hashing. *)

From Coq Require Import Arith ZArith NArith List Strings.Byte Lia Bool ZifyNat.
From Verif Require Import Word WordFacts Spec_Sha1 Sha1Facts Spec_DV Spec_Cd Spec_Api DvFacts
  Model_Go Model_Api Model_Block GoCheck GoBlock GoApi GoStore GoAsm GoProps.
Import ListNotations.
Local Open Scope N_scope.
Ltac Zify.zify_post_hook ::= idtac.

(** ** The verdict is only accumulated *)
Lemma cd_blocks_flag D bs : forall h f,
  fst (cd_blocks D (h, f) bs) = fst (cd_blocks D (h, false) bs) /\
  snd (cd_blocks D (h, f) bs) = (f || snd (cd_blocks D (h, false) bs))%bool.
Proof.
  induction bs as [|b bs IH]; intros h f.
  - cbn. rewrite orb_false_r. auto.
  - rewrite !cd_blocks_cons. cbn [fst snd]. destruct (IH (cd_block D h (words_of b)) (f || D h (words_of b))%bool) as [A B].
    destruct (IH (cd_block D h (words_of b)) (false || D h (words_of b))%bool) as [A' B'].
    rewrite A, A', B, B'. split; [reflexivity|]. rewrite orb_false_l, orb_assoc. reflexivity.
Qed.
Lemma cd_blocks_mono D bs s : snd s = true -> snd (cd_blocks D s bs) = true.
Proof. destruct s as [h f]. cbn. intros ->. rewrite (proj2 (cd_blocks_flag D bs h true)). reflexivity. Qed.

Section Flag.
  Variable D : st -> list word -> bool.
  (** Same hasher up to the verdict it starts with. *)
  Definition upto_flag (a b : ahash) : Prop :=
    fst (ah_start a) = fst (ah_start b) /\ ah_before a = ah_before b /\ ah_bytes a = ah_bytes b.

  Lemma upto_flag_form a b : upto_flag a b -> exists h f g L m, a = mkah (h, f) L m /\ b = mkah (h, g) L m.
  Proof.
    destruct a as [[h f] L m], b as [[h' g] L' m']. intros (A & B & C). cbn in *. subst. eauto 10.
  Qed.

  Lemma a_call_upto o a b : upto_flag a b ->
    upto_flag (fst (a_call D o a)) (fst (a_call D o b)) /\ same_digest (snd (a_call D o a)) (snd (a_call D o b)).
  Proof.
    intros H. destruct (upto_flag_form a b H) as (h & f & g & L & m & -> & ->).
    destruct o; cbn [a_call fst snd]; try (split; [repeat split|constructor]; fail).
    - split; [repeat split|]. unfold a_sum, a_len. cbn [ah_start ah_before ah_bytes fst snd].
      rewrite !(proj1 (cd_blocks_flag D _ h f)), (proj1 (cd_blocks_flag D _ h g)). constructor.
    - split; [repeat split|]. unfold a_sum, a_len. cbn [ah_start ah_before ah_bytes fst snd].
      rewrite !(proj1 (cd_blocks_flag D _ h f)), (proj1 (cd_blocks_flag D _ h g)). constructor.
    - split; [repeat split|]. unfold a_marshal, a_mid, a_len. cbn [ah_start ah_before ah_bytes fst snd].
      rewrite !(proj1 (cd_blocks_flag D _ h f)), (proj1 (cd_blocks_flag D _ h g)). constructor.
    - unfold a_unmarshal. destruct (negb _); [split; [repeat split|constructor]|].
      destruct (negb _); split; try constructor; repeat split.
  Qed.
  Lemma a_calls_upto os : forall a b, upto_flag a b ->
    Forall2 same_digest (snd (a_calls D a os)) (snd (a_calls D b os)).
  Proof.
    induction os as [|o os IH]; intros a b H; cbn [a_calls]; [constructor|].
    destruct (a_call_upto o a b H) as [H1 H2]. destruct (a_call D o a) as [a1 r1], (a_call D o b) as [b1 s1]. cbn [fst snd] in *.
    specialize (IH a1 b1 H1). destruct (a_calls D a1 os), (a_calls D b1 os). constructor; assumption.
  Qed.
End Flag.

(** ** Continuing a program *)


Lemma calls_to i c : calls (to i c) = map (retarget i) (calls c).
Proof. unfold calls, to. rewrite !map_map. reflexivity. Qed.

Lemma run_app early os : forall ds os', run early ds (os ++ os') =
  match run early ds os with
  | Some (ds1, rs1) => match run early ds1 os' with Some (ds2, rs2) => Some (ds2, rs1 ++ rs2) | None => None end
  | None => None
  end.
Proof.
  induction os as [|[blk o] os IH]; intros ds os'; cbn [run app].
  - destruct (run early ds os') as [[? ?]|]; reflexivity.
  - destruct (exec early blk ds o) as [[ds1 x]|]; [|reflexivity]. cbn [obind]. rewrite IH.
    destruct (run early ds1 os) as [[ds2 xs]|]; [|reflexivity]. cbn [obind].
    destruct (run early ds2 os') as [[? ?]|]; reflexivity.
Qed.

Definition code (p : program) : list (blockfn * op) := map (fun x => (block_of (fst x), snd x)) p.
Lemma run_program_app early p q : run_program early (p ++ q) =
  match run_program early p with
  | Some (ds1, rs1) => match run early ds1 (code q) with Some (ds2, rs2) => Some (ds2, rs1 ++ rs2) | None => None end
  | None => None
  end.
Proof. unfold run_program, code. rewrite map_app. apply run_app. Qed.
Lemma code_calls p : map snd (code p) = calls p.
Proof. unfold code, calls. rewrite map_map. reflexivity. Qed.
Lemma code_ok p : Forall (fun bo => block_ok (fst bo)) (code p).
Proof.
  apply Forall_forall. intros bo H. apply in_map_iff in H. destruct H as (x & <- & _). apply block_of_ok.
Qed.

Lemma a_run_at early D i os : Forall (fun o => exists j, target o = Some j) os ->
  forall hs a, nth_error hs i = Some a ->
  a_run early D hs (map (retarget i) os) = Some (put i (fst (a_calls D a os)) hs, snd (a_calls D a os)).
Proof.
  induction 1 as [|o os [j Hj] _ IH]; intros hs a Ha; cbn [map a_run a_calls].
  - cbn [fst snd]. f_equal. f_equal. rewrite put_upd. symmetry. apply upd_same. assumption.
  - rewrite (a_exec_call early D hs _ i a (target_retarget i o j Hj) Ha), a_call_retarget.
    destruct (a_call D o a) as [a1 r1]. cbn [fst snd].
    assert (Hi : (i < length hs)%nat) by (apply nth_error_Some; congruence).
    rewrite (IH _ a1 (nth_error_put_eq _ _ _ Hi)). destruct (a_calls D a1 os) as [a2 rs]. cbn [fst snd].
    do 2 f_equal. clear. revert i. induction hs as [|x hs IH]; intros [|i]; cbn [put]; try reflexivity. rewrite IH. reflexivity.
Qed.

Lemma run_at early ds i d a c : nth_error ds i = Some d -> R a d -> Forall (fun d => exists a, R a d) ds -> on_hasher c ->
  exists ds', run early ds (code (to i c)) = Some (ds', snd (a_calls go_decide a (calls c))).
Proof.
  intros Hd Ha Hds Hc.
  assert (Hhs : exists hs, Forall2 R hs ds /\ nth_error hs i = Some a).
  { clear Hc. revert i Hd. induction Hds as [|x ds [b Hb] Hds' IH]; intros [|i] Hd; cbn in Hd; try discriminate.
    - injection Hd as ->.
      assert (exists hs, Forall2 R hs ds) as [hs H].
      { clear - Hds'. induction Hds' as [|y l [e He] _ IH]; [exists []; constructor|]. destruct IH as [hs H]. exists (e :: hs). constructor; auto. }
      exists (a :: hs). split; [constructor; auto|reflexivity].
    - destruct (IH i Hd) as (hs & H & E). exists (b :: hs). split; [constructor; auto|exact E]. }
  destruct Hhs as (hs & Hhs & E).
  destruct (run_ok early (code (to i c)) hs ds (put i (fst (a_calls go_decide a (calls c))) hs) (snd (a_calls go_decide a (calls c))) Hhs (code_ok _)) as (ds' & X & _).
  - rewrite code_calls, calls_to. apply a_run_at; assumption.
  - eauto.
Qed.

Lemma Forall2_R_ex hs ds : Forall2 R hs ds -> Forall (fun d => exists a, R a d) ds.
Proof. induction 1; constructor; eauto. Qed.

(** The state of a hasher after a program. *)
Lemma program_state early D p i : decides D go_detects -> scoped 0 (calls p) -> (i < created (calls p))%nat ->
  exists ds hs rs a d, run_program early p = Some (ds, rs) /\ a_run early D [] (calls p) = Some (hs, rs) /\
    nth_error ds i = Some d /\ nth_error hs i = Some a /\ R a d /\ Forall (fun d => exists a, R a d) ds /\ length rs = length p.
Proof.
  intros HD Hs Hi. destruct (program_refines early D p HD Hs) as (ds & hs & rs & E & A & F).
  destruct (a_run_length _ _ _ _ _ _ A) as [L1 L2]. cbn [length Nat.add] in L2.
  destruct (nth_error hs i) as [a|] eqn:Ea.
  2:{ apply nth_error_None in Ea. lia. }
  destruct (Forall2_nth _ _ _ _ _ F Ea) as (d & Ed & Hd).
  exists ds, hs, rs, a, d. unfold calls in L1. rewrite map_length in L1. eauto 10 using Forall2_R_ex.
Qed.

(** Every hasher can be seen as started from its current chaining value. *)
Definition rebase (d : digest) : ahash :=
  mkah (dh d, dcol d) (dlen d - dlen d mod 64) (firstn (dnx d) (dx d)).
Lemma mod64_mod x : (x mod M64) mod 64 = x mod 64.
Proof.
  change M64 with (64 * 288230376151711744).
  rewrite N.mod_mul_r by discriminate. rewrite (N.mul_comm 64 (_ mod _)), N.mod_add, N.mod_mod by discriminate. reflexivity.
Qed.
Lemma Rep_nx s L0 all d : Rep s L0 all d -> dlen d mod 64 = N.of_nat (dnx d).
Proof.
  intros (A & k & HA & Hall & Hnx & Hx & Ws & E & H0 & Hl).
  rewrite Hl, mod64_mod. apply N.mod_divide in H0; [|discriminate]. destruct H0 as [q ->].
  rewrite N.add_comm, N.mod_add by discriminate.
  rewrite Hall, app_length, HA, firstn_length, Hx.
  replace (N.of_nat (64 * k + Nat.min (dnx d) 64)) with (N.of_nat (dnx d) + N.of_nat k * 64) by lia.
  rewrite N.mod_add by discriminate. apply N.mod_small. lia.
Qed.
Lemma R_rebase a d : R a d -> R (rebase d) d.
Proof.
  intros H. pose proof (Rep_wf _ _ _ _ H) as W. pose proof (Rep_nx _ _ _ _ H) as Hn.
  destruct (Rep_fields _ _ _ _ H) as (Hx & Hnx & Hlt & _).
  unfold R, rebase. cbn [ah_start ah_before ah_bytes]. exists [], 0%nat.
  split; [reflexivity|]. split; [reflexivity|]. split; [assumption|]. split; [assumption|].
  split; [exact W|]. split; [reflexivity|].
  pose proof (N.div_mod (dlen d) 64 ltac:(discriminate)) as Hd. split.
  - replace (dlen d - dlen d mod 64) with (dlen d / 64 * 64) by lia. apply N.mod_mul. discriminate.
  - rewrite firstn_length, Hx. rewrite Nat.min_l by lia. rewrite <- Hn.
    replace (dlen d - dlen d mod 64 + dlen d mod 64) with (dlen d) by lia. symmetry. apply N.mod_small. assumption.
Qed.
Lemma a_mid_R a d : R a d -> a_mid go_decide a = (dh d, dcol d).
Proof. intros H. symmetry. apply (Rep_pending _ _ _ _ H). Qed.

(** Restoring the checkpoint of [d] into [d2]. *)
Lemma unmarshal_marshal a d a2 d2 : R a d -> R a2 d2 ->
  a_unmarshal go_decide a2 (a_marshal go_decide a) =
  (mkah (dh d, dcol d2) (dlen d - dlen d mod 64) (firstn (dnx d) (dx d)), RUnit).
Proof.
  intros H H2. pose proof (Rep_wf _ _ _ _ H) as W. pose proof (Rep_nx _ _ _ _ H) as Hn.
  destruct (Rep_fields _ _ _ _ H) as (Hx & Hnx & Hlt & Hl).
  destruct (Rep_pending _ _ _ _ H) as (Ep & Lp & _).
  unfold a_marshal. rewrite (a_mid_R a d H). cbn [fst]. unfold a_len. rewrite <- Hl.
  set (buf := pending (ah_bytes a) ++ zeros (64 - length (pending (ah_bytes a)))).
  assert (Lb : length buf = 64%nat) by (unfold buf, zeros; rewrite app_length, repeat_length; lia).
  unfold a_unmarshal. rewrite blob_magic, blob_length by assumption. cbn [negb Nat.eqb].
  destruct (blob_fields (dh d) buf (dlen d) W Lb Hlt) as (F1 & F2 & F3). rewrite F1, F2, F3.
  unfold a_restore. rewrite (a_mid_R a2 d2 H2). cbn [snd]. do 2 f_equal.
  rewrite Hn, Nat2N.id. unfold buf. rewrite firstn_app, Lp, Nat.sub_diag, firstn_O, app_nil_r.
  rewrite Ep. apply firstn_all2. lia.
Qed.

Lemma scoped_to i c n : (i < n)%nat -> on_hasher c -> scoped n (calls (to i c)).
Proof.
  intros Hi H. rewrite calls_to. induction H as [|o os [j Hj] _ IH]; cbn [map scoped]; [exact I|].
  rewrite (target_retarget i o j Hj). split; [assumption|].
  destruct o; cbn [target retarget] in *; try discriminate; exact IH.
Qed.

(** C08, and C09 as far as it holds. *)
Lemma checkpoint early1 early2 p q i j b m1 c1 c2 m2 ds0 rs0 :
  scoped 0 (calls p) -> (i < created (calls p))%nat -> scoped 0 (calls q) -> (j < created (calls q))%nat ->
  run_program early1 (p ++ [(m1, OMarshal i)]) = Some (ds0, rs0 ++ [RBytes b]) ->
  on_hasher c1 -> calls c1 = calls c2 ->
  exists ds1 ds2 rs1 rs2 rs3 rs4,
    run_program early1 (p ++ to i c1) = Some (ds1, rs1 ++ rs2) /\ length rs1 = length p /\
    run_program early2 (q ++ (m2, OUnmarshal j b) :: to j c2) = Some (ds2, rs3 ++ RUnit :: rs4) /\ length rs3 = length q /\
    Forall2 same_digest rs2 rs4 /\
    (forall m m', written i (calls p) = Some m -> written j (calls q) = Some m' ->
       snd (cd_blocks go_decide (IV, false) (blocks m)) = snd (cd_blocks go_decide (IV, false) (blocks m')) ->
       rs2 = rs4).
Proof.
  intros Sp Hi Sq Hj E0 Hc Ec.
  destruct (program_state early1 go_decide p i go_decide_ok Sp Hi) as (ds & hs & rs & a & d & Ep & Ap & Nd & Na & Rd & Fd & Lp).
  destruct (program_state early2 go_decide q j go_decide_ok Sq Hj) as (es & gs & ss & a2 & d2 & Eq & Aq & Nd2 & Na2 & Rd2 & Fd2 & Lq).
  (* the blob *)
  assert (Eb : b = a_marshal go_decide a).
  { rewrite run_program_app, Ep in E0. cbn [code map run fst snd exec] in E0. rewrite Nd in E0. cbn [obind] in E0.
    rewrite (Marshal_ok a d Rd) in E0. cbn [obind] in E0. injection E0 as _ E0.
    apply app_inj_tail in E0. destruct E0 as [_ E0]. injection E0 as ->. reflexivity. }
  destruct (run_at early1 ds i d (rebase d) c1 Nd (R_rebase _ _ Rd) Fd Hc) as (ds1 & X1).
  (* destination *)
  pose proof (unmarshal_marshal a d a2 d2 Rd Rd2) as Hu.
  destruct (Unmarshal_ok a2 d2 b Rd2) as (d3 & U & Rd3). rewrite Eb, Hu in U, Rd3. cbn [snd fst] in U, Rd3.
  assert (Hj' : (j < length es)%nat) by (apply nth_error_Some; congruence).
  assert (Nd3 : nth_error (upd j d3 es) j = Some d3).
  { rewrite <- put_upd. apply nth_error_put_eq. assumption. }
  assert (Fd3 : Forall (fun d => exists a, R a d) (upd j d3 es)).
  { rewrite <- put_upd. apply Forall_put; eauto. }
  assert (Hc2 : on_hasher c2) by (unfold on_hasher; rewrite <- Ec; assumption).
  destruct (run_at early2 (upd j d3 es) j d3 _ c2 Nd3 Rd3 Fd3 Hc2) as (ds2 & X2).
  exists ds1, ds2, rs, (snd (a_calls go_decide (rebase d) (calls c1))), ss,
    (snd (a_calls go_decide (mkah (dh d, dcol d2) (dlen d - dlen d mod 64) (firstn (dnx d) (dx d))) (calls c2))).
  split; [rewrite run_program_app, Ep, X1; reflexivity|]. split; [assumption|].
  split.
  { rewrite run_program_app, Eq. cbn [code map run fst snd exec]. rewrite Nd2. cbn [obind].
    rewrite Eb, U. cbn [obind]. unfold code in X2. rewrite X2. reflexivity. }
  split; [assumption|]. rewrite <- Ec. split.
  { apply a_calls_upto. repeat split. }
  intros m m' Wm Wm' Hf.
  rewrite (a_run_written _ _ _ _ _ _ _ Ap Wm Hi) in Na. injection Na as <-.
  rewrite (a_run_written _ _ _ _ _ _ _ Aq Wm' Hj) in Na2. injection Na2 as <-.
  pose proof (a_mid_R _ _ Rd) as M1. pose proof (a_mid_R _ _ Rd2) as M2.
  unfold a_mid in M1, M2. cbn [a_write a_new ah_start ah_bytes app] in M1, M2. rewrite M1, M2 in Hf. cbn [snd] in Hf.
  unfold rebase. rewrite Hf. reflexivity.
Qed.

(** C10 *)
Lemma unmarshal_accepts early p k j b : scoped 0 (calls p) -> nth_error (calls p) k = Some (OUnmarshal j b) ->
  exists ds rs r, run_program early p = Some (ds, rs) /\ nth_error rs k = Some r /\
    (r = RUnit <-> length b = 98%nat /\ firstn 6 b = magic) /\
    (r = RBadMagic <-> firstn 6 b <> magic) /\
    (r = RBadSize <-> firstn 6 b = magic /\ length b <> 98%nat).
Proof.
  intros Hs Hk. destruct (call_at early go_decide p k _ go_decide_ok Hs Hk) as (ds & rs & hs0 & rs0 & hs1 & r & E & Er & A & X & T).
  exists ds, rs, r. split; [assumption|]. split; [assumption|]. cbn [a_exec] in X.
  destruct (nth_error hs0 j) as [a|]; [|discriminate]. 
  assert (Hr : r = snd (a_unmarshal go_decide a b)) by (destruct (a_unmarshal go_decide a b); injection X as _ <-; reflexivity).
  rewrite Hr. unfold a_unmarshal. pose proof (has_magic_ok b) as Hm.
  destruct (has_magic b); cbn [negb snd].
  - destruct Hm as [Hm _]. specialize (Hm eq_refl). destruct (Nat.eqb_spec (length b) 98); cbn [negb snd]; intuition congruence.
  - assert (firstn 6 b <> magic) by (intros C; apply Hm in C; discriminate). intuition congruence.
Qed.
Lemma unmarshal_error_inert early p m j b : scoped 0 (calls (p ++ [(m, OUnmarshal j b)])) -> accepted b = false ->
  exists ds rs r, run_program early p = Some (ds, rs) /\ run_program early (p ++ [(m, OUnmarshal j b)]) = Some (ds, rs ++ [r]).
Proof.
  intros Hs Ha. rewrite calls_app in Hs. apply scoped_app in Hs. destruct Hs as [Hs [Hj _]]. cbn [target calls map snd] in Hj.
  destruct (program_state early go_decide p j go_decide_ok Hs Hj) as (ds & hs & rs & a & d & Ep & Ap & Nd & Na & Rd & Fd & Lp).
  rewrite run_program_app, Ep. cbn [code map run fst snd exec]. rewrite Nd. cbn [obind].
  destruct (Rep_fields _ _ _ _ Rd) as (Hx & _). rewrite Unmarshal_eq by assumption.
  unfold accepted in Ha. destruct (has_magic b); cbn [negb andb] in *.
  - rewrite Ha. cbn [negb obind]. rewrite (upd_same ds d j Nd). eauto 10.
  - cbn [obind]. rewrite (upd_same ds d j Nd). eauto 10.
Qed.

(** C11 *)
Lemma marshal_length D a : length (pending (ah_bytes a)) = (length (ah_bytes a) mod 64)%nat /\ length (a_marshal D a) = 98%nat.
Proof.
  assert (L : length (pending (ah_bytes a)) = (length (ah_bytes a) mod 64)%nat).
  { unfold pending. rewrite skipn_length, Nat.mod_eq by discriminate. reflexivity. }
  split; [assumption|]. unfold a_marshal. apply blob_length. unfold zeros. rewrite app_length, repeat_length, L.
  pose proof (Nat.mod_upper_bound (length (ah_bytes a)) 64 ltac:(discriminate)). lia.
Qed.

(** ** Continuations of a program, abstractly *)
Lemma program_then early D p i c : decides D go_detects -> scoped 0 (calls p) -> (i < created (calls p))%nat -> on_hasher c ->
  exists ds hs rs a, a_run early D [] (calls p) = Some (hs, rs) /\ nth_error hs i = Some a /\ length rs = length p /\
    run_program early (p ++ to i c) = Some (ds, rs ++ snd (a_calls D a (calls c))).
Proof.
  intros HD Hs Hi Hc.
  destruct (program_state early D p i HD Hs Hi) as (ds & hs & rs & a & d & Ep & Ap & Nd & Na & Rd & Fd & Lp).
  destruct (program_refines early D (p ++ to i c) HD) as (ds2 & hs2 & rs2 & E2 & A2 & _).
  { rewrite calls_app. apply scoped_app. split; [assumption|]. cbn [Nat.add]. apply scoped_to; assumption. }
  exists ds2, hs, rs, a. split; [assumption|]. split; [assumption|]. split; [assumption|].
  rewrite E2. rewrite calls_app, a_run_app, Ap, calls_to, (a_run_at early D i _ Hc _ _ Na) in A2.
  injection A2 as _ <-. reflexivity.
Qed.

Lemma a_calls_app D os : forall a os', a_calls D a (os ++ os') =
  (fst (a_calls D (fst (a_calls D a os)) os'), snd (a_calls D a os) ++ snd (a_calls D (fst (a_calls D a os)) os')).
Proof.
  induction os as [|o os IH]; intros a os'; cbn [app a_calls fst snd].
  - destruct (a_calls D a os'). reflexivity.
  - destruct (a_call D o a) as [a1 r1]. rewrite IH. destruct (a_calls D a1 os) as [a2 rs]. cbn [fst snd app].
    destruct (a_calls D a2 os'). reflexivity.
Qed.
Lemma a_write_nil a : a_write a [] = a.
Proof. destruct a. unfold a_write. cbn. rewrite app_nil_r. reflexivity. Qed.
Lemma a_write_write a p q : a_write (a_write a p) q = a_write a (p ++ q).
Proof. unfold a_write. cbn. rewrite app_assoc. reflexivity. Qed.
Lemma a_calls_writes D ws : forall a n, a_calls D a (map (OWrite n) ws) =
  (a_write a (concat ws), map (fun w => RNum (length w)) ws).
Proof.
  induction ws as [|w ws IH]; intros a n; cbn [map a_calls concat a_call].
  - rewrite a_write_nil. reflexivity.
  - rewrite IH, a_write_write. reflexivity.
Qed.

Lemma blob_buf_length b : length b = 98%nat -> length (blob_buf b) = 64%nat.
Proof. intros H. unfold blob_buf. apply sub_length. lia. Qed.

Lemma accepted_ok b : accepted b = true <-> length b = 98%nat /\ firstn 6 b = magic.
Proof.
  unfold accepted. rewrite andb_true_iff, has_magic_ok, Nat.eqb_eq. tauto.
Qed.
Lemma a_unmarshal_accepted D a b : accepted b = true ->
  a_unmarshal D a b = (a_restore D a (blob_st b) (blob_buf b) (blob_len b), RUnit).
Proof. unfold accepted, a_unmarshal. intros H. apply andb_true_iff in H. destruct H as [-> ->]. reflexivity. Qed.

Lemma a_sum_resumed D a b m : length b = 98%nat ->
  a_sum D (a_write (a_restore D a (blob_st b) (blob_buf b) (blob_len b)) m) =
  (st_bytes (fst (resumed D b false m)), (snd (a_mid D a) || snd (resumed D b false m))%bool).
Proof.
  intros Hb. unfold a_sum, resumed, a_restore, a_write, a_len. cbn [ah_start ah_before ah_bytes].
  set (n := N.to_nat (blob_len b mod 64)).
  assert (Hn : (n < 64)%nat) by (unfold n; pose proof (N.mod_upper_bound (blob_len b) 64 ltac:(discriminate)); lia).
  replace (blob_len b - blob_len b mod 64 + N.of_nat (length (firstn n (blob_buf b) ++ m)))
    with (blob_len b + N.of_nat (length m)).
  2:{ rewrite app_length, firstn_length, blob_buf_length, Nat.min_l by lia.
      pose proof (N.mod_le (blob_len b) 64 ltac:(discriminate)). lia. }
  destruct (cd_blocks_flag D (blocks ((firstn n (blob_buf b) ++ m) ++ padding (blob_len b + N.of_nat (length m)))) (blob_st b) (snd (a_mid D a))) as [-> ->].
  reflexivity.
Qed.

(** C12 *)
Lemma hostile early D p j : decides D go_detects -> scoped 0 (calls p) -> (j < created (calls p))%nat ->
  exists f,
    (forall m, written j (calls p) = Some m -> f = snd (cd_blocks D (IV, false) (blocks m))) /\
    forall b ws inp c, accepted b = true -> calls c = OUnmarshal j b :: map (OWrite j) ws ++ [OCRSum j inp; OSum j inp] ->
      exists ds rs,
        run_program early (p ++ c) = Some (ds, rs ++ RUnit :: map (fun w => RNum (length w)) ws ++
          [RVerdict (inp ++ st_bytes (fst (resumed D b false (concat ws)))) (f || snd (resumed D b false (concat ws)));
           RBytes (inp ++ st_bytes (fst (resumed D b false (concat ws))))]) /\ length rs = length p.
Proof.
  intros HD Hs Hj.
  destruct (program_state early D p j HD Hs Hj) as (ds & hs & rs & a & d & Ep & Ap & Nd & Na & Rd & Fd & Lp).
  exists (snd (a_mid D a)). split.
  { intros m Hm. rewrite (a_run_written _ _ _ _ _ _ _ Ap Hm Hj) in Na. injection Na as <-. reflexivity. }
  intros b ws inp c Hb Hc.
  assert (Ht : to j c = c).
  { clear - Hc. unfold to. rewrite <- (map_id c) at 2. apply map_ext_in. intros [m o] Hin. cbn [fst snd id]. f_equal.
    assert (Ho : In o (calls c)) by (unfold calls; change o with (snd (m, o)); apply in_map; assumption).
    rewrite Hc in Ho. destruct Ho as [<-|Ho]; [reflexivity|]. apply in_app_or in Ho. destruct Ho as [Ho|[<-|[<-|[]]]]; try reflexivity.
    apply in_map_iff in Ho. destruct Ho as (w & <- & _). reflexivity. }
  assert (Ho : on_hasher c).
  { unfold on_hasher. rewrite Hc. constructor; [eexists; reflexivity|]. apply Forall_app. split.
    - apply Forall_forall. intros o Hin. apply in_map_iff in Hin. destruct Hin as (w & <- & _). eexists; reflexivity.
    - repeat constructor; eexists; reflexivity. }
  destruct (program_then early D p j c HD Hs Hj Ho) as (ds' & hs' & rs' & a' & Ap' & Na' & Lr & E).
  rewrite Ap in Ap'. injection Ap' as <- <-. rewrite Na in Na'. injection Na' as <-.
  rewrite Ht in E. exists ds', rs. split; [|assumption]. rewrite E. do 3 f_equal.
  rewrite Hc. cbn [a_calls a_call]. rewrite (a_unmarshal_accepted D a b Hb).
  rewrite a_calls_app, a_calls_writes. cbn [fst snd a_calls a_call].
  apply accepted_ok in Hb. rewrite a_sum_resumed by tauto. cbn [fst snd]. reflexivity.
Qed.

Lemma mod64_lt x : (N.to_nat (x mod 64) < 64)%nat.
Proof. pose proof (N.mod_upper_bound x 64 ltac:(discriminate)). lia. Qed.
Lemma canon_length b : length b = 98%nat -> length (canon b) = 98%nat.
Proof.
  intros H. unfold canon. pose proof (mod64_lt (blob_len b)). cbv zeta.
  set (n := N.to_nat (blob_len b mod 64)) in *. clearbody n.
  unfold zeros. rewrite !app_length, firstn_length, repeat_length, skipn_length, H. lia.
Qed.
Lemma canon_blob b : accepted b = true ->
  canon b = blob_of (blob_st b) (firstn (N.to_nat (blob_len b mod 64)) (blob_buf b) ++ zeros (64 - N.to_nat (blob_len b mod 64))) (blob_len b).
Proof.
  intros Hb. apply accepted_ok in Hb. destruct Hb as [Hl Hm]. pose proof (blob_eta b Hl Hm) as E.
  pose proof (mod64_lt (blob_len b)) as Hn. unfold canon. cbv zeta.
  pose proof (blob_buf_length b Hl) as Lb.
  revert E Hn Lb. generalize (blob_st b) (blob_buf b) (blob_len b). intros h buf len E Hn Lb.
  rewrite E. clear E. unfold blob_of.
  set (n := N.to_nat (len mod 64)) in *. clearbody n.
  assert (Lm : length (magic ++ st_bytes h) = 26%nat) by (rewrite app_length, st_bytes_length; reflexivity).
  rewrite (app_assoc magic). rewrite firstn_app, Lm.
  rewrite firstn_all2 by lia. replace (26 + n - 26)%nat with n by lia.
  rewrite firstn_app, Lb. replace (n - 64)%nat with 0%nat by lia. rewrite firstn_O, app_nil_r.
  rewrite skipn_app, Lm. rewrite skipn_all2 by lia. cbn [app].
  rewrite skipn_app, Lb. rewrite skipn_all2 by lia. cbn [app]. change (90 - 26 - 64)%nat with 0%nat. cbn [skipn].
  rewrite <- !app_assoc. reflexivity.
Qed.
Lemma canon_accepted b : accepted b = true -> accepted (canon b) = true.
Proof.
  intros Hb. pose proof (canon_blob b Hb) as E. apply accepted_ok. apply accepted_ok in Hb. destruct Hb as [Hl Hm].
  split; [apply canon_length; assumption|]. rewrite E. reflexivity.
Qed.
Lemma canon_fields b : accepted b = true ->
  blob_st (canon b) = blob_st b /\ blob_len (canon b) = blob_len b /\
  blob_buf (canon b) = firstn (N.to_nat (blob_len b mod 64)) (blob_buf b) ++ zeros (64 - N.to_nat (blob_len b mod 64)).
Proof.
  intros Hb. rewrite (canon_blob b Hb). apply accepted_ok in Hb. destruct Hb as [Hl Hm].
  pose proof (blob_buf_length b Hl) as Lb. pose proof (mod64_lt (blob_len b)) as Hn.
  destruct (blob_fields (blob_st b) (firstn (N.to_nat (blob_len b mod 64)) (blob_buf b) ++ zeros (64 - N.to_nat (blob_len b mod 64))) (blob_len b)) as (A & B & C).
  - apply blob_st_wf. assumption.
  - unfold zeros. rewrite app_length, firstn_length, repeat_length, Lb. lia.
  - apply blob_len_lt. assumption.
  - auto.
Qed.
Lemma canon_canon b : accepted b = true -> canon (canon b) = canon b.
Proof.
  intros Hb. rewrite (canon_blob (canon b)) by (apply canon_accepted; assumption).
  destruct (canon_fields b Hb) as (-> & -> & ->). rewrite (canon_blob b Hb).
  apply accepted_ok in Hb. destruct Hb as [Hl Hm]. pose proof (blob_buf_length b Hl) as Lb. pose proof (mod64_lt (blob_len b)) as Hn.
  do 2 f_equal. set (n := N.to_nat (blob_len b mod 64)) in *.
  rewrite firstn_app, firstn_firstn, firstn_length, Lb, Nat.min_id, Nat.min_l by lia.
  rewrite Nat.sub_diag, firstn_O, app_nil_r. reflexivity.
Qed.

Lemma a_marshal_restore D a b : length b = 98%nat ->
  a_marshal D (a_restore D a (blob_st b) (blob_buf b) (blob_len b)) =
  blob_of (blob_st b) (firstn (N.to_nat (blob_len b mod 64)) (blob_buf b) ++ zeros (64 - N.to_nat (blob_len b mod 64))) (blob_len b).
Proof.
  intros Hl. pose proof (blob_buf_length b Hl) as Lb. pose proof (mod64_lt (blob_len b)) as Hn. pose proof (blob_len_lt b Hl) as Hlen.
  unfold a_marshal, a_restore, a_mid, a_len. cbn [ah_start ah_before ah_bytes].
  set (n := N.to_nat (blob_len b mod 64)) in *.
  assert (Lf : length (firstn n (blob_buf b)) = n) by (rewrite firstn_length; lia).
  unfold pending. rewrite Lf, (Nat.div_small n 64) by lia. change (64 * 0)%nat with 0%nat. cbn [skipn]. rewrite Lf.
  replace (blocks (firstn n (blob_buf b))) with (@nil (list byte)).
  2:{ unfold blocks. rewrite Lf, (Nat.div_small n 64) by lia. reflexivity. }
  cbn [cd_blocks fold_left fst]. f_equal.
  replace (blob_len b - blob_len b mod 64 + N.of_nat n) with (blob_len b).
  - apply N.mod_small. assumption.
  - unfold n. pose proof (N.mod_le (blob_len b) 64 ltac:(discriminate)). lia.
Qed.

Lemma reencode early p j b c : scoped 0 (calls p) -> (j < created (calls p))%nat -> accepted b = true ->
  calls c = [OUnmarshal j b; OMarshal j; OUnmarshal j (canon b); OMarshal j] ->
  exists ds rs, run_program early (p ++ c) = Some (ds, rs ++ [RUnit; RBytes (canon b); RUnit; RBytes (canon b)]) /\ length rs = length p.
Proof.
  intros Hs Hj Hb Hc.
  destruct (program_then early go_decide p j c go_decide_ok Hs Hj) as (ds & hs & rs & a & Ap & Na & Lr & E).
  { unfold on_hasher. rewrite Hc. repeat constructor; eexists; reflexivity. }
  assert (Ht : to j c = c).
  { clear - Hc. unfold to. rewrite <- (map_id c) at 2. apply map_ext_in. intros [m o] Hin. cbn [fst snd id]. f_equal.
    assert (Ho : In o (calls c)) by (unfold calls; change o with (snd (m, o)); apply in_map; assumption).
    rewrite Hc in Ho. cbn [In] in Ho. destruct Ho as [<-|[<-|[<-|[<-|[]]]]]; reflexivity. }
  rewrite Ht in E. exists ds, rs. split; [|assumption]. rewrite E. do 3 f_equal. rewrite Hc. cbn [a_calls a_call].
  rewrite (a_unmarshal_accepted _ _ _ Hb), (a_unmarshal_accepted _ _ _ (canon_accepted b Hb)).
  cbn [snd]. pose proof (canon_blob b Hb) as Eb. pose proof (canon_accepted b Hb) as Hb2. pose proof (canon_blob _ Hb2) as Eb2.
  rewrite (canon_canon b Hb) in Eb2. apply accepted_ok in Hb, Hb2.
  rewrite !a_marshal_restore by tauto. rewrite <- Eb, <- Eb2. reflexivity.
Qed.
(** What MarshalBinary returns is accepted and canonical. *)
Lemma marshal_canon early p k i : scoped 0 (calls p) -> nth_error (calls p) k = Some (OMarshal i) ->
  exists ds rs b, run_program early p = Some (ds, rs) /\ nth_error rs k = Some (RBytes b) /\ accepted b = true /\ canon b = b.
Proof.
  intros Hs Hk. destruct (call_at early go_decide p k _ go_decide_ok Hs Hk) as (ds & rs & hs0 & rs0 & hs1 & r & E & Er & A & X & T).
  cbn [a_exec] in X. cbn [target] in T.
  assert (Hs0 : scoped 0 (firstn k (calls p))).
  { rewrite <- (firstn_skipn k (calls p)) in Hs. apply scoped_app in Hs. tauto. }
  assert (Eq : firstn k (calls p) = calls (firstn k p)) by (unfold calls; apply firstn_map).
  rewrite Eq in *.
  destruct (program_state early go_decide (firstn k p) i go_decide_ok Hs0 T) as (ds2 & hs & rs2 & a & d & Ep & Ap & Nd & Na & Rd & _).
  rewrite Ap in A. injection A as <- <-. rewrite Na in X. injection X as <- <-.
  exists ds, rs, (a_marshal go_decide a). split; [assumption|]. split; [assumption|].
  destruct (Rep_pending _ _ _ _ Rd) as (P1 & P2 & P3). destruct (Rep_fields _ _ _ _ Rd) as (F1 & F2 & F3 & F4).
  pose proof (Rep_nx _ _ _ _ Rd) as Hn.
  assert (Hacc : accepted (a_marshal go_decide a) = true).
  { apply accepted_ok. split; [apply marshal_length|]. reflexivity. }
  split; [assumption|]. rewrite (canon_blob _ Hacc). unfold a_marshal, a_len at 3. rewrite <- F4.
  rewrite (a_mid_R _ _ Rd). cbn [fst].
  set (buf := pending (ah_bytes a) ++ _).
  assert (Lb : length buf = 64%nat) by (unfold buf, zeros; rewrite app_length, repeat_length; lia).
  unfold a_len. rewrite <- F4.
  destruct (blob_fields (dh d) buf (dlen d) (Rep_wf _ _ _ _ Rd) Lb F3) as (-> & -> & ->).
  f_equal. rewrite Hn, Nat2N.id. unfold buf. rewrite firstn_app, P2, Nat.sub_diag, firstn_O, app_nil_r.
  rewrite firstn_all2 by lia. reflexivity.
Qed.

(** C17 *)
Lemma blocks_prefix x : forall y, exists bs, blocks (x ++ y) = blocks x ++ bs.
Proof.
  intros y. rewrite <- (firstn_skipn (64 * (length x / 64)) x), <- app_assoc.
  assert (Hle : (64 * (length x / 64) <= length x)%nat) by (apply Nat.mul_div_le; discriminate).
  assert (L : length (firstn (64 * (length x / 64)) x) = (64 * (length x / 64))%nat) by (rewrite firstn_length; lia).
  rewrite !(blocks_app _ _ _ L). rewrite (blocks_short (skipn _ x)), app_nil_r; [eauto|].
  rewrite skipn_length, <- (Nat.mod_eq (length x) 64) by discriminate. apply Nat.mod_upper_bound. discriminate.
Qed.
Lemma a_mid_write D a p : snd (a_mid D a) = true -> snd (a_mid D (a_write a p)) = true.
Proof.
  unfold a_mid, a_write. cbn [ah_start ah_bytes]. intros H.
  destruct (blocks_prefix (ah_bytes a) p) as [bs ->]. rewrite cd_blocks_app. apply cd_blocks_mono. assumption.
Qed.
Lemma a_sum_flag D a : snd (a_mid D a) = true -> snd (a_sum D a) = true.
Proof.
  unfold a_mid, a_sum. cbn [snd]. intros H.
  destruct (blocks_prefix (ah_bytes a) (padding (a_len a))) as [bs ->]. rewrite cd_blocks_app. apply cd_blocks_mono. assumption.
Qed.
Lemma a_restore_flag D a h buf len : snd (a_mid D a) = true -> snd (a_mid D (a_restore D a h buf len)) = true.
Proof. intros H. unfold a_mid at 1. apply cd_blocks_mono. exact H. Qed.
Lemma a_call_flag D a o : snd (a_mid D a) = true -> (forall i, o <> OReset i) -> snd (a_mid D (fst (a_call D o a))) = true.
Proof.
  intros H Ho. destruct o; cbn [a_call fst]; auto.
  - apply a_mid_write. assumption.
  - exfalso. apply (Ho i). reflexivity.
  - unfold a_unmarshal. destruct (negb _); [assumption|]. destruct (negb _); [assumption|]. apply a_restore_flag. assumption.
Qed.
Lemma a_run_flag early D i os : Forall (fun o => o <> OReset i) os -> forall hs hs' rs a,
  a_run early D hs os = Some (hs', rs) -> nth_error hs i = Some a -> snd (a_mid D a) = true ->
  exists a', nth_error hs' i = Some a' /\ snd (a_mid D a') = true.
Proof.
  induction 1 as [|o os Ho _ IH]; intros hs hs' rs a E Ha Hf; cbn [a_run] in E.
  - injection E as <- <-. eauto.
  - destruct (a_exec early D hs o) as [[hs1 x]|] eqn:E1; [|discriminate].
    destruct (a_run early D hs1 os) as [[hs2 xs]|] eqn:E2; [|discriminate]. injection E as <- <-.
    assert (exists a1, nth_error hs1 i = Some a1 /\ snd (a_mid D a1) = true) as (a1 & Ha1 & Hf1); [|eauto].
    destruct (target o) as [j|] eqn:Et.
    + assert (Hj : exists b, nth_error hs j = Some b).
      { destruct o; cbn [target] in Et; try discriminate; injection Et as ->; cbn [a_exec] in E1;
          destruct (nth_error hs j); try discriminate; eauto. }
      destruct Hj as [b Hb]. rewrite (a_exec_call early D hs o j b Et Hb) in E1. injection E1 as <- <-.
      destruct (Nat.eq_dec i j) as [<-|Hne].
      * rewrite Ha in Hb. injection Hb as <-. eexists. split.
        { apply nth_error_put_eq. apply nth_error_Some. congruence. }
        apply a_call_flag; [assumption|]. intros k ->. cbn [target] in Et. congruence.
      * rewrite nth_error_put_ne by congruence. eauto.
    + destruct o; cbn [target] in Et; try discriminate; cbn [a_exec] in E1.
      * injection E1 as <- <-. rewrite nth_error_app1; [eauto|]. apply nth_error_Some. congruence.
      * injection E1 as <- <-. eauto.
Qed.

Lemma sticky early D p q i k inp m : decides D go_detects -> scoped 0 (calls (p ++ q)) -> (i < created (calls p))%nat ->
  written i (calls p) = Some m -> snd (cd_blocks D (IV, false) (blocks m)) = true ->
  Forall (fun o => o <> OReset i) (firstn k (calls q)) -> nth_error (calls q) k = Some (OCRSum i inp) ->
  exists ds rs b, run_program early (p ++ q) = Some (ds, rs) /\ nth_error rs (length p + k) = Some (RVerdict b true).
Proof.
  intros HD Hs Hi Hm Hf Hq Hk.
  assert (Hk2 : nth_error (calls (p ++ q)) (length p + k) = Some (OCRSum i inp)).
  { rewrite calls_app, nth_error_app2; unfold calls in *; rewrite map_length; [|lia].
    replace (length p + k - length p)%nat with k by lia. assumption. }
  destruct (call_at early D (p ++ q) _ _ HD Hs Hk2) as (ds & rs & hs0 & rs0 & hs1 & r & E & Er & A & X & T).
  assert (Ef : firstn (length p + k) (calls (p ++ q)) = calls p ++ firstn k (calls q)).
  { rewrite calls_app. replace (length p) with (length (calls p)) by (unfold calls; apply map_length). apply firstn_app_2. }
  rewrite Ef, a_run_app in A.
  destruct (a_run early D [] (calls p)) as [[h1 r1]|] eqn:E1; [|discriminate].
  destruct (a_run early D h1 (firstn k (calls q))) as [[h2 r2]|] eqn:E2; [|discriminate]. injection A as <- <-.
  pose proof (a_run_written _ _ _ _ _ _ _ E1 Hm Hi) as Ha.
  destruct (a_run_flag early D i _ Hq _ _ _ _ E2 Ha Hf) as (a' & Ha' & Hf').
  rewrite (a_exec_call early D h2 (OCRSum i inp) i a' eq_refl Ha') in X. assert (Hr : r = RVerdict (inp ++ fst (a_sum D a')) (snd (a_sum D a'))) by (cbn [a_call snd] in X; congruence).
  rewrite Hr, (a_sum_flag D a' Hf') in Er. eauto.
Qed.

(** C18 *)
Lemma oneshot p k data q : scoped 0 (calls p) -> nth_error (calls p) k = Some (OSumPkg data) ->
  calls q = [ONew; OWrite 0 data; OCRSum 0 []] ->
  exists ds rs ds2 b v, run_program false p = Some (ds, rs) /\ nth_error rs k = Some (RVerdict b v) /\
    run_program false q = Some (ds2, [RNew 0; RNum (length data); RVerdict b v]).
Proof.
  intros Hs Hk Hq. destruct (call_at false go_decide p k _ go_decide_ok Hs Hk) as (ds & rs & hs0 & rs0 & hs1 & r & E & Er & A & X & T).
  cbn [a_exec] in X. injection X as _ <-.
  destruct (program_refines false go_decide q go_decide_ok) as (ds2 & hs2 & rs2 & E2 & A2 & _).
  { rewrite Hq. cbn. lia. }
  rewrite Hq in A2. cbn [a_run a_exec app nth_error put] in A2. rewrite a_sum_new in A2. injection A2 as <- <-.
  exists ds, rs, ds2. eauto 10.
Qed.
(** The other evaluation order: same digest; the verdict misses a detection in the padding. *)
Lemma oneshot_early p k data q : scoped 0 (calls p) -> nth_error (calls p) k = Some (OSumPkg data) ->
  calls q = [ONew; OWrite 0 data; OCRSum 0 []] ->
  exists ds rs ds2 b v v', run_program true p = Some (ds, rs) /\ nth_error rs k = Some (RVerdict b v) /\
    run_program true q = Some (ds2, [RNew 0; RNum (length data); RVerdict b v']) /\ (v = true -> v' = true).
Proof.
  intros Hs Hk Hq. destruct (call_at true go_decide p k _ go_decide_ok Hs Hk) as (ds & rs & hs0 & rs0 & hs1 & r & E & Er & A & X & T).
  cbn [a_exec] in X. injection X as _ <-.
  destruct (program_refines true go_decide q go_decide_ok) as (ds2 & hs2 & rs2 & E2 & A2 & _).
  { rewrite Hq. cbn. lia. }
  rewrite Hq in A2. cbn [a_run a_exec app nth_error put] in A2. rewrite a_sum_new in A2. injection A2 as <- <-.
  exists ds, rs, ds2. do 3 eexists. split; [eassumption|]. split; [eassumption|]. split; [eassumption|].
  intros H. rewrite <- a_sum_new. apply a_sum_flag. exact H.
Qed.

(** C19 *)
Lemma thrice early D p j h b len c : decides D go_detects -> scoped 0 (calls p) -> (j < created (calls p))%nat ->
  wfst h -> length b = 64%nat -> len < M64 -> len mod 64 = 0 ->
  calls c = [OUnmarshal j (blob_of h (zeros 64) len); OWrite j b; OMarshal j] ->
  let M := words_of b in
  exists ds rs, run_program early (p ++ c) = Some (ds, rs ++ [RUnit; RNum 64;
      RBytes (blob_of (if D h M then compress (compress (compress h M) M) M else compress h M) (zeros 64) ((len + 64) mod M64))]) /\
    length rs = length p.
Proof.
  intros HD Hs Hj Hh Hb Hl Hm Hc M.
  destruct (program_then early D p j c HD Hs Hj) as (ds & hs & rs & a & Ap & Na & Lr & E).
  { unfold on_hasher. rewrite Hc. repeat constructor; eexists; reflexivity. }
  assert (Ht : to j c = c).
  { clear - Hc. unfold to. rewrite <- (map_id c) at 2. apply map_ext_in. intros [m o] Hin. cbn [fst snd id]. f_equal.
    assert (Ho : In o (calls c)) by (unfold calls; change o with (snd (m, o)); apply in_map; assumption).
    rewrite Hc in Ho. cbn [In] in Ho. destruct Ho as [<-|[<-|[<-|[]]]]; reflexivity. }
  rewrite Ht in E. exists ds, rs. split; [|assumption]. rewrite E. do 3 f_equal. rewrite Hc. cbn [a_calls a_call].
  assert (Ha : accepted (blob_of h (zeros 64) len) = true).
  { apply accepted_ok. split; [apply blob_length|]; reflexivity. }
  rewrite (a_unmarshal_accepted _ _ _ Ha). destruct (blob_fields h (zeros 64) len Hh eq_refl Hl) as (-> & -> & ->).
  rewrite Hb. do 3 f_equal. unfold a_restore, a_marshal, a_write, a_mid, a_len. cbn [snd ah_start ah_before ah_bytes].
  rewrite Hm. change (N.to_nat 0) with 0%nat. cbn [firstn app]. rewrite N.sub_0_r, Hb.
  rewrite (blocks_one b Hb). unfold pending. rewrite Hb. change (64 * (64 / 64))%nat with 64%nat.
  rewrite skipn_all2 by lia. reflexivity.
Qed.

(** C28 *)
Lemma unconditioned : exists D,
  (forall h M, wfst h -> length M = 16%nat -> Forall wf M -> (forall d, (d < 32)%nat -> ~ ubc_holds d (schedule M)) -> D h M = false) /\
  forall early p k i inp m, scoped 0 (calls p) ->
    nth_error (calls p) k = Some (OCRSum i inp) -> written i (firstn k (calls p)) = Some m ->
    exists ds rs, run_program early p = Some (ds, rs) /\
      nth_error rs k = Some (RVerdict (inp ++ fst (cd_sum D m)) (snd (cd_sum D m))).
Proof.
  exists go_decide. split.
  - intros h M Hh HM WM H. destruct (go_decide h M) eqn:E; [|reflexivity].
    apply (go_decide_ok h M Hh HM WM) in E. destruct E as (d & Hd & Hu & _). exfalso. exact (H d Hd Hu).
  - intros early p k i inp m Hs Hk Hm. apply (crsum_exact early go_decide p k i inp m go_decide_ok Hs Hk Hm).
Qed.
Lemma cd_blocks_undetected D bs : forall h, wfst h -> Forall (fun b => length b = 64%nat) bs ->
  Forall (fun b => forall h, wfst h -> D h (words_of b) = false) bs ->
  cd_blocks D (h, false) bs = (sha1_blocks h bs, false).
Proof.
  induction bs as [|b bs IH]; intros h Hh L H; [reflexivity|].
  inversion H as [|? ? H1 H2]; inversion L as [|? ? L1 L2]; subst. rewrite cd_blocks_cons. cbn [fst snd]. unfold cd_block.
  rewrite (H1 h Hh). cbn [orb]. rewrite IH; auto. apply wfst_compress.
Qed.
Lemma unconditioned_sha1 early p k i inp m : scoped 0 (calls p) ->
  nth_error (calls p) k = Some (OCRSum i inp) -> written i (firstn k (calls p)) = Some m ->
  (forall b d, In b (blocks (pad m)) -> (d < 32)%nat -> ~ ubc_holds d (schedule (words_of b))) ->
  exists ds rs, run_program early p = Some (ds, rs) /\ nth_error rs k = Some (RVerdict (inp ++ sha1 m) false).
Proof.
  intros Hs Hk Hm H. destruct (crsum_exact early go_decide p k i inp m go_decide_ok Hs Hk Hm) as (ds & rs & E & Er).
  exists ds, rs. split; [assumption|]. rewrite Er.
  unfold cd_sum, sha1. rewrite cd_blocks_undetected; [reflexivity|repeat split; reflexivity|apply blocks_len|].
  pose proof (blocks_len (pad m)) as L. rewrite Forall_forall in L |- *.
  intros b Hb h Hh. destruct (go_decide h (words_of b)) eqn:Ed; [|reflexivity].
  assert (L64 : length b = 64%nat) by (apply L; assumption).
  apply (go_decide_ok h _ Hh (words_of_length b 16 L64) (wf_words_of b)) in Ed.
  destruct Ed as (d & Hd & Hu & _). exfalso. exact (H b d Hb Hd Hu).
Qed.
