(** Passing Go memory to C. *)

From Coq Require Import Arith NArith ZArith List Strings.Byte Lia Bool ZifyNat.
From Verif Require Import Word WordFacts Spec_Sha1 Spec_Api Spec_C Model_Go Model_C Gen_CSteps Model_CApi Model_CMem Spec_CMem CProcess CCtx CProps CGo CMem CRace Spec_CPass.
Import ListNotations.
Ltac Zify.zify_post_hook ::= idtac.
Local Open Scope N_scope.

Lemma reached cfg c0 os c rs : host_be cfg = macro_be cfg -> ctx_typed c0 -> capi_run cfg c0 (CInit :: os) = Some (c, rs) -> exists a, CR c a.
Proof.
  intros Hcfg T E. cbn [capi_run capi_exec obind] in E.
  destruct (crun_ok cfg Hcfg os _ _ (init_ok c0 T)) as (c' & E' & K). rewrite E' in E. cbn [obind] in E.
  eexists. replace c with c' by congruence. exact K.
Qed.
Lemma reads_or_none t cfg A m c b n m1 c1 : abi_ok t -> A mod a32 t = 0 -> m_Update t cfg A m c b n = Some (m1, c1) -> reads_aligned t cfg (c_total c) b n.
Proof.
  intros HT HA E. unfold reads_aligned. destruct (unaligned cfg) eqn:U; [right|left; reflexivity].
  destruct (first_block (c_total c) n) as [k|] eqn:F; [|exact I].
  destruct (N.eq_dec ((b + k) mod a32 t) 0) as [Z|Z]; [exact Z|]. rewrite (m_Update_bad t cfg A HT HA m c b n k U F Z) in E. discriminate E.
Qed.

Lemma pass_update t cfg c0 os c rs A m b A' m' b' n m1 c1 m1' c1' :
  abi_ok t -> host_be cfg = macro_be cfg -> ctx_typed c0 -> capi_run cfg c0 (CInit :: os) = Some (c, rs) ->
  A mod a32 t = 0 -> A' mod a32 t = 0 -> apart (buffer_at t A) 64 b (N.of_nat n) -> apart (buffer_at t A') 64 b' (N.of_nat n) ->
  context_at t A m c = c -> context_at t A' m' c = c -> mload m b n = mload m' b' n ->
  m_Update t cfg A m c b n = Some (m1, c1) -> m_Update t cfg A' m' c b' n = Some (m1', c1') ->
  context_at t A m1 c1 = context_at t A' m1' c1' /\ only (buffer_at t A) 64 m m1 /\ only (buffer_at t A') 64 m' m1'.
Proof.
  intros HT Hcfg T R HA HA' Hb Hb' S1 S1' El E E'. destruct (reached cfg c0 os c rs Hcfg T R) as [a K].
  destruct (update_ok cfg Hcfg c a (mload m b n) K) as (c2 & U & _).
  assert (U' := U). rewrite El in U'. unfold context_at in S1, S1'.
  rewrite <- S1 in U. rewrite <- S1' in U'.
  destruct (m_Update_ok t cfg A HT HA m c b n c2 (reads_or_none _ _ _ _ _ _ _ _ _ HT HA E) Hb U) as (x & y & E1 & Q & W).
  destruct (m_Update_ok t cfg A' HT HA' m' c b' n c2 (reads_or_none _ _ _ _ _ _ _ _ _ HT HA' E') Hb' U') as (x' & y' & E1' & Q' & W').
  rewrite E in E1. rewrite E' in E1'.
  assert (X : m1 = x /\ c1 = y) by (split; congruence). assert (X' : m1' = x' /\ c1' = y') by (split; congruence).
  destruct X as [-> ->], X' as [-> ->]. unfold sync in Q, Q'. unfold context_at. rewrite <- Q, <- Q'.
  split; [reflexivity|]. split; assumption.
Qed.

Lemma mload_store_apart m out d B : apart B 64 out (N.of_nat (length d)) -> mload (mstore m out d) B 64 = mload m B 64.
Proof. intros H. apply mload_ext. intros x Hx. apply mstore_outside. destruct H; lia. Qed.

Lemma pass_final t cfg c0 os c rs A m P out A' m' P' out' :
  abi_ok t -> host_be cfg = macro_be cfg -> ctx_typed c0 -> capi_run cfg c0 (CInit :: os) = Some (c, rs) ->
  A mod a32 t = 0 -> A' mod a32 t = 0 ->
  apart (buffer_at t A) 64 out 20 -> apart (buffer_at t A') 64 out' 20 -> apart (buffer_at t A) 64 P 64 -> apart (buffer_at t A') 64 P' 64 ->
  context_at t A m c = c -> context_at t A' m' c = c -> mload m P 64 = sha1_padding -> mload m' P' 64 = sha1_padding ->
  exists m1 c1 m1' c1' v,
    m_Final t cfg A P m c out = Some (m1, c1, v) /\ m_Final t cfg A' P' m' c out' = Some (m1', c1', v) /\
    context_at t A m1 c1 = context_at t A' m1' c1' /\ mload m1 out 20 = mload m1' out' 20 /\
    (forall x, x < buffer_at t A \/ buffer_at t A + 64 <= x -> x < out \/ out + 20 <= x -> m1 x = m x) /\
    (forall x, x < buffer_at t A' \/ buffer_at t A' + 64 <= x -> x < out' \/ out' + 20 <= x -> m1' x = m' x).
Proof.
  intros HT Hcfg T R HA HA' Ho Ho' HP HP' S1 S1' EP EP'. destruct (reached cfg c0 os c rs Hcfg T R) as [a K].
  pose proof (final_ok cfg Hcfg c a K) as F. destruct (ch_final cdec a) as [a2 [d f]] eqn:Ef. destruct F as (c2 & F & _).
  assert (Ld : length d = 20%nat).
  { clear - F. unfold SHA1DCFinal in F. destruct (slice_to _ _); [|discriminate F]. cbn [obind] in F. destruct (SHA1DCUpdate _ _ _); [|discriminate F]. cbn [obind] in F.
    destruct (memcpy _ _ _ _); [|discriminate F]. cbn [obind] in F. destruct (sha1_process _ _ _); [|discriminate F]. cbn [obind] in F.
    apply some3 in F. destruct F as (_ & <- & _). reflexivity. }
  assert (F' := F). rewrite <- S1 in F. rewrite <- S1' in F'.
  destruct (m_Final_ok t cfg A HT HA P m c out c2 d _ EP HP F) as (x & y & E1 & Q & W).
  destruct (m_Final_ok t cfg A' HT HA' P' m' c out' c2 d _ EP' HP' F') as (x' & y' & E1' & Q' & W').
  rewrite E1, E1'. exists (mstore x out d), y, (mstore x' out' d), y'. eexists. split; [reflexivity|]. split; [reflexivity|].
  unfold context_at. rewrite !mload_store_apart by (rewrite Ld; assumption). unfold sync in Q, Q'. rewrite <- Q, <- Q'. split; [reflexivity|].
  replace (mload (mstore x out d) out 20) with d by (rewrite <- Ld; symmetry; apply mload_mstore).
  replace (mload (mstore x' out' d) out' 20) with d by (rewrite <- Ld; symmetry; apply mload_mstore). split; [reflexivity|].
  split; intros z Hz Hz'; (rewrite mstore_outside by (rewrite Ld; exact Hz')); [apply W|apply W']; exact Hz.
Qed.

(** ** The pointer in the context *)
Lemma loop_callback cfg : forall fuel c buf c' r, update_loop fuel cfg c buf = Some (c', r) -> c_callback c' = c_callback c.
Proof.
  induction fuel as [|fuel IH]; intros c buf c' r E; cbn [update_loop] in E; destruct (length buf <? 64)%nat; try discriminate E; try congruence.
  cbv zeta in E. destruct (unaligned cfg).
  - destruct (sha1_process _ _ _) as [c1|] eqn:P; [|discriminate E]. cbn [obind] in E. apply process_frame in P. rewrite (IH _ _ _ _ E), (fr_callback _ _ P). reflexivity.
  - destruct (memcpy _ _ _ _); [|discriminate E]. cbn [obind] in E.
    destruct (sha1_process _ _ _) as [c1|] eqn:P; [|discriminate E]. cbn [obind] in E. apply process_frame in P. rewrite (IH _ _ _ _ E), (fr_callback _ _ P). reflexivity.
Qed.
Lemma tail_callback cfg c buf left c' : (do (c, buf) <- update_loop (length buf) cfg c buf;
  if (0 <? length buf)%nat then
    let c := set_total (add64 (c_total c) (N.of_nat (length buf))) c in
    do b <- memcpy (c_buffer c) left buf (length buf);
    Some (set_buffer b c)
  else Some c) = Some c' -> c_callback c' = c_callback c.
Proof.
  destruct (update_loop _ _ _ _) as [[c1 r]|] eqn:L; [|discriminate]. cbn [obind]. apply loop_callback in L. cbv zeta.
  destruct (0 <? length r)%nat; [|congruence]. destruct (memcpy _ _ _ _); [|discriminate]. cbn [obind].
  intros E. replace c' with (set_buffer l (set_total (add64 (c_total c1) (N.of_nat (length r))) c1)) by congruence. exact L.
Qed.
Lemma update_callback cfg c p c' : SHA1DCUpdate cfg c p = Some c' -> c_callback c' = c_callback c.
Proof.
  unfold SHA1DCUpdate. destruct (length p =? 0)%nat; [congruence|]. cbv zeta. destruct (negb _ && _)%bool.
  - destruct (memcpy _ _ _ _); [|discriminate]. cbn [obind]. destruct (sha1_process _ _ _) as [c1|] eqn:P; [|discriminate]. cbn [obind].
    intros E. apply tail_callback in E. apply process_frame in P. rewrite E, (fr_callback _ _ P). reflexivity.
  - cbn [obind]. apply tail_callback.
Qed.
Lemma upd_forall {A} (Q : A -> Prop) x : forall l i, Forall Q l -> Q x -> Forall Q (upd i x l).
Proof. induction l as [|y l IH]; intros [|i] H Hx; cbn; inversion H; subst; constructor; auto. Qed.
Lemma exec_callback cfg ds o ds' r : c_exec cfg ds o = Some (ds', r) ->
  Forall (fun d => c_callback (g_ctx d) = 0) ds -> Forall (fun d => c_callback (g_ctx d) = 0) ds'.
Proof.
  intros E H. destruct o as [|i p|i inp|i inp|i|i|i b|i|i|data]; cbn [c_exec] in E.
  - replace ds' with (ds ++ [cgo_New]) by congruence. apply Forall_app. split; [exact H|]. repeat constructor.
  - destruct (nth_error ds i) as [d|] eqn:Ed; [|discriminate E]. cbn [obind] in E. unfold cgo_Write in E. destruct (length p =? 0)%nat; cbn [obind] in E.
    + replace ds' with (upd i d ds) by congruence. apply upd_forall; [exact H|]. rewrite Forall_forall in H. apply H. eapply nth_error_In; exact Ed.
    + destruct (SHA1DCUpdate cfg (g_ctx d) p) as [c|] eqn:U; [|discriminate E]. cbn [obind] in E.
      replace ds' with (upd i (mkcd c (g_h d)) ds) by congruence. apply upd_forall; [exact H|]. cbn [g_ctx]. rewrite (update_callback _ _ _ _ U).
      rewrite Forall_forall in H. apply H. eapply nth_error_In; exact Ed.
  - destruct (nth_error ds i); [|discriminate E]. cbn [obind] in E. destruct (cgo_Sum _ _ _); [|discriminate E]. cbn [obind] in E. congruence.
  - destruct (nth_error ds i); [|discriminate E]. cbn [obind] in E. destruct (cgo_CollisionResistantSum _ _ _) as [[]|]; [|discriminate E]. cbn [obind] in E. congruence.
  - destruct (nth_error ds i) as [d|]; [|discriminate E]. cbn [obind] in E. replace ds' with (upd i (cgo_Reset d) ds) by congruence.
    apply upd_forall; [exact H|reflexivity].
  - discriminate E.
  - discriminate E.
  - destruct (nth_error ds i); [|discriminate E]. cbn [obind] in E. congruence.
  - destruct (nth_error ds i); [|discriminate E]. cbn [obind] in E. congruence.
  - destruct (cgo_SumPkg _ _) as [[]|]; [|discriminate E]. cbn [obind] in E. congruence.
Qed.
Lemma no_pointer cfg : forall os ds ds' rs, Forall (fun d => c_callback (g_ctx d) = 0) ds -> c_run cfg ds os = Some (ds', rs) ->
  Forall (fun d => c_callback (g_ctx d) = 0) ds'.
Proof.
  induction os as [|o os IH]; intros ds ds' rs H E; cbn [c_run] in E; [congruence|].
  destruct (c_exec cfg ds o) as [[d1 x]|] eqn:X; [|discriminate E]. cbn [obind] in E.
  destruct (c_run cfg d1 os) as [[d2 xs]|] eqn:Y; [|discriminate E]. cbn [obind] in E.
  replace ds' with d2 by congruence. exact (IH _ _ _ (exec_callback _ _ _ _ _ X H) Y).
Qed.
Lemma pass_pointer cfg os ds rs : c_run cfg [] os = Some (ds, rs) -> forall d, In d ds -> c_callback (g_ctx d) = 0.
Proof. intros E. apply Forall_forall. exact (no_pointer cfg os [] ds rs (Forall_nil _) E). Qed.

(** ** Calls in memories of their own *)
Lemma moved_run t cfg : abi_ok t -> host_be cfg = macro_be cfg -> forall c os c2 rs, moved t cfg c os c2 rs -> forall a, CR c a -> capi_run cfg c os = Some (c2, rs).
Proof.
  intros HT Hcfg c os c2 rs M. induction M as [c|c o c1 r os c2 rs Ho E M IH|c A m b p m1 c1 os c2 rs HA Hb S1 El E M IH|c A P m out m1 c1 v os c2 rs HA HP Ho S1 EP E M IH]; intros a K; cbn [capi_run].
  - reflexivity.
  - destruct (exec_ok cfg Hcfg c a o K) as (c3 & E3 & K3). rewrite E. cbn [obind]. rewrite E in E3. replace c3 with c1 in K3 by congruence. rewrite (IH _ K3). reflexivity.
  - destruct (update_ok cfg Hcfg c a p K) as (c3 & U & K3). cbn [capi_exec]. rewrite U. cbn [obind].
    rewrite <- El in U. unfold context_at in S1. rewrite <- S1 in U.
    destruct (m_Update_ok t cfg A HT HA m c b _ c3 (reads_or_none _ _ _ _ _ _ _ _ _ HT HA E) Hb U) as (x & y & E1 & Q & W).
    rewrite E in E1. assert (X : m1 = x /\ c1 = y) by (split; congruence). destruct X as [-> ->].
    unfold context_at in IH. unfold sync in Q. rewrite <- Q in IH. rewrite (IH _ K3). reflexivity.
  - pose proof (final_ok cfg Hcfg c a K) as F. destruct (ch_final cdec a) as [a2 [d f]] eqn:Ef. destruct F as (c3 & F & K3).
    cbn [capi_exec]. rewrite F. cbn [obind].
    assert (Ld : length d = 20%nat).
    { unfold ch_final in Ef. injection Ef as _ <- _. destruct (fst _). reflexivity. }
    unfold context_at in S1. rewrite <- S1 in F.
    destruct (m_Final_ok t cfg A HT HA P m c out c3 d _ EP HP F) as (x & y & E1 & Q & W).
    rewrite E in E1. assert (X : m1 = mstore x out d /\ c1 = y /\ v = (if f then 1 else 0)%Z) by (repeat apply conj; congruence). destruct X as (-> & -> & ->).
    unfold context_at in IH. rewrite mload_store_apart in IH by (rewrite Ld; exact Ho). unfold sync in Q. rewrite <- Q in IH. rewrite (IH _ K3). cbn [obind].
    replace (mload (mstore x out d) out 20) with d by (rewrite <- Ld; symmetry; apply mload_mstore). reflexivity.
Qed.
Lemma moved_right t cfg c0 os c rs : abi_ok t -> host_be cfg = macro_be cfg -> ctx_typed c0 -> moved t cfg c0 (CInit :: os) c rs ->
  capi_run cfg c0 (CInit :: os) = Some (c, rs).
Proof.
  intros HT Hcfg T M. inversion M as [|? ? c1 r ? ? rs1 _ E M1 | |]; subst. cbn [capi_run]. rewrite E. cbn [obind].
  cbn [capi_exec] in E. replace c1 with (SHA1DCInit c0) in * by congruence.
  rewrite (moved_run t cfg HT Hcfg _ _ _ _ M1 _ (init_ok c0 T)). reflexivity.
Qed.
