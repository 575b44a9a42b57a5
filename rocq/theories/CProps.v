(** Consequences for users of the C library. *)

From Coq Require Import Arith ZArith NArith String List Strings.Byte Lia Bool ZifyNat.
From Verif Require Import Word WordFacts Spec_Sha1 Sha1Facts Spec_DV Spec_Cd DvFacts Model_Go Model_Api Model_Block GoCheck GoBlock GoApi GoStore
  GoProps GoProps2 GoDetect Spec_Api Model_CSteps Gen_CSteps Model_C Model_CBuild Spec_C Model_CApi CSteps CProcess CCtx CGo.
Import ListNotations.
Local Open Scope N_scope.
Ltac Zify.zify_post_hook ::= idtac.

(** ** Any decision procedure *)
Section Agree.
  Variables D E : copts -> st -> list word -> bool.
  Hypothesis HD : forall o, agree (D o) (E o).
  Lemma cc_block_agree o s b : List.length b = 64%nat -> wfst (fst s) -> cc_block D o s b = cc_block E o s b.
  Proof. intros Hb Hs. unfold cc_block. cbv zeta. rewrite HD by (auto using wf_words_of, words_of_length). reflexivity. Qed.
  Lemma cc_blocks_agree o bs : forall s, Forall (fun b => List.length b = 64%nat) bs -> wfst (fst s) ->
    cc_blocks D o s bs = cc_blocks E o s bs.
  Proof.
    induction bs as [|b bs IH]; intros s Hb Hs; [reflexivity|]. inversion Hb as [|? ? Hb1 Hb2]; subst.
    change (cc_blocks D o (cc_block D o s b) bs = cc_blocks E o (cc_block E o s b) bs).
    rewrite cc_block_agree by assumption. apply IH; [assumption|]. apply wfst_cc_block. assumption.
  Qed.
  Lemma wfst_cc_blocks o bs : forall s, wfst (fst s) -> wfst (fst (cc_blocks E o s bs)).
  Proof. induction bs as [|b bs IH]; intros s Hs; [exact Hs|]. exact (IH _ (wfst_cc_block E o s b Hs)). Qed.
  Lemma ch_exec_agree a op : wfst (fst (ch_mid a)) -> ch_exec D a op = ch_exec E a op /\ wfst (fst (ch_mid (fst (ch_exec E a op)))).
  Proof.
    intros Ha. destruct op; cbn [ch_exec fst ch_mid]; try (split; [reflexivity|exact Ha]).
    - split; [reflexivity|apply wfst_IV].
    - unfold ch_write. rewrite cc_blocks_agree by (auto using blocks_len). split; [reflexivity|]. apply wfst_cc_blocks. assumption.
    - unfold ch_final. rewrite cc_blocks_agree by (auto using blocks_len). split; [reflexivity|]. apply wfst_cc_blocks. assumption.
  Qed.
  Lemma ch_run_agree ops : forall a, wfst (fst (ch_mid a)) -> ch_run D a ops = ch_run E a ops.
  Proof.
    induction ops as [|op ops IH]; intros a Ha; [reflexivity|]. cbn [ch_run].
    destruct (ch_exec_agree a op Ha) as [E1 W]. rewrite E1. destruct (ch_exec E a op) as [a1 r]. cbn [fst] in W. rewrite (IH a1 W). reflexivity.
  Qed.
  Lemma cc_sum_agree o m : cc_sum D o m = cc_sum E o m.
  Proof. unfold cc_sum. rewrite cc_blocks_agree by (auto using blocks_len, wfst_IV). reflexivity. Qed.
End Agree.

Lemma cdecides_agree D : cdecides D -> forall o, agree (D o) (cdec o).
Proof.
  intros HD o h M Hh HM WM. pose proof (HD o h M Hh HM WM) as A. pose proof (cdec_decides o h M Hh HM WM) as B.
  destruct (D o h M), (cdec o h M); intuition congruence.
Qed.

Lemma capi_refines cfg D c ops : host_be cfg = macro_be cfg -> cdecides D -> ctx_typed c ->
  exists c', capi_run cfg c (CInit :: ops) = Some (c', CNone :: snd (ch_run D ch_init ops)).
Proof.
  intros Hcfg HD T. destruct (capi_ok cfg Hcfg c ops T) as (c' & E & _).
  rewrite (ch_run_agree D cdec (cdecides_agree D HD)) by apply wfst_IV. eauto.
Qed.

(** ** Sessions *)
Lemma ch_write_write D a p q : ch_write D (ch_write D a p) q = ch_write D a (p ++ q).
Proof.
  unfold ch_write. cbn [ch_mid ch_pend ch_len ch_opts]. rewrite app_assoc.
  destruct (blocks_pending (ch_pend a ++ p) q) as [E1 E2]. rewrite E1, E2, cc_blocks_app, !app_length. f_equal. lia.
Qed.
Lemma ch_run_app D ops ops' : forall a, ch_run D a (ops ++ ops') =
  (fst (ch_run D (fst (ch_run D a ops)) ops'), snd (ch_run D a ops) ++ snd (ch_run D (fst (ch_run D a ops)) ops')).
Proof.
  induction ops as [|op ops IH]; intros a; cbn [app ch_run fst snd].
  - destruct (ch_run D a ops'). reflexivity.
  - destruct (ch_exec D a op) as [a1 r]. rewrite IH. destruct (ch_run D a1 ops) as [a2 rs]. reflexivity.
Qed.
Lemma ch_run_sets D sets : Forall (fun c => setter c = true) sets -> forall a, ch_run D a sets =
  (mkch (ch_mid a) (ch_pend a) (ch_len a) (fold_left set_opt sets (ch_opts a)), repeat CNone (List.length sets)).
Proof.
  induction 1 as [|c sets Hc _ IH]; intros a.
  - destruct a. reflexivity.
  - cbn [ch_run]. destruct c; try discriminate; cbn [ch_exec]; rewrite IH; reflexivity.
Qed.
Lemma ch_run_updates D ws : forall a, ch_pend a = pending (ch_pend a) -> ch_run D a (map CUpdate ws) = (ch_write D a (concat ws), repeat CNone (List.length ws)).
Proof.
  induction ws as [|w ws IH]; intros a Ha; cbn [map ch_run concat ch_exec].
  - unfold ch_write. rewrite app_nil_r, <- Ha. replace (blocks (ch_pend a)) with (@nil (list byte)).
    + destruct a as [x1 x2 x3 x4]. cbn [ch_mid ch_pend ch_len ch_opts cc_blocks fold_left]. do 2 f_equal. cbn. lia.
    + rewrite Ha. symmetry. apply blocks_lt, pending_lt.
  - rewrite IH.
    + rewrite ch_write_write. reflexivity.
    + unfold ch_write. cbn [ch_pend]. symmetry. apply pending_short, pending_lt.
Qed.
Lemma session_run D sets ws : Forall (fun c => setter c = true) sets ->
  snd (ch_run D ch_init (sets ++ map CUpdate ws ++ [CFinal])) =
  repeat CNone (List.length sets + List.length ws) ++
    [CDigest (fst (cc_sum D (opts_of sets) (concat ws))) (if snd (cc_sum D (opts_of sets) (concat ws)) then 1 else 0)%Z].
Proof.
  intros Hs. rewrite ch_run_app. cbn [snd]. rewrite ch_run_sets by assumption. cbn [fst snd].
  rewrite ch_run_app. cbn [snd]. rewrite ch_run_updates by reflexivity. cbn [fst snd].
  rewrite repeat_app, <- app_assoc. do 2 f_equal.
  cbn [ch_mid ch_pend ch_len ch_opts ch_init].
  unfold ch_write. cbn [ch_mid ch_pend ch_len ch_opts ch_init app].
  cbn [ch_run ch_exec]. unfold ch_final. cbn [ch_mid ch_pend ch_len ch_opts].
  set (m := concat ws). rewrite N.add_0_l. cbn [snd]. unfold cc_sum, opts_of, pad.
  destruct (blocks_pending m (padding (N.of_nat (List.length m)))) as [E1 _].
  rewrite E1, cc_blocks_app. reflexivity.
Qed.
Lemma session_ok cfg D c sets ws : host_be cfg = macro_be cfg -> cdecides D -> ctx_typed c -> Forall (fun c => setter c = true) sets ->
  exists c', capi_run cfg c (session sets ws) = Some (c', repeat CNone (1 + List.length sets + List.length ws) ++
    [CDigest (fst (cc_sum D (opts_of sets) (concat ws))) (if snd (cc_sum D (opts_of sets) (concat ws)) then 1 else 0)%Z]).
Proof.
  intros Hcfg HD T Hs. destruct (capi_refines cfg D c (sets ++ map CUpdate ws ++ [CFinal]) Hcfg HD T) as (c' & E).
  exists c'. unfold session. rewrite E, session_run by assumption. reflexivity.
Qed.

(** ** Options *)
Lemma cc_blocks_plain D o bs : (forall h M, wfst h -> List.length M = 16%nat -> Forall wf M -> (D o h M && o_safe o)%bool = false) ->
  forall s, Forall (fun b => List.length b = 64%nat) bs -> wfst (fst s) -> fst (cc_blocks D o s bs) = sha1_blocks (fst s) bs.
Proof.
  intros H. induction bs as [|b bs IH]; intros s Hb Hs; [reflexivity|]. inversion Hb as [|? ? Hb1 Hb2]; subst.
  change (fst (cc_blocks D o (cc_block D o s b) bs) = sha1_blocks (compress (fst s) (words_of b)) bs).
  rewrite IH by (try assumption; apply wfst_cc_block; assumption).
  unfold cc_block. cbn [fst]. rewrite H by (auto using wf_words_of, words_of_length). reflexivity.
Qed.
Lemma cc_blocks_verdict D o bs : forall s, snd (cc_blocks D o s bs) = true <->
  snd s = true \/ exists k b, nth_error bs k = Some b /\ D o (fst (cc_blocks D o s (firstn k bs))) (words_of b) = true.
Proof.
  induction bs as [|b bs IH]; intros s.
  - cbn. split; [auto|]. intros [H|(k & b & H & _)]; [exact H|]. destruct k; discriminate.
  - change (snd (cc_blocks D o (cc_block D o s b) bs) = true <-> snd s = true \/
      exists k b0, nth_error (b :: bs) k = Some b0 /\ D o (fst (cc_blocks D o s (firstn k (b :: bs)))) (words_of b0) = true).
    rewrite IH. unfold cc_block at 1. cbn [snd]. rewrite orb_true_iff. split.
    + intros [[H|H]|(k & b' & Hk & H)]; [auto| |]; right.
      * exists 0%nat, b. split; [reflexivity|exact H].
      * exists (S k), b'. split; [exact Hk|exact H].
    + intros [H|(k & b' & Hk & H)]; [auto|]. destruct k as [|k].
      * left. right. cbn [nth_error] in Hk. injection Hk as <-. exact H.
      * right. exists k, b'. split; [exact Hk|exact H].
Qed.
Lemma cc_blocks_mono D o bs : forall s, snd s = true -> snd (cc_blocks D o s bs) = true.
Proof. intros s H. apply cc_blocks_verdict. auto. Qed.

Lemma weaker_flags o o' h M : weaker o o' -> flagged o h M -> flagged o' h M.
Proof.
  intros (W1 & W2 & W3) (Hd & d & H1 & H2 & H3). split; [auto|]. exists d. split; [exact H1|]. split; [auto|].
  destruct H3 as [H3|[H3 H4]]; [left; exact H3|right; auto].
Qed.
Lemma cc_blocks_weaker D o o' bs : cdecides D -> weaker o o' -> forall h f f', (f = true -> f' = true) -> wfst h ->
  Forall (fun b => List.length b = 64%nat) bs ->
  snd (cc_blocks D o (h, f) bs) = true -> snd (cc_blocks D o' (h, f') bs) = true.
Proof.
  intros HD W. induction bs as [|b bs IH]; intros h f f' Hf Hh Hb; [exact Hf|]. inversion Hb as [|? ? Hb1 Hb2]; subst.
  change (snd (cc_blocks D o (cc_block D o (h, f) b) bs) = true -> snd (cc_blocks D o' (cc_block D o' (h, f') b) bs) = true).
  unfold cc_block. cbn [fst snd]. set (M := words_of b).
  assert (LM : List.length M = 16%nat) by (apply words_of_length; rewrite Hb1; reflexivity).
  assert (X : D o h M = true -> D o' h M = true).
  { rewrite (HD o h M), (HD o' h M) by (auto; apply wf_words_of). apply weaker_flags. exact W. }
  destruct (D o' h M) eqn:E'.
  - intros _. apply cc_blocks_mono. cbn [snd]. apply orb_true_r.
  - destruct (D o h M); [discriminate (X eq_refl)|]. cbn [andb]. rewrite !orb_false_r.
    apply IH; auto. apply wfst_compress.
Qed.
Lemma cc_sum_weaker D o o' m : cdecides D -> weaker o o' -> snd (cc_sum D o m) = true -> snd (cc_sum D o' m) = true.
Proof.
  intros HD W. unfold cc_sum. cbn [snd]. apply cc_blocks_weaker; auto using blocks_len. apply wfst_IV.
Qed.
Lemma cc_sum_detect_off D o m : cdecides D -> o_detect o = false -> cc_sum D o m = (sha1 m, false).
Proof.
  intros HD Ho. assert (X : forall h M, wfst h -> List.length M = 16%nat -> Forall wf M -> D o h M = false).
  { intros h M Hh HM WM. destruct (D o h M) eqn:E; [|reflexivity]. apply HD in E; auto. destruct E as [E _]. congruence. }
  unfold cc_sum, sha1. cbv zeta. f_equal.
  - rewrite cc_blocks_plain; auto using blocks_len, wfst_IV. intros. rewrite X; auto.
  - apply not_true_is_false. intros V. apply cc_blocks_verdict in V. destruct V as [V|(k & b & Hk & V)]; [discriminate|].
    rewrite X in V; [discriminate| | |].
    + apply wfst_cc_blocks. apply wfst_IV.
    + apply words_of_length. exact (nth_blocks_len _ _ _ Hk).
    + apply wf_words_of.
Qed.
Lemma cc_sum_safe_off D o m : cdecides D -> o_safe o = false ->
  fst (cc_sum D o m) = sha1 m /\
  (snd (cc_sum D o m) = true <-> exists k b, nth_error (blocks (pad m)) k = Some b /\
     flagged o (sha1_blocks IV (firstn k (blocks (pad m)))) (words_of b)).
Proof.
  intros HD Ho. assert (X : forall h M, wfst h -> List.length M = 16%nat -> Forall wf M -> (D o h M && o_safe o)%bool = false).
  { intros. rewrite Ho. apply andb_false_r. }
  unfold cc_sum, sha1. cbn [fst snd]. split.
  - f_equal. rewrite (cc_blocks_plain D o); auto using blocks_len, wfst_IV.
  - rewrite cc_blocks_verdict. cbn [snd].
    assert (P : forall k, fst (cc_blocks D o (IV, false) (firstn k (blocks (pad m)))) = sha1_blocks IV (firstn k (blocks (pad m)))).
    { intros k. rewrite (cc_blocks_plain D o); auto using wfst_IV. apply Forall_forall. intros b Hb.
      pose proof (blocks_len (pad m)) as F. rewrite Forall_forall in F. apply F.
      rewrite <- (firstn_skipn k (blocks (pad m))). apply in_or_app. auto. }
    assert (Q : forall k b, nth_error (blocks (pad m)) k = Some b ->
      (D o (fst (cc_blocks D o (IV, false) (firstn k (blocks (pad m))))) (words_of b) = true <->
       flagged o (sha1_blocks IV (firstn k (blocks (pad m)))) (words_of b))).
    { intros k b Hk. rewrite <- P. apply HD.
      - apply wfst_cc_blocks. apply wfst_IV.
      - apply words_of_length. exact (nth_blocks_len _ _ _ Hk).
      - apply wf_words_of. }
    split.
    + intros [H|(k & b & Hk & H)]; [discriminate|]. exists k, b. split; [exact Hk|]. apply Q; assumption.
    + intros (k & b & Hk & H). right. exists k, b. split; [exact Hk|]. apply Q; assumption.
Qed.

Lemma detection_off cfg c sets ws : host_be cfg = macro_be cfg -> ctx_typed c -> Forall (fun c => setter c = true) sets ->
  o_detect (opts_of sets) = false ->
  exists c', capi_run cfg c (session sets ws) =
    Some (c', repeat CNone (1 + List.length sets + List.length ws) ++ [CDigest (sha1 (concat ws)) 0%Z]).
Proof.
  intros Hcfg T Hs Ho. destruct (session_ok cfg cdec c sets ws Hcfg cdec_decides T Hs) as (c' & E).
  exists c'. rewrite E, (cc_sum_detect_off cdec _ _ cdec_decides Ho). reflexivity.
Qed.
Lemma safe_off cfg c sets ws : host_be cfg = macro_be cfg -> ctx_typed c -> Forall (fun c => setter c = true) sets ->
  o_safe (opts_of sets) = false ->
  exists c' v, capi_run cfg c (session sets ws) =
    Some (c', repeat CNone (1 + List.length sets + List.length ws) ++ [CDigest (sha1 (concat ws)) v]) /\ (v = 0 \/ v = 1)%Z /\
    (v = 1%Z <-> exists k b, nth_error (blocks (pad (concat ws))) k = Some b /\
       flagged (opts_of sets) (sha1_blocks IV (firstn k (blocks (pad (concat ws))))) (words_of b)).
Proof.
  intros Hcfg T Hs Ho. destruct (session_ok cfg cdec c sets ws Hcfg cdec_decides T Hs) as (c' & E).
  destruct (cc_sum_safe_off cdec (opts_of sets) (concat ws) cdec_decides Ho) as [F V].
  exists c', (if snd (cc_sum cdec (opts_of sets) (concat ws)) then 1 else 0)%Z. rewrite E, F. split; [reflexivity|].
  rewrite <- V. destruct (snd (cc_sum cdec (opts_of sets) (concat ws))); split; auto; split; auto; discriminate.
Qed.
Lemma options_monotone cfg cfg' c c0 sets sets' ws ws' : host_be cfg = macro_be cfg -> host_be cfg' = macro_be cfg' ->
  ctx_typed c -> ctx_typed c0 -> Forall (fun c => setter c = true) sets -> Forall (fun c => setter c = true) sets' ->
  concat ws = concat ws' -> weaker (opts_of sets) (opts_of sets') ->
  exists c1 c2 r r' b b' v v', capi_run cfg c (session sets ws) = Some (c1, r ++ [CDigest b v]) /\
    capi_run cfg' c0 (session sets' ws') = Some (c2, r' ++ [CDigest b' v']) /\ (v <> 0 -> v' <> 0)%Z.
Proof.
  intros H1 H2 T1 T2 S1 S2 Ec W.
  destruct (session_ok cfg cdec c sets ws H1 cdec_decides T1 S1) as (c1 & E1).
  destruct (session_ok cfg' cdec c0 sets' ws' H2 cdec_decides T2 S2) as (c2 & E2).
  exists c1, c2. do 6 eexists. split; [exact E1|]. split; [exact E2|]. rewrite <- Ec.
  pose proof (cc_sum_weaker cdec _ _ (concat ws) cdec_decides W) as X.
  destruct (snd (cc_sum cdec (opts_of sets) (concat ws))); [|congruence].
  rewrite (X eq_refl). congruence.
Qed.

(** The callback. *)
Lemma callback_inert D ops : forall a, ch_run D a (filter not_callback ops) =
  (fst (ch_run D a ops), map snd (filter (fun x => not_callback (fst x)) (combine ops (snd (ch_run D a ops))))).
Proof.
  induction ops as [|op ops IH]; intros a; [reflexivity|].
  cbn [filter ch_run]. destruct (ch_exec D a op) as [a1 r] eqn:E.
  specialize (IH a1). destruct (ch_run D a1 ops) as [a2 rs] eqn:E2. cbn [fst snd] in *. cbn [combine filter fst].
  destruct (not_callback op) eqn:Ec.
  - cbn [ch_run map snd]. rewrite E, IH. reflexivity.
  - destruct op; try discriminate. cbn [ch_exec set_opt] in E. injection E as <- <-.
    replace (mkch (ch_mid a) (ch_pend a) (ch_len a) (ch_opts a)) with a in IH by (destruct a; reflexivity). exact IH.
Qed.
Lemma capi_callback cfg c ops : host_be cfg = macro_be cfg -> ctx_typed c ->
  exists c1 c2 rs, capi_run cfg c (CInit :: ops) = Some (c1, CNone :: rs) /\
    capi_run cfg c (CInit :: filter not_callback ops) =
      Some (c2, CNone :: map snd (filter (fun x => not_callback (fst x)) (combine ops rs))).
Proof.
  intros Hcfg T. destruct (capi_refines cfg cdec c ops Hcfg cdec_decides T) as (c1 & E1).
  destruct (capi_refines cfg cdec c (filter not_callback ops) Hcfg cdec_decides T) as (c2 & E2).
  rewrite callback_inert in E2. cbn [snd] in E2. eauto.
Qed.

(** ** Recompression *)
Lemma steps_at t W h : (t <= List.length W)%nat -> steps 0 W h = steps t (skipn t W) (steps 0 (firstn t W) h).
Proof.
  intros Ht. rewrite <- (firstn_skipn t W) at 1. rewrite steps_app, firstn_length, Nat.min_l by assumption. reflexivity.
Qed.
Lemma recompression_any T W s : List.length W = 80%nat -> wfst s ->
  match sha1_recompression_step T W s with
  | Some (hin, hout) => (T = 58 \/ T = 65)%nat /\ wfst hin /\ 
      steps 0 (firstn T W) hin = (if (T =? 58)%nat then mkst (sc s) (sd s) (se s) (sa s) (sb s) else s) /\
      hout = addst hin (steps 0 W hin)
  | None => (T <> 58 /\ T <> 65)%nat
  end.
Proof.
  intros HW Hs. rewrite recompression_step_eq.
  destruct (Nat.eqb_spec T 58) as [->|H1]; [|destruct (Nat.eqb_spec T 65) as [->|H2]]; cbn [orb].
  3: split; assumption.
  all: rewrite recompress_fast_eq by (auto; lia).
  - split; [auto|]. set (s' := view 58 s).
    assert (Hs' : wfst s') by (unfold s', view; destruct Hs as (? & ? & ? & ? & ?); repeat split; assumption).
    split; [apply wfst_unsteps; assumption|]. split.
    + apply steps_unsteps. assumption.
    + rewrite (steps_at 58 W) by lia. rewrite (steps_unsteps _ _ _ Hs'). reflexivity.
  - split; [auto|]. change (view 65 s) with s.
    split; [apply wfst_unsteps; assumption|]. split.
    + apply steps_unsteps. assumption.
    + rewrite (steps_at 65 W) by lia. rewrite (steps_unsteps _ _ _ Hs). reflexivity.
Qed.

Lemma recompression_inverts cfg h block W0 sts0 : host_be cfg = macro_be cfg -> wfst h -> List.length block = 64%nat ->
  List.length W0 = 80%nat -> List.length sts0 = 80%nat ->
  exists sts, sha1_compression_states cfg h block W0 sts0 = (compress h (words_of block), schedule (words_of block), sts) /\
    forall T, (T = 58 \/ T = 65)%nat ->
      sha1_recompression_step T (schedule (words_of block)) (nth T sts st0) = Some (h, compress h (words_of block)).
Proof.
  intros Hcfg Hh Hb HW Hs.
  destruct (compression_states_eq cfg h block Hcfg Hh Hb W0 sts0 HW Hs) as (sts & E & Ls & E58 & E65).
  exists sts. split; [exact E|]. set (M := words_of block) in *.
  assert (HM : List.length M = 16%nat) by (apply words_of_length; rewrite Hb; reflexivity).
  intros T HT. rewrite recompression_step_eq.
  replace ((T =? 58)%nat || (T =? 65)%nat) with true by (destruct HT as [-> | ->]; reflexivity).
  assert (V : view T (nth T sts st0) = state_at T h M) by (destruct HT as [-> | ->]; assumption).
  pose proof (schedule_length M HM) as LW.
  rewrite recompress_fast_eq.
  - rewrite V. change (unsteps 0 (firstn T (schedule M)) (state_at T h M)) with (back_to T (state_at T h M) M).
    rewrite (back_state_at T h M Hh). f_equal. f_equal. symmetry. apply compress_split; [assumption|lia].
  - lia.
  - exact LW.
  - apply (view_wf T). rewrite V. auto with wf.
Qed.

(** ** Both members of a colliding pair *)
Lemma c_both_detected cfg cfg' c c0 d b : host_be cfg = macro_be cfg -> host_be cfg' = macro_be cfg' -> ctx_typed c -> ctx_typed c0 ->
  wfst (c_ihv c) -> truth (c_detect c) = true -> truth (c_detect c0) = true ->
  List.length b = 64%nat -> attacked_by d (c_ihv c) (words_of b) ->
  exists h' b', wfst h' /\ List.length b' = 64%nat /\ b' <> b /\ words_of b' = sib_block (the_dv d) (words_of b) /\
    compress h' (words_of b') = compress (c_ihv c) (words_of b) /\
    (exists c', sha1_process cfg c b = Some c' /\ c_found c' = 1%Z) /\
    (c_ihv c0 = h' -> exists c', sha1_process cfg' c0 b' = Some c' /\ c_found c' = 1%Z).
Proof.
  intros H1 H2 (T1 & T2 & T3 & T4) (U1 & U2 & U3 & U4) Hh Hd Hd0 Hb Ha.
  set (M := words_of b) in *. assert (HM : List.length M = 16%nat) by (apply words_of_length; rewrite Hb; reflexivity).
  assert (HMw : Forall wf M) by apply wf_words_of.
  pose proof Ha as (Hlt & _).
  destruct (attacked_sym d (c_ihv c) M Hh HM HMw Ha) as (h' & S & A').
  destruct S as (Wh' & S1 & S2). set (M' := sib_block (the_dv d) M) in *.
  assert (HM' : List.length M' = 16%nat) by (apply sib_block_length; assumption).
  assert (HMw' : Forall wf M') by (apply sib_block_wf; assumption).
  assert (Any : forall det ubc red h N, wfst h -> List.length N = 16%nat -> Forall wf N -> det = true -> attacked_by d h N -> c_decide det ubc red h N = true).
  { intros det ubc red h N W L F -> (Hx & Hu & Hy). apply (cdec_decides (mkco true ubc red true) h N W L F).
    split; [reflexivity|]. exists d. split; [exact Hx|]. split; [intros _; exact Hu|]. left. exact Hy. }
  exists h', (bytes_of M'). split; [exact Wh'|]. split; [rewrite bytes_of_length, HM'; reflexivity|].
  rewrite words_of_bytes_of by assumption. split.
  { intros E. apply (f_equal words_of) in E. rewrite words_of_bytes_of in E by assumption. fold M in E.
    revert E. apply sib_block_neq; assumption. }
  split; [reflexivity|]. split; [exact S2|]. split.
  - destruct (process_eq cfg c b H1 Hh Hb T2 T4) as (c' & E & Af). cbv zeta in Af. fold M in Af.
    exists c'. split; [exact E|]. destruct Af as [_ _ _ _ _ _ _ _ Af _ _]. rewrite Af, Any; auto.
  - intros E0. assert (L' : List.length (bytes_of M') = 64%nat) by (rewrite bytes_of_length, HM'; reflexivity).
    assert (Hh0 : wfst (c_ihv c0)) by (rewrite E0; exact Wh').
    destruct (process_eq cfg' c0 (bytes_of M') H2 Hh0 L' U2 U4) as (c' & E & Af). cbv zeta in Af.
    rewrite words_of_bytes_of in Af by assumption.
    exists c'. split; [exact E|]. destruct Af as [_ _ _ _ _ _ _ _ Af _ _]. rewrite Af, Any; auto. rewrite E0. exact A'.
Qed.

(** ** Byte order *)
Open Scope string_scope.
Lemma gcc_order m be : isdef m "__BYTE_ORDER__" = true -> isdef m "__ORDER_BIG_ENDIAN__" = true ->
  (m "__BYTE_ORDER__" = m "__ORDER_BIG_ENDIAN__" <-> be = true) ->
  isdef m "SHA1DC_FORCE_LITTLEENDIAN" = false -> isdef m "SHA1DC_FORCE_BIGENDIAN" = false ->
  host_be (build m be) = macro_be (build m be).
Proof.
  intros H1 H2 H F1 F2. cbn [build host_be macro_be]. unfold bigendian, detected_be. rewrite H1, H2, F1, F2. cbn [andb].
  unfold same. unfold isdef in H1, H2. destruct (m "__BYTE_ORDER__") as [x|]; [|discriminate].
  destruct (m "__ORDER_BIG_ENDIAN__") as [y|]; [|discriminate].
  destruct (N.eqb_spec x y) as [->|Hne].
  - apply H. reflexivity.
  - destruct be; [|reflexivity]. exfalso. apply Hne. assert (Some x = Some y) as [= ->] by (apply H; reflexivity). reflexivity.
Qed.
Close Scope string_scope.

(** ** The package without cgo *)
Lemma fallback_exact D m data : decides D go_detects -> fallback_Sum (block_of m) data = Some (cd_sum D data).
Proof.
  intros HD. unfold fallback_Sum. destruct (Write_a (block_of m) (GoAsm.block_of_ok m) a_new New data Rep_New) as (d & -> & R). cbn [obind].
  rewrite (CRSum_ok (block_of m) (GoAsm.block_of_ok m) _ _ [] R). rewrite a_sum_new, (cd_sum_agree D) by assumption. cbn [app].
  destruct (cd_sum go_decide data). reflexivity.
Qed.

Lemma fallback_New_exact early D p : decides D go_detects -> scoped 1 (calls p) ->
  exists ds hs rs, run early [fallback_New] (map (fun x => (block_of (fst x), snd x)) p) = Some (ds, rs) /\
    a_run early D [a_new] (calls p) = Some (hs, rs).
Proof.
  intros HD Hs. destruct (a_run_scoped early D (calls p) [a_new] Hs) as (hs & rs & E).
  rewrite (a_run_agree early D) in E |- * by (auto using ahwf_new).
  change (map (fun x => (block_of (fst x), snd x)) p) with (GoProps2.code p).
  rewrite <- GoProps2.code_calls in E |- *.
  destruct (run_ok early (GoProps2.code p) [a_new] [fallback_New] hs rs) as (ds & X & _); eauto 8 using GoProps2.code_ok.
  constructor; [exact Rep_New|constructor].
Qed.
Lemma cgo_masks W d : (d < 32)%nat ->
  (N.testbit (cgo_CalculateDvMask W) (N.of_nat d) = true <-> ubc_holds d W) /\
  (N.testbit (fallback_CalculateDvMask (Some W)) (N.of_nat d) = true <-> ubc_holds d W) /\
  cgo_CalculateDvMask W = fallback_CalculateDvMask (Some W).
Proof.
  intros Hd. split; [apply mask_c_spec; assumption|]. split; [apply GoCheck.mask_go_spec; assumption|].
  unfold cgo_CalculateDvMask, ubc_check, fallback_CalculateDvMask, CalculateDvMask. apply mask_c_go.
Qed.

(** ** The Go and the C implementation *)
Lemma go_cgo_no_58 cfg early p os k k' i i' inp m : host_be cfg = macro_be cfg ->
  scoped 0 (calls p) -> scoped 0 os -> Forall cgo_call os ->
  nth_error (calls p) k = Some (OCRSum i inp) -> written i (firstn k (calls p)) = Some m ->
  nth_error os k' = Some (OCRSum i' inp) -> written i' (firstn k' os) = Some m ->
  (forall b d, In b (blocks (pad m)) -> (d < 32)%nat -> test_step (the_dv d) = 58%nat -> ~ ubc_holds d (schedule (words_of b))) ->
  exists ds rs ds' rs' r, run_program early p = Some (ds, rs) /\ c_run cfg [] os = Some (ds', rs') /\
    nth_error rs k = Some r /\ nth_error rs' k' = Some r.
Proof.
  intros Hcfg H1 H2 H3 H4 H5 H6 H7 H.
  apply (go_cgo_agree cfg early cgo_decide p os k k' i i' inp m); auto using cgo_decides.
  intros j b Hj h. apply nth_error_In in Hj.
  split; intros (d & Hd & Hu & h' & S); exists d; (split; [exact Hd|]); (split; [exact Hu|]); exists h';
    destruct (test_step_cases d Hd) as [E|E]; try (exfalso; exact (H b d Hj Hd E Hu)); rewrite E in *; exact S.
Qed.
Lemma attacked_decidable : exists D, decides D attacked.
Proof. exists cgo_decide. exact cgo_decides. Qed.
Lemma flagged_decidable : exists D, cdecides D.
Proof. exists cdec. exact cdec_decides. Qed.
