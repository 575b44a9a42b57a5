(** Proofs about the parts of the C library that depend on macros: byte order, unaligned access, DOSTORESTATE,
    and the compression function without detection. *)

From Coq Require Import Decimal DecimalString Arith NArith String List Strings.Byte Lia Bool ZifyNat.
From Verif Require Import Word WordFacts Spec_Sha1 Sha1Facts Spec_Build GoBlock Model_Go
  Model_CSteps Gen_CSteps Model_C Model_CBuild Model_CDead CSteps CProcess.
Import ListNotations.
Local Open Scope N_scope.
Ltac Zify.zify_post_hook ::= idtac.

(** ** Preprocessor *)

Lemma isdef_true m x : isdef m x = true <-> m x <> None.
Proof. unfold isdef. destruct (m x); split; congruence. Qed.
Lemma isdef_false m x : isdef m x = false <-> m x = None.
Proof. unfold isdef. destruct (m x); split; congruence. Qed.
Lemma anydef_true m l : anydef m l = true <-> exists x, In x l /\ m x <> None.
Proof.
  unfold anydef. rewrite existsb_exists. split; intros (x & H & E); exists x; (split; [exact H|]); apply isdef_true; exact E.
Qed.
Lemma same_true m be x y : truthful m be -> In (x, y) order_macros -> isdef m x = true -> isdef m y = true -> same m x y = be.
Proof.
  intros [T _] H Hx Hy. unfold same, isdef in *. destruct (m x) as [v|] eqn:E; [|discriminate]. destruct (m y) as [w|] eqn:F; [|discriminate].
  specialize (T x y v w H E F). destruct (N.eqb_spec v w), be; intuition congruence.
Qed.

Lemma big_only_eq m : (if anydef m ["__ARMEB__"; "__THUMBEB__"; "__AARCH64EB__"; "__MIPSEB__"; "__MIPSEB"; "_MIPSEB"; "__sparc"]%string then true
  else if anydef m ["_AIX"; "__hpux"]%string then true else false) = anydef m big_only_macros.
Proof.
  unfold anydef. change big_only_macros with (["__ARMEB__"; "__THUMBEB__"; "__AARCH64EB__"; "__MIPSEB__"; "__MIPSEB"; "_MIPSEB"; "__sparc"]%string ++ ["_AIX"; "__hpux"]%string).
  rewrite existsb_app. destruct (existsb _ _); [reflexivity|]. destruct (existsb _ _); reflexivity.
Qed.
Lemma detected_true m be : truthful m be -> (detected_be m = be <-> be = false \/ tells m).
Proof.
  intros T. unfold detected_be, tells.
  destruct (isdef m "__BYTE_ORDER__") eqn:A1; [destruct (isdef m "__ORDER_BIG_ENDIAN__") eqn:A2|]; cbn [andb].
  { rewrite (same_true m be) by (auto; cbn; auto). apply isdef_true in A1, A2. tauto. }
  all: destruct (isdef m "__BYTE_ORDER") eqn:B1; [destruct (isdef m "__BIG_ENDIAN") eqn:B2|]; cbn [andb].
  1,4: rewrite (same_true m be) by (auto; cbn; auto); apply isdef_true in B1, B2; tauto.
  all: destruct (isdef m "_BYTE_ORDER") eqn:C1; [destruct (isdef m "_BIG_ENDIAN") eqn:C2; [destruct (isdef m "_LITTLE_ENDIAN") eqn:C3|]|]; cbn [andb].
  all: try (rewrite (same_true m be) by (auto; cbn; auto); apply isdef_true in C1, C2, C3; tauto).
  all: repeat match goal with H : isdef _ _ = false |- _ => apply isdef_false in H end.
  all: rewrite big_only_eq; destruct (anydef m big_only_macros) eqn:D;
    [apply anydef_true in D; destruct D as (x & Hx & D); rewrite (proj2 T x Hx D); split; [intros _; right; do 3 right; exists x; split; assumption|reflexivity]|].
  all: split; [intros <-; left; reflexivity|].
  all: intros [H|[[H H']|[[H H']|[[H [H' H'']]|X]]]]; try congruence; apply anydef_true in X; congruence.
Qed.

Lemma order_right m be : truthful m be -> m "SHA1DC_FORCE_LITTLEENDIAN"%string = None -> m "SHA1DC_FORCE_BIGENDIAN"%string = None ->
  (host_be (build m be) = macro_be (build m be) <-> be = false \/ tells m).
Proof.
  intros T F1 F2. unfold build. cbn [host_be macro_be]. unfold bigendian. apply isdef_false in F1, F2. rewrite F1, F2. cbn [andb].
  rewrite <- (detected_true m be T). split; congruence.
Qed.
Lemma order_forced m be : (m "SHA1DC_FORCE_BIGENDIAN"%string <> None -> macro_be (build m be) = true) /\
  (m "SHA1DC_FORCE_BIGENDIAN"%string = None -> m "SHA1DC_FORCE_LITTLEENDIAN"%string <> None -> macro_be (build m be) = false).
Proof.
  unfold build. cbn [macro_be]. unfold bigendian. split.
  - intros H. apply isdef_true in H. rewrite H. cbn [andb].
    destruct (isdef m "SHA1DC_FORCE_LITTLEENDIAN" && detected_be m); [reflexivity|]. destruct (detected_be m); reflexivity.
  - intros H1 H2. apply isdef_false in H1. apply isdef_true in H2. rewrite H1, H2. cbn [andb]. destruct (detected_be m); reflexivity.
Qed.
Lemma unaligned_iff m be : unaligned (build m be) = true <->
  m "SHA1DC_FORCE_ALIGNED_ACCESS"%string = None /\ (m "SHA1DC_FORCE_UNALIGNED_ACCESS"%string <> None \/ exists x, In x x86_macros /\ m x <> None).
Proof.
  unfold build. cbn [unaligned]. unfold allow_unaligned. rewrite <- isdef_false, <- isdef_true, <- anydef_true.
  change (anydef m x86_macros) with (on_intel_like m).
  destruct (isdef m "SHA1DC_FORCE_ALIGNED_ACCESS"); [intuition discriminate|]. rewrite orb_true_iff. tauto.
Qed.

(** ** sha1_compression *)

Lemma comp_plain_eq : comp_plain_steps = comp_W_steps.
Proof. vm_compute. reflexivity. Qed.

Lemma fill_mix M : length M = 16%nat -> forall n W, (n <= 64)%nat -> length W = 80%nat ->
  (forall j, (j < 16 + (64 - n))%nat -> nth j W 0 = nth j (schedule M) 0) ->
  let W' := fold_left (fun W i => upd i (sha1_mix W i) W) (seq (16 + (64 - n)) n) W in
  length W' = 80%nat /\ forall j, (j < 80)%nat -> nth j W' 0 = nth j (schedule M) 0.
Proof.
  intros HM. induction n as [|n IH]; intros W Hn HW H.
  - cbn [seq fold_left]. split; [exact HW|]. intros j Hj. apply H. lia.
  - cbn [seq fold_left]. replace (S (16 + (64 - S n)))%nat with (16 + (64 - n))%nat by lia.
    set (i := (16 + (64 - S n))%nat) in *. apply IH; [lia|rewrite upd_length; exact HW|].
    intros j Hj. destruct (Nat.eq_dec j i) as [->|Hne].
    + rewrite nth_upd_eq by lia. rewrite schedule_rec by (assumption || lia). unfold sha1_mix.
      rewrite !H by lia. unfold mix. rewrite rotate_left_eq. reflexivity.
    + rewrite nth_upd_neq by congruence. apply H. lia.
Qed.

Lemma sha1_compression_eq w0 h M : length w0 = 80%nat -> wfst h -> length M = 16%nat -> sha1_compression w0 h M = compress h M.
Proof.
  intros H0 Hh HM. rewrite <- compression_W_eq by assumption. unfold sha1_compression, sha1_compression_W. cbv zeta.
  rewrite comp_plain_eq.
  destruct (fill_mix M HM 64 (firstn 16 M ++ skipn 16 w0)) as [L E]; [lia| | |].
  - rewrite app_length, firstn_length, skipn_length. lia.
  - intros j Hj. rewrite firstn_all2 by lia. rewrite app_nth1 by lia. rewrite schedule_low by (assumption || lia). reflexivity.
  - change (seq (16 + (64 - 64)) 64) with (seq 16 64) in L, E.
    replace (fold_left (fun W i => upd i (sha1_mix W i) W) (seq 16 64) (firstn 16 M ++ skipn 16 w0)) with (schedule M); [reflexivity|].
    symmetry. apply nth_ext with (d := 0) (d' := 0); [rewrite L, schedule_length by assumption; reflexivity|].
    intros j Hj. apply E. lia.
Qed.

(** ** Any set of DOSTORESTATE macros *)

(** The guard of SHA1_STORE_STATE(t): two digits. *)
Definition guard2 (t : nat) : string := if (t <? 10)%nat then ("DOSTORESTATE0" ++ NilEmpty.string_of_uint (Nat.to_uint t))%string else dostore_name t.
Definition all_items : list citem := flat_map (fun t => [CStore (guard2 t) t; cfull t]) (seq 0 80).
Lemma items_eq : comp_states_items = all_items.
Proof. vm_compute. reflexivity. Qed.

Section Pass.
  Variables (def : string -> bool) (cfg : ccfg) (h : st) (block : list byte).
  Hypothesis Hcfg : host_be cfg = macro_be cfg.
  Hypothesis Hh : wfst h.
  Hypothesis Hb : length block = 64%nat.
  Let M := words_of block.
  Let W := schedule M.

  Record DInv (t : nat) (x : cpass) : Prop := mkDInv {
    di_W : length (cp_W x) = 80%nat;
    di_st : length (cp_states x) = 80%nat;
    di_pre : forall j, (j < t)%nat -> nth j (cp_W x) 0 = nth j W 0;
    di_s : view t (cp_s x) = state_at t h M;
    di_all : forall j, (j < t)%nat -> def (guard2 j) = true -> view j (nth j (cp_states x) st0) = state_at j h M }.

  Lemma dinv_at t x : (t < 80)%nat -> DInv t x -> DInv (S t) (fold_left (item_with def cfg block) [CStore (guard2 t) t; cfull t] x).
  Proof.
    intros Ht I. assert (LM : length M = 16%nat) by (apply words_of_length; rewrite Hb; reflexivity).
    set (y := item_with def cfg block x (CStore (guard2 t) t)).
    assert (J : DInv t y /\ (def (guard2 t) = true -> nth t (cp_states y) st0 = cp_s y)).
    { unfold y. cbn [item_with]. destruct (def (guard2 t)) eqn:G; [|split; [exact I|discriminate]]. split.
      - constructor; cbn [cp_W cp_states cp_s]; try apply I.
        + rewrite upd_length. apply (di_st _ _ I).
        + intros j Hj Gj. rewrite nth_upd_neq by lia. apply (di_all _ _ I j Hj Gj).
      - intros _. cbn [cp_states cp_s]. apply nth_upd_eq. rewrite (di_st _ _ I). exact Ht. }
    cbn [fold_left]. fold y. clearbody y. clear I x. destruct J as [I St].
    assert (Hs : wfst (cp_s y)) by (apply (view_wf t); rewrite (di_s _ _ I); auto with wf).
    assert (Tm : match ckind_of t with FLoad => sha1_load cfg block t | _ => sha1_mix (cp_W y) t end = nth t W 0).
    { assert (X : (16 <= t)%nat -> sha1_mix (cp_W y) t = nth t W 0).
      { intros H. unfold W. rewrite schedule_rec by (assumption || lia). unfold sha1_mix.
        rewrite !(di_pre _ _ I) by lia. unfold W, mix. rewrite rotate_left_eq. reflexivity. }
      unfold ckind_of. destruct (Nat.ltb_spec t 16); [|destruct (Nat.ltb_spec t 20); auto].
      rewrite sha1_load_eq by (assumption || lia). unfold W. rewrite schedule_low by assumption. reflexivity. }
    unfold cfull. cbv zeta. cbn [item_with c_item]. rewrite Tm. constructor; cbn [cp_W cp_states cp_s].
    - rewrite upd_length. apply (di_W _ _ I).
    - apply (di_st _ _ I).
    - intros j Hj. destruct (Nat.eq_dec j t) as [->|Hne].
      + apply nth_upd_eq. rewrite (di_W _ _ I). assumption.
      + rewrite nth_upd_neq by congruence. apply (di_pre _ _ I). lia.
    - rewrite (cfull_state block Hb) by assumption. rewrite (di_s _ _ I). symmetry. apply state_at_S; assumption.
    - intros j Hj G. destruct (Nat.eq_dec j t) as [->|Hne].
      + rewrite (St G). apply (di_s _ _ I).
      + apply (di_all _ _ I); [lia|exact G].
  Qed.
  Lemma dinv_all n : forall t x, (t + n <= 80)%nat -> DInv t x ->
    DInv (t + n) (fold_left (item_with def cfg block) (flat_map (fun t => [CStore (guard2 t) t; cfull t]) (seq t n)) x).
  Proof.
    induction n as [|n IH]; intros t x Ht I.
    - rewrite Nat.add_0_r. assumption.
    - cbn [seq flat_map]. rewrite fold_left_app. replace (t + S n)%nat with (S t + n)%nat by lia.
      apply IH; [lia|]. apply dinv_at; [lia|assumption].
  Qed.
  Lemma states_with_eq W0 sts : length W0 = 80%nat -> length sts = 80%nat ->
    exists sts', states_with def cfg h block W0 sts = (compress h M, W, sts') /\ length sts' = 80%nat /\
      forall t, (t < 80)%nat -> def (guard2 t) = true -> view t (nth t sts' st0) = state_at t h M.
  Proof.
    intros HW Hsts. assert (LM : length M = 16%nat) by (apply words_of_length; rewrite Hb; reflexivity).
    unfold states_with. cbv zeta. rewrite items_eq. unfold all_items.
    assert (I : DInv (0 + 80) (fold_left (item_with def cfg block) (flat_map (fun t => [CStore (guard2 t) t; cfull t]) (seq 0 80)) (mkcp W0 sts h))).
    { apply dinv_all; [lia|]. constructor; cbn [cp_W cp_states cp_s]; auto; try lia. }
    change (0 + 80)%nat with 80%nat in I. revert I.
    generalize (fold_left (item_with def cfg block) (flat_map (fun t => [CStore (guard2 t) t; cfull t]) (seq 0 80)) (mkcp W0 sts h)). intros x I.
    exists (cp_states x). pose proof (di_s _ _ I) as E. rewrite view_80 in E. rewrite E.
    assert (EW : cp_W x = W).
    { apply nth_ext with (d := 0) (d' := 0).
      - rewrite (di_W _ _ I). symmetry. apply schedule_length. exact LM.
      - intros j Hj. rewrite (di_W _ _ I) in Hj. apply (di_pre _ _ I). exact Hj. }
    rewrite EW. split; [reflexivity|]. split; [apply (di_st _ _ I)|]. intros t Ht. apply (di_all _ _ I t Ht).
  Qed.
End Pass.

Lemma cases_eq : recomp_cases = map (fun t => (dostore_name t, t, t)) (seq 0 80).
Proof. vm_compute. reflexivity. Qed.
Lemma defs_eq : recomp_defs = map (fun t => (dostore_name t, t)) (seq 0 80).
Proof. vm_compute. reflexivity. Qed.
Lemma step_with_eq def t W s : (t < 80)%nat -> def (dostore_name t) = true -> step_with def t W s = Some (sha1recompress_fast t W s).
Proof.
  intros Ht G. unfold step_with. rewrite cases_eq, defs_eq.
  assert (E : find (fun c : string * nat * nat => match c with (g, l, _) => def g && (l =? t)%nat end) (map (fun t => (dostore_name t, t, t)) (seq 0 80))
              = Some (dostore_name t, t, t)).
  { replace 80%nat with (t + (80 - t))%nat by lia. rewrite seq_app, map_app. replace (80 - t)%nat with (S (79 - t)) by lia.
    cbn [seq map plus]. assert (X : forall l, ~ In t l -> find (fun c : string * nat * nat => match c with (g, l, _) => def g && (l =? t)%nat end)
       (map (fun t => (dostore_name t, t, t)) l ++ (dostore_name t, t, t) :: map (fun t => (dostore_name t, t, t)) (seq (S t) (79 - t)))
       = Some (dostore_name t, t, t)).
    { induction l as [|x l IH]; intros Hn; cbn [map app find].
      - rewrite G, Nat.eqb_refl. reflexivity.
      - destruct (Nat.eqb_spec x t) as [->|]; [contradiction Hn; left; reflexivity|]. rewrite andb_false_r. apply IH. intros H. apply Hn. right. exact H. }
    apply X. rewrite in_seq. lia. }
  rewrite E.
  replace (existsb (fun d => def (fst d) && (snd d =? t)%nat) (map (fun t => (dostore_name t, t)) (seq 0 80))) with true; [reflexivity|].
  symmetry. apply existsb_exists. exists (dostore_name t, t). split.
  - apply in_map_iff. exists t. split; [reflexivity|]. apply in_seq. lia.
  - cbn [fst snd]. rewrite G, Nat.eqb_refl. reflexivity.
Qed.

Lemma other_steps def cfg h block W0 sts t me2 : host_be cfg = macro_be cfg -> wfst h -> length block = 64%nat -> length W0 = 80%nat -> length sts = 80%nat ->
  (10 <= t < 80)%nat -> def (dostore_name t) = true -> length me2 = 80%nat ->
  exists sts' s hin hout, states_with def cfg h block W0 sts = (compress h (words_of block), schedule (words_of block), sts') /\
    nth_error sts' t = Some s /\ step_with def t me2 s = Some (hin, hout) /\
    steps 0 (firstn t me2) hin = state_at t h (words_of block) /\ hout = addst hin (steps 0 me2 hin).
Proof.
  intros Hc Hh Hb HW Hs [Ht1 Ht] G Hm.
  destruct (states_with_eq def cfg h block Hc Hh Hb W0 sts HW Hs) as (sts' & E & L & A).
  assert (G2 : guard2 t = dostore_name t) by (unfold guard2; destruct (Nat.ltb_spec t 10); [lia|reflexivity]).
  specialize (A t Ht). rewrite G2 in A. specialize (A G).
  assert (X : exists s, nth_error sts' t = Some s) by (destruct (nth_error sts' t) eqn:F; [eauto|apply nth_error_None in F; lia]).
  destruct X as [s X]. rewrite (nth_error_nth _ _ _ X) in A.
  assert (Ws : wfst s) by (apply (view_wf t); rewrite A; auto with wf).
  exists sts', s. rewrite step_with_eq by assumption. rewrite recompress_fast_eq by (assumption || lia). rewrite A.
  eexists. eexists. split; [exact E|]. split; [exact X|]. split; [reflexivity|].
  assert (Wa : wfst (state_at t h (words_of block))) by auto with wf.
  split; [apply steps_unsteps; exact Wa|]. f_equal.
  assert (E2 : forall x, steps 0 me2 x = steps t (skipn t me2) (steps 0 (firstn t me2) x)).
  { intros x. rewrite <- (firstn_skipn t me2) at 1. rewrite steps_app, firstn_length, Nat.min_l by lia. reflexivity. }
  rewrite E2, steps_unsteps by exact Wa. reflexivity.
Qed.

(** The functions of [Model_C] are the instance for the macros of ubc_check.h. *)
Lemma default_macros : (forall cfg h b W s, states_with defined cfg h b W s = sha1_compression_states cfg h b W s) /\
  (forall t W s, step_with defined t W s = sha1_recompression_step t W s).
Proof.
  split; [|reflexivity]. intros cfg h b W s. unfold states_with, sha1_compression_states.
  assert (E : forall l x, fold_left (item_with defined cfg b) l x = fold_left (c_item cfg b) l x).
  { induction l as [|i l IH]; intros x; [reflexivity|]. cbn [fold_left]. rewrite IH. destruct i; reflexivity. }
  rewrite E. reflexivity.
Qed.

(** Steps 0 to 9: the names do not match, so nothing is stored. *)
Definition only5 : string -> bool := String.eqb (dostore_name 5).
Lemma step5_not_stored : exists def cfg h block sts sts' s, def (dostore_name 5) = true /\ host_be cfg = macro_be cfg /\ wfst h /\ length block = 64%nat /\
  length sts = 80%nat /\ states_with def cfg h block (repeat 0 80) sts = (compress h (words_of block), schedule (words_of block), sts') /\
  nth_error sts' 5 = Some s /\
  step_with def 5 (schedule (words_of block)) s <> Some (h, compress h (words_of block)).
Proof.
  exists only5, (mkcfg false false true), IV, (repeat x00 64), (repeat st0 80), (repeat st0 80), st0.
  split; [reflexivity|]. split; [reflexivity|]. split; [apply wfst_IV|]. split; [reflexivity|]. split; [reflexivity|].
  split; [vm_compute; reflexivity|]. split; [reflexivity|]. vm_compute. discriminate.
Qed.
