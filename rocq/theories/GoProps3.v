(** Sizes, canonical checkpoints, padding. *)

From Coq Require Import Arith ZArith NArith List Strings.Byte Lia Bool ZifyNat.
From Verif Require Import Word WordFacts Spec_Sha1 Sha1Facts Spec_DV Spec_Cd Spec_Api DvFacts
  Model_Ubc Gen_UbcGo Gen_DvsGo Gen_DvsC Model_Go Model_Api Model_Block UbcReflect GoCheck GoBlock GoApi GoStore GoProps GoProps2 GoDetect.
Import ListNotations.
Local Open Scope N_scope.
Ltac Zify.zify_post_hook ::= idtac.

(** ** C29 *)
Lemma sizes early p k o : scoped 0 (calls p) -> nth_error (calls p) k = Some o ->
  exists ds rs r, run_program early p = Some (ds, rs) /\ nth_error rs k = Some r /\
    match o with
    | OSize _ => r = RNum 20
    | OBlockSize _ => r = RNum 64
    | OSum _ inp => exists b, r = RBytes b /\ length b = (length inp + 20)%nat /\ firstn (length inp) b = inp
    | OCRSum _ inp => exists b v, r = RVerdict b v /\ length b = (length inp + 20)%nat /\ firstn (length inp) b = inp
    | OSumPkg _ => exists b v, r = RVerdict b v /\ length b = 20%nat
    | _ => True
    end.
Proof.
  intros Hs Hk.
  destruct (call_at early go_decide p k o go_decide_ok Hs Hk) as (ds & rs & hs0 & rs0 & hs1 & r & E & Er & _ & X & _).
  exists ds, rs, r. split; [assumption|]. split; [assumption|].
  assert (L : forall (inp : list byte) s, length (inp ++ st_bytes s) = (length inp + 20)%nat /\ firstn (length inp) (inp ++ st_bytes s) = inp).
  { intros inp s. rewrite app_length, firstn_app, firstn_all, Nat.sub_diag, firstn_O, app_nil_r. split; reflexivity. }
  destruct o; cbn [a_exec] in X; try exact I; try (destruct (nth_error hs0 i) as [a|]; [|discriminate]).
  - assert (r = RBytes (inp ++ fst (a_sum go_decide a))) as -> by congruence. eexists. split; [reflexivity|]. apply L.
  - assert (r = RVerdict (inp ++ fst (a_sum go_decide a)) (snd (a_sum go_decide a))) as -> by congruence. eexists _, _. split; [reflexivity|]. apply L.
  - congruence.
  - congruence.
  - assert (exists v, r = RVerdict (fst (cd_sum go_decide data)) v) as [v ->].
    { eexists. apply (f_equal (option_map snd)) in X. cbn [option_map snd] in X.
      assert (J : forall x y : res, Some x = Some y -> y = x) by congruence. apply J in X. exact X. }
    eexists _, _. split; [reflexivity|]. unfold cd_sum. destruct (cd_blocks go_decide (IV, false) (blocks (pad data))) as [h f]. reflexivity.
Qed.

(** Only whole blocks reach the chaining value. *)
Lemma whole_blocks early D p i m : decides D go_detects -> scoped 0 (calls p) -> (i < created (calls p))%nat ->
  written i (calls p) = Some m ->
  exists ds rs d, run_program early p = Some (ds, rs) /\ nth_error ds i = Some d /\
    dh d = fst (cd_blocks D (IV, false) (blocks (firstn (64 * (length m / 64)) m))) /\
    dnx d = (length m mod 64)%nat.
Proof.
  intros HD Hs Hi Hm. destruct (program_state early D p i HD Hs Hi) as (ds & hs & rs & a & d & E & Ea & Ed & Eh & HR & _).
  exists ds, rs, d. split; [assumption|]. split; [assumption|].
  pose proof (a_run_written early D (calls p) i hs rs m Ea Hm Hi) as Eh'. rewrite Eh in Eh'.
  assert (a = a_write a_new m) as -> by congruence.
  destruct (Rep_pending _ _ _ _ HR) as (_ & L & X). cbn [a_write ah_start ah_before ah_bytes a_new app] in L, X.
  assert (Eb : blocks (firstn (64 * (length m / 64)) m) = blocks m).
  { destruct (blocks_prefix (firstn (64 * (length m / 64)) m) (skipn (64 * (length m / 64)) m)) as [bs Ebs].
    rewrite firstn_skipn in Ebs.
    pose proof (Nat.div_mod (length m) 64 ltac:(discriminate)) as Hdm.
    assert (length (blocks m) = length (blocks (firstn (64 * (length m / 64)) m))) as Hl.
    { assert (C : forall n l, length (cut n l) = n) by (induction n; intros; cbn; auto).
      unfold blocks. rewrite !C, firstn_length, Nat.min_l by (pose proof (Nat.mul_div_le (length m) 64 ltac:(discriminate)); lia).
      rewrite Nat.mul_comm, Nat.div_mul by discriminate. reflexivity. }
    rewrite Ebs in Hl. rewrite app_length in Hl. assert (bs = []) as -> by (apply length_zero_iff_nil; clear - Hl; lia).
    rewrite app_nil_r in Ebs. congruence. }
  rewrite Eb. split.
  - assert (W : ahwf (a_write a_new m)) by exact ahwf_new.
    pose proof (a_mid_agree D (a_write a_new m) HD W) as Y. unfold a_mid in Y. cbn [a_write ah_start ah_bytes a_new app] in Y.
    rewrite Y, <- X. reflexivity.
  - rewrite <- L. apply (marshal_length go_decide (a_write a_new m)).
Qed.

(** ** C11 *)
Lemma marshal_formula early D p k i m : decides D go_detects -> scoped 0 (calls p) ->
  nth_error (calls p) k = Some (OMarshal i) -> written i (firstn k (calls p)) = Some m ->
  exists ds rs b, run_program early p = Some (ds, rs) /\ nth_error rs k = Some (RBytes b) /\ length b = 98%nat /\
    let n := (64 * (length m / 64))%nat in
    b = magic ++ st_bytes (fst (cd_blocks D (IV, false) (blocks m))) ++
        (skipn n m ++ zeros (64 - (length m - n))) ++ be64 (N.of_nat (length m) mod M64).
Proof.
  intros HD Hs Hk Hw. destruct (marshal_exact early D p k i m HD Hs Hk Hw) as (ds & rs & E & Er).
  eexists ds, rs, _. split; [assumption|]. split; [exact Er|]. split; [apply marshal_length|].
  unfold a_marshal, blob_of, pending, a_mid, a_len. cbn [a_write a_new ah_start ah_before ah_bytes app].
  rewrite skipn_length. reflexivity.
Qed.

(** ** C34 *)
(** checkSum feeds exactly the FIPS padding of the length through Write. *)
Lemma checkSum_padding blk d : dlen d < M64 ->
  checkSum blk d = (do (d', _) <- Write blk d (padding (dlen d));
                    if (dnx d' =? 0)%nat then Some (d', st_bytes (dh d')) else None).
Proof.
  intros Hlt. pose proof (padding_len (dlen d) Hlt) as Hpl.
  unfold checkSum. set (t := if dlen d mod 64 <? 56 then _ else _) in *.
  pose proof (N.mod_upper_bound (dlen d) 64 ltac:(discriminate)) as Hr.
  assert (Ht : 1 <= t <= 64).
  { unfold t. destruct (N.ltb_spec (dlen d mod 64) 56); lia. }
  set (tn := N.to_nat t) in *. assert (Htn : (1 <= tn <= 64)%nat) by lia.
  rewrite slice_to_ok by (cbn [length]; rewrite repeat_length; lia). cbn [obind].
  rewrite slice_from_ok by (cbn [length]; rewrite repeat_length; lia). cbn [obind].
  rewrite slice_from_ok by (rewrite skipn_length; cbn [length]; rewrite repeat_length; lia). cbn [obind].
  assert (Epl : firstn (tn + 8) (firstn tn (x80 :: repeat x00 71) ++ appendUint64 (shl64 (dlen d) 3) ++
      skipn 8 (skipn tn (x80 :: repeat x00 71))) = padding (dlen d)).
  { rewrite app_assoc, firstn_app.
    rewrite firstn_all2 by (rewrite app_length, firstn_length; change (length (appendUint64 _)) with 8%nat; lia).
    rewrite app_length, firstn_length. cbn [length]. rewrite repeat_length.
    change (length (appendUint64 _)) with 8%nat.
    replace (tn + 8 - (Nat.min tn 72 + 8))%nat with 0%nat by lia. rewrite firstn_O, app_nil_r.
    rewrite shl64_3, appendUint64_be64. unfold padding. rewrite app_assoc. f_equal.
    assert (Hz : pad_zeros (dlen d) = (tn - 1)%nat).
    { unfold padding, zeros in Hpl. rewrite !app_length, repeat_length in Hpl.
      change (length [x80]) with 1%nat in Hpl. change (length (be64 _)) with 8%nat in Hpl. lia. }
    rewrite Hz. destruct tn as [|m]; [lia|]. cbn [firstn]. rewrite Nat.sub_succ, Nat.sub_0_r.
    cbn [app]. f_equal. unfold zeros. replace 71%nat with (m + (71 - m))%nat by lia.
    rewrite repeat_app, firstn_app, repeat_length, Nat.sub_diag, firstn_O, app_nil_r.
    apply firstn_all2. rewrite repeat_length. lia. }
  rewrite Epl. destruct (Write blk d (padding (dlen d))) as [[d' n]|]; [|reflexivity]. cbn [obind].
  destruct (dnx d' =? 0)%nat; [|reflexivity]. cbn [negb]. rewrite !appendUint32_be32. reflexivity.
Qed.

Lemma padding_facts len : 
  (N.of_nat (length (padding len)) + len) mod 64 = 0 /\ (9 <= length (padding len) <= 72)%nat /\
  padding len = x80 :: zeros (length (padding len) - 9) ++ be64 ((8 * len) mod M64).
Proof.
  assert (L : length (padding len) = (pad_zeros len + 9)%nat).
  { unfold padding, zeros. rewrite !app_length, repeat_length. change (length (be64 _)) with 8%nat. cbn [length]. lia. }
  assert (Z : (pad_zeros len < 64)%nat).
  { unfold pad_zeros. pose proof (N.mod_upper_bound (64 - (len + 9) mod 64) 64 ltac:(discriminate)). lia. }
  split; [|split; [lia|]].
  - rewrite L. unfold pad_zeros. rewrite Nat2N.inj_add, N2Nat.id. change (N.of_nat 9) with 9.
    replace ((64 - (len + 9) mod 64) mod 64 + 9 + len) with ((64 - (len + 9) mod 64) mod 64 + (len + 9)) by lia.
    rewrite N.add_mod_idemp_l by discriminate.
    pose proof (N.mod_upper_bound (len + 9) 64 ltac:(discriminate)). pose proof (N.div_mod (len + 9) 64 ltac:(discriminate)).
    replace (64 - (len + 9) mod 64 + (len + 9)) with ((1 + (len + 9) / 64) * 64) by lia. apply N.mod_mul. discriminate.
  - rewrite L. replace (pad_zeros len + 9 - 9)%nat with (pad_zeros len) by lia. reflexivity.
Qed.

(** ** C08, C09 *)
Lemma checkpoint_digest early1 early2 p q i j b m1 c1 c2 m2 ds0 rs0 :
  scoped 0 (calls p) -> (i < created (calls p))%nat -> scoped 0 (calls q) -> (j < created (calls q))%nat ->
  run_program early1 (p ++ [(m1, OMarshal i)]) = Some (ds0, rs0 ++ [RBytes b]) ->
  on_hasher c1 -> calls c1 = calls c2 ->
  exists ds1 ds2 rs1 rs2 rs3 rs4,
    run_program early1 (p ++ to i c1) = Some (ds1, rs1 ++ rs2) /\ length rs1 = length p /\
    run_program early2 (q ++ (m2, OUnmarshal j b) :: to j c2) = Some (ds2, rs3 ++ RUnit :: rs4) /\ length rs3 = length q /\
    Forall2 same_digest rs2 rs4.
Proof.
  intros H1 H2 H3 H4 H5 H6 H7.
  destruct (checkpoint early1 early2 p q i j b m1 c1 c2 m2 ds0 rs0 H1 H2 H3 H4 H5 H6 H7) as
    (ds1 & ds2 & rs1 & rs2 & rs3 & rs4 & A & B & C & D & E & _).
  exists ds1, ds2, rs1, rs2, rs3, rs4. auto.
Qed.

Lemma checkpoint_verdict early1 early2 D p q i j b m1 c1 c2 m2 ds0 rs0 m m' : decides D go_detects ->
  scoped 0 (calls p) -> (i < created (calls p))%nat -> scoped 0 (calls q) -> (j < created (calls q))%nat ->
  run_program early1 (p ++ [(m1, OMarshal i)]) = Some (ds0, rs0 ++ [RBytes b]) ->
  on_hasher c1 -> calls c1 = calls c2 ->
  written i (calls p) = Some m -> written j (calls q) = Some m' ->
  snd (cd_blocks D (IV, false) (blocks m)) = snd (cd_blocks D (IV, false) (blocks m')) ->
  exists ds1 ds2 rs1 rs2 rs3,
    run_program early1 (p ++ to i c1) = Some (ds1, rs1 ++ rs2) /\ length rs1 = length p /\
    run_program early2 (q ++ (m2, OUnmarshal j b) :: to j c2) = Some (ds2, rs3 ++ RUnit :: rs2) /\ length rs3 = length q.
Proof.
  intros HD H1 H2 H3 H4 H5 H6 H7 Wm Wm' Hf.
  destruct (checkpoint early1 early2 p q i j b m1 c1 c2 m2 ds0 rs0 H1 H2 H3 H4 H5 H6 H7) as
    (ds1 & ds2 & rs1 & rs2 & rs3 & rs4 & A & B & C & E & _ & F).
  assert (rs2 = rs4) as <-.
  { apply (F m m' Wm Wm'). 
    pose proof (a_mid_agree D (a_write a_new m) HD ahwf_new) as Y. pose proof (a_mid_agree D (a_write a_new m') HD ahwf_new) as Y'.
    unfold a_mid in Y, Y'. cbn [a_write ah_start ah_bytes a_new app] in Y, Y'. rewrite <- Y, <- Y'. exact Hf. }
  exists ds1, ds2, rs1, rs2, rs3. auto.
Qed.

(** ** Existence of the decision procedure used in the statements *)
Lemma go_detects_decidable : exists D, decides D go_detects.
Proof. exists go_decide. exact go_decide_ok. Qed.

Lemma mask_spec_both W d : (d < 32)%nat ->
  (N.testbit (CalculateDvMask (Some W)) (N.of_nat d) = true <-> ubc_holds d W) /\ wf (CalculateDvMask (Some W)).
Proof. intros Hd. split; [apply mask_go_spec; assumption|apply mask_go_wf]. Qed.

Lemma mask_total W W' : CalculateDvMask None = 0 /\ wf (CalculateDvMask (Some W)) /\
  ((forall t, (35 <= t <= 64)%nat -> nth t W 0 = nth t W' 0) -> CalculateDvMask (Some W) = CalculateDvMask (Some W')).
Proof. split; [reflexivity|]. split; [apply mask_go_wf|apply mask_local]. Qed.

(** ** C24 *)
Lemma table_manuel :
  length dvs_go = 33%nat /\ nth 32 dvs_go (mkdv 9 9 9 9 9 9 []) = mkdv 0 0 0 0 0 0 (repeat 0 80) /\
  forall d, (d < 32)%nat ->
    let v := the_dv d in
    nth d dvs_go (mkdv 9 9 9 9 9 9 []) =
      mkdv (match dty v with TypeI => 1 | TypeII => 2 end) (N.of_nat (dK v)) (N.of_nat (dB v)) (N.of_nat (test_step v)) 0 (N.of_nat d) (dmsg v) /\
    dmsg v = schedule (firstn 16 (dmsg v)) /\
    (forall t, (test_step v - 5 <= t < test_step v)%nat -> nth (t + 5) (dvec v) 0 = 0) /\
    (forall W, N.testbit (CalculateDvMask (Some W)) (maskB (nth d dvs_go (mkdv 9 9 9 9 9 9 []))) = true <-> ubc_holds d W).
Proof.
  split; [rewrite dvs_go_eq; reflexivity|]. split; [rewrite dvs_go_eq; reflexivity|].
  intros d Hd. cbv zeta.
  assert (E : nth d dvs_go (mkdv 9 9 9 9 9 9 []) = expected_entry d).
  { rewrite dvs_go_eq, app_nth1 by (rewrite map_length, seq_length; assumption).
    rewrite (nth_indep _ _ (expected_entry 0)) by (rewrite map_length, seq_length; assumption).
    rewrite map_nth. f_equal. rewrite seq_nth by assumption. reflexivity. }
  rewrite E. split; [unfold expected_entry; cbv zeta; destruct (dty (the_dv d)); reflexivity|].
  split; [apply dmsg_schedule; assumption|]. split; [apply quiet_window; assumption|].
  intros W. unfold expected_entry. cbv zeta. cbn [maskB]. apply mask_go_spec. assumption.
Qed.

Lemma tables_equal : dvs_go = dvs_c.
Proof. rewrite dvs_go_eq, dvs_c_eq. reflexivity. Qed.
