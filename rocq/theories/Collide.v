(** A collision of the digest is a collision of the compression function (Merkle-Damgard). *)

From Coq Require Import Arith NArith ZArith List Strings.Byte Bool Lia ZifyNat.
From Verif Require Import Word WordFacts Spec_Sha1 Spec_DV Spec_Cd Spec_Api Spec_C Spec_Collide Sha1Facts Model_Api Model_Block
  GoCheck GoBlock GoApi GoStore GoProps GoDetect Model_C Model_CApi CCtx CProps.
Import ListNotations.
Local Open Scope N_scope.
Ltac Zify.zify_post_hook ::= idtac.

(** ** Words and bytes *)
Lemma words_of_inj n : forall b b' : list byte, length b = (4 * n)%nat -> length b' = (4 * n)%nat -> words_of b = words_of b' -> b = b'.
Proof.
  induction n as [|n IH]; intros b b' L L' E.
  - destruct b; [|discriminate]. destruct b'; [reflexivity|discriminate].
  - destruct b as [|a1 [|a2 [|a3 [|a4 b]]]]; cbn [length] in L; try lia.
    destruct b' as [|c1 [|c2 [|c3 [|c4 b']]]]; cbn [length] in L'; try lia.
    cbn [words_of] in E. assert (E1 : be_val [a1; a2; a3; a4] = be_val [c1; c2; c3; c4]) by congruence.
    assert (E2 : words_of b = words_of b') by congruence.
    apply (f_equal be32) in E1. rewrite !be32_be_val in E1. apply IH in E2; [|lia|lia]. congruence.
Qed.

(** ** Iterating any function *)
Section Chain.
  Variable f : st -> list byte -> st.
  Definition chain (h : st) (bs : list (list byte)) : st := fold_left f bs h.
  Lemma chain_snoc h bs b : chain h (bs ++ [b]) = f (chain h bs) b.
  Proof. unfold chain. rewrite fold_left_app. reflexivity. Qed.

  Definition step_collision (h : st) (bs bs' : list (list byte)) : Prop :=
    exists j j' b b', nth_error bs j = Some b /\ nth_error bs' j' = Some b' /\
      (chain h (firstn j bs), b) <> (chain h (firstn j' bs'), b') /\
      f (chain h (firstn j bs)) b = f (chain h (firstn j' bs')) b'.

  Lemma last_collision h bs bs' b b' : chain h (bs ++ [b]) = chain h (bs' ++ [b']) ->
    (chain h bs, b) <> (chain h bs', b') -> step_collision h (bs ++ [b]) (bs' ++ [b']).
  Proof.
    intros E Hn. exists (length bs), (length bs'), b, b'.
    rewrite !nth_error_app2, !Nat.sub_diag by apply le_n. cbn [nth_error].
    rewrite !firstn_app, !Nat.sub_diag, !firstn_all. cbn [firstn]. rewrite !app_nil_r. rewrite !chain_snoc in E. auto.
  Qed.
  Lemma earlier_collision h bs bs' b b' : step_collision h bs bs' -> step_collision h (bs ++ [b]) (bs' ++ [b']).
  Proof.
    intros (j & j' & c & c' & Hj & Hj' & Hn & E). exists j, j', c, c'.
    assert (Lj : (j < length bs)%nat) by (apply nth_error_Some; congruence).
    assert (Lj' : (j' < length bs')%nat) by (apply nth_error_Some; congruence).
    rewrite !nth_error_app1 by assumption.
    rewrite !firstn_app. replace (j - length bs)%nat with O by lia. replace (j' - length bs')%nat with O by lia.
    cbn [firstn]. rewrite !app_nil_r. auto.
  Qed.

  Lemma st_eq_dec (x y : st) : {x = y} + {x <> y}.
  Proof. decide equality; apply N.eq_dec. Qed.
  Lemma pair_eq_dec (x y : st * list byte) : {x = y} + {x <> y}.
  Proof. decide equality; [apply list_eq_dec, Byte.byte_eq_dec|apply st_eq_dec]. Qed.

  (** Different block lists of the same length. *)
  Lemma chain_collision bs : forall h bs', length bs = length bs' -> bs <> bs' -> chain h bs = chain h bs' -> step_collision h bs bs'.
  Proof.
    induction bs as [|b bs IH] using rev_ind; intros h bs' L Hn E.
    - destruct bs'; [congruence|discriminate].
    - destruct bs' as [|b' bs' _] using rev_ind; [rewrite app_length in L; cbn in L; lia|].
      destruct (pair_eq_dec (chain h bs, b) (chain h bs', b')) as [Eq|Ne]; [|apply last_collision; assumption].
      injection Eq as Eh Eb. subst b'. apply earlier_collision. apply IH.
      + rewrite !app_length in L. cbn in L. lia.
      + congruence.
      + assumption.
  Qed.
End Chain.

(** ** The last block of a padded message *)
Lemma pad_last m : exists bs b, blocks (pad m) = bs ++ [b] /\ skipn 56 b = be64 (8 * N.of_nat (length m) mod M64).
Proof.
  destruct (pad_whole m) as [n E].
  assert (L : (9 <= length (pad m))%nat).
  { unfold pad, padding. rewrite !app_length. unfold be64. cbn [length]. rewrite !map_length || idtac.
    rewrite ?be64_length. cbn. lia. }
  destruct n as [|n]; [lia|]. rewrite Nat.mul_succ_r in E.
  set (a := firstn (64 * n) (pad m)). set (z := skipn (64 * n) (pad m)).
  assert (Ea : length a = (64 * n)%nat) by (unfold a; rewrite firstn_length; lia).
  assert (Ez : length z = 64%nat) by (unfold z; rewrite skipn_length; lia).
  assert (Ep : pad m = a ++ z) by (unfold a, z; symmetry; apply firstn_skipn).
  exists (blocks a), z. split.
  - rewrite Ep, (blocks_app n) by assumption. f_equal. unfold blocks. rewrite Ez. change (64 / 64)%nat with 1%nat.
    cbn [cut]. rewrite <- Ez, firstn_all. reflexivity.
  - assert (Ew : pad m = (m ++ [x80] ++ zeros (pad_zeros (N.of_nat (length m)))) ++ be64 (8 * N.of_nat (length m) mod M64)).
    { unfold pad, padding. rewrite !app_assoc. reflexivity. }
    set (u := m ++ [x80] ++ zeros (pad_zeros (N.of_nat (length m)))) in Ew. set (w := be64 (8 * N.of_nat (length m) mod M64)) in *.
    assert (El : length u = (56 + 64 * n)%nat).
    { apply (f_equal (@length _)) in Ew. rewrite app_length in Ew. change (length w) with 8%nat in Ew. lia. }
    clearbody u w. unfold z.
    assert (Sk : forall i j (l : list byte), skipn i (skipn j l) = skipn (i + j) l).
    { intros i j. induction j as [|j IH]; intros l; [rewrite Nat.add_0_r; reflexivity|]. rewrite Nat.add_succ_r.
      destruct l; [destruct i; reflexivity|]. cbn [skipn]. apply IH. }
    rewrite Sk, Ew, skipn_app, <- El, skipn_all, Nat.sub_diag. reflexivity.
Qed.

Lemma padded_collision f m m' : in_range m -> in_range m' -> m <> m' ->
  chain f IV (blocks (pad m)) = chain f IV (blocks (pad m')) -> step_collision f IV (blocks (pad m)) (blocks (pad m')).
Proof.
  intros R R' Hn E. destruct (Nat.eq_dec (length m) (length m')) as [El|Nl].
  - apply chain_collision; [| |assumption].
    + assert (Lc : forall k l, length (cut k l) = k) by (induction k; intros; cbn; auto).
      unfold blocks. rewrite !Lc. unfold pad. rewrite !app_length, El. reflexivity.
    + intros Eb. apply Hn. apply blocks_pad_inj; assumption.
  - destruct (pad_last m) as (bs & b & Eb & Hb), (pad_last m') as (bs' & b' & Eb' & Hb'). rewrite Eb, Eb' in *.
    apply last_collision; [assumption|]. intros Eq. injection Eq as _ Eq. subst b'. rewrite Hb in Hb'.
    unfold in_range in *.
    assert (L : 8 * N.of_nat (length m) < M64) by (change M64 with (8 * 2 ^ 61); apply N.mul_lt_mono_pos_l; [reflexivity|assumption]).
    assert (L' : 8 * N.of_nat (length m') < M64) by (change M64 with (8 * 2 ^ 61); apply N.mul_lt_mono_pos_l; [reflexivity|assumption]).
    rewrite !N.mod_small in Hb' by assumption. apply be64_inj in Hb'; [lia|assumption|assumption].
Qed.

(** ** SHA-1 with counter-cryptanalysis *)
Lemma cd_blocks_chain D bs : forall h f, fst (cd_blocks D (h, f) bs) = chain (fun h b => cd_block D h (words_of b)) h bs.
Proof. induction bs as [|b bs IH]; intros h f; [reflexivity|]. rewrite cd_blocks_cons. cbn [fst snd]. rewrite IH. reflexivity. Qed.

Lemma neq_words m m' j j' (h h' : st) b b' : nth_error (blocks (pad m)) j = Some b -> nth_error (blocks (pad m')) j' = Some b' ->
  (h, b) <> (h', b') -> (h, words_of b) <> (h', words_of b').
Proof.
  intros H H' Hn E. apply Hn. injection E as -> Ew. f_equal. apply (words_of_inj 16); [| |assumption];
    eapply nth_blocks_len; eassumption.
Qed.

Lemma cd_collision D m m' : in_range m -> in_range m' -> m <> m' -> fst (cd_sum D m) = fst (cd_sum D m') ->
  exists h M h' M', processed D m h M /\ processed D m' h' M' /\ (h, M) <> (h', M') /\ cd_block D h M = cd_block D h' M'.
Proof.
  intros R R' Hn E. unfold cd_sum in E.
  pose proof (wfst_cd_blocks D (blocks (pad m)) (IV, false) wfst_IV) as W.
  pose proof (wfst_cd_blocks D (blocks (pad m')) (IV, false) wfst_IV) as W'.
  pose proof (cd_blocks_chain D (blocks (pad m)) IV false) as C.
  pose proof (cd_blocks_chain D (blocks (pad m')) IV false) as C'.
  destruct (cd_blocks D (IV, false) (blocks (pad m))) as [g v]. destruct (cd_blocks D (IV, false) (blocks (pad m'))) as [g' v'].
  cbn [fst] in *. apply st_bytes_inj in E; [|assumption|assumption]. rewrite C, C' in E.
  apply padded_collision in E; [|assumption..]. destruct E as (j & j' & b & b' & Hj & Hj' & Ne & Eq).
  exists (chain (fun h b => cd_block D h (words_of b)) IV (firstn j (blocks (pad m)))), (words_of b),
    (chain (fun h b => cd_block D h (words_of b)) IV (firstn j' (blocks (pad m')))), (words_of b').
  split; [exists j, b; rewrite cd_blocks_chain; auto|]. split; [exists j', b'; rewrite cd_blocks_chain; auto|].
  split; [|assumption]. eapply neq_words; eassumption.
Qed.

Lemma cd_not_flagged D bs j b : forall s, snd (cd_blocks D s bs) = false -> nth_error bs j = Some b ->
  D (fst (cd_blocks D s (firstn j bs))) (words_of b) = false.
Proof.
  revert j. induction bs as [|c bs IH]; intros j s Hf Hj; [destruct j; discriminate|].
  destruct j as [|j].
  - injection Hj as ->. cbn [firstn]. change (cd_blocks D s []) with s. rewrite cd_blocks_cons in Hf.
    destruct (cd_blocks D (cd_block D (fst s) (words_of b), (snd s || D (fst s) (words_of b))%bool) bs) as [g v] eqn:Eg.
    destruct (D (fst s) (words_of b)) eqn:Ed; [|reflexivity]. rewrite orb_true_r in Eg. cbn [snd] in Hf. subst v.
    pose proof (cd_unflagged D bs (cd_block D (fst s) (words_of b)) true) as U. rewrite Eg in U. destruct (U eq_refl) as [_ U2]. discriminate.
  - cbn [firstn]. rewrite cd_blocks_cons in Hf |- *. apply IH; assumption.
Qed.
Lemma cd_unflagged_prefix D bs j : forall s, snd (cd_blocks D s bs) = false -> snd (cd_blocks D s (firstn j bs)) = false.
Proof.
  intros s Hf. rewrite <- (firstn_skipn j bs), cd_blocks_app in Hf.
  destruct (cd_blocks D s (firstn j bs)) as [g v]. apply cd_unflagged in Hf. cbn [snd]. tauto.
Qed.
Lemma processed_unflagged D m h M : snd (cd_sum D m) = false -> processed D m h M ->
  sha1_processed m h M /\ D h M = false /\ wfst h /\ length M = 16%nat /\ Forall wf M.
Proof.
  intros Hf (j & b & Hj & -> & ->). unfold cd_sum in Hf.
  destruct (cd_blocks D (IV, false) (blocks (pad m))) as [g v] eqn:Eg. cbn [snd] in Hf. subst v.
  assert (Hs : snd (cd_blocks D (IV, false) (blocks (pad m))) = false) by (rewrite Eg; reflexivity).
  split.
  - exists j, b. split; [assumption|]. split; [reflexivity|]. apply cd_unflagged. apply cd_unflagged_prefix. assumption.
  - split; [apply cd_not_flagged; assumption|]. split; [apply wfst_cd_blocks, wfst_IV|]. split.
    + apply words_of_length. eapply nth_blocks_len. eassumption.
    + apply wf_words_of.
Qed.

Lemma cd_undetected D m m' : in_range m -> in_range m' -> m <> m' -> fst (cd_sum D m) = fst (cd_sum D m') ->
  snd (cd_sum D m) = false -> snd (cd_sum D m') = false ->
  exists h M h' M', sha1_processed m h M /\ sha1_processed m' h' M' /\ (h, M) <> (h', M') /\ compress h M = compress h' M' /\
    D h M = false /\ D h' M' = false /\ wfst h /\ wfst h' /\ length M = 16%nat /\ length M' = 16%nat /\ Forall wf M /\ Forall wf M'.
Proof.
  intros R R' Hn E F F'. destruct (cd_collision D m m' R R' Hn E) as (h & M & h' & M' & P & P' & Ne & Eq).
  apply (processed_unflagged _ _ _ _ F) in P. apply (processed_unflagged _ _ _ _ F') in P'.
  destruct P as (P & Dh & W & L & Wm), P' as (P' & Dh' & W' & L' & Wm').
  unfold cd_block in Eq. rewrite Dh, Dh' in Eq. exists h, M, h', M'. auto 20.
Qed.

(** ** The code *)
Lemma digest_of early D p k i inp m x v ds rs : decides D go_detects -> scoped 0 (calls p) ->
  nth_error (calls p) k = Some (OCRSum i inp) -> written i (firstn k (calls p)) = Some m ->
  run_program early p = Some (ds, rs) -> nth_error rs k = Some (RVerdict (inp ++ x) v) ->
  x = fst (cd_sum D m) /\ v = snd (cd_sum D m).
Proof.
  intros HD Hs Hk Hw Hr Hx. destruct (crsum_exact early D p k i inp m HD Hs Hk Hw) as (ds0 & rs0 & E & E1).
  rewrite Hr in E. injection E as <- <-. rewrite Hx in E1. injection E1 as E1 E2. apply app_inv_head in E1. auto.
Qed.

Lemma go_collision early early' D p p' k k' i i' inp inp' m m' x v v' ds ds' rs rs' : decides D go_detects ->
  scoped 0 (calls p) -> scoped 0 (calls p') ->
  nth_error (calls p) k = Some (OCRSum i inp) -> nth_error (calls p') k' = Some (OCRSum i' inp') ->
  written i (firstn k (calls p)) = Some m -> written i' (firstn k' (calls p')) = Some m' ->
  in_range m -> in_range m' -> m <> m' ->
  run_program early p = Some (ds, rs) -> run_program early' p' = Some (ds', rs') ->
  nth_error rs k = Some (RVerdict (inp ++ x) v) -> nth_error rs' k' = Some (RVerdict (inp' ++ x) v') ->
  exists h M h' M', processed D m h M /\ processed D m' h' M' /\ (h, M) <> (h', M') /\ cd_block D h M = cd_block D h' M'.
Proof.
  intros HD Hs Hs' Hk Hk' Hw Hw' R R' Hn Hr Hr' Hx Hx'.
  destruct (digest_of _ D _ _ _ _ _ _ _ _ _ HD Hs Hk Hw Hr Hx) as [E _].
  destruct (digest_of _ D _ _ _ _ _ _ _ _ _ HD Hs' Hk' Hw' Hr' Hx') as [E' _].
  apply cd_collision; auto. congruence.
Qed.

(** The same, the other way round. *)
Lemma go_distinct early early' D p p' k k' i i' inp inp' m m' x x' v v' ds ds' rs rs' : decides D go_detects ->
  scoped 0 (calls p) -> scoped 0 (calls p') ->
  nth_error (calls p) k = Some (OCRSum i inp) -> nth_error (calls p') k' = Some (OCRSum i' inp') ->
  written i (firstn k (calls p)) = Some m -> written i' (firstn k' (calls p')) = Some m' ->
  in_range m -> in_range m' -> m <> m' ->
  run_program early p = Some (ds, rs) -> run_program early' p' = Some (ds', rs') ->
  nth_error rs k = Some (RVerdict (inp ++ x) v) -> nth_error rs' k' = Some (RVerdict (inp' ++ x') v') ->
  (forall h M h' M', processed D m h M -> processed D m' h' M' -> cd_block D h M = cd_block D h' M' -> (h, M) = (h', M')) ->
  x <> x'.
Proof.
  intros HD Hs Hs' Hk Hk' Hw Hw' R R' Hn Hr Hr' Hx Hx' Inj <-.
  destruct (go_collision _ _ D _ _ _ _ _ _ _ _ _ _ _ _ _ _ _ _ _ HD Hs Hs' Hk Hk' Hw Hw' R R' Hn Hr Hr' Hx Hx') as (h & M & h' & M' & P & P' & Ne & Eq).
  exact (Ne (Inj _ _ _ _ P P' Eq)).
Qed.

Lemma go_undetected early early' p p' k k' i i' inp inp' m m' x ds ds' rs rs' :
  scoped 0 (calls p) -> scoped 0 (calls p') ->
  nth_error (calls p) k = Some (OCRSum i inp) -> nth_error (calls p') k' = Some (OCRSum i' inp') ->
  written i (firstn k (calls p)) = Some m -> written i' (firstn k' (calls p')) = Some m' ->
  in_range m -> in_range m' -> m <> m' ->
  run_program early p = Some (ds, rs) -> run_program early' p' = Some (ds', rs') ->
  nth_error rs k = Some (RVerdict (inp ++ x) false) -> nth_error rs' k' = Some (RVerdict (inp' ++ x) false) ->
  sha1 m = sha1 m' /\
  exists h M h' M', sha1_processed m h M /\ sha1_processed m' h' M' /\ (h, M) <> (h', M') /\ compress h M = compress h' M' /\
    (forall d, test_step (the_dv d) = 65%nat -> ~ attacked_by d h M /\ ~ attacked_by d h' M') /\
    ~ go_detects h M /\ ~ go_detects h' M'.
Proof.
  intros Hs Hs' Hk Hk' Hw Hw' R R' Hn Hr Hr' Hx Hx'. pose proof go_decide_ok as HD.
  destruct (digest_of _ go_decide _ _ _ _ _ _ _ _ _ HD Hs Hk Hw Hr Hx) as [E F].
  destruct (digest_of _ go_decide _ _ _ _ _ _ _ _ _ HD Hs' Hk' Hw' Hr' Hx') as [E' F'].
  symmetry in F, F'. split; [rewrite <- (cd_sum_unflagged _ _ F), <- (cd_sum_unflagged _ _ F'); congruence|].
  destruct (cd_undetected go_decide m m' R R' Hn) as (h & M & h' & M' & P & P' & Ne & Eq & Dh & Dh' & W & W' & L & L' & Wm & Wm'); [congruence|assumption..|].
  assert (G : ~ go_detects h M) by (intros G; apply (HD h M W L Wm) in G; congruence).
  assert (G' : ~ go_detects h' M') by (intros G'; apply (HD h' M' W' L' Wm') in G'; congruence).
  exists h, M, h', M'. split; [assumption|]. split; [assumption|]. split; [assumption|]. split; [assumption|]. split; [|auto].
  intros d Hd. split; intros A; [apply G|apply G']; exists d; apply attacked_65_detected; assumption.
Qed.

(** ** The C library *)
Lemma cc_blocks_chain D o bs : forall s, fst (cc_blocks D o s bs) = chain (fun h b => c_step D o h (words_of b)) (fst s) bs.
Proof.
  induction bs as [|b bs IH]; intros s; [reflexivity|].
  change (fst (cc_blocks D o (cc_block D o s b) bs) = chain (fun h b => c_step D o h (words_of b)) (c_step D o (fst s) (words_of b)) bs).
  rewrite IH. reflexivity.
Qed.
Lemma cc_collision D o m m' : in_range m -> in_range m' -> m <> m' -> fst (cc_sum D o m) = fst (cc_sum D o m') ->
  exists h M h' M', c_processed D o m h M /\ c_processed D o m' h' M' /\ (h, M) <> (h', M') /\ c_step D o h M = c_step D o h' M'.
Proof.
  intros R R' Hn E. unfold cc_sum in E. cbn [fst] in E.
  apply st_bytes_inj in E; [|apply wfst_cc_blocks, wfst_IV|apply wfst_cc_blocks, wfst_IV]. rewrite !cc_blocks_chain in E. cbn [fst] in E.
  apply padded_collision in E; [|assumption..]. destruct E as (j & j' & b & b' & Hj & Hj' & Ne & Eq).
  exists (chain (fun h b => c_step D o h (words_of b)) IV (firstn j (blocks (pad m)))), (words_of b),
    (chain (fun h b => c_step D o h (words_of b)) IV (firstn j' (blocks (pad m')))), (words_of b').
  split; [exists j, b; rewrite cc_blocks_chain; auto|]. split; [exists j', b'; rewrite cc_blocks_chain; auto|].
  split; [|assumption]. eapply neq_words; eassumption.
Qed.
Lemma cc_not_flagged D o bs j b s : snd (cc_blocks D o s bs) = false -> nth_error bs j = Some b ->
  D o (fst (cc_blocks D o s (firstn j bs))) (words_of b) = false.
Proof.
  intros Hf Hj. destruct (D o (fst (cc_blocks D o s (firstn j bs))) (words_of b)) eqn:E; [|reflexivity].
  assert (T : snd (cc_blocks D o s bs) = true) by (apply cc_blocks_verdict; right; eauto). congruence.
Qed.
Lemma cc_blocks_unflagged D o bs : forall s, snd (cc_blocks D o s bs) = false -> fst (cc_blocks D o s bs) = sha1_blocks (fst s) bs.
Proof.
  induction bs as [|b bs IH]; intros s Hf; [reflexivity|].
  change (snd (cc_blocks D o (cc_block D o s b) bs) = false) in Hf.
  change (fst (cc_blocks D o (cc_block D o s b) bs) = sha1_blocks (compress (fst s) (words_of b)) bs).
  rewrite IH by assumption. f_equal. unfold cc_block. cbn [fst].
  destruct (D o (fst s) (words_of b)) eqn:E; [|reflexivity].
  rewrite cc_blocks_mono in Hf; [discriminate|]. unfold cc_block. cbn [snd]. rewrite E. apply orb_true_r.
Qed.
Lemma cc_unflagged_prefix D o bs j s : snd (cc_blocks D o s bs) = false -> snd (cc_blocks D o s (firstn j bs)) = false.
Proof.
  intros Hf. destruct (snd (cc_blocks D o s (firstn j bs))) eqn:E; [|reflexivity].
  rewrite <- (firstn_skipn j bs) in Hf. unfold cc_blocks in Hf, E. rewrite fold_left_app in Hf.
  change (snd (cc_blocks D o (fold_left (cc_block D o) (firstn j bs) s) (skipn j bs)) = false) in Hf.
  rewrite cc_blocks_mono in Hf by assumption. discriminate.
Qed.

Lemma c_digest_of cfg D c sets ws c1 r x v : host_be cfg = macro_be cfg -> cdecides D -> ctx_typed c -> Forall (fun c => setter c = true) sets ->
  capi_run cfg c (session sets ws) = Some (c1, r ++ [CDigest x v]) ->
  x = fst (cc_sum D (opts_of sets) (concat ws)) /\ v = (if snd (cc_sum D (opts_of sets) (concat ws)) then 1 else 0)%Z.
Proof.
  intros Hc HD Ht Hs E. destruct (session_ok cfg D c sets ws Hc HD Ht Hs) as [c' E1]. rewrite E in E1.
  apply (f_equal (option_map snd)) in E1. cbn [option_map snd] in E1.
  assert (E2 : r ++ [CDigest x v] = repeat CNone (1 + length sets + length ws) ++
    [CDigest (fst (cc_sum D (opts_of sets) (concat ws))) (if snd (cc_sum D (opts_of sets) (concat ws)) then 1 else 0)%Z]) by congruence.
  apply app_inj_tail in E2. destruct E2 as [_ E2]. injection E2 as -> ->. auto.
Qed.

Lemma c_collision cfg cfg' D c c' sets ws ws' c1 c1' r r' x v v' :
  host_be cfg = macro_be cfg -> host_be cfg' = macro_be cfg' -> cdecides D -> ctx_typed c -> ctx_typed c' ->
  Forall (fun c => setter c = true) sets ->
  capi_run cfg c (session sets ws) = Some (c1, r ++ [CDigest x v]) ->
  capi_run cfg' c' (session sets ws') = Some (c1', r' ++ [CDigest x v']) ->
  in_range (concat ws) -> in_range (concat ws') -> concat ws <> concat ws' ->
  exists h M h' M', c_processed D (opts_of sets) (concat ws) h M /\ c_processed D (opts_of sets) (concat ws') h' M' /\
    (h, M) <> (h', M') /\ c_step D (opts_of sets) h M = c_step D (opts_of sets) h' M'.
Proof.
  intros Hc Hc' HD Ht Ht' Hs E E' R R' Hn.
  destruct (c_digest_of _ D _ _ _ _ _ _ _ Hc HD Ht Hs E) as [X _]. destruct (c_digest_of _ D _ _ _ _ _ _ _ Hc' HD Ht' Hs E') as [X' _].
  apply cc_collision; auto. congruence.
Qed.

Lemma c_processed_plain D o m h M : (snd (cc_sum D o m) = false \/ o_safe o = false) -> c_processed D o m h M ->
  sha1_processed m h M /\ c_step D o h M = compress h M.
Proof.
  intros Hf (j & b & Hj & -> & ->). destruct (o_safe o) eqn:Es.
  - destruct Hf as [Hf|Hf]; [|discriminate]. unfold cc_sum in Hf. cbn [snd] in Hf. split.
    + exists j, b. split; [assumption|]. split; [reflexivity|].
      exact (cc_blocks_unflagged D o (firstn j (blocks (pad m))) (IV, false) (cc_unflagged_prefix _ _ _ _ _ Hf)).
    + unfold c_step. rewrite (cc_not_flagged D o (blocks (pad m)) j b (IV, false) Hf Hj). reflexivity.
  - split.
    + exists j, b. split; [assumption|]. split; [reflexivity|].
      refine (cc_blocks_plain D o (firstn j (blocks (pad m))) _ (IV, false) _ wfst_IV).
      * intros. rewrite Es. apply andb_false_r.
      * pose proof (blocks_len (pad m)) as B. rewrite <- (firstn_skipn j (blocks (pad m))) in B. apply Forall_app in B. tauto.
    + unfold c_step. rewrite Es, andb_false_r. reflexivity.
Qed.

Lemma c_unflagged_processed D o m h M : cdecides D -> snd (cc_sum D o m) = false -> c_processed D o m h M -> ~ flagged o h M.
Proof.
  intros HD Hf (j & b & Hj & -> & ->) F. unfold cc_sum in Hf. cbn [snd] in Hf.
  apply (HD o _ _ (wfst_cc_blocks D o (firstn j (blocks (pad m))) (IV, false) wfst_IV)) in F;
    [|apply words_of_length; eapply nth_blocks_len; eassumption|apply wf_words_of].
  rewrite (cc_not_flagged D o (blocks (pad m)) j b (IV, false) Hf Hj) in F. discriminate.
Qed.

Lemma c_plain_collision cfg cfg' c c' sets ws ws' c1 c1' r r' x v v' :
  host_be cfg = macro_be cfg -> host_be cfg' = macro_be cfg' -> ctx_typed c -> ctx_typed c' ->
  Forall (fun c => setter c = true) sets -> (o_safe (opts_of sets) = false \/ (v = 0 /\ v' = 0)%Z) ->
  capi_run cfg c (session sets ws) = Some (c1, r ++ [CDigest x v]) ->
  capi_run cfg' c' (session sets ws') = Some (c1', r' ++ [CDigest x v']) ->
  in_range (concat ws) -> in_range (concat ws') -> concat ws <> concat ws' ->
  exists h M h' M', sha1_processed (concat ws) h M /\ sha1_processed (concat ws') h' M' /\
    (h, M) <> (h', M') /\ compress h M = compress h' M' /\
    (v = 0%Z -> ~ flagged (opts_of sets) h M) /\ (v' = 0%Z -> ~ flagged (opts_of sets) h' M').
Proof.
  intros Hc Hc' Ht Ht' Hs Ho E E' R R' Hn. pose proof cdec_decides as HD.
  destruct (c_collision _ _ cdec _ _ _ _ _ _ _ _ _ _ _ _ Hc Hc' HD Ht Ht' Hs E E' R R' Hn) as (h & M & h' & M' & P & P' & Ne & Eq).
  destruct (c_digest_of _ cdec _ _ _ _ _ _ _ Hc HD Ht Hs E) as [_ V]. destruct (c_digest_of _ cdec _ _ _ _ _ _ _ Hc' HD Ht' Hs E') as [_ V'].
  assert (Z : forall m (w : Z), w = (if snd (cc_sum cdec (opts_of sets) m) then 1 else 0)%Z -> w = 0%Z -> snd (cc_sum cdec (opts_of sets) m) = false).
  { intros m w -> Hw. destruct (snd (cc_sum cdec (opts_of sets) m)); [discriminate|reflexivity]. }
  assert (F : v = 0%Z -> ~ flagged (opts_of sets) h M) by (intros Hv; eapply c_unflagged_processed; eauto).
  assert (F' : v' = 0%Z -> ~ flagged (opts_of sets) h' M') by (intros Hv; eapply c_unflagged_processed; eauto).
  apply c_processed_plain in P; [|destruct Ho as [?|[? ?]]; eauto]. apply c_processed_plain in P'; [|destruct Ho as [?|[? ?]]; eauto].
  destruct P as [P C], P' as [P' C']. rewrite C, C' in Eq. exists h, M, h', M'. auto 10.
Qed.
