(** The leakage of the assembly builds is that of the generic code. *)

From Coq Require Import Arith ZArith NArith List Strings.Byte Lia ZifyNat Bool.
From Verif Require Import Word WordFacts Spec_Sha1 Sha1Facts Spec_DV Spec_Cd DvFacts Model_Ubc Gen_UbcGo Gen_DvsGo Model_Go Model_Asm Model_Amd64 Model_Arm64 Gen_Amd64 Gen_Arm64
  GoCheck GoBlock GoAmd64 GoArm64 GoTable GoApi Spec_Api Model_Api Model_Block GoAsm Model_Trace AsmTrace Model_Leak Spec_Leak Leak Model_LeakAsm.
Import ListNotations.
Local Open Scope N_scope.
Ltac Zify.zify_post_hook ::= idtac.

Local Opaque l_checkCollision checkCollision rectify go_decide schedule leaked traced leak_of.
Lemma rectify_l m1 cs : l_rectify m1 cs = ([EBr false; EIx AM1 56; EIx AM1 57; EIx AM1 64], Some (rectify m1 cs)).
Proof. reflexivity. Qed.
Lemma asm_blocks_snd call rec : forall fuel k p h m1 cs col, snd (l_asm_blocks call rec fuel k p h m1 cs col) = asm_blocks call fuel k p h m1 cs col.
Proof.
  induction fuel as [|fuel IH]; intros k p h m1 cs col; cbn [l_asm_blocks asm_blocks]; rewrite snd_bind; unfold test at 1; cbn [snd obind];
    destruct (64 <=? length p)%nat; try reflexivity. cbv zeta.
  rewrite snd_bind. unfold l_call at 1. cbn [snd]. destruct (call k h (firstn 64 p) m1 cs) as [[[h1 m2] cs1]|]; [|reflexivity]. cbn [obind].
  rewrite rectify_l, bind_some. cbn [snd]. rewrite snd_bind, checkCollision_snd. destruct (checkCollision m2 (rectify m2 cs1) h1) as [c|]; [|reflexivity]. cbn [obind].
  rewrite snd_bind. unfold test. cbn [snd obind]. destruct c; [|apply IH].
  rewrite snd_bind. unfold l_call at 1. cbn [snd]. destruct (call (k + 1)%nat h1 (firstn 64 p) m2 (rectify m2 cs1)) as [[[h2 m3] cs2]|]; [|reflexivity]. cbn [obind].
  rewrite snd_bind. unfold l_call at 1. cbn [snd]. destruct (call (k + 2)%nat h2 (firstn 64 p) m3 cs2) as [[[h3 m4] cs3]|]; [|reflexivity]. cbn [obind]. apply IH.
Qed.
Lemma asm_block_snd call rec d p : snd (l_asm_block call rec d p) = asm_block call d p.
Proof.
  unfold l_asm_block, asm_block. rewrite snd_bind. unfold test. cbn [snd obind]. rewrite snd_bind, asm_blocks_snd. destruct (asm_blocks _ _ _ _ _ _ _ _) as [[h c]|]; reflexivity.
Qed.

(** A record that depends on the number of the call only. *)
Definition rec_ok (rec : asm_rec) : Prop := forall k h p m1 cs h' p' m1' cs', length p = 64%nat -> length m1 = 80%nat -> length p' = 64%nat -> length m1' = 80%nat ->
  rec k h p m1 cs = rec k h' p' m1' cs'.
Section Blocks.
  Variables (call : asm_call) (rec : asm_rec).
  Hypotheses (Hc : call_ok call) (Hr : rec_ok rec).
  Lemma ex_asm_blocks : forall fuel k p p' h h' m1 m1' cs cs' col, length p = length p' -> (length p <= fuel)%nat -> wfst h -> wfst h' ->
    length m1 = 80%nat -> length m1' = 80%nat ->
    exactly (fun r => snd r = false) (l_asm_blocks call rec fuel k p h m1 cs col) (l_asm_blocks call rec fuel k p' h' m1' cs' col)
      (map traced (blocks p)) (map traced (blocks p')) (fun r r' => snd r = snd r').
  Proof.
    induction fuel as [|fuel IH]; intros k p p' h h' m1 m1' cs cs' col L F H H' Lm Lm'; cbn [l_asm_blocks]; rewrite <- L; apply ex_step;
      destruct (Nat.leb_spec 64 (length p)) as [G|G].
    - apply ex_panic.
    - rewrite !blocks_short by lia. apply ex_const. reflexivity.
    - rewrite (blocks_cons p), (blocks_cons p') by lia. cbn [map].
      change (traced (firstn 64 p) :: ?a) with ([traced (firstn 64 p)] ++ a). change (traced (firstn 64 p') :: ?a) with ([traced (firstn 64 p')] ++ a).
      assert (Lf : length (firstn 64 p) = 64%nat) by (rewrite firstn_length; lia). assert (Lf' : length (firstn 64 p') = 64%nat) by (rewrite firstn_length; lia).
      cbv zeta. unfold l_call. rewrite (Hr k h (firstn 64 p) m1 cs h' (firstn 64 p') m1' cs' Lf Lm Lf' Lm').
      rewrite !Hc by assumption. rewrite <- (traced_eq (firstn 64 p)), <- (traced_eq (firstn 64 p')).
      set (M := words_of (firstn 64 p)) in *. set (M' := words_of (firstn 64 p')) in *.
      assert (ML : length M = 16%nat) by (apply words_of_length; rewrite Lf; reflexivity). assert (ML' : length M' = 16%nat) by (apply words_of_length; rewrite Lf'; reflexivity).
      assert (MW : Forall wf M) by apply wf_words_of. assert (MW' : Forall wf M') by apply wf_words_of.
      assert (SL : length (schedule M) = 80%nat) by (apply schedule_length; exact ML). assert (SL' : length (schedule M') = 80%nat) by (apply schedule_length; exact ML').
      apply ex_step. rewrite !rectify_l. apply ex_step. rewrite !rectify_eq by assumption.
      apply (ex_bind (fun c => c = false) _ _ _ _ _ eq); [apply ex_checkCollision| | | |reflexivity].
      + intros c ? _ _ <-. apply ex_step. destruct c.
        * rewrite (Hr (k + 1)%nat _ (firstn 64 p) _ _ (compress h' M') (firstn 64 p') (schedule M') (cs_of h' M')) by assumption.
          rewrite !Hc by auto with wf. fold M M'. apply ex_step.
          rewrite (Hr (k + 2)%nat _ (firstn 64 p) _ _ (compress (compress h' M') M') (firstn 64 p') (schedule M') (mkcs (compress h' M') (state_at 56 (compress h' M') M') (state_at 64 (compress h' M') M'))) by assumption.
          rewrite !Hc by auto with wf. fold M M'. apply ex_step. apply IH; auto with wf; rewrite ?skipn_length; lia.
        * apply IH; auto with wf; rewrite ?skipn_length; lia.
      + intros c r Ec Er O. destruct c; [|reflexivity]. exfalso. rewrite snd_bind in Er. unfold test in Er. cbn [snd obind] in Er.
        rewrite !Hc in Er by auto with wf. fold M in Er. rewrite bind_some in Er. cbn [snd] in Er. rewrite !Hc in Er by auto with wf. fold M in Er. rewrite bind_some in Er. cbn [snd] in Er.
        rewrite asm_blocks_snd, asm_blocks_eq in Er by (auto with wf; rewrite ?skipn_length; lia). apply some_inj in Er. rewrite <- Er in O. apply sticky in O. discriminate.
      + intros c r Ec Er O. destruct c; [|reflexivity]. exfalso. rewrite snd_bind in Er. unfold test in Er. cbn [snd obind] in Er.
        rewrite !Hc in Er by auto with wf. fold M' in Er. rewrite bind_some in Er. cbn [snd] in Er. rewrite !Hc in Er by auto with wf. fold M' in Er. rewrite bind_some in Er. cbn [snd] in Er.
        rewrite asm_blocks_snd, asm_blocks_eq in Er by (auto with wf; rewrite ?skipn_length; lia). apply some_inj in Er. rewrite <- Er in O. apply sticky in O. discriminate.
    - rewrite !blocks_short by lia. apply ex_const. reflexivity.
  Qed.
  Lemma ex_asm_block d d' p p' : length p = length p' -> wfst (dh d) -> wfst (dh d') -> dcol d = dcol d' ->
    exactly (fun r => dcol r = false) (l_asm_block call rec d p) (l_asm_block call rec d' p') (map traced (blocks p)) (map traced (blocks p')) (fun r r' => dcol r = dcol r').
  Proof.
    intros L H H' C. unfold l_asm_block. rewrite <- L, <- C. apply ex_step.
    apply (ex_last (fun r => snd r = false) _ _ _ _ _ (fun r r' => snd r = snd r')).
    - apply ex_asm_blocks; auto.
    - intros r r' _ _ E. apply ex_const. exact E.
    - intros r c _ E O. apply some_inj in E. rewrite <- E in O. exact O.
    - intros r c _ E O. apply some_inj in E. rewrite <- E in O. exact O.
    - rewrite !map_length, !blocks_length, L. reflexivity.
  Qed.
End Blocks.

Lemma exactly_iff {A} (ok : A -> Prop) (m m' : lk A) l l' R a b : exactly ok m m' (map traced l) (map traced l') R -> snd m = Some a -> snd m' = Some b -> ok a -> ok b ->
  (fst m = fst m' <-> map leaked l = map leaked l').
Proof.
  intros [F B] E E' O O'. rewrite <- traced_map. split; intros X.
  - assert (X2 : fst m ++ [] = fst m' ++ []) by (rewrite X; reflexivity). destruct (F _ _ X2) as (_ & _ & K). rewrite E, E' in K. apply K. exact O.
  - apply (B a b E E' O O' X).
Qed.
Lemma exactly_rel {A} (ok : A -> Prop) (m m' : lk A) u u' R a b : exactly ok m m' u u' R -> snd m = Some a -> snd m' = Some b -> fst m = fst m' -> R a b.
Proof.
  intros [F _] E E' X. assert (X2 : fst m ++ [] = fst m' ++ []) by (rewrite X; reflexivity). destruct (F _ _ X2) as (_ & _ & K). rewrite E, E' in K. apply K.
Qed.

Lemma amd64_ok e : (forall k, layout_ok (e_lay (e k))) -> call_ok (fun k => call_amd64 amd64_prog upper_mask shuffle_mask (e k)) /\ rec_ok (rec_amd64 e).
Proof.
  intros H. split.
  - intros k h p m1 cs Hh Hp Hm. apply call_amd64_ok; auto.
  - intros k h p m1 cs h' p' m1' cs' A B C D. apply amd64_trace; auto.
Qed.
Lemma arm64_ok e : (forall k, layout_ok (ae_lay (e k)) /\ ae_g (e k) 16%nat mod M64 + 64 < M64) -> call_ok (fun k => call_arm64 arm64_prog sha1Ks (e k)) /\ rec_ok (rec_arm64 e).
Proof.
  intros H. split.
  - intros k h p m1 cs Hh Hp Hm. apply call_arm64_ok; auto; apply H.
  - intros k h p m1 cs h' p' m1' cs' A B C D. apply arm64_trace; auto. apply H.
Qed.
Theorem leak_amd64_erase e d p : snd (l_block_amd64 e d p) = block_amd64 e d p.
Proof. apply asm_block_snd. Qed.
Theorem leak_arm64_erase e d p : snd (l_block_arm64 e d p) = block_arm64 e d p.
Proof. apply asm_block_snd. Qed.
Theorem leak_amd64 e d d' p p' r r' : (forall k, layout_ok (e_lay (e k))) -> wfst (dh d) -> wfst (dh d') -> dcol d = dcol d' -> length p = length p' ->
  block_amd64 e d p = Some r -> block_amd64 e d' p' = Some r' ->
  (fst (l_block_amd64 e d p) = fst (l_block_amd64 e d' p') -> dcol r = dcol r') /\
  (dcol r = false -> dcol r' = false -> (fst (l_block_amd64 e d p) = fst (l_block_amd64 e d' p') <-> map leaked (blocks p) = map leaked (blocks p'))).
Proof.
  intros H W W' C L E E'. rewrite <- leak_amd64_erase in E, E'. destruct (amd64_ok e H) as [Hc Hr].
  pose proof (ex_asm_block _ _ Hc Hr d d' p p' L W W' C) as X. split.
  - apply (exactly_rel _ _ _ _ _ _ r r' X E E').
  - intros O O'. apply (exactly_iff _ _ _ _ _ _ r r' X E E' O O').
Qed.
Theorem leak_arm64 e d d' p p' r r' : (forall k, layout_ok (ae_lay (e k)) /\ ae_g (e k) 16%nat mod M64 + 64 < M64) -> wfst (dh d) -> wfst (dh d') -> dcol d = dcol d' -> length p = length p' ->
  block_arm64 e d p = Some r -> block_arm64 e d' p' = Some r' ->
  (fst (l_block_arm64 e d p) = fst (l_block_arm64 e d' p') -> dcol r = dcol r') /\
  (dcol r = false -> dcol r' = false -> (fst (l_block_arm64 e d p) = fst (l_block_arm64 e d' p') <-> map leaked (blocks p) = map leaked (blocks p'))).
Proof.
  intros H W W' C L E E'. rewrite <- leak_arm64_erase in E, E'. destruct (arm64_ok e H) as [Hc Hr].
  pose proof (ex_asm_block _ _ Hc Hr d d' p p' L W W' C) as X. split.
  - apply (exactly_rel _ _ _ _ _ _ r r' X E E').
  - intros O O'. apply (exactly_iff _ _ _ _ _ _ r r' X E E' O O').
Qed.
(** The generic code, for comparison. *)
Theorem leak_generic d d' p p' r r' : wfst (dh d) -> wfst (dh d') -> dcol d = dcol d' -> length p = length p' ->
  blockGeneric d p = Some r -> blockGeneric d' p' = Some r' -> dcol r = false -> dcol r' = false ->
  (fst (l_blockGeneric d p) = fst (l_blockGeneric d' p') <-> map leaked (blocks p) = map leaked (blocks p')).
Proof.
  intros W W' C L E E' O O'. rewrite <- block_snd in E, E'. apply (exactly_iff _ _ _ _ _ _ r r' (ex_block d d' p p' L W W' C) E E' O O').
Qed.

(** ** Sessions *)
Theorem leak_amd64_session e d d' os os' r r' : (forall k, layout_ok (e_lay (e k))) -> hasher d -> hasher d' -> dlen d = dlen d' -> dcol d = dcol d' -> same_calls os os' ->
  session (block_amd64 e) d os = Some r -> session (block_amd64 e) d' os' = Some r' ->
  (fst (l_session (l_block_amd64 e) d os) = fst (l_session (l_block_amd64 e) d' os') -> dcol (fst r) = dcol (fst r') /\ map snd (snd r) = map snd (snd r')) /\
  (quiet r -> quiet r' -> (fst (l_session (l_block_amd64 e) d os) = fst (l_session (l_block_amd64 e) d' os') <->
    map leaked (fed (buffered d) (dlen d) os) = map leaked (fed (buffered d') (dlen d') os'))).
Proof.
  intros H W W' L C SC E E'. destruct (amd64_ok e H) as [Hc Hr]. pose proof (block_amd64_ok e H) as Hok. pose proof (leak_amd64_erase e) as Hs.
  pose proof (ex_asm_block _ _ Hc Hr) as Hx. split.
  - apply (s_leak_verdicts (l_block_amd64 e) (block_amd64 e) Hs Hok Hx d d' os os' r r' W W' L C SC E E').
  - apply (s_leak_exact (l_block_amd64 e) (block_amd64 e) Hs Hok Hx d d' os os' r r' W W' L C SC E E').
Qed.
Theorem leak_arm64_session e d d' os os' r r' : (forall k, layout_ok (ae_lay (e k)) /\ ae_g (e k) 16%nat mod M64 + 64 < M64) ->
  hasher d -> hasher d' -> dlen d = dlen d' -> dcol d = dcol d' -> same_calls os os' ->
  session (block_arm64 e) d os = Some r -> session (block_arm64 e) d' os' = Some r' ->
  (fst (l_session (l_block_arm64 e) d os) = fst (l_session (l_block_arm64 e) d' os') -> dcol (fst r) = dcol (fst r') /\ map snd (snd r) = map snd (snd r')) /\
  (quiet r -> quiet r' -> (fst (l_session (l_block_arm64 e) d os) = fst (l_session (l_block_arm64 e) d' os') <->
    map leaked (fed (buffered d) (dlen d) os) = map leaked (fed (buffered d') (dlen d') os'))).
Proof.
  intros H W W' L C SC E E'. destruct (arm64_ok e H) as [Hc Hr]. pose proof (block_arm64_ok e H) as Hok. pose proof (leak_arm64_erase e) as Hs.
  pose proof (ex_asm_block _ _ Hc Hr) as Hx. split.
  - apply (s_leak_verdicts (l_block_arm64 e) (block_arm64 e) Hs Hok Hx d d' os os' r r' W W' L C SC E E').
  - apply (s_leak_exact (l_block_arm64 e) (block_arm64 e) Hs Hok Hx d d' os os' r r' W W' L C SC E E').
Qed.
(** Every build computes the same session. *)
Lemma session_same b1 b2 : block_ok b1 -> block_ok b2 -> forall os d, dwf d -> session b1 d os = session b2 d os.
Proof.
  intros H1 H2. induction os as [|[p|i] os IH]; intros d W; cbn [session]; [reflexivity| |].
  - destruct (Write_same b1 b2 H1 H2 d p W) as [E K]. rewrite <- E. destruct (Write b1 d p) as [[d1 n]|]; [|reflexivity]. cbn [obind fst]. apply IH. apply (K d1 n eq_refl).
  - unfold CollisionResistantSum. rewrite (checkSum_same b1 b2 H1 H2 d W). destruct (checkSum b2 d) as [[d1 h]|]; [|reflexivity]. cbn [obind]. rewrite (IH d W). reflexivity.
Qed.
Theorem leak_session_erase ea er d os : (forall k, layout_ok (e_lay (ea k))) -> (forall k, layout_ok (ae_lay (er k)) /\ ae_g (er k) 16%nat mod M64 + 64 < M64) -> hasher d ->
  exists r, session blockGeneric d os = Some r /\ session (block_amd64 ea) d os = Some r /\ session (block_arm64 er) d os = Some r /\
    snd (l_session (l_block_amd64 ea) d os) = Some r /\ snd (l_session (l_block_arm64 er) d os) = Some r.
Proof.
  intros Ha Hr H. destruct (leak_erase d os H) as (r & _ & E). exists r. assert (W : dwf d) by apply H.
  pose proof (session_same _ _ (block_amd64_ok ea Ha) blockGeneric_ok os d W) as Ea. pose proof (session_same _ _ (block_arm64_ok er Hr) blockGeneric_ok os d W) as Er.
  rewrite E in Ea, Er. split; [exact E|]. split; [exact Ea|]. split; [exact Er|].
  split; [rewrite (session_snd _ _ (leak_amd64_erase ea)); exact Ea|rewrite (session_snd _ _ (leak_arm64_erase er)); exact Er].
Qed.
(** The two builds tell the same pairs of sessions apart. *)
Theorem leak_builds ea er d d' os os' r r' : (forall k, layout_ok (e_lay (ea k))) -> (forall k, layout_ok (ae_lay (er k)) /\ ae_g (er k) 16%nat mod M64 + 64 < M64) ->
  hasher d -> hasher d' -> dlen d = dlen d' -> dcol d = dcol d' -> same_calls os os' ->
  session blockGeneric d os = Some r -> session blockGeneric d' os' = Some r' -> quiet r -> quiet r' ->
  (fst (l_session (l_block_amd64 ea) d os) = fst (l_session (l_block_amd64 ea) d' os') <-> fst (l_session l_blockGeneric d os) = fst (l_session l_blockGeneric d' os')) /\
  (fst (l_session (l_block_arm64 er) d os) = fst (l_session (l_block_arm64 er) d' os') <-> fst (l_session l_blockGeneric d os) = fst (l_session l_blockGeneric d' os')).
Proof.
  intros Ha Hr H H' L C SC E E' Q Q'. pose proof (leak_exact d d' os os' r r' H H' L C SC E E' Q Q') as G.
  assert (W : dwf d) by apply H. assert (W' : dwf d') by apply H'. split; rewrite G.
  - apply (leak_amd64_session ea d d' os os' r r' Ha H H' L C SC); auto; rewrite (session_same _ _ (block_amd64_ok ea Ha) blockGeneric_ok); assumption.
  - apply (leak_arm64_session er d d' os os' r r' Hr H H' L C SC); auto; rewrite (session_same _ _ (block_arm64_ok er Hr) blockGeneric_ok); assumption.
Qed.

(** ** The verdict so far is not revealed by the block functions *)
Definition same_rec {A B} (m : lk A) (m' : lk B) (R : A -> B -> Prop) : Prop :=
  fst m = fst m' /\ match snd m, snd m' with Some a, Some b => R a b | None, None => True | _, _ => False end.
Lemma sr_bind {A B C D} (m : lk A) (m' : lk B) R (f : A -> lk C) (f' : B -> lk D) Q : same_rec m m' R ->
  (forall a b, R a b -> same_rec (f a) (f' b) Q) -> same_rec (lbind m f) (lbind m' f') Q.
Proof.
  intros [E S0] K. unfold same_rec, lbind. destruct (snd m) as [a|], (snd m') as [b|]; try contradiction; cbv zeta; cbn [fst snd]; [|auto].
  destruct (K a b S0) as [K1 K2]. rewrite E, K1. auto.
Qed.
Lemma sr_same {A C D} (m : lk A) (f : A -> lk C) (f' : A -> lk D) Q : (forall a, same_rec (f a) (f' a) Q) -> same_rec (lbind m f) (lbind m f') Q.
Proof. intros K. apply (sr_bind _ _ eq); [split; [reflexivity|destruct (snd m); auto]|]. intros a ? <-. apply K. Qed.
Lemma sr_ret {A B} (a : A) (b : B) (R : A -> B -> Prop) : R a b -> same_rec (lret a) (lret b) R.
Proof. split; [reflexivity|assumption]. Qed.
Lemma sr_panic {A B} (R : A -> B -> Prop) : same_rec lpanic lpanic R.
Proof. split; reflexivity || exact I. Qed.
Lemma sr_refl {A} (m : lk A) (R : A -> A -> Prop) : (forall a, R a a) -> same_rec m m R.
Proof. intros H. split; [reflexivity|]. destruct (snd m); auto. Qed.
Lemma asm_blocks_flag call rec : forall fuel k p h m1 cs c c', same_rec (l_asm_blocks call rec fuel k p h m1 cs c) (l_asm_blocks call rec fuel k p h m1 cs c') (fun r r' => fst r = fst r').
Proof.
  induction fuel as [|fuel IH]; intros k p h m1 cs c c'; cbn [l_asm_blocks]; apply sr_same; intros t; destruct t; try apply sr_panic; try (apply sr_ret; reflexivity). cbv zeta.
  apply sr_same. intros [[h1 m2] cs1]. apply sr_same. intros cs2. apply sr_same. intros x. apply sr_same. intros y. destruct y; [|apply IH].
  apply sr_refl. reflexivity.
Qed.
Definition flagged (c : bool) (d : digest) : digest := mkd (dh d) (dx d) (dnx d) (dlen d) c.
Lemma sr_fst {A B} (m : lk A) (m' : lk B) R : same_rec m m' R -> fst m = fst m'.
Proof. intros H. apply H. Qed.
Lemma asm_block_flag call rec d p c : fst (l_asm_block call rec (flagged c d) p) = fst (l_asm_block call rec d p).
Proof.
  unfold l_asm_block, flagged. cbn [dh dcol dx dnx dlen]. pose proof (asm_blocks_flag call rec (length p) 0 p (dh d) (repeat 0 80) (mkcs st0 st0 st0) c (dcol d)) as F. revert F.
  generalize (l_asm_blocks call rec (length p) 0 p (dh d) (repeat 0 80) (mkcs st0 st0 st0) c) (l_asm_blocks call rec (length p) 0 p (dh d) (repeat 0 80) (mkcs st0 st0 st0) (dcol d)).
  intros m m' F. apply (sr_fst _ _ (fun _ _ => True)). apply sr_same. intros _. apply (sr_bind _ _ _ _ _ _ F). intros a b _. apply sr_ret. exact I.
Qed.
Local Opaque l_pass.
Lemma rehash_flag : forall fuel off p hi h w m1 cs c c', same_rec (l_rehash fuel off p hi h w m1 cs c) (l_rehash fuel off p hi h w m1 cs c') (fun r r' => fst r = fst r').
Proof.
  induction fuel as [|fuel IH]; intros off p hi h w m1 cs c c'; cbn [l_rehash]; [apply sr_panic|]. apply sr_same. intros x. cbv zeta.
  apply sr_same. intros t. destruct t; [apply IH|]. apply sr_same. intros t. destruct t; [|apply sr_ret; reflexivity].
  apply sr_same. intros k. apply sr_same. intros y. destruct y; [apply sr_refl; reflexivity|apply sr_ret; reflexivity].
Qed.
Local Opaque l_rehash.
Lemma blocks_flag : forall fuel off p h w cs c c', same_rec (l_blocks fuel off p h w cs c) (l_blocks fuel off p h w cs c') (fun r r' => fst r = fst r').
Proof.
  induction fuel as [|fuel IH]; intros off p h w cs c c'; cbn [l_blocks]; apply sr_same; intros t;
    (destruct t; [|apply sr_ret; reflexivity]); [apply sr_panic|].
  pose proof (rehash_flag 3 off p 1 h w (repeat 0 80) cs c c') as F. revert F.
  generalize (l_rehash 3 off p 1 h w (repeat 0 80) cs c) (l_rehash 3 off p 1 h w (repeat 0 80) cs c'). intros m m' F.
  apply (sr_bind _ _ _ _ _ _ F). intros [[[h1 w1] cs1] c1] [[[h2 w2] cs2] c2] E. cbn [fst] in E.
  apply pair_inj in E. destruct E as [E E3]. apply pair_inj in E. destruct E as [E1 E2]. rewrite E1, E2, E3. apply IH.
Qed.
Theorem leak_flag_generic d p c : fst (l_blockGeneric (flagged c d) p) = fst (l_blockGeneric d p).
Proof.
  unfold l_blockGeneric, flagged. cbn [dh dcol dx dnx dlen]. pose proof (blocks_flag (length p) 0 p (dh d) (repeat 0 16) (mkcs st0 st0 st0) c (dcol d)) as F. revert F.
  generalize (l_blocks (length p) 0 p (dh d) (repeat 0 16) (mkcs st0 st0 st0) c) (l_blocks (length p) 0 p (dh d) (repeat 0 16) (mkcs st0 st0 st0) (dcol d)).
  intros m m' F. apply (sr_fst _ _ (fun _ _ => True)). apply (sr_bind _ _ _ _ _ _ F). intros a b _. apply sr_ret. exact I.
Qed.
Local Opaque l_blockGeneric l_asm_block.
Theorem leak_flag d p c : fst (l_blockGeneric (mkd (dh d) (dx d) (dnx d) (dlen d) c) p) = fst (l_blockGeneric d p) /\
  (forall e, fst (l_block_amd64 e (mkd (dh d) (dx d) (dnx d) (dlen d) c) p) = fst (l_block_amd64 e d p)) /\
  (forall e, fst (l_block_arm64 e (mkd (dh d) (dx d) (dnx d) (dlen d) c) p) = fst (l_block_arm64 e d p)).
Proof. split; [exact (leak_flag_generic d p c)|]. split; intros e; [unfold l_block_amd64|unfold l_block_arm64]; exact (asm_block_flag _ _ d p c). Qed.
