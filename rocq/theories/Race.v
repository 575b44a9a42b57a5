(** Goroutines that use one hasher at the same time: proofs. *)

From Coq Require Import Arith ZArith NArith List Strings.Byte Lia Bool ZifyNat.
From Verif Require Import Word WordFacts Spec_Sha1 Sha1Facts Spec_DV Spec_Cd Spec_Api DvFacts
  Model_Go Model_Api Model_Block GoCheck GoBlock GoApi GoStore GoAsm GoProps GoProps2 Model_Race Spec_Race.
Import ListNotations.
Local Open Scope N_scope.
Ltac Zify.zify_post_hook ::= idtac.

(** ** Interleavings *)
Section Threads.
  Context {L V A : Type}.
  Variable eqb : L -> L -> bool.
  Notation act := (act L V A).

  (** A goroutine that stores nothing. *)
  Fixpoint quiet {B} (a : Model_Race.act L V B) : Prop :=
    match a with Ret _ | Panic => True | Rd _ k => forall v, quiet (k v) | Wr _ _ _ => False end.
  Lemma quiet_bind {B C} (x : Model_Race.act L V B) (f : B -> Model_Race.act L V C) : quiet x -> (forall a, quiet (f a)) -> quiet (bind x f).
  Proof. induction x as [a| |l k IH|l v k IH]; intros H Hf; cbn in *; auto; destruct H. Qed.

  Lemma solo_one m (a : act) : solo eqb (fst (one eqb m a)) (snd (one eqb m a)) = solo eqb m a.
  Proof. destruct a; reflexivity. Qed.
  Lemma quiet_one m (a : act) : quiet a -> fst (one eqb m a) = m /\ quiet (snd (one eqb m a)).
  Proof. destruct a; cbn; intros H; auto; destruct H. Qed.
  Lemma solo_bind {B C} (x : Model_Race.act L V B) (f : B -> Model_Race.act L V C) : forall m, solo eqb m (bind x f) =
    match solo eqb m x with (m', Some a) => solo eqb m' (f a) | (m', None) => (m', None) end.
  Proof. induction x as [a| |l k IH|l v k IH]; intros m; cbn; auto. Qed.
  Lemma solo_quiet {B} (a : Model_Race.act L V B) : forall m, quiet a -> fst (solo eqb m a) = m.
  Proof. induction a as [a| |l k IH|l v k IH]; intros m H; cbn in *; auto; destruct H. Qed.

  Lemma nth_error_upd_eq {B} (l : list B) i v : (i < length l)%nat -> nth_error (upd i v l) i = Some v.
  Proof. revert i. induction l as [|x l IH]; intros [|i] H; cbn in *; try lia; auto. apply IH. lia. Qed.
  Lemma nth_error_upd_neq {B} (l : list B) i j v : i <> j -> nth_error (upd i v l) j = nth_error l j.
  Proof. revert i j. induction l as [|x l IH]; intros [|i] [|j] H; cbn in *; try congruence; auto. Qed.
  Lemma upd_length {B} (l : list B) i v : length (upd i v l) = length l.
  Proof. revert i. induction l as [|x l IH]; intros [|i]; cbn; auto. Qed.

  (** Every goroutine but [w] is quiet: [w] does what it does alone. *)
  Lemma one_writer w : forall sched m (ts : list act) a, nth_error ts w = Some a ->
    (forall k b, k <> w -> nth_error ts k = Some b -> quiet b) ->
    exists a', nth_error (snd (interleave eqb m ts sched)) w = Some a' /\
      solo eqb (fst (interleave eqb m ts sched)) a' = solo eqb m a.
  Proof.
    induction sched as [|i r IH]; intros m ts a Ha Q; cbn [interleave]; [exists a; auto|].
    destruct (nth_error ts i) as [b|] eqn:Eb; [|apply IH; assumption].
    assert (Hi : (i < length ts)%nat) by (apply nth_error_Some; congruence).
    destruct (one eqb m b) as [m1 b1] eqn:E1.
    destruct (Nat.eq_dec i w) as [->|Hne].
    - rewrite Ha in Eb. injection Eb as <-. pose proof (solo_one m a) as S. rewrite E1 in S. cbn [fst snd] in S. rewrite <- S.
      apply IH; [apply nth_error_upd_eq; assumption|].
      intros k c Hk E. rewrite nth_error_upd_neq in E by auto. eauto.
    - destruct (quiet_one m b (Q i b Hne Eb)) as [S Qb]. rewrite E1 in S, Qb. cbn [fst snd] in S, Qb. subst m1.
      apply IH; [rewrite nth_error_upd_neq by auto; assumption|].
      intros k c Hk E. destruct (Nat.eq_dec i k) as [->|Hn]; [|rewrite nth_error_upd_neq in E by auto; eauto].
      rewrite nth_error_upd_eq in E by assumption. injection E as <-. exact Qb.
  Qed.
  (** Every goroutine is quiet. *)
  Lemma all_quiet : forall sched m (ts : list act), (forall k b, nth_error ts k = Some b -> quiet b) -> fst (interleave eqb m ts sched) = m.
  Proof.
    induction sched as [|i r IH]; intros m ts Q; cbn [interleave]; [reflexivity|].
    destruct (nth_error ts i) as [b|] eqn:Eb; [|apply IH; assumption].
    assert (Hi : (i < length ts)%nat) by (apply nth_error_Some; congruence).
    destruct (one eqb m b) as [m1 b1] eqn:E1.
    destruct (quiet_one m b (Q i b Eb)) as [S Qb]. rewrite E1 in S, Qb. cbn [fst snd] in S, Qb. subst m1.
    apply IH. intros k c E. destruct (Nat.eq_dec i k) as [->|Hn]; [|rewrite nth_error_upd_neq in E by auto; eauto].
    rewrite nth_error_upd_eq in E by assumption. injection E as <-. exact Qb.
  Qed.

  Lemma interleave_app m (ts : list act) s1 s2 : interleave eqb m ts (s1 ++ s2) =
    interleave eqb (fst (interleave eqb m ts s1)) (snd (interleave eqb m ts s1)) s2.
  Proof.
    revert m ts. induction s1 as [|i r IH]; intros m ts; cbn [app interleave]; [reflexivity|].
    destruct (nth_error ts i) as [b|]; [|apply IH]. destruct (one eqb m b). apply IH.
  Qed.
  (** A goroutine has ended. *)
  Definition ended (a : act) : Prop := match a with Ret _ | Panic => True | _ => False end.
  Lemma thread_ends i a : forall m (ts : list act), nth_error ts i = Some a -> exists n a',
    nth_error (snd (interleave eqb m ts (repeat i n))) i = Some a' /\ ended a' /\
    forall k, k <> i -> nth_error (snd (interleave eqb m ts (repeat i n))) k = nth_error ts k.
  Proof.
    induction a as [x| |l k IH|l v k IH]; intros m ts E.
    - exists 0%nat, (Ret x). cbn. auto.
    - exists 0%nat, Panic. cbn. auto.
    - assert (Hi : (i < length ts)%nat) by (apply nth_error_Some; congruence).
      destruct (IH (m l) m (upd i (k (m l)) ts)) as (n & a' & X & Y & Z); [apply nth_error_upd_eq; assumption|].
      exists (S n), a'. cbn [repeat interleave]. rewrite E. cbn [one]. split; [exact X|]. split; [exact Y|].
      intros j Hj. rewrite Z by assumption. apply nth_error_upd_neq. auto.
    - assert (Hi : (i < length ts)%nat) by (apply nth_error_Some; congruence).
      destruct (IH (put_at eqb m l v) (upd i k ts)) as (n & a' & X & Y & Z); [apply nth_error_upd_eq; assumption|].
      exists (S n), a'. cbn [repeat interleave]. rewrite E. cbn [one]. split; [exact X|]. split; [exact Y|].
      intros j Hj. rewrite Z by assumption. apply nth_error_upd_neq. auto.
  Qed.
  Lemma interleave_length s : forall m (ts : list act), length (snd (interleave eqb m ts s)) = length ts.
  Proof.
    induction s as [|i r IH]; intros m ts; cbn [interleave]; [reflexivity|].
    destruct (nth_error ts i) as [b|]; [|apply IH]. destruct (one eqb m b). rewrite IH. apply upd_length.
  Qed.
  Lemma all_end m (ts : list act) sched : exists more, forall k a,
    nth_error (snd (interleave eqb m ts (sched ++ more))) k = Some a -> ended a.
  Proof.
    assert (G : forall n, exists more, forall k a, (k < n)%nat ->
      nth_error (snd (interleave eqb m ts (sched ++ more))) k = Some a -> ended a).
    { induction n as [|n (more & H)]; [exists []; intros; lia|].
      set (r := interleave eqb m ts (sched ++ more)) in *.
      destruct (nth_error (snd r) n) as [b|] eqn:En.
      - destruct (thread_ends n b (fst r) (snd r) En) as (j & a' & X & Y & Z).
        exists (more ++ repeat n j). intros k a Hk. rewrite app_assoc, interleave_app. fold r.
        destruct (Nat.eq_dec k n) as [->|Hn]; [rewrite X; intros E; injection E as <-; exact Y|].
        rewrite Z by assumption. apply H. lia.
      - exists more. intros k a Hk E. destruct (Nat.eq_dec k n) as [->|Hn]; [fold r in E; congruence|]. apply (H k); [lia|exact E]. }
    destruct (G (length ts)) as (more & H). exists more. intros k a E. apply (H k a); [|exact E].
    rewrite <- (interleave_length (sched ++ more) m ts). apply nth_error_Some. congruence.
  Qed.
End Threads.

Lemma some2p {A B} (a a' : A) (b b' : B) : Some (a, b) = Some (a', b') -> a = a' /\ b = b'.
Proof. intros E. injection E as -> ->. auto. Qed.

(** ** The struct in memory *)
Definition At (m : gmem) (d : digest) : Prop :=
  h_of m = dh d /\ x_of m = dx d /\ m LNX = N.of_nat (dnx d) /\ m LLEN = dlen d /\ m LCOL = (if dcol d then 1 else 0).
Notation put := (put_at gloc_eqb).
Notation run1 := (solo gloc_eqb).

Lemma At_length m d : At m d -> length (dx d) = 64%nat.
Proof. intros (_ & <- & _). unfold x_of. rewrite map_length. apply seq_length. Qed.
Lemma digest_of_At m d : At m d -> digest_of m = d.
Proof.
  intros (A & B & C & E & F). destruct d as [h x nx len col]. cbn [dh dx dnx dlen dcol] in *. unfold digest_of.
  rewrite A, B, C, E, F, Nat2N.id. destruct col; reflexivity.
Qed.
Lemma At_mem_of d : length (dx d) = 64%nat -> At (mem_of d) d.
Proof.
  intros H. split; [destruct d as [[? ? ? ? ?] ? ? ? ?]; reflexivity|]. split; [|split; [|split]; reflexivity].
  unfold x_of. cbn [mem_of]. rewrite <- H. clear H. generalize (dx d). intros l.
  apply nth_ext with (d := x00) (d' := x00); [rewrite map_length, seq_length; reflexivity|].
  rewrite map_length, seq_length. intros n Hn.
  rewrite (nth_indep _ x00 (n2b (b2n (nth 0 l x00)))) by (rewrite map_length, seq_length; assumption).
  rewrite (map_nth (fun i => n2b (b2n (nth i l x00)))), seq_nth by assumption. apply n2b_b2n.
Qed.

Lemma gloc_eq_dec (a b : gloc) : {a = b} + {a <> b}.
Proof. decide equality; apply Nat.eq_dec. Qed.
Lemma gloc_eqb_eq a b : gloc_eqb a b = true <-> a = b.
Proof.
  destruct a, b; cbn; split; intros H; try discriminate; try reflexivity;
    try (apply Nat.eqb_eq in H; congruence); injection H as ->; apply Nat.eqb_refl.
Qed.
Lemma solo_reads {A} (k : gmem -> act gloc N A) m : forall ls m0, exists m1, run1 m (reads ls m0 k) = run1 m (k m1) /\
  (forall l, In l ls -> m1 l = m l) /\ forall l, ~ In l ls -> m1 l = m0 l.
Proof.
  induction ls as [|l ls IH]; intros m0; cbn [reads solo].
  - exists m0. split; [reflexivity|]. split; [intros l []|auto].
  - destruct (IH (put m0 l (m l))) as (m1 & E & H1 & H2). exists m1. split; [exact E|]. split.
    + intros x [<-|Hx]; [|auto]. destruct (in_dec gloc_eq_dec l ls) as [I|I]; [auto|].
      rewrite H2 by exact I. unfold put_at. rewrite (proj2 (gloc_eqb_eq l l) eq_refl). reflexivity.
    + intros x Hx. rewrite H2 by (intros I; apply Hx; right; exact I). unfold put_at.
      destruct (gloc_eqb l x) eqn:E'; [|reflexivity]. apply gloc_eqb_eq in E'. exfalso. apply Hx. left. exact E'.
Qed.
Lemma h_reads m m1 : (forall l, In l (map LH (seq 0 5)) -> m1 l = m l) -> h_of m1 = h_of m.
Proof. intros H. unfold h_of. rewrite !H; cbn; auto 10. Qed.
Lemma firstn_seq n k a : (n <= k)%nat -> firstn n (seq a k) = seq a n.
Proof.
  intros H. replace k with (n + (k - n))%nat by lia. rewrite seq_app, firstn_app, seq_length, Nat.sub_diag, app_nil_r. apply firstn_all2. rewrite seq_length. lia.
Qed.
Lemma x_reads m m1 n : (n <= 64)%nat -> (forall l, In l (map LX (seq 0 n)) -> m1 l = m l) -> firstn n (x_of m1) = firstn n (x_of m).
Proof.
  intros Hn H. unfold x_of. rewrite !firstn_map, firstn_seq by exact Hn. apply map_ext_in. intros i Hi.
  rewrite H; [reflexivity|]. apply in_map. exact Hi.
Qed.
Lemma x_reads_all m m1 : (forall l, In l (map LX (seq 0 64)) -> m1 l = m l) -> x_of m1 = x_of m.
Proof.
  intros H. unfold x_of. apply map_ext_in. intros i Hi. rewrite H; [reflexivity|]. apply in_map. exact Hi.
Qed.

(** ** Stores *)
Lemma solo_wr_h {A} (k : act gloc N A) m h : exists m', run1 m (wr_h h k) = run1 m' k /\
  h_of m' = h /\ x_of m' = x_of m /\ m' LNX = m LNX /\ m' LLEN = m LLEN /\ m' LCOL = m LCOL.
Proof.
  eexists. split; [unfold wr_h; cbn [solo]; reflexivity|]. destruct h as [a b c d e]. repeat split.
Qed.
Lemma x_put m i b : (i < 64)%nat -> x_of (put m (LX i) (b2n b)) = upd i b (x_of m).
Proof.
  intros H. apply nth_ext with (d := x00) (d' := x00).
  - rewrite GoBlock.upd_length. unfold x_of. rewrite !map_length. reflexivity.
  - assert (N : forall f j, (j < 64)%nat -> nth j (x_of f) x00 = n2b (f (LX j))).
    { intros f j Hj. unfold x_of. rewrite (nth_indep _ x00 (n2b (f (LX 0)))) by (rewrite map_length, seq_length; assumption).
      rewrite (map_nth (fun i => n2b (f (LX i)))), seq_nth by assumption. reflexivity. }
    assert (Lx : forall f, length (x_of f) = 64%nat) by (intros f; unfold x_of; rewrite map_length; apply seq_length).
    rewrite Lx. intros j Hj. rewrite N by exact Hj. unfold put_at. cbn [gloc_eqb].
    destruct (Nat.eqb_spec i j) as [->|Hne].
    + rewrite nth_upd_eq by (rewrite Lx; exact Hj). apply n2b_b2n.
    + rewrite nth_upd_neq by exact Hne. symmetry. apply N. exact Hj.
Qed.
Lemma upd_split {A} (b : A) : forall l i, (i < length l)%nat -> upd i b l = firstn i l ++ b :: skipn (S i) l.
Proof. induction l as [|x l IH]; intros [|i] H; cbn in *; try lia; [reflexivity|]. rewrite IH by lia. reflexivity. Qed.
Lemma solo_wr_bytes {A} (k : act gloc N A) : forall l i m, (i + length l <= 64)%nat -> exists m', run1 m (wr_bytes i l k) = run1 m' k /\
  h_of m' = h_of m /\ x_of m' = firstn i (x_of m) ++ l ++ skipn (i + length l) (x_of m) /\
  m' LNX = m LNX /\ m' LLEN = m LLEN /\ m' LCOL = m LCOL.
Proof.
  induction l as [|b l IH]; intros i m H; cbn [wr_bytes solo length app] in *.
  - exists m. rewrite Nat.add_0_r, firstn_skipn. repeat split.
  - destruct (IH (S i) (put m (LX i) (b2n b))) as (m' & E & E1 & E2 & E3 & E4 & E5); [lia|].
    exists m'. split; [exact E|]. split; [rewrite E1; reflexivity|]. split; [|auto].
    rewrite E2, x_put by lia. assert (Lx : length (x_of m) = 64%nat) by (unfold x_of; rewrite map_length; apply seq_length).
    rewrite upd_split by lia.
    assert (Lf : length (firstn i (x_of m)) = i) by (rewrite firstn_length; lia).
    rewrite firstn_app, Lf, firstn_firstn, Nat.min_r by lia. replace (S i - i)%nat with 1%nat by lia. cbn [firstn].
    rewrite skipn_app, Lf. rewrite (skipn_all2 (firstn i _)) by lia. cbn [app].
    replace (S i + length l - i)%nat with (S (length l)) by lia. rewrite skipn_cons, skipn_skipn. rewrite <- app_assoc. cbn [app]. do 4 f_equal. lia.
Qed.

(** ** Calls *)
Section Blk.
  Variable blk : blockfn.
  Hypothesis Hblk : block_ok blk.

  Lemma solo_block m d q : At m d -> wfst (dh d) ->
    exists m', run1 m (r_block blk q) = (m', Some tt) /\
      At m' (block_result d (match q with Some p => p | None => dx d end)).
  Proof.
    intros HA W. unfold r_block.
    destruct (solo_reads (fun m0 => bind (match q with Some p => Ret p | None => reads (map LX (seq 0 64)) locals (fun m => Ret (x_of m)) end) (fun p =>
      bind (lift (blk (mkd (h_of m0) (repeat x00 64) 0 0 false) p)) (fun d =>
      if dcol d then Wr LCOL 1 (wr_h (dh d) (Ret tt)) else wr_h (dh d) (Ret tt)))) m (map LH (seq 0 5)) locals) as (m1 & E & H1 & _).
    rewrite E. clear E. apply h_reads in H1. rewrite H1. clear H1 m1.
    rewrite solo_bind. set (p := match q with Some p => p | None => dx d end).
    assert (Ep : run1 m (match q with Some p => Ret p | None => reads (map LX (seq 0 64)) locals (fun m => Ret (x_of m)) end) = (m, Some p)).
    { unfold p. destruct q; [reflexivity|].
      destruct (solo_reads (fun m : gmem => Ret (x_of m)) m (map LX (seq 0 64)) locals) as (m1 & E & H1 & _).
      rewrite E. cbn [solo]. rewrite (x_reads_all m m1 H1). rewrite (proj1 (proj2 HA)). reflexivity. }
    rewrite Ep. clear Ep. destruct HA as (A1 & A2 & A3 & A4 & A5). rewrite A1.
    rewrite (Hblk (mkd (dh d) (repeat x00 64) 0 0 false) p W). cbn [lift bind].
    unfold block_result. cbn [dh dx dnx dlen dcol].
    destruct (cd_blocks_flag go_decide (blocks p) (dh d) (dcol d)) as [F1 F2].
    set (r := cd_blocks go_decide (dh d, false) (blocks p)) in *.
    destruct (snd r) eqn:Er.
    - cbn [solo]. destruct (solo_wr_h (Ret tt) (put m LCOL 1) (fst r)) as (m' & E & B1 & B2 & B3 & B4 & B5).
      exists m'. rewrite E. split; [reflexivity|]. rewrite F1, F2, orb_true_r. unfold At. cbn [dh dx dnx dlen dcol].
      rewrite B1, B2, B3, B4, B5. split; [reflexivity|]. split; [exact A2|]. split; [exact A3|]. split; [exact A4|reflexivity].
    - destruct (solo_wr_h (Ret tt) m (fst r)) as (m' & E & B1 & B2 & B3 & B4 & B5).
      exists m'. rewrite E. split; [reflexivity|]. rewrite F1, F2, orb_false_r. unfold At. cbn [dh dx dnx dlen dcol].
      rewrite B1, B2, B3, B4, B5. split; [reflexivity|]. split; [exact A2|]. split; [exact A3|]. split; [exact A4|exact A5].
  Qed.

  Lemma solo_Write m d p d' n : At m d -> wfst (dh d) -> Write blk d p = Some (d', n) ->
    exists m', run1 m (r_Write blk p) = (m', Some n) /\ At m' d'.
  Proof.
    intros HA W E. pose proof (At_length _ _ HA) as Lx. unfold Write in E. unfold r_Write.
    destruct (length p =? 0)%nat; [injection E as <- <-; exists m; auto|].
    cbv zeta in E. cbn [solo]. rewrite (proj1 (proj2 (proj2 (proj2 HA)))).
    set (len := (dlen d + N.of_nat (length p)) mod M64) in *. set (d1 := mkd (dh d) (dx d) (dnx d) len (dcol d)) in *.
    assert (A1 : At (put m LLEN len) d1).
    { destruct HA as (H1 & H2 & H3 & H4 & H5). split; [exact H1|]. split; [exact H2|]. split; [exact H3|]. split; [reflexivity|exact H5]. }
    assert (W1 : wfst (dh d1)) by exact W. assert (L1 : length (dx d1) = 64%nat) by exact Lx.
    revert A1 W1 L1 E. generalize (put m LLEN len). generalize d1. clear d1 HA W Lx len m d. intros d m HA W Lx E.
    rewrite solo_bind.
    match type of E with obind ?e _ = _ => destruct e as [[d2 p2]|] eqn:E2; [|discriminate] end. cbn [obind] in E.
    (* the buffered part *)
    assert (S2 : exists m2, run1 m (Rd LNX (fun nx : N => if 0 <? nx then
        Rd LNX (fun nx : N => if 64 <? nx then Panic else
          wr_bytes (N.to_nat nx) (firstn (Nat.min (64 - N.to_nat nx) (length p)) p) (
          Rd LNX (fun nx0 : N => Wr LNX (nx0 + N.of_nat (Nat.min (64 - N.to_nat nx) (length p))) (
          bind (Rd LNX (fun nx : N => if nx =? 64 then bind (r_block blk None) (fun _ => Wr LNX 0 (Ret tt)) else Ret tt)) (fun _ =>
          lift (slice_from p (Nat.min (64 - N.to_nat nx) (length p)))))))) else Ret p)) = (m2, Some p2) /\ At m2 d2 /\ wfst (dh d2)).
    { clear E. cbn [solo]. pose proof HA as (H1 & H2 & H3 & H4 & H5). rewrite H3.
      replace (0 <? N.of_nat (dnx d)) with (0 <? dnx d)%nat
        by (destruct (N.ltb_spec 0 (N.of_nat (dnx d))); destruct (Nat.ltb_spec 0 (dnx d)); lia || reflexivity).
      destruct (0 <? dnx d)%nat eqn:Enx; [|injection E2 as <- <-; exists m; auto].
      cbn [solo]. rewrite H3. unfold slice_from at 1 in E2. rewrite Lx in E2.
      destruct (Nat.leb_spec (dnx d) 64) as [Hle|]; [|discriminate]. cbn [obind] in E2.
      replace (64 <? N.of_nat (dnx d)) with false by (destruct (N.ltb_spec 64 (N.of_nat (dnx d))); lia || reflexivity).
      rewrite Nat2N.id. unfold copy_at in E2. rewrite Lx in E2.
      set (c := Nat.min (64 - dnx d) (length p)) in *. cbv zeta iota beta in E2. cbn [dh dx dnx dlen dcol] in E2.
      assert (Lc : length (firstn c p) = c) by (rewrite firstn_length; lia).
      destruct (solo_wr_bytes (Rd LNX (fun nx0 : N => Wr LNX (nx0 + N.of_nat c) (
          bind (Rd LNX (fun nx : N => if nx =? 64 then bind (r_block blk None) (fun _ => Wr LNX 0 (Ret tt)) else Ret tt)) (fun _ =>
          lift (slice_from p c))))) (firstn c p) (dnx d) m) as (m1 & F & F1 & F2 & F3 & F4 & F5); [lia|].
      rewrite F. clear F. rewrite Lc, H2 in F2. cbn [solo]. rewrite F3, H3, <- Nat2N.inj_add.
      set (x := firstn (dnx d) (dx d) ++ firstn c p ++ skipn (dnx d + c) (dx d)) in *.
      set (d1 := mkd (dh d) x (dnx d + c) (dlen d) (dcol d)) in *.
      assert (A1 : At (put m1 LNX (N.of_nat (dnx d + c))) d1).
      { unfold d1. split; [exact (eq_trans F1 H1)|]. split; [exact F2|]. split; [reflexivity|].
        split; [exact (eq_trans F4 H4)|exact (eq_trans F5 H5)]. }
      assert (W1 : wfst (dh d1)) by exact W.
      rewrite solo_bind. cbn [solo]. replace (put m1 LNX (N.of_nat (dnx d + c)) LNX) with (N.of_nat (dnx d + c)) by reflexivity.
      replace (N.of_nat (dnx d + c) =? 64) with (dnx d + c =? 64)%nat
        by (destruct (N.eqb_spec (N.of_nat (dnx d + c)) 64); destruct (Nat.eqb_spec (dnx d + c) 64); lia || reflexivity).
      destruct (dnx d + c =? 64)%nat.
      - rewrite solo_bind. destruct (solo_block _ d1 None A1 W1) as (m2 & G & G2). rewrite G. cbn [solo].
        change x with (dx d1) in E2. rewrite (Hblk d1 (dx d1) W1) in E2. cbn [obind] in E2.
        destruct (slice_from p c) as [q|]; [|discriminate]. cbn [obind] in E2. apply some2p in E2. destruct E2 as [<- <-].
        eexists. split; [reflexivity|]. destruct G2 as (K1 & K2 & K3 & K4 & K5).
        split; [|cbn [dh]; apply (block_result_wf d1 (dx d1) W1)].
        split; [exact K1|]. split; [exact K2|]. split; [reflexivity|]. split; [exact K4|exact K5].
      - cbn [obind] in E2. destruct (slice_from p c) as [q|]; [|discriminate]. cbn [obind] in E2. apply some2p in E2. destruct E2 as [<- <-].
        eexists. split; [reflexivity|]. split; [exact A1|exact W1]. }
    destruct S2 as (m2 & S2 & A2 & W2). rewrite S2. clear S2 E2 HA W Lx m d. rewrite solo_bind.
    match type of E with obind ?e _ = _ => destruct e as [[d3 p3]|] eqn:E3; [|discriminate] end. cbn [obind] in E.
    apply some2p in E. destruct E as [Ed <-].
    assert (S3 : exists m3, run1 m2 (if (64 <=? length p2)%nat then
        bind (lift (slice_to p2 (Nat.ldiff (length p2) (64 - 1)))) (fun q =>
        bind (r_block blk (Some q)) (fun _ => lift (slice_from p2 (Nat.ldiff (length p2) (64 - 1))))) else Ret p2) = (m3, Some p3) /\ At m3 d3).
    { destruct (64 <=? length p2)%nat; [|apply some2p in E3; destruct E3 as [<- <-]; exists m2; auto].
      destruct (slice_to p2 _) as [q|]; [|discriminate]. cbn [obind lift bind] in *. rewrite solo_bind.
      destruct (solo_block m2 d2 (Some q) A2 W2) as (m3 & G & G2). rewrite G. rewrite (Hblk d2 q W2) in E3. cbn [obind] in E3.
      destruct (slice_from p2 _) as [r|]; [|discriminate]. cbn [obind] in E3. apply some2p in E3. destruct E3 as [<- <-].
      exists m3. split; [reflexivity|exact G2]. }
    destruct S3 as (m3 & S3 & A3). rewrite S3. pose proof (At_length _ _ A3) as L3. destruct A3 as (H1 & H2 & H3 & H4 & H5).
    destruct (0 <? length p3)%nat; [|subst d'; exists m3; split; [reflexivity|repeat split; assumption]].
    unfold copy_at in Ed. rewrite L3 in Ed. set (c := Nat.min 64 (length p3)) in *.
    assert (Lc : length (firstn c p3) = c) by (rewrite firstn_length; lia).
    destruct (solo_wr_bytes (Wr LNX (N.of_nat c) (Ret (length p))) (firstn c p3) 0 m3) as (m4 & F & F1 & F2 & F3 & F4 & F5); [lia|].
    rewrite F. cbn [solo]. eexists. split; [reflexivity|]. rewrite Lc, H2 in F2. subst d'.
    replace (Nat.min (64 - 0) (length p3)) with c by (unfold c; lia).
    split; [exact (eq_trans F1 H1)|]. split; [exact F2|]. split; [reflexivity|]. split; [exact (eq_trans F4 H4)|exact (eq_trans F5 H5)].
  Qed.
End Blk.

Lemma reads_quiet {A} (k : gmem -> act gloc N A) : (forall m, quiet (k m)) -> forall ls m, quiet (reads ls m k).
Proof. intros H. induction ls as [|l ls IH]; intros m; cbn [reads quiet]; auto. Qed.

Lemma solo_Marshal m d b : At m d -> MarshalBinary d = Some b -> run1 m r_Marshal = (m, Some b).
Proof.
  intros HA E. pose proof (At_length _ _ HA) as Lx. destruct HA as (H1 & H2 & H3 & H4 & H5). unfold r_Marshal.
  match goal with |- run1 _ (reads _ _ ?K) = _ => destruct (solo_reads K m (map LH (seq 0 5)) locals) as (m1 & -> & R1 & _) end.
  apply h_reads in R1. rewrite R1, H1. clear R1 m1. cbn [solo]. rewrite H3.
  unfold MarshalBinary in E. cbv zeta in E. unfold slice_to in E. rewrite Lx in E.
  destruct (Nat.leb_spec (dnx d) 64) as [Hle|]; [|discriminate]. cbn [obind] in E.
  replace (64 <? N.of_nat (dnx d)) with false by (destruct (N.ltb_spec 64 (N.of_nat (dnx d))); lia || reflexivity).
  rewrite Nat2N.id.
  match goal with |- run1 _ (reads ?ls _ ?K) = _ => destruct (solo_reads K m ls locals) as (m1 & -> & R1 & _) end.
  apply (x_reads m m1 (dnx d) Hle) in R1. rewrite R1, H2. cbn [solo]. rewrite H3, Nat2N.id.
  set (h := dh d) in *. rewrite <- !app_assoc in E.
  set (b0 := Magic ++ _) in *.
  replace (length b0 + 64 <? dnx d)%nat with false by (destruct (Nat.ltb_spec (length b0 + 64) (dnx d)); lia || reflexivity).
  cbn [orb]. set (n := (length b0 + 64 - dnx d)%nat) in *.
  destruct (Nat.leb_spec n MarshaledSize) as [Hn|]; [|discriminate].
  replace (MarshaledSize <? n)%nat with false by (destruct (Nat.ltb_spec MarshaledSize n); lia || reflexivity).
  cbn [solo]. rewrite H4. injection E as <-. f_equal. f_equal.
  rewrite firstn_all2; [rewrite <- app_assoc; reflexivity|]. rewrite app_length, repeat_length. unfold n. lia.
Qed.
Lemma solo_Reset m d : At m d -> exists m', run1 m r_Reset = (m', Some tt) /\ At m' (Reset d).
Proof.
  intros (H1 & H2 & H3 & H4 & H5). unfold r_Reset.
  destruct (solo_wr_h (Wr LNX 0 (Wr LLEN 0 (Wr LCOL 0 (Ret tt)))) m (mkst Init0 Init1 Init2 Init3 Init4)) as (m' & E & B1 & B2 & B3 & B4 & B5).
  rewrite E. cbn [solo]. eexists. split; [reflexivity|].
  split; [exact B1|]. split; [exact (eq_trans B2 H2)|]. split; [reflexivity|]. split; reflexivity.
Qed.

Lemma Unmarshal_zero d b d' e : length (dx d) = 64%nat -> UnmarshalBinary d b = Some (d', e) ->
  exists z, UnmarshalBinary zero_digest b = Some (z, e) /\
    match e with
    | None => length (dx z) = 64%nat /\ dnx z = N.to_nat (dlen z mod 64) /\ d' = mkd (dh z) (dx z) (dnx z) (dlen z) (dcol d)
    | Some _ => d' = d
    end.
Proof.
  intros Lx E. unfold UnmarshalBinary in *.
  destruct (_ || _)%bool; [injection E as <- <-; eexists; split; reflexivity|].
  destruct (Nat.eqb_spec (length b) MarshaledSize) as [Lb|]; cbn [negb] in *; [|injection E as <- <-; eexists; split; reflexivity].
  rewrite slice_from_ok in E |- * by (rewrite Lb; cbn; lia). cbn [obind] in *.
  assert (Lt : length (skipn (length Magic) b) = 92%nat) by (rewrite skipn_length, Lb; reflexivity).
  revert E Lt. generalize (skipn (length Magic) b). clear b Lb. intros b E Lt.
  do 20 (destruct b as [|? b]; [discriminate Lt|]). cbn [consumeUint32 obind] in *.
  assert (Lb : length b = 72%nat) by (cbn [length] in Lt; lia). clear Lt.
  unfold copy_at in E |- *. rewrite Lx in E. change (length (dx zero_digest)) with 64%nat.
  replace (Nat.min (64 - 0) (length b)) with 64%nat in * by lia. cbv zeta iota beta in E |- *. cbn [Nat.add] in E |- *. rewrite firstn_O in *. cbn [app] in E |- *.
  rewrite (skipn_all2 (dx d)) in E by lia. rewrite (skipn_all2 (dx zero_digest)) by (cbn; lia). rewrite app_nil_r in *.
  destruct (slice_from b 64) as [t|]; [|discriminate]. cbn [obind] in *.
  destruct (consumeUint64 t) as [[t' len]|]; [|discriminate]. cbn [obind] in *. apply some2p in E. destruct E as [<- <-].
  eexists. split; [reflexivity|]. cbn [dh dx dnx dlen]. split; [rewrite firstn_length; lia|]. split; reflexivity.
Qed.
Lemma solo_Unmarshal m d b d' e : At m d -> UnmarshalBinary d b = Some (d', e) -> exists m', run1 m (r_Unmarshal b) = (m', Some e) /\ At m' d'.
Proof.
  intros HA E. destruct (Unmarshal_zero d b d' e (At_length _ _ HA) E) as (z & Ez & Hz). unfold r_Unmarshal. rewrite Ez. clear E Ez.
  cbn [lift bind]. destruct e as [e|]; [subst d'; exists m; auto|]. destruct Hz as (Lz & Nz & ->). destruct HA as (H1 & H2 & H3 & H4 & H5).
  match goal with |- context [wr_h (dh z) ?K] => destruct (solo_wr_h K m (dh z)) as (m1 & -> & B1 & B2 & B3 & B4 & B5) end.
  match goal with |- context [wr_bytes 0 (dx z) ?K] => destruct (solo_wr_bytes K (dx z) 0 m1) as (m2 & -> & C1 & C2 & C3 & C4 & C5); [lia|] end.
  cbn [solo]. eexists. split; [reflexivity|].
  split; [exact (eq_trans C1 B1)|]. split.
  { refine (eq_trans C2 _). cbn [firstn app dx]. rewrite (skipn_all2 (x_of m1)), app_nil_r; [reflexivity|].
    unfold x_of. rewrite map_length, seq_length. lia. }
  split; [cbn [dnx]; rewrite Nz, N2Nat.id; reflexivity|]. split; [reflexivity|].
  exact (eq_trans C5 (eq_trans B5 H5)).
Qed.

Lemma reads_all {A} ord m d (f : digest -> act gloc N A) : (forall l, In l all_locs -> In l ord) -> At m d ->
  run1 m (reads ord locals (fun m => f (digest_of m))) = run1 m (f d).
Proof.
  intros Ho HA. destruct (solo_reads (fun m => f (digest_of m)) m ord locals) as (m1 & -> & R & _).
  assert (R' : forall l, In l all_locs -> m1 l = m l) by auto. rewrite (digest_of_At m1 d); [reflexivity|].
  destruct HA as (H1 & H2 & H3 & H4 & H5). unfold all_locs in R'.
  split; [rewrite (h_reads m m1); [exact H1|intros l Hl; apply R'; apply in_or_app; auto]|].
  split; [rewrite (x_reads_all m m1); [exact H2|intros l Hl; apply R'; apply in_or_app; right; apply in_or_app; auto]|].
  rewrite !R' by (apply in_or_app; right; apply in_or_app; right; cbn; auto). auto.
Qed.

Lemma exec_dwf early m ds o ds' x : Forall dwf ds -> exec early (block_of m) ds o = Some (ds', x) -> Forall dwf ds'.
Proof. intros H E. destruct (exec_same _ _ (block_of_ok m) (block_of_ok m) early ds o H) as [_ B]. eauto. Qed.

(** One call. *)
Lemma solo_call early c i m d ds ds' x : target (gc_op c) = Some i -> (forall l, In l all_locs -> In l (gc_order c)) ->
  Forall dwf ds -> nth_error ds i = Some d -> At m d -> exec early (block_of (gc_impl c)) ds (gc_op c) = Some (ds', x) ->
  exists m' d', run1 m (r_call c) = (m', Some x) /\ nth_error ds' i = Some d' /\ At m' d'.
Proof.
  intros T Ho Hds Hd HA E. destruct c as [im ord o]. cbn [gc_impl gc_order gc_op] in *. unfold r_call. cbn [gc_impl gc_order gc_op].
  assert (W : wfst (dh d)) by (rewrite Forall_forall in Hds; apply Hds; apply nth_error_In with i; exact Hd).
  assert (Li : (i < length ds)%nat) by (apply nth_error_Some; congruence).
  pose proof (block_of_ok im) as OK. revert OK E. generalize (block_of im). intros blk OK E.
  destruct o as [|j p|j b|j b|j|j|j b|j|j|b]; cbn [target] in T; try discriminate; injection T as ->; cbn [exec] in E; rewrite Hd in E; cbn [obind] in E.
  - destruct (Write blk d p) as [[d' n]|] eqn:Ew; [|discriminate]. cbn [obind] in E. apply some2p in E. destruct E as [<- <-].
    destruct (solo_Write blk OK m d p d' n HA W Ew) as (m' & S & A'). exists m', d'. rewrite solo_bind, S.
    split; [reflexivity|]. split; [apply nth_error_upd_eq; exact Li|exact A'].
  - rewrite (reads_all ord m d (fun d => bind (lift (Sum blk d b)) (fun b => Ret (RBytes b)))) by assumption.
    destruct (Sum blk d b) as [r|]; [|discriminate]. cbn [obind] in E. apply some2p in E. destruct E as [<- <-].
    exists m, d. auto.
  - rewrite (reads_all ord m d (fun d => bind (lift (CollisionResistantSum blk d b)) (fun r => Ret (RVerdict (fst r) (snd r))))) by assumption.
    destruct (CollisionResistantSum blk d b) as [[r v]|]; [|discriminate]. cbn [obind] in E. apply some2p in E. destruct E as [<- <-].
    exists m, d. auto.
  - apply some2p in E. destruct E as [<- <-]. destruct (solo_Reset m d HA) as (m' & S & A'). exists m', (Reset d). rewrite solo_bind, S.
    split; [reflexivity|]. split; [apply nth_error_upd_eq; exact Li|exact A'].
  - destruct (MarshalBinary d) as [b|] eqn:Em; [|discriminate]. cbn [obind] in E. apply some2p in E. destruct E as [<- <-].
    exists m, d. rewrite solo_bind, (solo_Marshal m d b HA Em). auto.
  - destruct (UnmarshalBinary d b) as [[d' e]|] eqn:Eu; [|discriminate]. cbn [obind] in E. apply some2p in E. destruct E as [<- <-].
    destruct (solo_Unmarshal m d b d' e HA Eu) as (m' & S & A'). exists m', d'. rewrite solo_bind, S.
    split; [reflexivity|]. split; [apply nth_error_upd_eq; exact Li|exact A'].
  - apply some2p in E. destruct E as [<- <-]. exists m, d. auto.
  - apply some2p in E. destruct E as [<- <-]. exists m, d. auto.
Qed.
Definition bops (g : list gcall) : list (blockfn * op) := map (fun c => (block_of (gc_impl c), gc_op c)) g.
Lemma solo_calls early i g : on_hasher i g -> forall m d ds ds' xs,
  Forall dwf ds -> nth_error ds i = Some d -> At m d -> run early ds (bops g) = Some (ds', xs) ->
  exists m' d', run1 m (r_calls g) = (m', Some xs) /\ nth_error ds' i = Some d' /\ At m' d'.
Proof.
  induction g as [|c g IH]; intros Hg m d ds ds' xs Hds Hd HA E; cbn [bops map run r_calls] in *.
  - apply some2p in E. destruct E as [<- <-]. exists m, d. auto.
  - destruct (exec early (block_of (gc_impl c)) ds (gc_op c)) as [[ds1 x]|] eqn:Ex; [|discriminate]. cbn [obind] in E.
    fold (bops g) in E. destruct (run early ds1 (bops g)) as [[ds2 xs']|] eqn:Er; [|discriminate]. cbn [obind] in E.
    apply some2p in E. destruct E as [<- <-]. destruct (Hg c (or_introl eq_refl)) as [T Ho].
    destruct (solo_call early c i m d ds ds1 x T Ho Hds Hd HA Ex) as (m1 & d1 & S1 & D1 & A1).
    destruct (IH (fun c Hc => Hg c (or_intror Hc)) m1 d1 ds1 ds2 xs' (exec_dwf _ _ _ _ _ _ Hds Ex) D1 A1 Er) as (m2 & d2 & S2 & D2 & A2).
    exists m2, d2. rewrite solo_bind, S1, solo_bind, S2. auto.
Qed.

Lemma quiet_call c : observer (gc_op c) = true -> quiet (r_call c).
Proof.
  destruct c as [im ord o]. unfold r_call. cbn [gc_impl gc_order gc_op]. generalize (block_of im). intros blk.
  destruct o; cbn [observer]; intros H; try discriminate; try exact I.
  - apply reads_quiet. intros m. destruct (Sum _ _ _); exact I.
  - apply reads_quiet. intros m. destruct (CollisionResistantSum _ _ _); exact I.
  - apply quiet_bind; [|intros; exact I]. unfold r_Marshal. apply reads_quiet. intros m. cbn [quiet]. intros nx.
    destruct (64 <? nx); [exact I|]. apply reads_quiet. intros mx. cbn [quiet]. intros v. destruct (_ || _)%bool; [exact I|]. cbn [quiet]. auto.
Qed.
Lemma quiet_calls g : observing g -> quiet (r_calls g).
Proof.
  induction g as [|c g IH]; intros H; cbn [r_calls]; [exact I|].
  apply quiet_bind; [apply quiet_call; apply H; left; reflexivity|]. intros a.
  apply quiet_bind; [apply IH; intros x Hx; apply H; right; exact Hx|]. intros; exact I.
Qed.

(** ** Programs *)
Lemma run_app2 early q : forall ds r, run early ds (q ++ r) =
  (do (ds1, xs) <- run early ds q; do (ds2, ys) <- run early ds1 r; Some (ds2, xs ++ ys)).
Proof.
  induction q as [|[blk o] q IH]; intros ds r; cbn [app run].
  - cbn [obind]. destruct (run early ds r) as [[? ?]|]; reflexivity.
  - destruct (exec early blk ds o) as [[ds1 x]|]; cbn [obind]; [|reflexivity]. rewrite IH.
    destruct (run early ds1 q) as [[ds2 xs]|]; cbn [obind]; [|reflexivity].
    destruct (run early ds2 r) as [[ds3 ys]|]; reflexivity.
Qed.
Lemma program_state early p ds rs : scoped 0 (calls p) -> run_program early p = Some (ds, rs) ->
  Forall dwf ds /\ length ds = created (calls p) /\ forall i d, nth_error ds i = Some d -> length (dx d) = 64%nat.
Proof.
  intros Hs E. destruct (program_refines early go_decide p go_decide_ok Hs) as (ds' & hs & rs' & E' & A & F).
  rewrite E in E'. apply some2p in E'. destruct E' as [<- _].
  assert (P : forall d, In d ds -> exists a, R a d).
  { intros d Hd. clear - F Hd. induction F as [|a b l l' Rab F IH]; [destruct Hd|destruct Hd as [<-|Hd]; eauto]. }
  split; [apply Forall_forall; intros d Hd; destruct (P d Hd) as (a & Ra); exact (Rep_wf _ _ _ _ Ra)|]. split.
  - apply Forall2_length in F. rewrite <- F. apply a_run_length in A. exact (proj2 A).
  - intros i d Hd. destruct (P d (nth_error_In _ _ Hd)) as (a & K & k & _ & _ & _ & L & _). exact L.
Qed.
Lemma scoped_on i n g : on_hasher i g -> (i < n)%nat -> scoped n (calls (as_program g)).
Proof.
  intros Hg Hi. unfold calls, as_program. rewrite map_map. cbn [snd]. induction g as [|c g IH]; cbn [map scoped]; [exact I|].
  destruct (Hg c (or_introl eq_refl)) as [T _]. rewrite T. split; [exact Hi|].
  replace (match gc_op c with ONew => S n | _ => n end) with n by (destruct (gc_op c); try discriminate T; reflexivity).
  apply IH. intros x Hx. apply Hg. right. exact Hx.
Qed.

(** A goroutine alone. *)
Lemma goroutine_solo early p i g ds rs d : scoped 0 (calls p) -> run_program early p = Some (ds, rs) -> nth_error ds i = Some d ->
  on_hasher i g -> exists ds' xs m' d', run_program early (p ++ as_program g) = Some (ds', rs ++ xs) /\
    run1 (mem_of d) (r_calls g) = (m', Some xs) /\ nth_error ds' i = Some d' /\ At m' d'.
Proof.
  intros Hs E Hd Hg. destruct (program_state early p ds rs Hs E) as (Wf & Len & Lx).
  assert (Hi : (i < created (calls p))%nat) by (rewrite <- Len; apply nth_error_Some; congruence).
  assert (Hs' : scoped 0 (calls (p ++ as_program g))).
  { rewrite calls_app. apply scoped_app. split; [exact Hs|]. apply (scoped_on i); assumption. }
  destruct (no_panic early _ Hs') as (ds' & rs' & E' & _). pose proof E' as E2. unfold run_program in E2. rewrite map_app, run_app2 in E2.
  unfold run_program in E. rewrite E in E2. cbn [obind] in E2.
  replace (map (fun x : impl * op => (block_of (fst x), snd x)) (as_program g)) with (bops g) in E2
    by (unfold bops, as_program; rewrite map_map; reflexivity).
  destruct (run early ds (bops g)) as [[ds2 xs]|] eqn:Er; [|discriminate]. cbn [obind] in E2. apply some2p in E2. destruct E2 as [<- <-].
  destruct (solo_calls early i g Hg (mem_of d) d ds ds2 xs Wf Hd (At_mem_of d (Lx i d Hd)) Er) as (m' & d' & S & D & A').
  exists ds2, xs, m', d'. auto.
Qed.

Lemma quiet_all gs : Forall observing gs -> forall k b, nth_error (map r_calls gs) k = Some b -> quiet b.
Proof.
  intros H k b E. rewrite Forall_forall in H. apply nth_error_In in E. apply in_map_iff in E. destruct E as (g & <- & Hg).
  apply quiet_calls. auto.
Qed.

(** One goroutine may change the hasher, the others observe it. *)
Lemma race_writer early p i ds rs d gs w g sched : scoped 0 (calls p) -> run_program early p = Some (ds, rs) -> nth_error ds i = Some d ->
  nth_error gs w = Some g -> on_hasher i g -> (forall k h, k <> w -> nth_error gs k = Some h -> observing h) ->
  exists ds' xs, run_program early (p ++ as_program g) = Some (ds', rs ++ xs) /\
    (nth_error (snd (shared d gs sched)) w = Some None \/
     nth_error (snd (shared d gs sched)) w = Some (Some (Some xs)) /\ nth_error ds' i = Some (fst (shared d gs sched))).
Proof.
  intros Hs E Hd Hw Hg Ho. destruct (goroutine_solo early p i g ds rs d Hs E Hd Hg) as (ds' & xs & m' & d' & E' & S & D & A').
  exists ds', xs. split; [exact E'|].
  destruct (one_writer gloc_eqb w sched (mem_of d) (map r_calls gs) (r_calls g)) as (a' & X & Y).
  { rewrite nth_error_map, Hw. reflexivity. }
  { intros k b Hk Eb. rewrite nth_error_map in Eb. destruct (nth_error gs k) as [h|] eqn:Eh; [|discriminate]. injection Eb as <-.
    apply quiet_calls. eauto. }
  unfold shared. destruct (interleave _ _ _ _) as [mf ts]. cbn [fst snd] in *. rewrite nth_error_map, X. cbn [option_map].
  rewrite S in Y. destruct a' as [ys| |l k|l v k]; cbn [outcome solo] in *; auto.
  - right. injection Y as -> ->. rewrite (digest_of_At m' d' A'). auto.
  - discriminate.
Qed.
(** Every goroutine only observes. *)
Lemma race_observers early p i ds rs d gs sched : scoped 0 (calls p) -> run_program early p = Some (ds, rs) -> nth_error ds i = Some d ->
  (forall g, In g gs -> on_hasher i g /\ observing g) ->
  fst (shared d gs sched) = d /\
  forall k g, nth_error gs k = Some g -> exists xs, run_program early (p ++ as_program g) = Some (ds, rs ++ xs) /\
    (nth_error (snd (shared d gs sched)) k = Some None \/ nth_error (snd (shared d gs sched)) k = Some (Some (Some xs))).
Proof.
  intros Hs E Hd Hg. destruct (program_state early p ds rs Hs E) as (Wf & Len & Lx). split.
  - pose proof (all_quiet gloc_eqb sched (mem_of d) (map r_calls gs)) as Q. unfold shared. destruct (interleave _ _ _ _) as [mf ts].
    cbn [fst] in *. rewrite Q; [apply digest_of_At, At_mem_of, (Lx i), Hd|]. apply quiet_all. apply Forall_forall. intros g I. apply Hg. exact I.
  - intros k g Ek. destruct (Hg g (nth_error_In _ _ Ek)) as [H1 H2].
    destruct (race_writer early p i ds rs d gs k g sched Hs E Hd Ek H1) as (ds' & xs & E' & C).
    { intros j h _ Ej. apply (Hg h). apply nth_error_In with j. exact Ej. }
    exists xs. split; [|destruct C as [C|[C _]]; auto]. rewrite E'. f_equal. f_equal.
    unfold run_program in E, E'. rewrite map_app, run_app2, E in E'. cbn [obind] in E'.
    destruct (run early ds (map _ (as_program g))) as [[ds2 ys]|] eqn:Er; [|discriminate]. cbn [obind] in E'. apply some2p in E'. destruct E' as [<- _].
    revert Er. clear - H2. assert (O : forall bo, In bo (map (fun x : impl * op => (block_of (fst x), snd x)) (as_program g)) -> observer (snd bo) = true).
    { intros bo H. apply in_map_iff in H. destruct H as (x & <- & H). apply in_map_iff in H. destruct H as (c & <- & H). exact (H2 c H). }
    revert O. generalize (map (fun x : impl * op => (block_of (fst x), snd x)) (as_program g)). intros q. revert ds ds2 ys.
    induction q as [|[blk o] q IH]; intros ds ds2 ys O Er; cbn [run] in Er; [apply some2p in Er; destruct Er; auto|].
    destruct (exec early blk ds o) as [[ds1 x]|] eqn:Ex; [|discriminate]. cbn [obind] in Er.
    destruct (run early ds1 q) as [[ds3 zs]|] eqn:Er1; [|discriminate]. cbn [obind] in Er. apply some2p in Er. destruct Er as [<- _].
    rewrite (IH ds1 ds3 zs (fun bo H => O bo (or_intror H)) Er1). apply (exec_observer early blk ds o ds1 x); [|exact Ex].
    exact (O (blk, o) (or_introl eq_refl)).
Qed.

(** Each goroutine's calls of Sum and CollisionResistantSum on a hasher that was not restored. *)
Lemma written_observing i g ops k : observing g -> written i (ops ++ firstn k (calls (as_program g))) = written i ops.
Proof.
  intros H. unfold written. rewrite fold_left_app. generalize (fold_left (written_step i) ops (Some [])). intros a. revert a k.
  unfold calls, as_program. rewrite map_map. cbn [snd]. induction g as [|c g IH]; intros a [|k]; cbn [map firstn fold_left]; try reflexivity.
  rewrite IH by (intros x Hx; apply H; right; exact Hx). pose proof (H c (or_introl eq_refl)) as O.
  destruct (gc_op c); try discriminate O; reflexivity.
Qed.
Lemma race_digest early D p i m ds rs d gs sched : decides D go_detects -> scoped 0 (calls p) -> run_program early p = Some (ds, rs) ->
  nth_error ds i = Some d -> written i (calls p) = Some m -> (forall g, In g gs -> on_hasher i g /\ observing g) ->
  forall k g xs, nth_error gs k = Some g -> nth_error (snd (shared d gs sched)) k = Some (Some (Some xs)) ->
  forall j c, nth_error g j = Some c ->
    (forall inp, gc_op c = OSum i inp -> nth_error xs j = Some (RBytes (inp ++ fst (cd_sum D m)))) /\
    (forall inp, gc_op c = OCRSum i inp -> nth_error xs j = Some (RVerdict (inp ++ fst (cd_sum D m)) (snd (cd_sum D m)))).
Proof.
  intros HD Hs E Hd Hm Hg k g xs Ek X j c Ej. destruct (race_observers early p i ds rs d gs sched Hs E Hd Hg) as [_ O].
  destruct (O k g Ek) as (ys & E' & C). assert (ys = xs) as -> by (destruct C as [C|C]; rewrite X in C; congruence).
  destruct (Hg g (nth_error_In _ _ Ek)) as [H1 H2]. destruct (program_state early p ds rs Hs E) as (Wf & Len & Lx).
  assert (Hi : (i < created (calls p))%nat) by (rewrite <- Len; apply nth_error_Some; congruence).
  assert (Hs' : scoped 0 (calls (p ++ as_program g))).
  { rewrite calls_app. apply scoped_app. split; [exact Hs|]. apply (scoped_on i); assumption. }
  assert (Lp : length rs = length (calls p)).
  { destruct (no_panic early p Hs) as (ds1 & rs1 & E1 & L & _). rewrite E in E1. apply some2p in E1. destruct E1 as [_ <-].
    unfold calls. rewrite map_length. exact L. }
  assert (Lc : nth_error (calls (p ++ as_program g)) (length (calls p) + j) = Some (gc_op c)).
  { rewrite calls_app, nth_error_app2 by lia. rewrite Nat.add_comm, Nat.add_sub. unfold calls, as_program. rewrite map_map. cbn [snd].
    rewrite nth_error_map, Ej. reflexivity. }
  assert (Lw : written i (firstn (length (calls p) + j) (calls (p ++ as_program g))) = Some m).
  { rewrite calls_app, firstn_app_2, written_observing by exact H2. exact Hm. }
  assert (Ly : nth_error xs j = nth_error (rs ++ xs) (length (calls p) + j)).
  { rewrite nth_error_app2 by lia. f_equal. lia. }
  rewrite Ly. split; intros inp Eo; rewrite Eo in Lc.
  - destruct (sum_exact early D _ _ i inp m HD Hs' Lc Lw) as (ds1 & rs1 & E1 & Z). rewrite E' in E1. apply some2p in E1. destruct E1 as [_ <-]. exact Z.
  - destruct (crsum_exact early D _ _ i inp m HD Hs' Lc Lw) as (ds1 & rs1 & E1 & Z). rewrite E' in E1. apply some2p in E1. destruct E1 as [_ <-]. exact Z.
Qed.

(** Whatever happened so far, some continuation ends every goroutine. *)
Lemma race_ends d gs sched : exists more, forall k, (k < length gs)%nat -> exists r, nth_error (snd (shared d gs (sched ++ more))) k = Some (Some r).
Proof.
  destruct (all_end gloc_eqb (mem_of d) (map r_calls gs) sched) as (more & H). exists more. intros k Hk. unfold shared.
  pose proof (interleave_length gloc_eqb (sched ++ more) (mem_of d) (map r_calls gs)) as L.
  destruct (interleave _ _ _ _) as [m ts]. cbn [snd] in *. rewrite map_length in L. rewrite nth_error_map.
  destruct (nth_error ts k) as [a|] eqn:E; [|apply nth_error_None in E; lia]. specialize (H k a E). cbn [option_map].
  destruct a; cbn [ended outcome] in *; try contradiction; eauto.
Qed.

(** ** Calls that do interfere *)
Definition sum_g : list gcall := [mkgc Generic all_locs (OSum 0 [])].
Definition marshal_g : list gcall := [mkgc Generic all_locs (OMarshal 0)].
Definition write_g (p : list byte) : list gcall := [mkgc Generic all_locs (OWrite 0 p)].
Definition checkpoint_of (m : list byte) : list byte := a_marshal go_decide (a_write a_new m).

Lemma sum_panics : exists sched, snd (shared New [write_g [x61; x62; x63]; sum_g] sched) = [Some (Some [RNum 3]); Some None].
Proof. exists (repeat 0%nat 2 ++ repeat 1%nat 72 ++ repeat 0%nat 20). vm_compute. reflexivity. Qed.
Lemma marshal_mixes : exists sched b, snd (shared New [write_g [x61; x62; x63]; marshal_g] sched) = [Some (Some [RNum 3]); Some (Some [RBytes b])] /\
  b = checkpoint_of [x00; x00; x00] /\ b <> checkpoint_of [] /\ b <> checkpoint_of [x61; x62; x63].
Proof.
  exists (repeat 0%nat 2 ++ repeat 1%nat 8 ++ repeat 0%nat 20). eexists. split; [vm_compute; reflexivity|].
  split; [vm_compute; reflexivity|]. split; vm_compute; discriminate.
Qed.
Lemma write_lost : exists sched early, let r := shared New [write_g [x61]; write_g [x62]] sched in
  snd r = [Some (Some [RNum 1]); Some (Some [RNum 1])] /\
  run_program early [(Generic, ONew); (Generic, OWrite 0 [x62])] = Some ([fst r], [RNew 0; RNum 1]).
Proof. exists ([0; 1; 0; 1; 0; 1] ++ repeat 0 10 ++ repeat 1 10)%nat, false. vm_compute. split; reflexivity. Qed.
