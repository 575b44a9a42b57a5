(** Goroutines that use one cgo hasher at the same time: proofs. *)

From Coq Require Import Arith ZArith NArith List Strings.Byte Lia Bool ZifyNat.
From Verif Require Import Word WordFacts Spec_Sha1 Sha1Facts Spec_DV Spec_Cd Spec_Api DvFacts Model_Ubc Gen_DvsC
  Model_Go GoCheck GoBlock GoApi GoStore GoProps Model_CSteps Gen_CSteps Model_C Spec_C Model_CApi CSteps CProcess CCtx CGo
  Model_Race Spec_Race Race Model_CRace Spec_CRace.
Import ListNotations.
Local Open Scope N_scope.
Ltac Zify.zify_post_hook ::= idtac.

Lemma some1 {A} (x y : A) : Some x = Some y -> x = y.
Proof. intros E. injection E as ->. reflexivity. Qed.
Notation cput := (put_at cloc_eqb).
Notation crun1 := (Model_Race.solo cloc_eqb).

(** ** sha1_process: what it leaves alone, and that it always ends well *)
Record frame (c c' : ctx) : Prop := mkframe {
  fr_total : c_total c' = c_total c; fr_buffer : c_buffer c' = c_buffer c; fr_safe : c_safe c' = c_safe c;
  fr_detect : c_detect c' = c_detect c; fr_ubc : c_ubc c' = c_ubc c; fr_reduced : c_reduced c' = c_reduced c;
  fr_callback : c_callback c' = c_callback c }.
Lemma frame_refl c : frame c c. Proof. constructor; reflexivity. Qed.
Lemma frame_trans a b c : frame a b -> frame b c -> frame a c.
Proof. intros [] []. constructor; congruence. Qed.

Lemma loop_frame mask dvs : forall c c', process_loop dvs mask c = Some c' -> frame c c'.
Proof.
  induction dvs as [|dv rest IH]; intros c c' E; [discriminate|]. rewrite process_loop_cons in E.
  destruct (dvType dv =? 0); [injection E as <-; apply frame_refl|]. destruct (32 <=? maskB dv); [discriminate|].
  destruct (N.land _ _ =? 0); [auto|]. cbv zeta in E.
  destruct (nth_error (c_states c) _) as [s|]; [|discriminate]. cbn [obind] in E.
  destruct (sha1_recompression_step _ _ _) as [[i2 it]|]; [|discriminate]. cbn [obind] in E.
  destruct (_ || _).
  - destruct (truth _); injection E as <-; constructor; reflexivity.
  - apply IH in E. eapply frame_trans; [|exact E]. constructor; reflexivity.
Qed.
Lemma process_frame cfg c b c' : sha1_process cfg c b = Some c' -> frame c c'.
Proof.
  unfold sha1_process. cbv zeta. destruct (sha1_compression_states _ _ _ _ _) as [[ihv m1] sts].
  match goal with |- context[if truth (c_detect ?x) then _ else _] => set (c1 := x) end.
  assert (F1 : frame c c1) by (constructor; reflexivity). clearbody c1.
  generalize dvs_c. intros dvs. destruct (truth (c_detect c1)); [|intros E; injection E as <-; exact F1].
  destruct (negb _); [|intros E; injection E as <-; exact F1].
  intros E. apply loop_frame in E. exact (frame_trans _ _ _ F1 E).
Qed.

(** The lengths of the arrays. *)
Definition sized (c : ctx) : Prop := length (c_m1 c) = 80%nat /\ length (c_m2 c) = 80%nat /\ length (c_states c) = 80%nat.
Fixpoint ends_well (dvs : list dvinfo) : bool :=
  match dvs with
  | [] => false
  | dv :: r => (dvType dv =? 0) || ((maskB dv <? 32) && ((testT dv =? 58) || (testT dv =? 65)) && ends_well r)
  end.
Lemma dvs_c_ends_well : ends_well dvs_c = true.
Proof. vm_compute. reflexivity. Qed.
Lemma step_some t me2 s : (t =? 58) || (t =? 65) = true -> exists x, sha1_recompression_step (N.to_nat t) me2 s = Some x.
Proof.
  intros H. apply orb_true_iff in H. destruct H as [H|H]; apply N.eqb_eq in H; subst t; unfold sha1_recompression_step.
  - destruct (find _ recomp_cases) as [[[g l] t]|] eqn:E; [|vm_compute in E; discriminate].
    vm_compute in E. injection E as <- <- <-. destruct (existsb _ _) eqn:X; [eauto|]. vm_compute in X. discriminate.
  - destruct (find _ recomp_cases) as [[[g l] t]|] eqn:E; [|vm_compute in E; discriminate].
    vm_compute in E. injection E as <- <- <-. destruct (existsb _ _) eqn:X; [eauto|]. vm_compute in X. discriminate.
Qed.
Lemma loop_some mask dvs : ends_well dvs = true -> forall c, sized c -> exists c', process_loop dvs mask c = Some c' /\ sized c'.
Proof.
  induction dvs as [|dv rest IH]; intros W c S; [discriminate|]. rewrite process_loop_cons. cbn [ends_well] in W.
  destruct (dvType dv =? 0); [eauto|]. cbn [orb] in W. apply andb_true_iff in W. destruct W as [W W3]. apply andb_true_iff in W. destruct W as [W1 W2].
  apply N.ltb_lt in W1. rewrite (proj2 (N.leb_gt _ _) W1). destruct (N.land _ _ =? 0); [auto|]. cbv zeta.
  destruct S as (S1 & S2 & S3).
  destruct (nth_error (c_states c) (N.to_nat (testT dv))) as [s|] eqn:E.
  2:{ apply nth_error_None in E. apply orb_true_iff in W2. destruct W2 as [W2|W2]; apply N.eqb_eq in W2; rewrite W2 in E; lia. }
  cbn [obind]. match goal with |- context[sha1_recompression_step _ ?m _] => set (m2 := m); assert (L2 : length m2 = 80%nat) by (unfold m2; rewrite map_length; apply seq_length) end.
  clearbody m2. destruct (step_some (testT dv) m2 s W2) as ([i2 it] & ->). cbn [obind].
  match goal with |- context[if ?x then Some _ else process_loop _ _ _] => destruct x end.
  - eexists. split; [reflexivity|]. destruct (truth _); (split; [exact S1|split; [exact L2|exact S3]]).
  - apply IH; [exact W3|]. split; [exact S1|split; [exact L2|exact S3]].
Qed.
Lemma items_sized cfg b l : forall x, length (cp_W (fold_left (c_item cfg b) l x)) = length (cp_W x) /\
  length (cp_states (fold_left (c_item cfg b) l x)) = length (cp_states x).
Proof.
  induction l as [|it l IH]; intros x; cbn [fold_left]; [auto|]. destruct (IH (c_item cfg b x it)) as [-> ->].
  unfold c_item. destruct it; [destruct (defined _)|]; cbn [cp_W cp_states]; rewrite ?GoBlock.upd_length; auto.
Qed.
Lemma process_some cfg c b : sized c -> exists c', sha1_process cfg c b = Some c' /\ sized c'.
Proof.
  intros (S1 & S2 & S3). unfold sha1_process. cbv zeta. unfold sha1_compression_states. cbv zeta.
  pose proof (items_sized cfg b comp_states_items (mkcp (c_m1 (set_ihv1 (c_ihv c) c)) (c_states (set_ihv1 (c_ihv c) c)) (c_ihv (set_ihv1 (c_ihv c) c)))) as [L1 L2].
  revert L1 L2. generalize (fold_left (c_item cfg b) comp_states_items (mkcp (c_m1 (set_ihv1 (c_ihv c) c)) (c_states (set_ihv1 (c_ihv c) c)) (c_ihv (set_ihv1 (c_ihv c) c)))).
  intros x L1 L2.
  match goal with |- context[if truth (c_detect ?x) then _ else _] => set (c1 := x) end.
  assert (F1 : sized c1) by (split; [exact (eq_trans L1 S1)|split; [exact S2|exact (eq_trans L2 S3)]]). clearbody c1.
  pose proof dvs_c_ends_well as W. revert W. generalize dvs_c. intros dvs W.
  destruct (truth (c_detect c1)); [|eauto]. destruct (negb _); [|eauto]. apply loop_some; assumption.
Qed.

(** ** Interleavings that keep an invariant of each location *)
Section Safe.
  Context {L V : Type}.
  Variable eqb : L -> L -> bool.
  Hypothesis eqb_eq : forall a b, eqb a b = true -> a = b.
  Variable I : L -> V -> Prop.
  (** Whatever the values read, the goroutine stores only values that keep the invariant, does not panic and ends in [Q]. *)
  Fixpoint safe {B} (Q : B -> Prop) (a : act L V B) : Prop :=
    match a with
    | Ret x => Q x
    | Panic => False
    | Rd l k => forall v, I l v -> safe Q (k v)
    | Wr l v k => I l v /\ safe Q k
    end.
  Lemma safe_bind {B C} (P : B -> Prop) (Q : C -> Prop) (x : act L V B) (f : B -> act L V C) :
    safe P x -> (forall a, P a -> safe Q (f a)) -> safe Q (bind x f).
  Proof. induction x as [a| |l k IH|l v k IH]; intros H Hf; cbn in *; auto. destruct H. auto. Qed.
  Lemma safe_interleave {A} (Q : nat -> A -> Prop) sched : forall m (ts : list (act L V A)), (forall l, I l (m l)) ->
    (forall k a, nth_error ts k = Some a -> safe (Q k) a) ->
    forall k a, nth_error (snd (interleave eqb m ts sched)) k = Some a -> safe (Q k) a.
  Proof.
    induction sched as [|i r IH]; intros m ts Hm Ht; cbn [interleave]; [exact Ht|].
    destruct (nth_error ts i) as [b|] eqn:Eb; [|apply IH; assumption].
    assert (Hi : (i < length ts)%nat) by (apply nth_error_Some; congruence).
    pose proof (Ht i b Eb) as Sb.
    assert (X : (forall l, I l (fst (one eqb m b) l)) /\ safe (Q i) (snd (one eqb m b))).
    { destruct b as [x| |l k|l v k]; cbn in Sb |- *; try tauto.
      - split; [exact Hm|]. apply Sb, Hm.
      - split; [|tauto]. intros l'. unfold put_at. destruct (eqb l l') eqn:E; [apply eqb_eq in E; subst l'; tauto|apply Hm]. }
    destruct (one eqb m b) as [m1 b1]. cbn [fst snd] in X. destruct X as [X1 X2].
    apply IH; [exact X1|]. intros k c E. destruct (Nat.eq_dec i k) as [->|Hn]; [|rewrite nth_error_upd_neq in E by auto; eauto].
    rewrite nth_error_upd_eq in E by assumption. injection E as <-. exact X2.
  Qed.
End Safe.

Lemma cloc_eqb_eq a b : cloc_eqb a b = true <-> a = b.
Proof.
  split; [|intros <-; destruct a; cbn; try reflexivity; apply Nat.eqb_refl].
  destruct a, b; cbn; intros H; try discriminate; try reflexivity. apply Nat.eqb_eq in H. congruence.
Qed.

(** The arrays keep their lengths. *)
Definition member_ok (l : cloc) (v : cval) : Prop :=
  match l with KM1 | KM2 => length (as_W v) = 80%nat | KStates => length (as_L v) = 80%nat | _ => True end.
Notation csafe := (safe member_ok).

Lemma creads_safe_gen {A} (Q : A -> Prop) (k : cmem -> act cloc cval A) : forall ls done m0, (forall l, In l done -> member_ok l (m0 l)) ->
  (forall m, (forall l, In l (ls ++ done) -> member_ok l (m l)) -> csafe Q (k m)) -> csafe Q (creads ls m0 k).
Proof.
  induction ls as [|l ls IH]; intros done m0 H0 Hk; cbn [creads safe]; [apply Hk; exact H0|].
  intros v Hv. apply (IH (l :: done)).
  - intros x Hx. unfold put_at. destruct (cloc_eqb l x) eqn:E; [apply cloc_eqb_eq in E; subst x; exact Hv|].
    destruct Hx as [<-|Hx]; [rewrite (proj2 (cloc_eqb_eq l l) eq_refl) in E; discriminate|auto].
  - intros m H. apply Hk. intros x Hx. apply H. cbn [app] in Hx. destruct Hx as [<-|Hx]; [apply in_or_app; right; left; reflexivity|].
    apply in_app_or in Hx. apply in_or_app. destruct Hx; [left; assumption|right; right; assumption].
Qed.
Lemma creads_safe {A} (Q : A -> Prop) (k : cmem -> act cloc cval A) ls : (forall l, In l all_members -> In l ls) ->
  (forall m, sized (ctx_of m) -> csafe Q (k m)) -> csafe Q (creads ls cempty k).
Proof.
  intros Hl Hk. apply (creads_safe_gen Q k ls []); [intros l []|]. intros m H. apply Hk. rewrite app_nil_r in H.
  assert (X : forall l, In l [KFound; KSafe; KDetect; KUbc; KReduced; KCallback; KIhv1; KIhv2; KM1; KM2; KStates; KH] -> member_ok l (m l)).
  { intros l Hi. apply H, Hl. unfold all_members. apply in_or_app. right. apply in_or_app. right. exact Hi. }
  split; [apply (X KM1); cbn; auto 20|]. split; [apply (X KM2); cbn; auto 20|apply (X KStates); cbn; auto 20].
Qed.
Lemma wr_buf_safe {A} (Q : A -> Prop) l : forall i k, csafe Q k -> csafe Q (wr_buf i l k).
Proof. induction l as [|b l IH]; intros i k H; cbn [wr_buf safe]; [exact H|]. split; [exact I|]. auto. Qed.
Lemma process_safe cfg p : csafe (fun _ => True) (r_process cfg p).
Proof.
  unfold r_process. apply creads_safe; [auto|]. intros m S. cbv zeta.
  destruct (process_some cfg (ctx_of m) (match p with Some p => p | None => c_buffer (ctx_of m) end) S) as (c' & -> & S1 & S2 & S3).
  cbn [lift bind safe member_ok as_W as_L]. repeat (split; [first [exact I|assumption]|]). exact I.
Qed.
Lemma update_loop_safe cfg : forall fuel buf, (length buf <= fuel)%nat ->
  csafe (fun r => (length r < 64)%nat /\ ((length buf < 64)%nat -> r = buf)) (r_update_loop fuel cfg buf).
Proof.
  induction fuel as [|fuel IH]; intros buf H; cbn [r_update_loop].
  - destruct (Nat.ltb_spec (length buf) 64); [cbn [safe]; auto|lia].
  - destruct (Nat.ltb_spec (length buf) 64); [cbn [safe]; auto|]. cbn [safe]. intros v _. split; [exact I|].
    apply (safe_bind _ (fun _ => True)).
    + destruct (unaligned cfg); [apply process_safe|]. apply wr_buf_safe, process_safe.
    + intros _ _. assert (L : (length (skipn 64 buf) <= fuel)%nat) by (rewrite skipn_length; lia).
      pose proof (IH (skipn 64 buf) L) as X. revert X. generalize (r_update_loop fuel cfg (skipn 64 buf)). intros a X.
      assert (G : forall (P Q : list byte -> Prop) a, (forall x, P x -> Q x) -> csafe P a -> csafe Q a).
      { clear. intros P Q a HPQ. induction a as [x| |l k IH|l v k IH]; cbn; auto. intros [? ?]; auto. }
      eapply G; [|exact X]. intros r [R1 _]. split; [exact R1|]. intros; lia.
Qed.
Lemma left_lt t : (N.to_nat (N.land t 63) < 64)%nat.
Proof. change 63 with (N.ones 6). rewrite N.land_ones. pose proof (N.mod_lt t (2 ^ 6)). change (2 ^ 6) with 64 in *. lia. Qed.
Lemma update_safe cfg buf : csafe (fun _ => True) (r_Update cfg buf).
Proof.
  unfold r_Update. destruct (Nat.eqb_spec (length buf) 0); [exact I|]. cbn [safe]. intros t _. cbv zeta.
  pose proof (left_lt (as_N t)) as Hl. revert Hl. generalize (N.to_nat (N.land (as_N t) 63)). intros lft Hl.
  apply (safe_bind _ (fun x => (snd x = 0 \/ length (fst x) < 64 - snd x)%nat /\ (snd x < 64)%nat)).
  - destruct (Nat.eqb_spec lft 0) as [->|Hne]; cbn [negb andb].
    + cbn [safe fst snd]. lia.
    + destruct (Nat.leb_spec (64 - lft) (length buf)).
      * cbn [safe]. intros t1 _. split; [exact I|]. apply wr_buf_safe.
        apply (safe_bind _ (fun _ => True)); [apply process_safe|]. intros _ _. cbn [safe fst snd]. lia.
      * cbn [safe fst snd]. lia.
  - intros [b lf] [H1 H2]. cbn [fst snd] in *.
    apply (safe_bind _ (fun r => (length r < 64)%nat /\ ((length b < 64)%nat -> r = b))); [apply update_loop_safe; lia|].
    intros r [R1 R2]. destruct (Nat.ltb_spec 0 (length r)); [|exact I]. cbn [safe]. intros v _. split; [exact I|].
    destruct (Nat.leb_spec (lf + length r) 64); [apply wr_buf_safe; exact I|].
    exfalso. destruct H1 as [->|H1]; [lia|]. rewrite R2 in * by lia. lia.
Qed.

(** Sum on a copy with any contents. *)
Lemma memcpy_some dst at_ src n : (at_ + n <= length dst)%nat -> (n <= length src)%nat ->
  memcpy dst at_ src n = Some (firstn at_ dst ++ firstn n src ++ skipn (at_ + n) dst) /\
  length (firstn at_ dst ++ firstn n src ++ skipn (at_ + n) dst) = length dst.
Proof.
  intros H1 H2. unfold memcpy. rewrite (proj2 (Nat.leb_le _ _) H1), (proj2 (Nat.leb_le _ _) H2). split; [reflexivity|].
  rewrite !app_length, !firstn_length, skipn_length. lia.
Qed.
Definition fit (c : ctx) : Prop := sized c /\ length (c_buffer c) = 64%nat.
Lemma process_fit cfg c b : fit c -> exists c', sha1_process cfg c b = Some c' /\ fit c'.
Proof.
  intros [S B]. destruct (process_some cfg c b S) as (c' & E & S'). exists c'. split; [exact E|]. split; [exact S'|].
  rewrite (fr_buffer _ _ (process_frame _ _ _ _ E)). exact B.
Qed.
Lemma loop_fit cfg : forall fuel c buf, fit c -> (length buf <= fuel)%nat -> exists c' r, update_loop fuel cfg c buf = Some (c', r) /\ fit c' /\
  (length r < 64)%nat /\ ((length buf < 64)%nat -> r = buf).
Proof.
  induction fuel as [|fuel IH]; intros c buf F H; cbn [update_loop].
  - destruct (Nat.ltb_spec (length buf) 64); [exists c, buf; auto|lia].
  - destruct (Nat.ltb_spec (length buf) 64); [exists c, buf; auto|]. cbv zeta.
    set (c1 := set_total _ c). assert (F1 : fit c1) by exact F. clearbody c1. destruct F1 as [S1 B1].
    assert (X : exists c', (if unaligned cfg then sha1_process cfg c1 (firstn 64 buf)
      else do b <- memcpy (c_buffer c1) 0 buf 64; sha1_process cfg (set_buffer b c1) (c_buffer (set_buffer b c1))) = Some c' /\ fit c').
    { destruct (unaligned cfg); [apply process_fit; split; assumption|].
      destruct (memcpy_some (c_buffer c1) 0 buf 64) as [-> Lb]; [lia|lia|]. cbn [obind].
      match goal with |- context[set_buffer ?b c1] => apply (process_fit cfg (set_buffer b c1)) end. split; [exact S1|]. cbn [c_buffer set_buffer]. lia. }
    destruct X as (c2 & -> & F2). cbn [obind].
    destruct (IH c2 (skipn 64 buf) F2) as (c' & r & E & F' & R & _); [rewrite skipn_length; lia|].
    exists c', r. split; [exact E|]. split; [exact F'|]. split; [exact R|]. intros; lia.
Qed.
Lemma update_fit cfg c buf : fit c -> exists c', SHA1DCUpdate cfg c buf = Some c' /\ fit c'.
Proof.
  intros F. unfold SHA1DCUpdate. destruct (Nat.eqb_spec (length buf) 0); [eauto|]. cbv zeta.
  pose proof (left_lt (c_total c)) as Hl. revert Hl. generalize (N.to_nat (N.land (c_total c) 63)). intros lft Hl.
  match goal with |- context[obind ?x _] => assert (X : exists c' b lf, x = Some (c', b, lf) /\ fit c' /\ (lf = 0 \/ length b < 64 - lf)%nat /\ (lf < 64)%nat) end.
  { destruct (Nat.eqb_spec lft 0) as [->|Hne]; cbn [negb andb]; [exists c, buf, 0%nat; split; [reflexivity|]; split; [exact F|]; split; [left; reflexivity|lia]|].
    destruct (Nat.leb_spec (64 - lft) (length buf)); [|exists c, buf, lft; split; [reflexivity|]; split; [exact F|]; split; [right; lia|lia]].
    set (c1 := set_total _ c). assert (F1 : fit c1) by exact F. clearbody c1. destruct F1 as [S1 B1].
    destruct (memcpy_some (c_buffer c1) lft buf (64 - lft)) as [-> Lb]; [lia|lia|]. cbn [obind].
    match goal with |- context[set_buffer ?b c1] => destruct (process_fit cfg (set_buffer b c1) (c_buffer (set_buffer b c1))) as (c2 & -> & F2) end.
    { split; [exact S1|]. cbn [c_buffer set_buffer]. lia. }
    cbn [obind]. eexists _, _, _. split; [reflexivity|]. split; [exact F2|]. split; [left; reflexivity|lia]. }
  destruct X as (c1 & b & lf & -> & F1 & H1 & H2). cbn [obind].
  destruct (loop_fit cfg (length b) c1 b F1 (le_n _)) as (c2 & r & -> & F2 & R1 & R2). cbn [obind].
  destruct (Nat.ltb_spec 0 (length r)); [|eauto].
  set (c3 := set_total _ c2). assert (F3 : fit c3) by exact F2. clearbody c3. destruct F3 as [S3 B3].
  destruct (memcpy_some (c_buffer c3) lf r (length r)) as [-> Lb].
  { rewrite B3. destruct H1 as [->|H1]; [lia|]. rewrite R2 by lia. lia. }
  { lia. }
  cbn [obind]. eexists. split; [reflexivity|]. split; [exact S3|]. cbn [c_buffer set_buffer]. lia.
Qed.
Lemma final_fit cfg c : fit c -> exists c' h f, SHA1DCFinal cfg c = Some (c', h, f) /\ length h = 20%nat.
Proof.
  intros F. unfold SHA1DCFinal. cbv zeta. pose proof (left_lt (c_total c)) as Hl. revert Hl. generalize (N.land (c_total c) 63). intros last Hl.
  set (padn := if last <? 56 then 56 - last else 120 - last).
  assert (Hp : (N.to_nat padn <= 64)%nat) by (unfold padn; destruct (N.ltb_spec last 56); lia).
  rewrite slice_to_ok by exact Hp. cbn [obind].
  destruct (update_fit cfg c (firstn (N.to_nat padn) sha1_padding) F) as (c1 & -> & [S1 B1]). cbn [obind].
  match goal with |- context[memcpy (c_buffer c1) 56 ?s 8] => destruct (memcpy_some (c_buffer c1) 56 s 8) as [-> Lb]; [lia|cbn [length]; lia|] end. cbn [obind].
  match goal with |- context[set_buffer ?b c1] => destruct (process_fit cfg (set_buffer b c1) (c_buffer (set_buffer b c1))) as (c2 & -> & F2) end.
  { split; [exact S1|]. cbn [c_buffer set_buffer]. lia. }
  cbn [obind]. eexists _, _, _. split; [reflexivity|]. reflexivity.
Qed.
Lemma crsum_fit cfg m h inp : sized (ctx_of m) -> exists o v, cgo_CollisionResistantSum cfg (mkcd (ctx_of m) h) inp = Some (inp ++ o, v) /\ length o = 20%nat.
Proof.
  intros S. unfold cgo_CollisionResistantSum, cgo_sum. cbn [g_ctx].
  destruct (final_fit cfg (ctx_of m)) as (c' & o & f & -> & L).
  { split; [exact S|]. cbn [c_buffer ctx_of]. unfold buffer_of. rewrite map_length. apply seq_length. }
  cbn [obind]. eauto.
Qed.
Lemma call_safe cfg i c : target (cc_op c) = Some i -> cgo_call (cc_op c) -> (forall l, In l all_members -> In l (cc_order c)) ->
  csafe (shaped (cc_op c)) (rc_call cfg c).
Proof.
  destruct c as [ord o]. cbn [cc_op cc_order]. intros T C Ho. unfold rc_call. cbn [cc_op cc_order].
  destruct o as [|j p|j b|j b|j|j|j b|j|j|b]; cbn [target cgo_call] in *; try discriminate; try contradiction.
  - destruct (Nat.eqb_spec (length p) 0) as [E|E]; [cbn [safe shaped]; rewrite E; reflexivity|].
    apply (safe_bind _ (fun _ => True)); [apply update_safe|]. intros _ _. reflexivity.
  - apply creads_safe; [exact Ho|]. intros m S. unfold cdigest_of, cgo_Sum.
    destruct (crsum_fit cfg m (as_Y (m KH)) b S) as (h & v & -> & L). cbn [obind lift bind safe shaped]. eauto.
  - apply creads_safe; [exact Ho|]. intros m S. unfold cdigest_of.
    destruct (crsum_fit cfg m (as_Y (m KH)) b S) as (h & v & -> & L). cbn [obind lift bind safe shaped fst snd]. eauto.
  - cbn [r_Init bind safe member_ok shaped]. repeat split.
  - reflexivity.
  - reflexivity.
Qed.
Lemma calls_safe cfg i g : on_chasher i g -> csafe (Forall2 shaped (c_calls g)) (rc_calls cfg g).
Proof.
  induction g as [|c g IH]; intros H; cbn [rc_calls c_calls map]; [constructor|].
  destruct (H c (or_introl eq_refl)) as (T & C & Ho).
  apply (safe_bind _ (shaped (cc_op c))); [apply (call_safe cfg i); assumption|]. intros x Hx.
  apply (safe_bind _ (Forall2 shaped (c_calls g))); [apply IH; intros y Hy; apply H; right; exact Hy|]. intros xs Hxs.
  cbn [safe]. constructor; assumption.
Qed.

(** ** A goroutine alone *)
Definition KAt (m : cmem) (d : cdigest) : Prop := forall l, m l = cmem_of d l.
Lemma buffer_of_at m d : KAt m d -> length (c_buffer (g_ctx d)) = 64%nat -> buffer_of m = c_buffer (g_ctx d).
Proof.
  intros H L. unfold buffer_of. apply nth_ext with (d := x00) (d' := x00); [rewrite map_length, seq_length; auto|].
  intros i Hi. rewrite map_length, seq_length in Hi. rewrite (nth_indep _ x00 (as_B (m (KBuf 0)))) by (rewrite map_length, seq_length; exact Hi).
  rewrite (map_nth (fun i => as_B (m (KBuf i)))), seq_nth by exact Hi. rewrite H. reflexivity.
Qed.
Lemma cdigest_of_at m d : KAt m d -> length (c_buffer (g_ctx d)) = 64%nat -> cdigest_of m = d.
Proof.
  intros H L. unfold cdigest_of, ctx_of. rewrite (buffer_of_at m d H L), !H. destruct d as [[] h]. reflexivity.
Qed.
Lemma cloc_eq_dec (a b : cloc) : {a = b} + {a <> b}.
Proof. decide equality; apply Nat.eq_dec. Qed.
Lemma solo_creads {A} (k : cmem -> act cloc cval A) m : forall ls m0, exists m1, crun1 m (creads ls m0 k) = crun1 m (k m1) /\
  (forall l, In l ls -> m1 l = m l) /\ forall l, ~ In l ls -> m1 l = m0 l.
Proof.
  induction ls as [|l ls IH]; intros m0; cbn [creads Model_Race.solo].
  - exists m0. split; [reflexivity|]. split; [intros l []|auto].
  - destruct (IH (cput m0 l (m l))) as (m1 & E & H1 & H2). exists m1. split; [exact E|]. split.
    + intros x [<-|Hx]; [|auto]. destruct (in_dec cloc_eq_dec l ls) as [J|J]; [auto|].
      rewrite H2 by exact J. unfold put_at. rewrite (proj2 (cloc_eqb_eq l l) eq_refl). reflexivity.
    + intros x Hx. rewrite H2 by (intros J; apply Hx; right; exact J). unfold put_at.
      destruct (cloc_eqb l x) eqn:E'; [|reflexivity]. apply cloc_eqb_eq in E'. exfalso. apply Hx. left. exact E'.
Qed.
Lemma creads_all {A} ord m d (f : cdigest -> act cloc cval A) : (forall l, In l all_members -> In l ord) -> KAt m d ->
  length (c_buffer (g_ctx d)) = 64%nat ->
  crun1 m (creads ord cempty (fun m => f (cdigest_of m))) = crun1 m (f d).
Proof.
  intros Ho HA L. destruct (solo_creads (fun m => f (cdigest_of m)) m ord cempty) as (m1 & -> & R & _).
  replace (cdigest_of m1) with d; [reflexivity|]. rewrite <- (cdigest_of_at m d HA L).
  assert (R' : forall l, In l all_members -> m1 l = m l) by auto. unfold cdigest_of, ctx_of.
  assert (B : buffer_of m1 = buffer_of m).
  { unfold buffer_of. apply map_ext_in. intros i Hi. rewrite R'; [reflexivity|]. unfold all_members. apply in_or_app. right. apply in_or_app. left. apply in_map. exact Hi. }
  rewrite B. assert (X : forall l, In l ([KTotal; KIhv] ++ [KFound; KSafe; KDetect; KUbc; KReduced; KCallback; KIhv1; KIhv2; KM1; KM2; KStates; KH]) -> m1 l = m l).
  { intros l Hl. apply R'. unfold all_members. apply in_app_or in Hl. destruct Hl as [Hl|Hl]; apply in_or_app; [left; exact Hl|right; apply in_or_app; right; exact Hl]. }
  rewrite !X by (cbn; auto 20). reflexivity.
Qed.

Notation with_ctx d c := (mkcd c (g_h d)).
Lemma KAt_total m d x : KAt m d -> KAt (cput m KTotal (VN x)) (with_ctx d (set_total x (g_ctx d))).
Proof. intros H l. unfold put_at. destruct l; cbn [cloc_eqb]; try (rewrite H; reflexivity). reflexivity. Qed.
Lemma KAt_buf m d i b : (i < length (c_buffer (g_ctx d)))%nat -> KAt m d ->
  KAt (cput m (KBuf i) (VB b)) (with_ctx d (set_buffer (upd i b (c_buffer (g_ctx d))) (g_ctx d))).
Proof.
  intros Hi H l. unfold put_at. destruct l; cbn [cloc_eqb]; try (rewrite H; reflexivity).
  cbn [cmem_of g_ctx set_buffer c_buffer]. destruct (Nat.eqb_spec i i0) as [<-|Hne].
  - rewrite nth_upd_eq by exact Hi. reflexivity.
  - rewrite nth_upd_neq by exact Hne. rewrite H. reflexivity.
Qed.
Lemma solo_wr_buf {A} (k : act cloc cval A) : forall l i m d, KAt m d -> (i + length l <= length (c_buffer (g_ctx d)))%nat ->
  exists m', crun1 m (wr_buf i l k) = crun1 m' k /\
    KAt m' (with_ctx d (set_buffer (firstn i (c_buffer (g_ctx d)) ++ l ++ skipn (i + length l) (c_buffer (g_ctx d))) (g_ctx d))).
Proof.
  induction l as [|b l IH]; intros i m d HA H; cbn [wr_buf Model_Race.solo length app] in *.
  - exists m. rewrite Nat.add_0_r, firstn_skipn. split; [reflexivity|]. destruct d as [[] h]. exact HA.
  - pose proof (KAt_buf m d i b ltac:(lia) HA) as H1.
    destruct (IH (S i) _ _ H1) as (m' & E & A').
    { cbn [g_ctx set_buffer c_buffer]. rewrite GoBlock.upd_length. lia. }
    exists m'. split; [exact E|]. cbn [g_ctx g_h set_buffer c_buffer] in A'.
    set (B := c_buffer (g_ctx d)) in *.
    assert (X : firstn (S i) (upd i b B) ++ l ++ skipn (S i + length l) (upd i b B) = firstn i B ++ b :: l ++ skipn (i + S (length l)) B).
    { rewrite upd_split by lia. assert (Lf : length (firstn i B) = i) by (rewrite firstn_length; lia).
      rewrite firstn_app, Lf, firstn_firstn, Nat.min_r by lia. replace (S i - i)%nat with 1%nat by lia. cbn [firstn].
      rewrite skipn_app, Lf. rewrite (skipn_all2 (firstn i _)) by lia. cbn [app].
      replace (S i + length l - i)%nat with (S (length l)) by lia. rewrite skipn_cons, skipn_skipn. rewrite <- app_assoc. cbn [app]. do 4 f_equal. lia. }
    rewrite X in A'. exact A'.
Qed.
Lemma solo_memcpy {A} (k : act cloc cval A) at_ src n m d b : KAt m d -> memcpy (c_buffer (g_ctx d)) at_ src n = Some b ->
  exists m', crun1 m (wr_buf at_ (firstn n src) k) = crun1 m' k /\ KAt m' (with_ctx d (set_buffer b (g_ctx d))) /\
    length b = length (c_buffer (g_ctx d)).
Proof.
  intros HA E. unfold memcpy in E. destruct (_ && _)%nat eqn:C; [|discriminate]. apply andb_true_iff in C. destruct C as [C1 C2].
  apply Nat.leb_le in C1. apply Nat.leb_le in C2. injection E as <-.
  assert (Ln : length (firstn n src) = n) by (rewrite firstn_length; lia).
  destruct (solo_wr_buf k (firstn n src) at_ m d HA) as (m' & E & A'); [lia|]. rewrite Ln in A'. exists m'. split; [exact E|]. split; [exact A'|].
  rewrite !app_length, Ln, firstn_length, skipn_length. lia.
Qed.
Lemma solo_process cfg p m d c' : KAt m d -> length (c_buffer (g_ctx d)) = 64%nat ->
  sha1_process cfg (g_ctx d) (match p with Some p => p | None => c_buffer (g_ctx d) end) = Some c' ->
  exists m', crun1 m (r_process cfg p) = (m', Some tt) /\ KAt m' (with_ctx d c').
Proof.
  intros HA L E. unfold r_process.
  set (f := fun d0 : cdigest => let c := g_ctx d0 in
    bind (lift (sha1_process cfg c match p with Some p => p | None => c_buffer c end)) (fun c =>
    Wr KIhv1 (VS (c_ihv1 c)) (Wr KM1 (VW (c_m1 c)) (Wr KStates (VL (c_states c)) (Wr KIhv2 (VS (c_ihv2 c)) (Wr KM2 (VW (c_m2 c))
    (Wr KFound (VZ (c_found c)) (Wr KIhv (VS (c_ihv c)) (Ret tt))))))))).
  pose proof (creads_all all_members m d f (fun l H => H) HA L) as X. unfold f in X at 1. cbn [cdigest_of g_ctx] in X. 
  refine (ex_intro _ _ (conj (eq_trans X _) _)).
  - unfold f. cbv zeta. rewrite E. cbn [lift bind Model_Race.solo]. reflexivity.
  - apply process_frame in E. destruct E as [E1 E2 E3 E4 E5 E6 E7].
    intros l. unfold put_at. destruct l; cbn [cloc_eqb cmem_of g_ctx g_h]; try (rewrite HA; cbn [cmem_of]); congruence.
Qed.
Notation buf64 d := (length (c_buffer (g_ctx d)) = 64%nat).
Lemma solo_update_loop cfg : forall fuel buf m d c' r, KAt m d -> buf64 d -> update_loop fuel cfg (g_ctx d) buf = Some (c', r) ->
  exists m', crun1 m (r_update_loop fuel cfg buf) = (m', Some r) /\ KAt m' (with_ctx d c') /\ length (c_buffer c') = 64%nat.
Proof.
  induction fuel as [|fuel IH]; intros buf m d c' r HA L E; cbn [update_loop r_update_loop] in *.
  - destruct (length buf <? 64)%nat; [|discriminate]. apply some2p in E. destruct E as [<- <-]. exists m. split; [reflexivity|]. destruct d. auto.
  - destruct (length buf <? 64)%nat; [apply some2p in E; destruct E as [<- <-]; exists m; split; [reflexivity|]; destruct d; auto|].
    cbv zeta in E. cbn [Model_Race.solo]. rewrite HA. cbn [as_N cmem_of].
    pose proof (KAt_total m d (add64 (c_total (g_ctx d)) 64) HA) as H1. revert H1.
    generalize (cput m KTotal (VN (add64 (c_total (g_ctx d)) 64))). intros m1 H1.
    set (c1 := set_total (add64 (c_total (g_ctx d)) 64) (g_ctx d)) in *. assert (L1 : length (c_buffer c1) = 64%nat) by exact L. clearbody c1.
    rewrite solo_bind.
    assert (X : forall c2, (if unaligned cfg then sha1_process cfg c1 (firstn 64 buf)
        else do b <- memcpy (c_buffer c1) 0 buf 64; sha1_process cfg (set_buffer b c1) (c_buffer (set_buffer b c1))) = Some c2 ->
      exists m2, crun1 m1 (if unaligned cfg then r_process cfg (Some (firstn 64 buf)) else wr_buf 0 (firstn 64 buf) (r_process cfg None)) = (m2, Some tt) /\
        KAt m2 (with_ctx d c2) /\ length (c_buffer c2) = 64%nat).
    { intros c2 E2. destruct (unaligned cfg).
      - destruct (solo_process cfg (Some (firstn 64 buf)) m1 _ c2 H1 L1 E2) as (m2 & S & A2). exists m2. split; [exact S|]. split; [exact A2|].
        rewrite (fr_buffer _ _ (process_frame _ _ _ _ E2)). exact L1.
      - destruct (memcpy (c_buffer c1) 0 buf 64) as [b|] eqn:Eb; [|discriminate]. cbn [obind] in E2.
        destruct (solo_memcpy (r_process cfg None) 0 buf 64 m1 (with_ctx d c1) b H1 Eb) as (m2 & S2 & A2 & Lb).
        cbn [g_ctx g_h] in A2, Lb. rewrite L1 in Lb.
        destruct (solo_process cfg None m2 _ c2 A2 Lb E2) as (m3 & S3 & A3). exists m3. split; [exact (eq_trans S2 S3)|]. split; [exact A3|].
        rewrite (fr_buffer _ _ (process_frame _ _ _ _ E2)). exact Lb. }
    match type of E with obind ?x _ = _ => destruct x as [c2|] eqn:E2; [|discriminate] end. cbn [obind] in E.
    destruct (X c2 eq_refl) as (m2 & -> & A2 & L2).
    exact (IH (skipn 64 buf) m2 (with_ctx d c2) c' r A2 L2 E).
Qed.
Lemma solo_Update cfg buf m d c' : KAt m d -> buf64 d -> SHA1DCUpdate cfg (g_ctx d) buf = Some c' ->
  exists m', crun1 m (r_Update cfg buf) = (m', Some tt) /\ KAt m' (with_ctx d c') /\ length (c_buffer c') = 64%nat.
Proof.
  intros HA L E. unfold SHA1DCUpdate in E. unfold r_Update.
  destruct (length buf =? 0)%nat; [apply some1 in E; subst c'; exists m; split; [reflexivity|]; destruct d; auto|].
  cbv zeta in E. cbn [Model_Race.solo]. rewrite HA. cbn [cmem_of as_N].
  set (lft := N.to_nat (N.land (c_total (g_ctx d)) 63)) in *. clearbody lft. cbv zeta. rewrite solo_bind.
  match type of E with obind ?x _ = _ => destruct x as [[[c1 b1] l1]|] eqn:E1; [|discriminate] end. cbn [obind] in E.
  match goal with |- context[crun1 m ?a] =>
    assert (X : exists m1, crun1 m a = (m1, Some (b1, l1)) /\ KAt m1 (with_ctx d c1) /\ length (c_buffer c1) = 64%nat) end.
  { destruct (_ && _)%nat.
    - cbn [Model_Race.solo]. rewrite HA. cbn [cmem_of as_N].
      pose proof (KAt_total m d (add64 (c_total (g_ctx d)) (N.of_nat (64 - lft))) HA) as H1. revert H1.
      generalize (cput m KTotal (VN (add64 (c_total (g_ctx d)) (N.of_nat (64 - lft))))). intros m1 H1.
      set (c0 := set_total (add64 (c_total (g_ctx d)) (N.of_nat (64 - lft))) (g_ctx d)) in *. assert (L1 : length (c_buffer c0) = 64%nat) by exact L. clearbody c0.
      destruct (memcpy (c_buffer c0) lft buf (64 - lft)) as [b|] eqn:Eb; [|discriminate]. cbn [obind] in E1.
      match goal with |- context[wr_buf _ _ ?k] => destruct (solo_memcpy k lft buf (64 - lft) m1 (with_ctx d c0) b H1 Eb) as (m2 & -> & A2 & Lb) end.
      cbn [g_ctx g_h] in A2, Lb. rewrite L1 in Lb. rewrite solo_bind.
      destruct (sha1_process cfg (set_buffer b c0) (c_buffer (set_buffer b c0))) as [c2|] eqn:E2; [|discriminate]. cbn [obind] in E1.
      destruct (solo_process cfg None m2 _ c2 A2 Lb E2) as (m3 & -> & A3). exists m3. apply some1 in E1.
      injection E1 as <- <- <-. split; [reflexivity|]. split; [exact A3|].
      rewrite (fr_buffer _ _ (process_frame _ _ _ _ E2)). exact Lb.
    - apply some1 in E1. injection E1 as <- <- <-. exists m. split; [reflexivity|]. destruct d; auto. }
  destruct X as (m1 & -> & A1 & L1). cbn [fst snd]. rewrite solo_bind.
  destruct (update_loop (length b1) cfg c1 b1) as [[c2 r]|] eqn:E2; [|discriminate]. cbn [obind] in E.
  destruct (solo_update_loop cfg (length b1) b1 m1 (with_ctx d c1) c2 r A1 L1 E2) as (m2 & -> & A2 & L2). cbn [g_h] in A2.
  destruct (0 <? length r)%nat; [|apply some1 in E; subst c'; exists m2; auto].
  cbn [Model_Race.solo]. rewrite A2. cbn [cmem_of as_N g_ctx].
  pose proof (KAt_total m2 _ (add64 (c_total c2) (N.of_nat (length r))) A2) as H3. revert H3. cbn [g_ctx g_h].
  generalize (cput m2 KTotal (VN (add64 (c_total c2) (N.of_nat (length r))))). intros m3 H3.
  set (c3 := set_total (add64 (c_total c2) (N.of_nat (length r))) c2) in *. assert (L3 : length (c_buffer c3) = 64%nat) by exact L2. clearbody c3.
  destruct (memcpy (c_buffer c3) l1 r (length r)) as [b|] eqn:Eb; [|discriminate]. cbn [obind] in E. apply some1 in E. subst c'.
  destruct (solo_memcpy (Ret tt) l1 r (length r) m3 (with_ctx d c3) b H3 Eb) as (m4 & S4 & A4 & Lb). rewrite firstn_all in S4.
  assert (Hle : (l1 + length r <= 64)%nat).
  { unfold memcpy in Eb. match type of Eb with (if ?x then _ else _) = _ => destruct x eqn:C end; [|discriminate]. apply andb_true_iff in C. destruct C as [C _]. apply Nat.leb_le in C. lia. }
  rewrite (proj2 (Nat.leb_le _ _) Hle), S4. exists m4. split; [reflexivity|]. split; [exact A4|]. cbn [g_ctx] in Lb. cbn [c_buffer set_buffer]. lia.
Qed.
Lemma solo_Init m d : KAt m d -> exists m', crun1 m r_Init = (m', Some tt) /\ KAt m' (cgo_Reset d).
Proof.
  intros HA. eexists. split; [cbn [r_Init Model_Race.solo]; reflexivity|]. intros l. unfold put_at.
  destruct l; cbn [cloc_eqb cmem_of g_ctx g_h cgo_Reset SHA1DCInit c_total c_ihv c_buffer c_found c_safe c_detect c_ubc c_reduced c_callback c_ihv1 c_ihv2 c_m1 c_m2 c_states];
    try reflexivity; rewrite HA; reflexivity.
Qed.

(** One call. *)
Lemma solo_ccall cfg c i m d ds ds' x : target (cc_op c) = Some i -> cgo_call (cc_op c) -> (forall l, In l all_members -> In l (cc_order c)) ->
  nth_error ds i = Some d -> KAt m d -> buf64 d -> c_exec cfg ds (cc_op c) = Some (ds', x) ->
  exists m' d', crun1 m (rc_call cfg c) = (m', Some x) /\ nth_error ds' i = Some d' /\ KAt m' d' /\ buf64 d'.
Proof.
  intros T C Ho Hd HA L E. destruct c as [ord o]. cbn [cc_order cc_op] in *. unfold rc_call. cbn [cc_order cc_op].
  assert (Li : (i < length ds)%nat) by (apply nth_error_Some; congruence).
  destruct o as [|j p|j b|j b|j|j|j b|j|j|b]; cbn [target cgo_call] in T, C; try discriminate; try contradiction; injection T as ->; cbn [c_exec] in E; rewrite Hd in E; cbn [obind] in E.
  - unfold cgo_Write in E. destruct (length p =? 0)%nat.
    + cbn [obind] in E. apply some2p in E. destruct E as [<- <-]. exists m, d. split; [reflexivity|]. split; [apply nth_error_upd_eq; exact Li|auto].
    + destruct (SHA1DCUpdate cfg (g_ctx d) p) as [c'|] eqn:Eu; [|discriminate]. cbn [obind] in E. apply some2p in E. destruct E as [<- <-].
      destruct (solo_Update cfg p m d c' HA L Eu) as (m' & S & A' & L'). exists m', (with_ctx d c'). rewrite solo_bind, S.
      split; [reflexivity|]. split; [apply nth_error_upd_eq; exact Li|auto].
  - rewrite (creads_all ord m d (fun d => bind (lift (cgo_Sum cfg d b)) (fun b => Ret (RBytes b)))) by assumption.
    destruct (cgo_Sum cfg d b) as [r|]; [|discriminate]. cbn [obind] in E. apply some2p in E. destruct E as [<- <-]. exists m, d. auto.
  - rewrite (creads_all ord m d (fun d => bind (lift (cgo_CollisionResistantSum cfg d b)) (fun r => Ret (RVerdict (fst r) (snd r))))) by assumption.
    destruct (cgo_CollisionResistantSum cfg d b) as [[r v]|]; [|discriminate]. cbn [obind] in E. apply some2p in E. destruct E as [<- <-]. exists m, d. auto.
  - apply some2p in E. destruct E as [<- <-]. destruct (solo_Init m d HA) as (m' & S & A'). exists m', (cgo_Reset d). rewrite solo_bind, S.
    split; [reflexivity|]. split; [apply nth_error_upd_eq; exact Li|]. split; [exact A'|exact L].
  - apply some2p in E. destruct E as [<- <-]. exists m, d. auto.
  - apply some2p in E. destruct E as [<- <-]. exists m, d. auto.
Qed.
Lemma solo_ccalls cfg i g : on_chasher i g -> forall m d ds ds' xs, nth_error ds i = Some d -> KAt m d -> buf64 d ->
  c_run cfg ds (c_calls g) = Some (ds', xs) ->
  exists m' d', crun1 m (rc_calls cfg g) = (m', Some xs) /\ nth_error ds' i = Some d' /\ KAt m' d' /\ buf64 d'.
Proof.
  induction g as [|c g IH]; intros Hg m d ds ds' xs Hd HA L E; cbn [c_calls map c_run rc_calls] in *.
  - apply some2p in E. destruct E as [<- <-]. exists m, d. auto.
  - destruct (c_exec cfg ds (cc_op c)) as [[ds1 x]|] eqn:Ex; [|discriminate]. cbn [obind] in E.
    fold (c_calls g) in E. destruct (c_run cfg ds1 (c_calls g)) as [[ds2 xs']|] eqn:Er; [|discriminate]. cbn [obind] in E.
    apply some2p in E. destruct E as [<- <-]. destruct (Hg c (or_introl eq_refl)) as (T & C & Ho).
    destruct (solo_ccall cfg c i m d ds ds1 x T C Ho Hd HA L Ex) as (m1 & d1 & S1 & D1 & A1 & L1).
    destruct (IH (fun c Hc => Hg c (or_intror Hc)) m1 d1 ds1 ds2 xs' D1 A1 L1 Er) as (m2 & d2 & S2 & D2 & A2 & L2).
    exists m2, d2. rewrite solo_bind, S1, solo_bind, S2. auto.
Qed.

Lemma creads_quiet {A} (k : cmem -> act cloc cval A) : (forall m, quiet (k m)) -> forall ls m, quiet (creads ls m k).
Proof. intros H. induction ls as [|l ls IH]; intros m; cbn [creads quiet]; auto. Qed.
Lemma quiet_ccall cfg c : observer (cc_op c) = true -> quiet (rc_call cfg c).
Proof.
  destruct c as [ord o]. unfold rc_call. cbn [cc_order cc_op]. destruct o; cbn [observer]; intros H; try discriminate; try exact I.
  - apply creads_quiet. intros m. destruct (cgo_Sum _ _ _); exact I.
  - apply creads_quiet. intros m. destruct (cgo_CollisionResistantSum _ _ _); exact I.
Qed.
Lemma quiet_ccalls cfg g : c_observing g -> quiet (rc_calls cfg g).
Proof.
  induction g as [|c g IH]; intros H; cbn [rc_calls]; [exact I|].
  apply quiet_bind; [apply quiet_ccall; apply H; left; reflexivity|]. intros a.
  apply quiet_bind; [apply IH; intros x Hx; apply H; right; exact Hx|]. intros; exact I.
Qed.

(** ** Programs *)
Lemma Forall_upd {A} (P : A -> Prop) i v l : Forall P l -> P v -> Forall P (upd i v l).
Proof. intros H Hv. revert i. induction H as [|x l Hx H IH]; intros [|i]; cbn; constructor; auto. Qed.
Definition dfit (d : cdigest) : Prop := fit (g_ctx d).
Lemma new_fit : dfit cgo_New.
Proof. repeat split. Qed.
Lemma sum_fit cfg d : dfit d -> exists d' h v, cgo_sum cfg d = Some (d', h, v).
Proof. intros F. unfold cgo_sum. destruct (final_fit cfg (g_ctx d) F) as (c' & h & f & -> & _). cbn [obind]. eauto. Qed.
Lemma write_fit cfg d p : dfit d -> exists d' n, cgo_Write cfg d p = Some (d', n) /\ dfit d'.
Proof.
  intros F. unfold cgo_Write. destruct (length p =? 0)%nat; [eauto|].
  destruct (update_fit cfg (g_ctx d) p F) as (c' & -> & F'). cbn [obind]. eauto.
Qed.
Lemma exec_fit cfg ds o : Forall dfit ds -> cgo_call o -> match target o with Some i => (i < length ds)%nat | None => True end ->
  exists ds' x, c_exec cfg ds o = Some (ds', x) /\ Forall dfit ds' /\ length ds' = (match o with ONew => S (length ds) | _ => length ds end).
Proof.
  intros F C T.
  assert (G : forall i, (i < length ds)%nat -> exists d, nth_error ds i = Some d /\ dfit d).
  { intros i Hi. destruct (nth_error ds i) as [d|] eqn:E; [|apply nth_error_None in E; lia].
    exists d. split; [reflexivity|]. rewrite Forall_forall in F. apply F. apply nth_error_In with i. exact E. }
  destruct o as [|j p|j b|j b|j|j|j b|j|j|b]; cbn [target cgo_call c_exec] in *; try contradiction;
    try (destruct (G j T) as (d & -> & Fd); cbn [obind]).
  - eexists _, _. split; [reflexivity|]. split; [|rewrite app_length; cbn; lia].
    apply Forall_app. split; [exact F|]. constructor; [exact new_fit|constructor].
  - destruct (write_fit cfg d p Fd) as (d' & n & -> & F'). cbn [obind]. eexists _, _. split; [reflexivity|].
    split; [apply Forall_upd; assumption|apply Race.upd_length].
  - unfold cgo_Sum, cgo_CollisionResistantSum. destruct (sum_fit cfg d Fd) as (d' & h & v & ->). cbn [obind]. eauto.
  - unfold cgo_CollisionResistantSum. destruct (sum_fit cfg d Fd) as (d' & h & v & ->). cbn [obind]. eauto.
  - eexists _, _. split; [reflexivity|]. split; [apply Forall_upd; [exact F|]; exact Fd|apply Race.upd_length].
  - eauto.
  - eauto.
  - unfold cgo_SumPkg. cbv zeta. destruct (write_fit cfg (cgo_Reset zero_cdigest) b new_fit) as (d' & n & -> & F'). cbn [obind].
    destruct (sum_fit cfg d' F') as (d2 & h & v & ->). cbn [obind]. eauto.
Qed.
Lemma run_fit cfg os : forall ds, Forall dfit ds -> Forall cgo_call os -> scoped (length ds) os ->
  exists ds' rs, c_run cfg ds os = Some (ds', rs) /\ Forall dfit ds' /\ length rs = length os /\ length ds' = (length ds + created os)%nat.
Proof.
  induction os as [|o os IH]; intros ds F C S; cbn [c_run].
  - exists ds, []. cbn. auto.
  - apply Forall_cons_iff in C. destruct C as [C1 C2]. cbn [scoped] in S. destruct S as [S1 S2].
    destruct (exec_fit cfg ds o F C1 S1) as (ds1 & x & -> & F1 & L1). cbn [obind].
    destruct (IH ds1 F1 C2) as (ds2 & rs & -> & F2 & Lr & L2); [rewrite L1; destruct o; exact S2|].
    cbn [obind]. eexists _, _. split; [reflexivity|]. split; [exact F2|]. split; [cbn [length]; lia|].
    rewrite L2, L1. destruct o; cbn; lia.
Qed.
Lemma c_run_app cfg q : forall ds r, c_run cfg ds (q ++ r) =
  (do (ds1, xs) <- c_run cfg ds q; do (ds2, ys) <- c_run cfg ds1 r; Some (ds2, xs ++ ys)).
Proof.
  induction q as [|o q IH]; intros ds r; cbn [app c_run].
  - cbn [obind]. destruct (c_run cfg ds r) as [[? ?]|]; reflexivity.
  - destruct (c_exec cfg ds o) as [[ds1 x]|]; cbn [obind]; [|reflexivity]. rewrite IH.
    destruct (c_run cfg ds1 q) as [[ds2 xs]|]; cbn [obind]; [|reflexivity].
    destruct (c_run cfg ds2 r) as [[ds3 ys]|]; reflexivity.
Qed.
Lemma scoped_con i n g : on_chasher i g -> (i < n)%nat -> scoped n (c_calls g).
Proof.
  intros Hg Hi. unfold c_calls. induction g as [|c g IH]; cbn [map scoped]; [exact I|].
  destruct (Hg c (or_introl eq_refl)) as (T & _). rewrite T. split; [exact Hi|].
  replace (match cc_op c with ONew => S n | _ => n end) with n by (destruct (cc_op c); try discriminate T; reflexivity).
  apply IH. intros x Hx. apply Hg. right. exact Hx.
Qed.
Lemma cgo_con i g : on_chasher i g -> Forall cgo_call (c_calls g).
Proof. intros Hg. apply Forall_forall. intros o Ho. apply in_map_iff in Ho. destruct Ho as (c & <- & Hc). apply (Hg c Hc). Qed.
Lemma cprogram_state cfg p ds rs : scoped 0 p -> Forall cgo_call p -> c_run cfg [] p = Some (ds, rs) ->
  Forall dfit ds /\ length ds = created p /\ length rs = length p.
Proof.
  intros Hs Hc E. destruct (run_fit cfg p [] (Forall_nil _) Hc Hs) as (ds' & rs' & E' & F & Lr & L).
  rewrite E in E'. apply some2p in E'. destruct E' as [<- <-]. auto.
Qed.

Section Shared.
  Variables (cfg : ccfg) (p : list op) (i : nat) (ds : list cdigest) (rs : list res) (d : cdigest).
  Hypothesis Hs : scoped 0 p.
  Hypothesis Hc : Forall cgo_call p.
  Hypothesis E : c_run cfg [] p = Some (ds, rs).
  Hypothesis Hd : nth_error ds i = Some d.

  Lemma Fd : dfit d.
  Proof.
    destruct (cprogram_state cfg p ds rs Hs Hc E) as (F & _). rewrite Forall_forall in F. apply F. apply nth_error_In with i. exact Hd.
  Qed.
  Lemma Hi : (i < length ds)%nat.
  Proof. apply nth_error_Some. rewrite Hd. discriminate. Qed.
  Lemma with_scoped g : on_chasher i g -> scoped 0 (p ++ c_calls g) /\ Forall cgo_call (p ++ c_calls g).
  Proof.
    intros Hg. destruct (cprogram_state cfg p ds rs Hs Hc E) as (_ & L & _). split.
    - apply scoped_app. split; [exact Hs|]. apply (scoped_con i); [exact Hg|]. cbn [Nat.add]. rewrite <- L. exact Hi.
    - apply Forall_app. split; [exact Hc|]. apply (cgo_con i). exact Hg.
  Qed.
  Lemma cgoroutine_solo g : on_chasher i g -> exists ds' xs m' d', c_run cfg [] (p ++ c_calls g) = Some (ds', rs ++ xs) /\
    c_run cfg ds (c_calls g) = Some (ds', xs) /\
    crun1 (cmem_of d) (rc_calls cfg g) = (m', Some xs) /\ nth_error ds' i = Some d' /\ KAt m' d' /\ buf64 d'.
  Proof.
    intros Hg. destruct (cprogram_state cfg p ds rs Hs Hc E) as (F & _).
    destruct (run_fit cfg (c_calls g) ds F (cgo_con i g Hg) (scoped_con i _ g Hg Hi)) as (ds' & xs & Er & _).
    destruct (solo_ccalls cfg i g Hg (cmem_of d) d ds ds' xs Hd (fun l => eq_refl) (proj2 Fd) Er) as (m' & d' & S & D & A & L).
    exists ds', xs, m', d'. split; [|auto]. rewrite c_run_app, E. cbn [obind]. rewrite Er. reflexivity.
  Qed.

  Lemma crace_writer gs w g sched : nth_error gs w = Some g -> on_chasher i g ->
    (forall k h, k <> w -> nth_error gs k = Some h -> c_observing h) ->
    exists ds' xs, c_run cfg [] (p ++ c_calls g) = Some (ds', rs ++ xs) /\
      (nth_error (snd (c_shared cfg d gs sched)) w = Some None \/
       nth_error (snd (c_shared cfg d gs sched)) w = Some (Some (Some xs)) /\ nth_error ds' i = Some (fst (c_shared cfg d gs sched))).
  Proof.
    intros Hw Hg Ho. destruct (cgoroutine_solo g Hg) as (ds' & xs & m' & d' & E' & _ & S & D & A & L).
    exists ds', xs. split; [exact E'|].
    destruct (one_writer cloc_eqb w sched (cmem_of d) (map (rc_calls cfg) gs) (rc_calls cfg g)) as (a' & X & Y).
    { rewrite nth_error_map, Hw. reflexivity. }
    { intros k b Hk Eb. rewrite nth_error_map in Eb. destruct (nth_error gs k) as [h|] eqn:Eh; [|discriminate]. cbn [option_map] in Eb.
      apply some1 in Eb. subst b. apply quiet_ccalls. eauto. }
    unfold c_shared. destruct (interleave _ _ _ _) as [mf ts]. cbn [fst snd] in *. rewrite nth_error_map, X. cbn [option_map].
    rewrite S in Y. destruct a' as [ys| |l k|l v k]; cbn [outcome Model_Race.solo] in *; auto.
    - right. injection Y as -> ->. rewrite (cdigest_of_at m' d' A L). auto.
    - discriminate.
  Qed.
  Lemma crace_observers gs sched : (forall g, In g gs -> on_chasher i g /\ c_observing g) ->
    fst (c_shared cfg d gs sched) = d /\
    forall k g, nth_error gs k = Some g -> exists xs, c_run cfg [] (p ++ c_calls g) = Some (ds, rs ++ xs) /\
      (nth_error (snd (c_shared cfg d gs sched)) k = Some None \/ nth_error (snd (c_shared cfg d gs sched)) k = Some (Some (Some xs))).
  Proof.
    intros Hg. split.
    - pose proof (all_quiet cloc_eqb sched (cmem_of d) (map (rc_calls cfg) gs)) as Q. unfold c_shared. destruct (interleave _ _ _ _) as [mf ts].
      cbn [fst] in *. rewrite Q; [apply cdigest_of_at; [intros l; reflexivity|exact (proj2 Fd)]|].
      intros k b Eb. apply nth_error_In in Eb. apply in_map_iff in Eb. destruct Eb as (g & <- & I). apply quiet_ccalls. apply Hg. exact I.
    - intros k g Ek. destruct (Hg g (nth_error_In _ _ Ek)) as [H1 H2].
      destruct (crace_writer gs k g sched Ek H1) as (ds' & xs & E' & C).
      { intros j h _ Ej. apply (Hg h). apply nth_error_In with j. exact Ej. }
      exists xs. split; [|destruct C as [C|[C _]]; auto]. rewrite E'. f_equal. f_equal.
      rewrite c_run_app, E in E'. cbn [obind] in E'. destruct (c_run cfg ds (c_calls g)) as [[ds2 ys]|] eqn:Er; [|discriminate].
      cbn [obind] in E'. apply some2p in E'. destruct E' as [<- _]. clear - Er H2. revert ds ds2 ys H2 Er.
      induction g as [|c g IH]; intros ds ds2 ys H2 Er; cbn [c_calls map c_run] in Er; [apply some2p in Er; destruct Er; auto|].
      destruct (c_exec cfg ds (cc_op c)) as [[ds1 x]|] eqn:Ex; [|discriminate]. cbn [obind] in Er. fold (c_calls g) in Er.
      destruct (c_run cfg ds1 (c_calls g)) as [[ds3 zs]|] eqn:Er1; [|discriminate]. cbn [obind] in Er. apply some2p in Er. destruct Er as [<- _].
      rewrite (IH ds1 ds3 zs (fun c H => H2 c (or_intror H)) Er1). apply (c_exec_observer cfg ds (cc_op c) ds1 x); [|exact Ex].
      apply H2. left. reflexivity.
  Qed.
  Lemma crace_safe gs sched : (forall g, In g gs -> on_chasher i g) ->
    forall k g r, nth_error gs k = Some g -> nth_error (snd (c_shared cfg d gs sched)) k = Some (Some r) ->
    exists xs, r = Some xs /\ Forall2 shaped (c_calls g) xs.
  Proof.
    intros Hg k g r Ek X.
    pose proof (safe_interleave cloc_eqb (fun a b => proj1 (cloc_eqb_eq a b)) member_ok
      (fun k xs => match nth_error gs k with Some g => Forall2 shaped (c_calls g) xs | None => False end) sched (cmem_of d) (map (rc_calls cfg) gs)) as Sf.
    unfold c_shared in X. destruct (interleave _ _ _ _) as [mf ts]. cbn [snd] in *.
    rewrite nth_error_map in X. destruct (nth_error ts k) as [a|] eqn:Ea; [|discriminate]. cbn [option_map] in X. apply some1 in X.
    assert (S : safe member_ok (fun xs => match nth_error gs k with Some g => Forall2 shaped (c_calls g) xs | None => False end) a).
    { apply (Sf) with (k := k); [| |exact Ea].
      - pose proof Fd as [(F1 & F2 & F3) _]. intros l. destruct l; cbn [member_ok cmem_of as_W as_L]; auto.
      - intros j b Eb. rewrite nth_error_map in Eb. destruct (nth_error gs j) as [h|] eqn:Eh; [|discriminate]. cbn [option_map] in Eb.
        apply some1 in Eb. subst b. apply (calls_safe cfg i). apply Hg. apply nth_error_In with j. exact Eh. }
    rewrite Ek in S. destruct a as [xs| |l q|l v q]; cbn [outcome safe] in *; try discriminate; [|contradiction].
    apply some1 in X. exists xs. auto.
  Qed.
  Lemma cwritten_observing g ops k : c_observing g -> written i (ops ++ firstn k (c_calls g)) = written i ops.
  Proof.
    clear. intros H. unfold written. rewrite fold_left_app. generalize (fold_left (written_step i) ops (Some [])). intros a. revert a k.
    induction g as [|c g IH]; intros a [|k]; cbn [c_calls map firstn fold_left]; try reflexivity.
    fold (c_calls g). rewrite IH by (intros x Hx; apply H; right; exact Hx). pose proof (H c (or_introl eq_refl)) as O.
    destruct (cc_op c); try discriminate O; reflexivity.
  Qed.
  Lemma crace_digest D m gs sched : host_be cfg = macro_be cfg -> decides D attacked -> written i p = Some m ->
    (forall g, In g gs -> on_chasher i g /\ c_observing g) ->
    forall k g xs, nth_error gs k = Some g -> nth_error (snd (c_shared cfg d gs sched)) k = Some (Some (Some xs)) ->
    forall j c, nth_error g j = Some c ->
      (forall inp, cc_op c = OSum i inp -> nth_error xs j = Some (RBytes (inp ++ fst (cd_sum D m)))) /\
      (forall inp, cc_op c = OCRSum i inp -> nth_error xs j = Some (RVerdict (inp ++ fst (cd_sum D m)) (snd (cd_sum D m)))).
  Proof.
    intros Hcfg HD Hm Hg k g xs Ek X j c Ej. destruct (crace_observers gs sched Hg) as [_ O].
    destruct (O k g Ek) as (ys & E' & C). assert (ys = xs) as -> by (destruct C as [C|C]; rewrite X in C; congruence).
    destruct (Hg g (nth_error_In _ _ Ek)) as [H1 H2]. destruct (with_scoped g H1) as [S1 C1].
    destruct (cprogram_state cfg p ds rs Hs Hc E) as (_ & _ & Lp).
    assert (Lc : nth_error (p ++ c_calls g) (length p + j) = Some (cc_op c)).
    { rewrite nth_error_app2 by lia. rewrite Nat.add_comm, Nat.add_sub. unfold c_calls. rewrite nth_error_map, Ej. reflexivity. }
    assert (Lw : written i (firstn (length p + j) (p ++ c_calls g)) = Some m).
    { rewrite firstn_app_2, cwritten_observing by exact H2. exact Hm. }
    assert (Ly : nth_error xs j = nth_error (rs ++ xs) (length p + j)).
    { rewrite nth_error_app2 by lia. f_equal. lia. }
    rewrite Ly. split; intros inp Eo; rewrite Eo in Lc.
    - destruct (cgo_sum_exact cfg Hcfg D _ _ i inp m HD S1 C1 Lc Lw) as (ds1 & rs1 & E1 & Z). rewrite E' in E1. apply some2p in E1. destruct E1 as [_ <-]. exact Z.
    - destruct (cgo_crsum_exact cfg Hcfg D _ _ i inp m HD S1 C1 Lc Lw) as (ds1 & rs1 & E1 & Z). rewrite E' in E1. apply some2p in E1. destruct E1 as [_ <-]. exact Z.
  Qed.
End Shared.
Lemma crace_ends cfg d gs sched : exists more, forall k, (k < length gs)%nat -> exists r, nth_error (snd (c_shared cfg d gs (sched ++ more))) k = Some (Some r).
Proof.
  destruct (all_end cloc_eqb (cmem_of d) (map (rc_calls cfg) gs) sched) as (more & H). exists more. intros k Hk. unfold c_shared.
  pose proof (interleave_length cloc_eqb (sched ++ more) (cmem_of d) (map (rc_calls cfg) gs)) as L.
  destruct (interleave _ _ _ _) as [m ts]. cbn [snd] in *. rewrite map_length in L. rewrite nth_error_map.
  destruct (nth_error ts k) as [a|] eqn:E; [|apply nth_error_None in E; lia]. specialize (H k a E). cbn [option_map].
  destruct a; cbn [ended outcome] in *; try contradiction; eauto.
Qed.

(** ** Calls that do interfere *)
Definition csum_g : list ccall := [mkcc all_members (OSum 0 [])].
Definition cwrite_g (p : list byte) : list ccall := [mkcc all_members (OWrite 0 p)].

Lemma csum_mixes cfg : host_be cfg = macro_be cfg -> exists sched,
  snd (c_shared cfg cgo_New [cwrite_g [x61; x62; x63]; csum_g] sched) =
    [Some (Some [RNum 3]); Some (Some [RBytes (sha1 [x00; x00; x00])])] /\
  sha1 [x00; x00; x00] <> sha1 [] /\ sha1 [x00; x00; x00] <> sha1 [x61; x62; x63].
Proof.
  intros H. exists (repeat 0%nat 3 ++ repeat 1%nat 78 ++ repeat 0%nat 3). split; [|split; vm_compute; discriminate].
  destruct cfg as [[|] [|] [|]]; try discriminate H; vm_compute; reflexivity.
Qed.
Lemma cwrite_lost cfg : exists sched, let r := c_shared cfg cgo_New [cwrite_g [x61]; cwrite_g [x62]] sched in
  snd r = [Some (Some [RNum 1]); Some (Some [RNum 1])] /\
  c_run cfg [] [ONew; OWrite 0 [x62]] = Some ([fst r], [RNew 0; RNum 1]).
Proof.
  exists [0; 1; 0; 1; 0; 1; 0; 1]%nat. destruct cfg as [[|] [|] [|]]; vm_compute; split; reflexivity.
Qed.
