(** The leakage of [Model_Leak] compared with [Spec_Leak]. *)

From Coq Require Import Arith ZArith NArith List Strings.Byte Lia ZifyNat Bool.
From Verif Require Import Word WordFacts Spec_Sha1 Sha1Facts Spec_DV Spec_Cd DvFacts Model_Ubc Gen_UbcGo Gen_DvsGo Model_Go GoCheck GoBlock GoTable GoApi Model_Leak Spec_Leak.
Import ListNotations.
Local Open Scope N_scope.
Ltac Zify.zify_post_hook ::= idtac.

(** ** Erasure *)
Lemma snd_bind {A B} (m : lk A) (f : A -> lk B) : snd (lbind m f) = do x <- snd m ; snd (f x).
Proof. unfold lbind. destruct (snd m); reflexivity. Qed.
Lemma bind_some {A B} t (a : A) (f : A -> lk B) : lbind (t, Some a) f = (t ++ fst (f a), snd (f a)).
Proof. reflexivity. Qed.

Fixpoint tr_loop (g : nat -> list ev) (l : list nat) : list ev :=
  match l with
  | [] => [EBr false]
  | i :: l => EBr true :: g i ++ tr_loop g l
  end.
Lemma loop_eq {X} (f : X -> nat -> lk X) (F : X -> nat -> X) g : (forall x i, f x i = (g i, Some (F x i))) ->
  forall l x, l_loop f l x = (tr_loop g l, Some (fold_left F l x)).
Proof.
  intros H. induction l as [|i l IH]; intros x; [reflexivity|].
  cbn [l_loop tr_loop fold_left]. unfold test. rewrite bind_some. rewrite H, bind_some, IH. reflexivity.
Qed.

Lemma ueval_snd W mask e : snd (l_ueval W mask e) = Some (ueval W mask e).
Proof.
  induction e; cbn [l_ueval ueval]; rewrite ?snd_bind, ?IHe, ?IHe1; cbn [obind]; rewrite ?snd_bind, ?IHe2; cbn [obind]; try reflexivity.
  unfold test. cbn [snd obind]. destruct (ueval W mask e1 =? 0); cbn [negb orb]; [|reflexivity].
  rewrite snd_bind, IHe2. reflexivity.
Qed.
Lemma urun_snd W p : forall mask, snd (l_urun W p mask) = Some (urun W p mask).
Proof.
  induction p; intros mask; cbn [l_urun urun]; [reflexivity| |].
  - rewrite snd_bind, ueval_snd. cbn [obind]. apply IHp.
  - rewrite snd_bind, ueval_snd. cbn [obind]. rewrite snd_bind. unfold test. cbn [snd obind]. rewrite snd_bind.
    destruct (ueval W mask _ =? 0); cbn [negb]; rewrite ?IHp1; cbn [snd lret obind]; apply IHp2.
Qed.
Lemma mask_snd W : snd (l_CalculateDvMask W) = Some (CalculateDvMask W).
Proof. destruct W; [|reflexivity]. unfold l_CalculateDvMask, CalculateDvMask. rewrite snd_bind. apply urun_snd. Qed.

Definition tr_undo (row step : nat) (i : nat) : list ev := if (i <? step)%nat then [EBr true; EIx AM1 i; EIx (ADm row) i] else [EBr false].
Definition tr_redo (row step : nat) (i : nat) : list ev := if (step <=? i)%nat then [EBr true; EIx AM1 i; EIx (ADm row) i] else [EBr false].
Lemma undo_eq row f K step m1 dm s i : l_undo row f K step m1 dm s i = (tr_undo row step i, Some (g_undo f K step m1 dm s i)).
Proof. unfold l_undo, tr_undo, g_undo. destruct (i <? step)%nat; reflexivity. Qed.
Lemma redo_eq row f K step m1 dm s i : l_redo row f K step m1 dm s i = (tr_redo row step i, Some (g_redo f K step m1 dm s i)).
Proof. unfold l_redo, tr_redo, g_redo. destruct (step <=? i)%nat; reflexivity. Qed.

Definition tr_col (row step : nat) : list ev :=
  tr_loop (tr_undo row step) (down 64 60) ++ tr_loop (tr_undo row step) (down 59 40) ++ tr_loop (tr_undo row step) (down 39 20) ++
  tr_loop (tr_undo row step) (down 19 0) ++ tr_loop (tr_redo row step) (seq 40 20) ++ tr_loop (tr_redo row step) (seq 60 20).
Lemma hasCollided_eq row step m1 dm s h :
  l_hasCollided row step m1 dm s h = (tr_col row step ++ [EBr (hasCollided step m1 dm s h)], Some (hasCollided step m1 dm s h)).
Proof.
  unfold l_hasCollided, hasCollided, tr_col. cbv zeta.
  rewrite (loop_eq _ _ _ (undo_eq row g_par K3 step m1 dm)), bind_some.
  rewrite (loop_eq _ _ _ (undo_eq row g_maj K2 step m1 dm)), bind_some.
  rewrite (loop_eq _ _ _ (undo_eq row g_par K1 step m1 dm)), bind_some.
  rewrite (loop_eq _ _ _ (undo_eq row g_ch K0 step m1 dm)), bind_some.
  rewrite (loop_eq _ _ _ (redo_eq row g_maj K2 step m1 dm)), bind_some.
  rewrite (loop_eq _ _ _ (redo_eq row g_par K3 step m1 dm)), bind_some.
  unfold test. cbn [fst snd]. rewrite <- !app_assoc. reflexivity.
Qed.

Lemma hasCollided_snd row step m1 dm s h : snd (l_hasCollided row step m1 dm s h) = Some (hasCollided step m1 dm s h).
Proof. rewrite hasCollided_eq. reflexivity. Qed.
Local Opaque l_hasCollided hasCollided tr_col.
Lemma checkLoop_snd dvs mask m1 cs h : forall row, snd (l_checkLoop row dvs mask m1 cs h) = checkLoop dvs mask m1 cs h.
Proof.
  induction dvs as [|dv r IH]; intros row; [reflexivity|]. cbn [l_checkLoop checkLoop]. rewrite snd_bind. cbn [snd obind].
  rewrite snd_bind. unfold test at 1. cbn [snd obind]. destruct (dvType dv =? 0); cbn [negb]; [reflexivity|].
  rewrite snd_bind. unfold test at 1. cbn [snd obind]. destruct (N.land mask (shl32 1 (maskB dv)) =? 0); cbn [negb]; [apply IH|].
  rewrite snd_bind. unfold test at 1. cbn [snd obind]. rewrite snd_bind.
  destruct (testT dv =? 58); [|rewrite snd_bind; unfold test at 1; cbn [snd obind];
    destruct (testT dv =? 65); [|rewrite snd_bind; unfold test at 1; cbn [snd obind]; destruct (testT dv =? 0); [|reflexivity]]];
  cbn [snd lret obind]; rewrite snd_bind, hasCollided_snd; cbn [obind]; rewrite snd_bind; unfold test; cbn [snd obind];
  (destruct (hasCollided _ _ _ _ _); [reflexivity|apply IH]).
Qed.
Local Opaque l_CalculateDvMask CalculateDvMask dvs_go.
Lemma checkCollision_snd m1 cs h : snd (l_checkCollision m1 cs h) = checkCollision m1 cs h.
Proof.
  unfold l_checkCollision, checkCollision. rewrite snd_bind, mask_snd. cbn [obind]. generalize (CalculateDvMask (Some m1)). intros mask.
  rewrite snd_bind. unfold test. cbn [snd obind]. destruct (mask =? 0); cbn [negb]; [reflexivity|apply checkLoop_snd].
Qed.

Definition tr_load (off i : nat) : list ev :=
  [EIx AP (off + i * 4); EIx AP (off + (i * 4 + 1)); EIx AP (off + (i * 4 + 2)); EIx AP (off + (i * 4 + 3)); EIx AW i;
   EIx AW (Nat.land i 15); EIx AW (Nat.land i 15); EIx AM1 i].
Lemma body_load_eq off p x i : l_body_load off p x i = (tr_load off i, Some (body_load p x i)).
Proof. reflexivity. Qed.
Definition tr_mix (at_ : option nat) (i : nat) : list ev :=
  (match at_ with Some n => [EBr (i =? n)%nat] | None => [] end) ++
  [EIx AW (Nat.land (i - 3) 15); EIx AW (Nat.land (i - 8) 15); EIx AW (Nat.land (i - 14) 15); EIx AW (Nat.land i 15); EIx AW (Nat.land i 15);
   EIx AW (Nat.land i 15); EIx AW (Nat.land i 15); EIx AM1 i].
Lemma body_mix_eq f K at_ save x i : l_body_mix f K at_ save x i = (tr_mix at_ i, Some (body_mix f K save x i)).
Proof. destruct at_; reflexivity. Qed.
Definition tr_pass (off : nat) : list ev :=
  tr_loop (tr_load off) (seq 0 16) ++ tr_loop (tr_mix None) (seq 16 4) ++ tr_loop (tr_mix None) (seq 20 20) ++
  tr_loop (tr_mix (Some 58%nat)) (seq 40 20) ++ tr_loop (tr_mix (Some 65%nat)) (seq 60 20).
Lemma l_pass_eq off p h w m1 cs : l_pass off p h w m1 cs = (tr_pass off, Some (g_pass p h w m1 cs)).
Proof.
  unfold l_pass, g_pass, tr_pass. cbv zeta.
  rewrite (loop_eq _ _ _ (body_load_eq off p)), bind_some. rewrite (loop_eq _ _ _ (body_mix_eq g_ch K0 None save_none)), bind_some.
  rewrite (loop_eq _ _ _ (body_mix_eq g_par K1 None save_none)), bind_some. rewrite (loop_eq _ _ _ (body_mix_eq g_maj K2 (Some 58%nat) save58)), bind_some.
  rewrite (loop_eq _ _ _ (body_mix_eq g_par K3 (Some 65%nat) save65)). cbn [fst snd]. reflexivity.
Qed.

Local Opaque l_pass g_pass tr_pass l_checkCollision checkCollision.
Lemma rehash_snd : forall fuel off p hi h w m1 cs col, snd (l_rehash fuel off p hi h w m1 cs col) = g_rehash fuel p hi h w m1 cs col.
Proof.
  induction fuel as [|fuel IH]; intros off p hi h w m1 cs col; cbn [l_rehash g_rehash]; [reflexivity|].
  rewrite l_pass_eq, bind_some. cbn [snd]. generalize (g_pass p h w m1 cs). intros x. cbv zeta.
  rewrite snd_bind. unfold test at 1. cbn [snd obind]. destruct (hi =? 2)%nat; [apply IH|].
  rewrite snd_bind. unfold test at 1. cbn [snd obind]. destruct (hi =? 1)%nat; [|reflexivity].
  rewrite snd_bind, checkCollision_snd. destruct (checkCollision (pm x) (pcs x) (addst h (ps x))) as [c|]; [|reflexivity]. cbn [obind].
  rewrite snd_bind. unfold test. cbn [snd obind]. destruct c; [apply IH|reflexivity].
Qed.
Lemma blocks_snd : forall fuel off p h w cs col, snd (l_blocks fuel off p h w cs col) = g_blocks fuel p h w cs col.
Proof.
  induction fuel as [|fuel IH]; intros off p h w cs col; cbn [l_blocks g_blocks]; rewrite snd_bind; unfold test; cbn [snd obind];
    destruct (64 <=? length p)%nat; try reflexivity.
  rewrite snd_bind, rehash_snd. destruct (g_rehash 3 p 1 h w (repeat 0 80) cs col) as [[[[h1 w1] cs1] col1]|]; [|reflexivity]. cbn [obind]. apply IH.
Qed.
Lemma block_snd d p : snd (l_blockGeneric d p) = blockGeneric d p.
Proof.
  unfold l_blockGeneric, blockGeneric. rewrite snd_bind, blocks_snd. destruct (g_blocks _ _ _ _ _ _) as [[h col]|]; reflexivity.
Qed.
(** ** Two runs side by side *)

(** [follows m m' Q]: if the two traces agree as far as they go, they are equal and the results are related by [Q]. *)
Definition follows {A B} (m : lk A) (m' : lk B) (Q : A -> B -> Prop) : Prop :=
  forall x y, fst m ++ x = fst m' ++ y -> fst m = fst m' /\ x = y /\
    match snd m, snd m' with Some a, Some b => Q a b | None, None => True | _, _ => False end.

Lemma fl_bind {A B C D} (m : lk A) (m' : lk B) Q (f : A -> lk C) (f' : B -> lk D) R :
  follows m m' Q -> (forall a b, snd m = Some a -> snd m' = Some b -> fst m = fst m' -> Q a b -> follows (f a) (f' b) R) -> follows (lbind m f) (lbind m' f') R.
Proof.
  intros H K x y. destruct m as [t o], m' as [t' o']. unfold lbind. cbn [fst snd] in *.
  destruct o as [a|], o' as [b|]; cbn [fst snd]; intros E.
  - rewrite <- !app_assoc in E. destruct (H _ _ E) as (E1 & E2 & E3). cbn [snd] in E3.
    destruct (K a b eq_refl eq_refl E1 E3 _ _ E2) as (F1 & F2 & F3). cbn [fst] in E1. rewrite E1, F1. auto.
  - rewrite <- app_assoc in E. destruct (H _ _ E) as (_ & _ & []).
  - rewrite <- app_assoc in E. destruct (H _ _ E) as (_ & _ & []).
  - destruct (H _ _ E) as (E1 & E2 & _). auto.
Qed.
Lemma fl_const {A B} t (a : A) (b : B) (Q : A -> B -> Prop) : Q a b -> follows (t, Some a) (t, Some b) Q.
Proof. intros H x y E. cbn [fst snd] in *. split; [reflexivity|]. split; [exact (app_inv_head _ _ _ E)|exact H]. Qed.
Lemma fl_ret {A B} (a : A) (b : B) (Q : A -> B -> Prop) : Q a b -> follows (lret a) (lret b) Q.
Proof. apply fl_const. Qed.
Lemma fl_panic {A B} (Q : A -> B -> Prop) : follows lpanic lpanic Q.
Proof. intros x y E. cbn in *. auto. Qed.
Lemma fl_test c c' : follows (test c) (test c') (fun a b => a = c /\ b = c /\ c' = c).
Proof. intros x y E. cbn in E. injection E as -> ->. cbn. auto. Qed.
Lemma fl_weak {A B} (m : lk A) (m' : lk B) (Q R : A -> B -> Prop) : follows m m' Q ->
  (forall a b, snd m = Some a -> snd m' = Some b -> fst m = fst m' -> Q a b -> R a b) -> follows m m' R.
Proof.
  intros H K x y E. destruct (H x y E) as (E1 & E2 & E3). split; [exact E1|]. split; [exact E2|].
  destruct (snd m) as [a|] eqn:Ea, (snd m') as [b|] eqn:Eb; auto.
Qed.

Lemma fl_ueval W W' mask mask' e : follows (l_ueval W mask e) (l_ueval W' mask' e) (fun _ _ => True).
Proof.
  induction e; cbn [l_ueval]; try (apply fl_ret; exact I); try (apply fl_const; exact I);
  try (eapply fl_bind; [eassumption|]; intros; eapply fl_bind; [eassumption|]; intros; apply fl_ret; exact I);
  try (eapply fl_bind; [eassumption|]; intros; apply fl_ret; exact I).
  - eapply fl_bind; [eassumption|]; intros. eapply fl_bind; [apply fl_test|]. intros; apply fl_ret; exact I.
  - eapply fl_bind; [eassumption|]; intros a b _ _ _ _. eapply fl_bind; [apply fl_test|]. intros c c' _ _ _ (-> & -> & E).
    destruct (negb (a =? 0)); [apply fl_ret; exact I|]. eapply fl_bind; [eassumption|]; intros. apply fl_ret; exact I.
Qed.
Lemma fl_urun W W' p : forall mask mask', follows (l_urun W p mask) (l_urun W' p mask') (fun _ _ => True).
Proof.
  induction p; intros mask mask'; cbn [l_urun]; [apply fl_ret; exact I| |].
  - eapply fl_bind; [apply fl_ueval|]. intros. apply IHp.
  - eapply fl_bind; [apply fl_ueval|]. intros a b _ _ _ _. eapply fl_bind; [apply fl_test|]. intros z z' _ _ _ (-> & -> & E).
    eapply fl_bind with (Q := fun _ _ => True); [|intros; apply IHp2]. destruct (negb (a =? 0)); [apply IHp1|apply fl_ret; exact I].
Qed.
Local Transparent l_CalculateDvMask.
Lemma fl_mask W W' : follows (l_CalculateDvMask (Some W)) (l_CalculateDvMask (Some W')) (fun _ _ => True).
Proof. unfold l_CalculateDvMask. eapply fl_bind; [apply fl_test|]. intros. apply fl_urun. Qed.
Local Opaque l_CalculateDvMask.

Fixpoint same_bits (dvs : list dvinfo) (mask mask' : word) : Prop :=
  match dvs with
  | [] => True
  | dv :: r => if dvType dv =? 0 then True else
      (N.land mask (shl32 1 (maskB dv)) =? 0) = (N.land mask' (shl32 1 (maskB dv)) =? 0) /\ same_bits r mask mask'
  end.
Lemma fl_hasCollided row step m1 m1' dm s s' h h' : follows (l_hasCollided row step m1 dm s h) (l_hasCollided row step m1' dm s' h') eq.
Proof.
  rewrite !hasCollided_eq. intros x y E. cbn [fst snd] in *. rewrite <- !app_assoc in E. apply app_inv_head in E. cbn [app] in E.
  injection E as E ->. rewrite E. auto.
Qed.
Lemma negb_eq a b : negb a = negb b -> a = b. Proof. destruct a, b; auto. Qed.
Lemma fl_checkLoop mask mask' m1 m1' cs cs' h h' dvs : forall row,
  follows (l_checkLoop row dvs mask m1 cs h) (l_checkLoop row dvs mask' m1' cs' h') (fun c c' => c = c' /\ (c = false -> same_bits dvs mask mask')).
Proof.
  induction dvs as [|dv r IH]; intros row; cbn [l_checkLoop same_bits]; [apply fl_panic|].
  eapply fl_bind; [apply fl_const with (Q := fun _ _ => True); exact I|]. intros _ _ _ _ _ _.
  eapply fl_bind; [apply fl_test|]. intros z z' _ _ _ (-> & -> & _). destruct (dvType dv =? 0); cbn [negb]; [apply fl_ret; auto|].
  eapply fl_bind; [apply fl_test|]. intros z z' _ _ _ (-> & -> & E0). apply negb_eq in E0.
  destruct (N.land mask (shl32 1 (maskB dv)) =? 0); cbn [negb].
  { eapply fl_weak; [apply IH|]. intros a b _ _ _ [-> K]. split; [reflexivity|]. auto. }
  eapply fl_bind; [apply fl_test|]. intros z z' _ _ _ (-> & -> & _).
  eapply fl_bind with (Q := fun _ _ => True).
  { destruct (testT dv =? 58); [apply fl_ret; exact I|]. eapply fl_bind; [apply fl_test|]. intros z z' _ _ _ (-> & -> & _).
    destruct (testT dv =? 65); [apply fl_ret; exact I|]. eapply fl_bind; [apply fl_test|]. intros z z' _ _ _ (-> & -> & _).
    destruct (testT dv =? 0); [apply fl_ret; exact I|apply fl_panic]. }
  intros s s' _ _ _ _. eapply fl_bind; [apply fl_hasCollided|]. intros c ? _ _ _ <-.
  eapply fl_bind; [apply fl_test|]. intros ? ? _ _ _ (-> & -> & _). destruct c; [apply fl_ret; split; [reflexivity|discriminate]|].
  eapply fl_weak; [apply IH|]. intros a b _ _ _ [-> K]. split; [reflexivity|]. auto.
Qed.

Lemma same_bits_eq mask mask' : wf mask -> wf mask' -> same_bits dvs_go mask mask' -> mask = mask'.
Proof.
  intros H H' S0. rewrite dvs_go_eq in S0.
  assert (K : forall n a, (a + n = 32)%nat -> same_bits (map expected_entry (seq a n) ++ [terminator]) mask mask' ->
    forall d, (a <= d < 32)%nat -> N.testbit mask (N.of_nat d) = N.testbit mask' (N.of_nat d)).
  { induction n as [|n IH]; intros a Ha Q d Hd; [lia|]. cbn [seq map app same_bits] in Q.
    assert (Ty : (dvType (expected_entry a) =? 0) = false) by (unfold expected_entry; cbn [dvType]; destruct (dty (the_dv a)); reflexivity).
    rewrite Ty in Q. destruct Q as [Q1 Q2]. change (maskB (expected_entry a)) with (N.of_nat a) in Q1.
    destruct (Nat.eq_dec d a) as [->|Ne]; [|apply (IH (S a)); [lia|exact Q2|lia]].
    rewrite !mask_bit_test in Q1 by lia. apply negb_eq in Q1. exact Q1. }
  specialize (K 32%nat 0%nat eq_refl S0). apply N.bits_inj. intros i.
  destruct (N.lt_ge_cases i 32) as [L|L].
  - specialize (K (N.to_nat i) ltac:(lia)). rewrite N2Nat.id in K. exact K.
  - rewrite (proj1 (wf_bits mask)), (proj1 (wf_bits mask')) by assumption. reflexivity.
Qed.

Lemma fst_test {B} c (f : bool -> lk B) : fst (lbind (test c) f) = EBr c :: fst (f c).
Proof. reflexivity. Qed.
Lemma fst_some {A B} t (a : A) (f : A -> lk B) : fst (lbind (t, Some a) f) = t ++ fst (f a).
Proof. reflexivity. Qed.
Lemma loop_quiet mask m1 m1' cs cs' h h' dvs : forall row, checkLoop dvs mask m1 cs h = Some false -> checkLoop dvs mask m1' cs' h' = Some false ->
  fst (l_checkLoop row dvs mask m1 cs h) = fst (l_checkLoop row dvs mask m1' cs' h').
Proof.
  induction dvs as [|dv r IH]; intros row H H'; [reflexivity|]. cbn [checkLoop l_checkLoop] in *. rewrite !fst_some. apply (f_equal (app _)).
  rewrite !fst_test. apply (f_equal (cons _)). destruct (dvType dv =? 0); cbn [negb]; [reflexivity|].
  rewrite !fst_test. apply (f_equal (cons _)).
  destruct (N.land mask (shl32 1 (maskB dv)) =? 0); cbn [negb]; [apply IH; assumption|].
  assert (K : forall s s', (if hasCollided (N.to_nat (testT dv)) m1 (dm dv) s h then Some true else checkLoop r mask m1 cs h) = Some false ->
    (if hasCollided (N.to_nat (testT dv)) m1' (dm dv) s' h' then Some true else checkLoop r mask m1' cs' h') = Some false ->
    fst (let* col := l_hasCollided row (N.to_nat (testT dv)) m1 (dm dv) s h in let* t := test col in
        if t then lret true else l_checkLoop (S row) r mask m1 cs h) =
    fst (let* col := l_hasCollided row (N.to_nat (testT dv)) m1' (dm dv) s' h' in let* t := test col in
        if t then lret true else l_checkLoop (S row) r mask m1' cs' h')).
  { intros s s' E E'. rewrite !hasCollided_eq, !fst_some. destruct (hasCollided _ m1 _ _ _); [discriminate|].
    destruct (hasCollided _ m1' _ _ _); [discriminate|]. apply (f_equal (app _)). rewrite !fst_test. apply (f_equal (cons _)). apply IH; assumption. }
  rewrite !fst_test. apply (f_equal (cons _)).
  destruct (testT dv =? 58); [cbn [obind] in *; unfold lret at 1 3; rewrite !fst_some; apply (f_equal (app _)); apply K; assumption|].
  destruct (testT dv =? 65).
  { match goal with |- fst (lbind ?a _) = fst (lbind ?b _) => change a with ([EBr true], Some (cs2 cs)); change b with ([EBr true], Some (cs2 cs')) end.
    rewrite !fst_some. apply (f_equal (app _)). apply K; assumption. }
  destruct (testT dv =? 0); [|discriminate].
  match goal with |- fst (lbind ?a _) = fst (lbind ?b _) => change a with ([EBr false; EBr true], Some (cs0 cs)); change b with ([EBr false; EBr true], Some (cs0 cs')) end.
  rewrite !fst_some. apply (f_equal (app _)). apply K; assumption.
Qed.

(** [exact ok m m' u u' R]: the traces agree if and only if [u] and [u'] do, as long as the results are [ok]. *)
Definition exactly {A} (ok : A -> Prop) (m m' : lk A) (u u' : list (list ev * word)) (R : A -> A -> Prop) : Prop :=
  follows m m' (fun a b => R a b /\ (ok a -> u = u')) /\
  (forall a b, snd m = Some a -> snd m' = Some b -> ok a -> ok b -> u = u' -> fst m = fst m' /\ R a b).
Lemma ex_bind {A B} (ok : A -> Prop) (ok2 : B -> Prop) (m m' : lk A) u u' R (f f' : A -> lk B) v v' R2 :
  exactly ok m m' u u' R -> (forall a b, snd m = Some a -> snd m' = Some b -> R a b -> exactly ok2 (f a) (f' b) v v' R2) ->
  (forall a c, snd m = Some a -> snd (f a) = Some c -> ok2 c -> ok a) -> (forall a c, snd m' = Some a -> snd (f' a) = Some c -> ok2 c -> ok a) ->
  length u = length u' -> exactly ok2 (lbind m f) (lbind m' f') (u ++ v) (u' ++ v') R2.
Proof.
  intros [H1 H2] H K K' L. split.
  - eapply fl_bind; [exact H1|]. intros a b Ea Eb _ [Rab Q]. destruct (H a b Ea Eb Rab) as [F _].
    eapply fl_weak; [exact F|]. intros c d Ec Ed _ [Rcd Q2]. split; [exact Rcd|]. intros O. rewrite (Q2 O), Q; [reflexivity|]. exact (K a c Ea Ec O).
  - intros c d Ec Ed Oc Od E. rewrite snd_bind in Ec, Ed.
    destruct (snd m) as [a|] eqn:Ea; [|discriminate]. destruct (snd m') as [b|] eqn:Eb; [|discriminate]. cbn [obind] in Ec, Ed.
    assert (U : u = u' /\ v = v').
    { clear - E L. revert u' E L. induction u as [|x u IH]; intros [|y u'] E L; try discriminate; [auto|]. cbn in E. injection E as <- E. cbn in L. injection L as L.
      destruct (IH u' E L) as [-> ->]. auto. }
    destruct U as [U V]. destruct (H2 a b eq_refl eq_refl (K a c eq_refl Ec Oc) (K' b d eq_refl Ed Od) U) as [T Rab].
    destruct (H a b eq_refl eq_refl Rab) as [_ F]. destruct (F c d Ec Ed Oc Od V) as [T2 Rcd]. split; [|exact Rcd].
    unfold lbind. rewrite Ea, Eb. cbn [fst]. rewrite T, T2. reflexivity.
Qed.
Lemma ex_const {A} (ok : A -> Prop) t a b (R : A -> A -> Prop) : R a b -> exactly ok (t, Some a) (t, Some b) [] [] R.
Proof. intros H. split; [apply fl_const; auto|]. intros a' b' Ea Eb _ _ _. cbn in Ea, Eb. injection Ea as <-. injection Eb as <-. auto. Qed.
(** A step with a constant trace. *)
Lemma ex_step {A B} (ok2 : B -> Prop) t (a b : A) (f f' : A -> lk B) v v' R2 :
  exactly ok2 (f a) (f' b) v v' R2 -> exactly ok2 (lbind (t, Some a) f) (lbind (t, Some b) f') v v' R2.
Proof.
  intros H. change v with ([] ++ v). change v' with ([] ++ v').
  apply (ex_bind (fun _ => True) ok2 _ _ [] [] (fun x y => x = a /\ y = b)); auto.
  - apply ex_const. auto.
  - intros x y Ex Ey [-> ->]. exact H.
Qed.
Lemma ex_weak {A} (ok : A -> Prop) (m m' : lk A) u u' (R R' : A -> A -> Prop) : exactly ok m m' u u' R ->
  (forall a b, snd m = Some a -> snd m' = Some b -> R a b -> R' a b) -> exactly ok m m' u u' R'.
Proof.
  intros [H1 H2] K. split.
  - eapply fl_weak; [exact H1|]. intros a b Ea Eb _ [Q1 Q2]. auto.
  - intros a b Ea Eb Oa Ob U. destruct (H2 a b Ea Eb Oa Ob U). auto.
Qed.
(** A step after which nothing is compared. *)
Lemma ex_last {A B} (ok : A -> Prop) (ok2 : B -> Prop) (m m' : lk A) u u' R (f f' : A -> lk B) R2 :
  exactly ok m m' u u' R -> (forall a b, snd m = Some a -> snd m' = Some b -> R a b -> exactly ok2 (f a) (f' b) [] [] R2) ->
  (forall a c, snd m = Some a -> snd (f a) = Some c -> ok2 c -> ok a) -> (forall a c, snd m' = Some a -> snd (f' a) = Some c -> ok2 c -> ok a) ->
  length u = length u' -> exactly ok2 (lbind m f) (lbind m' f') u u' R2.
Proof. intros. rewrite <- (app_nil_r u), <- (app_nil_r u'). eapply ex_bind; eassumption. Qed.

Lemma some_inj {A} (a b : A) : Some a = Some b -> a = b. Proof. congruence. Qed.
Lemma one_inj {A} (a b : A) : [a] = [b] -> a = b. Proof. congruence. Qed.
Lemma pair_inj {A B} (a a' : A) (b b' : B) : (a, b) = (a', b') -> a = a' /\ b = b'. Proof. intros E. injection E. auto. Qed.
Definition leak_of (W : list word) : list ev * word := (fst (l_CalculateDvMask (Some W)), CalculateDvMask (Some W)).
Local Transparent l_checkCollision checkCollision.
Lemma ex_checkCollision m1 m1' cs cs' h h' :
  exactly (fun c => c = false) (l_checkCollision m1 cs h) (l_checkCollision m1' cs' h') [leak_of m1] [leak_of m1'] eq.
Proof.
  split.
  - unfold l_checkCollision. eapply fl_bind; [apply fl_mask|]. intros mask mask' E E' T _.
    rewrite mask_snd in E, E'. apply some_inj in E. apply some_inj in E'.
    assert (W : wf mask) by (rewrite <- E; apply mask_go_wf). assert (W' : wf mask') by (rewrite <- E'; apply mask_go_wf).
    assert (Q : mask = mask' -> [leak_of m1] = [leak_of m1']) by (intros X; unfold leak_of; rewrite T, E, E', X; reflexivity).
    eapply fl_bind; [apply fl_test|]. intros z z' _ _ _ (-> & -> & Z). apply negb_eq in Z.
    destruct (N.eqb_spec mask 0) as [M|M]; cbn [negb].
    + apply fl_ret. split; [reflexivity|]. intros _. apply Q. symmetry in Z. destruct (N.eqb_spec mask' 0); congruence.
    + eapply fl_weak; [apply fl_checkLoop|]. intros c c' _ _ _ [-> X]. split; [reflexivity|]. intros O. apply Q. apply same_bits_eq; auto.
  - intros c c' Ec Ec' -> -> U. split; [|reflexivity]. apply one_inj in U. unfold leak_of in U. apply pair_inj in U. destruct U as [UT UM]. rewrite checkCollision_snd in Ec, Ec'. unfold checkCollision in Ec, Ec'.
    unfold l_checkCollision, lbind at 1 3. rewrite !mask_snd. cbn [fst]. rewrite UT. apply (f_equal (app _)).
    rewrite <- UM in *. cbv beta zeta in *. revert Ec Ec'. clear. generalize (CalculateDvMask (Some m1)). intros mask Ec Ec'. rewrite !fst_test. apply (f_equal (cons _)).
    destruct (mask =? 0); cbn [negb]; [reflexivity|]. apply loop_quiet; assumption.
Qed.
Local Opaque l_checkCollision checkCollision.

(** ** One block, many blocks *)
Definition traced (b : list byte) : list ev * word := leak_of (schedule (words_of b)).
Lemma traced_eq b : leak_of (schedule (words_of b)) = traced b. Proof. reflexivity. Qed.
Local Opaque leak_of traced go_decide schedule.

Definition rcol (r : st * list word * csarr * bool) : bool := snd r.
Lemma ex_rehash off p p' h h' w w' cs cs' col : (64 <= length p)%nat -> (64 <= length p')%nat -> wfst h -> wfst h' ->
  length w = 16%nat -> length w' = 16%nat ->
  exactly (fun r => rcol r = false) (l_rehash 3 off p 1 h w (repeat 0 80) cs col) (l_rehash 3 off p' 1 h' w' (repeat 0 80) cs' col)
    [traced (firstn 64 p)] [traced (firstn 64 p')] (fun r r' => rcol r = rcol r').
Proof.
  intros L L' H H' Lw Lw'.
  destruct (pass_eq p L h H w (repeat 0 80) cs Lw (repeat_length _ _)) as (E1 & _ & _ & _).
  destruct (pass_eq p' L' h' H' w' (repeat 0 80) cs' Lw' (repeat_length _ _)) as (E1' & _ & _ & _).
  cbn [l_rehash Nat.eqb Nat.add]. rewrite !l_pass_eq.
  set (x := g_pass p h w (repeat 0 80) cs) in *. set (x' := g_pass p' h' w' (repeat 0 80) cs') in *. clearbody x x'.
  apply ex_step. apply ex_step. apply ex_step. rewrite <- !traced_eq, <- E1, <- E1'.
  apply (ex_last (fun c => c = false) _ _ _ _ _ eq); [apply ex_checkCollision| | | |reflexivity].
  - intros c ? _ _ <-. apply ex_step. destruct c.
    + rewrite !l_pass_eq. apply ex_step. apply ex_step. rewrite !l_pass_eq. apply ex_step. apply ex_step. apply ex_step. apply ex_const. reflexivity.
    + apply ex_const. reflexivity.
  - intros c r _ E O. destruct c; [|reflexivity]. repeat first [rewrite l_pass_eq in E | rewrite snd_bind in E | progress cbn [snd obind test lret] in E].
    injection E as <-. discriminate.
  - intros c r _ E O. destruct c; [|reflexivity]. repeat first [rewrite l_pass_eq in E | rewrite snd_bind in E | progress cbn [snd obind test lret] in E].
    injection E as <-. discriminate.
Qed.

Lemma sticky bs : forall s, snd (cd_blocks go_decide s bs) = false -> snd s = false.
Proof.
  induction bs as [|b bs IH]; intros s E; [exact E|]. rewrite cd_blocks_cons in E. apply IH in E. cbn [snd] in E. apply orb_false_iff in E. apply E.
Qed.
Lemma ex_panic {A} (ok : A -> Prop) u u' R : exactly ok lpanic lpanic u u' R.
Proof. split; [apply fl_panic|]. intros a b E. discriminate. Qed.
Lemma ex_blocks : forall fuel off p p' h h' w w' cs cs' col, length p = length p' -> (length p <= fuel)%nat -> wfst h -> wfst h' ->
  length w = 16%nat -> length w' = 16%nat ->
  exactly (fun r => snd r = false) (l_blocks fuel off p h w cs col) (l_blocks fuel off p' h' w' cs' col)
    (map traced (blocks p)) (map traced (blocks p')) (fun r r' => snd r = snd r').
Proof.
  induction fuel as [|fuel IH]; intros off p p' h h' w w' cs cs' col L F H H' Lw Lw'; cbn [l_blocks]; rewrite <- L; apply ex_step;
    destruct (Nat.leb_spec 64 (length p)) as [G|G].
  - apply ex_panic.
  - rewrite !blocks_short by lia. apply ex_const. reflexivity.
  - rewrite (blocks_cons p), (blocks_cons p') by lia. cbn [map].
    change (traced (firstn 64 p) :: ?a) with ([traced (firstn 64 p)] ++ a). change (traced (firstn 64 p') :: ?a) with ([traced (firstn 64 p')] ++ a).
    destruct (rehash_eq p h w cs col G H Lw) as (w1 & cs1 & Lw1 & E1). destruct (rehash_eq p' h' w' cs' col ltac:(lia) H' Lw') as (w1' & cs1' & Lw1' & E1').
    set (M := words_of (firstn 64 p)) in *. set (M' := words_of (firstn 64 p')) in *.
    apply (ex_bind (fun r => rcol r = false) _ _ _ _ _ (fun r r' => rcol r = rcol r')); [apply ex_rehash; auto; lia| | | |reflexivity].
    + intros r r' Er Er' R. rewrite rehash_snd, E1 in Er. rewrite rehash_snd, E1' in Er'. apply some_inj in Er. apply some_inj in Er'. rewrite <- Er, <- Er' in *.
      unfold rcol in R. cbn [snd] in R. rewrite R. apply IH; try assumption; try apply wfst_cd_block; rewrite ?skipn_length; lia.
    + intros r c Er Ec O. rewrite rehash_snd, E1 in Er. apply some_inj in Er. rewrite <- Er in *. rewrite blocks_snd in Ec.
      rewrite g_blocks_eq in Ec by (try apply wfst_cd_block; rewrite ?skipn_length; auto; lia). apply some_inj in Ec. rewrite <- Ec in O. apply sticky in O. exact O.
    + intros r c Er Ec O. rewrite rehash_snd, E1' in Er. apply some_inj in Er. rewrite <- Er in *. rewrite blocks_snd in Ec.
      rewrite g_blocks_eq in Ec by (try apply wfst_cd_block; rewrite ?skipn_length; auto; lia). apply some_inj in Ec. rewrite <- Ec in O. apply sticky in O. exact O.
  - rewrite !blocks_short by lia. apply ex_const. reflexivity.
Qed.
Local Opaque l_blocks g_blocks.
Lemma blocks_length l : length (blocks l) = (length l / 64)%nat.
Proof. unfold blocks. generalize (length l / 64)%nat. intros n. revert l. induction n as [|n IHn]; intros l; cbn [cut length]; auto. Qed.
Lemma ex_block d d' p p' : length p = length p' -> wfst (dh d) -> wfst (dh d') -> dcol d = dcol d' ->
  exactly (fun r => dcol r = false) (l_blockGeneric d p) (l_blockGeneric d' p') (map traced (blocks p)) (map traced (blocks p')) (fun r r' => dcol r = dcol r').
Proof.
  intros L H H' C. unfold l_blockGeneric. rewrite <- L, <- C.
  apply (ex_last (fun r => snd r = false) _ _ _ _ _ (fun r r' => snd r = snd r')).
  - apply ex_blocks; auto.
  - intros r r' _ _ E. apply ex_const. exact E.
  - intros r c _ E O. apply some_inj in E. rewrite <- E in O. exact O.
  - intros r c _ E O. apply some_inj in E. rewrite <- E in O. exact O.
  - rewrite !map_length, !blocks_length, L. reflexivity.
Qed.

(** ** Write *)
Definition good (d : digest) : Prop := wfst (dh d) /\ length (dx d) = 64%nat /\ (dnx d < 64)%nat.
Lemma copy_n (d : list byte) k p : snd (copy_at d k p) = Nat.min (length d - k) (length p).
Proof. reflexivity. Qed.
Lemma blocks_whole p : blocks (firstn (64 * (length p / 64)) p) = blocks p.
Proof.
  assert (L : (64 * (length p / 64) <= length p)%nat) by (apply Nat.mul_div_le; discriminate).
  rewrite <- (firstn_skipn (64 * (length p / 64)) p) at 3. rewrite (blocks_app (length p / 64)) by (rewrite firstn_length; lia).
  rewrite (blocks_short (skipn _ _)), app_nil_r; [reflexivity|]. rewrite skipn_length.
  pose proof (Nat.div_mod (length p) 64 ltac:(discriminate)). pose proof (Nat.mod_upper_bound (length p) 64 ltac:(discriminate)). lia.
Qed.
Definition wcol (r : digest * list byte) : bool := dcol (fst r).
(** For any block function whose record is exact. *)
Section Build.
Variables (lblk : digest -> list byte -> lk digest) (blk : blockfn).
Hypothesis Hs : forall d p, snd (lblk d p) = blk d p.
Hypothesis Hok : block_ok blk.
Hypothesis Hex : forall d d' p p', length p = length p' -> wfst (dh d) -> wfst (dh d') -> dcol d = dcol d' ->
  exactly (fun r => dcol r = false) (lblk d p) (lblk d' p') (map traced (blocks p)) (map traced (blocks p')) (fun r r' => dcol r = dcol r').
Definition g_write_rest (d : digest) (p : list byte) (nn : nat) : option (digest * nat) :=
  do (d, p) <- write_blocks blk d p;
  Some ((if (0 <? length p)%nat then let '(x, n) := copy_at (dx d) 0 p in mkd (dh d) x n (dlen d) (dcol d) else d), nn).
Lemma write_blocks_snd d p : snd (l_write_blocks lblk d p) = write_blocks blk d p.
Proof.
  unfold l_write_blocks, write_blocks. rewrite snd_bind. unfold test. cbn [snd obind]. destruct (64 <=? length p)%nat; [|reflexivity]. cbv zeta.
  rewrite snd_bind. unfold lopt at 1. cbn [snd]. destruct (slice_to p _) as [q|]; [|reflexivity]. cbn [obind].
  rewrite snd_bind, Hs. destruct (blk d q); [|reflexivity]. cbn [obind].
  rewrite snd_bind. unfold lopt. cbn [snd]. destruct (slice_from p _); reflexivity.
Qed.
Lemma write_rest_snd d p nn : snd (l_write_rest lblk d p nn) = g_write_rest d p nn.
Proof.
  unfold l_write_rest, g_write_rest. rewrite snd_bind, write_blocks_snd. destruct (write_blocks blk d p) as [[d1 p1]|]; [|reflexivity].
  cbn [obind fst snd]. cbv zeta. rewrite snd_bind. unfold test. cbn [snd obind]. destruct (0 <? length p1)%nat; [|reflexivity].
  rewrite snd_bind. cbn [snd obind lret]. destruct (copy_at (dx d1) 0 p1). reflexivity.
Qed.
Lemma Write_snd d p : snd (l_Write lblk d p) = Write blk d p.
Proof.
  unfold l_Write, Write. rewrite snd_bind. unfold test at 1. cbn [snd obind]. destruct (length p =? 0)%nat; [reflexivity|]. cbv zeta.
  set (d0 := mkd _ _ _ _ _). rewrite snd_bind. unfold l_write_buf. rewrite snd_bind. unfold test at 1. cbn [snd obind].
  destruct (0 <? dnx d0)%nat; [|cbn [snd fst lret obind]; apply write_rest_snd].
  rewrite snd_bind. unfold lopt at 1. cbn [snd]. destruct (slice_from (dx d0) (dnx d0)); [|reflexivity]. cbn [obind]. cbv zeta.
  destruct (copy_at (dx d0) (dnx d0) p) as [x n]. cbn [fst snd]. rewrite snd_bind. cbn [snd obind]. rewrite snd_bind. unfold test at 1. cbn [snd obind].
  set (d1 := mkd _ _ _ _ _). destruct (dnx d1 =? 64)%nat.
  - rewrite snd_bind. rewrite (snd_bind (lblk _ _)), Hs. destruct (blk d1 (dx d1)) as [d2|]; [|reflexivity]. cbn [snd lret obind].
    rewrite snd_bind. unfold lopt at 1. cbn [snd]. destruct (slice_from p n) as [p2|]; [|reflexivity]. cbn [obind snd fst lret]. apply write_rest_snd.
  - rewrite snd_bind. cbn [snd lret obind]. rewrite snd_bind. unfold lopt at 1. cbn [snd]. destruct (slice_from p n) as [p2|]; [|reflexivity].
    cbn [obind snd fst lret]. apply write_rest_snd.
Qed.
Lemma checkSum_snd d : snd (l_checkSum lblk d) = checkSum blk d.
Proof.
  unfold l_checkSum, checkSum. rewrite snd_bind. unfold test at 1. cbn [snd obind]. cbv zeta.
  set (t := N.to_nat _). rewrite snd_bind. unfold lopt at 1. cbn [snd]. destruct (slice_to _ (t + 8)); [|reflexivity]. cbn [obind].
  rewrite snd_bind. cbn [snd obind]. rewrite snd_bind. unfold lopt at 1. cbn [snd]. destruct (slice_from _ t) as [r|]; [|reflexivity]. cbn [obind].
  rewrite snd_bind. unfold lopt at 1. cbn [snd]. destruct (slice_from r 8) as [r2|]; [|reflexivity]. cbn [obind].
  rewrite snd_bind, Write_snd. destruct (Write blk d _) as [[d1 n]|]; [|reflexivity]. cbn [obind].
  rewrite snd_bind. unfold test. cbn [snd obind]. destruct (dnx d1 =? 0)%nat; reflexivity.
Qed.
Lemma crs_snd d inp : snd (l_CollisionResistantSum lblk d inp) = CollisionResistantSum blk d inp.
Proof.
  unfold l_CollisionResistantSum, CollisionResistantSum. rewrite snd_bind, checkSum_snd. destruct (checkSum blk d) as [[d0 h]|]; [|reflexivity].
  cbn [obind]. rewrite snd_bind. reflexivity.
Qed.
Lemma ex_write_blocks d d' p p' : length p = length p' -> wfst (dh d) -> wfst (dh d') -> dcol d = dcol d' ->
  exactly (fun r => wcol r = false) (l_write_blocks lblk d p) (l_write_blocks lblk d' p') (map traced (blocks p)) (map traced (blocks p'))
    (fun r r' => wcol r = wcol r' /\ length (snd r) = length (snd r') /\ dx (fst r) = dx d /\ dx (fst r') = dx d').
Proof.
  intros L H H' C. unfold l_write_blocks. rewrite <- L. apply ex_step. destruct (Nat.leb_spec 64 (length p)) as [G|G].
  - assert (Q : (64 * (length p / 64) <= length p)%nat) by (apply Nat.mul_div_le; discriminate).
    change (64 - 1)%nat with 63%nat. rewrite ldiff63. cbv zeta. rewrite !slice_to_ok, !slice_from_ok by lia. apply ex_step.
    rewrite <- (blocks_whole p), <- (blocks_whole p'), <- L.
    apply (ex_last (fun r => dcol r = false) _ _ _ _ _ (fun r r' => dcol r = dcol r')).
    + apply Hex; auto. rewrite !firstn_length. lia.
    + intros r r' Er Er' E. rewrite Hs, Hok in Er, Er' by assumption. apply some_inj in Er. apply some_inj in Er'.
      apply ex_step. apply ex_const. cbn [fst snd wcol]. split; [exact E|]. rewrite !skipn_length, <- L, <- Er, <- Er'. auto.
    + intros r c _ E O. apply some_inj in E. rewrite <- E in O. exact O.
    + intros r c _ E O. apply some_inj in E. rewrite <- E in O. exact O.
    + rewrite !map_length, !blocks_length, !firstn_length, L. reflexivity.
  - rewrite !blocks_short by lia. apply ex_const. cbn [fst snd wcol]. auto.
Qed.
Definition ncol (r : digest * nat) : bool := dcol (fst r).
Lemma rest_col d p n r : snd (l_write_rest lblk d p n) = Some r -> ncol r = false -> exists r1, snd (l_write_blocks lblk d p) = Some r1 /\ wcol r1 = false.
Proof.
  unfold l_write_rest. rewrite snd_bind. destruct (snd (l_write_blocks lblk d p)) as [r1|]; [|discriminate]. cbn [obind]. cbv zeta. rewrite snd_bind. unfold test. cbn [snd obind].
  intros E O. exists r1. split; [reflexivity|]. destruct (0 <? length (snd r1))%nat.
  - apply some_inj in E. rewrite <- E in O. exact O.
  - apply some_inj in E. rewrite <- E in O. exact O.
Qed.
Lemma ex_write_rest d d' p p' n : length p = length p' -> wfst (dh d) -> wfst (dh d') -> dcol d = dcol d' -> length (dx d) = length (dx d') ->
  exactly (fun r => ncol r = false) (l_write_rest lblk d p n) (l_write_rest lblk d' p' n) (map traced (blocks p)) (map traced (blocks p')) (fun r r' => ncol r = ncol r').
Proof.
  intros L H H' C X. unfold l_write_rest.
  apply (ex_last (fun r => wcol r = false) _ _ _ _ _ (fun r r' => wcol r = wcol r' /\ length (snd r) = length (snd r') /\ dx (fst r) = dx d /\ dx (fst r') = dx d')).
  - apply ex_write_blocks; assumption.
  - intros r r' _ _ (E & E2 & E3 & E4). cbv zeta. rewrite <- E2. apply ex_step. destruct (0 <? length (snd r))%nat.
    + rewrite !copy_n, E3, E4, X, E2. apply ex_step. apply ex_const. exact E.
    + apply ex_const. exact E.
  - intros r c _ E O. cbv zeta in E. rewrite snd_bind in E. unfold test in E. cbn [snd obind] in E.
    destruct (0 <? length (snd r))%nat; apply some_inj in E; rewrite <- E in O; exact O.
  - intros r c _ E O. cbv zeta in E. rewrite snd_bind in E. unfold test in E. cbn [snd obind] in E.
    destruct (0 <? length (snd r))%nat; apply some_inj in E; rewrite <- E in O; exact O.
  - rewrite !map_length, !blocks_length, L. reflexivity.
Qed.
(** The block that is completed in the buffer, and what is left of the argument. *)
Definition fb (d : digest) (p : list byte) : list (list byte) :=
  if (0 <? dnx d)%nat then if (64 <=? dnx d + length p)%nat then [buffered d ++ firstn (64 - dnx d) p] else [] else [].
Definition fr (d : digest) (p : list byte) : list byte := if (0 <? dnx d)%nat then skipn (64 - dnx d) p else p.
Lemma fb_blocks d p : good d -> blocks (buffered d ++ p) = fb d p ++ blocks (fr d p).
Proof.
  intros (_ & X & N0). unfold fb, fr, buffered. destruct (Nat.ltb_spec 0 (dnx d)) as [G|G].
  - assert (LB : length (firstn (dnx d) (dx d)) = dnx d) by (rewrite firstn_length; lia).
    destruct (Nat.leb_spec 64 (dnx d + length p)) as [F|F].
    + rewrite blocks_cons by (rewrite app_length; lia). rewrite firstn_app, skipn_app, LB. rewrite firstn_all2, skipn_all2 by lia. reflexivity.
    + rewrite blocks_short by (rewrite app_length; lia). rewrite blocks_short by (rewrite skipn_length; lia). reflexivity.
  - replace (dnx d) with 0%nat by lia. reflexivity.
Qed.
Lemma ex_write_buf d d' p p' : length p = length p' -> good d -> good d' -> dnx d = dnx d' -> dcol d = dcol d' ->
  exactly (fun r => wcol r = false) (l_write_buf lblk d p) (l_write_buf lblk d' p') (map traced (fb d p)) (map traced (fb d' p'))
    (fun r r' => wcol r = wcol r' /\ snd r = fr d p /\ snd r' = fr d' p' /\ wfst (dh (fst r)) /\ wfst (dh (fst r')) /\ length (dx (fst r)) = 64%nat /\ length (dx (fst r')) = 64%nat).
Proof.
  intros L (H & X & N0) (H' & X' & N0') N1 C. unfold l_write_buf, fb, fr. rewrite <- N1, <- L. apply ex_step.
  destruct (Nat.ltb_spec 0 (dnx d)) as [G|G]; [|apply ex_const; cbn [fst snd]; auto 10].
  rewrite (slice_from_ok (dx d)), (slice_from_ok (dx d')) by lia. apply ex_step. cbv zeta. rewrite !copy_n, X, X', <- L. apply ex_step. cbn [dnx dx dh dlen dcol].
  set (n := Nat.min (64 - dnx d) (length p)).
  pose proof (copy_at_length (dx d) (dnx d) p ltac:(lia)) as XL. pose proof (copy_at_length (dx d') (dnx d) p' ltac:(lia)) as XL'.
  pose proof (copy_at_prefix (dx d) (dnx d) p ltac:(lia)) as XP. pose proof (copy_at_prefix (dx d') (dnx d) p' ltac:(lia)) as XP'.
  cbv zeta in XP, XP'. rewrite X in XL, XP. rewrite X', <- L in XP'. rewrite X' in XL'. fold n in XP, XP'.
  assert (FR : forall q : list byte, length q = length p -> slice_from q n = Some (skipn (64 - dnx d) q)).
  { intros q Lq. rewrite slice_from_ok by lia. f_equal. unfold n. destruct (Nat.le_gt_cases (64 - dnx d) (length p)).
    - rewrite Nat.min_l by lia. reflexivity.
    - rewrite Nat.min_r by lia. rewrite !skipn_all2 by lia. reflexivity. }
  rewrite (FR p), (FR p') by congruence. apply ex_step.
  destruct (Nat.leb_spec 64 (dnx d + length p)) as [F|F].
  - assert (Hn : n = (64 - dnx d)%nat) by lia. assert (E64 : (dnx d + n =? 64)%nat = true) by (apply Nat.eqb_eq; lia). rewrite E64.
    assert (Hn2 : (dnx d + n)%nat = 64%nat) by lia. rewrite Hn2, Hn in XP, XP'. rewrite firstn_all2 in XP, XP' by lia.
    unfold buffered. rewrite <- N1. rewrite <- XP, <- XP'.
    set (x := fst (copy_at (dx d) (dnx d) p)) in *. set (x' := fst (copy_at (dx d') (dnx d) p')) in *.
    rewrite <- (blocks_one x), <- (blocks_one x') by assumption.
    apply (ex_last (fun r => dcol r = false) _ _ _ _ _ (fun r r' => dcol r = dcol r' /\ wfst (dh r) /\ wfst (dh r') /\ length (dx r) = 64%nat /\ length (dx r') = 64%nat)).
    + apply (ex_last (fun r => dcol r = false) _ _ _ _ _ (fun r r' => dcol r = dcol r')).
      * apply Hex; auto; congruence.
      * intros r r' Er Er' E. rewrite Hs, Hok in Er, Er' by assumption. apply some_inj in Er. apply some_inj in Er'. apply ex_const.
        cbn [dcol dh dx]. split; [exact E|]. rewrite <- Er, <- Er'. unfold block_result. cbv zeta. cbn [dh dx].
        split; [apply wfst_cd_blocks; exact H|]. split; [apply wfst_cd_blocks; exact H'|]. auto.
      * intros r c _ E O. apply some_inj in E. rewrite <- E in O. exact O.
      * intros r c _ E O. apply some_inj in E. rewrite <- E in O. exact O.
      * rewrite !map_length, !blocks_length, XL, XL'. reflexivity.
    + intros r r' _ _ (E & K1 & K2 & K3 & K4). apply ex_step. apply ex_const. cbn [fst snd wcol]. auto 10.
    + intros r c _ E O. apply some_inj in E. rewrite <- E in O. exact O.
    + intros r c _ E O. apply some_inj in E. rewrite <- E in O. exact O.
    + rewrite !map_length, !blocks_length, XL, XL'. reflexivity.
  - assert (E64 : (dnx d + n =? 64)%nat = false) by (apply Nat.eqb_neq; lia). rewrite E64. apply ex_step. apply ex_step. apply ex_const. cbn [fst snd wcol dcol dh dx]. auto 10.
Qed.
Lemma hasher_good d : hasher d -> good d.
Proof. intros (A & B & C & _). repeat (split; [assumption|]). assumption. Qed.
Lemma good_wf d p r : good d -> snd (l_write_buf lblk d p) = Some r -> wfst (dh (fst r)).
Proof.
  intros G E. destruct (ex_write_buf d d p p eq_refl G G eq_refl eq_refl) as [F _]. destruct (F [] [] eq_refl) as (_ & _ & Q). rewrite E in Q. apply Q.
Qed.
Lemma write_rest_sticky d p n r : wfst (dh d) -> snd (l_write_rest lblk d p n) = Some r -> ncol r = false -> dcol d = false.
Proof.
  intros W E O. destruct (rest_col d p n r E O) as (r1 & E1 & O1). rewrite write_blocks_snd in E1. unfold write_blocks in E1.
  destruct (64 <=? length p)%nat; [|apply some_inj in E1; rewrite <- E1 in O1; exact O1].
  cbv zeta in E1. destruct (slice_to p _) as [q|]; [|discriminate]. cbn [obind] in E1. rewrite Hok in E1 by exact W. cbn [obind] in E1.
  destruct (slice_from p _); [|discriminate]. apply some_inj in E1. rewrite <- E1 in O1. unfold wcol, block_result in O1. cbn [fst dcol] in O1.
  apply sticky in O1. exact O1.
Qed.
Lemma ex_Write d d' p p' : length p = length p' -> good d -> good d' -> dnx d = dnx d' -> dlen d = dlen d' -> dcol d = dcol d' ->
  exactly (fun r => ncol r = false) (l_Write lblk d p) (l_Write lblk d' p') (map traced (blocks (buffered d ++ p))) (map traced (blocks (buffered d' ++ p'))) (fun r r' => ncol r = ncol r').
Proof.
  intros L G G' N1 L1 C. unfold l_Write. rewrite <- L, <- L1. apply ex_step. destruct (Nat.eqb_spec (length p) 0) as [Z|Z].
  - destruct p; [|discriminate]. destruct p'; [|discriminate]. rewrite !app_nil_r.
    rewrite !blocks_short by (unfold buffered; rewrite firstn_length; destruct G as (_ & _ & G), G' as (_ & _ & G'); lia). apply ex_const. exact C.
  - cbv zeta. set (n := (dlen d + N.of_nat (length p)) mod M64). set (e := mkd (dh d) (dx d) (dnx d) n (dcol d)). set (e' := mkd (dh d') (dx d') (dnx d') n (dcol d')).
    change (buffered d) with (buffered e). change (buffered d') with (buffered e').
    assert (Ge : good e) by exact G. assert (Ge' : good e') by exact G'. rewrite (fb_blocks e p Ge), (fb_blocks e' p' Ge'), !map_app.
    apply (ex_bind (fun r => wcol r = false) _ _ _ _ _
      (fun r r' => wcol r = wcol r' /\ snd r = fr e p /\ snd r' = fr e' p' /\ wfst (dh (fst r)) /\ wfst (dh (fst r')) /\ length (dx (fst r)) = 64%nat /\ length (dx (fst r')) = 64%nat)).
    + apply ex_write_buf; assumption.
    + intros r r' _ _ (E1 & E2 & E3 & E4 & E5 & E6 & E7). rewrite E2, E3. apply ex_write_rest; try assumption; [|congruence].
      unfold fr. cbn [dnx e e']. rewrite <- N1. destruct (0 <? dnx d)%nat; [rewrite !skipn_length; lia|exact L].
    + intros r c Er Ec O. apply (write_rest_sticky _ _ _ c (good_wf e p r Ge Er) Ec O).
    + intros r c Er Ec O. apply (write_rest_sticky _ _ _ c (good_wf e' p' r Ge' Er) Ec O).
    + rewrite !map_length. unfold fb. cbn [dnx e e']. rewrite <- N1, <- L. destruct (0 <? dnx d)%nat; [|reflexivity]. destruct (64 <=? dnx d + length p)%nat; reflexivity.
Qed.

Lemma hasher_rep d : hasher d -> exists L0, Rep (dh d, dcol d) L0 (buffered d) d.
Proof.
  intros (W & X & N0 & Lt & E). exists (dlen d - N.of_nat (dnx d)), [], 0%nat. split; [reflexivity|]. split; [reflexivity|].
  split; [exact N0|]. split; [exact X|]. split; [exact W|]. split; [reflexivity|].
  pose proof (N.div_mod (dlen d) 64 ltac:(discriminate)) as D. rewrite E in D.
  assert (LB : length (buffered d) = dnx d) by (unfold buffered; rewrite firstn_length; lia). rewrite LB. split.
  - replace (dlen d - N.of_nat (dnx d)) with (0 + (dlen d / 64) * 64) by lia. rewrite N.mod_add by discriminate. reflexivity.
  - replace (dlen d - N.of_nat (dnx d) + N.of_nat (dnx d)) with (dlen d) by lia. symmetry. apply N.mod_small. exact Lt.
Qed.
Lemma rest_app a b k : length a = (64 * k)%nat -> (length b < 64)%nat -> rest (a ++ b) = b.
Proof.
  intros La Lb. unfold rest. rewrite app_length, La. replace ((64 * k + length b) / 64)%nat with k.
  - rewrite skipn_app, La, Nat.sub_diag, skipn_O, skipn_all2 by lia. reflexivity.
  - rewrite Nat.mul_comm, Nat.add_comm, Nat.div_add by discriminate. rewrite Nat.div_small by exact Lb. reflexivity.
Qed.
Lemma hasher_Write d p : hasher d -> exists d', Write blk d p = Some (d', length p) /\ hasher d' /\
  buffered d' = rest (buffered d ++ p) /\ dlen d' = (dlen d + N.of_nat (length p)) mod M64 /\ dnx d' = length (rest (buffered d ++ p)) /\ (dcol d' = false -> dcol d = false).
Proof.
  intros H. destruct (hasher_rep d H) as [L0 R]. destruct (Write_ok blk Hok _ _ _ d p R) as (d' & E & R').
  exists d'. split; [exact E|]. pose proof (Rep_wf _ _ _ _ R') as W'.
  assert (Ln : dlen d = (L0 + N.of_nat (length (buffered d))) mod M64) by (destruct R as (A & k & _ & _ & _ & _ & _ & _ & _ & Q); exact Q).
  destruct R' as (A & k & HA & Hall & Hnx & Hx & Ws & Ec & H0 & Hl).
  assert (LB : length (buffered d') = dnx d') by (unfold buffered; rewrite firstn_length; lia).
  assert (B : buffered d' = rest (buffered d ++ p)) by (rewrite Hall; symmetry; apply (rest_app _ _ k); [exact HA|]; fold (buffered d'); lia).
  assert (Dl : dlen d' = (dlen d + N.of_nat (length p)) mod M64).
  { rewrite Hl, Ln, app_length, Nat2N.inj_add, N.add_assoc, N.add_mod_idemp_l by discriminate. reflexivity. }
  assert (Md : dlen d' mod 64 = N.of_nat (dnx d')).
  { rewrite Hl, Hall. change M64 with (64 * 288230376151711744). rewrite N.mod_mul_r by discriminate. rewrite (N.mul_comm 64 (_ mod _)), N.mod_add, N.mod_mod by discriminate.
    rewrite app_length, HA. fold (buffered d'). rewrite LB. apply N.mod_divide in H0; [|discriminate]. destruct H0 as [q0 ->].
    replace (q0 * 64 + N.of_nat (64 * k + dnx d')) with (N.of_nat (dnx d') + (q0 + N.of_nat k) * 64) by lia.
    rewrite N.mod_add by discriminate. apply N.mod_small. lia. }
  split; [|split; [exact B|split; [exact Dl|split; [rewrite <- B; auto|]]]].
  - split; [exact W'|]. split; [exact Hx|]. split; [exact Hnx|]. split; [rewrite Dl; apply N.mod_upper_bound; discriminate|exact Md].
  - intros O. assert (S0 : snd (cd_blocks go_decide (dh d, dcol d) (blocks A)) = false) by (rewrite <- Ec; exact O). apply sticky in S0. exact S0.
Qed.

(** ** Sum *)
Lemma padlen_eq d : let t := N.to_nat (if dlen d mod 64 <? 56 then 56 - dlen d mod 64 else 64 + 56 - dlen d mod 64) in
  dlen d < M64 -> (1 <= t <= 64)%nat /\
  firstn (t + 8) (firstn t (x80 :: repeat x00 71) ++ appendUint64 (shl64 (dlen d) 3) ++ skipn 8 (skipn t (x80 :: repeat x00 71))) = padding (dlen d).
Proof.
  intros tn Hlt. pose proof (padding_len (dlen d) Hlt) as Hpl. pose proof (N.mod_upper_bound (dlen d) 64 ltac:(discriminate)) as Hr.
  assert (Htn : (1 <= tn <= 64)%nat) by (unfold tn; destruct (N.ltb_spec (dlen d mod 64) 56); lia). split; [exact Htn|].
  rewrite N2Nat.inj_add in Hpl. fold tn in Hpl. change (N.to_nat 8) with 8%nat in Hpl. clearbody tn.
  rewrite app_assoc, firstn_app.
  rewrite firstn_all2 by (rewrite app_length, firstn_length; change (length (appendUint64 _)) with 8%nat; lia).
  rewrite app_length, firstn_length. cbn [length]. rewrite repeat_length.
  change (length (appendUint64 _)) with 8%nat.
  replace (tn + 8 - (Nat.min tn 72 + 8))%nat with 0%nat by lia. rewrite firstn_O, app_nil_r.
  rewrite shl64_3, appendUint64_be64. unfold padding. rewrite app_assoc. f_equal.
  assert (Hz : pad_zeros (dlen d) = (tn - 1)%nat).
  { unfold padding, zeros in Hpl. rewrite !app_length, repeat_length in Hpl.
    change (length [x80]) with 1%nat in Hpl. change (length (be64 _)) with 8%nat in Hpl. lia. }
  rewrite Hz. destruct tn as [|m]; [lia|]. cbn [firstn]. rewrite Nat.sub_succ, Nat.sub_0_r.
  cbn [app]. f_equal. unfold zeros. replace 71%nat with (m + (71 - m))%nat by lia.
  rewrite repeat_app, firstn_app, repeat_length, Nat.sub_diag, firstn_O, app_nil_r.
  apply firstn_all2. rewrite repeat_length. lia.
Qed.
Local Opaque l_Write Write.
Lemma ex_crs d d' inp inp' : length inp = length inp' -> hasher d -> hasher d' -> dnx d = dnx d' -> dlen d = dlen d' -> dcol d = dcol d' ->
  exactly (fun r => snd r = false) (l_CollisionResistantSum lblk d inp) (l_CollisionResistantSum lblk d' inp')
    (map traced (blocks (buffered d ++ padding (dlen d)))) (map traced (blocks (buffered d' ++ padding (dlen d')))) (fun r r' => snd r = snd r').
Proof.
  intros Li H H' N1 L1 C. assert (Lt : dlen d < M64) by apply H.
  unfold l_CollisionResistantSum. pose proof (padlen_eq d Lt) as P. cbv zeta in P. destruct P as [Pt P].
  assert (LP : length (buffered d ++ padding (dlen d)) = length (buffered d' ++ padding (dlen d'))).
  { rewrite !app_length, L1. unfold buffered. rewrite !firstn_length. destruct H as (_ & X & _), H' as (_ & X' & _). lia. }
  apply (ex_last (fun r => dcol (fst r) = false) _ _ _ _ _ (fun r r' => dcol (fst r) = dcol (fst r') /\ length (snd r) = length (snd r'))).
  - unfold l_checkSum. rewrite <- L1. apply ex_step. cbv zeta. set (t := N.to_nat _) in *. clearbody t.
    rewrite slice_to_ok by (cbn [length]; rewrite repeat_length; lia). apply ex_step. apply ex_step.
    rewrite slice_from_ok by (cbn [length]; rewrite repeat_length; lia). apply ex_step.
    rewrite slice_from_ok by (rewrite skipn_length; cbn [length]; rewrite repeat_length; lia). apply ex_step. rewrite P.
    destruct (hasher_Write d (padding (dlen d)) H) as (e & E1 & He & _ & _ & E2 & _).
    destruct (hasher_Write d' (padding (dlen d)) H') as (e' & E1' & He' & _ & _ & E2' & _).
    apply (ex_last (fun r => ncol r = false) _ _ _ _ _ (fun r r' => ncol r = ncol r')).
    + apply ex_Write; auto; apply hasher_good; assumption.
    + intros r r' Er Er' R. rewrite Write_snd, E1 in Er. rewrite Write_snd, E1' in Er'. apply some_inj in Er. apply some_inj in Er'. rewrite <- Er, <- Er' in *.
      assert (En : dnx e = dnx e').
      { rewrite E2, E2'. unfold rest. rewrite !skipn_length. rewrite <- L1 in LP. rewrite LP. reflexivity. }
      rewrite En. apply ex_step. destruct (negb _); [apply ex_panic|]. apply ex_const. cbn [fst snd]. split; [exact R|reflexivity].
    + intros r c _ Ec O. destruct r as [e1 n1]. unfold test in Ec. rewrite snd_bind in Ec. cbn [snd obind] in Ec.
      destruct (negb _); [discriminate|]. apply some_inj in Ec. rewrite <- Ec in O. exact O.
    + intros r c _ Ec O. destruct r as [e1 n1]. unfold test in Ec. rewrite snd_bind in Ec. cbn [snd obind] in Ec.
      destruct (negb _); [discriminate|]. apply some_inj in Ec. rewrite <- Ec in O. exact O.
    + rewrite !map_length, !blocks_length. rewrite <- L1 in LP. rewrite LP. reflexivity.
  - intros [e hs] [e' hs'] _ _ [E1 E2]. cbn [fst snd] in *. rewrite Li, E2. apply ex_step. apply ex_const. exact E1.
  - intros [e hs] c _ Ec O. apply some_inj in Ec. rewrite <- Ec in O. exact O.
  - intros [e hs] c _ Ec O. apply some_inj in Ec. rewrite <- Ec in O. exact O.
  - rewrite !map_length, !blocks_length, LP. reflexivity.
Qed.

(** ** Sessions *)
Lemma session_sticky os : forall d r, hasher d -> snd (l_session lblk d os) = Some r -> dcol (fst r) = false -> dcol d = false.
Proof.
  induction os as [|[p|i] os IH]; intros d r H E O; cbn [l_session] in E.
  - apply some_inj in E. rewrite <- E in O. exact O.
  - rewrite snd_bind, Write_snd in E. destruct (hasher_Write d p H) as (e & E1 & He & _ & _ & _ & K). rewrite E1 in E. cbn [obind fst] in E. apply K. exact (IH e r He E O).
  - rewrite snd_bind in E. destruct (snd (l_CollisionResistantSum lblk d i)); [|discriminate]. cbn [obind] in E. rewrite snd_bind in E.
    destruct (snd (l_session lblk d os)) as [r1|] eqn:Er; [|discriminate]. apply some_inj in E. rewrite <- E in O. cbn [fst] in O. exact (IH d r1 H Er O).
Qed.
Lemma fed_length os os' : same_calls os os' -> forall b b' n, length b = length b' -> length (fed b n os) = length (fed b' n os').
Proof.
  induction 1 as [|o o' os os' S0 _ IH]; intros b b' n L; [reflexivity|]. destruct o as [p|i], o' as [p'|i']; cbn [same_call] in S0; try contradiction; cbn [fed]; rewrite !app_length, !blocks_length, !app_length, L.
  - rewrite S0. f_equal. apply IH. unfold rest. rewrite !skipn_length, !app_length. lia.
  - f_equal. apply IH. exact L.
Qed.
Local Opaque l_CollisionResistantSum.
Definition verdicts (r : digest * list (list byte * bool)) : list bool := dcol (fst r) :: map snd (snd r).
Theorem ex_session os os' : same_calls os os' -> forall d d', hasher d -> hasher d' -> dnx d = dnx d' -> dlen d = dlen d' -> dcol d = dcol d' ->
  exactly quiet (l_session lblk d os) (l_session lblk d' os') (map traced (fed (buffered d) (dlen d) os)) (map traced (fed (buffered d') (dlen d') os')) (fun r r' => verdicts r = verdicts r').
Proof.
  induction 1 as [|o o' os os' S0 SS IH]; intros d d' H H' N1 L1 C; [apply ex_const; unfold verdicts; cbn [fst snd map]; rewrite C; reflexivity|].
  assert (LB : length (buffered d) = length (buffered d')).
  { unfold buffered. rewrite !firstn_length. destruct H as (_ & X & _), H' as (_ & X' & _). lia. }
  destruct o as [p|i], o' as [p'|i']; cbn [same_call] in S0; try contradiction; cbn [l_session fed]; rewrite !map_app.
  - destruct (hasher_Write d p H) as (e & E1 & He & B & D & Nx & K). destruct (hasher_Write d' p' H') as (e' & E1' & He' & B' & D' & Nx' & K').
    assert (Nn : dnx e = dnx e') by (rewrite Nx, Nx'; unfold rest; rewrite !skipn_length, !app_length; lia).
    apply (ex_bind (fun r => ncol r = false) _ _ _ _ _ (fun r r' => ncol r = ncol r')).
    + apply ex_Write; auto; apply hasher_good; assumption.
    + intros r r' Er Er' R. rewrite Write_snd, E1 in Er. rewrite Write_snd, E1' in Er'. apply some_inj in Er. apply some_inj in Er'. rewrite <- Er, <- Er' in *. cbn [fst].
      rewrite <- B, <- B', <- D, <- D'. apply IH; auto; congruence.
    + intros r c Er Ec O. rewrite Write_snd, E1 in Er. apply some_inj in Er. rewrite <- Er in *. cbn [fst] in Ec. exact (session_sticky os e c He Ec (proj1 O)).
    + intros r c Er Ec O. rewrite Write_snd, E1' in Er. apply some_inj in Er. rewrite <- Er in *. cbn [fst] in Ec. exact (session_sticky os' e' c He' Ec (proj1 O)).
    + rewrite !map_length, !blocks_length, !app_length, LB, S0. reflexivity.
  - apply (ex_bind (fun r => snd r = false) _ _ _ _ _ (fun r r' => snd r = snd r')).
    + apply ex_crs; assumption.
    + intros x x' _ _ Sx. apply (ex_last quiet _ _ _ _ _ (fun r r' => verdicts r = verdicts r')).
      * apply IH; assumption.
      * intros r r' _ _ V. apply ex_const. unfold verdicts in *. cbn [fst snd map]. injection V as V1 V2. rewrite V1, V2, Sx. reflexivity.
      * intros r c _ Ec O. apply some_inj in Ec. rewrite <- Ec in O. destruct O as [O1 O2]. inversion O2. split; assumption.
      * intros r c _ Ec O. apply some_inj in Ec. rewrite <- Ec in O. destruct O as [O1 O2]. inversion O2. split; assumption.
      * rewrite !map_length. rewrite L1. apply fed_length; assumption.
    + intros x c _ Ec O. rewrite snd_bind in Ec. destruct (snd (l_session lblk d os)); [|discriminate]. apply some_inj in Ec. rewrite <- Ec in O.
      destruct O as [_ O]. inversion O. assumption.
    + intros x c _ Ec O. rewrite snd_bind in Ec. destruct (snd (l_session lblk d' os')); [|discriminate]. apply some_inj in Ec. rewrite <- Ec in O.
      destruct O as [_ O]. inversion O. assumption.
    + rewrite !map_length, !blocks_length, !app_length, LB, L1. reflexivity.
Qed.

(** ** The theorems *)
Lemma session_snd os : forall d, snd (l_session lblk d os) = session blk d os.
Proof.
  induction os as [|[p|i] os IH]; intros d; cbn [l_session session]; [reflexivity| |].
  - rewrite snd_bind, Write_snd. destruct (Write blk d p) as [[e n]|]; [|reflexivity]. cbn [obind fst]. apply IH.
  - rewrite snd_bind, crs_snd. destruct (CollisionResistantSum blk d i) as [x|]; [|reflexivity]. cbn [obind]. rewrite snd_bind, IH.
    destruct (session blk d os) as [[e xs]|]; reflexivity.
Qed.
Lemma crs_some d i : hasher d -> exists x, CollisionResistantSum blk d i = Some x.
Proof.
  intros H. destruct (hasher_rep d H) as [L0 R]. destruct (checkSum_ok blk Hok _ _ _ d R) as (e & E & _).
  unfold CollisionResistantSum. rewrite E. eexists. reflexivity.
Qed.
Lemma session_some os : forall d, hasher d -> exists r, session blk d os = Some r.
Proof.
  induction os as [|[p|i] os IH]; intros d H; cbn [session]; [eexists; reflexivity| |].
  - destruct (hasher_Write d p H) as (e & E & He & _). rewrite E. cbn [obind]. apply IH. exact He.
  - destruct (crs_some d i H) as [x ->]. cbn [obind]. destruct (IH d H) as [[e xs] ->]. eexists. reflexivity.
Qed.
Theorem s_leak_erase d os : hasher d -> exists r, snd (l_session lblk d os) = Some r /\ session blk d os = Some r.
Proof. intros H. rewrite session_snd. destruct (session_some os d H) as [r E]. exists r. auto. Qed.

(** The trace of CalculateDvMask and its path. *)
Local Transparent l_CalculateDvMask.
Lemma ueval_fst {B} W mask e (f : word -> lk B) : fst (lbind (l_ueval W mask e) f) = fst (l_ueval W mask e) ++ fst (f (ueval W mask e)).
Proof. unfold lbind. rewrite ueval_snd. reflexivity. Qed.
Lemma urun_fst {B} W p mask (f : word -> lk B) : fst (lbind (l_urun W p mask) f) = fst (l_urun W p mask) ++ fst (f (urun W p mask)).
Proof. unfold lbind. rewrite urun_snd. reflexivity. Qed.
Lemma asked_trace W W' e : forall mask mask' s s', asked W mask e ++ s = asked W' mask' e ++ s' ->
  fst (l_ueval W mask e) = fst (l_ueval W' mask' e) /\ s = s'.
Proof.
  induction e; intros mask mask' s s' E; cbn [asked] in E; cbn [l_ueval]; rewrite ?ueval_fst;
    try (split; [reflexivity|exact E]); rewrite <- ?app_assoc in E;
    try (apply IHe1 in E; destruct E as [T1 E]; apply IHe2 in E; destruct E as [T2 E]; split; [|exact E]; rewrite T1, T2; reflexivity).
  - apply IHe in E. destruct E as [T E]. split; [|exact E]. rewrite T. reflexivity.
  - apply IHe in E. destruct E as [T E]. cbn [app] in E. injection E as B E. split; [|exact E]. rewrite !fst_test, T, B. reflexivity.
  - apply IHe1 in E. destruct E as [T1 E]. rewrite !fst_test. destruct (ueval W mask e1 =? 0), (ueval W' mask' e1 =? 0); cbn [negb]; try discriminate.
    + injection E as E. apply IHe2 in E. destruct E as [T2 E]. split; [|exact E]. rewrite !ueval_fst, T1, T2. reflexivity.
    + injection E as E. split; [|exact E]. rewrite T1. reflexivity.
Qed.
Lemma path_trace W W' p : forall mask mask' s s', path W p mask ++ s = path W' p mask' ++ s' ->
  fst (l_urun W p mask) = fst (l_urun W' p mask') /\ s = s'.
Proof.
  induction p as [|e p IH|c b IHb p IH]; intros mask mask' s s' E; cbn [path] in E; cbn [l_urun]; rewrite ?ueval_fst; rewrite <- ?app_assoc in E.
  - split; [reflexivity|exact E].
  - apply asked_trace in E. destruct E as [T E]. apply IH in E. destruct E as [T2 E]. rewrite T, T2. split; [reflexivity|exact E].
  - apply asked_trace in E. destruct E as [T E]. rewrite !fst_test, T. destruct (ueval W mask c =? 0), (ueval W' mask' c =? 0); cbn [negb]; try discriminate.
    + injection E as E. apply IH in E. destruct E as [T2 E]. unfold lret. rewrite !fst_some. cbn [app]. rewrite T2. split; [reflexivity|exact E].
    + injection E as E. rewrite <- !app_assoc in E. apply IHb in E. destruct E as [T2 E]. apply IH in E. destruct E as [T3 E].
      rewrite !urun_fst, T2, T3. split; [reflexivity|exact E].
Qed.
Definition brs (t : list ev) : list bool := flat_map (fun e => match e with EBr b => [b] | _ => [] end) t.
Lemma brs_app s t : brs (s ++ t) = brs s ++ brs t. Proof. apply flat_map_app. Qed.
Lemma asked_brs W e : forall mask, brs (fst (l_ueval W mask e)) = asked W mask e.
Proof.
  induction e; intros mask; cbn [asked l_ueval]; rewrite ?ueval_fst, ?brs_app, ?IHe, ?IHe1; try reflexivity;
    try (rewrite IHe2; f_equal; apply app_nil_r).
  - apply app_nil_r.
  - f_equal. rewrite fst_test. destruct (ueval W mask e1 =? 0); cbn [negb]; [|reflexivity].
    change (brs (EBr false :: ?x)) with (false :: brs x). rewrite ueval_fst, brs_app, IHe2. f_equal. apply app_nil_r.
Qed.
Lemma path_brs W p : forall mask, brs (fst (l_urun W p mask)) = path W p mask.
Proof.
  induction p as [|e p IH|c b IHb p IH]; intros mask; cbn [path l_urun]; rewrite ?ueval_fst, ?brs_app, ?asked_brs, ?IH; try reflexivity.
  f_equal. rewrite fst_test. destruct (ueval W mask c =? 0); cbn [negb].
  - change (brs (EBr false :: ?x)) with (false :: brs x). unfold lret. rewrite fst_some. cbn [app]. rewrite IH. reflexivity.
  - change (brs (EBr true :: ?x)) with (true :: brs x). rewrite urun_fst, brs_app, IHb, IH. reflexivity.
Qed.
Lemma mask_trace W W' : fst (l_CalculateDvMask (Some W)) = fst (l_CalculateDvMask (Some W')) <-> path W ubc_prog_go 0xFFFFFFFF = path W' ubc_prog_go 0xFFFFFFFF.
Proof.
  cbn [l_CalculateDvMask]. rewrite !fst_test. rewrite <- !path_brs. generalize ubc_prog_go. intros p. split; intros E.
  - injection E as E. rewrite E. reflexivity.
  - rewrite !path_brs in E. destruct (path_trace W W' p 0xFFFFFFFF 0xFFFFFFFF [] []) as [T _]; [rewrite !app_nil_r; exact E|]. rewrite T. reflexivity.
Qed.
Local Opaque l_CalculateDvMask path asked.
Local Transparent leak_of traced leaked.
Lemma traced_iff b b' : traced b = traced b' <-> leaked b = leaked b'.
Proof.
  unfold traced, leak_of, leaked. cbv zeta. generalize (schedule (words_of b)) (schedule (words_of b')). intros W W'. split; intros E; apply pair_inj in E; destruct E as [E1 E2].
  - apply mask_trace in E1. rewrite E1, E2. reflexivity.
  - apply mask_trace in E1. rewrite E1, E2. reflexivity.
Qed.
Local Opaque leak_of traced leaked.
Lemma cons_inj2 {A} (a b : A) l l' : a :: l = b :: l' -> a = b /\ l = l'. Proof. intros E. injection E. auto. Qed.
Lemma traced_map l : forall l', map traced l = map traced l' <-> map leaked l = map leaked l'.
Proof.
  generalize traced_iff. generalize traced leaked. intros f g H. induction l as [|b l IH]; intros [|b' l']; cbn [map].
  - split; reflexivity.
  - split; discriminate.
  - split; discriminate.
  - split; intros E; apply cons_inj2 in E; destruct E as [E1 E2]; apply H in E1; apply IH in E2; rewrite E1, E2; reflexivity.
Qed.
Theorem s_leak_exact d d' os os' r r' : hasher d -> hasher d' -> dlen d = dlen d' -> dcol d = dcol d' -> same_calls os os' ->
  session blk d os = Some r -> session blk d' os' = Some r' -> quiet r -> quiet r' ->
  (fst (l_session lblk d os) = fst (l_session lblk d' os') <-> map leaked (fed (buffered d) (dlen d) os) = map leaked (fed (buffered d') (dlen d') os')).
Proof.
  intros H H' L C SC E E' Q Q'. rewrite <- traced_map.
  assert (N1 : dnx d = dnx d') by (destruct H as (_ & _ & _ & _ & X), H' as (_ & _ & _ & _ & X'); rewrite L in X; lia).
  rewrite <- session_snd in E, E'. destruct (ex_session os os' SC d d' H H' N1 L C) as [F B]. split; intros X.
  - assert (X2 : fst (l_session lblk d os) ++ [] = fst (l_session lblk d' os') ++ []) by (rewrite X; reflexivity).
    destruct (F _ _ X2) as (_ & _ & K). rewrite E, E' in K. apply K. exact Q.
  - apply (B r r' E E' Q Q' X).
Qed.
Theorem s_leak_chaining d h h' os r r' : let e := mkd h (dx d) (dnx d) (dlen d) (dcol d) in let e' := mkd h' (dx d) (dnx d) (dlen d) (dcol d) in
  hasher e -> hasher e' -> session blk e os = Some r -> session blk e' os = Some r' -> quiet r -> quiet r' -> fst (l_session lblk e os) = fst (l_session lblk e' os).
Proof.
  intros e e' H H' E E' Q Q'. apply (s_leak_exact e e' os os r r'); auto. unfold same_calls.
  clear. induction os as [|[p|i] os IH]; constructor; auto; reflexivity.
Qed.
Theorem s_leak_verdicts d d' os os' r r' : hasher d -> hasher d' -> dlen d = dlen d' -> dcol d = dcol d' -> same_calls os os' ->
  session blk d os = Some r -> session blk d' os' = Some r' -> fst (l_session lblk d os) = fst (l_session lblk d' os') -> dcol (fst r) = dcol (fst r') /\ map snd (snd r) = map snd (snd r').
Proof.
  intros H H' L C SC E E' X.
  assert (N1 : dnx d = dnx d') by (destruct H as (_ & _ & _ & _ & Y), H' as (_ & _ & _ & _ & Y'); rewrite L in Y; lia).
  rewrite <- session_snd in E, E'. destruct (ex_session os os' SC d d' H H' N1 L C) as [F _].
  assert (X2 : fst (l_session lblk d os) ++ [] = fst (l_session lblk d' os') ++ []) by (rewrite X; reflexivity).
  destruct (F _ _ X2) as (_ & _ & K). rewrite E, E' in K. destruct K as [K _]. injection K. auto.
Qed.
Lemma map_forall2 {A B} (f : A -> B) l : forall l', map f l = map f l' -> Forall2 (fun a b => f a = f b) l l'.
Proof. induction l as [|a l IH]; intros [|b l'] X; try discriminate; constructor; cbn in X; injection X; auto. Qed.
Lemma Forall2_impl' {A} (P Q : A -> A -> Prop) l l' : (forall a b, P a b -> Q a b) -> Forall2 P l l' -> Forall2 Q l l'.
Proof. intros H. induction 1; constructor; auto. Qed.
Local Transparent leaked.
Lemma leaked_snd b b' : leaked b = leaked b' -> CalculateDvMask (Some (schedule (words_of b))) = CalculateDvMask (Some (schedule (words_of b'))).
Proof. unfold leaked. intros E. apply pair_inj in E. apply E. Qed.
Local Opaque leaked.
Theorem s_leak_conditions d d' os os' r r' : hasher d -> hasher d' -> dlen d = dlen d' -> dcol d = dcol d' -> same_calls os os' ->
  session blk d os = Some r -> session blk d' os' = Some r' -> quiet r -> quiet r' -> fst (l_session lblk d os) = fst (l_session lblk d' os') ->
  Forall2 (fun b b' => forall v, (v < 32)%nat -> (ubc_holds v (schedule (words_of b)) <-> ubc_holds v (schedule (words_of b'))))
    (fed (buffered d) (dlen d) os) (fed (buffered d') (dlen d') os').
Proof.
  intros H H' L C SC E E' Q Q' X. apply (s_leak_exact d d' os os' r r') in X; auto. revert X.
  generalize (fed (buffered d) (dlen d) os) (fed (buffered d') (dlen d') os'). clear. intros l l' X. apply map_forall2 in X. revert X. apply Forall2_impl'.
  intros b b' Y v Hv. rewrite <- !mask_go_spec by exact Hv. rewrite (leaked_snd b b' Y). reflexivity.
Qed.
End Build.

(** The generic build. *)
Definition leak_erase := s_leak_erase l_blockGeneric blockGeneric block_snd blockGeneric_ok ex_block.
Definition leak_exact := s_leak_exact l_blockGeneric blockGeneric block_snd blockGeneric_ok ex_block.
Definition leak_chaining := s_leak_chaining l_blockGeneric blockGeneric block_snd blockGeneric_ok ex_block.
Definition leak_verdicts := s_leak_verdicts l_blockGeneric blockGeneric block_snd blockGeneric_ok ex_block.
Definition leak_conditions := s_leak_conditions l_blockGeneric blockGeneric block_snd blockGeneric_ok ex_block.

(** ** What is revealed *)
Definition lk_z : list byte := repeat x00 64.
Definition lk_a : list byte := repeat x61 64.
Local Transparent Write blockGeneric g_blocks.
Definition lk_rz : option (digest * list (list byte * bool)) := Eval vm_compute in session blockGeneric New [LWrite lk_z].
Definition lk_ra : option (digest * list (list byte * bool)) := Eval vm_compute in session blockGeneric New [LWrite lk_a].
Lemma lk_rz_eq : session blockGeneric New [LWrite lk_z] = lk_rz. Proof. vm_compute. reflexivity. Qed.
Lemma lk_ra_eq : session blockGeneric New [LWrite lk_a] = lk_ra. Proof. vm_compute. reflexivity. Qed.
Local Transparent leaked.
Lemma lk_differ : map leaked (fed (buffered New) (dlen New) [LWrite lk_z]) <> map leaked (fed (buffered New) (dlen New) [LWrite lk_a]).
Proof.
  intros E. apply (f_equal (map (fun x => length (fst x)))) in E. vm_compute in E. discriminate.
Qed.
Local Opaque leaked.
Lemma hasher_New : hasher New.
Proof. split; [repeat split; reflexivity|]. split; [reflexivity|]. split; [cbn; lia|]. split; reflexivity. Qed.
Theorem leak_message : exists p p' r r', length p = length p' /\ session blockGeneric New [LWrite p] = Some r /\ session blockGeneric New [LWrite p'] = Some r' /\ quiet r /\ quiet r' /\
  fst (l_session l_blockGeneric New [LWrite p]) <> fst (l_session l_blockGeneric New [LWrite p']).
Proof.
  exists lk_z, lk_a. pose proof lk_rz_eq as Ez. pose proof lk_ra_eq as Ea. unfold lk_rz in Ez. unfold lk_ra in Ea. do 2 eexists. split; [reflexivity|].
  split; [exact Ez|]. split; [exact Ea|]. assert (Qz : forall d, dcol d = false -> quiet (d, [])) by (split; [assumption|constructor]).
  split; [apply Qz; reflexivity|]. split; [apply Qz; reflexivity|]. intros X.
  refine (lk_differ (proj1 (leak_exact New New [LWrite lk_z] [LWrite lk_a] _ _ hasher_New hasher_New eq_refl eq_refl _ Ez Ea _ _) X)).
  - constructor; [reflexivity|constructor].
  - apply Qz. reflexivity.
  - apply Qz. reflexivity.
Qed.

Definition lk_rc : option (digest * list (list byte * bool)) := Eval vm_compute in session blockGeneric tb_d [LWrite tb_b].
Definition lk_rn : option (digest * list (list byte * bool)) := Eval vm_compute in session blockGeneric New [LWrite tb_b].
Lemma lk_rc_eq : session blockGeneric tb_d [LWrite tb_b] = lk_rc. Proof. vm_compute. reflexivity. Qed.
Lemma lk_rn_eq : session blockGeneric New [LWrite tb_b] = lk_rn. Proof. vm_compute. reflexivity. Qed.
Theorem leak_collision : exists d h h' os r r', let e := mkd h (dx d) (dnx d) (dlen d) (dcol d) in let e' := mkd h' (dx d) (dnx d) (dlen d) (dcol d) in
  hasher e /\ hasher e' /\ session blockGeneric e os = Some r /\ session blockGeneric e' os = Some r' /\ quiet r' /\ fst (l_session l_blockGeneric e os) <> fst (l_session l_blockGeneric e' os).
Proof.
  exists New, tb_h, (dh New), [LWrite tb_b]. cbv zeta. change (mkd tb_h _ _ _ _) with tb_d. change (mkd (dh New) _ _ _ _) with New.
  pose proof lk_rc_eq as Ec. pose proof lk_rn_eq as En. unfold lk_rc in Ec. unfold lk_rn in En. do 2 eexists.
  assert (Hc : hasher tb_d) by (split; [repeat split; reflexivity|]; split; [reflexivity|]; split; [cbn; lia|]; split; reflexivity).
  split; [exact Hc|]. split; [exact hasher_New|]. split; [exact Ec|]. split; [exact En|]. split; [split; [reflexivity|constructor]|]. intros X.
  assert (SC : same_calls [LWrite tb_b] [LWrite tb_b]) by (constructor; [reflexivity|constructor]).
  destruct (leak_verdicts tb_d New _ _ _ _ Hc hasher_New eq_refl eq_refl SC Ec En X) as [V _]. discriminate V.
Qed.
