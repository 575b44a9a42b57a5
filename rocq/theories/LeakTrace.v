(** Bounds and order of the indices recorded in [Model_Leak]. *)

From Coq Require Import Arith ZArith NArith List Strings.Byte Lia ZifyNat Bool.
From Verif Require Import Word WordFacts Spec_Sha1 Sha1Facts Spec_DV Spec_Cd DvFacts Model_Ubc Gen_UbcGo Gen_DvsGo Model_Go GoCheck GoBlock GoTable GoApi Model_Leak Spec_Leak Leak.
Import ListNotations.
Local Open Scope N_scope.
Ltac Zify.zify_post_hook ::= idtac.

Definition within {A} (n : nat) (m : lk A) : Prop := Forall (in_bounds n) (fst m).
Lemma wi_bind {A B} n (m : lk A) (f : A -> lk B) : within n m -> (forall x, snd m = Some x -> within n (f x)) -> within n (lbind m f).
Proof.
  unfold within, lbind. intros H G. destruct (snd m) as [x|]; [|exact H]. cbv zeta. cbn [fst]. apply Forall_app. split; [exact H|]. apply G. reflexivity.
Qed.
Lemma wi_test n c : within n (test c). Proof. constructor; [exact I|constructor]. Qed.
Lemma wi_ret {A} n (x : A) : within n (lret x). Proof. constructor. Qed.
Lemma wi_mono {A} n n' (m : lk A) : (n <= n')%nat -> within n m -> within n' m.
Proof.
  intros L H. eapply Forall_impl; [|exact H]. intros [b|a i|k|u]; cbn; auto. destruct a; cbn; auto. intros. eapply Nat.lt_le_trans; eassumption.
Qed.

(** Indices in expressions and programs. *)
Fixpoint ub (e : uexp) : bool :=
  match e with
  | UW i => (i <? 80)%nat
  | UC _ | UMask => true
  | UNot e | ULNot e => ub e
  | UAnd x y | UOr x y | UXor x y | USub x y | UShl x y | UShr x y | UNe x y | ULor x y => ub x && ub y
  end.
Fixpoint pb (p : prog) : bool :=
  match p with
  | PEnd => true
  | PAnd e r => ub e && pb r
  | PIf c b r => ub c && pb b && pb r
  end.
Lemma wi_ueval W mask e : ub e = true -> within 0 (l_ueval W mask e).
Proof.
  induction e; cbn [ub l_ueval]; intros H;
    try match type of H with (_ && _)%bool = true => apply andb_true_iff in H; destruct H as [H1 H2] end;
    repeat first [apply wi_ret | apply wi_test | solve [auto] | apply wi_bind; [|intros ? _]
                 | match goal with |- within _ (if ?b then _ else _) => destruct b end].
  constructor; [|constructor]. apply Nat.ltb_lt in H. exact H.
Qed.
Lemma wi_urun W p : forall mask, pb p = true -> within 0 (l_urun W p mask).
Proof.
  induction p; intros mask; cbn [pb l_urun]; intros H; [apply wi_ret| |].
  - apply andb_true_iff in H. destruct H. apply wi_bind; [apply wi_ueval; assumption|]. auto.
  - apply andb_true_iff in H. destruct H as [H H3]. apply andb_true_iff in H. destruct H as [H1 H2].
    apply wi_bind; [apply wi_ueval; assumption|]. intros v _. apply wi_bind; [apply wi_test|]. intros t _.
    apply wi_bind; [destruct t; [auto|apply wi_ret]|]. auto.
Qed.
Lemma ubc_bounded : pb ubc_prog_go = true. Proof. vm_compute. reflexivity. Qed.
Lemma wi_mask W : within 0 (l_CalculateDvMask W).
Proof.
  destruct W as [W|]; cbn [l_CalculateDvMask]; apply wi_bind; try apply wi_test; intros _ _; [apply wi_urun, ubc_bounded|apply wi_ret].
Qed.

(** Loops. *)
Lemma loop_within n g l : (forall i, In i l -> Forall (in_bounds n) (g i)) -> Forall (in_bounds n) (tr_loop g l).
Proof.
  induction l as [|i l IH]; intros H; cbn [tr_loop]; [repeat constructor|].
  constructor; [exact I|]. apply Forall_app. split; [apply H; left; reflexivity|]. apply IH. intros j J. apply H. right. exact J.
Qed.
Lemma undo_within row step i : (row < 33)%nat -> (i < 80)%nat -> Forall (in_bounds 0) (tr_undo row step i).
Proof. intros R L. unfold tr_undo. destruct (_ <? _)%nat; repeat (apply Forall_cons || apply Forall_nil); cbn [in_bounds]; auto. Qed.
Lemma redo_within row step i : (row < 33)%nat -> (i < 80)%nat -> Forall (in_bounds 0) (tr_redo row step i).
Proof. intros R L. unfold tr_redo. destruct (_ <=? _)%nat; repeat (apply Forall_cons || apply Forall_nil); cbn [in_bounds]; auto. Qed.
Lemma down_lt a b i : In i (down a b) -> (i <= a)%nat.
Proof.
  unfold down. intros H. apply in_rev, in_seq in H. lia.
Qed.
Lemma col_within row step : (row < 33)%nat -> Forall (in_bounds 0) (tr_col row step).
Proof.
  intros R. unfold tr_col. repeat (apply Forall_app; split); apply loop_within; intros i J;
    first [apply undo_within | apply redo_within]; auto; first [apply down_lt in J | apply in_seq in J]; lia.
Qed.
Lemma wi_hasCollided row step m1 dm s h : (row < 33)%nat -> within 0 (l_hasCollided row step m1 dm s h).
Proof. intros R. rewrite hasCollided_eq. unfold within. cbn [fst]. apply Forall_app. split; [apply col_within; exact R|repeat constructor]. Qed.
Local Opaque l_hasCollided hasCollided tr_col.
Lemma wi_checkLoop dvs mask m1 cs h : forall row, (row + length dvs <= 33)%nat -> within 0 (l_checkLoop row dvs mask m1 cs h).
Proof.
  induction dvs as [|dv r IH]; intros row L; cbn [l_checkLoop]; [constructor|]. cbn [length] in L.
  apply wi_bind; [constructor; [cbn; lia|constructor]|]. intros _ _. apply wi_bind; [apply wi_test|]. intros t _.
  destruct (negb t); [apply wi_ret|]. apply wi_bind; [apply wi_test|]. intros t1 _. destruct (negb t1); [apply IH; lia|].
  apply wi_bind; [apply wi_test|]. intros t2 _. apply wi_bind.
  { destruct t2; [apply wi_ret|]. apply wi_bind; [apply wi_test|]. intros [|] _; [apply wi_ret|]. apply wi_bind; [apply wi_test|]. intros [|] _; [apply wi_ret|constructor]. }
  intros s _. apply wi_bind; [apply wi_hasCollided; lia|]. intros c _. apply wi_bind; [apply wi_test|]. intros [|] _; [apply wi_ret|apply IH; lia].
Qed.
Lemma dvs_33 : length dvs_go = 33%nat. Proof. vm_compute. reflexivity. Qed.
Local Opaque l_CalculateDvMask CalculateDvMask dvs_go l_checkLoop.
Lemma wi_checkCollision m1 cs h : within 0 (l_checkCollision m1 cs h).
Proof.
  unfold l_checkCollision. apply wi_bind; [apply wi_mask|]. intros mask _. apply wi_bind; [apply wi_test|]. intros [|] _; [|apply wi_ret].
  apply wi_checkLoop. rewrite dvs_33. auto.
Qed.
Local Opaque l_checkCollision checkCollision.

(** One pass. *)
Lemma land15 i : (Nat.land i 15 < 16)%nat.
Proof. change 15%nat with (Nat.ones 4). rewrite Nat.land_ones. apply Nat.mod_upper_bound. discriminate. Qed.
Lemma pass_within n off : (off + 64 <= n)%nat -> Forall (in_bounds n) (tr_pass off).
Proof.
  intros L. unfold tr_pass. repeat (apply Forall_app; split); apply loop_within; intros i J; apply in_seq in J.
  - unfold tr_load. repeat (apply Forall_cons || apply Forall_nil); cbn [in_bounds]; first [apply land15 | lia].
  - unfold tr_mix. cbn [app]. repeat (apply Forall_cons || apply Forall_nil); cbn [in_bounds]; first [apply land15 | exact Logic.I | lia].
  - unfold tr_mix. cbn [app]. repeat (apply Forall_cons || apply Forall_nil); cbn [in_bounds]; first [apply land15 | exact Logic.I | lia].
  - unfold tr_mix. cbn [app]. repeat (apply Forall_cons || apply Forall_nil); cbn [in_bounds]; first [apply land15 | exact Logic.I | lia].
  - unfold tr_mix. cbn [app]. repeat (apply Forall_cons || apply Forall_nil); cbn [in_bounds]; first [apply land15 | exact Logic.I | lia].
Qed.
Lemma reads_app s t : input_reads (s ++ t) = input_reads s ++ input_reads t.
Proof. apply flat_map_app. Qed.
Lemma seq_map k : forall a, seq a k = map (Nat.add a) (seq 0 k).
Proof.
  induction k as [|k IH]; intros a; [reflexivity|]. cbn [seq map]. rewrite Nat.add_0_r. f_equal. rewrite (IH (S a)), (IH 1%nat), map_map.
  apply map_ext. intros i. lia.
Qed.
Lemma pass_reads off : input_reads (tr_pass off) = seq off 64.
Proof. rewrite seq_map. reflexivity. Qed.
Lemma no_reads t : Forall (in_bounds 0) t -> input_reads t = [].
Proof.
  induction 1 as [|e t H _ IH]; [reflexivity|]. unfold input_reads in *. cbn [flat_map]. rewrite IH. destruct e as [|a i| |]; try reflexivity.
  destruct a; try reflexivity. cbn in H. lia.
Qed.
Local Opaque l_pass g_pass tr_pass seq.

(** One block. *)
Lemma fst_bind {A B} (m : lk A) (f : A -> lk B) a : snd m = Some a -> fst (lbind m f) = fst m ++ fst (f a).
Proof. unfold lbind. intros ->. reflexivity. Qed.
Lemma rehash_trace off p h w m cs col c : checkCollision (pm (g_pass p h w m cs)) (pcs (g_pass p h w m cs)) (addst h (ps (g_pass p h w m cs))) = Some c ->
  exists t, Forall (in_bounds 0) t /\
  fst (l_rehash 3 off p 1 h w m cs col) = tr_pass off ++ t ++ (if c then tr_pass off ++ [EBr true] ++ tr_pass off ++ [EBr false; EBr false] else []).
Proof.
  intros E. cbn [l_rehash Nat.eqb Nat.add]. rewrite l_pass_eq, bind_some. cbn [fst]. generalize dependent (g_pass p h w m cs). intros x E.
  set (k := l_checkCollision (pm x) (pcs x) (addst h (ps x))).
  assert (K : snd k = Some c) by (unfold k; rewrite checkCollision_snd; exact E).
  assert (F : Forall (in_bounds 0) (fst k)) by apply wi_checkCollision. clearbody k.
  exists ([EBr false; EBr true] ++ fst k ++ [EBr c]). split.
  { repeat constructor. apply Forall_app. split; [exact F|repeat constructor]. }
  rewrite fst_test. cbn match. rewrite fst_test. cbn match. rewrite (fst_bind _ _ c K), fst_test. destruct c.
  - rewrite l_pass_eq, bind_some. cbn [fst]. rewrite fst_test. cbn match. rewrite l_pass_eq, bind_some. cbn [fst]. rewrite fst_test. cbn match. rewrite fst_test.
    cbn [fst lret app]. rewrite <- !app_assoc. reflexivity.
  - cbn [fst lret app]. rewrite app_nil_r. reflexivity.
Qed.
Local Opaque l_rehash g_rehash go_decide schedule.
Lemma flag_eq d b : length b = 64%nat -> wfst (dh d) ->
  blockGeneric (mkd (dh d) (dx d) (dnx d) (dlen d) false) b =
  Some (mkd (cd_block go_decide (dh d) (words_of b)) (dx d) (dnx d) (dlen d) (go_decide (dh d) (words_of b))).
Proof.
  intros L H. unfold blockGeneric. cbn [dh dx dnx dlen dcol]. rewrite g_blocks_eq by (auto; reflexivity).
  rewrite blocks_cons by lia. rewrite blocks_short by (rewrite skipn_length; lia). rewrite firstn_all2 by lia. rewrite cd_blocks_cons. reflexivity.
Qed.
Lemma in_mono n n' t : (n <= n')%nat -> Forall (in_bounds n) t -> Forall (in_bounds n') t.
Proof. intros L H. apply (wi_mono n n' (t, Some tt) L H). Qed.
Lemma blocks_trace : forall fuel off p h w cs col d, (length p <= fuel)%nat -> wfst h -> dh d = h -> length w = 16%nat ->
  Forall (in_bounds (off + length p)) (fst (l_blocks fuel off p h w cs col)) /\
  input_reads (fst (l_blocks fuel off p h w cs col)) = reads_of off (flags d (blocks p)).
Proof.
  induction fuel as [|fuel IH]; intros off p h w cs col d L H E Lw; cbn [l_blocks]; rewrite fst_test;
    destruct (Nat.leb_spec 64 (length p)) as [G|G]; cbn match; try lia;
    try (rewrite blocks_short by lia; split; [repeat constructor|reflexivity]).
  destruct (rehash_eq p h w cs col G H Lw) as (w1 & cs1 & Lw1 & E1). set (M := words_of (firstn 64 p)) in *.
  destruct (pass_eq p G h H w (repeat 0 80) cs Lw (repeat_length _ _)) as (P1 & P2 & P3 & _). fold M in P1, P2, P3.
  assert (HM : length M = 16%nat) by (apply M_length; exact G).
  assert (WM : Forall wf M) by apply M_wf.
  assert (C : checkCollision (pm (g_pass p h w (repeat 0 80) cs)) (pcs (g_pass p h w (repeat 0 80) cs)) (addst h (ps (g_pass p h w (repeat 0 80) cs))) = Some (go_decide h M)).
  { rewrite P1, P2, P3. apply checkCollision_eq; assumption. }
  destruct (rehash_trace off p h w (repeat 0 80) cs col (go_decide h M) C) as (t & Ft & Et).
  rewrite (fst_bind _ _ (cd_block go_decide h M, w1, cs1, (col || go_decide h M)%bool)) by (rewrite rehash_snd; exact E1).
  rewrite (blocks_cons p) by exact G. cbn [flags]. rewrite flag_eq by (rewrite ?firstn_length; try lia; rewrite E; exact H).
  cbn [dcol dh dx dnx dlen reads_of]. rewrite E. fold M.
  set (d1 := mkd (cd_block go_decide h M) (dx d) (dnx d) (dlen d) (go_decide h M)).
  destruct (IH (off + 64)%nat (skipn 64 p) (cd_block go_decide h M) w1 cs1 (col || go_decide h M)%bool d1) as [I1 I2];
    [rewrite skipn_length; lia|apply wfst_cd_block; exact H|reflexivity|exact Lw1|].
  assert (PW : Forall (in_bounds (off + length p)) (tr_pass off)) by (apply pass_within; lia).
  rewrite Et. split.
  - constructor; [exact Logic.I|]. apply Forall_app. split.
    + repeat (apply Forall_app; split); [exact PW|apply (in_mono 0); [lia|exact Ft]|].
      destruct (go_decide h M); [|constructor]. repeat (apply Forall_app; split); try exact PW; repeat constructor.
    + rewrite skipn_length in I1. replace (off + 64 + (length p - 64))%nat with (off + length p)%nat in I1 by lia. exact I1.
  - change (input_reads (EBr true :: ?x)) with (input_reads x). rewrite !reads_app, (no_reads t Ft), pass_reads, I2. cbn [app].
    destruct (go_decide h M); cbn [repeat concat].
    + rewrite !reads_app, pass_reads. change (input_reads (EBr true :: ?x)) with (input_reads x). rewrite reads_app, pass_reads. change (input_reads [EBr false; EBr false]) with (@nil nat).
      cbn [app]. rewrite !app_nil_r, <- !app_assoc. reflexivity.
    + change (input_reads []) with (@nil nat). reflexivity.
Qed.
Local Opaque l_blocks.
Theorem leak_bounds d p : wfst (dh d) -> Forall (in_bounds (length p)) (fst (l_blockGeneric d p)).
Proof.
  intros H. unfold l_blockGeneric. destruct (blocks_trace (length p) 0 p (dh d) (repeat 0 16) (mkcs st0 st0 st0) (dcol d) d) as [B _]; auto.
  apply (wi_bind (length p)); [exact B|]. intros. apply wi_ret.
Qed.
Theorem leak_reads d p : wfst (dh d) -> input_reads (fst (l_blockGeneric d p)) = reads_of 0 (flags d (blocks p)).
Proof.
  intros H. unfold l_blockGeneric. destruct (blocks_trace (length p) 0 p (dh d) (repeat 0 16) (mkcs st0 st0 st0) (dcol d) d) as [_ R]; auto.
  unfold lbind. set (x := l_blocks _ _ _ _ _ _ _) in *. clearbody x. destruct (snd x); cbn [fst lret]; rewrite ?app_nil_r; exact R.
Qed.
