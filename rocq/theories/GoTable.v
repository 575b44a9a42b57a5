(** The generic block function for any contents of the table of disturbance vectors. *)

From Coq Require Import Arith NArith List Strings.Byte Lia Bool ZifyNat.
From Verif Require Import Word WordFacts Spec_Sha1 Sha1Facts Spec_DV Spec_Cd DvFacts Model_Ubc Gen_DvsGo Model_Go Model_Table GoCheck GoBlock GoDetect Data_Shambles GoRefute.
Import ListNotations.
Local Open Scope N_scope.
Ltac Zify.zify_post_hook ::= idtac.

Lemma cc_default m1 cs h : checkCollision_in dvs_go m1 cs h = checkCollision m1 cs h.
Proof. unfold checkCollision_in, checkCollision. reflexivity. Qed.
Lemma g_rehash_default fuel : forall p hi h w m1 cs col, g_rehash_in dvs_go fuel p hi h w m1 cs col = g_rehash fuel p hi h w m1 cs col.
Proof.
  induction fuel as [|fuel IH]; intros; [reflexivity|]. cbn [g_rehash_in g_rehash].
  generalize (g_pass p h w m1 cs). intros x. cbv zeta. rewrite cc_default.
  destruct (hi =? 2)%nat; [apply IH|]. destruct (hi =? 1)%nat; [|reflexivity].
  destruct (checkCollision _ _ _) as [[|]|]; cbn [obind]; [apply IH|reflexivity|reflexivity].
Qed.
Lemma g_blocks_default fuel : forall p h w cs col, g_blocks_in dvs_go fuel p h w cs col = g_blocks fuel p h w cs col.
Proof.
  induction fuel as [|fuel IH]; intros; cbn [g_blocks_in g_blocks]; destruct (64 <=? length p)%nat; try reflexivity.
  rewrite g_rehash_default. destruct (g_rehash _ _ _ _ _ _ _) as [[[[? ?] ?] ?]|]; cbn [obind]; [apply IH|reflexivity].
Qed.
Lemma table_default d p : blockGeneric_in dvs_go d p = blockGeneric d p.
Proof. unfold blockGeneric_in, blockGeneric. rewrite g_blocks_default. reflexivity. Qed.

(** One block, any table: the check is made on the schedule, the stored states and the chaining value. *)
Definition verdict_in (T : list dvinfo) (h : st) (M : list N) : option bool := checkCollision_in T (schedule M) (cs_of h M) (compress h M).
Lemma rehash_in_eq T p h w cs col : (64 <= length p)%nat -> wfst h -> length w = 16%nat ->
  let M := words_of (firstn 64 p) in
  match verdict_in T h M with
  | None => g_rehash_in T 3 p 1 h w (repeat 0 80) cs col = None
  | Some c => exists w' cs', length w' = 16%nat /\
      g_rehash_in T 3 p 1 h w (repeat 0 80) cs col =
      Some (if c then compress (compress (compress h M) M) M else compress h M, w', cs', (col || c)%bool)
  end.
Proof.
  intros Hp Hh Hw M.
  assert (HM : length M = 16%nat) by (apply M_length; assumption).
  destruct (pass_eq p Hp h Hh w (repeat 0 80) cs Hw (repeat_length _ _)) as (E1 & E2 & E3 & E4).
  fold M in E1, E2, E3.
  unfold g_rehash_in. cbn [Nat.eqb Nat.add].
  set (x := g_pass p h w (repeat 0 80) cs) in *. rewrite E1, E2, E3.
  change (addst h (state_at 80 h M)) with (compress h M).
  assert (V : checkCollision_in T (schedule M) (cs_of h M) (compress h M) = verdict_in T h M) by (unfold verdict_in; reflexivity).
  rewrite V. destruct (verdict_in T h M) as [[|]|]; cbn [obind]; [| |reflexivity].
  - assert (L1 : length (schedule M) = 80%nat) by (apply schedule_length; assumption).
    destruct (pass_eq p Hp (compress h M) (wfst_compress h M) (pw x) (schedule M) (cs_of h M) E4 L1) as (F1 & F2 & F3 & F4).
    fold M in F1, F2, F3.
    set (y := g_pass p (compress h M) (pw x) (schedule M) (cs_of h M)) in *. rewrite F1, F2, F3.
    change (addst (compress h M) (state_at 80 (compress h M) M)) with (compress (compress h M) M).
    destruct (pass_eq p Hp (compress (compress h M) M) (wfst_compress _ M) (pw y) (schedule M) (cs_of (compress h M) M) F4 L1)
      as (G1 & G2 & G3 & G4).
    fold M in G1, G2, G3.
    set (z := g_pass p (compress (compress h M) M) (pw y) (schedule M) (cs_of (compress h M) M)) in *.
    rewrite G2, G3. rewrite orb_true_r.
    eexists _, _. split; [exact G4|]. reflexivity.
  - rewrite orb_false_r. eexists _, _. split; [exact E4|]. reflexivity.
Qed.

(** The decision a table makes where it makes one. *)
Definition table_decides (T : list dvinfo) (h : st) (M : list N) : bool := match verdict_in T h M with Some c => c | None => false end.
Lemma blocks_in_some T : forall fuel p h w cs col r, (length p <= fuel)%nat -> wfst h -> length w = 16%nat ->
  g_blocks_in T fuel p h w cs col = Some r -> r = cd_blocks (table_decides T) (h, col) (blocks p).
Proof.
  induction fuel as [|fuel IH]; intros p h w cs col r Hl Hh Hw; cbn [g_blocks_in]; destruct (Nat.leb_spec 64 (length p)).
  - lia.
  - rewrite blocks_short by assumption. intros X. injection X as <-. reflexivity.
  - pose proof (rehash_in_eq T p h w cs col) as R. cbv zeta in R. specialize (R ltac:(assumption) Hh Hw).
    destruct (verdict_in T h (words_of (firstn 64 p))) as [c|] eqn:V; [|rewrite R; discriminate].
    destruct R as (w' & cs' & L & E). rewrite E. cbn [obind]. intros X. apply IH in X; auto.
    + rewrite X, (blocks_cons p) by assumption. rewrite cd_blocks_cons. unfold cd_block, table_decides. cbn [fst snd]. rewrite V. reflexivity.
    + rewrite skipn_length. lia.
    + destruct c; auto with wf.
  - rewrite blocks_short by assumption. intros X. injection X as <-. reflexivity.
Qed.
Lemma blocks_in_total T : (forall h M, verdict_in T h M <> None) ->
  forall fuel p h w cs col, (length p <= fuel)%nat -> wfst h -> length w = 16%nat -> g_blocks_in T fuel p h w cs col <> None.
Proof.
  intros HT. induction fuel as [|fuel IH]; intros p h w cs col Hl Hh Hw; cbn [g_blocks_in]; destruct (Nat.leb_spec 64 (length p)).
  - lia.
  - discriminate.
  - pose proof (rehash_in_eq T p h w cs col) as R. cbv zeta in R. specialize (R ltac:(assumption) Hh Hw).
    specialize (HT h (words_of (firstn 64 p))).
    destruct (verdict_in T h (words_of (firstn 64 p))) as [c|] eqn:V; [|contradiction].
    destruct R as (w' & cs' & L & E). rewrite E. cbn [obind]. apply IH; auto.
    + rewrite skipn_length. lia.
    + destruct c; auto with wf.
  - discriminate.
Qed.

(** A table that the loop can walk: the rows before the terminator use one of the stored states. *)
Lemma checkLoop_total T U z mask m1 cs h : dvType z = 0 -> Forall (fun v => In (testT v) [0; 58; 65]) T ->
  checkLoop (T ++ z :: U) mask m1 cs h <> None.
Proof.
  intros Hz. induction 1 as [|v T Hv _ IH]; cbn [app checkLoop].
  - rewrite Hz. discriminate.
  - destruct (dvType v =? 0); [discriminate|]. destruct (N.land _ _ =? 0); [exact IH|].
    assert (X : exists s, (if testT v =? 58 then Some (cs1 cs) else if testT v =? 65 then Some (cs2 cs) else if testT v =? 0 then Some (cs0 cs) else None) = Some s)
      by (destruct Hv as [<-|[<-|[<-|[]]]]; eexists; reflexivity).
    destruct X as [s ->]. cbn [obind]. destruct (hasCollided (N.to_nat (testT v)) m1 (dm v) s h); [discriminate|exact IH].
Qed.

Lemma table_any T z U : dvType z = 0 -> Forall (fun v => In (testT v) [0; 58; 65]) T ->
  exists D, forall d p, wfst (dh d) ->
    blockGeneric_in (T ++ z :: U) d p = Some (let r := cd_blocks D (dh d, dcol d) (blocks p) in mkd (fst r) (dx d) (dnx d) (dlen d) (snd r)).
Proof.
  intros Hz HT. exists (table_decides (T ++ z :: U)). intros d p Hd. unfold blockGeneric_in.
  destruct (g_blocks_in _ _ _ _ _ _ _) as [[h c]|] eqn:E.
  - apply blocks_in_some in E; auto using repeat_length. cbn [obind]. rewrite <- E. reflexivity.
  - exfalso. revert E. apply blocks_in_total; auto using repeat_length.
    intros h M. unfold verdict_in, checkCollision_in. cbv zeta. destruct (_ =? 0); [discriminate|]. apply checkLoop_total; assumption.
Qed.

Lemma cd_blocks_sticky D bs : forall s, snd s = true -> snd (cd_blocks D s bs) = true.
Proof.
  induction bs as [|b bs IH]; intros s Hs; [exact Hs|]. rewrite cd_blocks_cons. apply IH. cbn [snd]. rewrite Hs. reflexivity.
Qed.
Lemma cd_blocks_plain D bs : forall s, snd (cd_blocks D s bs) = false ->
  snd s = false /\ fst (cd_blocks D s bs) = fold_left (fun h b => compress h (words_of b)) bs (fst s).
Proof.
  induction bs as [|b bs IH]; intros s Hs; [split; [exact Hs|reflexivity]|]. rewrite cd_blocks_cons in Hs |- *.
  apply IH in Hs. destruct Hs as [E F]. cbn [fst snd] in E, F. apply orb_false_iff in E. destruct E as [E1 E2]. split; [exact E1|].
  rewrite F. cbn [fold_left]. unfold cd_block. rewrite E2. reflexivity.
Qed.
Lemma table_unflagged T d p d' : wfst (dh d) -> blockGeneric_in T d p = Some d' -> dcol d' = false ->
  dcol d = false /\ dh d' = fold_left (fun h b => compress h (words_of b)) (blocks p) (dh d).
Proof.
  intros Hd. unfold blockGeneric_in. destruct (g_blocks_in _ _ _ _ _ _ _) as [[h c]|] eqn:E; [|discriminate].
  apply blocks_in_some in E; auto using repeat_length. cbn [obind]. intros X. injection X as <-. cbn [dcol dh].
  intros Hc. pose proof (cd_blocks_plain (table_decides T) (blocks p) (dh d, dcol d)) as P. rewrite <- E in P. apply P. exact Hc.
Qed.

(** Changes that do not matter: rows behind the first terminator. *)
Lemma checkLoop_behind T U U' z mask m1 cs h : dvType z = 0 -> checkLoop (T ++ z :: U) mask m1 cs h = checkLoop (T ++ z :: U') mask m1 cs h.
Proof.
  intros Hz. induction T as [|v T IH]; cbn [app checkLoop].
  - rewrite Hz. reflexivity.
  - rewrite IH. reflexivity.
Qed.

(** ** Stores that do matter *)

(** The first attack block of the SHAmbles file and the chaining value before it. *)
Definition tb_b : list byte := Eval vm_compute in firstn 64 (skipn 576 shambles1).
Definition tb_h : st := Eval vm_compute in fold_left (fun h b => compress h (words_of b)) (blocks (firstn 576 shambles1)) IV.
Definition tb_d : digest := mkd tb_h (repeat x00 64) 0 0 false.
(** A row with the fields of [v] but another type, or another test step. *)
Definition with_type (t : N) (v : dvinfo) : dvinfo := mkdv t (dvK v) (dvB v) (testT v) (maskI v) (maskB v) (dm v).

Lemma table_off : exists i v T d p d1 d2, store_dv dvs_go i v = Some T /\ wfst (dh d) /\ length p = 64%nat /\
  blockGeneric_in dvs_go d p = Some d1 /\ dcol d1 = true /\ blockGeneric_in T d p = Some d2 /\ dcol d2 = false.
Proof.
  exists 0%nat, (with_type 0 (nth 0 dvs_go terminator)). eexists. exists tb_d, tb_b. eexists. eexists.
  split; [reflexivity|]. split; [repeat split; reflexivity|]. split; [reflexivity|].
  split; [vm_compute; reflexivity|]. split; [reflexivity|]. split; [vm_compute; reflexivity|reflexivity].
Qed.
Lemma table_panic : exists i v T d p, store_dv dvs_go i v = Some T /\ wfst (dh d) /\ length p = 64%nat /\
  dvType v <> 0 /\ blockGeneric_in dvs_go d p <> None /\ blockGeneric_in T d p = None.
Proof.
  exists 27%nat, (mkdv 2 0 0 1 0 27 []). eexists. exists tb_d, tb_b.
  split; [reflexivity|]. split; [repeat split; reflexivity|]. split; [reflexivity|]. split; [discriminate|].
  split; [vm_compute; discriminate|vm_compute; reflexivity].
Qed.
