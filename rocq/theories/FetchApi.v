(** Writes of input that changes during the call. *)

From Coq Require Import Arith NArith ZArith String List Strings.Byte Bool Lia ZifyNat.
From Verif Require Import Word WordFacts Spec_Sha1 Sha1Facts Spec_DV Spec_Cd Spec_Fetch DvFacts Model_Ubc Model_Go Model_Block
  Model_Fetch GoCheck GoBlock GoAmd64 GoDetect GoTable GoAsm GoApi GoStore GoProps TableApi FetchFacts.
Import ListNotations.
Local Open Scope N_scope.
Ltac Zify.zify_post_hook ::= idtac.

(** [d0] is the hasher with the strings read, [d] the hasher at hand. *)
Definition shadow (d0 d : digest) : Prop :=
  wfst (dh d0) /\ wfst (dh d) /\ dx d0 = dx d /\ dnx d0 = dnx d /\ dlen d0 = dlen d /\ dcol d0 = dcol d /\ (dcol d = false -> dh d0 = dh d).
Lemma shadow_refl d : wfst (dh d) -> shadow d d.
Proof. intros H. unfold shadow. auto 10. Qed.
Lemma shadow_eq d0 d : shadow d0 d -> dcol d = false -> d0 = d.
Proof. intros (_ & _ & E1 & E2 & E3 & E4 & E5) C. specialize (E5 C). destruct d0, d; cbn in *. subst. reflexivity. Qed.
Lemma shadow_mk d0 d x nx len : shadow d0 d -> shadow (mkd (dh d0) x nx len (dcol d0)) (mkd (dh d) x nx len (dcol d)).
Proof. intros (H1 & H2 & _ & _ & _ & H3 & H4). unfold shadow. cbn. auto 10. Qed.
Lemma shadow_result d0 d p : shadow d0 d -> shadow (block_result d0 p) (block_result d p).
Proof.
  intros S. destruct (dcol d) eqn:C.
  - destruct S as (W0 & W1 & E1 & E2 & E3 & E4 & _). unfold shadow, block_result. cbv zeta. cbn [dh dx dnx dlen dcol].
    assert (X0 : snd (cd_blocks go_decide (dh d0, dcol d0) (blocks p)) = true) by (apply cd_blocks_sticky; cbn; congruence).
    assert (X1 : snd (cd_blocks go_decide (dh d, dcol d) (blocks p)) = true) by (apply cd_blocks_sticky; cbn; congruence).
    rewrite X0, X1. do 2 (split; [apply wfst_cd_blocks; assumption|]). repeat (split; [assumption || reflexivity|]). discriminate.
  - rewrite (shadow_eq d0 d S C). apply shadow_refl. apply wfst_cd_blocks. apply S.
Qed.
Lemma shadow_block c m len d0 d : shadow d0 d ->
  exists d' p, block_at c m len d = Some d' /\ length p = len /\ seen m 0 p /\ shadow (block_result d0 p) d'.
Proof.
  intros S. assert (W : wfst (dh d)) by apply S.
  destruct (block_at_ok c m len d W) as (d' & E & B). exists d'.
  destruct (by_readings_kept m len d d' W B) as (W' & K1 & K2 & K3 & K4). destruct (by_readings_one m len d d' W B) as (p & d1 & L & Sp & G & V & U).
  rewrite blockGeneric_ok in G by exact W. injection G as G.
  destruct (dcol d) eqn:C.
  - exists (bytes_at m 0 0 len). split; [exact E|]. split; [apply bytes_at_length|]. split; [apply bytes_at_seen|].
    destruct S as (W0 & _ & E1 & E2 & E3 & E4 & _). unfold shadow, block_result. cbv zeta. cbn [dh dx dnx dlen dcol].
    rewrite K1, K2, K3, (K4 eq_refl).
    split; [apply wfst_cd_blocks; exact W0|]. split; [exact W'|]. do 3 (split; [assumption|]).
    split; [apply cd_blocks_sticky; cbn; congruence|discriminate].
  - exists p. split; [exact E|]. split; [exact L|]. split; [exact Sp|]. rewrite (shadow_eq d0 d S C). rewrite G.
    assert (W1 : wfst (dh d1)) by (rewrite <- G; apply wfst_cd_blocks; exact W).
    unfold shadow. split; [exact W1|]. split; [exact W'|]. rewrite K1, K2, K3, <- V. rewrite <- G at 1 2 3. unfold block_result. cbn [dx dnx dlen].
    do 4 (split; [reflexivity|]). intros F. rewrite V in F. rewrite (U F). reflexivity.
Qed.

Lemma copy_at_app dst k a b : (length dst <= k + length a)%nat -> copy_at dst k (a ++ b) = copy_at dst k a.
Proof.
  intros H. unfold copy_at. cbv zeta. rewrite app_length.
  replace (Nat.min (length dst - k) (length a + length b)) with (Nat.min (length dst - k) (length a)) by lia.
  set (n := Nat.min (length dst - k) (length a)). rewrite firstn_app. replace (n - length a)%nat with 0%nat by lia.
  rewrite firstn_O, app_nil_r. reflexivity.
Qed.
Lemma bytes_at_split m a b : exists r, bytes_at m 0 0 (a + b) = bytes_at m 0 0 a ++ r.
Proof. unfold bytes_at. rewrite seq_app, map_app. eexists. reflexivity. Qed.
Lemma copy_bytes_at m dst k a len r : (length dst <= k + a)%nat -> (a <= len)%nat ->
  copy_at dst k (bytes_at m 0 0 len) = copy_at dst k (bytes_at m 0 0 a ++ r).
Proof.
  intros H L. replace len with (a + (len - a))%nat by lia. destruct (bytes_at_split m a (len - a)) as (q & ->).
  rewrite !copy_at_app by (rewrite bytes_at_length; exact H). reflexivity.
Qed.

Lemma seen_in_app m a b : seen_in m a -> (forall i, (i < length b)%nat -> exists s t, nth i b x00 = m s t (length a + i)%nat) -> seen_in m (a ++ b).
Proof.
  intros Ha Hb i Hi. rewrite app_length in Hi. destruct (Nat.lt_ge_cases i (length a)) as [L|L].
  - rewrite app_nth1 by exact L. apply Ha. exact L.
  - rewrite app_nth2 by exact L. destruct (Hb (i - length a)%nat ltac:(lia)) as (s & t & E). exists s, t. rewrite E. f_equal. lia.
Qed.
Lemma seen_in_stage m s l : seen (m s) 0 l -> seen_in m l.
Proof. intros H i Hi. destruct (H i Hi) as (t & E). exists s, t. exact E. Qed.

(** The second half of Write. *)
Definition write_rest_at (c : impl_at) (m : nat -> input) (len base : nat) (d : digest) : option digest :=
  do (d, base) <-
    (if (64 <=? len - base)%nat then
       let n := Nat.ldiff (len - base) (64 - 1) in
       do d <- block_at c (fun t i => m 1%nat t (base + i)%nat) n d;
       Some (d, (base + n)%nat)
     else Some (d, base));
  Some (if (0 <? len - base)%nat then
       let '(x, n) := copy_at (dx d) 0 (bytes_at (m 2%nat) 0 base (len - base)) in
       mkd (dh d) x n (dlen d) (dcol d)
     else d).
Lemma write_rest_shadow blk c m len base d0 d : block_ok blk -> shadow d0 d -> (base <= len)%nat ->
  exists d' q d1, write_rest_at c m len base d = Some d' /\ length q = (len - base)%nat /\
    (forall i, (i < length q)%nat -> exists s t, nth i q x00 = m s t (base + i)%nat) /\
    write_rest blk d0 q = Some d1 /\ shadow d1 d'.
Proof.
  intros Hb S Hl. unfold write_rest_at, write_rest, write_blocks.
  assert (Tail : forall base d0 d, shadow d0 d -> exists q, length q = (len - base)%nat /\
    (forall i, (i < length q)%nat -> exists s t, nth i q x00 = m s t (base + i)%nat) /\
    shadow (if (0 <? length q)%nat then let '(x, n) := copy_at (dx d0) 0 q in mkd (dh d0) x n (dlen d0) (dcol d0) else d0)
      (if (0 <? len - base)%nat then let '(x, n) := copy_at (dx d) 0 (bytes_at (m 2%nat) 0 base (len - base)) in mkd (dh d) x n (dlen d) (dcol d) else d)).
  { clear. intros base d0 d S. exists (bytes_at (m 2%nat) 0 base (len - base)). rewrite bytes_at_length. split; [reflexivity|]. split.
    - intros i Hi. destruct (bytes_at_seen (m 2%nat) 0 base (len - base) i) as (t & E); [rewrite bytes_at_length; exact Hi|]. exists 2%nat, t. exact E.
    - destruct (0 <? len - base)%nat; [|exact S]. assert (E : dx d0 = dx d) by apply S. assert (F : dlen d0 = dlen d) by apply S.
      rewrite E, F. destruct (copy_at _ _ _) as [x n]. apply shadow_mk. exact S. }
  destruct (Nat.leb_spec 64 (len - base)) as [L|L].
  - cbv zeta. change (64 - 1)%nat with 63%nat. set (n := Nat.ldiff (len - base) 63).
    assert (Hn : (n <= len - base)%nat).
    { unfold n. rewrite ldiff63. apply Nat.mul_div_le. discriminate. }
    destruct (shadow_block c (fun t i => m 1%nat t (base + i)%nat) n d0 d S) as (d1 & p & E & Lp & Sp & S1). rewrite E. cbn [obind].
    destruct (Tail (base + n)%nat _ _ S1) as (q & Lq & Sq & S2). eexists. exists (p ++ q). eexists. split; [reflexivity|].
    assert (Lpq : length (p ++ q) = (len - base)%nat) by (rewrite app_length; lia).
    split; [exact Lpq|]. split.
    + intros i Hi. rewrite app_length in Hi. destruct (Nat.lt_ge_cases i (length p)) as [Q|Q].
      * rewrite app_nth1 by exact Q. destruct (Sp i Q) as (t & Et). exists 1%nat, t. exact Et.
      * rewrite app_nth2 by exact Q. destruct (Sq (i - length p)%nat ltac:(lia)) as (s & t & Et). exists s, t. rewrite Et. f_equal. lia.
    + rewrite Lpq. destruct (Nat.leb_spec 64 (len - base)); [|lia]. fold n. rewrite slice_to_ok by lia. cbn [obind].
      rewrite Hb by apply S. cbn [obind]. rewrite slice_from_ok by lia. cbn [obind].
      rewrite firstn_app, Lp, Nat.sub_diag, firstn_O, app_nil_r, firstn_all2 by lia.
      rewrite skipn_app, Lp, Nat.sub_diag, skipn_O, skipn_all2 by lia. cbn [app]. split; [reflexivity|]. exact S2.
  - cbn [obind]. destruct (Tail base d0 d S) as (q & Lq & Sq & S2). eexists. exists q. eexists. split; [reflexivity|]. split; [exact Lq|].
    split; [exact Sq|]. assert (Q : (64 <=? length q)%nat = false) by (apply Nat.leb_gt; lia). rewrite Q. cbn [obind]. split; [reflexivity|exact S2].
Qed.

Lemma Write_shadow blk c m len d0 d s L0 all : block_ok blk -> Rep s L0 all d0 -> shadow d0 d ->
  exists d' p d1, Write_at blk c m len d = Some (d', len) /\ length p = len /\ seen_in m p /\ Write blk d0 p = Some (d1, len) /\ shadow d1 d'.
Proof.
  intros Hb R S. unfold Write_at. destruct (Nat.eqb_spec len 0) as [->|N0].
  { exists d, [], d0. split; [reflexivity|]. split; [reflexivity|]. split; [intros i Hi; inversion Hi|]. split; [reflexivity|exact S]. }
  cbv zeta.
  assert (Tl : forall d base, (do (d, base) <- (if (64 <=? len - base)%nat then
       do d <- block_at c (fun t i => m 1%nat t (base + i)%nat) (Nat.ldiff (len - base) (64 - 1)) d; Some (d, (base + Nat.ldiff (len - base) (64 - 1))%nat)
       else Some (d, base));
     Some (if (0 <? len - base)%nat then let '(x, n) := copy_at (dx d) 0 (bytes_at (m 2%nat) 0 base (len - base)) in
       mkd (dh d) x n (dlen d) (dcol d) else d, len)) = (do d <- write_rest_at c m len base d; Some (d, len))).
  { intros d1 base. unfold write_rest_at. cbv zeta. match goal with |- obind ?x _ = _ => destruct x as [[? ?]|] end; reflexivity. }
  pose proof S as (W0 & W1 & Ex & En & El & Ec & _).
  destruct R as (A & k & HA & Hall & Hnx & Hx & Ws & E & H0 & Hlen).
  clear Hlen Hall E H0 HA. set (L := (dlen d + N.of_nat len) mod M64). cbn [dnx dx dlen dh dcol].
  assert (U : forall p : list byte, length p = len -> p <> []) by (intros p Hp ->; cbn in Hp; congruence).
  rewrite <- En, <- Ex. destruct (Nat.ltb_spec 0 (dnx d0)) as [Hpos|Hz].
  - rewrite slice_from_ok by lia. cbn [obind].
    set (n := Nat.min (64 - dnx d0) len).
    assert (C1 : forall r, (n = len -> r = []) -> copy_at (dx d0) (dnx d0) (bytes_at (m 0%nat) 0 0 len) = copy_at (dx d0) (dnx d0) (bytes_at (m 0%nat) 0 0 n ++ r)).
    { intros r Hr. destruct (Nat.le_gt_cases len (64 - dnx d0)) as [Q|Q].
      - assert (n = len) as Hn by lia. rewrite Hn, (Hr Hn), app_nil_r. reflexivity.
      - apply copy_bytes_at; lia. }
    assert (Cn : snd (copy_at (dx d0) (dnx d0) (bytes_at (m 0%nat) 0 0 len)) = n).
    { unfold copy_at. cbn [snd]. rewrite bytes_at_length, Hx. reflexivity. }
    destruct (copy_at (dx d0) (dnx d0) (bytes_at (m 0%nat) 0 0 len)) as [x n'] eqn:Ecp. cbn [snd] in Cn. subst n'. cbn [dnx dx dlen dh dcol].
    set (e0 := mkd (dh d0) x (dnx d0 + n) L (dcol d0)). set (e := mkd (dh d) x (dnx d0 + n) L (dcol d)).
    assert (Se : shadow e0 e) by (apply shadow_mk; exact S).
    set (b0 := if (dnx d0 + n =? 64)%nat then mkd (dh (block_result e0 x)) x 0 L (dcol (block_result e0 x)) else e0).
    set (b := if (dnx d0 + n =? 64)%nat then mkd (dh (block_result e x)) x 0 L (dcol (block_result e x)) else e).
    assert (Sb : shadow b0 b).
    { unfold b0, b. destruct (dnx d0 + n =? 64)%nat; [|exact Se]. apply shadow_mk. apply shadow_result. exact Se. }
    assert (Eb : (if (dnx d0 + n =? 64)%nat then do d <- blk e x; Some (mkd (dh d) (dx d) 0 (dlen d) (dcol d)) else Some e) = Some b).
    { unfold b. destruct (dnx d0 + n =? 64)%nat; [|reflexivity]. rewrite Hb by exact W1. reflexivity. }
    rewrite Eb. cbn [obind]. rewrite Tl.
    destruct (write_rest_shadow blk c m len n b0 b Hb Sb ltac:(lia)) as (d' & q & d1 & X1 & X2 & X3 & X4 & X5). rewrite X1. cbn [obind].
    exists d', (bytes_at (m 0%nat) 0 0 n ++ q), d1. split; [reflexivity|].
    assert (Lp : length (bytes_at (m 0%nat) 0 0 n ++ q) = len) by (rewrite app_length, bytes_at_length; lia).
    split; [exact Lp|]. split.
    { apply seen_in_app; [apply (seen_in_stage m 0); apply bytes_at_seen|]. rewrite bytes_at_length. exact X3. }
    split; [|exact X5].
    rewrite Write_unfold by (apply U; exact Lp). cbv zeta. cbn [dnx dx dlen dh dcol]. rewrite Lp, El. fold L.
    destruct (Nat.ltb_spec 0 (dnx d0)); [|lia]. rewrite slice_from_ok by lia. cbn [obind].
    rewrite <- (C1 q) by (intros Hn; apply length_zero_iff_nil; lia). cbn [dnx dx dlen dh dcol]. fold e0.
    assert (Eb0 : (if (dnx d0 + n =? 64)%nat then do d <- blk e0 x; Some (mkd (dh d) (dx d) 0 (dlen d) (dcol d)) else Some e0) = Some b0).
    { unfold b0. destruct (dnx d0 + n =? 64)%nat; [|reflexivity]. rewrite Hb by exact W0. reflexivity. }
    rewrite Eb0. cbn [obind]. rewrite slice_from_ok by lia. cbn [obind].
    rewrite skipn_app, bytes_at_length, Nat.sub_diag, skipn_O, skipn_all2 by (rewrite bytes_at_length; lia). cbn [app]. rewrite X4. reflexivity.
  - cbn [obind]. rewrite Tl.
    set (e0 := mkd (dh d0) (dx d0) (dnx d0) L (dcol d0)). set (e := mkd (dh d) (dx d0) (dnx d0) L (dcol d)).
    assert (Se : shadow e0 e) by (apply shadow_mk; exact S).
    destruct (write_rest_shadow blk c m len 0 e0 e Hb Se ltac:(lia)) as (d' & q & d1 & X1 & X2 & X3 & X4 & X5). rewrite X1. cbn [obind].
    rewrite Nat.sub_0_r in X2. exists d', q, d1. split; [reflexivity|]. split; [exact X2|]. split; [exact X3|]. split; [|exact X5].
    rewrite Write_unfold by (apply U; exact X2). cbv zeta. cbn [dnx dx dlen dh dcol]. rewrite X2, El. fold L.
    destruct (Nat.ltb_spec 0 (dnx d0)); [lia|]. cbn [obind]. fold e0. rewrite X4. reflexivity.
Qed.

(** Several Writes. *)
Lemma writes_shadow blk c : block_ok blk -> forall ws d0 d s L0 all, Rep s L0 all d0 -> shadow d0 d ->
  exists d' ps d1, writes_at blk c ws d = Some d' /\ Forall2 (fun w p => length p = snd w /\ seen_in (fst w) p) ws ps /\
    Rep s L0 (all ++ concat ps) d1 /\ shadow d1 d'.
Proof.
  intros Hb. induction ws as [|[m len] ws IH]; intros d0 d s L0 all R S; cbn [writes_at].
  - exists d, [], d0. split; [reflexivity|]. split; [constructor|]. cbn [concat]. rewrite app_nil_r. split; [exact R|exact S].
  - destruct (Write_shadow blk c m len d0 d s L0 all Hb R S) as (d' & p & d1 & E & L & Sp & E1 & S1). rewrite E. cbn [obind].
    destruct (Write_ok blk Hb s L0 all d0 p R) as (d2 & E2 & R2). rewrite E1 in E2. apply some2 in E2. destruct E2 as [<- _].
    destruct (IH d1 d' s L0 (all ++ p) R2 S1) as (d3 & ps & d4 & F1 & F2 & F3 & F4).
    exists d3, (p :: ps), d4. split; [exact F1|]. split; [constructor; [split; assumption|exact F2]|].
    cbn [concat]. rewrite app_assoc. split; [exact F3|exact F4].
Qed.
(** A hasher whose buffer and length are those of another. *)
Lemma Rep_other s L0 all d0 d : Rep s L0 all d0 -> shadow d0 d -> exists L1 all1, Rep (dh d, dcol d) L1 all1 d.
Proof.
  intros (A & k & HA & Hall & Hnx & Hx & Ws & E & H0 & Hlen) (W0 & W1 & Ex & En & El & _).
  exists (L0 + N.of_nat (length A)), (firstn (dnx d) (dx d)), [], 0%nat. rewrite <- Ex, <- En. split; [reflexivity|]. split; [reflexivity|].
  split; [exact Hnx|]. split; [exact Hx|]. split; [exact W1|]. split; [reflexivity|]. split.
  - rewrite HA, Nat2N.inj_mul. change (N.of_nat 64) with 64. rewrite N.add_comm, N.mul_comm, N.add_comm, N.mod_add by discriminate. exact H0.
  - rewrite <- El, Hlen, Hall, app_length, Nat2N.inj_add, N.add_assoc. reflexivity.
Qed.

Lemma fetch_session blk c D ws inp : block_ok blk -> decides D go_detects ->
  exists d ps hash v, writes_at blk c ws New = Some d /\
    Forall2 (fun w p => length p = snd w /\ seen_in (fst w) p) ws ps /\
    CollisionResistantSum blk d inp = Some (inp ++ hash, v) /\
    v = snd (cd_sum D (concat ps)) /\ (v = false -> hash = sha1 (concat ps)).
Proof.
  intros Hb HD. destruct (writes_shadow blk c Hb ws New New (IV, false) 0 [] Rep_New) as (d & ps & d1 & E & F & R & S).
  { apply shadow_refl. repeat split; reflexivity. }
  cbn [app] in R. exists d, ps. unfold CollisionResistantSum.
  rewrite (cd_sum_agree D _ HD).
  assert (Q : exists d', checkSum blk d1 = Some (d', fst (cd_sum go_decide (concat ps))) /\ dcol d' = snd (cd_sum go_decide (concat ps))).
  { destruct (checkSum_ok blk Hb (IV, false) 0 (concat ps) d1 R) as (d' & E1 & E2). exists d'. unfold cd_sum.
    unfold pad. rewrite N.add_0_l in E1, E2. destruct (cd_blocks _ _ _). exact (conj E1 E2). }
  destruct Q as (d2 & E2 & V2). destruct (dcol d) eqn:C.
  - destruct (Rep_other _ _ _ _ _ R S) as (L1 & all1 & R1). destruct (checkSum_ok blk Hb _ L1 all1 d R1) as (d3 & E3 & V3).
    rewrite E3. cbn [obind].
    assert (T : dcol d3 = true) by (rewrite V3; apply cd_blocks_sticky; exact C).
    assert (T2 : dcol d2 = true).
    { assert (C1 : dcol d1 = true) by (rewrite <- C; apply S).
      destruct (Rep_other _ _ _ d1 d1 R) as (L2 & all2 & R2); [apply shadow_refl; apply S|].
      destruct (checkSum_ok blk Hb _ L2 all2 d1 R2) as (d4 & E4 & V4). rewrite E2 in E4. apply some2 in E4. destruct E4 as [-> _].
      rewrite V4. apply cd_blocks_sticky. exact C1. }
    eexists. exists true. split; [exact E|]. split; [exact F|]. rewrite T. split; [reflexivity|]. split; [congruence|discriminate].
  - rewrite (shadow_eq d1 d S C) in E2. rewrite E2. cbn [obind]. eexists. eexists. split; [exact E|]. split; [exact F|]. split; [reflexivity|].
    split; [exact V2|]. rewrite V2. apply cd_sum_unflagged.
Qed.

(** ** A flagged block read three times: the digest may be that of no string *)

(** The first byte of the block is overwritten after its first access. *)
Definition fetch_b2 : list byte := x00 :: tl tb_b.
Definition fetch_m : input := fun t i => if ((i =? 0) && (0 <? t))%nat then x00 else nth i tb_b x00.
Lemma fetch_first : bytes_at fetch_m 0 0 64 = tb_b /\ chunk_at fetch_m 0 0 = tb_b.
Proof. split; reflexivity. Qed.
Lemma fetch_later : bytes_at fetch_m 64 0 64 = fetch_b2 /\ bytes_at fetch_m 128 0 64 = fetch_b2 /\
  chunk_at fetch_m 1 0 = fetch_b2 /\ chunk_at fetch_m 2 0 = fetch_b2.
Proof. repeat split; reflexivity. Qed.
Lemma one_flag D h b : snd (cd_blocks D (h, false) [b]) = D h (words_of b).
Proof. reflexivity. Qed.
Lemma flag_of d b r : wfst (dh d) -> length b = 64%nat -> dcol d = false -> blockGeneric d b = Some r -> go_decide (dh d) (words_of b) = dcol r.
Proof.
  intros W L C E. rewrite blockGeneric_ok in E by exact W. injection E as <-. unfold block_result. cbv zeta. cbn [dcol].
  rewrite (blocks_one b) by exact L. rewrite C. symmetry. apply one_flag.
Qed.
Definition fetch_r : option digest := Eval vm_compute in blockGeneric tb_d tb_b.
Lemma fetch_r_eq : blockGeneric tb_d tb_b = fetch_r.
Proof. vm_compute. reflexivity. Qed.
Lemma fetch_flagged : go_decide tb_h (words_of tb_b) = true.
Proof. refine (flag_of tb_d tb_b _ _ _ _ fetch_r_eq); repeat split; reflexivity. Qed.
Lemma fetch_asm call : call_ok call ->
  asm_block_at call fetch_m 64 tb_d = Some (mkd (three tb_h tb_b fetch_b2 fetch_b2) (repeat x00 64) 0 0 true).
Proof.
  intros Hc. unfold asm_block_at. assert (W : wfst tb_h) by (repeat split; reflexivity).
  assert (X : asm_blocks_at call fetch_m 64 0 0 64 tb_h (repeat 0 80) (mkcs st0 st0 st0) false = Some (three tb_h tb_b fetch_b2 fetch_b2, true)).
  { cbn [asm_blocks_at Nat.leb Nat.add Nat.sub]. destruct fetch_first as [_ ->]. destruct fetch_later as (_ & _ & -> & ->).
    assert (Y : forall b, b = tb_b \/ b = fetch_b2 -> length (words_of b) = 16%nat /\ length (schedule (words_of b)) = 80%nat /\ length b = 64%nat).
    { intros b Hb. assert (Lb : length b = 64%nat) by (destruct Hb as [-> | ->]; reflexivity).
      assert (Z : length (words_of b) = 16%nat) by (apply words_of_length; rewrite Lb; reflexivity).
      split; [exact Z|]. split; [apply schedule_length; exact Z|exact Lb]. }
    destruct (Y tb_b ltac:(auto)) as (M1 & S1 & L1). destruct (Y fetch_b2 ltac:(auto)) as (M2 & S2 & L2).
    assert (Mw : Forall wf (words_of tb_b)) by apply wf_words_of.
    rewrite Hc by (assumption || apply repeat_length). cbn [obind]. rewrite rectify_eq by assumption. rewrite checkCollision_eq by assumption.
    rewrite fetch_flagged. cbn [obind].
    rewrite Hc by auto with wf. cbn [obind]. rewrite Hc by auto with wf. cbn [obind]. reflexivity. }
  change (dh tb_d) with tb_h. change (dcol tb_d) with false. rewrite X. reflexivity.
Qed.
Lemma fetch_generic : blockGeneric_at fetch_m 64 tb_d = Some (mkd (three tb_h tb_b fetch_b2 fetch_b2) (repeat x00 64) 0 0 true).
Proof.
  unfold blockGeneric_at. assert (W : wfst tb_h) by (repeat split; reflexivity).
  change (dh tb_d) with tb_h. change (dcol tb_d) with false.
  destruct (rehash_at_eq fetch_m 0 0 tb_h (repeat 0 16) (mkcs st0 st0 st0) false W eq_refl) as (w' & cs' & h' & t' & _ & _ & E & Eh).
  destruct fetch_first as [F _]. destruct fetch_later as (F2 & F3 & _). rewrite F, fetch_flagged in E, Eh.
  change (0 + 64)%nat with 64%nat in Eh. change (64 + 64)%nat with 128%nat in Eh. rewrite F2, F3 in Eh.
  unfold g_blocks_at. change (64 <=? 64)%nat with true. cbv iota. rewrite E. cbn [obind Nat.leb Nat.sub]. rewrite Eh. reflexivity.
Qed.
Lemma fetch_block c : block_at c fetch_m 64 tb_d = Some (mkd (three tb_h tb_b fetch_b2 fetch_b2) (repeat x00 64) 0 0 true).
Proof.
  destruct c as [|e ok|e ok]; cbn [block_at].
  - apply fetch_generic.
  - apply fetch_asm. apply call_amd64_all. auto.
  - apply fetch_asm. apply call_arm64_all. auto.
Qed.
Lemma fetch_seen p : length p = 64%nat -> seen fetch_m 0 p -> p = tb_b \/ p = fetch_b2.
Proof.
  intros L S. destruct p as [|x p]; [discriminate|].
  assert (E : p = tl tb_b).
  { apply (nth_ext _ _ x00 x00); [cbn [length] in L; injection L as L; rewrite L; reflexivity|].
    intros i Hi. destruct (S (Datatypes.S i)) as (t & Et); [cbn [length]; lia|]. cbn [nth] in Et. rewrite Et. reflexivity. }
  destruct (S 0%nat) as (t & Et); [cbn [length]; lia|]. cbn [nth] in Et. rewrite Et, E. unfold fetch_m. cbn [Nat.add Nat.eqb andb].
  destruct (0 <? t)%nat; [right|left]; reflexivity.
Qed.
Lemma one_block d b r : wfst (dh d) -> length b = 64%nat -> blockGeneric d b = Some r -> dh r = three (dh d) b b b \/ dh r = compress (dh d) (words_of b).
Proof.
  intros W L E. rewrite blockGeneric_ok in E by exact W. injection E as <-. unfold block_result. cbv zeta. cbn [dh].
  rewrite (blocks_one b) by exact L. unfold cd_blocks. cbn [fold_left fst snd]. unfold cd_block. destruct (go_decide _ _); [left|right]; reflexivity.
Qed.
Definition fetch_h : st := Eval vm_compute in three tb_h tb_b fetch_b2 fetch_b2.
Lemma fetch_h_eq : three tb_h tb_b fetch_b2 fetch_b2 = fetch_h.
Proof. vm_compute. reflexivity. Qed.
Lemma fetch_differs b : b = tb_b \/ b = fetch_b2 -> three tb_h b b b <> fetch_h /\ compress tb_h (words_of b) <> fetch_h.
Proof. intros [-> | ->]; split; vm_compute; discriminate. Qed.
Lemma fetch_refuted c : exists m len d d', wfst (dh d) /\ block_at c m len d = Some d' /\
  forall p, length p = len -> seen m 0 p -> blockGeneric d p <> Some d'.
Proof.
  exists fetch_m, 64%nat, tb_d. eexists. assert (W : wfst (dh tb_d)) by (repeat split; reflexivity). split; [exact W|]. split; [apply fetch_block|].
  rewrite fetch_h_eq. intros p L S E. destruct (fetch_differs p (fetch_seen p L S)) as [D1 D2].
  destruct (one_block tb_d p _ W L E) as [X|X]; symmetry in X; [apply D1|apply D2]; exact X.
Qed.

(** ** Any detection that decides the predicate of the code *)
Lemma cd_readings_agree D m l : decides D go_detects -> forall base h c, wfst h -> readings m base l -> cd_readings D (h, c) l = cd_readings go_decide (h, c) l.
Proof.
  intros HD. induction l as [|[[b1 b2] b3] l IH]; intros base h c Hh R; [reflexivity|]. destruct R as [Hb R]. destruct (Hb b1 ltac:(auto)) as [L1 _].
  rewrite !cd_readings_cons.
  assert (E : D h (words_of b1) = go_decide h (words_of b1)).
  { apply (decides_agree D HD); [exact Hh|apply words_of_length; rewrite L1; reflexivity|apply wf_words_of]. }
  rewrite E. apply (IH (base + 64)%nat); [|exact R]. destruct (go_decide _ _); unfold three; auto with wf.
Qed.
Lemma fetch_readings c D m len d : decides D go_detects -> wfst (dh d) ->
  exists l, length l = (len / 64)%nat /\ readings m 0 l /\
    block_at c m len d = Some (mkd (fst (cd_readings D (dh d, dcol d) l)) (dx d) (dnx d) (dlen d) (snd (cd_readings D (dh d, dcol d) l))).
Proof.
  intros HD Hd. destruct (block_at_ok c m len d Hd) as (d' & E & (l & L & R & ->)). exists l. split; [exact L|]. split; [exact R|].
  rewrite (cd_readings_agree D m l HD 0%nat) by assumption. exact E.
Qed.
Lemma fetch_verdict c m len d : wfst (dh d) ->
  exists d' p d1, block_at c m len d = Some d' /\ length p = len /\ seen m 0 p /\ blockGeneric d p = Some d1 /\ dcol d1 = dcol d' /\
    (dcol d' = false -> d1 = d').
Proof. intros Hd. destruct (block_at_one c m len d Hd) as (d' & E & (p & d1 & A)). exists d', p, d1. split; [exact E|exact A]. Qed.
Lemma fetch_session_impl b c D ws inp : decides D go_detects ->
  exists d ps hash v, writes_at (block_of b) c ws New = Some d /\
    Forall2 (fun w p => length p = snd w /\ seen_in (fst w) p) ws ps /\
    CollisionResistantSum (block_of b) d inp = Some (inp ++ hash, v) /\
    v = snd (cd_sum D (concat ps)) /\ (v = false -> hash = sha1 (concat ps)).
Proof. apply fetch_session. apply block_of_ok. Qed.
