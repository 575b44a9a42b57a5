(** The methods of the Go hasher against the specification. *)

From Coq Require Import Arith ZArith NArith List Strings.Byte Lia Bool ZifyNat.
From Verif Require Import Word WordFacts Spec_Sha1 Sha1Facts Spec_DV Spec_Cd DvFacts Model_Go GoCheck GoBlock.
Import ListNotations.
Local Open Scope N_scope.
Ltac Zify.zify_post_hook ::= idtac.
(** lia without the hypotheses about reduced lengths, which slow it down. *)
Ltac nlia := repeat match goal with H : context [N.modulo] |- _ => clear H end;
  repeat match goal with H : context [cd_blocks] |- _ => clear H end; lia.

(** ** Bytes *)
Lemma appendUint32_be32 v : appendUint32 v = be32 v.
Proof. unfold appendUint32, be32. rewrite !N.shiftr_div_pow2. reflexivity. Qed.
Lemma appendUint64_be64 v : appendUint64 v = be64 v.
Proof. unfold appendUint64, be64. rewrite !N.shiftr_div_pow2. reflexivity. Qed.

Lemma ldiff63 n : Nat.ldiff n 63 = (64 * (n / 64))%nat.
Proof.
  change 63%nat with (Nat.ones 6). rewrite Nat.ldiff_ones_r.
  rewrite Nat.shiftr_div_pow2, Nat.shiftl_mul_pow2. change (2 ^ 6)%nat with 64%nat. apply Nat.mul_comm.
Qed.

Lemma slice_from_ok {A} (l : list A) n : (n <= length l)%nat -> slice_from l n = Some (skipn n l).
Proof. intros H. unfold slice_from. apply Nat.leb_le in H. rewrite H. reflexivity. Qed.
Lemma slice_to_ok {A} (l : list A) n : (n <= length l)%nat -> slice_to l n = Some (firstn n l).
Proof. intros H. unfold slice_to. apply Nat.leb_le in H. rewrite H. reflexivity. Qed.

Lemma copy_at_length dst k src : (k <= length dst)%nat -> length (fst (copy_at dst k src)) = length dst.
Proof.
  intros H. unfold copy_at. cbn [fst]. rewrite !app_length, !firstn_length, skipn_length. lia.
Qed.
Lemma copy_at_prefix dst k src : (k <= length dst)%nat ->
  let n := Nat.min (length dst - k) (length src) in
  firstn (k + n) (fst (copy_at dst k src)) = firstn k dst ++ firstn n src.
Proof.
  intros H n. unfold copy_at. cbn [fst]. fold n. rewrite app_assoc, firstn_app.
  rewrite app_length, !firstn_length.
  replace (k + n - _)%nat with 0%nat by lia. rewrite firstn_O, app_nil_r.
  apply firstn_all2. rewrite app_length, !firstn_length. lia.
Qed.

(** ** Representation

    [Rep s L0 all d]: the hasher [d] started from chaining value and flag [s] at total
    length [L0] (a whole number of blocks) and has absorbed the bytes [all] since. *)
Definition Rep (s : st * bool) (L0 : N) (all : list byte) (d : digest) : Prop :=
  exists A k, length A = (64 * k)%nat /\ all = A ++ firstn (dnx d) (dx d) /\
    (dnx d < 64)%nat /\ length (dx d) = 64%nat /\ wfst (fst s) /\
    (dh d, dcol d) = cd_blocks go_decide s (blocks A) /\
    L0 mod 64 = 0 /\ dlen d = (L0 + N.of_nat (length all)) mod M64.

Lemma Rep_wf s L0 all d : Rep s L0 all d -> wfst (dh d).
Proof.
  intros (A & k & _ & _ & _ & _ & W & E & _).
  change (dh d) with (fst (dh d, dcol d)). rewrite E. apply wfst_cd_blocks. assumption.
Qed.

Lemma Rep_New : Rep (IV, false) 0 [] New.
Proof.
  exists [], 0%nat. repeat split; cbn; auto; try lia; try reflexivity.
Qed.

Lemma firstn_nil_0 {A} (l : list A) : firstn 0 l = []. Proof. reflexivity. Qed.

(** The part of Write that hands whole blocks to the block function. *)
Definition write_blocks (blk : blockfn) (d : digest) (p : list byte) : option (digest * list byte) :=
  if (64 <=? length p)%nat then
       let n := Nat.ldiff (length p) (64 - 1) in
       do q <- slice_to p n;
       do d <- blk d q;
       do p <- slice_from p n;
       Some (d, p)
     else Some (d, p).

(** The second half of Write: a hasher with an empty buffer absorbs p. *)
Definition write_rest (blk : blockfn) (d : digest) (p : list byte) : option digest :=
  do (d, p) <- write_blocks blk d p;
  Some (if (0 <? length p)%nat then
       let '(x, n) := copy_at (dx d) 0 p in
       mkd (dh d) x n (dlen d) (dcol d)
     else d).

Lemma write_rest_short blk d : write_rest blk d [] = Some d.
Proof. reflexivity. Qed.

Section Blk.
  Variable blk : blockfn.
  Hypothesis Hblk : block_ok blk.

  (** The state just after whole blocks [A] were absorbed, the length already counting
      everything. *)
  Lemma write_rest_ok s L0 A k p d :
    length A = (64 * k)%nat -> dnx d = 0%nat -> length (dx d) = 64%nat -> wfst (fst s) ->
    (dh d, dcol d) = cd_blocks go_decide s (blocks A) -> L0 mod 64 = 0 ->
    dlen d = (L0 + N.of_nat (length (A ++ p))) mod M64 ->
    exists d', write_rest blk d p = Some d' /\ Rep s L0 (A ++ p) d'.
  Proof.
    intros HA Hnx Hx Ws E H0 Hlen. unfold write_rest.
    assert (Wd : wfst (dh d)).
    { change (dh d) with (fst (dh d, dcol d)). rewrite E. apply wfst_cd_blocks. assumption. }
    (* after the block call *)
    assert (Hmid : exists d1 p1 q j, write_blocks blk d p = Some (d1, p1) /\ p = q ++ p1 /\ length q = (64 * j)%nat /\ (length p1 < 64)%nat /\
       dnx d1 = 0%nat /\ length (dx d1) = 64%nat /\ dlen d1 = dlen d /\
       (dh d1, dcol d1) = cd_blocks go_decide s (blocks (A ++ q))).
    { unfold write_blocks. destruct (Nat.leb_spec 64 (length p)).
      - cbv zeta. change (64 - 1)%nat with 63%nat. rewrite ldiff63.
        assert (Hle : (64 * (length p / 64) <= length p)%nat) by (apply Nat.mul_div_le; discriminate).
        assert (Hlt : (length p < 64 * (length p / 64) + 64)%nat).
        { pose proof (Nat.div_mod (length p) 64 ltac:(discriminate)).
          pose proof (Nat.mod_upper_bound (length p) 64 ltac:(discriminate)). lia. }
        rewrite slice_to_ok by assumption. cbn [obind]. rewrite Hblk by assumption. cbn [obind].
        rewrite slice_from_ok by assumption. cbn [obind].
        eexists _, _, (firstn (64 * (length p / 64)) p), (length p / 64)%nat. split; [reflexivity|].
        split; [symmetry; apply firstn_skipn|]. rewrite firstn_length, skipn_length.
        split; [lia|]. split; [lia|].
        unfold block_result. cbn [dnx dx dlen dh dcol]. repeat (split; [assumption || reflexivity|]).
        rewrite (blocks_app k) by assumption. rewrite cd_blocks_app, <- E.
        destruct (cd_blocks _ (dh d, dcol d) _). reflexivity.
      - exists d, p, [], 0%nat. rewrite app_nil_r. auto 10. }
    destruct Hmid as (d1 & p1 & q & j & E1 & -> & Hq & Hp1 & Hnx1 & Hx1 & Hlen1 & Ed1).
    rewrite E1. cbn [obind]. clear E1.
    eexists. split; [reflexivity|].
    destruct (Nat.ltb_spec 0 (length p1)) as [Hpos|Hz].
    - cbv beta iota zeta delta [copy_at]. cbn [firstn app Nat.add]. rewrite Hx1.
      replace (Nat.min (64 - 0) (length p1)) with (length p1) by lia.
      exists (A ++ q), (k + j)%nat. cbn [dnx dx dlen dh dcol].
      rewrite firstn_all. split; [rewrite app_length; lia|].
      split.
      { rewrite firstn_app, Nat.sub_diag, firstn_O, app_nil_r, firstn_all, <- app_assoc. reflexivity. }
      split; [assumption|]. split; [rewrite app_length, skipn_length; lia|].
      split; [assumption|]. split; [assumption|]. split; [assumption|]. congruence.
    - assert (p1 = []) as -> by (destruct p1; [reflexivity|simpl in Hz; lia]).
      rewrite app_nil_r in *. exists (A ++ q), (k + j)%nat. rewrite Hnx1, firstn_O, app_nil_r.
      split; [rewrite app_length; lia|]. split; [reflexivity|]. split; [lia|].
      split; [assumption|]. split; [assumption|]. split; [assumption|]. split; [assumption|]. congruence.
  Qed.

  Lemma Write_unfold d p : p <> [] ->
    Write blk d p =
    (let d := mkd (dh d) (dx d) (dnx d) ((dlen d + N.of_nat (length p)) mod M64) (dcol d) in
     do (d, q) <-
      (if (0 <? dnx d)%nat then
         do _ <- slice_from (dx d) (dnx d);
         let '(x, n) := copy_at (dx d) (dnx d) p in
         let d := mkd (dh d) x (dnx d + n) (dlen d) (dcol d) in
         do d <- (if (dnx d =? 64)%nat then
                    do d <- blk d (dx d);
                    Some (mkd (dh d) (dx d) 0 (dlen d) (dcol d))
                  else Some d);
         do p <- slice_from p n;
         Some (d, p)
       else Some (d, p));
     do d <- write_rest blk d q;
     Some (d, length p)).
  Proof.
    intros Hp. unfold Write. destruct (Nat.eqb_spec (length p) 0) as [E|_].
    { apply length_zero_iff_nil in E. contradiction. }
    cbv zeta. match goal with |- obind ?x _ = obind ?y _ => change y with x; destruct x as [[d1 p1]|] end; [|reflexivity].
    cbn [obind]. unfold write_rest, write_blocks.
    match goal with |- obind ?x _ = obind (obind ?y _) _ => change y with x; destruct x as [[d2 p2]|] end; reflexivity.
  Qed.

  Lemma Write_ok s L0 all d p : Rep s L0 all d ->
    exists d', Write blk d p = Some (d', length p) /\ Rep s L0 (all ++ p) d'.
  Proof.
    intros R. destruct p as [|c p'] eqn:Ep.
    { exists d. rewrite app_nil_r. split; [reflexivity|assumption]. }
    rewrite <- Ep. assert (Hp : p <> []) by (rewrite Ep; discriminate). clear Ep c p'. rename p into p0. rename p0 into p.
    rewrite Write_unfold by assumption. cbv zeta.
    pose proof (Rep_wf _ _ _ _ R) as Wd.
    destruct R as (A & k & HA & Hall & Hnx & Hx & Ws & E & H0 & Hlen).
    cbn [dnx dx dlen dh dcol].
    assert (Hlen' : (dlen d + N.of_nat (length p)) mod M64 = (L0 + N.of_nat (length (all ++ p))) mod M64).
    { rewrite Hlen, app_length, Nat2N.inj_add, N.add_mod_idemp_l by discriminate. f_equal. nlia. }
    destruct (Nat.ltb_spec 0 (dnx d)) as [Hpos|Hz].
    - rewrite slice_from_ok by nlia. cbn [obind].
      pose proof (copy_at_length (dx d) (dnx d) p ltac:(nlia)) as Lx.
      pose proof (copy_at_prefix (dx d) (dnx d) p ltac:(nlia)) as Px. cbv zeta in Px.
      set (n := Nat.min (length (dx d) - dnx d) (length p)) in *.
      assert (Hn1 : (n <= length p)%nat) by apply Nat.le_min_r.
      assert (Hn2 : (dnx d + n <= 64)%nat) by nlia.
      assert (Hn3 : (dnx d + n <> 64)%nat -> n = length p) by nlia.
      assert (Ec : copy_at (dx d) (dnx d) p = (fst (copy_at (dx d) (dnx d) p), n)) by reflexivity.
      rewrite Ec. clear Ec. clearbody n. set (x' := fst (copy_at (dx d) (dnx d) p)) in *. cbn [dnx dx dlen dh dcol].
      destruct (Nat.eqb_spec (dnx d + n) 64) as [H64|H64].
      + rewrite Hblk by assumption. cbn [obind].
        rewrite slice_from_ok by nlia. cbn [obind].
        assert (Hx' : x' = firstn (dnx d) (dx d) ++ firstn n p).
        { rewrite <- Px, H64. symmetry. apply firstn_all2. nlia. }
        assert (Lx' : length x' = 64%nat) by nlia.
        replace (all ++ p) with ((A ++ x') ++ skipn n p).
        2:{ rewrite Hx', Hall, <- !app_assoc. do 2 f_equal. apply firstn_skipn. }
        unfold block_result. cbn [dnx dx dlen dh dcol].
        destruct (write_rest_ok s L0 (A ++ x') (k + 1) (skipn n p)
          (mkd (fst (cd_blocks go_decide (dh d, dcol d) (blocks x'))) x' 0
               ((dlen d + N.of_nat (length p)) mod M64)
               (snd (cd_blocks go_decide (dh d, dcol d) (blocks x'))))) as (d' & W & R); cbn [dnx dx dlen dh dcol]; auto.
        * rewrite app_length. nlia.
        * rewrite (blocks_app k) by assumption. rewrite cd_blocks_app, <- E.
          destruct (cd_blocks go_decide (dh d, dcol d) (blocks x')). reflexivity.
        * rewrite Hlen'. do 3 f_equal. rewrite Hall, <- !app_assoc. rewrite !app_length, Lx', skipn_length, firstn_length, Hx. nlia.
        * rewrite W. cbn [obind]. eauto.
      + cbn [obind]. assert (Hn : n = length p) by auto.
        rewrite slice_from_ok by nlia. cbn [obind]. rewrite Hn, skipn_all, write_rest_short. cbn [obind].
        eexists. split; [reflexivity|].
        exists A, k. cbn [dnx dx dlen dh dcol].
        split; [assumption|]. split.
        { rewrite <- Hn, Px, Hn, firstn_all, Hall, app_assoc. reflexivity. }
        split; [nlia|]. split; [nlia|]. split; [assumption|]. split; [assumption|]. split; assumption.
    - cbn [obind]. assert (Hnx0 : dnx d = 0%nat) by nlia.
      rewrite Hnx0, firstn_O, app_nil_r in Hall. subst all.
      destruct (write_rest_ok s L0 A k p (mkd (dh d) (dx d) (dnx d) ((dlen d + N.of_nat (length p)) mod M64) (dcol d)))
        as (d' & W & R); cbn [dnx dx dlen dh dcol]; auto.
      rewrite W. cbn [obind]. eauto.
  Qed.

  (** ** checkSum *)
  Lemma padding_len len : len < M64 ->
    length (padding len) = N.to_nat ((if len mod 64 <? 56 then 56 - len mod 64 else 64 + 56 - len mod 64) + 8).
  Proof.
    intros _. unfold padding, pad_zeros, zeros. rewrite !app_length, repeat_length.
    change (length [x80]) with 1%nat. change (length (be64 _)) with 8%nat.
    pose proof (N.mod_upper_bound len 64 ltac:(discriminate)) as Hr.
    pose proof (N.div_mod len 64 ltac:(discriminate)) as Hd.
    set (r := len mod 64) in *.
    assert (E : (len + 9) mod 64 = if r <? 55 then r + 9 else r + 9 - 64).
    { destruct (N.ltb_spec r 55).
      - symmetry. apply (N.mod_unique _ _ (len / 64)); lia.
      - symmetry. apply (N.mod_unique _ _ (len / 64 + 1)); lia. }
    rewrite E. destruct (N.ltb_spec r 55), (N.ltb_spec r 56); try (exfalso; lia).
    - rewrite N.mod_small by lia. lia.
    - replace (64 - (r + 9 - 64)) with (1 * 64) by lia. rewrite N.mod_mul by discriminate. lia.
    - rewrite N.mod_small by lia. lia.
  Qed.

  Lemma padding_mod len : padding (len mod M64) = padding len.
  Proof.
    assert (E : (len mod M64) mod 64 = len mod 64).
    { change M64 with (64 * 288230376151711744).
      rewrite N.mod_mul_r by discriminate. rewrite (N.mul_comm 64 (_ mod _)), N.mod_add, N.mod_mod by discriminate. reflexivity. }
    unfold padding, pad_zeros.
    rewrite (N.add_mod (len mod M64) 9), E, <- N.add_mod by discriminate.
    rewrite N.mul_mod_idemp_r by discriminate. reflexivity.
  Qed.

  Lemma shl64_3 len : shl64 len 3 = (8 * len) mod M64.
  Proof. unfold shl64. rewrite N.shiftl_mul_pow2. f_equal. change (2 ^ 3) with 8. lia. Qed.

  Lemma repeat_split {A} (c : A) n m : repeat c (n + m) = repeat c n ++ repeat c m.
  Proof. apply repeat_app. Qed.

  Lemma checkSum_ok s L0 all d : Rep s L0 all d ->
    exists d', let r := cd_blocks go_decide s (blocks (all ++ padding (L0 + N.of_nat (length all)))) in
    checkSum blk d = Some (d', st_bytes (fst r)) /\ dcol d' = snd r.
  Proof.
    intros R. assert (Hlen : dlen d = (L0 + N.of_nat (length all)) mod M64).
    { destruct R as (A & k & _ & _ & _ & _ & _ & _ & _ & H). exact H. }
    assert (Hlt : dlen d < M64) by (rewrite Hlen; apply N.mod_upper_bound; discriminate).
    pose proof (padding_len (dlen d) Hlt) as Hpl.
    assert (Epad : padding (dlen d) = padding (L0 + N.of_nat (length all))) by (rewrite Hlen; apply padding_mod).
    unfold checkSum. set (t := if dlen d mod 64 <? 56 then _ else _) in *.
    pose proof (N.mod_upper_bound (dlen d) 64 ltac:(discriminate)) as Hr.
    assert (Ht : 1 <= t <= 64).
    { unfold t. destruct (N.ltb_spec (dlen d mod 64) 56); lia. }
    set (tn := N.to_nat t) in *. assert (Htn : (1 <= tn <= 64)%nat) by lia.
    rewrite slice_to_ok by (cbn [length]; rewrite repeat_length; lia). cbn [obind].
    rewrite slice_from_ok by (cbn [length]; rewrite repeat_length; lia). cbn [obind].
    rewrite slice_from_ok by (rewrite skipn_length; cbn [length]; rewrite repeat_length; lia). cbn [obind].
    assert (Epl : firstn (tn + 8) (firstn tn (x80 :: repeat x00 71) ++ appendUint64 (shl64 (dlen d) 3) ++
        skipn 8 (skipn tn (x80 :: repeat x00 71))) = padding (dlen d)).
    { rewrite app_assoc, firstn_app.
      rewrite firstn_all2 by (rewrite app_length, firstn_length; change (length (appendUint64 _)) with 8%nat; lia).
      rewrite app_length, firstn_length. cbn [length]. rewrite repeat_length.
      change (length (appendUint64 _)) with 8%nat.
      replace (tn + 8 - (Nat.min tn 72 + 8))%nat with 0%nat by lia. rewrite firstn_O, app_nil_r.
      rewrite shl64_3, appendUint64_be64. unfold padding. rewrite app_assoc. f_equal.
      assert (Hz : pad_zeros (dlen d) = (tn - 1)%nat).
      { unfold padding, zeros in Hpl. rewrite !app_length, repeat_length in Hpl.
        change (length [x80]) with 1%nat in Hpl. change (length (be64 _)) with 8%nat in Hpl. lia. }
      rewrite Hz. destruct tn as [|m]; [lia|]. cbn [firstn]. rewrite Nat.sub_succ, Nat.sub_0_r.
      cbn [app]. f_equal. unfold zeros. replace 71%nat with (m + (71 - m))%nat by lia.
      rewrite repeat_app, firstn_app, repeat_length, Nat.sub_diag, firstn_O, app_nil_r.
      apply firstn_all2. rewrite repeat_length. lia. }
    rewrite Epl.
    destruct (Write_ok s L0 all d (padding (dlen d)) R) as (d' & W & R'). rewrite W. cbn [obind].
    rewrite Epad in R'. clear W Epl.
    destruct R' as (A & k & HA & Hall & Hnx & Hx & Ws & E & H0 & Hl').
    (* the total is a whole number of blocks *)
    assert (Hmod : exists j, (L0 + N.of_nat (length (all ++ padding (L0 + N.of_nat (length all))))) = 64 * j).
    { rewrite app_length, <- Epad, Hpl. unfold t. rewrite Nat2N.inj_add, N2Nat.id.
      apply N.mod_divide in H0; [|discriminate]. destruct H0 as [q0 ->].
      assert (Er : dlen d mod 64 = N.of_nat (length all) mod 64).
      { rewrite Hlen. change M64 with (64 * 288230376151711744).
        rewrite N.mod_mul_r by discriminate. rewrite (N.mul_comm 64 (_ mod _)), N.mod_add, N.mod_mod by discriminate.
        rewrite N.add_comm, N.mod_add by discriminate. reflexivity. }
      pose proof (N.div_mod (N.of_nat (length all)) 64 ltac:(discriminate)) as Hd. rewrite <- Er in Hd.
      set (r := dlen d mod 64) in *. set (y := N.of_nat (length all) / 64) in *.
      clear - Hd Hr. clearbody r y.
      destruct (N.ltb_spec r 56) as [H|H].
      - exists (q0 + y + 1). lia.
      - exists (q0 + y + 2). lia. }
    assert (Hnx0 : dnx d' = 0%nat).
    { destruct Hmod as (j & Hj).
      apply N.mod_divide in H0; [|discriminate]. destruct H0 as [q0 ->].
      rewrite Hall, app_length, HA, firstn_length, Hx in Hj. lia. }
    rewrite Hnx0. cbn [Nat.eqb negb].
    rewrite Hnx0, firstn_O, app_nil_r in Hall. rewrite Hall, <- E. cbn [fst snd].
    exists d'. rewrite !appendUint32_be32. split; reflexivity.
  Qed.
End Blk.
