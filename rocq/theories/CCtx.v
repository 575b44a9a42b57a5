(** The C API against the abstract hasher of Spec_C. *)

From Coq Require Import Arith ZArith NArith List Strings.Byte Lia Bool ZifyNat.
From Verif Require Import Word WordFacts Spec_Sha1 Sha1Facts Spec_DV Spec_Cd DvFacts Model_Go GoCheck GoBlock GoApi
  Spec_Api Model_CSteps Gen_CSteps Model_C Spec_C Model_CApi CSteps CProcess.
Import ListNotations.
Local Open Scope N_scope.
Ltac Zify.zify_post_hook ::= idtac.

(** The verdict of the C code on one block. *)
Definition cdec (o : copts) (h : st) (M : list word) : bool := c_decide (o_detect o) (o_ubc o) (o_reduced o) h M.

Lemma cdec_decides : cdecides cdec.
Proof.
  intros o h M Hh HM HMw. unfold cdec, c_decide, flagged, c_mask. rewrite andb_true_iff, existsb_exists.
  split; intros [Hd (d & H)]; (split; [exact Hd|]); exists d.
  - destruct H as [Hin H]. apply in_seq in Hin. apply andb_true_iff in H. destruct H as [Hm Ht].
    assert (d < 32)%nat by lia. split; [assumption|]. split.
    + intros Hu. rewrite Hu in Hm. apply mask_c_spec; assumption.
    + apply (c_test_iff (o_reduced o) d h M Hh). exact Ht.
  - destruct H as (Hlt & Hu & Ht). split; [apply in_seq; lia|]. apply andb_true_iff. split.
    + destruct (o_ubc o); [apply mask_c_spec; auto|apply full_mask_bit; assumption].
    + apply (c_test_iff (o_reduced o) d h M Hh). exact Ht.
Qed.

(** ** The context *)
Record Core (c : ctx) (s : st * bool) (L : N) (o : copts) : Prop := mkcore {
  k_ihv : c_ihv c = fst s;
  k_wf : wfst (fst s);
  k_found : c_found c = (if snd s then 1 else 0)%Z;
  k_total : c_total c = L mod M64;
  k_buffer : length (c_buffer c) = 64%nat;
  k_m1 : length (c_m1 c) = 80%nat;
  k_states : length (c_states c) = 80%nat;
  k_detect : truth (c_detect c) = o_detect o;
  k_ubc : truth (c_ubc c) = o_ubc o;
  k_reduced : truth (c_reduced c) = o_reduced o;
  k_safe : truth (c_safe c) = o_safe o }.

Definition CR (c : ctx) (a : chash) : Prop :=
  Core c (ch_mid a) (ch_len a) (ch_opts a) /\
  length (ch_pend a) = N.to_nat (ch_len a mod 64) /\ firstn (length (ch_pend a)) (c_buffer c) = ch_pend a.

Lemma wfst_cc_block D o s b : wfst (fst s) -> wfst (fst (cc_block D o s b)).
Proof. intros _. unfold cc_block. cbn [fst]. destruct (D o (fst s) (words_of b) && o_safe o); apply wfst_compress. Qed.

Lemma truth_norm v : truth (if truth v then 1 else 0)%Z = yes v.
Proof. change (truth v) with (yes v). destruct (yes v); reflexivity. Qed.

Section Cfg.
  Variable cfg : ccfg.
  Hypothesis Hcfg : host_be cfg = macro_be cfg.

  Lemma process_core c s L o block : Core c s L o -> length block = 64%nat ->
    exists c', sha1_process cfg c block = Some c' /\ Core c' (cc_block cdec o s block) L o /\ c_buffer c' = c_buffer c.
  Proof.
    intros [] Hb. destruct (process_eq cfg c block Hcfg) as (c' & E & A); try assumption.
    { rewrite k_ihv0. assumption. }
    exists c'. split; [exact E|]. cbv zeta in A. destruct A as [At Ab As Ad Au Ar Ac Ai Af Am Ast]. split; [|exact Ab].
    rewrite k_ihv0, k_detect0, k_ubc0, k_reduced0, k_safe0 in Ai.
    rewrite k_ihv0, k_detect0, k_ubc0, k_reduced0 in Af.
    fold (cdec o (fst s) (words_of block)) in Ai, Af.
    constructor.
    - exact Ai.
    - apply wfst_cc_block. assumption.
    - rewrite Af. unfold cc_block. cbn [snd]. rewrite k_found0.
      destruct (cdec o (fst s) (words_of block)), (snd s); reflexivity.
    - congruence.
    - congruence.
    - assumption.
    - assumption.
    - congruence.
    - congruence.
    - congruence.
    - congruence.
  Qed.

  Lemma core_total c s L o n : Core c s L o -> Core (set_total (add64 (c_total c) n) c) s (L + n) o.
  Proof.
    intros []. constructor; try assumption. cbn [set_total c_total]. unfold add64. rewrite k_total0.
    rewrite N.add_mod_idemp_l by discriminate. reflexivity.
  Qed.
  Lemma core_buffer c s L o b : Core c s L o -> length b = 64%nat -> Core (set_buffer b c) s L o.
  Proof. intros [] Hb. constructor; assumption. Qed.

  Lemma memcpy_ok dst k src n : (k + n <= length dst)%nat -> (n <= length src)%nat ->
    memcpy dst k src n = Some (firstn k dst ++ firstn n src ++ skipn (k + n) dst).
  Proof.
    intros H1 H2. unfold memcpy. apply Nat.leb_le in H1, H2. rewrite H1, H2. reflexivity.
  Qed.
  Lemma memcpy_len (dst : list byte) k src n : (k + n <= length dst)%nat -> (n <= length src)%nat ->
    length (firstn k dst ++ firstn n src ++ skipn (k + n) dst) = length dst.
  Proof. intros H1 H2. rewrite !app_length, !firstn_length, skipn_length. lia. Qed.

  Lemma pending_short m : (length m < 64)%nat -> pending m = m.
  Proof. intros H. unfold pending. rewrite Nat.div_small by assumption. reflexivity. Qed.
  Lemma pending_step b m : length b = 64%nat -> pending (b ++ m) = pending m.
  Proof.
    intros H. unfold pending. rewrite app_length, H.
    replace (64 + length m)%nat with (length m + 1 * 64)%nat by lia. rewrite Nat.div_add by discriminate.
    replace (64 * (length m / 64 + 1))%nat with (64 + 64 * (length m / 64))%nat by lia.
    rewrite skipn_app, H. rewrite skipn_all2 by lia. cbn [app]. f_equal. lia.
  Qed.
  Lemma pending_lt m : (length (pending m) < 64)%nat.
  Proof.
    unfold pending. rewrite skipn_length. pose proof (Nat.div_mod (length m) 64 ltac:(discriminate)).
    pose proof (Nat.mod_upper_bound (length m) 64 ltac:(discriminate)). lia.
  Qed.
  Lemma pending_length m : length (pending m) = (length m mod 64)%nat.
  Proof.
    unfold pending. rewrite skipn_length. pose proof (Nat.div_mod (length m) 64 ltac:(discriminate)). lia.
  Qed.

  Lemma firstn_skipn_64 (m : list byte) : (64 <= length m)%nat ->
    m = firstn 64 m ++ skipn 64 m /\ length (firstn 64 m) = 64%nat.
  Proof. intros H. split; [symmetry; apply firstn_skipn|rewrite firstn_length; lia]. Qed.

  Lemma blocks_step b m : length b = 64%nat -> blocks (b ++ m) = b :: blocks m.
  Proof.
    intros H. unfold blocks. rewrite app_length, H.
    replace (64 + length m)%nat with (length m + 1 * 64)%nat by lia. rewrite Nat.div_add by discriminate.
    replace (length m / 64 + 1)%nat with (S (length m / 64)) by lia.
    cbn [cut]. rewrite firstn_app, skipn_app, H, Nat.sub_diag, firstn_O, skipn_O, app_nil_r.
    rewrite firstn_all2 by lia. rewrite skipn_all2 by lia. reflexivity.
  Qed.
  Lemma blocks_lt m : (length m < 64)%nat -> blocks m = [].
  Proof. intros H. unfold blocks. rewrite Nat.div_small by assumption. reflexivity. Qed.

  Lemma update_loop_short fuel c buf : (length buf < 64)%nat -> update_loop fuel cfg c buf = Some (c, buf).
  Proof. intros H. apply Nat.ltb_lt in H. destruct fuel; cbn [update_loop]; rewrite H; reflexivity. Qed.

  Lemma update_loop_ok o : forall fuel c s L buf, (length buf <= fuel)%nat -> Core c s L o ->
    exists c', update_loop fuel cfg c buf = Some (c', pending buf) /\
      Core c' (cc_blocks cdec o s (blocks buf)) (L + N.of_nat (64 * (length buf / 64))) o.
  Proof.
    induction fuel as [|fuel IH]; intros c s L buf Hf K.
    - assert (buf = []) as -> by (destruct buf; [reflexivity|simpl in Hf; lia]).
      exists c. split; [reflexivity|]. replace (L + N.of_nat _) with L by (cbn; lia). exact K.
    - destruct (Nat.ltb_spec (length buf) 64) as [H|H].
      + exists c. rewrite update_loop_short, pending_short, blocks_lt by assumption. split; [reflexivity|].
        rewrite Nat.div_small by assumption. replace (L + N.of_nat _) with L by (cbn; lia). exact K.
      + cbn [update_loop]. replace (length buf <? 64)%nat with false by (symmetry; apply Nat.ltb_ge; assumption).
        cbv zeta. destruct (firstn_skipn_64 buf H) as [E Lb].
        set (b := firstn 64 buf) in *. set (r := skipn 64 buf) in *.
        assert (Lr : (length r <= fuel)%nat) by (unfold r; rewrite skipn_length; lia).
        pose proof (core_total _ _ _ _ 64 K) as K1. set (c1 := set_total _ c) in *.
        assert (X : exists c2, (if unaligned cfg then sha1_process cfg c1 b
             else do b0 <- memcpy (c_buffer c1) 0 buf 64; sha1_process cfg (set_buffer b0 c1) (c_buffer (set_buffer b0 c1))) = Some c2
             /\ Core c2 (cc_block cdec o s b) (L + 64) o).
        { destruct (unaligned cfg).
          - destruct (process_core _ _ _ _ b K1 Lb) as (c2 & E2 & K2 & _). eauto.
          - pose proof (k_buffer _ _ _ _ K1) as LB.
            rewrite memcpy_ok by lia. cbn [obind]. cbv zeta.
            replace (firstn 0 (c_buffer c1) ++ firstn 64 buf ++ skipn (0 + 64) (c_buffer c1)) with b.
            2:{ cbn [firstn app Nat.add]. rewrite skipn_all2 by lia. rewrite app_nil_r. reflexivity. }
            pose proof (core_buffer _ _ _ _ b K1 Lb) as K1'.
            destruct (process_core _ _ _ _ b K1' Lb) as (c2 & E2 & K2 & _).
            change (c_buffer (set_buffer b c1)) with b. eauto. }
        destruct X as (c2 & -> & K2). cbn [obind].
        destruct (IH c2 _ _ r Lr K2) as (c' & E' & K').
        exists c'. split.
        * rewrite E', E, pending_step by assumption. reflexivity.
        * rewrite E, blocks_step by assumption. rewrite app_length, Lb.
          replace (L + N.of_nat (64 * ((64 + length r) / 64))) with (L + 64 + N.of_nat (64 * (length r / 64))).
          2:{ replace (64 + length r)%nat with (length r + 1 * 64)%nat by lia. rewrite Nat.div_add by discriminate. lia. }
          exact K'.
  Qed.

  Definition update_tail (c : ctx) (buf : list byte) (left : nat) : option ctx :=
    do (c, buf) <- update_loop (length buf) cfg c buf;
    if (0 <? length buf)%nat then
      let c := set_total (add64 (c_total c) (N.of_nat (length buf))) c in
      do b <- memcpy (c_buffer c) left buf (length buf);
      Some (set_buffer b c)
    else Some c.

  Lemma mod64_nat n : N.to_nat (n mod 64) = (N.to_nat n mod 64)%nat.
  Proof. rewrite <- (N2Nat.id n) at 1. change 64 with (N.of_nat 64). rewrite <- Nat2N.inj_mod, Nat2N.id. reflexivity. Qed.
  Lemma mod64_add L n : L mod 64 = 0 -> N.to_nat ((L + N.of_nat n) mod 64) = (n mod 64)%nat.
  Proof.
    intros H. rewrite <- N.add_mod_idemp_l, H, N.add_0_l by discriminate. rewrite mod64_nat, Nat2N.id. reflexivity.
  Qed.

  Lemma update_tail_ok c s L o buf : Core c s L o -> L mod 64 = 0 ->
    exists c', update_tail c buf 0 = Some c' /\ CR c' (ch_write cdec (mkch s [] L o) buf).
  Proof.
    intros K HL. unfold update_tail.
    destruct (update_loop_ok o (length buf) c s L buf (le_n _) K) as (c1 & -> & K1). cbn [obind].
    pose proof (pending_length buf) as LP. pose proof (pending_lt buf) as LT.
    assert (EL : (64 * (length buf / 64) + length (pending buf) = length buf)%nat).
    { rewrite LP. symmetry. apply Nat.div_mod. discriminate. }
    set (p := pending buf) in *.
    assert (X : forall c', Core c' (cc_blocks cdec o s (blocks buf)) (L + N.of_nat (length buf)) o -> firstn (length p) (c_buffer c') = p ->
        CR c' (ch_write cdec (mkch s [] L o) buf)).
    { intros c' K' F. unfold CR, ch_write. cbn [ch_mid ch_pend ch_len ch_opts app]. split; [exact K'|].
      split; [|exact F]. fold p. rewrite mod64_add by assumption. exact LP. }
    destruct (Nat.ltb_spec 0 (length p)) as [Hp|Hp].
    - cbv zeta. pose proof (core_total _ _ _ _ (N.of_nat (length p)) K1) as K2. set (c2 := set_total _ c1) in *.
      pose proof (k_buffer _ _ _ _ K2) as LB.
      rewrite memcpy_ok by lia. cbn [obind]. eexists. split; [reflexivity|].
      cbn [firstn app Nat.add]. rewrite firstn_all. apply X.
      + apply core_buffer.
        * replace (L + N.of_nat (length buf)) with (L + N.of_nat (64 * (length buf / 64)) + N.of_nat (length p)) by lia. exact K2.
        * rewrite app_length, skipn_length. lia.
      + cbn [set_buffer c_buffer]. rewrite firstn_app, Nat.sub_diag, firstn_O, app_nil_r. apply firstn_all.
    - exists c1. split; [reflexivity|]. apply X.
      + replace (L + N.of_nat (length buf)) with (L + N.of_nat (64 * (length buf / 64))) by lia. exact K1.
      + replace (length p) with 0%nat by lia. destruct p; [reflexivity|simpl in Hp; lia].
  Qed.

  Lemma land63 x : N.land x 63 = x mod 64.
  Proof. change 63 with (N.ones 6). apply N.land_ones. Qed.
  Lemma m64_mod64 L : (L mod M64) mod 64 = L mod 64.
  Proof.
    change M64 with (64 * 288230376151711744).
    rewrite N.mod_mul_r by discriminate. rewrite (N.mul_comm 64 (_ mod _)), N.mod_add, N.mod_mod by discriminate. reflexivity.
  Qed.

  Lemma update_ok c a p : CR c a -> exists c', SHA1DCUpdate cfg c p = Some c' /\ CR c' (ch_write cdec a p).
  Proof.
    destruct a as [s pend L o]. intros (K & Lp & F). cbn [ch_mid ch_pend ch_len ch_opts] in *.
    unfold SHA1DCUpdate. destruct (Nat.eqb_spec (length p) 0) as [E0|Hp].
    { apply length_zero_iff_nil in E0. subst p. exists c. split; [reflexivity|].
      unfold ch_write, CR. cbn [ch_mid ch_pend ch_len ch_opts]. rewrite app_nil_r.
      pose proof (N.mod_upper_bound L 64 ltac:(discriminate)) as HB.
      rewrite blocks_lt, pending_short by lia.
      replace (L + N.of_nat (length (@nil byte))) with L by (cbn; lia).
      split; [exact K|]. split; [exact Lp|exact F]. }
    cbv zeta. rewrite land63, (k_total _ _ _ _ K), m64_mod64, <- Lp.
    pose proof (N.mod_upper_bound L 64 ltac:(discriminate)) as HB.
    assert (LP : (length pend < 64)%nat) by lia.
    assert (ELm : L mod 64 = N.of_nat (length pend)) by lia.
    destruct (Nat.eqb_spec (length pend) 0) as [Hz|Hz]; cbn [negb andb].
    - cbn [obind]. rewrite Hz. apply length_zero_iff_nil in Hz. subst pend.
      exact (update_tail_ok c s L o p K ELm).
    - destruct (Nat.leb_spec (64 - length pend) (length p)) as [Hf|Hf].
      + pose proof (core_total _ _ _ _ (N.of_nat (64 - length pend)) K) as K1.
        change (c_total (set_total ?x c)) with x in *. rewrite (k_total _ _ _ _ K) in K1. set (c1 := set_total _ c) in *.
        pose proof (k_buffer _ _ _ _ K1) as LB.
        rewrite memcpy_ok by lia. cbn [obind].
        change (c_buffer c1) with (c_buffer c) in LB |- *. rewrite F.
        replace (skipn (length pend + (64 - length pend)) (c_buffer c)) with (@nil byte) by (rewrite skipn_all2; [reflexivity|lia]).
        rewrite app_nil_r. set (b := pend ++ firstn (64 - length pend) p).
        assert (Lb : length b = 64%nat) by (unfold b; rewrite app_length, firstn_length; lia).
        pose proof (core_buffer _ _ _ _ b K1 Lb) as K2.
        destruct (process_core _ _ _ _ b K2 Lb) as (c2 & E2 & K3 & _).
        change (c_buffer (set_buffer b c1)) with b. rewrite E2. cbn [obind].
        destruct (update_tail_ok c2 _ _ _ (skipn (64 - length pend) p) K3) as (c' & E' & R).
        { rewrite <- N.add_mod_idemp_l, ELm by discriminate.
          replace (N.of_nat (length pend) + N.of_nat (64 - length pend)) with 64 by lia. reflexivity. }
        exists c'. split; [exact E'|].
        replace (ch_write cdec (mkch s pend L o) p) with
          (ch_write cdec (mkch (cc_block cdec o s b) [] (L + N.of_nat (64 - length pend)) o) (skipn (64 - length pend) p)); [exact R|].
        unfold ch_write. cbn [ch_mid ch_pend ch_len ch_opts app].
        assert (Ed : pend ++ p = b ++ skipn (64 - length pend) p).
        { unfold b. rewrite <- app_assoc, firstn_skipn. reflexivity. }
        rewrite Ed, blocks_step, pending_step by assumption. f_equal. rewrite skipn_length. lia.
      + cbn [obind]. rewrite update_loop_short by lia. cbn [obind].
        replace (0 <? length p)%nat with true by (symmetry; apply Nat.ltb_lt; lia).
        pose proof (core_total _ _ _ _ (N.of_nat (length p)) K) as K1.
        rewrite (k_total _ _ _ _ K) in K1. rewrite (k_total _ _ _ _ K). set (c1 := set_total _ c) in *.
        pose proof (k_buffer _ _ _ _ K1) as LB.
        rewrite memcpy_ok by lia. cbn [obind]. eexists. split; [reflexivity|].
        change (c_buffer c1) with (c_buffer c) at 1. rewrite F. rewrite firstn_all.
        unfold ch_write, CR. cbn [ch_mid ch_pend ch_len ch_opts].
        assert (LL : (length (pend ++ p) < 64)%nat) by (rewrite app_length; lia).
        rewrite blocks_lt, pending_short by assumption.
        split; [|split].
        * apply core_buffer; [exact K1|]. rewrite !app_length, skipn_length. lia.
        * rewrite app_length. rewrite <- N.add_mod_idemp_l, ELm by discriminate. rewrite N.mod_small by lia. lia.
        * cbn [set_buffer c_buffer]. rewrite app_assoc, firstn_app, Nat.sub_diag, firstn_O, app_nil_r. apply firstn_all.
  Qed.

  Lemma sub64_back L n : n < M64 -> sub64 ((L + n) mod M64) n = L mod M64.
  Proof.
    intros H. unfold sub64. rewrite (N.mod_small n) by assumption. rewrite N.add_mod_idemp_l by discriminate.
    replace (L + n + (M64 - n)) with (L + 1 * M64) by lia. apply N.mod_add. discriminate.
  Qed.

  Lemma pad_split L : exists k, (k = N.to_nat (if L mod 64 <? 56 then 56 - L mod 64 else 120 - L mod 64)) /\ (1 <= k <= 64)%nat /\
    firstn k sha1_padding = x80 :: zeros (k - 1) /\ padding L = firstn k sha1_padding ++ be64 ((8 * L) mod M64) /\
    (L + N.of_nat k) mod 64 = 56.
  Proof.
    pose proof (N.mod_upper_bound L 64 ltac:(discriminate)) as HB. pose proof (N.div_mod L 64 ltac:(discriminate)) as HD.
    assert (Hlt : L mod M64 < M64) by (apply N.mod_upper_bound; discriminate).
    pose proof (padding_len (L mod M64) Hlt) as Hpl. rewrite padding_mod, m64_mod64 in Hpl.
    eexists. split; [reflexivity|]. set (t := if L mod 64 <? 56 then 56 - L mod 64 else 120 - L mod 64).
    assert (Et : (if L mod 64 <? 56 then 56 - L mod 64 else 64 + 56 - L mod 64) = t) by reflexivity.
    rewrite Et in Hpl.
    assert (Ht : 1 <= t <= 64) by (unfold t; destruct (N.ltb_spec (L mod 64) 56); lia).
    set (k := N.to_nat t). assert (Hk : (1 <= k <= 64)%nat) by lia.
    assert (Ep : firstn k sha1_padding = x80 :: zeros (k - 1)).
    { change sha1_padding with (x80 :: repeat x00 63). destruct k as [|m] eqn:Ek; [lia|]. cbn [firstn]. rewrite Nat.sub_succ, Nat.sub_0_r.
      f_equal. unfold zeros. replace 63%nat with (m + (63 - m))%nat by lia.
      rewrite repeat_app, firstn_app, repeat_length, Nat.sub_diag, firstn_O, app_nil_r.
      apply firstn_all2. rewrite repeat_length. lia. }
    split; [exact Hk|]. split; [exact Ep|]. split.
    - rewrite Ep. unfold padding.
      assert (Hz : pad_zeros L = (k - 1)%nat).
      { unfold padding, zeros in Hpl. rewrite !app_length, repeat_length in Hpl.
        change (length [x80]) with 1%nat in Hpl. change (length (be64 _)) with 8%nat in Hpl. lia. }
      rewrite Hz. reflexivity.
    - unfold k. rewrite N2Nat.id. unfold t. symmetry. destruct (N.ltb_spec (L mod 64) 56).
      + apply (N.mod_unique _ _ (L / 64)); lia.
      + apply (N.mod_unique _ _ (L / 64 + 1)); lia.
  Qed.

  Lemma pending_split m : exists A k, m = A ++ pending m /\ length A = (64 * k)%nat /\ blocks m = blocks A.
  Proof.
    exists (firstn (64 * (length m / 64)) m), (length m / 64)%nat.
    assert (L : length (firstn (64 * (length m / 64)) m) = (64 * (length m / 64))%nat).
    { rewrite firstn_length. pose proof (Nat.mul_div_le (length m) 64 ltac:(discriminate)). lia. }
    assert (E : m = firstn (64 * (length m / 64)) m ++ pending m) by (symmetry; apply firstn_skipn).
    split; [exact E|]. split; [exact L|].
    rewrite E at 1. rewrite (blocks_app _ _ _ L), (blocks_lt (pending m) (pending_lt m)), app_nil_r. reflexivity.
  Qed.

  Lemma cc_blocks_app D o s x y : cc_blocks D o s (x ++ y) = cc_blocks D o (cc_blocks D o s x) y.
  Proof. unfold cc_blocks. apply fold_left_app. Qed.

  Lemma final_ok c a : CR c a ->
    let '(a', (out, f)) := ch_final cdec a in
    exists c', SHA1DCFinal cfg c = Some (c', out, (if f then 1 else 0)%Z) /\ CR c' a'.
  Proof.
    destruct a as [s pend L o]. intros R. pose proof R as (K & Lp & F). cbn [ch_mid ch_pend ch_len ch_opts] in *.
    unfold ch_final. cbn [ch_mid ch_pend ch_len ch_opts].
    unfold SHA1DCFinal. cbv zeta. rewrite land63, (k_total _ _ _ _ K), m64_mod64.
    destruct (pad_split L) as (k & Ek & Hk & _ & Epad & Em). set (t := if _ <? 56 then _ else _) in *.
    assert (Et : t = N.of_nat k) by lia. rewrite <- Ek.
    rewrite slice_to_ok by (change (length sha1_padding) with 64%nat; lia). cbn [obind].
    destruct (update_ok c _ (firstn k sha1_padding) R) as (c1 & -> & (K1 & Lp1 & F1)). cbn [obind].
    unfold ch_write in *. cbn [ch_mid ch_pend ch_len ch_opts] in *. clear R.
    assert (Lk : length (firstn k sha1_padding) = k) by (rewrite firstn_length; change (length sha1_padding) with 64%nat; lia).
    rewrite Lk in *. set (p := firstn k sha1_padding) in *. set (d1 := pend ++ p) in *.
    rewrite Em in Lp1. change (N.to_nat 56) with 56%nat in Lp1.
    rewrite (k_total _ _ _ _ K1), Et, sub64_back, shl64_3 by (unfold M64; lia).
    rewrite N.mul_mod_idemp_r by discriminate.
    pose proof (k_buffer _ _ _ _ K1) as LB.
    match goal with |- context [memcpy (c_buffer c1) 56 ?l 8] => change l with (appendUint64 ((8 * L) mod M64)) end.
    rewrite memcpy_ok by (rewrite ?LB; cbn; lia). cbn [obind].
    rewrite Lp1 in F1. rewrite F1, appendUint64_be64.
    replace (skipn (56 + 8) (c_buffer c1)) with (@nil byte) by (rewrite skipn_all2; [reflexivity|lia]). rewrite app_nil_r.
    replace (firstn 8 (be64 ((8 * L) mod M64))) with (be64 ((8 * L) mod M64)) by reflexivity.
    set (b := pending d1 ++ be64 ((8 * L) mod M64)).
    assert (Lb : length b = 64%nat) by (unfold b; rewrite app_length, Lp1; reflexivity).
    pose proof (core_buffer _ _ _ _ b K1 Lb) as K2.
    destruct (process_core _ _ _ _ b K2 Lb) as (c2 & E2 & K3 & B3).
    change (c_buffer (set_buffer b c1)) with b in *. rewrite E2. cbn [obind].
    destruct (pending_split d1) as (A & j & Ed & LA & EA).
    assert (Edata : pend ++ padding L = A ++ b).
    { rewrite Epad. unfold b. rewrite !app_assoc. fold d1. rewrite <- Ed. reflexivity. }
    rewrite Edata, (blocks_app j) by assumption. rewrite (blocks_one b Lb), cc_blocks_app, <- EA.
    cbn [cc_blocks fold_left]. change (fold_left (cc_block cdec o) (blocks d1) s) with (cc_blocks cdec o s (blocks d1)).
    set (r := cc_block cdec o (cc_blocks cdec o s (blocks d1)) b) in *.
    exists c2. split.
    - rewrite (k_ihv _ _ _ _ K3), (k_found _ _ _ _ K3). do 3 f_equal.
      change (appendUint32 (sa (fst r)) ++ appendUint32 (sb (fst r)) ++ appendUint32 (sc (fst r)) ++ appendUint32 (sd (fst r)) ++ appendUint32 (se (fst r)) = st_bytes (fst r)).
      rewrite !appendUint32_be32. reflexivity.
    - unfold CR. cbn [ch_mid ch_pend ch_len ch_opts].
      assert (Ep : firstn 56 (skipn (length (A ++ b) - 64) (A ++ b)) = pending d1).
      { rewrite app_length, Lb. replace (length A + 64 - 64)%nat with (length A) by lia.
        rewrite skipn_app, skipn_all, Nat.sub_diag, skipn_O. cbn [app]. unfold b.
        rewrite firstn_app, Lp1, Nat.sub_diag, firstn_O, app_nil_r. apply firstn_all2. lia. }
      assert (El : (length (padding L) - 8)%nat = k).
      { rewrite Epad, app_length, Lk. change (length (be64 _)) with 8%nat. lia. }
      rewrite Ep, El, Lp1, Em. split; [exact K3|]. split; [reflexivity|].
      rewrite B3. unfold b. rewrite firstn_app, Lp1, Nat.sub_diag, firstn_O, app_nil_r. apply firstn_all2. lia.
  Qed.

  Lemma init_ok c : ctx_typed c -> CR (SHA1DCInit c) ch_init.
  Proof.
    intros (Hb & H1 & H2 & H3). split; [|split; reflexivity].
    constructor; try reflexivity; try assumption. apply wfst_IV.
  Qed.

  Lemma exec_ok c a op : CR c a -> exists c', capi_exec cfg c op = Some (c', snd (ch_exec cdec a op)) /\ CR c' (fst (ch_exec cdec a op)).
  Proof.
    intros R. destruct op as [|v|v|v|v|f|p|]; cbn [capi_exec ch_exec fst snd set_opt].
    - eexists. split; [reflexivity|]. destruct R as ([] & Lp & F).
      split; [|split; reflexivity]. constructor; try reflexivity; try assumption. apply wfst_IV.
    - eexists. split; [reflexivity|]. destruct R as ([] & Lp & F). split; [|split; assumption].
      constructor; try assumption. exact (truth_norm v).
    - eexists. split; [reflexivity|]. destruct R as ([] & Lp & F). split; [|split; assumption].
      constructor; try assumption. exact (truth_norm v).
    - eexists. split; [reflexivity|]. destruct R as ([] & Lp & F). split; [|split; assumption].
      constructor; try assumption. exact (truth_norm v).
    - eexists. split; [reflexivity|]. destruct R as ([] & Lp & F). split; [|split; assumption].
      constructor; try assumption. exact (truth_norm v).
    - eexists. split; [reflexivity|]. destruct R as ([] & Lp & F). split; [|split; assumption].
      constructor; assumption.
    - destruct (update_ok c a p R) as (c' & -> & R'). cbn [obind]. eauto.
    - pose proof (final_ok c a R) as H. destruct (ch_final cdec a) as [a' [out f]]. destruct H as (c' & -> & R').
      cbn [obind fst snd]. eauto.
  Qed.

  Lemma crun_ok : forall ops c a, CR c a ->
    exists c', capi_run cfg c ops = Some (c', snd (ch_run cdec a ops)) /\ CR c' (fst (ch_run cdec a ops)).
  Proof.
    induction ops as [|op ops IH]; intros c a R; cbn [capi_run ch_run fst snd].
    - eauto.
    - destruct (exec_ok c a op R) as (c1 & -> & R1). cbn [obind].
      destruct (ch_exec cdec a op) as [a1 r1]. cbn [fst snd] in *.
      destruct (IH c1 a1 R1) as (c2 & -> & R2). cbn [obind].
      destruct (ch_run cdec a1 ops) as [a2 rs]. eauto.
  Qed.

  (** Any sequence of API calls on a context with arbitrary contents that starts with SHA1DCInit. *)
  Lemma capi_ok c ops : ctx_typed c -> exists c', capi_run cfg c (CInit :: ops) = Some (c', CNone :: snd (ch_run cdec ch_init ops)) /\
    CR c' (fst (ch_run cdec ch_init ops)).
  Proof.
    intros T. cbn [capi_run capi_exec obind].
    destruct (crun_ok ops _ _ (init_ok c T)) as (c' & -> & R). cbn [obind]. eauto.
  Qed.
End Cfg.
