(** The arm64 routine on slices of any length: only the first block counts. *)

From Coq Require Import Arith NArith List Strings.Byte Bool Lia ZifyNat.
From Verif Require Import Word WordFacts Spec_Sha1 Sha1Facts Model_Go Model_Asm Model_Arm64 Gen_Arm64 AsmSym Arm64Sym GoArm64 AsmMulti.
Import ListNotations.
Ltac Zify.zify_post_hook ::= idtac.
Local Open Scope N_scope.

(** ** Runs of a number of instructions *)
Fixpoint xrun_n (L : layout) (prog : list ainstr) (n : nat) (s : amach) : option amach :=
  match n with
  | O => Some s
  | S n => do i <- nth_error prog (xpc s); do s <- xstep L i s; xrun_n L prog n s
  end.
Lemma xexec_run L prog n : forall s t f, xrun_n L prog n s = Some t -> xexec L prog (n + f) s = xexec L prog f t.
Proof.
  induction n as [|n IH]; intros s t f H; cbn [xrun_n Nat.add] in *; [injection H as ->; reflexivity|]. cbn [xexec].
  destruct (nth_error prog (xpc s)) as [i|]; [|discriminate]. cbn [obind] in H.
  destruct (xstep L i s) as [s1|] eqn:E; [|discriminate]. cbn [obind] in H.
  destruct i; try discriminate E; cbn [obind]; apply IH; exact H.
Qed.
Lemma xrun_app L prog n : forall k s t u, xrun_n L prog n s = Some t -> xrun_n L prog k t = Some u -> xrun_n L prog (n + k) s = Some u.
Proof.
  induction n as [|n IH]; intros k s t u H K; cbn [xrun_n Nat.add] in *; [injection H as ->; exact K|].
  destruct (nth_error prog (xpc s)) as [i|]; [|discriminate]. cbn [obind] in *.
  destruct (xstep L i s) as [s1|]; [|discriminate]. cbn [obind] in *. eapply IH; eassumption.
Qed.
Lemma xrun_one L prog s i t : nth_error prog (xpc s) = Some i -> xstep L i s = Some t -> xrun_n L prog 1 s = Some t.
Proof. intros H E. cbn [xrun_n]. rewrite H. cbn [obind]. rewrite E. reflexivity. Qed.

Section Sub.
  Variables L L' : layout.
  Hypothesis HS : sub L L'.
  Lemma xsub_step i s s' : xstep L i s = Some s' -> xstep L' i s = Some s'.
  Proof.
    pose proof (sub_rd L L' HS) as R. pose proof (sub_wr L L' HS) as W. destruct HS as ((A & B & C) & _).
    destruct i; cbn [xstep]; rewrite <- ?A, <- ?B; try (intros E; exact E);
      intros E; match type of E with obind ?x _ = _ => destruct x eqn:F; [|discriminate E] end;
      first [apply R in F|apply W in F]; rewrite F; exact E.
  Qed.
  Lemma xsub_exec prog n : forall s s', xexec L prog n s = Some s' -> xexec L' prog n s = Some s'.
  Proof.
    induction n as [|n IH]; intros s s' H; [exact H|]. cbn [xexec] in *. destruct (nth_error prog (xpc s)) as [i|]; [|discriminate].
    destruct (xstep L i s) as [t|] eqn:E.
    - rewrite (xsub_step _ _ _ E). destruct i; cbn [obind] in *; auto.
    - destruct i; try discriminate H. exact H.
  Qed.
End Sub.

(** ** After the comparison *)
Definition at13 : xst :=
  mkxst 13 (fun r => match r with 0 => RG (GP 0 0) | 1 => RG (GP 1 0) | 3 => RG (GP 2 0) | 4 => RG (GP 3 0) | _ => RG GU end%nat)
    (fun x => match x with 0 => mkav (AS 0 0) (AS 0 1) (AS 0 2) (AS 0 3) | 20 => mkav (AS 0 4) (AC 0) (AC 0) (AC 0) | _ => mkav AU AU AU AU end%nat)
    (mkcell 6 0 (KV (mkav (AC 0x5A827999) (AC 0x6ED9EBA1) (AC 0x8F1BBCDC) (AC 0xCA62C1D6))) :: p_cells) None.
Lemma arm_symbolic : match bexec false arm64_prog 987 at13 with Some a => has_cells exit_cells (bce a) | None => false end = true.
Proof. vm_compute. reflexivity. Qed.

Section Whole.
  Variable e : aenv.
  Variables (h : st) (p : list byte) (m1 : list word) (cs : csarr).
  Let L := ae_lay e.
  Hypothesis HL : layout_for (N.of_nat (length p)) L.
  Hypothesis Hh : wfst h.
  Hypothesis Hm : length m1 = 80%nat.
  Let s0 := aentry sha1Ks e h p m1 cs.
  Let r16 := ae_g e 16%nat mod M64.
  (** The number of bytes of p, rounded down to whole blocks. *)
  Let whole := 64 * (N.of_nat (length p) / 64).

  Lemma xarg_step off r v s : xm s = xm s0 -> (off + 8 <= 96)%nat ->
    firstn 8 (skipn off (args_bytes L (N.of_nat (length p)))) = le64 v -> v < M64 ->
    xstep L (MOVD_arg (N.of_nat off) r) s = Some (xsetg r v s).
  Proof.
    intros M O B V. cbn [xstep]. rewrite M.
    destruct (arg_rd L sha1Ks (repeat x00 16) (ae_mem e) h p m1 cs HL eq_refl eq_refl Hm off v O B V) as (l & E & Q).
    unfold s0. cbn [aentry xm]. fold L. rewrite E. cbn [obind]. rewrite Q. reflexivity.
  Qed.
  Lemma xbnd i : (i < 8)%nat -> rbase (creg L i) + rsize (creg L i) < M64.
  Proof. apply (lf_facts _ _ HL). Qed.
  Lemma h_bnd : l_h L + 20 < M64.
  Proof. exact (xbnd 0%nat ltac:(lia)). Qed.
  Lemma xnp_lt : l_p L + N.of_nat (length p) < M64.
  Proof. pose proof (xbnd 1%nat ltac:(lia)) as B. cbn [creg nth regions rbase rsize] in B. destruct HL as (_ & _ & _ & _ & E). lia. Qed.
  Lemma whole_eq : N.shiftl (N.shiftr (N.of_nat (length p)) 6) 6 mod M64 = whole.
  Proof.
    rewrite N.shiftr_div_pow2, N.shiftl_mul_pow2. change (2 ^ 6) with 64. pose proof xnp_lt.
    pose proof (N.mul_div_le (N.of_nat (length p)) 64 ltac:(discriminate)). unfold whole. rewrite N.mod_small by lia. lia.
  Qed.
  Lemma h_rd off k : off + N.of_nat k <= 20 -> rd (regions L) (xm s0) (l_h L + off) k = Some (peek (xm s0) (l_h L + off) k).
  Proof.
    intros H. unfold rd. replace (readable _ _ _) with true; [reflexivity|]. symmetry. apply existsb_exists. exists (creg L 0).
    split; [left; reflexivity|]. unfold inside. cbn [creg nth regions rbase rsize]. apply andb_true_intro. split; apply N.leb_le; lia.
  Qed.
  Lemma h_wr m off l : off + N.of_nat (length l) <= 20 -> wr (regions L) m (l_h L + off) l = Some (poke m (l_h L + off) l).
  Proof.
    intros H. unfold wr. replace (writable _ _ _) with true; [reflexivity|]. symmetry. apply existsb_exists. exists (creg L 0).
    split; [left; reflexivity|]. unfold inside. cbn [creg nth regions rbase rsize rwrite andb]. apply andb_true_intro. split; apply N.leb_le; lia.
  Qed.

  Definition t5 : amach := xsetg 4 (l_cs L) (xsetg 3 (l_m1 L) (xsetg 2 (N.of_nat (length p)) (xsetg 1 (l_p L) (xsetg 0 (l_h L) s0)))).
  Definition t8 : amach := xsetg 21 ((whole + r16) mod M64) (xsetg 2 whole (xsetg 2 (N.shiftr (N.of_nat (length p)) 6) t5)).
  Definition t11 : amach := xsetg 0 (l_h L) (xsetv 20 (mkv (le_val (peek (xm s0) (l_h L + 16) 4)) 0 0 0)
    (xbump 0 16 (xsetv 0 (bytes_vec (peek (xm s0) (l_h L) 16)) t8))).
  Definition skips : bool := (whole + r16) mod M64 <=? r16.
  Definition t13 : amach := xjump (if skips then 170 else 13) (xsetf skips t11).
  Lemma run13 : xrun_n L arm64_prog 13 s0 = Some t13.
  Proof.
    pose proof h_bnd as B0. pose proof xnp_lt as B1.
    pose proof (xbnd 2%nat ltac:(lia)) as B2. pose proof (xbnd 3%nat ltac:(lia)) as B3. cbn [creg nth regions rbase rsize] in B2, B3.
    change 13%nat with (1 + (1 + (1 + (1 + (1 + (1 + (1 + (1 + (1 + (1 + (1 + (1 + 1))))))))))))%nat.
    eapply xrun_app; [eapply xrun_one; [reflexivity|apply (xarg_step 0 0 (l_h L)); [reflexivity|lia|reflexivity|lia]]|].
    eapply xrun_app; [eapply xrun_one; [reflexivity|apply (xarg_step 24 1 (l_p L)); [reflexivity|lia|reflexivity|lia]]|].
    eapply xrun_app; [eapply xrun_one; [reflexivity|apply (xarg_step 32 2 (N.of_nat (length p))); [reflexivity|lia|reflexivity|lia]]|].
    eapply xrun_app; [eapply xrun_one; [reflexivity|apply (xarg_step 48 3 (l_m1 L)); [reflexivity|lia|reflexivity|lia]]|].
    eapply xrun_app; [eapply xrun_one; [reflexivity|apply (xarg_step 72 4 (l_cs L)); [reflexivity|lia|reflexivity|lia]]|]. fold t5.
    eapply xrun_app; [eapply (xrun_one L arm64_prog t5 (LSR 6 2 2)); reflexivity|].
    change (xg t5 2%nat) with (N.of_nat (length p)).
    eapply xrun_app; [eapply (xrun_one L arm64_prog _ (LSL 6 2 2)); [reflexivity|]|].
    { cbn [xstep]. cbn [xsetg xg Nat.eqb]. rewrite whole_eq. reflexivity. }
    eapply xrun_app; [eapply (xrun_one L arm64_prog _ (ADD 16 2 21)); reflexivity|]. cbn [xsetg xg Nat.eqb].
    change (xsetg 21 ((whole + r16) mod M64) (xsetg 2 whole (xsetg 2 (N.shiftr (N.of_nat (length p)) 6) t5))) with t8.
    eapply xrun_app; [eapply (xrun_one L arm64_prog t8 (VLD1P 0 0)); [reflexivity|]|].
    { cbn [xstep]. change (xg t8 0%nat) with (l_h L). change (xm t8) with (xm s0).
      pose proof (h_rd 0 16 ltac:(lia)) as R. rewrite N.add_0_r in R. rewrite R. reflexivity. }
    eapply xrun_app; [eapply (xrun_one L arm64_prog _ (FMOVS_load 0 20)); [reflexivity|]|].
    { cbn [xstep]. cbn [xbump xg xsetv Nat.eqb xm]. change (xg t8 0%nat) with (l_h L). change (xm t8) with (xm s0). rewrite N.mod_small by lia.
      rewrite (h_rd 16 4 ltac:(lia)). reflexivity. }
    eapply xrun_app; [eapply (xrun_one L arm64_prog _ (SUB_imm 16 0 0)); [reflexivity|]|].
    { cbn [xstep]. cbn [xbump xg xsetv Nat.eqb]. change (xg t8 0%nat) with (l_h L). rewrite (N.mod_small (l_h L + 16)) by lia.
      replace (l_h L + 16 + M64 - 16) with (l_h L + 1 * M64) by lia. rewrite N.mod_add, (N.mod_small (l_h L)) by (lia || discriminate). reflexivity. }
    change (xsetg 0 (l_h L) _) with t11.
    eapply xrun_app; [eapply (xrun_one L arm64_prog t11 (CMP 16 21)); reflexivity|].
    change (xsetf _ t11) with (xsetf skips t11).
    eapply (xrun_one L arm64_prog _ (BLS 170)); [reflexivity|]. cbn [xstep]. cbn [xsetf xls]. unfold t13. destruct skips; reflexivity.
  Qed.

  (** Skipped: the memory is as before. *)
  Lemma peek_id m a n x : poke m a (peek m a n) x = m x.
  Proof.
    unfold poke. rewrite peek_length. destruct (N.leb_spec a x), (N.ltb_spec x (a + N.of_nat n)); cbn [andb]; try reflexivity.
    unfold peek. rewrite (nth_indep _ x00 ((fun i => m (a + N.of_nat i)) 0%nat)) by (rewrite map_length, seq_length; lia).
    rewrite (map_nth (fun i => m (a + N.of_nat i))), seq_nth by lia. f_equal. lia.
  Qed.
  Lemma vec_peek m a : vec_bytes (bytes_vec (peek m a 16)) = peek m a 16.
  Proof.
    unfold vec_bytes, bytes_vec. cbn [v0 v1 v2 v3].
    assert (E : forall l, length l = 4%nat -> le32 (le_val l) = l).
    { intros l Hl. destruct l as [|x0 [|x1 [|x2 [|x3 [|]]]]]; try discriminate.
      assert (F : le_val [x0; x1; x2; x3] = be_val [x3; x2; x1; x0]).
      { rewrite be_val_4. cbn [le_val]. change (2^24) with 16777216. change (2^16) with 65536. change (2^8) with 256. lia. }
      rewrite F. pose proof (be32_be_val x3 x2 x1 x0) as G. unfold be32 in G. unfold le32.
      injection G as G1 G2 G3 G4. rewrite G1, G2, G3, G4. reflexivity. }
    rewrite !E by reflexivity. reflexivity.
  Qed.
  Lemma word_peek m a : le32 (le_val (peek m a 4)) = peek m a 4.
  Proof.
    set (l := peek m a 4). assert (Hl : length l = 4%nat) by apply peek_length. clearbody l.
    destruct l as [|x0 [|x1 [|x2 [|x3 [|]]]]]; try discriminate.
    assert (F : le_val [x0; x1; x2; x3] = be_val [x3; x2; x1; x0]).
    { rewrite be_val_4. cbn [le_val]. change (2^24) with 16777216. change (2^16) with 65536. change (2^8) with 256. lia. }
    rewrite F. pose proof (be32_be_val x3 x2 x1 x0) as G. unfold be32 in G. unfold le32.
    injection G as G1 G2 G3 G4. rewrite G1, G2, G3, G4. reflexivity.
  Qed.
  Lemma arm64_skipped fuel : skips = true -> (16 <= fuel)%nat -> exists s, xexec L arm64_prog fuel s0 = Some s /\ forall a, xm s a = xm s0 a.
  Proof.
    intros K F. pose proof h_bnd as B0. pose proof run13 as R. unfold t13 in R. rewrite K in R.
    set (u := xjump 170 (xsetf true t11)) in *.
    set (u1 := xbump 0 16 (xsetm (poke (xm s0) (l_h L) (peek (xm s0) (l_h L) 16)) u)).
    assert (E1 : xrun_n L arm64_prog 1 u = Some u1).
    { eapply (xrun_one L arm64_prog u (VST1P 0 0)); [reflexivity|]. cbn [xstep].
      change (xv u 0%nat) with (bytes_vec (peek (xm s0) (l_h L) 16)). change (xg u 0%nat) with (l_h L). change (xm u) with (xm s0).
      rewrite vec_peek. pose proof (h_wr (xm s0) 0 (peek (xm s0) (l_h L) 16)) as W. rewrite peek_length, N.add_0_r in W.
      rewrite W by lia. reflexivity. }
    set (u2 := xsetm (poke (xm u1) (l_h L + 16) (peek (xm s0) (l_h L + 16) 4)) u1).
    assert (E2 : xrun_n L arm64_prog 1 u1 = Some u2).
    { eapply (xrun_one L arm64_prog u1 (FMOVS_store 20 0)); [reflexivity|]. cbn [xstep].
      replace (xg u1 0%nat) with (l_h L + 16).
      2:{ unfold u1. cbn [xbump xg Nat.eqb xsetm]. change (xg u 0%nat) with (l_h L). rewrite N.mod_small by lia. reflexivity. }
      change (v0 (xv u1 20%nat)) with (le_val (peek (xm s0) (l_h L + 16) 4)). rewrite word_peek.
      rewrite h_wr by (rewrite peek_length; lia). reflexivity. }
    exists u2. split.
    - replace fuel with (13 + (1 + (1 + S (fuel - 16))))%nat by lia.
      rewrite (xexec_run _ _ _ _ _ _ R), (xexec_run _ _ _ _ _ _ E1), (xexec_run _ _ _ _ _ _ E2). reflexivity.
    - intros a. unfold u2. cbn [xsetm xm].
      assert (Q : forall x, xm u1 x = xm s0 x) by (intros x; unfold u1; cbn [xbump xsetm xm]; apply peek_id).
      replace (peek (xm s0) (l_h L + 16) 4) with (peek (xm u1) (l_h L + 16) 4) by (apply peek_ext; intros; apply Q).
      rewrite peek_id. apply Q.
  Qed.

  (** Not skipped: the first block. *)
  Let b := firstn 64 p.
  Lemma at13_ok : skips = false -> (64 <= length p)%nat -> xrel (win L 0) h b (xm s0) 0 at13 t13.
  Proof.
    intros K N0. pose proof (win_ok _ _ 0%nat HL ltac:(lia)) as WL.
    assert (C0 : length b = 64%nat) by (unfold b; rewrite firstn_length; lia).
    unfold t13. rewrite K. constructor.
    - reflexivity.
    - intros r. do 5 (destruct r as [|r]; [first [exact I|cbn; repeat split; lia]|]). exact I.
    - intros x. destruct (st_cells_ok (win L 0) h b (xm s0) Hh C0) as [[_ A] [_ B]]; [exact (entryn_h L sha1Ks (repeat x00 16) (ae_mem e) h p m1 cs)|].
      cbn [c_r c_off c_k ksize holds abase win l_h] in A, B. rewrite N.add_0_r in A.
      do 21 (destruct x as [|x]; [first [exact A|repeat split; fail|idtac]|]); [|repeat split].
      split; [exact B|]. repeat split; reflexivity.
    - split; [|reflexivity]. cbn [bce at13]. constructor.
      + split; [cbn; lia|]. cbn [c_r c_off c_k ksize abase holds win l_ro1]. rewrite N.add_0_r. change (xm (xjump _ _)) with (xm s0).
        unfold s0. cbn [aentry xm]. fold L. rewrite entryn_ro1; auto. vm_compute. auto.
      + apply p_cells_ok. cbn [win l_p]. change (xm (xjump _ _)) with (xm s0). change (64 * N.of_nat 0) with (N.of_nat 0).
        rewrite (peek_sub (xm s0) (l_p L) (length p)) by lia.
        replace (peek (xm s0) (l_p L) (length p)) with p; [reflexivity|]. symmetry. apply entryn_p; auto.
    - exact I.
  Qed.
  Lemma arm64_first : skips = false -> (64 <= length p)%nat -> exists s, xexec L arm64_prog 1000 s0 = Some s /\
    st_at (xm s) (l_h L) = compress h (words_of b) /\ words_at (xm s) (l_m1 L) 80 = schedule (words_of b) /\
    cs_at (xm s) (l_cs L) = mkcs h (state_at 56 h (words_of b)) (state_at 64 h (words_of b)) /\
    forall a, (forall r, In r (regions L) -> rwrite r = true -> a < rbase r \/ rbase r + rsize r <= a) -> xm s a = xm s0 a.
  Proof.
    intros K N0. pose proof (win_ok _ _ 0%nat HL ltac:(lia)) as WL.
    assert (C0 : length b = 64%nat) by (unfold b; rewrite firstn_length; lia).
    pose proof arm_symbolic as S. destruct (bexec false arm64_prog 987 at13) as [a|] eqn:E; [|discriminate].
    destruct (bexec_ok (win L 0) WL h b Hh C0 (xm s0) 0 eq_refl arm64_prog 987 at13 t13 a (at13_ok K N0) E) as (s & X & R).
    apply (xsub_exec _ _ (win_sub _ _ 0%nat HL ltac:(lia))) in X.
    exists s. change 1000%nat with (13 + 987)%nat. rewrite (xexec_run _ _ _ _ _ _ run13). split; [exact X|]. destruct R as [_ _ _ R _].
    change (l_h L) with (l_h (win L 0)). change (l_m1 L) with (l_m1 (win L 0)). change (l_cs L) with (l_cs (win L 0)).
    rewrite (exit_h (win L 0) WL h b C0 (xm s0) (xm s) (bce a) R S), (exit_m1 (win L 0) WL h b C0 (xm s0) (xm s) (bce a) R S),
      (exit_cs (win L 0) WL h b C0 (xm s0) (xm s) (bce a) R S).
    split; [reflexivity|]. split; [reflexivity|]. split; [reflexivity|].
    intros x Hx. destruct R as [_ R]. apply R. apply win_limits. intros r Hr. apply Hx.
    - destruct r as [|[|[|[|[|r]]]]]; cbn [awr] in Hr; try discriminate Hr; cbn; auto 10.
    - destruct r as [|[|[|[|[|r]]]]]; cbn [awr] in Hr; try discriminate Hr; reflexivity.
  Qed.
  (** When the loop is entered. *)
  Lemma skips_eq : skips = ((whole =? 0) || (M64 <=? r16 + whole))%bool.
  Proof.
    assert (R : r16 < M64) by (apply N.mod_upper_bound; discriminate). pose proof xnp_lt.
    pose proof (N.mul_div_le (N.of_nat (length p)) 64 ltac:(discriminate)) as D. fold whole in D.
    unfold skips. destruct (N.eqb_spec whole 0) as [Z|Z]; cbn [orb].
    - rewrite Z, N.add_0_l, N.mod_small by exact R. apply N.leb_refl.
    - destruct (N.leb_spec M64 (r16 + whole)).
      + replace (whole + r16) with (whole + r16 - M64 + 1 * M64) by lia. rewrite N.mod_add by discriminate. rewrite N.mod_small by lia. apply N.leb_le. lia.
      + rewrite N.mod_small by lia. apply N.leb_gt. lia.
  Qed.
End Whole.

(** ** In one piece *)
Lemma arm64_multi e h b q m1 cs : layout_for (N.of_nat (length (b ++ q))) (ae_lay e) -> wfst h -> length b = 64%nat -> length m1 = 80%nat ->
  ae_g e 16%nat mod M64 + 64 * (N.of_nat (length (b ++ q)) / 64) < M64 ->
  let s0 := aentry sha1Ks e h (b ++ q) m1 cs in let L := ae_lay e in let M := words_of b in
  exists s, xexec L arm64_prog 1000 s0 = Some s /\
    st_at (xm s) (l_h L) = compress h M /\ words_at (xm s) (l_m1 L) 80 = schedule M /\
    cs_at (xm s) (l_cs L) = mkcs h (state_at 56 h M) (state_at 64 h M) /\
    forall a, (forall r, In r (regions L) -> rwrite r = true -> a < rbase r \/ rbase r + rsize r <= a) -> xm s a = xm s0 a.
Proof.
  intros HL Hh Hb Hm W s0 L M.
  assert (F : firstn 64 (b ++ q) = b) by (rewrite firstn_app, Hb, Nat.sub_diag, firstn_O, app_nil_r; apply firstn_all2; lia).
  assert (K : skips e (b ++ q) = false).
  { rewrite (skips_eq e (b ++ q) m1 HL Hm). apply orb_false_intro.
    - apply N.eqb_neq. assert (1 <= N.of_nat (length (b ++ q)) / 64); [|lia]. apply N.div_le_lower_bound; [discriminate|]. rewrite app_length. lia.
    - apply N.leb_gt. exact W. }
  pose proof (arm64_first e h (b ++ q) m1 cs HL Hh Hm K ltac:(rewrite app_length; lia)) as X. rewrite F in X. exact X.
Qed.
Lemma arm64_nothing e h p m1 cs : layout_for (N.of_nat (length p)) (ae_lay e) -> length m1 = 80%nat ->
  (length p < 64)%nat \/ M64 <= ae_g e 16%nat mod M64 + 64 * (N.of_nat (length p) / 64) ->
  let s0 := aentry sha1Ks e h p m1 cs in
  exists s, xexec (ae_lay e) arm64_prog 1000 s0 = Some s /\ forall a, xm s a = xm s0 a.
Proof.
  intros HL Hm W s0. apply (arm64_skipped e h p m1 cs HL Hm); [|lia]. rewrite (skips_eq e p m1 HL Hm). apply orb_true_iff. destruct W as [W|W].
  - left. apply N.eqb_eq. rewrite N.div_small by lia. reflexivity.
  - right. apply N.leb_le. exact W.
Qed.
