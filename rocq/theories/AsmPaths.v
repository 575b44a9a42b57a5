(** The assembly routines: the instructions they execute, the ranges they access, and the CPUs they run on. *)

From Coq Require Import Arith NArith String List Strings.Byte Bool Lia ZifyNat.
From Verif Require Import Word Spec_Sha1 Model_Go Model_Asm Model_Amd64 Model_Arm64 Model_Trace Spec_Asm Gen_Amd64 Gen_Arm64 AsmSym Amd64Sym Arm64Sym
  GoAmd64 GoArm64 Model_Build Gen_Build Model_Api Model_Block Model_Cpu GoBlock GoAsm BuildFacts.
Import ListNotations.
Local Open Scope N_scope.
Ltac Zify.zify_post_hook ::= idtac.

(** ** Accesses lie in the ranges of the layout *)
Lemma readable_in rs a n : readable rs a n = true -> exists r, In r rs /\ rbase r <= a /\ a + n <= rbase r + rsize r.
Proof.
  intros H. apply existsb_exists in H. destruct H as (r & Hr & H). unfold inside in H. apply andb_prop in H. destruct H as [A B].
  apply N.leb_le in A, B. eauto.
Qed.
Lemma writable_in rs a n : writable rs a n = true -> exists r, In r rs /\ rwrite r = true /\ rbase r <= a /\ a + n <= rbase r + rsize r.
Proof.
  intros H. apply existsb_exists in H. destruct H as (r & Hr & H). apply andb_prop in H. destruct H as [W H].
  unfold inside in H. apply andb_prop in H. destruct H as [A B]. apply N.leb_le in A, B. eauto 6.
Qed.
(** As in the statement of C36. *)
Definition within (L : layout) (a : access) : Prop := exists r, In r (regions L) /\ rbase r <= fst a /\ fst a + snd a <= rbase r + rsize r.
Definition wwithin (L : layout) (a : access) : Prop :=
  exists r, In r (regions L) /\ rwrite r = true /\ rbase r <= fst a /\ fst a + snd a <= rbase r + rsize r.
Lemma rd_within L m a n l : rd (regions L) m a n = Some l -> within L (a, N.of_nat n).
Proof. unfold rd. destruct (readable _ _ _) eqn:E; [|discriminate]. intros _. apply readable_in in E. exact E. Qed.
Lemma wr_within L m a l m' : wr (regions L) m a l = Some m' -> wwithin L (a, N.of_nat (List.length l)).
Proof. unfold wr. destruct (writable _ _ _) eqn:E; [|discriminate]. intros _. apply writable_in in E. exact E. Qed.
Lemma wwithin_within L a : wwithin L a -> within L a.
Proof. intros (r & Hr & _ & H). exists r. auto. Qed.

Lemma step_within L i s s' : step_instr L i s = Some s' -> Forall (within L) (touched L i s) /\ Forall (wwithin L) (written L i s).
Proof.
  intros E.
  assert (ST : forall a l, store L s a l = Some s' -> wwithin L (addr L s a, N.of_nat (List.length l))).
  { intros a l X. unfold store in X. destruct (wr _ _ _ _) eqn:W; [|discriminate]. apply wr_within in W. exact W. }
  assert (L4 : forall a v, load32 L s a = Some v -> within L (addr L s a, 4)).
  { intros a v X. unfold load32 in X. destruct (rd _ _ _ _) eqn:W; [|discriminate]. apply rd_within in W. exact W. }
  assert (L8 : forall a v, load64 L s a = Some v -> within L (addr L s a, 8)).
  { intros a v X. unfold load64 in X. destruct (rd _ _ _ _) eqn:W; [|discriminate]. apply rd_within in W. exact W. }
  assert (L16 : forall a v, load128 L s a = Some v -> within L (addr L s a, 16)).
  { intros a v X. unfold load128 in X. destruct (rd _ _ _ _) eqn:W; [|discriminate]. apply rd_within in W. exact W. }
  assert (L16a : forall a v, load128a L s a = Some v -> within L (addr L s a, 16)).
  { intros a v X. unfold load128a in X. destruct (aligned _); [|discriminate]. eauto. }
  destruct i; cbn [step_instr touched written] in *; try discriminate;
    try match goal with s : vsrc |- _ => destruct s; cbn [vget] in E end;
    repeat match goal with
      | H : (if ?b then _ else None) = Some _ |- _ => destruct b; [|discriminate]
      | H : obind ?x _ = Some _ |- _ => destruct x eqn:?; cbn [obind] in H; [|discriminate]
      end;
    (split; repeat constructor; eauto; try apply wwithin_within; try (apply ST in E; exact E)).
Qed.
Lemma step_aligned L i s s' : step_instr L i s = Some s' -> Forall (fun a => fst a mod 16 = 0) (aligned_16 L i s).
Proof.
  intros E.
  assert (A : forall a, aligned (addr L s a) = true -> addr L s a mod 16 = 0) by (intros a; unfold aligned; apply N.eqb_eq).
  assert (L16a : forall a v, load128a L s a = Some v -> addr L s a mod 16 = 0).
  { intros a v X. unfold load128a in X. destruct (aligned _) eqn:G; [|discriminate]. auto. }
  destruct i; cbn [step_instr aligned_16] in *; try discriminate; try constructor;
    try match goal with s : vsrc |- _ => destruct s; cbn [vget] in E end; try constructor; try constructor; cbn [fst];
    repeat match goal with
      | H : (if ?b then _ else None) = Some _ |- _ => destruct b eqn:?; [|discriminate]
      | H : obind ?x _ = Some _ |- _ => destruct x eqn:?; cbn [obind] in H; [|discriminate]
      end; eauto.
Qed.
Lemma poke_same m a l x : ~ covered [(a, N.of_nat (List.length l))] x -> poke m a l x = m x.
Proof.
  intros H. unfold poke. destruct (a <=? x) eqn:A; [|reflexivity]. destruct (x <? a + N.of_nat (List.length l)) eqn:B; [|reflexivity].
  exfalso. apply H. apply N.leb_le in A. apply N.ltb_lt in B. exists a, (N.of_nat (List.length l)). split; [left; reflexivity|lia].
Qed.
Lemma step_written L i s s' : step_instr L i s = Some s' -> forall x, ~ covered (written L i s) x -> mm s' x = mm s x.
Proof.
  intros E x Hx.
  assert (ST : forall a l, store L s a l = Some s' -> ~ covered [(addr L s a, N.of_nat (List.length l))] x -> mm s' x = mm s x).
  { intros a l X C. unfold store, wr in X. destruct (writable _ _ _); [|discriminate]. injection X as <-. cbn [setm mm]. apply poke_same, C. }
  destruct i; cbn [step_instr written] in *; try discriminate;
    try match goal with s : vsrc |- _ => destruct s; cbn [vget] in E end;
    repeat match goal with
      | H : (if ?b then _ else None) = Some _ |- _ => destruct b eqn:?; [|discriminate]
      | H : obind ?x _ = Some _ |- _ => destruct x eqn:?; cbn [obind] in H; [|discriminate]
      end; try (injection E as <-; first [reflexivity|destruct (zf s); reflexivity]); eapply ST; try exact E; exact Hx.
Qed.
(** A run that ends does so from every state on its way. *)
Lemma reached_exec L prog s s' fuel : Model_Amd64.exec L prog fuel s = Some s' ->
  forall t, reached L prog s t -> exists n, Model_Amd64.exec L prog n t = Some s'.
Proof.
  intros E t R. induction R as [|t i t' R IH Hi Ht]; [eauto|]. destruct IH as [[|n] IH]; [discriminate|]. exists n.
  cbn [Model_Amd64.exec] in IH. rewrite Hi in IH. destruct i; try discriminate Ht; rewrite Ht in IH; exact IH.
Qed.
Lemma reached_steps L prog s s' fuel : Model_Amd64.exec L prog fuel s = Some s' ->
  forall t i, reached L prog s t -> nth_error prog (pc t) = Some i ->
  (forall a n, In (a, n) (touched L i t) -> exists r, In r (regions L) /\ rbase r <= a /\ a + n <= rbase r + rsize r) /\
  (forall a n, In (a, n) (written L i t) -> exists r, In r (regions L) /\ rwrite r = true /\ rbase r <= a /\ a + n <= rbase r + rsize r) /\
  (forall a n, In (a, n) (aligned_16 L i t) -> a mod 16 = 0).
Proof.
  intros E t i R Hi. destruct (reached_exec _ _ _ _ _ E t R) as [[|n] X]; [discriminate|].
  cbn [Model_Amd64.exec] in X. rewrite Hi in X.
  assert (D : i = RET \/ exists t', step_instr L i t = Some t').
  { destruct i; auto; right; destruct (step_instr L _ t); try discriminate; eauto. }
  destruct D as [->|[t' D]]; [cbn; repeat split; intros ? ? []|].
  pose proof (step_within _ _ _ _ D) as [A B]. pose proof (step_aligned _ _ _ _ D) as C. rewrite Forall_forall in A, B, C.
  split; [|split]; intros a m H; [exact (A _ H)|exact (B _ H)|exact (C _ H)].
Qed.

Lemma xstep_within L i s s' : xstep L i s = Some s' -> Forall (within L) (xtouched L i s) /\ Forall (wwithin L) (xwritten L i s).
Proof.
  intros E. destruct i; cbn [xstep xtouched xwritten] in *; try discriminate;
    repeat match goal with
      | H : obind ?x _ = Some _ |- _ => destruct x eqn:?; cbn [obind] in H; [|discriminate]
      end;
    repeat match goal with
      | H : rd _ _ _ _ = Some _ |- _ => apply rd_within in H
      | H : wr _ _ _ _ = Some _ |- _ => apply wr_within in H
      end;
    (split; repeat constructor; try assumption; apply wwithin_within; assumption).
Qed.
Lemma xstep_written L i s s' : xstep L i s = Some s' -> forall x, ~ covered (xwritten L i s) x -> xm s' x = xm s x.
Proof.
  intros E x Hx.
  assert (WR : forall a l m, wr (regions L) (xm s) a l = Some m -> ~ covered [(a, N.of_nat (List.length l))] x -> m x = xm s x).
  { intros a l m X C. unfold wr in X. destruct (writable _ _ _); [|discriminate]. injection X as <-. apply poke_same, C. }
  destruct i; cbn [xstep xwritten] in *; try discriminate;
    repeat match goal with
      | H : obind ?x _ = Some _ |- _ => destruct x eqn:?; cbn [obind] in H; [|discriminate]
      end; injection E as <-; try reflexivity; try (destruct (xls s); reflexivity);
    cbn [xm xsetm xbump xsetg]; eapply WR; eauto.
Qed.
Lemma xreached_exec L prog s s' fuel : xexec L prog fuel s = Some s' ->
  forall t, xreached L prog s t -> exists n, xexec L prog n t = Some s'.
Proof.
  intros E t R. induction R as [|t i t' R IH Hi Ht]; [eauto|]. destruct IH as [[|n] IH]; [discriminate|]. exists n.
  cbn [xexec] in IH. rewrite Hi in IH. destruct i; try discriminate Ht; rewrite Ht in IH; exact IH.
Qed.
Lemma xreached_steps L prog s s' fuel : xexec L prog fuel s = Some s' ->
  forall t i, xreached L prog s t -> nth_error prog (xpc t) = Some i ->
  (forall a n, In (a, n) (xtouched L i t) -> exists r, In r (regions L) /\ rbase r <= a /\ a + n <= rbase r + rsize r) /\
  (forall a n, In (a, n) (xwritten L i t) -> exists r, In r (regions L) /\ rwrite r = true /\ rbase r <= a /\ a + n <= rbase r + rsize r).
Proof.
  intros E t i R Hi. destruct (xreached_exec _ _ _ _ _ E t R) as [[|n] X]; [discriminate|].
  cbn [xexec] in X. rewrite Hi in X.
  assert (D : i = ARET \/ exists t', xstep L i t = Some t').
  { destruct i; auto; right; destruct (xstep L _ t); try discriminate; eauto. }
  destruct D as [->|[t' D]]; [cbn; repeat split; intros ? ? []|].
  pose proof (xstep_within _ _ _ _ D) as [A B]. rewrite Forall_forall in A, B.
  split; intros a m H; [exact (A _ H)|exact (B _ H)].
Qed.

(** ** The path *)
Fixpoint apath (prog : list instr) (fuel : nat) (s : ast) : list nat :=
  match fuel with
  | O => []
  | S n => match nth_error prog (apc s) with
           | None => []
           | Some RET => [apc s]
           | Some i => apc s :: match astep i s with Some s => apath prog n s | None => [] end
           end
  end.
Fixpoint bpath (wrap : bool) (prog : list ainstr) (fuel : nat) (s : xst) : list nat :=
  match fuel with
  | O => []
  | S n => match nth_error prog (bpc s) with
           | None => []
           | Some ARET => [bpc s]
           | Some i => bpc s :: match bstep wrap i s with Some s => bpath wrap prog n s | None => [] end
           end
  end.
Section Path.
  Variable L : layout.
  Hypothesis HL : layout_ok L.
  Variables (h : st) (p : list byte).
  Hypothesis Hh : wfst h.
  Hypothesis Hp : List.length p = 64%nat.
  Variable m0 : mem.
  Lemma apath_ok prog n : forall a s a', rel L h p m0 a s -> aexec prog n a = Some a' -> map fst (trace L prog n s) = apath prog n a.
  Proof.
    induction n as [|n IH]; intros a s a' R H; [discriminate|]. cbn [aexec trace apath] in *. rewrite <- (r_pc _ _ _ _ _ _ R).
    destruct (nth_error prog (apc a)) as [i|]; [|discriminate].
    assert (D : i = RET \/ (do s <- astep i a; aexec prog n s) = Some a' /\ i <> RET)
      by (destruct i; auto; right; (split; [exact H|discriminate])).
    destruct D as [->|[H' D]]; [reflexivity|].
    destruct (astep i a) as [a1|] eqn:E; [|discriminate]. cbn [obind] in H'.
    destruct (astep_ok L HL h p Hh Hp m0 i a s a1 R E) as (s1 & E1 & R1). rewrite E1.
    specialize (IH a1 s1 a' R1 H').
    destruct i; try congruence; cbn [map fst]; rewrite IH; reflexivity.
  Qed.
  Variable r16 : N.
  Hypothesis H16 : r16 < M64.
  Lemma bpath_ok prog n : forall a s a', xrel L h p m0 r16 a s -> bexec (M64 <=? r16 + 64) prog n a = Some a' ->
    map fst (xtrace L prog n s) = bpath (M64 <=? r16 + 64) prog n a.
  Proof.
    induction n as [|n IH]; intros a s a' R H; [discriminate|]. cbn [bexec xtrace bpath] in *.
    assert (P : bpc a = xpc s) by (destruct R; assumption). rewrite <- P.
    destruct (nth_error prog (bpc a)) as [i|]; [|discriminate].
    assert (D : i = ARET \/ (do s <- bstep (M64 <=? r16 + 64) i a; bexec (M64 <=? r16 + 64) prog n s) = Some a' /\ i <> ARET)
      by (destruct i; auto; right; (split; [exact H|discriminate])).
    destruct D as [->|[H' D]]; [reflexivity|].
    destruct (bstep _ i a) as [a1|] eqn:E; [|discriminate]. cbn [obind] in H'.
    destruct (bstep_ok L HL h p Hh Hp m0 r16 H16 i a s a1 R E) as (s1 & E1 & R1). rewrite E1.
    specialize (IH a1 s1 a' R1 H').
    destruct i; try congruence; cbn [map fst]; rewrite IH; reflexivity.
  Qed.
End Path.
Lemma amd64_apath : apath amd64_prog 1000 amd64_start = seq 0 200.
Proof. vm_compute. reflexivity. Qed.
Lemma arm64_bpath : bpath false arm64_prog 1000 arm64_start = seq 0 173.
Proof. vm_compute. reflexivity. Qed.
Lemma arm64_bpath_skip : bpath true arm64_prog 1000 arm64_start = seq 0 13 ++ seq 170 3.
Proof. vm_compute. reflexivity. Qed.
Lemma amd64_path e h p m1 cs : layout_ok (e_lay e) -> wfst h -> List.length p = 64%nat -> List.length m1 = 80%nat ->
  map fst (trace (e_lay e) amd64_prog 1000 (entry upper_mask shuffle_mask e h p m1 cs)) = seq 0 200.
Proof.
  intros HL Hh Hp Hm. pose proof amd64_symbolic as S.
  destruct (aexec amd64_prog 1000 amd64_start) as [a|] eqn:E; [|discriminate].
  rewrite (apath_ok (e_lay e) HL h p Hh Hp _ amd64_prog 1000 amd64_start _ a (amd64_start_ok e HL h p m1 cs Hh Hp Hm) E).
  exact amd64_apath.
Qed.
Lemma arm64_path e h p m1 cs : layout_ok (ae_lay e) -> wfst h -> List.length p = 64%nat -> List.length m1 = 80%nat ->
  map fst (xtrace (ae_lay e) arm64_prog 1000 (aentry sha1Ks e h p m1 cs)) =
    if M64 <=? ae_g e 16%nat mod M64 + 64 then seq 0 13 ++ seq 170 3 else seq 0 173.
Proof.
  intros HL Hh Hp Hm.
  pose proof (bpath_ok (ae_lay e) HL h p Hh Hp (xm (aentry sha1Ks e h p m1 cs)) (ae_g e 16%nat mod M64) (r16_lt e) arm64_prog 1000 arm64_start
    (aentry sha1Ks e h p m1 cs)) as X.
  destruct (M64 <=? ae_g e 16%nat mod M64 + 64).
  - pose proof arm64_symbolic_skip as S. destruct (bexec true arm64_prog 1000 arm64_start) as [a|] eqn:E; [|discriminate].
    rewrite (X a (arm64_start_ok e HL h p m1 cs Hh Hp Hm) eq_refl). exact arm64_bpath_skip.
  - pose proof arm64_symbolic as S. destruct (bexec false arm64_prog 1000 arm64_start) as [a|] eqn:E; [|discriminate].
    rewrite (X a (arm64_start_ok e HL h p m1 cs Hh Hp Hm) eq_refl). exact arm64_bpath.
Qed.

(** ** CPUs *)
Lemma exec_cpu_trace c L prog mn : forall fuel s s', exec_cpu c L prog mn fuel s = Some s' ->
  forall k m, In k (map fst (trace L prog fuel s)) -> nth_error mn k = Some m -> runs_on c amd64_need m = true.
Proof.
  induction fuel as [|n IH]; intros s s' E k m H Hm; [discriminate|]. cbn [exec_cpu trace] in *.
  destruct (nth_error prog (pc s)) as [i|] eqn:Ei; [|discriminate]. destruct (nth_error mn (pc s)) as [m0|] eqn:Em; [|discriminate].
  destruct (runs_on c amd64_need m0) eqn:R; [|discriminate].
  assert (D : i = RET \/ (do s <- step_instr L i s; exec_cpu c L prog mn n s) = Some s' /\
    In k (pc s :: map fst (match step_instr L i s with Some s => trace L prog n s | None => [] end))) by (destruct i; auto).
  destruct D as [->|[E' H']].
  - destruct H as [<-|[]]. cbn [fst] in Hm. congruence.
  - destruct H' as [<-|H']; [congruence|]. destruct (step_instr L i s) as [s1|]; [|destruct H']. cbn [obind] in E'. eapply IH; eauto.
Qed.
Lemma xexec_cpu_trace c L prog mn : forall fuel s s', xexec_cpu c L prog mn fuel s = Some s' ->
  forall k m, In k (map fst (xtrace L prog fuel s)) -> nth_error mn k = Some m -> runs_on c arm64_need m = true.
Proof.
  induction fuel as [|n IH]; intros s s' E k m H Hm; [discriminate|]. cbn [xexec_cpu xtrace] in *.
  destruct (nth_error prog (xpc s)) as [i|] eqn:Ei; [|discriminate]. destruct (nth_error mn (xpc s)) as [m0|] eqn:Em; [|discriminate].
  destruct (runs_on c arm64_need m0) eqn:R; [|discriminate].
  assert (D : i = ARET \/ (do s <- xstep L i s; xexec_cpu c L prog mn n s) = Some s' /\
    In k (xpc s :: map fst (match xstep L i s with Some s => xtrace L prog n s | None => [] end))) by (destruct i; auto).
  destruct D as [->|[E' H']].
  - destruct H as [<-|[]]. cbn [fst] in Hm. congruence.
  - destruct H' as [<-|H']; [congruence|]. destruct (xstep L i s) as [s1|]; [|destruct H']. cbn [obind] in E'. eapply IH; eauto.
Qed.
Definition needs (need : string -> option string) (mn : list string) (f : string) : option nat :=
  find (fun k => match nth_error mn k with Some m => match need m with Some g => String.eqb f g | None => false end | None => false end)
       (seq 0 (List.length mn)).
Lemma needs_ok c need mn f k : needs need mn f = Some k ->
  (forall k m, (k < List.length mn)%nat -> nth_error mn k = Some m -> runs_on c need m = true) -> c f = true.
Proof.
  intros H R. apply find_some in H. destruct H as [Hk H]. apply in_seq in Hk. destruct (nth_error mn k) as [m|] eqn:E; [|discriminate].
  assert (X : runs_on c need m = true) by (apply (R k m); [lia|exact E]). unfold runs_on in X.
  destruct (need m) as [g|]; [|discriminate]. apply String.eqb_eq in H. subst g. exact X.
Qed.
Lemma call_amd64_cpu_some c e h p m1 cs : call_amd64_cpu c e h p m1 cs <> None ->
  exists s, exec_cpu c (e_lay e) amd64_prog amd64_mnem 1000 (entry upper_mask shuffle_mask e h p m1 cs) = Some s.
Proof.
  unfold call_amd64_cpu. generalize (exec_cpu c (e_lay e) amd64_prog amd64_mnem 1000 (entry upper_mask shuffle_mask e h p m1 cs)).
  intros [s|] H; [eauto|]. exfalso. apply H. reflexivity.
Qed.
Lemma call_arm64_cpu_some c e h p m1 cs : call_arm64_cpu c e h p m1 cs <> None ->
  exists s, xexec_cpu c (ae_lay e) arm64_prog arm64_mnem 1000 (aentry sha1Ks e h p m1 cs) = Some s.
Proof.
  unfold call_arm64_cpu. generalize (xexec_cpu c (ae_lay e) arm64_prog arm64_mnem 1000 (aentry sha1Ks e h p m1 cs)).
  intros [s|] H; [eauto|]. exfalso. apply H. reflexivity.
Qed.
Lemma amd64_runs_all c e h p m1 cs s : layout_ok (e_lay e) -> wfst h -> List.length p = 64%nat -> List.length m1 = 80%nat ->
  exec_cpu c (e_lay e) amd64_prog amd64_mnem 1000 (entry upper_mask shuffle_mask e h p m1 cs) = Some s ->
  forall k m, (k < List.length amd64_mnem)%nat -> nth_error amd64_mnem k = Some m -> runs_on c amd64_need m = true.
Proof.
  intros HL Hh Hp Hm E k m Hk. apply (exec_cpu_trace c (e_lay e) amd64_prog amd64_mnem 1000 _ s E).
  rewrite (amd64_path e h p m1 cs HL Hh Hp Hm). apply in_seq. rewrite <- (proj1 mnem_length) in Hk.
  replace (List.length amd64_prog) with 200%nat in Hk by (vm_compute; reflexivity). lia.
Qed.
Lemma arm64_runs_all c e h p m1 cs s : layout_ok (ae_lay e) -> ae_g e 16%nat mod M64 + 64 < M64 ->
  wfst h -> List.length p = 64%nat -> List.length m1 = 80%nat ->
  xexec_cpu c (ae_lay e) arm64_prog arm64_mnem 1000 (aentry sha1Ks e h p m1 cs) = Some s ->
  forall k m, (k < List.length arm64_mnem)%nat -> nth_error arm64_mnem k = Some m -> runs_on c arm64_need m = true.
Proof.
  intros HL H16 Hh Hp Hm E k m Hk. apply (xexec_cpu_trace c (ae_lay e) arm64_prog arm64_mnem 1000 _ s E).
  rewrite (arm64_path e h p m1 cs HL Hh Hp Hm). destruct (N.leb_spec M64 (ae_g e 16%nat mod M64 + 64)); [lia|].
  apply in_seq. rewrite <- (proj2 mnem_length) in Hk.
  replace (List.length arm64_prog) with 173%nat in Hk by (vm_compute; reflexivity). lia.
Qed.
Lemma amd64_needed : exists a b x d, needs amd64_need amd64_mnem "AVX" = Some a /\ needs amd64_need amd64_mnem "SHA" = Some b /\
  needs amd64_need amd64_mnem "SSE4" = Some x /\ needs amd64_need amd64_mnem "SSSE3" = Some d.
Proof. vm_compute. repeat eexists. Qed.
Lemma arm64_needed : exists a, needs arm64_need arm64_mnem "SHA1" = Some a.
Proof. vm_compute. repeat eexists. Qed.
Lemma amd64_cpu_iff c e h p m1 cs : layout_ok (e_lay e) -> wfst h -> List.length p = 64%nat -> List.length m1 = 80%nat ->
  (call_amd64_cpu c e h p m1 cs <> None <->
   c "AVX"%string = true /\ c "SHA"%string = true /\ c "SSE4"%string = true /\ c "SSSE3"%string = true).
Proof.
  intros HL Hh Hp Hm. split.
  - intros E. destruct (call_amd64_cpu_some _ _ _ _ _ _ E) as [s X].
    pose proof (amd64_runs_all c e h p m1 cs s HL Hh Hp Hm X) as T. destruct amd64_needed as (a & b & x & d & N1 & N2 & N3 & N4).
    split; [exact (needs_ok c _ _ _ _ N1 T)|]. split; [exact (needs_ok c _ _ _ _ N2 T)|].
    split; [exact (needs_ok c _ _ _ _ N3 T)|exact (needs_ok c _ _ _ _ N4 T)].
  - intros (A & B & C & D). rewrite call_amd64_cpu_eq by (apply amd64_runs; auto).
    rewrite (call_amd64_ok e HL h p m1 cs Hh Hp Hm). discriminate.
Qed.
Lemma arm64_cpu_iff c e h p m1 cs : layout_ok (ae_lay e) -> ae_g e 16%nat mod M64 + 64 < M64 ->
  wfst h -> List.length p = 64%nat -> List.length m1 = 80%nat ->
  (call_arm64_cpu c e h p m1 cs <> None <-> c "SHA1"%string = true).
Proof.
  intros HL H16 Hh Hp Hm. split.
  - intros E. destruct (call_arm64_cpu_some _ _ _ _ _ _ E) as [s X].
    pose proof (arm64_runs_all c e h p m1 cs s HL H16 Hh Hp Hm X) as T. destruct arm64_needed as (a & N1). exact (needs_ok c _ _ _ _ N1 T).
  - intros A. rewrite call_arm64_cpu_eq by (apply arm64_runs; auto).
    rewrite (call_arm64_ok e HL h p m1 cs Hh Hp Hm H16). discriminate.
Qed.

Lemma asm_block_none call d p : (64 <= List.length p)%nat -> call 0%nat (dh d) (firstn 64 p) (repeat 0 80) (mkcs st0 st0 st0) = None ->
  asm_block call d p = None.
Proof.
  intros Hp H. unfold asm_block. destruct (List.length p) as [|n] eqn:El; [lia|]. cbn [asm_blocks].
  rewrite El. destruct (Nat.leb_spec 64 (S n)); [|lia]. rewrite H. reflexivity.
Qed.
Lemma asm_block_short call d p : (List.length p < 64)%nat -> asm_block call d p <> None.
Proof.
  intros Hp. unfold asm_block. replace (asm_blocks call (List.length p) 0 p (dh d) (repeat 0 80) (mkcs st0 st0 st0) (dcol d)) with (Some (dh d, dcol d)); [discriminate|].
  destruct (List.length p) as [|n] eqn:El; cbn [asm_blocks]; rewrite El; [reflexivity|]. destruct (Nat.leb_spec 64 (S n)); [lia|reflexivity].
Qed.
Lemma amd64_fault_iff c force e d p : (forall k, layout_ok (e_lay (e k))) -> wfst (dh d) ->
  (block_on_amd64 c force e d p = None <->
   force = false /\ (64 <= List.length p)%nat /\ c "AVX"%string = true /\ c "SHA"%string = true /\ c "SSE3"%string = true /\ c "SSE4"%string = true /\
   c "SSSE3"%string = false).
Proof.
  intros HL Hd. split.
  - intros E. assert (X : ~ (c "SSE4"%string = true -> c "SSSE3"%string = true)).
    { intros H. destruct (on_amd64_same c force e d p H HL Hd) as (d' & A & _). congruence. }
    unfold block_on_amd64 in E. destruct force; cbn [orb] in E; [rewrite (blockGeneric_ok d p Hd) in E; discriminate|].
    destruct (forallb c amd64_features) eqn:F; cbn [negb] in E; [|rewrite (blockGeneric_ok d p Hd) in E; discriminate].
    rewrite forallb_forall in F. split; [reflexivity|]. split.
    { destruct (Nat.le_gt_cases 64 (List.length p)) as [|G]; [assumption|]. exfalso. exact (asm_block_short _ _ _ G E). }
    split; [apply F; cbn; tauto|]. split; [apply F; cbn; tauto|]. split; [apply F; cbn; tauto|]. split; [apply F; cbn; tauto|].
    destruct (c "SSSE3"%string); [|reflexivity]. exfalso. apply X. reflexivity.
  - intros (-> & Hp & A & B & C & D & S). unfold block_on_amd64. cbn [orb amd64_features forallb]. rewrite A, B, C, D. cbn [andb negb].
    apply asm_block_none; [exact Hp|].
    assert (Hf : List.length (firstn 64 p) = 64%nat) by (rewrite firstn_length; lia).
    destruct (call_amd64_cpu c (e 0%nat) (dh d) (firstn 64 p) (repeat 0 80) (mkcs st0 st0 st0)) as [r|] eqn:E; [|reflexivity].
    assert (N : call_amd64_cpu c (e 0%nat) (dh d) (firstn 64 p) (repeat 0 80) (mkcs st0 st0 st0) <> None) by (rewrite E; discriminate).
    apply (amd64_cpu_iff c _ _ _ _ _ (HL 0%nat) Hd Hf) in N; [|reflexivity]. destruct N as (_ & _ & _ & N). congruence.
Qed.
Lemma may_load_region L a n r : In r (regions L) -> rbase r <= a -> a + n <= rbase r + rsize r -> lies_in (may_load L) a n.
Proof.
  intros Hr A B. exists (rbase r), (rsize r). split; [|auto].
  cbn [regions In] in Hr. destruct Hr as [<-|[<-|[<-|[<-|[<-|[<-|[<-|[<-|[]]]]]]]]]; cbn [rbase rsize]; cbn; auto 10.
Qed.
Lemma may_store_region L a n r : In r (regions L) -> rwrite r = true -> rbase r <= a -> a + n <= rbase r + rsize r -> lies_in (may_store L) a n.
Proof.
  intros Hr W A B. exists (rbase r), (rsize r). split; [|auto].
  cbn [regions In] in Hr. destruct Hr as [<-|[<-|[<-|[<-|[<-|[<-|[<-|[<-|[]]]]]]]]]; cbn [rwrite] in W; try discriminate; cbn [rbase rsize]; cbn; auto 10.
Qed.
Lemma amd64_reached e h p m1 cs t i : layout_ok (e_lay e) -> wfst h -> List.length p = 64%nat -> List.length m1 = 80%nat ->
  reached (e_lay e) amd64_prog (entry upper_mask shuffle_mask e h p m1 cs) t -> nth_error amd64_prog (pc t) = Some i ->
  (forall a n, In (a, n) (touched (e_lay e) i t) -> lies_in (may_load (e_lay e)) a n) /\
  (forall a n, In (a, n) (written (e_lay e) i t) -> lies_in (may_store (e_lay e)) a n) /\
  (forall a n, In (a, n) (aligned_16 (e_lay e) i t) -> a mod 16 = 0).
Proof.
  intros HL Hh Hp Hm. destruct (amd64_run e HL h p m1 cs Hh Hp Hm) as (a & s & X & _). intros R Hi.
  destruct (reached_steps _ _ _ _ _ X t i R Hi) as (A & B & C). split; [|split; [|exact C]].
  - intros x n H. destruct (A x n H) as (r & Hr & H1 & H2). exact (may_load_region _ _ _ r Hr H1 H2).
  - intros x n H. destruct (B x n H) as (r & Hr & Hw & H1 & H2). exact (may_store_region _ _ _ r Hr Hw H1 H2).
Qed.
Lemma arm64_reached e h p m1 cs t i : layout_ok (ae_lay e) -> wfst h -> List.length p = 64%nat -> List.length m1 = 80%nat ->
  xreached (ae_lay e) arm64_prog (aentry sha1Ks e h p m1 cs) t -> nth_error arm64_prog (xpc t) = Some i ->
  (forall a n, In (a, n) (xtouched (ae_lay e) i t) -> lies_in (may_load (ae_lay e)) a n) /\
  (forall a n, In (a, n) (xwritten (ae_lay e) i t) -> lies_in (may_store (ae_lay e)) a n).
Proof.
  intros HL Hh Hp Hm. destruct (arm64_run e HL h p m1 cs Hh Hp Hm) as (a & s & X & _). intros R Hi.
  destruct (xreached_steps _ _ _ _ _ X t i R Hi) as (A & B). split.
  - intros x n H. destruct (A x n H) as (r & Hr & H1 & H2). exact (may_load_region _ _ _ r Hr H1 H2).
  - intros x n H. destruct (B x n H) as (r & Hr & Hw & H1 & H2). exact (may_store_region _ _ _ r Hr Hw H1 H2).
Qed.
Lemma arm64_path_ok e h p m1 cs : layout_ok (ae_lay e) -> wfst h -> List.length p = 64%nat -> List.length m1 = 80%nat ->
  ae_g e 16%nat mod M64 + 64 < M64 ->
  map fst (xtrace (ae_lay e) arm64_prog 1000 (aentry sha1Ks e h p m1 cs)) = seq 0 173.
Proof.
  intros HL Hh Hp Hm H. rewrite (arm64_path e h p m1 cs HL Hh Hp Hm). destruct (N.leb_spec M64 (ae_g e 16%nat mod M64 + 64)); [lia|reflexivity].
Qed.
