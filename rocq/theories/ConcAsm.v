(** The two routines, called at the same time by any number of goroutines. *)

From Coq Require Import Arith NArith List Strings.Byte Bool Lia ZifyNat.
From Verif Require Import Word WordFacts Spec_Sha1 Sha1Facts Model_Go Model_Asm Model_Amd64 Gen_Amd64 Model_Arm64 Gen_Arm64 Model_Trace Model_Conc Spec_Conc
  ConcFacts AsmSym Arm64Sym GoArm64 AsmMulti AsmMultiArm.
Import ListNotations.
Local Open Scope N_scope.
Ltac Zify.zify_post_hook ::= idtac.

(** * Alone *)
Lemma alone_exec prog L n : forall s t, exec L prog n s = Some t ->
  forall k, exists u, alone mach (turn prog) k L s = Some u /\ ((n <= k)%nat -> u = t).
Proof.
  induction n as [|n IH]; intros s t E k; [discriminate|]. cbn [exec] in E. destruct (nth_error prog (pc s)) as [i|] eqn:Ei; [|discriminate].
  assert (X : i = RET \/ (do s <- step_instr L i s; exec L prog n s) = Some t /\ i <> RET) by (destruct i; (left; reflexivity) || (right; split; [exact E|discriminate])).
  destruct X as [->|[X NR]].
  - injection E as <-. exists s. split; [|reflexivity]. induction k as [|k IHk]; [reflexivity|]. cbn [alone]. unfold turn at 1. rewrite Ei. exact IHk.
  - destruct k as [|k]; [exists s; split; [reflexivity|lia]|]. cbn [alone]. unfold turn at 1. rewrite Ei.
    destruct (step_instr L i s) as [s1|] eqn:Es; [|discriminate X]. cbn [obind] in X. destruct (IH _ _ X k) as (u & U & Hu).
    exists u. split; [|intros K; apply Hu; lia]. destruct i; try exact U. congruence.
Qed.
Lemma xalone_exec prog L n : forall s t, xexec L prog n s = Some t ->
  forall k, exists u, alone amach (xturn prog) k L s = Some u /\ ((n <= k)%nat -> u = t).
Proof.
  induction n as [|n IH]; intros s t E k; [discriminate|]. cbn [xexec] in E. destruct (nth_error prog (xpc s)) as [i|] eqn:Ei; [|discriminate].
  assert (X : i = ARET \/ (do s <- xstep L i s; xexec L prog n s) = Some t /\ i <> ARET) by (destruct i; (left; reflexivity) || (right; split; [exact E|discriminate])).
  destruct X as [->|[X NR]].
  - injection E as <-. exists s. split; [|reflexivity]. induction k as [|k IHk]; [reflexivity|]. cbn [alone]. unfold xturn at 1. rewrite Ei. exact IHk.
  - destruct k as [|k]; [exists s; split; [reflexivity|lia]|]. cbn [alone]. unfold xturn at 1. rewrite Ei.
    destruct (xstep L i s) as [s1|] eqn:Es; [|discriminate X]. cbn [obind] in X. destruct (IH _ _ X k) as (u & U & Hu).
    exists u. split; [|intros K; apply Hu; lia]. destruct i; try exact U. congruence.
Qed.

(** * Results *)
Lemma agree_word L m m' r a : agree L m m' -> In r (regions L) -> rbase r <= a -> a + 4 <= rbase r + rsize r -> word_at m a = word_at m' a.
Proof.
  intros G Hr A B. unfold word_at, peek. f_equal. apply map_ext_in. intros i Hi. apply in_seq in Hi. apply (G _ r Hr). unfold in_range. lia.
Qed.
Lemma agree_st L m m' r a : agree L m m' -> In r (regions L) -> rbase r <= a -> a + 20 <= rbase r + rsize r -> st_at m a = st_at m' a.
Proof. intros G Hr A B. unfold st_at. f_equal; apply (agree_word L m m' r); auto; lia. Qed.
Lemma agree_results L m m' : agree L m m' -> st_at m (l_h L) = st_at m' (l_h L) /\ words_at m (l_m1 L) 80 = words_at m' (l_m1 L) 80 /\
  cs_at m (l_cs L) = cs_at m' (l_cs L).
Proof.
  intros G. split; [|split].
  - apply (agree_st L m m' (mkreg (l_h L) 20 true)); cbn [rbase rsize regions In]; auto; lia.
  - unfold words_at. apply map_ext_in. intros i Hi. apply in_seq in Hi.
    apply (agree_word L m m' (mkreg (l_m1 L) 320 true)); cbn [rbase rsize regions In]; auto; lia.
  - unfold cs_at. f_equal; apply (agree_st L m m' (mkreg (l_cs L) 60 true)); cbn [rbase rsize regions In]; auto; lia.
Qed.

(** * amd64 *)
Definition alay (c : call env) : layout := e_lay (c_env c).
Theorem amd64_concurrent : forall (l : list (call env)) m ev,
  (forall c, In c l -> layout_ok (alay c) /\ wfst (c_h c) /\ length (c_p c) = 64%nat /\ length (c_m1 c) = 80%nat) ->
  pairwise (map alay l) ->
  (forall c, In c l -> agree (alay c) m (mm (amd64_core upper_mask shuffle_mask c)) /\ undisturbed (alay c) ev) ->
  exists S, amd64_conc amd64_prog ev (amd64_begin upper_mask shuffle_mask m l) = Some S /\
    (forall k c, nth_error l k = Some c -> (200 <= turns k ev)%nat ->
       let L := alay c in let h := c_h c in let M := words_of (c_p c) in
       st_at (shared _ S) (l_h L) = compress h M /\ words_at (shared _ S) (l_m1 L) 80 = schedule M /\
       cs_at (shared _ S) (l_cs L) = mkcs h (state_at 56 h M) (state_at 64 h M)) /\
    (forall a, (forall c r, In c l -> In r (regions (alay c)) -> rwrite r = true -> ~ in_range a r) ->
       (forall b, ~ In (Store a b) ev) -> shared _ S a = m a).
Proof.
  intros l m ev HC HP HI.
  assert (A : forall c, In c l -> exists s, exec (alay c) amd64_prog 200 (amd64_core upper_mask shuffle_mask c) = Some s /\
    st_at (mm s) (l_h (alay c)) = compress (c_h c) (words_of (c_p c)) /\ words_at (mm s) (l_m1 (alay c)) 80 = schedule (words_of (c_p c)) /\
    cs_at (mm s) (l_cs (alay c)) = mkcs (c_h c) (state_at 56 (c_h c) (words_of (c_p c))) (state_at 64 (c_h c) (words_of (c_p c)))).
  { intros c Hc. destruct (HC c Hc) as (HL & Hh & Hp & Hm).
    destruct (amd64_multi (c_env c) (c_h c) [] (c_p c) (c_m1 c) (c_cs c) 200) as (s & E & R1 & R2 & R3 & _);
      [cbn [app]; rewrite Hp; exact HL|exact Hh|reflexivity|exact Hp|exact Hm|cbn [length]; lia|].
    cbn [app] in E, R1. exists s. split; [exact E|]. split; [|split].
    - etransitivity; [exact R1|]. rewrite blocks_one by exact Hp. reflexivity.
    - exact R2.
    - exact R3. }
  destruct (conc_ok mach mm with_mem (turn amd64_prog) (fun _ _ _ => eq_refl) (turn_frame amd64_prog)
    (map alay l) HP ev (map (fun c => (alay c, amd64_core upper_mask shuffle_mask c)) l) m (map (amd64_core upper_mask shuffle_mask) l)) as (S & ES & RS & OS).
  - split; [rewrite !map_length; reflexivity|]. split; [rewrite !map_length; reflexivity|]. intros k L u HL Hu.
    rewrite nth_error_map in HL, Hu. destruct (nth_error l k) as [c|] eqn:Hk; [|discriminate]. cbn [option_map] in HL, Hu. injection HL as <-. injection Hu as <-.
    eexists. rewrite nth_error_map, Hk. split; [reflexivity|]. split; [reflexivity|]. apply (HI c). exact (nth_error_In _ _ Hk).
  - intros L HL. apply in_map_iff in HL. destruct HL as (c & <- & Hc). apply (HI c Hc).
  - intros k L u HL Hu. rewrite nth_error_map in HL, Hu. destruct (nth_error l k) as [c|] eqn:Hk; [|discriminate]. cbn [option_map] in HL, Hu. injection HL as <-. injection Hu as <-.
    destruct (A c (nth_error_In _ _ Hk)) as (s & E & _). destruct (alone_exec _ _ _ _ _ E (turns k ev)) as (u & U & _). rewrite U. discriminate.
  - exists S. split; [exact ES|]. split.
    + intros k c Hk Ht. cbv zeta. destruct (A c (nth_error_In _ _ Hk)) as (s & E & R1 & R2 & R3).
      destruct (alone_exec _ _ _ _ _ E (turns k ev)) as (u & U & Hu). specialize (Hu Ht). subst u.
      destruct (RS k (alay c) (amd64_core upper_mask shuffle_mask c)) as (u' & U' & G); [rewrite nth_error_map, Hk; reflexivity|rewrite nth_error_map, Hk; reflexivity|].
      rewrite U in U'. injection U' as <-. destruct (agree_results _ _ _ G) as (-> & -> & ->). auto.
    + intros a Ha Hb. apply OS; [|exact Hb]. intros L HL r Hr Hw. apply in_map_iff in HL. destruct HL as (c & <- & Hc). exact (Ha c r Hc Hr Hw).
Qed.

(** * arm64 *)
Lemma some3 {A B C} {a x : A} {b y : B} {c z : C} : Some (a, b, c) = Some (x, y, z) -> a = x /\ b = y /\ c = z.
Proof. intros H. injection H as -> -> ->. auto. Qed.
Lemma arm64_symbolic_200 : match bexec false arm64_prog 220 arm64_start with Some a => true | None => false end = true.
Proof. vm_compute. reflexivity. Qed.
Lemma xexec_more L prog n : forall s t, xexec L prog n s = Some t -> forall k, (n <= k)%nat -> xexec L prog k s = Some t.
Proof.
  induction n as [|n IH]; intros s t E k Hk; [discriminate|]. destruct k as [|k]; [lia|]. cbn [xexec] in *.
  destruct (nth_error prog (xpc s)) as [i|]; [|discriminate].
  assert (Hk' : (n <= k)%nat) by lia.
  destruct i; try exact E;
    (match type of E with obind ?x _ = _ => destruct x as [s1|]; [|discriminate E] end; cbn [obind] in *; exact (IH _ _ E _ Hk')).
Qed.
Lemma call_arm64_inv prog ks e h p m1 cs x y z s : call_arm64 prog ks e h p m1 cs = Some (x, y, z) ->
  xexec (ae_lay e) prog 1000 (aentry ks e h p m1 cs) = Some s ->
  st_at (xm s) (l_h (ae_lay e)) = x /\ words_at (xm s) (l_m1 (ae_lay e)) 80 = y /\ cs_at (xm s) (l_cs (ae_lay e)) = z.
Proof.
  intros R E. apply some3. rewrite <- R. symmetry. unfold call_arm64. rewrite E. cbn [obind]. reflexivity.
Qed.
Lemma arm64_ends e (HL : layout_ok (ae_lay e)) h p m1 cs (Hh : wfst h) (Hp : length p = 64%nat) (Hm : length m1 = 80%nat) :
  ae_g e 16%nat mod M64 + 64 < M64 -> exists s, xexec (ae_lay e) arm64_prog 220 (aentry sha1Ks e h p m1 cs) = Some s.
Proof.
  intros H16. pose proof (bexec_ok (ae_lay e) HL h p Hh Hp (xm (aentry sha1Ks e h p m1 cs)) _ (r16_lt e) arm64_prog 220 arm64_start (aentry sha1Ks e h p m1 cs)) as X.
  cbv beta zeta in X. destruct (N.leb_spec M64 (ae_g e 16%nat mod M64 + 64)) as [Q|_]; [lia|].
  pose proof arm64_symbolic_200 as Y. destruct (bexec false arm64_prog 220 arm64_start) as [a|] eqn:E; [|discriminate Y].
  destruct (X a (arm64_start_ok e HL h p m1 cs Hh Hp Hm) eq_refl) as (s & Es & _). exists s. exact Es.
Qed.
Lemma arm64_one e (HL : layout_ok (ae_lay e)) h p m1 cs (Hh : wfst h) (Hp : length p = 64%nat) (Hm : length m1 = 80%nat) :
  ae_g e 16%nat mod M64 + 64 < M64 -> exists s, xexec (ae_lay e) arm64_prog 220 (aentry sha1Ks e h p m1 cs) = Some s /\
    st_at (xm s) (l_h (ae_lay e)) = compress h (words_of p) /\ words_at (xm s) (l_m1 (ae_lay e)) 80 = schedule (words_of p) /\
    cs_at (xm s) (l_cs (ae_lay e)) = mkcs h (state_at 56 h (words_of p)) (state_at 64 h (words_of p)).
Proof.
  intros H16. destruct (arm64_ends e HL h p m1 cs Hh Hp Hm H16) as (s & E). exists s. split; [exact E|].
  assert (K : (220 <= 1000)%nat) by lia.
  exact (call_arm64_inv _ _ _ _ _ _ _ _ _ _ _ (call_arm64_ok e HL h p m1 cs Hh Hp Hm H16) (xexec_more _ _ _ _ _ E _ K)).
Qed.
Definition xlay (c : call aenv) : layout := ae_lay (c_env c).
Theorem arm64_concurrent : forall (l : list (call aenv)) m ev,
  (forall c, In c l -> layout_ok (xlay c) /\ wfst (c_h c) /\ length (c_p c) = 64%nat /\ length (c_m1 c) = 80%nat /\
     ae_g (c_env c) 16%nat mod M64 + 64 < M64) ->
  pairwise (map xlay l) ->
  (forall c, In c l -> agree (xlay c) m (xm (arm64_core sha1Ks c)) /\ undisturbed (xlay c) ev) ->
  exists S, arm64_conc arm64_prog ev (arm64_begin sha1Ks m l) = Some S /\
    (forall k c, nth_error l k = Some c -> (220 <= turns k ev)%nat ->
       let L := xlay c in let h := c_h c in let M := words_of (c_p c) in
       st_at (shared _ S) (l_h L) = compress h M /\ words_at (shared _ S) (l_m1 L) 80 = schedule M /\
       cs_at (shared _ S) (l_cs L) = mkcs h (state_at 56 h M) (state_at 64 h M)) /\
    (forall a, (forall c r, In c l -> In r (regions (xlay c)) -> rwrite r = true -> ~ in_range a r) ->
       (forall b, ~ In (Store a b) ev) -> shared _ S a = m a).
Proof.
  intros l m ev HC HP HI.
  assert (A : forall c, In c l -> exists s, xexec (xlay c) arm64_prog 220 (arm64_core sha1Ks c) = Some s /\
    st_at (xm s) (l_h (xlay c)) = compress (c_h c) (words_of (c_p c)) /\ words_at (xm s) (l_m1 (xlay c)) 80 = schedule (words_of (c_p c)) /\
    cs_at (xm s) (l_cs (xlay c)) = mkcs (c_h c) (state_at 56 (c_h c) (words_of (c_p c))) (state_at 64 (c_h c) (words_of (c_p c)))).
  { intros c Hc. destruct (HC c Hc) as (HL & Hh & Hp & Hm & H16).
    exact (arm64_one (c_env c) HL (c_h c) (c_p c) (c_m1 c) (c_cs c) Hh Hp Hm H16). }
  destruct (conc_ok amach xm xwith_mem (xturn arm64_prog) (fun _ _ _ => eq_refl) (xturn_frame arm64_prog)
    (map xlay l) HP ev (map (fun c => (xlay c, arm64_core sha1Ks c)) l) m (map (arm64_core sha1Ks) l)) as (S & ES & RS & OS).
  - split; [rewrite !map_length; reflexivity|]. split; [rewrite !map_length; reflexivity|]. intros k L u HL Hu.
    rewrite nth_error_map in HL, Hu. destruct (nth_error l k) as [c|] eqn:Hk; [|discriminate]. cbn [option_map] in HL, Hu. injection HL as <-. injection Hu as <-.
    eexists. rewrite nth_error_map, Hk. split; [reflexivity|]. split; [reflexivity|]. apply (HI c). exact (nth_error_In _ _ Hk).
  - intros L HL. apply in_map_iff in HL. destruct HL as (c & <- & Hc). apply (HI c Hc).
  - intros k L u HL Hu. rewrite nth_error_map in HL, Hu. destruct (nth_error l k) as [c|] eqn:Hk; [|discriminate]. cbn [option_map] in HL, Hu. injection HL as <-. injection Hu as <-.
    destruct (A c (nth_error_In _ _ Hk)) as (s & E & _). destruct (xalone_exec _ _ _ _ _ E (turns k ev)) as (u & U & _). rewrite U. discriminate.
  - exists S. split; [exact ES|]. split.
    + intros k c Hk Ht. cbv zeta. destruct (A c (nth_error_In _ _ Hk)) as (s & E & R1 & R2 & R3).
      destruct (xalone_exec _ _ _ _ _ E (turns k ev)) as (u & U & Hu). specialize (Hu Ht). subst u.
      destruct (RS k (xlay c) (arm64_core sha1Ks c)) as (u' & U' & G); [rewrite nth_error_map, Hk; reflexivity|rewrite nth_error_map, Hk; reflexivity|].
      rewrite U in U'. injection U' as <-. destruct (agree_results _ _ _ G) as (-> & -> & ->). auto.
    + intros a Ha Hb. apply OS; [|exact Hb]. intros L HL r Hr Hw. apply in_map_iff in HL. destruct HL as (c & <- & Hc). exact (Ha c r Hc Hr Hw).
Qed.
