(** The two routines with store buffers, called at the same time by any number of goroutines. *)

From Coq Require Import Arith NArith List Strings.Byte Bool Lia ZifyNat.
From Verif Require Import Word WordFacts Spec_Sha1 Sha1Facts Model_Go Model_Asm Model_Amd64 Gen_Amd64 Model_Arm64 Gen_Arm64 Model_Trace Model_Conc Spec_Conc
  ConcFacts AsmSym Arm64Sym GoArm64 AsmMulti AsmMultiArm ConcAsm Model_Buffer Spec_Buffer BufferFacts.
Import ListNotations.
Local Open Scope N_scope.
Ltac Zify.zify_post_hook ::= idtac.

Lemma amd64_one (c : call env) : layout_ok (alay c) -> wfst (c_h c) -> length (c_p c) = 64%nat -> length (c_m1 c) = 80%nat ->
  exists s, exec (alay c) amd64_prog 200 (amd64_core upper_mask shuffle_mask c) = Some s /\
    st_at (mm s) (l_h (alay c)) = compress (c_h c) (words_of (c_p c)) /\ words_at (mm s) (l_m1 (alay c)) 80 = schedule (words_of (c_p c)) /\
    cs_at (mm s) (l_cs (alay c)) = mkcs (c_h c) (state_at 56 (c_h c) (words_of (c_p c))) (state_at 64 (c_h c) (words_of (c_p c))).
Proof.
  intros HL Hh Hp Hm.
  destruct (amd64_multi (c_env c) (c_h c) [] (c_p c) (c_m1 c) (c_cs c) 200) as (s & E & R1 & R2 & R3 & _);
    [cbn [app]; rewrite Hp; exact HL|exact Hh|reflexivity|exact Hp|exact Hm|cbn [length]; lia|].
  cbn [app] in E, R1. exists s. split; [exact E|]. split; [|split].
  - etransitivity; [exact R1|]. rewrite blocks_one by exact Hp. reflexivity.
  - exact R2.
  - exact R3.
Qed.

Theorem amd64_buffered : forall (l : list (call env)) m ev,
  (forall c, In c l -> layout_ok (alay c) /\ wfst (c_h c) /\ length (c_p c) = 64%nat /\ length (c_m1 c) = 80%nat) ->
  pairwise (map alay l) ->
  (forall c, In c l -> agree (alay c) m (mm (amd64_core upper_mask shuffle_mask c)) /\ bundisturbed (alay c) ev) ->
  exists S, amd64_bconc amd64_prog ev (amd64_bbegin upper_mask shuffle_mask m l) = Some S /\
    (forall k c, nth_error l k = Some c -> (200 <= bturns k ev)%nat ->
       let L := alay c in let h := c_h c in let M := words_of (c_p c) in let v := overlay (bshared _ S) (waiting S k) in
       st_at v (l_h L) = compress h M /\ words_at v (l_m1 L) 80 = schedule M /\
       cs_at v (l_cs L) = mkcs h (state_at 56 h M) (state_at 64 h M)) /\
    (forall a, (forall c r, In c l -> In r (regions (alay c)) -> rwrite r = true -> ~ in_range a r) ->
       (forall b, ~ In (BStore a b) ev) -> bshared _ S a = m a).
Proof.
  intros l m ev HC HP HI.
  assert (A : forall c, In c l -> exists s, exec (alay c) amd64_prog 200 (amd64_core upper_mask shuffle_mask c) = Some s /\
    st_at (mm s) (l_h (alay c)) = compress (c_h c) (words_of (c_p c)) /\ words_at (mm s) (l_m1 (alay c)) 80 = schedule (words_of (c_p c)) /\
    cs_at (mm s) (l_cs (alay c)) = mkcs (c_h c) (state_at 56 (c_h c) (words_of (c_p c))) (state_at 64 (c_h c) (words_of (c_p c)))).
  { intros c Hc. destruct (HC c Hc) as (HL & Hh & Hp & Hm).
    exact (amd64_one c HL Hh Hp Hm). }
  destruct (bconc_ok mach mm with_mem (turn amd64_prog) (stored amd64_prog) (fun _ _ => eq_refl) (turn_frame amd64_prog) (turn_stores amd64_prog)
    (map alay l) HP ev (map (fun c => (alay c, amd64_core upper_mask shuffle_mask c, [])) l) m (map (amd64_core upper_mask shuffle_mask) l)) as (S & ES & RS & OS).
  - split; [rewrite !map_length; reflexivity|]. split; [rewrite !map_length; reflexivity|]. intros k L u HL Hu.
    rewrite nth_error_map in HL, Hu. destruct (nth_error l k) as [c|] eqn:Hk; [|discriminate]. cbn [option_map] in HL, Hu. injection HL as <-. injection Hu as <-.
    exists (amd64_core upper_mask shuffle_mask c), []. rewrite nth_error_map, Hk. split; [reflexivity|]. split; [reflexivity|]. split; [|intros x b []]. apply (HI c). exact (nth_error_In _ _ Hk).
  - intros L HL. apply in_map_iff in HL. destruct HL as (c & <- & Hc). apply (HI c Hc).
  - intros k L u HL Hu. rewrite nth_error_map in HL, Hu. destruct (nth_error l k) as [c|] eqn:Hk; [|discriminate]. cbn [option_map] in HL, Hu. injection HL as <-. injection Hu as <-.
    destruct (A c (nth_error_In _ _ Hk)) as (s & E & _). destruct (alone_exec _ _ _ _ _ E (bturns k ev)) as (u & U & _). rewrite U. discriminate.
  - exists S. split; [exact ES|]. split.
    + intros k c Hk Ht. cbv zeta. destruct (A c (nth_error_In _ _ Hk)) as (s & E & R1 & R2 & R3).
      destruct (alone_exec _ _ _ _ _ E (bturns k ev)) as (u & U & Hu). specialize (Hu Ht). subst u.
      destruct (RS k (alay c) (amd64_core upper_mask shuffle_mask c)) as (u' & U' & G); [rewrite nth_error_map, Hk; reflexivity|rewrite nth_error_map, Hk; reflexivity|].
      rewrite U in U'. injection U' as <-. destruct (agree_results _ _ _ G) as (-> & -> & ->). auto.
    + intros a Ha Hb. apply OS; [|exact Hb]. intros L HL r Hr Hw. apply in_map_iff in HL. destruct HL as (c & <- & Hc). exact (Ha c r Hc Hr Hw).
Qed.

Theorem arm64_buffered : forall (l : list (call aenv)) m ev,
  (forall c, In c l -> layout_ok (xlay c) /\ wfst (c_h c) /\ length (c_p c) = 64%nat /\ length (c_m1 c) = 80%nat /\
     ae_g (c_env c) 16%nat mod M64 + 64 < M64) ->
  pairwise (map xlay l) ->
  (forall c, In c l -> agree (xlay c) m (xm (arm64_core sha1Ks c)) /\ bundisturbed (xlay c) ev) ->
  exists S, arm64_bconc arm64_prog ev (arm64_bbegin sha1Ks m l) = Some S /\
    (forall k c, nth_error l k = Some c -> (220 <= bturns k ev)%nat ->
       let L := xlay c in let h := c_h c in let M := words_of (c_p c) in let v := overlay (bshared _ S) (waiting S k) in
       st_at v (l_h L) = compress h M /\ words_at v (l_m1 L) 80 = schedule M /\
       cs_at v (l_cs L) = mkcs h (state_at 56 h M) (state_at 64 h M)) /\
    (forall a, (forall c r, In c l -> In r (regions (xlay c)) -> rwrite r = true -> ~ in_range a r) ->
       (forall b, ~ In (BStore a b) ev) -> bshared _ S a = m a).
Proof.
  intros l m ev HC HP HI.
  assert (A : forall c, In c l -> exists s, xexec (xlay c) arm64_prog 220 (arm64_core sha1Ks c) = Some s /\
    st_at (xm s) (l_h (xlay c)) = compress (c_h c) (words_of (c_p c)) /\ words_at (xm s) (l_m1 (xlay c)) 80 = schedule (words_of (c_p c)) /\
    cs_at (xm s) (l_cs (xlay c)) = mkcs (c_h c) (state_at 56 (c_h c) (words_of (c_p c))) (state_at 64 (c_h c) (words_of (c_p c)))).
  { intros c Hc. destruct (HC c Hc) as (HL & Hh & Hp & Hm & H16).
    exact (arm64_one (c_env c) HL (c_h c) (c_p c) (c_m1 c) (c_cs c) Hh Hp Hm H16). }
  destruct (bconc_ok amach xm xwith_mem (xturn arm64_prog) (xstored arm64_prog) (fun _ _ => eq_refl) (xturn_frame arm64_prog) (xturn_stores arm64_prog)
    (map xlay l) HP ev (map (fun c => (xlay c, arm64_core sha1Ks c, [])) l) m (map (arm64_core sha1Ks) l)) as (S & ES & RS & OS).
  - split; [rewrite !map_length; reflexivity|]. split; [rewrite !map_length; reflexivity|]. intros k L u HL Hu.
    rewrite nth_error_map in HL, Hu. destruct (nth_error l k) as [c|] eqn:Hk; [|discriminate]. cbn [option_map] in HL, Hu. injection HL as <-. injection Hu as <-.
    exists (arm64_core sha1Ks c), []. rewrite nth_error_map, Hk. split; [reflexivity|]. split; [reflexivity|]. split; [|intros x b []]. apply (HI c). exact (nth_error_In _ _ Hk).
  - intros L HL. apply in_map_iff in HL. destruct HL as (c & <- & Hc). apply (HI c Hc).
  - intros k L u HL Hu. rewrite nth_error_map in HL, Hu. destruct (nth_error l k) as [c|] eqn:Hk; [|discriminate]. cbn [option_map] in HL, Hu. injection HL as <-. injection Hu as <-.
    destruct (A c (nth_error_In _ _ Hk)) as (s & E & _). destruct (xalone_exec _ _ _ _ _ E (bturns k ev)) as (u & U & _). rewrite U. discriminate.
  - exists S. split; [exact ES|]. split.
    + intros k c Hk Ht. cbv zeta. destruct (A c (nth_error_In _ _ Hk)) as (s & E & R1 & R2 & R3).
      destruct (xalone_exec _ _ _ _ _ E (bturns k ev)) as (u & U & Hu). specialize (Hu Ht). subst u.
      destruct (RS k (xlay c) (arm64_core sha1Ks c)) as (u' & U' & G); [rewrite nth_error_map, Hk; reflexivity|rewrite nth_error_map, Hk; reflexivity|].
      rewrite U in U'. injection U' as <-. destruct (agree_results _ _ _ G) as (-> & -> & ->). auto.
    + intros a Ha Hb. apply OS; [|exact Hb]. intros L HL r Hr Hw. apply in_map_iff in HL. destruct HL as (c & <- & Hc). exact (Ha c r Hc Hr Hw).
Qed.
