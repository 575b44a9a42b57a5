(** The amd64 routine on any number of blocks. *)

From Coq Require Import Arith NArith List Strings.Byte Bool Lia ZifyNat.
From Verif Require Import Word WordFacts Spec_Sha1 Sha1Facts Model_Go Model_Asm Model_Amd64 Gen_Amd64 AsmSym Amd64Sym GoAmd64 AsmTrace.
Import ListNotations.
Ltac Zify.zify_post_hook ::= idtac.
Local Open Scope N_scope.

(** ** Runs of a number of instructions *)
Fixpoint run_n (L : layout) (prog : list instr) (n : nat) (s : mach) : option mach :=
  match n with
  | O => Some s
  | S n => do i <- nth_error prog (pc s); do s <- step_instr L i s; run_n L prog n s
  end.
Lemma exec_run L prog n : forall s t f, run_n L prog n s = Some t -> exec L prog (n + f) s = exec L prog f t.
Proof.
  induction n as [|n IH]; intros s t f H; cbn [run_n Nat.add] in *; [injection H as ->; reflexivity|]. cbn [exec].
  destruct (nth_error prog (pc s)) as [i|]; [|discriminate]. cbn [obind] in H.
  destruct (step_instr L i s) as [s1|] eqn:E; [|discriminate]. cbn [obind] in H.
  destruct i; try discriminate E; cbn [obind]; apply IH; exact H.
Qed.
Lemma run_app L prog n : forall k s t u, run_n L prog n s = Some t -> run_n L prog k t = Some u -> run_n L prog (n + k) s = Some u.
Proof.
  induction n as [|n IH]; intros k s t u H K; cbn [run_n Nat.add] in *; [injection H as ->; exact K|].
  destruct (nth_error prog (pc s)) as [i|]; [|discriminate]. cbn [obind] in *.
  destruct (step_instr L i s) as [s1|]; [|discriminate]. cbn [obind] in *. eapply IH; eassumption.
Qed.
Lemma run_one L prog s i t : nth_error prog (pc s) = Some i -> step_instr L i s = Some t -> run_n L prog 1 s = Some t.
Proof. intros H E. cbn [run_n]. rewrite H. cbn [obind]. rewrite E. reflexivity. Qed.

(** ** A machine that may access more *)
Definition sub (L L' : layout) : Prop :=
  (l_args L = l_args L' /\ l_ro1 L = l_ro1 L' /\ l_ro2 L = l_ro2 L') /\
  (forall a n, readable (regions L) a n = true -> readable (regions L') a n = true) /\
  (forall a n, writable (regions L) a n = true -> writable (regions L') a n = true).
Section Sub.
  Variables L L' : layout.
  Hypothesis HS : sub L L'.
  Lemma sub_addr s a : addr L s a = addr L' s a.
  Proof. destruct HS as ((A & B & C) & _). unfold addr. destruct (mbase a); rewrite ?A, ?B, ?C; reflexivity. Qed.
  Lemma sub_rd m a n l : rd (regions L) m a n = Some l -> rd (regions L') m a n = Some l.
  Proof.
    destruct HS as (_ & R & _). unfold rd. destruct (readable (regions L) a (N.of_nat n)) eqn:E; [|discriminate].
    rewrite (R _ _ E). auto.
  Qed.
  Lemma sub_wr m a l m' : wr (regions L) m a l = Some m' -> wr (regions L') m a l = Some m'.
  Proof.
    destruct HS as (_ & _ & R). unfold wr. destruct (writable (regions L) a (N.of_nat (length l))) eqn:E; [|discriminate].
    rewrite (R _ _ E). auto.
  Qed.
  Lemma sub_step i s s' : step_instr L i s = Some s' -> step_instr L' i s = Some s'.
  Proof.
    assert (L4 : forall a v, load32 L s a = Some v -> load32 L' s a = Some v).
    { intros a v. unfold load32. rewrite <- sub_addr. destruct (rd (regions L) _ _ _) eqn:E; [|discriminate]. rewrite (sub_rd _ _ _ _ E). auto. }
    assert (L8 : forall a v, load64 L s a = Some v -> load64 L' s a = Some v).
    { intros a v. unfold load64. rewrite <- sub_addr. destruct (rd (regions L) _ _ _) eqn:E; [|discriminate]. rewrite (sub_rd _ _ _ _ E). auto. }
    assert (L16 : forall a v, load128 L s a = Some v -> load128 L' s a = Some v).
    { intros a v. unfold load128. rewrite <- sub_addr. destruct (rd (regions L) _ _ _) eqn:E; [|discriminate]. rewrite (sub_rd _ _ _ _ E). auto. }
    assert (LV : forall a v, vget L s a = Some v -> vget L' s a = Some v).
    { intros a v. destruct a; cbn [vget]; [auto|]. unfold load128a. rewrite <- sub_addr. destruct (aligned _); auto. }
    assert (ST : forall a l t, store L s a l = Some t -> store L' s a l = Some t).
    { intros a l t. unfold store. rewrite <- sub_addr. destruct (wr (regions L) _ _ _) eqn:E; [|discriminate]. rewrite (sub_wr _ _ _ _ E). auto. }
    destruct i; cbn [step_instr]; try (intros E; exact E); try (apply ST);
      try (intros E; match type of E with obind ?x _ = _ => destruct x eqn:F; [|discriminate E] end;
           first [apply L4 in F|apply L8 in F|apply L16 in F|apply LV in F]; rewrite F; exact E).
    - rewrite <- sub_addr. auto.
    - rewrite <- sub_addr. destruct (aligned _); auto.
  Qed.
  Lemma sub_run prog n : forall s s', run_n L prog n s = Some s' -> run_n L' prog n s = Some s'.
  Proof.
    induction n as [|n IH]; intros s s' H; [exact H|]. cbn [run_n] in *. destruct (nth_error prog (pc s)) as [i|]; [|discriminate].
    cbn [obind] in *. destruct (step_instr L i s) as [t|] eqn:E; [|discriminate]. rewrite (sub_step _ _ _ E). cbn [obind] in *. auto.
  Qed.
End Sub.

(** ** Symbolic runs that leave DX alone *)
Definition leaves_DX (i : instr) : bool := match wreg i with Some DX => false | _ => true end.
Fixpoint arun (prog : list instr) (n : nat) (a : ast) : option ast :=
  match n with
  | O => Some a
  | S n => do i <- nth_error prog (apc a); if leaves_DX i then do a <- astep i a; arun prog n a else None
  end.
Lemma arun_ok L (HL : layout_ok L) h p (Hh : wfst h) (Hp : length p = 64%nat) m0 prog n : forall a s a', rel L h p m0 a s ->
  arun prog n a = Some a' -> exists s', run_n L prog n s = Some s' /\ rel L h p m0 a' s' /\ gr s' DX = gr s DX.
Proof.
  induction n as [|n IH]; intros a s a' R H; cbn [arun run_n] in *; [injection H as <-; eauto|]. rewrite <- (r_pc _ _ _ _ _ _ R).
  destruct (nth_error prog (apc a)) as [i|]; [|discriminate]. cbn [obind] in *. destruct (leaves_DX i) eqn:K; [|discriminate].
  destruct (astep i a) as [a1|] eqn:E; [|discriminate]. cbn [obind] in H.
  destruct (astep_ok L HL h p Hh Hp m0 i a s a1 R E) as (s1 & E1 & R1). rewrite E1. cbn [obind].
  destruct (IH _ _ _ R1 H) as (s' & E' & R' & D). exists s'. split; [exact E'|]. split; [exact R'|]. rewrite D.
  apply (step_keeps L i s s1 E1). intros W. unfold leaves_DX in K. rewrite W in K. discriminate.
Qed.

Definition unknown : avec := mkav AU AU AU AU.
Lemma rel_weaken L h p m0 a b s : rel L h p m0 a s -> apc b = apc a -> (forall r, agr b r = GU \/ agr b r = agr a r) ->
  (forall x, axr b x = unknown \/ axr b x = axr a x) -> incl (ace b) (ace a) -> az b = None -> rel L h p m0 b s.
Proof.
  intros R P G X C Z. constructor.
  - rewrite P. apply R.
  - intros r. destruct (G r) as [->| ->]; [exact I|apply R].
  - intros x. destruct (X x) as [->| ->]; [repeat split|apply R].
  - destruct (r_m _ _ _ _ _ _ R) as [A B]. split; [|exact B]. rewrite Forall_forall in *. auto.
  - rewrite Z. exact I.
Qed.

(** ** The listing in pieces *)
Definition p_cells : list cell :=
  [mkcell 1 0 (KV (mkav (AR 0) (AR 1) (AR 2) (AR 3))); mkcell 1 16 (KV (mkav (AR 4) (AR 5) (AR 6) (AR 7)));
   mkcell 1 32 (KV (mkav (AR 8) (AR 9) (AR 10) (AR 11))); mkcell 1 48 (KV (mkav (AR 12) (AR 13) (AR 14) (AR 15)))].
Definition ptr_regs (r : greg) : ag :=
  match r with DI => GP 0 0 | SI => GP 1 0 | R13 => GP 2 0 | R15 => GP 3 0 | _ => GU end.
(** After the arguments are loaded. *)
Definition at8 : ast :=
  mkast 8 (fun r => match r with SP => GF 0 | _ => ptr_regs r end) (fun _ => unknown)
    (mkcell 6 0 (KV (mkav (AC 0) (AC 0) (AC 0) (AC ones32))) :: mkcell 7 0 (KV mask_vec) ::
     mkcell 0 0 (KV (mkav (AS 0 0) (AS 0 1) (AS 0 2) (AS 0 3))) :: mkcell 0 16 (KW (AS 0 4)) :: p_cells) None.
(** At the head of the loop. *)
Definition loop_x (x : nat) : avec :=
  match x with
  | 0 => mkav (AS 0 3) (AS 0 2) (AS 0 1) (AS 0 0)
  | 5 => mkav (AC 0) (AC 0) (AC 0) (AS 0 4)
  | 7 => mask_vec
  | _ => unknown
  end%nat.
Definition at17 : ast := mkast 17 (fun r => match r with AX => GP 4 0 | _ => ptr_regs r end) loop_x p_cells None.
(** After the body, before the comparison of SI and DX. *)
Definition end_x (x : nat) : avec :=
  match x with
  | 0 => mkav (AF 3) (AF 2) (AF 1) (AF 0)
  | 5 => mkav (AC 0) (AC 0) (AC 0) (AF 4)
  | 7 => mask_vec
  | _ => unknown
  end%nat.
Definition out_cells : list cell := map sched_cell (seq 0 20) ++ state_cells 0 0 ++ state_cells 20 56 ++ state_cells 40 64.
Definition end_regs (r : greg) : ag :=
  match r with AX => GP 4 0 | SI => GP 1 64 | _ => ptr_regs r end.
Definition at_end (k : nat) : ast := mkast k end_regs end_x out_cells None.

Definition ag_eqb (x y : ag) : bool :=
  match x, y with
  | GP a m, GP b n => (a =? b)%nat && (m =? n)
  | _, _ => false
  end.
Lemma ag_eqb_eq x y : ag_eqb x y = true -> x = y.
Proof.
  destruct x, y; cbn [ag_eqb]; try discriminate. intros H. apply andb_prop in H. destruct H as [A B].
  apply Nat.eqb_eq in A. apply N.eqb_eq in B. congruence.
Qed.
Definition regs_of (a b : ast) : bool :=
  forallb (fun r => match agr b r with GU => true | g => ag_eqb g (agr a r) end) [AX; CX; DX; SI; DI; R12; R13; R15; SP].
Definition vecs_of (a b : ast) : bool := forallb (fun x => av_eqb (axr b x) (axr a x)) [0; 5; 7]%nat.
Definition cell_in (cs : list cell) (c : cell) : bool :=
  existsb (fun d => ((c_r d =? c_r c)%nat && (c_off d =? c_off c) && kind_eqb (c_k d) (c_k c))%bool) cs.
Definition refines (a b : ast) : bool :=
  ((apc b =? apc a)%nat && regs_of a b && vecs_of a b && forallb (cell_in (ace a)) (ace b))%bool.
Lemma refines_rel L h p m0 a b s : rel L h p m0 a s -> refines a b = true -> az b = None ->
  (forall x, x <> 0%nat -> x <> 5%nat -> x <> 7%nat -> axr b x = unknown) -> rel L h p m0 b s.
Proof.
  intros R H Z U. unfold refines in H. apply andb_prop in H. destruct H as [H C]. apply andb_prop in H. destruct H as [H V].
  apply andb_prop in H. destruct H as [P G]. apply (rel_weaken L h p m0 a b s R); [apply Nat.eqb_eq; exact P| | | |exact Z].
  - intros r. unfold regs_of in G. rewrite forallb_forall in G. specialize (G r ltac:(destruct r; cbn; tauto)).
    destruct (agr b r); auto; right; apply ag_eqb_eq in G; exact G.
  - intros x. unfold vecs_of in V. rewrite forallb_forall in V.
    destruct (Nat.eq_dec x 0) as [->|]; [right; apply av_eqb_eq, V; cbn; tauto|].
    destruct (Nat.eq_dec x 5) as [->|]; [right; apply av_eqb_eq, V; cbn; tauto|].
    destruct (Nat.eq_dec x 7) as [->|]; [right; apply av_eqb_eq, V; cbn; tauto|]. left. auto.
  - intros c Hc. rewrite forallb_forall in C. specialize (C c Hc). unfold cell_in in C. apply existsb_exists in C.
    destruct C as ([r o k] & Hd & D). cbn [c_r c_off c_k] in D. apply andb_prop in D. destruct D as [D K]. apply andb_prop in D. destruct D as [D1 D2].
    apply Nat.eqb_eq in D1. apply N.eqb_eq in D2. apply kind_eqb_eq in K. destruct c as [r' o' k']. cbn [c_r c_off c_k] in *. subst. exact Hd.
Qed.
Lemma sym_head : match arun amd64_prog 9 at8 with Some a => refines a at17 | None => false end = true.
Proof. vm_compute. reflexivity. Qed.
Lemma sym_body : match arun amd64_prog 177 at17 with Some a => refines a (at_end 194) | None => false end = true.
Proof. vm_compute. reflexivity. Qed.
Lemma sym_exit : match arun amd64_prog 3 (at_end 196) with Some a => ((apc a =? 199)%nat && has_cells exit_cells (ace a))%bool | None => false end = true.
Proof. vm_compute. reflexivity. Qed.
Lemma seg_ok L (HL : layout_ok L) h p (Hh : wfst h) (Hp : length p = 64%nat) m0 prog n a b s :
  match arun prog n a with Some c => refines c b | None => false end = true -> az b = None ->
  (forall x, x <> 0%nat -> x <> 5%nat -> x <> 7%nat -> axr b x = unknown) -> rel L h p m0 a s ->
  exists s', run_n L prog n s = Some s' /\ rel L h p m0 b s' /\ gr s' DX = gr s DX.
Proof.
  intros H Z U R. destruct (arun prog n a) as [c|] eqn:E; [|discriminate].
  destruct (arun_ok L HL h p Hh Hp m0 prog n a s c R E) as (s' & E' & R' & D). exists s'. split; [exact E'|]. split; [|exact D].
  eapply refines_rel; eassumption.
Qed.

(** ** Layouts *)
Lemma lf_facts N0 L : layout_for N0 L ->
  (forall i j, (i < 8)%nat -> (j < 8)%nat -> i <> j ->
    rbase (creg L i) + rsize (creg L i) <= rbase (creg L j) \/ rbase (creg L j) + rsize (creg L j) <= rbase (creg L i)) /\
  (forall i, (i < 8)%nat -> rbase (creg L i) + rsize (creg L i) < M64).
Proof.
  intros (A & B & _). split.
  - assert (F : forall i j, (i < j)%nat -> (j < 8)%nat -> apart (creg L i) (creg L j)).
    { assert (G : forall l, all_apart l -> forall i j a b, (i < j)%nat -> nth_error l i = Some a -> nth_error l j = Some b -> apart a b).
      { clear. induction l as [|x l IH]; intros A i j a b Hij Hi Hj; [destruct i; discriminate|].
        destruct A as [A1 A2]. destruct j as [|j]; [lia|]. cbn [nth_error] in Hj. destruct i as [|i].
        - cbn in Hi. injection Hi as <-. rewrite Forall_forall in A1. apply A1. eapply nth_error_In; eassumption.
        - cbn [nth_error] in Hi. apply (IH A2 i j); [lia|assumption|assumption]. }
      intros i j Hij Hj. apply (G _ A i j); [exact Hij|apply creg_nth; lia|apply creg_nth; lia]. }
    intros i j Hi Hj Hne. destruct (Nat.lt_ge_cases i j) as [H|H]; [exact (F i j H Hj)|].
    destruct (F j i ltac:(lia) Hi); auto.
  - intros i Hi. rewrite Forall_forall in B. apply B. eapply nth_error_In, creg_nth, Hi.
Qed.

Lemma all_apart_nth l d : (forall i j, (i < j)%nat -> (j < length l)%nat -> apart (nth i l d) (nth j l d)) -> all_apart l.
Proof.
  induction l as [|x l IH]; intros H; [exact I|]. split.
  - rewrite Forall_forall. intros y Hy. apply (In_nth _ _ d) in Hy. destruct Hy as (j & Hj & <-).
    apply (H 0%nat (S j)); cbn [length]; lia.
  - apply IH. intros i j Hij Hj. apply (H (S i) (S j)); cbn [length]; lia.
Qed.
(** The k-th block as a layout of its own. *)
Definition win (L : layout) (k : nat) : layout :=
  mklay (l_h L) (l_p L + 64 * N.of_nat k) (l_m1 L) (l_cs L) (l_frame L) (l_args L) (l_ro1 L) (l_ro2 L) 64.
Lemma win_ok n L k : layout_for n L -> 64 * N.of_nat k + 64 <= n -> layout_ok (win L k).
Proof.
  intros H Hk. destruct (lf_facts _ _ H) as [F G]. destruct H as (A & B & C & D & E). split; [|split; [|auto]].
  - apply (all_apart_nth _ (mkreg 0 0 false)). change (length (regions (win L k))) with 8%nat. intros i j Hij Hj.
    specialize (F i j ltac:(lia) Hj ltac:(lia)). unfold apart.
    case8 i; try lia; case8 j; try lia; cbn [creg nth regions rbase rsize win l_h l_p l_m1 l_cs l_frame l_args l_ro1 l_ro2 l_np] in F |- *; lia.
  - rewrite Forall_forall. intros r Hr. apply (In_nth_error) in Hr. destruct Hr as [i Hi].
    assert (Hl : (i < 8)%nat) by (apply (proj1 (nth_error_Some (regions (win L k)) i)); rewrite Hi; discriminate).
    rewrite (creg_nth (win L k) i Hl) in Hi. injection Hi as <-. specialize (G i Hl).
    case8 i; try lia; cbn [creg nth regions rbase rsize win l_h l_p l_m1 l_cs l_frame l_args l_ro1 l_ro2 l_np] in G |- *; lia.
Qed.
Lemma win_sub n L k : layout_for n L -> 64 * N.of_nat k + 64 <= n -> sub (win L k) L.
Proof.
  intros (_ & _ & _ & _ & E) Hk.
  assert (I : forall a m, inside a m (mkreg (l_p L + 64 * N.of_nat k) 64 false) = true -> inside a m (mkreg (l_p L) (l_np L) false) = true).
  { intros a m. unfold inside. cbn [rbase rsize]. rewrite !andb_true_iff, !N.leb_le. lia. }
  split; [auto|]. split; intros a m H; apply existsb_exists in H; destruct H as (r & Hr & H); apply existsb_exists.
  - destruct Hr as [<-|[<-|Hr]].
    + eexists. split; [left; reflexivity|exact H].
    + exists (mkreg (l_p L) (l_np L) false). split; [right; left; reflexivity|apply I; exact H].
    + exists r. split; [right; right; exact Hr|exact H].
  - destruct Hr as [<-|[<-|Hr]].
    + eexists. split; [left; reflexivity|exact H].
    + discriminate H.
    + exists r. split; [right; right; exact Hr|exact H].
Qed.
Lemma win_limits L k a : off_limits (win L k) a <-> off_limits L a.
Proof.
  assert (E : forall r, awr r = true -> creg (win L k) r = creg L r) by (intros r H; case8 r; (reflexivity || discriminate)).
  unfold off_limits. split; intros H r Hr; specialize (H r Hr); [rewrite <- (E r Hr)|rewrite (E r Hr)]; exact H.
Qed.

(** ** Entry *)
Section EntryN.
  Variable L : layout.
  Variables (ro1 ro2 : list byte) (m : mem) (h : st) (p : list byte) (m1 : list word) (cs : csarr).
  Hypothesis HL : layout_for (N.of_nat (length p)) L.
  Hypothesis H1 : length ro1 = 16%nat.
  Hypothesis H2 : length ro2 = 16%nat.
  Hypothesis Hm : length m1 = 80%nat.
  Let E := entry_mem L ro1 ro2 m h p m1 cs.
  Ltac skip i j := rewrite peek_poke_apart by
    (rewrite ?words_bytes_length, ?Hm, ?H1, ?H2, ?args_length; destruct (lf_facts _ _ HL) as [X _]; specialize (X i j ltac:(lia) ltac:(lia) ltac:(lia));
     cbn [creg nth regions rbase rsize] in X; destruct HL as (_ & _ & _ & _ & Y); cbn [length cs_words st_words app]; lia).
  Lemma entryn_h : peek E (l_h L) 20 = words_bytes (st_words h).
  Proof. unfold E, entry_mem. exact (peek_poke_same _ _ (words_bytes (st_words h))). Qed.
  Lemma entryn_p : peek E (l_p L) (length p) = p.
  Proof. unfold E, entry_mem. skip 1%nat 0%nat. apply peek_poke_same. Qed.
  Lemma entryn_args : peek E (l_args L) 96 = args_bytes L (N.of_nat (length p)).
  Proof.
    unfold E, entry_mem. skip 5%nat 0%nat. skip 5%nat 1%nat. skip 5%nat 2%nat. skip 5%nat 3%nat.
    exact (peek_poke_same _ _ (args_bytes L (N.of_nat (length p)))).
  Qed.
  Lemma entryn_ro1 : peek E (l_ro1 L) 16 = ro1.
  Proof.
    unfold E, entry_mem. skip 6%nat 0%nat. skip 6%nat 1%nat. skip 6%nat 2%nat. skip 6%nat 3%nat. skip 6%nat 5%nat.
    rewrite <- H1. apply peek_poke_same.
  Qed.
  Lemma entryn_ro2 : peek E (l_ro2 L) 16 = ro2.
  Proof.
    unfold E, entry_mem. skip 7%nat 0%nat. skip 7%nat 1%nat. skip 7%nat 2%nat. skip 7%nat 3%nat. skip 7%nat 5%nat. skip 7%nat 6%nat.
    rewrite <- H2. apply peek_poke_same.
  Qed.
  (** The arguments. *)
  Lemma arg_rd off v : (off + 8 <= 96)%nat -> firstn 8 (skipn off (args_bytes L (N.of_nat (length p)))) = le64 v -> v < M64 ->
    exists l, rd (regions L) E ((l_args L + N.of_nat off) mod M64) 8 = Some l /\ le_val l = v.
  Proof.
    intros Ho Hb Hv. destruct (lf_facts _ _ HL) as [_ B]. specialize (B 5%nat ltac:(lia)). cbn [creg nth regions rbase rsize] in B.
    rewrite N.mod_small by lia. unfold rd. replace (readable _ _ _) with true.
    - eexists. split; [reflexivity|]. rewrite (peek_sub E (l_args L) 96) by assumption. rewrite entryn_args, Hb. apply le_val_le64. exact Hv.
    - symmetry. apply existsb_exists. exists (creg L 5). split; [eapply nth_error_In, creg_nth; lia|].
      unfold inside. cbn [creg nth regions rbase rsize]. apply andb_true_intro. split; apply N.leb_le; lia.
  Qed.
End EntryN.
(** Bytes of p are never stored to. *)
Lemma p_limits L (p : list byte) (HL : layout_for (N.of_nat (length p)) L) a : l_p L <= a -> a < l_p L + N.of_nat (length p) -> off_limits L a.
Proof.
  intros A B r Hr. destruct (lf_facts _ _ HL) as [X _]. destruct HL as (_ & _ & _ & _ & Y).
  assert (Hr' : (r < 8)%nat) by (case8 r; try lia; discriminate).
  specialize (X r 1%nat Hr' ltac:(lia)). assert (r <> 1%nat) as Hne by (intros ->; discriminate). specialize (X Hne).
  change (creg L 1) with (mkreg (l_p L) (l_np L) false) in X. cbn [rbase rsize] in X. lia.
Qed.

(** ** Cells of one block *)
Lemma st_cells_ok L h p m : wfst h -> length p = 64%nat -> peek m (l_h L) 20 = words_bytes (st_words h) ->
  cell_ok L h p m (mkcell 0 0 (KV (mkav (AS 0 0) (AS 0 1) (AS 0 2) (AS 0 3)))) /\ cell_ok L h p m (mkcell 0 16 (KW (AS 0 4))).
Proof.
  intros Hh Hp E. split.
  - split; [cbn; lia|]. cbn [c_off c_k c_r ksize abase holds]. change 0 with (N.of_nat 0). rewrite (peek_sub m (l_h L) 20) by lia. rewrite E.
    change (firstn 16 (skipn 0 (words_bytes (st_words h)))) with (vec_bytes (mkv (sa h) (sb h) (sc h) (sd h))).
    apply vlv_store; auto. repeat split.
  - split; [cbn; lia|]. cbn [c_off c_k c_r ksize abase holds]. change 16 with (N.of_nat 16).
    rewrite (peek_sub m (l_h L) 20) by lia. rewrite E.
    change (firstn 4 (skipn 16 (words_bytes (st_words h)))) with (le32 (se h)). apply lv_store; auto. reflexivity.
Qed.
Lemma p_cells_ok L h p m : peek m (l_p L) 64 = p -> Forall (cell_ok L h p m) p_cells.
Proof.
  intros E.
  assert (P : forall k, (k < 4)%nat -> cell_ok L h p m (mkcell 1 (N.of_nat (16 * k))
     (KV (mkav (AR (4 * k)) (AR (4 * k + 1)) (AR (4 * k + 2)) (AR (4 * k + 3)))))).
  { intros k Hk. split; [cbn [c_off c_k c_r ksize asize]; lia|]. cbn [c_off c_k c_r ksize abase holds].
    rewrite (peek_sub m (l_p L) 64) by lia. rewrite E.
    assert (Q : forall i, (i < 4)%nat -> firstn 4 (skipn (4 * i) (firstn 16 (skipn (16 * k) p))) = firstn 4 (skipn (4 * (4 * k + i)) p)).
    { intros i Hi. rewrite skipn_firstn_comm, firstn_firstn, skipn_add. f_equal; [lia|f_equal; lia]. }
    unfold vlv, bytes_vec. cbn [a0 a1 a2 a3 v0 v1 v2 v3 lv]. unfold raw.
    pose proof (Q 0%nat ltac:(lia)) as Q0. pose proof (Q 1%nat ltac:(lia)) as Q1. pose proof (Q 2%nat ltac:(lia)) as Q2.
    pose proof (Q 3%nat ltac:(lia)) as Q3. change (4 * 0)%nat with 0%nat in Q0. change (4 * 1)%nat with 4%nat in Q1.
    change (4 * 2)%nat with 8%nat in Q2. change (4 * 3)%nat with 12%nat in Q3. cbn [skipn] in Q0.
    rewrite Q0, Q1, Q2, Q3, Nat.add_0_r. repeat split; lia. }
  constructor; [exact (P 0%nat ltac:(lia))|]. constructor; [exact (P 1%nat ltac:(lia))|].
  constructor; [exact (P 2%nat ltac:(lia))|]. constructor; [exact (P 3%nat ltac:(lia))|]. constructor.
Qed.

(** ** Blocks of a slice *)
Definition chunk (p : list byte) (k : nat) : list byte := firstn 64 (skipn (64 * k) p).
Lemma chunk_length p n k : length p = (64 * n)%nat -> (k < n)%nat -> length (chunk p k) = 64%nat.
Proof. intros H K. unfold chunk. rewrite firstn_length, skipn_length. lia. Qed.
Lemma blocks_chunks n : forall p, length p = (64 * n)%nat -> blocks p = map (chunk p) (seq 0 n).
Proof.
  induction n as [|n IH]; intros p H; [destruct p; [reflexivity|cbn [length] in H; lia]|].
  rewrite blocks_cons by lia. cbn [seq map]. f_equal. rewrite (IH (skipn 64 p)) by (rewrite skipn_length; lia).
  rewrite <- seq_shift, map_map. apply map_ext. intros k. unfold chunk. rewrite skipn_add. f_equal. f_equal. lia.
Qed.

(** ** Moving between pieces *)
Lemma rel_move L h p m0 a s pc' s' : rel L h p m0 a s -> pc s' = pc' -> gr s' = gr s -> xr s' = xr s -> mm s' = mm s ->
  rel L h p m0 (mkast pc' (agr a) (axr a) (ace a) None) s'.
Proof.
  intros R P G X M. constructor; cbn [apc agr axr ace az].
  - auto.
  - rewrite G. apply R.
  - rewrite X. apply R.
  - rewrite M. apply R.
  - exact I.
Qed.

Section Loop.
  Variable L : layout.
  Variables (p : list byte) (n : nat).
  Hypothesis HL : layout_for (N.of_nat (length p)) L.
  Hypothesis Hp : length p = (64 * n)%nat.
  Variable m0 : mem.
  Hypothesis Em : peek m0 (l_p L) (length p) = p.

  Lemma chunk_at k : (k < n)%nat -> peek m0 (l_p L + 64 * N.of_nat k) 64 = chunk p k.
  Proof.
    intros K. replace (64 * N.of_nat k) with (N.of_nat (64 * k)) by lia.
    rewrite (peek_sub m0 (l_p L) (length p)) by lia. rewrite Em. reflexivity.
  Qed.
  Lemma chunk_mem k m : (k < n)%nat -> (forall a, off_limits L a -> m a = m0 a) -> peek m (l_p L + 64 * N.of_nat k) 64 = chunk p k.
  Proof.
    intros K F. rewrite <- chunk_at by exact K. apply peek_ext. intros i Hi. apply F. apply (p_limits L p HL); lia.
  Qed.
  Lemma wok k : (k < n)%nat -> layout_ok (win L k). Proof. intros K. apply (win_ok _ _ _ HL). lia. Qed.
  Lemma wsub k : (k < n)%nat -> sub (win L k) L. Proof. intros K. apply (win_sub _ _ _ HL). lia. Qed.

  (** The end of one block is the head of the next. *)
  Lemma next_block k h s : (S k < n)%nat -> rel (win L k) h (chunk p k) m0 (at_end 17) s ->
    rel (win L (S k)) (compress h (words_of (chunk p k))) (chunk p (S k)) m0 at17 s.
  Proof.
    intros K R. destruct R as [P G X [C F] _]. constructor.
    - exact P.
    - intros r. specialize (G r). cbn [at17 agr at_end end_regs ptr_regs] in *.
      destruct r; cbn [end_regs ptr_regs gv abase win l_h l_p l_m1 l_cs l_frame l_args l_ro1 l_ro2 asize] in *; try exact I; try exact G.
      destruct G as [-> _]. split; [lia|]. split; [lia|lia].
    - intros x. specialize (X x). cbn [at17 axr at_end] in *. do 8 (destruct x as [|x]; [try (repeat split; fail); exact X|]). repeat split.
    - split.
      + apply p_cells_ok. apply (chunk_mem (S k)); [exact K|]. intros a Ha. apply F. apply win_limits. exact Ha.
      + intros a Ha. apply F. apply win_limits in Ha. apply win_limits. exact Ha.
    - exact I.
  Qed.
  Lemma loop_ok r : forall k h s, (k + S r = n)%nat -> wfst h -> rel (win L k) h (chunk p k) m0 at17 s ->
    gr s DX = l_p L + 64 * N.of_nat n ->
    exists s' a, run_n L amd64_prog (179 * S r + 3) s = Some s' /\ apc a = 199%nat /\ has_cells exit_cells (ace a) = true /\
      rel (win L (n - 1)) (sha1_blocks h (map (chunk p) (seq k r))) (chunk p (n - 1)) m0 a s'.
  Proof.
    induction r as [|r IH]; intros k h s Hk Hh R D.
    - assert (K : (k < n)%nat) by lia. replace (n - 1)%nat with k by lia.
      destruct (seg_ok (win L k) (wok k K) h (chunk p k) Hh (chunk_length p n k Hp K) m0 amd64_prog 177 at17 (at_end 194) s sym_body eq_refl) as (s1 & E1 & R1 & D1).
      { intros x A B C. do 8 (destruct x as [|x]; [try reflexivity; congruence|]). reflexivity. }
      { exact R. }
      apply (sub_run _ _ (wsub k K)) in E1.
      assert (S1 : gr s1 SI = gr s1 DX).
      { pose proof (r_g _ _ _ _ _ _ R1 SI) as (A & _). rewrite A, D1, D. cbn [abase win l_p]. lia. }
      assert (E2 : run_n L amd64_prog 1 s1 = Some (setz true s1)).
      { apply (run_one L amd64_prog s1 (CMPQ SI DX)).
        - rewrite <- (r_pc _ _ _ _ _ _ R1). reflexivity.
        - cbn [step_instr]. rewrite S1, N.eqb_refl. reflexivity. }
      assert (E3 : run_n L amd64_prog 1 (setz true s1) = Some (jump 196 (setz true s1))).
      { apply (run_one L amd64_prog _ (JNE 17)); [|cbn [step_instr zf setz]]; cbn [setz pc]; rewrite <- (r_pc _ _ _ _ _ _ R1); reflexivity. }
      assert (R3 : rel (win L k) h (chunk p k) m0 (at_end 196) (jump 196 (setz true s1))).
      { apply (rel_move _ _ _ _ _ s1 196%nat _ R1); reflexivity. }
      pose proof sym_exit as Q. destruct (arun amd64_prog 3 (at_end 196)) as [a|] eqn:A; [|discriminate].
      apply andb_prop in Q. destruct Q as [Q1 Q2]. apply Nat.eqb_eq in Q1.
      destruct (arun_ok (win L k) (wok k K) h (chunk p k) Hh (chunk_length p n k Hp K) m0 amd64_prog 3 _ _ a R3 A) as (s4 & E4 & R4 & _).
      apply (sub_run _ _ (wsub k K)) in E4.
      exists s4, a. split; [|split; [exact Q1|split; [exact Q2|exact R4]]].
      change (179 * 1 + 3)%nat with (177 + (1 + (1 + 3)))%nat.
      eapply run_app; [exact E1|]. eapply run_app; [exact E2|]. eapply run_app; [exact E3|exact E4].
    - assert (K : (k < n)%nat) by lia.
      destruct (seg_ok (win L k) (wok k K) h (chunk p k) Hh (chunk_length p n k Hp K) m0 amd64_prog 177 at17 (at_end 194) s sym_body eq_refl) as (s1 & E1 & R1 & D1).
      { intros x A B C. do 8 (destruct x as [|x]; [try reflexivity; congruence|]). reflexivity. }
      { exact R. }
      apply (sub_run _ _ (wsub k K)) in E1.
      assert (S1 : (gr s1 SI =? gr s1 DX) = false).
      { apply N.eqb_neq. pose proof (r_g _ _ _ _ _ _ R1 SI) as (A & _). rewrite A, D1, D. cbn [abase win l_p]. lia. }
      assert (E2 : run_n L amd64_prog 1 s1 = Some (setz false s1)).
      { apply (run_one L amd64_prog s1 (CMPQ SI DX)).
        - rewrite <- (r_pc _ _ _ _ _ _ R1). reflexivity.
        - cbn [step_instr]. rewrite S1. reflexivity. }
      assert (E3 : run_n L amd64_prog 1 (setz false s1) = Some (jump 17 (setz false s1))).
      { apply (run_one L amd64_prog _ (JNE 17)); [cbn [setz pc]; rewrite <- (r_pc _ _ _ _ _ _ R1); reflexivity|reflexivity]. }
      assert (R3 : rel (win L k) h (chunk p k) m0 (at_end 17) (jump 17 (setz false s1))).
      { apply (rel_move _ _ _ _ _ s1 17%nat _ R1); reflexivity. }
      apply (next_block k h _ ltac:(lia)) in R3.
      destruct (IH (S k) _ _ ltac:(lia) (wfst_compress _ _) R3 ltac:(cbn [jump setz gr]; congruence)) as (s' & a & E4 & A1 & A2 & A3).
      exists s', a. split; [|split; [exact A1|split; [exact A2|exact A3]]].
      replace (179 * S (S r) + 3)%nat with (177 + (1 + (1 + (179 * S r + 3))))%nat by lia.
      eapply run_app; [exact E1|]. eapply run_app; [exact E2|]. eapply run_app; [exact E3|exact E4].
  Qed.
End Loop.

(** ** The whole run *)
Lemma seq_last k : seq 0 (S k) = seq 0 k ++ [k].
Proof. exact (seq_S k 0). Qed.
Section Whole.
  Variable e : env.
  Variables (h : st) (p : list byte) (m1 : list word) (cs : csarr) (n : nat).
  Let L := e_lay e.
  Hypothesis HL : layout_for (N.of_nat (length p)) L.
  Hypothesis Hh : wfst h.
  Hypothesis Hp : length p = (64 * n)%nat.
  Hypothesis Hm : length m1 = 80%nat.
  Let s0 := entry upper_mask shuffle_mask e h p m1 cs.

  Lemma arg_step off r v s : mm s = mm s0 -> (off + 8 <= 96)%nat ->
    firstn 8 (skipn off (args_bytes L (N.of_nat (length p)))) = le64 v -> v < M64 ->
    step_instr L (MOVQ_load (mka BFP (N.of_nat off)) r) s = Some (setg r v s).
  Proof.
    intros M O B V. cbn [step_instr]. unfold load64, addr. cbn [mbase mdisp]. rewrite M.
    destruct (arg_rd L upper_mask shuffle_mask (e_mem e) h p m1 cs HL eq_refl eq_refl Hm off v O B V) as (l & E & Q).
    unfold s0. cbn [entry mm]. fold L. rewrite E. cbn [obind]. rewrite Q. reflexivity.
  Qed.
  Lemma bnd i : (i < 8)%nat -> rbase (creg L i) + rsize (creg L i) < M64.
  Proof. apply (lf_facts _ _ HL). Qed.
  Definition s5 : mach := setg R15 (l_cs L) (setg R13 (l_m1 L) (setg DX (N.of_nat (length p)) (setg SI (l_p L) (setg DI (l_h L) s0)))).
  Lemma np_lt : l_p L + N.of_nat (length p) < M64.
  Proof. pose proof (bnd 1%nat ltac:(lia)) as B. cbn [creg nth regions rbase rsize] in B. destruct HL as (_ & _ & _ & _ & E). lia. Qed.
  Lemma run5 : run_n L amd64_prog 5 s0 = Some s5.
  Proof.
    pose proof (bnd 0%nat ltac:(lia)) as B0. pose proof np_lt as B1.
    pose proof (bnd 2%nat ltac:(lia)) as B2. pose proof (bnd 3%nat ltac:(lia)) as B3. cbn [creg nth regions rbase rsize] in B0, B2, B3.
    change 5%nat with (1 + (1 + (1 + (1 + 1))))%nat.
    eapply run_app; [eapply run_one; [reflexivity|apply (arg_step 0 DI (l_h L)); [reflexivity|lia|reflexivity|lia]]|].
    eapply run_app; [eapply run_one; [reflexivity|apply (arg_step 24 SI (l_p L)); [reflexivity|lia|reflexivity|lia]]|].
    eapply run_app; [eapply run_one; [reflexivity|apply (arg_step 32 DX (N.of_nat (length p))); [reflexivity|lia|reflexivity|lia]]|].
    eapply run_app; [eapply run_one; [reflexivity|apply (arg_step 48 R13 (l_m1 L)); [reflexivity|lia|reflexivity|lia]]|].
    eapply run_one; [reflexivity|apply (arg_step 72 R15 (l_cs L)); [reflexivity|lia|reflexivity|lia]].
  Qed.

  (** No block: the routine returns at once. *)
  Lemma amd64_empty fuel : n = 0%nat -> (8 <= fuel)%nat -> exists s, exec L amd64_prog fuel s0 = Some s /\ mm s = mm s0.
  Proof.
    intros N0 F. assert (P0 : length p = 0%nat) by lia.
    assert (E : run_n L amd64_prog 2 s5 = Some (jump 199 (setz true s5))).
    { change 2%nat with (1 + 1)%nat. eapply run_app.
      - eapply (run_one L amd64_prog s5 (CMPQ_imm DX 0)); [reflexivity|]. cbn [step_instr]. unfold s5 at 1. cbn [gr setg greg_eqb]. rewrite P0. reflexivity.
      - eapply (run_one L amd64_prog _ (JEQ 199)); reflexivity. }
    exists (jump 199 (setz true s5)). split; [|reflexivity].
    replace fuel with (5 + (2 + S (fuel - 8)))%nat by lia.
    rewrite (exec_run _ _ _ _ _ _ run5), (exec_run _ _ _ _ _ _ E). reflexivity.
  Qed.

  Definition s8 : mach := setgz DX ((N.of_nat (length p) + l_p L) mod M64) (jump 7 (setz false s5)).
  Lemma run8 : (0 < n)%nat -> run_n L amd64_prog 8 s0 = Some s8.
  Proof.
    intros N0. change 8%nat with (5 + (1 + (1 + 1)))%nat. eapply run_app; [exact run5|].
    eapply run_app; [eapply (run_one L amd64_prog s5 (CMPQ_imm DX 0)); [reflexivity|]|].
    { cbn [step_instr]. replace (gr s5 DX =? 0) with false; [reflexivity|]. symmetry. apply N.eqb_neq. unfold s5. cbn [gr setg greg_eqb]. lia. }
    eapply run_app; [eapply (run_one L amd64_prog _ (JEQ 199)); reflexivity|].
    eapply (run_one L amd64_prog _ (ADDQ SI DX)); reflexivity.
  Qed.
  Lemma at8_ok : (0 < n)%nat -> rel (win L 0) h (chunk p 0) (mm s0) at8 s8.
  Proof.
    intros N0. pose proof (win_ok _ _ 0%nat HL ltac:(lia)) as WL. pose proof (chunk_length p n 0 Hp N0) as C0.
    assert (Em : peek (mm s0) (l_p L) (length p) = p) by (apply entryn_p; auto).
    constructor.
    - reflexivity.
    - intros r. cbn [at8 agr]. destruct r; cbn [ptr_regs gv]; try exact I; unfold s8, s5; cbn [gr setgz jump setz setg greg_eqb];
        cbn [abase win l_h l_p l_m1 l_cs l_frame asize]; try (repeat split; lia).
      split; [|discriminate]. unfold s0. cbn [entry gr]. fold L. lia.
    - intros x. repeat split.
    - split; [|reflexivity]. cbn [ace at8]. constructor; [|constructor].
      + split; [cbn; lia|]. cbn [c_r c_off c_k ksize abase holds win l_ro1]. rewrite N.add_0_r. change (mm s8) with (mm s0).
        unfold s0. cbn [entry mm]. fold L. rewrite entryn_ro1; auto. vm_compute. auto.
      + split; [cbn; lia|]. cbn [c_r c_off c_k ksize abase holds win l_ro2]. rewrite N.add_0_r. change (mm s8) with (mm s0).
        unfold s0. cbn [entry mm]. fold L. rewrite entryn_ro2; auto. vm_compute. auto.
      + destruct (st_cells_ok (win L 0) h (chunk p 0) (mm s8) Hh C0) as [A B]; [exact (entryn_h L upper_mask shuffle_mask (e_mem e) h p m1 cs)|].
        constructor; [exact A|]. constructor; [exact B|]. apply p_cells_ok. cbn [win l_p]. change (mm s8) with (mm s0).
        apply (chunk_at L p n Hp _ Em 0 N0).
    - exact I.
  Qed.
  Lemma whole_ok : (0 < n)%nat -> exists s a, run_n L amd64_prog (20 + 179 * n) s0 = Some s /\ apc a = 199%nat /\ has_cells exit_cells (ace a) = true /\
    rel (win L (n - 1)) (sha1_blocks h (map (chunk p) (seq 0 (n - 1)))) (chunk p (n - 1)) (mm s0) a s.
  Proof.
    intros N0. pose proof (win_ok _ _ 0%nat HL ltac:(lia)) as WL. pose proof (chunk_length p n 0 Hp N0) as C0.
    assert (Em : peek (mm s0) (l_p L) (length p) = p) by (apply entryn_p; auto).
    destruct (seg_ok (win L 0) WL h (chunk p 0) Hh C0 (mm s0) amd64_prog 9 at8 at17 s8 sym_head eq_refl) as (s & E & R & D).
    { intros x A B C. do 8 (destruct x as [|x]; [try reflexivity; congruence|]). reflexivity. }
    { exact (at8_ok N0). }
    apply (sub_run _ _ (win_sub _ _ 0%nat HL ltac:(lia))) in E.
    destruct (loop_ok L p n HL Hp (mm s0) Em (n - 1) 0 h s ltac:(lia) Hh R) as (s' & a & E' & A & B & C).
    { rewrite D. unfold s8. cbn [gr setgz greg_eqb]. pose proof np_lt. rewrite N.mod_small by lia. lia. }
    exists s', a. split; [|auto]. replace (20 + 179 * n)%nat with (8 + (9 + (179 * S (n - 1) + 3)))%nat by lia.
    eapply run_app; [exact (run8 N0)|]. eapply run_app; [exact E|exact E'].
  Qed.
  Lemma amd64_blocks fuel : (0 < n)%nat -> (21 + 179 * n <= fuel)%nat -> exists s, exec L amd64_prog fuel s0 = Some s /\
    st_at (mm s) (l_h L) = sha1_blocks h (blocks p) /\
    words_at (mm s) (l_m1 L) 80 = schedule (words_of (chunk p (n - 1))) /\
    cs_at (mm s) (l_cs L) = (let g := sha1_blocks h (map (chunk p) (seq 0 (n - 1))) in let M := words_of (chunk p (n - 1)) in
      mkcs g (state_at 56 g M) (state_at 64 g M)) /\
    forall a, (forall r, In r (regions L) -> rwrite r = true -> a < rbase r \/ rbase r + rsize r <= a) -> mm s a = mm s0 a.
  Proof.
    intros N0 F. destruct (whole_ok N0) as (s & a & E & A & C & R). exists s.
    assert (K : (n - 1 < n)%nat) by lia. pose proof (chunk_length p n (n - 1) Hp K) as C0.
    pose proof (win_ok _ _ (n - 1)%nat HL ltac:(lia)) as WL. pose proof (r_pc _ _ _ _ _ _ R) as P. destruct R as [_ _ _ R _].
    split; [|split; [|split; [|split]]].
    - replace fuel with ((20 + 179 * n) + S (fuel - (21 + 179 * n)))%nat by lia. rewrite (exec_run _ _ _ _ _ _ E). cbn [exec].
      rewrite <- P, A. reflexivity.
    - change (l_h L) with (l_h (win L (n - 1))). rewrite (exit_h (win L (n - 1)) WL _ _ C0 (mm s0) (mm s) (ace a) R C).
      rewrite (blocks_chunks n p Hp). replace n with (S (n - 1)) at 3 by lia. rewrite seq_last, map_app. unfold sha1_blocks.
      rewrite fold_left_app. reflexivity.
    - change (l_m1 L) with (l_m1 (win L (n - 1))). exact (exit_m1 (win L (n - 1)) WL _ _ C0 (mm s0) (mm s) (ace a) R C).
    - change (l_cs L) with (l_cs (win L (n - 1))). exact (exit_cs (win L (n - 1)) WL _ _ C0 (mm s0) (mm s) (ace a) R C).
    - intros x Hx. destruct R as [_ R]. apply R. apply win_limits. intros r Hr. apply Hx.
      + destruct r as [|[|[|[|[|r]]]]]; cbn [awr] in Hr; try discriminate; cbn; auto 10.
      + destruct r as [|[|[|[|[|r]]]]]; cbn [awr] in Hr; try discriminate; reflexivity.
  Qed.
End Whole.

(** The same with the last block split off. *)
Lemma amd64_multi e h q b m1 cs fuel : layout_for (N.of_nat (length (q ++ b))) (e_lay e) -> wfst h ->
  (length q mod 64 = 0)%nat -> length b = 64%nat -> length m1 = 80%nat -> (200 + 3 * length q <= fuel)%nat ->
  let s0 := entry upper_mask shuffle_mask e h (q ++ b) m1 cs in let L := e_lay e in
  let g := sha1_blocks h (blocks q) in let M := words_of b in
  exists s, exec L amd64_prog fuel s0 = Some s /\
    st_at (mm s) (l_h L) = sha1_blocks h (blocks (q ++ b)) /\ words_at (mm s) (l_m1 L) 80 = schedule M /\
    cs_at (mm s) (l_cs L) = mkcs g (state_at 56 g M) (state_at 64 g M) /\
    forall a, (forall r, In r (regions L) -> rwrite r = true -> a < rbase r \/ rbase r + rsize r <= a) -> mm s a = mm s0 a.
Proof.
  intros HL Hh Hq Hb Hm F s0 L g M. pose proof (Nat.div_mod (length q) 64 ltac:(discriminate)) as D. set (k := (length q / 64)%nat) in *. rewrite Hq, Nat.add_0_r in D.
  assert (Hp : length (q ++ b) = (64 * S k)%nat) by (rewrite app_length; lia).
  assert (K : chunk (q ++ b) k = b).
  { unfold chunk. rewrite <- D, skipn_app, skipn_all, Nat.sub_diag. cbn [app skipn]. apply firstn_all2. lia. }
  assert (G : sha1_blocks h (map (chunk (q ++ b)) (seq 0 k)) = g).
  { unfold g. f_equal. rewrite (blocks_chunks k q D). apply map_ext_in. intros i Hi. apply in_seq in Hi. unfold chunk.
    rewrite skipn_app, firstn_app. replace (64 - length (skipn (64 * i) q))%nat with 0%nat by (rewrite skipn_length; lia).
    cbn [firstn]. apply app_nil_r. }
  destruct (amd64_blocks e h (q ++ b) m1 cs (S k) HL Hh Hp Hm fuel ltac:(lia) ltac:(lia)) as (s & E & A & B & C & W).
  replace (S k - 1)%nat with k in * by lia. cbv zeta in C. rewrite K in B, C. rewrite G in C. exists s. auto.
Qed.
Lemma amd64_no_block e h m1 cs fuel : layout_for 0 (e_lay e) -> length m1 = 80%nat -> (8 <= fuel)%nat ->
  let s0 := entry upper_mask shuffle_mask e h [] m1 cs in
  exists s, exec (e_lay e) amd64_prog fuel s0 = Some s /\ mm s = mm s0.
Proof. intros HL Hm F. exact (amd64_empty e h [] m1 cs 0 HL eq_refl Hm fuel eq_refl F). Qed.
