(** The assembly routines: registers they keep, and independence of control flow and accesses from the data. *)

From Coq Require Import Arith NArith List Strings.Byte Bool Lia ZifyNat.
From Verif Require Import Word Model_Go Model_Asm Model_Amd64 Model_Arm64 Model_Trace Gen_Amd64 Gen_Arm64 AsmSym.
Import ListNotations.
Local Open Scope N_scope.
Ltac Zify.zify_post_hook ::= idtac.

(** ** Memory: the arguments are never overwritten *)
Section Args.
  Variable L : layout.
  Hypothesis HL : layout_ok L.

  Definition pub_mem (m : mem) : list byte := peek m (l_args L) 96.
  Lemma wr_args m a l m' : wr (regions L) m a l = Some m' -> pub_mem m' = pub_mem m.
  Proof.
    unfold wr. destruct (writable (regions L) a (N.of_nat (length l))) eqn:W; [|discriminate]. intros E. injection E as <-.
    unfold writable in W. apply existsb_exists in W. destruct W as (r & Hr & W). apply andb_prop in W. destruct W as [Hw W].
    unfold inside in W. apply andb_prop in W. destruct W as [W1 W2]. apply N.leb_le in W1, W2.
    unfold pub_mem. apply peek_poke_apart. destruct HL as [A _].
    cbn [regions all_apart] in A. destruct A as (A0 & A1 & A2 & A3 & A4 & A5 & A6 & A7 & _).
    assert (X : apart r (mkreg (l_args L) 96 false)).
    { cbn [regions In] in Hr. destruct Hr as [<-|[<-|[<-|[<-|[<-|[<-|[<-|[<-|[]]]]]]]]]; cbn [rwrite] in Hw; try discriminate.
      - rewrite Forall_forall in A0. apply A0. cbn. auto 10.
      - rewrite Forall_forall in A2. apply A2. cbn. auto 10.
      - rewrite Forall_forall in A3. apply A3. cbn. auto 10.
      - rewrite Forall_forall in A4. apply A4. cbn. auto 10. }
    unfold apart in X. cbn [rbase rsize] in X. lia.
  Qed.
  Lemma args_wrap off : off + 8 <= 96 -> (l_args L + off) mod M64 = l_args L + off.
  Proof.
    intros Ho. destruct HL as (_ & B & _). rewrite Forall_forall in B.
    specialize (B (mkreg (l_args L) 96 false)). cbn [rbase rsize] in B. apply N.mod_small.
    assert (l_args L + 96 < M64) by (apply B; cbn; auto 10). lia.
  Qed.
  Lemma args_rd m m' off : pub_mem m = pub_mem m' -> off + 8 <= 96 ->
    rd (regions L) m ((l_args L + off) mod M64) 8 = rd (regions L) m' ((l_args L + off) mod M64) 8.
  Proof.
    intros E Ho. rewrite args_wrap by assumption. unfold rd. replace (peek m (l_args L + off) 8) with (peek m' (l_args L + off) 8); [reflexivity|].
    replace off with (N.of_nat (N.to_nat off)) by lia.
    rewrite (peek_sub m (l_args L) 96) by lia. rewrite (peek_sub m' (l_args L) 96) by lia.
    unfold pub_mem in E. rewrite E. reflexivity.
  Qed.
  Lemma wr_same m m' a l l' : length l = length l' ->
    match wr (regions L) m a l, wr (regions L) m' a l' with
    | Some x, Some y => pub_mem m = pub_mem m' -> pub_mem x = pub_mem y
    | None, None => True
    | _, _ => False
    end.
  Proof.
    intros El. destruct (wr (regions L) m a l) as [x|] eqn:E, (wr (regions L) m' a l') as [y|] eqn:E'.
    - intros H. apply wr_args in E, E'. congruence.
    - unfold wr in E, E'. rewrite El in E. destruct (writable _ _ _); discriminate.
    - unfold wr in E, E'. rewrite El in E. destruct (writable _ _ _); discriminate.
    - exact I.
  Qed.
  Lemma rd_same m m' a n :
    match rd (regions L) m a n, rd (regions L) m' a n with Some _, Some _ => True | None, None => True | _, _ => False end.
  Proof. unfold rd. destruct (readable _ _ _); exact I. Qed.
End Args.

(** ** amd64 *)

(** The general register an instruction writes. *)
Definition wreg (i : instr) : option greg :=
  match i with
  | MOVQ_load _ r | MOVQ_imm _ r | ADDQ _ r | ADDQ_imm _ r | LEAQ _ r | NOTQ r | ANDQ _ r | ROLL _ r | VPEXTRD _ _ r => Some r
  | _ => None
  end.
(** The vector register an instruction writes. *)
Definition wvec (i : instr) : option nat :=
  match i with
  | PINSRD _ _ x | VMOVDQU_load _ x | VMOVDQA _ x | PAND _ x | PXOR _ x | PADDD _ x | PSHUFB _ x | PSHUFD _ _ x
  | SHA1RNDS4 _ _ x | SHA1NEXTE _ x | SHA1MSG1 _ x | SHA1MSG2 _ x => Some x
  | _ => None
  end.
Ltac ob := repeat match goal with
  | H : obind ?x _ = Some _ |- _ => destruct x; cbn [obind] in H; [|discriminate]
  | H : (if ?b then _ else None) = Some _ |- _ => destruct b; [|discriminate]
  | H : Some _ = Some _ |- _ => injection H as <-
  end.
Lemma step_keeps L i s s' : step_instr L i s = Some s' ->
  (forall r, wreg i <> Some r -> gr s' r = gr s r) /\ (forall x, wvec i <> Some x -> xr s' x = xr s x).
Proof.
  intros E. assert (G : forall a b : greg, Some b <> Some a -> greg_eqb a b = false) by (intros a b H; destruct a, b; (reflexivity || congruence)).
  assert (V : forall a b : nat, Some b <> Some a -> (a =? b)%nat = false) by (intros a b H; apply Nat.eqb_neq; congruence).
  destruct i; cbn [step_instr] in E; unfold load32, load64, load128, vget, store in E; ob; try discriminate;
    (split; intros q H; cbn [wreg wvec] in H; cbn [setg setgz setx setm setz gr xr];
     first [rewrite G by exact H; reflexivity | rewrite V by exact H; reflexivity | reflexivity | destruct (zf s); reflexivity]).
Qed.
Lemma exec_keeps L prog r x : (forall i, In i prog -> wreg i <> Some r) -> (forall i, In i prog -> wvec i <> Some x) ->
  forall fuel s s', exec L prog fuel s = Some s' -> gr s' r = gr s r /\ xr s' x = xr s x.
Proof.
  intros Hr Hx. induction fuel as [|n IH]; intros s s' E; [discriminate|]. cbn [exec] in E.
  destruct (nth_error prog (pc s)) as [i|] eqn:Ei; [|discriminate]. apply nth_error_In in Ei.
  assert (St : i = RET \/ (do s1 <- step_instr L i s; exec L prog n s1) = Some s') by (destruct i; auto).
  destruct St as [->|St]; [injection E as <-; auto|].
  destruct (step_instr L i s) as [s1|] eqn:E1; [|discriminate]. cbn [obind] in St.
  apply step_keeps in E1. destruct E1 as [K K']. apply IH in St. destruct St as [A B].
  rewrite A, B. split; [apply K, Hr, Ei|apply K', Hx, Ei].
Qed.

(** Registers whose content does not depend on the data: all but R12. *)
Definition pub (r : greg) : bool := negb (greg_eqb r R12).
Definition addr_pub (a : maddr) : bool := match mbase a with BReg r => pub r | _ => true end.
Definition src_pub (v : vsrc) : bool := match v with VX _ => true | VM a => addr_pub a end.
(** Addresses and flags come from public registers; public registers from public registers and arguments. *)
Definition keeps_pub (i : instr) : bool :=
  match i with
  | MOVQ_load a r => match mbase a with BFP => mdisp a + 8 <=? 96 | _ => addr_pub a && negb (pub r) end
  | MOVQ_imm _ _ | JEQ _ | JNE _ | NOTQ _ | ROLL _ _ | PSHUFD _ _ _ | SHA1RNDS4 _ _ _ | RET => true
  | CMPQ_imm r _ | ADDQ_imm _ r => pub r
  | CMPQ r q | ADDQ q r | ANDQ q r => pub r && pub q
  | LEAQ a _ => addr_pub a
  | MOVL_store _ a | PINSRD _ a _ | PEXTRD_store _ _ a | VMOVDQU_load a _ | VMOVDQU_store _ a | VMOVDQA_store _ a => addr_pub a
  | VPEXTRD _ _ r => negb (pub r)
  | VMOVDQA v _ | PAND v _ | PXOR v _ | PADDD v _ | PSHUFB v _ | SHA1NEXTE v _ | SHA1MSG1 v _ | SHA1MSG2 v _ => src_pub v
  end.

Section Amd64.
  Variable L : layout.
  Hypothesis HL : layout_ok L.

  Definition sim (s t : mach) : Prop :=
    pc s = pc t /\ (forall r, pub r = true -> gr s r = gr t r) /\ zf s = zf t /\ pub_mem L (mm s) = pub_mem L (mm t).
  Definition sim_opt (x y : option mach) : Prop :=
    match x, y with Some s, Some t => sim s t | None, None => True | _, _ => False end.

  Lemma sim_addr s t a : sim s t -> addr_pub a = true -> addr L s a = addr L t a.
  Proof.
    intros (_ & G & _) Ha. unfold addr, addr_pub in *. destruct (mbase a); try reflexivity. rewrite G by assumption. reflexivity.
  Qed.
  Lemma sim_setg s t r v w : sim s t -> (pub r = true -> v = w) -> sim (setg r v s) (setg r w t).
  Proof.
    intros (P & G & Z & M) H. unfold sim. cbn [setg setgz setx setz setm jump pc gr xr mm zf]. split; [congruence|]. split; [|auto]. intros q Hq.
    destruct (greg_eqb q r) eqn:E; [|auto]. apply H. destruct q, r; try discriminate; assumption.
  Qed.
  Lemma sim_setgz s t r v w : sim s t -> v = w -> sim (setgz r v s) (setgz r w t).
  Proof. intros (P & G & Z & M) <-. unfold sim. cbn [setg setgz setx setz setm jump pc gr xr mm zf]. split; [congruence|]. split; [|auto]. intros q Hq. destruct (greg_eqb q r); auto. Qed.
  Lemma sim_setx s t x v w : sim s t -> sim (setx x v s) (setx x w t).
  Proof. intros (P & G & Z & M). unfold sim. cbn [setg setgz setx setz setm jump pc gr xr mm zf]. auto. Qed.
  Lemma sim_setz s t z y : sim s t -> z = y -> sim (setz z s) (setz y t).
  Proof. intros (P & G & Z & M) <-. unfold sim. cbn [setg setgz setx setz setm jump pc gr xr mm zf]. auto. Qed.
  Lemma sim_jump s t l : sim s t -> sim (jump l s) (jump l t).
  Proof. intros (P & G & Z & M). unfold sim. cbn [setg setgz setx setz setm jump pc gr xr mm zf]. auto. Qed.
  Lemma sim_store s t a l l' : sim s t -> addr_pub a = true -> length l = length l' -> sim_opt (store L s a l) (store L t a l').
  Proof.
    intros S Ha El. unfold store. rewrite <- (sim_addr s t a S Ha). pose proof (wr_same L HL (mm s) (mm t) (addr L s a) l l' El) as W.
    destruct (wr _ (mm s) _ l), (wr _ (mm t) _ l'); cbn [obind sim_opt]; auto.
    destruct S as (P & G & Z & M). unfold sim. cbn [setg setgz setx setz setm jump pc gr xr mm zf]. auto.
  Qed.
  Lemma sim_load32 s t a x f f' : sim s t -> addr_pub a = true ->
    sim_opt (do w <- load32 L s a; Some (setx x (f w) s)) (do w <- load32 L t a; Some (setx x (f' w) t)).
  Proof.
    intros S Ha. unfold load32. rewrite <- (sim_addr s t a S Ha). pose proof (rd_same L (mm s) (mm t) (addr L s a) 4) as W.
    destruct (rd _ (mm s) _ 4), (rd _ (mm t) _ 4); cbn [obind sim_opt]; auto using sim_setx.
  Qed.
  Lemma sim_load128 s t a x f f' : sim s t -> addr_pub a = true ->
    sim_opt (do w <- load128 L s a; Some (setx x (f w) s)) (do w <- load128 L t a; Some (setx x (f' w) t)).
  Proof.
    intros S Ha. unfold load128. rewrite <- (sim_addr s t a S Ha). pose proof (rd_same L (mm s) (mm t) (addr L s a) 16) as W.
    destruct (rd _ (mm s) _ 16), (rd _ (mm t) _ 16); cbn [obind sim_opt]; auto using sim_setx.
  Qed.
  Lemma sim_vget s t v x f f' : sim s t -> src_pub v = true ->
    sim_opt (do w <- vget L s v; Some (setx x (f w) s)) (do w <- vget L t v; Some (setx x (f' w) t)).
  Proof.
    intros S Hv. destruct v as [y|a]; cbn [vget src_pub] in *; [cbn [obind sim_opt]; auto using sim_setx|].
    unfold load128a. rewrite <- (sim_addr s t a S Hv). destruct (aligned _); [|exact I]. apply sim_load128; assumption.
  Qed.

  Lemma sim_step i s t : sim s t -> keeps_pub i = true -> sim_opt (step_instr L i s) (step_instr L i t).
  Proof.
    intros S K. pose proof S as (P & G & Z & M). destruct i; cbn [keeps_pub] in K; cbn [step_instr];
      try (apply andb_prop in K; destruct K as [K1 K2]);
      try (exact I);
      try (apply (sim_vget s t _ _ (fun w => _) (fun w => _) S K));
      try (apply (sim_load32 s t _ _ (fun w => _) (fun w => _) S K));
      try (apply (sim_load128 s t _ _ (fun w => _) (fun w => _) S K));
      try (apply sim_store; [assumption|assumption|reflexivity]);
      try (cbn [sim_opt]; apply sim_setx; assumption).
    - (* MOVQ_load *)
      assert (Q : mbase a = BFP /\ mdisp a + 8 <= 96 \/ addr_pub a = true /\ pub r = false).
      { destruct (mbase a); try (apply andb_prop in K; destruct K as [K1 K2]; apply negb_true_iff in K2; auto).
        left. apply N.leb_le in K. auto. }
      destruct Q as [[Eb Eo]|[Ha Hr]].
      + unfold load64, addr. rewrite Eb. rewrite (args_rd L HL (mm s) (mm t) (mdisp a) M Eo).
        destruct (rd _ _ _ 8); cbn [obind sim_opt]; [|exact I]. apply sim_setg; auto.
      + unfold load64. rewrite <- (sim_addr s t a S Ha). pose proof (rd_same L (mm s) (mm t) (addr L s a) 8) as W.
        destruct (rd _ (mm s) _ 8), (rd _ (mm t) _ 8); cbn [obind sim_opt]; auto. apply sim_setg; [assumption|congruence].
    - apply sim_setg; auto.
    - apply sim_setz; [assumption|]. rewrite G by assumption. reflexivity.
    - apply sim_setz; [assumption|]. rewrite !G by assumption. reflexivity.
    - cbn [sim_opt]. rewrite Z, P. destruct (zf t); apply sim_jump; assumption.
    - cbn [sim_opt]. rewrite Z, P. destruct (zf t); apply sim_jump; assumption.
    - apply sim_setgz; [assumption|]. rewrite !G by assumption. reflexivity.
    - apply sim_setgz; [assumption|]. rewrite !G by assumption. reflexivity.
    - apply sim_setg; [assumption|]. intros _. apply sim_addr; assumption.
    - apply sim_setg; [assumption|]. intros H. rewrite G by assumption. reflexivity.
    - apply sim_setgz; [assumption|]. rewrite !G by assumption. reflexivity.
    - apply sim_setg; [assumption|]. intros H. rewrite G by assumption. reflexivity.
    - apply sim_setg; [assumption|]. intros H. rewrite H in K. discriminate.
    - rewrite <- (sim_addr s t a S K). destruct (aligned _); [|exact I]. apply sim_store; [assumption|assumption|reflexivity].
  Qed.
  Lemma sim_touched i s t : sim s t -> keeps_pub i = true -> touched L i s = touched L i t.
  Proof.
    intros S K. destruct i; cbn [keeps_pub] in K; cbn [touched]; try reflexivity;
      try (rewrite (sim_addr s t _ S K); reflexivity);
      try (destruct s0; cbn [src_pub] in K; [reflexivity|rewrite (sim_addr s t _ S K); reflexivity]).
    assert (Ha : addr_pub a = true).
    { unfold addr_pub in *. destruct (mbase a); try reflexivity. apply andb_prop in K. tauto. }
    rewrite (sim_addr s t _ S Ha). reflexivity.
  Qed.
  Lemma sim_trace prog : forallb keeps_pub prog = true -> forall fuel s t, sim s t -> trace L prog fuel s = trace L prog fuel t.
  Proof.
    intros K. rewrite forallb_forall in K. induction fuel as [|n IH]; intros s t S; [reflexivity|]. cbn [trace].
    pose proof S as (P & _). rewrite <- P. destruct (nth_error prog (pc s)) as [i|] eqn:Ei; [|reflexivity].
    apply nth_error_In in Ei. specialize (K i Ei).
    assert (X : (pc s, touched L i s) :: match step_instr L i s with Some s1 => trace L prog n s1 | None => [] end =
                (pc s, touched L i t) :: match step_instr L i t with Some s1 => trace L prog n s1 | None => [] end).
    { rewrite (sim_touched i s t S K). f_equal. pose proof (sim_step i s t S K) as Q.
      destruct (step_instr L i s), (step_instr L i t); cbn [sim_opt] in Q; try contradiction; auto. }
    destruct i; (exact X || reflexivity).
  Qed.
End Amd64.

Lemma amd64_public : forallb keeps_pub amd64_prog = true.
Proof. vm_compute. reflexivity. Qed.

Lemma amd64_trace e h p m1 cs h' p' m1' cs' : layout_ok (e_lay e) ->
  length p = 64%nat -> length m1 = 80%nat -> length p' = 64%nat -> length m1' = 80%nat ->
  forall fuel, trace (e_lay e) amd64_prog fuel (entry upper_mask shuffle_mask e h p m1 cs) =
               trace (e_lay e) amd64_prog fuel (entry upper_mask shuffle_mask e h' p' m1' cs').
Proof.
  intros HL Hp Hm Hp' Hm' fuel. apply (sim_trace (e_lay e) HL); [exact amd64_public|].
  split; [reflexivity|]. split; [reflexivity|]. split; [reflexivity|]. cbn [entry mm]. unfold pub_mem.
  rewrite !entry_args by (assumption || reflexivity). reflexivity.
Qed.

Lemma amd64_keeps e h p m1 cs fuel s : 
  let s0 := entry upper_mask shuffle_mask e h p m1 cs in
  exec (e_lay e) amd64_prog fuel s0 = Some s ->
  gr s SP = l_frame (e_lay e) /\ (forall x, (11 <= x)%nat -> xr s x = e_xr e x).
Proof.
  intros s0 E.
  assert (R : forall i, In i amd64_prog -> wreg i <> Some SP).
  { intros i Hi X. assert (T : forallb (fun i => match wreg i with Some SP => false | _ => true end) amd64_prog = true) by (vm_compute; reflexivity).
    rewrite forallb_forall in T. specialize (T i Hi). rewrite X in T. discriminate. }
  assert (V : forall x, (11 <= x)%nat -> forall i, In i amd64_prog -> wvec i <> Some x).
  { intros x Hx i Hi X. assert (T : forallb (fun i => match wvec i with Some y => (y <? 11)%nat | None => true end) amd64_prog = true) by (vm_compute; reflexivity).
    rewrite forallb_forall in T. specialize (T i Hi). rewrite X in T. apply Nat.ltb_lt in T. lia. }
  split.
  - destruct (exec_keeps (e_lay e) amd64_prog SP 11 R (V 11%nat (le_n _)) fuel s0 s E) as [A _]. exact A.
  - intros x Hx. destruct (exec_keeps (e_lay e) amd64_prog SP x R (V x Hx) fuel s0 s E) as [_ B]. exact B.
Qed.

(** ** arm64 *)
Definition xwreg (i : ainstr) : option nat :=
  match i with
  | MOVD_arg _ r | MOVD_ks r | LSR _ _ r | LSL _ _ r | ADD _ _ r | SUB_imm _ _ r | VLD1P r _ | VST1P _ r | VST1P_lane _ _ r => Some r
  | _ => None
  end.
Definition xwvec (i : ainstr) : option nat :=
  match i with
  | VLD1P _ x | VLD1 _ x | FMOVS_load _ x | VMOV _ x | VMOV_lane _ _ x | VDUP _ _ x | VREV32 _ x | VADD _ _ x | SHA1SU0 _ _ x
  | SHA1SU1 _ x | SHA1C _ _ x | SHA1P _ _ x | SHA1M _ _ x | SHA1H _ x => Some x
  | _ => None
  end.
Lemma xstep_keeps L i s s' : xstep L i s = Some s' ->
  (forall r, xwreg i <> Some r -> xg s' r = xg s r) /\ (forall x, xwvec i <> Some x -> xv s' x = xv s x).
Proof.
  intros E. assert (V : forall a b : nat, Some b <> Some a -> (a =? b)%nat = false) by (intros a b H; apply Nat.eqb_neq; congruence).
  destruct i; cbn [xstep] in E; ob; try discriminate;
    (split; intros z H; cbn [xwreg xwvec] in H; cbn [xbump xsetg xsetv xsetm xsetf xg xv];
     first [rewrite V by exact H; reflexivity | reflexivity | destruct (xls s); reflexivity]).
Qed.
Lemma xexec_keeps L prog r x : (forall i, In i prog -> xwreg i <> Some r) -> (forall i, In i prog -> xwvec i <> Some x) ->
  forall fuel s s', xexec L prog fuel s = Some s' -> xg s' r = xg s r /\ xv s' x = xv s x.
Proof.
  intros Hr Hx. induction fuel as [|n IH]; intros s s' E; [discriminate|]. cbn [xexec] in E.
  destruct (nth_error prog (xpc s)) as [i|] eqn:Ei; [|discriminate]. apply nth_error_In in Ei.
  assert (St : i = ARET \/ (do s1 <- xstep L i s; xexec L prog n s1) = Some s') by (destruct i; auto).
  destruct St as [->|St]; [injection E as <-; auto|].
  destruct (xstep L i s) as [s1|] eqn:E1; [|discriminate]. cbn [obind] in St.
  apply xstep_keeps in E1. destruct E1 as [K K']. apply IH in St. destruct St as [A B].
  rewrite A, B. split; [apply K, Hr, Ei|apply K', Hx, Ei].
Qed.

(** No instruction moves data from vector registers or memory into a general register, except the arguments. *)
Definition xkeeps_pub (i : ainstr) : bool := match i with MOVD_arg off _ => off + 8 <=? 96 | _ => true end.
Section Arm64.
  Variable L : layout.
  Hypothesis HL : layout_ok L.
  Definition xsim (s t : amach) : Prop :=
    xpc s = xpc t /\ (forall r, xg s r = xg t r) /\ xls s = xls t /\ pub_mem L (xm s) = pub_mem L (xm t).
  Definition xsim_opt (x y : option amach) : Prop :=
    match x, y with Some s, Some t => xsim s t | None, None => True | _, _ => False end.
  Lemma xsim_step i s t : xsim s t -> xkeeps_pub i = true -> xsim_opt (xstep L i s) (xstep L i t).
  Proof.
    intros (P & G & Z & M) K.
    assert (SG : forall r v w, v = w -> xsim (xsetg r v s) (xsetg r w t)).
    { intros r v w <-. unfold xsim. cbn [xsetg xbump xpc xg xv xm xls]. split; [congruence|]. split; [|auto]. intros q. destruct (q =? r)%nat; auto. }
    assert (SV : forall x v w, xsim (xsetv x v s) (xsetv x w t)) by (intros; unfold xsim, xsetv, xsetm; cbn [xpc xg xv xm xls]; auto).
    assert (SM : forall m m', pub_mem L m = pub_mem L m' -> xsim (xsetm m s) (xsetm m' t)) by (intros; unfold xsim, xsetv, xsetm; cbn [xpc xg xv xm xls]; auto).
    assert (SB : forall r n u v, xsim u v -> xsim (xbump r n u) (xbump r n v)).
    { intros r n u v (P1 & G1 & Z1 & M1). unfold xsim. cbn [xsetg xbump xpc xg xv xm xls]. split; [assumption|]. split; [|auto]. intros q. destruct (q =? r)%nat; [rewrite G1|]; auto. }
    assert (SJ : forall l, xsim (xjump l s) (xjump l t)) by (intros; unfold xsim, xjump; cbn [xpc xg xv xm xls]; auto).
    assert (RD : forall r n k k', (forall l l', xsim (k l) (k' l')) ->
      xsim_opt (do l <- rd (regions L) (xm s) (xg s r) n; Some (k l)) (do l <- rd (regions L) (xm t) (xg t r) n; Some (k' l))).
    { intros r n k k' H. rewrite <- G. pose proof (rd_same L (xm s) (xm t) (xg s r) n) as W.
      destruct (rd _ (xm s) _ n), (rd _ (xm t) _ n); cbn [obind xsim_opt]; auto. }
    assert (WR : forall r l l' k k', length l = length l' -> (forall m m', pub_mem L m = pub_mem L m' -> xsim (k m) (k' m')) ->
      xsim_opt (do m <- wr (regions L) (xm s) (xg s r) l; Some (k m)) (do m <- wr (regions L) (xm t) (xg t r) l'; Some (k' m))).
    { intros r l l' k k' El H. rewrite <- G. pose proof (wr_same L HL (xm s) (xm t) (xg s r) l l' El) as W.
      destruct (wr _ (xm s) _ l), (wr _ (xm t) _ l'); cbn [obind xsim_opt]; auto. }
    destruct i; cbn [xstep]; try (exact I); try (cbn [xsim_opt]; apply SV); try (cbn [xsim_opt]; apply SG; rewrite ?G; reflexivity).
    - cbn [xkeeps_pub] in K. apply N.leb_le in K. rewrite (args_rd L HL (xm s) (xm t) off M K).
      destruct (rd _ _ _ 8); cbn [obind xsim_opt]; auto.
    - cbn [xsim_opt]. unfold xsim, xsetf. cbn [xpc xg xv xm xls]. rewrite P, (G r), (G q). auto.
    - cbn [xsim_opt]. rewrite Z, P. destruct (xls t); apply SJ.
    - apply (RD r 16%nat (fun l => xbump r 16 (xsetv x (bytes_vec l) s)) (fun l => xbump r 16 (xsetv x (bytes_vec l) t))). intros. apply SB, SV.
    - apply (RD r 16%nat (fun l => xsetv x (bytes_vec l) s) (fun l => xsetv x (bytes_vec l) t)). intros. apply SV.
    - apply (RD r 4%nat (fun l => xsetv x (mkv (le_val l) 0 0 0) s) (fun l => xsetv x (mkv (le_val l) 0 0 0) t)). intros. apply SV.
    - apply (WR r _ _ (fun m => xsetm m s) (fun m => xsetm m t)); [reflexivity|]. intros. apply SM. assumption.
    - apply (WR r _ _ (fun m => xbump r 16 (xsetm m s)) (fun m => xbump r 16 (xsetm m t))); [reflexivity|]. intros. apply SB, SM. assumption.
    - apply (WR r _ _ (fun m => xbump r 4 (xsetm m s)) (fun m => xbump r 4 (xsetm m t))); [reflexivity|]. intros. apply SB, SM. assumption.
  Qed.
  Lemma xsim_trace prog : forallb xkeeps_pub prog = true -> forall fuel s t, xsim s t -> xtrace L prog fuel s = xtrace L prog fuel t.
  Proof.
    intros K. rewrite forallb_forall in K. induction fuel as [|n IH]; intros s t S; [reflexivity|]. cbn [xtrace].
    pose proof S as (P & G & _). rewrite <- P. destruct (nth_error prog (xpc s)) as [i|] eqn:Ei; [|reflexivity].
    apply nth_error_In in Ei. specialize (K i Ei).
    assert (X : (xpc s, xtouched L i s) :: match xstep L i s with Some s1 => xtrace L prog n s1 | None => [] end =
                (xpc s, xtouched L i t) :: match xstep L i t with Some s1 => xtrace L prog n s1 | None => [] end).
    { replace (xtouched L i t) with (xtouched L i s) by (destruct i; cbn [xtouched]; rewrite ?G; reflexivity).
      f_equal. pose proof (xsim_step i s t S K) as Q.
      destruct (xstep L i s), (xstep L i t); cbn [xsim_opt] in Q; try contradiction; auto. }
    destruct i; (exact X || reflexivity).
  Qed.
End Arm64.

Lemma arm64_trace e h p m1 cs h' p' m1' cs' : layout_ok (ae_lay e) ->
  length p = 64%nat -> length m1 = 80%nat -> length p' = 64%nat -> length m1' = 80%nat ->
  forall fuel, xtrace (ae_lay e) arm64_prog fuel (aentry sha1Ks e h p m1 cs) =
               xtrace (ae_lay e) arm64_prog fuel (aentry sha1Ks e h' p' m1' cs').
Proof.
  intros HL Hp Hm Hp' Hm' fuel. apply (xsim_trace (ae_lay e) HL); [vm_compute; reflexivity|].
  split; [reflexivity|]. split; [reflexivity|]. split; [reflexivity|]. cbn [aentry xm]. unfold pub_mem.
  rewrite !entry_args by (assumption || reflexivity). reflexivity.
Qed.

Lemma arm64_keeps e h p m1 cs fuel s : xexec (ae_lay e) arm64_prog fuel (aentry sha1Ks e h p m1 cs) = Some s ->
  (forall r, (r = 18 \/ 23 <= r)%nat -> xg s r = ae_g e r mod M64) /\ (forall x, (8 <= x <= 15 \/ 21 <= x)%nat -> xv s x = ae_v e x).
Proof.
  intros E. set (s0 := aentry sha1Ks e h p m1 cs) in *.
  assert (R : forall r, (r = 18 \/ 23 <= r)%nat -> forall i, In i arm64_prog -> xwreg i <> Some r).
  { intros r Hr i Hi X. assert (T : forallb (fun i => match xwreg i with Some y => (y <? 23)%nat && negb (y =? 18)%nat | None => true end) arm64_prog = true) by (vm_compute; reflexivity).
    rewrite forallb_forall in T. specialize (T i Hi). rewrite X in T. apply andb_prop in T. destruct T as [T T2].
    apply Nat.ltb_lt in T. apply negb_true_iff, Nat.eqb_neq in T2. lia. }
  assert (V : forall x, (8 <= x <= 15 \/ 21 <= x)%nat -> forall i, In i arm64_prog -> xwvec i <> Some x).
  { intros x Hx i Hi X. assert (T : forallb (fun i => match xwvec i with Some y => ((y <? 8) || ((15 <? y) && (y <? 21)))%nat | None => true end) arm64_prog = true) by (vm_compute; reflexivity).
    rewrite forallb_forall in T. specialize (T i Hi). rewrite X in T. apply orb_prop in T. destruct T as [T|T].
    - apply Nat.ltb_lt in T. lia.
    - apply andb_prop in T. destruct T as [T T2]. apply Nat.ltb_lt in T, T2. lia. }
  split.
  - intros r Hr. destruct (xexec_keeps (ae_lay e) arm64_prog r 8 (R r Hr) (V 8%nat ltac:(lia)) fuel s0 s E) as [A _]. exact A.
  - intros x Hx. destruct (xexec_keeps (ae_lay e) arm64_prog 18 x (R 18%nat ltac:(lia)) (V x Hx) fuel s0 s E) as [_ B]. exact B.
Qed.

(** ** The lists of accesses are complete *)
Lemma rd_cover rs m m' a n l : (forall x, covered ((a, N.of_nat n) :: l) x -> m' x = m x) -> rd rs m' a n = rd rs m a n.
Proof.
  intros H. unfold rd. destruct (readable _ _ _); [|reflexivity]. f_equal. apply peek_ext. intros i Hi. apply H.
  exists a, (N.of_nat n). split; [left; reflexivity|lia].
Qed.
Lemma wr_cover rs m m' a l m1 : wr rs m a l = Some m1 -> exists m2, wr rs m' a l = Some m2 /\
  forall x, ~ covered [(a, N.of_nat (length l))] x -> m1 x = m x.
Proof.
  unfold wr. destruct (writable _ _ _); [|discriminate]. intros E. injection E as <-. eexists. split; [reflexivity|].
  intros x Hx. apply poke_out. destruct (N.lt_ge_cases x a) as [|H1]; [auto|]. destruct (N.lt_ge_cases x (a + N.of_nat (length l))) as [H2|]; [|auto].
  exfalso. apply Hx. exists a, (N.of_nat (length l)). split; [left; reflexivity|auto].
Qed.
Lemma accesses_complete L i s m' s1 : step_instr L i s = Some s1 -> (forall x, covered (touched L i s) x -> m' x = mm s x) ->
  (exists s2, step_instr L i (with_mem m' s) = Some s2 /\ pc s2 = pc s1 /\ gr s2 = gr s1 /\ xr s2 = xr s1 /\ zf s2 = zf s1) /\
  (forall x, ~ covered (touched L i s) x -> mm s1 x = mm s x).
Proof.
  intros E H.
  assert (Ad : forall a, addr L (with_mem m' s) a = addr L s a) by reflexivity.
  assert (ST : forall a l, touched L i s = [(addr L s a, N.of_nat (length l))] -> store L s a l = Some s1 ->
    (exists s2, store L (with_mem m' s) a l = Some s2 /\ pc s2 = pc s1 /\ gr s2 = gr s1 /\ xr s2 = xr s1 /\ zf s2 = zf s1) /\
    (forall x, ~ covered (touched L i s) x -> mm s1 x = mm s x)).
  { intros a l Et X. unfold store in *. rewrite Ad. destruct (wr (regions L) (mm s) (addr L s a) l) as [m1|] eqn:W; [|discriminate].
    injection X as <-. destruct (wr_cover _ _ m' _ _ _ W) as (m2 & W2 & C). cbn [with_mem mm]. rewrite W2, Et. cbn [obind].
    split; [eexists; split; [reflexivity|repeat split]|exact C]. }
  assert (L4 : forall a, touched L i s = [(addr L s a, 4)] -> load32 L (with_mem m' s) a = load32 L s a).
  { intros a Et. unfold load32. rewrite Ad. cbn [with_mem mm]. rewrite Et in H. rewrite (rd_cover _ (mm s) m' _ 4 [] H). reflexivity. }
  assert (L8 : forall a, touched L i s = [(addr L s a, 8)] -> load64 L (with_mem m' s) a = load64 L s a).
  { intros a Et. unfold load64. rewrite Ad. cbn [with_mem mm]. rewrite Et in H. rewrite (rd_cover _ (mm s) m' _ 8 [] H). reflexivity. }
  assert (L16 : forall a, touched L i s = [(addr L s a, 16)] -> load128 L (with_mem m' s) a = load128 L s a).
  { intros a Et. unfold load128. rewrite Ad. cbn [with_mem mm]. rewrite Et in H. rewrite (rd_cover _ (mm s) m' _ 16 [] H). reflexivity. }
  assert (VG : forall v, touched L i s = match v with VM a => [(addr L s a, 16)] | VX _ => [] end -> vget L (with_mem m' s) v = vget L s v).
  { intros [y|a] Et; [reflexivity|]. cbn [vget]. unfold load128a. rewrite Ad, L16 by assumption. reflexivity. }
  destruct i; cbn [step_instr touched] in *;
    try (apply ST; [reflexivity|exact E]);
    try (rewrite L8 by reflexivity); try (rewrite L4 by reflexivity); try (rewrite L16 by reflexivity); try (rewrite VG by (destruct s0; reflexivity));
    try (ob; discriminate E);
    try (match type of E with obind ?x _ = _ => destruct x; [|discriminate E] end; cbn [obind] in *);
    try (injection E as <-; split; [eexists; split; [reflexivity|repeat split]|reflexivity]).
  - injection E as <-. split; [eexists; split; [reflexivity|]|]; cbn [with_mem zf]; destruct (zf s); repeat split.
  - injection E as <-. split; [eexists; split; [reflexivity|]|]; cbn [with_mem zf]; destruct (zf s); repeat split.
  - rewrite Ad. destruct (aligned _); [|discriminate]. apply ST; [reflexivity|exact E].
Qed.

Lemma xaccesses_complete L i s m' s1 : xstep L i s = Some s1 -> (forall x, covered (xtouched L i s) x -> m' x = xm s x) ->
  (exists s2, xstep L i (xwith_mem m' s) = Some s2 /\ xpc s2 = xpc s1 /\ xg s2 = xg s1 /\ xv s2 = xv s1 /\ xls s2 = xls s1) /\
  (forall x, ~ covered (xtouched L i s) x -> xm s1 x = xm s x).
Proof.
  intros E H.
  assert (WR : forall r l k, xtouched L i s = [(xg s r, N.of_nat (length l))] ->
    (forall m1 m2, xpc (k m1 (xwith_mem m2 s)) = xpc (k m1 s) /\ xg (k m1 (xwith_mem m2 s)) = xg (k m1 s) /\
       xv (k m1 (xwith_mem m2 s)) = xv (k m1 s) /\ xls (k m1 (xwith_mem m2 s)) = xls (k m1 s) /\
       xpc (k m2 s) = xpc (k m1 s) /\ xg (k m2 s) = xg (k m1 s) /\ xv (k m2 s) = xv (k m1 s) /\ xls (k m2 s) = xls (k m1 s) /\ xm (k m1 s) = m1) ->
    (do m <- wr (regions L) (xm s) (xg s r) l; Some (k m s)) = Some s1 ->
    (exists s2, (do m <- wr (regions L) m' (xg s r) l; Some (k m (xwith_mem m' s))) = Some s2 /\ xpc s2 = xpc s1 /\ xg s2 = xg s1 /\ xv s2 = xv s1 /\ xls s2 = xls s1) /\
    (forall x, ~ covered (xtouched L i s) x -> xm s1 x = xm s x)).
  { intros r l k Et K X. destruct (wr (regions L) (xm s) (xg s r) l) as [m1|] eqn:W; [|discriminate].
    injection X as <-. destruct (wr_cover _ _ m' _ _ _ W) as (m2 & W2 & C). rewrite W2, Et. cbn [obind].
    destruct (K m2 m') as (A1 & A2 & A3 & A4 & _). destruct (K m1 m2) as (_ & _ & _ & _ & B1 & B2 & B3 & B4 & B5). 
    split; [eexists; split; [reflexivity|repeat split; congruence]|]. rewrite B5. exact C. }
  destruct i; cbn [xstep xtouched] in *;
    try (match goal with |- context [rd (regions L) (xm (xwith_mem m' s)) ?a ?n] =>
           replace (rd (regions L) (xm (xwith_mem m' s)) a n) with (rd (regions L) (xm s) a n) by (symmetry; apply (rd_cover _ (xm s) m' a n []); exact H) end);
    try (match type of E with obind (rd _ _ _ _) _ = _ => destruct (rd (regions L) (xm s) _ _); [|discriminate E]; cbn [obind] in * end);
    try (injection E as <-; split; [eexists; split; [reflexivity|repeat split]|reflexivity]);
    try discriminate E.
  - injection E as <-. split; [eexists; split; [reflexivity|]|]; cbn [xwith_mem xls]; destruct (xls s); repeat split.
  - refine (WR r (le32 (v0 (xv s x))) (fun m s => xsetm m s) _ _ E); [reflexivity|intros; repeat split].
  - refine (WR r (vec_bytes (xv s x)) (fun m s => xbump r 16 (xsetm m s)) _ _ E); [reflexivity|intros; repeat split].
  - refine (WR r (le32 (lane i (xv s x))) (fun m s => xbump r 4 (xsetm m s)) _ _ E); [reflexivity|intros; repeat split].
Qed.
