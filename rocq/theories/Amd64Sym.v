(** Symbolic execution of the amd64 instructions, and its soundness. *)

From Coq Require Import Arith NArith List Strings.Byte Bool Lia ZifyNat.
From Verif Require Import Word WordFacts Spec_Sha1 Sha1Facts Model_Go Model_Asm Model_Amd64 AsmSym.
Import ListNotations.
Ltac Zify.zify_post_hook ::= idtac.
Local Open Scope N_scope.

Record ast := mkast { apc : nat; agr : greg -> ag; axr : nat -> avec; ace : list cell; az : option bool }.
Definition asetg (r : greg) (v : ag) (s : ast) : ast :=
  mkast (S (apc s)) (fun q => if greg_eqb q r then v else agr s q) (axr s) (ace s) (az s).
Definition asetgz (r : greg) (v : ag) (s : ast) : ast :=
  mkast (S (apc s)) (fun q => if greg_eqb q r then v else agr s q) (axr s) (ace s) None.
Definition asetx (x : nat) (v : avec) (s : ast) : ast :=
  mkast (S (apc s)) (agr s) (fun q => if (q =? x)%nat then v else axr s q) (ace s) (az s).
Definition asetm (c : list cell) (s : ast) : ast := mkast (S (apc s)) (agr s) (axr s) c (az s).
Definition asetz (z : option bool) (s : ast) : ast := mkast (S (apc s)) (agr s) (axr s) (ace s) z.
Definition ajump (l : nat) (s : ast) : ast := mkast l (agr s) (axr s) (ace s) (az s).

Definition aand (x y : aw) : aw :=
  match x, y with
  | AC 0, _ => AC 0
  | _, AC 0 => AC 0
  | _, AC n => if n =? ones32 then x else AU
  | _, _ => AU
  end.
Definition mask_vec : avec := mkav (AC 0x0c0d0e0f) (AC 0x08090a0b) (AC 0x04050607) (AC 0x00010203).
Definition apshufb (m x : avec) : avec :=
  match a0 x with
  | AR t => if ((av_eqb m mask_vec && av_eqb x (mkav (AR t) (AR (t + 1)) (AR (t + 2)) (AR (t + 3)))) && (t + 3 <? 16)%nat)%bool
            then mkav (AW (t + 3)) (AW (t + 2)) (AW (t + 1)) (AW t) else mkav AU AU AU AU
  | _ => mkav AU AU AU AU
  end.
Definition apshufd (i : N) (v : avec) : avec :=
  let sel k := alane (N.to_nat (N.land (N.shiftr i (2 * k)) 3)) v in
  mkav (sel 0) (sel 1) (sel 2) (sel 3).
Definition anexte (src dst : avec) : avec :=
  mkav (a0 src) (a1 src) (a2 src) (aadd (a3 src) (arol30 (a3 dst))).
(** rotl of the top lane of the state before step 76 is e before step 80: AS 80 4. *)
Definition amsg1 (src dst : avec) : avec :=
  mkav (axor (a2 src) (a0 dst)) (axor (a3 src) (a1 dst)) (axor (a0 dst) (a2 dst)) (axor (a1 dst) (a3 dst)).
Definition amsg2 (src dst : avec) : avec :=
  let w16 := arolx (a3 dst) (a2 src) in
  mkav (arolx (a0 dst) w16) (arolx (a1 dst) (a0 src)) (arolx (a2 dst) (a1 src)) w16.
Definition arnds4 (i : nat) (src dst : avec) : avec :=
  match a3 src with
  | AE t => if ((av_eqb src (mkav (AW (t + 3)) (AW (t + 2)) (AW (t + 1)) (AE t)) &&
                 av_eqb dst (mkav (AS t 3) (AS t 2) (AS t 1) (AS t 0))) &&
                ((20 * i <=? t) && (t + 4 <=? 20 * i + 20) && (i <? 4))%nat)%bool
            then mkav (AS (t + 4) 3) (AS (t + 4) 2) (AS (t + 4) 1) (AS (t + 4) 0) else mkav AU AU AU AU
  | _ => mkav AU AU AU AU
  end.

Definition aaddr (s : ast) (a : maddr) : option (nat * N) :=
  let chk (q : nat) (off : N) := if off <=? asize q then Some (q, off) else None in
  match mbase a with
  | BReg r => match agr s r with GP q off => chk q (off + mdisp a) | _ => None end
  | BFP => chk 5%nat (mdisp a)
  | BUpper => chk 6%nat (mdisp a)
  | BShuffle => chk 7%nat (mdisp a)
  end.
Definition aload128 (s : ast) (a : maddr) : option avec :=
  do (r, off) <- aaddr s a; match alook (ace s) r off with Some (KV v) => Some v | _ => None end.
Definition aload128a (s : ast) (a : maddr) : option avec :=
  do (r, off) <- aaddr s a; if aal r && (off mod 16 =? 0) then aload128 s a else None.
Definition avget (s : ast) (v : vsrc) : option avec := match v with VX x => Some (axr s x) | VM a => aload128a s a end.
Definition astore_at (s : ast) (a : maddr) (k : kind) : option ast :=
  do (r, off) <- aaddr s a; do c <- astore (ace s) r off k; Some (asetm c s).

Definition astep (i : instr) (s : ast) : option ast :=
  match i with
  | MOVQ_load a r => do (q, off) <- aaddr s a; match alook (ace s) q off with Some (KQ g) => Some (asetg r g s) | _ => None end
  | MOVQ_imm n r => if n <? M64 then Some (asetg r (GI n) s) else None
  | CMPQ_imm r n => match agr s r with GI k => Some (asetz (Some (k =? n)) s) | _ => None end
  | CMPQ r q => match agr s r, agr s q with
                | GP a x, GP b y => if (a =? b)%nat then Some (asetz (Some (x =? y)) s) else None
                | _, _ => None
                end
  | JEQ l => match az s with Some z => Some (if z then ajump l s else ajump (S (apc s)) s) | None => None end
  | JNE l => match az s with Some z => Some (if z then ajump (S (apc s)) s else ajump l s) | None => None end
  | ADDQ q r => match agr s r, agr s q with
                | GI n, GP a off => if off + n <=? asize a then Some (asetgz r (GP a (off + n)) s) else None
                | _, _ => None
                end
  | ADDQ_imm n r => match agr s r with
                | GP a off => if off + n <=? asize a then Some (asetgz r (GP a (off + n)) s) else None
                | _ => None
                end
  | LEAQ a r => match mbase a with
                | BReg q => match agr s q with
                            | GF off => if off + mdisp a <=? 80 then Some (asetg r (GF (off + mdisp a)) s) else None
                            | _ => None
                            end
                | _ => None
                end
  | NOTQ r => match agr s r with GI n => Some (asetg r (GI (N.lxor n (M64 - 1))) s) | _ => None end
  | ANDQ q r => match agr s r, agr s q with
                | GF off, GI n => if (off =? 15) && (n =? M64 - 16) then Some (asetgz r (GP 4 0) s) else None
                | _, _ => None
                end
  | ROLL n r => match agr s r with GW x => if n =? 30 then Some (asetg r (GW (arol30 x)) s) else None | _ => None end
  | MOVL_store r a => match agr s r with GW x => astore_at s a (KW x) | _ => None end
  | PINSRD i a x => do (q, off) <- aaddr s a;
                    match alook (ace s) q off with
                    | Some (KW w) => let v := axr s x in
                        Some (asetx x (match i with
                                       | 0 => mkav w (a1 v) (a2 v) (a3 v) | 1 => mkav (a0 v) w (a2 v) (a3 v)
                                       | 2 => mkav (a0 v) (a1 v) w (a3 v) | _ => mkav (a0 v) (a1 v) (a2 v) w
                                       end%nat) s)
                    | _ => None
                    end
  | PEXTRD_store i x a => astore_at s a (KW (alane i (axr s x)))
  | VPEXTRD i x r => Some (asetg r (GW (alane i (axr s x))) s)
  | VMOVDQU_load a x => do v <- aload128 s a; Some (asetx x v s)
  | VMOVDQU_store x a => astore_at s a (KV (axr s x))
  | VMOVDQA v x => do v <- avget s v; Some (asetx x v s)
  | VMOVDQA_store x a => do (r, off) <- aaddr s a;
                         if aal r && (off mod 16 =? 0) then astore_at s a (KV (axr s x)) else None
  | PAND v x => do v <- avget s v; Some (asetx x (amap2 aand (axr s x) v) s)
  | PXOR v x => do v <- avget s v; Some (asetx x (amap2 axor (axr s x) v) s)
  | PADDD v x => do v <- avget s v; Some (asetx x (amap2 aadd (axr s x) v) s)
  | PSHUFB v x => do v <- avget s v; Some (asetx x (apshufb v (axr s x)) s)
  | PSHUFD i y x => Some (asetx x (apshufd i (axr s y)) s)
  | SHA1RNDS4 i y x => Some (asetx x (arnds4 i (axr s y) (axr s x)) s)
  | SHA1NEXTE v x => do v <- avget s v; Some (asetx x (anexte v (axr s x)) s)
  | SHA1MSG1 v x => do v <- avget s v; Some (asetx x (amsg1 v (axr s x)) s)
  | SHA1MSG2 v x => do v <- avget s v; Some (asetx x (amsg2 v (axr s x)) s)
  | RET => None
  end.
Fixpoint aexec (prog : list instr) (fuel : nat) (s : ast) : option ast :=
  match fuel with
  | O => None
  | S n => match nth_error prog (apc s) with
           | None => None
           | Some RET => Some s
           | Some i => do s <- astep i s; aexec prog n s
           end
  end.

Section Sound.
  Variable L : layout.
  Hypothesis HL : layout_ok L.
  Variables (h : st) (p : list byte).
  Hypothesis Hh : wfst h.
  Hypothesis Hp : length p = 64%nat.
  Variable m0 : mem.

  Record rel (a : ast) (s : mach) : Prop := mkrel {
    r_pc : apc a = pc s;
    r_g : forall r, gv L h p (agr a r) (gr s r);
    r_x : forall x, vlv h p (axr a x) (xr s x);
    r_m : memrel L h p m0 (ace a) (mm s);
    r_z : match az a with Some z => zf s = z | None => True end }.

  Lemma greg_eqb_eq a b : greg_eqb a b = true <-> a = b.
  Proof. destruct a, b; cbn; split; intros H; try reflexivity; discriminate. Qed.
  Lemma rel_setg a s r g v : rel a s -> gv L h p g v -> rel (asetg r g a) (setg r v s).
  Proof.
    intros R H. constructor; cbn [asetg setg apc pc agr gr axr xr ace mm az zf]; try apply R.
    - f_equal. apply R.
    - intros q. destruct (greg_eqb q r); [exact H|apply R].
  Qed.
  Lemma rel_setgz a s r g v : rel a s -> gv L h p g v -> rel (asetgz r g a) (setgz r v s).
  Proof.
    intros R H. constructor; cbn [asetgz setgz apc pc agr gr axr xr ace mm az zf]; try apply R.
    - f_equal. apply R.
    - intros q. destruct (greg_eqb q r); [exact H|apply R].
    - exact I.
  Qed.
  Lemma rel_setx a s x g v : rel a s -> vlv h p g v -> rel (asetx x g a) (setx x v s).
  Proof.
    intros R H. constructor; cbn [asetx setx apc pc agr gr axr xr ace mm az zf]; try apply R.
    - f_equal. apply R.
    - intros q. destruct (q =? x)%nat; [exact H|apply R].
  Qed.
  Lemma rel_setm a s c m : rel a s -> memrel L h p m0 c m -> rel (asetm c a) (setm m s).
  Proof.
    intros R H. constructor; cbn [asetm setm apc pc agr gr axr xr ace mm az zf]; try apply R; [f_equal; apply R|exact H].
  Qed.
  Lemma rel_setz a s z z' : rel a s -> match z with Some y => z' = y | None => True end -> rel (asetz z a) (setz z' s).
  Proof.
    intros R H. constructor; cbn [asetz setz apc pc agr gr axr xr ace mm az zf]; try apply R; [f_equal; apply R|exact H].
  Qed.
  Lemma rel_jump a s l : rel a s -> rel (ajump l a) (jump l s).
  Proof. intros R. constructor; cbn [ajump jump apc pc agr gr axr xr ace mm az zf]; try apply R. reflexivity. Qed.

  Lemma aaddr_ok a s m r off : rel a s -> aaddr a m = Some (r, off) -> addr L s m = abase L r + off.
  Proof.
    intros R. unfold aaddr, addr.
    assert (X : forall q o, (q < 8)%nat -> (if o <=? asize q then Some (q, o) else None) = Some (r, off) ->
      (abase L q + o) mod M64 = abase L r + off).
    { intros q o Hq H. destruct (N.leb_spec o (asize q)); [|discriminate]. injection H as -> ->.
      apply N.mod_small. pose proof (abs_bound L HL r Hq). lia. }
    destruct (mbase m) as [g| | |].
    - pose proof (r_g a s R g) as G. destruct (agr a g); try discriminate. destruct G as (E & Hr & Ho). intros H.
      rewrite E. rewrite <- N.add_assoc. apply X; assumption.
    - apply (X 5%nat). lia.
    - apply (X 6%nat). lia.
    - apply (X 7%nat). lia.
  Qed.

  Ltac ob H := match type of H with obind ?x _ = _ => let E := fresh "E" in destruct x eqn:E; [cbn [obind] in H|discriminate] end.

  Lemma aload128_ok a s m v : rel a s -> aload128 a m = Some v -> exists u, load128 L s m = Some u /\ vlv h p v u.
  Proof.
    intros R H. unfold aload128 in H. ob H. destruct p0 as [r off].
    destruct (alook (ace a) r off) as [[x| |]|] eqn:E2; try discriminate. injection H as ->.
    pose proof (alook_ok L HL h p Hp _ _ _ _ _ _ (r_m a s R) E2) as (A & B & _). cbn [ksize holds] in A, B.
    unfold load128. rewrite (aaddr_ok a s m r off R E), A. cbn [obind]. eexists. split; [reflexivity|exact B].
  Qed.
  Lemma aal_ok a s m r off : rel a s -> aaddr a m = Some (r, off) -> aal r && (off mod 16 =? 0) = true -> aligned (addr L s m) = true.
  Proof.
    intros R E H. apply andb_prop in H. destruct H as [H1 H2]. apply N.eqb_eq in H2.
    rewrite (aaddr_ok a s m r off R E). apply aligned_ok; assumption.
  Qed.
  Lemma avget_ok a s x v : rel a s -> avget a x = Some v -> exists u, vget L s x = Some u /\ vlv h p v u.
  Proof.
    intros R H. destruct x as [x|m]; cbn [avget vget] in *.
    - injection H as <-. exists (xr s x). split; [reflexivity|apply R].
    - unfold aload128a in H. ob H. destruct p0 as [r off]. destruct (aal r && (off mod 16 =? 0)) eqn:C; [|discriminate].
      unfold load128a. rewrite (aal_ok a s m r off R E C). apply (aload128_ok a s m v R H).
  Qed.
  Lemma astore_at_ok a s m k l a' : rel a s -> astore_at a m k = Some a' -> length l = ksize k -> holds L h p k l ->
    exists s', store L s m l = Some s' /\ rel a' s'.
  Proof.
    intros R H Hl Hk. unfold astore_at in H. ob H. destruct p0 as [r off]. ob H. injection H as <-.
    pose proof (astore_ok L HL h p Hp _ _ _ _ _ _ _ _ (r_m a s R) E0 Hl Hk) as (A & B & _).
    unfold store. rewrite (aaddr_ok a s m r off R E), A. cbn [obind]. eexists. split; [reflexivity|].
    apply rel_setm; assumption.
  Qed.

  Lemma aand_ok x y u v : lv h p x u -> lv h p y v -> lv h p (aand x y) (N.land u v).
  Proof.
    intros A B.
    assert (Z : forall u, lv h p (AC 0) (N.land u 0)) by (intros; cbn [lv]; rewrite N.land_0_r; split; reflexivity).
    assert (D : x = AC 0 \/ x <> AC 0) by (destruct x as [|[|n]| | | | | | | |]; (left; reflexivity) || (right; discriminate)).
    destruct D as [->|D].
    { cbn [aand]. destruct A as [-> _]. rewrite N.land_comm. apply Z. }
    assert (G : match y with AC 0 => aand x y = AC 0 | AC n => aand x y = if n =? ones32 then x else AU | _ => aand x y = AU end).
    { destruct x as [|[|n]| | | | | | | |]; try congruence; destruct y as [|[|k]| | | | | | | |]; reflexivity. }
    destruct y as [|[|k]| | | | | | | |]; rewrite G; try exact I.
    - destruct B as [-> _]. apply Z.
    - destruct (N.eqb_spec (N.pos k) ones32) as [E|_]; [|exact I]. destruct B as [-> _]. rewrite E.
      assert (D2 : x = AU \/ x <> AU) by (destruct x; (left; reflexivity) || (right; discriminate)).
      destruct D2 as [->|D2]; [exact I|].
      rewrite ones32_ones, N.land_ones, <- M32_pow, wf_mod_id; [exact A|]. eapply lv_wf; eassumption.
  Qed.
  Lemma apshufb_ok m x u v : vlv h p m u -> vlv h p x v -> vlv h p (apshufb m x) (pshufb u v).
  Proof.
    intros A B. unfold apshufb.
    assert (Z : forall v, vlv h p (mkav AU AU AU AU) v) by (intros; repeat split).
    destruct (a0 x) as [| | |t| | | | | |]; try apply Z.
    destruct (av_eqb m mask_vec) eqn:E1; [|apply Z].
    destruct (av_eqb x _) eqn:E2; [|apply Z]. cbn [andb]. destruct (Nat.ltb_spec (t + 3) 16); [|apply Z].
    apply av_eqb_eq in E1, E2. subst m x. destruct u as [u0 u1 u2 u3]. destruct v as [x0 x1 x2 x3].
    unfold vlv, mask_vec in A, B. cbn [a0 a1 a2 a3 v0 v1 v2 v3 lv] in A, B.
    destruct A as ((-> & _) & (-> & _) & (-> & _) & (-> & _)).
    destruct B as ((-> & _) & (-> & _) & (-> & _) & (-> & _)).
    destruct (raw_bytes h p Hp t ltac:(lia)) as (c0 & c1 & c2 & c3 & _ & -> & W0).
    destruct (raw_bytes h p Hp (t + 1) ltac:(lia)) as (d0 & d1 & d2 & d3 & _ & -> & W1).
    destruct (raw_bytes h p Hp (t + 2) ltac:(lia)) as (e0 & e1 & e2 & e3 & _ & -> & W2).
    destruct (raw_bytes h p Hp (t + 3) ltac:(lia)) as (f0 & f1 & f2 & f3 & _ & -> & W3).
    assert (LE : forall a b c d, le32 (le_val [a; b; c; d]) = [a; b; c; d]).
    { intros a b c d. assert (F : le_val [a; b; c; d] = be_val [d; c; b; a]).
      { rewrite be_val_4. cbn [le_val]. change (2^24) with 16777216. change (2^16) with 65536. change (2^8) with 256. lia. }
      rewrite F. pose proof (be32_be_val d c b a) as G. unfold be32 in G. unfold le32.
      injection G as G1 G2 G3 G4. rewrite G1, G2, G3, G4. reflexivity. }
    assert (BL : forall a b c d, le_val [d; c; b; a] = be_val [a; b; c; d]).
    { intros a b c d. rewrite be_val_4. cbn [le_val]. change (2^24) with 16777216. change (2^16) with 65536. change (2^8) with 256. lia. }
    assert (V : pshufb (mkv 0x0c0d0e0f 0x08090a0b 0x04050607 0x00010203)
        (mkv (le_val [c0; c1; c2; c3]) (le_val [d0; d1; d2; d3]) (le_val [e0; e1; e2; e3]) (le_val [f0; f1; f2; f3])) =
      mkv (be_val [f0; f1; f2; f3]) (be_val [e0; e1; e2; e3]) (be_val [d0; d1; d2; d3]) (be_val [c0; c1; c2; c3])).
    { unfold pshufb. unfold vec_bytes at 2. cbn [v0 v1 v2 v3].
      change (le32 0x0c0d0e0f ++ le32 0x08090a0b ++ le32 0x04050607 ++ le32 0x00010203) with
        [x0f; x0e; x0d; x0c; x0b; x0a; x09; x08; x07; x06; x05; x04; x03; x02; x01; x00].
      unfold vec_bytes. cbn [v0 v1 v2 v3]. rewrite !LE. cbn [app map].
      assert (Bt : forall b, N.testbit (b2n b) 7 = true \/ N.testbit (b2n b) 7 = false) by (intros; destruct (N.testbit (b2n b) 7); auto).
      change (N.testbit (b2n x0f) 7) with false. change (N.testbit (b2n x0e) 7) with false. change (N.testbit (b2n x0d) 7) with false.
      change (N.testbit (b2n x0c) 7) with false. change (N.testbit (b2n x0b) 7) with false. change (N.testbit (b2n x0a) 7) with false.
      change (N.testbit (b2n x09) 7) with false. change (N.testbit (b2n x08) 7) with false. change (N.testbit (b2n x07) 7) with false.
      change (N.testbit (b2n x06) 7) with false. change (N.testbit (b2n x05) 7) with false. change (N.testbit (b2n x04) 7) with false.
      change (N.testbit (b2n x03) 7) with false. change (N.testbit (b2n x02) 7) with false. change (N.testbit (b2n x01) 7) with false.
      change (N.testbit (b2n x00) 7) with false. cbn iota.
      change (N.to_nat (N.land (b2n x0f) 15)) with 15%nat. change (N.to_nat (N.land (b2n x0e) 15)) with 14%nat.
      change (N.to_nat (N.land (b2n x0d) 15)) with 13%nat. change (N.to_nat (N.land (b2n x0c) 15)) with 12%nat.
      change (N.to_nat (N.land (b2n x0b) 15)) with 11%nat. change (N.to_nat (N.land (b2n x0a) 15)) with 10%nat.
      change (N.to_nat (N.land (b2n x09) 15)) with 9%nat. change (N.to_nat (N.land (b2n x08) 15)) with 8%nat.
      change (N.to_nat (N.land (b2n x07) 15)) with 7%nat. change (N.to_nat (N.land (b2n x06) 15)) with 6%nat.
      change (N.to_nat (N.land (b2n x05) 15)) with 5%nat. change (N.to_nat (N.land (b2n x04) 15)) with 4%nat.
      change (N.to_nat (N.land (b2n x03) 15)) with 3%nat. change (N.to_nat (N.land (b2n x02) 15)) with 2%nat.
      change (N.to_nat (N.land (b2n x01) 15)) with 1%nat. change (N.to_nat (N.land (b2n x00) 15)) with 0%nat.
      cbn [nth]. unfold bytes_vec. cbn [firstn skipn]. rewrite !BL. reflexivity. }
    rewrite V. unfold vlv. cbn [a0 a1 a2 a3 v0 v1 v2 v3 lv]. rewrite W0, W1, W2, W3. repeat split.
  Qed.
  Lemma apshufd_ok i x v : vlv h p x v -> vlv h p (apshufd i x) (pshufd i v).
  Proof. intros A. repeat split; cbn [apshufd pshufd a0 a1 a2 a3 v0 v1 v2 v3]; apply alane_ok; exact A. Qed.
  Lemma anexte_ok x y u v : vlv h p x u -> vlv h p y v -> vlv h p (anexte x y) (sha1nexte u v).
  Proof.
    intros (A & B & C & D) (_ & _ & _ & D'). repeat split; cbn [anexte sha1nexte a0 a1 a2 a3 v0 v1 v2 v3]; try assumption.
    apply aadd_ok; auto. apply arol30_ok; auto.
  Qed.
  Lemma amsg1_ok x y u v : vlv h p x u -> vlv h p y v -> vlv h p (amsg1 x y) (sha1msg1 u v).
  Proof.
    intros (A & B & C & D) (A' & B' & C' & D'). repeat split; cbn [amsg1 sha1msg1 a0 a1 a2 a3 v0 v1 v2 v3]; apply axor_ok; assumption.
  Qed.
  Lemma amsg2_ok x y u v : vlv h p x u -> vlv h p y v -> vlv h p (amsg2 x y) (sha1msg2 u v).
  Proof.
    intros (A & B & C & D) (A' & B' & C' & D').
    assert (Z : lv h p (arolx (a3 y) (a2 x)) (rotl32 (N.lxor (v3 v) (v2 u)) 1)) by (apply arolx_ok; assumption).
    repeat split; cbn [amsg2 sha1msg2 a0 a1 a2 a3 v0 v1 v2 v3]; try (apply arolx_ok; assumption).
  Qed.
  Lemma rnds_f_ft i t : (20 * i <= t)%nat -> (t < 20 * i + 20)%nat -> (i < 4)%nat -> rnds_f i = ft t /\ rnds_k i = Kt t.
  Proof.
    intros H1 H2 H3. unfold ft, Kt.
    destruct i as [|[|[|[|i]]]]; [| | | |lia];
      destruct (Nat.ltb_spec t 20), (Nat.ltb_spec t 40), (Nat.ltb_spec t 60); try lia; split; reflexivity.
  Qed.
  Lemma rnds_round_step i t w s : rnds_f i = ft t -> rnds_k i = Kt t -> rnds_round i w s = Spec_Sha1.step t w s.
  Proof.
    intros F K. unfold rnds_round, Spec_Sha1.step. rewrite F, K. f_equal.
    generalize (ft t (sb s) (sc s) (sd s)) (rotl32 (sa s) 5) (Kt t) (se s). intros a b c d. add32_eq.
  Qed.
  Lemma rnds_round_first i t w s a b c d : rnds_f i = ft t -> rnds_k i = Kt t -> s = mkst a b c d (se s) ->
    rnds_round i (add32 w (se s)) (mkst a b c d 0) = Spec_Sha1.step t w s.
  Proof.
    intros F K E. assert (sa s = a /\ sb s = b /\ sc s = c /\ sd s = d) as (A & B & C & D) by (rewrite E; auto).
    unfold rnds_round, Spec_Sha1.step. cbn [sa sb sc sd se]. rewrite F, K, A, B, C, D. f_equal.
    generalize (ft t b c d) (rotl32 a 5) (Kt t) (se s). intros e f g k. add32_eq.
  Qed.
  Lemma arnds4_ok i x y u v : vlv h p x u -> vlv h p y v -> vlv h p (arnds4 i x y) (sha1rnds4 i u v).
  Proof.
    intros A B. unfold arnds4.
    assert (Z : forall v, vlv h p (mkav AU AU AU AU) v) by (intros; repeat split).
    destruct (a3 x) as [| | | | |t| | | |]; try apply Z.
    destruct (av_eqb x _) eqn:E1; [|apply Z]. destruct (av_eqb y _) eqn:E2; [|apply Z]. cbn [andb].
    destruct (Nat.leb_spec (20 * i) t); [|apply Z]. destruct (Nat.leb_spec (t + 4) (20 * i + 20)); [|apply Z].
    destruct (Nat.ltb_spec i 4); [|apply Z]. cbn [andb].
    apply av_eqb_eq in E1, E2. subst x y. destruct u as [u0 u1 u2 u3]. destruct v as [x0 x1 x2 x3].
    unfold vlv in *. cbn [a0 a1 a2 a3 v0 v1 v2 v3 lv comp] in *.
    destruct A as (-> & -> & -> & ->). destruct B as (-> & -> & -> & ->).
    unfold sha1rnds4. cbn [v0 v1 v2 v3].
    pose proof (S_step4 h p Hp t ltac:(lia)) as S4. cbv beta in S4. rewrite S4. clear S4.
    set (s := state_at t h (words_of p)).
    pose proof (fun k => rnds_f_ft i (t + k)) as F.
    destruct (F 0%nat) as [F0 K0]; [lia..|]. destruct (F 1%nat) as [F1 K1]; [lia..|].
    destruct (F 2%nat) as [F2 K2]; [lia..|]. destruct (F 3%nat) as [F3 K3]; [lia..|].
    rewrite Nat.add_0_r in F0, K0.
    rewrite (rnds_round_first i t (nth t (schedule (words_of p)) 0) s (sa s) (sb s) (sc s) (sd s) F0 K0) by (destruct s; reflexivity).
    rewrite (rnds_round_step i (t + 3) _ _ F3 K3), (rnds_round_step i (t + 2) _ _ F2 K2), (rnds_round_step i (t + 1) _ _ F1 K1).
    repeat split.
  Qed.

  Lemma gw_mod x v : lv h p x v -> lv h p x (v mod M32).
  Proof.
    intros A. assert (D : x = AU \/ x <> AU) by (destruct x; (left; reflexivity) || (right; discriminate)).
    destruct D as [->|D]; [exact I|]. rewrite wf_mod_id; [exact A|]. eapply lv_wf; eassumption.
  Qed.

  Lemma frame_and off n : off = 15 -> n = M64 - 16 -> N.land (l_frame L + off) n = al L.
  Proof.
    intros -> ->. unfold al. set (x := l_frame L + 15).
    assert (Hx : x < 2 ^ 64) by (pose proof (frame_bound L HL) as F; unfold x; rewrite M64_pow in F; lia).
    replace (x - x mod 16) with (N.shiftl (N.shiftr x 4) 4).
    - apply N.bits_inj. intros i. rewrite N.land_spec. change (M64 - 16) with (N.ldiff (N.ones 64) (N.ones 4)).
      rewrite N.ldiff_spec. destruct (N.ltb_spec i 4).
      + rewrite N.shiftl_spec_low by assumption. rewrite (N.ones_spec_low 4) by assumption. rewrite andb_false_r. apply andb_false_r.
      + rewrite N.shiftl_spec_high', N.shiftr_spec' by assumption. replace (i - 4 + 4) with i by lia.
        rewrite (N.ones_spec_high 4) by assumption. destruct (N.ltb_spec i 64).
        * rewrite N.ones_spec_low by assumption. apply andb_true_r.
        * rewrite <- (N.mod_small x (2 ^ 64) Hx), N.mod_pow2_bits_high by assumption. reflexivity.
    - rewrite N.shiftl_mul_pow2, N.shiftr_div_pow2. change (2 ^ 4) with 16.
      pose proof (N.div_mod x 16 ltac:(discriminate)). lia.
  Qed.

  Lemma astep_ok i a s a' : rel a s -> astep i a = Some a' -> exists s', step_instr L i s = Some s' /\ rel a' s'.
  Proof.
    intros R H. destruct i; cbn [astep step_instr] in *.
    - (* MOVQ_load *) ob H. destruct p0 as [q off]. destruct (alook (ace a) q off) as [[| |g]|] eqn:E2; try discriminate. injection H as <-.
      pose proof (alook_ok L HL h p Hp _ _ _ _ _ _ (r_m a s R) E2) as (A & B & _). cbn [ksize holds] in A, B.
      unfold load64. rewrite (aaddr_ok _ _ _ _ _ R E), A. cbn [obind]. eexists. split; [reflexivity|]. apply rel_setg; assumption.
    - (* MOVQ_imm *) destruct (N.ltb_spec n M64); [|discriminate]. injection H as <-. eexists. split; [reflexivity|].
      apply rel_setg; [assumption|split; [reflexivity|assumption]].
    - (* CMPQ_imm *) pose proof (r_g a s R r) as G. destruct (agr a r); try discriminate. injection H as <-. destruct G as [-> _].
      eexists. split; [reflexivity|]. apply rel_setz; [assumption|reflexivity].
    - (* CMPQ *) pose proof (r_g a s R r) as G. pose proof (r_g a s R s0) as G'.
      destruct (agr a r) as [| |ra x| |]; try discriminate. destruct (agr a s0) as [| |rb y| |]; try discriminate.
      destruct (Nat.eqb_spec ra rb) as [->|]; [|discriminate]. injection H as <-.
      destruct G as (-> & _). destruct G' as (-> & _). eexists. split; [reflexivity|]. apply rel_setz; [assumption|].
      destruct (N.eqb_spec x y) as [->|]; [apply N.eqb_refl|]. apply N.eqb_neq. lia.
    - (* JEQ *) pose proof (r_z a s R) as Z. destruct (az a) as [z|]; [|discriminate]. injection H as <-. rewrite Z.
      eexists. split; [reflexivity|]. destruct z; [apply rel_jump; exact R|]. rewrite (r_pc a s R). apply rel_jump. exact R.
    - (* JNE *) pose proof (r_z a s R) as Z. destruct (az a) as [z|]; [|discriminate]. injection H as <-. rewrite Z.
      eexists. split; [reflexivity|]. destruct z; [|apply rel_jump; exact R]. rewrite (r_pc a s R). apply rel_jump. exact R.
    - (* ADDQ *) pose proof (r_g a s R r) as G. pose proof (r_g a s R s0) as G'.
      destruct (agr a r) as [|n| | |]; try discriminate. destruct (agr a s0) as [| |q off| |]; try discriminate.
      destruct (N.leb_spec (off + n) (asize q)); [|discriminate]. injection H as <-.
      destruct G as (-> & _). destruct G' as (-> & Hq & _). eexists. split; [reflexivity|]. apply rel_setgz; [assumption|].
      pose proof (abs_bound L HL q Hq). split; [|split; assumption]. rewrite N.mod_small by lia. lia.
    - (* ADDQ_imm *) pose proof (r_g a s R r) as G. destruct (agr a r) as [| |q off| |]; try discriminate.
      destruct (N.leb_spec (off + n) (asize q)); [|discriminate]. injection H as <-.
      destruct G as (-> & Hq & _). eexists. split; [reflexivity|]. apply rel_setgz; [assumption|].
      pose proof (abs_bound L HL q Hq). split; [|split; assumption]. rewrite N.mod_small by lia. lia.
    - (* LEAQ *) unfold addr. destruct (mbase a0) as [q| | |]; try discriminate.
      pose proof (r_g a s R q) as G. destruct (agr a q) as [| | | |off]; try discriminate.
      destruct (N.leb_spec (off + mdisp a0) 80); [|discriminate]. injection H as <-.
      destruct G as (-> & _). eexists. split; [reflexivity|]. apply rel_setg; [assumption|].
      pose proof (frame_bound L HL). split; [|assumption]. rewrite N.mod_small by lia. lia.
    - (* NOTQ *) pose proof (r_g a s R r) as G. destruct (agr a r) as [|n| | |]; try discriminate. injection H as <-.
      destruct G as [-> Hn]. eexists. split; [reflexivity|]. apply rel_setg; [assumption|]. split; [reflexivity|].
      rewrite M64_pow in *. change (2 ^ 64 - 1) with (N.ones 64).
      assert (B : N.lxor n (N.ones 64) = (N.lxor n (N.ones 64)) mod 2 ^ 64).
      { apply N.bits_inj. intros i. destruct (N.ltb_spec i 64).
        - rewrite N.mod_pow2_bits_low by assumption. reflexivity.
        - rewrite N.mod_pow2_bits_high by assumption. rewrite N.lxor_spec, N.ones_spec_high by assumption.
          rewrite <- (N.mod_small n (2 ^ 64) Hn), N.mod_pow2_bits_high by assumption. reflexivity. }
      rewrite B. apply N.mod_upper_bound. discriminate.
    - (* ANDQ *) pose proof (r_g a s R r) as G. pose proof (r_g a s R s0) as G'.
      destruct (agr a r) as [| | | |off]; try discriminate. destruct (agr a s0) as [|n| | |]; try discriminate.
      destruct ((off =? 15) && (n =? M64 - 16)) eqn:C; [|discriminate]. apply andb_prop in C. destruct C as [C1 C2].
      apply N.eqb_eq in C1, C2. injection H as <-. destruct G as (-> & _). destruct G' as (-> & _). eexists. split; [reflexivity|].
      apply rel_setgz; [assumption|]. rewrite frame_and by assumption. cbn [gv abase asize]. split; [lia|]. split; lia.
    - (* ROLL *) pose proof (r_g a s R r) as G. destruct (agr a r) as [| | |x|]; try discriminate.
      destruct (N.eqb_spec n 30) as [->|]; [|discriminate]. injection H as <-. eexists. split; [reflexivity|].
      apply rel_setg; [assumption|]. cbn [gv] in *. apply arol30_ok; [exact Hp|]. apply gw_mod. exact G.
    - (* MOVL_store *) pose proof (r_g a s R r) as G. destruct (agr a r) as [| | |x|]; try discriminate.
      apply (astore_at_ok _ _ _ _ _ _ R H); [reflexivity|]. cbn [holds gv] in *. apply lv_store; auto. apply gw_mod. exact G.
    - (* PINSRD *) ob H. destruct p0 as [q off]. destruct (alook (ace a) q off) as [[|w|]|] eqn:E2; try discriminate. injection H as <-.
      pose proof (alook_ok L HL h p Hp _ _ _ _ _ _ (r_m a s R) E2) as (A & B & _). cbn [ksize holds] in A, B.
      unfold load32. rewrite (aaddr_ok _ _ _ _ _ R E), A. cbn [obind]. eexists. split; [reflexivity|]. apply rel_setx; [assumption|].
      pose proof (r_x a s R x) as (X0 & X1 & X2 & X3).
      destruct i as [|[|[|i]]]; cbn [set_lane]; repeat split; assumption.
    - (* PEXTRD_store *) apply (astore_at_ok _ _ _ _ _ _ R H); [reflexivity|]. cbn [holds]. apply lv_store; auto. apply alane_ok. apply R.
    - (* VPEXTRD *) injection H as <-. eexists. split; [reflexivity|]. apply rel_setg; [assumption|]. cbn [gv]. apply alane_ok. apply R.
    - (* VMOVDQU_load *) ob H. injection H as <-. destruct (aload128_ok _ _ _ _ R E) as (u & -> & B). cbn [obind].
      eexists. split; [reflexivity|]. apply rel_setx; assumption.
    - (* VMOVDQU_store *) apply (astore_at_ok _ _ _ _ _ _ R H); [reflexivity|]. cbn [holds]. apply vlv_store; auto. apply R.
    - (* VMOVDQA *) ob H. injection H as <-. destruct (avget_ok _ _ _ _ R E) as (u & -> & B). cbn [obind].
      eexists. split; [reflexivity|]. apply rel_setx; assumption.
    - (* VMOVDQA_store *) ob H. destruct p0 as [r off]. destruct (aal r && (off mod 16 =? 0)) eqn:C; [|discriminate].
      rewrite (aal_ok _ _ _ _ _ R E C). apply (astore_at_ok _ _ _ _ _ _ R H); [reflexivity|]. cbn [holds]. apply vlv_store; auto. apply R.
    - ob H. injection H as <-. destruct (avget_ok _ _ _ _ R E) as (u & -> & B). cbn [obind].
      eexists. split; [reflexivity|]. apply rel_setx; [assumption|]. apply amap2_ok; [apply aand_ok|apply R|exact B].
    - ob H. injection H as <-. destruct (avget_ok _ _ _ _ R E) as (u & -> & B). cbn [obind].
      eexists. split; [reflexivity|]. apply rel_setx; [assumption|]. apply amap2_ok; [apply axor_ok|apply R|exact B].
    - ob H. injection H as <-. destruct (avget_ok _ _ _ _ R E) as (u & -> & B). cbn [obind].
      eexists. split; [reflexivity|]. apply rel_setx; [assumption|]. apply amap2_ok; [intros; apply aadd_ok; auto|apply R|exact B].
    - ob H. injection H as <-. destruct (avget_ok _ _ _ _ R E) as (u & -> & B). cbn [obind].
      eexists. split; [reflexivity|]. apply rel_setx; [assumption|]. apply apshufb_ok; [exact B|apply R].
    - injection H as <-. eexists. split; [reflexivity|]. apply rel_setx; [assumption|]. apply apshufd_ok. apply R.
    - injection H as <-. eexists. split; [reflexivity|]. apply rel_setx; [assumption|]. apply arnds4_ok; apply R.
    - ob H. injection H as <-. destruct (avget_ok _ _ _ _ R E) as (u & -> & B). cbn [obind].
      eexists. split; [reflexivity|]. apply rel_setx; [assumption|]. apply anexte_ok; [exact B|apply R].
    - ob H. injection H as <-. destruct (avget_ok _ _ _ _ R E) as (u & -> & B). cbn [obind].
      eexists. split; [reflexivity|]. apply rel_setx; [assumption|]. apply amsg1_ok; [exact B|apply R].
    - ob H. injection H as <-. destruct (avget_ok _ _ _ _ R E) as (u & -> & B). cbn [obind].
      eexists. split; [reflexivity|]. apply rel_setx; [assumption|]. apply amsg2_ok; [exact B|apply R].
    - discriminate.
  Qed.

  Lemma aexec_ok prog n : forall a s a', rel a s -> aexec prog n a = Some a' -> exists s', exec L prog n s = Some s' /\ rel a' s'.
  Proof.
    induction n as [|n IH]; intros a s a' R H; [discriminate|]. cbn [aexec exec] in *. rewrite <- (r_pc a s R).
    destruct (nth_error prog (apc a)) as [i|]; [|discriminate].
    assert (D : i = RET \/ i <> RET) by (destruct i; (left; reflexivity) || (right; discriminate)).
    destruct D as [->|D].
    - injection H as <-. exists s. split; [reflexivity|exact R].
    - assert (H' : (do s <- astep i a; aexec prog n s) = Some a') by (destruct i; try exact H; congruence).
      assert (G : match i with RET => Some s | _ => do s <- step_instr L i s; exec L prog n s end =
                  (do s <- step_instr L i s; exec L prog n s)) by (destruct i; reflexivity || congruence).
      rewrite G. destruct (astep i a) as [a1|] eqn:E; [|discriminate]. cbn [obind] in H'.
      destruct (astep_ok i a s a1 R E) as (s1 & -> & R1). cbn [obind]. apply (IH _ _ _ R1 H').
  Qed.
End Sound.
