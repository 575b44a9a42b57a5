(** Symbolic execution of the arm64 instructions, and its soundness. *)

From Coq Require Import Arith NArith List Strings.Byte Bool Lia ZifyNat.
From Verif Require Import Word WordFacts Spec_Sha1 Sha1Facts Model_Go Model_Asm Model_Arm64 AsmSym.
Import ListNotations.
Ltac Zify.zify_post_hook ::= idtac.
Local Open Scope N_scope.

(** A register: a value as for amd64, the initial content of R16, or that plus 64. *)
Inductive rg := RG (g : ag) | RX | RY.
Record xst := mkxst { bpc : nat; bg : nat -> rg; bv : nat -> avec; bce : list cell; bz : option bool }.
Definition bsetg (r : nat) (v : rg) (s : xst) : xst := mkxst (S (bpc s)) (fun q => if (q =? r)%nat then v else bg s q) (bv s) (bce s) (bz s).
Definition bsetv (x : nat) (v : avec) (s : xst) : xst := mkxst (S (bpc s)) (bg s) (fun q => if (q =? x)%nat then v else bv s q) (bce s) (bz s).
Definition bsetm (c : list cell) (s : xst) : xst := mkxst (S (bpc s)) (bg s) (bv s) c (bz s).
Definition bsetz (z : option bool) (s : xst) : xst := mkxst (S (bpc s)) (bg s) (bv s) (bce s) z.
Definition bjump (l : nat) (s : xst) : xst := mkxst l (bg s) (bv s) (bce s) (bz s).
Definition bbump (r : nat) (n : N) (s : xst) : option xst :=
  match bg s r with
  | RG (GP q off) => if off + n <=? asize q
                     then Some (mkxst (bpc s) (fun k => if (k =? r)%nat then RG (GP q (off + n)) else bg s k) (bv s) (bce s) (bz s)) else None
  | _ => None
  end.

Definition arev (x : aw) : aw := match x with AR t => AW t | _ => AU end.
Definition avrev (x : avec) : avec := mkav (arev (a0 x)) (arev (a1 x)) (arev (a2 x)) (arev (a3 x)).
Definition asu0 (m n d : avec) : avec :=
  mkav (axor (axor (a2 d) (a0 d)) (a0 m)) (axor (axor (a3 d) (a1 d)) (a1 m))
       (axor (axor (a0 n) (a2 d)) (a2 m)) (axor (axor (a1 n) (a3 d)) (a3 m)).
Definition asu1 (n d : avec) : avec :=
  mkav (arolx (a0 d) (a1 n)) (arolx (a1 d) (a2 n)) (arolx (a2 d) (a3 n)) (arolx (a3 d) (arolx (a0 d) (a1 n))).
(** Which of the three functions belongs to steps t to t+3. *)
Inductive fsel := FC | FP | FM.
Definition fun_of (k : fsel) : word -> word -> word -> word := match k with FC => sha_choose | FP => sha_parity | FM => sha_majority end.
Definition fits (k : fsel) (t : nat) : bool :=
  match k with
  | FC => (t + 4 <=? 20)%nat
  | FP => ((20 <=? t) && (t + 4 <=? 40) || (60 <=? t) && (t + 4 <=? 80))%nat
  | FM => ((40 <=? t) && (t + 4 <=? 60))%nat
  end.
Definition ahash (k : fsel) (m n d : avec) : avec :=
  match a0 m with
  | AK t => if ((av_eqb m (mkav (AK t) (AK (t + 1)) (AK (t + 2)) (AK (t + 3))) &&
                 av_eqb d (mkav (AS t 0) (AS t 1) (AS t 2) (AS t 3))) && aw_eqb (a0 n) (AS t 4) && fits k t)%bool
            then mkav (AS (t + 4) 0) (AS (t + 4) 1) (AS (t + 4) 2) (AS (t + 4) 3) else mkav AU AU AU AU
  | _ => mkav AU AU AU AU
  end.

Definition bload (s : xst) (r : nat) : option kind := match bg s r with RG (GP q off) => alook (bce s) q off | _ => None end.
Definition bstore (s : xst) (r : nat) (k : kind) : option xst :=
  match bg s r with RG (GP q off) => do c <- astore (bce s) q off k; Some (bsetm c s) | _ => None end.

(** [wrap]: R16 + 64 exceeds 64 bits. *)
Definition bstep (wrap : bool) (i : ainstr) (s : xst) : option xst :=
  match i with
  | MOVD_arg off r => match alook (bce s) 5 off with Some (KQ g) => Some (bsetg r (RG g) s) | _ => None end
  | MOVD_ks r => Some (bsetg r (RG (GP 6 0)) s)
  | LSR n q r => match bg s q with RG (GI k) => if N.shiftr k n <? M64 then Some (bsetg r (RG (GI (N.shiftr k n))) s) else None | _ => None end
  | LSL n q r => match bg s q with RG (GI k) => Some (bsetg r (RG (GI (N.shiftl k n mod M64))) s) | _ => None end
  | ADD p q r => match bg s p, bg s q with RX, RG (GI 64) => Some (bsetg r RY s) | _, _ => None end
  | SUB_imm n q r => match bg s q with
                     | RG (GP a off) => if n <=? off then Some (bsetg r (RG (GP a (off - n))) s) else None
                     | _ => None
                     end
  | CMP q r => match bg s q, bg s r with RX, RY => Some (bsetz (Some wrap) s) | _, _ => None end
  | BLS l => match bz s with Some z => Some (if z then bjump l s else bjump (S (bpc s)) s) | None => None end
  | VLD1P r x => match bload s r with Some (KV v) => bbump r 16 (bsetv x v s) | _ => None end
  | VLD1 r x => match bload s r with Some (KV v) => Some (bsetv x v s) | _ => None end
  | FMOVS_load r x => match bload s r with Some (KW w) => Some (bsetv x (mkav w (AC 0) (AC 0) (AC 0)) s) | _ => None end
  | FMOVS_store x r => bstore s r (KW (a0 (bv s x)))
  | VST1P x r => do s <- bstore s r (KV (bv s x)); bbump r 16 s
  | VST1P_lane x i r => do s <- bstore s r (KW (alane i (bv s x))); bbump r 4 s
  | VMOV y x => Some (bsetv x (bv s y) s)
  | VMOV_lane y i x => Some (bsetv x (mkav (alane i (bv s y)) (AC 0) (AC 0) (AC 0)) s)
  | VDUP y i x => let w := alane i (bv s y) in Some (bsetv x (mkav w w w w) s)
  | VREV32 y x => Some (bsetv x (avrev (bv s y)) s)
  | VADD m n d => Some (bsetv d (amap2 aadd (bv s m) (bv s n)) s)
  | SHA1SU0 m n d => Some (bsetv d (asu0 (bv s m) (bv s n) (bv s d)) s)
  | SHA1SU1 n d => Some (bsetv d (asu1 (bv s n) (bv s d)) s)
  | SHA1C m n d => Some (bsetv d (ahash FC (bv s m) (bv s n) (bv s d)) s)
  | SHA1P m n d => Some (bsetv d (ahash FP (bv s m) (bv s n) (bv s d)) s)
  | SHA1M m n d => Some (bsetv d (ahash FM (bv s m) (bv s n) (bv s d)) s)
  | SHA1H n d => Some (bsetv d (mkav (arol30 (a0 (bv s n))) (AC 0) (AC 0) (AC 0)) s)
  | ARET => None
  end.
Fixpoint bexec (wrap : bool) (prog : list ainstr) (fuel : nat) (s : xst) : option xst :=
  match fuel with
  | O => None
  | S n => match nth_error prog (bpc s) with
           | None => None
           | Some ARET => Some s
           | Some i => do s <- bstep wrap i s; bexec wrap prog n s
           end
  end.

Lemma rotl32_1_1 x : wf x -> rotl32 (rotl32 x 1) 1 = rotl32 x 2.
Proof.
  intros Hx. apply N.bits_inj. intros i. rewrite !testbit_rotl32 by (auto with wf; reflexivity).
  destruct (N.ltb_spec i 32); [|reflexivity]. cbn [andb].
  pose proof (N.mod_upper_bound (i + 32 - 1) 32 ltac:(discriminate)) as B. apply N.ltb_lt in B. rewrite B. cbn [andb].
  f_equal. destruct (N.eq_dec i 0) as [->|]; [reflexivity|]. destruct (N.eq_dec i 1) as [->|]; [reflexivity|].
  replace (i + 32 - 1) with ((i - 1) + 1 * 32) by lia. rewrite N.mod_add by discriminate.
  rewrite (N.mod_small (i - 1)) by lia. replace (i - 1 + 32 - 1) with (i + 32 - 2) by lia. reflexivity.
Qed.
Lemma fits_ok k t j : fits k t = true -> (j < 4)%nat -> forall b c d, wf b -> wf c -> wf d -> fun_of k b c d = ft (t + j) b c d.
Proof.
  intros H Hj b c d Hb Hc Hd. unfold ft. destruct k; cbn [fits fun_of] in *.
  - apply Nat.leb_le in H. destruct (Nat.ltb_spec (t + j) 20); [|lia]. unfold sha_choose, Ch.
    apply N.bits_inj. intros i. destruct (N.ltb_spec i 32) as [Hi|Hi].
    + rewrite !N.lxor_spec, !N.land_spec, N.lxor_spec. unfold not32. rewrite N.lxor_spec, ones32_ones, N.ones_spec_low by assumption.
      destruct (N.testbit b i), (N.testbit c i), (N.testbit d i); reflexivity.
    + rewrite !N.lxor_spec, !N.land_spec, N.lxor_spec.
      rewrite wf_bits in Hb, Hc, Hd. rewrite Hb, Hc, Hd by assumption. rewrite !andb_false_r. reflexivity.
  - apply orb_prop in H. destruct H as [H|H]; apply andb_prop in H; destruct H as [H1 H2]; apply Nat.leb_le in H1, H2;
      destruct (Nat.ltb_spec (t + j) 20), (Nat.ltb_spec (t + j) 40), (Nat.ltb_spec (t + j) 60); try lia; reflexivity.
  - apply andb_prop in H. destruct H as [H1 H2]. apply Nat.leb_le in H1, H2.
    destruct (Nat.ltb_spec (t + j) 20), (Nat.ltb_spec (t + j) 40), (Nat.ltb_spec (t + j) 60); try lia.
    unfold sha_majority, Maj. apply N.bits_inj. intros i.
    rewrite ?N.lor_spec, ?N.lxor_spec, ?N.land_spec, ?N.lor_spec.
    destruct (N.testbit b i), (N.testbit c i), (N.testbit d i); reflexivity.
Qed.
Lemma fits_lt k t : fits k t = true -> (t + 4 <= 80)%nat.
Proof.
  destruct k; cbn [fits]; intros H.
  - apply Nat.leb_le in H. lia.
  - apply orb_prop in H. destruct H as [H|H]; apply andb_prop in H; destruct H as [H1 H2]; apply Nat.leb_le in H1, H2; lia.
  - apply andb_prop in H; destruct H as [H1 H2]; apply Nat.leb_le in H1, H2; lia.
Qed.
Lemma sha_round_step f t w s : wfst s -> (forall b c d, wf b -> wf c -> wf d -> f b c d = ft t b c d) ->
  sha_round f (add32 (Kt t) w) s = Spec_Sha1.step t w s.
Proof.
  intros (Ha & Hb & Hc & Hd & He) F. unfold sha_round, Spec_Sha1.step. rewrite F by assumption. f_equal.
  generalize (ft t (sb s) (sc s) (sd s)) (rotl32 (sa s) 5) (Kt t) (se s). intros a b c d. add32_eq.
Qed.

Section Sound.
  Variable L : layout.
  Hypothesis HL : layout_ok L.
  Variables (h : st) (p : list byte).
  Hypothesis Hh : wfst h.
  Hypothesis Hp : length p = 64%nat.
  Variable m0 : mem.
  Variable r16 : N.
  Hypothesis H16 : r16 < M64.
  Let wrap := M64 <=? r16 + 64.

  Definition rv (g : rg) (v : N) : Prop :=
    match g with RG g => gv L h p g v | RX => v = r16 | RY => v = (r16 + 64) mod M64 end.
  Record xrel (a : xst) (s : amach) : Prop := mkxrel {
    x_pc : bpc a = xpc s;
    x_g : forall r, rv (bg a r) (xg s r);
    x_v : forall x, vlv h p (bv a x) (xv s x);
    x_m : memrel L h p m0 (bce a) (xm s);
    x_z : match bz a with Some z => xls s = z | None => True end }.

  Ltac start := intros R H; constructor; cbn [bsetg bsetv bsetm bsetz bjump xsetg xsetv xsetm xsetf xjump bpc xpc bg xg bv xv bce xm bz xls];
    try apply R; try (f_equal; apply R).
  Lemma xrel_setg a s r g v : xrel a s -> rv g v -> xrel (bsetg r g a) (xsetg r v s).
  Proof. start. intros q. destruct (q =? r)%nat; [exact H|apply R]. Qed.
  Lemma xrel_setv a s x g v : xrel a s -> vlv h p g v -> xrel (bsetv x g a) (xsetv x v s).
  Proof. start. intros q. destruct (q =? x)%nat; [exact H|apply R]. Qed.
  Lemma xrel_setm a s c m : xrel a s -> memrel L h p m0 c m -> xrel (bsetm c a) (xsetm m s).
  Proof. start. exact H. Qed.
  Lemma xrel_setf a s z : xrel a s -> xls s = xls s -> xrel (bsetz (Some z) a) (xsetf z s).
  Proof. start. reflexivity. Qed.
  Lemma xrel_jump a s l : xrel a s -> xls s = xls s -> xrel (bjump l a) (xjump l s).
  Proof. start. reflexivity. Qed.
  Lemma xrel_bump a s r n a' : xrel a s -> bbump r n a = Some a' -> xrel a' (xbump r n s).
  Proof.
    intros R H. unfold bbump in H. pose proof (x_g a s R r) as G. destruct (bg a r) as [[| |q off| |]| |]; try discriminate.
    destruct (N.leb_spec (off + n) (asize q)); [|discriminate]. injection H as <-. cbn [rv gv] in G. destruct G as (E & Hq & Ho).
    pose proof (abs_bound L HL q Hq).
    constructor; cbn [xbump bpc xpc bg xg bv xv bce xm bz xls]; try apply R.
    intros k. destruct (k =? r)%nat; [|apply R]. cbn [rv gv]. rewrite E. split; [|split; assumption]. rewrite N.mod_small by lia. lia.
  Qed.
  Lemma bload_ok a s r k : xrel a s -> bload a r = Some k ->
    rd (regions L) (xm s) (xg s r) (ksize k) = Some (peek (xm s) (xg s r) (ksize k)) /\ holds L h p k (peek (xm s) (xg s r) (ksize k)).
  Proof.
    intros R H. unfold bload in H. pose proof (x_g a s R r) as G. destruct (bg a r) as [[| |q off| |]| |]; try discriminate.
    cbn [rv gv] in G. destruct G as (-> & _). apply (alook_ok L HL h p Hp _ _ _ _ _ _ (x_m a s R)) in H. tauto.
  Qed.
  Lemma bstore_ok a s r k l a' : xrel a s -> bstore a r k = Some a' -> length l = ksize k -> holds L h p k l ->
    wr (regions L) (xm s) (xg s r) l = Some (poke (xm s) (xg s r) l) /\ xrel a' (xsetm (poke (xm s) (xg s r) l) s).
  Proof.
    intros R H Hl Hk. unfold bstore in H. pose proof (x_g a s R r) as G. destruct (bg a r) as [[| |q off| |]| |]; try discriminate.
    cbn [rv gv] in G. destruct G as (-> & _). destruct (astore (bce a) q off k) as [c|] eqn:E; [|discriminate]. injection H as <-.
    pose proof (astore_ok L HL h p Hp _ _ _ _ _ _ _ _ (x_m a s R) E Hl Hk) as (A & B & _).
    split; [exact A|]. apply xrel_setm; assumption.
  Qed.

  Lemma arev_ok x v : lv h p x v -> lv h p (arev x) (bswap32 v).
  Proof.
    destruct x as [| | |t| | | | | |]; try (intros; exact I). cbn [arev lv]. intros [-> Ht].
    destruct (raw_bytes h p Hp t Ht) as (c0 & c1 & c2 & c3 & _ & -> & ->). unfold bswap32.
    assert (LE : forall a b c d, le32 (le_val [a; b; c; d]) = [a; b; c; d]).
    { intros a b c d. assert (F : le_val [a; b; c; d] = be_val [d; c; b; a]).
      { rewrite be_val_4. cbn [le_val]. change (2^24) with 16777216. change (2^16) with 65536. change (2^8) with 256. lia. }
      rewrite F. pose proof (be32_be_val d c b a) as G. unfold be32 in G. unfold le32.
      injection G as G1 G2 G3 G4. rewrite G1, G2, G3, G4. reflexivity. }
    rewrite LE. cbn [rev app]. rewrite be_val_4. cbn [le_val]. change (2^24) with 16777216. change (2^16) with 65536. change (2^8) with 256. lia.
  Qed.
  Lemma arolx_case x y : arolx x y = AU \/ (x <> AU /\ y <> AU).
  Proof. destruct x; try (left; reflexivity). destruct y; try (left; reflexivity). right. split; discriminate. Qed.
  Lemma asu1_ok x y u v : vlv h p x u -> vlv h p y v -> vlv h p (asu1 x y) (sha1su1 u v).
  Proof.
    intros (A & B & C & D) (A' & B' & C' & D').
    repeat split; cbn [asu1 sha1su1 a0 a1 a2 a3 v0 v1 v2 v3]; try (apply arolx_ok; assumption).
    destruct (arolx_case (a3 y) (arolx (a0 y) (a1 x))) as [->|[N1 N2]]; [exact I|].
    destruct (arolx_case (a0 y) (a1 x)) as [E|[N3 N4]]; [congruence|].
    assert (W : forall x v, lv h p x v -> x <> AU -> wf v) by (intros; eapply lv_wf; eassumption).
    pose proof (W _ _ D' N1). pose proof (W _ _ A' N3). pose proof (W _ _ B N4).
    rewrite <- rotl32_1_1 by auto with wf. rewrite <- rotl32_xor by (auto with wf; reflexivity).
    apply arolx_ok; [exact Hp|exact D'|]. apply arolx_ok; assumption.
  Qed.
  Lemma asu0_ok x y z u v w : vlv h p x u -> vlv h p y v -> vlv h p z w -> vlv h p (asu0 x y z) (sha1su0 u v w).
  Proof.
    intros (A & B & C & D) (A' & B' & C' & D') (A2 & B2 & C2 & D2).
    repeat split; cbn [asu0 sha1su0 a0 a1 a2 a3 v0 v1 v2 v3]; repeat apply axor_ok; assumption.
  Qed.
  Lemma ahash_ok k x y z u v w : vlv h p x u -> vlv h p y v -> vlv h p z w -> vlv h p (ahash k x y z) (sha_hash (fun_of k) u v w).
  Proof.
    intros A B C. unfold ahash.
    assert (Z : forall v, vlv h p (mkav AU AU AU AU) v) by (intros; repeat split).
    destruct (a0 x) as [| | | | | | | |t|]; try apply Z.
    destruct (av_eqb x _) eqn:E1; [|apply Z]. destruct (av_eqb z _) eqn:E2; [|apply Z].
    destruct (aw_eqb (a0 y) _) eqn:E3; [|apply Z]. destruct (fits k t) eqn:F; [|apply Z]. cbn [andb].
    apply av_eqb_eq in E1, E2. apply aw_eqb_eq in E3. subst x z.
    destruct B as (B & _). rewrite E3 in B. clear E3.
    destruct u as [u0 u1 u2 u3]. destruct v as [x0 x1 x2 x3]. destruct w as [y0 y1 y2 y3].
    unfold vlv in *. cbn [a0 a1 a2 a3 v0 v1 v2 v3 lv comp] in *.
    destruct A as (-> & -> & -> & ->). destruct C as (-> & -> & -> & ->). rewrite B. clear B.
    unfold sha_hash. cbn [v0 v1 v2 v3].
    pose proof (fits_lt k t F) as Ht.
    pose proof (S_step4 h p Hp t Ht) as S4. cbv beta in S4. rewrite S4. clear S4.
    pose proof (S_wf h p Hh t) as Ws.
    set (s := state_at t h (words_of p)) in *.
    replace (mkst (sa s) (sb s) (sc s) (sd s) (se s)) with s by (destruct s; reflexivity).
    pose proof (fun j => fits_ok k t j F) as G.
    pose proof (G 0%nat ltac:(lia)) as G0. rewrite Nat.add_0_r in G0.
    assert (WS : forall t w s, wfst s -> wfst (Spec_Sha1.step t w s)) by (intros; auto with wf).
    rewrite (sha_round_step _ t _ _ Ws G0).
    rewrite (sha_round_step _ (t + 1) _ _ (WS _ _ _ Ws) (G 1%nat ltac:(lia))).
    rewrite (sha_round_step _ (t + 2) _ _ (WS _ _ _ (WS _ _ _ Ws)) (G 2%nat ltac:(lia))).
    rewrite (sha_round_step _ (t + 3) _ _ (WS _ _ _ (WS _ _ _ (WS _ _ _ Ws))) (G 3%nat ltac:(lia))).
    repeat split.
  Qed.
  Lemma lv0 : lv h p (AC 0) 0. Proof. split; reflexivity. Qed.

  Lemma bstep_ok i a s a' : xrel a s -> bstep wrap i a = Some a' -> exists s', xstep L i s = Some s' /\ xrel a' s'.
  Proof.
    intros R H. destruct i; cbn [bstep xstep] in *.
    - (* MOVD_arg *) destruct (alook (bce a) 5 off) as [[| |g]|] eqn:E; try discriminate. injection H as <-.
      pose proof (alook_ok L HL h p Hp _ _ _ _ _ _ (x_m a s R) E) as (A & B & _ & D). cbn [ksize holds abase asize] in A, B, D.
      pose proof (abs_bound L HL 5 ltac:(lia)) as F. cbn [abase asize] in F.
      rewrite N.mod_small by lia. rewrite A. cbn [obind]. eexists. split; [reflexivity|]. apply xrel_setg; assumption.
    - (* MOVD_ks *) injection H as <-. eexists. split; [reflexivity|]. apply xrel_setg; [assumption|]. cbn [rv gv abase asize]. lia.
    - (* LSR *) pose proof (x_g a s R q) as G. destruct (bg a q) as [[|k| | |]| |]; try discriminate.
      destruct (N.ltb_spec (N.shiftr k n) M64); [|discriminate]. injection H as <-. destruct G as [-> _].
      eexists. split; [reflexivity|]. apply xrel_setg; [assumption|]. split; [reflexivity|assumption].
    - (* LSL *) pose proof (x_g a s R q) as G. destruct (bg a q) as [[|k| | |]| |]; try discriminate.
      injection H as <-. destruct G as [-> _].
      eexists. split; [reflexivity|]. apply xrel_setg; [assumption|]. split; [reflexivity|]. apply N.mod_upper_bound. discriminate.
    - (* ADD *) pose proof (x_g a s R p0) as G. pose proof (x_g a s R q) as G'.
      destruct (bg a p0); try discriminate. destruct (bg a q) as [[|k| | |]| |]; try discriminate.
      assert (k = 64) as -> by (destruct k as [|[[]|[[]|[[]|[[]|[[]|[[]|[]|]|]|]|]|]|]]; (discriminate || reflexivity)).
      injection H as <-. destruct G' as [-> _]. cbn [rv] in G. rewrite G.
      eexists. split; [reflexivity|]. apply xrel_setg; [assumption|]. cbn [rv]. f_equal. apply N.add_comm.
    - (* SUB_imm *) pose proof (x_g a s R q) as G. destruct (bg a q) as [[| |r1 off| |]| |]; try discriminate.
      destruct (N.leb_spec n off); [|discriminate]. injection H as <-. destruct G as (-> & Hq & Ho).
      pose proof (abs_bound L HL r1 Hq).
      eexists. split; [reflexivity|]. apply xrel_setg; [assumption|]. cbn [rv gv]. split; [|split; [assumption|lia]].
      replace (abase L r1 + off + M64 - n) with (abase L r1 + (off - n) + 1 * M64) by lia. rewrite N.mod_add by discriminate.
      apply N.mod_small. lia.
    - (* CMP *) pose proof (x_g a s R q) as G. pose proof (x_g a s R r) as G'.
      destruct (bg a q); try discriminate. destruct (bg a r); try discriminate. injection H as <-. cbn [rv] in G, G'. rewrite G, G'.
      
      assert (W : ((r16 + 64) mod M64 <=? r16) = wrap).
      { unfold wrap. destruct (N.leb_spec M64 (r16 + 64)).
        - replace (r16 + 64) with (r16 + 64 - M64 + 1 * M64) by lia. rewrite N.mod_add by discriminate.
          change M64 with 18446744073709551616 in *. rewrite N.mod_small by lia. apply N.leb_le. lia.
        - rewrite N.mod_small by assumption. apply N.leb_gt. lia. }
      rewrite W. eexists. split; [reflexivity|]. apply xrel_setf; [assumption|reflexivity].
    - (* BLS *) pose proof (x_z a s R) as Z. destruct (bz a) as [z|]; [|discriminate]. injection H as <-. rewrite Z.
      eexists. split; [reflexivity|]. destruct z; [apply xrel_jump; [exact R|reflexivity]|]. rewrite (x_pc a s R). apply xrel_jump; [exact R|reflexivity].
    - (* VLD1P *) destruct (bload a r) as [[v| |]|] eqn:E; try discriminate. destruct (bload_ok _ _ _ _ R E) as [A B]. cbn [ksize holds] in A, B.
      rewrite A. cbn [obind]. eexists. split; [reflexivity|]. eapply xrel_bump; [|exact H]. apply xrel_setv; assumption.
    - (* VLD1 *) destruct (bload a r) as [[v| |]|] eqn:E; try discriminate. destruct (bload_ok _ _ _ _ R E) as [A B]. cbn [ksize holds] in A, B.
      rewrite A. cbn [obind]. eexists. split; [reflexivity|]. injection H as <-. apply xrel_setv; assumption.
    - (* FMOVS_load *) destruct (bload a r) as [[|w|]|] eqn:E; try discriminate. destruct (bload_ok _ _ _ _ R E) as [A B]. cbn [ksize holds] in A, B.
      rewrite A. cbn [obind]. eexists. split; [reflexivity|]. injection H as <-. apply xrel_setv; [assumption|].
      split; [exact B|repeat split; reflexivity].
    - (* FMOVS_store *) pose proof (x_v a s R x) as V.
      destruct (bstore_ok _ _ _ _ (le32 (v0 (xv s x))) _ R H) as [A B]; [reflexivity|cbn [holds]; apply lv_store; auto; apply V|].
      rewrite A. cbn [obind]. eexists. split; [reflexivity|exact B].
    - (* VST1P *) pose proof (x_v a s R x) as V. destruct (bstore a r (KV (bv a x))) as [a1|] eqn:E; [|discriminate]. cbn [obind] in H.
      destruct (bstore_ok _ _ _ _ (vec_bytes (xv s x)) _ R E) as [A B]; [reflexivity|cbn [holds]; apply vlv_store; auto|].
      rewrite A. cbn [obind]. eexists. split; [reflexivity|]. eapply xrel_bump; eassumption.
    - (* VST1P_lane *) pose proof (x_v a s R x) as V. destruct (bstore a r _) as [a1|] eqn:E; [|discriminate]. cbn [obind] in H.
      destruct (bstore_ok _ _ _ _ (le32 (lane i (xv s x))) _ R E) as [A B]; [reflexivity|cbn [holds]; apply lv_store; auto; apply alane_ok; exact V|].
      rewrite A. cbn [obind]. eexists. split; [reflexivity|]. eapply xrel_bump; eassumption.
    - injection H as <-. eexists. split; [reflexivity|]. apply xrel_setv; [assumption|apply R].
    - injection H as <-. eexists. split; [reflexivity|]. apply xrel_setv; [assumption|].
      pose proof (alane_ok h p i _ _ (x_v a s R y)). split; [assumption|repeat split; reflexivity].
    - injection H as <-. eexists. split; [reflexivity|]. apply xrel_setv; [assumption|].
      pose proof (alane_ok h p i _ _ (x_v a s R y)). repeat split; assumption.
    - injection H as <-. eexists. split; [reflexivity|]. apply xrel_setv; [assumption|].
      destruct (x_v a s R y) as (A & B & C & D). repeat split; cbn [avrev vrev32 a0 a1 a2 a3 v0 v1 v2 v3]; apply arev_ok; assumption.
    - injection H as <-. eexists. split; [reflexivity|]. apply xrel_setv; [assumption|].
      assert (E : addv (xv s n) (xv s m) = addv (xv s m) (xv s n)).
      { unfold addv, map2v. f_equal; unfold add32; rewrite N.add_comm; reflexivity. }
      rewrite E. apply amap2_ok; [intros; apply aadd_ok; auto|apply R|apply R].
    - injection H as <-. eexists. split; [reflexivity|]. apply xrel_setv; [assumption|]. apply asu0_ok; apply R.
    - injection H as <-. eexists. split; [reflexivity|]. apply xrel_setv; [assumption|]. apply asu1_ok; apply R.
    - injection H as <-. eexists. split; [reflexivity|]. apply xrel_setv; [assumption|]. apply (ahash_ok FC); apply R.
    - injection H as <-. eexists. split; [reflexivity|]. apply xrel_setv; [assumption|]. apply (ahash_ok FP); apply R.
    - injection H as <-. eexists. split; [reflexivity|]. apply xrel_setv; [assumption|]. apply (ahash_ok FM); apply R.
    - injection H as <-. eexists. split; [reflexivity|]. apply xrel_setv; [assumption|].
      destruct (x_v a s R n) as (A & _). split; [apply arol30_ok; assumption|repeat split; reflexivity].
    - discriminate.
  Qed.

  Lemma bexec_ok prog n : forall a s a', xrel a s -> bexec wrap prog n a = Some a' -> exists s', xexec L prog n s = Some s' /\ xrel a' s'.
  Proof.
    induction n as [|n IH]; intros a s a' R H; [discriminate|]. cbn [bexec xexec] in *. rewrite <- (x_pc a s R).
    destruct (nth_error prog (bpc a)) as [i|]; [|discriminate].
    assert (D : i = ARET \/ i <> ARET) by (destruct i; (left; reflexivity) || (right; discriminate)).
    destruct D as [->|D].
    - injection H as <-. exists s. split; [reflexivity|exact R].
    - assert (H' : (do s <- bstep wrap i a; bexec wrap prog n s) = Some a') by (destruct i; try exact H; congruence).
      assert (G : match i with ARET => Some s | _ => do s <- xstep L i s; xexec L prog n s end =
                  (do s <- xstep L i s; xexec L prog n s)) by (destruct i; reflexivity || congruence).
      rewrite G. destruct (bstep wrap i a) as [b1|] eqn:E; [|discriminate]. cbn [obind] in H'.
      destruct (bstep_ok i a s b1 R E) as (s1 & -> & R1). cbn [obind]. apply (IH _ _ _ R1 H').
  Qed.
End Sound.
