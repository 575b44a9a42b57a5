(** The arm64 routine: what it computes, and when it does nothing. *)

From Coq Require Import Arith NArith List Strings.Byte Bool Lia ZifyNat.
From Verif Require Import Word WordFacts Spec_Sha1 Sha1Facts Model_Go Model_Asm Model_Arm64 Gen_Arm64 AsmSym Arm64Sym GoCheck GoBlock.
Import ListNotations.
Ltac Zify.zify_post_hook ::= idtac.
Local Open Scope N_scope.

Definition arm64_start : xst :=
  mkxst 0 (fun r => match r with 16%nat => RX | _ => RG GU end) (fun _ => mkav AU AU AU AU)
    (mkcell 6 0 (KV (mkav (AC 0x5A827999) (AC 0x6ED9EBA1) (AC 0x8F1BBCDC) (AC 0xCA62C1D6))) :: entry_cells) None.

Lemma arm64_symbolic : match bexec false arm64_prog 1000 arm64_start with Some a => has_cells exit_cells (bce a) | None => false end = true.
Proof. vm_compute. reflexivity. Qed.
(** With the early exit, h is written back as it was. *)
Definition same_h : list cell := [mkcell 0 0 (KV (mkav (AS 0 0) (AS 0 1) (AS 0 2) (AS 0 3))); mkcell 0 16 (KW (AS 0 4))].
Lemma arm64_symbolic_skip : match bexec true arm64_prog 1000 arm64_start with Some a => has_cells same_h (bce a) | None => false end = true.
Proof. vm_compute. reflexivity. Qed.

Section Call.
  Variable e : aenv.
  Hypothesis HL : layout_ok (ae_lay e).
  Variables (h : st) (p : list byte) (m1 : list word) (cs : csarr).
  Hypothesis Hh : wfst h.
  Hypothesis Hp : length p = 64%nat.
  Hypothesis Hm : length m1 = 80%nat.
  Let L := ae_lay e.
  Let s0 := aentry sha1Ks e h p m1 cs.
  Let r16 := ae_g e 16%nat mod M64.

  Lemma arm64_start_ok : xrel L h p (xm s0) r16 arm64_start s0.
  Proof.
    constructor.
    - reflexivity.
    - intros r. do 17 (destruct r as [|r]; [exact I || reflexivity|]). exact I.
    - intros x. repeat split.
    - split; [|reflexivity]. cbn [bce arm64_start]. constructor.
      + split; [cbn; lia|]. cbn [c_r c_off c_k ksize abase holds]. rewrite N.add_0_r.
        unfold s0. cbn [aentry xm]. rewrite entry_ro1; auto. vm_compute. auto.
      + apply entry_cells_ok; auto.
    - exact I.
  Qed.
  Lemma r16_lt : r16 < M64. Proof. apply N.mod_upper_bound. discriminate. Qed.

  Lemma arm64_run : exists a s, xexec L arm64_prog 1000 s0 = Some s /\ xrel L h p (xm s0) r16 a s /\
    (if M64 <=? r16 + 64 then has_cells same_h (bce a) = true else has_cells exit_cells (bce a) = true).
  Proof.
    pose proof (bexec_ok L HL h p Hh Hp (xm s0) r16 r16_lt arm64_prog 1000 arm64_start s0) as X. cbv beta zeta in X.
    destruct (M64 <=? r16 + 64).
    - pose proof arm64_symbolic_skip as S. destruct (bexec true arm64_prog 1000 arm64_start) as [a|] eqn:E; [|discriminate].
      destruct (X a arm64_start_ok eq_refl) as (s & Y & R). eauto.
    - pose proof arm64_symbolic as S. destruct (bexec false arm64_prog 1000 arm64_start) as [a|] eqn:E; [|discriminate].
      destruct (X a arm64_start_ok eq_refl) as (s & Y & R). eauto.
  Qed.

  Lemma call_arm64_ok : r16 + 64 < M64 -> call_arm64 arm64_prog sha1Ks e h p m1 cs =
    Some (compress h (words_of p), schedule (words_of p), mkcs h (state_at 56 h (words_of p)) (state_at 64 h (words_of p))).
  Proof.
    intros H16. destruct arm64_run as (a & s & X & R & C). destruct (N.leb_spec M64 (r16 + 64)); [lia|].
    unfold call_arm64. fold L s0. rewrite X. cbn [obind]. destruct R as [_ _ _ R _].
    rewrite (exit_h L HL h p Hp (xm s0) (xm s) (bce a) R C), (exit_m1 L HL h p Hp (xm s0) (xm s) (bce a) R C),
      (exit_cs L HL h p Hp (xm s0) (xm s) (bce a) R C). reflexivity.
  Qed.
  Lemma call_arm64_skip : M64 <= r16 + 64 -> exists m1' cs', call_arm64 arm64_prog sha1Ks e h p m1 cs = Some (h, m1', cs').
  Proof.
    intros H16. destruct arm64_run as (a & s & X & R & C). destruct (N.leb_spec M64 (r16 + 64)); [|lia].
    unfold call_arm64. fold L s0. rewrite X. cbn [obind]. destruct R as [_ _ _ R _].
    eexists _, _. do 3 f_equal.
    unfold has_cells in C. cbn [same_h forallb] in C. apply andb_prop in C. destruct C as [C1 C]. apply andb_prop in C. destruct C as [C2 _].
    cbn [c_r c_off c_k] in C1, C2.
    destruct (alook (bce a) 0 0) as [k|] eqn:E; [|discriminate]. apply kind_eqb_eq in C1. subst k.
    destruct (alook (bce a) 0 16) as [k|] eqn:E'; [|discriminate]. apply kind_eqb_eq in C2. subst k.
    apply (alook_ok L HL h p Hp _ _ _ _ _ _ R) in E, E'. destruct E as (_ & E & _). destruct E' as (_ & E' & _).
    cbn [ksize abase holds] in E, E'. rewrite N.add_0_r, bytes_vec_at in E.
    destruct E as (A1 & A2 & A3 & A4). cbn [lv a0 a1 a2 a3 v0 v1 v2 v3 comp] in A1, A2, A3, A4. cbn [lv comp] in E'.
    change (le_val (peek (xm s) (l_h L + 16) 4)) with (word_at (xm s) (l_h L + 16)) in E'.
    unfold st_at. rewrite A1, A2, A3, A4, E'. destruct h. reflexivity.
  Qed.

  (** Nothing else is written. *)
  Lemma call_arm64_frame s : xexec L arm64_prog 1000 s0 = Some s ->
    forall a, (forall r, In r (regions L) -> rwrite r = true -> a < rbase r \/ rbase r + rsize r <= a) -> xm s a = xm s0 a.
  Proof.
    intros X a Ha. destruct arm64_run as (b & s' & X' & R & _). rewrite X in X'. injection X' as <-.
    destruct R as [_ _ _ [_ R] _]. apply R. intros r Hr. apply Ha.
    - destruct r as [|[|[|[|[|r]]]]]; cbn [awr] in Hr; try discriminate; cbn; auto 10.
    - destruct r as [|[|[|[|[|r]]]]]; cbn [awr] in Hr; try discriminate; reflexivity.
  Qed.
End Call.
