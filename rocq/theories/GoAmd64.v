(** The amd64 routine computes the compression, the schedule and the stored states. *)

From Coq Require Import Arith NArith List Strings.Byte Bool Lia ZifyNat.
From Verif Require Import Word WordFacts Spec_Sha1 Sha1Facts Model_Go Model_Asm Model_Amd64 Gen_Amd64 AsmSym Amd64Sym GoCheck GoBlock.
Import ListNotations.
Ltac Zify.zify_post_hook ::= idtac.
Local Open Scope N_scope.

Definition amd64_start : ast :=
  mkast 0 (fun r => match r with SP => GF 0 | _ => GU end) (fun _ => mkav AU AU AU AU)
    (mkcell 6 0 (KV (mkav (AC 0) (AC 0) (AC 0) (AC ones32))) :: mkcell 7 0 (KV mask_vec) :: entry_cells) None.

Lemma lv_AC h p n : n < M32 -> lv h p (AC n) n.
Proof. intros H. cbn [lv]. split; [reflexivity|exact H]. Qed.

Lemma amd64_symbolic : match aexec amd64_prog 1000 amd64_start with Some a => has_cells exit_cells (ace a) | None => false end = true.
Proof. vm_compute. reflexivity. Qed.

Section Call.
  Variable e : env.
  Hypothesis HL : layout_ok (e_lay e).
  Variables (h : st) (p : list byte) (m1 : list word) (cs : csarr).
  Hypothesis Hh : wfst h.
  Hypothesis Hp : length p = 64%nat.
  Hypothesis Hm : length m1 = 80%nat.
  Let L := e_lay e.
  Let s0 := entry upper_mask shuffle_mask e h p m1 cs.

  Lemma amd64_start_ok : rel L h p (mm s0) amd64_start s0.
  Proof.
    constructor.
    - reflexivity.
    - intros r. destruct r; try exact I. cbn. split; [symmetry; apply N.add_0_r|discriminate].
    - intros x. repeat split.
    - split; [|reflexivity]. cbn [ace amd64_start]. constructor; [|constructor].
      + split; [cbn; lia|]. cbn [c_r c_off c_k ksize abase holds]. rewrite N.add_0_r.
        unfold s0. cbn [entry mm]. rewrite entry_ro1; auto. vm_compute. auto.
      + split; [cbn; lia|]. cbn [c_r c_off c_k ksize abase holds]. rewrite N.add_0_r.
        unfold s0. cbn [entry mm]. rewrite entry_ro2; auto. vm_compute. auto.
      + apply entry_cells_ok; auto.
    - exact I.
  Qed.

  Lemma amd64_run : exists a s, exec L amd64_prog 1000 s0 = Some s /\ rel L h p (mm s0) a s /\ has_cells exit_cells (ace a) = true.
  Proof.
    pose proof amd64_symbolic as S. destruct (aexec amd64_prog 1000 amd64_start) as [a|] eqn:E; [|discriminate].
    destruct (aexec_ok L HL h p Hh Hp (mm s0) amd64_prog 1000 amd64_start s0 a amd64_start_ok E) as (s & X & R).
    eauto.
  Qed.

  Lemma call_amd64_ok : call_amd64 amd64_prog upper_mask shuffle_mask e h p m1 cs =
    Some (compress h (words_of p), schedule (words_of p), mkcs h (state_at 56 h (words_of p)) (state_at 64 h (words_of p))).
  Proof.
    destruct amd64_run as (a & s & X & R & C). unfold call_amd64. fold L s0. rewrite X. cbn [obind].
    destruct R as [_ _ _ R _].
    rewrite (exit_h L HL h p Hp (mm s0) (mm s) (ace a) R C), (exit_m1 L HL h p Hp (mm s0) (mm s) (ace a) R C),
      (exit_cs L HL h p Hp (mm s0) (mm s) (ace a) R C). reflexivity.
  Qed.

  (** Nothing else is written. *)
  Lemma call_amd64_frame s : exec L amd64_prog 1000 s0 = Some s ->
    forall a, (forall r, In r (regions L) -> rwrite r = true -> a < rbase r \/ rbase r + rsize r <= a) -> mm s a = mm s0 a.
  Proof.
    intros X a Ha. destruct amd64_run as (b & s' & X' & R & _). rewrite X in X'. injection X' as <-.
    destruct R as [_ _ _ [_ R] _]. apply R. intros r Hr. apply Ha.
    - destruct r as [|[|[|[|[|r]]]]]; cbn [awr] in Hr; try discriminate; cbn; auto 10.
    - destruct r as [|[|[|[|[|r]]]]]; cbn [awr] in Hr; try discriminate; reflexivity.
  Qed.
End Call.

(** ** Rectification *)
Lemma rectify_eq h M : wfst h -> length M = 16%nat -> Forall wf M ->
  rectify (schedule M) (mkcs h (state_at 56 h M) (state_at 64 h M)) = cs_of h M.
Proof.
  intros Hh Hl HM.
  assert (W : forall t, wfst (state_at t h M)) by (intros; apply wfst_state_at; assumption).
  assert (X : forall t, wf (nth t (schedule M) 0)) by (intros; apply nth_wf, schedule_wf, HM).
  assert (A : forall t, (40 <= t < 60)%nat -> func3 (schedule M) (state_at t h M) t = state_at (S t) h M).
  { intros t Ht. rewrite state_at_S by (auto; lia). unfold func3. apply (g_round_eq (repeat x00 64) (le_n _)); auto. apply ft_maj; lia. }
  assert (B : forall t, (60 <= t < 80)%nat -> func4 (schedule M) (state_at t h M) t = state_at (S t) h M).
  { intros t Ht. rewrite state_at_S by (auto; lia). unfold func4. apply (g_round_eq (repeat x00 64) (le_n _)); auto. apply ft_par3; lia. }
  unfold rectify, cs_of. cbn [cs0 cs1 cs2].
  rewrite (A 56%nat), (A 57%nat), (B 64%nat) by lia. reflexivity.
Qed.
