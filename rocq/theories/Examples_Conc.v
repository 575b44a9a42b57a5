(** For each theorem of Properties_Conc a concrete case that meets its hypotheses (tests, not proofs). *)

From Coq Require Import Arith NArith List Strings.Byte Bool Lia ZifyNat.
From Verif Require Import Word Spec_Sha1 Model_Go Model_Asm Model_Amd64 Gen_Amd64 Model_Arm64 Gen_Arm64 Model_Trace Model_Conc Spec_Conc Model_Buffer Spec_Buffer GoAsm MultiFacts
  Data_Shambles Examples_Go Properties_Conc.
Import ListNotations.
Local Open Scope N_scope.

Definition agreeb (L : layout) (m m' : mem) : bool :=
  forallb (fun r => forallb (fun i => Byte.eqb (m (rbase r + N.of_nat i)) (m' (rbase r + N.of_nat i))) (seq 0 (N.to_nat (rsize r)))) (regions L).
Lemma agreeb_ok L m m' : agreeb L m m' = true -> agree L m m'.
Proof.
  unfold agreeb. intros H a r Hr [A B]. rewrite forallb_forall in H. specialize (H r Hr). rewrite forallb_forall in H.
  specialize (H (N.to_nat (a - rbase r))). replace (rbase r + N.of_nat (N.to_nat (a - rbase r))) with a in H by lia.
  apply Byte.byte_dec_bl. apply H. apply in_seq. lia.
Qed.
Definition apartb (r s : region) : bool := (rbase r + rsize r <=? rbase s) || (rbase s + rsize s <=? rbase r).
Definition separateb (L L' : layout) : bool :=
  forallb (fun r => forallb (fun s => negb (rwrite r || rwrite s) || apartb r s) (regions L')) (regions L).
Lemma separateb_ok L L' : separateb L L' = true -> separate L L'.
Proof.
  unfold separateb. intros H r s Hr Hs W. rewrite forallb_forall in H. specialize (H r Hr). rewrite forallb_forall in H. specialize (H s Hs).
  assert (rwrite r || rwrite s = true) as X by (destruct W as [->| ->]; [reflexivity|apply orb_true_r]). rewrite X in H. cbn [negb orb] in H.
  unfold apartb in H. apply orb_prop in H. unfold apart. destruct H as [H|H]; apply N.leb_le in H; auto.
Qed.

(** The second call reads the same block and the same constants as the first; everything else is its own. *)
Definition lay1 : layout := mklay 0x11000 0x2001 0x13000 0x14000 0x15008 0x16000 0x7000 0x7010 64.
Lemma lay1_ok : layout_ok lay1.
Proof.
  assert (A : forall r s, apartb r s = true -> apart r s) by (intros r s H; apply orb_prop in H; unfold apart; destruct H as [H|H]; apply N.leb_le in H; auto).
  split; [|split; [|repeat split]].
  - cbn [regions lay1 all_apart]. repeat apply conj; try exact I; repeat (apply Forall_cons; [apply A; reflexivity|]); apply Forall_nil.
  - cbn [regions lay1]. repeat (apply Forall_cons; [reflexivity|]). apply Forall_nil.
Qed.
Lemma lays_pairwise : pairwise [lay0; lay1].
Proof.
  intros j k L L' Hjk HL HL'. destruct j as [|[|j]], k as [|[|k]]; try congruence; try (destruct j; discriminate); try (destruct k; discriminate);
    cbn [nth_error] in HL, HL'; injection HL as <-; injection HL' as <-; apply separateb_ok; reflexivity.
Qed.
(** Two by two, one behind the other, and a byte stored elsewhere now and then. *)
Definition some_events (n : nat) : list event := concat (repeat [Turn 0; Turn 1; Turn 1; Store 0x9000 x2a; Turn 0; Turn 7] n).
Lemma some_events_store n a b : In (Store a b) (some_events n) -> a = 0x9000.
Proof.
  unfold some_events. induction n as [|n IH]; [intros []|]. cbn [repeat concat app]. intros H.
  destruct H as [H|[H|[H|[H|[H|[H|H]]]]]]; try discriminate H; [injection H as <- _; reflexivity|exact (IH H)].
Qed.
Lemma quiet L n : forallb (fun r => negb ((rbase r <=? 0x9000) && (0x9000 <? rbase r + rsize r))) (regions L) = true -> undisturbed L (some_events n).
Proof.
  intros H a b r Hin Hr [A B]. apply some_events_store in Hin. subst a. rewrite forallb_forall in H. specialize (H r Hr).
  apply negb_true_iff in H. apply andb_false_iff in H. destruct H as [H|H]; [apply N.leb_gt in H|apply N.ltb_ge in H]; lia.
Qed.

Definition acall0 : call env := mkcall _ amd0 sh_h1 sh_b1 (repeat 7 80) zero_cs.
Definition acall1 : call env :=
  mkcall _ (mkenv lay1 (fun _ => 5) (fun _ => mkv 9 8 7 6) (mm (amd64_core upper_mask shuffle_mask acall0)) false) IV sh_b1 (repeat 0 80) zero_cs.
Definition amem : mem := mm (amd64_core upper_mask shuffle_mask acall1).
Example C61_example_amd64 :
  (forall c, In c [acall0; acall1] -> layout_ok (e_lay (c_env c)) /\ wfst (c_h c) /\ length (c_p c) = 64%nat /\ length (c_m1 c) = 80%nat) /\
  pairwise (map (fun c => e_lay (c_env c)) [acall0; acall1]) /\
  (forall c, In c [acall0; acall1] -> agree (e_lay (c_env c)) amem (mm (amd64_core upper_mask shuffle_mask c)) /\ undisturbed (e_lay (c_env c)) (some_events 100)) /\
  turns 0 (some_events 100) = 200%nat /\ turns 1 (some_events 100) = 200%nat /\
  compress sh_h1 (words_of sh_b1) <> compress IV (words_of sh_b1).
Proof.
  split; [|split; [exact lays_pairwise|split; [|split; [reflexivity|split; [reflexivity|]]]]].
  - intros c [<-|[<-|[]]]; (split; [exact lay0_ok || exact lay1_ok|repeat split]).
  - intros c [<-|[<-|[]]]; (split; [apply agreeb_ok; vm_compute; reflexivity|apply quiet; reflexivity]).
  - vm_compute. discriminate.
Qed.

Definition xcall0 : call aenv := mkcall _ (arm0 42) sh_h1 sh_b1 (repeat 7 80) zero_cs.
Definition xcall1 : call aenv :=
  mkcall _ (mkaenv lay1 (fun _ => 5) (fun _ => mkv 9 8 7 6) (xm (arm64_core sha1Ks xcall0)) false) IV sh_b1 (repeat 0 80) zero_cs.
Definition xmem : mem := xm (arm64_core sha1Ks xcall1).
Example C61_example_arm64 :
  (forall c, In c [xcall0; xcall1] -> layout_ok (ae_lay (c_env c)) /\ wfst (c_h c) /\ length (c_p c) = 64%nat /\ length (c_m1 c) = 80%nat /\
     ae_g (c_env c) 16%nat mod M64 + 64 < M64) /\
  pairwise (map (fun c => ae_lay (c_env c)) [xcall0; xcall1]) /\
  (forall c, In c [xcall0; xcall1] -> agree (ae_lay (c_env c)) xmem (xm (arm64_core sha1Ks c)) /\ undisturbed (ae_lay (c_env c)) (some_events 110)) /\
  turns 0 (some_events 110) = 220%nat /\ turns 1 (some_events 110) = 220%nat.
Proof.
  split; [|split; [exact lays_pairwise|split; [|split; reflexivity]]].
  - intros c [<-|[<-|[]]]; (split; [exact lay0_ok || exact lay1_ok|]; repeat split).
  - intros c [<-|[<-|[]]]; (split; [apply agreeb_ok; vm_compute; reflexivity|apply quiet; reflexivity]).
Qed.

(** Two calls on one hasher (the second layout has the h of the first): the work of the call that is faster is lost. *)
Definition lay2 : layout := mklay 0x1000 0x12001 0x13000 0x14000 0x15008 0x16000 0x7000 0x7010 64.
Definition acall2 : call env :=
  mkcall _ (mkenv lay2 (fun _ => 5) (fun _ => mkv 9 8 7 6) (mm (amd64_core upper_mask shuffle_mask acall0)) false) sh_h1 abc_block (repeat 0 80) zero_cs.
Definition amem2 : mem := mm (amd64_core upper_mask shuffle_mask acall2).
Example C61_test_race :
  match amd64_conc amd64_prog (repeat (Turn 0) 20 ++ repeat (Turn 1) 200 ++ repeat (Turn 0) 180) (amd64_begin upper_mask shuffle_mask amem2 [acall0; acall2]) with
  | Some s => st_at (shared _ s) 0x1000 = compress sh_h1 (words_of sh_b1)
  | None => False
  end.
Proof. vm_compute. reflexivity. Qed.

(** Store buffers: some bytes arrive at once, in the wrong order, the others never. *)
Definition some_bevents (n : nat) : list bevent :=
  concat (repeat [BTurn 0; BTurn 1; Drain 0 0x1003; Drain 0 0x1000; BTurn 1; BStore 0x9000 x2a; Drain 1 0x13004; BTurn 0; Drain 7 0; BTurn 7] n).
Lemma some_bevents_store n a b : In (BStore a b) (some_bevents n) -> a = 0x9000.
Proof.
  unfold some_bevents. induction n as [|n IH]; [intros []|]. cbn [repeat concat app]. intros H.
  repeat (destruct H as [H|H]; [first [discriminate H|injection H as <- _; reflexivity]|]). exact (IH H).
Qed.
Lemma bquiet L n : forallb (fun r => negb ((rbase r <=? 0x9000) && (0x9000 <? rbase r + rsize r))) (regions L) = true -> bundisturbed L (some_bevents n).
Proof.
  intros H a b r Hin Hr [A B]. apply some_bevents_store in Hin. subst a. rewrite forallb_forall in H. specialize (H r Hr).
  apply negb_true_iff in H. apply andb_false_iff in H. destruct H as [H|H]; [apply N.leb_gt in H|apply N.ltb_ge in H]; lia.
Qed.
Example C61_example_buffered :
  (forall c, In c [acall0; acall1] -> layout_ok (e_lay (c_env c)) /\ wfst (c_h c) /\ length (c_p c) = 64%nat /\ length (c_m1 c) = 80%nat) /\
  pairwise (map (fun c => e_lay (c_env c)) [acall0; acall1]) /\
  (forall c, In c [acall0; acall1] -> agree (e_lay (c_env c)) amem (mm (amd64_core upper_mask shuffle_mask c)) /\ bundisturbed (e_lay (c_env c)) (some_bevents 100)) /\
  bturns 0 (some_bevents 100) = 200%nat /\ bturns 1 (some_bevents 100) = 200%nat.
Proof.
  split; [|split; [exact lays_pairwise|split; [|split; reflexivity]]].
  - intros c [<-|[<-|[]]]; (split; [exact lay0_ok || exact lay1_ok|repeat split]).
  - intros c [<-|[<-|[]]]; (split; [apply agreeb_ok; vm_compute; reflexivity|apply bquiet; reflexivity]).
Qed.
Example C61_example_xbuffered :
  (forall c, In c [xcall0; xcall1] -> layout_ok (ae_lay (c_env c)) /\ wfst (c_h c) /\ length (c_p c) = 64%nat /\ length (c_m1 c) = 80%nat /\
     ae_g (c_env c) 16%nat mod M64 + 64 < M64) /\
  pairwise (map (fun c => ae_lay (c_env c)) [xcall0; xcall1]) /\
  (forall c, In c [xcall0; xcall1] -> agree (ae_lay (c_env c)) xmem (xm (arm64_core sha1Ks c)) /\ bundisturbed (ae_lay (c_env c)) (some_bevents 110)) /\
  bturns 0 (some_bevents 110) = 220%nat /\ bturns 1 (some_bevents 110) = 220%nat.
Proof.
  split; [|split; [exact lays_pairwise|split; [|split; reflexivity]]].
  - intros c [<-|[<-|[]]]; (split; [exact lay0_ok || exact lay1_ok|]; repeat split).
  - intros c [<-|[<-|[]]]; (split; [apply agreeb_ok; vm_compute; reflexivity|apply bquiet; reflexivity]).
Qed.
(** Until its bytes arrive, nobody else sees that the call has ended; of two bytes that arrive, the second may be the first to arrive. *)
Definition lone (ev : list bevent) : option (bsys mach) := amd64_bconc amd64_prog ev (amd64_bbegin upper_mask shuffle_mask amem [acall0]).
Example C61_test_waiting :
  match lone (repeat (BTurn 0) 200) with
  | Some s => st_at (bshared _ s) 0x1000 = sh_h1 /\ List.length (waiting s 0) = 432%nat /\
      st_at (overlay (bshared _ s) (waiting s 0)) 0x1000 = compress sh_h1 (words_of sh_b1)
  | None => False
  end.
Proof. vm_compute. repeat split. Qed.
Example C61_test_arrive :
  match lone (repeat (BTurn 0) 200 ++ [Drain 0 0x1010]) with
  | Some s => sa (st_at (bshared _ s) 0x1000) = sa sh_h1 /\ se (st_at (bshared _ s) 0x1000) <> se sh_h1
  | None => False
  end.
Proof. vm_compute. split; [reflexivity|discriminate]. Qed.
