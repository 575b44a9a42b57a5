(** The assembly builds behave as the generic code. *)

From Coq Require Import Arith NArith List Strings.Byte Bool Lia ZifyNat.
From Verif Require Import Word WordFacts Spec_Sha1 Spec_Cd Sha1Facts Model_Go Model_Asm Model_Amd64 Gen_Amd64 Model_Arm64 Gen_Arm64 GoCheck GoBlock
  GoAmd64 GoArm64 Spec_Api Model_Api Model_Block GoApi GoStore.
Import ListNotations.
Ltac Zify.zify_post_hook ::= idtac.
Local Open Scope N_scope.

(** What the routine must do. *)
Definition call_ok (call : asm_call) : Prop :=
  forall k h p m1 cs, wfst h -> length p = 64%nat -> length m1 = 80%nat ->
  call k h p m1 cs = Some (compress h (words_of p), schedule (words_of p), mkcs h (state_at 56 h (words_of p)) (state_at 64 h (words_of p))).

Lemma asm_blocks_eq call : call_ok call -> forall fuel k p h m1 cs col, (length p <= fuel)%nat -> wfst h -> length m1 = 80%nat ->
  asm_blocks call fuel k p h m1 cs col = Some (cd_blocks go_decide (h, col) (blocks p)).
Proof.
  intros Hc. induction fuel as [|fuel IH]; intros k p h m1 cs col Hl Hh Hm; cbn [asm_blocks];
    destruct (Nat.leb_spec 64 (length p)).
  - lia.
  - rewrite blocks_short by assumption. reflexivity.
  - assert (Hf : length (firstn 64 p) = 64%nat) by (rewrite firstn_length; lia).
    set (M := words_of (firstn 64 p)).
    assert (Ml : length M = 16%nat) by (apply words_of_length; rewrite Hf; reflexivity).
    assert (Mw : Forall wf M) by apply wf_words_of.
    assert (Sl : length (schedule M) = 80%nat) by (apply schedule_length; exact Ml).
    rewrite (blocks_cons p) by assumption. rewrite cd_blocks_cons. cbn [fst snd]. fold M.
    rewrite Hc by assumption. fold M. cbn [obind].
    rewrite rectify_eq by assumption. rewrite checkCollision_eq by assumption. cbn [obind].
    unfold cd_block. destruct (go_decide h M).
    + rewrite Hc by auto with wf. fold M. cbn [obind]. rewrite Hc by auto with wf. fold M. cbn [obind].
      rewrite IH; auto with wf; [|rewrite skipn_length; lia]. rewrite orb_true_r. reflexivity.
    + rewrite IH; auto with wf; [|rewrite skipn_length; lia]. rewrite orb_false_r. reflexivity.
  - rewrite blocks_short by assumption. reflexivity.
Qed.
Lemma asm_block_ok call : call_ok call -> block_ok (asm_block call).
Proof.
  intros Hc d p Hd. unfold asm_block. rewrite asm_blocks_eq; auto.
  - unfold block_result. destruct (cd_blocks _ _ _). reflexivity.
Qed.
Lemma block_amd64_ok e : (forall k, layout_ok (e_lay (e k))) -> block_ok (block_amd64 e).
Proof. intros H. apply asm_block_ok. intros k h p m1 cs Hh Hp Hm. apply call_amd64_ok; auto. Qed.
Lemma block_arm64_ok e : (forall k, layout_ok (ae_lay (e k)) /\ ae_g (e k) 16%nat mod M64 + 64 < M64) -> block_ok (block_arm64 e).
Proof. intros H. apply asm_block_ok. intros k h p m1 cs Hh Hp Hm. apply call_arm64_ok; auto; apply H. Qed.

Lemma block_of_ok m : block_ok (block_of m).
Proof.
  destruct m as [|e ok|e ok]; cbn [block_of].
  - apply blockGeneric_ok.
  - intros d p Hd. apply block_amd64_ok; auto.
  - intros d p Hd. apply block_arm64_ok; auto.
Qed.

(** ** Any two correct block functions are interchangeable *)

Definition dwf (d : digest) : Prop := wfst (dh d).
Lemma block_result_wf d p : dwf d -> dwf (block_result d p).
Proof. intros H. unfold dwf, block_result. cbn [dh]. apply wfst_cd_blocks. exact H. Qed.

Section Two.
  Variables b1 b2 : blockfn.
  Hypothesis H1 : block_ok b1.
  Hypothesis H2 : block_ok b2.
  Ltac fin t := eexists; split; [reflexivity|split; [reflexivity|exact t]].
  Lemma Write_same d p : dwf d -> Write b1 d p = Write b2 d p /\ forall d' n, Write b1 d p = Some (d', n) -> dwf d'.
  Proof.
    intros Hd. unfold Write. destruct (length p =? 0)%nat.
    { split; [reflexivity|]. intros d' n E. injection E as <- _. exact Hd. }
    cbv zeta. set (d1 := mkd (dh d) (dx d) (dnx d) _ (dcol d)). assert (W1 : dwf d1) by exact Hd.
    assert (A : exists r, (if (0 <? dnx d1)%nat then
         do _ <- slice_from (dx d1) (dnx d1);
         (let '(x, n) := copy_at (dx d1) (dnx d1) p in
         do d <- (if (dnx (mkd (dh d1) x (dnx d1 + n) (dlen d1) (dcol d1)) =? 64)%nat then
                    do d <- b1 (mkd (dh d1) x (dnx d1 + n) (dlen d1) (dcol d1)) (dx (mkd (dh d1) x (dnx d1 + n) (dlen d1) (dcol d1)));
                    Some (mkd (dh d) (dx d) 0 (dlen d) (dcol d))
                  else Some (mkd (dh d1) x (dnx d1 + n) (dlen d1) (dcol d1)));
         do p <- slice_from p n;
         Some (d, p))
       else Some (d1, p)) = r /\ (if (0 <? dnx d1)%nat then
         do _ <- slice_from (dx d1) (dnx d1);
         (let '(x, n) := copy_at (dx d1) (dnx d1) p in
         do d <- (if (dnx (mkd (dh d1) x (dnx d1 + n) (dlen d1) (dcol d1)) =? 64)%nat then
                    do d <- b2 (mkd (dh d1) x (dnx d1 + n) (dlen d1) (dcol d1)) (dx (mkd (dh d1) x (dnx d1 + n) (dlen d1) (dcol d1)));
                    Some (mkd (dh d) (dx d) 0 (dlen d) (dcol d))
                  else Some (mkd (dh d1) x (dnx d1 + n) (dlen d1) (dcol d1)));
         do p <- slice_from p n;
         Some (d, p))
       else Some (d1, p)) = r /\ match r with Some (d2, _) => dwf d2 | None => True end).
    { destruct (0 <? dnx d1)%nat; [|fin W1].
      destruct (slice_from (dx d1) (dnx d1)); cbn [obind]; [|fin I].
      destruct (copy_at (dx d1) (dnx d1) p) as [x n]. set (d2 := mkd (dh d1) x (dnx d1 + n) (dlen d1) (dcol d1)).
      assert (W2 : dwf d2) by exact Hd.
      destruct (dnx d2 =? 64)%nat; cbn [obind].
      - rewrite H1, H2 by exact W2. cbn [obind]. destruct (slice_from p n); cbn [obind]; [fin (block_result_wf d2 (dx d2) W2)|fin I].
      - destruct (slice_from p n); cbn [obind]; [fin W2|fin I]. }
    destruct A as (r & A1 & A2 & Wr). rewrite A1, A2. clear A1 A2. destruct r as [[d2 q]|]; cbn [obind]; [|split; [reflexivity|discriminate]].
    destruct (64 <=? length q)%nat; cbn [obind].
    - destruct (slice_to q (Nat.ldiff (length q) (64 - 1))) as [q'|]; cbn [obind]; [|split; [reflexivity|discriminate]].
      rewrite H1, H2 by exact Wr. cbn [obind]. split; [reflexivity|].
      destruct (slice_from q (Nat.ldiff (length q) (64 - 1))) as [q2|]; cbn [obind]; [|discriminate].
      pose proof (block_result_wf d2 q' Wr) as W3. intros d' n E. injection E as <- _.
      destruct (0 <? length q2)%nat; exact W3.
    - split; [reflexivity|]. intros d' n E. injection E as <- _. destruct (0 <? length q)%nat; exact Wr.
  Qed.
  Lemma checkSum_same d : dwf d -> checkSum b1 d = checkSum b2 d.
  Proof.
    intros Hd. unfold checkSum. cbv zeta. destruct (slice_to _ _); cbn [obind]; [|reflexivity].
    destruct (slice_from _ _) as [r|]; cbn [obind]; [|reflexivity]. destruct (slice_from r 8) as [r'|]; cbn [obind]; [|reflexivity].
    destruct (Write_same d (firstn (N.to_nat (if dlen d mod 64 <? 56 then 56 - dlen d mod 64 else 64 + 56 - dlen d mod 64) + 8)
      (firstn (N.to_nat (if dlen d mod 64 <? 56 then 56 - dlen d mod 64 else 64 + 56 - dlen d mod 64)) (x80 :: repeat x00 71) ++
       appendUint64 (shl64 (dlen d) 3) ++ r')) Hd) as [-> _]. reflexivity.
  Qed.
  Lemma exec_same early ds o : Forall dwf ds -> exec early b1 ds o = exec early b2 ds o /\
    forall ds' x, exec early b1 ds o = Some (ds', x) -> Forall dwf ds'.
  Proof.
    intros Hds.
    assert (N : forall i d, nth_error ds i = Some d -> dwf d).
    { intros i d E. apply nth_error_In in E. rewrite Forall_forall in Hds. auto. }
    assert (U : forall i d, dwf d -> Forall dwf (upd i d ds)).
    { intros i d Hd. apply Forall_forall. intros x Hx. rewrite Forall_forall in Hds.
      revert i Hx. clear - Hds Hd. induction ds as [|y l IH]; intros i Hx; [destruct i; destruct Hx|].
      destruct i as [|i]; cbn [upd] in Hx; destruct Hx as [<-|Hx]; auto.
      - apply Hds. right. exact Hx.
      - apply Hds. left. reflexivity.
      - apply (IH (fun z Hz => Hds z (or_intror Hz)) i). exact Hx. }
    destruct o as [|i w|i inp|i inp|i|i|i b|i|i|data]; cbn [exec].
    - split; [reflexivity|]. intros ds' x E. injection E as <- _. apply Forall_app. split; [exact Hds|].
      constructor; [|constructor]. apply (Rep_wf _ _ _ _ Rep_New).
    - destruct (nth_error ds i) as [d|] eqn:E; cbn [obind]; [|split; [reflexivity|discriminate]].
      destruct (Write_same d w (N i d E)) as [A B]. rewrite <- A. split; [reflexivity|].
      intros ds' x. destruct (Write b1 d w) as [[d' n]|]; cbn [obind]; [|discriminate]. intros X. injection X as <- _.
      apply U. exact (B d' n eq_refl).
    - destruct (nth_error ds i) as [d|] eqn:E; cbn [obind]; [|split; [reflexivity|discriminate]].
      unfold Sum. rewrite (checkSum_same d (N i d E)). split; [reflexivity|].
      intros ds' x. destruct (checkSum b2 d) as [[d' n]|]; cbn [obind]; [|discriminate]. intros X. injection X as <- _. exact Hds.
    - destruct (nth_error ds i) as [d|] eqn:E; cbn [obind]; [|split; [reflexivity|discriminate]].
      unfold CollisionResistantSum. rewrite (checkSum_same d (N i d E)). split; [reflexivity|].
      intros ds' x. destruct (checkSum b2 d) as [[d' n]|]; cbn [obind]; [|discriminate]. intros X. injection X as <- _. exact Hds.
    - split; [reflexivity|]. destruct (nth_error ds i) as [d|] eqn:E; cbn [obind]; [|discriminate].
      intros ds' x X. injection X as <- _. apply U. apply (Rep_wf _ _ _ _ Rep_New).
    - split; [reflexivity|]. destruct (nth_error ds i) as [d|] eqn:E; cbn [obind]; [|discriminate].
      intros ds' x X. destruct (MarshalBinary d); [|discriminate]. injection X as <- _. exact Hds.
    - split; [reflexivity|]. destruct (nth_error ds i) as [d|] eqn:E; cbn [obind]; [|discriminate].
      intros ds' x X. destruct (UnmarshalBinary d b) as [[d' e]|] eqn:F; [|discriminate]. cbn [obind] in X. injection X as <- _.
      apply U. unfold UnmarshalBinary in F.
      destruct (_ || _)%bool; [injection F as <- _; exact (N i d E)|].
      destruct (negb _); [injection F as <- _; exact (N i d E)|].
      assert (C : forall b b' h, consumeUint32 b = Some (b', h) -> wf h).
      { intros c b' h G. destruct c as [|c0 [|c1 [|c2 [|c3 c]]]]; try discriminate. rewrite consumeUint32_ok in G. injection G as _ <-. apply be_val_4_wf. }
      destruct (slice_from b _) as [t|]; cbn [obind] in F; [|discriminate].
      destruct (consumeUint32 t) as [[t1 h0]|] eqn:F0; cbn [obind] in F; [|discriminate].
      destruct (consumeUint32 t1) as [[t2 h1]|] eqn:F1; cbn [obind] in F; [|discriminate].
      destruct (consumeUint32 t2) as [[t3 h2]|] eqn:F2; cbn [obind] in F; [|discriminate].
      destruct (consumeUint32 t3) as [[t4 h3]|] eqn:F3; cbn [obind] in F; [|discriminate].
      destruct (consumeUint32 t4) as [[t5 h4]|] eqn:F4; cbn [obind] in F; [|discriminate].
      destruct (copy_at (dx d) 0 t5) as [y n]. destruct (slice_from t5 n) as [t6|]; cbn [obind] in F; [|discriminate].
      destruct (consumeUint64 t6) as [[t7 len]|]; cbn [obind] in F; [|discriminate]. injection F as <- _.
      unfold dwf. cbn [dh]. repeat split; cbn [sa sb sc sd se]; eapply C; eassumption.
    - split; [reflexivity|]. destruct (nth_error ds i) as [d|] eqn:E; cbn [obind]; [|discriminate].
      intros ds' x X. injection X as <- _. exact Hds.
    - split; [reflexivity|]. destruct (nth_error ds i) as [d|] eqn:E; cbn [obind]; [|discriminate].
      intros ds' x X. injection X as <- _. exact Hds.
    - assert (WN : dwf New) by apply (Rep_wf _ _ _ _ Rep_New).
      assert (A : SumPkg early b1 data = SumPkg early b2 data).
      { unfold SumPkg. cbv zeta. destruct (Write_same New data WN) as [A B]. rewrite <- A.
        destruct (Write b1 New data) as [[d n]|]; cbn [obind]; [|reflexivity]. rewrite (checkSum_same d (B d n eq_refl)). reflexivity. }
      rewrite A. split; [reflexivity|]. intros ds' x. destruct (SumPkg early b2 data) as [[? ?]|]; cbn [obind]; [|discriminate].
      intros X. injection X as <- _. exact Hds.
  Qed.
End Two.

Lemma run_program_same early : forall p q, calls p = calls q -> run_program early p = run_program early q.
Proof.
  unfold run_program. intros p q. assert (Hds : Forall dwf []) by constructor. revert q Hds. generalize (@nil digest) as ds.
  induction p as [|[m o] p IH]; intros ds q Hds E; destruct q as [|[n o'] q]; try discriminate; [reflexivity|].
  cbn [calls map snd] in E. injection E as <- E. cbn [map fst snd run].
  destruct (exec_same _ _ (block_of_ok m) (block_of_ok n) early ds o Hds) as [A B]. rewrite <- A.
  destruct (exec early (block_of m) ds o) as [[ds' x]|]; cbn [obind]; [|reflexivity].
  rewrite (IH ds' q (B ds' x eq_refl) E). reflexivity.
Qed.

(** ** The statements of Properties_Asm *)

Lemma amd64_block_same e d p : (forall k, layout_ok (e_lay (e k))) -> wfst (dh d) ->
  exists d', block_amd64 e d p = Some d' /\ blockGeneric d p = Some d'.
Proof.
  intros He Hd. exists (block_result d p). split; [apply block_amd64_ok; assumption|apply blockGeneric_ok; assumption].
Qed.
Lemma arm64_block_same e d p : (forall k, layout_ok (ae_lay (e k)) /\ ae_g (e k) 16%nat mod M64 + 64 < M64) -> wfst (dh d) ->
  exists d', block_arm64 e d p = Some d' /\ blockGeneric d p = Some d'.
Proof.
  intros He Hd. exists (block_result d p). split; [apply block_arm64_ok; assumption|apply blockGeneric_ok; assumption].
Qed.

Lemma words_facts p : length p = 64%nat -> length (words_of p) = 16%nat /\ Forall wf (words_of p).
Proof. intros H. split; [apply words_of_length; rewrite H; reflexivity|apply wf_words_of]. Qed.
Lemma amd64_states e h p m1 cs : layout_ok (e_lay e) -> wfst h -> length p = 64%nat -> length m1 = 80%nat ->
  exists cs', call_amd64 amd64_prog upper_mask shuffle_mask e h p m1 cs = Some (compress h (words_of p), schedule (words_of p), cs') /\
    rectify (schedule (words_of p)) cs' = mkcs h (state_at 58 h (words_of p)) (state_at 65 h (words_of p)).
Proof.
  intros HL Hh Hp Hm. destruct (words_facts p Hp). eexists. split; [apply call_amd64_ok; assumption|]. apply rectify_eq; assumption.
Qed.
Lemma arm64_states e h p m1 cs : layout_ok (ae_lay e) -> ae_g e 16%nat mod M64 + 64 < M64 -> wfst h -> length p = 64%nat -> length m1 = 80%nat ->
  exists cs', call_arm64 arm64_prog sha1Ks e h p m1 cs = Some (compress h (words_of p), schedule (words_of p), cs') /\
    rectify (schedule (words_of p)) cs' = mkcs h (state_at 58 h (words_of p)) (state_at 65 h (words_of p)).
Proof.
  intros HL H16 Hh Hp Hm. destruct (words_facts p Hp). eexists. split; [apply call_arm64_ok; assumption|]. apply rectify_eq; assumption.
Qed.
Lemma generic_states h p w m1 cs : wfst h -> length p = 64%nat -> length w = 16%nat -> length m1 = 80%nat ->
  pm (g_pass p h w m1 cs) = schedule (words_of p) /\
  pcs (g_pass p h w m1 cs) = mkcs h (state_at 58 h (words_of p)) (state_at 65 h (words_of p)).
Proof.
  intros Hh Hp Hw Hm. destruct (pass_eq p ltac:(lia) h Hh w m1 cs Hw Hm) as (A & B & _).
  rewrite firstn_all2 in A, B by lia. split; assumption.
Qed.
Lemma amd64_safe e h p m1 cs : layout_ok (e_lay e) -> wfst h -> length p = 64%nat -> length m1 = 80%nat ->
  let s0 := entry upper_mask shuffle_mask e h p m1 cs in
  exists s, Model_Amd64.exec (e_lay e) amd64_prog 1000 s0 = Some s /\
    forall a, (forall r, In r (regions (e_lay e)) -> rwrite r = true -> a < rbase r \/ rbase r + rsize r <= a) -> mm s a = mm s0 a.
Proof.
  intros HL Hh Hp Hm s0. destruct (amd64_run e HL h p m1 cs Hh Hp Hm) as (a & s & X & _). exists s. split; [exact X|].
  apply (call_amd64_frame e HL h p m1 cs Hh Hp Hm s X).
Qed.
Lemma arm64_safe e h p m1 cs : layout_ok (ae_lay e) -> wfst h -> length p = 64%nat -> length m1 = 80%nat ->
  let s0 := aentry sha1Ks e h p m1 cs in
  exists s, xexec (ae_lay e) arm64_prog 1000 s0 = Some s /\
    forall a, (forall r, In r (regions (ae_lay e)) -> rwrite r = true -> a < rbase r \/ rbase r + rsize r <= a) -> xm s a = xm s0 a.
Proof.
  intros HL Hh Hp Hm s0. destruct (arm64_run e HL h p m1 cs Hh Hp Hm) as (a & s & X & _). exists s. split; [exact X|].
  apply (call_arm64_frame e HL h p m1 cs Hh Hp Hm s X).
Qed.

(** A concrete machine state, with an unaligned frame; r16 is the content of R16. *)
Definition lay0 : layout := mklay 0x1000 0x2001 0x3000 0x4000 0x5008 0x6000 0x7000 0x7010 64.
Lemma lay0_ok : layout_ok lay0.
Proof.
  split; [|split; [|split; [reflexivity|split; reflexivity]]].
  - assert (A : forall a b c d : N, (a + b <=? c) || (c + d <=? a) = true -> forall x y, apart (mkreg a b x) (mkreg c d y)).
    { intros a b c d H x y. unfold apart. cbn [rbase rsize]. apply orb_prop in H. destruct H as [H|H]; apply N.leb_le in H; auto. }
    cbn [regions lay0 all_apart]. repeat apply conj; try exact I; repeat (apply Forall_cons; [apply A; reflexivity|]); apply Forall_nil.
  - cbn [regions lay0]. repeat (apply Forall_cons; [reflexivity|]). apply Forall_nil.
Qed.
Definition amd0 : env := mkenv lay0 (fun _ => 0x1234567) (fun _ => mkv 1 2 3 4) (fun _ => xff) true.
Definition arm0 (r16 : N) : aenv := mkaenv lay0 (fun r => if (r =? 16)%nat then r16 else 0x1234567) (fun _ => mkv 1 2 3 4) (fun _ => xff) true.
(** One block: "abc" padded. *)
Definition abc_block : list byte := [x61; x62; x63; x80] ++ repeat x00 59 ++ [x18].

(** With R16 = 2^64 - 1 the block is not hashed. *)
Lemma arm64_skips : exists e d p d1 d2, layout_ok (ae_lay (e 0%nat)) /\ (forall k, e k = e 0%nat) /\ wfst (dh d) /\ length p = 64%nat /\
  block_arm64 e d p = Some d1 /\ blockGeneric d p = Some d2 /\ dh d1 <> dh d2.
Proof.
  exists (fun _ => arm0 (2^64 - 1)), New, abc_block.
  destruct (block_arm64 (fun _ => arm0 (2^64 - 1)) New abc_block) as [d1|] eqn:E1; [|exfalso; revert E1; vm_compute; discriminate].
  destruct (blockGeneric New abc_block) as [d2|] eqn:E2; [|exfalso; revert E2; vm_compute; discriminate].
  exists d1, d2. split; [exact lay0_ok|]. split; [reflexivity|]. split; [repeat split|]. split; [reflexivity|].
  split; [reflexivity|]. split; [reflexivity|].
  assert (A : option_map dh (Some d1) = Some IV) by (rewrite <- E1; vm_compute; reflexivity).
  assert (B : option_map (fun d => sa (dh d)) (Some d2) = Some 0xa9993e36) by (rewrite <- E2; vm_compute; reflexivity).
  cbn [option_map] in A, B. injection A as A. injection B as B. intros C. rewrite C in A. rewrite A in B. discriminate.
Qed.
