(** The block functions on input that changes during the call. *)

From Coq Require Import Arith NArith ZArith String List Strings.Byte Bool Lia ZifyNat.
From Verif Require Import Word WordFacts Spec_Sha1 Sha1Facts Spec_DV Spec_Cd Spec_Fetch DvFacts Model_Ubc Gen_DvsC Model_Go Model_Asm Model_Amd64 Gen_Amd64 Model_Arm64 Gen_Arm64 Model_Block
  Model_CSteps Gen_CSteps Model_C Model_Fetch GoCheck GoBlock GoDetect GoTable GoAmd64 GoArm64 GoAsm.
Import ListNotations.
Local Open Scope N_scope.
Ltac Zify.zify_post_hook ::= idtac.

Lemma seen_app m base a b : seen m base a -> seen m (base + length a) b -> seen m base (a ++ b).
Proof.
  intros Ha Hb i Hi. rewrite app_length in Hi. destruct (Nat.lt_ge_cases i (length a)) as [L|L].
  - rewrite app_nth1 by exact L. apply Ha. exact L.
  - rewrite app_nth2 by exact L. destruct (Hb (i - length a)%nat ltac:(lia)) as (t & E). exists t. rewrite E. f_equal. lia.
Qed.
Lemma bytes_at_length m t base n : length (bytes_at m t base n) = n.
Proof. unfold bytes_at. rewrite map_length, seq_length. reflexivity. Qed.
Lemma nth_map_seq {A} (f : nat -> A) n i d : (i < n)%nat -> nth i (map f (seq 0 n)) d = f i.
Proof. intros H. rewrite (nth_indep _ d (f 0%nat)) by (rewrite map_length, seq_length; exact H). rewrite map_nth, seq_nth by exact H. reflexivity. Qed.
Lemma seen_map m base (f : nat -> nat) n : seen m base (map (fun i => m (f i) (base + i)%nat) (seq 0 n)).
Proof. intros i Hi. rewrite map_length, seq_length in Hi. exists (f i). apply (nth_map_seq (fun i => m (f i) (base + i)%nat)). exact Hi. Qed.
Lemma bytes_at_seen m t base n : seen m base (bytes_at m t base n).
Proof. apply (seen_map m base (fun i => (t + i)%nat)). Qed.
Lemma chunk_at_seen m k base : seen m base (chunk_at m k base).
Proof. apply (seen_map m base (fun _ => k)). Qed.
Lemma chunk_at_length m k base : length (chunk_at m k base) = 64%nat.
Proof. unfold chunk_at. rewrite map_length, seq_length. reflexivity. Qed.

(** ** The generic code *)
Lemma load_at_eq m t base i : (i < 16)%nat -> load_at m t base i = load (bytes_at m t base 64) i.
Proof.
  intros Hi. unfold load_at, load, bytes_at. cbv zeta.
  rewrite !(nth_map_seq (fun i => m (t + i)%nat (base + i)%nat)) by lia. rewrite !Nat.add_0_r. reflexivity.
Qed.
Lemma fold_left_ext_in {A B} (f g : A -> B -> A) l : forall x, (forall a b, In b l -> f a b = g a b) -> fold_left f l x = fold_left g l x.
Proof.
  induction l as [|b l IH]; intros x H; [reflexivity|]. cbn [fold_left]. rewrite H by (left; reflexivity). apply IH. intros a c Hc. apply H. right. exact Hc.
Qed.
Lemma pass_at_eq m t base h w m1 cs : g_pass_at m t base h w m1 cs = g_pass (bytes_at m t base 64) h w m1 cs.
Proof.
  unfold g_pass_at, g_pass. cbv zeta.
  rewrite (fold_left_ext_in (body_load_at m t base) (body_load (bytes_at m t base 64)) (seq 0 16)); [reflexivity|].
  intros x i Hi. apply in_seq in Hi. unfold body_load_at, body_load. rewrite load_at_eq by lia. reflexivity.
Qed.

Definition three (h : st) (b1 b2 b3 : list byte) : st := compress (compress (compress h (words_of b1)) (words_of b2)) (words_of b3).
Lemma rehash_at_eq m t base h w cs col : wfst h -> length w = 16%nat ->
  let b1 := bytes_at m t base 64 in
  exists w' cs' h' t', length w' = 16%nat /\ wfst h' /\
    g_rehash_at m 3 t base 1 h w (repeat 0 80) cs col = Some (h', w', cs', (col || go_decide h (words_of b1))%bool, t') /\
    h' = (if go_decide h (words_of b1) then three h b1 (bytes_at m (t + 64) base 64) (bytes_at m (t + 64 + 64) base 64) else compress h (words_of b1)).
Proof.
  intros Hh Hw b1. set (b2 := bytes_at m (t + 64) base 64). set (b3 := bytes_at m (t + 64 + 64) base 64).
  assert (F : forall b : list byte, length b = 64%nat -> firstn 64 b = b) by (intros b Hb; apply firstn_all2; lia).
  assert (L1 : length b1 = 64%nat) by apply bytes_at_length. assert (L2 : length b2 = 64%nat) by apply bytes_at_length.
  assert (L3 : length b3 = 64%nat) by apply bytes_at_length.
  unfold g_rehash_at. cbn [Nat.eqb Nat.add]. rewrite !pass_at_eq. fold b1 b2 b3.
  destruct (pass_eq b1 ltac:(lia) h Hh w (repeat 0 80) cs Hw (repeat_length _ _)) as (E1 & E2 & E3 & E4).
  rewrite (F b1 L1) in E1, E2, E3. set (M1 := words_of b1) in *.
  assert (HM : length M1 = 16%nat) by (apply words_of_length; rewrite L1; reflexivity).
  assert (WM : Forall wf M1) by apply wf_words_of.
  set (x := g_pass b1 h w (repeat 0 80) cs) in *. rewrite E1, E2, E3.
  change (addst h (state_at 80 h M1)) with (compress h M1).
  rewrite checkCollision_eq by assumption. cbn [obind].
  destruct (go_decide h M1) eqn:D.
  - assert (S1 : length (schedule M1) = 80%nat) by (apply schedule_length; assumption).
    fold b2 b3.
    destruct (pass_eq b2 ltac:(lia) (compress h M1) (wfst_compress h M1) (pw x) (schedule M1) (cs_of h M1) E4 S1) as (F1 & F2 & F3 & F4).
    rewrite (F b2 L2) in F1, F2, F3. set (M2 := words_of b2) in *.
    assert (HM2 : length M2 = 16%nat) by (apply words_of_length; rewrite L2; reflexivity).
    set (y := g_pass b2 (compress h M1) (pw x) (schedule M1) (cs_of h M1)) in *. rewrite F1, F2, F3.
    change (addst (compress h M1) (state_at 80 (compress h M1) M2)) with (compress (compress h M1) M2).
    assert (S2 : length (schedule M2) = 80%nat) by (apply schedule_length; assumption).
    destruct (pass_eq b3 ltac:(lia) (compress (compress h M1) M2) (wfst_compress _ M2) (pw y) (schedule M2) (cs_of (compress h M1) M2) F4 S2)
      as (G1 & G2 & G3 & G4).
    rewrite (F b3 L3) in G1, G2, G3. set (M3 := words_of b3) in *.
    set (z := g_pass b3 (compress (compress h M1) M2) (pw y) (schedule M2) (cs_of (compress h M1) M2)) in *. rewrite G3.
    rewrite orb_true_r. eexists _, _, _, _. split; [exact G4|]. split; [|split; [reflexivity|]].
    + change (wfst (compress (compress (compress h M1) M2) M3)). auto with wf.
    + reflexivity.
  - rewrite orb_false_r. eexists _, _, _, _. split; [exact E4|]. split; [|split; [reflexivity|reflexivity]]. auto with wf.
Qed.

(** The result [r] is that of some readings. *)
Definition some_readings (m : input) (base len : nat) (s r : st * bool) : Prop :=
  exists l, length l = (len / 64)%nat /\ readings m base l /\ cd_readings go_decide s l = r.
Lemma some_readings_short m base len s : (len < 64)%nat -> some_readings m base len s s.
Proof. intros H. exists []. split; [symmetry; apply Nat.div_small; exact H|]. split; [exact I|reflexivity]. Qed.
Lemma some_readings_step m base len h c r b1 b2 b3 : (64 <= len)%nat ->
  (forall b, b = b1 \/ b = b2 \/ b = b3 -> length b = 64%nat /\ seen m base b) ->
  some_readings m (base + 64) (len - 64)
    (if go_decide h (words_of b1) then three h b1 b2 b3 else compress h (words_of b1), (c || go_decide h (words_of b1))%bool) r ->
  some_readings m base len (h, c) r.
Proof.
  intros Hlen Hb (l & L & R & E). exists ((b1, b2, b3) :: l). split.
  - cbn [length]. rewrite L. replace len with (len - 64 + 1 * 64)%nat at 2 by lia. rewrite Nat.div_add by discriminate. lia.
  - split; [split; [exact Hb|exact R]|]. exact E.
Qed.

Lemma g_blocks_at_eq m : forall fuel t base len h w cs col, (len <= fuel)%nat -> wfst h -> length w = 16%nat ->
  exists r, g_blocks_at m fuel t base len h w cs col = Some r /\ some_readings m base len (h, col) r.
Proof.
  induction fuel as [|fuel IH]; intros t base len h w cs col Hl Hh Hw; cbn [g_blocks_at]; destruct (Nat.leb_spec 64 len).
  - lia.
  - exists (h, col). split; [reflexivity|]. apply some_readings_short. assumption.
  - destruct (rehash_at_eq m t base h w cs col Hh Hw) as (w' & cs' & h' & t' & Lw & Wh & E & Eh). rewrite E. cbn [obind].
    destruct (IH t' (base + 64)%nat (len - 64)%nat h' w' cs' (col || go_decide h (words_of (bytes_at m t base 64)))%bool ltac:(lia) Wh Lw) as (r & Er & O).
    exists r. split; [exact Er|]. rewrite Eh in O. refine (some_readings_step m base len h col r _ _ _ ltac:(assumption) _ O).
    intros b [->|[->| ->]]; (split; [apply bytes_at_length|apply bytes_at_seen]).
  - exists (h, col). split; [reflexivity|]. apply some_readings_short. assumption.
Qed.

(** ** The assembly builds *)
Lemma asm_blocks_at_eq call m : call_ok call -> forall fuel k base len h m1 cs col, (len <= fuel)%nat -> wfst h -> length m1 = 80%nat ->
  exists r, asm_blocks_at call m fuel k base len h m1 cs col = Some r /\ some_readings m base len (h, col) r.
Proof.
  intros Hc. induction fuel as [|fuel IH]; intros k base len h m1 cs col Hl Hh Hm; cbn [asm_blocks_at]; destruct (Nat.leb_spec 64 len).
  - lia.
  - exists (h, col). split; [reflexivity|]. apply some_readings_short. assumption.
  - set (b1 := chunk_at m k base). set (b2 := chunk_at m (k + 1) base). set (b3 := chunk_at m (k + 2) base).
    assert (Lb : forall b, b = b1 \/ b = b2 \/ b = b3 -> length b = 64%nat /\ seen m base b).
    { intros b [->|[->| ->]]; (split; [apply chunk_at_length|apply chunk_at_seen]). }
    destruct (Lb b1 ltac:(auto)) as [L1 _]. destruct (Lb b2 ltac:(auto)) as [L2 _]. destruct (Lb b3 ltac:(auto)) as [L3 _].
    assert (X : forall b : list byte, length b = 64%nat -> length (words_of b) = 16%nat /\ length (schedule (words_of b)) = 80%nat).
    { intros b Hb. assert (Y : length (words_of b) = 16%nat) by (apply words_of_length; rewrite Hb; reflexivity). split; [exact Y|].
      apply schedule_length. exact Y. }
    destruct (X b1 L1) as [Ml Sl]. destruct (X b2 L2) as [Ml2 Sl2]. destruct (X b3 L3) as [Ml3 Sl3].
    assert (Mw : Forall wf (words_of b1)) by apply wf_words_of.
    pose proof (fun r => some_readings_step m base len h col r b1 b2 b3 ltac:(assumption) Lb) as Step.
    rewrite Hc by assumption. cbn [obind]. rewrite rectify_eq by assumption. rewrite checkCollision_eq by assumption. cbn [obind].
    destruct (go_decide h (words_of b1)) eqn:D.
    + rewrite Hc by auto with wf. cbn [obind]. rewrite Hc by auto with wf. cbn [obind].
      destruct (IH (k + 3)%nat (base + 64)%nat (len - 64)%nat (three h b1 b2 b3) (schedule (words_of b3))
        (mkcs (compress (compress h (words_of b1)) (words_of b2)) (state_at 56 (compress (compress h (words_of b1)) (words_of b2)) (words_of b3))
           (state_at 64 (compress (compress h (words_of b1)) (words_of b2)) (words_of b3))) true ltac:(lia)) as (r & Er & O).
      * unfold three. auto with wf.
      * exact Sl3.
      * exists r. split; [exact Er|]. apply Step. rewrite orb_true_r. exact O.
    + destruct (IH (k + 1)%nat (base + 64)%nat (len - 64)%nat (compress h (words_of b1)) (schedule (words_of b1))
        (mkcs h (state_at 58 h (words_of b1)) (state_at 65 h (words_of b1))) col ltac:(lia)) as (r & Er & O).
      * auto with wf.
      * exact Sl.
      * exists r. split; [exact Er|]. apply Step. rewrite orb_false_r. exact O.
  - exists (h, col). split; [reflexivity|]. apply some_readings_short. assumption.
Qed.

(** ** Readings and one string *)
Lemma cd_readings_cons D h c b1 b2 b3 l : cd_readings D (h, c) ((b1, b2, b3) :: l) =
  cd_readings D (if D h (words_of b1) then three h b1 b2 b3 else compress h (words_of b1), (c || D h (words_of b1))%bool) l.
Proof. reflexivity. Qed.
Lemma cd_readings_sticky D l : forall h, snd (cd_readings D (h, true) l) = true.
Proof. induction l as [|[[b1 b2] b3] l IH]; intros h; [reflexivity|]. rewrite cd_readings_cons. apply IH. Qed.
Lemma cd_readings_wf D l : forall h c, wfst h -> wfst (fst (cd_readings D (h, c) l)).
Proof.
  induction l as [|[[b1 b2] b3] l IH]; intros h c H; [exact H|]. rewrite cd_readings_cons. apply IH. destruct (D _ _); unfold three; auto with wf.
Qed.
(** The string of the first readings has the same verdict and, if it is not flagged, the same chaining value. *)
Definition firsts (l : list (list byte * list byte * list byte)) : list byte := concat (map (fun b => fst (fst b)) l).
Lemma firsts_spec m D l : forall base, readings m base l ->
  length (firsts l) = (64 * length l)%nat /\ seen m base (firsts l) /\
  forall h c, snd (cd_blocks D (h, c) (blocks (firsts l))) = snd (cd_readings D (h, c) l) /\
    (snd (cd_readings D (h, c) l) = false -> cd_blocks D (h, c) (blocks (firsts l)) = cd_readings D (h, c) l).
Proof.
  induction l as [|[[b1 b2] b3] l IH]; intros base R.
  - split; [reflexivity|]. split; [intros i Hi; inversion Hi|]. intros h c. split; reflexivity.
  - destruct R as [Hb R]. destruct (Hb b1 ltac:(auto)) as [L1 S1]. destruct (IH _ R) as (L & S & E).
    change (firsts ((b1, b2, b3) :: l)) with (b1 ++ firsts l).
    split; [rewrite app_length, L1, L; cbn [length]; lia|]. split; [apply seen_app; [exact S1|rewrite L1; exact S]|].
    intros h c. rewrite (blocks_app 1) by (rewrite L1; reflexivity). rewrite (blocks_one b1) by exact L1. cbn [app].
    rewrite cd_blocks_cons, cd_readings_cons. cbn [fst snd]. unfold cd_block. destruct (D h (words_of b1)).
    + rewrite orb_true_r, cd_readings_sticky, cd_blocks_sticky by reflexivity. split; [reflexivity|discriminate].
    + apply E.
Qed.
(** Nobody writes. *)
Lemma nth_firstn {A} (d : A) : forall n l i, (i < n)%nat -> nth i (firstn n l) d = nth i l d.
Proof.
  induction n as [|n IH]; intros l i H; [lia|]. destruct l as [|x l]; [destruct i; reflexivity|]. destruct i as [|i]; [reflexivity|].
  cbn [firstn nth]. apply IH. lia.
Qed.
Lemma nth_skipn {A} (d : A) i : forall a l, nth i (skipn a l) d = nth (a + i) l d.
Proof. induction a as [|a IH]; intros [|x l]; try reflexivity; [destruct i; reflexivity|]. cbn [skipn Nat.add nth]. apply IH. Qed.
Lemma skipn_skipn_n {A} n : forall a (l : list A), skipn n (skipn a l) = skipn (a + n) l.
Proof. induction a as [|a IH]; intros [|x l]; try reflexivity; [apply skipn_nil|]. cbn [skipn Nat.add]. apply IH. Qed.
Lemma seen_const p n b : length b = 64%nat -> (64 * n + 64 <= length p)%nat -> seen (fun _ i => nth i p x00) (64 * n) b -> b = firstn 64 (skipn (64 * n) p).
Proof.
  intros L H S. apply (nth_ext _ _ x00 x00); [rewrite firstn_length, skipn_length; lia|]. intros i Hi. rewrite L in Hi.
  destruct (S i) as (t & E); [lia|]. rewrite E. rewrite nth_firstn by exact Hi. rewrite nth_skipn. reflexivity.
Qed.
Lemma readings_const D p l : forall n s, (64 * (n + length l) <= length p)%nat -> readings (fun _ i => nth i p x00) (64 * n) l ->
  cd_readings D s l = cd_blocks D s (blocks (firstn (64 * length l) (skipn (64 * n) p))).
Proof.
  induction l as [|[[b1 b2] b3] l IH]; intros n s H R; [reflexivity|]. cbn [length] in *. destruct R as [Hb R].
  assert (Q : forall b, b = b1 \/ b = b2 \/ b = b3 -> b = firstn 64 (skipn (64 * n) p)).
  { intros b Hx. destruct (Hb b Hx) as [Lx Sx]. apply seen_const; [exact Lx|lia|exact Sx]. }
  rewrite (Q b3), (Q b2), (Q b1) by auto. destruct s as [h c]. rewrite cd_readings_cons.
  replace (64 * n + 64)%nat with (64 * S n)%nat in R by lia. rewrite (IH (S n)) by (lia || exact R).
  rewrite (blocks_cons (firstn (64 * S (length l)) _)) by (rewrite firstn_length, skipn_length; lia). rewrite cd_blocks_cons.
  rewrite firstn_firstn, Nat.min_l by lia.
  replace (skipn 64 (firstn (64 * S (length l)) (skipn (64 * n) p))) with (firstn (64 * length l) (skipn (64 * S n) p)).
  - reflexivity.
  - rewrite skipn_firstn_comm, skipn_skipn_n. f_equal; [lia|]. f_equal. lia.
Qed.

(** ** As block functions *)
Definition by_readings (m : input) (len : nat) (d d' : digest) : Prop :=
  exists l, length l = (len / 64)%nat /\ readings m 0 l /\
    d' = mkd (fst (cd_readings go_decide (dh d, dcol d) l)) (dx d) (dnx d) (dlen d) (snd (cd_readings go_decide (dh d, dcol d) l)).
Lemma some_readings_by m len d h c : some_readings m 0 len (dh d, dcol d) (h, c) -> by_readings m len d (mkd h (dx d) (dnx d) (dlen d) c).
Proof. intros (l & L & R & E). exists l. split; [exact L|]. split; [exact R|]. rewrite E. reflexivity. Qed.
Lemma generic_at m len d : wfst (dh d) -> exists d', blockGeneric_at m len d = Some d' /\ by_readings m len d d'.
Proof.
  intros Hd. unfold blockGeneric_at.
  destruct (g_blocks_at_eq m len 0 0 len (dh d) (repeat 0 16) (mkcs st0 st0 st0) (dcol d) (le_n _) Hd (repeat_length _ _)) as ([h c] & E & O).
  rewrite E. cbn [obind]. eexists. split; [reflexivity|]. apply some_readings_by. exact O.
Qed.
Lemma asm_at call m len d : call_ok call -> wfst (dh d) -> exists d', asm_block_at call m len d = Some d' /\ by_readings m len d d'.
Proof.
  intros Hc Hd. unfold asm_block_at.
  destruct (asm_blocks_at_eq call m Hc len 0 0 len (dh d) (repeat 0 80) (mkcs st0 st0 st0) (dcol d) (le_n _) Hd (repeat_length _ _)) as ([h c] & E & O).
  rewrite E. cbn [obind]. eexists. split; [reflexivity|]. apply some_readings_by. exact O.
Qed.
Lemma call_amd64_all e : (forall k, layout_ok (e_lay (e k))) -> call_ok (fun k => call_amd64 amd64_prog upper_mask shuffle_mask (e k)).
Proof. intros H k h p m1 cs Hh Hp Hm. apply call_amd64_ok; auto. Qed.
Lemma call_arm64_all e : (forall k, layout_ok (ae_lay (e k)) /\ ae_g (e k) 16%nat mod M64 + 64 < M64) ->
  call_ok (fun k => call_arm64 arm64_prog sha1Ks (e k)).
Proof. intros H k h p m1 cs Hh Hp Hm. apply call_arm64_ok; auto; apply H. Qed.
Lemma block_at_ok c m len d : wfst (dh d) -> exists d', block_at c m len d = Some d' /\ by_readings m len d d'.
Proof.
  intros Hd. destruct c as [|e ok|e ok]; cbn [block_at].
  - apply generic_at. exact Hd.
  - apply asm_at; [apply call_amd64_all; auto|exact Hd].
  - apply asm_at; [apply call_arm64_all; auto|exact Hd].
Qed.

(** The same for one string of [len] bytes. *)
Definition as_one (m : input) (len : nat) (d d' : digest) : Prop :=
  exists p d1, length p = len /\ seen m 0 p /\ blockGeneric d p = Some d1 /\ dcol d1 = dcol d' /\ (dcol d' = false -> d1 = d').
Lemma by_readings_one m len d d' : wfst (dh d) -> by_readings m len d d' -> as_one m len d d'.
Proof.
  intros Hd (l & L & R & ->). destruct (firsts_spec m go_decide l 0 R) as (L1 & S1 & E). destruct (E (dh d) (dcol d)) as [E1 E2].
  set (n := (64 * length l)%nat) in *.
  assert (Hn : (n <= len)%nat) by (unfold n; rewrite L; apply Nat.mul_div_le; discriminate).
  assert (Hr : (len - n < 64)%nat).
  { unfold n. rewrite L. pose proof (Nat.div_mod len 64 ltac:(discriminate)). pose proof (Nat.mod_upper_bound len 64 ltac:(discriminate)). lia. }
  exists (firsts l ++ bytes_at m 0 n (len - n)). eexists. split; [rewrite app_length, bytes_at_length; lia|].
  split; [apply seen_app; [exact S1|rewrite L1; apply bytes_at_seen]|]. split; [apply blockGeneric_ok; exact Hd|].
  unfold block_result. cbv zeta. rewrite (blocks_app (length l)) by exact L1.
  rewrite (blocks_short (bytes_at _ _ _ _)) by (rewrite bytes_at_length; exact Hr). rewrite app_nil_r. cbn [dcol].
  split; [exact E1|]. intros F. rewrite (E2 F). reflexivity.
Qed.
Lemma by_readings_kept m len d d' : wfst (dh d) -> by_readings m len d d' ->
  wfst (dh d') /\ dx d' = dx d /\ dnx d' = dnx d /\ dlen d' = dlen d /\ (dcol d = true -> dcol d' = true).
Proof.
  intros Hd (l & L & R & ->). cbn [dh dx dnx dlen dcol]. split; [apply cd_readings_wf; exact Hd|]. do 3 (split; [reflexivity|]).
  intros ->. apply cd_readings_sticky.
Qed.
Lemma block_at_one c m len d : wfst (dh d) -> exists d', block_at c m len d = Some d' /\ as_one m len d d'.
Proof. intros Hd. destruct (block_at_ok c m len d Hd) as (d' & E & B). exists d'. split; [exact E|apply by_readings_one; assumption]. Qed.
Lemma block_at_const c p d : wfst (dh d) -> block_at c (fun _ i => nth i p x00) (length p) d = blockGeneric d p.
Proof.
  intros Hd. destruct (block_at_ok c (fun _ i => nth i p x00) (length p) d Hd) as (d' & E & (l & L & R & ->)). rewrite E.
  rewrite blockGeneric_ok by exact Hd. unfold block_result. cbv zeta. pose proof (Nat.mul_div_le (length p) 64 ltac:(discriminate)) as Q.
  rewrite (readings_const go_decide p l 0 (dh d, dcol d)) by (rewrite ?L; assumption || exact R).
  change (64 * 0)%nat with 0%nat. rewrite skipn_O, L. replace (blocks (firstn (64 * (length p / 64)) p)) with (blocks p); [reflexivity|].
  rewrite <- (firstn_skipn (64 * (length p / 64)) p) at 1. rewrite (blocks_app (length p / 64)) by (rewrite firstn_length; lia).
  rewrite (blocks_short (skipn _ _)); [apply app_nil_r|]. rewrite skipn_length.
  pose proof (Nat.div_mod (length p) 64 ltac:(discriminate)). pose proof (Nat.mod_upper_bound (length p) 64 ltac:(discriminate)). lia.
Qed.

(** ** The C code *)
Definition loads (its : list citem) : list nat := flat_map (fun it => match it with CFull FLoad _ _ _ _ _ t => [t] | _ => [] end) its.
Lemma loads_eq : loads comp_states_items = seq 0 16.
Proof. reflexivity. Qed.
Lemma c_items_at cfg m base block : forall its x n,
  (forall j i, nth_error (loads its) j = Some i -> sha1_load_at cfg m (n + j) base i = sha1_load cfg block i) ->
  fold_left (c_item_at cfg m base) its (x, n) = (fold_left (c_item cfg block) its x, (n + length (loads its))%nat).
Proof.
  induction its as [|it its IH]; intros x n H; cbn [fold_left].
  - cbn [loads flat_map length]. rewrite Nat.add_0_r. reflexivity.
  - destruct it as [g i|k a b c d e i].
    + unfold c_item_at at 2. unfold c_item at 2. rewrite IH by exact H. reflexivity.
    + unfold c_item_at at 2. unfold c_item at 2. cbv zeta. destruct k.
      * assert (E := H 0%nat i eq_refl). rewrite Nat.add_0_r in E. rewrite E. rewrite IH.
        -- cbn [loads flat_map app length]. f_equal. unfold loads. lia.
        -- intros j l Hj. specialize (H (S j) l Hj). replace (S n + j)%nat with (n + S j)%nat by lia. exact H.
      * rewrite IH by exact H. reflexivity.
      * rewrite IH by exact H. reflexivity.
Qed.

(** The block as sha1_process reads it: word by word. *)
Definition words_at (m : input) (t base : nat) : list byte := map (fun i => m (t + i / 4)%nat (base + i)%nat) (seq 0 64).
Lemma words_at_length m t base : length (words_at m t base) = 64%nat.
Proof. unfold words_at. rewrite map_length, seq_length. reflexivity. Qed.
Lemma sha1_load_at_eq cfg m t base i : (i < 16)%nat -> sha1_load_at cfg m (t + i) base i = sha1_load cfg (words_at m t base) i.
Proof.
  intros Hi. unfold sha1_load_at, sha1_load. cbv zeta.
  replace (firstn 4 (skipn (4 * i) (words_at m t base))) with (map (fun k => m (t + i)%nat (base + (4 * i + k))%nat) (seq 0 4)); [reflexivity|].
  unfold words_at. do 16 (destruct i as [|i]; [reflexivity|]). lia.
Qed.
Lemma process_at_eq cfg m t base c :
  sha1_process_at cfg m t base c = (do c' <- sha1_process cfg c (words_at m t base); Some (c', (t + 16)%nat)).
Proof.
  unfold sha1_process_at, sha1_process, sha1_compression_states_at, sha1_compression_states. cbv zeta.
  rewrite (c_items_at cfg m base (words_at m t base)).
  - rewrite loads_eq, seq_length. set (x := fold_left _ comp_states_items _).
    generalize dvs_c. intros tb. destruct (truth _); [|reflexivity]. destruct (negb _); [|reflexivity].
    destruct (process_loop _ _ _); reflexivity.
  - intros j i. rewrite loads_eq. intros H.
    assert (J : (j < 16)%nat) by (rewrite <- (seq_length 16 0); apply nth_error_Some; rewrite H; discriminate).
    rewrite (nth_error_nth' (seq 0 16) 0%nat) in H by (rewrite seq_length; exact J). rewrite seq_nth in H by exact J.
    injection H as <-. apply sha1_load_at_eq. exact J.
Qed.

Lemma memcpy_app dst at_ a b : memcpy dst at_ (a ++ b) (length a) = memcpy dst at_ a (length a).
Proof.
  unfold memcpy. rewrite app_length. replace (length a <=? length a + length b)%nat with true by (symmetry; apply Nat.leb_le; lia).
  rewrite Nat.leb_refl. rewrite firstn_app, Nat.sub_diag, firstn_O, app_nil_r. reflexivity.
Qed.
Lemma memcpy_app_n dst at_ a b n : length a = n -> memcpy dst at_ (a ++ b) n = memcpy dst at_ a n.
Proof. intros <-. apply memcpy_app. Qed.

Lemma update_loop_at_eq cfg m : forall fuel t base len c,
  exists buf, length buf = len /\ seen m base buf /\
    update_loop fuel cfg c buf =
    match update_loop_at fuel cfg m t base len c with Some (c', t', base', len') => Some (c', bytes_at m t' base' len') | None => None end.
Proof.
  induction fuel as [|fuel IH]; intros t base len c.
  - exists (bytes_at m t base len). rewrite bytes_at_length. split; [reflexivity|]. split; [apply bytes_at_seen|].
    cbn [update_loop update_loop_at]. rewrite bytes_at_length. destruct (len <? 64)%nat; reflexivity.
  - cbn [update_loop_at]. destruct (Nat.ltb_spec len 64) as [L|L].
    + exists (bytes_at m t base len). rewrite bytes_at_length. split; [reflexivity|]. split; [apply bytes_at_seen|].
      cbn [update_loop]. rewrite bytes_at_length. destruct (Nat.ltb_spec len 64); [reflexivity|lia].
    + set (blk := if unaligned cfg then words_at m t base else bytes_at m t base 64).
      assert (Lb : length blk = 64%nat) by (unfold blk; destruct (unaligned cfg); [apply words_at_length|apply bytes_at_length]).
      assert (Sb : seen m base blk).
      { unfold blk. destruct (unaligned cfg); [apply (seen_map m base (fun i => (t + i / 4)%nat))|apply bytes_at_seen]. }
      cbv zeta. set (c1 := set_total (add64 (c_total c) 64) c).
      match goal with |- context [obind ?X _] => set (P := X) end.
      assert (EP : forall buf, (if unaligned cfg then sha1_process cfg c1 (firstn 64 (blk ++ buf))
                     else do b <- memcpy (c_buffer c1) 0 (blk ++ buf) 64; let c := set_buffer b c1 in sha1_process cfg c (c_buffer c))
                   = match P with Some (c', _) => Some c' | None => None end).
      { intros buf. unfold P. unfold blk in *. destruct (unaligned cfg).
        - rewrite process_at_eq. rewrite firstn_app, Lb, Nat.sub_diag, firstn_O, app_nil_r, firstn_all2 by lia.
          destruct (sha1_process _ _ _); reflexivity.
        - rewrite <- Lb at 2. rewrite memcpy_app, Lb. destruct (memcpy _ _ _ _) as [b|]; [|reflexivity]. cbn [obind].
          destruct (sha1_process _ _ _); reflexivity. }
      assert (St : forall buf, length buf = (len - 64)%nat -> update_loop (S fuel) cfg c (blk ++ buf) =
                    (do c <- match P with Some (c', _) => Some c' | None => None end; update_loop fuel cfg c buf)).
      { intros buf Hb. cbn [update_loop]. rewrite app_length, Lb. destruct (Nat.ltb_spec (64 + length buf) 64); [lia|]. cbv zeta. fold c1.
        rewrite EP. rewrite skipn_app, Lb, Nat.sub_diag, skipn_O, skipn_all2 by lia. reflexivity. }
      destruct P as [[c2 t2]|].
      * destruct (IH t2 (base + 64)%nat (len - 64)%nat c2) as (buf & L1 & S1 & E1). exists (blk ++ buf).
        split; [rewrite app_length; lia|]. split; [apply seen_app; [exact Sb|rewrite Lb; exact S1]|].
        rewrite St by exact L1. cbn [obind]. exact E1.
      * exists (blk ++ bytes_at m 0 (base + 64) (len - 64)). split; [rewrite app_length, bytes_at_length; lia|].
        split; [apply seen_app; [exact Sb|rewrite Lb; apply bytes_at_seen]|].
        rewrite St by apply bytes_at_length. reflexivity.
Qed.

Lemma update_at_eq cfg m len c : exists buf, length buf = len /\ seen m 0 buf /\ SHA1DCUpdate cfg c buf = SHA1DCUpdate_at cfg m len c.
Proof.
  unfold SHA1DCUpdate_at. destruct (Nat.eqb_spec len 0) as [->|N0].
  { exists []. split; [reflexivity|]. split; [intros i Hi; inversion Hi|reflexivity]. }
  cbv zeta. set (left := N.to_nat (N.land (c_total c) 63)). set (fill := (64 - left)%nat).
  assert (Rest : forall c t base l lf, exists buf, length buf = l /\ seen m base buf /\
    (do (c, buf) <- update_loop (length buf) cfg c buf;
     if (0 <? length buf)%nat then
       let c := set_total (add64 (c_total c) (N.of_nat (length buf))) c in
       do b <- memcpy (c_buffer c) lf buf (length buf); Some (set_buffer b c) else Some c)
    = (do (c, t, base, len) <- update_loop_at l cfg m t base l c;
       if (0 <? len)%nat then
         let c := set_total (add64 (c_total c) (N.of_nat len)) c in
         do b <- memcpy (c_buffer c) lf (bytes_at m t base len) len; Some (set_buffer b c) else Some c)).
  { intros c0 t base l lf. destruct (update_loop_at_eq cfg m l t base l c0) as (buf & L & S & E). exists buf. split; [exact L|]. split; [exact S|].
    rewrite L, E. destruct (update_loop_at _ _ _ _ _ _ _) as [[[[c1 t1] b1] l1]|]; [|reflexivity]. cbn [obind]. rewrite bytes_at_length. reflexivity. }
  destruct (negb (left =? 0)%nat && (fill <=? len)%nat)%bool eqn:B.
  - apply andb_true_iff in B. destruct B as [B1 B2]. apply Nat.leb_le in B2.
    set (c1 := set_total (add64 (c_total c) (N.of_nat fill)) c).
    set (f := bytes_at m 0 0 fill). assert (Lf : length f = fill) by apply bytes_at_length.
    assert (Pre : forall buf, length buf = (len - fill)%nat -> SHA1DCUpdate cfg c (f ++ buf) =
      (do (c, buf, lf) <- (do b <- memcpy (c_buffer c1) left f fill; let c := set_buffer b c1 in
          do c <- sha1_process cfg c (c_buffer c); Some (c, buf, 0%nat));
       do (c, buf) <- update_loop (length buf) cfg c buf;
       if (0 <? length buf)%nat then
         let c := set_total (add64 (c_total c) (N.of_nat (length buf))) c in
         do b <- memcpy (c_buffer c) lf buf (length buf); Some (set_buffer b c) else Some c)).
    { intros buf Hb. unfold SHA1DCUpdate. assert (La : length (f ++ buf) = len) by (rewrite app_length; lia). rewrite La.
      destruct (Nat.eqb_spec len 0); [lia|]. cbv zeta. fold left fill c1. rewrite B1. apply Nat.leb_le in B2. rewrite B2. cbn [andb].
      rewrite (memcpy_app_n (c_buffer c1) left f buf fill Lf). rewrite skipn_app, Lf, Nat.sub_diag, skipn_O, skipn_all2 by lia. reflexivity. }
    destruct (memcpy (c_buffer c1) left f fill) as [b|] eqn:Em; cbn [obind] in *.
    + destruct (sha1_process cfg (set_buffer b c1) (c_buffer (set_buffer b c1))) as [c2|]; cbn [obind] in *.
      * destruct (Rest c2 fill fill (len - fill)%nat 0%nat) as (buf & L & S & E). exists (f ++ buf).
        split; [rewrite app_length; lia|]. split; [apply seen_app; [apply bytes_at_seen|rewrite Lf; exact S]|].
        rewrite Pre by exact L. exact E.
      * exists (f ++ bytes_at m 0 fill (len - fill)). split; [rewrite app_length, bytes_at_length; lia|].
        split; [apply seen_app; [apply bytes_at_seen|rewrite Lf; apply bytes_at_seen]|]. apply Pre. apply bytes_at_length.
    + exists (f ++ bytes_at m 0 fill (len - fill)). split; [rewrite app_length, bytes_at_length; lia|].
      split; [apply seen_app; [apply bytes_at_seen|rewrite Lf; apply bytes_at_seen]|]. apply Pre. apply bytes_at_length.
  - cbn [obind]. destruct (Rest c 0%nat 0%nat len left) as (buf & L & S & E). exists buf. split; [exact L|]. split; [exact S|].
    unfold SHA1DCUpdate. rewrite L. destruct (Nat.eqb_spec len 0); [lia|]. cbv zeta. fold left fill. rewrite B. cbn [obind]. rewrite L in E |- *. exact E.
Qed.

Lemma update_at_const cfg p c : SHA1DCUpdate_at cfg (fun _ i => nth i p x00) (length p) c = SHA1DCUpdate cfg c p.
Proof.
  destruct (update_at_eq cfg (fun _ i => nth i p x00) (length p) c) as (buf & L & S & <-). f_equal.
  apply (nth_ext _ _ x00 x00); [exact L|]. intros i Hi. destruct (S i Hi) as (t & ->). reflexivity.
Qed.
