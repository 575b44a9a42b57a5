(** Programs that hash and store into the table of disturbance vectors between the calls. *)

From Coq Require Import Arith NArith List Strings.Byte Lia Bool ZifyNat.
From Verif Require Import Word WordFacts Spec_Sha1 Sha1Facts Spec_DV Spec_Cd Spec_Api Spec_Marks DvFacts Model_Ubc Gen_DvsGo Model_Go Model_Table Model_Api Model_Program GoCheck GoBlock GoApi GoStore GoTable.
Import ListNotations.
Local Open Scope N_scope.
Ltac Zify.zify_post_hook ::= idtac.

(** ** Blocks with marks *)
(** [Q]: which marks occur. *)
Definition reach (Q : bool -> Prop) (s : st * bool) (bs : list (list byte)) (r : st * bool) : Prop :=
  exists l, map fst l = bs /\ fst r = marked (fst s) l /\ snd r = (snd s || existsb snd l)%bool /\ Forall (fun x => Q (snd x)) l.
Lemma marked_app h l l' : marked h (l ++ l') = marked (marked h l) l'.
Proof. apply fold_left_app. Qed.
Lemma wfst_marked l : forall h, wfst h -> wfst (marked h l).
Proof. induction l as [|x l IH]; intros h Hh; [exact Hh|]. apply IH. cbv zeta. destruct (snd x); auto with wf. Qed.
Lemma reach_nil Q s : reach Q s [] s.
Proof. exists []. split; [reflexivity|]. split; [reflexivity|]. split; [symmetry; apply orb_false_r|constructor]. Qed.
Lemma reach_app Q s a r b q : reach Q s a r -> reach Q r b q -> reach Q s (a ++ b) q.
Proof.
  intros (l & <- & E1 & E2 & E3) (k & <- & F1 & F2 & F3). exists (l ++ k). split; [apply map_app|].
  split; [rewrite marked_app, <- E1; exact F1|]. split; [rewrite existsb_app, F2, E2, orb_assoc; reflexivity|]. apply Forall_app. auto.
Qed.
Lemma reach_wf Q s bs r : reach Q s bs r -> wfst (fst s) -> wfst (fst r).
Proof. intros (l & _ & -> & _). apply wfst_marked. Qed.
Lemma reach_cd (Q : bool -> Prop) D bs : (forall h M, Q (D h M)) -> forall s, reach Q s bs (cd_blocks D s bs).
Proof.
  intros HQ. induction bs as [|b bs IH]; intros s; [apply reach_nil|]. rewrite cd_blocks_cons.
  change (b :: bs) with ([b] ++ bs) at 1. eapply reach_app; [|apply IH].
  exists [(b, D (fst s) (words_of b))]. split; [reflexivity|]. split; [reflexivity|]. cbn [existsb snd fst]. rewrite orb_false_r. split; [reflexivity|].
  constructor; [apply HQ|constructor].
Qed.

(** ** The hasher, for a block function that marks blocks in any way *)
Definition Held (Q : bool -> Prop) (s : st * bool) (L0 : N) (all : list byte) (d : digest) : Prop :=
  exists A k, length A = (64 * k)%nat /\ all = A ++ firstn (dnx d) (dx d) /\
    (dnx d < 64)%nat /\ length (dx d) = 64%nat /\ wfst (fst s) /\
    reach Q s (blocks A) (dh d, dcol d) /\ L0 mod 64 = 0 /\ dlen d = (L0 + N.of_nat (length all)) mod M64.
Definition block_marks (Q : bool -> Prop) (blk : blockfn) : Prop := forall d p d', wfst (dh d) -> blk d p = Some d' ->
  exists r, reach Q (dh d, dcol d) (blocks p) r /\ d' = mkd (fst r) (dx d) (dnx d) (dlen d) (snd r).

Lemma table_marks_in (Q : bool -> Prop) T : (forall h M, Q (table_decides T h M)) -> block_marks Q (blockGeneric_in T).
Proof.
  intros HQ d p d' Hd. unfold blockGeneric_in. destruct (g_blocks_in _ _ _ _ _ _ _) as [[h c]|] eqn:E; [|discriminate].
  apply blocks_in_some in E; auto using repeat_length. cbn [obind]. intros X. injection X as <-.
  exists (h, c). split; [|reflexivity]. rewrite E. apply reach_cd. exact HQ.
Qed.
Lemma table_marks T : block_marks (fun _ => True) (blockGeneric_in T).
Proof. apply table_marks_in. auto. Qed.

Lemma slice_from_some {A} (l : list A) n r : slice_from l n = Some r -> (n <= length l)%nat /\ r = skipn n l.
Proof. unfold slice_from. destruct (Nat.leb_spec n (length l)); [|discriminate]. intros X. injection X as <-. auto. Qed.
Lemma slice_to_some {A} (l : list A) n r : slice_to l n = Some r -> (n <= length l)%nat /\ r = firstn n l.
Proof. unfold slice_to. destruct (Nat.leb_spec n (length l)); [|discriminate]. intros X. injection X as <-. auto. Qed.

Lemma Held_wf Q s L0 all d : Held Q s L0 all d -> wfst (dh d).
Proof. intros (A & k & _ & _ & _ & _ & W & E & _). exact (reach_wf _ _ _ _ E W). Qed.
Lemma Held_dx Q s L0 all d : Held Q s L0 all d -> length (dx d) = 64%nat.
Proof. intros (A & k & _ & _ & _ & H & _). exact H. Qed.
Lemma Held_reset Q d : length (dx d) = 64%nat -> Held Q (IV, false) 0 [] (Reset d).
Proof.
  intros H. exists [], 0%nat. unfold Reset. cbn [dnx dx dh dcol dlen fst]. split; [reflexivity|]. split; [reflexivity|]. split; [lia|]. split; [exact H|].
  split; [repeat split; reflexivity|]. split; [apply reach_nil|]. split; reflexivity.
Qed.

Lemma some2 {A B} (a c : A) (b d : B) : Some (a, b) = Some (c, d) -> a = c /\ b = d.
Proof. intros H. injection H. auto. Qed.

Section Blk.
  Variable Q : bool -> Prop.
  Variable blk : blockfn.
  Hypothesis Hblk : block_marks Q blk.

  Lemma rest_marks s L0 A k p d d' :
    length A = (64 * k)%nat -> dnx d = 0%nat -> length (dx d) = 64%nat -> wfst (fst s) ->
    reach Q s (blocks A) (dh d, dcol d) -> L0 mod 64 = 0 -> dlen d = (L0 + N.of_nat (length (A ++ p))) mod M64 ->
    write_rest blk d p = Some d' -> Held Q s L0 (A ++ p) d'.
  Proof.
    intros HA Hnx Hx Ws E H0 Hlen. unfold write_rest.
    assert (Wd : wfst (dh d)) by exact (reach_wf _ _ _ _ E Ws).
    destruct (write_blocks blk d p) as [[d1 p1]|] eqn:EB; [|discriminate]. cbn [obind].
    assert (Hmid : exists q j, p = q ++ p1 /\ length q = (64 * j)%nat /\ (length p1 < 64)%nat /\
       dnx d1 = 0%nat /\ length (dx d1) = 64%nat /\ dlen d1 = dlen d /\ reach Q s (blocks (A ++ q)) (dh d1, dcol d1)).
    { revert EB. unfold write_blocks. destruct (Nat.leb_spec 64 (length p)).
      - cbv zeta. change (64 - 1)%nat with 63%nat. rewrite ldiff63.
        assert (Hle : (64 * (length p / 64) <= length p)%nat) by (apply Nat.mul_div_le; discriminate).
        assert (Hlt : (length p < 64 * (length p / 64) + 64)%nat).
        { pose proof (Nat.div_mod (length p) 64 ltac:(discriminate)).
          pose proof (Nat.mod_upper_bound (length p) 64 ltac:(discriminate)). lia. }
        rewrite slice_to_ok by assumption. cbn [obind].
        destruct (blk d (firstn (64 * (length p / 64)) p)) as [d2|] eqn:EK; [|discriminate]. cbn [obind].
        rewrite slice_from_ok by assumption. cbn [obind]. intros X. apply some2 in X. destruct X as [<- <-].
        apply Hblk in EK; [|exact Wd]. destruct EK as (r & Hr & ->).
        exists (firstn (64 * (length p / 64)) p), (length p / 64)%nat.
        split; [symmetry; apply firstn_skipn|]. rewrite firstn_length, skipn_length.
        split; [lia|]. split; [lia|]. cbn [dnx dx dlen dh dcol]. repeat (split; [assumption || reflexivity|]).
        rewrite (blocks_app k) by assumption. destruct r. exact (reach_app _ _ _ _ _ _ E Hr).
      - intros X. apply some2 in X. destruct X as [<- <-]. exists [], 0%nat. rewrite app_nil_r. auto 10. }
    destruct Hmid as (q & j & -> & Hq & Hp1 & Hnx1 & Hx1 & Hlen1 & Ed1).
    intros X. injection X as <-.
    destruct (Nat.ltb_spec 0 (length p1)) as [Hpos|Hz].
    - cbv beta iota zeta delta [copy_at]. cbn [firstn app Nat.add]. rewrite Hx1.
      replace (Nat.min (64 - 0) (length p1)) with (length p1) by lia.
      exists (A ++ q), (k + j)%nat. cbn [dnx dx dlen dh dcol].
      rewrite firstn_all. split; [rewrite app_length; lia|].
      split.
      { rewrite firstn_app, Nat.sub_diag, firstn_O, app_nil_r, firstn_all, <- app_assoc. reflexivity. }
      split; [assumption|]. split; [rewrite app_length, skipn_length; lia|].
      split; [assumption|]. split; [assumption|]. split; [assumption|]. congruence.
    - assert (p1 = []) as -> by (destruct p1; [reflexivity|simpl in Hz; lia]).
      rewrite app_nil_r in *. exists (A ++ q), (k + j)%nat. rewrite Hnx1, firstn_O, app_nil_r.
      split; [rewrite app_length; lia|]. split; [reflexivity|]. split; [lia|].
      split; [assumption|]. split; [assumption|]. split; [assumption|]. split; [assumption|]. congruence.
  Qed.

  Lemma Write_marks s L0 all d p d' n : Held Q s L0 all d -> Write blk d p = Some (d', n) -> n = length p /\ Held Q s L0 (all ++ p) d'.
  Proof.
    intros R. destruct p as [|c p'] eqn:Ep.
    { intros X. apply some2 in X. destruct X as [<- <-]. rewrite app_nil_r. split; [reflexivity|assumption]. }
    rewrite <- Ep. assert (Hp : p <> []) by (rewrite Ep; discriminate). clear Ep c p'.
    rewrite Write_unfold by assumption. cbv zeta.
    pose proof (Held_wf _ _ _ _ _ R) as Wd.
    destruct R as (A & k & HA & Hall & Hnx & Hx & Ws & E & H0 & Hlen).
    cbn [dnx dx dlen dh dcol].
    assert (Hlen' : (dlen d + N.of_nat (length p)) mod M64 = (L0 + N.of_nat (length (all ++ p))) mod M64).
    { rewrite Hlen, app_length, Nat2N.inj_add, N.add_mod_idemp_l by discriminate. f_equal. nlia. }
    destruct (Nat.ltb_spec 0 (dnx d)) as [Hpos|Hz].
    - rewrite slice_from_ok by nlia. cbn [obind].
      pose proof (copy_at_length (dx d) (dnx d) p ltac:(nlia)) as Lx.
      pose proof (copy_at_prefix (dx d) (dnx d) p ltac:(nlia)) as Px. cbv zeta in Px.
      set (m := Nat.min (length (dx d) - dnx d) (length p)) in *.
      assert (Hn1 : (m <= length p)%nat) by apply Nat.le_min_r.
      assert (Hn2 : (dnx d + m <= 64)%nat) by nlia.
      assert (Hn3 : (dnx d + m <> 64)%nat -> m = length p) by nlia.
      assert (Ec : copy_at (dx d) (dnx d) p = (fst (copy_at (dx d) (dnx d) p), m)) by reflexivity.
      rewrite Ec. clear Ec. clearbody m. set (x' := fst (copy_at (dx d) (dnx d) p)) in *. cbn [dnx dx dlen dh dcol].
      destruct (Nat.eqb_spec (dnx d + m) 64) as [H64|H64].
      + match goal with |- context [blk ?a ?b] => destruct (blk a b) as [d2|] eqn:EK end; [|discriminate]. cbn [obind].
        apply Hblk in EK; [|exact Wd]. destruct EK as (r & Hr & ->). cbn [dnx dx dlen dh dcol] in Hr |- *.
        rewrite slice_from_ok by nlia. cbn [obind].
        assert (Hx' : x' = firstn (dnx d) (dx d) ++ firstn m p).
        { rewrite <- Px, H64. symmetry. apply firstn_all2. nlia. }
        assert (Lx' : length x' = 64%nat) by nlia.
        replace (all ++ p) with ((A ++ x') ++ skipn m p).
        2:{ rewrite Hx', Hall, <- !app_assoc. do 2 f_equal. apply firstn_skipn. }
        destruct (write_rest blk _ _) as [d3|] eqn:EW; [|discriminate]. cbn [obind]. intros X. apply some2 in X. destruct X as [<- <-]. split; [reflexivity|].
        refine (rest_marks s L0 (A ++ x') (k + 1) _ _ _ _ _ _ Ws _ H0 _ EW); cbn [dnx dx dlen dh dcol]; auto.
        * rewrite app_length. nlia.
        * rewrite (blocks_app k) by assumption. destruct r. exact (reach_app _ _ _ _ _ _ E Hr).
        * rewrite Hlen'. do 3 f_equal. rewrite Hall, <- !app_assoc. rewrite !app_length, Lx', skipn_length, firstn_length, Hx. nlia.
      + cbn [obind]. assert (Hn : m = length p) by auto.
        rewrite slice_from_ok by nlia. cbn [obind]. rewrite Hn, skipn_all, write_rest_short. cbn [obind].
        intros X. apply some2 in X. destruct X as [<- <-]. split; [reflexivity|].
        exists A, k. cbn [dnx dx dlen dh dcol].
        split; [assumption|]. split.
        { rewrite <- Hn, Px, Hn, firstn_all, Hall, app_assoc. reflexivity. }
        split; [nlia|]. split; [nlia|]. split; [assumption|]. split; [assumption|]. split; assumption.
    - cbn [obind]. assert (Hnx0 : dnx d = 0%nat) by nlia.
      rewrite Hnx0, firstn_O, app_nil_r in Hall. subst all.
      destruct (write_rest blk _ _) as [d3|] eqn:EW; [|discriminate]. cbn [obind]. intros X. apply some2 in X. destruct X as [<- <-]. split; [reflexivity|].
      refine (rest_marks s L0 A k _ _ _ HA _ _ Ws _ H0 _ EW); cbn [dnx dx dlen dh dcol]; auto.
  Qed.

  (** checkSum writes the padding. *)
  Lemma checkSum_eq d : dlen d < M64 -> checkSum blk d =
    (do (d', _) <- Write blk d (padding (dlen d)); if negb (dnx d' =? 0)%nat then None else Some (d', st_bytes (dh d'))).
  Proof.
    intros Hlt. pose proof (padding_len (dlen d) Hlt) as Hpl.
    unfold checkSum. set (t := if dlen d mod 64 <? 56 then _ else _) in *.
    pose proof (N.mod_upper_bound (dlen d) 64 ltac:(discriminate)) as Hr.
    assert (Ht : 1 <= t <= 64).
    { unfold t. destruct (N.ltb_spec (dlen d mod 64) 56); lia. }
    set (tn := N.to_nat t) in *. assert (Htn : (1 <= tn <= 64)%nat) by lia.
    rewrite slice_to_ok by (cbn [length]; rewrite repeat_length; lia). cbn [obind].
    rewrite slice_from_ok by (cbn [length]; rewrite repeat_length; lia). cbn [obind].
    rewrite slice_from_ok by (rewrite skipn_length; cbn [length]; rewrite repeat_length; lia). cbn [obind].
    assert (Epl : firstn (tn + 8) (firstn tn (x80 :: repeat x00 71) ++ appendUint64 (shl64 (dlen d) 3) ++
        skipn 8 (skipn tn (x80 :: repeat x00 71))) = padding (dlen d)).
    { rewrite app_assoc, firstn_app.
      rewrite firstn_all2 by (rewrite app_length, firstn_length; change (length (appendUint64 _)) with 8%nat; lia).
      rewrite app_length, firstn_length. cbn [length]. rewrite repeat_length.
      change (length (appendUint64 _)) with 8%nat.
      replace (tn + 8 - (Nat.min tn 72 + 8))%nat with 0%nat by lia. rewrite firstn_O, app_nil_r.
      rewrite shl64_3, appendUint64_be64. unfold padding. rewrite app_assoc. f_equal.
      assert (Hz : pad_zeros (dlen d) = (tn - 1)%nat).
      { unfold padding, zeros in Hpl. rewrite !app_length, repeat_length in Hpl.
        change (length [x80]) with 1%nat in Hpl. change (length (be64 _)) with 8%nat in Hpl. lia. }
      rewrite Hz. destruct tn as [|m]; [lia|]. cbn [firstn]. rewrite Nat.sub_succ, Nat.sub_0_r.
      cbn [app]. f_equal. unfold zeros. replace 71%nat with (m + (71 - m))%nat by lia.
      rewrite repeat_app, firstn_app, repeat_length, Nat.sub_diag, firstn_O, app_nil_r.
      apply firstn_all2. rewrite repeat_length. lia. }
    rewrite Epl. clear. destruct (Write blk d (padding (dlen d))) as [[d' n]|]; cbn [obind]; [|reflexivity].
    rewrite !appendUint32_be32. reflexivity.
  Qed.
  Lemma checkSum_marks s all d d' hash : Held Q s 0 all d -> checkSum blk d = Some (d', hash) ->
    exists r, reach Q s (blocks (all ++ padding (N.of_nat (length all)))) r /\ hash = st_bytes (fst r) /\ dcol d' = snd r.
  Proof.
    intros R. assert (Hlen : dlen d = N.of_nat (length all) mod M64).
    { destruct R as (A & k & _ & _ & _ & _ & _ & _ & _ & H). exact H. }
    assert (Hlt : dlen d < M64) by (rewrite Hlen; apply N.mod_upper_bound; discriminate).
    rewrite checkSum_eq by exact Hlt. destruct (Write blk d (padding (dlen d))) as [[d1 n]|] eqn:W; [|discriminate]. cbn [obind].
    apply (Write_marks s 0 all) in W; [|exact R]. destruct W as [_ W]. rewrite Hlen, padding_mod in W.
    destruct (Nat.eqb_spec (dnx d1) 0) as [Z|Z]; cbn [negb]; [|discriminate]. intros X. apply some2 in X. destruct X as [<- <-].
    destruct W as (A & k & HA & Hall & _ & _ & _ & E & _ & _). rewrite Z, firstn_O, app_nil_r in Hall. rewrite Hall.
    exists (dh d1, dcol d1). auto.
  Qed.
End Blk.

(** ** Programs *)
Lemma nth_error_upd {A} (v : A) : forall l i j, nth_error (upd i v l) j =
  if (i =? j)%nat then match nth_error l i with Some _ => Some v | None => None end else nth_error l j.
Proof.
  induction l as [|x l IH]; intros [|i] [|j]; cbn [upd nth_error Nat.eqb]; try reflexivity.
  - destruct (i =? j)%nat; reflexivity.
  - apply IH.
Qed.

(** What is known about a hasher, given the bytes written to it so far. *)
Definition known (Q : bool -> Prop) (w : option (list byte)) (d : digest) : Prop :=
  (exists s L0 all, Held Q s L0 all d) /\ forall m, w = Some m -> Held Q (IV, false) 0 m d.
Definition all_known (Q : bool -> Prop) (w : nat -> option (list byte)) (ds : list digest) : Prop :=
  (forall i d, nth_error ds i = Some d -> known Q (w i) d) /\ (forall i, nth_error ds i = None -> w i = Some []).

Lemma known_held Q m d : Held Q (IV, false) 0 m d -> known Q (Some m) d.
Proof. intros H. split; [eauto|]. intros m' X. injection X as <-. exact H. Qed.
Lemma known_dx Q w d : known Q w d -> length (dx d) = 64%nat.
Proof. intros [(s & L0 & all & H) _]. exact (Held_dx _ _ _ _ _ H). Qed.
Lemma all_known_upd Q w w' ds i d0 d : all_known Q w ds -> nth_error ds i = Some d0 -> known Q (w' i) d -> (forall j, j <> i -> w' j = w j) ->
  all_known Q w' (upd i d ds).
Proof.
  intros [H1 H2] E K N. split; intros j; rewrite nth_error_upd.
  - destruct (Nat.eqb_spec i j) as [<-|X].
    + rewrite E. intros d' Y. injection Y as <-. exact K.
    + rewrite N by congruence. apply H1.
  - destruct (Nat.eqb_spec i j) as [<-|X]; [rewrite E; discriminate|]. rewrite N by congruence. apply H2.
Qed.
Lemma Held_unmarshal Q c b : length b = 98%nat ->
  Held Q (blob_st b, c) (blob_len b - blob_len b mod 64) (firstn (N.to_nat (blob_len b mod 64)) (blob_buf b))
      (mkd (blob_st b) (blob_buf b) (N.to_nat (blob_len b mod 64)) (blob_len b) c).
Proof.
  intros Hb. pose proof (N.mod_upper_bound (blob_len b) 64 ltac:(discriminate)) as Hr.
  assert (Lb : length (blob_buf b) = 64%nat) by (apply sub_length; lia).
  exists [], 0%nat. cbn [dnx dx dlen dh dcol fst app]. split; [reflexivity|]. split; [reflexivity|]. split; [lia|]. split; [exact Lb|].
  split; [apply blob_st_wf; assumption|]. split; [apply reach_nil|].
  split.
  { pose proof (N.div_mod (blob_len b) 64 ltac:(discriminate)) as Hd.
    replace (blob_len b - blob_len b mod 64) with (blob_len b / 64 * 64) by lia. apply N.mod_mul. discriminate. }
  rewrite firstn_length, Lb, Nat.min_l, N2Nat.id by lia.
  pose proof (blob_len_lt b Hb) as Hl.
  replace (blob_len b - blob_len b mod 64 + blob_len b mod 64) with (blob_len b).
  - symmetry. apply N.mod_small. exact Hl.
  - pose proof (N.mod_le (blob_len b) 64 ltac:(discriminate)) as Hm. lia.
Qed.

(** What the result of a call says, given the bytes written to each hasher. *)
Definition says (Q : bool -> Prop) (early : bool) (w : nat -> option (list byte)) (o : op) (r : res) : Prop :=
  match o with
  | OWrite _ p => r = RNum (length p)
  | OSum i inp => forall m, w i = Some m -> exists l, marks m l /\ Forall (fun x => Q (snd x)) l /\ r = RBytes (inp ++ st_bytes (marked IV l))
  | OCRSum i inp => forall m, w i = Some m ->
      exists l, marks m l /\ Forall (fun x => Q (snd x)) l /\ r = RVerdict (inp ++ st_bytes (marked IV l)) (existsb snd l)
  | OSumPkg m => early = false -> exists l, marks m l /\ Forall (fun x => Q (snd x)) l /\ r = RVerdict (st_bytes (marked IV l)) (existsb snd l)
  | _ => True
  end.

Lemma checkSum_says Q blk m d d' hash : block_marks Q blk -> Held Q (IV, false) 0 m d -> checkSum blk d = Some (d', hash) ->
  exists l, marks m l /\ Forall (fun x => Q (snd x)) l /\ hash = st_bytes (marked IV l) /\ dcol d' = existsb snd l.
Proof.
  intros Hb R E. destruct (checkSum_marks Q blk Hb _ _ _ _ _ R E) as (r & (l & E1 & E2 & E3 & E3') & E4 & E5).
  exists l. split; [exact E1|]. split; [exact E3'|]. split; [rewrite E4, E2; reflexivity|]. rewrite E5, E3. reflexivity.
Qed.

Lemma exec_marks Q early blk w ds o ds' r : block_marks Q blk -> all_known Q w ds -> exec early blk ds o = Some (ds', r) ->
  all_known Q (fun i => written_step i (w i) o) ds' /\ says Q early w o r.
Proof.
  intros Hb HA. pose proof HA as [H1 H2]. destruct o as [|i p|i inp|i inp|i|i|i b|i|i|m]; cbn [exec];
    try (destruct (nth_error ds i) as [d|] eqn:E; [cbn [obind]; pose proof (H1 i d E) as K|discriminate]).
  - intros X. apply some2 in X. destruct X as [<- <-]. split; [|exact I]. split; intros i.
    + cbn [written_step]. intros d. destruct (Nat.lt_ge_cases i (length ds)) as [L|L].
      * rewrite nth_error_app1 by exact L. apply H1.
      * rewrite nth_error_app2 by exact L. intros X.
        assert (Z : d = New) by (destruct (i - length ds)%nat as [|[|?]]; cbn in X; congruence). rewrite Z.
        rewrite H2 by (apply nth_error_None; exact L). apply known_held. apply Held_reset. apply repeat_length.
    + cbn [written_step]. intros X. apply H2. apply nth_error_None. apply nth_error_None in X. rewrite app_length in X. lia.
  - destruct (Write blk d p) as [[d1 n]|] eqn:W; [|discriminate]. cbn [obind]. intros X. apply some2 in X. destruct X as [<- <-].
    destruct K as [(s & L0 & all & K0) K1]. destruct (Write_marks Q blk Hb _ _ _ _ _ _ _ K0 W) as [-> K0'].
    split; [|reflexivity]. apply (all_known_upd Q w _ ds i d); [exact HA|exact E| |].
    + cbn [written_step]. rewrite Nat.eqb_refl. split; [eauto|]. destruct (w i) as [m|]; [|discriminate]. intros m' Y. injection Y as <-.
      apply (Write_marks Q blk Hb _ _ _ _ _ _ _ (K1 m eq_refl) W).
    + intros j J. cbn [written_step]. apply Nat.eqb_neq in J. rewrite J. reflexivity.
  - unfold Sum. destruct (checkSum blk d) as [[d1 hash]|] eqn:W; [|discriminate]. cbn [obind]. intros X. apply some2 in X. destruct X as [<- <-].
    split; [exact HA|]. intros m Hm. destruct (checkSum_says Q blk m d d1 hash Hb (proj2 K m Hm) W) as (l & Y1 & Y4 & Y2 & Y3).
    exists l. split; [exact Y1|]. split; [exact Y4|]. rewrite Y2. reflexivity.
  - unfold CollisionResistantSum. destruct (checkSum blk d) as [[d1 hash]|] eqn:W; [|discriminate]. cbn [obind].
    intros X. apply some2 in X. destruct X as [<- <-].
    split; [exact HA|]. intros m Hm. destruct (checkSum_says Q blk m d d1 hash Hb (proj2 K m Hm) W) as (l & Y1 & Y4 & Y2 & Y3).
    exists l. split; [exact Y1|]. split; [exact Y4|]. rewrite Y2, Y3. reflexivity.
  - intros X. apply some2 in X. destruct X as [<- <-]. split; [|exact I]. apply (all_known_upd Q w _ ds i d); [exact HA|exact E| |].
    + cbn [written_step]. rewrite Nat.eqb_refl. apply known_held. apply Held_reset. exact (known_dx _ _ _ K).
    + intros j J. cbn [written_step]. apply Nat.eqb_neq in J. rewrite J. reflexivity.
  - destruct (MarshalBinary d); [|discriminate]. cbn [obind]. intros X. apply some2 in X. destruct X as [<- <-]. split; [exact HA|exact I].
  - rewrite Unmarshal_eq by exact (known_dx _ _ _ K). cbn [obind].
    assert (Acc : accepted b = (has_magic b && (length b =? 98)%nat)%bool) by reflexivity.
    destruct (has_magic b) eqn:M; cbn [negb andb] in *.
    + destruct (Nat.eqb_spec (length b) 98) as [L|L]; cbn [negb] in *.
      * intros X. apply some2 in X. destruct X as [<- _]. split; [|exact I]. apply (all_known_upd Q w _ ds i d); [exact HA|exact E| |].
        -- cbn [written_step]. rewrite Nat.eqb_refl, Acc. cbn [andb]. split; [|discriminate].
           do 3 eexists. apply Held_unmarshal. exact L.
        -- intros j J. cbn [written_step]. apply Nat.eqb_neq in J. rewrite J. reflexivity.
      * intros X. apply some2 in X. destruct X as [<- _]. split; [|exact I]. apply (all_known_upd Q w _ ds i d); [exact HA|exact E| |].
        -- cbn [written_step]. rewrite Acc, andb_false_r. exact K.
        -- intros j J. cbn [written_step]. rewrite Acc, andb_false_r. reflexivity.
    + intros X. apply some2 in X. destruct X as [<- _]. split; [|exact I]. apply (all_known_upd Q w _ ds i d); [exact HA|exact E| |].
      * cbn [written_step]. rewrite Acc, andb_false_r. exact K.
      * intros j J. cbn [written_step]. rewrite Acc, andb_false_r. reflexivity.
  - intros X. apply some2 in X. destruct X as [<- <-]. split; [exact HA|exact I].
  - intros X. apply some2 in X. destruct X as [<- <-]. split; [exact HA|exact I].
  - unfold SumPkg. destruct (Write blk New m) as [[d n]|] eqn:W; [|discriminate]. cbn [obind].
    destruct (checkSum blk d) as [[d1 hash]|] eqn:C; [|discriminate]. cbn [obind]. intros X. apply some2 in X. destruct X as [<- <-].
    split; [exact HA|]. intros ->.
    assert (K : Held Q (IV, false) 0 [] New) by (apply Held_reset; apply repeat_length).
    apply (Write_marks Q blk Hb _ _ _ _ _ _ _ K) in W. destruct W as [_ W].
    destruct (checkSum_says Q blk m d d1 hash Hb W C) as (l & Y1 & Y4 & Y2 & Y3).
    exists l. split; [exact Y1|]. split; [exact Y4|]. rewrite Y2, Y3. reflexivity.
Qed.

(** A property of the table that the stores of a program keep. *)
Definition kept (P : list dvinfo -> Prop) (es : list stmt) : Prop :=
  forall i v T T', In (TStore i v) es -> P T -> store_dv T i v = Some T' -> P T'.
Lemma kept_tail P e es : kept P (e :: es) -> kept P es.
Proof. intros H i v T T' X. apply H. right. exact X. Qed.

Lemma trun_marks (Q : bool -> Prop) (P : list dvinfo -> Prop) early : (forall T, P T -> block_marks Q (blockGeneric_in T)) ->
  forall es T w ds T' ds' rs k o, kept P es -> P T -> all_known Q w ds ->
  trun early T ds es = Some (T', ds', rs) -> nth_error es k = Some (TCall o) ->
  exists r, nth_error rs k = Some r /\ says Q early (fun i => fold_left (written_step i) (calls (firstn k es)) (w i)) o r.
Proof.
  intros HP. induction es as [|[i v|o0] es IH]; intros T w ds T' ds' rs k o HK HT HA; cbn [trun].
  - intros _ H. destruct k; discriminate H.
  - destruct (store_dv T i v) as [T1|] eqn:E; [|discriminate]. cbn [obind].
    destruct (trun early T1 ds es) as [[[T2 ds2] xs]|] eqn:R; [|discriminate]. cbn [obind]. intros X. apply some2 in X. destruct X as [_ <-].
    destruct k as [|k]; cbn [nth_error]; [discriminate|]. intros Y.
    assert (HT1 : P T1) by (apply (HK i v T T1); [left; reflexivity|exact HT|exact E]).
    exact (IH _ _ _ _ _ _ k o (kept_tail _ _ _ HK) HT1 HA R Y).
  - destruct (exec early (blockGeneric_in T) ds o0) as [[ds1 x]|] eqn:E; [|discriminate]. cbn [obind].
    destruct (trun early T ds1 es) as [[[T2 ds2] xs]|] eqn:R; [|discriminate]. cbn [obind]. intros X. apply some2 in X. destruct X as [_ <-].
    destruct (exec_marks Q early _ w ds o0 ds1 x (HP T HT) HA E) as [HA' S0].
    destruct k as [|k]; cbn [nth_error].
    + intros Y. injection Y as <-. exists x. split; [reflexivity|]. exact S0.
    + intros Y. destruct (IH _ _ _ _ _ _ k o (kept_tail _ _ _ HK) HT HA' R Y) as (r & N & S). exists r. split; [exact N|]. exact S.
Qed.
Lemma none_known Q : all_known Q (fun _ => Some []) [].
Proof. split; [intros [|i] d H; discriminate H|reflexivity]. Qed.

(** Any program. *)
Lemma program_verdict early T es T' ds rs k i inp m : trun early T [] es = Some (T', ds, rs) ->
  nth_error es k = Some (TCall (OCRSum i inp)) -> written i (calls (firstn k es)) = Some m ->
  exists l, marks m l /\ nth_error rs k = Some (RVerdict (inp ++ st_bytes (marked IV l)) (existsb snd l)).
Proof.
  intros R E W.
  destruct (trun_marks (fun _ => True) (fun _ => True) early (fun T _ => table_marks T) es T _ [] _ _ _ k _ ltac:(red; auto) I (none_known _) R E) as (r & N & S).
  cbn [says] in S. destruct (S m W) as (l & M & _ & ->). exists l. auto.
Qed.
Lemma program_sum early T es T' ds rs k i inp m : trun early T [] es = Some (T', ds, rs) ->
  nth_error es k = Some (TCall (OSum i inp)) -> written i (calls (firstn k es)) = Some m ->
  exists l, marks m l /\ nth_error rs k = Some (RBytes (inp ++ st_bytes (marked IV l))).
Proof.
  intros R E W.
  destruct (trun_marks (fun _ => True) (fun _ => True) early (fun T _ => table_marks T) es T _ [] _ _ _ k _ ltac:(red; auto) I (none_known _) R E) as (r & N & S).
  cbn [says] in S. destruct (S m W) as (l & M & _ & ->). exists l. auto.
Qed.
Lemma marked_plain l : forall h, existsb snd l = false -> marked h l = fold_left (fun h b => compress h (words_of b)) (map fst l) h.
Proof.
  induction l as [|[b c] l IH]; intros h; [reflexivity|]. cbn [existsb snd map fst fold_left]. intros H. apply orb_false_iff in H. destruct H as [-> H].
  apply (IH _ H).
Qed.
Lemma plain_sha1 m l : marks m l -> existsb snd l = false -> st_bytes (marked IV l) = sha1 m.
Proof. intros M V. rewrite (marked_plain l IV V), M. reflexivity. Qed.
Lemma program_plain early T es T' ds rs k i inp m b : trun early T [] es = Some (T', ds, rs) ->
  nth_error es k = Some (TCall (OCRSum i inp)) -> written i (calls (firstn k es)) = Some m ->
  nth_error rs k = Some (RVerdict b false) -> b = inp ++ sha1 m.
Proof.
  intros R E W N. destruct (program_verdict early T es T' ds rs k i inp m R E W) as (x & M & N'). rewrite N in N'. injection N' as -> V.
  f_equal. apply plain_sha1; auto.
Qed.

(** ** No panic *)
Section Total.
  Variable Q : bool -> Prop.
  Variable blk : blockfn.
  Hypothesis Hblk : block_marks Q blk.
  Hypothesis Htot : forall d p, wfst (dh d) -> blk d p <> None.

  Lemma rest_total d p : wfst (dh d) -> write_rest blk d p <> None.
  Proof.
    intros Wd. unfold write_rest, write_blocks. destruct (Nat.leb_spec 64 (length p)); [|discriminate].
    cbv zeta. change (64 - 1)%nat with 63%nat. rewrite ldiff63.
    assert (Hle : (64 * (length p / 64) <= length p)%nat) by (apply Nat.mul_div_le; discriminate).
    rewrite slice_to_ok by assumption. cbn [obind]. pose proof (Htot d (firstn (64 * (length p / 64)) p) Wd) as HT.
    destruct (blk d _); [|contradiction]. cbn [obind]. rewrite slice_from_ok by assumption. discriminate.
  Qed.
  Lemma Write_total s L0 all d p : Held Q s L0 all d -> Write blk d p <> None.
  Proof.
    intros R. destruct p as [|c p'] eqn:Ep; [discriminate|].
    rewrite <- Ep. assert (Hp : p <> []) by (rewrite Ep; discriminate). clear Ep c p'.
    rewrite Write_unfold by assumption. cbv zeta.
    pose proof (Held_wf _ _ _ _ _ R) as Wd.
    destruct R as (A & k & HA & Hall & Hnx & Hx & Ws & E & H0 & Hlen).
    cbn [dnx dx dlen dh dcol].
    destruct (Nat.ltb_spec 0 (dnx d)) as [Hpos|Hz].
    - rewrite slice_from_ok by nlia. cbn [obind].
      set (m := Nat.min (length (dx d) - dnx d) (length p)) in *.
      assert (Hn1 : (m <= length p)%nat) by apply Nat.le_min_r.
      assert (Ec : copy_at (dx d) (dnx d) p = (fst (copy_at (dx d) (dnx d) p), m)) by reflexivity.
      rewrite Ec. clear Ec. clearbody m. set (x' := fst (copy_at (dx d) (dnx d) p)) in *. cbn [dnx dx dlen dh dcol].
      destruct (Nat.eqb_spec (dnx d + m) 64) as [H64|H64].
      + match goal with |- context [blk ?a ?b] => pose proof (Htot a b Wd) as HT; destruct (blk a b) as [d2|] eqn:EK end; [|contradiction]. cbn [obind].
        pose proof EK as EK'. apply Hblk in EK'; [|exact Wd]. destruct EK' as (r & Hr & ->).
        rewrite slice_from_ok by nlia. cbn [obind dnx dx dlen dh dcol].
        match goal with |- context [write_rest blk ?a ?b] => pose proof (rest_total a b) as T; destruct (write_rest blk a b) end; [discriminate|].
        exfalso. apply T; [|reflexivity]. cbn [dh]. exact (reach_wf _ _ _ _ Hr Wd).
      + cbn [obind]. rewrite slice_from_ok by nlia. cbn [obind].
        match goal with |- context [write_rest blk ?a ?b] => pose proof (rest_total a b Wd) as T; destruct (write_rest blk a b) end; [discriminate|contradiction].
    - cbn [obind].
      match goal with |- context [write_rest blk ?a ?b] => pose proof (rest_total a b Wd) as T; destruct (write_rest blk a b) end; [discriminate|contradiction].
  Qed.

  Lemma checkSum_total s L0 all d : Held Q s L0 all d -> checkSum blk d <> None.
  Proof.
    intros R. assert (Hlen : dlen d = (L0 + N.of_nat (length all)) mod M64).
    { destruct R as (A & k & _ & _ & _ & _ & _ & _ & _ & H). exact H. }
    assert (Hlt : dlen d < M64) by (rewrite Hlen; apply N.mod_upper_bound; discriminate).
    pose proof (padding_len (dlen d) Hlt) as Hpl.
    pose proof (N.mod_upper_bound (dlen d) 64 ltac:(discriminate)) as Hr.
    rewrite checkSum_eq by exact Hlt.
    pose proof (Write_total s L0 all d (padding (dlen d)) R) as T.
    destruct (Write blk d (padding (dlen d))) as [[d1 n]|] eqn:W; [|contradiction]. cbn [obind]. clear T.
    apply (Write_marks Q blk Hblk s L0 all) in W; [|exact R]. destruct W as [_ W].
    destruct W as (A & k & HA & Hall & Hnx & Hx & _ & _ & H0 & _).
    assert (Hnx0 : dnx d1 = 0%nat); [|rewrite Hnx0; discriminate].
    apply N.mod_divide in H0; [|discriminate]. destruct H0 as [q0 ->].
    assert (Er : dlen d mod 64 = N.of_nat (length all) mod 64).
    { rewrite Hlen. change M64 with (64 * 288230376151711744).
      rewrite N.mod_mul_r by discriminate. rewrite (N.mul_comm 64 (_ mod _)), N.mod_add, N.mod_mod by discriminate.
      rewrite N.add_comm, N.mod_add by discriminate. reflexivity. }
    pose proof (N.div_mod (N.of_nat (length all)) 64 ltac:(discriminate)) as Hd. rewrite <- Er in Hd.
    apply (f_equal (@length byte)) in Hall. rewrite !app_length, Hpl, HA, firstn_length, Hx in Hall.
    set (r := dlen d mod 64) in *. set (y := N.of_nat (length all) / 64) in *.
    clear - Hd Hr Hall Hnx. clearbody r y.
    destruct (N.ltb_spec r 56) as [H|H]; lia.
  Qed.
End Total.

Lemma held_marshal Q s L0 all d : Held Q s L0 all d -> MarshalBinary d <> None.
Proof. intros (A & k & _ & _ & Hn & Hx & _). rewrite Marshal_eq by lia. discriminate. Qed.
Lemma exec_total Q early blk w ds o : block_marks Q blk -> (forall d p, wfst (dh d) -> blk d p <> None) -> all_known Q w ds ->
  match target o with Some i => (i < length ds)%nat | None => True end -> exists ds' r, exec early blk ds o = Some (ds', r) /\
  length ds' = match o with ONew => S (length ds) | _ => length ds end.
Proof.
  intros Hb Ht [H1 H2]. destruct o as [|i p|i inp|i inp|i|i|i b|i|i|m]; cbn [exec target]; intros L;
    try (destruct (nth_error ds i) as [d|] eqn:E; [cbn [obind]; pose proof (H1 i d E) as K; pose proof K as [(s & L0 & all & K0) _]|
      apply nth_error_None in E; exfalso; lia]).
  - eexists _, _. split; [reflexivity|]. rewrite app_length. cbn [length]. lia.
  - pose proof (Write_total Q blk Hb Ht _ _ _ _ p K0) as T. destruct (Write blk d p) as [[d1 n]|]; [|contradiction]. cbn [obind].
    eexists _, _. split; [reflexivity|]. apply upd_length.
  - unfold Sum. pose proof (checkSum_total Q blk Hb Ht _ _ _ _ K0) as T. destruct (checkSum blk d) as [[d1 n]|]; [|contradiction]. cbn [obind].
    eexists _, _. split; reflexivity.
  - unfold CollisionResistantSum. pose proof (checkSum_total Q blk Hb Ht _ _ _ _ K0) as T. destruct (checkSum blk d) as [[d1 n]|]; [|contradiction].
    cbn [obind]. eexists _, _. split; reflexivity.
  - eexists _, _. split; [reflexivity|]. apply upd_length.
  - pose proof (held_marshal _ _ _ _ _ K0) as T. destruct (MarshalBinary d); [|contradiction]. cbn [obind]. eexists _, _. split; reflexivity.
  - rewrite Unmarshal_eq by exact (known_dx _ _ _ K). cbn [obind]. destruct (negb (has_magic b)); [|destruct (negb (length b =? 98)%nat)];
      (eexists _, _; split; [reflexivity|apply upd_length]).
  - eexists _, _. split; reflexivity.
  - eexists _, _. split; reflexivity.
  - unfold SumPkg. assert (K : Held Q (IV, false) 0 [] New) by (apply Held_reset; apply repeat_length).
    pose proof (Write_total Q blk Hb Ht _ _ _ _ m K) as T. destruct (Write blk New m) as [[d n]|] eqn:W; [|contradiction]. cbn [obind].
    apply (Write_marks Q blk Hb _ _ _ _ _ _ _ K) in W. destruct W as [_ W].
    pose proof (checkSum_total Q blk Hb Ht _ _ _ _ W) as T2. destruct (checkSum blk d) as [[d1 h]|]; [|contradiction]. cbn [obind].
    eexists _, _. split; reflexivity.
Qed.

(** Stores that stay inside the table and keep a property under which no call panics. *)
Definition in_table (n : nat) (es : list stmt) : Prop := forall i v, In (TStore i v) es -> (i < n)%nat.
Lemma trun_total (Q : bool -> Prop) (P : list dvinfo -> Prop) early : (forall T, P T -> block_marks Q (blockGeneric_in T)) ->
  (forall T, P T -> forall d p, wfst (dh d) -> blockGeneric_in T d p <> None) ->
  forall es T w ds, kept P es -> P T -> all_known Q w ds -> in_table (length T) es -> scoped (length ds) (calls es) ->
  exists T' ds' rs, trun early T ds es = Some (T', ds', rs).
Proof.
  intros HP Ht. induction es as [|[i v|o] es IH]; intros T w ds HK HT HA HI; cbn [trun calls flat_map app].
  - intros _. eauto.
  - intros HS. assert (Hi : (i < length T)%nat) by (apply (HI i v); left; reflexivity).
    assert (E : store_dv T i v = Some (upd i v T)) by (unfold store_dv; apply Nat.ltb_lt in Hi; rewrite Hi; reflexivity).
    rewrite E. cbn [obind].
    assert (HT1 : P (upd i v T)) by (apply (HK i v T); [left; reflexivity|exact HT|exact E]).
    destruct (IH (upd i v T) w ds (kept_tail _ _ _ HK) HT1 HA) as (T' & ds' & rs & R).
    + rewrite upd_length. intros j u J. apply (HI j u). right. exact J.
    + exact HS.
    + rewrite R. cbn [obind]. eauto.
  - cbn [scoped]. intros [Ho HS]. destruct (exec_total Q early (blockGeneric_in T) w ds o (HP T HT) (Ht T HT) HA Ho) as (ds1 & r & E & L).
    rewrite E. cbn [obind]. destruct (exec_marks Q early _ w ds o ds1 r (HP T HT) HA E) as [HA' _].
    destruct (IH T _ ds1 (kept_tail _ _ _ HK) HT HA') as (T' & ds' & rs & R).
    + intros j u J. apply (HI j u). right. exact J.
    + rewrite L. exact HS.
    + rewrite R. cbn [obind]. eauto.
Qed.

(** ** A terminator in the first row *)
Definition headless (T : list dvinfo) : Prop := match T with [] => False | z :: _ => dvType z = 0 end.
Lemma headless_verdict T h M : headless T -> verdict_in T h M = Some false.
Proof.
  unfold verdict_in, checkCollision_in. cbv zeta. destruct (_ =? 0); [reflexivity|]. destruct T as [|z T]; [contradiction|]. intros Z. cbn [headless] in Z.
  cbn [checkLoop]. rewrite Z. reflexivity.
Qed.
Lemma headless_marks T : headless T -> block_marks (fun c => c = false) (blockGeneric_in T).
Proof. intros H. apply table_marks_in. intros h M. unfold table_decides. rewrite headless_verdict by exact H. reflexivity. Qed.
Lemma headless_total T : headless T -> forall d p, wfst (dh d) -> blockGeneric_in T d p <> None.
Proof.
  intros H d p Hd. unfold blockGeneric_in. destruct (g_blocks_in _ _ _ _ _ _ _) as [[h c]|] eqn:E; [discriminate|].
  exfalso. revert E. apply blocks_in_total; auto using repeat_length. intros h M. rewrite headless_verdict by exact H. discriminate.
Qed.
Lemma unmarked l : Forall (fun x : list byte * bool => snd x = false) l -> existsb snd l = false.
Proof. induction 1 as [|x l E _ IH]; [reflexivity|]. cbn [existsb]. rewrite E. exact IH. Qed.

(** One store switches the detection off for every message hashed afterwards. *)
Lemma program_off : exists i v, forall early es, (forall e, In e es -> exists o, e = TCall o) -> scoped 0 (calls es) ->
  exists T ds rs, trun early dvs_go [] (TStore i v :: es) = Some (T, ds, RUnit :: rs) /\
    forall k j inp m, nth_error es k = Some (TCall (OCRSum j inp)) -> written j (calls (firstn k es)) = Some m ->
      nth_error rs k = Some (RVerdict (inp ++ sha1 m) false).
Proof.
  exists 0%nat, (with_type 0 (nth 0 dvs_go terminator)). intros early es Hc HS.
  set (T1 := upd 0 (with_type 0 (nth 0 dvs_go terminator)) dvs_go).
  assert (HT : headless T1) by reflexivity.
  assert (HK : kept headless es) by (intros i v T T' X; destruct (Hc _ X) as [o Y]; discriminate Y).
  destruct (trun_total _ headless early headless_marks headless_total es T1 _ [] HK HT (none_known _)) as (T' & ds & rs & R).
  - intros i v X. destruct (Hc _ X) as [o Y]. discriminate Y.
  - exact HS.
  - exists T', ds, rs. split.
    + cbn [trun]. assert (E : store_dv dvs_go 0 (with_type 0 (nth 0 dvs_go terminator)) = Some T1) by reflexivity. rewrite E. cbn [obind]. rewrite R. reflexivity.
    + intros k j inp m N W.
      destruct (trun_marks _ headless early headless_marks es T1 _ [] _ _ _ k _ HK HT (none_known _) R N) as (r & N' & S).
      cbn [says] in S. destruct (S m W) as (l & M & F & ->). rewrite N'. apply unmarked in F. rewrite F, (plain_sha1 m l M F). reflexivity.
Qed.

(** ** Stores of rows that use one of the stored states, below the terminator *)
Definition sound (T : list dvinfo) : Prop :=
  length T = 33%nat /\ dvType (nth 32 T terminator) = 0 /\ Forall (fun v => In (testT v) [0; 58; 65]) (firstn 32 T).
Lemma sound_shape T : sound T -> exists A z, T = A ++ z :: [] /\ dvType z = 0 /\ Forall (fun v => In (testT v) [0; 58; 65]) A.
Proof.
  intros (L & Z & F). exists (firstn 32 T), (nth 32 T terminator). split; [|auto].
  rewrite <- (firstn_skipn 32 T) at 1. f_equal.
  assert (L' : length (skipn 32 T) = 1%nat) by (rewrite skipn_length; lia).
  rewrite <- (firstn_skipn 32 T) at 2. rewrite app_nth2; rewrite firstn_length, Nat.min_l by lia; [|lia].
  destruct (skipn 32 T) as [|z [|? ?]]; try discriminate L'. reflexivity.
Qed.
Lemma sound_total T : sound T -> forall d p, wfst (dh d) -> blockGeneric_in T d p <> None.
Proof.
  intros H d p Hd. destruct (sound_shape T H) as (A & z & -> & Z & F). destruct (table_any A z [] Z F) as (D & E). rewrite (E d p Hd). discriminate.
Qed.
Lemma firstn_upd {A} (v : A) n : forall l i, (i < n)%nat -> firstn n (upd i v l) = upd i v (firstn n l).
Proof.
  induction n as [|n IH]; intros l i Hi; [lia|]. destruct l as [|x l]; [destruct i; reflexivity|]. destruct i as [|i]; [reflexivity|].
  cbn [upd firstn]. rewrite IH by lia. reflexivity.
Qed.
Lemma Forall_upd {A} (P : A -> Prop) v : P v -> forall l i, Forall P l -> Forall P (upd i v l).
Proof. intros Hv l. induction l as [|x l IH]; intros [|i] H; cbn [upd]; auto; inversion H; subst; constructor; auto. Qed.
Definition sound_stores (es : list stmt) : Prop := forall i v, In (TStore i v) es -> (i < 32)%nat /\ In (testT v) [0; 58; 65].
Lemma sound_kept es : sound_stores es -> kept sound es.
Proof.
  intros H i v T T' X (L & Z & F). destruct (H i v X) as [Hi Hv]. unfold store_dv. destruct (_ <? _)%nat; [|discriminate].
  intros Y. injection Y as <-. split; [rewrite upd_length; exact L|]. split; [rewrite nth_upd_neq by lia; exact Z|].
  rewrite firstn_upd by exact Hi. apply Forall_upd; assumption.
Qed.
Lemma sound_dvs : sound dvs_go.
Proof. split; [reflexivity|]. split; [reflexivity|]. apply Forall_forall. intros v H. repeat (destruct H as [<-|H]; [cbn; tauto|]). destruct H. Qed.
Lemma program_total early es : (forall i v, In (TStore i v) es -> (i < 32)%nat /\ In (testT v) [0; 58; 65]) -> scoped 0 (calls es) ->
  exists T ds rs, trun early dvs_go [] es = Some (T, ds, rs).
Proof.
  intros H HS. apply (trun_total (fun _ => True) sound early (fun T _ => table_marks T) sound_total es dvs_go (fun _ => Some []) []).
  - apply sound_kept. exact H.
  - exact sound_dvs.
  - apply none_known.
  - intros i v X. destruct (H i v X) as [Hi _]. change (length dvs_go) with 33%nat. lia.
  - exact HS.
Qed.
(** Without stores the programs are those of [Model_Api.run]. *)
Lemma exec_blk early b b' ds o : (forall d p, b d p = b' d p) -> exec early b ds o = exec early b' ds o.
Proof.
  intros H.
  assert (W : forall d p, Write b d p = Write b' d p).
  { intros d p. unfold Write. destruct (length p =? 0)%nat; [reflexivity|]. cbv zeta. cbn [dnx dx dh dlen dcol].
    destruct (0 <? dnx d)%nat.
    - destruct (slice_from (dx d) (dnx d)); [|reflexivity]. cbn [obind]. destruct (copy_at (dx d) (dnx d) p) as [x n]. cbn [dnx dx dh dlen dcol].
      rewrite H. match goal with |- obind ?x _ = obind ?x _ => destruct x as [[d1 q]|]; [|reflexivity] end. cbn [obind].
      destruct (64 <=? length q)%nat; [|reflexivity]. destruct (slice_to _ _); [|reflexivity]. cbn [obind]. rewrite H. reflexivity.
    - cbn [obind]. destruct (64 <=? length p)%nat; [|reflexivity]. destruct (slice_to _ _); [|reflexivity]. cbn [obind]. rewrite H. reflexivity. }
  assert (C : forall d, checkSum b d = checkSum b' d).
  { intros d. unfold checkSum. cbv zeta. destruct (slice_to _ _); [|reflexivity]. cbn [obind]. destruct (slice_from _ _); [|reflexivity]. cbn [obind].
    destruct (slice_from _ _); [|reflexivity]. cbn [obind]. rewrite W. reflexivity. }
  destruct o; cbn [exec]; try reflexivity; try (destruct (nth_error ds i); [cbn [obind]|reflexivity]).
  - rewrite W. reflexivity.
  - unfold Sum. rewrite C. reflexivity.
  - unfold CollisionResistantSum. rewrite C. reflexivity.
  - unfold SumPkg. rewrite W. destruct (Write b' New data) as [[d n]|]; [|reflexivity]. cbn [obind]. rewrite C. reflexivity.
Qed.
Lemma program_calls early : forall os ds, trun early dvs_go ds (map TCall os) =
  (do (ds', rs) <- run early ds (map (fun o => (blockGeneric, o)) os); Some (dvs_go, ds', rs)).
Proof.
  induction os as [|o os IH]; intros ds; [reflexivity|]. cbn [map trun run].
  rewrite (exec_blk early (blockGeneric_in dvs_go) blockGeneric) by apply table_default.
  destruct (exec early blockGeneric ds o) as [[ds1 x]|]; [|reflexivity]. cbn [obind]. rewrite IH.
  destruct (run early ds1 _) as [[ds2 xs]|]; reflexivity.
Qed.
