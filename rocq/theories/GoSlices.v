(** Slices: Sum appends, the caller's buffers are neither kept nor modified. *)

From Coq Require Import Arith ZArith NArith List Strings.Byte Lia Bool ZifyNat.
From Verif Require Import Word WordFacts Spec_Sha1 Sha1Facts Spec_DV Spec_Cd Spec_Api DvFacts
  Model_Go Model_Api Model_Block Model_Slice GoCheck GoBlock GoApi GoStore GoAsm GoProps GoProps2.
Import ListNotations.
Local Open Scope nat_scope.
Ltac Zify.zify_post_hook ::= idtac.

Definition valid (H : heap) (s : slice) : Prop :=
  s_arr s < length H /\ s_len s <= s_cap s /\ s_off s + s_cap s <= length (array H (s_arr s)).

Lemma splice_length l at_ bs : at_ + length bs <= length l -> length (splice l at_ bs) = length l.
Proof. intros H. unfold splice. rewrite !app_length, firstn_length, skipn_length. lia. Qed.
Lemma nth_splice l at_ bs k d : at_ + length bs <= length l ->
  nth k (splice l at_ bs) d = if (at_ <=? k) && (k <? at_ + length bs) then nth (k - at_) bs d else nth k l d.
Proof.
  intros H. unfold splice.
  assert (L1 : length (firstn at_ l) = at_) by (rewrite firstn_length; lia).
  destruct (Nat.leb_spec at_ k) as [H1|H1]; cbn [andb].
  - rewrite app_nth2 by lia. rewrite L1. destruct (Nat.ltb_spec k (at_ + length bs)).
    + rewrite app_nth1 by lia. reflexivity.
    + rewrite app_nth2 by lia. 
      assert (S : forall a n (l : list byte), nth n (skipn a l) d = nth (a + n) l d).
      { clear. induction a as [|a IH]; intros n l; [reflexivity|]. destruct l; [destruct n; reflexivity|]. cbn. apply IH. }
      rewrite S. f_equal. lia.
  - rewrite app_nth1 by lia.
    rewrite <- (firstn_skipn at_ l) at 2. rewrite app_nth1 by lia. reflexivity.
Qed.

Lemma array_upd H a v : a < length H -> forall b, array (upd a v H) b = if b =? a then v else array H b.
Proof.
  intros Ha b. unfold array. destruct (Nat.eqb_spec b a) as [->|Hne].
  - apply nth_upd_eq. assumption.
  - apply nth_upd_neq. congruence.
Qed.
Lemma array_app H l a : a < length H -> array (H ++ l) a = array H a.
Proof. intros. unfold array. apply app_nth1. assumption. Qed.
Lemma array_new H x : array (H ++ [x]) (length H) = x.
Proof. unfold array. rewrite app_nth2, Nat.sub_diag by lia. reflexivity. Qed.

Lemma contents_length H s : valid H s -> length (contents H s) = s_len s.
Proof. intros (A & B & C). unfold contents. rewrite firstn_length, skipn_length. lia. Qed.

Lemma firstn_skipn_splice l off n at_ bs : at_ = off + n -> at_ + length bs <= length l ->
  firstn (n + length bs) (skipn off (splice l at_ bs)) = firstn n (skipn off l) ++ bs.
Proof.
  intros -> H. unfold splice. 
  assert (L1 : length (firstn (off + n) l) = off + n) by (rewrite firstn_length; lia).
  rewrite skipn_app, L1. replace (off - (off + n)) with 0 by lia. cbn [skipn].
  assert (L2 : length (skipn off (firstn (off + n) l)) = n) by (rewrite skipn_length; lia).
  rewrite <- L2 at 1. rewrite firstn_app_2.
  rewrite <- (Nat.add_0_r (length bs)) at 1. rewrite firstn_app_2, firstn_O, app_nil_r.
  f_equal. rewrite skipn_firstn_comm. f_equal. lia.
Qed.

(** append returns the old contents followed by the new bytes and changes nothing but the
    spare capacity, or nothing at all. *)
Definition append_frame (H H' : heap) (s r : slice) (n : nat) : Prop :=
  (s_len s + n <= s_cap s /\ s_arr r = s_arr s /\ length H' = length H /\
   (forall a, a <> s_arr s -> array H' a = array H a) /\
   length (array H' (s_arr s)) = length (array H (s_arr s)) /\
   (forall k, ~ (s_off s + s_len s <= k < s_off s + s_len s + n) ->
      nth k (array H' (s_arr s)) x00 = nth k (array H (s_arr s)) x00)) \/
  (s_cap s < s_len s + n /\ s_arr r = length H /\ exists x, H' = H ++ [x]).

Lemma append_ok grow H s bs : valid H s ->
  let '(H', r) := h_append grow H s bs in
  contents H' r = contents H s ++ bs /\ valid H' r /\ s_len r = s_len s + length bs /\ append_frame H H' s r (length bs).
Proof.
  intros (Va & Vl & Vc). unfold h_append. destruct (Nat.leb_spec (s_len s + length bs) (s_cap s)) as [Hn|Hn].
  - assert (Hb : s_off s + s_len s + length bs <= length (array H (s_arr s))) by lia.
    split; [|split; [|split]].
    + unfold contents. cbn [s_arr s_off s_len]. rewrite array_upd, Nat.eqb_refl by assumption.
      apply firstn_skipn_splice; [reflexivity|assumption].
    + unfold valid. cbn [s_arr s_off s_len s_cap]. rewrite upd_length, array_upd, Nat.eqb_refl, splice_length by assumption. lia.
    + reflexivity.
    + left. cbn [s_arr]. rewrite upd_length. split; [assumption|]. split; [reflexivity|]. split; [reflexivity|].
      rewrite array_upd, Nat.eqb_refl by assumption. split; [|split].
      * intros a Ha. rewrite array_upd by assumption. destruct (Nat.eqb_spec a (s_arr s)); [contradiction|reflexivity].
      * apply splice_length. assumption.
      * intros k Hk. rewrite nth_splice by assumption.
        destruct (Nat.leb_spec (s_off s + s_len s) k); cbn [andb]; [|reflexivity].
        destruct (Nat.ltb_spec k (s_off s + s_len s + length bs)); [exfalso; lia|reflexivity].
  - assert (L : length (contents H s) = s_len s) by (apply contents_length; repeat split; assumption).
    split; [|split; [|split]].
    + unfold contents at 1. cbn [s_arr s_off s_len]. rewrite array_new. cbn [skipn].
      rewrite app_assoc, firstn_app, app_length, L, Nat.sub_diag, firstn_O, app_nil_r.
      apply firstn_all2. rewrite app_length. lia.
    + unfold valid. cbn [s_arr s_off s_len s_cap]. rewrite app_length, array_new, !app_length, repeat_length, L. cbn [length]. lia.
    + reflexivity.
    + right. cbn [s_arr]. eauto.
Qed.

Lemma contents_frame H H' s r n v : append_frame H H' s r n -> valid H v ->
  (s_cap s < s_len s + n \/ s_arr v <> s_arr s \/ s_off v + s_len v <= s_off s + s_len s \/ s_off s + s_len s + n <= s_off v) ->
  contents H' v = contents H v.
Proof.
  intros F (Va & Vl & Vc) D. unfold contents.
  destruct F as [(A & B & C & E & G & K)|(A & B & x & ->)].
  - destruct (Nat.eq_dec (s_arr v) (s_arr s)) as [Ev|Ev]; [|rewrite E by assumption; reflexivity].
    rewrite Ev in *. apply nth_ext with (d := x00) (d' := x00).
    { rewrite !firstn_length, !skipn_length, G. reflexivity. }
    intros k Hk. rewrite firstn_length, skipn_length in Hk.
    assert (N : forall (l : list byte) a n, a < n -> nth a (firstn n (skipn (s_off v) l)) x00 = nth (s_off v + a) l x00).
    { clear. intros l a n Hn. rewrite <- (firstn_skipn n (skipn (s_off v) l)) at 1 || idtac.
      assert (S : forall o b (l : list byte), nth b (skipn o l) x00 = nth (o + b) l x00).
      { clear. induction o as [|o IH]; intros b l; [reflexivity|]. destruct l; [destruct b; reflexivity|]. cbn. apply IH. }
      rewrite <- S. generalize (skipn (s_off v) l). clear - Hn. intros l. revert a n Hn.
      induction l as [|y l IH]; intros [|a] [|n] Hn; try lia; cbn; auto. apply IH. lia. }
    rewrite !N by lia. apply K. lia.
  - rewrite array_app by assumption. reflexivity.
Qed.
Lemma valid_frame H H' s r n v : append_frame H H' s r n -> valid H v -> valid H' v.
Proof.
  intros F (Va & Vl & Vc). destruct F as [(A & B & C & E & G & K)|(A & B & x & ->)].
  - split; [lia|]. split; [assumption|].
    destruct (Nat.eq_dec (s_arr v) (s_arr s)) as [Ev|Ev]; [rewrite Ev, G, <- Ev|rewrite E by assumption]; assumption.
  - split; [rewrite app_length; lia|]. split; [assumption|]. rewrite array_app by assumption. assumption.
Qed.

(** ** MarshalBinary on the heap *)
Definition building (H : heap) (pre : list byte) : heap * slice :=
  (H ++ [pre ++ repeat x00 (98 - length pre)], mksl (length H) 0 (length pre) 98).

Lemma upd_last {A} (H : list A) x y : upd (length H) y (H ++ [x]) = H ++ [y].
Proof. induction H; cbn; congruence. Qed.

Lemma building_append grow H pre bs : length pre + length bs <= 98 ->
  h_append grow (fst (building H pre)) (snd (building H pre)) bs = building H (pre ++ bs).
Proof.
  intros L. unfold h_append, building. cbn [fst snd s_arr s_off s_len s_cap].
  replace (length pre + length bs <=? 98) with true by (symmetry; apply Nat.leb_le; assumption).
  rewrite array_new, upd_last, app_length. f_equal. do 3 f_equal.
  unfold splice. cbn [Nat.add]. rewrite firstn_app, firstn_all, Nat.sub_diag, firstn_O, app_nil_r, <- app_assoc. f_equal. f_equal.
  rewrite skipn_app, skipn_all2 by lia. cbn [app]. replace (length pre + length bs - length pre) with (length bs) by lia.
  clear - L. remember (98 - length pre) as k. replace (98 - (length pre + length bs)) with (k - length bs) by lia.
  generalize (length bs). clear. intros n. revert k. induction n as [|n IH]; intros [|k]; cbn; auto.
Qed.

Lemma contents_building H pre : length pre <= 98 -> contents (fst (building H pre)) (snd (building H pre)) = pre.
Proof.
  intros L. unfold contents, building. cbn [fst snd s_arr s_off s_len]. rewrite array_new. cbn [skipn].
  rewrite firstn_app, firstn_all, Nat.sub_diag, firstn_O, app_nil_r. reflexivity.
Qed.

Lemma marshal_heap grow H d : length (dx d) = 64 ->
  h_MarshalBinary grow H d =
  match MarshalBinary d with Some b => Some (building H b) | None => None end.
Proof.
  intros L. unfold h_MarshalBinary, MarshalBinary, slice_to. rewrite L.
  change (h_make H 0 MarshaledSize) with (building H []).
  do 6 (rewrite (surjective_pairing (building H _)); cbv beta iota; rewrite building_append by (cbn; lia)).
  rewrite (surjective_pairing (building H _)); cbv beta iota.
  destruct (Nat.leb_spec (dnx d) 64) as [Hn|Hn].
  2:{ reflexivity. }
  cbn [obind].
  set (h := ((((([] ++ Magic) ++ appendUint32 (sa (dh d))) ++ appendUint32 (sb (dh d))) ++ appendUint32 (sc (dh d))) ++ appendUint32 (sd (dh d))) ++ appendUint32 (se (dh d))).
  replace (Magic ++ appendUint32 (sa (dh d)) ++ appendUint32 (sb (dh d)) ++ appendUint32 (sc (dh d)) ++ appendUint32 (sd (dh d)) ++ appendUint32 (se (dh d))) with h.
  2:{ unfold h. cbn [app]. rewrite <- !app_assoc. reflexivity. }
  assert (Lh : length h = 26) by reflexivity.
  set (x := firstn (dnx d) (dx d)). assert (Lx : length x = dnx d) by (unfold x; rewrite firstn_length; lia).
  rewrite building_append by lia.
  unfold building at 1. unfold h_reslice. cbn [s_len s_cap s_arr s_off]. rewrite !app_length, Lh, Lx.
  replace (26 + dnx d + 64 - dnx d) with 90 by lia. change MarshaledSize with 98. cbn [Nat.leb obind].
  assert (E : (H ++ [(h ++ x) ++ repeat x00 (98 - (26 + dnx d))], mksl (length H) 0 90 98)
    = building H ((h ++ x) ++ repeat x00 (90 - (26 + dnx d)))).
  { unfold building. rewrite !app_length, repeat_length, Lh, Lx. f_equal.
    - do 2 f_equal. rewrite <- !app_assoc. do 2 f_equal. rewrite <- repeat_app. f_equal. lia.
    - f_equal; lia. }
  assert (E1 : H ++ [(h ++ x) ++ repeat x00 (98 - (26 + dnx d))] = fst (building H ((h ++ x) ++ repeat x00 (90 - (26 + dnx d))))) by (rewrite <- E; reflexivity).
  assert (E2 : mksl (length H) 0 90 98 = snd (building H ((h ++ x) ++ repeat x00 (90 - (26 + dnx d))))) by (rewrite <- E; reflexivity).
  rewrite E1, E2, building_append; [reflexivity|].
  rewrite !app_length, repeat_length, Lh, Lx. cbn [length appendUint64]. lia.
Qed.

(** ** Runs *)
Definition hframe (s : hstate) (o : hop) (s' : hstate) : Prop :=
  match o with
  | HPoke _ _ _ | HAppend _ _ => True
  | HSum _ v | HCRSum _ v => exists sl r, nth_error (hvars s) v = Some sl /\ hvars s' = hvars s ++ [r] /\
      length (hheap s) <= length (hheap s') /\ append_frame (hheap s) (hheap s') sl r 20
  | _ => exists l, hheap s' = hheap s ++ l
  end.

Definition hok (hs : list ahash) (s : hstate) : Prop :=
  Forall (valid (hheap s)) (hvars s) /\ Forall2 R hs (hdigs s).

Lemma valid_app H l v : valid H v -> valid (H ++ l) v.
Proof. intros (A & B & C). split; [rewrite app_length; lia|]. split; [assumption|]. rewrite array_app; assumption. Qed.

Lemma Forall_valid_app H l vs : Forall (valid H) vs -> Forall (valid (H ++ l)) vs.
Proof. apply Forall_impl. intros. apply valid_app. assumption. Qed.

Lemma st_bytes_length s : length (st_bytes s) = 20. Proof. reflexivity. Qed.

Lemma hexec_ok early grow m hs s o : hok hs s -> hscoped s o ->
  exists s' r hs', hexec early grow (block_of m) s o =
      Some (s', match call_of s o with Some o' => Some (o', r) | None => None end) /\
    hok hs' s' /\ hframe s o s' /\
    match call_of s o with
    | Some o' => exec early (block_of m) (hdigs s) o' = Some (hdigs s', r)
    | None => hdigs s' = hdigs s
    end.
Proof.
  intros [Hv Hd] Hs.
  assert (Pure : forall o', match target o' with Some i => i < length (hdigs s) | None => True end ->
    exists ds r hs', exec early (block_of m) (hdigs s) o' = Some (ds, r) /\ Forall2 R hs' ds).
  { intros o' Ht. rewrite <- (Forall2_length _ _ _ Hd) in Ht.
    destruct (a_exec_scoped early go_decide hs o') as (hs' & r & E & _).
    { destruct (target o'); assumption. }
    destruct (exec_ok _ (block_of_ok m) early hs (hdigs s) o' hs' r Hd E) as (ds & X & Y). eauto. }
  assert (Var : forall v, v < length (hvars s) -> exists sl, nth_error (hvars s) v = Some sl /\ valid (hheap s) sl).
  { intros v Hl. apply nth_error_Some in Hl. destruct (nth_error (hvars s) v) as [sl|] eqn:E; [|congruence].
    exists sl. split; [reflexivity|]. eapply Forall_forall; [exact Hv|]. eapply nth_error_In, E. }
  assert (Dig : forall i, i < length (hdigs s) -> exists a d, nth_error hs i = Some a /\ nth_error (hdigs s) i = Some d /\ R a d).
  { intros i Hl. rewrite <- (Forall2_length _ _ _ Hd) in Hl. apply nth_error_Some in Hl.
    destruct (nth_error hs i) as [a|] eqn:E; [|congruence].
    destruct (Forall2_nth _ _ _ _ _ Hd E) as (d & Ed & Hr). eauto. }
  assert (Snoc : forall H' r, Forall (valid H') (hvars s) -> valid H' r -> Forall (valid H') (hvars s ++ [r])).
  { intros. apply Forall_app. auto. }
  destruct o; cbn [hexec call_of hscoped hframe] in *.
  - replace (n <=? c) with true by (symmetry; apply Nat.leb_le; assumption).
    eexists _, RUnit, hs. split; [reflexivity|]. split; [|split; [cbn [hheap]; eauto|reflexivity]].
    split; [|assumption]. cbn [hheap hvars]. apply Snoc; [apply Forall_valid_app; assumption|].
    unfold valid. cbn [s_arr s_len s_cap s_off]. rewrite app_length, array_new, repeat_length. cbn [length]. lia.
  - destruct Hs as (sl & E & (L1 & L2) & L3). rewrite E. cbn [obind].
    apply Nat.leb_le in L1, L2, L3. rewrite L1, L2, L3. cbn [andb]. apply Nat.leb_le in L1, L2, L3.
    eexists _, RUnit, hs. split; [reflexivity|]. split; [|split; [exists []; cbn [hheap]; rewrite app_nil_r; reflexivity|reflexivity]].
    split; [|assumption]. cbn [hheap hvars]. apply Snoc; [assumption|].
    assert (V : valid (hheap s) sl) by (eapply Forall_forall; [exact Hv|eapply nth_error_In, E]).
    destruct V as (A & B & C). unfold valid. cbn [s_arr s_len s_cap s_off]. lia.
  - destruct Hs as (sl & E & L). rewrite E. cbn [obind].
    assert (V : valid (hheap s) sl) by (eapply Forall_forall; [exact Hv|eapply nth_error_In, E]).
    pose proof V as (A & B & C).
    pose proof L as L'. apply Nat.ltb_lt in L'. rewrite L'.
    eexists _, RUnit, hs. split; [reflexivity|]. split; [|split; [exact I|reflexivity]].
    split; [|assumption]. cbn [hheap hvars]. eapply Forall_impl; [|exact Hv].
    intros w (A' & B' & C'). unfold valid. rewrite upd_length, array_upd by assumption.
    destruct (Nat.eqb_spec (s_arr w) (s_arr sl)) as [E'|E']; [|lia].
    rewrite splice_length by (cbn [length]; lia). rewrite <- E'. lia.
  - destruct (Var v Hs) as (sl & E & V). rewrite E. cbn [obind].
    pose proof (append_ok grow (hheap s) sl bs V) as AO. destruct (h_append grow (hheap s) sl bs) as [H' r].
    destruct AO as (_ & V' & _ & F). eexists _, RUnit, hs. split; [reflexivity|]. split; [|split; [exact I|reflexivity]].
    split; [|assumption]. cbn [hheap hvars]. apply Snoc; [|assumption].
    eapply Forall_impl; [|exact Hv]. intros w. apply (valid_frame _ _ _ _ _ _ F).
  - destruct (Pure ONew I) as (ds & r & hs' & E & HR). rewrite E. cbn [obind].
    eexists _, r, hs'. split; [reflexivity|]. split; [split; assumption|]. split; [exists []; cbn [hheap]; rewrite app_nil_r; reflexivity|reflexivity].
  - destruct Hs as [Hi Hl]. destruct (Var v Hl) as (sl & E & V). rewrite E. cbn [obind].
    destruct (Pure (OWrite i (contents (hheap s) sl)) Hi) as (ds & r & hs' & Ex & HR). rewrite Ex. cbn [obind].
    eexists _, r, hs'. split; [reflexivity|]. split; [split; assumption|]. split; [exists []; cbn [hheap]; rewrite app_nil_r; reflexivity|reflexivity].
  - destruct Hs as [Hi Hl]. destruct (Var v Hl) as (sl & E & V). destruct (Dig i Hi) as (a & d & Ea & Ed & HR).
    rewrite E, Ed. cbn [obind exec]. rewrite Ed. cbn [obind].
    unfold h_Sum, Sum. destruct (checkSum_ok _ (block_of_ok m) _ _ _ _ HR) as (d0 & Ec & Ecol). rewrite Ec. cbn [obind].
    pose proof (append_ok grow (hheap s) sl) as AO. set (hash := st_bytes _) in *.
    specialize (AO hash V). destruct (h_append grow (hheap s) sl hash) as [H' r].
    destruct AO as (Ct & V' & _ & F). eexists _, _, hs. split; [reflexivity|]. cbn [hheap hvars hdigs].
    split; [split; cbn [hheap hvars hdigs]; [|assumption]|].
    + apply Snoc; [|assumption]. eapply Forall_impl; [|exact Hv]. intros w. apply (valid_frame _ _ _ _ _ _ F).
    + rewrite Ct. split; [|reflexivity]. exists sl, r. split; [reflexivity|]. split; [reflexivity|]. split; [|exact F].
      destruct F as [(_ & _ & -> & _)|(_ & _ & x & ->)]; [lia|rewrite app_length; lia].
  - destruct Hs as [Hi Hl]. destruct (Var v Hl) as (sl & E & V). destruct (Dig i Hi) as (a & d & Ea & Ed & HR).
    rewrite E, Ed. cbn [obind exec]. rewrite Ed. cbn [obind].
    unfold h_CRSum, CollisionResistantSum. destruct (checkSum_ok _ (block_of_ok m) _ _ _ _ HR) as (d0 & Ec & Ecol). rewrite Ec. cbn [obind].
    pose proof (append_ok grow (hheap s) sl) as AO. set (hash := st_bytes _) in *.
    specialize (AO hash V). destruct (h_append grow (hheap s) sl hash) as [H' r].
    destruct AO as (Ct & V' & _ & F). eexists _, _, hs. split; [reflexivity|]. cbn [hheap hvars hdigs].
    split; [split; cbn [hheap hvars hdigs]; [|assumption]|].
    + apply Snoc; [|assumption]. eapply Forall_impl; [|exact Hv]. intros w. apply (valid_frame _ _ _ _ _ _ F).
    + rewrite Ct. split; [|reflexivity]. exists sl, r. split; [reflexivity|]. split; [reflexivity|]. split; [|exact F].
      destruct F as [(_ & _ & -> & _)|(_ & _ & x & ->)]; [lia|rewrite app_length; lia].
  - destruct (Pure (OReset i) Hs) as (ds & r & hs' & E & HR). rewrite E. cbn [obind].
    eexists _, r, hs'. split; [reflexivity|]. split; [split; assumption|]. split; [exists []; cbn [hheap]; rewrite app_nil_r; reflexivity|reflexivity].
  - destruct (Dig i Hs) as (a & d & Ea & Ed & HR). rewrite Ed. cbn [obind].
    destruct (Pure (OMarshal i) Hs) as (ds & r & hs' & E & HR'). pose proof E as E'. cbn [exec] in E. rewrite Ed in E. cbn [obind] in E.
    assert (L64 : length (dx d) = 64) by (destruct HR as (? & ? & ? & ? & ? & ? & ?); assumption).
    rewrite marshal_heap by assumption.
    destruct (MarshalBinary d) as [b|] eqn:Em; [|discriminate]. cbn [obind] in E. injection E as <- <-.
    assert (Lb : length b <= 98).
    { unfold MarshalBinary, slice_to in Em. destruct (dnx d <=? length (dx d)) eqn:L; [|discriminate]. cbn [obind] in Em.
      apply Nat.leb_le in L. destruct (_ <=? MarshaledSize) in Em; [|discriminate].
      apply (f_equal (option_map (@length byte))) in Em. cbn [option_map] in Em.
      repeat rewrite ?app_length, ?repeat_length, ?firstn_length in Em.
      change (length Magic) with 6 in Em. cbn [length appendUint32 appendUint64] in Em.
      assert (X : forall x y : nat, Some x = Some y -> x = y) by congruence. apply X in Em. lia. }
    eexists _, _, hs. split; [unfold building; cbn [obind]; reflexivity|].
    split; [split; cbn [hheap hvars hdigs]; [|assumption]|].
    + apply Snoc; [apply Forall_valid_app; assumption|].
      unfold valid. cbn [s_arr s_len s_cap s_off]. rewrite array_new, !app_length, repeat_length. cbn [length]. lia.
    + cbn [hheap hdigs]. split; [eauto|]. rewrite E'. do 3 f_equal. symmetry. apply contents_building. assumption.
  - destruct Hs as [Hi Hl]. destruct (Var v Hl) as (sl & E & V). rewrite E. cbn [obind].
    destruct (Pure (OUnmarshal i (contents (hheap s) sl)) Hi) as (ds & r & hs' & Ex & HR). rewrite Ex. cbn [obind].
    eexists _, r, hs'. split; [reflexivity|]. split; [split; assumption|]. split; [exists []; cbn [hheap]; rewrite app_nil_r; reflexivity|reflexivity].
  - destruct (Pure (OSize i) Hs) as (ds & r & hs' & E & HR). rewrite E. cbn [obind].
    eexists _, r, hs'. split; [reflexivity|]. split; [split; assumption|]. split; [exists []; cbn [hheap]; rewrite app_nil_r; reflexivity|reflexivity].
  - destruct (Pure (OBlockSize i) Hs) as (ds & r & hs' & E & HR). rewrite E. cbn [obind].
    eexists _, r, hs'. split; [reflexivity|]. split; [split; assumption|]. split; [exists []; cbn [hheap]; rewrite app_nil_r; reflexivity|reflexivity].
  - destruct (Var v Hs) as (sl & E & V). rewrite E. cbn [obind].
    destruct (Pure (OSumPkg (contents (hheap s) sl)) I) as (ds & r & hs' & Ex & HR). rewrite Ex. cbn [obind].
    eexists _, r, hs'. split; [reflexivity|]. split; [split; assumption|]. split; [exists []; cbn [hheap]; rewrite app_nil_r; reflexivity|reflexivity].
Qed.

Lemma hexec_scoped early grow blk s o r : hexec early grow blk s o = Some r -> hscoped s o.
Proof.
  assert (N : forall {A} (l : list A) i x, nth_error l i = Some x -> i < length l).
  { intros A l i x E. apply nth_error_Some. congruence. }
  assert (Vd : forall v (f : slice -> option (hstate * option (op * res))), obind (nth_error (hvars s) v) f = Some r ->
    exists sl, nth_error (hvars s) v = Some sl /\ f sl = Some r).
  { intros v f E. destruct (nth_error (hvars s) v) as [sl|]; [eauto|discriminate]. }
  assert (Dd : forall i (f : digest -> option (list digest * res)), obind (nth_error (hdigs s) i) f <> None -> i < length (hdigs s)).
  { intros i f E. apply nth_error_Some. destruct (nth_error (hdigs s) i); [discriminate|]. contradiction E. reflexivity. }
  assert (Pd : forall o' i, target o' = Some i -> (do (ds, r) <- exec early blk (hdigs s) o'; Some (mkh (hheap s) (hvars s) ds, Some (o', r))) = Some r ->
    i < length (hdigs s)).
  { intros o' i Ht E. destruct (exec early blk (hdigs s) o') eqn:E'; [|discriminate].
    destruct o'; cbn [target] in Ht; try discriminate; injection Ht as ->; cbn [exec] in E';
      eapply Dd; rewrite E'; discriminate. }
  destruct o; cbn [hexec hscoped]; intros E.
  - destruct (Nat.leb_spec n c); [assumption|discriminate].
  - apply Vd in E. destruct E as (sl & E & E'). exists sl. split; [assumption|].
    destruct (Nat.leb_spec a b); [|discriminate]. destruct (Nat.leb_spec b c); [|discriminate].
    destruct (Nat.leb_spec c (s_cap sl)); [|discriminate]. auto.
  - apply Vd in E. destruct E as (sl & E & E'). exists sl. split; [assumption|].
    destruct (Nat.ltb_spec i (s_len sl)); [assumption|discriminate].
  - apply Vd in E. destruct E as (sl & E & E'). eauto.
  - exact I.
  - apply Vd in E. destruct E as (sl & E & E'). split; [eapply Pd; [|exact E']; reflexivity|eauto].
  - apply Vd in E. destruct E as (sl & E & E'). split; [|eauto].
    apply nth_error_Some. destruct (nth_error (hdigs s) i); [discriminate|]. discriminate E'.
  - apply Vd in E. destruct E as (sl & E & E'). split; [|eauto].
    apply nth_error_Some. destruct (nth_error (hdigs s) i); [discriminate|]. discriminate E'.
  - eapply Pd; [|exact E]; reflexivity.
  - apply nth_error_Some. destruct (nth_error (hdigs s) i); [discriminate|]. discriminate E.
  - apply Vd in E. destruct E as (sl & E & E'). split; [eapply Pd; [|exact E']; reflexivity|eauto].
  - eapply Pd; [|exact E]; reflexivity.
  - eapply Pd; [|exact E]; reflexivity.
  - apply Vd in E. destruct E as (sl & E & E'). eauto.
Qed.

Lemma hrun_ok early os : forall hs s s' log, hok hs s -> hrun early s os = Some (s', log) ->
  exists hs', hok hs' s' /\
    run early (hdigs s) (map (fun x => (block_of (fst (fst x)), snd (fst x))) log) = Some (hdigs s', map snd log).
Proof.
  induction os as [|[[grow m] o] os IH]; intros hs s s' log Hok E; cbn [hrun] in E.
  - injection E as <- <-. exists hs. split; [assumption|reflexivity].
  - destruct (hexec early grow (block_of m) s o) as [[s1 x]|] eqn:E1; [|discriminate]. cbn [obind] in E.
    pose proof (hexec_scoped _ _ _ _ _ _ E1) as Hs.
    destruct (hexec_ok early grow m hs s o Hok Hs) as (s1' & r & hs1 & E1' & Hok1 & _ & Hc).
    rewrite E1 in E1'. injection E1' as <- ->.
    destruct (hrun early s1 os) as [[s2 log2]|] eqn:E2; [|discriminate]. cbn [obind] in E.
    destruct (IH hs1 s1 s2 log2 Hok1 E2) as (hs2 & Hok2 & X).
    destruct (call_of s o) as [o'|].
    + injection E as <- <-. exists hs2. split; [assumption|]. cbn [map run fst snd]. rewrite Hc. cbn [obind].
      rewrite X. reflexivity.
    + injection E as <- <-. rewrite Hc in X. exists hs2. auto.
Qed.

Lemma hok_init : hok [] hinit.
Proof. split; [|constructor]. repeat constructor. Qed.

(** Every run with slices is a run with values: a call sees the bytes its argument holds when the
    call is made, and the hashers afterwards do not depend on what becomes of the slices. *)
Theorem slices_erase early p s log : hrun early hinit p = Some (s, log) ->
  run_program early (map fst log) = Some (hdigs s, map snd log).
Proof.
  intros E. destruct (hrun_ok early p [] hinit s log hok_init E) as (hs & _ & X).
  unfold run_program. rewrite map_map. exact X.
Qed.

Theorem slices_no_panic early p s log grow m o : hrun early hinit p = Some (s, log) -> hscoped s o ->
  exists s' r, hexec early grow (block_of m) s o = Some (s', match call_of s o with Some o' => Some (o', r) | None => None end).
Proof.
  intros E Hs. destruct (hrun_ok early p [] hinit s log hok_init E) as (hs & Hok & _).
  destruct (hexec_ok early grow m hs s o Hok Hs) as (s' & r & hs' & X & _). eauto.
Qed.

Theorem slices_readers early p s log grow m o s' x : hrun early hinit p = Some (s, log) ->
  hexec early grow (block_of m) s o = Some (s', x) ->
  x = match call_of s o with Some o' => match x with Some (_, r) => Some (o', r) | None => None end | None => None end /\
  (call_of s o = None -> hdigs s' = hdigs s) /\
  (reader o = true -> forall a, a < length (hheap s) -> array (hheap s') a = array (hheap s) a).
Proof.
  intros E E1. destruct (hrun_ok early p [] hinit s log hok_init E) as (hs & Hok & _).
  pose proof (hexec_scoped _ _ _ _ _ _ E1) as Hs.
  destruct (hexec_ok early grow m hs s o Hok Hs) as (s1 & r & hs1 & X & _ & F & Hc).
  rewrite E1 in X. injection X as <- ->. split; [destruct (call_of s o); reflexivity|]. split.
  - intros En. rewrite En in Hc. assumption.
  - intros Hr a Ha. destruct o; try discriminate Hr; destruct F as [l ->]; apply array_app; assumption.
Qed.

(** Sum and CollisionResistantSum append. *)
Lemma frame_bytes H H' sl r : append_frame H H' sl r 20 -> valid H sl ->
  (forall a k, a < length H ->
    ~ (a = s_arr sl /\ s_len sl + 20 <= s_cap sl /\ s_off sl + s_len sl <= k < s_off sl + s_len sl + 20) ->
    nth_error (array H' a) k = nth_error (array H a) k) /\
  (s_cap sl < s_len sl + 20 -> s_arr r >= length H).
Proof.
  intros F V. split.
  - intros a k Ha Hn. destruct F as [(A & B & C & E & G & K)|(A & B & x & ->)].
    + destruct (Nat.eq_dec a (s_arr sl)) as [->|Hne]; [|rewrite E by assumption; reflexivity].
      destruct (Nat.lt_ge_cases k (length (array H (s_arr sl)))) as [Hk|Hk].
      * rewrite (nth_error_nth' (array H' (s_arr sl)) x00) by lia.
        rewrite (nth_error_nth' (array H (s_arr sl)) x00) by lia. f_equal. apply K. lia.
      * rewrite (proj2 (nth_error_None _ _)) by lia. symmetry. apply nth_error_None. lia.
    + rewrite array_app by assumption. reflexivity.
  - intros Hc. destruct F as [(A & _)|(_ & -> & _)]; lia.
Qed.

Theorem sum_appends early p s log grow m o i v sl : hrun early hinit p = Some (s, log) ->
  (o = HSum i v \/ o = HCRSum i v) -> i < length (hdigs s) -> nth_error (hvars s) v = Some sl ->
  exists s' x r dig, hexec early grow (block_of m) s o = Some (s', x) /\
    hvars s' = hvars s ++ [r] /\ hdigs s' = hdigs s /\
    exec early (block_of m) (hdigs s) (OSum i []) = Some (hdigs s, RBytes dig) /\ length dig = 20 /\
    contents (hheap s') r = contents (hheap s) sl ++ dig /\
    (forall a k, a < length (hheap s) ->
      ~ (a = s_arr sl /\ s_len sl + 20 <= s_cap sl /\ s_off sl + s_len sl <= k < s_off sl + s_len sl + 20) ->
      nth_error (array (hheap s') a) k = nth_error (array (hheap s) a) k) /\
    (s_cap sl < s_len sl + 20 -> s_arr r >= length (hheap s)).
Proof.
  intros E Ho Hi Ev. destruct (hrun_ok early p [] hinit s log hok_init E) as (hs & Hok & _).
  pose proof Hok as [Hv Hd].
  assert (V : valid (hheap s) sl) by (eapply Forall_forall; [exact Hv|eapply nth_error_In, Ev]).
  assert (exists a d, nth_error hs i = Some a /\ nth_error (hdigs s) i = Some d /\ R a d) as (a & d & Ea & Ed & HR).
  { rewrite <- (Forall2_length _ _ _ Hd) in Hi. apply nth_error_Some in Hi.
    destruct (nth_error hs i) as [a|] eqn:Ea; [|congruence].
    destruct (Forall2_nth _ _ _ _ _ Hd Ea) as (d & Ed & HR). eauto. }
  destruct (checkSum_ok _ (block_of_ok m) _ _ _ _ HR) as (d0 & Ec & Ecol). set (hash := st_bytes _) in *.
  assert (Es : exec early (block_of m) (hdigs s) (OSum i []) = Some (hdigs s, RBytes hash)).
  { cbn [exec]. rewrite Ed. cbn [obind]. unfold Sum. rewrite Ec. reflexivity. }
  pose proof (append_ok grow (hheap s) sl hash V) as AO. destruct (h_append grow (hheap s) sl hash) as [H' r] eqn:EA.
  destruct AO as (Ct & _ & _ & F). change (length hash) with 20 in F.
  destruct (frame_bytes _ _ _ _ F V) as [F1 F2].
  destruct Ho as [-> | ->]; cbn [hexec]; rewrite Ev, Ed; cbn [obind]; unfold h_Sum, h_CRSum; rewrite Ec; cbn [obind]; rewrite EA; cbn [obind];
    eexists _, _, r, hash; (split; [reflexivity|]); cbn [hheap hvars hdigs]; repeat (split; [try assumption; try reflexivity|]); assumption.
Qed.
