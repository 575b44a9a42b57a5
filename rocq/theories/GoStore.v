(** Checkpoints, and the refinement of whole histories. *)

From Coq Require Import Arith ZArith NArith List Strings.Byte Lia Bool ZifyNat.
From Verif Require Import Word WordFacts Spec_Sha1 Sha1Facts Spec_DV Spec_Cd Spec_Api DvFacts Model_Go Model_Api GoCheck GoBlock GoApi.
Import ListNotations.
Local Open Scope N_scope.
Ltac Zify.zify_post_hook ::= idtac.

(** ** Big-endian decoding *)
Lemma be_acc_app l : forall acc r, be_acc acc (l ++ r) = be_acc (be_acc acc l) r.
Proof. induction l as [|b l IH]; intros; simpl; auto. Qed.
Lemma be_acc_lin l : forall acc, be_acc acc l = acc * 256 ^ N.of_nat (length l) + be_val l.
Proof.
  unfold be_val. induction l as [|b l IH]; intros acc; cbn [be_acc length].
  - change (256 ^ N.of_nat 0) with 1. lia.
  - rewrite IH, (IH (0 * 256 + b2n b)). rewrite Nat2N.inj_succ, N.pow_succ_r'. lia.
Qed.
Lemma be_val_bound l : be_val l < 256 ^ N.of_nat (length l).
Proof.
  unfold be_val. induction l as [|b l IH] using rev_ind.
  - reflexivity.
  - rewrite be_acc_app, app_length. cbn [be_acc length]. rewrite Nat.add_1_r, Nat2N.inj_succ, N.pow_succ_r'.
    pose proof (b2n_lt b). lia.
Qed.
Lemma be_val_app a b : be_val (a ++ b) = be_val a * 256 ^ N.of_nat (length b) + be_val b.
Proof. unfold be_val at 1. rewrite be_acc_app. apply be_acc_lin. Qed.

Lemma lor_add_low x y n : y < 2 ^ n -> N.lor y (x * 2 ^ n) = x * 2 ^ n + y.
Proof. intros H. rewrite N.lor_comm. apply lor_add_shift. assumption. Qed.

Lemma shl64_small x n : x < 2 ^ 8 -> n <= 56 -> shl64 x n = x * 2 ^ n.
Proof.
  intros Hx Hn. unfold shl64. rewrite N.shiftl_mul_pow2. apply N.mod_small.
  apply N.lt_le_trans with (2 ^ 8 * 2 ^ n).
  - apply N.mul_lt_mono_pos_r; [|assumption]. apply N.neq_0_lt_0, N.pow_nonzero. discriminate.
  - rewrite <- N.pow_add_r. change M64 with (2 ^ 64). apply N.pow_le_mono_r; lia.
Qed.

Lemma or_chain b n v : v < 2 ^ n -> n <= 56 -> N.lor v (shl64 (b2n b) n) = b2n b * 2 ^ n + v.
Proof. intros Hv Hn. rewrite shl64_small by (auto; apply b2n_lt). apply lor_add_low. assumption. Qed.

Lemma step_bound x v n : x < 256 -> v < 2 ^ n -> x * 2 ^ n + v < 2 ^ (8 + n).
Proof.
  intros Hx Hv. rewrite N.pow_add_r. change (2 ^ 8) with 256.
  pose proof (N.mul_le_mono_r (x + 1) 256 (2 ^ n) ltac:(lia)). lia.
Qed.

Lemma consumeUint64_ok b0 b1 b2 b3 b4 b5 b6 b7 r :
  consumeUint64 (b0 :: b1 :: b2 :: b3 :: b4 :: b5 :: b6 :: b7 :: r) =
  Some (r, be_val [b0; b1; b2; b3; b4; b5; b6; b7]).
Proof.
  unfold consumeUint64. do 2 f_equal.
  pose proof (b2n_lt b0); pose proof (b2n_lt b1); pose proof (b2n_lt b2); pose proof (b2n_lt b3).
  pose proof (b2n_lt b4); pose proof (b2n_lt b5); pose proof (b2n_lt b6); pose proof (b2n_lt b7).
  rewrite (or_chain b6 8 (b2n b7)) by (auto; lia).
  rewrite (or_chain b5 16) by (try lia; change 16 with (8 + 8); apply step_bound; auto).
  rewrite (or_chain b4 24) by (try lia; change 24 with (8 + 16); apply step_bound; auto; change 16 with (8 + 8); apply step_bound; auto).
  rewrite (or_chain b3 32) by (try lia; change 32 with (8 + 24); apply step_bound; auto; change 24 with (8 + 16); apply step_bound; auto; change 16 with (8 + 8); apply step_bound; auto).
  rewrite (or_chain b2 40) by (try lia; change 40 with (8 + 32); apply step_bound; auto; change 32 with (8 + 24); apply step_bound; auto; change 24 with (8 + 16); apply step_bound; auto; change 16 with (8 + 8); apply step_bound; auto).
  rewrite (or_chain b1 48) by (try lia; change 48 with (8 + 40); apply step_bound; auto; change 40 with (8 + 32); apply step_bound; auto; change 32 with (8 + 24); apply step_bound; auto; change 24 with (8 + 16); apply step_bound; auto; change 16 with (8 + 8); apply step_bound; auto).
  rewrite (or_chain b0 56) by (try lia; change 56 with (8 + 48); apply step_bound; auto; change 48 with (8 + 40); apply step_bound; auto; change 40 with (8 + 32); apply step_bound; auto; change 32 with (8 + 24); apply step_bound; auto; change 24 with (8 + 16); apply step_bound; auto; change 16 with (8 + 8); apply step_bound; auto).
  unfold be_val. cbn [be_acc].
  change (2 ^ 56) with 72057594037927936. change (2 ^ 48) with 281474976710656. change (2 ^ 40) with 1099511627776.
  change (2 ^ 32) with 4294967296. change (2 ^ 24) with 16777216. change (2 ^ 16) with 65536. change (2 ^ 8) with 256. lia.
Qed.

Lemma consumeUint32_ok b0 b1 b2 b3 r :
  consumeUint32 (b0 :: b1 :: b2 :: b3 :: r) = Some (r, be_val [b0; b1; b2; b3]).
Proof.
  unfold consumeUint32. do 2 f_equal. rewrite be_val_4.
  pose proof (lor4 (b2n b0) (b2n b1) (b2n b2) (b2n b3) (b2n_lt _) (b2n_lt _) (b2n_lt _) (b2n_lt _)) as E.
  etransitivity; [|exact E].
  rewrite !N.lor_assoc || idtac.
  rewrite (N.lor_comm (N.lor (N.lor (b2n b3) _) _) (shl32 (b2n b0) 24)).
  rewrite (N.lor_comm (N.lor (b2n b3) _) (shl32 (b2n b1) 16)).
  rewrite (N.lor_comm (b2n b3)). rewrite !N.lor_assoc. reflexivity.
Qed.

(** be64 round trip *)
Lemma be_val_be64 v : v < M64 -> be_val (be64 v) = v.
Proof.
  intros H. unfold be64, be_val. cbn [be_acc]. rewrite !b2n_n2b.
  assert (E : forall k, v / 2 ^ k mod 256 = v / 2 ^ k - 256 * (v / 2 ^ (k + 8))).
  { intros k. rewrite N.pow_add_r. change (2 ^ 8) with 256.
    rewrite <- N.div_div by (try apply N.pow_nonzero; discriminate).
    pose proof (N.div_mod (v / 2 ^ k) 256 ltac:(discriminate)). lia. }
  assert (M : forall k, 256 * (v / 2 ^ (k + 8)) <= v / 2 ^ k).
  { intros k. rewrite N.pow_add_r. change (2 ^ 8) with 256.
    rewrite <- N.div_div by (try apply N.pow_nonzero; discriminate).
    apply N.mul_div_le. discriminate. }
  assert (Z : v / 2 ^ 64 = 0) by (apply N.div_small; exact H).
  assert (E0 : v mod 256 = v - 256 * (v / 2 ^ 8)).
  { change (2 ^ 8) with 256. pose proof (N.div_mod v 256 ltac:(discriminate)). lia. }
  assert (M0 : 256 * (v / 2 ^ 8) <= v) by (change (2 ^ 8) with 256; apply N.mul_div_le; discriminate).
  rewrite E0, !E.
  pose proof (M 8); pose proof (M 16); pose proof (M 24); pose proof (M 32); pose proof (M 40); pose proof (M 48); pose proof (M 56).
  change (8 + 8) with 16 in *. change (16 + 8) with 24 in *. change (24 + 8) with 32 in *. change (32 + 8) with 40 in *.
  change (40 + 8) with 48 in *. change (48 + 8) with 56 in *. change (56 + 8) with 64 in *. rewrite Z in *.
  set (a1 := v / 2 ^ 8) in *. set (a2 := v / 2 ^ 16) in *. set (a3 := v / 2 ^ 24) in *. set (a4 := v / 2 ^ 32) in *.
  set (a5 := v / 2 ^ 40) in *. set (a6 := v / 2 ^ 48) in *. set (a7 := v / 2 ^ 56) in *.
  clearbody a1 a2 a3 a4 a5 a6 a7. clear E M Z E0 H. lia.
Qed.

Lemma be64_be_val b0 b1 b2 b3 b4 b5 b6 b7 :
  be64 (be_val [b0; b1; b2; b3; b4; b5; b6; b7]) = [b0; b1; b2; b3; b4; b5; b6; b7].
Proof.
  set (l := [b0; b1; b2; b3; b4; b5; b6; b7]).
  assert (H : be_val (be64 (be_val l)) = be_val l).
  { apply be_val_be64. apply (be_val_bound l). }
  assert (I : forall x y, length x = length y -> be_val x = be_val y -> x = y).
  { induction x as [|c x IH] using rev_ind; intros y Hl E.
    - destruct y; [reflexivity|discriminate].
    - destruct y as [|c' y] using rev_ind; [rewrite app_length in Hl; simpl in Hl; lia|].
      rewrite !app_length in Hl. cbn [length] in Hl. rewrite !be_val_app in E. cbn [length] in E.
      change (256 ^ N.of_nat 1) with 256 in E.
      unfold be_val at 2 4 in E. cbn [be_acc] in E.
      pose proof (b2n_lt c). pose proof (b2n_lt c').
      assert (be_val x = be_val y /\ b2n c = b2n c') as [E1 E2] by lia.
      rewrite (IH y) by (auto; lia). apply b2n_inj in E2. subst. reflexivity. }
  apply I; [reflexivity|exact H].
Qed.

(** ** Bytes of a state *)
Lemma st_bytes_blob (s : st) : wfst s ->
  mkst (be_val (be32 (sa s))) (be_val (be32 (sb s))) (be_val (be32 (sc s))) (be_val (be32 (sd s))) (be_val (be32 (se s))) = s.
Proof.
  intros (Ha & Hb & Hc & Hd & He). rewrite !be_val_be32 by assumption. destruct s. reflexivity.
Qed.

Lemma list4 {A} (l : list A) : length l = 4%nat -> exists a b c d, l = [a; b; c; d].
Proof. destruct l as [|a [|b [|c [|d [|]]]]]; try discriminate. eauto. Qed.
Lemma list8 {A} (l : list A) : length l = 8%nat -> exists a b c d e f g h, l = [a; b; c; d; e; f; g; h].
Proof. destruct l as [|a [|b [|c [|d [|e [|f [|g [|h [|]]]]]]]]]; try discriminate. eauto 10. Qed.

Lemma consumeUint32_app w r : length w = 4%nat -> consumeUint32 (w ++ r) = Some (r, be_val w).
Proof. intros H. destruct (list4 w H) as (a & b & c & d & ->). apply consumeUint32_ok. Qed.
Lemma consumeUint64_app w r : length w = 8%nat -> consumeUint64 (w ++ r) = Some (r, be_val w).
Proof. intros H. destruct (list8 w H) as (a & b & c & d & e & f & g & h & ->). apply consumeUint64_ok. Qed.

Lemma skipn_skipn {A} n : forall m (l : list A), skipn n (skipn m l) = skipn (m + n) l.
Proof.
  induction m as [|m IH]; intros [|x l]; try reflexivity.
  - rewrite !skipn_nil. reflexivity.
  - cbn [skipn Nat.add]. apply IH.
Qed.
Lemma sub_split (b : list byte) off n : (off + n <= length b)%nat -> skipn off b = sub b off n ++ skipn (off + n) b.
Proof.
  intros H. unfold sub. rewrite <- (firstn_skipn n (skipn off b)) at 1. f_equal.
  apply skipn_skipn.
Qed.
Lemma sub_length (b : list byte) off n : (off + n <= length b)%nat -> length (sub b off n) = n.
Proof. intros H. unfold sub. rewrite firstn_length, skipn_length. lia. Qed.

Lemma has_magic_ok b : has_magic b = true <-> firstn 6 b = magic.
Proof. unfold has_magic. destruct (list_eq_dec _ _ _); split; intros; auto; discriminate. Qed.

Lemma magic_eq : Magic = magic. Proof. reflexivity. Qed.

Lemma unmarshal_guard b :
  ((length b <? length Magic)%nat || negb (bytes_eqb (firstn (length Magic) b) Magic))%bool = negb (has_magic b).
Proof.
  rewrite magic_eq. change (length magic) with 6%nat. unfold bytes_eqb, has_magic.
  destruct (list_eq_dec _ (firstn 6 b) magic) as [E|E]; [|apply orb_true_r].
  apply (f_equal (@length byte)) in E. rewrite firstn_length in E. change (length magic) with 6%nat in E.
  destruct (Nat.ltb_spec (length b) 6); [lia|reflexivity].
Qed.

(** UnmarshalBinary, in closed form. *)
Lemma Unmarshal_eq d b : length (dx d) = 64%nat ->
  UnmarshalBinary d b =
  Some (if negb (has_magic b) then (d, Some InvalidIdentifier)
        else if negb (length b =? 98)%nat then (d, Some InvalidSize)
        else (mkd (blob_st b) (blob_buf b) (N.to_nat (blob_len b mod 64)) (blob_len b) (dcol d), None)).
Proof.
  intros Hx. unfold UnmarshalBinary. rewrite unmarshal_guard.
  destruct (has_magic b) eqn:Em; cbn [negb]; [|reflexivity].
  change MarshaledSize with 98%nat.
  destruct (Nat.eqb_spec (length b) 98) as [Hl|Hl]; cbn [negb]; [|reflexivity].
  change (length Magic) with 6%nat.
  rewrite slice_from_ok by lia. cbn [obind].
  rewrite (sub_split b 6 4) by lia. rewrite consumeUint32_app by (apply sub_length; lia). cbn [obind Nat.add].
  rewrite (sub_split b 10 4) by lia. rewrite consumeUint32_app by (apply sub_length; lia). cbn [obind Nat.add].
  rewrite (sub_split b 14 4) by lia. rewrite consumeUint32_app by (apply sub_length; lia). cbn [obind Nat.add].
  rewrite (sub_split b 18 4) by lia. rewrite consumeUint32_app by (apply sub_length; lia). cbn [obind Nat.add].
  rewrite (sub_split b 22 4) by lia. rewrite consumeUint32_app by (apply sub_length; lia). cbn [obind Nat.add].
  unfold copy_at. rewrite Hx, skipn_length, Hl. cbn [firstn app Nat.add Nat.sub Nat.min].
  rewrite slice_from_ok by (rewrite skipn_length; lia). cbn [obind].
  rewrite skipn_skipn. cbn [Nat.add].
  rewrite (sub_split b 90 8) by lia. rewrite consumeUint64_app by (apply sub_length; lia). cbn [obind].
  rewrite (skipn_all2 (dx d)) by lia. rewrite app_nil_r. reflexivity.
Qed.

(** MarshalBinary, in closed form. *)
Lemma Marshal_eq d : length (dx d) = 64%nat -> (dnx d <= 64)%nat ->
  MarshalBinary d = Some (blob_of (dh d) (firstn (dnx d) (dx d) ++ zeros (64 - dnx d)) (dlen d)).
Proof.
  intros Hx Hn. unfold MarshalBinary. rewrite slice_to_ok by lia. cbn [obind].
  set (b0 := Magic ++ _).
  assert (L0 : length b0 = 26%nat) by reflexivity.
  rewrite app_length, L0, firstn_length, Hx. change MarshaledSize with 98%nat.
  replace (26 + Nat.min (dnx d) 64 + 64 - dnx d)%nat with 90%nat by lia.
  change (90 <=? 98)%nat with true. cbn iota.
  replace (90 - (26 + Nat.min (dnx d) 64))%nat with (64 - dnx d)%nat by lia.
  unfold blob_of, b0. rewrite !appendUint32_be32, appendUint64_be64. unfold st_bytes, zeros. rewrite magic_eq.
  rewrite <- !app_assoc. reflexivity.
Qed.

(** Fields of a blob. *)
Lemma blob_length h buf len : length buf = 64%nat -> length (blob_of h buf len) = 98%nat.
Proof. intros H. unfold blob_of. rewrite !app_length, st_bytes_length, H. reflexivity. Qed.
Lemma blob_magic h buf len : has_magic (blob_of h buf len) = true.
Proof. apply has_magic_ok. reflexivity. Qed.
Lemma sub_app1 a b c n off : off = length a -> n = length b -> sub (a ++ b ++ c) off n = b.
Proof.
  intros -> ->. unfold sub. rewrite skipn_app, skipn_all, Nat.sub_diag. cbn [app skipn].
  rewrite firstn_app, Nat.sub_diag, firstn_O, app_nil_r. apply firstn_all.
Qed.
Lemma blob_fields h buf len : wfst h -> length buf = 64%nat -> len < M64 ->
  blob_st (blob_of h buf len) = h /\ blob_buf (blob_of h buf len) = buf /\ blob_len (blob_of h buf len) = len.
Proof.
  intros Hh Hb Hl. split; [|split].
  - etransitivity; [|apply (st_bytes_blob h Hh)]. unfold blob_st.
    set (q := blob_of h buf len).
    assert (Eq : q = magic ++ be32 (sa h) ++ be32 (sb h) ++ be32 (sc h) ++ be32 (sd h) ++ be32 (se h) ++ buf ++ be64 len).
    { unfold q, blob_of, st_bytes. rewrite <- !app_assoc. reflexivity. }
    assert (E1 : sub q 6 4 = be32 (sa h)) by (rewrite Eq; apply (sub_app1 magic (be32 (sa h))); reflexivity).
    assert (E2 : sub q 10 4 = be32 (sb h)) by (rewrite Eq; apply (sub_app1 (magic ++ be32 (sa h)) (be32 (sb h))); reflexivity).
    assert (E3 : sub q 14 4 = be32 (sc h)) by (rewrite Eq; apply (sub_app1 (magic ++ be32 (sa h) ++ be32 (sb h)) (be32 (sc h))); reflexivity).
    assert (E4 : sub q 18 4 = be32 (sd h)) by (rewrite Eq; apply (sub_app1 (magic ++ be32 (sa h) ++ be32 (sb h) ++ be32 (sc h)) (be32 (sd h))); reflexivity).
    assert (E5 : sub q 22 4 = be32 (se h)) by (rewrite Eq; apply (sub_app1 (magic ++ be32 (sa h) ++ be32 (sb h) ++ be32 (sc h) ++ be32 (sd h)) (be32 (se h))); reflexivity).
    rewrite E1, E2, E3, E4, E5. reflexivity.
  - unfold blob_buf, blob_of. rewrite app_assoc. apply sub_app1; auto.
  - unfold blob_len, blob_of. rewrite <- (app_nil_r (be64 len)). rewrite !app_assoc, <- app_assoc.
    rewrite (sub_app1 ((magic ++ st_bytes h) ++ buf) (be64 len) []).
    + apply be_val_be64. assumption.
    + rewrite !app_length, st_bytes_length, Hb. reflexivity.
    + reflexivity.
Qed.

Lemma be_val_wf l : length l = 4%nat -> wf (be_val l).
Proof. intros H. pose proof (be_val_bound l) as B. rewrite H in B. exact B. Qed.
Lemma blob_st_wf b : length b = 98%nat -> wfst (blob_st b).
Proof.
  intros H. repeat split; apply be_val_wf; apply sub_length; lia.
Qed.
Lemma blob_len_lt b : length b = 98%nat -> blob_len b < M64.
Proof. intros H. pose proof (be_val_bound (sub b 90 8)) as B. rewrite sub_length in B by lia. exact B. Qed.

(** A well-formed blob is the concatenation of its fields. *)
Lemma blob_eta b : length b = 98%nat -> firstn 6 b = magic ->
  b = blob_of (blob_st b) (blob_buf b) (blob_len b).
Proof.
  intros Hl Hm. rewrite <- (firstn_skipn 6 b) at 1. rewrite Hm. unfold blob_of. f_equal.
  rewrite (sub_split b 6 4) by lia. change (6 + 4)%nat with 10%nat.
  rewrite (sub_split b 10 4) by lia. change (10 + 4)%nat with 14%nat.
  rewrite (sub_split b 14 4) by lia. change (14 + 4)%nat with 18%nat.
  rewrite (sub_split b 18 4) by lia. change (18 + 4)%nat with 22%nat.
  rewrite (sub_split b 22 4) by lia. change (22 + 4)%nat with 26%nat.
  rewrite (sub_split b 26 64) by lia. change (26 + 64)%nat with 90%nat.
  rewrite (sub_split b 90 8) by lia. change (90 + 8)%nat with 98%nat.
  rewrite (skipn_all2 b) by lia.
  assert (E4 : forall o, (o + 4 <= 98)%nat -> be32 (be_val (sub b o 4)) = sub b o 4).
  { intros o Ho. destruct (list4 (sub b o 4)) as (x & y & z & w & E); [apply sub_length; lia|].
    rewrite E. apply be32_be_val. }
  unfold st_bytes, blob_st. cbn [sa sb sc sd se]. rewrite !E4 by lia.
  assert (E8 : be64 (blob_len b) = sub b 90 8).
  { unfold blob_len. destruct (list8 (sub b 90 8)) as (x0 & x1 & x2 & x3 & x4 & x5 & x6 & x7 & E); [apply sub_length; lia|].
    rewrite E. apply be64_be_val. }
  rewrite E8. unfold blob_buf. rewrite <- !app_assoc, app_nil_r. reflexivity.
Qed.

(** ** Abstract hashers *)
Definition R (a : ahash) (d : digest) : Prop := Rep (ah_start a) (ah_before a) (ah_bytes a) d.

Lemma Rep_pending s L0 all d : Rep s L0 all d ->
  firstn (dnx d) (dx d) = pending all /\ length (pending all) = dnx d /\
  (dh d, dcol d) = cd_blocks go_decide s (blocks all).
Proof.
  intros (A & k & HA & Hall & Hnx & Hx & Ws & E & H0 & Hl).
  assert (Lf : length (firstn (dnx d) (dx d)) = dnx d) by (rewrite firstn_length; lia).
  assert (Hdiv : (length all / 64 = k)%nat).
  { rewrite Hall, app_length, HA, Lf. symmetry. apply (Nat.div_unique _ _ _ (dnx d)); lia. }
  assert (Ep : pending all = firstn (dnx d) (dx d)).
  { unfold pending. rewrite Hdiv, <- HA, Hall, skipn_app, skipn_all, Nat.sub_diag. reflexivity. }
  rewrite Ep. split; [reflexivity|]. split; [assumption|].
  rewrite E, Hall. rewrite (blocks_app k) by assumption. rewrite (blocks_short (firstn _ _)) by lia.
  rewrite app_nil_r. reflexivity.
Qed.

Lemma Rep_fields s L0 all d : Rep s L0 all d ->
  length (dx d) = 64%nat /\ (dnx d < 64)%nat /\ dlen d < M64 /\ dlen d = (L0 + N.of_nat (length all)) mod M64.
Proof.
  intros (A & k & HA & Hall & Hnx & Hx & Ws & E & H0 & Hl). repeat split; auto.
  rewrite Hl. apply N.mod_upper_bound. discriminate.
Qed.

Lemma Marshal_ok a d : R a d -> MarshalBinary d = Some (a_marshal go_decide a).
Proof.
  intros H. destruct (Rep_fields _ _ _ _ H) as (Hx & Hnx & _ & Hl).
  destruct (Rep_pending _ _ _ _ H) as (Ep & Lp & E).
  rewrite Marshal_eq by lia. unfold a_marshal, a_mid, a_len. rewrite <- E, Ep, Lp, Hl. reflexivity.
Qed.

Lemma Rep_unmarshal (c : bool) b : length b = 98%nat ->
  Rep (blob_st b, c) (blob_len b - blob_len b mod 64) (firstn (N.to_nat (blob_len b mod 64)) (blob_buf b))
      (mkd (blob_st b) (blob_buf b) (N.to_nat (blob_len b mod 64)) (blob_len b) c).
Proof.
  intros Hb. pose proof (N.mod_upper_bound (blob_len b) 64 ltac:(discriminate)) as Hr.
  assert (Lb : length (blob_buf b) = 64%nat) by (apply sub_length; lia).
  exists [], 0%nat. cbn [dnx dx dlen dh dcol fst].
  split; [reflexivity|]. split; [reflexivity|]. split; [lia|]. split; [assumption|].
  split; [apply blob_st_wf; assumption|]. split; [reflexivity|].
  pose proof (N.div_mod (blob_len b) 64 ltac:(discriminate)) as Hd.
  split.
  - replace (blob_len b - blob_len b mod 64) with (blob_len b / 64 * 64) by lia. apply N.mod_mul. discriminate.
  - rewrite firstn_length, Lb. rewrite N.mod_small.
    + lia.
    + pose proof (blob_len_lt b Hb). lia.
Qed.

Lemma Unmarshal_ok a d b : R a d ->
  exists d', UnmarshalBinary d b = Some (d', match snd (a_unmarshal go_decide a b) with
      RBadMagic => Some InvalidIdentifier | RBadSize => Some InvalidSize | _ => None end) /\
    R (fst (a_unmarshal go_decide a b)) d'.
Proof.
  intros H. destruct (Rep_fields _ _ _ _ H) as (Hx & _). rewrite Unmarshal_eq by assumption.
  unfold a_unmarshal. destruct (has_magic b); cbn [negb].
  2:{ eexists. split; [reflexivity|assumption]. }
  destruct (Nat.eqb_spec (length b) 98) as [Hl|Hl]; cbn [negb].
  2:{ eexists. split; [reflexivity|assumption]. }
  eexists. split; [reflexivity|]. cbn [fst]. unfold R, a_restore. cbn [ah_start ah_before ah_bytes].
  destruct (Rep_pending _ _ _ _ H) as (_ & _ & E).
  unfold a_mid. rewrite <- E. cbn [snd]. apply Rep_unmarshal. assumption.
Qed.

Lemma Reset_ok a d : R a d -> R a_new (Reset d).
Proof.
  intros H. destruct (Rep_fields _ _ _ _ H) as (Hx & _).
  exists [], 0%nat. cbn. repeat split; auto; try lia; reflexivity.
Qed.

Section Blk.
  Variable blk : blockfn.
  Hypothesis Hblk : block_ok blk.

  Lemma checkSum_a a d : R a d -> exists d', checkSum blk d = Some (d', fst (a_sum go_decide a)) /\ dcol d' = snd (a_sum go_decide a).
  Proof. intros H. apply (checkSum_ok blk Hblk) in H. exact H. Qed.

  Lemma Sum_ok a d inp : R a d -> Sum blk d inp = Some (inp ++ fst (a_sum go_decide a)).
  Proof. intros H. unfold Sum. destruct (checkSum_a a d H) as (d' & E & _). rewrite E. reflexivity. Qed.
  Lemma CRSum_ok a d inp : R a d ->
    CollisionResistantSum blk d inp = Some (inp ++ fst (a_sum go_decide a), snd (a_sum go_decide a)).
  Proof. intros H. unfold CollisionResistantSum. destruct (checkSum_a a d H) as (d' & E & E'). rewrite E. cbn [obind]. rewrite E'. reflexivity. Qed.

  Lemma Write_a a d p : R a d -> exists d', Write blk d p = Some (d', length p) /\ R (a_write a p) d'.
  Proof. intros H. apply (Write_ok blk Hblk _ _ _ _ _ H). Qed.

  Lemma a_sum_new D m : a_sum D (a_write a_new m) = cd_sum D m.
  Proof.
    unfold a_sum, cd_sum, a_len, pad. cbn [a_write a_new ah_start ah_before ah_bytes app].
    rewrite N.add_0_l. destruct (cd_blocks _ _ _). reflexivity.
  Qed.

  Lemma SumPkg_ok early m :
    SumPkg early blk m = Some (fst (cd_sum go_decide m),
      if early then snd (cd_blocks go_decide (IV, false) (blocks m)) else snd (cd_sum go_decide m)).
  Proof.
    unfold SumPkg. destruct (Write_a a_new New m Rep_New) as (d & E & H). rewrite E. cbn [obind].
    destruct (checkSum_a _ _ H) as (d1 & E1 & E2). rewrite E1. cbn [obind].
    rewrite E2, a_sum_new. destruct early; [|reflexivity].
    destruct (Rep_pending _ _ _ _ H) as (_ & _ & E3). cbn [a_write a_new ah_start ah_before ah_bytes app] in E3.
    rewrite <- E3. reflexivity.
  Qed.

  (** One call. *)
  Lemma put_upd {A} (v : A) l : forall i, put i v l = upd i v l.
  Proof. induction l; intros [|i]; simpl; congruence. Qed.

  Lemma Forall2_upd {A B} (P : A -> B -> Prop) x y : forall l m i, Forall2 P l m -> P x y -> Forall2 P (upd i x l) (upd i y m).
  Proof.
    intros l m i H. revert i. induction H; intros [|i] Hxy; simpl; constructor; auto.
  Qed.
  Lemma upd_same {A} (l : list A) x : forall i, nth_error l i = Some x -> upd i x l = l.
  Proof. induction l as [|y l IH]; intros [|i] E; simpl in *; try congruence. rewrite IH; auto. Qed.
  Lemma Forall2_length {A B} (P : A -> B -> Prop) l m : Forall2 P l m -> length l = length m.
  Proof. induction 1; simpl; auto. Qed.
  Lemma Forall2_nth {A B} (P : A -> B -> Prop) l m i x : Forall2 P l m -> nth_error l i = Some x ->
    exists y, nth_error m i = Some y /\ P x y.
  Proof.
    intros H. revert i. induction H; intros [|i] E; simpl in *; try discriminate; eauto.
    injection E as ->. eauto.
  Qed.

  Lemma exec_ok early hs ds o hs' r : Forall2 R hs ds ->
    a_exec early go_decide hs o = Some (hs', r) ->
    exists ds', exec early blk ds o = Some (ds', r) /\ Forall2 R hs' ds'.
  Proof.
    intros H E.
    assert (On : forall i (f : ahash -> ahash * res), 
      match nth_error hs i with Some a => let '(a', r) := f a in Some (put i a' hs, r) | None => None end = Some (hs', r) ->
      exists a d, nth_error hs i = Some a /\ nth_error ds i = Some d /\ R a d /\ r = snd (f a) /\ hs' = upd i (fst (f a)) hs).
    { intros i f X. destruct (nth_error hs i) as [a|] eqn:Ea; [|discriminate].
      destruct (Forall2_nth _ _ _ _ _ H Ea) as (d & Ed & Hd).
      exists a, d. destruct (f a) as [a' r']. cbn [fst snd]. rewrite put_upd in X. injection X as <- <-. auto. }
    destruct o; cbn [a_exec] in E; cbn [exec].
    - injection E as <- <-. eexists. rewrite <- (Forall2_length _ _ _ H). split; [reflexivity|].
      apply Forall2_app; [assumption|]. constructor; [exact Rep_New|constructor].
    - apply (On i (fun a => (a_write a p, RNum (length p)))) in E. destruct E as (a & d & Ea & Ed & Hd & -> & ->). rewrite Ed. cbn [obind fst snd].
      destruct (Write_a a d p Hd) as (d' & E & Hd'). rewrite E. cbn [obind].
      eexists. split; [reflexivity|]. apply Forall2_upd; assumption.
    - apply (On i (fun a => (a, RBytes (inp ++ fst (a_sum go_decide a))))) in E. destruct E as (a & d & Ea & Ed & Hd & -> & ->). rewrite Ed. cbn [obind fst snd].
      rewrite (Sum_ok a d inp Hd). cbn [obind]. rewrite upd_same by assumption. eauto.
    - apply (On i (fun a => (a, RVerdict (inp ++ fst (a_sum go_decide a)) (snd (a_sum go_decide a))))) in E. destruct E as (a & d & Ea & Ed & Hd & -> & ->). rewrite Ed. cbn [obind fst snd].
      rewrite (CRSum_ok a d inp Hd). cbn [obind]. rewrite upd_same by assumption. eauto.
    - apply (On i (fun a => (a_new, RUnit))) in E. destruct E as (a & d & Ea & Ed & Hd & -> & ->). rewrite Ed. cbn [obind fst snd].
      eexists. split; [reflexivity|]. apply Forall2_upd; [assumption|]. eapply Reset_ok; eassumption.
    - apply (On i (fun a => (a, RBytes (a_marshal go_decide a)))) in E. destruct E as (a & d & Ea & Ed & Hd & -> & ->). rewrite Ed. cbn [obind fst snd].
      rewrite (Marshal_ok a d Hd). cbn [obind]. rewrite upd_same by assumption. eauto.
    - apply (On i (fun a => a_unmarshal go_decide a b)) in E. destruct E as (a & d & Ea & Ed & Hd & -> & ->). rewrite Ed. cbn [obind].
      destruct (Unmarshal_ok a d b Hd) as (d' & E & Hd'). rewrite E. cbn [obind].
      eexists. split; [|apply Forall2_upd; eassumption]. do 2 f_equal.
      unfold a_unmarshal. destruct (negb (has_magic b)); [reflexivity|]. destruct (negb _); reflexivity.
    - apply (On i (fun a => (a, RNum 20))) in E. destruct E as (a & d & Ea & Ed & Hd & -> & ->). rewrite Ed. cbn [obind fst snd]. rewrite upd_same by assumption. eauto.
    - apply (On i (fun a => (a, RNum 64))) in E. destruct E as (a & d & Ea & Ed & Hd & -> & ->). rewrite Ed. cbn [obind fst snd]. rewrite upd_same by assumption. eauto.
    - injection E as <- <-. rewrite SumPkg_ok. cbn [obind]. eauto.
  Qed.
End Blk.

(** Whole histories. *)
Lemma run_ok early os : forall hs ds hs' rs, Forall2 R hs ds ->
  Forall (fun bo => block_ok (fst bo)) os ->
  a_run early go_decide hs (map snd os) = Some (hs', rs) ->
  exists ds', run early ds os = Some (ds', rs) /\ Forall2 R hs' ds'.
Proof.
  induction os as [|[blk o] os IH]; intros hs ds hs' rs H Hb E.
  - injection E as <- <-. cbn. eauto.
  - cbn [map snd a_run] in E. destruct (a_exec early go_decide hs o) as [[hs1 x]|] eqn:E1; [|discriminate].
    destruct (a_run early go_decide hs1 (map snd os)) as [[hs2 xs]|] eqn:E2; [|discriminate].
    injection E as <- <-. inversion Hb as [|? ? Hb1 Hb2]; subst.
    destruct (exec_ok blk Hb1 early hs ds o hs1 x H E1) as (ds1 & X1 & H1).
    destruct (IH hs1 ds1 hs2 xs H1 Hb2 E2) as (ds2 & X2 & H2).
    cbn [run]. rewrite X1. cbn [obind]. rewrite X2. cbn [obind]. eauto.
Qed.

(** Well-scoped histories run in the specification. *)
Lemma put_length {A} (v : A) l : forall i, length (put i v l) = length l.
Proof. induction l; intros [|i]; simpl; auto. Qed.
Lemma a_exec_scoped early D hs o : match target o with Some i => (i < length hs)%nat | None => True end ->
  exists hs' r, a_exec early D hs o = Some (hs', r) /\ length hs' = match o with ONew => S (length hs) | _ => length hs end.
Proof.
  destruct o; cbn [target a_exec]; intros H;
    try (apply nth_error_Some in H; destruct (nth_error hs i) as [a|]; [|congruence];
         try destruct (a_unmarshal D a b); eexists _, _; split; [reflexivity|apply put_length]).
  - eexists _, _. split; [reflexivity|]. rewrite app_length. simpl. lia.
  - eauto.
Qed.
Lemma a_run_scoped early D os : forall hs, scoped (length hs) os -> exists hs' rs, a_run early D hs os = Some (hs', rs).
Proof.
  induction os as [|o os IH]; intros hs H; cbn [a_run]; [eauto|].
  destruct H as [H1 H2]. destruct (a_exec_scoped early D hs o H1) as (hs1 & r & E & L).
  rewrite E. rewrite <- L in H2. destruct (IH hs1 H2) as (hs2 & rs & E2). rewrite E2. eauto.
Qed.

(** ** Any decision procedure gives the same specification *)
Definition agree (D E : st -> list word -> bool) : Prop :=
  forall h M, wfst h -> length M = 16%nat -> Forall wf M -> D h M = E h M.
Lemma decides_same P D E : decides D P -> decides E P -> agree D E.
Proof.
  intros HD HE h M Hh HM WM. pose proof (HD h M Hh HM WM) as A. pose proof (HE h M Hh HM WM) as B.
  destruct (D h M), (E h M); intuition congruence.
Qed.
Lemma decides_agree D : decides D go_detects -> agree D go_decide.
Proof. intros HD. exact (decides_same _ _ _ HD go_decide_decides). Qed.

(** Abstract hashers reached in a run are well formed. *)
Definition ahwf (a : ahash) : Prop := wfst (fst (ah_start a)).

Section Agree.
  Variables D E : st -> list word -> bool.
  Hypothesis HD : agree D E.

  Lemma cd_blocks_agree2 bs : forall s, Forall (fun b => length b = 64%nat) bs -> wfst (fst s) ->
    cd_blocks D s bs = cd_blocks E s bs.
  Proof.
    induction bs as [|b bs IH]; intros s Hb Hs; [reflexivity|].
    inversion Hb as [|? ? Hb1 Hb2]; subst. rewrite !cd_blocks_cons. unfold cd_block.
    rewrite HD by (auto using wf_words_of, words_of_length).
    apply IH; [assumption|]. cbn [fst]. destruct (E _ _); apply wfst_compress.
  Qed.
  Lemma cd_sum_agree2 m : cd_sum D m = cd_sum E m.
  Proof. unfold cd_sum. rewrite cd_blocks_agree2; auto using blocks_len. cbn. repeat split; reflexivity. Qed.
  Lemma a_mid_agree2 a : ahwf a -> a_mid D a = a_mid E a.
  Proof. intros Ha. unfold a_mid. apply cd_blocks_agree2; auto using blocks_len. Qed.
  Lemma a_sum_agree2 a : ahwf a -> a_sum D a = a_sum E a.
  Proof. intros Ha. unfold a_sum. rewrite cd_blocks_agree2; auto using blocks_len. Qed.
  Lemma a_marshal_agree2 a : ahwf a -> a_marshal D a = a_marshal E a.
  Proof. intros Ha. unfold a_marshal. rewrite a_mid_agree2; auto. Qed.
  Lemma a_unmarshal_agree2 a b : ahwf a -> a_unmarshal D a b = a_unmarshal E a b.
  Proof. intros Ha. unfold a_unmarshal, a_restore. rewrite a_mid_agree2; auto. Qed.
End Agree.
Lemma cd_blocks_agree D : decides D go_detects -> forall bs s, Forall (fun b => length b = 64%nat) bs -> wfst (fst s) ->
  cd_blocks D s bs = cd_blocks go_decide s bs.
Proof. intros HD. exact (cd_blocks_agree2 D go_decide (decides_agree D HD)). Qed.
Lemma cd_sum_agree D m : decides D go_detects -> cd_sum D m = cd_sum go_decide m.
Proof. intros HD. exact (cd_sum_agree2 D go_decide (decides_agree D HD) m). Qed.
Lemma a_mid_agree D a : decides D go_detects -> ahwf a -> a_mid D a = a_mid go_decide a.
Proof. intros HD. exact (a_mid_agree2 D go_decide (decides_agree D HD) a). Qed.
Lemma a_sum_agree D a : decides D go_detects -> ahwf a -> a_sum D a = a_sum go_decide a.
Proof. intros HD. exact (a_sum_agree2 D go_decide (decides_agree D HD) a). Qed.
Lemma a_marshal_agree D a : decides D go_detects -> ahwf a -> a_marshal D a = a_marshal go_decide a.
Proof. intros HD. exact (a_marshal_agree2 D go_decide (decides_agree D HD) a). Qed.
Lemma a_unmarshal_agree D a b : decides D go_detects -> ahwf a -> a_unmarshal D a b = a_unmarshal go_decide a b.
Proof. intros HD. exact (a_unmarshal_agree2 D go_decide (decides_agree D HD) a b). Qed.

Lemma ahwf_new : ahwf a_new. Proof. repeat split; reflexivity. Qed.
Lemma ahwf_unmarshal D a b : ahwf a -> ahwf (fst (a_unmarshal D a b)).
Proof.
  intros Ha. unfold a_unmarshal. destruct (negb _); [assumption|].
  destruct (Nat.eqb_spec (length b) 98); cbn [negb fst]; [|assumption].
  unfold ahwf, a_restore. cbn [ah_start fst]. apply blob_st_wf. assumption.
Qed.
Lemma Forall_put {A} (P : A -> Prop) v l : forall i, Forall P l -> P v -> Forall P (put i v l).
Proof. induction l; intros [|i] H Hv; simpl; auto; inversion H; subst; constructor; auto. Qed.
Lemma Forall_nth_error {A} (P : A -> Prop) l i x : Forall P l -> nth_error l i = Some x -> P x.
Proof. intros H E. apply nth_error_In in E. rewrite Forall_forall in H. auto. Qed.

Lemma a_exec_agree2 early D E hs o : agree D E -> Forall ahwf hs -> a_exec early D hs o = a_exec early E hs o.
Proof.
  intros HD H. destruct o; cbn [a_exec]; try reflexivity;
    try (destruct (nth_error hs i) as [a|] eqn:En; [|reflexivity]; pose proof (Forall_nth_error _ _ _ _ H En) as Ha).
  - rewrite (a_sum_agree2 D E) by assumption. reflexivity.
  - rewrite (a_sum_agree2 D E) by assumption. reflexivity.
  - rewrite (a_marshal_agree2 D E) by assumption. reflexivity.
  - rewrite (a_unmarshal_agree2 D E) by assumption. reflexivity.
  - rewrite (cd_sum_agree2 D E) by assumption. rewrite (cd_blocks_agree2 D E HD); auto using blocks_len. cbn. repeat split; reflexivity.
Qed.
Lemma a_exec_wf early D hs o hs' r : Forall ahwf hs -> a_exec early D hs o = Some (hs', r) -> Forall ahwf hs'.
Proof.
  intros H E. destruct o; cbn [a_exec] in E;
    try (destruct (nth_error hs i) as [a|] eqn:En; [|discriminate]; pose proof (Forall_nth_error _ _ _ _ H En) as Ha);
    try (injection E as <- <-; apply Forall_put; [assumption|]; first [exact Ha | exact ahwf_new]).
  - injection E as <- <-. apply Forall_app. split; [assumption|]. constructor; [exact ahwf_new|constructor].
  - pose proof (ahwf_unmarshal D a b Ha) as Hu. destruct (a_unmarshal D a b) as [a' r']. injection E as <- <-.
    apply Forall_put; assumption.
  - injection E as <- <-. assumption.
Qed.
Lemma a_run_agree2 early D E os : agree D E -> forall hs, Forall ahwf hs ->
  a_run early D hs os = a_run early E hs os.
Proof.
  intros HD. induction os as [|o os IH]; intros hs H; cbn [a_run]; [reflexivity|].
  rewrite (a_exec_agree2 early D E) by assumption.
  destruct (a_exec early E hs o) as [[hs1 x]|] eqn:En; [|reflexivity].
  rewrite IH; [reflexivity|]. eapply a_exec_wf; eassumption.
Qed.
Lemma a_run_agree early D os : decides D go_detects -> forall hs, Forall ahwf hs ->
  a_run early D hs os = a_run early go_decide hs os.
Proof. intros HD. exact (a_run_agree2 early D go_decide os (decides_agree D HD)). Qed.

(** The refinement theorem: every well-scoped history, with any correct block function for
    each call, produces exactly the results of the abstract program. *)
Theorem history_refines early D os : decides D go_detects ->
  Forall (fun bo => block_ok (fst bo)) os -> scoped 0 (map snd os) ->
  exists ds hs rs, run early [] os = Some (ds, rs) /\ a_run early D [] (map snd os) = Some (hs, rs).
Proof.
  intros HD Hb Hs. destruct (a_run_scoped early D (map snd os) [] Hs) as (hs & rs & E).
  rewrite (a_run_agree early D) in E |- * by auto.
  destruct (run_ok early os [] [] hs rs (Forall2_nil _) Hb E) as (ds & X & _). eauto 6.
Qed.
