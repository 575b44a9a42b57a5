(** The benchmarks: what they hash and what they allocate. *)

From Coq Require Import Arith ZArith NArith List Strings.Byte Lia Bool ZifyNat.
From Verif Require Import Word WordFacts Spec_Sha1 Sha1Facts Spec_DV Spec_Cd Spec_Api Spec_C
  Model_Go Model_Api Model_Block Model_Slice Model_C GoCheck GoBlock GoApi GoStore GoAsm GoProps GoSlices CGo Tests
  Model_Bench Spec_Bench.
Import ListNotations.
Local Open Scope nat_scope.
Ltac Zify.zify_post_hook ::= idtac.

Definition brep (h : bhasher) : Prop := match h with BGo _ d => exists a, R a d | BCgo d => exists a, CD a d end.
Lemma brep_new h : brand_new h -> brep h.
Proof. destruct h as [m d|d]; intros ->; exists a_new; [exact Rep_New|exact CD_new]. Qed.

Lemma cd_sum_length D m : length (fst (cd_sum D m)) = 20.
Proof. unfold cd_sum. destruct (cd_blocks _ _ _). reflexivity. Qed.

Lemma iter_r {A} (f : A -> A) n x : Nat.iter (S n) f x = Nat.iter n f (f x).
Proof. induction n as [|n IH]; [reflexivity|]. change (f (Nat.iter (S n) f x) = f (Nat.iter n f (f x))). f_equal. exact IH. Qed.

Section Cfg.
  Variable cfg : ccfg.
  Hypothesis Hcfg : host_be cfg = macro_be cfg.
  Variables D E : st -> list word -> bool.
  Hypothesis HD : decides D go_detects.
  Hypothesis HE : decides E attacked.
  Variable grow : nat.

  Lemma iter_ok H h v w : brep h -> slice_of H w -> 20 <= s_cap w ->
    exists h', brep h' /\ detection D E h' = detection D E h /\
      b_iter cfg grow H h v w =
      Some (upd (s_arr w) (splice (array H (s_arr w)) (s_off w) (fst (cd_sum (detection D E h) (contents H v)))) H, h',
            mksl (s_arr w) (s_off w) 20 (s_cap w)).
  Proof.
    intros Hh Hw Hc. unfold b_iter, h_reslice. cbn [Nat.leb].
    set (m := contents H v).
    assert (X : forall bs, length bs = 20 -> h_append grow H (mksl (s_arr w) (s_off w) 0 (s_cap w)) bs =
      (upd (s_arr w) (splice (array H (s_arr w)) (s_off w) bs) H, mksl (s_arr w) (s_off w) 20 (s_cap w))).
    { intros bs L. unfold h_append. cbn [s_arr s_off s_len s_cap]. rewrite L, Nat.add_0_r. cbn [Nat.add].
      rewrite (proj2 (Nat.leb_le 20 (s_cap w)) Hc). reflexivity. }
    destruct h as [i d|d]; destruct Hh as [a Ha]; cbn [b_reset b_write b_sum detection].
    - apply Reset_ok in Ha. destruct (Write_a (block_of i) (block_of_ok i) _ _ m Ha) as (d' & -> & Hd). cbn [obind b_sum].
      unfold h_Sum. destruct (checkSum_a (block_of i) (block_of_ok i) _ _ Hd) as (d0 & -> & _). cbn [obind].
      rewrite a_sum_new, X by apply cd_sum_length. exists (BGo i d'). split; [eexists; exact Hd|]. split; [reflexivity|].
      rewrite (go_agree D) by exact HD. reflexivity.
    - apply cgo_reset_ok in Ha. destruct (cgo_write_ok cfg Hcfg _ _ m Ha) as (d' & -> & Hd). cbn [obind b_sum].
      unfold h_cgo_Sum. destruct (cgo_sum_ok cfg Hcfg _ _ Hd) as (d0 & ->). cbn [obind].
      rewrite a_sum_new, X by apply cd_sum_length. exists (BCgo d'). split; [eexists; exact Hd|]. split; [reflexivity|].
      rewrite (cgo_agree E) by exact HE. reflexivity.
  Qed.

  Lemma slice_upd H s a bs at_ : slice_of H s -> a < length H -> at_ + length bs <= length (array H a) ->
    slice_of (upd a (splice (array H a) at_ bs) H) s.
  Proof.
    intros (A & B & C) Ha Hb. unfold slice_of. rewrite upd_length. split; [exact A|]. split; [exact B|].
    pose proof (array_upd H a (splice (array H a) at_ bs) Ha (s_arr s)) as X. unfold array at 1 in X. rewrite X.
    destruct (Nat.eqb_spec (s_arr s) a) as [Ea|Ea]; [|exact C]. rewrite splice_length by exact Hb. rewrite <- Ea. exact C.
  Qed.
  Lemma contents_over H s bs : slice_of H s -> length bs = 20 -> 20 <= s_len s ->
    contents (upd (s_arr s) (splice (array H (s_arr s)) (s_off s) bs) H) s = bs ++ skipn 20 (contents H s).
  Proof.
    intros (A & B & C) L Hl. unfold contents. rewrite array_upd, Nat.eqb_refl by exact A. unfold splice. fold (array H (s_arr s)) in C.
    set (l := array H (s_arr s)) in *. rewrite skipn_app, firstn_length, Nat.min_l by lia. rewrite Nat.sub_diag, skipn_O.
    rewrite skipn_all2 by (rewrite firstn_length; lia). cbn [app]. rewrite firstn_app, firstn_all2 by lia. f_equal.
    rewrite L, skipn_firstn_comm. f_equal. rewrite skipn_skipn. f_equal; lia.
  Qed.

  Lemma content_loop n : forall H h v, brep h -> slice_of H v -> 20 <= s_len v ->
    exists H' h', b_loop cfg grow n H h v v = Some (H', h') /\ brep h' /\ slice_of H' v /\ length H' = length H /\
      contents H' v = Nat.iter n (overwritten (detection D E h)) (contents H v) /\
      (forall a, a <> s_arr v -> nth a H' [] = nth a H []).
  Proof.
    induction n as [|n IH]; intros H h v Hh Hv Hl; [cbn; eauto 10|].
    assert (Hc : 20 <= s_cap v) by (destruct Hv as (_ & B & _); lia).
    destruct (iter_ok H h v v Hh Hv Hc) as (h1 & Hh1 & Ed & Ei). cbn [b_loop]. rewrite Ei. cbn [obind].
    set (m := contents H v) in *. set (bs := fst (cd_sum _ m)) in *. set (H1 := upd _ _ H).
    assert (L : length bs = 20) by apply cd_sum_length.
    assert (Hv1 : slice_of H1 v).
    { destruct Hv as (A & B & C). apply slice_upd; [split; auto|exact A|]. fold (array H (s_arr v)) in C. lia. }
    destruct (IH H1 h1 v Hh1 Hv1 Hl) as (H2 & h2 & El & Hh2 & Hv2 & Hlen & Hcon & Hoth).
    exists H2, h2. split; [exact El|]. split; [exact Hh2|]. split; [exact Hv2|].
    split; [rewrite Hlen; apply upd_length|]. split.
    - rewrite Hcon, Ed. unfold H1. rewrite contents_over by assumption.
      change (bs ++ skipn 20 (contents H v)) with (overwritten (detection D E h) m).
      symmetry. apply iter_r.
    - intros a Ha. rewrite Hoth by exact Ha. pose proof (array_upd H (s_arr v) (splice (array H (s_arr v)) (s_off v) bs) (proj1 Hv) a) as X.
      unfold array in X at 1. fold H1 in X. rewrite X. rewrite (proj2 (Nat.eqb_neq a (s_arr v)) Ha). reflexivity.
  Qed.

  Lemma content_bench runs : forall H v, Forall (fun x => brand_new (fst x)) runs -> slice_of H v -> 20 <= s_len v ->
    exists H', BenchmarkHashWithCollision cfg grow H runs v = Some H' /\ length H' = length H /\
      contents H' v = fold_left (fun m x => Nat.iter (snd x) (overwritten (detection D E (fst x))) m) runs (contents H v) /\
      (forall a, a <> s_arr v -> nth a H' [] = nth a H []).
  Proof.
    induction runs as [|[h n] runs IH]; intros H v Hr Hv Hl; [cbn; eauto|]. inversion Hr as [|? ? Hn Hr']; subst.
    cbn [fst] in Hn. destruct (content_loop n H h v (brep_new h Hn) Hv Hl) as (H1 & h1 & E1 & _ & Hv1 & L1 & C1 & O1).
    destruct (IH H1 v Hr' Hv1 Hl) as (H2 & E2 & L2 & C2 & O2).
    exists H2. cbn [BenchmarkHashWithCollision fold_left fst snd]. rewrite E1. cbn [obind]. split; [exact E2|].
    split; [congruence|]. split; [rewrite C2, C1; reflexivity|]. intros a Ha. rewrite O2, O1 by exact Ha. reflexivity.
  Qed.

  (** A destination in another array. *)
  Lemma other_step H v w bs : slice_of H v -> slice_of H w -> s_arr v <> s_arr w -> length bs = 20 -> 20 <= s_cap w ->
    let H' := upd (s_arr w) (splice (array H (s_arr w)) (s_off w) bs) H in
    slice_of H' v /\ slice_of H' w /\ contents H' v = contents H v /\ contents H' (mksl (s_arr w) (s_off w) 20 (s_cap w)) = bs /\ length H' = length H.
  Proof.
    intros Hv Hw Hne L Hc H'. destruct Hw as (A & B & C). pose proof C as C'. fold (array H (s_arr w)) in C'.
    assert (X : s_off w + length bs <= length (array H (s_arr w))) by lia.
    split; [apply slice_upd; auto|]. split; [apply slice_upd; auto; split; auto|].
    split; [|split; [|apply upd_length]].
    - unfold contents, H'. rewrite array_upd by exact A. rewrite (proj2 (Nat.eqb_neq _ _) Hne). reflexivity.
    - pose proof (contents_over H (mksl (s_arr w) (s_off w) 20 (s_cap w)) bs) as Y. cbn [s_arr s_off s_len s_cap] in Y. unfold H'.
      rewrite Y; [|split; [exact A|split; [exact Hc|exact C]]|exact L|lia].
      rewrite skipn_all2; [apply app_nil_r|]. unfold contents. rewrite firstn_length. cbn [s_len]. lia.
  Qed.

  Lemma size_loop n : forall H h v w, brep h -> slice_of H v -> slice_of H w -> s_arr v <> s_arr w -> 20 <= s_cap w ->
    exists H' h', b_loop cfg grow n H h v w = Some (H', h') /\ length H' = length H /\ contents H' v = contents H v /\
      (n <> 0 -> contents H' (mksl (s_arr w) (s_off w) 20 (s_cap w)) = fst (cd_sum (detection D E h) (contents H v))).
  Proof.
    induction n as [|n IH]; intros H h v w Hh Hv Hw Hne Hc; [cbn; exists H, h; intuition|].
    destruct (iter_ok H h v w Hh Hw Hc) as (h1 & Hh1 & Ed & Ei). cbn [b_loop]. rewrite Ei. cbn [obind].
    set (bs := fst (cd_sum _ (contents H v))) in *.
    destruct (other_step H v w bs Hv Hw Hne (cd_sum_length _ _) Hc) as (Hv1 & Hw1 & C1 & C2 & L1).
    set (H1 := upd _ _ H) in *.
    destruct (IH H1 h1 v w Hh1 Hv1 Hw1 Hne Hc) as (H2 & h2 & El & L2 & C3 & C4).
    exists H2, h2. split; [exact El|]. split; [congruence|]. split; [congruence|]. intros _.
    destruct n as [|n]; [cbn in El; injection El as <- <-; exact C2|]. rewrite C4 by discriminate. rewrite Ed, C1. reflexivity.
  Qed.
  Lemma alloc_loop_ok n : forall H h v w, brep h -> slice_of H v -> slice_of H w -> s_arr v <> s_arr w -> 20 <= s_cap w ->
    exists H' r, alloc_loop cfg grow n H h v w = Some (H', r) /\ length H' = length H /\ contents H' v = contents H v /\
      s_arr r = s_arr w /\ s_off r = s_off w /\ s_cap r = s_cap w /\
      (n <> 0 -> contents H' r = fst (cd_sum (detection D E h) (contents H v))).
  Proof.
    induction n as [|n IH]; intros H h v w Hh Hv Hw Hne Hc; [cbn; exists H, w; intuition|].
    destruct (iter_ok H h v w Hh Hw Hc) as (h1 & Hh1 & Ed & Ei). cbn [alloc_loop]. rewrite Ei. cbn [obind].
    set (bs := fst (cd_sum _ (contents H v))) in *.
    destruct (other_step H v w bs Hv Hw Hne (cd_sum_length _ _) Hc) as (Hv1 & Hw1 & C1 & C2 & L1).
    set (H1 := upd _ _ H) in *. set (w1 := mksl (s_arr w) (s_off w) 20 (s_cap w)) in *.
    assert (Hw2 : slice_of H1 w1) by (destruct Hw1 as (A & B & C); split; [exact A|]; split; [exact Hc|exact C]).
    destruct (IH H1 h1 v w1 Hh1 Hv1 Hw2 Hne Hc) as (H2 & r & El & L2 & C3 & R1 & R2 & R3 & C4).
    exists H2, r. split; [exact El|]. split; [congruence|]. split; [congruence|]. split; [exact R1|]. split; [exact R2|]. split; [exact R3|]. intros _.
    destruct n as [|n]; [cbn in El; injection El as <- <-; exact C2|]. rewrite C4 by discriminate. rewrite Ed, C1. reflexivity.
  Qed.
End Cfg.

Lemma size_new cfg : host_be cfg = macro_be cfg -> forall D E, decides D go_detects -> decides E attacked ->
  forall grow n H h v w, brand_new h -> slice_of H v -> slice_of H w -> s_arr v <> s_arr w -> 20 <= s_cap w ->
  exists H' h', b_loop cfg grow n H h v w = Some (H', h') /\ length H' = length H /\ contents H' v = contents H v /\
    (n <> 0 -> contents H' (mksl (s_arr w) (s_off w) 20 (s_cap w)) = fst (cd_sum (detection D E h) (contents H v))).
Proof. intros Hc D E HD HE grow n H h v w Hn. exact (size_loop cfg Hc D E HD HE grow n H h v w (brep_new h Hn)). Qed.
Lemma alloc_new cfg : host_be cfg = macro_be cfg -> forall D E, decides D go_detects -> decides E attacked ->
  forall grow n H h v w, brand_new h -> slice_of H v -> slice_of H w -> s_arr v <> s_arr w -> 20 <= s_cap w ->
  exists H' r, alloc_loop cfg grow n H h v w = Some (H', r) /\ length H' = length H /\ contents H' v = contents H v /\
    s_arr r = s_arr w /\ s_off r = s_off w /\ s_cap r = s_cap w /\
    (n <> 0 -> contents H' r = fst (cd_sum (detection D E h) (contents H v))).
Proof. intros Hc D E HD HE grow n H h v w Hn. exact (alloc_loop_ok cfg Hc D E HD HE grow n H h v w (brep_new h Hn)). Qed.

Lemma small_iter cfg grow H h v w : host_be cfg = macro_be cfg -> brep h -> s_cap w < 20 ->
  exists x h' r, brep h' /\ b_iter cfg grow H h v w = Some (H ++ [x], h', r).
Proof.
  intros Hcfg Hh Hc. unfold b_iter, h_reslice. cbn [Nat.leb].
  set (m := contents H v).
  assert (X : forall bs, length bs = 20 -> exists x r, h_append grow H (mksl (s_arr w) (s_off w) 0 (s_cap w)) bs = (H ++ [x], r)).
  { intros bs L. unfold h_append. cbn [s_arr s_off s_len s_cap]. rewrite L. cbn [Nat.add].
    rewrite (proj2 (Nat.leb_gt 20 (s_cap w)) Hc). eauto. }
  destruct h as [i d|d]; destruct Hh as [a Ha]; cbn [b_reset b_write b_sum].
  - apply Reset_ok in Ha. destruct (Write_a (block_of i) (block_of_ok i) _ _ m Ha) as (d' & -> & Hd). cbn [obind b_sum].
    unfold h_Sum. destruct (checkSum_a (block_of i) (block_of_ok i) _ _ Hd) as (d0 & -> & _). cbn [obind].
    rewrite a_sum_new. destruct (X _ (cd_sum_length go_decide m)) as (x & r & ->). cbn [obind].
    exists x, (BGo i d'), r. split; [eexists; exact Hd|reflexivity].
  - apply cgo_reset_ok in Ha. destruct (cgo_write_ok cfg Hcfg _ _ m Ha) as (d' & -> & Hd). cbn [obind b_sum].
    unfold h_cgo_Sum. destruct (cgo_sum_ok cfg Hcfg _ _ Hd) as (d0 & ->). cbn [obind].
    rewrite a_sum_new. destruct (X _ (cd_sum_length cgo_decide m)) as (x & r & ->). cbn [obind].
    exists x, (BCgo d'), r. split; [eexists; exact Hd|reflexivity].
Qed.
Lemma small_loop cfg grow n v w : host_be cfg = macro_be cfg -> s_cap w < 20 -> forall H h, brep h ->
  exists H' h', b_loop cfg grow n H h v w = Some (H', h') /\ length H' = length H + n.
Proof.
  intros Hcfg Hc. induction n as [|n IH]; intros H h Hh; [exists H, h; split; [reflexivity|lia]|].
  cbn [b_loop]. destruct (small_iter cfg grow H h v w Hcfg Hh Hc) as (x & h1 & r & Hh1 & ->). cbn [obind].
  destruct (IH (H ++ [x]) h1 Hh1) as (H' & h' & -> & L). exists H', h'. split; [reflexivity|]. rewrite L, app_length. cbn. lia.
Qed.
Lemma small_new cfg : host_be cfg = macro_be cfg -> forall grow n H h v w, brand_new h -> s_cap w < 20 ->
  exists H' h', b_loop cfg grow n H h v w = Some (H', h') /\ length H' = length H + n.
Proof. intros Hc grow n H h v w Hn Hw. exact (small_loop cfg grow n v w Hc Hw H h (brep_new h Hn)). Qed.
