(** The tests of the repository: what they check. *)

From Coq Require Import Arith ZArith NArith List Strings.Byte Lia Bool ZifyNat.
From Verif Require Import Word WordFacts Spec_Sha1 Sha1Facts Spec_DV Spec_Cd Spec_Api Spec_C DvFacts
  Model_Go Model_Api Model_Block Model_Ubc Model_C Model_CApi GoCheck GoBlock GoApi GoStore GoDetect GoAsm GoProps GoProps2 CCtx CGo CProps
  Model_Tests Spec_Tests.
Import ListNotations.
Local Open Scope N_scope.
Ltac Zify.zify_post_hook ::= idtac.

(** ** The abstract run of a test *)
Fixpoint a_test (early : bool) (hs cs : list ahash) (t : test) : option bool :=
  match t with
  | Pass => Some true
  | Fail => Some false
  | Call InGo o k => match a_exec early go_decide hs o with Some (hs, r) => a_test early hs cs (k r) | None => None end
  | Call InCgo o k => match a_exec false cgo_decide cs o with Some (cs, r) => a_test early hs cs (k r) | None => None end
  end.

Lemma a_exec_numbered early D hs o hs' r : a_exec early D hs o = Some (hs', r) -> numbered (length hs) o r.
Proof. destruct o; try (intros _; exact I). cbn [a_exec numbered]. intros E. injection E as _ <-. reflexivity. Qed.

Section Cfg.
  Variable cfg : ccfg.
  Hypothesis Hcfg : host_be cfg = macro_be cfg.

  Lemma run_test_ok early ms t : forall n hs ds cs cds m p, fits m p t -> length hs = m -> length cs = p ->
    Forall2 R hs ds -> Forall2 CD cs cds ->
    exists b, a_test early hs cs t = Some b /\ run_test early cfg ms n ds cds t = Some b.
  Proof.
    induction t as [| |l o k IH]; intros n hs ds cs cds m p Hf Hm Hp H1 H2; [cbn; eauto|cbn; eauto|].
    inversion Hf as [| |? ? ? ? Ho Hk|? ? ? ? Hc Ho Hk]; subst; cbn [a_test run_test].
    - destruct (a_exec_scoped early go_decide hs o Ho) as (hs' & r & E & L).
      destruct (GoStore.exec_ok (block_of (ms n)) (block_of_ok (ms n)) early hs ds o hs' r H1 E) as (ds' & X & H1').
      rewrite E, X. cbn [obind]. eapply IH; eauto. apply Hk. exact (a_exec_numbered _ _ _ _ _ _ E).
    - destruct (a_exec_scoped false cgo_decide cs o Ho) as (cs' & r & E & L).
      destruct (c_exec_ok cfg Hcfg cs cds o cs' r Hc H2 E) as (cds' & X & H2').
      rewrite E, X. cbn [obind]. eapply IH; eauto. apply Hk. exact (a_exec_numbered _ _ _ _ _ _ E).
  Qed.

  Lemma run_closed early ms t b : fits 0 0 t -> a_test early [] [] t = Some b -> run_test early cfg ms 0 [] [] t = Some b.
  Proof.
    intros H E. destruct (run_test_ok early ms t 0%nat [] [] [] [] 0%nat 0%nat H eq_refl eq_refl (Forall2_nil _) (Forall2_nil _)) as (b' & A & B).
    congruence.
  Qed.
End Cfg.

Lemma adaptive early cfg ms t : host_be cfg = macro_be cfg -> fits 0 0 t ->
  exists b, run_test early cfg ms 0 [] [] t = Some b /\
    forall cfg' ms', host_be cfg' = macro_be cfg' -> run_test early cfg' ms' 0 [] [] t = Some b.
Proof.
  intros Hc Hf.
  destruct (run_test_ok cfg Hc early ms t 0%nat [] [] [] [] 0%nat 0%nat Hf eq_refl eq_refl (Forall2_nil _) (Forall2_nil _)) as (b & A & B).
  exists b. split; [exact B|]. intros cfg' ms' Hc'. apply run_closed; assumption.
Qed.

(** ** Steps *)
Lemma same_ok a b : same a b = true <-> a = b.
Proof. unfold same. destruct (list_eq_dec _ a b); split; congruence. Qed.
Lemma same_refl a : same a a = true.
Proof. apply same_ok. reflexivity. Qed.
Lemma a_require early hs cs b k : a_test early hs cs (require b k) = if b then a_test early hs cs k else Some false.
Proof. destruct b; reflexivity. Qed.

Lemma nth_mid {A} (l : list A) x r : nth_error (l ++ x :: r) (length l) = Some x.
Proof. induction l; [reflexivity|exact IHl]. Qed.
Lemma put_mid {A} (l : list A) x y r : put (length l) y (l ++ x :: r) = l ++ y :: r.
Proof. induction l; [reflexivity|]. cbn [length app put]. rewrite IHl. reflexivity. Qed.

Section Steps.
  Variable early : bool.
  Variables (l r : list ahash).
  Variable a : ahash.

  Lemma go_new cs k hs : a_test early hs cs (t_new InGo k) = a_test early (hs ++ [a_new]) cs (k (length hs)).
  Proof. reflexivity. Qed.
  Lemma cgo_new cs k hs : a_test early hs cs (t_new InCgo k) = a_test early hs (cs ++ [a_new]) (k (length cs)).
  Proof. reflexivity. Qed.

  Lemma go_write cs k m : a_test early (l ++ a :: r) cs (t_write InGo (length l) m k) = a_test early (l ++ a_write a m :: r) cs k.
  Proof. cbn [t_write a_test a_exec]. rewrite nth_mid, put_mid. reflexivity. Qed.
  Lemma go_reset cs k : a_test early (l ++ a :: r) cs (t_reset InGo (length l) k) = a_test early (l ++ a_new :: r) cs k.
  Proof. cbn [t_reset a_test a_exec]. rewrite nth_mid, put_mid. reflexivity. Qed.
  Lemma go_sum cs k : a_test early (l ++ a :: r) cs (t_sum InGo (length l) k) = a_test early (l ++ a :: r) cs (k (fst (a_sum go_decide a))).
  Proof. cbn [t_sum a_test a_exec]. rewrite nth_mid, put_mid. reflexivity. Qed.
  Lemma go_crsum cs k : a_test early (l ++ a :: r) cs (t_crsum InGo (length l) k) =
    a_test early (l ++ a :: r) cs (k (fst (a_sum go_decide a)) (snd (a_sum go_decide a))).
  Proof. cbn [t_crsum a_test a_exec]. rewrite nth_mid, put_mid. reflexivity. Qed.
  Lemma go_marshal cs k : a_test early (l ++ a :: r) cs (t_marshal (length l) k) = a_test early (l ++ a :: r) cs (k (a_marshal go_decide a)).
  Proof. cbn [t_marshal a_test a_exec]. rewrite nth_mid, put_mid. reflexivity. Qed.
  Lemma go_unmarshal cs k b : a_test early (l ++ a :: r) cs (t_unmarshal (length l) b k) =
    if accepted b then a_test early (l ++ a_restore go_decide a (blob_st b) (blob_buf b) (blob_len b) :: r) cs k else Some false.
  Proof.
    cbn [t_unmarshal a_test a_exec]. rewrite nth_mid. unfold a_unmarshal, accepted.
    destruct (has_magic b); cbn [negb andb]; [|reflexivity].
    destruct (length b =? 98)%nat; cbn [negb]; [|reflexivity]. rewrite put_mid. reflexivity.
  Qed.
  Lemma cgo_write hs k m : a_test early hs (l ++ a :: r) (t_write InCgo (length l) m k) = a_test early hs (l ++ a_write a m :: r) k.
  Proof. cbn [t_write a_test a_exec]. rewrite nth_mid, put_mid. reflexivity. Qed.
  Lemma cgo_reset hs k : a_test early hs (l ++ a :: r) (t_reset InCgo (length l) k) = a_test early hs (l ++ a_new :: r) k.
  Proof. cbn [t_reset a_test a_exec]. rewrite nth_mid, put_mid. reflexivity. Qed.
  Lemma cgo_crsum hs k : a_test early hs (l ++ a :: r) (t_crsum InCgo (length l) k) =
    a_test early hs (l ++ a :: r) (k (fst (a_sum cgo_decide a)) (snd (a_sum cgo_decide a))).
  Proof. cbn [t_crsum a_test a_exec]. rewrite nth_mid, put_mid. reflexivity. Qed.
End Steps.

(** ** Hexadecimal *)
Lemma hexdigit_ok u : (u < 16)%nat -> nth_error digits u = Some (hexdigit (N.of_nat u)).
Proof. intros H. do 16 (destruct u as [|u]; [reflexivity|]). lia. Qed.
Lemma b2n_lt x : b2n x < 256.
Proof. destruct x; reflexivity. Qed.
Lemma hex_length b : length (hex b) = (2 * length b)%nat.
Proof. unfold hex. induction b; [reflexivity|]. cbn [flat_map app length]. rewrite IHb. lia. Qed.
Lemma hex_nth b : forall i x, nth_error b i = Some x ->
  nth_error (hex b) (2 * i) = Some (hexdigit (b2n x / 16)) /\ nth_error (hex b) (2 * i + 1) = Some (hexdigit (b2n x mod 16)).
Proof.
  induction b as [|y b IH]; intros [|i] x H; try discriminate.
  - injection H as ->. split; reflexivity.
  - replace (2 * S i)%nat with (S (S (2 * i))) by lia. cbn [hex flat_map app nth_error Nat.add]. exact (IH i x H).
Qed.
Lemma hex_printed b : printed b (hex b).
Proof.
  split; [apply hex_length|]. intros i x H. destruct (hex_nth b i x H) as [A B]. pose proof (b2n_lt x) as L.
  exists (N.to_nat (b2n x / 16)), (N.to_nat (b2n x mod 16)).
  pose proof (N.div_mod (b2n x) 16 ltac:(discriminate)) as E. pose proof (N.mod_lt (b2n x) 16 ltac:(discriminate)).
  assert (b2n x / 16 < 16) by (apply N.div_lt_upper_bound; [discriminate|exact L]).
  split; [lia|]. split; [lia|]. split; [lia|]. rewrite !hexdigit_ok by lia. rewrite !N2Nat.id. split; assumption.
Qed.
Lemma nth_same {A} (s s' : list A) : (forall i, nth_error s i = nth_error s' i) -> s = s'.
Proof.
  revert s'. induction s as [|x s IH]; intros [|y s'] H; [reflexivity|discriminate (H 0%nat)|discriminate (H 0%nat)|].
  pose proof (H 0%nat) as H0. injection H0 as ->. f_equal. apply IH. intros i. exact (H (S i)).
Qed.
Lemma printed_unique b s s' : printed b s -> printed b s' -> s = s'.
Proof.
  intros [L H] [L' H']. apply nth_same. intros i.
  destruct (le_lt_dec (2 * length b) i) as [Hi|Hi].
  - rewrite (proj2 (nth_error_None s i)), (proj2 (nth_error_None s' i)) by lia. reflexivity.
  - pose proof (Nat.div_mod i 2 ltac:(discriminate)) as E. pose proof (Nat.mod_upper_bound i 2 ltac:(discriminate)) as M.
    set (j := (i / 2)%nat) in *. set (q := (i mod 2)%nat) in *.
    destruct (nth_error b j) as [x|] eqn:Ex; [|apply nth_error_None in Ex; lia].
    destruct (H j x Ex) as (u & v & Hu & Hv & A & B & C). destruct (H' j x Ex) as (u' & v' & Hu' & Hv' & A' & B' & C').
    assert (u = u' /\ v = v') as [-> ->] by lia.
    destruct q as [|[|q]]; [| |lia].
    + replace i with (2 * j)%nat by lia. congruence.
    + replace i with (2 * j + 1)%nat by lia. congruence.
Qed.
Lemma printed_ok b s : hex b = s <-> printed b s.
Proof. split; [intros <-; apply hex_printed|]. intros H. exact (printed_unique b _ _ (hex_printed b) H). Qed.
Lemma digits_inj u v : (u < 16)%nat -> (v < 16)%nat -> nth_error digits u = nth_error digits v -> u = v.
Proof.
  intros Hu Hv E. apply (proj1 (NoDup_nth_error digits)); [|exact Hu|exact E].
  repeat (constructor; [intros H; repeat (destruct H as [H|H]; [discriminate|]); exact H|]). constructor.
Qed.
Lemma printed_inj b b' s : printed b s -> printed b' s -> b = b'.
Proof.
  intros [L H] [L' H']. apply nth_same. intros i.
  destruct (le_lt_dec (length b) i) as [Hi|Hi].
  - rewrite (proj2 (nth_error_None b i)), (proj2 (nth_error_None b' i)) by lia. reflexivity.
  - destruct (nth_error b i) as [x|] eqn:Ex; [|apply nth_error_None in Ex; lia].
    destruct (nth_error b' i) as [x'|] eqn:Ex'; [|apply nth_error_None in Ex'; lia]. f_equal.
    destruct (H i x Ex) as (u & v & Hu & Hv & A & B & C). destruct (H' i x' Ex') as (u' & v' & Hu' & Hv' & A' & B' & C').
    rewrite B in B'. rewrite C in C'. apply digits_inj in B'; [|assumption..]. apply digits_inj in C'; [|assumption..]. subst u' v'.
    rewrite <- (n2b_b2n x), <- (n2b_b2n x'). congruence.
Qed.
Lemma same_printed b s : same (hex b) s = true <-> printed b s.
Proof. rewrite same_ok. apply printed_ok. Qed.

(** ** The tests *)
Lemma each_fits {A} n m (body : A -> test -> test) : (forall a k, fits n m k -> fits n m (body a k)) ->
  forall l k, fits n m k -> fits n m (each l body k).
Proof. intros H l k Hk. induction l as [|a l IH]; [exact Hk|]. cbn [each]. apply H, IH. Qed.

Section Fits.
  Variables n m i : nat.
  Lemma fit_new_go k : fits (S n) m (k n) -> fits n m (t_new InGo k).
  Proof. intros H. apply FGo; [exact I|]. intros r ->. exact H. Qed.
  Lemma fit_new_cgo k : fits n (S m) (k m) -> fits n m (t_new InCgo k).
  Proof. intros H. apply FCgo; [exact I|exact I|]. intros r ->. exact H. Qed.
  Lemma fit_write_go p k : (i < n)%nat -> fits n m k -> fits n m (t_write InGo i p k).
  Proof. intros Hi H. apply FGo; auto. Qed.
  Lemma fit_write_cgo p k : (i < m)%nat -> fits n m k -> fits n m (t_write InCgo i p k).
  Proof. intros Hi H. apply FCgo; auto. exact I. Qed.
  Lemma fit_reset_go k : (i < n)%nat -> fits n m k -> fits n m (t_reset InGo i k).
  Proof. intros Hi H. apply FGo; auto. Qed.
  Lemma fit_reset_cgo k : (i < m)%nat -> fits n m k -> fits n m (t_reset InCgo i k).
  Proof. intros Hi H. apply FCgo; auto. exact I. Qed.
  Lemma fit_sum_go k : (i < n)%nat -> (forall b, fits n m (k b)) -> fits n m (t_sum InGo i k).
  Proof. intros Hi H. apply FGo; auto. intros [] _; auto using FFail. Qed.
  Lemma fit_crsum_go k : (i < n)%nat -> (forall b v, fits n m (k b v)) -> fits n m (t_crsum InGo i k).
  Proof. intros Hi H. apply FGo; auto. intros [] _; auto using FFail. Qed.
  Lemma fit_crsum_cgo k : (i < m)%nat -> (forall b v, fits n m (k b v)) -> fits n m (t_crsum InCgo i k).
  Proof. intros Hi H. apply FCgo; auto; [exact I|]. intros [] _; auto using FFail. Qed.
  Lemma fit_marshal k : (i < n)%nat -> (forall b, fits n m (k b)) -> fits n m (t_marshal i k).
  Proof. intros Hi H. apply FGo; auto. intros [] _; auto using FFail. Qed.
  Lemma fit_unmarshal b k : (i < n)%nat -> fits n m k -> fits n m (t_unmarshal i b k).
  Proof. intros Hi H. apply FGo; auto. intros [] _; auto using FFail. Qed.
  Lemma fit_require b k : fits n m k -> fits n m (require b k).
  Proof. intros H. destruct b; [exact H|apply FFail]. Qed.
End Fits.
Ltac fit :=
  repeat (cbn beta zeta; match goal with
  | |- fits _ _ (t_new InGo _) => apply fit_new_go
  | |- fits _ _ (t_new InCgo _) => apply fit_new_cgo
  | |- fits _ _ (t_write InGo _ _ _) => apply fit_write_go; [lia|]
  | |- fits _ _ (t_write InCgo _ _ _) => apply fit_write_cgo; [lia|]
  | |- fits _ _ (t_reset InGo _ _) => apply fit_reset_go; [lia|]
  | |- fits _ _ (t_reset InCgo _ _) => apply fit_reset_cgo; [lia|]
  | |- fits _ _ (t_sum InGo _ _) => apply fit_sum_go; [lia|intros ?]
  | |- fits _ _ (t_crsum InGo _ _) => apply fit_crsum_go; [lia|intros ? ?]
  | |- fits _ _ (t_crsum InCgo _ _) => apply fit_crsum_cgo; [lia|intros ? ?]
  | |- fits _ _ (t_marshal _ _) => apply fit_marshal; [lia|intros ?]
  | |- fits _ _ (t_unmarshal _ _ _) => apply fit_unmarshal; [lia|]
  | |- fits _ _ (require _ _) => apply fit_require
  | |- fits _ _ Pass => apply FPass
  | |- fits _ _ ?k => assumption
  end).

Lemma sum_halves m : forall n a, a_write (a_write a (firstn n m)) (skipn n m) = a_write a m.
Proof. intros n [s L b]. unfold a_write. cbn [ah_start ah_before ah_bytes]. rewrite <- app_assoc, firstn_skipn. reflexivity. Qed.

Section Golden.
  Variable early : bool.
  Let ok (g : list byte * list byte) : bool := same (hex (fst (cd_sum go_decide (snd g)))) (fst g).

  Lemma golden_entry_ok hs cs g k :
    a_test early hs cs (golden_entry g k) = if ok g then a_test early (hs ++ [a_new]) cs k else Some false.
  Proof.
    unfold golden_entry. cbn [a_test a_exec]. rewrite a_require. unfold ok. destruct (same (hex (fst (cd_sum go_decide (snd g)))) (fst g)) eqn:Eb; [|reflexivity].
    rewrite go_new, go_write, go_sum, a_require, a_sum_new, Eb, go_reset, go_write, go_sum, a_require, a_sum_new, Eb, go_reset.
    rewrite go_write, go_sum, go_write, go_sum, a_require, sum_halves, a_sum_new, Eb, go_reset. reflexivity.
  Qed.
  Lemma golden_loop l : forall k x hs cs, (forall hs, a_test early hs cs k = Some x) ->
    a_test early hs cs (each l golden_entry k) = Some (forallb ok l && x).
  Proof.
    induction l as [|g l IH]; intros k x hs cs H; [apply H|]. cbn [each forallb]. rewrite golden_entry_ok.
    destruct (ok g); [|reflexivity]. cbn [andb]. apply IH. exact H.
  Qed.
  Lemma golden_fits l m k : (forall n, fits n m k) -> forall n, fits n m (each l golden_entry k).
  Proof.
    intros Hk. induction l as [|g l IH]; intros n; [apply Hk|]. cbn [each]. generalize (IH (S n)).
    generalize (each l golden_entry k). intros k' H. unfold golden_entry.
    cbn zeta. apply FGo; [exact I|]. intros [] _; try apply FFail. fit.
  Qed.
End Golden.

Lemma forallb_all {A} (f : A -> bool) (P : A -> Prop) l : (forall x, f x = true <-> P x) -> (forallb f l = true <-> forall x, In x l -> P x).
Proof. intros H. rewrite forallb_forall. split; intros X x Hx; apply H, X, Hx. Qed.

Lemma golden_passes early cfg ms D golden : host_be cfg = macro_be cfg -> decides D go_detects ->
  exists b, run_test early cfg ms 0 [] [] (TestGolden golden) = Some b /\
    (b = true <-> forall out inp, In (out, inp) golden -> printed (fst (cd_sum D inp)) out).
Proof.
  intros Hc HD. eexists. split.
  - apply run_closed; [exact Hc| |].
    + apply golden_fits. intros n. apply golden_fits. intros n'. apply FPass.
    + unfold TestGolden. eapply golden_loop. intros hs. eapply golden_loop. intros hs'. reflexivity.
  - rewrite andb_true_r, andb_diag. rewrite (forallb_all _ (fun g => printed (fst (cd_sum D (snd g))) (fst g))).
    + split; [intros H out inp Hin; exact (H _ Hin)|]. intros H [out inp] Hin. exact (H out inp Hin).
    + intros [out inp]. cbn [fst snd]. rewrite same_printed, (cd_sum_agree2 D go_decide (decides_agree D HD)). reflexivity.
Qed.

Lemma golden_sha1 early cfg ms D golden out inp : host_be cfg = macro_be cfg -> decides D go_detects ->
  run_test early cfg ms 0 [] [] (TestGolden golden) = Some true -> In (out, inp) golden -> snd (cd_sum D inp) = false ->
  printed (sha1 inp) out.
Proof.
  intros Hc HD E Hin Hu. destruct (golden_passes early cfg ms D golden Hc HD) as (b & E' & H).
  rewrite E in E'. injection E' as <-. pose proof (proj1 H eq_refl out inp Hin) as X. rewrite (cd_sum_unflagged D inp Hu) in X. exact X.
Qed.

(** *** TestGoldenMarshal *)
Lemma checkpoint_after_ok D m : a_marshal D (a_write a_new m) = checkpoint_after D m.
Proof.
  unfold a_marshal, checkpoint_after, blob_of, a_mid, a_len. cbn [a_write a_new ah_start ah_before ah_bytes app].
  rewrite N.add_0_l. unfold pending. rewrite skipn_length. reflexivity.
Qed.
Lemma resumed_half D m q :
  fst (a_sum D (a_write (let b := a_marshal D (a_write a_new m) in a_restore D a_new (blob_st b) (blob_buf b) (blob_len b)) q)) =
  fst (a_sum D (a_write (a_write a_new m) q)).
Proof.
  cbv zeta. unfold a_marshal. cbn [a_write a_new ah_start ah_before ah_bytes app].
  set (p := pending m). set (h := fst (a_mid D _)). set (len := a_len _ mod M64).
  assert (Lp : length p = (length m mod 64)%nat) by apply pending_length.
  assert (Hlen : len mod 64 = N.of_nat (length p)).
  { unfold len, a_len. cbn [ah_before ah_bytes]. rewrite N.add_0_l, mod64_mod, Lp. rewrite Nat2N.inj_mod. reflexivity. }
  assert (Hp : (length p < 64)%nat) by apply pending_lt.
  assert (Wh : wfst h) by (apply wfst_cd_blocks, wfst_IV).
  assert (Hbuf : length (p ++ zeros (64 - length p)) = 64%nat) by (rewrite app_length; unfold zeros; rewrite repeat_length; lia).
  assert (Hl64 : len < M64) by (apply N.mod_lt; discriminate).
  destruct (blob_fields h (p ++ zeros (64 - length p)) len Wh Hbuf Hl64) as (-> & -> & ->).
  unfold a_restore. rewrite Hlen, Nat2N.id, firstn_app, firstn_all, Nat.sub_diag. cbn [firstn]. rewrite app_nil_r.
  unfold a_sum, a_len. cbn [a_write ah_start ah_before ah_bytes fst]. f_equal.
  change (fst (cd_blocks D (h, snd (a_mid D a_new)) (blocks ((p ++ q) ++ padding (len - N.of_nat (length p) + N.of_nat (length (p ++ q)))))) =
          fst (cd_blocks D (IV, false) (blocks ((m ++ q) ++ padding (0 + N.of_nat (length (m ++ q))))))).
  rewrite <- !app_assoc. destruct (blocks_pending m (q ++ padding (0 + N.of_nat (length (m ++ q))))) as [-> _].
  rewrite cd_blocks_app. fold p. change h with (fst (cd_blocks D (IV, false) (blocks m))).
  destruct (cd_blocks D (IV, false) (blocks m)) as [h' f]. cbn [fst].
  rewrite (proj1 (cd_blocks_flag D _ h' f)). rewrite (proj1 (cd_blocks_flag D _ h' (snd _))).
  do 4 f_equal.
  rewrite <- (padding_mod (0 + _)), <- (padding_mod (len - _ + _)). f_equal.
  rewrite !app_length, !Nat2N.inj_add.
  assert (Hle : N.of_nat (length p) <= len) by (rewrite <- Hlen; apply N.mod_le; discriminate).
  replace (len - N.of_nat (length p) + (N.of_nat (length p) + N.of_nat (length q))) with (len + N.of_nat (length q)) by lia.
  unfold len, a_len. cbn [ah_before ah_bytes]. rewrite N.add_mod_idemp_l by discriminate. reflexivity.
Qed.

Section Marshal.
  Variable early : bool.
  Let ok (g : list byte * list byte) : bool := same (checkpoint_after go_decide (firstn (length (fst g) / 2) (fst g))) (snd g).

  Lemma reset2 hs a1 a2 cs k : a_test early (hs ++ [a1; a2]) cs (t_reset InGo (S (length hs)) k) = a_test early (hs ++ [a1; a_new]) cs k.
  Proof.
    pose proof (go_reset early (hs ++ [a1]) [] a2 cs k) as H. rewrite app_length in H. cbn [length] in H.
    rewrite Nat.add_1_r, <- !app_assoc in H. exact H.
  Qed.
  Lemma write2 hs a1 a2 cs p k : a_test early (hs ++ [a1; a2]) cs (t_write InGo (S (length hs)) p k) = a_test early (hs ++ [a1; a_write a2 p]) cs k.
  Proof.
    pose proof (go_write early (hs ++ [a1]) [] a2 cs k p) as H. rewrite app_length in H. cbn [length] in H.
    rewrite Nat.add_1_r, <- !app_assoc in H. exact H.
  Qed.
  Lemma sum2 hs a1 a2 cs k : a_test early (hs ++ [a1; a2]) cs (t_sum InGo (S (length hs)) k) = a_test early (hs ++ [a1; a2]) cs (k (fst (a_sum go_decide a2))).
  Proof.
    pose proof (go_sum early (hs ++ [a1]) [] a2 cs k) as H. rewrite app_length in H. cbn [length] in H.
    rewrite Nat.add_1_r, <- !app_assoc in H. exact H.
  Qed.
  Lemma unmarshal2 hs a1 a2 cs b k : accepted b = true -> a_test early (hs ++ [a1; a2]) cs (t_unmarshal (S (length hs)) b k) =
    a_test early (hs ++ [a1; a_restore go_decide a2 (blob_st b) (blob_buf b) (blob_len b)]) cs k.
  Proof.
    intros Hb. pose proof (go_unmarshal early (hs ++ [a1]) [] a2 cs k b) as H. rewrite Hb, app_length in H. cbn [length] in H.
    rewrite Nat.add_1_r, <- !app_assoc in H. exact H.
  Qed.

  Lemma marshal_entry_ok hs cs g k a1 a2 :
    exists a1' a2', a_test early (hs ++ [a1; a2]) cs (marshal_entry (length hs) (S (length hs)) g k) =
      if ok g then a_test early (hs ++ [a1'; a2']) cs k else Some false.
  Proof.
    unfold marshal_entry, ok. set (half := (length (fst g) / 2)%nat).
    set (m := firstn half (fst g)). set (q := skipn half (fst g)).
    eexists _, _. rewrite go_reset, reset2, go_write, go_marshal, a_require, checkpoint_after_ok. destruct (same _ _) eqn:E; [|reflexivity].
    assert (Acc : accepted (checkpoint_after go_decide m) = true).
    { rewrite <- checkpoint_after_ok. unfold accepted, a_marshal. rewrite blob_magic, blob_length; [reflexivity|].
      rewrite app_length. unfold zeros. rewrite repeat_length. pose proof (pending_lt (ah_bytes (a_write a_new m))). lia. }
    rewrite unmarshal2, go_write, write2, go_sum, sum2 by exact Acc.
    rewrite a_require. rewrite <- checkpoint_after_ok. pose proof (resumed_half go_decide m q) as Hr. cbv zeta in Hr. rewrite Hr, same_refl.
    reflexivity.
  Qed.
  Lemma marshal_loop l k x hs cs : (forall a1 a2, a_test early (hs ++ [a1; a2]) cs k = Some x) -> forall a1 a2,
    a_test early (hs ++ [a1; a2]) cs (each l (marshal_entry (length hs) (S (length hs))) k) = Some (forallb ok l && x).
  Proof.
    intros H. induction l as [|g l IH]; intros a1 a2; [apply H|]. cbn [each forallb].
    destruct (marshal_entry_ok hs cs g (each l (marshal_entry (length hs) (S (length hs))) k) a1 a2) as (a1' & a2' & ->).
    destruct (ok g); [|reflexivity]. cbn [andb]. apply IH.
  Qed.
  Lemma marshal_fits n m h h2 l k : (h < n)%nat -> (h2 < n)%nat -> fits n m k -> fits n m (each l (marshal_entry h h2) k).
  Proof. intros H1 H2. apply each_fits. intros g k' Hk. unfold marshal_entry. fit. Qed.
End Marshal.

Lemma marshal_passes early cfg ms D golden : host_be cfg = macro_be cfg -> decides D go_detects ->
  exists b, run_test early cfg ms 0 [] [] (TestGoldenMarshal golden) = Some b /\
    (b = true <-> forall inp half, In (inp, half) golden -> half = checkpoint_after D (firstn (length inp / 2) inp)).
Proof.
  intros Hc HD. eexists. split.
  - apply run_closed; [exact Hc| |].
    + unfold TestGoldenMarshal. fit. apply marshal_fits; [lia|lia|]. fit. apply marshal_fits; [lia|lia|]. apply FPass.
    + unfold TestGoldenMarshal. rewrite !go_new. eapply (marshal_loop early golden _ _ []).
      intros a1 a2. cbn [app]. rewrite !go_new. cbn [app]. eapply (marshal_loop early golden _ _ [a1; a2]). reflexivity.
  - rewrite andb_true_r, andb_diag.
    rewrite (forallb_all _ (fun g => snd g = checkpoint_after D (firstn (length (fst g) / 2) (fst g)))).
    + split; [intros H inp half Hin; exact (H _ Hin)|]. intros H [inp half] Hin. exact (H inp half Hin).
    + intros [inp half]. cbn [fst snd]. rewrite same_ok. unfold checkpoint_after.
      rewrite (cd_blocks_agree2 D go_decide (decides_agree D HD)); [|apply blocks_len|apply wfst_IV]. split; congruence.
Qed.

(** *** TestLargeHashes *)
Section Large.
  Variable early : bool.
  Let ok (g : list byte * list byte) : bool := accepted (fst g) && same (hex (st_bytes (fst (resumed go_decide (fst g) false [])))) (snd g).

  Lemma large_entry_ok hs cs g k : exists a,
    a_test early hs cs (large_entry g k) = if ok g then a_test early (hs ++ [a]) cs k else Some false.
  Proof.
    unfold large_entry, ok. eexists. rewrite go_new, go_unmarshal. destruct (accepted (fst g)) eqn:Ea; [|reflexivity]. cbn [andb].
    rewrite go_sum, a_require. apply accepted_ok in Ea. destruct Ea as [Ea _].
    pose proof (a_sum_resumed go_decide a_new (fst g) [] Ea) as H.
    set (a' := a_restore _ _ _ _ _) in *. assert (E : a_write a' [] = a') by (destruct a'; unfold a_write; cbn; rewrite app_nil_r; reflexivity).
    rewrite E in H. rewrite H. cbn [fst]. reflexivity.
  Qed.
  Lemma large_loop l : forall k x hs cs, (forall hs, a_test early hs cs k = Some x) ->
    a_test early hs cs (each l large_entry k) = Some (forallb ok l && x).
  Proof.
    induction l as [|g l IH]; intros k x hs cs H; [apply H|]. cbn [each forallb].
    destruct (large_entry_ok hs cs g (each l large_entry k)) as (a & ->). destruct (ok g); [|reflexivity]. cbn [andb]. apply IH. exact H.
  Qed.
  Lemma large_fits l m k : (forall n, fits n m k) -> forall n, fits n m (each l large_entry k).
  Proof.
    intros Hk. induction l as [|g l IH]; intros n; [apply Hk|]. cbn [each]. generalize (IH (S n)).
    generalize (each l large_entry k). intros k' H. unfold large_entry. fit.
  Qed.
End Large.

Lemma large_passes early cfg ms D tests : host_be cfg = macro_be cfg -> decides D go_detects ->
  exists b, run_test early cfg ms 0 [] [] (TestLargeHashes tests) = Some b /\
    (b = true <-> forall state sum, In (state, sum) tests ->
       accepted state = true /\ printed (st_bytes (fst (resumed D state false []))) sum).
Proof.
  intros Hc HD. eexists. split.
  - apply run_closed; [exact Hc| |].
    + apply large_fits. intros n. apply large_fits. intros n'. apply FPass.
    + unfold TestLargeHashes. eapply large_loop. intros hs. eapply large_loop. intros hs'. reflexivity.
  - rewrite andb_true_r, andb_diag.
    rewrite (forallb_all _ (fun g => accepted (fst g) = true /\ printed (st_bytes (fst (resumed D (fst g) false []))) (snd g))).
    + split; [intros H s s' Hin; exact (H _ Hin)|]. intros H [s s'] Hin. exact (H s s' Hin).
    + intros [s s']. cbn [fst snd]. rewrite andb_true_iff, same_printed. unfold resumed.
      split; intros [A B]; (split; [exact A|]); apply accepted_ok in A; destruct A as [A _].
      * rewrite (cd_blocks_agree2 D go_decide (decides_agree D HD)); [exact B|apply blocks_len|apply blob_st_wf; exact A].
      * rewrite (cd_blocks_agree2 D go_decide (decides_agree D HD)) in B; [exact B|apply blocks_len|apply blob_st_wf; exact A].
Qed.

(** *** TestCollisionDetection and FuzzDeviationDetection *)
Section Detect.
  Variable early : bool.
  Let ok (g : list byte * (list byte * bool)) : bool :=
    let agrees x := Bool.eqb (snd x) (snd (snd g)) && same (hex (fst x)) (fst (snd g)) in
    agrees (cd_sum cgo_decide (fst g)) && agrees (cd_sum go_decide (fst g)).

  Lemma detection_entry_ok g k x : (forall b c a, a_test early [b; c] [a] k = Some x) -> forall b c a,
    a_test early [b; c] [a] (detection_entry [(InCgo, 0%nat); (InGo, 0%nat); (InGo, 1%nat)] g k) = Some (ok g && x).
  Proof.
    intros H b c a. unfold detection_entry, ok. cbn [each fst snd].
    rewrite (cgo_reset early [] [] a), (cgo_write early [] [] a_new), (cgo_crsum early [] [] (a_write a_new (fst g))), a_require, a_sum_new.
    destruct (Bool.eqb _ _ && _); [|reflexivity]. cbn [andb app].
    rewrite (go_reset early [] [c] b), (go_write early [] [c] a_new), (go_crsum early [] [c] (a_write a_new (fst g))), a_require, a_sum_new.
    destruct (Bool.eqb _ _ && _) eqn:E; [|reflexivity]. cbn [andb app].
    set (b' := a_write a_new (fst g)) at 1.
    rewrite (go_reset early [b'] [] c), (go_write early [b'] [] a_new), (go_crsum early [b'] [] (a_write a_new (fst g))), a_require, a_sum_new, E.
    apply H.
  Qed.
  Lemma detection_loop l k x : (forall b c a, a_test early [b; c] [a] k = Some x) -> forall b c a,
    a_test early [b; c] [a] (each l (detection_entry [(InCgo, 0%nat); (InGo, 0%nat); (InGo, 1%nat)]) k) = Some (forallb ok l && x).
  Proof.
    intros H. induction l as [|g l IH]; [exact H|]. cbn [each forallb]. rewrite <- andb_assoc. apply detection_entry_ok. exact IH.
  Qed.

  Let same_result (m : list byte) : bool :=
    same (fst (cd_sum go_decide m)) (fst (cd_sum cgo_decide m)) && Bool.eqb (snd (cd_sum go_decide m)) (snd (cd_sum cgo_decide m)).
  Lemma fuzz_entry_ok m k x : (forall a b, a_test early [a] [b] k = Some x) -> forall a b,
    a_test early [a] [b] (fuzz_entry 0 0 m k) = Some (same_result m && x).
  Proof.
    intros H a b. unfold fuzz_entry, same_result.
    rewrite (go_reset early [] [] a), (cgo_reset early [] [] b), (go_write early [] [] a_new), (cgo_write early [] [] a_new),
      (go_crsum early [] [] (a_write a_new m)), (cgo_crsum early [] [] (a_write a_new m)), a_require, !a_sum_new.
    destruct (same _ _ && _); [|reflexivity]. apply H.
  Qed.
  Lemma fuzz_loop l k x : (forall a b, a_test early [a] [b] k = Some x) -> forall a b,
    a_test early [a] [b] (each l (fuzz_entry 0 0) k) = Some (forallb same_result l && x).
  Proof.
    intros H. induction l as [|g l IH]; [exact H|]. cbn [each forallb]. rewrite <- andb_assoc. apply fuzz_entry_ok. exact IH.
  Qed.
End Detect.

Lemma cgo_agree D m : decides D attacked -> cd_sum D m = cd_sum cgo_decide m.
Proof. intros HD. exact (cd_sum_agree2 D cgo_decide (decides_same _ _ _ HD cgo_decides) m). Qed.
Lemma go_agree D m : decides D go_detects -> cd_sum D m = cd_sum go_decide m.
Proof. intros HD. exact (cd_sum_agree2 D go_decide (decides_agree D HD) m). Qed.

Lemma detection_passes early cfg ms D E tests : host_be cfg = macro_be cfg -> decides D go_detects -> decides E attacked ->
  exists b, run_test early cfg ms 0 [] [] (TestCollisionDetection tests) = Some b /\
    (b = true <-> forall data wantHash wantCollision, In (data, (wantHash, wantCollision)) tests ->
       printed (fst (cd_sum D data)) wantHash /\ snd (cd_sum D data) = wantCollision /\ cd_sum E data = cd_sum D data).
Proof.
  intros Hc HD HE. eexists. split.
  - apply run_closed; [exact Hc| |].
    + unfold TestCollisionDetection. fit. apply each_fits; [|apply FPass]. intros g k Hk. unfold detection_entry. cbn [each fst snd]. fit.
    + unfold TestCollisionDetection. rewrite cgo_new, !go_new. eapply (detection_loop early tests Pass). reflexivity.
  - rewrite andb_true_r.
    rewrite (forallb_all _ (fun g => printed (fst (cd_sum D (fst g))) (fst (snd g)) /\ snd (cd_sum D (fst g)) = snd (snd g) /\ cd_sum E (fst g) = cd_sum D (fst g))).
    + split; [intros H m s v Hin; exact (H _ Hin)|]. intros H [m [s v]] Hin. exact (H m s v Hin).
    + intros [m [s v]]. cbn [fst snd]. rewrite !andb_true_iff, !same_printed, !eqb_true_iff, <- (cgo_agree E), <- (go_agree D) by assumption.
      destruct (cd_sum D m) as [d f], (cd_sum E m) as [d' f']. cbn [fst snd]. split.
      * intros [[-> P] [-> P']]. split; [exact P'|]. split; [reflexivity|]. f_equal. exact (printed_inj _ _ _ P P').
      * intros (P & -> & X). injection X as -> ->. auto.
Qed.

Lemma fuzz_passes early cfg ms D E inputs : host_be cfg = macro_be cfg -> decides D go_detects -> decides E attacked ->
  exists b, run_test early cfg ms 0 [] [] (FuzzDeviationDetection inputs) = Some b /\
    (b = true <-> forall m, In m inputs -> cd_sum D m = cd_sum E m).
Proof.
  intros Hc HD HE. eexists. split.
  - apply run_closed; [exact Hc| |].
    + unfold FuzzDeviationDetection. fit. apply each_fits; [|apply FPass]. intros m k Hk. unfold fuzz_entry. fit.
    + unfold FuzzDeviationDetection. rewrite go_new, cgo_new. eapply (fuzz_loop early inputs Pass). reflexivity.
  - rewrite andb_true_r. rewrite (forallb_all _ (fun m => cd_sum D m = cd_sum E m)); [reflexivity|].
    intros m. rewrite andb_true_iff, same_ok, eqb_true_iff, (cgo_agree E), (go_agree D) by assumption.
    destruct (cd_sum go_decide m), (cd_sum cgo_decide m). cbn [fst snd]. split; [intros [-> ->]; reflexivity|]. intros X. injection X as -> ->. auto.
Qed.
Lemma no_58_meet D E m : decides D go_detects -> decides E attacked ->
  (forall b d, In b (blocks (pad m)) -> (d < 32)%nat -> test_step (the_dv d) = 58%nat -> ~ ubc_holds d (schedule (words_of b))) ->
  cd_sum D m = cd_sum E m.
Proof.
  intros HD HE H. rewrite (go_agree D), (cgo_agree E) by assumption. unfold cd_sum. rewrite (cd_blocks_meet go_decide cgo_decide); [reflexivity|].
  intros j b Hj. set (h := fst (cd_blocks _ _ _)).
  assert (Hh : wfst h) by (apply wfst_cd_blocks; apply wfst_IV).
  assert (LM : length (words_of b) = 16%nat) by (apply words_of_length; exact (nth_blocks_len _ _ _ Hj)).
  pose proof (cgo_decides h (words_of b) Hh LM (wf_words_of b)) as A. pose proof (go_decide_ok h (words_of b) Hh LM (wf_words_of b)) as B.
  assert (X : attacked h (words_of b) <-> go_detects h (words_of b)).
  { apply nth_error_In in Hj.
    split; intros (d & Hd & Hu & h' & X); exists d; (split; [exact Hd|]); (split; [exact Hu|]); exists h';
      destruct (test_step_cases d Hd) as [T|T]; try (exfalso; exact (H b d Hj Hd T Hu)); rewrite T in *; exact X. }
  destruct (cgo_decide h (words_of b)), (go_decide h (words_of b)); intuition congruence.
Qed.
Lemma fuzz_no_58 early cfg ms inputs : host_be cfg = macro_be cfg ->
  (forall m b d, In m inputs -> In b (blocks (pad m)) -> (d < 32)%nat -> test_step (the_dv d) = 58%nat -> ~ ubc_holds d (schedule (words_of b))) ->
  run_test early cfg ms 0 [] [] (FuzzDeviationDetection inputs) = Some true.
Proof.
  intros Hc H. destruct (fuzz_passes early cfg ms go_decide cgo_decide inputs Hc go_decide_ok cgo_decides) as (b & E & Hb).
  rewrite E. f_equal. apply Hb. intros m Hm. apply no_58_meet; [exact go_decide_ok|exact cgo_decides|]. intros b' d Hb'. exact (H m b' d Hm Hb').
Qed.

Lemma fixed_passes early cfg ms m1s : host_be cfg = macro_be cfg ->
  run_test early cfg ms 0 [] [] TestSize = Some true /\ run_test early cfg ms 0 [] [] TestBlockSize = Some true /\ TestCalculateDvMask m1s = true.
Proof.
  intros Hc. split; [|split].
  - apply run_closed; [exact Hc| |reflexivity]. apply fit_new_go. apply FGo; [cbn; lia|]. intros [] _; try apply FFail. apply fit_require, FPass.
  - apply run_closed; [exact Hc| |reflexivity]. apply fit_new_go. apply FGo; [cbn; lia|]. intros [] _; try apply FFail. apply fit_require, FPass.
  - apply forallb_forall. intros W _. apply N.eqb_eq. unfold cgo_CalculateDvMask, ubc_check, CalculateDvMask. apply mask_c_go.
Qed.
Lemma hex_exact b s : (hex b = s <-> printed b s) /\ forall b', hex b = hex b' -> b = b'.
Proof.
  split; [apply printed_ok|]. intros b' E. apply (printed_inj b b' (hex b)); [apply hex_printed|]. rewrite E. apply hex_printed.
Qed.
