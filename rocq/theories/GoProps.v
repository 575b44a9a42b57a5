(** Consequences of the refinement theorem, in the form in which the properties are stated. *)

From Coq Require Import Arith ZArith NArith List Strings.Byte Lia Bool ZifyNat.
From Verif Require Import Word WordFacts Spec_Sha1 Sha1Facts Spec_DV Spec_Cd Spec_Api DvFacts
  Model_Go Model_Api Model_Block GoCheck GoBlock GoApi GoStore GoAsm.
Import ListNotations.
Local Open Scope N_scope.
Ltac Zify.zify_post_hook ::= idtac.

(** ** Abstract runs *)
Section A.
  Variable early : bool.
  Variable D : st -> list word -> bool.
  Notation ax := (a_exec early D).
  Notation ar := (a_run early D).

  Lemma a_run_app os : forall hs os', ar hs (os ++ os') =
    match ar hs os with
    | Some (hs1, rs1) => match ar hs1 os' with Some (hs2, rs2) => Some (hs2, rs1 ++ rs2) | None => None end
    | None => None
    end.
  Proof.
    induction os as [|o os IH]; intros hs os'; cbn [a_run app].
    - destruct (ar hs os') as [[? ?]|]; reflexivity.
    - destruct (ax hs o) as [[hs1 x]|]; [|reflexivity]. rewrite IH.
      destruct (ar hs1 os) as [[hs2 xs]|]; [|reflexivity].
      destruct (ar hs2 os') as [[? ?]|]; reflexivity.
  Qed.

  Lemma a_run_length os : forall hs hs' rs, ar hs os = Some (hs', rs) ->
    length rs = length os /\ length hs' = (length hs + created os)%nat.
  Proof.
    induction os as [|o os IH]; intros hs hs' rs E; cbn [a_run] in E.
    - injection E as <- <-. cbn. lia.
    - destruct (ax hs o) as [[hs1 x]|] eqn:E1; [|discriminate].
      destruct (ar hs1 os) as [[hs2 xs]|] eqn:E2; [|discriminate]. injection E as <- <-.
      apply IH in E2. destruct E2 as [L1 L2]. cbn [length]. split; [lia|].
      assert (length hs1 = match o with ONew => S (length hs) | _ => length hs end) as L.
      { destruct o; cbn [a_exec] in E1;
          try (destruct (nth_error hs i); [|discriminate]);
          try (destruct (a_unmarshal D a b)); injection E1 as <- <-; try apply put_length; try reflexivity.
        rewrite app_length. simpl. lia. }
      destruct o; cbn [created]; lia.
  Qed.

  Lemma nth_error_put_eq {A} (v : A) l : forall i, (i < length l)%nat -> nth_error (put i v l) i = Some v.
  Proof. induction l; intros [|i] H; simpl in *; try lia; auto. apply IHl. lia. Qed.
  Lemma nth_error_put_ne {A} (v : A) l : forall i j, i <> j -> nth_error (put i v l) j = nth_error l j.
  Proof. induction l; intros [|i] [|j] H; simpl; auto; congruence. Qed.

  (** The abstract state of a hasher that was not restored. *)
  Lemma a_run_written os i hs rs m : ar [] os = Some (hs, rs) -> written i os = Some m ->
    (i < created os)%nat -> nth_error hs i = Some (a_write a_new m).
  Proof.
    assert (G : forall os hs rs, ar [] os = Some (hs, rs) ->
      match nth_error hs i with
      | Some a => forall m, written i os = Some m -> a = a_write a_new m
      | None => written i os = Some []
      end).
    { clear. induction os as [|o os IH] using rev_ind; intros hs rs E.
      - injection E as <- <-. destruct i; reflexivity.
      - rewrite a_run_app in E. destruct (ar [] os) as [[hs1 rs1]|]; [|discriminate].
        specialize (IH hs1 rs1 eq_refl). cbn [a_run] in E.
        destruct (ax hs1 o) as [[hs2 x]|] eqn:E1; [|discriminate]. injection E as <- <-.
        unfold written in *. rewrite fold_left_app. cbn [fold_left]. set (w := fold_left (written_step i) os (Some [])) in *.
        assert (Step : forall j (f : ahash -> ahash * res),
          match nth_error hs1 j with Some a => let '(a', r) := f a in Some (put j a' hs1, r) | None => None end = Some (hs2, x) ->
          exists a, nth_error hs1 j = Some a /\ hs2 = put j (fst (f a)) hs1 /\ nth_error hs2 j = Some (fst (f a)) /\
            (i <> j -> nth_error hs2 i = nth_error hs1 i)).
        { intros j f X. destruct (nth_error hs1 j) as [a|] eqn:Ea; [|discriminate].
          exists a. destruct (f a) as [a' r']. injection X as <- <-. cbn [fst].
          split; [reflexivity|]. split; [reflexivity|]. split.
          - apply nth_error_put_eq. apply nth_error_Some. congruence.
          - intros Hne. apply nth_error_put_ne. congruence. }
        destruct o as [|j p|j inp|j inp|j|j|j b|j|j|dat]; cbn [a_exec] in E1; cbn [written_step].
        + injection E1 as <- <-.
          destruct (Nat.lt_ge_cases i (length hs1)) as [Hi|Hi].
          * rewrite nth_error_app1 by assumption. assumption.
          * rewrite nth_error_app2 by assumption. apply nth_error_None in Hi. rewrite Hi in IH.
            destruct (i - length hs1)%nat as [|k]; cbn [nth_error].
            { intros m Hm. rewrite IH in Hm. injection Hm as <-. reflexivity. }
            { destruct k; assumption. }
        + apply (Step j (fun a => (a_write a p, RNum (length p)))) in E1. destruct E1 as (a & Ea & _ & E2 & E3).
          destruct (Nat.eqb_spec i j) as [->|Hne].
          * rewrite Ea in IH. rewrite E2. cbn [fst]. intros m Hm. destruct w as [m0|]; [|discriminate].
            rewrite (IH m0 eq_refl). injection Hm as <-. unfold a_write. cbn. reflexivity.
          * rewrite E3 by assumption. assumption.
        + apply (Step j (fun a => (a, RBytes (inp ++ fst (a_sum D a))))) in E1. destruct E1 as (a & Ea & _ & E2 & E3).
          destruct (Nat.eq_dec i j) as [->|Hne]; [rewrite E2; rewrite Ea in IH; exact IH|rewrite E3 by assumption; exact IH].
        + apply (Step j (fun a => (a, RVerdict (inp ++ fst (a_sum D a)) (snd (a_sum D a))))) in E1. destruct E1 as (a & Ea & _ & E2 & E3).
          destruct (Nat.eq_dec i j) as [->|Hne]; [rewrite E2; rewrite Ea in IH; exact IH|rewrite E3 by assumption; exact IH].
        + apply (Step j (fun a => (a_new, RUnit))) in E1. destruct E1 as (a & Ea & _ & E2 & E3).
          destruct (Nat.eqb_spec i j) as [->|Hne].
          * rewrite E2. cbn [fst]. intros m Hm. injection Hm as <-. reflexivity.
          * rewrite E3 by assumption. assumption.
        + apply (Step j (fun a => (a, RBytes (a_marshal D a)))) in E1. destruct E1 as (a & Ea & _ & E2 & E3).
          destruct (Nat.eq_dec i j) as [->|Hne]; [rewrite E2; rewrite Ea in IH; exact IH|rewrite E3 by assumption; exact IH].
        + apply (Step j (fun a => a_unmarshal D a b)) in E1. destruct E1 as (a & Ea & _ & E2 & E3).
          destruct (Nat.eqb_spec i j) as [->|Hne]; cbn [andb].
          * rewrite E2. unfold a_unmarshal, accepted. destruct (has_magic b); cbn [negb andb]; [|rewrite Ea in IH; exact IH].
            destruct (Nat.eqb (length b) 98); cbn [negb]; [|rewrite Ea in IH; exact IH]. discriminate.
          * rewrite E3 by assumption. assumption.
        + apply (Step j (fun a => (a, RNum 20))) in E1. destruct E1 as (a & Ea & _ & E2 & E3).
          destruct (Nat.eq_dec i j) as [->|Hne]; [rewrite E2; rewrite Ea in IH; exact IH|rewrite E3 by assumption; exact IH].
        + apply (Step j (fun a => (a, RNum 64))) in E1. destruct E1 as (a & Ea & _ & E2 & E3).
          destruct (Nat.eq_dec i j) as [->|Hne]; [rewrite E2; rewrite Ea in IH; exact IH|rewrite E3 by assumption; exact IH].
        + injection E1 as <- <-. assumption. }
    intros E Hm Hi. specialize (G os hs rs E).
    destruct (nth_error hs i) as [a|] eqn:Ea.
    - rewrite (G m Hm). reflexivity.
    - apply nth_error_None in Ea. apply a_run_length in E. cbn [length] in E. lia.
  Qed.
End A.

(** ** Programs *)
Lemma program_refines early D p : decides D go_detects -> scoped 0 (calls p) ->
  exists ds hs rs, run_program early p = Some (ds, rs) /\ a_run early D [] (calls p) = Some (hs, rs) /\ Forall2 R hs ds.
Proof.
  intros HD Hs. unfold run_program.
  set (q := map _ p).
  assert (Eq : map snd q = calls p) by (unfold q, calls; rewrite map_map; reflexivity).
  destruct (a_run_scoped early D (calls p) [] Hs) as (hs & rs & E).
  rewrite (a_run_agree early D) in E |- * by auto. rewrite <- Eq in E.
  destruct (run_ok early q [] [] hs rs (Forall2_nil _)) as (ds & X & Y); auto.
  { unfold q. apply Forall_forall. intros bo Hin. apply in_map_iff in Hin. destruct Hin as ([m o] & <- & _). apply block_of_ok. }
  exists ds, hs, rs. rewrite <- Eq. auto.
Qed.

Lemma scoped_app os : forall n os', scoped n (os ++ os') <-> scoped n os /\ scoped (n + created os) os'.
Proof.
  induction os as [|o os IH]; intros n os'; cbn [app scoped created].
  - rewrite Nat.add_0_r. tauto.
  - rewrite IH. replace (match o with ONew => S n | _ => n end + created os)%nat
      with (n + match o with ONew => S (created os) | _ => created os end)%nat by (destruct o; lia).
    replace (created (o :: os)) with (match o with ONew => S (created os) | _ => created os end) by (destruct o; reflexivity).
    tauto.
Qed.

(** The call at position k of a program sees the abstract state after the calls before it. *)
Lemma call_at early D p k o : decides D go_detects -> scoped 0 (calls p) -> nth_error (calls p) k = Some o ->
  exists ds rs hs0 rs0 hs1 r, run_program early p = Some (ds, rs) /\ nth_error rs k = Some r /\
    a_run early D [] (firstn k (calls p)) = Some (hs0, rs0) /\ a_exec early D hs0 o = Some (hs1, r) /\
    match target o with Some i => (i < created (firstn k (calls p)))%nat | None => True end.
Proof.
  intros HD Hs Hk. destruct (program_refines early D p HD Hs) as (ds & hs & rs & E & A & _).
  assert (Ec : calls p = firstn k (calls p) ++ o :: skipn (S k) (calls p)).
  { clear - Hk. revert k Hk. generalize (calls p). induction l as [|x l IH]; intros [|k] H; simpl in *; try discriminate.
    - injection H as ->. reflexivity.
    - f_equal. apply IH. assumption. }
  pose proof Hs as Hs'. rewrite Ec in Hs'. apply scoped_app in Hs'. destruct Hs' as [_ [Ht _]]. cbn [Nat.add] in Ht.
  pose proof A as A'. rewrite Ec, a_run_app in A'.
  destruct (a_run early D [] (firstn k (calls p))) as [[hs0 rs0]|] eqn:E0; [|discriminate].
  cbn [a_run] in A'. destruct (a_exec early D hs0 o) as [[hs1 r]|] eqn:E1; [|discriminate].
  destruct (a_run early D hs1 (skipn (S k) (calls p))) as [[hs2 rs2]|]; [|discriminate].
  injection A' as _ A'. exists ds, rs, hs0, rs0, hs1, r.
  assert (L : length rs0 = k).
  { apply a_run_length in E0. destruct E0 as [E0 _]. rewrite E0, firstn_length.
    assert (k < length (calls p))%nat by (apply nth_error_Some; congruence). lia. }
  split; [assumption|]. split; [|auto].
  rewrite <- A', nth_error_app2 by lia. rewrite L, Nat.sub_diag. reflexivity.
Qed.

Lemma a_exec_on early D hs i f o hs' r a :
  a_exec early D hs o = match nth_error hs i with Some a => let '(a', r) := f a in Some (put i a' hs, r) | None => None end ->
  a_exec early D hs o = Some (hs', r) -> nth_error hs i = Some a -> r = snd (f a) /\ hs' = put i (fst (f a)) hs.
Proof.
  intros E1 E2 Ea. rewrite E1, Ea in E2. destruct (f a). injection E2 as <- <-. auto.
Qed.

(** C02 and its companions for Sum and MarshalBinary. *)
Lemma crsum_exact early D p k i inp m : decides D go_detects -> scoped 0 (calls p) ->
  nth_error (calls p) k = Some (OCRSum i inp) -> written i (firstn k (calls p)) = Some m ->
  exists ds rs, run_program early p = Some (ds, rs) /\
    nth_error rs k = Some (RVerdict (inp ++ fst (cd_sum D m)) (snd (cd_sum D m))).
Proof.
  intros HD Hs Hk Hm. destruct (call_at early D p k _ HD Hs Hk) as (ds & rs & hs0 & rs0 & hs1 & r & E & Er & A & X & T).
  cbn [target] in T. pose proof (a_run_written _ _ _ _ _ _ _ A Hm T) as Ha.
  destruct (a_exec_on early D hs0 i (fun a => (a, RVerdict (inp ++ fst (a_sum D a)) (snd (a_sum D a)))) (OCRSum i inp) _ _ _ eq_refl X Ha) as [-> _].
  cbn [snd] in Er. rewrite a_sum_new in Er. eauto.
Qed.
Lemma sum_exact early D p k i inp m : decides D go_detects -> scoped 0 (calls p) ->
  nth_error (calls p) k = Some (OSum i inp) -> written i (firstn k (calls p)) = Some m ->
  exists ds rs, run_program early p = Some (ds, rs) /\ nth_error rs k = Some (RBytes (inp ++ fst (cd_sum D m))).
Proof.
  intros HD Hs Hk Hm. destruct (call_at early D p k _ HD Hs Hk) as (ds & rs & hs0 & rs0 & hs1 & r & E & Er & A & X & T).
  cbn [target] in T. pose proof (a_run_written _ _ _ _ _ _ _ A Hm T) as Ha.
  destruct (a_exec_on early D hs0 i (fun a => (a, RBytes (inp ++ fst (a_sum D a)))) (OSum i inp) _ _ _ eq_refl X Ha) as [-> _].
  cbn [snd] in Er. rewrite a_sum_new in Er. eauto.
Qed.
Lemma marshal_exact early D p k i m : decides D go_detects -> scoped 0 (calls p) ->
  nth_error (calls p) k = Some (OMarshal i) -> written i (firstn k (calls p)) = Some m ->
  exists ds rs, run_program early p = Some (ds, rs) /\ nth_error rs k = Some (RBytes (a_marshal D (a_write a_new m))).
Proof.
  intros HD Hs Hk Hm. destruct (call_at early D p k _ HD Hs Hk) as (ds & rs & hs0 & rs0 & hs1 & r & E & Er & A & X & T).
  cbn [target] in T. pose proof (a_run_written _ _ _ _ _ _ _ A Hm T) as Ha.
  destruct (a_exec_on early D hs0 i (fun a => (a, RBytes (a_marshal D a))) (OMarshal i) _ _ _ eq_refl X Ha) as [-> _].
  cbn [snd] in Er. eauto.
Qed.

(** C01 *)
Lemma cd_unflagged D bs : forall h f, snd (cd_blocks D (h, f) bs) = false -> fst (cd_blocks D (h, f) bs) = sha1_blocks h bs /\ f = false.
Proof.
  induction bs as [|b bs IH]; intros h f E.
  - auto.
  - rewrite cd_blocks_cons in *. cbn [fst snd] in *. unfold cd_block in *.
    destruct (D h (words_of b)).
    + apply IH in E. destruct E as [_ E]. rewrite orb_true_r in E. discriminate.
    + rewrite orb_false_r in *. apply IH in E. exact E.
Qed.
Lemma cd_sum_unflagged D m : snd (cd_sum D m) = false -> fst (cd_sum D m) = sha1 m.
Proof.
  unfold cd_sum, sha1. pose proof (cd_unflagged D (blocks (pad m)) IV false) as H.
  destruct (cd_blocks D (IV, false) (blocks (pad m))) as [h f]. cbn [fst snd] in *. intros E.
  destruct (H E) as [-> _]. reflexivity.
Qed.
Lemma go_decide_ok : decides go_decide go_detects.
Proof. exact go_decide_decides. Qed.

Lemma unflagged_is_sha1 early p k i inp m b v : scoped 0 (calls p) ->
  nth_error (calls p) k = Some (OCRSum i inp) -> written i (firstn k (calls p)) = Some m ->
  forall ds rs, run_program early p = Some (ds, rs) -> nth_error rs k = Some (RVerdict b v) ->
  v = false -> b = inp ++ sha1 m.
Proof.
  intros Hs Hk Hm ds rs E Er Hv. destruct (crsum_exact early go_decide p k i inp m go_decide_ok Hs Hk Hm) as (ds' & rs' & E' & Er').
  rewrite E in E'. injection E' as <- <-. rewrite Er in Er'. injection Er' as -> ->.
  rewrite (cd_sum_unflagged _ _ Hv). reflexivity.
Qed.

(** C03: everything observable depends on the written bytes only. *)
Lemma same_written early1 early2 p1 p2 k1 k2 i1 i2 m o1 o2 : 
  scoped 0 (calls p1) -> scoped 0 (calls p2) ->
  nth_error (calls p1) k1 = Some o1 -> nth_error (calls p2) k2 = Some o2 ->
  ((exists b, o1 = OSum i1 b /\ o2 = OSum i2 b) \/ (exists b, o1 = OCRSum i1 b /\ o2 = OCRSum i2 b) \/
   (o1 = OMarshal i1 /\ o2 = OMarshal i2)) ->
  written i1 (firstn k1 (calls p1)) = Some m -> written i2 (firstn k2 (calls p2)) = Some m ->
  exists ds1 rs1 ds2 rs2 r, run_program early1 p1 = Some (ds1, rs1) /\ run_program early2 p2 = Some (ds2, rs2) /\
    nth_error rs1 k1 = Some r /\ nth_error rs2 k2 = Some r.
Proof.
  intros S1 S2 K1 K2 [(b & -> & ->)|[(b & -> & ->)|(-> & ->)]] W1 W2.
  - destruct (sum_exact early1 _ _ _ _ _ _ go_decide_ok S1 K1 W1) as (ds1 & rs1 & E1 & X1).
    destruct (sum_exact early2 _ _ _ _ _ _ go_decide_ok S2 K2 W2) as (ds2 & rs2 & E2 & X2). eauto 10.
  - destruct (crsum_exact early1 _ _ _ _ _ _ go_decide_ok S1 K1 W1) as (ds1 & rs1 & E1 & X1).
    destruct (crsum_exact early2 _ _ _ _ _ _ go_decide_ok S2 K2 W2) as (ds2 & rs2 & E2 & X2). eauto 10.
  - destruct (marshal_exact early1 _ _ _ _ _ go_decide_ok S1 K1 W1) as (ds1 & rs1 & E1 & X1).
    destruct (marshal_exact early2 _ _ _ _ _ go_decide_ok S2 K2 W2) as (ds2 & rs2 & E2 & X2). eauto 10.
Qed.

(** C04 *)
Lemma exec_observer early blk ds o ds' r : observer o = true -> exec early blk ds o = Some (ds', r) -> ds' = ds.
Proof.
  destruct o; cbn [observer exec]; intros H E; try discriminate;
    try (destruct (nth_error ds i) as [d|]; [|discriminate]; cbn [obind] in E).
  - destruct (Sum blk d inp); [|discriminate]. injection E as <- _. reflexivity.
  - destruct (CollisionResistantSum blk d inp) as [[? ?]|]; [|discriminate]. injection E as <- _. reflexivity.
  - destruct (MarshalBinary d); [|discriminate]. injection E as <- _. reflexivity.
  - injection E as <- _. reflexivity.
  - injection E as <- _. reflexivity.
  - destruct (SumPkg early blk data) as [[? ?]|]; [|discriminate]. injection E as <- _. reflexivity.
Qed.


Lemma run_observers early (q : list (blockfn * op)) : forall ds ds' rs, run early ds q = Some (ds', rs) ->
  run early ds (filter (fun x => negb (observer (snd x))) q) =
  Some (ds', map snd (filter (fun x => negb (observer (fst x))) (combine (map snd q) rs))).
Proof.
  induction q as [|[blk o] q IH]; intros ds ds' rs E; cbn [run] in E.
  - injection E as <- <-. reflexivity.
  - destruct (exec early blk ds o) as [[ds1 x]|] eqn:E1; [|discriminate]. cbn [obind] in E.
    destruct (run early ds1 q) as [[ds2 xs]|] eqn:E2; [|discriminate]. injection E as <- <-.
    apply IH in E2. cbn [map snd combine filter fst]. destruct (observer o) eqn:Eo; cbn [negb].
    + apply (exec_observer _ _ _ _ _ _ Eo) in E1. subst ds1. exact E2.
    + cbn [run]. rewrite E1. cbn [obind]. rewrite E2. reflexivity.
Qed.

Lemma filter_map {A B} (f : A -> B) (P : B -> bool) l : filter P (map f l) = map f (filter (fun x => P (f x)) l).
Proof. induction l as [|x l IH]; cbn [map filter]; [reflexivity|]. destruct (P (f x)); cbn [map]; rewrite IH; reflexivity. Qed.

Lemma observers_pure early p : scoped 0 (calls p) ->
  exists ds rs, run_program early p = Some (ds, rs) /\
    run_program early (filter silent p) =
    Some (ds, map snd (filter (fun x => negb (observer (fst x))) (combine (calls p) rs))).
Proof.
  intros Hs. destruct (program_refines early go_decide p go_decide_ok Hs) as (ds & hs & rs & E & _).
  exists ds, rs. split; [assumption|]. unfold run_program in *. apply run_observers in E.
  rewrite filter_map in E. cbn [snd] in E. unfold silent. rewrite E. rewrite map_map. reflexivity.
Qed.

(** C06 *)
Lemma no_panic early p : scoped 0 (calls p) ->
  exists ds rs, run_program early p = Some (ds, rs) /\ length rs = length p /\
    forall k i w, nth_error (calls p) k = Some (OWrite i w) -> nth_error rs k = Some (RNum (length w)).
Proof.
  intros Hs. destruct (program_refines early go_decide p go_decide_ok Hs) as (ds & hs & rs & E & A & _).
  exists ds, rs. split; [assumption|]. split.
  - apply a_run_length in A. unfold calls in A. rewrite map_length in A. tauto.
  - intros k i w Hk. destruct (call_at early go_decide p k _ go_decide_ok Hs Hk) as (ds' & rs' & hs0 & rs0 & hs1 & r & E' & Er & _ & X & T).
    rewrite E in E'. injection E' as <- <-. rewrite Er. f_equal. cbn [a_exec] in X.
    destruct (nth_error hs0 i); [|discriminate]. injection X as _ <-. reflexivity.
Qed.

(** ** One hasher on its own *)
Section Alone.
  Variable early : bool.
  Variable D : st -> list word -> bool.

  Definition a_call (o : op) (a : ahash) : ahash * res :=
    match o with
    | OWrite _ p => (a_write a p, RNum (length p))
    | OSum _ inp => (a, RBytes (inp ++ fst (a_sum D a)))
    | OCRSum _ inp => (a, RVerdict (inp ++ fst (a_sum D a)) (snd (a_sum D a)))
    | OReset _ => (a_new, RUnit)
    | OMarshal _ => (a, RBytes (a_marshal D a))
    | OUnmarshal _ b => a_unmarshal D a b
    | OSize _ => (a, RNum 20)
    | OBlockSize _ => (a, RNum 64)
    | _ => (a, RUnit)
    end.
  Fixpoint a_calls (a : ahash) (os : list op) : ahash * list res :=
    match os with
    | [] => (a, [])
    | o :: r => let '(a1, x) := a_call o a in let '(a2, xs) := a_calls a1 r in (a2, x :: xs)
    end.

  Lemma a_exec_call hs o i a : target o = Some i -> nth_error hs i = Some a ->
    a_exec early D hs o = Some (put i (fst (a_call o a)) hs, snd (a_call o a)).
  Proof.
    destruct o; cbn [target]; intros H Ha; try discriminate; injection H as ->; cbn [a_exec]; rewrite Ha; try reflexivity.
    cbn [a_call]. destruct (a_unmarshal D a b). reflexivity.
  Qed.
  Lemma a_call_retarget j o : forall a, a_call (retarget j o) a = a_call o a.
  Proof. destruct o; reflexivity. Qed.
  Lemma target_retarget j o i : target o = Some i -> target (retarget j o) = Some j.
  Proof. destruct o; cbn; congruence. Qed.

  Lemma pick_cons i o os r rs : pick i (o :: os) (r :: rs) = (if target_is i o then [r] else []) ++ pick i os rs.
  Proof. unfold pick. cbn [combine filter fst]. destruct (target_is i o); reflexivity. Qed.

  (** The results of hasher i in a run, whatever happens around it. *)
  Lemma a_run_pick i os : forall hs hs' rs a, a_run early D hs os = Some (hs', rs) -> nth_error hs i = Some a ->
    nth_error hs' i = Some (fst (a_calls a (filter (target_is i) os))) /\
    pick i os rs = snd (a_calls a (filter (target_is i) os)).
  Proof.
    induction os as [|o os IH]; intros hs hs' rs a E Ha; cbn [a_run] in E.
    - injection E as <- <-. auto.
    - destruct (a_exec early D hs o) as [[hs1 x]|] eqn:E1; [|discriminate].
      destruct (a_run early D hs1 os) as [[hs2 xs]|] eqn:E2; [|discriminate]. injection E as <- <-.
      rewrite pick_cons. cbn [filter].
      assert (Ti : target_is i o = match target o with Some j => (i =? j)%nat | None => false end) by reflexivity.
      rewrite Ti. clear Ti. destruct (target o) as [j|] eqn:Et.
      + destruct (Nat.eqb_spec i j) as [<-|Hne].
        * rewrite (a_exec_call hs o i a Et Ha) in E1. injection E1 as <- <-.
          assert (Hi : (i < length hs)%nat) by (apply nth_error_Some; congruence).
          destruct (IH _ _ _ _ E2 (nth_error_put_eq _ _ _ Hi)) as [I1 I2].
          cbn [a_calls]. rewrite I1, I2. destruct (a_call o a) as [a1 r1]. cbn [fst snd].
          destruct (a_calls a1 (filter (target_is i) os)). auto.
        * assert (Hj : exists b, nth_error hs j = Some b).
          { destruct o; cbn [target] in Et; try discriminate; injection Et as ->; cbn [a_exec] in E1;
              destruct (nth_error hs j); try discriminate; eauto. }
          destruct Hj as [b Hb]. rewrite (a_exec_call hs o j b Et Hb) in E1. injection E1 as <- <-.
          apply (IH _ _ _ a E2). rewrite nth_error_put_ne by congruence. assumption.
      + apply (IH _ _ _ a E2). destruct o; cbn [target] in Et; try discriminate; cbn [a_exec] in E1.
        * injection E1 as <- <-. rewrite nth_error_app1; [assumption|]. apply nth_error_Some. congruence.
        * injection E1 as <- <-. assumption.
  Qed.

  Lemma filter_all {A} (P : A -> bool) l : Forall (fun x => P x = true) l -> filter P l = l.
  Proof. induction 1 as [|x l H _ IH]; cbn [filter]; [reflexivity|]. rewrite H, IH. reflexivity. Qed.
  Lemma a_calls_retarget j os : forall a, a_calls a (map (retarget j) os) = a_calls a os.
  Proof.
    induction os as [|o os IH]; intros a; cbn [map a_calls]; [reflexivity|].
    rewrite a_call_retarget. destruct (a_call o a). rewrite IH. reflexivity.
  Qed.
  Lemma filter_target_ex i os : Forall (fun o => exists j, target o = Some j) (filter (target_is i) os).
  Proof.
    apply Forall_forall. intros o Hin. apply filter_In in Hin. destruct Hin as [_ H].
    unfold target_is in H. destruct (target o); [eauto|discriminate].
  Qed.

  (** A run of one hasher alone. *)
  Lemma a_run_alone os : Forall (fun o => exists j, target o = Some j) os ->
    forall a, a_run early D [a] (map (retarget 0) os) = Some ([fst (a_calls a os)], snd (a_calls a os)).
  Proof.
    induction 1 as [|o os [j Hj] _ IH]; intros a; cbn [map a_run a_calls]; [reflexivity|].
    rewrite (a_exec_call [a] _ 0 a (target_retarget 0 o j Hj) eq_refl), a_call_retarget. cbn [put].
    rewrite IH. destruct (a_call o a) as [a1 r1]. cbn [fst snd]. destruct (a_calls a1 os). reflexivity.
  Qed.
End Alone.

Lemma scoped_alone os : Forall (fun o => exists j, target o = Some j) os -> scoped 1 (map (retarget 0) os).
Proof.
  induction 1 as [|o os [j Hj] _ IH]; cbn [map scoped]; [exact I|].
  rewrite (target_retarget 0 o j Hj). split; [lia|].
  destruct o; cbn [target retarget] in *; try discriminate; exact IH.
Qed.

Lemma calls_app p q : calls (p ++ q) = calls p ++ calls q.
Proof. apply map_app. Qed.

Lemma calls_alone m0 i p : calls (alone m0 i p) = ONew :: map (retarget 0) (filter (target_is i) (calls p)).
Proof.
  unfold alone, calls. cbn [map snd]. rewrite map_map. f_equal. rewrite filter_map, map_map. reflexivity.
Qed.

Lemma run_alone early D m0 i p : decides D go_detects ->
  exists ds, run_program early (alone m0 i p) = Some (ds, RNew 0 :: snd (a_calls D a_new (filter (target_is i) (calls p)))).
Proof.
  intros HD. destruct (program_refines early D (alone m0 i p) HD) as (ds & hs & rs & E & A & _).
  - rewrite calls_alone. cbn [scoped target]. split; [exact I|]. apply scoped_alone, filter_target_ex.
  - rewrite calls_alone in A. cbn [a_run a_exec app] in A.
    rewrite a_run_alone in A by apply filter_target_ex. injection A as <- <-. eauto.
Qed.

(** Position of the creation of hasher i. *)
Lemma created_split os : forall n i, (n <= i < n + created os)%nat ->
  exists os1 os2, os = os1 ++ ONew :: os2 /\ (n + created os1 = i)%nat.
Proof.
  induction os as [|o os IH]; intros n i H; cbn [created] in H; [lia|].
  assert (D : o = ONew \/ o <> ONew) by (destruct o; auto; right; discriminate).
  destruct D as [->|Ho].
  - destruct (Nat.eq_dec i n) as [->|Hne].
    + exists [], os. cbn. split; [reflexivity|lia].
    + destruct (IH (S n) i) as (o1 & o2 & -> & E); [lia|]. exists (ONew :: o1), o2. cbn. split; [reflexivity|lia].
  - assert (Hc : match o with ONew => S (created os) | _ => created os end = created os) by (destruct o; congruence || reflexivity).
    rewrite Hc in H. clear Hc.
    destruct (IH n i) as (o1 & o2 & -> & E); [lia|]. exists (o :: o1), o2. split; [reflexivity|].
    destruct o; try congruence; exact E.
Qed.

Lemma scoped_none os i : forall n, scoped n os -> (n + created os <= i)%nat -> filter (target_is i) os = [].
Proof.
  induction os as [|o os IH]; intros n H L; [reflexivity|]. destruct H as [H1 H2]. cbn [filter].
  assert (target_is i o = false).
  { unfold target_is. destruct (target o) as [j|] eqn:E; [|reflexivity]. apply Nat.eqb_neq. lia. }
  rewrite H. apply (IH _ H2). destruct o; cbn [created] in L; cbv iota; lia.
Qed.

Lemma pick_app i os1 os2 rs1 rs2 : length os1 = length rs1 -> pick i (os1 ++ os2) (rs1 ++ rs2) = pick i os1 rs1 ++ pick i os2 rs2.
Proof.
  revert rs1. induction os1 as [|o os1 IH]; intros [|r rs1] H; cbn [length] in H; try discriminate; [reflexivity|].
  cbn [app]. rewrite !pick_cons, IH by lia. rewrite app_assoc. reflexivity.
Qed.
Lemma pick_none i os : filter (target_is i) os = [] -> forall rs, pick i os rs = [].
Proof.
  induction os as [|o os IH]; intros H [|r rs]; try reflexivity.
  cbn [filter] in H. destruct (target_is i o) eqn:E; [discriminate|]. rewrite pick_cons, E, IH; auto.
Qed.

(** C32 *)
Lemma independent early m0 p i : scoped 0 (calls p) -> (i < created (calls p))%nat ->
  exists ds rs ds', run_program early p = Some (ds, rs) /\
    run_program early (alone m0 i p) = Some (ds', RNew 0 :: pick i (calls p) rs).
Proof.
  intros Hs Hi. destruct (program_refines early go_decide p go_decide_ok Hs) as (ds & hs & rs & E & A & _).
  destruct (run_alone early go_decide m0 i p go_decide_ok) as (ds' & E').
  exists ds, rs, ds'. split; [assumption|]. rewrite E'. do 3 f_equal. symmetry.
  destruct (created_split (calls p) 0 i) as (o1 & o2 & Ec & En); [lia|]. cbn [Nat.add] in En.
  rewrite Ec in A, Hs |- *. rewrite a_run_app in A.
  destruct (a_run early go_decide [] o1) as [[h1 r1]|] eqn:E1; [|discriminate].
  cbn [a_run a_exec] in A.
  destruct (a_run early go_decide (h1 ++ [a_new]) o2) as [[h2 r2]|] eqn:E2; [|discriminate]. injection A as _ <-.
  destruct (a_run_length _ _ _ _ _ _ E1) as [L1 L2]. cbn [length] in L2.
  apply scoped_app in Hs. destruct Hs as [Hs1 _].
  rewrite pick_app by lia. rewrite (pick_none i o1) by (apply (scoped_none _ _ 0 Hs1); lia).
  rewrite pick_cons. cbn [target_is target app]. 
  rewrite filter_app. rewrite (scoped_none o1 i 0 Hs1) by lia. cbn [app filter target_is target].
  destruct (a_run_pick early go_decide i o2 _ _ _ a_new E2) as [_ P].
  - rewrite nth_error_app2 by lia. replace (i - length h1)%nat with 0%nat by lia. reflexivity.
  - exact P.
Qed.

(** C05 *)
Lemma reset_is_new early m0 m p q i : scoped 0 (calls (p ++ (m, OReset i) :: q)) ->
  exists ds ds' rs1 rs2, run_program early (p ++ (m, OReset i) :: q) = Some (ds, rs1 ++ RUnit :: rs2) /\
    length rs1 = length p /\
    run_program early (alone m0 i q) = Some (ds', RNew 0 :: pick i (calls q) rs2).
Proof.
  intros Hs. destruct (program_refines early go_decide _ go_decide_ok Hs) as (ds & hs & rs & E & A & _).
  destruct (run_alone early go_decide m0 i q go_decide_ok) as (ds' & E').
  rewrite calls_app in A, Hs. change (calls ((m, OReset i) :: q)) with (OReset i :: calls q) in *.
  rewrite a_run_app in A.
  destruct (a_run early go_decide [] (calls p)) as [[h1 r1]|] eqn:E1; [|discriminate].
  cbn [a_run] in A.
  destruct (a_exec early go_decide h1 (OReset i)) as [[h2 x]|] eqn:E2; [|discriminate].
  destruct (a_run early go_decide h2 (calls q)) as [[h3 r3]|] eqn:E3; [|discriminate]. injection A as _ <-.
  cbn [a_exec] in E2. destruct (nth_error h1 i) as [a|] eqn:Ea; [|discriminate]. injection E2 as <- <-.
  exists ds, ds', r1, r3. split; [assumption|]. split.
  - apply a_run_length in E1. destruct E1 as [E1 _]. unfold calls in E1. rewrite map_length in E1. exact E1.
  - rewrite E'. do 3 f_equal. symmetry. apply (a_run_pick early go_decide i _ _ _ _ a_new E3).
    apply nth_error_put_eq. apply nth_error_Some. congruence.
Qed.
