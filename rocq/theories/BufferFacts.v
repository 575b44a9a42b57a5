(** Calls with store buffers do what they do alone. *)

From Coq Require Import Arith NArith List Strings.Byte Bool Lia ZifyNat.
From Verif Require Import Word Spec_Sha1 Model_Go Model_Asm Model_Amd64 Model_Arm64 Model_Trace Model_Conc Spec_Conc ConcFacts Model_Buffer Spec_Buffer.
Import ListNotations.
Local Open Scope N_scope.
Ltac Zify.zify_post_hook ::= idtac.

(** * Buffers *)
(** The last byte for x. *)
Fixpoint latest (x : N) (q : buffer) : option byte :=
  match q with
  | [] => None
  | (a, b) :: q => match latest x q with Some c => Some c | None => if a =? x then Some b else None end
  end.
Lemma poke1 m a b x : poke m a [b] x = if a =? x then b else m x.
Proof.
  destruct (N.eqb_spec a x) as [->|N].
  - unfold poke. cbn [length]. replace ((x <=? x) && (x <? x + N.of_nat 1)) with true
      by (symmetry; apply andb_true_intro; split; [apply N.leb_le|apply N.ltb_lt]; lia). rewrite N.sub_diag. reflexivity.
  - apply poke_out. cbn [length]. lia.
Qed.
Lemma overlay_latest q : forall m x, overlay m q x = match latest x q with Some b => b | None => m x end.
Proof.
  induction q as [|[a b] q IH]; intros m x; [reflexivity|]. cbn [latest]. change (overlay m ((a, b) :: q)) with (overlay (poke m a [b]) q).
  rewrite IH. destruct (latest x q); [reflexivity|]. rewrite poke1. destruct (a =? x); reflexivity.
Qed.
Lemma latest_app x q r : latest x (q ++ r) = match latest x r with Some b => Some b | None => latest x q end.
Proof.
  induction q as [|[a b] q IH]; cbn [app latest]; [destruct (latest x r); reflexivity|]. rewrite IH. destruct (latest x r); reflexivity.
Qed.
Lemma latest_none x q : (forall b, ~ In (x, b) q) -> latest x q = None.
Proof.
  induction q as [|[a b] q IH]; intros H; [reflexivity|]. cbn [latest]. rewrite IH by (intros c Hc; apply (H c); right; exact Hc).
  destruct (N.eqb_spec a x) as [->|_]; [|reflexivity]. exfalso. apply (H b). left. reflexivity.
Qed.
Lemma latest_in x q b : latest x q = Some b -> In (x, b) q.
Proof.
  induction q as [|[a c] q IH]; [discriminate|]. cbn [latest]. destruct (latest x q) as [d|]; [intros E; right; apply IH; exact E|].
  destruct (N.eqb_spec a x) as [->|_]; [|discriminate]. intros E. injection E as ->. left. reflexivity.
Qed.
Lemma latest_some x q b : In (x, b) q -> latest x q <> None.
Proof.
  induction q as [|[a c] q IH]; [intros []|]. intros [E|H]; cbn [latest].
  - injection E as -> ->. rewrite N.eqb_refl. destruct (latest x q); discriminate.
  - specialize (IH H). destruct (latest x q); [discriminate|congruence].
Qed.
Lemma take_latest a : forall q b r, take a q = Some (b, r) ->
  In (a, b) q /\ (forall e, In e r -> In e q) /\
  forall x, latest x q = match latest x r with Some c => Some c | None => if a =? x then Some b else None end.
Proof.
  induction q as [|[y c] q IH]; intros b r E; [discriminate|]. cbn [take] in E. destruct (N.eqb_spec y a) as [->|Hy].
  - injection E as <- <-. split; [left; reflexivity|]. split; [intros e He; right; exact He|]. reflexivity.
  - destruct (take a q) as [[d s]|] eqn:T; [|discriminate]. cbn [obind] in E. injection E as <- <-.
    destruct (IH d s eq_refl) as (I & Sub & Lt). split; [right; exact I|]. split.
    + intros e [<-|He]; [left; reflexivity|right; apply Sub; exact He].
    + intros x. cbn [latest]. rewrite Lt. destruct (latest x s); [reflexivity|].
      destruct (N.eqb_spec a x) as [->|_].
      * destruct (N.eqb_spec y x); [congruence|reflexivity].
      * destruct (y =? x); reflexivity.
Qed.
Lemma entries_in m l x b : In (x, b) (entries m l) -> b = m x /\ covered l x.
Proof.
  unfold entries. intros H. apply in_flat_map in H. destruct H as ((a, n) & Hr & H). apply in_map_iff in H. destruct H as (i & E & Hi).
  cbn [fst snd] in *. injection E as <- <-. split; [reflexivity|]. apply in_seq in Hi. exists a, n. split; [exact Hr|lia].
Qed.
Lemma entries_latest m l x : (covered l x -> latest x (entries m l) = Some (m x)) /\ (~ covered l x -> latest x (entries m l) = None).
Proof.
  split.
  - intros (a & n & Hr & Hx). destruct (latest x (entries m l)) as [b|] eqn:E.
    + apply latest_in, entries_in in E. destruct E as [-> _]. reflexivity.
    + exfalso. revert E. apply (latest_some x _ (m x)). unfold entries. apply in_flat_map. exists (a, n). split; [exact Hr|].
      apply in_map_iff. exists (N.to_nat (x - a)). cbn [fst snd]. split; [|apply in_seq; lia].
      replace (a + N.of_nat (N.to_nat (x - a))) with x by lia. reflexivity.
  - intros H. apply latest_none. intros b Hb. apply H. exact (proj2 (entries_in _ _ _ _ Hb)).
Qed.
Lemma covered_dec l x : covered l x \/ ~ covered l x.
Proof.
  induction l as [|[a n] l IH].
  - right. intros (a & n & [] & _).
  - destruct IH as [(b & k & H & K)|IH]; [left; exists b, k; split; [right; exact H|exact K]|].
    destruct (N.leb_spec a x) as [A|A]; [destruct (N.ltb_spec x (a + n)) as [B|B]|].
    + left. exists a, n. split; [left; reflexivity|lia].
    + right. intros (b & k & [E|H] & K); [injection E as <- <-; lia|]. apply IH. exists b, k. split; assumption.
    + right. intros (b & k & [E|H] & K); [injection E as <- <-; lia|]. apply IH. exists b, k. split; assumption.
Qed.

(** * What an instruction stores *)
Definition in_writable (L : layout) (x : N) : Prop := exists r, In r (regions L) /\ rwrite r = true /\ in_range x r.
Definition stores_ok (L : layout) (l : list access) (m m' : mem) : Prop :=
  (forall x, covered l x -> in_writable L x) /\ (forall x, ~ covered l x -> m' x = m x).
Lemma wr_stores L m a l m' : wr (regions L) m a l = Some m' -> stores_ok L [(a, N.of_nat (length l))] m m'.
Proof.
  unfold wr. destruct (writable _ _ _) eqn:W; [|discriminate]. intros E. injection E as <-. split.
  - intros x (b & n & [E|[]] & X). injection E as <- <-. unfold writable in W. apply existsb_exists in W. destruct W as (r & Hr & W).
    apply andb_prop in W. destruct W as [Hw W]. exists r. split; [exact Hr|]. split; [exact Hw|]. exact (inside_range _ _ _ _ W X).
  - intros x Hx. apply poke_out. intros X. apply Hx. exists a, (N.of_nat (length l)). split; [left; reflexivity|exact X].
Qed.
Lemma none_stores L m : stores_ok L [] m m.
Proof. split; [intros x (a & n & [] & _)|reflexivity]. Qed.
Lemma step_stores L i s s' : step_instr L i s = Some s' -> stores_ok L (written L i s) (mm s) (mm s').
Proof.
  intros E.
  assert (ST : forall a l, store L s a l = Some s' -> stores_ok L [(addr L s a, N.of_nat (length l))] (mm s) (mm s')).
  { intros a l. unfold store. destruct (wr (regions L) (mm s) (addr L s a) l) as [m1|] eqn:W; [|discriminate].
    cbn [obind]. intros X. injection X as <-. exact (wr_stores _ _ _ _ _ W). }
  destruct i; cbn [step_instr written] in *; try discriminate E; try (exact (ST _ _ E));
    try (injection E as <-; exact (none_stores _ _));
    try (match type of E with obind ?x _ = _ => destruct x; [|discriminate E] end; cbn [obind] in E; injection E as <-; exact (none_stores _ _)).
  all: try (injection E as <-; destruct (zf s); exact (none_stores _ _)).
  destruct (aligned (addr L s a)); [exact (ST _ _ E)|discriminate E].
Qed.
Lemma turn_stores prog L s s' : turn prog L s = Some s' -> stores_ok L (stored prog L s) (mm s) (mm s').
Proof.
  unfold turn, stored. destruct (nth_error prog (pc s)) as [i|]; [|discriminate]. intros E.
  assert (X : i = RET \/ step_instr L i s = Some s') by (destruct i; auto). destruct X as [->|X].
  - injection E as <-. apply none_stores.
  - exact (step_stores _ _ _ _ X).
Qed.
Lemma xstep_stores L i s s' : xstep L i s = Some s' -> stores_ok L (xwritten L i s) (xm s) (xm s').
Proof.
  intros E. destruct i; cbn [xstep xwritten] in *; try discriminate E;
    try (injection E as <-; exact (none_stores _ _));
    try (match type of E with obind (rd ?a ?b ?c ?d) _ = _ => destruct (rd a b c d); [|discriminate E] end; cbn [obind] in E; injection E as <-; exact (none_stores _ _));
    try (injection E as <-; destruct (xls s); exact (none_stores _ _));
    (match type of E with obind (wr ?a ?b ?c ?d) _ = _ => destruct (wr a b c d) as [m1|] eqn:W; [|discriminate E] end; cbn [obind] in E;
     injection E as <-; exact (wr_stores _ _ _ _ _ W)).
Qed.
Lemma xturn_stores prog L s s' : xturn prog L s = Some s' -> stores_ok L (xstored prog L s) (xm s) (xm s').
Proof.
  unfold xturn, xstored. destruct (nth_error prog (xpc s)) as [i|]; [|discriminate]. intros E.
  assert (X : i = ARET \/ xstep L i s = Some s') by (destruct i; auto). destruct X as [->|X].
  - injection E as <-. apply none_stores.
  - exact (xstep_stores _ _ _ _ X).
Qed.

(** * Many calls *)
Section Many.
  Variable core : Type.
  Variable view : core -> mem.
  Variable see : mem -> core -> core.
  Variable step : layout -> core -> option core.
  Variable stores : layout -> core -> list access.
  Hypothesis view_see : forall m c, view (see m c) = m.
  Hypothesis frame : forall L s m s', agree L m (view s) -> step L s = Some s' ->
    exists t, step L (see m s) = Some t /\ (forall n, see n t = see n s') /\ agree L (view t) (view s') /\
      forall x, out_writable L x -> view t x = m x.
  Hypothesis stores_right : forall L s s', step L s = Some s' -> stores_ok L (stores L s) (view s) (view s').

  (** What the calls have done together (ts), and what they have done alone (us). *)
  Definition btied (ls : list layout) (ts : list (layout * core * buffer)) (m : mem) (us : list core) : Prop :=
    length us = length ls /\ length ts = length ls /\
    forall k L u, nth_error ls k = Some L -> nth_error us k = Some u ->
      exists t q, nth_error ts k = Some (L, t, q) /\ (forall n, see n t = see n u) /\ agree L (overlay m q) (view u) /\
        forall x b, In (x, b) q -> in_writable L x.

  Lemma put_length {A} (x : A) l : forall j, length (put j x l) = length l.
  Proof. induction l as [|y l IHl]; intros [|j]; cbn [put length]; auto. Qed.
  Lemma separate_out L L' x r : separate L L' -> in_writable L x -> In r (regions L') -> in_range x r -> False.
  Proof. intros Sp (w & Hw & W & X) Hr Y. specialize (Sp w r Hw Hr (or_introl W)). unfold apart, in_range in *. lia. Qed.
  (** A byte that changes elsewhere. *)
  Lemma agree_poke L m q n a b : agree L (overlay m q) n -> (forall r, In r (regions L) -> ~ in_range a r) -> agree L (overlay (poke m a [b]) q) n.
  Proof.
    intros G H x r Hr Hx. rewrite <- (G x r Hr Hx). rewrite !overlay_latest. destruct (latest x q); [reflexivity|]. rewrite poke1.
    destruct (N.eqb_spec a x) as [->|_]; [|reflexivity]. exfalso. exact (H r Hr Hx).
  Qed.
  Lemma bconc_ok ls (Hls : pairwise ls) : forall ev ts m us, btied ls ts m us ->
    (forall L, In L ls -> bundisturbed L ev) ->
    (forall k L u, nth_error ls k = Some L -> nth_error us k = Some u -> alone core step (bturns k ev) L u <> None) ->
    exists S, bconc core view see step stores ev (mkbsys _ ts m) = Some S /\
      (forall k L u, nth_error ls k = Some L -> nth_error us k = Some u ->
         exists u', alone core step (bturns k ev) L u = Some u' /\ agree L (overlay (bshared _ S) (waiting S k)) (view u')) /\
      (forall a, (forall L, In L ls -> out_writable L a) -> (forall b, ~ In (BStore a b) ev) -> bshared _ S a = m a).
  Proof.
    induction ev as [|e ev IH]; intros ts m us (Lu & Lt & T) Q F.
    - eexists. split; [reflexivity|]. split; [|reflexivity]. intros k L u Hk Hu. exists u. split; [reflexivity|].
      destruct (T k L u Hk Hu) as (t & q & Ht & _ & G & _). unfold waiting. cbn [bcores bshared]. rewrite Ht. exact G.
    - assert (Q' : forall L, In L ls -> bundisturbed L ev) by (intros L HL a b r Hin; apply (Q L HL a b r); right; exact Hin).
      cbn [bconc]. destruct e as [k|k a|a b]; cbn [bhappen bcores bshared].
      + destruct (nth_error ls k) as [L|] eqn:HL.
        * assert (Hu : exists u, nth_error us k = Some u).
          { destruct (nth_error us k) eqn:E; [eauto|]. apply nth_error_None in E. assert (k < length ls)%nat by (apply nth_error_Some; congruence). lia. }
          destruct Hu as (u & Hu). destruct (T k L u HL Hu) as (t & q & Ht & Se & G & W). rewrite Ht. cbv zeta.
          pose proof (F k L u HL Hu) as Fk. cbn [bturns] in Fk. rewrite Nat.eqb_refl in Fk. cbn [alone Nat.add] in Fk.
          destruct (step L u) as [u1|] eqn:Eu; [|exfalso; apply Fk; reflexivity]. cbn [obind] in Fk.
          destruct (frame L u (overlay m q) u1 G Eu) as (t1 & Et & Se1 & G1 & O1). rewrite Se, Et. cbn [obind].
          destruct (stores_right _ _ _ Et) as (W1 & K1). rewrite view_see in K1.
          set (q1 := q ++ entries (view t1) (stores L (see (overlay m q) u))).
          assert (T1 : btied ls (put k (L, t1, q1) ts) m (put k u1 us)).
          { split; [rewrite put_length; exact Lu|]. split; [rewrite put_length; exact Lt|]. intros j L' v HL' Hv. rewrite put_nth in Hv. rewrite put_nth.
            destruct (Nat.eqb_spec j k) as [->|Hjk].
            - rewrite Hu in Hv. injection Hv as <-. rewrite HL in HL'. injection HL' as <-. rewrite Ht. exists t1, q1. split; [reflexivity|].
              split; [exact Se1|]. split.
              + intros x r Hr Hx. rewrite <- (G1 x r Hr Hx). unfold q1. rewrite overlay_latest, latest_app.
                destruct (covered_dec (stores L (see (overlay m q) u)) x) as [C|C].
                * rewrite (proj1 (entries_latest _ _ _) C). reflexivity.
                * rewrite (proj2 (entries_latest _ _ _) C), (K1 x C), overlay_latest. reflexivity.
              + intros x b Hb. unfold q1 in Hb. apply in_app_or in Hb. destruct Hb as [Hb|Hb]; [exact (W x b Hb)|].
                apply W1. exact (proj2 (entries_in _ _ _ _ Hb)).
            - exact (T j L' v HL' Hv). }
          destruct (IH _ _ _ T1 Q') as (S & ES & RS & OS).
          { intros j L' v HL' Hv. rewrite put_nth in Hv. destruct (Nat.eqb_spec j k) as [->|Hjk].
            - rewrite Hu in Hv. injection Hv as <-. rewrite HL in HL'. injection HL' as <-. exact Fk.
            - specialize (F j L' v HL' Hv). cbn [bturns] in F. destruct (Nat.eqb_spec k j); [congruence|]. exact F. }
          exists S. split; [exact ES|]. split.
          { intros j L' v HL' Hv. cbn [bturns]. destruct (Nat.eqb_spec k j) as [<-|Hkj].
            - rewrite Hu in Hv. injection Hv as <-. rewrite HL in HL'. injection HL' as <-. cbn [Nat.add alone]. rewrite Eu. cbn [obind].
              apply (RS k L u1 HL). rewrite put_nth, Nat.eqb_refl, Hu. reflexivity.
            - apply (RS j L' v HL'). rewrite put_nth. destruct (Nat.eqb_spec j k); [congruence|]. exact Hv. }
          { intros a Ha Hb. apply OS; [exact Ha|]. intros b Hin. apply (Hb b). right. exact Hin. }
        * assert (Ht : nth_error ts k = None) by (apply nth_error_None; apply nth_error_None in HL; lia). rewrite Ht. cbn [obind].
          destruct (IH ts m us (conj Lu (conj Lt T)) Q') as (S & ES & RS & OS).
          { intros j L' v HL' Hv. specialize (F j L' v HL' Hv). cbn [bturns] in F. destruct (Nat.eqb_spec k j); [congruence|]. exact F. }
          exists S. split; [exact ES|]. split.
          { intros j L' v HL' Hv. cbn [bturns]. destruct (Nat.eqb_spec k j); [congruence|]. exact (RS j L' v HL' Hv). }
          { intros a Ha Hb. apply OS; [exact Ha|]. intros b Hin. apply (Hb b). right. exact Hin. }
      + assert (X : forall ts m', btied ls ts m' us -> (forall x, (forall L, In L ls -> out_writable L x) -> m' x = m x) ->
          exists S, bconc core view see step stores ev (mkbsys _ ts m') = Some S /\
            (forall k L u, nth_error ls k = Some L -> nth_error us k = Some u ->
               exists u', alone core step (bturns k ev) L u = Some u' /\ agree L (overlay (bshared _ S) (waiting S k)) (view u')) /\
            (forall a', (forall L, In L ls -> out_writable L a') -> (forall b, ~ In (BStore a' b) (Drain k a :: ev)) -> bshared _ S a' = m a')).
        { intros ts' m' T' O'. destruct (IH ts' m' us T' Q' F) as (S & ES & RS & OS). exists S. split; [exact ES|]. split; [exact RS|].
          intros x Hx Hb. rewrite OS; [exact (O' x Hx)|exact Hx|intros b Hin; apply (Hb b); right; exact Hin]. }
        destruct (nth_error ts k) as [[[L t] q]|] eqn:Hts; [|cbn [obind]; apply X; [exact (conj Lu (conj Lt T))|reflexivity]].
        destruct (take a q) as [[b r]|] eqn:Tk; [|cbn [obind]; apply X; [exact (conj Lu (conj Lt T))|reflexivity]].
        assert (HL : exists L', nth_error ls k = Some L').
        { destruct (nth_error ls k) eqn:E; [eauto|]. apply nth_error_None in E. assert (k < length ts)%nat by (apply nth_error_Some; congruence). lia. }
        destruct HL as (L1 & HL).
        assert (Hu : exists u, nth_error us k = Some u).
        { destruct (nth_error us k) eqn:E; [eauto|]. apply nth_error_None in E. assert (k < length ls)%nat by (apply nth_error_Some; congruence). lia. }
        destruct Hu as (u & Hu). destruct (T k L1 u HL Hu) as (t1 & q1 & Ht & Se & G & W). rewrite Hts in Ht.
        assert (Eq : L = L1 /\ t = t1 /\ q = q1) by (injection Ht as -> -> ->; auto). destruct Eq as (-> & -> & ->).
        destruct (take_latest a q1 b r Tk) as (Ia & Sub & Lt1). pose proof (W a b Ia) as Wa.
        cbn [obind]. apply X.
        * split; [exact Lu|]. split; [rewrite put_length; exact Lt|]. intros j L' v HL' Hv. rewrite put_nth. destruct (Nat.eqb_spec j k) as [->|Hjk].
          -- rewrite Hu in Hv. injection Hv as <-. rewrite HL in HL'. injection HL' as <-. rewrite Hts. exists t1, r. split; [reflexivity|].
             split; [exact Se|]. split; [|intros x c Hc; exact (W x c (Sub _ Hc))].
             intros x w Hw Hx. rewrite <- (G x w Hw Hx), !overlay_latest, Lt1. destruct (latest x r); [reflexivity|]. rewrite poke1.
             destruct (a =? x); reflexivity.
          -- destruct (T j L' v HL' Hv) as (t' & q' & Ht' & Se' & G' & W'). exists t', q'. split; [exact Ht'|]. split; [exact Se'|]. split; [|exact W'].
             apply agree_poke; [exact G'|]. intros w Hw Hx. exact (separate_out L1 L' a w (Hls k j L1 L' (not_eq_sym Hjk) HL HL') Wa Hw Hx).
        * intros x Hx. rewrite poke1. destruct (N.eqb_spec a x) as [->|_]; [|reflexivity]. exfalso. destruct Wa as (w & Hw & Ww & Xw).
          exact (Hx L1 (nth_error_In _ _ HL) w Hw Ww Xw).
      + cbn [obind]. destruct (IH ts (poke m a [b]) us) as (S & ES & RS & OS).
        { split; [exact Lu|]. split; [exact Lt|]. intros k L u HL Hu. destruct (T k L u HL Hu) as (t & q & Ht & Se & G & W). exists t, q. split; [exact Ht|].
          split; [exact Se|]. split; [|exact W]. apply agree_poke; [exact G|]. intros r Hr Hx.
          apply (Q L (nth_error_In _ _ HL) a b r); [left; reflexivity|exact Hr|exact Hx]. }
        { exact Q'. }
        { exact F. }
        exists S. split; [exact ES|]. split; [exact RS|]. intros x Hx Hb. rewrite OS; [|exact Hx|intros c Hin; apply (Hb c); right; exact Hin].
        rewrite poke1. destruct (N.eqb_spec a x) as [->|_]; [|reflexivity]. exfalso. apply (Hb b). left. reflexivity.
  Qed.
End Many.
