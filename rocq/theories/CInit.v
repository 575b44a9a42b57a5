(** Reads of memory that has not been written: proofs. *)

From Coq Require Import Arith ZArith NArith List Strings.Byte Lia Bool ZifyNat.
From Verif Require Import Word WordFacts Spec_Sha1 Sha1Facts Spec_DV Spec_Cd Spec_Api DvFacts Model_Ubc Gen_DvsC
  Model_Go GoCheck GoBlock GoApi GoStore GoProps Model_CSteps Gen_CSteps Model_C Spec_C Model_CApi CSteps CProcess CCtx CGo CRace
  Model_CInit Spec_CInit.
Import ListNotations.
Local Open Scope N_scope.
Ltac Zify.zify_post_hook ::= idtac.

(** ** Arrays *)
Lemma holds_some {A} (x : A) : holds (Some x) x.
Proof. intros y E. injection E as ->. reflexivity. Qed.
Lemma all_hold_length {A} (l : list (option A)) m : all_hold l m -> length l = length m.
Proof. induction 1; cbn; congruence. Qed.
Lemma all_hold_map {A} (m : list A) : all_hold (map Some m) m.
Proof. induction m; constructor; [apply holds_some|assumption]. Qed.
Lemma all_hold_upd {A} n (x : A) : forall l m, all_hold l m -> all_hold (upd n (Some x) l) (upd n x m).
Proof.
  induction n as [|n IH]; intros l m F; destruct F; cbn [upd]; try constructor; auto using @holds_some.
  apply IH. assumption.
Qed.
Lemma all_hold_nth {A} (l : list (option A)) m : all_hold l m -> forall n x, nth_error l n = Some (Some x) -> nth_error m n = Some x.
Proof.
  induction 1 as [|o y l m H F IH]; intros [|n] x E; cbn in E |- *; try discriminate.
  - injection E as ->. rewrite (H x eq_refl). reflexivity.
  - apply IH. exact E.
Qed.
Lemma all_hold_app {A} (a b : list (option A)) c d : all_hold a c -> all_hold b d -> all_hold (a ++ b) (c ++ d).
Proof. apply Forall2_app. Qed.
Lemma all_hold_firstn {A} n : forall (l : list (option A)) m, all_hold l m -> all_hold (firstn n l) (firstn n m).
Proof. induction n; intros l m F; destruct F; cbn [firstn]; constructor; auto. apply IHn. assumption. Qed.
Lemma all_hold_skipn {A} n : forall (l : list (option A)) m, all_hold l m -> all_hold (skipn n l) (skipn n m).
Proof. induction n; intros l m F; destruct F; cbn [skipn]; try constructor; auto. Qed.

(** The positions that have been written. *)
Definition written {A} (l : list (option A)) (n : nat) : Prop := exists x, nth_error l n = Some (Some x).
Lemma written_upd {A} (l : list (option A)) i (x : A) n : (i < length l)%nat -> (n = i \/ written l n) -> written (upd i (Some x) l) n.
Proof.
  revert i n. induction l as [|y l IH]; intros [|i] n L [->|(z & E)]; cbn [length] in L; try lia; cbn [upd].
  - exists x. reflexivity.
  - destruct n; [exists x; reflexivity|exists z; exact E].
  - apply (IH i i); [lia|left; reflexivity].
  - destruct n; [exists z; exact E|]. apply (IH i n); [lia|right; exists z; exact E].
Qed.
Lemma read_at_ok {A} (l : list (option A)) m n : all_hold l m -> written l n -> exists x, read_at l n = Some x /\ nth_error m n = Some x.
Proof. intros F (x & E). exists x. unfold read_at. rewrite E. split; [reflexivity|]. eapply all_hold_nth; eassumption. Qed.
Lemma read_all_ok {A} (l : list (option A)) m : all_hold l m -> (forall n, (n < length l)%nat -> written l n) -> read_all l = Some m.
Proof.
  induction 1 as [|o y l m H F IH]; intros D; [reflexivity|]. cbn [read_all].
  destruct (D 0%nat ltac:(cbn; lia)) as (x & E). cbn in E. injection E as ->. cbn [obind].
  rewrite IH by (intros n L; exact (D (S n) ltac:(cbn; lia))). cbn [obind]. rewrite (H x eq_refl). reflexivity.
Qed.
Lemma written_firstn {A} (l : list (option A)) k n : (n < k)%nat -> written l n -> written (firstn k l) n.
Proof.
  intros L (x & E). exists x. revert n k L E. induction l as [|y l IH]; intros [|n] [|k] L E; try discriminate; try lia; cbn in *; [exact E|].
  apply IH; [lia|exact E].
Qed.
Lemma written_skipn {A} (l : list (option A)) k n : written l (k + n) -> written (skipn k l) n.
Proof.
  intros (x & E). exists x. revert k n E. induction l as [|y l IH]; intros [|k] n E; cbn [skipn]; try exact E.
  - destruct n; discriminate.
  - apply IH. exact E.
Qed.
Lemma written_map {A} (m : list A) n : (n < length m)%nat -> written (map Some m) n.
Proof. intros L. destruct (nth_error m n) as [x|] eqn:E; [|apply nth_error_None in E; lia]. exists x. rewrite nth_error_map, E. reflexivity. Qed.
Lemma written_app {A} (a b : list (option A)) n : written a n \/ ((length a <= n)%nat /\ written b (n - length a)) -> written (a ++ b) n.
Proof.
  intros [(x & E)|(L & x & E)]; exists x.
  - rewrite nth_error_app1; [exact E|]. apply nth_error_Some. congruence.
  - rewrite nth_error_app2 by exact L. exact E.
Qed.

(** ** The order of the steps: each word of W is stored before it is used *)
Definition stored (l : list nat) (n : nat) : bool := existsb (Nat.eqb n) l.
Fixpoint in_order (l : list citem) (w s : list nat) : option (list nat * list nat) :=
  match l with
  | [] => Some (w, s)
  | CStore g i :: l => if (i <? 80)%nat then in_order l w (if defined g then i :: s else s) else None
  | CFull k _ _ _ _ _ t :: l =>
    if match k with FLoad => (t <? 16)%nat
       | _ => (stored w (t - 3) && stored w (t - 8) && stored w (t - 14) && stored w (t - 16))%nat end && (t <? 80)%nat
    then in_order l (t :: w) s else None
  end.
Definition in_order_ok : bool :=
  match in_order comp_states_items [] [] with
  | Some (w, s) => forallb (stored w) (seq 0 80) && stored s 58 && stored s 65
  | None => false
  end.
Lemma items_in_order : in_order_ok = true.
Proof. vm_compute. reflexivity. Qed.

Definition has {A} (l : list (option A)) (w : list nat) : Prop := forall n, stored w n = true -> written l n.
Lemma has_nil {A} (l : list (option A)) : has l []. Proof. intros n E. discriminate. Qed.
Lemma has_upd {A} (l : list (option A)) w i (x : A) : (i < length l)%nat -> has l w -> has (upd i (Some x) l) (i :: w).
Proof.
  intros L H n E. apply written_upd; [exact L|]. cbn [stored existsb] in E. apply orb_true_iff in E. destruct E as [E|E].
  - left. apply Nat.eqb_eq. exact E.
  - right. apply H. exact E.
Qed.
Lemma nth_of_error {A} (l : list A) n x d : nth_error l n = Some x -> nth n l d = x.
Proof. apply nth_error_nth. Qed.
Lemma mix_ok W cW w t : all_hold W cW -> has W w ->
  (stored w (t - 3) && stored w (t - 8) && stored w (t - 14) && stored w (t - 16))%nat = true -> i_mix W t = Some (sha1_mix cW t).
Proof.
  intros F H E. repeat (apply andb_true_iff in E; destruct E as [E ?]).
  destruct (read_at_ok W cW (t - 3) F) as (a & Ra & Na); [auto|]. destruct (read_at_ok W cW (t - 8) F) as (b & Rb & Nb); [auto|].
  destruct (read_at_ok W cW (t - 14) F) as (c & Rc & Nc); [auto|]. destruct (read_at_ok W cW (t - 16) F) as (d & Rd & Nd); [auto|].
  unfold i_mix, sha1_mix. rewrite Ra, Rb, Rc, Rd. cbn [obind].
  rewrite (nth_of_error _ _ _ 0 Na), (nth_of_error _ _ _ 0 Nb), (nth_of_error _ _ _ 0 Nc), (nth_of_error _ _ _ 0 Nd). reflexivity.
Qed.
Definition full (ob : list (option byte)) (b : list byte) : Prop :=
  all_hold ob b /\ length b = 64%nat /\ forall n, (n < 64)%nat -> written ob n.
Lemma load_ok cfg ob b t : full ob b -> (t < 16)%nat -> i_load cfg ob t = Some (sha1_load cfg b t).
Proof.
  intros (F & L & D) T. unfold i_load, sha1_load.
  pose proof (all_hold_length _ _ F) as L'.
  rewrite (read_all_ok (firstn 4 (skipn (4 * t) ob)) (firstn 4 (skipn (4 * t) b))).
  - cbn [obind]. reflexivity.
  - apply all_hold_firstn, all_hold_skipn, F.
  - intros n Ln. rewrite firstn_length, skipn_length in Ln. apply written_firstn; [lia|]. apply written_skipn. apply D. lia.
Qed.

Record psim (x : ipass) (y : cpass) (w s : list nat) : Prop := mkps {
  ps_W : all_hold (ip_W x) (cp_W y); ps_S : all_hold (ip_states x) (cp_states y); ps_s : ip_s x = cp_s y;
  ps_lW : length (ip_W x) = 80%nat; ps_lS : length (ip_states x) = 80%nat; ps_w : has (ip_W x) w; ps_h : has (ip_states x) s }.
Lemma items_ok cfg ob b : full ob b -> forall l x y w s w' s', psim x y w s -> in_order l w s = Some (w', s') ->
  exists x', i_items cfg ob l x = Some x' /\ psim x' (fold_left (c_item cfg b) l y) w' s'.
Proof.
  intros FB. induction l as [|it l IH]; intros x y w s w' s' [F1 F2 Es L1 L2 W1 W2] E; cbn [in_order i_items fold_left] in *.
  - injection E as -> ->. exists x. split; [reflexivity|constructor; assumption].
  - destruct it as [g i|k a b0 c d e t].
    + destruct (Nat.ltb_spec i 80) as [Li|]; [|discriminate]. cbn [i_item c_item obind].
      eapply IH; [|exact E]. destruct (defined g); [|constructor; assumption]. rewrite Es.
      constructor; cbn [ip_W ip_states ip_s cp_W cp_states cp_s]; auto using @all_hold_upd.
      * rewrite GoBlock.upd_length. assumption.
      * apply has_upd; [lia|assumption].
    + destruct (match k with FLoad => _ | _ => _ end && _) eqn:G in E; [|discriminate]. apply andb_true_iff in G. destruct G as [G T].
      apply Nat.ltb_lt in T. cbn [i_item c_item].
      assert (H : match k with FLoad => i_load cfg ob t | _ => i_mix (ip_W x) t end =
        Some (match k with FLoad => sha1_load cfg b t | _ => sha1_mix (cp_W y) t end)).
      { destruct k; [apply load_ok; [exact FB|apply Nat.ltb_lt; exact G]| |]; eapply mix_ok; eassumption. }
      rewrite H. cbn [obind]. eapply IH; [|exact E]. rewrite Es.
      constructor; cbn [ip_W ip_states ip_s cp_W cp_states cp_s]; auto using @all_hold_upd.
      * rewrite GoBlock.upd_length. assumption.
      * apply has_upd; [lia|assumption].
Qed.

(** ** sha1_process *)
(** The members that SHA1DCInit writes and sha1_process reads. *)
Record known (i : ictx) (c : ctx) : Prop := mkknown {
  kn_total : i_total i = Some (c_total c); kn_ihv : i_ihv i = Some (c_ihv c); kn_found : i_found i = Some (c_found c);
  kn_safe : i_safe i = Some (c_safe c); kn_detect : i_detect i = Some (c_detect c); kn_ubc : i_ubc i = Some (c_ubc c);
  kn_reduced : i_reduced i = Some (c_reduced c); kn_callback : i_callback i = Some (c_callback c) }.
(** The others. *)
Record rest (i : ictx) (c : ctx) : Prop := mkrest {
  re_buffer : all_hold (i_buffer i) (c_buffer c); re_ihv1 : holds (i_ihv1 i) (c_ihv1 c); re_ihv2 : holds (i_ihv2 i) (c_ihv2 c);
  re_m1 : all_hold (i_m1 i) (c_m1 c); re_m2 : all_hold (i_m2 i) (c_m2 c); re_states : all_hold (i_states i) (c_states c);
  re_fit : fit c }.
Definition sim i c : Prop := known i c /\ rest i c.

Lemma i_loop_cons dv rest mask c : i_process_loop (dv :: rest) mask c =
    if dvType dv =? 0 then Some c
    else if 32 <=? maskB dv then None
    else if N.land mask (shl32 1 (maskB dv)) =? 0 then i_process_loop rest mask c
    else
      do m1 <- read_all (i_m1 c);
      let m2 := map (fun j => N.lxor (nth j m1 0) (nth j (dm dv) 0)) (seq 0 80) in
      do state <- read_at (i_states c) (N.to_nat (testT dv));
      do (ihv2, ihvtmp) <- sha1_recompression_step (N.to_nat (testT dv)) m2 state;
      let c := i_set_ihv2_m2 ihv2 m2 c in
      do ihv <- i_ihv c;
      do hit <- (if same_words ihvtmp ihv then Some true else
                 do reduced <- i_reduced c;
                 if truth reduced then
                   do ihv1 <- i_ihv1 c; do ihv2 <- i_ihv2 c; Some (same_words ihv1 ihv2)
                 else Some false);
      if hit : bool then
        let c := i_set_found 1 c in
        do safe <- i_safe c;
        Some (if truth safe then i_set_ihv (sha1_compression_W (sha1_compression_W ihv m1) m1) c else c)
      else i_process_loop rest mask c.
Proof. reflexivity. Qed.

Lemma loop_ok mask dvs : ends_well dvs = true -> forall i c, sim i c -> i_ihv1 i = Some (c_ihv1 c) -> i_m1 i = map Some (c_m1 c) ->
  written (i_states i) 58 -> written (i_states i) 65 ->
  exists i' c', i_process_loop dvs mask i = Some i' /\ process_loop dvs mask c = Some c' /\ sim i' c' /\ i_buffer i' = i_buffer i.
Proof.
  induction dvs as [|dv l IH]; intros W i c S H1 Hm S58 S65; [discriminate|]. rewrite i_loop_cons, process_loop_cons. cbn [ends_well] in W.
  destruct (dvType dv =? 0); [exists i, c; auto|]. cbn [orb] in W. apply andb_true_iff in W. destruct W as [W W3]. apply andb_true_iff in W. destruct W as [W1 W2].
  apply N.ltb_lt in W1. rewrite (proj2 (N.leb_gt _ _) W1). destruct (N.land _ _ =? 0); [auto|]. cbv zeta.
  assert (R : read_all (i_m1 i) = Some (c_m1 c)).
  { rewrite Hm. apply read_all_ok; [apply all_hold_map|]. intros n. rewrite map_length. apply written_map. }
  rewrite R. cbn [obind]. destruct S as [K [B R1 R2 M1 M2 St [Sz Bl]]].
  assert (WS : written (i_states i) (N.to_nat (testT dv))).
  { apply orb_true_iff in W2. destruct W2 as [X|X]; apply N.eqb_eq in X; rewrite X; assumption. }
  destruct (read_at_ok _ _ _ St WS) as (s & -> & ->). cbn [obind].
  match goal with |- context[sha1_recompression_step _ ?m s] => set (m2 := m); assert (Lm : length m2 = 80%nat) by (unfold m2; rewrite map_length; apply seq_length) end.
  clearbody m2. destruct (step_some (testT dv) m2 s W2) as ([i2 it] & ->). cbn [obind].
  set (j := i_set_ihv2_m2 i2 m2 i). set (c2 := set_ihv2_m2 i2 m2 c).
  assert (SJ : sim j c2).
  { destruct K. split; [constructor; assumption|]. constructor; cbn; try assumption.
    - apply holds_some.
    - apply all_hold_map.
    - split; [|exact Bl]. destruct Sz as (? & _ & ?). split; [assumption|split; [exact Lm|assumption]]. }
  assert (J1 : i_ihv1 j = Some (c_ihv1 c2)) by exact H1. assert (J2 : i_ihv2 j = Some (c_ihv2 c2)) by reflexivity.
  assert (Jm : i_m1 j = map Some (c_m1 c2)) by exact Hm. assert (Jb : i_buffer j = i_buffer i) by reflexivity.
  assert (JS : i_states j = i_states i) by reflexivity. change (c_m1 c) with (c_m1 c2). clearbody j c2. clear K B R1 R2 M1 M2 St Sz Bl.
  rewrite (kn_ihv _ _ (proj1 SJ)). cbn [obind]. rewrite (kn_reduced _ _ (proj1 SJ)), J1, J2. cbn [obind].
  assert (HH : (if same_words it (c_ihv c2) then Some true else
     if truth (c_reduced c2) then Some (same_words (c_ihv1 c2) (c_ihv2 c2)) else Some false) =
     Some (same_words it (c_ihv c2) || (truth (c_reduced c2) && same_words (c_ihv1 c2) (c_ihv2 c2)))).
  { destruct (same_words it _); [reflexivity|]. destruct (truth _); reflexivity. }
  rewrite HH. cbn [obind]. destruct (same_words it (c_ihv c2) || _).
  - change (i_safe (i_set_found 1 j)) with (i_safe j). rewrite (kn_safe _ _ (proj1 SJ)). cbn [obind].
    change (c_safe (set_found 1 c2)) with (c_safe c2). eexists _, _. split; [reflexivity|]. split; [reflexivity|].
    destruct SJ as [[] []]. split; [|destruct (truth (c_safe c2)); exact Jb].
    destruct (truth (c_safe c2)); (split; constructor; cbn; try assumption; reflexivity).
  - rewrite <- Jb. apply IH; auto; rewrite JS; assumption.
Qed.

Lemma process_ok cfg i c ob b : sim i c -> full ob b ->
  exists i' c', i_process cfg i ob = Some i' /\ sha1_process cfg c b = Some c' /\ sim i' c' /\ i_buffer i' = i_buffer i.
Proof.
  intros [K R] FB. unfold i_process. rewrite (kn_ihv _ _ K). cbn [obind]. cbv zeta.
  unfold sha1_process. cbv zeta. unfold sha1_compression_states. cbv zeta.
  change (c_ihv (set_ihv1 (c_ihv c) c)) with (c_ihv c). change (c_m1 (set_ihv1 (c_ihv c) c)) with (c_m1 c). change (c_states (set_ihv1 (c_ihv c) c)) with (c_states c).
  change (i_m1 (i_set_ihv1 (c_ihv c) i)) with (i_m1 i). change (i_states (i_set_ihv1 (c_ihv c) i)) with (i_states i).
  pose proof items_in_order as O. unfold in_order_ok in O. destruct (in_order comp_states_items [] []) as [[w s]|] eqn:E; [|discriminate].
  apply andb_true_iff in O. destruct O as [O O65]. apply andb_true_iff in O. destruct O as [O O58].
  destruct R as [B R1 R2 M1 M2 St [(Z1 & Z2 & Z3) Bl]].
  destruct (items_ok cfg ob b FB comp_states_items (mkip (i_m1 i) (i_states i) (c_ihv c)) (mkcp (c_m1 c) (c_states c) (c_ihv c)) [] [] w s) as (x & -> & PS).
  { constructor; cbn [ip_W ip_states ip_s cp_W cp_states cp_s]; auto using @has_nil.
    - rewrite (all_hold_length _ _ M1). assumption.
    - rewrite (all_hold_length _ _ St). assumption. }
  { exact E. }
  clear E. cbn [obind]. revert PS. generalize (fold_left (c_item cfg b) comp_states_items (mkcp (c_m1 c) (c_states c) (c_ihv c))). intros y [P1 P2 P3 P4 P5 P6 P7].
  rewrite forallb_forall in O.
  assert (D : read_all (ip_W x) = Some (cp_W y)).
  { apply read_all_ok; [exact P1|]. intros n L. apply P6. apply O. apply in_seq. lia. }
  assert (D' : ip_W x = map Some (cp_W y)).
  { revert D. clear. generalize (ip_W x) (cp_W y). induction l as [|o l IH]; intros m D; cbn in D.
    - injection D as <-. reflexivity.
    - destruct o as [v|]; [|discriminate]. cbn [obind] in D. destruct (read_all l) as [m'|]; [|discriminate]. cbn [obind] in D. injection D as <-. cbn. rewrite <- (IH m' eq_refl). reflexivity. }
  rewrite P3. set (j := i_set_m1_states _ _ _).
  match goal with |- context[if truth (c_detect ?z) then _ else _] => set (c1 := z) end.
  assert (SJ : sim j c1).
  { destruct K. split; [constructor; cbn; try assumption; reflexivity|]. constructor; cbn; try assumption.
    - apply holds_some.
    - split; [|exact Bl]. split; [|split; [exact Z2|]]; cbn; [rewrite <- (all_hold_length _ _ P1)|rewrite <- (all_hold_length _ _ P2)]; assumption. }
  assert (J1 : i_ihv1 j = Some (c_ihv1 c1)) by reflexivity.
  assert (Jm : i_m1 j = map Some (c_m1 c1)) by exact D'. assert (Jb : i_buffer j = i_buffer i) by reflexivity.
  assert (J58 : written (i_states j) 58) by (apply P7; exact O58). assert (J65 : written (i_states j) 65) by (apply P7; exact O65).
  assert (Jr : read_all (i_m1 j) = Some (c_m1 c1)) by exact D. clearbody j c1. clear - SJ J1 Jm Jb J58 J65 Jr.
  rewrite (kn_detect _ _ (proj1 SJ)). cbn [obind]. destruct (truth (c_detect c1)); [|exists j, c1; auto].
  rewrite (kn_ubc _ _ (proj1 SJ)). cbn [obind]. rewrite Jr. cbn [obind].
  pose proof dvs_c_ends_well as W. revert W. generalize dvs_c. intros dvs W.
  assert (HM : (if truth (c_ubc c1) then Some (ubc_check (c_m1 c1)) else Some 0xFFFFFFFF) = Some (if truth (c_ubc c1) then ubc_check (c_m1 c1) else 0xFFFFFFFF))
    by (destruct (truth (c_ubc c1)); reflexivity).
  rewrite HM. cbn [obind]. generalize (if truth (c_ubc c1) then ubc_check (c_m1 c1) else 0xFFFFFFFF). intros mask.
  destruct (negb (mask =? 0)); [|exists j, c1; auto]. rewrite <- Jb. apply loop_ok; assumption.
Qed.

(** ** SHA1DCUpdate and SHA1DCFinal *)
Lemma memcpy_ok d m at_ src n : all_hold d m -> (at_ + n <= length m)%nat -> (n <= length src)%nat ->
  exists ib b, i_memcpy d at_ src n = Some ib /\ memcpy m at_ src n = Some b /\ all_hold ib b /\ length b = length m /\
    forall k, ((k < at_)%nat /\ written d k) \/ (at_ <= k < at_ + n)%nat -> written ib k.
Proof.
  intros F L1 L2. pose proof (all_hold_length _ _ F) as L. unfold i_memcpy, memcpy. rewrite L.
  rewrite (proj2 (Nat.leb_le _ _) L1), (proj2 (Nat.leb_le _ _) L2). cbn [andb]. eexists _, _. split; [reflexivity|]. split; [reflexivity|].
  split; [|split].
  - apply all_hold_app; [apply all_hold_firstn, F|]. apply all_hold_app; [apply all_hold_map|apply all_hold_skipn, F].
  - rewrite !app_length, !firstn_length, skipn_length. lia.
  - intros k [[K W]|K]; apply written_app.
    + left. apply written_firstn; assumption.
    + right. rewrite firstn_length. split; [lia|]. apply written_app. left. apply written_map. rewrite firstn_length. lia.
Qed.
Lemma low_mod t : N.to_nat (N.land t 63) = (N.to_nat (t mod 64)).
Proof. f_equal. exact (N.land_ones t 6). Qed.
Lemma add64_low t k : (add64 t k) mod 64 = (t mod 64 + k) mod 64.
Proof.
  unfold add64. rewrite (N.add_mod (t mod 64)), N.mod_mod, <- N.add_mod by lia.
  change M64 with (64 * (M64 / 64)). rewrite N.mod_mul_r by (vm_compute; discriminate).
  rewrite N.mul_comm, N.mod_add, N.mod_mod by lia. reflexivity.
Qed.
Lemma sim_total i c x : sim i c -> sim (i_set_total x i) (set_total x c).
Proof. intros [[] []]. split; constructor; cbn; try assumption; reflexivity. Qed.
Lemma sim_buffer i c x y : sim i c -> all_hold x y -> length y = 64%nat -> sim (i_set_buffer x i) (set_buffer y c).
Proof. intros [[] [? ? ? ? ? ? [? ?]]] Hxy L. split; constructor; cbn; try assumption. split; assumption. Qed.

(** The bytes of the buffer that hold data not yet hashed have been written. *)
Definition buffered (i : ictx) (c : ctx) : Prop := forall k, (k < N.to_nat (c_total c mod 64))%nat -> written (i_buffer i) k.

Lemma i_update_loop_S fuel cfg c buf : i_update_loop (S fuel) cfg c buf =
  if (length buf <? 64)%nat then Some (c, buf) else
    do total <- i_total c;
    let c := i_set_total (add64 total 64) c in
    do c <- (if unaligned cfg then i_process cfg c (map Some (firstn 64 buf))
             else do b <- i_memcpy (i_buffer c) 0 buf 64;
                  let c := i_set_buffer b c in i_process cfg c (i_buffer c));
    i_update_loop fuel cfg c (skipn 64 buf).
Proof. reflexivity. Qed.
Lemma update_loop_S fuel cfg c buf : update_loop (S fuel) cfg c buf =
  if (length buf <? 64)%nat then Some (c, buf) else
    let c := set_total (add64 (c_total c) 64) c in
    do c <- (if unaligned cfg then sha1_process cfg c (firstn 64 buf)
             else do b <- memcpy (c_buffer c) 0 buf 64;
                  let c := set_buffer b c in sha1_process cfg c (c_buffer c));
    update_loop fuel cfg c (skipn 64 buf).
Proof. reflexivity. Qed.

Lemma process_total cfg c b c' : sha1_process cfg c b = Some c' -> c_total c' = c_total c.
Proof. intros E. apply process_frame in E. apply E. Qed.

Lemma update_loop_ok cfg : forall fuel i c buf, (length buf <= fuel)%nat -> sim i c ->
  (c_total c mod 64 = 0 \/ ((length buf < 64)%nat /\ buffered i c)) ->
  exists i' c' r, i_update_loop fuel cfg i buf = Some (i', r) /\ update_loop fuel cfg c buf = Some (c', r) /\ sim i' c' /\
    c_total c' mod 64 = c_total c mod 64 /\ (length r < 64)%nat /\ N.of_nat (length r) mod 64 = N.of_nat (length buf) mod 64 /\
    buffered i' c' /\ ((length buf < 64)%nat -> i' = i /\ c' = c /\ r = buf).
Proof.
  induction fuel as [|fuel IH]; intros i c buf Lf SI T.
  - destruct buf; [|cbn in Lf; lia]. exists i, c, []. repeat (split; [try reflexivity; try exact SI; cbn; lia|]).
    split; [|auto]. intros k Hk. destruct T as [T|[_ T]]; [rewrite T in Hk; cbn in Hk; lia|auto].
  - rewrite i_update_loop_S, update_loop_S. destruct (Nat.ltb_spec (length buf) 64) as [Lb|Lb].
    + exists i, c, buf. split; [reflexivity|]. split; [reflexivity|]. split; [exact SI|]. split; [reflexivity|]. split; [exact Lb|].
      split; [reflexivity|]. split; [|auto].
      intros k Hk. destruct T as [T|[_ T]]; [rewrite T in Hk; cbn in Hk; lia|auto].
    + destruct T as [T|[T _]]; [|lia]. rewrite (kn_total _ _ (proj1 SI)). cbn [obind]. cbv zeta.
      set (j := i_set_total (add64 (c_total c) 64) i). set (c1 := set_total (add64 (c_total c) 64) c).
      assert (SJ : sim j c1) by (apply sim_total; exact SI).
      assert (T1 : c_total c1 mod 64 = 0).
      { change (c_total c1) with (add64 (c_total c) 64). rewrite add64_low, T. reflexivity. }
      clearbody j c1.
      assert (P : exists i2 c2,
        (if unaligned cfg then i_process cfg j (map Some (firstn 64 buf))
         else do b <- i_memcpy (i_buffer j) 0 buf 64; i_process cfg (i_set_buffer b j) (i_buffer (i_set_buffer b j))) = Some i2 /\
        (if unaligned cfg then sha1_process cfg c1 (firstn 64 buf)
         else do b <- memcpy (c_buffer c1) 0 buf 64; sha1_process cfg (set_buffer b c1) (c_buffer (set_buffer b c1))) = Some c2 /\
        sim i2 c2 /\ c_total c2 = c_total c1).
      { destruct (unaligned cfg).
        - destruct (process_ok cfg j c1 (map Some (firstn 64 buf)) (firstn 64 buf) SJ) as (i2 & c2 & E1 & E2 & S2 & _).
          { split; [apply all_hold_map|]. rewrite firstn_length. split; [lia|]. intros n Hn. apply written_map. rewrite firstn_length. lia. }
          exists i2, c2. repeat (split; [assumption|]). exact (process_total _ _ _ _ E2).
        - destruct (memcpy_ok (i_buffer j) (c_buffer c1) 0 buf 64) as (ib & b & -> & -> & F & Lb' & Wb).
          + apply SJ.
          + rewrite (proj2 (re_fit _ _ (proj2 SJ))). lia.
          + exact Lb.
          + cbn [obind]. rewrite (proj2 (re_fit _ _ (proj2 SJ))) in Lb'.
            destruct (process_ok cfg (i_set_buffer ib j) (set_buffer b c1) (i_buffer (i_set_buffer ib j)) (c_buffer (set_buffer b c1))) as (i2 & c2 & E1 & E2 & S2 & _).
            * apply sim_buffer; assumption.
            * split; [exact F|]. split; [exact Lb'|]. intros n Hn. apply Wb. right. lia.
            * exists i2, c2. repeat (split; [assumption|]). exact (process_total _ _ _ _ E2). }
      destruct P as (i2 & c2 & -> & -> & S2 & T2). cbn [obind].
      destruct (IH i2 c2 (skipn 64 buf)) as (i' & c' & r & E1 & E2 & S' & T' & Lr & Mr & B' & _).
      * rewrite skipn_length. lia.
      * exact S2.
      * left. rewrite T2. exact T1.
      * exists i', c', r. rewrite T2, T1, <- T in T'. repeat (split; [assumption|]).
        split; [|split; [exact B'|lia]]. rewrite Mr, skipn_length.
        replace (N.of_nat (length buf)) with (N.of_nat (length buf - 64) + 1 * 64) by lia. rewrite N.mod_add by lia. reflexivity.
Qed.

Lemma update_ok cfg i c buf : sim i c -> buffered i c ->
  exists i' c', i_Update cfg i buf = Some i' /\ SHA1DCUpdate cfg c buf = Some c' /\ sim i' c' /\ buffered i' c' /\
    c_total c' mod 64 = (c_total c mod 64 + N.of_nat (length buf)) mod 64.
Proof.
  intros SI BI. unfold i_Update, SHA1DCUpdate. destruct (Nat.eqb_spec (length buf) 0) as [Z|NZ].
  { exists i, c. repeat (split; [first [reflexivity|assumption]|]). rewrite Z. cbn [N.of_nat]. rewrite N.add_0_r, N.mod_mod by lia. reflexivity. }
  rewrite (kn_total _ _ (proj1 SI)). cbn [obind]. cbv zeta. rewrite low_mod. set (t := c_total c mod 64).
  assert (T64 : t < 64) by (apply N.mod_lt; lia).
  assert (P : exists i1 c1 buf1 left1,
    (if negb (N.to_nat t =? 0)%nat && (64 - N.to_nat t <=? length buf)%nat then
       do b <- i_memcpy (i_buffer (i_set_total (add64 (c_total c) (N.of_nat (64 - N.to_nat t))) i)) (N.to_nat t) buf (64 - N.to_nat t);
       do c <- i_process cfg (i_set_buffer b (i_set_total (add64 (c_total c) (N.of_nat (64 - N.to_nat t))) i))
                 (i_buffer (i_set_buffer b (i_set_total (add64 (c_total c) (N.of_nat (64 - N.to_nat t))) i)));
       Some (c, skipn (64 - N.to_nat t) buf, 0%nat)
     else Some (i, buf, N.to_nat t)) = Some (i1, buf1, left1) /\
    (if negb (N.to_nat t =? 0)%nat && (64 - N.to_nat t <=? length buf)%nat then
       do b <- memcpy (c_buffer (set_total (add64 (c_total c) (N.of_nat (64 - N.to_nat t))) c)) (N.to_nat t) buf (64 - N.to_nat t);
       do c <- sha1_process cfg (set_buffer b (set_total (add64 (c_total c) (N.of_nat (64 - N.to_nat t))) c))
                 (c_buffer (set_buffer b (set_total (add64 (c_total c) (N.of_nat (64 - N.to_nat t))) c)));
       Some (c, skipn (64 - N.to_nat t) buf, 0%nat)
     else Some (c, buf, N.to_nat t)) = Some (c1, buf1, left1) /\
    sim i1 c1 /\ left1 = N.to_nat (c_total c1 mod 64) /\ (c_total c1 mod 64 + N.of_nat (length buf1)) mod 64 = (t + N.of_nat (length buf)) mod 64 /\
    (c_total c1 mod 64 = 0 \/ ((length buf1 < 64 - left1)%nat /\ buffered i1 c1))).
  { destruct (negb _ && _) eqn:G.
    - apply andb_true_iff in G. destruct G as [G1 G2]. apply Nat.leb_le in G2. apply negb_true_iff, Nat.eqb_neq in G1.
      set (fill := (64 - N.to_nat t)%nat) in *.
      assert (SJ : sim (i_set_total (add64 (c_total c) (N.of_nat fill)) i) (set_total (add64 (c_total c) (N.of_nat fill)) c)) by (apply sim_total; exact SI).
      assert (BJ : i_buffer (i_set_total (add64 (c_total c) (N.of_nat fill)) i) = i_buffer i) by reflexivity.
      assert (TJ : c_total (set_total (add64 (c_total c) (N.of_nat fill)) c) mod 64 = 0).
      { cbn [c_total set_total]. rewrite add64_low. fold t. replace (t + N.of_nat fill) with 64 by lia. reflexivity. }
      revert SJ BJ TJ. generalize (i_set_total (add64 (c_total c) (N.of_nat fill)) i) (set_total (add64 (c_total c) (N.of_nat fill)) c). intros j c1 SJ BJ TJ.
      assert (L64 : length (c_buffer c1) = 64%nat) by apply SJ.
      destruct (memcpy_ok (i_buffer j) (c_buffer c1) (N.to_nat t) buf fill) as (ib & b & -> & -> & F & Lb & Wb); [apply SJ|lia|lia|].
      cbn [obind]. rewrite L64 in Lb.
      destruct (process_ok cfg (i_set_buffer ib j) (set_buffer b c1) (i_buffer (i_set_buffer ib j)) (c_buffer (set_buffer b c1))) as (i2 & c2 & -> & E2 & S2 & _).
      { apply sim_buffer; assumption. }
      { split; [exact F|]. split; [exact Lb|]. intros n Hn. apply Wb. destruct (Nat.lt_ge_cases n (N.to_nat t)) as [H|H]; [left|right; lia].
        split; [exact H|]. rewrite BJ. apply BI. exact H. }
      rewrite E2. cbn [obind]. pose proof (process_total _ _ _ _ E2) as T2. change (c_total (set_buffer b c1)) with (c_total c1) in T2.
      eexists i2, c2, _, _. split; [reflexivity|]. split; [reflexivity|]. split; [exact S2|]. rewrite T2, TJ. split; [reflexivity|]. split; [|left; reflexivity].
      rewrite skipn_length. replace (t + N.of_nat (length buf)) with (0 + N.of_nat (length buf - fill) + 1 * 64) by lia. rewrite N.mod_add by lia. reflexivity.
    - exists i, c, buf, (N.to_nat t). repeat (split; [first [reflexivity|assumption]|]). apply andb_false_iff in G. destruct G as [G|G].
      + left. apply negb_false_iff, Nat.eqb_eq in G. fold t. lia.
      + right. apply Nat.leb_gt in G. split; [exact G|exact BI]. }
  destruct P as (i1 & c1 & buf1 & left1 & -> & -> & S1 & E1 & M1 & D1). cbn [obind].
  destruct (update_loop_ok cfg (length buf1) i1 c1 buf1 (le_n _) S1) as (i2 & c2 & r & -> & -> & S2 & T2 & Lr & Mr & B2 & Same).
  { destruct D1 as [D1|[D1 D2]]; [left; exact D1|right; split; [lia|exact D2]]. }
  cbn [obind].
  assert (Fit : (left1 + length r < 64 + 0)%nat).
  { destruct D1 as [D1|[D1 D2]]; [rewrite E1, D1; cbn; lia|]. destruct (Same ltac:(lia)) as (_ & _ & ->). lia. }
  assert (E2 : left1 = N.to_nat (c_total c2 mod 64)) by (rewrite T2; exact E1).
  assert (M2 : (c_total c2 mod 64 + N.of_nat (length r)) mod 64 = (t + N.of_nat (length buf)) mod 64).
  { rewrite <- M1, T2. rewrite N.add_mod, Mr, <- N.add_mod by lia. reflexivity. }
  clear - S2 Lr B2 Fit E2 M2. destruct (Nat.ltb_spec 0 (length r)) as [L0|L0].
  - rewrite (kn_total _ _ (proj1 S2)). cbn [obind].
    set (j := i_set_total (add64 (c_total c2) (N.of_nat (length r))) i2). set (c3 := set_total (add64 (c_total c2) (N.of_nat (length r))) c2).
    assert (SJ : sim j c3) by (apply sim_total; exact S2). assert (BJ : i_buffer j = i_buffer i2) by reflexivity.
    assert (TJ : c_total c3 mod 64 = (c_total c2 mod 64 + N.of_nat (length r)) mod 64) by apply add64_low. clearbody j c3.
    assert (L64 : length (c_buffer c3) = 64%nat) by apply SJ.
    destruct (memcpy_ok (i_buffer j) (c_buffer c3) left1 r (length r)) as (ib & b & -> & -> & F & Lb & Wb); [apply SJ|lia|lia|]. cbn [obind].
    eexists _, _. split; [reflexivity|]. split; [reflexivity|]. split; [apply sim_buffer; [exact SJ|exact F|congruence]|].
    change (c_total (set_buffer b c3)) with (c_total c3). split; [|rewrite TJ; exact M2].
    intros k Hk. change (c_total (set_buffer b c3)) with (c_total c3) in Hk. rewrite TJ in Hk. rewrite N.mod_small in Hk by lia.
    apply Wb. destruct (Nat.lt_ge_cases k left1) as [H|H]; [left; split; [exact H|]|right; lia]. rewrite BJ. apply B2. lia.
  - exists i2, c2. repeat (split; [first [reflexivity|assumption]|]). rewrite <- M2. replace (N.of_nat (length r)) with 0 by lia.
    rewrite N.add_0_r, N.mod_mod by lia. reflexivity.
Qed.

Lemma padn_ok t : t < 64 -> let padn := if t <? 56 then 56 - t else 120 - t in
  (0 < N.to_nat padn <= 64)%nat /\ (t + padn) mod 64 = 56.
Proof.
  intros L. cbv zeta. destruct (N.ltb_spec t 56); (split; [lia|]).
  - replace (t + (56 - t)) with 56 by lia. reflexivity.
  - replace (t + (120 - t)) with 120 by lia. reflexivity.
Qed.
Lemma final_ok cfg i c : sim i c -> buffered i c ->
  exists i' c' h v, i_Final cfg i = Some (i', h, v) /\ SHA1DCFinal cfg c = Some (c', h, v) /\ sim i' c' /\ buffered i' c'.
Proof.
  intros SI BI. unfold i_Final, SHA1DCFinal. rewrite (kn_total _ _ (proj1 SI)). cbn [obind]. cbv zeta.
  change (N.land (c_total c) 63) with (N.land (c_total c) (N.ones 6)). rewrite N.land_ones. change (2 ^ 6) with 64.
  assert (T64 : c_total c mod 64 < 64) by (apply N.mod_lt; lia). destruct (padn_ok _ T64) as [P1 P2].
  revert P1 P2. set (t := c_total c mod 64). generalize (if t <? 56 then 56 - t else 120 - t). intros padn P1 P2.
  assert (SL : slice_to sha1_padding (N.to_nat padn) = Some (firstn (N.to_nat padn) sha1_padding)).
  { unfold slice_to. rewrite (proj2 (Nat.leb_le _ _)); [reflexivity|]. exact (proj2 P1). }
  rewrite SL. cbn [obind].
  assert (LP : length (firstn (N.to_nat padn) sha1_padding) = N.to_nat padn).
  { rewrite firstn_length. change (length sha1_padding) with 64%nat. lia. }
  revert LP. generalize (firstn (N.to_nat padn) sha1_padding). intros p LP.
  destruct (update_ok cfg i c p SI BI) as (i1 & c1 & -> & -> & S1 & B1 & T1). cbn [obind].
  rewrite (kn_total _ _ (proj1 S1)). cbn [obind].
  assert (T56 : c_total c1 mod 64 = 56) by (rewrite T1, LP, N2Nat.id; exact P2).
  match goal with |- context[i_memcpy _ 56 ?l 8] => generalize l (eq_refl : length l = 8%nat) end. intros tail Lt.
  assert (L64 : length (c_buffer c1) = 64%nat) by apply S1.
  destruct (memcpy_ok (i_buffer i1) (c_buffer c1) 56 tail 8) as (ib & b & -> & -> & F & Lb & Wb); [apply S1|lia|lia|]. cbn [obind]. rewrite L64 in Lb.
  destruct (process_ok cfg (i_set_buffer ib i1) (set_buffer b c1) (i_buffer (i_set_buffer ib i1)) (c_buffer (set_buffer b c1))) as (i2 & c2 & -> & E2 & S2 & B2).
  { apply sim_buffer; assumption. }
  { split; [exact F|]. split; [exact Lb|]. intros n Hn. apply Wb. destruct (Nat.lt_ge_cases n 56); [left; split; [assumption|apply B1; rewrite T56; assumption]|right; lia]. }
  rewrite E2. cbn [obind]. rewrite (kn_ihv _ _ (proj1 S2)), (kn_found _ _ (proj1 S2)). cbn [obind].
  eexists i2, c2, _, _. split; [reflexivity|]. split; [reflexivity|]. split; [exact S2|].
  intros k Hk. rewrite (process_total _ _ _ _ E2) in Hk. change (c_total (set_buffer b c1)) with (c_total c1) in Hk. rewrite T56 in Hk.
  rewrite B2. change (i_buffer (i_set_buffer ib i1)) with ib. apply Wb. left. split; [exact Hk|]. apply B1. rewrite T56. exact Hk.
Qed.

(** ** Histories *)
Lemma sim_agrees i c : sim i c -> agrees i c.
Proof. intros [[] [? ? ? ? ? ? _]]. constructor; try assumption; intros y E; congruence. Qed.
Lemma init_sim i c : agrees i c -> fit c -> sim (i_Init i) (SHA1DCInit c) /\ buffered (i_Init i) (SHA1DCInit c).
Proof.
  intros [] F. split; [split; constructor; cbn; try assumption; reflexivity|]. intros k Hk. cbn in Hk. lia.
Qed.
Lemma exec_ok cfg i c o : sim i c -> buffered i c ->
  exists i' c' r, i_exec cfg i o = Some (i', r) /\ capi_exec cfg c o = Some (c', r) /\ sim i' c' /\ buffered i' c'.
Proof.
  intros SI BI. destruct o; cbn [i_exec capi_exec].
  - destruct (init_sim i c (sim_agrees _ _ SI) (re_fit _ _ (proj2 SI))) as [S' B']. eexists _, _, _. split; [reflexivity|]. split; [reflexivity|]. auto.
  - eexists _, _, _. split; [reflexivity|]. split; [reflexivity|]. split; [destruct SI as [[] []]; split; constructor; cbn; try assumption; reflexivity|exact BI].
  - eexists _, _, _. split; [reflexivity|]. split; [reflexivity|]. split; [destruct SI as [[] []]; split; constructor; cbn; try assumption; reflexivity|exact BI].
  - eexists _, _, _. split; [reflexivity|]. split; [reflexivity|]. split; [destruct SI as [[] []]; split; constructor; cbn; try assumption; reflexivity|exact BI].
  - eexists _, _, _. split; [reflexivity|]. split; [reflexivity|]. split; [destruct SI as [[] []]; split; constructor; cbn; try assumption; reflexivity|exact BI].
  - eexists _, _, _. split; [reflexivity|]. split; [reflexivity|]. split; [destruct SI as [[] []]; split; constructor; cbn; try assumption; reflexivity|exact BI].
  - destruct (update_ok cfg i c p SI BI) as (i' & c' & -> & -> & S' & B' & _). cbn [obind]. eexists _, _, _. split; [reflexivity|]. split; [reflexivity|]. auto.
  - destruct (final_ok cfg i c SI BI) as (i' & c' & h & v & -> & -> & S' & B'). cbn [obind]. eexists _, _, _. split; [reflexivity|]. split; [reflexivity|]. auto.
Qed.
Lemma run_ok cfg : forall os i c, sim i c -> buffered i c ->
  exists i' c' rs, i_run cfg i os = Some (i', rs) /\ capi_run cfg c os = Some (c', rs) /\ agrees i' c'.
Proof.
  induction os as [|o os IH]; intros i c SI BI; cbn [i_run capi_run].
  - exists i, c, []. split; [reflexivity|]. split; [reflexivity|]. exact (sim_agrees _ _ SI).
  - destruct (exec_ok cfg i c o SI BI) as (i1 & c1 & r & -> & -> & S1 & B1). cbn [obind].
    destruct (IH i1 c1 S1 B1) as (i2 & c2 & rs & -> & -> & A). cbn [obind]. eexists _, _, _. split; [reflexivity|]. split; [reflexivity|]. exact A.
Qed.

(** Before SHA1DCInit. *)
Lemma exec_before cfg i c o : agrees i c -> fit c -> i_total i = None -> o <> CInit -> ~ uses o ->
  exists i' c', i_exec cfg i o = Some (i', CNone) /\ capi_exec cfg c o = Some (c', CNone) /\ agrees i' c' /\ fit c' /\ i_total i' = None.
Proof.
  intros A F T N U. destruct o; cbn [i_exec capi_exec]; try congruence.
  6: { destruct p as [|b p]; [|exfalso; apply U; discriminate]. exists i, c. auto. }
  6: { exfalso. apply U. exact I. }
  all: eexists _, _; split; [reflexivity|]; split; [reflexivity|]; (split; [destruct A; constructor; cbn; try assumption; apply holds_some|]); (split; [exact F|exact T]).
Qed.
Lemma uses_dec o : uses o \/ ~ uses o.
Proof. destruct o; cbn; auto. destruct p; [right; intros X; apply X; reflexivity|left; discriminate]. Qed.
Lemma use_before cfg i o : i_total i = None -> uses o -> i_exec cfg i o = None.
Proof.
  intros T U. destruct o; cbn [uses] in U; try contradiction; cbn [i_exec].
  - unfold i_Update. destruct p; [congruence|]. cbn [length Nat.eqb]. rewrite T. reflexivity.
  - unfold i_Final. rewrite T. reflexivity.
Qed.
Lemma first_tail o os : o <> CInit -> initialised_first (o :: os) -> initialised_first os.
Proof.
  intros N H before o' after E U. specialize (H (o :: before) o' after). cbn in H. rewrite E in H. destruct (H eq_refl U) as [X|X]; [congruence|exact X].
Qed.
Lemma run_before cfg : forall os i c, agrees i c -> fit c -> i_total i = None -> initialised_first os ->
  exists i' c' rs, i_run cfg i os = Some (i', rs) /\ capi_run cfg c os = Some (c', rs) /\ agrees i' c'.
Proof.
  induction os as [|o os IH]; intros i c A F T H.
  - exists i, c, []. split; [reflexivity|]. split; [reflexivity|]. exact A.
  - assert (D : o = CInit \/ o <> CInit) by (destruct o; [left; reflexivity|right; discriminate ..]). destruct D as [->|N].
    + destruct (init_sim i c A F) as [S' B']. cbn [i_run capi_run i_exec capi_exec obind].
      destruct (run_ok cfg os _ _ S' B') as (i2 & c2 & rs & -> & -> & A2). cbn [obind]. eexists _, _, _. split; [reflexivity|]. split; [reflexivity|]. exact A2.
    + destruct (uses_dec o) as [U|U]; [destruct (H [] o os eq_refl U)|].
      destruct (exec_before cfg i c o A F T N U) as (i1 & c1 & E1 & E2 & A1 & F1 & T1). cbn [i_run capi_run]. rewrite E1, E2. cbn [obind].
      destruct (IH i1 c1 A1 F1 T1 (first_tail _ _ N H)) as (i2 & c2 & rs & -> & -> & A2). cbn [obind]. eexists _, _, _. split; [reflexivity|]. split; [reflexivity|]. exact A2.
Qed.
Lemma all_hold_none {A} (m : list A) : all_hold (repeat None (length m)) m.
Proof. induction m; constructor; [intros y E; discriminate|assumption]. Qed.
Lemma unwritten_agrees c : fit c -> agrees unwritten c.
Proof.
  intros [(Z1 & Z2 & Z3) B]. constructor; cbn; try (intros y E; discriminate).
  - pose proof (all_hold_none (c_buffer c)) as X. rewrite B in X. exact X.
  - pose proof (all_hold_none (c_m1 c)) as X. rewrite Z1 in X. exact X.
  - pose proof (all_hold_none (c_m2 c)) as X. rewrite Z2 in X. exact X.
  - pose proof (all_hold_none (c_states c)) as X. rewrite Z3 in X. exact X.
Qed.
Lemma typed_fit c : ctx_typed c -> fit c.
Proof. intros (B & Z1 & Z2 & Z3). split; [split; [exact Z1|split; [exact Z2|exact Z3]]|exact B]. Qed.

Lemma no_indeterminate_read cfg os : initialised_first os ->
  exists i rs, i_run cfg unwritten os = Some (i, rs) /\
    forall c0, ctx_typed c0 -> exists c, capi_run cfg c0 os = Some (c, rs) /\ agrees i c.
Proof.
  intros H.
  assert (P : forall c0, ctx_typed c0 -> exists i c rs, i_run cfg unwritten os = Some (i, rs) /\ capi_run cfg c0 os = Some (c, rs) /\ agrees i c).
  { intros c0 Tc. apply typed_fit in Tc. apply run_before; [apply unwritten_agrees; exact Tc|exact Tc|reflexivity|exact H]. }
  destruct (P zero_ctx) as (i & c & rs & E & _); [repeat split|]. exists i, rs. split; [exact E|].
  intros c0 Tc. destruct (P c0 Tc) as (i' & c' & rs' & E' & C' & A'). rewrite E in E'. injection E' as <- <-. exists c'. auto.
Qed.

Lemma run_first cfg : forall os i c, agrees i c -> fit c -> i_total i = None -> i_run cfg i os <> None -> initialised_first os.
Proof.
  induction os as [|o os IH]; intros i c A F T R before o' after E U.
  - destruct before; discriminate.
  - assert (D : o = CInit \/ o <> CInit) by (destruct o; [left; reflexivity|right; discriminate ..]). destruct D as [->|N].
    + destruct before as [|x before]; injection E as Eo Ea; subst; [destruct U|left; reflexivity].
    + destruct (uses_dec o) as [Uo|Uo]; [exfalso; apply R; cbn [i_run]; rewrite (use_before cfg i o T Uo); reflexivity|].
      destruct before as [|x before]; injection E as Eo Ea; subst; [contradiction|]. right.
      destruct (exec_before cfg i c x A F T N Uo) as (i1 & c1 & E1 & _ & A1 & F1 & T1).
      apply (IH i1 c1 A1 F1 T1) with (o := o') (after := after); [|reflexivity|exact U].
      intros X. apply R. cbn [i_run]. rewrite E1. cbn [obind]. rewrite X. reflexivity.
Qed.
Lemma indeterminate_read_iff cfg os : i_run cfg unwritten os <> None <-> initialised_first os.
Proof.
  split.
  - intros R. assert (F : fit zero_ctx) by (apply typed_fit; repeat split). apply (run_first cfg os unwritten zero_ctx); [apply unwritten_agrees; exact F|exact F|reflexivity|exact R].
  - intros H. destruct (no_indeterminate_read cfg os H) as (i & rs & -> & _). discriminate.
Qed.
