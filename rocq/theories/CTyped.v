(** The functions of sha1.c with C's integer types: results. *)

From Coq Require Import Arith NArith ZArith String List Strings.Byte Bool Lia ZifyNat ZifyN.
From Verif Require Import Word WordFacts Sha1Facts Model_Ubc Model_Go Gen_DvsC Model_CSteps Gen_CSteps Model_CTypes Gen_CTyped Model_C Model_CTyped
  CTypes CMacros CSteps Spec_Sha1 Spec_DV DvFacts Spec_C Model_CApi CProcess CCtx CProps.
Import ListNotations.
Local Open Scope N_scope.
Ltac Zify.zify_post_hook ::= idtac.

Lemma from_wf l : Forall wf l -> forall k, wf (from l k).
Proof. intros H k. apply nth_wf. exact H. Qed.
Lemma ofold_ok {A B} (P : A -> Prop) (f : A -> B -> option A) (g : A -> B -> A) :
  (forall a x, P a -> f a x = Some (g a x) /\ P (g a x)) -> forall l a, P a -> ofold f l a = Some (fold_left g l a) /\ P (fold_left g l a).
Proof.
  intros H. induction l as [|x l IH]; intros a Pa; [cbn; auto|]. cbn [ofold fold_left]. destruct (H a x Pa) as [-> Q]. cbn [obind]. apply IH. exact Q.
Qed.
Lemma upd_Forall {A} (P : A -> Prop) x : P x -> forall l i, Forall P l -> Forall P (upd i x l).
Proof.
  intros Px. induction l as [|y l IH]; intros [|i] H; cbn [upd]; try assumption; inversion_clear H; constructor; auto.
Qed.

Section Facts.
  Variable w : Z.
  Variable cfg : ccfg.
  Hypothesis Hw : wide_int w.

  Lemma rotl30_ok x : wf x -> t_rotl30 w x = Some (rotate_left x 30).
  Proof. intros H. exact (proj1 (proj2 (proj2 (rotations_ok w (from [x]) Hw (from_wf [x] ltac:(auto)) 0)))). Qed.
  Lemma rotr30_ok x : wf x -> t_rotr30 w x = Some (rotate_right x 30).
  Proof. intros H. exact (proj2 (proj2 (proj2 (rotations_ok w (from [x]) Hw (from_wf [x] ltac:(auto)) 0)))). Qed.

  Lemma six_wf s (a b c d e : cvar) x : wfst s -> wf x -> Forall wf [getv a s; getv b s; getv c s; getv d s; getv e s; x].
  Proof. intros H X. repeat constructor; (apply wf_getv; exact H) || exact X. Qed.
  Lemma t_step_ok m s k : Forall wf m -> wfst s -> t_step w m s k = Some (hc_step m k s) /\ wfst (hc_step m k s).
  Proof.
    intros Hm Hs. split; [|apply hc_step_wf; exact Hs]. unfold t_step, o0, o1, o2, o3, o4, o5.
    rewrite (proj1 (steps_ok w _ Hw (from_wf _ (six_wf s (cs_a k) (cs_b k) (cs_c k) (cs_d k) (cs_e k) (nth (cs_t k) m 0) Hs (nth_wf m Hm _))) (cs_r k) 0 1 2 3 4 5)).
    cbn [obind]. cbv zeta. rewrite rotl30_ok; [reflexivity|]. apply wf_getv. apply wfst_setv; [apply wf_add32|exact Hs].
  Qed.
  Lemma t_step_bw_ok m s k : Forall wf m -> wfst s -> t_step_bw w m s k = Some (hc_step_bw m k s) /\ wfst (hc_step_bw m k s).
  Proof.
    intros Hm Hs. split; [|apply hc_bw_wf; exact Hs]. unfold t_step_bw, o0, o1, o2, o3, o4, o5.
    rewrite rotr30_ok by (apply wf_getv; exact Hs). cbn [obind]. cbv zeta.
    assert (R : wfst (setv (cs_b k) (rotate_right (getv (cs_b k) s) 30) s)).
    { apply wfst_setv; [|exact Hs]. rewrite rotate_right_30 by (apply wf_getv; exact Hs). apply wf_rotl32; apply wf_getv; assumption. }
    rewrite (proj1 (proj2 (steps_ok w _ Hw (from_wf _ (six_wf _ (cs_a k) (cs_b k) (cs_c k) (cs_d k) (cs_e k) (nth (cs_t k) m 0) R (nth_wf m Hm _))) (cs_r k) 0 1 2 3 4 5))).
    reflexivity.
  Qed.
  Lemma t_add_ok x y : wf x -> wf y -> t_add w x y = Some (add32 x y).
  Proof. intros Hx Hy. exact (proj1 (words_ok w (from [x; y]) Hw (from_wf [x; y] ltac:(auto)) 0 1)). Qed.
  Lemma t_addst_ok x y : wfst x -> wfst y -> t_addst w x y = Some (addst x y).
  Proof. intros (A & B & C & D & E) (A' & B' & C' & D' & E'). unfold t_addst. rewrite !t_add_ok by assumption. reflexivity. Qed.
  Lemma t_compression_W_ok h W : wfst h -> Forall wf W -> t_compression_W w h W = Some (sha1_compression_W h W).
  Proof.
    intros Hh HW. unfold t_compression_W, sha1_compression_W.
    destruct (ofold_ok wfst (t_step w W) (fun s k => hc_step W k s) (fun s k => t_step_ok W s k HW) comp_W_steps h Hh) as [-> F]. cbn [obind].
    apply t_addst_ok; assumption.
  Qed.
  Lemma t_load_ok block t : (4 * t + 3 < List.length block)%nat -> t_load w cfg block t = Some (sha1_load cfg block t) /\ wf (sha1_load cfg block t).
  Proof.
    intros Hb. unfold t_load, sha1_load. cbv zeta.
    assert (M : wf (machine_word cfg (firstn 4 (skipn (4 * t) block)))).
    { unfold machine_word. assert (L : List.length (firstn 4 (skipn (4 * t) block)) = 4%nat) by (rewrite firstn_length, skipn_length; lia).
      set (l := firstn 4 _) in *. clearbody l. destruct l as [|a [|b [|c [|d [|]]]]]; try discriminate L. destruct (host_be cfg); cbn [rev app]; apply be_val_4_wf. }
    destruct (macro_be cfg); [auto|]. set (x := machine_word _ _) in *. clearbody x. unfold o0.
    destruct (both_ok w (from [x]) (e_bswap1 (EV 0)) Hw (from_wf [x] ltac:(auto)) eq_refl) as [-> V]. cbn [obind].
    set (y := neval (from [x]) (e_bswap1 (EV 0))) in *.
    destruct (both_ok w (from [y]) (e_bswap2 (EV 0)) Hw (from_wf [y] ltac:(auto)) eq_refl) as [-> V']. split; [reflexivity|exact V'].
  Qed.
  Lemma t_mix_ok W t : Forall wf W -> t_mix w W t = Some (sha1_mix W t) /\ wf (sha1_mix W t).
  Proof.
    intros H. assert (F : forall k, wf (from [nth (t - 3) W 0; nth (t - 8) W 0; nth (t - 14) W 0; nth (t - 16) W 0] k)) by (apply from_wf; repeat constructor; apply nth_wf; exact H).
    split; [exact (mix_ok w _ Hw F 0 1 2 3)|]. exact (proj2 (both_ok w _ (e_mix o0 o1 o2 o3) Hw F eq_refl)).
  Qed.

  Definition wfpass (x : cpass) : Prop := Forall wf (cp_W x) /\ Forall wfst (cp_states x) /\ wfst (cp_s x).
  (** The loads are inside of the block. *)
  Definition loads_in (it : citem) : bool := match it with CFull FLoad _ _ _ _ _ t => (t <? 16)%nat | _ => true end.
  Lemma loads_all : forallb loads_in comp_states_items = true.
  Proof. vm_compute. reflexivity. Qed.
  Lemma t_item_ok block it x : List.length block = 64%nat -> loads_in it = true -> wfpass x -> t_item w cfg block x it = Some (c_item cfg block x it) /\ wfpass (c_item cfg block x it).
  Proof.
    intros Hb Li (HW & HS & Hs). destruct it as [g i|k a b c d e t]; cbn [t_item c_item].
    - split; [reflexivity|]. destruct (defined g); [|split; auto]. split; [exact HW|]. split; [|exact Hs]. apply upd_Forall; assumption.
    - assert (T : match k with FLoad => t_load w cfg block t | _ => t_mix w (cp_W x) t end = Some match k with FLoad => sha1_load cfg block t | _ => sha1_mix (cp_W x) t end
        /\ wf match k with FLoad => sha1_load cfg block t | _ => sha1_mix (cp_W x) t end).
      { destruct k; [|apply t_mix_ok; exact HW|apply t_mix_ok; exact HW]. apply t_load_ok. cbn [loads_in] in Li. apply Nat.ltb_lt in Li. lia. }
      destruct T as [-> Tw]. cbn [obind]. cbv zeta. set (temp := match k with FLoad => sha1_load cfg block t | _ => sha1_mix (cp_W x) t end) in *. clearbody temp.
      unfold o0, o1, o2, o3, o4, o5.
      rewrite (proj2 (proj2 (steps_ok w _ Hw (from_wf _ (six_wf (cp_s x) a b c d e temp Hs Tw)) (kind_round k) 0 1 2 3 4 5))). cbn [obind].
      match goal with |- context [setv e ?v (cp_s x)] => assert (S1 : wfst (setv e v (cp_s x))) by (apply wfst_setv; [apply wf_add32|exact Hs]) end.
      rewrite rotl30_ok by (apply wf_getv; exact S1). split; [reflexivity|]. split; [|split; [exact HS|]].
      + apply upd_Forall; assumption.
      + cbn [cp_s]. apply wfst_setv; [|exact S1]. rewrite rotate_left_eq. apply wf_rotl32; apply wf_getv; assumption.
  Qed.
  Lemma t_items_ok block : List.length block = 64%nat -> forall l x, forallb loads_in l = true -> wfpass x ->
    ofold (t_item w cfg block) l x = Some (fold_left (c_item cfg block) l x) /\ wfpass (fold_left (c_item cfg block) l x).
  Proof.
    intros Hb. induction l as [|i l IH]; intros x Hl Hx; [cbn; auto|]. cbn [forallb] in Hl. apply andb_prop in Hl. destruct Hl as [Hi Hl].
    cbn [ofold fold_left]. destruct (t_item_ok block i x Hb Hi Hx) as [-> X]. cbn [obind]. apply IH; assumption.
  Qed.
  Lemma t_compression_states_ok h block W states : List.length block = 64%nat -> wfst h -> Forall wf W -> Forall wfst states ->
    let r := sha1_compression_states cfg h block W states in
    t_compression_states w cfg h block W states = Some r /\ wfst (fst (fst r)) /\ Forall wf (snd (fst r)) /\ Forall wfst (snd r).
  Proof.
    intros Hb Hh HW HS. cbv zeta. unfold t_compression_states, sha1_compression_states. cbv zeta.
    destruct (t_items_ok block Hb comp_states_items (mkcp W states h) loads_all (conj HW (conj HS Hh))) as [-> (A & B & C)]. cbn [obind].
    set (x := fold_left _ _ _) in *. clearbody x. rewrite t_addst_ok by assumption. cbn [obind fst snd]. split; [reflexivity|]. split; [apply wfst_addst|auto].
  Qed.
  Lemma t_recompress_fast_ok t m s : Forall wf m -> wfst s -> t_recompress_fast w t m s = Some (sha1recompress_fast t m s) /\
    wfst (fst (sha1recompress_fast t m s)) /\ wfst (snd (sha1recompress_fast t m s)).
  Proof.
    intros Hm Hs. unfold t_recompress_fast, sha1recompress_fast. cbv zeta.
    assert (FB : forall s (p : nat * cstep), wfst s -> (if (fst p <? t)%nat then t_step_bw w m s (snd p) else Some s) =
      Some (if (fst p <? t)%nat then hc_step_bw m (snd p) s else s) /\ wfst (if (fst p <? t)%nat then hc_step_bw m (snd p) s else s)).
    { intros x p Px. destruct (fst p <? t)%nat; [apply t_step_bw_ok; assumption|auto]. }
    assert (FF : forall s (p : nat * cstep), wfst s -> (if (t <=? fst p)%nat then t_step w m s (snd p) else Some s) =
      Some (if (t <=? fst p)%nat then hc_step m (snd p) s else s) /\ wfst (if (t <=? fst p)%nat then hc_step m (snd p) s else s)).
    { intros x p Px. destruct (t <=? fst p)%nat; [apply t_step_ok; assumption|auto]. }
    destruct (ofold_ok wfst (fun s p => if (fst p <? t)%nat then t_step_bw w m s (snd p) else Some s)
      (fun s p => if (fst p <? t)%nat then hc_step_bw m (snd p) s else s)
      FB recomp_back s Hs) as [-> A]. cbn [obind].
    destruct (ofold_ok wfst (fun s p => if (t <=? fst p)%nat then t_step w m s (snd p) else Some s)
      (fun s p => if (t <=? fst p)%nat then hc_step m (snd p) s else s)
      FF recomp_fwd s Hs) as [-> B]. cbn [obind].
    rewrite t_addst_ok by assumption. cbn [obind fst snd]. split; [reflexivity|]. split; [exact A|apply wfst_addst].
  Qed.
  Lemma t_recompression_step_ok t m s : Forall wf m -> wfst s -> t_recompression_step w t m s = sha1_recompression_step t m s /\
    forall i o, sha1_recompression_step t m s = Some (i, o) -> wfst i /\ wfst o.
  Proof.
    intros Hm Hs. unfold t_recompression_step, sha1_recompression_step. destruct (find _ _) as [[[g l] u]|]; [|split; [reflexivity|discriminate]].
    destruct (existsb _ _); [|split; [reflexivity|discriminate]]. destruct (t_recompress_fast_ok u m s Hm Hs) as [-> [A B]]. split; [reflexivity|].
    intros i o E. assert (E' : sha1recompress_fast u m s = (i, o)) by congruence. rewrite E' in A, B. auto.
  Qed.
  Lemma t_xors_ok m d : Forall wf m -> Forall wf d -> t_xors w m d = Some (map (fun j => N.lxor (nth j m 0) (nth j d 0)) (seq 0 80)).
  Proof.
    intros Hm Hd. unfold t_xors, o0, o1. generalize (seq 0 80) as l. intros l.
    assert (G : forall l acc, ofold (fun l j => do x <- assigned w (from [nth j m 0; nth j d 0]) (e_xor (EV 0) (EV 1)); Some (l ++ [x])) l acc
      = Some (acc ++ map (fun j => N.lxor (nth j m 0) (nth j d 0)) l)).
    { induction l0 as [|j l0 IH]; intros acc; [cbn; rewrite app_nil_r; reflexivity|]. cbn [ofold map].
      assert (F : Forall wf [nth j m 0; nth j d 0]) by (repeat constructor; apply nth_wf; assumption).
      rewrite (proj2 (words_ok w (from [nth j m 0; nth j d 0]) Hw (from_wf _ F) 0 1)).
      cbn [obind]. rewrite IH, <- app_assoc. reflexivity. }
    apply (G l []).
  Qed.
  Lemma t_same_ok x y : wfst x -> wfst y -> t_same w x y = Some (same_words x y).
  Proof.
    intros (A & B & C & D & E) (A' & B' & C' & D' & E'). destruct x as [x0 x1 x2 x3 x4], y as [y0 y1 y2 y3 y4]. cbn [sa sb sc sd se] in *.
    assert (F : Forall wf [x0; x1; x2; x3; x4; y0; y1; y2; y3; y4]) by (repeat constructor; assumption).
    exact (same_ok w (from [x0; x1; x2; x3; x4; y0; y1; y2; y3; y4]) Hw (from_wf _ F) 0 5).
  Qed.
  Lemma t_bit_ok mask b : wf mask -> b < 32 -> t_bit w mask b = Some (negb (N.land mask (shl32 1 b) =? 0)).
  Proof.
    intros Hm Hb. unfold t_bit, o0.
    assert (T : forallb (fun n => both_tests (EAnd (EV 0) (EShl (ECast (EL 1)) (EL (N.of_nat n))))) (seq 0 32) = true) by (vm_compute; reflexivity).
    rewrite forallb_forall in T. specialize (T (N.to_nat b) ltac:(apply in_seq; lia)). rewrite N2Nat.id in T.
    rewrite (both_tests_ok w (from [mask]) _ Hw (from_wf [mask] ltac:(auto)) T). reflexivity.
  Qed.
  Lemma t_nonzero_ok mask : wf mask -> t_nonzero w mask = Some (negb (mask =? 0)).
  Proof.
    intros Hm. unfold t_nonzero, o0. rewrite (both_tests_ok w (from [mask]) (ENe (EV 0) (EL 0)) Hw (from_wf [mask] ltac:(auto)) eq_refl). cbn [neval]. unfold from. cbn [N.to_nat nth].
    destruct (mask =? 0); reflexivity.
  Qed.

  (** The entries of the table that matter to the types. *)
  Definition entry_in (dv : dvinfo) : bool := (maskB dv <? 32) && forallb (fun x => x <? M32) (dm dv).
  Lemma dvs_in : forallb entry_in dvs_c = true.
  Proof. vm_compute. reflexivity. Qed.
  Lemma t_process_loop_ok mask : wf mask -> forall dvs c, forallb entry_in dvs = true -> wfst (c_ihv c) -> wfst (c_ihv1 c) -> Forall wf (c_m1 c) -> Forall wfst (c_states c) ->
    t_process_loop w dvs mask c = process_loop dvs mask c.
  Proof.
    intros Hmask. induction dvs as [|dv rest IH]; intros c Hd Hi Hi1 Hm Hs; [reflexivity|]. cbn [forallb] in Hd. apply andb_prop in Hd. destruct Hd as [Hd Hrest].
    cbn [t_process_loop process_loop]. destruct (dvType dv =? 0); [reflexivity|].
    unfold entry_in in Hd. apply andb_prop in Hd. destruct Hd as [Hb Hdm]. apply N.ltb_lt in Hb.
    assert (Fd : Forall wf (dm dv)). { apply Forall_forall. intros x X. rewrite forallb_forall in Hdm. apply N.ltb_lt. apply Hdm. exact X. }
    rewrite t_bit_ok by assumption. cbn [obind]. replace (32 <=? maskB dv) with false by (symmetry; apply N.leb_gt; exact Hb).
    destruct (N.land mask (shl32 1 (maskB dv)) =? 0); cbn [negb]; [apply IH; assumption|].
    rewrite t_xors_ok by assumption. cbn [obind]. cbv zeta.
    assert (Fm : Forall wf (map (fun j => N.lxor (nth j (c_m1 c) 0) (nth j (dm dv) 0)) (seq 0 80))).
    { apply Forall_forall. intros x X. apply in_map_iff in X. destruct X as (j & <- & _). apply wf_lxor; apply nth_wf; assumption. }
    set (m2 := map _ (seq 0 80)) in *. clearbody m2.
    destruct (nth_error (c_states c) (N.to_nat (testT dv))) as [s|] eqn:Es; [|reflexivity]. cbn [obind].
    assert (Ws : wfst s) by (rewrite Forall_forall in Hs; apply Hs; exact (nth_error_In _ _ Es)).
    destruct (t_recompression_step_ok (N.to_nat (testT dv)) m2 s Fm Ws) as [-> R].
    destruct (sha1_recompression_step (N.to_nat (testT dv)) m2 s) as [[i o]|]; [|reflexivity]. destruct (R i o eq_refl) as [Wi Wo]. cbn [obind].
    set (c1 := set_ihv2_m2 i m2 c). rewrite t_same_ok by assumption. cbn [obind].
    assert (E : (do same <- (if same_words o (c_ihv c1) then Some true else if Model_C.truth (c_reduced c1) then t_same w (c_ihv1 c1) (c_ihv2 c1) else Some false); Some same)
      = Some (same_words o (c_ihv c1) || (Model_C.truth (c_reduced c1) && same_words (c_ihv1 c1) (c_ihv2 c1)))).
    { destruct (same_words o (c_ihv c1)); [reflexivity|]. destruct (Model_C.truth (c_reduced c1)); [|reflexivity]. rewrite t_same_ok by assumption. reflexivity. }
    match type of E with (do same <- ?X; _) = Some ?b => assert (E' : X = Some b) by (destruct X; [exact E|discriminate E]); rewrite E' end. clear E E'. cbn [obind].
    destruct (_ || _); [|apply IH; assumption].
    destruct (Model_C.truth (c_safe (set_found 1 c1))); [|reflexivity].
    rewrite t_compression_W_ok by assumption. cbn [obind]. rewrite t_compression_W_ok; [reflexivity|apply wfst_addst|assumption].
  Qed.
  Theorem t_process_ok c block : List.length block = 64%nat -> wfst (c_ihv c) -> Forall wf (c_m1 c) -> Forall wfst (c_states c) ->
    t_process w cfg c block = sha1_process cfg c block.
  Proof.
    intros Hb Hi Hm Hs. unfold t_process, sha1_process. cbv zeta.
    change (c_ihv (set_ihv1 (c_ihv c) c)) with (c_ihv c). change (c_m1 (set_ihv1 (c_ihv c) c)) with (c_m1 c). change (c_states (set_ihv1 (c_ihv c) c)) with (c_states c).
    destruct (t_compression_states_ok (c_ihv c) block (c_m1 c) (c_states c) Hb Hi Hm Hs) as [-> R].
    destruct (sha1_compression_states cfg (c_ihv c) block (c_m1 c) (c_states c)) as [[ihv m1] states]. cbn [fst snd] in R. destruct R as (A & B & C). cbn [obind].
    set (c1 := set_m1_states m1 states _). change (c_m1 c1) with m1.
    destruct (Model_C.truth (c_detect c1)); [|reflexivity].
    assert (Mk : (if Model_C.truth (c_ubc c1) then ubc_check_typed w ubc_typed m1 else assigned w (from []) (EL 0xFFFFFFFF))
      = Some (if Model_C.truth (c_ubc c1) then ubc_check m1 else 0xFFFFFFFF) /\ wf (if Model_C.truth (c_ubc c1) then ubc_check m1 else 0xFFFFFFFF)).
    { destruct (Model_C.truth (c_ubc c1)).
      - split; [apply ubc_typed_ok; assumption|]. exact (proj2 (CTypes.crun_ok w m1 Hw (nth_wf m1 B) ubc_typed Gen_UbcC.ubc_prog_c 0xFFFFFFFF eq_refl ubc_checked ubc_erased)).
      - exact (both_ok w (from []) (EL 0xFFFFFFFF) Hw (from_wf [] ltac:(auto)) eq_refl). }
    destruct Mk as [-> Wm]. cbn [obind]. set (mask := if Model_C.truth (c_ubc c1) then ubc_check m1 else 0xFFFFFFFF) in *. clearbody mask. rewrite t_nonzero_ok by exact Wm. cbn [obind].
    destruct (negb (mask =? 0)); [|reflexivity]. apply t_process_loop_ok; try assumption. exact dvs_in.
  Qed.
End Facts.

(** * The whole of sha1_process *)
Theorem typed_process w cfg D c block : w = 32%Z \/ (63 <= w)%Z -> host_be cfg = macro_be cfg -> cdecides D -> ctx_typed c -> words32 c -> List.length block = 64%nat ->
  let h := c_ihv c in let M := words_of block in let b := D (ctx_opts c) h M in
  exists c', t_process w cfg c block = Some c' /\
    c_ihv c' = (if b && yes (c_safe c) then compress (compress (compress h M) M) M else compress h M) /\ c_found c' = (if b then 1 else c_found c)%Z.
Proof.
  intros Hw Hcfg HD (_ & T1 & _ & T2) (Wi & Wm & Ws) Hb. cbv zeta. rewrite t_process_ok by assumption.
  destruct (process_eq cfg c block Hcfg Wi Hb T1 T2) as (c' & E & A). exists c'. split; [exact E|]. cbv zeta in A. destruct A as [_ _ _ _ _ _ _ Ai Af _ _].
  assert (Eb : D (ctx_opts c) (c_ihv c) (words_of block) = c_decide (Model_C.truth (c_detect c)) (Model_C.truth (c_ubc c)) (Model_C.truth (c_reduced c)) (c_ihv c) (words_of block)).
  { apply (cdecides_agree D HD (ctx_opts c)); [exact Wi|apply words_of_length; rewrite Hb; reflexivity|apply wf_words_of]. }
  rewrite Eb. split; [exact Ai|exact Af].
Qed.

(** * The C API *)
Lemma some1 {A} (x y : A) : Some x = Some y -> x = y.
Proof. intros E. injection E as E. exact E. Qed.
Definition held (c : ctx) : Prop := words32 c /\ List.length (c_buffer c) = 64%nat.
Lemma loop_held mask : forall dvs c c', held c -> process_loop dvs mask c = Some c' -> held c'.
Proof.
  induction dvs as [|dv rest IH]; intros c c' H; [discriminate|]. rewrite process_loop_cons. destruct (dvType dv =? 0); [intros E; injection E as <-; exact H|].
  destruct (32 <=? maskB dv); [discriminate|]. destruct (_ =? 0); [apply IH; exact H|]. cbv zeta. set (m2 := map _ (seq 0 80)). clearbody m2.
  destruct (nth_error _ _) as [s|]; [|discriminate]. cbn [obind]. destruct (sha1_recompression_step _ _ _) as [[i o]|]; [|discriminate]. cbn [obind].
  destruct (_ || _); [|apply IH; exact H].
  destruct H as ((A & B & C) & L). intros E. apply some1 in E. subst c'. destruct (Model_C.truth _); (split; [split; [|split; assumption]|exact L]); [apply wfst_addst|exact A].
Qed.
Lemma process_held cfg c block c' : held c -> List.length block = 64%nat -> sha1_process cfg c block = Some c' -> held c'.
Proof.
  intros ((A & B & C) & L) Hb. unfold sha1_process. cbv zeta.
  change (c_ihv (set_ihv1 (c_ihv c) c)) with (c_ihv c). change (c_m1 (set_ihv1 (c_ihv c) c)) with (c_m1 c). change (c_states (set_ihv1 (c_ihv c) c)) with (c_states c).
  destruct (t_compression_states_ok 32 cfg (or_introl eq_refl) (c_ihv c) block (c_m1 c) (c_states c) Hb A B C) as [_ R].
  destruct (sha1_compression_states cfg (c_ihv c) block (c_m1 c) (c_states c)) as [[ihv m1] states]. cbn [fst snd] in R. destruct R as (A' & B' & C').
  set (c1 := set_m1_states m1 states _). assert (H : held c1) by (split; [split; [exact A'|split; assumption]|exact L]).
  destruct (Model_C.truth (c_detect c1)); [|intros E; apply some1 in E; subst c'; exact H].
  set (mask := if _ : bool then ubc_check _ else _). clearbody mask. destruct (negb _); [|intros E; apply some1 in E; subst c'; exact H].
  apply loop_held. exact H.
Qed.
Lemma memcpy_length d a s n d' : memcpy d a s n = Some d' -> List.length d' = List.length d.
Proof.
  unfold memcpy. destruct (_ && _) eqn:E; [|discriminate]. intros X. apply some1 in X. subst d'. apply andb_prop in E. destruct E as [E1 E2].
  apply Nat.leb_le in E1, E2. rewrite !app_length, !firstn_length, skipn_length. lia.
Qed.
Section Api.
  Variable w : Z.
  Variable cfg : ccfg.
  Hypothesis Hw : wide_int w.

  Lemma t_process_held c block c' : held c -> List.length block = 64%nat -> sha1_process cfg c block = Some c' -> t_process w cfg c block = Some c' /\ held c'.
  Proof.
    intros H Hb E. split; [|exact (process_held cfg c block c' H Hb E)]. destruct H as ((A & B & C) & _). rewrite t_process_ok by assumption. exact E.
  Qed.
  Lemma held_buffer c b : held c -> List.length b = 64%nat -> held (set_buffer b c).
  Proof. intros ((A & B & C) & _) L. split; [split; [exact A|split; assumption]|exact L]. Qed.
  Lemma held_total c n : held c -> held (set_total n c).
  Proof. intros H. exact H. Qed.
  Lemma t_update_loop_ok : forall fuel c buf r, held c -> update_loop fuel cfg c buf = Some r -> t_update_loop w cfg fuel c buf = Some r /\ held (fst r).
  Proof.
    induction fuel as [|fuel IH]; intros c buf r H; cbn [update_loop t_update_loop]; (destruct (List.length buf <? 64)%nat eqn:L;
      [intros E; apply some1 in E; subst r; auto|]); [discriminate|]. cbv zeta. apply Nat.ltb_ge in L.
    set (c0 := set_total (add64 (c_total c) 64) c). assert (H0 : held c0) by exact H. clearbody c0.
    destruct (unaligned cfg).
    - destruct (sha1_process cfg c0 (firstn 64 buf)) as [c1|] eqn:E; [|discriminate].
      assert (Lb : List.length (firstn 64 buf) = 64%nat) by (rewrite firstn_length; lia).
      destruct (t_process_held c0 _ c1 H0 Lb E) as [-> H1]. cbn [obind]. apply IH. exact H1.
    - destruct (memcpy (c_buffer c0) 0 buf 64) as [b|] eqn:M; [|discriminate]. cbn [obind].
      pose proof (memcpy_length _ _ _ _ _ M) as Lb. rewrite (proj2 H0) in Lb. change (c_buffer (set_buffer b c0)) with b.
      destruct (sha1_process cfg (set_buffer b c0) b) as [c1|] eqn:E; [|discriminate].
      destruct (t_process_held (set_buffer b c0) b c1 (held_buffer c0 b H0 Lb) Lb E) as [-> H1]. cbn [obind]. apply IH. exact H1.
  Qed.
  Lemma t_Update_ok c buf c' : held c -> SHA1DCUpdate cfg c buf = Some c' -> t_Update w cfg c buf = Some c' /\ held c'.
  Proof.
    intros H. unfold SHA1DCUpdate, t_Update. destruct (List.length buf =? 0)%nat; [intros E; apply some1 in E; subst c'; auto|]. cbv zeta.
    set (left_ := N.to_nat (N.land (c_total c) 63)). set (fill := (64 - left_)%nat). clearbody left_.
    match goal with |- obind ?x ?k = Some c' -> obind ?y ?k' = Some c' /\ _ => assert (G : forall r, x = Some r -> y = Some r /\ held (fst (fst r))) end.
    { intros r. destruct (negb (left_ =? 0)%nat && (fill <=? List.length buf)%nat); [|intros E; apply some1 in E; subst r; auto].
      set (c0 := set_total _ c). assert (H0 : held c0) by exact H. clearbody c0.
      destruct (memcpy (c_buffer c0) left_ buf fill) as [b|] eqn:M; [|discriminate]. cbn [obind].
      pose proof (memcpy_length _ _ _ _ _ M) as Lb. rewrite (proj2 H0) in Lb. change (c_buffer (set_buffer b c0)) with b.
      destruct (sha1_process cfg (set_buffer b c0) b) as [c1|] eqn:E; [|discriminate].
      destruct (t_process_held (set_buffer b c0) b c1 (held_buffer c0 b H0 Lb) Lb E) as [-> H1]. cbn [obind]. intros X. apply some1 in X. subst r. auto. }
    match goal with |- obind ?x _ = Some c' -> _ => destruct x as [[[c0 buf0] left0]|]; [|discriminate] end.
    destruct (G _ eq_refl) as [-> H0]. clear G. cbn [obind fst] in *.
    destruct (update_loop (List.length buf0) cfg c0 buf0) as [[c1 buf1]|] eqn:E; [|discriminate].
    destruct (t_update_loop_ok _ _ _ _ H0 E) as [-> H1]. cbn [obind fst] in *.
    destruct (0 <? List.length buf1)%nat; [|intros X; apply some1 in X; subst c'; auto].
    set (c2 := set_total _ c1). assert (H2 : held c2) by exact H1. clearbody c2.
    destruct (memcpy (c_buffer c2) left0 buf1 (List.length buf1)) as [b|] eqn:M; [|discriminate]. cbn [obind]. intros X. apply some1 in X. subst c'.
    split; [reflexivity|]. apply held_buffer; [exact H2|]. rewrite (memcpy_length _ _ _ _ _ M). exact (proj2 H2).
  Qed.
  Lemma t_padn_ok last : last < 64 -> t_padn w last = Some (if last <? 56 then 56 - last else 120 - last).
  Proof.
    intros L. assert (Wl : wf last) by (unfold wf, M32; lia). unfold t_padn, o0. destruct (N.ltb_spec last 56).
    - rewrite (proj1 (both_ok w (from [last]) (ESub (EL 56) (EV 0)) Hw (from_wf [last] ltac:(auto)) eq_refl)). cbn [neval]. unfold from. cbn [N.to_nat nth].
      f_equal. apply N2Z.inj. rewrite of_N_sub32, N2Z.inj_sub by lia. apply Z.mod_small. unfold two32. lia.
    - rewrite (proj1 (both_ok w (from [last]) (ESub (EL 120) (EV 0)) Hw (from_wf [last] ltac:(auto)) eq_refl)). cbn [neval]. unfold from. cbn [N.to_nat nth].
      f_equal. apply N2Z.inj. rewrite of_N_sub32, N2Z.inj_sub by lia. apply Z.mod_small. unfold two32. lia.
  Qed.
  Lemma t_out_ok x : wf x -> t_out w x = Some [n2b (N.shiftr x 24); n2b (N.shiftr x 16); n2b (N.shiftr x 8); n2b x].
  Proof.
    intros Wx. unfold t_out, o0. assert (F : forall k, wf (from [x] k)) by (apply from_wf; auto).
    rewrite (proj1 (both_ok w (from [x]) (EShr (EV 0) (EL 24)) Hw F eq_refl)), (proj1 (both_ok w (from [x]) (EShr (EV 0) (EL 16)) Hw F eq_refl)),
      (proj1 (both_ok w (from [x]) (EShr (EV 0) (EL 8)) Hw F eq_refl)), (proj1 (both_ok w (from [x]) (EV 0) Hw F eq_refl)). reflexivity.
  Qed.
  Lemma t_Final_ok c r : held c -> SHA1DCFinal cfg c = Some r -> t_Final w cfg c = Some r /\ held (fst (fst r)).
  Proof.
    intros H. unfold SHA1DCFinal, t_Final. cbv zeta.
    assert (L : N.land (c_total c) 63 < 64). { change 63 with (N.ones 6). rewrite N.land_ones. apply N.mod_lt. discriminate. }
    rewrite t_padn_ok by exact L. cbn [obind]. set (padn := if _ : bool then _ else _). clearbody padn.
    destruct (slice_to sha1_padding (N.to_nat padn)) as [p|]; [|discriminate]. cbn [obind].
    destruct (SHA1DCUpdate cfg c p) as [c1|] eqn:E; [|discriminate]. destruct (t_Update_ok c p c1 H E) as [-> H1]. cbn [obind].
    set (total := shl64 _ 3). clearbody total. set (l8 := [_; _; _; _; _; _; _; n2b total]). clearbody l8.
    destruct (memcpy (c_buffer c1) 56 l8 8) as [b|] eqn:M; [|discriminate]. cbn [obind].
    pose proof (memcpy_length _ _ _ _ _ M) as Lb. rewrite (proj2 H1) in Lb. change (c_buffer (set_buffer b c1)) with b.
    destruct (sha1_process cfg (set_buffer b c1) b) as [c2|] eqn:E2; [|discriminate].
    destruct (t_process_held (set_buffer b c1) b c2 (held_buffer c1 b H1 Lb) Lb E2) as [-> H2]. cbn [obind].
    intros X. apply some1 in X. subst r. destruct (proj1 (proj1 H2)) as (A & B & C & D & E').
    rewrite !t_out_ok by assumption. cbn [obind fst]. auto.
  Qed.
  Lemma t_exec_ok c o r : held c -> capi_exec cfg c o = Some r -> t_exec w cfg c o = Some r /\ held (fst r).
  Proof.
    intros H. destruct o; cbn [capi_exec t_exec];
      try (intros X; apply some1 in X; subst r; split; [reflexivity|]; destruct H as ((A & B & C) & L); (split; [split; [|split; assumption]|exact L]); (exact A || apply wfst_IV)).
    - destruct (SHA1DCUpdate cfg c p) as [c1|] eqn:E; [|discriminate]. destruct (t_Update_ok c p c1 H E) as [-> H1]. cbn [obind]. intros X. apply some1 in X. subst r. auto.
    - destruct (SHA1DCFinal cfg c) as [[[c1 out] v]|] eqn:E; [|discriminate]. destruct (t_Final_ok c _ H E) as [-> H1]. cbn [obind]. intros X. apply some1 in X. subst r. auto.
  Qed.
  Lemma t_run_ok : forall os c r, held c -> capi_run cfg c os = Some r -> t_run w cfg c os = Some r.
  Proof.
    induction os as [|o os IH]; intros c r H; cbn [capi_run t_run]; [auto|].
    destruct (capi_exec cfg c o) as [[c1 x]|] eqn:E; [|discriminate]. destruct (t_exec_ok c o _ H E) as [-> H1]. cbn [obind fst] in *.
    destruct (capi_run cfg c1 os) as [[c2 xs]|] eqn:E2; [|discriminate]. rewrite (IH _ _ H1 E2). cbn [obind]. auto.
  Qed.
End Api.
(** C41 with C's integer types: whatever the context holds at first. *)
Theorem typed_api w cfg D c ops : w = 32%Z \/ (63 <= w)%Z -> host_be cfg = macro_be cfg -> cdecides D -> ctx_typed c ->
  words32 c -> exists c', t_run w cfg c (CInit :: ops) = Some (c', CNone :: snd (ch_run D ch_init ops)).
Proof.
  intros Hw Hcfg HD T Wc. destruct (capi_refines cfg D c ops Hcfg HD T) as (c' & E). exists c'. apply t_run_ok; [exact Hw|split; [exact Wc|exact (proj1 T)]|exact E].
Qed.

(** An int of 33 to 62 bits. *)
Lemma rotl30_undefined w x : (33 <= w <= 62)%Z -> 2 ^ 31 <= x -> t_rotl30 w x = None.
Proof.
  intros Hw Hx. unfold t_rotl30, e_rotate_left, o0, assigned. cbn [ceval]. unfold from. cbn [N.to_nat nth]. unfold load, literal.
  replace (32 <? w)%Z with true by (symmetry; apply Z.ltb_lt; lia).
  assert (P : (2 ^ 32 <= 2 ^ (w - 1) <= 2 ^ 61)%Z) by (split; apply Z.pow_le_mono_r; lia).
  replace (Z.of_N 30 <? 2 ^ (w - 1))%Z with true by (symmetry; apply Z.ltb_lt; change (Z.of_N 30) with 30%Z; change (2 ^ 32)%Z with 4294967296%Z in P; lia).
  cbn [obind]. unfold shl, int. replace ((0 <=? Z.of_N 30) && (Z.of_N 30 <? w) && (0 <=? Z.of_N x))%Z with true.
  2:{ symmetry. change (Z.of_N 30) with 30%Z. apply andb_true_intro. split; [apply andb_true_intro; split; [reflexivity|apply Z.ltb_lt; lia]|apply Z.leb_le; lia]. }
  replace (Z.of_N x * 2 ^ Z.of_N 30 <? 2 ^ (w - 1))%Z with false; [rewrite andb_false_r; reflexivity|].
  symmetry. apply Z.ltb_ge. change (2 ^ 61)%Z with (2 ^ 31 * 2 ^ 30)%Z in P. change (Z.of_N 30) with 30%Z. change (2 ^ 31) with (Z.to_N (2 ^ 31)) in Hx. nia.
Qed.
Lemma items_first : comp_states_items = CStore "DOSTORESTATE00" 0 :: CFull FLoad Va Vb Vc Vd Ve 0 :: skipn 2 comp_states_items.
Proof. reflexivity. Qed.
Lemma items_undefined w cfg block x rest : (33 <= w <= 62)%Z -> 2 ^ 31 <= sb (cp_s x) ->
  ofold (t_item w cfg block) (CStore "DOSTORESTATE00" 0 :: CFull FLoad Va Vb Vc Vd Ve 0 :: rest) x = None.
Proof.
  intros Hw Hb. cbn [ofold t_item obind]. change (defined "DOSTORESTATE00") with false. cbv iota.
  destruct (t_load w cfg block 0) as [temp|]; [|reflexivity]. cbn [obind]. destruct (assigned w _ (e_full _ _ _ _ _ _ _)) as [v|]; [|reflexivity]. cbn [obind].
  cbn [setv getv sb]. rewrite rotl30_undefined by assumption. reflexivity.
Qed.
Lemma states_undefined w cfg h block W states : (33 <= w <= 62)%Z -> 2 ^ 31 <= sb h -> t_compression_states w cfg h block W states = None.
Proof. intros Hw Hb. unfold t_compression_states. rewrite items_first, items_undefined by assumption. reflexivity. Qed.
Theorem narrow_process w cfg c block : (33 <= w <= 62)%Z -> 2 ^ 31 <= sb (c_ihv c) -> t_process w cfg c block = None.
Proof.
  intros Hw Hb. unfold t_process. cbv zeta. change (c_ihv (set_ihv1 (c_ihv c) c)) with (c_ihv c). rewrite states_undefined by assumption. reflexivity.
Qed.
Definition stuck (c : ctx) : Prop := 2 ^ 31 <= sb (c_ihv c).
Section Narrow.
  Variable w : Z.
  Variable cfg : ccfg.
  Hypothesis Hw : (33 <= w <= 62)%Z.

  Lemma loop_stuck fuel c buf r : stuck c -> t_update_loop w cfg fuel c buf = Some r -> stuck (fst r).
  Proof.
    intros H. destruct fuel as [|fuel]; cbn [t_update_loop]; (destruct (List.length buf <? 64)%nat; [intros E; apply some1 in E; subst r; exact H|]); [discriminate|]. cbv zeta.
    set (c0 := set_total (add64 (c_total c) 64) c). assert (H0 : stuck c0) by exact H. clearbody c0. destruct (unaligned cfg).
    - rewrite narrow_process by assumption. discriminate.
    - destruct (memcpy (c_buffer c0) 0 buf 64) as [b|]; [|discriminate]. cbn [obind]. rewrite narrow_process; [discriminate|exact Hw|exact H0].
  Qed.
  Lemma Update_stuck c buf c' : stuck c -> t_Update w cfg c buf = Some c' -> stuck c'.
  Proof.
    intros H. unfold t_Update. destruct (List.length buf =? 0)%nat; [intros E; apply some1 in E; subst c'; exact H|]. cbv zeta.
    set (left_ := N.to_nat (N.land (c_total c) 63)). set (fill := (64 - left_)%nat). clearbody left_.
    destruct (negb (left_ =? 0)%nat && (fill <=? List.length buf)%nat).
    - set (c0 := set_total _ c). assert (H0 : stuck c0) by exact H. clearbody c0. destruct (memcpy (c_buffer c0) left_ buf fill) as [b|]; [|discriminate]. cbn [obind].
      rewrite narrow_process; [discriminate|exact Hw|exact H0].
    - cbn [obind]. destruct (t_update_loop w cfg (List.length buf) c buf) as [[c1 buf1]|] eqn:E; [|discriminate]. pose proof (loop_stuck _ _ _ _ H E) as H1. cbn [obind fst] in *.
      destruct (0 <? List.length buf1)%nat; [|intros X; apply some1 in X; subst c'; exact H1].
      set (c2 := set_total _ c1). assert (H2 : stuck c2) by exact H1. clearbody c2.
      destruct (memcpy (c_buffer c2) left_ buf1 (List.length buf1)) as [b|]; [|discriminate]. cbn [obind]. intros X. apply some1 in X. subst c'. exact H2.
  Qed.
  Lemma Final_stuck c : stuck c -> t_Final w cfg c = None.
  Proof.
    intros H. unfold t_Final. destruct (t_padn w _) as [padn|]; [|reflexivity]. cbn [obind]. destruct (slice_to sha1_padding (N.to_nat padn)) as [p|]; [|reflexivity]. cbn [obind].
    destruct (t_Update w cfg c p) as [c1|] eqn:E; [|reflexivity]. pose proof (Update_stuck c p c1 H E) as H1. cbn [obind]. cbv zeta.
    destruct (memcpy _ _ _ _) as [b|]; [|reflexivity]. cbn [obind]. rewrite narrow_process; [reflexivity|exact Hw|exact H1].
  Qed.
  Lemma run_stuck : forall os c, stuck c -> In CFinal os -> t_run w cfg c os = None.
  Proof.
    induction os as [|o os IH]; intros c H Hin; [destruct Hin|]. cbn [t_run].
    assert (F : o = CFinal -> t_exec w cfg c o = None) by (intros ->; cbn [t_exec]; rewrite Final_stuck by exact H; reflexivity).
    destruct (t_exec w cfg c o) as [[c1 r]|] eqn:E; [|reflexivity]. cbn [obind]. destruct Hin as [-> |Hin]; [specialize (F eq_refl); discriminate F|].
    rewrite IH; [reflexivity| |exact Hin]. clear F IH.
    destruct o; cbn [t_exec capi_exec] in E; try (apply some1 in E; apply (f_equal fst) in E; cbn [fst] in E; subst c1; exact H).
    - apply some1 in E. apply (f_equal fst) in E. cbn [fst] in E. subst c1. unfold stuck. cbn. discriminate.
    - destruct (t_Update w cfg c p) as [c2|] eqn:U; [|discriminate E]. cbn [obind] in E. apply some1 in E. apply (f_equal fst) in E. cbn [fst] in E. subst c1. exact (Update_stuck c p c2 H U).
    - rewrite Final_stuck in E by exact H. discriminate E.
  Qed.
End Narrow.
(** No hash is computed without undefined behaviour. *)
Theorem narrow_api w cfg c ops : (33 <= w <= 62)%Z -> In CFinal ops -> t_run w cfg c (CInit :: ops) = None.
Proof.
  intros Hw Hin. cbn [t_run t_exec capi_exec obind]. rewrite run_stuck; [reflexivity|exact Hw| |exact Hin]. unfold stuck. cbn. discriminate.
Qed.

Theorem typed_ubc w W : w = 32%Z \/ (63 <= w)%Z -> Forall wf W ->
  exists mask, ubc_check_typed w ubc_typed W = Some mask /\ forall d, (d < 32)%nat -> (N.testbit mask (N.of_nat d) = true <-> ubc_holds d W).
Proof. intros Hw HW. exists (ubc_check W). split; [apply ubc_typed_ok; assumption|]. intros d Hd. apply mask_c_spec. exact Hd. Qed.
