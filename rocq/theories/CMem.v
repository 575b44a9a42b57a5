(** The C hasher on a memory with addresses: results. *)

From Coq Require Import Arith NArith ZArith String List Strings.Byte Bool Lia ZifyNat ZifyN.
From Verif Require Import Word WordFacts Sha1Facts Model_Ubc Gen_UbcC Model_Go Gen_DvsC Model_CSteps Gen_CSteps Model_C CSteps Spec_Sha1 Spec_DV DvFacts Spec_C Model_CApi
  GoApi GoStore CProcess CCtx CProps Model_CBuild Spec_Build CDead Model_CMem Spec_CMem.
Import ListNotations.
Local Open Scope N_scope.
Ltac Zify.zify_post_hook ::= idtac.

Lemma some3 {A B C} {a x : A} {b y : B} {c z : C} : Some (a, b, c) = Some (x, y, z) -> a = x /\ b = y /\ c = z.
Proof. intros E. injection E as -> -> ->. auto. Qed.

(** ** Memory *)
Lemma mload_length m a n : List.length (mload m a n) = n.
Proof. unfold mload. rewrite map_length, seq_length. reflexivity. Qed.
Lemma mload_ext m m' a n : (forall x, a <= x < a + N.of_nat n -> m x = m' x) -> mload m a n = mload m' a n.
Proof. intros H. apply map_ext_in. intros i Hi. apply in_seq in Hi. apply H. lia. Qed.
Lemma seq_shift_add k : forall n s, map (fun i => (k + i)%nat) (seq s n) = seq (k + s) n.
Proof. induction n as [|n IH]; intros s; [reflexivity|]. cbn [seq map]. rewrite IH. do 2 f_equal. lia. Qed.
Lemma mload_app m a k n : mload m a (k + n) = mload m a k ++ mload m (a + N.of_nat k) n.
Proof.
  unfold mload. rewrite seq_app, map_app. f_equal. rewrite <- (Nat.add_0_r (0 + k)). rewrite Nat.add_0_l, <- seq_shift_add, map_map.
  apply map_ext. intros i. f_equal. lia.
Qed.
Lemma mload_firstn m a k n : (k <= n)%nat -> firstn k (mload m a n) = mload m a k.
Proof.
  intros H. replace n with (k + (n - k))%nat by lia. rewrite mload_app, firstn_app, mload_length, Nat.sub_diag, firstn_O, app_nil_r.
  apply firstn_all2. rewrite mload_length. lia.
Qed.
Lemma mload_skipn m a k n : (k <= n)%nat -> skipn k (mload m a n) = mload m (a + N.of_nat k) (n - k).
Proof.
  intros H. replace n with (k + (n - k))%nat at 1 by lia. rewrite mload_app, skipn_app, mload_length, Nat.sub_diag.
  rewrite skipn_all2 by (rewrite mload_length; lia). reflexivity.
Qed.
Lemma mstore_outside m a l x : x < a \/ a + N.of_nat (List.length l) <= x -> mstore m a l x = m x.
Proof.
  intros H. unfold mstore. destruct (N.leb_spec a x); [|reflexivity].
  rewrite (proj2 (nth_error_None l (N.to_nat (x - a)))) by lia. reflexivity.
Qed.
Lemma mload_mstore m a l : mload (mstore m a l) a (List.length l) = l.
Proof.
  revert m a. induction l as [|b l IH]; intros m a; [reflexivity|]. cbn [List.length].
  change (S (List.length l)) with (1 + List.length l)%nat. rewrite mload_app. change (b :: l) with ([b] ++ l) at 3. f_equal.
  - cbn. rewrite N.add_0_r. unfold mstore. rewrite N.leb_refl, N.sub_diag. reflexivity.
  - etransitivity; [|exact (IH m (a + N.of_nat 1))]. apply mload_ext. intros x Hx. unfold mstore.
    rewrite (proj2 (N.leb_le a x)) by lia. rewrite (proj2 (N.leb_le (a + N.of_nat 1) x)) by lia.
    replace (N.to_nat (x - a)) with (S (N.to_nat (x - (a + N.of_nat 1)))) by lia. reflexivity.
Qed.
Lemma mload_mstore_in m a k l n : (k + List.length l <= n)%nat ->
  mload (mstore m (a + N.of_nat k) l) a n = firstn k (mload m a n) ++ l ++ skipn (k + List.length l) (mload m a n).
Proof.
  intros H. replace n with (k + (List.length l + (n - k - List.length l)))%nat at 1 by lia. rewrite !mload_app, mload_mstore.
  rewrite mload_firstn by lia. rewrite mload_skipn by lia. f_equal; [|f_equal].
  - apply mload_ext. intros x Hx. apply mstore_outside. lia.
  - rewrite <- N.add_assoc, <- Nnat.Nat2N.inj_add, Nat.sub_add_distr. apply mload_ext. intros x Hx. apply mstore_outside. lia.
Qed.
Lemma mcopy_apart m d s n : apart d (N.of_nat n) s (N.of_nat n) -> mcopy m d s n = Some (mstore m d (mload m s n)).
Proof.
  unfold mcopy. intros [H|H].
  - rewrite (proj2 (N.leb_le _ _)) by exact H. reflexivity.
  - rewrite (proj2 (N.leb_le (s + _) _)) by exact H. rewrite orb_true_r. reflexivity.
Qed.

(** ** One block *)
Definition sync (B : N) (m : cmem) (c : ctx) : ctx := set_buffer (mload m B 64) c.

Lemma loop_buffer x mask : forall dvs c, process_loop dvs mask (set_buffer x c) = option_map (set_buffer x) (process_loop dvs mask c).
Proof.
  induction dvs as [|dv rest IH]; intros c; [reflexivity|]. rewrite !process_loop_cons.
  destruct (dvType dv =? 0); [reflexivity|]. destruct (32 <=? maskB dv); [reflexivity|].
  destruct (N.land mask (shl32 1 (maskB dv)) =? 0); [apply IH|]. cbv zeta.
  change (c_m1 (set_buffer x c)) with (c_m1 c). change (c_states (set_buffer x c)) with (c_states c).
  destruct (nth_error (c_states c) (N.to_nat (testT dv))) as [state|]; [|reflexivity]. cbn [obind].
  destruct (sha1_recompression_step _ _ state) as [[ihv2 tmp]|]; [|reflexivity]. cbn [obind].
  set (m2 := map _ _). change (set_ihv2_m2 ihv2 m2 (set_buffer x c)) with (set_buffer x (set_ihv2_m2 ihv2 m2 c)).
  set (c2 := set_ihv2_m2 ihv2 m2 c). clearbody c2 m2.
  change (c_ihv (set_buffer x c2)) with (c_ihv c2). change (c_reduced (set_buffer x c2)) with (c_reduced c2).
  change (c_ihv1 (set_buffer x c2)) with (c_ihv1 c2). change (c_ihv2 (set_buffer x c2)) with (c_ihv2 c2).
  destruct (same_words tmp (c_ihv c2) || (truth (c_reduced c2) && same_words (c_ihv1 c2) (c_ihv2 c2))); [|apply IH].
  change (c_safe (set_found 1 (set_buffer x c2))) with (c_safe (set_found 1 c2)). destruct (truth (c_safe (set_found 1 c2))); reflexivity.
Qed.

Lemma process_buffer cfg x c block : sha1_process cfg (set_buffer x c) block = option_map (set_buffer x) (sha1_process cfg c block).
Proof.
  unfold sha1_process. cbv zeta.
  change (set_ihv1 (c_ihv (set_buffer x c)) (set_buffer x c)) with (set_buffer x (set_ihv1 (c_ihv c) c)).
  set (c1 := set_ihv1 (c_ihv c) c). clearbody c1.
  change (c_ihv (set_buffer x c1)) with (c_ihv c1). change (c_m1 (set_buffer x c1)) with (c_m1 c1). change (c_states (set_buffer x c1)) with (c_states c1).
  destruct (sha1_compression_states cfg (c_ihv c1) block (c_m1 c1) (c_states c1)) as [[ihv m1] states].
  change (set_m1_states m1 states (set_ihv ihv (set_buffer x c1))) with (set_buffer x (set_m1_states m1 states (set_ihv ihv c1))).
  set (c2 := set_m1_states m1 states (set_ihv ihv c1)). clearbody c2.
  change (c_detect (set_buffer x c2)) with (c_detect c2). change (c_ubc (set_buffer x c2)) with (c_ubc c2). change (c_m1 (set_buffer x c2)) with (c_m1 c2).
  destruct (truth (c_detect c2)); [|reflexivity].
  destruct (negb ((if truth (c_ubc c2) then ubc_check (c_m1 c2) else 0xFFFFFFFF) =? 0)); [apply loop_buffer|reflexivity].
Qed.

Lemma items_load_small : forallb (fun it => match it with CFull FLoad _ _ _ _ _ i => (i <? 16)%nat | _ => true end) comp_states_items = true.
Proof. vm_compute. reflexivity. Qed.

Section Target.
  Variables (t : abi) (cfg : ccfg).
  Hypothesis H32 : (a32 t | 4).

  Lemma a32_pos : a32 t <> 0.
  Proof. intros E. rewrite E in H32. apply N.divide_0_l in H32. discriminate. Qed.
  Lemma aligned_add a k : (a + 4 * k) mod a32 t = a mod a32 t.
  Proof.
    destruct H32 as [q E]. rewrite E. replace (q * a32 t * k) with (q * k * a32 t) by lia. apply N.mod_add. apply a32_pos.
  Qed.

  Lemma m_load_ok m b i : b mod a32 t = 0 -> (i < 16)%nat -> m_load t cfg m b i = Some (sha1_load cfg (mload m b 64) i).
  Proof.
    intros Hb Hi. unfold m_load, load32. rewrite aligned_add, Hb. cbn [N.eqb obind]. unfold sha1_load. cbv zeta.
    rewrite mload_skipn by lia. rewrite mload_firstn by lia. replace (N.of_nat (4 * i)) with (4 * N.of_nat i) by lia. reflexivity.
  Qed.
  Lemma m_items_ok m b : b mod a32 t = 0 -> forall l x,
    forallb (fun it => match it with CFull FLoad _ _ _ _ _ i => (i <? 16)%nat | _ => true end) l = true ->
    m_items t cfg m b x l = Some (fold_left (c_item cfg (mload m b 64)) l x).
  Proof.
    intros Hb. induction l as [|it l IH]; intros x H; [reflexivity|]. cbn [m_items fold_left]. cbn [forallb] in H. apply andb_true_iff in H. destruct H as [H1 H2].
    replace (m_item t cfg m b x it) with (Some (c_item cfg (mload m b 64) x it)); [cbn [obind]; apply IH; exact H2|].
    destruct it as [g i|k va vb vc vd ve i]; [reflexivity|]. unfold m_item, c_item.
    destruct k; try reflexivity. apply Nat.ltb_lt in H1. rewrite m_load_ok by assumption. reflexivity.
  Qed.
  Lemma m_process_ok m c b : b mod a32 t = 0 -> m_process t cfg m c b = sha1_process cfg c (mload m b 64).
  Proof.
    intros Hb. unfold m_process, sha1_process. cbv zeta. set (c1 := set_ihv1 (c_ihv c) c). clearbody c1.
    unfold m_compression_states, sha1_compression_states. cbv zeta. rewrite (m_items_ok m b Hb _ _ items_load_small). cbn [obind]. reflexivity.
  Qed.
  Lemma items_none m b g va vb vc vd ve i rest x : b mod a32 t <> 0 -> m_items t cfg m b x (CStore g 0 :: CFull FLoad va vb vc vd ve i :: rest) = None.
  Proof.
    intros Hb. cbn [m_items m_item obind]. unfold m_load, load32. rewrite aligned_add.
    rewrite (proj2 (N.eqb_neq _ _) Hb). reflexivity.
  Qed.
  Lemma m_process_bad m c b : b mod a32 t <> 0 -> m_process t cfg m c b = None.
  Proof.
    intros Hb. unfold m_process. cbv zeta. set (c1 := set_ihv1 (c_ihv c) c). clearbody c1.
    unfold m_compression_states. unfold comp_states_items. rewrite items_none by exact Hb. reflexivity.
  Qed.
End Target.

(** ** Layout *)
Lemma round_up_ge x a : a <> 0 -> x <= round_up x a.
Proof.
  intros Ha. unfold round_up. pose proof (N.div_mod (x + a - 1) a Ha). pose proof (N.mod_upper_bound (x + a - 1) a Ha). lia.
Qed.
Lemma round_up_mul x a : a <> 0 -> (a | x) -> round_up x a = x.
Proof.
  intros Ha [q ->]. unfold round_up. replace (q * a + a - 1) with (a - 1 + q * a) by lia.
  rewrite N.div_add by exact Ha. rewrite N.div_small by lia. lia.
Qed.
Lemma place_ge l : forall k, Forall (fun f => snd f <> 0) l -> k <= snd (place k l).
Proof.
  induction l as [|[[n s] a] l IH]; intros k H; cbn [place snd]; [lia|]. inversion_clear H as [|? ? Ha Hl]. cbn [snd] in Ha.
  specialize (IH (round_up k a + s) Hl). destruct (place (round_up k a + s) l) as [r e]. cbn [snd] in *. pose proof (round_up_ge k a Ha). lia.
Qed.
Lemma place_fst k n s a l : fst (place k ((n, s, a) :: l)) = (n, round_up k a) :: fst (place (round_up k a + s) l).
Proof. cbn [place]. destruct (place (round_up k a + s) l). reflexivity. Qed.
Lemma place_snd k n s a l : snd (place k ((n, s, a) :: l)) = snd (place (round_up k a + s) l).
Proof. cbn [place]. destruct (place (round_up k a + s) l). reflexivity. Qed.
Lemma buffer_offset t : abi_ok t -> offset_of t "buffer"%string = 28 /\ 92 <= ctx_size t.
Proof.
  intros (H32 & H64 & Hi & Hp). pose proof (a32_pos t H32) as Ha.
  assert (E0 : round_up 0 (a64 t) = 0) by (apply round_up_mul; [exact H64|apply N.divide_0_r]).
  assert (E8 : round_up 8 (a32 t) = 8).
  { apply round_up_mul; [exact Ha|]. destruct H32 as [q E]. exists (2 * q). lia. }
  unfold offset_of, ctx_size, ctx_fields. set (fs := ("found_collision"%string, isize t, ialign t) :: _).
  assert (Hf : Forall (fun f => snd f <> 0) fs) by (repeat constructor; assumption).
  pose proof (place_ge fs 92 Hf) as G. clearbody fs.
  rewrite !place_fst, !place_snd, E0. change (0 + 8) with 8. rewrite E8. change (8 + 20) with 28.
  change (round_up 28 1) with 28. change (28 + 64) with 92. split; [reflexivity|exact G].
Qed.

(** ** SHA1DCUpdate *)
Section Placed.
  Variables (t : abi) (cfg : ccfg) (A : N).
  Hypothesis HT : abi_ok t.
  Hypothesis HA : A mod a32 t = 0.
  Let B := buffer_at t A.

  Lemma B_eq : B = A + 28.
  Proof. unfold B, buffer_at. rewrite (proj1 (buffer_offset t HT)). reflexivity. Qed.
  Lemma B_aligned : B mod a32 t = 0.
  Proof. rewrite B_eq. change 28 with (4 * 7). rewrite aligned_add by apply HT. exact HA. Qed.

  Definition kept (m m' : cmem) : Prop := forall x, x < B \/ B + 64 <= x -> m' x = m x.
  Lemma kept_refl m : kept m m.
  Proof. intros x _. reflexivity. Qed.
  Lemma kept_trans m1 m2 m3 : kept m1 m2 -> kept m2 m3 -> kept m1 m3.
  Proof. intros H1 H2 x Hx. rewrite (H2 x Hx). apply H1. exact Hx. Qed.
  Lemma kept_load m m' b n : kept m m' -> apart B 64 b (N.of_nat n) -> mload m' b n = mload m b n.
  Proof. intros K Hb. apply mload_ext. intros x Hx. apply K. destruct Hb; lia. Qed.

  (** A copy into the buffer. *)
  Lemma copy_ok m c k b n : (k + n <= 64)%nat -> apart B 64 b (N.of_nat n) ->
    exists m', mcopy m (B + N.of_nat k) b n = Some m' /\ kept m m' /\
      memcpy (c_buffer (sync B m c)) k (mload m b n) n = Some (mload m' B 64).
  Proof.
    intros Hk Hb. rewrite mcopy_apart by (destruct Hb; [left|right]; lia). eexists. split; [reflexivity|]. split.
    - intros x Hx. apply mstore_outside. rewrite mload_length. lia.
    - change (c_buffer (sync B m c)) with (mload m B 64). unfold memcpy. rewrite !mload_length.
      rewrite (proj2 (Nat.leb_le (k + n) 64)) by lia. rewrite Nat.leb_refl. cbn [andb].
      rewrite mload_mstore_in by (rewrite mload_length; lia). rewrite mload_length. f_equal. f_equal. f_equal.
      apply firstn_all2. rewrite mload_length. lia.
  Qed.
  Lemma memcpy_firstn dst k src n : memcpy dst k src n = memcpy dst k (firstn n src) n.
  Proof.
    unfold memcpy. rewrite firstn_length, firstn_firstn, Nat.min_id.
    replace (n <=? Nat.min n (List.length src))%nat with (n <=? List.length src)%nat; [reflexivity|].
    destruct (Nat.leb_spec n (List.length src)); symmetry; [apply Nat.leb_le|apply Nat.leb_gt]; lia.
  Qed.
  Lemma sync_set m m' c : set_buffer (mload m' B 64) (sync B m c) = sync B m' c.
  Proof. reflexivity. Qed.
  Lemma process_sync m c block c1 : sha1_process cfg (sync B m c) block = Some c1 ->
    exists c', sha1_process cfg c block = Some c' /\ c1 = sync B m c'.
  Proof.
    unfold sync. rewrite process_buffer. destruct (sha1_process cfg c block) as [c'|]; [|discriminate]. cbn [option_map].
    intros E. exists c'. split; [reflexivity|]. congruence.
  Qed.

  Lemma m_loop_ok : forall fuel m c b n c1 rest, unaligned cfg = false \/ b mod a32 t = 0 \/ (n < 64)%nat -> apart B 64 b (N.of_nat n) ->
    update_loop fuel cfg (sync B m c) (mload m b n) = Some (c1, rest) ->
    exists m' c' k, m_loop t cfg A fuel m c b n = Some (m', c', b + N.of_nat k, (n - k)%nat) /\ (k <= n)%nat /\ c1 = sync B m' c' /\
      rest = mload m' (b + N.of_nat k) (n - k) /\ (n - k < 64)%nat /\ kept m m'.
  Proof.
    assert (stop : forall fuel m c b n c1 rest, (n < 64)%nat -> update_loop fuel cfg (sync B m c) (mload m b n) = Some (c1, rest) ->
      exists m' c' k, m_loop t cfg A fuel m c b n = Some (m', c', b + N.of_nat k, (n - k)%nat) /\ (k <= n)%nat /\ c1 = sync B m' c' /\
      rest = mload m' (b + N.of_nat k) (n - k) /\ (n - k < 64)%nat /\ kept m m').
    { intros fuel m c b n c1 rest Hn E. rewrite update_loop_short in E by (rewrite mload_length; exact Hn).
      exists m, c, 0%nat. rewrite N.add_0_r, Nat.sub_0_r. split; [|repeat split; try congruence; try lia; apply kept_refl].
      destruct fuel; cbn [m_loop]; rewrite (proj2 (Nat.ltb_lt n 64)) by exact Hn; reflexivity. }
    induction fuel as [|fuel IH]; intros m c b n c1 rest Hal Hb E; (destruct (Nat.ltb_spec n 64) as [Hn|Hn]; [eapply stop; eassumption|]).
    { cbn [update_loop] in E. rewrite mload_length in E. rewrite (proj2 (Nat.ltb_ge n 64)) in E by exact Hn. discriminate. }
    cbn [update_loop m_loop] in *. rewrite mload_length in E. rewrite (proj2 (Nat.ltb_ge n 64)) in E |- * by exact Hn. cbv zeta in *.
    change (set_total (add64 (c_total (sync B m c)) 64) (sync B m c)) with (sync B m (set_total (add64 (c_total c) 64) c)) in E.
    set (c0 := set_total (add64 (c_total c) 64) c) in *. clearbody c0.
    rewrite mload_skipn in E by exact Hn. change (N.of_nat 64) with 64 in E.
    assert (Hb' : apart B 64 (b + 64) (N.of_nat (n - 64))) by (destruct Hb; [left|right]; lia).
    assert (step : forall m1 c2, kept m m1 -> update_loop fuel cfg (sync B m1 c2) (mload m (b + 64) (n - 64)) = Some (c1, rest) ->
      exists m' c' k, m_loop t cfg A fuel m1 c2 (b + 64) (n - 64) = Some (m', c', b + N.of_nat k, (n - k)%nat) /\ (k <= n)%nat /\ c1 = sync B m' c' /\
      rest = mload m' (b + N.of_nat k) (n - k) /\ (n - k < 64)%nat /\ kept m m').
    { intros m1 c2 K1 E2. rewrite <- (kept_load m m1 _ _ K1 Hb') in E2.
      destruct (IH m1 c2 (b + 64) (n - 64)%nat c1 rest) as (m' & c' & k & E3 & Hk & Ec & Er & Hs & K2); [|exact Hb'|exact E2|].
      { destruct Hal as [Hal|[Hal|Hal]]; [left; exact Hal|right; left|lia]. change 64 with (4 * 16). rewrite aligned_add by apply HT. exact Hal. }
      exists m', c', (64 + k)%nat. replace (b + N.of_nat (64 + k)) with (b + 64 + N.of_nat k) by lia. rewrite Nat.sub_add_distr.
      repeat split; try assumption; try lia. eapply kept_trans; eassumption. }
    destruct (unaligned cfg) eqn:Eu.
    - destruct Hal as [Hal|[Hal|Hal]]; [discriminate| |lia].
      rewrite mload_firstn in E by exact Hn.
      destruct (sha1_process cfg (sync B m c0) (mload m b 64)) as [c2|] eqn:E1; [|discriminate]. cbn [obind] in E.
      apply process_sync in E1. destruct E1 as (c3 & E1 & ->). rewrite m_process_ok by (try apply HT; exact Hal). rewrite E1. cbn [obind].
      apply step; [apply kept_refl|exact E].
    - assert (Hb64 : apart B 64 b (N.of_nat 64)) by (destruct Hb; [left|right]; lia).
      destruct (copy_ok m c0 0 b 64 ltac:(lia) Hb64) as (m1 & E0 & K1 & E1). rewrite N.add_0_r in E0. fold B. rewrite E0. cbn [obind].
      rewrite memcpy_firstn, mload_firstn, E1 in E by exact Hn. cbn [obind] in E. rewrite sync_set in E.
      change (c_buffer (sync B m1 c0)) with (mload m1 B 64) in E.
      destruct (sha1_process cfg (sync B m1 c0) (mload m1 B 64)) as [c2|] eqn:E2; [|discriminate]. cbn [obind] in E.
      apply process_sync in E2. destruct E2 as (c3 & E2 & ->). rewrite m_process_ok by (try apply HT; exact B_aligned). rewrite E2. cbn [obind].
      apply step; assumption.
  Qed.
  Lemma m_loop_bad fuel m c b n : unaligned cfg = true -> (64 <= n)%nat -> b mod a32 t <> 0 -> m_loop t cfg A fuel m c b n = None.
  Proof.
    intros Hu Hn Hb. destruct fuel; cbn [m_loop]; rewrite (proj2 (Nat.ltb_ge n 64)) by exact Hn; [reflexivity|]. cbv zeta.
    rewrite Hu, m_process_bad by (try apply HT; exact Hb). reflexivity.
  Qed.

  (** The block that SHA1DCUpdate may read where the caller put it is at a suitable address, or is copied. *)
  Definition reads_aligned (total b : N) (n : nat) : Prop :=
    unaligned cfg = false \/ match first_block total n with Some k => (b + k) mod a32 t = 0 | None => True end.

  Lemma m_Update_ok m c b n c1 : reads_aligned (c_total c) b n -> apart B 64 b (N.of_nat n) ->
    SHA1DCUpdate cfg (sync B m c) (mload m b n) = Some c1 ->
    exists m' c', m_Update t cfg A m c b n = Some (m', c') /\ c1 = sync B m' c' /\ kept m m'.
  Proof.
    intros Hal Hb E. unfold SHA1DCUpdate in E. rewrite mload_length in E. unfold m_Update.
    destruct (Nat.eqb_spec n 0) as [->|Hn0].
    { exists m, c. split; [reflexivity|]. split; [congruence|apply kept_refl]. }
    cbv zeta in *. change (c_total (sync B m c)) with (c_total c) in E. unfold reads_aligned, first_block in Hal.
    rewrite land63 in E |- *. set (r := c_total c mod 64) in *.
    assert (Hr : r < 64) by (apply N.mod_upper_bound; discriminate). set (left := N.to_nat r) in *.
    assert (El : N.of_nat left = r) by (unfold left; lia).
    assert (tail : forall m1 c2 b1 n1 left1, (left1 + n1 < 64)%nat \/ (left1 = 0)%nat -> kept m m1 -> apart B 64 b1 (N.of_nat n1) ->
      unaligned cfg = false \/ b1 mod a32 t = 0 \/ (n1 < 64)%nat ->
      (do (c, buf) <- update_loop n1 cfg (sync B m1 c2) (mload m1 b1 n1);
       if (0 <? List.length buf)%nat then
         do b <- memcpy (c_buffer (set_total (add64 (c_total c) (N.of_nat (List.length buf))) c)) left1 buf (List.length buf);
         Some (set_buffer b (set_total (add64 (c_total c) (N.of_nat (List.length buf))) c))
       else Some c) = Some c1 ->
      exists m' c', (do (m, c, b, n) <- m_loop t cfg A n1 m1 c2 b1 n1;
        if (0 <? n)%nat then
          do m <- mcopy m (buffer_at t A + N.of_nat left1) b n;
          Some (m, set_total (add64 (c_total c) (N.of_nat n)) c)
        else Some (m, c)) = Some (m', c') /\ c1 = sync B m' c' /\ kept m m').
    { intros m1 c2 b1 n1 left1 Hl1 K1 Hb1 Hal1 E1.
      destruct (update_loop n1 cfg (sync B m1 c2) (mload m1 b1 n1)) as [[c3 rest]|] eqn:EL; [|discriminate].
      cbn [obind] in E1.
      destruct (m_loop_ok _ _ _ _ _ _ _ Hal1 Hb1 EL) as (m2 & c4 & k & EM & Hk & -> & -> & Hs & K2).
      rewrite EM. cbn [obind]. rewrite mload_length in E1.
      assert (K12 : kept m m2) by (eapply kept_trans; eassumption).
      destruct (Nat.ltb_spec 0 (n1 - k)) as [Hp|Hp].
      2: { exists m2, c4. split; [reflexivity|]. split; [congruence|exact K12]. }
      change (set_total (add64 (c_total (sync B m2 c4)) (N.of_nat (n1 - k))) (sync B m2 c4))
        with (sync B m2 (set_total (add64 (c_total c4) (N.of_nat (n1 - k))) c4)) in E1.
      set (c5 := set_total (add64 (c_total c4) (N.of_nat (n1 - k))) c4) in *. clearbody c5.
      assert (Hb2 : apart B 64 (b1 + N.of_nat k) (N.of_nat (n1 - k))) by (destruct Hb1; [left|right]; lia).
      assert (Hl2 : (left1 + (n1 - k) <= 64)%nat) by lia.
      destruct (copy_ok m2 c5 left1 _ _ Hl2 Hb2) as (m3 & E0 & K3 & E2). fold B. rewrite E0. cbn [obind].
      rewrite E2 in E1. cbn [obind] in E1. rewrite sync_set in E1.
      exists m3, c5. split; [reflexivity|]. split; [congruence|]. eapply kept_trans; eassumption. }
    destruct (Nat.eqb_spec left 0) as [L0|L0]; cbn [negb andb] in E |- *.
    - cbn [obind] in E |- *. rewrite mload_length in E. apply tail; try assumption; try apply kept_refl; [lia|].
      destruct Hal as [Hal|Hal]; [left; exact Hal|right]. assert (r = 0) by lia. replace ((64 - r) mod 64) with 0 in Hal by (replace r with 0 by lia; reflexivity).
      destruct (N.leb_spec (0 + 64) (N.of_nat n)); [left|right; lia]. rewrite N.add_0_r in Hal. exact Hal.
    - rewrite (N.mod_small (64 - r)) in Hal by lia.
      destruct (Nat.leb_spec (64 - left) n) as [Hf|Hf]; cbn [obind] in E |- *.
      + change (c_buffer (set_total (add64 (c_total c) (N.of_nat (64 - left))) (sync B m c))) with (c_buffer (sync B m c)) in E.
        set (c0 := set_total (add64 (c_total c) (N.of_nat (64 - left))) c) in *.
        change (set_total (add64 (c_total c) (N.of_nat (64 - left))) (sync B m c)) with (sync B m c0) in E.
        change (c_buffer (sync B m c)) with (c_buffer (sync B m c0)) in E. clearbody c0.
        assert (Hb1 : apart B 64 b (N.of_nat (64 - left))) by (destruct Hb; [left|right]; lia).
        destruct (copy_ok m c0 left b (64 - left) ltac:(lia) Hb1) as (m1 & E0 & K1 & E1). fold B. rewrite E0. cbn [obind].
        rewrite memcpy_firstn, mload_firstn, E1 in E by exact Hf. cbn [obind] in E. rewrite sync_set in E.
        change (c_buffer (sync B m1 c0)) with (mload m1 B 64) in E.
        destruct (sha1_process cfg (sync B m1 c0) (mload m1 B 64)) as [c2|] eqn:E2; [|discriminate]. cbn [obind] in E.
        apply process_sync in E2. destruct E2 as (c3 & E2 & ->). rewrite m_process_ok by (try apply HT; exact B_aligned). rewrite E2. cbn [obind].
        rewrite mload_skipn in E by exact Hf. rewrite mload_length in E.
        assert (Hb2 : apart B 64 (b + N.of_nat (64 - left)) (N.of_nat (n - (64 - left)))) by (destruct Hb; [left|right]; lia).
        rewrite <- (kept_load m m1 _ _ K1 Hb2) in E. fold B in tail. apply tail; try assumption; [right; reflexivity|].
        destruct Hal as [Hal|Hal]; [left; exact Hal|right]. replace (N.of_nat (64 - left)) with (64 - r) by lia.
        destruct (N.leb_spec (64 - r + 64) (N.of_nat n)); [left; exact Hal|right; lia].
      + rewrite mload_length in E. apply tail; try assumption; try apply kept_refl; [lia|]. right. right. lia.
  Qed.

  Lemma m_Update_bad m c b n k : unaligned cfg = true -> first_block (c_total c) n = Some k -> (b + k) mod a32 t <> 0 ->
    m_Update t cfg A m c b n = None.
  Proof.
    intros Hu Hf Hk. unfold m_Update, first_block in *. rewrite land63 in *. set (r := c_total c mod 64) in *.
    assert (Hr : r < 64) by (apply N.mod_upper_bound; discriminate).
    destruct (N.leb_spec ((64 - r) mod 64 + 64) (N.of_nat n)) as [Hn|Hn]; [|discriminate].
    assert (Ek : (64 - r) mod 64 = k) by congruence. clear Hf. destruct (Nat.eqb_spec n 0) as [E0|_]; [lia|]. cbv zeta.
    destruct (Nat.eqb_spec (N.to_nat r) 0) as [L0|L0]; cbn [negb andb obind].
    - replace r with 0 in Ek by lia. change ((64 - 0) mod 64) with 0 in Ek. subst k. rewrite N.add_0_r in Hk.
      rewrite m_loop_bad by (try assumption; lia). reflexivity.
    - rewrite N.mod_small in Ek by lia. rewrite (proj2 (Nat.leb_le _ _)) by lia.
      destruct (mcopy m (buffer_at t A + N.of_nat (N.to_nat r)) b (64 - N.to_nat r)) as [m1|]; [|reflexivity]. cbn [obind].
      destruct (m_process t cfg m1 _ (buffer_at t A)) as [c1|]; [|reflexivity]. cbn [obind].
      replace (N.of_nat (64 - N.to_nat r)) with k by lia. rewrite m_loop_bad by (try assumption; lia). reflexivity.
  Qed.

  (** ** SHA1DCFinal *)
  Lemma first_block_mod L L' n : L mod 64 = L' mod 64 -> first_block L n = first_block L' n.
  Proof. intros E. unfold first_block. rewrite E. reflexivity. Qed.
  Lemma pad_block L : first_block L (N.to_nat (if L mod 64 <? 56 then 56 - L mod 64 else 120 - L mod 64)) = None.
  Proof.
    unfold first_block. pose proof (N.mod_upper_bound L 64 ltac:(discriminate)) as Hr. set (r := L mod 64) in *. clearbody r. clear HT HA B.
    destruct (N.eqb_spec r 0) as [->|H0]; [reflexivity|]. rewrite (N.mod_small (64 - r)) by lia.
    rewrite (proj2 (N.leb_gt _ _)); [reflexivity|]. destruct (N.ltb_spec r 56); lia.
  Qed.

  Lemma m_Final_ok P m c out c1 d v : mload m P 64 = sha1_padding -> apart B 64 P 64 ->
    SHA1DCFinal cfg (sync B m c) = Some (c1, d, v) ->
    exists m' c', m_Final t cfg A P m c out = Some (mstore m' out d, c', v) /\ c1 = sync B m' c' /\ kept m m'.
  Proof.
    intros HP HPB E. unfold SHA1DCFinal in E. cbv zeta in E. change (c_total (sync B m c)) with (c_total c) in E. unfold m_Final. cbv zeta.
    rewrite land63 in E |- *. set (padn := if c_total c mod 64 <? 56 then 56 - c_total c mod 64 else 120 - c_total c mod 64) in *.
    assert (Hp : (N.to_nat padn <= 64)%nat).
    { clear HT HA. unfold padn. pose proof (N.mod_upper_bound (c_total c) 64 ltac:(discriminate)). destruct (N.ltb_spec (c_total c mod 64) 56); lia. }
    rewrite slice_to_ok in E by (change (List.length sha1_padding) with 64%nat; exact Hp). cbn [obind] in E.
    rewrite <- HP, mload_firstn in E by exact Hp.
    destruct (SHA1DCUpdate cfg (sync B m c) (mload m P (N.to_nat padn))) as [c2|] eqn:E1; [|discriminate]. cbn [obind] in E.
    apply m_Update_ok in E1; [|right; unfold padn; rewrite pad_block; exact I|clear HT HA; destruct HPB; [left|right]; lia].
    destruct E1 as (m1 & c3 & E1 & -> & K1). rewrite E1. cbn [obind].
    change (c_total (sync B m1 c3)) with (c_total c3) in E.
    set (total := shl64 (sub64 (c_total c3) padn) 3) in *. set (l8 := [n2b (N.shiftr total 56); _; _; _; _; _; _; _]) in *.
    set (m2 := mstore m1 (buffer_at t A + 56) l8). fold B.
    assert (EM : memcpy (c_buffer (sync B m1 c3)) 56 l8 8 = Some (mload m2 B 64)).
    { change (c_buffer (sync B m1 c3)) with (mload m1 B 64). unfold memcpy. rewrite mload_length. change (List.length l8) with 8%nat. cbn [Nat.leb Nat.add andb].
      unfold m2. fold B. change (B + 56) with (B + N.of_nat 56). rewrite mload_mstore_in by (change (List.length l8) with 8%nat; lia).
      change (List.length l8) with 8%nat. reflexivity. }
    assert (K2 : kept m m2).
    { apply (kept_trans m m1 m2 K1). intros x Hx. unfold m2. apply mstore_outside. change (List.length l8) with 8%nat. fold B. clear HT HA. lia. }
    rewrite EM in E. cbn [obind] in E. rewrite sync_set in E. clearbody m2 l8. change (c_buffer (sync B m2 c3)) with (mload m2 B 64) in E.
    destruct (sha1_process cfg (sync B m2 c3) (mload m2 B 64)) as [c4|] eqn:E2; [|discriminate]. cbn [obind] in E.
    apply process_sync in E2. destruct E2 as (c5 & E2 & ->). rewrite m_process_ok by (try apply HT; exact B_aligned). rewrite E2. cbn [obind].
    change (c_ihv (sync B m2 c5)) with (c_ihv c5) in E. change (c_found (sync B m2 c5)) with (c_found c5) in E.
    exists m2, c5. apply some3 in E. destruct E as (<- & <- & <-). split; [reflexivity|]. split; [reflexivity|exact K2].
  Qed.
End Placed.

(** ** Programs *)
Section Run.
  Variables (t : abi) (cfg : ccfg) (A P : N).
  Hypothesis HT : abi_ok t.
  Hypothesis HA : A mod a32 t = 0.
  Hypothesis Hcfg : host_be cfg = macro_be cfg.
  Hypothesis HPA : apart A (ctx_size t) P 64.
  Let B := buffer_at t A.

  Lemma apart_buffer b k : apart A (ctx_size t) b k -> apart B 64 b k.
  Proof.
    unfold B. rewrite (B_eq t A HT). pose proof (proj2 (buffer_offset t HT)) as Hs. intros [H|H]; [left|right]; lia.
  Qed.

  Record Inv (m mu : cmem) (c : ctx) (a : chash) (L : N) : Prop := mkinv {
    i_cr : CR (sync B m c) a;
    i_len : ch_len a mod 64 = L mod 64;
    i_out : forall x, x < A \/ A + ctx_size t <= x -> m x = mu x;
    i_pad : mload m P 64 = sha1_padding }.

  Lemma i_total m mu c a L : Inv m mu c a L -> c_total c mod 64 = L mod 64.
  Proof.
    intros [K El _ _]. pose proof (k_total _ _ _ _ (proj1 K)) as T. change (c_total (sync B m c)) with (c_total c) in T.
    rewrite T, m64_mod64. exact El.
  Qed.
  Lemma i_load m mu b n : (forall x, x < A \/ A + ctx_size t <= x -> m x = mu x) -> apart A (ctx_size t) b (N.of_nat n) -> mload m b n = mload mu b n.
  Proof. intros H Hb. apply mload_ext. intros x Hx. apply H. destruct Hb; lia. Qed.
  Lemma kept_out m m' mu : kept t A m m' -> (forall x, x < A \/ A + ctx_size t <= x -> m x = mu x) ->
    forall x, x < A \/ A + ctx_size t <= x -> m' x = mu x.
  Proof.
    intros K H x Hx. rewrite K; [apply H; exact Hx|]. pose proof (proj2 (buffer_offset t HT)). pose proof (B_eq t A HT). lia.
  Qed.
  Lemma kept_pad m m' : kept t A m m' -> mload m P 64 = sha1_padding -> mload m' P 64 = sha1_padding.
  Proof. intros K <-. apply (kept_load t A HA m m' P 64 K). apply apart_buffer. exact HPA. Qed.

  (** The count after a call. *)
  Definition after (L : N) (o : mop) : N :=
    match o with MSet CInit => 0 | MSet _ => L | MUpdate _ n => L + N.of_nat n | MFinal _ => 56 end.
  Definition call_bad (L : N) (o : mop) : Prop :=
    match o with
    | MUpdate b n => match first_block L n with Some k => (b + k) mod a32 t <> 0 | None => False end
    | _ => False
    end.
  Lemma straddles_cons L o os : straddles (a32 t) L (o :: os) <-> call_bad L o \/ straddles (a32 t) (after L o) os.
  Proof. destruct o as [[| | | | | | | ]| |]; cbn [straddles call_bad after]; tauto. Qed.
  Lemma call_bad_dec L o : call_bad L o \/ ~ call_bad L o.
  Proof.
    destruct o as [o|b n|out]; cbn [call_bad]; try tauto. destruct (first_block L n) as [k|]; [|tauto].
    destruct (N.eq_dec ((b + k) mod a32 t) 0); tauto.
  Qed.

  Lemma step_ok m mu c a L o : Inv m mu c a L -> separate_call A (ctx_size t) P o -> unaligned cfg = false \/ ~ call_bad L o ->
    match u_exec cdec mu a o with (mu', a', r) =>
      exists m' c', m_exec t cfg A P m c o = Some (m', c', r) /\ Inv m' mu' c' a' (after L o) end.
  Proof.
    intros I Hs Hal. pose proof I as [K El Ho Hp]. destruct o as [o|b n|out]; cbn [u_exec m_exec separate_call after] in *.
    - assert (X : exists c' r, capi_exec cfg c o = Some (c', r) /\ capi_exec cfg (sync B m c) o = Some (sync B m c', r)).
      { destruct o; try contradiction; do 2 eexists; (split; [reflexivity|]); reflexivity. }
      destruct X as (c' & r & X1 & X2). destruct (exec_ok cfg Hcfg _ _ o K) as (c2 & X3 & K'). rewrite X2 in X3. injection X3 as <- _.
      rewrite X1. cbn [obind]. exists m, c'. split; [reflexivity|]. constructor; try assumption.
      destruct o; try contradiction; try exact El. reflexivity.
    - destruct (update_ok cfg Hcfg _ _ (mload m b n) K) as (c1 & E & K'). rewrite <- (i_load m mu b n Ho Hs).
      apply (m_Update_ok t cfg A HT HA) in E.
      + destruct E as (m' & c' & E & -> & K1). rewrite E. cbn [obind]. exists m', c'. split; [reflexivity|]. constructor.
        * exact K'.
        * unfold ch_write. cbn [ch_len]. rewrite mload_length. rewrite N.add_mod, El, <- N.add_mod by discriminate. reflexivity.
        * eapply kept_out; eassumption.
        * eapply kept_pad; eassumption.
      + destruct Hal as [Hal|Hal]; [left; exact Hal|right]. cbn [call_bad] in Hal. rewrite (first_block_mod _ _ n (i_total _ _ _ _ _ I)).
        destruct (first_block L n) as [k|]; [|exact Logic.I]. destruct (N.eq_dec ((b + k) mod a32 t) 0); tauto.
      + apply apart_buffer. exact Hs.
    - pose proof (final_ok cfg Hcfg _ _ K) as F. destruct (ch_final cdec a) as [a' [d f]] eqn:EF. destruct F as (c1 & E & K').
      assert (Ld : List.length d = 20%nat).
      { unfold ch_final in EF. injection EF as _ <- _. destruct (fst _). reflexivity. }
      apply (m_Final_ok t cfg A HT HA P m c out) in E; [|exact Hp|apply apart_buffer; exact HPA].
      destruct E as (m' & c' & E & -> & K1). rewrite E. cbn [obind]. eexists _, c'. split; [reflexivity|].
      destruct Hs as [Hs1 Hs2].
      assert (Hl : forall b k, apart b (N.of_nat k) out 20 -> mload (mstore m' out d) b k = mload m' b k).
      { intros b k Hb. apply mload_ext. intros x Hx. apply mstore_outside. rewrite Ld. change (N.of_nat 20) with 20. destruct Hb; lia. }
      constructor.
      + unfold sync. rewrite Hl; [exact K'|]. change (N.of_nat 64) with 64. apply apart_buffer. exact Hs1.
      + replace a' with (fst (ch_final cdec a)) by (rewrite EF; reflexivity). unfold ch_final. cbn [fst ch_len]. destruct (pad_split (ch_len a)) as (k & _ & Hk & _ & Epad & Em).
        rewrite Epad, app_length, firstn_length. change (List.length sha1_padding) with 64%nat. change (List.length (be64 _)) with 8%nat.
        replace (Nat.min k 64 + 8 - 8)%nat with k by lia. exact Em.
      + intros x Hx. unfold mstore. destruct (out <=? x); [|eapply kept_out; eassumption].
        destruct (nth_error d (N.to_nat (x - out))); [reflexivity|]. eapply kept_out; eassumption.
      + rewrite Hl by exact Hs2. eapply kept_pad; eassumption.
  Qed.

  Lemma run_ok : forall os m mu c a L, Inv m mu c a L -> Forall (separate_call A (ctx_size t) P) os ->
    unaligned cfg = false \/ ~ straddles (a32 t) L os ->
    match u_run cdec mu a os with (mu', rs) =>
      exists m' c', m_run t cfg A P m c os = Some (m', c', rs) /\ forall x, x < A \/ A + ctx_size t <= x -> m' x = mu' x end.
  Proof.
    induction os as [|o os IH]; intros m mu c a L I Hs Hal; cbn [u_run m_run].
    { exists m, c. split; [reflexivity|exact (i_out _ _ _ _ _ I)]. }
    inversion_clear Hs as [|? ? Hs1 Hs2]. rewrite straddles_cons in Hal.
    pose proof (step_ok m mu c a L o I Hs1 ltac:(tauto)) as X. destruct (u_exec cdec mu a o) as [[mu1 a1] r].
    destruct X as (m1 & c1 & E1 & I1). rewrite E1. cbn [obind].
    specialize (IH m1 mu1 c1 a1 (after L o) I1 Hs2 ltac:(tauto)). destruct (u_run cdec mu1 a1 os) as [mu2 rs].
    destruct IH as (m2 & c2 & E2 & H2). rewrite E2. cbn [obind]. exists m2, c2. split; [reflexivity|exact H2].
  Qed.
  Lemma run_bad : unaligned cfg = true -> forall os m mu c a L, Inv m mu c a L -> Forall (separate_call A (ctx_size t) P) os ->
    straddles (a32 t) L os -> m_run t cfg A P m c os = None.
  Proof.
    intros Hu. induction os as [|o os IH]; intros m mu c a L I Hs Hb; [contradiction|]. cbn [m_run].
    inversion_clear Hs as [|? ? Hs1 Hs2]. rewrite straddles_cons in Hb. destruct (call_bad_dec L o) as [D|D].
    - destruct o as [o|b n|out]; cbn [call_bad] in D; try contradiction. cbn [m_exec].
      destruct (first_block L n) as [k|] eqn:Ef; [|contradiction].
      rewrite (m_Update_bad t cfg A HT HA m c b n k Hu); [reflexivity| |exact D]. rewrite (first_block_mod _ _ n (i_total _ _ _ _ _ I)). exact Ef.
    - pose proof (step_ok m mu c a L o I Hs1 (or_intror D)) as X. destruct (u_exec cdec mu a o) as [[mu1 a1] r].
      destruct X as (m1 & c1 & E1 & I1). rewrite E1. cbn [obind].
      rewrite (IH m1 mu1 c1 a1 (after L o) I1 Hs2); [reflexivity|tauto].
  Qed.

  Lemma inv_init m c : ctx_typed c -> mload m P 64 = sha1_padding -> Inv m m (SHA1DCInit c) ch_init 0.
  Proof.
    intros (Hb & H1 & H2 & H3) Hp. constructor; [|reflexivity|reflexivity|exact Hp].
    apply (init_ok (sync B m c)). repeat split; assumption.
  Qed.
  Lemma memory_undefined m c os : ctx_typed c -> mload m P 64 = sha1_padding -> Forall (separate_call A (ctx_size t) P) os ->
    (m_run t cfg A P m c (MSet CInit :: os) = None <-> unaligned cfg = true /\ straddles (a32 t) 0 os).
  Proof.
    intros Tc Hp Hs. pose proof (inv_init m c Tc Hp) as I. cbn [m_run m_exec capi_exec obind].
    pose proof (run_ok os m m (SHA1DCInit c) ch_init 0 I Hs) as G. destruct (u_run cdec m ch_init os) as [mu rs].
    destruct (unaligned cfg) eqn:Eu.
    - split; [|intros [_ Hb]; rewrite (run_bad Eu os m m _ _ 0 I Hs Hb); reflexivity].
      intros E. split; [reflexivity|].
      assert (dec : forall l L, straddles (a32 t) L l \/ ~ straddles (a32 t) L l).
      { induction l as [|o l IH]; intros L; [right; exact (fun x => x)|]. rewrite straddles_cons.
        destruct (call_bad_dec L o), (IH (after L o)); tauto. }
      destruct (dec os 0) as [D|D]; [exact D|]. destruct (G (or_intror D)) as (m' & c' & E' & _). rewrite E' in E. discriminate.
    - split; [|intros [F _]; discriminate]. destruct (G (or_introl eq_refl)) as (m' & c' & -> & _). discriminate.
  Qed.
End Run.

Section AgreeU.
  Variables D E : copts -> st -> list word -> bool.
  Hypothesis HD : forall o, agree (D o) (E o).
  Lemma u_run_agree os : forall m a, wfst (fst (ch_mid a)) -> u_run D m a os = u_run E m a os.
  Proof.
    induction os as [|o os IH]; intros m a Ha; [reflexivity|]. cbn [u_run].
    assert (X : u_exec D m a o = u_exec E m a o /\ wfst (fst (ch_mid (snd (fst (u_exec E m a o)))))).
    { destruct o as [o|b n|out]; cbn [u_exec fst snd].
      - destruct (ch_exec_agree D E HD a o Ha) as [-> W]. auto.
      - destruct (ch_exec_agree D E HD a (CUpdate (mload m b n)) Ha) as [X W]. cbn [ch_exec fst] in W. split; [|exact W].
        unfold ch_write. rewrite (cc_blocks_agree D E HD) by (auto using blocks_len). reflexivity.
      - destruct (ch_exec_agree D E HD a CFinal Ha) as [X W]. cbn [ch_exec fst] in X, W. unfold ch_final in W |- *. cbn [fst snd ch_mid] in W |- *.
        rewrite (cc_blocks_agree D E HD) by (auto using blocks_len). split; [reflexivity|exact W]. }
    destruct X as [-> W]. destruct (u_exec E m a o) as [[m1 a1] r]. cbn [fst snd] in W. rewrite (IH m1 a1 W). reflexivity.
  Qed.
End AgreeU.

Lemma memory_right t cfg A P D m c os : abi_ok t -> A mod a32 t = 0 -> host_be cfg = macro_be cfg -> apart A (ctx_size t) P 64 ->
  cdecides D -> ctx_typed c -> mload m P 64 = sha1_padding -> Forall (separate_call A (ctx_size t) P) os ->
  unaligned cfg = false \/ ~ straddles (a32 t) 0 os ->
  match u_run D m ch_init os with (mu, rs) =>
    exists m' c', m_run t cfg A P m c (MSet CInit :: os) = Some (m', c', None :: rs) /\
      forall x, x < A \/ A + ctx_size t <= x -> m' x = mu x end.
Proof.
  intros HT HA Hcfg HPA HD Tc Hp Hs Hal. rewrite (u_run_agree D cdec (cdecides_agree D HD)) by apply wfst_IV.
  pose proof (run_ok t cfg A P HT HA Hcfg HPA os m m (SHA1DCInit c) ch_init 0 (inv_init t A P m c Tc Hp) Hs Hal) as G.
  destruct (u_run cdec m ch_init os) as [mu rs]. destruct G as (m' & c' & E & H). exists m', c'. split; [|exact H].
  cbn [m_run m_exec capi_exec obind]. rewrite E. reflexivity.
Qed.

(** A build for x86: one block at an address that is not a multiple of the alignment. *)
Lemma memory_x86 mac be t A P m c b x : abi_ok t -> A mod a32 t = 0 -> apart A (ctx_size t) P 64 -> ctx_typed c -> mload m P 64 = sha1_padding ->
  host_be (build mac be) = macro_be (build mac be) ->
  In x x86_macros -> mac x <> None -> mac "SHA1DC_FORCE_ALIGNED_ACCESS"%string = None -> apart A (ctx_size t) b 64 ->
  (m_run t (build mac be) A P m c [MSet CInit; MUpdate b 64] = None <-> b mod a32 t <> 0).
Proof.
  intros HT HA HPA Tc Hp Hc Hx Hm Hf Hb.
  rewrite (memory_undefined t (build mac be) A P HT HA Hc HPA m c [MUpdate b 64] Tc Hp) by (apply Forall_cons; [exact Hb|apply Forall_nil]).
  cbn [straddles]. change (first_block 0 64) with (Some 0). cbv beta iota. rewrite N.add_0_r.
  assert (U : unaligned (build mac be) = true) by (apply unaligned_iff; split; [exact Hf|right; exists x; auto]). tauto.
Qed.
