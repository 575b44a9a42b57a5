(** Effective types in the C code: proofs. *)

From Coq Require Import Arith ZArith NArith List Strings.Byte Lia Bool ZifyNat.
From Verif Require Import Word WordFacts Spec_Api Model_Go GoApi Gen_CSteps Model_C Spec_C Model_CApi CRace Model_CEff Spec_CEff.
Import ListNotations.
Local Open Scope N_scope.
Ltac Zify.zify_post_hook ::= idtac.

(** Sixty-four effective types; those of a declared buffer never change. *)
Definition tagged (x : ectx) : Prop :=
  length (e_tags x) = 64%nat /\ (e_declared x = true -> e_tags x = repeat EChar 64).
Definition words_ok (ts : list etype) : Prop := Forall (fun t => word_ok t = true) ts.

Lemma words_forallb ts : words_ok ts -> forallb word_ok ts = true.
Proof. intros H. apply forallb_forall. apply Forall_forall. exact H. Qed.
Lemma char_forallb ts : In EChar ts -> forallb word_ok ts = false.
Proof.
  intros H. destruct (forallb word_ok ts) eqn:E; [|reflexivity]. rewrite forallb_forall in E. apply E in H. discriminate.
Qed.
Lemma words_firstn n ts : words_ok ts -> words_ok (firstn n ts).
Proof. intros H. revert n. induction H as [|t ts Ht H IH]; intros [|n]; cbn; constructor; auto. apply IH. Qed.
Lemma words_skipn n ts : words_ok ts -> words_ok (skipn n ts).
Proof. intros H. revert n. induction H as [|t ts Ht H IH]; intros [|n]; cbn; [constructor|constructor|constructor; auto|apply IH]. Qed.
Lemma words_copy x at_ n ts : e_declared x = false -> words_ok (e_tags x) -> words_ok ts -> words_ok (e_copy x at_ n ts).
Proof.
  intros D H1 H2. unfold e_copy. rewrite D. unfold words_ok. rewrite !Forall_app. split; [apply words_firstn; exact H1|].
  split; [apply words_firstn; exact H2|apply words_skipn; exact H1].
Qed.
Lemma copy_length x at_ n ts : length (e_tags x) = 64%nat -> (at_ + n <= 64)%nat -> (n <= length ts)%nat -> length (e_copy x at_ n ts) = 64%nat.
Proof. intros L H1 H2. unfold e_copy. destruct (e_declared x); [exact L|]. rewrite !app_length, !firstn_length, skipn_length. lia. Qed.
Lemma copy_tagged x c at_ n ts : tagged x -> (at_ + n <= 64)%nat -> (n <= length ts)%nat -> tagged (mke c (e_declared x) (e_copy x at_ n ts)).
Proof.
  intros [L D] H1 H2. split; cbn [e_tags e_declared]; [apply copy_length; assumption|]. intros E. unfold e_copy. rewrite E. auto.
Qed.

(** ** What is defined is what Model_C computes *)
Lemma process_sound cfg c b ts c' : e_process cfg c b ts = Some c' -> sha1_process cfg c b = Some c'.
Proof. unfold e_process. destruct (forallb _ _); [auto|discriminate]. Qed.
Lemma loop_sound cfg : forall fuel x buf ts x' r tr, e_update_loop fuel cfg x buf ts = Some (x', r, tr) ->
  update_loop fuel cfg (e_ctx x) buf = Some (e_ctx x', r).
Proof.
  induction fuel as [|fuel IH]; intros x buf ts x' r tr E; cbn [e_update_loop update_loop] in *.
  - destruct (length buf <? 64)%nat; [|discriminate]. apply some1 in E. injection E as -> -> ->. reflexivity.
  - destruct (length buf <? 64)%nat; [apply some1 in E; injection E as -> -> ->; reflexivity|]. cbv zeta in *.
    set (c := set_total _ (e_ctx x)) in *. clearbody c.
    destruct (unaligned cfg).
    + destruct (e_process cfg c (firstn 64 buf) (firstn 64 ts)) as [c1|] eqn:E1; [|discriminate]. cbn [obind] in E.
      rewrite (process_sound _ _ _ _ _ E1). cbn [obind]. apply IH in E. exact E.
    + destruct (memcpy (c_buffer c) 0 buf 64) as [b|]; [|discriminate]. cbn [obind] in *.
      destruct (e_process cfg (set_buffer b c) _ _) as [c1|] eqn:E1; [|discriminate]. cbn [obind] in E.
      rewrite (process_sound _ _ _ _ _ E1). cbn [obind]. apply IH in E. exact E.
Qed.
Lemma update_sound cfg x buf ts x' : e_Update cfg x buf ts = Some x' -> SHA1DCUpdate cfg (e_ctx x) buf = Some (e_ctx x').
Proof.
  unfold e_Update, SHA1DCUpdate. destruct (length buf =? 0)%nat; [intros E; apply some1 in E; subst; reflexivity|]. cbv zeta.
  set (lft := N.to_nat (N.land (c_total (e_ctx x)) 63)). clearbody lft. intros E.
  match type of E with obind ?a _ = _ => destruct a as [[[[x1 b1] t1] l1]|] eqn:E1; [|discriminate] end. cbn [obind] in E.
  match goal with |- obind ?a _ = _ => assert (X : a = Some (e_ctx x1, b1, l1)) end.
  { destruct (_ && _)%nat; [|apply some1 in E1; injection E1 as -> -> -> ->; reflexivity].
    set (c := set_total _ (e_ctx x)) in *. clearbody c.
    destruct (memcpy (c_buffer c) lft buf (64 - lft)) as [b|]; [|discriminate]. cbn [obind] in *.
    destruct (e_process cfg (set_buffer b c) _ _) as [c1|] eqn:E2; [|discriminate]. cbn [obind] in E1.
    rewrite (process_sound _ _ _ _ _ E2). cbn [obind]. apply some1 in E1. injection E1 as <- <- <- <-. reflexivity. }
  rewrite X. cbn [obind]. destruct (e_update_loop (length b1) cfg x1 b1 t1) as [[[x2 b2] t2]|] eqn:E2; [|discriminate]. cbn [obind] in E.
  rewrite (loop_sound _ _ _ _ _ _ _ _ E2). cbn [obind]. destruct (0 <? length b2)%nat; [|apply some1 in E; subst; reflexivity].
  destruct (memcpy _ l1 b2 (length b2)) as [b|]; [|discriminate]. cbn [obind] in *. apply some1 in E. subst x'. reflexivity.
Qed.

(** ** Writes of memory that has no declared type *)
Definition eok (x : ectx) : Prop := fit (e_ctx x) /\ e_declared x = false /\ words_ok (e_tags x).
Lemma process_words cfg c b ts : words_ok ts -> fit c -> exists c', e_process cfg c b ts = Some c' /\ fit c'.
Proof. intros W F. unfold e_process. rewrite (words_forallb ts W). apply process_fit. exact F. Qed.
Lemma loop_words cfg : forall fuel x buf ts, eok x -> words_ok ts -> (length buf <= fuel)%nat ->
  exists x' r tr, e_update_loop fuel cfg x buf ts = Some (x', r, tr) /\ eok x' /\ words_ok tr /\
    (length r < 64)%nat /\ ((length buf < 64)%nat -> r = buf).
Proof.
  induction fuel as [|fuel IH]; intros x buf ts Hx Ht H; cbn [e_update_loop].
  - destruct (Nat.ltb_spec (length buf) 64); [exists x, buf, ts; auto|lia].
  - destruct (Nat.ltb_spec (length buf) 64); [exists x, buf, ts; auto|]. cbv zeta. destruct Hx as (F & D & W).
    set (c := set_total _ (e_ctx x)). assert (F1 : fit c) by exact F. clearbody c. destruct F1 as [S1 B1].
    match goal with |- context[obind ?a _] => assert (X : exists y, a = Some y /\ eok y) end.
    { destruct (unaligned cfg).
      - destruct (process_words cfg c (firstn 64 buf) (firstn 64 ts) (words_firstn 64 ts Ht) (conj S1 B1)) as (c1 & -> & F1).
        cbn [obind]. eexists. split; [reflexivity|]. split; [exact F1|]. split; [exact D|exact W].
      - destruct (memcpy_some (c_buffer c) 0 buf 64) as [-> Lb]; [lia|lia|]. cbn [obind].
        match goal with |- context[e_process cfg ?c1 ?b1 ?t1] => destruct (process_words cfg c1 b1 t1) as (c2 & -> & F2) end.
        { apply words_copy; assumption. }
        { split; [exact S1|]. cbn [c_buffer set_buffer]. lia. }
        cbn [obind]. eexists. split; [reflexivity|]. split; [exact F2|]. split; [exact D|]. apply words_copy; assumption. }
    destruct X as (y & -> & Hy). cbn [obind].
    destruct (IH y (skipn 64 buf) (skipn 64 ts) Hy (words_skipn 64 ts Ht)) as (x' & r & tr & E & H1 & H2 & H3 & _); [rewrite skipn_length; lia|].
    exists x', r, tr. split; [exact E|]. split; [exact H1|]. split; [exact H2|]. split; [exact H3|]. intros; lia.
Qed.
Lemma update_words cfg x buf ts : eok x -> words_ok ts -> exists x', e_Update cfg x buf ts = Some x' /\ eok x'.
Proof.
  intros Hx Ht. unfold e_Update. destruct (Nat.eqb_spec (length buf) 0); [eauto|]. cbv zeta.
  pose proof (left_lt (c_total (e_ctx x))) as Hl. revert Hl. generalize (N.to_nat (N.land (c_total (e_ctx x)) 63)). intros lft Hl.
  match goal with |- context[obind ?a _] => assert (X : exists y b t lf, a = Some (y, b, t, lf) /\ eok y /\ words_ok t /\ (lf = 0 \/ length b < 64 - lf)%nat /\ (lf < 64)%nat) end.
  { destruct (Nat.eqb_spec lft 0) as [->|Hne]; cbn [negb andb].
    { exists x, buf, ts, 0%nat. split; [reflexivity|]. split; [exact Hx|]. split; [exact Ht|]. split; [left; reflexivity|lia]. }
    destruct (Nat.leb_spec (64 - lft) (length buf)).
    2:{ exists x, buf, ts, lft. split; [reflexivity|]. split; [exact Hx|]. split; [exact Ht|]. split; [right; lia|lia]. }
    destruct Hx as (F & D & W). set (c := set_total _ (e_ctx x)). assert (F1 : fit c) by exact F. clearbody c. destruct F1 as [S1 B1].
    destruct (memcpy_some (c_buffer c) lft buf (64 - lft)) as [-> Lb]; [lia|lia|]. cbn [obind].
    match goal with |- context[e_process cfg ?c1 ?b1 ?t1] => destruct (process_words cfg c1 b1 t1) as (c2 & -> & F2) end.
    { apply words_copy; assumption. }
    { split; [exact S1|]. cbn [c_buffer set_buffer]. lia. }
    cbn [obind]. eexists _, _, _, _. split; [reflexivity|]. split; [split; [exact F2|split; [exact D|apply words_copy; assumption]]|].
    split; [apply words_skipn; exact Ht|]. split; [left; reflexivity|lia]. }
  destruct X as (y & b & t & lf & -> & Hy & Hw & H1 & H2). cbn [obind].
  destruct (loop_words cfg (length b) y b t Hy Hw (le_n _)) as (x2 & r & tr & -> & Hx2 & Htr & R1 & R2). cbn [obind].
  destruct (Nat.ltb_spec 0 (length r)); [|eauto]. destruct Hx2 as (F & D & W).
  set (c3 := set_total _ (e_ctx x2)). assert (F3 : fit c3) by exact F. clearbody c3. destruct F3 as [S3 B3].
  destruct (memcpy_some (c_buffer c3) lf r (length r)) as [-> Lb].
  { rewrite B3. destruct H1 as [->|H1]; [lia|]. rewrite R2 by lia. lia. }
  { lia. }
  cbn [obind]. eexists. split; [reflexivity|]. split; [split; [exact S3|cbn [e_ctx c_buffer set_buffer]; lia]|]. split; [exact D|]. apply words_copy; assumption.
Qed.
Lemma run_words cfg : forall ws x, eok x -> (forall p ts, In (p, ts) ws -> words_ok ts) -> exists x', e_run cfg x ws = Some x' /\ eok x'.
Proof.
  induction ws as [|[p ts] ws IH]; intros x Hx Hw; cbn [e_run]; [eauto|].
  destruct (update_words cfg x p ts Hx (Hw p ts (or_introl eq_refl))) as (x1 & -> & H1). cbn [obind].
  apply IH; [exact H1|]. intros q tq Hq. apply (Hw q tq). right. exact Hq.
Qed.

(** ** Characters in the buffer *)
Lemma copy_char x at_ n ts : tagged x -> (at_ < 64)%nat -> (0 < n)%nat -> nth_error ts 0 = Some EChar -> (at_ + n <= 64)%nat -> In EChar (e_copy x at_ n ts).
Proof.
  intros [L D] Ha Hn Ht Hs. unfold e_copy. destruct (e_declared x); [rewrite D by reflexivity; left; reflexivity|].
  destruct ts as [|t ts]; [discriminate|]. injection Ht as ->. destruct n; [lia|]. cbn [firstn].
  apply in_or_app. right. apply in_or_app. left. left. reflexivity.
Qed.
Lemma process_char cfg c b ts : In EChar ts -> e_process cfg c b ts = None.
Proof. intros H. unfold e_process. rewrite (char_forallb ts H). reflexivity. Qed.

(** SHA1DCFinal always loads a byte of the padding as part of a word. *)
Lemma final_undefined cfg x : tagged x -> length (c_buffer (e_ctx x)) = 64%nat -> e_Final cfg x = None.
Proof.
  intros T B. unfold e_Final, e_Final_with. cbv zeta. set (last := N.land (c_total (e_ctx x)) 63).
  assert (Hl : (N.to_nat last < 64)%nat) by apply left_lt.
  set (padn := if last <? 56 then 56 - last else 120 - last).
  assert (Hp : (0 < N.to_nat padn <= 64)%nat) by (unfold padn; destruct (N.ltb_spec last 56); lia).
  rewrite slice_to_ok by (change (length sha1_padding) with 64%nat; lia). cbn [obind].
  assert (Lp : length (firstn (N.to_nat padn) sha1_padding) = N.to_nat padn) by (rewrite firstn_length; change (length sha1_padding) with 64%nat; lia).
  set (p := firstn (N.to_nat padn) sha1_padding) in *. clearbody p.
  unfold e_Update. fold last. rewrite Lp. rewrite (proj2 (Nat.eqb_neq _ _)) by lia. cbv zeta.
  set (ts := repeat EChar (N.to_nat padn)).
  assert (Ht : nth_error ts 0 = Some EChar) by (unfold ts; destruct (N.to_nat padn); [lia|reflexivity]).
  assert (Lt : length ts = N.to_nat padn) by apply repeat_length. clearbody ts.
  destruct (N.ltb_spec last 56) as [H56|H56].
  - (* the padding does not fill the block *)
    assert (Hn : (64 - N.to_nat last <=? N.to_nat padn)%nat = false) by (apply Nat.leb_gt; unfold padn; lia).
    rewrite Hn, andb_false_r. cbn [obind]. rewrite Lp.
    destruct (N.to_nat padn) as [|k] eqn:Ek; [lia|]. cbn [e_update_loop]. rewrite Lp.
    assert (Hk : (S k <? 64)%nat = true) by (apply Nat.ltb_lt; lia). rewrite Hk. cbn [obind]. rewrite Lp.
    change (0 <? S k)%nat with true. cbv iota.
    destruct (memcpy_some (c_buffer (e_ctx x)) (N.to_nat last) p (S k)) as [Em Lb]; [lia|lia|].
    cbn [set_total c_buffer]. rewrite Em. cbn [obind].
    match goal with |- context[memcpy ?b 56 ?s 8] => destruct (memcpy b 56 s 8) as [b2|]; [|reflexivity] end. cbn [obind].
    match goal with |- context[e_process cfg ?c ?b ?t] => rewrite (process_char cfg c b t); [reflexivity|] end.
    unfold e_store. set (y := mke _ _ _).
    assert (Ty : tagged y) by (apply copy_tagged; [exact T|lia|lia]).
    assert (Iy : In EChar (firstn 56 (e_tags y))).
    { unfold y. cbn [e_tags]. unfold e_copy. destruct T as [TL TD]. destruct (e_declared x).
      - rewrite TD by reflexivity. left. reflexivity.
      - destruct ts as [|t ts]; [discriminate|]. injection Ht as ->.
        assert (L1 : length (firstn (N.to_nat last) (e_tags x)) = N.to_nat last) by (rewrite firstn_length; lia).
        rewrite firstn_app, L1. apply in_or_app. right.
        destruct (56 - N.to_nat last)%nat as [|q] eqn:Eq; [lia|]. left. reflexivity. }
    unfold e_copy. destruct (e_declared y) eqn:Dy; [destruct Ty as [_ Ty]; rewrite (Ty Dy); left; reflexivity|].
    apply in_or_app. left. exact Iy.
  - (* the padding fills the block *)
    assert (Hn : (64 - N.to_nat last <=? N.to_nat padn)%nat = true) by (apply Nat.leb_le; unfold padn; lia).
    rewrite Hn, andb_true_r. replace (N.to_nat last =? 0)%nat with false by (symmetry; apply Nat.eqb_neq; lia). cbn [negb].
    destruct (memcpy_some (c_buffer (e_ctx x)) (N.to_nat last) p (64 - N.to_nat last)) as [Em Lb]; [lia|apply Nat.leb_le in Hn; lia|].
    cbn [set_total c_buffer]. rewrite Em. cbn [obind].
    rewrite process_char; [reflexivity|]. apply copy_char; [exact T|lia|lia|exact Ht|lia].
Qed.

(** Updates with characters: defined exactly as long as no block is complete. *)
Lemma update_chars cfg x buf : tagged x -> fit (e_ctx x) ->
  let left := N.to_nat (c_total (e_ctx x) mod 64) in
  ((left + length buf < 64)%nat -> exists x', e_Update cfg x buf (repeat EChar (length buf)) = Some x') /\
  ((64 <= left + length buf)%nat -> buf <> [] -> e_Update cfg x buf (repeat EChar (length buf)) = None).
Proof.
  intros T F left. unfold e_Update.
  assert (El : N.to_nat (N.land (c_total (e_ctx x)) 63) = left) by (unfold left; change 63 with (N.ones 6); rewrite N.land_ones; reflexivity).
  pose proof (left_lt (c_total (e_ctx x))) as Hl. rewrite El in *. clearbody left. destruct F as [SZ B]. cbv zeta. split; intros H.
  - destruct (Nat.eqb_spec (length buf) 0); [eauto|].
    replace (64 - left <=? length buf)%nat with false by (symmetry; apply Nat.leb_gt; lia). rewrite andb_false_r. cbn [obind].
    destruct (length buf) as [|k] eqn:Ek; [lia|]. cbn [e_update_loop]. rewrite Ek.
    replace (S k <? 64)%nat with true by (symmetry; apply Nat.ltb_lt; lia). cbn [obind]. rewrite Ek. change (0 <? S k)%nat with true. cbv iota.
    destruct (memcpy_some (c_buffer (e_ctx x)) left buf (S k)) as [Em _]; [lia|lia|]. cbn [set_total c_buffer]. rewrite Em. cbn [obind]. eauto.
  - intros Hb. destruct (Nat.eqb_spec (length buf) 0) as [E|E]; [apply length_zero_iff_nil in E; contradiction|].
    assert (Ht : nth_error (repeat EChar (length buf)) 0 = Some EChar) by (destruct (length buf); [lia|reflexivity]).
    destruct (Nat.eqb_spec left 0) as [->|Hne]; cbn [negb andb].
    + cbn [obind]. destruct (length buf) as [|k] eqn:Ek; [lia|]. cbn [e_update_loop]. rewrite Ek.
      replace (S k <? 64)%nat with false by (symmetry; apply Nat.ltb_ge; lia). cbv zeta.
      destruct (unaligned cfg).
      * rewrite process_char; [reflexivity|]. cbn [repeat firstn]. left. reflexivity.
      * destruct (memcpy_some (c_buffer (e_ctx x)) 0 buf 64) as [Em _]; [lia|lia|]. cbn [set_total c_buffer]. rewrite Em. cbn [obind].
        rewrite process_char; [reflexivity|]. apply copy_char; [exact T|lia|lia|exact Ht|lia].
    + replace (64 - left <=? length buf)%nat with true by (symmetry; apply Nat.leb_le; lia).
      destruct (memcpy_some (c_buffer (e_ctx x)) left buf (64 - left)) as [Em _]; [lia|lia|]. cbn [set_total c_buffer]. rewrite Em. cbn [obind].
      rewrite process_char; [reflexivity|]. apply copy_char; [exact T|lia|lia|exact Ht|lia].
Qed.

(** ** Histories *)
Lemma add64_mod a b : (add64 a b) mod 64 = (a + b) mod 64.
Proof.
  unfold add64. replace M64 with (64 * 288230376151711744) by reflexivity.
  rewrite N.mod_mul_r by discriminate. rewrite N.add_mod by discriminate.
  rewrite (N.mul_comm 64), N.mod_mul by discriminate. rewrite N.add_0_r, !N.mod_mod by discriminate. reflexivity.
Qed.
Lemma mod_step a b c : a mod 64 = b mod 64 -> (a + c) mod 64 = (b + c) mod 64.
Proof. intros H. rewrite (N.add_mod a), (N.add_mod b), H by discriminate. reflexivity. Qed.
Lemma loop_total cfg : forall fuel c buf c' r, update_loop fuel cfg c buf = Some (c', r) ->
  (c_total c' + N.of_nat (length r)) mod 64 = (c_total c + N.of_nat (length buf)) mod 64.
Proof.
  induction fuel as [|fuel IH]; intros c buf c' r E; cbn [update_loop] in E.
  - destruct (length buf <? 64)%nat; [|discriminate]. apply some1 in E. injection E as -> ->. reflexivity.
  - destruct (Nat.ltb_spec (length buf) 64) as [H|H]; [apply some1 in E; injection E as -> ->; reflexivity|]. cbv zeta in E.
    match type of E with obind ?a _ = _ => destruct a as [c1|] eqn:E1; [|discriminate] end. cbn [obind] in E. apply IH in E. rewrite E.
    assert (T : c_total c1 = add64 (c_total c) 64).
    { destruct (unaligned cfg).
      - exact (fr_total _ _ (process_frame _ _ _ _ E1)).
      - destruct (memcpy _ _ _ _) as [b|]; [|discriminate]. cbn [obind] in E1. exact (fr_total _ _ (process_frame _ _ _ _ E1)). }
    rewrite T, (mod_step _ _ _ (add64_mod _ _)), skipn_length. f_equal. lia.
Qed.
Lemma update_total cfg c p c' : SHA1DCUpdate cfg c p = Some c' -> c_total c' mod 64 = (c_total c + N.of_nat (length p)) mod 64.
Proof.
  unfold SHA1DCUpdate. destruct (Nat.eqb_spec (length p) 0) as [H|H].
  { intros E. apply some1 in E. subst. rewrite H, N.add_0_r. reflexivity. }
  cbv zeta. intros E.
  set (lft := N.to_nat (N.land (c_total c) 63)) in *. clearbody lft.
  match type of E with obind ?a _ = _ => destruct a as [[[c1 b1] l1]|] eqn:E1; [|discriminate] end. cbn [obind] in E.
  assert (T : (c_total c1 + N.of_nat (length b1)) mod 64 = (c_total c + N.of_nat (length p)) mod 64).
  { destruct (Nat.leb_spec (64 - lft) (length p)) as [Hf|Hf].
    2:{ rewrite andb_false_r in E1. apply some1 in E1. injection E1 as -> -> ->. reflexivity. }
    destruct (negb _); [|apply some1 in E1; injection E1 as -> -> ->; reflexivity]. cbn [andb] in E1.
    revert Hf E1. generalize (64 - lft)%nat. intros fill Hf E1.
    destruct (memcpy _ _ _ _) as [b|]; [|discriminate]. cbn [obind] in E1.
    match type of E1 with obind ?a _ = _ => destruct a as [c2|] eqn:E2; [|discriminate] end. cbn [obind] in E1.
    apply some1 in E1. injection E1 as <- <- <-. rewrite (fr_total _ _ (process_frame _ _ _ _ E2)). cbn [c_total set_buffer set_total].
    rewrite (mod_step _ _ _ (add64_mod _ _)), skipn_length. f_equal. lia. }
  rewrite <- T. clear T E1. destruct (update_loop _ cfg c1 b1) as [[c2 b2]|] eqn:E2; [|discriminate]. cbn [obind] in E.
  rewrite <- (loop_total _ _ _ _ _ _ E2). destruct (Nat.ltb_spec 0 (length b2)) as [Hb|Hb].
  - destruct (memcpy _ _ _ _) as [b|]; [|discriminate]. cbn [obind] in E. apply some1 in E. subst c'. apply add64_mod.
  - apply some1 in E. subst c'. replace (length b2) with 0%nat by lia. rewrite N.add_0_r. reflexivity.
Qed.

(** The effective types keep their number. *)
Lemma loop_tagged cfg : forall fuel x buf ts x' r tr, tagged x -> length ts = length buf -> e_update_loop fuel cfg x buf ts = Some (x', r, tr) ->
  tagged x' /\ length tr = length r /\ (length r < 64)%nat /\ ((length buf < 64)%nat -> r = buf) /\ e_declared x' = e_declared x.
Proof.
  induction fuel as [|fuel IH]; intros x buf ts x' r tr T L E; cbn [e_update_loop] in E.
  - destruct (Nat.ltb_spec (length buf) 64); [|discriminate]. apply some1 in E. injection E as -> -> ->. auto.
  - destruct (Nat.ltb_spec (length buf) 64); [apply some1 in E; injection E as -> -> ->; auto|]. cbv zeta in E.
    match type of E with obind ?a _ = _ => destruct a as [x1|] eqn:E1; [|discriminate] end. cbn [obind] in E.
    assert (X : tagged x1 /\ e_declared x1 = e_declared x).
    { destruct (unaligned cfg).
      - destruct (e_process _ _ _ _) as [c1|]; [|discriminate]. apply some1 in E1. subst x1. split; [exact T|reflexivity].
      - destruct (memcpy _ _ _ _) as [b|]; [|discriminate]. cbn [obind] in E1.
        destruct (e_process _ _ _ _) as [c1|]; [|discriminate]. apply some1 in E1. subst x1. split; [|reflexivity]. apply copy_tagged; [exact T|lia|lia]. }
    destruct X as [T1 D1]. apply IH in E; [|exact T1|rewrite !skipn_length; lia]. destruct E as (H1 & H2 & H3 & H4 & H5).
    split; [exact H1|]. split; [exact H2|]. split; [exact H3|]. split; [intros; lia|congruence].
Qed.
Lemma update_tagged cfg x buf ts x' : tagged x -> length ts = length buf -> e_Update cfg x buf ts = Some x' -> tagged x' /\ e_declared x' = e_declared x.
Proof.
  intros T L. unfold e_Update. destruct (length buf =? 0)%nat; [intros E; apply some1 in E; subst; auto|]. cbv zeta.
  pose proof (left_lt (c_total (e_ctx x))) as Hl. revert Hl. generalize (N.to_nat (N.land (c_total (e_ctx x)) 63)). intros lft Hl E.
  match type of E with obind ?a _ = _ => destruct a as [[[[x1 b1] t1] l1]|] eqn:E1; [|discriminate] end. cbn [obind] in E.
  assert (X : tagged x1 /\ e_declared x1 = e_declared x /\ length t1 = length b1 /\ (l1 = 0 \/ l1 + length b1 < 64)%nat).
  { destruct (Nat.eqb_spec lft 0) as [->|Hne]; cbn [negb andb] in E1; [apply some1 in E1; injection E1 as -> -> -> <-; auto|].
    destruct (Nat.leb_spec (64 - lft) (length buf)).
    2:{ apply some1 in E1. injection E1 as -> -> -> ->. split; [exact T|]. split; [reflexivity|]. split; [exact L|]. right. lia. }
    assert (Hfl : (lft + (64 - lft) <= 64)%nat) by lia. revert H Hfl E1. generalize (64 - lft)%nat. intros fill H Hfl E1.
    destruct (memcpy _ _ _ _) as [b|]; [|discriminate]. cbn [obind] in E1. destruct (e_process _ _ _ _) as [c1|]; [|discriminate].
    apply some1 in E1. injection E1 as <- <- <- <-. split; [apply copy_tagged; [exact T|lia|lia]|]. split; [reflexivity|]. split; [rewrite !skipn_length; lia|auto]. }
  clear E1. destruct X as (T1 & D1 & L1 & C1). destruct (e_update_loop _ cfg x1 b1 t1) as [[[x2 b2] t2]|] eqn:E2; [|discriminate]. cbn [obind] in E.
  apply loop_tagged in E2; [|exact T1|exact L1]. destruct E2 as (T2 & L2 & H2 & C2 & D2).
  destruct (Nat.ltb_spec 0 (length b2)); [|apply some1 in E; subst; split; [exact T2|congruence]].
  destruct (memcpy _ _ _ _) as [b|]; [|discriminate]. cbn [obind] in E. apply some1 in E. subst x'.
  split; [|exact (eq_trans D2 D1)]. apply copy_tagged; [exact T2| |lia]. destruct C1 as [->|C1]; [lia|]. rewrite C2 by lia. lia.
Qed.

Lemma fresh_ok declared c : ctx_memory c -> tagged (fresh declared c) /\ fit (e_ctx (fresh declared c)) /\ c_total (e_ctx (fresh declared c)) = 0.
Proof.
  intros (B & M1 & M2 & S). split; [|split; [|reflexivity]].
  - split; [apply repeat_length|]. unfold fresh, e_new. cbn [e_declared e_tags]. intros ->. reflexivity.
  - split; [split; [exact M1|split; [exact M2|exact S]]|exact B].
Qed.
Lemma e_update_fit cfg x p ts x' : fit (e_ctx x) -> e_Update cfg x p ts = Some x' -> fit (e_ctx x').
Proof.
  intros F E. apply update_sound in E. destruct (update_fit cfg (e_ctx x) p F) as (c & Ec & Fc). rewrite E in Ec. apply some1 in Ec. subst c. exact Fc.
Qed.
Lemma run_reach cfg : forall ws x x', tagged x -> fit (e_ctx x) -> Forall typed ws -> e_run cfg x ws = Some x' ->
  tagged x' /\ fit (e_ctx x') /\ c_total (e_ctx x') mod 64 = (c_total (e_ctx x) + N.of_nat (length (concat (map fst ws)))) mod 64.
Proof.
  induction ws as [|[p ts] ws IH]; intros x x' T F W E; cbn [e_run] in E.
  - apply some1 in E. subst. cbn. rewrite N.add_0_r. auto.
  - inversion W as [|? ? W1 W2]; subst. destruct (e_Update cfg x p ts) as [x1|] eqn:E1; [|discriminate]. cbn [obind] in E.
    destruct (update_tagged _ _ _ _ _ T W1 E1) as [T1 _]. pose proof (e_update_fit _ _ _ _ _ F E1) as F1.
    destruct (IH _ _ T1 F1 W2 E) as (T2 & F2 & Q). split; [exact T2|]. split; [exact F2|]. rewrite Q.
    rewrite (mod_step _ _ _ (update_total _ _ _ _ (update_sound _ _ _ _ _ E1))). cbn [map fst concat]. rewrite app_length. f_equal. lia.
Qed.
Lemma run_sound cfg : forall ws x x', e_run cfg x ws = Some x' -> updates cfg (e_ctx x) (map fst ws) = Some (e_ctx x').
Proof.
  unfold updates. induction ws as [|[p ts] ws IH]; intros x x' E; cbn [e_run map fst fold_left] in *; [apply some1 in E; subst; reflexivity|].
  destruct (e_Update cfg x p ts) as [x1|] eqn:E1; [|discriminate]. cbn [obind] in E. rewrite (update_sound _ _ _ _ _ E1). apply IH. exact E.
Qed.

Lemma no_chars_ok ts : ~ In EChar ts -> words_ok ts.
Proof. intros H. apply Forall_forall. intros [] Hi; try reflexivity. contradiction. Qed.
Lemma eff_go cfg c ws : ctx_memory c -> Forall no_chars ws ->
  exists x, e_run cfg (fresh false c) ws = Some x /\ updates cfg (SHA1DCInit c) (map fst ws) = Some (e_ctx x).
Proof.
  intros M W. destruct (fresh_ok false c M) as (_ & F & _). destruct (run_words cfg ws (fresh false c)) as (x & E & _).
  - split; [exact F|]. split; [reflexivity|]. apply Forall_forall. intros t Ht. unfold fresh, e_new in Ht. cbn [e_tags] in Ht. apply repeat_spec in Ht. subst. reflexivity.
  - intros p ts Hi. rewrite Forall_forall in W. apply no_chars_ok. exact (proj2 (W _ Hi)).
  - exists x. split; [exact E|]. exact (run_sound _ _ _ _ E).
Qed.
Lemma eff_sound cfg declared c ws x : e_run cfg (fresh declared c) ws = Some x -> updates cfg (SHA1DCInit c) (map fst ws) = Some (e_ctx x).
Proof. intros E. exact (run_sound _ _ _ _ E). Qed.
Lemma e_run_snoc cfg : forall ws x p ts, e_run cfg x (ws ++ [(p, ts)]) = do y <- e_run cfg x ws; e_Update cfg y p ts.
Proof.
  induction ws as [|[q tq] ws IH]; intros x p ts; cbn [e_run app obind]; [destruct (e_Update cfg x p ts); reflexivity|].
  destruct (e_Update cfg x q tq) as [y|]; [apply IH|reflexivity].
Qed.
Lemma eff_chars cfg declared c ws p : ctx_memory c -> Forall typed ws -> e_run cfg (fresh declared c) ws <> None -> p <> [] ->
  (e_run cfg (fresh declared c) (ws ++ [chars p]) <> None <-> (waiting ws + length p < 64)%nat).
Proof.
  intros M W R P. destruct (fresh_ok declared c M) as (T & F & Z). destruct (e_run cfg (fresh declared c) ws) as [x|] eqn:E; [|contradiction].
  destruct (run_reach _ _ _ _ T F W E) as (Tx & Fx & Q). unfold chars. rewrite e_run_snoc, E. cbn [obind].
  destruct (update_chars cfg x p Tx Fx) as [U1 U2]. rewrite Q, Z, N.add_0_l in U1, U2.
  assert (Ew : N.to_nat (N.of_nat (length (concat (map fst ws))) mod 64) = waiting ws).
  { unfold waiting. change 64 with (N.of_nat 64). rewrite <- Nat2N.inj_mod. apply Nat2N.id. }
  rewrite Ew in U1, U2. split; intros H.
  - destruct (Nat.lt_ge_cases (waiting ws + length p) 64) as [|Hg]; [assumption|]. rewrite (U2 Hg P) in H. contradiction.
  - destruct (U1 H) as [x' ->]. discriminate.
Qed.
(** A declared buffer and an input without characters: blocks may be loaded from the input, but not from the buffer. *)
Lemma loop_direct cfg : unaligned cfg = true -> forall fuel x buf ts, fit (e_ctx x) -> words_ok ts -> (length buf <= fuel)%nat ->
  exists x' r tr, e_update_loop fuel cfg x buf ts = Some (x', r, tr) /\ fit (e_ctx x') /\ (length r < 64)%nat.
Proof.
  intros U. induction fuel as [|fuel IH]; intros x buf ts F W H; cbn [e_update_loop].
  - destruct (Nat.ltb_spec (length buf) 64); [exists x, buf, ts; auto|lia].
  - destruct (Nat.ltb_spec (length buf) 64); [exists x, buf, ts; auto|]. cbv zeta. rewrite U.
    destruct (process_words cfg (set_total (add64 (c_total (e_ctx x)) 64) (e_ctx x)) (firstn 64 buf) (firstn 64 ts)) as (c1 & -> & F1); [apply words_firstn; exact W|exact F|].
    cbn [obind]. apply IH; [exact F1|apply words_skipn; exact W|rewrite skipn_length; lia].
Qed.
Lemma update_declared cfg x buf ts : tagged x -> e_declared x = true -> fit (e_ctx x) -> words_ok ts -> buf <> [] ->
  let left := N.to_nat (c_total (e_ctx x) mod 64) in
  (e_Update cfg x buf ts <> None <-> (left + length buf < 64)%nat \/ unaligned cfg = true /\ left = 0%nat).
Proof.
  intros T D F W Hb left. unfold e_Update.
  assert (El : N.to_nat (N.land (c_total (e_ctx x)) 63) = left) by (unfold left; change 63 with (N.ones 6); rewrite N.land_ones; reflexivity).
  pose proof (left_lt (c_total (e_ctx x))) as Hl. rewrite El in *. clearbody left. cbv zeta.
  destruct (Nat.eqb_spec (length buf) 0) as [E|E]; [apply length_zero_iff_nil in E; contradiction|].
  assert (Ct : forall at_ n, In EChar (e_copy x at_ n ts)) by (intros; unfold e_copy; rewrite D, (proj2 T D); left; reflexivity).
  destruct (Nat.lt_ge_cases (left + length buf) 64) as [Hs|Hs].
  - split; [auto|intros _]. replace (64 - left <=? length buf)%nat with false by (symmetry; apply Nat.leb_gt; lia). rewrite andb_false_r. cbn [obind].
    destruct F as [SZ B]. destruct (length buf) as [|k] eqn:Ek; [lia|]. cbn [e_update_loop]. rewrite Ek.
    replace (S k <? 64)%nat with true by (symmetry; apply Nat.ltb_lt; lia). cbn [obind]. rewrite Ek. change (0 <? S k)%nat with true. cbv iota.
    destruct (memcpy_some (c_buffer (e_ctx x)) left buf (S k)) as [Em _]; [lia|lia|]. cbn [set_total c_buffer]. rewrite Em. discriminate.
  - destruct (Nat.eqb_spec left 0) as [->|Hne]; cbn [negb andb].
    + cbn [obind]. destruct (unaligned cfg) eqn:U.
      * split; [auto|intros _]. destruct (loop_direct cfg U (length buf) x buf ts F W (le_n _)) as (x2 & r & tr & -> & [SZ B] & R). cbn [obind].
        destruct (Nat.ltb_spec 0 (length r)); [|discriminate].
        destruct (memcpy_some (c_buffer (e_ctx x2)) 0 r (length r)) as [Em _]; [lia|lia|]. cbn [set_total c_buffer]. rewrite Em. discriminate.
      * split; [|intros [H|[H _]]; [lia|discriminate]]. intros H. exfalso. apply H. clear H. destruct F as [SZ B].
        destruct (length buf) as [|k] eqn:Ek; [lia|]. cbn [e_update_loop]. rewrite Ek, U.
        replace (S k <? 64)%nat with false by (symmetry; apply Nat.ltb_ge; lia). cbv zeta.
        destruct (memcpy_some (c_buffer (e_ctx x)) 0 buf 64) as [Em _]; [lia|lia|]. cbn [set_total c_buffer]. rewrite Em. cbn [obind].
        rewrite process_char by apply Ct. reflexivity.
    + split; [|intros [H|[_ H]]; lia]. intros H. exfalso. apply H. clear H. destruct F as [SZ B].
      replace (64 - left <=? length buf)%nat with true by (symmetry; apply Nat.leb_le; lia).
      destruct (memcpy_some (c_buffer (e_ctx x)) left buf (64 - left)) as [Em _]; [lia|lia|]. cbn [set_total c_buffer]. rewrite Em. cbn [obind].
      rewrite process_char by apply Ct. reflexivity.
Qed.
Lemma run_declared cfg : forall ws x x', tagged x -> Forall typed ws -> e_run cfg x ws = Some x' -> e_declared x' = e_declared x.
Proof.
  induction ws as [|[p ts] ws IH]; intros x x' T W E; cbn [e_run] in E; [apply some1 in E; subst; reflexivity|].
  inversion W as [|? ? W1 W2]; subst. destruct (e_Update cfg x p ts) as [x1|] eqn:E1; [|discriminate]. cbn [obind] in E.
  destruct (update_tagged _ _ _ _ _ T W1 E1) as [T1 D1]. rewrite (IH _ _ T1 W2 E). exact D1.
Qed.
Lemma eff_declared cfg c ws p ts : ctx_memory c -> Forall typed ws -> e_run cfg (fresh true c) ws <> None -> p <> [] -> no_chars (p, ts) ->
  (e_run cfg (fresh true c) (ws ++ [(p, ts)]) <> None <-> (waiting ws + length p < 64)%nat \/ unaligned cfg = true /\ waiting ws = 0%nat).
Proof.
  intros M W R P NC. destruct (fresh_ok true c M) as (T & F & Z). destruct (e_run cfg (fresh true c) ws) as [x|] eqn:E; [|contradiction].
  destruct (run_reach _ _ _ _ T F W E) as (Tx & Fx & Q). rewrite e_run_snoc, E. cbn [obind].
  pose proof (update_declared cfg x p ts Tx (run_declared _ _ _ _ T W E) Fx (no_chars_ok _ (proj2 NC)) P) as U. cbv zeta in U. rewrite Q, Z, N.add_0_l in U.
  assert (Ew : N.to_nat (N.of_nat (length (concat (map fst ws))) mod 64) = waiting ws).
  { unfold waiting. change 64 with (N.of_nat 64). rewrite <- Nat2N.inj_mod. apply Nat2N.id. }
  rewrite Ew in U. exact U.
Qed.
Lemma eff_final cfg declared c ws x : ctx_memory c -> Forall typed ws -> e_run cfg (fresh declared c) ws = Some x -> e_Final cfg x = None.
Proof.
  intros M W E. destruct (fresh_ok declared c M) as (T & F & _). destruct (run_reach _ _ _ _ T F W E) as (Tx & Fx & _).
  apply final_undefined; [exact Tx|exact (proj2 Fx)].
Qed.

(** With padding declared as words, SHA1DCFinal is defined for memory without declared type. *)
Lemma final_words cfg pt x : pt <> EChar -> eok x ->
  exists x' h v, e_Final_with pt cfg x = Some (x', h, v) /\ SHA1DCFinal cfg (e_ctx x) = Some (e_ctx x', h, v).
Proof.
  intros Hp K. unfold e_Final_with, SHA1DCFinal. cbv zeta. set (last := N.land (c_total (e_ctx x)) 63).
  assert (Hl : (N.to_nat last < 64)%nat) by apply left_lt.
  set (padn := if last <? 56 then 56 - last else 120 - last).
  assert (Hn : (N.to_nat padn <= 64)%nat) by (unfold padn; destruct (N.ltb_spec last 56); lia). clearbody padn.
  rewrite slice_to_ok by (change (length sha1_padding) with 64%nat; lia). cbn [obind].
  generalize (firstn (N.to_nat padn) sha1_padding). intros p.
  assert (W : words_ok (repeat pt (N.to_nat padn))).
  { apply no_chars_ok. intros Hi. apply repeat_spec in Hi. congruence. }
  destruct (update_words cfg x p _ K W) as (y & E & (F & D & Wy)). rewrite E, (update_sound _ _ _ _ _ E). cbn [obind].
  destruct F as [SZ B].
  match goal with |- context[memcpy (c_buffer (e_ctx y)) 56 ?s 8] => destruct (memcpy_some (c_buffer (e_ctx y)) 56 s 8) as [-> Lb]; [lia|reflexivity|] end.
  cbn [obind]. match goal with |- context[e_process cfg ?c1 ?b1 ?t1] => destruct (process_words cfg c1 b1 t1) as (c2 & E2 & F2) end.
  { apply words_copy; [exact D|exact Wy|]. apply no_chars_ok. intros Hi. apply repeat_spec in Hi. discriminate. }
  { split; [exact SZ|]. cbn [c_buffer set_buffer]. lia. }
  rewrite E2, (process_sound _ _ _ _ _ E2). cbn [obind]. eauto.
Qed.
Lemma eff_padding cfg pt c ws x : ctx_memory c -> Forall no_chars ws -> pt <> EChar -> e_run cfg (fresh false c) ws = Some x ->
  exists x' h v, e_Final_with pt cfg x = Some (x', h, v) /\ SHA1DCFinal cfg (e_ctx x) = Some (e_ctx x', h, v).
Proof.
  intros M W Hp E. apply final_words; [exact Hp|]. destruct (fresh_ok false c M) as (_ & F & _).
  destruct (run_words cfg ws (fresh false c)) as (y & E' & K).
  - split; [exact F|]. split; [reflexivity|]. apply Forall_forall. intros t Ht. unfold fresh, e_new in Ht. cbn [e_tags] in Ht. apply repeat_spec in Ht. subst. reflexivity.
  - intros p ts Hi. rewrite Forall_forall in W. apply no_chars_ok. exact (proj2 (W _ Hi)).
  - rewrite E in E'. apply some1 in E'. subst y. exact K.
Qed.

Lemma eff_session cfg : exists c ws x, ctx_memory c /\ Forall no_chars ws /\ e_run cfg (fresh false c) ws = Some x /\
  SHA1DCFinal cfg (e_ctx x) <> None /\ e_Final cfg x = None.
Proof.
  assert (M : ctx_memory (g_ctx cgo_New)) by (repeat split).
  exists (g_ctx cgo_New), [], (fresh false (g_ctx cgo_New)). split; [exact M|]. split; [constructor|]. split; [reflexivity|].
  split; [|exact (eff_final cfg false _ [] _ M (Forall_nil _) eq_refl)].
  destruct (eff_padding cfg EWord (g_ctx cgo_New) [] _ M (Forall_nil _) ltac:(discriminate) eq_refl) as (x & h & v & _ & E). rewrite E. discriminate.
Qed.

(** ** Any effective types, memory that has no declared type *)
Definition fullt (l : list etype) : bool := forallb word_ok (firstn (64 * (length l / 64)) l).
Definition restt (l : list etype) : list etype := skipn (64 * (length l / 64)) l.
Lemma full_short l : (length l < 64)%nat -> fullt l = true /\ restt l = l.
Proof. intros H. unfold fullt, restt. rewrite Nat.div_small by exact H. split; reflexivity. Qed.
Lemma full_app a l : length a = 64%nat -> fullt (a ++ l) = (forallb word_ok a && fullt l)%bool /\ restt (a ++ l) = restt l.
Proof.
  intros H. unfold fullt, restt. rewrite app_length, H. replace ((64 + length l) / 64)%nat with (1 + length l / 64)%nat.
  2:{ replace (64 + length l)%nat with (length l + 1 * 64)%nat by lia. rewrite Nat.div_add by discriminate. lia. }
  replace (64 * (1 + length l / 64))%nat with (length a + 64 * (length l / 64))%nat by lia.
  rewrite firstn_app_2, forallb_app. split; [reflexivity|]. rewrite skipn_app, skipn_all2 by lia. cbn [app]. f_equal. lia.
Qed.
Lemma rest_length l : (length (restt l) < 64)%nat /\ (length (restt l) = length l mod 64)%nat.
Proof.
  assert (H := Nat.div_mod (length l) 64 ltac:(discriminate)). assert (H2 := Nat.mod_upper_bound (length l) 64 ltac:(discriminate)).
  unfold restt. rewrite skipn_length. lia.
Qed.
Definition kept_ok (x : ectx) : Prop := fit (e_ctx x) /\ e_declared x = false /\ length (e_tags x) = 64%nat.
Lemma process_exact cfg c b ts : fit c -> if forallb word_ok ts then exists c', e_process cfg c b ts = Some c' /\ fit c' else e_process cfg c b ts = None.
Proof. intros F. unfold e_process. destruct (forallb word_ok ts); [apply process_fit; exact F|reflexivity]. Qed.
Lemma copy_whole x ts : e_declared x = false -> length (e_tags x) = 64%nat -> e_copy x 0 64 ts = firstn 64 ts.
Proof. intros D L. unfold e_copy. rewrite D. change (firstn 0 (e_tags x)) with (@nil etype). cbn [app Nat.add]. rewrite (skipn_all2 (e_tags x)) by lia. apply app_nil_r. Qed.
Lemma loop_exact cfg : forall fuel x buf ts, kept_ok x -> length ts = length buf -> (length buf <= fuel)%nat ->
  if fullt ts then exists x' r, e_update_loop fuel cfg x buf ts = Some (x', r, restt ts) /\ kept_ok x' /\ length r = length (restt ts) /\ ((length buf < 64)%nat -> x' = x)
  else e_update_loop fuel cfg x buf ts = None.
Proof.
  induction fuel as [|fuel IH]; intros x buf ts K L H.
  { destruct (full_short ts) as [-> ->]; [lia|]. exists x, buf. cbn [e_update_loop]. destruct (Nat.ltb_spec (length buf) 64); [|lia]. auto. }
  cbn [e_update_loop]. destruct (Nat.ltb_spec (length buf) 64) as [Hs|Hs].
  { destruct (full_short ts) as [-> ->]; [lia|]. exists x, buf. auto. }
  cbv zeta. destruct K as (F & D & LT).
  set (c := set_total _ (e_ctx x)). assert (F1 : fit c) by exact F. clearbody c. destruct F1 as [S1 B1].
  assert (L64 : length (firstn 64 ts) = 64%nat) by (rewrite firstn_length; lia).
  pose proof (full_app (firstn 64 ts) (skipn 64 ts) L64) as [Ef Er]. rewrite (firstn_skipn 64 ts) in Ef, Er. rewrite Ef, Er.
  match goal with |- context[obind ?a _] => assert (X : if forallb word_ok (firstn 64 ts) then exists y, a = Some y /\ kept_ok y else a = None) end.
  { destruct (unaligned cfg).
    - pose proof (process_exact cfg c (firstn 64 buf) (firstn 64 ts) (conj S1 B1)) as P. destruct (forallb word_ok (firstn 64 ts)).
      + destruct P as (c1 & -> & F1). cbn [obind]. eexists. split; [reflexivity|]. split; [exact F1|]. split; [exact D|exact LT].
      + rewrite P. reflexivity.
    - destruct (memcpy_some (c_buffer c) 0 buf 64) as [-> Lb]; [lia|lia|]. cbn [obind]. rewrite (copy_whole x ts D LT).
      match goal with |- context[e_process cfg ?c1 ?b1 ?t1] => pose proof (process_exact cfg c1 b1 t1) as P end. destruct (forallb word_ok (firstn 64 ts)).
      + destruct P as (c2 & -> & F2); [split; [exact S1|cbn [c_buffer set_buffer]; lia]|]. cbn [obind]. eexists. split; [reflexivity|].
        split; [exact F2|]. split; [exact D|exact L64].
      + rewrite P by (split; [exact S1|cbn [c_buffer set_buffer]; lia]). reflexivity. }
  destruct (forallb word_ok (firstn 64 ts)); cbn [andb]; [|rewrite X; reflexivity].
  destruct X as (y & -> & Ky). cbn [obind].
  pose proof (IH y (skipn 64 buf) (skipn 64 ts) Ky ltac:(rewrite !skipn_length; lia) ltac:(rewrite skipn_length; lia)) as Q.
  destruct (fullt (skipn 64 ts)); [|exact Q]. destruct Q as (x' & r & E & K' & Lr & _). exists x', r. split; [exact E|]. split; [exact K'|]. split; [exact Lr|]. intros; lia.
Qed.
(** The rest of SHA1DCUpdate when the buffer is empty. *)
Lemma tail_exact cfg y b t1 : kept_ok y -> length t1 = length b ->
  let run := do (x, buf, ts) <- e_update_loop (length b) cfg y b t1;
    if (0 <? length buf)%nat then
      let c := set_total (add64 (c_total (e_ctx x)) (N.of_nat (length buf))) (e_ctx x) in
      do b <- memcpy (c_buffer c) 0 buf (length buf);
      Some (mke (set_buffer b c) (e_declared x) (e_copy x 0 (length buf) ts))
    else Some x in
  if fullt t1 then exists x', run = Some x' /\ kept_ok x' /\ firstn (length (restt t1)) (e_tags x') = restt t1 else run = None.
Proof.
  intros K L run. pose proof (loop_exact cfg (length b) y b t1 K L (le_n _)) as Q. unfold run. clear run. destruct (fullt t1); [|rewrite Q; reflexivity].
  destruct Q as (x & r & -> & K' & Lr & _). cbn [obind]. pose proof (proj1 (rest_length t1)) as R. destruct K' as ([S1 B1] & D & LT).
  destruct (Nat.ltb_spec 0 (length r)) as [H|H].
  - cbv zeta. set (c := set_total _ (e_ctx x)). assert (F1 : fit c) by exact (conj S1 B1). clearbody c. destruct F1 as [S2 B2].
    destruct (memcpy_some (c_buffer c) 0 r (length r)) as [-> Lb]; [lia|lia|]. cbn [obind]. eexists. split; [reflexivity|].
    split; [split; [split; [exact S2|cbn [e_ctx c_buffer set_buffer]; lia]|split; [exact D|apply copy_length; lia]]|].
    cbn [e_tags]. unfold e_copy. rewrite D, Lr. change (firstn 0 (e_tags x)) with (@nil etype). cbn [app]. rewrite firstn_all, firstn_app, firstn_all, Nat.sub_diag.
    change (firstn 0 ?l) with (@nil etype). rewrite app_nil_r. reflexivity.
  - exists x. split; [reflexivity|]. split; [split; [split; assumption|split; assumption]|]. destruct (restt t1); [reflexivity|cbn in Lr; lia].
Qed.
Definition holds (x : ectx) (pend : list etype) : Prop :=
  kept_ok x /\ (length pend < 64)%nat /\ N.to_nat (c_total (e_ctx x) mod 64) = length pend /\ firstn (length pend) (e_tags x) = pend.
Lemma update_exact cfg x pend buf ts : holds x pend -> length ts = length buf ->
  if fullt (pend ++ ts) then exists x', e_Update cfg x buf ts = Some x' /\ holds x' (restt (pend ++ ts)) else e_Update cfg x buf ts = None.
Proof.
  intros (K & Lp & T & E) L.
  assert (X : if fullt (pend ++ ts) then exists x', e_Update cfg x buf ts = Some x' /\ kept_ok x' /\ firstn (length (restt (pend ++ ts))) (e_tags x') = restt (pend ++ ts)
    else e_Update cfg x buf ts = None).
  2:{ destruct (fullt (pend ++ ts)); [|exact X]. destruct X as (x' & U & K' & E'). exists x'. split; [exact U|]. split; [exact K'|].
      split; [apply rest_length|]. split; [|exact E']. apply update_sound in U. apply update_total in U. rewrite U.
      rewrite (proj2 (rest_length _)), app_length, L.
      rewrite N.add_mod by discriminate. replace (c_total (e_ctx x) mod 64) with (N.of_nat (length pend)) by lia.
      change 64 with (N.of_nat 64). rewrite <- Nat2N.inj_mod, <- Nat2N.inj_add, <- Nat2N.inj_mod, Nat2N.id.
      rewrite Nat.add_mod_idemp_r by discriminate. reflexivity. }
  unfold e_Update. assert (El : N.to_nat (N.land (c_total (e_ctx x)) 63) = length pend) by (change 63 with (N.ones 6); rewrite N.land_ones; exact T).
  rewrite El. cbv zeta. clear El T. destruct (Nat.eqb_spec (length buf) 0) as [Hz|Hz].
  { destruct ts; [|cbn in L; lia]. rewrite app_nil_r. destruct (full_short pend Lp) as [-> ->]. exists x. auto. }
  set (lft := length pend) in *.
  destruct (Nat.eqb_spec lft 0) as [Hl|Hl]; cbn [negb andb].
  { destruct pend; [|discriminate Hl]. rewrite Hl. cbn [obind app]. exact (tail_exact cfg x buf ts K L). }
  destruct K as (F & D & LT). destruct (Nat.leb_spec (64 - lft) (length buf)) as [Hf|Hf].
  - assert (La : length (pend ++ firstn (64 - lft) ts) = 64%nat) by (rewrite app_length, firstn_length; fold lft; lia).
    pose proof (full_app _ (skipn (64 - lft) ts) La) as [Ef Er]. rewrite <- app_assoc, firstn_skipn in Ef, Er. rewrite Ef, Er.
    set (c := set_total _ (e_ctx x)). assert (F1 : fit c) by exact F. clearbody c. destruct F1 as [S1 B1].
    destruct (memcpy_some (c_buffer c) lft buf (64 - lft)) as [-> Lb]; [lia|lia|]. cbn [obind].
    assert (Et : e_copy x lft (64 - lft) ts = pend ++ firstn (64 - lft) ts).
    { unfold e_copy. rewrite D, E. rewrite (skipn_all2 (e_tags x)) by lia. rewrite app_nil_r. reflexivity. }
    rewrite Et. match goal with |- context[e_process cfg ?c1 ?b1 ?t1] => pose proof (process_exact cfg c1 b1 t1) as P end.
    destruct (forallb word_ok (pend ++ firstn (64 - lft) ts)); cbn [andb].
    + destruct P as (c2 & -> & F2); [split; [exact S1|cbn [c_buffer set_buffer]; lia]|]. cbn [obind].
      refine (tail_exact cfg _ (skipn (64 - lft) buf) (skipn (64 - lft) ts) _ _); [split; [exact F2|split; [exact D|exact La]]|rewrite !skipn_length; lia].
    + rewrite P by (split; [exact S1|cbn [c_buffer set_buffer]; lia]). reflexivity.
  - destruct (full_short (pend ++ ts)) as [-> ->]; [rewrite app_length; fold lft; lia|]. cbn [obind].
    destruct (length buf) as [|k] eqn:Ek; [lia|]. cbn [e_update_loop]. rewrite Ek. replace (S k <? 64)%nat with true by (symmetry; apply Nat.ltb_lt; lia). cbn [obind]. rewrite Ek.
    change (0 <? S k)%nat with true. cbv iota. set (c := set_total _ (e_ctx x)). assert (F1 : fit c) by exact F. clearbody c. destruct F1 as [S1 B1].
    destruct (memcpy_some (c_buffer c) lft buf (S k)) as [-> Lb]; [lia|lia|]. cbn [obind]. eexists. split; [reflexivity|].
    split; [split; [split; [exact S1|cbn [e_ctx c_buffer set_buffer]; lia]|split; [exact D|apply copy_length; lia]]|].
    cbn [e_tags]. unfold e_copy. rewrite D, E, <- L, firstn_all, app_assoc, firstn_app, firstn_all, Nat.sub_diag. change (firstn 0 ?l) with (@nil etype). apply app_nil_r.
Qed.
Lemma full_split a b : fullt (a ++ b) = (fullt a && fullt (restt a ++ b))%bool /\ restt (a ++ b) = restt (restt a ++ b).
Proof.
  remember (length a / 64)%nat as k eqn:Hk. revert a Hk. induction k as [|k IH]; intros a Hk.
  - assert (H := Nat.div_mod (length a) 64 ltac:(discriminate)). assert (H2 := Nat.mod_upper_bound (length a) 64 ltac:(discriminate)).
    destruct (full_short a) as [-> ->]; [lia|]. split; reflexivity.
  - assert (H := Nat.div_mod (length a) 64 ltac:(discriminate)).
    assert (L : length (firstn 64 a) = 64%nat) by (rewrite firstn_length; lia).
    pose proof (full_app (firstn 64 a) (skipn 64 a) L) as [E1 E2]. pose proof (full_app (firstn 64 a) (skipn 64 a ++ b) L) as [E3 E4].
    rewrite app_assoc in E3, E4. rewrite (firstn_skipn 64 a) in E1, E2, E3, E4. rewrite E1, E2, E3, E4.
    destruct (IH (skipn 64 a)) as [I1 I2].
    { rewrite skipn_length. replace (length a) with ((length a - 64) + 1 * 64)%nat in Hk by lia. rewrite Nat.div_add in Hk by discriminate. lia. }
    rewrite I1, I2, andb_assoc. split; reflexivity.
Qed.
Lemma run_exact cfg : forall ws x pend, holds x pend -> Forall typed ws ->
  (e_run cfg x ws <> None <-> fullt (pend ++ concat (map snd ws)) = true).
Proof.
  induction ws as [|[p ts] ws IH]; intros x pend Hx W; cbn [e_run map concat snd].
  - rewrite app_nil_r. destruct (full_short pend (proj1 (proj2 Hx))) as [-> _]. split; [reflexivity|discriminate].
  - inversion W as [|? ? W1 W2]; subst. pose proof (update_exact cfg x pend p ts Hx W1) as U.
    rewrite app_assoc. destruct (full_split (pend ++ ts) (concat (map snd ws))) as [-> _]. destruct (fullt (pend ++ ts)); cbn [andb].
    + destruct U as (x' & -> & Hx'). cbn [obind]. apply IH; assumption.
    + rewrite U. cbn [obind]. split; intros H; [contradiction|discriminate].
Qed.
Lemma eff_mixed cfg c ws : ctx_memory c -> Forall typed ws ->
  (e_run cfg (fresh false c) ws <> None <-> ~ In EChar (firstn (64 * (length (concat (map snd ws)) / 64)) (concat (map snd ws)))).
Proof.
  intros M W. destruct (fresh_ok false c M) as ([T _] & F & Z). rewrite (run_exact cfg ws (fresh false c) []); [|split; [split; [exact F|split; [reflexivity|exact T]]|]|exact W].
  - cbn [app]. unfold fullt. split.
    + intros H Hi. rewrite (char_forallb _ Hi) in H. discriminate H.
    + intros H. apply words_forallb, no_chars_ok. exact H.
  - split; [cbn; lia|]. split; [rewrite Z; reflexivity|reflexivity].
Qed.
