(** Proofs about build constraints and CPU features. *)

From Coq Require Import Arith NArith String List Strings.Byte Bool Lia ZifyNat.
From Verif Require Import Word WordFacts Spec_Sha1 Model_Go Model_Asm Model_Amd64 Gen_Amd64 Model_Arm64 Gen_Arm64 Model_Build Gen_Build
  Model_Api Model_Block Model_Cpu GoBlock GoAmd64 GoArm64 GoAsm Data_Shambles.
Import ListNotations.
Ltac Zify.zify_post_hook ::= idtac.

Section Env.
  Variable e : tags.
  Local Open Scope string_scope.

  (** Which files are compiled. *)
  Lemma included_sha1cd : map (included e) pkg_sha1cd =
    [true; true; e "amd64" && (negb (e "noasm") && e "gc" && e "amd64" && negb (e "arm64"));
     e "amd64" && (negb (e "noasm") && e "gc" && e "amd64" && negb (e "arm64"));
     e "arm64" && (negb (e "noasm") && e "gc" && e "arm64" && negb (e "amd64"));
     e "arm64" && (negb (e "noasm") && e "gc" && e "arm64" && negb (e "amd64"));
     true; negb (e "amd64") && negb (e "arm64") || e "noasm"].
  Proof. cbv -[andb orb negb]. cbn [andb]. rewrite ?andb_true_r. reflexivity. Qed.
  Lemma included_cgo : map (included e) pkg_cgo = [negb (e "cgo"); e "cgo"; e "cgo"].
  Proof. cbv -[andb orb negb]. cbn [andb]. rewrite ?andb_true_r. reflexivity. Qed.
End Env.

Fixpoint pick {A} (b : list bool) (l : list A) : list A :=
  match b, l with
  | c :: b, x :: l => if c then x :: pick b l else pick b l
  | _, _ => []
  end.
Lemma filter_pick {A} (f : A -> bool) l : filter f l = pick (map f l) l.
Proof. induction l as [|x l IH]; [reflexivity|]. cbn [filter map pick]. rewrite IH. reflexivity. Qed.

Ltac sha_cases e :=
  rewrite ?(filter_pick (included e)), ?included_sha1cd; destruct (e "noasm"%string), (e "gc"%string), (e "amd64"%string), (e "arm64"%string).
Ltac cgo_cases e := rewrite ?(filter_pick (included e)), ?included_cgo; destruct (e "cgo"%string).

Lemma block_decls (e : tags) : List.length (decls e pkg_sha1cd "block") = 1 <->
  e "noasm"%string = true \/ (e "amd64"%string = false /\ e "arm64"%string = false) \/
  (e "gc"%string = true /\ e "amd64"%string <> e "arm64"%string).
Proof.
  unfold decls, funcs. sha_cases e; cbn; (split; [intros H|intros [H|[[H H']|[H H']]]]); try discriminate; try reflexivity; try congruence; intuition congruence.
Qed.
Lemma block_unique (e : tags) : List.length (decls e pkg_sha1cd "block") <= 1.
Proof. unfold decls, funcs. sha_cases e; cbn; lia. Qed.

Ltac nodup := repeat constructor; cbn [In]; intuition discriminate.
Lemma sha1cd_nodup (e : tags) : NoDup (map f_name (funcs e pkg_sha1cd)) /\ NoDup (texts e pkg_sha1cd).
Proof. unfold funcs, texts. sha_cases e; (split; cbn [pick pkg_sha1cd map flat_map app g_funcs g_text f_name negb andb orb]; nodup). Qed.
Lemma cgo_nodup (e : tags) : NoDup (map f_name (funcs e pkg_cgo)).
Proof. unfold funcs. cgo_cases e; cbn [pick pkg_cgo map flat_map app g_funcs f_name negb]; nodup. Qed.

Lemma texts_eq (e : tags) : texts e pkg_sha1cd = map f_name (filter (fun f => negb (f_body f)) (funcs e pkg_sha1cd)).
Proof. unfold funcs, texts. sha_cases e; reflexivity. Qed.
Lemma sha1cd_bodies (e : tags) n :
  In n (texts e pkg_sha1cd) <-> exists f, In f (funcs e pkg_sha1cd) /\ f_name f = n /\ f_body f = false.
Proof.
  rewrite texts_eq, in_map_iff. split.
  - intros (f & E & H). apply filter_In in H. destruct H as [H B]. exists f. split; [exact H|]. split; [exact E|]. destruct (f_body f); [discriminate B|reflexivity].
  - intros (f & H & E & B). exists f. split; [exact E|]. apply filter_In. split; [exact H|]. rewrite B. reflexivity.
Qed.

Lemma plus_agrees (e : tags) f x y : In f (pkg_sha1cd ++ pkg_cgo) -> g_build f = Some x -> In y (g_plus f) -> beval e y = beval e x.
Proof.
  cbn [app pkg_sha1cd pkg_cgo In]. intros H.
  repeat (destruct H as [<-|H]; [cbn [g_build g_plus In]; intros E Hy; try discriminate E; injection E as <-;
    repeat (destruct Hy as [<-|Hy]; [reflexivity|]); contradiction|]). contradiction.
Qed.

Definition gccgo_amd64 : tags := fun t => mem_str t ["linux"; "unix"; "amd64"; "gccgo"; "cgo"]%string.
Lemma gccgo_no_block : exists e : tags, e "gccgo"%string = true /\ e "gc"%string = false /\ e "noasm"%string = false /\ e "amd64"%string = true /\
  (forall a, In a known_arch -> a <> "amd64"%string -> e a = false) /\ decls e pkg_sha1cd "block" = [].
Proof.
  exists gccgo_amd64. do 4 (split; [reflexivity|]). split; [|reflexivity].
  intros a Ha Hn. cbn [known_arch In] in Ha.
  repeat (destruct Ha as [<-|Ha]; [first [reflexivity|contradiction Hn; reflexivity]|]). contradiction.
Qed.

(** ** Package cgo *)
Lemma cgo_decls (e : tags) n : In n ["New"; "Sum"; "CalculateDvMask"]%string ->
  List.length (decls e pkg_cgo n) = 1 /\ Forall (fun f => f_body f = true) (decls e pkg_cgo n).
Proof.
  unfold decls, funcs. cgo_cases e; cbn [In]; intros [<-|[<-|[<-|[]]]]; (split; [reflexivity|repeat constructor]).
Qed.
Lemma cgo_same_sigs (e1 e2 : tags) n : In n ["New"; "Sum"]%string -> map f_sig (decls e1 pkg_cgo n) = map f_sig (decls e2 pkg_cgo n).
Proof.
  unfold decls, funcs. rewrite (filter_pick (included e1)), (filter_pick (included e2)), !included_cgo. destruct (e1 "cgo"%string), (e2 "cgo"%string); intros [<-|[<-|[]]]; reflexivity.
Qed.
Lemma cgo_differ : exists e1 e2 : tags, (forall t, t <> "cgo"%string -> e1 t = e2 t) /\
  map f_sig (decls e1 pkg_cgo "CalculateDvMask") <> map f_sig (decls e2 pkg_cgo "CalculateDvMask") /\
  consts e1 pkg_cgo = ["Size"; "BlockSize"]%string /\ consts e2 pkg_cgo = [].
Proof.
  exists (fun t => mem_str t ["linux"; "unix"; "amd64"; "gc"; "cgo"]%string), (fun t => mem_str t ["linux"; "unix"; "amd64"; "gc"]%string).
  split; [|split; [discriminate|split; reflexivity]].
  intros t Ht. unfold mem_str. cbn [existsb]. apply String.eqb_neq in Ht. rewrite Ht, !orb_false_r. reflexivity.
Qed.

(** ** CPU features *)
Lemma need_ok : forallb (fun m => match amd64_need m with None => true | Some f => mem_str f ["AVX"; "SHA"; "SSE4"; "SSSE3"]%string end) amd64_mnem = true.
Proof. vm_compute. reflexivity. Qed.
Lemma mem_str_In x l : mem_str x l = true -> In x l.
Proof. unfold mem_str. intros H. apply existsb_exists in H. destruct H as (y & Hy & E). apply String.eqb_eq in E. subst y. exact Hy. Qed.
Lemma amd64_runs c : c "AVX"%string = true -> c "SHA"%string = true -> c "SSE4"%string = true -> c "SSSE3"%string = true ->
  forall m, In m amd64_mnem -> runs_on c amd64_need m = true.
Proof.
  intros H1 H2 H3 H4 m Hm. pose proof need_ok as N. rewrite forallb_forall in N. specialize (N m Hm). unfold runs_on.
  destruct (amd64_need m) as [f|]; [|reflexivity]. apply mem_str_In in N. destruct N as [<-|[<-|[<-|[<-|[]]]]]; assumption.
Qed.
Lemma xneed_ok : forallb (fun m => match arm64_need m with None => true | Some f => mem_str f ["SHA1"]%string end) arm64_mnem = true.
Proof. vm_compute. reflexivity. Qed.
Lemma arm64_runs c : c "SHA1"%string = true -> forall m, In m arm64_mnem -> runs_on c arm64_need m = true.
Proof.
  intros H1 m Hm. pose proof xneed_ok as N. rewrite forallb_forall in N. specialize (N m Hm). unfold runs_on.
  destruct (arm64_need m) as [f|]; [|reflexivity]. apply mem_str_In in N. destruct N as [<-|[]]; assumption.
Qed.
Lemma nth_error_same_length {A B} (l : list A) (r : list B) : List.length l = List.length r -> forall n x, nth_error l n = Some x -> exists y, nth_error r n = Some y /\ In y r.
Proof.
  intros E n x H. assert (n < List.length l) by (apply nth_error_Some; congruence).
  destruct (nth_error r n) as [y|] eqn:F; [|apply nth_error_None in F; lia]. exists y. split; [reflexivity|]. eapply nth_error_In, F.
Qed.
Lemma exec_cpu_eq c L prog mn : List.length prog = List.length mn -> (forall m, In m mn -> runs_on c amd64_need m = true) ->
  forall fuel s, exec_cpu c L prog mn fuel s = Model_Amd64.exec L prog fuel s.
Proof.
  intros El H. induction fuel as [|n IH]; intros s; [reflexivity|]. cbn [exec_cpu Model_Amd64.exec].
  destruct (nth_error prog (pc s)) as [i|] eqn:E; [|reflexivity].
  destruct (nth_error_same_length _ _ El _ _ E) as (m & -> & Hm). rewrite (H m Hm).
  destruct i; try reflexivity; destruct (step_instr L _ s); try reflexivity; apply IH.
Qed.
Lemma xexec_cpu_eq c L prog mn : List.length prog = List.length mn -> (forall m, In m mn -> runs_on c arm64_need m = true) ->
  forall fuel s, xexec_cpu c L prog mn fuel s = xexec L prog fuel s.
Proof.
  intros El H. induction fuel as [|n IH]; intros s; [reflexivity|]. cbn [xexec_cpu xexec].
  destruct (nth_error prog (xpc s)) as [i|] eqn:E; [|reflexivity].
  destruct (nth_error_same_length _ _ El _ _ E) as (m & -> & Hm). rewrite (H m Hm).
  destruct i; try reflexivity; destruct (xstep L _ s); try reflexivity; apply IH.
Qed.
Local Open Scope N_scope.

Lemma mnem_length : List.length amd64_prog = List.length amd64_mnem /\ List.length arm64_prog = List.length arm64_mnem.
Proof. split; reflexivity. Qed.
Lemma call_amd64_cpu_eq c e h p m1 cs : (forall m, In m amd64_mnem -> runs_on c amd64_need m = true) ->
  call_amd64_cpu c e h p m1 cs = call_amd64 amd64_prog upper_mask shuffle_mask e h p m1 cs.
Proof.
  intros H. unfold call_amd64_cpu, call_amd64. generalize (exec_cpu_eq c (e_lay e) amd64_prog amd64_mnem (proj1 mnem_length) H 1000).
  generalize (entry upper_mask shuffle_mask e h p m1 cs) (Model_Amd64.exec (e_lay e) amd64_prog 1000) (exec_cpu c (e_lay e) amd64_prog amd64_mnem 1000).
  intros s f g E. rewrite E. reflexivity.
Qed.
Lemma call_arm64_cpu_eq c e h p m1 cs : (forall m, In m arm64_mnem -> runs_on c arm64_need m = true) ->
  call_arm64_cpu c e h p m1 cs = call_arm64 arm64_prog sha1Ks e h p m1 cs.
Proof.
  intros H. unfold call_arm64_cpu, call_arm64. generalize (xexec_cpu_eq c (ae_lay e) arm64_prog arm64_mnem (proj2 mnem_length) H 1000).
  generalize (aentry sha1Ks e h p m1 cs) (xexec (ae_lay e) arm64_prog 1000) (xexec_cpu c (ae_lay e) arm64_prog arm64_mnem 1000).
  intros s f g E. rewrite E. reflexivity.
Qed.
Lemma block_on_amd64_ok c force e : (c "SSE4"%string = true -> c "SSSE3"%string = true) -> (forall k, layout_ok (e_lay (e k))) ->
  block_ok (block_on_amd64 c force e).
Proof.
  intros Hs Hl. unfold block_on_amd64. destruct force; cbn [orb]; [apply blockGeneric_ok|].
  destruct (forallb c amd64_features) eqn:F; cbn [negb]; [|apply blockGeneric_ok].
  rewrite forallb_forall in F.
  assert (A : c "AVX"%string = true) by (apply F; cbn; tauto). assert (B : c "SHA"%string = true) by (apply F; cbn; tauto).
  assert (C : c "SSE4"%string = true) by (apply F; cbn; tauto).
  apply asm_block_ok. intros k h p m1 cs Hh Hp Hm. rewrite call_amd64_cpu_eq by (apply amd64_runs; auto).
  apply call_amd64_ok; auto.
Qed.
Lemma block_on_arm64_ok c force e : (forall k, layout_ok (ae_lay (e k)) /\ ae_g (e k) 16%nat mod M64 + 64 < M64) ->
  block_ok (block_on_arm64 c force e).
Proof.
  intros Hl. unfold block_on_arm64. destruct force; cbn [orb]; [apply blockGeneric_ok|].
  destruct (forallb c arm64_features) eqn:F; cbn [negb]; [|apply blockGeneric_ok].
  rewrite forallb_forall in F. assert (A : c "SHA1"%string = true) by (apply F; cbn; tauto).
  apply asm_block_ok. intros k h p m1 cs Hh Hp Hm. rewrite call_arm64_cpu_eq by (apply arm64_runs; auto).
  apply call_arm64_ok; auto; apply Hl.
Qed.
Lemma on_amd64_same c force e d p : (c "SSE4"%string = true -> c "SSSE3"%string = true) -> (forall k, layout_ok (e_lay (e k))) -> wfst (dh d) ->
  exists d', block_on_amd64 c force e d p = Some d' /\ blockGeneric d p = Some d'.
Proof. intros Hs Hl Hd. eexists. split; [apply block_on_amd64_ok; auto|apply blockGeneric_ok; exact Hd]. Qed.
Lemma on_arm64_same c force e d p : (forall k, layout_ok (ae_lay (e k)) /\ ae_g (e k) 16%nat mod M64 + 64 < M64) -> wfst (dh d) ->
  exists d', block_on_arm64 c force e d p = Some d' /\ blockGeneric d p = Some d'.
Proof. intros Hl Hd. eexists. split; [apply block_on_arm64_ok; auto|apply blockGeneric_ok; exact Hd]. Qed.

Definition no_ssse3 : cpu := fun f => mem_str f ["AVX"; "SHA"; "SSE3"; "SSE4"]%string.
Lemma ssse3_fault : exists c e d p, (forall k, layout_ok (e_lay (e k))) /\ wfst (dh d) /\ List.length p = 64%nat /\
  forallb c amd64_features = true /\ block_on_amd64 c false e d p = None /\ blockGeneric d p <> None.
Proof.
  exists no_ssse3, (fun _ => amd0), New, (repeat x00 64). split; [intros _; exact lay0_ok|]. split; [repeat split; reflexivity|].
  split; [reflexivity|]. split; [reflexivity|]. split; [vm_compute; reflexivity|].
  rewrite blockGeneric_ok; [discriminate|repeat split; reflexivity].
Qed.
