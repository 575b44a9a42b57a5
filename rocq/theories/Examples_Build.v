(** For each theorem of Properties_Build a concrete case that meets its hypotheses (tests, not proofs). *)

From Coq Require Import Arith NArith String List Strings.Byte Bool Lia.
From Verif Require Import Word WordFacts Spec_Sha1 Spec_Build Model_Go Model_Asm Model_Amd64 Model_Arm64 Gen_Amd64 Gen_Arm64 Model_Build Gen_Build Model_Block Model_Cpu
  Model_CSteps Model_C Model_CBuild Model_CDead GoAsm DvFacts BuildFacts CDead Data_Shambles GoRefute Model_Ubc Gen_DvsGo Model_Table GoTable Examples_Go Properties_Build.
Import ListNotations.
Local Open Scope N_scope.

Definition linux_amd64 : tags := fun t => mem_str t ["linux"; "unix"; "amd64"; "gc"; "cgo"]%string.
Definition darwin_arm64 : tags := fun t => mem_str t ["darwin"; "unix"; "arm64"; "gc"]%string.
Definition linux_s390x : tags := fun t => mem_str t ["linux"; "unix"; "s390x"; "gccgo"; "cgo"]%string.
Definition amd64_noasm : tags := fun t => mem_str t ["linux"; "unix"; "amd64"; "gc"; "noasm"]%string.

Example C46_example :
  map (fun e => List.length (decls e pkg_sha1cd "block")) [linux_amd64; darwin_arm64; linux_s390x; amd64_noasm; gccgo_amd64] = [1; 1; 1; 1; 0]%nat /\
  texts linux_amd64 pkg_sha1cd = ["blockAMD64"]%string /\ texts darwin_arm64 pkg_sha1cd = ["blockARM64"]%string /\ texts amd64_noasm pkg_sha1cd = [] /\
  map g_name (filter (included linux_amd64) pkg_sha1cd) <> map g_name (filter (included amd64_noasm) pkg_sha1cd).
Proof. repeat (split; [reflexivity|]). discriminate. Qed.
Example C46_constraint_example : exists f x y, In f (pkg_sha1cd ++ pkg_cgo) /\ g_build f = Some x /\ In y (g_plus f) /\ beval linux_amd64 x = true.
Proof.
  assert (X : existsb (fun f => match g_build f, g_plus f with Some x, _ :: _ => beval linux_amd64 x | _, _ => false end) (pkg_sha1cd ++ pkg_cgo) = true) by reflexivity.
  apply existsb_exists in X. destruct X as (f & Hf & X). destruct (g_build f) as [x|] eqn:E; [|discriminate].
  destruct (g_plus f) as [|y l] eqn:F; [discriminate|]. exists f, x, y. rewrite F. cbn. auto.
Qed.

(** A function declared in two files of the build is declared twice. *)
Example C46_test_twice : List.length (decls linux_amd64 (pkg_sha1cd ++ pkg_sha1cd) "block") = 2%nat.
Proof. reflexivity. Qed.

Example C47_example : decls linux_amd64 pkg_cgo "Sum" <> [] /\ decls darwin_arm64 pkg_cgo "Sum" <> [] /\
  map f_sig (decls linux_amd64 pkg_cgo "CalculateDvMask") <> map f_sig (decls darwin_arm64 pkg_cgo "CalculateDvMask").
Proof. repeat split; discriminate. Qed.

(** C48: a CPU with all four, one without SHA, one without any; the assembly is really run in the first case. *)
Definition goldmont : cpu := fun f => mem_str f ["SSE3"; "SSSE3"; "SSE4"; "SHA"; "AVX"]%string.
Definition core2 : cpu := fun f => mem_str f ["SSE3"; "SSSE3"]%string.
Example C48_example : (goldmont "SSE4"%string = true -> goldmont "SSSE3"%string = true) /\ layout_ok (e_lay amd0) /\
  forallb goldmont amd64_features = true /\ forallb core2 amd64_features = false /\
  block_on_amd64 goldmont false (fun _ => amd0) (mkd sh_h1 (repeat x00 64) 0 0 false) sh_b1 =
  blockGeneric (mkd sh_h1 (repeat x00 64) 0 0 false) sh_b1 /\
  option_map dcol (blockGeneric (mkd sh_h1 (repeat x00 64) 0 0 false) sh_b1) = Some true /\
  call_amd64_cpu core2 amd0 IV sh_b1 (repeat 0 80) (mkcs st0 st0 st0) = None.
Proof.
  split; [reflexivity|]. split; [apply lay0_ok|]. split; [reflexivity|]. split; [reflexivity|].
  split; [vm_compute; reflexivity|]. split; vm_compute; reflexivity.
Qed.
Definition m1 : cpu := fun f => String.eqb f "SHA1".
Example C48_arm64_example : layout_ok (ae_lay (arm0 16)) /\ ae_g (arm0 16) 16%nat mod M64 + 64 < M64 /\
  block_on_arm64 m1 false (fun _ => arm0 16) (mkd sh_h1 (repeat x00 64) 0 0 false) sh_b1 =
  blockGeneric (mkd sh_h1 (repeat x00 64) 0 0 false) sh_b1 /\
  call_arm64_cpu (fun _ => false) (arm0 16) IV sh_b1 (repeat 0 80) (mkcs st0 st0 st0) = None.
Proof. split; [apply lay0_ok|]. split; [vm_compute; reflexivity|]. split; vm_compute; reflexivity. Qed.

(** C49: gcc on s390x, glibc only, Solaris on SPARC, MSVC. *)
Local Open Scope string_scope.
Definition val (l : list (string * N)) : macros := fun x => option_map snd (find (fun p => String.eqb (fst p) x) l).
Definition on_gcc : macros := val [("__BYTE_ORDER__", 4321%N); ("__ORDER_BIG_ENDIAN__", 4321%N); ("__ORDER_LITTLE_ENDIAN__", 1234%N)].
Definition on_sparc : macros := val [("__sparc", 1%N)].
Definition on_msvc : macros := val [("_M_X64", 100%N)].
Ltac truth := split; [intros x y v w H; cbn in H; repeat (destruct H as [H|H]; [injection H as <- <-; cbn; intros; try congruence; split; congruence|]); contradiction
                     |intros x H; cbn in H; repeat (destruct H as [<-|H]; [cbn; congruence|]); contradiction].
Example C49_example : truthful on_gcc true /\ tells on_gcc /\ truthful on_sparc true /\ tells on_sparc /\ truthful on_msvc false /\ ~ tells on_msvc /\
  macro_be (build on_gcc true) = true /\ macro_be (build on_sparc true) = true /\ macro_be (build on_msvc false) = false /\
  unaligned (build on_gcc true) = false /\ unaligned (build on_msvc false) = true /\
  macro_be (build (fun _ => None) true) = false.
Proof.
  split; [truth|]. split; [left; cbn; split; congruence|]. split; [truth|].
  split; [right; right; right; exists "__sparc"; cbn; split; [tauto|congruence]|]. split; [truth|]. split.
  { intros [[H _]|[[H _]|[[H _]|(x & H & N)]]]; try (apply H; reflexivity).
    cbn in H. repeat (destruct H as [<-|H]; [apply N; reflexivity|]). contradiction. }
  repeat split; reflexivity.
Qed.
Example C49_forced_example : macro_be (build (val [("SHA1DC_FORCE_BIGENDIAN", 1%N)]) false) = true /\
  macro_be (build (val [("SHA1DC_FORCE_LITTLEENDIAN", 1%N); ("__sparc", 1%N)]) true) = false /\
  unaligned (build (val [("SHA1DC_FORCE_ALIGNED_ACCESS", 1%N); ("_M_X64", 100%N)]) false) = false.
Proof. repeat split; reflexivity. Qed.
Local Close Scope string_scope.

(** C50: on the first SHAmbles block, with junk in W. *)
Example C50_example : wfst sh_h1 /\ List.length (words_of sh_b1) = 16%nat /\
  sha1_compression (repeat 7 80) sh_h1 (words_of sh_b1) = compress sh_h1 (words_of sh_b1).
Proof. split; [repeat split; reflexivity|]. split; [reflexivity|]. vm_compute. reflexivity. Qed.

(** C51: test step 40. *)
Definition only40 : string -> bool := String.eqb "DOSTORESTATE40".
Example C51_example : only40 (dostore_name 40) = true /\
  (let '(h', W, sts) := states_with only40 (mkcfg true true false) sh_h1 sh_b1 (repeat 0 80) (repeat st0 80) in
   h' = compress sh_h1 (words_of sh_b1) /\ step_with only40 40 W (nth 40 sts st0) = Some (sh_h1, h') /\
   step_with only40 58 W (nth 58 sts st0) = None).
Proof. split; [reflexivity|]. vm_compute. repeat split; reflexivity. Qed.

(** C52: a table with the one row that finds the SHAmbles block, and one without it. *)
Definition row27 : list dvinfo := [nth 27 dvs_go terminator].
Definition ending : dvinfo := last dvs_go terminator.
Example C52_example : dvType ending = 0 /\ Forall (fun v => In (testT v) [0; 58; 65]) row27 /\ Forall (fun v => In (testT v) [0; 58; 65]) (firstn 32 dvs_go) /\
  option_map dcol (blockGeneric_in (row27 ++ [ending]) tb_d tb_b) = Some true /\
  blockGeneric_in (row27 ++ [ending]) tb_d tb_b = blockGeneric tb_d tb_b /\
  option_map dcol (blockGeneric_in (firstn 27 dvs_go ++ [ending]) tb_d tb_b) = Some false /\ wfst (dh tb_d) /\ blocks tb_b = [tb_b].
Proof.
  split; [reflexivity|]. split; [repeat (constructor; [vm_compute; tauto|]); constructor|]. split; [repeat (constructor; [vm_compute; tauto|]); constructor|].
  split; [vm_compute; reflexivity|]. split; [vm_compute; reflexivity|]. split; [vm_compute; reflexivity|]. split; [repeat split; reflexivity|reflexivity].
Qed.
