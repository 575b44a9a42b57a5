(** Properties of the build configurations (properties.jsonl), stated about the model.

    Reading guide: [e : tags] says which build tags are satisfied; [decls e pkg n]: the declarations of name [n] in the files of
    [pkg] that the go command compiles under [e]; [texts e pkg]: the TEXT symbols of the assembly files among them.  [c : cpu]: the
    extensions a CPU has; an instruction it lacks is a fault ([None]).  [m]: the macros of a C compiler; [build m be]: what the
    preprocessor makes of them on a machine of byte order [be].  [def]: which DOSTORESTATE macros are defined.
    [blockGeneric_in T]: the generic block function when the table of disturbance vectors holds [T]. *)

From Coq Require Import Arith NArith String List Strings.Byte Bool.
From Verif Require Import Word Spec_Sha1 Spec_Build Model_Go Model_Asm Model_Amd64 Model_Arm64 Model_Build Gen_Build Model_Block Model_Cpu
  Model_CSteps Model_C Model_CBuild Model_CDead BuildFacts CDead Model_Ubc Gen_DvsGo Model_Table Spec_Cd GoTable.
Import ListNotations.
Local Open Scope N_scope.

(** C46; missing: GOARCH amd64 and arm64 with a compiler other than gc and without the tag noasm (C46_gccgo_refuted).
    Tag sets with both architectures do not occur and are not excluded here. *)
Theorem C46_block_definitions_partial : forall e : tags,
  List.length (decls e pkg_sha1cd "block") = 1%nat <->
  e "noasm"%string = true \/ (e "amd64"%string = false /\ e "arm64"%string = false) \/
  (e "gc"%string = true /\ e "amd64"%string <> e "arm64"%string).
Proof. exact block_decls. Qed.
Print Assumptions C46_block_definitions_partial.

Theorem C46_gccgo_refuted : exists e : tags,
  e "gccgo"%string = true /\ e "gc"%string = false /\ e "noasm"%string = false /\ e "amd64"%string = true /\
  (forall a, In a known_arch -> a <> "amd64"%string -> e a = false) /\ decls e pkg_sha1cd "block" = [].
Proof. exact gccgo_no_block. Qed.
Print Assumptions C46_gccgo_refuted.

Theorem C46_no_duplicates : forall e : tags,
  NoDup (map f_name (funcs e pkg_sha1cd)) /\ NoDup (texts e pkg_sha1cd).
Proof. exact sha1cd_nodup. Qed.
Print Assumptions C46_no_duplicates.

Theorem C46_no_duplicates_cgo : forall e : tags, NoDup (map f_name (funcs e pkg_cgo)).
Proof. exact cgo_nodup. Qed.
Print Assumptions C46_no_duplicates_cgo.

(** A function without a body has its assembly in the same build, and the other way round. *)
Theorem C46_bodies : forall (e : tags) n,
  In n (texts e pkg_sha1cd) <-> exists f, In f (funcs e pkg_sha1cd) /\ f_name f = n /\ f_body f = false.
Proof. exact sha1cd_bodies. Qed.
Print Assumptions C46_bodies.

Theorem C46_old_constraint_lines : forall (e : tags) f x y,
  In f (pkg_sha1cd ++ pkg_cgo) -> g_build f = Some x -> In y (g_plus f) -> beval e y = beval e x.
Proof. exact plus_agrees. Qed.
Print Assumptions C46_old_constraint_lines.

(** C47; missing: CalculateDvMask and the constants (C47_api_refuted). *)
Theorem C47_same_signatures_partial : forall (e1 e2 : tags) n, In n ["New"; "Sum"]%string ->
  map f_sig (decls e1 pkg_cgo n) = map f_sig (decls e2 pkg_cgo n).
Proof. exact cgo_same_sigs. Qed.
Print Assumptions C47_same_signatures_partial.

Theorem C47_declared_once : forall (e : tags) n, In n ["New"; "Sum"; "CalculateDvMask"]%string ->
  List.length (decls e pkg_cgo n) = 1%nat /\ Forall (fun f => f_body f = true) (decls e pkg_cgo n).
Proof. exact cgo_decls. Qed.
Print Assumptions C47_declared_once.

Theorem C47_api_refuted : exists e1 e2 : tags, (forall t, t <> "cgo"%string -> e1 t = e2 t) /\
  map f_sig (decls e1 pkg_cgo "CalculateDvMask") <> map f_sig (decls e2 pkg_cgo "CalculateDvMask") /\
  consts e1 pkg_cgo = ["Size"; "BlockSize"]%string /\ consts e2 pkg_cgo = [].
Proof. exact cgo_differ. Qed.
Print Assumptions C47_api_refuted.

(** C48; missing: a CPU with SSE4.1, AVX and SHA but without SSSE3 (C48_ssse3_refuted). *)
Theorem C48_amd64_cpus_partial : forall c force e d p, (c "SSE4"%string = true -> c "SSSE3"%string = true) ->
  (forall k, layout_ok (e_lay (e k))) -> wfst (dh d) ->
  exists d', block_on_amd64 c force e d p = Some d' /\ blockGeneric d p = Some d'.
Proof. exact on_amd64_same. Qed.
Print Assumptions C48_amd64_cpus_partial.

(** With R16 such that its walk over the stack does not wrap, as in C31 and C35. *)
Theorem C48_arm64_cpus_partial : forall c force e d p,
  (forall k, layout_ok (ae_lay (e k)) /\ ae_g (e k) 16%nat mod M64 + 64 < M64) -> wfst (dh d) ->
  exists d', block_on_arm64 c force e d p = Some d' /\ blockGeneric d p = Some d'.
Proof. exact on_arm64_same. Qed.
Print Assumptions C48_arm64_cpus_partial.

Theorem C48_ssse3_refuted : exists c e d p, (forall k, layout_ok (e_lay (e k))) /\ wfst (dh d) /\ List.length p = 64%nat /\
  forallb c amd64_features = true /\ block_on_amd64 c false e d p = None /\ blockGeneric d p <> None.
Proof. exact ssse3_fault. Qed.
Print Assumptions C48_ssse3_refuted.

Theorem C49_byte_order_iff : forall m be, truthful m be ->
  m "SHA1DC_FORCE_LITTLEENDIAN"%string = None -> m "SHA1DC_FORCE_BIGENDIAN"%string = None ->
  (host_be (build m be) = macro_be (build m be) <-> be = false \/ tells m).
Proof. exact order_right. Qed.
Print Assumptions C49_byte_order_iff.

Theorem C49_forced_order : forall m be,
  (m "SHA1DC_FORCE_BIGENDIAN"%string <> None -> macro_be (build m be) = true) /\
  (m "SHA1DC_FORCE_BIGENDIAN"%string = None -> m "SHA1DC_FORCE_LITTLEENDIAN"%string <> None -> macro_be (build m be) = false).
Proof. exact order_forced. Qed.
Print Assumptions C49_forced_order.

Theorem C49_unaligned_access : forall m be, unaligned (build m be) = true <->
  m "SHA1DC_FORCE_ALIGNED_ACCESS"%string = None /\
  (m "SHA1DC_FORCE_UNALIGNED_ACCESS"%string <> None \/ exists x, In x x86_macros /\ m x <> None).
Proof. exact unaligned_iff. Qed.
Print Assumptions C49_unaligned_access.

Theorem C50_plain_compression : forall w0 h M, List.length w0 = 80%nat -> wfst h -> List.length M = 16%nat ->
  sha1_compression w0 h M = compress h M.
Proof. exact sha1_compression_eq. Qed.
Print Assumptions C50_plain_compression.

(** C51; missing: steps 0 to 9, whose states are recorded under another macro than the one that enables their
    recompression (C51_step5_refuted). *)
Theorem C51_other_test_steps_partial : forall def cfg h block W0 sts t me2, host_be cfg = macro_be cfg -> wfst h ->
  List.length block = 64%nat -> List.length W0 = 80%nat -> List.length sts = 80%nat ->
  (10 <= t < 80)%nat -> def (dostore_name t) = true -> List.length me2 = 80%nat ->
  exists sts' s hin hout, states_with def cfg h block W0 sts = (compress h (words_of block), schedule (words_of block), sts') /\
    nth_error sts' t = Some s /\ step_with def t me2 s = Some (hin, hout) /\
    steps 0 (firstn t me2) hin = state_at t h (words_of block) /\ hout = addst hin (steps 0 me2 hin).
Proof. exact other_steps. Qed.
Print Assumptions C51_other_test_steps_partial.

Theorem C51_step5_refuted : exists def cfg h block sts sts' s, def (dostore_name 5) = true /\ host_be cfg = macro_be cfg /\ wfst h /\
  List.length block = 64%nat /\ List.length sts = 80%nat /\
  states_with def cfg h block (repeat 0 80) sts = (compress h (words_of block), schedule (words_of block), sts') /\
  nth_error sts' 5 = Some s /\
  step_with def 5 (schedule (words_of block)) s <> Some (h, compress h (words_of block)).
Proof. exact step5_not_stored. Qed.
Print Assumptions C51_step5_refuted.

(** The library as it is built is the case of the macros of ubc_check.h. *)
Theorem C51_default_macros : (forall cfg h b W s, states_with defined cfg h b W s = sha1_compression_states cfg h b W s) /\
  (forall t W s, step_with defined t W s = sha1_recompression_step t W s).
Proof. exact default_macros. Qed.
Print Assumptions C51_default_macros.

(** C52: the table is reachable through ubc.SHA1_dvs() and a store into it switches detection off. *)
Theorem C52_detection_off_refuted : exists i v T d p d1 d2, store_dv dvs_go i v = Some T /\ wfst (dh d) /\ List.length p = 64%nat /\
  blockGeneric_in dvs_go d p = Some d1 /\ dcol d1 = true /\ blockGeneric_in T d p = Some d2 /\ dcol d2 = false.
Proof. exact table_off. Qed.
Print Assumptions C52_detection_off_refuted.

Theorem C52_panic_refuted : exists i v T d p, store_dv dvs_go i v = Some T /\ wfst (dh d) /\ List.length p = 64%nat /\
  dvType v <> 0 /\ blockGeneric_in dvs_go d p <> None /\ blockGeneric_in T d p = None.
Proof. exact table_panic. Qed.
Print Assumptions C52_panic_refuted.

(** What holds for every contents: blocks that are not flagged are hashed with plain SHA-1. *)
Theorem C52_unflagged_partial : forall T d p d', wfst (dh d) -> blockGeneric_in T d p = Some d' -> dcol d' = false ->
  dcol d = false /\ dh d' = fold_left (fun h b => compress h (words_of b)) (blocks p) (dh d).
Proof. exact table_unflagged. Qed.
Print Assumptions C52_unflagged_partial.

(** With a terminator and test steps among the stored ones: no panic, and safe hashing under some detection predicate. *)
Theorem C52_any_table_partial : forall T z U, dvType z = 0 -> Forall (fun v => In (testT v) [0; 58; 65]) T ->
  exists D, forall d p, wfst (dh d) ->
    blockGeneric_in (T ++ z :: U) d p = Some (let r := cd_blocks D (dh d, dcol d) (blocks p) in mkd (fst r) (dx d) (dnx d) (dlen d) (snd r)).
Proof. exact table_any. Qed.
Print Assumptions C52_any_table_partial.

Theorem C52_initial_table : forall d p, blockGeneric_in dvs_go d p = blockGeneric d p.
Proof. exact table_default. Qed.
Print Assumptions C52_initial_table.
