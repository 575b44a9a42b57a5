(** For each theorem of Properties_C a concrete case that meets its hypotheses (tests, not proofs). *)

From Coq Require Import Arith NArith ZArith String List Strings.Byte Bool Lia.
From Verif Require Import Word WordFacts Spec_Sha1 Spec_DV Spec_Cd Spec_Api Spec_C Model_Ubc Model_Go Model_Api Model_Block Model_CSteps Gen_CSteps Model_C Model_CBuild Model_CApi
  UbcReflect GoCheck GoDetect GoProps GoRefute CSteps CProcess CCtx CGo CProps DvFacts Data_Shambles Properties_C Examples_Go.
Import ListNotations.
Local Open Scope N_scope.

(** A little-endian machine with unaligned access and a big-endian one without. *)
Definition lecfg : ccfg := mkcfg false false true.
Definition becfg : ccfg := mkcfg true true false.

Definition callb (o : op) : bool := match o with OMarshal _ | OUnmarshal _ _ => false | _ => true end.
Lemma callb_ok os : forallb callb os = true -> Forall cgo_call os.
Proof.
  intros H. apply Forall_forall. intros o Ho. rewrite forallb_forall in H. specialize (H o Ho). destruct o; cbn in *; auto; discriminate.
Qed.
Ltac calls := apply callb_ok; vm_compute; reflexivity.

(** Two hashers, one reset in the middle. *)
Definition exc1 : list op :=
  [ONew; OWrite 0 (firstn 70 m130); OSum 0 [xff]; ONew; OWrite 1 (firstn 100 shambles1); OWrite 0 (skipn 70 m130); OWrite 1 (skipn 100 shambles1);
   OCRSum 0 [x01]; OCRSum 1 []; OSize 1; OReset 1; OWrite 1 abc; OCRSum 1 []; OBlockSize 0; OSumPkg abc].
Definition sh_digest : list byte := Eval vm_compute in digest_after shambles1.
Definition exc1_results : list res :=
  [RNew 0; RNum 70; RBytes (xff :: sha1 (firstn 70 m130)); RNew 1; RNum 100; RNum 60; RNum (length shambles1 - 100);
   RVerdict (x01 :: sha1 m130) false; RVerdict sh_digest true; RNum 20; RUnit; RNum 3; RVerdict (sha1 abc) false; RNum 64; RVerdict (sha1 abc) false].

Example C30_example : scoped 0 exc1 /\ Forall cgo_call exc1 /\ written 1 (firstn 8 exc1) = Some shambles1 /\
  option_map snd (c_run lecfg [] exc1) = Some exc1_results /\ option_map snd (c_run becfg [] (skipn 14 exc1)) = Some (skipn 14 exc1_results) /\
  bytes_eqb sh_digest (sha1 shambles1) = false.
Proof.
  split; [scope|]. split; [calls|]. split; [vm_compute; reflexivity|].
  split; [vm_compute; reflexivity|]. split; vm_compute; reflexivity.
Qed.
Example C30_reset_example : exc1 = firstn 10 exc1 ++ OReset 1 :: skipn 11 exc1 /\
  option_map snd (c_run lecfg [] (solo 1 (skipn 11 exc1))) = Some (RNew 0 :: pick 1 (skipn 11 exc1) (skipn 11 exc1_results)).
Proof. split; [reflexivity|vm_compute; reflexivity]. Qed.

(** C21: no block of the SHAmbles file satisfies the conditions of a vector with test step 58. *)
Definition no58w (mask : N) : bool :=
  forallb (fun d => implb (test_step (the_dv d) =? 58)%nat (negb (N.testbit mask (N.of_nat d)))) (seq 0 32).
Definition mask_of (b : list byte) : N := CalculateDvMask (Some (schedule (words_of b))).
Lemma no58w_ok mask d : no58w mask = true -> (d < 32)%nat -> test_step (the_dv d) = 58%nat -> N.testbit mask (N.of_nat d) = true -> False.
Proof.
  intros F Hd Ht Hu. unfold no58w in F. rewrite forallb_forall in F.
  assert (I : In d (seq 0 32)) by (apply in_seq; lia).
  apply F in I. rewrite Hu, Ht in I. exact (diff_false_true I).
Qed.
Lemma no58_ok bs : forallb no58w (map mask_of bs) = true ->
  forall b d, In b bs -> (d < 32)%nat -> test_step (the_dv d) = 58%nat -> ~ ubc_holds d (schedule (words_of b)).
Proof.
  intros F b d Hb Hd Ht Hu. apply (mask_go_spec _ d Hd) in Hu.
  exact (no58w_ok (mask_of b) d (proj1 (forallb_forall no58w _) F (mask_of b) (in_map mask_of bs b Hb)) Hd Ht Hu).
Qed.
Lemma shambles_no58 : forallb no58w (map mask_of (blocks (pad shambles1))) = true.
Proof. vm_compute. reflexivity. Qed.
Example C21_example : nth_error (calls exp1) 8 = Some (OCRSum 1 []) /\ written 1 (firstn 8 (calls exp1)) = Some shambles1 /\
  nth_error exc1 8 = Some (OCRSum 1 []) /\ written 1 (firstn 8 exc1) = Some shambles1 /\
  (forall b d, In b (blocks (pad shambles1)) -> (d < 32)%nat -> test_step (the_dv d) = 58%nat -> ~ ubc_holds d (schedule (words_of b))).
Proof.
  split; [reflexivity|]. split; [vm_compute; reflexivity|]. split; [reflexivity|]. split; [vm_compute; reflexivity|].
  exact (no58_ok _ shambles_no58).
Qed.

(** C37: the colliding block of the file; and a state and message expansion that belong to no message. *)
Example C37_example : wfst sh_h1 /\ length sh_b1 = 64%nat /\
  (let '(h, W, sts) := sha1_compression_states lecfg sh_h1 sh_b1 (repeat 0 80) (repeat st0 80) in
   sha1_recompression_step 58 W (nth 58 sts st0) = Some (sh_h1, h) /\ sha1_recompression_step 65 W (nth 65 sts st0) = Some (sh_h1, h) /\
   nth 58 sts st0 <> state_at 58 sh_h1 (words_of sh_b1) /\ sha1_recompression_step 60 W (nth 65 sts st0) = None).
Proof.
  split; [repeat split; reflexivity|]. split; [reflexivity|]. vm_compute.
  split; [reflexivity|]. split; [reflexivity|]. split; [discriminate|reflexivity].
Qed.
Example C37_any_example : let W := map (fun k => N.of_nat k * 0x3333333) (seq 0 80) in length W = 80%nat /\
  match sha1_recompression_step 58 W (mkst 1 2 3 4 5) with Some (a, b) => negb (sa a =? sa b) | None => false end = true.
Proof. vm_compute. auto. Qed.

(** C38: all four switches make a difference or not as expected. *)
Definition off : list cop := [CSetUseUBC 3; CSetUseDetectColl 0].
Definition unsafe : list cop := [CSetSafeHash 0; CSetReduced 1; CSetCallback 7].
Example C38_example : ctx_typed zero_ctx /\ o_detect (opts_of off) = false /\ o_safe (opts_of unsafe) = false /\
  Forall (fun c => setter c = true) off /\ Forall (fun c => setter c = true) unsafe /\
  weaker (opts_of off) (opts_of []) /\ weaker (opts_of []) (opts_of unsafe) /\ ~ weaker (opts_of unsafe) (opts_of []) /\
  option_map (fun r => last (snd r) CNone) (capi_run lecfg zero_ctx (session off [firstn 100 shambles1; skipn 100 shambles1])) =
    Some (CDigest (sha1 shambles1) 0) /\
  option_map (fun r => last (snd r) CNone) (capi_run becfg zero_ctx (session unsafe [firstn 100 shambles1; skipn 100 shambles1])) =
    Some (CDigest (sha1 shambles1) 1) /\
  option_map (fun r => last (snd r) CNone) (capi_run lecfg zero_ctx (session [] [shambles1])) = Some (CDigest sh_digest 1).
Proof.
  split; [repeat split; reflexivity|]. split; [reflexivity|]. split; [reflexivity|].
  split; [repeat constructor|]. split; [repeat constructor|].
  split; [repeat split; cbn; auto; discriminate|]. split; [repeat split; cbn; auto; discriminate|].
  split; [intros (_ & _ & H); discriminate (H eq_refl)|].
  split; [vm_compute; reflexivity|]. split; vm_compute; reflexivity.
Qed.

(** C39: the ninth block makes the verdict. *)
Example C39_example : nth_error (blocks (pad shambles1)) 9 = Some sh_b1 /\ attacked sh_h1 (words_of sh_b1).
Proof. split; [vm_compute; reflexivity|]. exists 27%nat. exact sh_attacked. Qed.

(** C41: a context with arbitrary contents, options changed between updates, an update after the final call, and a second message. *)
Definition junk : ctx :=
  mkctx 12345 (mkst 1 2 3 4 5) (repeat xaa 64) 17 0 0 9 1 99 st0 (mkst 5 4 3 2 1) (repeat 3 80) (repeat 7 80) (repeat (mkst 9 9 9 9 9) 80).
Definition exops : list cop :=
  [CUpdate (firstn 70 m130); CSetSafeHash 0; CUpdate (skipn 70 m130); CFinal; CUpdate abc; CFinal; CInit; CUpdate abc; CFinal].
Example C41_example : ctx_typed junk /\
  option_map (fun r => nth 4 (snd r) CNone) (capi_run lecfg junk (CInit :: exops)) = Some (CDigest (sha1 m130) 0) /\
  option_map (fun r => nth 9 (snd r) CNone) (capi_run lecfg junk (CInit :: exops)) = Some (CDigest (sha1 abc) 0) /\
  option_map (fun r => match nth 6 (snd r) CNone with CDigest b _ => bytes_eqb b (sha1 (m130 ++ abc)) | CNone => true end)
    (capi_run lecfg junk (CInit :: exops)) = Some false.
Proof. split; [repeat split; reflexivity|]. split; [vm_compute; reflexivity|]. split; vm_compute; reflexivity. Qed.

Definition ctx_at (h : st) : ctx := set_ihv h (SHA1DCInit zero_ctx).
Example C42_example : ctx_typed (ctx_at sh_h1) /\ wfst (c_ihv (ctx_at sh_h1)) /\ truth (c_detect (ctx_at sh_h1)) = true /\
  attacked_by 27 (c_ihv (ctx_at sh_h1)) (words_of sh_b1) /\ words_of sh_b2 = sib_block (the_dv 27) (words_of sh_b1) /\
  option_map c_found (sha1_process lecfg (ctx_at sh_h2) sh_b2) = Some 1%Z.
Proof.
  split; [repeat split; reflexivity|]. split; [repeat split; reflexivity|]. split; [reflexivity|]. split; [exact sh_attacked|].
  split; vm_compute; reflexivity.
Qed.

Example C43_example : filter not_callback (CSetCallback 7 :: exops) = exops /\
  option_map snd (capi_run lecfg junk (CInit :: CSetCallback 7 :: exops)) =
  option_map (fun r => CNone :: snd r) (capi_run lecfg junk (CInit :: exops)).
Proof. split; vm_compute; reflexivity. Qed.

(** C44: gcc on s390x; a compiler without any of the macros on a big-endian machine gets a wrong digest. *)
Local Open Scope string_scope.
Definition gcc_s390x : macros := fun x =>
  if x =? "__BYTE_ORDER__" then Some 4321%N else if x =? "__ORDER_BIG_ENDIAN__" then Some 4321%N else if x =? "__s390x__" then Some 1%N else None.
Definition gcc_amd64 : macros := fun x =>
  if x =? "__BYTE_ORDER__" then Some 1234%N else if x =? "__ORDER_BIG_ENDIAN__" then Some 4321%N else if x =? "__x86_64__" then Some 1%N else None.
Example C44_example : macro_be (build gcc_s390x true) = true /\ unaligned (build gcc_s390x true) = false /\
  macro_be (build gcc_amd64 false) = false /\ unaligned (build gcc_amd64 false) = true /\
  isdef gcc_s390x "__BYTE_ORDER__" = true /\ isdef gcc_s390x "SHA1DC_FORCE_BIGENDIAN" = false /\
  match option_map snd (c_run (build (fun _ => None) true) [] [OSumPkg abc]) with
  | Some [RVerdict b _] => bytes_eqb b (sha1 abc) | _ => true end = false.
Proof. repeat (split; [reflexivity|]). vm_compute. reflexivity. Qed.

Example C45_example : decides go_decide go_detects /\ fallback_Sum (block_of Generic) shambles1 = Some (sh_digest, true).
Proof. split; [exact go_decide_ok|vm_compute; reflexivity]. Qed.
Example C45_new_example : scoped 1 (calls [(Generic, OWrite 0 abc); (Generic, ONew); (Generic, OWrite 1 m130); (Generic, OCRSum 0 [x01]); (Generic, OCRSum 1 [])]) /\
  option_map snd (run false [fallback_New] [(blockGeneric, OWrite 0 abc); (blockGeneric, ONew); (blockGeneric, OWrite 1 m130); (blockGeneric, OCRSum 0 [x01]); (blockGeneric, OCRSum 1 [])]) =
  Some [RNum 3; RNew 1; RNum 130; RVerdict (x01 :: sha1 abc) false; RVerdict (sha1 m130) false].
Proof. split; [cbn; lia|vm_compute; reflexivity]. Qed.
Example C22_package_cgo_example : cgo_CalculateDvMask (schedule (words_of sh_b1)) = N.shiftl 1 27 /\ cgo_CalculateDvMask (repeat 0 80) <> N.shiftl 1 27.
Proof. split; [vm_compute; reflexivity|vm_compute; discriminate]. Qed.
