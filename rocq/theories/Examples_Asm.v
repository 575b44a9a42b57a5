(** For each theorem of Properties_Asm a concrete case that meets its hypotheses (tests, not proofs). *)

From Coq Require Import Arith NArith List Strings.Byte Bool Lia.
From Verif Require Import Word Spec_Sha1 Spec_Api Model_Go Model_Asm Model_Amd64 Gen_Amd64 Model_Arm64 Gen_Arm64 Model_Api Model_Block GoApi GoAmd64 GoArm64 GoAsm
  Model_Trace Data_Shambles Examples_Go Properties_Asm.
Import ListNotations.
Local Open Scope N_scope.

(** The first near-collision block of the SHAmbles file is flagged and compressed three times by both routines. *)
Definition sh_digest : digest := mkd sh_h1 (repeat x00 64) 0 576 false.
Example C20_example : (forall k : nat, layout_ok (e_lay ((fun _ => amd0) k))) /\ wfst (dh sh_digest) /\
  block_amd64 (fun _ => amd0) sh_digest (sh_b1 ++ abc_block) = blockGeneric sh_digest (sh_b1 ++ abc_block) /\
  option_map dcol (block_amd64 (fun _ => amd0) sh_digest (sh_b1 ++ abc_block)) = Some true.
Proof. split; [intros; exact lay0_ok|]. split; [repeat split|]. split; vm_compute; reflexivity. Qed.

Example C26_example : layout_ok (e_lay amd0) /\ wfst sh_h1 /\ length sh_b1 = 64%nat /\
  option_map (fun r => rectify (snd (fst r)) (snd r)) (call_amd64 amd64_prog upper_mask shuffle_mask amd0 sh_h1 sh_b1 (repeat 7 80) (mkcs sh_h1 sh_h1 sh_h1)) =
  Some (pcs (g_pass sh_b1 sh_h1 (repeat 3 16) (repeat 5 80) (mkcs st0 st0 st0))).
Proof. split; [exact lay0_ok|]. split; [repeat split|]. split; vm_compute; reflexivity. Qed.
Example C26_example_arm64 : layout_ok (ae_lay (arm0 42)) /\ ae_g (arm0 42) 16%nat mod M64 + 64 < M64 /\
  option_map (fun r => rectify (snd (fst r)) (snd r)) (call_arm64 arm64_prog sha1Ks (arm0 42) sh_h1 sh_b1 (repeat 7 80) (mkcs sh_h1 sh_h1 sh_h1)) =
  Some (pcs (g_pass sh_b1 sh_h1 (repeat 3 16) (repeat 5 80) (mkcs st0 st0 st0))).
Proof. split; [exact lay0_ok|]. split; vm_compute; reflexivity. Qed.

(** One hasher, a different implementation for each call. *)
Definition on_amd : impl := Amd64 (fun _ _ _ => amd0) (fun _ _ _ => lay0_ok).
Definition on_arm : impl := Arm64 (fun _ _ _ => arm0 42) (fun _ _ _ => conj lay0_ok eq_refl).
Definition mixed : program := [(on_amd, ONew); (on_amd, OWrite 0 (repeat x61 70)); (on_arm, OWrite 0 (repeat x62 70)); (Generic, OWrite 0 (repeat x63 70)); (on_arm, OCRSum 0 [])].
Example C31_example : calls mixed = calls (prog1 [ONew; OWrite 0 (repeat x61 70); OWrite 0 (repeat x62 70); OWrite 0 (repeat x63 70); OCRSum 0 []]) /\
  option_map snd (run_program false mixed) =
  option_map snd (run_program false (prog1 [ONew; OWrite 0 (repeat x61 70); OWrite 0 (repeat x62 70); OWrite 0 (repeat x63 70); OCRSum 0 []])) /\
  scoped 0 (calls mixed).
Proof. split; [reflexivity|]. split; [vm_compute; reflexivity|]. scope. Qed.

Example C35_example : layout_ok (ae_lay (arm0 42)) /\ ae_g (arm0 42) 16%nat mod M64 + 64 < M64 /\ wfst (dh sh_digest) /\
  block_arm64 (fun _ => arm0 42) sh_digest (sh_b1 ++ abc_block) = blockGeneric sh_digest (sh_b1 ++ abc_block).
Proof. split; [exact lay0_ok|]. split; [reflexivity|]. split; [repeat split|]. vm_compute. reflexivity. Qed.
Example C35_skip_example : M64 <= ae_g (arm0 (2^64 - 64)) 16%nat mod M64 + 64 /\
  option_map (fun r => fst (fst r)) (call_arm64 arm64_prog sha1Ks (arm0 (2^64 - 64)) sh_h1 sh_b1 (repeat 7 80) (mkcs sh_h1 sh_h1 sh_h1)) = Some sh_h1 /\
  option_map (fun r => fst (fst r)) (call_arm64 arm64_prog sha1Ks (arm0 (2^64 - 65)) sh_h1 sh_b1 (repeat 7 80) (mkcs sh_h1 sh_h1 sh_h1)) = Some (compress sh_h1 (words_of sh_b1)).
Proof. split; [discriminate|]. split; vm_compute; reflexivity. Qed.

(** The frame of the example layout is not 16-aligned; the byte before h is unchanged, the bytes of h are not. *)
Example C36_example : layout_ok lay0 /\ l_frame lay0 mod 16 = 8 /\
  match Model_Amd64.exec lay0 amd64_prog 1000 (entry upper_mask shuffle_mask amd0 sh_h1 sh_b1 (repeat 7 80) (mkcs sh_h1 sh_h1 sh_h1)) with
  | Some s => (mm s (l_h lay0 - 1), mm s (l_h lay0)) = (xff, n2b (sa (compress sh_h1 (words_of sh_b1)) mod 2^8))
  | None => False
  end.
Proof. split; [exact lay0_ok|]. split; vm_compute; reflexivity. Qed.

(** C54: both routines finish; other registers do change. *)
Example C54_example :
  match Model_Amd64.exec lay0 amd64_prog 1000 (entry upper_mask shuffle_mask amd0 sh_h1 sh_b1 (repeat 7 80) (mkcs sh_h1 sh_h1 sh_h1)) with
  | Some s => gr s SP = l_frame lay0 /\ gr s SI <> e_gr amd0 SI
  | None => False
  end /\
  match xexec lay0 arm64_prog 1000 (aentry sha1Ks (arm0 42) sh_h1 sh_b1 (repeat 7 80) (mkcs sh_h1 sh_h1 sh_h1)) with
  | Some s => xg s 28%nat = ae_g (arm0 42) 28%nat mod M64 /\ xg s 1%nat <> ae_g (arm0 42) 1%nat
  | None => False
  end.
Proof. split; vm_compute; (split; [reflexivity|discriminate]). Qed.

(** C55: all 200 instructions, up to the RET, with 45 memory accesses; 173 with 40 on arm64. *)
Example C55_example : layout_ok (e_lay amd0) /\ length sh_b1 = 64%nat /\
  (let t := trace lay0 amd64_prog 1000 (entry upper_mask shuffle_mask amd0 sh_h1 sh_b1 (repeat 7 80) (mkcs sh_h1 sh_h1 sh_h1)) in
   (length t, length (concat (map snd t)), fst (last t (0%nat, []))) = (200, 45, 199)%nat) /\
  (let t := xtrace lay0 arm64_prog 1000 (aentry sha1Ks (arm0 42) sh_h1 sh_b1 (repeat 7 80) (mkcs sh_h1 sh_h1 sh_h1)) in
   (length t, length (concat (map snd t)), fst (last t (0%nat, []))) = (173, 40, 172)%nat).
Proof. split; [exact lay0_ok|]. split; [reflexivity|]. split; vm_compute; reflexivity. Qed.

(** C55: a load that succeeds, and a memory that differs at another address. *)
Example C55_accesses_example :
  let s := entry upper_mask shuffle_mask amd0 sh_h1 sh_b1 (repeat 7 80) (mkcs sh_h1 sh_h1 sh_h1) in
  let i := MOVQ_load (mka BFP 24) SI in
  match step_instr lay0 i s with Some s1 => gr s1 SI = l_p lay0 | None => False end /\
  touched lay0 i s = [(l_args lay0 + 24, 8)] /\
  (forall x, covered (touched lay0 i s) x -> poke (mm s) (l_args lay0 + 32) [xaa] x = mm s x).
Proof.
  cbv zeta. split; [vm_compute; reflexivity|]. split; [vm_compute; reflexivity|].
  intros x (a & n & Hin & Hx). cbn [touched] in Hin. destruct Hin as [Hin|[]].
  unfold poke. cbn [length]. assert (E : (l_args lay0 + 32 <=? x) = false); [|rewrite E; reflexivity].
  apply N.leb_gt. assert (Ea : a = l_args lay0 + 24) by (apply (f_equal fst) in Hin; cbn [fst] in Hin; rewrite <- Hin; vm_compute; reflexivity).
  assert (En : n = 8) by (apply (f_equal snd) in Hin; cbn [snd] in Hin; congruence). rewrite Ea, En in Hx. lia.
Qed.
