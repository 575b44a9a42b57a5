(** For each theorem of Properties_Go a concrete case that meets its hypotheses (tests, not proofs). *)

From Coq Require Import Arith NArith List Strings.Byte Bool Lia.
From Verif Require Import Word WordFacts Spec_Sha1 Sha1Facts Spec_UbcTable Spec_DV Spec_Cd Spec_Api Model_Ubc Gen_UbcGo Gen_UbcC Gen_DvsGo Gen_DvsC
  Model_Go Model_Api Model_Block Model_Slice UbcReflect GoCheck GoApi GoStore GoProps GoProps2 GoProps3 GoDetect GoRefute GoSlices DvFacts
  Data_Shambles Properties_Go.
Import ListNotations.
Local Open Scope N_scope.

Fixpoint scopedb (n : nat) (ops : list op) : bool :=
  match ops with
  | [] => true
  | o :: r => match target o with Some i => Nat.ltb i n | None => true end &&
              scopedb (match o with ONew => S n | _ => n end) r
  end.
Lemma scopedb_ok ops : forall n, scopedb n ops = true -> scoped n ops.
Proof.
  induction ops as [|o r IH]; intros n H; [exact I|]. cbn [scopedb scoped] in *.
  apply andb_prop in H. destruct H as [H1 H2]. split; [|apply IH; exact H2].
  destruct (target o); [apply Nat.ltb_lt; exact H1|exact I].
Qed.
Ltac scope := apply scopedb_ok; vm_compute; reflexivity.

(** The golden value of "abc". *)
Example test_abc : SumPkg false blockGeneric [x61; x62; x63] =
  Some ([xa9; x99; x3e; x36; x47; x06; x81; x6a; xba; x3e; x25; x71; x78; x50; xc2; x6c; x9c; xd0; xd8; x9d], false).
Proof. vm_compute. reflexivity. Qed.

(** [go_decide] without evaluating the tests of vectors whose conditions fail. *)
Definition fast_decide (h : st) (M : list N) : bool :=
  let mask := CalculateDvMask (Some (schedule M)) in
  existsb (fun d => if N.testbit mask (N.of_nat d) then go_test d h M else false) (seq 0 32).
Lemma existsb_ext' {A} (f g : A -> bool) l : (forall x, f x = g x) -> existsb f l = existsb g l.
Proof. intros H. induction l as [|x l IH]; [reflexivity|]. cbn [existsb]. rewrite H, IH. reflexivity. Qed.
Lemma fast_decide_ok h M : go_decide h M = fast_decide h M.
Proof.
  unfold go_decide, fast_decide. cbv zeta. apply existsb_ext'. intros d.
  generalize (N.testbit (CalculateDvMask (Some (schedule M))) (N.of_nat d)). generalize (go_test d h M).
  intros [] []; reflexivity.
Qed.
Lemma cd_blocks_ext D E l : (forall h M, D h M = E h M) -> forall s, cd_blocks D s l = cd_blocks E s l.
Proof.
  intros H. unfold cd_blocks, cd_block. induction l as [|b l IH]; intros s; cbn [fold_left]; [reflexivity|]. rewrite IH, H. reflexivity.
Qed.
Lemma fast_blocks l s : cd_blocks go_decide s l = cd_blocks fast_decide s l.
Proof. apply cd_blocks_ext. exact fast_decide_ok. Qed.

(** 130 bytes: two blocks and a rest of two bytes. *)
Definition m130 : list byte := map (fun k => n2b (N.of_nat k * 7)) (seq 0 130).
Definition exp1 : program := prog1
  [ONew; OWrite 0 (firstn 70 m130); OSum 0 [xff]; ONew; OWrite 1 shambles1; OWrite 0 (skipn 70 m130); OCRSum 0 [x01]; OMarshal 0; OCRSum 1 []; OSize 1].
Lemma exp1_scoped : scoped 0 (calls exp1). Proof. scope. Qed.

Example C01_example : scoped 0 (calls exp1) /\ nth_error (calls exp1) 6 = Some (OCRSum 0 [x01]) /\
  written 0 (firstn 6 (calls exp1)) = Some m130 /\
  option_map (fun r => nth_error r 6) (results (run_program false exp1)) = Some (Some (RVerdict (x01 :: sha1 m130) false)).
Proof. split; [exact exp1_scoped|]. vm_compute. auto. Qed.

(** C02, C14, C17: the message is the first SHAmbles file, its digest is not its SHA-1. *)
Example C02_example : decides go_decide go_detects /\ scoped 0 (calls exp1) /\ nth_error (calls exp1) 8 = Some (OCRSum 1 []) /\
  written 1 (firstn 8 (calls exp1)) = Some shambles1 /\
  option_map (fun r => nth_error r 8) (results (run_program false exp1)) = Some (Some (RVerdict (digest_after shambles1) true)) /\
  bytes_eqb (digest_after shambles1) (sha1 shambles1) = false.
Proof.
  split; [exact go_decide_ok|]. split; [exact exp1_scoped|]. split; [reflexivity|]. split; [reflexivity|].
  split; vm_compute; reflexivity.
Qed.
Example C02_sum_example : scoped 0 (calls exp1) /\ nth_error (calls exp1) 2 = Some (OSum 0 [xff]) /\
  written 0 (firstn 2 (calls exp1)) = Some (firstn 70 m130).
Proof. split; [exact exp1_scoped|]. split; reflexivity. Qed.

Definition exp2 : program := prog1 [ONew; OWrite 0 [x00]; OReset 0; ONew; OWrite 1 (firstn 1 m130); OWrite 1 []; OWrite 1 (firstn 64 (skipn 1 m130)); OWrite 1 (skipn 65 m130); OCRSum 1 [x01]].
Example C03_example : scoped 0 (calls exp1) /\ scoped 0 (calls exp2) /\
  nth_error (calls exp1) 6 = Some (OCRSum 0 [x01]) /\ nth_error (calls exp2) 8 = Some (OCRSum 1 [x01]) /\
  written 0 (firstn 6 (calls exp1)) = Some m130 /\ written 1 (firstn 8 (calls exp2)) = Some m130.
Proof. split; [exact exp1_scoped|]. split; [scope|]. repeat split; reflexivity. Qed.

Example C04_example : scoped 0 (calls exp1) /\ length (filter silent exp1) = 5%nat /\ length exp1 = 10%nat.
Proof. split; [exact exp1_scoped|]. split; reflexivity. Qed.

(** Reset after a collision, with stale bytes in the buffer. *)
Example C05_example : scoped 0 (calls (prog1 [ONew; OWrite 0 shambles1; OWrite 0 abc] ++ (Generic, OReset 0) :: prog1 [OWrite 0 abc; OCRSum 0 []; OMarshal 0])) /\
  results (run_program false (prog1 [ONew; OWrite 0 shambles1; OWrite 0 abc; OReset 0; OWrite 0 abc; OCRSum 0 []; OMarshal 0])) =
  Some [RNew 0; RNum 640; RNum 3; RUnit; RNum 3; RVerdict (sha1 abc) false; RBytes (blob_after abc)].
Proof. split; [scope|]. vm_compute. reflexivity. Qed.

Example C06_example : scoped 0 (calls exp1) /\ nth_error (calls exp1) 5 = Some (OWrite 0 (skipn 70 m130)).
Proof. split; [exact exp1_scoped|reflexivity]. Qed.

(** Slices: 3 bytes of a buffer with capacity 40; the sum is appended in place, and to the nil slice in a fresh array. *)
Definition hex1 : list (nat * impl * hop) := map (fun o => (0%nat, Generic, o))
  [HNew; HMake 10 40; HPoke 1 2 x61; HPoke 1 3 x62; HPoke 1 4 x63; HSub 1 2 5 40; HWrite 0 2; HPoke 2 0 x00].
Definition hex1_state : hstate := match hrun false hinit hex1 with Some (s, _) => s | None => hinit end.
Example C07_example : (exists log, hrun false hinit hex1 = Some (hex1_state, log)) /\ length (hdigs hex1_state) = 1%nat /\
  nth_error (hvars hex1_state) 2 = Some (mksl 1 2 3 38) /\
  option_map (fun x => contents (hheap (fst x)) (mksl 1 2 23 38)) (hexec false 0 blockGeneric hex1_state (HSum 0 2)) =
    Some ([x00; x62; x63] ++ sha1 abc) /\
  option_map (fun x => contents (hheap (fst x)) (mksl 2 0 20 20)) (hexec false 0 blockGeneric hex1_state (HSum 0 0)) =
    Some (sha1 abc).
Proof.
  split; [eexists; unfold hex1_state; vm_compute; reflexivity|].
  repeat split; vm_compute; reflexivity.
Qed.
Example C06_slices_example : hscoped hex1_state (HSum 0 2) /\ hscoped hex1_state (HPoke 1 9 xff).
Proof. vm_compute. split; [auto|]. eexists. split; [reflexivity|]. repeat constructor. Qed.
Example C33_example : (exists log, hrun false hinit hex1 = Some (hex1_state, log) /\
    map fst log = [(Generic, ONew); (Generic, OWrite 0 abc)]) /\ reader (HWrite 0 2) = true /\ call_of hex1_state (HPoke 2 0 x07) = None /\
  call_of hex1_state (HWrite 0 2) = Some (OWrite 0 [x00; x62; x63]).
Proof.
  split; [eexists; split; [unfold hex1_state; vm_compute; reflexivity|reflexivity]|]. vm_compute. auto.
Qed.

(** C08, C09: checkpoint of 70 bytes, restored in a used hasher. *)
Definition ckp : program := prog1 [ONew; OWrite 0 (firstn 70 m130)].
Definition ckq : program := prog1 [ONew; ONew; OWrite 1 abc].
Definition ckc : program := prog1 [OWrite 7 (skipn 70 m130); OCRSum 7 []; OMarshal 7].
Example C08_example : scoped 0 (calls ckp) /\ (0 < created (calls ckp))%nat /\ scoped 0 (calls ckq) /\ (1 < created (calls ckq))%nat /\
  (exists ds, run_program false (ckp ++ [(Generic, OMarshal 0)]) = Some (ds, [RNew 0; RNum 70] ++ [RBytes (blob_after (firstn 70 m130))])) /\
  on_hasher ckc /\
  results (run_program false (ckq ++ (Generic, OUnmarshal 1 (blob_after (firstn 70 m130))) :: to 1 ckc)) =
    Some [RNew 0; RNew 1; RNum 3; RUnit; RNum 60; RVerdict (sha1 m130) false; RBytes (blob_after m130)].
Proof.
  split; [scope|]. split; [vm_compute; lia|]. split; [scope|]. split; [vm_compute; lia|].
  split; [apply results_ex; vm_compute; reflexivity|].
  split; [repeat constructor; eexists; reflexivity|]. vm_compute. reflexivity.
Qed.
Example C09_example : written 0 (calls ckp) = Some (firstn 70 m130) /\ written 1 (calls ckq) = Some abc /\
  snd (cd_blocks go_decide (IV, false) (blocks (firstn 70 m130))) = false /\ snd (cd_blocks go_decide (IV, false) (blocks abc)) = false.
Proof. split; [reflexivity|]. split; [reflexivity|]. split; rewrite fast_blocks; vm_compute; reflexivity. Qed.

Definition bad_size : list byte := magic ++ abc.
Example C10_example : scoped 0 (calls (prog1 [ONew; OUnmarshal 0 (blob_after abc); OUnmarshal 0 bad_size; OUnmarshal 0 abc])) /\
  results (run_program false (prog1 [ONew; OUnmarshal 0 (blob_after abc); OUnmarshal 0 bad_size; OUnmarshal 0 abc])) =
    Some [RNew 0; RUnit; RBadSize; RBadMagic] /\ accepted bad_size = false /\ accepted (blob_after abc) = true.
Proof. split; [scope|]. vm_compute. auto. Qed.

Example C11_example : nth_error (calls exp1) 7 = Some (OMarshal 0) /\ written 0 (firstn 7 (calls exp1)) = Some m130 /\ length m130 = 130%nat.
Proof. repeat split; reflexivity. Qed.

(** A hostile checkpoint: arbitrary chaining value, dirty buffer, length 2^64 - 3. *)
Definition hostile_blob : list byte := blob_of (mkst 1 2 3 4 0xffffffff) (repeat xff 64) (M64 - 3).
Example C12_example : accepted hostile_blob = true /\ scoped 0 (calls ckq) /\ (1 < created (calls ckq))%nat /\
  blob_len hostile_blob mod 64 = 61 /\ written 1 (calls ckq) = Some abc.
Proof. split; [reflexivity|]. split; [scope|]. split; [vm_compute; lia|]. split; reflexivity. Qed.
Example C13_example : canon hostile_blob <> hostile_blob /\ accepted hostile_blob = true /\
  results (run_program false (prog1 [ONew; OUnmarshal 0 hostile_blob; OMarshal 0])) = Some [RNew 0; RUnit; RBytes (canon hostile_blob)].
Proof.
  split; [intros E; apply (f_equal (fun l => nth 89 l x00)) in E; vm_compute in E; discriminate|].
  split; [reflexivity|]. vm_compute. reflexivity.
Qed.

(** The collision of the SHAmbles files: block 9, vector 27 = II(52,0), test step 65. *)
Definition sh_blocks (m : list byte) := blocks (pad m).
Definition sh_h1 : st := Eval vm_compute in fst (cd_blocks fast_decide (IV, false) (firstn 9 (sh_blocks shambles1))).
Definition sh_h2 : st := Eval vm_compute in fst (cd_blocks fast_decide (IV, false) (firstn 9 (sh_blocks shambles2))).
Definition sh_b1 : list byte := Eval vm_compute in nth 9 (sh_blocks shambles1) [].
Definition sh_b2 : list byte := Eval vm_compute in nth 9 (sh_blocks shambles2) [].
Lemma sh_siblings : siblings (the_dv 27) sh_h1 (words_of sh_b1) sh_h2.
Proof. split; [repeat split; reflexivity|]. split; vm_compute; reflexivity. Qed.
Lemma sh_attacked : attacked_by 27 sh_h1 (words_of sh_b1).
Proof.
  split; [lia|]. split.
  - apply mask_go_spec; [lia|]. vm_compute. reflexivity.
  - exists sh_h2. exact sh_siblings.
Qed.
Example C14_example : decides go_decide go_detects /\ scoped 0 (calls exp1) /\ nth_error (calls exp1) 8 = Some (OCRSum 1 []) /\
  written 1 (firstn 8 (calls exp1)) = Some shambles1 /\
  option_map (fun r => nth_error r 8) (results (run_program false exp1)) = Some (Some (RVerdict (digest_after shambles1) true)).
Proof.
  split; [exact go_decide_ok|]. split; [exact exp1_scoped|]. split; [reflexivity|]. split; [reflexivity|]. vm_compute. reflexivity.
Qed.
Example C15_example : nth_error (blocks (pad shambles1)) 9 = Some sh_b1 /\ test_step (the_dv 27) = 65%nat /\
  attacked_by 27 (fst (cd_blocks go_decide (IV, false) (firstn 9 (blocks (pad shambles1))))) (words_of sh_b1).
Proof.
  split; [vm_compute; reflexivity|]. split; [reflexivity|].
  assert (E : fst (cd_blocks go_decide (IV, false) (firstn 9 (blocks (pad shambles1)))) = sh_h1) by (rewrite fast_blocks; vm_compute; reflexivity).
  rewrite E. exact sh_attacked.
Qed.
Example C16_example : wfst sh_h1 /\ length sh_b1 = 64%nat /\ attacked_by 27 sh_h1 (words_of sh_b1) /\
  words_of sh_b2 = sib_block (the_dv 27) (words_of sh_b1) /\ wfst sh_h2.
Proof.
  split; [repeat split; reflexivity|]. split; [reflexivity|]. split; [exact sh_attacked|].
  split; [vm_compute; reflexivity|]. repeat split; reflexivity.
Qed.
Example C15_missed_example : test_step (the_dv 0) = 58%nat /\ length (filter (fun d => (test_step (the_dv d) =? 58)%nat) (seq 0 32)) = 18%nat.
Proof. split; vm_compute; reflexivity. Qed.

Example C17_example :
  let p := prog1 [ONew; OWrite 0 shambles1] in let q := prog1 [OWrite 0 abc; OUnmarshal 0 (blob_after abc); OCRSum 0 []] in
  scoped 0 (calls (p ++ q)) /\ written 0 (calls p) = Some shambles1 /\
  snd (cd_blocks go_decide (IV, false) (blocks shambles1)) = true /\
  Forall (fun o => o <> OReset 0) (firstn 2 (calls q)) /\ nth_error (calls q) 2 = Some (OCRSum 0 []).
Proof.
  cbv zeta. split; [scope|]. split; [reflexivity|]. split; [rewrite fast_blocks; vm_compute; reflexivity|].
  split; [repeat constructor; discriminate|reflexivity].
Qed.
Example C18_example : scoped 0 (calls (prog1 [OSumPkg shambles1])) /\
  results (run_program false (prog1 [OSumPkg shambles1])) = Some [RVerdict (digest_after shambles1) true] /\
  results (run_program true (prog1 [OSumPkg shambles1])) = Some [RVerdict (digest_after shambles1) true].
Proof. split; [scope|]. split; vm_compute; reflexivity. Qed.
Example C19_example : scoped 0 (calls ckq) /\ (1 < created (calls ckq))%nat /\ wfst sh_h1 /\ length sh_b1 = 64%nat /\ 576 < M64 /\ 576 mod 64 = 0 /\
  go_decide sh_h1 (words_of sh_b1) = true.
Proof.
  split; [scope|]. split; [vm_compute; lia|]. split; [repeat split; reflexivity|]. split; [reflexivity|].
  split; [reflexivity|]. split; [reflexivity|].
  apply go_decide_ok; [repeat split; reflexivity|reflexivity|apply wf_words_of|].
  exists 27%nat. apply attacked_65_detected; [reflexivity|exact sh_attacked].
Qed.
Example C22_example : CalculateDvMask (Some (schedule (words_of sh_b1))) = 2 ^ 27 /\ length (nth 27 ubc_table []) = 15%nat /\
  urun (schedule (words_of sh_b1)) ubc_prog_c 0xFFFFFFFF = 2 ^ 27.
Proof. vm_compute. auto. Qed.
Example C23_example : let W := schedule (words_of sh_b1) in
  CalculateDvMask (Some (upd 34 5 (upd 65 5 W))) = 2 ^ 27 /\
  existsb (fun t => CalculateDvMask (Some (upd t (M32 - 1 - nth t W 0) W)) =? 0) (seq 35 30) = true.
Proof. vm_compute. auto. Qed.
Example C24_example : the_dv 27 = mkdvid TypeII 52 0 /\ nth 66 (dvec (the_dv 27)) 0 = 0 /\ nth 79 (dmsg (the_dv 27)) 0 <> 0.
Proof. split; [reflexivity|]. split; [vm_compute; reflexivity|]. vm_compute. discriminate. Qed.
Example C27_example : length (schedule (words_of sh_b1)) = 80%nat /\
  N.testbit (CalculateDvMask (Some (xorl (schedule (words_of sh_b1)) (dm (nth 27 dvs_go terminator))))) 27 = true.
Proof. vm_compute. auto. Qed.
(** The single padded block of the empty message satisfies no set of bit conditions. *)
Example C28_example : CalculateDvMask (Some (schedule (words_of (nth 0 (blocks (pad [])) [])))) = 0 /\ length (blocks (pad [])) = 1%nat.
Proof. vm_compute. auto. Qed.
Example C28_hypothesis : forall b d, In b (blocks (pad [])) -> (d < 32)%nat -> ~ ubc_holds d (schedule (words_of b)).
Proof.
  intros b d Hb Hd. assert (E : blocks (pad []) = [nth 0 (blocks (pad [])) []]) by (vm_compute; reflexivity).
  rewrite E in Hb. destruct Hb as [<-|[]]. intros H. apply mask_go_spec in H; [|assumption].
  rewrite (proj1 C28_example) in H. rewrite N.bits_0 in H. discriminate.
Qed.
Example C29_example : nth_error (calls exp1) 9 = Some (OSize 1) /\ written 0 (calls exp1) = Some m130 /\ (0 < created (calls exp1))%nat.
Proof. split; [reflexivity|]. split; [reflexivity|]. vm_compute. lia. Qed.
Example C32_example : scoped 0 (calls exp1) /\ (1 < created (calls exp1))%nat /\ length (alone Generic 1 exp1) = 4%nat.
Proof. split; [exact exp1_scoped|]. split; [vm_compute; lia|reflexivity]. Qed.
Example C34_example : blocks (pad (zeros 55)) <> blocks (pad (zeros 56)) /\ length (blocks (pad (zeros 55))) = 1%nat /\ length (blocks (pad (zeros 56))) = 2%nat /\
  length (padding (M64 - 1)) = 65%nat.
Proof. split; [vm_compute; discriminate|]. repeat split; vm_compute; reflexivity. Qed.
Example C40_example : length zero80 = 80%nat /\ wfst sample_state /\
  hasCollided 65 (schedule (words_of sh_b1)) (dmsg (the_dv 27)) (state_at 65 sh_h1 (words_of sh_b1)) (compress sh_h1 (words_of sh_b1)) = true.
Proof. split; [reflexivity|]. split; [repeat split|]. vm_compute. reflexivity. Qed.
