(** Examples for Properties_Extend. *)

From Coq Require Import Arith NArith List Strings.Byte Bool.
From Verif Require Import Word Spec_Sha1 Spec_DV Spec_Cd Spec_Api Model_Go Model_Block GoCheck GoProps Data_Shambles Examples_Go Examples_Vectors
  Spec_Extend Extend Properties_Extend.
Import ListNotations.

(** A secret "key", and a continuation in two pieces. *)
Definition key : list byte := [x6b; x65; x79].
Definition forge (d : list byte) : program := map (fun o => (Generic, o)) [ONew; OUnmarshal 0 (forged d 3); OWrite 0 [x26; x61]; OWrite 0 [x3d; x31]; OCRSum 0 []; OSum 0 []].
Example C70_forgery_example : exists ds v, run_program true (forge (fst (cd_sum go_decide key))) =
    Some (ds, [RNew 0; RUnit; RNum 2; RNum 2; RVerdict (fst (cd_sum go_decide (pad key ++ [x26; x61; x3d; x31]))) v; RBytes (fst (cd_sum go_decide (pad key ++ [x26; x61; x3d; x31])))]) /\
  snd (cd_sum go_decide (pad key ++ [x26; x61; x3d; x31])) = (snd (cd_sum go_decide key) || v)%bool.
Proof. exact (C70_forgery true go_decide key [[x26; x61]; [x3d; x31]] (forge (fst (cd_sum go_decide key))) go_decide_ok eq_refl). Qed.

(** The model run, also with the two messages of an identical-prefix collision under plain SHA-1 for the second theorem. *)
Definition beq (a b : list byte) : bool := if list_eq_dec byte_eq_dec a b then true else false.
Definition never (_ : st) (_ : list word) : bool := false.
Definition extend_runs : unit := ltac:(passed (
  match run_program true (forge (sha1 key)) with Some (_, [_; _; _; _; _; RBytes b]) => beq b (sha1 (pad key ++ [x26; x61; x3d; x31])) | _ => false end &&
  beq (fst (cd_sum never shambles1)) (fst (cd_sum never shambles2)) && (length shambles1 =? length shambles2)%nat &&
  beq (fst (cd_sum never (pad shambles1 ++ key))) (fst (cd_sum never (pad shambles2 ++ key))) &&
  negb (beq (fst (cd_sum fast_decide shambles1)) (fst (cd_sum fast_decide shambles2))))%bool).
