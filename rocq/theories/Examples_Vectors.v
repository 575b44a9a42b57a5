(** The model run on the test vectors of the repository.  These are tests: [passed b] evaluates [b] while the file is
    compiled and stops the build unless the result is [true]; nothing is proved, so that the kernel has nothing to recheck. *)

From Coq Require Import String Ascii Arith NArith ZArith List Strings.Byte Bool.
From Verif Require Import Word Spec_Sha1 Spec_DV Spec_Cd Spec_Api Spec_C Model_Ubc Model_Go Model_Api Model_Block Model_C Model_CApi
  Model_Asm Model_Amd64 Model_Arm64 Data_Shambles Data_Vectors GoAsm GoRefute Examples_Go Examples_C.
Import ListNotations.
Local Open Scope N_scope.

Ltac passed b := let r := eval vm_compute in b in match r with true => exact tt end.

Definition digit (c : ascii) : N := let n := N_of_ascii c in if n <? 58 then n - 48 else n - 87.
Fixpoint unhex (s : string) : list byte :=
  match s with
  | String a (String b s) => n2b (16 * digit a + digit b) :: unhex s
  | _ => []
  end.

Definition bytes_eqb (a b : list byte) : bool := if list_eq_dec Byte.byte_eq_dec a b then true else false.
(** The results of a program that only uses the generic code. *)
Definition outputs (os : list op) : list res := match run_program false (prog1 os) with Some (_, rs) => rs | None => [] end.
Definition is_bytes (r : res) (b : list byte) : bool := match r with RBytes x => bytes_eqb x b | _ => false end.
Definition is_verdict (r : res) (b : list byte) (v : bool) : bool := match r with RVerdict x w => bytes_eqb x b && Bool.eqb w v | _ => false end.

(** /repo/sha1cd_test.go lines 60-93: TestGolden. *)
Definition golden_ok (g : string * string * string) : bool :=
  let '(out, inp, _) := g in let out := unhex out in let inp := unhex inp in let k := (List.length inp / 2)%nat in
  let rs := outputs [OSumPkg inp; ONew; OWrite 0 inp; OSum 0 []; OReset 0; OWrite 0 inp; OSum 0 []; OReset 0;
                     OWrite 0 (firstn k inp); OSum 0 []; OWrite 0 (skipn k inp); OSum 0 []; OReset 0] in
  is_verdict (nth 0 rs RUnit) out false && is_bytes (nth 3 rs RUnit) out && is_bytes (nth 6 rs RUnit) out && is_bytes (nth 11 rs RUnit) out.
Definition vectors_golden : unit := ltac:(passed (forallb golden_ok golden && (List.length golden =? 32)%nat)%bool).

(** Lines 95-132: TestGoldenMarshal. *)
Definition marshal_ok (g : string * string * string) : bool :=
  let '(out, inp, half) := g in let out := unhex out in let inp := unhex inp in let half := unhex half in let k := (List.length inp / 2)%nat in
  let rs := outputs [ONew; ONew; OWrite 0 (firstn k inp); OMarshal 0; OUnmarshal 1 half; OWrite 0 (skipn k inp); OWrite 1 (skipn k inp);
                     OSum 0 []; OSum 1 []] in
  is_bytes (nth 3 rs RUnit) half && is_bytes (nth 7 rs RUnit) out && is_bytes (nth 8 rs RUnit) out.
Definition vectors_marshal : unit := ltac:(passed (forallb marshal_ok golden)).

(** Lines 184-208: TestLargeHashes. *)
Definition large_ok (g : string * string) : bool :=
  is_bytes (nth 2 (outputs [ONew; OUnmarshal 0 (unhex (fst g)); OSum 0 []]) RUnit) (unhex (snd g)).
Definition vectors_large : unit := ltac:(passed (forallb large_ok large_unmarshal && (List.length large_unmarshal =? 2)%nat)%bool).

(** /repo/test/native_test.go lines 115-187: TestCollisionDetection, Go and cgo, SHAmbles files and the valid file. *)
Definition c_outputs (os : list op) : list res := match c_run lecfg [] os with Some (_, rs) => rs | None => [] end.
Definition collision_ok (data : list byte) (want : string) (v : bool) : bool :=
  let os := [ONew; OReset 0; OWrite 0 data; OCRSum 0 []] in
  is_verdict (nth 3 (outputs os) RUnit) (unhex want) v && is_verdict (nth 3 (c_outputs os) RUnit) (unhex want) v.
Definition vectors_collision : unit := ltac:(passed (collision_ok shambles1 want_shambles1 true && collision_ok shambles2 want_shambles2 true &&
  collision_ok (unhex valid_file) want_valid false)%bool).

(** The SHAttered files: block 4, which completes the collision, is flagged in both files, in Go and in C; the SHA-1
    chaining values agree after the head, the safe hashes do not. *)
Fixpoint verdicts (h : st) (bs : list (list byte)) : list (option bool) :=
  match bs with
  | [] => []
  | b :: bs => match blockGeneric (mkd h (repeat x00 64) 0 0 false) b with
               | Some d => Some (dcol d) :: verdicts (dh d) bs
               | None => [None]
               end
  end.
Definition same_results (a b : list res) : bool :=
  match a, b with
  | [RNew _; RNum _; RVerdict x v], [RNew _; RNum _; RVerdict y w] => bytes_eqb x y && Bool.eqb v w && v
  | _, _ => false
  end.
Definition verdicts_are (l : list (option bool)) : bool :=
  match l with [Some false; Some false; Some false; Some false; Some true; Some false; Some false] => true | _ => false end.
Definition vectors_shattered : unit := ltac:(passed (
  verdicts_are (verdicts IV (blocks (unhex shattered1_head))) && verdicts_are (verdicts IV (blocks (unhex shattered2_head))) &&
  (let os s := [ONew; OWrite 0 (unhex s); OCRSum 0 []] in
   same_results (c_outputs (os shattered1_head)) (outputs (os shattered1_head)) &&
   same_results (c_outputs (os shattered2_head)) (outputs (os shattered2_head)) &&
   negb (same_results (outputs (os shattered1_head)) (outputs (os shattered2_head)))) &&
  st_eqb (sha1_blocks IV (blocks (unhex shattered1_head))) (sha1_blocks IV (blocks (unhex shattered2_head))))%bool).

(** The assembly machines on some of the vectors. *)
Definition asm_ok (b : blockfn) (g : string * string * string) : bool :=
  let '(out, inp, _) := g in
  match SumPkg false b (unhex inp) with Some (x, v) => bytes_eqb x (unhex out) && negb v | None => false end.
Definition vectors_asm : unit := ltac:(passed (forallb (asm_ok (block_amd64 (fun _ => amd0))) golden && forallb (asm_ok (block_arm64 (fun _ => arm0 42))) golden)%bool).

(** /repo/sha1cd_test.go lines 236-298: TestRectifyCompressionState (the third case, a nil array, has nothing to rectify). *)
Definition cs_eqb (a b : csarr) : bool := st_eqb (cs0 a) (cs0 b) && st_eqb (cs1 a) (cs1 b) && st_eqb (cs2 a) (cs2 b).
Definition vectors_rectify : unit := ltac:(passed (
  cs_eqb (rectify (map N.of_nat (seq 1 80))
     (mkcs (mkst 0x67452301 0xEFCDAB89 0x98BADCFE 0x10325476 0xC3D2E1F0) (mkst 0x12345678 0x9ABCDEF0 0x11111111 0x22222222 0x33333333)
           (mkst 0xAAAAAAAA 0xBBBBBBBB 0xCCCCCCCC 0xDDDDDDDD 0xEEEEEEEE)))
     (mkcs (mkst 0x67452301 0xEFCDAB89 0x98BADCFE 0x10325476 0xC3D2E1F0) (mkst 0x24AD25B3 0x1B09D17A 0x048D159E 0x26AF37BC 0x11111111)
           (mkst 0xB951B104 0xAAAAAAAA 0xEEEEEEEE 0xCCCCCCCC 0xDDDDDDDD)) &&
  cs_eqb (rectify (repeat 0 80) (mkcs st0 st0 st0)) (mkcs st0 (mkst 0x7293586D 0x8F1BBCDC 0 0 0) (mkst 0xCA62C1D6 0 0 0 0)))%bool).
