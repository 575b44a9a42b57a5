(** The block function of a build: /repo/sha1cdblock_noasm.go, sha1cdblock_amd64.go and
    sha1cdblock_arm64.go. *)

From Coq Require Import Arith NArith List Strings.Byte.
From Verif Require Import Word Model_Go Model_Asm Model_Amd64 Model_Arm64 Gen_Amd64 Gen_Arm64 Spec_Api Model_Api.
Import ListNotations.
Local Open Scope N_scope.

(** ** The Go side of the assembly builds *)

(** A call of the assembly routine: block index, h, chunk, m1, cs; new h, m1, cs. *)
Definition asm_call := nat -> st -> list byte -> list word -> csarr -> option (st * list word * csarr).

(** /repo/sha1cdblock_amd64.go lines 34-51 and sha1cdblock_arm64.go lines 30-47: the loop of [block]; k counts the
    calls of the routine. *)
Fixpoint asm_blocks (call : asm_call) (fuel k : nat) (p : list byte) (h : st) (m1 : list word) (cs : csarr) (col : bool)
    : option (st * bool) :=
  if (64 <=? length p)%nat then
    match fuel with
    | O => None
    | S fuel =>
      let chunk := firstn 64 p in
      do (h, m1, cs) <- call k h chunk m1 cs;
      let cs := rectify m1 cs in
      do c <- checkCollision m1 cs h;
      if c : bool then
        do (h, m1, cs) <- call (k + 1)%nat h chunk m1 cs;
        do (h, m1, cs) <- call (k + 2)%nat h chunk m1 cs;
        asm_blocks call fuel (k + 3) (skipn 64 p) h m1 cs true
      else asm_blocks call fuel (k + 1) (skipn 64 p) h m1 cs col
    end
  else Some (h, col).

(** Lines 25-52 and 21-48, on a CPU with the instructions and forceGeneric not set. *)
Definition asm_block (call : asm_call) (d : digest) (p : list byte) : option digest :=
  do (h, col) <- asm_blocks call (length p) 0 p (dh d) (repeat 0 80) (mkcs st0 st0 st0) (dcol d);
  Some (mkd h (dx d) (dnx d) (dlen d) col).

(** The machine state that the routine does not control is arbitrary at each of its calls. *)
Definition block_amd64 (e : nat -> env) : blockfn :=
  asm_block (fun k => call_amd64 amd64_prog upper_mask shuffle_mask (e k)).
Definition block_arm64 (e : nat -> aenv) : blockfn :=
  asm_block (fun k => call_arm64 arm64_prog sha1Ks (e k)).

(** ** Which code processes blocks *)

(** Generic: /repo/sha1cdblock_noasm.go lines 5-7, sha1cdblock_amd64.go lines 26-29,
    sha1cdblock_arm64.go lines 22-25: forceGeneric is set or the CPU lacks the instructions.
    Amd64: any machine state that respects the Go memory layout, chosen for each call of block.
    Arm64: the same, and in addition R16 + 64 must not wrap around (sha1cdblock_arm64.s line 40 uses R16 before it
    is set). *)
Inductive impl :=
| Generic
| Amd64 (e : digest -> list byte -> nat -> env) (ok : forall d p k, layout_ok (e_lay (e d p k)))
| Arm64 (e : digest -> list byte -> nat -> aenv)
        (ok : forall d p k, layout_ok (ae_lay (e d p k)) /\ ae_g (e d p k) 16%nat mod M64 + 64 < M64).

Definition block_of (m : impl) : blockfn :=
  match m with
  | Generic => blockGeneric
  | Amd64 e _ => fun d p => block_amd64 (e d p) d p
  | Arm64 e _ => fun d p => block_arm64 (e d p) d p
  end.

(** A program: each call with the implementation it uses. *)
Definition program := list (impl * op).
Definition calls (p : program) : list op := map snd p.
Definition run_program (early : bool) (p : program) : option (list digest * list res) :=
  run early [] (map (fun x => (block_of (fst x), snd x)) p).

(** The calls that change a hasher. *)
Definition silent (x : impl * op) : bool := negb (observer (snd x)).

(** Running a fresh hasher through the calls on hasher [i]. *)
Definition alone (m0 : impl) (i : nat) (p : program) : program :=
  (m0, ONew) :: map (fun x => (fst x, retarget 0 (snd x))) (filter (fun x => target_is i (snd x)) p).

(** The calls of [c], made on hasher [i]. *)
Definition to (i : nat) (c : program) : program := map (fun x => (fst x, retarget i (snd x))) c.
(** Every call is on a hasher. *)
Definition on_hasher (c : program) : Prop := Forall (fun o => exists j, target o = Some j) (calls c).

(** A program that only uses the generic code. *)
Definition prog1 (o : list op) : program := map (fun o => (Generic, o)) o.
