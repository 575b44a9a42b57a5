(** What an observer of the assembly routines sees: the instructions executed, in order, and the memory ranges that each of
    them accesses.  Instrumentation of the machines of Model_Amd64.v and Model_Arm64.v (listings of
    /repo/sha1cdblock_amd64.s lines 26-264 and /repo/sha1cdblock_arm64.s lines 31-243). *)

From Coq Require Import Arith NArith List Strings.Byte Bool.
From Verif Require Import Word Model_Asm Model_Amd64 Model_Arm64.
Import ListNotations.
Local Open Scope N_scope.

(** An access: address and number of bytes. *)
Definition access : Type := N * N.

(** The accesses of one instruction of sha1cdblock_amd64.s. *)
Definition touched (L : layout) (i : instr) (s : mach) : list access :=
  match i with
  | MOVQ_load a _ => [(addr L s a, 8)]
  | MOVL_store _ a | PINSRD _ a _ | PEXTRD_store _ _ a => [(addr L s a, 4)]
  | VMOVDQU_load a _ | VMOVDQU_store _ a | VMOVDQA (VM a) _ | VMOVDQA_store _ a
  | PAND (VM a) _ | PXOR (VM a) _ | PADDD (VM a) _ | PSHUFB (VM a) _ | SHA1NEXTE (VM a) _ | SHA1MSG1 (VM a) _ | SHA1MSG2 (VM a) _ =>
      [(addr L s a, 16)]
  | _ => []
  end.
(** Those of them that change memory. *)
Definition written (L : layout) (i : instr) (s : mach) : list access :=
  match i with
  | MOVL_store _ a | PEXTRD_store _ _ a => [(addr L s a, 4)]
  | VMOVDQU_store _ a | VMOVDQA_store _ a => [(addr L s a, 16)]
  | _ => []
  end.
(** Those that must be 16-aligned (Intel SDM volume 2: MOVDQA, and 128-bit memory operands of instructions without VEX prefix). *)
Definition aligned_16 (L : layout) (i : instr) (s : mach) : list access :=
  match i with
  | VMOVDQA (VM a) _ | VMOVDQA_store _ a
  | PAND (VM a) _ | PXOR (VM a) _ | PADDD (VM a) _ | PSHUFB (VM a) _ | SHA1NEXTE (VM a) _ | SHA1MSG1 (VM a) _ | SHA1MSG2 (VM a) _ =>
      [(addr L s a, 16)]
  | _ => []
  end.
(** The indices of the executed instructions with their accesses, until RET, a fault, or the end of the fuel. *)
Fixpoint trace (L : layout) (prog : list instr) (fuel : nat) (s : mach) : list (nat * list access) :=
  match fuel with
  | O => []
  | S n => match nth_error prog (pc s) with
           | None => []
           | Some RET => [(pc s, [])]
           | Some i => (pc s, touched L i s) :: match step_instr L i s with Some s => trace L prog n s | None => [] end
           end
  end.

(** The accesses of one instruction of sha1cdblock_arm64.s. *)
Definition xtouched (L : layout) (i : ainstr) (s : amach) : list access :=
  match i with
  | MOVD_arg off _ => [((l_args L + off) mod M64, 8)]
  | VLD1P r _ | VLD1 r _ | VST1P _ r => [(xg s r, 16)]
  | FMOVS_load r _ | FMOVS_store _ r | VST1P_lane _ _ r => [(xg s r, 4)]
  | _ => []
  end.
Definition xwritten (L : layout) (i : ainstr) (s : amach) : list access :=
  match i with
  | VST1P _ r => [(xg s r, 16)]
  | FMOVS_store _ r | VST1P_lane _ _ r => [(xg s r, 4)]
  | _ => []
  end.
Fixpoint xtrace (L : layout) (prog : list ainstr) (fuel : nat) (s : amach) : list (nat * list access) :=
  match fuel with
  | O => []
  | S n => match nth_error prog (xpc s) with
           | None => []
           | Some ARET => [(xpc s, [])]
           | Some i => (xpc s, xtouched L i s) :: match xstep L i s with Some s => xtrace L prog n s | None => [] end
           end
  end.

(** [reached s t]: started in s, the routine comes to t. *)
Inductive reached (L : layout) (prog : list instr) (s : mach) : mach -> Prop :=
| r_here : reached L prog s s
| r_step t i t' : reached L prog s t -> nth_error prog (pc t) = Some i -> step_instr L i t = Some t' -> reached L prog s t'.
Inductive xreached (L : layout) (prog : list ainstr) (s : amach) : amach -> Prop :=
| xr_here : xreached L prog s s
| xr_step t i t' : xreached L prog s t -> nth_error prog (xpc t) = Some i -> xstep L i t = Some t' -> xreached L prog s t'.

(** An address lies in one of the ranges. *)
Definition covered (l : list access) (x : N) : Prop := exists a n, In (a, n) l /\ a <= x < a + n.
(** The same machine state with another memory. *)
Definition with_mem (m : mem) (s : mach) : mach := mkm (pc s) (gr s) (xr s) m (zf s).
Definition xwith_mem (m : mem) (s : amach) : amach := mkam (xpc s) (xg s) (xv s) m (xls s).
