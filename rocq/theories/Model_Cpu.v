(** CPU features: the instruction set extensions the assembly routines use, and the test that [block] makes before it
    calls them.  An instruction whose extension the CPU lacks raises an exception (#UD; undefined instruction). *)

From Coq Require Import Arith NArith String List Strings.Byte Bool.
From Verif Require Import Word Model_Go Model_Asm Model_Amd64 Model_Arm64 Gen_Amd64 Gen_Arm64 Model_Build Gen_Build Model_Api Model_Block.
Import ListNotations.
Local Open Scope N_scope.

(** The extensions of a CPU, under the names of the package cpuid ("SSE4" is SSE4.1). *)
Definition cpu := string -> bool.

(** The extension an instruction needs (Intel SDM volume 2: "CPUID feature flag"); None: part of every x86-64 CPU. *)
Definition amd64_need (m : string) : option string :=
  if mem_str m ["PSHUFB"]%string then Some "SSSE3"%string
  else if mem_str m ["PINSRD"; "PEXTRD"]%string then Some "SSE4"%string
  else if String.prefix "SHA1" m then Some "SHA"%string
  else if String.prefix "V" m then Some "AVX"%string
  else None.
(** Arm ARM: FEAT_SHA1; the other vector instructions are in every AArch64 CPU that Go supports. *)
Definition arm64_need (m : string) : option string :=
  if String.prefix "SHA1" m then Some "SHA1"%string else None.

Definition runs_on (c : cpu) (need : string -> option string) (m : string) : bool :=
  match need m with Some f => c f | None => true end.

(** [Model_Amd64.exec] on a CPU; [mn] are the mnemonics of [prog]. *)
Fixpoint exec_cpu (c : cpu) (L : layout) (prog : list instr) (mn : list string) (fuel : nat) (s : mach) : option mach :=
  match fuel with
  | O => None
  | S n => match nth_error prog (pc s), nth_error mn (pc s) with
           | Some i, Some m =>
             if runs_on c amd64_need m then
               match i with RET => Some s | _ => do s <- step_instr L i s; exec_cpu c L prog mn n s end
             else None
           | _, _ => None
           end
  end.
Definition call_amd64_cpu (c : cpu) (e : env) (h : st) (p : list byte) (m1 : list word) (cs : csarr) : option (st * list word * csarr) :=
  do s <- exec_cpu c (e_lay e) amd64_prog amd64_mnem 1000 (entry upper_mask shuffle_mask e h p m1 cs);
  Some (st_at (mm s) (l_h (e_lay e)), words_at (mm s) (l_m1 (e_lay e)) 80, cs_at (mm s) (l_cs (e_lay e))).

(** [Model_Arm64.xexec] on a CPU. *)
Fixpoint xexec_cpu (c : cpu) (L : layout) (prog : list ainstr) (mn : list string) (fuel : nat) (s : amach) : option amach :=
  match fuel with
  | O => None
  | S n => match nth_error prog (xpc s), nth_error mn (xpc s) with
           | Some i, Some m =>
             if runs_on c arm64_need m then
               match i with ARET => Some s | _ => do s <- xstep L i s; xexec_cpu c L prog mn n s end
             else None
           | _, _ => None
           end
  end.
Definition call_arm64_cpu (c : cpu) (e : aenv) (h : st) (p : list byte) (m1 : list word) (cs : csarr) : option (st * list word * csarr) :=
  do s <- xexec_cpu c (ae_lay e) arm64_prog arm64_mnem 1000 (aentry sha1Ks e h p m1 cs);
  Some (st_at (xm s) (l_h (ae_lay e)), words_at (xm s) (l_m1 (ae_lay e)) 80, cs_at (xm s) (l_cs (ae_lay e))).

(** /repo/sha1cdblock_amd64.go lines 13-17 (hasSHANI; GOARCH is amd64 where this file is compiled) and 25-52: [block]. *)
Definition block_on_amd64 (c : cpu) (forceGeneric : bool) (e : nat -> env) : blockfn :=
  if forceGeneric || negb (forallb c amd64_features) then blockGeneric
  else asm_block (fun k => call_amd64_cpu c (e k)).
(** /repo/sha1cdblock_arm64.go lines 13-14 (hasSHA1) and 21-48. *)
Definition block_on_arm64 (c : cpu) (forceGeneric : bool) (e : nat -> aenv) : blockfn :=
  if forceGeneric || negb (forallb c arm64_features) then blockGeneric
  else asm_block (fun k => call_arm64_cpu c (e k)).
