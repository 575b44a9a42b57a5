(** Several calls of the assembly routines at the same time: goroutines that hash with different hashers (listings
    /repo/sha1cdblock_amd64.s lines 26-264 and /repo/sha1cdblock_arm64.s lines 31-243, called from
    /repo/sha1cdblock_amd64.go line 37 and /repo/sha1cdblock_arm64.go line 33).
    Every call has registers of its own (its core); memory is shared.  One instruction of one call at a time, in any order;
    in between, other code stores bytes.
    Simplification: an instruction is atomic and stores are seen at once by everyone (no store buffers, no reordering). *)

From Coq Require Import Arith NArith List Strings.Byte Bool.
From Verif Require Import Word Model_Go Model_Asm Model_Amd64 Model_Arm64 Model_Trace.
Import ListNotations.
Local Open Scope N_scope.

(** One turn of a call: the next instruction; after RET nothing.  None: fault. *)
Definition turn (prog : list instr) (L : layout) (s : mach) : option mach :=
  match nth_error prog (pc s) with
  | None => None
  | Some RET => Some s
  | Some i => step_instr L i s
  end.
Definition xturn (prog : list ainstr) (L : layout) (s : amach) : option amach :=
  match nth_error prog (xpc s) with
  | None => None
  | Some ARET => Some s
  | Some i => xstep L i s
  end.

(** What happens next: call k has a turn, or other code stores byte b at address a. *)
Inductive event := Turn (k : nat) | Store (a : N) (b : byte).

Section Machine.
  (** A core, its view of memory, the core with another view, a turn. *)
  Variable core : Type.
  Variable view : core -> mem.
  Variable see : mem -> core -> core.
  Variable step : layout -> core -> option core.

  Record sys := mksys { cores : list (layout * core); shared : mem }.
  Fixpoint put {A} (k : nat) (x : A) (l : list A) : list A :=
    match l, k with
    | [], _ => []
    | _ :: q, O => x :: q
    | y :: q, S k => y :: put k x q
    end.
  Definition happen (e : event) (S : sys) : option sys :=
    match e with
    | Turn k =>
        match nth_error (cores S) k with
        | None => Some S
        | Some (L, c) => do c <- step L (see (shared S) c); Some (mksys (put k (L, c) (cores S)) (view c))
        end
    | Store a b => Some (mksys (cores S) (poke (shared S) a [b]))
    end.
  Fixpoint conc (ev : list event) (S : sys) : option sys :=
    match ev with
    | [] => Some S
    | e :: r => do S <- happen e S; conc r S
    end.
End Machine.

Definition amd64_conc (prog : list instr) : list event -> sys mach -> option (sys mach) := conc mach mm with_mem (turn prog).
Definition arm64_conc (prog : list ainstr) : list event -> sys amach -> option (sys amach) := conc amach xm xwith_mem (xturn prog).

(** The calls at entry. *)
Record call (E : Type) := mkcall { c_env : E; c_h : st; c_p : list byte; c_m1 : list word; c_cs : csarr }.
Arguments c_env {E}. Arguments c_h {E}. Arguments c_p {E}. Arguments c_m1 {E}. Arguments c_cs {E}.
Definition amd64_core (ro1 ro2 : list byte) (c : call env) : mach := entry ro1 ro2 (c_env c) (c_h c) (c_p c) (c_m1 c) (c_cs c).
Definition arm64_core (ks : list byte) (c : call aenv) : amach := aentry ks (c_env c) (c_h c) (c_p c) (c_m1 c) (c_cs c).
Definition amd64_begin (ro1 ro2 : list byte) (m : mem) (l : list (call env)) : sys mach :=
  mksys _ (map (fun c => (e_lay (c_env c), amd64_core ro1 ro2 c)) l) m.
Definition arm64_begin (ks : list byte) (m : mem) (l : list (call aenv)) : sys amach :=
  mksys _ (map (fun c => (ae_lay (c_env c), arm64_core ks c)) l) m.
