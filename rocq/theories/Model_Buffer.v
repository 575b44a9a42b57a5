(** Several calls of the assembly routines at the same time, with store buffers (listings /repo/sha1cdblock_amd64.s lines 26-264 and
    /repo/sha1cdblock_arm64.s lines 31-243, called from /repo/sha1cdblock_amd64.go line 37 and /repo/sha1cdblock_arm64.go line 33).
    As Model_Conc.v, but what an instruction stores goes to the buffer of its core, byte by byte.  The core itself sees it at once,
    everyone else when it leaves the buffer.  Bytes leave the buffer in any order; two bytes for the same address in the order of the
    stores.  This is weaker than the order of stores of x86 (Intel SDM volume 3A 9.2: one queue) and allows the reordering and tearing
    of stores of ARMv8.
    Simplification: loads are executed in program order. *)

From Coq Require Import Arith NArith List Strings.Byte Bool.
From Verif Require Import Word Model_Go Model_Asm Model_Amd64 Model_Arm64 Model_Trace Model_Conc.
Import ListNotations.
Local Open Scope N_scope.

(** Bytes on the way to memory, the oldest first. *)
Definition buffer : Type := list (N * byte).
(** Memory as the owner of the buffer sees it. *)
Definition overlay (m : mem) (q : buffer) : mem := fold_left (fun m e => poke m (fst e) [snd e]) q m.
(** The oldest byte for address a, and the others. *)
Fixpoint take (a : N) (q : buffer) : option (byte * buffer) :=
  match q with
  | [] => None
  | (x, b) :: q => if x =? a then Some (b, q) else do (c, r) <- take a q; Some (c, (x, b) :: r)
  end.
(** The bytes of memory m in the ranges. *)
Definition entries (m : mem) (l : list access) : buffer :=
  flat_map (fun r => map (fun i => let x := fst r + N.of_nat i in (x, m x)) (seq 0 (N.to_nat (snd r)))) l.

(** What the next instruction of a call stores. *)
Definition stored (prog : list instr) (L : layout) (s : mach) : list access :=
  match nth_error prog (pc s) with
  | Some i => written L i s
  | None => []
  end.
Definition xstored (prog : list ainstr) (L : layout) (s : amach) : list access :=
  match nth_error prog (xpc s) with
  | Some i => xwritten L i s
  | None => []
  end.

(** What happens next: call k has a turn, its oldest byte for address a arrives in memory, or other code stores byte b at a. *)
Inductive bevent := BTurn (k : nat) | Drain (k : nat) (a : N) | BStore (a : N) (b : byte).

Section Machine.
  Variable core : Type.
  Variable view : core -> mem.
  Variable see : mem -> core -> core.
  Variable step : layout -> core -> option core.
  Variable stores : layout -> core -> list access.

  Record bsys := mkbsys { bcores : list (layout * core * buffer); bshared : mem }.
  Definition bhappen (e : bevent) (S : bsys) : option bsys :=
    match e with
    | BTurn k =>
        match nth_error (bcores S) k with
        | None => Some S
        | Some (L, c, q) =>
            let c := see (overlay (bshared S) q) c in
            do d <- step L c;
            Some (mkbsys (put k (L, d, q ++ entries (view d) (stores L c)) (bcores S)) (bshared S))
        end
    | Drain k a =>
        match nth_error (bcores S) k with
        | None => Some S
        | Some (L, c, q) =>
            match take a q with
            | None => Some S
            | Some (b, r) => Some (mkbsys (put k (L, c, r) (bcores S)) (poke (bshared S) a [b]))
            end
        end
    | BStore a b => Some (mkbsys (bcores S) (poke (bshared S) a [b]))
    end.
  Fixpoint bconc (ev : list bevent) (S : bsys) : option bsys :=
    match ev with
    | [] => Some S
    | e :: r => do S <- bhappen e S; bconc r S
    end.
End Machine.

Definition amd64_bconc (prog : list instr) : list bevent -> bsys mach -> option (bsys mach) := bconc mach mm with_mem (turn prog) (stored prog).
Definition arm64_bconc (prog : list ainstr) : list bevent -> bsys amach -> option (bsys amach) := bconc amach xm xwith_mem (xturn prog) (xstored prog).

(** The calls at entry; the buffers are empty. *)
Definition amd64_bbegin (ro1 ro2 : list byte) (m : mem) (l : list (call env)) : bsys mach :=
  mkbsys _ (map (fun c => (e_lay (c_env c), amd64_core ro1 ro2 c, [])) l) m.
Definition arm64_bbegin (ks : list byte) (m : mem) (l : list (call aenv)) : bsys amach :=
  mkbsys _ (map (fun c => (ae_lay (c_env c), arm64_core ks c, [])) l) m.
(** What call k has not yet brought to memory. *)
Definition waiting {core} (S : bsys core) (k : nat) : buffer :=
  match nth_error (bcores _ S) k with Some (_, _, q) => q | None => [] end.
