(** The A64 instructions used by /repo/sha1cdblock_arm64.s, and the machine that runs them.
    Operands are in the order of the Go assembler: sources first, destination last.
    Instruction meanings after the Arm Architecture Reference Manual (DDI 0487), C7.2 for the SHA1 instructions.
    Not modelled: condition flags other than the one tested (C == 0 or Z == 1 of the last CMP), and the saving of the
    link register that the assembler inserts. *)

From Coq Require Import Arith NArith List Strings.Byte Bool.
From Verif Require Import Word Spec_Sha1 Model_Go Model_Asm.
Import ListNotations.
Local Open Scope N_scope.

Inductive ainstr :=
| MOVD_arg (off : N) (r : nat)          (* MOVD name+off(FP), Rr *)
| MOVD_ks (r : nat)                     (* MOVD $·sha1Ks(SB), Rr *)
| LSR (n : N) (q r : nat)
| LSL (n : N) (q r : nat)
| ADD (p q r : nat)
| SUB_imm (n : N) (q r : nat)
| CMP (q r : nat)                       (* compares Rr with Rq *)
| BLS (l : nat)
| VLD1P (r x : nat)                     (* VLD1.P 16(Rr), [Vx] *)
| VLD1 (r x : nat)
| FMOVS_load (r x : nat)
| FMOVS_store (x r : nat)
| VST1P (x r : nat)                     (* VST1.P [Vx.S4], (Rr): post-increment by 16 *)
| VST1P_lane (x i r : nat)              (* VST1.P Vx.S[i], 4(Rr) *)
| VMOV (y x : nat)
| VMOV_lane (y i x : nat)               (* VMOV Vy.S[i], Vx: scalar copy, upper lanes become 0 *)
| VDUP (y i x : nat)
| VREV32 (y x : nat)
| VADD (m n d : nat)
| SHA1SU0 (m n d : nat)
| SHA1SU1 (n d : nat)
| SHA1C (m n d : nat)
| SHA1P (m n d : nat)
| SHA1M (m n d : nat)
| SHA1H (n d : nat)
| ARET.

(** ** Vector operations *)

(** REV32 on bytes: the bytes of each lane in reverse order. *)
Definition bswap32 (x : word) : word := le_val (rev (le32 x)).
Definition vrev32 (v : vec) : vec := mkv (bswap32 (v0 v)) (bswap32 (v1 v)) (bswap32 (v2 v)) (bswap32 (v3 v)).
Definition vdup (x : word) : vec := mkv x x x x.
Definition sha1su0 (m n d : vec) : vec :=
  mkv (N.lxor (N.lxor (v2 d) (v0 d)) (v0 m)) (N.lxor (N.lxor (v3 d) (v1 d)) (v1 m))
      (N.lxor (N.lxor (v0 n) (v2 d)) (v2 m)) (N.lxor (N.lxor (v1 n) (v3 d)) (v3 m)).
Definition sha1su1 (n d : vec) : vec :=
  let t0 := N.lxor (v0 d) (v1 n) in
  let t1 := N.lxor (v1 d) (v2 n) in
  let t2 := N.lxor (v2 d) (v3 n) in
  let t3 := v3 d in
  mkv (rotl32 t0 1) (rotl32 t1 1) (rotl32 t2 1) (N.lxor (rotl32 t3 1) (rotl32 t0 2)).
(** SHAchoose, SHAparity, SHAmajority. *)
Definition sha_choose (x y z : word) : word := N.lxor (N.land (N.lxor y z) x) z.
Definition sha_parity (x y z : word) : word := N.lxor (N.lxor x y) z.
Definition sha_majority (x y z : word) : word := N.lor (N.land x y) (N.land (N.lor x y) z).
(** One of the four rounds of SHA1C, SHA1P, SHA1M: X = (a, b, c, d), Y = e. *)
Definition sha_round (f : word -> word -> word -> word) (w : word) (s : st) : st :=
  mkst (add32 (add32 (add32 (se s) (rotl32 (sa s) 5)) (f (sb s) (sc s) (sd s))) w) (sa s) (rotl32 (sb s) 30) (sc s) (sd s).
Definition sha_hash (f : word -> word -> word -> word) (m n d : vec) : vec :=
  let s := mkst (v0 d) (v1 d) (v2 d) (v3 d) (v0 n) in
  let s := sha_round f (v3 m) (sha_round f (v2 m) (sha_round f (v1 m) (sha_round f (v0 m) s))) in
  mkv (sa s) (sb s) (sc s) (sd s).

(** ** The machine *)

Record amach := mkam { xpc : nat; xg : nat -> N; xv : nat -> vec; xm : mem; xls : bool }.
Definition xsetg (r : nat) (v : N) (s : amach) : amach :=
  mkam (S (xpc s)) (fun q => if (q =? r)%nat then v else xg s q) (xv s) (xm s) (xls s).
Definition xsetv (x : nat) (v : vec) (s : amach) : amach :=
  mkam (S (xpc s)) (xg s) (fun q => if (q =? x)%nat then v else xv s q) (xm s) (xls s).
Definition xsetm (m : mem) (s : amach) : amach := mkam (S (xpc s)) (xg s) (xv s) m (xls s).
Definition xsetf (z : bool) (s : amach) : amach := mkam (S (xpc s)) (xg s) (xv s) (xm s) z.
Definition xjump (l : nat) (s : amach) : amach := mkam l (xg s) (xv s) (xm s) (xls s).
(** Post-index: the base register moves after the access. *)
Definition xbump (r : nat) (n : N) (s : amach) : amach :=
  mkam (xpc s) (fun q => if (q =? r)%nat then (xg s r + n) mod M64 else xg s q) (xv s) (xm s) (xls s).

Section Run.
  Variable L : layout.
  Definition xstep (i : ainstr) (s : amach) : option amach :=
    match i with
    | MOVD_arg off r => do l <- rd (regions L) (xm s) ((l_args L + off) mod M64) 8; Some (xsetg r (le_val l) s)
    | MOVD_ks r => Some (xsetg r (l_ro1 L) s)
    | LSR n q r => Some (xsetg r (N.shiftr (xg s q) n) s)
    | LSL n q r => Some (xsetg r (N.shiftl (xg s q) n mod M64) s)
    | ADD p q r => Some (xsetg r ((xg s q + xg s p) mod M64) s)
    | SUB_imm n q r => Some (xsetg r ((xg s q + M64 - n) mod M64) s)
    | CMP q r => Some (xsetf (xg s r <=? xg s q) s)
    | BLS l => Some (if xls s then xjump l s else xjump (S (xpc s)) s)
    | VLD1P r x => do l <- rd (regions L) (xm s) (xg s r) 16; Some (xbump r 16 (xsetv x (bytes_vec l) s))
    | VLD1 r x => do l <- rd (regions L) (xm s) (xg s r) 16; Some (xsetv x (bytes_vec l) s)
    | FMOVS_load r x => do l <- rd (regions L) (xm s) (xg s r) 4; Some (xsetv x (mkv (le_val l) 0 0 0) s)
    | FMOVS_store x r => do m <- wr (regions L) (xm s) (xg s r) (le32 (v0 (xv s x))); Some (xsetm m s)
    | VST1P x r => do m <- wr (regions L) (xm s) (xg s r) (vec_bytes (xv s x)); Some (xbump r 16 (xsetm m s))
    | VST1P_lane x i r => do m <- wr (regions L) (xm s) (xg s r) (le32 (lane i (xv s x))); Some (xbump r 4 (xsetm m s))
    | VMOV y x => Some (xsetv x (xv s y) s)
    | VMOV_lane y i x => Some (xsetv x (mkv (lane i (xv s y)) 0 0 0) s)
    | VDUP y i x => Some (xsetv x (vdup (lane i (xv s y))) s)
    | VREV32 y x => Some (xsetv x (vrev32 (xv s y)) s)
    | VADD m n d => Some (xsetv d (addv (xv s n) (xv s m)) s)
    | SHA1SU0 m n d => Some (xsetv d (sha1su0 (xv s m) (xv s n) (xv s d)) s)
    | SHA1SU1 n d => Some (xsetv d (sha1su1 (xv s n) (xv s d)) s)
    | SHA1C m n d => Some (xsetv d (sha_hash sha_choose (xv s m) (xv s n) (xv s d)) s)
    | SHA1P m n d => Some (xsetv d (sha_hash sha_parity (xv s m) (xv s n) (xv s d)) s)
    | SHA1M m n d => Some (xsetv d (sha_hash sha_majority (xv s m) (xv s n) (xv s d)) s)
    | SHA1H n d => Some (xsetv d (mkv (rotl32 (v0 (xv s n)) 30) 0 0 0) s)
    | ARET => None
    end.

  (** Run until RET; None: fault, no instruction at pc, or not finished after [fuel] instructions. *)
  Fixpoint xexec (prog : list ainstr) (fuel : nat) (s : amach) : option amach :=
    match fuel with
    | O => None
    | S n => match nth_error prog (xpc s) with
             | None => None
             | Some ARET => Some s
             | Some i => do s <- xstep i s; xexec prog n s
             end
    end.
End Run.

(** ** Calling the routine *)

(** The uncontrolled part of the machine at entry: addresses, registers, flags, and the rest of memory. *)
Record aenv := mkaenv { ae_lay : layout; ae_g : nat -> N; ae_v : nat -> vec; ae_mem : mem; ae_ls : bool }.

(** ks: the contents of the symbol sha1Ks.  The second read-only symbol of the layout is not used here. *)
Definition aentry (ks : list byte) (e : aenv) (h : st) (p : list byte) (m1 : list word) (cs : csarr) : amach :=
  mkam 0 (fun r => ae_g e r mod M64) (ae_v e) (entry_mem (ae_lay e) ks (repeat x00 16) (ae_mem e) h p m1 cs) (ae_ls e).

(** blockARM64(h, p, m1, cs) as a function of its arguments: run, then read h, m1 and cs. *)
Definition call_arm64 (prog : list ainstr) (ks : list byte) (e : aenv) (h : st) (p : list byte) (m1 : list word) (cs : csarr)
  : option (st * list word * csarr) :=
  do s <- xexec (ae_lay e) prog 1000 (aentry ks e h p m1 cs);
  Some (st_at (xm s) (l_h (ae_lay e)), words_at (xm s) (l_m1 (ae_lay e)) 80, cs_at (xm s) (l_cs (ae_lay e))).
