(** The x86-64 instructions used by /repo/sha1cdblock_amd64.s, and the machine that runs them.
    Operands are in the order of the Go assembler: sources first, destination last.
    Instruction meanings after the Intel SDM, volume 2.  Not modelled: upper halves of the AVX registers,
    flags other than ZF, and the registers the routine does not use. *)

From Coq Require Import Arith NArith List Strings.Byte Bool.
From Verif Require Import Word Spec_Sha1 Model_Go Model_Asm.
Import ListNotations.
Local Open Scope N_scope.

Inductive greg := AX | CX | DX | SI | DI | R12 | R13 | R15 | SP.
Definition greg_eqb (a b : greg) : bool :=
  match a, b with
  | AX, AX | CX, CX | DX, DX | SI, SI | DI, DI | R12, R12 | R13, R13 | R15, R15 | SP, SP => true
  | _, _ => false
  end.
(** Memory operands: disp(reg), name+disp(FP), upper_mask<>+disp(SB), shuffle_mask<>+disp(SB). *)
Inductive base := BReg (r : greg) | BFP | BUpper | BShuffle.
Record maddr := mka { mbase : base; mdisp : N }.
(** A vector source: register or memory. *)
Inductive vsrc := VX (x : nat) | VM (a : maddr).

Inductive instr :=
| MOVQ_load (a : maddr) (r : greg)
| MOVQ_imm (n : N) (r : greg)
| CMPQ_imm (r : greg) (n : N)
| CMPQ (r s : greg)
| JEQ (l : nat)
| JNE (l : nat)
| ADDQ (s r : greg)
| ADDQ_imm (n : N) (r : greg)
| LEAQ (a : maddr) (r : greg)
| NOTQ (r : greg)
| ANDQ (s r : greg)
| ROLL (n : N) (r : greg)
| MOVL_store (r : greg) (a : maddr)
| PINSRD (i : nat) (a : maddr) (x : nat)
| PEXTRD_store (i : nat) (x : nat) (a : maddr)
| VPEXTRD (i : nat) (x : nat) (r : greg)
| VMOVDQU_load (a : maddr) (x : nat)
| VMOVDQU_store (x : nat) (a : maddr)
| VMOVDQA (s : vsrc) (x : nat)
| VMOVDQA_store (x : nat) (a : maddr)
| PAND (s : vsrc) (x : nat)
| PXOR (s : vsrc) (x : nat)
| PADDD (s : vsrc) (x : nat)
| PSHUFB (s : vsrc) (x : nat)
| PSHUFD (i : N) (y x : nat)
| SHA1RNDS4 (i : nat) (y x : nat)
| SHA1NEXTE (s : vsrc) (x : nat)
| SHA1MSG1 (s : vsrc) (x : nat)
| SHA1MSG2 (s : vsrc) (x : nat)
| RET.

(** ** Vector operations *)

(** PSHUFD, VPSHUFD: lane i of the result is the lane selected by bits 2i+1:2i of the immediate. *)
Definition pshufd (i : N) (v : vec) : vec :=
  let sel k := lane (N.to_nat (N.land (N.shiftr i (2 * k)) 3)) v in
  mkv (sel 0) (sel 1) (sel 2) (sel 3).
(** PSHUFB: byte i of the result is 0 if bit 7 of mask byte i is set, else the byte selected by its low four bits. *)
Definition pshufb (mask v : vec) : vec :=
  bytes_vec (map (fun b => if N.testbit (b2n b) 7 then x00 else nth (N.to_nat (N.land (b2n b) 15)) (vec_bytes v) x00)
                 (vec_bytes mask)).
(** SHA1NEXTE dest, src: add the rotated top lane of dest to the top lane of src. *)
Definition sha1nexte (src dst : vec) : vec :=
  mkv (v0 src) (v1 src) (v2 src) (add32 (v3 src) (rotl32 (v3 dst) 30)).
Definition sha1msg1 (src dst : vec) : vec :=
  mkv (N.lxor (v2 src) (v0 dst)) (N.lxor (v3 src) (v1 dst)) (N.lxor (v0 dst) (v2 dst)) (N.lxor (v1 dst) (v3 dst)).
Definition sha1msg2 (src dst : vec) : vec :=
  let w16 := rotl32 (N.lxor (v3 dst) (v2 src)) 1 in
  let w17 := rotl32 (N.lxor (v2 dst) (v1 src)) 1 in
  let w18 := rotl32 (N.lxor (v1 dst) (v0 src)) 1 in
  let w19 := rotl32 (N.lxor (v0 dst) w16) 1 in
  mkv w19 w18 w17 w16.
(** SHA1RNDS4: functions f0..f3 and constants K0..K3 selected by the immediate. *)
Definition rnds_f (i : nat) : word -> word -> word -> word :=
  match i with
  | 0 => fun b c d => N.lxor (N.land b c) (N.land (not32 b) d)
  | 1 => fun b c d => N.lxor (N.lxor b c) d
  | 2 => fun b c d => N.lxor (N.lxor (N.land b c) (N.land b d)) (N.land c d)
  | _ => fun b c d => N.lxor (N.lxor b c) d
  end%nat.
Definition rnds_k (i : nat) : word :=
  match i with 0%nat => 0x5A827999 | 1%nat => 0x6ED9EBA1 | 2%nat => 0x8F1BBCDC | _ => 0xCA62C1D6 end.
(** One of the four rounds; the first round gets E = 0 because W0E already contains it. *)
Definition rnds_round (i : nat) (w : word) (s : st) : st :=
  mkst (add32 (add32 (add32 (add32 (rnds_f i (sb s) (sc s) (sd s)) (rotl32 (sa s) 5)) w) (se s)) (rnds_k i))
       (sa s) (rotl32 (sb s) 30) (sc s) (sd s).
Definition sha1rnds4 (i : nat) (src dst : vec) : vec :=
  let s := mkst (v3 dst) (v2 dst) (v1 dst) (v0 dst) 0 in
  let s := rnds_round i (v0 src) (rnds_round i (v1 src) (rnds_round i (v2 src) (rnds_round i (v3 src) s))) in
  mkv (sd s) (sc s) (sb s) (sa s).

(** ** The machine *)

Record mach := mkm { pc : nat; gr : greg -> N; xr : nat -> vec; mm : mem; zf : bool }.
Definition setg (r : greg) (v : N) (s : mach) : mach :=
  mkm (S (pc s)) (fun q => if greg_eqb q r then v else gr s q) (xr s) (mm s) (zf s).
Definition setx (x : nat) (v : vec) (s : mach) : mach :=
  mkm (S (pc s)) (gr s) (fun q => if (q =? x)%nat then v else xr s q) (mm s) (zf s).
Definition setm (m : mem) (s : mach) : mach := mkm (S (pc s)) (gr s) (xr s) m (zf s).
Definition setz (z : bool) (s : mach) : mach := mkm (S (pc s)) (gr s) (xr s) (mm s) z.
(** Register result with ZF. *)
Definition setgz (r : greg) (v : N) (s : mach) : mach :=
  mkm (S (pc s)) (fun q => if greg_eqb q r then v else gr s q) (xr s) (mm s) (v =? 0).
Definition jump (l : nat) (s : mach) : mach := mkm l (gr s) (xr s) (mm s) (zf s).

Section Run.
  Variable L : layout.
  (** Address of an operand (64-bit wrap-around). *)
  Definition addr (s : mach) (a : maddr) : N :=
    (match mbase a with BReg r => gr s r | BFP => l_args L | BUpper => l_ro1 L | BShuffle => l_ro2 L end + mdisp a) mod M64.
  Definition load32 (s : mach) (a : maddr) : option word := do l <- rd (regions L) (mm s) (addr s a) 4; Some (le_val l).
  Definition load64 (s : mach) (a : maddr) : option N := do l <- rd (regions L) (mm s) (addr s a) 8; Some (le_val l).
  Definition load128 (s : mach) (a : maddr) : option vec := do l <- rd (regions L) (mm s) (addr s a) 16; Some (bytes_vec l).
  (** VMOVDQA and memory operands of non-VEX instructions fault when not 16-aligned. *)
  Definition load128a (s : mach) (a : maddr) : option vec := if aligned (addr s a) then load128 s a else None.
  Definition vget (s : mach) (v : vsrc) : option vec :=
    match v with VX x => Some (xr s x) | VM a => load128a s a end.
  Definition store (s : mach) (a : maddr) (l : list byte) : option mach :=
    do m <- wr (regions L) (mm s) (addr s a) l; Some (setm m s).

  Definition step_instr (i : instr) (s : mach) : option mach :=
    match i with
    | MOVQ_load a r => do v <- load64 s a; Some (setg r v s)
    | MOVQ_imm n r => Some (setg r n s)
    | CMPQ_imm r n => Some (setz (gr s r =? n) s)
    | CMPQ r q => Some (setz (gr s r =? gr s q) s)
    | JEQ l => Some (if zf s then jump l s else jump (S (pc s)) s)
    | JNE l => Some (if zf s then jump (S (pc s)) s else jump l s)
    | ADDQ q r => Some (setgz r ((gr s r + gr s q) mod M64) s)
    | ADDQ_imm n r => Some (setgz r ((gr s r + n) mod M64) s)
    | LEAQ a r => Some (setg r (addr s a) s)
    | NOTQ r => Some (setg r (N.lxor (gr s r) (M64 - 1)) s)
    | ANDQ q r => Some (setgz r (N.land (gr s r) (gr s q)) s)
    | ROLL n r => Some (setg r (rotl32 (gr s r mod M32) n) s)
    | MOVL_store r a => store s a (le32 (gr s r mod M32))
    | PINSRD i a x => do w <- load32 s a; Some (setx x (set_lane i w (xr s x)) s)
    | PEXTRD_store i x a => store s a (le32 (lane i (xr s x)))
    | VPEXTRD i x r => Some (setg r (lane i (xr s x)) s)
    | VMOVDQU_load a x => do v <- load128 s a; Some (setx x v s)
    | VMOVDQU_store x a => store s a (vec_bytes (xr s x))
    | VMOVDQA v x => do v <- vget s v; Some (setx x v s)
    | VMOVDQA_store x a => if aligned (addr s a) then store s a (vec_bytes (xr s x)) else None
    | PAND v x => do v <- vget s v; Some (setx x (map2v N.land (xr s x) v) s)
    | PXOR v x => do v <- vget s v; Some (setx x (xorv (xr s x) v) s)
    | PADDD v x => do v <- vget s v; Some (setx x (addv (xr s x) v) s)
    | PSHUFB v x => do v <- vget s v; Some (setx x (pshufb v (xr s x)) s)
    | PSHUFD i y x => Some (setx x (pshufd i (xr s y)) s)
    | SHA1RNDS4 i y x => Some (setx x (sha1rnds4 i (xr s y) (xr s x)) s)
    | SHA1NEXTE v x => do v <- vget s v; Some (setx x (sha1nexte v (xr s x)) s)
    | SHA1MSG1 v x => do v <- vget s v; Some (setx x (sha1msg1 v (xr s x)) s)
    | SHA1MSG2 v x => do v <- vget s v; Some (setx x (sha1msg2 v (xr s x)) s)
    | RET => None
    end.

  (** Run until RET; None: fault, no instruction at pc, or not finished after [fuel] instructions. *)
  Fixpoint exec (prog : list instr) (fuel : nat) (s : mach) : option mach :=
    match fuel with
    | O => None
    | S n => match nth_error prog (pc s) with
             | None => None
             | Some RET => Some s
             | Some i => do s <- step_instr i s; exec prog n s
             end
    end.
End Run.

(** ** Calling the routine *)

(** The uncontrolled part of the machine at entry: addresses, registers, flags, and the rest of memory. *)
Record env := mkenv { e_lay : layout; e_gr : greg -> N; e_xr : nat -> vec; e_mem : mem; e_zf : bool }.

(** ro1, ro2: the contents of the symbols upper_mask and shuffle_mask. *)
Definition entry (ro1 ro2 : list byte) (e : env) (h : st) (p : list byte) (m1 : list word) (cs : csarr) : mach :=
  mkm 0 (fun r => match r with SP => l_frame (e_lay e) | _ => e_gr e r mod M64 end) (e_xr e)
    (entry_mem (e_lay e) ro1 ro2 (e_mem e) h p m1 cs) (e_zf e).

(** blockAMD64(h, p, m1, cs) as a function of its arguments: run, then read h, m1 and cs. *)
Definition call_amd64 (prog : list instr) (ro1 ro2 : list byte) (e : env) (h : st) (p : list byte) (m1 : list word) (cs : csarr)
  : option (st * list word * csarr) :=
  do s <- exec (e_lay e) prog 1000 (entry ro1 ro2 e h p m1 cs);
  Some (st_at (mm s) (l_h (e_lay e)), words_at (mm s) (l_m1 (e_lay e)) 80, cs_at (mm s) (l_cs (e_lay e))).
