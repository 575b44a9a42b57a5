(** C's integer types: the expressions of /repo/cgo/ubc_check.c lines 74-291 and of the macros of /repo/cgo/sha1.c lines 135-246,
    with the types of their operands (ISO/IEC 9899:2011 6.3.1, 6.5.3.3, 6.5.5-6.5.14).
    An int has w bits, two's complement; a uint32_t object is unsigned int if w = 32; if int is wider, its value is promoted to int.
    Undefined (signed overflow, shift of a negative number to the left, shift by the width or more) and implementation-defined
    (shift of a negative number to the right) behaviour is None. *)

From Coq Require Import Arith NArith ZArith List Bool.
From Verif Require Import Word Model_Go.
Import ListNotations.
Local Open Scope Z_scope.

(** [EV k]: object k of type uint32_t; [EL n]: the literal n (decimal, or hexadecimal if it does not fit into an int);
    [EO n]: a const uint32_t object with value n; [ECast e]: (uint32_t)(e). *)
Inductive cexp :=
| EV (k : N)
| EL (n : N)
| EO (n : N)
| ECast (e : cexp)
| ENot (e : cexp)
| ELNot (e : cexp)
| EAnd (x y : cexp)
| EOr (x y : cexp)
| EXor (x y : cexp)
| EAdd (x y : cexp)
| ESub (x y : cexp)
| EShl (x y : cexp)
| EShr (x y : cexp)
| ENe (x y : cexp)
| ELor (x y : cexp).

(** A value of type int or of type unsigned int (32 bits). *)
Inductive cval := VI (z : Z) | VU (z : Z).

Definition two32 : Z := 4294967296.

Section Width.
  Variable w : Z.
  Variable env : N -> N.

  (** An int result; outside of the range: undefined. *)
  Definition int (z : Z) : option cval := if (- 2 ^ (w - 1) <=? z) && (z <? 2 ^ (w - 1)) then Some (VI z) else None.
  (** Conversion to uint32_t (6.3.1.3). *)
  Definition tou (v : cval) : Z := match v with VI z | VU z => z mod two32 end.
  (** The value of a uint32_t object in an expression (6.3.1.1: integer promotions). *)
  Definition load (n : Z) : cval := if 32 <? w then VI n else VU n.
  Definition zero (v : cval) : bool := match v with VI z | VU z => z =? 0 end.
  Definition truth (b : bool) : cval := VI (if b then 1 else 0).
  (** The usual arithmetic conversions (6.3.1.8), then the operation. *)
  Definition arith (f : Z -> Z -> Z) (x y : cval) : option cval :=
    match x, y with
    | VI a, VI b => int (f a b)
    | _, _ => Some (VU (f (tou x) (tou y) mod two32))
    end.
  Definition differ (x y : cval) : bool :=
    match x, y with
    | VI a, VI b => negb (a =? b)
    | _, _ => negb (tou x =? tou y)
    end.
  (** Shifts (6.5.7): the type of the result is that of the left operand. *)
  Definition shl (x y : cval) : option cval :=
    let c := match y with VI z | VU z => z end in
    match x with
    | VI a => if (0 <=? c) && (c <? w) && (0 <=? a) then int (a * 2 ^ c) else None
    | VU a => if (0 <=? c) && (c <? 32) then Some (VU ((a * 2 ^ c) mod two32)) else None
    end.
  Definition shr (x y : cval) : option cval :=
    let c := match y with VI z | VU z => z end in
    match x with
    | VI a => if (0 <=? c) && (c <? w) && (0 <=? a) then Some (VI (a / 2 ^ c)) else None
    | VU a => if (0 <=? c) && (c <? 32) then Some (VU (a / 2 ^ c)) else None
    end.
  (** Literals (6.4.4.1): int if it fits, otherwise (32 bits, hexadecimal) unsigned int. *)
  Definition literal (n : Z) : option cval :=
    if n <? 2 ^ (w - 1) then Some (VI n) else if (w =? 32) && (n <? two32) then Some (VU n) else None.

  Fixpoint ceval (e : cexp) : option cval :=
    match e with
    | EV k => Some (load (Z.of_N (env k)))
    | EL n => literal (Z.of_N n)
    | EO n => Some (load (Z.of_N n))
    | ECast e => do v <- ceval e; Some (load (tou v))
    | ENot e => do v <- ceval e; Some match v with VI z => VI (Z.lnot z) | VU z => VU (Z.lnot z mod two32) end
    | ELNot e => do v <- ceval e; Some (truth (zero v))
    | EAnd x y => do a <- ceval x; do b <- ceval y; arith Z.land a b
    | EOr x y => do a <- ceval x; do b <- ceval y; arith Z.lor a b
    | EXor x y => do a <- ceval x; do b <- ceval y; arith Z.lxor a b
    | EAdd x y => do a <- ceval x; do b <- ceval y; arith Z.add a b
    | ESub x y => do a <- ceval x; do b <- ceval y; arith Z.sub a b
    | EShl x y => do a <- ceval x; do b <- ceval y; shl a b
    | EShr x y => do a <- ceval x; do b <- ceval y; shr a b
    | ENe x y => do a <- ceval x; do b <- ceval y; Some (truth (differ a b))
    | ELor x y => do a <- ceval x; if zero a then (do b <- ceval y; Some (truth (negb (zero b)))) else Some (VI 1)
    end.
  (** The value that an assignment to a uint32_t object stores. *)
  Definition assigned (e : cexp) : option N := do v <- ceval e; Some (Z.to_N (tou v)).
  (** The condition of an if statement. *)
  Definition condition (e : cexp) : option bool := do v <- ceval e; Some (negb (zero v)).
End Width.

(** Programs: mask &= e; rest, and if (c) body; rest.  mask is object 80, W[i] is object i. *)
Inductive cprog :=
| TEnd
| TAnd (e : cexp) (rest : cprog)
| TIf (c : cexp) (body rest : cprog).
Definition objects (W : list word) (mask : word) (k : N) : word := if (k <? 80)%N then nth (N.to_nat k) W 0%N else mask.
Fixpoint crun (w : Z) (W : list word) (p : cprog) (mask : word) : option word :=
  match p with
  | TEnd => Some mask
  | TAnd e r => do m <- assigned w (objects W mask) (EAnd (EV 80) e); crun w W r m
  | TIf c b r => do t <- condition w (objects W mask) c; do m <- (if t then crun w W b mask else Some mask); crun w W r m
  end.
(** Line 75: mask = ~((uint32_t)(0)), then the program. *)
Definition ubc_check_typed (w : Z) (p : cprog) (W : list word) : option word :=
  do m <- assigned w (objects W 0%N) (ENot (ECast (EL 0))); crun w W p m.

(** ** The macros of /repo/cgo/sha1.c; the arguments are expressions. *)
(** Lines 135-136. *)
Definition e_rotate_right (x n : cexp) : cexp := EOr (EShr x n) (EShl x (ESub (EL 32) n)).
Definition e_rotate_left (x n : cexp) : cexp := EOr (EShl x n) (EShr x (ESub (EL 32) n)).
(** Lines 138-142: the two assignments of sha1_bswap32. *)
Definition e_bswap1 (x : cexp) : cexp := EOr (EAnd (EShl x (EL 8)) (EL 0xFF00FF00)) (EAnd (EShr x (EL 8)) (EL 0xFF00FF)).
Definition e_bswap2 (x : cexp) : cexp := EOr (EShl x (EL 16)) (EShr x (EL 16)).
(** Line 144: sha1_mix, on W[t - 3], W[t - 8], W[t - 14], W[t - 16]. *)
Definition e_mix (w3 w8 w14 w16 : cexp) : cexp := e_rotate_left (EXor (EXor (EXor w3 w8) w14) w16) (EL 1).
(** Lines 161-164. *)
Definition e_f (r : nat) (b c d : cexp) : cexp :=
  match r with
  | 1%nat => EXor d (EAnd b (EXor c d))
  | 2%nat => EXor (EXor b c) d
  | 3%nat => EAdd (EAnd b c) (EAnd d (EXor b c))
  | _ => EXor (EXor b c) d
  end.
(** The constants of the rounds, lines 166-246. *)
Definition e_K (r : nat) : cexp :=
  EL match r with 1%nat => 0x5A827999 | 2%nat => 0x6ED9EBA1 | 3%nat => 0x8F1BBCDC | _ => 0xCA62C1D6 end.
(** Lines 166-185: the new e of HASHCLASH_SHA1COMPRESS_ROUNDr_STEP, and lines 187-206, ..._BW (b is rotated already). *)
Definition e_step_sum (r : nat) (a b c d m : cexp) : cexp :=
  EAdd (EAdd (EAdd (e_rotate_left a (EL 5)) (e_f r b c d)) (e_K r)) m.
Definition e_step (r : nat) (a b c d e m : cexp) : cexp := EAdd e (e_step_sum r a b c d m).
Definition e_step_bw (r : nat) (a b c d e m : cexp) : cexp := ESub e (e_step_sum r a b c d m).
(** Lines 208-246: the new e of the SHA1COMPRESS_FULL macros. *)
Definition e_full (r : nat) (a b c d e temp : cexp) : cexp :=
  EAdd e (EAdd (EAdd (EAdd temp (e_rotate_left a (EL 5))) (e_f r b c d)) (e_K r)).
(** ihv[i] += a and the like, lines 452-456, 864-868, 1205-1209: x + y. *)
Definition e_sum (x y : cexp) : cexp := EAdd x y.
(** Line 1978: m1[j] ^ dm[j]; lines 1983-1984: 0 == ((x0 ^ y0) | ...), written as the negation of !=. *)
Definition e_xor (x y : cexp) : cexp := EXor x y.
Definition e_same (x y : N -> cexp) : cexp :=
  ELNot (ENe (EL 0) (EOr (EOr (EOr (EOr (EXor (x 0%N) (y 0%N)) (EXor (x 1%N) (y 1%N))) (EXor (x 2%N) (y 2%N))) (EXor (x 3%N) (y 3%N))) (EXor (x 4%N) (y 4%N)))).
