(** The C library in /repo/cgo: local variables, macros and step macros of sha1.c.
    The lists of macro calls that use them are generated from the text into Gen_CSteps.v. *)

From Coq Require Import Arith NArith String List Strings.Byte Bool.
From Verif Require Import Word Model_Go.
Import ListNotations.
Local Open Scope N_scope.

(** The local variables a, b, c, d, e of the compression functions
    (/repo/cgo/sha1.c lines 366, 461 and 874); their contents are kept in an [st]. *)
Inductive cvar := Va | Vb | Vc | Vd | Ve.

Definition getv (v : cvar) (s : st) : word :=
  match v with Va => sa s | Vb => sb s | Vc => sc s | Vd => sd s | Ve => se s end.
Definition setv (v : cvar) (x : word) (s : st) : st :=
  match v with
  | Va => mkst x (sb s) (sc s) (sd s) (se s)
  | Vb => mkst (sa s) x (sc s) (sd s) (se s)
  | Vc => mkst (sa s) (sb s) x (sd s) (se s)
  | Vd => mkst (sa s) (sb s) (sc s) x (se s)
  | Ve => mkst (sa s) (sb s) (sc s) (sd s) x
  end.

(** A call of one of the HASHCLASH_SHA1COMPRESS_ROUNDr_STEP or ..._STEP_BW macros: round, the five
    variables passed, and the index t. *)
Record cstep := mkcstep { cs_r : nat; cs_a : cvar; cs_b : cvar; cs_c : cvar; cs_d : cvar; cs_e : cvar; cs_t : nat }.

(** The macros SHA1COMPRESS_FULL_ROUND1_STEP_LOAD, SHA1COMPRESS_FULL_ROUND1_STEP_EXPAND and
    SHA1COMPRESS_FULL_ROUNDr_STEP, r = 2, 3, 4. *)
Inductive ckind := FLoad | FExpand | FRound (r : nat).

(** Items of sha1_compression_states: "#ifdef guard SHA1_STORE_STATE(i) #endif", or a step. *)
Inductive citem :=
| CStore (guard : string) (i : nat)
| CFull (k : ckind) (a b c d e : cvar) (t : nat).

(** /repo/cgo/sha1.c lines 135-136: rotate_right and rotate_left. *)
Definition rotate_right (x n : word) : word := N.lor (shr32 x n) (shl32 x (32 - n)).
Definition rotate_left (x n : word) : word := N.lor (shl32 x n) (shr32 x (32 - n)).

(** Lines 138-142: sha1_bswap32. *)
Definition sha1_bswap32 (x : word) : word :=
  let x := N.lor (N.land (shl32 x 8) 0xFF00FF00) (N.land (shr32 x 8) 0xFF00FF) in
  N.lor (shl32 x 16) (shr32 x 16).

(** Line 144: sha1_mix. *)
Definition sha1_mix (W : list word) (t : nat) : word :=
  rotate_left (N.lxor (N.lxor (N.lxor (nth (t - 3) W 0) (nth (t - 8) W 0)) (nth (t - 14) W 0)) (nth (t - 16) W 0)) 1.

(** Lines 161-164: sha1_f1 ... sha1_f4. *)
Definition sha1_f1 (b c d : word) : word := N.lxor d (N.land b (N.lxor c d)).
Definition sha1_f2 (b c d : word) : word := N.lxor (N.lxor b c) d.
Definition sha1_f3 (b c d : word) : word := add32 (N.land b c) (N.land d (N.lxor b c)).
Definition sha1_f4 (b c d : word) : word := N.lxor (N.lxor b c) d.

(** The round function and constant in the body of the macros of round r, lines 166-246. *)
Definition c_f (r : nat) : word -> word -> word -> word :=
  match r with 1%nat => sha1_f1 | 2%nat => sha1_f2 | 3%nat => sha1_f3 | _ => sha1_f4 end.
Definition c_K (r : nat) : word :=
  match r with 1%nat => 0x5A827999 | 2%nat => 0x6ED9EBA1 | 3%nat => 0x8F1BBCDC | _ => 0xCA62C1D6 end.

(** Lines 166-185: HASHCLASH_SHA1COMPRESS_ROUNDr_STEP(a, b, c, d, e, m, t):
    e += rotate_left(a, 5) + f(b, c, d) + K + m[t]; b = rotate_left(b, 30). *)
Definition hc_step (m : list word) (k : cstep) (s : st) : st :=
  let s := setv (cs_e k) (add32 (getv (cs_e k) s)
             (add32 (add32 (add32 (rotate_left (getv (cs_a k) s) 5)
                (c_f (cs_r k) (getv (cs_b k) s) (getv (cs_c k) s) (getv (cs_d k) s))) (c_K (cs_r k)))
                (nth (cs_t k) m 0))) s in
  setv (cs_b k) (rotate_left (getv (cs_b k) s) 30) s.

(** Lines 187-206: HASHCLASH_SHA1COMPRESS_ROUNDr_STEP_BW:
    b = rotate_right(b, 30); e -= rotate_left(a, 5) + f(b, c, d) + K + m[t]. *)
Definition hc_step_bw (m : list word) (k : cstep) (s : st) : st :=
  let s := setv (cs_b k) (rotate_right (getv (cs_b k) s) 30) s in
  setv (cs_e k) (sub32 (getv (cs_e k) s)
     (add32 (add32 (add32 (rotate_left (getv (cs_a k) s) 5)
        (c_f (cs_r k) (getv (cs_b k) s) (getv (cs_c k) s) (getv (cs_d k) s))) (c_K (cs_r k)))
        (nth (cs_t k) m 0))) s.

(** The round of a SHA1COMPRESS_FULL macro. *)
Definition kind_round (k : ckind) : nat := match k with FLoad | FExpand => 1%nat | FRound r => r end.
