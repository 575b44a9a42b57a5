(** The table of disturbance vectors as mutable state: /repo/ubc/ubc.go lines 373-376, SHA1_dvs, returns the slice of the package
    variable itself, so whoever imports package ubc can store into the table that checkCollision reads. *)

From Coq Require Import Arith NArith List Strings.Byte.
From Verif Require Import Word Model_Ubc Gen_DvsGo Model_Go.
Import ListNotations.
Local Open Scope N_scope.

(** /repo/sha1cdblock_generic.go lines 146-183, with the contents [T] of the table. *)
Definition checkCollision_in (T : list dvinfo) (m1 : list word) (cs : csarr) (h : st) : option bool :=
  let mask := CalculateDvMask (Some m1) in
  if mask =? 0 then Some false else checkLoop T mask m1 cs h.

(** Lines 40-137 and 31-140, as [Model_Go.g_rehash] and [Model_Go.g_blocks].  The table does not change during a call of block. *)
Fixpoint g_rehash_in (T : list dvinfo) (fuel : nat) (p : list byte) (hi : nat) (h : st) (w m1 : list word) (cs : csarr)
    (col : bool) : option (st * list word * csarr * bool) :=
  match fuel with
  | O => None
  | S fuel =>
    let x := g_pass p h w m1 cs in
    let h := addst h (ps x) in
    if (hi =? 2)%nat then g_rehash_in T fuel p (hi + 1) h (pw x) (pm x) (pcs x) col
    else if (hi =? 1)%nat then
      do c <- checkCollision_in T (pm x) (pcs x) h;
      if c : bool then g_rehash_in T fuel p (hi + 1) h (pw x) (pm x) (pcs x) true
      else Some (h, pw x, pcs x, col)
    else Some (h, pw x, pcs x, col)
  end.
Fixpoint g_blocks_in (T : list dvinfo) (fuel : nat) (p : list byte) (h : st) (w : list word) (cs : csarr) (col : bool)
    : option (st * bool) :=
  if (64 <=? length p)%nat then
    match fuel with
    | O => None
    | S fuel =>
      do (h, w, cs, col) <- g_rehash_in T 3 p 1 h w (repeat 0 80) cs col;
      g_blocks_in T fuel (skipn 64 p) h w cs col
    end
  else Some (h, col).
(** Lines 22-143. *)
Definition blockGeneric_in (T : list dvinfo) (d : digest) (p : list byte) : option digest :=
  do (h, col) <- g_blocks_in T (length p) p (dh d) (repeat 0 16) (mkcs st0 st0 st0) (dcol d);
  Some (mkd h (dx d) (dnx d) (dlen d) col).

(** ubc.SHA1_dvs()[i] = v; None: index out of range. *)
Definition store_dv (T : list dvinfo) (i : nat) (v : dvinfo) : option (list dvinfo) :=
  if (i <? length T)%nat then Some (upd i v T) else None.
