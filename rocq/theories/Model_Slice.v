(** The API at the level of Go slices: a heap of byte arrays, slices with offset, length and
    capacity, and user programs that create, share, modify and pass slices. *)

From Coq Require Import Arith NArith List Strings.Byte Bool.
From Verif Require Import Word Spec_Api Model_Go Model_Api Model_Block.
Import ListNotations.

(** Backing arrays; an address is a position in the list.  Arrays are never freed. *)
Definition heap := list (list byte).

(** A slice header.  The nil slice is a slice of length and capacity 0. *)
Record slice := mksl { s_arr : nat; s_off : nat; s_len : nat; s_cap : nat }.

Definition array (H : heap) (a : nat) : list byte := nth a H [].
(** The bytes s[0], ..., s[len-1]. *)
Definition contents (H : heap) (s : slice) : list byte :=
  firstn (s_len s) (skipn (s_off s) (array H (s_arr s))).

(** Overwriting part of an array. *)
Definition splice (l : list byte) (at_ : nat) (bs : list byte) : list byte :=
  firstn at_ l ++ bs ++ skipn (at_ + length bs) l.

(** make([]byte, n, c): a fresh zeroed array. *)
Definition h_make (H : heap) (n c : nat) : heap * slice :=
  (H ++ [repeat x00 c], mksl (length H) 0 n c).

(** append(s, bs...): in place when the capacity suffices, else into a fresh array whose
    size the runtime chooses ([grow], at least what is needed); the rest of a fresh array is zero. *)
Definition h_append (grow : nat) (H : heap) (s : slice) (bs : list byte) : heap * slice :=
  let n := (s_len s + length bs)%nat in
  if (n <=? s_cap s)%nat
  then (upd (s_arr s) (splice (array H (s_arr s)) (s_off s + s_len s) bs) H,
        mksl (s_arr s) (s_off s) n (s_cap s))
  else let c := Nat.max n grow in
       (H ++ [contents H s ++ bs ++ repeat x00 (c - n)], mksl (length H) 0 n c).

(** s[:n]: panics when n exceeds the capacity. *)
Definition h_reslice (s : slice) (n : nat) : option slice :=
  if (n <=? s_cap s)%nat then Some (mksl (s_arr s) (s_off s) n (s_cap s)) else None.

(** /repo/sha1cd.go lines 39-51: MarshalBinary, on the heap.  [grow] is not used because the
    capacity suffices, which is proved. *)
Definition h_MarshalBinary (grow : nat) (H : heap) (d : digest) : option (heap * slice) :=
  let '(H, b) := h_make H 0 MarshaledSize in
  let '(H, b) := h_append grow H b Magic in
  let '(H, b) := h_append grow H b (appendUint32 (sa (dh d))) in
  let '(H, b) := h_append grow H b (appendUint32 (sb (dh d))) in
  let '(H, b) := h_append grow H b (appendUint32 (sc (dh d))) in
  let '(H, b) := h_append grow H b (appendUint32 (sd (dh d))) in
  let '(H, b) := h_append grow H b (appendUint32 (se (dh d))) in
  do x <- slice_to (dx d) (dnx d);
  let '(H, b) := h_append grow H b x in
  do b <- h_reslice b (s_len b + length (dx d) - dnx d);
  Some (h_append grow H b (appendUint64 (dlen d))).

(** /repo/sha1cd.go lines 159-164 and 207-212: Sum and CollisionResistantSum, on the heap. *)
Definition h_Sum (grow : nat) (blk : blockfn) (H : heap) (d : digest) (inp : slice) : option (heap * slice) :=
  do (_, hash) <- checkSum blk d;
  Some (h_append grow H inp hash).
Definition h_CRSum (grow : nat) (blk : blockfn) (H : heap) (d : digest) (inp : slice) : option (heap * slice * bool) :=
  do (d0, hash) <- checkSum blk d;
  Some (h_append grow H inp hash, dcol d0).

(** What a program does.  Slice variables are numbered in the order of their creation;
    calls that return a slice create one. *)
Inductive hop :=
| HMake (n c : nat)              (* make([]byte, n, c) *)
| HSub (v a b c : nat)           (* v[a:b:c] *)
| HPoke (v i : nat) (x : byte)   (* v[i] = x *)
| HAppend (v : nat) (bs : list byte)
| HNew
| HWrite (i v : nat)
| HSum (i v : nat)
| HCRSum (i v : nat)
| HReset (i : nat)
| HMarshal (i : nat)
| HUnmarshal (i v : nat)
| HSize (i : nat)
| HBlockSize (i : nat)
| HSumPkg (v : nat).

Record hstate := mkh { hheap : heap; hvars : list slice; hdigs : list digest }.

(** One step: the new state and, for a call of the package, the call with the bytes its
    argument holds at that moment, and the result with the bytes a returned slice holds at that
    moment.  [None]: panic (also of the program itself, by a bad index).
    Write, UnmarshalBinary and the package-level Sum only read their argument
    (sha1cd.go:132-157, 75-92, 200-205), and the hasher keeps no slice: the struct
    (sha1cd.go:29-37) holds arrays and numbers. *)
Definition hexec (early : bool) (grow : nat) (blk : blockfn) (s : hstate) (o : hop) : option (hstate * option (op * res)) :=
  let H := hheap s in let vs := hvars s in let ds := hdigs s in
  let pure o := do (ds, r) <- exec early blk ds o; Some (mkh H vs ds, Some (o, r)) in
  match o with
  | HMake n c => if (n <=? c)%nat then let '(H, v) := h_make H n c in Some (mkh H (vs ++ [v]) ds, None) else None
  | HSub v a b c =>
    do sl <- nth_error vs v;
    if ((a <=? b) && (b <=? c) && (c <=? s_cap sl))%nat%bool
    then Some (mkh H (vs ++ [mksl (s_arr sl) (s_off sl + a) (b - a) (c - a)]) ds, None) else None
  | HPoke v i x =>
    do sl <- nth_error vs v;
    if (i <? s_len sl)%nat
    then Some (mkh (upd (s_arr sl) (splice (array H (s_arr sl)) (s_off sl + i) [x]) H) vs ds, None) else None
  | HAppend v bs =>
    do sl <- nth_error vs v;
    let '(H, r) := h_append grow H sl bs in Some (mkh H (vs ++ [r]) ds, None)
  | HNew => pure ONew
  | HWrite i v => do sl <- nth_error vs v; pure (OWrite i (contents H sl))
  | HSum i v =>
    do sl <- nth_error vs v; do d <- nth_error ds i;
    do (H', r) <- h_Sum grow blk H d sl;
    Some (mkh H' (vs ++ [r]) ds, Some (OSum i (contents H sl), RBytes (contents H' r)))
  | HCRSum i v =>
    do sl <- nth_error vs v; do d <- nth_error ds i;
    do (H', r, col) <- h_CRSum grow blk H d sl;
    Some (mkh H' (vs ++ [r]) ds, Some (OCRSum i (contents H sl), RVerdict (contents H' r) col))
  | HReset i => pure (OReset i)
  | HMarshal i =>
    do d <- nth_error ds i;
    do (H', r) <- h_MarshalBinary grow H d;
    Some (mkh H' (vs ++ [r]) ds, Some (OMarshal i, RBytes (contents H' r)))
  | HUnmarshal i v => do sl <- nth_error vs v; pure (OUnmarshal i (contents H sl))
  | HSize i => pure (OSize i)
  | HBlockSize i => pure (OBlockSize i)
  | HSumPkg v => do sl <- nth_error vs v; pure (OSumPkg (contents H sl))
  end.

(** A run; each step has its own growth choice and block implementation.  The last component
    lists the calls of the package with their results. *)
Fixpoint hrun (early : bool) (s : hstate) (os : list (nat * impl * hop)) : option (hstate * list (impl * op * res)) :=
  match os with
  | [] => Some (s, [])
  | (grow, m, o) :: r =>
    do (s, x) <- hexec early grow (block_of m) s o;
    do (s, xs) <- hrun early s r;
    Some (s, match x with Some (o, y) => (m, o, y) :: xs | None => xs end)
  end.

(** A program starts with one empty array, no hashers, and the nil slice as variable 0. *)
Definition hinit : hstate := mkh [[]] [mksl 0 0 0 0] [].

(** The program's own indices are in range: otherwise the panic is the program's. *)
Definition hscoped (s : hstate) (o : hop) : Prop :=
  let var v := (v < length (hvars s))%nat in
  let dig i := (i < length (hdigs s))%nat in
  match o with
  | HMake n c => (n <= c)%nat
  | HSub v a b c => exists sl, nth_error (hvars s) v = Some sl /\ (a <= b <= c)%nat /\ (c <= s_cap sl)%nat
  | HPoke v i _ => exists sl, nth_error (hvars s) v = Some sl /\ (i < s_len sl)%nat
  | HAppend v _ | HSumPkg v => var v
  | HNew => True
  | HWrite i v | HSum i v | HCRSum i v | HUnmarshal i v => dig i /\ var v
  | HReset i | HMarshal i | HSize i | HBlockSize i => dig i
  end.

(** The call a step makes, with the bytes its slice argument holds at that moment. *)
Definition call_of (s : hstate) (o : hop) : option op :=
  let bytes v := match nth_error (hvars s) v with Some sl => contents (hheap s) sl | None => [] end in
  match o with
  | HMake _ _ | HSub _ _ _ _ | HPoke _ _ _ | HAppend _ _ => None
  | HNew => Some ONew
  | HWrite i v => Some (OWrite i (bytes v))
  | HSum i v => Some (OSum i (bytes v))
  | HCRSum i v => Some (OCRSum i (bytes v))
  | HReset i => Some (OReset i)
  | HMarshal i => Some (OMarshal i)
  | HUnmarshal i v => Some (OUnmarshal i (bytes v))
  | HSize i => Some (OSize i)
  | HBlockSize i => Some (OBlockSize i)
  | HSumPkg v => Some (OSumPkg (bytes v))
  end.

(** Which calls leave every existing array alone. *)
Definition reader (o : hop) : bool :=
  match o with HPoke _ _ _ | HAppend _ _ | HSum _ _ | HCRSum _ _ => false | _ => true end.
