(** A program using package sha1cd: a set of hashers and the calls made on them.
    Each hasher is a separate digest struct (sha1cd.go:122-126 allocates a new one), the
    package has no mutable variable that the methods read apart from the block function
    selection, which is a parameter. *)

From Coq Require Import Arith NArith List Strings.Byte.
From Verif Require Import Word Model_Go Spec_Api.
Import ListNotations.

(** Result of one call; [blk] is the block function this call uses, [early] the
    evaluation order of the return statement of the package-level Sum. *)
Definition exec (early : bool) (blk : blockfn) (ds : list digest) (o : op) : option (list digest * res) :=
  match o with
  | ONew => Some (ds ++ [New], RNew (length ds))
  | OWrite i p => do d <- nth_error ds i; do (d, n) <- Write blk d p; Some (upd i d ds, RNum n)
  | OSum i inp => do d <- nth_error ds i; do b <- Sum blk d inp; Some (ds, RBytes b)
  | OCRSum i inp => do d <- nth_error ds i; do (b, v) <- CollisionResistantSum blk d inp; Some (ds, RVerdict b v)
  | OReset i => do d <- nth_error ds i; Some (upd i (Reset d) ds, RUnit)
  | OMarshal i => do d <- nth_error ds i; do b <- MarshalBinary d; Some (ds, RBytes b)
  | OUnmarshal i b => do d <- nth_error ds i; do (d, e) <- UnmarshalBinary d b;
      Some (upd i d ds, match e with None => RUnit | Some InvalidIdentifier => RBadMagic | Some InvalidSize => RBadSize end)
  | OSize i => do d <- nth_error ds i; Some (ds, RNum (Size_method d))
  | OBlockSize i => do d <- nth_error ds i; Some (ds, RNum (BlockSize_method d))
  | OSumPkg data => do (b, v) <- SumPkg early blk data; Some (ds, RVerdict b v)
  end.

(** A history of calls; the block function may be chosen anew for each call. *)
Fixpoint run (early : bool) (ds : list digest) (os : list (blockfn * op)) : option (list digest * list res) :=
  match os with
  | [] => Some (ds, [])
  | (blk, o) :: r =>
    do (ds, x) <- exec early blk ds o;
    do (ds, xs) <- run early ds r;
    Some (ds, x :: xs)
  end.
