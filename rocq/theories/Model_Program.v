(** Programs that use package sha1cd and package ubc: the calls of [Model_Api.exec] with the generic block function, and between them
    stores through the slice that ubc.SHA1_dvs() returns (/repo/ubc/ubc.go lines 373-376). *)

From Coq Require Import Arith NArith List Strings.Byte.
From Verif Require Import Word Model_Ubc Gen_DvsGo Model_Go Spec_Api Model_Api Model_Table.
Import ListNotations.

(** One statement of such a program: ubc.SHA1_dvs()[i] = v, or a call on a hasher. *)
Inductive stmt :=
| TStore (i : nat) (v : dvinfo)
| TCall (o : op).

(** The contents of the table is part of the state; /repo/sha1cdblock_generic.go lines 152-176 read it during a call.  A store has no
    result, [RUnit] stands for it.  None: some statement panics. *)
Fixpoint trun (early : bool) (T : list dvinfo) (ds : list digest) (es : list stmt) : option (list dvinfo * list digest * list res) :=
  match es with
  | [] => Some (T, ds, [])
  | TStore i v :: r => do T <- store_dv T i v; do (T, ds, xs) <- trun early T ds r; Some (T, ds, RUnit :: xs)
  | TCall o :: r => do (ds, x) <- exec early (blockGeneric_in T) ds o; do (T, ds, xs) <- trun early T ds r; Some (T, ds, x :: xs)
  end.

(** The calls of a program. *)
Definition calls (es : list stmt) : list op := flat_map (fun e => match e with TCall o => [o] | TStore _ _ => [] end) es.
