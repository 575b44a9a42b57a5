(** A program using package cgo: a set of hashers and the calls made on them, with the operations of Spec_Api.
    The cgo hasher has no MarshalBinary or UnmarshalBinary method; those operations have no meaning here. *)

From Coq Require Import Arith NArith List Strings.Byte.
From Verif Require Import Word Model_Go Model_CSteps Model_C Spec_Api Spec_C.
Import ListNotations.

(** Result of one call, /repo/cgo/sha1.go lines 17-75. *)
Definition c_exec (cfg : ccfg) (ds : list cdigest) (o : op) : option (list cdigest * res) :=
  match o with
  | ONew => Some (ds ++ [cgo_New], RNew (length ds))
  | OWrite i p => do d <- nth_error ds i; do (d, n) <- cgo_Write cfg d p; Some (upd i d ds, RNum n)
  | OSum i inp => do d <- nth_error ds i; do b <- cgo_Sum cfg d inp; Some (ds, RBytes b)
  | OCRSum i inp => do d <- nth_error ds i; do (b, v) <- cgo_CollisionResistantSum cfg d inp; Some (ds, RVerdict b v)
  | OReset i => do d <- nth_error ds i; Some (upd i (cgo_Reset d) ds, RUnit)
  | OMarshal _ | OUnmarshal _ _ => None
  | OSize i => do d <- nth_error ds i; Some (ds, RNum (cgo_Size d))
  | OBlockSize i => do d <- nth_error ds i; Some (ds, RNum (cgo_BlockSize d))
  | OSumPkg data => do (b, v) <- cgo_SumPkg cfg data; Some (ds, RVerdict b v)
  end.

(** A history of calls. *)
Fixpoint c_run (cfg : ccfg) (ds : list cdigest) (os : list op) : option (list cdigest * list res) :=
  match os with
  | [] => Some (ds, [])
  | o :: r =>
    do (ds, x) <- c_exec cfg ds o;
    do (ds, xs) <- c_run cfg ds r;
    Some (ds, x :: xs)
  end.

(** ** A C program using one SHA1_CTX *)

(** One call of the C API, /repo/cgo/sha1.h lines 61-120. *)
Definition capi_exec (cfg : ccfg) (c : ctx) (o : cop) : option (ctx * cres) :=
  match o with
  | CInit => Some (SHA1DCInit c, CNone)
  | CSetSafeHash v => Some (SHA1DCSetSafeHash c v, CNone)
  | CSetUseUBC v => Some (SHA1DCSetUseUBC c v, CNone)
  | CSetUseDetectColl v => Some (SHA1DCSetUseDetectColl c v, CNone)
  | CSetReduced v => Some (SHA1DCSetDetectReducedRoundCollision c v, CNone)
  | CSetCallback f => Some (SHA1DCSetCallback c f, CNone)
  | CUpdate p => do c <- SHA1DCUpdate cfg c p; Some (c, CNone)
  | CFinal => do (c, out, v) <- SHA1DCFinal cfg c; Some (c, CDigest out v)
  end.
Fixpoint capi_run (cfg : ccfg) (c : ctx) (os : list cop) : option (ctx * list cres) :=
  match os with
  | [] => Some (c, [])
  | o :: os =>
    do (c, r) <- capi_exec cfg c o;
    do (c, rs) <- capi_run cfg c os;
    Some (c, r :: rs)
  end.

(** A context in memory before SHA1DCInit: arbitrary contents of the right type. *)
Definition ctx_typed (c : ctx) : Prop :=
  length (c_buffer c) = 64%nat /\ length (c_m1 c) = 80%nat /\ length (c_m2 c) = 80%nat /\ length (c_states c) = 80%nat.
