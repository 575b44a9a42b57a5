(** The language of the bit-condition programs ubc/ubc.go (CalculateDvMask) and
    cgo/ubc_check.c (ubc_check), its evaluator, and the record type of the
    disturbance-vector table. *)

From Coq Require Import Arith NArith List.
From Verif Require Import Word.
Import ListNotations.
Local Open Scope N_scope.

(** Expressions that occur in /repo/ubc/ubc.go lines 37-361 and /repo/cgo/ubc_check.c
    lines 76-291.  [UW i] is W[i], [UMask] the variable mask, [UNot] is ^x (Go) or ~x
    (C), [ULNot] is not(x) (Go, ubc.go:365-371) or !x (C), [UNe] is !=, [ULor] is ||. *)
Inductive uexp :=
| UW (i : nat)
| UC (n : N)
| UMask
| UNot (e : uexp)
| ULNot (e : uexp)
| UAnd (x y : uexp)
| UOr (x y : uexp)
| UXor (x y : uexp)
| USub (x y : uexp)
| UShl (x y : uexp)
| UShr (x y : uexp)
| UNe (x y : uexp)
| ULor (x y : uexp).

(** Programs: [mask &= e; rest] and [if c { body }; rest]. *)
Inductive prog :=
| PEnd
| PAnd (e : uexp) (rest : prog)
| PIf (c : uexp) (body rest : prog).

Definition b2w (b : bool) : N := if b then 1 else 0.

(** Value of an expression.  All operands are uint32.  Go's booleans and C's ints
    that result from comparisons are represented by 0 and 1; [||] has no side
    effects in its operands, so short-circuit evaluation is not visible.
    Simplification: integer constants are uint32 already (Go converts untyped
    constants, C's int operands of mixed operators are converted to unsigned;
    Model_CTypes.v has the types, and C63 is that the result is the same). *)
Fixpoint ueval (W : list word) (mask : word) (e : uexp) : word :=
  match e with
  | UW i => nth i W 0
  | UC n => n
  | UMask => mask
  | UNot e => not32 (ueval W mask e)
  | ULNot e => b2w (ueval W mask e =? 0)
  | UAnd x y => N.land (ueval W mask x) (ueval W mask y)
  | UOr x y => N.lor (ueval W mask x) (ueval W mask y)
  | UXor x y => N.lxor (ueval W mask x) (ueval W mask y)
  | USub x y => sub32 (ueval W mask x) (ueval W mask y)
  | UShl x y => shl32 (ueval W mask x) (ueval W mask y)
  | UShr x y => shr32 (ueval W mask x) (ueval W mask y)
  | UNe x y => b2w (negb (ueval W mask x =? ueval W mask y))
  | ULor x y => b2w (negb (ueval W mask x =? 0) || negb (ueval W mask y =? 0))
  end.

(** Execution: the final value of mask. *)
Fixpoint urun (W : list word) (p : prog) (mask : word) : word :=
  match p with
  | PEnd => mask
  | PAnd e r => urun W r (N.land mask (ueval W mask e))
  | PIf c b r => urun W r (if ueval W mask c =? 0 then mask else urun W b mask)
  end.

(** /repo/ubc/ubc.go lines 8-25 (DvInfo) and /repo/cgo/ubc_check.h (dv_info_t). *)
Record dvinfo := mkdv {
  dvType : N; dvK : N; dvB : N; testT : N; maskI : N; maskB : N; dm : list word }.
