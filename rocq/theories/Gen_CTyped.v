(** GENERATED by tools/gen_ctyped.py from /repo/cgo/ubc_check.c lines 76-291; do not edit.
    See Model_CTypes.v for the meaning.  The numbers in the comments are lines. *)
From Coq Require Import NArith List.
From Verif Require Import Model_CTypes Gen_UbcC.
Import ListNotations.
Local Open Scope N_scope.

(** /repo/cgo/ubc_check.c lines 37-68: the objects and their initialisers. *)
Definition bit_inits : list (N * cexp) := [
  (DV_I_43_0_bit, EShl (ECast (EL 1)) (EL 0));
  (DV_I_44_0_bit, EShl (ECast (EL 1)) (EL 1));
  (DV_I_45_0_bit, EShl (ECast (EL 1)) (EL 2));
  (DV_I_46_0_bit, EShl (ECast (EL 1)) (EL 3));
  (DV_I_46_2_bit, EShl (ECast (EL 1)) (EL 4));
  (DV_I_47_0_bit, EShl (ECast (EL 1)) (EL 5));
  (DV_I_47_2_bit, EShl (ECast (EL 1)) (EL 6));
  (DV_I_48_0_bit, EShl (ECast (EL 1)) (EL 7));
  (DV_I_48_2_bit, EShl (ECast (EL 1)) (EL 8));
  (DV_I_49_0_bit, EShl (ECast (EL 1)) (EL 9));
  (DV_I_49_2_bit, EShl (ECast (EL 1)) (EL 10));
  (DV_I_50_0_bit, EShl (ECast (EL 1)) (EL 11));
  (DV_I_50_2_bit, EShl (ECast (EL 1)) (EL 12));
  (DV_I_51_0_bit, EShl (ECast (EL 1)) (EL 13));
  (DV_I_51_2_bit, EShl (ECast (EL 1)) (EL 14));
  (DV_I_52_0_bit, EShl (ECast (EL 1)) (EL 15));
  (DV_II_45_0_bit, EShl (ECast (EL 1)) (EL 16));
  (DV_II_46_0_bit, EShl (ECast (EL 1)) (EL 17));
  (DV_II_46_2_bit, EShl (ECast (EL 1)) (EL 18));
  (DV_II_47_0_bit, EShl (ECast (EL 1)) (EL 19));
  (DV_II_48_0_bit, EShl (ECast (EL 1)) (EL 20));
  (DV_II_49_0_bit, EShl (ECast (EL 1)) (EL 21));
  (DV_II_49_2_bit, EShl (ECast (EL 1)) (EL 22));
  (DV_II_50_0_bit, EShl (ECast (EL 1)) (EL 23));
  (DV_II_50_2_bit, EShl (ECast (EL 1)) (EL 24));
  (DV_II_51_0_bit, EShl (ECast (EL 1)) (EL 25));
  (DV_II_51_2_bit, EShl (ECast (EL 1)) (EL 26));
  (DV_II_52_0_bit, EShl (ECast (EL 1)) (EL 27));
  (DV_II_53_0_bit, EShl (ECast (EL 1)) (EL 28));
  (DV_II_54_0_bit, EShl (ECast (EL 1)) (EL 29));
  (DV_II_55_0_bit, EShl (ECast (EL 1)) (EL 30));
  (DV_II_56_0_bit, EShl (ECast (EL 1)) (EL 31))].

(** /repo/cgo/ubc_check.c lines 76-291 *)
Definition ubc_typed : cprog :=
  (* 76 *) (TAnd (EOr (ESub (EAnd (EShr (EXor (EV 44) (EV 45)) (EL 29)) (EL 1)) (EL 1)) (ENot (EOr (EOr (EOr (EOr (EOr (EOr (EO DV_I_48_0_bit) (EO DV_I_51_0_bit)) (EO DV_I_52_0_bit)) (EO DV_II_45_0_bit)) (EO DV_II_46_0_bit)) (EO DV_II_50_0_bit)) (EO DV_II_51_0_bit))))
  (* 77 *) (TAnd (EOr (ESub (EAnd (EShr (EXor (EV 49) (EV 50)) (EL 29)) (EL 1)) (EL 1)) (ENot (EOr (EOr (EOr (EOr (EOr (EO DV_I_46_0_bit) (EO DV_II_45_0_bit)) (EO DV_II_50_0_bit)) (EO DV_II_51_0_bit)) (EO DV_II_55_0_bit)) (EO DV_II_56_0_bit))))
  (* 78 *) (TAnd (EOr (ESub (EAnd (EShr (EXor (EV 48) (EV 49)) (EL 29)) (EL 1)) (EL 1)) (ENot (EOr (EOr (EOr (EOr (EOr (EO DV_I_45_0_bit) (EO DV_I_52_0_bit)) (EO DV_II_49_0_bit)) (EO DV_II_50_0_bit)) (EO DV_II_54_0_bit)) (EO DV_II_55_0_bit))))
  (* 79 *) (TAnd (EOr (ESub (EAnd (EXor (EV 47) (EShr (EV 50) (EL 25))) (EShl (EL 1) (EL 4))) (EShl (EL 1) (EL 4))) (ENot (EOr (EOr (EOr (EOr (EOr (EO DV_I_47_0_bit) (EO DV_I_49_0_bit)) (EO DV_I_51_0_bit)) (EO DV_II_45_0_bit)) (EO DV_II_51_0_bit)) (EO DV_II_56_0_bit))))
  (* 80 *) (TAnd (EOr (ESub (EAnd (EShr (EXor (EV 47) (EV 48)) (EL 29)) (EL 1)) (EL 1)) (ENot (EOr (EOr (EOr (EOr (EOr (EO DV_I_44_0_bit) (EO DV_I_51_0_bit)) (EO DV_II_48_0_bit)) (EO DV_II_49_0_bit)) (EO DV_II_53_0_bit)) (EO DV_II_54_0_bit))))
  (* 81 *) (TAnd (EOr (ESub (EAnd (EXor (EShr (EV 46) (EL 4)) (EShr (EV 49) (EL 29))) (EL 1)) (EL 1)) (ENot (EOr (EOr (EOr (EOr (EOr (EO DV_I_46_0_bit) (EO DV_I_48_0_bit)) (EO DV_I_50_0_bit)) (EO DV_I_52_0_bit)) (EO DV_II_50_0_bit)) (EO DV_II_55_0_bit))))
  (* 82 *) (TAnd (EOr (ESub (EAnd (EShr (EXor (EV 46) (EV 47)) (EL 29)) (EL 1)) (EL 1)) (ENot (EOr (EOr (EOr (EOr (EOr (EO DV_I_43_0_bit) (EO DV_I_50_0_bit)) (EO DV_II_47_0_bit)) (EO DV_II_48_0_bit)) (EO DV_II_52_0_bit)) (EO DV_II_53_0_bit))))
  (* 83 *) (TAnd (EOr (ESub (EAnd (EXor (EShr (EV 45) (EL 4)) (EShr (EV 48) (EL 29))) (EL 1)) (EL 1)) (ENot (EOr (EOr (EOr (EOr (EOr (EO DV_I_45_0_bit) (EO DV_I_47_0_bit)) (EO DV_I_49_0_bit)) (EO DV_I_51_0_bit)) (EO DV_II_49_0_bit)) (EO DV_II_54_0_bit))))
  (* 84 *) (TAnd (EOr (ESub (EAnd (EShr (EXor (EV 45) (EV 46)) (EL 29)) (EL 1)) (EL 1)) (ENot (EOr (EOr (EOr (EOr (EOr (EO DV_I_49_0_bit) (EO DV_I_52_0_bit)) (EO DV_II_46_0_bit)) (EO DV_II_47_0_bit)) (EO DV_II_51_0_bit)) (EO DV_II_52_0_bit))))
  (* 85 *) (TAnd (EOr (ESub (EAnd (EXor (EShr (EV 44) (EL 4)) (EShr (EV 47) (EL 29))) (EL 1)) (EL 1)) (ENot (EOr (EOr (EOr (EOr (EOr (EO DV_I_44_0_bit) (EO DV_I_46_0_bit)) (EO DV_I_48_0_bit)) (EO DV_I_50_0_bit)) (EO DV_II_48_0_bit)) (EO DV_II_53_0_bit))))
  (* 86 *) (TAnd (EOr (ESub (EAnd (EXor (EShr (EV 43) (EL 4)) (EShr (EV 46) (EL 29))) (EL 1)) (EL 1)) (ENot (EOr (EOr (EOr (EOr (EOr (EO DV_I_43_0_bit) (EO DV_I_45_0_bit)) (EO DV_I_47_0_bit)) (EO DV_I_49_0_bit)) (EO DV_II_47_0_bit)) (EO DV_II_52_0_bit))))
  (* 87 *) (TAnd (EOr (ESub (EAnd (EShr (EXor (EV 43) (EV 44)) (EL 29)) (EL 1)) (EL 1)) (ENot (EOr (EOr (EOr (EOr (EOr (EO DV_I_47_0_bit) (EO DV_I_50_0_bit)) (EO DV_I_51_0_bit)) (EO DV_II_45_0_bit)) (EO DV_II_49_0_bit)) (EO DV_II_50_0_bit))))
  (* 88 *) (TAnd (EOr (ESub (EAnd (EXor (EShr (EV 42) (EL 4)) (EShr (EV 45) (EL 29))) (EL 1)) (EL 1)) (ENot (EOr (EOr (EOr (EOr (EOr (EO DV_I_44_0_bit) (EO DV_I_46_0_bit)) (EO DV_I_48_0_bit)) (EO DV_I_52_0_bit)) (EO DV_II_46_0_bit)) (EO DV_II_51_0_bit))))
  (* 89 *) (TAnd (EOr (ESub (EAnd (EXor (EShr (EV 41) (EL 4)) (EShr (EV 44) (EL 29))) (EL 1)) (EL 1)) (ENot (EOr (EOr (EOr (EOr (EOr (EO DV_I_43_0_bit) (EO DV_I_45_0_bit)) (EO DV_I_47_0_bit)) (EO DV_I_51_0_bit)) (EO DV_II_45_0_bit)) (EO DV_II_50_0_bit))))
  (* 90 *) (TAnd (EOr (ESub (EAnd (EShr (EXor (EV 40) (EV 41)) (EL 29)) (EL 1)) (EL 1)) (ENot (EOr (EOr (EOr (EOr (EOr (EO DV_I_44_0_bit) (EO DV_I_47_0_bit)) (EO DV_I_48_0_bit)) (EO DV_II_46_0_bit)) (EO DV_II_47_0_bit)) (EO DV_II_56_0_bit))))
  (* 91 *) (TAnd (EOr (ESub (EAnd (EShr (EXor (EV 54) (EV 55)) (EL 29)) (EL 1)) (EL 1)) (ENot (EOr (EOr (EOr (EOr (EO DV_I_51_0_bit) (EO DV_II_47_0_bit)) (EO DV_II_50_0_bit)) (EO DV_II_55_0_bit)) (EO DV_II_56_0_bit))))
  (* 92 *) (TAnd (EOr (ESub (EAnd (EShr (EXor (EV 53) (EV 54)) (EL 29)) (EL 1)) (EL 1)) (ENot (EOr (EOr (EOr (EOr (EO DV_I_50_0_bit) (EO DV_II_46_0_bit)) (EO DV_II_49_0_bit)) (EO DV_II_54_0_bit)) (EO DV_II_55_0_bit))))
  (* 93 *) (TAnd (EOr (ESub (EAnd (EShr (EXor (EV 52) (EV 53)) (EL 29)) (EL 1)) (EL 1)) (ENot (EOr (EOr (EOr (EOr (EO DV_I_49_0_bit) (EO DV_II_45_0_bit)) (EO DV_II_48_0_bit)) (EO DV_II_53_0_bit)) (EO DV_II_54_0_bit))))
  (* 94 *) (TAnd (EOr (ESub (EAnd (EXor (EV 50) (EShr (EV 53) (EL 25))) (EShl (EL 1) (EL 4))) (EShl (EL 1) (EL 4))) (ENot (EOr (EOr (EOr (EOr (EO DV_I_50_0_bit) (EO DV_I_52_0_bit)) (EO DV_II_46_0_bit)) (EO DV_II_48_0_bit)) (EO DV_II_54_0_bit))))
  (* 95 *) (TAnd (EOr (ESub (EAnd (EShr (EXor (EV 50) (EV 51)) (EL 29)) (EL 1)) (EL 1)) (ENot (EOr (EOr (EOr (EOr (EO DV_I_47_0_bit) (EO DV_II_46_0_bit)) (EO DV_II_51_0_bit)) (EO DV_II_52_0_bit)) (EO DV_II_56_0_bit))))
  (* 96 *) (TAnd (EOr (ESub (EAnd (EXor (EV 49) (EShr (EV 52) (EL 25))) (EShl (EL 1) (EL 4))) (EShl (EL 1) (EL 4))) (ENot (EOr (EOr (EOr (EOr (EO DV_I_49_0_bit) (EO DV_I_51_0_bit)) (EO DV_II_45_0_bit)) (EO DV_II_47_0_bit)) (EO DV_II_53_0_bit))))
  (* 97 *) (TAnd (EOr (ESub (EAnd (EXor (EV 48) (EShr (EV 51) (EL 25))) (EShl (EL 1) (EL 4))) (EShl (EL 1) (EL 4))) (ENot (EOr (EOr (EOr (EOr (EO DV_I_48_0_bit) (EO DV_I_50_0_bit)) (EO DV_I_52_0_bit)) (EO DV_II_46_0_bit)) (EO DV_II_52_0_bit))))
  (* 98 *) (TAnd (EOr (ESub (EAnd (EShr (EXor (EV 42) (EV 43)) (EL 29)) (EL 1)) (EL 1)) (ENot (EOr (EOr (EOr (EOr (EO DV_I_46_0_bit) (EO DV_I_49_0_bit)) (EO DV_I_50_0_bit)) (EO DV_II_48_0_bit)) (EO DV_II_49_0_bit))))
  (* 99 *) (TAnd (EOr (ESub (EAnd (EShr (EXor (EV 41) (EV 42)) (EL 29)) (EL 1)) (EL 1)) (ENot (EOr (EOr (EOr (EOr (EO DV_I_45_0_bit) (EO DV_I_48_0_bit)) (EO DV_I_49_0_bit)) (EO DV_II_47_0_bit)) (EO DV_II_48_0_bit))))
  (* 100 *) (TAnd (EOr (ESub (EAnd (EXor (EShr (EV 40) (EL 4)) (EShr (EV 43) (EL 29))) (EL 1)) (EL 1)) (ENot (EOr (EOr (EOr (EOr (EO DV_I_44_0_bit) (EO DV_I_46_0_bit)) (EO DV_I_50_0_bit)) (EO DV_II_49_0_bit)) (EO DV_II_56_0_bit))))
  (* 101 *) (TAnd (EOr (ESub (EAnd (EXor (EShr (EV 39) (EL 4)) (EShr (EV 42) (EL 29))) (EL 1)) (EL 1)) (ENot (EOr (EOr (EOr (EOr (EO DV_I_43_0_bit) (EO DV_I_45_0_bit)) (EO DV_I_49_0_bit)) (EO DV_II_48_0_bit)) (EO DV_II_55_0_bit))))
  (* 102 *) (TIf (EAnd (EV 80) (EOr (EOr (EOr (EOr (EO DV_I_44_0_bit) (EO DV_I_48_0_bit)) (EO DV_II_47_0_bit)) (EO DV_II_54_0_bit)) (EO DV_II_56_0_bit)))
    (* 103 *) (TAnd (EOr (ESub (EAnd (EXor (EShr (EV 38) (EL 4)) (EShr (EV 41) (EL 29))) (EL 1)) (EL 1)) (ENot (EOr (EOr (EOr (EOr (EO DV_I_44_0_bit) (EO DV_I_48_0_bit)) (EO DV_II_47_0_bit)) (EO DV_II_54_0_bit)) (EO DV_II_56_0_bit))))
    TEnd)
  (* 104 *) (TAnd (EOr (ESub (EAnd (EXor (EShr (EV 37) (EL 4)) (EShr (EV 40) (EL 29))) (EL 1)) (EL 1)) (ENot (EOr (EOr (EOr (EOr (EO DV_I_43_0_bit) (EO DV_I_47_0_bit)) (EO DV_II_46_0_bit)) (EO DV_II_53_0_bit)) (EO DV_II_55_0_bit))))
  (* 105 *) (TIf (EAnd (EV 80) (EOr (EOr (EOr (EO DV_I_52_0_bit) (EO DV_II_48_0_bit)) (EO DV_II_51_0_bit)) (EO DV_II_56_0_bit)))
    (* 106 *) (TAnd (EOr (ESub (EAnd (EShr (EXor (EV 55) (EV 56)) (EL 29)) (EL 1)) (EL 1)) (ENot (EOr (EOr (EOr (EO DV_I_52_0_bit) (EO DV_II_48_0_bit)) (EO DV_II_51_0_bit)) (EO DV_II_56_0_bit))))
    TEnd)
  (* 107 *) (TIf (EAnd (EV 80) (EOr (EOr (EOr (EO DV_I_52_0_bit) (EO DV_II_48_0_bit)) (EO DV_II_50_0_bit)) (EO DV_II_56_0_bit)))
    (* 108 *) (TAnd (EOr (ESub (EAnd (EXor (EV 52) (EShr (EV 55) (EL 25))) (EShl (EL 1) (EL 4))) (EShl (EL 1) (EL 4))) (ENot (EOr (EOr (EOr (EO DV_I_52_0_bit) (EO DV_II_48_0_bit)) (EO DV_II_50_0_bit)) (EO DV_II_56_0_bit))))
    TEnd)
  (* 109 *) (TIf (EAnd (EV 80) (EOr (EOr (EOr (EO DV_I_51_0_bit) (EO DV_II_47_0_bit)) (EO DV_II_49_0_bit)) (EO DV_II_55_0_bit)))
    (* 110 *) (TAnd (EOr (ESub (EAnd (EXor (EV 51) (EShr (EV 54) (EL 25))) (EShl (EL 1) (EL 4))) (EShl (EL 1) (EL 4))) (ENot (EOr (EOr (EOr (EO DV_I_51_0_bit) (EO DV_II_47_0_bit)) (EO DV_II_49_0_bit)) (EO DV_II_55_0_bit))))
    TEnd)
  (* 111 *) (TIf (EAnd (EV 80) (EOr (EOr (EOr (EO DV_I_48_0_bit) (EO DV_II_47_0_bit)) (EO DV_II_52_0_bit)) (EO DV_II_53_0_bit)))
    (* 112 *) (TAnd (EOr (ESub (EAnd (EShr (EXor (EV 51) (EV 52)) (EL 29)) (EL 1)) (EL 1)) (ENot (EOr (EOr (EOr (EO DV_I_48_0_bit) (EO DV_II_47_0_bit)) (EO DV_II_52_0_bit)) (EO DV_II_53_0_bit))))
    TEnd)
  (* 113 *) (TIf (EAnd (EV 80) (EOr (EOr (EOr (EO DV_I_46_0_bit) (EO DV_I_49_0_bit)) (EO DV_II_45_0_bit)) (EO DV_II_48_0_bit)))
    (* 114 *) (TAnd (EOr (ESub (EAnd (EXor (EShr (EV 36) (EL 4)) (EShr (EV 40) (EL 29))) (EL 1)) (EL 1)) (ENot (EOr (EOr (EOr (EO DV_I_46_0_bit) (EO DV_I_49_0_bit)) (EO DV_II_45_0_bit)) (EO DV_II_48_0_bit))))
    TEnd)
  (* 115 *) (TIf (EAnd (EV 80) (EOr (EOr (EO DV_I_52_0_bit) (EO DV_II_48_0_bit)) (EO DV_II_49_0_bit)))
    (* 116 *) (TAnd (EOr (ESub (EL 0) (EAnd (EShr (EXor (EV 53) (EV 56)) (EL 29)) (EL 1))) (ENot (EOr (EOr (EO DV_I_52_0_bit) (EO DV_II_48_0_bit)) (EO DV_II_49_0_bit))))
    TEnd)
  (* 117 *) (TIf (EAnd (EV 80) (EOr (EOr (EO DV_I_50_0_bit) (EO DV_II_46_0_bit)) (EO DV_II_47_0_bit)))
    (* 118 *) (TAnd (EOr (ESub (EL 0) (EAnd (EShr (EXor (EV 51) (EV 54)) (EL 29)) (EL 1))) (ENot (EOr (EOr (EO DV_I_50_0_bit) (EO DV_II_46_0_bit)) (EO DV_II_47_0_bit))))
    TEnd)
  (* 119 *) (TIf (EAnd (EV 80) (EOr (EOr (EO DV_I_49_0_bit) (EO DV_I_51_0_bit)) (EO DV_II_45_0_bit)))
    (* 120 *) (TAnd (EOr (ESub (EL 0) (EAnd (EShr (EXor (EV 50) (EV 52)) (EL 29)) (EL 1))) (ENot (EOr (EOr (EO DV_I_49_0_bit) (EO DV_I_51_0_bit)) (EO DV_II_45_0_bit))))
    TEnd)
  (* 121 *) (TIf (EAnd (EV 80) (EOr (EOr (EO DV_I_48_0_bit) (EO DV_I_50_0_bit)) (EO DV_I_52_0_bit)))
    (* 122 *) (TAnd (EOr (ESub (EL 0) (EAnd (EShr (EXor (EV 49) (EV 51)) (EL 29)) (EL 1))) (ENot (EOr (EOr (EO DV_I_48_0_bit) (EO DV_I_50_0_bit)) (EO DV_I_52_0_bit))))
    TEnd)
  (* 123 *) (TIf (EAnd (EV 80) (EOr (EOr (EO DV_I_47_0_bit) (EO DV_I_49_0_bit)) (EO DV_I_51_0_bit)))
    (* 124 *) (TAnd (EOr (ESub (EL 0) (EAnd (EShr (EXor (EV 48) (EV 50)) (EL 29)) (EL 1))) (ENot (EOr (EOr (EO DV_I_47_0_bit) (EO DV_I_49_0_bit)) (EO DV_I_51_0_bit))))
    TEnd)
  (* 125 *) (TIf (EAnd (EV 80) (EOr (EOr (EO DV_I_46_0_bit) (EO DV_I_48_0_bit)) (EO DV_I_50_0_bit)))
    (* 126 *) (TAnd (EOr (ESub (EL 0) (EAnd (EShr (EXor (EV 47) (EV 49)) (EL 29)) (EL 1))) (ENot (EOr (EOr (EO DV_I_46_0_bit) (EO DV_I_48_0_bit)) (EO DV_I_50_0_bit))))
    TEnd)
  (* 127 *) (TIf (EAnd (EV 80) (EOr (EOr (EO DV_I_45_0_bit) (EO DV_I_47_0_bit)) (EO DV_I_49_0_bit)))
    (* 128 *) (TAnd (EOr (ESub (EL 0) (EAnd (EShr (EXor (EV 46) (EV 48)) (EL 29)) (EL 1))) (ENot (EOr (EOr (EO DV_I_45_0_bit) (EO DV_I_47_0_bit)) (EO DV_I_49_0_bit))))
    TEnd)
  (* 129 *) (TAnd (EOr (ESub (EAnd (EXor (EV 45) (EV 47)) (EShl (EL 1) (EL 6))) (EShl (EL 1) (EL 6))) (ENot (EOr (EOr (EO DV_I_47_2_bit) (EO DV_I_49_2_bit)) (EO DV_I_51_2_bit))))
  (* 130 *) (TIf (EAnd (EV 80) (EOr (EOr (EO DV_I_44_0_bit) (EO DV_I_46_0_bit)) (EO DV_I_48_0_bit)))
    (* 131 *) (TAnd (EOr (ESub (EL 0) (EAnd (EShr (EXor (EV 45) (EV 47)) (EL 29)) (EL 1))) (ENot (EOr (EOr (EO DV_I_44_0_bit) (EO DV_I_46_0_bit)) (EO DV_I_48_0_bit))))
    TEnd)
  (* 132 *) (TAnd (EOr (ESub (EAnd (EShr (EXor (EV 44) (EV 46)) (EL 6)) (EL 1)) (EL 1)) (ENot (EOr (EOr (EO DV_I_46_2_bit) (EO DV_I_48_2_bit)) (EO DV_I_50_2_bit))))
  (* 133 *) (TIf (EAnd (EV 80) (EOr (EOr (EO DV_I_43_0_bit) (EO DV_I_45_0_bit)) (EO DV_I_47_0_bit)))
    (* 134 *) (TAnd (EOr (ESub (EL 0) (EAnd (EShr (EXor (EV 44) (EV 46)) (EL 29)) (EL 1))) (ENot (EOr (EOr (EO DV_I_43_0_bit) (EO DV_I_45_0_bit)) (EO DV_I_47_0_bit))))
    TEnd)
  (* 135 *) (TAnd (EOr (ESub (EL 0) (EAnd (EXor (EV 41) (EShr (EV 42) (EL 5))) (EShl (EL 1) (EL 1)))) (ENot (EOr (EOr (EO DV_I_48_2_bit) (EO DV_II_46_2_bit)) (EO DV_II_51_2_bit))))
  (* 136 *) (TAnd (EOr (ESub (EL 0) (EAnd (EXor (EV 40) (EShr (EV 41) (EL 5))) (EShl (EL 1) (EL 1)))) (ENot (EOr (EOr (EO DV_I_47_2_bit) (EO DV_I_51_2_bit)) (EO DV_II_50_2_bit))))
  (* 137 *) (TIf (EAnd (EV 80) (EOr (EOr (EO DV_I_44_0_bit) (EO DV_I_46_0_bit)) (EO DV_II_56_0_bit)))
    (* 138 *) (TAnd (EOr (ESub (EL 0) (EAnd (EShr (EXor (EV 40) (EV 42)) (EL 4)) (EL 1))) (ENot (EOr (EOr (EO DV_I_44_0_bit) (EO DV_I_46_0_bit)) (EO DV_II_56_0_bit))))
    TEnd)
  (* 139 *) (TAnd (EOr (ESub (EL 0) (EAnd (EXor (EV 39) (EShr (EV 40) (EL 5))) (EShl (EL 1) (EL 1)))) (ENot (EOr (EOr (EO DV_I_46_2_bit) (EO DV_I_50_2_bit)) (EO DV_II_49_2_bit))))
  (* 140 *) (TIf (EAnd (EV 80) (EOr (EOr (EO DV_I_43_0_bit) (EO DV_I_45_0_bit)) (EO DV_II_55_0_bit)))
    (* 141 *) (TAnd (EOr (ESub (EL 0) (EAnd (EShr (EXor (EV 39) (EV 41)) (EL 4)) (EL 1))) (ENot (EOr (EOr (EO DV_I_43_0_bit) (EO DV_I_45_0_bit)) (EO DV_II_55_0_bit))))
    TEnd)
  (* 142 *) (TIf (EAnd (EV 80) (EOr (EOr (EO DV_I_44_0_bit) (EO DV_II_54_0_bit)) (EO DV_II_56_0_bit)))
    (* 143 *) (TAnd (EOr (ESub (EL 0) (EAnd (EShr (EXor (EV 38) (EV 40)) (EL 4)) (EL 1))) (ENot (EOr (EOr (EO DV_I_44_0_bit) (EO DV_II_54_0_bit)) (EO DV_II_56_0_bit))))
    TEnd)
  (* 144 *) (TIf (EAnd (EV 80) (EOr (EOr (EO DV_I_43_0_bit) (EO DV_II_53_0_bit)) (EO DV_II_55_0_bit)))
    (* 145 *) (TAnd (EOr (ESub (EL 0) (EAnd (EShr (EXor (EV 37) (EV 39)) (EL 4)) (EL 1))) (ENot (EOr (EOr (EO DV_I_43_0_bit) (EO DV_II_53_0_bit)) (EO DV_II_55_0_bit))))
    TEnd)
  (* 146 *) (TAnd (EOr (ESub (EL 0) (EAnd (EXor (EV 36) (EShr (EV 37) (EL 5))) (EShl (EL 1) (EL 1)))) (ENot (EOr (EOr (EO DV_I_47_2_bit) (EO DV_I_50_2_bit)) (EO DV_II_46_2_bit))))
  (* 147 *) (TIf (EAnd (EV 80) (EOr (EOr (EO DV_I_45_0_bit) (EO DV_I_48_0_bit)) (EO DV_II_47_0_bit)))
    (* 148 *) (TAnd (EOr (ESub (EAnd (EXor (EShr (EV 35) (EL 4)) (EShr (EV 39) (EL 29))) (EL 1)) (EL 1)) (ENot (EOr (EOr (EO DV_I_45_0_bit) (EO DV_I_48_0_bit)) (EO DV_II_47_0_bit))))
    TEnd)
  (* 149 *) (TIf (EAnd (EV 80) (EOr (EO DV_I_48_0_bit) (EO DV_II_48_0_bit)))
    (* 150 *) (TAnd (EOr (ESub (EL 0) (EAnd (EXor (EV 63) (EShr (EV 64) (EL 5))) (EShl (EL 1) (EL 0)))) (ENot (EOr (EO DV_I_48_0_bit) (EO DV_II_48_0_bit))))
    TEnd)
  (* 151 *) (TIf (EAnd (EV 80) (EOr (EO DV_I_45_0_bit) (EO DV_II_45_0_bit)))
    (* 152 *) (TAnd (EOr (ESub (EL 0) (EAnd (EXor (EV 63) (EShr (EV 64) (EL 5))) (EShl (EL 1) (EL 1)))) (ENot (EOr (EO DV_I_45_0_bit) (EO DV_II_45_0_bit))))
    TEnd)
  (* 153 *) (TIf (EAnd (EV 80) (EOr (EO DV_I_47_0_bit) (EO DV_II_47_0_bit)))
    (* 154 *) (TAnd (EOr (ESub (EL 0) (EAnd (EXor (EV 62) (EShr (EV 63) (EL 5))) (EShl (EL 1) (EL 0)))) (ENot (EOr (EO DV_I_47_0_bit) (EO DV_II_47_0_bit))))
    TEnd)
  (* 155 *) (TIf (EAnd (EV 80) (EOr (EO DV_I_46_0_bit) (EO DV_II_46_0_bit)))
    (* 156 *) (TAnd (EOr (ESub (EL 0) (EAnd (EXor (EV 61) (EShr (EV 62) (EL 5))) (EShl (EL 1) (EL 0)))) (ENot (EOr (EO DV_I_46_0_bit) (EO DV_II_46_0_bit))))
    TEnd)
  (* 157 *) (TAnd (EOr (ESub (EL 0) (EAnd (EXor (EV 61) (EShr (EV 62) (EL 5))) (EShl (EL 1) (EL 2)))) (ENot (EOr (EO DV_I_46_2_bit) (EO DV_II_46_2_bit))))
  (* 158 *) (TIf (EAnd (EV 80) (EOr (EO DV_I_45_0_bit) (EO DV_II_45_0_bit)))
    (* 159 *) (TAnd (EOr (ESub (EL 0) (EAnd (EXor (EV 60) (EShr (EV 61) (EL 5))) (EShl (EL 1) (EL 0)))) (ENot (EOr (EO DV_I_45_0_bit) (EO DV_II_45_0_bit))))
    TEnd)
  (* 160 *) (TIf (EAnd (EV 80) (EOr (EO DV_II_51_0_bit) (EO DV_II_54_0_bit)))
    (* 161 *) (TAnd (EOr (ESub (EAnd (EShr (EXor (EV 58) (EV 59)) (EL 29)) (EL 1)) (EL 1)) (ENot (EOr (EO DV_II_51_0_bit) (EO DV_II_54_0_bit))))
    TEnd)
  (* 162 *) (TIf (EAnd (EV 80) (EOr (EO DV_II_50_0_bit) (EO DV_II_53_0_bit)))
    (* 163 *) (TAnd (EOr (ESub (EAnd (EShr (EXor (EV 57) (EV 58)) (EL 29)) (EL 1)) (EL 1)) (ENot (EOr (EO DV_II_50_0_bit) (EO DV_II_53_0_bit))))
    TEnd)
  (* 164 *) (TIf (EAnd (EV 80) (EOr (EO DV_II_52_0_bit) (EO DV_II_54_0_bit)))
    (* 165 *) (TAnd (EOr (ESub (EAnd (EXor (EV 56) (EShr (EV 59) (EL 25))) (EShl (EL 1) (EL 4))) (EShl (EL 1) (EL 4))) (ENot (EOr (EO DV_II_52_0_bit) (EO DV_II_54_0_bit))))
    TEnd)
  (* 166 *) (TIf (EAnd (EV 80) (EOr (EO DV_II_51_0_bit) (EO DV_II_52_0_bit)))
    (* 167 *) (TAnd (EOr (ESub (EL 0) (EAnd (EShr (EXor (EV 56) (EV 59)) (EL 29)) (EL 1))) (ENot (EOr (EO DV_II_51_0_bit) (EO DV_II_52_0_bit))))
    TEnd)
  (* 168 *) (TIf (EAnd (EV 80) (EOr (EO DV_II_49_0_bit) (EO DV_II_52_0_bit)))
    (* 169 *) (TAnd (EOr (ESub (EAnd (EShr (EXor (EV 56) (EV 57)) (EL 29)) (EL 1)) (EL 1)) (ENot (EOr (EO DV_II_49_0_bit) (EO DV_II_52_0_bit))))
    TEnd)
  (* 170 *) (TIf (EAnd (EV 80) (EOr (EO DV_II_51_0_bit) (EO DV_II_53_0_bit)))
    (* 171 *) (TAnd (EOr (ESub (EAnd (EXor (EV 55) (EShr (EV 58) (EL 25))) (EShl (EL 1) (EL 4))) (EShl (EL 1) (EL 4))) (ENot (EOr (EO DV_II_51_0_bit) (EO DV_II_53_0_bit))))
    TEnd)
  (* 172 *) (TIf (EAnd (EV 80) (EOr (EO DV_II_50_0_bit) (EO DV_II_52_0_bit)))
    (* 173 *) (TAnd (EOr (ESub (EAnd (EXor (EV 54) (EShr (EV 57) (EL 25))) (EShl (EL 1) (EL 4))) (EShl (EL 1) (EL 4))) (ENot (EOr (EO DV_II_50_0_bit) (EO DV_II_52_0_bit))))
    TEnd)
  (* 174 *) (TIf (EAnd (EV 80) (EOr (EO DV_II_49_0_bit) (EO DV_II_51_0_bit)))
    (* 175 *) (TAnd (EOr (ESub (EAnd (EXor (EV 53) (EShr (EV 56) (EL 25))) (EShl (EL 1) (EL 4))) (EShl (EL 1) (EL 4))) (ENot (EOr (EO DV_II_49_0_bit) (EO DV_II_51_0_bit))))
    TEnd)
  (* 176 *) (TAnd (EOr (ESub (EAnd (EXor (EV 51) (EShr (EV 50) (EL 5))) (EShl (EL 1) (EL 1))) (EShl (EL 1) (EL 1))) (ENot (EOr (EO DV_I_50_2_bit) (EO DV_II_46_2_bit))))
  (* 177 *) (TAnd (EOr (ESub (EAnd (EXor (EV 48) (EV 50)) (EShl (EL 1) (EL 6))) (EShl (EL 1) (EL 6))) (ENot (EOr (EO DV_I_50_2_bit) (EO DV_II_46_2_bit))))
  (* 178 *) (TIf (EAnd (EV 80) (EOr (EO DV_I_51_0_bit) (EO DV_I_52_0_bit)))
    (* 179 *) (TAnd (EOr (ESub (EL 0) (EAnd (EShr (EXor (EV 48) (EV 55)) (EL 29)) (EL 1))) (ENot (EOr (EO DV_I_51_0_bit) (EO DV_I_52_0_bit))))
    TEnd)
  (* 180 *) (TAnd (EOr (ESub (EAnd (EXor (EV 47) (EV 49)) (EShl (EL 1) (EL 6))) (EShl (EL 1) (EL 6))) (ENot (EOr (EO DV_I_49_2_bit) (EO DV_I_51_2_bit))))
  (* 181 *) (TAnd (EOr (ESub (EAnd (EXor (EV 48) (EShr (EV 47) (EL 5))) (EShl (EL 1) (EL 1))) (EShl (EL 1) (EL 1))) (ENot (EOr (EO DV_I_47_2_bit) (EO DV_II_51_2_bit))))
  (* 182 *) (TAnd (EOr (ESub (EAnd (EXor (EV 46) (EV 48)) (EShl (EL 1) (EL 6))) (EShl (EL 1) (EL 6))) (ENot (EOr (EO DV_I_48_2_bit) (EO DV_I_50_2_bit))))
  (* 183 *) (TAnd (EOr (ESub (EAnd (EXor (EV 47) (EShr (EV 46) (EL 5))) (EShl (EL 1) (EL 1))) (EShl (EL 1) (EL 1))) (ENot (EOr (EO DV_I_46_2_bit) (EO DV_II_50_2_bit))))
  (* 184 *) (TAnd (EOr (ESub (EL 0) (EAnd (EXor (EV 44) (EShr (EV 45) (EL 5))) (EShl (EL 1) (EL 1)))) (ENot (EOr (EO DV_I_51_2_bit) (EO DV_II_49_2_bit))))
  (* 185 *) (TAnd (EOr (ESub (EAnd (EXor (EV 43) (EV 45)) (EShl (EL 1) (EL 6))) (EShl (EL 1) (EL 6))) (ENot (EOr (EO DV_I_47_2_bit) (EO DV_I_49_2_bit))))
  (* 186 *) (TAnd (EOr (ESub (EAnd (EShr (EXor (EV 42) (EV 44)) (EL 6)) (EL 1)) (EL 1)) (ENot (EOr (EO DV_I_46_2_bit) (EO DV_I_48_2_bit))))
  (* 187 *) (TAnd (EOr (ESub (EAnd (EXor (EV 43) (EShr (EV 42) (EL 5))) (EShl (EL 1) (EL 1))) (EShl (EL 1) (EL 1))) (ENot (EOr (EO DV_II_46_2_bit) (EO DV_II_51_2_bit))))
  (* 188 *) (TAnd (EOr (ESub (EAnd (EXor (EV 42) (EShr (EV 41) (EL 5))) (EShl (EL 1) (EL 1))) (EShl (EL 1) (EL 1))) (ENot (EOr (EO DV_I_51_2_bit) (EO DV_II_50_2_bit))))
  (* 189 *) (TAnd (EOr (ESub (EAnd (EXor (EV 41) (EShr (EV 40) (EL 5))) (EShl (EL 1) (EL 1))) (EShl (EL 1) (EL 1))) (ENot (EOr (EO DV_I_50_2_bit) (EO DV_II_49_2_bit))))
  (* 190 *) (TIf (EAnd (EV 80) (EOr (EO DV_I_52_0_bit) (EO DV_II_51_0_bit)))
    (* 191 *) (TAnd (EOr (ESub (EAnd (EXor (EV 39) (EShr (EV 43) (EL 25))) (EShl (EL 1) (EL 4))) (EShl (EL 1) (EL 4))) (ENot (EOr (EO DV_I_52_0_bit) (EO DV_II_51_0_bit))))
    TEnd)
  (* 192 *) (TIf (EAnd (EV 80) (EOr (EO DV_I_51_0_bit) (EO DV_II_50_0_bit)))
    (* 193 *) (TAnd (EOr (ESub (EAnd (EXor (EV 38) (EShr (EV 42) (EL 25))) (EShl (EL 1) (EL 4))) (EShl (EL 1) (EL 4))) (ENot (EOr (EO DV_I_51_0_bit) (EO DV_II_50_0_bit))))
    TEnd)
  (* 194 *) (TIf (EAnd (EV 80) (EOr (EO DV_I_48_2_bit) (EO DV_I_51_2_bit)))
    (* 195 *) (TAnd (EOr (ESub (EL 0) (EAnd (EXor (EV 37) (EShr (EV 38) (EL 5))) (EShl (EL 1) (EL 1)))) (ENot (EOr (EO DV_I_48_2_bit) (EO DV_I_51_2_bit))))
    TEnd)
  (* 196 *) (TIf (EAnd (EV 80) (EOr (EO DV_I_50_0_bit) (EO DV_II_49_0_bit)))
    (* 197 *) (TAnd (EOr (ESub (EAnd (EXor (EV 37) (EShr (EV 41) (EL 25))) (EShl (EL 1) (EL 4))) (EShl (EL 1) (EL 4))) (ENot (EOr (EO DV_I_50_0_bit) (EO DV_II_49_0_bit))))
    TEnd)
  (* 198 *) (TIf (EAnd (EV 80) (EOr (EO DV_II_52_0_bit) (EO DV_II_54_0_bit)))
    (* 199 *) (TAnd (EOr (ESub (EL 0) (EAnd (EXor (EV 36) (EV 38)) (EShl (EL 1) (EL 4)))) (ENot (EOr (EO DV_II_52_0_bit) (EO DV_II_54_0_bit))))
    TEnd)
  (* 200 *) (TAnd (EOr (ESub (EL 0) (EAnd (EXor (EV 35) (EShr (EV 36) (EL 5))) (EShl (EL 1) (EL 1)))) (ENot (EOr (EO DV_I_46_2_bit) (EO DV_I_49_2_bit))))
  (* 201 *) (TIf (EAnd (EV 80) (EOr (EO DV_I_51_0_bit) (EO DV_II_47_0_bit)))
    (* 202 *) (TAnd (EOr (ESub (EAnd (EXor (EV 35) (EShr (EV 39) (EL 25))) (EShl (EL 1) (EL 3))) (EShl (EL 1) (EL 3))) (ENot (EOr (EO DV_I_51_0_bit) (EO DV_II_47_0_bit))))
    TEnd)
  (* 203 *) (TIf (EV 80)
    (* 206 *) (TIf (EAnd (EV 80) (EO DV_I_43_0_bit))
      (* 207 *) (TIf (ELor (ELor (ELNot (EAnd (EXor (EV 61) (EShr (EV 62) (EL 5))) (EShl (EL 1) (EL 1)))) (ELNot (ELNot (EAnd (EXor (EV 59) (EShr (EV 63) (EL 25))) (EShl (EL 1) (EL 5)))))) (ELNot (EAnd (EXor (EV 58) (EShr (EV 63) (EL 30))) (EShl (EL 1) (EL 0)))))
        (* 209 *) (TAnd (ENot (EO DV_I_43_0_bit))
        TEnd)
      TEnd)
    (* 210 *) (TIf (EAnd (EV 80) (EO DV_I_44_0_bit))
      (* 211 *) (TIf (ELor (ELor (ELNot (EAnd (EXor (EV 62) (EShr (EV 63) (EL 5))) (EShl (EL 1) (EL 1)))) (ELNot (ELNot (EAnd (EXor (EV 60) (EShr (EV 64) (EL 25))) (EShl (EL 1) (EL 5)))))) (ELNot (EAnd (EXor (EV 59) (EShr (EV 64) (EL 30))) (EShl (EL 1) (EL 0)))))
        (* 213 *) (TAnd (ENot (EO DV_I_44_0_bit))
        TEnd)
      TEnd)
    (* 214 *) (TIf (EAnd (EV 80) (EO DV_I_46_2_bit))
      (* 215 *) (TAnd (EOr (ENot (EShr (EXor (EV 40) (EV 42)) (EL 2))) (ENot (EO DV_I_46_2_bit)))
      TEnd)
    (* 216 *) (TIf (EAnd (EV 80) (EO DV_I_47_2_bit))
      (* 217 *) (TIf (ELor (ELNot (EAnd (EXor (EV 62) (EShr (EV 63) (EL 5))) (EShl (EL 1) (EL 2)))) (ELNot (ELNot (EAnd (EXor (EV 41) (EV 43)) (EShl (EL 1) (EL 6))))))
        (* 219 *) (TAnd (ENot (EO DV_I_47_2_bit))
        TEnd)
      TEnd)
    (* 220 *) (TIf (EAnd (EV 80) (EO DV_I_48_2_bit))
      (* 221 *) (TIf (ELor (ELNot (EAnd (EXor (EV 63) (EShr (EV 64) (EL 5))) (EShl (EL 1) (EL 2)))) (ELNot (ELNot (EAnd (EXor (EV 48) (EShl (EV 49) (EL 5))) (EShl (EL 1) (EL 6))))))
        (* 223 *) (TAnd (ENot (EO DV_I_48_2_bit))
        TEnd)
      TEnd)
    (* 224 *) (TIf (EAnd (EV 80) (EO DV_I_49_2_bit))
      (* 225 *) (TIf (ELor (ELor (ELor (ELNot (ELNot (EAnd (EXor (EV 49) (EShl (EV 50) (EL 5))) (EShl (EL 1) (EL 6))))) (ELNot (EAnd (EXor (EV 42) (EV 50)) (EShl (EL 1) (EL 1))))) (ELNot (ELNot (EAnd (EXor (EV 39) (EShl (EV 40) (EL 5))) (EShl (EL 1) (EL 6)))))) (ELNot (EAnd (EXor (EV 38) (EV 40)) (EShl (EL 1) (EL 1)))))
        (* 227 *) (TAnd (ENot (EO DV_I_49_2_bit))
        TEnd)
      TEnd)
    (* 228 *) (TIf (EAnd (EV 80) (EO DV_I_50_0_bit))
      (* 229 *) (TAnd (EOr (EShl (EXor (EV 36) (EV 37)) (EL 7)) (ENot (EO DV_I_50_0_bit)))
      TEnd)
    (* 230 *) (TIf (EAnd (EV 80) (EO DV_I_50_2_bit))
      (* 231 *) (TAnd (EOr (EShl (EXor (EV 43) (EV 51)) (EL 11)) (ENot (EO DV_I_50_2_bit)))
      TEnd)
    (* 232 *) (TIf (EAnd (EV 80) (EO DV_I_51_0_bit))
      (* 233 *) (TAnd (EOr (EShl (EXor (EV 37) (EV 38)) (EL 9)) (ENot (EO DV_I_51_0_bit)))
      TEnd)
    (* 234 *) (TIf (EAnd (EV 80) (EO DV_I_51_2_bit))
      (* 235 *) (TIf (ELor (ELor (ELor (ELNot (ELNot (EAnd (EXor (EV 51) (EShl (EV 52) (EL 5))) (EShl (EL 1) (EL 6))))) (ELNot (ELNot (EAnd (EXor (EV 49) (EV 51)) (EShl (EL 1) (EL 6)))))) (ELNot (ELNot (EAnd (EXor (EV 37) (EShr (EV 37) (EL 5))) (EShl (EL 1) (EL 1)))))) (ELNot (ELNot (EAnd (EXor (EV 35) (EShr (EV 39) (EL 25))) (EShl (EL 1) (EL 5))))))
        (* 237 *) (TAnd (ENot (EO DV_I_51_2_bit))
        TEnd)
      TEnd)
    (* 238 *) (TIf (EAnd (EV 80) (EO DV_I_52_0_bit))
      (* 239 *) (TAnd (EOr (EShl (EXor (EV 38) (EV 39)) (EL 11)) (ENot (EO DV_I_52_0_bit)))
      TEnd)
    (* 240 *) (TIf (EAnd (EV 80) (EO DV_II_46_2_bit))
      (* 241 *) (TAnd (EOr (EShl (EXor (EV 47) (EV 51)) (EL 17)) (ENot (EO DV_II_46_2_bit)))
      TEnd)
    (* 242 *) (TIf (EAnd (EV 80) (EO DV_II_48_0_bit))
      (* 243 *) (TIf (ELor (ELNot (ELNot (EAnd (EXor (EV 36) (EShr (EV 40) (EL 25))) (EShl (EL 1) (EL 3))))) (ELNot (EAnd (EXor (EV 35) (EShl (EV 40) (EL 2))) (EShl (EL 1) (EL 30)))))
        (* 245 *) (TAnd (ENot (EO DV_II_48_0_bit))
        TEnd)
      TEnd)
    (* 246 *) (TIf (EAnd (EV 80) (EO DV_II_49_0_bit))
      (* 247 *) (TIf (ELor (ELNot (ELNot (EAnd (EXor (EV 37) (EShr (EV 41) (EL 25))) (EShl (EL 1) (EL 3))))) (ELNot (EAnd (EXor (EV 36) (EShl (EV 41) (EL 2))) (EShl (EL 1) (EL 30)))))
        (* 249 *) (TAnd (ENot (EO DV_II_49_0_bit))
        TEnd)
      TEnd)
    (* 250 *) (TIf (EAnd (EV 80) (EO DV_II_49_2_bit))
      (* 251 *) (TIf (ELor (ELor (ELor (ELor (ELor (ELNot (ELNot (EAnd (EXor (EV 53) (EShl (EV 54) (EL 5))) (EShl (EL 1) (EL 6))))) (ELNot (ELNot (EAnd (EXor (EV 51) (EV 53)) (EShl (EL 1) (EL 6)))))) (ELNot (EAnd (EXor (EV 50) (EV 54)) (EShl (EL 1) (EL 1))))) (ELNot (ELNot (EAnd (EXor (EV 45) (EShl (EV 46) (EL 5))) (EShl (EL 1) (EL 6)))))) (ELNot (ELNot (EAnd (EXor (EV 37) (EShr (EV 41) (EL 25))) (EShl (EL 1) (EL 5)))))) (ELNot (EAnd (EXor (EV 36) (EShr (EV 41) (EL 30))) (EShl (EL 1) (EL 0)))))
        (* 253 *) (TAnd (ENot (EO DV_II_49_2_bit))
        TEnd)
      TEnd)
    (* 254 *) (TIf (EAnd (EV 80) (EO DV_II_50_0_bit))
      (* 255 *) (TIf (ELor (ELor (ELNot (EAnd (EXor (EV 55) (EV 58)) (EShl (EL 1) (EL 29)))) (ELNot (ELNot (EAnd (EXor (EV 38) (EShr (EV 42) (EL 25))) (EShl (EL 1) (EL 3)))))) (ELNot (EAnd (EXor (EV 37) (EShl (EV 42) (EL 2))) (EShl (EL 1) (EL 30)))))
        (* 257 *) (TAnd (ENot (EO DV_II_50_0_bit))
        TEnd)
      TEnd)
    (* 258 *) (TIf (EAnd (EV 80) (EO DV_II_50_2_bit))
      (* 259 *) (TIf (ELor (ELor (ELor (ELor (ELor (ELNot (ELNot (EAnd (EXor (EV 54) (EShl (EV 55) (EL 5))) (EShl (EL 1) (EL 6))))) (ELNot (ELNot (EAnd (EXor (EV 52) (EV 54)) (EShl (EL 1) (EL 6)))))) (ELNot (EAnd (EXor (EV 51) (EV 55)) (EShl (EL 1) (EL 1))))) (ELNot (EAnd (EXor (EV 45) (EV 47)) (EShl (EL 1) (EL 1))))) (ELNot (ELNot (EAnd (EXor (EV 38) (EShr (EV 42) (EL 25))) (EShl (EL 1) (EL 5)))))) (ELNot (EAnd (EXor (EV 37) (EShr (EV 42) (EL 30))) (EShl (EL 1) (EL 0)))))
        (* 261 *) (TAnd (ENot (EO DV_II_50_2_bit))
        TEnd)
      TEnd)
    (* 262 *) (TIf (EAnd (EV 80) (EO DV_II_51_0_bit))
      (* 263 *) (TIf (ELor (ELNot (ELNot (EAnd (EXor (EV 39) (EShr (EV 43) (EL 25))) (EShl (EL 1) (EL 3))))) (ELNot (EAnd (EXor (EV 38) (EShl (EV 43) (EL 2))) (EShl (EL 1) (EL 30)))))
        (* 265 *) (TAnd (ENot (EO DV_II_51_0_bit))
        TEnd)
      TEnd)
    (* 266 *) (TIf (EAnd (EV 80) (EO DV_II_51_2_bit))
      (* 267 *) (TIf (ELor (ELor (ELor (ELor (ELor (ELNot (ELNot (EAnd (EXor (EV 55) (EShl (EV 56) (EL 5))) (EShl (EL 1) (EL 6))))) (ELNot (ELNot (EAnd (EXor (EV 53) (EV 55)) (EShl (EL 1) (EL 6)))))) (ELNot (EAnd (EXor (EV 52) (EV 56)) (EShl (EL 1) (EL 1))))) (ELNot (EAnd (EXor (EV 46) (EV 48)) (EShl (EL 1) (EL 1))))) (ELNot (ELNot (EAnd (EXor (EV 39) (EShr (EV 43) (EL 25))) (EShl (EL 1) (EL 5)))))) (ELNot (EAnd (EXor (EV 38) (EShr (EV 43) (EL 30))) (EShl (EL 1) (EL 0)))))
        (* 269 *) (TAnd (ENot (EO DV_II_51_2_bit))
        TEnd)
      TEnd)
    (* 270 *) (TIf (EAnd (EV 80) (EO DV_II_52_0_bit))
      (* 271 *) (TIf (ELor (ELor (ELor (ELNot (ELNot (EAnd (EXor (EV 59) (EV 60)) (EShl (EL 1) (EL 29))))) (ELNot (ELNot (EAnd (EXor (EV 40) (EShr (EV 44) (EL 25))) (EShl (EL 1) (EL 3)))))) (ELNot (ELNot (EAnd (EXor (EV 40) (EShr (EV 44) (EL 25))) (EShl (EL 1) (EL 4)))))) (ELNot (EAnd (EXor (EV 39) (EShl (EV 44) (EL 2))) (EShl (EL 1) (EL 30)))))
        (* 273 *) (TAnd (ENot (EO DV_II_52_0_bit))
        TEnd)
      TEnd)
    (* 274 *) (TIf (EAnd (EV 80) (EO DV_II_53_0_bit))
      (* 275 *) (TIf (ELor (ELor (ELor (ELNot (EAnd (EXor (EV 58) (EV 61)) (EShl (EL 1) (EL 29)))) (ELNot (ELNot (EAnd (EXor (EV 57) (EShr (EV 61) (EL 25))) (EShl (EL 1) (EL 4)))))) (ELNot (ELNot (EAnd (EXor (EV 41) (EShr (EV 45) (EL 25))) (EShl (EL 1) (EL 3)))))) (ELNot (ELNot (EAnd (EXor (EV 41) (EShr (EV 45) (EL 25))) (EShl (EL 1) (EL 4))))))
        (* 277 *) (TAnd (ENot (EO DV_II_53_0_bit))
        TEnd)
      TEnd)
    (* 278 *) (TIf (EAnd (EV 80) (EO DV_II_54_0_bit))
      (* 279 *) (TIf (ELor (ELor (ELNot (ELNot (EAnd (EXor (EV 58) (EShr (EV 62) (EL 25))) (EShl (EL 1) (EL 4))))) (ELNot (ELNot (EAnd (EXor (EV 42) (EShr (EV 46) (EL 25))) (EShl (EL 1) (EL 3)))))) (ELNot (ELNot (EAnd (EXor (EV 42) (EShr (EV 46) (EL 25))) (EShl (EL 1) (EL 4))))))
        (* 281 *) (TAnd (ENot (EO DV_II_54_0_bit))
        TEnd)
      TEnd)
    (* 282 *) (TIf (EAnd (EV 80) (EO DV_II_55_0_bit))
      (* 283 *) (TIf (ELor (ELor (ELor (ELNot (ELNot (EAnd (EXor (EV 59) (EShr (EV 63) (EL 25))) (EShl (EL 1) (EL 4))))) (ELNot (ELNot (EAnd (EXor (EV 57) (EShr (EV 59) (EL 25))) (EShl (EL 1) (EL 4)))))) (ELNot (ELNot (EAnd (EXor (EV 43) (EShr (EV 47) (EL 25))) (EShl (EL 1) (EL 3)))))) (ELNot (ELNot (EAnd (EXor (EV 43) (EShr (EV 47) (EL 25))) (EShl (EL 1) (EL 4))))))
        (* 285 *) (TAnd (ENot (EO DV_II_55_0_bit))
        TEnd)
      TEnd)
    (* 286 *) (TIf (EAnd (EV 80) (EO DV_II_56_0_bit))
      (* 287 *) (TIf (ELor (ELor (ELNot (ELNot (EAnd (EXor (EV 60) (EShr (EV 64) (EL 25))) (EShl (EL 1) (EL 4))))) (ELNot (ELNot (EAnd (EXor (EV 44) (EShr (EV 48) (EL 25))) (EShl (EL 1) (EL 3)))))) (ELNot (ELNot (EAnd (EXor (EV 44) (EShr (EV 48) (EL 25))) (EShl (EL 1) (EL 4))))))
        (* 289 *) (TAnd (ENot (EO DV_II_56_0_bit))
        TEnd)
      TEnd)
    TEnd))))))))))))))))))))))))
  TEnd)))))))))))))))))))))))))))))))))))))))))))))))))))))))))))))))))))))))))))))))))))))))).
