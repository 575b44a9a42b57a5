(** GENERATED by tools/gen_ubc.py from /repo/cgo/ubc_check.c lines 76-291; do not edit.
    Syntax tree of the bit-condition program; see Model_Ubc.v for its meaning.
    Each statement carries the source line it comes from. *)
From Coq Require Import NArith.
From Verif Require Import Model_Ubc.
Local Open Scope N_scope.

(** /repo/cgo/ubc_check.c, static const declarations *)
Definition DV_I_43_0_bit : N := 1.
Definition DV_I_44_0_bit : N := 2.
Definition DV_I_45_0_bit : N := 4.
Definition DV_I_46_0_bit : N := 8.
Definition DV_I_46_2_bit : N := 16.
Definition DV_I_47_0_bit : N := 32.
Definition DV_I_47_2_bit : N := 64.
Definition DV_I_48_0_bit : N := 128.
Definition DV_I_48_2_bit : N := 256.
Definition DV_I_49_0_bit : N := 512.
Definition DV_I_49_2_bit : N := 1024.
Definition DV_I_50_0_bit : N := 2048.
Definition DV_I_50_2_bit : N := 4096.
Definition DV_I_51_0_bit : N := 8192.
Definition DV_I_51_2_bit : N := 16384.
Definition DV_I_52_0_bit : N := 32768.
Definition DV_II_45_0_bit : N := 65536.
Definition DV_II_46_0_bit : N := 131072.
Definition DV_II_46_2_bit : N := 262144.
Definition DV_II_47_0_bit : N := 524288.
Definition DV_II_48_0_bit : N := 1048576.
Definition DV_II_49_0_bit : N := 2097152.
Definition DV_II_49_2_bit : N := 4194304.
Definition DV_II_50_0_bit : N := 8388608.
Definition DV_II_50_2_bit : N := 16777216.
Definition DV_II_51_0_bit : N := 33554432.
Definition DV_II_51_2_bit : N := 67108864.
Definition DV_II_52_0_bit : N := 134217728.
Definition DV_II_53_0_bit : N := 268435456.
Definition DV_II_54_0_bit : N := 536870912.
Definition DV_II_55_0_bit : N := 1073741824.
Definition DV_II_56_0_bit : N := 2147483648.

(** /repo/cgo/ubc_check.c lines 76-291 *)
Definition ubc_prog_c : prog :=
  (* ubc_check.c:76 *) (PAnd (UOr (USub (UAnd (UShr (UXor (UW 44%nat) (UW 45%nat)) (UC 29)) (UC 1)) (UC 1)) (UNot (UOr (UOr (UOr (UOr (UOr (UOr (UC DV_I_48_0_bit) (UC DV_I_51_0_bit)) (UC DV_I_52_0_bit)) (UC DV_II_45_0_bit)) (UC DV_II_46_0_bit)) (UC DV_II_50_0_bit)) (UC DV_II_51_0_bit))))
  (* ubc_check.c:77 *) (PAnd (UOr (USub (UAnd (UShr (UXor (UW 49%nat) (UW 50%nat)) (UC 29)) (UC 1)) (UC 1)) (UNot (UOr (UOr (UOr (UOr (UOr (UC DV_I_46_0_bit) (UC DV_II_45_0_bit)) (UC DV_II_50_0_bit)) (UC DV_II_51_0_bit)) (UC DV_II_55_0_bit)) (UC DV_II_56_0_bit))))
  (* ubc_check.c:78 *) (PAnd (UOr (USub (UAnd (UShr (UXor (UW 48%nat) (UW 49%nat)) (UC 29)) (UC 1)) (UC 1)) (UNot (UOr (UOr (UOr (UOr (UOr (UC DV_I_45_0_bit) (UC DV_I_52_0_bit)) (UC DV_II_49_0_bit)) (UC DV_II_50_0_bit)) (UC DV_II_54_0_bit)) (UC DV_II_55_0_bit))))
  (* ubc_check.c:79 *) (PAnd (UOr (USub (UAnd (UXor (UW 47%nat) (UShr (UW 50%nat) (UC 25))) (UShl (UC 1) (UC 4))) (UShl (UC 1) (UC 4))) (UNot (UOr (UOr (UOr (UOr (UOr (UC DV_I_47_0_bit) (UC DV_I_49_0_bit)) (UC DV_I_51_0_bit)) (UC DV_II_45_0_bit)) (UC DV_II_51_0_bit)) (UC DV_II_56_0_bit))))
  (* ubc_check.c:80 *) (PAnd (UOr (USub (UAnd (UShr (UXor (UW 47%nat) (UW 48%nat)) (UC 29)) (UC 1)) (UC 1)) (UNot (UOr (UOr (UOr (UOr (UOr (UC DV_I_44_0_bit) (UC DV_I_51_0_bit)) (UC DV_II_48_0_bit)) (UC DV_II_49_0_bit)) (UC DV_II_53_0_bit)) (UC DV_II_54_0_bit))))
  (* ubc_check.c:81 *) (PAnd (UOr (USub (UAnd (UXor (UShr (UW 46%nat) (UC 4)) (UShr (UW 49%nat) (UC 29))) (UC 1)) (UC 1)) (UNot (UOr (UOr (UOr (UOr (UOr (UC DV_I_46_0_bit) (UC DV_I_48_0_bit)) (UC DV_I_50_0_bit)) (UC DV_I_52_0_bit)) (UC DV_II_50_0_bit)) (UC DV_II_55_0_bit))))
  (* ubc_check.c:82 *) (PAnd (UOr (USub (UAnd (UShr (UXor (UW 46%nat) (UW 47%nat)) (UC 29)) (UC 1)) (UC 1)) (UNot (UOr (UOr (UOr (UOr (UOr (UC DV_I_43_0_bit) (UC DV_I_50_0_bit)) (UC DV_II_47_0_bit)) (UC DV_II_48_0_bit)) (UC DV_II_52_0_bit)) (UC DV_II_53_0_bit))))
  (* ubc_check.c:83 *) (PAnd (UOr (USub (UAnd (UXor (UShr (UW 45%nat) (UC 4)) (UShr (UW 48%nat) (UC 29))) (UC 1)) (UC 1)) (UNot (UOr (UOr (UOr (UOr (UOr (UC DV_I_45_0_bit) (UC DV_I_47_0_bit)) (UC DV_I_49_0_bit)) (UC DV_I_51_0_bit)) (UC DV_II_49_0_bit)) (UC DV_II_54_0_bit))))
  (* ubc_check.c:84 *) (PAnd (UOr (USub (UAnd (UShr (UXor (UW 45%nat) (UW 46%nat)) (UC 29)) (UC 1)) (UC 1)) (UNot (UOr (UOr (UOr (UOr (UOr (UC DV_I_49_0_bit) (UC DV_I_52_0_bit)) (UC DV_II_46_0_bit)) (UC DV_II_47_0_bit)) (UC DV_II_51_0_bit)) (UC DV_II_52_0_bit))))
  (* ubc_check.c:85 *) (PAnd (UOr (USub (UAnd (UXor (UShr (UW 44%nat) (UC 4)) (UShr (UW 47%nat) (UC 29))) (UC 1)) (UC 1)) (UNot (UOr (UOr (UOr (UOr (UOr (UC DV_I_44_0_bit) (UC DV_I_46_0_bit)) (UC DV_I_48_0_bit)) (UC DV_I_50_0_bit)) (UC DV_II_48_0_bit)) (UC DV_II_53_0_bit))))
  (* ubc_check.c:86 *) (PAnd (UOr (USub (UAnd (UXor (UShr (UW 43%nat) (UC 4)) (UShr (UW 46%nat) (UC 29))) (UC 1)) (UC 1)) (UNot (UOr (UOr (UOr (UOr (UOr (UC DV_I_43_0_bit) (UC DV_I_45_0_bit)) (UC DV_I_47_0_bit)) (UC DV_I_49_0_bit)) (UC DV_II_47_0_bit)) (UC DV_II_52_0_bit))))
  (* ubc_check.c:87 *) (PAnd (UOr (USub (UAnd (UShr (UXor (UW 43%nat) (UW 44%nat)) (UC 29)) (UC 1)) (UC 1)) (UNot (UOr (UOr (UOr (UOr (UOr (UC DV_I_47_0_bit) (UC DV_I_50_0_bit)) (UC DV_I_51_0_bit)) (UC DV_II_45_0_bit)) (UC DV_II_49_0_bit)) (UC DV_II_50_0_bit))))
  (* ubc_check.c:88 *) (PAnd (UOr (USub (UAnd (UXor (UShr (UW 42%nat) (UC 4)) (UShr (UW 45%nat) (UC 29))) (UC 1)) (UC 1)) (UNot (UOr (UOr (UOr (UOr (UOr (UC DV_I_44_0_bit) (UC DV_I_46_0_bit)) (UC DV_I_48_0_bit)) (UC DV_I_52_0_bit)) (UC DV_II_46_0_bit)) (UC DV_II_51_0_bit))))
  (* ubc_check.c:89 *) (PAnd (UOr (USub (UAnd (UXor (UShr (UW 41%nat) (UC 4)) (UShr (UW 44%nat) (UC 29))) (UC 1)) (UC 1)) (UNot (UOr (UOr (UOr (UOr (UOr (UC DV_I_43_0_bit) (UC DV_I_45_0_bit)) (UC DV_I_47_0_bit)) (UC DV_I_51_0_bit)) (UC DV_II_45_0_bit)) (UC DV_II_50_0_bit))))
  (* ubc_check.c:90 *) (PAnd (UOr (USub (UAnd (UShr (UXor (UW 40%nat) (UW 41%nat)) (UC 29)) (UC 1)) (UC 1)) (UNot (UOr (UOr (UOr (UOr (UOr (UC DV_I_44_0_bit) (UC DV_I_47_0_bit)) (UC DV_I_48_0_bit)) (UC DV_II_46_0_bit)) (UC DV_II_47_0_bit)) (UC DV_II_56_0_bit))))
  (* ubc_check.c:91 *) (PAnd (UOr (USub (UAnd (UShr (UXor (UW 54%nat) (UW 55%nat)) (UC 29)) (UC 1)) (UC 1)) (UNot (UOr (UOr (UOr (UOr (UC DV_I_51_0_bit) (UC DV_II_47_0_bit)) (UC DV_II_50_0_bit)) (UC DV_II_55_0_bit)) (UC DV_II_56_0_bit))))
  (* ubc_check.c:92 *) (PAnd (UOr (USub (UAnd (UShr (UXor (UW 53%nat) (UW 54%nat)) (UC 29)) (UC 1)) (UC 1)) (UNot (UOr (UOr (UOr (UOr (UC DV_I_50_0_bit) (UC DV_II_46_0_bit)) (UC DV_II_49_0_bit)) (UC DV_II_54_0_bit)) (UC DV_II_55_0_bit))))
  (* ubc_check.c:93 *) (PAnd (UOr (USub (UAnd (UShr (UXor (UW 52%nat) (UW 53%nat)) (UC 29)) (UC 1)) (UC 1)) (UNot (UOr (UOr (UOr (UOr (UC DV_I_49_0_bit) (UC DV_II_45_0_bit)) (UC DV_II_48_0_bit)) (UC DV_II_53_0_bit)) (UC DV_II_54_0_bit))))
  (* ubc_check.c:94 *) (PAnd (UOr (USub (UAnd (UXor (UW 50%nat) (UShr (UW 53%nat) (UC 25))) (UShl (UC 1) (UC 4))) (UShl (UC 1) (UC 4))) (UNot (UOr (UOr (UOr (UOr (UC DV_I_50_0_bit) (UC DV_I_52_0_bit)) (UC DV_II_46_0_bit)) (UC DV_II_48_0_bit)) (UC DV_II_54_0_bit))))
  (* ubc_check.c:95 *) (PAnd (UOr (USub (UAnd (UShr (UXor (UW 50%nat) (UW 51%nat)) (UC 29)) (UC 1)) (UC 1)) (UNot (UOr (UOr (UOr (UOr (UC DV_I_47_0_bit) (UC DV_II_46_0_bit)) (UC DV_II_51_0_bit)) (UC DV_II_52_0_bit)) (UC DV_II_56_0_bit))))
  (* ubc_check.c:96 *) (PAnd (UOr (USub (UAnd (UXor (UW 49%nat) (UShr (UW 52%nat) (UC 25))) (UShl (UC 1) (UC 4))) (UShl (UC 1) (UC 4))) (UNot (UOr (UOr (UOr (UOr (UC DV_I_49_0_bit) (UC DV_I_51_0_bit)) (UC DV_II_45_0_bit)) (UC DV_II_47_0_bit)) (UC DV_II_53_0_bit))))
  (* ubc_check.c:97 *) (PAnd (UOr (USub (UAnd (UXor (UW 48%nat) (UShr (UW 51%nat) (UC 25))) (UShl (UC 1) (UC 4))) (UShl (UC 1) (UC 4))) (UNot (UOr (UOr (UOr (UOr (UC DV_I_48_0_bit) (UC DV_I_50_0_bit)) (UC DV_I_52_0_bit)) (UC DV_II_46_0_bit)) (UC DV_II_52_0_bit))))
  (* ubc_check.c:98 *) (PAnd (UOr (USub (UAnd (UShr (UXor (UW 42%nat) (UW 43%nat)) (UC 29)) (UC 1)) (UC 1)) (UNot (UOr (UOr (UOr (UOr (UC DV_I_46_0_bit) (UC DV_I_49_0_bit)) (UC DV_I_50_0_bit)) (UC DV_II_48_0_bit)) (UC DV_II_49_0_bit))))
  (* ubc_check.c:99 *) (PAnd (UOr (USub (UAnd (UShr (UXor (UW 41%nat) (UW 42%nat)) (UC 29)) (UC 1)) (UC 1)) (UNot (UOr (UOr (UOr (UOr (UC DV_I_45_0_bit) (UC DV_I_48_0_bit)) (UC DV_I_49_0_bit)) (UC DV_II_47_0_bit)) (UC DV_II_48_0_bit))))
  (* ubc_check.c:100 *) (PAnd (UOr (USub (UAnd (UXor (UShr (UW 40%nat) (UC 4)) (UShr (UW 43%nat) (UC 29))) (UC 1)) (UC 1)) (UNot (UOr (UOr (UOr (UOr (UC DV_I_44_0_bit) (UC DV_I_46_0_bit)) (UC DV_I_50_0_bit)) (UC DV_II_49_0_bit)) (UC DV_II_56_0_bit))))
  (* ubc_check.c:101 *) (PAnd (UOr (USub (UAnd (UXor (UShr (UW 39%nat) (UC 4)) (UShr (UW 42%nat) (UC 29))) (UC 1)) (UC 1)) (UNot (UOr (UOr (UOr (UOr (UC DV_I_43_0_bit) (UC DV_I_45_0_bit)) (UC DV_I_49_0_bit)) (UC DV_II_48_0_bit)) (UC DV_II_55_0_bit))))
  (* ubc_check.c:102 *) (PIf (UAnd UMask (UOr (UOr (UOr (UOr (UC DV_I_44_0_bit) (UC DV_I_48_0_bit)) (UC DV_II_47_0_bit)) (UC DV_II_54_0_bit)) (UC DV_II_56_0_bit)))
    (* ubc_check.c:103 *) (PAnd (UOr (USub (UAnd (UXor (UShr (UW 38%nat) (UC 4)) (UShr (UW 41%nat) (UC 29))) (UC 1)) (UC 1)) (UNot (UOr (UOr (UOr (UOr (UC DV_I_44_0_bit) (UC DV_I_48_0_bit)) (UC DV_II_47_0_bit)) (UC DV_II_54_0_bit)) (UC DV_II_56_0_bit))))
    PEnd)
  (* ubc_check.c:104 *) (PAnd (UOr (USub (UAnd (UXor (UShr (UW 37%nat) (UC 4)) (UShr (UW 40%nat) (UC 29))) (UC 1)) (UC 1)) (UNot (UOr (UOr (UOr (UOr (UC DV_I_43_0_bit) (UC DV_I_47_0_bit)) (UC DV_II_46_0_bit)) (UC DV_II_53_0_bit)) (UC DV_II_55_0_bit))))
  (* ubc_check.c:105 *) (PIf (UAnd UMask (UOr (UOr (UOr (UC DV_I_52_0_bit) (UC DV_II_48_0_bit)) (UC DV_II_51_0_bit)) (UC DV_II_56_0_bit)))
    (* ubc_check.c:106 *) (PAnd (UOr (USub (UAnd (UShr (UXor (UW 55%nat) (UW 56%nat)) (UC 29)) (UC 1)) (UC 1)) (UNot (UOr (UOr (UOr (UC DV_I_52_0_bit) (UC DV_II_48_0_bit)) (UC DV_II_51_0_bit)) (UC DV_II_56_0_bit))))
    PEnd)
  (* ubc_check.c:107 *) (PIf (UAnd UMask (UOr (UOr (UOr (UC DV_I_52_0_bit) (UC DV_II_48_0_bit)) (UC DV_II_50_0_bit)) (UC DV_II_56_0_bit)))
    (* ubc_check.c:108 *) (PAnd (UOr (USub (UAnd (UXor (UW 52%nat) (UShr (UW 55%nat) (UC 25))) (UShl (UC 1) (UC 4))) (UShl (UC 1) (UC 4))) (UNot (UOr (UOr (UOr (UC DV_I_52_0_bit) (UC DV_II_48_0_bit)) (UC DV_II_50_0_bit)) (UC DV_II_56_0_bit))))
    PEnd)
  (* ubc_check.c:109 *) (PIf (UAnd UMask (UOr (UOr (UOr (UC DV_I_51_0_bit) (UC DV_II_47_0_bit)) (UC DV_II_49_0_bit)) (UC DV_II_55_0_bit)))
    (* ubc_check.c:110 *) (PAnd (UOr (USub (UAnd (UXor (UW 51%nat) (UShr (UW 54%nat) (UC 25))) (UShl (UC 1) (UC 4))) (UShl (UC 1) (UC 4))) (UNot (UOr (UOr (UOr (UC DV_I_51_0_bit) (UC DV_II_47_0_bit)) (UC DV_II_49_0_bit)) (UC DV_II_55_0_bit))))
    PEnd)
  (* ubc_check.c:111 *) (PIf (UAnd UMask (UOr (UOr (UOr (UC DV_I_48_0_bit) (UC DV_II_47_0_bit)) (UC DV_II_52_0_bit)) (UC DV_II_53_0_bit)))
    (* ubc_check.c:112 *) (PAnd (UOr (USub (UAnd (UShr (UXor (UW 51%nat) (UW 52%nat)) (UC 29)) (UC 1)) (UC 1)) (UNot (UOr (UOr (UOr (UC DV_I_48_0_bit) (UC DV_II_47_0_bit)) (UC DV_II_52_0_bit)) (UC DV_II_53_0_bit))))
    PEnd)
  (* ubc_check.c:113 *) (PIf (UAnd UMask (UOr (UOr (UOr (UC DV_I_46_0_bit) (UC DV_I_49_0_bit)) (UC DV_II_45_0_bit)) (UC DV_II_48_0_bit)))
    (* ubc_check.c:114 *) (PAnd (UOr (USub (UAnd (UXor (UShr (UW 36%nat) (UC 4)) (UShr (UW 40%nat) (UC 29))) (UC 1)) (UC 1)) (UNot (UOr (UOr (UOr (UC DV_I_46_0_bit) (UC DV_I_49_0_bit)) (UC DV_II_45_0_bit)) (UC DV_II_48_0_bit))))
    PEnd)
  (* ubc_check.c:115 *) (PIf (UAnd UMask (UOr (UOr (UC DV_I_52_0_bit) (UC DV_II_48_0_bit)) (UC DV_II_49_0_bit)))
    (* ubc_check.c:116 *) (PAnd (UOr (USub (UC 0) (UAnd (UShr (UXor (UW 53%nat) (UW 56%nat)) (UC 29)) (UC 1))) (UNot (UOr (UOr (UC DV_I_52_0_bit) (UC DV_II_48_0_bit)) (UC DV_II_49_0_bit))))
    PEnd)
  (* ubc_check.c:117 *) (PIf (UAnd UMask (UOr (UOr (UC DV_I_50_0_bit) (UC DV_II_46_0_bit)) (UC DV_II_47_0_bit)))
    (* ubc_check.c:118 *) (PAnd (UOr (USub (UC 0) (UAnd (UShr (UXor (UW 51%nat) (UW 54%nat)) (UC 29)) (UC 1))) (UNot (UOr (UOr (UC DV_I_50_0_bit) (UC DV_II_46_0_bit)) (UC DV_II_47_0_bit))))
    PEnd)
  (* ubc_check.c:119 *) (PIf (UAnd UMask (UOr (UOr (UC DV_I_49_0_bit) (UC DV_I_51_0_bit)) (UC DV_II_45_0_bit)))
    (* ubc_check.c:120 *) (PAnd (UOr (USub (UC 0) (UAnd (UShr (UXor (UW 50%nat) (UW 52%nat)) (UC 29)) (UC 1))) (UNot (UOr (UOr (UC DV_I_49_0_bit) (UC DV_I_51_0_bit)) (UC DV_II_45_0_bit))))
    PEnd)
  (* ubc_check.c:121 *) (PIf (UAnd UMask (UOr (UOr (UC DV_I_48_0_bit) (UC DV_I_50_0_bit)) (UC DV_I_52_0_bit)))
    (* ubc_check.c:122 *) (PAnd (UOr (USub (UC 0) (UAnd (UShr (UXor (UW 49%nat) (UW 51%nat)) (UC 29)) (UC 1))) (UNot (UOr (UOr (UC DV_I_48_0_bit) (UC DV_I_50_0_bit)) (UC DV_I_52_0_bit))))
    PEnd)
  (* ubc_check.c:123 *) (PIf (UAnd UMask (UOr (UOr (UC DV_I_47_0_bit) (UC DV_I_49_0_bit)) (UC DV_I_51_0_bit)))
    (* ubc_check.c:124 *) (PAnd (UOr (USub (UC 0) (UAnd (UShr (UXor (UW 48%nat) (UW 50%nat)) (UC 29)) (UC 1))) (UNot (UOr (UOr (UC DV_I_47_0_bit) (UC DV_I_49_0_bit)) (UC DV_I_51_0_bit))))
    PEnd)
  (* ubc_check.c:125 *) (PIf (UAnd UMask (UOr (UOr (UC DV_I_46_0_bit) (UC DV_I_48_0_bit)) (UC DV_I_50_0_bit)))
    (* ubc_check.c:126 *) (PAnd (UOr (USub (UC 0) (UAnd (UShr (UXor (UW 47%nat) (UW 49%nat)) (UC 29)) (UC 1))) (UNot (UOr (UOr (UC DV_I_46_0_bit) (UC DV_I_48_0_bit)) (UC DV_I_50_0_bit))))
    PEnd)
  (* ubc_check.c:127 *) (PIf (UAnd UMask (UOr (UOr (UC DV_I_45_0_bit) (UC DV_I_47_0_bit)) (UC DV_I_49_0_bit)))
    (* ubc_check.c:128 *) (PAnd (UOr (USub (UC 0) (UAnd (UShr (UXor (UW 46%nat) (UW 48%nat)) (UC 29)) (UC 1))) (UNot (UOr (UOr (UC DV_I_45_0_bit) (UC DV_I_47_0_bit)) (UC DV_I_49_0_bit))))
    PEnd)
  (* ubc_check.c:129 *) (PAnd (UOr (USub (UAnd (UXor (UW 45%nat) (UW 47%nat)) (UShl (UC 1) (UC 6))) (UShl (UC 1) (UC 6))) (UNot (UOr (UOr (UC DV_I_47_2_bit) (UC DV_I_49_2_bit)) (UC DV_I_51_2_bit))))
  (* ubc_check.c:130 *) (PIf (UAnd UMask (UOr (UOr (UC DV_I_44_0_bit) (UC DV_I_46_0_bit)) (UC DV_I_48_0_bit)))
    (* ubc_check.c:131 *) (PAnd (UOr (USub (UC 0) (UAnd (UShr (UXor (UW 45%nat) (UW 47%nat)) (UC 29)) (UC 1))) (UNot (UOr (UOr (UC DV_I_44_0_bit) (UC DV_I_46_0_bit)) (UC DV_I_48_0_bit))))
    PEnd)
  (* ubc_check.c:132 *) (PAnd (UOr (USub (UAnd (UShr (UXor (UW 44%nat) (UW 46%nat)) (UC 6)) (UC 1)) (UC 1)) (UNot (UOr (UOr (UC DV_I_46_2_bit) (UC DV_I_48_2_bit)) (UC DV_I_50_2_bit))))
  (* ubc_check.c:133 *) (PIf (UAnd UMask (UOr (UOr (UC DV_I_43_0_bit) (UC DV_I_45_0_bit)) (UC DV_I_47_0_bit)))
    (* ubc_check.c:134 *) (PAnd (UOr (USub (UC 0) (UAnd (UShr (UXor (UW 44%nat) (UW 46%nat)) (UC 29)) (UC 1))) (UNot (UOr (UOr (UC DV_I_43_0_bit) (UC DV_I_45_0_bit)) (UC DV_I_47_0_bit))))
    PEnd)
  (* ubc_check.c:135 *) (PAnd (UOr (USub (UC 0) (UAnd (UXor (UW 41%nat) (UShr (UW 42%nat) (UC 5))) (UShl (UC 1) (UC 1)))) (UNot (UOr (UOr (UC DV_I_48_2_bit) (UC DV_II_46_2_bit)) (UC DV_II_51_2_bit))))
  (* ubc_check.c:136 *) (PAnd (UOr (USub (UC 0) (UAnd (UXor (UW 40%nat) (UShr (UW 41%nat) (UC 5))) (UShl (UC 1) (UC 1)))) (UNot (UOr (UOr (UC DV_I_47_2_bit) (UC DV_I_51_2_bit)) (UC DV_II_50_2_bit))))
  (* ubc_check.c:137 *) (PIf (UAnd UMask (UOr (UOr (UC DV_I_44_0_bit) (UC DV_I_46_0_bit)) (UC DV_II_56_0_bit)))
    (* ubc_check.c:138 *) (PAnd (UOr (USub (UC 0) (UAnd (UShr (UXor (UW 40%nat) (UW 42%nat)) (UC 4)) (UC 1))) (UNot (UOr (UOr (UC DV_I_44_0_bit) (UC DV_I_46_0_bit)) (UC DV_II_56_0_bit))))
    PEnd)
  (* ubc_check.c:139 *) (PAnd (UOr (USub (UC 0) (UAnd (UXor (UW 39%nat) (UShr (UW 40%nat) (UC 5))) (UShl (UC 1) (UC 1)))) (UNot (UOr (UOr (UC DV_I_46_2_bit) (UC DV_I_50_2_bit)) (UC DV_II_49_2_bit))))
  (* ubc_check.c:140 *) (PIf (UAnd UMask (UOr (UOr (UC DV_I_43_0_bit) (UC DV_I_45_0_bit)) (UC DV_II_55_0_bit)))
    (* ubc_check.c:141 *) (PAnd (UOr (USub (UC 0) (UAnd (UShr (UXor (UW 39%nat) (UW 41%nat)) (UC 4)) (UC 1))) (UNot (UOr (UOr (UC DV_I_43_0_bit) (UC DV_I_45_0_bit)) (UC DV_II_55_0_bit))))
    PEnd)
  (* ubc_check.c:142 *) (PIf (UAnd UMask (UOr (UOr (UC DV_I_44_0_bit) (UC DV_II_54_0_bit)) (UC DV_II_56_0_bit)))
    (* ubc_check.c:143 *) (PAnd (UOr (USub (UC 0) (UAnd (UShr (UXor (UW 38%nat) (UW 40%nat)) (UC 4)) (UC 1))) (UNot (UOr (UOr (UC DV_I_44_0_bit) (UC DV_II_54_0_bit)) (UC DV_II_56_0_bit))))
    PEnd)
  (* ubc_check.c:144 *) (PIf (UAnd UMask (UOr (UOr (UC DV_I_43_0_bit) (UC DV_II_53_0_bit)) (UC DV_II_55_0_bit)))
    (* ubc_check.c:145 *) (PAnd (UOr (USub (UC 0) (UAnd (UShr (UXor (UW 37%nat) (UW 39%nat)) (UC 4)) (UC 1))) (UNot (UOr (UOr (UC DV_I_43_0_bit) (UC DV_II_53_0_bit)) (UC DV_II_55_0_bit))))
    PEnd)
  (* ubc_check.c:146 *) (PAnd (UOr (USub (UC 0) (UAnd (UXor (UW 36%nat) (UShr (UW 37%nat) (UC 5))) (UShl (UC 1) (UC 1)))) (UNot (UOr (UOr (UC DV_I_47_2_bit) (UC DV_I_50_2_bit)) (UC DV_II_46_2_bit))))
  (* ubc_check.c:147 *) (PIf (UAnd UMask (UOr (UOr (UC DV_I_45_0_bit) (UC DV_I_48_0_bit)) (UC DV_II_47_0_bit)))
    (* ubc_check.c:148 *) (PAnd (UOr (USub (UAnd (UXor (UShr (UW 35%nat) (UC 4)) (UShr (UW 39%nat) (UC 29))) (UC 1)) (UC 1)) (UNot (UOr (UOr (UC DV_I_45_0_bit) (UC DV_I_48_0_bit)) (UC DV_II_47_0_bit))))
    PEnd)
  (* ubc_check.c:149 *) (PIf (UAnd UMask (UOr (UC DV_I_48_0_bit) (UC DV_II_48_0_bit)))
    (* ubc_check.c:150 *) (PAnd (UOr (USub (UC 0) (UAnd (UXor (UW 63%nat) (UShr (UW 64%nat) (UC 5))) (UShl (UC 1) (UC 0)))) (UNot (UOr (UC DV_I_48_0_bit) (UC DV_II_48_0_bit))))
    PEnd)
  (* ubc_check.c:151 *) (PIf (UAnd UMask (UOr (UC DV_I_45_0_bit) (UC DV_II_45_0_bit)))
    (* ubc_check.c:152 *) (PAnd (UOr (USub (UC 0) (UAnd (UXor (UW 63%nat) (UShr (UW 64%nat) (UC 5))) (UShl (UC 1) (UC 1)))) (UNot (UOr (UC DV_I_45_0_bit) (UC DV_II_45_0_bit))))
    PEnd)
  (* ubc_check.c:153 *) (PIf (UAnd UMask (UOr (UC DV_I_47_0_bit) (UC DV_II_47_0_bit)))
    (* ubc_check.c:154 *) (PAnd (UOr (USub (UC 0) (UAnd (UXor (UW 62%nat) (UShr (UW 63%nat) (UC 5))) (UShl (UC 1) (UC 0)))) (UNot (UOr (UC DV_I_47_0_bit) (UC DV_II_47_0_bit))))
    PEnd)
  (* ubc_check.c:155 *) (PIf (UAnd UMask (UOr (UC DV_I_46_0_bit) (UC DV_II_46_0_bit)))
    (* ubc_check.c:156 *) (PAnd (UOr (USub (UC 0) (UAnd (UXor (UW 61%nat) (UShr (UW 62%nat) (UC 5))) (UShl (UC 1) (UC 0)))) (UNot (UOr (UC DV_I_46_0_bit) (UC DV_II_46_0_bit))))
    PEnd)
  (* ubc_check.c:157 *) (PAnd (UOr (USub (UC 0) (UAnd (UXor (UW 61%nat) (UShr (UW 62%nat) (UC 5))) (UShl (UC 1) (UC 2)))) (UNot (UOr (UC DV_I_46_2_bit) (UC DV_II_46_2_bit))))
  (* ubc_check.c:158 *) (PIf (UAnd UMask (UOr (UC DV_I_45_0_bit) (UC DV_II_45_0_bit)))
    (* ubc_check.c:159 *) (PAnd (UOr (USub (UC 0) (UAnd (UXor (UW 60%nat) (UShr (UW 61%nat) (UC 5))) (UShl (UC 1) (UC 0)))) (UNot (UOr (UC DV_I_45_0_bit) (UC DV_II_45_0_bit))))
    PEnd)
  (* ubc_check.c:160 *) (PIf (UAnd UMask (UOr (UC DV_II_51_0_bit) (UC DV_II_54_0_bit)))
    (* ubc_check.c:161 *) (PAnd (UOr (USub (UAnd (UShr (UXor (UW 58%nat) (UW 59%nat)) (UC 29)) (UC 1)) (UC 1)) (UNot (UOr (UC DV_II_51_0_bit) (UC DV_II_54_0_bit))))
    PEnd)
  (* ubc_check.c:162 *) (PIf (UAnd UMask (UOr (UC DV_II_50_0_bit) (UC DV_II_53_0_bit)))
    (* ubc_check.c:163 *) (PAnd (UOr (USub (UAnd (UShr (UXor (UW 57%nat) (UW 58%nat)) (UC 29)) (UC 1)) (UC 1)) (UNot (UOr (UC DV_II_50_0_bit) (UC DV_II_53_0_bit))))
    PEnd)
  (* ubc_check.c:164 *) (PIf (UAnd UMask (UOr (UC DV_II_52_0_bit) (UC DV_II_54_0_bit)))
    (* ubc_check.c:165 *) (PAnd (UOr (USub (UAnd (UXor (UW 56%nat) (UShr (UW 59%nat) (UC 25))) (UShl (UC 1) (UC 4))) (UShl (UC 1) (UC 4))) (UNot (UOr (UC DV_II_52_0_bit) (UC DV_II_54_0_bit))))
    PEnd)
  (* ubc_check.c:166 *) (PIf (UAnd UMask (UOr (UC DV_II_51_0_bit) (UC DV_II_52_0_bit)))
    (* ubc_check.c:167 *) (PAnd (UOr (USub (UC 0) (UAnd (UShr (UXor (UW 56%nat) (UW 59%nat)) (UC 29)) (UC 1))) (UNot (UOr (UC DV_II_51_0_bit) (UC DV_II_52_0_bit))))
    PEnd)
  (* ubc_check.c:168 *) (PIf (UAnd UMask (UOr (UC DV_II_49_0_bit) (UC DV_II_52_0_bit)))
    (* ubc_check.c:169 *) (PAnd (UOr (USub (UAnd (UShr (UXor (UW 56%nat) (UW 57%nat)) (UC 29)) (UC 1)) (UC 1)) (UNot (UOr (UC DV_II_49_0_bit) (UC DV_II_52_0_bit))))
    PEnd)
  (* ubc_check.c:170 *) (PIf (UAnd UMask (UOr (UC DV_II_51_0_bit) (UC DV_II_53_0_bit)))
    (* ubc_check.c:171 *) (PAnd (UOr (USub (UAnd (UXor (UW 55%nat) (UShr (UW 58%nat) (UC 25))) (UShl (UC 1) (UC 4))) (UShl (UC 1) (UC 4))) (UNot (UOr (UC DV_II_51_0_bit) (UC DV_II_53_0_bit))))
    PEnd)
  (* ubc_check.c:172 *) (PIf (UAnd UMask (UOr (UC DV_II_50_0_bit) (UC DV_II_52_0_bit)))
    (* ubc_check.c:173 *) (PAnd (UOr (USub (UAnd (UXor (UW 54%nat) (UShr (UW 57%nat) (UC 25))) (UShl (UC 1) (UC 4))) (UShl (UC 1) (UC 4))) (UNot (UOr (UC DV_II_50_0_bit) (UC DV_II_52_0_bit))))
    PEnd)
  (* ubc_check.c:174 *) (PIf (UAnd UMask (UOr (UC DV_II_49_0_bit) (UC DV_II_51_0_bit)))
    (* ubc_check.c:175 *) (PAnd (UOr (USub (UAnd (UXor (UW 53%nat) (UShr (UW 56%nat) (UC 25))) (UShl (UC 1) (UC 4))) (UShl (UC 1) (UC 4))) (UNot (UOr (UC DV_II_49_0_bit) (UC DV_II_51_0_bit))))
    PEnd)
  (* ubc_check.c:176 *) (PAnd (UOr (USub (UAnd (UXor (UW 51%nat) (UShr (UW 50%nat) (UC 5))) (UShl (UC 1) (UC 1))) (UShl (UC 1) (UC 1))) (UNot (UOr (UC DV_I_50_2_bit) (UC DV_II_46_2_bit))))
  (* ubc_check.c:177 *) (PAnd (UOr (USub (UAnd (UXor (UW 48%nat) (UW 50%nat)) (UShl (UC 1) (UC 6))) (UShl (UC 1) (UC 6))) (UNot (UOr (UC DV_I_50_2_bit) (UC DV_II_46_2_bit))))
  (* ubc_check.c:178 *) (PIf (UAnd UMask (UOr (UC DV_I_51_0_bit) (UC DV_I_52_0_bit)))
    (* ubc_check.c:179 *) (PAnd (UOr (USub (UC 0) (UAnd (UShr (UXor (UW 48%nat) (UW 55%nat)) (UC 29)) (UC 1))) (UNot (UOr (UC DV_I_51_0_bit) (UC DV_I_52_0_bit))))
    PEnd)
  (* ubc_check.c:180 *) (PAnd (UOr (USub (UAnd (UXor (UW 47%nat) (UW 49%nat)) (UShl (UC 1) (UC 6))) (UShl (UC 1) (UC 6))) (UNot (UOr (UC DV_I_49_2_bit) (UC DV_I_51_2_bit))))
  (* ubc_check.c:181 *) (PAnd (UOr (USub (UAnd (UXor (UW 48%nat) (UShr (UW 47%nat) (UC 5))) (UShl (UC 1) (UC 1))) (UShl (UC 1) (UC 1))) (UNot (UOr (UC DV_I_47_2_bit) (UC DV_II_51_2_bit))))
  (* ubc_check.c:182 *) (PAnd (UOr (USub (UAnd (UXor (UW 46%nat) (UW 48%nat)) (UShl (UC 1) (UC 6))) (UShl (UC 1) (UC 6))) (UNot (UOr (UC DV_I_48_2_bit) (UC DV_I_50_2_bit))))
  (* ubc_check.c:183 *) (PAnd (UOr (USub (UAnd (UXor (UW 47%nat) (UShr (UW 46%nat) (UC 5))) (UShl (UC 1) (UC 1))) (UShl (UC 1) (UC 1))) (UNot (UOr (UC DV_I_46_2_bit) (UC DV_II_50_2_bit))))
  (* ubc_check.c:184 *) (PAnd (UOr (USub (UC 0) (UAnd (UXor (UW 44%nat) (UShr (UW 45%nat) (UC 5))) (UShl (UC 1) (UC 1)))) (UNot (UOr (UC DV_I_51_2_bit) (UC DV_II_49_2_bit))))
  (* ubc_check.c:185 *) (PAnd (UOr (USub (UAnd (UXor (UW 43%nat) (UW 45%nat)) (UShl (UC 1) (UC 6))) (UShl (UC 1) (UC 6))) (UNot (UOr (UC DV_I_47_2_bit) (UC DV_I_49_2_bit))))
  (* ubc_check.c:186 *) (PAnd (UOr (USub (UAnd (UShr (UXor (UW 42%nat) (UW 44%nat)) (UC 6)) (UC 1)) (UC 1)) (UNot (UOr (UC DV_I_46_2_bit) (UC DV_I_48_2_bit))))
  (* ubc_check.c:187 *) (PAnd (UOr (USub (UAnd (UXor (UW 43%nat) (UShr (UW 42%nat) (UC 5))) (UShl (UC 1) (UC 1))) (UShl (UC 1) (UC 1))) (UNot (UOr (UC DV_II_46_2_bit) (UC DV_II_51_2_bit))))
  (* ubc_check.c:188 *) (PAnd (UOr (USub (UAnd (UXor (UW 42%nat) (UShr (UW 41%nat) (UC 5))) (UShl (UC 1) (UC 1))) (UShl (UC 1) (UC 1))) (UNot (UOr (UC DV_I_51_2_bit) (UC DV_II_50_2_bit))))
  (* ubc_check.c:189 *) (PAnd (UOr (USub (UAnd (UXor (UW 41%nat) (UShr (UW 40%nat) (UC 5))) (UShl (UC 1) (UC 1))) (UShl (UC 1) (UC 1))) (UNot (UOr (UC DV_I_50_2_bit) (UC DV_II_49_2_bit))))
  (* ubc_check.c:190 *) (PIf (UAnd UMask (UOr (UC DV_I_52_0_bit) (UC DV_II_51_0_bit)))
    (* ubc_check.c:191 *) (PAnd (UOr (USub (UAnd (UXor (UW 39%nat) (UShr (UW 43%nat) (UC 25))) (UShl (UC 1) (UC 4))) (UShl (UC 1) (UC 4))) (UNot (UOr (UC DV_I_52_0_bit) (UC DV_II_51_0_bit))))
    PEnd)
  (* ubc_check.c:192 *) (PIf (UAnd UMask (UOr (UC DV_I_51_0_bit) (UC DV_II_50_0_bit)))
    (* ubc_check.c:193 *) (PAnd (UOr (USub (UAnd (UXor (UW 38%nat) (UShr (UW 42%nat) (UC 25))) (UShl (UC 1) (UC 4))) (UShl (UC 1) (UC 4))) (UNot (UOr (UC DV_I_51_0_bit) (UC DV_II_50_0_bit))))
    PEnd)
  (* ubc_check.c:194 *) (PIf (UAnd UMask (UOr (UC DV_I_48_2_bit) (UC DV_I_51_2_bit)))
    (* ubc_check.c:195 *) (PAnd (UOr (USub (UC 0) (UAnd (UXor (UW 37%nat) (UShr (UW 38%nat) (UC 5))) (UShl (UC 1) (UC 1)))) (UNot (UOr (UC DV_I_48_2_bit) (UC DV_I_51_2_bit))))
    PEnd)
  (* ubc_check.c:196 *) (PIf (UAnd UMask (UOr (UC DV_I_50_0_bit) (UC DV_II_49_0_bit)))
    (* ubc_check.c:197 *) (PAnd (UOr (USub (UAnd (UXor (UW 37%nat) (UShr (UW 41%nat) (UC 25))) (UShl (UC 1) (UC 4))) (UShl (UC 1) (UC 4))) (UNot (UOr (UC DV_I_50_0_bit) (UC DV_II_49_0_bit))))
    PEnd)
  (* ubc_check.c:198 *) (PIf (UAnd UMask (UOr (UC DV_II_52_0_bit) (UC DV_II_54_0_bit)))
    (* ubc_check.c:199 *) (PAnd (UOr (USub (UC 0) (UAnd (UXor (UW 36%nat) (UW 38%nat)) (UShl (UC 1) (UC 4)))) (UNot (UOr (UC DV_II_52_0_bit) (UC DV_II_54_0_bit))))
    PEnd)
  (* ubc_check.c:200 *) (PAnd (UOr (USub (UC 0) (UAnd (UXor (UW 35%nat) (UShr (UW 36%nat) (UC 5))) (UShl (UC 1) (UC 1)))) (UNot (UOr (UC DV_I_46_2_bit) (UC DV_I_49_2_bit))))
  (* ubc_check.c:201 *) (PIf (UAnd UMask (UOr (UC DV_I_51_0_bit) (UC DV_II_47_0_bit)))
    (* ubc_check.c:202 *) (PAnd (UOr (USub (UAnd (UXor (UW 35%nat) (UShr (UW 39%nat) (UC 25))) (UShl (UC 1) (UC 3))) (UShl (UC 1) (UC 3))) (UNot (UOr (UC DV_I_51_0_bit) (UC DV_II_47_0_bit))))
    PEnd)
  (* ubc_check.c:203 *) (PIf UMask
    (* ubc_check.c:206 *) (PIf (UAnd UMask (UC DV_I_43_0_bit))
      (* ubc_check.c:207 *) (PIf (ULor (ULor (ULNot (UAnd (UXor (UW 61%nat) (UShr (UW 62%nat) (UC 5))) (UShl (UC 1) (UC 1)))) (ULNot (ULNot (UAnd (UXor (UW 59%nat) (UShr (UW 63%nat) (UC 25))) (UShl (UC 1) (UC 5)))))) (ULNot (UAnd (UXor (UW 58%nat) (UShr (UW 63%nat) (UC 30))) (UShl (UC 1) (UC 0)))))
        (* ubc_check.c:209 *) (PAnd (UNot (UC DV_I_43_0_bit))
        PEnd)
      PEnd)
    (* ubc_check.c:210 *) (PIf (UAnd UMask (UC DV_I_44_0_bit))
      (* ubc_check.c:211 *) (PIf (ULor (ULor (ULNot (UAnd (UXor (UW 62%nat) (UShr (UW 63%nat) (UC 5))) (UShl (UC 1) (UC 1)))) (ULNot (ULNot (UAnd (UXor (UW 60%nat) (UShr (UW 64%nat) (UC 25))) (UShl (UC 1) (UC 5)))))) (ULNot (UAnd (UXor (UW 59%nat) (UShr (UW 64%nat) (UC 30))) (UShl (UC 1) (UC 0)))))
        (* ubc_check.c:213 *) (PAnd (UNot (UC DV_I_44_0_bit))
        PEnd)
      PEnd)
    (* ubc_check.c:214 *) (PIf (UAnd UMask (UC DV_I_46_2_bit))
      (* ubc_check.c:215 *) (PAnd (UOr (UNot (UShr (UXor (UW 40%nat) (UW 42%nat)) (UC 2))) (UNot (UC DV_I_46_2_bit)))
      PEnd)
    (* ubc_check.c:216 *) (PIf (UAnd UMask (UC DV_I_47_2_bit))
      (* ubc_check.c:217 *) (PIf (ULor (ULNot (UAnd (UXor (UW 62%nat) (UShr (UW 63%nat) (UC 5))) (UShl (UC 1) (UC 2)))) (ULNot (ULNot (UAnd (UXor (UW 41%nat) (UW 43%nat)) (UShl (UC 1) (UC 6))))))
        (* ubc_check.c:219 *) (PAnd (UNot (UC DV_I_47_2_bit))
        PEnd)
      PEnd)
    (* ubc_check.c:220 *) (PIf (UAnd UMask (UC DV_I_48_2_bit))
      (* ubc_check.c:221 *) (PIf (ULor (ULNot (UAnd (UXor (UW 63%nat) (UShr (UW 64%nat) (UC 5))) (UShl (UC 1) (UC 2)))) (ULNot (ULNot (UAnd (UXor (UW 48%nat) (UShl (UW 49%nat) (UC 5))) (UShl (UC 1) (UC 6))))))
        (* ubc_check.c:223 *) (PAnd (UNot (UC DV_I_48_2_bit))
        PEnd)
      PEnd)
    (* ubc_check.c:224 *) (PIf (UAnd UMask (UC DV_I_49_2_bit))
      (* ubc_check.c:225 *) (PIf (ULor (ULor (ULor (ULNot (ULNot (UAnd (UXor (UW 49%nat) (UShl (UW 50%nat) (UC 5))) (UShl (UC 1) (UC 6))))) (ULNot (UAnd (UXor (UW 42%nat) (UW 50%nat)) (UShl (UC 1) (UC 1))))) (ULNot (ULNot (UAnd (UXor (UW 39%nat) (UShl (UW 40%nat) (UC 5))) (UShl (UC 1) (UC 6)))))) (ULNot (UAnd (UXor (UW 38%nat) (UW 40%nat)) (UShl (UC 1) (UC 1)))))
        (* ubc_check.c:227 *) (PAnd (UNot (UC DV_I_49_2_bit))
        PEnd)
      PEnd)
    (* ubc_check.c:228 *) (PIf (UAnd UMask (UC DV_I_50_0_bit))
      (* ubc_check.c:229 *) (PAnd (UOr (UShl (UXor (UW 36%nat) (UW 37%nat)) (UC 7)) (UNot (UC DV_I_50_0_bit)))
      PEnd)
    (* ubc_check.c:230 *) (PIf (UAnd UMask (UC DV_I_50_2_bit))
      (* ubc_check.c:231 *) (PAnd (UOr (UShl (UXor (UW 43%nat) (UW 51%nat)) (UC 11)) (UNot (UC DV_I_50_2_bit)))
      PEnd)
    (* ubc_check.c:232 *) (PIf (UAnd UMask (UC DV_I_51_0_bit))
      (* ubc_check.c:233 *) (PAnd (UOr (UShl (UXor (UW 37%nat) (UW 38%nat)) (UC 9)) (UNot (UC DV_I_51_0_bit)))
      PEnd)
    (* ubc_check.c:234 *) (PIf (UAnd UMask (UC DV_I_51_2_bit))
      (* ubc_check.c:235 *) (PIf (ULor (ULor (ULor (ULNot (ULNot (UAnd (UXor (UW 51%nat) (UShl (UW 52%nat) (UC 5))) (UShl (UC 1) (UC 6))))) (ULNot (ULNot (UAnd (UXor (UW 49%nat) (UW 51%nat)) (UShl (UC 1) (UC 6)))))) (ULNot (ULNot (UAnd (UXor (UW 37%nat) (UShr (UW 37%nat) (UC 5))) (UShl (UC 1) (UC 1)))))) (ULNot (ULNot (UAnd (UXor (UW 35%nat) (UShr (UW 39%nat) (UC 25))) (UShl (UC 1) (UC 5))))))
        (* ubc_check.c:237 *) (PAnd (UNot (UC DV_I_51_2_bit))
        PEnd)
      PEnd)
    (* ubc_check.c:238 *) (PIf (UAnd UMask (UC DV_I_52_0_bit))
      (* ubc_check.c:239 *) (PAnd (UOr (UShl (UXor (UW 38%nat) (UW 39%nat)) (UC 11)) (UNot (UC DV_I_52_0_bit)))
      PEnd)
    (* ubc_check.c:240 *) (PIf (UAnd UMask (UC DV_II_46_2_bit))
      (* ubc_check.c:241 *) (PAnd (UOr (UShl (UXor (UW 47%nat) (UW 51%nat)) (UC 17)) (UNot (UC DV_II_46_2_bit)))
      PEnd)
    (* ubc_check.c:242 *) (PIf (UAnd UMask (UC DV_II_48_0_bit))
      (* ubc_check.c:243 *) (PIf (ULor (ULNot (ULNot (UAnd (UXor (UW 36%nat) (UShr (UW 40%nat) (UC 25))) (UShl (UC 1) (UC 3))))) (ULNot (UAnd (UXor (UW 35%nat) (UShl (UW 40%nat) (UC 2))) (UShl (UC 1) (UC 30)))))
        (* ubc_check.c:245 *) (PAnd (UNot (UC DV_II_48_0_bit))
        PEnd)
      PEnd)
    (* ubc_check.c:246 *) (PIf (UAnd UMask (UC DV_II_49_0_bit))
      (* ubc_check.c:247 *) (PIf (ULor (ULNot (ULNot (UAnd (UXor (UW 37%nat) (UShr (UW 41%nat) (UC 25))) (UShl (UC 1) (UC 3))))) (ULNot (UAnd (UXor (UW 36%nat) (UShl (UW 41%nat) (UC 2))) (UShl (UC 1) (UC 30)))))
        (* ubc_check.c:249 *) (PAnd (UNot (UC DV_II_49_0_bit))
        PEnd)
      PEnd)
    (* ubc_check.c:250 *) (PIf (UAnd UMask (UC DV_II_49_2_bit))
      (* ubc_check.c:251 *) (PIf (ULor (ULor (ULor (ULor (ULor (ULNot (ULNot (UAnd (UXor (UW 53%nat) (UShl (UW 54%nat) (UC 5))) (UShl (UC 1) (UC 6))))) (ULNot (ULNot (UAnd (UXor (UW 51%nat) (UW 53%nat)) (UShl (UC 1) (UC 6)))))) (ULNot (UAnd (UXor (UW 50%nat) (UW 54%nat)) (UShl (UC 1) (UC 1))))) (ULNot (ULNot (UAnd (UXor (UW 45%nat) (UShl (UW 46%nat) (UC 5))) (UShl (UC 1) (UC 6)))))) (ULNot (ULNot (UAnd (UXor (UW 37%nat) (UShr (UW 41%nat) (UC 25))) (UShl (UC 1) (UC 5)))))) (ULNot (UAnd (UXor (UW 36%nat) (UShr (UW 41%nat) (UC 30))) (UShl (UC 1) (UC 0)))))
        (* ubc_check.c:253 *) (PAnd (UNot (UC DV_II_49_2_bit))
        PEnd)
      PEnd)
    (* ubc_check.c:254 *) (PIf (UAnd UMask (UC DV_II_50_0_bit))
      (* ubc_check.c:255 *) (PIf (ULor (ULor (ULNot (UAnd (UXor (UW 55%nat) (UW 58%nat)) (UShl (UC 1) (UC 29)))) (ULNot (ULNot (UAnd (UXor (UW 38%nat) (UShr (UW 42%nat) (UC 25))) (UShl (UC 1) (UC 3)))))) (ULNot (UAnd (UXor (UW 37%nat) (UShl (UW 42%nat) (UC 2))) (UShl (UC 1) (UC 30)))))
        (* ubc_check.c:257 *) (PAnd (UNot (UC DV_II_50_0_bit))
        PEnd)
      PEnd)
    (* ubc_check.c:258 *) (PIf (UAnd UMask (UC DV_II_50_2_bit))
      (* ubc_check.c:259 *) (PIf (ULor (ULor (ULor (ULor (ULor (ULNot (ULNot (UAnd (UXor (UW 54%nat) (UShl (UW 55%nat) (UC 5))) (UShl (UC 1) (UC 6))))) (ULNot (ULNot (UAnd (UXor (UW 52%nat) (UW 54%nat)) (UShl (UC 1) (UC 6)))))) (ULNot (UAnd (UXor (UW 51%nat) (UW 55%nat)) (UShl (UC 1) (UC 1))))) (ULNot (UAnd (UXor (UW 45%nat) (UW 47%nat)) (UShl (UC 1) (UC 1))))) (ULNot (ULNot (UAnd (UXor (UW 38%nat) (UShr (UW 42%nat) (UC 25))) (UShl (UC 1) (UC 5)))))) (ULNot (UAnd (UXor (UW 37%nat) (UShr (UW 42%nat) (UC 30))) (UShl (UC 1) (UC 0)))))
        (* ubc_check.c:261 *) (PAnd (UNot (UC DV_II_50_2_bit))
        PEnd)
      PEnd)
    (* ubc_check.c:262 *) (PIf (UAnd UMask (UC DV_II_51_0_bit))
      (* ubc_check.c:263 *) (PIf (ULor (ULNot (ULNot (UAnd (UXor (UW 39%nat) (UShr (UW 43%nat) (UC 25))) (UShl (UC 1) (UC 3))))) (ULNot (UAnd (UXor (UW 38%nat) (UShl (UW 43%nat) (UC 2))) (UShl (UC 1) (UC 30)))))
        (* ubc_check.c:265 *) (PAnd (UNot (UC DV_II_51_0_bit))
        PEnd)
      PEnd)
    (* ubc_check.c:266 *) (PIf (UAnd UMask (UC DV_II_51_2_bit))
      (* ubc_check.c:267 *) (PIf (ULor (ULor (ULor (ULor (ULor (ULNot (ULNot (UAnd (UXor (UW 55%nat) (UShl (UW 56%nat) (UC 5))) (UShl (UC 1) (UC 6))))) (ULNot (ULNot (UAnd (UXor (UW 53%nat) (UW 55%nat)) (UShl (UC 1) (UC 6)))))) (ULNot (UAnd (UXor (UW 52%nat) (UW 56%nat)) (UShl (UC 1) (UC 1))))) (ULNot (UAnd (UXor (UW 46%nat) (UW 48%nat)) (UShl (UC 1) (UC 1))))) (ULNot (ULNot (UAnd (UXor (UW 39%nat) (UShr (UW 43%nat) (UC 25))) (UShl (UC 1) (UC 5)))))) (ULNot (UAnd (UXor (UW 38%nat) (UShr (UW 43%nat) (UC 30))) (UShl (UC 1) (UC 0)))))
        (* ubc_check.c:269 *) (PAnd (UNot (UC DV_II_51_2_bit))
        PEnd)
      PEnd)
    (* ubc_check.c:270 *) (PIf (UAnd UMask (UC DV_II_52_0_bit))
      (* ubc_check.c:271 *) (PIf (ULor (ULor (ULor (ULNot (ULNot (UAnd (UXor (UW 59%nat) (UW 60%nat)) (UShl (UC 1) (UC 29))))) (ULNot (ULNot (UAnd (UXor (UW 40%nat) (UShr (UW 44%nat) (UC 25))) (UShl (UC 1) (UC 3)))))) (ULNot (ULNot (UAnd (UXor (UW 40%nat) (UShr (UW 44%nat) (UC 25))) (UShl (UC 1) (UC 4)))))) (ULNot (UAnd (UXor (UW 39%nat) (UShl (UW 44%nat) (UC 2))) (UShl (UC 1) (UC 30)))))
        (* ubc_check.c:273 *) (PAnd (UNot (UC DV_II_52_0_bit))
        PEnd)
      PEnd)
    (* ubc_check.c:274 *) (PIf (UAnd UMask (UC DV_II_53_0_bit))
      (* ubc_check.c:275 *) (PIf (ULor (ULor (ULor (ULNot (UAnd (UXor (UW 58%nat) (UW 61%nat)) (UShl (UC 1) (UC 29)))) (ULNot (ULNot (UAnd (UXor (UW 57%nat) (UShr (UW 61%nat) (UC 25))) (UShl (UC 1) (UC 4)))))) (ULNot (ULNot (UAnd (UXor (UW 41%nat) (UShr (UW 45%nat) (UC 25))) (UShl (UC 1) (UC 3)))))) (ULNot (ULNot (UAnd (UXor (UW 41%nat) (UShr (UW 45%nat) (UC 25))) (UShl (UC 1) (UC 4))))))
        (* ubc_check.c:277 *) (PAnd (UNot (UC DV_II_53_0_bit))
        PEnd)
      PEnd)
    (* ubc_check.c:278 *) (PIf (UAnd UMask (UC DV_II_54_0_bit))
      (* ubc_check.c:279 *) (PIf (ULor (ULor (ULNot (ULNot (UAnd (UXor (UW 58%nat) (UShr (UW 62%nat) (UC 25))) (UShl (UC 1) (UC 4))))) (ULNot (ULNot (UAnd (UXor (UW 42%nat) (UShr (UW 46%nat) (UC 25))) (UShl (UC 1) (UC 3)))))) (ULNot (ULNot (UAnd (UXor (UW 42%nat) (UShr (UW 46%nat) (UC 25))) (UShl (UC 1) (UC 4))))))
        (* ubc_check.c:281 *) (PAnd (UNot (UC DV_II_54_0_bit))
        PEnd)
      PEnd)
    (* ubc_check.c:282 *) (PIf (UAnd UMask (UC DV_II_55_0_bit))
      (* ubc_check.c:283 *) (PIf (ULor (ULor (ULor (ULNot (ULNot (UAnd (UXor (UW 59%nat) (UShr (UW 63%nat) (UC 25))) (UShl (UC 1) (UC 4))))) (ULNot (ULNot (UAnd (UXor (UW 57%nat) (UShr (UW 59%nat) (UC 25))) (UShl (UC 1) (UC 4)))))) (ULNot (ULNot (UAnd (UXor (UW 43%nat) (UShr (UW 47%nat) (UC 25))) (UShl (UC 1) (UC 3)))))) (ULNot (ULNot (UAnd (UXor (UW 43%nat) (UShr (UW 47%nat) (UC 25))) (UShl (UC 1) (UC 4))))))
        (* ubc_check.c:285 *) (PAnd (UNot (UC DV_II_55_0_bit))
        PEnd)
      PEnd)
    (* ubc_check.c:286 *) (PIf (UAnd UMask (UC DV_II_56_0_bit))
      (* ubc_check.c:287 *) (PIf (ULor (ULor (ULNot (ULNot (UAnd (UXor (UW 60%nat) (UShr (UW 64%nat) (UC 25))) (UShl (UC 1) (UC 4))))) (ULNot (ULNot (UAnd (UXor (UW 44%nat) (UShr (UW 48%nat) (UC 25))) (UShl (UC 1) (UC 3)))))) (ULNot (ULNot (UAnd (UXor (UW 44%nat) (UShr (UW 48%nat) (UC 25))) (UShl (UC 1) (UC 4))))))
        (* ubc_check.c:289 *) (PAnd (UNot (UC DV_II_56_0_bit))
        PEnd)
      PEnd)
    PEnd))))))))))))))))))))))))
  PEnd)))))))))))))))))))))))))))))))))))))))))))))))))))))))))))))))))))))))))))))))))))))))).
