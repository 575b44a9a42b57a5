(** GENERATED by tools/gen_ubc.py from /repo/ubc/ubc.go lines 37-361; do not edit.
    Syntax tree of the bit-condition program; see Model_Ubc.v for its meaning.
    Each statement carries the source line it comes from. *)
From Coq Require Import NArith.
From Verif Require Import Model_Ubc.
Local Open Scope N_scope.

(** /repo/ubc/const.go, const block *)
Definition DV_I_43_0_bit : N := 1.
Definition DV_I_44_0_bit : N := 2.
Definition DV_I_45_0_bit : N := 4.
Definition DV_I_46_0_bit : N := 8.
Definition DV_I_46_2_bit : N := 16.
Definition DV_I_47_0_bit : N := 32.
Definition DV_I_47_2_bit : N := 64.
Definition DV_I_48_0_bit : N := 128.
Definition DV_I_48_2_bit : N := 256.
Definition DV_I_49_0_bit : N := 512.
Definition DV_I_49_2_bit : N := 1024.
Definition DV_I_50_0_bit : N := 2048.
Definition DV_I_50_2_bit : N := 4096.
Definition DV_I_51_0_bit : N := 8192.
Definition DV_I_51_2_bit : N := 16384.
Definition DV_I_52_0_bit : N := 32768.
Definition DV_II_45_0_bit : N := 65536.
Definition DV_II_46_0_bit : N := 131072.
Definition DV_II_46_2_bit : N := 262144.
Definition DV_II_47_0_bit : N := 524288.
Definition DV_II_48_0_bit : N := 1048576.
Definition DV_II_49_0_bit : N := 2097152.
Definition DV_II_49_2_bit : N := 4194304.
Definition DV_II_50_0_bit : N := 8388608.
Definition DV_II_50_2_bit : N := 16777216.
Definition DV_II_51_0_bit : N := 33554432.
Definition DV_II_51_2_bit : N := 67108864.
Definition DV_II_52_0_bit : N := 134217728.
Definition DV_II_53_0_bit : N := 268435456.
Definition DV_II_54_0_bit : N := 536870912.
Definition DV_II_55_0_bit : N := 1073741824.
Definition DV_II_56_0_bit : N := 2147483648.

(** /repo/ubc/ubc.go lines 37-361 *)
Definition ubc_prog_go : prog :=
  (* ubc.go:37 *) (PAnd (UOr (USub (UAnd (UShr (UXor (UW 44%nat) (UW 45%nat)) (UC 29)) (UC 1)) (UC 1)) (UNot (UOr (UOr (UOr (UOr (UOr (UOr (UC DV_I_48_0_bit) (UC DV_I_51_0_bit)) (UC DV_I_52_0_bit)) (UC DV_II_45_0_bit)) (UC DV_II_46_0_bit)) (UC DV_II_50_0_bit)) (UC DV_II_51_0_bit))))
  (* ubc.go:38 *) (PAnd (UOr (USub (UAnd (UShr (UXor (UW 49%nat) (UW 50%nat)) (UC 29)) (UC 1)) (UC 1)) (UNot (UOr (UOr (UOr (UOr (UOr (UC DV_I_46_0_bit) (UC DV_II_45_0_bit)) (UC DV_II_50_0_bit)) (UC DV_II_51_0_bit)) (UC DV_II_55_0_bit)) (UC DV_II_56_0_bit))))
  (* ubc.go:39 *) (PAnd (UOr (USub (UAnd (UShr (UXor (UW 48%nat) (UW 49%nat)) (UC 29)) (UC 1)) (UC 1)) (UNot (UOr (UOr (UOr (UOr (UOr (UC DV_I_45_0_bit) (UC DV_I_52_0_bit)) (UC DV_II_49_0_bit)) (UC DV_II_50_0_bit)) (UC DV_II_54_0_bit)) (UC DV_II_55_0_bit))))
  (* ubc.go:40 *) (PAnd (UOr (USub (UAnd (UXor (UW 47%nat) (UShr (UW 50%nat) (UC 25))) (UShl (UC 1) (UC 4))) (UShl (UC 1) (UC 4))) (UNot (UOr (UOr (UOr (UOr (UOr (UC DV_I_47_0_bit) (UC DV_I_49_0_bit)) (UC DV_I_51_0_bit)) (UC DV_II_45_0_bit)) (UC DV_II_51_0_bit)) (UC DV_II_56_0_bit))))
  (* ubc.go:41 *) (PAnd (UOr (USub (UAnd (UShr (UXor (UW 47%nat) (UW 48%nat)) (UC 29)) (UC 1)) (UC 1)) (UNot (UOr (UOr (UOr (UOr (UOr (UC DV_I_44_0_bit) (UC DV_I_51_0_bit)) (UC DV_II_48_0_bit)) (UC DV_II_49_0_bit)) (UC DV_II_53_0_bit)) (UC DV_II_54_0_bit))))
  (* ubc.go:42 *) (PAnd (UOr (USub (UAnd (UXor (UShr (UW 46%nat) (UC 4)) (UShr (UW 49%nat) (UC 29))) (UC 1)) (UC 1)) (UNot (UOr (UOr (UOr (UOr (UOr (UC DV_I_46_0_bit) (UC DV_I_48_0_bit)) (UC DV_I_50_0_bit)) (UC DV_I_52_0_bit)) (UC DV_II_50_0_bit)) (UC DV_II_55_0_bit))))
  (* ubc.go:43 *) (PAnd (UOr (USub (UAnd (UShr (UXor (UW 46%nat) (UW 47%nat)) (UC 29)) (UC 1)) (UC 1)) (UNot (UOr (UOr (UOr (UOr (UOr (UC DV_I_43_0_bit) (UC DV_I_50_0_bit)) (UC DV_II_47_0_bit)) (UC DV_II_48_0_bit)) (UC DV_II_52_0_bit)) (UC DV_II_53_0_bit))))
  (* ubc.go:44 *) (PAnd (UOr (USub (UAnd (UXor (UShr (UW 45%nat) (UC 4)) (UShr (UW 48%nat) (UC 29))) (UC 1)) (UC 1)) (UNot (UOr (UOr (UOr (UOr (UOr (UC DV_I_45_0_bit) (UC DV_I_47_0_bit)) (UC DV_I_49_0_bit)) (UC DV_I_51_0_bit)) (UC DV_II_49_0_bit)) (UC DV_II_54_0_bit))))
  (* ubc.go:45 *) (PAnd (UOr (USub (UAnd (UShr (UXor (UW 45%nat) (UW 46%nat)) (UC 29)) (UC 1)) (UC 1)) (UNot (UOr (UOr (UOr (UOr (UOr (UC DV_I_49_0_bit) (UC DV_I_52_0_bit)) (UC DV_II_46_0_bit)) (UC DV_II_47_0_bit)) (UC DV_II_51_0_bit)) (UC DV_II_52_0_bit))))
  (* ubc.go:46 *) (PAnd (UOr (USub (UAnd (UXor (UShr (UW 44%nat) (UC 4)) (UShr (UW 47%nat) (UC 29))) (UC 1)) (UC 1)) (UNot (UOr (UOr (UOr (UOr (UOr (UC DV_I_44_0_bit) (UC DV_I_46_0_bit)) (UC DV_I_48_0_bit)) (UC DV_I_50_0_bit)) (UC DV_II_48_0_bit)) (UC DV_II_53_0_bit))))
  (* ubc.go:47 *) (PAnd (UOr (USub (UAnd (UXor (UShr (UW 43%nat) (UC 4)) (UShr (UW 46%nat) (UC 29))) (UC 1)) (UC 1)) (UNot (UOr (UOr (UOr (UOr (UOr (UC DV_I_43_0_bit) (UC DV_I_45_0_bit)) (UC DV_I_47_0_bit)) (UC DV_I_49_0_bit)) (UC DV_II_47_0_bit)) (UC DV_II_52_0_bit))))
  (* ubc.go:48 *) (PAnd (UOr (USub (UAnd (UShr (UXor (UW 43%nat) (UW 44%nat)) (UC 29)) (UC 1)) (UC 1)) (UNot (UOr (UOr (UOr (UOr (UOr (UC DV_I_47_0_bit) (UC DV_I_50_0_bit)) (UC DV_I_51_0_bit)) (UC DV_II_45_0_bit)) (UC DV_II_49_0_bit)) (UC DV_II_50_0_bit))))
  (* ubc.go:49 *) (PAnd (UOr (USub (UAnd (UXor (UShr (UW 42%nat) (UC 4)) (UShr (UW 45%nat) (UC 29))) (UC 1)) (UC 1)) (UNot (UOr (UOr (UOr (UOr (UOr (UC DV_I_44_0_bit) (UC DV_I_46_0_bit)) (UC DV_I_48_0_bit)) (UC DV_I_52_0_bit)) (UC DV_II_46_0_bit)) (UC DV_II_51_0_bit))))
  (* ubc.go:50 *) (PAnd (UOr (USub (UAnd (UXor (UShr (UW 41%nat) (UC 4)) (UShr (UW 44%nat) (UC 29))) (UC 1)) (UC 1)) (UNot (UOr (UOr (UOr (UOr (UOr (UC DV_I_43_0_bit) (UC DV_I_45_0_bit)) (UC DV_I_47_0_bit)) (UC DV_I_51_0_bit)) (UC DV_II_45_0_bit)) (UC DV_II_50_0_bit))))
  (* ubc.go:51 *) (PAnd (UOr (USub (UAnd (UShr (UXor (UW 40%nat) (UW 41%nat)) (UC 29)) (UC 1)) (UC 1)) (UNot (UOr (UOr (UOr (UOr (UOr (UC DV_I_44_0_bit) (UC DV_I_47_0_bit)) (UC DV_I_48_0_bit)) (UC DV_II_46_0_bit)) (UC DV_II_47_0_bit)) (UC DV_II_56_0_bit))))
  (* ubc.go:52 *) (PAnd (UOr (USub (UAnd (UShr (UXor (UW 54%nat) (UW 55%nat)) (UC 29)) (UC 1)) (UC 1)) (UNot (UOr (UOr (UOr (UOr (UC DV_I_51_0_bit) (UC DV_II_47_0_bit)) (UC DV_II_50_0_bit)) (UC DV_II_55_0_bit)) (UC DV_II_56_0_bit))))
  (* ubc.go:53 *) (PAnd (UOr (USub (UAnd (UShr (UXor (UW 53%nat) (UW 54%nat)) (UC 29)) (UC 1)) (UC 1)) (UNot (UOr (UOr (UOr (UOr (UC DV_I_50_0_bit) (UC DV_II_46_0_bit)) (UC DV_II_49_0_bit)) (UC DV_II_54_0_bit)) (UC DV_II_55_0_bit))))
  (* ubc.go:54 *) (PAnd (UOr (USub (UAnd (UShr (UXor (UW 52%nat) (UW 53%nat)) (UC 29)) (UC 1)) (UC 1)) (UNot (UOr (UOr (UOr (UOr (UC DV_I_49_0_bit) (UC DV_II_45_0_bit)) (UC DV_II_48_0_bit)) (UC DV_II_53_0_bit)) (UC DV_II_54_0_bit))))
  (* ubc.go:55 *) (PAnd (UOr (USub (UAnd (UXor (UW 50%nat) (UShr (UW 53%nat) (UC 25))) (UShl (UC 1) (UC 4))) (UShl (UC 1) (UC 4))) (UNot (UOr (UOr (UOr (UOr (UC DV_I_50_0_bit) (UC DV_I_52_0_bit)) (UC DV_II_46_0_bit)) (UC DV_II_48_0_bit)) (UC DV_II_54_0_bit))))
  (* ubc.go:56 *) (PAnd (UOr (USub (UAnd (UShr (UXor (UW 50%nat) (UW 51%nat)) (UC 29)) (UC 1)) (UC 1)) (UNot (UOr (UOr (UOr (UOr (UC DV_I_47_0_bit) (UC DV_II_46_0_bit)) (UC DV_II_51_0_bit)) (UC DV_II_52_0_bit)) (UC DV_II_56_0_bit))))
  (* ubc.go:57 *) (PAnd (UOr (USub (UAnd (UXor (UW 49%nat) (UShr (UW 52%nat) (UC 25))) (UShl (UC 1) (UC 4))) (UShl (UC 1) (UC 4))) (UNot (UOr (UOr (UOr (UOr (UC DV_I_49_0_bit) (UC DV_I_51_0_bit)) (UC DV_II_45_0_bit)) (UC DV_II_47_0_bit)) (UC DV_II_53_0_bit))))
  (* ubc.go:58 *) (PAnd (UOr (USub (UAnd (UXor (UW 48%nat) (UShr (UW 51%nat) (UC 25))) (UShl (UC 1) (UC 4))) (UShl (UC 1) (UC 4))) (UNot (UOr (UOr (UOr (UOr (UC DV_I_48_0_bit) (UC DV_I_50_0_bit)) (UC DV_I_52_0_bit)) (UC DV_II_46_0_bit)) (UC DV_II_52_0_bit))))
  (* ubc.go:59 *) (PAnd (UOr (USub (UAnd (UShr (UXor (UW 42%nat) (UW 43%nat)) (UC 29)) (UC 1)) (UC 1)) (UNot (UOr (UOr (UOr (UOr (UC DV_I_46_0_bit) (UC DV_I_49_0_bit)) (UC DV_I_50_0_bit)) (UC DV_II_48_0_bit)) (UC DV_II_49_0_bit))))
  (* ubc.go:60 *) (PAnd (UOr (USub (UAnd (UShr (UXor (UW 41%nat) (UW 42%nat)) (UC 29)) (UC 1)) (UC 1)) (UNot (UOr (UOr (UOr (UOr (UC DV_I_45_0_bit) (UC DV_I_48_0_bit)) (UC DV_I_49_0_bit)) (UC DV_II_47_0_bit)) (UC DV_II_48_0_bit))))
  (* ubc.go:61 *) (PAnd (UOr (USub (UAnd (UXor (UShr (UW 40%nat) (UC 4)) (UShr (UW 43%nat) (UC 29))) (UC 1)) (UC 1)) (UNot (UOr (UOr (UOr (UOr (UC DV_I_44_0_bit) (UC DV_I_46_0_bit)) (UC DV_I_50_0_bit)) (UC DV_II_49_0_bit)) (UC DV_II_56_0_bit))))
  (* ubc.go:62 *) (PAnd (UOr (USub (UAnd (UXor (UShr (UW 39%nat) (UC 4)) (UShr (UW 42%nat) (UC 29))) (UC 1)) (UC 1)) (UNot (UOr (UOr (UOr (UOr (UC DV_I_43_0_bit) (UC DV_I_45_0_bit)) (UC DV_I_49_0_bit)) (UC DV_II_48_0_bit)) (UC DV_II_55_0_bit))))
  (* ubc.go:64 *) (PIf (UNe (UAnd UMask (UOr (UOr (UOr (UOr (UC DV_I_44_0_bit) (UC DV_I_48_0_bit)) (UC DV_II_47_0_bit)) (UC DV_II_54_0_bit)) (UC DV_II_56_0_bit))) (UC 0))
    (* ubc.go:65 *) (PAnd (UOr (USub (UAnd (UXor (UShr (UW 38%nat) (UC 4)) (UShr (UW 41%nat) (UC 29))) (UC 1)) (UC 1)) (UNot (UOr (UOr (UOr (UOr (UC DV_I_44_0_bit) (UC DV_I_48_0_bit)) (UC DV_II_47_0_bit)) (UC DV_II_54_0_bit)) (UC DV_II_56_0_bit))))
    PEnd)
  (* ubc.go:67 *) (PAnd (UOr (USub (UAnd (UXor (UShr (UW 37%nat) (UC 4)) (UShr (UW 40%nat) (UC 29))) (UC 1)) (UC 1)) (UNot (UOr (UOr (UOr (UOr (UC DV_I_43_0_bit) (UC DV_I_47_0_bit)) (UC DV_II_46_0_bit)) (UC DV_II_53_0_bit)) (UC DV_II_55_0_bit))))
  (* ubc.go:68 *) (PIf (UNe (UAnd UMask (UOr (UOr (UOr (UC DV_I_52_0_bit) (UC DV_II_48_0_bit)) (UC DV_II_51_0_bit)) (UC DV_II_56_0_bit))) (UC 0))
    (* ubc.go:69 *) (PAnd (UOr (USub (UAnd (UShr (UXor (UW 55%nat) (UW 56%nat)) (UC 29)) (UC 1)) (UC 1)) (UNot (UOr (UOr (UOr (UC DV_I_52_0_bit) (UC DV_II_48_0_bit)) (UC DV_II_51_0_bit)) (UC DV_II_56_0_bit))))
    PEnd)
  (* ubc.go:71 *) (PIf (UNe (UAnd UMask (UOr (UOr (UOr (UC DV_I_52_0_bit) (UC DV_II_48_0_bit)) (UC DV_II_50_0_bit)) (UC DV_II_56_0_bit))) (UC 0))
    (* ubc.go:72 *) (PAnd (UOr (USub (UAnd (UXor (UW 52%nat) (UShr (UW 55%nat) (UC 25))) (UShl (UC 1) (UC 4))) (UShl (UC 1) (UC 4))) (UNot (UOr (UOr (UOr (UC DV_I_52_0_bit) (UC DV_II_48_0_bit)) (UC DV_II_50_0_bit)) (UC DV_II_56_0_bit))))
    PEnd)
  (* ubc.go:74 *) (PIf (UNe (UAnd UMask (UOr (UOr (UOr (UC DV_I_51_0_bit) (UC DV_II_47_0_bit)) (UC DV_II_49_0_bit)) (UC DV_II_55_0_bit))) (UC 0))
    (* ubc.go:75 *) (PAnd (UOr (USub (UAnd (UXor (UW 51%nat) (UShr (UW 54%nat) (UC 25))) (UShl (UC 1) (UC 4))) (UShl (UC 1) (UC 4))) (UNot (UOr (UOr (UOr (UC DV_I_51_0_bit) (UC DV_II_47_0_bit)) (UC DV_II_49_0_bit)) (UC DV_II_55_0_bit))))
    PEnd)
  (* ubc.go:77 *) (PIf (UNe (UAnd UMask (UOr (UOr (UOr (UC DV_I_48_0_bit) (UC DV_II_47_0_bit)) (UC DV_II_52_0_bit)) (UC DV_II_53_0_bit))) (UC 0))
    (* ubc.go:78 *) (PAnd (UOr (USub (UAnd (UShr (UXor (UW 51%nat) (UW 52%nat)) (UC 29)) (UC 1)) (UC 1)) (UNot (UOr (UOr (UOr (UC DV_I_48_0_bit) (UC DV_II_47_0_bit)) (UC DV_II_52_0_bit)) (UC DV_II_53_0_bit))))
    PEnd)
  (* ubc.go:80 *) (PIf (UNe (UAnd UMask (UOr (UOr (UOr (UC DV_I_46_0_bit) (UC DV_I_49_0_bit)) (UC DV_II_45_0_bit)) (UC DV_II_48_0_bit))) (UC 0))
    (* ubc.go:81 *) (PAnd (UOr (USub (UAnd (UXor (UShr (UW 36%nat) (UC 4)) (UShr (UW 40%nat) (UC 29))) (UC 1)) (UC 1)) (UNot (UOr (UOr (UOr (UC DV_I_46_0_bit) (UC DV_I_49_0_bit)) (UC DV_II_45_0_bit)) (UC DV_II_48_0_bit))))
    PEnd)
  (* ubc.go:83 *) (PIf (UNe (UAnd UMask (UOr (UOr (UC DV_I_52_0_bit) (UC DV_II_48_0_bit)) (UC DV_II_49_0_bit))) (UC 0))
    (* ubc.go:84 *) (PAnd (UOr (USub (UC 0) (UAnd (UShr (UXor (UW 53%nat) (UW 56%nat)) (UC 29)) (UC 1))) (UNot (UOr (UOr (UC DV_I_52_0_bit) (UC DV_II_48_0_bit)) (UC DV_II_49_0_bit))))
    PEnd)
  (* ubc.go:86 *) (PIf (UNe (UAnd UMask (UOr (UOr (UC DV_I_50_0_bit) (UC DV_II_46_0_bit)) (UC DV_II_47_0_bit))) (UC 0))
    (* ubc.go:87 *) (PAnd (UOr (USub (UC 0) (UAnd (UShr (UXor (UW 51%nat) (UW 54%nat)) (UC 29)) (UC 1))) (UNot (UOr (UOr (UC DV_I_50_0_bit) (UC DV_II_46_0_bit)) (UC DV_II_47_0_bit))))
    PEnd)
  (* ubc.go:89 *) (PIf (UNe (UAnd UMask (UOr (UOr (UC DV_I_49_0_bit) (UC DV_I_51_0_bit)) (UC DV_II_45_0_bit))) (UC 0))
    (* ubc.go:90 *) (PAnd (UOr (USub (UC 0) (UAnd (UShr (UXor (UW 50%nat) (UW 52%nat)) (UC 29)) (UC 1))) (UNot (UOr (UOr (UC DV_I_49_0_bit) (UC DV_I_51_0_bit)) (UC DV_II_45_0_bit))))
    PEnd)
  (* ubc.go:92 *) (PIf (UNe (UAnd UMask (UOr (UOr (UC DV_I_48_0_bit) (UC DV_I_50_0_bit)) (UC DV_I_52_0_bit))) (UC 0))
    (* ubc.go:93 *) (PAnd (UOr (USub (UC 0) (UAnd (UShr (UXor (UW 49%nat) (UW 51%nat)) (UC 29)) (UC 1))) (UNot (UOr (UOr (UC DV_I_48_0_bit) (UC DV_I_50_0_bit)) (UC DV_I_52_0_bit))))
    PEnd)
  (* ubc.go:95 *) (PIf (UNe (UAnd UMask (UOr (UOr (UC DV_I_47_0_bit) (UC DV_I_49_0_bit)) (UC DV_I_51_0_bit))) (UC 0))
    (* ubc.go:96 *) (PAnd (UOr (USub (UC 0) (UAnd (UShr (UXor (UW 48%nat) (UW 50%nat)) (UC 29)) (UC 1))) (UNot (UOr (UOr (UC DV_I_47_0_bit) (UC DV_I_49_0_bit)) (UC DV_I_51_0_bit))))
    PEnd)
  (* ubc.go:98 *) (PIf (UNe (UAnd UMask (UOr (UOr (UC DV_I_46_0_bit) (UC DV_I_48_0_bit)) (UC DV_I_50_0_bit))) (UC 0))
    (* ubc.go:99 *) (PAnd (UOr (USub (UC 0) (UAnd (UShr (UXor (UW 47%nat) (UW 49%nat)) (UC 29)) (UC 1))) (UNot (UOr (UOr (UC DV_I_46_0_bit) (UC DV_I_48_0_bit)) (UC DV_I_50_0_bit))))
    PEnd)
  (* ubc.go:101 *) (PIf (UNe (UAnd UMask (UOr (UOr (UC DV_I_45_0_bit) (UC DV_I_47_0_bit)) (UC DV_I_49_0_bit))) (UC 0))
    (* ubc.go:102 *) (PAnd (UOr (USub (UC 0) (UAnd (UShr (UXor (UW 46%nat) (UW 48%nat)) (UC 29)) (UC 1))) (UNot (UOr (UOr (UC DV_I_45_0_bit) (UC DV_I_47_0_bit)) (UC DV_I_49_0_bit))))
    PEnd)
  (* ubc.go:104 *) (PAnd (UOr (USub (UAnd (UXor (UW 45%nat) (UW 47%nat)) (UShl (UC 1) (UC 6))) (UShl (UC 1) (UC 6))) (UNot (UOr (UOr (UC DV_I_47_2_bit) (UC DV_I_49_2_bit)) (UC DV_I_51_2_bit))))
  (* ubc.go:105 *) (PIf (UNe (UAnd UMask (UOr (UOr (UC DV_I_44_0_bit) (UC DV_I_46_0_bit)) (UC DV_I_48_0_bit))) (UC 0))
    (* ubc.go:106 *) (PAnd (UOr (USub (UC 0) (UAnd (UShr (UXor (UW 45%nat) (UW 47%nat)) (UC 29)) (UC 1))) (UNot (UOr (UOr (UC DV_I_44_0_bit) (UC DV_I_46_0_bit)) (UC DV_I_48_0_bit))))
    PEnd)
  (* ubc.go:108 *) (PAnd (UOr (USub (UAnd (UShr (UXor (UW 44%nat) (UW 46%nat)) (UC 6)) (UC 1)) (UC 1)) (UNot (UOr (UOr (UC DV_I_46_2_bit) (UC DV_I_48_2_bit)) (UC DV_I_50_2_bit))))
  (* ubc.go:109 *) (PIf (UNe (UAnd UMask (UOr (UOr (UC DV_I_43_0_bit) (UC DV_I_45_0_bit)) (UC DV_I_47_0_bit))) (UC 0))
    (* ubc.go:110 *) (PAnd (UOr (USub (UC 0) (UAnd (UShr (UXor (UW 44%nat) (UW 46%nat)) (UC 29)) (UC 1))) (UNot (UOr (UOr (UC DV_I_43_0_bit) (UC DV_I_45_0_bit)) (UC DV_I_47_0_bit))))
    PEnd)
  (* ubc.go:112 *) (PAnd (UOr (USub (UC 0) (UAnd (UXor (UW 41%nat) (UShr (UW 42%nat) (UC 5))) (UShl (UC 1) (UC 1)))) (UNot (UOr (UOr (UC DV_I_48_2_bit) (UC DV_II_46_2_bit)) (UC DV_II_51_2_bit))))
  (* ubc.go:113 *) (PAnd (UOr (USub (UC 0) (UAnd (UXor (UW 40%nat) (UShr (UW 41%nat) (UC 5))) (UShl (UC 1) (UC 1)))) (UNot (UOr (UOr (UC DV_I_47_2_bit) (UC DV_I_51_2_bit)) (UC DV_II_50_2_bit))))
  (* ubc.go:114 *) (PIf (UNe (UAnd UMask (UOr (UOr (UC DV_I_44_0_bit) (UC DV_I_46_0_bit)) (UC DV_II_56_0_bit))) (UC 0))
    (* ubc.go:115 *) (PAnd (UOr (USub (UC 0) (UAnd (UShr (UXor (UW 40%nat) (UW 42%nat)) (UC 4)) (UC 1))) (UNot (UOr (UOr (UC DV_I_44_0_bit) (UC DV_I_46_0_bit)) (UC DV_II_56_0_bit))))
    PEnd)
  (* ubc.go:117 *) (PAnd (UOr (USub (UC 0) (UAnd (UXor (UW 39%nat) (UShr (UW 40%nat) (UC 5))) (UShl (UC 1) (UC 1)))) (UNot (UOr (UOr (UC DV_I_46_2_bit) (UC DV_I_50_2_bit)) (UC DV_II_49_2_bit))))
  (* ubc.go:118 *) (PIf (UNe (UAnd UMask (UOr (UOr (UC DV_I_43_0_bit) (UC DV_I_45_0_bit)) (UC DV_II_55_0_bit))) (UC 0))
    (* ubc.go:119 *) (PAnd (UOr (USub (UC 0) (UAnd (UShr (UXor (UW 39%nat) (UW 41%nat)) (UC 4)) (UC 1))) (UNot (UOr (UOr (UC DV_I_43_0_bit) (UC DV_I_45_0_bit)) (UC DV_II_55_0_bit))))
    PEnd)
  (* ubc.go:121 *) (PIf (UNe (UAnd UMask (UOr (UOr (UC DV_I_44_0_bit) (UC DV_II_54_0_bit)) (UC DV_II_56_0_bit))) (UC 0))
    (* ubc.go:122 *) (PAnd (UOr (USub (UC 0) (UAnd (UShr (UXor (UW 38%nat) (UW 40%nat)) (UC 4)) (UC 1))) (UNot (UOr (UOr (UC DV_I_44_0_bit) (UC DV_II_54_0_bit)) (UC DV_II_56_0_bit))))
    PEnd)
  (* ubc.go:124 *) (PIf (UNe (UAnd UMask (UOr (UOr (UC DV_I_43_0_bit) (UC DV_II_53_0_bit)) (UC DV_II_55_0_bit))) (UC 0))
    (* ubc.go:125 *) (PAnd (UOr (USub (UC 0) (UAnd (UShr (UXor (UW 37%nat) (UW 39%nat)) (UC 4)) (UC 1))) (UNot (UOr (UOr (UC DV_I_43_0_bit) (UC DV_II_53_0_bit)) (UC DV_II_55_0_bit))))
    PEnd)
  (* ubc.go:127 *) (PAnd (UOr (USub (UC 0) (UAnd (UXor (UW 36%nat) (UShr (UW 37%nat) (UC 5))) (UShl (UC 1) (UC 1)))) (UNot (UOr (UOr (UC DV_I_47_2_bit) (UC DV_I_50_2_bit)) (UC DV_II_46_2_bit))))
  (* ubc.go:128 *) (PIf (UNe (UAnd UMask (UOr (UOr (UC DV_I_45_0_bit) (UC DV_I_48_0_bit)) (UC DV_II_47_0_bit))) (UC 0))
    (* ubc.go:129 *) (PAnd (UOr (USub (UAnd (UXor (UShr (UW 35%nat) (UC 4)) (UShr (UW 39%nat) (UC 29))) (UC 1)) (UC 1)) (UNot (UOr (UOr (UC DV_I_45_0_bit) (UC DV_I_48_0_bit)) (UC DV_II_47_0_bit))))
    PEnd)
  (* ubc.go:131 *) (PIf (UNe (UAnd UMask (UOr (UC DV_I_48_0_bit) (UC DV_II_48_0_bit))) (UC 0))
    (* ubc.go:132 *) (PAnd (UOr (USub (UC 0) (UAnd (UXor (UW 63%nat) (UShr (UW 64%nat) (UC 5))) (UShl (UC 1) (UC 0)))) (UNot (UOr (UC DV_I_48_0_bit) (UC DV_II_48_0_bit))))
    PEnd)
  (* ubc.go:134 *) (PIf (UNe (UAnd UMask (UOr (UC DV_I_45_0_bit) (UC DV_II_45_0_bit))) (UC 0))
    (* ubc.go:135 *) (PAnd (UOr (USub (UC 0) (UAnd (UXor (UW 63%nat) (UShr (UW 64%nat) (UC 5))) (UShl (UC 1) (UC 1)))) (UNot (UOr (UC DV_I_45_0_bit) (UC DV_II_45_0_bit))))
    PEnd)
  (* ubc.go:137 *) (PIf (UNe (UAnd UMask (UOr (UC DV_I_47_0_bit) (UC DV_II_47_0_bit))) (UC 0))
    (* ubc.go:138 *) (PAnd (UOr (USub (UC 0) (UAnd (UXor (UW 62%nat) (UShr (UW 63%nat) (UC 5))) (UShl (UC 1) (UC 0)))) (UNot (UOr (UC DV_I_47_0_bit) (UC DV_II_47_0_bit))))
    PEnd)
  (* ubc.go:140 *) (PIf (UNe (UAnd UMask (UOr (UC DV_I_46_0_bit) (UC DV_II_46_0_bit))) (UC 0))
    (* ubc.go:141 *) (PAnd (UOr (USub (UC 0) (UAnd (UXor (UW 61%nat) (UShr (UW 62%nat) (UC 5))) (UShl (UC 1) (UC 0)))) (UNot (UOr (UC DV_I_46_0_bit) (UC DV_II_46_0_bit))))
    PEnd)
  (* ubc.go:143 *) (PAnd (UOr (USub (UC 0) (UAnd (UXor (UW 61%nat) (UShr (UW 62%nat) (UC 5))) (UShl (UC 1) (UC 2)))) (UNot (UOr (UC DV_I_46_2_bit) (UC DV_II_46_2_bit))))
  (* ubc.go:144 *) (PIf (UNe (UAnd UMask (UOr (UC DV_I_45_0_bit) (UC DV_II_45_0_bit))) (UC 0))
    (* ubc.go:145 *) (PAnd (UOr (USub (UC 0) (UAnd (UXor (UW 60%nat) (UShr (UW 61%nat) (UC 5))) (UShl (UC 1) (UC 0)))) (UNot (UOr (UC DV_I_45_0_bit) (UC DV_II_45_0_bit))))
    PEnd)
  (* ubc.go:147 *) (PIf (UNe (UAnd UMask (UOr (UC DV_II_51_0_bit) (UC DV_II_54_0_bit))) (UC 0))
    (* ubc.go:148 *) (PAnd (UOr (USub (UAnd (UShr (UXor (UW 58%nat) (UW 59%nat)) (UC 29)) (UC 1)) (UC 1)) (UNot (UOr (UC DV_II_51_0_bit) (UC DV_II_54_0_bit))))
    PEnd)
  (* ubc.go:150 *) (PIf (UNe (UAnd UMask (UOr (UC DV_II_50_0_bit) (UC DV_II_53_0_bit))) (UC 0))
    (* ubc.go:151 *) (PAnd (UOr (USub (UAnd (UShr (UXor (UW 57%nat) (UW 58%nat)) (UC 29)) (UC 1)) (UC 1)) (UNot (UOr (UC DV_II_50_0_bit) (UC DV_II_53_0_bit))))
    PEnd)
  (* ubc.go:153 *) (PIf (UNe (UAnd UMask (UOr (UC DV_II_52_0_bit) (UC DV_II_54_0_bit))) (UC 0))
    (* ubc.go:154 *) (PAnd (UOr (USub (UAnd (UXor (UW 56%nat) (UShr (UW 59%nat) (UC 25))) (UShl (UC 1) (UC 4))) (UShl (UC 1) (UC 4))) (UNot (UOr (UC DV_II_52_0_bit) (UC DV_II_54_0_bit))))
    PEnd)
  (* ubc.go:156 *) (PIf (UNe (UAnd UMask (UOr (UC DV_II_51_0_bit) (UC DV_II_52_0_bit))) (UC 0))
    (* ubc.go:157 *) (PAnd (UOr (USub (UC 0) (UAnd (UShr (UXor (UW 56%nat) (UW 59%nat)) (UC 29)) (UC 1))) (UNot (UOr (UC DV_II_51_0_bit) (UC DV_II_52_0_bit))))
    PEnd)
  (* ubc.go:159 *) (PIf (UNe (UAnd UMask (UOr (UC DV_II_49_0_bit) (UC DV_II_52_0_bit))) (UC 0))
    (* ubc.go:160 *) (PAnd (UOr (USub (UAnd (UShr (UXor (UW 56%nat) (UW 57%nat)) (UC 29)) (UC 1)) (UC 1)) (UNot (UOr (UC DV_II_49_0_bit) (UC DV_II_52_0_bit))))
    PEnd)
  (* ubc.go:162 *) (PIf (UNe (UAnd UMask (UOr (UC DV_II_51_0_bit) (UC DV_II_53_0_bit))) (UC 0))
    (* ubc.go:163 *) (PAnd (UOr (USub (UAnd (UXor (UW 55%nat) (UShr (UW 58%nat) (UC 25))) (UShl (UC 1) (UC 4))) (UShl (UC 1) (UC 4))) (UNot (UOr (UC DV_II_51_0_bit) (UC DV_II_53_0_bit))))
    PEnd)
  (* ubc.go:165 *) (PIf (UNe (UAnd UMask (UOr (UC DV_II_50_0_bit) (UC DV_II_52_0_bit))) (UC 0))
    (* ubc.go:166 *) (PAnd (UOr (USub (UAnd (UXor (UW 54%nat) (UShr (UW 57%nat) (UC 25))) (UShl (UC 1) (UC 4))) (UShl (UC 1) (UC 4))) (UNot (UOr (UC DV_II_50_0_bit) (UC DV_II_52_0_bit))))
    PEnd)
  (* ubc.go:168 *) (PIf (UNe (UAnd UMask (UOr (UC DV_II_49_0_bit) (UC DV_II_51_0_bit))) (UC 0))
    (* ubc.go:169 *) (PAnd (UOr (USub (UAnd (UXor (UW 53%nat) (UShr (UW 56%nat) (UC 25))) (UShl (UC 1) (UC 4))) (UShl (UC 1) (UC 4))) (UNot (UOr (UC DV_II_49_0_bit) (UC DV_II_51_0_bit))))
    PEnd)
  (* ubc.go:171 *) (PAnd (UOr (USub (UAnd (UXor (UW 51%nat) (UShr (UW 50%nat) (UC 5))) (UShl (UC 1) (UC 1))) (UShl (UC 1) (UC 1))) (UNot (UOr (UC DV_I_50_2_bit) (UC DV_II_46_2_bit))))
  (* ubc.go:172 *) (PAnd (UOr (USub (UAnd (UXor (UW 48%nat) (UW 50%nat)) (UShl (UC 1) (UC 6))) (UShl (UC 1) (UC 6))) (UNot (UOr (UC DV_I_50_2_bit) (UC DV_II_46_2_bit))))
  (* ubc.go:173 *) (PIf (UNe (UAnd UMask (UOr (UC DV_I_51_0_bit) (UC DV_I_52_0_bit))) (UC 0))
    (* ubc.go:174 *) (PAnd (UOr (USub (UC 0) (UAnd (UShr (UXor (UW 48%nat) (UW 55%nat)) (UC 29)) (UC 1))) (UNot (UOr (UC DV_I_51_0_bit) (UC DV_I_52_0_bit))))
    PEnd)
  (* ubc.go:176 *) (PAnd (UOr (USub (UAnd (UXor (UW 47%nat) (UW 49%nat)) (UShl (UC 1) (UC 6))) (UShl (UC 1) (UC 6))) (UNot (UOr (UC DV_I_49_2_bit) (UC DV_I_51_2_bit))))
  (* ubc.go:177 *) (PAnd (UOr (USub (UAnd (UXor (UW 48%nat) (UShr (UW 47%nat) (UC 5))) (UShl (UC 1) (UC 1))) (UShl (UC 1) (UC 1))) (UNot (UOr (UC DV_I_47_2_bit) (UC DV_II_51_2_bit))))
  (* ubc.go:178 *) (PAnd (UOr (USub (UAnd (UXor (UW 46%nat) (UW 48%nat)) (UShl (UC 1) (UC 6))) (UShl (UC 1) (UC 6))) (UNot (UOr (UC DV_I_48_2_bit) (UC DV_I_50_2_bit))))
  (* ubc.go:179 *) (PAnd (UOr (USub (UAnd (UXor (UW 47%nat) (UShr (UW 46%nat) (UC 5))) (UShl (UC 1) (UC 1))) (UShl (UC 1) (UC 1))) (UNot (UOr (UC DV_I_46_2_bit) (UC DV_II_50_2_bit))))
  (* ubc.go:180 *) (PAnd (UOr (USub (UC 0) (UAnd (UXor (UW 44%nat) (UShr (UW 45%nat) (UC 5))) (UShl (UC 1) (UC 1)))) (UNot (UOr (UC DV_I_51_2_bit) (UC DV_II_49_2_bit))))
  (* ubc.go:181 *) (PAnd (UOr (USub (UAnd (UXor (UW 43%nat) (UW 45%nat)) (UShl (UC 1) (UC 6))) (UShl (UC 1) (UC 6))) (UNot (UOr (UC DV_I_47_2_bit) (UC DV_I_49_2_bit))))
  (* ubc.go:182 *) (PAnd (UOr (USub (UAnd (UShr (UXor (UW 42%nat) (UW 44%nat)) (UC 6)) (UC 1)) (UC 1)) (UNot (UOr (UC DV_I_46_2_bit) (UC DV_I_48_2_bit))))
  (* ubc.go:183 *) (PAnd (UOr (USub (UAnd (UXor (UW 43%nat) (UShr (UW 42%nat) (UC 5))) (UShl (UC 1) (UC 1))) (UShl (UC 1) (UC 1))) (UNot (UOr (UC DV_II_46_2_bit) (UC DV_II_51_2_bit))))
  (* ubc.go:184 *) (PAnd (UOr (USub (UAnd (UXor (UW 42%nat) (UShr (UW 41%nat) (UC 5))) (UShl (UC 1) (UC 1))) (UShl (UC 1) (UC 1))) (UNot (UOr (UC DV_I_51_2_bit) (UC DV_II_50_2_bit))))
  (* ubc.go:185 *) (PAnd (UOr (USub (UAnd (UXor (UW 41%nat) (UShr (UW 40%nat) (UC 5))) (UShl (UC 1) (UC 1))) (UShl (UC 1) (UC 1))) (UNot (UOr (UC DV_I_50_2_bit) (UC DV_II_49_2_bit))))
  (* ubc.go:186 *) (PIf (UNe (UAnd UMask (UOr (UC DV_I_52_0_bit) (UC DV_II_51_0_bit))) (UC 0))
    (* ubc.go:187 *) (PAnd (UOr (USub (UAnd (UXor (UW 39%nat) (UShr (UW 43%nat) (UC 25))) (UShl (UC 1) (UC 4))) (UShl (UC 1) (UC 4))) (UNot (UOr (UC DV_I_52_0_bit) (UC DV_II_51_0_bit))))
    PEnd)
  (* ubc.go:189 *) (PIf (UNe (UAnd UMask (UOr (UC DV_I_51_0_bit) (UC DV_II_50_0_bit))) (UC 0))
    (* ubc.go:190 *) (PAnd (UOr (USub (UAnd (UXor (UW 38%nat) (UShr (UW 42%nat) (UC 25))) (UShl (UC 1) (UC 4))) (UShl (UC 1) (UC 4))) (UNot (UOr (UC DV_I_51_0_bit) (UC DV_II_50_0_bit))))
    PEnd)
  (* ubc.go:192 *) (PIf (UNe (UAnd UMask (UOr (UC DV_I_48_2_bit) (UC DV_I_51_2_bit))) (UC 0))
    (* ubc.go:193 *) (PAnd (UOr (USub (UC 0) (UAnd (UXor (UW 37%nat) (UShr (UW 38%nat) (UC 5))) (UShl (UC 1) (UC 1)))) (UNot (UOr (UC DV_I_48_2_bit) (UC DV_I_51_2_bit))))
    PEnd)
  (* ubc.go:195 *) (PIf (UNe (UAnd UMask (UOr (UC DV_I_50_0_bit) (UC DV_II_49_0_bit))) (UC 0))
    (* ubc.go:196 *) (PAnd (UOr (USub (UAnd (UXor (UW 37%nat) (UShr (UW 41%nat) (UC 25))) (UShl (UC 1) (UC 4))) (UShl (UC 1) (UC 4))) (UNot (UOr (UC DV_I_50_0_bit) (UC DV_II_49_0_bit))))
    PEnd)
  (* ubc.go:198 *) (PIf (UNe (UAnd UMask (UOr (UC DV_II_52_0_bit) (UC DV_II_54_0_bit))) (UC 0))
    (* ubc.go:199 *) (PAnd (UOr (USub (UC 0) (UAnd (UXor (UW 36%nat) (UW 38%nat)) (UShl (UC 1) (UC 4)))) (UNot (UOr (UC DV_II_52_0_bit) (UC DV_II_54_0_bit))))
    PEnd)
  (* ubc.go:201 *) (PAnd (UOr (USub (UC 0) (UAnd (UXor (UW 35%nat) (UShr (UW 36%nat) (UC 5))) (UShl (UC 1) (UC 1)))) (UNot (UOr (UC DV_I_46_2_bit) (UC DV_I_49_2_bit))))
  (* ubc.go:202 *) (PIf (UNe (UAnd UMask (UOr (UC DV_I_51_0_bit) (UC DV_II_47_0_bit))) (UC 0))
    (* ubc.go:203 *) (PAnd (UOr (USub (UAnd (UXor (UW 35%nat) (UShr (UW 39%nat) (UC 25))) (UShl (UC 1) (UC 3))) (UShl (UC 1) (UC 3))) (UNot (UOr (UC DV_I_51_0_bit) (UC DV_II_47_0_bit))))
    PEnd)
  (* ubc.go:206 *) (PIf (UNe UMask (UC 0))
    (* ubc.go:207 *) (PIf (UNe (UAnd UMask (UC DV_I_43_0_bit)) (UC 0))
      (* ubc.go:208 *) (PIf (ULor (ULor (UNe (ULNot (UAnd (UXor (UW 61%nat) (UShr (UW 62%nat) (UC 5))) (UShl (UC 1) (UC 1)))) (UC 0)) (UNe (ULNot (ULNot (UAnd (UXor (UW 59%nat) (UShr (UW 63%nat) (UC 25))) (UShl (UC 1) (UC 5))))) (UC 0))) (UNe (ULNot (UAnd (UXor (UW 58%nat) (UShr (UW 63%nat) (UC 30))) (UShl (UC 1) (UC 0)))) (UC 0)))
        (* ubc.go:211 *) (PAnd (UNot (UC DV_I_43_0_bit))
        PEnd)
      PEnd)
    (* ubc.go:214 *) (PIf (UNe (UAnd UMask (UC DV_I_44_0_bit)) (UC 0))
      (* ubc.go:215 *) (PIf (ULor (ULor (UNe (ULNot (UAnd (UXor (UW 62%nat) (UShr (UW 63%nat) (UC 5))) (UShl (UC 1) (UC 1)))) (UC 0)) (UNe (ULNot (ULNot (UAnd (UXor (UW 60%nat) (UShr (UW 64%nat) (UC 25))) (UShl (UC 1) (UC 5))))) (UC 0))) (UNe (ULNot (UAnd (UXor (UW 59%nat) (UShr (UW 64%nat) (UC 30))) (UShl (UC 1) (UC 0)))) (UC 0)))
        (* ubc.go:218 *) (PAnd (UNot (UC DV_I_44_0_bit))
        PEnd)
      PEnd)
    (* ubc.go:221 *) (PIf (UNe (UAnd UMask (UC DV_I_46_2_bit)) (UC 0))
      (* ubc.go:222 *) (PAnd (UOr (UNot (UShr (UXor (UW 40%nat) (UW 42%nat)) (UC 2))) (UNot (UC DV_I_46_2_bit)))
      PEnd)
    (* ubc.go:224 *) (PIf (UNe (UAnd UMask (UC DV_I_47_2_bit)) (UC 0))
      (* ubc.go:225 *) (PIf (ULor (UNe (ULNot (UAnd (UXor (UW 62%nat) (UShr (UW 63%nat) (UC 5))) (UShl (UC 1) (UC 2)))) (UC 0)) (UNe (ULNot (ULNot (UAnd (UXor (UW 41%nat) (UW 43%nat)) (UShl (UC 1) (UC 6))))) (UC 0)))
        (* ubc.go:227 *) (PAnd (UNot (UC DV_I_47_2_bit))
        PEnd)
      PEnd)
    (* ubc.go:230 *) (PIf (UNe (UAnd UMask (UC DV_I_48_2_bit)) (UC 0))
      (* ubc.go:231 *) (PIf (ULor (UNe (ULNot (UAnd (UXor (UW 63%nat) (UShr (UW 64%nat) (UC 5))) (UShl (UC 1) (UC 2)))) (UC 0)) (UNe (ULNot (ULNot (UAnd (UXor (UW 48%nat) (UShl (UW 49%nat) (UC 5))) (UShl (UC 1) (UC 6))))) (UC 0)))
        (* ubc.go:233 *) (PAnd (UNot (UC DV_I_48_2_bit))
        PEnd)
      PEnd)
    (* ubc.go:236 *) (PIf (UNe (UAnd UMask (UC DV_I_49_2_bit)) (UC 0))
      (* ubc.go:237 *) (PIf (ULor (ULor (ULor (UNe (ULNot (ULNot (UAnd (UXor (UW 49%nat) (UShl (UW 50%nat) (UC 5))) (UShl (UC 1) (UC 6))))) (UC 0)) (UNe (ULNot (UAnd (UXor (UW 42%nat) (UW 50%nat)) (UShl (UC 1) (UC 1)))) (UC 0))) (UNe (ULNot (ULNot (UAnd (UXor (UW 39%nat) (UShl (UW 40%nat) (UC 5))) (UShl (UC 1) (UC 6))))) (UC 0))) (UNe (ULNot (UAnd (UXor (UW 38%nat) (UW 40%nat)) (UShl (UC 1) (UC 1)))) (UC 0)))
        (* ubc.go:241 *) (PAnd (UNot (UC DV_I_49_2_bit))
        PEnd)
      PEnd)
    (* ubc.go:244 *) (PIf (UNe (UAnd UMask (UC DV_I_50_0_bit)) (UC 0))
      (* ubc.go:245 *) (PAnd (UOr (UShl (UXor (UW 36%nat) (UW 37%nat)) (UC 7)) (UNot (UC DV_I_50_0_bit)))
      PEnd)
    (* ubc.go:247 *) (PIf (UNe (UAnd UMask (UC DV_I_50_2_bit)) (UC 0))
      (* ubc.go:248 *) (PAnd (UOr (UShl (UXor (UW 43%nat) (UW 51%nat)) (UC 11)) (UNot (UC DV_I_50_2_bit)))
      PEnd)
    (* ubc.go:250 *) (PIf (UNe (UAnd UMask (UC DV_I_51_0_bit)) (UC 0))
      (* ubc.go:251 *) (PAnd (UOr (UShl (UXor (UW 37%nat) (UW 38%nat)) (UC 9)) (UNot (UC DV_I_51_0_bit)))
      PEnd)
    (* ubc.go:253 *) (PIf (UNe (UAnd UMask (UC DV_I_51_2_bit)) (UC 0))
      (* ubc.go:254 *) (PIf (ULor (ULor (ULor (UNe (ULNot (ULNot (UAnd (UXor (UW 51%nat) (UShl (UW 52%nat) (UC 5))) (UShl (UC 1) (UC 6))))) (UC 0)) (UNe (ULNot (ULNot (UAnd (UXor (UW 49%nat) (UW 51%nat)) (UShl (UC 1) (UC 6))))) (UC 0))) (UNe (ULNot (ULNot (UAnd (UXor (UW 37%nat) (UShr (UW 37%nat) (UC 5))) (UShl (UC 1) (UC 1))))) (UC 0))) (UNe (ULNot (ULNot (UAnd (UXor (UW 35%nat) (UShr (UW 39%nat) (UC 25))) (UShl (UC 1) (UC 5))))) (UC 0)))
        (* ubc.go:258 *) (PAnd (UNot (UC DV_I_51_2_bit))
        PEnd)
      PEnd)
    (* ubc.go:261 *) (PIf (UNe (UAnd UMask (UC DV_I_52_0_bit)) (UC 0))
      (* ubc.go:262 *) (PAnd (UOr (UShl (UXor (UW 38%nat) (UW 39%nat)) (UC 11)) (UNot (UC DV_I_52_0_bit)))
      PEnd)
    (* ubc.go:264 *) (PIf (UNe (UAnd UMask (UC DV_II_46_2_bit)) (UC 0))
      (* ubc.go:265 *) (PAnd (UOr (UShl (UXor (UW 47%nat) (UW 51%nat)) (UC 17)) (UNot (UC DV_II_46_2_bit)))
      PEnd)
    (* ubc.go:267 *) (PIf (UNe (UAnd UMask (UC DV_II_48_0_bit)) (UC 0))
      (* ubc.go:268 *) (PIf (ULor (UNe (ULNot (ULNot (UAnd (UXor (UW 36%nat) (UShr (UW 40%nat) (UC 25))) (UShl (UC 1) (UC 3))))) (UC 0)) (UNe (ULNot (UAnd (UXor (UW 35%nat) (UShl (UW 40%nat) (UC 2))) (UShl (UC 1) (UC 30)))) (UC 0)))
        (* ubc.go:270 *) (PAnd (UNot (UC DV_II_48_0_bit))
        PEnd)
      PEnd)
    (* ubc.go:273 *) (PIf (UNe (UAnd UMask (UC DV_II_49_0_bit)) (UC 0))
      (* ubc.go:274 *) (PIf (ULor (UNe (ULNot (ULNot (UAnd (UXor (UW 37%nat) (UShr (UW 41%nat) (UC 25))) (UShl (UC 1) (UC 3))))) (UC 0)) (UNe (ULNot (UAnd (UXor (UW 36%nat) (UShl (UW 41%nat) (UC 2))) (UShl (UC 1) (UC 30)))) (UC 0)))
        (* ubc.go:276 *) (PAnd (UNot (UC DV_II_49_0_bit))
        PEnd)
      PEnd)
    (* ubc.go:279 *) (PIf (UNe (UAnd UMask (UC DV_II_49_2_bit)) (UC 0))
      (* ubc.go:280 *) (PIf (ULor (ULor (ULor (ULor (ULor (UNe (ULNot (ULNot (UAnd (UXor (UW 53%nat) (UShl (UW 54%nat) (UC 5))) (UShl (UC 1) (UC 6))))) (UC 0)) (UNe (ULNot (ULNot (UAnd (UXor (UW 51%nat) (UW 53%nat)) (UShl (UC 1) (UC 6))))) (UC 0))) (UNe (ULNot (UAnd (UXor (UW 50%nat) (UW 54%nat)) (UShl (UC 1) (UC 1)))) (UC 0))) (UNe (ULNot (ULNot (UAnd (UXor (UW 45%nat) (UShl (UW 46%nat) (UC 5))) (UShl (UC 1) (UC 6))))) (UC 0))) (UNe (ULNot (ULNot (UAnd (UXor (UW 37%nat) (UShr (UW 41%nat) (UC 25))) (UShl (UC 1) (UC 5))))) (UC 0))) (UNe (ULNot (UAnd (UXor (UW 36%nat) (UShr (UW 41%nat) (UC 30))) (UShl (UC 1) (UC 0)))) (UC 0)))
        (* ubc.go:286 *) (PAnd (UNot (UC DV_II_49_2_bit))
        PEnd)
      PEnd)
    (* ubc.go:289 *) (PIf (UNe (UAnd UMask (UC DV_II_50_0_bit)) (UC 0))
      (* ubc.go:290 *) (PIf (ULor (ULor (UNe (ULNot (UAnd (UXor (UW 55%nat) (UW 58%nat)) (UShl (UC 1) (UC 29)))) (UC 0)) (UNe (ULNot (ULNot (UAnd (UXor (UW 38%nat) (UShr (UW 42%nat) (UC 25))) (UShl (UC 1) (UC 3))))) (UC 0))) (UNe (ULNot (UAnd (UXor (UW 37%nat) (UShl (UW 42%nat) (UC 2))) (UShl (UC 1) (UC 30)))) (UC 0)))
        (* ubc.go:293 *) (PAnd (UNot (UC DV_II_50_0_bit))
        PEnd)
      PEnd)
    (* ubc.go:296 *) (PIf (UNe (UAnd UMask (UC DV_II_50_2_bit)) (UC 0))
      (* ubc.go:297 *) (PIf (ULor (ULor (ULor (ULor (ULor (UNe (ULNot (ULNot (UAnd (UXor (UW 54%nat) (UShl (UW 55%nat) (UC 5))) (UShl (UC 1) (UC 6))))) (UC 0)) (UNe (ULNot (ULNot (UAnd (UXor (UW 52%nat) (UW 54%nat)) (UShl (UC 1) (UC 6))))) (UC 0))) (UNe (ULNot (UAnd (UXor (UW 51%nat) (UW 55%nat)) (UShl (UC 1) (UC 1)))) (UC 0))) (UNe (ULNot (UAnd (UXor (UW 45%nat) (UW 47%nat)) (UShl (UC 1) (UC 1)))) (UC 0))) (UNe (ULNot (ULNot (UAnd (UXor (UW 38%nat) (UShr (UW 42%nat) (UC 25))) (UShl (UC 1) (UC 5))))) (UC 0))) (UNe (ULNot (UAnd (UXor (UW 37%nat) (UShr (UW 42%nat) (UC 30))) (UShl (UC 1) (UC 0)))) (UC 0)))
        (* ubc.go:303 *) (PAnd (UNot (UC DV_II_50_2_bit))
        PEnd)
      PEnd)
    (* ubc.go:306 *) (PIf (UNe (UAnd UMask (UC DV_II_51_0_bit)) (UC 0))
      (* ubc.go:307 *) (PIf (ULor (UNe (ULNot (ULNot (UAnd (UXor (UW 39%nat) (UShr (UW 43%nat) (UC 25))) (UShl (UC 1) (UC 3))))) (UC 0)) (UNe (ULNot (UAnd (UXor (UW 38%nat) (UShl (UW 43%nat) (UC 2))) (UShl (UC 1) (UC 30)))) (UC 0)))
        (* ubc.go:309 *) (PAnd (UNot (UC DV_II_51_0_bit))
        PEnd)
      PEnd)
    (* ubc.go:312 *) (PIf (UNe (UAnd UMask (UC DV_II_51_2_bit)) (UC 0))
      (* ubc.go:313 *) (PIf (ULor (ULor (ULor (ULor (ULor (UNe (ULNot (ULNot (UAnd (UXor (UW 55%nat) (UShl (UW 56%nat) (UC 5))) (UShl (UC 1) (UC 6))))) (UC 0)) (UNe (ULNot (ULNot (UAnd (UXor (UW 53%nat) (UW 55%nat)) (UShl (UC 1) (UC 6))))) (UC 0))) (UNe (ULNot (UAnd (UXor (UW 52%nat) (UW 56%nat)) (UShl (UC 1) (UC 1)))) (UC 0))) (UNe (ULNot (UAnd (UXor (UW 46%nat) (UW 48%nat)) (UShl (UC 1) (UC 1)))) (UC 0))) (UNe (ULNot (ULNot (UAnd (UXor (UW 39%nat) (UShr (UW 43%nat) (UC 25))) (UShl (UC 1) (UC 5))))) (UC 0))) (UNe (ULNot (UAnd (UXor (UW 38%nat) (UShr (UW 43%nat) (UC 30))) (UShl (UC 1) (UC 0)))) (UC 0)))
        (* ubc.go:319 *) (PAnd (UNot (UC DV_II_51_2_bit))
        PEnd)
      PEnd)
    (* ubc.go:322 *) (PIf (UNe (UAnd UMask (UC DV_II_52_0_bit)) (UC 0))
      (* ubc.go:323 *) (PIf (ULor (ULor (ULor (UNe (ULNot (ULNot (UAnd (UXor (UW 59%nat) (UW 60%nat)) (UShl (UC 1) (UC 29))))) (UC 0)) (UNe (ULNot (ULNot (UAnd (UXor (UW 40%nat) (UShr (UW 44%nat) (UC 25))) (UShl (UC 1) (UC 3))))) (UC 0))) (UNe (ULNot (ULNot (UAnd (UXor (UW 40%nat) (UShr (UW 44%nat) (UC 25))) (UShl (UC 1) (UC 4))))) (UC 0))) (UNe (ULNot (UAnd (UXor (UW 39%nat) (UShl (UW 44%nat) (UC 2))) (UShl (UC 1) (UC 30)))) (UC 0)))
        (* ubc.go:327 *) (PAnd (UNot (UC DV_II_52_0_bit))
        PEnd)
      PEnd)
    (* ubc.go:330 *) (PIf (UNe (UAnd UMask (UC DV_II_53_0_bit)) (UC 0))
      (* ubc.go:331 *) (PIf (ULor (ULor (ULor (UNe (ULNot (UAnd (UXor (UW 58%nat) (UW 61%nat)) (UShl (UC 1) (UC 29)))) (UC 0)) (UNe (ULNot (ULNot (UAnd (UXor (UW 57%nat) (UShr (UW 61%nat) (UC 25))) (UShl (UC 1) (UC 4))))) (UC 0))) (UNe (ULNot (ULNot (UAnd (UXor (UW 41%nat) (UShr (UW 45%nat) (UC 25))) (UShl (UC 1) (UC 3))))) (UC 0))) (UNe (ULNot (ULNot (UAnd (UXor (UW 41%nat) (UShr (UW 45%nat) (UC 25))) (UShl (UC 1) (UC 4))))) (UC 0)))
        (* ubc.go:335 *) (PAnd (UNot (UC DV_II_53_0_bit))
        PEnd)
      PEnd)
    (* ubc.go:338 *) (PIf (UNe (UAnd UMask (UC DV_II_54_0_bit)) (UC 0))
      (* ubc.go:339 *) (PIf (ULor (ULor (UNe (ULNot (ULNot (UAnd (UXor (UW 58%nat) (UShr (UW 62%nat) (UC 25))) (UShl (UC 1) (UC 4))))) (UC 0)) (UNe (ULNot (ULNot (UAnd (UXor (UW 42%nat) (UShr (UW 46%nat) (UC 25))) (UShl (UC 1) (UC 3))))) (UC 0))) (UNe (ULNot (ULNot (UAnd (UXor (UW 42%nat) (UShr (UW 46%nat) (UC 25))) (UShl (UC 1) (UC 4))))) (UC 0)))
        (* ubc.go:342 *) (PAnd (UNot (UC DV_II_54_0_bit))
        PEnd)
      PEnd)
    (* ubc.go:345 *) (PIf (UNe (UAnd UMask (UC DV_II_55_0_bit)) (UC 0))
      (* ubc.go:346 *) (PIf (ULor (ULor (ULor (UNe (ULNot (ULNot (UAnd (UXor (UW 59%nat) (UShr (UW 63%nat) (UC 25))) (UShl (UC 1) (UC 4))))) (UC 0)) (UNe (ULNot (ULNot (UAnd (UXor (UW 57%nat) (UShr (UW 59%nat) (UC 25))) (UShl (UC 1) (UC 4))))) (UC 0))) (UNe (ULNot (ULNot (UAnd (UXor (UW 43%nat) (UShr (UW 47%nat) (UC 25))) (UShl (UC 1) (UC 3))))) (UC 0))) (UNe (ULNot (ULNot (UAnd (UXor (UW 43%nat) (UShr (UW 47%nat) (UC 25))) (UShl (UC 1) (UC 4))))) (UC 0)))
        (* ubc.go:350 *) (PAnd (UNot (UC DV_II_55_0_bit))
        PEnd)
      PEnd)
    (* ubc.go:353 *) (PIf (UNe (UAnd UMask (UC DV_II_56_0_bit)) (UC 0))
      (* ubc.go:354 *) (PIf (ULor (ULor (UNe (ULNot (ULNot (UAnd (UXor (UW 60%nat) (UShr (UW 64%nat) (UC 25))) (UShl (UC 1) (UC 4))))) (UC 0)) (UNe (ULNot (ULNot (UAnd (UXor (UW 44%nat) (UShr (UW 48%nat) (UC 25))) (UShl (UC 1) (UC 3))))) (UC 0))) (UNe (ULNot (ULNot (UAnd (UXor (UW 44%nat) (UShr (UW 48%nat) (UC 25))) (UShl (UC 1) (UC 4))))) (UC 0)))
        (* ubc.go:357 *) (PAnd (UNot (UC DV_II_56_0_bit))
        PEnd)
      PEnd)
    PEnd))))))))))))))))))))))))
  PEnd)))))))))))))))))))))))))))))))))))))))))))))))))))))))))))))))))))))))))))))))))))))))).
