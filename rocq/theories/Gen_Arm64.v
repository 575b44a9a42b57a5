(** Generated by tools/gen_arm64.py from the text of /repo/sha1cdblock_arm64.s; do not edit. *)
From Coq Require Import NArith String List Strings.Byte.
From Verif Require Import Model_Asm Model_Arm64.
Import ListNotations.

(** /repo/sha1cdblock_arm64.s lines 31-243: blockARM64, macros HASHUPDATE* (lines 15-28) expanded, labels replaced by
    instruction indices (loop = 11, end = 170).  The number in the comment is the source line. *)
Definition arm64_prog : list ainstr := [
  (* 32 *) MOVD_arg 0 0;
  (* 33 *) MOVD_arg 24 1;
  (* 34 *) MOVD_arg 32 2;
  (* 35 *) MOVD_arg 48 3;
  (* 36 *) MOVD_arg 72 4;
  (* 38 *) LSR 6 2 2;
  (* 39 *) LSL 6 2 2;
  (* 40 *) ADD 16 2 21;
  (* 42 *) VLD1P 0 0;
  (* 43 *) FMOVS_load 0 20;
  (* 44 *) SUB_imm 16 0 0;
  (* 47 *) CMP 16 21;
  (* 48 *) BLS 170;
  (* 51 *) VLD1P 1 4;
  (* 52 *) VLD1P 1 5;
  (* 53 *) VLD1P 1 6;
  (* 54 *) VLD1P 1 7;
  (* 57 *) MOVD_ks 22;
  (* 58 *) VLD1 22 19;
  (* 60 *) VMOV 0 2;
  (* 61 *) VMOV_lane 20 0 1;
  (* 62 *) VMOV 2 3;
  (* 63 *) VDUP 19 0 17;
  (* 66 *) VREV32 4 4;
  (* 67 *) VREV32 5 5;
  (* 68 *) VREV32 6 6;
  (* 69 *) VREV32 7 7;
  (* 72 *) VST1P 4 3;
  (* 73 *) VST1P 5 3;
  (* 74 *) VST1P 6 3;
  (* 75 *) VST1P 7 3;
  (* 78 *) VST1P 0 4;
  (* 79 *) VST1P_lane 1 0 4;
  (* 82 *) VDUP 19 1 18;
  (* 83 *) VADD 17 4 16;
  (* 84 *) SHA1SU0 6 5 4;
  (* 85 *) SHA1C 16 1 2;
  (* 85 *) SHA1H 3 1;
  (* 85 *) VMOV 2 3;
  (* 86 *) SHA1SU1 7 4;
  (* 89 *) VADD 17 5 16;
  (* 90 *) SHA1SU0 7 6 5;
  (* 91 *) SHA1C 16 1 2;
  (* 91 *) SHA1H 3 1;
  (* 91 *) VMOV 2 3;
  (* 92 *) SHA1SU1 4 5;
  (* 94 *) VST1P 4 3;
  (* 97 *) VADD 17 6 16;
  (* 98 *) SHA1SU0 4 7 6;
  (* 99 *) SHA1C 16 1 2;
  (* 99 *) SHA1H 3 1;
  (* 99 *) VMOV 2 3;
  (* 100 *) SHA1SU1 5 6;
  (* 102 *) VST1P 5 3;
  (* 105 *) VADD 17 7 16;
  (* 106 *) SHA1SU0 5 4 7;
  (* 107 *) SHA1C 16 1 2;
  (* 107 *) SHA1H 3 1;
  (* 107 *) VMOV 2 3;
  (* 108 *) SHA1SU1 6 7;
  (* 110 *) VST1P 6 3;
  (* 113 *) VADD 17 4 16;
  (* 114 *) SHA1SU0 6 5 4;
  (* 115 *) SHA1C 16 1 2;
  (* 115 *) SHA1H 3 1;
  (* 115 *) VMOV 2 3;
  (* 116 *) SHA1SU1 7 4;
  (* 118 *) VST1P 7 3;
  (* 121 *) VDUP 19 2 17;
  (* 122 *) VADD 18 5 16;
  (* 123 *) SHA1SU0 7 6 5;
  (* 124 *) SHA1P 16 1 2;
  (* 124 *) SHA1H 3 1;
  (* 124 *) VMOV 2 3;
  (* 125 *) SHA1SU1 4 5;
  (* 127 *) VST1P 4 3;
  (* 130 *) VADD 18 6 16;
  (* 131 *) SHA1SU0 4 7 6;
  (* 132 *) SHA1P 16 1 2;
  (* 132 *) SHA1H 3 1;
  (* 132 *) VMOV 2 3;
  (* 133 *) SHA1SU1 5 6;
  (* 135 *) VST1P 5 3;
  (* 138 *) VADD 18 7 16;
  (* 139 *) SHA1SU0 5 4 7;
  (* 140 *) SHA1P 16 1 2;
  (* 140 *) SHA1H 3 1;
  (* 140 *) VMOV 2 3;
  (* 141 *) SHA1SU1 6 7;
  (* 143 *) VST1P 6 3;
  (* 146 *) VADD 18 4 16;
  (* 147 *) SHA1SU0 6 5 4;
  (* 148 *) SHA1P 16 1 2;
  (* 148 *) SHA1H 3 1;
  (* 148 *) VMOV 2 3;
  (* 149 *) SHA1SU1 7 4;
  (* 151 *) VST1P 7 3;
  (* 154 *) VADD 18 5 16;
  (* 155 *) SHA1SU0 7 6 5;
  (* 156 *) SHA1P 16 1 2;
  (* 156 *) SHA1H 3 1;
  (* 156 *) VMOV 2 3;
  (* 157 *) SHA1SU1 4 5;
  (* 159 *) VST1P 4 3;
  (* 162 *) VDUP 19 3 18;
  (* 163 *) VADD 17 6 16;
  (* 164 *) SHA1SU0 4 7 6;
  (* 165 *) SHA1M 16 1 2;
  (* 165 *) SHA1H 3 1;
  (* 165 *) VMOV 2 3;
  (* 166 *) SHA1SU1 5 6;
  (* 168 *) VST1P 5 3;
  (* 171 *) VADD 17 7 16;
  (* 172 *) SHA1SU0 5 4 7;
  (* 173 *) SHA1M 16 1 2;
  (* 173 *) SHA1H 3 1;
  (* 173 *) VMOV 2 3;
  (* 174 *) SHA1SU1 6 7;
  (* 176 *) VST1P 6 3;
  (* 179 *) VADD 17 4 16;
  (* 180 *) SHA1SU0 6 5 4;
  (* 181 *) SHA1M 16 1 2;
  (* 181 *) SHA1H 3 1;
  (* 181 *) VMOV 2 3;
  (* 182 *) SHA1SU1 7 4;
  (* 184 *) VST1P 7 3;
  (* 187 *) VADD 17 5 16;
  (* 188 *) SHA1SU0 7 6 5;
  (* 189 *) SHA1M 16 1 2;
  (* 189 *) SHA1H 3 1;
  (* 189 *) VMOV 2 3;
  (* 190 *) SHA1SU1 4 5;
  (* 193 *) VST1P 3 4;
  (* 194 *) VST1P_lane 1 0 4;
  (* 197 *) VADD 17 6 16;
  (* 198 *) SHA1SU0 4 7 6;
  (* 199 *) SHA1M 16 1 2;
  (* 199 *) SHA1H 3 1;
  (* 199 *) VMOV 2 3;
  (* 200 *) SHA1SU1 5 6;
  (* 203 *) VADD 18 7 16;
  (* 204 *) SHA1SU0 5 4 7;
  (* 205 *) SHA1P 16 1 2;
  (* 205 *) SHA1H 3 1;
  (* 205 *) VMOV 2 3;
  (* 206 *) SHA1SU1 6 7;
  (* 209 *) VST1P 3 4;
  (* 210 *) VST1P_lane 1 0 4;
  (* 213 *) VADD 18 4 16;
  (* 214 *) SHA1P 16 1 2;
  (* 214 *) SHA1H 3 1;
  (* 214 *) VMOV 2 3;
  (* 217 *) VST1P 4 3;
  (* 218 *) VST1P 5 3;
  (* 219 *) VST1P 6 3;
  (* 220 *) VST1P 7 3;
  (* 223 *) VADD 18 5 16;
  (* 224 *) SHA1P 16 1 2;
  (* 224 *) SHA1H 3 1;
  (* 224 *) VMOV 2 3;
  (* 227 *) VADD 18 6 16;
  (* 228 *) SHA1P 16 1 2;
  (* 228 *) SHA1H 3 1;
  (* 228 *) VMOV 2 3;
  (* 231 *) VADD 18 7 16;
  (* 232 *) SHA1P 16 1 2;
  (* 232 *) SHA1H 3 1;
  (* 232 *) VMOV 2 3;
  (* 235 *) VADD 2 0 0;
  (* 236 *) VADD 1 20 20;
  (* 240 *) VST1P 0 0;
  (* 241 *) FMOVS_store 20 0;
  (* 243 *) ARET
].

(** /repo/sha1cdblock_arm64.s lines 245-249: DATA sha1Ks. *)
Definition sha1Ks : list byte := le32 0x5A827999 ++ le32 0x6ED9EBA1 ++ le32 0x8F1BBCDC ++ le32 0xCA62C1D6.

(** The mnemonics of the same instructions. *)
Definition arm64_mnem : list string := [
  "MOVD"; "MOVD"; "MOVD"; "MOVD"; "MOVD"; "LSR"; "LSL"; "ADD"; "VLD1.P"; "FMOVS";
  "SUB"; "CMP"; "BLS"; "VLD1.P"; "VLD1.P"; "VLD1.P"; "VLD1.P"; "MOVD"; "VLD1"; "VMOV";
  "VMOV"; "VMOV"; "VDUP"; "VREV32"; "VREV32"; "VREV32"; "VREV32"; "VST1.P"; "VST1.P"; "VST1.P";
  "VST1.P"; "VST1.P"; "VST1.P"; "VDUP"; "VADD"; "SHA1SU0"; "SHA1C"; "SHA1H"; "VMOV"; "SHA1SU1";
  "VADD"; "SHA1SU0"; "SHA1C"; "SHA1H"; "VMOV"; "SHA1SU1"; "VST1.P"; "VADD"; "SHA1SU0"; "SHA1C";
  "SHA1H"; "VMOV"; "SHA1SU1"; "VST1.P"; "VADD"; "SHA1SU0"; "SHA1C"; "SHA1H"; "VMOV"; "SHA1SU1";
  "VST1.P"; "VADD"; "SHA1SU0"; "SHA1C"; "SHA1H"; "VMOV"; "SHA1SU1"; "VST1.P"; "VDUP"; "VADD";
  "SHA1SU0"; "SHA1P"; "SHA1H"; "VMOV"; "SHA1SU1"; "VST1.P"; "VADD"; "SHA1SU0"; "SHA1P"; "SHA1H";
  "VMOV"; "SHA1SU1"; "VST1.P"; "VADD"; "SHA1SU0"; "SHA1P"; "SHA1H"; "VMOV"; "SHA1SU1"; "VST1.P";
  "VADD"; "SHA1SU0"; "SHA1P"; "SHA1H"; "VMOV"; "SHA1SU1"; "VST1.P"; "VADD"; "SHA1SU0"; "SHA1P";
  "SHA1H"; "VMOV"; "SHA1SU1"; "VST1.P"; "VDUP"; "VADD"; "SHA1SU0"; "SHA1M"; "SHA1H"; "VMOV";
  "SHA1SU1"; "VST1.P"; "VADD"; "SHA1SU0"; "SHA1M"; "SHA1H"; "VMOV"; "SHA1SU1"; "VST1.P"; "VADD";
  "SHA1SU0"; "SHA1M"; "SHA1H"; "VMOV"; "SHA1SU1"; "VST1.P"; "VADD"; "SHA1SU0"; "SHA1M"; "SHA1H";
  "VMOV"; "SHA1SU1"; "VST1.P"; "VST1.P"; "VADD"; "SHA1SU0"; "SHA1M"; "SHA1H"; "VMOV"; "SHA1SU1";
  "VADD"; "SHA1SU0"; "SHA1P"; "SHA1H"; "VMOV"; "SHA1SU1"; "VST1.P"; "VST1.P"; "VADD"; "SHA1P";
  "SHA1H"; "VMOV"; "VST1.P"; "VST1.P"; "VST1.P"; "VST1.P"; "VADD"; "SHA1P"; "SHA1H"; "VMOV";
  "VADD"; "SHA1P"; "SHA1H"; "VMOV"; "VADD"; "SHA1P"; "SHA1H"; "VMOV"; "VADD"; "VADD";
  "VST1.P"; "FMOVS"; "RET"]%string.
