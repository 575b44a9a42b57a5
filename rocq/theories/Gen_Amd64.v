(** Generated by tools/gen_amd64.py from the text of /repo/sha1cdblock_amd64.s; do not edit. *)
From Coq Require Import NArith String List Strings.Byte.
From Verif Require Import Model_Asm Model_Amd64.
Import ListNotations.
Local Open Scope N_scope.

(** /repo/sha1cdblock_amd64.s lines 27-266: blockAMD64, macros LOADCS and LOADM1 (lines 16-23) expanded, labels replaced by
    instruction indices (loop = 17, done = 199).  The number in the comment is the source line. *)
Definition amd64_prog : list instr := [
  (* 28 *) MOVQ_load (mka BFP 0) DI;
  (* 29 *) MOVQ_load (mka BFP 24) SI;
  (* 30 *) MOVQ_load (mka BFP 32) DX;
  (* 31 *) MOVQ_load (mka BFP 48) R13;
  (* 32 *) MOVQ_load (mka BFP 72) R15;
  (* 33 *) CMPQ_imm DX 0;
  (* 34 *) JEQ 199;
  (* 35 *) ADDQ SI DX;
  (* 38 *) LEAQ (mka (BReg SP) 15) AX;
  (* 39 *) MOVQ_imm 15 CX;
  (* 40 *) NOTQ CX;
  (* 41 *) ANDQ CX AX;
  (* 44 *) PINSRD 3 (mka (BReg DI) 16) 5;
  (* 45 *) VMOVDQU_load (mka (BReg DI) 0) 0;
  (* 46 *) PAND (VM (mka BUpper 0)) 5;
  (* 47 *) PSHUFD 27 0 0;
  (* 48 *) VMOVDQA (VM (mka BShuffle 0)) 7;
  (* 52 *) VMOVDQA_store 5 (mka (BReg AX) 0);
  (* 53 *) VMOVDQA_store 0 (mka (BReg AX) 16);
  (* 56 *) VPEXTRD 3 5 R12;
  (* 57 *) PSHUFD 27 0 8;
  (* 57 *) VMOVDQU_store 8 (mka (BReg R15) 0);
  (* 57 *) MOVL_store R12 (mka (BReg R15) 16);
  (* 60 *) VMOVDQU_load (mka (BReg SI) 0) 1;
  (* 61 *) PSHUFB (VX 7) 1;
  (* 62 *) PADDD (VX 1) 5;
  (* 63 *) VMOVDQA (VX 0) 6;
  (* 64 *) SHA1RNDS4 0 5 0;
  (* 65 *) PSHUFD 27 1 8;
  (* 65 *) VMOVDQU_store 8 (mka (BReg R13) 0);
  (* 68 *) VMOVDQU_load (mka (BReg SI) 16) 2;
  (* 69 *) PSHUFB (VX 7) 2;
  (* 70 *) SHA1NEXTE (VX 2) 6;
  (* 71 *) VMOVDQA (VX 0) 5;
  (* 72 *) SHA1RNDS4 0 6 0;
  (* 73 *) SHA1MSG1 (VX 2) 1;
  (* 74 *) PSHUFD 27 2 8;
  (* 74 *) VMOVDQU_store 8 (mka (BReg R13) 16);
  (* 77 *) VMOVDQU_load (mka (BReg SI) 32) 3;
  (* 78 *) PSHUFB (VX 7) 3;
  (* 79 *) SHA1NEXTE (VX 3) 5;
  (* 80 *) VMOVDQA (VX 0) 6;
  (* 81 *) SHA1RNDS4 0 5 0;
  (* 82 *) SHA1MSG1 (VX 3) 2;
  (* 83 *) PXOR (VX 3) 1;
  (* 84 *) PSHUFD 27 3 8;
  (* 84 *) VMOVDQU_store 8 (mka (BReg R13) 32);
  (* 87 *) VMOVDQU_load (mka (BReg SI) 48) 4;
  (* 88 *) PSHUFB (VX 7) 4;
  (* 89 *) SHA1NEXTE (VX 4) 6;
  (* 90 *) VMOVDQA (VX 0) 5;
  (* 91 *) SHA1MSG2 (VX 4) 1;
  (* 92 *) SHA1RNDS4 0 6 0;
  (* 93 *) SHA1MSG1 (VX 4) 3;
  (* 94 *) PXOR (VX 4) 2;
  (* 95 *) PSHUFD 27 4 8;
  (* 95 *) VMOVDQU_store 8 (mka (BReg R13) 48);
  (* 98 *) SHA1NEXTE (VX 1) 5;
  (* 99 *) VMOVDQA (VX 0) 6;
  (* 100 *) SHA1MSG2 (VX 1) 2;
  (* 101 *) SHA1RNDS4 0 5 0;
  (* 102 *) SHA1MSG1 (VX 1) 4;
  (* 103 *) PXOR (VX 1) 3;
  (* 104 *) PSHUFD 27 1 8;
  (* 104 *) VMOVDQU_store 8 (mka (BReg R13) 64);
  (* 107 *) SHA1NEXTE (VX 2) 6;
  (* 108 *) VMOVDQA (VX 0) 5;
  (* 109 *) SHA1MSG2 (VX 2) 3;
  (* 110 *) SHA1RNDS4 1 6 0;
  (* 111 *) SHA1MSG1 (VX 2) 1;
  (* 112 *) PXOR (VX 2) 4;
  (* 113 *) PSHUFD 27 2 8;
  (* 113 *) VMOVDQU_store 8 (mka (BReg R13) 80);
  (* 116 *) SHA1NEXTE (VX 3) 5;
  (* 117 *) VMOVDQA (VX 0) 6;
  (* 118 *) SHA1MSG2 (VX 3) 4;
  (* 119 *) SHA1RNDS4 1 5 0;
  (* 120 *) SHA1MSG1 (VX 3) 2;
  (* 121 *) PXOR (VX 3) 1;
  (* 122 *) PSHUFD 27 3 8;
  (* 122 *) VMOVDQU_store 8 (mka (BReg R13) 96);
  (* 125 *) SHA1NEXTE (VX 4) 6;
  (* 126 *) VMOVDQA (VX 0) 5;
  (* 127 *) SHA1MSG2 (VX 4) 1;
  (* 128 *) SHA1RNDS4 1 6 0;
  (* 129 *) SHA1MSG1 (VX 4) 3;
  (* 130 *) PXOR (VX 4) 2;
  (* 131 *) PSHUFD 27 4 8;
  (* 131 *) VMOVDQU_store 8 (mka (BReg R13) 112);
  (* 134 *) SHA1NEXTE (VX 1) 5;
  (* 135 *) VMOVDQA (VX 0) 6;
  (* 136 *) SHA1MSG2 (VX 1) 2;
  (* 137 *) SHA1RNDS4 1 5 0;
  (* 138 *) SHA1MSG1 (VX 1) 4;
  (* 139 *) PXOR (VX 1) 3;
  (* 140 *) PSHUFD 27 1 8;
  (* 140 *) VMOVDQU_store 8 (mka (BReg R13) 128);
  (* 143 *) SHA1NEXTE (VX 2) 6;
  (* 144 *) VMOVDQA (VX 0) 5;
  (* 145 *) SHA1MSG2 (VX 2) 3;
  (* 146 *) SHA1RNDS4 1 6 0;
  (* 147 *) SHA1MSG1 (VX 2) 1;
  (* 148 *) PXOR (VX 2) 4;
  (* 149 *) PSHUFD 27 2 8;
  (* 149 *) VMOVDQU_store 8 (mka (BReg R13) 144);
  (* 152 *) SHA1NEXTE (VX 3) 5;
  (* 153 *) VMOVDQA (VX 0) 6;
  (* 154 *) SHA1MSG2 (VX 3) 4;
  (* 155 *) SHA1RNDS4 2 5 0;
  (* 156 *) SHA1MSG1 (VX 3) 2;
  (* 157 *) PXOR (VX 3) 1;
  (* 158 *) PSHUFD 27 3 8;
  (* 158 *) VMOVDQU_store 8 (mka (BReg R13) 160);
  (* 161 *) SHA1NEXTE (VX 4) 6;
  (* 162 *) VMOVDQA (VX 0) 5;
  (* 163 *) SHA1MSG2 (VX 4) 1;
  (* 164 *) SHA1RNDS4 2 6 0;
  (* 165 *) SHA1MSG1 (VX 4) 3;
  (* 166 *) PXOR (VX 4) 2;
  (* 167 *) PSHUFD 27 4 8;
  (* 167 *) VMOVDQU_store 8 (mka (BReg R13) 176);
  (* 170 *) SHA1NEXTE (VX 1) 5;
  (* 171 *) VMOVDQA (VX 0) 6;
  (* 172 *) SHA1MSG2 (VX 1) 2;
  (* 173 *) SHA1RNDS4 2 5 0;
  (* 174 *) VPEXTRD 0 5 R12;
  (* 175 *) SHA1MSG1 (VX 1) 4;
  (* 176 *) PXOR (VX 1) 3;
  (* 177 *) PSHUFD 27 1 8;
  (* 177 *) VMOVDQU_store 8 (mka (BReg R13) 192);
  (* 180 *) VPEXTRD 3 0 R12;
  (* 181 *) ROLL 30 R12;
  (* 184 *) SHA1NEXTE (VX 2) 6;
  (* 185 *) VMOVDQA (VX 0) 5;
  (* 186 *) SHA1MSG2 (VX 2) 3;
  (* 187 *) SHA1RNDS4 2 6 0;
  (* 188 *) SHA1MSG1 (VX 2) 1;
  (* 189 *) PXOR (VX 2) 4;
  (* 190 *) PSHUFD 27 2 8;
  (* 190 *) VMOVDQU_store 8 (mka (BReg R13) 208);
  (* 193 *) PSHUFD 27 0 8;
  (* 193 *) VMOVDQU_store 8 (mka (BReg R15) 20);
  (* 193 *) MOVL_store R12 (mka (BReg R15) 36);
  (* 196 *) SHA1NEXTE (VX 3) 5;
  (* 197 *) VMOVDQA (VX 0) 6;
  (* 198 *) SHA1MSG2 (VX 3) 4;
  (* 199 *) SHA1RNDS4 2 5 0;
  (* 200 *) VPEXTRD 0 5 R12;
  (* 201 *) SHA1MSG1 (VX 3) 2;
  (* 202 *) PXOR (VX 3) 1;
  (* 203 *) PSHUFD 27 3 8;
  (* 203 *) VMOVDQU_store 8 (mka (BReg R13) 224);
  (* 206 *) VPEXTRD 3 0 R12;
  (* 207 *) ROLL 30 R12;
  (* 210 *) SHA1NEXTE (VX 4) 6;
  (* 211 *) VMOVDQA (VX 0) 5;
  (* 212 *) SHA1MSG2 (VX 4) 1;
  (* 213 *) SHA1RNDS4 3 6 0;
  (* 214 *) SHA1MSG1 (VX 4) 3;
  (* 215 *) PXOR (VX 4) 2;
  (* 216 *) PSHUFD 27 4 8;
  (* 216 *) VMOVDQU_store 8 (mka (BReg R13) 240);
  (* 219 *) PSHUFD 27 0 8;
  (* 219 *) VMOVDQU_store 8 (mka (BReg R15) 40);
  (* 219 *) MOVL_store R12 (mka (BReg R15) 56);
  (* 222 *) SHA1NEXTE (VX 1) 5;
  (* 223 *) VMOVDQA (VX 0) 6;
  (* 224 *) SHA1MSG2 (VX 1) 2;
  (* 225 *) SHA1RNDS4 3 5 0;
  (* 226 *) SHA1MSG1 (VX 1) 4;
  (* 227 *) PXOR (VX 1) 3;
  (* 228 *) PSHUFD 27 1 8;
  (* 228 *) VMOVDQU_store 8 (mka (BReg R13) 256);
  (* 231 *) SHA1NEXTE (VX 2) 6;
  (* 232 *) VMOVDQA (VX 0) 5;
  (* 233 *) SHA1MSG2 (VX 2) 3;
  (* 234 *) SHA1RNDS4 3 6 0;
  (* 235 *) PXOR (VX 2) 4;
  (* 236 *) PSHUFD 27 2 8;
  (* 236 *) VMOVDQU_store 8 (mka (BReg R13) 272);
  (* 239 *) SHA1NEXTE (VX 3) 5;
  (* 240 *) VMOVDQA (VX 0) 6;
  (* 241 *) SHA1MSG2 (VX 3) 4;
  (* 242 *) SHA1RNDS4 3 5 0;
  (* 243 *) PSHUFD 27 3 8;
  (* 243 *) VMOVDQU_store 8 (mka (BReg R13) 288);
  (* 246 *) SHA1NEXTE (VX 4) 6;
  (* 247 *) VMOVDQA (VX 0) 5;
  (* 248 *) SHA1RNDS4 3 6 0;
  (* 249 *) PSHUFD 27 4 8;
  (* 249 *) VMOVDQU_store 8 (mka (BReg R13) 304);
  (* 252 *) SHA1NEXTE (VM (mka (BReg AX) 0)) 5;
  (* 253 *) PADDD (VM (mka (BReg AX) 16)) 0;
  (* 256 *) ADDQ_imm 64 SI;
  (* 257 *) CMPQ SI DX;
  (* 258 *) JNE 17;
  (* 261 *) PSHUFD 27 0 0;
  (* 262 *) VMOVDQU_store 0 (mka (BReg DI) 0);
  (* 263 *) PEXTRD_store 3 5 (mka (BReg DI) 16);
  (* 266 *) RET
].

(** /repo/sha1cdblock_amd64.s: DATA upper_mask. *)
Definition upper_mask : list byte := le64 0x0000000000000000 ++ le64 0xffffffff00000000.

(** /repo/sha1cdblock_amd64.s: DATA shuffle_mask. *)
Definition shuffle_mask : list byte := le64 0x08090a0b0c0d0e0f ++ le64 0x0001020304050607.

(** The mnemonics of the same instructions. *)
Definition amd64_mnem : list string := [
  "MOVQ"; "MOVQ"; "MOVQ"; "MOVQ"; "MOVQ"; "CMPQ"; "JEQ"; "ADDQ"; "LEAQ"; "MOVQ";
  "NOTQ"; "ANDQ"; "PINSRD"; "VMOVDQU"; "PAND"; "PSHUFD"; "VMOVDQA"; "VMOVDQA"; "VMOVDQA"; "VPEXTRD";
  "VPSHUFD"; "VMOVDQU"; "MOVL"; "VMOVDQU"; "PSHUFB"; "PADDD"; "VMOVDQA"; "SHA1RNDS4"; "VPSHUFD"; "VMOVDQU";
  "VMOVDQU"; "PSHUFB"; "SHA1NEXTE"; "VMOVDQA"; "SHA1RNDS4"; "SHA1MSG1"; "VPSHUFD"; "VMOVDQU"; "VMOVDQU"; "PSHUFB";
  "SHA1NEXTE"; "VMOVDQA"; "SHA1RNDS4"; "SHA1MSG1"; "PXOR"; "VPSHUFD"; "VMOVDQU"; "VMOVDQU"; "PSHUFB"; "SHA1NEXTE";
  "VMOVDQA"; "SHA1MSG2"; "SHA1RNDS4"; "SHA1MSG1"; "PXOR"; "VPSHUFD"; "VMOVDQU"; "SHA1NEXTE"; "VMOVDQA"; "SHA1MSG2";
  "SHA1RNDS4"; "SHA1MSG1"; "PXOR"; "VPSHUFD"; "VMOVDQU"; "SHA1NEXTE"; "VMOVDQA"; "SHA1MSG2"; "SHA1RNDS4"; "SHA1MSG1";
  "PXOR"; "VPSHUFD"; "VMOVDQU"; "SHA1NEXTE"; "VMOVDQA"; "SHA1MSG2"; "SHA1RNDS4"; "SHA1MSG1"; "PXOR"; "VPSHUFD";
  "VMOVDQU"; "SHA1NEXTE"; "VMOVDQA"; "SHA1MSG2"; "SHA1RNDS4"; "SHA1MSG1"; "PXOR"; "VPSHUFD"; "VMOVDQU"; "SHA1NEXTE";
  "VMOVDQA"; "SHA1MSG2"; "SHA1RNDS4"; "SHA1MSG1"; "PXOR"; "VPSHUFD"; "VMOVDQU"; "SHA1NEXTE"; "VMOVDQA"; "SHA1MSG2";
  "SHA1RNDS4"; "SHA1MSG1"; "PXOR"; "VPSHUFD"; "VMOVDQU"; "SHA1NEXTE"; "VMOVDQA"; "SHA1MSG2"; "SHA1RNDS4"; "SHA1MSG1";
  "PXOR"; "VPSHUFD"; "VMOVDQU"; "SHA1NEXTE"; "VMOVDQA"; "SHA1MSG2"; "SHA1RNDS4"; "SHA1MSG1"; "PXOR"; "VPSHUFD";
  "VMOVDQU"; "SHA1NEXTE"; "VMOVDQA"; "SHA1MSG2"; "SHA1RNDS4"; "VPEXTRD"; "SHA1MSG1"; "PXOR"; "VPSHUFD"; "VMOVDQU";
  "VPEXTRD"; "ROLL"; "SHA1NEXTE"; "VMOVDQA"; "SHA1MSG2"; "SHA1RNDS4"; "SHA1MSG1"; "PXOR"; "VPSHUFD"; "VMOVDQU";
  "VPSHUFD"; "VMOVDQU"; "MOVL"; "SHA1NEXTE"; "VMOVDQA"; "SHA1MSG2"; "SHA1RNDS4"; "VPEXTRD"; "SHA1MSG1"; "PXOR";
  "VPSHUFD"; "VMOVDQU"; "VPEXTRD"; "ROLL"; "SHA1NEXTE"; "VMOVDQA"; "SHA1MSG2"; "SHA1RNDS4"; "SHA1MSG1"; "PXOR";
  "VPSHUFD"; "VMOVDQU"; "VPSHUFD"; "VMOVDQU"; "MOVL"; "SHA1NEXTE"; "VMOVDQA"; "SHA1MSG2"; "SHA1RNDS4"; "SHA1MSG1";
  "PXOR"; "VPSHUFD"; "VMOVDQU"; "SHA1NEXTE"; "VMOVDQA"; "SHA1MSG2"; "SHA1RNDS4"; "PXOR"; "VPSHUFD"; "VMOVDQU";
  "SHA1NEXTE"; "VMOVDQA"; "SHA1MSG2"; "SHA1RNDS4"; "VPSHUFD"; "VMOVDQU"; "SHA1NEXTE"; "VMOVDQA"; "SHA1RNDS4"; "VPSHUFD";
  "VMOVDQU"; "SHA1NEXTE"; "PADDD"; "ADDQ"; "CMPQ"; "JNE"; "PSHUFD"; "VMOVDQU"; "PEXTRD"; "RET"]%string.
