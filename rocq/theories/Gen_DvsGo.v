(** GENERATED by tools/gen_ubc.py from /repo/ubc/const.go (table sha1_dvs); do not edit. *)
From Coq Require Import NArith List.
From Verif Require Import Model_Ubc.
Import ListNotations.
Local Open Scope N_scope.

(** /repo/ubc/const.go lines 45-622 *)
Definition dvs_go : list dvinfo := [
  (* const.go:47 *)
  mkdv 1 43 0 58 0 0 [0x08000000; 0x9800000c; 0xd8000010; 0x08000010; 0xb8000010; 0x98000000; 0x60000000; 0x00000008; 0xc0000000; 0x90000014; 0x10000010; 0xb8000014; 0x28000000; 0x20000010; 0x48000000; 0x08000018; 0x60000000; 0x90000010; 0xf0000010; 0x90000008; 0xc0000000; 0x90000010; 0xf0000010; 0xb0000008; 0x40000000; 0x90000000; 0xf0000010; 0x90000018; 0x60000000; 0x90000010; 0x90000010; 0x90000000; 0x80000000; 0x00000010; 0xa0000000; 0x20000000; 0xa0000000; 0x20000010; 0x00000000; 0x20000010; 0x20000000; 0x00000010; 0x20000000; 0x00000010; 0xa0000000; 0x00000000; 0x20000000; 0x20000000; 0x00000000; 0x00000000; 0x00000000; 0x00000000; 0x00000000; 0x00000000; 0x00000000; 0x00000000; 0x00000000; 0x00000000; 0x00000001; 0x00000020; 0x00000001; 0x40000002; 0x40000040; 0x40000002; 0x80000004; 0x80000080; 0x80000006; 0x00000049; 0x00000103; 0x80000009; 0x80000012; 0x80000202; 0x00000018; 0x00000164; 0x00000408; 0x800000e6; 0x8000004c; 0x00000803; 0x80000161; 0x80000599];
  (* const.go:62 *)
  mkdv 1 44 0 58 0 1 [0xb4000008; 0x08000000; 0x9800000c; 0xd8000010; 0x08000010; 0xb8000010; 0x98000000; 0x60000000; 0x00000008; 0xc0000000; 0x90000014; 0x10000010; 0xb8000014; 0x28000000; 0x20000010; 0x48000000; 0x08000018; 0x60000000; 0x90000010; 0xf0000010; 0x90000008; 0xc0000000; 0x90000010; 0xf0000010; 0xb0000008; 0x40000000; 0x90000000; 0xf0000010; 0x90000018; 0x60000000; 0x90000010; 0x90000010; 0x90000000; 0x80000000; 0x00000010; 0xa0000000; 0x20000000; 0xa0000000; 0x20000010; 0x00000000; 0x20000010; 0x20000000; 0x00000010; 0x20000000; 0x00000010; 0xa0000000; 0x00000000; 0x20000000; 0x20000000; 0x00000000; 0x00000000; 0x00000000; 0x00000000; 0x00000000; 0x00000000; 0x00000000; 0x00000000; 0x00000000; 0x00000000; 0x00000001; 0x00000020; 0x00000001; 0x40000002; 0x40000040; 0x40000002; 0x80000004; 0x80000080; 0x80000006; 0x00000049; 0x00000103; 0x80000009; 0x80000012; 0x80000202; 0x00000018; 0x00000164; 0x00000408; 0x800000e6; 0x8000004c; 0x00000803; 0x80000161];
  (* const.go:78 *)
  mkdv 1 45 0 58 0 2 [0xf4000014; 0xb4000008; 0x08000000; 0x9800000c; 0xd8000010; 0x08000010; 0xb8000010; 0x98000000; 0x60000000; 0x00000008; 0xc0000000; 0x90000014; 0x10000010; 0xb8000014; 0x28000000; 0x20000010; 0x48000000; 0x08000018; 0x60000000; 0x90000010; 0xf0000010; 0x90000008; 0xc0000000; 0x90000010; 0xf0000010; 0xb0000008; 0x40000000; 0x90000000; 0xf0000010; 0x90000018; 0x60000000; 0x90000010; 0x90000010; 0x90000000; 0x80000000; 0x00000010; 0xa0000000; 0x20000000; 0xa0000000; 0x20000010; 0x00000000; 0x20000010; 0x20000000; 0x00000010; 0x20000000; 0x00000010; 0xa0000000; 0x00000000; 0x20000000; 0x20000000; 0x00000000; 0x00000000; 0x00000000; 0x00000000; 0x00000000; 0x00000000; 0x00000000; 0x00000000; 0x00000000; 0x00000000; 0x00000001; 0x00000020; 0x00000001; 0x40000002; 0x40000040; 0x40000002; 0x80000004; 0x80000080; 0x80000006; 0x00000049; 0x00000103; 0x80000009; 0x80000012; 0x80000202; 0x00000018; 0x00000164; 0x00000408; 0x800000e6; 0x8000004c; 0x00000803];
  (* const.go:94 *)
  mkdv 1 46 0 58 0 3 [0x2c000010; 0xf4000014; 0xb4000008; 0x08000000; 0x9800000c; 0xd8000010; 0x08000010; 0xb8000010; 0x98000000; 0x60000000; 0x00000008; 0xc0000000; 0x90000014; 0x10000010; 0xb8000014; 0x28000000; 0x20000010; 0x48000000; 0x08000018; 0x60000000; 0x90000010; 0xf0000010; 0x90000008; 0xc0000000; 0x90000010; 0xf0000010; 0xb0000008; 0x40000000; 0x90000000; 0xf0000010; 0x90000018; 0x60000000; 0x90000010; 0x90000010; 0x90000000; 0x80000000; 0x00000010; 0xa0000000; 0x20000000; 0xa0000000; 0x20000010; 0x00000000; 0x20000010; 0x20000000; 0x00000010; 0x20000000; 0x00000010; 0xa0000000; 0x00000000; 0x20000000; 0x20000000; 0x00000000; 0x00000000; 0x00000000; 0x00000000; 0x00000000; 0x00000000; 0x00000000; 0x00000000; 0x00000000; 0x00000000; 0x00000001; 0x00000020; 0x00000001; 0x40000002; 0x40000040; 0x40000002; 0x80000004; 0x80000080; 0x80000006; 0x00000049; 0x00000103; 0x80000009; 0x80000012; 0x80000202; 0x00000018; 0x00000164; 0x00000408; 0x800000e6; 0x8000004c];
  (* const.go:110 *)
  mkdv 1 46 2 58 0 4 [0xb0000040; 0xd0000053; 0xd0000022; 0x20000000; 0x60000032; 0x60000043; 0x20000040; 0xe0000042; 0x60000002; 0x80000001; 0x00000020; 0x00000003; 0x40000052; 0x40000040; 0xe0000052; 0xa0000000; 0x80000040; 0x20000001; 0x20000060; 0x80000001; 0x40000042; 0xc0000043; 0x40000022; 0x00000003; 0x40000042; 0xc0000043; 0xc0000022; 0x00000001; 0x40000002; 0xc0000043; 0x40000062; 0x80000001; 0x40000042; 0x40000042; 0x40000002; 0x00000002; 0x00000040; 0x80000002; 0x80000000; 0x80000002; 0x80000040; 0x00000000; 0x80000040; 0x80000000; 0x00000040; 0x80000000; 0x00000040; 0x80000002; 0x00000000; 0x80000000; 0x80000000; 0x00000000; 0x00000000; 0x00000000; 0x00000000; 0x00000000; 0x00000000; 0x00000000; 0x00000000; 0x00000000; 0x00000000; 0x00000004; 0x00000080; 0x00000004; 0x00000009; 0x00000101; 0x00000009; 0x00000012; 0x00000202; 0x0000001a; 0x00000124; 0x0000040c; 0x00000026; 0x0000004a; 0x0000080a; 0x00000060; 0x00000590; 0x00001020; 0x0000039a; 0x00000132];
  (* const.go:128 *)
  mkdv 1 47 0 58 0 5 [0xc8000010; 0x2c000010; 0xf4000014; 0xb4000008; 0x08000000; 0x9800000c; 0xd8000010; 0x08000010; 0xb8000010; 0x98000000; 0x60000000; 0x00000008; 0xc0000000; 0x90000014; 0x10000010; 0xb8000014; 0x28000000; 0x20000010; 0x48000000; 0x08000018; 0x60000000; 0x90000010; 0xf0000010; 0x90000008; 0xc0000000; 0x90000010; 0xf0000010; 0xb0000008; 0x40000000; 0x90000000; 0xf0000010; 0x90000018; 0x60000000; 0x90000010; 0x90000010; 0x90000000; 0x80000000; 0x00000010; 0xa0000000; 0x20000000; 0xa0000000; 0x20000010; 0x00000000; 0x20000010; 0x20000000; 0x00000010; 0x20000000; 0x00000010; 0xa0000000; 0x00000000; 0x20000000; 0x20000000; 0x00000000; 0x00000000; 0x00000000; 0x00000000; 0x00000000; 0x00000000; 0x00000000; 0x00000000; 0x00000000; 0x00000000; 0x00000001; 0x00000020; 0x00000001; 0x40000002; 0x40000040; 0x40000002; 0x80000004; 0x80000080; 0x80000006; 0x00000049; 0x00000103; 0x80000009; 0x80000012; 0x80000202; 0x00000018; 0x00000164; 0x00000408; 0x800000e6];
  (* const.go:146 *)
  mkdv 1 47 2 58 0 6 [0x20000043; 0xb0000040; 0xd0000053; 0xd0000022; 0x20000000; 0x60000032; 0x60000043; 0x20000040; 0xe0000042; 0x60000002; 0x80000001; 0x00000020; 0x00000003; 0x40000052; 0x40000040; 0xe0000052; 0xa0000000; 0x80000040; 0x20000001; 0x20000060; 0x80000001; 0x40000042; 0xc0000043; 0x40000022; 0x00000003; 0x40000042; 0xc0000043; 0xc0000022; 0x00000001; 0x40000002; 0xc0000043; 0x40000062; 0x80000001; 0x40000042; 0x40000042; 0x40000002; 0x00000002; 0x00000040; 0x80000002; 0x80000000; 0x80000002; 0x80000040; 0x00000000; 0x80000040; 0x80000000; 0x00000040; 0x80000000; 0x00000040; 0x80000002; 0x00000000; 0x80000000; 0x80000000; 0x00000000; 0x00000000; 0x00000000; 0x00000000; 0x00000000; 0x00000000; 0x00000000; 0x00000000; 0x00000000; 0x00000000; 0x00000004; 0x00000080; 0x00000004; 0x00000009; 0x00000101; 0x00000009; 0x00000012; 0x00000202; 0x0000001a; 0x00000124; 0x0000040c; 0x00000026; 0x0000004a; 0x0000080a; 0x00000060; 0x00000590; 0x00001020; 0x0000039a];
  (* const.go:165 *)
  mkdv 1 48 0 58 0 7 [0xb800000a; 0xc8000010; 0x2c000010; 0xf4000014; 0xb4000008; 0x08000000; 0x9800000c; 0xd8000010; 0x08000010; 0xb8000010; 0x98000000; 0x60000000; 0x00000008; 0xc0000000; 0x90000014; 0x10000010; 0xb8000014; 0x28000000; 0x20000010; 0x48000000; 0x08000018; 0x60000000; 0x90000010; 0xf0000010; 0x90000008; 0xc0000000; 0x90000010; 0xf0000010; 0xb0000008; 0x40000000; 0x90000000; 0xf0000010; 0x90000018; 0x60000000; 0x90000010; 0x90000010; 0x90000000; 0x80000000; 0x00000010; 0xa0000000; 0x20000000; 0xa0000000; 0x20000010; 0x00000000; 0x20000010; 0x20000000; 0x00000010; 0x20000000; 0x00000010; 0xa0000000; 0x00000000; 0x20000000; 0x20000000; 0x00000000; 0x00000000; 0x00000000; 0x00000000; 0x00000000; 0x00000000; 0x00000000; 0x00000000; 0x00000000; 0x00000000; 0x00000001; 0x00000020; 0x00000001; 0x40000002; 0x40000040; 0x40000002; 0x80000004; 0x80000080; 0x80000006; 0x00000049; 0x00000103; 0x80000009; 0x80000012; 0x80000202; 0x00000018; 0x00000164; 0x00000408];
  (* const.go:184 *)
  mkdv 1 48 2 58 0 8 [0xe000002a; 0x20000043; 0xb0000040; 0xd0000053; 0xd0000022; 0x20000000; 0x60000032; 0x60000043; 0x20000040; 0xe0000042; 0x60000002; 0x80000001; 0x00000020; 0x00000003; 0x40000052; 0x40000040; 0xe0000052; 0xa0000000; 0x80000040; 0x20000001; 0x20000060; 0x80000001; 0x40000042; 0xc0000043; 0x40000022; 0x00000003; 0x40000042; 0xc0000043; 0xc0000022; 0x00000001; 0x40000002; 0xc0000043; 0x40000062; 0x80000001; 0x40000042; 0x40000042; 0x40000002; 0x00000002; 0x00000040; 0x80000002; 0x80000000; 0x80000002; 0x80000040; 0x00000000; 0x80000040; 0x80000000; 0x00000040; 0x80000000; 0x00000040; 0x80000002; 0x00000000; 0x80000000; 0x80000000; 0x00000000; 0x00000000; 0x00000000; 0x00000000; 0x00000000; 0x00000000; 0x00000000; 0x00000000; 0x00000000; 0x00000000; 0x00000004; 0x00000080; 0x00000004; 0x00000009; 0x00000101; 0x00000009; 0x00000012; 0x00000202; 0x0000001a; 0x00000124; 0x0000040c; 0x00000026; 0x0000004a; 0x0000080a; 0x00000060; 0x00000590; 0x00001020];
  (* const.go:202 *)
  mkdv 1 49 0 58 0 9 [0x18000000; 0xb800000a; 0xc8000010; 0x2c000010; 0xf4000014; 0xb4000008; 0x08000000; 0x9800000c; 0xd8000010; 0x08000010; 0xb8000010; 0x98000000; 0x60000000; 0x00000008; 0xc0000000; 0x90000014; 0x10000010; 0xb8000014; 0x28000000; 0x20000010; 0x48000000; 0x08000018; 0x60000000; 0x90000010; 0xf0000010; 0x90000008; 0xc0000000; 0x90000010; 0xf0000010; 0xb0000008; 0x40000000; 0x90000000; 0xf0000010; 0x90000018; 0x60000000; 0x90000010; 0x90000010; 0x90000000; 0x80000000; 0x00000010; 0xa0000000; 0x20000000; 0xa0000000; 0x20000010; 0x00000000; 0x20000010; 0x20000000; 0x00000010; 0x20000000; 0x00000010; 0xa0000000; 0x00000000; 0x20000000; 0x20000000; 0x00000000; 0x00000000; 0x00000000; 0x00000000; 0x00000000; 0x00000000; 0x00000000; 0x00000000; 0x00000000; 0x00000000; 0x00000001; 0x00000020; 0x00000001; 0x40000002; 0x40000040; 0x40000002; 0x80000004; 0x80000080; 0x80000006; 0x00000049; 0x00000103; 0x80000009; 0x80000012; 0x80000202; 0x00000018; 0x00000164];
  (* const.go:220 *)
  mkdv 1 49 2 58 0 10 [0x60000000; 0xe000002a; 0x20000043; 0xb0000040; 0xd0000053; 0xd0000022; 0x20000000; 0x60000032; 0x60000043; 0x20000040; 0xe0000042; 0x60000002; 0x80000001; 0x00000020; 0x00000003; 0x40000052; 0x40000040; 0xe0000052; 0xa0000000; 0x80000040; 0x20000001; 0x20000060; 0x80000001; 0x40000042; 0xc0000043; 0x40000022; 0x00000003; 0x40000042; 0xc0000043; 0xc0000022; 0x00000001; 0x40000002; 0xc0000043; 0x40000062; 0x80000001; 0x40000042; 0x40000042; 0x40000002; 0x00000002; 0x00000040; 0x80000002; 0x80000000; 0x80000002; 0x80000040; 0x00000000; 0x80000040; 0x80000000; 0x00000040; 0x80000000; 0x00000040; 0x80000002; 0x00000000; 0x80000000; 0x80000000; 0x00000000; 0x00000000; 0x00000000; 0x00000000; 0x00000000; 0x00000000; 0x00000000; 0x00000000; 0x00000000; 0x00000000; 0x00000004; 0x00000080; 0x00000004; 0x00000009; 0x00000101; 0x00000009; 0x00000012; 0x00000202; 0x0000001a; 0x00000124; 0x0000040c; 0x00000026; 0x0000004a; 0x0000080a; 0x00000060; 0x00000590];
  (* const.go:238 *)
  mkdv 1 50 0 65 0 11 [0x0800000c; 0x18000000; 0xb800000a; 0xc8000010; 0x2c000010; 0xf4000014; 0xb4000008; 0x08000000; 0x9800000c; 0xd8000010; 0x08000010; 0xb8000010; 0x98000000; 0x60000000; 0x00000008; 0xc0000000; 0x90000014; 0x10000010; 0xb8000014; 0x28000000; 0x20000010; 0x48000000; 0x08000018; 0x60000000; 0x90000010; 0xf0000010; 0x90000008; 0xc0000000; 0x90000010; 0xf0000010; 0xb0000008; 0x40000000; 0x90000000; 0xf0000010; 0x90000018; 0x60000000; 0x90000010; 0x90000010; 0x90000000; 0x80000000; 0x00000010; 0xa0000000; 0x20000000; 0xa0000000; 0x20000010; 0x00000000; 0x20000010; 0x20000000; 0x00000010; 0x20000000; 0x00000010; 0xa0000000; 0x00000000; 0x20000000; 0x20000000; 0x00000000; 0x00000000; 0x00000000; 0x00000000; 0x00000000; 0x00000000; 0x00000000; 0x00000000; 0x00000000; 0x00000000; 0x00000001; 0x00000020; 0x00000001; 0x40000002; 0x40000040; 0x40000002; 0x80000004; 0x80000080; 0x80000006; 0x00000049; 0x00000103; 0x80000009; 0x80000012; 0x80000202; 0x00000018];
  (* const.go:257 *)
  mkdv 1 50 2 65 0 12 [0x20000030; 0x60000000; 0xe000002a; 0x20000043; 0xb0000040; 0xd0000053; 0xd0000022; 0x20000000; 0x60000032; 0x60000043; 0x20000040; 0xe0000042; 0x60000002; 0x80000001; 0x00000020; 0x00000003; 0x40000052; 0x40000040; 0xe0000052; 0xa0000000; 0x80000040; 0x20000001; 0x20000060; 0x80000001; 0x40000042; 0xc0000043; 0x40000022; 0x00000003; 0x40000042; 0xc0000043; 0xc0000022; 0x00000001; 0x40000002; 0xc0000043; 0x40000062; 0x80000001; 0x40000042; 0x40000042; 0x40000002; 0x00000002; 0x00000040; 0x80000002; 0x80000000; 0x80000002; 0x80000040; 0x00000000; 0x80000040; 0x80000000; 0x00000040; 0x80000000; 0x00000040; 0x80000002; 0x00000000; 0x80000000; 0x80000000; 0x00000000; 0x00000000; 0x00000000; 0x00000000; 0x00000000; 0x00000000; 0x00000000; 0x00000000; 0x00000000; 0x00000000; 0x00000004; 0x00000080; 0x00000004; 0x00000009; 0x00000101; 0x00000009; 0x00000012; 0x00000202; 0x0000001a; 0x00000124; 0x0000040c; 0x00000026; 0x0000004a; 0x0000080a; 0x00000060];
  (* const.go:275 *)
  mkdv 1 51 0 65 0 13 [0xe8000000; 0x0800000c; 0x18000000; 0xb800000a; 0xc8000010; 0x2c000010; 0xf4000014; 0xb4000008; 0x08000000; 0x9800000c; 0xd8000010; 0x08000010; 0xb8000010; 0x98000000; 0x60000000; 0x00000008; 0xc0000000; 0x90000014; 0x10000010; 0xb8000014; 0x28000000; 0x20000010; 0x48000000; 0x08000018; 0x60000000; 0x90000010; 0xf0000010; 0x90000008; 0xc0000000; 0x90000010; 0xf0000010; 0xb0000008; 0x40000000; 0x90000000; 0xf0000010; 0x90000018; 0x60000000; 0x90000010; 0x90000010; 0x90000000; 0x80000000; 0x00000010; 0xa0000000; 0x20000000; 0xa0000000; 0x20000010; 0x00000000; 0x20000010; 0x20000000; 0x00000010; 0x20000000; 0x00000010; 0xa0000000; 0x00000000; 0x20000000; 0x20000000; 0x00000000; 0x00000000; 0x00000000; 0x00000000; 0x00000000; 0x00000000; 0x00000000; 0x00000000; 0x00000000; 0x00000000; 0x00000001; 0x00000020; 0x00000001; 0x40000002; 0x40000040; 0x40000002; 0x80000004; 0x80000080; 0x80000006; 0x00000049; 0x00000103; 0x80000009; 0x80000012; 0x80000202];
  (* const.go:293 *)
  mkdv 1 51 2 65 0 14 [0xa0000003; 0x20000030; 0x60000000; 0xe000002a; 0x20000043; 0xb0000040; 0xd0000053; 0xd0000022; 0x20000000; 0x60000032; 0x60000043; 0x20000040; 0xe0000042; 0x60000002; 0x80000001; 0x00000020; 0x00000003; 0x40000052; 0x40000040; 0xe0000052; 0xa0000000; 0x80000040; 0x20000001; 0x20000060; 0x80000001; 0x40000042; 0xc0000043; 0x40000022; 0x00000003; 0x40000042; 0xc0000043; 0xc0000022; 0x00000001; 0x40000002; 0xc0000043; 0x40000062; 0x80000001; 0x40000042; 0x40000042; 0x40000002; 0x00000002; 0x00000040; 0x80000002; 0x80000000; 0x80000002; 0x80000040; 0x00000000; 0x80000040; 0x80000000; 0x00000040; 0x80000000; 0x00000040; 0x80000002; 0x00000000; 0x80000000; 0x80000000; 0x00000000; 0x00000000; 0x00000000; 0x00000000; 0x00000000; 0x00000000; 0x00000000; 0x00000000; 0x00000000; 0x00000000; 0x00000004; 0x00000080; 0x00000004; 0x00000009; 0x00000101; 0x00000009; 0x00000012; 0x00000202; 0x0000001a; 0x00000124; 0x0000040c; 0x00000026; 0x0000004a; 0x0000080a];
  (* const.go:311 *)
  mkdv 1 52 0 65 0 15 [0x04000010; 0xe8000000; 0x0800000c; 0x18000000; 0xb800000a; 0xc8000010; 0x2c000010; 0xf4000014; 0xb4000008; 0x08000000; 0x9800000c; 0xd8000010; 0x08000010; 0xb8000010; 0x98000000; 0x60000000; 0x00000008; 0xc0000000; 0x90000014; 0x10000010; 0xb8000014; 0x28000000; 0x20000010; 0x48000000; 0x08000018; 0x60000000; 0x90000010; 0xf0000010; 0x90000008; 0xc0000000; 0x90000010; 0xf0000010; 0xb0000008; 0x40000000; 0x90000000; 0xf0000010; 0x90000018; 0x60000000; 0x90000010; 0x90000010; 0x90000000; 0x80000000; 0x00000010; 0xa0000000; 0x20000000; 0xa0000000; 0x20000010; 0x00000000; 0x20000010; 0x20000000; 0x00000010; 0x20000000; 0x00000010; 0xa0000000; 0x00000000; 0x20000000; 0x20000000; 0x00000000; 0x00000000; 0x00000000; 0x00000000; 0x00000000; 0x00000000; 0x00000000; 0x00000000; 0x00000000; 0x00000000; 0x00000001; 0x00000020; 0x00000001; 0x40000002; 0x40000040; 0x40000002; 0x80000004; 0x80000080; 0x80000006; 0x00000049; 0x00000103; 0x80000009; 0x80000012];
  (* const.go:329 *)
  mkdv 2 45 0 58 0 16 [0xec000014; 0x0c000002; 0xc0000010; 0xb400001c; 0x2c000004; 0xbc000018; 0xb0000010; 0x0000000c; 0xb8000010; 0x08000018; 0x78000010; 0x08000014; 0x70000010; 0xb800001c; 0xe8000000; 0xb0000004; 0x58000010; 0xb000000c; 0x48000000; 0xb0000000; 0xb8000010; 0x98000010; 0xa0000000; 0x00000000; 0x00000000; 0x20000000; 0x80000000; 0x00000010; 0x00000000; 0x20000010; 0x20000000; 0x00000010; 0x60000000; 0x00000018; 0xe0000000; 0x90000000; 0x30000010; 0xb0000000; 0x20000000; 0x20000000; 0xa0000000; 0x00000010; 0x80000000; 0x20000000; 0x20000000; 0x20000000; 0x80000000; 0x00000010; 0x00000000; 0x20000010; 0xa0000000; 0x00000000; 0x20000000; 0x20000000; 0x00000000; 0x00000000; 0x00000000; 0x00000000; 0x00000000; 0x00000000; 0x00000001; 0x00000020; 0x00000001; 0x40000002; 0x40000041; 0x40000022; 0x80000005; 0xc0000082; 0xc0000046; 0x4000004b; 0x80000107; 0x00000089; 0x00000014; 0x8000024b; 0x0000011b; 0x8000016d; 0x8000041a; 0x000002e4; 0x80000054; 0x00000967];
  (* const.go:347 *)
  mkdv 2 46 0 58 0 17 [0x2400001c; 0xec000014; 0x0c000002; 0xc0000010; 0xb400001c; 0x2c000004; 0xbc000018; 0xb0000010; 0x0000000c; 0xb8000010; 0x08000018; 0x78000010; 0x08000014; 0x70000010; 0xb800001c; 0xe8000000; 0xb0000004; 0x58000010; 0xb000000c; 0x48000000; 0xb0000000; 0xb8000010; 0x98000010; 0xa0000000; 0x00000000; 0x00000000; 0x20000000; 0x80000000; 0x00000010; 0x00000000; 0x20000010; 0x20000000; 0x00000010; 0x60000000; 0x00000018; 0xe0000000; 0x90000000; 0x30000010; 0xb0000000; 0x20000000; 0x20000000; 0xa0000000; 0x00000010; 0x80000000; 0x20000000; 0x20000000; 0x20000000; 0x80000000; 0x00000010; 0x00000000; 0x20000010; 0xa0000000; 0x00000000; 0x20000000; 0x20000000; 0x00000000; 0x00000000; 0x00000000; 0x00000000; 0x00000000; 0x00000000; 0x00000001; 0x00000020; 0x00000001; 0x40000002; 0x40000041; 0x40000022; 0x80000005; 0xc0000082; 0xc0000046; 0x4000004b; 0x80000107; 0x00000089; 0x00000014; 0x8000024b; 0x0000011b; 0x8000016d; 0x8000041a; 0x000002e4; 0x80000054];
  (* const.go:365 *)
  mkdv 2 46 2 58 0 18 [0x90000070; 0xb0000053; 0x30000008; 0x00000043; 0xd0000072; 0xb0000010; 0xf0000062; 0xc0000042; 0x00000030; 0xe0000042; 0x20000060; 0xe0000041; 0x20000050; 0xc0000041; 0xe0000072; 0xa0000003; 0xc0000012; 0x60000041; 0xc0000032; 0x20000001; 0xc0000002; 0xe0000042; 0x60000042; 0x80000002; 0x00000000; 0x00000000; 0x80000000; 0x00000002; 0x00000040; 0x00000000; 0x80000040; 0x80000000; 0x00000040; 0x80000001; 0x00000060; 0x80000003; 0x40000002; 0xc0000040; 0xc0000002; 0x80000000; 0x80000000; 0x80000002; 0x00000040; 0x00000002; 0x80000000; 0x80000000; 0x80000000; 0x00000002; 0x00000040; 0x00000000; 0x80000040; 0x80000002; 0x00000000; 0x80000000; 0x80000000; 0x00000000; 0x00000000; 0x00000000; 0x00000000; 0x00000000; 0x00000000; 0x00000004; 0x00000080; 0x00000004; 0x00000009; 0x00000105; 0x00000089; 0x00000016; 0x0000020b; 0x0000011b; 0x0000012d; 0x0000041e; 0x00000224; 0x00000050; 0x0000092e; 0x0000046c; 0x000005b6; 0x0000106a; 0x00000b90; 0x00000152];
  (* const.go:383 *)
  mkdv 2 47 0 58 0 19 [0x20000010; 0x2400001c; 0xec000014; 0x0c000002; 0xc0000010; 0xb400001c; 0x2c000004; 0xbc000018; 0xb0000010; 0x0000000c; 0xb8000010; 0x08000018; 0x78000010; 0x08000014; 0x70000010; 0xb800001c; 0xe8000000; 0xb0000004; 0x58000010; 0xb000000c; 0x48000000; 0xb0000000; 0xb8000010; 0x98000010; 0xa0000000; 0x00000000; 0x00000000; 0x20000000; 0x80000000; 0x00000010; 0x00000000; 0x20000010; 0x20000000; 0x00000010; 0x60000000; 0x00000018; 0xe0000000; 0x90000000; 0x30000010; 0xb0000000; 0x20000000; 0x20000000; 0xa0000000; 0x00000010; 0x80000000; 0x20000000; 0x20000000; 0x20000000; 0x80000000; 0x00000010; 0x00000000; 0x20000010; 0xa0000000; 0x00000000; 0x20000000; 0x20000000; 0x00000000; 0x00000000; 0x00000000; 0x00000000; 0x00000000; 0x00000000; 0x00000001; 0x00000020; 0x00000001; 0x40000002; 0x40000041; 0x40000022; 0x80000005; 0xc0000082; 0xc0000046; 0x4000004b; 0x80000107; 0x00000089; 0x00000014; 0x8000024b; 0x0000011b; 0x8000016d; 0x8000041a; 0x000002e4];
  (* const.go:401 *)
  mkdv 2 48 0 58 0 20 [0xbc00001a; 0x20000010; 0x2400001c; 0xec000014; 0x0c000002; 0xc0000010; 0xb400001c; 0x2c000004; 0xbc000018; 0xb0000010; 0x0000000c; 0xb8000010; 0x08000018; 0x78000010; 0x08000014; 0x70000010; 0xb800001c; 0xe8000000; 0xb0000004; 0x58000010; 0xb000000c; 0x48000000; 0xb0000000; 0xb8000010; 0x98000010; 0xa0000000; 0x00000000; 0x00000000; 0x20000000; 0x80000000; 0x00000010; 0x00000000; 0x20000010; 0x20000000; 0x00000010; 0x60000000; 0x00000018; 0xe0000000; 0x90000000; 0x30000010; 0xb0000000; 0x20000000; 0x20000000; 0xa0000000; 0x00000010; 0x80000000; 0x20000000; 0x20000000; 0x20000000; 0x80000000; 0x00000010; 0x00000000; 0x20000010; 0xa0000000; 0x00000000; 0x20000000; 0x20000000; 0x00000000; 0x00000000; 0x00000000; 0x00000000; 0x00000000; 0x00000000; 0x00000001; 0x00000020; 0x00000001; 0x40000002; 0x40000041; 0x40000022; 0x80000005; 0xc0000082; 0xc0000046; 0x4000004b; 0x80000107; 0x00000089; 0x00000014; 0x8000024b; 0x0000011b; 0x8000016d; 0x8000041a];
  (* const.go:419 *)
  mkdv 2 49 0 58 0 21 [0x3c000004; 0xbc00001a; 0x20000010; 0x2400001c; 0xec000014; 0x0c000002; 0xc0000010; 0xb400001c; 0x2c000004; 0xbc000018; 0xb0000010; 0x0000000c; 0xb8000010; 0x08000018; 0x78000010; 0x08000014; 0x70000010; 0xb800001c; 0xe8000000; 0xb0000004; 0x58000010; 0xb000000c; 0x48000000; 0xb0000000; 0xb8000010; 0x98000010; 0xa0000000; 0x00000000; 0x00000000; 0x20000000; 0x80000000; 0x00000010; 0x00000000; 0x20000010; 0x20000000; 0x00000010; 0x60000000; 0x00000018; 0xe0000000; 0x90000000; 0x30000010; 0xb0000000; 0x20000000; 0x20000000; 0xa0000000; 0x00000010; 0x80000000; 0x20000000; 0x20000000; 0x20000000; 0x80000000; 0x00000010; 0x00000000; 0x20000010; 0xa0000000; 0x00000000; 0x20000000; 0x20000000; 0x00000000; 0x00000000; 0x00000000; 0x00000000; 0x00000000; 0x00000000; 0x00000001; 0x00000020; 0x00000001; 0x40000002; 0x40000041; 0x40000022; 0x80000005; 0xc0000082; 0xc0000046; 0x4000004b; 0x80000107; 0x00000089; 0x00000014; 0x8000024b; 0x0000011b; 0x8000016d];
  (* const.go:437 *)
  mkdv 2 49 2 58 0 22 [0xf0000010; 0xf000006a; 0x80000040; 0x90000070; 0xb0000053; 0x30000008; 0x00000043; 0xd0000072; 0xb0000010; 0xf0000062; 0xc0000042; 0x00000030; 0xe0000042; 0x20000060; 0xe0000041; 0x20000050; 0xc0000041; 0xe0000072; 0xa0000003; 0xc0000012; 0x60000041; 0xc0000032; 0x20000001; 0xc0000002; 0xe0000042; 0x60000042; 0x80000002; 0x00000000; 0x00000000; 0x80000000; 0x00000002; 0x00000040; 0x00000000; 0x80000040; 0x80000000; 0x00000040; 0x80000001; 0x00000060; 0x80000003; 0x40000002; 0xc0000040; 0xc0000002; 0x80000000; 0x80000000; 0x80000002; 0x00000040; 0x00000002; 0x80000000; 0x80000000; 0x80000000; 0x00000002; 0x00000040; 0x00000000; 0x80000040; 0x80000002; 0x00000000; 0x80000000; 0x80000000; 0x00000000; 0x00000000; 0x00000000; 0x00000000; 0x00000000; 0x00000000; 0x00000004; 0x00000080; 0x00000004; 0x00000009; 0x00000105; 0x00000089; 0x00000016; 0x0000020b; 0x0000011b; 0x0000012d; 0x0000041e; 0x00000224; 0x00000050; 0x0000092e; 0x0000046c; 0x000005b6];
  (* const.go:455 *)
  mkdv 2 50 0 65 0 23 [0xb400001c; 0x3c000004; 0xbc00001a; 0x20000010; 0x2400001c; 0xec000014; 0x0c000002; 0xc0000010; 0xb400001c; 0x2c000004; 0xbc000018; 0xb0000010; 0x0000000c; 0xb8000010; 0x08000018; 0x78000010; 0x08000014; 0x70000010; 0xb800001c; 0xe8000000; 0xb0000004; 0x58000010; 0xb000000c; 0x48000000; 0xb0000000; 0xb8000010; 0x98000010; 0xa0000000; 0x00000000; 0x00000000; 0x20000000; 0x80000000; 0x00000010; 0x00000000; 0x20000010; 0x20000000; 0x00000010; 0x60000000; 0x00000018; 0xe0000000; 0x90000000; 0x30000010; 0xb0000000; 0x20000000; 0x20000000; 0xa0000000; 0x00000010; 0x80000000; 0x20000000; 0x20000000; 0x20000000; 0x80000000; 0x00000010; 0x00000000; 0x20000010; 0xa0000000; 0x00000000; 0x20000000; 0x20000000; 0x00000000; 0x00000000; 0x00000000; 0x00000000; 0x00000000; 0x00000000; 0x00000001; 0x00000020; 0x00000001; 0x40000002; 0x40000041; 0x40000022; 0x80000005; 0xc0000082; 0xc0000046; 0x4000004b; 0x80000107; 0x00000089; 0x00000014; 0x8000024b; 0x0000011b];
  (* const.go:473 *)
  mkdv 2 50 2 65 0 24 [0xd0000072; 0xf0000010; 0xf000006a; 0x80000040; 0x90000070; 0xb0000053; 0x30000008; 0x00000043; 0xd0000072; 0xb0000010; 0xf0000062; 0xc0000042; 0x00000030; 0xe0000042; 0x20000060; 0xe0000041; 0x20000050; 0xc0000041; 0xe0000072; 0xa0000003; 0xc0000012; 0x60000041; 0xc0000032; 0x20000001; 0xc0000002; 0xe0000042; 0x60000042; 0x80000002; 0x00000000; 0x00000000; 0x80000000; 0x00000002; 0x00000040; 0x00000000; 0x80000040; 0x80000000; 0x00000040; 0x80000001; 0x00000060; 0x80000003; 0x40000002; 0xc0000040; 0xc0000002; 0x80000000; 0x80000000; 0x80000002; 0x00000040; 0x00000002; 0x80000000; 0x80000000; 0x80000000; 0x00000002; 0x00000040; 0x00000000; 0x80000040; 0x80000002; 0x00000000; 0x80000000; 0x80000000; 0x00000000; 0x00000000; 0x00000000; 0x00000000; 0x00000000; 0x00000000; 0x00000004; 0x00000080; 0x00000004; 0x00000009; 0x00000105; 0x00000089; 0x00000016; 0x0000020b; 0x0000011b; 0x0000012d; 0x0000041e; 0x00000224; 0x00000050; 0x0000092e; 0x0000046c];
  (* const.go:491 *)
  mkdv 2 51 0 65 0 25 [0xc0000010; 0xb400001c; 0x3c000004; 0xbc00001a; 0x20000010; 0x2400001c; 0xec000014; 0x0c000002; 0xc0000010; 0xb400001c; 0x2c000004; 0xbc000018; 0xb0000010; 0x0000000c; 0xb8000010; 0x08000018; 0x78000010; 0x08000014; 0x70000010; 0xb800001c; 0xe8000000; 0xb0000004; 0x58000010; 0xb000000c; 0x48000000; 0xb0000000; 0xb8000010; 0x98000010; 0xa0000000; 0x00000000; 0x00000000; 0x20000000; 0x80000000; 0x00000010; 0x00000000; 0x20000010; 0x20000000; 0x00000010; 0x60000000; 0x00000018; 0xe0000000; 0x90000000; 0x30000010; 0xb0000000; 0x20000000; 0x20000000; 0xa0000000; 0x00000010; 0x80000000; 0x20000000; 0x20000000; 0x20000000; 0x80000000; 0x00000010; 0x00000000; 0x20000010; 0xa0000000; 0x00000000; 0x20000000; 0x20000000; 0x00000000; 0x00000000; 0x00000000; 0x00000000; 0x00000000; 0x00000000; 0x00000001; 0x00000020; 0x00000001; 0x40000002; 0x40000041; 0x40000022; 0x80000005; 0xc0000082; 0xc0000046; 0x4000004b; 0x80000107; 0x00000089; 0x00000014; 0x8000024b];
  (* const.go:509 *)
  mkdv 2 51 2 65 0 26 [0x00000043; 0xd0000072; 0xf0000010; 0xf000006a; 0x80000040; 0x90000070; 0xb0000053; 0x30000008; 0x00000043; 0xd0000072; 0xb0000010; 0xf0000062; 0xc0000042; 0x00000030; 0xe0000042; 0x20000060; 0xe0000041; 0x20000050; 0xc0000041; 0xe0000072; 0xa0000003; 0xc0000012; 0x60000041; 0xc0000032; 0x20000001; 0xc0000002; 0xe0000042; 0x60000042; 0x80000002; 0x00000000; 0x00000000; 0x80000000; 0x00000002; 0x00000040; 0x00000000; 0x80000040; 0x80000000; 0x00000040; 0x80000001; 0x00000060; 0x80000003; 0x40000002; 0xc0000040; 0xc0000002; 0x80000000; 0x80000000; 0x80000002; 0x00000040; 0x00000002; 0x80000000; 0x80000000; 0x80000000; 0x00000002; 0x00000040; 0x00000000; 0x80000040; 0x80000002; 0x00000000; 0x80000000; 0x80000000; 0x00000000; 0x00000000; 0x00000000; 0x00000000; 0x00000000; 0x00000000; 0x00000004; 0x00000080; 0x00000004; 0x00000009; 0x00000105; 0x00000089; 0x00000016; 0x0000020b; 0x0000011b; 0x0000012d; 0x0000041e; 0x00000224; 0x00000050; 0x0000092e];
  (* const.go:527 *)
  mkdv 2 52 0 65 0 27 [0x0c000002; 0xc0000010; 0xb400001c; 0x3c000004; 0xbc00001a; 0x20000010; 0x2400001c; 0xec000014; 0x0c000002; 0xc0000010; 0xb400001c; 0x2c000004; 0xbc000018; 0xb0000010; 0x0000000c; 0xb8000010; 0x08000018; 0x78000010; 0x08000014; 0x70000010; 0xb800001c; 0xe8000000; 0xb0000004; 0x58000010; 0xb000000c; 0x48000000; 0xb0000000; 0xb8000010; 0x98000010; 0xa0000000; 0x00000000; 0x00000000; 0x20000000; 0x80000000; 0x00000010; 0x00000000; 0x20000010; 0x20000000; 0x00000010; 0x60000000; 0x00000018; 0xe0000000; 0x90000000; 0x30000010; 0xb0000000; 0x20000000; 0x20000000; 0xa0000000; 0x00000010; 0x80000000; 0x20000000; 0x20000000; 0x20000000; 0x80000000; 0x00000010; 0x00000000; 0x20000010; 0xa0000000; 0x00000000; 0x20000000; 0x20000000; 0x00000000; 0x00000000; 0x00000000; 0x00000000; 0x00000000; 0x00000000; 0x00000001; 0x00000020; 0x00000001; 0x40000002; 0x40000041; 0x40000022; 0x80000005; 0xc0000082; 0xc0000046; 0x4000004b; 0x80000107; 0x00000089; 0x00000014];
  (* const.go:545 *)
  mkdv 2 53 0 65 0 28 [0xcc000014; 0x0c000002; 0xc0000010; 0xb400001c; 0x3c000004; 0xbc00001a; 0x20000010; 0x2400001c; 0xec000014; 0x0c000002; 0xc0000010; 0xb400001c; 0x2c000004; 0xbc000018; 0xb0000010; 0x0000000c; 0xb8000010; 0x08000018; 0x78000010; 0x08000014; 0x70000010; 0xb800001c; 0xe8000000; 0xb0000004; 0x58000010; 0xb000000c; 0x48000000; 0xb0000000; 0xb8000010; 0x98000010; 0xa0000000; 0x00000000; 0x00000000; 0x20000000; 0x80000000; 0x00000010; 0x00000000; 0x20000010; 0x20000000; 0x00000010; 0x60000000; 0x00000018; 0xe0000000; 0x90000000; 0x30000010; 0xb0000000; 0x20000000; 0x20000000; 0xa0000000; 0x00000010; 0x80000000; 0x20000000; 0x20000000; 0x20000000; 0x80000000; 0x00000010; 0x00000000; 0x20000010; 0xa0000000; 0x00000000; 0x20000000; 0x20000000; 0x00000000; 0x00000000; 0x00000000; 0x00000000; 0x00000000; 0x00000000; 0x00000001; 0x00000020; 0x00000001; 0x40000002; 0x40000041; 0x40000022; 0x80000005; 0xc0000082; 0xc0000046; 0x4000004b; 0x80000107; 0x00000089];
  (* const.go:563 *)
  mkdv 2 54 0 65 0 29 [0x0400001c; 0xcc000014; 0x0c000002; 0xc0000010; 0xb400001c; 0x3c000004; 0xbc00001a; 0x20000010; 0x2400001c; 0xec000014; 0x0c000002; 0xc0000010; 0xb400001c; 0x2c000004; 0xbc000018; 0xb0000010; 0x0000000c; 0xb8000010; 0x08000018; 0x78000010; 0x08000014; 0x70000010; 0xb800001c; 0xe8000000; 0xb0000004; 0x58000010; 0xb000000c; 0x48000000; 0xb0000000; 0xb8000010; 0x98000010; 0xa0000000; 0x00000000; 0x00000000; 0x20000000; 0x80000000; 0x00000010; 0x00000000; 0x20000010; 0x20000000; 0x00000010; 0x60000000; 0x00000018; 0xe0000000; 0x90000000; 0x30000010; 0xb0000000; 0x20000000; 0x20000000; 0xa0000000; 0x00000010; 0x80000000; 0x20000000; 0x20000000; 0x20000000; 0x80000000; 0x00000010; 0x00000000; 0x20000010; 0xa0000000; 0x00000000; 0x20000000; 0x20000000; 0x00000000; 0x00000000; 0x00000000; 0x00000000; 0x00000000; 0x00000000; 0x00000001; 0x00000020; 0x00000001; 0x40000002; 0x40000041; 0x40000022; 0x80000005; 0xc0000082; 0xc0000046; 0x4000004b; 0x80000107];
  (* const.go:581 *)
  mkdv 2 55 0 65 0 30 [0x00000010; 0x0400001c; 0xcc000014; 0x0c000002; 0xc0000010; 0xb400001c; 0x3c000004; 0xbc00001a; 0x20000010; 0x2400001c; 0xec000014; 0x0c000002; 0xc0000010; 0xb400001c; 0x2c000004; 0xbc000018; 0xb0000010; 0x0000000c; 0xb8000010; 0x08000018; 0x78000010; 0x08000014; 0x70000010; 0xb800001c; 0xe8000000; 0xb0000004; 0x58000010; 0xb000000c; 0x48000000; 0xb0000000; 0xb8000010; 0x98000010; 0xa0000000; 0x00000000; 0x00000000; 0x20000000; 0x80000000; 0x00000010; 0x00000000; 0x20000010; 0x20000000; 0x00000010; 0x60000000; 0x00000018; 0xe0000000; 0x90000000; 0x30000010; 0xb0000000; 0x20000000; 0x20000000; 0xa0000000; 0x00000010; 0x80000000; 0x20000000; 0x20000000; 0x20000000; 0x80000000; 0x00000010; 0x00000000; 0x20000010; 0xa0000000; 0x00000000; 0x20000000; 0x20000000; 0x00000000; 0x00000000; 0x00000000; 0x00000000; 0x00000000; 0x00000000; 0x00000001; 0x00000020; 0x00000001; 0x40000002; 0x40000041; 0x40000022; 0x80000005; 0xc0000082; 0xc0000046; 0x4000004b];
  (* const.go:599 *)
  mkdv 2 56 0 65 0 31 [0x2600001a; 0x00000010; 0x0400001c; 0xcc000014; 0x0c000002; 0xc0000010; 0xb400001c; 0x3c000004; 0xbc00001a; 0x20000010; 0x2400001c; 0xec000014; 0x0c000002; 0xc0000010; 0xb400001c; 0x2c000004; 0xbc000018; 0xb0000010; 0x0000000c; 0xb8000010; 0x08000018; 0x78000010; 0x08000014; 0x70000010; 0xb800001c; 0xe8000000; 0xb0000004; 0x58000010; 0xb000000c; 0x48000000; 0xb0000000; 0xb8000010; 0x98000010; 0xa0000000; 0x00000000; 0x00000000; 0x20000000; 0x80000000; 0x00000010; 0x00000000; 0x20000010; 0x20000000; 0x00000010; 0x60000000; 0x00000018; 0xe0000000; 0x90000000; 0x30000010; 0xb0000000; 0x20000000; 0x20000000; 0xa0000000; 0x00000010; 0x80000000; 0x20000000; 0x20000000; 0x20000000; 0x80000000; 0x00000010; 0x00000000; 0x20000010; 0xa0000000; 0x00000000; 0x20000000; 0x20000000; 0x00000000; 0x00000000; 0x00000000; 0x00000000; 0x00000000; 0x00000000; 0x00000001; 0x00000020; 0x00000001; 0x40000002; 0x40000041; 0x40000022; 0x80000005; 0xc0000082; 0xc0000046];
  (* const.go:617 *)
  mkdv 0 0 0 0 0 0 [0x00000000; 0x00000000; 0x00000000; 0x00000000; 0x00000000; 0x00000000; 0x00000000; 0x00000000; 0x00000000; 0x00000000; 0x00000000; 0x00000000; 0x00000000; 0x00000000; 0x00000000; 0x00000000; 0x00000000; 0x00000000; 0x00000000; 0x00000000; 0x00000000; 0x00000000; 0x00000000; 0x00000000; 0x00000000; 0x00000000; 0x00000000; 0x00000000; 0x00000000; 0x00000000; 0x00000000; 0x00000000; 0x00000000; 0x00000000; 0x00000000; 0x00000000; 0x00000000; 0x00000000; 0x00000000; 0x00000000; 0x00000000; 0x00000000; 0x00000000; 0x00000000; 0x00000000; 0x00000000; 0x00000000; 0x00000000; 0x00000000; 0x00000000; 0x00000000; 0x00000000; 0x00000000; 0x00000000; 0x00000000; 0x00000000; 0x00000000; 0x00000000; 0x00000000; 0x00000000; 0x00000000; 0x00000000; 0x00000000; 0x00000000; 0x00000000; 0x00000000; 0x00000000; 0x00000000; 0x00000000; 0x00000000; 0x00000000; 0x00000000; 0x00000000; 0x00000000; 0x00000000; 0x00000000; 0x00000000; 0x00000000; 0x00000000; 0x00000000]].
