(** GENERATED by tools/gen_build.py from the text of /repo; do not edit. *)
From Coq Require Import String List.
From Verif Require Import Model_Build.
Import ListNotations.
Local Open Scope string_scope.

(** The files of /repo/, without tests; C files carry no constraints and are not listed. *)
Definition pkg_sha1cd : list gofile := [
  mkgf "detection.go" None [] false
    []
    [] [];
  mkgf "sha1cd.go" None [] false
    [mkfn "appendUint32" "(b []byte, v uint32) []byte" true (* line 53 *);
     mkfn "appendUint64" "(b []byte, v uint64) []byte" true (* line 62 *);
     mkfn "consumeUint64" "(b []byte) ([]byte, uint64)" true (* line 94 *);
     mkfn "consumeUint32" "(b []byte) ([]byte, uint32)" true (* line 101 *);
     mkfn "New" "() hash.Hash" true (* line 122 *);
     mkfn "Sum" "(data []byte) ([Size]byte, bool)" true (* line 200 *)]
    [] ["Size"; "BlockSize"];
  mkgf "sha1cdblock_amd64.go" (Some (BAnd (BAnd (BAnd (BNot (BTag "noasm")) (BTag "gc")) (BTag "amd64")) (BNot (BTag "arm64")))) [(BAnd (BAnd (BAnd (BNot (BTag "noasm")) (BTag "gc")) (BTag "amd64")) (BNot (BTag "arm64")))] false
    [mkfn "blockAMD64" "(h []uint32, p []byte, m1 []uint32, cs [][5]uint32)" false (* line 23 *);
     mkfn "block" "(dig *digest, p []byte)" true (* line 25 *)]
    [] [];
  mkgf "sha1cdblock_amd64.s" (Some (BAnd (BAnd (BAnd (BNot (BTag "noasm")) (BTag "gc")) (BTag "amd64")) (BNot (BTag "arm64")))) [] false
    []
    ["blockAMD64"] [];
  mkgf "sha1cdblock_arm64.go" (Some (BAnd (BAnd (BAnd (BNot (BTag "noasm")) (BTag "gc")) (BTag "arm64")) (BNot (BTag "amd64")))) [(BAnd (BAnd (BAnd (BNot (BTag "noasm")) (BTag "gc")) (BTag "arm64")) (BNot (BTag "amd64")))] false
    [mkfn "blockARM64" "(h []uint32, p []byte, m1 []uint32, cs [][5]uint32)" false (* line 19 *);
     mkfn "block" "(dig *digest, p []byte)" true (* line 21 *)]
    [] [];
  mkgf "sha1cdblock_arm64.s" (Some (BAnd (BAnd (BAnd (BNot (BTag "noasm")) (BTag "gc")) (BTag "arm64")) (BNot (BTag "amd64")))) [] false
    []
    ["blockARM64"] [];
  mkgf "sha1cdblock_generic.go" None [] false
    [mkfn "blockGeneric" "(dig *digest, p []byte)" true (* line 22 *);
     mkfn "checkCollision" "( m1 *[shared.Rounds]uint32, cs *[shared.PreStepState][shared.WordBuffers]uint32, h *[shared.WordBuffers]uint32, ) bool" true (* line 146 *);
     mkfn "hasCollided" "(step uint32, m1, dm *[shared.Rounds]uint32, state *[shared.WordBuffers]uint32, h *[shared.WordBuffers]uint32) bool" true (* line 186 *);
     mkfn "rectifyCompressionState" "( m1 *[shared.Rounds]uint32, cs *[shared.PreStepState][shared.WordBuffers]uint32, )" true (* line 285 *)]
    [] [];
  mkgf "sha1cdblock_noasm.go" (Some (BOr (BAnd (BNot (BTag "amd64")) (BNot (BTag "arm64"))) (BTag "noasm"))) [] false
    [mkfn "block" "(dig *digest, p []byte)" true (* line 5 *)]
    [] []].

(** The files of /repo/cgo, without tests; C files carry no constraints and are not listed. *)
Definition pkg_cgo : list gofile := [
  mkgf "fallback_no_cgo.go" (Some (BNot (BTag "cgo"))) [(BNot (BTag "cgo"))] false
    [mkfn "CalculateDvMask" "(W *[80]uint32) uint32" true (* line 15 *);
     mkfn "New" "() hash.Hash" true (* line 21 *);
     mkfn "Sum" "(data []byte) ([]byte, bool)" true (* line 27 *)]
    [] [];
  mkgf "sha1.go" None [] true
    [mkfn "New" "() hash.Hash" true (* line 17 *);
     mkfn "Sum" "(data []byte) ([]byte, bool)" true (* line 57 *)]
    [] ["Size"; "BlockSize"];
  mkgf "ubc_check.go" None [] true
    [mkfn "CalculateDvMask" "(W [80]uint32) uint32" true (* line 21 *)]
    [] []].

(** /repo/sha1cdblock_amd64.go line 13: the features that hasSHANI tests. *)
Definition amd64_features : list string := ["AVX"; "SHA"; "SSE3"; "SSE4"].
(** /repo/sha1cdblock_arm64.go line 13: the features that hasSHA1 tests. *)
Definition arm64_features : list string := ["SHA1"].
