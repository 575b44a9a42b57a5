(** The preprocessor conditions of /repo/cgo/sha1.c that choose the byte order and the access to message blocks. *)

From Coq Require Import NArith String List Bool.
From Verif Require Import Word Model_CSteps Model_C.
Import ListNotations.
Local Open Scope N_scope.
Local Open Scope string_scope.

(** The macros the compiler and the command line define, with their values. *)
Definition macros := string -> option N.
Definition isdef (m : macros) (x : string) : bool := match m x with Some _ => true | None => false end.
Definition anydef (m : macros) (xs : list string) : bool := existsb (isdef m) xs.
(** #if A == B, both defined. *)
Definition same (m : macros) (x y : string) : bool :=
  match m x, m y with Some a, Some b => N.eqb a b | _, _ => false end.

(** Lines 31-37. *)
Definition on_intel_like (m : macros) : bool :=
  anydef m ["__amd64__"; "__amd64"; "__x86_64__"; "__x86_64"; "i386"; "__i386"; "__i386__"; "__i486__";
            "__i586__"; "__i686__"; "_M_IX86"; "__X86__"; "_X86_"; "__THW_INTEL__"; "__I86__"; "__INTEL__";
            "__386"; "_M_X64"; "_M_AMD64"].

(** Lines 48-115. *)
Definition detected_be (m : macros) : bool :=
  if isdef m "__BYTE_ORDER__" && isdef m "__ORDER_BIG_ENDIAN__" then same m "__BYTE_ORDER__" "__ORDER_BIG_ENDIAN__"
  else if isdef m "__BYTE_ORDER" && isdef m "__BIG_ENDIAN" then same m "__BYTE_ORDER" "__BIG_ENDIAN"
  else if isdef m "_BYTE_ORDER" && isdef m "_BIG_ENDIAN" && isdef m "_LITTLE_ENDIAN" then same m "_BYTE_ORDER" "_BIG_ENDIAN"
  else if anydef m ["__ARMEB__"; "__THUMBEB__"; "__AARCH64EB__"; "__MIPSEB__"; "__MIPSEB"; "_MIPSEB"; "__sparc"] then true
  else if anydef m ["_AIX"; "__hpux"] then true
  else false.

(** Lines 117-123; SHA1DC_BIGENDIAN is not defined from outside. *)
Definition bigendian (m : macros) : bool :=
  let b := detected_be m in
  let b := if isdef m "SHA1DC_FORCE_LITTLEENDIAN" && b then false else b in
  if isdef m "SHA1DC_FORCE_BIGENDIAN" && negb b then true else b.

(** Lines 125-129. *)
Definition allow_unaligned (m : macros) : bool :=
  if isdef m "SHA1DC_FORCE_ALIGNED_ACCESS" then false
  else isdef m "SHA1DC_FORCE_UNALIGNED_ACCESS" || on_intel_like m.

(** The library built with these macros for a machine of the given byte order. *)
Definition build (m : macros) (be : bool) : ccfg := mkcfg be (bigendian m) (allow_unaligned m).
