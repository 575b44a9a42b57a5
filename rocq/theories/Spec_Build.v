(** Notions for the properties about build configurations; independent of the code in /repo. *)

From Coq Require Import Decimal DecimalString NArith String List Bool.
Import ListNotations.
Local Open Scope string_scope.

(** Predefined macros with their values: those that name a byte order next to the name of big-endian, and those that
    only exist on big-endian machines. *)
Definition order_macros : list (string * string) :=
  [("__BYTE_ORDER__", "__ORDER_BIG_ENDIAN__"); ("__BYTE_ORDER", "__BIG_ENDIAN"); ("_BYTE_ORDER", "_BIG_ENDIAN")].
Definition big_only_macros : list string :=
  ["__ARMEB__"; "__THUMBEB__"; "__AARCH64EB__"; "__MIPSEB__"; "__MIPSEB"; "_MIPSEB"; "__sparc"; "_AIX"; "__hpux"].

(** The macros tell the truth about a machine ([be]: big-endian). *)
Definition truthful (m : string -> option N) (be : bool) : Prop :=
  (forall x y v w, In (x, y) order_macros -> m x = Some v -> m y = Some w -> (v = w <-> be = true)) /\
  (forall x, In x big_only_macros -> m x <> None -> be = true).

(** Some macro tells the byte order, in the form that the platforms use: the two of gcc, the two of glibc, the three of BSD,
    or a macro of a big-endian platform. *)
Definition tells (m : string -> option N) : Prop :=
  (m "__BYTE_ORDER__" <> None /\ m "__ORDER_BIG_ENDIAN__" <> None) \/
  (m "__BYTE_ORDER" <> None /\ m "__BIG_ENDIAN" <> None) \/
  (m "_BYTE_ORDER" <> None /\ m "_BIG_ENDIAN" <> None /\ m "_LITTLE_ENDIAN" <> None) \/
  (exists x, In x big_only_macros /\ m x <> None).

(** Macros of x86 compilers. *)
Definition x86_macros : list string :=
  ["__amd64__"; "__amd64"; "__x86_64__"; "__x86_64"; "i386"; "__i386"; "__i386__"; "__i486__"; "__i586__"; "__i686__";
   "_M_IX86"; "__X86__"; "_X86_"; "__THW_INTEL__"; "__I86__"; "__INTEL__"; "__386"; "_M_X64"; "_M_AMD64"].

(** DOSTORESTATE followed by a decimal number, as in ubc_check.h. *)
Definition dostore_name (t : nat) : string := "DOSTORESTATE" ++ NilEmpty.string_of_uint (Nat.to_uint t).
