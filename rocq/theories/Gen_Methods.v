(** GENERATED by tools/gen_methods.py from the text of /repo; do not edit. *)
From Coq Require Import String List.
From Verif Require Import Model_Iface.
Import ListNotations.
Local Open Scope string_scope.

(** The methods of the files of /repo/. *)
Definition meths_sha1cd : list (string * list meth) := [
  ("detection.go", []);
  ("sha1cd.go", [mkmeth "digest" true "MarshalBinary" [] ["[]byte"; "error"] (* line 39 *);
    mkmeth "digest" true "UnmarshalBinary" ["[]byte"] ["error"] (* line 75 *);
    mkmeth "digest" true "Reset" [] [] (* line 107 *);
    mkmeth "digest" true "Size" [] ["int"] (* line 128 *);
    mkmeth "digest" true "BlockSize" [] ["int"] (* line 130 *);
    mkmeth "digest" true "Write" ["[]byte"] ["int"; "error"] (* line 132 *);
    mkmeth "digest" true "Sum" ["[]byte"] ["[]byte"] (* line 159 *);
    mkmeth "digest" true "checkSum" [] ["[Size]byte"] (* line 166 *);
    mkmeth "digest" true "CollisionResistantSum" ["[]byte"] ["[]byte"; "bool"] (* line 207 *)]);
  ("sha1cdblock_amd64.go", []);
  ("sha1cdblock_arm64.go", []);
  ("sha1cdblock_generic.go", []);
  ("sha1cdblock_noasm.go", [])].
(** /repo/detection.go line 5: methods and embedded interfaces. *)
Definition CollisionResistantHash : list (string * list string * list string) * list string := ([("CollisionResistantSum", ["[]byte"], ["[]byte"; "bool"])], ["hash.Hash"]).

(** The methods of the files of /repo/cgo. *)
Definition meths_cgo : list (string * list meth) := [
  ("fallback_no_cgo.go", []);
  ("sha1.go", [mkmeth "digest" true "sum" [] ["[Size]byte"; "bool"] (* line 28 *);
    mkmeth "digest" true "Sum" ["[]byte"] ["[]byte"] (* line 37 *);
    mkmeth "digest" true "CollisionResistantSum" ["[]byte"] ["[]byte"; "bool"] (* line 43 *);
    mkmeth "digest" true "Reset" [] [] (* line 49 *);
    mkmeth "digest" true "Size" [] ["int"] (* line 53 *);
    mkmeth "digest" true "BlockSize" [] ["int"] (* line 55 *);
    mkmeth "digest" true "Write" ["[]byte"] ["int"; "error"] (* line 66 *)]);
  ("ubc_check.go", [])].

