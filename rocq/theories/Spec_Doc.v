(** What /repo/README.md promises, and the standard library that it refers to. *)

From Coq Require Import Ascii String List.
Import ListNotations.
Local Open Scope string_scope.

(** crypto/sha1: the functions of the package (name, parameters and results) and its constants. *)
Definition std_sha1_funcs : list (string * string) := [("New", "() hash.Hash"); ("Sum", "(data []byte) [Size]byte")].
Definition std_sha1_consts : list string := ["Size"; "BlockSize"].

(** README.md:15-40: the package functions that the two usage examples call, with the number of results they use. *)
Definition readme_calls : list (string * nat) := [("Sum", 1); ("CollisionResistantSum", 2)].

(** The number of results of a function written as in the Go source: text after the parameter list. *)
Fixpoint after_params (s : string) : string :=
  match s with
  | EmptyString => ""
  | String c r => if Ascii.eqb c ")" then r else after_params r
  end.
Fixpoint commas (s : string) : nat :=
  match s with
  | EmptyString => 0
  | String c r => if Ascii.eqb c "," then S (commas r) else commas r
  end.
Definition nresults (sig : string) : nat :=
  match after_params sig with
  | EmptyString => 0
  | r => S (commas r)
  end.
