(** The interfaces of the Go standard library that a hash offers: name, parameter types, result types. *)

From Coq Require Import String List.
Import ListNotations.
Local Open Scope string_scope.

(** hash.Hash with the embedded io.Writer. *)
Definition hash_Hash : list (string * list string * list string) :=
  [("Write", ["[]byte"], ["int"; "error"]); ("Sum", ["[]byte"], ["[]byte"]); ("Reset", [], []); ("Size", [], ["int"]); ("BlockSize", [], ["int"])].
(** encoding.BinaryMarshaler, encoding.BinaryUnmarshaler. *)
Definition checkpointing : list (string * list string * list string) :=
  [("MarshalBinary", [], ["[]byte"; "error"]); ("UnmarshalBinary", ["[]byte"], ["error"])].
(** The method that reports collisions. *)
Definition collision_sum : string * list string * list string := ("CollisionResistantSum", ["[]byte"], ["[]byte"; "bool"]).
