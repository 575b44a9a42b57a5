(** Properties of the exported types (properties.jsonl), stated about the model.

    Reading guide: [hasher e], [cgo_hasher e]: the method set (name, parameter types, result types) of the value that New of
    package sha1cd, of package cgo returns in the build with the tags e. *)

From Coq Require Import String List.
From Verif Require Import Model_Build Model_Iface Gen_Methods Model_Hasher Spec_Iface IfaceFacts.
Import ListNotations.
Local Open Scope string_scope.

(** C57; missing: checkpointing of the hashers of package cgo (C57_checkpointing_refuted). *)
Theorem C57_implements_partial : forall e : tags,
  incl (collision_sum :: hash_Hash ++ checkpointing) (hasher e) /\ incl (collision_sum :: hash_Hash) (cgo_hasher e).
Proof. exact implements. Qed.
Print Assumptions C57_implements_partial.

(** What a program can ask for is this interface, and no more is to be had. *)
Theorem C57_interface : CollisionResistantHash = ([collision_sum], ["hash.Hash"]).
Proof. exact iface_type. Qed.
Print Assumptions C57_interface.

Theorem C57_no_other_methods : forall e : tags,
  (forall s, In s (hasher e) -> exported (fst (fst s)) = true -> In s (collision_sum :: hash_Hash ++ checkpointing)) /\
  (e "cgo" = true -> forall s, In s (cgo_hasher e) -> exported (fst (fst s)) = true -> In s (collision_sum :: hash_Hash)).
Proof. exact exported_only. Qed.
Print Assumptions C57_no_other_methods.

Theorem C57_declared_once : forall e : tags,
  NoDup (map (fun s => fst (fst s)) (hasher e)) /\ NoDup (map (fun s => fst (fst s)) (cgo_hasher e)).
Proof. exact declared_once. Qed.
Print Assumptions C57_declared_once.

Theorem C57_checkpointing_refuted : exists e1 e2 : tags, (forall t, t <> "cgo" -> e1 t = e2 t) /\ incl checkpointing (cgo_hasher e1) /\
  forall s, In s checkpointing -> ~ In s (cgo_hasher e2).
Proof. exact no_checkpoints_cgo. Qed.
Print Assumptions C57_checkpointing_refuted.
