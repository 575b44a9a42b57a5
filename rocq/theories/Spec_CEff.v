(** Defined behaviour with respect to effective types, for histories of calls on one context. *)

From Coq Require Import Arith NArith ZArith List Strings.Byte.
From Verif Require Import Word Model_Go Model_C Model_CEff.
Import ListNotations.

(** Memory for a context: arrays of the declared sizes, contents arbitrary. *)
Definition ctx_memory (c : ctx) : Prop :=
  length (c_buffer c) = 64%nat /\ length (c_m1 c) = 80%nat /\ length (c_m2 c) = 80%nat /\ length (c_states c) = 80%nat.
(** SHA1DCInit on it: declared in C (a local or static SHA1_CTX), or memory without declared type. *)
Definition fresh (declared : bool) (c : ctx) : ectx := e_new declared (SHA1DCInit c).

(** An input: bytes and their effective types. *)
Definition typed (w : list byte * list etype) : Prop := length (snd w) = length (fst w).
(** An input of a program that only used C characters: an array of characters. *)
Definition chars (p : list byte) : list byte * list etype := (p, repeat EChar (length p)).
(** An input without characters: memory without effective type, or words. *)
Definition no_chars (w : list byte * list etype) : Prop := typed w /\ ~ In EChar (snd w).

(** The same calls when only the values matter. *)
Definition updates (cfg : ccfg) (c : ctx) (ps : list (list byte)) : option ctx :=
  fold_left (fun o p => match o with Some c => SHA1DCUpdate cfg c p | None => None end) ps (Some c).
(** The number of bytes of a history that wait for the end of their block. *)
Definition waiting (ws : list (list byte * list etype)) : nat := (length (concat (map fst ws)) mod 64)%nat.
