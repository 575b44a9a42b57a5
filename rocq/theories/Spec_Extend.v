(** Length extension: what the statements speak of. *)

From Coq Require Import Arith NArith List Strings.Byte.
From Verif Require Import Word Spec_Sha1 Spec_Api.
Import ListNotations.
Local Open Scope N_scope.

(** A checkpoint made from a digest and a length alone, for a message that ends with the padding of one of length n. *)
Definition forged (digest : list byte) (n : nat) : list byte :=
  magic ++ digest ++ zeros 64 ++ be64 (N.of_nat (n + length (padding (N.of_nat n))) mod M64).
