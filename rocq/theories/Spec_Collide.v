(** Collisions of a digest and of the compression function.  Independent of the code in /repo. *)

From Coq Require Import Arith NArith List Strings.Byte.
From Verif Require Import Word Spec_Sha1 Spec_Cd Spec_DV Spec_Api Spec_C.
Import ListNotations.
Local Open Scope N_scope.

(** [M] is a block of the padded message [m] and [h] the chaining value it is processed from, for detection [D]. *)
Definition processed (D : st -> list word -> bool) (m : list byte) (h : st) (M : list word) : Prop :=
  exists j b, nth_error (blocks (pad m)) j = Some b /\ M = words_of b /\
    h = fst (cd_blocks D (IV, false) (firstn j (blocks (pad m)))).
(** The same for SHA-1. *)
Definition sha1_processed (m : list byte) (h : st) (M : list word) : Prop :=
  exists j b, nth_error (blocks (pad m)) j = Some b /\ M = words_of b /\
    h = sha1_blocks IV (firstn j (blocks (pad m))).
(** The C library under options [o], for detection [D]: one block, and the blocks of a message with their chaining values. *)
Definition c_step (D : copts -> st -> list word -> bool) (o : copts) (h : st) (M : list word) : st :=
  if (D o h M && o_safe o)%bool then compress (compress (compress h M) M) M else compress h M.
Definition c_processed (D : copts -> st -> list word -> bool) (o : copts) (m : list byte) (h : st) (M : list word) : Prop :=
  exists j b, nth_error (blocks (pad m)) j = Some b /\ M = words_of b /\
    h = fst (cc_blocks D o (IV, false) (firstn j (blocks (pad m)))).
(** Messages within the range of SHA-1: below 2^64 bits. *)
Definition in_range (m : list byte) : Prop := N.of_nat (length m) < 2 ^ 61.
