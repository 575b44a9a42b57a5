(** SHA-1 with some of the blocks marked: a marked block is compressed three times.  This is what safe hashing makes of a message when
    nothing is known about which blocks it flags.  Independent of the code in /repo. *)

From Coq Require Import NArith List Strings.Byte Bool.
From Verif Require Import Word Spec_Sha1.
Import ListNotations.
Local Open Scope N_scope.

(** A list of blocks, each with its mark. *)
Definition marked (h : st) (l : list (list byte * bool)) : st :=
  fold_left (fun h x => let M := words_of (fst x) in if snd x : bool then compress (compress (compress h M) M) M else compress h M) l h.
(** [l] marks the blocks of the padded message [m]. *)
Definition marks (m : list byte) (l : list (list byte * bool)) : Prop := map fst l = blocks (m ++ padding (N.of_nat (length m))).
