(** SHA-1 with counter-cryptanalysis, parameterised by a detection predicate on
    (chaining value, block).  Independent of the code in /repo. *)

From Coq Require Import Arith NArith List Strings.Byte.
From Verif Require Import Word Spec_Sha1.
Import ListNotations.
Local Open Scope N_scope.

Section Cd.
  (** [D h M]: block [M] processed from chaining value [h] is detected. *)
  Variable D : st -> list word -> bool.

  (** One block: a detected block is compressed three times (240 steps). *)
  Definition cd_block (h : st) (M : list word) : st :=
    if D h M then compress (compress (compress h M) M) M else compress h M.

  (** Chaining value and verdict after a list of blocks. *)
  Definition cd_blocks (s : st * bool) (bs : list (list byte)) : st * bool :=
    fold_left (fun s b => (cd_block (fst s) (words_of b), (snd s || D (fst s) (words_of b))%bool)) bs s.

  (** Digest and verdict of a message. *)
  Definition cd_sum (m : list byte) : list byte * bool :=
    let '(h, f) := cd_blocks (IV, false) (blocks (pad m)) in (st_bytes h, f).
End Cd.

(** [D] decides the predicate [P] (on well-formed states and 16-word blocks of well-formed words). *)
Definition decides (D : st -> list word -> bool) (P : st -> list word -> Prop) : Prop :=
  forall h M, wfst h -> length M = 16%nat -> Forall wf M -> (D h M = true <-> P h M).
