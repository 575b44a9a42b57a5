(** A string of bytes as read from memory that others write to.  Independent of the code in /repo. *)

From Coq Require Import Arith List Strings.Byte.
From Verif Require Import Word Spec_Sha1.
Import ListNotations.

(** Each byte of [l] is what the memory from [base] on held at that place at some time. *)
Definition seen (m : nat -> nat -> byte) (base : nat) (l : list byte) : Prop :=
  forall i, i < length l -> exists t, nth i l x00 = m t (base + i).
(** The same with the memory in several stages. *)
Definition seen_in (m : nat -> nat -> nat -> byte) (l : list byte) : Prop :=
  forall i, i < length l -> exists s t, nth i l x00 = m s t i.

(** Blocks read up to three times from [base] on: what each of the three readings found. *)
Fixpoint readings (m : nat -> nat -> byte) (base : nat) (l : list (list byte * list byte * list byte)) : Prop :=
  match l with
  | [] => True
  | (b1, b2, b3) :: l =>
    (forall b, b = b1 \/ b = b2 \/ b = b3 -> length b = 64 /\ seen m base b) /\ readings m (base + 64) l
  end.
(** SHA-1 with counter-cryptanalysis ([Spec_Cd]) for such blocks: the first reading decides. *)
Definition cd_readings (D : st -> list word -> bool) (s : st * bool) (l : list (list byte * list byte * list byte)) : st * bool :=
  fold_left (fun s b => let '(b1, b2, b3) := b in
    (if D (fst s) (words_of b1) then compress (compress (compress (fst s) (words_of b1)) (words_of b2)) (words_of b3)
     else compress (fst s) (words_of b1), (snd s || D (fst s) (words_of b1))%bool)) l s.
