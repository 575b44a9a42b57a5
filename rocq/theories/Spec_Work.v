(** The work a block function has to do.  Independent of the code in /repo. *)

From Coq Require Import Arith NArith List Strings.Byte Bool.
From Verif Require Import Word Spec_Sha1 Spec_DV Spec_Cd Spec_Api Spec_C.
Import ListNotations.
Local Open Scope N_scope.

(** [U] decides the bit conditions. *)
Definition decides_ubc (U : nat -> list word -> bool) : Prop :=
  forall d W, (d < 32)%nat -> (U d W = true <-> ubc_holds d W).

(** Vectors whose bit conditions a block meets. *)
Definition candidates (U : nat -> list word -> bool) (b : list byte) : nat :=
  length (filter (fun d => U d (schedule (words_of b))) (seq 0 32)).
(** The blocks of [bs], hashed from [h], that are detected. *)
Fixpoint detected (D : st -> list word -> bool) (h : st) (bs : list (list byte)) : nat :=
  match bs with
  | [] => O
  | b :: bs => ((if D h (words_of b) then 1 else 0) + detected D (cd_block D h (words_of b)) bs)%nat
  end.
(** Sum over blocks. *)
Definition total (f : list byte -> nat) (bs : list (list byte)) : nat := fold_right (fun b n => (f b + n)%nat) O bs.

(** The vectors the C library has to try on a block under options [o]. *)
Definition c_candidates (U : nat -> list word -> bool) (o : copts) (b : list byte) : nat :=
  if o_detect o then if o_ubc o then candidates U b else 32%nat else O.
