(** What the statements about the benchmarks speak of. *)

From Coq Require Import Arith NArith List Strings.Byte.
From Verif Require Import Word Spec_Sha1 Spec_Cd Model_Go Model_Slice Model_C Model_Bench.
Import ListNotations.

(** A slice of an array of the heap. *)
Definition slice_of (H : heap) (s : slice) : Prop :=
  s_arr s < length H /\ s_len s <= s_cap s /\ s_off s + s_cap s <= length (nth (s_arr s) H []).
(** What New of either package returns. *)
Definition brand_new (h : bhasher) : Prop := match h with BGo _ d => d = New | BCgo d => d = cgo_New end.
(** The detection of the hasher: [D] in package sha1cd, [E] in package cgo. *)
Definition detection D E (h : bhasher) : st -> list word -> bool := match h with BGo _ _ => D | BCgo _ => E end.
(** A message whose first 20 bytes have been replaced by its digest. *)
Definition overwritten D (m : list byte) : list byte := fst (cd_sum D m) ++ skipn 20 m.
