(** Reads of memory that has not been written: specification. *)

From Coq Require Import NArith ZArith List Strings.Byte.
From Verif Require Import Word Model_Go Model_CSteps Model_C Spec_C Model_CInit.
Import ListNotations.

(** The calls that do something with the data hashed so far. *)
Definition uses (o : cop) : Prop :=
  match o with CUpdate p => p <> [] | CFinal => True | _ => False end.
(** Each of them comes after a call of SHA1DCInit. *)
Definition initialised_first (os : list cop) : Prop :=
  forall before o after, os = before ++ o :: after -> uses o -> In CInit before.

(** What has been written is what Model_C has there; nothing is said of the rest. *)
Definition holds {A} (o : option A) (x : A) : Prop := forall y, o = Some y -> y = x.
Definition all_hold {A} (l : list (option A)) (m : list A) : Prop := Forall2 holds l m.
Record agrees (i : ictx) (c : ctx) : Prop := mkagrees {
  ag_total : holds (i_total i) (c_total c); ag_ihv : holds (i_ihv i) (c_ihv c); ag_buffer : all_hold (i_buffer i) (c_buffer c);
  ag_found : holds (i_found i) (c_found c); ag_safe : holds (i_safe i) (c_safe c); ag_detect : holds (i_detect i) (c_detect c);
  ag_ubc : holds (i_ubc i) (c_ubc c); ag_reduced : holds (i_reduced i) (c_reduced c); ag_callback : holds (i_callback i) (c_callback c);
  ag_ihv1 : holds (i_ihv1 i) (c_ihv1 c); ag_ihv2 : holds (i_ihv2 i) (c_ihv2 c);
  ag_m1 : all_hold (i_m1 i) (c_m1 c); ag_m2 : all_hold (i_m2 i) (c_m2 c); ag_states : all_hold (i_states i) (c_states c) }.
