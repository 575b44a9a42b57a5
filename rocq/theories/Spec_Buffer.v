(** Turns and stores of other code among the events of Model_Buffer.v. *)

From Coq Require Import Arith NArith List Strings.Byte Bool.
From Verif Require Import Word Model_Asm Model_Buffer Spec_Conc.
Import ListNotations.
Local Open Scope N_scope.

(** No other code stores into the ranges of L. *)
Definition bundisturbed (L : layout) (ev : list bevent) : Prop :=
  forall a b r, In (BStore a b) ev -> In r (regions L) -> ~ in_range a r.
(** The number of turns of call k. *)
Fixpoint bturns (k : nat) (ev : list bevent) : nat :=
  match ev with
  | [] => 0
  | BTurn j :: q => (if j =? k then 1 else 0) + bturns k q
  | _ :: q => bturns k q
  end%nat.
