(** When calls that run at the same time are separate from each other and from other code. *)

From Coq Require Import Arith NArith List Strings.Byte Bool.
From Verif Require Import Word Model_Asm Model_Conc.
Import ListNotations.
Local Open Scope N_scope.

Definition in_range (a : N) (r : region) : Prop := rbase r <= a < rbase r + rsize r.
(** Ranges that only are read may be shared (the bytes to be hashed, the constants). *)
Definition separate (L L' : layout) : Prop :=
  forall r s, In r (regions L) -> In s (regions L') -> rwrite r = true \/ rwrite s = true -> apart r s.
Definition pairwise (ls : list layout) : Prop :=
  forall j k L L', j <> k -> nth_error ls j = Some L -> nth_error ls k = Some L' -> separate L L'.
(** m has in the ranges of L what m' has. *)
Definition agree (L : layout) (m m' : mem) : Prop := forall a r, In r (regions L) -> in_range a r -> m a = m' a.
(** No other code stores into the ranges of L. *)
Definition undisturbed (L : layout) (ev : list event) : Prop :=
  forall a b r, In (Store a b) ev -> In r (regions L) -> ~ in_range a r.
(** The number of turns of call k. *)
Fixpoint turns (k : nat) (ev : list event) : nat :=
  match ev with
  | [] => 0
  | Turn j :: q => (if j =? k then 1 else 0) + turns k q
  | Store _ _ :: q => turns k q
  end%nat.
