(** What may be expected of goroutines that share a cgo hasher. *)

From Coq Require Import Arith NArith List Strings.Byte.
From Verif Require Import Word Spec_Api Spec_C Model_C Model_Race Model_CRace Spec_Race.
Import ListNotations.

(** The calls of a goroutine. *)
Definition c_calls (g : list ccall) : list op := map cc_op g.
(** Calls of methods on hasher [i], whose struct copies read every member. *)
Definition on_chasher (i : nat) (g : list ccall) : Prop :=
  forall c, In c g -> target (cc_op c) = Some i /\ cgo_call (cc_op c) /\ forall l, In l all_members -> In l (cc_order c).
(** Calls that only observe. *)
Definition c_observing (g : list ccall) : Prop := forall c, In c g -> observer (cc_op c) = true.

(** Goroutines [gs] on the struct [d], interleaved: the struct at the end and how far each goroutine is, as in Spec_Race. *)
Definition c_shared (cfg : ccfg) (d : cdigest) (gs : list (list ccall)) (sched : list nat)
    : cdigest * list (option (option (list res))) :=
  let '(m, ts) := interleave cloc_eqb (cmem_of d) (map (rc_calls cfg) gs) sched in (cdigest_of m, map outcome ts).

(** A result of the form that the method promises, right or not. *)
Definition shaped (o : op) (r : res) : Prop :=
  match o with
  | OWrite _ p => r = RNum (length p)
  | OSum _ inp => exists h, r = RBytes (inp ++ h) /\ length h = 20%nat
  | OCRSum _ inp => exists h v, r = RVerdict (inp ++ h) v /\ length h = 20%nat
  | OReset _ => r = RUnit
  | OSize _ => r = RNum 20
  | OBlockSize _ => r = RNum 64
  | _ => False
  end.
