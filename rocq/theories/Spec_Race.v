(** What may be expected of goroutines that share a hasher. *)

From Coq Require Import Arith NArith List Strings.Byte.
From Verif Require Import Word Spec_Api Model_Go Model_Block Model_Race.
Import ListNotations.

(** The calls of a goroutine, as a program. *)
Definition as_program (g : list gcall) : program := map (fun c => (gc_impl c, gc_op c)) g.
(** Calls on hasher [i], whose struct copies read every field. *)
Definition on_hasher (i : nat) (g : list gcall) : Prop :=
  forall c, In c g -> target (gc_op c) = Some i /\ forall l, In l all_locs -> In l (gc_order c).
(** Calls that only observe. *)
Definition observing (g : list gcall) : Prop := forall c, In c g -> observer (gc_op c) = true.

(** Goroutines [gs] on the struct [d], interleaved: the struct at the end, and for each goroutine [Some (Some results)] if it
    has ended, [Some None] if it has panicked, [None] if it is in the middle of a call or has calls left. *)
Definition outcome {L V A} (a : act L V A) : option (option A) :=
  match a with Ret x => Some (Some x) | Panic => Some None | _ => None end.
Definition shared (d : digest) (gs : list (list gcall)) (sched : list nat) : digest * list (option (option (list res))) :=
  let '(m, ts) := interleave gloc_eqb (mem_of d) (map r_calls gs) sched in (digest_of m, map outcome ts).
