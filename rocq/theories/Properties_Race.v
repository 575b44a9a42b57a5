(** Properties of goroutines that share one hasher (properties.jsonl), stated about [Model_Race].

    Reading guide: [p] is the program that ran before, [d] the struct of its hasher [i]; [gs] are the calls of each goroutine, as
    programs [as_program g]; [sched] is any interleaving of their accesses to the struct ([shared]: the struct at its end, and for
    each goroutine [Some None] while it runs, [Some (Some r)] when it has ended with results or ([r = None]) a panic, in that
    nesting of options). *)

From Coq Require Import Arith NArith List Strings.Byte.
From Verif Require Import Word Spec_DV Spec_Cd Spec_Api Model_Go Model_Api Model_Block Model_Race Spec_Race Race.
Import ListNotations.

(** Goroutines that only observe: the hasher keeps its state, none panics, and the results are those of the same calls in sequence. *)
Theorem C65_observers : forall early p i ds rs d gs sched, scoped 0 (calls p) -> run_program early p = Some (ds, rs) -> nth_error ds i = Some d ->
  (forall g, In g gs -> on_hasher i g /\ observing g) ->
  fst (shared d gs sched) = d /\
  forall k g, nth_error gs k = Some g -> exists xs, run_program early (p ++ as_program g) = Some (ds, rs ++ xs) /\
    (nth_error (snd (shared d gs sched)) k = Some None \/ nth_error (snd (shared d gs sched)) k = Some (Some (Some xs))).
Proof. exact race_observers. Qed.
Print Assumptions C65_observers.

(** ... so each of their digests and verdicts is that of the bytes written before. *)
Theorem C65_digests : forall early D p i m ds rs d gs sched, decides D go_detects -> scoped 0 (calls p) -> run_program early p = Some (ds, rs) ->
  nth_error ds i = Some d -> written i (calls p) = Some m -> (forall g, In g gs -> on_hasher i g /\ observing g) ->
  forall k g xs, nth_error gs k = Some g -> nth_error (snd (shared d gs sched)) k = Some (Some (Some xs)) ->
  forall j c, nth_error g j = Some c ->
    (forall inp, gc_op c = OSum i inp -> nth_error xs j = Some (RBytes (inp ++ fst (cd_sum D m)))) /\
    (forall inp, gc_op c = OCRSum i inp -> nth_error xs j = Some (RVerdict (inp ++ fst (cd_sum D m)) (snd (cd_sum D m)))).
Proof. exact race_digest. Qed.
Print Assumptions C65_digests.

(** One goroutine that makes any calls, next to any number that only observe: its results and the final state are those of its calls
    alone. *)
Theorem C65_writer : forall early p i ds rs d gs w g sched, scoped 0 (calls p) -> run_program early p = Some (ds, rs) -> nth_error ds i = Some d ->
  nth_error gs w = Some g -> on_hasher i g -> (forall k h, k <> w -> nth_error gs k = Some h -> observing h) ->
  exists ds' xs, run_program early (p ++ as_program g) = Some (ds', rs ++ xs) /\
    (nth_error (snd (shared d gs sched)) w = Some None \/
     nth_error (snd (shared d gs sched)) w = Some (Some (Some xs)) /\ nth_error ds' i = Some (fst (shared d gs sched))).
Proof. exact race_writer. Qed.
Print Assumptions C65_writer.

(** Every interleaving can be continued until all goroutines have ended. *)
Theorem C65_ends : forall d gs sched, exists more, forall k, (k < length gs)%nat ->
  exists r, nth_error (snd (shared d gs (sched ++ more))) k = Some (Some r).
Proof. exact race_ends. Qed.
Print Assumptions C65_ends.

(** The copy of the struct does not protect the observer: Sum next to Write("abc") on a new hasher can panic, ... *)
Theorem C65_sum_refuted : exists sched, snd (shared New [write_g [x61; x62; x63]; sum_g] sched) = [Some (Some [RNum 3]); Some None].
Proof. exact sum_panics. Qed.
Print Assumptions C65_sum_refuted.

(** ... MarshalBinary next to Write("abc") can return the checkpoint of three zero bytes, ... *)
Theorem C65_marshal_refuted : exists sched b,
  snd (shared New [write_g [x61; x62; x63]; marshal_g] sched) = [Some (Some [RNum 3]); Some (Some [RBytes b])] /\
  b = checkpoint_of [x00; x00; x00] /\ b <> checkpoint_of [] /\ b <> checkpoint_of [x61; x62; x63].
Proof. exact marshal_mixes. Qed.
Print Assumptions C65_marshal_refuted.

(** ... and of two Writes that both report success one can be lost. *)
Theorem C65_writes_refuted : exists sched early, let r := shared New [write_g [x61]; write_g [x62]] sched in
  snd r = [Some (Some [RNum 1]); Some (Some [RNum 1])] /\
  run_program early [(Generic, ONew); (Generic, OWrite 0 [x62])] = Some ([fst r], [RNew 0; RNum 1]).
Proof. exact write_lost. Qed.
Print Assumptions C65_writes_refuted.
