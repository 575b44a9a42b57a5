(** Properties of goroutines that share one cgo hasher (properties.jsonl), stated about [Model_CRace].

    Reading guide: [p] is the history of calls that ran before, [d] the struct of its hasher [i]; [gs] are the calls of each goroutine
    ([c_calls g]); [sched] is any interleaving of their accesses to the struct ([c_shared]: the struct at its end, and for each
    goroutine [None] while it runs, [Some r] when it has ended with results or ([r = None]) a crash). *)

From Coq Require Import Arith NArith List Strings.Byte.
From Verif Require Import Word Spec_Sha1 Spec_DV Spec_Cd Spec_Api Spec_C Model_Go Model_C Model_CApi Model_CRace Spec_CRace CRace.
Import ListNotations.

(** Goroutines that only observe: the hasher keeps its state, none crashes, and the results are those of the same calls in sequence. *)
Theorem C66_observers : forall cfg p i ds rs d, scoped 0 p -> Forall cgo_call p -> c_run cfg [] p = Some (ds, rs) -> nth_error ds i = Some d ->
  forall gs sched, (forall g, In g gs -> on_chasher i g /\ c_observing g) ->
  fst (c_shared cfg d gs sched) = d /\
  forall k g, nth_error gs k = Some g -> exists xs, c_run cfg [] (p ++ c_calls g) = Some (ds, rs ++ xs) /\
    (nth_error (snd (c_shared cfg d gs sched)) k = Some None \/ nth_error (snd (c_shared cfg d gs sched)) k = Some (Some (Some xs))).
Proof. exact crace_observers. Qed.
Print Assumptions C66_observers.

(** ... so each of their digests and verdicts is that of the bytes written before. *)
Theorem C66_digests : forall cfg p i ds rs d, scoped 0 p -> Forall cgo_call p -> c_run cfg [] p = Some (ds, rs) -> nth_error ds i = Some d ->
  forall D m gs sched, host_be cfg = macro_be cfg -> decides D attacked -> written i p = Some m ->
  (forall g, In g gs -> on_chasher i g /\ c_observing g) ->
  forall k g xs, nth_error gs k = Some g -> nth_error (snd (c_shared cfg d gs sched)) k = Some (Some (Some xs)) ->
  forall j c, nth_error g j = Some c ->
    (forall inp, cc_op c = OSum i inp -> nth_error xs j = Some (RBytes (inp ++ fst (cd_sum D m)))) /\
    (forall inp, cc_op c = OCRSum i inp -> nth_error xs j = Some (RVerdict (inp ++ fst (cd_sum D m)) (snd (cd_sum D m)))).
Proof. exact crace_digest. Qed.
Print Assumptions C66_digests.

(** One goroutine that makes any calls, next to any number that only observe: its results and the final state are those of its calls
    alone. *)
Theorem C66_writer : forall cfg p i ds rs d, scoped 0 p -> Forall cgo_call p -> c_run cfg [] p = Some (ds, rs) -> nth_error ds i = Some d ->
  forall gs w g sched, nth_error gs w = Some g -> on_chasher i g -> (forall k h, k <> w -> nth_error gs k = Some h -> c_observing h) ->
  exists ds' xs, c_run cfg [] (p ++ c_calls g) = Some (ds', rs ++ xs) /\
    (nth_error (snd (c_shared cfg d gs sched)) w = Some None \/
     nth_error (snd (c_shared cfg d gs sched)) w = Some (Some (Some xs)) /\ nth_error ds' i = Some (fst (c_shared cfg d gs sched))).
Proof. exact crace_writer. Qed.
Print Assumptions C66_writer.

(** Any goroutines, any calls: no call indexes outside an array or reaches abort(), and each returns a result of the promised form. *)
Theorem C66_safe : forall cfg p i ds rs d, scoped 0 p -> Forall cgo_call p -> c_run cfg [] p = Some (ds, rs) -> nth_error ds i = Some d ->
  forall gs sched, (forall g, In g gs -> on_chasher i g) ->
  forall k g r, nth_error gs k = Some g -> nth_error (snd (c_shared cfg d gs sched)) k = Some (Some r) ->
  exists xs, r = Some xs /\ Forall2 shaped (c_calls g) xs.
Proof. exact crace_safe. Qed.
Print Assumptions C66_safe.

(** Every interleaving can be continued until all goroutines have ended. *)
Theorem C66_ends : forall cfg d gs sched, exists more, forall k, (k < length gs)%nat ->
  exists r, nth_error (snd (c_shared cfg d gs (sched ++ more))) k = Some (Some r).
Proof. exact crace_ends. Qed.
Print Assumptions C66_ends.

(** The copy of the struct does not avoid the race: Sum next to Write("abc") on a new hasher can return the digest of three zero
    bytes, which nobody has written, ... *)
Theorem C66_sum_refuted : forall cfg, host_be cfg = macro_be cfg -> exists sched,
  snd (c_shared cfg cgo_New [cwrite_g [x61; x62; x63]; csum_g] sched) =
    [Some (Some [RNum 3]); Some (Some [RBytes (sha1 [x00; x00; x00])])] /\
  sha1 [x00; x00; x00] <> sha1 [] /\ sha1 [x00; x00; x00] <> sha1 [x61; x62; x63].
Proof. exact csum_mixes. Qed.
Print Assumptions C66_sum_refuted.

(** ... and of two Writes that both report success one can be lost. *)
Theorem C66_writes_refuted : forall cfg, exists sched, let r := c_shared cfg cgo_New [cwrite_g [x61]; cwrite_g [x62]] sched in
  snd r = [Some (Some [RNum 1]); Some (Some [RNum 1])] /\
  c_run cfg [] [ONew; OWrite 0 [x62]] = Some ([fst r], [RNew 0; RNum 1]).
Proof. exact cwrite_lost. Qed.
Print Assumptions C66_writes_refuted.
