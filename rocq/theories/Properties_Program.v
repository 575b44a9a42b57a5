(** Programs that call package sha1cd and store into the table of package ubc. *)

From Coq Require Import Arith NArith List Strings.Byte Bool.
From Verif Require Import Word Spec_Sha1 Spec_Cd Spec_Api Spec_Marks Model_Ubc Gen_DvsGo Model_Go Model_Api Model_Table Model_Program TableApi.
Import ListNotations.
Local Open Scope N_scope.

(** C52: one store, and no message is flagged any more: every digest is plain SHA-1 with the verdict false. *)
Theorem C52_program_off_refuted : exists i v, forall early es, (forall e, In e es -> exists o, e = TCall o) -> scoped 0 (calls es) ->
  exists T ds rs, trun early dvs_go [] (TStore i v :: es) = Some (T, ds, RUnit :: rs) /\
    forall k j inp m, nth_error es k = Some (TCall (OCRSum j inp)) -> written j (calls (firstn k es)) = Some m ->
      nth_error rs k = Some (RVerdict (inp ++ sha1 m) false).
Proof. exact program_off. Qed.
Print Assumptions C52_program_off_refuted.

(** What holds for every program, whatever it stores and whenever: the digest is SHA-1 with some blocks compressed three times, and the
    verdict says whether there is such a block. *)
Theorem C52_program_verdict_partial : forall early T es T' ds rs k i inp m, trun early T [] es = Some (T', ds, rs) ->
  nth_error es k = Some (TCall (OCRSum i inp)) -> written i (calls (firstn k es)) = Some m ->
  exists l, marks m l /\ nth_error rs k = Some (RVerdict (inp ++ st_bytes (marked IV l)) (existsb snd l)).
Proof. exact program_verdict. Qed.
Print Assumptions C52_program_verdict_partial.

Theorem C52_program_sum_partial : forall early T es T' ds rs k i inp m, trun early T [] es = Some (T', ds, rs) ->
  nth_error es k = Some (TCall (OSum i inp)) -> written i (calls (firstn k es)) = Some m ->
  exists l, marks m l /\ nth_error rs k = Some (RBytes (inp ++ st_bytes (marked IV l))).
Proof. exact program_sum. Qed.
Print Assumptions C52_program_sum_partial.

Theorem C52_program_plain_partial : forall early T es T' ds rs k i inp m b, trun early T [] es = Some (T', ds, rs) ->
  nth_error es k = Some (TCall (OCRSum i inp)) -> written i (calls (firstn k es)) = Some m ->
  nth_error rs k = Some (RVerdict b false) -> b = inp ++ sha1 m.
Proof. exact program_plain. Qed.
Print Assumptions C52_program_plain_partial.

(** No panic as long as the stored rows stay below the terminator and use one of the stored states. *)
Theorem C52_program_total_partial : forall early es,
  (forall i v, In (TStore i v) es -> (i < 32)%nat /\ In (testT v) [0; 58; 65]) -> scoped 0 (calls es) ->
  exists T ds rs, trun early dvs_go [] es = Some (T, ds, rs).
Proof. exact program_total. Qed.
Print Assumptions C52_program_total_partial.

(** Programs without stores are those of the model of the API. *)
Theorem C52_program_calls : forall early os ds, trun early dvs_go ds (map TCall os) =
  (do (ds', rs) <- run early ds (map (fun o => (blockGeneric, o)) os); Some (dvs_go, ds', rs)).
Proof. exact program_calls. Qed.
Print Assumptions C52_program_calls.
