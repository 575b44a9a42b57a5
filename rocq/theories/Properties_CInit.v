(** Reads of memory that has not been written. *)

From Coq Require Import NArith ZArith List Strings.Byte.
From Verif Require Import Word Spec_C Model_Go Model_C Model_CApi Model_CInit Spec_CInit CInit.
Import ListNotations.

(** C72: on a SHA1_CTX that has never been written, calls of the C API in which SHA1DCInit comes first read no indeterminate value, whatever
    the memory held; the results are those of the library on every initial contents, and so is everything it has written. *)
Theorem C72_defined : forall cfg os, initialised_first os ->
  exists i rs, i_run cfg unwritten os = Some (i, rs) /\
    forall c0, ctx_typed c0 -> exists c, capi_run cfg c0 os = Some (c, rs) /\ agrees i c.
Proof. exact no_indeterminate_read. Qed.
Print Assumptions C72_defined.

(** And that condition is exact: setters and empty updates are all that can come before SHA1DCInit. *)
Theorem C72_exact : forall cfg os, i_run cfg unwritten os <> None <-> initialised_first os.
Proof. exact indeterminate_read_iff. Qed.
Print Assumptions C72_exact.
