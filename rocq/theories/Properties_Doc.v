(** Properties of the promises of README.md (properties.jsonl), stated about the model.

    Reading guide: [decls e pkg_sha1cd n]: the declarations of the function n of package sha1cd in the build with the tags e;
    [std_sha1_funcs], [std_sha1_consts]: the functions and constants of crypto/sha1; [readme_calls]: the functions that README.md
    calls, with the number of results it uses.  Programs as in Properties_Go.v. *)

From Coq Require Import String Arith NArith List Strings.Byte.
From Verif Require Import Word Spec_Sha1 Spec_DV Spec_Cd Spec_Api Spec_Doc Model_Api Model_Block Model_Build Gen_Build DocFacts.
Import ListNotations.

(** C58; missing: Sum (C58_sum_refuted). *)
Theorem C58_dropin_partial : forall e : tags,
  (forall f, In f std_sha1_funcs -> fst f <> "Sum"%string -> exists g, decls e pkg_sha1cd (fst f) = [g] /\ f_sig g = snd f) /\
  consts e pkg_sha1cd = std_sha1_consts.
Proof. exact dropin. Qed.
Print Assumptions C58_dropin_partial.

Theorem C58_sum_refuted : exists f, In f std_sha1_funcs /\
  forall e : tags, ~ exists g, decls e pkg_sha1cd (fst f) = [g] /\ f_sig g = snd f.
Proof. exact no_dropin_sum. Qed.
Print Assumptions C58_sum_refuted.

(** Neither of the two calls of README.md compiles in any build. *)
Theorem C58_no_readme_call : forall c, In c readme_calls ->
  forall (e : tags) g, In g (decls e pkg_sha1cd (fst c)) -> nresults (f_sig g) <> snd c.
Proof. exact no_readme_call. Qed.
Print Assumptions C58_no_readme_call.

(** C59; missing: a block with the bit conditions changes the digest (C59_changed_refuted). *)
Theorem C59_changed_partial : forall early p k i inp m b v ds rs, scoped 0 (calls p) ->
  nth_error (calls p) k = Some (OCRSum i inp) -> written i (firstn k (calls p)) = Some m ->
  run_program early p = Some (ds, rs) -> nth_error rs k = Some (RVerdict b v) -> b <> inp ++ sha1 m ->
  v = true /\ exists c d, In c (blocks (pad m)) /\ d < 32 /\ ubc_holds d (schedule (words_of c)).
Proof. exact differs_conditions. Qed.
Print Assumptions C59_changed_partial.

Theorem C59_changed_refuted : exists early p k i inp m ds rs c d, scoped 0 (calls p) /\
  nth_error (calls p) k = Some (OCRSum i inp) /\ written i (firstn k (calls p)) = Some m /\
  In c (blocks (pad m)) /\ d < 32 /\ ubc_holds d (schedule (words_of c)) /\
  run_program early p = Some (ds, rs) /\ nth_error rs k = Some (RVerdict (inp ++ sha1 m) false).
Proof. exact conditions_unchanged. Qed.
Print Assumptions C59_changed_refuted.
