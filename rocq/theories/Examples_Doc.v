(** C58, C59 on concrete builds and messages (tests, not proofs). *)

From Coq Require Import String Arith NArith List Strings.Byte.
From Verif Require Import Word Spec_Sha1 Spec_DV Spec_Api Spec_Doc Model_Api Model_Go Model_Block Model_Build Gen_Build Data_Shambles GoRefute Examples_Go
  Examples_Iface Properties_Doc.
Import ListNotations.

Example C58_example : nresults "(data []byte) ([Size]byte, bool)" = 2 /\ nresults "() hash.Hash" = 1 /\ nresults "(dig *digest, p []byte)" = 0 /\
  map f_sig (decls linux_amd64 pkg_sha1cd "New") = ["() hash.Hash"%string] /\ decls linux_amd64 pkg_sha1cd "CollisionResistantSum" = [].
Proof. vm_compute. auto. Qed.

(** The digest of the first SHAmbles file is not its SHA-1; its tenth block is the one with the conditions. *)
Example C59_example : scoped 0 (calls exp1) /\ nth_error (calls exp1) 8 = Some (OCRSum 1 []) /\
  written 1 (firstn 8 (calls exp1)) = Some shambles1 /\
  option_map (fun r => nth_error r 8) (results (run_program false exp1)) = Some (Some (RVerdict (digest_after shambles1) true)) /\
  bytes_eqb (digest_after shambles1) (sha1 shambles1) = false /\
  nth_error (blocks (pad shambles1)) 9 = Some sh_b1 /\ ubc_holds 27 (schedule (words_of sh_b1)).
Proof.
  destruct C02_example as (_ & A & B & C & D & E). repeat (split; [assumption|]). destruct C15_example as (F & _). split; [assumption|].
  exact (proj1 (proj2 sh_attacked)).
Qed.
