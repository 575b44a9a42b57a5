(** C's integer types. *)

From Coq Require Import Arith NArith ZArith List Strings.Byte Bool.
From Verif Require Import Word Spec_Sha1 Spec_DV Spec_C DvFacts Model_Go Model_CSteps Model_C Model_CApi Model_CTypes Gen_CTyped Model_CTyped CMacros CTyped.
Import ListNotations.
Local Open Scope N_scope.

(** C63, ubc_check.c: defined, and the bits of the mask are the bit conditions, for an int of 32 bits and for an int of 63 bits or more. *)
Theorem C63_ubc_check : forall w W, w = 32%Z \/ (63 <= w)%Z -> Forall wf W ->
  exists mask, ubc_check_typed w ubc_typed W = Some mask /\ forall d, (d < 32)%nat -> (N.testbit mask (N.of_nat d) = true <-> ubc_holds d W).
Proof. exact typed_ubc. Qed.
Print Assumptions C63_ubc_check.

(** The objects that ubc_check.c defines for the bits of the mask. *)
Theorem C63_bits : forall w n e, w = 32%Z \/ (63 <= w)%Z -> In (n, e) bit_inits -> assigned w (fun _ => 0) e = Some n.
Proof. exact bits_ok. Qed.
Print Assumptions C63_bits.

(** sha1.c: one block. *)
Theorem C63_process : forall w cfg D c block, w = 32%Z \/ (63 <= w)%Z -> host_be cfg = macro_be cfg -> cdecides D -> ctx_typed c -> words32 c ->
  length block = 64%nat ->
  let h := c_ihv c in let M := words_of block in let b := D (ctx_opts c) h M in
  exists c', t_process w cfg c block = Some c' /\
    c_ihv c' = (if b && yes (c_safe c) then compress (compress (compress h M) M) M else compress h M) /\ c_found c' = (if b then 1 else c_found c)%Z.
Proof. exact typed_process. Qed.
Print Assumptions C63_process.

(** Every list of calls of the API. *)
Theorem C63_api : forall w cfg D c ops, w = 32%Z \/ (63 <= w)%Z -> host_be cfg = macro_be cfg -> cdecides D -> ctx_typed c -> words32 c ->
  exists c', t_run w cfg c (CInit :: ops) = Some (c', CNone :: snd (ch_run D ch_init ops)).
Proof. exact typed_api. Qed.
Print Assumptions C63_api.

(** With an int of 33 to 62 bits, which the C standard allows, every list of calls that asks for a digest has undefined behaviour. *)
Theorem C63_narrow : forall w cfg c ops, (33 <= w <= 62)%Z -> In CFinal ops -> t_run w cfg c (CInit :: ops) = None.
Proof. exact narrow_api. Qed.
Print Assumptions C63_narrow.
