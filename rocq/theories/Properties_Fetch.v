(** Input that changes while a call reads it. *)

From Coq Require Import Arith NArith List Strings.Byte Bool.
From Verif Require Import Word Spec_Sha1 Spec_DV Spec_Cd Spec_Fetch DvFacts Model_Go Model_Block Model_C Model_Fetch FetchFacts FetchApi.
Import ListNotations.
Local Open Scope N_scope.

(** C62, the C code: a call of SHA1DCUpdate does what it would do on one fixed string, each byte of which was in the input at some time. *)
Theorem C62_c_update : forall cfg m len c, exists buf, length buf = len /\ seen m 0 buf /\ SHA1DCUpdate cfg c buf = SHA1DCUpdate_at cfg m len c.
Proof. exact update_at_eq. Qed.
Print Assumptions C62_c_update.

(** On input that does not change the functions of this model are those of the others. *)
Theorem C62_c_constant : forall cfg p c, SHA1DCUpdate_at cfg (fun _ i => nth i p x00) (length p) c = SHA1DCUpdate cfg c p.
Proof. exact update_at_const. Qed.
Print Assumptions C62_c_constant.

Theorem C62_go_constant : forall c p d, wfst (dh d) -> block_at c (fun _ i => nth i p x00) (length p) d = blockGeneric d p.
Proof. exact block_at_const. Qed.
Print Assumptions C62_go_constant.

(** The Go code: each block is read once, and twice more if the first reading is flagged.  Never a panic. *)
Theorem C62_go_readings : forall c D m len d, decides D go_detects -> wfst (dh d) ->
  exists l, length l = (len / 64)%nat /\ readings m 0 l /\
    block_at c m len d = Some (mkd (fst (cd_readings D (dh d, dcol d) l)) (dx d) (dnx d) (dlen d) (snd (cd_readings D (dh d, dcol d) l))).
Proof. exact fetch_readings. Qed.
Print Assumptions C62_go_readings.

(** So a call of block need not do what it would do on any fixed string ... *)
Theorem C62_go_one_refuted : forall c, exists m len d d', wfst (dh d) /\ block_at c m len d = Some d' /\
  forall p, length p = len -> seen m 0 p -> blockGeneric d p <> Some d'.
Proof. exact fetch_refuted. Qed.
Print Assumptions C62_go_one_refuted.

(** ... but its verdict is that of one fixed string, and the chaining value too if the verdict is false. *)
Theorem C62_go_one_partial : forall c m len d, wfst (dh d) ->
  exists d' p d1, block_at c m len d = Some d' /\ length p = len /\ seen m 0 p /\ blockGeneric d p = Some d1 /\ dcol d1 = dcol d' /\
    (dcol d' = false -> d1 = d').
Proof. exact fetch_verdict. Qed.
Print Assumptions C62_go_one_partial.

(** Any Writes of changing input, then the sum. *)
Theorem C62_go_session_partial : forall b c D ws inp, decides D go_detects ->
  exists d ps hash v, writes_at (block_of b) c ws New = Some d /\
    Forall2 (fun w p => length p = snd w /\ seen_in (fst w) p) ws ps /\
    CollisionResistantSum (block_of b) d inp = Some (inp ++ hash, v) /\
    v = snd (cd_sum D (concat ps)) /\ (v = false -> hash = sha1 (concat ps)).
Proof. exact fetch_session_impl. Qed.
Print Assumptions C62_go_session_partial.
