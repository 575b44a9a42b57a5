(** Changing inputs for the theorems of Properties_Fetch.v. *)

From Coq Require Import Arith NArith ZArith String List Strings.Byte Bool Lia.
From Verif Require Import Word Spec_Sha1 Spec_DV Spec_Cd Spec_Fetch DvFacts Model_Ubc Model_Go Model_Block Model_C Model_Fetch
  GoCheck GoProps GoTable FetchFacts FetchApi Examples_Go Examples_C.
Import ListNotations.
Local Open Scope N_scope.

(** The input is all 'a' until access 20 and all 'b' from then on. *)
Definition ab : input := fun t _ => if (t <? 20)%nat then x61 else x62.
Example C62_test_ab : seen ab 0 [x61; x62] /\ seen ab 7 [x62; x61; x61] /\ ~ seen ab 0 [x63].
Proof.
  split; [|split].
  - intros [|[|i]] H; [exists 0%nat|exists 20%nat|cbn in H; lia]; reflexivity.
  - intros [|[|[|i]]] H; [exists 20%nat|exists 0%nat|exists 0%nat|cbn in H; lia]; reflexivity.
  - intros H. destruct (H 0%nat) as (t & E); [cbn; lia|]. unfold ab in E. destruct (t <? 20)%nat; discriminate E.
Qed.

(** 40 bytes to an empty context: 20 of one kind, 20 of the other. *)
Example C62_test_c : option_map (fun c => firstn 40 (c_buffer c)) (SHA1DCUpdate_at lecfg ab 40 (SHA1DCInit zero_ctx)) = Some (repeat x61 20 ++ repeat x62 20).
Proof. vm_compute. reflexivity. Qed.

(** The generic block function: the first 20 bytes of the block are of one kind, the others of the other. *)
Example C62_test_go : option_map dh (blockGeneric_at ab 64 New) = option_map dh (blockGeneric New (repeat x61 20 ++ repeat x62 44)).
Proof. vm_compute. reflexivity. Qed.

(** A flagged block whose first byte is overwritten: three readings, the last two the same. *)
Example C62_example : wfst (dh tb_d) /\ decides go_decide go_detects /\ readings fetch_m 0 [(tb_b, fetch_b2, fetch_b2)] /\
  block_at GenericAt fetch_m 64 tb_d = Some (mkd fetch_h (repeat x00 64) 0 0 true) /\ tb_b <> fetch_b2.
Proof.
  split; [repeat split; reflexivity|]. split; [exact go_decide_ok|]. split.
  - split; [|exact I]. intros b H. assert (E : b = bytes_at fetch_m 0 0 64 \/ b = bytes_at fetch_m 64 0 64).
    { destruct H as [->|[->| ->]]; [left|right|right]; symmetry; apply fetch_first || apply fetch_later. }
    destruct E as [-> | ->]; (split; [apply bytes_at_length|apply bytes_at_seen]).
  - split; [|discriminate]. rewrite fetch_block, fetch_h_eq. reflexivity.
Qed.
(** Three Writes of changing input: the buffer is filled in the middle. *)
Example C62_session_example : exists d, writes_at (block_of Generic) GenericAt [(fun _ => ab, 30%nat); (fun _ => ab, 50%nat); (fun s => ab, 3%nat)] New = Some d /\
  dnx d = 19%nat /\ dlen d = 83 /\ firstn 19 (dx d) = repeat x61 19.
Proof. eexists. split; [vm_compute; reflexivity|]. split; [reflexivity|]. split; reflexivity. Qed.
