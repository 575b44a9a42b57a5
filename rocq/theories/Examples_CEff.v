(** Examples for Properties_CEff. *)

From Coq Require Import Arith NArith ZArith List Strings.Byte Lia.
From Verif Require Import Word Model_Go Model_C Model_CEff Spec_CEff CEff Properties_CEff.
Import ListNotations.

Definition ex_cfg (u : bool) : ccfg := mkcfg false false u.
(** Memory with other contents than zeros. *)
Definition ex_c : ctx := mkctx 7 (mkst 1 2 3 4 5) (repeat x41 64) 1 0 0 0 1 0 (mkst 0 0 0 0 0) (mkst 0 0 0 0 0)
  (repeat 9%N 80) (repeat 8%N 80) (repeat (mkst 1 1 1 1 1) 80).
Example ex_mem : ctx_memory ex_c.
Proof. repeat split. Qed.

(** An untyped input of 70 bytes and one of words. *)
Definition ex_ws : list (list byte * list etype) := [(repeat x61 70, repeat Untyped 70); (repeat x62 8, repeat EWord 8)].
Example ex_no_chars : Forall no_chars ex_ws.
Proof. repeat constructor; intros H; apply repeat_spec in H; discriminate. Qed.
Example ex_typed : Forall typed ex_ws.
Proof. repeat constructor. Qed.
Example ex_waiting : waiting ex_ws = 14%nat.
Proof. reflexivity. Qed.
Example ex_writes u : exists x, e_run (ex_cfg u) (fresh false ex_c) ex_ws = Some x /\
  updates (ex_cfg u) (SHA1DCInit ex_c) [repeat x61 70; repeat x62 8] = Some (e_ctx x).
Proof. exact (C67_writes (ex_cfg u) ex_c ex_ws ex_mem ex_no_chars). Qed.
Example ex_ran u : e_run (ex_cfg u) (fresh false ex_c) ex_ws <> None.
Proof. destruct (ex_writes u) as (x & -> & _). discriminate. Qed.

(** Then 49 characters are accepted and 50 are not. *)
Example ex_49 u : e_run (ex_cfg u) (fresh false ex_c) (ex_ws ++ [chars (repeat x63 49)]) <> None.
Proof. apply (C67_chars (ex_cfg u) false ex_c ex_ws _ ex_mem ex_typed (ex_ran u)); [discriminate|]. rewrite ex_waiting. cbn. lia. Qed.
Example ex_50 u : ~ e_run (ex_cfg u) (fresh false ex_c) (ex_ws ++ [chars (repeat x63 50)]) <> None.
Proof.
  intros H. apply (C67_chars (ex_cfg u) false ex_c ex_ws _ ex_mem ex_typed (ex_ran u)) in H; [|discriminate]. rewrite ex_waiting in H. cbn in H. lia.
Qed.

(** A declared context: three blocks of words are read in place, but only where unaligned loads are allowed. *)
Definition ex_blocks : list byte * list etype := (repeat x61 192, repeat EWord 192).
Example ex_blocks_ok : no_chars ex_blocks.
Proof. split; [reflexivity|]. intros H. apply repeat_spec in H. discriminate. Qed.
Example ex_inplace : e_run (ex_cfg true) (fresh true ex_c) [ex_blocks] <> None.
Proof. apply (C67_declared (ex_cfg true) ex_c [] _ _ ex_mem (Forall_nil _)); [discriminate|discriminate|exact ex_blocks_ok|]. right. auto. Qed.
Example ex_buffered : ~ e_run (ex_cfg false) (fresh true ex_c) [ex_blocks] <> None.
Proof.
  intros H. apply (C67_declared (ex_cfg false) ex_c [] _ _ ex_mem (Forall_nil _)) in H; [|discriminate|discriminate|exact ex_blocks_ok].
  destruct H as [H|[H _]]; [cbn in H; lia|discriminate].
Qed.

(** The end of the session, as it is and with padding of words. *)
Example ex_final u x : e_run (ex_cfg u) (fresh false ex_c) ex_ws = Some x -> e_Final (ex_cfg u) x = None.
Proof. exact (C67_final (ex_cfg u) false ex_c ex_ws x ex_mem ex_typed). Qed.
Example ex_final_words u x : e_run (ex_cfg u) (fresh false ex_c) ex_ws = Some x -> e_Final_with EWord (ex_cfg u) x <> None.
Proof.
  intros E. destruct (C67_padding (ex_cfg u) EWord ex_c ex_ws x ex_mem ex_no_chars ltac:(discriminate) E) as (x' & h & v & H & _). rewrite H. discriminate.
Qed.

(** Three characters, then 61 bytes of words: the block has a character in it.  Words first and characters at the end of the rest: defined. *)
Definition ex_mix : list (list byte * list etype) := [chars (repeat x61 3); (repeat x62 61, repeat EWord 61)].
Definition ex_tail : list (list byte * list etype) := [(repeat x62 65, repeat EWord 65); chars (repeat x61 3)].
Example ex_mixed u : ~ e_run (ex_cfg u) (fresh false ex_c) ex_mix <> None.
Proof. intros H. apply (C67_mixed (ex_cfg u) ex_c ex_mix ex_mem ltac:(repeat constructor)) in H. apply H. left. reflexivity. Qed.
Example ex_mixed_tail u : e_run (ex_cfg u) (fresh false ex_c) ex_tail <> None.
Proof.
  apply (C67_mixed (ex_cfg u) ex_c ex_tail ex_mem ltac:(repeat constructor)). change (firstn _ _) with (repeat EWord 64).
  intros H. apply repeat_spec in H. discriminate.
Qed.
