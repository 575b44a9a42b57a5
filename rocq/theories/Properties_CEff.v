(** Properties of the C code with respect to effective types (properties.jsonl), stated about [Model_CEff].

    Reading guide: [fresh declared c] is a context after SHA1DCInit, declared in C or not; [ws] is a history of inputs of SHA1DCUpdate
    with the effective types of their bytes; [None] is undefined behaviour; [updates] is the same history when only values matter. *)

From Coq Require Import Arith NArith ZArith List Strings.Byte.
From Verif Require Import Word Model_Go Model_C Model_CEff Spec_CEff CEff.
Import ListNotations.

(** What is defined has the value that the other theorems about the C code speak of. *)
Theorem C67_sound : forall cfg declared c ws x, e_run cfg (fresh declared c) ws = Some x ->
  updates cfg (SHA1DCInit c) (map fst ws) = Some (e_ctx x).
Proof. exact eff_sound. Qed.
Print Assumptions C67_sound.

(** A context in memory that C has not declared (as that of a Go variable) and inputs that C has not declared as characters: every
    history of writes is defined. *)
Theorem C67_writes : forall cfg c ws, ctx_memory c -> Forall no_chars ws ->
  exists x, e_run cfg (fresh false c) ws = Some x /\ updates cfg (SHA1DCInit c) (map fst ws) = Some (e_ctx x).
Proof. exact eff_go. Qed.
Print Assumptions C67_writes.

(** An array of characters is an input with defined behaviour exactly as long as it completes no block, whatever came before. *)
Theorem C67_chars : forall cfg declared c ws p, ctx_memory c -> Forall typed ws -> e_run cfg (fresh declared c) ws <> None -> p <> [] ->
  (e_run cfg (fresh declared c) (ws ++ [chars p]) <> None <-> (waiting ws + length p < 64)%nat).
Proof. exact eff_chars. Qed.
Print Assumptions C67_chars.

(** A context declared in C, and an input that is not of characters: blocks may be loaded from the input but not from the buffer. *)
Theorem C67_declared : forall cfg c ws p ts, ctx_memory c -> Forall typed ws -> e_run cfg (fresh true c) ws <> None -> p <> [] -> no_chars (p, ts) ->
  (e_run cfg (fresh true c) (ws ++ [(p, ts)]) <> None <-> (waiting ws + length p < 64)%nat \/ unaligned cfg = true /\ waiting ws = 0%nat).
Proof. exact eff_declared. Qed.
Print Assumptions C67_declared.

(** No history of writes may be followed by SHA1DCFinal: it loads bytes of sha1_padding, an array of characters, as words. *)
Theorem C67_final : forall cfg declared c ws x, ctx_memory c -> Forall typed ws -> e_run cfg (fresh declared c) ws = Some x ->
  e_Final cfg x = None.
Proof. exact eff_final. Qed.
Print Assumptions C67_final.

(** So not every session has defined behaviour; the empty message on the context of New() is a witness. *)
Theorem C67_session_refuted : forall cfg, exists c ws x, ctx_memory c /\ Forall no_chars ws /\ e_run cfg (fresh false c) ws = Some x /\
  SHA1DCFinal cfg (e_ctx x) <> None /\ e_Final cfg x = None.
Proof. exact eff_session. Qed.
Print Assumptions C67_session_refuted.

(** If the padding were declared as words (or the loads made through characters), the sessions of the Go package would be defined. *)
Theorem C67_padding : forall cfg pt c ws x, ctx_memory c -> Forall no_chars ws -> pt <> EChar -> e_run cfg (fresh false c) ws = Some x ->
  exists x' h v, e_Final_with pt cfg x = Some (x', h, v) /\ SHA1DCFinal cfg (e_ctx x) = Some (e_ctx x', h, v).
Proof. exact eff_padding. Qed.
Print Assumptions C67_padding.

(** Inputs with any mixture of effective types on a context that C has not declared: defined exactly if no byte of a character type
    is in a complete block of the bytes written so far. *)
Theorem C67_mixed : forall cfg c ws, ctx_memory c -> Forall typed ws ->
  (e_run cfg (fresh false c) ws <> None <-> ~ In EChar (firstn (64 * (length (concat (map snd ws)) / 64)) (concat (map snd ws)))).
Proof. exact eff_mixed. Qed.
Print Assumptions C67_mixed.
