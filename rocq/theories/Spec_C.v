(** What the C library is supposed to compute, independent of its code: options, flagged blocks,
    and an abstract hasher for sequences of API calls. *)

From Coq Require Import Arith NArith ZArith List Strings.Byte Bool.
From Verif Require Import Word Spec_Sha1 Spec_DV Spec_Api.
Import ListNotations.
Local Open Scope N_scope.

(** The options: detection, bit-condition filter, reduced-round collisions, safe hash. *)
Record copts := mkco { o_detect : bool; o_ubc : bool; o_reduced : bool; o_safe : bool }.
Definition default_opts : copts := mkco true true false true.

(** Block M from chaining value h is flagged because of vector d: the bit conditions hold (if the filter is on) and
    the sibling block meets it at the test step, ending in the same output, or (reduced rounds) starting from the same input. *)
Definition flagged_by (o : copts) (d : nat) (h : st) (M : list word) : Prop :=
  (d < 32)%nat /\ (o_ubc o = true -> ubc_holds d (schedule M)) /\
  ((exists h', siblings (the_dv d) h M h') \/
   (o_reduced o = true /\
    state_at (test_step (the_dv d)) h (sib_block (the_dv d) M) = state_at (test_step (the_dv d)) h M)).
Definition flagged (o : copts) (h : st) (M : list word) : Prop :=
  o_detect o = true /\ exists d, flagged_by o d h M.

(** [D o] decides [flagged o]. *)
Definition cdecides (D : copts -> st -> list word -> bool) : Prop :=
  forall o h M, wfst h -> length M = 16%nat -> Forall wf M -> (D o h M = true <-> flagged o h M).

(** The calls of the C API on one context. *)
Inductive cop :=
| CInit
| CSetSafeHash (v : Z)
| CSetUseUBC (v : Z)
| CSetUseDetectColl (v : Z)
| CSetReduced (v : Z)
| CSetCallback (f : N)
| CUpdate (p : list byte)
| CFinal.
Inductive cres := CNone | CDigest (out : list byte) (v : Z).

(** A setter stores whether its argument is nonzero. *)
Definition yes (v : Z) : bool := negb (v =? 0)%Z.
Definition set_opt (o : copts) (c : cop) : copts :=
  match c with
  | CSetSafeHash v => mkco (o_detect o) (o_ubc o) (o_reduced o) (yes v)
  | CSetUseUBC v => mkco (o_detect o) (yes v) (o_reduced o) (o_safe o)
  | CSetUseDetectColl v => mkco (yes v) (o_ubc o) (o_reduced o) (o_safe o)
  | CSetReduced v => mkco (o_detect o) (o_ubc o) (yes v) (o_safe o)
  | _ => o
  end.
Definition setter (c : cop) : bool :=
  match c with CSetSafeHash _ | CSetUseUBC _ | CSetUseDetectColl _ | CSetReduced _ | CSetCallback _ => true | _ => false end.
(** Every call but the one that sets the collision callback. *)
Definition not_callback (c : cop) : bool := match c with CSetCallback _ => false | _ => true end.
(** The options after Init and some setters. *)
Definition opts_of (sets : list cop) : copts := fold_left set_opt sets default_opts.

(** Initialise, set options, hash the pieces of a message, finish. *)
Definition session (sets : list cop) (ws : list (list byte)) : list cop := CInit :: sets ++ map CUpdate ws ++ [CFinal].
(** [o'] detects whatever [o] detects. *)
Definition weaker (o o' : copts) : Prop :=
  (o_detect o = true -> o_detect o' = true) /\ (o_ubc o' = true -> o_ubc o = true) /\ (o_reduced o = true -> o_reduced o' = true).

Section Hasher.
  Variable D : copts -> st -> list word -> bool.

  (** One block: compressed three times when it is flagged and safe hash is on. *)
  Definition cc_block (o : copts) (s : st * bool) (b : list byte) : st * bool :=
    let h := fst s in let M := words_of b in
    (if (D o h M && o_safe o)%bool then compress (compress (compress h M) M) M else compress h M, (snd s || D o h M)%bool).
  Definition cc_blocks (o : copts) (s : st * bool) (bs : list (list byte)) : st * bool := fold_left (cc_block o) bs s.

  (** Digest and verdict of a message under fixed options. *)
  Definition cc_sum (o : copts) (m : list byte) : list byte * bool :=
    let r := cc_blocks o (IV, false) (blocks (pad m)) in (st_bytes (fst r), snd r).

  (** The abstract hasher: chaining value and verdict so far, incomplete block, length, options. *)
  Record chash := mkch { ch_mid : st * bool; ch_pend : list byte; ch_len : N; ch_opts : copts }.
  Definition ch_init : chash := mkch (IV, false) [] 0 default_opts.
  Definition ch_write (a : chash) (p : list byte) : chash :=
    let data := ch_pend a ++ p in
    mkch (cc_blocks (ch_opts a) (ch_mid a) (blocks data)) (pending data) (ch_len a + N.of_nat (length p)) (ch_opts a).

  (** The final call: digest and verdict; the hasher is left with all but the length field of the last block pending. *)
  Definition ch_final (a : chash) : chash * (list byte * bool) :=
    let data := ch_pend a ++ padding (ch_len a) in
    let r := cc_blocks (ch_opts a) (ch_mid a) (blocks data) in
    (mkch r (firstn 56 (skipn (length data - 64) data)) (ch_len a + N.of_nat (length (padding (ch_len a)) - 8)) (ch_opts a),
     (st_bytes (fst r), snd r)).

  Definition ch_exec (a : chash) (c : cop) : chash * cres :=
    match c with
    | CInit => (ch_init, CNone)
    | CUpdate p => (ch_write a p, CNone)
    | CFinal => let '(a, (out, f)) := ch_final a in (a, CDigest out (if f then 1 else 0)%Z)
    | c => (mkch (ch_mid a) (ch_pend a) (ch_len a) (set_opt (ch_opts a) c), CNone)
    end.
  Fixpoint ch_run (a : chash) (cs : list cop) : chash * list cres :=
    match cs with
    | [] => (a, [])
    | c :: cs => let '(a, r) := ch_exec a c in let '(a, rs) := ch_run a cs in (a, r :: rs)
    end.
End Hasher.

(** Calls that the cgo hasher has (it cannot be checkpointed). *)
Definition cgo_call (o : op) : Prop := match o with OMarshal _ | OUnmarshal _ _ => False | _ => True end.
(** The calls on hasher [i], made on a single new hasher. *)
Definition solo (i : nat) (os : list op) : list op := ONew :: map (retarget 0) (filter (target_is i) os).
