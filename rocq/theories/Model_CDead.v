(** Parts of /repo/cgo/sha1.c that the default macros leave out: the compression function without detection, and the
    recording of states and the recompression for any set of DOSTORESTATE macros. *)

From Coq Require Import Arith NArith String List Strings.Byte Bool.
From Verif Require Import Word Model_Go Model_CSteps Gen_CSteps Model_C.
Import ListNotations.
Local Open Scope N_scope.

(** Lines 256-361: sha1_compression, compiled under BUILDNOCOLLDETECTSHA1COMPRESSION.  [m] are 16 words; W is not
    initialised, [w0] its contents. *)
Definition sha1_compression (w0 : list word) (ihv : st) (m : list word) : st :=
  let W := firstn 16 m ++ skipn 16 w0 in
  let W := fold_left (fun W i => upd i (sha1_mix W i) W) (seq 16 64) W in
  addst ihv (fold_left (fun s k => hc_step W k s) comp_plain_steps ihv).

(** The functions of [Model_C] that depend on DOSTORESTATE macros, for any set [def] of macros that are defined. *)
Definition item_with (def : string -> bool) (cfg : ccfg) (block : list byte) (x : cpass) (it : citem) : cpass :=
  match it with
  | CStore g i => if def g then mkcp (cp_W x) (upd i (cp_s x) (cp_states x)) (cp_s x) else x
  | CFull _ _ _ _ _ _ _ => c_item cfg block x it
  end.
Definition states_with (def : string -> bool) (cfg : ccfg) (ihv : st) (block : list byte) (W : list word) (states : list st)
    : st * list word * list st :=
  let x := fold_left (item_with def cfg block) comp_states_items (mkcp W states ihv) in
  (addst ihv (cp_s x), cp_W x, cp_states x).
Definition step_with (def : string -> bool) (step : nat) (me2 : list word) (state : st) : option (st * st) :=
  match find (fun c => match c with (g, l, _) => def g && (l =? step)%nat end) recomp_cases with
  | Some (_, _, t) =>
    if existsb (fun d => def (fst d) && (snd d =? t)%nat) recomp_defs
    then Some (sha1recompress_fast t me2 state) else None
  | None => None
  end.
