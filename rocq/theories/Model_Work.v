(** The block functions with counters: how many passes of 80 steps and how many calls of hasCollided are made.
    Each definition is the one of the same name in [Model_Go], [Model_Block], [Model_C] with the counters threaded through; erasing them gives that
    definition back (property C56). *)

From Coq Require Import Arith NArith ZArith List Strings.Byte Bool.
From Verif Require Import Word Spec_Sha1 Spec_C Model_Ubc Gen_DvsGo Gen_DvsC Model_Go Model_Asm Model_Amd64 Model_Arm64 Gen_Amd64 Gen_Arm64 Model_Block Model_CSteps Model_C.
Import ListNotations.
Local Open Scope N_scope.

(** /repo/sha1cdblock_generic.go lines 154-180; [t]: calls of hasCollided (line 172) so far. *)
Fixpoint checkLoop_n (dvs : list dvinfo) (mask : word) (m1 : list word) (cs : csarr) (h : st) (t : nat) : option (bool * nat) :=
  match dvs with
  | [] => None
  | dv :: rest =>
    if dvType dv =? 0 then Some (false, t)
    else if N.land mask (shl32 1 (maskB dv)) =? 0 then checkLoop_n rest mask m1 cs h t
    else
      do state <- (if testT dv =? 58 then Some (cs1 cs)
                   else if testT dv =? 65 then Some (cs2 cs)
                   else if testT dv =? 0 then Some (cs0 cs)
                   else None);
      if hasCollided (N.to_nat (testT dv)) m1 (dm dv) state h then Some (true, S t)
      else checkLoop_n rest mask m1 cs h (S t)
  end.

(** /repo/sha1cdblock_generic.go lines 146-183. *)
Definition checkCollision_n (m1 : list word) (cs : csarr) (h : st) (t : nat) : option (bool * nat) :=
  let mask := CalculateDvMask (Some m1) in
  if mask =? 0 then Some (false, t) else checkLoop_n dvs_go mask m1 cs h t.

(** /repo/sha1cdblock_generic.go lines 40-137; [q]: passes (lines 41-116) so far. *)
Fixpoint g_rehash_n (fuel : nat) (p : list byte) (hi : nat) (h : st) (w m1 : list word) (cs : csarr) (col : bool) (q t : nat)
    : option (st * list word * csarr * bool * (nat * nat)) :=
  match fuel with
  | O => None
  | S fuel =>
    let x := g_pass p h w m1 cs in
    let h := addst h (ps x) in
    if (hi =? 2)%nat then g_rehash_n fuel p (hi + 1) h (pw x) (pm x) (pcs x) col (S q) t
    else if (hi =? 1)%nat then
      do r <- checkCollision_n (pm x) (pcs x) h t;
      if fst r : bool then g_rehash_n fuel p (hi + 1) h (pw x) (pm x) (pcs x) true (S q) (snd r)
      else Some (h, pw x, pcs x, col, (S q, snd r))
    else Some (h, pw x, pcs x, col, (S q, t))
  end.

(** /repo/sha1cdblock_generic.go lines 31-140. *)
Fixpoint g_blocks_n (fuel : nat) (p : list byte) (h : st) (w : list word) (cs : csarr) (col : bool) (q t : nat)
    : option (st * bool * (nat * nat)) :=
  if (64 <=? length p)%nat then
    match fuel with
    | O => None
    | S fuel =>
      do r <- g_rehash_n 3 p 1 h w (repeat 0 80) cs col q t;
      let '(h, w, cs, col, (q, t)) := r in
      g_blocks_n fuel (skipn 64 p) h w cs col q t
    end
  else Some (h, col, (q, t)).

(** /repo/sha1cdblock_generic.go lines 22-143: the digest, the passes and the calls of hasCollided. *)
Definition blockGeneric_n (d : digest) (p : list byte) : option (digest * nat * nat) :=
  do r <- g_blocks_n (length p) p (dh d) (repeat 0 16) (mkcs st0 st0 st0) (dcol d) 0 0;
  let '(h, col, (q, t)) := r in
  Some (mkd h (dx d) (dnx d) (dlen d) col, q, t).

(** ** The assembly builds *)

(** /repo/sha1cdblock_amd64.go lines 34-51 and sha1cdblock_arm64.go lines 30-47: [k] counts the calls of the routine already. *)
Fixpoint asm_blocks_n (call : asm_call) (fuel k : nat) (p : list byte) (h : st) (m1 : list word) (cs : csarr) (col : bool) (t : nat)
    : option (st * bool * (nat * nat)) :=
  if (64 <=? length p)%nat then
    match fuel with
    | O => None
    | S fuel =>
      let chunk := firstn 64 p in
      do (h, m1, cs) <- call k h chunk m1 cs;
      let cs := rectify m1 cs in
      do r <- checkCollision_n m1 cs h t;
      if fst r : bool then
        do (h, m1, cs) <- call (k + 1)%nat h chunk m1 cs;
        do (h, m1, cs) <- call (k + 2)%nat h chunk m1 cs;
        asm_blocks_n call fuel (k + 3) (skipn 64 p) h m1 cs true (snd r)
      else asm_blocks_n call fuel (k + 1) (skipn 64 p) h m1 cs col (snd r)
    end
  else Some (h, col, (k, t)).

(** Lines 25-52 and 21-48. *)
Definition asm_block_n (call : asm_call) (d : digest) (p : list byte) : option (digest * nat * nat) :=
  do r <- asm_blocks_n call (length p) 0 p (dh d) (repeat 0 80) (mkcs st0 st0 st0) (dcol d) 0;
  let '(h, col, (q, t)) := r in
  Some (mkd h (dx d) (dnx d) (dlen d) col, q, t).
Definition block_of_n (m : impl) (d : digest) (p : list byte) : option (digest * nat * nat) :=
  match m with
  | Generic => blockGeneric_n d p
  | Amd64 e _ => asm_block_n (fun k => call_amd64 amd64_prog upper_mask shuffle_mask (e d p k)) d p
  | Arm64 e _ => asm_block_n (fun k => call_arm64 arm64_prog sha1Ks (e d p k)) d p
  end.

(** ** The C library *)

(** /repo/cgo/sha1.c lines 1972-1997: [q] compressions (sha1_compression_states, sha1_compression_W) and [t]
    recompressions (sha1_recompression_step, line 1980) so far. *)
Fixpoint process_loop_n (dvs : list dvinfo) (mask : word) (c : ctx) (q t : nat) : option (ctx * nat * nat) :=
  match dvs with
  | [] => None
  | dv :: rest =>
    if dvType dv =? 0 then Some (c, q, t)
    else if 32 <=? maskB dv then None
    else if N.land mask (shl32 1 (maskB dv)) =? 0 then process_loop_n rest mask c q t
    else
      let m2 := map (fun j => N.lxor (nth j (c_m1 c) 0) (nth j (dm dv) 0)) (seq 0 80) in
      do state <- nth_error (c_states c) (N.to_nat (testT dv));
      do (ihv2, ihvtmp) <- sha1_recompression_step (N.to_nat (testT dv)) m2 state;
      let c := set_ihv2_m2 ihv2 m2 c in
      if same_words ihvtmp (c_ihv c) || (truth (c_reduced c) && same_words (c_ihv1 c) (c_ihv2 c)) then
        let c := set_found 1 c in
        Some (if truth (c_safe c)
              then (set_ihv (sha1_compression_W (sha1_compression_W (c_ihv c) (c_m1 c)) (c_m1 c)) c, S (S q), S t)
              else (c, q, S t))
      else process_loop_n rest mask c q (S t)
  end.

(** Lines 1950-2000. *)
Definition sha1_process_n (cfg : ccfg) (c : ctx) (block : list byte) : option (ctx * nat * nat) :=
  let c := set_ihv1 (c_ihv c) c in
  let '(ihv, m1, states) := sha1_compression_states cfg (c_ihv c) block (c_m1 c) (c_states c) in
  let c := set_m1_states m1 states (set_ihv ihv c) in
  if truth (c_detect c) then
    let mask := if truth (c_ubc c) then ubc_check (c_m1 c) else 0xFFFFFFFF in
    if negb (mask =? 0) then process_loop_n dvs_c mask c 1 0 else Some (c, 1%nat, 0%nat)
  else Some (c, 1%nat, 0%nat).

(** The option fields of a context (/repo/cgo/sha1.h lines 48-51). *)
Definition ctx_opts (c : ctx) : copts := mkco (truth (c_detect c)) (truth (c_ubc c)) (truth (c_reduced c)) (truth (c_safe c)).
