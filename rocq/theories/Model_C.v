(** Model of the C library in /repo/cgo (sha1.c, sha1.h, ubc_check.c, ubc_check.h), function by function.

    - Undefined behaviour that depends on the data (an index outside an array, a shift by 32 or more, falling off
      the table sha1_dvs) and the calls of abort() are [None].  Array indices that are literals in the
      text are below the array bounds (the generator of Gen_CSteps.v reads them) and are not checked again.
    - int variables are [Z] (only tested against 0 and assigned 0 or 1), a function pointer is a number.
    - The compile-time configuration is a parameter: byte order of the machine, whether SHA1DC_BIGENDIAN is
      defined (lines 29-126), whether SHA1DC_ALLOW_UNALIGNED_ACCESS is defined (lines 128-132).
    - The alternative function sha1_compression (lines 256-361, compiled only under
      BUILDNOCOLLDETECTSHA1COMPRESSION, which nothing defines) is in Model_CDead.v; the accesses through (uint32_t * ) casts are
      taken to read the bytes in memory order of the machine (alignment: Model_CMem.v; effective types are not modelled). *)

From Coq Require Import Arith NArith ZArith String List Strings.Byte Bool.
From Verif Require Import Word Model_Ubc Gen_UbcC Gen_DvsC Model_Go Model_CSteps Gen_CSteps.
Import ListNotations.
Local Open Scope N_scope.

(** The compile-time configuration. *)
Record ccfg := mkcfg { host_be : bool; macro_be : bool; unaligned : bool }.

(** Value of the machine word stored in four bytes. *)
Definition machine_word (cfg : ccfg) (l : list byte) : word :=
  if host_be cfg then be_val l else be_val (rev l).

(** /repo/cgo/sha1.c lines 146-157: sha1_load, on a block given by its bytes. *)
Definition sha1_load (cfg : ccfg) (block : list byte) (t : nat) : word :=
  let temp := machine_word cfg (firstn 4 (skipn (4 * t) block)) in
  if macro_be cfg then temp else sha1_bswap32 temp.

(** ** Compression functions *)

(** The preprocessor: is the macro defined? *)
Definition defined (m : string) : bool := existsb (String.eqb m) dostore.

(** Lines 364-457: sha1_compression_W. *)
Definition sha1_compression_W (ihv : st) (W : list word) : st :=
  addst ihv (fold_left (fun s k => hc_step W k s) comp_W_steps ihv).

(** Variables of sha1_compression_states: W, states and a, ..., e. *)
Record cpass := mkcp { cp_W : list word; cp_states : list st; cp_s : st }.

(** Lines 208-246, the SHA1COMPRESS_FULL macros, and lines 248-253, SHA1_STORE_STATE. *)
Definition c_item (cfg : ccfg) (block : list byte) (x : cpass) (it : citem) : cpass :=
  match it with
  | CStore g i => if defined g then mkcp (cp_W x) (upd i (cp_s x) (cp_states x)) (cp_s x) else x
  | CFull k a b c d e t =>
    let temp := match k with FLoad => sha1_load cfg block t | _ => sha1_mix (cp_W x) t end in
    let W := upd t temp (cp_W x) in
    let r := kind_round k in
    let s := cp_s x in
    let s := setv e (add32 (getv e s)
               (add32 (add32 (add32 temp (rotate_left (getv a s) 5)) (c_f r (getv b s) (getv c s) (getv d s))) (c_K r))) s in
    let s := setv b (rotate_left (getv b s) 30) s in
    mkcp W (cp_states x) s
  end.

(** Lines 459-869: sha1_compression_states: ihv, W and states afterwards. *)
Definition sha1_compression_states (cfg : ccfg) (ihv : st) (block : list byte) (W : list word) (states : list st)
    : st * list word * list st :=
  let x := fold_left (c_item cfg block) comp_states_items (mkcp W states ihv) in
  (addst ihv (cp_s x), cp_W x, cp_states x).

(** Lines 871-1210: the function sha1recompress_fast_t that SHA1_RECOMPRESS(t) defines: ihvin and ihvout. *)
Definition sha1recompress_fast (t : nat) (me2 : list word) (state : st) : st * st :=
  let ihvin := fold_left (fun s p => if (fst p <? t)%nat then hc_step_bw me2 (snd p) s else s) recomp_back state in
  let fwd := fold_left (fun s p => if (t <=? fst p)%nat then hc_step me2 (snd p) s else s) recomp_fwd state in
  (ihvin, addst ihvin fwd).

(** Lines 1541-1948: sha1_recompression_step.  The function called must have been defined (lines 1217-1535). *)
Definition sha1_recompression_step (step : nat) (me2 : list word) (state : st) : option (st * st) :=
  match find (fun c => match c with (g, l, _) => defined g && (l =? step)%nat end) recomp_cases with
  | Some (_, _, t) =>
    if existsb (fun d => defined (fst d) && (snd d =? t)%nat) recomp_defs
    then Some (sha1recompress_fast t me2 state) else None
  | None => None
  end.

(** /repo/cgo/ubc_check.c lines 74-291: ubc_check; the initial contents of dvmask are not used. *)
Definition ubc_check (W : list word) : word := urun W ubc_prog_c 0xFFFFFFFF.

(** ** The hasher: /repo/cgo/sha1.h lines 42-59 *)

Record ctx := mkctx {
  c_total : N; c_ihv : st; c_buffer : list byte;
  c_found : Z; c_safe : Z; c_detect : Z; c_ubc : Z; c_reduced : Z; c_callback : N;
  c_ihv1 : st; c_ihv2 : st; c_m1 : list word; c_m2 : list word; c_states : list st }.

Definition set_total (x : N) (c : ctx) : ctx :=
  mkctx x (c_ihv c) (c_buffer c) (c_found c) (c_safe c) (c_detect c) (c_ubc c) (c_reduced c) (c_callback c)
    (c_ihv1 c) (c_ihv2 c) (c_m1 c) (c_m2 c) (c_states c).
Definition set_ihv (x : st) (c : ctx) : ctx :=
  mkctx (c_total c) x (c_buffer c) (c_found c) (c_safe c) (c_detect c) (c_ubc c) (c_reduced c) (c_callback c)
    (c_ihv1 c) (c_ihv2 c) (c_m1 c) (c_m2 c) (c_states c).
Definition set_buffer (x : list byte) (c : ctx) : ctx :=
  mkctx (c_total c) (c_ihv c) x (c_found c) (c_safe c) (c_detect c) (c_ubc c) (c_reduced c) (c_callback c)
    (c_ihv1 c) (c_ihv2 c) (c_m1 c) (c_m2 c) (c_states c).
Definition set_found (x : Z) (c : ctx) : ctx :=
  mkctx (c_total c) (c_ihv c) (c_buffer c) x (c_safe c) (c_detect c) (c_ubc c) (c_reduced c) (c_callback c)
    (c_ihv1 c) (c_ihv2 c) (c_m1 c) (c_m2 c) (c_states c).
Definition set_ihv1 (x : st) (c : ctx) : ctx :=
  mkctx (c_total c) (c_ihv c) (c_buffer c) (c_found c) (c_safe c) (c_detect c) (c_ubc c) (c_reduced c) (c_callback c)
    x (c_ihv2 c) (c_m1 c) (c_m2 c) (c_states c).
Definition set_ihv2_m2 (x : st) (y : list word) (c : ctx) : ctx :=
  mkctx (c_total c) (c_ihv c) (c_buffer c) (c_found c) (c_safe c) (c_detect c) (c_ubc c) (c_reduced c) (c_callback c)
    (c_ihv1 c) x (c_m1 c) y (c_states c).
Definition set_m1_states (x : list word) (y : list st) (c : ctx) : ctx :=
  mkctx (c_total c) (c_ihv c) (c_buffer c) (c_found c) (c_safe c) (c_detect c) (c_ubc c) (c_reduced c) (c_callback c)
    (c_ihv1 c) (c_ihv2 c) x (c_m2 c) y.

(** C's truth value of an int. *)
Definition truth (z : Z) : bool := negb (z =? 0)%Z.

(** The comparison of lines 1982-1983: the or of the five xors is 0. *)
Definition same_words (x y : st) : bool :=
  (N.lor (N.lor (N.lor (N.lor (N.lxor (sa x) (sa y)) (N.lxor (sb x) (sb y)))
     (N.lxor (sc x) (sc y))) (N.lxor (sd x) (sd y))) (N.lxor (se x) (se y))) =? 0.

(** Lines 1972-1997: the loop over sha1_dvs. *)
Fixpoint process_loop (dvs : list dvinfo) (mask : word) (c : ctx) : option ctx :=
  match dvs with
  | [] => None
  | dv :: rest =>
    if dvType dv =? 0 then Some c
    else if 32 <=? maskB dv then None
    else if N.land mask (shl32 1 (maskB dv)) =? 0 then process_loop rest mask c
    else
      let m2 := map (fun j => N.lxor (nth j (c_m1 c) 0) (nth j (dm dv) 0)) (seq 0 80) in
      do state <- nth_error (c_states c) (N.to_nat (testT dv));
      do (ihv2, ihvtmp) <- sha1_recompression_step (N.to_nat (testT dv)) m2 state;
      let c := set_ihv2_m2 ihv2 m2 c in
      if same_words ihvtmp (c_ihv c) || (truth (c_reduced c) && same_words (c_ihv1 c) (c_ihv2 c)) then
        let c := set_found 1 c in
        Some (if truth (c_safe c)
              then set_ihv (sha1_compression_W (sha1_compression_W (c_ihv c) (c_m1 c)) (c_m1 c)) c
              else c)
      else process_loop rest mask c
  end.

(** Lines 1950-2000: sha1_process. *)
Definition sha1_process (cfg : ccfg) (c : ctx) (block : list byte) : option ctx :=
  let c := set_ihv1 (c_ihv c) c in
  let '(ihv, m1, states) := sha1_compression_states cfg (c_ihv c) block (c_m1 c) (c_states c) in
  let c := set_m1_states m1 states (set_ihv ihv c) in
  if truth (c_detect c) then
    let mask := if truth (c_ubc c) then ubc_check (c_m1 c) else 0xFFFFFFFF in
    if negb (mask =? 0) then process_loop dvs_c mask c else Some c
  else Some c.

(** Lines 2002-2016: SHA1DCInit; SHA1DC_INIT_SAFE_HASH_DEFAULT is 1 (lines 24-26, nothing overrides it). *)
Definition SHA1DCInit (c : ctx) : ctx :=
  mkctx 0 (mkst 0x67452301 0xEFCDAB89 0x98BADCFE 0x10325476 0xC3D2E1F0) (c_buffer c)
    0 1 1 1 0 0 (c_ihv1 c) (c_ihv2 c) (c_m1 c) (c_m2 c) (c_states c).

(** Lines 2018-2053: the setters. *)
Definition SHA1DCSetSafeHash (c : ctx) (v : Z) : ctx :=
  mkctx (c_total c) (c_ihv c) (c_buffer c) (c_found c) (if truth v then 1 else 0)%Z (c_detect c) (c_ubc c) (c_reduced c) (c_callback c)
    (c_ihv1 c) (c_ihv2 c) (c_m1 c) (c_m2 c) (c_states c).
Definition SHA1DCSetUseUBC (c : ctx) (v : Z) : ctx :=
  mkctx (c_total c) (c_ihv c) (c_buffer c) (c_found c) (c_safe c) (c_detect c) (if truth v then 1 else 0)%Z (c_reduced c) (c_callback c)
    (c_ihv1 c) (c_ihv2 c) (c_m1 c) (c_m2 c) (c_states c).
Definition SHA1DCSetUseDetectColl (c : ctx) (v : Z) : ctx :=
  mkctx (c_total c) (c_ihv c) (c_buffer c) (c_found c) (c_safe c) (if truth v then 1 else 0)%Z (c_ubc c) (c_reduced c) (c_callback c)
    (c_ihv1 c) (c_ihv2 c) (c_m1 c) (c_m2 c) (c_states c).
Definition SHA1DCSetDetectReducedRoundCollision (c : ctx) (v : Z) : ctx :=
  mkctx (c_total c) (c_ihv c) (c_buffer c) (c_found c) (c_safe c) (c_detect c) (c_ubc c) (if truth v then 1 else 0)%Z (c_callback c)
    (c_ihv1 c) (c_ihv2 c) (c_m1 c) (c_m2 c) (c_states c).
Definition SHA1DCSetCallback (c : ctx) (f : N) : ctx :=
  mkctx (c_total c) (c_ihv c) (c_buffer c) (c_found c) (c_safe c) (c_detect c) (c_ubc c) (c_reduced c) f
    (c_ihv1 c) (c_ihv2 c) (c_m1 c) (c_m2 c) (c_states c).

(** memcpy(dst + at, src, n); [None] outside either array. *)
Definition memcpy (dst : list byte) (at_ : nat) (src : list byte) (n : nat) : option (list byte) :=
  if ((at_ + n <=? length dst) && (n <=? length src))%nat
  then Some (firstn at_ dst ++ firstn n src ++ skipn (at_ + n) dst) else None.

(** uint64_t addition and subtraction. *)
Definition add64 (x y : N) : N := (x + y) mod M64.
Definition sub64 (x y : N) : N := (x + (M64 - y mod M64)) mod M64.

(** Lines 2075-2086: the while loop; [fuel] bounds the iterations, the caller passes len. *)
Fixpoint update_loop (fuel : nat) (cfg : ccfg) (c : ctx) (buf : list byte) : option (ctx * list byte) :=
  if (length buf <? 64)%nat then Some (c, buf) else
  match fuel with
  | O => None
  | S fuel =>
    let c := set_total (add64 (c_total c) 64) c in
    do c <- (if unaligned cfg then sha1_process cfg c (firstn 64 buf)
             else do b <- memcpy (c_buffer c) 0 buf 64;
                  let c := set_buffer b c in sha1_process cfg c (c_buffer c));
    update_loop fuel cfg c (skipn 64 buf)
  end.

(** Lines 2055-2092: SHA1DCUpdate; [buf] holds the len bytes at buf. *)
Definition SHA1DCUpdate (cfg : ccfg) (c : ctx) (buf : list byte) : option ctx :=
  if (length buf =? 0)%nat then Some c else
  let left := N.to_nat (N.land (c_total c) 63) in
  let fill := (64 - left)%nat in
  do (c, buf, left) <-
    (if (negb (left =? 0) && (fill <=? length buf))%nat then
       let c := set_total (add64 (c_total c) (N.of_nat fill)) c in
       do b <- memcpy (c_buffer c) left buf fill;
       let c := set_buffer b c in
       do c <- sha1_process cfg c (c_buffer c);
       Some (c, skipn fill buf, 0%nat)
     else Some (c, buf, left));
  do (c, buf) <- update_loop (length buf) cfg c buf;
  if (0 <? length buf)%nat then
    let c := set_total (add64 (c_total c) (N.of_nat (length buf))) c in
    do b <- memcpy (c_buffer c) left buf (length buf);
    Some (set_buffer b c)
  else Some c.

(** Lines 2101-2140: SHA1DCFinal: ctx, output and the result. *)
Definition SHA1DCFinal (cfg : ccfg) (c : ctx) : option (ctx * list byte * Z) :=
  let last := N.land (c_total c) 63 in
  let padn := if last <? 56 then 56 - last else 120 - last in
  do p <- slice_to sha1_padding (N.to_nat padn);
  do c <- SHA1DCUpdate cfg c p;
  let total := sub64 (c_total c) padn in
  let total := shl64 total 3 in
  do b <- memcpy (c_buffer c) 56
     [n2b (N.shiftr total 56); n2b (N.shiftr total 48); n2b (N.shiftr total 40); n2b (N.shiftr total 32);
      n2b (N.shiftr total 24); n2b (N.shiftr total 16); n2b (N.shiftr total 8); n2b total] 8;
  let c := set_buffer b c in
  do c <- sha1_process cfg c (c_buffer c);
  let out w := [n2b (N.shiftr w 24); n2b (N.shiftr w 16); n2b (N.shiftr w 8); n2b w] in
  let h := c_ihv c in
  Some (c, out (sa h) ++ out (sb h) ++ out (sc h) ++ out (sd h) ++ out (se h), c_found c).

(** ** /repo/cgo/ubc_check.go lines 21-23: CalculateDvMask, through the C function check (lines 6-11). *)
Definition cgo_CalculateDvMask (W : list word) : word := ubc_check W.

(** ** /repo/cgo/sha1.go *)

(** Lines 23-26. *)
Record cdigest := mkcd { g_ctx : ctx; g_h : list byte }.

(** The zero value of the struct. *)
Definition zero_ctx : ctx :=
  mkctx 0 st0 (repeat x00 64) 0 0 0 0 0 0 st0 st0 (repeat 0 80) (repeat 0 80) (repeat st0 80).
Definition zero_cdigest : cdigest := mkcd zero_ctx (repeat x00 20).

(** Lines 49-51: Reset. *)
Definition cgo_Reset (d : cdigest) : cdigest := mkcd (SHA1DCInit (g_ctx d)) (g_h d).
(** Lines 17-21: New. *)
Definition cgo_New : cdigest := cgo_Reset zero_cdigest.

(** Lines 28-35: sum; SHA1DCFinal writes the 20 bytes of d.h. *)
Definition cgo_sum (cfg : ccfg) (d : cdigest) : option (cdigest * list byte * bool) :=
  do (c, h, f) <- SHA1DCFinal cfg (g_ctx d);
  Some (mkcd c h, h, truth f).

(** Lines 43-47: CollisionResistantSum, on a copy of d. *)
Definition cgo_CollisionResistantSum (cfg : ccfg) (d : cdigest) (inp : list byte) : option (list byte * bool) :=
  do (_, h, c) <- cgo_sum cfg d; Some (inp ++ h, c).
(** Lines 37-41: Sum, on a copy of d. *)
Definition cgo_Sum (cfg : ccfg) (d : cdigest) (inp : list byte) : option (list byte) :=
  do (h, _) <- cgo_CollisionResistantSum cfg d inp; Some h.

(** Lines 53-55. *)
Definition cgo_Size (d : cdigest) : nat := 20.
Definition cgo_BlockSize (d : cdigest) : nat := 64.

(** Lines 66-75: Write; the error is always nil. *)
Definition cgo_Write (cfg : ccfg) (d : cdigest) (p : list byte) : option (cdigest * nat) :=
  if (length p =? 0)%nat then Some (d, 0%nat)
  else do c <- SHA1DCUpdate cfg (g_ctx d) p; Some (mkcd c (g_h d), length p).

(** Lines 57-64: package-level Sum. *)
Definition cgo_SumPkg (cfg : ccfg) (data : list byte) : option (list byte * bool) :=
  let d := cgo_Reset zero_cdigest in
  do (d, _) <- cgo_Write cfg d data;
  do (_, h, c) <- cgo_sum cfg d;
  Some (h, c).

(** ** /repo/cgo/fallback_no_cgo.go: the package when cgo is disabled *)

(** Lines 15-17. *)
Definition fallback_CalculateDvMask (W : option (list word)) : word := CalculateDvMask W.
(** Lines 21-23. *)
Definition fallback_New : digest := New.
(** Lines 27-32; the error of Write is always nil. *)
Definition fallback_Sum (blk : blockfn) (data : list byte) : option (list byte * bool) :=
  do (d, _) <- Write blk New data;
  CollisionResistantSum blk d [].
