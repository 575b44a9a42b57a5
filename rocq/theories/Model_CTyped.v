(** The functions of /repo/cgo/sha1.c, every arithmetic expression of type uint32_t evaluated with C's integer types
    (Model_CTypes.v) for an int of w bits; the counters of 64 bits (total) and of bytes (left, fill, len) are as in Model_C.v.  The lists of macro calls are those of Gen_CSteps.v; loads, stores, copies of
    words, array bounds and the tests of the int members of the context are as in Model_C.v. *)

From Coq Require Import Arith NArith ZArith String List Strings.Byte Bool.
From Verif Require Import Word Model_Ubc Model_Go Gen_DvsC Model_CSteps Gen_CSteps Model_CTypes Gen_CTyped Model_C Spec_Api Spec_C Model_CApi.
Import ListNotations.
Local Open Scope N_scope.

(** Statements one after the other, the first undefined one ends the program. *)
Fixpoint ofold {A B : Type} (f : A -> B -> option A) (l : list B) (a : A) : option A :=
  match l with [] => Some a | x :: r => do b <- f a x; ofold f r b end.

(** The objects of type uint32_t that an expression uses, by number. *)
Definition from (l : list word) (k : N) : word := nth (N.to_nat k) l 0.
Definition o0 := EV 0. Definition o1 := EV 1. Definition o2 := EV 2.
Definition o3 := EV 3. Definition o4 := EV 4. Definition o5 := EV 5.

Section Typed.
  Variable w : Z.
  Variable cfg : ccfg.

  (** Lines 135-136 with the rotation by 30, as assigned to b in the step macros. *)
  Definition t_rotl30 (x : word) : option word := assigned w (from [x]) (e_rotate_left o0 (EL 30)).
  Definition t_rotr30 (x : word) : option word := assigned w (from [x]) (e_rotate_right o0 (EL 30)).

  (** Lines 166-185: HASHCLASH_SHA1COMPRESS_ROUNDr_STEP. *)
  Definition t_step (m : list word) (s : st) (k : cstep) : option st :=
    do e <- assigned w (from [getv (cs_a k) s; getv (cs_b k) s; getv (cs_c k) s; getv (cs_d k) s; getv (cs_e k) s; nth (cs_t k) m 0])
              (e_step (cs_r k) o0 o1 o2 o3 o4 o5);
    let s := setv (cs_e k) e s in
    do b <- t_rotl30 (getv (cs_b k) s); Some (setv (cs_b k) b s).
  (** Lines 187-206: HASHCLASH_SHA1COMPRESS_ROUNDr_STEP_BW. *)
  Definition t_step_bw (m : list word) (s : st) (k : cstep) : option st :=
    do b <- t_rotr30 (getv (cs_b k) s);
    let s := setv (cs_b k) b s in
    do e <- assigned w (from [getv (cs_a k) s; getv (cs_b k) s; getv (cs_c k) s; getv (cs_d k) s; getv (cs_e k) s; nth (cs_t k) m 0])
              (e_step_bw (cs_r k) o0 o1 o2 o3 o4 o5);
    Some (setv (cs_e k) e s).
  (** Lines 138-157: sha1_load. *)
  Definition t_load (block : list byte) (t : nat) : option word :=
    let temp := machine_word cfg (firstn 4 (skipn (4 * t) block)) in
    if macro_be cfg then Some temp
    else do x <- assigned w (from [temp]) (e_bswap1 o0); assigned w (from [x]) (e_bswap2 o0).
  (** Line 144: sha1_mix. *)
  Definition t_mix (W : list word) (t : nat) : option word :=
    assigned w (from [nth (t - 3) W 0; nth (t - 8) W 0; nth (t - 14) W 0; nth (t - 16) W 0]) (e_mix o0 o1 o2 o3).
  (** Lines 208-253: the SHA1COMPRESS_FULL macros and SHA1_STORE_STATE. *)
  Definition t_item (block : list byte) (x : cpass) (it : citem) : option cpass :=
    match it with
    | CStore g i => Some (if defined g then mkcp (cp_W x) (upd i (cp_s x) (cp_states x)) (cp_s x) else x)
    | CFull k a b c d e t =>
      do temp <- match k with FLoad => t_load block t | _ => t_mix (cp_W x) t end;
      let W := upd t temp (cp_W x) in
      let s := cp_s x in
      do v <- assigned w (from [getv a s; getv b s; getv c s; getv d s; getv e s; temp]) (e_full (kind_round k) o0 o1 o2 o3 o4 o5);
      let s := setv e v s in
      do v <- t_rotl30 (getv b s);
      Some (mkcp W (cp_states x) (setv b v s))
    end.
  (** ihv[0] += a; ... ihv[4] += e, lines 452-456 and 864-868, and the five sums of lines 1205-1209. *)
  Definition t_add (x y : word) : option word := assigned w (from [x; y]) (e_sum o0 o1).
  Definition t_addst (x y : st) : option st :=
    do a <- t_add (sa x) (sa y); do b <- t_add (sb x) (sb y); do c <- t_add (sc x) (sc y);
    do d <- t_add (sd x) (sd y); do e <- t_add (se x) (se y); Some (mkst a b c d e).
  (** Lines 364-457: sha1_compression_W. *)
  Definition t_compression_W (ihv : st) (W : list word) : option st :=
    do s <- ofold (t_step W) comp_W_steps ihv; t_addst ihv s.
  (** Lines 459-869: sha1_compression_states. *)
  Definition t_compression_states (ihv : st) (block : list byte) (W : list word) (states : list st) : option (st * list word * list st) :=
    do x <- ofold (t_item block) comp_states_items (mkcp W states ihv);
    do s <- t_addst ihv (cp_s x); Some (s, cp_W x, cp_states x).
  (** Lines 871-1210: sha1recompress_fast_t. *)
  Definition t_recompress_fast (t : nat) (me2 : list word) (state : st) : option (st * st) :=
    do ihvin <- ofold (fun s p => if (fst p <? t)%nat then t_step_bw me2 s (snd p) else Some s) recomp_back state;
    do fwd <- ofold (fun s p => if (t <=? fst p)%nat then t_step me2 s (snd p) else Some s) recomp_fwd state;
    do out <- t_addst ihvin fwd; Some (ihvin, out).
  (** Lines 1541-1948: sha1_recompression_step. *)
  Definition t_recompression_step (step : nat) (me2 : list word) (state : st) : option (st * st) :=
    match find (fun c => match c with (g, l, _) => defined g && (l =? step)%nat end) recomp_cases with
    | Some (_, _, t) =>
      if existsb (fun d => defined (fst d) && (snd d =? t)%nat) recomp_defs then t_recompress_fast t me2 state else None
    | None => None
    end.
  (** Lines 1977-1978: the loop over j. *)
  Definition t_xors (m d : list word) : option (list word) :=
    ofold (fun l j => do x <- assigned w (from [nth j m 0; nth j d 0]) (e_xor o0 o1); Some (l ++ [x])) (seq 0 80) [].
  (** Lines 1983-1984: 0 == ((x[0] ^ y[0]) | ... | (x[4] ^ y[4])). *)
  Definition t_same (x y : st) : option bool :=
    condition w (from [sa x; sb x; sc x; sd x; se x; sa y; sb y; sc y; sd y; se y]) (e_same EV (fun i => EV (5 + i))).
  (** Line 1975: ubc_dv_mask[0] & ((uint32_t)(1) << maskb); maskb is an int, so it has the type of a small literal. *)
  Definition t_bit (mask : word) (b : N) : option bool := condition w (from [mask]) (EAnd o0 (EShl (ECast (EL 1)) (EL b))).
  (** Line 1971: ubc_dv_mask[0] != 0. *)
  Definition t_nonzero (mask : word) : option bool := condition w (from [mask]) (ENe o0 (EL 0)).

  (** Lines 1972-1997: the loop over sha1_dvs. *)
  Fixpoint t_process_loop (dvs : list dvinfo) (mask : word) (c : ctx) : option ctx :=
    match dvs with
    | [] => None
    | dv :: rest =>
      if dvType dv =? 0 then Some c
      else
        do bit <- t_bit mask (maskB dv);
        if bit then
          do m2 <- t_xors (c_m1 c) (dm dv);
          do state <- nth_error (c_states c) (N.to_nat (testT dv));
          do (ihv2, ihvtmp) <- t_recompression_step (N.to_nat (testT dv)) m2 state;
          let c := set_ihv2_m2 ihv2 m2 c in
          do same <- t_same ihvtmp (c_ihv c);
          do same <- (if same then Some true else if Model_C.truth (c_reduced c) then t_same (c_ihv1 c) (c_ihv2 c) else Some false);
          if same : bool then
            let c := set_found 1 c in
            if Model_C.truth (c_safe c) then
              do h <- t_compression_W (c_ihv c) (c_m1 c);
              do h <- t_compression_W h (c_m1 c);
              Some (set_ihv h c)
            else Some c
          else t_process_loop rest mask c
        else t_process_loop rest mask c
    end.

  (** Lines 1950-2000: sha1_process. *)
  Definition t_process (c : ctx) (block : list byte) : option ctx :=
    let c := set_ihv1 (c_ihv c) c in
    do (ihv, m1, states) <- t_compression_states (c_ihv c) block (c_m1 c) (c_states c);
    let c := set_m1_states m1 states (set_ihv ihv c) in
    if Model_C.truth (c_detect c) then
      do mask <- (if Model_C.truth (c_ubc c) then ubc_check_typed w ubc_typed (c_m1 c) else assigned w (from []) (EL 0xFFFFFFFF));
      do nz <- t_nonzero mask;
      if nz : bool then t_process_loop dvs_c mask c else Some c
    else Some c.

  (** Lines 2075-2086: the while loop of SHA1DCUpdate. *)
  Fixpoint t_update_loop (fuel : nat) (c : ctx) (buf : list byte) : option (ctx * list byte) :=
    if (List.length buf <? 64)%nat then Some (c, buf) else
    match fuel with
    | O => None
    | S fuel =>
      let c := set_total (add64 (c_total c) 64) c in
      do c <- (if unaligned cfg then t_process c (firstn 64 buf)
               else do b <- memcpy (c_buffer c) 0 buf 64;
                    let c := set_buffer b c in t_process c (c_buffer c));
      t_update_loop fuel c (skipn 64 buf)
    end.
  (** Lines 2055-2092: SHA1DCUpdate. *)
  Definition t_Update (c : ctx) (buf : list byte) : option ctx :=
    if (List.length buf =? 0)%nat then Some c else
    let left := N.to_nat (N.land (c_total c) 63) in
    let fill := (64 - left)%nat in
    do (c, buf, left) <-
      (if (negb (left =? 0) && (fill <=? length buf))%nat then
         let c := set_total (add64 (c_total c) (N.of_nat fill)) c in
         do b <- memcpy (c_buffer c) left buf fill;
         let c := set_buffer b c in
         do c <- t_process c (c_buffer c);
         Some (c, skipn fill buf, 0%nat)
       else Some (c, buf, left));
    do (c, buf) <- t_update_loop (List.length buf) c buf;
    if (0 <? length buf)%nat then
      let c := set_total (add64 (c_total c) (N.of_nat (List.length buf))) c in
      do b <- memcpy (c_buffer c) left buf (List.length buf);
      Some (set_buffer b c)
    else Some c.
  (** Line 2104: (last < 56) ? (56 - last) : (120 - last). *)
  Definition t_padn (last : word) : option word :=
    assigned w (from [last]) (if last <? 56 then ESub (EL 56) o0 else ESub (EL 120) o0).
  (** Lines 2119-2138: (unsigned char)(ctx->ihv[i] >> n) for n = 24, 16, 8, and (unsigned char)(ctx->ihv[i]). *)
  Definition t_out (x : word) : option (list byte) :=
    do a <- assigned w (from [x]) (EShr o0 (EL 24)); do b <- assigned w (from [x]) (EShr o0 (EL 16));
    do c <- assigned w (from [x]) (EShr o0 (EL 8)); do d <- assigned w (from [x]) o0; Some [n2b a; n2b b; n2b c; n2b d].
  (** Lines 2101-2140: SHA1DCFinal. *)
  Definition t_Final (c : ctx) : option (ctx * list byte * Z) :=
    do padn <- t_padn (N.land (c_total c) 63);
    do p <- slice_to sha1_padding (N.to_nat padn);
    do c <- t_Update c p;
    let total := sub64 (c_total c) padn in
    let total := shl64 total 3 in
    do b <- memcpy (c_buffer c) 56
       [n2b (N.shiftr total 56); n2b (N.shiftr total 48); n2b (N.shiftr total 40); n2b (N.shiftr total 32);
        n2b (N.shiftr total 24); n2b (N.shiftr total 16); n2b (N.shiftr total 8); n2b total] 8;
    let c := set_buffer b c in
    do c <- t_process c (c_buffer c);
    let h := c_ihv c in
    do o0 <- t_out (sa h); do o1 <- t_out (sb h); do o2 <- t_out (sc h); do o3 <- t_out (sd h); do o4 <- t_out (se h);
    Some (c, o0 ++ o1 ++ o2 ++ o3 ++ o4, c_found c).

  (** One call of the C API, /repo/cgo/sha1.h lines 61-120, and a list of calls. *)
  Definition t_exec (c : ctx) (o : cop) : option (ctx * cres) :=
    match o with
    | CUpdate p => do c <- t_Update c p; Some (c, CNone)
    | CFinal => do (c, out, v) <- t_Final c; Some (c, CDigest out v)
    | o => capi_exec cfg c o
    end.
  Fixpoint t_run (c : ctx) (os : list cop) : option (ctx * list cres) :=
    match os with
    | [] => Some (c, [])
    | o :: os => do (c, r) <- t_exec c o; do (c, rs) <- t_run c os; Some (c, r :: rs)
    end.
End Typed.

(** The options of a context. *)
Definition ctx_opts (c : ctx) : copts := mkco (yes (c_detect c)) (yes (c_ubc c)) (yes (c_reduced c)) (yes (c_safe c)).
(** The uint32_t members of a context (/repo/cgo/sha1.h lines 42-59) hold 32 bits. *)
Definition words32 (c : ctx) : Prop := wfst (c_ihv c) /\ Forall wf (c_m1 c) /\ Forall wfst (c_states c).
