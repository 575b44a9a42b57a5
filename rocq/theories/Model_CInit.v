(** The C library on a SHA1_CTX that need not have been initialised: every member, and every element of an array, is
    [Some] value after it has been written and [None] before (C11 6.7.9 paragraph 10: indeterminate).  A read of an
    indeterminate value gives [None] for the whole call.  The functions are those of Model_C, read by read.

    Simplifications.  The five words of an ihv, and of an element of states, are defined together: the code only ever
    writes all five (/repo/cgo/sha1.c lines 2005-2009, 248-253, 864-868, 1955-1959 and the ends of the recompression
    functions).  ubc_check, the computation of m2 and sha1_compression_W read all 80 words of m1 here; ubc_check really
    reads some of them only, so the model refuses no less than the code.  The caller's data has been written. *)

From Coq Require Import Arith NArith ZArith List Strings.Byte Bool.
From Verif Require Import Word Model_Go Model_Ubc Gen_DvsC Model_CSteps Gen_CSteps Model_C Spec_C Model_CApi.
Import ListNotations.
Local Open Scope N_scope.

(** /repo/cgo/sha1.h lines 42-59: SHA1_CTX. *)
Record ictx := mkictx {
  i_total : option N; i_ihv : option st; i_buffer : list (option byte);
  i_found : option Z; i_safe : option Z; i_detect : option Z; i_ubc : option Z; i_reduced : option Z; i_callback : option N;
  i_ihv1 : option st; i_ihv2 : option st; i_m1 : list (option word); i_m2 : list (option word); i_states : list (option st) }.

(** "SHA1_CTX ctx;": nothing written. *)
Definition unwritten : ictx :=
  mkictx None None (repeat None 64) None None None None None None None None (repeat None 80) (repeat None 80) (repeat None 80).

(** Reading one element of an array, and every element. *)
Definition read_at {A} (l : list (option A)) (n : nat) : option A := do x <- nth_error l n; x.
Fixpoint read_all {A} (l : list (option A)) : option (list A) :=
  match l with
  | [] => Some []
  | x :: r => do x <- x; do r <- read_all r; Some (x :: r)
  end.

(** Writes of members. *)
Definition i_set_total (x : N) (c : ictx) : ictx :=
  mkictx (Some x) (i_ihv c) (i_buffer c) (i_found c) (i_safe c) (i_detect c) (i_ubc c) (i_reduced c) (i_callback c)
    (i_ihv1 c) (i_ihv2 c) (i_m1 c) (i_m2 c) (i_states c).
Definition i_set_ihv (x : st) (c : ictx) : ictx :=
  mkictx (i_total c) (Some x) (i_buffer c) (i_found c) (i_safe c) (i_detect c) (i_ubc c) (i_reduced c) (i_callback c)
    (i_ihv1 c) (i_ihv2 c) (i_m1 c) (i_m2 c) (i_states c).
Definition i_set_buffer (x : list (option byte)) (c : ictx) : ictx :=
  mkictx (i_total c) (i_ihv c) x (i_found c) (i_safe c) (i_detect c) (i_ubc c) (i_reduced c) (i_callback c)
    (i_ihv1 c) (i_ihv2 c) (i_m1 c) (i_m2 c) (i_states c).
Definition i_set_found (x : Z) (c : ictx) : ictx :=
  mkictx (i_total c) (i_ihv c) (i_buffer c) (Some x) (i_safe c) (i_detect c) (i_ubc c) (i_reduced c) (i_callback c)
    (i_ihv1 c) (i_ihv2 c) (i_m1 c) (i_m2 c) (i_states c).
Definition i_set_ihv1 (x : st) (c : ictx) : ictx :=
  mkictx (i_total c) (i_ihv c) (i_buffer c) (i_found c) (i_safe c) (i_detect c) (i_ubc c) (i_reduced c) (i_callback c)
    (Some x) (i_ihv2 c) (i_m1 c) (i_m2 c) (i_states c).
Definition i_set_ihv2_m2 (x : st) (y : list word) (c : ictx) : ictx :=
  mkictx (i_total c) (i_ihv c) (i_buffer c) (i_found c) (i_safe c) (i_detect c) (i_ubc c) (i_reduced c) (i_callback c)
    (i_ihv1 c) (Some x) (i_m1 c) (map Some y) (i_states c).
Definition i_set_m1_states (x : list (option word)) (y : list (option st)) (c : ictx) : ictx :=
  mkictx (i_total c) (i_ihv c) (i_buffer c) (i_found c) (i_safe c) (i_detect c) (i_ubc c) (i_reduced c) (i_callback c)
    (i_ihv1 c) (i_ihv2 c) x (i_m2 c) y.

(** /repo/cgo/sha1.c lines 146-157: sha1_load, four bytes of the block. *)
Definition i_load (cfg : ccfg) (block : list (option byte)) (t : nat) : option word :=
  do l <- read_all (firstn 4 (skipn (4 * t) block));
  Some (if macro_be cfg then machine_word cfg l else sha1_bswap32 (machine_word cfg l)).
(** Line 144: sha1_mix, four words of W. *)
Definition i_mix (W : list (option word)) (t : nat) : option word :=
  do w3 <- read_at W (t - 3); do w8 <- read_at W (t - 8); do w14 <- read_at W (t - 14); do w16 <- read_at W (t - 16);
  Some (rotate_left (N.lxor (N.lxor (N.lxor w3 w8) w14) w16) 1).

(** Lines 208-253: the SHA1COMPRESS_FULL macros and SHA1_STORE_STATE.  The locals a, b, c, d, e are initialised at line 461. *)
Record ipass := mkip { ip_W : list (option word); ip_states : list (option st); ip_s : st }.
Definition i_item (cfg : ccfg) (block : list (option byte)) (x : ipass) (it : citem) : option ipass :=
  match it with
  | CStore g i => Some (if defined g then mkip (ip_W x) (upd i (Some (ip_s x)) (ip_states x)) (ip_s x) else x)
  | CFull k a b c d e t =>
    do temp <- match k with FLoad => i_load cfg block t | _ => i_mix (ip_W x) t end;
    let W := upd t (Some temp) (ip_W x) in
    let r := kind_round k in
    let s := ip_s x in
    let s := setv e (add32 (getv e s)
               (add32 (add32 (add32 temp (rotate_left (getv a s) 5)) (c_f r (getv b s) (getv c s) (getv d s))) (c_K r))) s in
    let s := setv b (rotate_left (getv b s) 30) s in
    Some (mkip W (ip_states x) s)
  end.
Fixpoint i_items (cfg : ccfg) (block : list (option byte)) (l : list citem) (x : ipass) : option ipass :=
  match l with
  | [] => Some x
  | it :: l => do x <- i_item cfg block x it; i_items cfg block l x
  end.

(** Lines 1972-1997: the loop over sha1_dvs; the operands of || and && are read only when reached. *)
Fixpoint i_process_loop (dvs : list dvinfo) (mask : word) (c : ictx) : option ictx :=
  match dvs with
  | [] => None
  | dv :: rest =>
    if dvType dv =? 0 then Some c
    else if 32 <=? maskB dv then None
    else if N.land mask (shl32 1 (maskB dv)) =? 0 then i_process_loop rest mask c
    else
      do m1 <- read_all (i_m1 c);
      let m2 := map (fun j => N.lxor (nth j m1 0) (nth j (dm dv) 0)) (seq 0 80) in
      do state <- read_at (i_states c) (N.to_nat (testT dv));
      do (ihv2, ihvtmp) <- sha1_recompression_step (N.to_nat (testT dv)) m2 state;
      let c := i_set_ihv2_m2 ihv2 m2 c in
      do ihv <- i_ihv c;
      do hit <- (if same_words ihvtmp ihv then Some true else
                 do reduced <- i_reduced c;
                 if truth reduced then
                   do ihv1 <- i_ihv1 c; do ihv2 <- i_ihv2 c; Some (same_words ihv1 ihv2)
                 else Some false);
      if hit : bool then
        let c := i_set_found 1 c in
        do safe <- i_safe c;
        Some (if truth safe then i_set_ihv (sha1_compression_W (sha1_compression_W ihv m1) m1) c else c)
      else i_process_loop rest mask c
  end.

(** Lines 1950-2000: sha1_process; [block] is 64 bytes of memory. *)
Definition i_process (cfg : ccfg) (c : ictx) (block : list (option byte)) : option ictx :=
  do ihv <- i_ihv c;
  let c := i_set_ihv1 ihv c in
  do x <- i_items cfg block comp_states_items (mkip (i_m1 c) (i_states c) ihv);
  let c := i_set_m1_states (ip_W x) (ip_states x) (i_set_ihv (addst ihv (ip_s x)) c) in
  do detect <- i_detect c;
  if truth detect then
    do ubc <- i_ubc c;
    do mask <- (if truth ubc then do m1 <- read_all (i_m1 c); Some (ubc_check m1) else Some 0xFFFFFFFF);
    if negb (mask =? 0) then i_process_loop dvs_c mask c else Some c
  else Some c.

(** Lines 2002-2016: SHA1DCInit. *)
Definition i_Init (c : ictx) : ictx :=
  mkictx (Some 0) (Some (mkst 0x67452301 0xEFCDAB89 0x98BADCFE 0x10325476 0xC3D2E1F0)) (i_buffer c)
    (Some 0%Z) (Some 1%Z) (Some 1%Z) (Some 1%Z) (Some 0%Z) (Some 0) (i_ihv1 c) (i_ihv2 c) (i_m1 c) (i_m2 c) (i_states c).

(** Lines 2018-2053: the setters. *)
Definition i_bool (v : Z) : option Z := Some (if truth v then 1 else 0)%Z.
Definition i_SetSafeHash (c : ictx) (v : Z) : ictx :=
  mkictx (i_total c) (i_ihv c) (i_buffer c) (i_found c) (i_bool v) (i_detect c) (i_ubc c) (i_reduced c) (i_callback c)
    (i_ihv1 c) (i_ihv2 c) (i_m1 c) (i_m2 c) (i_states c).
Definition i_SetUseUBC (c : ictx) (v : Z) : ictx :=
  mkictx (i_total c) (i_ihv c) (i_buffer c) (i_found c) (i_safe c) (i_detect c) (i_bool v) (i_reduced c) (i_callback c)
    (i_ihv1 c) (i_ihv2 c) (i_m1 c) (i_m2 c) (i_states c).
Definition i_SetUseDetectColl (c : ictx) (v : Z) : ictx :=
  mkictx (i_total c) (i_ihv c) (i_buffer c) (i_found c) (i_safe c) (i_bool v) (i_ubc c) (i_reduced c) (i_callback c)
    (i_ihv1 c) (i_ihv2 c) (i_m1 c) (i_m2 c) (i_states c).
Definition i_SetReduced (c : ictx) (v : Z) : ictx :=
  mkictx (i_total c) (i_ihv c) (i_buffer c) (i_found c) (i_safe c) (i_detect c) (i_ubc c) (i_bool v) (i_callback c)
    (i_ihv1 c) (i_ihv2 c) (i_m1 c) (i_m2 c) (i_states c).
Definition i_SetCallback (c : ictx) (f : N) : ictx :=
  mkictx (i_total c) (i_ihv c) (i_buffer c) (i_found c) (i_safe c) (i_detect c) (i_ubc c) (i_reduced c) (Some f)
    (i_ihv1 c) (i_ihv2 c) (i_m1 c) (i_m2 c) (i_states c).

(** memcpy(dst + at, src, n) from memory that has been written. *)
Definition i_memcpy (dst : list (option byte)) (at_ : nat) (src : list byte) (n : nat) : option (list (option byte)) :=
  if ((at_ + n <=? length dst) && (n <=? length src))%nat
  then Some (firstn at_ dst ++ map Some (firstn n src) ++ skipn (at_ + n) dst) else None.

(** Lines 2075-2086: the while loop. *)
Fixpoint i_update_loop (fuel : nat) (cfg : ccfg) (c : ictx) (buf : list byte) : option (ictx * list byte) :=
  if (length buf <? 64)%nat then Some (c, buf) else
  match fuel with
  | O => None
  | S fuel =>
    do total <- i_total c;
    let c := i_set_total (add64 total 64) c in
    do c <- (if unaligned cfg then i_process cfg c (map Some (firstn 64 buf))
             else do b <- i_memcpy (i_buffer c) 0 buf 64;
                  let c := i_set_buffer b c in i_process cfg c (i_buffer c));
    i_update_loop fuel cfg c (skipn 64 buf)
  end.

(** Lines 2055-2092: SHA1DCUpdate. *)
Definition i_Update (cfg : ccfg) (c : ictx) (buf : list byte) : option ictx :=
  if (length buf =? 0)%nat then Some c else
  do total <- i_total c;
  let left := N.to_nat (N.land total 63) in
  let fill := (64 - left)%nat in
  do (c, buf, left) <-
    (if (negb (left =? 0) && (fill <=? length buf))%nat then
       let c := i_set_total (add64 total (N.of_nat fill)) c in
       do b <- i_memcpy (i_buffer c) left buf fill;
       let c := i_set_buffer b c in
       do c <- i_process cfg c (i_buffer c);
       Some (c, skipn fill buf, 0%nat)
     else Some (c, buf, left));
  do (c, buf) <- i_update_loop (length buf) cfg c buf;
  if (0 <? length buf)%nat then
    do total <- i_total c;
    let c := i_set_total (add64 total (N.of_nat (length buf))) c in
    do b <- i_memcpy (i_buffer c) left buf (length buf);
    Some (i_set_buffer b c)
  else Some c.

(** Lines 2101-2140: SHA1DCFinal. *)
Definition i_Final (cfg : ccfg) (c : ictx) : option (ictx * list byte * Z) :=
  do total <- i_total c;
  let last := N.land total 63 in
  let padn := if last <? 56 then 56 - last else 120 - last in
  do p <- slice_to sha1_padding (N.to_nat padn);
  do c <- i_Update cfg c p;
  do total <- i_total c;
  let total := sub64 total padn in
  let total := shl64 total 3 in
  do b <- i_memcpy (i_buffer c) 56
     [n2b (N.shiftr total 56); n2b (N.shiftr total 48); n2b (N.shiftr total 40); n2b (N.shiftr total 32);
      n2b (N.shiftr total 24); n2b (N.shiftr total 16); n2b (N.shiftr total 8); n2b total] 8;
  let c := i_set_buffer b c in
  do c <- i_process cfg c (i_buffer c);
  let out w := [n2b (N.shiftr w 24); n2b (N.shiftr w 16); n2b (N.shiftr w 8); n2b w] in
  do h <- i_ihv c;
  do found <- i_found c;
  Some (c, out (sa h) ++ out (sb h) ++ out (sc h) ++ out (sd h) ++ out (se h), found).

(** Calls of the C API on one context, as in Model_CApi. *)
Definition i_exec (cfg : ccfg) (c : ictx) (o : cop) : option (ictx * cres) :=
  match o with
  | CInit => Some (i_Init c, CNone)
  | CSetSafeHash v => Some (i_SetSafeHash c v, CNone)
  | CSetUseUBC v => Some (i_SetUseUBC c v, CNone)
  | CSetUseDetectColl v => Some (i_SetUseDetectColl c v, CNone)
  | CSetReduced v => Some (i_SetReduced c v, CNone)
  | CSetCallback f => Some (i_SetCallback c f, CNone)
  | CUpdate p => do c <- i_Update cfg c p; Some (c, CNone)
  | CFinal => do (c, out, v) <- i_Final cfg c; Some (c, CDigest out v)
  end.
Fixpoint i_run (cfg : ccfg) (c : ictx) (os : list cop) : option (ictx * list cres) :=
  match os with
  | [] => Some (c, [])
  | o :: os =>
    do (c, r) <- i_exec cfg c o;
    do (c, rs) <- i_run cfg c os;
    Some (c, r :: rs)
  end.
