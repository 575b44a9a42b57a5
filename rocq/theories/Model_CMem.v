(** The C hasher of /repo/cgo/sha1.c on a memory with addresses: where the members of SHA1_CTX are, which addresses are
    read as uint32_t, and what the callers' buffers and the context have to do with each other.

    - A load through a [const uint32_t *] from an address that is not a multiple of the alignment of uint32_t is
      undefined (C11 6.3.2.3p7, 6.5.3.2p4), here [None]; so is a memcpy between overlapping objects.
    - Only the bytes of ctx->buffer, of the callers' buffers, of the output and of sha1_padding are in the memory; the other
      members of the context are in the record of Model_C.v, whose member [c_buffer] is not used here.
    - Addresses are unbounded numbers.  C's rules on effective types (6.5p6-7) are not modelled. *)

From Coq Require Import Arith NArith ZArith String List Strings.Byte Bool.
From Verif Require Import Word Model_Go Model_CSteps Gen_CSteps Gen_DvsC Model_Ubc Gen_UbcC Model_C Model_CApi Spec_C.
Import ListNotations.
Local Open Scope N_scope.

(** ** The layout of SHA1_CTX: /repo/cgo/sha1.h lines 42-60 *)

(** The target: alignment of uint64_t and uint32_t, size and alignment of int and of a function pointer. *)
Record abi := mkabi { a64 : N; a32 : N; isize : N; ialign : N; psize : N; palign : N }.

(** The members in order, with size and alignment; an unsigned char has alignment 1. *)
Definition ctx_fields (t : abi) : list (string * N * N) :=
  [("total", 8, a64 t); ("ihv", 20, a32 t); ("buffer", 64, 1);
   ("found_collision", isize t, ialign t); ("safe_hash", isize t, ialign t); ("detect_coll", isize t, ialign t);
   ("ubc_check", isize t, ialign t); ("reduced_round_coll", isize t, ialign t); ("callback", psize t, palign t);
   ("ihv1", 20, a32 t); ("ihv2", 20, a32 t); ("m1", 320, a32 t); ("m2", 320, a32 t); ("states", 1600, a32 t)]%string.

(** Every member at the next multiple of its alignment. *)
Definition round_up (x a : N) : N := (x + a - 1) / a * a.
Fixpoint place (at_ : N) (l : list (string * N * N)) : list (string * N) * N :=
  match l with
  | [] => ([], at_)
  | (n, s, a) :: l => let o := round_up at_ a in let (r, e) := place (o + s) l in ((n, o) :: r, e)
  end.
(** offsetof and sizeof; padding after the last member is not needed here. *)
Definition offset_of (t : abi) (n : string) : N :=
  match find (fun p => String.eqb n (fst p)) (fst (place 0 (ctx_fields t))) with Some p => snd p | None => 0 end.
Definition ctx_size (t : abi) : N := snd (place 0 (ctx_fields t)).

(** ** Memory *)

Definition cmem := N -> byte.
(** The n bytes at address a. *)
Definition mload (m : cmem) (a : N) (n : nat) : list byte := map (fun i => m (a + N.of_nat i)) (seq 0 n).
(** The memory with the bytes l at address a. *)
Definition mstore (m : cmem) (a : N) (l : list byte) : cmem := fun x =>
  if a <=? x then match nth_error l (N.to_nat (x - a)) with Some b => b | None => m x end else m x.
(** memcpy(dst, src, n). *)
Definition mcopy (m : cmem) (dst src : N) (n : nat) : option cmem :=
  if (dst + N.of_nat n <=? src) || (src + N.of_nat n <=? dst) then Some (mstore m dst (mload m src n)) else None.

Section Mem.
  (** The target, the configuration, the address of the context and of sha1_padding. *)
  Variables (t : abi) (cfg : ccfg) (A P : N).

  (** A load of the uint32_t at address a. *)
  Definition load32 (m : cmem) (a : N) : option word :=
    if a mod a32 t =? 0 then Some (machine_word cfg (mload m a 4)) else None.

  (** Lines 146-157: sha1_load(m, t, temp), m at address b. *)
  Definition m_load (m : cmem) (b : N) (i : nat) : option word :=
    do temp <- load32 m (b + 4 * N.of_nat i);
    Some (if macro_be cfg then temp else sha1_bswap32 temp).

  (** Lines 208-253, as [c_item]. *)
  Definition m_item (m : cmem) (b : N) (x : cpass) (it : citem) : option cpass :=
    match it with
    | CStore g i => Some (if defined g then mkcp (cp_W x) (upd i (cp_s x) (cp_states x)) (cp_s x) else x)
    | CFull k va vb vc vd ve i =>
      do temp <- match k with FLoad => m_load m b i | _ => Some (sha1_mix (cp_W x) i) end;
      let W := upd i temp (cp_W x) in
      let r := kind_round k in
      let s := cp_s x in
      let s := setv ve (add32 (getv ve s)
                 (add32 (add32 (add32 temp (rotate_left (getv va s) 5)) (c_f r (getv vb s) (getv vc s) (getv vd s))) (c_K r))) s in
      let s := setv vb (rotate_left (getv vb s) 30) s in
      Some (mkcp W (cp_states x) s)
    end.
  Fixpoint m_items (m : cmem) (b : N) (x : cpass) (l : list citem) : option cpass :=
    match l with [] => Some x | it :: l => do x <- m_item m b x it; m_items m b x l end.

  (** Lines 459-869: sha1_compression_states. *)
  Definition m_compression_states (m : cmem) (ihv : st) (b : N) (W : list word) (states : list st)
      : option (st * list word * list st) :=
    do x <- m_items m b (mkcp W states ihv) comp_states_items;
    Some (addst ihv (cp_s x), cp_W x, cp_states x).

  (** Lines 1950-2000: sha1_process(ctx, block), block at address b. *)
  Definition m_process (m : cmem) (c : ctx) (b : N) : option ctx :=
    let c := set_ihv1 (c_ihv c) c in
    do (ihv, m1, states) <- m_compression_states m (c_ihv c) b (c_m1 c) (c_states c);
    let c := set_m1_states m1 states (set_ihv ihv c) in
    if truth (c_detect c) then
      let mask := if truth (c_ubc c) then ubc_check (c_m1 c) else 0xFFFFFFFF in
      if negb (mask =? 0) then process_loop dvs_c mask c else Some c
    else Some c.

  (** The address of ctx->buffer. *)
  Definition buffer_at : N := A + offset_of t "buffer"%string.

  (** Lines 2075-2086. *)
  Fixpoint m_loop (fuel : nat) (m : cmem) (c : ctx) (b : N) (n : nat) : option (cmem * ctx * N * nat) :=
    if (n <? 64)%nat then Some (m, c, b, n) else
    match fuel with
    | O => None
    | S fuel =>
      let c := set_total (add64 (c_total c) 64) c in
      do (m, c) <- (if unaligned cfg then do c <- m_process m c b; Some (m, c)
                    else do m <- mcopy m buffer_at b 64;
                         do c <- m_process m c buffer_at; Some (m, c));
      m_loop fuel m c (b + 64) (n - 64)
    end.

  (** Lines 2055-2092: SHA1DCUpdate(ctx, buf, len), buf at address b. *)
  Definition m_Update (m : cmem) (c : ctx) (b : N) (n : nat) : option (cmem * ctx) :=
    if (n =? 0)%nat then Some (m, c) else
    let left := N.to_nat (N.land (c_total c) 63) in
    let fill := (64 - left)%nat in
    do (m, c, b, n, left) <-
      (if (negb (left =? 0) && (fill <=? n))%nat then
         let c := set_total (add64 (c_total c) (N.of_nat fill)) c in
         do m <- mcopy m (buffer_at + N.of_nat left) b fill;
         do c <- m_process m c buffer_at;
         Some (m, c, b + N.of_nat fill, (n - fill)%nat, 0%nat)
       else Some (m, c, b, n, left));
    do (m, c, b, n) <- m_loop n m c b n;
    if (0 <? n)%nat then
      let c := set_total (add64 (c_total c) (N.of_nat n)) c in
      do m <- mcopy m (buffer_at + N.of_nat left) b n;
      Some (m, c)
    else Some (m, c).

  (** Lines 2101-2140: SHA1DCFinal(output, ctx), output at address out. *)
  Definition m_Final (m : cmem) (c : ctx) (out : N) : option (cmem * ctx * Z) :=
    let last := N.land (c_total c) 63 in
    let padn := if last <? 56 then 56 - last else 120 - last in
    do (m, c) <- m_Update m c P (N.to_nat padn);
    let total := sub64 (c_total c) padn in
    let total := shl64 total 3 in
    let m := mstore m (buffer_at + 56)
       [n2b (N.shiftr total 56); n2b (N.shiftr total 48); n2b (N.shiftr total 40); n2b (N.shiftr total 32);
        n2b (N.shiftr total 24); n2b (N.shiftr total 16); n2b (N.shiftr total 8); n2b total] in
    do c <- m_process m c buffer_at;
    let o w := [n2b (N.shiftr w 24); n2b (N.shiftr w 16); n2b (N.shiftr w 8); n2b w] in
    let h := c_ihv c in
    Some (mstore m out (o (sa h) ++ o (sb h) ++ o (sc h) ++ o (sd h) ++ o (se h)), c, c_found c).
End Mem.

(** ** A C program with one context: calls with addresses *)
Inductive mop :=
| MSet (o : cop)                 (* SHA1DCInit and the setters *)
| MUpdate (b : N) (n : nat)
| MFinal (out : N).

Definition m_exec (t : abi) (cfg : ccfg) (A P : N) (m : cmem) (c : ctx) (o : mop) : option (cmem * ctx * option Z) :=
  match o with
  | MSet o => do (c, _) <- capi_exec cfg c o; Some (m, c, None)
  | MUpdate b n => do (m, c) <- m_Update t cfg A m c b n; Some (m, c, None)
  | MFinal out => do (m, c, v) <- m_Final t cfg A P m c out; Some (m, c, Some v)
  end.
Fixpoint m_run (t : abi) (cfg : ccfg) (A P : N) (m : cmem) (c : ctx) (os : list mop) : option (cmem * ctx * list (option Z)) :=
  match os with
  | [] => Some (m, c, [])
  | o :: os => do (m, c, r) <- m_exec t cfg A P m c o; do (m, c, rs) <- m_run t cfg A P m c os; Some (m, c, r :: rs)
  end.
