(** Effective types in the C code (ISO C11, 6.5 paragraphs 6 and 7).

    sha1_process is given the block as const uint32_t block[16] and loads words from it (/repo/cgo/sha1.c lines 146-157, 1950), but
    the bytes come from ctx->buffer (unsigned char[64], sha1.h line 46), from the caller's char array (line 2079) or from
    sha1_padding (static const unsigned char[64], lines 2094-2099).
    - Each byte of the buffer and of the input has an effective type: none yet, a character type or uint32_t.
    - An object that is declared keeps its declared type.  In memory that was not declared in C (such as that of a Go variable) a
      store through an lvalue of character type leaves the byte without effective type, and memcpy copies the effective types.
    - A load of a word from a byte whose effective type is a character type is undefined behaviour, [None].
    - A compiler that is told not to use these rules (-fno-strict-aliasing; the package does not ask for it) is Model_C.v.
    - All other accesses of the code are through lvalues of the declared types and need no check. *)

From Coq Require Import Arith NArith ZArith List Strings.Byte Bool.
From Verif Require Import Word Model_Go Gen_CSteps Model_C.
Import ListNotations.
Local Open Scope N_scope.

Inductive etype := Untyped | EChar | EWord.
Definition word_ok (t : etype) : bool := match t with EChar => false | _ => true end.

(** The hasher: was it declared in C, and the effective types of its buffer. *)
Record ectx := mke { e_ctx : ctx; e_declared : bool; e_tags : list etype }.
Definition e_new (declared : bool) (c : ctx) : ectx := mke c declared (repeat (if declared then EChar else Untyped) 64).

(** memcpy(ctx->buffer + at, src, n) and a store of n characters there. *)
Definition e_copy (x : ectx) (at_ n : nat) (ts : list etype) : list etype :=
  if e_declared x then e_tags x else firstn at_ (e_tags x) ++ firstn n ts ++ skipn (at_ + n) (e_tags x).
Definition e_store (x : ectx) (at_ n : nat) : list etype := e_copy x at_ n (repeat Untyped n).

(** Lines 1950-2000: sha1_process; [ts] are the effective types of the bytes of the block. *)
Definition e_process (cfg : ccfg) (c : ctx) (block : list byte) (ts : list etype) : option ctx :=
  if forallb word_ok ts then sha1_process cfg c block else None.

(** Lines 2075-2086: the while loop. *)
Fixpoint e_update_loop (fuel : nat) (cfg : ccfg) (x : ectx) (buf : list byte) (ts : list etype) : option (ectx * list byte * list etype) :=
  if (length buf <? 64)%nat then Some (x, buf, ts) else
  match fuel with
  | O => None
  | S fuel =>
    let c := set_total (add64 (c_total (e_ctx x)) 64) (e_ctx x) in
    do x <- (if unaligned cfg then do c <- e_process cfg c (firstn 64 buf) (firstn 64 ts); Some (mke c (e_declared x) (e_tags x))
             else do b <- memcpy (c_buffer c) 0 buf 64;
                  let c := set_buffer b c in
                  let tags := e_copy x 0 64 ts in
                  do c <- e_process cfg c (c_buffer c) tags; Some (mke c (e_declared x) tags));
    e_update_loop fuel cfg x (skipn 64 buf) (skipn 64 ts)
  end.

(** Lines 2055-2092: SHA1DCUpdate; [ts] are the effective types of the bytes at buf. *)
Definition e_Update (cfg : ccfg) (x : ectx) (buf : list byte) (ts : list etype) : option ectx :=
  if (length buf =? 0)%nat then Some x else
  let left := N.to_nat (N.land (c_total (e_ctx x)) 63) in
  let fill := (64 - left)%nat in
  do (y, left) <-
    (if (negb (left =? 0) && (fill <=? length buf))%nat then
       let c := set_total (add64 (c_total (e_ctx x)) (N.of_nat fill)) (e_ctx x) in
       do b <- memcpy (c_buffer c) left buf fill;
       let c := set_buffer b c in
       let tags := e_copy x left fill ts in
       do c <- e_process cfg c (c_buffer c) tags;
       Some (mke c (e_declared x) tags, skipn fill buf, skipn fill ts, 0%nat)
     else Some (x, buf, ts, left));
  let '(x, buf, ts) := y in
  do (x, buf, ts) <- e_update_loop (length buf) cfg x buf ts;
  if (0 <? length buf)%nat then
    let c := set_total (add64 (c_total (e_ctx x)) (N.of_nat (length buf))) (e_ctx x) in
    do b <- memcpy (c_buffer c) left buf (length buf);
    Some (mke (set_buffer b c) (e_declared x) (e_copy x left (length buf) ts))
  else Some x.

(** Lines 2101-2140: SHA1DCFinal; [pt] is the type that sha1_padding is declared with, unsigned char (line 2094). *)
Definition e_Final_with (pt : etype) (cfg : ccfg) (x : ectx) : option (ectx * list byte * Z) :=
  let last := N.land (c_total (e_ctx x)) 63 in
  let padn := if last <? 56 then 56 - last else 120 - last in
  do p <- slice_to sha1_padding (N.to_nat padn);
  do x <- e_Update cfg x p (repeat pt (N.to_nat padn));
  let c := e_ctx x in
  let total := sub64 (c_total c) padn in
  let total := shl64 total 3 in
  do b <- memcpy (c_buffer c) 56
     [n2b (N.shiftr total 56); n2b (N.shiftr total 48); n2b (N.shiftr total 40); n2b (N.shiftr total 32);
      n2b (N.shiftr total 24); n2b (N.shiftr total 16); n2b (N.shiftr total 8); n2b total] 8;
  let c := set_buffer b c in
  let tags := e_store x 56 8 in
  do c <- e_process cfg c (c_buffer c) tags;
  let out w := [n2b (N.shiftr w 24); n2b (N.shiftr w 16); n2b (N.shiftr w 8); n2b w] in
  let h := c_ihv c in
  Some (mke c (e_declared x) tags, out (sa h) ++ out (sb h) ++ out (sc h) ++ out (sd h) ++ out (se h), c_found c).

Definition e_Final : ccfg -> ectx -> option (ectx * list byte * Z) := e_Final_with EChar.

(** A history of SHA1DCUpdate calls; the effective types of each input. *)
Fixpoint e_run (cfg : ccfg) (x : ectx) (ws : list (list byte * list etype)) : option ectx :=
  match ws with
  | [] => Some x
  | (p, ts) :: ws => do x <- e_Update cfg x p ts; e_run cfg x ws
  end.
