(** Input that changes while a call reads it: a file mapped into memory and written by another process, or a slice that another
    goroutine writes.  The block functions again, with the accesses to the input made one by one. *)

From Coq Require Import Arith NArith ZArith String List Strings.Byte Bool.
From Verif Require Import Word Model_Ubc Gen_DvsC Model_Go Model_Asm Model_Amd64 Gen_Amd64 Model_Arm64 Gen_Arm64 Model_Block Model_CSteps Gen_CSteps Model_C.
Import ListNotations.
Local Open Scope N_scope.

(** [m t i]: byte i of the input at the time of the access number t of the call. *)
Definition input := nat -> nat -> byte.

(** ** /repo/sha1cdblock_generic.go *)

(** Line 54, the four accesses p[j], p[j+1], p[j+2], p[j+3] in this order; p has been advanced by [base] bytes, the pass over the block
    started at time t. *)
Definition load_at (m : input) (t base : nat) (i : nat) : word :=
  let j := (i * 4)%nat in
  let b k := b2n (m (t + (j + k))%nat (base + (j + k))%nat) in
  N.lor (N.lor (N.lor (shl32 (b 0%nat) 24) (shl32 (b 1%nat) 16)) (shl32 (b 2%nat) 8)) (b 3%nat).
(** Lines 51-62. *)
Definition body_load_at (m : input) (t base : nat) (x : pass) (i : nat) : pass :=
  let w := upd i (load_at m t base i) (pw x) in
  let wi := nth (Nat.land i 15) w 0 in
  mkpass w (upd i wi (pm x)) (pcs x) (g_round g_ch K0 wi (ps x)).
(** Lines 41-116; the pass takes 64 accesses. *)
Definition g_pass_at (m : input) (t base : nat) (h : st) (w m1 : list word) (cs : csarr) : pass :=
  let x := mkpass w m1 (mkcs h (cs1 cs) (cs2 cs)) h in
  let x := fold_left (body_load_at m t base) (seq 0 16) x in
  let x := fold_left (body_mix g_ch K0 save_none) (seq 16 4) x in
  let x := fold_left (body_mix g_par K1 save_none) (seq 20 20) x in
  let x := fold_left (body_mix g_maj K2 save58) (seq 40 20) x in
  fold_left (body_mix g_par K3 save65) (seq 60 20) x.
(** Lines 40-137, as [Model_Go.g_rehash]; the time is part of the result. *)
Fixpoint g_rehash_at (m : input) (fuel t base : nat) (hi : nat) (h : st) (w m1 : list word) (cs : csarr) (col : bool)
    : option (st * list word * csarr * bool * nat) :=
  match fuel with
  | O => None
  | S fuel =>
    let x := g_pass_at m t base h w m1 cs in
    let t := (t + 64)%nat in
    let h := addst h (ps x) in
    if (hi =? 2)%nat then g_rehash_at m fuel t base (hi + 1) h (pw x) (pm x) (pcs x) col
    else if (hi =? 1)%nat then
      do c <- checkCollision (pm x) (pcs x) h;
      if c : bool then g_rehash_at m fuel t base (hi + 1) h (pw x) (pm x) (pcs x) true
      else Some (h, pw x, pcs x, col, t)
    else Some (h, pw x, pcs x, col, t)
  end.
(** Lines 31-140; [len] is len(p), which is in the slice header and does not change. *)
Fixpoint g_blocks_at (m : input) (fuel t base len : nat) (h : st) (w : list word) (cs : csarr) (col : bool) : option (st * bool) :=
  if (64 <=? len)%nat then
    match fuel with
    | O => None
    | S fuel =>
      do (h, w, cs, col, t) <- g_rehash_at m 3 t base 1 h w (repeat 0 80) cs col;
      g_blocks_at m fuel t (base + 64) (len - 64) h w cs col
    end
  else Some (h, col).
(** Lines 22-143. *)
Definition blockGeneric_at (m : input) (len : nat) (d : digest) : option digest :=
  do (h, col) <- g_blocks_at m len 0 0 len (dh d) (repeat 0 16) (mkcs st0 st0 st0) (dcol d);
  Some (mkd h (dx d) (dnx d) (dlen d) col).

(** ** /repo/sha1cdblock_amd64.go lines 34-51 and sha1cdblock_arm64.go lines 30-47: as [Model_Block.asm_blocks].  Here the time is the
    number of the call of the assembly routine: the input may change between its calls, not during one. *)
Definition chunk_at (m : input) (k base : nat) : list byte := map (fun i => m k (base + i)%nat) (seq 0 64).
Fixpoint asm_blocks_at (call : asm_call) (m : input) (fuel k base len : nat) (h : st) (m1 : list word) (cs : csarr) (col : bool)
    : option (st * bool) :=
  if (64 <=? len)%nat then
    match fuel with
    | O => None
    | S fuel =>
      do (h, m1, cs) <- call k h (chunk_at m k base) m1 cs;
      let cs := rectify m1 cs in
      do c <- checkCollision m1 cs h;
      if c : bool then
        do (h, m1, cs) <- call (k + 1)%nat h (chunk_at m (k + 1) base) m1 cs;
        do (h, m1, cs) <- call (k + 2)%nat h (chunk_at m (k + 2) base) m1 cs;
        asm_blocks_at call m fuel (k + 3) (base + 64) (len - 64) h m1 cs true
      else asm_blocks_at call m fuel (k + 1) (base + 64) (len - 64) h m1 cs col
    end
  else Some (h, col).
Definition asm_block_at (call : asm_call) (m : input) (len : nat) (d : digest) : option digest :=
  do (h, col) <- asm_blocks_at call m len 0 0 len (dh d) (repeat 0 80) (mkcs st0 st0 st0) (dcol d);
  Some (mkd h (dx d) (dnx d) (dlen d) col).

(** Which code processes the blocks, as [Model_Block.block_of].  The machine state at each call of the assembly may depend on the
    hasher and the length. *)
Inductive impl_at :=
| GenericAt
| Amd64At (e : digest -> nat -> nat -> env) (ok : forall d len k, layout_ok (e_lay (e d len k)))
| Arm64At (e : digest -> nat -> nat -> aenv)
          (ok : forall d len k, layout_ok (ae_lay (e d len k)) /\ ae_g (e d len k) 16%nat mod M64 + 64 < M64).
Definition block_at (c : impl_at) (m : input) (len : nat) (d : digest) : option digest :=
  match c with
  | GenericAt => blockGeneric_at m len d
  | Amd64At e _ => asm_block_at (fun k => call_amd64 amd64_prog upper_mask shuffle_mask (e d len k)) m len d
  | Arm64At e _ => asm_block_at (fun k => call_arm64 arm64_prog sha1Ks (e d len k)) m len d
  end.

(** ** /repo/sha1cd.go *)

(** memcpy and copy from the input: [n] accesses, one byte each. *)
Definition bytes_at (m : input) (t base n : nat) : list byte := map (fun i => m (t + i)%nat (base + i)%nat) (seq 0 n).
(** Lines 132-157, Write, as [Model_Go.Write].  [m 0], [m 1], [m 2]: the input during the copy of line 140, the block call of line 150 and
    the copy of line 154.  The block of line 143 is in the hasher and does not change: [blk]. *)
Definition Write_at (blk : blockfn) (c : impl_at) (m : nat -> input) (len : nat) (d : digest) : option (digest * nat) :=
  if (len =? 0)%nat then Some (d, 0%nat)
  else
    let nn := len in
    let d := mkd (dh d) (dx d) (dnx d) ((dlen d + N.of_nat nn) mod M64) (dcol d) in
    do (d, base) <-
      (if (0 <? dnx d)%nat then
         do _ <- slice_from (dx d) (dnx d);
         let '(x, n) := copy_at (dx d) (dnx d) (bytes_at (m 0%nat) 0 0 len) in
         let d := mkd (dh d) x (dnx d + n) (dlen d) (dcol d) in
         do d <- (if (dnx d =? 64)%nat then
                    do d <- blk d (dx d);
                    Some (mkd (dh d) (dx d) 0 (dlen d) (dcol d))
                  else Some d);
         Some (d, n)
       else Some (d, 0%nat));
    do (d, base) <-
      (if (64 <=? len - base)%nat then
         let n := Nat.ldiff (len - base) (64 - 1) in
         do d <- block_at c (fun t i => m 1%nat t (base + i)%nat) n d;
         Some (d, (base + n)%nat)
       else Some (d, base));
    let d :=
      (if (0 <? len - base)%nat then
         let '(x, n) := copy_at (dx d) 0 (bytes_at (m 2%nat) 0 base (len - base)) in
         mkd (dh d) x n (dlen d) (dcol d)
       else d) in
    Some (d, nn).
(** Writes one after the other. *)
Fixpoint writes_at (blk : blockfn) (c : impl_at) (ws : list ((nat -> input) * nat)) (d : digest) : option digest :=
  match ws with
  | [] => Some d
  | (m, len) :: ws => do (d, _) <- Write_at blk c m len d; writes_at blk c ws d
  end.

(** ** /repo/cgo/sha1.c *)

(** Lines 146-157, sha1_load: one access to a machine word. *)
Definition sha1_load_at (cfg : ccfg) (m : input) (t base : nat) (i : nat) : word :=
  let temp := machine_word cfg (map (fun k => m t (base + (4 * i + k))%nat) (seq 0 4)) in
  if macro_be cfg then temp else sha1_bswap32 temp.
(** Lines 208-253, as [Model_C.c_item]. *)
Definition c_item_at (cfg : ccfg) (m : input) (base : nat) (y : cpass * nat) (it : citem) : cpass * nat :=
  let '(x, n) := y in
  match it with
  | CStore g i => (if defined g then mkcp (cp_W x) (upd i (cp_s x) (cp_states x)) (cp_s x) else x, n)
  | CFull k a b c d e t =>
    let temp := match k with FLoad => sha1_load_at cfg m n base t | _ => sha1_mix (cp_W x) t end in
    let n := match k with FLoad => S n | _ => n end in
    let W := upd t temp (cp_W x) in
    let r := kind_round k in
    let s := cp_s x in
    let s := setv e (add32 (getv e s)
               (add32 (add32 (add32 temp (rotate_left (getv a s) 5)) (c_f r (getv b s) (getv c s) (getv d s))) (c_K r))) s in
    let s := setv b (rotate_left (getv b s) 30) s in
    (mkcp W (cp_states x) s, n)
  end.
(** Lines 459-869. *)
Definition sha1_compression_states_at (cfg : ccfg) (m : input) (t base : nat) (ihv : st) (W : list word) (states : list st)
    : st * list word * list st * nat :=
  let '(x, t) := fold_left (c_item_at cfg m base) comp_states_items (mkcp W states ihv, t) in
  (addst ihv (cp_s x), cp_W x, cp_states x, t).
(** Lines 1950-2000; the block is read in sha1_compression_states only. *)
Definition sha1_process_at (cfg : ccfg) (m : input) (t base : nat) (c : ctx) : option (ctx * nat) :=
  let c := set_ihv1 (c_ihv c) c in
  let '(ihv, m1, states, t) := sha1_compression_states_at cfg m t base (c_ihv c) (c_m1 c) (c_states c) in
  let c := set_m1_states m1 states (set_ihv ihv c) in
  if truth (c_detect c) then
    let mask := if truth (c_ubc c) then ubc_check (c_m1 c) else 0xFFFFFFFF in
    if negb (mask =? 0) then do c <- process_loop dvs_c mask c; Some (c, t) else Some (c, t)
  else Some (c, t).
(** Lines 2075-2086. *)
Fixpoint update_loop_at (fuel : nat) (cfg : ccfg) (m : input) (t base len : nat) (c : ctx) : option (ctx * nat * nat * nat) :=
  if (len <? 64)%nat then Some (c, t, base, len) else
  match fuel with
  | O => None
  | S fuel =>
    let c := set_total (add64 (c_total c) 64) c in
    do (c, t) <- (if unaligned cfg then sha1_process_at cfg m t base c
                  else do b <- memcpy (c_buffer c) 0 (bytes_at m t base 64) 64;
                       let c := set_buffer b c in
                       do c <- sha1_process cfg c (c_buffer c); Some (c, (t + 64)%nat));
    update_loop_at fuel cfg m t (base + 64) (len - 64) c
  end.
(** Lines 2055-2092. *)
Definition SHA1DCUpdate_at (cfg : ccfg) (m : input) (len : nat) (c : ctx) : option ctx :=
  if (len =? 0)%nat then Some c else
  let left := N.to_nat (N.land (c_total c) 63) in
  let fill := (64 - left)%nat in
  do (c, t, base, len, left) <-
    (if (negb (left =? 0) && (fill <=? len))%nat then
       let c := set_total (add64 (c_total c) (N.of_nat fill)) c in
       do b <- memcpy (c_buffer c) left (bytes_at m 0 0 fill) fill;
       let c := set_buffer b c in
       do c <- sha1_process cfg c (c_buffer c);
       Some (c, fill, fill, (len - fill)%nat, 0%nat)
     else Some (c, 0%nat, 0%nat, len, left));
  do (c, t, base, len) <- update_loop_at len cfg m t base len c;
  if (0 <? len)%nat then
    let c := set_total (add64 (c_total c) (N.of_nat len)) c in
    do b <- memcpy (c_buffer c) left (bytes_at m t base len) len;
    Some (set_buffer b c)
  else Some c.
