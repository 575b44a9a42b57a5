(** Model of the Go package: /repo/sha1cd.go, /repo/sha1cdblock_generic.go and
    /repo/internal/const.go, function by function.

    Conventions: [None] is a Go panic (or exhausted fuel, which the proofs exclude).
    uint32 values are [word], uint64 values are [N] reduced mod 2^64, int values that
    are lengths or indices are [nat].  Arrays and slices are lists. *)

From Coq Require Import Arith NArith List Strings.Byte.
From Verif Require Import Word Model_Ubc Gen_UbcGo Gen_DvsGo.
Import ListNotations.
Local Open Scope N_scope.

(** Sequencing of computations that may panic. *)
Definition obind {A B} (x : option A) (f : A -> option B) : option B :=
  match x with Some a => f a | None => None end.
Notation "'do' x <- a ; b" := (obind a (fun x => b)) (at level 200, x pattern, a at level 100, b at level 200).

(** s[n:] and s[:n] of a slice with capacity equal to its length: panics when n > len(s). *)
Definition slice_from {A} (l : list A) (n : nat) : option (list A) :=
  if (n <=? length l)%nat then Some (skipn n l) else None.
Definition slice_to {A} (l : list A) (n : nat) : option (list A) :=
  if (n <=? length l)%nat then Some (firstn n l) else None.

(** Assignment to an array element. *)
Fixpoint upd {A} (i : nat) (v : A) (l : list A) : list A :=
  match l, i with
  | [], _ => []
  | _ :: r, O => v :: r
  | x :: r, S j => x :: upd j v r
  end.

(** copy(dst[at:], src) into an array: the new array and the number of bytes. *)
Definition copy_at (dst : list byte) (at_ : nat) (src : list byte) : list byte * nat :=
  let n := Nat.min (length dst - at_) (length src) in
  (firstn at_ dst ++ firstn n src ++ skipn (at_ + n) dst, n).

(** ** /repo/internal/const.go lines 3-42 (InitTmp0..4 are not used anywhere) *)
Definition K0 : word := 0x5A827999.
Definition K1 : word := 0x6ED9EBA1.
Definition K2 : word := 0x8F1BBCDC.
Definition K3 : word := 0xCA62C1D6.
Definition Init0 : word := 0x67452301.
Definition Init1 : word := 0xEFCDAB89.
Definition Init2 : word := 0x98BADCFE.
Definition Init3 : word := 0x10325476.
Definition Init4 : word := 0xC3D2E1F0.
Definition Size : nat := 20.
Definition Chunk : nat := 64.
Definition Magic : list byte := [x73; x68; x61; x63; x64; x01]. (* "shacd\x01" *)
(* len(Magic) + 5*4 + Chunk + 8 *)
Definition MarshaledSize : nat := length Magic + 5 * 4 + Chunk + 8.

(** ** Collision check: /repo/sha1cdblock_generic.go *)

(** The three round functions as written at lines 56/67/225, 78/110/200/216/255 and
    94/208/248. *)
Definition g_ch (b c d : word) : word := N.lor (N.land b c) (N.land (not32 b) d).
Definition g_par (b c d : word) : word := N.lxor (N.lxor b c) d.
Definition g_maj (b c d : word) : word := N.lor (N.land (N.lor b c) d) (N.land b c).

(** /repo/ubc/ubc.go lines 32-363: CalculateDvMask.  The argument is a pointer, nil is [None]. *)
Definition CalculateDvMask (W : option (list word)) : word :=
  match W with
  | None => 0
  | Some W => urun W ubc_prog_go 0xFFFFFFFF
  end.

(** One iteration of the undo loops, lines 196-229: the variables are rotated
    unconditionally, the rest happens only when step > i.
    bits.RotateLeft32(b, -30) is a rotation by -30 & 31 = 2. *)
Definition g_undo (f : word -> word -> word -> word) (K : word) (step : nat)
    (m1 dm : list word) (s : st) (i : nat) : st :=
  let a := sb s in let b := sc s in let c := sd s in let d := se s in let e := sa s in
  if (i <? step)%nat then
    let b := rotl32 b 2 in
    let e := sub32 e (add32 (add32 (add32 (rotl32 a 5) (f b c d)) K) (N.lxor (nth i m1 0) (nth i dm 0))) in
    mkst a b c d e
  else mkst a b c d e.

(** One iteration of the replay loops, lines 246-259. *)
Definition g_redo (f : word -> word -> word -> word) (K : word) (step : nat)
    (m1 dm : list word) (s : st) (i : nat) : st :=
  if (step <=? i)%nat then
    let t := add32 (add32 (add32 (add32 (rotl32 (sa s) 5) (f (sb s) (sc s) (sd s))) (se s)) K)
                   (N.lxor (nth i m1 0) (nth i dm 0)) in
    mkst t (sa s) (rotl32 (sb s) 30) (sc s) (sd s)
  else s.

(** Indices hi, hi-1, ..., lo. *)
Definition down (hi lo : nat) : list nat := rev (seq lo (hi + 1 - lo)).

(** /repo/sha1cdblock_generic.go lines 186-273: hasCollided. *)
Definition hasCollided (step : nat) (m1 dm : list word) (state h : st) : bool :=
  let s := fold_left (g_undo g_par K3 step m1 dm) (down 64 60) state in
  let s := fold_left (g_undo g_maj K2 step m1 dm) (down 59 40) s in
  let s := fold_left (g_undo g_par K1 step m1 dm) (down 39 20) s in
  let ihv := fold_left (g_undo g_ch K0 step m1 dm) (down 19 0) s in
  let r := fold_left (g_redo g_maj K2 step m1 dm) (seq 40 20) state in
  let r := fold_left (g_redo g_par K3 step m1 dm) (seq 60 20) r in
  let ihv := addst ihv r in
  (N.lor (N.lor (N.lor (N.lor (N.lxor (sa ihv) (sa h)) (N.lxor (sb ihv) (sb h)))
     (N.lxor (sc ihv) (sc h))) (N.lxor (sd ihv) (sd h))) (N.lxor (se ihv) (se h))) =? 0.

(** The array cs of stored states (steps 0, 58, 65). *)
Record csarr := mkcs { cs0 : st; cs1 : st; cs2 : st }.

(** /repo/sha1cdblock_generic.go lines 154-180: the loop over the table.  Running off
    the end of the table is an index panic. *)
Fixpoint checkLoop (dvs : list dvinfo) (mask : word) (m1 : list word) (cs : csarr) (h : st) : option bool :=
  match dvs with
  | [] => None
  | dv :: rest =>
    if dvType dv =? 0 then Some false
    else if N.land mask (shl32 1 (maskB dv)) =? 0 then checkLoop rest mask m1 cs h
    else
      do state <- (if testT dv =? 58 then Some (cs1 cs)
                   else if testT dv =? 65 then Some (cs2 cs)
                   else if testT dv =? 0 then Some (cs0 cs)
                   else None);
      if hasCollided (N.to_nat (testT dv)) m1 (dm dv) state h then Some true
      else checkLoop rest mask m1 cs h
  end.

(** /repo/sha1cdblock_generic.go lines 146-183: checkCollision. *)
Definition checkCollision (m1 : list word) (cs : csarr) (h : st) : option bool :=
  let mask := CalculateDvMask (Some m1) in
  if mask =? 0 then Some false else checkLoop dvs_go mask m1 cs h.

(** ** Block function: /repo/sha1cdblock_generic.go lines 22-143 *)

(** Local variables of one pass: w, m1, cs and (a,b,c,d,e). *)
Record pass := mkpass { pw : list word; pm : list word; pcs : csarr; ps : st }.

(** Line 54: big-endian load of word i; len(p) >= 64 holds here, so 4*i+3 is in range. *)
Definition load (p : list byte) (i : nat) : word :=
  let j := (i * 4)%nat in
  N.lor (N.lor (N.lor (shl32 (b2n (nth j p x00)) 24) (shl32 (b2n (nth (j + 1) p x00)) 16))
         (shl32 (b2n (nth (j + 2) p x00)) 8)) (b2n (nth (j + 3) p x00)).

(** Lines 57-58 and the like. *)
Definition g_round (f : word -> word -> word -> word) (K w : word) (s : st) : st :=
  let t := add32 (add32 (add32 (add32 (rotl32 (sa s) 5) (f (sb s) (sc s) (sd s))) (se s)) w) K in
  mkst t (sa s) (rotl32 (sb s) 30) (sc s) (sd s).

(** Lines 51-62. *)
Definition body_load (p : list byte) (x : pass) (i : nat) : pass :=
  let w := upd i (load p i) (pw x) in
  let wi := nth (Nat.land i 15) w 0 in
  mkpass w (upd i wi (pm x)) (pcs x) (g_round g_ch K0 wi (ps x)).

(** Lines 63-73, 74-84, 85-100, 101-116: the same body with different f and K; the
    stores at i = 58 (line 88) and i = 65 (line 104) are passed as a function. *)
Definition body_mix (f : word -> word -> word -> word) (K : word) (save : nat -> st -> csarr -> csarr)
    (x : pass) (i : nat) : pass :=
  let cs := save i (ps x) (pcs x) in
  let w := pw x in
  let tmp := N.lxor (N.lxor (N.lxor (nth (Nat.land (i - 3) 15) w 0) (nth (Nat.land (i - 8) 15) w 0))
                (nth (Nat.land (i - 14) 15) w 0)) (nth (Nat.land i 15) w 0) in
  let w := upd (Nat.land i 15) (N.lor (shl32 tmp 1) (shr32 tmp (32 - 1))) w in
  let wi := nth (Nat.land i 15) w 0 in
  mkpass w (upd i wi (pm x)) cs (g_round f K wi (ps x)).

Definition save_none (i : nat) (s : st) (cs : csarr) : csarr := cs.
Definition save58 (i : nat) (s : st) (cs : csarr) : csarr :=
  if (i =? 58)%nat then mkcs (cs0 cs) s (cs2 cs) else cs.
Definition save65 (i : nat) (s : st) (cs : csarr) : csarr :=
  if (i =? 65)%nat then mkcs (cs0 cs) (cs1 cs) s else cs.

(** Lines 41-116: one pass over the block, starting at label rehash.  [h] is (h0..h4). *)
Definition g_pass (p : list byte) (h : st) (w m1 : list word) (cs : csarr) : pass :=
  let x := mkpass w m1 (mkcs h (cs1 cs) (cs2 cs)) h in
  let x := fold_left (body_load p) (seq 0 16) x in
  let x := fold_left (body_mix g_ch K0 save_none) (seq 16 4) x in
  let x := fold_left (body_mix g_par K1 save_none) (seq 20 20) x in
  let x := fold_left (body_mix g_maj K2 save58) (seq 40 20) x in
  fold_left (body_mix g_par K3 save65) (seq 60 20) x.

(** Lines 40-137: from label rehash to the end of the loop body.  Jumping back to
    rehash is the recursive call; [fuel] bounds the number of jumps. *)
Fixpoint g_rehash (fuel : nat) (p : list byte) (hi : nat) (h : st) (w m1 : list word) (cs : csarr)
    (col : bool) : option (st * list word * csarr * bool) :=
  match fuel with
  | O => None
  | S fuel =>
    let x := g_pass p h w m1 cs in
    let h := addst h (ps x) in
    if (hi =? 2)%nat then g_rehash fuel p (hi + 1) h (pw x) (pm x) (pcs x) col
    else if (hi =? 1)%nat then
      do c <- checkCollision (pm x) (pcs x) h;
      if c : bool then g_rehash fuel p (hi + 1) h (pw x) (pm x) (pcs x) true
      else Some (h, pw x, pcs x, col)
    else Some (h, pw x, pcs x, col)
  end.

(** Lines 31-140: the loop over the blocks of p; m1 is zeroed and hi = 1 for each. *)
Fixpoint g_blocks (fuel : nat) (p : list byte) (h : st) (w : list word) (cs : csarr) (col : bool)
    : option (st * bool) :=
  if (64 <=? length p)%nat then
    match fuel with
    | O => None
    | S fuel =>
      do (h, w, cs, col) <- g_rehash 3 p 1 h w (repeat 0 80) cs col;
      g_blocks fuel (skipn 64 p) h w cs col
    end
  else Some (h, col).

Definition st0 : st := mkst 0 0 0 0 0.

(** ** /repo/sha1cd.go *)

(** Lines 29-37: type digest. *)
Record digest := mkd { dh : st; dx : list byte; dnx : nat; dlen : N; dcol : bool }.

(** /repo/sha1cdblock_generic.go lines 22-143: blockGeneric. *)
Definition blockGeneric (d : digest) (p : list byte) : option digest :=
  do (h, col) <- g_blocks (length p) p (dh d) (repeat 0 16) (mkcs st0 st0 st0) (dcol d);
  Some (mkd h (dx d) (dnx d) (dlen d) col).

(** The function [block] is chosen at build time and run time; it is a parameter of
    everything that calls it. *)
Definition blockfn := digest -> list byte -> option digest.

(** Lines 53-60 and 62-73: appendUint32, appendUint64 (the appended bytes). *)
Definition appendUint32 (v : word) : list byte :=
  [n2b (N.shiftr v 24); n2b (N.shiftr v 16); n2b (N.shiftr v 8); n2b v].
Definition appendUint64 (v : N) : list byte :=
  [n2b (N.shiftr v 56); n2b (N.shiftr v 48); n2b (N.shiftr v 40); n2b (N.shiftr v 32);
   n2b (N.shiftr v 24); n2b (N.shiftr v 16); n2b (N.shiftr v 8); n2b v].

(** Lines 39-51: MarshalBinary.  The reslice at line 48 exposes bytes of the fresh
    backing array, which are zero; it panics if it exceeds the capacity. *)
Definition MarshalBinary (d : digest) : option (list byte) :=
  let b := Magic ++ appendUint32 (sa (dh d)) ++ appendUint32 (sb (dh d)) ++ appendUint32 (sc (dh d))
           ++ appendUint32 (sd (dh d)) ++ appendUint32 (se (dh d)) in
  do x <- slice_to (dx d) (dnx d);
  let b := b ++ x in
  let n := (length b + length (dx d) - dnx d)%nat in
  if (n <=? MarshaledSize)%nat then
    let b := b ++ repeat x00 (n - length b) in
    Some (b ++ appendUint64 (dlen d))
  else None.

(** Lines 101-105 and 94-99: consumeUint32, consumeUint64. *)
Definition consumeUint32 (b : list byte) : option (list byte * word) :=
  match b with
  | b0 :: b1 :: b2 :: b3 :: r =>
    Some (r, N.lor (N.lor (N.lor (b2n b3) (shl32 (b2n b2) 8)) (shl32 (b2n b1) 16)) (shl32 (b2n b0) 24))
  | _ => None
  end.
Definition shl64 (x n : N) : N := N.shiftl x n mod M64.
Definition consumeUint64 (b : list byte) : option (list byte * N) :=
  match b with
  | b0 :: b1 :: b2 :: b3 :: b4 :: b5 :: b6 :: b7 :: r =>
    Some (r, N.lor (N.lor (N.lor (N.lor (N.lor (N.lor (N.lor (b2n b7) (shl64 (b2n b6) 8)) (shl64 (b2n b5) 16))
      (shl64 (b2n b4) 24)) (shl64 (b2n b3) 32)) (shl64 (b2n b2) 40)) (shl64 (b2n b1) 48)) (shl64 (b2n b0) 56))
  | _ => None
  end.

(** The two errors of UnmarshalBinary (lines 77 and 80). *)
Inductive uerror := InvalidIdentifier | InvalidSize.

Definition bytes_eqb (x y : list byte) : bool :=
  if list_eq_dec Byte.byte_eq_dec x y then true else false.

(** Lines 75-92: UnmarshalBinary.  Returns the new hasher and the error, if any. *)
Definition UnmarshalBinary (d : digest) (b : list byte) : option (digest * option uerror) :=
  if ((length b <? length Magic)%nat || negb (bytes_eqb (firstn (length Magic) b) Magic))%bool
  then Some (d, Some InvalidIdentifier)
  else if negb (length b =? MarshaledSize)%nat
  then Some (d, Some InvalidSize)
  else
    do b <- slice_from b (length Magic);
    do (b, h0) <- consumeUint32 b;
    do (b, h1) <- consumeUint32 b;
    do (b, h2) <- consumeUint32 b;
    do (b, h3) <- consumeUint32 b;
    do (b, h4) <- consumeUint32 b;
    let '(x, n) := copy_at (dx d) 0 b in
    do b <- slice_from b n;
    do (_, len) <- consumeUint64 b;
    Some (mkd (mkst h0 h1 h2 h3 h4) x (N.to_nat (len mod 64)) len (dcol d), None).

(** Lines 107-117: Reset. *)
Definition Reset (d : digest) : digest :=
  mkd (mkst Init0 Init1 Init2 Init3 Init4) (dx d) 0 0 false.

(** Lines 122-126: New; the variable is zero before Reset. *)
Definition zero_digest : digest := mkd st0 (repeat x00 64) 0 0 false.
Definition New : digest := Reset zero_digest.

(** Lines 128 and 130: Size and BlockSize methods. *)
Definition Size_method (d : digest) : nat := Size.
Definition BlockSize_method (d : digest) : nat := Chunk.

(** Lines 132-157: Write.  Returns the hasher and nn; the error result is always nil. *)
Definition Write (blk : blockfn) (d : digest) (p : list byte) : option (digest * nat) :=
  if (length p =? 0)%nat then Some (d, 0%nat)
  else
    let nn := length p in
    let d := mkd (dh d) (dx d) (dnx d) ((dlen d + N.of_nat nn) mod M64) (dcol d) in
    do (d, p) <-
      (if (0 <? dnx d)%nat then
         do _ <- slice_from (dx d) (dnx d);
         let '(x, n) := copy_at (dx d) (dnx d) p in
         let d := mkd (dh d) x (dnx d + n) (dlen d) (dcol d) in
         do d <- (if (dnx d =? 64)%nat then
                    do d <- blk d (dx d);
                    Some (mkd (dh d) (dx d) 0 (dlen d) (dcol d))
                  else Some d);
         do p <- slice_from p n;
         Some (d, p)
       else Some (d, p));
    do (d, p) <-
      (if (64 <=? length p)%nat then
         let n := Nat.ldiff (length p) (64 - 1) in
         do q <- slice_to p n;
         do d <- blk d q;
         do p <- slice_from p n;
         Some (d, p)
       else Some (d, p));
    let d :=
      (if (0 <? length p)%nat then
         let '(x, n) := copy_at (dx d) 0 p in
         mkd (dh d) x n (dlen d) (dcol d)
       else d) in
    Some (d, nn).

(** Lines 166-197: checkSum.  Modifies its receiver and returns the 20 bytes. *)
Definition checkSum (blk : blockfn) (d : digest) : option (digest * list byte) :=
  let len := dlen d in
  let tmp := x80 :: repeat x00 71 in
  let t := if len mod 64 <? 56 then 56 - len mod 64 else 64 + 56 - len mod 64 in
  let t := N.to_nat t in
  let len := shl64 len 3 in
  do _ <- slice_to tmp (t + 8);
  (* binary.BigEndian.PutUint64(tmp[t:], len) panics if fewer than 8 bytes are left *)
  do rest <- slice_from tmp t;
  do rest <- slice_from rest 8;
  let tmp := firstn t tmp ++ appendUint64 len ++ rest in
  let padlen := firstn (t + 8) tmp in
  do (d, _) <- Write blk d padlen;
  if negb (dnx d =? 0)%nat then None
  else Some (d, appendUint32 (sa (dh d)) ++ appendUint32 (sb (dh d)) ++ appendUint32 (sc (dh d))
                ++ appendUint32 (sd (dh d)) ++ appendUint32 (se (dh d))).

(** Lines 159-164: Sum.  The receiver is copied, so only the result is returned. *)
Definition Sum (blk : blockfn) (d : digest) (inp : list byte) : option (list byte) :=
  do (_, hash) <- checkSum blk d;
  Some (inp ++ hash).

(** Lines 207-212: CollisionResistantSum. *)
Definition CollisionResistantSum (blk : blockfn) (d : digest) (inp : list byte) : option (list byte * bool) :=
  do (d0, hash) <- checkSum blk d;
  Some (inp ++ hash, dcol d0).

(** Lines 200-205: package-level Sum.  The Go specification does not fix whether the
    operand d.col of the return statement is read before or after the call
    d.checkSum(); [early] says it is read before. *)
Definition SumPkg (early : bool) (blk : blockfn) (data : list byte) : option (list byte * bool) :=
  let d := New in
  do (d, _) <- Write blk d data;
  do (d1, hash) <- checkSum blk d;
  Some (hash, if early then dcol d else dcol d1).

(** ** /repo/sha1cdblock_generic.go lines 285-312: rectifyCompressionState *)
Definition func3 (m1 : list word) (s : st) (i : nat) : st := g_round g_maj K2 (nth i m1 0) s.
Definition func4 (m1 : list word) (s : st) (i : nat) : st := g_round g_par K3 (nth i m1 0) s.
Definition rectify (m1 : list word) (cs : csarr) : csarr :=
  mkcs (cs0 cs) (func3 m1 (func3 m1 (cs1 cs) 56) 57) (func4 m1 (cs2 cs) 64).
