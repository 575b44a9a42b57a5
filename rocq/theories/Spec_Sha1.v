(** SHA-1 as in FIPS 180-4, sections 4.1.1, 4.2.1, 5.1.1, 5.2.1, 5.3.1 and 6.1.2.
    Independent of the code in /repo. *)

From Coq Require Import Arith NArith List Strings.Byte.
From Verif Require Import Word.
Import ListNotations.
Local Open Scope N_scope.

(** 4.1.1 *)
Definition Ch (x y z : word) : word := N.lxor (N.land x y) (N.land (not32 x) z).
Definition Parity (x y z : word) : word := N.lxor (N.lxor x y) z.
Definition Maj (x y z : word) : word :=
  N.lxor (N.lxor (N.land x y) (N.land x z)) (N.land y z).

Definition ft (t : nat) : word -> word -> word -> word :=
  if (t <? 20)%nat then Ch
  else if (t <? 40)%nat then Parity
  else if (t <? 60)%nat then Maj
  else Parity.

(** 4.2.1 *)
Definition Kt (t : nat) : word :=
  if (t <? 20)%nat then 0x5a827999
  else if (t <? 40)%nat then 0x6ed9eba1
  else if (t <? 60)%nat then 0x8f1bbcdc
  else 0xca62c1d6.

(** 5.3.1 *)
Definition IV : st := mkst 0x67452301 0xefcdab89 0x98badcfe 0x10325476 0xc3d2e1f0.

(** 6.1.2 step 3: one step of the main loop *)
Definition step (t : nat) (w : word) (s : st) : st :=
  let T := add32 (add32 (add32 (add32 (rotl32 (sa s) 5) (ft t (sb s) (sc s) (sd s))) (se s)) (Kt t)) w in
  mkst T (sa s) (rotl32 (sb s) 30) (sc s) (sd s).

(** Steps t, t+1, ... consuming the words of the list. *)
Fixpoint steps (t : nat) (ws : list word) (s : st) : st :=
  match ws with
  | [] => s
  | w :: r => steps (S t) r (step t w s)
  end.

(** 6.1.2 step 1: the message schedule.  [expand n l] appends n words. *)
Definition next_w (l : list word) : word :=
  let t := length l in
  rotl32 (N.lxor (N.lxor (N.lxor (nth (t - 3)%nat l 0) (nth (t - 8)%nat l 0)) (nth (t - 14)%nat l 0)) (nth (t - 16)%nat l 0)) 1.
Fixpoint expand (n : nat) (l : list word) : list word :=
  match n with
  | O => l
  | S m => expand m (l ++ [next_w l])
  end.
(** The 80 words from a 16-word block. *)
Definition schedule (M : list word) : list word := expand 64 M.

(** The working state before step t when block [M] is processed from [h]. *)
Definition state_at (t : nat) (h : st) (M : list word) : st := steps 0 (firstn t (schedule M)) h.

(** 6.1.2: the compression function *)
Definition compress (h : st) (M : list word) : st := addst h (state_at 80 h M).

(** 5.2.1: the words of a 64-byte block, big-endian *)
Fixpoint words_of (l : list byte) : list word :=
  match l with
  | a :: b :: c :: d :: r => be_val [a; b; c; d] :: words_of r
  | _ => []
  end.

(** 5.2.1: cutting into 64-byte blocks; a shorter rest is dropped *)
Fixpoint cut (n : nat) (l : list byte) : list (list byte) :=
  match n with
  | O => []
  | S m => firstn 64 l :: cut m (skipn 64 l)
  end.
Definition blocks (l : list byte) : list (list byte) := cut (length l / 64)%nat l.

(** 5.1.1: padding.  The number of zero bytes is the least that makes the total a
    multiple of 64.  The 64-bit length field holds the bit length mod 2^64 (FIPS
    only defines messages below 2^64 bits). *)
Definition zeros (n : nat) : list byte := repeat x00 n.
Definition pad_zeros (len : N) : nat := N.to_nat ((64 - (len + 9) mod 64) mod 64).
Definition padding (len : N) : list byte :=
  [x80] ++ zeros (pad_zeros len) ++ be64 ((8 * len) mod M64).
Definition pad (m : list byte) : list byte := m ++ padding (N.of_nat (length m)).

(** The hash *)
Definition sha1_blocks (h : st) (bs : list (list byte)) : st :=
  fold_left (fun h b => compress h (words_of b)) bs h.
Definition sha1 (m : list byte) : list byte :=
  st_bytes (sha1_blocks IV (blocks (pad m))).

(** Test against the FIPS example "abc": a9993e36 4706816a ba3e2571 7850c26c 9cd0d89d. *)
Example sha1_abc : sha1 [x61; x62; x63] =
  [xa9; x99; x3e; x36; x47; x06; x81; x6a; xba; x3e; x25; x71; x78; x50; xc2; x6c; x9c; xd0; xd8; x9d].
Proof. vm_compute. reflexivity. Qed.
