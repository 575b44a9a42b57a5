(** Machine pieces shared by the two assembly models: 128-bit vectors of four 32-bit lanes, flat
    byte-addressed memory, and access checks.  The listings themselves are in Gen_Amd64.v and
    Gen_Arm64.v, the instruction sets in Model_Amd64.v and Model_Arm64.v. *)

From Coq Require Import Arith NArith List Strings.Byte Bool.
From Verif Require Import Word Model_Go.
Import ListNotations.
Local Open Scope N_scope.

(** A vector register: v0 is the least significant 32-bit lane. *)
Record vec := mkv { v0 : word; v1 : word; v2 : word; v3 : word }.

Definition lane (i : nat) (v : vec) : word :=
  match i with 0 => v0 v | 1 => v1 v | 2 => v2 v | _ => v3 v end%nat.
Definition set_lane (i : nat) (x : word) (v : vec) : vec :=
  match i with
  | 0 => mkv x (v1 v) (v2 v) (v3 v)
  | 1 => mkv (v0 v) x (v2 v) (v3 v)
  | 2 => mkv (v0 v) (v1 v) x (v3 v)
  | _ => mkv (v0 v) (v1 v) (v2 v) x
  end%nat.
Definition map2v (f : word -> word -> word) (x y : vec) : vec :=
  mkv (f (v0 x) (v0 y)) (f (v1 x) (v1 y)) (f (v2 x) (v2 y)) (f (v3 x) (v3 y)).

(** ** Little-endian encoding (both architectures run little-endian) *)
Definition le32 (v : word) : list byte := [n2b v; n2b (v / 2^8); n2b (v / 2^16); n2b (v / 2^24)].
Fixpoint le_val (l : list byte) : N :=
  match l with
  | [] => 0
  | b :: r => b2n b + 256 * le_val r
  end.
Definition le64 (v : N) : list byte :=
  [n2b v; n2b (v / 2^8); n2b (v / 2^16); n2b (v / 2^24); n2b (v / 2^32); n2b (v / 2^40); n2b (v / 2^48); n2b (v / 2^56)].
Definition vec_bytes (v : vec) : list byte := le32 (v0 v) ++ le32 (v1 v) ++ le32 (v2 v) ++ le32 (v3 v).
(** A vector from 16 bytes. *)
Definition bytes_vec (l : list byte) : vec :=
  mkv (le_val (firstn 4 l)) (le_val (firstn 4 (skipn 4 l))) (le_val (firstn 4 (skipn 8 l))) (le_val (firstn 4 (skipn 12 l))).

(** ** Memory *)
Definition mem := N -> byte.
Definition peek (m : mem) (a : N) (n : nat) : list byte := map (fun i => m (a + N.of_nat i)) (seq 0 n).
Definition poke (m : mem) (a : N) (l : list byte) : mem :=
  fun x => if (a <=? x) && (x <? a + N.of_nat (length l)) then nth (N.to_nat (x - a)) l x00 else m x.

(** An accessible range of addresses. *)
Record region := mkreg { rbase : N; rsize : N; rwrite : bool }.
Definition inside (a n : N) (r : region) : bool := (rbase r <=? a) && (a + n <=? rbase r + rsize r).
(** An access of n bytes at a is allowed when it lies in one of the regions (a writable one for a store);
    otherwise the machine faults. *)
Definition readable (rs : list region) (a n : N) : bool := existsb (inside a n) rs.
Definition writable (rs : list region) (a n : N) : bool := existsb (fun r => rwrite r && inside a n r) rs.
Definition rd (rs : list region) (m : mem) (a : N) (n : nat) : option (list byte) :=
  if readable rs a (N.of_nat n) then Some (peek m a n) else None.
Definition wr (rs : list region) (m : mem) (a : N) (l : list byte) : option mem :=
  if writable rs a (N.of_nat (length l)) then Some (poke m a l) else None.
Definition aligned (a : N) : bool := a mod 16 =? 0.

(** ** Where the caller's data is *)

(** Base addresses of h, p, m1 and cs, of the local frame, the argument area and two read-only symbols (the arm64 code has one);
    the number of bytes of p. *)
Record layout := mklay { l_h : N; l_p : N; l_m1 : N; l_cs : N; l_frame : N; l_args : N; l_ro1 : N; l_ro2 : N; l_np : N }.

(** h: 5 words; m1: 80 words; cs: 3 times 5 words; frame: 80 bytes, arguments: 96 bytes (TEXT ... $80-96); symbols: 16 bytes each. *)
Definition regions (l : layout) : list region :=
  [mkreg (l_h l) 20 true; mkreg (l_p l) (l_np l) false; mkreg (l_m1 l) 320 true; mkreg (l_cs l) 60 true;
   mkreg (l_frame l) 80 true; mkreg (l_args l) 96 false; mkreg (l_ro1 l) 16 false; mkreg (l_ro2 l) 16 false].

Definition apart (r s : region) : Prop := rbase r + rsize r <= rbase s \/ rbase s + rsize s <= rbase r.
Fixpoint all_apart (rs : list region) : Prop :=
  match rs with
  | [] => True
  | r :: q => Forall (apart r) q /\ all_apart q
  end.
(** What the Go toolchain and runtime guarantee: the ranges do not overlap and do not wrap around the address space,
    and 16-byte read-only symbols are 16-aligned; n: the number of bytes of p. *)
Definition layout_for (n : N) (l : layout) : Prop :=
  all_apart (regions l) /\ Forall (fun r => rbase r + rsize r < M64) (regions l) /\
  l_ro1 l mod 16 = 0 /\ l_ro2 l mod 16 = 0 /\ l_np l = n.
(** The Go code passes one 64-byte chunk (sha1cdblock_amd64.go line 37, sha1cdblock_arm64.go line 33). *)
Definition layout_ok : layout -> Prop := layout_for 64.

(** The memory at entry: the arguments of the call placed into otherwise arbitrary memory. [h], [m1] and [cs] are
    slices of little-endian words; a slice argument is base, length, capacity. *)
Definition st_words (s : st) : list word := [sa s; sb s; sc s; sd s; se s].
Definition words_bytes (l : list word) : list byte := concat (map le32 l).
Definition cs_words (c : csarr) : list word := st_words (cs0 c) ++ st_words (cs1 c) ++ st_words (cs2 c).
Definition args_bytes (l : layout) (np : N) : list byte :=
  le64 (l_h l) ++ le64 5 ++ le64 5 ++ le64 (l_p l) ++ le64 np ++ le64 np ++
  le64 (l_m1 l) ++ le64 80 ++ le64 80 ++ le64 (l_cs l) ++ le64 3 ++ le64 3.
Definition entry_mem (l : layout) (ro1 ro2 : list byte) (m : mem) (h : st) (p : list byte) (m1 : list word) (cs : csarr) : mem :=
  poke (poke (poke (poke (poke (poke (poke m (l_ro2 l) ro2) (l_ro1 l) ro1)
    (l_args l) (args_bytes l (N.of_nat (length p))))
    (l_cs l) (words_bytes (cs_words cs))) (l_m1 l) (words_bytes m1)) (l_p l) p) (l_h l) (words_bytes (st_words h)).

(** Reading the results back. *)
Definition word_at (m : mem) (a : N) : word := le_val (peek m a 4).
Definition words_at (m : mem) (a : N) (n : nat) : list word := map (fun i => word_at m (a + 4 * N.of_nat i)) (seq 0 n).
Definition st_at (m : mem) (a : N) : st :=
  mkst (word_at m a) (word_at m (a + 4)) (word_at m (a + 8)) (word_at m (a + 12)) (word_at m (a + 16)).
Definition cs_at (m : mem) (a : N) : csarr := mkcs (st_at m a) (st_at m (a + 20)) (st_at m (a + 40)).

(** ** Instructions with the same meaning on both *)
Definition addv := map2v add32.
Definition xorv := map2v N.lxor.
