(** 32-bit words as [N] with explicit reduction, and byte strings.

    These are the semantics given to Go's uint32 and C's uint32_t operators
    (wrap-around addition and subtraction, logical shifts, rotation) and to
    big-endian (de)serialisation.  They are used by the specifications and by the
    models; there is nothing specific to /repo in this file. *)

From Coq Require Import Arith NArith List Strings.Byte Lia.
Import ListNotations.
Local Open Scope N_scope.

#[global] Arguments N.add : simpl never.
#[global] Arguments N.sub : simpl never.
#[global] Arguments N.mul : simpl never.
#[global] Arguments N.div : simpl never.
#[global] Arguments N.modulo : simpl never.
#[global] Arguments N.pow : simpl never.
#[global] Arguments N.land : simpl never.
#[global] Arguments N.lor : simpl never.
#[global] Arguments N.lxor : simpl never.
#[global] Arguments N.shiftl : simpl never.
#[global] Arguments N.shiftr : simpl never.
#[global] Arguments N.testbit : simpl never.
#[global] Arguments N.eqb : simpl never.
#[global] Arguments N.ltb : simpl never.
#[global] Arguments N.leb : simpl never.
#[global] Arguments N.ones : simpl never.

Notation word := N (only parsing).

Definition M32 : N := 4294967296.          (* 2^32 *)
Definition ones32 : N := 4294967295.       (* 2^32 - 1 *)
Definition M64 : N := 18446744073709551616. (* 2^64 *)

(** A word is well formed when it fits in 32 bits. *)
Definition wf (x : word) : Prop := x < M32.

Definition add32 (x y : word) : word := (x + y) mod M32.
Definition sub32 (x y : word) : word := (x + (M32 - y mod M32)) mod M32.
Definition not32 (x : word) : word := N.lxor x ones32.
Definition shl32 (x n : N) : word := (N.shiftl x n) mod M32.
Definition shr32 (x n : N) : word := N.shiftr x n.
(** Rotation to the left by n, 0 < n < 32. *)
Definition rotl32 (x n : N) : word := N.lor (shl32 x n) (shr32 x (32 - n)).

(** ** Bytes *)

Definition b2n (b : byte) : N := Byte.to_N b.

(** Go's byte(v): the low eight bits. *)
Definition n2b (v : N) : byte :=
  match Byte.of_N (v mod 256) with Some b => b | None => x00 end.

(** Big-endian value of a byte string. *)
Fixpoint be_acc (acc : N) (l : list byte) : N :=
  match l with
  | [] => acc
  | b :: r => be_acc (acc * 256 + b2n b) r
  end.
Definition be_val (l : list byte) : N := be_acc 0 l.

(** Big-endian encodings of 32- and 64-bit values. *)
Definition be32 (v : N) : list byte :=
  [n2b (v / 2^24); n2b (v / 2^16); n2b (v / 2^8); n2b v].
Definition be64 (v : N) : list byte :=
  [n2b (v / 2^56); n2b (v / 2^48); n2b (v / 2^40); n2b (v / 2^32);
   n2b (v / 2^24); n2b (v / 2^16); n2b (v / 2^8); n2b v].

(** A five-word SHA-1 state. *)
Record st := mkst { sa : word; sb : word; sc : word; sd : word; se : word }.

Definition wfst (s : st) : Prop :=
  wf (sa s) /\ wf (sb s) /\ wf (sc s) /\ wf (sd s) /\ wf (se s).

(** Wordwise addition of states. *)
Definition addst (x y : st) : st :=
  mkst (add32 (sa x) (sa y)) (add32 (sb x) (sb y)) (add32 (sc x) (sc y))
       (add32 (sd x) (sd y)) (add32 (se x) (se y)).

Definition st_eqb (x y : st) : bool :=
  (sa x =? sa y) && (sb x =? sb y) && (sc x =? sc y) && (sd x =? sd y) && (se x =? se y).

(** The 20 bytes of a state. *)
Definition st_bytes (s : st) : list byte :=
  be32 (sa s) ++ be32 (sb s) ++ be32 (sc s) ++ be32 (sd s) ++ be32 (se s).

(** Wordwise xor of word lists. *)
Fixpoint xorl (x y : list word) : list word :=
  match x, y with
  | a :: x', b :: y' => N.lxor a b :: xorl x' y'
  | _, _ => []
  end.
