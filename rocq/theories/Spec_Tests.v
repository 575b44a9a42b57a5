(** What the statements about the tests of the repository speak of. *)

From Coq Require Import Arith NArith List Strings.Byte Bool.
From Verif Require Import Word Spec_Sha1 Spec_Cd Spec_Api Spec_C Model_Tests.
Import ListNotations.
Local Open Scope N_scope.

(** [s] are the bytes [b] in hexadecimal, two digits for each byte. *)
Definition digits : list byte := [x30; x31; x32; x33; x34; x35; x36; x37; x38; x39; x61; x62; x63; x64; x65; x66].
Definition printed (b s : list byte) : Prop :=
  length s = (2 * length b)%nat /\
  forall i x, nth_error b i = Some x -> exists u v, (u < 16)%nat /\ (v < 16)%nat /\ b2n x = N.of_nat (16 * u + v) /\
    nth_error s (2 * i) = nth_error digits u /\ nth_error s (2 * i + 1) = nth_error digits v.

(** The checkpoint of a hasher that has received the message [m]. *)
Definition checkpoint_after D (m : list byte) : list byte :=
  let n := (64 * (length m / 64))%nat in
  magic ++ st_bytes (fst (cd_blocks D (IV, false) (blocks m))) ++ (skipn n m ++ zeros (64 - (length m - n))) ++ be64 (N.of_nat (length m) mod M64).

(** A test only uses hashers it has created: n of package sha1cd and m of package cgo so far.  Its calls may depend on the results it got;
    hashers are numbered in the order of their creation. *)
Definition numbered (n : nat) (o : op) (r : res) : Prop := match o with ONew => r = RNew n | _ => True end.
Inductive fits : nat -> nat -> test -> Prop :=
| FPass n m : fits n m Pass
| FFail n m : fits n m Fail
| FGo n m o k : match target o with Some i => (i < n)%nat | None => True end ->
    (forall r, numbered n o r -> fits (match o with ONew => S n | _ => n end) m (k r)) -> fits n m (Call InGo o k)
| FCgo n m o k : cgo_call o -> match target o with Some i => (i < m)%nat | None => True end ->
    (forall r, numbered m o r -> fits n (match o with ONew => S m | _ => m end) (k r)) -> fits n m (Call InCgo o k).
