(** What a C program that uses one SHA1_CTX sees: its own memory and a hasher that is not in it. *)

From Coq Require Import Arith NArith ZArith String List Strings.Byte Bool.
From Verif Require Import Word Spec_Sha1 Spec_C Model_C Model_CMem.
Import ListNotations.
Local Open Scope N_scope.

(** Two ranges of addresses without a common address. *)
Definition apart (a n b k : N) : Prop := a + n <= b \/ b + k <= a.

(** The call with the hasher [a]; the program's memory changes only where a digest is written. *)
Definition u_exec (D : copts -> st -> list word -> bool) (m : cmem) (a : chash) (o : mop) : cmem * chash * option Z :=
  match o with
  | MSet o => (m, fst (ch_exec D a o), None)
  | MUpdate b n => (m, ch_write D a (mload m b n), None)
  | MFinal out => match ch_final D a with (a, (d, v)) => (mstore m out d, a, Some (if v then 1 else 0)%Z) end
  end.
Fixpoint u_run (D : copts -> st -> list word -> bool) (m : cmem) (a : chash) (os : list mop) : cmem * list (option Z) :=
  match os with
  | [] => (m, [])
  | o :: os => match u_exec D m a o with (m, a, r) => match u_run D m a os with (m, rs) => (m, r :: rs) end end
  end.

(** The objects given to a call do not touch the context (size s at A) or the array sha1_padding (64 bytes at P). *)
Definition separate_call (A s P : N) (o : mop) : Prop :=
  match o with
  | MSet (CUpdate _) | MSet CFinal => False
  | MSet _ => True
  | MUpdate b n => apart A s b (N.of_nat n)
  | MFinal out => apart A s out 20 /\ apart P 64 out 20
  end.

(** With L bytes hashed since SHA1DCInit, an SHA1DCUpdate of n bytes completes the block in the buffer and then has a
    whole block left, which starts this many bytes into the call's data. *)
Definition first_block (L : N) (n : nat) : option N :=
  let k := (64 - L mod 64) mod 64 in
  if k + 64 <=? N.of_nat n then Some k else None.

(** Some SHA1DCUpdate has such a block at an address that is not a multiple of [al]. [L]: bytes hashed so far;
    SHA1DCFinal leaves a count of 56 modulo 64. *)
Fixpoint straddles (al L : N) (os : list mop) : Prop :=
  match os with
  | [] => False
  | MSet CInit :: os => straddles al 0 os
  | MSet _ :: os => straddles al L os
  | MUpdate b n :: os =>
    match first_block L n with Some k => (b + k) mod al <> 0 | None => False end \/ straddles al (L + N.of_nat n) os
  | MFinal _ :: os => straddles al 56 os
  end.

(** A target: uint32_t has alignment 1, 2 or 4, the other alignments are not 0. *)
Definition abi_ok (t : abi) : Prop := (a32 t | 4) /\ a64 t <> 0 /\ ialign t <> 0 /\ palign t <> 0.
