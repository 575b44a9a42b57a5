(** The tests of the repository as programs: /repo/sha1cd_test.go, /repo/test/native_test.go, /repo/test/fuzz_test.go.

    A test makes calls of packages sha1cd and cgo and looks at their results.  The tables of vectors are parameters.
    - [Fail] stands for t.Fatalf, t.Fatal and for t.Errorf: a test that has reported an error fails whatever comes after.
    - Error returns that are [None] by the model of the called function (Write, MarshalBinary) are not tested again.
    - The settings of forceGeneric are those of the caller of [run_test], which chooses an implementation for each call. *)

From Coq Require Import Arith NArith List Strings.Byte Bool.
From Verif Require Import Word Spec_Api Model_Go Model_Api Model_Block Model_Ubc Model_C Model_CApi.
Import ListNotations.
Local Open Scope N_scope.

Inductive lib := InGo | InCgo.
Inductive test := Pass | Fail | Call (l : lib) (o : op) (k : res -> test).

(** The run of a test; [None] is a panic or undefined behaviour of a call.  Call number n uses implementation [ms n]. *)
Fixpoint run_test (early : bool) (cfg : ccfg) (ms : nat -> impl) (n : nat) (ds : list digest) (cs : list cdigest) (t : test) : option bool :=
  match t with
  | Pass => Some true
  | Fail => Some false
  | Call InGo o k => do (ds, r) <- exec early (block_of (ms n)) ds o; run_test early cfg ms (S n) ds cs (k r)
  | Call InCgo o k => do (cs, r) <- c_exec cfg cs o; run_test early cfg ms (S n) ds cs (k r)
  end.

(** A loop over a table, and the calls with the values they return. *)
Fixpoint each {A} (l : list A) (body : A -> test -> test) (k : test) : test :=
  match l with [] => k | a :: l => body a (each l body k) end.
Definition t_new (l : lib) (k : nat -> test) : test := Call l ONew (fun r => match r with RNew i => k i | _ => Fail end).
Definition t_write (l : lib) (i : nat) (p : list byte) (k : test) : test := Call l (OWrite i p) (fun _ => k).
Definition t_reset (l : lib) (i : nat) (k : test) : test := Call l (OReset i) (fun _ => k).
Definition t_sum (l : lib) (i : nat) (k : list byte -> test) : test := Call l (OSum i []) (fun r => match r with RBytes b => k b | _ => Fail end).
Definition t_crsum (l : lib) (i : nat) (k : list byte -> bool -> test) : test :=
  Call l (OCRSum i []) (fun r => match r with RVerdict b v => k b v | _ => Fail end).
Definition t_marshal (i : nat) (k : list byte -> test) : test := Call InGo (OMarshal i) (fun r => match r with RBytes b => k b | _ => Fail end).
Definition t_unmarshal (i : nat) (b : list byte) (k : test) : test := Call InGo (OUnmarshal i b) (fun r => match r with RUnit => k | _ => Fail end).
Definition require (b : bool) (k : test) : test := if b then k else Fail.
Definition same (a b : list byte) : bool := if list_eq_dec Byte.byte_eq_dec a b then true else false.

(** fmt.Sprintf("%x", b) and hex.EncodeToString(b): lower-case digits. *)
Definition hexdigit (n : N) : byte := n2b (if n <? 10 then 48 + n else 87 + n).
Definition hex (b : list byte) : list byte := flat_map (fun x => [hexdigit (b2n x / 16); hexdigit (b2n x mod 16)]) b.

(** /repo/sha1cd_test.go lines 60-93: TestGolden; an entry is the digest in hex and the input. *)
Local Notation "f $ x" := (f x) (at level 60, right associativity, only parsing).
Definition golden_entry (g : list byte * list byte) (k : test) : test :=
  let out := fst g in let inp := snd g in let half := (length inp / 2)%nat in
  Call InGo (OSumPkg inp) $ fun r => match r with
    | RVerdict v _ =>
      require (same (hex v) out) $ t_new InGo $ fun c =>
      t_write InGo c inp $ t_sum InGo c $ fun s => require (same (hex s) out) $ t_reset InGo c $
      t_write InGo c inp $ t_sum InGo c $ fun s => require (same (hex s) out) $ t_reset InGo c $
      t_write InGo c (firstn half inp) $ t_sum InGo c $ fun _ =>
      t_write InGo c (skipn half inp) $ t_sum InGo c $ fun s => require (same (hex s) out) $ t_reset InGo c k
    | _ => Fail end.
(** The two runs of the outer loop set forceGeneric to false and to true. *)
Definition TestGolden (golden : list (list byte * list byte)) : test := each golden golden_entry (each golden golden_entry Pass).

(** Lines 95-132: TestGoldenMarshal; an entry is the input and the checkpoint after its first half. *)
Definition marshal_entry (h h2 : nat) (g : list byte * list byte) (k : test) : test :=
  let inp := fst g in let half := (length inp / 2)%nat in
  t_reset InGo h $ t_reset InGo h2 $ t_write InGo h (firstn half inp) $ t_marshal h $ fun state =>
  require (same state (snd g)) $ t_unmarshal h2 state $
  t_write InGo h (skipn half inp) $ t_write InGo h2 (skipn half inp) $
  t_sum InGo h $ fun s => t_sum InGo h2 $ fun s2 => require (same s s2) k.
Definition TestGoldenMarshal (golden : list (list byte * list byte)) : test :=
  let one k := t_new InGo (fun h => t_new InGo (fun h2 => each golden (marshal_entry h h2) k)) in one (one Pass).

(** Lines 134-146: TestSize and TestBlockSize; the constants are those of Model_Go. *)
Definition TestSize : test :=
  t_new InGo (fun c => Call InGo (OSize c) (fun r => match r with RNum n => require (n =? Size)%nat Pass | _ => Fail end)).
Definition TestBlockSize : test :=
  t_new InGo (fun c => Call InGo (OBlockSize c) (fun r => match r with RNum n => require (n =? Chunk)%nat Pass | _ => Fail end)).

(** Lines 184-208: TestLargeHashes; an entry is a checkpoint and the digest in hex.  A panic in safeSum would be [None]. *)
Definition large_entry (g : list byte * list byte) (k : test) : test :=
  t_new InGo (fun h => t_unmarshal h (fst g) (t_sum InGo h (fun s => require (same (hex s) (snd g)) k))).
Definition TestLargeHashes (tests : list (list byte * list byte)) : test := each tests large_entry (each tests large_entry Pass).

(** /repo/test/native_test.go lines 115-187: TestCollisionDetection; an entry is the content of the file, wantHash and wantCollision.
    The hashers are that of package cgo, a native and a generic one of package sha1cd. *)
Definition detection_entry (hs : list (lib * nat)) (g : list byte * (list byte * bool)) (k : test) : test :=
  each hs (fun h k => t_reset (fst h) (snd h) (t_write (fst h) (snd h) (fst g) (t_crsum (fst h) (snd h) (fun s v =>
    require (Bool.eqb v (snd (snd g)) && same (hex s) (fst (snd g))) k)))) k.
Definition TestCollisionDetection (tests : list (list byte * (list byte * bool))) : test :=
  t_new InCgo (fun a => t_new InGo (fun b => t_new InGo (fun c => each tests (detection_entry [(InCgo, a); (InGo, b); (InGo, c)]) Pass))).

(** /repo/test/fuzz_test.go lines 15-36: FuzzDeviationDetection, on the inputs that one process of the fuzzer tries.  bytes.Compare is
    nonzero exactly for slices with different contents. *)
Definition fuzz_entry (g c : nat) (inp : list byte) (k : test) : test :=
  t_reset InGo g (t_reset InCgo c (t_write InGo g inp (t_write InCgo c inp (
  t_crsum InGo g (fun gv gc => t_crsum InCgo c (fun cv cc => require (same gv cv && Bool.eqb gc cc) k)))))).
Definition FuzzDeviationDetection (inputs : list (list byte)) : test :=
  t_new InGo (fun g => t_new InCgo (fun c => each inputs (fuzz_entry g c) Pass)).

(** /repo/test/native_test.go lines 189-200: TestCalculateDvMask_Shattered1; no call of a hasher, so only its verdict. *)
Definition TestCalculateDvMask (m1s : list (list word)) : bool := forallb (fun W => cgo_CalculateDvMask W =? CalculateDvMask (Some W)) m1s.
