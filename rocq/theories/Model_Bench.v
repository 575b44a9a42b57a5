(** The benchmarks and the test of allocations, on the heap of Model_Slice: /repo/test/native_test.go lines 33-113, /repo/sha1cd_test.go
    lines 210-234.

    Simplifications: the baseline of crypto/sha1 in the benchmarks of fixed sizes is not part of this repository and left out; of the loop
    "for i := 0; i < b.N; i++" only the number of iterations counts, summed over the runs that testing.B makes of it; [grow] is the
    choice of the runtime when append needs a new array. *)

From Coq Require Import Arith NArith List Strings.Byte Bool.
From Verif Require Import Word Model_Go Model_Block Model_Slice Model_C.
Import ListNotations.

(** A hash.Hash of package sha1cd, with the implementation of block in use, or of package cgo. *)
Inductive bhasher := BGo (m : impl) (d : digest) | BCgo (d : cdigest).

(** /repo/cgo/sha1.go lines 37-47: Sum, on the heap. *)
Definition h_cgo_Sum (cfg : ccfg) (grow : nat) (H : heap) (d : cdigest) (inp : slice) : option (heap * slice) :=
  do (_, h, _) <- cgo_sum cfg d; Some (h_append grow H inp h).

Definition b_reset (h : bhasher) : bhasher := match h with BGo m d => BGo m (Reset d) | BCgo d => BCgo (cgo_Reset d) end.
Definition b_write (cfg : ccfg) (h : bhasher) (p : list byte) : option bhasher :=
  match h with
  | BGo m d => do (d, _) <- Write (block_of m) d p; Some (BGo m d)
  | BCgo d => do (d, _) <- cgo_Write cfg d p; Some (BCgo d)
  end.
Definition b_sum (cfg : ccfg) (grow : nat) (H : heap) (h : bhasher) (inp : slice) : option (heap * slice) :=
  match h with
  | BGo m d => h_Sum grow (block_of m) H d inp
  | BCgo d => h_cgo_Sum cfg grow H d inp
  end.

(** d.Reset(); d.Write(v); d.Sum(w[:0]): the heap, the hasher and the returned slice. *)
Definition b_iter (cfg : ccfg) (grow : nat) (H : heap) (h : bhasher) (v w : slice) : option (heap * bhasher * slice) :=
  do h <- b_write cfg (b_reset h) (contents H v);
  do w <- h_reslice w 0;
  do (H, r) <- b_sum cfg grow H h w;
  Some (H, h, r).

(** /repo/test/native_test.go lines 43-47 (benchmarkSize; v is buf[:size], w is sum) and 55-59 (benchmarkContent; v and w are data). *)
Fixpoint b_loop (cfg : ccfg) (grow n : nat) (H : heap) (h : bhasher) (v w : slice) : option (heap * bhasher) :=
  match n with
  | O => Some (H, h)
  | S n => do (H, h, _) <- b_iter cfg grow H h v w; b_loop cfg grow n H h v w
  end.

(** Lines 103-113: BenchmarkHashWithCollision, with the content of the file in v; an entry is a hasher and the number of its iterations. *)
Fixpoint BenchmarkHashWithCollision (cfg : ccfg) (grow : nat) (H : heap) (runs : list (bhasher * nat)) (v : slice) : option heap :=
  match runs with
  | [] => Some H
  | (h, n) :: runs => do (H, _) <- b_loop cfg grow n H h v v; BenchmarkHashWithCollision cfg grow H runs v
  end.

(** /repo/sha1cd_test.go lines 222-234: testAllocations; the loop of AllocsPerRun, with out in w. *)
Fixpoint alloc_loop (cfg : ccfg) (grow n : nat) (H : heap) (h : bhasher) (v w : slice) : option (heap * slice) :=
  match n with
  | O => Some (H, w)
  | S n => do (H, h, r) <- b_iter cfg grow H h v w; alloc_loop cfg grow n H h v r
  end.
