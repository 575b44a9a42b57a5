(** rectifyCompressionState on pointers to arrays, and its test. *)

From Coq Require Import Arith NArith List Bool.
From Verif Require Import Word Model_Go.
Import ListNotations.
Local Open Scope N_scope.

(** A pointer is [None] (nil) or what it points to: an array of 80 words, or of 3 arrays of 5 words. [None] as a result is a panic.
    Only *cs is assigned to, so the function returns what cs points to afterwards. *)
Definition deref {A} (p : option (list A)) (i : nat) (d : A) : option A := do l <- p; Some (nth i l d).

(** /repo/sha1cdblock_generic.go lines 293-300 (func3, K2) and 301-307 (func4, K3). The locals a, ..., e are x0, ..., x4 of the array; m1[i] is evaluated
    when t is computed. *)
Definition r_func3 (m1 : option (list word)) (state : list word) (i : nat) : option (list word) :=
  let a := nth 0 state 0 in let b := nth 1 state 0 in let c := nth 2 state 0 in let d := nth 3 state 0 in let e := nth 4 state 0 in
  let f := N.lor (N.land (N.lor b c) d) (N.land b c) in
  do w <- deref m1 i 0;
  let t := add32 (add32 (add32 (add32 (rotl32 a 5) f) e) w) K2 in
  Some [t; a; rotl32 b 30; c; d].
Definition r_func4 (m1 : option (list word)) (state : list word) (i : nat) : option (list word) :=
  let a := nth 0 state 0 in let b := nth 1 state 0 in let c := nth 2 state 0 in let d := nth 3 state 0 in let e := nth 4 state 0 in
  let f := N.lxor (N.lxor b c) d in
  do w <- deref m1 i 0;
  let t := add32 (add32 (add32 (add32 (rotl32 a 5) f) e) w) K3 in
  Some [t; a; rotl32 b 30; c; d].

(** Lines 285-312. *)
Definition rectifyCompressionState (m1 : option (list word)) (cs : option (list (list word))) : option (option (list (list word))) :=
  match cs with
  | None => Some None
  | Some cs =>
    do cs57 <- r_func3 m1 (nth 1 cs []) 56;
    do c1 <- r_func3 m1 cs57 57;
    let cs := upd 1 c1 cs in
    do c2 <- r_func4 m1 (nth 2 cs []) 64;
    Some (Some (upd 2 c2 cs))
  end.

(** /repo/sha1cd_test.go lines 241-278: the table of TestRectifyCompressionState. *)
Definition rectify_tests : list (list word * option (list (list word)) * option (list (list word))) :=
  [ (map (fun i => N.of_nat i + 1) (seq 0 80),
     Some [[0x67452301; 0xEFCDAB89; 0x98BADCFE; 0x10325476; 0xC3D2E1F0];
           [0x12345678; 0x9ABCDEF0; 0x11111111; 0x22222222; 0x33333333];
           [0xAAAAAAAA; 0xBBBBBBBB; 0xCCCCCCCC; 0xDDDDDDDD; 0xEEEEEEEE]],
     Some [[0x67452301; 0xEFCDAB89; 0x98BADCFE; 0x10325476; 0xC3D2E1F0];
           [0x24AD25B3; 0x1B09D17A; 0x048D159E; 0x26AF37BC; 0x11111111];
           [0xB951B104; 0xAAAAAAAA; 0xEEEEEEEE; 0xCCCCCCCC; 0xDDDDDDDD]]);
    (repeat 0 80,
     Some [[0; 0; 0; 0; 0]; [0; 0; 0; 0; 0]; [0; 0; 0; 0; 0]],
     Some [[0; 0; 0; 0; 0]; [0x7293586D; 0x8F1BBCDC; 0; 0; 0]; [0xCA62C1D6; 0; 0; 0; 0]]);
    (repeat 0 80, None, None) ].

(** Lines 280-298: the body of the test, for a function [f]: true if it reports no error, [None] if it panics (also if *tc.cs is nil). *)
Definition rectify_check (f : option (list word) -> option (list (list word)) -> option (option (list (list word))))
    (t : list word * option (list (list word)) * option (list (list word))) : option bool :=
  let '(m1, cs, want) := t in
  do cs <- f (Some m1) cs;
  match want with
  | None => Some (match cs with None => true | Some _ => false end)
  | Some w => do c <- cs; Some (if list_eq_dec (list_eq_dec N.eq_dec) c w then true else false)
  end.
Definition TestRectifyCompressionState (f : option (list word) -> option (list (list word)) -> option (option (list (list word)))) : list (option bool) :=
  map (rectify_check f) rectify_tests.
