(** Passing Go memory to C: what the statements speak of (rules of cgo: C may use the memory during the call only, and the memory must not
    hold Go pointers). *)

From Coq Require Import Arith NArith ZArith List Strings.Byte.
From Verif Require Import Word Spec_C Model_Go Model_C Model_CApi Spec_CMem Model_CMem Gen_CSteps.
Import ListNotations.
Local Open Scope N_scope.

(** The whole SHA1_CTX at address A of a memory, as a value: [c] has the members other than the buffer. *)
Definition context_at (t : abi) (A : N) (m : cmem) (c : ctx) : ctx := set_buffer (mload m (buffer_at t A) 64) c.
(** The memories differ at most in the n bytes at address a. *)
Definition only (a : N) (n : N) (m m' : cmem) : Prop := forall x, x < a \/ a + n <= x -> m' x = m x.

(** A list of calls, each in a memory of its own and with the objects at addresses of its own: between two calls the Go runtime may move a
    stack, so only the contents of the context are the same.  [P] is the address of the array sha1_padding. *)
Inductive moved (t : abi) (cfg : ccfg) : ctx -> list cop -> ctx -> list cres -> Prop :=
  | mv_end c : moved t cfg c [] c []
  | mv_set c o c1 r os c2 rs : match o with CUpdate _ | CFinal => False | _ => True end ->
      capi_exec cfg c o = Some (c1, r) -> moved t cfg c1 os c2 rs -> moved t cfg c (o :: os) c2 (r :: rs)
  | mv_update c A m b p m1 c1 os c2 rs : A mod a32 t = 0 -> apart (buffer_at t A) 64 b (N.of_nat (length p)) ->
      context_at t A m c = c -> mload m b (length p) = p -> m_Update t cfg A m c b (length p) = Some (m1, c1) ->
      moved t cfg (context_at t A m1 c1) os c2 rs -> moved t cfg c (CUpdate p :: os) c2 (CNone :: rs)
  | mv_final c A P m out m1 c1 v os c2 rs : A mod a32 t = 0 -> apart (buffer_at t A) 64 P 64 -> apart (buffer_at t A) 64 out 20 ->
      context_at t A m c = c -> mload m P 64 = sha1_padding -> m_Final t cfg A P m c out = Some (m1, c1, v) ->
      moved t cfg (context_at t A m1 c1) os c2 rs -> moved t cfg c (CFinal :: os) c2 (CDigest (mload m1 out 20) v :: rs).
