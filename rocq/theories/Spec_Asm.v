(** The memory an assembly routine is entitled to, as (address, bytes): the arrays behind its slice arguments
    (h: 5 words, p, m1: 80 words, cs: 3 times 5 words), its frame and argument area (TEXT ... $80-96), and its
    constants.  It may store to all but the block, the arguments and the constants. *)

From Coq Require Import NArith List.
From Verif Require Import Model_Asm.
Import ListNotations.
Local Open Scope N_scope.

Definition may_store (L : layout) : list (N * N) := [(l_h L, 20); (l_m1 L, 320); (l_cs L, 60); (l_frame L, 80)].
Definition may_load (L : layout) : list (N * N) := may_store L ++ [(l_p L, l_np L); (l_args L, 96); (l_ro1 L, 16); (l_ro2 L, 16)].
(** n bytes at a lie in one of the ranges. *)
Definition lies_in (rs : list (N * N)) (a n : N) : Prop := exists b k, In (b, k) rs /\ b <= a /\ a + n <= b + k.
