(** Properties of the assembly routines on slices that are not one block (properties.jsonl), stated about the model.

    Reading guide: as for Properties_Asm.  [layout_for n]: the ranges are disjoint and do not wrap around, and p has n bytes.
    [blocks p]: the whole 64-byte blocks of p; [sha1_blocks h]: the chaining value after them.  [exec], [xexec] run until
    RET; None: fault, or not finished after so many instructions. *)

From Coq Require Import Arith NArith List Strings.Byte Bool.
From Verif Require Import Word Spec_Sha1 Model_Go Model_Asm Model_Amd64 Gen_Amd64 Model_Arm64 Gen_Arm64 AsmMulti AsmMultiArm MultiFacts.
Import ListNotations.
Local Open Scope N_scope.

(** blockAMD64 on whole blocks, at least one: q are the blocks before the last one b.  All are hashed; m1 and cs are those of b.
    Full statement: without the condition on the length of q ++ b. *)
Theorem C60_amd64_blocks_partial : forall e h q b m1 cs fuel, layout_for (N.of_nat (length (q ++ b))) (e_lay e) -> wfst h ->
  (length q mod 64 = 0)%nat -> length b = 64%nat -> length m1 = 80%nat -> (200 + 3 * length q <= fuel)%nat ->
  let s0 := entry upper_mask shuffle_mask e h (q ++ b) m1 cs in let L := e_lay e in
  let g := sha1_blocks h (blocks q) in let M := words_of b in
  exists s, exec L amd64_prog fuel s0 = Some s /\
    st_at (mm s) (l_h L) = sha1_blocks h (blocks (q ++ b)) /\ words_at (mm s) (l_m1 L) 80 = schedule M /\
    cs_at (mm s) (l_cs L) = mkcs g (state_at 56 g M) (state_at 64 g M) /\
    forall a, (forall r, In r (regions L) -> rwrite r = true -> a < rbase r \/ rbase r + rsize r <= a) -> mm s a = mm s0 a.
Proof. exact amd64_multi. Qed.
Print Assumptions C60_amd64_blocks_partial.

(** On no bytes it does nothing. *)
Theorem C60_amd64_empty : forall e h m1 cs fuel, layout_for 0 (e_lay e) -> length m1 = 80%nat -> (8 <= fuel)%nat ->
  let s0 := entry upper_mask shuffle_mask e h [] m1 cs in
  exists s, exec (e_lay e) amd64_prog fuel s0 = Some s /\ mm s = mm s0.
Proof. exact amd64_no_block. Qed.
Print Assumptions C60_amd64_empty.

(** A rest is not ignored: after 64 of 65 bytes the routine goes on and faults. *)
Theorem C60_amd64_rest_refuted : exists e h p m1 cs, layout_for (N.of_nat (length p)) (e_lay e) /\ wfst h /\ length p = 65%nat /\ length m1 = 80%nat /\
  forall fuel, exec (e_lay e) amd64_prog fuel (entry upper_mask shuffle_mask e h p m1 cs) = None.
Proof. exact amd64_tail. Qed.
Print Assumptions C60_amd64_rest_refuted.

(** blockARM64 has no loop: of two blocks it hashes one ... *)
Theorem C60_arm64_blocks_refuted : exists e h p m1 cs s, layout_for (N.of_nat (length p)) (ae_lay e) /\ wfst h /\ length p = 128%nat /\ length m1 = 80%nat /\
  ae_g e 16%nat mod M64 + N.of_nat (length p) < M64 /\
  xexec (ae_lay e) arm64_prog 1000 (aentry sha1Ks e h p m1 cs) = Some s /\ st_at (xm s) (l_h (ae_lay e)) <> sha1_blocks h (blocks p).
Proof. exact arm64_first_only. Qed.
Print Assumptions C60_arm64_blocks_refuted.

(** ... and whatever follows the first block b, only b counts (R16: see C35). *)
Theorem C60_arm64_first_block : forall e h b q m1 cs, layout_for (N.of_nat (length (b ++ q))) (ae_lay e) -> wfst h -> length b = 64%nat -> length m1 = 80%nat ->
  ae_g e 16%nat mod M64 + 64 * (N.of_nat (length (b ++ q)) / 64) < M64 ->
  let s0 := aentry sha1Ks e h (b ++ q) m1 cs in let L := ae_lay e in let M := words_of b in
  exists s, xexec L arm64_prog 1000 s0 = Some s /\
    st_at (xm s) (l_h L) = compress h M /\ words_at (xm s) (l_m1 L) 80 = schedule M /\
    cs_at (xm s) (l_cs L) = mkcs h (state_at 56 h M) (state_at 64 h M) /\
    forall a, (forall r, In r (regions L) -> rwrite r = true -> a < rbase r \/ rbase r + rsize r <= a) -> xm s a = xm s0 a.
Proof. exact arm64_multi. Qed.
Print Assumptions C60_arm64_first_block.

(** Without a whole block, or if R16 plus the length wraps around, no byte of memory changes. *)
Theorem C60_arm64_nothing : forall e h p m1 cs, layout_for (N.of_nat (length p)) (ae_lay e) -> length m1 = 80%nat ->
  (length p < 64)%nat \/ M64 <= ae_g e 16%nat mod M64 + 64 * (N.of_nat (length p) / 64) ->
  let s0 := aentry sha1Ks e h p m1 cs in
  exists s, xexec (ae_lay e) arm64_prog 1000 s0 = Some s /\ forall a, xm s a = xm s0 a.
Proof. exact arm64_nothing. Qed.
Print Assumptions C60_arm64_nothing.
