(** Disturbance vectors, unavoidable bit conditions and sibling collisions.
    Independent of the code in /repo: the vectors are generated from their published
    definition (S. Manuel, "Classification and generation of disturbance vectors for
    collision attacks against SHA-1"), the list of the 32 vectors is the one of Stevens
    ("Counter-cryptanalysis", section on SHA-1) and Stevens and Shumow. *)

From Coq Require Import Arith NArith List.
From Verif Require Import Word Spec_Sha1.
From Verif Require Export Spec_UbcTable.
Import ListNotations.
Local Open Scope N_scope.

Inductive dvtype := TypeI | TypeII.
(** I(K,b) and II(K,b) *)
Record dvid := mkdvid { dty : dvtype; dK : nat; dB : nat }.

(** The sixteen words DV[K .. K+15] that determine the vector. *)
Definition dv_window (v : dvid) : list word :=
  let one b := N.shiftl 1 (N.of_nat (b mod 32)) in
  match dty v with
  | TypeI => repeat 0 15 ++ [one (dB v)]
  | TypeII => [0; one (31 + dB v)%nat; 0; one (31 + dB v)%nat] ++ repeat 0 11 ++ [one (dB v)]
  end.

(** Going back one step in the (linear) SHA-1 message expansion. *)
Definition prev_w (l : list word) : word :=
  N.lxor (N.lxor (N.lxor (rotl32 (nth 15 l 0) 31) (nth 12 l 0)) (nth 7 l 0)) (nth 1 l 0).
Fixpoint unexpand (n : nat) (l : list word) : list word :=
  match n with
  | O => l
  | S m => unexpand m (prev_w l :: l)
  end.

(** DV[-5 .. 79]; entry i of the list is DV[i-5]. *)
Definition dvec (v : dvid) : list word :=
  unexpand (dK v + 5) (expand (79 - (dK v + 15)) (dv_window v)).

(** The message difference: each disturbance starts a six-step local collision. *)
Definition dmsg (v : dvid) : list word :=
  let dv := dvec v in
  map (fun t =>
    let d k := nth (t + 5 - k)%nat dv 0 in
    N.lxor (N.lxor (N.lxor (d 0%nat) (rotl32 (d 1%nat) 5)) (N.lxor (d 2%nat) (rotl32 (d 3%nat) 30)))
           (N.lxor (rotl32 (d 4%nat) 30) (rotl32 (d 5%nat) 30)))
    (seq 0 80).

(** The 32 vectors; the position in the list is the bit in the mask. *)
Definition dv_list : list dvid :=
  [mkdvid TypeI 43 0; mkdvid TypeI 44 0; mkdvid TypeI 45 0; mkdvid TypeI 46 0;
   mkdvid TypeI 46 2; mkdvid TypeI 47 0; mkdvid TypeI 47 2; mkdvid TypeI 48 0;
   mkdvid TypeI 48 2; mkdvid TypeI 49 0; mkdvid TypeI 49 2; mkdvid TypeI 50 0;
   mkdvid TypeI 50 2; mkdvid TypeI 51 0; mkdvid TypeI 51 2; mkdvid TypeI 52 0;
   mkdvid TypeII 45 0; mkdvid TypeII 46 0; mkdvid TypeII 46 2; mkdvid TypeII 47 0;
   mkdvid TypeII 48 0; mkdvid TypeII 49 0; mkdvid TypeII 49 2; mkdvid TypeII 50 0;
   mkdvid TypeII 50 2; mkdvid TypeII 51 0; mkdvid TypeII 51 2; mkdvid TypeII 52 0;
   mkdvid TypeII 53 0; mkdvid TypeII 54 0; mkdvid TypeII 55 0; mkdvid TypeII 56 0].

Definition the_dv (d : nat) : dvid := nth d dv_list (mkdvid TypeI 43 0).

(** The step at which the two executions are compared: inside the window where the
    local collisions have ended and the next disturbance has not started. *)
Definition test_step (v : dvid) : nat := if (dK v <=? 49)%nat then 58 else 65.

(** ** Bit conditions *)
Definition cond_holds (W : list word) (c : cond) : Prop :=
  let '(t1, b1, t2, b2, v) := c in
  xorb (N.testbit (nth t1 W 0) (N.of_nat b1)) (N.testbit (nth t2 W 0) (N.of_nat b2)) = v.
Definition ubc_holds (d : nat) (W : list word) : Prop :=
  Forall (cond_holds W) (nth d ubc_table []).

(** ** Siblings *)

(** The block at distance [dmsg]. *)
Definition sib_block (v : dvid) (M : list word) : list word := xorl M (firstn 16 (dmsg v)).

(** The executions from [h] on [M] and from [h'] on the sibling block meet in the
    state before the test step and end in the same chaining value. *)
Definition siblings (v : dvid) (h : st) (M : list word) (h' : st) : Prop :=
  wfst h' /\
  state_at (test_step v) h' (sib_block v M) = state_at (test_step v) h M /\
  compress h' (sib_block v M) = compress h M.

(** [h], [M] is one half of a collision along vector number [d]. *)
Definition attacked_by (d : nat) (h : st) (M : list word) : Prop :=
  (d < 32)%nat /\ ubc_holds d (schedule M) /\ exists h', siblings (the_dv d) h M h'.

Definition attacked (h : st) (M : list word) : Prop := exists d, attacked_by d h M.

(** ** What the Go code tests instead at step 58

    For the vectors with test step 58 hasCollided (sha1cdblock_generic.go:186-273)
    starts to undo steps from the words of the state in rotated order, but replays the
    remaining steps from the state itself.  [undone v h' M s] says that processing the
    sibling block from [h'] is in state [s] before the test step. *)
Definition rot2 (s : st) : st := mkst (sc s) (sd s) (se s) (sa s) (sb s).

Definition siblings_rot (v : dvid) (h : st) (M : list word) (h' : st) : Prop :=
  wfst h' /\
  state_at (test_step v) h' (sib_block v M) = rot2 (state_at (test_step v) h M) /\
  addst h' (steps (test_step v) (skipn (test_step v) (schedule (sib_block v M)))
             (state_at (test_step v) h M)) = compress h M.

(** The detection predicate of the Go code. *)
Definition go_detects_by (d : nat) (h : st) (M : list word) : Prop :=
  (d < 32)%nat /\ ubc_holds d (schedule M) /\
  exists h', if (test_step (the_dv d) =? 65)%nat
             then siblings (the_dv d) h M h'
             else siblings_rot (the_dv d) h M h'.
Definition go_detects (h : st) (M : list word) : Prop := exists d, go_detects_by d h M.

(** ** Auxiliary notions used in statements *)

(** The five words of a state agree. *)
Definition all_equal (s : st) : Prop := sa s = sb s /\ sb s = sc s /\ sc s = sd s /\ sd s = se s.

(** Processing the schedule [W] from some chaining value goes through [s] before step [t]
    and ends in the chaining value [h]. *)
Definition runs_through (t : nat) (W : list word) (s h : st) : Prop :=
  exists h', wfst h' /\ steps 0 (firstn t W) h' = s /\ addst h' (steps 0 W h') = h.
