(** C73: instances and tests. *)

From Coq Require Import Arith NArith List Strings.Byte Bool.
From Verif Require Import Word Spec_Sha1 Model_Go GoTable Model_Leak Spec_Leak Leak Examples_Vectors.
Import ListNotations.
Local Open Scope N_scope.

(** Two 64-byte messages, with different digests, that leave the same trace; the calls are Write in two parts, Sum, Write, Sum. *)
Definition lk_b : list byte := upd 0 x60 lk_a.
Definition calls (m : list byte) : list lop := [LWrite (firstn 3 m); LWrite (skipn 3 m); LSum []; LWrite [x61; x62]; LSum [x63]].
Definition ex_ra_o := Eval vm_compute in session blockGeneric New (calls lk_a).
Definition ex_ra : digest * list (list byte * bool) := Eval vm_compute in match ex_ra_o with Some r => r | None => (New, []) end.
Definition ex_rb_o := Eval vm_compute in session blockGeneric New (calls lk_b).
Definition ex_rb : digest * list (list byte * bool) := Eval vm_compute in match ex_rb_o with Some r => r | None => (New, []) end.
Example ex_a : session blockGeneric New (calls lk_a) = Some ex_ra. Proof. vm_compute. reflexivity. Qed.
Example ex_b : session blockGeneric New (calls lk_b) = Some ex_rb. Proof. vm_compute. reflexivity. Qed.
Example ex_calls : same_calls (calls lk_a) (calls lk_b).
Proof. repeat constructor. Qed.
Example ex_quiet : quiet ex_ra /\ quiet ex_rb /\ snd ex_ra <> snd ex_rb.
Proof. split; [|split]; [split; [reflexivity|repeat constructor]..|]. vm_compute. discriminate. Qed.
Example ex_fed : fed [] 0 (calls lk_a) = [lk_a; padding 64; x61 :: x62 :: padding 66].
Proof. vm_compute. reflexivity. Qed.
Example ex_same : map leaked (fed [] 0 (calls lk_a)) = map leaked (fed [] 0 (calls lk_b)).
Proof. vm_compute. reflexivity. Qed.
Example ex_trace : fst (l_session l_blockGeneric New (calls lk_a)) = fst (l_session l_blockGeneric New (calls lk_b)).
Proof.
  apply (leak_exact New New (calls lk_a) (calls lk_b) ex_ra ex_rb hasher_New hasher_New eq_refl eq_refl ex_calls ex_a ex_b (proj1 ex_quiet) (proj1 (proj2 ex_quiet))).
  exact ex_same.
Qed.

(** Two chaining values. *)
Definition ex_rh_o := Eval vm_compute in session blockGeneric tb_d (calls lk_a).
Definition ex_rh : digest * list (list byte * bool) := Eval vm_compute in match ex_rh_o with Some r => r | None => (New, []) end.
Example ex_h : session blockGeneric tb_d (calls lk_a) = Some ex_rh. Proof. vm_compute. reflexivity. Qed.
Example ex_chaining : fst (l_session l_blockGeneric tb_d (calls lk_a)) = fst (l_session l_blockGeneric New (calls lk_a)).
Proof.
  refine (leak_chaining New tb_h IV (calls lk_a) ex_rh ex_ra _ hasher_New ex_h ex_a _ (proj1 ex_quiet)).
  - split; [repeat split; reflexivity|]. repeat split; try reflexivity. apply Nat.ltb_lt. reflexivity.
  - split; [reflexivity|repeat constructor].
Qed.

(** Tests: the trace of a whole run, its length, and that it differs for another message, for a collision, and for another length. *)
Definition ev_eq (a b : ev) : {a = b} + {a <> b}.
Proof.
  decide equality; try apply Nat.eq_dec; try apply Bool.bool_dec.
  - decide equality. apply Nat.eq_dec.
  - repeat first [apply N.eq_dec | apply Nat.eq_dec | decide equality].
Defined.
Definition same_trace (d d' : digest) (a b : list lop) : bool :=
  if list_eq_dec ev_eq (fst (l_session l_blockGeneric d a)) (fst (l_session l_blockGeneric d' b)) then true else false.
Definition C73_test : unit := ltac:(passed (
  same_trace New New (calls lk_a) (calls lk_b) && negb (same_trace New New (calls lk_a) (calls lk_z)) &&
  same_trace New tb_d [LWrite lk_a] [LWrite lk_a] && negb (same_trace New tb_d [LWrite tb_b] [LWrite tb_b]) &&
  negb (same_trace New New [LWrite lk_a] [LWrite (tl lk_a)]) &&
  (length (fst (l_session l_blockGeneric New [LWrite lk_z])) =? 991)%nat)%bool).

(** A flagged block, an unflagged one and 5 bytes. *)
Definition ex_p : list byte := tb_b ++ lk_a ++ firstn 5 lk_a.
Definition nats_eq (a b : list nat) : bool := if list_eq_dec Nat.eq_dec a b then true else false.
Definition C73_reads_test : unit := ltac:(passed (
  nats_eq (input_reads (fst (l_blockGeneric tb_d ex_p))) (seq 0 64 ++ seq 0 64 ++ seq 0 64 ++ seq 64 64) &&
  nats_eq (reads_of 0 (flags tb_d (blocks ex_p))) (seq 0 64 ++ seq 0 64 ++ seq 0 64 ++ seq 64 64))%bool).
Example ex_wf : wfst (dh tb_d). Proof. repeat split; reflexivity. Qed.
