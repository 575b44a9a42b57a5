(** Examples for C63. *)

From Coq Require Import String Ascii Arith NArith ZArith List Strings.Byte Bool.
From Verif Require Import Word Spec_Sha1 Spec_DV Spec_Cd Spec_Api Spec_C Model_Ubc Model_Go Model_CSteps Model_C Model_CApi Model_CTypes Gen_CTyped Model_CTyped
  Data_Shambles GoRefute CCtx Examples_Go Examples_C Examples_Vectors CMacros CTyped.
Import ListNotations.
Local Open Scope N_scope.

(** The hypotheses of the theorems: a context with arbitrary contents, an int of 32 bits and one of 64 bits, the two configurations. *)
Example C63_example : (32 = 32 \/ 63 <= 32)%Z /\ (64 = 32 \/ 63 <= 64)%Z /\ host_be lecfg = macro_be lecfg /\ host_be becfg = macro_be becfg /\
  cdecides cdec /\ ctx_typed junk /\ words32 junk /\ In CFinal exops /\ length sh_b1 = 64%nat /\ length bit_inits = 32%nat.
Proof.
  split; [left; reflexivity|]. split; [right; discriminate|]. split; [reflexivity|]. split; [reflexivity|]. split; [exact cdec_decides|].
  split; [repeat split; reflexivity|]. split; [|split; [right; right; right; left; reflexivity|split; reflexivity]].
  split; [repeat split; reflexivity|]. split; [apply Forall_forall; intros x H; apply repeat_spec in H; subst x; reflexivity|].
  apply Forall_forall. intros x H. apply repeat_spec in H. subst x. repeat split; reflexivity.
Qed.
(** Values: the promotions differ, the stored words do not; -1 is converted, a negative int is not shifted. *)
Example C63_values : ceval 32 (from [0xFFFFFFFF]) (EAdd (EV 0) (EL 1)) = Some (VU 0) /\
  ceval 64 (from [0xFFFFFFFF]) (EAdd (EV 0) (EL 1)) = Some (VI 4294967296) /\
  assigned 32 (from [0xFFFFFFFF]) (EAdd (EV 0) (EL 1)) = Some 0 /\ assigned 64 (from [0xFFFFFFFF]) (EAdd (EV 0) (EL 1)) = Some 0 /\
  assigned 64 (from [0]) (ESub (EV 0) (EL 1)) = Some 0xFFFFFFFF /\ ceval 32 (from [0]) (EShl (EL 1) (EL 31)) = None /\
  ceval 32 (from [0]) (EShl (ECast (EL 1)) (EL 31)) = Some (VU 2147483648) /\ ceval 64 (from [0]) (EShr (ESub (EV 0) (EL 1)) (EL 1)) = None /\
  ceval 32 (from [5]) (EShl (EV 0) (EL 32)) = None /\ ceval 32 (from []) (EAdd (EL 0x7FFFFFFF) (EL 1)) = None /\
  condition 64 (from [0; 1]) (ENe (EAdd (ESub (EV 0) (EV 1)) (EL 1)) (EL 0)) = Some false.
Proof. repeat split; reflexivity. Qed.
(** A condition that would go wrong with a wider int: (x - 1) compared with 0xFFFFFFFF. *)
Example C63_differs : condition 32 (from [0]) (ENe (ESub (EV 0) (EL 1)) (EL 0xFFFFFFFF)) = Some false /\
  condition 64 (from [0]) (ENe (ESub (EV 0) (EL 1)) (EL 0xFFFFFFFF)) = Some true.
Proof. split; reflexivity. Qed.
(** An int of 40 bits: the rotations. *)
Example C63_narrow_values : t_rotl30 40 512 = None /\ t_rotl30 40 511 = Some (rotate_left 511 30) /\ t_rotl30 62 0x7FFFFFFF = Some (rotate_left 0x7FFFFFFF 30) /\
  t_rotl30 62 0x80000000 = None /\ t_rotl30 63 0xFFFFFFFF = Some 0xFFFFFFFF.
Proof. repeat split; reflexivity. Qed.

(** Tests: whole messages with ints of 32, 63, 64 and 128 bits; a message with a collision; an int of 62 bits. *)
Definition digest_of (w : Z) (cfg : ccfg) (ops : list cop) : option cres := option_map (fun r => last (snd r) CNone) (t_run w cfg junk (CInit :: ops)).
Definition is_digest (r : option cres) (b : list byte) (v : Z) : bool :=
  match r with Some (CDigest x u) => Examples_Vectors.bytes_eqb x b && (u =? v)%Z | _ => false end.
Definition C63_test_abc : unit := ltac:(passed (forallb (fun w => is_digest (digest_of w lecfg [CUpdate abc; CFinal]) (sha1 abc) 0) [32; 63; 64; 128]%Z)).
Definition C63_test_130 : unit := ltac:(passed (is_digest (digest_of 32 becfg [CUpdate (firstn 70 m130); CUpdate (skipn 70 m130); CFinal]) (sha1 m130) 0)).
Definition C63_test_shambles : unit := ltac:(passed (is_digest (digest_of 32 lecfg [CUpdate shambles1; CFinal]) sh_digest 1
  && is_digest (digest_of 64 becfg [CUpdate shambles1; CFinal]) sh_digest 1)%bool).
Definition C63_test_62 : unit := ltac:(passed (match digest_of 62 lecfg [CUpdate abc; CFinal] with None => true | Some _ => false end)).
