(** Proofs about the method sets. *)

From Coq Require Import String List Bool.
From Verif Require Import Model_Build Gen_Build Model_Iface Gen_Methods Model_Hasher Spec_Iface.
Import ListNotations.
Local Open Scope string_scope.

Lemma hasher_eq e : hasher e = hasher (fun _ => false).
Proof.
  cbv.
  destruct (e "noasm"), (e "gc"), (e "amd64"), (e "arm64"); reflexivity.
Qed.
Lemma cgo_hasher_eq e : cgo_hasher e = cgo_hasher (fun t => if String.eqb t "cgo" then e "cgo" else false).
Proof.
  unfold cgo_hasher. rewrite (hasher_eq (fun t => if String.eqb t "cgo" then e "cgo" else false)), (hasher_eq e).
  cbv. destruct (e "cgo"); reflexivity.
Qed.
Definition sig_eq_dec (x y : signature) : {x = y} + {x <> y}.
Proof. repeat decide equality. Defined.
Definition inclb (l r : list signature) : bool := forallb (fun x => if in_dec sig_eq_dec x r then true else false) l.
Lemma inclb_ok l r : inclb l r = true -> incl l r.
Proof. intros H x Hx. unfold inclb in H. rewrite forallb_forall in H. specialize (H x Hx). destruct (in_dec sig_eq_dec x r); [assumption|discriminate]. Qed.
Fixpoint nodupb (l : list string) : bool := match l with [] => true | x :: r => negb (existsb (String.eqb x) r) && nodupb r end.
Lemma nodupb_ok l : nodupb l = true -> NoDup l.
Proof.
  induction l as [|x r IH]; intros H; [constructor|]. cbn [nodupb] in H. apply andb_prop in H. destruct H as [A B].
  constructor; [|auto]. intros C. apply negb_true_iff in A.
  assert (E : existsb (String.eqb x) r = true) by (apply existsb_exists; exists x; split; [exact C|apply String.eqb_refl]). congruence.
Qed.

Lemma implements e : incl (collision_sum :: hash_Hash ++ checkpointing) (hasher e) /\ incl (collision_sum :: hash_Hash) (cgo_hasher e).
Proof.
  split.
  - rewrite hasher_eq. apply inclb_ok. vm_compute. reflexivity.
  - rewrite cgo_hasher_eq. apply inclb_ok. destruct (e "cgo"); vm_compute; reflexivity.
Qed.
Lemma declared_once e : NoDup (map (fun s => fst (fst s)) (hasher e)) /\ NoDup (map (fun s => fst (fst s)) (cgo_hasher e)).
Proof.
  split.
  - rewrite hasher_eq. apply nodupb_ok. vm_compute. reflexivity.
  - rewrite cgo_hasher_eq. apply nodupb_ok. destruct (e "cgo"); vm_compute; reflexivity.
Qed.
Lemma iface_type : CollisionResistantHash = ([collision_sum], ["hash.Hash"]).
Proof. reflexivity. Qed.
Lemma exported_only e : (forall s, In s (hasher e) -> exported (fst (fst s)) = true -> In s (collision_sum :: hash_Hash ++ checkpointing)) /\
  (e "cgo" = true -> forall s, In s (cgo_hasher e) -> exported (fst (fst s)) = true -> In s (collision_sum :: hash_Hash)).
Proof.
  assert (X : forall l r, inclb (filter (fun s => exported (fst (fst s))) l) r = true -> forall s, In s l -> exported (fst (fst s)) = true -> In s r).
  { intros l r H s Hs Hx. apply (inclb_ok _ _ H). apply filter_In. auto. }
  split.
  - rewrite hasher_eq. apply X. vm_compute. reflexivity.
  - intros C. rewrite cgo_hasher_eq, C. apply X. vm_compute. reflexivity.
Qed.
Lemma no_checkpoints_cgo : exists e1 e2 : tags, (forall t, t <> "cgo" -> e1 t = e2 t) /\ incl checkpointing (cgo_hasher e1) /\
  forall s, In s checkpointing -> ~ In s (cgo_hasher e2).
Proof.
  exists (fun _ => false), (fun t => String.eqb t "cgo"). split; [|split].
  - intros t Ht. apply String.eqb_neq in Ht. rewrite Ht. reflexivity.
  - apply inclb_ok. vm_compute. reflexivity.
  - intros s Hs Hi. assert (F : forallb (fun s => if in_dec sig_eq_dec s (cgo_hasher (fun t => String.eqb t "cgo")) then false else true) checkpointing = true)
      by (vm_compute; reflexivity).
    rewrite forallb_forall in F. specialize (F s Hs). destruct (in_dec sig_eq_dec s _); [discriminate|contradiction].
Qed.
