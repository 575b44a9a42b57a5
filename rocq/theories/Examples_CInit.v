(** Examples for C72. *)

From Coq Require Import String Ascii Arith NArith ZArith List Strings.Byte Bool.
From Verif Require Import Word Spec_Sha1 Spec_C Model_Go Model_CSteps Model_C Model_CApi Model_CInit Spec_CInit CInit Data_Shambles GoRefute
  Examples_Go Examples_C Examples_Vectors.
Import ListNotations.
Local Open Scope N_scope.

(** A history that begins with a setter, and takes a digest in the middle of a block. *)
Definition hist72 : list cop := [CSetSafeHash 0; CUpdate []; CInit; CUpdate abc; CSetReduced 1; CFinal; CUpdate abc].
Example ex_first : initialised_first hist72.
Proof.
  intros before o after E U. unfold hist72 in E.
  destruct before as [|a1 before]; cbn [app] in E; injection E as E1 E; subst; [destruct U|].
  destruct before as [|a2 before]; cbn [app] in E; injection E as E1 E; subst; [destruct (U eq_refl)|].
  destruct before as [|a3 before]; cbn [app] in E; injection E as E1 E; subst; [destruct U|]. right. right. left. reflexivity.
Qed.
Example ex_defined cfg : exists i rs, i_run cfg unwritten hist72 = Some (i, rs) /\ forall c0, ctx_typed c0 -> exists c, capi_run cfg c0 hist72 = Some (c, rs) /\ agrees i c.
Proof. exact (no_indeterminate_read cfg _ ex_first). Qed.

(** What is left unwritten by a short update: the rest of the buffer, and all of m1. *)
Example ex_partly cfg : exists i, i_run cfg unwritten [CInit; CUpdate abc] = Some (i, [CNone; CNone]) /\
  i_total i = Some 3 /\ read_at (i_buffer i) 2 = Some x63 /\ read_at (i_buffer i) 3 = None /\ read_all (i_m1 i) = None.
Proof. eexists. split; [reflexivity|]. repeat split. Qed.

(** The calls that read: without SHA1DCInit, or before it. *)
Example ex_update cfg : i_run cfg unwritten [CSetUseUBC 0; CUpdate abc; CInit] = None.
Proof. reflexivity. Qed.
Example ex_final cfg : i_run cfg unwritten [CFinal] = None.
Proof. reflexivity. Qed.
Example ex_not_first : ~ initialised_first [CSetUseUBC 0; CUpdate abc; CInit].
Proof. intros H. destruct (H [CSetUseUBC 0] (CUpdate abc) [CInit] eq_refl) as [X|[]]; [discriminate|discriminate X]. Qed.
(** Half a block of a context whose total alone is known: sha1_process would read bytes never written. *)
Example ex_block cfg : i_process cfg (i_Init unwritten) (map Some abc ++ repeat None 61) = None.
Proof. destruct cfg as [h m u]. reflexivity. Qed.

(** Tests: the digests, and every element of m1 written; a colliding message in several pieces. *)
Definition lasti (cfg : ccfg) (os : list cop) : option (ictx * cres) :=
  match i_run cfg unwritten os with Some (i, rs) => Some (i, last rs CNone) | None => None end.
Definition isdig (cfg : ccfg) (os : list cop) (d : list byte) (v : Z) : bool :=
  match lasti cfg os with Some (i, CDigest o w) => bytes_eqb o d && (w =? v)%Z && match read_all (i_m1 i) with Some _ => true | None => false end | _ => false end.
Definition C72_test : unit := ltac:(passed (
  isdig (mkcfg false false true) [CInit; CUpdate abc; CFinal] (sha1 abc) 0 &&
  isdig (mkcfg true true false) [CSetCallback 7; CInit; CUpdate (firstn 70 m130); CUpdate (skipn 70 m130); CFinal] (sha1 m130) 0 &&
  isdig (mkcfg false false false) [CInit; CUpdate (firstn 100 shambles1); CUpdate (skipn 100 shambles1); CFinal] sh_digest 1)%bool).
