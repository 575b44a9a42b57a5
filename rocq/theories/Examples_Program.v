(** Programs for the theorems of Properties_Program.v. *)

From Coq Require Import Arith NArith List Strings.Byte Bool Lia.
From Verif Require Import Word Spec_Sha1 Spec_Cd Spec_Api Spec_Marks Model_Ubc Gen_DvsGo Model_Go Model_Api Model_Table Model_Program DvFacts GoTable TableApi.
Import ListNotations.
Local Open Scope N_scope.

Definition abc : list byte := [x61; x62; x63].
Definition off_row : dvinfo := with_type 0 (nth 0 dvs_go terminator).

(** Two hashers, stores between the calls. *)
Definition p_two : list stmt :=
  [TCall ONew; TStore 3 (nth 20 dvs_go terminator); TCall ONew; TCall (OWrite 1 abc); TStore 0 off_row; TCall (OCRSum 1 abc)].
Example C52_program_example : exists T ds rs b, trun false dvs_go [] p_two = Some (T, ds, rs) /\
  nth_error rs 5 = Some (RVerdict b false) /\ b = abc ++ sha1 abc /\ written 1 (calls (firstn 5 p_two)) = Some abc.
Proof.
  eexists _, _, _, _. split; [vm_compute; reflexivity|]. split; [reflexivity|]. split; [vm_compute; reflexivity|reflexivity].
Qed.
Lemma p_two_stores i v : In (TStore i v) p_two -> TStore i v = TStore 3 (nth 20 dvs_go terminator) \/ TStore i v = TStore 0 off_row.
Proof. intros [H|[H|[H|[H|[H|[H|[]]]]]]]; try discriminate H; [left|right]; symmetry; exact H. Qed.
Example C52_program_scoped : scoped 0 (calls p_two) /\ (forall i v, In (TStore i v) p_two -> (i < 32)%nat /\ In (testT v) [0; 58; 65]).
Proof.
  split; [repeat constructor|]. intros i v H. destruct (p_two_stores i v H) as [E|E]; injection E as -> ->; (split; [lia|vm_compute; tauto]).
Qed.

(** The checkpoint before the attack block of the SHAmbles file, then that block: flagged, but not after the store. *)
Definition p_attack : list stmt :=
  [TCall ONew; TCall (OUnmarshal 0 (blob_of tb_h (repeat x00 64) 576)); TCall (OWrite 0 tb_b); TCall (OCRSum 0 [])].
Definition verdict_of (x : option (list dvinfo * list digest * list res)) : option bool :=
  match x with Some (_, _, rs) => match last rs RUnit with RVerdict _ v => Some v | _ => None end | None => None end.
Example C52_test_attack : verdict_of (trun false dvs_go [] p_attack) = Some true /\
  verdict_of (trun false dvs_go [] (TStore 0 off_row :: p_attack)) = Some false.
Proof. split; vm_compute; reflexivity. Qed.

(** Marks that are not all false. *)
Example C52_test_marks : exists l, marks abc l /\ existsb snd l = true /\ st_bytes (marked IV l) <> sha1 abc.
Proof. exists (map (fun b => (b, true)) (blocks (abc ++ padding 3))). split; [reflexivity|]. split; [reflexivity|]. vm_compute. discriminate. Qed.
