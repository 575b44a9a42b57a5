(** Examples for Properties_CRace: the hypotheses are met by goroutines that make accesses in turn. *)

From Coq Require Import Arith NArith List Strings.Byte Lia.
From Verif Require Import Word Spec_Sha1 Spec_DV Spec_Cd Spec_Api Spec_C Model_Go Model_C Model_CApi Model_CRace Spec_CRace CGo CRace Properties_CRace.
Import ListNotations.

Definition ex_cfg : ccfg := mkcfg false false true.
(** A hasher with three bytes. *)
Definition ex_p : list op := [ONew; OWrite 0 [x61; x62; x63]].
Definition ex_d : cdigest := mkcd (set_buffer ([x61; x62; x63] ++ repeat x00 61) (set_total 3 (g_ctx cgo_New))) (repeat x00 20).
Example ex_run : c_run ex_cfg [] ex_p = Some ([ex_d], [RNew 0; RNum 3]).
Proof. vm_compute. reflexivity. Qed.
Example ex_scoped : scoped 0 ex_p.
Proof. cbn. auto with arith. Qed.
Example ex_cgo : Forall cgo_call ex_p.
Proof. repeat constructor. Qed.

(** Goroutines: a digest and the size; a Write across a block border, a Reset and a Write.  The struct copies read the members
    backwards, total twice. *)
Definition ex_ord : list cloc := KTotal :: rev all_members.
Lemma ex_ord_all l : In l all_members -> In l ex_ord.
Proof. intros H. right. apply -> in_rev. exact H. Qed.
Definition ex_obs : list ccall := [mkcc ex_ord (OCRSum 0 [x01]); mkcc ex_ord (OSize 0)].
Definition ex_wr : list ccall := [mkcc ex_ord (OWrite 0 (repeat x62 70)); mkcc ex_ord (OReset 0); mkcc ex_ord (OWrite 0 [x64; x65]); mkcc ex_ord (OBlockSize 0)].
Example ex_obs_on : forall g, In g [ex_obs; ex_obs] -> on_chasher 0 g /\ c_observing g.
Proof.
  intros g Hg. assert (g = ex_obs) as -> by (destruct Hg as [<-|[<-|[]]]; reflexivity). split.
  - intros c [<-|[<-|[]]]; (split; [reflexivity|split; [exact I|exact ex_ord_all]]).
  - intros c [<-|[<-|[]]]; reflexivity.
Qed.
Example ex_wr_on : on_chasher 0 ex_wr.
Proof. intros c [<-|[<-|[<-|[<-|[]]]]]; (split; [reflexivity|split; [exact I|exact ex_ord_all]]). Qed.

(** In the middle of the calls, and at the end, of two observers in turn: the hasher is the same. *)
Definition turns (n : nat) : list nat := concat (repeat [0%nat; 1%nat] n).
Example ex_observers_running : snd (c_shared ex_cfg ex_d [ex_obs; ex_obs] (turns 50)) = [None; None].
Proof. vm_compute. reflexivity. Qed.
Example ex_observers sched : fst (c_shared ex_cfg ex_d [ex_obs; ex_obs] sched) = ex_d.
Proof. exact (proj1 (C66_observers ex_cfg ex_p 0 _ _ ex_d ex_scoped ex_cgo ex_run eq_refl [ex_obs; ex_obs] sched ex_obs_on)). Qed.
(** The digest seen by the second goroutine, whatever the order of the accesses. *)
Example ex_digest sched xs : nth_error (snd (c_shared ex_cfg ex_d [ex_obs; ex_obs] sched)) 1 = Some (Some (Some xs)) ->
  nth_error xs 0 = Some (RVerdict ([x01] ++ fst (cd_sum cgo_decide [x61; x62; x63])) (snd (cd_sum cgo_decide [x61; x62; x63]))).
Proof.
  intros H. destruct (C66_digests ex_cfg ex_p 0 _ _ ex_d ex_scoped ex_cgo ex_run eq_refl cgo_decide [x61; x62; x63] [ex_obs; ex_obs] sched
    eq_refl cgo_decides eq_refl ex_obs_on 1 ex_obs xs eq_refl H 0 (mkcc ex_ord (OCRSum 0 [x01])) eq_refl) as [_ X].
  exact (X [x01] eq_refl).
Qed.
(** A writer and an observer in turn. *)
Example ex_writer : exists ds' xs, c_run ex_cfg [] (ex_p ++ c_calls ex_wr) = Some (ds', [RNew 0; RNum 3] ++ xs) /\
  (nth_error (snd (c_shared ex_cfg ex_d [ex_obs; ex_wr] (turns 400))) 1 = Some None \/
   nth_error (snd (c_shared ex_cfg ex_d [ex_obs; ex_wr] (turns 400))) 1 = Some (Some (Some xs)) /\
   nth_error ds' 0 = Some (fst (c_shared ex_cfg ex_d [ex_obs; ex_wr] (turns 400)))).
Proof.
  apply (C66_writer ex_cfg ex_p 0 [ex_d] [RNew 0; RNum 3] ex_d ex_scoped ex_cgo ex_run eq_refl [ex_obs; ex_wr] 1 ex_wr (turns 400) eq_refl ex_wr_on).
  intros [|[|k]] h Hk E; cbn in E; try congruence; [injection E as <-; apply (ex_obs_on ex_obs); left; reflexivity|].
  destruct k; discriminate.
Qed.
(** Two writers in turn, whose bytes are mixed: both report success. *)
Example ex_safe : exists xs, Some [RNum 70; RUnit; RNum 2; RNum 64] = Some xs /\ Forall2 shaped (c_calls ex_wr) xs.
Proof.
  apply (C66_safe ex_cfg ex_p 0 [ex_d] [RNew 0; RNum 3] ex_d ex_scoped ex_cgo ex_run eq_refl [ex_wr; ex_wr] (turns 400)) with (k := 1%nat); [|reflexivity|].
  - intros g Hg. assert (g = ex_wr) as -> by (destruct Hg as [<-|[<-|[]]]; reflexivity). exact ex_wr_on.
  - vm_compute. reflexivity.
Qed.
(** A writer alone. *)
Example ex_alone : c_shared ex_cfg cgo_New [cwrite_g [x61; x62; x63]] (repeat 0%nat 6) = (ex_d, [Some (Some [RNum 3])]).
Proof. vm_compute. reflexivity. Qed.
