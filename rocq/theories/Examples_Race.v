(** Examples for Properties_Race: the hypotheses are met by goroutines that make accesses in turn. *)

From Coq Require Import Arith NArith List Strings.Byte Lia.
From Verif Require Import Word Spec_DV Spec_Cd Spec_Api Model_Go Model_Api Model_Block Model_Race Spec_Race Race GoProps Properties_Race.
Import ListNotations.

(** A hasher with three bytes. *)
Definition ex_p : program := [(Generic, ONew); (Generic, OWrite 0 [x61; x62; x63])].
Definition ex_d : digest := mkd (mkst Init0 Init1 Init2 Init3 Init4) ([x61; x62; x63] ++ repeat x00 61) 3 3 false.
Example ex_run : run_program false ex_p = Some ([ex_d], [RNew 0; RNum 3]).
Proof. reflexivity. Qed.
Example ex_scoped : scoped 0 (calls ex_p).
Proof. cbn. auto with arith. Qed.

(** Goroutines: a checkpoint and the size; the size only; two Writes of one byte and a checkpoint.  The struct copies read
    the fields backwards, d.nx twice. *)
Definition ex_ord : list gloc := LNX :: rev all_locs.
Definition ex_obs : list gcall := [mkgc Generic ex_ord (OMarshal 0); mkgc Generic ex_ord (OSize 0)].
Definition ex_sum : list gcall := [mkgc Generic ex_ord (OCRSum 0 [x01])].
Definition ex_wr : list gcall := [mkgc Generic ex_ord (OWrite 0 [x64]); mkgc Generic ex_ord (OWrite 0 [x65]); mkgc Generic ex_ord (OMarshal 0)].
Lemma ex_ord_all l : In l all_locs -> In l ex_ord.
Proof. intros H. right. apply -> in_rev. exact H. Qed.
Example ex_obs_on : forall g, In g [ex_obs; ex_obs; ex_sum] -> on_hasher 0 g /\ observing g.
Proof.
  intros g Hg. destruct Hg as [<-|[<-|[<-|[]]]]; (split; [intros c Hc; cbn in Hc|intros c Hc; cbn in Hc]).
  all: repeat (destruct Hc as [<-|Hc]; [try (split; [reflexivity|exact ex_ord_all]); reflexivity|]); destruct Hc.
Qed.
Example ex_wr_on : on_hasher 0 ex_wr.
Proof. intros c [<-|[<-|[<-|[]]]]; (split; [reflexivity|exact ex_ord_all]). Qed.

(** Two observers in turn: both get the checkpoint of the three bytes. *)
Definition turns (n : nat) : list nat := concat (repeat [0%nat; 1%nat] n).
Example ex_observers : shared ex_d [ex_obs; ex_obs] (turns 20) =
  (ex_d, repeat (Some (Some [RBytes (checkpoint_of [x61; x62; x63]); RNum 20])) 2).
Proof. vm_compute. reflexivity. Qed.
(** In the middle of the calls. *)
Example ex_observers_running : shared ex_d [ex_obs; ex_obs] (turns 5) = (ex_d, [None; None]).
Proof. vm_compute. reflexivity. Qed.
(** A writer and an observer in turn: the writer's checkpoint is that of the five bytes. *)
Example ex_writer : nth_error (snd (shared ex_d [ex_obs; ex_wr] (turns 40))) 1 =
  Some (Some (Some [RNum 1; RNum 1; RBytes (checkpoint_of [x61; x62; x63; x64; x65])])).
Proof. vm_compute. reflexivity. Qed.
Example ex_writer_applies : exists ds' xs, run_program false (ex_p ++ as_program ex_wr) = Some (ds', [RNew 0; RNum 3] ++ xs) /\
  (nth_error (snd (shared ex_d [ex_obs; ex_wr] (turns 40))) 1 = Some None \/
   nth_error (snd (shared ex_d [ex_obs; ex_wr] (turns 40))) 1 = Some (Some (Some xs)) /\ nth_error ds' 0 = Some (fst (shared ex_d [ex_obs; ex_wr] (turns 40)))).
Proof.
  apply (C65_writer false ex_p 0 [ex_d] [RNew 0; RNum 3] ex_d [ex_obs; ex_wr] 1 ex_wr (turns 40) ex_scoped ex_run eq_refl eq_refl ex_wr_on).
  intros [|[|k]] h Hk E; cbn in E; try congruence; [injection E as <-; apply (ex_obs_on ex_obs); left; reflexivity|].
  destruct k; discriminate.
Qed.
(** The digest seen by the third goroutine, whatever the order of the accesses. *)
Example ex_digest sched xs : nth_error (snd (shared ex_d [ex_obs; ex_obs; ex_sum] sched)) 2 = Some (Some (Some xs)) ->
  nth_error xs 0 = Some (RVerdict ([x01] ++ fst (cd_sum GoCheck.go_decide [x61; x62; x63])) (snd (cd_sum GoCheck.go_decide [x61; x62; x63]))).
Proof.
  intros H. destruct (C65_digests false GoCheck.go_decide ex_p 0 [x61; x62; x63] [ex_d] [RNew 0; RNum 3] ex_d [ex_obs; ex_obs; ex_sum] sched
    go_decide_ok ex_scoped ex_run eq_refl eq_refl ex_obs_on 2 ex_sum xs eq_refl H 0 (mkgc Generic ex_ord (OCRSum 0 [x01])) eq_refl) as [_ X].
  exact (X [x01] eq_refl).
Qed.
(** A writer alone. *)
Example ex_alone : shared New [write_g [x61]] (repeat 0%nat 5) = (mkd (mkst Init0 Init1 Init2 Init3 Init4) (x61 :: repeat x00 63) 1 1 false, [Some (Some [RNum 1])]).
Proof. vm_compute. reflexivity. Qed.
