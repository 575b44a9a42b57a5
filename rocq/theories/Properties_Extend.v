(** Length extension (properties.jsonl), stated about Spec_Cd and the API model of package sha1cd.

    Reading guide: [cd_sum D m] is digest and verdict of m for a detection D ([decides D go_detects]: that of package sha1cd); [pad m] is m
    with its padding; [forged d n] is a checkpoint made from a digest and a length only. *)

From Coq Require Import Arith NArith List Strings.Byte Bool.
From Verif Require Import Word Spec_Sha1 Spec_DV Spec_Cd Spec_Api Model_Block Spec_Extend Extend.
Import ListNotations.

(** Whoever knows the digest and the length of m, but not m, gets the digest of m with its padding and any further bytes from the public
    API; detection does not prevent it, also not if m or the continuation is flagged.  The verdict about m is not part of it. *)
Theorem C70_forgery : forall early D m ws c, decides D go_detects ->
  calls c = ONew :: OUnmarshal 0 (forged (fst (cd_sum D m)) (length m)) :: map (OWrite 0) ws ++ [OCRSum 0 []; OSum 0 []] ->
  exists ds v, run_program early c = Some (ds, RNew 0 :: RUnit :: map (fun w => RNum (length w)) ws ++
      [RVerdict (fst (cd_sum D (pad m ++ concat ws))) v; RBytes (fst (cd_sum D (pad m ++ concat ws)))]) /\
    snd (cd_sum D (pad m ++ concat ws)) = (snd (cd_sum D m) || v)%bool.
Proof. exact forgery. Qed.
Print Assumptions C70_forgery.

(** In both packages, with or without detection: messages of the same length with the same digest still have the same digest after the same continuation,
    and the same verdict if they had. *)
Theorem C70_continuation : forall D m m' x, fst (cd_sum D m) = fst (cd_sum D m') -> length m = length m' ->
  fst (cd_sum D (pad m ++ x)) = fst (cd_sum D (pad m' ++ x)) /\
  (snd (cd_sum D m) = snd (cd_sum D m') -> snd (cd_sum D (pad m ++ x)) = snd (cd_sum D (pad m' ++ x))).
Proof. exact extend_collision. Qed.
Print Assumptions C70_continuation.
