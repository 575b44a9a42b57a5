(** Calls of the assembly routines at the same time (properties.jsonl), stated about the model.

    Reading guide: [amd64_conc prog ev S]: the machines of the calls in S, with one memory, go through the events ev; an event is a turn
    of one call (one instruction) or a byte that other code stores.  None: one of them faults.  [pairwise]: what one call may write
    is apart from all that another call may access; the bytes to be hashed and the constants may be shared.  [agree L m m']: m and m' are
    the same in the ranges of L; at the start the memory has in the ranges of each call what its caller put there.  [turns k ev]: the number of turns of call k.
    [amd64_bconc]: the same with a store buffer for every call; the bytes in it arrive in memory in any order (events Drain).
    [waiting S k]: the buffer of call k, [overlay m q]: memory m as the owner of buffer q sees it; it is m if q is empty. *)

From Coq Require Import Arith NArith List Strings.Byte Bool.
From Verif Require Import Word Spec_Sha1 Model_Go Model_Asm Model_Amd64 Gen_Amd64 Model_Arm64 Gen_Arm64 Model_Conc Spec_Conc ConcAsm Model_Buffer Spec_Buffer BufferAsm.
Import ListNotations.
Local Open Scope N_scope.

Theorem C61_amd64_concurrent : forall (l : list (call env)) m ev,
  (forall c, In c l -> layout_ok (e_lay (c_env c)) /\ wfst (c_h c) /\ length (c_p c) = 64%nat /\ length (c_m1 c) = 80%nat) ->
  pairwise (map (fun c => e_lay (c_env c)) l) ->
  (forall c, In c l -> agree (e_lay (c_env c)) m (mm (amd64_core upper_mask shuffle_mask c)) /\ undisturbed (e_lay (c_env c)) ev) ->
  exists S, amd64_conc amd64_prog ev (amd64_begin upper_mask shuffle_mask m l) = Some S /\
    (forall k c, nth_error l k = Some c -> (200 <= turns k ev)%nat ->
       let L := e_lay (c_env c) in let h := c_h c in let M := words_of (c_p c) in
       st_at (shared _ S) (l_h L) = compress h M /\ words_at (shared _ S) (l_m1 L) 80 = schedule M /\
       cs_at (shared _ S) (l_cs L) = mkcs h (state_at 56 h M) (state_at 64 h M)) /\
    (forall a, (forall c r, In c l -> In r (regions (e_lay (c_env c))) -> rwrite r = true -> ~ in_range a r) ->
       (forall b, ~ In (Store a b) ev) -> shared _ S a = m a).
Proof. exact amd64_concurrent. Qed.
Print Assumptions C61_amd64_concurrent.

(** R16: see C35. *)
Theorem C61_arm64_concurrent : forall (l : list (call aenv)) m ev,
  (forall c, In c l -> layout_ok (ae_lay (c_env c)) /\ wfst (c_h c) /\ length (c_p c) = 64%nat /\ length (c_m1 c) = 80%nat /\
     ae_g (c_env c) 16%nat mod M64 + 64 < M64) ->
  pairwise (map (fun c => ae_lay (c_env c)) l) ->
  (forall c, In c l -> agree (ae_lay (c_env c)) m (xm (arm64_core sha1Ks c)) /\ undisturbed (ae_lay (c_env c)) ev) ->
  exists S, arm64_conc arm64_prog ev (arm64_begin sha1Ks m l) = Some S /\
    (forall k c, nth_error l k = Some c -> (220 <= turns k ev)%nat ->
       let L := ae_lay (c_env c) in let h := c_h c in let M := words_of (c_p c) in
       st_at (shared _ S) (l_h L) = compress h M /\ words_at (shared _ S) (l_m1 L) 80 = schedule M /\
       cs_at (shared _ S) (l_cs L) = mkcs h (state_at 56 h M) (state_at 64 h M)) /\
    (forall a, (forall c r, In c l -> In r (regions (ae_lay (c_env c))) -> rwrite r = true -> ~ in_range a r) ->
       (forall b, ~ In (Store a b) ev) -> shared _ S a = m a).
Proof. exact arm64_concurrent. Qed.
Print Assumptions C61_arm64_concurrent.

Theorem C61_amd64_buffered : forall (l : list (call env)) m ev,
  (forall c, In c l -> layout_ok (e_lay (c_env c)) /\ wfst (c_h c) /\ length (c_p c) = 64%nat /\ length (c_m1 c) = 80%nat) ->
  pairwise (map (fun c => e_lay (c_env c)) l) ->
  (forall c, In c l -> agree (e_lay (c_env c)) m (mm (amd64_core upper_mask shuffle_mask c)) /\ bundisturbed (e_lay (c_env c)) ev) ->
  exists S, amd64_bconc amd64_prog ev (amd64_bbegin upper_mask shuffle_mask m l) = Some S /\
    (forall k c, nth_error l k = Some c -> (200 <= bturns k ev)%nat ->
       let L := e_lay (c_env c) in let h := c_h c in let M := words_of (c_p c) in let v := overlay (bshared _ S) (waiting S k) in
       st_at v (l_h L) = compress h M /\ words_at v (l_m1 L) 80 = schedule M /\
       cs_at v (l_cs L) = mkcs h (state_at 56 h M) (state_at 64 h M)) /\
    (forall a, (forall c r, In c l -> In r (regions (e_lay (c_env c))) -> rwrite r = true -> ~ in_range a r) ->
       (forall b, ~ In (BStore a b) ev) -> bshared _ S a = m a).
Proof. exact amd64_buffered. Qed.
Print Assumptions C61_amd64_buffered.

Theorem C61_arm64_buffered : forall (l : list (call aenv)) m ev,
  (forall c, In c l -> layout_ok (ae_lay (c_env c)) /\ wfst (c_h c) /\ length (c_p c) = 64%nat /\ length (c_m1 c) = 80%nat /\
     ae_g (c_env c) 16%nat mod M64 + 64 < M64) ->
  pairwise (map (fun c => ae_lay (c_env c)) l) ->
  (forall c, In c l -> agree (ae_lay (c_env c)) m (xm (arm64_core sha1Ks c)) /\ bundisturbed (ae_lay (c_env c)) ev) ->
  exists S, arm64_bconc arm64_prog ev (arm64_bbegin sha1Ks m l) = Some S /\
    (forall k c, nth_error l k = Some c -> (220 <= bturns k ev)%nat ->
       let L := ae_lay (c_env c) in let h := c_h c in let M := words_of (c_p c) in let v := overlay (bshared _ S) (waiting S k) in
       st_at v (l_h L) = compress h M /\ words_at v (l_m1 L) 80 = schedule M /\
       cs_at v (l_cs L) = mkcs h (state_at 56 h M) (state_at 64 h M)) /\
    (forall a, (forall c r, In c l -> In r (regions (ae_lay (c_env c))) -> rwrite r = true -> ~ in_range a r) ->
       (forall b, ~ In (BStore a b) ev) -> bshared _ S a = m a).
Proof. exact arm64_buffered. Qed.
Print Assumptions C61_arm64_buffered.
