(** Examples for C64. *)

From Coq Require Import String Ascii Arith NArith ZArith List Strings.Byte Bool Lia.
From Verif Require Import Word Spec_Sha1 Spec_C Spec_Build Model_Go Model_CSteps Gen_CSteps Model_C Model_CApi Model_CBuild Model_CMem Spec_CMem
  Data_Shambles GoRefute CCtx Examples_Go Examples_C Examples_Vectors.
Import ListNotations.
Local Open Scope N_scope.

(** gcc on amd64 and on 32-bit x86, m68k. *)
Definition lp64 : abi := mkabi 8 4 4 4 8 8.
Definition i386 : abi := mkabi 4 4 4 4 4 4.
Definition m68k : abi := mkabi 2 2 4 2 4 2.
Example C64_layout : abi_ok lp64 /\ abi_ok i386 /\ abi_ok m68k /\
  fst (place 0 (ctx_fields lp64)) = [("total", 0); ("ihv", 8); ("buffer", 28); ("found_collision", 92); ("safe_hash", 96); ("detect_coll", 100);
    ("ubc_check", 104); ("reduced_round_coll", 108); ("callback", 112); ("ihv1", 120); ("ihv2", 140); ("m1", 160); ("m2", 480); ("states", 800)]%string /\
  ctx_size lp64 = 2400 /\ ctx_size i386 = 2396 /\ offset_of m68k "callback"%string = 112.
Proof.
  assert (H : forall t, a32 t = 4 \/ a32 t = 2 -> (a32 t | 4)) by (intros t [->| ->]; [exists 1|exists 2]; reflexivity).
  split; [repeat split; try discriminate; apply H; auto|]. split; [repeat split; try discriminate; apply H; auto|].
  split; [repeat split; try discriminate; apply H; auto|]. repeat split; reflexivity.
Qed.

(** A memory with sha1_padding at 8192 and data from [b] on. *)
Definition mem_with (b : N) (l : list byte) : cmem := mstore (mstore (fun _ => x55) 8192 sha1_padding) b l.
Definition prog (b : N) (k n : nat) : list mop := [MUpdate b k; MSet (CSetSafeHash 1); MUpdate (b + N.of_nat k) n; MFinal 20000].
Example C64_hyps : 4096 mod a32 lp64 = 0 /\ apart 4096 (ctx_size lp64) 8192 64 /\ mload (mem_with 10001 m130) 8192 64 = sha1_padding /\
  Forall (separate_call 4096 (ctx_size lp64) 8192) (prog 10001 30 100) /\ host_be (build gcc_amd64 false) = macro_be (build gcc_amd64 false) /\
  In "__x86_64__"%string x86_macros /\ gcc_amd64 "__x86_64__"%string <> None /\ gcc_amd64 "SHA1DC_FORCE_ALIGNED_ACCESS"%string = None.
Proof.
  split; [reflexivity|]. split; [left; vm_compute; discriminate|]. split; [reflexivity|]. split.
  - repeat (apply Forall_cons; [cbn [separate_call]|]); try apply Forall_nil; try exact I; try split; left; vm_compute; discriminate.
  - split; [reflexivity|]. split; [right; right; left; reflexivity|]. split; [discriminate|reflexivity].
Qed.
(** With 30 bytes pending, the block that is read in place starts 34 bytes into the next call: 10001 + 30 + 34 is not a multiple of 4. *)
Example C64_straddles : straddles 4 0 (prog 10001 30 100) /\ ~ straddles 4 0 (prog 10000 30 100) /\ ~ straddles 4 0 (prog 10001 30 97) /\
  straddles 4 0 (prog 9999 1 129) /\ ~ straddles 1 0 (prog 10001 30 100) /\ straddles 2 0 (prog 10001 30 100).
Proof. vm_compute. intuition discriminate. Qed.

(** Tests: the run in memory, in a build for amd64 and with SHA1DC_FORCE_ALIGNED_ACCESS. *)
Definition out_of (t : abi) (cfg : ccfg) (l : list byte) (b : N) (k n : nat) : option (list byte * Z) :=
  match m_run t cfg 4096 8192 (mem_with b l) junk (MSet CInit :: prog b k n) with
  | Some (m, _, rs) => match last rs None with Some v => Some (mload m 20000 20, v) | None => None end
  | None => None
  end.
Definition isout (r : option (list byte * Z)) (d : list byte) (v : Z) : bool :=
  match r with Some (x, u) => Examples_Vectors.bytes_eqb x d && (u =? v)%Z | None => false end.
Definition gone (r : option (list byte * Z)) : bool := match r with None => true | _ => false end.
Definition C64_test_amd64 : unit := ltac:(passed (isout (out_of lp64 (build gcc_amd64 false) m130 10000 30 100) (sha1 m130) 0
  && gone (out_of lp64 (build gcc_amd64 false) m130 10001 30 100) && isout (out_of lp64 (build gcc_amd64 false) m130 10001 30 97) (sha1 (firstn 127 m130)) 0
  && isout (out_of (mkabi 8 1 4 4 8 8) (build gcc_amd64 false) m130 10001 30 100) (sha1 m130) 0)%bool).
Definition C64_test_s390x : unit := ltac:(passed (isout (out_of lp64 (build gcc_s390x true) m130 10001 30 100) (sha1 m130) 0)%bool).
Definition C64_test_shambles : unit := ltac:(passed (isout (out_of lp64 (build gcc_s390x true) shambles1 10003 64 576) sh_digest 1
  && isout (out_of lp64 (build gcc_amd64 false) shambles1 10004 64 576) sh_digest 1 && gone (out_of lp64 (build gcc_amd64 false) shambles1 10003 64 576))%bool).
