(** Goroutines that use one cgo hasher at the same time.

    The methods of /repo/cgo/sha1.go and the C functions they call as sequences of reads and writes of the members of the
    struct digest (sha1.go lines 23-26) and its SHA1_CTX (/repo/cgo/sha1.h lines 42-59), interleaved in any order with those of
    other goroutines.
    - One access reads or writes one member, or one byte of buffer; the other arrays are accessed as a whole.
    - Every mention of total and every byte copied by memcpy in SHA1DCUpdate is one access.  sha1_process reads the members (also
      those it does not use) and the bytes of the block, and stores what it has changed at its end.
    - The struct copy d0 := *d (sha1.go lines 39 and 45) reads all members in any order, with repetitions; what follows works
      on the copy.
    - The memory is sequentially consistent; arguments and results are not shared. *)

From Coq Require Import Arith NArith ZArith List Strings.Byte Bool.
From Verif Require Import Word Spec_Api Model_Go Model_C Model_Race.
Import ListNotations.
Local Open Scope N_scope.

(** ** The struct: /repo/cgo/sha1.go lines 23-26, /repo/cgo/sha1.h lines 42-59 *)
Inductive cloc :=
| KTotal | KIhv | KBuf (i : nat) | KFound | KSafe | KDetect | KUbc | KReduced | KCallback
| KIhv1 | KIhv2 | KM1 | KM2 | KStates | KH.
Definition cloc_eqb (a b : cloc) : bool :=
  match a, b with
  | KBuf i, KBuf j => (i =? j)%nat
  | KTotal, KTotal | KIhv, KIhv | KFound, KFound | KSafe, KSafe | KDetect, KDetect | KUbc, KUbc | KReduced, KReduced
  | KCallback, KCallback | KIhv1, KIhv1 | KIhv2, KIhv2 | KM1, KM1 | KM2, KM2 | KStates, KStates | KH, KH => true
  | _, _ => false
  end.
(** Contents: a uint64_t or pointer, an int, a byte, a hash value, words, states, bytes. *)
Inductive cval := VN (n : N) | VZ (z : Z) | VB (b : byte) | VS (s : st) | VW (l : list word) | VL (l : list st) | VY (l : list byte).
Definition as_N (v : cval) : N := match v with VN n => n | _ => 0 end.
Definition as_Z (v : cval) : Z := match v with VZ n => n | _ => 0%Z end.
Definition as_B (v : cval) : byte := match v with VB b => b | _ => x00 end.
Definition as_S (v : cval) : st := match v with VS s => s | _ => st0 end.
Definition as_W (v : cval) : list word := match v with VW l => l | _ => [] end.
Definition as_L (v : cval) : list st := match v with VL l => l | _ => [] end.
Definition as_Y (v : cval) : list byte := match v with VY l => l | _ => [] end.

Definition cmem := cloc -> cval.
Definition all_members : list cloc :=
  [KTotal; KIhv] ++ map KBuf (seq 0 64) ++
  [KFound; KSafe; KDetect; KUbc; KReduced; KCallback; KIhv1; KIhv2; KM1; KM2; KStates; KH].
(** The struct at rest, and as memory contents. *)
Definition buffer_of (m : cmem) : list byte := map (fun i => as_B (m (KBuf i))) (seq 0 64).
Definition ctx_of (m : cmem) : ctx :=
  mkctx (as_N (m KTotal)) (as_S (m KIhv)) (buffer_of m) (as_Z (m KFound)) (as_Z (m KSafe)) (as_Z (m KDetect)) (as_Z (m KUbc))
    (as_Z (m KReduced)) (as_N (m KCallback)) (as_S (m KIhv1)) (as_S (m KIhv2)) (as_W (m KM1)) (as_W (m KM2)) (as_L (m KStates)).
Definition cdigest_of (m : cmem) : cdigest := mkcd (ctx_of m) (as_Y (m KH)).
Definition cmem_of (d : cdigest) : cmem := fun l =>
  let c := g_ctx d in
  match l with
  | KTotal => VN (c_total c) | KIhv => VS (c_ihv c) | KBuf i => VB (nth i (c_buffer c) x00)
  | KFound => VZ (c_found c) | KSafe => VZ (c_safe c) | KDetect => VZ (c_detect c) | KUbc => VZ (c_ubc c)
  | KReduced => VZ (c_reduced c) | KCallback => VN (c_callback c)
  | KIhv1 => VS (c_ihv1 c) | KIhv2 => VS (c_ihv2 c) | KM1 => VW (c_m1 c) | KM2 => VW (c_m2 c) | KStates => VL (c_states c)
  | KH => VY (g_h d)
  end.

(** Reads of the locations [ls], then the rest with the values read. *)
Fixpoint creads {A} (ls : list cloc) (m : cmem) (k : cmem -> act cloc cval A) : act cloc cval A :=
  match ls with
  | [] => k m
  | l :: ls => Rd l (fun v => creads ls (put_at cloc_eqb m l v) k)
  end.
Definition cempty : cmem := fun _ => VN 0.
(** memcpy(ctx->buffer + at, src, ...) *)
Fixpoint wr_buf {A} (at_ : nat) (l : list byte) (k : act cloc cval A) : act cloc cval A :=
  match l with [] => k | b :: l => Wr (KBuf at_) (VB b) (wr_buf (S at_) l k) end.

(** /repo/cgo/sha1.c lines 1950-2000: sha1_process(ctx, p), p given, or ctx->buffer. *)
Definition r_process (cfg : ccfg) (p : option (list byte)) : act cloc cval unit :=
  creads all_members cempty (fun m =>
  let c := ctx_of m in
  bind (lift (sha1_process cfg c (match p with Some p => p | None => c_buffer c end))) (fun c =>
  Wr KIhv1 (VS (c_ihv1 c)) (Wr KM1 (VW (c_m1 c)) (Wr KStates (VL (c_states c)) (Wr KIhv2 (VS (c_ihv2 c)) (Wr KM2 (VW (c_m2 c)) (
  Wr KFound (VZ (c_found c)) (Wr KIhv (VS (c_ihv c)) (Ret tt))))))))).

(** Lines 2075-2086: the while loop. *)
Fixpoint r_update_loop (fuel : nat) (cfg : ccfg) (buf : list byte) : act cloc cval (list byte) :=
  if (length buf <? 64)%nat then Ret buf else
  match fuel with
  | O => Panic
  | S fuel =>
    Rd KTotal (fun t => Wr KTotal (VN (add64 (as_N t) 64)) (
    bind (if unaligned cfg then r_process cfg (Some (firstn 64 buf))
          else wr_buf 0 (firstn 64 buf) (r_process cfg None)) (fun _ =>
    r_update_loop fuel cfg (skipn 64 buf))))
  end.

(** Lines 2055-2092: SHA1DCUpdate. *)
Definition r_Update (cfg : ccfg) (buf : list byte) : act cloc cval unit :=
  if (length buf =? 0)%nat then Ret tt else
  Rd KTotal (fun t =>
  let left := N.to_nat (N.land (as_N t) 63) in
  let fill := (64 - left)%nat in
  bind (if (negb (left =? 0) && (fill <=? length buf))%nat then
          Rd KTotal (fun t => Wr KTotal (VN (add64 (as_N t) (N.of_nat fill))) (
          wr_buf left (firstn fill buf) (bind (r_process cfg None) (fun _ => Ret (skipn fill buf, 0%nat)))))
        else Ret (buf, left)) (fun x =>
  let buf := fst x in let left := snd x in
  bind (r_update_loop (length buf) cfg buf) (fun buf =>
  if (0 <? length buf)%nat then
    Rd KTotal (fun t => Wr KTotal (VN (add64 (as_N t) (N.of_nat (length buf)))) (
    if (left + length buf <=? 64)%nat then wr_buf left buf (Ret tt) else Panic))
  else Ret tt))).

(** Lines 2002-2016: SHA1DCInit. *)
Definition r_Init : act cloc cval unit :=
  Wr KTotal (VN 0) (Wr KIhv (VS (mkst 0x67452301 0xEFCDAB89 0x98BADCFE 0x10325476 0xC3D2E1F0)) (
  Wr KFound (VZ 0) (Wr KSafe (VZ 1) (Wr KUbc (VZ 1) (Wr KDetect (VZ 1) (Wr KReduced (VZ 0) (Wr KCallback (VN 0) (Ret tt)))))))).

(** A call of a method of /repo/cgo/sha1.go lines 37-75, with the order in which a copy reads the members. *)
Record ccall := mkcc { cc_order : list cloc; cc_op : op }.
Definition rc_call (cfg : ccfg) (c : ccall) : act cloc cval res :=
  let copied (f : cdigest -> act cloc cval res) := creads (cc_order c) cempty (fun m => f (cdigest_of m)) in
  match cc_op c with
  | OWrite _ p => if (length p =? 0)%nat then Ret (RNum 0) else bind (r_Update cfg p) (fun _ => Ret (RNum (length p)))
  | OSum _ inp => copied (fun d => bind (lift (cgo_Sum cfg d inp)) (fun b => Ret (RBytes b)))
  | OCRSum _ inp => copied (fun d => bind (lift (cgo_CollisionResistantSum cfg d inp)) (fun r => Ret (RVerdict (fst r) (snd r))))
  | OReset _ => bind r_Init (fun _ => Ret RUnit)
  | OSize _ => Ret (RNum 20)
  | OBlockSize _ => Ret (RNum 64)
  | ONew | OSumPkg _ | OMarshal _ | OUnmarshal _ _ => Panic     (* not calls of a method *)
  end.
(** A goroutine: calls one after the other; the results. *)
Fixpoint rc_calls (cfg : ccfg) (cs : list ccall) : act cloc cval (list res) :=
  match cs with
  | [] => Ret []
  | c :: cs => bind (rc_call cfg c) (fun x => bind (rc_calls cfg cs) (fun xs => Ret (x :: xs)))
  end.
