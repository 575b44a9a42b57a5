(** Goroutines that use one hasher at the same time.

    The methods of /repo/sha1cd.go as sequences of reads and writes of the words and bytes of the struct digest (lines
    29-37), one access at a time, interleaved in any order with those of other goroutines.
    - Every mention of a field in the source is one access; the struct copy d0 := *d (lines 161, 209) reads all fields in any
      order, with repetitions.
    - A call of block (lines 143, 150) reads d.h and, for block(d, d.x[:]), the 64 bytes of d.x once, and stores d.col and d.h
      at its end (blockGeneric keeps h in local variables, sha1cdblock_generic.go lines 30 and 142; the assembly builds also
      store d.h after each block).
    - The memory is sequentially consistent; arguments and results are not shared. *)

From Coq Require Import Arith NArith List Strings.Byte Bool.
From Verif Require Import Word Spec_Api Model_Go Model_Block.
Import ListNotations.
Local Open Scope N_scope.

(** ** Accesses *)
Inductive act (L V A : Type) : Type :=
| Ret (a : A)
| Panic
| Rd (l : L) (k : V -> act L V A)
| Wr (l : L) (v : V) (k : act L V A).
Arguments Ret {L V A}. Arguments Panic {L V A}. Arguments Rd {L V A}. Arguments Wr {L V A}.

Fixpoint bind {L V A B} (x : act L V A) (f : A -> act L V B) : act L V B :=
  match x with
  | Ret a => f a
  | Panic => Panic
  | Rd l k => Rd l (fun v => bind (k v) f)
  | Wr l v k => Wr l v (bind k f)
  end.
Definition lift {L V A} (x : option A) : act L V A := match x with Some a => Ret a | None => Panic end.

Section Threads.
  Context {L V A : Type}.
  Variable eqb : L -> L -> bool.
  Definition put_at (m : L -> V) (l : L) (v : V) : L -> V := fun x => if eqb l x then v else m x.

  (** One access of one goroutine; nothing if it has ended. *)
  Definition one (m : L -> V) (a : act L V A) : (L -> V) * act L V A :=
    match a with
    | Ret _ | Panic => (m, a)
    | Rd l k => (m, k (m l))
    | Wr l v k => (put_at m l v, k)
    end.
  (** An interleaving: the number of the goroutine that makes the next access. *)
  Fixpoint interleave (m : L -> V) (ts : list (act L V A)) (sched : list nat) : (L -> V) * list (act L V A) :=
    match sched with
    | [] => (m, ts)
    | i :: r =>
      match nth_error ts i with
      | Some a => let '(m, a) := one m a in interleave m (upd i a ts) r
      | None => interleave m ts r
      end
    end.
  (** A goroutine alone. *)
  Fixpoint solo (m : L -> V) (a : act L V A) : (L -> V) * option A :=
    match a with
    | Ret x => (m, Some x)
    | Panic => (m, None)
    | Rd l k => solo m (k (m l))
    | Wr l v k => solo (put_at m l v) k
    end.
End Threads.

(** ** The struct digest: /repo/sha1cd.go lines 29-37 *)
Inductive gloc := LH (i : nat) | LX (i : nat) | LNX | LLEN | LCOL.
Definition gloc_eqb (a b : gloc) : bool :=
  match a, b with
  | LH i, LH j | LX i, LX j => (i =? j)%nat
  | LNX, LNX | LLEN, LLEN | LCOL, LCOL => true
  | _, _ => false
  end.
Definition gmem := gloc -> N.
Definition all_locs : list gloc := map LH (seq 0 5) ++ map LX (seq 0 64) ++ [LNX; LLEN; LCOL].
(** The struct at rest, and as memory contents. *)
Definition h_of (m : gmem) : st := mkst (m (LH 0)) (m (LH 1)) (m (LH 2)) (m (LH 3)) (m (LH 4)).
Definition x_of (m : gmem) : list byte := map (fun i => n2b (m (LX i))) (seq 0 64).
Definition digest_of (m : gmem) : digest := mkd (h_of m) (x_of m) (N.to_nat (m LNX)) (m LLEN) (negb (m LCOL =? 0)).
Definition mem_of (d : digest) : gmem := fun l =>
  match l with
  | LH i => nth i [sa (dh d); sb (dh d); sc (dh d); sd (dh d); se (dh d)] 0
  | LX i => b2n (nth i (dx d) x00)
  | LNX => N.of_nat (dnx d)
  | LLEN => dlen d
  | LCOL => if dcol d then 1 else 0
  end.

(** Reads of the locations [ls], then the rest with the values read. *)
Fixpoint reads {A} (ls : list gloc) (m : gmem) (k : gmem -> act gloc N A) : act gloc N A :=
  match ls with
  | [] => k m
  | l :: ls => Rd l (fun v => reads ls (put_at gloc_eqb m l v) k)
  end.
Definition locals : gmem := fun _ => 0.
Fixpoint wr_bytes {A} (at_ : nat) (l : list byte) (k : act gloc N A) : act gloc N A :=
  match l with [] => k | b :: l => Wr (LX at_) (b2n b) (wr_bytes (S at_) l k) end.
Definition wr_h {A} (h : st) (k : act gloc N A) : act gloc N A :=
  Wr (LH 0) (sa h) (Wr (LH 1) (sb h) (Wr (LH 2) (sc h) (Wr (LH 3) (sd h) (Wr (LH 4) (se h) k)))).

(** block(d, p), p given, or d.x[:]. *)
Definition r_block (blk : blockfn) (p : option (list byte)) : act gloc N unit :=
  reads (map LH (seq 0 5)) locals (fun m =>
  bind (match p with Some p => Ret p | None => reads (map LX (seq 0 64)) locals (fun m => Ret (x_of m)) end) (fun p =>
  bind (lift (blk (mkd (h_of m) (repeat x00 64) 0 0 false) p)) (fun d =>
  if dcol d then Wr LCOL 1 (wr_h (dh d) (Ret tt)) else wr_h (dh d) (Ret tt)))).

(** Lines 132-157: Write. *)
Definition r_Write (blk : blockfn) (p : list byte) : act gloc N nat :=
  if (length p =? 0)%nat then Ret 0%nat else
  let nn := length p in
  Rd LLEN (fun len => Wr LLEN ((len + N.of_nat nn) mod M64) (
  bind (Rd LNX (fun nx =>                                            (* line 139 *)
    if 0 <? nx then
      Rd LNX (fun nx =>                                              (* line 140 *)
      if 64 <? nx then Panic else
      let n := Nat.min (64 - N.to_nat nx) (length p) in
      wr_bytes (N.to_nat nx) (firstn n p) (
      Rd LNX (fun nx => Wr LNX (nx + N.of_nat n) (                   (* line 141 *)
      bind (Rd LNX (fun nx =>                                        (* line 142 *)
        if nx =? 64 then bind (r_block blk None) (fun _ => Wr LNX 0 (Ret tt)) else Ret tt)) (fun _ =>
      lift (slice_from p n))))))
    else Ret p)) (fun p =>
  bind (if (64 <=? length p)%nat then
          let n := Nat.ldiff (length p) (64 - 1) in
          bind (lift (slice_to p n)) (fun q =>
          bind (r_block blk (Some q)) (fun _ => lift (slice_from p n)))
        else Ret p) (fun p =>
  if (0 <? length p)%nat then
    let n := Nat.min 64 (length p) in
    wr_bytes 0 (firstn n p) (Wr LNX (N.of_nat n) (Ret nn))           (* line 154 *)
  else Ret nn)))).

(** Lines 39-51: MarshalBinary.  It reads d.nx twice (lines 47 and 48). *)
Definition r_Marshal : act gloc N (list byte) :=
  reads (map LH (seq 0 5)) locals (fun m =>
  Rd LNX (fun nx =>
  if 64 <? nx then Panic else
  reads (map LX (seq 0 (N.to_nat nx))) locals (fun mx =>
  let h := h_of m in
  let b := Magic ++ appendUint32 (sa h) ++ appendUint32 (sb h) ++ appendUint32 (sc h) ++ appendUint32 (sd h) ++ appendUint32 (se h)
           ++ firstn (N.to_nat nx) (x_of mx) in
  Rd LNX (fun nx =>
  let n := (length b + 64 - N.to_nat nx)%nat in
  if ((length b + 64 <? N.to_nat nx) || (MarshaledSize <? n))%nat then Panic else
  let b := firstn n (b ++ repeat x00 (n - length b)) in
  Rd LLEN (fun len => Ret (b ++ appendUint64 len)))))).

(** Lines 107-117: Reset. *)
Definition r_Reset : act gloc N unit :=
  wr_h (mkst Init0 Init1 Init2 Init3 Init4) (Wr LNX 0 (Wr LLEN 0 (Wr LCOL 0 (Ret tt)))).

(** Lines 75-92: UnmarshalBinary; the fields are decoded from b alone. *)
Definition r_Unmarshal (b : list byte) : act gloc N (option uerror) :=
  bind (lift (UnmarshalBinary zero_digest b)) (fun r =>
  match r with
  | (d, None) => wr_h (dh d) (wr_bytes 0 (dx d) (Wr LLEN (dlen d) (Rd LLEN (fun len => Wr LNX (len mod 64) (Ret None)))))
  | (_, Some e) => Ret (Some e)
  end).

(** A call, with the order in which a copy reads the fields. *)
Record gcall := mkgc { gc_impl : impl; gc_order : list gloc; gc_op : op }.
Definition r_call (c : gcall) : act gloc N res :=
  let blk := block_of (gc_impl c) in
  let copied (f : digest -> act gloc N res) := reads (gc_order c) locals (fun m => f (digest_of m)) in
  match gc_op c with
  | OWrite _ p => bind (r_Write blk p) (fun n => Ret (RNum n))
  | OSum _ inp => copied (fun d => bind (lift (Sum blk d inp)) (fun b => Ret (RBytes b)))
  | OCRSum _ inp => copied (fun d => bind (lift (CollisionResistantSum blk d inp)) (fun r => Ret (RVerdict (fst r) (snd r))))
  | OReset _ => bind r_Reset (fun _ => Ret RUnit)
  | OMarshal _ => bind r_Marshal (fun b => Ret (RBytes b))
  | OUnmarshal _ b => bind (r_Unmarshal b) (fun e => Ret
      (match e with None => RUnit | Some InvalidIdentifier => RBadMagic | Some InvalidSize => RBadSize end))
  | OSize _ => Ret (RNum Size)
  | OBlockSize _ => Ret (RNum Chunk)
  | ONew | OSumPkg _ => Panic     (* not calls of a method *)
  end.
(** A goroutine: calls one after the other; the results. *)
Fixpoint r_calls (cs : list gcall) : act gloc N (list res) :=
  match cs with
  | [] => Ret []
  | c :: cs => bind (r_call c) (fun x => bind (r_calls cs) (fun xs => Ret (x :: xs)))
  end.
