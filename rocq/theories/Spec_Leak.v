(** What a run of the Go code may reveal about the bytes that went through a hasher, apart from their number. *)

From Coq Require Import Arith NArith List Strings.Byte Bool.
From Verif Require Import Word Spec_Sha1 Model_Ubc Gen_UbcGo Model_Go Model_Leak.
Import ListNotations.
Local Open Scope N_scope.

(** The outcomes of the branches in the order of evaluation, in an expression and in a program of /repo/ubc/ubc.go: not(x) asks whether
    x = 0, x || y whether x is true and only if it is not for y, an if statement for its condition. *)
Fixpoint asked (W : list word) (mask : word) (e : uexp) : list bool :=
  match e with
  | UW _ | UC _ | UMask => []
  | UNot e => asked W mask e
  | ULNot e => asked W mask e ++ [ueval W mask e =? 0]
  | UAnd x y | UOr x y | UXor x y | USub x y | UShl x y | UShr x y | UNe x y => asked W mask x ++ asked W mask y
  | ULor x y => asked W mask x ++ if ueval W mask x =? 0 then false :: asked W mask y else [true]
  end.
Fixpoint path (W : list word) (p : prog) (mask : word) : list bool :=
  match p with
  | PEnd => []
  | PAnd e p => asked W mask e ++ path W p (N.land mask (ueval W mask e))
  | PIf c b p =>
    asked W mask c ++
    if ueval W mask c =? 0 then false :: path W p mask else true :: path W b mask ++ path W p (urun W b mask)
  end.

(** Per block: the path through CalculateDvMask and its result. Both are functions of the block alone. *)
Definition leaked (b : list byte) : list bool * word :=
  let W := schedule (words_of b) in (path W ubc_prog_go 0xFFFFFFFF, CalculateDvMask (Some W)).

(** The blocks compressed in a session that starts with the bytes [buf] buffered and [n] bytes counted. *)
Definition rest (l : list byte) : list byte := skipn (64 * (length l / 64)) l.
Fixpoint fed (buf : list byte) (n : N) (os : list lop) : list (list byte) :=
  match os with
  | [] => []
  | LWrite p :: os => blocks (buf ++ p) ++ fed (rest (buf ++ p)) ((n + N.of_nat (length p)) mod M64) os
  | LSum _ :: os => blocks (buf ++ padding n) ++ fed buf n os
  end.

(** The same calls with arguments of the same lengths. *)
Definition same_call (o o' : lop) : Prop :=
  match o, o' with
  | LWrite p, LWrite p' => length p = length p'
  | LSum i, LSum i' => length i = length i'
  | _, _ => False
  end.
Definition same_calls : list lop -> list lop -> Prop := Forall2 same_call.

(** The states of a hasher between calls. *)
Definition hasher (d : digest) : Prop := wfst (dh d) /\ length (dx d) = 64%nat /\ (dnx d < 64)%nat /\ dlen d < M64 /\ dlen d mod 64 = N.of_nat (dnx d).
Definition buffered (d : digest) : list byte := firstn (dnx d) (dx d).

(** No collision was reported, neither by a Sum nor in the final state. *)
Definition quiet (r : digest * list (list byte * bool)) : Prop :=
  dcol (fst r) = false /\ Forall (fun x => snd x = false) (snd r).

(** The session itself, without the record, with block [blk]. *)
Fixpoint session (blk : blockfn) (d : digest) (os : list lop) : option (digest * list (list byte * bool)) :=
  match os with
  | [] => Some (d, [])
  | LWrite p :: os => do r <- Write blk d p; session blk (fst r) os
  | LSum inp :: os =>
    do x <- CollisionResistantSum blk d inp;
    do r <- session blk d os;
    Some (fst r, x :: snd r)
  end.

(** ** The indices themselves *)

(** Every array has the indices used: the slice of [n] bytes passed to block, w, m1 and the argument of CalculateDvMask, the table with
    its last row, and the Dm of its rows. *)
Definition in_bounds (n : nat) (e : ev) : Prop :=
  match e with
  | EIx AP i => (i < n)%nat
  | EIx AW i => (i < 16)%nat
  | EIx AM1 i | EIx AUbc i => (i < 80)%nat
  | EIx ATable r => (r < 33)%nat
  | EIx (ADm r) i => (r < 33 /\ i < 80)%nat
  | _ => True
  end.

(** The bytes of the input read, in order. *)
Definition input_reads (t : list ev) : list nat := flat_map (fun e => match e with EIx AP i => [i] | _ => [] end) t.

(** Which blocks are flagged when they are given to block one by one. *)
Fixpoint flags (d : digest) (bs : list (list byte)) : list bool :=
  match bs with
  | [] => []
  | b :: bs =>
    match blockGeneric (mkd (dh d) (dx d) (dnx d) (dlen d) false) b with
    | Some d => dcol d :: flags d bs
    | None => []
    end
  end.

(** Once from the first to the last byte, a flagged block three times. *)
Fixpoint reads_of (off : nat) (fs : list bool) : list nat :=
  match fs with
  | [] => []
  | f :: fs => concat (repeat (seq off 64) (if f then 3 else 1)) ++ reads_of (off + 64) fs
  end.
