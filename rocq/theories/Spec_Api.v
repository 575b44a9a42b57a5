(** What a user of the hash API sees: an abstract hasher and its operations.
    Independent of the code in /repo. *)

From Coq Require Import Arith NArith List Strings.Byte Bool.
From Verif Require Import Word Spec_Sha1 Spec_Cd.
Import ListNotations.
Local Open Scope N_scope.

(** An abstract hasher: a chaining value and a verdict to start from, the number of bytes that
    went into them, and the bytes written since.  A fresh hasher starts from the
    initial value of SHA-1; other starting points arise only by restoring a checkpoint. *)
Record ahash := mkah { ah_start : st * bool; ah_before : N; ah_bytes : list byte }.

Definition a_new : ahash := mkah (IV, false) 0 [].
Definition a_write (a : ahash) (p : list byte) : ahash :=
  mkah (ah_start a) (ah_before a) (ah_bytes a ++ p).
Definition a_len (a : ahash) : N := ah_before a + N.of_nat (length (ah_bytes a)).

(** Bytes that do not fill a block yet. *)
Definition pending (m : list byte) : list byte := skipn (64 * (length m / 64)) m.

(** A checkpoint: magic "shacd\x01", chaining value, buffer of 64 bytes, length. *)
Definition magic : list byte := [x73; x68; x61; x63; x64; x01].
Definition blob_of (h : st) (buf : list byte) (len : N) : list byte :=
  magic ++ st_bytes h ++ buf ++ be64 len.

Section Api.
  Variable D : st -> list word -> bool.

  (** Chaining value and verdict over the complete blocks so far. *)
  Definition a_mid (a : ahash) : st * bool := cd_blocks D (ah_start a) (blocks (ah_bytes a)).

  (** Digest and verdict. *)
  Definition a_sum (a : ahash) : list byte * bool :=
    let r := cd_blocks D (ah_start a) (blocks (ah_bytes a ++ padding (a_len a))) in
    (st_bytes (fst r), snd r).

  (** The canonical checkpoint. *)
  Definition a_marshal (a : ahash) : list byte :=
    let p := pending (ah_bytes a) in
    blob_of (fst (a_mid a)) (p ++ zeros (64 - length p)) (a_len a mod M64).

  (** Restoring from chaining value, buffer and length: the verdict reached so far by
      the destination is kept. *)
  Definition a_restore (a : ahash) (h : st) (buf : list byte) (len : N) : ahash :=
    mkah (h, snd (a_mid a)) (len - len mod 64) (firstn (N.to_nat (len mod 64)) buf).
End Api.

(** Operations on a set of hashers, numbered in the order of their creation. *)
Inductive op :=
| ONew
| OWrite (i : nat) (p : list byte)
| OSum (i : nat) (inp : list byte)
| OCRSum (i : nat) (inp : list byte)
| OReset (i : nat)
| OMarshal (i : nat)
| OUnmarshal (i : nat) (b : list byte)
| OSize (i : nat)
| OBlockSize (i : nat)
| OSumPkg (data : list byte).

Inductive res :=
| RNew (i : nat)
| RNum (n : nat)
| RBytes (b : list byte)
| RVerdict (b : list byte) (v : bool)
| RUnit
| RBadMagic
| RBadSize.

(** Operations on one hasher. *)
Definition target (o : op) : option nat :=
  match o with
  | OWrite i _ | OSum i _ | OCRSum i _ | OReset i | OMarshal i | OUnmarshal i _ | OSize i | OBlockSize i => Some i
  | ONew | OSumPkg _ => None
  end.

Fixpoint put {A} (i : nat) (v : A) (l : list A) : list A :=
  match l, i with
  | [], _ => []
  | _ :: r, O => v :: r
  | x :: r, S j => x :: put j v r
  end.

(** A checkpoint is accepted when it has the right magic and the right size. *)
Definition has_magic (b : list byte) : bool :=
  if list_eq_dec Byte.byte_eq_dec (firstn 6 b) magic then true else false.
Definition accepted (b : list byte) : bool := has_magic b && (length b =? 98)%nat.

(** The bytes written to hasher [i] since it was created or last reset; [None] when its
    state was replaced by that of a checkpoint since then. *)
Definition written_step (i : nat) (m : option (list byte)) (o : op) : option (list byte) :=
  match o with
  | OWrite j p => if (i =? j)%nat then match m with Some m => Some (m ++ p) | None => None end else m
  | OReset j => if (i =? j)%nat then Some [] else m
  | OUnmarshal j b => if ((i =? j)%nat && accepted b)%bool then None else m
  | _ => m
  end.
Definition written (i : nat) (ops : list op) : option (list byte) := fold_left (written_step i) ops (Some []).

(** The calls that only observe. *)
Definition observer (o : op) : bool :=
  match o with OSum _ _ | OCRSum _ _ | OMarshal _ | OSize _ | OBlockSize _ | OSumPkg _ => true | _ => false end.

(** A history is well scoped when each operation refers to an existing hasher. *)
Fixpoint scoped (n : nat) (ops : list op) : Prop :=
  match ops with
  | [] => True
  | o :: r => match target o with Some i => (i < n)%nat | None => True end /\
              scoped (match o with ONew => S n | _ => n end) r
  end.
(** The number of hashers a history creates. *)
Fixpoint created (ops : list op) : nat :=
  match ops with
  | [] => 0
  | ONew :: r => S (created r)
  | _ :: r => created r
  end.

(** ** The abstract program *)

Definition sub (l : list byte) (off n : nat) : list byte := firstn n (skipn off l).
Definition blob_st (b : list byte) : st :=
  mkst (be_val (sub b 6 4)) (be_val (sub b 10 4)) (be_val (sub b 14 4)) (be_val (sub b 18 4)) (be_val (sub b 22 4)).
Definition blob_buf (b : list byte) : list byte := sub b 26 64.
Definition blob_len (b : list byte) : N := be_val (sub b 90 8).

Section Exec.
  Variable early : bool.
  Variable D : st -> list word -> bool.

  Definition a_unmarshal (a : ahash) (b : list byte) : ahash * res :=
    if negb (has_magic b) then (a, RBadMagic)
    else if negb (length b =? 98)%nat then (a, RBadSize)
    else (a_restore D a (blob_st b) (blob_buf b) (blob_len b), RUnit).

  (** [None]: the hasher does not exist. *)
  Definition a_exec (hs : list ahash) (o : op) : option (list ahash * res) :=
    let on i (f : ahash -> ahash * res) :=
      match nth_error hs i with
      | Some a => let '(a', r) := f a in Some (put i a' hs, r)
      | None => None
      end in
    match o with
    | ONew => Some (hs ++ [a_new], RNew (length hs))
    | OWrite i p => on i (fun a => (a_write a p, RNum (length p)))
    | OSum i inp => on i (fun a => (a, RBytes (inp ++ fst (a_sum D a))))
    | OCRSum i inp => on i (fun a => (a, RVerdict (inp ++ fst (a_sum D a)) (snd (a_sum D a))))
    | OReset i => on i (fun a => (a_new, RUnit))
    | OMarshal i => on i (fun a => (a, RBytes (a_marshal D a)))
    | OUnmarshal i b => on i (fun a => a_unmarshal a b)
    | OSize i => on i (fun a => (a, RNum 20))
    | OBlockSize i => on i (fun a => (a, RNum 64))
    | OSumPkg m => Some (hs, RVerdict (fst (cd_sum D m))
                       (if early then snd (cd_blocks D (IV, false) (blocks m)) else snd (cd_sum D m)))
    end.

  Fixpoint a_run (hs : list ahash) (os : list op) : option (list ahash * list res) :=
    match os with
    | [] => Some (hs, [])
    | o :: r =>
      match a_exec hs o with
      | None => None
      | Some (hs, x) =>
        match a_run hs r with
        | None => None
        | Some (hs, xs) => Some (hs, x :: xs)
        end
      end
    end.
End Exec.

(** ** One hasher on its own *)
Definition target_is (i : nat) (o : op) : bool :=
  match target o with Some j => (i =? j)%nat | None => false end.
(** The same call on hasher [j]. *)
Definition retarget (j : nat) (o : op) : op :=
  match o with
  | OWrite _ p => OWrite j p
  | OSum _ b => OSum j b
  | OCRSum _ b => OCRSum j b
  | OReset _ => OReset j
  | OMarshal _ => OMarshal j
  | OUnmarshal _ b => OUnmarshal j b
  | OSize _ => OSize j
  | OBlockSize _ => OBlockSize j
  | o => o
  end.
(** The results of the calls on hasher [i]. *)
Definition pick (i : nat) (os : list op) (rs : list res) : list res :=
  map snd (filter (fun x => target_is i (fst x)) (combine os rs)).

(** Results that agree except possibly in the verdict. *)
Inductive same_digest : res -> res -> Prop :=
| same_verdict b v v' : same_digest (RVerdict b v) (RVerdict b v')
| same_res r : same_digest r r.

(** ** Checkpoints *)

(** Chaining value, buffered bytes and length of an accepted checkpoint, continued with [m]. *)
Definition resumed D (b : list byte) (f : bool) (m : list byte) : st * bool :=
  let data := firstn (N.to_nat (blob_len b mod 64)) (blob_buf b) ++ m in
  cd_blocks D (blob_st b, f) (blocks (data ++ padding (blob_len b + N.of_nat (length m)))).

(** An accepted checkpoint with its unused buffer bytes cleared. *)
Definition canon (b : list byte) : list byte :=
  let n := N.to_nat (blob_len b mod 64) in firstn (26 + n) b ++ zeros (64 - n) ++ skipn 90 b.
