(** What the control flow and the addresses of the Go code reveal: the functions of Model_Go with a record of every branch
    taken and every index into an array, slice or table (the usual program-counter and address model of timing attacks, at the
    level of the source text; what the compiler makes of it is not modelled, nor is the time of single operations).

    Array accesses with constant indices (h[0], cs[1], state[2], ...) and accesses to struct fields reveal nothing and are left
    out. The erased functions are those of Model_Go (C73). *)

From Coq Require Import Arith NArith List Strings.Byte Bool.
From Verif Require Import Word Model_Ubc Gen_UbcGo Gen_DvsGo Model_Go.
Import ListNotations.
Local Open Scope N_scope.

(** Arrays: the input, w, m1, the Dm of a row of the table, the table, and W in CalculateDvMask. *)
Inductive arr := AP | AW | AM1 | ADm (row : nat) | ATable | AUbc.
(** Events: a branch with its condition, an index, a copy of n bytes, and a run of an assembly routine (used in Model_LeakAsm): the
    numbers of the instructions executed and the addresses and sizes of what each of them touches. *)
Inductive ev := EBr (b : bool) | EIx (a : arr) (i : nat) | ECopy (n : nat) | EAsm (t : list (nat * list (N * N))).

(** Computations with events; [None] is a panic. *)
Definition lk (A : Type) : Type := (list ev * option A)%type.
Definition lret {A} (x : A) : lk A := ([], Some x).
Definition lbind {A B} (m : lk A) (f : A -> lk B) : lk B :=
  match snd m with
  | Some x => let r := f x in (fst m ++ fst r, snd r)
  | None => (fst m, None)
  end.
Notation "'let*' x := m 'in' f" := (lbind m (fun x => f)) (at level 200, x pattern, m at level 100, f at level 200).
Definition lpanic {A} : lk A := ([], None).
Definition lopt {A} (x : option A) : lk A := ([], x).
Definition rd {A} (a : arr) (l : list A) (i : nat) (d : A) : lk A := ([EIx a i], Some (nth i l d)).
Definition wr {A} (a : arr) (i : nat) (v : A) (l : list A) : lk (list A) := ([EIx a i], Some (upd i v l)).
Definition test (c : bool) : lk bool := ([EBr c], Some c).

(** for loops: the condition is tested before every iteration and after the last. *)
Fixpoint l_loop {X} (f : X -> nat -> lk X) (l : list nat) (x : X) : lk X :=
  match l with
  | [] => let* _ := test false in lret x
  | i :: l => let* _ := test true in let* x := f x i in l_loop f l x
  end.

(** ** /repo/ubc/ubc.go lines 32-371 *)

(** Expressions: not(x) is a call of the function at lines 365-371, which branches; x || y evaluates y only if x is false. *)
Fixpoint l_ueval (W : list word) (mask : word) (e : uexp) : lk word :=
  match e with
  | UW i => rd AUbc W i 0
  | UC n => lret n
  | UMask => lret mask
  | UNot e => let* v := l_ueval W mask e in lret (not32 v)
  | ULNot e => let* v := l_ueval W mask e in let* b := test (v =? 0) in lret (b2w b)
  | UAnd x y => let* v := l_ueval W mask x in let* u := l_ueval W mask y in lret (N.land v u)
  | UOr x y => let* v := l_ueval W mask x in let* u := l_ueval W mask y in lret (N.lor v u)
  | UXor x y => let* v := l_ueval W mask x in let* u := l_ueval W mask y in lret (N.lxor v u)
  | USub x y => let* v := l_ueval W mask x in let* u := l_ueval W mask y in lret (sub32 v u)
  | UShl x y => let* v := l_ueval W mask x in let* u := l_ueval W mask y in lret (shl32 v u)
  | UShr x y => let* v := l_ueval W mask x in let* u := l_ueval W mask y in lret (shr32 v u)
  | UNe x y => let* v := l_ueval W mask x in let* u := l_ueval W mask y in lret (b2w (negb (v =? u)))
  | ULor x y =>
    let* v := l_ueval W mask x in
    let* b := test (negb (v =? 0)) in
    if b then lret 1 else let* u := l_ueval W mask y in lret (b2w (negb (u =? 0)))
  end.

(** Statements. *)
Fixpoint l_urun (W : list word) (p : prog) (mask : word) : lk word :=
  match p with
  | PEnd => lret mask
  | PAnd e r => let* v := l_ueval W mask e in l_urun W r (N.land mask v)
  | PIf c b r =>
    let* v := l_ueval W mask c in
    let* t := test (negb (v =? 0)) in
    let* mask := (if t then l_urun W b mask else lret mask) in
    l_urun W r mask
  end.

(** Lines 32-363: CalculateDvMask. *)
Definition l_CalculateDvMask (W : option (list word)) : lk word :=
  match W with
  | None => let* _ := test true in lret 0
  | Some W => let* _ := test false in l_urun W ubc_prog_go 0xFFFFFFFF
  end.

(** ** /repo/sha1cdblock_generic.go *)

(** Lines 196-229: one iteration of an undo loop; [row] is the row whose Dm is passed. *)
Definition l_undo (row : nat) (f : word -> word -> word -> word) (K : word) (step : nat)
    (m1 dm : list word) (s : st) (i : nat) : lk st :=
  let a := sb s in let b := sc s in let c := sd s in let d := se s in let e := sa s in
  let* t := test (i <? step)%nat in
  if t then
    let b := rotl32 b 2 in
    let* x := rd AM1 m1 i 0 in
    let* y := rd (ADm row) dm i 0 in
    let e := sub32 e (add32 (add32 (add32 (rotl32 a 5) (f b c d)) K) (N.lxor x y)) in
    lret (mkst a b c d e)
  else lret (mkst a b c d e).

(** Lines 246-259: one iteration of a replay loop. *)
Definition l_redo (row : nat) (f : word -> word -> word -> word) (K : word) (step : nat)
    (m1 dm : list word) (s : st) (i : nat) : lk st :=
  let* t := test (step <=? i)%nat in
  if t then
    let* x := rd AM1 m1 i 0 in
    let* y := rd (ADm row) dm i 0 in
    let t := add32 (add32 (add32 (add32 (rotl32 (sa s) 5) (f (sb s) (sc s) (sd s))) (se s)) K) (N.lxor x y) in
    lret (mkst t (sa s) (rotl32 (sb s) 30) (sc s) (sd s))
  else lret s.

(** Lines 186-273: hasCollided. *)
Definition l_hasCollided (row step : nat) (m1 dm : list word) (state h : st) : lk bool :=
  let* s := l_loop (l_undo row g_par K3 step m1 dm) (down 64 60) state in
  let* s := l_loop (l_undo row g_maj K2 step m1 dm) (down 59 40) s in
  let* s := l_loop (l_undo row g_par K1 step m1 dm) (down 39 20) s in
  let* ihv := l_loop (l_undo row g_ch K0 step m1 dm) (down 19 0) s in
  let* r := l_loop (l_redo row g_maj K2 step m1 dm) (seq 40 20) state in
  let* r := l_loop (l_redo row g_par K3 step m1 dm) (seq 60 20) r in
  let ihv := addst ihv r in
  test ((N.lor (N.lor (N.lor (N.lor (N.lxor (sa ihv) (sa h)) (N.lxor (sb ihv) (sb h)))
     (N.lxor (sc ihv) (sc h))) (N.lxor (sd ihv) (sd h))) (N.lxor (se ihv) (se h))) =? 0).

(** Lines 154-180: the loop over the table; [row] counts. The switch tests its cases in order. *)
Fixpoint l_checkLoop (row : nat) (dvs : list dvinfo) (mask : word) (m1 : list word) (cs : csarr) (h : st) : lk bool :=
  match dvs with
  | [] => lpanic
  | dv :: rest =>
    let* _ := ([EIx ATable row], Some tt) in
    let* t := test (negb (dvType dv =? 0)) in
    if negb t then lret false
    else
      let* t := test (negb (N.land mask (shl32 1 (maskB dv)) =? 0)) in
      if negb t then l_checkLoop (S row) rest mask m1 cs h
      else
        let* t := test (testT dv =? 58) in
        let* state := (if t then lret (cs1 cs) else
          let* t := test (testT dv =? 65) in
          if t then lret (cs2 cs) else
          let* t := test (testT dv =? 0) in
          if t then lret (cs0 cs) else lpanic) in
        let* col := l_hasCollided row (N.to_nat (testT dv)) m1 (dm dv) state h in
        let* t := test col in
        if t then lret true else l_checkLoop (S row) rest mask m1 cs h
  end.

(** Lines 146-183: checkCollision. *)
Definition l_checkCollision (m1 : list word) (cs : csarr) (h : st) : lk bool :=
  let* mask := l_CalculateDvMask (Some m1) in
  let* t := test (negb (mask =? 0)) in
  if t then l_checkLoop 0 dvs_go mask m1 cs h else lret false.

(** Line 54: four bytes of the input; [off] is where the current block starts in the slice passed to block. *)
Definition l_load (off : nat) (p : list byte) (i : nat) : lk word :=
  let j := (i * 4)%nat in
  let* _ := ([EIx AP (off + j)], Some tt) in
  let* _ := ([EIx AP (off + (j + 1))], Some tt) in
  let* _ := ([EIx AP (off + (j + 2))], Some tt) in
  let* _ := ([EIx AP (off + (j + 3))], Some tt) in
  lret (load p i).

(** Lines 51-62. *)
Definition l_body_load (off : nat) (p : list byte) (x : pass) (i : nat) : lk pass :=
  let* v := l_load off p i in
  let* w := wr AW i v (pw x) in
  let* wi := rd AW w (Nat.land i 15) 0 in
  let* v := rd AW w (Nat.land i 15) 0 in
  let* m := wr AM1 i v (pm x) in
  lret (mkpass w m (pcs x) (g_round g_ch K0 wi (ps x))).

(** Lines 63-73, 74-84, 85-100, 101-116; [at_] is the step whose state is stored, if any: the branches at lines 86 and 102. *)
Definition l_body_mix (f : word -> word -> word -> word) (K : word) (at_ : option nat) (save : nat -> st -> csarr -> csarr)
    (x : pass) (i : nat) : lk pass :=
  let* _ := match at_ with Some n => test (i =? n)%nat | None => lret false end in
  let cs := save i (ps x) (pcs x) in
  let w := pw x in
  let* w3 := rd AW w (Nat.land (i - 3) 15) 0 in
  let* w8 := rd AW w (Nat.land (i - 8) 15) 0 in
  let* w14 := rd AW w (Nat.land (i - 14) 15) 0 in
  let* w16 := rd AW w (Nat.land i 15) 0 in
  let tmp := N.lxor (N.lxor (N.lxor w3 w8) w14) w16 in
  let* w := wr AW (Nat.land i 15) (N.lor (shl32 tmp 1) (shr32 tmp (32 - 1))) w in
  let* wi := rd AW w (Nat.land i 15) 0 in
  let* v := rd AW w (Nat.land i 15) 0 in
  let* m := wr AM1 i v (pm x) in
  lret (mkpass w m cs (g_round f K wi (ps x))).

(** Lines 41-116: one pass. *)
Definition l_pass (off : nat) (p : list byte) (h : st) (w m1 : list word) (cs : csarr) : lk pass :=
  let x := mkpass w m1 (mkcs h (cs1 cs) (cs2 cs)) h in
  let* x := l_loop (l_body_load off p) (seq 0 16) x in
  let* x := l_loop (l_body_mix g_ch K0 None save_none) (seq 16 4) x in
  let* x := l_loop (l_body_mix g_par K1 None save_none) (seq 20 20) x in
  let* x := l_loop (l_body_mix g_maj K2 (Some 58%nat) save58) (seq 40 20) x in
  l_loop (l_body_mix g_par K3 (Some 65%nat) save65) (seq 60 20) x.

(** Lines 40-137. *)
Fixpoint l_rehash (fuel off : nat) (p : list byte) (hi : nat) (h : st) (w m1 : list word) (cs : csarr)
    (col : bool) : lk (st * list word * csarr * bool) :=
  match fuel with
  | O => lpanic
  | S fuel =>
    let* x := l_pass off p h w m1 cs in
    let h := addst h (ps x) in
    let* t := test (hi =? 2)%nat in
    if t then l_rehash fuel off p (hi + 1) h (pw x) (pm x) (pcs x) col
    else
      let* t := test (hi =? 1)%nat in
      if t then
        let* c := l_checkCollision (pm x) (pcs x) h in
        let* c := test c in
        if c then l_rehash fuel off p (hi + 1) h (pw x) (pm x) (pcs x) true
        else lret (h, pw x, pcs x, col)
      else lret (h, pw x, pcs x, col)
  end.

(** Lines 31-140. *)
Fixpoint l_blocks (fuel off : nat) (p : list byte) (h : st) (w : list word) (cs : csarr) (col : bool) : lk (st * bool) :=
  let* t := test (64 <=? length p)%nat in
  if t then
    match fuel with
    | O => lpanic
    | S fuel =>
      let* r := l_rehash 3 off p 1 h w (repeat 0 80) cs col in
      let '(h, w, cs, col) := r in
      l_blocks fuel (off + 64) (skipn 64 p) h w cs col
    end
  else lret (h, col).

(** Lines 22-143: blockGeneric. *)
Definition l_blockGeneric (d : digest) (p : list byte) : lk digest :=
  let* r := l_blocks (length p) 0 p (dh d) (repeat 0 16) (mkcs st0 st0 st0) (dcol d) in
  lret (mkd (fst r) (dx d) (dnx d) (dlen d) (snd r)).

(** ** /repo/sha1cd.go; [blk] is the function block of the build: [l_blockGeneric], or one of those of Model_LeakAsm *)

(** Lines 148-156: the second half of Write; [nn] is its result. *)
Definition l_write_blocks (blk : digest -> list byte -> lk digest) (d : digest) (p : list byte) : lk (digest * list byte) :=
  let* t := test (64 <=? length p)%nat in
  if t then
    let n := Nat.ldiff (length p) (64 - 1) in
    let* q := lopt (slice_to p n) in
    let* d := blk d q in
    let* p := lopt (slice_from p n) in
    lret (d, p)
  else lret (d, p).
Definition l_write_rest (blk : digest -> list byte -> lk digest) (d : digest) (p : list byte) (nn : nat) : lk (digest * nat) :=
  let* r := l_write_blocks blk d p in
  let d := fst r in let p := snd r in
  let* t := test (0 <? length p)%nat in
  if t then
    let* _ := ([ECopy (snd (copy_at (dx d) 0 p))], Some tt) in
    lret (mkd (dh d) (fst (copy_at (dx d) 0 p)) (snd (copy_at (dx d) 0 p)) (dlen d) (dcol d), nn)
  else lret (d, nn).

(** Lines 139-147: filling the buffer. *)
Definition l_write_buf (blk : digest -> list byte -> lk digest) (d : digest) (p : list byte) : lk (digest * list byte) :=
  let* t := test (0 <? dnx d)%nat in
  if t then
    let* _ := lopt (slice_from (dx d) (dnx d)) in
    let x := fst (copy_at (dx d) (dnx d) p) in
    let n := snd (copy_at (dx d) (dnx d) p) in
    let* _ := ([ECopy n], Some tt) in
    let d := mkd (dh d) x (dnx d + n) (dlen d) (dcol d) in
    let* t := test (dnx d =? 64)%nat in
    let* d := (if t then
                 let* d := blk d (dx d) in
                 lret (mkd (dh d) (dx d) 0 (dlen d) (dcol d))
               else lret d) in
    let* p := lopt (slice_from p n) in
    lret (d, p)
  else lret (d, p).

(** Lines 132-157: Write. *)
Definition l_Write (blk : digest -> list byte -> lk digest) (d : digest) (p : list byte) : lk (digest * nat) :=
  let* t := test (length p =? 0)%nat in
  if t then lret (d, 0%nat)
  else
    let d := mkd (dh d) (dx d) (dnx d) ((dlen d + N.of_nat (length p)) mod M64) (dcol d) in
    let* r := l_write_buf blk d p in
    l_write_rest blk (fst r) (snd r) (length p).

(** Lines 166-197: checkSum. *)
Definition l_checkSum (blk : digest -> list byte -> lk digest) (d : digest) : lk (digest * list byte) :=
  let len := dlen d in
  let tmp := x80 :: repeat x00 71 in
  let* b := test (len mod 64 <? 56) in
  let t := if b then 56 - len mod 64 else 64 + 56 - len mod 64 in
  let t := N.to_nat t in
  let len := shl64 len 3 in
  let* _ := lopt (slice_to tmp (t + 8)) in
  let* _ := ([ECopy t], Some tt) in
  let* rest := lopt (slice_from tmp t) in
  let* rest := lopt (slice_from rest 8) in
  let tmp := firstn t tmp ++ appendUint64 len ++ rest in
  let padlen := firstn (t + 8) tmp in
  let* r := l_Write blk d padlen in
  let '(d, _) := r in
  let* b := test (negb (dnx d =? 0)%nat) in
  if b then lpanic
  else lret (d, appendUint32 (sa (dh d)) ++ appendUint32 (sb (dh d)) ++ appendUint32 (sc (dh d))
                ++ appendUint32 (sd (dh d)) ++ appendUint32 (se (dh d))).

(** Lines 207-212: CollisionResistantSum; append copies 20 bytes, and may move [inp] to a new array. *)
Definition l_CollisionResistantSum (blk : digest -> list byte -> lk digest) (d : digest) (inp : list byte) : lk (list byte * bool) :=
  let* r := l_checkSum blk d in
  let '(d0, hash) := r in
  let* _ := ([ECopy (length inp); ECopy (length hash)], Some tt) in
  lret (inp ++ hash, dcol d0).

(** ** A session with one hasher: calls of Write and CollisionResistantSum in any order *)
Inductive lop := LWrite (p : list byte) | LSum (inp : list byte).
Fixpoint l_session (blk : digest -> list byte -> lk digest) (d : digest) (os : list lop) : lk (digest * list (list byte * bool)) :=
  match os with
  | [] => lret (d, [])
  | LWrite p :: os =>
    let* r := l_Write blk d p in
    l_session blk (fst r) os
  | LSum inp :: os =>
    let* x := l_CollisionResistantSum blk d inp in
    let* r := l_session blk d os in
    lret (fst r, x :: snd r)
  end.
