(** * P256: model of the Go part of /repo/sm2/p256_amd64.go

    The routines of p256_asm_amd64.s are the fields of [prims]; their instruction-level model is
    in Asm*.v.  A []uint64 is a list of integers; a slice passed to an assembly routine that reads
    or writes n words is its first n words.  The routines return their result instead of storing
    it; stores into part of a longer slice are written with [put_at]. *)
From Coq Require Import ZArith String List Bool.
From Verif Require Import Base Curves.
Import ListNotations.
Open Scope Z_scope.

Notation words := (list Z) (only parsing).
Notation cP := (c_P SM2P256V1).
Notation cN := (c_N SM2P256V1).

(** p256_amd64.go:81-130, the declarations of the assembly routines *)
Record prims := {
  a_mul : words -> words -> words;                       (* p256_sm2Mul *)
  a_sqr : words -> words;                                (* p256_sm2Sqr *)
  a_from : words -> words;                               (* p256_sm2FromMont *)
  a_neg : words -> Z -> words;                           (* p256_sm2NegCond *)
  a_mov : words -> words -> Z -> words;                  (* p256_sm2MovCond *)
  a_l2b : words -> bytes;                                (* p256_sm2LittleToBig *)
  a_select : words -> Z -> words;                        (* p256_sm2Select *)
  a_selbase : words -> Z -> words;                       (* p256_sm2SelectBase *)
  a_ordmul : words -> words -> words;                    (* p256_sm2OrdMul *)
  a_addaff : words -> words -> Z -> Z -> Z -> words;     (* p256_sm2PointAddAffineAsm *)
  a_add : words -> words -> words;                       (* p256_sm2PointAddAsm *)
  a_dbl : words -> words                                 (* p256_sm2PointDoubleAsm *)
}.

(** words i, i+1, ..., i+n-1 of l, and l with ws stored from position i *)
Definition sub (l : words) (i n : nat) : words := firstn n (skipn i l).
Definition put_at (i : nat) (ws l : words) : words := firstn i l ++ ws ++ skipn (i + length ws) l.
Fixpoint repeat_op {A : Type} (n : nat) (f : A -> A) (x : A) : A :=
  match n with O => x | S n' => repeat_op n' f (f x) end.

(** the 64-bit words of a nonnegative integer, least significant first *)
Fixpoint words_of (n : nat) (z : Z) : words :=
  match n with O => [] | S n' => z mod 2 ^ 64 :: words_of n' (z / 2 ^ 64) end.

(** p256_amd64.go:230-238, for a slice of length 4.  Bits() is the absolute value; a fifth word is
    out of range. *)
Definition fromBig (k : Z) : go words :=
  if Z.abs k <? 2 ^ 256 then Val (words_of 4 (Z.abs k)) else Panic "index out of range".

(** p256_amd64.go:243-250 *)
Definition p256GetScalar (inb : bytes) : go words :=
  let n := be2z inb in
  let n := if n >=? cN then n mod cN else n in
  fromBig n.

(** p256_amd64.go:256 *)
Definition rr : words := [0x0000000200000003; 0x00000002FFFFFFFF; 0x0000000100000001; 0x0000000400000002].

(** p256_amd64.go:258-263 *)
Definition maybeReduceModP (x : Z) : Z := if x <? cP then x else x mod cP.

(** one in the Montgomery domain: p256_amd64.go:281-284, 316-319, 475, 528-531, 540-543 *)
Definition one_mont : words := [0x0000000000000001; 0x00000000FFFFFFFF; 0x0000000000000000; 0x0000000100000000].

(** p256_amd64.go:449-455; uint is 64 bits *)
Definition not64 (x : Z) : Z := Z.lxor x (2 ^ 64 - 1).
Definition boothW5 (inp : Z) : Z * Z :=
  let s := not64 (u64 (Z.shiftr inp 5 - 1)) in
  let d := u64 (2 ^ 6 - inp - 1) in
  let d := Z.lor (Z.land d s) (Z.land inp (not64 s)) in
  let d := u64 (Z.shiftr d 1 + Z.land d 1) in
  (d, Z.land s 1).
(** p256_amd64.go:457-463 *)
Definition boothW7 (inp : Z) : Z * Z :=
  let s := not64 (u64 (Z.shiftr inp 7 - 1)) in
  let d := u64 (2 ^ 8 - inp - 1) in
  let d := Z.lor (Z.land d s) (Z.land inp (not64 s)) in
  let d := u64 (Z.shiftr d 1 + Z.land d 1) in
  (d, Z.land s 1).

(** the window expressions of p256_amd64.go:548-552 and 623-627, with the mask as a parameter *)
Definition window (scalar : words) (mask : Z) (index : Z) : Z :=
  let w (i : Z) := nth (Z.to_nat i) scalar 0 in
  if index <? 192
  then Z.land (u64 (Z.shiftr (w (index / 64)) (index mod 64) + u64 (Z.shiftl (w (index / 64 + 1)) (64 - index mod 64)))) mask
  else Z.land (Z.shiftr (w (index / 64)) (index mod 64)) mask.
(** p256_amd64.go:518 and 641 *)
Definition window0 (scalar : words) (mask : Z) : Z := Z.land (u64 (Z.shiftl (nth 0 scalar 0) 1)) mask.

Section Prims.
Variable A : prims.

(** p256_amd64.go:112-117; copy moves as many words as the shorter slice has *)
Definition OrdSqr2 (res inp : words) (n : nat) : words :=
  repeat_op n (fun r => put_at 0 (a_ordmul A (sub r 0 4) (sub r 0 4)) r) (go_copy res inp).

(** p256_amd64.go:161-164, one round of the loop *)
Definition inv_table_step (table : words) (i : nat) : words :=
  let table := put_at (4 * (i - 1)) (OrdSqr2 (skipn (4 * (i - 1)) table) (skipn (4 * (i / 2 - 1)) table) 1) table in
  put_at (4 * i) (a_ordmul A (sub table (4 * (i - 1)) 4) (sub table 0 4)) table.
(** p256_amd64.go:155 *)
Definition RR : words := [0x901192AF7C114F20; 0x3464504ADE6FA2FA; 0x620FC84C3AFFE0D4; 0x1EB5E412A22B3D3B].
(** p256_amd64.go:205-208 *)
Definition expLo : list Z :=
  [0x7; 0x2; 0x0; 0x3; 0xd; 0xf; 0x6; 0xb; 0x2; 0x1; 0xc; 0x6; 0x0; 0x5; 0x2; 0xb;
   0x5; 0x3; 0xb; 0xb; 0xf; 0x4; 0x0; 0x9; 0x3; 0x9; 0xd; 0x5; 0x4; 0x1; 0x2; 0x1].
(** p256_amd64.go:132-227.  Argument modified in place by Neg or Mod: line 135 and 140 allocate a
    new big.Int, so the caller's is left alone. *)
Definition Inverse (k : Z) : go Z :=
  let k := if k <? 0 then - k else k in
  let k := if k >=? cN then k mod cN else k in
  let* x := fromBig k in
  let table := put_at 0 (a_ordmul A x RR) (repeat 0 60) in
  let table := fold_left inv_table_step [2; 4; 6; 8; 10; 12; 14]%nat table in
  let x := sub table (4 * 14) 4 in
  let x := OrdSqr2 x x 4 in
  let s := a_ordmul A x (sub table (4 * 13) 4) in
  let x := a_ordmul A x (sub table (4 * 14) 4) in
  let t := x in
  let x := OrdSqr2 x x 8 in
  let s := a_ordmul A x s in
  let x := a_ordmul A x t in
  let t := x in
  let x := OrdSqr2 x x 16 in
  let s := a_ordmul A x s in
  let t := a_ordmul A x t in
  let x := OrdSqr2 x s 32 in
  let x := a_ordmul A x t in
  let x := OrdSqr2 x x 32 in
  let x := a_ordmul A x t in
  let x := OrdSqr2 x x 32 in
  let x := a_ordmul A x t in
  let x := fold_left (fun x e =>
      let x := OrdSqr2 x x 4 in
      if e =? 0 then x else a_ordmul A x (sub table (Z.to_nat (4 * (e - 1))) 4)) expLo x in
  let x := a_ordmul A x [1; 0; 0; 0] in
  Val (be2z (a_l2b A x)).

(** p256_amd64.go:345-443; the argument and the result never share memory in the callers *)
Definition p256Inverse (inp : words) : words :=
  let sqrs n x := repeat_op n (a_sqr A) x in
  let p2 := a_mul A (a_sqr A inp) inp in
  let p4 := a_mul A (sqrs 2%nat p2) p2 in
  let p8 := a_mul A (sqrs 4%nat p4) p4 in
  let p16 := a_mul A (sqrs 8%nat p8) p8 in
  let p32 := a_mul A (sqrs 16%nat p16) p16 in
  let out := a_mul A (sqrs 8%nat p16) p8 in
  let out := a_mul A (sqrs 4%nat out) p4 in
  let out := a_mul A (sqrs 2%nat out) p2 in
  let out := a_mul A (a_sqr A out) inp in
  let out := a_sqr A out in
  let out := a_mul A (sqrs 32%nat out) p32 in
  let out := a_mul A (sqrs 32%nat out) p32 in
  let out := a_mul A (sqrs 32%nat out) p32 in
  let out := a_mul A (sqrs 32%nat out) p32 in
  let out := a_mul A (sqrs 64%nat out) p32 in
  let out := a_mul A (sqrs 16%nat out) p16 in
  let out := a_mul A (sqrs 8%nat out) p8 in
  let out := a_mul A (sqrs 4%nat out) p4 in
  let out := a_mul A (sqrs 2%nat out) p2 in
  a_mul A (sqrs 2%nat out) inp.

(** p256_amd64.go:324-343; a point is twelve words *)
Definition p256PointToAffine (p : words) : Z * Z :=
  let zInv := p256Inverse (sub p 8 4) in
  let zInvSq := a_sqr A zInv in
  let zInv := a_mul A zInv zInvSq in
  let zInvSq := a_mul A (sub p 0 4) zInvSq in
  let zInv := a_mul A (sub p 4 4) zInv in
  (be2z (a_l2b A (a_from A zInvSq)), be2z (a_l2b A (a_from A zInv))).

(** p256_amd64.go:468-476 *)
Definition basePoint : words :=
  [0x61328990F418029E; 0x3E7981EDDCA6C050; 0xD6A1ED99AC24C3C3; 0x91167A5EE1C13B05;
   0xC1354E593C2D0DDD; 0xC1F5E5788D3295FA; 0x8D4CFB066E2A48F8; 0x63CD65D481D735BD] ++ one_mont.
(** p256_amd64.go:485-507, one round of the inner loop; the table is a list of 37 rows *)
Definition init_inner (j : nat) (st : list words * words) (i : nat) : list words * words :=
  let (table, t1) := st in
  let t1 := if (i =? 0)%nat then t1 else repeat_op 7 (a_dbl A) t1 in
  let zInv := p256Inverse (sub t1 8 4) in
  let zInvSq := a_sqr A zInv in
  let zInv := a_mul A zInv zInvSq in
  let t1 := a_mul A (sub t1 0 4) zInvSq ++ a_mul A (sub t1 4 4) zInv ++ sub basePoint 8 4 in
  (set_nth i (put_at (j * 8) (sub t1 0 8) (nth i table [])) table, t1).
(** p256_amd64.go:483-513, one round of the outer loop *)
Definition init_outer (st : list words * words) (j : nat) : list words * words :=
  let (table, t2) := st in
  let (table, _) := fold_left (init_inner j) (seq 0 37) (table, t2) in
  (table, if (j =? 0)%nat then a_dbl A basePoint else a_add A t2 basePoint).
(** p256_amd64.go:465-513 *)
Definition initTable : list words :=
  fst (fold_left init_outer (seq 0 64) (repeat (repeat 0 512) 37, basePoint)).

(** p256_amd64.go:546-558, one round of the loop; the state is p, index and zero *)
Definition base_step (table : list words) (scalar : words) (st : words * Z * Z) (i : nat) : words * Z * Z :=
  let '(p, index, zero) := st in
  let (sel, sign) := boothW7 (window scalar 0xff index) in
  let t0 := a_selbase A (nth i table []) sel in
  (a_addaff A p t0 sign sel zero, index + 7, Z.lor zero sel).
(** p256_amd64.go:515-559; the table is computed once (sync.Once) and never changed afterwards *)
Definition p256BaseMult (table : list words) (scalar : words) : words :=
  let (sel, sign) := boothW7 (window0 scalar 0xff) in
  let xy := a_selbase A (nth 0 table []) sel in
  let p := sub xy 0 4 ++ a_neg A (sub xy 4 4) sign ++ one_mont in
  fst (fst (fold_left (base_step table scalar) (seq 1 36) (p, 6, sel))).

(** p256_amd64.go:565-603: the table of the multiples 1 to 16 *)
Definition scalar_table (p : words) : words :=
  let store t i pt := put_at (12 * i) pt t in
  let r := store (repeat 0 192) 0%nat p in
  let t0 := a_dbl A p in
  let t1 := a_dbl A t0 in
  let t2 := a_dbl A t1 in
  let t3 := a_dbl A t2 in
  let r := store r 1%nat t0 in
  let r := store r 3%nat t1 in
  let r := store r 7%nat t2 in
  let r := store r 15%nat t3 in
  let t0 := a_add A t0 p in
  let t1 := a_add A t1 p in
  let t2 := a_add A t2 p in
  let r := store r 2%nat t0 in
  let r := store r 4%nat t1 in
  let r := store r 8%nat t2 in
  let t0 := a_dbl A t0 in
  let t1 := a_dbl A t1 in
  let r := store r 5%nat t0 in
  let r := store r 9%nat t1 in
  let t2 := a_add A t0 p in
  let t1 := a_add A t1 p in
  let r := store r 6%nat t2 in
  let r := store r 10%nat t1 in
  let t0 := a_dbl A t0 in
  let t2 := a_dbl A t2 in
  let r := store r 11%nat t0 in
  let r := store r 13%nat t2 in
  let t0 := a_add A t0 p in
  let t2 := a_add A t2 p in
  let r := store r 12%nat t0 in
  store r 14%nat t2.
(** p256_amd64.go:616-636 and 638-653: five doublings and one addition for window value w *)
Definition scalar_round (precomp : words) (p : words) (zero w : Z) : words * Z :=
  let p := repeat_op 5 (a_dbl A) p in
  let (sel, sign) := boothW5 w in
  let t0 := a_select A precomp sel in
  let t0 := put_at 4 (a_neg A (sub t0 4 4) sign) t0 in
  let t1 := a_add A p t0 in
  let t1 := a_mov A t1 p sel in
  (a_mov A t1 t0 zero, Z.lor zero sel).
(** p256_amd64.go:614-637, the loop; [fuel] bounds the number of rounds, 50 are made *)
Fixpoint scalar_loop (fuel : nat) (precomp scalar p : words) (zero index : Z) : go (words * Z) :=
  if index >? 4 then
    match fuel with
    | O => OutOfFuel
    | S fuel =>
        let index := index - 5 in
        let (p, zero) := scalar_round precomp p zero (window scalar 0x3f index) in
        scalar_loop fuel precomp scalar p zero index
    end
  else Val (p, zero).
(** p256_amd64.go:561-654 *)
Definition p256ScalarMult (p scalar : words) : go words :=
  let precomp := scalar_table p in
  let index := 254 in
  let (sel, _) := boothW5 (window scalar 0x3f index) in
  let p := a_select A precomp sel in
  let* (p, zero) := scalar_loop 50 precomp scalar p sel index in
  let (p, _) := scalar_round precomp p zero (window0 scalar 0x3f) in
  Val p.

(** p256_amd64.go:292-299 *)
Definition ScalarBaseMult (scalar : bytes) : go (Z * Z) :=
  let* s := p256GetScalar scalar in
  Val (p256PointToAffine (p256BaseMult initTable s)).
(** p256_amd64.go:272-284 and 306-319 *)
Definition load_point (bigX bigY : Z) : go words :=
  let* x := fromBig (maybeReduceModP bigX) in
  let* y := fromBig (maybeReduceModP bigY) in
  Val (a_mul A x rr ++ a_mul A y rr ++ one_mont).
(** p256_amd64.go:301-322 *)
Definition ScalarMult (bigX bigY : Z) (scalar : bytes) : go (Z * Z) :=
  let* s := p256GetScalar scalar in
  let* r := load_point bigX bigY in
  let* r := p256ScalarMult r s in
  Val (p256PointToAffine r).
(** p256_amd64.go:265-290 *)
Definition CombinedMult (bigX bigY : Z) (baseScalar scalar : bytes) : go (Z * Z) :=
  let* s := p256GetScalar baseScalar in
  let r1 := p256BaseMult initTable s in
  let* s := p256GetScalar scalar in
  let* r2 := load_point bigX bigY in
  let* r2 := p256ScalarMult r2 s in
  Val (p256PointToAffine (a_add A r1 r2)).
End Prims.
