(** * Spec_AsmClean: runs of the point routines in which no subtraction goes unreduced

    p256_sm2SubInternal (/repo/sm2/p256_asm_amd64.s:1729-1753) leaves a difference between 0 and 2^256 - p
    unreduced (C64_sub).  [careful] are the field routines of the assembly, except that a subtraction of
    that kind has no result, and no operation on a missing operand has one.  A call of a point routine is
    clean when the formulas over [careful] have a result. *)
From Coq Require Import ZArith List Bool.
From Verif Require Import Base Curves P256 Spec_P256 P256Point AsmVal.
Import ListNotations.
Open Scope Z_scope.

(** the empty list is no result *)
Definition gone (a : words) : bool := match a with [] => true | _ => false end.
Definition careful1 (g : words -> words) (a : words) : words := if gone a then [] else g a.
Definition careful2 (g : words -> words -> words) (a b : words) : words := if gone a || gone b then [] else g a b.
Definition small_difference (a b : words) : bool := (0 <? lval a - lval b) && (lval a - lval b <? 2 ^ 256 - cP).
Definition careful : fops := {|
  f_mul := careful2 (f_mul asm_fops);
  f_sqr := careful1 (f_sqr asm_fops);
  f_sub := careful2 (fun a b => if small_difference a b then [] else f_sub asm_fops a b);
  f_add := careful2 (f_add asm_fops);
  f_dbl := careful1 (f_dbl asm_fops);
  f_half := careful1 (f_half asm_fops) |}.
Definition full (w : words) : bool := Nat.eqb (length w) 12.
Definition clean_dbl (p : words) : bool := full (dbl_f careful (sub p 0 4) (sub p 4 4) (sub p 8 4)).
Definition clean_add (p q : words) : bool :=
  full (add_f careful (sub p 0 4) (sub p 4 4) (sub p 8 4) (sub q 0 4) (sub q 4 4) (sub q 8 4)).
(** the negation in PointAddAffine is a subtraction from p, :2248-2285 *)
Definition clean_sign (q : words) (sign : Z) : bool := (sign =? 0) || (lval (sub q 4 4) <=? 2 * cP - 2 ^ 256).
Definition clean_sum (p q : words) (sign : Z) : bool :=
  clean_sign q sign && full (addaff_f careful (sub p 0 4) (sub p 4 4) (sub p 8 4) (sub q 0 4) (a_neg asm_prims (sub q 4 4) sign)).
(** with zero = 0 the result is the second point, otherwise with sel = 0 the first; the
    comparisons are of 32 bits *)
Definition clean_addaff (p q : words) (sign sel zero : Z) : bool :=
  if zero mod 2 ^ 32 =? 0 then clean_sign q sign else if sel mod 2 ^ 32 =? 0 then true else clean_sum p q sign.

(** ** Whole multiplications

    The same idea for the Go code: a word that depends on a call that was not clean is marked.  No 64-bit
    word is negative.  The two conditional moves and the table lookups pass on the words they select. *)
Definition marked : Z := -1.
Definition tainted (w : words) : bool := existsb (Z.eqb marked) w.
Definition mark (c : bool) (w : words) : words := if c then map (fun _ => marked) w else w.
Definition careful_prims : prims := {|
  a_mul a b := mark (tainted a || tainted b) (a_mul asm_prims a b);
  a_sqr a := mark (tainted a) (a_sqr asm_prims a);
  a_from a := mark (tainted a) (a_from asm_prims a);
  a_neg a c := mark (tainted a) (a_neg asm_prims a c);
  a_mov := a_mov asm_prims;
  a_l2b := a_l2b asm_prims;
  a_select := a_select asm_prims;
  a_selbase := a_selbase asm_prims;
  a_ordmul := a_ordmul asm_prims;
  a_addaff p q sign sel zero :=
    if zero mod 2 ^ 32 =? 0 then mark (tainted q || negb (clean_sign q sign)) (a_addaff asm_prims p q sign sel zero)
    else if sel mod 2 ^ 32 =? 0 then a_addaff asm_prims p q sign sel zero
    else mark (tainted p || tainted q || negb (clean_sum p q sign)) (a_addaff asm_prims p q sign sel zero);
  a_add p q := mark (tainted p || tainted q || negb (clean_add p q)) (a_add asm_prims p q);
  a_dbl p := mark (tainted p || negb (clean_dbl p)) (a_dbl asm_prims p) |}.
Definition unmarked (r : go words) : bool := match r with Val w => negb (tainted w) | _ => false end.
(** the points that the multiplications end with, before the conversion to affine coordinates:
    p256_amd64.go:292-297, 301-321 and 265-289 *)
Definition base_point (A : prims) (k : bytes) : go words :=
  let* s := p256GetScalar k in Val (p256BaseMult A (initTable A) s).
Definition scalar_point (A : prims) (X Y : Z) (k : bytes) : go words :=
  let* s := p256GetScalar k in let* r := load_point A X Y in p256ScalarMult A r s.
Definition combined_point (A : prims) (X Y : Z) (k1 k2 : bytes) : go words :=
  let* s := p256GetScalar k1 in
  let* t := p256GetScalar k2 in
  let* r2 := load_point A X Y in
  let* r2 := p256ScalarMult A r2 t in
  Val (a_add A (p256BaseMult A (initTable A) s) r2).
(** they depend on clean calls only *)
Definition clean_base_mult (k : bytes) : bool := unmarked (base_point careful_prims k).
Definition clean_scalar_mult (X Y : Z) (k : bytes) : bool := unmarked (scalar_point careful_prims X Y k).
Definition clean_combined_mult (X Y : Z) (k1 k2 : bytes) : bool := unmarked (combined_point careful_prims X Y k1 k2).
