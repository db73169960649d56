(** * P256Point: the point formulas of /repo/sm2/p256_asm_amd64.s

    PointDouble, PointAdd and PointAddAffine call six field routines on four-word values kept on the
    stack; here they are written over a record of those routines.  [exact] has the routines as they are
    meant, modular arithmetic with reduced results. *)
From Coq Require Import ZArith List Bool.
From Verif Require Import Base Curves P256 Spec_P256.
Import ListNotations.
Open Scope Z_scope.

Record fops := {
  f_mul : words -> words -> words;      (* p256_sm2MulInternal, :1755-1969: acc * t *)
  f_sqr : words -> words;               (* p256_sm2SqrInternal, :1972-2145 *)
  f_sub : words -> words -> words;      (* p256_sm2SubInternal, :1729-1753: acc - t *)
  f_add : words -> words -> words;      (* p256_sm2AddInline, :2168-2187: acc + t *)
  f_dbl : words -> words;               (* p256_sm2MulBy2Inline, :2147-2166 *)
  f_half : words -> words               (* :2728-2751, in PointDouble *)
}.

Section Formulas.
Variable f : fops.
(** p256_asm_amd64.s:2670-2791 PointDouble *)
Definition dbl_f (x y z : words) : words :=
  let zsqr := f_sqr f z in
  let m := f_add f zsqr x in
  let zout := f_dbl f (f_mul f z y) in
  let m := f_mul f (f_sub f x zsqr) m in
  let m := f_add f m (f_dbl f m) in
  let s := f_sqr f (f_dbl f y) in
  let y' := f_half f (f_sqr f s) in
  let s := f_mul f x s in
  let xout := f_sub f (f_sqr f m) (f_dbl f s) in
  let yout := f_sub f (f_mul f (f_sub f s xout) m) y' in
  xout ++ yout ++ zout.
(** p256_asm_amd64.s:2499-2631 PointAdd *)
Definition add_f (x1 y1 z1 x2 y2 z2 : words) : words :=
  let z2sqr := f_sqr f z2 in
  let s1 := f_mul f (f_mul f z2sqr z2) y1 in
  let z1sqr := f_sqr f z1 in
  let s2 := f_mul f (f_mul f z1sqr z1) y2 in
  let r := f_sub f s2 s1 in
  let u1 := f_mul f z2sqr x1 in
  let u2 := f_mul f z1sqr x2 in
  let h := f_sub f u2 u1 in
  let rsqr := f_sqr f r in
  let hsqr := f_sqr f h in
  let hcub := f_mul f hsqr h in
  let s2 := f_mul f hcub s1 in
  let zout := f_mul f (f_mul f z1 z2) h in
  let u2 := f_mul f hsqr u1 in
  let xout := f_sub f (f_sub f rsqr (f_dbl f u2)) hcub in
  let yout := f_sub f (f_mul f (f_sub f u2 xout) r) s2 in
  xout ++ yout ++ zout.
(** p256_asm_amd64.s:2291-2361, the addition in PointAddAffine; y2 already has the sign *)
Definition addaff_f (x1 y1 z1 x2 y2 : words) : words :=
  let z1sqr := f_sqr f z1 in
  let h := f_sub f (f_mul f z1sqr x2) x1 in
  let zout := f_mul f h z1 in
  let s2 := f_mul f (f_mul f z1sqr z1) y2 in
  let r := f_sub f s2 y1 in
  let rsqr := f_sqr f r in
  let hsqr := f_sqr f h in
  let hcub := f_mul f hsqr h in
  let s2 := f_mul f hcub y1 in
  let h := f_mul f x1 hsqr in
  let xout := f_sub f (f_sub f rsqr (f_dbl f h)) hcub in
  let yout := f_sub f (f_mul f (f_sub f h xout) r) s2 in
  xout ++ yout ++ zout.
End Formulas.

(** modular arithmetic on four words; 2^-256 and 2^-1 modulo p as powers *)
Definition red (z : Z) : words := words_of 4 (z mod cP).
Definition RinvP' : Z := 115792089102516462125480396441826910452883803264411231995480180208556130172932.
Definition half2 : Z := (cP + 1) / 2.
Definition exact : fops := {|
  f_mul a b := red (lval a * lval b * RinvP');
  f_sqr a := red (lval a * lval a * RinvP');
  f_sub a b := red (lval a - lval b);
  f_add a b := red (lval a + lval b);
  f_dbl a := red (2 * lval a);
  f_half a := red (lval a * half2) |}.
(** the routines as they are meant *)
Definition exact_neg (a : words) (c : Z) : words := if c =? 0 then a else words_of 4 (cP - lval a).
Definition exact_prims : prims := {|
  a_mul := f_mul exact;
  a_sqr := f_sqr exact;
  a_from a := red (lval a * RinvP');
  a_neg := exact_neg;
  a_mov a b c := if c =? 0 then b else a;
  a_l2b a := to_be 32 (lval a);
  a_select t i := if i =? 0 then repeat 0 12 else sub t (12 * (Z.to_nat i - 1)) 12;
  a_selbase t i := if i =? 0 then repeat 0 8 else sub t (8 * (Z.to_nat i - 1)) 8;
  a_ordmul a b := words_of 4 ((lval a * lval b * 50307568877804588386309533398012773108667376576406692192023074665752686048746) mod cN);
  a_addaff p q sign sel zero :=
    let y2 := exact_neg (sub q 4 4) sign in
    if zero =? 0 then sub q 0 4 ++ y2 ++ one_mont
    else if sel =? 0 then p
    else addaff_f exact (sub p 0 4) (sub p 4 4) (sub p 8 4) (sub q 0 4) y2;
  a_add p q := add_f exact (sub p 0 4) (sub p 4 4) (sub p 8 4) (sub q 0 4) (sub q 4 4) (sub q 8 4);
  a_dbl p := dbl_f exact (sub p 0 4) (sub p 4 4) (sub p 8 4) |}.
