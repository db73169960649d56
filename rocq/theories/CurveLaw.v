(** * CurveLaw: the chord and tangent addition on y^2 = x^3 + a x + b is a group

    Over any field in which 2 is not 0, for a curve without singular points.  The proof keeps the
    slopes of the lines as variables: for two points that are not opposite the slope l meets both
    y2 - y1 = l (x2 - x1) and l (y1 + y2) = x1^2 + x1 x2 + x2^2 + a, whether the line is a chord or
    a tangent, so associativity needs no distinction between adding and doubling.  The polynomial
    identities were found by exact division by the single remaining relation. *)
From Coq Require Import Ring Field Field_theory Bool.

Section Law.
Variable F : Type.
Variables (f0 f1 : F) (fadd fmul fsub : F -> F -> F) (fopp : F -> F) (fdiv : F -> F -> F) (finv : F -> F).
Hypothesis FT : field_theory f0 f1 fadd fmul fsub fopp fdiv finv (@eq F).
Variable feq_dec : forall x y : F, {x = y} + {x <> y}.
Add Field Ffield : FT.
Notation "0" := f0. Notation "1" := f1.
Infix "+" := fadd. Infix "*" := fmul. Infix "-" := fsub. Notation "- x" := (fopp x).
Hypothesis two : 1 + 1 <> 0.

Lemma finv_r : forall x, x <> 0 -> x * finv x = 1.
Proof. intros x H. field. exact H. Qed.
Lemma f_integral : forall x y, x * y = 0 -> x = 0 \/ y = 0.
Proof.
  intros x y H. destruct (feq_dec x 0) as [E|E]; [left; exact E|right].
  transitivity (finv x * (x * y)); [field; exact E|]. rewrite H. ring.
Qed.
Lemma f_sub0 : forall x y, x - y = 0 -> x = y.
Proof. intros x y H. transitivity ((x - y) + y); [ring|]. rewrite H. ring. Qed.
Lemma f_sub_ne : forall x y, x <> y -> x - y <> 0.
Proof. intros x y H E. apply H, f_sub0, E. Qed.
Lemma f_cancel : forall d x y, d <> 0 -> d * x = d * y -> x = y.
Proof.
  intros d x y D E. apply f_sub0. destruct (f_integral d (x - y)) as [H|H]; [|contradiction|exact H].
  transitivity (d * x - d * y); [ring|]. rewrite E. ring.
Qed.
Lemma f_ne_mul : forall x y, x <> 0 -> y <> 0 -> x * y <> 0.
Proof. intros x y Hx Hy E. apply f_integral in E. tauto. Qed.
Lemma by_cofactor : forall e r q, e = q * r -> q * r = 0 -> e = 0.
Proof. intros e r q E H. rewrite E. exact H. Qed.

(** ** Associativity as polynomial identities *)
Section Ids.
Variables a x1 y1 x2 y2 x3 y3 l m x4 y4 x5 y5 : F.
Definition lines : Prop :=
  y2 = y1 + l*(x2 - x1) /\ y3 = y2 + m*(x3 - x2) /\
  a = (1+1)*l*y1 + l*l*(x2 - x1) - (x1*x1 + x1*x2 + x2*x2) /\
  m*(y2 + y3) - (x2*x2 + x2*x3 + x3*x3 + a) = 0 /\
  x4 = l*l - x1 - x2 /\ y4 = l*(x1 - x4) - y1 /\ x5 = m*m - x2 - x3 /\ y5 = m*(x2 - x5) - y2.
Lemma id_x00 : lines ->
    (y3 - y4)*(y3 - y4)*((x5 - x1)*(x5 - x1)) - (y5 - y1)*(y5 - y1)*((x3 - x4)*(x3 - x4)) - (x4 + x3 - x1 -
    x5)*((x3 - x4)*(x3 - x4))*((x5 - x1)*(x5 - x1)) = 0.
Proof.
  intros [Hy2 [Hy3 [Ha [HR [Hx4 [Hy4 [Hx5 Hy5]]]]]]]. apply (by_cofactor _ (m*(y2+y3) - (x2*x2+x2*x3+x3*x3+a))
    (((((((1+1)*l + ((1+1)*m))*l + (((1+1)*m*m + (((0 - ((1+1)*(1+1)))*x1 + (((0 - ((1+1)*(1+1)))*x2 + ((0 -
    ((1+1)*(1+1)))*x3))))))))*l + (((1+1)*m*m + (((0 - ((1+1)*(1+1)))*x1 + (((0 - ((1+1)*(1+1)))*x2 + ((0 -
    ((1+1)*(1+1)))*x3))))))*m)))*y1 + ((((((((0 - 1)*x1 + (1*x2)))*l + (((1+1)*m*m + (((0 - (1+1))*x1 + (((0
    - (1+1))*x2 + ((0 - (1+1))*x3))))))*m))*l + ((((1*x1 + (((1+1)*x2 + ((1+(1+1))*x3)))))*m*m + (((1*x1 +
    (((0 - (1+(1+1)))*x2 + ((0 - (1+1))*x3))))*x1 + ((((0 - ((1+1)*(1+1)))*x2 + ((0 -
    (1+((1+1)*(1+(1+1)))))*x3))*x2 + ((0 - (1+(1+1)))*x3*x3))))))))*l + (((((0 - ((1+1)*(1+1)))*x1 + ((0 -
    (1+1))*x2)))*m*m + (((((1+1)*(1+1))*x1 + ((((1+1)*(1+(1+1)))*x2 + (((1+1)*(1+1))*x3))))*x1 + (((1+1)*x2 +
    ((1+1)*x3))*x2))))*m))*l + ((((((0 - 1)*x2 + (1*x3)))*m*m + ((((0 - (1+(1+1)))*x1 + (((0 - (1+(1+1)))*x2
    + ((0 - ((1+1)*(1+(1+1))))*x3))))*x1 + ((((0 - (1+(1+1)))*x3)*x2 + ((0 - (1+(1+1)))*x3*x3))))))*m*m +
    (((((1+1)*x1 + ((((1+1)*(1+(1+1)))*x2 + (((1+1)*(1+(1+1)))*x3))))*x1 + (((((1+1)*(1+(1+1)))*x2 +
    (((1+1)*((1+1)*(1+(1+1))))*x3))*x2 + (((1+1)*(1+(1+1)))*x3*x3))))*x1 + (((((1+1)*x2 +
    (((1+1)*(1+(1+1)))*x3))*x2 + (((1+1)*(1+(1+1)))*x3*x3))*x2 + ((1+1)*x3*x3*x3)))))))))))).
  - clear HR. subst. ring.
  - rewrite HR. ring.
Qed.
Lemma id_x01 : lines ->
    (y3 - y4)*(y3 - y4)*((y1 + y5)*(y1 + y5)) - (x1*x1 + x1*x5 + x5*x5 + a)*(x1*x1 + x1*x5 + x5*x5 + a)*((x3
    - x4)*(x3 - x4)) - (x4 + x3 - x1 - x5)*((x3 - x4)*(x3 - x4))*((y1 + y5)*(y1 + y5)) = 0.
Proof.
  intros [Hy2 [Hy3 [Ha [HR [Hx4 [Hy4 [Hx5 Hy5]]]]]]]. apply (by_cofactor _ (m*(y2+y3) - (x2*x2+x2*x3+x3*x3+a))
    (((((((((1+1)*l + ((1+1)*m))*l + (((1+1)*m*m + (((0 - ((1+1)*(1+1)))*x1 + (((0 - ((1+1)*(1+1)))*x2 + ((0
    - ((1+1)*(1+1)))*x3))))))))*l + (((1+1)*m*m + (((0 - ((1+1)*(1+1)))*x1 + (((0 - ((1+1)*(1+1)))*x2 + ((0 -
    ((1+1)*(1+1)))*x3))))))*m))*l + ((((1+1)*m*m + (((0 - ((1+1)*(1+1)))*x1 + (((0 - ((1+1)*(1+1)))*x2 + ((0
    - ((1+1)*(1+1)))*x3))))))*m*m + ((((((1+1)*((1+1)*(1+1)))*x2 + (((1+1)*(1+1))*x3)))*x1 +
    (((((1+1)*(1+1))*x3)*x2 + ((1+1)*x3*x3))))))))*l + ((((1+1)*m*m + (((0 - ((1+1)*((1+1)*(1+1))))*x2 + ((0
    - ((1+1)*(1+1)))*x3))))*m*m + (((((1+1)*((1+1)*(1+1)))*x2 + (((1+1)*((1+1)*(1+1)))*x3))*x2 +
    ((1+1)*x3*x3))))*m)))*y1 + ((((((((((0 - 1)*x1 + (1*x2)))*l + ((((0 - (1+1))*x1 + ((1+1)*x2)))*m))*l +
    ((((1+1)*m*m + (((0 - 1)*x1 + (((0 - (1+1))*x2 + ((0 - (1+(1+1)))*x3))))))*m*m + (((1*x1 + (1*x2))*x1 +
    ((((0 - ((1+1)*(1+1)))*x2 + (1*x3))*x2 + (1*x3*x3))))))))*l + ((((1+1)*m*m + (((1+1)*x1 + (((0 -
    ((1+1)*(1+(1+1))))*x2 + ((0 - (1+1))*x3))))))*m*m + (((((1+1)*(1+1))*x1 + (((0 - ((1+1)*(1+(1+1))))*x2 +
    ((0 - (1+1))*x3))))*x1 + (((1+1)*x2 + ((1+1)*x3))*x2))))*m))*l + ((((((0 - (1+(1+1)))*x1 + (((0 -
    (1+1))*x2 + ((0 - 1)*x3)))))*m*m + ((((1+(1+1))*x1 + ((1*x2 + ((1+1)*x3))))*x1 + ((((1+1)*x2 +
    ((1+((1+1)*(1+(1+1))))*x3))*x2 + ((1+(1+1))*x3*x3))))))*m*m + (((((1+1)*x1 + ((0 -
    ((1+1)*(1+(1+1))))*x2))*x1 + (((((1+1)*(1+((1+1)*(1+1))))*x2 + (((1+1)*(1+1))*x3))*x2 + (1*x3*x3))))*x1 +
    (((((1+1)*x2 + ((0 - ((1+1)*(1+1)))*x3))*x2 + ((0 - (1+((1+1)*(1+(1+1)))))*x3*x3))*x2 + ((0 -
    (1+1))*x3*x3*x3))))))))*l + ((((((0 - ((1+1)*(1+1)))*x1 + ((0 - (1+1))*x2)))*m*m + ((((0 -
    ((1+1)*(1+1)))*x1 + ((((1+1)*((1+1)*(1+(1+1))))*x2 + ((1+1)*x3))))*x1 + ((((1+1)*(1+1))*x2 +
    (((1+1)*(1+1))*x3))*x2))))*m*m + (((((((1+1)*((1+1)*(1+1)))*x2 + (((1+1)*(1+1))*x3)))*x1 + (((0 -
    ((1+1)*((1+1)*(1+1))))*x2*x2 + ((1+1)*x3*x3))))*x1 + ((((0 - ((1+1)*(1+1)))*x3)*x2 + ((0 -
    (1+1))*x3*x3))*x2))))*m))*l + (((((((0 - 1)*x2 + (1*x3)))*m*m + ((((0 - 1)*x1 + ((0 - 1)*x2))*x1 +
    (((((1+1)*(1+1))*x2 + ((0 - 1)*x3))*x2 + ((0 - 1)*x3*x3))))))*m*m + (((((((1+1)*(1+1))*x2 +
    ((1+1)*x3)))*x1 + ((((1+1)*(1+1))*x2 + ((1+1)*x3))*x2))*x1 + (((((0 - ((1+1)*(1+1)))*x2 + ((0 -
    ((1+1)*(1+1)))*x3))*x2 + ((0 - (1+(1+1)))*x3*x3))*x2 + ((0 - 1)*x3*x3*x3))))))*m*m + (((((((0 -
    ((1+1)*(1+1)))*x2 + ((0 - ((1+1)*(1+1)))*x3))*x2 + ((0 - 1)*x3*x3)))*x1 + ((((0 - ((1+1)*(1+1)))*x2 + ((0
    - ((1+1)*(1+1)))*x3))*x2 + ((0 - 1)*x3*x3))*x2))*x1 + (((((((1+1)*(1+1))*x3)*x2 +
    (((1+1)*((1+1)*(1+1)))*x3*x3))*x2 + ((1+((1+1)*(1+1)))*x3*x3*x3))*x2 + (1*x3*x3*x3*x3)))))))))))).
  - clear HR. subst. ring.
  - rewrite HR. ring.
Qed.
Lemma id_x10 : lines ->
    (x3*x3 + x3*x4 + x4*x4 + a)*(x3*x3 + x3*x4 + x4*x4 + a)*((x5 - x1)*(x5 - x1)) - (y5 - y1)*(y5 - y1)*((y3
    + y4)*(y3 + y4)) - (x4 + x3 - x1 - x5)*((y3 + y4)*(y3 + y4))*((x5 - x1)*(x5 - x1)) = 0.
Proof.
  intros [Hy2 [Hy3 [Ha [HR [Hx4 [Hy4 [Hx5 Hy5]]]]]]]. apply (by_cofactor _ (m*(y2+y3) - (x2*x2+x2*x3+x3*x3+a))
    (((((((((1+1)*l + ((1+1)*m))*l + (((1+1)*m*m + (((0 - ((1+1)*(1+1)))*x1 + ((0 -
    ((1+1)*((1+1)*(1+1))))*x2))))))*l + (((1+1)*m*m + (((0 - ((1+1)*(1+1)))*x1 + (((0 - ((1+1)*(1+1)))*x2 +
    ((0 - ((1+1)*(1+1)))*x3))))))*m))*l + ((((((1+1)*(1+1))*x2 + ((0 - ((1+1)*(1+1)))*x3)))*x1 +
    (((((1+1)*(1+(1+1)))*x2 + ((0 - ((1+1)*(1+1)))*x3))*x2 + ((0 - (1+1))*x3*x3))))))*l + (((((0 - (1+1))*x2
    + (((1+1)*(1+1))*x3))*x2 + ((0 - (1+1))*x3*x3)))*m)))*y1 + ((((((((((0 - 1)*x1 + (1*x2)))*l + (((1+1)*m*m
    + (((0 - (1+1))*x1 + (((0 - (1+1))*x2 + ((0 - (1+1))*x3))))))*m))*l + ((((1*x1 + (((1+1)*x2 +
    ((1+(1+1))*x3)))))*m*m + (((1*x1 + (((0 - 1)*x2 + ((0 - ((1+1)*(1+1)))*x3))))*x1 + ((((0 -
    ((1+1)*(1+(1+1))))*x2 + ((0 - (1+((1+1)*(1+1))))*x3))*x2 + ((0 - (1+(1+1)))*x3*x3))))))))*l + (((((0 -
    ((1+1)*(1+1)))*x1 + (((0 - ((1+1)*(1+(1+1))))*x2 + (((1+1)*(1+1))*x3)))))*m*m + (((((1+1)*(1+1))*x1 +
    ((((1+1)*((1+1)*(1+1)))*x2 + ((1+1)*x3))))*x1 + ((((1+1)*((1+1)*(1+1)))*x2*x2 + ((0 -
    ((1+1)*(1+1)))*x3*x3))))))*m))*l + (((((1*x2 + ((0 - 1)*x3)))*m*m + ((((0 - (1+(1+1)))*x1 + (((0 -
    (1+((1+1)*(1+1))))*x2 + ((0 - ((1+1)*(1+1)))*x3))))*x1 + ((((0 - ((1+1)*(1+1)))*x2 + ((0 -
    (1+((1+1)*(1+1))))*x3))*x2 + ((1+(1+1))*x3*x3))))))*m*m + (((((1+1)*x1 + ((((1+1)*(1+1))*x2 +
    (((1+1)*((1+1)*(1+1)))*x3))))*x1 + ((((1+((1+1)*(1+(1+1))))*x2 + (((1+1)*(1+((1+1)*(1+(1+1)))))*x3))*x2 +
    ((1+(1+1))*x3*x3))))*x1 + (((((1+((1+1)*(1+(1+1))))*x2 + (((1+1)*((1+1)*(1+1)))*x3))*x2 +
    ((1+(1+1))*x3*x3))*x2 + ((0 - (1+1))*x3*x3*x3))))))))*l + ((((((((1+1)*(1+(1+1)))*x2 + ((0 -
    ((1+1)*(1+(1+1))))*x3)))*x1 + ((((1+1)*(1+(1+1)))*x2 + ((0 - ((1+1)*(1+(1+1))))*x3))*x2)))*m*m + ((((((0
    - ((1+1)*(1+1)))*x2 + (((1+1)*(1+1))*x3)))*x1 + ((((0 - ((1+1)*(1+((1+1)*(1+1)))))*x2 +
    (((1+1)*(1+1))*x3))*x2 + (((1+1)*(1+(1+1)))*x3*x3))))*x1 + ((((0 - ((1+1)*(1+((1+1)*(1+1)))))*x2 +
    (((1+1)*(1+1))*x3))*x2 + (((1+1)*(1+(1+1)))*x3*x3))*x2))))*m))*l + (((((((0 - (1+1))*x2 +
    (((1+1)*(1+1))*x3))*x2 + ((0 - (1+1))*x3*x3)))*m*m + (((((1+(1+1))*x2 + ((0 - (1+(1+1)))*x3))*x2 + ((0 -
    (1+(1+1)))*x3*x3))*x2 + ((1+(1+1))*x3*x3*x3))))*m*m + ((((((1*x2 + ((0 - (1+1))*x3))*x2 + (1*x3*x3)))*x1
    + (((1*x2 + ((0 - (1+1))*x3))*x2 + (1*x3*x3))*x2))*x1 + ((((((0 - 1)*x3)*x2 + (1*x3*x3))*x2 +
    (1*x3*x3*x3))*x2 + ((0 - 1)*x3*x3*x3*x3)))))))))))).
  - clear HR. subst. ring.
  - rewrite HR. ring.
Qed.
Lemma id_x11 : lines ->
    (x3*x3 + x3*x4 + x4*x4 + a)*(x3*x3 + x3*x4 + x4*x4 + a)*((y1 + y5)*(y1 + y5)) - (x1*x1 + x1*x5 + x5*x5 +
    a)*(x1*x1 + x1*x5 + x5*x5 + a)*((y3 + y4)*(y3 + y4)) - (x4 + x3 - x1 - x5)*((y3 + y4)*(y3 + y4))*((y1 +
    y5)*(y1 + y5)) = 0.
Proof.
  intros [Hy2 [Hy3 [Ha [HR [Hx4 [Hy4 [Hx5 Hy5]]]]]]]. apply (by_cofactor _ (m*(y2+y3) - (x2*x2+x2*x3+x3*x3+a))
    (((((((((1+1)*l + ((1+1)*m))*l + (((1+1)*m*m + (((0 - ((1+1)*(1+1)))*x1 + ((0 -
    ((1+1)*((1+1)*(1+1))))*x2))))))*l + (((1+1)*m*m + (((0 - ((1+1)*(1+1)))*x1 + (((0 - ((1+1)*(1+1)))*x2 +
    ((0 - ((1+1)*(1+1)))*x3))))))*m))*l + ((((1+1)*m*m + (((0 - ((1+1)*(1+1)))*x1 + (((0 - ((1+1)*(1+1)))*x2
    + ((0 - ((1+1)*(1+1)))*x3))))))*m*m + (((((1+1)*((1+1)*(1+(1+1))))*x2)*x1 +
    (((1+1)*(1+(1+1)))*x2*x2))))))*l + ((((1+1)*m*m + (((0 - ((1+1)*((1+1)*(1+1))))*x2 + ((0 -
    ((1+1)*(1+1)))*x3))))*m*m + ((((1+1)*(1+(1+1)))*x2 + (((1+1)*((1+1)*(1+(1+1))))*x3))*x2))*m))*l*l)*y1 +
    (((((((((((0 - 1)*x1 + (1*x2)))*l + ((((0 - (1+1))*x1 + ((1+1)*x2)))*m))*l + ((((1+1)*m*m + (((0 - 1)*x1
    + (((0 - (1+1))*x2 + ((0 - (1+(1+1)))*x3))))))*m*m + (((1*x1 + (((1+(1+1))*x2 + ((0 - (1+1))*x3))))*x1 +
    ((((0 - ((1+1)*(1+(1+1))))*x2 + ((1+(1+1))*x3))*x2 + (1*x3*x3))))))))*l + ((((1+1)*m*m + (((1+1)*x1 +
    (((0 - ((1+1)*(1+(1+1))))*x2 + ((0 - (1+1))*x3))))))*m*m + (((((1+1)*(1+1))*x1 + (((0 - ((1+1)*(1+1)))*x2
    + ((0 - ((1+1)*(1+1)))*x3))))*x1 + ((((1+1)*(1+1))*x3)*x2))))*m))*l + ((((((0 - (1+(1+1)))*x1 + (((0 -
    ((1+1)*(1+(1+1))))*x2 + ((1+(1+1))*x3)))))*m*m + ((((1+(1+1))*x1 + (((0 - 1)*x2 +
    (((1+1)*(1+1))*x3))))*x1 + (((((1+1)*(1+((1+1)*(1+1))))*x2 + ((1+((1+1)*(1+1)))*x3))*x2 + ((0 -
    (1+(1+1)))*x3*x3))))))*m*m + (((((1+1)*x1 + (((0 - ((1+1)*((1+1)*(1+1))))*x2 + ((1+1)*x3))))*x1 +
    ((((1+((1+1)*(1+((1+1)*(1+1)))))*x2 + (((1+1)*(1+(1+1)))*x3))*x2 + ((0 - (1+1))*x3*x3))))*x1 +
    ((((1+((1+1)*(1+(1+1))))*x2 + ((0 - ((1+1)*(1+((1+1)*(1+(1+1))))))*x3))*x2 + ((0 -
    ((1+1)*(1+1)))*x3*x3))*x2))))))*l + ((((((0 - ((1+1)*(1+1)))*x1 + ((0 - (1+1))*x2)))*m*m + ((((0 -
    ((1+1)*(1+1)))*x1 + ((((1+1)*(1+((1+1)*(1+1))))*x2 + (((1+1)*(1+1))*x3))))*x1 +
    (((((1+1)*((1+1)*(1+1)))*x2 + ((0 - (1+1))*x3))*x2 + ((1+1)*x3*x3))))))*m*m + (((((((1+1)*(1+1))*x2 +
    (((1+1)*((1+1)*(1+1)))*x3)))*x1 + (((0 - (1+1))*x2 + ((0 - ((1+1)*(1+1)))*x3))*x2))*x1 + ((((0 -
    ((1+1)*(1+(1+1))))*x2 + ((1+1)*x3))*x2*x2 + ((0 - (1+1))*x3*x3*x3))))))*m))*l + ((((((1*x2 + ((0 -
    1)*x3)))*m*m + ((((0 - 1)*x1 + (((1+((1+1)*(1+1)))*x2 + ((0 - ((1+1)*(1+(1+1))))*x3))))*x1 + ((((1+1)*x2
    + ((0 - (1+(1+1)))*x3))*x2 + ((1+(1+1))*x3*x3))))))*m*m + (((((((1+1)*(1+1))*x2 + ((1+1)*x3)))*x1 + ((((0
    - (1+1))*x2 + ((1+1)*x3))*x2 + (((1+1)*(1+(1+1)))*x3*x3))))*x1 + ((((0 - (1+((1+1)*((1+1)*(1+1)))))*x2 +
    ((0 - 1)*x3))*x2*x2 + ((0 - (1+1))*x3*x3*x3))))))*m*m + ((((((0 - (1+(1+1)))*x2 + ((0 -
    ((1+1)*(1+(1+1))))*x3))*x2)*x1 + (((0 - (1+((1+1)*(1+((1+1)*(1+(1+1)))))))*x2*x2 +
    (((1+1)*(1+(1+1)))*x3*x3))*x2))*x1 + ((((1+((1+1)*(1+((1+1)*(1+(1+1))))))*x3)*x2 +
    ((1+(1+1))*x3*x3))*x2*x2))))))*l + ((((((((1+1)*x2 + ((0 - (1+1))*x3)))*x1 + (((0 - (1+1))*x2 +
    ((1+1)*x3))*x2)))*m*m + ((((((0 - ((1+1)*(1+((1+1)*(1+1)))))*x2 + (((1+1)*((1+1)*(1+1)))*x3))*x2 +
    ((1+1)*x3*x3)))*x1 + (((((1+1)*(1+1))*x2 + (((1+1)*(1+1))*x3))*x2 + ((0 -
    ((1+1)*((1+1)*(1+1))))*x3*x3))*x2))))*m*m + (((((((1+1)*((1+1)*(1+(1+1))))*x2 + ((0 -
    ((1+1)*(1+(1+1))))*x3))*x2 + ((0 - ((1+1)*(1+(1+1))))*x3*x3))*x2)*x1 + (((((0 -
    ((1+1)*((1+1)*(1+(1+1)))))*x3)*x2 + (((1+1)*(1+(1+1)))*x3*x3))*x2 +
    (((1+1)*(1+(1+1)))*x3*x3*x3))*x2))))*m))*l)))).
  - clear HR. subst. ring.
  - rewrite HR. ring.
Qed.
Lemma id_y00 : lines ->
    (y3 - y4)*(x5 - x1)*(x3*((x3 - x4)*(x3 - x4)) - ((y3 - y4)*(y3 - y4) - (x4 + x3)*((x3 - x4)*(x3 - x4))))
    - (y5 - y1)*(x3 - x4)*(x1*((x3 - x4)*(x3 - x4)) - ((y3 - y4)*(y3 - y4) - (x4 + x3)*((x3 - x4)*(x3 -
    x4)))) - (y3 - y1)*((x3 - x4)*(x3 - x4))*(x3 - x4)*(x5 - x1) = 0.
Proof.
  intros [Hy2 [Hy3 [Ha [HR [Hx4 [Hy4 [Hx5 Hy5]]]]]]]. apply (by_cofactor _ (m*(y2+y3) - (x2*x2+x2*x3+x3*x3+a))
    ((((((0 - ((1+1)*(1+1)))*l + ((0 - ((1+1)*(1+1)))*m)))*y1 + ((((((0 - ((1+1)*(1+1)))*l + ((0 -
    ((1+1)*(1+1)))*m))*l + (((1+1)*m*m + ((((1+1)*(1+((1+1)*(1+1))))*x1 + (((0 - (1+1))*x2 + ((0 -
    (1+1))*x3))))))))*l + (((((1+1)*((1+1)*(1+(1+1))))*x1 + ((((1+1)*(1+1))*x2 + ((0 -
    ((1+1)*(1+1)))*x3)))))*m))*l + (((((0 - (1+1))*x1 + (((1+1)*x2 + ((0 - ((1+1)*(1+(1+1))))*x3)))))*m*m +
    ((((1+1)*x1 + ((((1+1)*(1+1))*x2 + (((1+1)*(1+1))*x3))))*x1 + ((((1+1)*x2 + (((1+1)*(1+1))*x3))*x2 +
    ((1+1)*x3*x3))))))))))*y1 + (((((((((1+1)*m*m + (((1+1)*x1 + (((0 - (1+((1+1)*(1+1))))*x2 + ((0 -
    (1+(1+1)))*x3)))))))*l + (((((1+1)*(1+1))*x1 + (((0 - 1)*x2 + ((0 - (1+(1+1)))*x3)))))*m))*l + (((((0 -
    ((1+1)*(1+(1+1))))*x1 + (((0 - 1)*x2 + ((0 - (1+((1+1)*(1+1))))*x3)))))*m*m + ((((0 - (1+1))*x1 +
    (((1+((1+1)*((1+1)*(1+(1+1)))))*x2 + ((1+((1+1)*((1+1)*(1+1))))*x3))))*x1 + (((((1+1)*(1+(1+1)))*x2 +
    (((1+1)*((1+1)*(1+1)))*x3))*x2 + ((1+1)*x3*x3))))))))*l + (((((0 - 1)*x2 + (1*x3)))*m*m + ((((0 -
    ((1+1)*((1+1)*(1+1))))*x1 + (((0 - 1)*x2 + ((1+((1+1)*(1+1)))*x3))))*x1 + (((((1+1)*(1+1))*x2 +
    ((1+1)*x3))*x2 + ((0 - (1+1))*x3*x3))))))*m))*l + (((((((1+1)*(1+1))*x1 + (((0 - 1)*x2 +
    ((1+((1+1)*(1+((1+1)*(1+1)))))*x3))))*x1 + ((((1+1)*(1+1))*x3)*x2)))*m*m + (((((0 - ((1+1)*(1+1)))*x1 +
    (((0 - ((1+1)*(1+((1+1)*(1+1)))))*x2 + ((0 - ((1+1)*((1+1)*(1+1))))*x3))))*x1 + ((((0 -
    ((1+1)*((1+1)*(1+1))))*x2 + ((0 - ((1+1)*((1+1)*(1+(1+1)))))*x3))*x2 + ((0 - ((1+1)*(1+1)))*x3*x3))))*x1
    + ((((0 - (1+1))*x2 + ((0 - ((1+1)*(1+1)))*x3))*x2 + ((0 - (1+1))*x3*x3))*x2))))))*l + ((((((1*x2 + ((0 -
    1)*x3)))*x1 + ((((1+1)*x3)*x2 + ((0 - (1+1))*x3*x3)))))*m*m + ((((((0 - (1+1))*x2 + ((1+1)*x3)))*x1 +
    (((0 - ((1+1)*(1+1)))*x2*x2 + (((1+1)*(1+1))*x3*x3))))*x1 + (((((0 - (1+1))*x2 + ((0 - (1+1))*x3))*x2 +
    ((1+1)*x3*x3))*x2 + ((1+1)*x3*x3*x3))))))*m)))))).
  - clear HR. subst. ring.
  - rewrite HR. ring.
Qed.
Lemma id_y01 : lines ->
    (y3 - y4)*(y1 + y5)*(x3*((x3 - x4)*(x3 - x4)) - ((y3 - y4)*(y3 - y4) - (x4 + x3)*((x3 - x4)*(x3 - x4))))
    - (x1*x1 + x1*x5 + x5*x5 + a)*(x3 - x4)*(x1*((x3 - x4)*(x3 - x4)) - ((y3 - y4)*(y3 - y4) - (x4 + x3)*((x3
    - x4)*(x3 - x4)))) - (y3 - y1)*((x3 - x4)*(x3 - x4))*(x3 - x4)*(y1 + y5) = 0.
Proof.
  intros [Hy2 [Hy3 [Ha [HR [Hx4 [Hy4 [Hx5 Hy5]]]]]]]. apply (by_cofactor _ (m*(y2+y3) - (x2*x2+x2*x3+x3*x3+a))
    ((((((((1+1)*(1+1))*l + (((1+1)*(1+1))*m))*l + ((((1+1)*(1+1))*m*m + (((0 - ((1+1)*((1+1)*(1+1))))*x2 +
    ((0 - ((1+1)*(1+1)))*x3)))))))*y1 + ((((((((1+1)*(1+1))*l + (((1+1)*(1+1))*m))*l + ((((1+1)*(1+1))*m*m +
    (((0 - ((1+1)*(1+((1+1)*(1+1)))))*x1 + (((0 - ((1+1)*(1+((1+1)*(1+1)))))*x2 + ((0 -
    ((1+1)*(1+1)))*x3))))))))*l + (((0 - (1+1))*m*m + (((0 - ((1+1)*((1+1)*(1+(1+1)))))*x1 +
    (((1+1)*(1+(1+1)))*x3))))*m))*l + (((((0 - ((1+1)*((1+1)*(1+(1+1)))))*x1 + (((0 - ((1+1)*(1+1)))*x2 +
    (((1+1)*(1+1))*x3)))))*m*m + ((((0 - (1+1))*x1 + ((((1+1)*((1+1)*((1+1)*(1+(1+1)))))*x2 +
    (((1+1)*(1+((1+1)*(1+1))))*x3))))*x1 + (((1+1)*x2 + ((1+1)*x3))*x2))))))*l + (((((1+1)*x1 + (((0 -
    (1+1))*x2 + (((1+1)*(1+(1+1)))*x3)))))*m*m + (((((0 - ((1+1)*(1+1)))*x2 + ((0 - (1+1))*x3)))*x1 +
    (((((1+1)*(1+1))*x2 + ((0 - ((1+1)*(1+((1+1)*(1+1)))))*x3))*x2 + ((0 -
    ((1+1)*(1+(1+1))))*x3*x3))))))*m))))*y1 + ((((((((((0 - (1+1))*x1 + ((1*x2 + (1*x3)))))*l + (((0 -
    (1+1))*m*m + (((0 - ((1+1)*(1+1)))*x1 + (((1+((1+1)*(1+1)))*x2 + ((1+((1+1)*(1+1)))*x3))))))*m))*l +
    (((((0 - ((1+1)*(1+1)))*x1 + ((1*x2 + ((1+(1+1))*x3)))))*m*m + ((((1+1)*x1 + (((1+((1+1)*(1+(1+1))))*x2 +
    (1*x3))))*x1 + (((0 - ((1+1)*(1+(1+1))))*x2 + ((0 - ((1+1)*(1+1)))*x3))*x2))))))*l +
    ((((((1+1)*(1+(1+1)))*x1 + ((1*x2 + ((1+((1+1)*(1+1)))*x3)))))*m*m + (((((1+1)*((1+1)*(1+1)))*x1 + (((0 -
    (1+((1+1)*(1+((1+1)*(1+1))))))*x2 + ((0 - (1+((1+1)*(1+((1+1)*(1+1))))))*x3))))*x1 + ((((0 -
    ((1+1)*(1+1)))*x2 + ((0 - ((1+1)*(1+((1+1)*(1+(1+1))))))*x3))*x2 + ((0 - ((1+1)*(1+1)))*x3*x3))))))*m))*l
    + (((((1*x2 + ((0 - 1)*x3)))*m*m + (((((1+1)*((1+1)*(1+1)))*x1 + (((1+1)*x2 + ((0 -
    ((1+1)*(1+(1+1))))*x3))))*x1 + ((((0 - ((1+1)*(1+1)))*x2 + ((0 - (1+(1+1)))*x3))*x2 +
    ((1+(1+1))*x3*x3))))))*m*m + ((((((1+1)*(1+1))*x1 + (((0 - ((1+1)*(1+((1+1)*(1+(1+1))))))*x2 + ((0 -
    ((1+1)*(1+1)))*x3))))*x1 + (((((1+1)*(1+(1+1)))*x2 + (1*x3))*x2 + ((0 - 1)*x3*x3))))*x1 +
    ((((((1+1)*(1+(1+1)))*x2 + (((1+1)*(1+(1+1)))*x3))*x2 + ((0 - (1+1))*x3*x3))*x2 + ((0 -
    (1+1))*x3*x3*x3))))))))*l + ((((((0 - ((1+1)*(1+1)))*x1 + ((1*x2 + ((0 -
    (1+((1+1)*(1+((1+1)*(1+1))))))*x3))))*x1 + (((0 - ((1+1)*(1+1)))*x3)*x2)))*m*m +
    (((((((1+1)*(1+((1+1)*(1+1))))*x2 + ((1+1)*x3)))*x1 + (((((1+1)*(1+((1+1)*(1+((1+1)*(1+1))))))*x3)*x2 +
    (((1+1)*((1+1)*(1+1)))*x3*x3))))*x1 + ((((1+1)*x2 + (((1+1)*(1+(1+1)))*x3))*x2 +
    (((1+1)*(1+1))*x3*x3))*x2))))*m))*l + ((((((((0 - 1)*x2 + (1*x3)))*x1 + ((((0 - (1+1))*x3)*x2 +
    ((1+1)*x3*x3)))))*m*m + (((((1*x2 + ((0 - 1)*x3)))*x1 + (((((1+1)*(1+1))*x2 + ((0 - 1)*x3))*x2 + ((0 -
    (1+(1+1)))*x3*x3))))*x1 + ((((1*x2 + ((1+((1+1)*(1+1)))*x3))*x2 + ((0 - (1+(1+1)))*x3*x3))*x2 + ((0 -
    (1+(1+1)))*x3*x3*x3))))))*m*m + (((((((0 - (1+1))*x2 + (1*x3))*x2 + (1*x3*x3)))*x1 + (((((0 -
    ((1+1)*(1+1)))*x2 + ((0 - (1+1))*x3))*x2 + (((1+1)*(1+1))*x3*x3))*x2 + ((1+1)*x3*x3*x3))))*x1 + ((((((0 -
    (1+1))*x2 + ((0 - (1+(1+1)))*x3))*x2 + (1*x3*x3))*x2 + ((1+(1+1))*x3*x3*x3))*x2 +
    (1*x3*x3*x3*x3)))))))))))).
  - clear HR. subst. ring.
  - rewrite HR. ring.
Qed.
Lemma id_y10 : lines ->
    (x3*x3 + x3*x4 + x4*x4 + a)*(x5 - x1)*(x3*((y3 + y4)*(y3 + y4)) - ((x3*x3 + x3*x4 + x4*x4 + a)*(x3*x3 +
    x3*x4 + x4*x4 + a) - (x4 + x3)*((y3 + y4)*(y3 + y4)))) - (y5 - y1)*(y3 + y4)*(x1*((y3 + y4)*(y3 + y4)) -
    ((x3*x3 + x3*x4 + x4*x4 + a)*(x3*x3 + x3*x4 + x4*x4 + a) - (x4 + x3)*((y3 + y4)*(y3 + y4)))) - (y3 -
    y1)*((y3 + y4)*(y3 + y4))*(y3 + y4)*(x5 - x1) = 0.
Proof.
  intros [Hy2 [Hy3 [Ha [HR [Hx4 [Hy4 [Hx5 Hy5]]]]]]]. apply (by_cofactor _ (m*(y2+y3) - (x2*x2+x2*x3+x3*x3+a))
    (((((((0 - ((1+1)*(1+1)))*l + ((0 - ((1+1)*(1+1)))*m))*l + ((((1+1)*(1+1))*x2 + ((0 -
    ((1+1)*(1+1)))*x3))))*l*l)*y1 + ((((((((0 - ((1+1)*(1+1)))*l + ((0 - ((1+1)*(1+1)))*m))*l + (((1+1)*m*m +
    ((((1+1)*(1+((1+1)*(1+1))))*x1 + ((((1+1)*(1+(1+1)))*x2 + ((0 - ((1+1)*(1+((1+1)*(1+1)))))*x3))))))))*l +
    (((((1+1)*((1+1)*(1+(1+1))))*x1 + ((((1+1)*(1+1))*x2 + ((0 - ((1+1)*(1+1)))*x3)))))*m))*l + (((((0 -
    (1+1))*x1 + ((0 - ((1+1)*(1+1)))*x2)))*m*m + ((((1+1)*x1 + (((0 - ((1+1)*(1+((1+1)*(1+1)))))*x2 +
    (((1+1)*(1+((1+1)*((1+1)*(1+1)))))*x3))))*x1 + (((((1+1)*((1+1)*((1+1)*(1+1))))*x3)*x2 + ((0 -
    ((1+1)*((1+1)*(1+1))))*x3*x3))))))))*l + (((((1+1)*x2 + ((0 - (1+1))*x3)))*m*m + (((((0 -
    ((1+1)*(1+(1+1))))*x2 + (((1+1)*(1+(1+1)))*x3)))*x1 + ((((0 - (1+1))*x2 + (((1+1)*(1+1))*x3))*x2 + ((0 -
    (1+1))*x3*x3))))))*m))*l + (((((((1+1)*(1+1))*x2 + ((0 - ((1+1)*((1+1)*(1+1))))*x3))*x2 +
    (((1+1)*(1+1))*x3*x3)))*x1 + (((((0 - ((1+1)*(1+1)))*x3)*x2 + (((1+1)*((1+1)*(1+1)))*x3*x3))*x2 + ((0 -
    ((1+1)*(1+1)))*x3*x3*x3))))))*l))*y1 + ((((((((((((1+1)*m*m + (((1+1)*x1 + (((0 - (1+((1+1)*(1+1))))*x2 +
    ((0 - (1+(1+1)))*x3)))))))*l + (((((1+1)*(1+1))*x1 + (((0 - 1)*x2 + ((0 - (1+(1+1)))*x3)))))*m))*l +
    (((((0 - ((1+1)*(1+(1+1))))*x1 + (((0 - (1+((1+1)*(1+1))))*x2 + ((0 - 1)*x3)))))*m*m + ((((0 - (1+1))*x1
    + (((1+((1+1)*(1+(1+1))))*x2 + ((1+((1+1)*(1+((1+1)*(1+(1+1))))))*x3))))*x1 +
    ((((1+((1+1)*((1+1)*((1+1)*(1+1)))))*x2 + (((1+1)*(1+1))*x3))*x2 + ((0 -
    (1+((1+1)*(1+1))))*x3*x3))))))))*l + (((((1+(1+1))*x2 + ((0 - (1+(1+1)))*x3)))*m*m + ((((0 -
    ((1+1)*((1+1)*(1+1))))*x1 + (((0 - (1+((1+1)*(1+(1+1)))))*x2 + ((1+((1+1)*(1+((1+1)*(1+1)))))*x3))))*x1 +
    ((((0 - ((1+1)*(1+1)))*x2 + (((1+1)*((1+1)*(1+(1+1))))*x3))*x2 + ((0 - ((1+1)*(1+1)))*x3*x3))))))*m))*l +
    (((((((1+1)*(1+1))*x1 + (((1+1)*(1+((1+1)*(1+1))))*x2))*x1 + ((1*x2 + ((1+(1+1))*x3))*x2)))*m*m + (((((0
    - ((1+1)*(1+1)))*x1 + (((0 - (1+(1+1)))*x2 + ((0 - (1+((1+1)*(1+((1+1)*(1+(1+1)))))))*x3))))*x1 + ((((0 -
    ((1+1)*(1+((1+1)*((1+1)*(1+1))))))*x2 + ((0 - (1+((1+1)*((1+1)*(1+((1+1)*(1+1)))))))*x3))*x2 +
    ((1+((1+1)*(1+((1+1)*(1+(1+1))))))*x3*x3))))*x1 + (((((0 - (1+((1+1)*((1+1)*((1+1)*(1+1))))))*x2 +
    (((1+1)*(1+(1+1)))*x3))*x2 + ((1+((1+1)*((1+1)*(1+1))))*x3*x3))*x2 + ((0 -
    ((1+1)*(1+(1+1))))*x3*x3*x3))))))))*l + (((((((0 - (1+((1+1)*(1+1))))*x2 + ((1+((1+1)*(1+1)))*x3)))*x1 +
    (((0 - ((1+1)*(1+1)))*x2 + (((1+1)*(1+1))*x3))*x2)))*m*m + (((((((1+1)*(1+((1+1)*(1+1))))*x2 + ((0 -
    ((1+1)*(1+((1+1)*(1+1)))))*x3)))*x1 + (((((1+1)*((1+1)*(1+(1+1))))*x2 + ((0 -
    ((1+1)*((1+1)*(1+((1+1)*(1+1))))))*x3))*x2 + (((1+1)*((1+1)*(1+1)))*x3*x3))))*x1 +
    (((((1+((1+1)*(1+((1+1)*(1+1)))))*x2 + ((0 - (1+((1+1)*((1+1)*(1+((1+1)*(1+1)))))))*x3))*x2 +
    ((1+((1+1)*((1+1)*(1+(1+1)))))*x3*x3))*x2 + ((0 - (1+(1+1)))*x3*x3*x3))))))*m))*l + ((((((1*x2 + ((0 -
    (1+1))*x3))*x2 + (1*x3*x3)))*m*m + ((((((0 - 1)*x2 + (1*x3)))*x1 + (((0 - 1)*x2 + (1*x3))*x2))*x1 +
    ((((1*x2 + (1*x3))*x2 + ((0 - (1+(1+1)))*x3*x3))*x2 + (1*x3*x3*x3))))))*m*m + ((((((1*x2 + ((0 -
    1)*x3)))*x1 + ((((0 - (1+(1+1)))*x2 + ((1+((1+1)*((1+1)*(1+1))))*x3))*x2 + ((0 -
    ((1+1)*(1+(1+1))))*x3*x3))))*x1 + ((((((1+1)*(1+1))*x2 + ((1+(1+1))*x3))*x2 + ((0 -
    ((1+1)*(1+((1+1)*((1+1)*(1+1))))))*x3*x3))*x2 + ((1+((1+1)*(1+((1+1)*(1+1)))))*x3*x3*x3))))*x1 +
    (((((((1+1)*(1+1))*x2 + ((0 - ((1+1)*((1+1)*(1+1))))*x3))*x2 + ((0 - (1+(1+1)))*x3*x3))*x2 +
    (((1+1)*(1+((1+1)*(1+1))))*x3*x3*x3))*x2 + ((0 - (1+(1+1)))*x3*x3*x3*x3))))))))*l + (((((((1*x2 + ((0 -
    (1+1))*x3))*x2 + (1*x3*x3)))*x1 + ((((0 - 1)*x2 + ((1+1)*x3))*x2 + ((0 - 1)*x3*x3))*x2)))*m*m + (((((((0
    - (1+1))*x2 + (((1+1)*(1+1))*x3))*x2 + ((0 - (1+1))*x3*x3)))*x1 + (((((0 - (1+(1+1)))*x2 +
    (((1+1)*(1+((1+1)*(1+1))))*x3))*x2 + ((0 - (1+((1+1)*(1+((1+1)*(1+1))))))*x3*x3))*x2 +
    (((1+1)*(1+1))*x3*x3*x3))))*x1 + (((((0 - ((1+1)*(1+1)))*x2 + ((1+((1+1)*((1+1)*(1+(1+1)))))*x3))*x2 +
    ((0 - ((1+1)*(1+((1+1)*(1+(1+1))))))*x3*x3))*x2 + ((1+((1+1)*(1+1)))*x3*x3*x3))*x2))))*m))*l +
    (((((((1*x2 + ((0 - ((1+1)*(1+1)))*x3))*x2 + (((1+1)*(1+(1+1)))*x3*x3))*x2 + ((0 -
    ((1+1)*(1+1)))*x3*x3*x3))*x2 + (1*x3*x3*x3*x3)))*m*m + (((((((1*x2 + ((0 - (1+(1+1)))*x3))*x2 +
    ((1+(1+1))*x3*x3))*x2 + ((0 - 1)*x3*x3*x3)))*x1 + ((((((0 - (1+1))*x3)*x2 + (((1+1)*(1+(1+1)))*x3*x3))*x2
    + ((0 - ((1+1)*(1+(1+1))))*x3*x3*x3))*x2 + ((1+1)*x3*x3*x3*x3))))*x1 + (((((1*x3*x3)*x2 + ((0 -
    (1+(1+1)))*x3*x3*x3))*x2 + ((1+(1+1))*x3*x3*x3*x3))*x2 + ((0 - 1)*x3*x3*x3*x3*x3)))))))))))).
  - clear HR. subst. ring.
  - rewrite HR. ring.
Qed.
Lemma id_y11 : lines ->
    (x3*x3 + x3*x4 + x4*x4 + a)*(y1 + y5)*(x3*((y3 + y4)*(y3 + y4)) - ((x3*x3 + x3*x4 + x4*x4 + a)*(x3*x3 +
    x3*x4 + x4*x4 + a) - (x4 + x3)*((y3 + y4)*(y3 + y4)))) - (x1*x1 + x1*x5 + x5*x5 + a)*(y3 + y4)*(x1*((y3 +
    y4)*(y3 + y4)) - ((x3*x3 + x3*x4 + x4*x4 + a)*(x3*x3 + x3*x4 + x4*x4 + a) - (x4 + x3)*((y3 + y4)*(y3 +
    y4)))) - (y3 - y1)*((y3 + y4)*(y3 + y4))*(y3 + y4)*(y1 + y5) = 0.
Proof.
  intros [Hy2 [Hy3 [Ha [HR [Hx4 [Hy4 [Hx5 Hy5]]]]]]]. apply (by_cofactor _ (m*(y2+y3) - (x2*x2+x2*x3+x3*x3+a))
    ((((((((1+1)*(1+1))*l + (((1+1)*(1+1))*m))*l + ((((1+1)*(1+1))*m*m + ((0 -
    ((1+1)*((1+1)*(1+(1+1)))))*x2))))*l*l*l)*y1 + (((((((((1+1)*(1+1))*l + (((1+1)*(1+1))*m))*l +
    ((((1+1)*(1+1))*m*m + (((0 - ((1+1)*(1+((1+1)*(1+1)))))*x1 + (((0 - ((1+1)*(1+((1+1)*((1+1)*(1+1))))))*x2
    + (((1+1)*(1+1))*x3))))))))*l + (((0 - (1+1))*m*m + (((0 - ((1+1)*((1+1)*(1+(1+1)))))*x1 +
    (((1+1)*(1+(1+1)))*x3))))*m))*l + (((((0 - ((1+1)*((1+1)*(1+(1+1)))))*x1 + (((0 - ((1+1)*(1+1)))*x2 +
    (((1+1)*(1+1))*x3)))))*m*m + ((((0 - (1+1))*x1 + ((((1+1)*(1+((1+1)*(1+((1+1)*((1+1)*(1+1)))))))*x2 + ((0
    - ((1+1)*(1+1)))*x3))))*x1 + (((((1+1)*((1+1)*((1+1)*(1+1))))*x2 + ((0 -
    ((1+1)*((1+1)*((1+1)*(1+1)))))*x3))*x2 + (((1+1)*(1+1))*x3*x3))))))))*l + (((((1+1)*x1 +
    (((1+1)*(1+1))*x2)))*m*m + (((((1+1)*x2 + ((0 - ((1+1)*((1+1)*(1+1))))*x3)))*x1 + ((((0 -
    ((1+1)*(1+((1+1)*(1+1)))))*x2 + ((0 - ((1+1)*(1+(1+1))))*x3))*x2 + (((1+1)*(1+1))*x3*x3))))))*m))*l +
    ((((((0 - (1+1))*x2 + ((1+1)*x3)))*m*m + ((((((1+1)*(1+1))*x2 + ((0 - ((1+1)*(1+1)))*x3)))*x1 +
    (((((1+1)*(1+1))*x2 + ((0 - ((1+1)*(1+(1+1))))*x3))*x2 + ((1+1)*x3*x3))))))*m*m + (((((0 -
    ((1+1)*((1+1)*(1+(1+1)))))*x2 + (((1+1)*((1+1)*(1+(1+1))))*x3))*x2)*x1 +
    (((((1+1)*((1+1)*(1+(1+1))))*x3)*x2 + ((0 - ((1+1)*((1+1)*(1+(1+1)))))*x3*x3))*x2))))))*l*l))*y1 +
    ((((((((((((0 - (1+1))*x1 + ((1*x2 + (1*x3)))))*l + (((0 - (1+1))*m*m + (((0 - ((1+1)*(1+1)))*x1 +
    (((1+((1+1)*(1+1)))*x2 + ((1+((1+1)*(1+1)))*x3))))))*m))*l + (((((0 - ((1+1)*(1+1)))*x1 + ((1*x2 +
    ((1+(1+1))*x3)))))*m*m + ((((1+1)*x1 + (((1+((1+1)*((1+1)*(1+(1+1)))))*x2 + ((0 -
    (1+((1+1)*(1+1))))*x3))))*x1 + ((((0 - (1+((1+1)*((1+1)*(1+1)))))*x2 + ((0 - ((1+1)*(1+1)))*x3))*x2 +
    ((1+(1+1))*x3*x3))))))))*l + ((((((1+1)*(1+(1+1)))*x1 + (((1+((1+1)*(1+1)))*x2 + (1*x3)))))*m*m +
    (((((1+1)*((1+1)*(1+1)))*x1 + (((0 - (1+((1+1)*(1+1))))*x2 + ((0 -
    (1+((1+1)*((1+1)*((1+1)*(1+1))))))*x3))))*x1 + ((((0 - ((1+1)*((1+1)*(1+(1+1)))))*x2 + ((0 -
    ((1+1)*((1+1)*((1+1)*(1+1)))))*x3))*x2 + (((1+1)*(1+(1+1)))*x3*x3))))))*m))*l + ((((((0 - (1+(1+1)))*x2 +
    ((1+(1+1))*x3)))*m*m + (((((1+1)*((1+1)*(1+1)))*x1 + ((((1+1)*(1+1))*x2 + ((0 -
    ((1+1)*((1+1)*(1+1))))*x3))))*x1 + (((((1+1)*(1+1))*x2 + ((0 - (1+((1+1)*((1+1)*(1+1)))))*x3))*x2 +
    (1*x3*x3))))))*m*m + ((((((1+1)*(1+1))*x1 + (((0 - (1+((1+1)*((1+1)*(1+((1+1)*(1+1)))))))*x2 +
    ((1+(1+1))*x3))))*x1 + ((((0 - ((1+1)*(1+((1+1)*(1+1)))))*x2 +
    ((1+((1+1)*(1+((1+1)*(1+((1+1)*(1+1)))))))*x3))*x2 + ((0 - (1+((1+1)*(1+(1+1)))))*x3*x3))))*x1 +
    (((((1+((1+1)*(1+((1+1)*((1+1)*(1+1))))))*x2 + (1*x3))*x2 + ((0 -
    ((1+1)*(1+((1+1)*(1+(1+1))))))*x3*x3))*x2 + ((1+1)*x3*x3*x3))))))))*l + ((((((0 - ((1+1)*(1+1)))*x1 + ((0
    - ((1+1)*(1+((1+1)*(1+1)))))*x2))*x1 + (((0 - 1)*x2 + ((0 - (1+(1+1)))*x3))*x2)))*m*m + ((((((0 -
    (1+1))*x2 + (((1+1)*(1+((1+1)*(1+(1+1)))))*x3)))*x1 + (((((1+1)*(1+((1+1)*((1+1)*(1+1)))))*x2 +
    ((1+((1+1)*((1+1)*((1+1)*(1+(1+1))))))*x3))*x2 + ((0 - (1+((1+1)*((1+1)*(1+(1+1))))))*x3*x3))))*x1 +
    (((((0 - 1)*x2 + (((1+1)*((1+1)*((1+1)*(1+(1+1)))))*x3))*x2 + ((0 -
    ((1+1)*(1+((1+1)*(1+(1+1))))))*x3*x3))*x2 + ((1+(1+1))*x3*x3*x3))))))*m))*l + ((((((((1+((1+1)*(1+1)))*x2
    + ((0 - (1+((1+1)*(1+1))))*x3)))*x1 + ((((1+1)*(1+1))*x2 + ((0 - ((1+1)*(1+1)))*x3))*x2)))*m*m + ((((((0
    - (1+((1+1)*(1+1))))*x2 + ((1+((1+1)*(1+1)))*x3)))*x1 + ((((0 - (1+((1+1)*((1+1)*(1+1)))))*x2 +
    ((1+((1+1)*((1+1)*(1+(1+1)))))*x3))*x2 + ((0 - ((1+1)*(1+1)))*x3*x3))))*x1 + ((((0 -
    (1+((1+1)*(1+(1+1)))))*x2 + (((1+1)*(1+(1+1)))*x3))*x2 + (1*x3*x3))*x2))))*m*m + (((((((0 - 1)*x2 +
    (1*x3)))*x1 + (((1+((1+1)*(1+((1+1)*(1+(1+1))))))*x2 + ((0 -
    (1+((1+1)*(1+((1+1)*(1+(1+1)))))))*x3))*x2))*x1 + (((((0 - ((1+1)*(1+1)))*x2 + ((0 -
    (1+((1+1)*((1+1)*(1+((1+1)*(1+1)))))))*x3))*x2 + ((1+((1+1)*(1+((1+1)*((1+1)*(1+(1+1)))))))*x3*x3))*x2 +
    ((0 - (1+1))*x3*x3*x3))))*x1 + ((((((0 - ((1+1)*((1+1)*(1+(1+1)))))*x2 + (((1+1)*(1+1))*x3))*x2 +
    ((1+((1+1)*(1+((1+1)*(1+(1+1))))))*x3*x3))*x2 + ((0 - ((1+1)*((1+1)*(1+1))))*x3*x3*x3))*x2 +
    (1*x3*x3*x3*x3))))))))*l + (((((((0 - 1)*x2 + ((1+1)*x3))*x2 + ((0 - 1)*x3*x3)))*m*m + (((((1*x2 + ((0 -
    1)*x3)))*x1 + (((1*x3)*x2 + ((0 - 1)*x3*x3))))*x1 + (((0 - 1)*x2*x2 + (1*x3*x3))*x2))))*m*m + (((((((0 -
    (1+(1+1)))*x3)*x2 + ((1+(1+1))*x3*x3)))*x1 + ((((1*x2 + ((0 - (1+((1+1)*((1+1)*(1+1)))))*x3))*x2 +
    (((1+1)*((1+1)*(1+(1+1))))*x3*x3))*x2 + ((0 - ((1+1)*(1+1)))*x3*x3*x3))))*x1 +
    (((((((1+1)*((1+1)*(1+(1+1))))*x2 + ((0 - (1+((1+1)*(1+((1+1)*((1+1)*(1+1)))))))*x3))*x2 +
    ((1+((1+1)*((1+1)*(1+1))))*x3*x3))*x2 + ((0 - (1+(1+1)))*x3*x3*x3))*x2 + (1*x3*x3*x3*x3))))))*m))*l +
    (((((((((0 - 1)*x2 + ((1+1)*x3))*x2 + ((0 - 1)*x3*x3)))*x1 + (((1*x2 + ((0 - (1+1))*x3))*x2 +
    (1*x3*x3))*x2)))*m*m + ((((((1*x2 + ((0 - (1+1))*x3))*x2 + (1*x3*x3)))*x1 + (((((1+1)*x2 + ((0 -
    (1+((1+1)*(1+1))))*x3))*x2 + (((1+1)*(1+1))*x3*x3))*x2 + ((0 - 1)*x3*x3*x3))))*x1 + (((((0 -
    (1+(1+1)))*x2 + ((1+((1+1)*(1+(1+1))))*x3))*x2 + ((0 - (1+((1+1)*(1+1))))*x3*x3))*x2 +
    (1*x3*x3*x3))*x2))))*m*m + (((((((0 - (1+(1+1)))*x2 + (((1+1)*(1+(1+1)))*x3))*x2 + ((0 -
    (1+(1+1)))*x3*x3))*x2)*x1 + ((((((1+1)*(1+(1+1)))*x3)*x2 + ((0 - ((1+1)*((1+1)*(1+(1+1)))))*x3*x3))*x2 +
    (((1+1)*(1+(1+1)))*x3*x3*x3))*x2))*x1 + (((((0 - (1+(1+1)))*x3*x3)*x2 + (((1+1)*(1+(1+1)))*x3*x3*x3))*x2
    + ((0 - (1+(1+1)))*x3*x3*x3*x3))*x2))))))*l)))).
  - clear HR. subst. ring.
  - rewrite HR. ring.
Qed.
End Ids.

Lemma frac_x : forall n k N D K E u, D <> 0 -> E <> 0 -> n * D = N -> k * E = K ->
  N*N*(E*E) - K*K*(D*D) - u*(D*D)*(E*E) = 0 -> n*n - u = k*k.
Proof.
  intros n k N D K E u HD HE <- <- H. apply (f_cancel ((D*D)*(E*E))); [repeat apply f_ne_mul; assumption|].
  apply f_sub0. rewrite <- H. ring.
Qed.
Lemma frac_y : forall n k N D K E x3 x4 x1 y1 y3, D <> 0 -> E <> 0 -> n * D = N -> k * E = K ->
  N*E*(x3*(D*D) - (N*N - (x4+x3)*(D*D))) - K*D*(x1*(D*D) - (N*N - (x4+x3)*(D*D))) - (y3 - y1)*(D*D)*D*E = 0 ->
  n*(x3 - (n*n - x4 - x3)) - y3 = k*(x1 - (n*n - x4 - x3)) - y1.
Proof.
  intros n k N D K E x3 x4 x1 y1 y3 HD HE <- <- H.
  apply (f_cancel ((D*D)*(D*E))); [repeat apply f_ne_mul; assumption|].
  apply f_sub0. rewrite <- H. ring.
Qed.

(** ** The curve *)
Variables a b : F.
Definition on (x y : F) : Prop := y*y = x*x*x + a*x + b.
Hypothesis nonsing : forall x, x*x*x + a*x + b = 0 -> (1+1+1)*x*x + a <> 0.

(** the slope of the line through two points that are not opposite *)
Definition slope (x1 y1 x2 y2 : F) : F :=
  if feq_dec x1 x2 then ((1+1+1)*x1*x1 + a) * finv (y1 + y1) else (y2 - y1) * finv (x2 - x1).
Definition padd (P Q : option (F * F)) : option (F * F) :=
  match P, Q with
  | None, _ => Q
  | _, None => P
  | Some (x1, y1), Some (x2, y2) =>
      if feq_dec x1 x2 then if feq_dec (y1 + y2) 0 then None
        else let l := slope x1 y1 x2 y2 in let x3 := l*l - x1 - x2 in Some (x3, l*(x1 - x3) - y1)
      else let l := slope x1 y1 x2 y2 in let x3 := l*l - x1 - x2 in Some (x3, l*(x1 - x3) - y1)
  end.
Definition pneg (P : option (F * F)) : option (F * F) :=
  match P with None => None | Some (x, y) => Some (x, - y) end.
Definition pon (P : option (F * F)) : Prop := match P with None => True | Some (x, y) => on x y end.

(** the two equations of the slope *)
Definition line x1 y1 x2 y2 l : Prop :=
  y2 - y1 = l*(x2 - x1) /\ l*(y1 + y2) = x1*x1 + x1*x2 + x2*x2 + a.
Definition opp (x1 y1 x2 y2 : F) : Prop := x1 = x2 /\ y1 + y2 = 0.
Lemma opp_dec : forall x1 y1 x2 y2, opp x1 y1 x2 y2 \/ ~ opp x1 y1 x2 y2.
Proof. intros. unfold opp. destruct (feq_dec x1 x2), (feq_dec (y1 + y2) 0); tauto. Qed.

Lemma same_x : forall x y1 y2, on x y1 -> on x y2 -> y1 + y2 <> 0 -> y1 = y2.
Proof.
  intros x y1 y2 H1 H2 N. unfold on in *. apply f_sub0.
  destruct (f_integral (y1 + y2) (y1 - y2)) as [E|E]; [|contradiction|exact E].
  transitivity (y1*y1 - y2*y2); [ring|]. rewrite H1, H2. ring.
Qed.
Lemma double_ne : forall y, y + y <> 0 -> y <> 0.
Proof. intros y H E. apply H. rewrite E. ring. Qed.
Lemma double_0 : forall y, y + y = 0 -> y = 0.
Proof.
  intros y H. destruct (f_integral (1+1) y) as [E|E]; [rewrite <- H; ring|contradiction|exact E].
Qed.
Lemma slope_line : forall x1 y1 x2 y2, on x1 y1 -> on x2 y2 -> ~ opp x1 y1 x2 y2 ->
  line x1 y1 x2 y2 (slope x1 y1 x2 y2).
Proof.
  intros x1 y1 x2 y2 H1 H2 N. unfold slope, line. destruct (feq_dec x1 x2) as [E|E].
  - subst x2. assert (S : y1 + y2 <> 0) by (intros C; apply N; split; [reflexivity|exact C]).
    assert (y2 = y1) as -> by (symmetry; apply (same_x x1); assumption).
    split; [ring|]. transitivity (((1+1+1)*x1*x1 + a) * ((y1 + y1) * finv (y1 + y1))); [ring|].
    rewrite finv_r by exact S. ring.
  - assert (D : x2 - x1 <> 0) by (apply f_sub_ne; intros C; apply E; symmetry; exact C).
    split; [transitivity ((y2 - y1) * ((x2 - x1) * finv (x2 - x1))); [rewrite finv_r by exact D; ring|ring]|].
    apply (f_cancel (x2 - x1)); [exact D|].
    transitivity ((y2*y2 - y1*y1) * ((x2 - x1) * finv (x2 - x1))); [ring|]. rewrite finv_r by exact D.
    unfold on in *. rewrite H1, H2. ring.
Qed.
Lemma padd_line : forall x1 y1 x2 y2, on x1 y1 -> on x2 y2 -> ~ opp x1 y1 x2 y2 ->
  exists l, line x1 y1 x2 y2 l /\
    padd (Some (x1, y1)) (Some (x2, y2)) = Some (l*l - x1 - x2, l*(x1 - (l*l - x1 - x2)) - y1).
Proof.
  intros x1 y1 x2 y2 H1 H2 N. exists (slope x1 y1 x2 y2).
  split; [apply slope_line; assumption|]. cbn [padd].
  destruct (feq_dec x1 x2) as [E|E]; [|reflexivity].
  destruct (feq_dec (y1 + y2) 0) as [E'|E']; [|reflexivity]. exfalso. apply N. split; assumption.
Qed.
Lemma padd_opp : forall x1 y1 x2 y2, opp x1 y1 x2 y2 -> padd (Some (x1, y1)) (Some (x2, y2)) = None.
Proof.
  intros x1 y1 x2 y2 [E1 E2]. cbn [padd]. destruct (feq_dec x1 x2); [|contradiction].
  destruct (feq_dec (y1 + y2) 0); [reflexivity|contradiction].
Qed.
(** the slope is determined by its equations *)
Lemma line_unique : forall x1 y1 x2 y2 l l', ~ opp x1 y1 x2 y2 ->
  line x1 y1 x2 y2 l -> line x1 y1 x2 y2 l' -> l = l'.
Proof.
  intros x1 y1 x2 y2 l l' N [A1 A2] [B1 B2]. destruct (feq_dec x1 x2) as [E|E].
  - assert (S : y1 + y2 <> 0) by (intros C; apply N; split; assumption).
    apply (f_cancel (y1 + y2)); [exact S|].
    transitivity (l * (y1 + y2)); [ring|]. rewrite A2, <- B2. ring.
  - assert (D : x2 - x1 <> 0) by (apply f_sub_ne; intros C; apply E; symmetry; exact C).
    apply (f_cancel (x2 - x1)); [exact D|].
    transitivity (l * (x2 - x1)); [ring|]. rewrite <- A1, B1. ring.
Qed.
Lemma padd_by_line : forall x1 y1 x2 y2 l, on x1 y1 -> on x2 y2 -> ~ opp x1 y1 x2 y2 -> line x1 y1 x2 y2 l ->
  padd (Some (x1, y1)) (Some (x2, y2)) = Some (l*l - x1 - x2, l*(x1 - (l*l - x1 - x2)) - y1).
Proof.
  intros x1 y1 x2 y2 l H1 H2 N L. destruct (padd_line x1 y1 x2 y2 H1 H2 N) as [l' [L' E]].
  rewrite (line_unique x1 y1 x2 y2 l l' N L L'). exact E.
Qed.
Lemma third_on : forall x1 y1 x2 y2 l, on x1 y1 -> line x1 y1 x2 y2 l ->
  on (l*l - x1 - x2) (l*(x1 - (l*l - x1 - x2)) - y1).
Proof.
  intros x1 y1 x2 y2 l H1 [A1 A2]. unfold on in *.
  set (x3 := l*l - x1 - x2).
  assert (Y2 : y2 = y1 + l*(x2 - x1)) by (rewrite <- A1; ring).
  assert (A : a = l*(y1 + y2) - (x1*x1 + x1*x2 + x2*x2)) by (rewrite A2; ring).
  assert (B : b = y1*y1 - x1*x1*x1 - a*x1) by (rewrite H1; ring).
  rewrite B, A, Y2. unfold x3. ring.
Qed.

(** ** Closure, commutativity, negation *)
Lemma padd_on : forall P Q, pon P -> pon Q -> pon (padd P Q).
Proof.
  intros [[x1 y1]|] [[x2 y2]|] H1 H2; try exact I; try assumption. cbn [pon] in H1, H2.
  destruct (opp_dec x1 y1 x2 y2) as [O|O]; [rewrite (padd_opp _ _ _ _ O); exact I|].
  destruct (padd_line _ _ _ _ H1 H2 O) as [l [L ->]]. cbn [pon]. apply (third_on x1 y1 x2 y2 l H1 L).
Qed.
Lemma opp_sym : forall x1 y1 x2 y2, opp x1 y1 x2 y2 -> opp x2 y2 x1 y1.
Proof. intros x1 y1 x2 y2 [-> E]. split; [reflexivity|]. rewrite <- E. ring. Qed.
Lemma line_sym : forall x1 y1 x2 y2 l, line x1 y1 x2 y2 l -> line x2 y2 x1 y1 l.
Proof.
  intros x1 y1 x2 y2 l [A B]. split.
  - transitivity (- (y2 - y1)); [ring|]. rewrite A. ring.
  - transitivity (l * (y1 + y2)); [ring|]. rewrite B. ring.
Qed.
Lemma padd_comm : forall P Q, pon P -> pon Q -> padd P Q = padd Q P.
Proof.
  intros [[x1 y1]|] [[x2 y2]|] H1 H2; try reflexivity. cbn [pon] in H1, H2.
  destruct (opp_dec x1 y1 x2 y2) as [O|O];
    [rewrite (padd_opp _ _ _ _ O), (padd_opp _ _ _ _ (opp_sym _ _ _ _ O)); reflexivity|].
  destruct (padd_line _ _ _ _ H1 H2 O) as [l [L ->]].
  rewrite (padd_by_line x2 y2 x1 y1 l H2 H1); [|intros C; apply O, opp_sym, C|apply line_sym, L].
  destruct L as [A _]. f_equal. f_equal; [ring|].
  assert (y2 = y1 + l*(x2 - x1)) as -> by (rewrite <- A; ring). ring.
Qed.
Lemma pneg_on : forall P, pon P -> pon (pneg P).
Proof. intros [[x y]|] H; [|exact I]. cbn [pneg pon] in *. unfold on in *. rewrite <- H. ring. Qed.
Lemma pneg_neg : forall P, pneg (pneg P) = P.
Proof. intros [[x y]|]; [|reflexivity]. cbn [pneg]. f_equal. f_equal. ring. Qed.
Lemma padd_neg : forall P, padd P (pneg P) = None.
Proof. intros [[x y]|]; [|reflexivity]. cbn [pneg]. apply padd_opp. split; [reflexivity|ring]. Qed.
Lemma padd_O : forall P, padd P None = P.
Proof. intros [[x y]|]; reflexivity. Qed.
Lemma opp_neg : forall x1 y1 x2 y2, opp x1 y1 x2 y2 -> Some (x2, y2) = pneg (Some (x1, y1)).
Proof.
  intros x1 y1 x2 y2 [-> E]. cbn [pneg]. f_equal. f_equal. transitivity ((y1 + y2) - y1); [ring|].
  rewrite E. ring.
Qed.
Lemma pneg_add : forall P Q, pon P -> pon Q -> pneg (padd P Q) = padd (pneg P) (pneg Q).
Proof.
  intros [[x1 y1]|] [[x2 y2]|] H1 H2; try reflexivity.
  assert (N1 := pneg_on _ H1). assert (N2 := pneg_on _ H2). cbn [pneg pon] in *.
  destruct (opp_dec x1 y1 x2 y2) as [O|O].
  - rewrite (padd_opp _ _ _ _ O). symmetry. apply padd_opp. destruct O as [E1 E2]. split; [exact E1|].
    transitivity (- (y1 + y2)); [ring|]. rewrite E2. ring.
  - destruct (padd_line _ _ _ _ H1 H2 O) as [l [[A B] ->]]. cbn [pneg].
    rewrite (padd_by_line x1 (- y1) x2 (- y2) (- l) N1 N2).
    + f_equal. f_equal; ring.
    + intros [E1 E2]. apply O. split; [exact E1|]. transitivity (- (- y1 + - y2)); [ring|]. rewrite E2. ring.
    + split; [transitivity (- (y2 - y1)); [ring|]; rewrite A; ring|].
      transitivity (l * (y1 + y2)); [ring|]. rewrite B. ring.
Qed.

(** ** Cancellation *)
Lemma no_fix : forall P Q, pon P -> pon Q -> padd P Q = P -> P <> None -> Q = None.
Proof.
  intros [[x1 y1]|] [[x2 y2]|] H1 H2 E N; try reflexivity; [|contradiction]. exfalso. cbn [pon] in H1, H2.
  destruct (opp_dec x1 y1 x2 y2) as [O|O]; [rewrite (padd_opp _ _ _ _ O) in E; discriminate|].
  destruct (padd_line _ _ _ _ H1 H2 O) as [l [[A B] E']]. rewrite E' in E. clear E'.
  injection E as Ex Ey. rewrite Ex in Ey.
  assert (Y : y1 = 0). { apply double_0. transitivity (y1 + (l*(x1 - x1) - y1)); [rewrite Ey; reflexivity|ring]. }
  subst y1. unfold on in H1. apply (nonsing x1); [rewrite <- H1; ring|].
  assert (L2 : l*l = x1 + x1 + x2). { transitivity ((l*l - x1 - x2) + x1 + x2); [ring|]. rewrite Ex. ring. }
  assert (A' : a = l*l*(x2 - x1) - (x1*x1 + x1*x2 + x2*x2)).
  { transitivity (l*(0 + y2) - (x1*x1 + x1*x2 + x2*x2)); [rewrite B; ring|].
    replace (0 + y2) with (y2 - 0) by ring. rewrite A. ring. }
  rewrite A', L2. ring.
Qed.
Lemma padd_cancel : forall P Q, pon P -> pon Q -> padd P (padd (pneg P) Q) = Q.
Proof.
  intros [[x1 y1]|] [[x2 y2]|] H1 H2; try reflexivity.
  2: { change (padd (pneg (Some (x1, y1))) None) with (pneg (Some (x1, y1))). apply padd_neg. }
  assert (N1 := pneg_on _ H1). cbn [pneg pon] in *.
  destruct (opp_dec x1 (- y1) x2 y2) as [O|O].
  - rewrite (padd_opp _ _ _ _ O). rewrite padd_O. rewrite (opp_neg _ _ _ _ O). cbn [pneg]. f_equal. f_equal. ring.
  - destruct (padd_line _ _ _ _ N1 H2 O) as [m [L E]].
    assert (T := third_on _ _ _ _ _ N1 L). destruct L as [A B].
    set (xR := m*m - x1 - x2) in *. set (yR := m*(x1 - xR) - - y1) in *.
    assert (NO : ~ opp x1 y1 xR yR).
    { intros C. apply opp_neg in C. cbn [pneg] in C. rewrite C in E.
      apply (no_fix (Some (x1, - y1)) (Some (x2, y2)) N1 H2) in E; discriminate. }
    rewrite E. rewrite (padd_by_line x1 y1 xR yR (- m) H1 T NO).
    + assert (Y2 : y2 = - y1 + m*(x2 - x1)) by (rewrite <- A; ring). rewrite Y2.
      f_equal. f_equal; unfold yR, xR; ring.
    + assert (Y2 : y2 = - y1 + m*(x2 - x1)) by (rewrite <- A; ring).
      assert (A' : a = m*(- y1 + y2) - (x1*x1 + x1*x2 + x2*x2)) by (rewrite B; ring).
      split; [unfold yR; ring|]. rewrite A', Y2. unfold yR, xR. ring.
Qed.

(** ** Associativity *)
Lemma assoc_main : forall x1 y1 x2 y2 x3 y3 l m n k x4 y4 x5 y5,
  line x1 y1 x2 y2 l -> line x2 y2 x3 y3 m ->
  x4 = l*l - x1 - x2 -> y4 = l*(x1 - x4) - y1 -> x5 = m*m - x2 - x3 -> y5 = m*(x2 - x5) - y2 ->
  ~ opp x4 y4 x3 y3 -> ~ opp x1 y1 x5 y5 -> line x4 y4 x3 y3 n -> line x1 y1 x5 y5 k ->
  n*n - x4 - x3 = k*k - x1 - x5 /\
  n*(x4 - (n*n - x4 - x3)) - y4 = k*(x1 - (k*k - x1 - x5)) - y1.
Proof.
  intros x1 y1 x2 y2 x3 y3 l m n k x4 y4 x5 y5 [A1 A2] [B1 B2] X4 Y4 X5 Y5 N4 N5 [C1 C2] [D1 D2].
  assert (L : lines a x1 y1 x2 y2 x3 y3 l m x4 y4 x5 y5).
  { assert (Y2 : y2 = y1 + l*(x2 - x1)) by (rewrite <- A1; ring).
    unfold lines. repeat split; try assumption.
    - rewrite <- B1. ring.
    - transitivity (l*(y1 + y2) - (x1*x1 + x1*x2 + x2*x2)); [rewrite A2; ring|]. rewrite Y2. ring.
    - rewrite B2. ring. }
  assert (HN : (x3 - x4 <> 0 /\ n*(x3 - x4) = y3 - y4) \/
               (y3 + y4 <> 0 /\ n*(y3 + y4) = x3*x3 + x3*x4 + x4*x4 + a)).
  { destruct (feq_dec x4 x3) as [E|E].
    - right. split; [intros C; apply N4; split; [exact E|rewrite <- C; ring]|].
      transitivity (n*(y4 + y3)); [ring|]. rewrite C2. ring.
    - left. split; [apply f_sub_ne; intros C; apply E; symmetry; exact C|]. rewrite C1. reflexivity. }
  assert (HK : (x5 - x1 <> 0 /\ k*(x5 - x1) = y5 - y1) \/
               (y1 + y5 <> 0 /\ k*(y1 + y5) = x1*x1 + x1*x5 + x5*x5 + a)).
  { destruct (feq_dec x1 x5) as [E|E].
    - right. split; [intros C; apply N5; split; assumption|exact D2].
    - left. split; [apply f_sub_ne; intros C; apply E; symmetry; exact C|]. rewrite D1. reflexivity. }
  assert (R : n*n - (x4 + x3 - x1 - x5) = k*k /\
              n*(x3 - (n*n - x4 - x3)) - y3 = k*(x1 - (n*n - x4 - x3)) - y1).
  { destruct HN as [[P1 P2]|[P1 P2]], HK as [[Q1 Q2]|[Q1 Q2]];
      (split; [apply (frac_x n k _ _ _ _ _ P1 Q1 P2 Q2)|apply (frac_y n k _ _ _ _ _ _ _ _ _ P1 Q1 P2 Q2)]).
    - apply (id_x00 _ _ _ _ _ _ _ _ _ _ _ _ _ L).
    - apply (id_y00 _ _ _ _ _ _ _ _ _ _ _ _ _ L).
    - apply (id_x01 _ _ _ _ _ _ _ _ _ _ _ _ _ L).
    - apply (id_y01 _ _ _ _ _ _ _ _ _ _ _ _ _ L).
    - apply (id_x10 _ _ _ _ _ _ _ _ _ _ _ _ _ L).
    - apply (id_y10 _ _ _ _ _ _ _ _ _ _ _ _ _ L).
    - apply (id_x11 _ _ _ _ _ _ _ _ _ _ _ _ _ L).
    - apply (id_y11 _ _ _ _ _ _ _ _ _ _ _ _ _ L). }
  destruct R as [RX RY].
  assert (X : n*n - x4 - x3 = k*k - x1 - x5) by (rewrite <- RX; ring).
  split; [exact X|]. rewrite <- X, <- RY.
  assert (y3 = y4 + n*(x3 - x4)) as -> by (rewrite <- C1; ring). ring.
Qed.

Theorem padd_assoc : forall P Q R, pon P -> pon Q -> pon R -> padd P (padd Q R) = padd (padd P Q) R.
Proof.
  intros P Q R HP HQ HR.
  destruct P as [[x1 y1]|]; [|reflexivity]. destruct Q as [[x2 y2]|]; [|reflexivity].
  destruct R as [[x3 y3]|]; [|rewrite !padd_O; reflexivity].
  destruct (opp_dec x1 y1 x2 y2) as [O12|O12].
  { assert (E := opp_neg _ _ _ _ O12). rewrite (padd_opp _ _ _ _ O12), E.
    rewrite padd_cancel by assumption. reflexivity. }
  destruct (opp_dec x2 y2 x3 y3) as [O23|O23].
  { assert (E := opp_neg _ _ _ _ O23). rewrite (padd_opp _ _ _ _ O23), padd_O, E.
    assert (HS := padd_on _ _ HP HQ).
    rewrite (padd_comm (padd (Some (x1, y1)) (Some (x2, y2)))) by (try apply pneg_on; assumption).
    rewrite (padd_comm (Some (x1, y1)) (Some (x2, y2))) by assumption.
    rewrite <- (pneg_neg (Some (x2, y2))) at 2.
    rewrite padd_cancel by (try apply pneg_on; assumption). reflexivity. }
  cbn [pon] in HP, HQ, HR.
  destruct (padd_line _ _ _ _ HP HQ O12) as [l [L12 E12]].
  destruct (padd_line _ _ _ _ HQ HR O23) as [m [L23 E23]].
  assert (H4 := third_on _ _ _ _ _ HP L12). assert (H5 := third_on _ _ _ _ _ HQ L23).
  set (x4 := l*l - x1 - x2) in *. set (y4 := l*(x1 - x4) - y1) in *.
  set (x5 := m*m - x2 - x3) in *. set (y5 := m*(x2 - x5) - y2) in *.
  destruct (opp_dec x4 y4 x3 y3) as [O43|O43].
  { assert (E := opp_neg _ _ _ _ O43). rewrite E12, (padd_opp _ _ _ _ O43), E, <- E12.
    rewrite pneg_add by assumption.
    rewrite (padd_comm (pneg (Some (x1, y1)))) by (apply pneg_on; assumption).
    rewrite padd_cancel by (try apply pneg_on; assumption). apply padd_neg. }
  destruct (opp_dec x1 y1 x5 y5) as [O15|O15].
  { rewrite E23, (padd_opp _ _ _ _ O15). apply opp_sym in O15. assert (E := opp_neg _ _ _ _ O15).
    rewrite E, <- E23. rewrite pneg_add by assumption.
    assert (HN2 : pon (pneg (Some (x2, y2)))) by (apply pneg_on; assumption).
    assert (HN3 : pon (pneg (Some (x3, y3)))) by (apply pneg_on; assumption).
    rewrite (padd_comm (padd (pneg (Some (x2, y2))) (pneg (Some (x3, y3))))) by (try apply padd_on; assumption).
    rewrite padd_cancel by assumption. rewrite padd_comm by assumption. symmetry. apply padd_neg. }
  destruct (padd_line _ _ _ _ H4 HR O43) as [n [L43 E43]].
  destruct (padd_line _ _ _ _ HP H5 O15) as [k [L15 E15]].
  rewrite E12, E23, E43, E15.
  destruct (assoc_main x1 y1 x2 y2 x3 y3 l m n k x4 y4 x5 y5 L12 L23 eq_refl eq_refl eq_refl eq_refl O43 O15 L43 L15)
    as [EX EY].
  rewrite <- EY, <- EX. reflexivity.
Qed.
End Law.
