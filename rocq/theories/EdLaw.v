(** * EdLaw: the addition on the twisted Edwards curve y^2 - x^2 = 1 + d x^2 y^2 is a group

    Over any field with a square root of -1 in which d is not a square: the denominators never vanish, so there is no
    point at infinity and no special case.  The polynomial identities were found by dividing by the curve equations. *)
From Coq Require Import Ring Field Field_theory.

Section Law.
Variable F : Type.
Variables (f0 f1 : F) (fadd fmul fsub : F -> F -> F) (fopp : F -> F) (fdiv : F -> F -> F) (finv : F -> F).
Hypothesis FT : field_theory f0 f1 fadd fmul fsub fopp fdiv finv (@eq F).
Variable feq_dec : forall x y : F, {x = y} + {x <> y}.
Add Field Edfield : FT.
Notation "0" := f0. Notation "1" := f1.
Infix "+" := fadd. Infix "*" := fmul. Infix "-" := fsub. Infix "/" := fdiv. Notation "- x" := (fopp x).
Variables d i : F.
Hypothesis two : 1 + 1 <> 0.
Hypothesis i_sqr : i * i = fopp 1.
Hypothesis d_nonsquare : forall z, d <> z * z.

Lemma e_integral : forall x y, x * y = 0 -> x = 0 \/ y = 0.
Proof.
  intros x y H. destruct (feq_dec x 0) as [E|E]; [left; exact E|right].
  transitivity (finv x * (x * y)); [field; exact E|]. rewrite H. ring.
Qed.
Lemma e_sub0 : forall x y, x - y = 0 -> x = y.
Proof. intros x y H. transitivity ((x - y) + y); [ring|]. rewrite H. ring. Qed.
Lemma d_nz : d <> 0.
Proof. intros E. apply (d_nonsquare 0). rewrite E. ring. Qed.
Lemma no_ratio : forall u v, d * (u * u) = v * v -> u = 0.
Proof.
  intros u v H. destruct (feq_dec u 0) as [E|E]; [exact E|exfalso]. apply (d_nonsquare (v / u)).
  transitivity (d * (u * u) / (u * u)); [field; exact E|]. rewrite H. field. exact E.
Qed.

(** ** Points *)
Definition eon (x y : F) : Prop := y * y - x * x = 1 + d * (x * x) * (y * y).
Definition curve (x y : F) : F := y * y - x * x - 1 - d * (x * x) * (y * y).
Lemma eon_curve x y : eon x y <-> curve x y = 0.
Proof.
  unfold eon, curve. split; intros H.
  - transitivity ((y * y - x * x) - (1 + d * (x * x) * (y * y))); [ring|]. rewrite H. ring.
  - apply e_sub0. rewrite <- H. ring.
Qed.
Section Complete.
Variables x1 y1 x2 y2 e : F.
Hypothesis H1 : eon x1 y1.
Hypothesis H2 : eon x2 y2.
Hypothesis He : e * e = 1.
Lemma complete_e : d * (x1 * x2 * y1 * y2) <> e.
Proof.
  intros E.
  assert (A : forall j, j * j = fopp 1 -> x1 * y1 * (y2 + j * x2) = 0).
  { intros j J. apply (no_ratio _ (y1 + j * e * x1)).
    transitivity (x1 * x1 * (y1 * y1) * d * (y2 * y2 + j * j * (x2 * x2)) + (1 + 1) * j * x1 * y1 * (d * (x1 * x2 * y1 * y2))); [ring|].
    rewrite J, E. transitivity (x1 * x1 * (y1 * y1) * d * (y2 * y2 - x2 * x2) + (1 + 1) * j * x1 * y1 * e); [ring|].
    rewrite H2. transitivity (d * (x1 * x1) * (y1 * y1) + (d * (x1 * x2 * y1 * y2)) * (d * (x1 * x2 * y1 * y2)) + (1 + 1) * j * x1 * y1 * e); [ring|].
    rewrite E, He. transitivity ((1 + d * (x1 * x1) * (y1 * y1)) + (1 + 1) * j * x1 * y1 * e); [ring|]. rewrite <- H1.
    transitivity (y1 * y1 + (j * j) * (e * e) * (x1 * x1) + (1 + 1) * j * x1 * y1 * e); [rewrite J, He; ring|ring]. }
  assert (N : e <> 0). { intros Z. rewrite Z in He. apply (F_1_neq_0 FT). rewrite <- He. ring. }
  assert (B1 := A i i_sqr). assert (B2 := A (- i) ltac:(transitivity (i * i); [ring|exact i_sqr])).
  assert (M : x1 * y1 <> 0). { intros Z. apply N. rewrite <- E. transitivity (d * (x1 * y1) * (x2 * y2)); [ring|]. rewrite Z. ring. }
  apply e_integral in B1. apply e_integral in B2. destruct B1 as [B1|B1]; [contradiction|]. destruct B2 as [B2|B2]; [contradiction|].
  assert (S : (1 + 1) * i * x2 = 0). { transitivity ((y2 + i * x2) - (y2 + - i * x2)); [ring|]. rewrite B1, B2. ring. }
  apply N. rewrite <- E. assert (X : x2 = 0).
  { apply e_integral in S. destruct S as [S|S]; [|exact S]. apply e_integral in S. destruct S as [S|S]; [contradiction|].
    exfalso. apply (F_1_neq_0 FT). transitivity (- (i * i)); [rewrite i_sqr; ring|]. rewrite S. ring. }
  rewrite X. ring.
Qed.
End Complete.

Lemma den_p : forall x1 y1 x2 y2, eon x1 y1 -> eon x2 y2 -> 1 + d * (x1 * x2 * y1 * y2) <> 0.
Proof.
  intros x1 y1 x2 y2 H1 H2 C. apply (complete_e x1 y1 x2 y2 (fopp 1) H1 H2); [ring|]. apply e_sub0. rewrite <- C. ring.
Qed.
Lemma den_m : forall x1 y1 x2 y2, eon x1 y1 -> eon x2 y2 -> 1 - d * (x1 * x2 * y1 * y2) <> 0.
Proof.
  intros x1 y1 x2 y2 H1 H2 C. apply (complete_e x1 y1 x2 y2 1 H1 H2); [ring|]. symmetry. apply e_sub0, C.
Qed.

(** ** The addition, by numerators and denominators *)
Definition eadd (P Q : F * F) : F * F :=
  let (x1, y1) := P in let (x2, y2) := Q in
  ((x1 * y2 + x2 * y1) / (1 + d * (x1 * x2 * y1 * y2)), (y1 * y2 + x1 * x2) / (1 - d * (x1 * x2 * y1 * y2))).
Definition eneg (P : F * F) : F * F := let (x, y) := P in (- x, y).
Definition epon (P : F * F) : Prop := eon (fst P) (snd P).
Section Ids.
Variables x1 y1 x2 y2 x3 y3 : F.
Hypothesis H1 : curve x1 y1 = 0.
Hypothesis H2 : curve x2 y2 = 0.
Lemma id_on : let a := x1*y2 + x2*y1 in let b := 1 + d*(x1*x2*y1*y2) in let c := y1*y2 + x1*x2 in let e := 1 - d*(x1*x2*y1*y2) in
  d*d*(c*c*(b*b) - a*a*(e*e) - b*b*(e*e) - d*(a*a)*(c*c)) = 0.
Proof.
  cbv zeta. transitivity (
    (0 + d*d*y2*y2*y2*y2 - (1+1+1+1)*d*d*x2*x2*y2*y2 + (1+1)*d*d*x2*x2*y2*y2*y2*y2 + d*d*x2*x2*x2*x2 -
    (1+1)*d*d*x2*x2*x2*x2*y2*y2 - (1+1)*d*d*d*x2*x2*y2*y2 - (1+1)*d*d*d*x2*x2*x2*x2*y2*y2*y2*y2 -
    d*d*d*y1*y1*x2*x2*y2*y2*y2*y2 + d*d*d*y1*y1*x2*x2*x2*x2*y2*y2 + d*d*d*x1*x1*x2*x2*y2*y2*y2*y2 -
    d*d*d*x1*x1*x2*x2*x2*x2*y2*y2 - d*d*d*d*x2*x2*x2*x2*y2*y2*y2*y2 + d*d*d*d*y1*y1*x2*x2*x2*x2*y2*y2*y2*y2 -
    d*d*d*d*x1*x1*x2*x2*x2*x2*y2*y2*y2*y2 + d*d*d*d*d*x1*x1*y1*y1*x2*x2*x2*x2*y2*y2*y2*y2)*curve x1 y1
    + (0 + d*d + d*d*y2*y2 - d*d*x2*x2 + (1+1)*d*d*x2*x2*y2*y2 - d*d*y1*y1*y2*y2 + d*d*y1*y1*x2*x2 -
    (1+1)*d*d*y1*y1*x2*x2*y2*y2 + d*d*x1*x1*y2*y2 - d*d*x1*x1*x2*x2 + (1+1)*d*d*x1*x1*x2*x2*y2*y2 + d*d*d*x2*x2*y2*y2
    - (1+1)*d*d*d*y1*y1*x2*x2*y2*y2 + d*d*d*y1*y1*y1*y1*x2*x2*y2*y2 + (1+1)*d*d*d*x1*x1*x2*x2*y2*y2 +
    d*d*d*x1*x1*x1*x1*x2*x2*y2*y2)*curve x2 y2); [unfold curve; ring|]. rewrite H1, H2. ring.
Qed.
Hypothesis H3 : curve x3 y3 = 0.
Notation a := (x1*y2 + x2*y1). Notation b := (1 + d*(x1*x2*y1*y2)). Notation c := (y1*y2 + x1*x2). Notation e := (1 - d*(x1*x2*y1*y2)).
Notation a' := (x2*y3 + x3*y2). Notation b' := (1 + d*(x2*x3*y2*y3)). Notation c' := (y2*y3 + x2*x3). Notation e' := (1 - d*(x2*x3*y2*y3)).
Lemma id_x : (a*e*y3 + x3*c*b)*(b'*e' + d*a'*c'*x1*y1) - (x1*c'*b' + a'*e'*y1)*(b*e + d*a*c*x3*y3) = 0.
Proof.
  transitivity (
    (0 - d*y1*x2*y2*y2*y2*y2*x3*x3*y3 - d*y1*x2*x2*y2*y2*y2*x3 - d*y1*x2*x2*y2*y2*y2*x3*x3*x3 - d*y1*x2*x2*x2*y2*y2*y3
    + d*y1*x2*x2*x2*y2*y2*y3*y3*y3 + d*y1*x2*x2*x2*x2*y2*x3*y3*y3 + d*x1*x2*y2*y2*y2*y2*x3*y3*y3 -
    d*x1*x2*x2*y2*y2*y2*y3 + d*x1*x2*x2*y2*y2*y2*y3*y3*y3 - d*x1*x2*x2*x2*y2*y2*x3 - d*x1*x2*x2*x2*y2*y2*x3*x3*x3 -
    d*x1*x2*x2*x2*x2*y2*x3*x3*y3 + d*d*y1*x2*x2*x2*y2*y2*y2*y2*x3*x3*y3 + d*d*y1*x2*x2*x2*x2*y2*y2*y2*x3*y3*y3 -
    d*d*x1*x2*x2*x2*y2*y2*y2*y2*x3*y3*y3 - d*d*x1*x2*x2*x2*x2*y2*y2*y2*x3*x3*y3)*curve x1 y1
    + (0 + y1*y2*x3 - y1*y2*x3*y3*y3 + y1*y2*x3*x3*x3 + y1*x2*y3 - y1*x2*y3*y3*y3 + y1*x2*x3*x3*y3 - y1*y1*y1*y2*x3 +
    y1*y1*y1*y2*x3*y3*y3 - y1*y1*y1*y2*x3*x3*x3 - y1*y1*y1*x2*y3 + y1*y1*y1*x2*y3*y3*y3 - y1*y1*y1*x2*x3*x3*y3 +
    x1*y2*y3 - x1*y2*y3*y3*y3 + x1*y2*x3*x3*y3 + x1*x2*x3 - x1*x2*x3*y3*y3 + x1*x2*x3*x3*x3 - x1*y1*y1*y2*y3 +
    x1*y1*y1*y2*y3*y3*y3 - x1*y1*y1*y2*x3*x3*y3 - x1*y1*y1*x2*x3 + x1*y1*y1*x2*x3*y3*y3 - x1*y1*y1*x2*x3*x3*x3 +
    x1*x1*y1*y2*x3 - x1*x1*y1*y2*x3*y3*y3 + x1*x1*y1*y2*x3*x3*x3 + x1*x1*y1*x2*y3 - x1*x1*y1*x2*y3*y3*y3 +
    x1*x1*y1*x2*x3*x3*y3 + x1*x1*x1*y2*y3 - x1*x1*x1*y2*y3*y3*y3 + x1*x1*x1*y2*x3*x3*y3 + x1*x1*x1*x2*x3 -
    x1*x1*x1*x2*x3*y3*y3 + x1*x1*x1*x2*x3*x3*x3 + d*y1*y2*x3*x3*x3*y3*y3 + d*y1*x2*x3*x3*y3*y3*y3 -
    d*y1*x2*y2*y2*x3*x3*y3 - d*y1*x2*x2*y2*x3*y3*y3 - d*y1*y1*y1*y2*x3*x3*x3*y3*y3 - d*y1*y1*y1*x2*x3*x3*y3*y3*y3 +
    d*y1*y1*y1*x2*y2*y2*x3*x3*y3 + d*y1*y1*y1*x2*x2*y2*x3*y3*y3 + d*x1*y2*x3*x3*y3*y3*y3 + d*x1*x2*x3*x3*x3*y3*y3 +
    d*x1*x2*y2*y2*x3*y3*y3 + d*x1*x2*x2*y2*x3*x3*y3 - d*x1*y1*y1*y2*x3*x3*y3*y3*y3 - d*x1*y1*y1*x2*x3*x3*x3*y3*y3 -
    d*x1*y1*y1*x2*y2*y2*x3*y3*y3 - d*x1*y1*y1*x2*x2*y2*x3*x3*y3 + d*x1*x1*y1*y2*x3*x3*x3*y3*y3 +
    d*x1*x1*y1*x2*x3*x3*y3*y3*y3 - d*x1*x1*y1*x2*y2*y2*x3*x3*y3 - d*x1*x1*y1*x2*x2*y2*x3*y3*y3 +
    d*x1*x1*x1*y2*x3*x3*y3*y3*y3 + d*x1*x1*x1*x2*x3*x3*x3*y3*y3 + d*x1*x1*x1*x2*y2*y2*x3*y3*y3 +
    d*x1*x1*x1*x2*x2*y2*x3*x3*y3 + d*d*x1*y1*y1*x2*y2*y2*x3*x3*x3*y3*y3 - d*d*x1*y1*y1*x2*x2*y2*x3*x3*y3*y3*y3 -
    d*d*x1*x1*y1*x2*y2*y2*x3*x3*y3*y3*y3 + d*d*x1*x1*y1*x2*x2*y2*x3*x3*x3*y3*y3)*curve x2 y2
    + (0 - y1*y2*x3 + y1*y2*y2*y2*x3 - y1*x2*y3 + y1*x2*y2*y2*y3 - y1*x2*x2*y2*x3 - y1*x2*x2*x2*y3 + y1*y1*y1*y2*x3 -
    y1*y1*y1*y2*y2*y2*x3 + y1*y1*y1*x2*y3 - y1*y1*y1*x2*y2*y2*y3 + y1*y1*y1*x2*x2*y2*x3 + y1*y1*y1*x2*x2*x2*y3 -
    x1*y2*y3 + x1*y2*y2*y2*y3 - x1*x2*x3 + x1*x2*y2*y2*x3 - x1*x2*x2*y2*y3 - x1*x2*x2*x2*x3 + x1*y1*y1*y2*y3 -
    x1*y1*y1*y2*y2*y2*y3 + x1*y1*y1*x2*x3 - x1*y1*y1*x2*y2*y2*x3 + x1*y1*y1*x2*x2*y2*y3 + x1*y1*y1*x2*x2*x2*x3 -
    x1*x1*y1*y2*x3 + x1*x1*y1*y2*y2*y2*x3 - x1*x1*y1*x2*y3 + x1*x1*y1*x2*y2*y2*y3 - x1*x1*y1*x2*x2*y2*x3 -
    x1*x1*y1*x2*x2*x2*y3 - x1*x1*x1*y2*y3 + x1*x1*x1*y2*y2*y2*y3 - x1*x1*x1*x2*x3 + x1*x1*x1*x2*y2*y2*x3 -
    x1*x1*x1*x2*x2*y2*y3 - x1*x1*x1*x2*x2*x2*x3 - d*x1*y1*y1*x2*y2*y2*x3 + d*x1*y1*y1*x2*x2*y2*y3 +
    d*x1*x1*y1*x2*y2*y2*y3 - d*x1*x1*y1*x2*x2*y2*x3)*curve x3 y3); [unfold curve; ring|]. rewrite H1, H2, H3. ring.
Qed.
Lemma id_y : (c*b*y3 + a*e*x3)*(b'*e' - d*a'*c'*x1*y1) - (c'*b'*y1 + a'*e'*x1)*(b*e - d*a*c*x3*y3) = 0.
Proof.
  transitivity (
    (0 + d*y1*x2*y2*y2*y2*y2*x3*y3*y3 - d*y1*x2*x2*y2*y2*y2*y3 + d*y1*x2*x2*y2*y2*y2*y3*y3*y3 - d*y1*x2*x2*x2*y2*y2*x3
    - d*y1*x2*x2*x2*y2*y2*x3*x3*x3 - d*y1*x2*x2*x2*x2*y2*x3*x3*y3 - d*x1*x2*y2*y2*y2*y2*x3*x3*y3 -
    d*x1*x2*x2*y2*y2*y2*x3 - d*x1*x2*x2*y2*y2*y2*x3*x3*x3 - d*x1*x2*x2*x2*y2*y2*y3 + d*x1*x2*x2*x2*y2*y2*y3*y3*y3 +
    d*x1*x2*x2*x2*x2*y2*x3*y3*y3 - d*d*y1*x2*x2*x2*y2*y2*y2*y2*x3*y3*y3 - d*d*y1*x2*x2*x2*x2*y2*y2*y2*x3*x3*y3 +
    d*d*x1*x2*x2*x2*y2*y2*y2*y2*x3*x3*y3 + d*d*x1*x2*x2*x2*x2*y2*y2*y2*x3*y3*y3)*curve x1 y1
    + (0 + y1*y2*y3 - y1*y2*y3*y3*y3 + y1*y2*x3*x3*y3 + y1*x2*x3 - y1*x2*x3*y3*y3 + y1*x2*x3*x3*x3 - y1*y1*y1*y2*y3 +
    y1*y1*y1*y2*y3*y3*y3 - y1*y1*y1*y2*x3*x3*y3 - y1*y1*y1*x2*x3 + y1*y1*y1*x2*x3*y3*y3 - y1*y1*y1*x2*x3*x3*x3 +
    x1*y2*x3 - x1*y2*x3*y3*y3 + x1*y2*x3*x3*x3 + x1*x2*y3 - x1*x2*y3*y3*y3 + x1*x2*x3*x3*y3 - x1*y1*y1*y2*x3 +
    x1*y1*y1*y2*x3*y3*y3 - x1*y1*y1*y2*x3*x3*x3 - x1*y1*y1*x2*y3 + x1*y1*y1*x2*y3*y3*y3 - x1*y1*y1*x2*x3*x3*y3 +
    x1*x1*y1*y2*y3 - x1*x1*y1*y2*y3*y3*y3 + x1*x1*y1*y2*x3*x3*y3 + x1*x1*y1*x2*x3 - x1*x1*y1*x2*x3*y3*y3 +
    x1*x1*y1*x2*x3*x3*x3 + x1*x1*x1*y2*x3 - x1*x1*x1*y2*x3*y3*y3 + x1*x1*x1*y2*x3*x3*x3 + x1*x1*x1*x2*y3 -
    x1*x1*x1*x2*y3*y3*y3 + x1*x1*x1*x2*x3*x3*y3 + d*y1*y2*x3*x3*y3*y3*y3 + d*y1*x2*x3*x3*x3*y3*y3 +
    d*y1*x2*y2*y2*x3*y3*y3 + d*y1*x2*x2*y2*x3*x3*y3 - d*y1*y1*y1*y2*x3*x3*y3*y3*y3 - d*y1*y1*y1*x2*x3*x3*x3*y3*y3 -
    d*y1*y1*y1*x2*y2*y2*x3*y3*y3 - d*y1*y1*y1*x2*x2*y2*x3*x3*y3 + d*x1*y2*x3*x3*x3*y3*y3 + d*x1*x2*x3*x3*y3*y3*y3 -
    d*x1*x2*y2*y2*x3*x3*y3 - d*x1*x2*x2*y2*x3*y3*y3 - d*x1*y1*y1*y2*x3*x3*x3*y3*y3 - d*x1*y1*y1*x2*x3*x3*y3*y3*y3 +
    d*x1*y1*y1*x2*y2*y2*x3*x3*y3 + d*x1*y1*y1*x2*x2*y2*x3*y3*y3 + d*x1*x1*y1*y2*x3*x3*y3*y3*y3 +
    d*x1*x1*y1*x2*x3*x3*x3*y3*y3 + d*x1*x1*y1*x2*y2*y2*x3*y3*y3 + d*x1*x1*y1*x2*x2*y2*x3*x3*y3 +
    d*x1*x1*x1*y2*x3*x3*x3*y3*y3 + d*x1*x1*x1*x2*x3*x3*y3*y3*y3 - d*x1*x1*x1*x2*y2*y2*x3*x3*y3 -
    d*x1*x1*x1*x2*x2*y2*x3*y3*y3 + d*d*x1*y1*y1*x2*y2*y2*x3*x3*y3*y3*y3 - d*d*x1*y1*y1*x2*x2*y2*x3*x3*x3*y3*y3 -
    d*d*x1*x1*y1*x2*y2*y2*x3*x3*x3*y3*y3 + d*d*x1*x1*y1*x2*x2*y2*x3*x3*y3*y3*y3)*curve x2 y2
    + (0 - y1*y2*y3 + y1*y2*y2*y2*y3 - y1*x2*x3 + y1*x2*y2*y2*x3 - y1*x2*x2*y2*y3 - y1*x2*x2*x2*x3 + y1*y1*y1*y2*y3 -
    y1*y1*y1*y2*y2*y2*y3 + y1*y1*y1*x2*x3 - y1*y1*y1*x2*y2*y2*x3 + y1*y1*y1*x2*x2*y2*y3 + y1*y1*y1*x2*x2*x2*x3 -
    x1*y2*x3 + x1*y2*y2*y2*x3 - x1*x2*y3 + x1*x2*y2*y2*y3 - x1*x2*x2*y2*x3 - x1*x2*x2*x2*y3 + x1*y1*y1*y2*x3 -
    x1*y1*y1*y2*y2*y2*x3 + x1*y1*y1*x2*y3 - x1*y1*y1*x2*y2*y2*y3 + x1*y1*y1*x2*x2*y2*x3 + x1*y1*y1*x2*x2*x2*y3 -
    x1*x1*y1*y2*y3 + x1*x1*y1*y2*y2*y2*y3 - x1*x1*y1*x2*x3 + x1*x1*y1*x2*y2*y2*x3 - x1*x1*y1*x2*x2*y2*y3 -
    x1*x1*y1*x2*x2*x2*x3 - x1*x1*x1*y2*x3 + x1*x1*x1*y2*y2*y2*x3 - x1*x1*x1*x2*y3 + x1*x1*x1*x2*y2*y2*y3 -
    x1*x1*x1*x2*x2*y2*x3 - x1*x1*x1*x2*x2*x2*y3 - d*x1*y1*y1*x2*y2*y2*y3 + d*x1*y1*y1*x2*x2*y2*x3 +
    d*x1*x1*y1*x2*y2*y2*x3 - d*x1*x1*y1*x2*x2*y2*y3)*curve x3 y3); [unfold curve; ring|]. rewrite H1, H2, H3. ring.
Qed.
End Ids.
Lemma eadd_on : forall P Q, epon P -> epon Q -> epon (eadd P Q).
Proof.
  intros [x1 y1] [x2 y2] H1 H2. unfold epon in *. cbn [fst snd eadd] in *.
  pose proof (den_p _ _ _ _ H1 H2) as B. pose proof (den_m _ _ _ _ H1 H2) as E.
  apply eon_curve. apply eon_curve in H1. apply eon_curve in H2.
  pose proof (id_on x1 y1 x2 y2 H1 H2) as I. cbv zeta in I.
  set (b := 1 + d * (x1 * x2 * y1 * y2)) in *. set (e := 1 - d * (x1 * x2 * y1 * y2)) in *.
  set (a := x1 * y2 + x2 * y1) in *. set (c := y1 * y2 + x1 * x2) in *. clearbody a b c e.
  apply e_integral in I. destruct I as [I|I]; [apply e_integral in I; destruct I as [I|I]; exfalso; exact (d_nz I)|].
  unfold curve. transitivity ((c * c * (b * b) - a * a * (e * e) - b * b * (e * e) - d * (a * a) * (c * c)) / (b * b * (e * e))).
  - field. split; assumption.
  - rewrite I. field. split; assumption.
Qed.
Lemma pair_eq : forall (x y x' y' : F), x = x' -> y = y' -> (x, y) = (x', y').
Proof. intros. subst. reflexivity. Qed.
Lemma quot_eq : forall n m u v, m <> 0 -> v <> 0 -> n * v - u * m = 0 -> n / m = u / v.
Proof.
  intros n m u v M V E. apply e_sub0. transitivity ((n * v - u * m) / (m * v)); [field; split; assumption|]. rewrite E. field. split; assumption.
Qed.
Lemma eadd_assoc : forall P Q R, epon P -> epon Q -> epon R -> eadd P (eadd Q R) = eadd (eadd P Q) R.
Proof.
  intros [x1 y1] [x2 y2] [x3 y3] H1 H2 H3. pose proof (eadd_on _ _ H1 H2) as H12. pose proof (eadd_on _ _ H2 H3) as H23.
  unfold epon in *. cbn [fst snd eadd] in *.
  pose proof (den_p _ _ _ _ H1 H2) as B. pose proof (den_m _ _ _ _ H1 H2) as E.
  pose proof (den_p _ _ _ _ H2 H3) as B'. pose proof (den_m _ _ _ _ H2 H3) as E'.
  pose proof (den_p _ _ _ _ H12 H3) as L1. pose proof (den_m _ _ _ _ H12 H3) as L2.
  pose proof (den_p _ _ _ _ H1 H23) as R1. pose proof (den_m _ _ _ _ H1 H23) as R2.
  clear H12 H23. apply eon_curve in H1. apply eon_curve in H2. apply eon_curve in H3.
  pose proof (id_x x1 y1 x2 y2 x3 y3 H1 H2 H3) as IX. pose proof (id_y x1 y1 x2 y2 x3 y3 H1 H2 H3) as IY. clear H1 H2 H3.
  set (b := 1 + d * (x1 * x2 * y1 * y2)) in *. set (e := 1 - d * (x1 * x2 * y1 * y2)) in *.
  set (a := x1 * y2 + x2 * y1) in *. set (c := y1 * y2 + x1 * x2) in *. clearbody a b c e.
  set (b' := 1 + d * (x2 * x3 * y2 * y3)) in *. set (e' := 1 - d * (x2 * x3 * y2 * y3)) in *.
  set (a' := x2 * y3 + x3 * y2) in *. set (c' := y2 * y3 + x2 * x3) in *. clearbody a' b' c' e'.
  assert (L1' : b * e + d * a * c * x3 * y3 <> 0).
  { intros C. apply L1. transitivity ((b * e + d * a * c * x3 * y3) / (b * e)); [field; split; assumption|]. rewrite C. field. split; assumption. }
  assert (L2' : b * e - d * a * c * x3 * y3 <> 0).
  { intros C. apply L2. transitivity ((b * e - d * a * c * x3 * y3) / (b * e)); [field; split; assumption|]. rewrite C. field. split; assumption. }
  assert (R1' : b' * e' + d * a' * c' * x1 * y1 <> 0).
  { intros C. apply R1. transitivity ((b' * e' + d * a' * c' * x1 * y1) / (b' * e')); [field; split; assumption|]. rewrite C. field. split; assumption. }
  assert (R2' : b' * e' - d * a' * c' * x1 * y1 <> 0).
  { intros C. apply R2. transitivity ((b' * e' - d * a' * c' * x1 * y1) / (b' * e')); [field; split; assumption|]. rewrite C. field. split; assumption. }
  clear L1 L2 R1 R2. apply pair_eq.
  - transitivity ((x1 * c' * b' + a' * e' * y1) / (b' * e' + d * a' * c' * x1 * y1)).
    { field. repeat split; assumption. }
    symmetry. transitivity ((a * e * y3 + x3 * c * b) / (b * e + d * a * c * x3 * y3)).
    { field. repeat split; assumption. }
    apply quot_eq; assumption.
  - transitivity ((c' * b' * y1 + a' * e' * x1) / (b' * e' - d * a' * c' * x1 * y1)).
    { field. repeat split; assumption. }
    symmetry. transitivity ((c * b * y3 + a * e * x3) / (b * e - d * a * c * x3 * y3)).
    { field. repeat split; assumption. }
    apply quot_eq; assumption.
Qed.
Lemma eadd_comm : forall P Q, eadd P Q = eadd Q P.
Proof.
  intros [x1 y1] [x2 y2]. cbn [eadd]. replace (x2 * x1 * y2 * y1) with (x1 * x2 * y1 * y2) by ring.
  apply pair_eq; f_equal; ring.
Qed.
Lemma eO_on : epon (0, 1). Proof. unfold epon, eon. cbn [fst snd]. ring. Qed.
Lemma one_nz : 1 <> 0. Proof. exact (F_1_neq_0 FT). Qed.
Lemma eadd_O : forall P, eadd P (0, 1) = P.
Proof.
  intros [x y]. cbn [eadd]. replace (d * (x * 0 * y * 1)) with 0 by ring. apply pair_eq; field; try apply one_nz; intros C; apply one_nz; rewrite <- C; ring.
Qed.
Lemma eneg_on : forall P, epon P -> epon (eneg P).
Proof. intros [x y] H. unfold epon, eon in *. cbn [fst snd eneg] in *. transitivity (y * y - x * x); [ring|]. rewrite H. ring. Qed.
Lemma eadd_neg : forall P, epon P -> eadd P (eneg P) = (0, 1).
Proof.
  intros [x y] H. pose proof (eneg_on (x, y) H) as H'. unfold epon in *. cbn [fst snd eneg eadd] in *.
  pose proof (den_p _ _ _ _ H H') as B. pose proof (den_m _ _ _ _ H H') as E. apply pair_eq.
  - transitivity (0 / (1 + d * (x * - x * y * y))); [f_equal; ring|]. field. exact B.
  - transitivity ((1 - d * (x * - x * y * y)) / (1 - d * (x * - x * y * y))); [f_equal|field; exact E].
    transitivity (y * y - x * x); [ring|]. rewrite H. ring.
Qed.
End Law.
