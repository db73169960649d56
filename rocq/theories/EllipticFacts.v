(** * EllipticFacts: the Jacobian formulas of Elliptic.v compute the group law of CurveZ.v *)
From Coq Require Import ZArith Znumtheory Zpow_facts List Bool Lia Setoid Morphisms.
From Verif Require Import Base BaseFacts NumTheory Spec_Group CurveZ Curves Elliptic.
Import ListNotations.
Open Scope Z_scope.

Section Facts.
Variable c : curve.
Notation p := (c_P c).
Notation b := (c_B c).
Hypothesis p_prime : prime p.
Hypothesis p_odd : 2 < p.
Hypothesis disc : ~ (p | 4 * (-3) ^ 3 + 27 * b ^ 2).
Notation CG := (curve_group p p_prime p_odd (-3) b disc).
Notation at' := (at_ p p_prime p_odd (-3) b disc).

(** congruence modulo p *)
Definition E (u v : Z) : Prop := u mod p = v mod p.
Local Instance E_equiv : Equivalence E.
Proof. split; [intros u; reflexivity|intros u v; unfold E; auto|intros u v w; unfold E; congruence]. Qed.
Local Instance E_add : Proper (E ==> E ==> E) Z.add.
Proof. intros u u' H v v' H'. unfold E in *. rewrite (Zplus_mod u), (Zplus_mod u'), H, H'. reflexivity. Qed.
Local Instance E_sub : Proper (E ==> E ==> E) Z.sub.
Proof. intros u u' H v v' H'. unfold E in *. rewrite (Zminus_mod u), (Zminus_mod u'), H, H'. reflexivity. Qed.
Local Instance E_mul : Proper (E ==> E ==> E) Z.mul.
Proof. intros u u' H v v' H'. unfold E in *. rewrite (Zmult_mod u), (Zmult_mod u'), H, H'. reflexivity. Qed.
Lemma pnz : p <> 0. Proof. lia. Qed.
Lemma E_mod : forall z, E (z mod p) z.
Proof. intros z. apply Z.mod_mod. apply pnz. Qed.
Lemma E_lift : forall z, E (lift c z) z.
Proof.
  intros z. unfold lift, E. destruct (z <? 0); [|reflexivity]. rewrite <- (Z.mod_add z 1 p pnz). f_equal. ring.
Qed.
Lemma E_div : forall u v, E u v <-> (p | u - v).
Proof. intros u v. exact (mod_eq_divide p p_odd 0 0 u v). Qed.
Lemma E_0 : forall z, E z 0 <-> (p | z).
Proof. intros z. rewrite E_div, Z.sub_0_r. reflexivity. Qed.
Lemma E_small : forall u v, 0 <= u < p -> 0 <= v < p -> E u v -> u = v.
Proof. intros u v Hu Hv H. unfold E in H. rewrite !Z.mod_small in H by assumption. exact H. Qed.
Lemma E_prod : forall u v, E (u * v) 0 -> E u 0 \/ E v 0.
Proof. intros u v. rewrite !E_0. apply prime_mult. exact p_prime. Qed.
Lemma range : forall z, 0 <= z mod p < p.
Proof. intros z. apply Z.mod_pos_bound. lia. Qed.
Lemma two : ~ E 2 0.
Proof. rewrite E_0. intros D. apply Z.divide_pos_le in D; lia. Qed.
Lemma inverse : forall u, ~ E u 0 -> exists w, E (u * w) 1.
Proof.
  intros u N. exists (u ^ (p - 2)). rewrite E_0 in N. pose proof (fermat_unit p u p_prime N) as F.
  unfold E. rewrite (Z.mod_small 1) by lia. rewrite <- F. f_equal.
  replace (p - 1) with (Z.succ (p - 2)) by lia. rewrite Z.pow_succ_r by lia. reflexivity.
Qed.
Lemma quotient : forall u v, ~ E u 0 -> exists l, E (l * u) v.
Proof.
  intros u v N. destruct (inverse u N) as [w W]. exists (v * w).
  transitivity (v * (u * w)); [replace (v * w * u) with (v * (u * w)) by ring; reflexivity|]. rewrite W. rewrite Z.mul_1_r. reflexivity.
Qed.

(** Jacobian coordinates of a point *)
Definition J (q : Z * Z * Z) (P : pt CG) : Prop :=
  let '(x, y, z) := q in
  0 <= z < p /\ ((P = gO /\ z = 0) \/
                 (z <> 0 /\ exists a d, at' P a d /\ E x (a * (z * z)) /\ E y (d * (z * z * z)))).

(** the same in the field, where polynomial identities are decided by ring *)
Notation F := (zm p).
Notation f := (fz p p_prime).
Local Infix "+f" := (fadd p p_prime) (at level 50, left associativity).
Local Infix "-f" := (fsub p p_prime) (at level 50, left associativity).
Local Infix "*f" := (fmul p p_prime) (at level 40, left associativity).
Lemma F_morph : ring_morph (f 0) (f 1) (fadd p p_prime) (fmul p p_prime) (fsub p p_prime) (fopp p p_prime) (@eq F)
  0 1 Z.add Z.mul Z.sub Z.opp Z.eqb f.
Proof.
  constructor; try reflexivity; intros.
  - symmetry. apply (fz_add p p_prime p_odd 0 0).
  - symmetry. apply fz_sub.
  - symmetry. apply (fz_mul p p_prime p_odd 0 0).
  - symmetry. apply fz_opp.
  - apply Z.eqb_eq in H. rewrite H. reflexivity.
Qed.
Ltac fconst t := match t with f ?z => match isZcst z with true => z | _ => constr:(InitialRing.NotConstant) end | _ => constr:(InitialRing.NotConstant) end.
Add Ring Fring : (F_ring p p_prime p_odd 0 0) (morphism F_morph, constants [fconst]).
Lemma E_f : forall u v, E u v <-> f u = f v.
Proof. intros u v. unfold E. symmetry. apply fz_eq. Qed.
Lemma f_mod : forall z, f (z mod p) = f z.
Proof. intros z. apply E_f, E_mod. Qed.
Lemma f_lift : forall z, f (lift c z) = f z.
Proof. intros z. apply E_f, E_lift. Qed.
Lemma f_add : forall u v, f (u + v) = fadd p p_prime (f u) (f v).
Proof. intros. symmetry. apply (fz_add p p_prime p_odd 0 0). Qed.
Lemma f_sub : forall u v, f (u - v) = fsub p p_prime (f u) (f v).
Proof. intros. symmetry. apply fz_sub. Qed.
Lemma f_mul : forall u v, f (u * v) = fmul p p_prime (f u) (f v).
Proof. intros. symmetry. apply (fz_mul p p_prime p_odd 0 0). Qed.
Ltac push := repeat first [rewrite f_mod|rewrite f_lift|rewrite f_add|rewrite f_sub|rewrite f_mul].
Ltac push_in H := repeat first [rewrite f_mod in H|rewrite f_lift in H|rewrite f_add in H|rewrite f_sub in H|rewrite f_mul in H].

Lemma double_vals : forall x y z, exists x3 y3 z3, doubleJacobian c (x, y, z) = (x3, y3, z3) /\ 0 <= z3 < p /\
  let A := 3 * ((x - z * z) * (x + z * z)) in
  E x3 (A * A - 8 * (x * (y * y))) /\ E z3 (2 * (y * z)) /\ E y3 (A * (4 * (x * (y * y)) - x3) - 8 * (y * y * (y * y))).
Proof.
  intros x y z. cbn [doubleJacobian]. eexists _, _, _. split; [reflexivity|]. split; [apply range|]. cbv zeta.
  rewrite !Z.shiftl_mul_pow2 by lia. change (2 ^ 1) with 2. change (2 ^ 2) with 4. change (2 ^ 3) with 8.
  set (x3 := lift c _ mod p). rewrite !E_f.
  assert (X : f x3 = f ((3 * ((x - z * z) * (x + z * z))) * (3 * ((x - z * z) * (x + z * z))) - 8 * (x * (y * y)))).
  { unfold x3. push. ring. }
  split; [exact X|]. clearbody x3. clear X. split; push; ring.
Qed.

Lemma J_zero : forall x y z, 0 <= z < p -> E z 0 -> J (x, y, z) gO.
Proof. intros x y z R H. split; [exact R|]. left. split; [reflexivity|]. apply E_small; auto. lia. Qed.
Lemma nonzero : forall z, 0 <= z < p -> z <> 0 -> ~ E z 0.
Proof. intros z R N H. apply N. apply E_small; auto. lia. Qed.

Lemma double_J : forall q P, J q P -> J (doubleJacobian c q) (gadd P P).
Proof.
  intros [[x y] z] P [R H]. destruct (double_vals x y z) as (x3 & y3 & z3 & -> & R3 & EX & EZ & EY).
  destruct H as [(-> & ->)|(Nz & a & d & A & X & Y)].
  - rewrite gadd_O. apply J_zero; [exact R3|]. rewrite EZ. replace (2 * (y * 0)) with 0 by ring. reflexivity.
  - rewrite !E_f in *. push_in EX. push_in EY. push_in EZ. push_in X. push_in Y. rewrite X, Y in EX, EY. rewrite Y in EZ.
    destruct (Znumtheory.Zdivide_dec p d) as [D|D].
    + rewrite (at_opp p p_prime p_odd (-3) b disc P P a d a d A A) by
        (rewrite ?Z.sub_diag; first [apply Z.divide_0_r|apply Z.divide_add_r; exact D]).
      apply J_zero; [exact R3|]. apply E_f. rewrite EZ. apply E_0, E_f in D. rewrite D. ring.
    + assert (D' : ~ E (2 * d) 0) by (intros C; apply E_prod in C as [C|C]; [exact (two C)|apply D, E_0, C]).
      destruct (quotient (2 * d) (3 * a * a + -3) D') as [l L].
      pose proof (at_tangent p p_prime p_odd (-3) b disc P a d l A D (proj1 (E_div _ _) L)) as T.
      assert (N3 : z3 <> 0).
      { intros ->. assert (C : E (2 * d * (z * z * (z * z))) 0) by (apply E_f; rewrite EZ; push; ring).
        apply E_prod in C as [C|C]; [exact (D' C)|]. apply (nonzero z R Nz).
        apply E_prod in C as [C|C]; apply E_prod in C as [C|C]; exact C. }
      split; [exact R3|]. right. split; [exact N3|]. eexists _, _. split; [exact T|]. rewrite !E_f in *. push. push_in L.
      assert (AL : f 3 *f ((f a *f (f z *f f z) -f f z *f f z) *f (f a *f (f z *f f z) +f f z *f f z)) =
        f l *f (f 2 *f f d) *f (f z *f f z *f (f z *f f z))) by (rewrite L; ring).
      rewrite AL in EX, EY.
      assert (X3 : f x3 = (f l *f f l -f f a -f f a) *f (f z3 *f f z3)) by (rewrite EX, EZ; ring).
      split; [exact X3|]. rewrite EY, X3, EZ. ring.
Qed.

Lemma add_vals : forall x1 y1 z1 x2 y2 z2, z1 <> 0 -> z2 <> 0 ->
  let U1 := x1 * (z2 * z2) in let U2 := x2 * (z1 * z1) in
  let S1 := y1 * (z2 * z2 * z2) in let S2 := y2 * (z1 * z1 * z1) in
  (E U1 U2 /\ E S1 S2 /\ addJacobian c (x1, y1, z1) (x2, y2, z2) = doubleJacobian c (x1, y1, z1)) \/
  (~ (E U1 U2 /\ E S1 S2) /\ exists x3 y3 z3, addJacobian c (x1, y1, z1) (x2, y2, z2) = (x3, y3, z3) /\ 0 <= z3 < p /\
     let H := U2 - U1 in let R := S2 - S1 in
     E x3 (4 * (R * R) - 4 * (H * H * H) - 8 * (U1 * (H * H))) /\ E z3 (2 * (z1 * z2 * H)) /\
     E y3 (2 * R * (4 * (U1 * (H * H)) - x3) - 8 * (S1 * (H * H * H)))).
Proof.
  intros x1 y1 z1 x2 y2 z2 N1 N2 U1 U2 S1 S2. cbn [addJacobian].
  apply Z.eqb_neq in N1, N2. rewrite N1, N2.
  set (u1 := (x1 * _) mod p). set (u2 := (x2 * _) mod p). set (s1 := (y1 * z2 * _) mod p). set (s2 := (y2 * z1 * _) mod p).
  assert (EU1 : E u1 U1) by (apply E_f; unfold u1, U1; push; ring).
  assert (EU2 : E u2 U2) by (apply E_f; unfold u2, U2; push; ring).
  assert (ES1 : E s1 S1) by (apply E_f; unfold s1, S1; push; ring).
  assert (ES2 : E s2 S2) by (apply E_f; unfold s2, S2; push; ring).
  assert (R1 : 0 <= u1 < p) by apply range. assert (R2 : 0 <= u2 < p) by apply range.
  assert (R3 : 0 <= s1 < p) by apply range. assert (R4 : 0 <= s2 < p) by apply range.
  clearbody u1 u2 s1 s2.
  assert (LZ : forall u v, 0 <= u < p -> 0 <= v < p -> lift c (v - u) = 0 <-> u = v).
  { intros u v Hu Hv. unfold lift. destruct (Z.ltb_spec (v - u) 0); lia. }
  assert (XE : u2 - u1 = 0 <-> E U1 U2).
  { rewrite <- EU1, <- EU2. split; [intros H; replace u2 with u1 by lia; reflexivity|].
    intros H. apply E_small in H; auto. lia. }
  assert (YE : lift c (s2 - s1) = 0 <-> E S1 S2).
  { rewrite (LZ s1 s2 R3 R4), <- ES1, <- ES2. split; [intros ->; reflexivity|]. apply E_small; auto. }
  destruct (Z.eqb_spec (u2 - u1) 0) as [Xe|Xe]; destruct (Z.eqb_spec (lift c (s2 - s1)) 0) as [Ye|Ye]; cbn [andb].
  1: { left. split; [apply XE, Xe|]. split; [apply YE, Ye|reflexivity]. }
  all: right; (split; [tauto|]); (eexists _, _, _); (split; [reflexivity|]); (split; [apply range|]); cbv zeta;
    rewrite !Z.shiftl_mul_pow2 by lia; change (2 ^ 1) with 2; (apply E_f in EU1, EU2, ES1, ES2);
    set (x3 := (_ - _ - _ - _) mod p); rewrite !E_f;
    (assert (X3 : f x3 = f (4 * ((S2 - S1) * (S2 - S1)) - 4 * ((U2 - U1) * (U2 - U1) * (U2 - U1)) - 8 * (U1 * ((U2 - U1) * (U2 - U1)))))
      by (unfold x3; push; rewrite EU1, EU2, ES1, ES2; ring));
    (split; [exact X3|]); clearbody x3; clear X3; split; push; rewrite ?EU1, ?EU2, ?ES1, ?ES2; ring.
Qed.

Lemma add_J : forall q1 q2 P Q, J q1 P -> J q2 Q -> J (addJacobian c q1 q2) (gadd P Q).
Proof.
  intros [[x1 y1] z1] [[x2 y2] z2] P Q HP HQ. pose proof HP as [R1 H1]. pose proof HQ as [R2 H2].
  destruct H1 as [(-> & ->)|(N1 & a1 & d1 & A1 & X1 & Y1)].
  { cbn [addJacobian]. rewrite Z.eqb_refl, gadd_comm, gadd_O. exact HQ. }
  destruct H2 as [(-> & ->)|(N2 & a2 & d2 & A2 & X2 & Y2)].
  { cbn [addJacobian]. apply Z.eqb_neq in N1. rewrite N1, Z.eqb_refl, gadd_O. exact HP. }
  set (w := z1 * z2).
  assert (Nw : ~ E w 0).
  { intros C. apply E_prod in C as [C|C]; [apply (nonzero z1 R1 N1 C)|apply (nonzero z2 R2 N2 C)]. }
  rewrite E_f in X1, X2, Y1, Y2. push_in X1. push_in X2. push_in Y1. push_in Y2.
  assert (U1 : f (x1 * (z2 * z2)) = f (a1 * (w * w))) by (unfold w; push; rewrite X1; ring).
  assert (U2 : f (x2 * (z1 * z1)) = f (a2 * (w * w))) by (unfold w; push; rewrite X2; ring).
  assert (S1 : f (y1 * (z2 * z2 * z2)) = f (d1 * (w * w * w))) by (unfold w; push; rewrite Y1; ring).
  assert (S2 : f (y2 * (z1 * z1 * z1)) = f (d2 * (w * w * w))) by (unfold w; push; rewrite Y2; ring).
  assert (Nw2 : ~ E (w * w) 0) by (intros C; apply E_prod in C as [C|C]; auto).
  assert (Nw3 : ~ E (w * w * w) 0) by (intros C; apply E_prod in C as [C|C]; auto).
  assert (CANC : forall u v k, ~ E k 0 -> f (u * k) = f (v * k) -> (p | u - v)).
  { intros u v k Nk H. apply E_f, E_div in H. replace (u * k - v * k) with ((u - v) * k) in H by ring.
    apply E_0, E_prod in H as [H|H]; [apply E_0, H|contradiction]. }
  destruct (add_vals x1 y1 z1 x2 y2 z2 N1 N2) as [(EU & ES & ->)|(NE & x3 & y3 & z3 & -> & R3 & EX & EZ & EY)].
  - assert (PQ : P = Q).
    { apply (at_inj p p_prime p_odd (-3) b disc P Q a1 d1 A1).
      apply (at_cong p p_prime p_odd (-3) b disc Q a2 d2 a1 d1 A2).
      - apply (CANC a1 a2 (w * w) Nw2). rewrite <- U1, <- U2. apply E_f. exact EU.
      - apply (CANC d1 d2 (w * w * w) Nw3). rewrite <- S1, <- S2. apply E_f. exact ES. }
    rewrite <- PQ. apply double_J. exact HP.
  - rewrite E_f in EX, EY, EZ. revert EX EY EZ. push. rewrite <- !f_mul, U1, U2, S1, S2. intros EX EY EZ.
    destruct (Znumtheory.Zdivide_dec p (a2 - a1)) as [D|D].
    + destruct (at_same_x p p_prime p_odd (-3) b disc P Q a1 d1 a2 d2 A1 A2) as [PQ|PQ].
      { replace (a1 - a2) with (- (a2 - a1)) by ring. apply Z.divide_opp_r. exact D. }
      * exfalso. apply NE. rewrite <- PQ in A2. destruct (at_same p p_prime p_odd (-3) b disc P a1 d1 a2 d2 A1 A2) as [DX DY].
        rewrite !E_f, U1, U2, S1, S2, !f_mul. apply E_div, E_f in DX. apply E_div, E_f in DY. rewrite DX, DY. split; reflexivity.
      * rewrite PQ, gadd_comm, gadd_neg. apply J_zero; [exact R3|]. apply E_f. rewrite EZ. push.
        apply E_div, E_f in D. rewrite D. ring.
    + assert (D' : ~ E (a2 - a1) 0) by (rewrite E_0; exact D).
      destruct (quotient (a2 - a1) (d2 - d1) D') as [l L].
      pose proof (at_chord p p_prime p_odd (-3) b disc P Q a1 d1 a2 d2 l A1 A2 D) as T.
      specialize (T ltac:(apply E_div; symmetry; exact L)).
      assert (Z3 : f z3 = f (2 * ((a2 - a1) * (w * w * w)))) by (rewrite EZ; fold w; push; ring).
      assert (N3 : z3 <> 0).
      { intros ->. symmetry in Z3. apply E_f in Z3. apply E_prod in Z3 as [C|C]; [exact (two C)|]. apply E_prod in C as [C|C]; auto. }
      split; [exact R3|]. right. split; [exact N3|]. eexists _, _. split; [exact T|]. rewrite E_f in L. rewrite !E_f. push.
      push_in L. push_in Z3. revert EX EY. push. intros EX EY.
      assert (X3 : f x3 = (f l *f f l -f f a1 -f f a2) *f (f z3 *f f z3)).
      { rewrite EX, Z3.
        replace (f d2 *f (f w *f f w *f f w) -f f d1 *f (f w *f f w *f f w)) with ((f d2 -f f d1) *f (f w *f f w *f f w)) by ring.
        rewrite <- L. ring. }
      split; [exact X3|]. rewrite EY, X3, Z3.
      replace (f d2 *f (f w *f f w *f f w) -f f d1 *f (f w *f f w *f f w)) with ((f d2 -f f d1) *f (f w *f f w *f f w)) by ring.
      rewrite <- L. ring.
Qed.

Lemma ModInverse_ok : forall z, ~ E z 0 -> E (ModInverse c z * z) 1.
Proof.
  intros z N. unfold ModInverse. rewrite Zpow_mod_correct by apply pnz. rewrite E_mod.
  rewrite E_0 in N. pose proof (fermat_unit p z p_prime N) as F. unfold E. rewrite (Z.mod_small 1) by lia. rewrite <- F. f_equal.
  replace (p - 1) with (Z.succ (p - 2)) by lia. rewrite Z.pow_succ_r by lia. ring.
Qed.
Notation aco := (acoords p p_prime p_odd (-3) b disc).
Lemma affine_J : forall q P, J q P -> affineFromJacobian c q = aco P.
Proof.
  intros [[x y] z] P [R [(-> & ->)|(Nz & a & d & A & X & Y)]]; cbn [affineFromJacobian]; [reflexivity|].
  pose proof (nonzero z R Nz) as NE. apply ModInverse_ok in NE. apply Z.eqb_neq in Nz. rewrite Nz.
  rewrite (acoords_at p p_prime p_odd (-3) b disc P a d A). set (i := ModInverse c z) in *. clearbody i.
  rewrite E_f in NE, X, Y. push_in NE. push_in X. push_in Y.
  f_equal; apply E_f; push; rewrite ?X, ?Y.
  - transitivity (f a *f (f i *f f z) *f (f i *f f z)); [ring|]. rewrite NE. ring.
  - transitivity (f d *f (f i *f f z) *f (f i *f f z) *f (f i *f f z)); [ring|]. rewrite NE. ring.
Qed.

(** ** The methods *)
Lemma on_curve_iff : forall x y, IsOnCurve c (x, y) = true <-> (p | y * y - (x * x * x - 3 * x + b)).
Proof.
  intros x y. cbn [IsOnCurve]. rewrite Z.eqb_eq, Z.shiftl_mul_pow2 by lia. change (2 ^ 1) with 2. rewrite <- E_div. unfold E.
  replace (x * x * x - (x * 2 + x) + b) with (x * x * x - 3 * x + b) by ring. split; intros H; symmetry; exact H.
Qed.
Lemma on_curve_at : forall x y, IsOnCurve c (x, y) = true <-> exists P, at' P x y.
Proof.
  intros x y. rewrite on_curve_iff. replace (x * x * x - 3 * x + b) with (x * x * x + -3 * x + b) by ring. split.
  - apply (at_make p p_prime p_odd (-3) b disc).
  - intros [P A]. exact (at_on p p_prime p_odd (-3) b disc P x y A).
Qed.
Hypothesis b_nz : ~ (p | b).
Lemma origin : forall P, ~ at' P 0 0.
Proof.
  intros P A. apply (at_on p p_prime p_odd (-3) b disc) in A. apply b_nz.
  replace (0 * 0 - (0 * 0 * 0 + -3 * 0 + b)) with (- b) in A by ring. apply Z.divide_opp_r. exact A.
Qed.
(** a pair of numbers standing for a point: coordinates up to multiples of p, or (0, 0) *)
Definition stands (q : Z * Z) (P : pt CG) : Prop := (P = gO /\ q = (0, 0)) \/ at' P (fst q) (snd q).
Lemma stands_aco : forall P, stands (aco P) P.
Proof.
  intros P. destruct (proj1_sig P) as [xy|] eqn:PE.
  - right. apply at_acoords. intros ->. discriminate PE.
  - left. assert (P = gO) as -> by (apply cpoint_eq; exact PE). split; reflexivity.
Qed.
Lemma J_one : forall x y P, at' P x y -> J (x, y, 1) P.
Proof.
  intros x y P A. split; [lia|]. right. split; [discriminate|]. exists x, y. split; [exact A|].
  split; apply E_f; f_equal; ring.
Qed.
Lemma J_stands : forall q P, stands q P -> J (q, zForAffine (fst q) (snd q)) P.
Proof.
  intros [x y] P [(-> & Q)|A]; cbn [fst snd] in *.
  - injection Q as -> ->. apply J_zero; [cbn; lia|reflexivity].
  - replace (zForAffine x y) with 1; [apply J_one; exact A|]. unfold zForAffine.
    destruct (Z.eqb_spec x 0) as [->|]; [|reflexivity]. destruct (Z.eqb_spec y 0) as [->|]; [|reflexivity].
    exfalso. exact (origin P A).
Qed.
Lemma Add_ok : forall q1 q2 P Q, stands q1 P -> stands q2 Q -> Add c q1 q2 = aco (gadd P Q).
Proof. intros q1 q2 P Q H1 H2. apply affine_J, add_J; apply J_stands; assumption. Qed.
Lemma Double_ok : forall q P, stands q P -> Double c q = aco (gadd P P).
Proof. intros q P H. apply affine_J, double_J, J_stands, H. Qed.

Lemma bit_J : forall x y B q n bit, at' B x y -> J q (gmul n B) -> J (bit_step c (x, y) q bit) (gmul (2 * n + Z.b2z bit) B).
Proof.
  intros x y B q n bit A H. unfold bit_step. apply double_J in H.
  replace (gmul (2 * n + Z.b2z bit) B) with (gadd (gmul (Z.b2z bit) B) (gadd (gmul n B) (gmul n B))).
  - destruct bit; cbn [Z.b2z].
    + apply add_J; [|exact H]. rewrite gmul_1. apply J_one. exact A.
    + rewrite gmul_0, gadd_comm, gadd_O. exact H.
  - rewrite <- !gmul_add. f_equal. ring.
Qed.
Definition byte_ok (k : Z) : bool :=
  fold_left (fun n i => 2 * n + Z.b2z (Z.testbit k i)) [7; 6; 5; 4; 3; 2; 1; 0] 0 =? k.
Lemma bytes_ok : forall k, 0 <= k < 256 -> byte_ok k = true.
Proof.
  assert (H : forallb byte_ok (map Z.of_nat (seq 0 256)) = true) by (vm_compute; reflexivity).
  intros k Hk. rewrite forallb_forall in H. apply H. apply in_map_iff. exists (Z.to_nat k). split; [lia|]. apply in_seq. lia.
Qed.
Lemma byte_J : forall x y B q n k, at' B x y -> 0 <= k < 256 -> J q (gmul n B) -> J (byte_step c (x, y) q k) (gmul (n * 256 + k) B).
Proof.
  intros x y B q n k A Hk H. unfold byte_step.
  assert (G : forall l q n, J q (gmul n B) -> J (fold_left (fun q i => bit_step c (x, y) q (Z.testbit k i)) l q)
                (gmul (fold_left (fun n i => 2 * n + Z.b2z (Z.testbit k i)) l n) B)).
  { induction l as [|i l IH]; intros q' n' H'; [exact H'|]. cbn [fold_left]. apply IH. apply bit_J; assumption. }
  apply (G [7; 6; 5; 4; 3; 2; 1; 0]) in H. replace (n * 256 + k) with (fold_left (fun n i => 2 * n + Z.b2z (Z.testbit k i)) [7; 6; 5; 4; 3; 2; 1; 0] n); [exact H|].
  pose proof (bytes_ok k Hk) as O. apply Z.eqb_eq in O. cbn [fold_left] in *. lia.
Qed.
Theorem ScalarMult_ok : forall x y B k, at' B x y -> wf_bytes k -> ScalarMult c (x, y) k = aco (gmul (be2z k) B).
Proof.
  intros x y B k A W. unfold ScalarMult. apply affine_J.
  assert (G : forall k q n, wf_bytes k -> J q (gmul n B) -> J (fold_left (byte_step c (x, y)) k q) (gmul (n * 256 ^ zlen k + be2z k) B)).
  { clear k W. induction k as [|k0 k IH]; intros q n W H.
    - cbn [fold_left]. rewrite be2z_nil, zlen_nil. replace (n * 256 ^ 0 + 0) with n by (rewrite Z.pow_0_r; ring). exact H.
    - cbn [fold_left]. inversion W as [|? ? W0 W1]; subst.
      apply (byte_J x y B q n k0 A W0) in H. apply (IH _ _ W1) in H. rewrite be2z_cons, zlen_cons.
      replace (n * 256 ^ (1 + zlen k) + (k0 * 256 ^ zlen k + be2z k)) with ((n * 256 + k0) * 256 ^ zlen k + be2z k); [exact H|].
      rewrite Z.pow_add_r by (unfold zlen; lia). ring. }
  apply (G k (0, 0, 0) 0 W). rewrite gmul_0. apply J_zero; [cbn; lia|reflexivity].
Qed.
End Facts.
