(** * CurveSub: the points of order N of a curve, and a checker for multiples of the base point *)
From Coq Require Import ZArith Znumtheory List Bool Lia.
From Verif Require Import Spec_Group CurveZ.
Import ListNotations.
Open Scope Z_scope.

(** ** The elements of a group killed by N *)
Section Torsion.
Variable G : cgroup.
Variable eq0 : pt G -> bool.
Hypothesis eq0_ok : forall P, eq0 P = true <-> P = gO.
Variable N : Z.
Definition tpoint : Type := { P : pt G | eq0 (gmul N P) = true }.
Lemma tpoint_eq : forall P Q : tpoint, proj1_sig P = proj1_sig Q -> P = Q.
Proof. intros [x Hx] [y Hy] E. cbn in E. subst y. f_equal. apply Eqdep_dec.UIP_dec. apply Bool.bool_dec. Qed.
Lemma tpoint_N : forall P : tpoint, gmul N (proj1_sig P) = gO.
Proof. intros [P H]. apply eq0_ok. exact H. Qed.
Lemma t_O : eq0 (gmul N (gO : pt G)) = true.
Proof. apply eq0_ok. apply gmul_O. Qed.
Lemma t_add : forall P Q : tpoint, eq0 (gmul N (gadd (proj1_sig P) (proj1_sig Q))) = true.
Proof. intros P Q. apply eq0_ok. rewrite gmul_gadd, !tpoint_N. apply gadd_O. Qed.
Lemma t_neg : forall P : tpoint, eq0 (gmul N (gneg (proj1_sig P))) = true.
Proof. intros P. apply eq0_ok. rewrite gmul_gneg, tpoint_N. apply gneg_O. Qed.
Definition tgroup : cgroup.
Proof.
  refine (mkGroup tpoint (exist _ gO t_O) (fun P Q => exist _ (gadd (proj1_sig P) (proj1_sig Q)) (t_add P Q))
    (fun P => exist _ (gneg (proj1_sig P)) (t_neg P)) _ _ _ _); intros; apply tpoint_eq; cbn [proj1_sig].
  - apply gadd_assoc.
  - apply gadd_comm.
  - apply gadd_O.
  - apply gadd_neg.
Defined.
Lemma t_gmul : forall z (P : pt tgroup), proj1_sig (gmul z P) = gmul z (proj1_sig P).
Proof.
  assert (A : forall n (P : pt tgroup), proj1_sig (nmul n P) = nmul n (proj1_sig P)).
  { induction n; intros; [reflexivity|]. cbn [nmul]. rewrite <- IHn. reflexivity. }
  intros z P. unfold gmul. destruct (z <? 0); [|apply A]. cbn [gneg tgroup proj1_sig]. rewrite <- A. reflexivity.
Qed.
End Torsion.

(** ** Checking multiples of a base point with the slopes and quotients given *)
Section Chain.
Variable p : Z.
Hypothesis p_prime : prime p.
Hypothesis p_odd : 2 < p.
Variables ca cb : Z.
Hypothesis disc : ~ (p | 4 * ca ^ 3 + 27 * cb ^ 2).
Notation CG := (curve_group p p_prime p_odd ca cb disc).
Notation at' := (at_ p p_prime p_odd ca cb disc).
Variable mulp : Z -> Z.
Hypothesis mulp_ok : forall q, mulp q = q * p.
Variables gx gy : Z.
Hypothesis g_range : 0 <= gx < p.

(** double, or add s times the base point; slope and three quotients *)
Inductive step := Dbl (l q1 q2 q3 : Z) | Add (s l q1 q2 q3 : Z).
Definition run1 (st : Z * Z * Z) (c : step) : option (Z * Z * Z) :=
  let '(k, x, y) := st in
  match c with
  | Dbl l q1 q2 q3 =>
      let x' := l * l - 2 * x - mulp q2 in
      let y' := l * (x - x') - y - mulp q3 in
      if (0 <? y) && (y <? p) && (l * (2 * y) =? 3 * (x * x) + ca + mulp q1) && (0 <=? x') && (x' <? p)
      then Some (2 * k, x', y') else None
  | Add s l q1 q2 q3 =>
      let x' := l * l - x - gx - mulp q2 in
      let y' := l * (x - x') - y - mulp q3 in
      if ((s =? 1) || (s =? -1)) && (0 <=? x) && (x <? p) && negb (x =? gx) && (l * (gx - x) =? s * gy - y + mulp q1) && (0 <=? x') && (x' <? p)
      then Some (k + s, x', y') else None
  end.
Fixpoint run (st : Z * Z * Z) (cs : list step) : option (Z * Z * Z) :=
  match cs with [] => Some st | c :: cs' => match run1 st c with None => None | Some st' => run st' cs' end end.
Lemma some3 : forall a b c a' b' c' : Z, Some (a, b, c) = Some (a', b', c') -> a = a' /\ b = b' /\ c = c'.
Proof. intros. repeat split; congruence. Qed.
Lemma run1_ok : forall G k x y c k' x' y', at' G gx gy -> at' (gmul k G) x y -> run1 (k, x, y) c = Some (k', x', y') ->
  at' (gmul k' G) x' y'.
Proof.
  intros G k x y c k' x' y' AG A R. destruct c as [l q1 q2 q3|s l q1 q2 q3]; cbn [run1] in R; rewrite !mulp_ok in R.
  - match type of R with (if ?b then _ else _) = _ => destruct b eqn:B; [|discriminate] end.
    rewrite !andb_true_iff, !Z.ltb_lt, !Z.leb_le, Z.eqb_eq in B. destruct B as ((((B1 & B2) & B3) & B4) & B5).
    apply some3 in R as (<- & <- & <-). rewrite gmul_mul. rewrite (gmul_add _ 1 1), gmul_1.
    assert (T := at_tangent p p_prime p_odd ca cb disc (gmul k G) x y l A).
    eapply at_cong; [apply T|..].
    + intros D. apply Z.divide_pos_le in D; lia.
    + exists q1. rewrite B3. ring.
    + exists (- q2). ring.
    + exists (l * q2 - q3). ring.
  - match type of R with (if ?b then _ else _) = _ => destruct b eqn:B; [|discriminate] end.
    rewrite !andb_true_iff, orb_true_iff, negb_true_iff, !Z.ltb_lt, !Z.leb_le, !Z.eqb_eq, Z.eqb_neq in B.
    destruct B as ((((((S & B1) & B2) & B3) & B4) & B5) & B6). apply some3 in R as (<- & <- & <-). rewrite gmul_add.
    assert (AS : at' (gmul s G) gx (s * gy)).
    { destruct S as [-> | ->].
      - rewrite gmul_1. rewrite Z.mul_1_l. exact AG.
      - change (-1) with (- (1)). rewrite gmul_opp, gmul_1. replace (- (1) * gy) with (- gy) by ring. apply at_neg, AG. }
    assert (T := at_chord p p_prime p_odd ca cb disc (gmul k G) (gmul s G) x y gx (s * gy) l A AS).
    eapply at_cong; [apply T|..].
    + intros D. assert (gx - x <> 0) by lia. destruct D as [d D]. assert (-1 < d < 1) by nia. assert (d = 0) by lia. subst d. lia.
    + exists (- q1). replace (l * (gx - x)) with (s * gy - y + q1 * p) by (rewrite <- B4; ring). ring.
    + exists (- q2). ring.
    + exists (l * q2 - q3). ring.
Qed.
Lemma run_ok : forall G cs k x y k' x' y', at' G gx gy -> at' (gmul k G) x y -> run (k, x, y) cs = Some (k', x', y') ->
  at' (gmul k' G) x' y'.
Proof.
  intros G. induction cs as [|c cs IH]; intros k x y k' x' y' AG A R.
  - injection R as <- <- <-. exact A.
  - cbn [run] in R. destruct (run1 (k, x, y) c) as [[[k1 x1] y1]|] eqn:E; [|discriminate].
    apply (IH k1 x1 y1 k' x' y' AG); [|exact R]. apply (run1_ok G k x y c k1 x1 y1 AG A E).
Qed.
(** if the chain reaches - G after N - 1 then N kills G *)
Lemma run_order : forall G cs N, at' G gx gy -> run (1, gx, gy) cs = Some (N - 1, gx, p - gy) -> gmul N G = gO.
Proof.
  intros G cs N AG R.
  assert (A1 : at' (gmul 1 G) gx gy) by (rewrite gmul_1; exact AG).
  pose proof (run_ok G cs 1 gx gy _ _ _ AG A1 R) as A. replace N with (N - 1 + 1) by ring.
  rewrite gmul_add, gmul_1. apply (at_opp p p_prime p_odd ca cb disc _ _ gx (p - gy) gx gy A AG).
  - exists 0. ring.
  - exists 1. ring.
Qed.
End Chain.
