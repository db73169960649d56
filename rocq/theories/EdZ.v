(** * EdZ: the curve y^2 - x^2 = 1 + d x^2 y^2 over the integers modulo a prime, as a group *)
From Coq Require Import ZArith Znumtheory Ring Field Field_theory List Bool Lia.
From Verif Require Import NumTheory Spec_Group CurveZ EdLaw Pocklington.
Import ListNotations.
Open Scope Z_scope.

Section EdZ.
Variable p : Z.
Hypothesis p_prime : prime p.
Hypothesis p_odd : 2 < p.
Variables cd ci : Z.
Hypothesis ci_sqr : (p | ci * ci + 1).
Hypothesis cd_nonsquare : forall z, ~ (p | cd - z * z).

Notation F := (zm p).
Notation fz := (fz p p_prime). Notation val := (val p).
Notation fadd := (fadd p p_prime). Notation fmul := (fmul p p_prime). Notation fsub := (fsub p p_prime).
Notation fopp := (fopp p p_prime). Notation finv := (finv p p_prime). Notation fdiv := (fdiv p p_prime).
Lemma FT : field_theory (fz 0) (fz 1) fadd fmul fsub fopp fdiv finv (@eq F).
Proof. exact (F_field p p_prime p_odd 0 0). Qed.
Lemma fzm u v : fmul (fz u) (fz v) = fz (u * v). Proof. exact (fz_mul p p_prime p_odd 0 0 u v). Qed.
Lemma fza u v : fadd (fz u) (fz v) = fz (u + v). Proof. exact (fz_add p p_prime p_odd 0 0 u v). Qed.
Lemma fzs u v : fsub (fz u) (fz v) = fz (u - v). Proof. exact (fz_sub p p_prime u v). Qed.
Lemma fzo u : fopp (fz u) = fz (- u). Proof. exact (fz_opp p p_prime u). Qed.
Lemma fzd u v : fz u = fz v <-> (p | u - v). Proof. exact (fz_div p p_prime p_odd 0 0 u v). Qed.
Lemma e_two : fadd (fz 1) (fz 1) <> fz 0. Proof. exact (two_nz p p_prime p_odd 0 0). Qed.
Lemma e_i : fmul (fz ci) (fz ci) = fopp (fz 1).
Proof. rewrite fzm, fzo. apply fzd. replace (ci * ci - - (1)) with (ci * ci + 1) by ring. exact ci_sqr. Qed.
Lemma e_d : forall z, fz cd <> fmul z z.
Proof. intros z C. destruct (fz_rep p p_prime z) as [w ->]. rewrite fzm in C. apply fzd in C. exact (cd_nonsquare w C). Qed.
Add Field Zedfield : FT.

(** ** The group *)
Notation zadd := (eadd F (fz 1) fadd fmul fsub fdiv (fz cd)).
Notation zneg := (eneg F fopp).
Notation zon := (epon F (fz 1) fadd fmul fsub (fz cd)).
Definition eonb (P : F * F) : bool :=
  if feq_dec p (fsub (fmul (snd P) (snd P)) (fmul (fst P) (fst P)))
      (fadd (fz 1) (fmul (fmul (fz cd) (fmul (fst P) (fst P))) (fmul (snd P) (snd P)))) then true else false.
Lemma eonb_on P : eonb P = true <-> zon P.
Proof. unfold eonb, epon, eon. destruct (feq_dec p _ _); split; intros; congruence || reflexivity. Qed.
Definition epoint : Type := { P : F * F | eonb P = true }.
Lemma epoint_eq : forall P Q : epoint, proj1_sig P = proj1_sig Q -> P = Q.
Proof. intros [x Hx] [y Hy] E. cbn in E. subst y. f_equal. apply Eqdep_dec.UIP_dec. apply Bool.bool_dec. Qed.
Lemma epoint_on : forall P : epoint, zon (proj1_sig P).
Proof. intros [P H]. apply eonb_on. exact H. Qed.
Lemma eadd_ok : forall P Q : epoint, eonb (zadd (proj1_sig P) (proj1_sig Q)) = true.
Proof.
  intros P Q. apply eonb_on.
  apply (eadd_on F (fz 0) (fz 1) fadd fmul fsub fopp fdiv finv FT (feq_dec p) (fz cd) (fz ci) e_two e_i e_d); apply epoint_on.
Qed.
Lemma eneg_ok : forall P : epoint, eonb (zneg (proj1_sig P)) = true.
Proof. intros P. apply eonb_on. apply (eneg_on F (fz 0) (fz 1) fadd fmul fsub fopp fdiv finv FT). apply epoint_on. Qed.
Lemma eO_ok : eonb (fz 0, fz 1) = true.
Proof. apply eonb_on. apply (eO_on F (fz 0) (fz 1) fadd fmul fsub fopp fdiv finv FT). Qed.
Definition ed_group : cgroup.
Proof.
  refine (mkGroup epoint (exist _ (fz 0, fz 1) eO_ok)
    (fun P Q => exist _ (zadd (proj1_sig P) (proj1_sig Q)) (eadd_ok P Q))
    (fun P => exist _ (zneg (proj1_sig P)) (eneg_ok P)) _ _ _ _); intros; apply epoint_eq; cbn [proj1_sig].
  - apply (eadd_assoc F (fz 0) (fz 1) fadd fmul fsub fopp fdiv finv FT (feq_dec p) (fz cd) (fz ci) e_two e_i e_d); apply epoint_on.
  - apply (eadd_comm F (fz 0) (fz 1) fadd fmul fsub fopp fdiv finv FT).
  - apply (eadd_O F (fz 0) (fz 1) fadd fmul fsub fopp fdiv finv FT).
  - apply (eadd_neg F (fz 0) (fz 1) fadd fmul fsub fopp fdiv finv FT (feq_dec p) (fz cd) (fz ci) e_two e_i e_d). apply epoint_on.
Defined.

(** ** The group in terms of integer coordinates *)
Definition ate (P : pt ed_group) (x y : Z) : Prop := proj1_sig P = (fz x, fz y).
Lemma ate_exists : forall P : pt ed_group, exists x y, ate P x y /\ 0 <= x < p /\ 0 <= y < p.
Proof.
  intros [[x y] H]. exists (val x), (val y). split; [|split; apply (val_range p p_prime)]. unfold ate. cbn [proj1_sig].
  rewrite !(fz_val p p_prime). reflexivity.
Qed.
Lemma ate_inj : forall P Q x y, ate P x y -> ate Q x y -> P = Q.
Proof. intros P Q x y A B. apply epoint_eq. unfold ate in *. congruence. Qed.
Lemma ate_cong : forall P x y x' y', ate P x y -> (p | x' - x) -> (p | y' - y) -> ate P x' y'.
Proof. intros P x y x' y' A X Y. unfold ate in *. rewrite A. f_equal; symmetry; apply fzd; assumption. Qed.
Lemma ate_same : forall P x y x' y', ate P x y -> ate P x' y' -> (p | x - x') /\ (p | y - y').
Proof. intros P x y x' y' A B. unfold ate in *. rewrite A in B. apply pair_equal_spec in B as [X Y]. split; apply fzd; assumption. Qed.
Lemma ate_O : ate gO 0 1. Proof. reflexivity. Qed.
Lemma ate_on : forall P x y, ate P x y -> (p | y * y - x * x - 1 - cd * (x * x) * (y * y)).
Proof.
  intros P x y A. pose proof (epoint_on P) as H. unfold ate in A. rewrite A in H. unfold epon, eon in H. cbn [fst snd] in H.
  repeat rewrite ?fzm, ?fza, ?fzs in H. apply fzd in H.
  replace (y * y - x * x - 1 - cd * (x * x) * (y * y)) with (y * y - x * x - (1 + cd * (x * x) * (y * y))) by ring. exact H.
Qed.
Lemma emake_ok : forall x y, (p | y * y - x * x - 1 - cd * (x * x) * (y * y)) -> eonb (fz x, fz y) = true.
Proof.
  intros x y H. apply eonb_on. unfold epon, eon. cbn [fst snd]. repeat rewrite ?fzm, ?fza, ?fzs. apply fzd.
  replace (y * y - x * x - (1 + cd * (x * x) * (y * y))) with (y * y - x * x - 1 - cd * (x * x) * (y * y)) by ring. exact H.
Qed.
Definition emake (x y : Z) (H : (p | y * y - x * x - 1 - cd * (x * x) * (y * y))) : pt ed_group := exist _ (fz x, fz y) (emake_ok x y H).
Lemma emake_at : forall x y H, ate (emake x y H) x y. Proof. reflexivity. Qed.
Lemma ate_make : forall x y, (p | y * y - x * x - 1 - cd * (x * x) * (y * y)) -> exists P, ate P x y.
Proof. intros x y H. exists (emake x y H). apply emake_at. Qed.
Lemma ate_neg : forall P x y, ate P x y -> ate (gneg P) (- x) y.
Proof. intros P x y A. unfold ate in *. cbn [gneg ed_group proj1_sig]. rewrite A. cbn [eneg]. rewrite fzo. reflexivity. Qed.
Lemma ate_dens : forall P Q x1 y1 x2 y2, ate P x1 y1 -> ate Q x2 y2 ->
  ~ (p | 1 + cd * (x1 * x2 * y1 * y2)) /\ ~ (p | 1 - cd * (x1 * x2 * y1 * y2)).
Proof.
  intros P Q x1 y1 x2 y2 A B. pose proof (epoint_on P) as HP. pose proof (epoint_on Q) as HQ. unfold ate in A, B. rewrite A in HP. rewrite B in HQ.
  unfold epon in HP, HQ. cbn [fst snd] in HP, HQ.
  pose proof (den_p F (fz 0) (fz 1) fadd fmul fsub fopp fdiv finv FT (feq_dec p) (fz cd) (fz ci) e_two e_i e_d _ _ _ _ HP HQ) as D1.
  pose proof (den_m F (fz 0) (fz 1) fadd fmul fsub fopp fdiv finv FT (feq_dec p) (fz cd) (fz ci) e_two e_i e_d _ _ _ _ HP HQ) as D2.
  repeat rewrite ?fzm, ?fza, ?fzs in D1. repeat rewrite ?fzm, ?fza, ?fzs in D2. split; intros C; [apply D1|apply D2]; apply fzd; rewrite Z.sub_0_r; exact C.
Qed.
Lemma ate_add : forall P Q x1 y1 x2 y2 x3 y3, ate P x1 y1 -> ate Q x2 y2 ->
  (p | x3 * (1 + cd * (x1 * x2 * y1 * y2)) - (x1 * y2 + x2 * y1)) -> (p | y3 * (1 - cd * (x1 * x2 * y1 * y2)) - (y1 * y2 + x1 * x2)) ->
  ate (gadd P Q) x3 y3.
Proof.
  intros P Q x1 y1 x2 y2 x3 y3 A B X Y. destruct (ate_dens P Q x1 y1 x2 y2 A B) as [D1 D2].
  unfold ate in *. cbn [gadd ed_group proj1_sig]. rewrite A, B. cbn [eadd]. repeat rewrite ?fzm, ?fza, ?fzs.
  assert (Dv : forall n m u, ~ (p | m) -> (p | u * m - n) -> fdiv (fz n) (fz m) = fz u).
  { intros n m u M E. assert (Fm : fz m <> fz 0) by (intros C; apply M; apply fzd in C; rewrite Z.sub_0_r in C; exact C).
    apply fzd in E. rewrite <- E, <- fzm. field. exact Fm. }
  f_equal; apply Dv; assumption.
Qed.
Lemma ate_double : forall P x y x3 y3, ate P x y ->
  (p | x3 * (y * y - x * x) - 2 * (x * y)) -> (p | y3 * (2 - (y * y - x * x)) - (y * y + x * x)) -> ate (gadd P P) x3 y3.
Proof.
  intros P x y x3 y3 A X Y. destruct (ate_on P x y A) as [k K]. apply (ate_add P P x y x y x3 y3 A A).
  - replace (x3 * (1 + cd * (x * x * y * y)) - (x * y + x * y)) with (x3 * (y * y - x * x) - 2 * (x * y) - x3 * (y * y - x * x - 1 - cd * (x * x) * (y * y))) by ring.
    apply Z.divide_sub_r; [exact X|]. rewrite K. exists (x3 * k). ring.
  - replace (y3 * (1 - cd * (x * x * y * y)) - (y * y + x * x)) with (y3 * (2 - (y * y - x * x)) - (y * y + x * x) + y3 * (y * y - x * x - 1 - cd * (x * x) * (y * y))) by ring.
    apply Z.divide_add_r; [exact Y|]. rewrite K. exists (y3 * k). ring.
Qed.
Lemma no_den : forall y, ~ (p | cd * (y * y) + 1).
Proof.
  intros y D. assert (N : ~ (p | y)).
  { intros C. assert (O1 : (p | 1)).
    { replace 1 with (cd * (y * y) + 1 - cd * y * y) by ring. apply Z.divide_sub_r; [exact D|]. apply Z.divide_mul_r. exact C. }
    apply Z.divide_pos_le in O1; lia. }
  set (w := y ^ (p - 2)). assert (W : (p | y * w - 1)).
  { apply (mod_eq_divide p p_odd 0 0). rewrite Z.mod_1_l by lia. rewrite <- (fermat_unit p y p_prime N). f_equal. unfold w.
    replace (p - 1) with (Z.succ (p - 2)) by lia. rewrite Z.pow_succ_r by lia. reflexivity. }
  apply (cd_nonsquare (ci * w)).
  replace (cd - ci * w * (ci * w)) with (w * w * (cd * (y * y) + 1) - (ci * ci + 1) * (w * w) - cd * (y * w + 1) * (y * w - 1)) by ring.
  apply Z.divide_sub_r; [apply Z.divide_sub_r|].
  - apply Z.divide_mul_r. exact D.
  - apply Z.divide_mul_l. exact ci_sqr.
  - apply Z.divide_mul_r. exact W.
Qed.
(** equal second coordinates: equal or opposite points *)
Lemma ate_same_y : forall P Q x1 y1 x2 y2, ate P x1 y1 -> ate Q x2 y2 -> (p | y1 - y2) -> (p | x1 - x2) \/ (p | x1 + x2).
Proof.
  intros P Q x1 y1 x2 y2 A B Y. assert (B' : ate Q x2 y1) by (apply (ate_cong Q x2 y2); [exact B|exists 0; ring|exact Y]).
  pose proof (ate_on _ _ _ A) as HA. pose proof (ate_on _ _ _ B') as HB.
  assert (D : (p | (x2 * x2 - x1 * x1) * (cd * (y1 * y1) + 1))).
  { replace ((x2 * x2 - x1 * x1) * (cd * (y1 * y1) + 1)) with ((y1 * y1 - x1 * x1 - 1 - cd * (x1 * x1) * (y1 * y1)) - (y1 * y1 - x2 * x2 - 1 - cd * (x2 * x2) * (y1 * y1))) by ring.
    apply Z.divide_sub_r; assumption. }
  apply (prime_mult p p_prime) in D. destruct D as [D|D].
  - replace (x2 * x2 - x1 * x1) with (- ((x1 - x2) * (x1 + x2))) in D by ring. apply (proj1 (Z.divide_opp_r _ _)) in D. apply (prime_mult p p_prime) in D. exact D.
  - exfalso. exact (no_den y1 D).
Qed.

(** ** Checking multiples of a base point; sums and quotients given *)
Variable mulp : Z -> Z.
Hypothesis mulp_ok : forall q, mulp q = q * p.
Variable red : Z -> Z.
Hypothesis red_okp : red_ok p red.
Variables gx gy dgx : Z.
Hypothesis dgx_ok : (p | dgx - cd * gx).
(** double, or add s times the base point: the result and the two quotients *)
Inductive estep := EDbl (x y q1 q2 : Z) | EAdd (s x y q1 q2 : Z).
Definition erun1 (st : Z * Z * Z) (c : estep) : option (Z * Z * Z) :=
  let '(k, x, y) := st in
  match c with
  | EDbl x' y' q1 q2 =>
      let s := zmul x x in let t := zmul y y in let m := red (t - s) in
      if (zmul x' m =? 2 * zmul x y + mulp q1) && (zmul y' (2 - m) =? t + s + mulp q2) then Some (2 * k, x', y') else None
  | EAdd s x' y' q1 q2 =>
      let v := zmul y gy in let w := red (zmul (red (zmul x dgx)) (red v)) in
      if (s =? 1) && (zmul x' (1 + w) =? zmul x gy + zmul y gx + mulp q1) && (zmul y' (1 - w) =? v + zmul x gx + mulp q2) then Some (k + 1, x', y')
      else if (s =? -1) && (zmul x' (1 - w) =? zmul x gy - zmul y gx + mulp q1) && (zmul y' (1 + w) =? v - zmul x gx + mulp q2) then Some (k - 1, x', y')
      else None
  end.
Fixpoint erun (st : Z * Z * Z) (cs : list estep) : option (Z * Z * Z) :=
  match cs with [] => Some st | c :: cs' => match erun1 st c with None => None | Some st' => erun st' cs' end end.
Lemma red_div z : (p | red z - z).
Proof. apply (mod_eq_divide p p_odd 0 0). apply red_okp. Qed.
Lemma esome3 : forall a b c a' b' c' : Z, Some (a, b, c) = Some (a', b', c') -> a = a' /\ b = b' /\ c = c'.
Proof. intros. repeat split; congruence. Qed.
Lemma erun1_ok : forall G k x y c k' x' y', ate G gx gy -> ate (gmul k G) x y -> erun1 (k, x, y) c = Some (k', x', y') -> ate (gmul k' G) x' y'.
Proof.
  intros G k x y c k' x' y' AG A R. destruct c as [u v q1 q2|s u v q1 q2]; cbn [erun1] in R; cbv zeta in R; rewrite !zmul_spec, !mulp_ok in R.
  - match type of R with (if ?b then _ else _) = _ => destruct b eqn:B; [|discriminate] end.
    rewrite andb_true_iff, !Z.eqb_eq in B. destruct B as [B1 B2]. apply esome3 in R as (<- & <- & <-).
    destruct (red_div (y * y - x * x)) as [r R]. set (m := red (y * y - x * x)) in *. clearbody m.
    rewrite gmul_mul. rewrite (gmul_add _ 1 1), gmul_1. apply (ate_double _ x y _ _ A).
    + exists (q1 - u * r). replace (y * y - x * x) with (m - r * p) by (rewrite <- R; ring).
      replace (u * (m - r * p) - 2 * (x * y)) with (u * m - 2 * (x * y) - u * r * p) by ring. rewrite B1. ring.
    + exists (q2 + v * r). replace (2 - (y * y - x * x)) with (2 - m + r * p) by (rewrite <- R; ring).
      replace (v * (2 - m + r * p) - (y * y + x * x)) with (v * (2 - m) - (y * y + x * x) + v * r * p) by ring. rewrite B2. ring.
  - rewrite ?zmul_spec in R. set (w := red (red (x * dgx) * red (y * gy))) in *.
    assert (W : (p | w - cd * (x * gx * y * gy))).
    { destruct (red_div (x * dgx)) as [a HA]. destruct (red_div (y * gy)) as [b HB]. destruct (red_div (red (x * dgx) * red (y * gy))) as [c HC]. fold w in HC.
      destruct dgx_ok as [e HE]. set (ra := red (x * dgx)) in *. set (rb := red (y * gy)) in *. clearbody ra rb w.
      replace (w - cd * (x * gx * y * gy)) with ((w - ra * rb) + (ra - x * dgx) * rb + x * dgx * (rb - y * gy) + x * (y * gy) * (dgx - cd * gx)) by ring.
      rewrite HA, HB, HC, HE. exists (c + a * rb + x * dgx * b + x * (y * gy) * e). ring. }
    clearbody w. destruct W as [r W].
    match type of R with (if ?b then _ else _) = _ => destruct b eqn:B end.
    + rewrite !andb_true_iff, !Z.eqb_eq in B. destruct B as [[_ B1] B2]. apply esome3 in R as (<- & <- & <-).
      rewrite gmul_add, gmul_1. apply (ate_add _ _ x y gx gy _ _ A AG).
      * exists (q1 - u * r). replace (cd * (x * gx * y * gy)) with (w - r * p) by (rewrite <- W; ring).
        replace (u * (1 + (w - r * p)) - (x * gy + gx * y)) with (u * (1 + w) - (x * gy + y * gx) - u * r * p) by ring. rewrite B1. ring.
      * exists (q2 + v * r). replace (cd * (x * gx * y * gy)) with (w - r * p) by (rewrite <- W; ring).
        replace (v * (1 - (w - r * p)) - (y * gy + x * gx)) with (v * (1 - w) - (y * gy + x * gx) + v * r * p) by ring. rewrite B2. ring.
    + clear B. match type of R with (if ?b then _ else _) = _ => destruct b eqn:B; [|discriminate] end.
      rewrite !andb_true_iff, !Z.eqb_eq in B. destruct B as [[_ B1] B2]. apply esome3 in R as (<- & <- & <-).
      change (k - 1) with (k + - (1)). rewrite gmul_add, gmul_opp, gmul_1. apply (ate_add _ _ x y (- gx) gy _ _ A (ate_neg _ _ _ AG)).
      * exists (q1 + u * r). replace (cd * (x * - gx * y * gy)) with (- (w - r * p)) by (rewrite <- W; ring).
        replace (u * (1 + - (w - r * p)) - (x * gy + - gx * y)) with (u * (1 - w) - (x * gy - y * gx) + u * r * p) by ring. rewrite B1. ring.
      * exists (q2 - v * r). replace (cd * (x * - gx * y * gy)) with (- (w - r * p)) by (rewrite <- W; ring).
        replace (v * (1 - - (w - r * p)) - (y * gy + x * - gx)) with (v * (1 + w) - (y * gy - x * gx) - v * r * p) by ring. rewrite B2. ring.
Qed.
Lemma erun_ok : forall G cs k x y k' x' y', ate G gx gy -> ate (gmul k G) x y -> erun (k, x, y) cs = Some (k', x', y') -> ate (gmul k' G) x' y'.
Proof.
  intros G. induction cs as [|c cs IH]; intros k x y k' x' y' AG A R.
  - apply esome3 in R as (<- & <- & <-). exact A.
  - cbn [erun] in R. destruct (erun1 (k, x, y) c) as [[[k1 x1] y1]|] eqn:E; [|discriminate].
    apply (IH k1 x1 y1 k' x' y' AG); [|exact R]. apply (erun1_ok G k x y c k1 x1 y1 AG A E).
Qed.
Lemma erun_order : forall G cs N, ate G gx gy -> erun (1, gx, gy) cs = Some (N, 0, 1) -> gmul N G = gO.
Proof.
  intros G cs N AG R. assert (A1 : ate (gmul 1 G) gx gy) by (rewrite gmul_1; exact AG).
  apply (ate_inj _ _ 0 1); [|apply ate_O]. exact (erun_ok G cs 1 gx gy _ _ _ AG A1 R).
Qed.

End EdZ.
