(** * P256PointFacts: the point formulas are the group law of the SM2 curve *)
From Coq Require Import ZArith Znumtheory List Bool Lia.
From Verif Require Import Base Curves NumTheory Primes1 Primes3 Spec_Group CurveZ CurveSub CurveSM2 P256 Spec_P256 Spec_P256b P256Booth P256Inv P256Sched Prop_P256b P256Sched2 P256Point.
Import ListNotations.
Open Scope Z_scope.

(** right residue, at most p *)
Definition lem (w : words) (v : Z) : Prop := montr cP w v /\ lval w <= cP.
(** what the field routines must do: [S] and [M] say of a four-word result that it has the right residue
    and is at most p, respectively below p; they may leave anything open about an empty result *)
Record fops_ok (f : fops) (S M : words -> Z -> Prop) : Prop := {
  fo_in : forall a u, lem a u -> S a u;
  fo_weak : forall a u, M a u -> S a u;
  fo_inM : forall a u, mont cP a u -> M a u;
  fo_len : forall a u, S a u -> length a = 0%nat \/ length a = 4%nat;
  fo_outS : forall a u, S a u -> length a = 4%nat -> lem a u;
  fo_outM : forall a u, M a u -> length a = 4%nat -> mont cP a u;
  fo_mul : forall a b u v, S a u -> S b v -> M (f_mul f a b) (u * v);
  fo_sqr : forall a u, S a u -> M (f_sqr f a) (u * u);
  fo_sub : forall a b u v, S a u -> S b v -> S (f_sub f a b) (u - v);
  fo_add : forall a b u v, S a u -> S b v -> S (f_add f a b) (u + v);
  fo_dbl : forall a u, S a u -> S (f_dbl f a) (2 * u);
  fo_dblM : forall a u, M a u -> M (f_dbl f a) (2 * u);
  fo_half : forall a u, S a u -> S (f_half f a) (u * half2)
}.
Lemma mont_lem : forall w v, mont cP w v -> lem w v.
Proof. intros w v [M L]. split; [exact M|lia]. Qed.
Lemma red_words : forall z, is_words 4 (red z).
Proof. intros. apply words_of_ok. Qed.
Lemma red_val : forall z, lval (red z) = z mod cP.
Proof.
  intros z. apply lval_words_of. change (2 ^ (64 * Z.of_nat 4)) with (2 ^ 256).
  pose proof (Z.mod_pos_bound z cP ltac:(reflexivity)). assert (cP < 2 ^ 256) by reflexivity. lia.
Qed.
Lemma red_mont : forall z v, z mod cP = (v * 2 ^ 256) mod cP -> mont cP (red z) v.
Proof.
  intros z v H. split; [split|].
  - apply red_words.
  - rewrite red_val, Z.mod_mod by discriminate. exact H.
  - rewrite red_val. apply Z.mod_pos_bound. reflexivity.
Qed.
Lemma mod2 : forall a a' b b' n, n <> 0 -> a mod n = a' mod n -> b mod n = b' mod n ->
  (a + b) mod n = (a' + b') mod n /\ (a - b) mod n = (a' - b') mod n /\ (a * b) mod n = (a' * b') mod n.
Proof.
  intros a a' b b' n N A B. split; [|split].
  - rewrite Z.add_mod, A, B, <- Z.add_mod by exact N. reflexivity.
  - rewrite Zminus_mod, A, B, <- Zminus_mod. reflexivity.
  - rewrite Z.mul_mod, A, B, <- Z.mul_mod by exact N. reflexivity.
Qed.
Lemma Rinv_ok : (2 ^ 256 * RinvP') mod cP = 1.
Proof. reflexivity. Qed.
Lemma mul_R : forall u v, (u * 2 ^ 256 * (v * 2 ^ 256) * RinvP') mod cP = (u * v * 2 ^ 256) mod cP.
Proof.
  intros u v. replace (u * 2 ^ 256 * (v * 2 ^ 256) * RinvP') with (u * v * 2 ^ 256 * (2 ^ 256 * RinvP')) by ring.
  rewrite <- Z.mul_mod_idemp_r by discriminate. rewrite Rinv_ok, Z.mul_1_r. reflexivity.
Qed.
Lemma nzP : cP <> 0. Proof. discriminate. Qed.
Theorem exact_ok : fops_ok exact lem (mont cP).
Proof.
  constructor; cbn [f_mul f_sqr f_sub f_add f_dbl f_half exact].
  - auto.
  - exact mont_lem.
  - auto.
  - intros a u H. right. apply H.
  - auto.
  - auto.
  - intros a b u v [[_ A] _] [[_ B] _]. apply red_mont. rewrite <- mul_R.
    apply (mod2 _ _ RinvP' RinvP' cP nzP); [|reflexivity]. apply (mod2 _ _ _ _ cP nzP A B).
  - intros a u [[_ A] _]. apply red_mont. rewrite <- mul_R.
    apply (mod2 _ _ RinvP' RinvP' cP nzP); [|reflexivity]. apply (mod2 _ _ _ _ cP nzP A A).
  - intros a b u v [[_ A] _] [[_ B] _]. apply mont_lem, red_mont. rewrite Z.mul_sub_distr_r. apply (mod2 _ _ _ _ cP nzP A B).
  - intros a b u v [[_ A] _] [[_ B] _]. apply mont_lem, red_mont. rewrite Z.mul_add_distr_r. apply (mod2 _ _ _ _ cP nzP A B).
  - intros a u [[_ A] _]. apply mont_lem, red_mont. rewrite <- Z.mul_assoc. apply (mod2 2 2 _ _ cP nzP eq_refl A).
  - intros a u [[_ A] _]. apply red_mont. rewrite <- Z.mul_assoc. apply (mod2 2 2 _ _ cP nzP eq_refl A).
  - intros a u [[_ A] _]. apply mont_lem, red_mont. replace (u * half2 * 2 ^ 256) with (u * 2 ^ 256 * half2) by ring.
    apply (mod2 _ _ half2 half2 cP nzP A eq_refl).
Qed.

(** ** Points *)
Notation R12 := (rep12 sm2_E).
Lemma cong_div : forall u v, (cP | u - v) -> u mod cP = v mod cP.
Proof. intros u v [k H]. replace u with (v + k * cP) by lia. apply Z.mod_add, nzP. Qed.
Lemma mont_cong : forall a u v, mont cP a u -> (cP | u - v) -> mont cP a v.
Proof.
  intros a u v [M L] D. split; [|exact L]. destruct M as [W M]. split; [exact W|]. rewrite M.
  apply cong_div. rewrite <- Z.mul_sub_distr_r. apply Z.divide_mul_l. exact D.
Qed.
Lemma lem_cong : forall a u v, lem a u -> (cP | u - v) -> lem a v.
Proof.
  intros a u v [M L] D. split; [|exact L]. destruct M as [W M]. split; [exact W|]. rewrite M.
  apply cong_div. rewrite <- Z.mul_sub_distr_r. apply Z.divide_mul_l. exact D.
Qed.
Lemma mont_zero : forall a u, mont cP a u -> (cP | u) -> lval a = 0.
Proof.
  intros a u [[W M] L] [k D]. pose proof (lval_256 a W). rewrite <- (Z.mod_small (lval a) cP) by lia. rewrite M, D.
  replace (k * cP * 2 ^ 256) with (k * 2 ^ 256 * cP) by ring. apply Z.mod_mul, nzP.
Qed.
Lemma zero_montr : forall a, is_words 4 a -> lval a = 0 -> montr cP a 0.
Proof. intros a W Z0. split; [exact W|]. rewrite Z0. reflexivity. Qed.
Lemma pdiv_mul : forall a b, (cP | a * b) -> (cP | a) \/ (cP | b).
Proof. intros. apply prime_mult; [exact prime_c_P_SM2P256V1|assumption]. Qed.
Lemma pdiv_mul_n : forall a b, ~ (cP | a) -> ~ (cP | b) -> ~ (cP | a * b).
Proof. intros a b A B C. apply pdiv_mul in C. tauto. Qed.
Lemma inverse_exists : forall a, ~ (cP | a) -> exists i, (cP | i * a - 1).
Proof.
  intros a D. exists (a ^ (cP - 2)). apply Z.mod_divide; [exact nzP|].
  rewrite Zminus_mod, (inv_unit a D). reflexivity.
Qed.

(** what a group element at infinity or at (x, y) looks like in Jacobian coordinates *)
Lemma rep_O : forall x y z, is_words 4 x -> is_words 4 y -> lval x <= cP -> lval y <= cP -> is_words 4 z -> lval z = 0 ->
  R12 (x ++ y ++ z) gO.
Proof. intros x y z Wx Wy Lx Ly Wz Z0. exists x, y, z. split; [reflexivity|]. unfold rep. auto 10. Qed.
Lemma rep_at : forall X Y Z v x y (P : pt (eg sm2_E)), eat P x y -> ~ (cP | v) ->
  lem X (x * v ^ 2) -> lem Y (y * v ^ 3) -> mont cP Z v -> R12 (X ++ Y ++ Z) P.
Proof.
  intros X Y Z v x y P A V MX MY MZ. exists X, Y, Z. split; [reflexivity|]. unfold rep.
  split; [apply MX|]. split; [apply MY|]. split; [apply MZ|]. split; [apply MX|]. split; [apply MY|]. right.
  split; [apply (eat_not_O P x y A)|]. exists v. split; [exact V|]. split; [exact MZ|]. rewrite (eat_of P x y A). cbn [fst snd].
  assert (D : forall u, (cP | u - u mod cP)).
  { intros u. exists (u / cP). pose proof (Z.div_mod u cP nzP). lia. }
  split; [apply (lem_cong X (x * v ^ 2)); [exact MX|]|apply (lem_cong Y (y * v ^ 3)); [exact MY|]];
    rewrite <- Z.mul_sub_distr_r; apply Z.divide_mul_l, D.
Qed.
(** the same read backwards *)
Lemma rep_inv : forall p (P : pt (eg sm2_E)), R12 p P -> exists X Y Z, p = X ++ Y ++ Z /\ is_words 4 X /\ is_words 4 Y /\ is_words 4 Z /\ lval X <= cP /\ lval Y <= cP /\ lval Z < cP /\
  ((P = gO /\ lval Z = 0) \/
   exists x y v, eat P x y /\ ~ (cP | v) /\ ~ (cP | y) /\ lem X (x * v ^ 2) /\ lem Y (y * v ^ 3) /\ mont cP Z v).
Proof.
  intros p P (X & Y & Z & -> & WX & WY & WZ & LX & LY & H). exists X, Y, Z. do 6 (split; [assumption || reflexivity|]).
  split. { destruct H as [[_ ->]|(_ & v & _ & MZ & _)]; [reflexivity|apply MZ]. }
  destruct H as [H|(N & v & V & MZ & MX & MY)]; [left; exact H|right].
  exists (fst (ecoords P)), (snd (ecoords P)), v. split; [apply eat_coords, N|]. split; [exact V|].
  destruct (sm2_coords_ok P N) as (_ & RY & _).
  split; [intros D; apply Z.divide_pos_le in D; lia|]. split; [split; assumption|]. split; [split; assumption|]. exact MZ.
Qed.
Section Formulas.
Variable f : fops.
Variables S M : words -> Z -> Prop.
Hypothesis F : fops_ok f S M.
Lemma any_lem : forall a, is_words 4 a -> lval a <= cP -> lem a (lval a * RinvP).
Proof. intros a W L. split; [exact (words_montr a W)|exact L]. Qed.
Lemma any_mont : forall a, is_words 4 a -> lval a < cP -> mont cP a (lval a * RinvP).
Proof. intros a W L. split; [exact (words_montr a W)|exact L]. Qed.
Lemma zero_mont : forall a, is_words 4 a -> lval a = 0 -> mont cP a 0.
Proof. intros a W L. split; [exact (zero_montr a W L)|rewrite L; reflexivity]. Qed.
Lemma out12 : forall xo yo zo a b c, S xo a -> S yo b -> M zo c -> length (xo ++ yo ++ zo) = 12%nat ->
  lem xo a /\ lem yo b /\ mont cP zo c.
Proof.
  intros xo yo zo a b c Hx Hy Hz L. rewrite !app_length in L. pose proof (fo_len f S M F _ _ Hx). pose proof (fo_len f S M F _ _ Hy).
  pose proof (fo_len f S M F _ _ (fo_weak f S M F _ _ Hz)).
  split; [|split]; [apply (fo_outS f S M F)|apply (fo_outS f S M F)|apply (fo_outM f S M F)]; try assumption; lia.
Qed.
Ltac fo := repeat first
  [ eassumption
  | match goal with
    | |- M (f_mul _ _ _) _ => eapply (fo_mul f S M F) | |- M (f_sqr _ _) _ => eapply (fo_sqr f S M F)
    | |- M (f_dbl _ _) _ => eapply (fo_dblM f S M F)
    | |- S (f_mul _ _ _) _ => eapply (fo_weak f S M F), (fo_mul f S M F) | |- S (f_sqr _ _) _ => eapply (fo_weak f S M F), (fo_sqr f S M F)
    | |- S (f_sub _ _ _) _ => eapply (fo_sub f S M F) | |- S (f_add _ _ _) _ => eapply (fo_add f S M F)
    | |- S (f_dbl _ _) _ => eapply (fo_dbl f S M F) | |- S (f_half _ _) _ => eapply (fo_half f S M F)
    | |- S _ _ => apply (fo_in f S M F); (eassumption || (apply mont_lem; eassumption)) end ].
Lemma half2_ok : 2 * half2 - 1 = cP. Proof. reflexivity. Qed.

(** the formulas on values *)
Definition dbl_m (a c : Z) : Z := let u := (a - c * c) * (c * c + a) in u + 2 * u.
Definition dbl_x (a b c : Z) : Z := dbl_m a c * dbl_m a c - 2 * (a * ((2 * b) * (2 * b))).
Definition dbl_y (a b c : Z) : Z := (a * ((2 * b) * (2 * b)) - dbl_x a b c) * dbl_m a c -
  ((2 * b) * (2 * b)) * ((2 * b) * (2 * b)) * half2.
Lemma dbl_vals : forall X Y Z a b c, lem X a -> lem Y b -> mont cP Z c -> length (dbl_f f X Y Z) = 12%nat ->
  exists xo yo zo, dbl_f f X Y Z = xo ++ yo ++ zo /\ lem xo (dbl_x a b c) /\ lem yo (dbl_y a b c) /\ mont cP zo (2 * (c * b)).
Proof.
  intros X Y Z a b c MX MY MZ. unfold dbl_f. cbv zeta. intros L. eexists _, _, _. split; [reflexivity|].
  apply out12; [| | |exact L]; unfold dbl_y, dbl_x, dbl_m; cbv zeta; fo.
Qed.
Theorem dbl_ok : forall p (P : pt (eg sm2_E)), R12 p P ->
  length (dbl_f f (sub p 0 4) (sub p 4 4) (sub p 8 4)) = 12%nat ->
  R12 (dbl_f f (sub p 0 4) (sub p 4 4) (sub p 8 4)) (gadd P P).
Proof.
  intros p P H. destruct (rep_inv p P H) as (X & Y & Z & -> & WX & WY & WZ & LX & LY & LZ & C).
  rewrite sub12_0, sub12_4, sub12_8 by (apply WX || apply WY || apply WZ). intros LEN.
  destruct C as [[-> Z0]|(x & y & v & A & V & NY & MX & MY & MZ)].
  - rewrite gadd_O. destruct (dbl_vals X Y Z _ _ _ (any_lem X WX LX) (any_lem Y WY LY) (zero_mont Z WZ Z0) LEN) as (xo & yo & zo & -> & Mx & My & Mz).
    apply rep_O; [apply Mx|apply My|apply Mx|apply My|apply Mz|]. apply (mont_zero zo _ Mz). rewrite Z.mul_0_l. apply Z.divide_0_r.
  - destruct (dbl_vals X Y Z _ _ _ MX MY MZ LEN) as (xo & yo & zo & -> & Mx & My & Mz).
    assert (N2 : ~ (cP | 2 * y)).
    { apply pdiv_mul_n; [|exact NY]. intros D. apply Z.divide_pos_le in D; [|lia]. apply D. reflexivity. }
    destruct (inverse_exists (2 * y) N2) as (i & I). set (l := i * (3 * x * x - 3)).
    set (e := l * (2 * y) - (3 * x * x - 3)).
    assert (De : (cP | e)).
    { replace e with ((i * (2 * y) - 1) * (3 * x * x - 3)) by (unfold e, l; ring). apply Z.divide_mul_l. exact I. }
    set (x3 := l * l - x - x).
    assert (A3 : eat (gadd P P) x3 (l * (x - x3) - y)).
    { apply (at_tangent cP prime_c_P_SM2P256V1 sm2_odd (-3) qB sm2_disc _ x y l A NY). 
      replace (3 * x * x + -3) with (3 * x * x - 3) by ring. exact De. }
    apply (rep_at xo yo zo (2 * (v * (y * v ^ 3))) x3 (l * (x - x3) - y) _ A3).
    + replace (2 * (v * (y * v ^ 3))) with (2 * y * (v * (v * (v * v)))) by ring. apply pdiv_mul_n; [exact N2|]. repeat apply pdiv_mul_n; exact V.
    + apply (lem_cong _ _ _ Mx). 
      replace (dbl_x (x * v ^ 2) (y * v ^ 3) v - x3 * (2 * (v * (y * v ^ 3))) ^ 2) with (e * (- (4 * y * l - e) * v ^ 8)).
      * apply Z.divide_mul_l. exact De.
      * unfold dbl_x, dbl_m, x3, e. ring.
    + apply (lem_cong _ _ _ My).
      replace (dbl_y (x * v ^ 2) (y * v ^ 3) v - (l * (x - x3) - y) * (2 * (v * (y * v ^ 3))) ^ 3) with
        (e * (- (x - x3) * (2 * y * v ^ 4) ^ 2 * v ^ 4 + (4 * y * l - e) * v ^ 8 * (l * (2 * y * v ^ 4) - e * v ^ 4)) + cP * (- (8 * y ^ 4 * v ^ 12))).
      * apply Z.divide_add_r; apply Z.divide_mul_l; [exact De|apply Z.divide_refl].
      * rewrite <- half2_ok. unfold dbl_y, dbl_x, dbl_m, x3, e. generalize half2. intros h. ring.
    + exact Mz.
Qed.

Definition ad_h (x1 c1 x2 c2 : Z) : Z := c1 * c1 * x2 - c2 * c2 * x1.
Definition ad_r (y1 c1 y2 c2 : Z) : Z := c1 * c1 * c1 * y2 - c2 * c2 * c2 * y1.
Definition ad_x (h r u : Z) : Z := r * r - 2 * (h * h * u) - h * h * h.
Definition ad_y (h r u s : Z) : Z := (h * h * u - ad_x h r u) * r - h * h * h * s.
Lemma add_vals : forall X1 Y1 Z1 X2 Y2 Z2 x1 y1 c1 x2 y2 c2, lem X1 x1 -> lem Y1 y1 -> mont cP Z1 c1 ->
  lem X2 x2 -> lem Y2 y2 -> mont cP Z2 c2 -> length (add_f f X1 Y1 Z1 X2 Y2 Z2) = 12%nat ->
  exists xo yo zo, add_f f X1 Y1 Z1 X2 Y2 Z2 = xo ++ yo ++ zo /\
    lem xo (ad_x (ad_h x1 c1 x2 c2) (ad_r y1 c1 y2 c2) (c2 * c2 * x1)) /\
    lem yo (ad_y (ad_h x1 c1 x2 c2) (ad_r y1 c1 y2 c2) (c2 * c2 * x1) (c2 * c2 * c2 * y1)) /\
    mont cP zo (c1 * c2 * ad_h x1 c1 x2 c2).
Proof.
  intros X1 Y1 Z1 X2 Y2 Z2 x1 y1 c1 x2 y2 c2 M1 M2 M3 M4 M5 M6. unfold add_f. cbv zeta. intros L. eexists _, _, _. split; [reflexivity|].
  apply out12; [| | |exact L]; unfold ad_y, ad_x, ad_h, ad_r; fo.
Qed.
Lemma addaff_vals : forall X1 Y1 Z1 X2 Y2 x1 y1 c1 x2 y2, lem X1 x1 -> lem Y1 y1 -> mont cP Z1 c1 ->
  lem X2 x2 -> lem Y2 y2 -> length (addaff_f f X1 Y1 Z1 X2 Y2) = 12%nat ->
  exists xo yo zo, addaff_f f X1 Y1 Z1 X2 Y2 = xo ++ yo ++ zo /\
    lem xo ((c1 * c1 * c1 * y2 - y1) * (c1 * c1 * c1 * y2 - y1) - 2 * (x1 * ((c1 * c1 * x2 - x1) * (c1 * c1 * x2 - x1))) -
      (c1 * c1 * x2 - x1) * (c1 * c1 * x2 - x1) * (c1 * c1 * x2 - x1)) /\
    lem yo ((x1 * ((c1 * c1 * x2 - x1) * (c1 * c1 * x2 - x1)) - ((c1 * c1 * c1 * y2 - y1) * (c1 * c1 * c1 * y2 - y1) - 2 * (x1 * ((c1 * c1 * x2 - x1) * (c1 * c1 * x2 - x1))) -
      (c1 * c1 * x2 - x1) * (c1 * c1 * x2 - x1) * (c1 * c1 * x2 - x1))) * (c1 * c1 * c1 * y2 - y1) - 
      (c1 * c1 * x2 - x1) * (c1 * c1 * x2 - x1) * (c1 * c1 * x2 - x1) * y1) /\
    mont cP zo ((c1 * c1 * x2 - x1) * c1).
Proof.
  intros X1 Y1 Z1 X2 Y2 x1 y1 c1 x2 y2 M1 M2 M3 M4 M5. unfold addaff_f. cbv zeta. intros L. eexists _, _, _. split; [reflexivity|].
  apply out12; [| | |exact L]; fo.
Qed.
(** the chord in Jacobian coordinates: w = v1 v2, v3 = (x2 - x1) w^3 *)
Lemma chord_at : forall (P Q : pt (eg sm2_E)) x1 y1 x2 y2, eat P x1 y1 -> eat Q x2 y2 -> P <> Q -> P <> gneg Q ->
  ~ (cP | x2 - x1) /\ exists l, (cP | (y2 - y1) - l * (x2 - x1)) /\ eat (gadd P Q) (l * l - x1 - x2) (l * (x1 - (l * l - x1 - x2)) - y1).
Proof.
  intros P Q x1 y1 x2 y2 A B N1 N2.
  assert (NX : ~ (cP | x2 - x1)).
  { intros D. assert (D' : (cP | x1 - x2)) by (replace (x1 - x2) with (- (x2 - x1)) by ring; apply Z.divide_opp_r; exact D).
    destruct (at_same_x cP prime_c_P_SM2P256V1 sm2_odd (-3) qB sm2_disc _ _ _ _ _ _ A B D') as [C|C].
    - apply N1. apply tpoint_eq. exact C.
    - apply N2. apply tpoint_eq. exact C. }
  split; [exact NX|]. destruct (inverse_exists (x2 - x1) NX) as (i & I). exists (i * (y2 - y1)).
  assert (D : (cP | (y2 - y1) - i * (y2 - y1) * (x2 - x1))).
  { replace ((y2 - y1) - i * (y2 - y1) * (x2 - x1)) with ((i * (x2 - x1) - 1) * (- (y2 - y1))) by ring. apply Z.divide_mul_l. exact I. }
  split; [exact D|]. apply (at_chord cP prime_c_P_SM2P256V1 sm2_odd (-3) qB sm2_disc _ _ x1 y1 x2 y2 _ A B NX D).
Qed.
Lemma chord_rep : forall (P Q : pt (eg sm2_E)) x1 y1 x2 y2 w xo yo zo, eat P x1 y1 -> eat Q x2 y2 -> P <> Q -> P <> gneg Q -> ~ (cP | w) ->
  let h := (x2 - x1) * w ^ 2 in let r := (y2 - y1) * w ^ 3 in
  lem xo (ad_x h r (x1 * w ^ 2)) -> lem yo (ad_y h r (x1 * w ^ 2) (y1 * w ^ 3)) -> mont cP zo (h * w) ->
  R12 (xo ++ yo ++ zo) (gadd P Q).
Proof.
  intros P Q x1 y1 x2 y2 w xo yo zo A B N1 N2 W h r Mx My Mz.
  destruct (chord_at P Q x1 y1 x2 y2 A B N1 N2) as (NX & l & De & A3).
  set (e := (y2 - y1) - l * (x2 - x1)) in *. set (x3 := l * l - x1 - x2) in *. set (v3 := h * w).
  set (qx := w ^ 3 * (2 * l * v3 + e * w ^ 3)).
  apply (rep_at xo yo zo v3 x3 (l * (x1 - x3) - y1) _ A3).
  - unfold v3, h. replace ((x2 - x1) * w ^ 2 * w) with ((x2 - x1) * (w * (w * w))) by ring. repeat apply pdiv_mul_n; assumption.
  - apply (lem_cong _ _ _ Mx). replace (ad_x h r (x1 * w ^ 2) - x3 * v3 ^ 2) with (e * qx).
    + apply Z.divide_mul_l. exact De.
    + unfold ad_x, qx, v3, r, h, x3, e. ring.
  - apply (lem_cong _ _ _ My).
    replace (ad_y h r (x1 * w ^ 2) (y1 * w ^ 3) - (l * (x1 - x3) - y1) * v3 ^ 3) with
      (e * ((x1 - x3) * v3 ^ 2 * w ^ 3 - qx * (l * v3 + e * w ^ 3))).
    + apply Z.divide_mul_l. exact De.
    + unfold ad_y, ad_x, qx, v3, r, h, x3, e. ring.
  - exact Mz.
Qed.
Ltac wl := match goal with H : is_words 4 ?x |- Datatypes.length ?x = _ => exact (proj1 H) end.
Lemma same_div : forall (P : pt (eg sm2_E)) x1 y1 x2 y2, eat P x1 y1 -> eat P x2 y2 -> (cP | x2 - x1).
Proof. intros P x1 y1 x2 y2 A B. apply (at_same cP prime_c_P_SM2P256V1 sm2_odd (-3) qB sm2_disc (proj1_sig P) x2 y2 x1 y1 B A). Qed.
Lemma opp_div : forall (P Q : pt (eg sm2_E)) x1 y1 x2 y2, eat P x1 y1 -> eat Q x2 y2 -> P = gneg Q -> (cP | x2 - x1).
Proof.
  intros P Q x1 y1 x2 y2 A B ->. apply (same_div (gneg Q) x1 y1 x2 (- y2) A).
  apply (at_neg cP prime_c_P_SM2P256V1 sm2_odd (-3) qB sm2_disc (proj1_sig Q) x2 y2 B).
Qed.
Lemma sm2_dec : forall P Q : pt (eg sm2_E), {P = Q} + {P <> Q}.
Proof.
  intros P Q. destruct (ecoords P) as [x y] eqn:EP. destruct (ecoords Q) as [x' y'] eqn:EQ.
  destruct (Z.eq_dec x x') as [->|N]; [destruct (Z.eq_dec y y') as [->|N]|].
  - left. apply ecoords_inj. congruence.
  - right. intros ->. congruence.
  - right. intros ->. congruence.
Qed.
Definition add12 (p q : words) : words := add_f f (sub p 0 4) (sub p 4 4) (sub p 8 4) (sub q 0 4) (sub q 4 4) (sub q 8 4).
Lemma jac_add : forall x1 x2 v1 v2 w, w = v1 * v2 -> ad_h (x1 * v1 ^ 2) v1 (x2 * v2 ^ 2) v2 = (x2 - x1) * w ^ 2.
Proof. intros. subst w. unfold ad_h. ring. Qed.
Lemma jac_addr : forall y1 y2 v1 v2 w, w = v1 * v2 -> ad_r (y1 * v1 ^ 3) v1 (y2 * v2 ^ 3) v2 = (y2 - y1) * w ^ 3.
Proof. intros. subst w. unfold ad_r. ring. Qed.
Theorem add_degenerate : forall p q (P Q : pt (eg sm2_E)), R12 p P -> R12 q Q -> P = gO \/ Q = gO \/ P = Q \/ P = gneg Q ->
  length (add12 p q) = 12%nat -> R12 (add12 p q) gO.
Proof.
  intros p q P Q HP HQ D. unfold add12.
  destruct (rep_inv p P HP) as (X1 & Y1 & Z1 & -> & WX1 & WY1 & WZ1 & LX1 & LY1 & LZ1 & C1).
  destruct (rep_inv q Q HQ) as (X2 & Y2 & Z2 & -> & WX2 & WY2 & WZ2 & LX2 & LY2 & LZ2 & C2).
  rewrite !sub12_0, !sub12_4, !sub12_8 by wl. intros LEN.
  assert (V : exists x1 y1 c1 x2 y2 c2, lem X1 x1 /\ lem Y1 y1 /\ mont cP Z1 c1 /\ lem X2 x2 /\ lem Y2 y2 /\ mont cP Z2 c2 /\
    (cP | c1 * c2 * ad_h x1 c1 x2 c2)).
  { destruct C1 as [[E1 Z10]|(x1 & y1 & v1 & A1 & V1 & _ & MX1 & MY1 & MZ1)].
    - exists (lval X1 * RinvP), (lval Y1 * RinvP), 0, (lval X2 * RinvP), (lval Y2 * RinvP), (lval Z2 * RinvP).
      repeat (split; [solve [apply any_lem; assumption | apply zero_mont; assumption | apply any_mont; assumption]|]). rewrite !Z.mul_0_l. apply Z.divide_0_r.
    - destruct C2 as [[E2 Z20]|(x2 & y2 & v2 & A2 & V2 & _ & MX2 & MY2 & MZ2)].
      + exists (lval X1 * RinvP), (lval Y1 * RinvP), (lval Z1 * RinvP), (lval X2 * RinvP), (lval Y2 * RinvP), 0.
        repeat (split; [solve [apply any_lem; assumption | apply zero_mont; assumption | apply any_mont; assumption]|]). rewrite Z.mul_0_r, !Z.mul_0_l. apply Z.divide_0_r.
      + exists (x1 * v1 ^ 2), (y1 * v1 ^ 3), v1, (x2 * v2 ^ 2), (y2 * v2 ^ 3), v2. repeat (split; [assumption|]).
        rewrite (jac_add x1 x2 v1 v2 _ eq_refl). apply Z.divide_mul_r. apply Z.divide_mul_l.
        destruct D as [D|[D|[D|D]]].
        * elim (eat_not_O _ _ _ A1 D).
        * elim (eat_not_O _ _ _ A2 D).
        * subst Q. exact (same_div P _ _ _ _ A1 A2).
        * exact (opp_div P Q _ _ _ _ A1 A2 D). }
  destruct V as (x1 & y1 & c1 & x2 & y2 & c2 & M1 & M2 & M3 & M4 & M5 & M6 & DV).
  destruct (add_vals _ _ _ _ _ _ _ _ _ _ _ _ M1 M2 M3 M4 M5 M6 LEN) as (xo & yo & zo & -> & Mx & My & Mz).
  apply rep_O; [apply Mx|apply My|apply Mx|apply My|apply Mz|]. exact (mont_zero zo _ Mz DV).
Qed.
Theorem add_ok : forall p q (P Q : pt (eg sm2_E)), R12 p P -> R12 q Q -> P <> gO -> Q <> gO -> P <> Q ->
  length (add12 p q) = 12%nat -> R12 (add12 p q) (gadd P Q).
Proof.
  intros p q P Q HP HQ NP NQ NE. destruct (sm2_dec P (gneg Q)) as [EO|NO].
  - replace (gadd P Q) with (@gO (eg sm2_E)).
    + apply (add_degenerate p q P Q HP HQ); auto.
    + rewrite EO. rewrite gadd_comm. symmetry. apply gadd_neg.
  - unfold add12. destruct (rep_inv p P HP) as (X1 & Y1 & Z1 & -> & WX1 & WY1 & WZ1 & LX1 & LY1 & LZ1 & C1).
    destruct (rep_inv q Q HQ) as (X2 & Y2 & Z2 & -> & WX2 & WY2 & WZ2 & LX2 & LY2 & LZ2 & C2).
    rewrite !sub12_0, !sub12_4, !sub12_8 by wl. intros LEN.
    destruct C1 as [[E1 _]|(x1 & y1 & v1 & A1 & V1 & _ & MX1 & MY1 & MZ1)]; [contradiction|].
    destruct C2 as [[E2 _]|(x2 & y2 & v2 & A2 & V2 & _ & MX2 & MY2 & MZ2)]; [contradiction|].
    destruct (add_vals _ _ _ _ _ _ _ _ _ _ _ _ MX1 MY1 MZ1 MX2 MY2 MZ2 LEN) as (xo & yo & zo & -> & Mx & My & Mz).
    rewrite (jac_add x1 x2 v1 v2 _ eq_refl) in Mx, My, Mz. rewrite (jac_addr y1 y2 v1 v2 _ eq_refl) in Mx, My.
    apply (chord_rep P Q x1 y1 x2 y2 (v1 * v2) xo yo zo A1 A2 NE NO (pdiv_mul_n _ _ V1 V2)).
    + replace (x1 * (v1 * v2) ^ 2) with (v2 * v2 * (x1 * v1 ^ 2)) by ring. exact Mx.
    + replace (x1 * (v1 * v2) ^ 2) with (v2 * v2 * (x1 * v1 ^ 2)) by ring.
      replace (y1 * (v1 * v2) ^ 3) with (v2 * v2 * v2 * (y1 * v1 ^ 3)) by ring. exact My.
    + rewrite Z.mul_comm. exact Mz.
Qed.
Theorem addaff_ok : forall p x2' y2' (P Q : pt (eg sm2_E)) x2 y2, R12 p P -> eat Q x2 y2 -> lem x2' x2 -> lem y2' y2 ->
  P <> gO -> P <> Q -> P <> gneg Q -> length (addaff_f f (sub p 0 4) (sub p 4 4) (sub p 8 4) x2' y2') = 12%nat ->
  R12 (addaff_f f (sub p 0 4) (sub p 4 4) (sub p 8 4) x2' y2') (gadd P Q).
Proof.
  intros p X2 Y2 P Q x2 y2 HP A2 MX2 MY2 NP NE NO.
  destruct (rep_inv p P HP) as (X1 & Y1 & Z1 & -> & WX1 & WY1 & WZ1 & LX1 & LY1 & LZ1 & C1). rewrite !sub12_0, !sub12_4, !sub12_8 by wl. intros LEN.
  destruct C1 as [[E1 _]|(x1 & y1 & v1 & A1 & V1 & _ & MX1 & MY1 & MZ1)]; [contradiction|].
  destruct (addaff_vals _ _ _ _ _ _ _ _ _ _ MX1 MY1 MZ1 MX2 MY2 LEN) as (xo & yo & zo & -> & Mx & My & Mz).
  assert (EH : v1 * v1 * x2 - x1 * v1 ^ 2 = (x2 - x1) * v1 ^ 2) by ring.
  assert (ER : v1 * v1 * v1 * y2 - y1 * v1 ^ 3 = (y2 - y1) * v1 ^ 3) by ring.
  rewrite EH in Mx, My, Mz. rewrite ER in Mx, My.
  apply (chord_rep P Q x1 y1 x2 y2 v1 xo yo zo A1 A2 NE NO V1).
  - unfold ad_x. rewrite (Z.mul_comm ((x2 - x1) * v1 ^ 2 * ((x2 - x1) * v1 ^ 2)) (x1 * v1 ^ 2)). exact Mx.
  - unfold ad_y, ad_x. rewrite (Z.mul_comm ((x2 - x1) * v1 ^ 2 * ((x2 - x1) * v1 ^ 2)) (x1 * v1 ^ 2)). exact My.
  - exact Mz.
Qed.
End Formulas.

(** ** The exact routines meet the contract *)
Lemma exact_mul_ok : mul_ok cP (f_mul exact).
Proof.
  intros a b WA WB. cbn [f_mul exact]. split; [apply red_words|]. rewrite red_val. split.
  - rewrite Z.mul_mod_idemp_l by exact nzP. replace (lval a * lval b * RinvP' * 2 ^ 256) with (lval a * lval b * (2 ^ 256 * RinvP')) by ring.
    rewrite <- Z.mul_mod_idemp_r by exact nzP. rewrite Rinv_ok, Z.mul_1_r. reflexivity.
  - intros _. apply Z.mod_pos_bound. reflexivity.
Qed.
Lemma exact_negw : forall a, is_words 4 a -> is_words 4 (exact_neg a 1).
Proof. intros. apply words_of_ok. Qed.
Lemma exact_neg_val : forall a, is_words 4 a -> 0 < lval a < cP -> lval (exact_neg a 1) = cP - lval a.
Proof.
  intros a W B. unfold exact_neg. cbn [Z.eqb]. apply lval_words_of. change (2 ^ (64 * Z.of_nat 4)) with (2 ^ 256).
  assert (cP < 2 ^ 256) by reflexivity. lia.
Qed.
Lemma exact_neg_mont : forall y v, mont cP y v -> ~ (cP | v) -> lem (exact_neg y 1) (- v).
Proof.
  intros y v [[W M] L] N. pose proof (lval_256 y W).
  assert (lval y <> 0).
  { intros C. rewrite C in M. symmetry in M. apply Z.mod_divide in M; [|exact nzP]. apply pdiv_mul in M. destruct M as [M|M]; [exact (N M)|].
    revert M. apply not_div. reflexivity. }
  split; [|rewrite exact_neg_val by (try exact W; lia); lia]. split; [apply exact_negw, W|]. rewrite exact_neg_val by (try exact W; lia). apply cong_div.
  replace (cP - lval y - - v * 2 ^ 256) with (cP - (lval y - v * 2 ^ 256)) by ring. apply Z.divide_sub_r; [apply Z.divide_refl|].
  apply Z.mod_divide; [exact nzP|]. rewrite Zminus_mod, M, Z.sub_diag. reflexivity.
Qed.
Lemma sub8_0 : forall x y : words, length x = 4%nat -> length y = 4%nat -> sub (x ++ y) 0 4 = x.
Proof. intros x y L M. rewrite <- (app_nil_r y). apply sub12_0, L. Qed.
Lemma sub8_4 : forall x y : words, length x = 4%nat -> length y = 4%nat -> sub (x ++ y) 4 4 = y.
Proof. intros x y L M. rewrite <- (app_nil_r y) at 1. apply sub12_4; assumption. Qed.
Lemma words12 : forall a b c, is_words 4 a -> is_words 4 b -> is_words 4 c -> is_words 12 (a ++ b ++ c).
Proof.
  intros a b c [LA FA] [LB FB] [LC FC]. split.
  - rewrite !app_length, LA, LB, LC. reflexivity.
  - rewrite !Forall_app. auto.
Qed.
Theorem exact_prims_ok : prims_ok sm2_E exact_prims.
Proof.
  constructor; cbn [a_mul a_sqr a_from a_neg a_mov a_l2b a_select a_selbase a_addaff a_add a_dbl exact_prims].
  - exact exact_mul_ok.
  - reflexivity.
  - intros a W. split; [apply red_words|]. rewrite red_val. split; [apply Z.mod_pos_bound; reflexivity|].
    rewrite Z.mul_mod_idemp_l by exact nzP. replace (lval a * RinvP' * 2 ^ 256) with (lval a * (2 ^ 256 * RinvP')) by ring.
    rewrite <- Z.mul_mod_idemp_r by exact nzP. rewrite Rinv_ok, Z.mul_1_r. reflexivity.
  - reflexivity.
  - reflexivity.
  - intros a W B. split; [apply exact_negw, W|apply exact_neg_val; assumption].
  - exact exact_negw.
  - reflexivity.
  - reflexivity.
  - reflexivity.
  - intros p P H. apply (dbl_ok exact _ _ exact_ok p P H). reflexivity.
  - intros p q _ _. unfold add_f. cbv zeta. apply words12; apply red_words.
  - intros p q P Q HP HQ NP NQ NE. apply (add_ok exact _ _ exact_ok p q P Q HP HQ NP NQ NE). reflexivity.
  - intros p q P Q HP HQ D. apply (add_degenerate exact _ _ exact_ok p q P Q HP HQ); [tauto|reflexivity].
  - intros p x y sign sel _ [LX _] [LY _] _ _. cbn [Z.eqb]. rewrite sub8_0, sub8_4 by assumption. reflexivity.
  - intros p q sign zero _ _ _ Z0. destruct (Z.eqb_spec zero 0); [lia|]. reflexivity.
  - intros p q sign sel zero P Q HP (x & y & -> & NQ & MX & MY) Sg Se Ze NP NE NO.
    destruct (Z.eqb_spec zero 0); [lia|]. destruct (Z.eqb_spec sel 0); [lia|].
    pose proof (eat_coords Q NQ) as AQ. destruct (sm2_coords_ok Q NQ) as (RX & RY & _).
    rewrite sub8_0, sub8_4 by (apply MX || apply MY).
    unfold signed in *. destruct (Z.eqb_spec sign 0) as [->|S1].
    + apply (addaff_ok exact _ _ exact_ok p x _ P Q _ _ HP AQ (mont_lem _ _ MX) (mont_lem _ _ MY) NP NE NO). reflexivity.
    + assert (sign = 1) by lia. subst sign.
      apply (addaff_ok exact _ _ exact_ok p x _ P (gneg Q) (fst (ecoords Q)) (- snd (ecoords Q)) HP); try assumption.
      * apply (at_neg cP prime_c_P_SM2P256V1 sm2_odd (-3) qB sm2_disc (proj1_sig Q) _ _ AQ).
      * apply mont_lem, MX.
      * apply exact_neg_mont; [exact MY|]. intros D. apply Z.divide_pos_le in D; lia.
      * reflexivity.
Qed.
