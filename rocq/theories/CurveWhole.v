(** * CurveWhole: curves y^2 = x^3 - 3x + b with a prime number N of points, and the methods of
    elliptic.CurveParams on them *)
From Coq Require Import ZArith Znumtheory Zpow_facts String List Bool Lia.
From Verif Require Import Base BaseFacts Curves NumTheory Primes1 Primes3 Spec_Group CurveZ CurveSub ChainSM2 ChainP256 CurveRoot RootSM2 RootP256
  CurveSM2 Elliptic EllipticFacts.
Import ListNotations.
Open Scope Z_scope.

(** What has to be known of a curve: its parameters are good, the base point is on it, N kills the base point,
    the cubic has no root and N is large enough *)
Record wcurve := mkW {
  wc :> curve;
  w_p : prime (c_P wc);
  w_odd : 2 < c_P wc;
  w_disc : ~ (c_P wc | 4 * (-3) ^ 3 + 27 * c_B wc ^ 2);
  w_b : ~ (c_P wc | c_B wc);
  w_n : prime (c_N wc);
  w_G : pt (curve_group (c_P wc) w_p w_odd (-3) (c_B wc) w_disc);
  w_at : at_ (c_P wc) w_p w_odd (-3) (c_B wc) w_disc w_G (c_Gx wc) (c_Gy wc);
  w_order : gmul (c_N wc) w_G = gO;
  w_root : forall r, ~ (c_P wc | r * r * r - 3 * r + c_B wc);
  w_big : 2 * c_P wc + 1 < 3 * c_N wc }.

Section Whole.
Variable W : wcurve.
Notation p := (c_P W). Notation N := (c_N W).
Definition wgroup : cgroup := curve_group p (w_p W) (w_odd W) (-3) (c_B W) (w_disc W).
Notation point := (pt wgroup).
Definition wat : point -> Z -> Z -> Prop := at_ p (w_p W) (w_odd W) (-3) (c_B W) (w_disc W).
Definition wco : point -> Z * Z := acoords p (w_p W) (w_odd W) (-3) (c_B W) (w_disc W).

Lemma w_no_two : forall P : point, gadd P P = gO -> P = gO.
Proof.
  intros P H. destruct (Z.eq_dec (enc _ _ _ _ _ _ P) (enc _ _ _ _ _ _ (gO : point))) as [E|E]; [exact (enc_inj _ _ _ _ _ _ (w_b W) _ _ E)|].
  assert (NP : P <> gO) by (intros C; apply E; rewrite C; reflexivity). exfalso.
  destruct (at_exists p (w_p W) (w_odd W) (-3) (c_B W) (w_disc W) P NP) as (x & y & A & RX & RY).
  assert (PN : P = gneg P) by (apply gneg_unique; exact H).
  pose proof (at_neg p (w_p W) (w_odd W) (-3) (c_B W) (w_disc W) P x y A) as AN.
  change (@gneg (curve_group p (w_p W) (w_odd W) (-3) (c_B W) (w_disc W)) P) with (@gneg wgroup P) in AN. rewrite <- PN in AN.
  destruct (at_same p (w_p W) (w_odd W) (-3) (c_B W) (w_disc W) P x y x (- y) A AN) as [_ D].
  assert (D2 : (p | 2 * y)) by (replace (2 * y) with (y - - y) by ring; exact D).
  apply prime_mult in D2; [|exact (w_p W)]. destruct D2 as [D2|D2].
  - apply Z.divide_pos_le in D2; [|lia]. pose proof (w_odd W). lia.
  - pose proof (at_on p (w_p W) (w_odd W) (-3) (c_B W) (w_disc W) P x y A) as O. apply (w_root W x).
    replace (x * x * x - 3 * x + c_B W) with (y * y - (y * y - (x * x * x + -3 * x + c_B W))) by ring.
    apply Z.divide_sub_r; [apply Z.divide_mul_l; exact D2|exact O].
Qed.
Lemma w_G_nz : (w_G W : point) <> gO.
Proof. exact (at_not_O _ _ _ _ _ _ _ _ _ (w_at W)). Qed.
Theorem w_killed : forall P : point, gmul N P = gO.
Proof.
  intros P. exact (all_killed p (w_p W) (w_odd W) (-3) (c_B W) (w_disc W) (w_b W) N (w_G W) (w_n W) (w_order W) w_G_nz (w_big W) w_no_two P).
Qed.
Theorem w_multiple : forall P : point, exists d, 0 <= d < N /\ P = gmul d (w_G W : point).
Proof.
  exact (all_multiples p (w_p W) (w_odd W) (-3) (c_B W) (w_disc W) (w_b W) N (w_G W) (w_n W) (w_order W) w_G_nz (w_big W) w_killed).
Qed.
Lemma w_N2 : 2 <= N. Proof. apply prime_ge_2, w_n. Qed.
(** the group as an [ecgroup] *)
Definition wE : ecgroup.
Proof.
  refine (mkEC wgroup N (w_n W) (w_G W) (w_order W) w_G_nz wco eq_refl _ _).
  - intros P Q H. exact (acoords_inj p (w_p W) (w_odd W) (-3) (c_B W) (w_disc W) (w_b W) P Q H).
  - intros P. pose proof (acoords_range p (w_p W) (w_odd W) (-3) (c_B W) (w_disc W) P). unfold wco. lia.
Defined.
Lemma wco_range : forall P, 0 <= fst (wco P) < p /\ 0 <= snd (wco P) < p.
Proof. exact (acoords_range p (w_p W) (w_odd W) (-3) (c_B W) (w_disc W)). Qed.
Lemma wco_inj : forall P Q, wco P = wco Q -> P = Q.
Proof. exact (acoords_inj p (w_p W) (w_odd W) (-3) (c_B W) (w_disc W) (w_b W)). Qed.
Lemma wco_O : wco gO = (0, 0). Proof. reflexivity. Qed.
Lemma wco_O_iff : forall P, wco P = (0, 0) <-> P = gO.
Proof. intros P. split; [intros H; apply wco_inj; exact H|intros ->; reflexivity]. Qed.
Lemma wat_wco : forall P x y, wat P x y -> wco P = (x mod p, y mod p).
Proof. exact (acoords_at p (w_p W) (w_odd W) (-3) (c_B W) (w_disc W)). Qed.
Lemma wco_wat : forall P : point, P <> gO -> wat P (fst (wco P)) (snd (wco P)).
Proof. exact (at_acoords p (w_p W) (w_odd W) (-3) (c_B W) (w_disc W)). Qed.
Lemma wat_nz : forall P x y, wat P x y -> P <> gO.
Proof. exact (at_not_O p (w_p W) (w_odd W) (-3) (c_B W) (w_disc W)). Qed.
Lemma wat_G : wat (w_G W) (c_Gx W) (c_Gy W). Proof. exact (w_at W). Qed.
Lemma w_on_iff : forall x y, IsOnCurve W (x, y) = true <-> exists P, wat P x y.
Proof. exact (on_curve_at W (w_p W) (w_odd W) (w_disc W)). Qed.
Lemma w_on_eq : forall x y, IsOnCurve W (x, y) = true <-> (p | y * y - (x * x * x - 3 * x + c_B W)).
Proof. exact (on_curve_iff W (w_odd W)). Qed.
Lemma w_add : forall P Q, Add W (wco P) (wco Q) = wco (gadd P Q).
Proof.
  intros P Q. exact (Add_ok W (w_p W) (w_odd W) (w_disc W) (w_b W) _ _ _ _ (stands_aco W (w_p W) (w_odd W) (w_disc W) P) (stands_aco W (w_p W) (w_odd W) (w_disc W) Q)).
Qed.
Lemma w_mult : forall P x y k, wat P x y -> wf_bytes k -> ScalarMult W (x, y) k = wco (gmul (be2z k) P).
Proof. intros P x y k A Wk. exact (ScalarMult_ok W (w_p W) (w_odd W) (w_disc W) x y P k A Wk). Qed.
Lemma w_mult_co : forall P k, P <> gO -> wf_bytes k -> ScalarMult W (wco P) k = wco (gmul (be2z k) P).
Proof. intros P k NP Wk. rewrite (surjective_pairing (wco P)). apply w_mult; [apply wco_wat; exact NP|exact Wk]. Qed.
Lemma w_base : forall k, wf_bytes k -> ScalarBaseMult W k = wco (gmul (be2z k) (w_G W)).
Proof. intros k Wk. apply w_mult; [exact wat_G|exact Wk]. Qed.
Lemma w_gmul_zero : forall k (P : point), P <> gO -> (gmul k P = gO <-> k mod N = 0).
Proof. intros k P NP. apply gmul_zero_iff; [apply w_n|apply w_killed|exact NP]. Qed.
End Whole.

(** ** The curves P-256 and SM2 *)
Lemma p256_odd : 2 < c_P P256. Proof. reflexivity. Qed.
Lemma p256_not_div : forall z, (z mod c_P P256 =? 0) = false -> ~ (c_P P256 | z).
Proof. intros z H D. apply Z.mod_divide in D; [|discriminate]. apply Z.eqb_neq in H. contradiction. Qed.
Lemma p256_disc : ~ (c_P P256 | 4 * (-3) ^ 3 + 27 * c_B P256 ^ 2).
Proof. apply p256_not_div. vm_compute. reflexivity. Qed.
Lemma p256_b : ~ (c_P P256 | c_B P256).
Proof. apply p256_not_div. vm_compute. reflexivity. Qed.
Lemma p256_base_on : (c_P P256 | c_Gy P256 * c_Gy P256 - (c_Gx P256 * c_Gx P256 * c_Gx P256 + -3 * c_Gx P256 + c_B P256)).
Proof. apply Z.mod_divide; [discriminate|]. vm_compute. reflexivity. Qed.

(** a base point by its coordinates *)
Section Base.
Variable c : curve.
Hypothesis p_prime : prime (c_P c).
Hypothesis p_odd : 2 < c_P c.
Hypothesis disc : ~ (c_P c | 4 * (-3) ^ 3 + 27 * c_B c ^ 2).
Hypothesis base_on : (c_P c | c_Gy c * c_Gy c - (c_Gx c * c_Gx c * c_Gx c + -3 * c_Gx c + c_B c)).
Lemma base_onb : onb (c_P c) p_prime (-3) (c_B c) (Some (fz (c_P c) p_prime (c_Gx c), fz (c_P c) p_prime (c_Gy c))) = true.
Proof.
  apply (onb_on (c_P c) p_prime (-3) (c_B c)). cbn [CurveLaw.pon]. unfold CurveLaw.on.
  repeat rewrite ?(fz_mul (c_P c) p_prime p_odd 0 0), ?(fz_add (c_P c) p_prime p_odd 0 0).
  apply (proj2 (fz_div (c_P c) p_prime p_odd 0 0 _ _)). exact base_on.
Qed.
Definition base_point : pt (curve_group (c_P c) p_prime p_odd (-3) (c_B c) disc) := exist _ _ base_onb.
Lemma base_at : at_ (c_P c) p_prime p_odd (-3) (c_B c) disc base_point (c_Gx c) (c_Gy c).
Proof. reflexivity. Qed.
End Base.

Lemma p256_root : forall r, ~ (c_P P256 | r * r * r - 3 * r + c_B P256).
Proof.
  destruct bezout_P256 as (B0 & B1 & B2 & B3 & B4).
  exact (no_root (c_P P256) prime_c_P_P256 (c_B P256) mulp_P256 mulp_P256_ok root_P256 _ _ _ _ _ _ _ _ _ _ _ _ _ root_P256_ok B0 B1 B2 B3 B4).
Qed.
Definition p256_G := base_point P256 prime_c_P_P256 p256_odd p256_disc p256_base_on.
Lemma p256_G_range : 0 <= c_Gx P256 < c_P P256. Proof. split; [discriminate|reflexivity]. Qed.
Lemma p256_order : gmul (c_N P256) p256_G = gO.
Proof.
  exact (run_order (c_P P256) prime_c_P_P256 p256_odd (-3) (c_B P256) p256_disc mulp_P256 mulp_P256_ok (c_Gx P256) (c_Gy P256)
    p256_G_range p256_G chain_P256 (c_N P256) (base_at P256 prime_c_P_P256 p256_odd p256_disc p256_base_on) chain_P256_ok).
Qed.
Definition wP256 : wcurve := mkW P256 prime_c_P_P256 p256_odd p256_disc p256_b prime_c_N_P256 p256_G
  (base_at P256 prime_c_P_P256 p256_odd p256_disc p256_base_on) p256_order p256_root eq_refl.

Lemma sm2_root : forall r, ~ (c_P SM2P256V1 | r * r * r - 3 * r + c_B SM2P256V1).
Proof.
  destruct bezout_SM2 as (B0 & B1 & B2 & B3 & B4).
  exact (no_root (c_P SM2P256V1) prime_c_P_SM2P256V1 (c_B SM2P256V1) mulp_SM2 mulp_SM2_ok root_SM2 _ _ _ _ _ _ _ _ _ _ _ _ _ root_SM2_ok B0 B1 B2 B3 B4).
Qed.
Definition wSM2 : wcurve := mkW SM2P256V1 prime_c_P_SM2P256V1 sm2_odd sm2_disc sm2_b prime_c_N_SM2P256V1 sm2_G sm2_G_at sm2_order sm2_root eq_refl.
