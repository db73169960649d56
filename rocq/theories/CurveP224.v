(** * CurveP224: the curve P-224 has a prime number N of points *)
From Coq Require Import ZArith Znumtheory Zpow_facts String List Bool Lia.
From Verif Require Import Base Curves NumTheory Primes1 Primes5 Spec_Group CurveZ CurveSub ChainP224 CurveRoot RootP224 Elliptic CurveWhole.
Import ListNotations.
Open Scope Z_scope.

Lemma p224_odd : 2 < c_P P224. Proof. reflexivity. Qed.
Lemma p224_not_div : forall z, (z mod c_P P224 =? 0) = false -> ~ (c_P P224 | z).
Proof. intros z H D. apply Z.mod_divide in D; [|discriminate]. apply Z.eqb_neq in H. contradiction. Qed.
Lemma p224_disc : ~ (c_P P224 | 4 * (-3) ^ 3 + 27 * c_B P224 ^ 2).
Proof. apply p224_not_div. vm_compute. reflexivity. Qed.
Lemma p224_b : ~ (c_P P224 | c_B P224).
Proof. apply p224_not_div. vm_compute. reflexivity. Qed.
Lemma p224_base_on : (c_P P224 | c_Gy P224 * c_Gy P224 - (c_Gx P224 * c_Gx P224 * c_Gx P224 + -3 * c_Gx P224 + c_B P224)).
Proof. apply Z.mod_divide; [discriminate|]. vm_compute. reflexivity. Qed.
Lemma p224_root : forall r, ~ (c_P P224 | r * r * r - 3 * r + c_B P224).
Proof.
  destruct bezout_P224 as (B0 & B1 & B2 & B3 & B4).
  exact (no_root (c_P P224) prime_c_P_P224 (c_B P224) mulp_P224 mulp_P224_ok root_P224 _ _ _ _ _ _ _ _ _ _ _ _ _ root_P224_ok B0 B1 B2 B3 B4).
Qed.
Definition p224_G := base_point P224 prime_c_P_P224 p224_odd p224_disc p224_base_on.
Lemma p224_G_range : 0 <= c_Gx P224 < c_P P224. Proof. split; [discriminate|reflexivity]. Qed.
Lemma p224_order : gmul (c_N P224) p224_G = gO.
Proof.
  exact (run_order (c_P P224) prime_c_P_P224 p224_odd (-3) (c_B P224) p224_disc mulp_P224 mulp_P224_ok (c_Gx P224) (c_Gy P224)
    p224_G_range p224_G chain_P224 (c_N P224) (base_at P224 prime_c_P_P224 p224_odd p224_disc p224_base_on) chain_P224_ok).
Qed.
Definition wP224 : wcurve := mkW P224 prime_c_P_P224 p224_odd p224_disc p224_b prime_c_N_P224 p224_G
  (base_at P224 prime_c_P_P224 p224_odd p224_disc p224_base_on) p224_order p224_root eq_refl.
