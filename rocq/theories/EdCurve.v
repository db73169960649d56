(** * EdCurve: the curve edwards25519, -x^2 + y^2 = 1 + d x^2 y^2 modulo 2^255 - 19, its base point and its order *)
From Coq Require Import ZArith Znumtheory Zpow_facts String List Bool Lia.
From Verif Require Import Base Pocklington NumTheory Primes4 Spec_Group CurveZ EdLaw EdZ Ed25519 ChainEd.
Import ListNotations.
Open Scope Z_scope.

Lemma edP_prime : prime edP. Proof. exact prime_ed_p. Qed.
Lemma edL_prime : prime edL. Proof. exact prime_ed_L. Qed.
Lemma edP_odd : 2 < edP. Proof. reflexivity. Qed.
Lemma edP_pos : 0 < edP. Proof. reflexivity. Qed.
Lemma ed_divb : forall z, ed_red z = 0 -> (edP | z).
Proof.
  intros z H. pose proof (ed_red_ok z) as R. rewrite H in R. rewrite Z.mod_0_l in R by discriminate. apply Z.mod_divide; [discriminate|]. symmetry. exact R.
Qed.
Lemma edI_sqr : (edP | edI * edI + 1).
Proof. apply Z.mod_divide; [discriminate|]. vm_compute. reflexivity. Qed.
(** Euler's criterion for d *)
Lemma euler_nonsquare : forall p c, prime p -> 2 < p -> (c ^ ((p - 1) / 2)) mod p = p - 1 -> forall z, ~ (p | c - z * z).
Proof.
  intros p c Hp H2 E z D. assert (Ec : c mod p = (z * z) mod p).
  { destruct D as [k D]. replace c with (z * z + k * p) by lia. apply Z_mod_plus_full. }
  rewrite (pow_congr p c (z * z) ((p - 1) / 2) ltac:(lia) Ec) in E.
  assert (He : 0 < (p - 1) / 2) by (apply Z.div_str_pos; lia).
  destruct (Znumtheory.Zdivide_dec p z) as [Dz|Nz].
  - rewrite (pow_congr p (z * z) 0 ((p - 1) / 2)) in E; [|lia|].
    + rewrite Z.pow_0_l in E by exact He. rewrite Z.mod_0_l in E; lia.
    + rewrite Z.mod_0_l by lia. apply Z.mod_divide; [lia|]. apply Z.divide_mul_l. exact Dz.
  - rewrite (euler_square p z Hp H2 Nz) in E. lia.
Qed.
Lemma edD_euler : powz ed_red edD (2 ^ 254 - 10) mod edP = edP - 1.
Proof. vm_compute. reflexivity. Qed.
Lemma edD_nonsquare : forall z, ~ (edP | edD - z * z).
Proof.
  apply (euler_nonsquare edP edD edP_prime edP_odd). assert (He : (edP - 1) / 2 = 2 ^ 254 - 10) by (vm_compute; reflexivity). rewrite He.
  rewrite <- (powz_spec ed_red edP edD (2 ^ 254 - 10)); [exact edD_euler|reflexivity|reflexivity|exact ed_red_ok].
Qed.

Definition edG : cgroup := ed_group edP edP_prime edP_odd edD edI edI_sqr edD_nonsquare.
(** P has the coordinates x, y modulo p *)
Definition edat : pt edG -> Z -> Z -> Prop := ate edP edP_prime edP_odd edD edI edI_sqr edD_nonsquare.

Lemma edB_on : (edP | edBy * edBy - edBx * edBx - 1 - edD * (edBx * edBx) * (edBy * edBy)).
Proof. apply Z.mod_divide; [discriminate|]. vm_compute. reflexivity. Qed.
Definition edB : pt edG := emake edP edP_prime edP_odd edD edI edI_sqr edD_nonsquare edBx edBy edB_on.
Lemma edB_at : edat edB edBx edBy. Proof. apply emake_at. Qed.
Lemma ed_dgx_ok : (edP | ed_dgx - edD * edBx).
Proof. apply Z.mod_divide; [discriminate|]. vm_compute. reflexivity. Qed.
Theorem edB_order : gmul edL edB = gO.
Proof.
  exact (erun_order edP edP_prime edP_odd edD edI edI_sqr edD_nonsquare ed_mulp ed_mulp_ok ed_red ed_red_ok edBx edBy ed_dgx ed_dgx_ok
    edB chain_ed edL edB_at chain_ed_ok).
Qed.
Lemma edB_nz : edB <> gO.
Proof.
  intros C. pose proof edB_at as A. rewrite C in A.
  destruct (ate_same edP edP_prime edP_odd edD edI edI_sqr edD_nonsquare gO edBx edBy 0 1 A
    (ate_O edP edP_prime edP_odd edD edI edI_sqr edD_nonsquare)) as [D _].
  apply Z.mod_divide in D; [|discriminate]. vm_compute in D. discriminate D.
Qed.
(** multiples of the base point are equal just when the factors agree modulo the order *)
Theorem edB_inj : forall a b, gmul a edB = gmul b edB <-> a mod edL = b mod edL.
Proof.
  intros a b. exact (gmul_inj edG edL a b edB edL_prime edB_order edB_nz).
Qed.
