(** * CurveSM2: the group of the SM2 curve

    The points of y^2 = x^3 - 3x + b over the integers modulo p that N kills; the base point is one
    of them.  (The standard's curve has N points in all, so these are all its points; that count is
    not proved here and not used.) *)
From Coq Require Import ZArith Znumtheory List Bool Lia.
From Verif Require Import Curves Primes1 Primes3 Spec_Group CurveZ CurveSub ChainSM2 Spec_P256.
Import ListNotations.
Open Scope Z_scope.

Notation qP := (c_P SM2P256V1). Notation qN := (c_N SM2P256V1). Notation qB := (c_B SM2P256V1).
Lemma sm2_odd : 2 < qP. Proof. reflexivity. Qed.
Lemma not_div : forall z, (z mod qP =? 0) = false -> ~ (qP | z).
Proof. intros z H D. apply Z.mod_divide in D; [|discriminate]. apply Z.eqb_neq in H. contradiction. Qed.
Lemma sm2_disc : ~ (qP | 4 * (-3) ^ 3 + 27 * qB ^ 2).
Proof. apply not_div. vm_compute. reflexivity. Qed.
Lemma sm2_b : ~ (qP | qB).
Proof. apply not_div. vm_compute. reflexivity. Qed.
Definition sm2_curve : cgroup := curve_group qP prime_c_P_SM2P256V1 sm2_odd (-3) qB sm2_disc.
Definition sm2_at := at_ qP prime_c_P_SM2P256V1 sm2_odd (-3) qB sm2_disc.
Definition sm2_eq0 (P : pt sm2_curve) : bool := match proj1_sig P with None => true | Some _ => false end.
Lemma sm2_eq0_ok : forall P, sm2_eq0 P = true <-> P = gO.
Proof.
  intros P. unfold sm2_eq0. split.
  - intros H. apply cpoint_eq. destruct (proj1_sig P); [discriminate|reflexivity].
  - intros ->. reflexivity.
Qed.
Definition sm2_group : cgroup := tgroup sm2_curve sm2_eq0 sm2_eq0_ok qN.
Lemma sm2_base_on : (qP | c_Gy SM2P256V1 * c_Gy SM2P256V1 -
  (c_Gx SM2P256V1 * c_Gx SM2P256V1 * c_Gx SM2P256V1 + -3 * c_Gx SM2P256V1 + qB)).
Proof. apply Z.mod_divide; [discriminate|]. vm_compute. reflexivity. Qed.
Lemma sm2_base : onb qP prime_c_P_SM2P256V1 (-3) qB
  (Some (fz qP prime_c_P_SM2P256V1 (c_Gx SM2P256V1), fz qP prime_c_P_SM2P256V1 (c_Gy SM2P256V1))) = true.
Proof.
  apply (onb_on qP prime_c_P_SM2P256V1 (-3) qB). cbn [CurveLaw.pon]. unfold CurveLaw.on.
  repeat rewrite ?(fz_mul qP prime_c_P_SM2P256V1 sm2_odd 0 0), ?(fz_add qP prime_c_P_SM2P256V1 sm2_odd 0 0).
  apply (proj2 (fz_div qP prime_c_P_SM2P256V1 sm2_odd 0 0 _ _)). exact sm2_base_on.
Qed.
Definition sm2_G : pt sm2_curve := exist _ _ sm2_base.
Lemma sm2_G_at : sm2_at sm2_G (c_Gx SM2P256V1) (c_Gy SM2P256V1).
Proof. reflexivity. Qed.
Lemma sm2_G_range : 0 <= c_Gx SM2P256V1 < qP.
Proof. split; [discriminate|reflexivity]. Qed.
Theorem sm2_order : gmul (G := sm2_curve) qN sm2_G = gO.
Proof.
  pose proof (run_order qP prime_c_P_SM2P256V1 sm2_odd (-3) qB sm2_disc mulp_SM2 mulp_SM2_ok (c_Gx SM2P256V1) (c_Gy SM2P256V1)
    sm2_G_range sm2_G chain_SM2 qN sm2_G_at) as H.
  unfold sm2_curve. apply H. exact chain_SM2_ok.
Qed.

(** as an [ecgroup] *)
Lemma sm2_G_t : sm2_eq0 (gmul qN sm2_G) = true.
Proof. apply sm2_eq0_ok. exact sm2_order. Qed.
Definition sm2_GT : pt sm2_group := exist _ sm2_G sm2_G_t.
Definition sm2_coords (P : pt sm2_group) : Z * Z := acoords qP prime_c_P_SM2P256V1 sm2_odd (-3) qB sm2_disc (proj1_sig P).
Definition sm2_E : ecgroup.
Proof.
  refine (mkEC sm2_group qN prime_c_N_SM2P256V1 sm2_GT _ _ sm2_coords _ _ _).
  - apply tpoint_eq. unfold sm2_group. rewrite (t_gmul sm2_curve sm2_eq0 sm2_eq0_ok qN). exact sm2_order.
  - intros C. apply (f_equal (@proj1_sig _ _)) in C. apply (f_equal (@proj1_sig _ _)) in C. discriminate C.
  - reflexivity.
  - intros P Q H. apply tpoint_eq. apply (acoords_inj qP prime_c_P_SM2P256V1 sm2_odd (-3) qB sm2_disc sm2_b). exact H.
  - intros P. pose proof (acoords_range qP prime_c_P_SM2P256V1 sm2_odd (-3) qB sm2_disc (proj1_sig P)). unfold sm2_coords. lia.
Defined.
Lemma sm2_E_N : eN sm2_E = qN. Proof. reflexivity. Qed.
Lemma sm2_E_G : ecoords (eG (e := sm2_E)) = (c_Gx SM2P256V1, c_Gy SM2P256V1).
Proof.
  cbn [ecoords eG sm2_E]. unfold sm2_coords. cbn [proj1_sig sm2_GT].
  rewrite (acoords_at _ _ _ _ _ _ _ _ _ sm2_G_at). rewrite !Z.mod_small by (split; [discriminate|reflexivity]). reflexivity.
Qed.
(** points of the subgroup by their coordinates *)
Definition eat (P : pt (eg sm2_E)) (x y : Z) : Prop := sm2_at (proj1_sig P) x y.
Lemma eat_coords : forall P : pt (eg sm2_E), P <> gO -> eat P (fst (ecoords P)) (snd (ecoords P)).
Proof.
  intros P N. unfold eat. cbn [ecoords sm2_E]. unfold sm2_coords. apply at_acoords.
  intros C. apply N. apply tpoint_eq. exact C.
Qed.
Lemma eat_of : forall (P : pt (eg sm2_E)) x y, eat P x y -> ecoords P = (x mod qP, y mod qP).
Proof. intros P x y A. apply (acoords_at qP prime_c_P_SM2P256V1 sm2_odd (-3) qB sm2_disc (proj1_sig P) x y A). Qed.
Lemma eat_not_O : forall (P : pt (eg sm2_E)) x y, eat P x y -> P <> gO.
Proof. intros P x y A C. subst P. exact (at_not_O _ _ _ _ _ _ _ _ _ A eq_refl). Qed.
Lemma no_order_two : forall P : pt (eg sm2_E), P <> gO -> gadd P P <> gO.
Proof.
  intros P N C. apply N. assert (T : gmul 2 P = gO) by (change 2 with (1 + 1); rewrite gmul_add, gmul_1; exact C).
  assert (T2 : gmul qN P = gO).
  { apply tpoint_eq. change (eg sm2_E) with sm2_group. unfold sm2_group. rewrite (t_gmul sm2_curve sm2_eq0 sm2_eq0_ok qN).
    apply (tpoint_N sm2_curve sm2_eq0 sm2_eq0_ok qN). }
  rewrite <- (gmul_1 _ P). change 1 with (qN + 2 * (- ((qN - 1) / 2))).
  rewrite gmul_add, T2, Z.mul_comm, gmul_mul, T, gmul_O. apply gadd_O.
Qed.
Theorem sm2_coords_ok : coords_ok sm2_E.
Proof.
  intros P N. pose proof (eat_coords P N) as A.
  pose proof (acoords_range qP prime_c_P_SM2P256V1 sm2_odd (-3) qB sm2_disc (proj1_sig P)) as [RX RY].
  change (acoords qP prime_c_P_SM2P256V1 sm2_odd (-3) qB sm2_disc (proj1_sig P)) with (ecoords P) in RX, RY.
  set (x := fst (ecoords P)) in *. set (y := snd (ecoords P)) in *.
  assert (Y0 : y <> 0).
  { intros C. apply (no_order_two P N). apply tpoint_eq. cbn [gadd eg sm2_E sm2_group tgroup proj1_sig].
    apply (at_opp qP prime_c_P_SM2P256V1 sm2_odd (-3) qB sm2_disc _ _ x y x y A A).
    - rewrite Z.sub_diag. apply Z.divide_0_r.
    - rewrite C. apply Z.divide_0_r. }
  split; [exact RX|]. split; [lia|].
  assert (AN : eat (gneg P) x (- y)) by (apply at_neg; exact A).
  rewrite (eat_of _ _ _ AN). rewrite (Z.mod_small x) by exact RX. f_equal.
  rewrite Z.mod_opp_l_nz; rewrite ?(Z.mod_small y) by lia; lia.
Qed.
