(** * Prop_P256d: C61 and C63 on the SM2 curve itself *)
From Coq Require Import ZArith Znumtheory String List Bool Lia.
From Verif Require Import Base BaseFacts Curves ECKey SM3 NumTheory Primes1 Primes3 Spec_Group CurveZ CurveSub ChainSM2 CurveSM2 CurveRoot RootSM2
  SM2Sig Spec_EC Spec_SM2 Prop_SM2 P256 Spec_P256 Spec_P256b P256Booth P256Inv P256Sched P256Sched2 Prop_P256b Prop_P256c P256Point P256PointFacts.
Import ListNotations.
Open Scope Z_scope.

(** (x, y) satisfies the curve equation *)
Definition on_sm2 (x y : Z) : Prop := (cP | y * y - (x * x * x - 3 * x + c_B SM2P256V1)).

(** ** N kills every point of the curve: a third coset of the base point's subgroup would give more than
    2p + 1 points, a second one a point of order two *)
Lemma sm2_no_root : forall r, ~ (cP | r * r * r - 3 * r + c_B SM2P256V1).
Proof.
  destruct bezout_SM2 as (B0 & B1 & B2 & B3 & B4).
  exact (no_root cP prime_c_P_SM2P256V1 (c_B SM2P256V1) mulp_SM2 mulp_SM2_ok root_SM2 _ _ _ _ _ _ _ _ _ _ _ _ _ root_SM2_ok B0 B1 B2 B3 B4).
Qed.
Lemma sm2_no_two : forall P : pt sm2_curve, gadd P P = gO -> P = gO.
Proof.
  intros P H. destruct (Z.eq_dec (enc _ _ _ _ _ _ P) (enc _ _ _ _ _ _ (gO : pt sm2_curve))) as [E|E]; [exact (enc_inj _ _ _ _ _ _ sm2_b _ _ E)|].
  assert (N : P <> gO) by (intros C; apply E; rewrite C; reflexivity). exfalso.
  destruct (at_exists cP prime_c_P_SM2P256V1 sm2_odd (-3) qB sm2_disc P N) as (x & y & A & RX & RY).
  assert (PN : P = gneg P) by (apply gneg_unique; exact H).
  pose proof (at_neg cP prime_c_P_SM2P256V1 sm2_odd (-3) qB sm2_disc P x y A) as AN.
  change (@gneg (curve_group cP prime_c_P_SM2P256V1 sm2_odd (-3) qB sm2_disc) P) with (@gneg sm2_curve P) in AN. rewrite <- PN in AN.
  destruct (at_same cP prime_c_P_SM2P256V1 sm2_odd (-3) qB sm2_disc P x y x (- y) A AN) as [_ D].
  assert (D2 : (cP | 2 * y)) by (replace (2 * y) with (y - - y) by ring; exact D).
  apply prime_mult in D2; [|exact prime_c_P_SM2P256V1]. destruct D2 as [D2|D2].
  - apply Z.divide_pos_le in D2; [|lia]. apply D2. reflexivity.
  - pose proof (at_on cP prime_c_P_SM2P256V1 sm2_odd (-3) qB sm2_disc P x y A) as O. apply (sm2_no_root x).
    replace (x * x * x - 3 * x + c_B SM2P256V1) with (y * y - (y * y - (x * x * x + -3 * x + qB))) by ring.
    apply Z.divide_sub_r; [apply Z.divide_mul_l; exact D2|exact O].
Qed.
Theorem sm2_all_killed : forall P : pt sm2_curve, gmul qN P = gO.
Proof.
  intros P. pose proof (all_killed cP prime_c_P_SM2P256V1 sm2_odd (-3) qB sm2_disc sm2_b qN sm2_G prime_c_N_SM2P256V1 sm2_order) as H.
  apply H; [|reflexivity|exact sm2_no_two].
  intros C. exact (at_not_O _ _ _ _ _ _ _ _ _ sm2_G_at C).
Qed.
(** a pair of integers on the curve is a point of the group *)
Theorem sm2_point : forall X Y, on_sm2 X Y -> exists P : pt (eg sm2_E), eat P X Y.
Proof.
  intros X Y H. destruct (at_make cP prime_c_P_SM2P256V1 sm2_odd (-3) qB sm2_disc X Y) as [P A].
  { replace (Y * Y - (X * X * X + -3 * X + qB)) with (Y * Y - (X * X * X - 3 * X + c_B SM2P256V1)) by ring. exact H. }
  assert (T : sm2_eq0 (gmul qN P) = true) by (apply sm2_eq0_ok, sm2_all_killed).
  exists (exist _ P T). exact A.
Qed.
Lemma killed : forall P : pt (eg sm2_E), gmul cN P = gO.
Proof.
  intros P. apply tpoint_eq. change (eg sm2_E) with sm2_group. unfold sm2_group. rewrite (t_gmul sm2_curve sm2_eq0 sm2_eq0_ok qN). apply sm2_all_killed.
Qed.
Lemma on_of_at : forall (P : pt (eg sm2_E)) X Y, eat P X Y -> on_sm2 X Y.
Proof.
  intros P X Y A. pose proof (at_on cP prime_c_P_SM2P256V1 sm2_odd (-3) qB sm2_disc (proj1_sig P) X Y A) as H. unfold on_sm2.
  replace (Y * Y - (X * X * X - 3 * X + c_B SM2P256V1)) with (Y * Y - (X * X * X + -3 * X + qB)) by ring. exact H.
Qed.

(** ** C63: the constants of curves.go and p256_amd64.go *)
Theorem C63_constants :
  prime cP /\ prime cN /\ 2 ^ 255 < cN < cP /\ cP < 2 ^ 256 /\
  on_sm2 (c_Gx SM2P256V1) (c_Gy SM2P256V1) /\ ~ (cP | 4 * (-3) ^ 3 + 27 * c_B SM2P256V1 ^ 2) /\
  sm2_at sm2_G (c_Gx SM2P256V1) (c_Gy SM2P256V1) /\ (forall k, gmul (G := sm2_curve) k sm2_G = gO <-> k mod cN = 0) /\
  (forall P : pt sm2_curve, gmul cN P = gO) /\
  lval rr = (2 ^ 256 * 2 ^ 256) mod cP /\ lval RR = (2 ^ 256 * 2 ^ 256) mod cN /\ lval one_mont = 2 ^ 256 mod cP /\
  mont cP (sub basePoint 0 4) (c_Gx SM2P256V1) /\ mont cP (sub basePoint 4 4) (c_Gy SM2P256V1) /\ mont cP (sub basePoint 8 4) 1.
Proof.
  destruct constants_ok as (C1 & C2 & C3 & C4 & C5 & C6 & C7 & C8 & C9 & C10 & C11).
  split; [exact C8|]. split; [exact C9|]. split; [exact C10|]. split; [exact C11|].
  split; [exact (on_of_at sm2_GT _ _ sm2_G_at)|]. split; [exact sm2_disc|]. split; [exact sm2_G_at|].
  split. { intros k. apply (gmul_zero_iff _ cN k sm2_G prime_c_N_SM2P256V1 sm2_order). intros C. exact (at_not_O _ _ _ _ _ _ _ _ _ sm2_G_at C). }
  split; [exact sm2_all_killed|]. tauto.
Qed.

(** ** C61 with the point formulas of the assembly over exact field arithmetic: no group is assumed *)
Theorem C61_curve_base : forall k, wf_bytes k ->
  ScalarBaseMult exact_prims k = Val (ecoords (gmul (be2z k) (eG (e := sm2_E)))).
Proof. exact (C61_base sm2_E exact_prims exact_prims_ok sm2_coords_ok sm2_E_N sm2_E_G). Qed.
Theorem C61_curve_scalar : forall k X Y, wf_bytes k -> 0 <= X -> 0 <= Y -> on_sm2 X Y ->
  exists P : pt (eg sm2_E), eat P X Y /\
    ScalarMult exact_prims X Y k = Val (if be2z k mod cN =? cN - 6 then (0, 0) else ecoords (gmul (be2z k) P)).
Proof.
  intros k X Y W HX HY O. destruct (sm2_point X Y O) as [P A]. exists P. split; [exact A|].
  apply (C61_scalar sm2_E exact_prims exact_prims_ok sm2_coords_ok k X Y P W); try assumption.
  - exact (eat_not_O P X Y A).
  - apply killed.
  - exact (eat_of P X Y A).
Qed.
Theorem C61_curve_combined : forall s t X Y, wf_bytes s -> wf_bytes t -> 0 <= X -> 0 <= Y -> on_sm2 X Y -> be2z s mod cN <> 0 ->
  exists P : pt (eg sm2_E), eat P X Y /\
  (be2z t mod cN <> 0 -> be2z t mod cN <> cN - 6 -> gmul (be2z s) eG <> gmul (be2z t) P ->
     CombinedMult exact_prims X Y s t = Val (ecoords (gadd (gmul (be2z s) eG) (gmul (be2z t) P)))) /\
  (be2z t mod cN = 0 \/ be2z t mod cN = cN - 6 \/ gmul (be2z s) eG = gmul (be2z t) P -> CombinedMult exact_prims X Y s t = Val (0, 0)).
Proof.
  intros s t X Y Ws Wt HX HY O S. destruct (sm2_point X Y O) as [P A]. exists P. split; [exact A|].
  apply (C61_combined sm2_E exact_prims exact_prims_ok sm2_coords_ok sm2_E_N sm2_E_G s t X Y P Ws Wt); try assumption.
  - exact (eat_not_O P X Y A).
  - apply killed.
  - exact (eat_of P X Y A).
Qed.
(** Inverse as a function *)
Definition asm_inv (A : prims) (k : Z) : Z := match Inverse A k with Val r => r | _ => 0 end.
Lemma exact_ordmul_ok : mul_ok cN (a_ordmul exact_prims).
Proof.
  intros a b WA WB. cbn [a_ordmul exact_prims]. split; [apply words_of_ok|]. rewrite lval_scalar. split.
  - rewrite Z.mul_mod_idemp_l by discriminate.
    match goal with |- (lval a * lval b * ?i * 2 ^ 256) mod cN = _ => replace (lval a * lval b * i * 2 ^ 256) with (lval a * lval b * (2 ^ 256 * i)) by ring end.
    rewrite <- Z.mul_mod_idemp_r by discriminate.
    match goal with |- (_ * (?z mod cN)) mod cN = _ => change (z mod cN) with 1 end. rewrite Z.mul_1_r. reflexivity.
  - intros _. apply Z.mod_pos_bound. reflexivity.
Qed.
Lemma exact_l2b : l2b_ok (a_l2b exact_prims).
Proof. intros a W. reflexivity. Qed.
(** signing and verifying with the routines of this package: D in [1, N-2] always gives signatures the
    standard accepts, and Verify accepts them unless it meets one of its two exceptions *)
Theorem C61_curve_sign_verify : forall sha512 aes fuel ent D k id msg hasher hasher' r s,
  inputs_ok k id msg hasher -> hasher_ok hasher' -> 1 <= D <= cN - 2 ->
  ScalarBaseMult exact_prims (big_bytes D) = Val (pk_X k, pk_Y k) ->
  Sign sha512 aes (asm_sbm exact_prims) (asm_inv exact_prims) fuel ent D k id msg hasher = Val (Ok (r, s)) ->
  sm2_accepts sm2_E (gmul D eG) (msg_e k id msg) r s /\
  (Verify (asm_comb exact_prims) k id msg hasher' r s = Val true <-> (r + s) mod cN <> cN - 6 /\ (s - (r + s) * D) mod cN <> 0).
Proof.
  intros sha512 aes fuel ent D k id msg hasher hasher' r s I Hh HD HK ES.
  rewrite C61_curve_base in HK by apply big_bytes_wf. rewrite be2z_big_bytes in HK by lia.
  assert (HP : ecoords (gmul D (eG (e := sm2_E))) = (pk_X k, pk_Y k)) by congruence. clear HK.
  assert (HI : invertible (asm_inv exact_prims) D).
  { unfold invertible, asm_inv. destruct (C62_inverse exact_prims exact_ordmul_ok exact_l2b (D + 1)) as (i & -> & _ & Hi & _).
    rewrite Z.abs_eq in Hi by lia. apply Hi. intros C. apply Z.divide_pos_le in C; lia. }
  assert (NO : gmul D (eG (e := sm2_E)) <> gO).
  { intros C. apply (gmul_zero_iff _ cN D eG prime_c_N_SM2P256V1 (killed _) (eG_nonzero sm2_E)) in C. rewrite Z.mod_small in C by lia. lia. }
  assert (I' : inputs_ok k id msg hasher').
  { destruct I as (I1 & I2 & I3 & I4). exact (conj I1 (conj I2 (conj Hh (proj2 (conj I3 I4))))). }
  assert (ACC : sm2_accepts sm2_E (gmul D eG) (msg_e k id msg) r s).
  { set (comb := fun (_ : ecpub) (u v : bytes) => ecoords (gadd (gmul (be2z u) (eG (e := sm2_E))) (gmul (be2z v) (gmul D eG)))).
    destruct (C44_ranges sha512 aes (asm_sbm exact_prims) (asm_inv exact_prims) _ _ _ _ _ _ _ _ _ I (ltac:(lia) : 0 <= D) HI ES) as (Rr & Rs & Rt).
    assert (CR : comb_right comb sm2_E k (gmul D eG) s ((r + s) mod cN)).
    { unfold comb_right, comb. rewrite !be2z_big_bytes; [reflexivity|apply Z.mod_pos_bound; reflexivity|lia]. }
    apply (C43_exact comb sm2_E (gmul D eG) k id msg hasher' r s I' sm2_E_N (killed _) CR).
    apply (C42_sign_verify sha512 aes (asm_sbm exact_prims) (asm_inv exact_prims) comb sm2_E fuel ent D k id msg hasher hasher' r s I Hh sm2_E_N); try assumption; try lia.
    intros j Hj. apply (asm_sbm_ok sm2_E exact_prims exact_prims_ok sm2_coords_ok sm2_E_N sm2_E_G). lia. }
  split; [exact ACC|].
  rewrite (C61_verify sm2_E exact_prims exact_prims_ok sm2_coords_ok sm2_E_N sm2_E_G (gmul D eG) k id msg hasher' r s I' NO (killed _) HP).
  assert (EQ : gmul s (eG (e := sm2_E)) = gmul (r + s) (gmul D eG) <-> (s - (r + s) * D) mod cN = 0).
  { rewrite <- gmul_mul. rewrite <- (gmul_zero_iff _ cN (s - (r + s) * D) (eG (e := sm2_E)) prime_c_N_SM2P256V1 (killed _) (eG_nonzero sm2_E)).
    rewrite gmul_sub. split; intros E.
    - rewrite E. apply gadd_neg.
    - apply (f_equal (fun Q => gadd Q (gmul ((r + s) * D) eG))) in E. rewrite <- gadd_assoc, (gadd_comm _ (gneg _)), gadd_neg, gadd_O in E.
      rewrite E, gadd_comm. apply gadd_O. }
  rewrite EQ. tauto.
Qed.
(** C45 with Inverse itself: the private key N - 1 never signs and never returns *)
Theorem C45_inverse_diverges : forall A, mul_ok cN (a_ordmul A) -> l2b_ok (a_l2b A) ->
  forall sha512 aes sbm fuel ent D k id msg hasher, inputs_ok k id msg hasher -> 0 <= D -> (D + 1) mod cN = 0 ->
  (forall m, (32 <= length (sha512 m))%nat) ->
  Sign sha512 aes sbm (asm_inv A) fuel (Ok ent) D k id msg hasher = OutOfFuel.
Proof.
  intros A M L sha512 aes sbm fuel ent D k id msg hasher I HD HN SH. apply C45_diverges; try assumption.
  unfold asm_inv. destruct (C62_inverse A M L (D + 1)) as (i & -> & _ & _ & Z0 & _).
  rewrite Z0; [reflexivity|]. apply Z.mod_divide; [discriminate|exact HN].
Qed.

(** ** Examples *)
Example C45_inverse_example : mul_ok cN (a_ordmul exact_prims) /\ l2b_ok (a_l2b exact_prims) /\ (cN - 1 + 1) mod cN = 0.
Proof. split; [exact exact_ordmul_ok|]. split; [exact exact_l2b|reflexivity]. Qed.
(** twice the base point, through the theorem *)
Example C61_example_scalar : ScalarMult exact_prims (c_Gx SM2P256V1) (c_Gy SM2P256V1) [2] =
  Val (0x56cefd60d7c87c000d58ef57fa73ba4d9c0dfa08c08a7331495c2e1da3f2bd52, 0x31b7e7e6cc8189f668535ce0f8eaf1bd6de84c182f6c8e716f780d3a970a23c3).
Proof.
  destruct (C61_curve_scalar [2] (c_Gx SM2P256V1) (c_Gy SM2P256V1)) as (P & A & ->).
  - repeat constructor; lia.
  - discriminate.
  - discriminate.
  - apply C63_constants.
  - change (be2z [2]) with 2. change (2 mod cN =? cN - 6) with false. cbv iota. f_equal.
    change 2 with (1 + 1) at 1. rewrite gmul_add, gmul_1.
    assert (A2 : eat (gadd P P) 0x56cefd60d7c87c000d58ef57fa73ba4d9c0dfa08c08a7331495c2e1da3f2bd52 0x31b7e7e6cc8189f668535ce0f8eaf1bd6de84c182f6c8e716f780d3a970a23c3).
    { set (l := 0xd6a6796a27dc312621ee1d7807d53f6f50deb90e13e36666ba6451403bb1c3b0).
      apply (at_cong cP prime_c_P_SM2P256V1 sm2_odd (-3) qB sm2_disc _ (l * l - c_Gx SM2P256V1 - c_Gx SM2P256V1)
        (l * (c_Gx SM2P256V1 - (l * l - c_Gx SM2P256V1 - c_Gx SM2P256V1)) - c_Gy SM2P256V1)).
      - apply (at_tangent cP prime_c_P_SM2P256V1 sm2_odd (-3) qB sm2_disc _ _ _ l A).
        + apply not_div. reflexivity.
        + apply Z.mod_divide; [discriminate|]. reflexivity.
      - apply Z.mod_divide; [discriminate|]. reflexivity.
      - apply Z.mod_divide; [discriminate|]. reflexivity. }
    rewrite (eat_of _ _ _ A2). reflexivity.
Qed.
(** the scalar N - 6 *)
Example C61_example_wrong : ScalarMult exact_prims (c_Gx SM2P256V1) (c_Gy SM2P256V1) (big_bytes (cN - 6)) = Val (0, 0).
Proof.
  destruct (C61_curve_scalar (big_bytes (cN - 6)) (c_Gx SM2P256V1) (c_Gy SM2P256V1)) as (P & A & ->).
  - apply big_bytes_wf.
  - discriminate.
  - discriminate.
  - apply C63_constants.
  - rewrite be2z_big_bytes by discriminate. change ((cN - 6) mod cN =? cN - 6) with true. reflexivity.
Qed.
(** Verify over the exact routines refuses the right signatures with r + s = -6 modulo N *)
Example C61_example_verify : forall id msg, octets id -> octets msg -> zlen id < 2 ^ 60 -> zlen msg < 2 ^ 60 -> forall r, 
  SM2Sig.Verify (asm_comb exact_prims) {| pk_curve := SM2P256V1; pk_X := c_Gx SM2P256V1; pk_Y := c_Gy SM2P256V1 |} id msg New r (cN - 6 - r) <> Val true.
Proof.
  intros id msg O1 O2 L1 L2 r C.
  apply (C61_verify sm2_E exact_prims exact_prims_ok sm2_coords_ok sm2_E_N sm2_E_G eG) in C.
  - destruct C as (_ & C & _). replace (r + (cN - 6 - r)) with (cN - 6) in C by ring. apply C. reflexivity.
  - split; [reflexivity|]. split; [split; split; discriminate || reflexivity|]. split; [reflexivity|]. tauto.
  - apply eG_nonzero.
  - apply killed.
  - exact sm2_E_G.
Qed.
Print Assumptions C61_curve_sign_verify.
Print Assumptions C61_curve_combined.
Print Assumptions C63_constants.
Print Assumptions C45_inverse_diverges.
