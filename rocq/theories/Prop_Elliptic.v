(** * Prop_Elliptic: property C75, the methods of crypto/elliptic.CurveParams compute the group law *)
From Coq Require Import ZArith Znumtheory Zpow_facts String List Bool Lia.
From Verif Require Import Base BaseFacts Curves Primes1 Primes2 Spec_Group CurveZ CurveSub CurveSM2 Elliptic EllipticFacts.
Import ListNotations.
Open Scope Z_scope.

(** the requirements on the parameters: a prime greater than 2, a curve y^2 = x^3 - 3x + b without singular
    points, and b not 0, so that (0, 0) is not on the curve *)
Definition good_params (c : curve) : Prop :=
  prime (c_P c) /\ 2 < c_P c /\ ~ (c_P c | 4 * (-3) ^ 3 + 27 * c_B c ^ 2) /\ ~ (c_P c | c_B c).
(** a pair of integers shows a point: its coordinates up to multiples of the prime; (0, 0) shows infinity *)
Definition shows (c : curve) (p_prime : prime (c_P c)) (p_odd : 2 < c_P c) (disc : ~ (c_P c | 4 * (-3) ^ 3 + 27 * c_B c ^ 2))
  (q : Z * Z) (P : pt (curve_group (c_P c) p_prime p_odd (-3) (c_B c) disc)) : Prop :=
  (P = gO /\ q = (0, 0)) \/ at_ (c_P c) p_prime p_odd (-3) (c_B c) disc P (fst q) (snd q).

Theorem C75_params : Forall good_params [P224; P256; P384; P521; SM2P256V1].
Proof.
  assert (ND : forall c z, (z mod c_P c =? 0) = false -> c_P c <> 0 -> ~ (c_P c | z)).
  { intros c z H N D. apply Z.mod_divide in D; [|exact N]. apply Z.eqb_neq in H. contradiction. }
  assert (GP : forall c, prime (c_P c) -> 2 < c_P c -> ((4 * (-3) ^ 3 + 27 * c_B c ^ 2) mod c_P c =? 0) = false -> (c_B c mod c_P c =? 0) = false -> good_params c).
  { intros c H1 H2 H3 H4. split; [exact H1|]. split; [exact H2|]. split; apply ND; assumption || lia. }
  apply Forall_cons; [apply GP; [exact prime_c_P_P224|reflexivity|vm_compute; reflexivity|vm_compute; reflexivity]|].
  apply Forall_cons; [apply GP; [exact prime_c_P_P256|reflexivity|vm_compute; reflexivity|vm_compute; reflexivity]|].
  apply Forall_cons; [apply GP; [exact prime_c_P_P384|reflexivity|vm_compute; reflexivity|vm_compute; reflexivity]|].
  apply Forall_cons; [apply GP; [exact prime_c_P_P521|reflexivity|vm_compute; reflexivity|vm_compute; reflexivity]|].
  apply Forall_cons; [apply GP; [exact prime_c_P_SM2P256V1|reflexivity|vm_compute; reflexivity|vm_compute; reflexivity]|].
  apply Forall_nil.
Qed.

Section Law.
Variable c : curve.
Hypothesis p_prime : prime (c_P c).
Hypothesis p_odd : 2 < c_P c.
Hypothesis disc : ~ (c_P c | 4 * (-3) ^ 3 + 27 * c_B c ^ 2).
Notation shows := (shows c p_prime p_odd disc).
Notation coords := (acoords (c_P c) p_prime p_odd (-3) (c_B c) disc).
Notation point := (pt (curve_group (c_P c) p_prime p_odd (-3) (c_B c) disc)).

(** IsOnCurve: the equation modulo the prime, that is, the pair shows a point other than infinity *)
Theorem C75_on_curve : forall x y, IsOnCurve c (x, y) = true <-> (c_P c | y * y - (x * x * x - 3 * x + c_B c)).
Proof. exact (on_curve_iff c p_odd). Qed.
Theorem C75_on_curve_point : ~ (c_P c | c_B c) -> forall x y, IsOnCurve c (x, y) = true <-> exists P, P <> gO /\ shows (x, y) P.
Proof.
  intros NB x y. rewrite (on_curve_at c p_prime p_odd disc). split.
  - intros [P A]. exists P. split; [exact (at_not_O _ _ _ _ _ _ _ _ _ A)|right; exact A].
  - intros (P & N & [[C _]|A]); [contradiction|exists P; exact A].
Qed.
(** Add and Double: complete, including infinity, equal and opposite points; the result is reduced *)
Theorem C75_add : ~ (c_P c | c_B c) -> forall q1 q2 P Q, shows q1 P -> shows q2 Q -> Add c q1 q2 = coords (gadd P Q).
Proof. exact (Add_ok c p_prime p_odd disc). Qed.
Theorem C75_double : ~ (c_P c | c_B c) -> forall q P, shows q P -> Double c q = coords (gadd P P).
Proof. exact (Double_ok c p_prime p_odd disc). Qed.
(** ScalarMult: for every byte string as the scalar, of any length, and every point on the curve *)
Theorem C75_scalar_mult : forall x y (B : point) k, at_ (c_P c) p_prime p_odd (-3) (c_B c) disc B x y -> wf_bytes k ->
  ScalarMult c (x, y) k = coords (gmul (be2z k) B).
Proof. exact (ScalarMult_ok c p_prime p_odd disc). Qed.
Theorem C75_scalar_base_mult : forall k (G : point), at_ (c_P c) p_prime p_odd (-3) (c_B c) disc G (c_Gx c) (c_Gy c) -> wf_bytes k ->
  ScalarBaseMult c k = coords (gmul (be2z k) G).
Proof. intros k G A W. exact (ScalarMult_ok c p_prime p_odd disc _ _ G k A W). Qed.
(** what the pairs of the results show *)
Theorem C75_coords_show : ~ (c_P c | c_B c) -> forall P : point, shows (coords P) P /\ (forall q Q, shows q P -> shows q Q -> P = Q).
Proof.
  intros NB P. split; [exact (stands_aco c p_prime p_odd disc P)|]. intros q Q [[-> ->]|A] [[-> E]|B].
  - reflexivity.
  - exfalso. exact (origin c p_prime p_odd disc NB Q B).
  - exfalso. rewrite E in A. exact (origin c p_prime p_odd disc NB P A).
  - exact (at_inj _ _ _ _ _ _ _ _ _ _ A B).
Qed.
End Law.

(** ** Points that are not on the curve: b is not used, so the methods compute on the curve
    y^2 = x^3 - 3x + b' through the point (the invalid-curve situation) *)
Definition with_b (c : curve) (b : Z) : curve :=
  {| c_name := c_name c; c_bits := c_bits c; c_P := c_P c; c_N := c_N c; c_B := b; c_Gx := c_Gx c; c_Gy := c_Gy c |}.
Lemma same_prime : forall c c' q k, c_P c = c_P c' -> ScalarMult c q k = ScalarMult c' q k.
Proof.
  intros c c' q k E. unfold ScalarMult, byte_step, bit_step, addJacobian, doubleJacobian, affineFromJacobian, ModInverse, lift. rewrite E. reflexivity.
Qed.
Theorem C75_off_curve : forall c x y k, prime (c_P c) -> 2 < c_P c -> wf_bytes k ->
  let b := y * y - (x * x * x - 3 * x) in
  ScalarMult c (x, y) k = ScalarMult (with_b c b) (x, y) k /\ IsOnCurve (with_b c b) (x, y) = true /\
  forall (p_prime : prime (c_P c)) (p_odd : 2 < c_P c) (disc : ~ (c_P c | 4 * (-3) ^ 3 + 27 * b ^ 2)), 
    exists B, at_ (c_P c) p_prime p_odd (-3) b disc B x y /\
      ScalarMult c (x, y) k = acoords (c_P c) p_prime p_odd (-3) b disc (gmul (be2z k) B).
Proof.
  intros c x y k Hp Ho W b. assert (S : ScalarMult c (x, y) k = ScalarMult (with_b c b) (x, y) k) by (apply same_prime; reflexivity).
  split; [exact S|]. split.
  - apply (on_curve_iff (with_b c b) Ho). unfold with_b, b. cbn [c_P c_B].
    replace (y * y - (x * x * x - 3 * x + (y * y - (x * x * x - 3 * x)))) with 0 by ring. apply Z.divide_0_r.
  - intros pp po dd. destruct (at_make (c_P c) pp po (-3) b dd x y) as [B A].
    { unfold b. replace (y * y - (x * x * x + -3 * x + (y * y - (x * x * x - 3 * x)))) with 0 by ring. apply Z.divide_0_r. }
    exists B. split; [exact A|]. rewrite S. exact (ScalarMult_ok (with_b c b) pp po dd x y B k A W).
Qed.

(** ** Examples *)
(** on each of the curves: the base point is on it, G - G and G + 0 with unreduced coordinates *)
Definition sane (c : curve) : bool :=
  IsOnCurve c (c_Gx c, c_Gy c) && negb (IsOnCurve c (0, 0)) &&
  (fst (Add c (c_Gx c, c_Gy c) (c_Gx c, - c_Gy c)) =? 0) && (snd (Add c (c_Gx c, c_Gy c) (c_Gx c, - c_Gy c)) =? 0) &&
  (fst (Add c (c_Gx c + c_P c, c_Gy c - c_P c) (0, 0)) =? c_Gx c) && (snd (ScalarBaseMult c [0; 1]) =? c_Gy c).
Example C75_example : forallb sane [P224; P256; P384; P521; SM2P256V1] = true.
Proof. vm_compute. reflexivity. Qed.
Example C75_example_on : at_ (c_P SM2P256V1) prime_c_P_SM2P256V1 sm2_odd (-3) (c_B SM2P256V1) sm2_disc sm2_G (c_Gx SM2P256V1) (c_Gy SM2P256V1).
Proof. exact sm2_G_at. Qed.
(** a curve with 31 points over the integers modulo 23: multiples of the base point, their sums and doubles *)
Definition toy_curve : curve := {| c_name := "toy"; c_P := 23; c_N := 31; c_B := 8; c_Gx := 0; c_Gy := 10; c_bits := 5 |}.
Example C75_example_toy_params : good_params toy_curve.
Proof.
  split.
  - apply prime_intro; [cbn; lia|]. cbn [c_P toy_curve]. intros n Hn.
    assert (D : forallb (fun n => Z.gcd n 23 =? 1) (map Z.of_nat (seq 1 22)) = true) by (vm_compute; reflexivity).
    rewrite forallb_forall in D. apply Zgcd_1_rel_prime. apply Z.eqb_eq. apply D. apply in_map_iff. exists (Z.to_nat n). split; [lia|]. apply in_seq. lia.
  - split; [reflexivity|]. split; intros D; (apply Z.mod_divide in D; [|discriminate]); vm_compute in D; discriminate D.
Qed.
Definition pair_eqb (p q : Z * Z) : bool := (fst p =? fst q) && (snd p =? snd q).
Example C75_example_toy :
  map (fun k => ScalarBaseMult toy_curve [k]) [1; 2; 3; 30; 31; 32] = [(0, 10); (1, 12); (3, 7); (0, 13); (0, 0); (0, 10)] /\
  forallb (fun j => forallb (fun k => pair_eqb (Add toy_curve (ScalarBaseMult toy_curve [j]) (ScalarBaseMult toy_curve [k]))
    (ScalarBaseMult toy_curve [j + k])) [0; 1; 2; 15; 30; 31]) [0; 1; 2; 16; 29; 30] = true.
Proof. vm_compute. auto. Qed.
(** the point (3, 1) is not on that curve; twice it is computed on the curve with b' = -17 *)
Example C75_example_off : IsOnCurve toy_curve (3, 1) = false /\ IsOnCurve (with_b toy_curve (-17)) (3, 1) = true /\
  ScalarMult toy_curve (3, 1) [2] = (0, 12) /\ IsOnCurve toy_curve (0, 12) = false /\ IsOnCurve (with_b toy_curve (-17)) (0, 12) = true.
Proof. vm_compute. auto. Qed.

Print Assumptions C75_params.
Print Assumptions C75_on_curve.
Print Assumptions C75_on_curve_point.
Print Assumptions C75_add.
Print Assumptions C75_double.
Print Assumptions C75_scalar_mult.
Print Assumptions C75_scalar_base_mult.
Print Assumptions C75_coords_show.
Print Assumptions C75_off_curve.
