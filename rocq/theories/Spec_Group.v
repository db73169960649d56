(** * Spec_Group: abelian groups and integer multiples of their elements *)
From Coq Require Import ZArith Znumtheory List Lia.
Open Scope Z_scope.

(** An abelian group; the carrier is a type and equality is Leibniz equality. *)
Record cgroup := mkGroup {
  pt : Type;
  gO : pt;
  gadd : pt -> pt -> pt;
  gneg : pt -> pt;
  gadd_assoc : forall a b c, gadd a (gadd b c) = gadd (gadd a b) c;
  gadd_comm : forall a b, gadd a b = gadd b a;
  gadd_O : forall a, gadd a gO = a;
  gadd_neg : forall a, gadd a (gneg a) = gO
}.
Arguments gO {_}. Arguments gadd {_} _ _. Arguments gneg {_} _.

(** [nmul n a] is a + ... + a (n times), [gmul z a] the same for integers. *)
Fixpoint nmul {G : cgroup} (n : nat) (a : pt G) : pt G :=
  match n with O => gO | S n' => gadd a (nmul n' a) end.
Definition gmul {G : cgroup} (z : Z) (a : pt G) : pt G :=
  if z <? 0 then gneg (nmul (Z.to_nat (- z)) a) else nmul (Z.to_nat z) a.

Section Group.
Variable G : cgroup.
Implicit Types a b c : pt G.
Notation "a ⊕ b" := (gadd a b) (at level 50, left associativity).

Lemma gO_add : forall a, gO ⊕ a = a.
Proof. intros. rewrite gadd_comm. apply gadd_O. Qed.
Lemma gcancel_l : forall a b c, a ⊕ b = a ⊕ c -> b = c.
Proof.
  intros a b c E. apply (f_equal (gadd (gneg a))) in E. rewrite !gadd_assoc in E.
  rewrite (gadd_comm _ (gneg a)), gadd_neg, !gO_add in E. exact E.
Qed.
Lemma gneg_unique : forall a b, a ⊕ b = gO -> b = gneg a.
Proof. intros a b E. apply (gcancel_l a). rewrite E, gadd_neg. reflexivity. Qed.
Lemma gneg_neg : forall a, gneg (gneg a) = a.
Proof. intros. symmetry. apply gneg_unique. rewrite gadd_comm. apply gadd_neg. Qed.
Lemma gneg_O : gneg (gO : pt G) = gO.
Proof. symmetry. apply gneg_unique. apply gadd_O. Qed.
Lemma gadd4 : forall a b c d : pt G, (a ⊕ b) ⊕ (c ⊕ d) = (a ⊕ c) ⊕ (b ⊕ d).
Proof.
  intros. rewrite <- !gadd_assoc. f_equal. rewrite !gadd_assoc. f_equal. apply gadd_comm.
Qed.
Lemma gneg_add : forall a b, gneg (a ⊕ b) = gneg a ⊕ gneg b.
Proof. intros. symmetry. apply gneg_unique. rewrite gadd4, !gadd_neg. apply gadd_O. Qed.
Lemma gsub_eq : forall a b, a ⊕ gneg b = gO -> a = b.
Proof.
  intros a b E. rewrite <- (gneg_neg a). rewrite <- (gneg_neg b). f_equal. symmetry.
  apply gneg_unique. exact E.
Qed.

Lemma nmul_add : forall n m a, nmul (n + m) a = nmul n a ⊕ nmul m a.
Proof.
  induction n; intros; cbn [nmul Nat.add]; [symmetry; apply gO_add|].
  rewrite IHn. apply gadd_assoc.
Qed.
Lemma gmul_nat : forall n a, gmul (Z.of_nat n) a = nmul n a.
Proof. intros. unfold gmul. destruct (Z.ltb_spec (Z.of_nat n) 0); [lia|]. rewrite Nat2Z.id. reflexivity. Qed.
Lemma gmul_0 : forall a, gmul 0 a = gO.
Proof. reflexivity. Qed.
Lemma gmul_1 : forall a, gmul 1 a = a.
Proof. intros. cbn. apply gadd_O. Qed.
Lemma gmul_opp : forall z a, gmul (- z) a = gneg (gmul z a).
Proof.
  intros. unfold gmul. destruct (Z.ltb_spec (- z) 0), (Z.ltb_spec z 0); try lia.
  - rewrite Z.opp_involutive. reflexivity.
  - rewrite gneg_neg. reflexivity.
  - assert (z = 0) as -> by lia. cbn. symmetry. apply gneg_O.
Qed.
Lemma gmul_add_nonneg : forall x y a, 0 <= x -> 0 <= y -> gmul (x + y) a = gmul x a ⊕ gmul y a.
Proof.
  intros x y a Hx Hy. rewrite <- (Z2Nat.id x), <- (Z2Nat.id y) by assumption.
  rewrite <- Nat2Z.inj_add, !gmul_nat. apply nmul_add.
Qed.
Lemma gmul_sub_nonneg : forall x y a, 0 <= x -> 0 <= y -> gmul (x - y) a = gmul x a ⊕ gneg (gmul y a).
Proof.
  intros x y a Hx Hy. destruct (Z_le_dec y x) as [L|L].
  - replace (gmul x a) with (gmul (x - y) a ⊕ gmul y a)
      by (rewrite <- gmul_add_nonneg by lia; f_equal; lia).
    rewrite <- gadd_assoc, gadd_neg, gadd_O. reflexivity.
  - replace (x - y) with (- (y - x)) by lia. rewrite gmul_opp.
    replace (gmul y a) with (gmul (y - x) a ⊕ gmul x a)
      by (rewrite <- gmul_add_nonneg by lia; f_equal; lia).
    rewrite gneg_add, (gadd_comm _ (gmul x a)), <- gadd_assoc, (gadd_comm _ (gneg (gmul x a))), gadd_neg, gadd_O. reflexivity.
Qed.
Lemma gmul_add : forall x y a, gmul (x + y) a = gmul x a ⊕ gmul y a.
Proof.
  intros x y a. destruct (Z_le_dec 0 x), (Z_le_dec 0 y).
  - apply gmul_add_nonneg; lia.
  - replace (x + y) with (x - - y) by lia. rewrite gmul_sub_nonneg by lia.
    rewrite <- gmul_opp. f_equal. f_equal. lia.
  - replace (x + y) with (y - - x) by lia. rewrite gmul_sub_nonneg by lia.
    rewrite <- gmul_opp, gadd_comm. f_equal. f_equal. lia.
  - replace (x + y) with (- (- x + - y)) by lia. rewrite gmul_opp, gmul_add_nonneg by lia.
    rewrite gneg_add, <- !gmul_opp, !Z.opp_involutive. reflexivity.
Qed.
Lemma gmul_sub : forall x y a, gmul (x - y) a = gmul x a ⊕ gneg (gmul y a).
Proof. intros. replace (x - y) with (x + - y) by lia. rewrite gmul_add, gmul_opp. reflexivity. Qed.
Lemma gmul_O : forall z, gmul z (gO : pt G) = gO.
Proof.
  assert (N : forall n, nmul n (gO : pt G) = gO) by (induction n; [reflexivity|cbn; rewrite IHn; apply gadd_O]).
  intros. unfold gmul. destruct (z <? 0); rewrite N; [apply gneg_O|reflexivity].
Qed.
Lemma gmul_gadd : forall z a b, gmul z (a ⊕ b) = gmul z a ⊕ gmul z b.
Proof.
  assert (N : forall n a b, nmul n (a ⊕ b) = nmul n a ⊕ nmul n b).
  { induction n; intros; cbn [nmul]; [symmetry; apply gadd_O|]. rewrite IHn. apply gadd4. }
  intros. unfold gmul. destruct (z <? 0); rewrite N; [apply gneg_add|reflexivity].
Qed.
Lemma gmul_gneg : forall z a, gmul z (gneg a) = gneg (gmul z a).
Proof. intros. apply gneg_unique. rewrite <- gmul_gadd, gadd_neg. apply gmul_O. Qed.
Lemma gmul_mul : forall x y a, gmul (x * y) a = gmul x (gmul y a).
Proof.
  assert (N : forall n y a, gmul (Z.of_nat n * y) a = nmul n (gmul y a)).
  { induction n; intros; [reflexivity|]. rewrite Nat2Z.inj_succ. cbn [nmul].
    rewrite <- IHn, <- gmul_add. f_equal. lia. }
  assert (GN : forall x b, 0 <= x -> gmul x b = nmul (Z.to_nat x) b).
  { intros x b H. unfold gmul. destruct (Z.ltb_spec x 0); [lia|reflexivity]. }
  assert (GM : forall x b, x < 0 -> gmul x b = gneg (nmul (Z.to_nat (- x)) b)).
  { intros x b H. unfold gmul. destruct (Z.ltb_spec x 0); [reflexivity|lia]. }
  intros. destruct (Z_le_dec 0 x).
  - rewrite <- (Z2Nat.id x) at 1 by assumption. rewrite N, (GN x) by assumption. reflexivity.
  - replace (x * y) with (- (- x * y)) by lia. rewrite gmul_opp.
    rewrite <- (Z2Nat.id (- x)) at 1 by lia. rewrite N, (GM x) by lia. reflexivity.
Qed.
Lemma gmul_comm : forall x y a, gmul x (gmul y a) = gmul y (gmul x a).
Proof. intros. rewrite <- !gmul_mul. f_equal. lia. Qed.

(** elements killed by N *)
Lemma gmul_mod : forall N x a, 0 < N -> gmul N a = gO -> gmul (x mod N) a = gmul x a.
Proof.
  intros N x a HN H. rewrite (Z.div_mod x N) at 2 by lia.
  rewrite gmul_add, Z.mul_comm, gmul_mul, H, gmul_O, gO_add. reflexivity.
Qed.
Lemma gmul_cong : forall N x y a, 0 < N -> gmul N a = gO -> x mod N = y mod N -> gmul x a = gmul y a.
Proof. intros N x y a HN H E. rewrite <- (gmul_mod N x), <- (gmul_mod N y), E by assumption. reflexivity. Qed.
Lemma gmul_zero_iff : forall N x a, prime N -> gmul N a = gO -> a <> gO -> (gmul x a = gO <-> x mod N = 0).
Proof.
  intros N x a P H A. pose proof (prime_ge_2 N P). split; intros E.
  - destruct (Z.eq_dec (x mod N) 0) as [C|C]; [exact C|exfalso]. apply A.
    assert (RP : rel_prime x N).
    { apply rel_prime_sym, prime_rel_prime; [exact P|]. intros D. apply C. apply Z.mod_divide; [lia|exact D]. }
    apply rel_prime_bezout in RP. destruct RP as [u v B].
    rewrite <- (gmul_1 a), <- B, gmul_add, !gmul_mul, E, H, !gmul_O. apply gadd_O.
  - rewrite <- (gmul_mod N) by (assumption || lia). rewrite E. reflexivity.
Qed.
Lemma gmul_inj : forall N x y a, prime N -> gmul N a = gO -> a <> gO ->
  (gmul x a = gmul y a <-> x mod N = y mod N).
Proof.
  intros N x y a P H A. pose proof (prime_ge_2 N P). split; intros E.
  - assert (Z0 : gmul (x - y) a = gO) by (rewrite gmul_sub, E; apply gadd_neg).
    apply (gmul_zero_iff N _ _ P H A) in Z0.
    rewrite (Z.mod_eq x), (Z.mod_eq y) by lia.
    apply Z.mod_divide in Z0 as [q Q]; [|lia].
    assert (x = y + q * N) as -> by lia. rewrite Z.div_add by lia. lia.
  - apply (gmul_cong N); [lia|exact H|exact E].
Qed.
End Group.

(** A group with a base point of prime order N and affine coordinates, (0,0) standing for the
    neutral element. *)
Record ecgroup := mkEC {
  eg : cgroup;
  eN : Z;
  eN_prime : prime eN;
  eG : pt eg;
  eG_order : gmul eN eG = gO;
  eG_nonzero : eG <> gO;
  ecoords : pt eg -> Z * Z;
  ecoords_O : ecoords gO = (0, 0);
  ecoords_inj : forall a b, ecoords a = ecoords b -> a = b;
  ecoords_pos : forall a, 0 <= fst (ecoords a) /\ 0 <= snd (ecoords a)
}.
Arguments eG {_}. Arguments ecoords {_} _.

(** ** Example: the integers modulo 7 *)
Inductive Z7 := i0 | i1 | i2 | i3 | i4 | i5 | i6.
Definition z7_num (a : Z7) : nat :=
  match a with i0 => 0 | i1 => 1 | i2 => 2 | i3 => 3 | i4 => 4 | i5 => 5 | i6 => 6 end.
Definition z7_of (n : nat) : Z7 :=
  match Nat.modulo n 7 with 0 => i0 | 1 => i1 | 2 => i2 | 3 => i3 | 4 => i4 | 5 => i5 | _ => i6 end%nat.
Definition z7_group : cgroup.
Proof.
  refine (mkGroup Z7 i0 (fun a b => z7_of (z7_num a + z7_num b)) (fun a => z7_of (7 - z7_num a)) _ _ _ _);
    intros; repeat match goal with x : Z7 |- _ => destruct x end; reflexivity.
Defined.
Lemma prime_7 : prime 7.
Proof.
  apply prime_intro; [lia|]. intros n H. apply Zgcd_1_rel_prime.
  assert (D : n = 1 \/ n = 2 \/ n = 3 \/ n = 4 \/ n = 5 \/ n = 6) by lia.
  repeat (destruct D as [->|D]; [reflexivity|]). rewrite D. reflexivity.
Qed.
(** coordinates as on a curve: opposite elements share the first one *)
Definition z7_coords (a : Z7) : Z * Z :=
  match a with i0 => (0, 0) | i1 => (3, 1) | i2 => (5, 1) | i3 => (4, 1)
  | i4 => (4, 2) | i5 => (5, 2) | i6 => (3, 2) end.
Definition z7_ec : ecgroup.
Proof.
  refine (mkEC z7_group 7 prime_7 i1 eq_refl _ z7_coords eq_refl _ _).
  - discriminate.
  - intros [] []; cbn; intros E; first [reflexivity|discriminate E].
  - intros []; cbn; lia.
Defined.

(** ** Example: the integers modulo a prime *)
Section Zmod.
Variable N : Z.
Hypothesis N_prime : prime N.
Definition zm := { z : Z | (z mod N =? z) = true }.
Lemma zm_ok : forall z, ((z mod N) mod N =? z mod N) = true.
Proof. intros. apply Z.eqb_eq. apply Z.mod_mod. pose proof (prime_ge_2 N N_prime). lia. Qed.
Definition zm_of (z : Z) : zm := exist _ (z mod N) (zm_ok z).
Lemma zm_eq : forall a b : zm, proj1_sig a = proj1_sig b -> a = b.
Proof.
  intros [x Hx] [y Hy] E. cbn in E. subst y. f_equal. apply Eqdep_dec.UIP_dec. apply Bool.bool_dec.
Qed.
Lemma zm_range : forall a : zm, 0 <= proj1_sig a < N.
Proof.
  intros [x Hx]. cbn. apply Z.eqb_eq in Hx. rewrite <- Hx. apply Z.mod_pos_bound.
  pose proof (prime_ge_2 N N_prime). lia.
Qed.
Definition zm_group : cgroup.
Proof.
  assert (H : N <> 0) by (pose proof (prime_ge_2 N N_prime); lia).
  refine (mkGroup zm (zm_of 0) (fun a b => zm_of (proj1_sig a + proj1_sig b)) (fun a => zm_of (- proj1_sig a)) _ _ _ _);
    intros; apply zm_eq; cbn [proj1_sig zm_of].
  - rewrite Z.add_mod_idemp_r, Z.add_mod_idemp_l by exact H. f_equal. lia.
  - f_equal. lia.
  - rewrite Z.mod_0_l, Z.add_0_r by exact H. destruct a as [x Hx]. cbn [proj1_sig]. apply Z.eqb_eq. exact Hx.
  - rewrite Z.add_mod_idemp_r by exact H. f_equal. lia.
Defined.
Lemma zm_gmul : forall z x, gmul (G := zm_group) z (zm_of x) = zm_of (z * x).
Proof.
  assert (H : N <> 0) by (pose proof (prime_ge_2 N N_prime); lia).
  assert (A : forall n x, nmul (G := zm_group) n (zm_of x) = zm_of (Z.of_nat n * x)).
  { induction n; intros; [reflexivity|]. cbn [nmul]. rewrite IHn. apply zm_eq. cbn [proj1_sig zm_of gadd zm_group].
    rewrite <- Z.add_mod by exact H. f_equal. lia. }
  intros z x. unfold gmul. destruct (Z.ltb_spec z 0); rewrite A.
  - apply zm_eq. cbn [proj1_sig zm_of gneg zm_group].
    rewrite Z2Nat.id by lia. rewrite <- Z.sub_0_l. rewrite Zminus_mod_idemp_r. f_equal. lia.
  - rewrite Z2Nat.id by lia. reflexivity.
Qed.
Definition zm_coords (a : zm) : Z * Z := (Z.min (proj1_sig a) (N - proj1_sig a), proj1_sig a).
Definition zm_ec : ecgroup.
Proof.
  refine (mkEC zm_group N N_prime (zm_of 1) _ _ zm_coords _ _ _).
  - rewrite zm_gmul. apply zm_eq. cbn [proj1_sig zm_of gO zm_group]. rewrite Z.mul_1_r, Z_mod_same_full. reflexivity.
  - intros C. apply (f_equal (@proj1_sig _ _)) in C. cbn [proj1_sig zm_of gO zm_group] in C. pose proof (prime_ge_2 N N_prime).
    rewrite Z.mod_0_l, Z.mod_1_l in C by lia. discriminate.
  - unfold zm_coords. cbn [proj1_sig zm_of gO zm_group]. pose proof (prime_ge_2 N N_prime). rewrite Z.mod_0_l by lia. rewrite Z.min_l by lia. reflexivity.
  - intros a b E. apply zm_eq. unfold zm_coords in E. injection E as _ E. exact E.
  - intros a. unfold zm_coords. cbn [fst snd]. pose proof (zm_range a). lia.
Defined.
End Zmod.
