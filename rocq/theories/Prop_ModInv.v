(** * Prop_ModInv: property C93, the inverses that math/big computes where the code (and the packages it calls) needs them *)
From Coq Require Import ZArith Znumtheory Zpow_facts String List Bool Lia.
From Verif Require Import Base BaseFacts Curves ECKey NumTheory Primes1 Primes2 Primes3 LucasFacts Elliptic EllipticFacts ECDSA SM2Generic Btcec ModInv.
Import ListNotations.
Open Scope Z_scope.

(** what the documentation of GCD says: the greatest common divisor d of a and b, and x with d = a x + b y for some y, and 0 and 0
    if a or b is not positive.  That x is not larger than b is not in the documentation; C93_euclid proves it for Euclid's algorithm. *)
Definition documented (gcd : Z -> Z -> Z * Z) : Prop := forall a b,
  (0 < a -> 0 < b -> fst (gcd a b) = Z.gcd a b /\ (exists y, a * snd (gcd a b) + b * y = Z.gcd a b) /\ Z.abs (snd (gcd a b)) <= b) /\
  (a <= 0 \/ b <= 0 -> gcd a b = (0, 0)).

(** ** Euclid's algorithm does what the documentation says *)
Lemma euclid_ok : forall a b, 0 < b -> forall fuel A B Ua Ub, 0 <= B -> 0 < A -> (Z.to_nat B < fuel)%nat -> Z.gcd A B = Z.gcd a b ->
  (exists y, a * Ua + b * y = A) -> (exists y, a * Ub + b * y = B) ->
  (0 <= Ua /\ Ub <= 0 \/ Ua <= 0 /\ 0 <= Ub) -> Z.abs Ua * B + Z.abs Ub * A = b -> Z.abs Ua <= b ->
  exists x, euclid fuel A B Ua Ub = Val (Z.gcd a b, x) /\ (exists y, a * x + b * y = Z.gcd a b) /\ Z.abs x <= b.
Proof.
  intros a b Hb. induction fuel as [|fuel IH]; intros A B Ua Ub HB HA F G (ya & Ea) (yb & Eb) Sg Eq Bd; [lia|]. cbn [euclid].
  destruct (Z.eqb_spec B 0) as [-> | NB].
  - rewrite Z.gcd_0_r, Z.abs_eq in G by lia. subst A. exists Ua. split; [reflexivity|]. split; [exists ya; lia|exact Bd].
  - assert (D := Z.div_mod A B NB). assert (M := Z.mod_pos_bound A B ltac:(lia)).
    assert (Q : 0 <= A / B) by (apply Z.div_pos; lia). set (q := A / B) in *. set (m := A mod B) in *.
    assert (GM : Z.gcd B m = Z.gcd A B) by (unfold m; rewrite (Z.gcd_comm B), Z.gcd_mod by lia; apply Z.gcd_comm).
    clearbody q m.
    assert (AB : Z.abs (Ua - q * Ub) = Z.abs Ua + q * Z.abs Ub).
    { destruct Sg as [[S1 S2]|[S1 S2]].
      - assert (q * Ub <= 0) by (apply Z.mul_nonneg_nonpos; lia). rewrite (Z.abs_eq Ua), (Z.abs_neq Ub), Z.abs_eq by lia. ring.
      - assert (0 <= q * Ub) by (apply Z.mul_nonneg_nonneg; lia). rewrite (Z.abs_neq Ua), (Z.abs_eq Ub), Z.abs_neq by lia. ring. }
    assert (NU : 0 <= Z.abs Ua * B) by (apply Z.mul_nonneg_nonneg; lia).
    apply IH.
    + lia.
    + lia.
    + lia.
    + rewrite GM. exact G.
    + exists yb. exact Eb.
    + exists (ya - q * yb). replace m with (A - B * q) by lia. rewrite <- Ea, <- Eb. ring.
    + destruct Sg as [[S1 S2]|[S1 S2]]; [right|left]; (split; [assumption|]).
      * assert (q * Ub <= 0) by (apply Z.mul_nonneg_nonpos; lia). lia.
      * assert (0 <= q * Ub) by (apply Z.mul_nonneg_nonneg; lia). lia.
    + rewrite AB. rewrite <- Eq. replace A with (B * q + m) by lia. ring.
    + assert (Z.abs Ub * 1 <= Z.abs Ub * A) by (apply Z.mul_le_mono_nonneg_l; lia). lia.
Qed.
(** with more steps than the smaller number there is a result *)
Theorem C93_euclid : forall a b fuel, (Z.to_nat (Z.min a b) < fuel)%nat -> exists d x, GCD fuel a b = Val (d, x) /\
  (0 < a -> 0 < b -> d = Z.gcd a b /\ (exists y, a * x + b * y = d) /\ Z.abs x <= b) /\ (a <= 0 \/ b <= 0 -> (d, x) = (0, 0)).
Proof.
  intros a b fuel F. unfold GCD. destruct (Z.leb_spec a 0) as [A|A].
  { exists 0, 0. cbn [orb]. split; [reflexivity|]. split; [lia|reflexivity]. }
  destruct (Z.leb_spec b 0) as [B|B].
  { exists 0, 0. cbn [orb]. split; [reflexivity|]. split; [lia|reflexivity]. }
  cbn [orb]. destruct (Z.ltb_spec a b) as [L|L].
  - destruct (euclid_ok a b B fuel b a 0 1) as (x & E & Y & X); try lia; [apply Z.gcd_comm|exists 1; lia|exists 0; lia|].
    exists (Z.gcd a b), x. split; [exact E|]. split; [intros _ _; auto|lia].
  - destruct (euclid_ok a b B fuel a b 1 0) as (x & E & Y & X); try lia; [exists 0; lia|exists 1; lia|].
    exists (Z.gcd a b), x. split; [exact E|]. split; [intros _ _; auto|lia].
Qed.
(** so there is a function as documented, the one that Euclid's algorithm computes *)
Definition euclid_gcd (a b : Z) : Z * Z := match GCD (S (Z.to_nat (Z.min a b))) a b with Val r => r | _ => (0, 0) end.
Theorem C93_documented : documented euclid_gcd.
Proof.
  intros a b. unfold euclid_gcd. destruct (C93_euclid a b (S (Z.to_nat (Z.min a b))) ltac:(lia)) as (d & x & E & P & N). rewrite E. cbn [fst snd].
  split; [|exact N]. intros A B. destruct (P A B) as (-> & Y & X). auto.
Qed.

(** ** ModInverse *)
Section Any.
Variable gcd : Z -> Z -> Z * Z.
Hypothesis doc : documented gcd.
Notation inverse := (big_ModInverse gcd).
Lemma unique_inverse : forall n g i j, 1 < n -> 0 <= i < n -> 0 <= j < n -> (i * g) mod n = 1 -> (j * g) mod n = 1 -> i = j.
Proof.
  intros n g i j Hn Hi Hj Ei Ej. rewrite <- (Z.mod_small i n), <- (Z.mod_small j n) by lia.
  replace i with (i * 1) by lia. rewrite <- Ej. rewrite Z.mul_mod_idemp_r by lia. replace (i * (j * g)) with (j * (i * g)) by ring.
  rewrite <- Z.mul_mod_idemp_r, Ei by lia. f_equal. lia.
Qed.
Lemma inverse_pos : forall g n, 1 < n -> 0 <= g ->
  (Z.gcd g n = 1 -> exists i, inverse g n = Some i /\ 0 <= i < n /\ (i * g) mod n = 1) /\ (Z.gcd g n <> 1 -> inverse g n = None).
Proof.
  intros g n Hn Hg. unfold big_ModInverse. destruct (Z.ltb_spec n 0) as [|_]; [lia|]. destruct (Z.ltb_spec g 0) as [|_]; [lia|].
  destruct (doc g n) as [P N]. destruct (Z.eq_dec g 0) as [-> | G0].
  - rewrite N by (left; lia). cbn [negb Z.eqb]. split; [|reflexivity]. rewrite Z.gcd_0_l, Z.abs_eq by lia. lia.
  - destruct (P ltac:(lia) ltac:(lia)) as (E & (y & Y) & X). destruct (gcd g n) as [d x]. cbn [fst snd] in *. subst d.
    split; [|intros H; destruct (Z.eqb_spec (Z.gcd g n) 1); [contradiction|reflexivity]].
    intros H. rewrite H in *. cbn [negb Z.eqb].
    assert (M1 : forall k, ((x + k * n) * g) mod n = 1).
    { intros k. replace ((x + k * n) * g) with (1 + (k * g - y) * n) by lia. rewrite Z.mod_add by lia. apply Z.mod_small. lia. }
    eexists. split; [reflexivity|]. destruct (Z.ltb_spec x 0) as [L|L].
    + split; [|specialize (M1 1); rewrite Z.mul_1_l in M1; exact M1]. lia.
    + split; [|specialize (M1 0); rewrite Z.mul_0_l, Z.add_0_r in M1; exact M1].
      destruct (Z.eq_dec x n) as [-> |]; [|lia]. specialize (M1 0). rewrite Z.mul_0_l, Z.add_0_r, Z.mul_comm, Z.mod_mul in M1 by lia. lia.
Qed.
(** for every modulus and number: an inverse, in the range, exactly for the numbers prime to the modulus *)
Theorem C93_inverse : forall g n, 1 < n -> forall o, inverse g n = o <->
  match o with Some i => 0 <= i < n /\ (i * g) mod n = 1 | None => Z.gcd g n <> 1 end.
Proof.
  intros g n Hn. assert (R : inverse g n = inverse (if g <? 0 then g mod n else g) n).
  { unfold big_ModInverse. destruct (Z.ltb_spec n 0); [lia|]. destruct (Z.ltb_spec g 0) as [L|L].
    - assert (B := Z.mod_pos_bound g n ltac:(lia)). destruct (Z.ltb_spec (g mod n) 0); [lia|reflexivity].
    - destruct (Z.ltb_spec g 0); [lia|reflexivity]. }
  assert (H : forall g', 0 <= g' -> Z.gcd g' n = Z.gcd g n -> (forall i, (i * g') mod n = (i * g) mod n) -> inverse g n = inverse g' n -> forall o, inverse g n = o <->
    match o with Some i => 0 <= i < n /\ (i * g) mod n = 1 | None => Z.gcd g n <> 1 end).
  { intros g' P G M E o. rewrite E. destruct (inverse_pos g' n Hn P) as [I1 I2]. rewrite G in *. destruct (Z.eq_dec (Z.gcd g n) 1) as [G1|G1].
    - destruct (I1 G1) as (i & Ei & Ri & Mi). rewrite Ei. rewrite M in Mi. destruct o as [j|]; split.
      + intros C. injection C as <-. auto.
      + intros [Rj Mj]. f_equal. exact (unique_inverse n g i j Hn Ri Rj Mi Mj).
      + discriminate.
      + contradiction.
    - rewrite (I2 G1). destruct o as [j|]; split; try discriminate; try reflexivity; [|intros _; exact G1].
      intros [_ Mj]. exfalso. apply G1. apply Zgcd_1_rel_prime. assert (D := Z.div_mod (j * g) n ltac:(lia)). rewrite Mj in D.
      apply bezout_rel_prime. apply Bezout_intro with j (- (j * g / n)). lia. }
  destruct (Z.ltb_spec g 0) as [L|L].
  - apply (H (g mod n)); [apply Z.mod_pos_bound; lia|rewrite Z.gcd_mod by lia; apply Z.gcd_comm|intros i; apply Z.mul_mod_idemp_r; lia|exact R].
  - apply (H g); [exact L|reflexivity|reflexivity|reflexivity].
Qed.
(** modulo a prime it is the power that the models have in its place *)
Lemma power_inverse : forall n g, prime n -> g mod n <> 0 -> 0 <= g ^ (n - 2) mod n < n /\ (g ^ (n - 2) mod n * g) mod n = 1.
Proof.
  intros n g P H. pose proof (prime_ge_2 _ P). split; [apply Z.mod_pos_bound; lia|]. rewrite Z.mul_mod_idemp_l by lia.
  replace (g ^ (n - 2) * g) with (g ^ (n - 1)); [|replace (n - 1) with (Z.succ (n - 2)) by lia; rewrite Z.pow_succ_r by lia; apply Z.mul_comm].
  apply fermat_unit; [exact P|]. intros C. apply H. apply Z.mod_divide; [lia|exact C].
Qed.
Lemma prime_gcd : forall n g, prime n -> Z.gcd g n <> 1 <-> g mod n = 0.
Proof.
  intros n g P. pose proof (prime_ge_2 _ P). split.
  - intros H0. destruct (Z.eq_dec (g mod n) 0) as [|D]; [assumption|]. exfalso. apply H0. apply Zgcd_1_rel_prime. apply rel_prime_sym. apply prime_rel_prime; [exact P|].
    intros C. apply D. apply Z.mod_divide; [lia|exact C].
  - intros H0 C. apply Z.mod_divide in H0; [|lia]. assert (D : (n | Z.gcd g n)) by (apply Z.gcd_greatest; [exact H0|apply Z.divide_refl]).
    rewrite C in D. apply Z.divide_1_r_nonneg in D; lia.
Qed.
Theorem C93_power : forall g n, prime n -> inverse g n = if g mod n =? 0 then None else Some (g ^ (n - 2) mod n).
Proof.
  intros g n P. pose proof (prime_ge_2 _ P). apply C93_inverse; [lia|]. destruct (Z.eqb_spec (g mod n) 0) as [E|E].
  - apply prime_gcd; assumption.
  - apply power_inverse; assumption.
Qed.
(** btcec *)
Theorem C93_btcec : forall g n, prime n -> inverse g n = Btcec.ModInverse g n.
Proof.
  intros g n P. pose proof (prime_ge_2 _ P). rewrite C93_power by exact P. unfold Btcec.ModInverse. destruct (g mod n =? 0); [reflexivity|].
  rewrite powm_spec by lia. rewrite Zpower_mod by lia. reflexivity.
Qed.
(** crypto/elliptic: a Jacobian point with reduced z goes to the affine point of the model, without a panic *)
Theorem C93_affine : forall c x y z, prime (c_P c) -> 0 <= z < c_P c -> affineM gcd c (x, y, z) = Val (affineFromJacobian c (x, y, z)).
Proof.
  intros c x y z P Z. pose proof (prime_ge_2 _ P). unfold affineM, affineFromJacobian. destruct (Z.eqb_spec z 0) as [|N]; [reflexivity|].
  rewrite C93_power by exact P. rewrite (Z.mod_small z) by lia. destruct (Z.eqb_spec z 0); [contradiction|]. cbn [deref bind]. unfold Elliptic.ModInverse.
  rewrite Zpow_mod_correct by lia. reflexivity.
Qed.
(** and with a multiple of the prime that is not 0 it panics *)
Theorem C93_affine_panics : forall c x y z, prime (c_P c) -> z <> 0 -> z mod c_P c = 0 -> affineM gcd c (x, y, z) = Panic "nil pointer dereference".
Proof.
  intros c x y z P N M. unfold affineM. destruct (Z.eqb_spec z 0) as [|_]; [contradiction|]. rewrite C93_power by exact P. rewrite M. reflexivity.
Qed.
Lemma z_affine : forall c x y, prime (c_P c) -> 0 <= zForAffine x y < c_P c.
Proof. intros c x y P. pose proof (prime_ge_2 _ P). unfold zForAffine. destruct (_ || _); lia. Qed.
Lemma z_double : forall c q, prime (c_P c) -> 0 <= snd (doubleJacobian c q) < c_P c.
Proof. intros c [[x y] z] P. pose proof (prime_ge_2 _ P). unfold doubleJacobian. cbv zeta. cbn [snd]. apply Z.mod_pos_bound. lia. Qed.
Lemma z_add : forall c q1 q2, prime (c_P c) -> 0 <= snd q1 < c_P c -> 0 <= snd q2 < c_P c -> 0 <= snd (addJacobian c q1 q2) < c_P c.
Proof.
  intros c [[x1 y1] z1] [[x2 y2] z2] P B1 B2. pose proof (prime_ge_2 _ P). unfold addJacobian. cbv zeta.
  destruct (z1 =? 0); [exact B2|]. destruct (z2 =? 0); [exact B1|].
  match goal with |- context [if ?t then doubleJacobian _ _ else _] => destruct t end; [apply z_double; exact P|]. cbn [snd]. apply Z.mod_pos_bound. lia.
Qed.
Lemma affine_any : forall c q, prime (c_P c) -> 0 <= snd q < c_P c -> affineM gcd c q = Val (affineFromJacobian c q).
Proof. intros c [[x y] z] P B. apply C93_affine; assumption. Qed.
(** the methods of CurveParams, for all coordinates, on the curve or not: the results of the model, and no panic *)
Theorem C93_methods : forall c, prime (c_P c) ->
  (forall p q, AddM gcd c p q = Val (Add c p q)) /\ (forall p, DoubleM gcd c p = Val (Double c p)) /\
  (forall b k, ScalarMultM gcd c b k = Val (ScalarMult c b k)) /\ (forall k, ScalarBaseMultM gcd c k = Val (ScalarBaseMult c k)).
Proof.
  intros c P. pose proof (prime_ge_2 _ P).
  assert (SM : forall b k, ScalarMultM gcd c b k = Val (ScalarMult c b k)).
  { intros b k. apply affine_any; [exact P|].
    assert (S0 : 0 <= snd (0, 0, 0) < c_P c) by (cbn [snd]; lia). revert S0. generalize (0, 0, 0). induction k as [|a k IH]; intros q B; [exact B|]. cbn [fold_left].
    apply IH. unfold byte_step. revert q B. generalize [7; 6; 5; 4; 3; 2; 1; 0]. intros l. induction l as [|i l IHl]; intros q B; [exact B|]. cbn [fold_left]. apply IHl.
    unfold bit_step. destruct (Z.testbit a i); [|apply z_double; exact P]. apply z_add; [exact P|cbn [snd]; lia|apply z_double; exact P]. }
  split; [|split; [|split]].
  - intros p q. apply affine_any; [exact P|]. apply z_add; [exact P| |]; apply z_affine; exact P.
  - intros p. apply affine_any; [exact P|]. apply z_double. exact P.
  - exact SM.
  - intros k. apply SM.
Qed.
(** crypto/ecdsa: Verify *)
Theorem C93_verify : forall comb pub hash r s, prime (c_N (pk_curve pub)) -> VerifyM gcd comb pub hash r s = Verify ECDSA.fermat comb pub hash r s.
Proof.
  intros comb pub hash r s P. pose proof (prime_ge_2 _ P). unfold VerifyM, Verify. destruct (Z.leb_spec r 0) as [|R]; [reflexivity|]. destruct (Z.leb_spec s 0) as [|S]; [reflexivity|].
  cbn [orb]. rewrite !Z.geb_leb. destruct (Z.leb_spec (c_N (pk_curve pub)) r) as [|R']; [reflexivity|]. destruct (Z.leb_spec (c_N (pk_curve pub)) s) as [|S']; [reflexivity|].
  cbn [orb]. destruct (hashToInt hash (pk_curve pub)) as [e| |]; try reflexivity. cbn [bind].
  rewrite C93_power by exact P. rewrite (Z.mod_small s) by lia. destruct (Z.eqb_spec s 0); [lia|]. cbn [deref bind]. unfold ECDSA.fermat, fermatInverse.
  rewrite powm_spec by lia. reflexivity.
Qed.
End Any.
Print Assumptions C93_euclid.
Print Assumptions C93_documented.
Print Assumptions C93_inverse.
Print Assumptions C93_power.
Print Assumptions C93_btcec.
Print Assumptions C93_affine.
Print Assumptions C93_affine_panics.
Print Assumptions C93_methods.
Print Assumptions C93_verify.

(** ** Examples *)
Example C93_small : GCD 20 240 46 = Val (2, -9) /\ GCD 20 46 240 = Val (2, 47) /\ GCD 20 0 5 = Val (0, 0).
Proof. repeat split; vm_compute; reflexivity. Qed.
Example C93_modulus : big_ModInverse euclid_gcd 7 40 = Some 23 /\ big_ModInverse euclid_gcd (-3) 10 = Some 3 /\ big_ModInverse euclid_gcd 6 40 = None /\
  big_ModInverse euclid_gcd 0 7 = None /\ big_ModInverse euclid_gcd 13 (-7) = Some 6.
Proof. repeat split; vm_compute; reflexivity. Qed.
Example C93_curve : prime (c_N S256) /\ (forall g, big_ModInverse euclid_gcd g (c_N S256) = Btcec.ModInverse g (c_N S256)) /\
  (forall comb x y hash r s, VerifyM euclid_gcd comb {| pk_curve := S256; pk_X := x; pk_Y := y |} hash r s = Verify ECDSA.fermat comb {| pk_curve := S256; pk_X := x; pk_Y := y |} hash r s).
Proof.
  assert (P : prime (c_N S256)) by exact prime_c_N_S256. split; [exact P|]. split.
  - intros g. exact (C93_btcec euclid_gcd C93_documented g _ P).
  - intros comb x y hash r s. exact (C93_verify euclid_gcd C93_documented comb {| pk_curve := S256; pk_X := x; pk_Y := y |} hash r s P).
Qed.
Example C93_sm2 : (forall p q, AddM euclid_gcd SM2P256V1 p q = Val (Add SM2P256V1 p q)) /\
  affineM euclid_gcd {| c_name := ""; c_bits := 3; c_P := 7; c_N := 5; c_B := 3; c_Gx := 0; c_Gy := 0 |} (3, 4, 2) = Val (6, 4) /\
  affineM euclid_gcd {| c_name := ""; c_bits := 3; c_P := 7; c_N := 5; c_B := 3; c_Gx := 0; c_Gy := 0 |} (3, 4, 14) = Panic "nil pointer dereference".
Proof.
  split; [exact (proj1 (C93_methods euclid_gcd C93_documented SM2P256V1 prime_c_P_SM2P256V1))|]. split; vm_compute; reflexivity.
Qed.
