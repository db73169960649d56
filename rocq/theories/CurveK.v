(** * CurveK: curves y^2 = x^3 + b with a prime number N of points; secp256k1 is one *)
From Coq Require Import ZArith Znumtheory Zpow_facts String List Bool Lia FinFun.
From Verif Require Import Base BaseFacts Curves NumTheory Primes1 Primes3 Spec_Group CurveZ CurveSub ChainS256 CurveRoot.
Import ListNotations.
Open Scope Z_scope.

(** ** Three cosets of the multiples of G are too many points *)
Section Cosets.
Variable p : Z.
Hypothesis p_prime : prime p.
Hypothesis p_odd : 2 < p.
Variables ca cb : Z.
Hypothesis disc : ~ (p | 4 * ca ^ 3 + 27 * cb ^ 2).
Hypothesis cb_nz : ~ (p | cb).
Notation CG := (curve_group p p_prime p_odd ca cb disc).
Lemma three_cosets_of : forall N (G P Q : pt CG), prime N -> gmul N G = gO -> G <> gO -> 2 * p + 1 < 3 * N ->
  (forall k, P <> gmul k G) -> (forall k, Q <> gmul k G) -> (forall k, gadd Q (gneg P) <> gmul k G) -> False.
Proof.
  intros N G P Q PN GN GZ BIG OUT OUT2 OUT3. pose proof (prime_ge_2 N PN) as N2.
  set (ks := map Z.of_nat (seq 0 (Z.to_nat N))).
  assert (KS : forall i, In i ks -> 0 <= i < N).
  { intros i I. apply in_map_iff in I. destruct I as (n & <- & I). apply in_seq in I. lia. }
  assert (KN : NoDup ks) by (apply Injective_map_NoDup; [intros a c; apply Nat2Z.inj|apply seq_NoDup]).
  assert (INJ : forall i j, In i ks -> In j ks -> gmul i G = gmul j G -> i = j).
  { intros i j I J E. apply KS in I, J. assert (Z0 : gmul (i - j) G = gO).
    { replace (i - j) with (i + - j) by ring. rewrite gmul_add, gmul_opp, E. apply gadd_neg. }
    apply (gmul_zero_iff _ N (i - j) G PN GN GZ) in Z0. apply Z.mod_divide in Z0; [|lia]. destruct Z0 as [k Z0].
    assert (k < 1) by nia. assert (-1 < k) by nia. assert (k = 0) by lia. subst k. lia. }
  assert (CAN : forall A B C : pt CG, gadd A B = gadd A C -> B = C) by (intros A B C E; exact (gcancel_l _ A B C E)).
  assert (SUB : forall A i j, gadd A (gmul i G) = gmul j G -> A = gmul (j - i) G).
  { intros A i j E. replace (j - i) with (j + - i) by ring. rewrite gmul_add, <- E, gmul_opp, <- gadd_assoc, gadd_neg, gadd_O. reflexivity. }
  pose proof (few_points p p_prime p_odd ca cb disc cb_nz (map (fun i => gmul i G) ks ++ map (fun i => gadd P (gmul i G)) ks ++ map (fun i => gadd Q (gmul i G)) ks)) as FP.
  rewrite !app_length, !map_length in FP. unfold ks in FP at 4 5 6. rewrite map_length, seq_length in FP.
  assert (ND : Z.of_nat (Z.to_nat N + (Z.to_nat N + Z.to_nat N)) <= 2 * p + 1); [apply FP|lia].
  apply NoDup_app_on; [|apply NoDup_app_on|].
  - apply NoDup_map_on; [exact KN|exact INJ].
  - apply NoDup_map_on; [exact KN|]. intros i j I J E. apply (INJ i j I J). apply (CAN P). exact E.
  - apply NoDup_map_on; [exact KN|]. intros i j I J E. apply (INJ i j I J). apply (CAN Q). exact E.
  - intros x X1 X2. apply in_map_iff in X1, X2. destruct X1 as (i & <- & _), X2 as (j & E & _).
    apply (OUT3 (i - j)). apply SUB. apply (CAN P). rewrite (gadd_comm _ Q), <- gadd_assoc, gadd_assoc, gadd_neg, gO_add. exact E.
  - intros x X1 X2. apply in_map_iff in X1. destruct X1 as (i & <- & _). apply in_app_iff in X2. destruct X2 as [X2|X2];
      apply in_map_iff in X2; destruct X2 as (j & E & _); [apply (OUT (i - j))|apply (OUT2 (i - j))]; apply SUB; exact E.
Qed.
End Cosets.

(** What has to be known of such a curve.  A cube root of 1 stands for p = 1 modulo 3: with one point of order two there
    are then three, which is too many. *)
Record kcurve := mkK {
  kc :> curve;
  k_p : prime (c_P kc);
  k_odd : 2 < c_P kc;
  k_mod4 : c_P kc mod 4 = 3;
  k_disc : ~ (c_P kc | 4 * 0 ^ 3 + 27 * c_B kc ^ 2);
  k_b : ~ (c_P kc | c_B kc);
  k_n : prime (c_N kc);
  k_G : pt (curve_group (c_P kc) k_p k_odd 0 (c_B kc) k_disc);
  k_at : at_ (c_P kc) k_p k_odd 0 (c_B kc) k_disc k_G (c_Gx kc) (c_Gy kc);
  k_order : gmul (c_N kc) k_G = gO;
  k_beta : exists z, ~ (c_P kc | z - 1) /\ (c_P kc | z * z * z - 1);
  k_big : 2 * c_P kc + 1 < 3 * c_N kc }.

Section Whole.
Variable K : kcurve.
Notation p := (c_P K). Notation N := (c_N K).
Definition kgroup : cgroup := curve_group p (k_p K) (k_odd K) 0 (c_B K) (k_disc K).
Notation point := (pt kgroup).
Definition kat : point -> Z -> Z -> Prop := at_ p (k_p K) (k_odd K) 0 (c_B K) (k_disc K).
Definition kco : point -> Z * Z := acoords p (k_p K) (k_odd K) 0 (c_B K) (k_disc K).

Lemma k_N2 : 2 <= N. Proof. apply prime_ge_2, k_n. Qed.
Lemma k_G_nz : (k_G K : point) <> gO.
Proof. exact (at_not_O _ _ _ _ _ _ _ _ _ (k_at K)). Qed.
Lemma kco_inj : forall P Q, kco P = kco Q -> P = Q.
Proof. exact (acoords_inj p (k_p K) (k_odd K) 0 (c_B K) (k_disc K) (k_b K)). Qed.
Lemma kat_inj : forall P Q x y, kat P x y -> kat Q x y -> P = Q.
Proof. exact (at_inj p (k_p K) (k_odd K) 0 (c_B K) (k_disc K)). Qed.
Lemma kat_same : forall P x y x' y', kat P x y -> kat P x' y' -> (p | x - x') /\ (p | y - y').
Proof. exact (at_same p (k_p K) (k_odd K) 0 (c_B K) (k_disc K)). Qed.
Lemma kat_neg : forall P x y, kat P x y -> kat (gneg P) x (- y).
Proof. exact (at_neg p (k_p K) (k_odd K) 0 (c_B K) (k_disc K)). Qed.
Lemma kat_on : forall P x y, kat P x y -> (p | y * y - (x * x * x + c_B K)).
Proof. intros P x y A. apply (at_on p (k_p K) (k_odd K) 0 (c_B K) (k_disc K)) in A. rewrite Z.mul_0_l, Z.add_0_r in A. exact A. Qed.
Lemma kat_make : forall x y, (p | y * y - (x * x * x + c_B K)) -> exists P, kat P x y.
Proof. intros x y D. apply (at_make p (k_p K) (k_odd K) 0 (c_B K) (k_disc K)). rewrite Z.mul_0_l, Z.add_0_r. exact D. Qed.
Lemma kat_nz : forall P x y, kat P x y -> P <> gO.
Proof. exact (at_not_O p (k_p K) (k_odd K) 0 (c_B K) (k_disc K)). Qed.
Lemma kat_opp : forall P Q x1 y1 x2 y2, kat P x1 y1 -> kat Q x2 y2 -> (p | x1 - x2) -> (p | y1 + y2) -> gadd P Q = gO.
Proof. exact (at_opp p (k_p K) (k_odd K) 0 (c_B K) (k_disc K)). Qed.
Lemma kat_same_x : forall P Q x1 y1 x2 y2, kat P x1 y1 -> kat Q x2 y2 -> (p | x1 - x2) -> P = Q \/ P = gneg Q.
Proof. exact (at_same_x p (k_p K) (k_odd K) 0 (c_B K) (k_disc K)). Qed.
Lemma kat_cong : forall P x y x' y', kat P x y -> (p | x' - x) -> (p | y' - y) -> kat P x' y'.
Proof. exact (at_cong p (k_p K) (k_odd K) 0 (c_B K) (k_disc K)). Qed.
Lemma kat_exists : forall P : point, P <> gO -> exists x y, kat P x y /\ 0 <= x < p /\ 0 <= y < p.
Proof. exact (at_exists p (k_p K) (k_odd K) 0 (c_B K) (k_disc K)). Qed.
Lemma kpoint_dec : forall P Q : point, P = Q \/ P <> Q.
Proof. exact (point_dec p (k_p K) (k_odd K) 0 (c_B K) (k_disc K) (k_b K)). Qed.

(** the points of order two have second coordinate 0 *)
Lemma two_zero : forall P x y, kat P x y -> gadd P P = gO -> (p | y).
Proof.
  intros P x y A H. assert (PN : P = gneg P) by (apply gneg_unique; exact H).
  pose proof (kat_neg P x y A) as AN. rewrite <- PN in AN. destruct (kat_same P x y x (- y) A AN) as [_ D].
  assert (D2 : (p | 2 * y)) by (replace (2 * y) with (y - - y) by ring; exact D).
  apply prime_mult in D2; [|exact (k_p K)]. destruct D2 as [D2|D2]; [|exact D2].
  apply Z.divide_pos_le in D2; [|lia]. pose proof (k_odd K). lia.
Qed.
Lemma N_odd : N mod 2 = 1.
Proof.
  pose proof (k_odd K). pose proof (k_big K). pose proof (Z.mod_pos_bound N 2 ltac:(lia)) as M.
  destruct (Z.eq_dec (N mod 2) 0) as [C|]; [|lia]. apply Z.mod_divide in C; [|lia].
  apply prime_div_prime in C; [lia|exact prime_2|exact (k_n K)].
Qed.
Lemma two_out : forall (P : point) k, P <> gO -> gadd P P = gO -> P <> gmul k (k_G K : point).
Proof.
  intros P k NP H E. apply NP. assert (KN : gmul N P = gO).
  { rewrite E, <- gmul_mul, Z.mul_comm, gmul_mul. change (gmul k (gmul N (k_G K : point)) = gO). rewrite (k_order K : gmul N (k_G K : point) = gO). apply gmul_O. }
  pose proof N_odd as NO. pose proof (Z.div_mod N 2 ltac:(lia)) as DM. rewrite NO in DM. rewrite DM, gmul_add, gmul_1 in KN.
  replace (2 * (N / 2)) with (N / 2 * 2) in KN by ring. rewrite gmul_mul in KN.
  assert (T : gmul 2 P = gO) by (change 2 with (1 + 1); rewrite gmul_add, !gmul_1; exact H).
  rewrite T, gmul_O, gO_add in KN. exact KN.
Qed.
Lemma k_no_two : forall P : point, gadd P P = gO -> P = gO.
Proof.
  intros P H. destruct (kpoint_dec P gO) as [E|NP]; [exact E|exfalso].
  destruct (kat_exists P NP) as (x & y & A & RX & RY). pose proof (two_zero P x y A H) as Y0.
  pose proof (kat_on P x y A) as ON.
  assert (ON0 : (p | x * x * x + c_B K)).
  { replace (x * x * x + c_B K) with (y * y - (y * y - (x * x * x + c_B K))) by ring. apply Z.divide_sub_r; [apply Z.divide_mul_l; exact Y0|exact ON]. }
  destruct (k_beta K) as (z & Z1 & Z3).
  destruct (kat_make (z * x) 0) as (Q & AQ).
  { replace (0 * 0 - (z * x * (z * x) * (z * x) + c_B K)) with (- ((z * z * z - 1) * (x * x * x) + (x * x * x + c_B K))) by ring.
    apply Z.divide_opp_r. apply Z.divide_add_r; [apply Z.divide_mul_l; exact Z3|exact ON0]. }
  assert (NX : ~ (p | x)).
  { intros C. apply (k_b K). replace (c_B K) with (x * x * x + c_B K - x * (x * x)) by ring. apply Z.divide_sub_r; [exact ON0|apply Z.divide_mul_l; exact C]. }
  assert (QQ : gadd Q Q = gO).
  { apply (kat_opp Q Q (z * x) 0 (z * x) 0 AQ AQ); [rewrite Z.sub_diag|]; apply Z.divide_0_r. }
  assert (NPQ : Q <> P).
  { intros C. rewrite C in AQ. destruct (kat_same P _ _ _ _ AQ A) as [D _].
    replace (z * x - x) with ((z - 1) * x) in D by ring. apply prime_mult in D; [|exact (k_p K)]. tauto. }
  pose proof (kat_nz Q _ _ AQ) as NQ.
  assert (NEG : gneg P = P) by (symmetry; apply gneg_unique; exact H).
  refine (three_cosets_of p (k_p K) (k_odd K) 0 (c_B K) (k_disc K) (k_b K) N (k_G K) P Q (k_n K) (k_order K) k_G_nz (k_big K) _ _ _).
  - intros k. exact (two_out P k NP H).
  - intros k. exact (two_out Q k NQ QQ).
  - intros k. refine (two_out (gadd Q (gneg P)) k _ _).
    + intros C. apply NPQ. exact (gsub_eq _ Q P C).
    + rewrite NEG, gadd4, QQ, H. apply gadd_O.
Qed.
Theorem k_killed : forall P : point, gmul N P = gO.
Proof.
  intros P. exact (all_killed p (k_p K) (k_odd K) 0 (c_B K) (k_disc K) (k_b K) N (k_G K) (k_n K) (k_order K) k_G_nz (k_big K) k_no_two P).
Qed.
Theorem k_multiple : forall P : point, exists d, 0 <= d < N /\ P = gmul d (k_G K : point).
Proof.
  exact (all_multiples p (k_p K) (k_odd K) 0 (c_B K) (k_disc K) (k_b K) N (k_G K) (k_n K) (k_order K) k_G_nz (k_big K) k_killed).
Qed.
(** the group as an [ecgroup] *)
Definition kE : ecgroup.
Proof.
  refine (mkEC kgroup N (k_n K) (k_G K) (k_order K) k_G_nz kco eq_refl _ _).
  - intros P Q H. exact (kco_inj P Q H).
  - intros P. pose proof (acoords_range p (k_p K) (k_odd K) 0 (c_B K) (k_disc K) P). unfold kco. lia.
Defined.
Lemma kco_range : forall P, 0 <= fst (kco P) < p /\ 0 <= snd (kco P) < p.
Proof. exact (acoords_range p (k_p K) (k_odd K) 0 (c_B K) (k_disc K)). Qed.
Lemma kco_O : kco gO = (0, 0). Proof. reflexivity. Qed.
Lemma kco_O_iff : forall P, kco P = (0, 0) <-> P = gO.
Proof. intros P. split; [intros H; apply kco_inj; exact H|intros ->; reflexivity]. Qed.
Lemma kat_kco : forall P x y, kat P x y -> kco P = (x mod p, y mod p).
Proof. exact (acoords_at p (k_p K) (k_odd K) 0 (c_B K) (k_disc K)). Qed.
Lemma kco_kat : forall P : point, P <> gO -> kat P (fst (kco P)) (snd (kco P)).
Proof. exact (at_acoords p (k_p K) (k_odd K) 0 (c_B K) (k_disc K)). Qed.
Lemma kat_G : kat (k_G K) (c_Gx K) (c_Gy K). Proof. exact (k_at K). Qed.
Lemma k_gmul_zero : forall k (P : point), P <> gO -> (gmul k P = gO <-> k mod N = 0).
Proof. intros k P NP. apply gmul_zero_iff; [apply k_n|apply k_killed|exact NP]. Qed.
(** minus a point has the same first coordinate and, unless it is infinity, a second one of the other parity *)
Lemma kco_neg : forall P : point, P <> gO -> kco (gneg P) = (fst (kco P), p - snd (kco P)).
Proof.
  intros P NP. pose proof (kco_kat P NP) as A. pose proof (kco_range P) as [RX RY].
  rewrite (kat_kco _ _ _ (kat_neg P _ _ A)). f_equal; [apply Z.mod_small, RX|].
  assert (Y0 : snd (kco P) <> 0).
  { intros C. apply NP. apply k_no_two. apply (kat_opp P P _ _ _ _ A A); [rewrite Z.sub_diag; apply Z.divide_0_r|]. rewrite C. apply Z.divide_0_r. }
  symmetry. apply (Z.mod_unique (- snd (kco P)) p (-1)); lia.
Qed.
End Whole.

(** ** secp256k1 *)
Lemma s256_odd : 2 < c_P S256. Proof. reflexivity. Qed.
Lemma s256_not_div : forall z, (z mod c_P S256 =? 0) = false -> ~ (c_P S256 | z).
Proof. intros z H D. apply Z.mod_divide in D; [|discriminate]. apply Z.eqb_neq in H. contradiction. Qed.
Lemma s256_disc : ~ (c_P S256 | 4 * 0 ^ 3 + 27 * c_B S256 ^ 2).
Proof. apply s256_not_div. vm_compute. reflexivity. Qed.
Lemma s256_b : ~ (c_P S256 | c_B S256).
Proof. apply s256_not_div. vm_compute. reflexivity. Qed.
Lemma s256_base_on : (c_P S256 | c_Gy S256 * c_Gy S256 - (c_Gx S256 * c_Gx S256 * c_Gx S256 + 0 * c_Gx S256 + c_B S256)).
Proof. apply Z.mod_divide; [discriminate|]. vm_compute. reflexivity. Qed.
Section Base.
Variable c : curve.
Hypothesis p_prime : prime (c_P c).
Hypothesis p_odd : 2 < c_P c.
Hypothesis disc : ~ (c_P c | 4 * 0 ^ 3 + 27 * c_B c ^ 2).
Hypothesis base_on : (c_P c | c_Gy c * c_Gy c - (c_Gx c * c_Gx c * c_Gx c + 0 * c_Gx c + c_B c)).
Lemma kbase_onb : onb (c_P c) p_prime 0 (c_B c) (Some (fz (c_P c) p_prime (c_Gx c), fz (c_P c) p_prime (c_Gy c))) = true.
Proof.
  apply (onb_on (c_P c) p_prime 0 (c_B c)). cbn [CurveLaw.pon]. unfold CurveLaw.on.
  repeat rewrite ?(fz_mul (c_P c) p_prime p_odd 0 0), ?(fz_add (c_P c) p_prime p_odd 0 0).
  apply (proj2 (fz_div (c_P c) p_prime p_odd 0 0 _ _)). exact base_on.
Qed.
Definition kbase_point : pt (curve_group (c_P c) p_prime p_odd 0 (c_B c) disc) := exist _ _ kbase_onb.
Lemma kbase_at : at_ (c_P c) p_prime p_odd 0 (c_B c) disc kbase_point (c_Gx c) (c_Gy c).
Proof. reflexivity. Qed.
End Base.
Definition s256_G := kbase_point S256 prime_c_P_S256 s256_odd s256_disc s256_base_on.
Lemma s256_G_range : 0 <= c_Gx S256 < c_P S256. Proof. split; [discriminate|reflexivity]. Qed.
Lemma s256_order : gmul (c_N S256) s256_G = gO.
Proof.
  exact (run_order (c_P S256) prime_c_P_S256 s256_odd 0 (c_B S256) s256_disc mulp_S256 mulp_S256_ok (c_Gx S256) (c_Gy S256)
    s256_G_range s256_G chain_S256 (c_N S256) (kbase_at S256 prime_c_P_S256 s256_odd s256_disc s256_base_on) chain_S256_ok).
Qed.
(** a cube root of 1 modulo p *)
Definition s256_z : Z := 0x7ae96a2b657c07106e64479eac3434e99cf0497512f58995c1396c28719501ee.
Lemma s256_beta : exists z, ~ (c_P S256 | z - 1) /\ (c_P S256 | z * z * z - 1).
Proof. exists s256_z. split; [apply s256_not_div; vm_compute; reflexivity|]. apply Z.mod_divide; [discriminate|]. vm_compute. reflexivity. Qed.
Definition kS256 : kcurve := mkK S256 prime_c_P_S256 s256_odd eq_refl s256_disc s256_b prime_c_N_S256 s256_G
  (kbase_at S256 prime_c_P_S256 s256_odd s256_disc s256_base_on) s256_order s256_beta eq_refl.
