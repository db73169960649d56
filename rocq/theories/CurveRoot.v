(** * CurveRoot: x^p modulo a cubic x^3 - 3x + b, and all points of a curve of prime order *)
From Coq Require Import ZArith Znumtheory List Bool Lia FinFun.
From Verif Require Import NumTheory Spec_Group CurveZ.
Import ListNotations.
Open Scope Z_scope.

(** ** Powers of x modulo x^3 - 3x + b *)
Section Root.
Variable p : Z.
Hypothesis p_prime : prime p.
Variable b : Z.
Variable mulp : Z -> Z.
Hypothesis mulp_ok : forall q, mulp q = q * p.
(** square, then multiply by x when the flag is set.  The quotients by p of the coefficients of x^3 and x^4,
    of the three coefficients of the square and of the two products after the shift; the tests make
    every step compute its numbers. *)
Definition rstep : Type := bool * Z * Z * Z * Z * Z * Z * Z.
Definition rstate : Type := Z * Z * Z * Z.
Definition rnext (e c0 c1 c2 : Z) : option rstate :=
  if (0 <=? c0) && (0 <=? c1) && (0 <=? c2) then Some (e, c0, c1, c2) else None.
Definition rrun1 (st : rstate) (c : rstep) : option rstate :=
  let '(e, c0, c1, c2) := st in let '(f, q3, q4, q0, q1, q2, q5, q6) := c in
  let d3 := 2 * (c1 * c2) - mulp q3 in
  let d4 := c2 * c2 - mulp q4 in
  if (0 <=? d3) && (0 <=? d4) then
    match rnext (2 * e) (c0 * c0 - b * d3 - mulp q0) (2 * (c0 * c1) + 3 * d3 - b * d4 - mulp q1) (2 * (c0 * c2) + c1 * c1 + 3 * d4 - mulp q2) with
    | None => None
    | Some (e, s0, s1, s2) => if f then rnext (e + 1) (- (b * s2) - mulp q5) (s0 + 3 * s2 - mulp q6) s1 else Some (e, s0, s1, s2)
    end
  else None.
Fixpoint rrun (st : rstate) (cs : list rstep) : option rstate :=
  match cs with [] => Some st | c :: cs' => match rrun1 st c with None => None | Some st' => rrun st' cs' end end.
(** the run ends with x^p = u0 + u1 x + u2 x^2 *)
Definition rcheck (cs : list rstep) (u0 u1 u2 : Z) : bool :=
  match rrun (1, 0, 1, 0) cs with
  | None => false
  | Some (e, c0, c1, c2) => (e =? p) && (c0 =? u0) && (c1 =? u1) && (c2 =? u2)
  end.
Definition rinv (r : Z) (st : rstate) : Prop :=
  let '(e, c0, c1, c2) := st in 0 <= e /\ (p | c0 + c1 * r + c2 * (r * r) - r ^ e).
Lemma rnext_inv : forall e c0 c1 c2 st, rnext e c0 c1 c2 = Some st -> st = (e, c0, c1, c2).
Proof. intros e c0 c1 c2 st H. unfold rnext in H. destruct (_ && _); congruence. Qed.
Lemma rrun1_ok : forall r st c st', (p | r * r * r - 3 * r + b) -> rinv r st -> rrun1 st c = Some st' -> rinv r st'.
Proof.
  intros r [[[e c0] c1] c2] [[[[[[[f q3] q4] q0] q1] q2] q5] q6] st' R [E I] H. unfold rrun1 in H. rewrite !mulp_ok in H. cbv zeta in H.
  destruct (_ && _); [|discriminate H].
  match type of H with match ?x with _ => _ end = _ => destruct x as [[[[e' s0] s1] s2]|] eqn:N; [|discriminate H] end.
  apply rnext_inv in N. assert (Q : forall a b c d a' b' c' d' : Z, (a, b, c, d) = (a', b', c', d') -> a = a' /\ b = b' /\ c = c' /\ d = d') by (intros; repeat split; congruence).
  apply Q in N. destruct N as (-> & E0 & E1 & E2).
  set (t := r ^ e) in *.
  assert (T2 : r ^ (2 * e) = t * t) by (unfold t; replace (2 * e) with (e + e) by lia; apply Z.pow_add_r; exact E).
  assert (J : rinv r (2 * e, s0, s1, s2)).
  { split; [lia|]. rewrite T2. clearbody t. destruct R as [g R], I as [h I].
    assert (Hb : b = g * p - (r * r * r - 3 * r)) by lia. assert (Ht : t = c0 + c1 * r + c2 * (r * r) - h * p) by lia.
    exists (- q0 - q1 * r - q2 * (r * r) - q3 * (r * r * r) - q4 * (r * r * r * r) - g * (2 * (c1 * c2) - q3 * p) - g * r * (c2 * c2 - q4 * p)
      + h * (2 * (c0 + c1 * r + c2 * (r * r)) - h * p)).
    subst s0 s1 s2 b t. ring. }
  destruct f; [|injection H as <-; exact J]. apply rnext_inv in H. subst st'. clear E0 E1 E2 I T2. destruct J as [_ J]. split; [lia|].
  rewrite Z.pow_add_r, Z.pow_1_r by lia. set (w := r ^ (2 * e)) in *. clearbody w. destruct R as [g R], J as [h J].
  assert (Hb : b = g * p - (r * r * r - 3 * r)) by lia. assert (Hw : w = s0 + s1 * r + s2 * (r * r) - h * p) by lia.
  exists (- q5 - q6 * r - g * s2 + r * h). subst b w. ring.
Qed.
Lemma rrun_ok : forall r cs st st', (p | r * r * r - 3 * r + b) -> rinv r st -> rrun st cs = Some st' -> rinv r st'.
Proof.
  intros r cs. induction cs as [|c cs IH]; intros st st' R I H; cbn [rrun] in H; [injection H as <-; exact I|].
  destruct (rrun1 st c) as [st1|] eqn:E; [|discriminate H]. exact (IH st1 st' R (rrun1_ok r st c st1 R I E) H).
Qed.
Theorem no_root : forall cs u0 u1 u2 a0 a1 a2 b0 b1 k0 k1 k2 k3 k4,
  rcheck cs u0 u1 u2 = true ->
  a0 * u0 + b0 * b = 1 + mulp k0 ->
  a0 * (u1 - 1) + a1 * u0 + b1 * b - 3 * b0 = mulp k1 ->
  a0 * u2 + a1 * (u1 - 1) + a2 * u0 - 3 * b1 = mulp k2 ->
  a1 * u2 + a2 * (u1 - 1) + b0 = mulp k3 ->
  a2 * u2 + b1 = mulp k4 ->
  forall r, ~ (p | r * r * r - 3 * r + b).
Proof.
  intros cs u0 u1 u2 a0 a1 a2 b0 b1 k0 k1 k2 k3 k4 RR E0 E1 E2 E3 E4 r R.
  unfold rcheck in RR. destruct (rrun (1, 0, 1, 0) cs) as [[[[e c0] c1] c2]|] eqn:RQ; [|discriminate RR].
  rewrite !andb_true_iff, !Z.eqb_eq in RR. destruct RR as (((-> & ->) & ->) & ->).
  assert (I : rinv r (p, u0, u1, u2)).
  { refine (rrun_ok r cs (1, 0, 1, 0) _ R _ RQ). split; [lia|]. rewrite Z.pow_1_r. replace (0 + 1 * r + 0 * (r * r) - r) with 0 by ring. apply Z.divide_0_r. }
  destruct I as [_ I]. rewrite mulp_ok in *. pose proof (prime_ge_2 p p_prime) as P2.
  assert (F : (p | r ^ p - r)) by (apply fermat; exact p_prime).
  assert (U : (p | u0 + (u1 - 1) * r + u2 * (r * r))).
  { replace (u0 + (u1 - 1) * r + u2 * (r * r)) with ((u0 + u1 * r + u2 * (r * r) - r ^ p) + (r ^ p - r)) by ring. apply Z.divide_add_r; assumption. }
  assert (ONE : (p | 1)).
  { replace 1 with ((a0 + a1 * r + a2 * (r * r)) * (u0 + (u1 - 1) * r + u2 * (r * r)) + (b0 + b1 * r) * (r * r * r - 3 * r + b) -
      p * (k0 + k1 * r + k2 * (r * r) + k3 * (r * r * r) + k4 * (r * r * r * r))).
    - apply Z.divide_sub_r; [apply Z.divide_add_r; apply Z.divide_mul_r; assumption|apply Z.divide_mul_l, Z.divide_refl].
    - replace 1 with (a0 * u0 + b0 * b - k0 * p) at 2 by lia. 
      replace (p * (k0 + k1 * r + k2 * (r * r) + k3 * (r * r * r) + k4 * (r * r * r * r))) with
        (k0 * p + (k1 * p) * r + (k2 * p) * (r * r) + (k3 * p) * (r * r * r) + (k4 * p) * (r * r * r * r)) by ring.
      rewrite <- E1, <- E2, <- E3, <- E4. ring. }
  apply Z.divide_pos_le in ONE; lia.
Qed.
End Root.

(** ** A curve with a point of large prime order and no point of order two has that order *)
Section Count.
Variable p : Z.
Hypothesis p_prime : prime p.
Hypothesis p_odd : 2 < p.
Variables ca cb : Z.
Hypothesis disc : ~ (p | 4 * ca ^ 3 + 27 * cb ^ 2).
Hypothesis cb_nz : ~ (p | cb).
Notation CG := (curve_group p p_prime p_odd ca cb disc).
Notation at' := (at_ p p_prime p_odd ca cb disc).
Notation ac := (acoords p p_prime p_odd ca cb disc).

(** the points in [0, 2p] *)
Definition enc (P : pt CG) : Z :=
  if (fst (ac P) =? 0) && (snd (ac P) =? 0) then 2 * p else 2 * fst (ac P) + snd (ac P) mod 2.
Lemma p_2 : p mod 2 = 1.
Proof.
  pose proof (Z.mod_pos_bound p 2 ltac:(lia)). destruct (Z.eq_dec (p mod 2) 0) as [C|C]; [|lia].
  apply Z.mod_divide in C; [|lia]. apply prime_divisors in C; [|exact p_prime]. lia.
Qed.
Lemma ac_O : forall P, ac P = (0, 0) -> P = gO.
Proof. intros P H. apply (acoords_inj p p_prime p_odd ca cb disc cb_nz). exact H. Qed.
Lemma enc_range : forall P, 0 <= enc P < 2 * p + 1.
Proof.
  intros P. unfold enc. pose proof (acoords_range p p_prime p_odd ca cb disc P) as [X Y].
  pose proof (Z.mod_pos_bound (snd (ac P)) 2 ltac:(lia)). destruct (_ && _); lia.
Qed.
Lemma enc_inj : forall P Q, enc P = enc Q -> P = Q.
Proof.
  intros P Q H. pose proof (acoords_range p p_prime p_odd ca cb disc P) as [XP YP]. pose proof (acoords_range p p_prime p_odd ca cb disc Q) as [XQ YQ].
  unfold enc in H. pose proof (at_acoords p p_prime p_odd ca cb disc P) as AP. pose proof (at_acoords p p_prime p_odd ca cb disc Q) as AQ.
  destruct (ac P) as [x y] eqn:EP. destruct (ac Q) as [x' y'] eqn:EQ. cbn [fst snd] in *.
  pose proof (Z.mod_pos_bound y 2 ltac:(lia)) as M. pose proof (Z.mod_pos_bound y' 2 ltac:(lia)) as M'.
  assert (OO : forall R a c, ac R = (a, c) -> (a =? 0) && (c =? 0) = true -> R = gO).
  { intros R a c E B. apply ac_O. rewrite E. apply andb_true_iff in B. rewrite !Z.eqb_eq in B. destruct B as [-> ->]. reflexivity. }
  assert (NO : forall R a c, ac R = (a, c) -> (a =? 0) && (c =? 0) = false -> R <> gO).
  { intros R a c E B C. subst R. change (ac gO) with (0, 0) in E. injection E as <- <-. discriminate B. }
  destruct ((x =? 0) && (y =? 0)) eqn:BP; destruct ((x' =? 0) && (y' =? 0)) eqn:BQ; try lia.
  - rewrite (OO P x y EP BP), (OO Q x' y' EQ BQ). reflexivity.
  - assert (x = x') by lia. subst x'. assert (MM : y mod 2 = y' mod 2) by lia. clear H.
    specialize (AP (NO P x y EP BP)). specialize (AQ (NO Q x y' EQ BQ)).
    destruct (at_same_x p p_prime p_odd ca cb disc P Q x y x y' AP AQ) as [E|E]; [rewrite Z.sub_diag; apply Z.divide_0_r|exact E|].
    pose proof (at_neg p p_prime p_odd ca cb disc Q x y' AQ) as AN. rewrite <- E in AN.
    destruct (at_same p p_prime p_odd ca cb disc P x y x (- y') AP AN) as [_ [k D]].
    assert (K : k = 0 \/ k = 1) by nia. destruct K as [->| ->].
    + assert (y = 0 /\ y' = 0) as [-> ->] by lia. apply (acoords_inj p p_prime p_odd ca cb disc cb_nz). congruence.
    + exfalso. pose proof p_2 as P2. assert (y = p - y') by lia. subst y. rewrite Zminus_mod, P2 in MM.
      assert (HM : y' mod 2 = 0 \/ y' mod 2 = 1) by lia. destruct HM as [HM|HM]; rewrite HM in MM; discriminate MM.
Qed.
Lemma few_points : forall l : list (pt CG), NoDup l -> Z.of_nat (length l) <= 2 * p + 1.
Proof.
  intros l ND. assert (ND' : NoDup (map enc l)) by (apply Injective_map_NoDup; [exact enc_inj|exact ND]).
  assert (I : incl (map enc l) (map Z.of_nat (seq 0 (Z.to_nat (2 * p + 1))))).
  { intros z Hz. apply in_map_iff in Hz. destruct Hz as (P & <- & _). pose proof (enc_range P).
    apply in_map_iff. exists (Z.to_nat (enc P)). split; [apply Z2Nat.id; lia|]. apply in_seq. lia. }
  pose proof (NoDup_incl_length ND' I) as L. rewrite !map_length, seq_length in L. lia.
Qed.
Lemma NoDup_map_on : forall (A B : Type) (f : A -> B) l, NoDup l -> (forall x y, In x l -> In y l -> f x = f y -> x = y) -> NoDup (map f l).
Proof.
  intros A B f l ND. induction ND as [|x l NI ND IH]; intros H; cbn [map]; constructor.
  - intros C. apply in_map_iff in C. destruct C as (y & E & Iy). apply NI. rewrite <- (H y x); [exact Iy|right; exact Iy|left; reflexivity|exact E].
  - apply IH. intros y z Iy Iz. apply H; right; assumption.
Qed.
Lemma NoDup_app_on : forall (A : Type) (l m : list A), NoDup l -> NoDup m -> (forall x, In x l -> In x m -> False) -> NoDup (l ++ m).
Proof.
  intros A l m ND M H. induction ND as [|x l NI ND IH]; [exact M|]. cbn [app]. constructor.
  - rewrite in_app_iff. intros [C|C]; [exact (NI C)|]. apply (H x); [left; reflexivity|exact C].
  - apply IH. intros y Iy. apply H. right. exact Iy.
Qed.
(** the multiples of G and two more cosets are too many points *)
Lemma three_cosets : forall N (G P : pt CG), prime N -> gmul N G = gO -> G <> gO -> 2 * p + 1 < 3 * N ->
  (forall k, P <> gmul k G) -> (forall k, gadd P P <> gmul k G) -> False.
Proof.
  intros N G P PN GN GZ BIG OUT OUT2. pose proof (prime_ge_2 N PN) as N2.
  set (ks := map Z.of_nat (seq 0 (Z.to_nat N))).
  assert (KS : forall i, In i ks -> 0 <= i < N).
  { intros i I. apply in_map_iff in I. destruct I as (n & <- & I). apply in_seq in I. lia. }
  assert (KN : NoDup ks) by (apply Injective_map_NoDup; [intros a c; apply Nat2Z.inj|apply seq_NoDup]).
  assert (INJ : forall i j, In i ks -> In j ks -> gmul i G = gmul j G -> i = j).
  { intros i j I J E. apply KS in I, J. assert (Z0 : gmul (i - j) G = gO).
    { replace (i - j) with (i + - j) by ring. rewrite gmul_add, gmul_opp, E. apply gadd_neg. }
    apply (gmul_zero_iff _ N (i - j) G PN GN GZ) in Z0. apply Z.mod_divide in Z0; [|lia]. destruct Z0 as [k Z0].
    assert (k < 1) by nia. assert (-1 < k) by nia. assert (k = 0) by lia. subst k. lia. }
  assert (CAN : forall A B C : pt CG, gadd A B = gadd A C -> B = C).
  { intros A B C E. apply (f_equal (gadd (gneg A))) in E. rewrite !gadd_assoc, (gadd_comm _ (gneg A) A), gadd_neg in E.
    rewrite (gadd_comm _ gO B), (gadd_comm _ gO C), !gadd_O in E. exact E. }
  assert (SUB : forall A i j, gadd A (gmul i G) = gmul j G -> A = gmul (j - i) G).
  { intros A i j E. replace (j - i) with (j + - i) by ring. rewrite gmul_add, <- E, gmul_opp, <- gadd_assoc, gadd_neg, gadd_O. reflexivity. }
  pose proof (few_points (map (fun i => gmul i G) ks ++ map (fun i => gadd P (gmul i G)) ks ++ map (fun i => gadd (gadd P P) (gmul i G)) ks)) as FP.
  rewrite !app_length, !map_length in FP. unfold ks in FP at 4 5 6. rewrite map_length, seq_length in FP. 
  assert (ND : Z.of_nat (Z.to_nat N + (Z.to_nat N + Z.to_nat N)) <= 2 * p + 1); [apply FP|lia].
  apply NoDup_app_on; [|apply NoDup_app_on|].
  - apply NoDup_map_on; [exact KN|exact INJ].
  - apply NoDup_map_on; [exact KN|]. intros i j I J E. apply (INJ i j I J). apply (CAN P). exact E.
  - apply NoDup_map_on; [exact KN|]. intros i j I J E. apply (INJ i j I J). apply (CAN (gadd P P)). exact E.
  - intros x X1 X2. apply in_map_iff in X1, X2. destruct X1 as (i & <- & _), X2 as (j & E & _).
    rewrite <- gadd_assoc in E. apply CAN in E. apply (OUT (i - j)). apply SUB. exact E.
  - intros x X1 X2. apply in_map_iff in X1. destruct X1 as (i & <- & _). apply in_app_iff in X2. destruct X2 as [X2|X2];
      apply in_map_iff in X2; destruct X2 as (j & E & _); [apply (OUT (i - j))|apply (OUT2 (i - j))]; apply SUB; exact E.
Qed.
Lemma point_dec : forall P Q : pt CG, P = Q \/ P <> Q.
Proof.
  intros P Q. destruct (Z.eq_dec (enc P) (enc Q)) as [E|E]; [left; apply enc_inj, E|right; intros C; rewrite C in E; exact (E eq_refl)].
Qed.
Theorem all_killed : forall N (G : pt CG), prime N -> gmul N G = gO -> G <> gO -> 2 * p + 1 < 3 * N ->
  (forall P : pt CG, gadd P P = gO -> P = gO) -> forall P : pt CG, gmul N P = gO.
Proof.
  intros N G PN GN GZ BIG NT P. destruct (point_dec (gmul N P) gO) as [D|D]; [exact D|exfalso].
  apply (three_cosets N G P PN GN GZ BIG).
  - intros k C. apply D. rewrite C, <- gmul_mul, Z.mul_comm, gmul_mul, GN. apply gmul_O.
  - intros k C. apply D. apply NT. rewrite <- gmul_gadd, C, <- gmul_mul, Z.mul_comm, gmul_mul, GN. apply gmul_O.
Qed.
(** and then every point is a multiple of G *)
Theorem all_multiples : forall N (G : pt CG), prime N -> gmul N G = gO -> G <> gO -> 2 * p + 1 < 3 * N ->
  (forall P : pt CG, gmul N P = gO) -> forall P : pt CG, exists d, 0 <= d < N /\ P = gmul d G.
Proof.
  intros N G PN GN GZ BIG KA P. pose proof (prime_ge_2 N PN) as N2.
  assert (S : forall n, (exists d, 0 <= d < Z.of_nat n /\ P = gmul d G) \/ (forall d, 0 <= d < Z.of_nat n -> P <> gmul d G)).
  { induction n as [|n [(d & R & E)|IH]].
    - right. intros d R. lia.
    - left. exists d. split; [lia|exact E].
    - destruct (point_dec P (gmul (Z.of_nat n) G)) as [E|E].
      + left. exists (Z.of_nat n). split; [lia|exact E].
      + right. intros d R. destruct (Z.eq_dec d (Z.of_nat n)) as [->|]; [exact E|apply IH; lia]. }
  destruct (S (Z.to_nat N)) as [(d & R & E)|NO]; [exists d; split; [lia|exact E]|exfalso].
  assert (OUT : forall k, P <> gmul k G).
  { intros k C. apply (NO (k mod N)); [rewrite Z2Nat.id by lia; apply Z.mod_pos_bound; lia|].
    rewrite (gmul_mod _ N k G) by (assumption || lia). exact C. }
  apply (three_cosets N G P PN GN GZ BIG OUT).
  intros k C. apply (OUT ((N + 1) / 2 * k)). rewrite gmul_mul, <- C. rewrite <- (gmul_1 _ P) at 2 3. rewrite <- gmul_add, <- gmul_mul.
  assert (ODD : N mod 2 = 1).
  { pose proof (Z.mod_pos_bound N 2 ltac:(lia)). destruct (Z.eq_dec (N mod 2) 0) as [Q|Q]; [|lia].
    apply Z.mod_divide in Q; [|lia]. apply prime_divisors in Q; [|exact PN]. lia. }
  replace ((N + 1) / 2 * (1 + 1)) with (N + 1).
  - rewrite gmul_add, KA, gmul_1. symmetry. apply gO_add.
  - pose proof (Z.div_mod (N + 1) 2 ltac:(lia)) as Q. rewrite Zplus_mod, ODD in Q. change ((1 + 1 mod 2) mod 2) with 0 in Q. lia.
Qed.
End Count.
