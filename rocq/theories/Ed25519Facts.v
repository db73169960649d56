(** * Ed25519Facts: the functions of x/crypto/ed25519 compute in the group of the curve *)
From Coq Require Import ZArith Znumtheory Zpow_facts String List Bool Lia.
From Verif Require Import Base BaseFacts ECKey Spec_EC Spec_Group NumTheory LucasFacts EdZ Ed25519 EdCurve Spec_Ed25519.
From Verif Require P256Sched.
Import ListNotations.
Open Scope Z_scope.

(** ** Bytes *)
Lemma lev_le2z : forall b, le2z b = lev b.
Proof.
  unfold le2z. induction b as [|x b IH]; [reflexivity|]. cbn [rev lev]. rewrite be2z_snoc, IH. lia.
Qed.
Lemma lev_app : forall a b, lev (a ++ b) = lev a + 256 ^ zlen a * lev b.
Proof.
  induction a as [|x a IH]; intros b; [change (zlen []) with 0; rewrite Z.pow_0_r; cbn [app lev]; lia|]. cbn [app lev]. rewrite IH. unfold zlen. cbn [length].
  rewrite Nat2Z.inj_succ, Z.pow_succ_r by lia. ring.
Qed.
Lemma lev_bound : forall b, octets b -> 0 <= lev b < 256 ^ zlen b.
Proof.
  intros b H. rewrite <- lev_le2z. unfold le2z. replace (zlen b) with (zlen (rev b)) by (unfold zlen; rewrite rev_length; reflexivity).
  apply be2z_bound. apply Forall_rev. exact H.
Qed.
Lemma lev_inj : forall a b, octets a -> octets b -> length a = length b -> lev a = lev b -> a = b.
Proof.
  intros a b Ha Hb L E. rewrite <- !lev_le2z in E. unfold le2z in E. rewrite <- (rev_involutive a), <- (rev_involutive b). f_equal.
  apply be2z_inj; [apply Forall_rev; exact Ha|apply Forall_rev; exact Hb|rewrite !rev_length; exact L|exact E].
Qed.
Lemma z2le_length : forall n z, length (z2le n z) = n.
Proof. intros. unfold z2le. rewrite rev_length. apply to_be_length. Qed.
Lemma z2le_octets : forall n z, octets (z2le n z).
Proof. intros. unfold z2le. apply Forall_rev. apply to_be_wf. Qed.
Lemma lev_z2le : forall n z, 0 <= z < 256 ^ Z.of_nat n -> lev (z2le n z) = z.
Proof. intros n z H. rewrite <- lev_le2z. unfold le2z, z2le. rewrite rev_involutive. apply be2z_to_be_small. exact H. Qed.
Lemma lev_set : forall i c b, (i < length b)%nat -> lev (set_nth i c b) = lev b + 256 ^ Z.of_nat i * (c - nth i b 0).
Proof.
  induction i as [|i IH]; intros c [|x b] H; cbn [length] in H; try lia; cbn [set_nth lev nth].
  - change (Z.of_nat 0) with 0. rewrite Z.pow_0_r. lia.
  - rewrite IH by lia. rewrite Nat2Z.inj_succ, Z.pow_succ_r by lia. ring.
Qed.
Lemma octets_set : forall i c b, is_byte c -> octets b -> octets (set_nth i c b).
Proof. intros. apply P256Sched.set_nth_Forall; assumption. Qed.
Lemma nth_octet : forall i b, octets b -> is_byte (nth i b 0).
Proof.
  intros i b H. destruct (Nat.lt_ge_cases i (length b)) as [L|L].
  - apply (proj1 (Forall_forall _ _) H). apply nth_In. exact L.
  - rewrite nth_overflow by exact L. unfold is_byte. lia.
Qed.
(** the last of 32 bytes *)
Lemma last_byte : forall b, octets b -> length b = 32%nat -> nth 31 b 0 = lev b / 2 ^ 248.
Proof.
  intros b H L. assert (E : b = firstn 31 b ++ [nth 31 b 0]).
  { rewrite <- (firstn_skipn 31 b) at 1. f_equal. destruct (skipn 31 b) as [|z [|z' r]] eqn:Q.
    - apply (f_equal (@length Z)) in Q. rewrite skipn_length, L in Q. discriminate.
    - f_equal. rewrite <- (firstn_skipn 31 b), Q, app_nth2; rewrite firstn_length, L; [reflexivity|cbn; lia].
    - apply (f_equal (@length Z)) in Q. rewrite skipn_length, L in Q. discriminate. }
  assert (Z31 : zlen (firstn 31 b) = 31) by (unfold zlen; rewrite firstn_length, L; reflexivity).
  assert (B : octets (firstn 31 b)) by (apply wf_firstn; exact H). apply lev_bound in B. rewrite Z31 in B.
  rewrite E at 2. rewrite lev_app, Z31. cbn [lev]. change (256 ^ 31) with (2 ^ 248) in *. rewrite Z.mul_0_r, Z.add_0_r, Z.mul_comm, Z.div_add by discriminate.
  rewrite Z.div_small by exact B. reflexivity.
Qed.

(** ** Field elements *)
Definition fr (a z : Z) : Prop := a = z mod edP.
Lemma fr_mul a b z w : fr a z -> fr b w -> fr (fe_mul a b) (z * w).
Proof. unfold fr, fe_mul. intros -> ->. symmetry. apply Zmult_mod. Qed.
Lemma fr_add a b z w : fr a z -> fr b w -> fr (fe_add a b) (z + w).
Proof. unfold fr, fe_add. intros -> ->. symmetry. apply Zplus_mod. Qed.
Lemma fr_sub a b z w : fr a z -> fr b w -> fr (fe_sub a b) (z - w).
Proof. unfold fr, fe_sub. intros -> ->. symmetry. apply Zminus_mod. Qed.
Lemma fr_neg a z : fr a z -> fr (fe_neg a) (- z).
Proof.
  unfold fr, fe_neg. intros ->. rewrite <- !Z.sub_0_l. apply Zminus_mod_idemp_r.
Qed.
Lemma fr_1 : fr 1 1. Proof. reflexivity. Qed.
Lemma fr_red z : 0 <= z < edP -> fr z z. Proof. intros H. unfold fr. symmetry. apply Z.mod_small. exact H. Qed.
Lemma fr_const z : z mod edP = z -> fr z z. Proof. intros H. symmetry. exact H. Qed.
Lemma fr_range a z : fr a z -> 0 <= a < edP.
Proof. intros ->. apply Z.mod_pos_bound. exact edP_pos. Qed.
Lemma fr_div a z : fr a z -> (edP | a - z).
Proof.
  intros ->. exists (- (z / edP)). pose proof (Z.div_mod z edP ltac:(discriminate)). lia.
Qed.
Lemma fr_cong a z w : fr a z -> (edP | z - w) -> fr a w.
Proof. intros -> [k E]. unfold fr. replace z with (w + k * edP) by lia. apply Z_mod_plus_full. Qed.
Lemma fr_zero a z : fr a z -> (a = 0 <-> (edP | z)).
Proof. intros ->. apply Z.mod_divide. discriminate. Qed.
Lemma fr_pow a z e : 0 <= e -> fr a z -> fr (powm a e edP) (z ^ e).
Proof.
  intros He ->. unfold fr. rewrite powm_spec; [|exact edP_pos|exact He]. symmetry. apply Zpower_mod. exact edP_pos.
Qed.
Lemma small_div z : (edP | z) -> - edP < z < edP -> z = 0.
Proof. intros [k E] H. pose proof edP_pos. assert (k = 0) by nia. lia. Qed.

Section Root.
Variables p k ii : Z.
Hypothesis p_prime : prime p.
Hypothesis pk : p = 8 * k + 5.
Hypothesis k0 : 0 <= k.
Lemma pow_cong_div : forall a b n, (p | a - b) -> (p | a ^ n - b ^ n).
Proof.
  intros a b n [c E]. pose proof (prime_ge_2 _ p_prime).
  assert (M : a ^ n mod p = b ^ n mod p).
  { apply Pocklington.pow_congr; [lia|]. replace a with (b + c * p) by lia. apply Z_mod_plus_full. }
  apply Z.mod_divide; [lia|]. rewrite Zminus_mod, M, Z.sub_diag. apply Z.mod_0_l. lia.
Qed.
(** square roots of u/v: p = 5 mod 8 *)
Lemma root_5mod8 : forall u v r, (p | v * (r * r) - u) ->
  let x := u * (v * v * v) * (u * (v * v * v * (v * v * v) * v)) ^ k in (p | v * (x * x) - u) \/ (p | v * (x * x) + u).
Proof.
  intros u v r D x. pose proof (prime_ge_2 _ p_prime) as P2. destruct (Zdivide_dec p u) as [Du|Nu].
  - left. apply Z.divide_sub_r; [|exact Du]. apply Z.divide_mul_r, Z.divide_mul_l. unfold x. apply Z.divide_mul_l, Z.divide_mul_l. exact Du.
  - set (w := u * (v * v * v * (v * v * v) * v)) in *. set (t := v * v * v * v * r). set (e := w ^ (2 * k + 1)).
    assert (Nr : ~ (p | t)).
    { intros C. apply Nu. assert (V : (p | v) \/ (p | r)).
      { unfold t in C. apply (prime_mult p p_prime) in C. destruct C as [C|C]; [left|right; exact C]. do 3 (apply (prime_mult p p_prime) in C; destruct C as [C|C]; [|exact C]). exact C. }
      replace u with (v * (r * r) - (v * (r * r) - u)) by ring. apply Z.divide_sub_r; [|exact D].
      destruct V as [V|V]; [apply Z.divide_mul_l; exact V|apply Z.divide_mul_r, Z.divide_mul_l; exact V]. }
    assert (E1 : (p | e - t ^ (4 * k + 2))).
    { unfold e. replace (t ^ (4 * k + 2)) with ((t * t) ^ (2 * k + 1)).
      - apply pow_cong_div. replace (w - t * t) with (- ((v * (r * r) - u) * (v * v * v * v * v * v * v))) by (unfold w, t; ring).
        apply (proj2 (Z.divide_opp_r _ _)). apply Z.divide_mul_l. exact D.
      - replace (t * t) with (t ^ 2) by ring. rewrite <- Z.pow_mul_r by lia. f_equal. ring. }
    assert (E2 : (p | e * e - 1)).
    { set (f := t ^ (4 * k + 2)) in *. assert (F : (p | f * f - 1)).
      { unfold f. rewrite <- Z.pow_add_r by lia. replace (4 * k + 2 + (4 * k + 2)) with (p - 1) by lia.
        pose proof (fermat_unit p t p_prime Nr) as M. apply Z.mod_divide; [lia|]. rewrite Zminus_mod, M, Z.mod_1_l by lia. apply Z.mod_0_l. lia. }
      replace (e * e - 1) with ((e - f) * (e + f) + (f * f - 1)) by ring. apply Z.divide_add_r; [apply Z.divide_mul_l; exact E1|exact F]. }
    assert (X : v * (x * x) = u * e).
    { unfold x, e. rewrite Z.pow_add_r, Z.pow_1_r, (Z.mul_comm 2 k), Z.pow_mul_r by lia. replace ((w ^ k) ^ 2) with (w ^ k * w ^ k) by ring.
      generalize (w ^ k). intros q. unfold w. ring. }
    replace (e * e - 1) with ((e - 1) * (e + 1)) in E2 by ring. apply (prime_mult p p_prime) in E2. rewrite X. destruct E2 as [E2|E2]; [left|right].
    + replace (u * e - u) with (u * (e - 1)) by ring. apply Z.divide_mul_r. exact E2.
    + replace (u * e + u) with (u * (e + 1)) by ring. apply Z.divide_mul_r. exact E2.
Qed.
End Root.

(** ** Points *)
Notation eA l := (l edP edP_prime edP_odd edD edI edI_sqr edD_nonsquare) (only parsing).
Lemma edco_exists : forall P, exists x y, edco P x y.
Proof. intros P. destruct (eA ate_exists P) as (x & y & A & X & Y). exists x, y. exact (conj A (conj X Y)). Qed.
Lemma edco_inj : forall P Q x y, edco P x y -> edco Q x y -> P = Q.
Proof. intros P Q x y [A _] [B _]. exact (eA ate_inj P Q x y A B). Qed.
Lemma edco_fun : forall P x y x' y', edco P x y -> edco P x' y' -> x = x' /\ y = y'.
Proof.
  intros P x y x' y' (A & X & Y) (B & X' & Y'). destruct (eA ate_same P x y x' y' A B) as [D1 D2].
  apply small_div in D1; [|lia]. apply small_div in D2; [|lia]. lia.
Qed.
Lemma edco_O : edco gO 0 1.
Proof. split; [exact (eA ate_O)|]. pose proof edP_odd. lia. Qed.
Lemma edP_par : edP mod 2 = 1. Proof. reflexivity. Qed.
Lemma opp_par : forall x, 0 < x < edP -> (edP - x) mod 2 = 1 - x mod 2.
Proof.
  intros x H. rewrite Zminus_mod, edP_par. pose proof (Z.mod_pos_bound x 2 ltac:(lia)).
  assert (C : x mod 2 = 0 \/ x mod 2 = 1) by lia. destruct C as [-> | ->]; reflexivity.
Qed.
(** the points that bytes can be read as: one at most *)
Lemma read_unique : forall s P Q x y x' y', 0 <= s <= 1 -> edco P x y -> edco Q x' y' -> y = y' ->
  x = 0 \/ x mod 2 = s -> x' = 0 \/ x' mod 2 = s -> x = x'.
Proof.
  intros s P Q x y x' y' Hs (A & X & Y) (B & X' & Y') E S1 S2. subst y'.
  destruct (eA ate_same_y P Q x y x' y A B) as [D|D]; [exists 0; ring| |].
  - apply small_div in D; lia.
  - destruct (Z.eq_dec x 0) as [->|N].
    + rewrite Z.add_0_l in D. apply small_div in D; lia.
    + destruct (Z.eq_dec x' 0) as [->|N']; [rewrite Z.add_0_r in D; apply small_div in D; lia|].
      assert (x' = edP - x).
      { destruct D as [k D]. pose proof edP_pos. assert (k = 1) by nia. lia. }
      subst x'. rewrite opp_par in S2 by lia. lia.
Qed.
Lemma pow22523 : edP = 8 * (2 ^ 252 - 3) + 5. Proof. reflexivity. Qed.
Lemma edco_neg : forall P x y, edco P x y -> edco (gneg P) (fe_neg x) y.
Proof.
  intros P x y (A & X & Y). pose proof (fr_neg x x (fr_red x X)) as F. split; [|split; [exact (fr_range _ _ F)|exact Y]].
  apply (eA ate_cong (gneg P) (- x) y); [apply (eA ate_neg); exact A|exact (fr_div _ _ F)|exists 0; ring].
Qed.
Lemma fe_neg_val : forall x, 0 <= x < edP -> fe_neg x = if x =? 0 then 0 else edP - x.
Proof.
  intros x H. unfold fe_neg. destruct (Z.eqb_spec x 0) as [->|]; [reflexivity|].
  rewrite <- (Z_mod_plus_full (- x) 1 edP). rewrite Z.mod_small by lia. lia.
Qed.
Lemma sign_bit : forall b, octets b -> length b = 32%nat -> Z.shiftr (nth 31 b 0) 7 = lev b / 2 ^ 255 /\ 0 <= lev b / 2 ^ 255 <= 1.
Proof.
  intros b H L. rewrite (last_byte b H L). split.
  - rewrite Z.shiftr_div_pow2 by lia. rewrite Z.div_div by lia. rewrite <- Z.pow_add_r by lia. reflexivity.
  - pose proof (lev_bound b H) as B. unfold zlen in B. rewrite L in B. change (256 ^ Z.of_nat 32) with (2 * 2 ^ 255) in B. split.
    + apply Z.div_pos; lia.
    + apply Z.lt_succ_r. apply Z.div_lt_upper_bound; lia.
Qed.
(** the value computed by [ge_FromBytes] before the sign is chosen *)
Definition root_of (y : Z) : option Z :=
  let u := fe_mul y y in
  let v := fe_mul u edD in
  let u := fe_sub u 1 in
  let v := fe_add v 1 in
  let v3 := fe_mul (fe_mul v v) v in
  let x := fe_mul (fe_mul (fe_mul v3 v3) v) u in
  let x := fe_pow22523 x in
  let x := fe_mul (fe_mul x v3) u in
  let vxx := fe_mul (fe_mul x x) v in
  if fe_sub vxx u =? 0 then Some x else
  if fe_add vxx u =? 0 then Some (fe_mul x edI) else None.
Lemma from_bytes_root : forall s, ge_FromBytes s =
  match root_of (fe_FromBytes s) with
  | None => None
  | Some x => Some (if fe_IsNegative x =? Z.shiftr (nth 31 s 0) 7 then (x, fe_FromBytes s) else (fe_neg x, fe_FromBytes s))
  end.
Proof. intros s. unfold ge_FromBytes, root_of. cbv zeta. reflexivity. Qed.
Lemma fr_pow22523 : forall w z, fr w z -> fr (fe_pow22523 w) (z ^ (2 ^ 252 - 3)).
Proof. intros w z H. unfold fe_pow22523. apply fr_pow; [discriminate|exact H]. Qed.
Lemma frD : fr edD edD. Proof. reflexivity. Qed.
Lemma frI : fr edI edI. Proof. reflexivity. Qed.
Local Opaque fe_mul fe_add fe_sub fe_neg fe_pow22523 powm edP edD edI.
Lemma root_spec : forall y, 0 <= y < edP ->
  match root_of y with
  | Some x => 0 <= x < edP /\ (edP | y * y - x * x - 1 - edD * (x * x) * (y * y))
  | None => forall r, ~ (edP | y * y - r * r - 1 - edD * (r * r) * (y * y))
  end.
Proof.
  intros y Hy. unfold root_of. cbv zeta. pose proof (fr_red y Hy) as Fy. pose proof frD as FD. pose proof frI as FI.
  pose proof (fr_sub _ _ _ _ (fr_mul _ _ _ _ Fy Fy) fr_1) as Fu.
  pose proof (fr_add _ _ _ _ (fr_mul _ _ _ _ (fr_mul _ _ _ _ Fy Fy) FD) fr_1) as Fv.
  set (u := fe_sub (fe_mul y y) 1) in *. set (v := fe_add (fe_mul (fe_mul y y) edD) 1) in *.
  set (U := y * y - 1) in *. set (V := y * y * edD + 1) in *.
  pose proof (fr_mul _ _ _ _ (fr_mul _ _ _ _ Fv Fv) Fv) as F3. set (v3 := fe_mul (fe_mul v v) v) in *.
  pose proof (fr_mul _ _ _ _ (fr_mul _ _ _ _ (fr_mul _ _ _ _ F3 F3) Fv) Fu) as Fw. set (w := fe_mul (fe_mul (fe_mul v3 v3) v) u) in *.
  assert (K : 0 <= 2 ^ 252 - 3) by discriminate.
  pose proof (fr_pow22523 w _ Fw) as Fq.
  pose proof (fr_mul _ _ _ _ (fr_mul _ _ _ _ Fq F3) Fu) as Fx. set (x := fe_mul (fe_mul (fe_pow22523 w) v3) u) in *.
  pose proof (root_5mod8 edP (2 ^ 252 - 3) edP_prime pow22523 K U V) as RT. cbv zeta in RT.
  replace (V * V * V * (V * V * V) * V * U) with (U * (V * V * V * (V * V * V) * V)) in Fx by ring.
  set (q := (U * (V * V * V * (V * V * V) * V)) ^ (2 ^ 252 - 3)) in *. replace (q * (V * V * V) * U) with (U * (V * V * V) * q) in Fx by ring.
  set (X := U * (V * V * V) * q) in *. clearbody q.
  pose proof (fr_mul _ _ _ _ (fr_mul _ _ _ _ Fx Fx) Fv) as Fs. set (vxx := fe_mul (fe_mul x x) v) in *.
  pose proof (fr_sub _ _ _ _ Fs Fu) as Fa. pose proof (fr_add _ _ _ _ Fs Fu) as Fb.
  pose proof (fr_div _ _ Fx) as Dx. assert (Rx := fr_range _ _ Fx).
  assert (SQ : forall a b, (edP | a - b) -> (edP | a * a - b * b)).
  { intros a b D. replace (a * a - b * b) with ((a - b) * (a + b)) by ring. apply Z.divide_mul_l. exact D. }
  assert (ON : forall a b, (edP | a - b) -> (edP | V * (b * b) - U) -> (edP | y * y - a * a - 1 - edD * (a * a) * (y * y))).
  { intros a b D1 D2. replace (y * y - a * a - 1 - edD * (a * a) * (y * y)) with (- (V * (b * b) - U) - V * (a * a - b * b)) by (unfold V, U; ring).
    apply Z.divide_sub_r; [apply (proj2 (Z.divide_opp_r _ _)); exact D2|apply Z.divide_mul_r, SQ, D1]. }
  destruct (Z.eqb_spec (fe_sub vxx u) 0) as [E|E].
  - split; [exact Rx|]. apply (fr_zero _ _ Fa) in E. apply (ON x X Dx). replace (V * (X * X) - U) with (X * X * V - U) by ring. exact E.
  - destruct (Z.eqb_spec (fe_add vxx u) 0) as [E'|E'].
    + pose proof (fr_mul _ _ _ _ Fx FI) as Fr. split; [exact (fr_range _ _ Fr)|]. apply (fr_zero _ _ Fb) in E'.
      apply (ON _ (X * edI) (fr_div _ _ Fr)). replace (V * (X * edI * (X * edI)) - U) with (X * X * V * (edI * edI + 1) - (X * X * V + U)) by ring.
      apply Z.divide_sub_r; [apply Z.divide_mul_r; exact edI_sqr|exact E'].
    + intros r D. assert (D' : (edP | V * (r * r) - U)).
      { replace (V * (r * r) - U) with (- (y * y - r * r - 1 - edD * (r * r) * (y * y))) by (unfold V, U; ring). apply (proj2 (Z.divide_opp_r _ _)). exact D. }
      destruct (RT r D') as [C|C].
      * apply E. apply (fr_zero _ _ Fa). replace (X * X * V - U) with (V * (X * X) - U) by ring. exact C.
      * apply E'. apply (fr_zero _ _ Fb). replace (X * X * V + U) with (V * (X * X) + U) by ring. exact C.
Qed.
Lemma FromBytes_range : forall b, 0 <= fe_FromBytes b < edP.
Proof. intros b. apply Z.mod_pos_bound. exact edP_pos. Qed.
Lemma FromBytes_val : forall b y, 0 <= y < edP -> (edP | y - lev b mod 2 ^ 255) <-> y = fe_FromBytes b.
Proof.
  intros b y Hy. unfold fe_FromBytes. rewrite lev_le2z. generalize (lev b mod 2 ^ 255). intros z. split.
  - intros [k E]. replace z with (y + (- k) * edP) by lia. rewrite Z_mod_plus_full. symmetry. apply Z.mod_small. exact Hy.
  - intros ->. apply (fr_div (z mod edP) z). reflexivity.
Qed.
(** ge_FromBytes finds the point that the bytes are read as *)
Lemma from_bytes_iff : forall b x y, octets b -> length b = 32%nat ->
  (ge_FromBytes b = Some (x, y) <-> exists P, edco P x y /\ (edP | y - lev b mod 2 ^ 255) /\ (x = 0 \/ x mod 2 = lev b / 2 ^ 255)).
Proof.
  intros b x y Ob Lb. destruct (sign_bit b Ob Lb) as [SB BB]. rewrite from_bytes_root, SB. pose proof (FromBytes_range b) as RY.
  assert (SND : forall x1, root_of (fe_FromBytes b) = Some x1 -> exists P, edco P
     (if fe_IsNegative x1 =? lev b / 2 ^ 255 then x1 else fe_neg x1) (fe_FromBytes b) /\
     ((if fe_IsNegative x1 =? lev b / 2 ^ 255 then x1 else fe_neg x1) = 0 \/ (if fe_IsNegative x1 =? lev b / 2 ^ 255 then x1 else fe_neg x1) mod 2 = lev b / 2 ^ 255)).
  { intros x1 E. pose proof (root_spec _ RY) as R. rewrite E in R. destruct R as [RX ON]. destruct (eA ate_make x1 (fe_FromBytes b) ON) as [P A].
    unfold fe_IsNegative. rewrite (Z.mod_small x1 edP) by exact RX. destruct (Z.eqb_spec (x1 mod 2) (lev b / 2 ^ 255)) as [S1|S1].
    - exists P. split; [exact (conj A (conj RX RY))|right; exact S1].
    - exists (gneg P). split; [apply edco_neg; exact (conj A (conj RX RY))|]. rewrite (fe_neg_val x1 RX). destruct (Z.eqb_spec x1 0) as [->|N]; [left; reflexivity|].
      right. rewrite opp_par by lia. pose proof (Z.mod_pos_bound x1 2 ltac:(lia)). lia. }
  split.
  - destruct (root_of (fe_FromBytes b)) as [x1|] eqn:R; [|discriminate]. destruct (SND x1 eq_refl) as (P & C & SG).
    intros E. assert (E' : x = (if fe_IsNegative x1 =? lev b / 2 ^ 255 then x1 else fe_neg x1) /\ y = fe_FromBytes b).
    { destruct (fe_IsNegative x1 =? lev b / 2 ^ 255); split; congruence. }
    destruct E' as [-> ->]. exists P. split; [exact C|]. split; [|exact SG]. apply FromBytes_val; [exact RY|reflexivity].
  - intros (P & C & Y & SG). pose proof C as (A & RX & RY'). apply (FromBytes_val b y RY') in Y. subst y.
    destruct (root_of (fe_FromBytes b)) as [x1|] eqn:R.
    + destruct (SND x1 eq_refl) as (Q & C' & SG').
      pose proof (read_unique (lev b / 2 ^ 255) P Q _ _ _ _ BB C C' eq_refl SG SG') as E. destruct (fe_IsNegative x1 =? lev b / 2 ^ 255); rewrite E; reflexivity.
    + pose proof (root_spec _ RY) as N. rewrite R in N. exfalso. apply (N x). exact (eA ate_on P x _ A).
Qed.
Lemma from_bytes_read : forall b, octets b -> length b = 32%nat ->
  match ge_FromBytes b with
  | Some (x, y) => exists P, edco P x y /\ read_as b P /\ forall Q, read_as b Q -> Q = P
  | None => forall P, ~ read_as b P
  end.
Proof.
  intros b Ob Lb. destruct (ge_FromBytes b) as [[x y]|] eqn:E.
  - pose proof E as E'. apply (from_bytes_iff b x y Ob Lb) in E. destruct E as (P & C & Y & SG). exists P. split; [exact C|]. split; [exists x, y; exact (conj C (conj Y SG))|].
    intros Q (x' & y' & C' & R'). assert (F : ge_FromBytes b = Some (x', y')) by (apply from_bytes_iff; [exact Ob|exact Lb|exists Q; exact (conj C' R')]).
    rewrite F in E'. assert (x' = x /\ y' = y) as [-> ->] by (split; congruence). exact (edco_inj Q P x y C' C).
  - intros P (x & y & C & R). assert (F : ge_FromBytes b = Some (x, y)) by (apply from_bytes_iff; [exact Ob|exact Lb|exists P; exact (conj C R)]). congruence.
Qed.

(** ** Addition and multiples *)
Local Transparent edP.
Lemma fr_invert : forall a z, fr a z -> ~ (edP | z) -> exists w, fr (fe_invert a) w /\ (edP | z * w - 1).
Proof.
  intros a z F N. pose proof edP_odd. assert (E2 : 0 <= edP - 2) by lia. exists (z ^ (edP - 2)). split; [unfold fe_invert; apply fr_pow; assumption|].
  rewrite <- Z.pow_succ_r by exact E2. replace (Z.succ (edP - 2)) with (edP - 1) by lia.
  pose proof (fermat_unit edP z edP_prime N) as M. apply Z.mod_divide; [lia|]. rewrite Zminus_mod, M, Z.mod_1_l by lia. apply Z.mod_0_l. lia.
Qed.
Local Opaque fe_invert edP.
Lemma ge_add_co : forall P Q x1 y1 x2 y2, edco P x1 y1 -> edco Q x2 y2 -> edco (gadd P Q) (fst (ge_add (x1, y1) (x2, y2))) (snd (ge_add (x1, y1) (x2, y2))).
Proof.
  intros P Q x1 y1 x2 y2 (A & X1 & Y1) (B & X2 & Y2). cbn [ge_add fst snd].
  pose proof (fr_red _ X1) as Fx1. pose proof (fr_red _ Y1) as Fy1. pose proof (fr_red _ X2) as Fx2. pose proof (fr_red _ Y2) as Fy2.
  pose proof (fr_mul _ _ _ _ frD (fr_mul _ _ _ _ (fr_mul _ _ _ _ Fx1 Fx2) (fr_mul _ _ _ _ Fy1 Fy2))) as Ft.
  set (t := fe_mul edD (fe_mul (fe_mul x1 x2) (fe_mul y1 y2))) in *. set (T := edD * (x1 * x2 * (y1 * y2))) in *.
  destruct (eA ate_dens P Q x1 y1 x2 y2 A B) as [D1 D2]. assert (TE : edD * (x1 * x2 * y1 * y2) = T) by (unfold T; ring). rewrite TE in D1, D2.
  destruct (fr_invert _ _ (fr_add _ _ _ _ fr_1 Ft) D1) as (w1 & F1 & W1). destruct (fr_invert _ _ (fr_sub _ _ _ _ fr_1 Ft) D2) as (w2 & F2 & W2).
  pose proof (fr_mul _ _ _ _ (fr_add _ _ _ _ (fr_mul _ _ _ _ Fx1 Fy2) (fr_mul _ _ _ _ Fx2 Fy1)) F1) as FX.
  pose proof (fr_mul _ _ _ _ (fr_add _ _ _ _ (fr_mul _ _ _ _ Fy1 Fy2) (fr_mul _ _ _ _ Fx1 Fx2)) F2) as FY.
  split; [|split; [exact (fr_range _ _ FX)|exact (fr_range _ _ FY)]]. pose proof (fr_div _ _ FX) as DX. pose proof (fr_div _ _ FY) as DY.
  set (x3 := fe_mul (fe_add (fe_mul x1 y2) (fe_mul x2 y1)) (fe_invert (fe_add 1 t))) in *.
  set (y3 := fe_mul (fe_add (fe_mul y1 y2) (fe_mul x1 x2)) (fe_invert (fe_sub 1 t))) in *. clearbody x3 y3.
  apply (eA ate_add P Q x1 y1 x2 y2 x3 y3 A B); rewrite TE; clearbody T.
  - replace (x3 * (1 + T) - (x1 * y2 + x2 * y1)) with ((x3 - (x1 * y2 + x2 * y1) * w1) * (1 + T) + (x1 * y2 + x2 * y1) * ((1 + T) * w1 - 1)) by ring.
    apply Z.divide_add_r; [apply Z.divide_mul_l; exact DX|apply Z.divide_mul_r; exact W1].
  - replace (y3 * (1 - T) - (y1 * y2 + x1 * x2)) with ((y3 - (y1 * y2 + x1 * x2) * w2) * (1 - T) + (y1 * y2 + x1 * x2) * ((1 - T) * w2 - 1)) by ring.
    apply Z.divide_add_r; [apply Z.divide_mul_l; exact DY|apply Z.divide_mul_r; exact W2].
Qed.
Definition edcp (P : pt edG) (c : Z * Z) : Prop := edco P (fst c) (snd c).
Lemma ge_add_cp : forall P Q a b, edcp P a -> edcp Q b -> edcp (gadd P Q) (ge_add a b).
Proof. intros P Q [x1 y1] [x2 y2] A B. exact (ge_add_co P Q x1 y1 x2 y2 A B). Qed.
Lemma ge_mul_pos_cp : forall P c, edcp P c -> forall k, edcp (gmul (Zpos k) P) (ge_mul_pos k c).
Proof.
  intros P c A. induction k as [k IH|k IH|]; cbn [ge_mul_pos].
  - rewrite Pos2Z.inj_xI, gmul_add, gmul_1. replace (2 * Z.pos k) with (Z.pos k + Z.pos k) by lia. rewrite gmul_add.
    apply ge_add_cp; [apply ge_add_cp; exact IH|exact A].
  - rewrite Pos2Z.inj_xO. replace (2 * Z.pos k) with (Z.pos k + Z.pos k) by lia. rewrite gmul_add. apply ge_add_cp; exact IH.
  - rewrite gmul_1. exact A.
Qed.
Lemma ge_mul_cp : forall P c k, edcp P c -> 0 <= k -> edcp (gmul k P) (ge_mul k c).
Proof.
  intros P c [|k|k] A H; [rewrite gmul_0; exact edco_O|apply ge_mul_pos_cp; exact A|lia].
Qed.
Lemma base_cp : edcp edB (edBx, edBy).
Proof. split; [exact edB_at|]. cbn [fst snd]. Local Transparent edP. split; (split; [discriminate|reflexivity]). Local Opaque edP. Qed.
Lemma lev_nonneg : forall b, octets b -> 0 <= lev b.
Proof. intros b H. apply lev_bound. exact H. Qed.
Lemma ScalarMultBase_cp : forall a, octets a -> edcp (gmul (lev a) edB) (ge_ScalarMultBase a).
Proof. intros a H. unfold ge_ScalarMultBase. rewrite lev_le2z. apply ge_mul_cp; [exact base_cp|apply lev_nonneg; exact H]. Qed.
Lemma DoubleScalarMult_cp : forall a A c b, octets a -> octets b -> edcp A c ->
  edcp (gadd (gmul (lev a) A) (gmul (lev b) edB)) (ge_DoubleScalarMult a c b).
Proof.
  intros a A c b Ha Hb C. unfold ge_DoubleScalarMult. rewrite !lev_le2z. apply ge_add_cp; apply ge_mul_cp; try assumption; try (apply lev_nonneg; assumption). exact base_cp.
Qed.

(** ** Encoding points *)
Lemma top_xor : forall h s, 0 <= h < 128 -> 0 <= s <= 1 -> Z.lxor h (Z.shiftl s 7) = h + 128 * s.
Proof.
  intros h s Hh Hs. assert (C : s = 0 \/ s = 1) by lia. destruct C as [-> | ->].
  - rewrite Z.shiftl_0_l, Z.lxor_0_r. lia.
  - change (Z.shiftl 1 7) with 128. rewrite Z.mul_1_r. symmetry. apply Z.add_nocarry_lxor. apply Z.bits_inj'. intros n Hn. rewrite Z.land_spec, Z.bits_0.
    destruct (Z.eq_dec n 7) as [->|N].
    + rewrite (Z.bits_above_log2 h 7); [reflexivity|lia|]. destruct (Z.eq_dec h 0) as [->|]; [reflexivity|]. apply Z.log2_lt_pow2; [lia|]. change (2 ^ 7) with 128. lia.
    + change 128 with (2 ^ 7). rewrite Z.pow2_bits_false by lia. apply andb_false_r.
Qed.
Lemma edP_255 : edP < 2 ^ 255. Proof. Local Transparent edP. reflexivity. Local Opaque edP. Qed.
Lemma ToBytes_ok : forall P c, edcp P c -> point_bytes P (ge_ToBytes c).
Proof.
  intros P [x y] C. pose proof C as (A & X & Y). cbn [fst snd] in *. exists x, y. split; [exact C|]. unfold ge_ToBytes, fe_ToBytes, fe_IsNegative. cbn [fst snd].
  rewrite (Z.mod_small y edP Y), (Z.mod_small x edP X). pose proof edP_255. assert (Hy : 0 <= y < 256 ^ Z.of_nat 32) by (change (256 ^ Z.of_nat 32) with (2 * 2 ^ 255); lia).
  pose proof (z2le_length 32 y) as L. pose proof (z2le_octets 32 y) as Oc. pose proof (lev_z2le 32 y Hy) as V. pose proof (last_byte _ Oc L) as T. rewrite V in T.
  pose proof (Z.mod_pos_bound x 2 ltac:(lia)) as PX.
  assert (TB : 0 <= y / 2 ^ 248 < 128) by (split; [apply Z.div_pos; lia|apply Z.div_lt_upper_bound; lia]).
  rewrite T, top_xor by lia. split; [|split].
  - rewrite set_nth_length. exact L.
  - apply octets_set; [unfold is_byte; lia|exact Oc].
  - rewrite lev_set by (rewrite L; lia). rewrite V, T. change (256 ^ Z.of_nat 31) with (2 ^ 248). change (2 ^ 255) with (2 ^ 248 * 128). ring.
Qed.
Lemma point_bytes_fun : forall P a b, point_bytes P a -> point_bytes P b -> a = b.
Proof.
  intros P a b (x & y & C & L & Oc & V) (x' & y' & C' & L' & O' & V'). destruct (edco_fun P x y x' y' C C') as [<- <-].
  apply lev_inj; [exact Oc|exact O'|congruence|congruence].
Qed.
Lemma point_bytes_read : forall P b, point_bytes P b -> read_as b P.
Proof.
  intros P b (x & y & C & L & Oc & V). exists x, y. split; [exact C|]. pose proof C as (A & X & Y). pose proof edP_255. pose proof (Z.mod_pos_bound x 2 ltac:(lia)).
  rewrite V. split.
  - rewrite (Z.mul_comm (2 ^ 255)), Z_mod_plus_full, Z.mod_small by lia. exists 0. lia.
  - right. rewrite (Z.mul_comm (2 ^ 255)), Z.div_add by discriminate. rewrite Z.div_small by lia. lia.
Qed.
Lemma read_fun : forall b P Q, octets b -> length b = 32%nat -> read_as b P -> read_as b Q -> P = Q.
Proof.
  intros b P Q Ob Lb HP HQ. pose proof (from_bytes_read b Ob Lb) as F. destruct (ge_FromBytes b) as [[x y]|].
  - destruct F as (R & _ & _ & U). rewrite (U P HP), (U Q HQ). reflexivity.
  - destruct (F P HP).
Qed.
Lemma point_bytes_inj : forall P Q b, point_bytes P b -> point_bytes Q b -> P = Q.
Proof.
  intros P Q b HP HQ. pose proof HP as (x & y & C & L & Oc & V). apply (read_fun b); [exact Oc|exact L|apply point_bytes_read; exact HP|apply point_bytes_read; exact HQ].
Qed.

(** ** Scalars *)
Lemma edL_pos : 0 < edL. Proof. reflexivity. Qed.
Lemma edL_253 : edL < 2 ^ 253. Proof. reflexivity. Qed.
Local Opaque edL.
Lemma scalar_bytes : forall z, 0 <= z < edL -> lev (z2le 32 z) = z.
Proof. intros z H. apply lev_z2le. pose proof edL_253. change (256 ^ Z.of_nat 32) with (8 * 2 ^ 253). lia. Qed.
Lemma Reduce_val : forall s, lev (sc_Reduce s) = lev s mod edL.
Proof. intros s. unfold sc_Reduce. rewrite lev_le2z. apply scalar_bytes. apply Z.mod_pos_bound. exact edL_pos. Qed.
Lemma MulAdd_val : forall a b c, lev (sc_MulAdd a b c) = (lev a * lev b + lev c) mod edL.
Proof. intros a b c. unfold sc_MulAdd. rewrite !lev_le2z. apply scalar_bytes. apply Z.mod_pos_bound. exact edL_pos. Qed.
(** bytes below 2^253 have the top three bits clear *)
Lemma top3 : forall h, 0 <= h < 32 -> Z.land h 224 = 0.
Proof.
  intros h H. apply Z.bits_inj'. intros n Hn. rewrite Z.land_spec, Z.bits_0. destruct (Z.ltb_spec n 5) as [L|L].
  - replace (Z.testbit 224 n) with false; [apply andb_false_r|]. assert (C : n = 0 \/ n = 1 \/ n = 2 \/ n = 3 \/ n = 4) by lia.
    destruct C as [-> | [-> | [-> | [-> | ->]]]]; reflexivity.
  - replace (Z.testbit h n) with false; [reflexivity|]. symmetry. apply Z.testbit_false; [lia|]. rewrite Z.div_small; [reflexivity|].
    split; [lia|]. apply Z.lt_le_trans with (2 ^ 5); [change (2 ^ 5) with 32; lia|]. apply Z.pow_le_mono_r; lia.
Qed.
Lemma top3_low : forall b, octets b -> length b = 32%nat -> lev b < edL -> Z.land (nth 31 b 0) 224 = 0.
Proof.
  intros b Ob L H. rewrite (last_byte b Ob L). pose proof edL_253. pose proof (lev_nonneg b Ob). apply top3.
  split; [apply Z.div_pos; lia|apply Z.div_lt_upper_bound; [lia|]]. change (2 ^ 248 * 32) with (2 ^ 253). lia.
Qed.
Lemma skip32_63 : forall s : bytes, nth 63 s 0 = nth 31 (skipn 32 s) 0.
Proof.
  intros s. rewrite <- (firstn_skipn 32 s) at 1. destruct (Nat.le_gt_cases 32 (length s)) as [L|L].
  - rewrite app_nth2; rewrite firstn_length, Nat.min_l by exact L; [reflexivity|lia].
  - rewrite skipn_all2 by lia. rewrite app_nil_r. rewrite firstn_all2 by lia. rewrite nth_overflow by lia. destruct (skipn 32 s); reflexivity.
Qed.

(** ** Secret scalars *)
Lemma clamp_bits : forall b, is_byte b -> Z.lor (Z.land b 127) 64 = Z.lor (Z.land b 63) 64 /\ Z.lor (Z.land b 63) 64 = 64 + b mod 64.
Proof.
  intros b _. split.
  - change 127 with (Z.lor 63 64). rewrite Z.land_lor_distr_r, <- Z.lor_assoc. f_equal. rewrite (Z.land_comm b 64). apply Z.bits_inj'. intros n _.
    rewrite Z.lor_spec, Z.land_spec. destruct (Z.testbit 64 n), (Z.testbit b n); reflexivity.
  - change 63 with (Z.ones 6). rewrite Z.land_ones by lia. change (2 ^ 6) with 64. pose proof (Z.mod_pos_bound b 64 ltac:(lia)) as B.
    rewrite Z.lor_comm. generalize dependent (b mod 64). intros r B.
    assert (Z0 : Z.land 64 r = 0).
    { rewrite Z.land_comm. apply Z.bits_inj'. intros n Hn. rewrite Z.land_spec, Z.bits_0. destruct (Z.eq_dec n 6) as [->|N].
      - rewrite (Z.bits_above_log2 r 6); [reflexivity|lia|]. destruct (Z.eq_dec r 0) as [->|]; [reflexivity|]. apply Z.log2_lt_pow2; [lia|]. change (2 ^ 6) with 64. lia.
      - change 64 with (2 ^ 6). rewrite Z.pow2_bits_false by lia. apply andb_false_r. }
    rewrite <- Z.lxor_lor by exact Z0. symmetry. apply Z.add_nocarry_lxor. exact Z0.
Qed.
Lemma clamp_low : forall b, is_byte b -> Z.land b 248 = b - b mod 8.
Proof.
  intros b Hb. assert (E : Z.land b 248 = Z.ldiff b 7).
  { apply Z.bits_inj'. intros n Hn. rewrite Z.land_spec, Z.ldiff_spec. destruct (Z.ltb_spec n 8) as [L|L].
    - f_equal. assert (C : n = 0 \/ n = 1 \/ n = 2 \/ n = 3 \/ n = 4 \/ n = 5 \/ n = 6 \/ n = 7) by lia.
      repeat (destruct C as [-> | C]; [reflexivity|]). subst n. reflexivity.
    - unfold is_byte in Hb. replace (Z.testbit b n) with false; [reflexivity|]. symmetry. apply Z.testbit_false; [lia|]. rewrite Z.div_small; [reflexivity|].
      split; [lia|]. apply Z.lt_le_trans with (2 ^ 8); [change (2 ^ 8) with 256; lia|]. apply Z.pow_le_mono_r; lia. }
  rewrite E. change 7 with (Z.ones 3). rewrite Z.ldiff_ones_r, Z.shiftl_mul_pow2, Z.shiftr_div_pow2 by lia. change (2 ^ 3) with 8.
  pose proof (Z.div_mod b 8 ltac:(lia)). lia.
Qed.
Definition clamp (b : bytes) : bytes :=
  let b := set_nth 0 (Z.land (nth 0 b 0) 248) b in
  let b := set_nth 31 (Z.land (nth 31 b 0) 63) b in
  set_nth 31 (Z.lor (nth 31 b 0) 64) b.
Lemma nth_set31 : forall v b, (31 < length b)%nat -> nth 31 (set_nth 31 v b) 0 = v.
Proof. intros v b L. apply P256Sched.nth_set_same. exact L. Qed.
Lemma set_set31 : forall v w (b : bytes), set_nth 31 w (set_nth 31 v b) = set_nth 31 w b.
Proof.
  intros v w. generalize 31%nat as i. induction i as [|i IH]; intros [|x b]; cbn [set_nth]; try reflexivity. f_equal. apply IH.
Qed.
Lemma is_byte_clamp : forall b, is_byte b -> is_byte (64 + b mod 64).
Proof. intros b _. unfold is_byte. pose proof (Z.mod_pos_bound b 64 ltac:(lia)). lia. Qed.
Lemma first_byte : forall b, octets b -> nth 0 b 0 = lev b mod 256.
Proof.
  intros [|x b] H; [reflexivity|]. cbn [nth lev]. rewrite Z.mul_comm, Z_mod_plus_full. symmetry. apply Z.mod_small. exact (Forall_inv H).
Qed.
Lemma clamp_val : forall b, octets b -> length b = 32%nat -> octets (clamp b) /\ length (clamp b) = 32%nat /\ lev (clamp b) = secret_scalar (lev b).
Proof.
  intros b Ob L. unfold clamp. cbv zeta. set (b0 := set_nth 0 _ b).
  assert (N0 := nth_octet 0 b Ob). assert (L0 : length b0 = 32%nat) by (unfold b0; rewrite set_nth_length; exact L).
  assert (O0 : octets b0).
  { apply octets_set; [|exact Ob]. rewrite (clamp_low _ N0). unfold is_byte in *. pose proof (Z.mod_pos_bound (nth 0 b 0) 8 ltac:(lia)). pose proof (Z.mod_le (nth 0 b 0) 8 ltac:(lia) ltac:(lia)). lia. }
  rewrite nth_set31 by (rewrite L0; lia). rewrite set_set31. assert (N31 := nth_octet 31 b0 O0). rewrite (proj2 (clamp_bits _ N31)).
  assert (E31 : nth 31 b0 0 = nth 31 b 0) by (unfold b0; apply P256Sched.nth_set_other; discriminate). rewrite E31 in *.
  split; [apply octets_set; [apply is_byte_clamp; exact N31|exact O0]|]. split; [rewrite set_nth_length; exact L0|].
  rewrite lev_set by (rewrite L0; lia). rewrite E31. unfold b0. rewrite lev_set by (rewrite L; lia). rewrite (clamp_low _ N0), (first_byte b Ob), (last_byte b Ob L).
  change (256 ^ Z.of_nat 0) with 1. change (256 ^ Z.of_nat 31) with (2 ^ 248). unfold secret_scalar. pose proof (lev_bound b Ob) as B. unfold zlen in B. rewrite L in B.
  change (256 ^ Z.of_nat 32) with (2 ^ 256) in B. set (v := lev b) in *. clearbody v.
  assert (M8 : (v mod 256) mod 8 = v mod 8) by (symmetry; apply Znumtheory.Zmod_div_mod; [lia|lia|exists 32; reflexivity]). rewrite M8.
  assert (S : v mod 2 ^ 254 = v mod 2 ^ 248 + 2 ^ 248 * ((v / 2 ^ 248) mod 64)).
  { change (2 ^ 254) with (2 ^ 248 * 64). apply Z.rem_mul_r; lia. }
  rewrite S. pose proof (Z.div_mod v (2 ^ 248) ltac:(discriminate)). change (2 ^ 254) with (64 * 2 ^ 248). lia.
Qed.
Lemma secret_range : forall h, 2 ^ 254 <= secret_scalar h < 2 ^ 255 /\ (8 | secret_scalar h).
Proof.
  intros h. unfold secret_scalar. pose proof (Z.mod_pos_bound h (2 ^ 254) ltac:(reflexivity)) as B.
  assert (M : (h mod 2 ^ 254) mod 8 = h mod 8) by (symmetry; apply Znumtheory.Zmod_div_mod; [reflexivity|reflexivity|exists (2 ^ 251); reflexivity]).
  rewrite <- M. set (r := h mod 2 ^ 254) in *. clearbody r. clear M h. pose proof (Z.mod_pos_bound r 8 ltac:(lia)) as R. pose proof (Z.mod_le r 8 ltac:(lia) ltac:(lia)). split.
  - change (2 ^ 255) with (2 ^ 254 + 2 ^ 254). lia.
  - apply Z.divide_add_r; [exists (2 ^ 251); reflexivity|]. exists (r / 8). pose proof (Z.div_mod r 8 ltac:(lia)). lia.
Qed.
(** no secret scalar is a multiple of the order *)
Lemma edL_8 : 2 ^ 255 < 8 * edL. Proof. Local Transparent edL. reflexivity. Qed.
Lemma edL_odd : prime edL -> edL <> 2. Proof. intros _. discriminate. Qed.
Local Opaque edL.
Lemma secret_nonzero : forall h, secret_scalar h mod edL <> 0.
Proof.
  intros h E. destruct (secret_range h) as [R D]. set (a := secret_scalar h) in *. clearbody a. apply Z.mod_divide in E; [|pose proof edL_pos; lia].
  assert (D8 : (8 * edL | a)).
  { destruct E as [k E]. rewrite E in D. assert (RP : rel_prime 8 edL).
    { apply rel_prime_sym. apply prime_rel_prime; [exact edL_prime|]. intros C. pose proof edL_8. apply Z.divide_pos_le in C; [|lia].
      assert (2 ^ 255 < 8 * 8) by lia. discriminate. }
    rewrite Z.mul_comm in D. apply Gauss in D; [|exact RP]. destruct D as [j ->]. exists j. rewrite E. ring. }
  apply Z.divide_pos_le in D8; [|pose proof (eq_refl : (0 ?= 2 ^ 254) = Lt); lia]. pose proof edL_8. lia.
Qed.
