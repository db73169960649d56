(** * NumTheory: Fermat, Frobenius in Z[x]/(x^2 - P x + Q), square roots modulo primes *)
From Coq Require Import ZArith Znumtheory Zpow_facts Lia List Ring.
Open Scope Z_scope.

(** ** the ring Z[x]/(x^2 - P x + Q), elements a + b x *)
Section Pairs.
Variables P Q : Z.
Definition qr := (Z * Z)%type.
Definition qadd (u v : qr) : qr := (fst u + fst v, snd u + snd v).
Definition qmul (u v : qr) : qr :=
  (fst u * fst v - snd u * snd v * Q, fst u * snd v + snd u * fst v + snd u * snd v * P).
Definition qopp (u : qr) : qr := (- fst u, - snd u).
Definition qsub (u v : qr) : qr := (fst u - fst v, snd u - snd v).
Definition q0 : qr := (0, 0).
Definition q1 : qr := (1, 0).
Definition qx : qr := (0, 1).
Definition qz (a : Z) : qr := (a, 0).

Lemma q_ring : ring_theory q0 q1 qadd qmul qsub qopp (@eq qr).
Proof.
  constructor; unfold qadd, qmul, qsub, qopp, q0, q1; intros; repeat match goal with u : qr |- _ => destruct u end;
    cbn [fst snd]; f_equal; ring.
Qed.
Add Ring qring : q_ring.

Fixpoint qpow (u : qr) (n : nat) : qr := match n with O => q1 | S n' => qmul u (qpow u n') end.
Fixpoint qsum (f : nat -> qr) (n : nat) : qr := match n with O => f O | S n' => qadd (qsum f n') (f n) end.

(** binomial coefficients *)
Fixpoint binom (n k : nat) : Z :=
  match n, k with
  | _, O => 1
  | O, S _ => 0
  | S n', S k' => binom n' k' + binom n' k
  end.
Lemma binom_big : forall n k, (n < k)%nat -> binom n k = 0.
Proof.
  induction n; destruct k; intros; simpl; auto; try lia. rewrite !IHn by lia. reflexivity.
Qed.
Lemma binom_diag : forall n, binom n n = 1.
Proof. induction n; simpl; auto. rewrite IHn, binom_big by lia. reflexivity. Qed.
Lemma binom_S : forall n k, binom (S n) (S k) = binom n k + binom n (S k).
Proof. reflexivity. Qed.
Lemma binom_0 : forall n, binom n 0 = 1.
Proof. destruct n; reflexivity. Qed.
Lemma binom_absorb : forall n k, Z.of_nat (S k) * binom (S n) (S k) = Z.of_nat (S n) * binom n k.
Proof.
  induction n as [|n IH]; intros k.
  - destruct k; simpl; auto.
  - destruct k as [|k].
    + rewrite binom_S, !binom_0. specialize (IH O). rewrite binom_0 in IH.
      change (Z.of_nat 1) with 1 in *. lia.
    + rewrite binom_S. rewrite Z.mul_add_distr_l. rewrite (IH (S k)).
      pose proof (IH k) as IHk.
      rewrite (binom_S n k) in *. 
      replace (Z.of_nat (S (S k))) with (Z.of_nat (S k) + 1) by lia.
      replace (Z.of_nat (S (S n))) with (Z.of_nat (S n) + 1) by lia.
      nia.
Qed.

Lemma qsum_add : forall f g n, qsum (fun i => qadd (f i) (g i)) n = qadd (qsum f n) (qsum g n).
Proof. induction n; simpl; auto. rewrite IHn. ring. Qed.
Lemma qsum_mul : forall c f n, qsum (fun i => qmul c (f i)) n = qmul c (qsum f n).
Proof. induction n; simpl; auto. rewrite IHn. ring. Qed.
Lemma qsum_shift : forall f n, qsum f (S n) = qadd (f O) (qsum (fun i => f (S i)) n).
Proof.
  induction n; [reflexivity|]. change (qsum f (S (S n))) with (qadd (qsum f (S n)) (f (S (S n)))).
  rewrite IHn. cbn [qsum]. ring.
Qed.
Lemma qsum_ext : forall f g n, (forall i, (i <= n)%nat -> f i = g i) -> qsum f n = qsum g n.
Proof. induction n; intros H; simpl. apply H; lia. rewrite IHn, H; auto. Qed.

Lemma binomial : forall u v n,
  qpow (qadd u v) n = qsum (fun k => qmul (qz (binom n k)) (qmul (qpow u k) (qpow v (n - k)))) n.
Proof.
  intros u v. induction n as [|n IH].
  - simpl. unfold qz. unfold q1, qmul, qpow. cbn. f_equal; ring.
  - change (qpow (qadd u v) (S n)) with (qmul (qadd u v) (qpow (qadd u v) n)). rewrite IH.
    set (T := fun k => qmul (qz (binom n k)) (qmul (qpow u k) (qpow v (n - k)))).
    replace (qmul (qadd u v) (qsum T n)) with (qadd (qmul u (qsum T n)) (qmul v (qsum T n))) by ring.
    (* right side: first term, middle via Pascal *)
    rewrite qsum_shift.
    assert (E : qsum (fun i => qmul (qz (binom (S n) (S i))) (qmul (qpow u (S i)) (qpow v (S n - S i)))) n
      = qadd (qmul u (qsum T n)) (qsum (fun i => qmul (qz (binom n (S i))) (qmul (qpow u (S i)) (qpow v (n - i)))) n)).
    { rewrite <- qsum_mul, <- qsum_add. apply qsum_ext. intros i Hi. rewrite binom_S. unfold T.
      cbn [Nat.sub qpow]. replace (qz (binom n i + binom n (S i))) with (qadd (qz (binom n i)) (qz (binom n (S i)))).
      ring. unfold qadd, qz; cbn; f_equal. }
    rewrite E. clear E.
    assert (E : qadd (qmul (qz (binom (S n) 0)) (qmul (qpow u 0) (qpow v (S n - 0))))
       (qsum (fun i => qmul (qz (binom n (S i))) (qmul (qpow u (S i)) (qpow v (n - i)))) n)
       = qmul v (qsum T n)).
    { rewrite <- qsum_mul. destruct n as [|n].
      - unfold T. cbn [qsum qpow binom Nat.sub]. change (qz 1) with q1. change (qz 0) with q0. ring.
      - rewrite (qsum_shift (fun i => qmul v (T i))). f_equal.
        + unfold T. rewrite !binom_0. cbn [Nat.sub qpow]. ring.
        + cbn [qsum]. rewrite binom_big by lia.
          replace (qmul (qz 0) (qmul (qpow u (S (S n))) (qpow v (S n - S n)))) with q0 by
            (change (qz 0) with q0; ring).
          replace (qadd (qsum (fun i => qmul (qz (binom (S n) (S i))) (qmul (qpow u (S i)) (qpow v (S n - i)))) n) q0)
            with (qsum (fun i => qmul (qz (binom (S n) (S i))) (qmul (qpow u (S i)) (qpow v (S n - i)))) n) by ring.
          apply qsum_ext. intros i Hi. unfold T. replace (S n - i)%nat with (S (S n - S i)) by lia.
          cbn [qpow]. ring. }
    rewrite <- E. ring.
Qed.

(** congruence modulo m, componentwise *)
Definition qeqm (m : Z) (u v : qr) : Prop := (m | fst u - fst v) /\ (m | snd u - snd v).
Lemma qeqm_refl : forall m u, qeqm m u u.
Proof. intros; split; rewrite Z.sub_diag; apply Z.divide_0_r. Qed.
Lemma qeqm_sym : forall m u v, qeqm m u v -> qeqm m v u.
Proof.
  intros m u v [[a A] [b B]]; split; [exists (-a)|exists (-b)]; lia.
Qed.
Lemma qeqm_trans : forall m u v w, qeqm m u v -> qeqm m v w -> qeqm m u w.
Proof. intros m u v w [[a A] [b B]] [[c C] [d D]]; split; [exists (a + c)|exists (b + d)]; lia. Qed.
Lemma qeqm_add : forall m u v u' v', qeqm m u u' -> qeqm m v v' -> qeqm m (qadd u v) (qadd u' v').
Proof.
  intros m u v u' v' [[a A] [b B]] [[c C] [d D]]; split; cbn; [exists (a + c)|exists (b + d)]; lia.
Qed.
Lemma qeqm_mul_l : forall m u v v', qeqm m v v' -> qeqm m (qmul u v) (qmul u v').
Proof.
  intros m u v v' [[c C] [d D]]. unfold qmul; split; cbn.
  - exists (fst u * c - snd u * Q * d).
    replace (_ - _) with (fst u * (fst v - fst v') - snd u * Q * (snd v - snd v')) by ring. rewrite C, D. ring.
  - exists (fst u * d + snd u * c + snd u * P * d).
    replace (_ - _) with (fst u * (snd v - snd v') + snd u * (fst v - fst v') + snd u * P * (snd v - snd v')) by ring.
    rewrite C, D. ring.
Qed.
Lemma qmul_comm : forall u v, qmul u v = qmul v u.
Proof. intros; ring. Qed.
Lemma qeqm_mul : forall m u v u' v', qeqm m u u' -> qeqm m v v' -> qeqm m (qmul u v) (qmul u' v').
Proof.
  intros. eapply qeqm_trans. apply qeqm_mul_l; eauto. rewrite (qmul_comm u), (qmul_comm u'). apply qeqm_mul_l; auto.
Qed.
Lemma qeqm_pow : forall m u v n, qeqm m u v -> qeqm m (qpow u n) (qpow v n).
Proof. induction n; intros H; simpl. apply qeqm_refl. apply qeqm_mul; auto. Qed.
Lemma qeqm_qz : forall m a b, (m | a - b) -> qeqm m (qz a) (qz b).
Proof. intros; split; cbn; auto. apply Z.divide_0_r. Qed.

Lemma qpow_add : forall u a b, qpow u (a + b) = qmul (qpow u a) (qpow u b).
Proof. induction a; intros; cbn [Nat.add qpow]. ring. rewrite IHa; ring. Qed.
Lemma qpow_mul : forall u a b, qpow u (a * b) = qpow (qpow u a) b.
Proof.
  intros u a b. rewrite Nat.mul_comm. induction b; cbn [Nat.mul qpow]; auto. rewrite qpow_add, IHb. reflexivity.
Qed.
Lemma qpow_qmul : forall u v n, qpow (qmul u v) n = qmul (qpow u n) (qpow v n).
Proof. induction n; cbn [qpow]. ring. rewrite IHn; ring. Qed.
Lemma qpow_qz : forall a n, qpow (qz a) n = qz (a ^ Z.of_nat n).
Proof.
  induction n. reflexivity. cbn [qpow]. rewrite IHn, Nat2Z.inj_succ, Z.pow_succ_r by lia.
  unfold qmul, qz; cbn; f_equal; ring.
Qed.

Lemma prime_binom : forall p k, prime (Z.of_nat p) -> (0 < k < p)%nat -> (Z.of_nat p | binom p k).
Proof.
  intros p k Hp Hk. destruct p as [|p]; [lia|]. destruct k as [|k]; [lia|].
  pose proof (binom_absorb p k) as E.
  assert (D : (Z.of_nat (S p) | Z.of_nat (S k) * binom (S p) (S k))) by (exists (binom p k); rewrite E; ring).
  apply prime_mult in D; auto. destruct D as [D|D]; auto.
  apply Z.divide_pos_le in D; lia.
Qed.

Lemma qsum_zero_mod : forall m f n, (forall i, (i <= n)%nat -> qeqm m (f i) q0) -> qeqm m (qsum f n) q0.
Proof.
  induction n; intros H; simpl; [apply H; lia|].
  replace q0 with (qadd q0 q0) by ring. apply qeqm_add; auto.
Qed.

(** freshman's dream *)
Lemma frobenius_add : forall p u v, prime (Z.of_nat p) ->
  qeqm (Z.of_nat p) (qpow (qadd u v) p) (qadd (qpow u p) (qpow v p)).
Proof.
  intros p u v Hp. rewrite binomial. pose proof (prime_ge_2 _ Hp) as H2.
  destruct p as [|p]; [lia|]. destruct p as [|p]; [lia|].
  set (F := fun k => qmul (qz (binom (S (S p)) k)) (qmul (qpow u k) (qpow v (S (S p) - k)))).
  rewrite qsum_shift. cbn [qsum].
  assert (E0 : F O = qpow v (S (S p))).
  { unfold F. rewrite binom_0. change (qz 1) with q1. cbn [Nat.sub qpow]. ring. }
  assert (E1 : F (S (S p)) = qpow u (S (S p))).
  { unfold F. rewrite binom_diag, Nat.sub_diag. change (qz 1) with q1. cbn [qpow]. ring. }
  rewrite E0, E1.
  assert (Z0 : qeqm (Z.of_nat (S (S p))) (qsum (fun i => F (S i)) p) q0).
  { apply qsum_zero_mod. intros i Hi. unfold F.
    replace q0 with (qmul q0 (qmul (qpow u (S i)) (qpow v (S (S p) - S i)))) by ring.
    apply qeqm_mul; [|apply qeqm_refl]. change q0 with (qz 0). apply qeqm_qz. rewrite Z.sub_0_r.
    apply prime_binom; auto. lia. }
  eapply qeqm_trans. apply qeqm_add; [apply qeqm_refl|]. apply qeqm_add; [exact Z0|apply qeqm_refl].
  match goal with |- qeqm _ ?a ?b => replace a with b by ring end. apply qeqm_refl.
Qed.
End Pairs.

(** ** Fermat *)
Lemma fermat_nat : forall p a, prime (Z.of_nat p) -> 0 <= a -> (Z.of_nat p | a ^ Z.of_nat p - a).
Proof.
  intros p a Hp Ha. revert a Ha. apply natlike_ind.
  - rewrite Z.pow_0_l by (pose proof (prime_ge_2 _ Hp); lia). apply Z.divide_0_r.
  - intros a Ha IH. pose proof (frobenius_add 0 0 p (qz a) (qz 1) Hp) as F.
    replace (qadd (qz a) (qz 1)) with (qz (a + 1)) in F by (unfold qadd, qz; cbn; f_equal).
    rewrite !qpow_qz, Z.pow_1_l in F by lia. destruct F as [F _]. cbn in F.
    destruct F as [f F]. destruct IH as [g IH]. exists (f + g). unfold Z.succ. lia.
Qed.

Theorem fermat : forall p a, prime p -> (p | a ^ p - a).
Proof.
  intros p a Hp. pose proof (prime_ge_2 _ Hp).
  pose proof (fermat_nat (Z.to_nat p) (a mod p)) as F. rewrite Z2Nat.id in F by lia.
  pose proof (Z.mod_pos_bound a p ltac:(lia)). specialize (F Hp ltac:(lia)).
  apply Z.mod_divide; [lia|]. apply Z.mod_divide in F; [|lia].
  rewrite Zminus_mod in F |- *. rewrite Zmod_mod in F. rewrite Zpower_mod by lia. exact F.
Qed.

Theorem fermat_unit : forall p a, prime p -> ~ (p | a) -> a ^ (p - 1) mod p = 1.
Proof.
  intros p a Hp Ha. pose proof (prime_ge_2 _ Hp). pose proof (fermat p a Hp) as F.
  replace (a ^ p) with (a * a ^ (p - 1)) in F.
  2:{ rewrite <- Z.pow_succ_r by lia. f_equal. lia. }
  replace (a * a ^ (p - 1) - a) with (a * (a ^ (p - 1) - 1)) in F by ring.
  apply prime_mult in F; auto. destruct F as [F|[k F]]; [contradiction|].
  replace (a ^ (p - 1)) with (1 + k * p) by lia. rewrite Z_mod_plus_full. apply Z.mod_small. lia.
Qed.

(** ** square roots *)
Lemma prime_square_eq : forall p a b, prime p -> (a * a) mod p = (b * b) mod p ->
  a mod p = b mod p \/ a mod p = (- b) mod p.
Proof.
  intros p a b Hp E. pose proof (prime_ge_2 _ Hp).
  assert (D : (p | (a - b) * (a + b))).
  { apply Z.mod_divide; [lia|]. replace ((a - b) * (a + b)) with (a * a - b * b) by ring.
    rewrite Zminus_mod, E, Z.sub_diag. apply Z.mod_0_l; lia. }
  apply prime_mult in D; auto. destruct D as [[k D]|[k D]]; [left|right].
  - replace a with (b + k * p) by lia. apply Z_mod_plus_full.
  - replace a with (- b + k * p) by lia. apply Z_mod_plus_full.
Qed.

(** p = 3 mod 4 *)
Lemma sqrt_3mod4 : forall p y, prime p -> p mod 4 = 3 ->
  let z := (y * y) mod p in let r := z ^ ((p + 1) / 4) mod p in (r * r) mod p = z.
Proof.
  intros p y Hp H4. cbv zeta. pose proof (prime_ge_2 _ Hp).
  set (e := (p + 1) / 4).
  assert (He : p + 1 = 4 * e).
  { unfold e. pose proof (Z.div_mod p 4 ltac:(lia)). rewrite H4 in H0.
    replace (p + 1) with ((p / 4 + 1) * 4) by lia. rewrite Z.div_mul by lia. lia. }
  assert (0 < e) by lia.
  rewrite <- Zmult_mod. rewrite <- Z.pow_add_r by lia.
  rewrite <- (Zpower_mod (y * y)) by lia.
  replace (e + e) with (2 * e) by lia.
  replace ((y * y) ^ (2 * e)) with (y * y ^ p).
  - destruct (fermat p y Hp) as [k F]. replace (y ^ p) with (y + k * p) by lia.
    replace (y * (y + k * p)) with (y * y + (y * k) * p) by ring. apply Z_mod_plus_full.
  - rewrite <- Z.pow_succ_r by lia. replace (Z.succ p) with (2 * (2 * e)) by lia.
    rewrite (Z.pow_mul_r y 2) by lia. f_equal. ring.
Qed.

(** Euler: squares have y^(2 (p-1)/2) = 1 *)
Lemma euler_square : forall p y, prime p -> 2 < p -> ~ (p | y) ->
  (y * y) ^ ((p - 1) / 2) mod p = 1.
Proof.
  intros p y Hp H2 Hy. replace (y * y) with (y ^ 2) by ring.
  assert (Hodd : p = 2 * ((p - 1) / 2) + 1).
  { pose proof (Z.div_mod (p - 1) 2 ltac:(lia)). pose proof (Z.mod_pos_bound (p - 1) 2 ltac:(lia)).
    destruct (Z.eq_dec ((p - 1) mod 2) 0); [lia|].
    assert (E : (2 | p)) by (exists ((p - 1) / 2 + 1); lia).
    apply prime_divisors in E; auto. lia. }
  assert (0 <= (p - 1) / 2) by (apply Z.div_pos; lia).
  rewrite <- Z.pow_mul_r by lia. replace (2 * ((p - 1) / 2)) with (p - 1) by lia.
  apply fermat_unit; auto.
Qed.
