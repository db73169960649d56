(** * LucasFacts: the Lucas-sequence square root of /repo/ec/decompress.go *)
From Coq Require Import ZArith String List Bool Lia Znumtheory Zpow_facts Ring.
From Verif Require Import Base NumTheory Curves ECKey.
Import ListNotations.
Open Scope Z_scope.

(** ** big.Int.Exp *)
Lemma powm_pos_spec : forall e x m, 0 < m -> powm_pos x e m = x ^ Zpos e mod m.
Proof.
  induction e as [e IH|e IH|]; intros x m Hm; cbn [powm_pos].
  - rewrite IH by lia. rewrite Pos2Z.inj_xI.
    replace (2 * Z.pos e + 1) with (Z.pos e + Z.pos e + 1) by lia.
    rewrite !Z.pow_add_r, Z.pow_1_r by lia.
    rewrite <- Z.mul_mod by lia. rewrite Z.mul_mod_idemp_l by lia. reflexivity.
  - rewrite IH by lia. rewrite Pos2Z.inj_xO.
    replace (2 * Z.pos e) with (Z.pos e + Z.pos e) by lia.
    rewrite !Z.pow_add_r by lia. rewrite <- Z.mul_mod by lia. reflexivity.
  - rewrite Z.pow_1_r. reflexivity.
Qed.

Lemma powm_spec : forall x e m, 0 < m -> 0 <= e -> powm x e m = x ^ e mod m.
Proof.
  intros x [|e|e] m Hm He; cbn [powm].
  - reflexivity.
  - apply powm_pos_spec; lia.
  - lia.
Qed.

Lemma powm_range : forall x e m, 0 < m -> 0 <= powm x e m < m.
Proof.
  intros x e m Hm. destruct e; cbn [powm]; try (apply Z.mod_pos_bound; lia).
  rewrite powm_pos_spec by lia. apply Z.mod_pos_bound; lia.
Qed.

(** ** The Lucas V sequence *)
Section Lucas.
Variables P Q : Z.
Notation qm := (qmul P Q).
Notation qp := (qpow P Q).

Definition tr (u : qr) : Z := 2 * fst u + P * snd u.
Definition nrm (u : qr) : Z := fst u * fst u + P * fst u * snd u + Q * snd u * snd u.

Fixpoint lucas_pair (n : nat) : Z * Z :=
  match n with O => (2, P) | S n' => let '(a, b) := lucas_pair n' in (b, P * b - Q * a) end.
(** V_0 = 2, V_1 = P, V_{n+2} = P V_{n+1} - Q V_n *)
Definition lucasV (n : nat) : Z := fst (lucas_pair n).

Lemma lucasV_rec : forall n, lucasV (S (S n)) = P * lucasV (S n) - Q * lucasV n.
Proof. intros n. unfold lucasV. cbn. destruct (lucas_pair n). reflexivity. Qed.

Lemma tr_rec : forall u, tr (qm qx (qm qx u)) = P * tr (qm qx u) - Q * tr u.
Proof. intros [a b]. unfold tr, qmul, qx; cbn [fst snd]; ring. Qed.

Lemma lucasV_tr : forall n, lucasV n = tr (qp qx n) /\ lucasV (S n) = tr (qp qx (S n)).
Proof.
  induction n as [|n [I1 I2]].
  - split; unfold lucasV, tr; cbn [lucas_pair qpow fst snd]; unfold qmul, qx, q1; cbn [fst snd]; ring.
  - split; [exact I2|]. rewrite lucasV_rec, I1, I2. symmetry. apply tr_rec.
Qed.

Lemma nrm_mul : forall u v, nrm (qm u v) = nrm u * nrm v.
Proof. intros [a b] [c d]. unfold nrm, qmul; cbn [fst snd]; ring. Qed.

Lemma nrm_pow : forall n, nrm (qp qx n) = Q ^ Z.of_nat n.
Proof.
  induction n as [|n IH].
  - unfold nrm, q1; cbn [fst snd qpow]. unfold q1; cbn [fst snd]. change (Z.of_nat 0) with 0. rewrite Z.pow_0_r. ring.
  - cbn [qpow]. rewrite nrm_mul, IH. rewrite Nat2Z.inj_succ, Z.pow_succ_r by lia.
    unfold nrm, qx; cbn [fst snd]. ring.
Qed.

Lemma lucasV_double : forall n, lucasV (n + n) = lucasV n * lucasV n - 2 * Q ^ Z.of_nat n.
Proof.
  intros n. rewrite (proj1 (lucasV_tr (n + n))), (proj1 (lucasV_tr n)), qpow_add, <- nrm_pow.
  destruct (qp qx n) as [a b]. unfold tr, nrm, qmul; cbn [fst snd]; ring.
Qed.

Lemma lucasV_double1 : forall n,
  lucasV (S (n + n)) = lucasV (S n) * lucasV n - P * Q ^ Z.of_nat n.
Proof.
  intros n. rewrite (proj2 (lucasV_tr (n + n))), (proj2 (lucasV_tr n)), (proj1 (lucasV_tr n)).
  cbn [qpow]. rewrite qpow_add, <- nrm_pow.
  destruct (qp qx n) as [a b]. unfold tr, nrm, qmul, qx; cbn [fst snd]; ring.
Qed.
End Lucas.

(** ** The loop of fastLucasSequence computes V_k *)
Section Loop.
Variables p lp lq : Z.
Hypothesis Hp : 0 < p.
Notation V := (lucasV lp lq).

Definition eqm (a b : Z) : Prop := (p | a - b).
Lemma eqm_refl : forall a, eqm a a.
Proof. intros a. unfold eqm. rewrite Z.sub_diag. apply Z.divide_0_r. Qed.
Lemma eqm_sym : forall a b, eqm a b -> eqm b a.
Proof. intros a b [k H]. exists (- k). lia. Qed.
Lemma eqm_trans : forall a b c, eqm a b -> eqm b c -> eqm a c.
Proof. intros a b c [k H] [l G]. exists (k + l). lia. Qed.
Lemma eqm_mul : forall a b c d, eqm a b -> eqm c d -> eqm (a * c) (b * d).
Proof. intros a b c d [k H] [l G]. exists (k * c + b * l). replace a with (b + k * p) by lia. replace c with (d + l * p) by lia. ring. Qed.
Lemma eqm_sub : forall a b c d, eqm a b -> eqm c d -> eqm (a - c) (b - d).
Proof. intros a b c d [k H] [l G]. exists (k - l). lia. Qed.
Lemma eqm_add : forall a b c d, eqm a b -> eqm c d -> eqm (a + c) (b + d).
Proof. intros a b c d [k H] [l G]. exists (k + l). lia. Qed.
Lemma eqm_mod : forall a, eqm (a mod p) a.
Proof. intros a. exists (- (a / p)). pose proof (Z.div_mod a p). lia. Qed.
Lemma eqm_modl : forall a b, eqm a b -> eqm (a mod p) b.
Proof. intros. eapply eqm_trans; [apply eqm_mod|assumption]. Qed.
Lemma eqm_eq : forall a b, eqm a b -> a mod p = b mod p.
Proof. intros a b [k H]. replace a with (b + k * p) by lia. apply Z.mod_add; lia. Qed.

Definition loop_inv (n : nat) (st : lucas_state) : Prop :=
  let '(uh, vl, ql, qh, vh) := st in
  eqm vl (V n) /\ eqm vh (V (S n)) /\ eqm (ql * qh) (lq ^ Z.of_nat n).

Lemma lucas_step_inv : forall n st (b : bool), loop_inv n st ->
  loop_inv (n + n + (if b then 1 else 0)) (lucas_step p lp lq st b).
Proof.
  intros n [[[[uh vl] ql] qh] vh] b (H1 & H2 & H3).
  assert (HQ : eqm ((ql * qh) mod p) (lq ^ Z.of_nat n)) by (apply eqm_modl; assumption).
  set (ql1 := (ql * qh) mod p) in *. unfold lucas_step. fold ql1.
  assert (HQ1 : eqm ((ql1 * lq) mod p) (lq ^ Z.of_nat (S n))).
  { apply eqm_modl. rewrite Nat2Z.inj_succ, Z.pow_succ_r by lia. rewrite (Z.mul_comm lq).
    apply eqm_mul; [assumption|apply eqm_refl]. }
  assert (HV1 : eqm ((vh * vl - lp * ql1) mod p) (V (S (n + n)))).
  { apply eqm_modl. rewrite lucasV_double1. apply eqm_sub; apply eqm_mul; auto using eqm_refl. }
  destruct b; cbn [loop_inv].
  - replace (n + n + 1)%nat with (S (n + n)) by lia. split; [exact HV1|split].
    + replace (S (S (n + n))) with (S n + S n)%nat by lia. rewrite lucasV_double.
      apply eqm_modl. apply eqm_sub; apply eqm_mul; auto using eqm_refl.
    + replace (Z.of_nat (S (n + n))) with (Z.of_nat n + Z.of_nat (S n)) by lia.
      rewrite Z.pow_add_r by lia. apply eqm_mul; assumption.
  - rewrite Nat.add_0_r. split; [|split].
    + rewrite lucasV_double. apply eqm_modl. apply eqm_sub; apply eqm_mul; auto using eqm_refl.
    + exact HV1.
    + replace (Z.of_nat (n + n)) with (Z.of_nat n + Z.of_nat n) by lia.
      rewrite Z.pow_add_r by lia. apply eqm_mul; assumption.
Qed.

Lemma shiftr_testbit : forall k j, 0 <= k -> 0 <= j ->
  Z.to_nat (Z.shiftr k j) =
  (Z.to_nat (Z.shiftr k (j + 1)) + Z.to_nat (Z.shiftr k (j + 1)) + (if Z.testbit k j then 1 else 0))%nat.
Proof.
  intros k j Hk Hj.
  pose proof (Z.shiftr_nonneg k j) as G1. pose proof (Z.shiftr_nonneg k (j + 1)) as G2.
  assert (E : Z.shiftr k j = 2 * Z.shiftr k (j + 1) + (if Z.testbit k j then 1 else 0)).
  { rewrite !Z.shiftr_div_pow2 by lia. rewrite Z.pow_add_r, Z.pow_1_r by lia.
    rewrite <- Z.div_div by (try apply Z.pow_nonzero; lia).
    rewrite (Z.div_mod (k / 2 ^ j) 2) at 1 by lia. f_equal.
    rewrite <- Z.bit0_mod. rewrite Z.div_pow2_bits by lia. rewrite Z.add_0_l.
    destruct (Z.testbit k j); reflexivity. }
  destruct (Z.testbit k j); lia.
Qed.

Lemma lucas_loop_inv : forall k n, 0 <= k -> 0 <= n -> forall m st, (Z.of_nat m <= n) ->
  loop_inv (Z.to_nat (Z.shiftr k n)) st ->
  loop_inv (Z.to_nat (Z.shiftr k (n - Z.of_nat m)))
    (fold_left (fun st j => lucas_step p lp lq st (Z.testbit k j))
       (map (fun i => n - 1 - Z.of_nat i) (seq 0 m)) st).
Proof.
  intros k n Hk Hn. induction m as [|m IH]; intros st Hm Hst.
  - cbn [seq map fold_left]. rewrite Z.sub_0_r. exact Hst.
  - rewrite seq_S, map_app, fold_left_app. cbn [map fold_left].
    specialize (IH st ltac:(lia) Hst).
    set (st1 := fold_left _ _ st) in *.
    rewrite shiftr_testbit by lia.
    replace (n - Z.of_nat (S m) + 1) with (n - Z.of_nat m) by lia.
    replace (n - Z.of_nat (S m)) with (n - 1 - Z.of_nat (0 + m)) by lia.
    apply lucas_step_inv. exact IH.
Qed.

Lemma getLowestSetBit_spec : forall k, 0 < k ->
  exists s, getLowestSetBit k = Val s /\ 0 <= s < bit_len k /\ Z.testbit k s = true /\
    (forall i, 0 <= i < s -> Z.testbit k i = false).
Proof.
  intros k Hk. unfold getLowestSetBit.
  assert (HL : bit_len k = Z.log2 k + 1).
  { unfold bit_len. destruct (Z.eqb_spec k 0); [lia|]. rewrite Z.abs_eq by lia. reflexivity. }
  pose proof (Z.log2_nonneg k) as Hl.
  pose proof (Z.bit_log2 k Hk) as Hb.
  assert (G : forall f i, 0 <= i -> i <= Z.log2 k -> Z.log2 k < i + Z.of_nat f ->
     (forall j, 0 <= j < i -> Z.testbit k j = false) ->
     exists s, lowest_set_bit f k i = Val s /\ 0 <= s < bit_len k /\ Z.testbit k s = true /\
       (forall j, 0 <= j < s -> Z.testbit k j = false)).
  { induction f as [|f IH]; intros i Hi Hi2 Hf Hz; [lia|].
    cbn [lowest_set_bit]. destruct (Z.testbit k i) eqn:E.
    - exists i. repeat split; auto; lia.
    - apply IH; try lia.
      + assert (i <> Z.log2 k) by (intros ->; congruence). lia.
      + intros j Hj. destruct (Z.eq_dec j i) as [->|]; [exact E|apply Hz; lia]. }
  apply G; try lia.
Qed.

Lemma lucas_double_inv : forall s m st, (let '(_, vl, ql) := st in eqm vl (V m) /\ eqm ql (lq ^ Z.of_nat m)) ->
  let '(_, vl, ql) := fold_left (lucas_double p) s st in
  eqm vl (V (m * 2 ^ length s)) /\ eqm ql (lq ^ Z.of_nat (m * 2 ^ length s)).
Proof.
  induction s as [|a s IH]; intros m [[uh vl] ql] [H1 H2].
  - cbn [fold_left length]. rewrite Nat.mul_1_r. split; assumption.
  - cbn [fold_left length]. specialize (IH (m + m)%nat (lucas_double p (uh, vl, ql) a)).
    cbn [lucas_double] in IH |- *.
    destruct (fold_left (lucas_double p) s _) as [[uh' vl'] ql'].
    replace (m * 2 ^ S (length s))%nat with ((m + m) * 2 ^ length s)%nat by (cbn [Nat.pow]; lia).
    apply IH. split; apply eqm_modl.
    + rewrite lucasV_double. apply eqm_sub; apply eqm_mul; auto using eqm_refl.
    + rewrite Nat2Z.inj_add, Z.pow_add_r by lia. apply eqm_mul; assumption.
Qed.

Lemma final_range : forall st, let '(_, vl, _) := lucas_final p lp lq st in 0 <= vl < p.
Proof. intros [[[[uh vl] ql] qh] vh]. cbn. apply Z.mod_pos_bound; lia. Qed.
Lemma double_range : forall s st, (let '(_, vl, _) := st in 0 <= vl < p) ->
  let '(_, vl, _) := fold_left (lucas_double p) s st in 0 <= vl < p.
Proof.
  induction s as [|a s IH]; intros [[uh vl] ql] H; [exact H|].
  cbn [fold_left lucas_double]. apply IH. apply Z.mod_pos_bound; lia.
Qed.

Theorem fastLucas_V : forall k, 0 < k ->
  exists u, fastLucasSequence p lp lq k = Val (u, V (Z.to_nat k) mod p).
Proof.
  intros k Hk. unfold fastLucasSequence.
  destruct (getLowestSetBit_spec k Hk) as (s & -> & Hs & Hsb & Hz). cbn [bind].
  set (n := bit_len k) in *.
  assert (Hn : Z.shiftr k n = 0).
  { unfold n, bit_len. destruct (Z.eqb_spec k 0); [lia|]. rewrite Z.abs_eq by lia.
    apply Z.shiftr_eq_0; lia. }
  pose proof (lucas_loop_inv k n ltac:(lia) ltac:(lia) (Z.to_nat (n - 1 - s)) (1, 2, 1, 1, lp) ltac:(lia)) as L.
  rewrite Hn in L. specialize (L (conj (eqm_refl _) (conj (eqm_refl _) (eqm_refl _)))).
  rewrite Z2Nat.id in L by lia. replace (n - (n - 1 - s)) with (s + 1) in L by lia.
  set (st := fold_left _ _ _) in *. cbv zeta.
  set (m := Z.to_nat (Z.shiftr k (s + 1))) in *.
  assert (F : let '(_, vl, ql) := lucas_final p lp lq st in
     eqm vl (V (S (m + m))) /\ eqm ql (lq ^ Z.of_nat (S (m + m)))).
  { clearbody st. destruct st as [[[[uh vl] ql] qh] vh]. destruct L as (H1 & H2 & H3). unfold lucas_final.
    assert (HQ : eqm ((ql * qh) mod p) (lq ^ Z.of_nat m)) by (apply eqm_modl; assumption).
    split; apply eqm_modl.
    - rewrite lucasV_double1. apply eqm_sub; apply eqm_mul; auto using eqm_refl.
    - replace (Z.of_nat (S (m + m))) with (Z.of_nat m + (Z.of_nat m + 1)) by lia.
      rewrite !Z.pow_add_r, Z.pow_1_r by lia. apply eqm_mul; [assumption|].
      apply eqm_modl. apply eqm_mul; [assumption|apply eqm_refl]. }
  pose proof (lucas_double_inv (seq 1 (Z.to_nat s)) (S (m + m)) _ F) as D.
  pose proof (double_range (seq 1 (Z.to_nat s)) _ (final_range st)) as R.
  destruct (fold_left (lucas_double p) _ _) as [[uh vl] ql] eqn:E.
  exists uh. f_equal. f_equal.
  destruct D as [D _]. apply eqm_eq in D. rewrite Z.mod_small in D by exact R. rewrite D.
  f_equal. f_equal. rewrite seq_length.
  pose proof (shiftr_testbit k s ltac:(lia) ltac:(lia)) as B. rewrite Hsb in B. fold m in B.
  replace (S (m + m)) with (Z.to_nat (Z.shiftr k s)) by lia.
  apply Nat2Z.inj. rewrite Nat2Z.inj_mul, Nat2Z.inj_pow, !Z2Nat.id by (try apply Z.shiftr_nonneg; lia).
  rewrite Z.shiftr_div_pow2 by lia.
  pose proof (Z.div_mod k (2 ^ s) ltac:(apply Z.pow_nonzero; lia)) as DM.
  assert (M0 : k mod 2 ^ s = 0).
  { apply Z.bits_inj'. intros i Hi. rewrite Z.bits_0.
    destruct (Z_lt_le_dec i s).
    - rewrite Z.mod_pow2_bits_low by lia. apply Hz; lia.
    - apply Z.mod_pow2_bits_high; lia. }
  change (Z.of_nat 2) with 2. lia.
Qed.
End Loop.

(** ** V_{(p+1)/2}^2 = 4Q for a prime p, a square Q and a non-square discriminant *)
Section Root.
Variables P Q : Z.
Notation qm := (qmul P Q).
Notation qp := (qpow P Q).
Add Ring qring : (q_ring P Q).

Lemma disc_pow : forall n, qp (-P, 2) (n + n) = qz ((P * P - 4 * Q) ^ Z.of_nat n).
Proof.
  intros n. rewrite <- qpow_qz with (P := P) (Q := Q).
  replace (n + n)%nat with (2 * n)%nat by lia. rewrite qpow_mul. f_equal.
  unfold qpow, qmul, qz, q1; cbn [fst snd]. f_equal; ring.
Qed.

Theorem lucas_root : forall p, prime p -> 2 < p ->
  (p | Q ^ ((p - 1) / 2) - 1) ->
  (p | (P * P - 4 * Q) ^ ((p - 1) / 2) + 1) ->
  let v := lucasV P Q (Z.to_nat ((p + 1) / 2)) in (p | v * v - 4 * Q).
Proof.
  intros p Hp H2 HQ HD v.
  assert (Hodd : p mod 2 = 1).
  { assert (~ (2 | p)). { intros D. apply prime_div_prime in D; [lia|apply prime_2|assumption]. }
    rewrite <- Z.mod_divide in H by lia. pose proof (Z.mod_pos_bound p 2). lia. }
  set (h := Z.to_nat ((p - 1) / 2)).
  pose proof (Z.div_mod p 2) as DM.
  assert (Eh : (p - 1) / 2 = p / 2) by (replace (p - 1) with (p / 2 * 2) by lia; apply Z.div_mul; lia).
  assert (Ek : (p + 1) / 2 = p / 2 + 1) by (replace (p + 1) with ((p / 2 + 1) * 2) by lia; apply Z.div_mul; lia).
  assert (Eh' : Z.of_nat h = (p - 1) / 2) by (unfold h; rewrite Z2Nat.id; lia).
  set (pn := Z.to_nat p). assert (Epn : Z.of_nat pn = p) by (unfold pn; rewrite Z2Nat.id; lia).
  assert (Epn2 : pn = S (h + h)) by lia.
  assert (Hpn : prime (Z.of_nat pn)) by (rewrite Epn; exact Hp).
  (* (2x-P)^p = -(2x-P) *)
  assert (A : qeqm p (qp (-P, 2) pn) (P, -2)).
  { rewrite Epn2. cbn [qpow]. rewrite disc_pow, Eh'.
    destruct HD as [c HD]. unfold qeqm, qmul, qz; cbn [fst snd].
    replace ((P * P - 4 * Q) ^ ((p - 1) / 2)) with (c * p - 1) by lia.
    split; [exists (- P * c)|exists (2 * c)]; ring. }
  (* and = 2 x^p - P *)
  assert (B : qeqm p (qp (-P, 2) pn) (qadd (qm (qz 2) (qp qx pn)) (qz (- P)))).
  { pose proof (frobenius_add P Q pn (qm (qz 2) qx) (qz (- P)) Hpn) as F. rewrite Epn in F.
    replace (qadd (qm (qz 2) qx) (qz (- P))) with (-P, 2) in F
      by (unfold qadd, qmul, qz, qx; cbn [fst snd]; f_equal; ring).
    eapply qeqm_trans; [exact F|]. apply qeqm_add.
    - rewrite qpow_qmul, qpow_qz, Epn. apply qeqm_mul; [|apply qeqm_refl].
      apply qeqm_qz. apply fermat. exact Hp.
    - rewrite qpow_qz, Epn. apply qeqm_qz. apply fermat. exact Hp. }
  assert (C : qeqm p (qp qx pn) (P, -1)).
  { assert (E : qeqm p (qadd (qm (qz 2) (qp qx pn)) (qz (- P))) (P, -2))
      by (eapply qeqm_trans; [apply qeqm_sym; exact B|exact A]).
    destruct (qp qx pn) as [a b]. destruct E as [E1 E2].
    unfold qadd, qmul, qz in E1, E2; cbn [fst snd] in E1, E2.
    assert (R : rel_prime p 2).
    { apply rel_prime_sym, prime_rel_prime; [apply prime_2|]. rewrite <- Z.mod_divide by lia. lia. }
    split; cbn [fst snd]; apply Gauss with 2; auto.
    - replace (2 * (a - P)) with (2 * a - 0 * b * Q + - P - P) by ring. exact E1.
    - replace (2 * (b - -1)) with (2 * b + 0 * a + 0 * b * P + 0 - -2) by ring. exact E2. }
  assert (D : qeqm p (qp qx (S pn)) (qz Q)).
  { cbn [qpow]. eapply qeqm_trans; [apply qeqm_mul; [apply qeqm_refl|exact C]|].
    unfold qmul, qx, qz; cbn [fst snd]. split; cbn [fst snd]; [exists 0|exists 0]; ring. }
  set (m := Z.to_nat ((p + 1) / 2)) in *.
  assert (Em : m = S h) by lia.
  pose proof (lucasV_double P Q m) as V2. fold v in V2.
  replace (m + m)%nat with (S pn) in V2 by lia.
  rewrite (proj1 (lucasV_tr P Q (S pn))) in V2.
  assert (QM : Q ^ Z.of_nat m = Q * Q ^ ((p - 1) / 2)).
  { rewrite Em, Nat2Z.inj_succ, Z.pow_succ_r by lia. rewrite Eh'. reflexivity. }
  rewrite QM in V2. destruct HQ as [c HQ].
  replace (Q ^ ((p - 1) / 2)) with (1 + c * p) in V2 by lia.
  destruct D as [[d1 D1] [d2 D2]]. unfold tr in V2. unfold qz in D1, D2; cbn [fst snd] in D1, D2.
  exists (2 * d1 + P * d2 + 2 * Q * c).
  replace (fst (qp qx (S pn))) with (Q + d1 * p) in V2 by lia.
  replace (snd (qp qx (S pn))) with (d2 * p) in V2 by lia.
  lia.
Qed.
End Root.
