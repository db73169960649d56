(** * P256Sched2: affine coordinates, the base point table and p256BaseMult *)
From Coq Require Import ZArith Znumtheory Zpow_facts String List Bool Lia.
From Verif Require Import Base BaseFacts Curves NumTheory Primes1 Primes3 Spec_Group P256 Spec_P256 Spec_P256b P256Booth P256Inv P256Sched Prop_P256b.
Import ListNotations.
Open Scope Z_scope.

Lemma one_mont_ok : mont cP one_mont 1.
Proof.
  split; [split|]; [apply is_words_lit; reflexivity|reflexivity|reflexivity].
Qed.
Lemma words_montr : forall w, is_words 4 w -> montr cP w (lval w * RinvP).
Proof.
  intros w W. split; [exact W|]. replace (lval w * RinvP * 2 ^ 256) with (lval w * (RinvP * 2 ^ 256)) by ring.
  rewrite Z.mul_mod by discriminate. change ((RinvP * 2 ^ 256) mod cP) with 1. rewrite Z.mul_1_r, Z.mod_mod by discriminate. reflexivity.
Qed.
Lemma scale_back : forall p x u v n, 1 < p -> 0 <= n -> (u * v) mod p = 1 -> (x * v ^ n * u ^ n) mod p = x mod p.
Proof.
  intros p x u v n P Hn H. rewrite <- Z.mul_assoc, <- Z.pow_mul_l, (Z.mul_comm v u).
  rewrite Z.mul_mod, Zpower_mod, H, Z.pow_1_l, Z.mod_1_l, Z.mul_1_r, Z.mod_mod by lia. reflexivity.
Qed.

Section Affine.
Variables (E : ecgroup) (A : prims).
Hypothesis OK : prims_ok E A.
Hypothesis CO : coords_ok E.
Notation R12 := (rep12 E).
Lemma l2b_ok' : l2b_ok (a_l2b A).
Proof. exact (ok_l2b E A OK). Qed.
Lemma from_val : forall w v, montr cP w v -> be2z (a_l2b A (a_from A w)) = v mod cP.
Proof.
  intros w v [W V]. destruct (ok_from E A OK w W) as (Wf & Lf & Ef). rewrite (be_l2b A l2b_ok') by exact Wf.
  pose proof (lval_256 _ Wf). rewrite <- (Z.mod_small (lval (a_from A w)) cP) by lia.
  apply cancel_R; [reflexivity|reflexivity|]. rewrite Ef, V. reflexivity.
Qed.
Lemma mulr : forall a b u v, montr cP a u -> montr cP b v -> montr cP (a_mul A a b) (u * v).
Proof. intros. apply montr_mul; [reflexivity|reflexivity|exact (ok_mul E A OK)|assumption|assumption]. Qed.
Lemma sqrr : forall a u, montr cP a u -> montr cP (a_sqr A a) (u * u).
Proof. intros a u H. rewrite (ok_sqr E A OK) by apply H. apply mulr; assumption. Qed.
Lemma cube_parts : forall w u, montr cP w u ->
  montr cP (a_sqr A w) (u ^ 2) /\ montr cP (a_mul A w (a_sqr A w)) (u ^ 3).
Proof.
  intros w u I. pose proof (sqrr _ _ I) as S. replace (u ^ 2) with (u * u) by ring. split; [exact S|].
  replace (u ^ 3) with (u * (u * u)) by ring. apply mulr; assumption.
Qed.
Lemma inv_parts : forall z v, montr cP z v -> 
  montr cP (a_sqr A (p256Inverse A z)) ((v ^ (cP - 2)) ^ 2) /\
  montr cP (a_mul A (p256Inverse A z) (a_sqr A (p256Inverse A z))) ((v ^ (cP - 2)) ^ 3).
Proof. intros z v H. apply cube_parts. exact (p256Inverse_pow A (ok_mul E A OK) (ok_sqr E A OK) v z H). Qed.
Lemma inv_reduced : forall z v, mont cP z v ->
  lval (a_sqr A (p256Inverse A z)) < cP /\ lval (a_mul A (p256Inverse A z) (a_sqr A (p256Inverse A z))) < cP.
Proof.
  intros z v H. pose proof (p256Inverse_reduced A (ok_mul E A OK) (ok_sqr E A OK) v z H) as I.
  rewrite (ok_sqr E A OK) by apply I. split.
  - apply (ok_mul E A OK); [apply I|apply I|left; apply I].
  - apply (ok_mul E A OK); [apply I| |left; apply I]. apply (ok_mul E A OK); apply I.
Qed.
Lemma to_affine : forall x y z vx vy vz, montr cP x vx -> montr cP y vy -> montr cP z vz ->
  p256PointToAffine A (x ++ y ++ z) = ((vx * (vz ^ (cP - 2)) ^ 2) mod cP, (vy * (vz ^ (cP - 2)) ^ 3) mod cP).
Proof.
  intros x y z vx vy vz Hx Hy Hz. unfold p256PointToAffine. cbv zeta.
  pose proof (proj1 (proj1 Hx)) as Lx. pose proof (proj1 (proj1 Hy)) as Ly. pose proof (proj1 (proj1 Hz)) as Lz.
  rewrite sub12_0, sub12_4, sub12_8 by assumption. destruct (inv_parts z vz Hz) as [I2 I3].
  f_equal; apply from_val; apply mulr; assumption.
Qed.
Lemma inv_unit : forall v, ~ (cP | v) -> (v ^ (cP - 2) * v) mod cP = 1.
Proof.
  intros v D. rewrite <- (fermat_inverse cP v prime_c_P_SM2P256V1 D). rewrite Z.mul_mod_idemp_l by discriminate. reflexivity.
Qed.
Lemma affine_of_rep : forall p P, R12 p P -> p256PointToAffine A p = ecoords P.
Proof.
  intros p P (x & y & z & -> & Wx & Wy & Wz & Lx & Ly & H). destruct H as [[-> Hz]|(N & v & Dv & Mz & Mx & My)].
  - assert (Hz' : montr cP z 0) by (split; [exact Wz|rewrite Hz; reflexivity]).
    rewrite (to_affine x y z _ _ 0 (words_montr x Wx) (words_montr y Wy) Hz'). rewrite ecoords_O.
    rewrite (Z.pow_0_l (cP - 2)) by reflexivity. rewrite !Z.pow_0_l, !Z.mul_0_r by lia. reflexivity.
  - rewrite (to_affine x y z _ _ _ Mx My (proj1 Mz)). destruct (CO P N) as (Xr & Yr & _).
    rewrite !scale_back by (reflexivity || lia || (apply inv_unit, Dv)). rewrite !Z.mod_small by lia. destruct (ecoords P). reflexivity.
Qed.
Lemma affine_zero : p256PointToAffine A (repeat 0 8 ++ one_mont) = (0, 0).
Proof.
  assert (Z4 : montr cP (repeat 0 4) 0) by (split; [apply is_words_zeros|reflexivity]).
  change (repeat 0 8 ++ one_mont) with (repeat 0 4 ++ repeat 0 4 ++ one_mont).
  rewrite (to_affine _ _ _ 0 0 1 Z4 Z4 (proj1 one_mont_ok)). reflexivity.
Qed.
(** bringing a point to Z = 1 *)
Lemma normalise : forall t Q, R12 t Q -> Q <> gO ->
  let zInv := p256Inverse A (sub t 8 4) in
  arep E (a_mul A (sub t 0 4) (a_sqr A zInv)) (a_mul A (sub t 4 4) (a_mul A zInv (a_sqr A zInv))) Q.
Proof.
  intros t Q (x & y & z & -> & Wx & Wy & Wz & Lx & Ly & H) N. cbv zeta.
  rewrite sub12_0, sub12_4, sub12_8 by (apply Wx || apply Wy || apply Wz).
  destruct H as [[C _]|(_ & v & Dv & Mz & Mx & My)]; [contradiction|]. destruct (inv_parts z v (proj1 Mz)) as [I2 I3].
  destruct (inv_reduced z v Mz) as [R2 R3].
  split; [exact N|]. split.
  - pose proof (mont_mul_r cP (a_mul A) eq_refl eq_refl (ok_mul E A OK) _ _ _ _ Mx (conj I2 R2)) as [M L]. split; [|exact L].
    eapply montr_cong; [reflexivity|exact M|]. apply scale_back; [reflexivity|lia|apply inv_unit, Dv].
  - pose proof (mont_mul_r cP (a_mul A) eq_refl eq_refl (ok_mul E A OK) _ _ _ _ My (conj I3 R3)) as [M L]. split; [|exact L].
    eapply montr_cong; [reflexivity|exact M|]. apply scale_back; [reflexivity|lia|apply inv_unit, Dv].
Qed.
Lemma arep_rep : forall x y Q, arep E x y Q -> rep E x y one_mont Q.
Proof.
  intros x y Q (N & [Mx Lx] & [My Ly]). split; [apply Mx|]. split; [apply My|]. split; [apply one_mont_ok|]. split; [lia|]. split; [lia|].
  right. split; [exact N|]. exists 1. change (1 ^ 2) with 1. change (1 ^ 3) with 1. rewrite !Z.mul_1_r.
  split; [|split; [exact one_mont_ok|split; [exact Mx|exact My]]]. intros D. apply Z.divide_pos_le in D; [|lia]. apply D. reflexivity.
Qed.
Lemma arep_words : forall q Q, arep8 E q Q -> is_words 8 q.
Proof. intros q Q (x & y & -> & _ & Mx & My). apply (is_words_app 4 4); [apply Mx|apply My]. Qed.

(** ** The table *)
Hypothesis GN : gmul cN (eG (e := E)) = gO.
Hypothesis GC : ecoords (eG (e := E)) = (c_Gx SM2P256V1, c_Gy SM2P256V1).
Notation G := (eG (e := E)).
Lemma GO : G <> gO.
Proof. apply eG_nonzero. Qed.
Lemma base_rep : R12 basePoint G.
Proof.
  exists (sub basePoint 0 4), (sub basePoint 4 4), one_mont. split; [reflexivity|]. apply arep_rep. split; [apply GO|]. rewrite GC. cbn [fst snd].
  split; apply constants_ok.
Qed.
Lemma not_div_pow : forall n, ~ (cN | 128 ^ Z.of_nat n).
Proof.
  induction n.
  - intros D. apply Z.divide_pos_le in D; [apply D; reflexivity|reflexivity].
  - rewrite Nat2Z.inj_succ, Z.pow_succ_r by lia. intros D. apply prime_mult in D; [|exact prime_c_N_SM2P256V1]. destruct D as [D|D]; [|tauto].
    apply Z.divide_pos_le in D; [apply D; reflexivity|reflexivity].
Qed.
Lemma entry_nonzero : forall a n, 0 < a <= 64 -> gmul (a * 128 ^ Z.of_nat n) G <> gO.
Proof.
  intros a n Ha C. apply (gmul_zero_iff _ cN _ G prime_c_N_SM2P256V1 GN GO) in C. apply Z.mod_divide in C; [|discriminate].
  apply prime_mult in C; [|exact prime_c_N_SM2P256V1]. destruct C as [C|C]; [|eapply not_div_pow; exact C].
  apply Z.divide_pos_le in C; [|lia]. assert (64 < cN) by reflexivity. lia.
Qed.
Definition rows_ok (table : list (list Z)) (known : nat -> nat -> Prop) : Prop :=
  length table = 37%nat /\ (forall i, (i < 37)%nat -> is_words 512 (nth i table [])) /\
  (forall i j, (i < 37)%nat -> (j < 64)%nat -> known i j -> arep8 E (sub (nth i table []) (8 * j) 8) (gmul ((Z.of_nat j + 1) * 128 ^ Z.of_nat i) G)).
Lemma rows_set : forall table known i j q, rows_ok table known -> (i < 37)%nat -> (j < 64)%nat -> 
  arep8 E q (gmul ((Z.of_nat j + 1) * 128 ^ Z.of_nat i) G) ->
  rows_ok (set_nth i (put_at (j * 8) q (nth i table [])) table) (fun i' j' => known i' j' \/ (i' = i /\ j' = j)).
Proof.
  intros table known i j q (L & W & K) Hi Hj Hq. pose proof (arep_words q _ Hq) as Wq. 
  pose proof (W i Hi) as [Li Fi]. replace (j * 8)%nat with (8 * j)%nat by lia. pose proof (proj1 Wq) as Lq.
  repeat split; try (rewrite set_nth_len; exact L).
  - destruct (Nat.eq_dec i i0) as [<-|N].
    + rewrite nth_set_same by lia. rewrite put_length by lia. exact Li.
    + rewrite nth_set_other by exact N. apply W. assumption.
  - destruct (Nat.eq_dec i i0) as [<-|N].
    + rewrite nth_set_same by lia. unfold put_at. rewrite <- (firstn_skipn (8 * j) (nth i table [])) in Fi. apply Forall_app in Fi. destruct Fi as [F1 F2].
      apply Forall_app. split; [exact F1|]. apply Forall_app. split; [apply Wq|].
      rewrite <- (firstn_skipn (length q) (skipn (8 * j) (nth i table []))) in F2. apply Forall_app in F2. rewrite skipn_skipn_add in F2. apply F2.
    + rewrite nth_set_other by exact N. apply W. assumption.
  - intros i' j' Hi' Hj' KN. destruct (Nat.eq_dec i i') as [<-|N].
    + rewrite nth_set_same by lia. destruct (Nat.eq_dec j' j) as [->|Nj].
      * rewrite sub_put_same by lia. exact Hq.
      * destruct KN as [KN|[_ C]]; [|contradiction]. destruct (Nat.lt_ge_cases j' j).
        -- rewrite sub_put_before by lia. apply K; assumption.
        -- rewrite sub_put_after by lia. apply K; assumption.
    + rewrite nth_set_other by exact N. destruct KN as [KN|[C _]]; [apply K; assumption|congruence].
Qed.
Lemma rows_weaken : forall table (k k' : nat -> nat -> Prop), rows_ok table k -> (forall i j, (i < 37)%nat -> (j < 64)%nat -> k' i j -> k i j) -> rows_ok table k'.
Proof. intros table k k' (L & W & K) H. repeat split; try assumption; try (apply W; assumption). intros. apply K; auto. Qed.
Definition inner_ok (j n : nat) (st : list (list Z) * list Z) : Prop :=
  rows_ok (fst st) (fun i j' => (j' < j)%nat \/ (j' = j /\ (i < n)%nat)) /\
  R12 (snd st) (gmul ((Z.of_nat j + 1) * 128 ^ Z.of_nat (n - 1)) G).
Lemma inner_step : forall j n st, (j < 64)%nat -> (n < 37)%nat -> inner_ok j n st -> inner_ok j (S n) (init_inner A j st n).
Proof.
  intros j n [table t1] Hj Hn [HR Ht]. cbn [fst snd] in HR, Ht. unfold init_inner.
  set (t := if (n =? 0)%nat then t1 else repeat_op 7 (a_dbl A) t1). cbv zeta.
  assert (Rt : R12 t (gmul ((Z.of_nat j + 1) * 128 ^ Z.of_nat n) G)).
  { unfold t. destruct (Nat.eqb_spec n 0) as [->|N]; [exact Ht|].
    pose proof (dbls E A OK G 7 _ _ Ht) as D. change (2 ^ Z.of_nat 7) with 128 in D.
    replace ((Z.of_nat j + 1) * 128 ^ Z.of_nat n) with (128 * ((Z.of_nat j + 1) * 128 ^ Z.of_nat (n - 1))); [exact D|].
    replace (Z.of_nat n) with (Z.succ (Z.of_nat (n - 1))) by lia. rewrite Z.pow_succ_r by lia. ring. }
  clearbody t. pose proof (normalise t _ Rt ltac:(apply entry_nonzero; lia)) as AR. cbv zeta in AR.
  set (x := a_mul A (sub t 0 4) _) in *. set (y := a_mul A (sub t 4 4) _) in *. clearbody x y.
  pose proof AR as (_ & Mx & My). pose proof (proj1 (proj1 (proj1 Mx))) as Lx. pose proof (proj1 (proj1 (proj1 My))) as Ly.
  change (sub basePoint 8 4) with one_mont.
  assert (S8 : sub (x ++ y ++ one_mont) 0 8 = x ++ y).
  { rewrite app_assoc, sub_app_l by (rewrite app_length; lia). apply sub_all. rewrite app_length. lia. }
  rewrite S8. split; cbn [fst snd].
  - eapply rows_weaken; [apply rows_set; [exact HR|exact Hn|exact Hj|exists x, y; split; [reflexivity|exact AR]]|].
    intros i' j' _ _ H. cbv beta. lia.
  - replace (S n - 1)%nat with n by lia. exists x, y, one_mont. split; [reflexivity|]. apply arep_rep, AR.
Qed.
Lemma inner_all : forall j n st, (j < 64)%nat -> (n <= 37)%nat -> inner_ok j 0 st -> inner_ok j n (fold_left (init_inner A j) (seq 0 n) st).
Proof.
  intros j n st Hj. induction n; intros Hn H; [exact H|]. rewrite seq_S, fold_left_app. cbn [fold_left Nat.add].
  apply inner_step; [exact Hj|lia|]. apply IHn; [lia|exact H].
Qed.
Definition outer_ok (j : nat) (st : list (list Z) * list Z) : Prop :=
  rows_ok (fst st) (fun i j' => (j' < j)%nat) /\ R12 (snd st) (gmul (Z.of_nat j + 1) G).
Lemma outer_step : forall j st, (j < 64)%nat -> outer_ok j st -> outer_ok (S j) (init_outer A st j).
Proof.
  intros j [table t2] Hj [HR Ht]. cbn [fst snd] in HR, Ht. unfold init_outer.
  pose proof (inner_all j 37 (table, t2) Hj ltac:(lia)) as I.
  destruct (fold_left (init_inner A j) (seq 0 37) (table, t2)) as [table' t'].
  assert (I0 : inner_ok j 0 (table, t2)).
  { split; cbn [fst snd]; [eapply rows_weaken; [exact HR|]; intros; cbv beta in *; lia|].
    change (128 ^ Z.of_nat (0 - 1)) with 1. rewrite Z.mul_1_r. exact Ht. }
  destruct (I I0) as [HR' _]. cbn [fst] in HR'. split; cbn [fst snd].
  - eapply rows_weaken; [exact HR'|]. intros; cbv beta in *; lia.
  - destruct (Nat.eqb_spec j 0) as [->|N].
    + change (Z.of_nat 1 + 1) with (2 * 1). apply (dblB E A OK). rewrite gmul_1. apply base_rep.
    + replace (Z.of_nat (S j) + 1) with (Z.of_nat j + 1 + 1) by lia. apply (addB E A OK G GN GO); try lia; [exact Ht|].
      rewrite gmul_1. apply base_rep.
Qed.
Lemma table_ok' : rows_ok (initTable A) (fun _ _ => True).
Proof.
  unfold initTable.
  assert (I : forall n, (n <= 64)%nat -> outer_ok n (fold_left (init_outer A) (seq 0 n) (repeat (repeat 0 512) 37, basePoint))).
  { induction n; intros Hn.
    - cbn [seq fold_left]. split; [|change (Z.of_nat 0 + 1) with 1; rewrite gmul_1; apply base_rep]. unfold fst.
      split; [apply repeat_length|]. split; [|intros; lia].
      intros i Hi. set (z := repeat 0 512). rewrite (nth_indep _ [] z) by (rewrite repeat_length; exact Hi). rewrite nth_repeat. apply is_words_zeros.
    - rewrite seq_S, fold_left_app. cbn [fold_left Nat.add]. apply outer_step; [lia|]. apply IHn. lia. }
  destruct (I 64%nat (le_n _)) as [HR _]. eapply rows_weaken; [exact HR|]. intros. assumption.
Qed.

(** ** p256BaseMult *)
Section BaseMult.
Variables (table : list (list Z)) (s : list Z).
Hypothesis Tok : rows_ok table (fun _ _ => True).
Hypothesis Ws : is_words 4 s.
Notation K := (lval s).
Hypothesis KN : K < cN.
Lemma selbase_ok : forall i sel, (i < 37)%nat -> 0 <= sel <= 64 ->
  is_words 8 (a_selbase A (nth i table []) sel) /\ (sel = 0 -> a_selbase A (nth i table []) sel = repeat 0 8) /\
  (sel <> 0 -> arep8 E (a_selbase A (nth i table []) sel) (gmul (sel * 128 ^ Z.of_nat i) G)).
Proof.
  intros i sel Hi Hs. destruct Tok as (L & W & T). rewrite (ok_selbase E A OK) by (try apply W; assumption).
  destruct (Z.eqb_spec sel 0) as [->|N]; [repeat split; try apply is_words_zeros; tauto|].
  pose proof (T i (Z.to_nat sel - 1)%nat Hi ltac:(lia) I) as R. replace (Z.of_nat (Z.to_nat sel - 1) + 1) with sel in R by lia.
  repeat split; try (apply (arep_words _ _ R)); tauto.
Qed.
(** the sum of the digits below position i, and what the loop keeps *)
Definition low (i : nat) : Z := K - 128 ^ Z.of_nat i * prefix K (7 * Z.of_nat i).
Definition base_ok (i : nat) (p : list Z) (zero : Z) : Prop :=
  0 <= zero < 128 /\ (zero = 0 <-> low i = 0) /\
  (zero = 0 -> p = repeat 0 8 ++ one_mont /\ (2 * K) mod 2 ^ (7 * Z.of_nat i + 1) = 0) /\
  (zero <> 0 -> R12 p (gmul (low i) G)).
Lemma low_step : forall i, (i < 37)%nat -> low (S i) = low i + digit (boothW7 (window_at s 0xff (7 * Z.of_nat i))) * 128 ^ Z.of_nat i.
Proof.
  intros i Hi. unfold low. rewrite Nat2Z.inj_succ, Z.pow_succ_r by lia.
  pose proof (step7 s (7 * Z.of_nat i) Ws ltac:(lia)) as ST. replace (7 * Z.succ (Z.of_nat i)) with (7 * Z.of_nat i + 7) by lia.
  rewrite ST. ring.
Qed.
Lemma low_0 : low 0 = 0.
Proof. unfold low. change (7 * Z.of_nat 0) with 0. rewrite prefix_0. change (128 ^ Z.of_nat 0) with 1. lia. Qed.
Lemma low_37 : low 37 = K.
Proof. unfold low. rewrite prefix_top by (assumption || reflexivity || discriminate). rewrite Z.mul_0_r. lia. Qed.
Lemma digit7_facts : forall i, (i < 37)%nat -> let w := window_at s 0xff (7 * Z.of_nat i) in
  0 <= w < 256 /\ w = (2 * K / 2 ^ (7 * Z.of_nat i)) mod 256 /\ 0 <= fst (boothW7 w) <= 64 /\ (snd (boothW7 w) = 0 \/ snd (boothW7 w) = 1) /\
  snd (boothW7 w) = w / 128 /\ digit (boothW7 w) = (w + 1) / 2 - 128 * (w / 128).
Proof.
  intros i Hi w. assert (WW : w = (2 * K / 2 ^ (7 * Z.of_nat i)) mod 256) by (unfold w; change 0xff with (2 ^ 8 - 1); rewrite window_at_eq by (assumption || lia); reflexivity).
  assert (W256 : 0 <= w < 256) by (rewrite WW; apply Z.mod_pos_bound; lia). destruct (booth7 w W256) as (H1 & H2 & H3).
  split; [exact W256|]. split; [exact WW|]. split; [exact H1|]. split; [|split; [exact H2|exact H3]]. rewrite H2. pose proof (Z.div_pos w 128). pose proof (Z.div_lt_upper_bound w 128 2). lia.
Qed.
Lemma low_bound : forall i, (i <= 37)%nat -> - (64 * (128 ^ Z.of_nat i - 1)) <= 127 * low i <= 64 * (128 ^ Z.of_nat i - 1).
Proof.
  induction i; intros Hi; [rewrite low_0; cbn; lia|]. rewrite low_step by lia. destruct (digit7_facts i ltac:(lia)) as (_ & _ & R & _).
  unfold digit. specialize (IHi ltac:(lia)). rewrite Nat2Z.inj_succ, Z.pow_succ_r by lia. pose proof (Z.pow_pos_nonneg 128 (Z.of_nat i) ltac:(lia) ltac:(lia)) as P.
  set (q := 128 ^ Z.of_nat i) in *. clearbody q. destruct (boothW7 _) as [sel sg]. cbn [fst snd] in *. destruct (sg =? 0); nia.
Qed.
(** no odd window while all the digits are zero *)
Lemma mod_next : forall i w, (i < 37)%nat -> w = (2 * K / 2 ^ (7 * Z.of_nat i)) mod 256 -> (2 * K) mod 2 ^ (7 * Z.of_nat i + 1) = 0 ->
  Z.even w = true /\ (w = 0 -> (2 * K) mod 2 ^ (7 * Z.of_nat (S i) + 1) = 0).
Proof.
  intros i w Hi Ew M. set (n := 7 * Z.of_nat i) in *. assert (Hn : 0 <= n) by lia. pose proof (Z.pow_pos_nonneg 2 n ltac:(lia) Hn) as P.
  rewrite Z.pow_add_r in M by lia. change (2 ^ 1) with 2 in M. apply Z.mod_divide in M; [|lia]. destruct M as [q Q].
  assert (D : 2 * K / 2 ^ n = 2 * q) by (rewrite Q; replace (q * (2 ^ n * 2)) with (2 * q * 2 ^ n) by ring; apply Z.div_mul; lia).
  rewrite D in Ew. split.
  - rewrite Ew. rewrite Z.mod_eq by lia. replace (2 * q - 256 * (2 * q / 256)) with (2 * (q - 128 * (2 * q / 256))) by ring. apply Z.even_mul.
  - intros W0. rewrite W0 in Ew. symmetry in Ew. apply Z.mod_divide in Ew; [|lia]. destruct Ew as [r Er]. apply Z.mod_divide; [apply Z.pow_nonzero; lia|].
    exists r. replace (7 * Z.of_nat (S i) + 1) with (n + 8) by lia. rewrite Z.pow_add_r by lia. change (2 ^ 8) with 256.
    rewrite Q. replace (q * (2 ^ n * 2)) with (2 ^ n * (2 * q)) by ring. rewrite Er. ring.
Qed.
Lemma booth7_zero : forall w, 0 <= w < 256 -> Z.even w = true -> fst (boothW7 w) = 0 -> w = 0.
Proof.
  intros w Hw Ev F. destruct (booth7 w Hw) as (_ & _ & D). unfold digit in D. rewrite F in D.
  apply Z.even_spec in Ev. destruct Ev as [h ->]. replace (2 * h + 1) with (1 + h * 2) in D by lia. rewrite Z.div_add in D by lia. change (1 / 2) with 0 in D.
  change 128 with (2 * 64) in D at 2. rewrite Z.div_mul_cancel_l in D by lia.
  pose proof (Z.div_mod h 64 ltac:(lia)). pose proof (Z.mod_pos_bound h 64 ltac:(lia)).
  assert (Q : h / 64 = 0 \/ h / 64 = 1) by (pose proof (Z.div_pos h 64); pose proof (Z.div_lt_upper_bound h 64 2); lia).
  destruct (snd (boothW7 (2 * h)) =? 0); destruct Q as [Q|Q]; rewrite Q in *; lia.
Qed.
Lemma signed_digit : forall ds k, (snd ds = 0 \/ snd ds = 1) -> signed E (snd ds) (gmul (fst ds * k) G) = gmul (digit ds * k) G.
Proof.
  intros ds k _. unfold signed, digit. destruct (snd ds =? 0); [reflexivity|]. rewrite <- gmul_opp. f_equal. ring.
Qed.
Lemma first_rep : forall q Q sign, arep8 E q Q -> sign = 0 \/ sign = 1 -> exists x y, q = x ++ y /\ is_words 4 x /\ is_words 4 y /\ R12 (x ++ a_neg A y sign ++ one_mont) (signed E sign Q).
Proof.
  intros q Q sign (x & y & -> & AR) S. exists x, y. pose proof (arep_rep x y Q AR) as R. pose proof R as (Wx & Wy & _).
  repeat split; try apply Wx; try apply Wy. exists x, (a_neg A y sign), one_mont. split; [reflexivity|].
  apply (rep_neg E A OK CO); [exact R|apply AR|exact S].
Qed.
(** the additions never meet equal or opposite points *)
Lemma base_distinct : forall i d, (1 <= i < 37)%nat -> - 64 <= d <= 64 -> d <> 0 -> low i <> 0 -> low (S i) = low i + d * 128 ^ Z.of_nat i ->
  (low i - d * 128 ^ Z.of_nat i) mod cN <> 0 /\ (low i + d * 128 ^ Z.of_nat i) mod cN <> 0.
Proof.
  intros i d Hi Hd Nd Nl Es. pose proof (low_bound i ltac:(lia)) as B. pose proof (lval_256 s Ws) as BK.
  assert (NV : cN = 115792089210356248756420345214020892766061623724957744567843809356293439045923) by reflexivity.
  destruct (Nat.eq_dec i 36) as [->|N36].
  - rewrite low_37 in Es. change (128 ^ Z.of_nat 36) with (2 ^ 252) in *. rewrite NV in *. split.
    + intros M. apply Z.mod_divide in M; [|discriminate]. destruct M as [t M]. assert (T : t = 0 \/ t = -1 \/ t = -2 \/ t <= -3 \/ t >= 1) by lia. lia.
    + rewrite <- Es. intros M. rewrite Z.mod_small in M by lia. lia.
  - assert (Q : 128 ^ Z.of_nat i <= 2 ^ 245).
    { change 128 with (2 ^ 7). rewrite <- Z.pow_mul_r by lia. apply Z.pow_le_mono_r; lia. }
    pose proof (Z.pow_pos_nonneg 128 (Z.of_nat i) ltac:(lia) ltac:(lia)) as Q0. set (q := 128 ^ Z.of_nat i) in *. clearbody q. rewrite NV.
    assert (DQ : - (64 * q) <= d * q <= 64 * q /\ (q <= d * q \/ d * q <= - q)) by nia. set (dq := d * q) in *. clearbody dq.
    split; intros M; (apply Z.mod_divide in M; [|discriminate]); destruct M as [t M]; assert (T : t = 0 \/ t <= -1 \/ t >= 1) by lia; lia.
Qed.
Lemma base_step_ok : forall i p zero p' idx' zero', (1 <= i < 37)%nat -> base_ok i p zero ->
  base_step A table s (p, 7 * Z.of_nat i - 1, zero) i = (p', idx', zero') -> base_ok (S i) p' zero' /\ idx' = 7 * Z.of_nat (S i) - 1.
Proof.
  intros i p zero p' idx' zero' Hi (Hz & Z0 & HZ & HN) ES. unfold base_step in ES.
  assert (WA : window s 0xff (7 * Z.of_nat i - 1) = window_at s 0xff (7 * Z.of_nat i)).
  { unfold window_at. destruct (Z.eqb_spec (7 * Z.of_nat i) 0); [lia|reflexivity]. }
  rewrite WA in ES. destruct (digit7_facts i ltac:(lia)) as (W256 & WW & Hsel & Hsg & Hsv & HD). set (w := window_at s 0xff (7 * Z.of_nat i)) in *.
  pose proof (low_step i ltac:(lia)) as LS. fold w in LS. pose proof (booth7_zero w W256) as BZ.
  pose proof (low_bound i ltac:(lia)) as LB. pose proof (Z.pow_pos_nonneg 128 (Z.of_nat i) ltac:(lia) ltac:(lia)) as Q0.
  pose proof (signed_digit (boothW7 w) (128 ^ Z.of_nat i) Hsg) as SD.
  assert (Hd : - 64 <= digit (boothW7 w) <= 64 /\ (digit (boothW7 w) = 0 <-> fst (boothW7 w) = 0)) by (unfold digit; destruct (snd (boothW7 w) =? 0); lia).
  destruct (boothW7 w) as [sel sign]. cbn [fst snd] in *. set (d := digit (sel, sign)) in *. clearbody d.
  destruct (selbase_ok i sel ltac:(lia) Hsel) as (Wq & Q8 & QR). set (q := a_selbase A (nth i table []) sel) in *. clearbody q.
  remember (7 * Z.of_nat i - 1) as idx eqn:Hidx. apply pair_equal_spec in ES as [ES Ez]. apply pair_equal_spec in ES as [Ep Ei]. split; [|lia].
  assert (ZZ : 0 <= zero' < 128 /\ (zero' = 0 <-> low (S i) = 0)).
  { split; [rewrite <- Ez; apply (lor_bound 7); [lia|exact Hz|change (2 ^ 7) with 128; lia]|]. rewrite <- Ez, lor_zero by lia. rewrite Z0, LS.
    destruct (Z.eq_dec (low i) 0) as [L0|L0]; [rewrite L0; nia|].
    assert (- 128 ^ Z.of_nat i < low i < 128 ^ Z.of_nat i) by lia. set (qq := 128 ^ Z.of_nat i) in *. clearbody qq. nia. }
  split; [apply ZZ|]. split; [apply ZZ|]. 
  destruct (Z.eq_dec zero 0) as [E0|E0].
  - destruct (HZ E0) as [Ep0 M0]. destruct (mod_next i w ltac:(lia) WW M0) as [Ev Mn].
    assert (L0 : low i = 0) by (apply Z0, E0). rewrite L0, Z.add_0_l in LS.
    assert (Wp : is_words 12 p) by (rewrite Ep0; apply (is_words_app 8 4); [apply is_words_zeros|apply one_mont_ok]).
    split.
    + intros Z'. rewrite <- Ez in Z'. apply lor_zero in Z'; [|lia|lia]. destruct Z' as [_ S0]. specialize (BZ Ev S0). rewrite <- Ep, E0.
      rewrite (Q8 S0). change (repeat 0 8) with (repeat 0 4 ++ repeat 0 4). rewrite (ok_addaff_first E A OK) by (exact Wp || apply is_words_zeros || lia).
      rewrite Hsv, BZ. change (0 / 128) with 0. rewrite (ok_neg0 E A OK) by apply is_words_zeros. rewrite <- app_assoc. split; [reflexivity|]. apply Mn, BZ.
    + intros Z'. assert (S0 : sel <> 0) by (intros C; apply Z'; rewrite <- Ez, E0, C; reflexivity).
      destruct (first_rep q _ sign (QR S0) Hsg) as (x & y & -> & Wx & Wy & R). rewrite <- Ep, E0.
      rewrite (ok_addaff_first E A OK) by (assumption || lia). rewrite LS, <- SD. exact R.
  - specialize (HN E0). pose proof (rep_words E p _ HN) as Wp. split.
    + intros Z'. rewrite <- Ez in Z'. apply lor_zero in Z'; [|lia|lia]. destruct Z'. contradiction.
    + intros _. rewrite <- Ep. destruct (Z.eq_dec sel 0) as [S0|S0].
      * rewrite S0, (ok_addaff_skip E A OK) by (assumption || lia). rewrite LS. replace d with 0 by (symmetry; apply Hd, S0). rewrite Z.mul_0_l, Z.add_0_r. exact HN.
      * rewrite LS, gmul_add, <- SD. apply (ok_addaff E A OK); try (assumption || lia); [apply QR, S0|..].
        -- intros C. assert (L0 : low i = 0); [|apply E0, Z0, L0].
           apply (gmul_zero_iff _ cN _ G prime_c_N_SM2P256V1 GN GO) in C.
           assert (NV : cN = 115792089210356248756420345214020892766061623724957744567843809356293439045923) by reflexivity.
           assert (Q : 128 ^ Z.of_nat i <= 2 ^ 252) by (change 128 with (2 ^ 7); rewrite <- Z.pow_mul_r by lia; apply Z.pow_le_mono_r; lia).
           apply Z.mod_divide in C; [|discriminate]. destruct C as [t C]. rewrite NV in C. lia.
        -- intros C. destruct (base_distinct i d Hi ltac:(lia) ltac:(lia) ltac:(lia) LS) as [D1 _]. apply D1.
           apply (gmul_zero_iff _ cN _ G prime_c_N_SM2P256V1 GN GO). rewrite gmul_sub, C, SD. apply gadd_neg.
        -- intros C. destruct (base_distinct i d Hi ltac:(lia) ltac:(lia) ltac:(lia) LS) as [_ D1]. apply D1.
           apply (gmul_zero_iff _ cN _ G prime_c_N_SM2P256V1 GN GO). rewrite gmul_add, C, SD. rewrite gadd_comm. apply gadd_neg.
Qed.
Lemma base_fold_ok : forall n i p zero, (1 <= i)%nat -> (i + n <= 37)%nat -> base_ok i p zero ->
  exists p' idx' zero', fold_left (base_step A table s) (seq i n) (p, 7 * Z.of_nat i - 1, zero) = (p', idx', zero') /\ base_ok (i + n) p' zero'.
Proof.
  induction n; intros i p zero Hi Hn H.
  - rewrite Nat.add_0_r. cbn [seq fold_left]. eauto.
  - cbn [seq fold_left]. destruct (base_step A table s (p, 7 * Z.of_nat i - 1, zero) i) as [[p1 i1] z1] eqn:ES.
    destruct (base_step_ok i p zero p1 i1 z1 ltac:(lia) H ES) as [H1 ->].
    destruct (IHn (S i) p1 z1 ltac:(lia) ltac:(lia) H1) as (p' & idx' & z' & EF & H'). exists p', idx', z'. replace (i + S n)%nat with (S i + n)%nat by lia. auto.
Qed.
Lemma BaseMult_ok : (K <> 0 -> R12 (p256BaseMult A table s) (gmul K G)) /\ (K = 0 -> p256BaseMult A table s = repeat 0 8 ++ one_mont).
Proof.
  unfold p256BaseMult. change (window0 s 0xff) with (window_at s 0xff (7 * Z.of_nat 0)).
  destruct (digit7_facts 0 ltac:(lia)) as (W256 & WW & Hsel & Hsg & Hsv & HD). pose proof (low_step 0 ltac:(lia)) as LS. set (w := window_at s 0xff _) in *.
  pose proof (booth7_zero w W256) as BZ. pose proof (signed_digit (boothW7 w) (128 ^ Z.of_nat 0) Hsg) as SD.
  assert (Hd : (digit (boothW7 w) = 0 <-> fst (boothW7 w) = 0)) by (unfold digit; destruct (snd (boothW7 w) =? 0); lia).
  destruct (boothW7 w) as [sel sign]. cbn [fst snd] in *. set (d := digit (sel, sign)) in *. clearbody d.
  destruct (selbase_ok 0 sel ltac:(lia) Hsel) as (Wq & Q8 & QR). set (q := a_selbase A (nth 0 table []) sel) in *. clearbody q.
  rewrite low_0 in LS. change (128 ^ Z.of_nat 0) with 1 in *. rewrite Z.mul_1_r, Z.add_0_l in LS.
  destruct (mod_next 0 w ltac:(lia) WW) as [Ev Mn]. { change (2 ^ (7 * Z.of_nat 0 + 1)) with 2. rewrite Z.mul_comm. apply Z.mod_mul. lia. }
  set (p := sub q 0 4 ++ a_neg A (sub q 4 4) sign ++ one_mont).
  assert (B1 : base_ok 1 p sel).
  { split; [lia|]. split; [rewrite LS; tauto|]. split.
    - intros S0. specialize (BZ Ev S0). split; [|apply Mn, BZ]. unfold p. rewrite (Q8 S0). rewrite Hsv, BZ. change (0 / 128) with 0.
      change (sub (repeat 0 8) 0 4) with (repeat 0 4). change (sub (repeat 0 8) 4 4) with (repeat 0 4). rewrite (ok_neg0 E A OK) by apply is_words_zeros. reflexivity.
    - intros S0. destruct (first_rep q _ sign (QR S0) Hsg) as (x & y & Eq & Wx & Wy & R). unfold p. rewrite Eq.
      assert (S1 : sub (x ++ y) 0 4 = x) by (rewrite sub_app_l by (rewrite (proj1 Wx); lia); apply sub_all, Wx).
      assert (S2 : sub (x ++ y) 4 4 = y).
      { unfold sub. rewrite skipn_app, skipn_all2 by (rewrite (proj1 Wx); lia). rewrite (proj1 Wx). cbn [Nat.sub skipn app]. apply firstn_all2. rewrite (proj1 Wy). lia. }
      rewrite S1, S2. rewrite LS. rewrite !Z.mul_1_r in SD. rewrite <- SD. rewrite Z.mul_1_r in R. exact R. }
  destruct (base_fold_ok 36 1 p sel ltac:(lia) ltac:(lia) B1) as (p' & idx' & z' & EF & (_ & Z0 & HZ & HN)).
  change (7 * Z.of_nat 1 - 1) with 6 in EF. cbv zeta. rewrite EF. cbn [fst]. change (1 + 36)%nat with 37%nat in *. rewrite low_37 in *. split.
  - intros NK. apply HN. intros C. apply NK, Z0, C.
  - intros K0. apply HZ, Z0, K0.
Qed.
End BaseMult.
End Affine.
