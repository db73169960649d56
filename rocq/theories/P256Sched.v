(** * P256Sched: the scalar multiplication schedules *)
From Coq Require Import ZArith Znumtheory String List Bool Lia.
From Verif Require Import Base BaseFacts Curves NumTheory Primes1 Primes3 Spec_Group P256 Spec_P256 Spec_P256b P256Booth P256Inv.
Import ListNotations.
Open Scope Z_scope.

(** ** Blocks *)
Definition blocks (n : nat) (bs : list (list Z)) : Prop := Forall (fun b => length b = n) bs.
Lemma concat_len : forall n bs, blocks n bs -> length (concat bs) = (n * length bs)%nat.
Proof. intros n bs H. induction H as [|b bs L H IH]; cbn [concat length]; [lia|]. rewrite app_length, IH, L. lia. Qed.
Lemma sub_concat : forall n bs i d, blocks n bs -> (i < length bs)%nat -> sub (concat bs) (n * i) n = nth i bs d.
Proof.
  intros n bs i d H. revert i. induction H as [|b bs L H IH]; intros i Hi; cbn [length] in Hi; [lia|].
  cbn [concat]. destruct i; cbn [nth].
  - rewrite Nat.mul_0_r. unfold sub. cbn [skipn]. rewrite <- L, firstn_app, firstn_all, Nat.sub_diag. cbn [firstn]. apply app_nil_r.
  - rewrite <- (IH i) by lia. unfold sub. rewrite skipn_app, skipn_all2 by lia. cbn [app]. do 2 f_equal. lia.
Qed.
Lemma put_concat : forall n bs i b, blocks n bs -> length b = n -> (i < length bs)%nat ->
  put_at (n * i) b (concat bs) = concat (set_nth i b bs).
Proof.
  intros n bs i b H L. revert i. induction H as [|c bs Lc H IH]; intros i Hi; cbn [length] in Hi; [lia|]. destruct i.
  - rewrite Nat.mul_0_r. unfold put_at. cbn [firstn Nat.add set_nth concat app]. f_equal.
    rewrite L, skipn_app, skipn_all2 by lia. rewrite Lc, Nat.sub_diag. reflexivity.
  - cbn [set_nth concat]. rewrite <- IH by lia. unfold put_at.
    rewrite firstn_app, firstn_all2 by lia. rewrite <- app_assoc. rewrite skipn_app, (skipn_all2 c) by lia. cbn [app].
    replace (n * S i - length c)%nat with (n * i)%nat by lia. replace (n * S i + length b - length c)%nat with (n * i + length b)%nat by lia. reflexivity.
Qed.
Lemma set_nth_len : forall A i (x : A) l, length (set_nth i x l) = length l.
Proof. induction i; intros x [|a l]; cbn [set_nth length]; auto. Qed.
Lemma set_nth_Forall : forall A (P : A -> Prop) i x l, P x -> Forall P l -> Forall P (set_nth i x l).
Proof.
  induction i; intros x l Px F; destruct F as [|a l Pa F]; cbn [set_nth]; constructor; auto.
Qed.
Lemma nth_set_same : forall A i (x d : A) l, (i < length l)%nat -> nth i (set_nth i x l) d = x.
Proof. induction i; intros x d [|a l] H; cbn [set_nth nth length] in *; try lia; auto. apply IHi. lia. Qed.
Lemma nth_set_other : forall A i j (x d : A) l, i <> j -> nth j (set_nth i x l) d = nth j l d.
Proof.
  induction i; intros j x d [|a l] H; cbn [set_nth]; try reflexivity; destruct j; cbn [nth]; try reflexivity; try lia.
  apply IHi. lia.
Qed.
Lemma is_words_app : forall n m a b, is_words n a -> is_words m b -> is_words (n + m) (a ++ b).
Proof. intros n m a b [La Fa] [Lb Fb]. split; [rewrite app_length; lia|apply Forall_app; auto]. Qed.
Lemma is_words_sub : forall n i m l, is_words n l -> (i + m <= n)%nat -> is_words m (sub l i m).
Proof.
  intros n i m l [L F] H. unfold sub. split; [rewrite firstn_length, skipn_length; lia|].
  apply Forall_forall. intros x Hx. apply (proj1 (Forall_forall _ _) F).
  rewrite <- (firstn_skipn i l). apply in_or_app. right. rewrite <- (firstn_skipn m (skipn i l)). apply in_or_app. left. exact Hx.
Qed.
Lemma is_words_concat : forall n bs, Forall (is_words n) bs -> is_words (n * length bs) (concat bs).
Proof.
  intros n bs H. induction H as [|b bs W H IH]; cbn [concat length].
  - rewrite Nat.mul_0_r. split; [reflexivity|constructor].
  - replace (n * S (length bs))%nat with (n + n * length bs)%nat by lia. apply is_words_app; assumption.
Qed.
Lemma is_words_blocks : forall n bs, Forall (is_words n) bs -> blocks n bs.
Proof. intros n bs H. eapply Forall_impl; [|exact H]. intros b [L _]. exact L. Qed.
Lemma is_words_zeros : forall n, is_words n (repeat 0 n).
Proof. intros n. split; [apply repeat_length|]. apply Forall_forall. intros x Hx. apply repeat_spec in Hx. lia. Qed.
Lemma concat_zeros : forall n k, repeat 0 (n * k) = concat (repeat (repeat 0 n) k).
Proof.
  intros n k. induction k; cbn [repeat concat]; [rewrite Nat.mul_0_r; reflexivity|].
  rewrite <- IHk. rewrite <- repeat_app. f_equal. lia.
Qed.
Lemma sub12_0 : forall x y z : list Z, length x = 4%nat -> sub (x ++ y ++ z) 0 4 = x.
Proof. intros x y z L. unfold sub. cbn [skipn]. rewrite firstn_app, firstn_all2 by lia. rewrite L. cbn [Nat.sub firstn]. apply app_nil_r. Qed.
Lemma sub12_4 : forall x y z : list Z, length x = 4%nat -> length y = 4%nat -> sub (x ++ y ++ z) 4 4 = y.
Proof.
  intros x y z L M. unfold sub. rewrite skipn_app, skipn_all2 by lia. rewrite L. cbn [Nat.sub skipn app].
  rewrite firstn_app, firstn_all2 by lia. rewrite M. cbn [Nat.sub firstn]. apply app_nil_r.
Qed.
Lemma sub12_8 : forall x y z : list Z, length x = 4%nat -> length y = 4%nat -> length z = 4%nat -> sub (x ++ y ++ z) 8 4 = z.
Proof.
  intros x y z L M N. unfold sub. rewrite app_assoc, skipn_app, skipn_all2 by (rewrite app_length; lia). rewrite app_length, L, M. cbn [Nat.add Nat.sub skipn app].
  apply firstn_all2. lia.
Qed.
Lemma put12_4 : forall x y y' z : list Z, length x = 4%nat -> length y = 4%nat -> length y' = 4%nat -> put_at 4 y' (x ++ y ++ z) = x ++ y' ++ z.
Proof.
  intros x y y' z L M N. unfold put_at. rewrite firstn_app, firstn_all2 by lia. rewrite L. cbn [Nat.sub firstn]. rewrite app_nil_r. f_equal. f_equal.
  rewrite N. cbn [Nat.add]. rewrite app_assoc, skipn_app, skipn_all2 by (rewrite app_length; lia). rewrite app_length, L, M. reflexivity.
Qed.
Lemma split12 : forall p, is_words 12 p -> exists x y z, p = x ++ y ++ z /\ is_words 4 x /\ is_words 4 y /\ is_words 4 z.
Proof.
  intros p W. exists (sub p 0 4), (sub p 4 4), (sub p 8 4). repeat split; try (apply (is_words_sub 12); [exact W|lia]).
  unfold sub. cbn [skipn]. rewrite <- (firstn_skipn 4 p) at 1. f_equal. rewrite <- (firstn_skipn 4 (skipn 4 p)) at 1. f_equal.
  rewrite skipn_skipn_add. symmetry. apply firstn_all2. rewrite skipn_length, (proj1 W). cbn. lia.
Qed.
Lemma split8 : forall p, is_words 8 p -> exists x y, p = x ++ y /\ is_words 4 x /\ is_words 4 y.
Proof.
  intros p W. exists (sub p 0 4), (sub p 4 4). repeat split; try (apply (is_words_sub 8); [exact W|lia]).
  unfold sub. cbn [skipn]. rewrite <- (firstn_skipn 4 p) at 1. f_equal. symmetry. apply firstn_all2. rewrite skipn_length, (proj1 W). cbn. lia.
Qed.

Section Sched.
Variables (E : ecgroup) (A : prims).
Hypothesis OK : prims_ok E A.
Hypothesis CO : coords_ok E.
Notation R12 := (rep12 E).
Lemma rep_words : forall p P, R12 p P -> is_words 12 p.
Proof.
  intros p P (x & y & z & -> & Wx & Wy & Wz & _). apply (is_words_app 4 8); [exact Wx|]. apply (is_words_app 4 4); assumption.
Qed.
(** negation of the middle words *)
Lemma neg_mont : forall y v, montr cP y v -> lval y <= cP -> ~ (cP | v) -> mont cP (a_neg A y 1) (- v).
Proof.
  intros y v [W V] L D. pose proof (lval_256 y W) as B.
  assert (NZ : lval y mod cP <> 0).
  { intros C. apply D. rewrite C in V. symmetry in V.
    apply (cancel_R cP v 0) in V; [|reflexivity|reflexivity]. apply Z.mod_divide; [discriminate|exact V]. }
  assert (N0 : lval y <> 0) by (intros C; rewrite C in NZ; apply NZ; reflexivity).
  assert (NP : lval y <> cP) by (intros C; rewrite C in NZ; apply NZ; reflexivity).
  destruct (ok_neg1 E A OK y W ltac:(lia)) as (W' & V'). repeat split.
  - apply W'.
  - apply W'.
  - rewrite V'. replace (cP - lval y) with (- lval y + 1 * cP) by lia. rewrite Z.mod_add by discriminate.
    rewrite Z.mul_opp_l. rewrite <- (Z.sub_0_l (lval y)), <- (Z.sub_0_l (v * _)). rewrite Zminus_mod, V, <- Zminus_mod. reflexivity.
  - rewrite V'. lia.
Qed.
Lemma not_div_mul : forall a b, ~ (cP | a) -> ~ (cP | b) -> ~ (cP | a * b).
Proof. intros a b Ha Hb D. apply prime_mult in D; [tauto|exact prime_c_P_SM2P256V1]. Qed.
Lemma y_unit : forall P : pt (eg E), P <> gO -> ~ (cP | snd (ecoords P)).
Proof. intros P N D. destruct (CO P N) as (_ & Y & _). apply Z.divide_pos_le in D; lia. Qed.
Lemma neg_nonzero : forall P : pt (eg E), P <> gO -> gneg P <> gO.
Proof. intros P N C. apply N. rewrite <- (gneg_neg _ P), C. apply gneg_O. Qed.
Lemma montr_eqv : forall w u v, montr cP w u -> u mod cP = v mod cP -> montr cP w v.
Proof. intros. eapply montr_cong; [reflexivity|eassumption|assumption]. Qed.
Lemma cube_neg : forall y v, ((cP - y) * v ^ 3) mod cP = (- (y * v ^ 3)) mod cP.
Proof. intros y v. replace ((cP - y) * v ^ 3) with (- (y * v ^ 3) + v ^ 3 * cP) by ring. apply Z.mod_add. discriminate. Qed.
Lemma rep_neg : forall x y z P sign, rep E x y z P -> P <> gO -> sign = 0 \/ sign = 1 -> rep E x (a_neg A y sign) z (signed E sign P).
Proof.
  intros x y z P sign (Wx & Wy & Wz & Lx & Ly & H) N [->| ->]; unfold signed; cbn [Z.eqb].
  - rewrite (ok_neg0 E A OK) by exact Wy. repeat split; try apply Wx; try apply Wy; try apply Wz; assumption.
  - destruct H as [[C _]|(_ & v & Dv & Mz & Mx & My)]; [contradiction|].
    destruct (CO P N) as (_ & _ & CN).
    pose proof (neg_mont y _ My Ly) as NM.
    assert (D3 : ~ (cP | snd (ecoords P) * v ^ 3)).
    { apply not_div_mul; [apply y_unit, N|]. replace (v ^ 3) with (v * (v * v)) by ring. repeat apply not_div_mul; exact Dv. }
    specialize (NM D3). destruct NM as [NM NL]. apply Z.lt_le_incl in NL.
    split; [exact Wx|split; [exact (proj1 NM)|split; [exact Wz|split; [exact Lx|split; [exact NL|]]]]]. right.
    split; [apply neg_nonzero, N|]. exists v. rewrite CN. cbn [fst snd]. repeat split; try apply Mz; try apply Mx; try apply NM; try exact Dv.
    rewrite (proj2 NM), Z.mul_mod, <- cube_neg, <- Z.mul_mod by discriminate. reflexivity.
Qed.
Lemma signed_nonzero : forall sign (P : pt (eg E)), P <> gO -> signed E sign P <> gO.
Proof. intros sign P N. unfold signed. destruct (sign =? 0); [exact N|apply neg_nonzero, N]. Qed.
Lemma rep12_neg : forall p P sign, R12 p P -> P <> gO -> sign = 0 \/ sign = 1 -> R12 (put_at 4 (a_neg A (sub p 4 4) sign) p) (signed E sign P).
Proof.
  intros p P sign (x & y & z & -> & R) N S. pose proof (rep_neg _ _ _ _ _ R N S) as R'.
  pose proof R as (Wx & Wy & Wz & _). pose proof R' as (_ & Wy' & _).
  rewrite sub12_4 by (apply Wx || apply Wy). rewrite put12_4 by (apply Wx || apply Wy || apply Wy'). exists x, (a_neg A y sign), z. auto.
Qed.

(** ** The table of p256ScalarMult *)
Variable B : pt (eg E).
Hypothesis BN : gmul cN B = gO.
Hypothesis BO : B <> gO.
Lemma N_prime' : prime cN.
Proof. exact prime_c_N_SM2P256V1. Qed.
Lemma mulB_zero : forall k, - cN < k < cN -> k <> 0 -> gmul k B <> gO.
Proof.
  intros k R N C. apply (gmul_zero_iff _ cN k B N_prime' BN BO) in C.
  apply Z.mod_divide in C; [|discriminate]. destruct C as [q Q]. assert (q = 0) by nia. lia.
Qed.
Lemma mulB_neq : forall a b, - cN < a - b < cN -> a <> b -> gmul a B <> gmul b B.
Proof.
  intros a b R N C. apply (mulB_zero (a - b)); [lia|lia|]. rewrite gmul_sub, C. apply gadd_neg.
Qed.
Lemma dblB : forall p k, R12 p (gmul k B) -> R12 (a_dbl A p) (gmul (2 * k) B).
Proof. intros p k H. replace (2 * k) with (k + k) by lia. rewrite gmul_add. apply (ok_dbl E A OK), H. Qed.
Lemma addB : forall p q a b, R12 p (gmul a B) -> R12 q (gmul b B) -> 0 < a < 2 ^ 8 -> 0 < b < 2 ^ 8 -> a <> b -> R12 (a_add A p q) (gmul (a + b) B).
Proof.
  intros p q a b Hp Hq Ra Rb N. assert (C : 2 ^ 8 < cN) by reflexivity. rewrite gmul_add. apply (ok_add E A OK); try assumption.
  - apply mulB_zero; lia.
  - apply mulB_zero; lia.
  - apply mulB_neq; lia.
Qed.
Definition entries (f : nat -> list Z) : list (list Z) := map f (seq 0 16).
Lemma scalar_table_ok : forall p, R12 p B -> exists bs, scalar_table A p = concat bs /\ length bs = 16%nat /\
  (forall i, (i < 16)%nat -> R12 (nth i bs []) (gmul (Z.of_nat i + 1) B)).
Proof.
  intros p Hp. unfold scalar_table. cbv zeta. change (repeat 0 192) with (repeat 0 (12 * 16)). rewrite concat_zeros.
  set (Z12 := repeat 0 12) in *. assert (LZ : length Z12 = 12%nat) by reflexivity. clearbody Z12. cbn [repeat].
  assert (H1 : R12 p (gmul 1 B)) by (rewrite gmul_1; exact Hp). clear Hp.
  assert (H2 := dblB _ _ H1). cbn [Z.mul Pos.mul] in H2.
  assert (H4 := dblB _ _ H2). cbn [Z.mul Pos.mul] in H4.
  assert (H8 := dblB _ _ H4). cbn [Z.mul Pos.mul] in H8.
  assert (H16 := dblB _ _ H8). cbn [Z.mul Pos.mul] in H16.
  set (p2 := a_dbl A p) in *. set (p4 := a_dbl A p2) in *. set (p8 := a_dbl A p4) in *. set (p16 := a_dbl A p8) in *.
  assert (H3 := addB _ _ _ _ H2 H1 ltac:(lia) ltac:(lia) ltac:(lia)). assert (H5 := addB _ _ _ _ H4 H1 ltac:(lia) ltac:(lia) ltac:(lia)).
  assert (H9 := addB _ _ _ _ H8 H1 ltac:(lia) ltac:(lia) ltac:(lia)). cbn [Z.add Pos.add Pos.succ] in H3, H5, H9.
  set (p3 := a_add A p2 p) in *. set (p5 := a_add A p4 p) in *. set (p9 := a_add A p8 p) in *.
  assert (H6 := dblB _ _ H3). assert (H10 := dblB _ _ H5). cbn [Z.mul Pos.mul] in H6, H10.
  set (p6 := a_dbl A p3) in *. set (p10 := a_dbl A p5) in *.
  assert (H7 := addB _ _ _ _ H6 H1 ltac:(lia) ltac:(lia) ltac:(lia)). assert (H11 := addB _ _ _ _ H10 H1 ltac:(lia) ltac:(lia) ltac:(lia)).
  cbn [Z.add Pos.add Pos.succ] in H7, H11. set (p7 := a_add A p6 p) in *. set (p11 := a_add A p10 p) in *.
  assert (H12 := dblB _ _ H6). assert (H14 := dblB _ _ H7). cbn [Z.mul Pos.mul] in H12, H14.
  set (p12 := a_dbl A p6) in *. set (p14 := a_dbl A p7) in *.
  assert (H13 := addB _ _ _ _ H12 H1 ltac:(lia) ltac:(lia) ltac:(lia)). assert (H15 := addB _ _ _ _ H14 H1 ltac:(lia) ltac:(lia) ltac:(lia)).
  cbn [Z.add Pos.add Pos.succ] in H13, H15. set (p13 := a_add A p12 p) in *. set (p15 := a_add A p14 p) in *.
  clearbody p15 p13 p14 p12 p11 p7 p10 p6 p9 p5 p3 p16 p8 p4 p2.
  exists [p; p2; p3; p4; p5; p6; p7; p8; p9; p10; p11; p12; p13; p14; p15; p16]. split; [|split; [reflexivity|]].
  - assert (LL : forall q k, R12 q (gmul k B) -> length q = 12%nat) by (intros q k H; apply (proj1 (rep_words _ _ H))).
    repeat match goal with H : R12 ?q _ |- _ => pose proof (LL _ _ H); clear H end.
    repeat (rewrite put_concat; [cbn [set_nth]|unfold blocks; repeat (constructor; try assumption)|assumption|cbn [length]; lia]). reflexivity.
  - intros i Hi. do 16 (destruct i as [|i]; [cbn [nth Z.of_nat Z.add Pos.add Pos.succ Pos.of_succ_nat]; assumption|]). lia.
Qed.

(** ** The rounds of p256ScalarMult *)
Lemma lor_bound : forall n a b, 0 <= n -> 0 <= a < 2 ^ n -> 0 <= b < 2 ^ n -> 0 <= Z.lor a b < 2 ^ n.
Proof.
  intros n a b Hn Ha Hb. split; [apply Z.lor_nonneg; lia|].
  rewrite <- (Z.mod_small a (2 ^ n)), <- (Z.mod_small b (2 ^ n)) by assumption.
  rewrite <- !Z.land_ones, <- Z.land_lor_distr_l, Z.land_ones by assumption. apply Z.mod_pos_bound. lia.
Qed.
Lemma lor_zero : forall a b, 0 <= a -> 0 <= b -> (Z.lor a b = 0 <-> a = 0 /\ b = 0).
Proof. intros a b _ _. split; [apply Z.lor_eq_0_iff|intros [-> ->]; reflexivity]. Qed.
Lemma dbls : forall n p k, R12 p (gmul k B) -> R12 (repeat_op n (a_dbl A) p) (gmul (2 ^ Z.of_nat n * k) B).
Proof.
  induction n; intros p k H; cbn [repeat_op].
  - change (2 ^ Z.of_nat 0) with 1. rewrite Z.mul_1_l. exact H.
  - rewrite Nat2Z.inj_succ, Z.pow_succ_r by lia. replace (2 * 2 ^ Z.of_nat n * k) with (2 ^ Z.of_nat n * (2 * k)) by lia.
    apply IHn, dblB, H.
Qed.
Lemma rep_zeros : R12 (repeat 0 12) (gO : pt (eg E)).
Proof.
  exists (repeat 0 4), (repeat 0 4), (repeat 0 4). split; [reflexivity|].
  repeat split; try (apply is_words_zeros); try reflexivity; try (cbn; discriminate). left. split; reflexivity.
Qed.
Lemma signed_mul : forall sign k, signed E sign (gmul k B) = gmul (if sign =? 0 then k else - k) B.
Proof. intros sign k. unfold signed. destruct (sign =? 0); [reflexivity|]. symmetry. apply gmul_opp. Qed.
Lemma prefix_bound : forall K j, 0 <= K -> 5 <= j -> 32 * prefix K j <= K + 16.
Proof.
  intros K j HK Hj. unfold prefix. pose proof (Z.div_le_compat_l (2 * K) 32 (2 ^ j) ltac:(lia)) as D.
  assert (0 < 32 <= 2 ^ j) by (change 32 with (2 ^ 5); split; [lia|apply Z.pow_le_mono_r; lia]). specialize (D H).
  pose proof (Z.mul_div_le (2 * K) 32 ltac:(lia)). pose proof (Z.mul_div_le (2 * K / 2 ^ j + 1) 2 ltac:(lia)). lia.
Qed.
Lemma prefix_zero : forall K j, 0 <= K -> 0 <= j -> prefix K j = 0 -> 2 * K / 2 ^ j = 0.
Proof.
  intros K j HK Hj H. unfold prefix in H. pose proof (Z.pow_pos_nonneg 2 j ltac:(lia) ltac:(lia)).
  pose proof (Z.div_pos (2 * K) (2 ^ j) ltac:(lia) ltac:(lia)). apply Z.div_small_iff in H; lia.
Qed.
Lemma equal_inner : forall a d K pj N, 0 <= K < N -> 2 ^ 10 < N -> pj = 32 * a + d -> - 16 <= d <= 16 -> 0 <= a -> a <> 0 ->
  32 * pj <= K + 16 -> (32 * a - d) mod N = 0 -> False.
Proof.
  intros a d K pj N HK HN -> Hd Ha Na P M. change (2 ^ 10) with 1024 in HN. rewrite Z.mod_small in M by lia. lia.
Qed.
Lemma equal_last : forall a d K N n32, 0 <= K < N -> 2 ^ 10 < N -> N = 32 * n32 + 3 -> K = 32 * a + d -> - 16 <= d <= 16 -> 0 <= a -> a <> 0 ->
  (32 * a - d) mod N = 0 -> K = N - 6.
Proof.
  intros a d K N n32 HK HN En -> Hd Ha Na M. change (2 ^ 10) with 1024 in HN.
  destruct (Z_lt_le_dec (32 * a - d) N); [rewrite Z.mod_small in M by lia; lia|].
  replace (32 * a - d) with (32 * a - d - N + 1 * N) in M by lia. rewrite Z.mod_add, Z.mod_small in M by lia. lia.
Qed.
Section Rounds.
Variables (bs : list (list Z)) (s : list Z).
Hypothesis Lbs : length bs = 16%nat.
Hypothesis Rbs : forall i, (i < 16)%nat -> R12 (nth i bs []) (gmul (Z.of_nat i + 1) B).
Hypothesis Ws : is_words 4 s.
Notation K := (lval s).
Hypothesis KN : K < cN.
Lemma bs_words : Forall (is_words 12) bs.
Proof.
  apply Forall_forall. intros b Hb. destruct (In_nth _ _ [] Hb) as (i & Hi & <-). eapply rep_words. apply Rbs. lia.
Qed.
Lemma select_ok : forall i, 0 <= i <= 16 -> R12 (a_select A (concat bs) i) (gmul i B) /\ (i = 0 -> a_select A (concat bs) i = repeat 0 12).
Proof.
  intros i Hi. pose proof (is_words_concat 12 bs bs_words) as W. rewrite Lbs in W.
  rewrite (ok_select E A OK) by (exact W || exact Hi). destruct (Z.eqb_spec i 0) as [->|N].
  - split; [apply rep_zeros|reflexivity].
  - split; [|lia]. rewrite (sub_concat 12 bs _ []) by (apply is_words_blocks, bs_words || lia).
    pose proof (Rbs (Z.to_nat i - 1) ltac:(lia)) as R. replace (Z.of_nat (Z.to_nat i - 1) + 1) with i in R by lia. exact R.
Qed.
Definition state_ok (j : Z) (p : list Z) (zero : Z) : Prop :=
  R12 p (gmul (prefix K j) B) /\ 0 <= zero < 32 /\ (zero = 0 <-> prefix K j = 0).
Lemma round_ok : forall j p zero q z, (j = 0 \/ 5 <= j <= 252) -> state_ok (j + 5) p zero ->
  scalar_round A (concat bs) p zero (window_at s 0x3f j) = (q, z) ->
  (K <> cN - 6 \/ j <> 0 -> state_ok j q z) /\ (K = cN - 6 -> j = 0 -> R12 q gO).
Proof.
  intros j p zero q z Hj (Rp & Hz & Z0) E0. unfold scalar_round in E0.
  pose proof (lval_256 s Ws) as BK.
  pose proof (step5 s j Ws ltac:(lia)) as ST. set (a := prefix K (j + 5)) in *.
  assert (A0 : 0 <= a) by (apply prefix_nonneg; lia).
  assert (WW : window_at s 0x3f j = (2 * K / 2 ^ j) mod 64) by (change 0x3f with (2 ^ 6 - 1); rewrite window_at_eq by (assumption || lia); reflexivity).
  assert (W64 : 0 <= window_at s 0x3f j < 64) by (rewrite WW; apply Z.mod_pos_bound; lia).
  destruct (booth5 _ W64) as (Hsel & Hsign & _).
  assert (SG : snd (boothW5 (window_at s 0x3f j)) = 0 \/ snd (boothW5 (window_at s 0x3f j)) = 1).
  { rewrite Hsign. set (w := window_at s 0x3f j) in *. pose proof (Z.div_pos w 32). pose proof (Z.div_lt_upper_bound w 32 2). lia. }
  assert (SG0 : a = 0 -> snd (boothW5 (window_at s 0x3f j)) = 0).
  { intros Ha. apply prefix_zero in Ha; [|lia|lia]. rewrite Hsign. rewrite Z.pow_add_r, <- Z.div_div in Ha by (try apply Z.pow_nonzero; lia).
    change (2 ^ 5) with 32 in Ha. pose proof (Z.div_pos (2 * K) (2 ^ j) ltac:(lia) ltac:(apply Z.pow_pos_nonneg; lia)) as Q0.
    apply Z.div_small_iff in Ha; [|lia]. rewrite WW. rewrite Z.mod_small by lia. apply Z.div_small. lia. }
  unfold digit in ST. destruct (boothW5 (window_at s 0x3f j)) as [sel sign] eqn:EB. cbn [fst snd] in *.
  set (d := if sign =? 0 then sel else - sel) in *.
  assert (Hd : - 16 <= d <= 16 /\ (d = 0 <-> sel = 0)) by (unfold d; destruct (sign =? 0); lia).
  pose proof (dbls 5 _ _ Rp) as R5. change (2 ^ Z.of_nat 5) with 32 in R5. set (p5 := repeat_op 5 (a_dbl A) p) in *.
  destruct (select_ok sel Hsel) as [Rt Rt0]. set (t0 := a_select A (concat bs) sel) in *.
  set (t0' := put_at 4 (a_neg A (sub t0 4 4) sign) t0) in *.
  pose proof (rep_words _ _ R5) as W5. pose proof (rep_words _ _ Rt) as Wt.
  assert (Wt' : is_words 12 t0').
  { unfold t0'. destruct (split12 t0 Wt) as (x & y & zz & -> & Wx & Wy & Wz). rewrite sub12_4 by (apply Wx || apply Wy).
    assert (Wn : is_words 4 (a_neg A y sign)) by (destruct SG as [->| ->]; [rewrite (ok_neg0 E A OK) by exact Wy; exact Wy|apply (ok_negw E A OK), Wy]).
    rewrite put12_4 by (apply Wx || apply Wy || apply Wn). apply (is_words_app 4 8); [exact Wx|]. apply (is_words_app 4 4); assumption. }
  assert (Rd : sel <> 0 -> R12 t0' (gmul d B)).
  { intros Hs. assert (C16 : 16 < cN) by reflexivity. unfold d. rewrite <- signed_mul. unfold t0'. apply rep12_neg; [exact Rt|apply mulB_zero; lia|exact SG]. }
  pose proof (ok_addw E A OK _ _ W5 Wt') as Wa. set (t1 := a_add A p5 t0') in *.
  rewrite (ok_mov E A OK t1 p5 sel Wa W5 ltac:(lia)) in E0.
  assert (Wt1 : is_words 12 (if sel =? 0 then p5 else t1)) by (destruct (sel =? 0); assumption).
  rewrite (ok_mov E A OK _ t0' zero Wt1 Wt' ltac:(lia)) in E0.
  injection E0 as Eq Ez.
  assert (Zs : 0 <= z < 32 /\ (z = 0 <-> prefix K j = 0)).
  { split; [rewrite <- Ez; apply (lor_bound 5); [lia|exact Hz|change (2 ^ 5) with 32; lia]|].
    rewrite <- Ez, lor_zero by lia. rewrite Z0, ST. lia. }
  assert (PB : 32 * a <= K + 16) by (apply prefix_bound; lia).
  assert (C16 : 2 ^ 10 < cN) by reflexivity.
  assert (EX : (32 * a - d) mod cN = 0 -> a <> 0 -> K = cN - 6 /\ j = 0).
  { intros M Na. destruct Hj as [J0|J5].
    - split; [|exact J0]. rewrite J0, prefix_0 in ST.
      apply (equal_last a d K cN (cN / 32)); try assumption; try reflexivity; try apply Hd. lia.
    - exfalso. apply (equal_inner a d K (prefix K j) cN); try assumption; try apply Hd; try lia. apply prefix_bound; lia. }
  split.
  - intros NX. split; [|exact Zs]. rewrite <- Eq, ST.
    destruct (Z.eqb_spec zero 0) as [Hz0|Hz0].
    + assert (a = 0) by (apply Z0; exact Hz0). specialize (SG0 H). rewrite H. cbn [Z.mul Z.add].
      destruct (Z.eq_dec sel 0) as [Hs|Hs]; [|apply Rd, Hs].
      unfold t0'. rewrite (Rt0 Hs), SG0. change (sub (repeat 0 12) 4 4) with (repeat 0 4). rewrite (ok_neg0 E A OK) by (apply is_words_zeros).
      replace d with 0 by lia. rewrite gmul_0. apply rep_zeros.
    + assert (Na : a <> 0) by (intros C; apply Hz0, Z0, C).
      destruct (Z.eqb_spec sel 0) as [Hs|Hs].
      * replace d with 0 by lia. rewrite Z.add_0_r. exact R5.
      * rewrite gmul_add. apply (ok_add E A OK); [exact R5|apply Rd, Hs|..].
        -- intros C. apply (gmul_zero_iff _ cN _ B N_prime' BN BO) in C. apply Z.mod_divide in C; [|discriminate].
           apply prime_mult in C; [|exact N_prime']. destruct C as [C|C]; apply Z.divide_pos_le in C; lia.
        -- apply mulB_zero; lia.
        -- intros C. assert (M : (32 * a - d) mod cN = 0).
           { apply (gmul_zero_iff _ cN _ B N_prime' BN BO). rewrite gmul_sub, C. apply gadd_neg. }
           destruct (EX M Na) as [X1 X2]. destruct NX; contradiction.
  - intros XK X0. subst j. rewrite prefix_0 in ST.
    assert (W58 : window_at s 0x3f 0 = 58) by (rewrite WW, XK; reflexivity).
    rewrite W58 in EB. vm_compute in EB. injection EB as <- <-. change d with (-3) in *.
    assert (Na : a <> 0) by lia. rewrite <- Eq.
    destruct (Z.eqb_spec zero 0) as [Hz0|_]; [exfalso; apply Na, Z0, Hz0|]. cbn [Z.eqb].
    apply (ok_add_degenerate E A OK _ _ _ _ R5 (Rd ltac:(discriminate))). right. right.
    apply (gmul_inj _ cN _ _ B N_prime' BN BO). 
    replace (32 * a) with (-3 + 1 * cN) by lia. apply Z.mod_add. discriminate.
Qed.
Lemma loop_ok : forall n fuel p zero, (n <= fuel)%nat -> (n <= 50)%nat -> state_ok (5 + 5 * Z.of_nat n) p zero ->
  exists q z, scalar_loop A fuel (concat bs) s p zero (4 + 5 * Z.of_nat n) = Val (q, z) /\ state_ok 5 q z.
Proof.
  induction n; intros fuel p zero Hf Hn H.
  - exists p, zero. split; [|exact H]. destruct fuel; reflexivity.
  - destruct fuel; [lia|]. cbn [scalar_loop]. destruct (Z.gtb_spec (4 + 5 * Z.of_nat (S n)) 4); [|lia].
    replace (4 + 5 * Z.of_nat (S n) - 5) with (4 + 5 * Z.of_nat n) by lia.
    destruct (scalar_round A (concat bs) p zero (window s 0x3f (4 + 5 * Z.of_nat n))) as [q z] eqn:ER.
    apply IHn; [lia|lia|].
    assert (WA : window s 0x3f (4 + 5 * Z.of_nat n) = window_at s 0x3f (5 + 5 * Z.of_nat n)).
    { unfold window_at. destruct (Z.eqb_spec (5 + 5 * Z.of_nat n) 0); [lia|]. f_equal. lia. }
    rewrite WA in ER. eapply (round_ok (5 + 5 * Z.of_nat n)); [lia| |exact ER|right; lia].
    replace (5 + 5 * Z.of_nat n + 5) with (5 + 5 * Z.of_nat (S n)) by lia. exact H.
Qed.
End Rounds.
Lemma ScalarMult_ok : forall p s, R12 p B -> is_words 4 s -> lval s < cN ->
  exists q, p256ScalarMult A p s = Val q /\ (lval s <> cN - 6 -> R12 q (gmul (lval s) B)) /\ (lval s = cN - 6 -> R12 q gO).
Proof.
  intros p s Hp Ws KN. destruct (scalar_table_ok p Hp) as (bs & ET & Lbs & Rbs). unfold p256ScalarMult. cbv zeta. rewrite ET.
  assert (W254 : window s 0x3f 254 = window_at s 0x3f 255) by reflexivity.
  pose proof (lval_256 s Ws) as BK. pose proof (step5 s 255 Ws ltac:(lia)) as ST. rewrite <- W254 in ST.
  rewrite (prefix_top s (255 + 5) Ws) in ST by lia.
  assert (W4 : 0 <= window s 0x3f 254 < 4).
  { change 0x3f with (2 ^ 6 - 1). rewrite window_eq by (assumption || lia). 
    pose proof (Z.div_lt_upper_bound (lval s) (2 ^ 254) 4 ltac:(lia) ltac:(lia)). pose proof (Z.div_pos (lval s) (2 ^ 254) ltac:(lia) ltac:(lia)).
    rewrite Z.mod_small by lia. lia. }
  destruct (booth5 (window s 0x3f 254) ltac:(lia)) as (Hsel & Hsign & _). rewrite (Z.div_small _ 32) in Hsign by lia.
  unfold digit in ST. destruct (boothW5 (window s 0x3f 254)) as [sel sign] eqn:EB. cbn [fst snd] in *. rewrite Hsign in ST. cbn [Z.eqb] in ST.
  destruct (select_ok bs Lbs Rbs sel Hsel) as [Rsel _].
  destruct (loop_ok bs s Lbs Rbs Ws KN 50 50 (a_select A (concat bs) sel) sel ltac:(lia) ltac:(lia)) as (q & z & EL & SO).
  { change (5 + 5 * Z.of_nat 50) with 255. split; [rewrite ST; exact Rsel|]. split; [lia|]. rewrite ST. lia. }
  change (4 + 5 * Z.of_nat 50) with 254 in EL. rewrite EL. cbn [bind].
  assert (W0 : window0 s 0x3f = window_at s 0x3f 0) by reflexivity. rewrite W0.
  destruct (scalar_round A (concat bs) q z (window_at s 0x3f 0)) as [q' z'] eqn:ER. exists q'. split; [reflexivity|].
  destruct (round_ok bs s Lbs Rbs Ws KN 0 q z q' z' ltac:(lia) SO ER) as [G1 G2]. split.
  - intros N. destruct (G1 (or_introl N)) as [R _]. rewrite prefix_0 in R. exact R.
  - intros X. apply G2; [exact X|reflexivity].
Qed.
End Sched.
