(** * P256Booth: windows and Booth digits *)
From Coq Require Import ZArith List Bool Lia.
From Verif Require Import Base Curves P256 Spec_P256.
Import ListNotations.
Open Scope Z_scope.

Lemma is_words_4 : forall w, is_words 4 w -> exists a b c d, w = [a; b; c; d] /\
  0 <= a < 2 ^ 64 /\ 0 <= b < 2 ^ 64 /\ 0 <= c < 2 ^ 64 /\ 0 <= d < 2 ^ 64.
Proof.
  intros w [L F]. destruct w as [|a [|b [|c [|d [|]]]]]; try discriminate.
  inversion_clear F as [|? ? A F1]. inversion_clear F1 as [|? ? B F2]. inversion_clear F2 as [|? ? C F3]. inversion_clear F3 as [|? ? D _].
  exists a, b, c, d. auto.
Qed.
Lemma lval_4 : forall a b c d, lval [a; b; c; d] = a + 2 ^ 64 * b + 2 ^ 128 * c + 2 ^ 192 * d.
Proof. intros. cbn [lval]. lia. Qed.
Lemma lval_bound : forall w n, is_words n w -> 0 <= lval w < 2 ^ (64 * Z.of_nat n).
Proof.
  intros w n [L F]. subst n. induction F as [|x w Hx F IH]; [cbn; lia|]. cbn [lval length]. rewrite Nat2Z.inj_succ.
  replace (64 * Z.succ (Z.of_nat (length w))) with (64 + 64 * Z.of_nat (length w)) by lia. rewrite Z.pow_add_r by lia. nia.
Qed.
Lemma lval_256 : forall w, is_words 4 w -> 0 <= lval w < 2 ^ 256.
Proof. intros w H. exact (lval_bound w 4 H). Qed.
Lemma words_of_ok : forall n z, is_words n (words_of n z).
Proof.
  induction n; intros z; cbn [words_of]; [split; [reflexivity|constructor]|]. destruct (IHn (z / 2 ^ 64)) as [L F].
  split; [cbn [length]; lia|]. constructor; [apply Z.mod_pos_bound; lia|exact F].
Qed.
Lemma lval_words_of : forall n z, 0 <= z < 2 ^ (64 * Z.of_nat n) -> lval (words_of n z) = z.
Proof.
  induction n; intros z Hz; cbn [words_of lval]; [cbn in Hz; lia|].
  rewrite IHn; [pose proof (Z.div_mod z (2 ^ 64)); lia|].
  rewrite Nat2Z.inj_succ in Hz. replace (64 * Z.succ (Z.of_nat n)) with (64 + 64 * Z.of_nat n) in Hz by lia.
  rewrite Z.pow_add_r in Hz by lia. split; [apply Z.div_pos; lia|apply Z.div_lt_upper_bound; lia].
Qed.

(** ** Windows *)
Lemma mask_mod : forall x m, 0 <= m -> Z.land x (2 ^ m - 1) = x mod 2 ^ m.
Proof. intros x m H. replace (2 ^ m - 1) with (Z.ones m) by (rewrite Z.ones_equiv; lia). apply Z.land_ones. exact H. Qed.
Lemma mod_mod_pow : forall x a b, 0 <= a <= b -> (x mod 2 ^ b) mod 2 ^ a = x mod 2 ^ a.
Proof.
  intros x a b H. rewrite <- !Z.land_ones by lia. rewrite <- Z.land_assoc. f_equal.
  rewrite Z.land_ones by lia. rewrite Z.ones_equiv, Z.ones_equiv.
  rewrite <- Z.ones_equiv, <- Z.ones_equiv. rewrite Z.ones_mod_pow2 by lia. reflexivity.
Qed.
Lemma split_div : forall a X r, 0 <= r <= 64 -> 0 <= a -> 0 <= X ->
  (a + 2 ^ 64 * X) / 2 ^ r = a / 2 ^ r + 2 ^ (64 - r) * X.
Proof.
  intros a X r Hr Ha HX. replace (2 ^ 64) with (2 ^ (64 - r) * 2 ^ r) by (rewrite <- Z.pow_add_r by lia; f_equal; lia).
  replace (a + 2 ^ (64 - r) * 2 ^ r * X) with (a + (2 ^ (64 - r) * X) * 2 ^ r) by lia.
  apply Z.div_add. pose proof (Z.pow_pos_nonneg 2 r). lia.
Qed.
Lemma window_cross : forall a b X r m, 0 <= r < 64 -> 0 <= m <= 64 -> 0 <= a -> 0 <= b -> 0 <= X ->
  (u64 (Z.shiftr a r + u64 (Z.shiftl b (64 - r)))) mod 2 ^ m = (a + 2 ^ 64 * (b + 2 ^ 64 * X)) / 2 ^ r mod 2 ^ m.
Proof.
  intros a b X r m Hr Hm Ha Hb HX. rewrite split_div by lia. unfold u64.
  rewrite Z.add_mod_idemp_r by lia. rewrite mod_mod_pow by lia. rewrite Z.shiftr_div_pow2, Z.shiftl_mul_pow2 by lia.
  replace (2 ^ (64 - r) * (b + 2 ^ 64 * X)) with (b * 2 ^ (64 - r) + 2 ^ (64 - r) * X * 2 ^ (64 - m) * 2 ^ m).
  - rewrite Z.add_assoc, Z.mod_add by (pose proof (Z.pow_pos_nonneg 2 m); lia). reflexivity.
  - replace (2 ^ 64) with (2 ^ (64 - m) * 2 ^ m) by (rewrite <- Z.pow_add_r by lia; f_equal; lia). lia.
Qed.
Lemma window_eq : forall s m index, is_words 4 s -> 0 <= m <= 64 -> 0 <= index < 256 ->
  window s (2 ^ m - 1) index = (lval s / 2 ^ index) mod 2 ^ m.
Proof.
  intros s m index W Hm Hi. destruct (is_words_4 s W) as (a & b & c & d & -> & Ha & Hb & Hc & Hd). clear W.
  unfold window. cbv zeta.
  pose proof (Z.div_mod index 64 ltac:(lia)) as E. pose proof (Z.mod_pos_bound index 64 ltac:(lia)) as Hr.
  set (q := index / 64) in *. set (r := index mod 64) in *.
  assert (Hq : 0 <= q < 4) by (unfold q; split; [apply Z.div_pos; lia|apply Z.div_lt_upper_bound; lia]).
  assert (P : forall k, 0 <= k -> 2 ^ (64 * k + r) = 2 ^ (64 * k) * 2 ^ r) by (intros; apply Z.pow_add_r; lia).
  pose proof (Z.pow_pos_nonneg 2 r ltac:(lia) ltac:(lia)) as R0.
  assert (DD : forall k x y, 0 <= k -> 0 <= x < 2 ^ (64 * k) -> (x + 2 ^ (64 * k) * y) / 2 ^ (64 * k + r) = y / 2 ^ r).
  { intros k x y Hk Hx. rewrite P, <- Z.div_div by lia. f_equal. rewrite Z.mul_comm, Z.div_add by lia. rewrite Z.div_small by lia. lia. }
  destruct (Z.ltb_spec index 192) as [L|L]; rewrite mask_mod by lia.
  - assert (Q : q = 0 \/ q = 1 \/ q = 2) by lia. rewrite E. cbn [lval].
    destruct Q as [Q|[Q|Q]]; rewrite Q.
    + change (Z.to_nat 0) with 0%nat. change (Z.to_nat (0 + 1)) with 1%nat. cbn [nth].
      rewrite (window_cross a b (c + 2 ^ 64 * (d + 2 ^ 64 * 0))) by lia. f_equal. 
    + change (Z.to_nat 1) with 1%nat. change (Z.to_nat (1 + 1)) with 2%nat. cbn [nth].
      rewrite (window_cross b c (d + 2 ^ 64 * 0)) by lia. f_equal.
      rewrite (DD 1 a) by lia. reflexivity.
    + change (Z.to_nat 2) with 2%nat. change (Z.to_nat (2 + 1)) with 3%nat. cbn [nth].
      rewrite (window_cross c d 0) by lia. f_equal.
      rewrite <- (DD 2 (a + 2 ^ 64 * b)) by lia. f_equal. lia.
  - assert (Q : q = 3) by lia. rewrite E, Q. cbn [lval]. change (Z.to_nat 3) with 3%nat. cbn [nth].
    rewrite Z.shiftr_div_pow2 by lia. f_equal. rewrite <- (DD 3 (a + 2 ^ 64 * b + 2 ^ 128 * c)) by lia. f_equal. lia.
Qed.
Lemma window0_eq : forall s m, is_words 4 s -> 0 <= m <= 64 ->
  window0 s (2 ^ m - 1) = (2 * lval s) mod 2 ^ m.
Proof.
  intros s m W Hm. destruct (is_words_4 s W) as (a & b & c & d & -> & Ha & _). unfold window0. cbn [nth].
  rewrite mask_mod by lia. unfold u64. rewrite mod_mod_pow by lia. rewrite Z.shiftl_mul_pow2 by lia. change (2 ^ 1) with 2.
  set (X := b + 2 ^ 64 * (c + 2 ^ 64 * (d + 2 ^ 64 * 0))).
  change (lval [a; b; c; d]) with (a + 2 ^ 64 * X). 
  replace (2 * (a + 2 ^ 64 * X)) with (a * 2 + 2 * X * 2 ^ (64 - m) * 2 ^ m).
  - rewrite Z.mod_add by (pose proof (Z.pow_pos_nonneg 2 m); lia). reflexivity.
  - replace (2 ^ 64) with (2 ^ (64 - m) * 2 ^ m) by (rewrite <- Z.pow_add_r by lia; f_equal; lia). lia.
Qed.

(** ** Digits *)
Definition booth_ok (w : Z) (ds : Z * Z) (half : Z) : Prop :=
  0 <= fst ds <= half /\ (snd ds = 0 \/ snd ds = 1) /\ digit ds = (w + 1) / 2 - 2 * half * (w / (2 * half)).
Lemma booth5_table : forallb (fun n => let w := Z.of_nat n in let ds := boothW5 w in
  (0 <=? fst ds) && (fst ds <=? 16) && (snd ds =? w / 32) && (digit ds =? (w + 1) / 2 - 32 * (w / 32))) (seq 0 64) = true.
Proof. vm_compute. reflexivity. Qed.
Lemma booth7_table : forallb (fun n => let w := Z.of_nat n in let ds := boothW7 w in
  (0 <=? fst ds) && (fst ds <=? 64) && (snd ds =? w / 128) && (digit ds =? (w + 1) / 2 - 128 * (w / 128))) (seq 0 256) = true.
Proof. vm_compute. reflexivity. Qed.
Lemma booth5 : forall w, 0 <= w < 64 -> 0 <= fst (boothW5 w) <= 16 /\ snd (boothW5 w) = w / 32 /\ digit (boothW5 w) = (w + 1) / 2 - 32 * (w / 32).
Proof.
  intros w Hw. pose proof (proj1 (forallb_forall _ _) booth5_table (Z.to_nat w)) as T. cbv beta zeta in T. rewrite !Z2Nat.id in T by lia.
  specialize (T ltac:(apply in_seq; lia)). cbv zeta in T. rewrite !andb_true_iff in T. destruct T as (((T1 & T2) & T3) & T4).
  apply Z.leb_le in T1, T2. apply Z.eqb_eq in T3, T4. auto.
Qed.
Lemma booth7 : forall w, 0 <= w < 256 -> 0 <= fst (boothW7 w) <= 64 /\ snd (boothW7 w) = w / 128 /\ digit (boothW7 w) = (w + 1) / 2 - 128 * (w / 128).
Proof.
  intros w Hw. pose proof (proj1 (forallb_forall _ _) booth7_table (Z.to_nat w)) as T. cbv beta zeta in T. rewrite !Z2Nat.id in T by lia.
  specialize (T ltac:(apply in_seq; lia)). cbv zeta in T. rewrite !andb_true_iff in T. destruct T as (((T1 & T2) & T3) & T4).
  apply Z.leb_le in T1, T2. apply Z.eqb_eq in T3, T4. auto.
Qed.

(** the rounded prefix: what the digits from bit position j upwards stand for, j counted in 2K *)
Definition prefix (K j : Z) : Z := (2 * K / 2 ^ j + 1) / 2.
Lemma prefix_0 : forall K, prefix K 0 = K.
Proof. intros K. unfold prefix. change (2 ^ 0) with 1. rewrite Z.div_1_r. rewrite (Z.mul_comm 2 K), Z.div_add_l by lia. change (1 / 2) with 0. lia. Qed.
Lemma prefix_step : forall K j m, 0 <= K -> 0 <= j -> 1 <= m ->
  let w := (2 * K / 2 ^ j) mod 2 ^ (m + 1) in
  prefix K j = 2 ^ m * prefix K (j + m) + ((w + 1) / 2 - 2 ^ m * (w / 2 ^ m)).
Proof.
  intros K j m HK Hj Hm w. unfold prefix.
  pose proof (Z.pow_pos_nonneg 2 j ltac:(lia) ltac:(lia)) as J0.
  pose proof (Z.pow_pos_nonneg 2 m ltac:(lia) ltac:(lia)) as M0.
  assert (E1 : 2 ^ (m + 1) = 2 * 2 ^ m) by (rewrite Z.pow_add_r by lia; lia).
  rewrite Z.pow_add_r, <- Z.div_div by lia. set (q := 2 * K / 2 ^ j) in *.
  pose proof (Z.div_mod q (2 ^ (m + 1)) ltac:(lia)) as Q. fold w in Q. pose proof (Z.mod_pos_bound q (2 ^ (m + 1)) ltac:(lia)) as W. fold w in W.
  set (h := q / 2 ^ (m + 1)) in *. set (t := w / 2 ^ m).
  assert (T : t = 0 \/ t = 1).
  { unfold t. pose proof (Z.div_pos w (2 ^ m)). pose proof (Z.div_lt_upper_bound w (2 ^ m) 2). lia. }
  assert (QM : q / 2 ^ m = 2 * h + t).
  { rewrite Q, E1. replace (2 * 2 ^ m * h + w) with (w + (2 * h) * 2 ^ m) by lia. rewrite Z.div_add by lia. fold t. lia. }
  rewrite QM. assert (H1 : (2 * h + t + 1) / 2 = h + t).
  { destruct T as [->| ->]; [replace (2 * h + 0 + 1) with (1 + h * 2) by lia|replace (2 * h + 1 + 1) with (0 + (h + 1) * 2) by lia];
    rewrite Z.div_add by lia; cbn; lia. }
  rewrite H1. assert (E2 : 2 ^ m = 2 * 2 ^ (m - 1)) by (rewrite <- Z.pow_succ_r by lia; f_equal; lia).
  replace (q + 1) with ((w + 1) + (2 ^ m * h) * 2) by lia. rewrite Z.div_add by lia. lia.
Qed.
Lemma prefix_nonneg : forall K j, 0 <= K -> 0 <= j -> 0 <= prefix K j.
Proof.
  intros K j HK Hj. unfold prefix. pose proof (Z.pow_pos_nonneg 2 j ltac:(lia) ltac:(lia)).
  apply Z.div_pos; [|lia]. pose proof (Z.div_pos (2 * K) (2 ^ j)). lia.
Qed.
Lemma shift2 : forall K j, 0 <= j -> 2 * K / 2 ^ (j + 1) = K / 2 ^ j.
Proof.
  intros K j Hj. pose proof (Z.pow_pos_nonneg 2 j ltac:(lia) ltac:(lia)).
  rewrite Z.pow_add_r by lia. change (2 ^ 1) with 2. rewrite (Z.mul_comm (2 ^ j) 2), Z.div_mul_cancel_l by lia. reflexivity.
Qed.
(** the window of p256ScalarMult and p256BaseMult at position j = index + 1 (j = 0 for the last) *)
Definition window_at (s : list Z) (mask j : Z) : Z := if j =? 0 then window0 s mask else window s mask (j - 1).
Lemma window_at_eq : forall s m j, is_words 4 s -> 0 <= m <= 64 -> 0 <= j <= 256 ->
  window_at s (2 ^ m - 1) j = (2 * lval s / 2 ^ j) mod 2 ^ m.
Proof.
  intros s m j W Hm Hj. unfold window_at. destruct (Z.eqb_spec j 0) as [->|N].
  - rewrite window0_eq by assumption. change (2 ^ 0) with 1. rewrite Z.div_1_r. reflexivity.
  - rewrite window_eq by (assumption || lia). replace j with (j - 1 + 1) at 2 by lia. rewrite shift2 by lia. reflexivity.
Qed.
Lemma step5 : forall s j, is_words 4 s -> 0 <= j <= 256 ->
  prefix (lval s) j = 32 * prefix (lval s) (j + 5) + digit (boothW5 (window_at s 0x3f j)).
Proof.
  intros s j W Hj. pose proof (lval_256 s W) as B. change 0x3f with (2 ^ 6 - 1). rewrite window_at_eq by (assumption || lia).
  pose proof (prefix_step (lval s) j 5 ltac:(lia) ltac:(lia) ltac:(lia)) as P. cbv zeta in P. change (5 + 1) with 6 in P. change (2 ^ 5) with 32 in P.
  pose proof (Z.mod_pos_bound (2 * lval s / 2 ^ j) (2 ^ 6) ltac:(lia)) as M. change (2 ^ 6) with 64 in *.
  destruct (booth5 _ M) as (_ & _ & D). rewrite D. exact P.
Qed.
Lemma step7 : forall s j, is_words 4 s -> 0 <= j <= 256 ->
  prefix (lval s) j = 128 * prefix (lval s) (j + 7) + digit (boothW7 (window_at s 0xff j)).
Proof.
  intros s j W Hj. pose proof (lval_256 s W) as B. change 0xff with (2 ^ 8 - 1). rewrite window_at_eq by (assumption || lia).
  pose proof (prefix_step (lval s) j 7 ltac:(lia) ltac:(lia) ltac:(lia)) as P. cbv zeta in P. change (7 + 1) with 8 in P. change (2 ^ 7) with 128 in P.
  pose proof (Z.mod_pos_bound (2 * lval s / 2 ^ j) (2 ^ 8) ltac:(lia)) as M. change (2 ^ 8) with 256 in *.
  destruct (booth7 _ M) as (_ & _ & D). rewrite D. exact P.
Qed.
Lemma prefix_top : forall s j, is_words 4 s -> 258 <= j -> prefix (lval s) j = 0.
Proof.
  intros s j W Hj. pose proof (lval_256 s W) as B. unfold prefix.
  rewrite (Z.div_small (2 * lval s)); [reflexivity|]. pose proof (Z.pow_le_mono_r 2 258 j ltac:(lia) ltac:(lia)). lia.
Qed.
