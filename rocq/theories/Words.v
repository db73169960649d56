(** * Words: lemmas about 32-bit words represented as integers *)
From Coq Require Import ZArith List Bool Lia.
From Verif Require Import Base.
Import ListNotations.
Open Scope Z_scope.

Definition is_u32 (x : Z) : Prop := 0 <= x < 2 ^ 32.

Lemma bound_bits : forall n x, 0 <= n -> 0 <= x ->
  (x < 2 ^ n <-> forall i, n <= i -> Z.testbit x i = false).
Proof.
  intros n x Hn Hx. split.
  - intros H i Hi. destruct (Z.eq_dec x 0) as [->|]; [apply Z.bits_0|].
    apply Z.bits_above_log2; auto. apply Z.lt_le_trans with n; auto.
    apply Z.log2_lt_pow2; lia.
  - intros H. destruct (Z.lt_ge_cases x (2 ^ n)) as [|G]; auto. exfalso.
    destruct (Z.eq_dec x 0) as [->|].
    { pose proof (Z.pow_pos_nonneg 2 n). lia. }
    assert (n <= Z.log2 x) by (apply Z.log2_le_pow2; lia).
    pose proof (H _ H0). rewrite Z.bit_log2 in H1 by lia. discriminate.
Qed.

Lemma u32_bits : forall x, is_u32 x -> forall i, 32 <= i -> Z.testbit x i = false.
Proof. intros x [H1 H2] i Hi. eapply (bound_bits 32); eauto; lia. Qed.

Lemma lxor_bound : forall n a b, 0 <= n -> 0 <= a < 2 ^ n -> 0 <= b < 2 ^ n -> 0 <= Z.lxor a b < 2 ^ n.
Proof.
  intros n a b Hn Ha Hb.
  assert (0 <= Z.lxor a b) by (apply Z.lxor_nonneg; lia).
  split; auto. apply bound_bits; auto. intros i Hi. rewrite Z.lxor_spec.
  rewrite (proj1 (bound_bits n a Hn ltac:(lia))), (proj1 (bound_bits n b Hn ltac:(lia))); auto; lia.
Qed.
Lemma lor_bound : forall n a b, 0 <= n -> 0 <= a < 2 ^ n -> 0 <= b < 2 ^ n -> 0 <= Z.lor a b < 2 ^ n.
Proof.
  intros n a b Hn Ha Hb.
  assert (0 <= Z.lor a b) by (apply Z.lor_nonneg; lia).
  split; auto. apply bound_bits; auto. intros i Hi. rewrite Z.lor_spec.
  rewrite (proj1 (bound_bits n a Hn ltac:(lia))), (proj1 (bound_bits n b Hn ltac:(lia))); auto; lia.
Qed.
Lemma land_bound : forall n a b, 0 <= n -> 0 <= a < 2 ^ n -> 0 <= b -> 0 <= Z.land a b < 2 ^ n.
Proof.
  intros n a b Hn Ha Hb.
  assert (0 <= Z.land a b) by (apply Z.land_nonneg; lia).
  split; auto. apply bound_bits; auto. intros i Hi. rewrite Z.land_spec.
  rewrite (proj1 (bound_bits n a Hn ltac:(lia))); auto; lia.
Qed.

Lemma u32_lxor : forall a b, is_u32 a -> is_u32 b -> is_u32 (Z.lxor a b).
Proof. intros; apply lxor_bound; auto; lia. Qed.
Lemma u32_lor : forall a b, is_u32 a -> is_u32 b -> is_u32 (Z.lor a b).
Proof. intros; apply lor_bound; auto; lia. Qed.
Lemma u32_land : forall a b, is_u32 a -> is_u32 b -> is_u32 (Z.land a b).
Proof. intros a b Ha [? ?]; apply land_bound; auto; lia. Qed.
Lemma u32_mod : forall x, is_u32 (x mod 2 ^ 32).
Proof. intros. apply Z.mod_pos_bound. reflexivity. Qed.
Lemma u32_0 : is_u32 0.
Proof. unfold is_u32; lia. Qed.

(** or of disjoint numbers is addition *)
Lemma lor_add : forall a b, Z.land a b = 0 -> Z.lor a b = a + b.
Proof.
  intros a b H. rewrite <- Z.lxor_lor by auto. symmetry. apply Z.add_nocarry_lxor; auto.
Qed.

Lemma lor_shift_add : forall n a b, 0 <= n -> 0 <= b < 2 ^ n -> Z.lor (a * 2 ^ n) b = a * 2 ^ n + b.
Proof.
  intros n a b Hn Hb. apply lor_add.
  apply Z.bits_inj'. intros i Hi. rewrite Z.land_spec, Z.bits_0.
  destruct (Z.lt_ge_cases i n).
  - rewrite Z.mul_pow2_bits_low by auto. reflexivity.
  - rewrite (proj1 (bound_bits n b Hn ltac:(lia))) by lia. apply andb_false_r.
Qed.

Lemma byte_word : forall a b c d, is_byte a -> is_byte b -> is_byte c -> is_byte d ->
  Z.lor (Z.lor (Z.lor (shl32 a 24) (shl32 b 16)) (shl32 c 8)) d
  = a * 2 ^ 24 + b * 2 ^ 16 + c * 2 ^ 8 + d.
Proof.
  unfold is_byte; intros a b c d Ha Hb Hc Hd. unfold shl32, u32.
  rewrite !Z.shiftl_mul_pow2 by lia.
  rewrite !Z.mod_small by lia.
  rewrite (lor_shift_add 24 a (b * 2 ^ 16)) by lia.
  replace (a * 2 ^ 24 + b * 2 ^ 16) with ((a * 2 ^ 8 + b) * 2 ^ 16) by lia.
  rewrite (lor_shift_add 16 _ (c * 2 ^ 8)) by lia.
  replace ((a * 2 ^ 8 + b) * 2 ^ 16 + c * 2 ^ 8) with (((a * 2 ^ 8 + b) * 2 ^ 8 + c) * 2 ^ 8) by lia.
  rewrite (lor_shift_add 8 _ d) by lia. lia.
Qed.

Lemma word_range : forall a b c d, is_byte a -> is_byte b -> is_byte c -> is_byte d ->
  is_u32 (a * 2 ^ 24 + b * 2 ^ 16 + c * 2 ^ 8 + d).
Proof. unfold is_byte, is_u32; intros; lia. Qed.

(** rotation as arithmetic *)
Lemma rot_arith : forall x n, is_u32 x -> 0 <= n < 32 ->
  Z.lor (shl32 x n) (shr32 x (32 - n)) = (x * 2 ^ n) mod 2 ^ 32 + (x * 2 ^ n) / 2 ^ 32.
Proof.
  intros x n [Hx1 Hx2] Hn. unfold shl32, shr32, u32.
  rewrite Z.shiftl_mul_pow2, Z.shiftr_div_pow2 by lia.
  assert (E : (x * 2 ^ n) / 2 ^ 32 = x / 2 ^ (32 - n)).
  { replace (2 ^ 32) with (2 ^ (32 - n) * 2 ^ n) by (rewrite <- Z.pow_add_r by lia; f_equal; lia).
    rewrite Z.div_mul_cancel_r; auto; apply Z.pow_nonzero; lia. }
  rewrite E.
  assert (P : 0 < 2 ^ n) by (apply Z.pow_pos_nonneg; lia).
  assert (P' : 0 < 2 ^ (32 - n)) by (apply Z.pow_pos_nonneg; lia).
  assert (F : (x * 2 ^ n) mod 2 ^ 32 = (x mod 2 ^ (32 - n)) * 2 ^ n).
  { replace (2 ^ 32) with (2 ^ (32 - n) * 2 ^ n) by (rewrite <- Z.pow_add_r by lia; f_equal; lia).
    rewrite Z.mul_mod_distr_r; auto; lia. }
  rewrite F. apply lor_shift_add; [lia|].
  split. apply Z.div_pos; lia.
  apply Z.div_lt_upper_bound; [lia|]. rewrite <- Z.pow_add_r by lia.
  replace (32 - n + n) with 32 by lia. lia.
Qed.

Lemma rot_range : forall x n, is_u32 x -> 0 <= n < 32 ->
  is_u32 (Z.lor (shl32 x n) (shr32 x (32 - n))).
Proof.
  intros x n Hx Hn. apply u32_lor.
  - apply u32_mod.
  - unfold shr32. rewrite Z.shiftr_div_pow2 by lia. destruct Hx. split.
    + apply Z.div_pos; auto. apply Z.pow_pos_nonneg; lia.
    + apply Z.le_lt_trans with x; auto. apply Z.div_le_upper_bound.
      apply Z.pow_pos_nonneg; lia.
      pose proof (Z.pow_pos_nonneg 2 (32 - n)). nia.
Qed.

Lemma majority_eq : forall x y z,
  Z.land (Z.land (Z.lor x y) (Z.lor x z)) (Z.lor y z)
  = Z.lor (Z.lor (Z.land x y) (Z.land x z)) (Z.land y z).
Proof.
  intros. apply Z.bits_inj'. intros i _.
  rewrite ?Z.land_spec, ?Z.lor_spec, ?Z.land_spec, ?Z.lor_spec.
  destruct (Z.testbit x i), (Z.testbit y i), (Z.testbit z i); reflexivity.
Qed.

Lemma ldiff_not32 : forall x z, is_u32 x -> is_u32 z -> Z.land (not32 x) z = Z.ldiff z x.
Proof.
  intros x z Hx Hz. unfold not32. apply Z.bits_inj'. intros i Hi.
  rewrite Z.land_spec, Z.ldiff_spec, Z.lxor_spec.
  destruct (Z.lt_ge_cases i 32).
  - change (2 ^ 32 - 1) with (Z.ones 32). rewrite Z.ones_spec_low by lia.
    destruct (Z.testbit x i), (Z.testbit z i); reflexivity.
  - rewrite (u32_bits z Hz) by auto. rewrite andb_false_r. reflexivity.
Qed.

Lemma u32_not32 : forall x, is_u32 x -> is_u32 (not32 x).
Proof. intros. unfold not32. apply u32_lxor; auto. unfold is_u32; lia. Qed.

Lemma shr32_byte : forall x n, 0 <= n -> u8 (shr32 x n) = (x / 2 ^ n) mod 256.
Proof. intros. unfold u8, shr32. rewrite Z.shiftr_div_pow2; auto. Qed.

(** writing an array from left to right *)
Lemma set_nth_app : forall A i (v : A) a b, i = length a -> set_nth i v (a ++ b) =
  a ++ set_nth 0 v b.
Proof. intros; subst. induction a; simpl; auto. f_equal; auto. Qed.

Lemma set_nth_front : forall A (v : A) a b t,
  set_nth (length a) v (a ++ b :: t) = (a ++ [v]) ++ t.
Proof. intros. rewrite set_nth_app by auto. simpl. rewrite <- app_assoc. reflexivity. Qed.

Lemma fill_array : forall A (f : nat -> A) n a (pre rest : list A),
  length pre = a -> length rest = n ->
  fold_left (fun w i => set_nth i (f i) w) (seq a n) (pre ++ rest)
  = pre ++ map f (seq a n).
Proof.
  induction n; intros a pre rest Hp Hr.
  - destruct rest; simpl in *; [reflexivity|discriminate].
  - destruct rest as [|r rest]; [discriminate|]. cbn [seq fold_left map].
    subst a. rewrite set_nth_front, IHn.
    + rewrite <- app_assoc. reflexivity.
    + rewrite app_length; simpl; lia.
    + simpl in Hr; lia.
Qed.
