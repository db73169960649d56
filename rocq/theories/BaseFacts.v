(** * BaseFacts: lemmas about the vocabulary of [Base]. *)
From Coq Require Import ZArith String List Bool Lia.
From Verif Require Import Base.
Import ListNotations.
Open Scope Z_scope.

(** ** lists *)
Lemma zlen_nil : forall A, zlen (@nil A) = 0.
Proof. reflexivity. Qed.
Lemma zlen_cons : forall A (a : A) l, zlen (a :: l) = 1 + zlen l.
Proof. intros; unfold zlen; simpl length; lia. Qed.
Lemma zlen_app : forall A (a b : list A), zlen (a ++ b) = zlen a + zlen b.
Proof. intros; unfold zlen; rewrite app_length; lia. Qed.
Lemma zlen_nonneg : forall A (a : list A), 0 <= zlen a.
Proof. intros; unfold zlen; lia. Qed.
Lemma zlen_repeat : forall A (a : A) n, zlen (repeat a n) = Z.of_nat n.
Proof. intros; unfold zlen; rewrite repeat_length; reflexivity. Qed.
Lemma zlen_zeros : forall n, 0 <= n -> zlen (zeros n) = n.
Proof. intros; unfold zeros; rewrite zlen_repeat; lia. Qed.

Lemma wf_app : forall a b, wf_bytes (a ++ b) <-> wf_bytes a /\ wf_bytes b.
Proof. intros; apply Forall_app. Qed.
Lemma wf_firstn : forall n l, wf_bytes l -> wf_bytes (firstn n l).
Proof.
  intros n l H. rewrite <- (firstn_skipn n l) in H. apply wf_app in H; tauto.
Qed.
Lemma wf_skipn : forall n l, wf_bytes l -> wf_bytes (skipn n l).
Proof.
  intros n l H. rewrite <- (firstn_skipn n l) in H. apply wf_app in H; tauto.
Qed.
Lemma wf_zeros : forall n, wf_bytes (zeros n).
Proof.
  intros. unfold zeros. induction (Z.to_nat n); simpl; constructor; auto.
  unfold is_byte; lia.
Qed.
Lemma wf_repeat : forall b n, is_byte b -> wf_bytes (repeat b n).
Proof. intros; induction n; simpl; constructor; auto. Qed.

Lemma set_nth_length : forall A i (v : A) l, length (set_nth i v l) = length l.
Proof. induction i; destruct l; simpl; auto. Qed.

Lemma bytes_eqb_eq : forall a b, bytes_eqb a b = true <-> a = b.
Proof.
  induction a as [|x a IH]; destruct b as [|y b]; simpl; split; intros H; try easy.
  - apply andb_true_iff in H as [H1 H2]. apply Z.eqb_eq in H1. apply IH in H2. congruence.
  - inversion H; subst. rewrite Z.eqb_refl. apply IH. reflexivity.
Qed.
Lemma bytes_eqb_refl : forall a, bytes_eqb a a = true.
Proof. intros; apply bytes_eqb_eq; reflexivity. Qed.

Lemma firstn_app_l : forall A (a b : list A) n, n = length a -> firstn n (a ++ b) = a.
Proof.
  intros; subst. rewrite firstn_app, Nat.sub_diag, firstn_all; simpl. apply app_nil_r.
Qed.
Lemma skipn_app_l : forall A (a b : list A) n, n = length a -> skipn n (a ++ b) = b.
Proof. intros; subst. rewrite skipn_app, Nat.sub_diag, skipn_all; reflexivity. Qed.

Lemma go_copy_length : forall A (d s : list A), length (go_copy d s) = length d.
Proof.
  intros. unfold go_copy. rewrite app_length, firstn_length, skipn_length. lia.
Qed.

Lemma slice_ok : forall A (l : list A) lo hi,
  0 <= lo -> lo <= hi -> hi <= zlen l ->
  slice l lo hi = Val (firstn (Z.to_nat (hi - lo)) (skipn (Z.to_nat lo) l)).
Proof.
  intros. unfold slice.
  replace ((0 <=? lo) && (lo <=? hi) && (hi <=? zlen l)) with true; auto.
  symmetry. rewrite !andb_true_iff, !Z.leb_le. lia.
Qed.

Lemma slice_app3 : forall A (a b c : list A) lo hi,
  lo = zlen a -> hi = zlen a + zlen b -> slice (a ++ b ++ c) lo hi = Val b.
Proof.
  intros; subst. rewrite slice_ok; try (rewrite ?zlen_app; pose proof (zlen_nonneg _ a);
    pose proof (zlen_nonneg _ b); pose proof (zlen_nonneg _ c); lia).
  f_equal. rewrite skipn_app_l by (unfold zlen; lia).
  apply firstn_app_l. unfold zlen; lia.
Qed.

(** ** big-endian conversion *)
Lemma be2z_fold : forall l acc,
  fold_left (fun acc b => acc * 256 + b) l acc = acc * 256 ^ zlen l + be2z l.
Proof.
  unfold be2z. induction l as [|b l IH]; intros acc.
  - cbn [fold_left]. rewrite zlen_nil. lia.
  - cbn [fold_left]. rewrite IH, (IH (0 * 256 + b)), zlen_cons.
    rewrite Z.pow_add_r by (pose proof (zlen_nonneg _ l); lia). lia.
Qed.
Lemma be2z_nil : be2z [] = 0.
Proof. reflexivity. Qed.
Lemma be2z_cons : forall b l, be2z (b :: l) = b * 256 ^ zlen l + be2z l.
Proof. intros. unfold be2z at 1. cbn [fold_left]. rewrite be2z_fold. lia. Qed.
Lemma be2z_app : forall a b, be2z (a ++ b) = be2z a * 256 ^ zlen b + be2z b.
Proof. intros. unfold be2z at 1. rewrite fold_left_app, be2z_fold. reflexivity. Qed.
Lemma be2z_snoc : forall a b, be2z (a ++ [b]) = be2z a * 256 + b.
Proof. intros. rewrite be2z_app. unfold zlen, be2z at 2. simpl. lia. Qed.
Lemma be2z_zeros : forall n, be2z (repeat 0 n) = 0.
Proof. induction n; auto. Qed.

Lemma be2z_bound : forall l, wf_bytes l -> 0 <= be2z l < 256 ^ zlen l.
Proof.
  induction l as [|b l IH] using rev_ind; intros H.
  - rewrite be2z_nil, zlen_nil. simpl. lia.
  - apply wf_app in H as [H1 H2]. inversion H2; subst. unfold is_byte in *.
    rewrite be2z_snoc, zlen_app, zlen_cons, zlen_nil.
    rewrite Z.pow_add_r by (try apply zlen_nonneg; lia).
    specialize (IH H1). change (256 ^ (1 + 0)) with 256. nia.
Qed.

Lemma to_be_length : forall n z, length (to_be n z) = n.
Proof. induction n; simpl; intros; auto. rewrite app_length, IHn; simpl; lia. Qed.
Lemma zlen_to_be : forall n z, zlen (to_be n z) = Z.of_nat n.
Proof. intros; unfold zlen; rewrite to_be_length; auto. Qed.
Lemma to_be_wf : forall n z, wf_bytes (to_be n z).
Proof.
  induction n; simpl; intros. constructor.
  apply wf_app; split; auto. repeat constructor; unfold is_byte.
  all: pose proof (Z.mod_pos_bound z 256); lia.
Qed.
Lemma be2z_to_be : forall n z, be2z (to_be n z) = z mod 256 ^ Z.of_nat n.
Proof.
  induction n; intros z.
  - simpl. rewrite Z.mod_1_r. reflexivity.
  - cbn [to_be]. rewrite be2z_snoc, IHn.
    replace (Z.of_nat (S n)) with (Z.of_nat n + 1) by lia.
    rewrite Z.pow_add_r by lia. change (256 ^ 1) with 256.
    assert (0 < 256 ^ Z.of_nat n) by (apply Z.pow_pos_nonneg; lia).
    rewrite (Z.mul_comm (256 ^ Z.of_nat n)), Z.rem_mul_r by lia. lia.
Qed.
Lemma be2z_to_be_small : forall n z, 0 <= z < 256 ^ Z.of_nat n -> be2z (to_be n z) = z.
Proof. intros. rewrite be2z_to_be. apply Z.mod_small; auto. Qed.

Lemma to_be_be2z : forall l, wf_bytes l -> to_be (length l) (be2z l) = l.
Proof.
  induction l as [|b l IH] using rev_ind; intros H; auto.
  apply wf_app in H as [H1 H2]. inversion H2; subst. unfold is_byte in *.
  rewrite app_length, Nat.add_comm; simpl length; simpl plus. cbn [to_be].
  rewrite be2z_snoc, Z.div_add_l by lia.
  rewrite (Z.div_small b) by lia. rewrite Z.add_0_r, IH by auto.
  f_equal. f_equal. rewrite Z.add_comm, Z.mod_add by lia. apply Z.mod_small; lia.
Qed.

Lemma be2z_inj : forall a b, wf_bytes a -> wf_bytes b -> length a = length b ->
  be2z a = be2z b -> a = b.
Proof.
  intros a b Ha Hb Hl E. rewrite <- (to_be_be2z a), <- (to_be_be2z b), Hl, E; auto.
Qed.

Lemma byte_len_nonneg : forall z, 0 <= byte_len z.
Proof.
  intros. unfold byte_len. destruct (z =? 0); [lia|].
  pose proof (Z.log2_nonneg (Z.abs z)).
  pose proof (Z.div_pos (Z.log2 (Z.abs z)) 8). lia.
Qed.
Lemma byte_len_bound : forall z, 0 <= z -> z < 256 ^ byte_len z.
Proof.
  intros z Hz. unfold byte_len. destruct (Z.eqb_spec z 0); [subst; simpl; lia|].
  rewrite Z.abs_eq by lia.
  pose proof (Z.log2_spec z ltac:(lia)) as [_ H].
  eapply Z.lt_le_trans; [exact H|].
  change 256 with (2 ^ 8).
  pose proof (Z.log2_nonneg z). pose proof (Z.div_pos (Z.log2 z) 8 ltac:(lia) ltac:(lia)).
  rewrite <- Z.pow_mul_r by lia.
  apply Z.pow_le_mono_r; [lia|].
  pose proof (Z.div_mod (Z.log2 z) 8 ltac:(lia)).
  pose proof (Z.mod_pos_bound (Z.log2 z) 8 ltac:(lia)). lia.
Qed.
Lemma byte_len_min : forall z n, 0 <= z -> 0 <= n -> z < 256 ^ n -> byte_len z <= n.
Proof.
  intros z n Hz Hn H. unfold byte_len. destruct (Z.eqb_spec z 0); [lia|].
  rewrite Z.abs_eq by lia.
  assert (Z.log2 z < 8 * n).
  { apply Z.log2_lt_pow2; [lia|]. rewrite Z.pow_mul_r by lia. exact H. }
  assert (Z.log2 z / 8 < n) by (apply Z.div_lt_upper_bound; lia). lia.
Qed.
Lemma byte_len_lower : forall z, 0 < z -> 256 ^ (byte_len z - 1) <= z.
Proof.
  intros z Hz. unfold byte_len. destruct (Z.eqb_spec z 0); [lia|].
  rewrite Z.abs_eq by lia. rewrite Z.add_simpl_r.
  pose proof (Z.log2_spec z Hz) as [H _].
  eapply Z.le_trans; [|exact H].
  change 256 with (2 ^ 8).
  pose proof (Z.log2_nonneg z). pose proof (Z.div_pos (Z.log2 z) 8 ltac:(lia) ltac:(lia)).
  rewrite <- Z.pow_mul_r by lia. apply Z.pow_le_mono_r; [lia|].
  pose proof (Z.mul_div_le (Z.log2 z) 8). lia.
Qed.

Lemma zlen_big_bytes : forall z, zlen (big_bytes z) = byte_len z.
Proof.
  intros. unfold big_bytes. rewrite zlen_to_be, Z2Nat.id; auto. apply byte_len_nonneg.
Qed.
Lemma big_bytes_wf : forall z, wf_bytes (big_bytes z).
Proof. intros; apply to_be_wf. Qed.
Lemma be2z_big_bytes : forall z, 0 <= z -> be2z (big_bytes z) = z.
Proof.
  intros. unfold big_bytes. rewrite be2z_to_be_small.
  - apply Z.abs_eq; auto.
  - rewrite Z.abs_eq, Z2Nat.id by (auto; apply byte_len_nonneg).
    pose proof (byte_len_bound z H). lia.
Qed.

(** Left-padding the minimal encoding gives the fixed-length encoding. *)
Lemma pad_big_bytes : forall z n, 0 <= z < 256 ^ Z.of_nat n ->
  repeat 0 (n - length (big_bytes z)) ++ big_bytes z = to_be n z.
Proof.
  intros z n Hz.
  assert (Hl : (length (big_bytes z) <= n)%nat).
  { pose proof (zlen_big_bytes z). unfold zlen in H.
    pose proof (byte_len_min z (Z.of_nat n)). lia. }
  apply be2z_inj.
  - apply wf_app; split. apply wf_repeat; unfold is_byte; lia. apply big_bytes_wf.
  - apply to_be_wf.
  - rewrite app_length, repeat_length, to_be_length. lia.
  - rewrite be2z_app, be2z_zeros, be2z_to_be_small by auto.
    rewrite be2z_big_bytes; lia.
Qed.

Lemma big_bytes_length_le : forall z n, 0 <= z < 256 ^ Z.of_nat n -> (length (big_bytes z) <= n)%nat.
Proof.
  intros z n Hz. pose proof (zlen_big_bytes z). unfold zlen in H.
  pose proof (byte_len_min z (Z.of_nat n)). lia.
Qed.

Lemma big_bytes_nonzero_head : forall z, 0 < z -> exists b l, big_bytes z = b :: l /\ 0 < b < 256.
Proof.
  intros z Hz. destruct (big_bytes z) as [|b l] eqn:E.
  - pose proof (be2z_big_bytes z ltac:(lia)). rewrite E in H. simpl in H. unfold be2z in H; simpl in H. lia.
  - exists b, l. split; auto.
    pose proof (big_bytes_wf z) as W. rewrite E in W. inversion W; subst. unfold is_byte in *.
    pose proof (byte_len_lower z Hz) as L.
    pose proof (be2z_big_bytes z ltac:(lia)) as B. rewrite E, be2z_cons in B.
    pose proof (zlen_big_bytes z) as ZL. rewrite E, zlen_cons in ZL.
    replace (byte_len z - 1) with (zlen l) in L by lia.
    pose proof (be2z_bound l ltac:(assumption)). nia.
Qed.

(** [copy(dst[off:], src)] into zero-filled memory *)
Lemma copy_at_ok : forall A (d : list A) off s, 0 <= off -> off <= zlen d ->
  copy_at d off s = Val (firstn (Z.to_nat off) d ++ go_copy (skipn (Z.to_nat off) d) s).
Proof.
  intros. unfold copy_at.
  replace ((0 <=? off) && (off <=? zlen d)) with true; auto.
  symmetry; rewrite andb_true_iff, !Z.leb_le; lia.
Qed.

Lemma copy_at_exact : forall A (a b c s : list A) off,
  off = zlen a -> length s = length b ->
  copy_at (a ++ b ++ c) off s = Val (a ++ s ++ c).
Proof.
  intros; subst. rewrite copy_at_ok.
  2: apply zlen_nonneg.
  2: rewrite zlen_app; pose proof (zlen_nonneg _ (b ++ c)); lia.
  rewrite firstn_app_l, skipn_app_l by (unfold zlen; lia).
  f_equal. f_equal. unfold go_copy.
  rewrite firstn_all2 by (rewrite app_length; lia).
  rewrite skipn_app_l by auto. reflexivity.
Qed.

(** ** xor on byte strings *)
Lemma lxor_byte : forall a b, is_byte a -> is_byte b -> is_byte (Z.lxor a b).
Proof.
  unfold is_byte; intros a b Ha Hb.
  assert (0 <= Z.lxor a b) by (apply Z.lxor_nonneg; lia).
  split; auto.
  destruct (Z.eq_dec (Z.lxor a b) 0); [lia|].
  change 256 with (2 ^ 8). apply Z.log2_lt_pow2; [lia|].
  pose proof (Z.log2_lxor a b ltac:(lia) ltac:(lia)).
  assert (Z.log2 a < 8) by (destruct (Z.eq_dec a 0); [subst; simpl; lia| apply Z.log2_lt_pow2; simpl; lia]).
  assert (Z.log2 b < 8) by (destruct (Z.eq_dec b 0); [subst; simpl; lia| apply Z.log2_lt_pow2; simpl; lia]).
  lia.
Qed.
Lemma xor_bytes_length : forall a b, length (xor_bytes a b) = Nat.min (length a) (length b).
Proof. intros; unfold xor_bytes. rewrite map_length, combine_length. reflexivity. Qed.
Lemma xor_bytes_wf : forall a b, wf_bytes a -> wf_bytes b -> wf_bytes (xor_bytes a b).
Proof.
  unfold xor_bytes. induction a as [|x a IH]; destruct b as [|y b]; simpl; intros Ha Hb;
    try constructor; inversion Ha; inversion Hb; subst.
  - apply lxor_byte; auto.
  - apply IH; auto.
Qed.
Lemma xor_bytes_invol : forall a b, length a = length b -> xor_bytes (xor_bytes a b) b = a.
Proof.
  unfold xor_bytes. induction a as [|x a IH]; destruct b as [|y b]; simpl; intros; try easy.
  rewrite Z.lxor_assoc, Z.lxor_nilpotent, Z.lxor_0_r. f_equal. apply IH. lia.
Qed.

(** ** go monad *)
Lemma bind_val : forall A B (m : go A) (f : A -> go B) b,
  bind m f = Val b -> exists a, m = Val a /\ f a = Val b.
Proof. intros. destruct m; simpl in H; try discriminate. eauto. Qed.

Lemma skipn_skipn_add : forall A n m (l : list A), skipn n (skipn m l) = skipn (m + n) l.
Proof.
  intros A n m. induction m as [|m IH]; intros l; [reflexivity|].
  destruct l; cbn [skipn Nat.add]; auto. destruct n; reflexivity.
Qed.
