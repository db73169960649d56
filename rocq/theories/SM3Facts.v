(** * SM3Facts: the SM3 model refines the standard *)
From Coq Require Import ZArith String List Bool Lia.
From Verif Require Import Base BaseFacts Words SM3 Spec_SM3.
Import ListNotations.
Open Scope Z_scope.

Definition u32s (l : list Z) : Prop := Forall is_u32 l.

(** ** word functions *)
Lemma rotl_rol : forall x n, is_u32 x -> sm3_rotl x n = rol x n.
Proof.
  intros. unfold sm3_rotl, rol. rewrite rot_arith; auto.
  apply Z.mod_pos_bound; lia.
Qed.
Lemma rotl_u32 : forall x n, is_u32 x -> is_u32 (sm3_rotl x n).
Proof. intros. apply rot_range; auto. apply Z.mod_pos_bound; lia. Qed.
Lemma rol_u32 : forall x n, is_u32 x -> is_u32 (rol x n).
Proof. intros. rewrite <- rotl_rol; auto. apply rotl_u32; auto. Qed.

Lemma p0_P0 : forall x, is_u32 x -> sm3_p0 x = P0 x.
Proof. intros. unfold sm3_p0, P0. rewrite !rotl_rol; auto. Qed.
Lemma p1_P1 : forall x, is_u32 x -> sm3_p1 x = P1 x.
Proof. intros. unfold sm3_p1, P1. rewrite !rotl_rol; auto. Qed.
Lemma P0_u32 : forall x, is_u32 x -> is_u32 (P0 x).
Proof. intros. unfold P0. repeat apply u32_lxor; auto using rol_u32. Qed.
Lemma P1_u32 : forall x, is_u32 x -> is_u32 (P1 x).
Proof. intros. unfold P1. repeat apply u32_lxor; auto using rol_u32. Qed.

Lemma j16 : forall j, (16 <=? Z.of_nat j) = negb (j <? 16)%nat.
Proof.
  intros. destruct (Nat.ltb_spec j 16), (Z.leb_spec 16 (Z.of_nat j)); simpl; auto; lia.
Qed.
Lemma t_T : forall j, sm3_t (Z.of_nat j) = T j.
Proof. intros. unfold sm3_t, T. rewrite j16. destruct (j <? 16)%nat; reflexivity. Qed.
Lemma T_u32 : forall j, is_u32 (T j).
Proof. intros. unfold T, is_u32. destruct (j <? 16)%nat; lia. Qed.
Lemma ff_FF : forall j x y z, sm3_ff x y z (Z.of_nat j) = FF j x y z.
Proof.
  intros. unfold sm3_ff, FF. rewrite j16. destruct (j <? 16)%nat; simpl; auto.
  apply majority_eq.
Qed.
Lemma gg_GG : forall j x y z, is_u32 x -> is_u32 z -> sm3_gg x y z (Z.of_nat j) = GG j x y z.
Proof.
  intros. unfold sm3_gg, GG. rewrite j16. destruct (j <? 16)%nat; simpl; auto.
  rewrite ldiff_not32; auto.
Qed.

(** ** message expansion *)
Lemma fill_prefix : forall A (f : nat -> A) n a (pre r1 r2 : list A),
  length pre = a -> length r1 = n ->
  fold_left (fun w i => set_nth i (f i) w) (seq a n) (pre ++ r1 ++ r2)
  = pre ++ map f (seq a n) ++ r2.
Proof.
  induction n; intros a pre r1 r2 Hp Hr.
  - destruct r1; simpl in *; [reflexivity|discriminate].
  - destruct r1 as [|r r1]; [discriminate|]. cbn [seq fold_left map app].
    subst a. rewrite set_nth_front, IHn.
    + rewrite <- app_assoc. reflexivity.
    + rewrite app_length; simpl; lia.
    + simpl in Hr; lia.
Qed.

Definition word_at (p : bytes) (i : nat) : Z :=
  Z.lor (Z.lor (Z.lor (shl32 (nth (i * 4) p 0) 24) (shl32 (nth (i * 4 + 1) p 0) 16))
                    (shl32 (nth (i * 4 + 2) p 0) 8)) (nth (i * 4 + 3) p 0).

Lemma words_map : forall n p, wf_bytes p -> (4 * n <= length p)%nat ->
  map (word_at p) (seq 0 n) = words (firstn (4 * n) p).
Proof.
  induction n; intros p Hw Hl; [reflexivity|].
  destruct p as [|a [|b [|c [|d t]]]]; try (simpl in Hl; lia).
  replace (4 * S n)%nat with (S (S (S (S (4 * n))))) by lia.
  cbn [firstn words seq map].
  inversion Hw as [|? ? Ha Hw1]; subst. inversion Hw1 as [|? ? Hb Hw2]; subst.
  inversion Hw2 as [|? ? Hc Hw3]; subst. inversion Hw3 as [|? ? Hd Hw4]; subst.
  f_equal.
  - unfold word_at. cbn [nth Nat.mul Nat.add]. apply byte_word; auto.
  - rewrite <- seq_shift, map_map.
    rewrite <- IHn; auto. simpl in Hl; lia.
Qed.

Lemma load_w_spec : forall p w, wf_bytes p -> (64 <= length p)%nat -> length w = 68%nat ->
  load_w p w = words (firstn 64 p) ++ skipn 16 w.
Proof.
  intros p w Hw Hp Hl. unfold load_w.
  change (fold_left (fun w i => set_nth i (word_at p i) w) (seq 0 16) w = words (firstn (4 * 16) p) ++ skipn 16 w).
  rewrite <- words_map by (auto; lia).
  rewrite <- (firstn_skipn 16 w) at 1.
  pose proof (fill_prefix _ (word_at p) 16 0 [] (firstn 16 w) (skipn 16 w) eq_refl) as F.
  cbn [app] in F. apply F. rewrite firstn_length. lia.
Qed.

Lemma words_u32 : forall n l, wf_bytes l -> (length l = n)%nat -> u32s (words l).
Proof.
  intros n. induction n as [n IH] using lt_wf_ind. intros l Hw Hl.
  destruct l as [|a [|b [|c [|d t]]]]; try constructor.
  - inversion Hw as [|? ? Ha Hw1]; subst. inversion Hw1 as [|? ? Hb Hw2]; subst.
    inversion Hw2 as [|? ? Hc Hw3]; subst. inversion Hw3; subst.
    apply word_range; auto.
  - inversion Hw as [|? ? Ha Hw1]; subst. inversion Hw1 as [|? ? Hb Hw2]; subst.
    inversion Hw2 as [|? ? Hc Hw3]; subst. inversion Hw3; subst.
    eapply (IH (length t)); auto. simpl; lia.
Qed.

Lemma words_length : forall n l, length l = (4 * n)%nat -> length (words l) = n.
Proof.
  induction n; intros l Hl.
  - destruct l; [reflexivity|simpl in Hl; lia].
  - destruct l as [|a [|b [|c [|d t]]]]; try (simpl in Hl; lia).
    cbn [words length]. rewrite IHn; auto. simpl in Hl. lia.
Qed.

Lemma nth_u32 : forall l i, u32s l -> is_u32 (nth i l 0).
Proof.
  intros l i H. destruct (Nat.lt_ge_cases i (length l)).
  - eapply Forall_forall; eauto. apply nth_In; auto.
  - rewrite nth_overflow by auto. apply u32_0.
Qed.

Lemma next_word_u32 : forall ws, u32s ws -> is_u32 (next_word ws).
Proof.
  intros. unfold next_word. repeat (apply u32_lxor || apply P1_u32 || apply rol_u32 || apply nth_u32); auto.
Qed.

Lemma expand_u32 : forall n ws, u32s ws -> u32s (expand n ws).
Proof.
  induction n; simpl; intros; auto. apply IHn. apply Forall_app; split; auto.
  constructor; [apply next_word_u32; auto|constructor].
Qed.
Lemma expand_length : forall n ws, length (expand n ws) = (length ws + n)%nat.
Proof. induction n; simpl; intros; auto. rewrite IHn, app_length; simpl; lia. Qed.

Lemma expand_w_loop : forall n ws rest, u32s ws -> (16 <= length ws)%nat -> length rest = n ->
  fold_left (fun w i =>
    set_nth i
      (Z.lxor (Z.lxor
         (sm3_p1 (Z.lxor (Z.lxor (nth (i - 16) w 0) (nth (i - 9) w 0))
                         (sm3_rotl (nth (i - 3) w 0) 15)))
         (sm3_rotl (nth (i - 13) w 0) 7)) (nth (i - 6) w 0)) w)
    (seq (length ws) n) (ws ++ rest) = expand n ws.
Proof.
  induction n; intros ws rest Hw Hl Hr.
  - destruct rest; [simpl; apply app_nil_r|discriminate].
  - destruct rest as [|r rest]; [discriminate|].
    cbn [seq fold_left expand].
    rewrite set_nth_front.
    rewrite !app_nth1 by lia.
    rewrite p1_P1, !rotl_rol by (repeat (apply u32_lxor || apply rol_u32 || apply rotl_u32 || apply nth_u32); auto).
    fold (next_word ws).
    replace (S (length ws)) with (length (ws ++ [next_word ws])) by (rewrite app_length; simpl; lia).
    rewrite <- (IHn (ws ++ [next_word ws]) rest).
    + reflexivity.
    + apply Forall_app; split; auto. constructor; [apply next_word_u32; auto|constructor].
    + rewrite app_length; lia.
    + simpl in Hr; lia.
Qed.

Lemma expand_w_spec : forall p w, wf_bytes p -> (64 <= length p)%nat -> length w = 68%nat ->
  expand_w (load_w p w) = expand 52 (words (firstn 64 p)).
Proof.
  intros. rewrite load_w_spec by auto.
  assert (L : length (words (firstn 64 p)) = 16%nat).
  { apply words_length. rewrite firstn_length. lia. }
  unfold expand_w. rewrite <- L at 1. apply expand_w_loop.
  - eapply words_u32; eauto. apply wf_firstn; auto.
  - lia.
  - rewrite skipn_length. lia.
Qed.

Lemma make_w1_nth : forall w w1 j, length w1 = 64%nat -> (j < 64)%nat ->
  nth j (make_w1 w w1) 0 = Z.lxor (nth j w 0) (nth (j + 4) w 0).
Proof.
  intros w w1 j H Hj. unfold make_w1.
  pose proof (fill_array _ (fun i => Z.lxor (nth i w 0) (nth (i + 4) w 0)) 64 0 [] w1 eq_refl H) as E.
  cbn [app] in E. rewrite E.
  set (f := fun i => Z.lxor (nth i w 0) (nth (i + 4) w 0)).
  rewrite (nth_indep _ 0 (f 0%nat)) by (rewrite map_length, seq_length; auto).
  rewrite map_nth, seq_nth by auto. reflexivity.
Qed.

(** ** rounds *)
Definition st_u32 (st : regs) : Prop :=
  let '(a, b, c, d, e, f, g, h) := st in
  is_u32 a /\ is_u32 b /\ is_u32 c /\ is_u32 d /\ is_u32 e /\ is_u32 f /\ is_u32 g /\ is_u32 h.

Lemma add32_assoc3 : forall a b c d, add32 (add32 (add32 a b) c) d = (a + b + c + d) mod M32.
Proof.
  intros. unfold add32, u32. change (2 ^ 32) with M32.
  rewrite Z.add_mod_idemp_l by discriminate.
  rewrite <- Z.add_assoc, Z.add_mod_idemp_l by discriminate. f_equal. lia.
Qed.
Lemma add32_assoc2 : forall a b c, add32 (add32 a b) c = (a + b + c) mod M32.
Proof.
  intros. unfold add32, u32. change (2 ^ 32) with M32.
  rewrite Z.add_mod_idemp_l by discriminate. reflexivity.
Qed.

Lemma round_eq : forall ws w1 st j,
  (nth j w1 0 = Z.lxor (nth j ws 0) (nth (j + 4) ws 0)) -> st_u32 st ->
  sm3_round ws w1 st j = round ws st j.
Proof.
  intros ws w1 [[[[[[[a b] c] d] e] f] g] h] j Hw H. destruct H as (Ha & Hb & Hc & Hd & He & Hf & Hg & Hh).
  unfold sm3_round, round. cbv zeta.
  rewrite !add32_assoc3, !add32_assoc2, Hw, t_T, ff_FF, gg_GG by auto.
  rewrite !rotl_rol by (auto using T_u32, rol_u32, u32_mod).
  rewrite p0_P0 by apply u32_mod. reflexivity.
Qed.

Lemma round_u32 : forall ws st j, st_u32 st -> st_u32 (round ws st j).
Proof.
  intros ws [[[[[[[a b] c] d] e] f] g] h] j H. destruct H as (Ha & Hb & Hc & Hd & He & Hf & Hg & Hh).
  unfold round. cbv zeta. unfold st_u32.
  repeat split; try apply u32_mod; try (apply rol_u32; auto); try (apply P0_u32, u32_mod); auto;
    match goal with |- context [is_u32] => idtac | _ => idtac end;
    try (destruct Ha; auto; fail); try apply P0_u32; try apply u32_mod.
  all: try (apply (rol_u32 b 9); auto). all: try (apply (rol_u32 f 19); auto).
  all: try (apply (P0_u32 _ (u32_mod _))).
  all: try (unfold is_u32 in *; lia).
Qed.

Lemma rounds_eq : forall ws w1 js st, 
  (forall j, In j js -> nth j w1 0 = Z.lxor (nth j ws 0) (nth (j + 4) ws 0)) -> st_u32 st ->
  fold_left (sm3_round ws w1) js st = fold_left (round ws) js st /\ st_u32 (fold_left (round ws) js st).
Proof.
  induction js as [|j js IH]; intros st Hj Hs; simpl; auto.
  rewrite round_eq; auto. 2: apply Hj; left; auto.
  apply IH. intros; apply Hj; right; auto. apply round_u32; auto.
Qed.

Definition reg_list (hs : regs) : list Z :=
  let '(a, b, c, d, e, f, g, h) := hs in [a; b; c; d; e; f; g; h].

Lemma st_u32_list : forall hs, st_u32 hs <-> u32s (reg_list hs).
Proof.
  intros [[[[[[[a b] c] d] e] f] g] h]. unfold st_u32, u32s. simpl. split.
  - intros (? & ? & ? & ? & ? & ? & ? & ?). repeat constructor; auto; apply H || apply H0 || auto;
    match goal with H : is_u32 ?x |- _ => solve [apply H] end.
  - intros H. repeat match goal with H : Forall _ (_ :: _) |- _ => inversion H; subst; clear H end. tauto.
Qed.

Lemma block_loop_step : forall fuel w w1 hs p, wf_bytes p -> (64 <= length p)%nat ->
  length w = 68%nat -> length w1 = 64%nat -> st_u32 hs ->
  exists w' w1' hs', block_loop (S fuel) w w1 hs p = block_loop fuel w' w1' hs' (skipn 64 p)
    /\ length w' = 68%nat /\ length w1' = 64%nat /\ st_u32 hs'
    /\ reg_list hs' = CF (reg_list hs) (firstn 64 p).
Proof.
  intros fuel w w1 hs p Hp Hl Hw Hw1 Hs.
  cbn [block_loop].
  replace (64 <=? zlen p) with true by (symmetry; apply Z.leb_le; unfold zlen; lia).
  rewrite expand_w_spec by auto.
  set (ws := expand 52 (words (firstn 64 p))).
  assert (Lw : length (words (firstn 64 p)) = 16%nat) by (apply words_length; rewrite firstn_length; lia).
  assert (Hj64 : forall j, In j (seq 0 64) -> nth j (make_w1 ws w1) 0 = Z.lxor (nth j ws 0) (nth (j + 4) ws 0)).
  { intros j Hj. apply in_seq in Hj. apply make_w1_nth; auto. lia. }
  destruct (rounds_eq ws (make_w1 ws w1) (seq 0 64) hs Hj64 Hs) as [E U].
  rewrite E. clear E Hj64.
  destruct hs as [[[[[[[h0 h1] h2] h3] h4] h5] h6] h7].
  destruct (fold_left (round ws) (seq 0 64) (h0, h1, h2, h3, h4, h5, h6, h7))
    as [[[[[[[a b] c] d] e] f] g] h] eqn:R.
  exists ws, (make_w1 ws w1), (Z.lxor h0 a, Z.lxor h1 b, Z.lxor h2 c, Z.lxor h3 d,
           Z.lxor h4 e, Z.lxor h5 f, Z.lxor h6 g, Z.lxor h7 h).
  split; [reflexivity|]. split. { unfold ws. rewrite expand_length. lia. }
  split.
  { unfold make_w1.
    pose proof (fill_array _ (fun i => Z.lxor (nth i ws 0) (nth (i + 4) ws 0)) 64 0 [] w1 eq_refl Hw1) as F.
    cbn [app] in F. rewrite F, map_length, seq_length. reflexivity. }
  split.
  { destruct Hs as (? & ? & ? & ? & ? & ? & ? & ?). destruct U as (? & ? & ? & ? & ? & ? & ? & ?).
    unfold st_u32. repeat split; apply u32_lxor; auto. }
  unfold CF. cbn [reg_list]. fold ws. rewrite R.
  rewrite (Z.lxor_comm h0), (Z.lxor_comm h1), (Z.lxor_comm h2), (Z.lxor_comm h3),
    (Z.lxor_comm h4), (Z.lxor_comm h5), (Z.lxor_comm h6), (Z.lxor_comm h7). reflexivity.
Qed.

Lemma block_loop_stop : forall fuel w w1 hs p, (length p < 64)%nat ->
  block_loop fuel w w1 hs p = Val hs.
Proof.
  intros. destruct fuel; cbn [block_loop];
  replace (64 <=? zlen p) with false by (symmetry; apply Z.leb_gt; unfold zlen; lia); auto.
Qed.

Lemma block_loop_spec : forall n fuel w w1 hs p, wf_bytes p ->
  length p = (64 * n)%nat -> (n <= fuel)%nat ->
  length w = 68%nat -> length w1 = 64%nat -> st_u32 hs ->
  exists hs', block_loop fuel w w1 hs p = Val hs' /\ st_u32 hs' /\
    reg_list hs' = fold_left CF (blocks n p) (reg_list hs).
Proof.
  induction n; intros fuel w w1 hs p Hp Hl Hf Hw Hw1 Hs.
  - rewrite block_loop_stop by lia. exists hs. auto.
  - destruct fuel as [|fuel]; [lia|].
    destruct (block_loop_step fuel w w1 hs p) as (w' & w1' & hs' & E & L1 & L2 & U & C); auto; try lia.
    rewrite E.
    destruct (IHn fuel w' w1' hs' (skipn 64 p)) as (hs'' & E2 & U2 & C2); auto; try lia.
    { apply wf_skipn; auto. }
    { rewrite skipn_length. lia. }
    exists hs''. split; auto. split; auto. cbn [blocks fold_left]. rewrite C2, C. reflexivity.
Qed.

Lemma block_spec : forall n hs p, wf_bytes p -> length p = (64 * n)%nat -> st_u32 hs ->
  exists hs', block hs p = Val hs' /\ st_u32 hs' /\
    reg_list hs' = fold_left CF (blocks n p) (reg_list hs).
Proof.
  intros. unfold block. apply block_loop_spec; auto. lia.
Qed.

Lemma blocks_app : forall n k a b, length a = (64 * n)%nat ->
  blocks (n + k) (a ++ b) = blocks n a ++ blocks k b.
Proof.
  induction n; intros k a b Ha.
  - destruct a; [reflexivity|simpl in Ha; lia].
  - cbn [blocks Nat.add app].
    rewrite firstn_app, skipn_app. replace (64 - length a)%nat with 0%nat by lia.
    simpl (firstn 0 b). simpl (skipn 0 b). rewrite app_nil_r. rewrite IHn; auto.
    rewrite skipn_length. lia.
Qed.

(** ** invariant of a hash object: [m] is everything written since Reset *)
Definition repr (d : digest) (m : bytes) : Prop :=
  exists n pre tail,
    m = pre ++ tail /\ length pre = (64 * n)%nat /\ (length tail < 64)%nat /\
    wf_bytes m /\
    st_u32 (d_h d) /\ reg_list (d_h d) = fold_left CF (blocks n pre) IV /\
    length (d_x d) = 64%nat /\ d_nx d = zlen tail /\ firstn (length tail) (d_x d) = tail /\
    d_len d = zlen m mod 2 ^ 64.

Lemma init_u32 : st_u32 init_h.
Proof. unfold st_u32, init_h, is_u32. repeat split; lia. Qed.

Lemma repr_reset : forall d, length (d_x d) = 64%nat -> repr (Reset d) [].
Proof.
  intros. exists 0%nat, [], []. simpl. repeat split; auto; try lia; try constructor; apply init_u32 || auto.
  all: unfold init_h, is_u32; try lia.
Qed.
Lemma repr_new : repr New [].
Proof. apply repr_reset. reflexivity. Qed.
Lemma repr_x : forall d m, repr d m -> length (d_x d) = 64%nat.
Proof. intros d m (n & pre & tail & H). tauto. Qed.

Lemma ldiff63 : forall n, Z.ldiff (Z.of_nat n) 63 = Z.of_nat (64 * (n / 64)).
Proof.
  intros. change 63 with (Z.ones 6). rewrite Z.ldiff_ones_r by lia.
  rewrite Z.shiftr_div_pow2, Z.shiftl_mul_pow2 by lia.
  rewrite Nat2Z.inj_mul, Nat2Z.inj_div. simpl Z.of_nat. change (2 ^ 6) with 64. lia.
Qed.

(** the part of Write after the buffer has been flushed or was empty *)
Lemma write_rest : forall h x len p m n pre,
  st_u32 h -> length x = 64%nat -> wf_bytes p -> wf_bytes pre ->
  length pre = (64 * n)%nat -> reg_list h = fold_left CF (blocks n pre) IV ->
  m = pre ++ p -> len = zlen m mod 2 ^ 64 ->
  exists d', (let* (d, p) := write_blocks (mkDigest h x 0 len) p in Val (write_tail d p)) = Val d'
    /\ repr d' m.
Proof.
  intros h x len p m n pre Hh Hx Hp Hpre Hn Hr Hm Hlen.
  unfold write_blocks.
  assert (T : forall h q n' pre', st_u32 h -> reg_list h = fold_left CF (blocks n' pre') IV ->
     length pre' = (64 * n')%nat -> m = pre' ++ q -> (length q < 64)%nat ->
     wf_bytes pre' -> wf_bytes q ->
     repr (write_tail (mkDigest h x 0 len) q) m).
  { clear h Hh Hr. intros h q n' pre' Hh Hr Hl Hq Hlt Hw1 Hw2. exists n', pre', q. unfold write_tail. cbn [d_h d_x d_nx d_len].
    assert (W : wf_bytes m) by (subst m; rewrite Hq; apply wf_app; auto).
    destruct (Z.ltb_spec 0 (zlen q)); cbn [d_h d_x d_nx d_len].
    - split; auto. split; auto. split; auto. split; auto. split; auto. split; auto.
      split. { rewrite go_copy_length; auto. }
      split. { unfold zlen; lia. }
      split; auto.
      unfold go_copy. rewrite firstn_all2 with (n := length x) by lia. apply firstn_app_l; auto.
    - assert (q = []) by (destruct q; auto; unfold zlen in H; simpl in H; lia). subst q.
      repeat split; auto. }
  destruct (Z.leb_spec 64 (zlen p)) as [G|G].
  - assert (Gn : (64 <= length p)%nat) by (unfold zlen in G; lia).
    set (k := (length p / 64)%nat).
    assert (Hk : (64 * k <= length p)%nat) by (apply Nat.mul_div_le; lia).
    assert (Hk2 : (length p < 64 * k + 64)%nat).
    { pose proof (Nat.div_mod (length p) 64 ltac:(lia)). pose proof (Nat.mod_upper_bound (length p) 64 ltac:(lia)). fold k in H. lia. }
    replace (Z.ldiff (zlen p) 63) with (Z.of_nat (64 * k)) by (symmetry; apply ldiff63).
    rewrite slice_ok by (unfold zlen; lia). cbn [bind].
    rewrite Z.sub_0_r, Nat2Z.id. simpl (Z.to_nat 0). cbn [skipn d_h d_x d_nx d_len].
    destruct (block_spec k h (firstn (64 * k) p)) as (h' & E & U & C); auto.
    { apply wf_firstn; auto. } { rewrite firstn_length. lia. }
    rewrite E. cbn [bind].
    rewrite slice_ok by (unfold zlen; lia). cbn [bind].
    rewrite Nat2Z.id. rewrite firstn_all2 by (rewrite skipn_length; unfold zlen; lia).
    eexists. split; [reflexivity|].
    apply (T h' _ (n + k)%nat (pre ++ firstn (64 * k) p)); auto.
    + rewrite C, Hr, blocks_app, fold_left_app by auto. reflexivity.
    + rewrite app_length, firstn_length. lia.
    + rewrite <- app_assoc, firstn_skipn. auto.
    + rewrite skipn_length. lia.
    + apply wf_app; split; auto. apply wf_firstn; auto.
    + apply wf_skipn; auto.
  - cbn [bind]. eexists. split; [reflexivity|].
    apply (T h p n pre); auto. unfold zlen in G. lia.
Qed.

Lemma len_add : forall (m p : bytes), u64 (zlen m mod 2 ^ 64 + u64 (zlen p)) = zlen (m ++ p) mod 2 ^ 64.
Proof.
  intros. unfold u64. rewrite zlen_app. rewrite <- Z.add_mod by discriminate. reflexivity.
Qed.

Lemma write_spec : forall d m p, repr d m -> wf_bytes p ->
  exists d', Write d p = Val (zlen p, d') /\ repr d' (m ++ p).
Proof.
  intros d m p (n & pre & tail & Hm & Hpre & Htail & Hwf & Hu & Hr & Hx & Hnx & Hft & Hlen) Hp.
  unfold Write. cbv zeta. rewrite Hlen, len_add.
  set (len := zlen (m ++ p) mod 2 ^ 64).
  unfold write_fill. cbn [d_h d_x d_nx d_len]. rewrite Hnx.
  assert (Hwpre : wf_bytes pre) by (subst m; apply wf_app in Hwf; tauto).
  assert (Hwtail : wf_bytes tail) by (subst m; apply wf_app in Hwf; tauto).
  destruct (Z.ltb_spec 0 (zlen tail)) as [G|G].
  - rewrite slice_ok by (unfold zlen; lia). cbn [bind].
    rewrite copy_at_ok by (unfold zlen; lia). cbn [bind].
    set (sl := firstn (Z.to_nat (64 - zlen tail)) (skipn (Z.to_nat (zlen tail)) (d_x d))).
    assert (Lsl : zlen sl = 64 - zlen tail).
    { unfold sl, zlen. rewrite firstn_length, skipn_length. lia. }
    rewrite Lsl.
    rewrite slice_ok by (unfold zlen; lia). cbn [bind].
    replace (Z.to_nat (zlen tail)) with (length tail) by (unfold zlen; lia).
    rewrite Hft.
    destruct (Z.eqb_spec (zlen tail + Z.min (64 - zlen tail) (zlen p)) 64) as [Q|Q].
    + (* buffer filled *)
      set (k := (64 - length tail)%nat).
      assert (Hk : (k <= length p)%nat) by (unfold zlen in Q; lia).
      replace (Z.min (64 - zlen tail) (zlen p)) with (Z.of_nat k) by (unfold zlen in *; lia).
      assert (Ex : tail ++ go_copy (skipn (length tail) (d_x d)) p = tail ++ firstn k p).
      { f_equal. unfold go_copy. rewrite skipn_length, Hx. fold k.
        rewrite skipn_all2; [apply app_nil_r|]. rewrite skipn_length. lia. }
      rewrite Ex.
      destruct (block_spec 1 (d_h d) (tail ++ firstn k p)) as (h' & E & U & C); auto.
      { apply wf_app; split; auto. apply wf_firstn; auto. }
      { rewrite app_length, firstn_length. lia. }
      rewrite E. cbn [bind].
      rewrite Nat2Z.id. rewrite (firstn_all2 (skipn k p)) by (rewrite skipn_length; unfold zlen; lia).
      destruct (write_rest h' (tail ++ firstn k p) len (skipn k p) (m ++ p) (n + 1)%nat (pre ++ (tail ++ firstn k p)))
        as (d' & E' & R'); auto.
      { rewrite app_length, firstn_length. lia. }
      { apply wf_skipn; auto. }
      { repeat (apply wf_app; split); auto. apply wf_firstn; auto. }
      { rewrite !app_length, firstn_length. lia. }
      { rewrite C, Hr, blocks_app, fold_left_app by auto. reflexivity. }
      { subst m. rewrite <- !app_assoc, firstn_skipn. reflexivity. }
      destruct (write_blocks {| d_h := h'; d_x := tail ++ firstn k p; d_nx := 0; d_len := len |} (skipn k p))
        as [[dd pp]| |]; cbn [bind] in *; try discriminate.
      inversion E'; subst. exists (write_tail dd pp). auto.
    + (* still partially filled: all of p consumed *)
      assert (Hlt : zlen tail + zlen p < 64) by lia.
      rewrite Z.min_r by lia. rewrite Z.sub_diag. cbn [bind firstn Z.to_nat].
      unfold write_blocks. change (64 <=? zlen (@nil Z)) with false. cbv iota.
      cbn [bind]. unfold write_tail. change (0 <? zlen (@nil Z)) with false. cbv iota.
      eexists. split; [reflexivity|].
      exists n, pre, (tail ++ p). cbn [d_h d_x d_nx d_len].
      unfold zlen in Hlt.
      split. { subst m. rewrite app_assoc; auto. }
      split; auto. split. { rewrite app_length. lia. }
      split. { apply wf_app; auto. }
      split; auto. split; auto.
      split. { rewrite app_length, go_copy_length, skipn_length. lia. }
      split. { rewrite zlen_app. lia. }
      split; auto.
      rewrite app_length. unfold go_copy.
      rewrite firstn_all2 with (n := length (skipn (length tail) (d_x d))) by (rewrite skipn_length; lia).
      rewrite app_assoc. apply firstn_app_l. rewrite app_length. reflexivity.
  - assert (tail = []) by (destruct tail; auto; rewrite zlen_cons in G; pose proof (zlen_nonneg _ tail); lia).
    subst tail. rewrite app_nil_r in Hm. subst m. cbn [bind].
    rewrite zlen_nil in Hnx |- *.
    destruct (write_rest (d_h d) (d_x d) len p (pre ++ p) n pre) as (d' & E' & R'); auto.
    destruct (write_blocks {| d_h := d_h d; d_x := d_x d; d_nx := 0; d_len := len |} p)
        as [[dd pp]| |]; cbn [bind] in *; try discriminate.
    inversion E'; subst. exists (write_tail dd pp). auto.
Qed.

(** ** checkSum *)

(** padding with the length counter wrapped at 2^64 bytes, as the code does *)
Definition pad_wrap (m : bytes) : bytes :=
  m ++ [128] ++ repeat 0 (Z.to_nat ((55 - zlen m) mod 64)) ++ be64 ((8 * zlen m) mod 2 ^ 64).

Lemma firstn_repeat : forall A (a : A) n k, (n <= k)%nat -> firstn n (repeat a k) = repeat a n.
Proof. induction n; destruct k; simpl; intros; auto; try lia. f_equal. apply IHn. lia. Qed.

Lemma pad_first : forall len,
  (if len mod 64 <? 56 then slice (set_nth 0 0x80 (repeat 0 64)) 0 (56 - len mod 64)
   else slice (set_nth 0 0x80 (repeat 0 64)) 0 (64 + 56 - len mod 64))
  = Val ([128] ++ repeat 0 (Z.to_nat ((55 - len) mod 64))).
Proof.
  intros. set (r := len mod 64).
  assert (Hr : 0 <= r < 64) by (apply Z.mod_pos_bound; lia).
  assert (E : (55 - len) mod 64 = if r <? 56 then 55 - r else 119 - r).
  { rewrite (Z.div_mod len 64) by lia. fold r.
    destruct (Z.ltb_spec r 56).
    - replace (55 - (64 * (len / 64) + r)) with (55 - r + (- (len / 64)) * 64) by lia.
      rewrite Z.mod_add by lia. apply Z.mod_small. lia.
    - replace (55 - (64 * (len / 64) + r)) with (119 - r + (- (len / 64) - 1) * 64) by lia.
      rewrite Z.mod_add by lia. apply Z.mod_small. lia. }
  rewrite E. cbn [set_nth repeat].
  assert (L : zlen (128 :: repeat 0 63) = 64) by reflexivity.
  change (0 :: 0 :: 0 :: 0 :: 0 :: 0 :: 0 :: 0 :: 0 :: 0 :: 0 :: 0 :: 0 :: 0 :: 0 :: 0 :: 0 :: 0 :: 0 :: 0 :: 0 :: 0 :: 0 :: 0 :: 0 :: 0 :: 0 :: 0 :: 0 :: 0 :: 0 :: 0 :: 0 :: 0 :: 0 :: 0 :: 0 :: 0 :: 0 :: 0 :: 0 :: 0 :: 0 :: 0 :: 0 :: 0 :: 0 :: 0 :: 0 :: 0 :: 0 :: 0 :: 0 :: 0 :: 0 :: 0 :: 0 :: 0 :: 0 :: 0 :: 0 :: 0 :: [0])
    with (repeat 0 63).
  destruct (Z.ltb_spec r 56).
  - rewrite slice_ok by (rewrite ?L; lia).
    simpl (Z.to_nat 0). cbn [skipn]. f_equal. rewrite Z.sub_0_r.
    replace (Z.to_nat (56 - r)) with (S (Z.to_nat (55 - r))) by lia.
    cbn [firstn]. rewrite firstn_repeat by lia. reflexivity.
  - rewrite slice_ok by (rewrite ?L; lia).
    simpl (Z.to_nat 0). cbn [skipn]. f_equal. rewrite Z.sub_0_r.
    replace (Z.to_nat (64 + 56 - r)) with (S (Z.to_nat (119 - r))) by lia.
    cbn [firstn]. rewrite firstn_repeat by lia. reflexivity.
Qed.

Lemma be64_wf : forall x, wf_bytes (be64 x).
Proof.
  intros. unfold be64, wf_bytes. apply Forall_forall. intros b Hb.
  apply in_map_iff in Hb as (i & <- & _). apply Z.mod_pos_bound. lia.
Qed.
Lemma be64_length : forall x, length (be64 x) = 8%nat.
Proof. intros. unfold be64. rewrite map_length, seq_length. reflexivity. Qed.

Lemma pad_wrap_wf : forall m, wf_bytes m -> wf_bytes (pad_wrap m).
Proof.
  intros. unfold pad_wrap. repeat (apply wf_app; split); auto using be64_wf.
  - repeat constructor; unfold is_byte; lia.
  - apply wf_repeat; unfold is_byte; lia.
Qed.

Lemma pad_wrap_length : forall m, exists k, length (pad_wrap m) = (64 * k)%nat.
Proof.
  intros. exists (Z.to_nat ((zlen m + 9 + (55 - zlen m) mod 64) / 64)).
  unfold pad_wrap. rewrite !app_length, repeat_length, be64_length. simpl length.
  pose proof (Z.mod_pos_bound (55 - zlen m) 64 ltac:(lia)).
  pose proof (Z.div_mod (55 - zlen m) 64 ltac:(lia)).
  set (r := (55 - zlen m) mod 64) in *.
  replace (zlen m + 9 + r) with (64 * (1 - (55 - zlen m) / 64)) by lia.
  rewrite Z.mul_comm, Z.div_mul by lia. unfold zlen in *. lia.
Qed.

Lemma len_tmp : forall L tmp, length tmp = 64%nat ->
  slice (fold_left (fun t i => set_nth i (u8 (Z.shiftr L (56 - 8 * Z.of_nat i))) t) (seq 0 8) tmp) 0 8
  = Val (be64 L).
Proof.
  intros L tmp Hl.
  rewrite <- (firstn_skipn 8 tmp).
  pose proof (fill_prefix _ (fun i => u8 (Z.shiftr L (56 - 8 * Z.of_nat i))) 8 0 [] (firstn 8 tmp) (skipn 8 tmp) eq_refl) as F.
  cbn [app] in F. rewrite F by (rewrite firstn_length; lia). clear F.
  rewrite slice_ok.
  2: lia. 2: lia. 2: { rewrite zlen_app. unfold zlen. rewrite map_length, seq_length, skipn_length. lia. }
  change (Z.to_nat (8 - 0)) with 8%nat. change (Z.to_nat 0) with 0%nat. cbn [skipn].
  rewrite firstn_app_l by (rewrite map_length, seq_length; auto).
  f_equal. unfold be64. apply map_ext_in. intros i Hi. apply in_seq in Hi.
  unfold u8. rewrite Z.shiftr_div_pow2 by lia. f_equal. f_equal. f_equal. lia.
Qed.

Lemma h_bytes_spec : forall hs, h_bytes hs = flat_map word_bytes (reg_list hs).
Proof.
  intros [[[[[[[a b] c] d] e] f] g] h]. unfold h_bytes, reg_list, word_bytes.
  apply flat_map_ext. intros s. rewrite !shr32_byte by lia. reflexivity.
Qed.

Lemma checkSum_spec : forall d m, repr d m ->
  checkSum d = Val (flat_map word_bytes
     (fold_left CF (blocks (length (pad_wrap m) / 64) (pad_wrap m)) IV)).
Proof.
  intros d m R. unfold checkSum. cbv zeta.
  assert (Hlen : d_len d = zlen m mod 2 ^ 64) by (destruct R as (n & pre & tail & H); tauto).
  assert (Wm : wf_bytes m) by (destruct R as (n & pre & tail & H); tauto).
  assert (M64 : d_len d mod 64 = zlen m mod 64).
  { rewrite Hlen. rewrite <- Znumtheory.Zmod_div_mod; try lia. exists (2 ^ 58). reflexivity. }
  pose proof (pad_first (d_len d)) as PF.
  assert (E55 : (55 - d_len d) mod 64 = (55 - zlen m) mod 64).
  { rewrite Zminus_mod, M64, <- Zminus_mod. reflexivity. }
  rewrite E55 in PF.
  set (z1 := [128] ++ repeat 0 (Z.to_nat ((55 - zlen m) mod 64))) in *.
  assert (W1 : wf_bytes z1).
  { unfold z1. apply wf_app; split. repeat constructor; unfold is_byte; lia. apply wf_repeat; unfold is_byte; lia. }
  destruct (write_spec d m z1 R W1) as (d1 & E1 & R1).
  assert (E1' : (if d_len d mod 64 <? 56 then
       let* s := slice (set_nth 0 0x80 (repeat 0 64)) 0 (56 - d_len d mod 64) in Write d s
     else
       let* s := slice (set_nth 0 0x80 (repeat 0 64)) 0 (64 + 56 - d_len d mod 64) in Write d s)
     = Val (zlen z1, d1)).
  { destruct (d_len d mod 64 <? 56); rewrite PF; cbn [bind]; exact E1. }
  rewrite E1'. cbn [bind snd].
  rewrite len_tmp by (rewrite set_nth_length, repeat_length; reflexivity). cbn [bind].
  set (L := u64 (Z.shiftl (d_len d) 3)).
  assert (EL : L = (8 * zlen m) mod 2 ^ 64).
  { unfold L, u64. rewrite Hlen, Z.shiftl_mul_pow2 by lia.
    rewrite Z.mul_mod_idemp_l by discriminate. f_equal. change (2 ^ 3) with 8. lia. }
  rewrite EL.
  destruct (write_spec d1 (m ++ z1) (be64 ((8 * zlen m) mod 2 ^ 64)) R1 (be64_wf _)) as (d2 & E2 & R2).
  rewrite E2. cbn [bind snd].
  assert (EP : (m ++ z1) ++ be64 ((8 * zlen m) mod 2 ^ 64) = pad_wrap m).
  { unfold pad_wrap, z1. rewrite <- !app_assoc. reflexivity. }
  rewrite EP in R2.
  destruct R2 as (n & pre & tail & Hm & Hpre & Htail & Hwf & Hu & Hr & Hx & Hnx & Hft & _).
  destruct (pad_wrap_length m) as (k & Hk).
  assert (tail = []).
  { assert (length (pad_wrap m) = (64 * n + length tail)%nat) by (rewrite Hm, app_length; lia).
    destruct tail; auto. exfalso. simpl length in *. lia. }
  subst tail. rewrite zlen_nil in Hnx. rewrite Hnx. cbn [Z.eqb negb].
  rewrite app_nil_r in Hm. rewrite h_bytes_spec, Hr, <- Hm.
  f_equal. f_equal. f_equal. f_equal.
  rewrite Hm, Hpre. rewrite Nat.mul_comm, Nat.div_mul; auto.
Qed.

Lemma checkSum_hash : forall d m, repr d m -> zlen m < 2 ^ 61 -> checkSum d = Val (sm3_hash m).
Proof.
  intros d m R H. rewrite (checkSum_spec d m R). unfold sm3_hash.
  assert (E : pad_wrap m = pad m).
  { unfold pad_wrap, pad. fold (zlen m). rewrite (Z.mod_small (8 * zlen m)); auto.
    pose proof (zlen_nonneg _ m). lia. }
  rewrite E. reflexivity.
Qed.

Lemma flat_bytes : forall l, wf_bytes (flat_map word_bytes l) /\ length (flat_map word_bytes l) = (4 * length l)%nat.
Proof.
  induction l as [|w l [IH1 IH2]]; [split; [constructor|reflexivity]|split].
  - cbn [flat_map]. apply wf_app; split; auto.
    unfold word_bytes. repeat constructor; apply Z.mod_pos_bound; lia.
  - cbn [flat_map]. rewrite app_length, IH2. simpl. lia.
Qed.

Lemma CF_length : forall v b, length (CF v b) = length v.
Proof.
  intros. unfold CF. repeat (destruct v as [|? v]; try reflexivity).
Qed.
Lemma fold_CF_length : forall bs v, length (fold_left CF bs v) = length v.
Proof. induction bs; simpl; intros; auto. rewrite IHbs, CF_length. reflexivity. Qed.

Lemma checkSum_shape : forall d m, repr d m -> exists out, checkSum d = Val out /\ length out = 32%nat /\ wf_bytes out.
Proof.
  intros d m R. rewrite (checkSum_spec d m R). eexists; split; [reflexivity|].
  destruct (flat_bytes (fold_left CF (blocks (length (pad_wrap m) / 64) (pad_wrap m)) IV)) as [H1 H2].
  split; auto. rewrite H2, fold_CF_length. reflexivity.
Qed.
Lemma sm3_hash_shape : forall m, length (sm3_hash m) = 32%nat /\ wf_bytes (sm3_hash m).
Proof.
  intros. unfold sm3_hash.
  destruct (flat_bytes (fold_left CF (blocks (length (pad m) / 64) (pad m)) IV)) as [H1 H2].
  split; auto. rewrite H2, fold_CF_length. reflexivity.
Qed.
