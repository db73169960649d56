(** * SM2EncFacts: the pieces of /repo/sm2/encryption.go *)
From Coq Require Import ZArith Znumtheory String List Bool Lia.
From Verif Require Import Base BaseFacts Curves ECKey SM3 Spec_SM3 SM3Facts SM3Hist Spec_EC ECFacts Spec_Group SM2Sig Spec_SM2 SM2Enc Spec_SM2Enc
  Prop_Keys Prop_SM2.
Import ListNotations.
Open Scope Z_scope.

Lemma set_nth_app : forall (a b : bytes) i v, set_nth (length a + i) v (a ++ b) = a ++ set_nth i v b.
Proof. induction a as [|x a IH]; intros b i v; [reflexivity|]. cbn [length Nat.add app set_nth]. rewrite IH. reflexivity. Qed.
Lemma counter_bytes : forall z c0 c1 c2 c3 i, 0 <= i ->
  let zLen := zlen z in
  set_nth (Z.to_nat (zLen + 3)) (Z.land (u8 i) 0xff)
   (set_nth (Z.to_nat (zLen + 2)) (Z.land (u8 (Z.shiftr i 8)) 0xff)
    (set_nth (Z.to_nat (zLen + 1)) (Z.land (u8 (Z.shiftr i 16)) 0xff)
     (set_nth (Z.to_nat zLen) (Z.land (u8 (Z.shiftr i 24)) 0xff) (z ++ [c0; c1; c2; c3])))) = z ++ to_be 4 i.
Proof.
  intros z c0 c1 c2 c3 i Hi zLen. unfold zLen, zlen.
  replace (Z.to_nat (Z.of_nat (length z) + 3)) with (length z + 3)%nat by lia.
  replace (Z.to_nat (Z.of_nat (length z) + 2)) with (length z + 2)%nat by lia.
  replace (Z.to_nat (Z.of_nat (length z) + 1)) with (length z + 1)%nat by lia.
  replace (Z.to_nat (Z.of_nat (length z))) with (length z + 0)%nat by lia.
  rewrite !set_nth_app. f_equal. cbn [set_nth].
  assert (B : forall j, Z.land (u8 j) 0xff = j mod 256).
  { intros j. unfold u8. change 0xff with (Z.ones 8). rewrite Z.land_ones, Z.mod_mod by lia. reflexivity. }
  rewrite !B. cbn [to_be app]. rewrite !Z.shiftr_div_pow2 by lia.
  change (2 ^ 24) with (256 * (256 * 256)). change (2 ^ 16) with (256 * 256). change (2 ^ 8) with 256.
  rewrite <- !Z.div_div by lia. reflexivity.
Qed.
Definition kblock (z : bytes) (i : nat) : bytes := sm3_hash (z ++ to_be 4 (Z.of_nat i)).
Lemma kblock_len : forall z i, length (kblock z i) = 32%nat.
Proof. intros. apply sm3_hash_shape. Qed.
Lemma kblock_wf : forall z i, wf_bytes (kblock z i).
Proof. intros. apply sm3_hash_shape. Qed.

Lemma kdf_loop_done : forall fuel zz zLen rLen i pp, rLen <= 0 -> kdf_loop fuel zz zLen rLen i pp = Val pp.
Proof. intros fuel zz zLen rLen i pp H. destruct fuel; cbn [kdf_loop]; destruct (Z.gtb_spec rLen 0); try lia; reflexivity. Qed.
Lemma kdf_loop_ok : forall fuel z c r i pp, wf_bytes z -> zlen z + 4 < 2 ^ 61 -> length c = 4%nat -> (r <= fuel)%nat ->
  kdf_loop fuel (z ++ c) (zlen z) (Z.of_nat r) (Z.of_nat i) pp = Val (pp ++ firstn r (flat_map (kblock z) (seq i fuel))).
Proof.
  induction fuel as [|fuel IH]; intros z c r i pp Wz Lz Lc Hr.
  - assert (r = 0)%nat by lia. subst r. rewrite kdf_loop_done by lia. cbn. rewrite app_nil_r. reflexivity.
  - destruct r as [|r']. { rewrite kdf_loop_done by lia. cbn [firstn]. rewrite app_nil_r. reflexivity. }
    remember (S r') as r eqn:Er. cbn [kdf_loop]. destruct (Z.gtb_spec (Z.of_nat r) 0) as [_|]; [|lia].
    destruct c as [|c0 [|c1 [|c2 [|c3 [|c4 c]]]]]; cbn [length] in Lc; try lia.
    cbv zeta. rewrite (counter_bytes z c0 c1 c2 c3 (Z.of_nat i)) by lia.
    rewrite sum_hash.
    2:{ apply wf_app. split; [exact Wz|apply to_be_wf]. }
    2:{ rewrite zlen_app. unfold zlen at 2. rewrite to_be_length. lia. }
    cbn [bind]. fold (kblock z i). pose proof (kblock_len z i) as KL.
    set (n := if Z.of_nat r >=? DIGESTLEN then DIGESTLEN else Z.of_nat r).
    assert (Hn : n = Z.of_nat (Nat.min r 32)) by (unfold n, DIGESTLEN; destruct (Z.geb_spec (Z.of_nat r) 32); lia).
    rewrite slice_ok by (unfold zlen; try rewrite KL; lia). cbn [bind].
    replace (Z.to_nat (n - 0)) with (Nat.min r 32) by lia. change (skipn (Z.to_nat 0) (kblock z i)) with (kblock z i).
    cbn [seq flat_map]. rewrite firstn_app, KL.
    destruct (Nat.le_gt_cases 32 r) as [L|L].
    + replace (Z.of_nat r - DIGESTLEN) with (Z.of_nat (r - 32)) by (unfold DIGESTLEN; lia).
      replace (Z.of_nat i + 1) with (Z.of_nat (S i)) by lia.
      rewrite (IH z (to_be 4 (Z.of_nat i)) (r - 32)%nat (S i)) by (auto using to_be_length; lia).
      rewrite <- app_assoc. rewrite (firstn_all2 (n := r)), (firstn_all2 (n := Nat.min r 32)) by lia. reflexivity.
    + rewrite kdf_loop_done by (unfold DIGESTLEN; lia). replace (r - 32)%nat with 0%nat by lia. cbn [firstn].
      rewrite app_nil_r, Nat.min_l by lia. reflexivity.
Qed.
Lemma kdf_len : forall z n, length (kdf z n) = n.
Proof.
  intros z n. unfold kdf, kdf_stream. rewrite firstn_length.
  assert (L : forall m s, length (flat_map (kblock z) (seq s m)) = (32 * m)%nat).
  { induction m as [|m IH]; intros s; [reflexivity|]. cbn [seq flat_map]. rewrite app_length, IH, kblock_len. lia. }
  change (fun i => sm3_hash (z ++ to_be 4 (Z.of_nat i))) with (kblock z). rewrite L. lia.
Qed.
Lemma kdf_wf : forall z n, wf_bytes (kdf z n).
Proof.
  intros z n. apply wf_firstn. unfold kdf_stream. apply Forall_flat_map. apply Forall_forall. intros i _. apply kblock_wf.
Qed.
Lemma kdf_found_iff : forall pp n, wf_bytes pp -> (kdf_found pp (Z.of_nat n) = true <-> ~ all_zero (firstn n pp)).
Proof.
  intros pp n W. unfold kdf_found. rewrite Nat2Z.id. rewrite existsb_exists. split.
  - intros (b & I & H) A. apply (proj1 (Forall_forall _ _) A) in I. subst b. discriminate.
  - intros H. apply (wf_firstn n) in W. set (l := firstn n pp) in *. clearbody l. induction l as [|b l IH].
    + exfalso. apply H. constructor.
    + apply Forall_cons_iff in W as [Wb W]. destruct (Z.eq_dec b 0) as [->|Ne].
      * destruct IH as (x & I & Hx); [exact W|intros C; apply H; constructor; [reflexivity|exact C]|]. exists x. split; [right; exact I|exact Hx].
      * exists b. split; [left; reflexivity|]. change 0xff with (Z.ones 8). rewrite Z.land_ones by lia. unfold is_byte in Wb.
        rewrite Z.mod_small by lia. apply negb_true_iff, Z.eqb_neq. exact Ne.
Qed.
Lemma all_zero_dec : forall l, all_zero l \/ ~ all_zero l.
Proof.
  induction l as [|b l [IH|IH]]; [left; constructor| |].
  - destruct (Z.eq_dec b 0); [left; constructor; assumption|right; intros C; apply Forall_cons_iff in C as [C _]; contradiction].
  - right. intros C. apply Forall_cons_iff in C as [_ C]. contradiction.
Qed.
Lemma sm3kdf_ok : forall z n, wf_bytes z -> zlen z + 4 < 2 ^ 61 ->
  (all_zero (firstn (length z) (kdf z n)) /\ sm3kdf z (Z.of_nat n) = Val None) \/
  (~ all_zero (firstn (length z) (kdf z n)) /\ sm3kdf z (Z.of_nat n) = Val (Some (kdf z n))).
Proof.
  intros z n W L. unfold sm3kdf. rewrite Nat2Z.id. change 1 with (Z.of_nat 1).
  rewrite kdf_loop_ok by (auto; reflexivity). cbn [bind app]. fold (kdf_stream z n). change (firstn n (kdf_stream z n)) with (kdf z n).
  change (flat_map (kblock z) (seq 1 n)) with (kdf_stream z n).  change (firstn n (kdf_stream z n)) with (kdf z n).
  unfold zlen. destruct (kdf_found (kdf z n) (Z.of_nat (length z))) eqn:F.
  - right. apply kdf_found_iff in F; [|apply kdf_wf]. split; [exact F|reflexivity].
  - left. split; [|reflexivity]. destruct (all_zero_dec (firstn (length z) (kdf z n))) as [A|A]; [exact A|].
    apply kdf_found_iff in A; [congruence|apply kdf_wf].
Qed.

(** right-aligned copies *)
Lemma copy_right_ok : forall a old rest z, 0 <= z < 256 ^ 32 -> length old = 32%nat ->
  copy_right (a ++ old ++ rest) (zlen a + 32) z = Val (a ++ overlay old (big_bytes z) ++ rest).
Proof.
  intros a old rest z Hz L. unfold copy_right. pose proof (bb32 z Hz) as B.
  set (b := big_bytes z) in *. unfold overlay. rewrite L.
  rewrite <- (firstn_skipn (32 - length b) old) at 1. rewrite <- !app_assoc, (app_assoc a).
  rewrite (copy_at_exact _ (a ++ firstn (32 - length b) old) (skipn (32 - length b) old) rest b).
  - rewrite <- app_assoc. reflexivity.
  - rewrite zlen_app. unfold zlen. rewrite firstn_length, L. lia.
  - rewrite skipn_length, L. lia.
Qed.
Lemma overlay_zeros : forall z, 0 <= z < 256 ^ 32 -> overlay (repeat 0 32) (big_bytes z) = to_be 32 z.
Proof.
  intros z Hz. pose proof (bb32 z Hz). unfold overlay. rewrite repeat_length.
  assert (E : firstn (32 - length (big_bytes z)) (repeat 0 32) = repeat 0 (32 - length (big_bytes z))).
  { assert (F : forall m k (x : Z), (k <= m)%nat -> firstn k (repeat x m) = repeat x k).
    { induction m; intros k x Hk; [replace k with 0%nat by lia; reflexivity|]. destruct k; [reflexivity|]. cbn. f_equal. apply IHm. lia. }
    apply F. lia. }
  rewrite E. apply pad_big_bytes. exact Hz.
Qed.
Lemma overlay_len : forall old b, length old = 32%nat -> (length b <= 32)%nat -> length (overlay old b) = 32%nat.
Proof. intros. unfold overlay. rewrite app_length, firstn_length. lia. Qed.

Lemma shared_len : forall x y, length (shared x y) = 64%nat.
Proof. intros. unfold shared. rewrite app_length, !to_be_length. reflexivity. Qed.
Lemma shared_wf : forall x y, wf_bytes (shared x y).
Proof. intros. apply wf_app. split; apply to_be_wf. Qed.
Definition in32 (p : Z * Z) : Prop := 0 <= fst p < 256 ^ 32 /\ 0 <= snd p < 256 ^ 32.
Lemma x2y2_ok : forall x y, 0 <= x < 256 ^ 32 -> 0 <= y < 256 ^ 32 -> x2y2_bytes x y = Val (shared x y).
Proof.
  intros x y Hx Hy. unfold x2y2_bytes. change (zeros 64) with ([] ++ repeat 0 32 ++ repeat 0 32).
  change 32 with (zlen (@nil Z) + 32) at 1. rewrite copy_right_ok by (auto; apply repeat_length). cbn [bind app].
  rewrite overlay_zeros by exact Hx.
  replace 64 with (zlen (to_be 32 x) + 32) by (unfold zlen; rewrite to_be_length; reflexivity).
  rewrite <- (app_nil_r (repeat 0 32)), copy_right_ok by (auto; apply repeat_length).
  rewrite overlay_zeros, app_nil_r by exact Hy. reflexivity.
Qed.
Definition la (y : Z) : bytes := big_bytes y ++ repeat 0 (32 - length (big_bytes y)).
Lemma la_spec : forall y b, 0 <= y -> (left_aligned y b <-> b = la y).
Proof.
  intros y b Hy. unfold left_aligned, la. split.
  - intros (yb & M & ->). apply minimal_big_bytes in M; [subst; reflexivity|exact Hy].
  - intros ->. exists (big_bytes y). split; [|reflexivity]. apply minimal_big_bytes; auto.
Qed.
Lemma la_len : forall y, 0 <= y < 256 ^ 32 -> length (la y) = 32%nat.
Proof. intros y Hy. pose proof (bb32 y Hy). unfold la. rewrite app_length, repeat_length. lia. Qed.
Lemma repeat0_wf : forall n, wf_bytes (repeat 0 n).
Proof. intros n. apply Forall_forall. intros x I. apply repeat_spec in I. subst x. unfold is_byte. lia. Qed.
Lemma la_wf : forall y, 0 <= y -> wf_bytes (la y).
Proof. intros y Hy. apply wf_app. split; [apply big_bytes_wf|apply repeat0_wf]. Qed.
Lemma c3_ok : forall x y data, 0 <= x < 256 ^ 32 -> 0 <= y < 256 ^ 32 -> wf_bytes data -> zlen data < 2 ^ 60 ->
  c3_digest x y data = Val (sm3_hash (to_be 32 x ++ data ++ la y)).
Proof.
  intros x y data Hx Hy Wd Ld. unfold c3_digest. pose proof (zlen_nonneg _ data) as N0.
  assert (Z0 : zeros (32 + zlen data + 32) = [] ++ repeat 0 32 ++ (repeat 0 (length data) ++ repeat 0 32)).
  { unfold zeros. replace (Z.to_nat (32 + zlen data + 32)) with (32 + (length data + 32))%nat by (unfold zlen; lia).
    rewrite !repeat_app. reflexivity. }
  rewrite Z0. change 32 with (zlen (@nil Z) + 32) at 3. rewrite copy_right_ok by (auto; apply repeat_length). cbn [bind app].
  rewrite overlay_zeros by exact Hx.
  rewrite (copy_at_exact _ (to_be 32 x) (repeat 0 (length data)) (repeat 0 32) data).
  2:{ unfold zlen. rewrite to_be_length. reflexivity. }
  2:{ rewrite repeat_length. reflexivity. }
  cbn [bind]. pose proof (bb32 y Hy) as B.
  replace (repeat 0 32) with (repeat 0 (length (big_bytes y)) ++ repeat 0 (32 - length (big_bytes y))).
  2:{ rewrite <- repeat_app. f_equal. lia. }
  rewrite (app_assoc (to_be 32 x) data).
  rewrite (copy_at_exact _ (to_be 32 x ++ data) (repeat 0 (length (big_bytes y))) (repeat 0 (32 - length (big_bytes y))) (big_bytes y)).
  2:{ change (zlen (@nil Z)) with 0. rewrite !zlen_app. unfold zlen. rewrite !repeat_length, to_be_length. lia. }
  2:{ rewrite repeat_length. reflexivity. }
  cbn [bind]. change (big_bytes y ++ repeat 0 (32 - length (big_bytes y))) with (la y). rewrite <- app_assoc. apply sum_hash.
  - apply wf_app. split; [apply to_be_wf|]. apply wf_app. split; [exact Wd|apply la_wf; lia].
  - rewrite !zlen_app. unfold zlen at 1 3. rewrite to_be_length, la_len by exact Hy.
    change (2 ^ 61) with (2 * 2 ^ 60). assert (2 ^ 60 > 1000) by reflexivity. lia.
Qed.

(** repeated overlays *)
Fixpoint ov (f : nat -> Z) (i n : nat) (b : bytes) : bytes :=
  match n with
  | O => overlay b (big_bytes (f i))
  | S n' => ov f (S i) n' (overlay b (big_bytes (f i)))
  end.
Lemma ov_snoc : forall f n i b, ov f i (S n) b = overlay (ov f i n b) (big_bytes (f (i + S n)%nat)).
Proof.
  intros f. induction n as [|n IH]; intros i b.
  - cbn [ov]. replace (i + 1)%nat with (S i) by lia. reflexivity.
  - change (ov f i (S (S n)) b) with (ov f (S i) (S n) (overlay b (big_bytes (f i)))). rewrite IH.
    replace (S i + S n)%nat with (i + S (S n))%nat by lia. reflexivity.
Qed.
Lemma written_ov : forall f i b, (forall j, 0 <= f j) -> (written f i b <-> b = ov f 0 i (repeat 0 32)).
Proof.
  intros f i. induction i as [|i IH]; intros b Hf; split.
  - intros H. inversion H as [b0 M E1 E2|]. apply minimal_big_bytes in M; [subst; reflexivity|apply Hf].
  - intros ->. cbn [ov]. apply wr_0. apply minimal_big_bytes; auto.
  - intros H. inversion H as [|i0 old b0 W M]. subst. apply IH in W; [|exact Hf]. apply minimal_big_bytes in M; [|apply Hf].
    rewrite ov_snoc. subst. reflexivity.
  - intros ->. rewrite ov_snoc. apply wr_S; [apply IH; auto|apply minimal_big_bytes; auto].
Qed.
Lemma ov_len : forall f n i b, (forall j, 0 <= f j < 256 ^ 32) -> length b = 32%nat -> length (ov f i n b) = 32%nat.
Proof.
  intros f n. induction n as [|n IH]; intros i b Hf L; cbn [ov]; [|apply IH; [exact Hf|]]; apply overlay_len; auto; apply bb32; apply Hf.
Qed.
