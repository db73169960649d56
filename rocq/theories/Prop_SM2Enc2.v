(** * Prop_SM2Enc2: properties C48 to C50 continued: Decrypt and the round trip (/repo/sm2/encryption.go) *)
From Coq Require Import ZArith Znumtheory String List Bool Lia.
From Verif Require Import Base BaseFacts Curves ECKey SM3 Spec_SM3 SM3Facts SM3Hist Spec_EC ECFacts Spec_Group SM2Sig Spec_SM2
  SM2Enc Spec_SM2Enc SM2EncFacts Prop_Keys Prop_SM2 Prop_SM2b Prop_SM2Enc.
Import ListNotations.
Open Scope Z_scope.

Lemma bb_le_iff : forall z n, 0 <= z -> ((length (big_bytes z) <= n)%nat <-> z < 256 ^ Z.of_nat n).
Proof.
  intros z n Hz. split.
  - intros L. pose proof (be2z_bound (big_bytes z) (big_bytes_wf z)) as [_ B]. rewrite be2z_big_bytes in B by exact Hz.
    apply (Z.lt_le_trans _ _ _ B). apply Z.pow_le_mono_r; [lia|]. unfold zlen. lia.
  - intros L. apply big_bytes_length_le. split; assumption.
Qed.
(** the leftmost non-zero byte written stays *)
Lemma ov_shape : forall f i, (forall j, 0 <= f j < 256 ^ 32) ->
  exists M t, (M <= 32)%nat /\ ov f 0 i (repeat 0 32) = repeat 0 (32 - M) ++ t /\ length t = M /\
    (M = 0%nat \/ exists h t', t = h :: t' /\ h <> 0) /\ (forall j, (j <= i)%nat -> (length (big_bytes (f j)) <= M)%nat) /\
    (exists j, (j <= i)%nat /\ M = length (big_bytes (f j))).
Proof.
  intros f i Hf.
  assert (F : forall m k (x : Z), (k <= m)%nat -> firstn k (repeat x m) = repeat x k).
  { induction m; intros k x Hk; [replace k with 0%nat by lia; reflexivity|]. destruct k; [reflexivity|]. cbn. f_equal. apply IHm. lia. }
  assert (HD : forall z, 0 <= z -> length (big_bytes z) = 0%nat \/ exists h t', big_bytes z = h :: t' /\ h <> 0).
  { intros z Hz. destruct (big_bytes z) as [|h t'] eqn:E; [left; reflexivity|right]. exists h, t'. split; [reflexivity|].
    intros ->. assert (M : minimal z (big_bytes z)) by (apply minimal_big_bytes; auto). destruct M as (_ & _ & M). apply (M t'). exact E. }
  induction i as [|i IH].
  - cbn [ov]. pose proof (bb32 _ (Hf 0%nat)) as B. exists (length (big_bytes (f 0%nat))), (big_bytes (f 0%nat)).
    split; [exact B|]. split. { unfold overlay. rewrite repeat_length, F by lia. reflexivity. }
    split; [reflexivity|]. split; [apply HD, Hf|]. split.
    + intros j Hj. replace j with 0%nat by lia. lia.
    + exists 0%nat. split; [lia|reflexivity].
  - destruct IH as (M & t & HM & E & Lt & Hh & Hmax & (jm & Hjm & Em)). rewrite ov_snoc. cbn [Nat.add].
    set (b := big_bytes (f (S i))). pose proof (bb32 _ (Hf (S i))) as B. fold b in B.
    destruct (Nat.le_gt_cases M (length b)) as [L|L].
    + exists (length b), b. split; [exact B|]. split.
      { unfold overlay. rewrite ov_len by (auto; reflexivity). f_equal. rewrite E, firstn_app, repeat_length.
        replace (32 - length b - (32 - M))%nat with 0%nat by lia. cbn [firstn]. rewrite app_nil_r, F by lia. reflexivity. }
      split; [reflexivity|]. split; [apply HD, Hf|]. split.
      * intros j Hj. destruct (Nat.eq_dec j (S i)) as [->|]; [fold b; lia|]. specialize (Hmax j ltac:(lia)). lia.
      * exists (S i). split; [lia|reflexivity].
    + exists M, (firstn (M - length b) t ++ b). split; [exact HM|]. split.
      { unfold overlay. rewrite ov_len by (auto; reflexivity). rewrite E, firstn_app, repeat_length.
        rewrite firstn_all2 by (rewrite repeat_length; lia). replace (32 - length b - (32 - M))%nat with (M - length b)%nat by lia.
        rewrite <- app_assoc. reflexivity. }
      split; [rewrite app_length, firstn_length; lia|]. split.
      { right. destruct Hh as [->|(h & t' & -> & Hh)]; [lia|]. destruct (M - length b)%nat as [|m] eqn:Em'; [lia|].
        cbn [firstn app]. exists h. eexists. split; [reflexivity|exact Hh]. }
      split.
      * intros j Hj. destruct (Nat.eq_dec j (S i)) as [->|]; [fold b; lia|]. apply Hmax. lia.
      * exists jm. split; [lia|exact Em].
Qed.
Theorem C49_stale_bytes : forall f i b, (forall j, 0 <= f j < 256 ^ 32) -> written f i b ->
  (b = to_be 32 (f i) <-> forall j n, (j < i)%nat -> f i < 256 ^ Z.of_nat n -> f j < 256 ^ Z.of_nat n).
Proof.
  intros f i b Hf W. apply written_ov in W; [|intros; apply Hf]. subst b.
  destruct (ov_shape f i Hf) as (M & t & HM & E & Lt & Hh & Hmax & (jm & Hjm & Em)).
  destruct (ov_app f i (repeat 0 32) Hf eq_refl) as (a & Ea & La).
  pose proof (bb32 _ (Hf i)) as B.
  assert (T : to_be 32 (f i) = repeat 0 (32 - length (big_bytes (f i))) ++ big_bytes (f i)).
  { symmetry. apply pad_big_bytes. apply Hf. }
  split.
  - intros Q j n Hj Hn. apply bb_le_iff in Hn; [|apply Hf]. apply bb_le_iff; [apply Hf|].
    pose proof (Hmax j ltac:(lia)) as Hm. enough (M = length (big_bytes (f i))) by lia.
    destruct (Nat.lt_ge_cases (length (big_bytes (f i))) M) as [L|L].
    2:{ pose proof (Hmax i ltac:(lia)). lia. }
    exfalso. destruct Hh as [Hh|(h & t' & -> & Hh)]; [lia|]. apply Hh.
    assert (nth (32 - M) (repeat 0 (32 - M) ++ h :: t') 1 = nth (32 - M) (repeat 0 (32 - length (big_bytes (f i))) ++ big_bytes (f i)) 1)
      as G by congruence.
    rewrite app_nth2, repeat_length, Nat.sub_diag in G by (rewrite repeat_length; lia). cbn [nth] in G.
    rewrite app_nth1 in G by (rewrite repeat_length; lia). rewrite G.
    assert (R : forall m k, (k < m)%nat -> nth k (repeat 0 m) 1 = 0).
    { induction m; intros k Hk; [lia|]. destruct k; [reflexivity|]. cbn. apply IHm. lia. }
    apply R. lia.
  - intros Q. assert (HMi : M = length (big_bytes (f i))).
    { destruct (Nat.eq_dec jm i) as [->|]; [exact Em|]. pose proof (Hmax i ltac:(lia)).
      enough (length (big_bytes (f jm)) <= length (big_bytes (f i)))%nat by lia.
      apply bb_le_iff; [apply Hf|]. apply Q; [lia|]. apply bb_le_iff; [apply Hf|]. lia. }
    rewrite T, Ea. f_equal. rewrite E in Ea. rewrite <- HMi.
    assert (X : firstn (32 - M) (repeat 0 (32 - M) ++ t) = firstn (32 - M) (a ++ big_bytes (f i))) by congruence.
    rewrite !firstn_app, repeat_length, La, <- HMi, Nat.sub_diag in X. cbn [firstn] in X. rewrite !app_nil_r in X.
    rewrite !firstn_all2 in X by (rewrite ?repeat_length; lia). symmetry. exact X.
Qed.
Print Assumptions C49_stale_bytes.

(** what is hashed for C3 is what the standard says exactly when y2 needs all 32 bytes (or is 0) *)
Theorem C50_c3_standard_iff : forall y b, 0 <= y < 256 ^ 32 -> left_aligned y b ->
  (b = to_be 32 y <-> y = 0 \/ 256 ^ 31 <= y).
Proof.
  intros y b Hy L. apply la_spec in L; [|lia]. subst b. unfold la. pose proof (bb32 y Hy) as B.
  rewrite <- (pad_big_bytes y 32) by exact Hy. split.
  - intros Q. destruct (Z_le_gt_dec (256 ^ 31) y) as [|G]; [right; assumption|left].
    assert (L31 : (length (big_bytes y) <= 31)%nat) by (apply bb_le_iff; lia).
    destruct (big_bytes y) as [|h t] eqn:E. { rewrite <- (be2z_big_bytes y) by lia. rewrite E. reflexivity. }
    exfalso. assert (M : minimal y (big_bytes y)) by (apply minimal_big_bytes; [lia|reflexivity]). destruct M as (_ & _ & M).
    cbn [length] in *. replace (32 - S (length t))%nat with (S (31 - S (length t)))%nat in Q by lia. cbn [repeat app] in Q.
    apply (M t). rewrite E. f_equal. congruence.
  - intros [->|G]; [reflexivity|]. assert (L32 : ~ (length (big_bytes y) <= 31)%nat).
    { intros C. apply bb_le_iff in C; [|lia]. change (Z.of_nat 31) with 31 in C. lia. }
    replace (32 - length (big_bytes y))%nat with 0%nat by lia. cbn [repeat app]. apply app_nil_r.
Qed.

Section Dec.
Variable sm : Z -> Z -> bytes -> Z * Z.
Variable onCurve : Z -> Z -> bool.
Hypothesis sm_range : forall x y b, in32 (sm x y b).
Notation Decrypt := (Decrypt sm onCurve).

Theorem C50_other_curves : forall c D buf spare, c_name c <> c_name SM2P256V1 ->
  exists e, Decrypt c D buf spare = Val (None, Some e).
Proof.
  intros c D buf spare H. unfold SM2Enc.Decrypt, is_SM2Curve. destruct (String.eqb_spec (c_name c) (c_name SM2P256V1)); [contradiction|].
  eexists. reflexivity.
Qed.

Lemma slice_panics : forall (l : bytes) lo hi, zlen l < hi -> exists w, slice l lo hi = Panic w.
Proof.
  intros l lo hi H. unfold slice. destruct (Z.leb_spec hi (zlen l)); [lia|]. rewrite !andb_false_r. eexists. reflexivity.
Qed.
Lemma split_at : forall n (l : bytes), (n <= length l)%nat -> exists a b, l = a ++ b /\ length a = n.
Proof. intros n l H. exists (firstn n l), (skipn n l). split; [symmetry; apply firstn_skipn|]. rewrite firstn_length. lia. Qed.
Lemma app_split : forall (a b c d : bytes), a ++ b = c ++ d -> length a = length c -> a = c /\ b = d.
Proof.
  induction a as [|x a IH]; intros b c d E L; destruct c as [|y c]; cbn [length app] in *; try lia; [auto|].
  injection E as -> E. destruct (IH b c d E ltac:(lia)) as [-> ->]. auto.
Qed.
Lemma slice_mid : forall (a b c : bytes) lo hi, lo = zlen a -> hi = zlen a + zlen b -> slice (a ++ b ++ c) lo hi = Val b.
Proof. intros a b c lo hi H1 H2. apply slice_app3; assumption. Qed.

(** the possible outcomes for C1 = (xb, yb), C3 = h, C2 = ct *)
Inductive outcome (D : Z) (xb yb h ct : bytes) : option bytes * option string -> Prop :=
| oc_zero : value xb 0 = 0 -> value yb 0 = 0 -> outcome D xb yb h ct (None, Some "C1 is infinity"%string)
| oc_off : ~ (value xb 0 = 0 /\ value yb 0 = 0) -> onCurve (value xb 0) (value yb 0) = false ->
    outcome D xb yb h ct (None, Some "C1 is not on curve"%string)
| oc_kdf : forall db x2 y2, ~ (value xb 0 = 0 /\ value yb 0 = 0) -> onCurve (value xb 0) (value yb 0) = true ->
    minimal D db -> sm (value xb 0) (value yb 0) db = (x2, y2) ->
    all_zero (firstn 64 (kdf (shared x2 y2) (length ct))) ->
    outcome D xb yb h ct (None, Some "KDF calc error"%string)
| oc_msg : forall db x2 y2 y2l m, ~ (value xb 0 = 0 /\ value yb 0 = 0) -> onCurve (value xb 0) (value yb 0) = true ->
    minimal D db -> sm (value xb 0) (value yb 0) db = (x2, y2) ->
    ~ all_zero (firstn 64 (kdf (shared x2 y2) (length ct))) ->
    m = xor_bytes ct (kdf (shared x2 y2) (length ct)) -> left_aligned y2 y2l ->
    outcome D xb yb h ct (Some m, if list_eq_dec Z.eq_dec (sm3_hash (to_be 32 x2 ++ m ++ y2l)) h then None else Some "Hash not match!"%string).

Lemma xor_wf : forall a b, wf_bytes a -> wf_bytes b -> wf_bytes (xor_bytes a b).
Proof.
  intros a b Ha Hb. apply Forall_forall. intros x I. unfold xor_bytes in I. apply in_map_iff in I as ([u v] & <- & I).
  pose proof (in_combine_l _ _ _ _ I) as I1. pose proof (in_combine_r _ _ _ _ I) as I2.
  apply (proj1 (Forall_forall _ _) Ha) in I1. apply (proj1 (Forall_forall _ _) Hb) in I2. unfold is_byte in *. cbn [fst snd].
  assert (0 <= Z.lxor u v) by (apply Z.lxor_nonneg; lia). split; [assumption|].
  destruct (Z.eq_dec (Z.lxor u v) 0) as [->|Ne]; [lia|].
  apply (Z.log2_lt_cancel _ 256). change (Z.log2 256) with 8.
  apply Z.le_lt_trans with (Z.max (Z.log2 u) (Z.log2 v)); [apply Z.log2_lxor; lia|].
  assert (forall w, 0 <= w < 256 -> Z.log2 w < 8).
  { intros w Hw. destruct (Z.eq_dec w 0) as [->|]; [reflexivity|]. apply (Z.log2_lt_pow2 w 8); lia. }
  apply Z.max_lub_lt; auto.
Qed.
Lemma xor_len : forall a b, length a = length b -> length (xor_bytes a b) = length a.
Proof. intros. unfold xor_bytes. rewrite map_length, combine_length. lia. Qed.
Lemma bytes_eqb_iff : forall a b, bytes_eqb a b = true <-> a = b.
Proof.
  induction a as [|x a IH]; intros [|y b]; cbn; split; try discriminate; auto.
  - intros H. apply andb_prop in H as [H1 H2]. apply Z.eqb_eq in H1. apply IH in H2. congruence.
  - intros [= -> ->]. rewrite Z.eqb_refl. apply IH. reflexivity.
Qed.

Theorem C50_exact : forall D xb yb h ct spare r, 0 <= D -> length xb = 32%nat -> length yb = 32%nat -> length h = 32%nat ->
  octets ct -> Z.of_nat (length ct) < 2 ^ 60 ->
  (Decrypt SM2P256V1 D (xb ++ yb ++ h ++ ct) spare = Val r <-> outcome D xb yb h ct r).
Proof.
  intros D xb yb h ct spare r HD Lx Ly Lh Oc Lc.
  unfold SM2Enc.Decrypt. change (is_SM2Curve SM2P256V1) with true. cbn [negb]. cbv zeta.
  assert (X1 : slice ((xb ++ yb ++ h ++ ct) ++ spare) 0 32 = Val xb).
  { rewrite <- (app_nil_l (_ ++ spare)), <- app_assoc. apply slice_mid; unfold zlen; rewrite ?Lx; reflexivity. }
  assert (X2 : slice ((xb ++ yb ++ h ++ ct) ++ spare) 32 64 = Val yb).
  { rewrite <- !app_assoc. apply slice_mid; unfold zlen; rewrite ?Lx, ?Ly; reflexivity. }
  assert (X3 : slice ((xb ++ yb ++ h ++ ct) ++ spare) 64 96 = Val h).
  { rewrite <- !app_assoc, app_assoc. apply slice_mid; rewrite zlen_app; unfold zlen; rewrite ?Lx, ?Ly, ?Lh; reflexivity. }
  assert (X4 : slice (xb ++ yb ++ h ++ ct) 96 (zlen (xb ++ yb ++ h ++ ct)) = Val ct).
  { rewrite !zlen_app. rewrite <- (app_nil_r ct) at 1. rewrite (app_assoc yb), (app_assoc xb).
    apply slice_mid; rewrite !zlen_app; unfold zlen; rewrite ?Lx, ?Ly, ?Lh; lia. }
  assert (X5 : zlen (xb ++ yb ++ h ++ ct) - 96 = Z.of_nat (length ct)).
  { rewrite !zlen_app. unfold zlen. lia. }
  rewrite X1, X2. cbn [bind]. rewrite X5. rewrite <- !value_be2z.
  assert (Zc : ((value xb 0 =? 0) && (value yb 0 =? 0)) = true <-> value xb 0 = 0 /\ value yb 0 = 0).
  { rewrite andb_true_iff, !Z.eqb_eq. reflexivity. }
  destruct ((value xb 0 =? 0) && (value yb 0 =? 0)) eqn:EZ.
  { destruct (proj1 Zc eq_refl) as [Z1 Z2]. split.
    - intros E. apply val_inj in E. subst r. apply oc_zero; assumption.
    - intros O. destruct O; try tauto; reflexivity. }
  assert (NZ : ~ (value xb 0 = 0 /\ value yb 0 = 0)) by (intros C; apply Zc in C; discriminate).
  destruct (onCurve (value xb 0) (value yb 0)) eqn:OC; cbn [negb].
  2:{ split.
    - intros E. apply val_inj in E. subst r. apply oc_off; assumption.
    - intros O. destruct O; try congruence; try tauto. }
  assert (MD : minimal D (big_bytes D)) by (apply minimal_big_bytes; auto).
  pose proof (sm_range (value xb 0) (value yb 0) (big_bytes D)) as [R1 R2].
  destruct (sm (value xb 0) (value yb 0) (big_bytes D)) as [x2 y2] eqn:ES. cbn [fst snd] in R1, R2.
  rewrite x2y2_ok by assumption. cbn [bind].
  assert (UNIQ : forall db x y, minimal D db -> sm (value xb 0) (value yb 0) db = (x, y) -> x = x2 /\ y = y2).
  { intros db x y M E. apply minimal_big_bytes in M; [|exact HD]. subst db. split; congruence. }
  destruct (sm3kdf_ok (shared x2 y2) (length ct) (shared_wf _ _) (shared_short _ _)) as [[A E]|[A E]];
    rewrite E; cbn [bind]; rewrite shared_len in A.
  { split.
    - intros Q. apply val_inj in Q. subst r. apply (oc_kdf _ _ _ _ _ (big_bytes D) x2 y2); assumption.
    - intros O. destruct O as [? ?|? ?|? ? ? ? ? ? ? ?|? ? ? ? ? ? ? M' S' A' ? ?]; try tauto; try congruence.
      destruct (UNIQ _ _ _ M' S') as [-> ->]. contradiction. }
  rewrite X4. cbn [bind].
  set (m := xor_bytes ct (kdf (shared x2 y2) (length ct))).
  assert (Lm : length m = length ct) by (apply xor_len; rewrite kdf_len; reflexivity).
  rewrite c3_ok; [|assumption|assumption|apply xor_wf; [exact Oc|apply kdf_wf]|unfold zlen; rewrite Lm; exact Lc].
  cbn [bind]. rewrite X3. cbn [bind].
  assert (RES : (if negb (bytes_eqb (sm3_hash (to_be 32 x2 ++ m ++ la y2)) h) then Val (Some m, Some "Hash not match!"%string)
      else Val (Some m, None)) =
    Val (Some m, if list_eq_dec Z.eq_dec (sm3_hash (to_be 32 x2 ++ m ++ la y2)) h then None else Some "Hash not match!"%string)).
  { destruct (list_eq_dec Z.eq_dec (sm3_hash (to_be 32 x2 ++ m ++ la y2)) h) as [Q|Q].
    - apply bytes_eqb_iff in Q. rewrite Q. reflexivity.
    - destruct (bytes_eqb (sm3_hash (to_be 32 x2 ++ m ++ la y2)) h) eqn:B; [apply bytes_eqb_iff in B; contradiction|reflexivity]. }
  rewrite RES. split.
  - intros Q. apply val_inj in Q. subst r. apply (oc_msg _ _ _ _ _ (big_bytes D) x2 y2); auto. apply la_spec; [lia|reflexivity].
  - intros O. destruct O as [? ?|? ?|? ? ? ? ? M' S' A'|db x y yl m' ? ? M' S' A' Em L']; try tauto; try congruence.
    + destruct (UNIQ _ _ _ M' S') as [-> ->]. contradiction.
    + destruct (UNIQ _ _ _ M' S') as [-> ->]. apply la_spec in L'; [|lia]. subst yl m'. reflexivity.
Qed.
(** a nil error means that the hash matches *)
Theorem C50_authentic : forall D xb yb h ct spare m, 0 <= D -> length xb = 32%nat -> length yb = 32%nat -> length h = 32%nat ->
  octets ct -> Z.of_nat (length ct) < 2 ^ 60 ->
  Decrypt SM2P256V1 D (xb ++ yb ++ h ++ ct) spare = Val (m, None) ->
  exists db x2 y2 p y2l, m = Some p /\ minimal D db /\ sm (value xb 0) (value yb 0) db = (x2, y2) /\ left_aligned y2 y2l /\
    h = sm3_hash (to_be 32 x2 ++ p ++ y2l) /\ length p = length ct /\ p <> [].
Proof.
  intros D xb yb h ct spare m HD Lx Ly Lh Oc Lc E. apply C50_exact in E; auto. remember (m, @None string) as r eqn:Er.
  destruct E as [| | |db x2 y2 y2l p NZ OC M S A Em L]; try discriminate.
  assert (Q1 : m = Some p) by congruence. apply (f_equal snd) in Er. cbn [snd] in Er.
  destruct (list_eq_dec Z.eq_dec (sm3_hash (to_be 32 x2 ++ p ++ y2l)) h) as [Q|]; [|discriminate].
  exists db, x2, y2, p, y2l. split; [exact Q1|]. split; [exact M|]. split; [exact S|]. split; [exact L|]. split; [auto|]. split.
  - subst p. apply xor_len. rewrite kdf_len. reflexivity.
  - intros C. apply A. replace (length ct) with 0%nat; [constructor|].
    rewrite C in Em. destruct ct; [reflexivity|]. pose proof (kdf_len (shared x2 y2) (length (z :: ct))) as KL.
    destruct (kdf (shared x2 y2) (length (z :: ct))); [discriminate|discriminate].
Qed.
(** inputs of up to 96 bytes *)
Theorem C50_short : forall D buf spare, (64 <= length (buf ++ spare))%nat -> (length buf <= 96)%nat ->
  exists e, Decrypt SM2P256V1 D buf spare = Val (None, Some e).
Proof.
  intros D buf spare L1 L2. unfold SM2Enc.Decrypt. change (is_SM2Curve SM2P256V1) with true. cbn [negb].
  rewrite slice_ok by (unfold zlen; lia). cbn [bind]. rewrite slice_ok by (unfold zlen; lia). cbn [bind]. cbv zeta.
  destruct (_ && _); [eexists; reflexivity|]. destruct (negb _); [eexists; reflexivity|].
  match goal with |- context [sm ?a ?b ?d] => pose proof (sm_range a b d) as [R1 R2]; destruct (sm a b d) as [x2 y2] end.
  cbn [fst snd] in *. rewrite x2y2_ok by assumption. cbn [bind].
  rewrite C51_negative by (unfold zlen; lia). cbn [bind]. eexists. reflexivity.
Qed.
Theorem C50_panics_iff : forall D buf spare, 0 <= D -> octets buf -> Z.of_nat (length buf) < 2 ^ 60 ->
  ((exists w, Decrypt SM2P256V1 D buf spare = Panic w) <-> (length (buf ++ spare) < 64)%nat) /\
  ((exists r, Decrypt SM2P256V1 D buf spare = Val r) <-> (64 <= length (buf ++ spare))%nat).
Proof.
  intros D buf spare HD O L.
  assert (K : (exists w, Decrypt SM2P256V1 D buf spare = Panic w) /\ (length (buf ++ spare) < 64)%nat \/
              (exists r, Decrypt SM2P256V1 D buf spare = Val r) /\ (64 <= length (buf ++ spare))%nat).
  { destruct (Nat.lt_ge_cases (length (buf ++ spare)) 64) as [S|S]; [left|right]; (split; [|exact S]).
    - unfold SM2Enc.Decrypt. change (is_SM2Curve SM2P256V1) with true. cbn [negb].
      destruct (Nat.lt_ge_cases (length (buf ++ spare)) 32) as [S'|S'].
      + destruct (slice_panics (buf ++ spare) 0 32) as [w E]; [unfold zlen; lia|]. rewrite E. eexists. reflexivity.
      + rewrite slice_ok by (unfold zlen; lia). cbn [bind].
        destruct (slice_panics (buf ++ spare) 32 64) as [w E]; [unfold zlen; lia|]. rewrite E. eexists. reflexivity.
    - destruct (Nat.le_gt_cases (length buf) 96) as [S'|S'].
      + destruct (C50_short D buf spare S S') as [e E]. eexists. exact E.
      + destruct (split_at 32 buf) as (xb & b1 & -> & Lx); [lia|]. rewrite app_length in S', L.
        destruct (split_at 32 b1) as (yb & b2 & -> & Ly); [lia|]. rewrite app_length in S', L.
        destruct (split_at 32 b2) as (h & ct & -> & Lh); [lia|]. rewrite app_length in S', L.
        apply Forall_app in O as [_ O]. apply Forall_app in O as [_ O]. apply Forall_app in O as [_ O].
        assert (T : exists r, outcome D xb yb h ct r).
        { destruct (Z.eq_dec (value xb 0) 0) as [Z1|Z1].
          1: destruct (Z.eq_dec (value yb 0) 0) as [Z2|Z2]; [eexists; apply oc_zero; assumption|].
          all: assert (NZ : ~ (value xb 0 = 0 /\ value yb 0 = 0)) by tauto;
            destruct (onCurve (value xb 0) (value yb 0)) eqn:OC; [|eexists; apply oc_off; assumption];
            assert (MD : minimal D (big_bytes D)) by (apply minimal_big_bytes; auto);
            pose proof (sm_range (value xb 0) (value yb 0) (big_bytes D)) as [R1 R2];
            destruct (sm (value xb 0) (value yb 0) (big_bytes D)) as [x2 y2] eqn:ES; cbn [fst snd] in *;
            destruct (all_zero_dec (firstn 64 (kdf (shared x2 y2) (length ct)))) as [A|A];
            [eexists; apply (oc_kdf _ _ _ _ _ (big_bytes D) x2 y2); assumption|];
            eexists; apply (oc_msg _ _ _ _ _ (big_bytes D) x2 y2 (la y2)); auto; apply la_spec; [lia|reflexivity]. }
        destruct T as [r T]. exists r. apply C50_exact; auto. unfold zlen in *. lia. }
  destruct K as [[[w K] S]|[[r K] S]]; split; split; intros X; try exact S; try lia;
    try (destruct X as [q X]; congruence); eexists; exact K.
Qed.
End Dec.
Print Assumptions C50_exact.
Print Assumptions C50_panics_iff.
