(** * ECFacts: proofs about the model of /repo/ec *)
From Coq Require Import ZArith String List Bool Lia Znumtheory Zpow_facts.
From Verif Require Import Base BaseFacts NumTheory Curves ECKey LucasFacts Spec_EC Primes1 Primes2.
Import ListNotations.
Open Scope Z_scope.

Lemma value_be2z : forall l, value l 0 = be2z l.
Proof.
  intros l. unfold be2z. generalize 0. induction l as [|b l IH]; intros acc; cbn; auto.
Qed.

Lemma encodes_to_be : forall n z, 0 <= z < 256 ^ Z.of_nat n -> encodes (Z.of_nat n) z (to_be n z).
Proof.
  intros n z H. split; [rewrite to_be_length; reflexivity|]. split.
  - apply to_be_wf.
  - rewrite value_be2z. apply be2z_to_be_small; exact H.
Qed.

Lemma encodes_inv : forall n z l, encodes n z l -> zlen l = n /\ wf_bytes l /\ be2z l = z.
Proof. intros n z l (H1 & H2 & H3). rewrite value_be2z in H3. auto. Qed.

Lemma encodes_fun : forall n z l, encodes n z l -> l = to_be (Z.to_nat n) z.
Proof.
  intros n z l H. apply encodes_inv in H as (H1 & H2 & <-).
  rewrite <- H1. unfold zlen. rewrite Nat2Z.id. symmetry. apply to_be_be2z; assumption.
Qed.

(** ** EncodePublicKey *)
Lemma encode_x : forall (L : nat) X, 0 <= X < 256 ^ Z.of_nat L ->
  copy_at (zeros (Z.of_nat L * 2 + 1)) (Z.of_nat L + 1 - zlen (big_bytes X)) (big_bytes X)
  = Val (0 :: to_be L X ++ repeat 0 L).
Proof.
  intros L X HX. pose proof (big_bytes_length_le X L HX) as Hl.
  set (xb := big_bytes X) in *. unfold zeros.
  replace (Z.to_nat (Z.of_nat L * 2 + 1)) with ((1 + (L - length xb)) + (length xb + L))%nat by lia.
  rewrite repeat_app, (repeat_app 0 (length xb)).
  rewrite copy_at_exact.
  - rewrite repeat_app. cbn [repeat app]. rewrite app_assoc. f_equal. f_equal. f_equal.
    apply pad_big_bytes; exact HX.
  - unfold zlen. rewrite repeat_length. lia.
  - rewrite repeat_length. reflexivity.
Qed.

Lemma encode_compressed_ok : forall (key : ecpub) (L : nat), byte_size (pk_curve key) = Z.of_nat L ->
  0 <= pk_X key < 256 ^ Z.of_nat L ->
  EncodePublicKey key true = Val ((if Z.testbit (pk_Y key) 0 then 3 else 2) :: to_be L (pk_X key)).
Proof.
  intros key L HL HX. unfold EncodePublicKey. rewrite HL.
  unfold make_bytes. destruct (Z.leb_spec 0 (Z.of_nat L * 2 + 1)); [|lia]. cbn [bind].
  rewrite encode_x by exact HX. cbn [bind set_nth].
  set (t := if Z.testbit _ 0 then 3 else 2).
  rewrite slice_ok; try lia.
  - rewrite Z.sub_0_r. change (Z.to_nat 0) with O. cbn [skipn].
    replace (Z.to_nat (Z.of_nat L + 1)) with (S L) by lia. cbn [firstn].
    rewrite <- (to_be_length L (pk_X key)) at 1. rewrite firstn_app, firstn_all, Nat.sub_diag.
    cbn [firstn]. rewrite app_nil_r. reflexivity.
  - unfold zlen. cbn [length]. rewrite app_length, to_be_length, repeat_length. lia.
Qed.

Lemma encode_uncompressed_ok : forall (key : ecpub) (L : nat), byte_size (pk_curve key) = Z.of_nat L ->
  0 <= pk_X key < 256 ^ Z.of_nat L -> 0 <= pk_Y key < 256 ^ Z.of_nat L ->
  EncodePublicKey key false = Val (4 :: to_be L (pk_X key) ++ to_be L (pk_Y key)).
Proof.
  intros key L HL HX HY. unfold EncodePublicKey. rewrite HL.
  unfold make_bytes. destruct (Z.leb_spec 0 (Z.of_nat L * 2 + 1)); [|lia]. cbn [bind].
  rewrite encode_x by exact HX. cbn [bind set_nth].
  pose proof (big_bytes_length_le (pk_Y key) L HY) as Hl.
  set (yb := big_bytes (pk_Y key)) in *.
  replace (repeat 0 L) with (repeat 0 (L - length yb) ++ repeat 0 (length yb) ++ []).
  2:{ rewrite app_nil_r, <- repeat_app. f_equal. lia. }
  rewrite app_assoc. rewrite (app_comm_cons (to_be L (pk_X key) ++ repeat 0 (L - length yb))).
  rewrite copy_at_exact.
  - rewrite app_nil_r. f_equal. rewrite <- app_comm_cons, <- app_assoc. f_equal. f_equal.
    apply pad_big_bytes; exact HY.
  - unfold zlen. cbn [length]. rewrite app_length, to_be_length, repeat_length. lia.
  - rewrite repeat_length. reflexivity.
Qed.

(** ** The right-hand side *)
Definition a_of (c : curve) : Z := if String.eqb (c_name c) "secp256k1" then 0 else -3.

Lemma y_square_spec : forall c x, 0 < c_P c ->
  y_square c x = (x * x * x + a_of c * x + c_B c) mod c_P c.
Proof.
  intros c x HP. unfold y_square, a_of. change (c_name S256) with "secp256k1"%string.
  rewrite powm_spec by lia. rewrite Z.pow_2_r.
  destruct (String.eqb (c_name c) "secp256k1"); cbn [negb].
  - rewrite Z.mul_mod_idemp_l by lia. rewrite Z.add_mod_idemp_l by lia. f_equal. ring.
  - rewrite (Z.add_mod_idemp_l (x * x)) by lia. rewrite Z.mul_mod_idemp_l by lia.
    rewrite Z.add_mod_idemp_l by lia. f_equal. ring.
Qed.

Lemma supported_a : forall c a x, supported c a ->
  (x * x * x + a_of c * x + c_B c) mod c_P c = (x * x * x + a * x + c_B c) mod c_P c.
Proof.
  intros c a x H. destruct H; try reflexivity.
  set (a := 115792089210356248756420345214020892766250353991924191454421193933289684991996).
  replace (x * x * x + a * x + c_B SM2P256V1) with
    (x * x * x + a_of SM2P256V1 * x + c_B SM2P256V1 + x * c_P SM2P256V1).
  - rewrite Z.mod_add by discriminate. reflexivity.
  - replace a with (a_of SM2P256V1 + c_P SM2P256V1) by reflexivity. ring.
Qed.

Lemma supported_prime : forall c a, supported c a -> prime (c_P c).
Proof.
  intros c a H. destruct H.
  - exact prime_c_P_P224.
  - exact prime_c_P_P256.
  - exact prime_c_P_P384.
  - exact prime_c_P_P521.
  - exact prime_c_P_S256.
  - exact prime_c_P_SM2P256V1.
Qed.
Lemma supported_odd : forall c a, supported c a -> 2 < c_P c /\ Z.odd (c_P c) = true.
Proof. intros c a H. destruct H; split; reflexivity. Qed.
Lemma supported_mod4 : forall c a, supported c a -> c <> P224 -> c_P c mod 4 = 3.
Proof. intros c a H. destruct H; intros N; try reflexivity. contradiction. Qed.
Lemma supported_size : forall c a, supported c a ->
  exists L : nat, byte_size c = Z.of_nat L /\ (0 < L)%nat /\ c_P c <= 256 ^ Z.of_nat L /\ 256 ^ (Z.of_nat L - 1) < c_P c.
Proof.
  intros c a H. exists (Z.to_nat (byte_size c)). destruct H; vm_compute; repeat split; try discriminate; lia.
Qed.

Lemma size_unique : forall c n (L : nat), field_bytes c n -> (0 < L)%nat ->
  c_P c <= 256 ^ Z.of_nat L -> 256 ^ (Z.of_nat L - 1) < c_P c -> n = Z.of_nat L.
Proof.
  intros c n L (N0 & N1 & N2) H0 H1 H2. destruct (Z_lt_le_dec n (Z.of_nat L)) as [A|A].
  - assert (256 ^ n <= 256 ^ (Z.of_nat L - 1)) by (apply Z.pow_le_mono_r; lia). lia.
  - destruct (Z.eq_dec n (Z.of_nat L)) as [|A']; [assumption|].
    assert (256 ^ Z.of_nat L <= 256 ^ (n - 1)) by (apply Z.pow_le_mono_r; lia). lia.
Qed.

(** ** Parity and testbit *)
Lemma testbit0 : forall z, Z.testbit z 0 = Z.odd z.
Proof. intros z. apply Z.bit0_odd. Qed.
Lemma isEven_even : forall z, isEven z = Z.even z.
Proof. intros z. unfold isEven. rewrite testbit0, Z.negb_odd. reflexivity. Qed.

Lemma testbit1_mod4 : forall p, Z.odd p = true -> Z.testbit p 1 = (p mod 4 =? 3).
Proof.
  intros p Ho.
  assert (E : p mod 4 = p mod 2 + 2 * ((p / 2) mod 2)).
  { change 4 with (2 * 2). rewrite Z.rem_mul_r by lia. ring. }
  rewrite Zodd_mod in Ho. apply Zeq_bool_eq in Ho.
  assert (T : Z.testbit p 1 = Z.odd (p / 2)).
  { rewrite <- Z.bit0_odd. change (p / 2) with (p / 2 ^ 1). rewrite Z.div_pow2_bits by lia. reflexivity. }
  rewrite T, Zodd_mod. rewrite E, Ho.
  pose proof (Z.mod_pos_bound (p / 2) 2 ltac:(lia)).
  destruct (Z.eqb_spec (1 + 2 * ((p / 2) mod 2)) 3).
  - replace ((p / 2) mod 2) with 1 by lia. reflexivity.
  - replace ((p / 2) mod 2) with 0 by lia. reflexivity.
Qed.

(** ** curveSqrt: soundness, without primality *)
Lemma half_root : forall p v z, 2 < p -> Z.odd p = true -> 0 <= v < p -> 0 <= z < p ->
  (v * v) mod p = (Z.shiftl z 2) mod p ->
  let r := Z.shiftr (if Z.testbit v 0 then v + p else v) 1 in 0 <= r < p /\ (r * r) mod p = z.
Proof.
  intros p v z Hp Ho Hv Hz E. cbv zeta.
  rewrite Z.shiftl_mul_pow2 in E by lia. rewrite Z.shiftr_div_pow2 by lia.
  change (2 ^ 2) with 4 in E. change (2 ^ 1) with 2. rewrite testbit0.
  set (w := if Z.odd v then v + p else v).
  assert (Hw : Z.even w = true).
  { unfold w. destruct (Z.odd v) eqn:O.
    - rewrite Z.even_add, <- (Z.negb_odd v), <- (Z.negb_odd p), O, Ho. reflexivity.
    - rewrite <- Z.negb_odd, O. reflexivity. }
  apply Z.even_spec in Hw. destruct Hw as [r Hr].
  assert (Hwv : w = v \/ w = v + p) by (unfold w; destruct (Z.odd v); auto).
  rewrite Hr, Z.mul_comm, Z.div_mul by lia.
  assert (D : (p | 4 * (r * r - z))).
  { replace (4 * (r * r - z)) with (w * w - z * 4) by (rewrite Hr; ring).
    apply Z.mod_divide; [lia|]. rewrite Zminus_mod.
    replace ((w * w) mod p) with ((v * v) mod p).
    - rewrite E, Z.sub_diag. apply Z.mod_0_l; lia.
    - destruct Hwv as [->| ->]; [reflexivity|].
      replace ((v + p) * (v + p)) with (v * v + (2 * v + p) * p) by ring. rewrite Z.mod_add by lia. reflexivity. }
  assert (R : rel_prime p 4).
  { apply rel_prime_sym. change 4 with (2 * 2).
    assert (rel_prime 2 p).
    { apply prime_rel_prime; [exact prime_2|]. intros [k K]. rewrite K, Z.odd_mul, andb_false_r in Ho. discriminate. }
    apply rel_prime_sym. apply rel_prime_mult; apply rel_prime_sym; assumption. }
  apply Gauss in D; [|exact R]. split; [lia|].
  apply Z.mod_divide in D; [|lia].
  apply Z.mod_divide in D; [|lia]. destruct D as [k D].
  replace (r * r) with (z + k * p) by lia. rewrite Z.mod_add by lia. apply Z.mod_small; exact Hz.
Qed.

Lemma lucas_search_sound : forall p z qm le k, 2 < p -> Z.odd p = true -> 0 <= z < p -> 0 < k ->
  forall rng y, lucas_search p z (Z.shiftl z 2 mod p) qm le k rng = Val (Some y) ->
  0 <= y < p /\ (y * y) mod p = z.
Proof.
  intros p z qm le k Hp Ho Hz Hk. induction rng as [|lp rng IH]; intros y H; [discriminate|].
  cbn [lucas_search] in H. destruct (_ && _); [|apply IH; exact H].
  destruct (fastLucas_V p lp z ltac:(lia) k Hk) as [u E]. rewrite E in H. cbn [bind] in H.
  set (v := lucasV lp z (Z.to_nat k) mod p) in *.
  destruct (Z.eqb_spec ((v * v) mod p) (Z.shiftl z 2 mod p)) as [Ev|].
  - injection H as <-. apply half_root; auto. apply Z.mod_pos_bound; lia.
  - destruct (_ || _); [discriminate|]. apply IH; exact H.
Qed.

Lemma shiftr_pos_k : forall p, 2 < p -> 0 < Z.shiftl (Z.shiftr (p - 1) 2) 1 + 1.
Proof.
  intros p H. rewrite Z.shiftl_mul_pow2, Z.shiftr_div_pow2 by lia.
  pose proof (Z.div_pos (p - 1) (2 ^ 2) ltac:(lia) ltac:(reflexivity)). lia.
Qed.

Lemma curveSqrt_sound : forall rng z p y, 2 < p -> Z.odd p = true -> 0 <= z < p ->
  curveSqrt rng z p = Val (Some y) -> 0 <= y < p /\ (y * y) mod p = z.
Proof.
  intros rng z p y Hp Ho Hz H. unfold curveSqrt in H. destruct (Z.testbit p 1).
  - cbv zeta in H. set (e := Z.shiftr p 2 + 1) in *.
    destruct (Z.eqb_spec (powm (powm z e p) 2 p) z) as [E|]; [|discriminate].
    injection H as <-. split; [apply powm_range; lia|].
    rewrite powm_spec, Z.pow_2_r in E by lia. exact E.
  - cbv zeta in H. destruct (negb _); [discriminate|].
    eapply lucas_search_sound; eauto. apply shiftr_pos_k; lia.
Qed.

(** ** curveSqrt: completeness for prime p *)
Lemma odd_prime : forall p, prime p -> 2 < p -> Z.odd p = true.
Proof.
  intros p H1 H2. destruct (Z.odd p) eqn:O; auto.
  assert (E : Z.even p = true) by (rewrite <- Z.negb_odd, O; reflexivity).
  apply Z.even_spec in E. destruct E as [k E]. exfalso.
  assert (D : (2 | p)) by (exists k; lia).
  apply prime_div_prime in D; auto using prime_2. lia.
Qed.

Lemma curveSqrt_complete_3 : forall rng z p, prime p -> p mod 4 = 3 -> 0 <= z < p ->
  (exists y, curveSqrt rng z p = Val (Some y) /\ 0 <= y < p /\ (y * y) mod p = z) \/
  (curveSqrt rng z p = Val None /\ forall y, (y * y) mod p <> z).
Proof.
  intros rng z p Hp H4 Hz. pose proof (prime_ge_2 _ Hp) as Hp2.
  assert (H2 : 2 < p). { destruct (Z.eq_dec p 2) as [->|]; [discriminate|lia]. }
  pose proof (odd_prime p Hp H2) as Ho.
  destruct (curveSqrt rng z p) as [[y|]| |] eqn:E.
  - left. exists y. split; [reflexivity|]. eapply curveSqrt_sound; eauto.
  - right. split; [reflexivity|]. intros y Hy.
    unfold curveSqrt in E. rewrite testbit1_mod4, H4 in E by assumption. cbn [Z.eqb Pos.eqb] in E.
    cbv zeta in E. rewrite Z.shiftr_div_pow2 in E by lia. change (2 ^ 2) with 4 in E.
    replace (p / 4 + 1) with ((p + 1) / 4) in E.
    2:{ pose proof (Z.div_mod p 4 ltac:(lia)). replace (p + 1) with ((p / 4 + 1) * 4) by lia. apply Z.div_mul; lia. }
    assert (0 <= (p + 1) / 4) by (apply Z.div_pos; lia).
    rewrite (powm_spec z) in E by lia.
    rewrite powm_spec, Z.pow_2_r in E by lia.
    pose proof (sqrt_3mod4 p y Hp H4) as S. cbv zeta in S. rewrite Hy in S. rewrite S, Z.eqb_refl in E. discriminate.
  - exfalso. unfold curveSqrt in E. rewrite testbit1_mod4, H4 in E by assumption. cbn [Z.eqb Pos.eqb] in E.
    destruct (_ =? z); discriminate.
  - exfalso. unfold curveSqrt in E. rewrite testbit1_mod4, H4 in E by assumption. cbn [Z.eqb Pos.eqb] in E.
    destruct (_ =? z); discriminate.
Qed.

(** Euler's criterion, both directions in the form needed *)
Lemma euler_nonzero : forall p z, prime p -> 2 < p -> 0 <= z < p ->
  z ^ ((p - 1) / 2) mod p <> 1 -> z = 0 \/ forall y, (y * y) mod p <> z.
Proof.
  intros p z Hp H2 Hz H. destruct (Z.eq_dec z 0) as [|N]; [left; assumption|right].
  intros y Hy. apply H. rewrite <- Hy, <- Zpower_mod by lia.
  apply euler_square; auto. intros [k K]. apply N. rewrite <- Hy, K.
  replace (k * p * (k * p)) with (k * p * k * p) by ring. apply Z.mod_mul; lia.
Qed.

Lemma lucas_search_complete : forall p z, prime p -> 2 < p -> p mod 4 = 1 -> 0 <= z < p ->
  z ^ ((p - 1) / 2) mod p = 1 ->
  forall rng,
  (Exists (usable_draw p z) rng /\ exists y,
    lucas_search p z (Z.shiftl z 2 mod p) (p - 1) (Z.shiftr (p - 1) 1)
      (Z.shiftl (Z.shiftr (p - 1) 2) 1 + 1) rng = Val (Some y) /\ 0 <= y < p /\ (y * y) mod p = z) \/
  (~ Exists (usable_draw p z) rng /\
    lucas_search p z (Z.shiftl z 2 mod p) (p - 1) (Z.shiftr (p - 1) 1)
      (Z.shiftl (Z.shiftr (p - 1) 2) 1 + 1) rng = OutOfFuel).
Proof.
  intros p z Hp H2 H4 Hz Hq.
  pose proof (odd_prime p Hp H2) as Ho.
  pose proof (shiftr_pos_k p H2) as Hk. set (k := Z.shiftl (Z.shiftr (p - 1) 2) 1 + 1) in *.
  assert (Ek : k = (p + 1) / 2).
  { unfold k. rewrite Z.shiftl_mul_pow2, Z.shiftr_div_pow2 by lia. change (2 ^ 2) with 4. change (2 ^ 1) with 2.
    pose proof (Z.div_mod p 4 ltac:(lia)) as D.
    replace (p - 1) with (p / 4 * 4) by lia. rewrite Z.div_mul by lia.
    replace (p + 1) with ((p / 4 * 2 + 1) * 2) by lia. rewrite Z.div_mul by lia. reflexivity. }
  set (le := Z.shiftr (p - 1) 1).
  assert (El : le = (p - 1) / 2) by (unfold le; rewrite Z.shiftr_div_pow2 by lia; reflexivity).
  assert (Hl0 : 0 <= (p - 1) / 2) by (apply Z.div_pos; lia).
  induction rng as [|d rng IH].
  - right. split; [intros H; inversion H|reflexivity].
  - cbn [lucas_search].
    assert (U : usable_draw p z d <->
      (d <? p) && (powm (d * d - Z.shiftl z 2 mod p) le p =? p - 1) = true).
    { unfold usable_draw. rewrite andb_true_iff, Z.ltb_lt, Z.eqb_eq, El, powm_spec by lia.
      rewrite Zpower_mod by lia. rewrite (Zpower_mod (d * d - _)) by lia.
      rewrite Z.shiftl_mul_pow2 by lia. change (2 ^ 2) with 4. rewrite Zminus_mod_idemp_r.
      rewrite (Z.mul_comm z 4). tauto. }
    destruct ((d <? p) && _) eqn:G.
    + left. assert (Ud : usable_draw p z d) by (apply U; reflexivity).
      split; [apply Exists_cons_hd; exact Ud|].
      destruct (fastLucas_V p d z ltac:(lia) k Hk) as [u E]. rewrite E. cbn [bind].
      set (v := lucasV d z (Z.to_nat k) mod p).
      assert (R : (v * v) mod p = Z.shiftl z 2 mod p).
      { unfold v. rewrite <- Z.mul_mod by lia.
        pose proof (lucas_root d z p Hp H2) as LR. cbv zeta in LR. rewrite <- Ek in LR.
        assert (LR' : (p | lucasV d z (Z.to_nat k) * lucasV d z (Z.to_nat k) - 4 * z)).
        { apply LR.
          - apply Z.mod_divide; [lia|]. rewrite Zminus_mod, Hq, (Z.mod_small 1) by lia. reflexivity.
          - apply Z.mod_divide; [lia|]. destruct Ud as [_ Ud]. rewrite Z.add_mod, Ud, (Z.mod_small 1) by lia.
            replace (p - 1 + 1) with p by lia. apply Z.mod_same; lia. }
        destruct LR' as [c LR'].
        rewrite Z.shiftl_mul_pow2 by lia. change (2 ^ 2) with 4.
        replace (lucasV d z (Z.to_nat k) * lucasV d z (Z.to_nat k)) with (z * 4 + c * p) by lia.
        apply Z.mod_add; lia. }
      rewrite R, Z.eqb_refl. eexists. split; [reflexivity|].
      apply half_root; auto. apply Z.mod_pos_bound; lia.
    + destruct IH as [[IH1 IH2]|[IH1 IH2]].
      * left. split; [apply Exists_cons_tl; exact IH1|exact IH2].
      * right. split; [|exact IH2]. intros H. inversion H as [? ? Hd|? ? Hd]; subst; [|contradiction].
        apply U in Hd. congruence.
Qed.

Lemma curveSqrt_complete_1 : forall rng z p, prime p -> 2 < p -> p mod 4 = 1 -> 0 <= z < p ->
  (Exists (usable_draw p z) rng /\ exists y, curveSqrt rng z p = Val (Some y) /\ 0 <= y < p /\ (y * y) mod p = z) \/
  (~ Exists (usable_draw p z) rng /\ curveSqrt rng z p = OutOfFuel) \/
  (curveSqrt rng z p = Val None /\ (z = 0 \/ forall y, (y * y) mod p <> z)).
Proof.
  intros rng z p Hp H2 H4 Hz. pose proof (odd_prime p Hp H2) as Ho.
  unfold curveSqrt. rewrite testbit1_mod4, H4 by assumption. cbn [Z.eqb Pos.eqb]. cbv zeta.
  assert (Hl0 : 0 <= (p - 1) / 2) by (apply Z.div_pos; lia).
  assert (El : Z.shiftr (p - 1) 1 = (p - 1) / 2) by (rewrite Z.shiftr_div_pow2 by lia; reflexivity).
  rewrite powm_spec by lia.
  destruct (Z.eqb_spec (z ^ Z.shiftr (p - 1) 1 mod p) 1) as [E|E]; cbn [negb].
  - rewrite El in E. destruct (lucas_search_complete p z Hp H2 H4 Hz E rng) as [H|H]; tauto.
  - right; right. split; [reflexivity|]. rewrite El in E. apply euler_nonzero; auto.
Qed.

Lemma curveSqrt_complete_1z : forall rng p, 2 < p -> p mod 4 = 1 ->
  curveSqrt rng 0 p = Val None.
Proof.
  intros rng p H2 H4.
  assert (Ho : Z.odd p = true).
  { rewrite Zodd_mod. replace (p mod 2) with 1; [reflexivity|].
    pose proof (Z.div_mod p 4 ltac:(lia)) as D. rewrite H4 in D. rewrite D.
    replace (4 * (p / 4) + 1) with (1 + (2 * (p / 4)) * 2) by ring. rewrite Z.mod_add by lia. reflexivity. }
  unfold curveSqrt. rewrite testbit1_mod4, H4 by assumption. cbn [Z.eqb Pos.eqb]. cbv zeta.
  assert (El : Z.shiftr (p - 1) 1 = (p - 1) / 2) by (rewrite Z.shiftr_div_pow2 by lia; reflexivity).
  assert (Hl0 : 0 < (p - 1) / 2).
  { pose proof (Z.div_mod (p - 1) 2 ltac:(lia)). pose proof (Z.mod_pos_bound (p - 1) 2). lia. }
  rewrite El, powm_spec, Z.pow_0_l, Z.mod_0_l by lia. reflexivity.
Qed.
