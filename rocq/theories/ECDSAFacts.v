(** * ECDSAFacts: the model of crypto/ecdsa over a group of prime order *)
From Coq Require Import ZArith Znumtheory String List Bool Lia.
From Verif Require Import Base BaseFacts Curves ECKey NumTheory Spec_EC ECFacts Spec_Group Spec_SM2 Prop_SM2b Prop_Keys Spec_Gen Spec_ECDSA ECDSA.
Import ListNotations.
Open Scope Z_scope.

(** ** hashToInt *)
Lemma bits_len : forall N n, bits_of N n -> bit_len N = n.
Proof.
  intros N n (P & L & U). assert (0 < N) by (pose proof (Z.pow_pos_nonneg 2 (n - 1) ltac:(lia) ltac:(lia)); lia).
  unfold bit_len. destruct (Z.eqb_spec N 0); [lia|]. rewrite Z.abs_eq by lia. rewrite (Z.log2_unique N (n - 1)); [lia|lia|].
  replace (Z.succ (n - 1)) with n by lia. lia.
Qed.
Lemma hashToInt_ok : forall dg c n, wf_bytes dg -> bits_of (c_N c) n -> hashToInt dg c = Val (digest_int n dg).
Proof.
  intros dg c n W B. pose proof (bits_len _ _ B) as L. destruct B as (P & _). unfold hashToInt, digest_int. cbv zeta. rewrite L, value_be2z.
  change (Z.of_nat (length dg)) with (zlen dg). set (m := (n + 7) / 8).
  assert (M : 8 * (m - 1) < n <= 8 * m) by (pose proof (Z.div_mod (n + 7) 8 ltac:(lia)); pose proof (Z.mod_pos_bound (n + 7) 8 ltac:(lia)); unfold m; lia).
  destruct (Z.gtb_spec (zlen dg) m) as [G|G].
  - rewrite slice_ok by lia. cbn [bind]. change (Z.to_nat 0) with O. cbn [skipn]. rewrite Z.sub_0_r.
    assert (S : be2z dg = be2z (firstn (Z.to_nat m) dg ++ skipn (Z.to_nat m) dg)) by (rewrite firstn_skipn; reflexivity).
    assert (L1 : zlen (firstn (Z.to_nat m) dg) = m) by (unfold zlen in *; rewrite firstn_length; lia).
    assert (L2 : zlen (skipn (Z.to_nat m) dg) = zlen dg - m) by (unfold zlen in *; rewrite skipn_length; lia).
    rewrite L1. f_equal. rewrite Z.max_r by lia. rewrite S, be2z_app, L2.
    pose proof (be2z_bound (skipn (Z.to_nat m) dg)) as BD. rewrite L2 in BD. specialize (BD (wf_skipn _ _ W)).
    replace (256 ^ (zlen dg - m)) with (2 ^ (8 * (zlen dg - m))) in * by (rewrite Z.pow_mul_r by lia; reflexivity).
    replace (8 * zlen dg - n) with (8 * (zlen dg - m) + (m * 8 - n)) by ring. rewrite Z.pow_add_r by lia.
    rewrite <- Z.div_div; [|apply Z.pow_nonzero; lia|apply Z.pow_pos_nonneg; lia].
    rewrite Z.div_add_l by (apply Z.pow_nonzero; lia). rewrite (Z.div_small (be2z (skipn _ _))) by exact BD. rewrite Z.add_0_r.
    destruct (Z.gtb_spec (m * 8 - n) 0) as [X|X].
    + apply Z.shiftr_div_pow2. lia.
    + replace (m * 8 - n) with 0 by lia. rewrite Z.div_1_r. reflexivity.
  - cbn [bind]. f_equal. destruct (Z.gtb_spec (zlen dg * 8 - n) 0) as [X|X].
    + rewrite Z.max_r by lia. rewrite Z.shiftr_div_pow2 by lia. f_equal. f_equal. lia.
    + rewrite Z.max_l by lia. rewrite Z.div_1_r. reflexivity.
Qed.

(** ** The key stream *)
Lemma csprng_spec : forall aes key n i, (forall c, length c = 16%nat -> length (aes key c) = 16%nat) ->
  csprng aes key n i = firstn n (skipn (n * i) (ctr_stream (aes key) (str_bytes "IV for ECDSA CTR") (n * S i))).
Proof.
  intros aes key n i L. set (f := fun j => aes key (to_be 16 (value (str_bytes "IV for ECDSA CTR") 0 + Z.of_nat j))).
  assert (Lf : forall j, length (f j) = 16%nat) by (intros; apply L, to_be_length).
  apply (nth_ext _ _ 0 0).
  - unfold csprng, ctr_stream. rewrite map_length, seq_length, firstn_length, skipn_length.
    fold f. rewrite flat_map_len16 by exact Lf. lia.
  - unfold csprng at 1. rewrite map_length, seq_length. intros j Hj. unfold csprng.
    rewrite (nth_indep _ 0 (key_stream aes key (n * i + 0))) by (rewrite map_length, seq_length; exact Hj).
    rewrite (map_nth (fun j => key_stream aes key (n * i + j))), seq_nth by exact Hj. cbn [Nat.add].
    rewrite nth_firstn0, nth_skipn0 by exact Hj. unfold ctr_stream. fold f.
    rewrite nth_flat_map16 by (auto; lia). unfold key_stream, f. cbn [Nat.add]. rewrite value_be2z. reflexivity.
Qed.
Lemma csprng_nonce : forall aes key c n i, (forall b, length b = 16%nat -> length (aes key b) = 16%nat) ->
  randFieldElement c (csprng aes key n i) = dsa_nonce (c_N c) (str_bytes "IV for ECDSA CTR") n (aes key) i.
Proof. intros. unfold randFieldElement, dsa_nonce. rewrite csprng_spec by assumption. rewrite value_be2z. reflexivity. Qed.

(** ** Inverses modulo a prime *)
Section Inv.
Variables (N : Z).
Hypothesis N2 : 1 < N.
Lemma inv_unique : forall s w w', (w * s) mod N = 1 -> (w' * s) mod N = 1 -> w mod N = w' mod N.
Proof.
  intros s w w' A B. replace (w mod N) with ((w * (w' * s)) mod N) by (rewrite <- Z.mul_mod_idemp_r, B, Z.mul_1_r by lia; reflexivity).
  replace (w * (w' * s)) with (w' * (w * s)) by ring. rewrite <- Z.mul_mod_idemp_r, A, Z.mul_1_r by lia. reflexivity.
Qed.
Lemma mul_inv_eq : forall k w a s, (w * k) mod N = 1 -> 0 <= s < N -> ((s * k) mod N = a mod N <-> s = (a * w) mod N).
Proof.
  intros k w a s I R. split; intros H.
  - rewrite <- Z.mul_mod_idemp_l, <- H, Z.mul_mod_idemp_l by lia. replace (s * k * w) with (s * (w * k)) by ring.
    rewrite <- Z.mul_mod_idemp_r, I, Z.mul_1_r by lia. symmetry. apply Z.mod_small. exact R.
  - subst s. rewrite Z.mul_mod_idemp_l by lia. replace (a * w * k) with (a * (w * k)) by ring.
    rewrite <- Z.mul_mod_idemp_r, I, Z.mul_1_r by lia. reflexivity.
Qed.
Lemma mul_inv_zero : forall k w a, (w * k) mod N = 1 -> ((a * w) mod N = 0 <-> a mod N = 0).
Proof.
  intros k w a I. split; intros H.
  - replace (a mod N) with ((a * (w * k)) mod N) by (rewrite <- Z.mul_mod_idemp_r, I, Z.mul_1_r by lia; reflexivity).
    replace (a * (w * k)) with (a * w * k) by ring. rewrite <- Z.mul_mod_idemp_l, H by lia. reflexivity.
  - rewrite <- Z.mul_mod_idemp_l, H by lia. reflexivity.
Qed.
End Inv.

(** ** The signing loop *)
Section Loop.
Variable c : curve.
Notation N := (c_N c).
Hypothesis N2 : 1 < N.
Variable sbm : curve -> bytes -> Z * Z.
Variable inv : curve -> Z -> Z.
Hypothesis inv_ok : forall k, 1 <= k <= N - 1 -> (inv c k * k) mod N = 1.
Notation x := (fun k => fst (sbm c (big_bytes k))).
Lemma nonce_range : forall b, 1 <= randFieldElement c b <= N - 1.
Proof. intros b. unfold randFieldElement. pose proof (Z.mod_pos_bound (be2z b) (N - 1) ltac:(lia)). lia. Qed.
(** one round *)
Definition round (D e k : Z) : option (Z * Z) :=
  let r := x k mod N in let s := ((D * r + e) * inv c k) mod N in if r =? 0 then None else if s =? 0 then None else Some (r, s).
Lemma attempt_iff : forall D e k o, 1 <= k <= N - 1 -> (dsa_attempt x N D e k o <-> o = round D e k).
Proof.
  intros D e k o K. pose proof (inv_ok k K) as I. unfold round. cbv zeta. set (r0 := x k mod N).
  assert (EQ : (e + r0 * D) mod N = 0 <-> ((D * r0 + e) * inv c k) mod N = 0).
  { rewrite (mul_inv_zero N N2 k (inv c k) _ I). rewrite (Z.add_comm e), (Z.mul_comm r0). reflexivity. }
  split.
  - intros A. destruct A as [r s R R0 S E|r R C]; fold r0 in R; subst r.
    + apply (mul_inv_eq N N2 k (inv c k)) in E; [|exact I|lia]. rewrite (Z.add_comm e), (Z.mul_comm r0) in E. rewrite <- E.
      destruct (Z.eqb_spec r0 0); [contradiction|]. destruct (Z.eqb_spec s 0); [lia|reflexivity].
    + destruct (Z.eqb_spec r0 0) as [|NZ]; [reflexivity|]. destruct C as [C|C]; [contradiction|]. apply EQ in C. rewrite C. reflexivity.
  - intros ->. destruct (Z.eqb_spec r0 0) as [Z0|NZ]; [apply (dsa_retry _ _ _ _ _ r0); [reflexivity|left; exact Z0]|].
    destruct (Z.eqb_spec (((D * r0 + e) * inv c k) mod N) 0) as [S0|SN]; [apply (dsa_retry _ _ _ _ _ r0); [reflexivity|right; apply EQ; exact S0]|].
    pose proof (Z.mod_pos_bound ((D * r0 + e) * inv c k) N ltac:(lia)). apply dsa_ok; [reflexivity|exact NZ|lia|].
    rewrite (Z.add_comm e), (Z.mul_comm r0). apply (mul_inv_eq N N2 k (inv c k)); [exact I|lia|reflexivity].
Qed.
Lemma loop_first : forall fuel draw i D hash e r s, hashToInt hash c = Val e ->
  (sign_loop sbm inv fuel c draw i D hash = Val (r, s) <->
   exists j, (i <= j < i + fuel)%nat /\ round D e (randFieldElement c (draw j)) = Some (r, s) /\
     forall j', (i <= j' < j)%nat -> round D e (randFieldElement c (draw j')) = None).
Proof.
  intros fuel draw i D hash e r s H. revert i. induction fuel as [|fuel IH]; intros i.
  - split; [discriminate|]. intros (j & J & _). lia.
  - cbn [sign_loop]. set (k := randFieldElement c (draw i)).
    assert (SK : round D e k = None -> (sign_loop sbm inv fuel c draw (S i) D hash = Val (r, s) <->
       exists j, (i <= j < i + S fuel)%nat /\ round D e (randFieldElement c (draw j)) = Some (r, s) /\
         forall j', (i <= j' < j)%nat -> round D e (randFieldElement c (draw j')) = None)).
    { intros A. rewrite IH. split; intros (j & H1 & H2 & H3).
      - exists j. split; [lia|]. split; [exact H2|]. intros j' Hj'. destruct (Nat.eq_dec j' i) as [->|]; [exact A|apply H3; lia].
      - destruct (Nat.eq_dec j i) as [->|Ne]; [fold k in H2; congruence|]. exists j. split; [lia|]. split; [exact H2|]. intros j' Hj'. apply H3. lia. }
    unfold round in SK. cbv zeta in SK. destruct (fst (sbm c (big_bytes k)) mod N =? 0) eqn:R0; [apply SK; reflexivity|].
    rewrite H. cbn [bind]. destruct (((D * (fst (sbm c (big_bytes k)) mod N) + e) * inv c k) mod N =? 0) eqn:S0; [apply SK; reflexivity|]. clear SK.
    assert (RS : round D e k = Some (fst (sbm c (big_bytes k)) mod N, ((D * (fst (sbm c (big_bytes k)) mod N) + e) * inv c k) mod N)) by (unfold round; cbv zeta; rewrite R0, S0; reflexivity).
    split.
    + intros E. exists i. split; [lia|]. fold k. rewrite RS. split; [|intros; lia]. congruence.
    + intros (j & J1 & J2 & J3). destruct (Nat.eq_dec j i) as [->|Ne]; [fold k in J2; rewrite RS in J2; congruence|].
      specialize (J3 i ltac:(lia)). fold k in J3. congruence.
Qed.
End Loop.
