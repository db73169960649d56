(** * Prop_SM2b: property C65, the nonces of sm2.Sign *)
From Coq Require Import ZArith Znumtheory String List Bool Lia.
From Verif Require Import Base BaseFacts Curves ECKey SM3 Spec_SM3 SM3Facts Spec_EC ECFacts Spec_Group SM2Sig Spec_SM2
  Prop_Keys Prop_SM2.
Import ListNotations.
Open Scope Z_scope.

Lemma nth_flat_map16 : forall (f : nat -> bytes) n m i, (forall j, length (f j) = 16%nat) -> (i < 16 * n)%nat ->
  nth i (flat_map f (seq m n)) 0 = nth (i mod 16) (f (m + i / 16)%nat) 0.
Proof.
  intros f n. induction n as [|n IH]; intros m i L H; [lia|]. cbn [seq flat_map].
  destruct (Nat.lt_ge_cases i 16) as [S|S].
  - rewrite app_nth1 by (rewrite L; exact S). rewrite Nat.mod_small, Nat.div_small, Nat.add_0_r by exact S. reflexivity.
  - rewrite app_nth2 by (rewrite L; exact S). rewrite L, IH by (auto; lia).
    replace i with (i - 16 + 1 * 16)%nat at 3 4 by lia.
    rewrite Nat.mod_add, Nat.div_add by lia. f_equal. f_equal. lia.
Qed.
Lemma flat_map_len16 : forall (f : nat -> bytes) n m, (forall j, length (f j) = 16%nat) ->
  length (flat_map f (seq m n)) = (16 * n)%nat.
Proof. intros f n. induction n; intros m L; [reflexivity|]. cbn [seq flat_map]. rewrite app_length, L, IHn by exact L. lia. Qed.
Lemma nth_skipn0 : forall (l : bytes) a i, nth i (skipn a l) 0 = nth (a + i) l 0.
Proof.
  intros l a. revert l. induction a; intros l i; [reflexivity|]. destruct l; [destruct i; reflexivity|].
  cbn [skipn Nat.add nth]. apply IHa.
Qed.
Lemma nth_firstn0 : forall (l : bytes) a i, (i < a)%nat -> nth i (firstn a l) 0 = nth i l 0.
Proof.
  intros l a. revert l. induction a; intros l i H; [lia|]. destruct l; [reflexivity|].
  destruct i; [reflexivity|]. cbn [firstn nth]. apply IHa. lia.
Qed.
Lemma csp_read_spec : forall aes key i, (forall c, length c = 16%nat -> length (aes key c) = 16%nat) ->
  csp_read aes key 40 i = firstn 40 (skipn (40 * i) (ctr_stream (aes key) (str_bytes "IV for <SM2> CTR") (3 * S i))).
Proof.
  intros aes key i L. set (f := fun j => aes key (to_be 16 (value (str_bytes "IV for <SM2> CTR") 0 + Z.of_nat j))).
  assert (Lf : forall j, length (f j) = 16%nat) by (intros; apply L, to_be_length).
  apply (nth_ext _ _ 0 0).
  - unfold csp_read, ctr_stream. rewrite map_length, seq_length, firstn_length, skipn_length.
    fold f. rewrite flat_map_len16 by exact Lf. lia.
  - unfold csp_read at 1. rewrite map_length, seq_length. intros j Hj. unfold csp_read.
    rewrite (nth_indep _ 0 (key_stream aes key (40 * i + 0))) by (rewrite map_length, seq_length; exact Hj).
    rewrite (map_nth (fun j => key_stream aes key (40 * i + j))), seq_nth by exact Hj. cbn [Nat.add].
    rewrite nth_firstn0, nth_skipn0 by exact Hj. unfold ctr_stream. fold f.
    rewrite nth_flat_map16 by (auto; lia). unfold key_stream, f. cbn [Nat.add]. rewrite value_be2z. reflexivity.
Qed.

Section Nonce.
Variable sha512 : bytes -> bytes.
Variable aes : bytes -> bytes -> bytes.
Variable sbm : bytes -> Z * Z.
Variable inv : Z -> Z.
Hypothesis sha_len : forall m, length (sha512 m) = 64%nat.
Hypothesis aes_len : forall key c, length c = 16%nat -> length (aes key c) = 16%nat.
Notation x := (fun k => fst (sbm (big_bytes k))).

Lemma inv_cancel : forall D a, invertible inv D -> ((a * inv (D + 1)) mod N = 0 <-> a mod N = 0).
Proof.
  intros D a I. split; intros H.
  - apply Z.mod_divide in H; [|discriminate]. apply Z.mod_divide; [discriminate|].
    unfold invertible in I. pose proof (Z.div_mod (inv (D + 1) * (D + 1)) N ltac:(discriminate)) as DB. rewrite I in DB.
    replace a with (a * inv (D + 1) * (D + 1) - N * (a * (inv (D + 1) * (D + 1) / N))).
    + apply Z.divide_sub_r; [apply Z.divide_mul_l; exact H|apply Z.divide_factor_l].
    + transitivity (a * (inv (D + 1) * (D + 1) - N * (inv (D + 1) * (D + 1) / N))); [ring|].
      rewrite DB at 1. ring.
  - rewrite <- Z.mul_mod_idemp_l, H by discriminate. reflexivity.
Qed.
(** one iteration against one attempt *)
Lemma attempt_ok : forall D e k r s, invertible inv D -> 1 <= k <= N - 2 ->
  (attempt x N D e k (Some (r, s)) <-> good_k sbm inv D e k r s).
Proof.
  intros D e k r s I Hk. split.
  - intros A. inversion A as [r0 s0 Hr Hr0 Hrk Hs Heq|]. subst r0 s0. rewrite (Z.add_comm e) in Hr.
    split; [exact Hk|]. split; [exact Hr|]. split; [assumption|]. split; [assumption|]. split; [|lia].
    rewrite <- (Z.mod_small s N) by lia.
    replace ((k - D * r) * inv (D + 1)) with ((k - r * D) * inv (D + 1)) by ring.
    rewrite <- (Z.mul_mod_idemp_l (k - r * D)) by discriminate. rewrite <- Heq, Z.mul_mod_idemp_l by discriminate.
    replace (s * (1 + D) * inv (D + 1)) with (s * (inv (D + 1) * (D + 1))) by ring.
    rewrite <- Z.mul_mod_idemp_r, I, Z.mul_1_r by discriminate. reflexivity.
  - intros G. pose proof (sign_eq sbm inv _ _ _ _ _ I G) as [q EQ]. destruct G as (_ & Hr & Hr0 & Hrk & Hs & Hs0).
    apply at_ok; try assumption; [rewrite Z.add_comm; exact Hr| |].
    + pose proof (Z.mod_pos_bound ((k - D * r) * inv (D + 1)) N ltac:(reflexivity)). rewrite <- Hs in H. lia.
    + replace (s * (1 + D)) with (k - r * D + q * N) by lia. apply Z.mod_add. discriminate.
Qed.
Lemma sign_loop_first : forall fuel draw i pk e r s, invertible inv (be2z pk) ->
  let k j := randFieldElement SM2P256V1 (draw j) in
  (sign_loop sbm inv fuel SM2P256V1 draw i pk e = Val (r, s) <->
   exists j, (i <= j < i + fuel)%nat /\ attempt x N (be2z pk) e (k j) (Some (r, s)) /\
     forall j', (i <= j' < j)%nat -> attempt x N (be2z pk) e (k j') None).
Proof.
  intros fuel draw i pk e r s I k. revert i. induction fuel as [|fuel IH]; intros i.
  - split; [discriminate|]. intros (j & H & _). lia.
  - cbn [sign_loop]. fold (k i). set (r0 := (fst (sbm (big_bytes (k i))) + e) mod N).
    set (s0 := ((k i - be2z pk * r0) * inv (be2z pk + 1)) mod N).
    assert (Rk : 1 <= k i <= N - 2) by apply nonce_range.
    assert (NO : r0 = 0 \/ r0 + k i = N \/ s0 = 0 -> attempt x N (be2z pk) e (k i) None).
    { intros H. apply (at_retry _ _ _ _ _ r0); [unfold r0; rewrite Z.add_comm; reflexivity|].
      destruct H as [H|[H|H]]; [left; exact H|right; left; exact H|right; right].
      unfold s0 in H. apply inv_cancel in H; [|exact I]. rewrite <- H. f_equal. ring. }
    assert (YES : r0 <> 0 -> r0 + k i <> N -> s0 <> 0 -> attempt x N (be2z pk) e (k i) (Some (r0, s0))).
    { intros A B C. apply attempt_ok; [exact I|exact Rk|]. split; [exact Rk|]. repeat split; try assumption; reflexivity. }
    assert (SK : attempt x N (be2z pk) e (k i) None ->
      (sign_loop sbm inv fuel SM2P256V1 draw (S i) pk e = Val (r, s) <->
       exists j, (i <= j < i + S fuel)%nat /\ attempt x N (be2z pk) e (k j) (Some (r, s)) /\
         forall j', (i <= j' < j)%nat -> attempt x N (be2z pk) e (k j') None)).
    { intros A. rewrite IH. split; intros (j & H1 & H2 & H3).
      - exists j. split; [lia|]. split; [exact H2|]. intros j' Hj'. destruct (Nat.eq_dec j' i) as [->|]; [exact A|apply H3; lia].
      - destruct (Nat.eq_dec j i) as [->|Ne].
        + exfalso. apply attempt_ok in H2; [|exact I|exact Rk]. destruct H2 as (_ & A1 & A2 & A3 & A4 & A5).
          inversion A as [|rr E1 E2]; subst rr. rewrite Z.add_comm, <- A1 in E2. destruct E2 as [E2|[E2|E2]]; try contradiction.
          apply A5. rewrite A4. apply inv_cancel; [exact I|]. rewrite <- E2. f_equal. ring.
        + exists j. split; [lia|]. split; [exact H2|]. intros j' Hj'. apply H3. lia. }
    destruct (Z.eqb_spec r0 0) as [E|E]; [apply SK, NO; auto|]. cbn [negb andb].
    destruct (Z.eqb_spec (r0 + k i) N) as [E'|E']; [apply SK, NO; auto|]. cbn [negb andb].
    destruct (Z.eqb_spec s0 0) as [E''|E'']; [apply SK, NO; auto|]. cbn [negb]. split.
    + intros H. assert (r0 = r /\ s0 = s) as [<- <-] by (split; congruence). exists i. split; [lia|].
      split; [apply YES; assumption|]. intros j' Hj'. lia.
    + intros (j & H1 & H2 & H3). destruct (Nat.eq_dec j i) as [->|Ne].
      * apply attempt_ok in H2; [|exact I|exact Rk]. destruct H2 as (_ & A1 & _ & _ & A4 & _). fold r0 in A1. subst r.
        fold s0 in A4. subst s. reflexivity.
      * exfalso. specialize (H3 i ltac:(lia)). pose proof (YES E E' E'') as Y.
        inversion H3 as [|rr E1 E2]; subst rr. rewrite Z.add_comm in E2. fold r0 in E2.
        destruct E2 as [E2|[E2|E2]]; try contradiction. apply E''. unfold s0. apply inv_cancel; [exact I|].
        rewrite <- E2. f_equal. ring.
Qed.

Theorem C65_nonces : forall fuel ent D k id msg hasher xb yb db r s, inputs_ok k id msg hasher -> 0 <= D -> invertible inv D ->
  minimal (pk_X k) xb -> minimal (pk_Y k) yb -> minimal D db ->
  let digest := sm3_hash (sm3_hash (za_input (effective_id id) xb yb) ++ msg) in
  let key := firstn 32 (sha512 (db ++ ent ++ digest)) in
  let try_ i := attempt x N D (value digest 0) (nonce N (aes key) i) in
  (Sign sha512 aes sbm inv fuel (Ok ent) D k id msg hasher = Val (Ok (r, s)) <->
   exists i, (i < fuel)%nat /\ try_ i (Some (r, s)) /\ forall j, (j < i)%nat -> try_ j None).
Proof.
  intros fuel ent D k id msg hasher xb yb db r s I HD HI Hx Hy Hd digest key try_.
  assert (I2 := I). destruct I2 as (Hc & HC & Hh & Oi & Om & Li & Lm).
  apply minimal_big_bytes in Hx; [|apply HC]. apply minimal_big_bytes in Hy; [|apply HC].
  apply minimal_big_bytes in Hd; [|exact HD]. subst xb yb db.
  destruct (getZ_ok k id msg hasher Hc HC Hh Oi Li) as (h & Hh' & E1).
  unfold Sign. rewrite E1. cbn [bind].
  pose proof (sm3_hash_shape (za_input (effective_id id) (big_bytes (pk_X k)) (big_bytes (pk_Y k)))) as [L W].
  rewrite hash_msg_ok; [|exact Hh'|apply Forall_app; split; assumption|].
  2:{ unfold zlen in *. rewrite app_length, L. change (2 ^ 61) with (2 * 2 ^ 60). assert (2 ^ 60 > 1000) by reflexivity. lia. }
  cbn [bind]. fold digest.
  rewrite slice_ok by (unfold zlen; replace (length (sha512 (big_bytes D ++ ent ++ digest))) with 64%nat by (symmetry; apply sha_len); lia). cbn [bind].
  change (skipn (Z.to_nat 0) (sha512 (big_bytes D ++ ent ++ digest))) with (sha512 (big_bytes D ++ ent ++ digest)).
  change (Z.to_nat (32 - 0)) with 32%nat. fold key.
  rewrite Hc. change (N =? 0) with false. cbv iota. change (Z.to_nat (c_bits SM2P256V1 / 8 + 8)) with 40%nat.
  pose proof (sign_loop_first fuel (csp_read aes key 40) 0 (big_bytes D) (be2z digest) r s) as F.
  rewrite be2z_big_bytes in F by exact HD. specialize (F HI). cbv zeta in F.
  assert (K : forall j, randFieldElement SM2P256V1 (csp_read aes key 40 j) = nonce N (aes key) j).
  { intros j. unfold randFieldElement, nonce. rewrite csp_read_spec by apply aes_len. rewrite value_be2z. reflexivity. }
  unfold try_. rewrite value_be2z. split.
  - intros B. apply bind_val in B as (rs & B1 & B2). assert (rs = (r, s)) by congruence. subst rs.
    apply F in B1. destruct B1 as (j & J1 & J2 & J3). exists j. split; [lia|]. rewrite K in J2. split; [exact J2|].
    intros j' Hj'. rewrite <- K. apply J3. lia.
  - intros (j & J1 & J2 & J3).
    assert (B : sign_loop sbm inv fuel SM2P256V1 (csp_read aes key 40) 0 (big_bytes D) (be2z digest) = Val (r, s)).
    { apply F. exists j. split; [lia|]. rewrite K. split; [exact J2|]. intros j' Hj'. rewrite K. apply J3. lia. }
    rewrite B. reflexivity.
Qed.
End Nonce.
Print Assumptions C65_nonces.
(** the hypotheses hold for the signature of C42_example, which uses the first nonce *)
Example C65_example : exists r s, attempt (fun k => fst (toy_sbm (big_bytes k))) N 2
   (value (sm3_hash (sm3_hash (za_input toy_id (big_bytes (pk_X (toy_key 2))) (big_bytes (pk_Y (toy_key 2)))) ++ toy_msg)) 0)
   (nonce N (toy_aes (repeat 7 32)) 0) (Some (r, s)).
Proof.
  destruct C42_example as (r & s & E). exists r, s.
  pose proof (C65_nonces toy_sha toy_aes toy_sbm toy_inv (fun _ => eq_refl) (fun _ c H => H)
    1 (repeat 5 16) 2 (toy_key 2) toy_id toy_msg used_hasher (big_bytes (pk_X (toy_key 2))) (big_bytes (pk_Y (toy_key 2)))
    (big_bytes 2) r s (toy_inputs 2) ltac:(lia) toy_invertible) as T. cbv zeta in T.
  change (firstn 32 (toy_sha (big_bytes 2 ++ repeat 5 16 ++ sm3_hash (sm3_hash (za_input (effective_id toy_id)
    (big_bytes (pk_X (toy_key 2))) (big_bytes (pk_Y (toy_key 2)))) ++ toy_msg)))) with (repeat 7 32) in T.
  change (effective_id toy_id) with toy_id in T.
  specialize (T (proj2 (minimal_big_bytes (pk_X (toy_key 2)) _ ltac:(discriminate)) eq_refl)
    (proj2 (minimal_big_bytes (pk_Y (toy_key 2)) _ ltac:(discriminate)) eq_refl)
    (proj2 (minimal_big_bytes 2 _ ltac:(discriminate)) eq_refl)).
  apply (proj1 T) in E. destruct E as (i & Hi & A & _). assert (Z : (i = 0)%nat) by lia. rewrite Z in A. exact A.
Qed.
