(** * EncryptFacts: counter mode and GCM *)
From Coq Require Import ZArith String List Bool Lia.
From Verif Require Import Base BaseFacts Curves AES Spec_AES AESFacts Spec_GCM.
Import ListNotations.
Open Scope Z_scope.

Section Mode.
Variable inc E : bytes -> bytes.
Definition ctr_ok (c : bytes) : Prop := length c = 16%nat /\ wf_bytes c.
Hypothesis inc_ok : forall c, ctr_ok c -> ctr_ok (inc c).
Hypothesis E_ok : forall c, ctr_ok c -> ctr_ok (E c).

Lemma ctr_length : forall n c l, ctr_ok c -> (length l <= 16 * n)%nat -> length (ctr_mode inc E n c l) = length l.
Proof.
  induction n as [|n IH]; intros c l Hc Hl; [destruct l; [reflexivity|cbn in Hl; lia]|].
  cbn [ctr_mode]. rewrite app_length, xor_bytes_length, IH; [|apply inc_ok; exact Hc|rewrite skipn_length; lia].
  destruct (E_ok c Hc) as [L _]. rewrite L, firstn_length, skipn_length. lia.
Qed.
Lemma ctr_wf : forall n c l, ctr_ok c -> wf_bytes l -> wf_bytes (ctr_mode inc E n c l).
Proof.
  induction n as [|n IH]; intros c l Hc Hl; [constructor|].
  cbn [ctr_mode]. apply wf_app. split.
  - apply xor_bytes_wf; [apply wf_firstn; exact Hl|apply E_ok; exact Hc].
  - apply IH; [apply inc_ok; exact Hc|apply wf_skipn; exact Hl].
Qed.
Lemma xor_short_invol : forall a b, (length a <= length b)%nat -> xor_bytes (xor_bytes a b) b = a.
Proof.
  induction a as [|x a IH]; intros [|y b] H; cbn in *; try reflexivity; try lia.
  unfold xor_bytes in *. cbn. rewrite IH by lia. f_equal.
  rewrite Z.lxor_assoc, Z.lxor_nilpotent, Z.lxor_0_r. reflexivity.
Qed.
Lemma ctr_invol : forall n c l, ctr_ok c -> (length l <= 16 * n)%nat ->
  ctr_mode inc E n c (ctr_mode inc E n c l) = l.
Proof.
  induction n as [|n IH]; intros c l Hc Hl; [destruct l; [reflexivity|cbn in Hl; lia]|].
  cbn [ctr_mode]. destruct (E_ok c Hc) as [L _].
  destruct (le_lt_dec 16 (length l)) as [G|G].
  - rewrite firstn_app_l, skipn_app_l.
    + rewrite IH; [|apply inc_ok; exact Hc|rewrite skipn_length; lia].
      rewrite xor_short_invol by (rewrite firstn_length; lia). apply firstn_skipn.
    + rewrite xor_bytes_length, firstn_length; lia.
    + rewrite xor_bytes_length, firstn_length; lia.
  - rewrite (skipn_all2 l) by lia. rewrite (firstn_all2 l) by lia.
    assert (N : forall m c', ctr_ok c' -> ctr_mode inc E m c' [] = []).
    { induction m as [|m IHm]; intros c' Hc'; [reflexivity|]. cbn. rewrite IHm by (apply inc_ok; exact Hc'). reflexivity. }
    rewrite N by (apply inc_ok; exact Hc). rewrite app_nil_r.
    rewrite firstn_all2, skipn_all2 by (rewrite xor_bytes_length; lia).
    rewrite N by (apply inc_ok; exact Hc). rewrite app_nil_r. apply xor_short_invol. lia.
Qed.
End Mode.

Lemma inc32_ok : forall c, ctr_ok c -> ctr_ok (inc32 c).
Proof.
  intros c [L W]. unfold inc32. split.
  - rewrite app_length, firstn_length, to_be_length. lia.
  - apply wf_app. split; [apply wf_firstn; exact W|apply to_be_wf].
Qed.
Lemma inc128_ok : forall c, ctr_ok c -> ctr_ok (inc128 c).
Proof. intros c _. split; [apply to_be_length|apply to_be_wf]. Qed.
Lemma blocks_cover : forall l, (length l <= 16 * blocks l)%nat.
Proof.
  intros l. unfold blocks. pose proof (Nat.div_mod (length l + 15) 16 ltac:(lia)).
  pose proof (Nat.mod_upper_bound (length l + 15) 16 ltac:(lia)). lia.
Qed.
Lemma blocks_length : forall l l' : bytes, length l = length l' -> blocks l = blocks l'.
Proof. intros l l' H. unfold blocks. rewrite H. reflexivity. Qed.

Section GCM.
Variable E : bytes -> bytes.
Hypothesis E_ok : forall c, ctr_ok c -> ctr_ok (E c).
Variable nonce : bytes.
Hypothesis nonce_len : length nonce = 12%nat.
Hypothesis nonce_wf : wf_bytes nonce.
Lemma nonce_ok : forall i, ctr_ok (nonce ++ to_be 4 i).
Proof. intros i. split; [rewrite app_length, to_be_length, nonce_len; reflexivity|]. apply wf_app. split; [exact nonce_wf|apply to_be_wf]. Qed.
Lemma tag_length : forall c ad, length (gcm_tag E nonce c ad) = 16%nat.
Proof.
  intros c ad. unfold gcm_tag. cbv zeta. rewrite xor_bytes_length, to_be_length.
  destruct (E_ok _ (nonce_ok 1)) as [L _]. rewrite L. reflexivity.
Qed.
Lemma tag_wf : forall c ad, wf_bytes (gcm_tag E nonce c ad).
Proof. intros c ad. unfold gcm_tag. cbv zeta. apply xor_bytes_wf; [apply to_be_wf|]. apply E_ok, nonce_ok. Qed.
Lemma seal_wf : forall p ad, wf_bytes p -> wf_bytes (gcm_seal E nonce p ad).
Proof.
  intros p ad H. unfold gcm_seal. cbv zeta. apply wf_app. split; [|apply tag_wf].
  apply ctr_wf; auto using inc32_ok, nonce_ok.
Qed.

Theorem gcm_open_seal : forall p ad, gcm_open E nonce (gcm_seal E nonce p ad) ad = Ok p.
Proof.
  intros p ad. unfold gcm_seal. cbv zeta. set (c := ctr_mode inc32 E (blocks p) (nonce ++ to_be 4 2) p).
  assert (Lc : length c = length p) by (apply ctr_length; auto using inc32_ok, nonce_ok, blocks_cover).
  unfold gcm_open. pose proof (tag_length c ad) as Lt.
  destruct (Z.ltb_spec (zlen (c ++ gcm_tag E nonce c ad)) 16) as [H|_].
  { unfold zlen in H. rewrite app_length, Lt in H. lia. }
  rewrite app_length, Lt. replace (length c + 16 - 16)%nat with (length c) by lia.
  rewrite firstn_app_l, skipn_app_l by reflexivity. rewrite bytes_eqb_refl.
  rewrite (blocks_length c p Lc). unfold c. rewrite ctr_invol; auto using inc32_ok, nonce_ok, blocks_cover.
Qed.
Theorem gcm_open_sound : forall ct ad p, gcm_open E nonce ct ad = Ok p -> ct = gcm_seal E nonce p ad.
Proof.
  intros ct ad p. unfold gcm_open. destruct (Z.ltb_spec (zlen ct) 16) as [|L]; [discriminate|].
  cbv zeta. set (c := firstn (length ct - 16) ct). set (q := ctr_mode inc32 E (blocks c) (nonce ++ to_be 4 2) c).
  destruct (bytes_eqb _ _) eqn:B; [|discriminate].
  intros H. assert (Hq : q = p) by congruence. subst p. apply bytes_eqb_eq in B. unfold gcm_seal. cbv zeta.
  assert (Lq : length q = length c) by (apply ctr_length; auto using inc32_ok, nonce_ok, blocks_cover).
  rewrite (blocks_length q c Lq). unfold q. rewrite ctr_invol; auto using inc32_ok, nonce_ok, blocks_cover.
  rewrite B. symmetry. apply firstn_skipn.
Qed.
Lemma gcm_open_wf : forall ct ad p, wf_bytes ct -> gcm_open E nonce ct ad = Ok p -> wf_bytes p.
Proof.
  intros ct ad p W. unfold gcm_open. destruct (zlen ct <? 16); [discriminate|].
  destruct (bytes_eqb _ _); [|discriminate]. intros H.
  match type of H with Ok ?q = _ => assert (Hq : q = p) by congruence; rewrite <- Hq end.
  apply ctr_wf; auto using inc32_ok, nonce_ok. apply wf_firstn. exact W.
Qed.
End GCM.

(** GCM test cases 13 and 14 (AES-256, all-zero key and nonce) *)
Example gcm_case13 : gcm_seal (aes_enc (repeat 0 32)) (repeat 0 12) [] [] = to_be 16 0x530f8afbc74536b9a963b4f1c4cb738b.
Proof. vm_compute. reflexivity. Qed.
Example gcm_case14 : gcm_seal (aes_enc (repeat 0 32)) (repeat 0 12) (repeat 0 16) [] =
  to_be 32 0xcea7403d4d606b6e074ec5d3baf39d18d0d1c8a799996bf0265b98b5d48ab919.
Proof. vm_compute. reflexivity. Qed.
