(** * AESFacts: CBC wrapper facts; the FIPS 197 cipher is invertible *)
From Coq Require Import ZArith String List Bool Lia.
From Verif Require Import Base BaseFacts AES Spec_AES SM4Facts.
Import ListNotations.
Open Scope Z_scope.

(** ** a lawful block cipher *)
Definition bc_shape (bc : block_cipher) : Prop :=
  forall key b, key_size (length key) -> byte_string key -> length b = 16%nat -> byte_string b ->
    (length (bc_enc bc key b) = 16%nat /\ byte_string (bc_enc bc key b)) /\
    (length (bc_dec bc key b) = 16%nat /\ byte_string (bc_dec bc key b)).
Definition bc_inverse (bc : block_cipher) : Prop :=
  forall key b, key_size (length key) -> byte_string key -> length b = 16%nat -> byte_string b ->
    bc_dec bc key (bc_enc bc key b) = b.

(** ** padding *)
Lemma padding_val : forall src bs, 0 < bs ->
  PKCS5Padding src bs = Val (src ++ repeat (u8 (bs - zlen src mod bs)) (Z.to_nat (bs - zlen src mod bs))).
Proof.
  intros src bs H. unfold PKCS5Padding.
  replace (bs =? 0) with false by (symmetry; apply Z.eqb_neq; lia).
  rewrite Z.rem_mod_nonneg by (auto using zlen_nonneg).
  pose proof (Z.mod_pos_bound (zlen src) bs H).
  replace (bs - zlen src mod bs <? 0) with false by (symmetry; apply Z.ltb_ge; lia).
  reflexivity.
Qed.

Lemma padding_multiple : forall (src : bytes) bs x, 0 < bs ->
  zlen (src ++ repeat x (Z.to_nat (bs - zlen src mod bs))) = (zlen src / bs + 1) * bs.
Proof.
  intros src bs x H. rewrite zlen_app, zlen_repeat.
  pose proof (Z.mod_pos_bound (zlen src) bs H). rewrite Z2Nat.id by lia.
  pose proof (Z.div_mod (zlen src) bs ltac:(lia)). lia.
Qed.

Lemma unpadding_val : forall src b, is_byte b ->
  PKCS5UnPadding (src ++ [b]) =
  if b >? zlen src + 1 then Val (Err "unpadding error: invalid paddding length")
  else Val (Ok (firstn (Z.to_nat (zlen src + 1 - b)) (src ++ [b]))).
Proof.
  unfold is_byte; intros src b Hb. unfold PKCS5UnPadding. rewrite zlen_app. change (zlen [b]) with 1.
  pose proof (zlen_nonneg _ src).
  assert (I : index (src ++ [b]) (zlen src + 1 - 1) = Val b).
  { unfold index. rewrite zlen_app. change (zlen [b]) with 1.
    replace ((0 <=? zlen src + 1 - 1) && (zlen src + 1 - 1 <? zlen src + 1)) with true
      by (symmetry; apply andb_true_iff; split; [apply Z.leb_le|apply Z.ltb_lt]; lia).
    rewrite nth_error_app2 by (unfold zlen; lia).
    replace (Z.to_nat (zlen src + 1 - 1) - length src)%nat with 0%nat by (unfold zlen; lia). reflexivity. }
  rewrite I. cbn [bind]. rewrite Z.gtb_ltb.
  destruct (Z.ltb_spec (zlen src + 1) b) as [C|C]; [reflexivity|].
  rewrite slice_ok; rewrite ?zlen_app; try change (zlen [b]) with 1; try lia.
  cbn [bind]. rewrite Z.sub_0_r. reflexivity.
Qed.

Lemma unpad_pad : forall src bs, 0 < bs < 256 -> exists q, PKCS5Padding src bs = Val q /\
   PKCS5UnPadding q = Val (Ok src).
Proof.
  intros src bs H. rewrite padding_val by lia. eexists; split; [reflexivity|].
  pose proof (Z.mod_pos_bound (zlen src) bs ltac:(lia)).
  set (k := bs - zlen src mod bs) in *.
  assert (Hu : u8 k = k) by (unfold u8; apply Z.mod_small; lia). rewrite Hu.
  replace (Z.to_nat k) with (Z.to_nat (k - 1) + 1)%nat by lia.
  rewrite repeat_app. rewrite app_assoc. cbn [repeat].
  rewrite unpadding_val by (unfold is_byte; lia).
  rewrite zlen_app, zlen_repeat, Z2Nat.id by lia. pose proof (zlen_nonneg _ src).
  rewrite Z.gtb_ltb.
  destruct (Z.ltb_spec (zlen src + (k - 1) + 1) k) as [C|C]; [lia|].
  do 2 f_equal. rewrite <- app_assoc. apply firstn_app_l. unfold zlen. lia.
Qed.

(** ** CBC *)
Lemma xor_block_eq : forall a b, xor_block a b = xor_bytes a b.
Proof. reflexivity. Qed.

Lemma cbc_encrypt_length : forall E n prev src,
  (forall b, length b = 16%nat -> byte_string b -> length (E b) = 16%nat /\ byte_string (E b)) ->
  length src = (16 * n)%nat -> byte_string src -> length prev = 16%nat -> byte_string prev ->
  length (cbc_encrypt E n prev src) = (16 * n)%nat /\ byte_string (cbc_encrypt E n prev src).
Proof.
  intros E. induction n as [|n IH]; intros prev src HE Hl Hw Hp Hwp.
  - split; [reflexivity|constructor].
  - cbn [cbc_encrypt].
    assert (Hx : length (xor_bytes (firstn 16 src) prev) = 16%nat)
      by (rewrite xor_bytes_length, firstn_length; lia).
    assert (Hwx : byte_string (xor_bytes (firstn 16 src) prev))
      by (apply xor_bytes_wf; auto; apply wf_firstn; auto).
    destruct (HE _ Hx Hwx) as [H1 H2].
    destruct (IH (E (xor_bytes (firstn 16 src) prev)) (skipn 16 src) HE) as [H3 H4]; auto.
    { rewrite skipn_length. lia. } { apply wf_skipn; auto. }
    split. rewrite app_length. lia. apply wf_app; split; auto.
Qed.

Lemma cbc_decrypt_length : forall D n prev src,
  (forall b, length b = 16%nat -> byte_string b -> length (D b) = 16%nat /\ byte_string (D b)) ->
  length src = (16 * n)%nat -> byte_string src -> length prev = 16%nat -> byte_string prev ->
  length (cbc_decrypt D n prev src) = (16 * n)%nat /\ byte_string (cbc_decrypt D n prev src).
Proof.
  intros D. induction n as [|n IH]; intros prev src HD Hl Hw Hp Hwp.
  - split; [reflexivity|constructor].
  - cbn [cbc_decrypt].
    assert (Hf : length (firstn 16 src) = 16%nat) by (rewrite firstn_length; lia).
    assert (Hwf : byte_string (firstn 16 src)) by (apply wf_firstn; auto).
    destruct (HD _ Hf Hwf) as [H1 H2].
    destruct (IH (firstn 16 src) (skipn 16 src) HD) as [H3 H4]; auto.
    { rewrite skipn_length. lia. } { apply wf_skipn; auto. }
    split. rewrite app_length, xor_bytes_length. lia.
    apply wf_app; split; auto. apply xor_bytes_wf; auto.
Qed.

Lemma cbc_inverse : forall E D n prev src,
  (forall b, length b = 16%nat -> byte_string b ->
     length (E b) = 16%nat /\ byte_string (E b) /\ D (E b) = b) ->
  length src = (16 * n)%nat -> byte_string src -> length prev = 16%nat -> byte_string prev ->
  cbc_decrypt D n prev (cbc_encrypt E n prev src) = src.
Proof.
  intros E D. induction n as [|n IH]; intros prev src HE Hl Hw Hp Hwp.
  - destruct src; [reflexivity|discriminate].
  - cbn [cbc_decrypt cbc_encrypt].
    assert (Hx : length (xor_bytes (firstn 16 src) prev) = 16%nat)
      by (rewrite xor_bytes_length, firstn_length; lia).
    assert (Hwx : byte_string (xor_bytes (firstn 16 src) prev))
      by (apply xor_bytes_wf; auto; apply wf_firstn; auto).
    destruct (HE _ Hx Hwx) as (H1 & H2 & H3).
    rewrite firstn_app_l, skipn_app_l by auto. rewrite H3, IH; auto.
    + rewrite xor_bytes_invol. apply firstn_skipn. rewrite firstn_length; lia.
    + rewrite skipn_length. lia.
    + apply wf_skipn; auto.
Qed.

(** block-wise description *)
Lemma block_0 : forall l, block 0 l = firstn 16 l.
Proof. reflexivity. Qed.
Lemma block_S : forall i a l, length a = 16%nat -> block (S i) (a ++ l) = block i l.
Proof.
  intros. unfold block. replace (16 * S i)%nat with (length a + 16 * i)%nat by lia.
  rewrite skipn_app. rewrite skipn_all2 by lia. cbn [app].
  replace (length a + 16 * i - length a)%nat with (16 * i)%nat by lia. reflexivity.
Qed.
Lemma block_S' : forall i l, block (S i) l = block i (skipn 16 l).
Proof.
  intros. unfold block. rewrite skipn_skipn_add. do 2 f_equal. lia.
Qed.
Lemma block_app_last : forall i a b, (16 * i + 16 <= length a)%nat -> block i (a ++ b) = block i a.
Proof.
  intros. unfold block. rewrite skipn_app, firstn_app.
  replace (16 - length (skipn (16 * i) a))%nat with 0%nat by (rewrite skipn_length; lia).
  cbn [firstn]. apply app_nil_r.
Qed.

Lemma cbc_encrypt_blocks : forall E n prev src,
  (forall b, length b = 16%nat -> byte_string b -> length (E b) = 16%nat /\ byte_string (E b)) ->
  length src = (16 * n)%nat -> byte_string src -> length prev = 16%nat -> byte_string prev ->
  forall i, (16 * i < length src)%nat ->
  block i (cbc_encrypt E n prev src) =
  E (xor_block (block i src) (block i (prev ++ cbc_encrypt E n prev src))).
Proof.
  intros E. induction n as [|n IH]; intros prev src HE Hl Hw Hp Hwp i Hi; [lia|].
  cbn [cbc_encrypt].
  assert (Hx : length (xor_bytes (firstn 16 src) prev) = 16%nat)
    by (rewrite xor_bytes_length, firstn_length; lia).
  assert (Hwx : byte_string (xor_bytes (firstn 16 src) prev))
    by (apply xor_bytes_wf; auto; apply wf_firstn; auto).
  destruct (HE _ Hx Hwx) as [H1 H2].
  destruct i as [|i].
  - rewrite !block_0. rewrite (firstn_app_l _ prev) by auto. rewrite firstn_app_l by auto. reflexivity.
  - rewrite (block_S i prev) by auto. rewrite (block_S i (E _)) by auto.
    rewrite IH; auto.
    + rewrite (block_S' i src). reflexivity.
    + rewrite skipn_length; lia.
    + apply wf_skipn; auto.
    + rewrite skipn_length; lia.
Qed.

Lemma cbc_decrypt_blocks : forall D n prev src,
  (forall b, length b = 16%nat -> byte_string b -> length (D b) = 16%nat /\ byte_string (D b)) ->
  length src = (16 * n)%nat -> byte_string src -> length prev = 16%nat -> byte_string prev ->
  forall i, (16 * i < length src)%nat ->
  block i (cbc_decrypt D n prev src) = xor_block (D (block i src)) (block i (prev ++ src)).
Proof.
  intros D. induction n as [|n IH]; intros prev src HD Hl Hw Hp Hwp i Hi; [lia|].
  cbn [cbc_decrypt].
  assert (Hf : length (firstn 16 src) = 16%nat) by (rewrite firstn_length; lia).
  assert (Hwf : byte_string (firstn 16 src)) by (apply wf_firstn; auto).
  destruct (HD _ Hf Hwf) as [H1 H2].
  assert (Hx : length (xor_bytes (D (firstn 16 src)) prev) = 16%nat)
    by (rewrite xor_bytes_length; lia).
  destruct i as [|i].
  - rewrite !block_0. rewrite (firstn_app_l _ prev) by auto. rewrite firstn_app_l by auto. reflexivity.
  - rewrite (block_S i prev) by auto. rewrite block_S by auto.
    rewrite IH; auto.
    + rewrite firstn_skipn, (block_S' i src). reflexivity.
    + rewrite skipn_length; lia.
    + apply wf_skipn; auto.
    + rewrite skipn_length; lia.
Qed.

(** ** the two API functions *)
Lemma key_ok_iff : forall key, aes_key_ok key = true <-> key_size (length key).
Proof.
  intros. unfold aes_key_ok, key_size, zlen. rewrite !orb_true_iff, !Z.eqb_eq. lia.
Qed.

Lemma enc_val : forall bc p key iv, key_size (length key) -> length iv = 16%nat ->
  exists q n, PKCS5Padding p 16 = Val q /\ length q = (16 * n)%nat /\ (0 < n)%nat /\
    (byte_string p -> byte_string q) /\
    is_padding_of 16 p q /\
    AesEncrypt bc p key iv = Val (Ok (cbc_encrypt (bc_enc bc key) n iv q)).
Proof.
  intros bc p key iv Hk Hi. unfold AesEncrypt. apply key_ok_iff in Hk. rewrite Hk. cbn [negb].
  unfold aes_block_size.
  rewrite padding_val by lia. cbn [bind].
  pose proof (Z.mod_pos_bound (zlen p) 16 ltac:(lia)) as Hm.
  set (k := 16 - zlen p mod 16) in *.
  assert (Hu : u8 k = k) by (unfold u8; apply Z.mod_small; lia). rewrite Hu.
  assert (Hz : zlen (p ++ repeat k (Z.to_nat k)) = (zlen p / 16 + 1) * 16).
  { apply padding_multiple. lia. }
  set (q := p ++ repeat k (Z.to_nat k)) in *.
  exists q, (Z.to_nat (zlen p / 16 + 1)).
  pose proof (Z.div_pos (zlen p) 16 (zlen_nonneg _ p) ltac:(lia)).
  assert (Hn : length q = (16 * Z.to_nat (zlen p / 16 + 1))%nat).
  { unfold zlen at 1 in Hz. lia. }
  split; [reflexivity|]. split; [auto|]. split; [lia|]. split.
  { intros Hw. apply wf_app. split; auto. apply wf_repeat. unfold is_byte; lia. }
  split.
  { exists (Z.to_nat k). split; [lia|]. split. { unfold q. rewrite Z2Nat.id by lia. reflexivity. }
    exists (Z.to_nat (zlen p / 16 + 1)). lia. }
  replace (zlen iv =? 16) with true by (symmetry; apply Z.eqb_eq; unfold zlen; lia).
  cbn [negb]. rewrite Hz. rewrite Z.rem_mul by lia. cbn [Z.eqb negb].
  unfold nblocks. rewrite Hn, Nat.mul_comm, Nat.div_mul by lia. reflexivity.
Qed.

Lemma dec_val : forall bc ct key iv, key_size (length key) -> length iv = 16%nat ->
  (length ct < 16)%nat \/ ~ Nat.divide 16 (length ct) ->
  exists e, AesDecrypt bc ct key iv = Val (Err e).
Proof.
  intros bc ct key iv Hk Hi Hc. unfold AesDecrypt. apply key_ok_iff in Hk. rewrite Hk. cbn [negb].
  unfold aes_block_size.
  destruct (Z.ltb_spec (zlen ct) 16) as [H|H]; [eauto|].
  destruct Hc as [Hc|Hc]; [unfold zlen in H; lia|].
  rewrite Z.rem_mod_nonneg by (try lia).
  destruct (Z.eqb_spec (zlen ct mod 16) 0) as [E|E]; [|cbn [negb]; eauto].
  exfalso. apply Hc. apply Z.mod_divide in E; [|lia]. destruct E as [z E].
  exists (Z.to_nat z). unfold zlen in *. lia.
Qed.

Lemma dec_val_ok : forall bc ct key iv n, key_size (length key) -> length iv = 16%nat ->
  length ct = (16 * S n)%nat ->
  AesDecrypt bc ct key iv = PKCS5UnPadding (cbc_decrypt (bc_dec bc key) (S n) iv ct).
Proof.
  intros bc ct key iv n Hk Hi Hl. unfold AesDecrypt. apply key_ok_iff in Hk. rewrite Hk. cbn [negb].
  unfold aes_block_size.
  replace (zlen ct <? 16) with false by (symmetry; apply Z.ltb_ge; unfold zlen; lia).
  replace (zlen ct) with (Z.of_nat (S n) * 16) by (unfold zlen; lia).
  rewrite Z.rem_mul by lia. cbn [Z.eqb negb].
  replace (zlen iv =? 16) with true by (symmetry; apply Z.eqb_eq; unfold zlen; lia). cbn [negb].
  unfold nblocks. rewrite Hl, Nat.mul_comm, Nat.div_mul by lia. reflexivity.
Qed.

Lemma key_err : forall bc p key iv, ~ key_size (length key) ->
  AesEncrypt bc p key iv = Val (Err "invalid decrypt key") /\
  AesDecrypt bc p key iv = Val (Err "invalid decrypt key").
Proof.
  intros bc p key iv H. unfold AesEncrypt, AesDecrypt.
  destruct (aes_key_ok key) eqn:E; [apply key_ok_iff in E; contradiction|]. auto.
Qed.

Lemma aes_round_trip : forall bc, bc_shape bc -> bc_inverse bc -> forall p key iv,
  byte_string p -> byte_string key -> byte_string iv ->
  key_size (length key) -> length iv = 16%nat ->
  exists q ct, AesEncrypt bc p key iv = Val (Ok ct) /\
    is_padding_of 16 p q /\ is_cbc_encryption (bc_enc bc key) iv q ct /\
    AesDecrypt bc ct key iv = Val (Ok p).
Proof.
  intros bc Hs Hv p key iv Hp Hk Hi Hkl Hil.
  destruct (enc_val bc p key iv Hkl Hil) as (q & n & H1 & H2 & H3 & H4 & H5 & H6).
  specialize (H4 Hp).
  assert (HE : forall b, length b = 16%nat -> byte_string b ->
     length (bc_enc bc key b) = 16%nat /\ byte_string (bc_enc bc key b)).
  { intros b A B. apply (Hs key b Hkl Hk A B). }
  exists q. eexists. split; [exact H6|]. split; [exact H5|]. split.
  - split.
    + rewrite H2. apply cbc_encrypt_length; auto.
    + apply cbc_encrypt_blocks; auto.
  - destruct n as [|n]; [lia|].
    rewrite (dec_val_ok bc _ key iv n); auto.
    + rewrite (cbc_inverse (bc_enc bc key) (bc_dec bc key)); auto.
      * destruct (unpad_pad p 16 ltac:(lia)) as (q' & A & B). rewrite H1 in A. injection A as <-. exact B.
      * intros b A B. split; [apply HE; auto|]. split; [apply HE; auto|]. apply Hv; auto.
    + apply cbc_encrypt_length; auto.
Qed.

Lemma list_snoc : forall (l : bytes), l <> [] -> exists a b, l = a ++ [b].
Proof. intros l H. destruct (exists_last H) as (a & b & E). eauto. Qed.

(** hostile ciphertexts *)
Lemma aes_decrypt_exact : forall bc, bc_shape bc -> forall ct key iv,
  byte_string ct -> byte_string key -> byte_string iv ->
  key_size (length key) -> length iv = 16%nat ->
  (16 <= length ct)%nat -> Nat.divide 16 (length ct) ->
  exists pl b, is_cbc_decryption (bc_dec bc key) iv ct (pl ++ [b]) /\ 0 <= b < 256 /\
    AesDecrypt bc ct key iv =
      (if (b <=? Z.of_nat (length ct)) then
         Val (Ok (firstn (length ct - Z.to_nat b) (pl ++ [b])))
       else Val (Err "unpadding error: invalid paddding length")).
Proof.
  intros bc Hs ct key iv Hc Hk Hi Hkl Hil Hl [m Hm].
  destruct m as [|m]; [lia|].
  assert (HD : forall b, length b = 16%nat -> byte_string b ->
     length (bc_dec bc key b) = 16%nat /\ byte_string (bc_dec bc key b)).
  { intros b A B. apply (Hs key b Hkl Hk A B). }
  assert (Hlen : length ct = (16 * S m)%nat) by lia.
  rewrite (dec_val_ok bc ct key iv m) by auto.
  destruct (cbc_decrypt_length (bc_dec bc key) (S m) iv ct HD Hlen Hc Hil Hi) as [L1 L2].
  pose proof (cbc_decrypt_blocks (bc_dec bc key) (S m) iv ct HD Hlen Hc Hil Hi) as BL.
  set (P := cbc_decrypt (bc_dec bc key) (S m) iv ct) in *.
  destruct (list_snoc P) as (pl & b & E). { intros E. rewrite E in L1. cbn in L1. lia. }
  rewrite E in *. exists pl, b.
  apply wf_app in L2 as [_ L2]. inversion L2; subst. unfold is_byte in *.
  split. { split; auto. lia. }
  split; [auto|].
  rewrite unpadding_val by auto.
  rewrite app_length in L1. cbn [length] in L1.
  rewrite Z.gtb_ltb, Z.ltb_antisym.
  replace (zlen pl + 1) with (Z.of_nat (length ct)) by (unfold zlen; lia).
  destruct (b <=? Z.of_nat (length ct)) eqn:C; cbn [negb]; auto.
  do 3 f_equal. lia.
Qed.

(** every whole number of blocks with a small last byte is the decryption of something accepted *)
Lemma aes_decrypt_unvalidated : forall bc, bc_shape bc -> bc_inverse bc -> forall pl b key iv,
  byte_string (pl ++ [b]) -> byte_string key -> byte_string iv ->
  key_size (length key) -> length iv = 16%nat ->
  Nat.divide 16 (length (pl ++ [b])) -> b <= Z.of_nat (length (pl ++ [b])) ->
  exists ct, length ct = length (pl ++ [b]) /\ byte_string ct /\
    AesDecrypt bc ct key iv = Val (Ok (firstn (length (pl ++ [b]) - Z.to_nat b) (pl ++ [b]))).
Proof.
  intros bc Hs Hv pl b key iv Hp Hk Hi Hkl Hil [m Hm] Hb.
  rewrite app_length in Hm; cbn [length] in Hm.
  destruct m as [|m]; [lia|].
  assert (HE : forall b, length b = 16%nat -> byte_string b ->
     length (bc_enc bc key b) = 16%nat /\ byte_string (bc_enc bc key b)).
  { intros x A B. apply (Hs key x Hkl Hk A B). }
  assert (Hlen : length (pl ++ [b]) = (16 * S m)%nat) by (rewrite app_length; cbn [length]; lia).
  exists (cbc_encrypt (bc_enc bc key) (S m) iv (pl ++ [b])).
  split. { rewrite Hlen. apply cbc_encrypt_length; auto. }
  split. { apply cbc_encrypt_length; auto. }
  rewrite (dec_val_ok bc _ key iv m); auto.
  - rewrite (cbc_inverse (bc_enc bc key) (bc_dec bc key)); auto.
    + assert (is_byte b) by (apply wf_app in Hp as [_ Hp]; inversion Hp; auto).
      rewrite unpadding_val by auto.
      rewrite Z.gtb_ltb. rewrite app_length in *. cbn [length] in *.
      destruct (Z.ltb_spec (zlen pl + 1) b) as [C|C]; [unfold zlen in C; lia|].
      unfold is_byte in *. do 3 f_equal. unfold zlen. lia.
    + intros x A B. split; [apply HE; auto|]. split; [apply HE; auto|]. apply Hv; auto.
  - apply cbc_encrypt_length; auto.
Qed.

(** a wrong iv length panics once the other checks pass *)
Lemma aes_bad_iv : forall bc p key iv, key_size (length key) -> length iv <> 16%nat ->
  exists w, AesEncrypt bc p key iv = Panic w.
Proof.
  intros bc p key iv Hk Hi. unfold AesEncrypt. apply key_ok_iff in Hk. rewrite Hk. cbn [negb].
  unfold aes_block_size. rewrite padding_val by lia. cbn [bind].
  replace (zlen iv =? 16) with false by (symmetry; apply Z.eqb_neq; unfold zlen; lia).
  cbn [negb]. eauto.
Qed.

(** ** FIPS 197 is invertible *)
Lemma sb_table : forallb (fun i => (isb (sb (Z.of_nat i)) =? Z.of_nat i) && is_byteb (sb (Z.of_nat i))
     && is_byteb (isb (Z.of_nat i))) (seq 0 256) = true.
Proof. vm_compute. reflexivity. Qed.
Lemma sb_ok : forall x, is_byte x -> isb (sb x) = x /\ is_byte (sb x) /\ is_byte (isb x).
Proof.
  intros x Hx. pose proof sb_table as T. rewrite forallb_forall in T.
  unfold is_byte in Hx. specialize (T (Z.to_nat x)). rewrite Z2Nat.id in T by lia.
  assert (In (Z.to_nat x) (seq 0 256)) as I by (apply in_seq; lia). specialize (T I).
  rewrite !andb_true_iff in T. destruct T as [[T1 T2] T3]. apply Z.eqb_eq in T1.
  unfold is_byteb in *. rewrite !andb_true_iff in *.
  rewrite Z.leb_le, Z.ltb_lt in *. unfold is_byte. tauto.
Qed.

Lemma gmul_n_add : forall n c a b, gmul_n n c (Z.lxor a b) = Z.lxor (gmul_n n c a) (gmul_n n c b).
Proof.
  induction n as [|n IH]; intros c a b; [reflexivity|]. cbn [gmul_n].
  replace (Z.lxor a b / 2) with (Z.lxor (a / 2) (b / 2)).
  - rewrite IH.
    assert (O : Z.odd (Z.lxor a b) = xorb (Z.odd a) (Z.odd b)) by (rewrite <- !Z.bit0_odd; apply Z.lxor_spec).
    rewrite O. set (u := gmul_n n (xtime c) (a / 2)). set (v := gmul_n n (xtime c) (b / 2)).
    apply Z.bits_inj'. intros i _. rewrite !Z.lxor_spec.
    destruct (Z.odd a), (Z.odd b); cbn [xorb]; rewrite ?Z.testbit_0_l;
      destruct (Z.testbit u i), (Z.testbit v i); try destruct (Z.testbit c i); reflexivity.
  - rewrite <- !(Z.shiftr_div_pow2 _ 1) by lia. symmetry. apply Z.shiftr_lxor.
Qed.
Lemma gmul_add : forall c a b, gmul c (Z.lxor a b) = Z.lxor (gmul c a) (gmul c b).
Proof. intros; apply gmul_n_add. Qed.
Lemma gmul_0 : forall c, gmul c 0 = 0.
Proof. intros. pose proof (gmul_add c 0 0). rewrite Z.lxor_0_l, Z.lxor_nilpotent in H. auto. Qed.

Definition xsum (l : list Z) : Z := fold_right Z.lxor 0 l.
Lemma gmul_xsum : forall c l, gmul c (xsum l) = xsum (map (gmul c) l).
Proof.
  induction l; [apply gmul_0|]. unfold xsum in *. cbn [fold_right map]. rewrite gmul_add, IHl. reflexivity.
Qed.
Lemma xsum_add : forall {A} (f g : A -> Z) l,
  xsum (map (fun x => Z.lxor (f x) (g x)) l) = Z.lxor (xsum (map f l)) (xsum (map g l)).
Proof.
  intros A f g l. unfold xsum. induction l; cbn [map fold_right]; [reflexivity|].
  rewrite IHl. set (u := fold_right Z.lxor 0 (map f l)). set (v := fold_right Z.lxor 0 (map g l)).
  apply Z.bits_inj'. intros i _. rewrite !Z.lxor_spec.
  destruct (Z.testbit (f a) i), (Z.testbit (g a) i), (Z.testbit u i), (Z.testbit v i); reflexivity.
Qed.
Lemma xsum_swap : forall {A B} (f : A -> B -> Z) la lb,
  xsum (map (fun a => xsum (map (f a) lb)) la) = xsum (map (fun b => xsum (map (fun a => f a b) la)) lb).
Proof.
  intros A B f la lb. induction la as [|a la IH].
  - cbn. induction lb; cbn; auto.
  - change (xsum (map (fun a => xsum (map (f a) lb)) (a :: la)))
      with (Z.lxor (xsum (map (f a) lb)) (xsum (map (fun a => xsum (map (f a) lb)) la))).
    rewrite IH, <- xsum_add. reflexivity.
Qed.

(** one column *)
Definition mcoef (m : list Z) (r k : nat) : Z := nth ((k + 4 - r) mod 4) m 0.
Definition col (m : list Z) (s : list Z) : list Z :=
  map (fun r => xsum (map (fun k => gmul (mcoef m r k) (nth k s 0)) (seq 0 4))) (seq 0 4).

Definition M := [2; 3; 1; 1].
Definition MI := [14; 11; 13; 9].
Lemma mix_table : forallb (fun x => forallb (fun r => forallb (fun j =>
   xsum (map (fun k => gmul (mcoef MI r k) (gmul (mcoef M k j) (Z.of_nat x))) (seq 0 4))
     =? (if (r =? j)%nat then Z.of_nat x else 0)) (seq 0 4)) (seq 0 4)) (seq 0 256) = true.
Proof. vm_compute. reflexivity. Qed.
Lemma mix_entry : forall x r j, is_byte x -> (r < 4)%nat -> (j < 4)%nat ->
  xsum (map (fun k => gmul (mcoef MI r k) (gmul (mcoef M k j) x)) (seq 0 4)) = (if (r =? j)%nat then x else 0).
Proof.
  intros x r j Hx Hr Hj. pose proof mix_table as T. rewrite forallb_forall in T.
  unfold is_byte in Hx. specialize (T (Z.to_nat x)). rewrite Z2Nat.id in T by lia.
  assert (In (Z.to_nat x) (seq 0 256)) as I by (apply in_seq; lia). specialize (T I).
  rewrite forallb_forall in T. specialize (T r ltac:(apply in_seq; lia)).
  rewrite forallb_forall in T. specialize (T j ltac:(apply in_seq; lia)).
  apply Z.eqb_eq in T. exact T.
Qed.

Lemma col_nth : forall m s r, (r < 4)%nat ->
  nth r (col m s) 0 = xsum (map (fun k => gmul (mcoef m r k) (nth k s 0)) (seq 0 4)).
Proof. intros m s r H. do 4 (destruct r as [|r]; [reflexivity|]). lia. Qed.

Lemma col_inverse : forall a b c d, is_byte a -> is_byte b -> is_byte c -> is_byte d ->
  col MI (col M [a; b; c; d]) = [a; b; c; d].
Proof.
  intros a b c d Ha Hb Hc Hd.
  set (s := [a; b; c; d]).
  assert (Hs : forall j, (j < 4)%nat -> is_byte (nth j s 0)).
  { intros j Hj. do 4 (destruct j as [|j]; [assumption|]). lia. }
  assert (R : forall r, (r < 4)%nat ->
     xsum (map (fun k => gmul (mcoef MI r k) (nth k (col M s) 0)) (seq 0 4)) = nth r s 0).
  { intros r Hr.
    assert (E : map (fun k => gmul (mcoef MI r k) (nth k (col M s) 0)) (seq 0 4) =
                map (fun k => xsum (map (fun j => gmul (mcoef MI r k) (gmul (mcoef M k j) (nth j s 0))) (seq 0 4))) (seq 0 4)).
    { apply map_ext_in. intros k Hk. apply in_seq in Hk. rewrite col_nth by lia.
      rewrite gmul_xsum, map_map. reflexivity. }
    rewrite E. rewrite xsum_swap.
    assert (E2 : map (fun j => xsum (map (fun k => gmul (mcoef MI r k) (gmul (mcoef M k j) (nth j s 0))) (seq 0 4))) (seq 0 4)
       = map (fun j => if (r =? j)%nat then nth j s 0 else 0) (seq 0 4)).
    { apply map_ext_in. intros j Hj. apply in_seq in Hj. apply mix_entry; auto; try lia. apply Hs; lia. }
    rewrite E2. clear. unfold s.
    do 4 (destruct r as [|r]; [cbn; rewrite ?Z.lxor_0_r; reflexivity|]).
    cbn. destruct r; reflexivity. }
  change (col MI (col M s)) with
    (map (fun r => xsum (map (fun k => gmul (mcoef MI r k) (nth k (col M s) 0)) (seq 0 4))) (seq 0 4)).
  transitivity (map (fun r => nth r s 0) (seq 0 4)); [|reflexivity].
  apply map_ext_in. intros r Hr. apply in_seq in Hr. apply R. lia.
Qed.

Lemma mix_cols : forall m a0 a1 a2 a3 a4 a5 a6 a7 a8 a9 a10 a11 a12 a13 a14 a15,
  mix_with m [a0; a1; a2; a3; a4; a5; a6; a7; a8; a9; a10; a11; a12; a13; a14; a15] =
  col m [a0; a1; a2; a3] ++ col m [a4; a5; a6; a7] ++ col m [a8; a9; a10; a11] ++ col m [a12; a13; a14; a15].
Proof. intros. reflexivity. Qed.

Lemma gmul_n_byte : forall n a b, is_byte a -> is_byte (gmul_n n a b).
Proof.
  induction n as [|n IH]; intros a b Ha; cbn [gmul_n]; [unfold is_byte; lia|].
  apply lxor_byte. destruct (Z.odd b); auto. unfold is_byte; lia.
  apply IH. unfold xtime.
  assert (T : forallb (fun i => let b := 2 * Z.of_nat i in is_byteb (if 256 <=? b then Z.lxor b 0x11B else b)) (seq 0 256) = true)
    by (vm_compute; reflexivity).
  rewrite forallb_forall in T. unfold is_byte in Ha. specialize (T (Z.to_nat a)).
  rewrite Z2Nat.id in T by lia. specialize (T ltac:(apply in_seq; lia)). cbv zeta in *.
  unfold is_byteb in T. apply andb_true_iff in T as [T1 T2].
  apply Z.leb_le in T1. apply Z.ltb_lt in T2. split; auto.
Qed.
Lemma xsum_byte : forall l, Forall is_byte l -> is_byte (xsum l).
Proof.
  induction l; intros H. unfold is_byte; cbn; lia. inversion H; subst. apply lxor_byte; auto.
Qed.
Lemma M_byte : forall m r k, Forall is_byte m -> is_byte (mcoef m r k).
Proof.
  intros m r k Hm. unfold mcoef. generalize ((k + 4 - r) mod 4)%nat as i. intros i.
  destruct (Nat.lt_ge_cases i (length m)).
  - rewrite Forall_forall in Hm. apply Hm, nth_In; auto.
  - rewrite nth_overflow by auto. unfold is_byte; lia.
Qed.
Lemma col_wf : forall m s, Forall is_byte m -> wf_bytes (col m s).
Proof.
  intros m s Hm. unfold col. apply Forall_forall. intros x Hx. apply in_map_iff in Hx as (r & <- & _).
  apply xsum_byte. apply Forall_forall. intros y Hy. apply in_map_iff in Hy as (k & <- & _).
  apply gmul_n_byte. apply M_byte; auto.
Qed.
Lemma col_length : forall m s, length (col m s) = 4%nat.
Proof. reflexivity. Qed.
Lemma M_wf : Forall is_byte M. Proof. unfold M, is_byte; repeat constructor; lia. Qed.
Lemma MI_wf : Forall is_byte MI. Proof. unfold MI, is_byte; repeat constructor; lia. Qed.

Lemma col4 : forall m s, exists a b c d, col m s = [a; b; c; d].
Proof. intros. do 4 eexists. reflexivity. Qed.

Lemma mix_inverse : forall s, length s = 16%nat -> wf_bytes s -> inv_mix_columns (mix_columns s) = s.
Proof.
  intros s Hl Hw. destruct (list16 s Hl) as (a0&a1&a2&a3&a4&a5&a6&a7&a8&a9&a10&a11&a12&a13&a14&a15&->).
  inv_wf. unfold mix_columns, inv_mix_columns.
  change [2; 3; 1; 1] with M. change [14; 11; 13; 9] with MI. rewrite (mix_cols M).
  pose proof (col_inverse a0 a1 a2 a3) as C1. pose proof (col_inverse a4 a5 a6 a7) as C2.
  pose proof (col_inverse a8 a9 a10 a11) as C3. pose proof (col_inverse a12 a13 a14 a15) as C4.
  destruct (col4 M [a0; a1; a2; a3]) as (b0 & b1 & b2 & b3 & E1). rewrite E1 in *.
  destruct (col4 M [a4; a5; a6; a7]) as (b4 & b5 & b6 & b7 & E2). rewrite E2 in *.
  destruct (col4 M [a8; a9; a10; a11]) as (b8 & b9 & b10 & b11 & E3). rewrite E3 in *.
  destruct (col4 M [a12; a13; a14; a15]) as (b12 & b13 & b14 & b15 & E4). rewrite E4 in *.
  cbn [app]. rewrite mix_cols. rewrite C1, C2, C3, C4 by assumption. reflexivity.
Qed.
Lemma mix_shape : forall m s, Forall is_byte m -> length s = 16%nat ->
  length (mix_with m s) = 16%nat /\ wf_bytes (mix_with m s).
Proof.
  intros m s Hm Hl. destruct (list16 s Hl) as (a0&a1&a2&a3&a4&a5&a6&a7&a8&a9&a10&a11&a12&a13&a14&a15&->).
  rewrite mix_cols. split. rewrite !app_length, !col_length; reflexivity.
  repeat (apply wf_app; split); apply col_wf; auto.
Qed.

Lemma shift_inverse : forall s, length s = 16%nat -> inv_shift_rows (shift_rows s) = s.
Proof.
  intros s Hl. destruct (list16 s Hl) as (a0&a1&a2&a3&a4&a5&a6&a7&a8&a9&a10&a11&a12&a13&a14&a15&->).
  reflexivity.
Qed.
Lemma shift_shape : forall s, length s = 16%nat -> wf_bytes s ->
  length (shift_rows s) = 16%nat /\ wf_bytes (shift_rows s).
Proof.
  intros s Hl Hw. split; [reflexivity|].
  destruct (list16 s Hl) as (a0&a1&a2&a3&a4&a5&a6&a7&a8&a9&a10&a11&a12&a13&a14&a15&->).
  inv_wf. cbn. repeat (apply Forall_cons; [assumption|]). apply Forall_nil.
Qed.
Lemma ishift_shape : forall s, length s = 16%nat -> wf_bytes s ->
  length (inv_shift_rows s) = 16%nat /\ wf_bytes (inv_shift_rows s).
Proof.
  intros s Hl Hw. split; [reflexivity|].
  destruct (list16 s Hl) as (a0&a1&a2&a3&a4&a5&a6&a7&a8&a9&a10&a11&a12&a13&a14&a15&->).
  inv_wf. cbn. repeat (apply Forall_cons; [assumption|]). apply Forall_nil.
Qed.
Lemma map_sb : forall s, wf_bytes s -> map isb (map sb s) = s /\ wf_bytes (map sb s) /\ wf_bytes (map isb s).
Proof.
  induction s as [|x s IH]; intros H. repeat split; constructor. inversion H; subst.
  destruct (IH H3) as (A & B & C). destruct (sb_ok x H2) as (D & E & F).
  cbn [map]. split; [congruence|]. split; constructor; auto.
Qed.

Definition st (s : list Z) : Prop := length s = 16%nat /\ wf_bytes s.
Lemma st_xor : forall a b, st a -> st b -> st (xor_block a b).
Proof.
  intros a b [A1 A2] [B1 B2]. split. change xor_block with xor_bytes. rewrite xor_bytes_length; lia.
  apply xor_bytes_wf; auto.
Qed.
Lemma xor_block_invol : forall a b, st a -> st b -> xor_block (xor_block a b) b = a.
Proof. intros a b [A1 A2] [B1 B2]. apply xor_bytes_invol. lia. Qed.
Lemma st_sb : forall s, st s -> st (map sb s).
Proof. intros s [A B]. split. rewrite map_length; auto. apply map_sb; auto. Qed.
Lemma st_isb : forall s, st s -> st (map isb s).
Proof. intros s [A B]. split. rewrite map_length; auto. apply map_sb; auto. Qed.

Lemma enc_round_st : forall s k, st s -> st k -> st (enc_round s k).
Proof.
  intros s k Hs Hk. unfold enc_round. apply st_xor; auto.
  apply st_sb in Hs. destruct Hs. apply mix_shape. apply M_wf. apply shift_shape; auto.
Qed.
Lemma dec_enc_round : forall s k, st s -> st k -> dec_round (enc_round s k) k = s.
Proof.
  intros s k Hs Hk. unfold dec_round, enc_round.
  assert (S1 := st_sb s Hs). destruct S1 as [S1 S1'].
  destruct (shift_shape _ S1 S1') as [S2 S2'].
  assert (S3 : st (mix_columns (shift_rows (map sb s)))) by (apply mix_shape; auto; apply M_wf).
  rewrite xor_block_invol by auto. rewrite mix_inverse by auto. rewrite shift_inverse by auto.
  apply map_sb. apply Hs.
Qed.
Lemma enc_final_st : forall s k, st s -> st k -> st (enc_final s k).
Proof.
  intros s k Hs Hk. unfold enc_final. apply st_xor; auto.
  apply st_sb in Hs. destruct Hs. apply shift_shape; auto.
Qed.
Lemma dec_enc_final : forall s k, st s -> st k -> dec_final (enc_final s k) k = s.
Proof.
  intros s k Hs Hk. unfold dec_final, enc_final.
  assert (S1 := st_sb s Hs). destruct S1 as [S1 S1'].
  destruct (shift_shape _ S1 S1') as [S2 S2'].
  rewrite xor_block_invol by (auto; split; auto). rewrite shift_inverse by auto.
  apply map_sb. apply Hs.
Qed.
Lemma dec_final_st : forall s k, st s -> st k -> st (dec_final s k).
Proof.
  intros s k Hs Hk. unfold dec_final. apply st_isb. destruct (st_xor _ _ Hs Hk). apply ishift_shape; auto.
Qed.
Lemma dec_round_st : forall s k, st s -> st k -> st (dec_round s k).
Proof.
  intros s k Hs Hk. unfold dec_round. apply st_isb. destruct (st_xor _ _ Hs Hk).
  apply ishift_shape; apply mix_shape; auto using MI_wf.
Qed.
Lemma enc_fold_st : forall ks s, Forall st ks -> st s -> st (fold_left enc_round ks s).
Proof. induction ks; cbn [fold_left]; intros s H Hs; auto. inversion H; subst. apply IHks; auto. apply enc_round_st; auto. Qed.
Lemma dec_fold_st : forall ks s, Forall st ks -> st s -> st (fold_left dec_round ks s).
Proof. induction ks; cbn [fold_left]; intros s H Hs; auto. inversion H; subst. apply IHks; auto. apply dec_round_st; auto. Qed.
Lemma dec_enc_fold : forall ks s, Forall st ks -> st s ->
  fold_left dec_round (rev ks) (fold_left enc_round ks s) = s.
Proof.
  induction ks as [|k ks IH]; intros s H Hs; [reflexivity|]. inversion H; subst.
  cbn [fold_left rev]. rewrite fold_left_app. cbn [fold_left].
  rewrite IH by (auto; apply enc_round_st; auto). apply dec_enc_round; auto.
Qed.

(** key expansion yields 16-byte round keys *)
Definition wd (w : list Z) : Prop := length w = 4%nat /\ wf_bytes w.
Lemma wd_xor : forall a b, wd a -> wd b -> wd (xor_block a b).
Proof.
  intros a b [A1 A2] [B1 B2]. split. change xor_block with xor_bytes. rewrite xor_bytes_length; lia.
  apply xor_bytes_wf; auto.
Qed.
Lemma rcon_byte : forall i, is_byte (rcon i).
Proof.
  destruct i as [|i]; [cbn; unfold is_byte; lia|].
  induction i as [|i IH]; [cbn; unfold is_byte; lia|].
  change (rcon (S (S i))) with (xtime (rcon (S i))).
  assert (E : xtime (rcon (S i)) = gmul_n 2 (rcon (S i)) 2).
  { cbn [gmul_n]. change (Z.odd 2) with false. change (2 / 2) with 1. change (Z.odd 1) with true.
    cbn. rewrite Z.lxor_0_r. reflexivity. }
  rewrite E. apply gmul_n_byte; auto.
Qed.
Lemma next_word_wd : forall nk ws i, (0 < nk)%nat -> Forall wd ws -> length ws = i -> (nk <= i)%nat ->
  wd (next_word nk ws i).
Proof.
  intros nk ws i Hnk H Hl Hn. unfold next_word.
  assert (N : forall j, (j < i)%nat -> wd (nth j ws [])).
  { intros j Hj. rewrite Forall_forall in H. apply H. apply nth_In. lia. }
  assert (T : wd (nth (i - 1) ws [])) by (apply N; lia).
  assert (SW : forall w, wd w -> wd (sub_word w)).
  { intros w [A B]. split. unfold sub_word; rewrite map_length; auto. apply map_sb; auto. }
  assert (RW : forall w, wd w -> wd (rot_word w)).
  { intros w [A B]. destruct w as [|a w]; [discriminate|]. inversion B; subst. split; unfold rot_word.
    rewrite app_length; cbn in *; lia. apply wf_app; split; auto. repeat constructor; auto. apply H2. apply H2. }
  apply wd_xor; [apply N; lia|].
  destruct (i mod nk =? 0)%nat.
  - apply wd_xor; auto. split; [reflexivity|]. pose proof (rcon_byte (i / nk)).
    repeat constructor; try apply H0; unfold is_byte in *; lia.
  - destruct ((6 <? nk)%nat && (i mod nk =? 4)%nat); auto.
Qed.
Lemma expand_wd : forall nk n start ws, (0 < nk)%nat -> Forall wd ws -> length ws = start -> (nk <= start)%nat ->
  Forall wd (fold_left (fun ws i => ws ++ [next_word nk ws i]) (seq start n) ws) /\
  length (fold_left (fun ws i => ws ++ [next_word nk ws i]) (seq start n) ws) = (start + n)%nat.
Proof.
  intros nk n. induction n as [|n IH]; intros start ws Hnk H Hl Hn; cbn [seq fold_left].
  - split; auto. rewrite Nat.add_0_r; exact Hl.
  - replace (start + S n)%nat with (S start + n)%nat by lia. apply IH; auto.
    + apply Forall_app; split; auto. repeat constructor; apply next_word_wd; auto.
    + rewrite app_length. cbn [length]. rewrite Nat.add_1_r. f_equal. exact Hl.
Qed.
Lemma key_words_wd : forall n l, length l = (4 * n)%nat -> wf_bytes l ->
  Forall wd (key_words n l) /\ length (key_words n l) = n.
Proof.
  induction n as [|n IH]; intros l Hl Hw; cbn [key_words]; [split; auto|].
  destruct (IH (skipn 4 l)) as [A B]. rewrite skipn_length; lia. apply wf_skipn; auto.
  split; [|cbn [length]; f_equal; exact B]. constructor; auto. split. rewrite firstn_length; lia. apply wf_firstn; auto.
Qed.
Lemma round_keys_st : forall key, key_size (length key) -> wf_bytes key ->
  Forall st (round_keys key) /\ (2 <= length (round_keys key))%nat.
Proof.
  intros key Hk Hw. unfold round_keys.
  assert (E : exists nk, (4 <= nk)%nat /\ length key = (4 * nk)%nat).
  { destruct Hk as [H|[H|H]]; rewrite H; [exists 4%nat|exists 6%nat|exists 8%nat]; lia. }
  destruct E as (nk & Hn & E). rewrite E. rewrite (Nat.mul_comm 4 nk), Nat.div_mul by lia.
  destruct (key_words_wd nk key E Hw) as [A B].
  destruct (expand_wd nk (4 * (nk + 6 + 1) - nk) nk (key_words nk key)) as [C D]; auto; try lia.
  set (ws := fold_left _ _ _) in *.
  split.
  - apply Forall_forall. intros x Hx. apply in_map_iff in Hx as (r & <- & Hr). apply in_seq in Hr.
    assert (F : Forall wd (firstn 4 (skipn (4 * r) ws))).
    { rewrite <- (firstn_skipn (4 * r) ws) in C. apply Forall_app in C as [_ C].
      rewrite <- (firstn_skipn 4 (skipn (4 * r) ws)) in C. apply Forall_app in C as [C _]. auto. }
    assert (G : length (firstn 4 (skipn (4 * r) ws)) = 4%nat).
    { rewrite firstn_length, skipn_length. lia. }
    set (q := firstn 4 (skipn (4 * r) ws)) in *. clearbody q.
    do 4 (destruct q as [|? q]; [discriminate|]). destruct q; [|discriminate].
    repeat match goal with H : Forall wd (_ :: _) |- _ => inversion H; subst; clear H end.
    unfold wd in *. split. cbn [concat]. rewrite !app_length. cbn [length]. lia.
    cbn [concat]. repeat (apply wf_app; split); try tauto. constructor.
  - rewrite map_length, seq_length. lia.
Qed.

Lemma removelast_last_st : forall ks, ks <> [] -> Forall st ks -> Forall st (removelast ks) /\ st (last ks []).
Proof.
  intros ks H F. rewrite (app_removelast_last [] H) in F. apply Forall_app in F as [A B].
  inversion B; subst. auto.
Qed.

Lemma aes_lawful : forall key s, key_size (length key) -> wf_bytes key -> st s ->
  st (aes_enc key s) /\ st (aes_dec key s) /\ aes_dec key (aes_enc key s) = s.
Proof.
  intros key s Hk Hw Hs. unfold aes_enc, aes_dec.
  destruct (round_keys_st key Hk Hw) as [A B].
  destruct (round_keys key) as [|k0 ks]; [cbn in B; lia|]. inversion A; subst.
  destruct (removelast_last_st ks) as [C D]; auto. { destruct ks; [cbn in B; lia|discriminate]. }
  assert (X : st (xor_block s k0)) by (apply st_xor; auto).
  assert (Y : st (fold_left enc_round (removelast ks) (xor_block s k0))) by (apply enc_fold_st; auto).
  split; [apply enc_final_st; auto|]. split.
  - apply st_xor; auto. apply dec_fold_st. apply Forall_rev; auto. apply dec_final_st; auto.
  - rewrite dec_enc_final by auto. rewrite dec_enc_fold by auto. apply xor_block_invol; auto.
Qed.

Definition aes_cipher : block_cipher := {| bc_enc := aes_enc; bc_dec := aes_dec |}.
Lemma aes_cipher_shape : bc_shape aes_cipher.
Proof. intros key b Hk Hw Hl Hb. destruct (aes_lawful key b Hk Hw (conj Hl Hb)) as (A & B & _). split; auto. Qed.
Lemma aes_cipher_inverse : bc_inverse aes_cipher.
Proof. intros key b Hk Hw Hl Hb. apply (aes_lawful key b Hk Hw (conj Hl Hb)). Qed.
