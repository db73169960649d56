(** * Prop_AES: properties C07, C08, C09 *)
From Coq Require Import ZArith String List Bool Lia.
From Verif Require Import Base BaseFacts AES Spec_AES AESFacts.
Import ListNotations.
Open Scope Z_scope.

(** C07: encrypt-then-decrypt is the identity, and what is computed is the CBC
    encryption of the padded plaintext; for every block cipher with D(E(b)) = b. *)
Theorem C07_aes_cbc_round_trip : forall bc : block_cipher, bc_shape bc -> bc_inverse bc ->
  forall p key iv : list Z,
  byte_string p -> byte_string key -> byte_string iv ->
  key_size (length key) -> length iv = 16%nat ->
  exists q ct, AesEncrypt bc p key iv = Val (Ok ct) /\
    is_padding_of 16 p q /\ is_cbc_encryption (bc_enc bc key) iv q ct /\
    AesDecrypt bc ct key iv = Val (Ok p).
Proof. exact aes_round_trip. Qed.
Print Assumptions C07_aes_cbc_round_trip.

(** the same with the AES cipher of FIPS 197: no hypothesis on the cipher is left *)
Theorem C07_aes_fips197_round_trip : forall p key iv : list Z,
  byte_string p -> byte_string key -> byte_string iv ->
  key_size (length key) -> length iv = 16%nat ->
  exists q ct, AesEncrypt aes_cipher p key iv = Val (Ok ct) /\
    is_padding_of 16 p q /\ is_cbc_encryption (aes_enc key) iv q ct /\
    AesDecrypt aes_cipher ct key iv = Val (Ok p).
Proof. exact (aes_round_trip aes_cipher aes_cipher_shape aes_cipher_inverse). Qed.
Print Assumptions C07_aes_fips197_round_trip.

Example C07_example :
  let p := [1; 2; 3] in let key := repeat 7 24 in let iv := repeat 9 16 in
  byte_string p /\ byte_string key /\ byte_string iv /\ key_size (length key) /\ length iv = 16%nat /\
  match AesEncrypt aes_cipher p key iv with
  | Val (Ok ct) => length ct = 16%nat /\ ct <> p ++ repeat 13 13 /\ AesDecrypt aes_cipher ct key iv = Val (Ok p)
  | _ => False
  end.
Proof.
  cbv zeta. split; [repeat constructor; lia|]. split; [cbn; repeat constructor; lia|].
  split; [cbn; repeat constructor; lia|]. split; [right; left; reflexivity|]. split; [reflexivity|].
  vm_compute. repeat split; discriminate.
Qed.

(** C08, error cases *)
Theorem C08_aes_decrypt_bad_length : forall (bc : block_cipher) (ct key iv : list Z),
  key_size (length key) -> length iv = 16%nat ->
  (length ct < 16)%nat \/ ~ Nat.divide 16 (length ct) ->
  exists e, AesDecrypt bc ct key iv = Val (Err e).
Proof. exact dec_val. Qed.
Print Assumptions C08_aes_decrypt_bad_length.

Theorem C08_aes_bad_key : forall (bc : block_cipher) (p key iv : list Z), ~ key_size (length key) ->
  AesEncrypt bc p key iv = Val (Err "invalid decrypt key") /\
  AesDecrypt bc p key iv = Val (Err "invalid decrypt key").
Proof. exact key_err. Qed.

(** C08, all other ciphertexts: the last byte of the CBC decryption alone decides *)
Theorem C08_aes_decrypt_exact : forall bc : block_cipher, bc_shape bc -> forall ct key iv : list Z,
  byte_string ct -> byte_string key -> byte_string iv ->
  key_size (length key) -> length iv = 16%nat ->
  (16 <= length ct)%nat -> Nat.divide 16 (length ct) ->
  exists pl b, is_cbc_decryption (bc_dec bc key) iv ct (pl ++ [b]) /\ 0 <= b < 256 /\
    AesDecrypt bc ct key iv =
      (if (b <=? Z.of_nat (length ct)) then
         Val (Ok (firstn (length ct - Z.to_nat b) (pl ++ [b])))
       else Val (Err "unpadding error: invalid paddding length")).
Proof. exact aes_decrypt_exact. Qed.
Print Assumptions C08_aes_decrypt_exact.

Example C08_example :
  let ct := map Z.of_nat (seq 0 32) in let key := repeat 7 16 in let iv := repeat 9 16 in
  byte_string ct /\ byte_string key /\ byte_string iv /\ key_size (length key) /\ length iv = 16%nat /\
  (16 <= length ct)%nat /\ Nat.divide 16 (length ct) /\
  AesDecrypt aes_cipher ct key iv = Val (Err "unpadding error: invalid paddding length").
Proof.
  cbv zeta. split; [cbn; repeat constructor; lia|]. split; [cbn; repeat constructor; lia|].
  split; [cbn; repeat constructor; lia|]. split; [left; reflexivity|]. split; [reflexivity|].
  split; [cbn; lia|]. split; [exists 2%nat; reflexivity|]. vm_compute. reflexivity.
Qed.

(** C08, no validation: any whole number of blocks whose last byte is at most its
    length (0 included, whatever the other padding bytes are) is a possible
    accepted decryption; so "accepted implies well padded" is false. *)
Theorem C08_aes_padding_not_validated : forall bc : block_cipher, bc_shape bc -> bc_inverse bc ->
  forall (pl : list Z) (b : Z) (key iv : list Z),
  byte_string (pl ++ [b]) -> byte_string key -> byte_string iv ->
  key_size (length key) -> length iv = 16%nat ->
  Nat.divide 16 (length (pl ++ [b])) -> b <= Z.of_nat (length (pl ++ [b])) ->
  exists ct, length ct = length (pl ++ [b]) /\ byte_string ct /\ AesDecrypt bc ct key iv =
    Val (Ok (firstn (length (pl ++ [b]) - Z.to_nat b) (pl ++ [b]))).
Proof. exact aes_decrypt_unvalidated. Qed.
Print Assumptions C08_aes_padding_not_validated.

Theorem C08_aes_well_padded_refuted : forall key iv : list Z,
  byte_string key -> byte_string iv -> key_size (length key) -> length iv = 16%nat ->
  ~ (forall ct p, AesDecrypt aes_cipher ct key iv = Val (Ok p) ->
       exists q, is_padding_of 16 p q /\ length q = length ct).
Proof.
  intros key iv Hk Hi Hkl Hil H.
  destruct (aes_decrypt_unvalidated aes_cipher aes_cipher_shape aes_cipher_inverse (repeat 5 15) 0 key iv)
    as (ct & L & _ & E); auto.
  { cbn; repeat constructor; lia. } { exists 1%nat; reflexivity. } { cbn; lia. }
  destruct (H ct _ E) as (q & (k & Hk1 & Hq & Hd) & Hl).
  rewrite L in Hl. subst q. cbn in Hl. rewrite repeat_length in Hl. lia.
Qed.
Print Assumptions C08_aes_well_padded_refuted.

(** C09: padding algebra *)
Theorem C09_pkcs5_inverse : forall (src : list Z) (bs : Z), 1 <= bs <= 255 ->
  exists q, PKCS5Padding src bs = Val q /\ is_padding_of (Z.to_nat bs) src q /\
    PKCS5UnPadding q = Val (Ok src).
Proof.
  intros src bs H. destruct (unpad_pad src bs ltac:(lia)) as (q & A & B). exists q.
  split; [exact A|]. split; [|exact B].
  rewrite padding_val in A by lia. injection A as <-.
  pose proof (Z.mod_pos_bound (zlen src) bs ltac:(lia)).
  pose proof (padding_multiple src bs (u8 (bs - zlen src mod bs)) ltac:(lia)) as Hz.
  set (k := bs - zlen src mod bs) in *.
  assert (Hu : u8 k = k) by (unfold u8; apply Z.mod_small; lia). rewrite Hu in *.
  exists (Z.to_nat k). split; [lia|]. split. { rewrite Z2Nat.id by lia. reflexivity. }
  exists (Z.to_nat (zlen src / bs + 1)).
  pose proof (Z.div_pos (zlen src) bs (zlen_nonneg _ src) ltac:(lia)).
  unfold zlen at 1 in Hz. apply Nat2Z.inj. rewrite Hz, Nat2Z.inj_mul, !Z2Nat.id by lia. reflexivity.
Qed.
Print Assumptions C09_pkcs5_inverse.

Theorem C09_pkcs5_injective : forall (a b : list Z) (bs : Z), 1 <= bs <= 255 ->
  PKCS5Padding a bs = PKCS5Padding b bs -> a = b.
Proof.
  intros a b bs H E. destruct (unpad_pad a bs ltac:(lia)) as (q & A & B).
  destruct (unpad_pad b bs ltac:(lia)) as (q' & A' & B').
  rewrite A, A' in E. injection E as ->. rewrite B in B'. injection B'. auto.
Qed.
Print Assumptions C09_pkcs5_injective.

Theorem C09_pkcs5_256_refuted : exists q, PKCS5Padding [] 256 = Val q /\ q <> [] /\
  PKCS5UnPadding q = Val (Ok q).
Proof. eexists. split; [reflexivity|]. split; [discriminate|]. vm_compute. reflexivity. Qed.

Example C09_example : PKCS5Padding [1; 2; 3; 4; 5] 5 = Val [1; 2; 3; 4; 5; 5; 5; 5; 5; 5] /\
  PKCS5UnPadding [1; 2; 3; 4; 5; 5; 5; 5; 5; 5] = Val (Ok [1; 2; 3; 4; 5]).
Proof. split; vm_compute; reflexivity. Qed.
