(** * Prop_WalletLeak: property C104, what protected keys give away without the password, and what can be done to them without it
    (/repo/keypair/encrypt.go:73-190) *)
From Coq Require Import ZArith String List Bool Lia.
From Verif Require Import Base BaseFacts Words Curves ECKey Keypair AES Spec_AES AESFacts Spec_GCM Encrypt EncryptFacts
  Spec_EC ECFacts ECFacts2 Spec_Keys KeyFacts Prop_Keys Spec_SHA2 Elliptic Prop_Encrypt Prop_Life Scrypt Spec_Scrypt ScryptFacts Prop_Scrypt Wallet Prop_Wallet.
Import ListNotations.
Open Scope Z_scope.

(** ** Strings *)
Lemma xor_nil_r : forall a, xor_bytes a [] = [].
Proof. intros [|x a]; reflexivity. Qed.
Lemma xor_cons : forall x a y b, xor_bytes (x :: a) (y :: b) = Z.lxor x y :: xor_bytes a b.
Proof. reflexivity. Qed.
Lemma xor_one_pad : forall s a b, (length a <= length s)%nat -> (length b <= length s)%nat -> xor_bytes (xor_bytes a s) (xor_bytes b s) = xor_bytes a b.
Proof.
  induction s as [|p s IH]; intros a b La Lb; destruct a as [|x a]; destruct b as [|y b]; try reflexivity; cbn [length] in La, Lb; try lia.
  rewrite !xor_cons, IH by lia. f_equal.
  rewrite <- Z.lxor_assoc, (Z.lxor_assoc x p y), (Z.lxor_comm p y), <- Z.lxor_assoc, Z.lxor_assoc, Z.lxor_nilpotent, Z.lxor_0_r. reflexivity.
Qed.
Lemma xor_swap : forall a d s, xor_bytes (xor_bytes a d) s = xor_bytes (xor_bytes a s) d.
Proof.
  induction a as [|x a IH]; intros d s; [reflexivity|]. destruct d as [|y d]; destruct s as [|z s]; rewrite ?xor_nil_r; try reflexivity.
  rewrite !xor_cons, IH, !Z.lxor_assoc, (Z.lxor_comm y z). reflexivity.
Qed.
Lemma xor_split : forall l e s, length e = 16%nat -> xor_bytes l (e ++ s) = xor_bytes (firstn 16 l) e ++ xor_bytes (skipn 16 l) s.
Proof.
  intros l e. revert l. generalize 16%nat as n. induction e as [|x e IH]; intros n l s <-; [cbn [length firstn skipn app]; reflexivity|].
  destruct l as [|y l]; [reflexivity|]. cbn [app length firstn skipn]. rewrite !xor_cons, (IH (length e)) by reflexivity. reflexivity.
Qed.
Lemma cat_lxor : forall m x u, 0 <= m -> 0 <= u < 2 ^ m -> x * 2 ^ m + u = Z.lxor (Z.shiftl x m) u.
Proof.
  intros m x u M U. rewrite <- Z.shiftl_mul_pow2 by exact M. apply Z.add_nocarry_lxor. apply Z.bits_inj'. intros i I. rewrite Z.land_spec, Z.bits_0.
  destruct (Z_lt_dec i m) as [L|L]; [rewrite Z.shiftl_spec_low by exact L; reflexivity|].
  replace (Z.testbit u i) with false; [apply andb_false_r|]. symmetry.
  rewrite <- (Z.mod_small u (2 ^ m)) by exact U. apply Z.mod_pow2_bits_high. lia.
Qed.
Lemma be2z_xor : forall a b, length a = length b -> octets a -> octets b -> be2z (xor_bytes a b) = Z.lxor (be2z a) (be2z b).
Proof.
  induction a as [|x a IH]; intros [|y b] L Oa Ob; try discriminate L; [reflexivity|]. injection L as L.
  inversion Oa as [|x' a' _ Oa']; subst. inversion Ob as [|y' b' _ Ob']; subst. rewrite xor_cons, !be2z_cons, (IH b L Oa' Ob').
  assert (Lx : zlen (xor_bytes a b) = zlen a) by (unfold zlen; rewrite xor_bytes_length; lia). assert (Lb : zlen b = zlen a) by (unfold zlen; lia).
  pose proof (be2z_bound a Oa') as Ba. pose proof (be2z_bound b Ob') as Bb. rewrite Lx, Lb in *. set (m := 8 * zlen a).
  assert (M : 0 <= m) by (unfold m, zlen; lia). assert (P : 256 ^ zlen a = 2 ^ m) by (unfold m; rewrite Z.pow_mul_r by (unfold zlen; lia); reflexivity).
  rewrite P in *. rewrite !cat_lxor by (try exact M; try assumption; apply lxor_bound; assumption).
  rewrite Z.shiftl_lxor, !Z.lxor_assoc. f_equal. rewrite <- !Z.lxor_assoc. f_equal. apply Z.lxor_comm.
Qed.

(** ** Counter modes *)
Section Mode.
Variable inc E : bytes -> bytes.
Hypothesis inc_ok : forall c, ctr_ok c -> ctr_ok (inc c).
Hypothesis E_ok : forall c, ctr_ok c -> ctr_ok (E c).
Fixpoint key_stream (n : nat) (c : bytes) : bytes := match n with O => [] | S n => E c ++ key_stream n (inc c) end.
Lemma stream_length : forall n c, ctr_ok c -> length (key_stream n c) = (16 * n)%nat.
Proof. induction n as [|n IH]; intros c H; [reflexivity|]. cbn [key_stream]. rewrite app_length, IH by auto. destruct (E_ok c H) as [-> _]. lia. Qed.
Lemma ctr_stream : forall n m c l, ctr_ok c -> (length l <= 16 * n)%nat -> (n <= m)%nat -> ctr_mode inc E n c l = xor_bytes l (key_stream m c).
Proof.
  induction n as [|n IH]; intros m c l H L M; [destruct l; [reflexivity|cbn in L; lia]|]. destruct m as [|m]; [lia|]. cbn [ctr_mode key_stream].
  rewrite xor_split by (apply E_ok; exact H). f_equal. apply IH; [apply inc_ok; exact H|rewrite skipn_length; lia|lia].
Qed.
(** two texts of any lengths under one counter *)
Lemma ctr_pair : forall c a b, ctr_ok c -> xor_bytes (ctr_mode inc E (blocks a) c a) (ctr_mode inc E (blocks b) c b) = xor_bytes a b.
Proof.
  intros c a b H. set (m := Nat.max (blocks a) (blocks b)). pose proof (blocks_cover a). pose proof (blocks_cover b).
  rewrite (ctr_stream _ m c a), (ctr_stream _ m c b) by (try assumption; unfold m; lia). apply xor_one_pad; rewrite stream_length by exact H; unfold m; lia.
Qed.
Lemma ctr_flip : forall c l d, ctr_ok c -> length d = length l ->
  ctr_mode inc E (blocks (xor_bytes l d)) c (xor_bytes l d) = xor_bytes (ctr_mode inc E (blocks l) c l) d.
Proof.
  intros c l d H L. assert (X : length (xor_bytes l d) = length l) by (rewrite xor_bytes_length; lia). rewrite (blocks_length _ _ X). pose proof (blocks_cover l).
  rewrite !(ctr_stream _ (blocks l)) by (try assumption; lia). apply xor_swap.
Qed.
End Mode.

(** ** Protected keys *)
(** the ciphertext of a record without the tag *)
Definition body (prot : ProtectedKey) : bytes := firstn (length (pt_Key prot) - 16) (pt_Key prot).
(** a record whose ciphertext somebody has changed in the places where d is not zero *)
Definition flipped (prot : ProtectedKey) (d : bytes) : ProtectedKey :=
  {| pt_Address := pt_Address prot; pt_EncAlg := pt_EncAlg prot; pt_Key := xor_bytes (pt_Key prot) d; pt_Alg := pt_Alg prot; pt_Salt := pt_Salt prot; pt_curve := pt_curve prot |}.

Section Hash.
Variable sha256 : bytes -> bytes.
Hypothesis sha_len : forall x, length (sha256 x) = 32%nat.
Hypothesis sha_oct : forall x, octets (sha256 x).
Variable sbm : curve -> bytes -> Z * Z.
Variable bc : block_cipher.
Hypothesis bc_ok : bc_shape bc.
Notation scrypt := (scrypt_res sha256).
Notation shape := (res_shape sha256 sha_len sha_oct).
Notation ESc := (EncryptS sha256 bc).
Notation DSc := (DecryptS sha256 sbm bc).

Lemma sealed : forall k salt addr pwd param prot, representable param -> ESc (Ok salt) k addr pwd param = Val (Ok prot) ->
  exists dkey, kdf scrypt pwd salt param = Ok dkey /\
    pt_Key prot = gcm_seal (bc_enc bc (skipn (length dkey - 32) dkey)) (firstn 12 dkey) (secret k) addr.
Proof.
  intros k salt addr pwd param prot R H.
  assert (Dc : (exists alg cn, storable k alg cn) \/ forall alg cn, ~ storable k alg cn).
  { destruct k as [al d p|b|d p|t].
    - destruct (Z.eq_dec al 0) as [-> |N0]; [left; eexists _, _; constructor|]. destruct (Z.eq_dec al 1) as [-> |N1]; [left; eexists _, _; constructor|].
      right. intros a c S. inversion S; subst; contradiction.
    - left. eexists _, _. constructor.
    - right. intros a c S. inversion S.
    - right. intros a c S. inversion S. }
  destruct Dc as [(alg & cn & St)|NS].
  - apply (C94_encrypt sha256 sha_len sha_oct bc bc_ok k alg cn salt addr pwd param prot St R) in H. destruct H as (U & dkey & Dv & ->).
    exists dkey. split; [apply (kdf_iff sha256 sha_len sha_oct); auto|reflexivity].
  - exfalso. destruct (C94_encrypt_panics sha256 sha_len sha_oct bc bc_ok k (Ok salt) addr pwd param R) as [P _].
    destruct (dec_fatal param) as [F|NF]; [destruct P as (w & P); [split; [eexists; reflexivity|left; exact F]|congruence]|].
    destruct (dec_usable param) as [U|NU]; [destruct P as (w & P); [split; [eexists; reflexivity|right; split; assumption]|congruence]|].
    unfold EncryptS in H. rewrite (kdf_safe sha256 pwd salt param R NF) in H. unfold EncryptWithCustomScrypt in H.
    destruct (kdf scrypt pwd salt param) as [dkey|e] eqn:K; [|discriminate H]. apply (kdf_iff sha256 sha_len sha_oct _ _ _ _ R) in K. tauto.
Qed.
Lemma sealed_body : forall k salt addr pwd param prot, representable param -> ESc (Ok salt) k addr pwd param = Val (Ok prot) ->
  exists dkey, kdf scrypt pwd salt param = Ok dkey /\ length (pt_Key prot) = (length (secret k) + 16)%nat /\
    body prot = ctr_mode inc32 (bc_enc bc (skipn (length dkey - 32) dkey)) (blocks (secret k)) (firstn 12 dkey ++ to_be 4 2) (secret k) /\
    (forall c, ctr_ok c -> ctr_ok (bc_enc bc (skipn (length dkey - 32) dkey) c)) /\ ctr_ok (firstn 12 dkey ++ to_be 4 2).
Proof.
  intros k salt addr pwd param prot R H. destruct (sealed _ _ _ _ _ _ R H) as (dkey & K & Hk). exists dkey. split; [exact K|].
  destruct (kdf_ok scrypt shape _ _ _ _ K) as (_ & _ & _ & _ & _ & L & O & L12 & _). destruct (key_E bc bc_ok _ L (wf_skipn _ _ O)) as [_ EO].
  assert (N := nonce_ok _ L12 (wf_firstn 12 _ O) 2). unfold body. rewrite Hk. unfold gcm_seal. cbv zeta.
  set (c := ctr_mode _ _ _ _ _). assert (Lc : length c = length (secret k)) by (apply ctr_length; auto using inc32_ok, blocks_cover).
  rewrite app_length, (tag_length _ EO _ L12 (wf_firstn 12 _ O)), Lc. split; [reflexivity|]. split; [|split; assumption].
  rewrite <- Lc. replace (length c + 16 - 16)%nat with (length c) by lia. apply firstn_app_l. reflexivity.
Qed.

(** The length of a record gives the size of the scalar away: t.D.Bytes() has no leading zeros. *)
Theorem C104_length : forall k salt addr pwd param prot, representable param -> ESc (Ok salt) k addr pwd param = Val (Ok prot) ->
  length (pt_Key prot) = (length (secret k) + 16)%nat /\
  forall a d p, k = SkEC a d p -> 0 < d -> let n := zlen (pt_Key prot) - 16 in 256 ^ (n - 1) <= d < 256 ^ n.
Proof.
  intros k salt addr pwd param prot R H. destruct (sealed_body _ _ _ _ _ _ R H) as (dkey & _ & L & _). split; [exact L|].
  intros a d p -> D n. assert (n = byte_len d) as ->.
  { unfold n. rewrite <- zlen_big_bytes. cbn [secret] in L. unfold zlen. lia. }
  split; [apply byte_len_lower; exact D|apply byte_len_bound; lia].
Qed.
(** Two records under one password, one salt and the same parameters: the texts give the exclusive or of the secrets away, whatever the addresses; who
    has one of the keys has the other, as far as they overlap; and the texts are equal exactly if the secrets are. *)
Theorem C104_reuse : forall k k' salt addr addr' pwd param prot prot', representable param ->
  ESc (Ok salt) k addr pwd param = Val (Ok prot) -> ESc (Ok salt) k' addr' pwd param = Val (Ok prot') ->
  xor_bytes (body prot) (body prot') = xor_bytes (secret k) (secret k') /\
  (length (secret k) = length (secret k') -> secret k' = xor_bytes (xor_bytes (body prot') (body prot)) (secret k)) /\
  (body prot = body prot' <-> secret k = secret k').
Proof.
  intros k k' salt addr addr' pwd param prot prot' R H H'. destruct (sealed_body _ _ _ _ _ _ R H) as (dkey & K & L & B & EO & N).
  destruct (sealed_body _ _ _ _ _ _ R H') as (dkey' & K' & L' & B' & _). rewrite K in K'. injection K' as <-. rewrite B, B'.
  split; [apply ctr_pair; auto using inc32_ok|]. split.
  - intros Ls. rewrite ctr_pair by auto using inc32_ok. symmetry. apply xor_bytes_invol. lia.
  - split; [|intros ->; reflexivity]. intros X.
    assert (Ls : length (secret k) = length (secret k')).
    { apply (f_equal (@length Z)) in X. rewrite !ctr_length in X by auto using inc32_ok, blocks_cover. exact X. }
    rewrite (blocks_length _ _ Ls) in X. apply (f_equal (ctr_mode inc32 (bc_enc bc (skipn (length dkey - 32) dkey)) (blocks (secret k')) (firstn 12 dkey ++ to_be 4 2))) in X.
    rewrite !ctr_invol in X by (auto using inc32_ok, blocks_cover; rewrite ?Ls; apply blocks_cover). exact X.
Qed.

(** ** Records of older wallets: the counter mode has no tag *)
Lemma old_holds : forall prot pwd param p, representable param -> usable param -> pt_EncAlg prot = "aes-256-ctr"%string ->
  holds sha256 bc prot pwd param p <-> exists dkey, kdf scrypt pwd (firstn 4 (sha256 (sha256 (pt_Address prot)))) param = Ok dkey /\
    p = ctr_mode inc128 (bc_enc bc (skipn (length dkey - 32) dkey)) (blocks (pt_Key prot)) (firstn 16 dkey) (pt_Key prot).
Proof.
  intros prot pwd param p R U A. split.
  - intros [dkey A' _ _|dkey _ Dv E]; [congruence|]. exists dkey. split; [apply (kdf_iff sha256 sha_len sha_oct); auto|exact E].
  - intros (dkey & K & E). apply (kdf_iff sha256 sha_len sha_oct _ _ _ _ R) in K. destruct K as [_ Dv]. exact (ho_ctr _ _ _ _ _ _ dkey A Dv E).
Qed.
Lemma old_mode : forall pwd salt param dkey, kdf scrypt pwd salt param = Ok dkey ->
  (forall c, ctr_ok c -> ctr_ok (bc_enc bc (skipn (length dkey - 32) dkey) c)) /\ ctr_ok (firstn 16 dkey).
Proof.
  intros pwd salt param dkey K. destruct (kdf_ok scrypt shape _ _ _ _ K) as (_ & _ & _ & _ & _ & L & O & _ & L16).
  destruct (key_E bc bc_ok _ L (wf_skipn _ _ O)) as [_ EO]. split; [exact EO|]. split; [exact L16|apply wf_firstn; exact O].
Qed.
(** two of them, for one address and under one password, give the exclusive or of the secrets away: the salt is made from the address *)
Theorem C104_old_reuse : forall prot prot' pwd param p p', representable param -> usable param ->
  pt_EncAlg prot = "aes-256-ctr"%string -> pt_EncAlg prot' = "aes-256-ctr"%string -> pt_Address prot = pt_Address prot' ->
  holds sha256 bc prot pwd param p -> holds sha256 bc prot' pwd param p' -> xor_bytes (pt_Key prot) (pt_Key prot') = xor_bytes p p'.
Proof.
  intros prot prot' pwd param p p' R U A A' Ad H H'. apply (old_holds _ _ _ _ R U A) in H. apply (old_holds _ _ _ _ R U A') in H'.
  destruct H as (dkey & K & ->). destruct H' as (dkey' & K' & ->). rewrite <- Ad, K in K'. injection K' as <-. destruct (old_mode _ _ _ _ K) as [EO N].
  symmetry. apply ctr_pair; auto using inc128_ok.
Qed.
(** Whoever can write to the wallet changes the key as they like: without the password any exclusive or can be applied to the scalar.  The changed record
    opens under the same password, to the key with the changed scalar. *)
Hypothesis sbm_value : forall c b b', octets b -> octets b' -> value b 0 = value b' 0 -> sbm c b = sbm c b'.
Theorem C104_malleable : forall prot pwd param a D p d, representable param -> pt_EncAlg prot = "aes-256-ctr"%string -> octets (pt_Key prot) ->
  DSc (Some prot) pwd param = Val (Ok (SkEC a D p)) -> octets d -> length d = length (pt_Key prot) ->
  let D' := Z.lxor D (value d 0) in
  let P' := sbm (pk_curve p) (big_bytes D') in
  DSc (Some (flipped prot d)) pwd param = Val (Ok (SkEC a D' {| pk_curve := pk_curve p; pk_X := fst P'; pk_Y := snd P' |})).
Proof.
  intros prot pwd param a D p d R A Oc H Od Ld D' P'. apply (C94_decrypt sha256 sha_len sha_oct sbm bc bc_ok _ _ _ _ R) in H. destruct H as (Np & U & t & Ho & Rb).
  apply (old_holds _ _ _ _ R U A) in Ho. destruct Ho as (dkey & K & Et). destruct (old_mode _ _ _ _ K) as [EO N].
  assert (Lt : length t = length (pt_Key prot)) by (rewrite Et; apply ctr_length; auto using inc128_ok, blocks_cover).
  assert (Ot : octets t) by (rewrite Et; apply ctr_wf; auto using inc128_ok). assert (Ox : octets (xor_bytes t d)) by (apply xor_bytes_wf; assumption).
  apply (C94_decrypt sha256 sha_len sha_oct sbm bc bc_ok _ _ _ _ R). split; [exact Np|]. split; [exact U|]. exists (xor_bytes t d). split.
  - apply (old_holds (flipped prot d) _ _ _ R U A). exists dkey. split; [exact K|]. cbn [flipped pt_Key]. rewrite Et. symmetry. apply ctr_flip; auto using inc128_ok.
  - cbn [flipped pt_Alg pt_curve]. destruct Rb as [(_ & _ & Q)|(a' & c & Ha & Hc & Q)]; [discriminate Q|]. injection Q as -> -> ->. right. exists a', c.
    split; [exact Ha|]. split; [exact Hc|]. assert (V : D' = value (xor_bytes t d) 0) by (unfold D'; rewrite !value_be2z, be2z_xor by (try assumption; lia); reflexivity).
    assert (D0 : 0 <= D') by (rewrite V, value_be2z; apply be2z_bound; exact Ox). cbn [pk_curve] in *.
    assert (S : P' = sbm c (xor_bytes t d)).
    { unfold P'. cbn [pk_curve]. apply sbm_value; [apply big_bytes_wf|exact Ox|]. rewrite (value_be2z (big_bytes D')), be2z_big_bytes by exact D0. exact V. }
    rewrite S, V. reflexivity.
Qed.
End Hash.

(** ** Nothing left open: SHA-256, AES and the curves of the repository *)
(** a key on a curve in an old record, under any password: changing bits of the ciphertext changes these bits of the scalar *)
Theorem C104_old_wallet : forall prot pwd param a D p d, representable param -> pt_EncAlg prot = "aes-256-ctr"%string -> octets (pt_Key prot) ->
  DecryptS SHA256 ScalarBaseMult aes_cipher (Some prot) pwd param = Val (Ok (SkEC a D p)) -> octets d -> length d = length (pt_Key prot) ->
  let D' := Z.lxor D (value d 0) in
  let P' := ScalarBaseMult (pk_curve p) (big_bytes D') in
  DecryptS SHA256 ScalarBaseMult aes_cipher (Some (flipped prot d)) pwd param =
    Val (Ok (SkEC a D' {| pk_curve := pk_curve p; pk_X := fst P'; pk_Y := snd P' |})).
Proof. exact (C104_malleable SHA256 SHA256_length SHA256_octets ScalarBaseMult aes_cipher aes_cipher_shape C86_leading_zeros). Qed.
Print Assumptions C104_length.
Print Assumptions C104_reuse.
Print Assumptions C104_old_reuse.
Print Assumptions C104_malleable.
Print Assumptions C104_old_wallet.

(** ** Examples *)
Notation default := GetScryptParameters.
Definition sealed_as (k : privkey) (salt pwd : bytes) (prot : ProtectedKey) : Prop :=
  EncryptS SHA256 aes_cipher (Ok salt) k [65; 66] pwd default = Val (Ok prot).
Lemma default_ok : representable default /\ usable default.
Proof. destruct C94_params as (R & U & _). split; assumption. Qed.
Lemma sealed_exists : forall k alg cn salt pwd, storable k alg cn -> exists prot, sealed_as k salt pwd prot.
Proof.
  intros k alg cn salt pwd St. destruct default_ok as [R U]. destruct (usable_derives SHA256 SHA256_length SHA256_octets pwd salt default R U) as (dkey & Dv). eexists.
  apply (C94_encrypt SHA256 SHA256_length SHA256_octets aes_cipher aes_cipher_shape k alg cn _ _ _ _ _ St R). split; [exact U|]. exists dkey. split; [exact Dv|reflexivity].
Qed.
(** two Ed25519 keys under one salt; the scalar 256 takes two bytes *)
Example C104_two_keys : exists prot prot', sealed_as (SkEd (repeat 7 64)) [1] [3] prot /\ sealed_as (SkEd (repeat 9 64)) [1] [3] prot' /\
  xor_bytes (body prot) (body prot') = repeat 14 64.
Proof.
  destruct (sealed_exists _ _ _ [1] [3] (st_ed (repeat 7 64))) as (prot & H). destruct (sealed_exists _ _ _ [1] [3] (st_ed (repeat 9 64))) as (prot' & H').
  exists prot, prot'. split; [exact H|]. split; [exact H'|].
  rewrite (proj1 (C104_reuse SHA256 SHA256_length SHA256_octets aes_cipher aes_cipher_shape _ _ _ _ _ _ _ _ _ (proj1 default_ok) H H')). reflexivity.
Qed.
Example C104_size : forall p, exists prot, sealed_as (SkEC 0 256 p) [1] [3] prot /\ length (pt_Key prot) = 18%nat.
Proof.
  intros p. destruct (sealed_exists _ _ _ [1] [3] (st_ecdsa 256 p)) as (prot & H). exists prot. split; [exact H|].
  exact (proj1 (C104_length SHA256 SHA256_length SHA256_octets aes_cipher aes_cipher_shape _ _ _ _ _ _ (proj1 default_ok) H)).
Qed.
(** an old record, and the same record with its last bit changed *)
Definition old (key : bytes) : ProtectedKey :=
  {| pt_Address := [65; 66]; pt_EncAlg := "aes-256-ctr"; pt_Key := key; pt_Alg := "SM2"; pt_Salt := []; pt_curve := "sm2p256v1" |}.
Lemma old_opens : forall key pwd, pwd <> [] -> exists t, holds SHA256 aes_cipher (old key) pwd default t /\
  DecryptS SHA256 ScalarBaseMult aes_cipher (Some (old key)) pwd default =
    Val (Ok (SkEC 1 (value t 0) {| pk_curve := SM2P256V1; pk_X := fst (ScalarBaseMult SM2P256V1 t); pk_Y := snd (ScalarBaseMult SM2P256V1 t) |})).
Proof.
  intros key pwd Np. destruct default_ok as [R U].
  destruct (usable_derives SHA256 SHA256_length SHA256_octets pwd (firstn 4 (SHA256 (SHA256 [65; 66]))) default R U) as (dkey & Dv).
  eexists. assert (Ho := ho_ctr SHA256 aes_cipher (old key) pwd default _ dkey eq_refl Dv eq_refl). split; [exact Ho|].
  apply (C94_decrypt SHA256 SHA256_length SHA256_octets ScalarBaseMult aes_cipher aes_cipher_shape _ _ _ _ R). split; [exact Np|]. split; [exact U|].
  eexists. split; [exact Ho|]. right. exists 1, SM2P256V1. split; [right; split; reflexivity|]. split; reflexivity.
Qed.
Example C104_last_bit : exists D p p',
  DecryptS SHA256 ScalarBaseMult aes_cipher (Some (old (repeat 5 32))) [3] default = Val (Ok (SkEC 1 D p)) /\
  DecryptS SHA256 ScalarBaseMult aes_cipher (Some (old (repeat 5 31 ++ [4]))) [3] default = Val (Ok (SkEC 1 (Z.lxor D 1) p')).
Proof.
  destruct (old_opens (repeat 5 32) [3]) as (t & _ & H); [discriminate|]. eexists _, _, _. split; [exact H|].
  assert (F : old (repeat 5 31 ++ [4]) = flipped (old (repeat 5 32)) (repeat 0 31 ++ [1])) by reflexivity. rewrite F.
  apply (C104_old_wallet (old (repeat 5 32)) _ _ _ _ _ (repeat 0 31 ++ [1]) (proj1 default_ok) eq_refl) in H; [| | |reflexivity].
  - cbv zeta in H. change (value (repeat 0 31 ++ [1]) 0) with 1 in H. exact H.
  - apply wf_repeat. unfold is_byte. lia.
  - apply wf_app. split; [apply wf_repeat; unfold is_byte; lia|]. repeat constructor; lia.
Qed.
Example C104_old_two : exists t t', holds SHA256 aes_cipher (old (repeat 5 32)) [3] default t /\ holds SHA256 aes_cipher (old (repeat 6 32)) [3] default t' /\
  xor_bytes t t' = repeat 3 32.
Proof.
  destruct (old_opens (repeat 5 32) [3]) as (t & H & _); [discriminate|]. destruct (old_opens (repeat 6 32) [3]) as (t' & H' & _); [discriminate|].
  exists t, t'. split; [exact H|]. split; [exact H'|]. destruct default_ok as [R U].
  rewrite <- (C104_old_reuse SHA256 SHA256_length SHA256_octets aes_cipher aes_cipher_shape (old (repeat 5 32)) (old (repeat 6 32)) _ _ _ _ R U eq_refl eq_refl eq_refl H H'). reflexivity.
Qed.
