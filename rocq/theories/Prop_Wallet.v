(** * Prop_Wallet: property C94, protected keys with scrypt filled in: what opens, what panics, what a change of password does
    (/repo/keypair/encrypt.go:73-203, 214-254) *)
From Coq Require Import ZArith String List Bool Lia.
From Verif Require Import Base BaseFacts Words Curves ECKey Keypair AES Spec_AES AESFacts Spec_GCM Encrypt EncryptFacts
  Spec_EC ECFacts ECFacts2 Spec_Keys KeyFacts Prop_Keys Spec_SHA2 Elliptic Prop_Encrypt Prop_Life Scrypt Spec_Scrypt ScryptFacts Prop_Scrypt Wallet.
Import ListNotations.
Open Scope Z_scope.

(** parameters as Go can represent them, with lengths that RFC 8018 allows *)
Definition representable (param : ScryptParam) : Prop := int64 (sp_R param) /\ int64 (sp_P param) /\ sp_DKLen param <= (2 ^ 32 - 1) * 32.
(** parameters under which a key is derived *)
Definition usable (param : ScryptParam) : Prop := 32 <= sp_DKLen param /\ fits (sp_N param) (sp_R param) (sp_P param).
(** parameters that make scrypt.Key divide by zero *)
Definition fatal (param : ScryptParam) : Prop := 32 <= sp_DKLen param /\ pow2 (sp_N param) /\ divides_by_zero (sp_R param) (sp_P param).
Lemma dec_pow2 : forall N, {pow2 N} + {~ pow2 N}.
Proof.
  intros N. destruct ((N <=? 1) || negb (Z.land N (N - 1) =? 0)) eqn:E.
  - right. intros H. apply pow2_test in H. congruence.
  - left. apply pow2_test. exact E.
Qed.
Lemma dec_fatal : forall param, {fatal param} + {~ fatal param}.
Proof.
  intros param. unfold fatal, divides_by_zero. destruct (Z_le_dec 32 (sp_DKLen param)); [|right; tauto]. destruct (dec_pow2 (sp_N param)); [|right; tauto].
  destruct (Z.eq_dec (sp_P param) 0); [left; tauto|]. destruct (Z.eq_dec (sp_R param) 0); [|right; tauto].
  destruct (Z_lt_dec 0 (sp_P param)); [left; tauto|]. destruct (Z_le_dec (sp_P param) (- 2 ^ 56)); [left; tauto|right; tauto].
Qed.
Lemma dec_usable : forall param, {usable param} + {~ usable param}.
Proof.
  intros param. unfold usable, fits. destruct (Z_le_dec 32 (sp_DKLen param)); [|right; tauto]. destruct (dec_pow2 (sp_N param)); [|right; tauto].
  destruct (Z_le_dec 1 (sp_R param)); [|right; tauto]. destruct (Z_le_dec 1 (sp_P param)); [|right; tauto].
  destruct (Z_lt_dec (sp_R param * sp_P param) (2 ^ 30)); [|right; tauto]. destruct (Z_lt_dec (sp_N param * sp_R param) (2 ^ 56)); [left; tauto|right; tauto].
Qed.
Lemma usable_not_fatal : forall param, usable param -> ~ fatal param.
Proof. intros param (_ & _ & R & P & _) (_ & _ & [H|[H _]]); lia. Qed.
Lemma nonempty : forall pwd : bytes, pwd <> [] -> (zlen pwd =? 0) = false.
Proof. intros pwd H. apply Z.eqb_neq. destruct pwd; [contradiction|]. unfold zlen. cbn [length]. lia. Qed.

Section Hash.
Variable sha256 : bytes -> bytes.
Hypothesis sha_len : forall x, length (sha256 x) = 32%nat.
Hypothesis sha_oct : forall x, octets (sha256 x).
Variable sbm : curve -> bytes -> Z * Z.
Variable bc : block_cipher.
Hypothesis bc_ok : bc_shape bc.
Notation scrypt := (scrypt_res sha256).
Notation shape := (res_shape sha256 sha_len sha_oct).
Notation ESc := (EncryptS sha256 bc).
Notation DSc := (DecryptS sha256 sbm bc).
Notation RSc := (ReencryptS sha256 sbm bc).

(** the key that RFC 7914 derives under these parameters *)
Definition derives (pwd salt : bytes) (param : ScryptParam) (dkey : bytes) : Prop :=
  scrypt_rel sha256 pwd salt (Z.to_nat (sp_N param)) (Z.to_nat (sp_R param)) (Z.to_nat (sp_P param)) (Z.to_nat (sp_DKLen param)) dkey.
(** prot holds the octets p, sealed by AES-256-GCM, or as older wallets have it, by AES-256 in counter mode with a salt from the address *)
Inductive holds (prot : ProtectedKey) (pwd : bytes) (param : ScryptParam) (p : bytes) : Prop :=
| ho_gcm : forall dkey, pt_EncAlg prot = "aes-256-gcm"%string -> derives pwd (pt_Salt prot) param dkey ->
    pt_Key prot = gcm_seal (bc_enc bc (skipn (length dkey - 32) dkey)) (firstn 12 dkey) p (pt_Address prot) -> holds prot pwd param p
| ho_ctr : forall dkey, pt_EncAlg prot = "aes-256-ctr"%string -> derives pwd (firstn 4 (sha256 (sha256 (pt_Address prot)))) param dkey ->
    p = ctr_mode inc128 (bc_enc bc (skipn (length dkey - 32) dkey)) (blocks (pt_Key prot)) (firstn 16 dkey) (pt_Key prot) -> holds prot pwd param p.

Lemma kdf_fatal : forall pwd salt param, representable param -> fatal param -> kdf_panics sha256 pwd salt param = Some "integer divide by zero"%string.
Proof.
  intros pwd salt param (Ir & Ip & _) (D & PN & Dz). unfold kdf_panics. destruct (Z.ltb_spec (sp_DKLen param) 32); [lia|].
  destruct (C92_cases sha256 pwd salt (sp_N param) _ _ (sp_DKLen param) Ir Ip ltac:(lia)) as (_ & A & _). rewrite (A PN Dz). reflexivity.
Qed.
Lemma kdf_safe : forall pwd salt param, representable param -> ~ fatal param -> kdf_panics sha256 pwd salt param = None.
Proof.
  intros pwd salt param (Ir & Ip & L) NF. unfold kdf_panics. destruct (Z.ltb_spec (sp_DKLen param) 32) as [|D]; [reflexivity|].
  destruct (C92_cases sha256 pwd salt (sp_N param) _ _ (sp_DKLen param) Ir Ip ltac:(lia)) as (A & _ & B & C).
  destruct (dec_pow2 (sp_N param)) as [PN|PN]; [|rewrite (A PN); reflexivity].
  assert (ND : ~ divides_by_zero (sp_R param) (sp_P param)) by (intros H; apply NF; split; [exact D|split; assumption]).
  destruct (dec_usable param) as [[_ F]|NU]; [destruct (C F) as (out & E); rewrite E; reflexivity|].
  rewrite (B PN ND); [reflexivity|]. intros F. apply NU. split; assumption.
Qed.
Lemma kdf_iff : forall pwd salt param dkey, representable param -> kdf scrypt pwd salt param = Ok dkey <-> usable param /\ derives pwd salt param dkey.
Proof.
  intros pwd salt param dkey (Ir & Ip & L). unfold kdf, derives. destruct (Z.ltb_spec (sp_DKLen param) 32) as [D|D].
  { split; [discriminate|]. intros [[U _] _]. lia. }
  destruct (C92_cases sha256 pwd salt (sp_N param) _ _ (sp_DKLen param) Ir Ip ltac:(lia)) as (A & Dz & B & C). unfold scrypt_res.
  assert (KE : usable param -> (Key sha256 pwd salt (sp_N param) (sp_R param) (sp_P param) (sp_DKLen param) = Val (Ok dkey) <-> derives pwd salt param dkey)).
  { intros [_ F]. assert (K := C92_key sha256 sha_len sha_oct pwd salt (sp_N param) (sp_R param) (sp_P param) (Z.to_nat (sp_DKLen param)) dkey F ltac:(lia)).
    rewrite Z2Nat.id in K by lia. exact K. }
  split.
  - intros H. assert (U : usable param).
    { split; [exact D|]. destruct (dec_pow2 (sp_N param)) as [PN|PN]; [|rewrite (A PN) in H; discriminate H].
      destruct (dec_fatal param) as [(_ & _ & F)|NF]; [rewrite (Dz PN F) in H; discriminate H|].
      destruct (dec_usable param) as [[_ F]|NU]; [exact F|]. rewrite (B PN) in H; [discriminate H| |].
      - intros F. apply NF. split; [exact D|split; assumption].
      - intros F. apply NU. split; assumption. }
    split; [exact U|]. apply (KE U). destruct (Key _ _ _ _ _ _ _) as [x| |]; [congruence|discriminate H|discriminate H].
  - intros [U H]. apply (KE U) in H. rewrite H. reflexivity.
Qed.
Lemma usable_derives : forall pwd salt param, representable param -> usable param -> exists dkey, derives pwd salt param dkey.
Proof.
  intros pwd salt param R U. assert (R' := R). destruct R' as (Ir & Ip & L). destruct U as [D F].
  destruct (C92_cases sha256 pwd salt (sp_N param) _ _ (sp_DKLen param) Ir Ip ltac:(lia)) as (_ & _ & _ & C). destruct (C F) as (out & E). exists out.
  apply (kdf_iff pwd salt param out R). unfold kdf, scrypt_res. destruct (Z.ltb_spec (sp_DKLen param) 32); [lia|]. rewrite E. reflexivity.
Qed.

(** ** Decryption *)
Lemma plain_when_safe : forall prot pwd param, representable param -> ~ fatal param ->
  DSc prot pwd param = DecryptWithCustomScrypt sbm scrypt bc sha256 prot pwd param.
Proof.
  intros prot pwd param R NF. unfold DecryptS. destruct prot as [p|]; [|reflexivity]. cbv zeta. rewrite !kdf_safe by assumption.
  destruct (Z.eqb (zlen pwd) 0); [reflexivity|]. destruct (String.eqb (pt_EncAlg p) "aes-256-gcm"); [reflexivity|].
  destruct (String.eqb (pt_EncAlg p) "aes-256-ctr"); [|reflexivity]. unfold saltFromAddress. rewrite slice_ok by (unfold zlen; rewrite ?sha_len; lia).
  cbn [bind]. rewrite kdf_safe by assumption. reflexivity.
Qed.
Lemma rebuild_total : forall prot p, exists r, rebuild_key sbm prot p = Val r.
Proof.
  intros prot p. unfold rebuild_key, dec_err. destruct (_ || _).
  - destruct (GetNamedCurve _); [|eexists; reflexivity]. destruct (ConstructPrivateKey _ _ _). eexists. reflexivity.
  - destruct (String.eqb _ _); [|eexists; reflexivity]. destruct (negb _); eexists; reflexivity.
Qed.
Lemma decrypt_total : forall prot pwd param, exists r, DecryptWithCustomScrypt sbm scrypt bc sha256 prot pwd param = Val r.
Proof.
  intros [p|] pwd param; unfold DecryptWithCustomScrypt, dec_err; [|eexists; reflexivity]. destruct (_ =? _); [eexists; reflexivity|].
  destruct (String.eqb (pt_EncAlg p) "aes-256-gcm").
  - destruct (kdf scrypt pwd (pt_Salt p) param) as [dkey|] eqn:K; [|eexists; reflexivity].
    destruct (kdf_ok scrypt shape _ _ _ _ K) as (_ & _ & S1 & _ & S2 & L & O & _). rewrite S2. cbn [bind]. rewrite S1. cbn [bind].
    destruct (key_E bc bc_ok _ L (wf_skipn _ _ O)) as [G _]. rewrite G. destruct (gcm_open _ _ _ _); [apply rebuild_total|eexists; reflexivity].
  - destruct (String.eqb (pt_EncAlg p) "aes-256-ctr"); [|eexists; reflexivity]. unfold saltFromAddress. rewrite slice_ok by (unfold zlen; rewrite ?sha_len; lia). cbn [bind].
    destruct (kdf scrypt pwd _ param) as [dkey|] eqn:K; [|eexists; reflexivity].
    destruct (kdf_ok scrypt shape _ _ _ _ K) as (_ & _ & _ & S1 & S2 & L & O & _ & L16). rewrite S1. cbn [bind]. rewrite S2. cbn [bind]. unfold ctrCipher.
    assert (Kk : aes_key_ok (skipn (length dkey - 32) dkey) = true) by (apply key_ok_iff; right; right; exact L). rewrite Kk.
    assert (Z16 : (zlen (firstn 16 dkey) =? 16) = true) by (apply Z.eqb_eq; unfold zlen; lia). rewrite Z16. cbn [bind]. apply rebuild_total.
Qed.
(** Decryption of any record, with any parameters: it panics, on the division by zero, exactly for the fatal parameters (and a password, and an
    encryption that it knows); otherwise it returns. *)
Theorem C94_decrypt_panics : forall prot pwd param, representable param ->
  let reaches := pwd <> [] /\ (pt_EncAlg prot = "aes-256-gcm"%string \/ pt_EncAlg prot = "aes-256-ctr"%string) /\ fatal param in
  (reaches -> DSc (Some prot) pwd param = Panic "integer divide by zero") /\ (~ reaches -> exists r, DSc (Some prot) pwd param = Val r).
Proof.
  intros prot pwd param R reaches. split.
  - intros (Np & A & F). unfold DecryptS. cbv zeta. rewrite (nonempty pwd Np). destruct A as [-> | ->]; cbn [String.eqb Ascii.eqb Bool.eqb].
    + rewrite kdf_fatal by assumption. reflexivity.
    + unfold saltFromAddress. rewrite slice_ok by (unfold zlen; rewrite ?sha_len; lia). cbn [bind]. rewrite kdf_fatal by assumption. reflexivity.
  - intros N. destruct (dec_fatal param) as [F|NF]; [|rewrite plain_when_safe by assumption; apply decrypt_total].
    destruct (decrypt_total (Some prot) pwd param) as (r & E). exists r. rewrite <- E. unfold DecryptS. cbv zeta.
    destruct (Z.eqb_spec (zlen pwd) 0) as [|Np]; [reflexivity|]. assert (Npwd : pwd <> []) by (intros ->; apply Np; reflexivity).
    destruct (String.eqb_spec (pt_EncAlg prot) "aes-256-gcm") as [A|_]; [exfalso; apply N; split; [exact Npwd|tauto]|].
    destruct (String.eqb_spec (pt_EncAlg prot) "aes-256-ctr") as [A|_]; [exfalso; apply N; split; [exact Npwd|tauto]|reflexivity].
Qed.
Lemma plain_ctr : forall prot pwd param dkey k, pwd <> [] -> pt_EncAlg prot = "aes-256-ctr"%string ->
  kdf scrypt pwd (firstn 4 (sha256 (sha256 (pt_Address prot)))) param = Ok dkey ->
  rebuilt sbm (pt_Alg prot) (pt_curve prot) (ctr_mode inc128 (bc_enc bc (skipn (length dkey - 32) dkey)) (blocks (pt_Key prot)) (firstn 16 dkey) (pt_Key prot)) k ->
  DecryptWithCustomScrypt sbm scrypt bc sha256 (Some prot) pwd param = Val (Ok k).
Proof.
  intros prot pwd param dkey k Np A K Rb. unfold DecryptWithCustomScrypt, dec_err. rewrite (nonempty pwd Np), A.
  change (String.eqb "aes-256-ctr" "aes-256-gcm") with false. change (String.eqb "aes-256-ctr" "aes-256-ctr") with true. cbv iota.
  unfold saltFromAddress. rewrite slice_ok by (unfold zlen; rewrite ?sha_len; lia). cbn [bind].
  change (Z.to_nat (4 - 0)) with 4%nat. change (Z.to_nat 0) with 0%nat. cbn [skipn]. rewrite K.
  destruct (kdf_ok scrypt shape _ _ _ _ K) as (_ & _ & _ & S1 & S2 & L & O & _ & L16). rewrite S1. cbn [bind]. rewrite S2. cbn [bind]. unfold ctrCipher.
  assert (Kk : aes_key_ok (skipn (length dkey - 32) dkey) = true) by (apply key_ok_iff; right; right; exact L). rewrite Kk.
  assert (Z16 : (zlen (firstn 16 dkey) =? 16) = true) by (apply Z.eqb_eq; unfold zlen; lia). rewrite Z16. cbn [bind].
  revert Rb. generalize (ctr_mode inc128 (bc_enc bc (skipn (length dkey - 32) dkey)) (blocks (pt_Key prot)) (firstn 16 dkey) (pt_Key prot)). intros p Rb.
  unfold rebuild_key, dec_err. set (al := pt_Alg prot) in *. set (cn := pt_curve prot) in *. clearbody al cn. destruct Rb as [(-> & Lp & ->)|(a & c & Ha & Hc & ->)].
  - cbn. destruct (Z.eqb_spec (zlen p) 64) as [|N]; [reflexivity|]. exfalso. apply N. unfold zlen. lia.
  - destruct Ha as [[-> ->]|[-> ->]]; cbn -[GetNamedCurve ConstructPrivateKey]; rewrite Hc;
      unfold ConstructPrivateKey; destruct (sbm c p); rewrite value_be2z; reflexivity.
Qed.
(** what decryption returns: exactly the keys that the record holds under the password *)
Theorem C94_decrypt : forall prot pwd param k, representable param ->
  DSc (Some prot) pwd param = Val (Ok k) <->
  pwd <> [] /\ usable param /\ exists p, holds prot pwd param p /\ rebuilt sbm (pt_Alg prot) (pt_curve prot) p k.
Proof.
  intros prot pwd param k R. split.
  - intros H. destruct (dec_fatal param) as [F|NF].
    { destruct (C94_decrypt_panics prot pwd param R) as [P1 _]. exfalso. unfold DecryptS in H. cbv zeta in H.
      assert (T : forall o, DecryptWithCustomScrypt sbm scrypt bc sha256 (Some prot) pwd param = o -> pwd <> [] /\ (pt_EncAlg prot = "aes-256-gcm"%string \/ pt_EncAlg prot = "aes-256-ctr"%string) \/ o <> Val (Ok k)).
      { intros o <-. unfold DecryptWithCustomScrypt, dec_err. destruct (Z.eqb_spec (zlen pwd) 0) as [|Np]; [right; discriminate|].
        assert (Npwd : pwd <> []) by (intros ->; apply Np; reflexivity).
        destruct (String.eqb_spec (pt_EncAlg prot) "aes-256-gcm"); [left; tauto|]. destruct (String.eqb_spec (pt_EncAlg prot) "aes-256-ctr"); [left; tauto|right; discriminate]. }
      destruct (T _ eq_refl) as [[Np A]|N].
      - specialize (P1 (conj Np (conj A F))). unfold DecryptS in P1. cbv zeta in P1. rewrite P1 in H. discriminate H.
      - destruct (Z.eqb (zlen pwd) 0); [exact (N H)|]. rewrite !kdf_fatal in H by assumption. destruct (String.eqb (pt_EncAlg prot) "aes-256-gcm"); [discriminate H|].
        destruct (String.eqb (pt_EncAlg prot) "aes-256-ctr"); [|exact (N H)]. destruct (saltFromAddress _ _); try discriminate H. cbn [bind] in H. rewrite kdf_fatal in H by assumption. discriminate H. }
    rewrite plain_when_safe in H by assumption. destruct (decrypt_inv sbm scrypt bc sha256 bc_ok shape prot pwd param k H) as (Np & C). split; [exact Np|].
    destruct C as [(A & ekey & nonce & p & (dkey & Sc & -> & ->) & D & _ & S & Rb)|(A & ekey & iv & (dkey & K & -> & ->) & Rb)].
    + assert (K : kdf scrypt pwd (pt_Salt prot) param = Ok dkey) by (unfold kdf; destruct (Z.ltb_spec (sp_DKLen param) 32); [lia|exact Sc]).
      apply (kdf_iff _ _ _ _ R) in K. destruct K as [U Dv]. split; [exact U|]. exists p. split; [exact (ho_gcm _ _ _ _ dkey A Dv S)|exact Rb].
    + apply (kdf_iff _ _ _ _ R) in K. destruct K as [U Dv]. split; [exact U|]. eexists. split; [exact (ho_ctr _ _ _ _ dkey A Dv eq_refl)|exact Rb].
  - intros (Np & U & p & Ho & Rb). rewrite plain_when_safe by (try assumption; apply usable_not_fatal; exact U). destruct Ho as [dkey A Dv S|dkey A Dv ->].
    + apply (decrypt_gcm_val sbm scrypt bc sha256 bc_ok shape prot pwd param dkey p k Np A); [|exact S|exact Rb]. apply kdf_iff; auto.
    + apply (plain_ctr prot pwd param dkey k Np A); [|exact Rb]. apply kdf_iff; auto.
Qed.

(** ** Encryption *)
(** The record that encryption makes of a key, for every key that can be stored *)
Theorem C94_encrypt : forall k alg cn salt addr pwd param prot, storable k alg cn -> representable param ->
  ESc (Ok salt) k addr pwd param = Val (Ok prot) <->
  usable param /\ exists dkey, derives pwd salt param dkey /\
    prot = {| pt_Address := addr; pt_EncAlg := "aes-256-gcm"; pt_Key := gcm_seal (bc_enc bc (skipn (length dkey - 32) dkey)) (firstn 12 dkey) (secret k) addr;
              pt_Alg := alg; pt_Salt := salt; pt_curve := cn |}.
Proof.
  intros k alg cn salt addr pwd param prot St R. unfold EncryptS. destruct (dec_fatal param) as [F|NF].
  { rewrite kdf_fatal by assumption. split; [discriminate|]. intros [U _]. destruct (usable_not_fatal _ U F). }
  rewrite kdf_safe by assumption. split.
  - intros H. destruct (kdf scrypt pwd salt param) as [dkey|e] eqn:K.
    + rewrite (encrypt_val scrypt bc bc_ok shape k alg cn salt addr pwd param dkey St K) in H. injection H as <-.
      apply (kdf_iff _ _ _ _ R) in K. destruct K as [U Dv]. split; [exact U|]. exists dkey. split; [exact Dv|reflexivity].
    + unfold EncryptWithCustomScrypt, enc_err in H. rewrite K in H. discriminate H.
  - intros (U & dkey & Dv & ->). apply (encrypt_val scrypt bc bc_ok shape k alg cn salt addr pwd param dkey St). apply kdf_iff; auto.
Qed.
(** and when it panics: fatal parameters, or a key that cannot be stored *)
Theorem C94_encrypt_panics : forall k rnd addr pwd param, representable param ->
  let reaches := (exists salt, rnd = Ok salt) /\ (fatal param \/ usable param /\ forall alg cn, ~ storable k alg cn) in
  (reaches -> exists why, ESc rnd k addr pwd param = Panic why) /\ (~ reaches -> exists r, ESc rnd k addr pwd param = Val r).
Proof.
  intros k rnd addr pwd param R reaches. split.
  - intros ((salt & ->) & C). unfold EncryptS. destruct C as [F|[U NS]]; [rewrite kdf_fatal by assumption; eexists; reflexivity|].
    rewrite kdf_safe by (try assumption; apply usable_not_fatal; exact U). destruct (usable_derives pwd salt param R U) as (dkey & Dv).
    assert (K : kdf scrypt pwd salt param = Ok dkey) by (apply kdf_iff; auto). destruct (kdf_ok scrypt shape _ _ _ _ K) as (D & Sc & _).
    exact (C28_unsupported_keys_panic scrypt bc shape k salt addr pwd param dkey NS D Sc).
  - intros N. unfold EncryptS. destruct rnd as [salt|e]; [|unfold EncryptWithCustomScrypt; eexists; reflexivity].
    destruct (dec_fatal param) as [F|NF]; [exfalso; apply N; split; [eexists; reflexivity|left; exact F]|]. rewrite kdf_safe by assumption.
    destruct (kdf scrypt pwd salt param) as [dkey|e] eqn:K; [|unfold EncryptWithCustomScrypt; rewrite K; eexists; reflexivity].
    assert (St : exists alg cn, storable k alg cn).
    { assert (U : usable param) by (apply (kdf_iff _ _ _ _ R) in K; tauto).
      assert (Dc : (exists alg cn, storable k alg cn) \/ forall alg cn, ~ storable k alg cn).
      { destruct k as [al d p|b|d p|t].
        - destruct (Z.eq_dec al 0) as [-> |N0]; [left; eexists _, _; constructor|]. destruct (Z.eq_dec al 1) as [-> |N1]; [left; eexists _, _; constructor|].
          right. intros a c S. inversion S; subst; contradiction.
        - left. eexists _, _. constructor.
        - right. intros a c S. inversion S.
        - right. intros a c S. inversion S. }
      destruct Dc as [|Dc]; [assumption|]. exfalso. apply N. split; [eexists; reflexivity|right; split; assumption]. }
    destruct St as (alg & cn & St). rewrite (encrypt_val scrypt bc bc_ok shape k alg cn salt addr pwd param dkey St K). eexists. reflexivity.
Qed.

(** ** Changing the password *)
Hypothesis sbm_value : forall c b b', octets b -> octets b' -> value b 0 = value b' 0 -> sbm c b = sbm c b'.
Lemma rebuilt_storable : forall alg cn p k, rebuilt sbm alg cn p k -> exists cn', storable k alg cn'.
Proof.
  intros alg cn p k [(-> & _ & ->)|(a & c & Ha & _ & ->)]; [eexists; constructor|]. destruct Ha as [[-> ->]|[-> ->]]; eexists; constructor.
Qed.
(** Re-encryption succeeds exactly if the old password opens the record and the new parameters are usable.  The new record has the same address, the
    drawn salt and the same kind of key; it opens under the new password to the same key, or under no parameters at all if the new password is empty. *)
Theorem C94_reencrypt : forall salt prot old new po pn, representable po -> representable pn -> octets (pt_Key prot) ->
  (forall prot', RSc (Ok salt) (Some prot) old new po pn = Val (Ok prot') ->
     exists k, DSc (Some prot) old po = Val (Ok k) /\ usable pn /\ holds prot' new pn (secret k) /\
       pt_Address prot' = pt_Address prot /\ pt_EncAlg prot' = "aes-256-gcm"%string /\ pt_Salt prot' = salt /\ pt_Alg prot' = pt_Alg prot /\
       (new <> [] -> DSc (Some prot') new pn = Val (Ok k)) /\
       (new = [] -> forall param, exists e, DSc (Some prot') new param = Val (Err e))) /\
  (forall k, DSc (Some prot) old po = Val (Ok k) -> usable pn -> exists prot', RSc (Ok salt) (Some prot) old new po pn = Val (Ok prot')).
Proof.
  intros salt prot old new po pn Ro Rn Oc. split.
  - intros prot' H. unfold ReencryptS in H. destruct (DSc (Some prot) old po) as [[k|e]| |] eqn:Dk; try discriminate H. cbn [bind] in H. exists k. split; [reflexivity|].
    assert (Dk' := Dk). apply (C94_decrypt _ _ _ _ Ro) in Dk'. destruct Dk' as (Np & U & p & Ho & Rb). destruct (rebuilt_storable _ _ _ _ Rb) as (cn' & St).
    assert (H' := H). apply (C94_encrypt _ _ _ _ _ _ _ _ St Rn) in H'. destruct H' as (Un & dkey & Dv & EP). split; [exact Un|].
    assert (RP : ReencryptPrivateKey sbm scrypt bc sha256 (Ok salt) (Some prot) old new po pn = Val (Ok prot')).
    { unfold ReencryptPrivateKey. rewrite <- plain_when_safe by (try assumption; apply usable_not_fatal; exact U). rewrite Dk. cbn [bind].
      unfold EncryptS in H. rewrite kdf_safe in H by (try assumption; apply usable_not_fatal; exact Un). exact H. }
    destruct (C30_reencrypt_preserves sbm scrypt bc sha256 bc_ok shape salt prot old new po pn prot' sbm_value Oc RP) as (k' & Dk' & A & E & S & Dn).
    assert (k' = k) by (rewrite <- plain_when_safe in Dk' by (try assumption; apply usable_not_fatal; exact U); congruence). subst k'.
    split; [rewrite EP; apply ho_gcm with dkey; [reflexivity|exact Dv|reflexivity]|]. split; [exact A|]. split; [exact E|]. split; [exact S|]. split; [rewrite EP; reflexivity|]. split.
    + intros Nn. rewrite plain_when_safe by (try assumption; apply usable_not_fatal; exact Un). exact (Dn Nn).
    + intros -> param. eexists. reflexivity.
  - intros k Dk Un. assert (Dk' := Dk). apply (C94_decrypt _ _ _ _ Ro) in Dk'. destruct Dk' as (_ & _ & p & _ & Rb). destruct (rebuilt_storable _ _ _ _ Rb) as (cn' & St).
    destruct (usable_derives new salt pn Rn Un) as (dkey & Dv). eexists. unfold ReencryptS. rewrite Dk. cbn [bind].
    apply (C94_encrypt _ _ _ _ _ _ _ _ St Rn). split; [exact Un|]. exists dkey. split; [exact Dv|reflexivity].
Qed.
(** and it panics exactly if decryption does, or decryption succeeds and the new parameters are fatal *)
Theorem C94_reencrypt_panics : forall salt prot old new po pn, representable po -> representable pn ->
  let opens := exists k, DSc (Some prot) old po = Val (Ok k) in
  let reaches := old <> [] /\ (pt_EncAlg prot = "aes-256-gcm"%string \/ pt_EncAlg prot = "aes-256-ctr"%string) /\ fatal po \/ opens /\ fatal pn in
  (reaches -> RSc (Ok salt) (Some prot) old new po pn = Panic "integer divide by zero") /\
  (~ reaches -> exists r, RSc (Ok salt) (Some prot) old new po pn = Val r).
Proof.
  intros salt prot old new po pn Ro Rn opens reaches. destruct (C94_decrypt_panics prot old po Ro) as [P1 P2]. split.
  - intros [F|[(k & Dk) F]].
    + unfold ReencryptS. rewrite (P1 F). reflexivity.
    + unfold ReencryptS. rewrite Dk. cbn [bind]. unfold EncryptS. rewrite kdf_fatal by assumption. reflexivity.
  - intros N. destruct P2 as (r & E); [intros H; apply N; left; exact H|]. unfold ReencryptS. rewrite E. cbn [bind]. destruct r as [k|e]; [|eexists; reflexivity].
    assert (Dk := E). apply (C94_decrypt _ _ _ _ Ro) in Dk. destruct Dk as (_ & _ & p & _ & Rb). destruct (rebuilt_storable _ _ _ _ Rb) as (cn' & St).
    apply C94_encrypt_panics; [exact Rn|]. intros (_ & [F|[_ NS]]); [|exact (NS _ _ St)]. apply N. right. split; [exists k; exact E|exact F].
Qed.


(** ** Any number of changes *)
(** a change of password that is expected to work *)
Definition fine (c : bytes * bytes * ScryptParam) : Prop := snd (fst c) <> [] /\ representable (snd c) /\ usable (snd c).
Lemma whole_encrypted : forall k salt addr pwd param, whole sbm k -> fine (salt, pwd, param) ->
  exists prot, ESc (Ok salt) k addr pwd param = Val (Ok prot) /\ pt_Address prot = addr /\ holds prot pwd param (secret k) /\ DSc (Some prot) pwd param = Val (Ok k).
Proof.
  intros k salt addr pwd param W (Np & R & U). cbn [fst snd] in *. destruct (whole_storable sbm k W) as (alg & cn & St & Rb).
  destruct (usable_derives pwd salt param R U) as (dkey & Dv). eexists. split; [apply (C94_encrypt k alg cn _ _ _ _ _ St R); split; [exact U|]; exists dkey; split; [exact Dv|reflexivity]|].
  split; [reflexivity|]. match goal with |- holds ?q _ _ _ /\ _ => assert (Ho : holds q pwd param (secret k)) by (apply ho_gcm with dkey; [reflexivity|exact Dv|reflexivity]) end.
  split; [exact Ho|]. apply C94_decrypt; [exact R|]. split; [exact Np|]. split; [exact U|]. exists (secret k). split; [exact Ho|exact Rb].
Qed.
(** A key that is encrypted and then re-encrypted any number of times: every step succeeds, and the last record opens to the key under the last
    password and parameters. *)
Theorem C94_changes : forall k addr l salt pwd param, whole sbm k -> Forall fine ((salt, pwd, param) :: l) ->
  exists prot0 prot salt' pwd' param', ESc (Ok salt) k addr pwd param = Val (Ok prot0) /\
    changes sha256 sbm bc prot0 pwd param l = Val (Ok (prot, pwd', param')) /\ last ((salt, pwd, param) :: l) ([], [], param) = (salt', pwd', param') /\
    pt_Address prot = addr /\ holds prot pwd' param' (secret k) /\ DSc (Some prot) pwd' param' = Val (Ok k).
Proof.
  intros k addr l. induction l as [|[[salt1 pwd1] param1] l IH]; intros salt pwd param W F.
  - inversion F as [|c l Fc _]; subst. destruct (whole_encrypted k salt addr pwd param W Fc) as (prot & E & A & Ho & D).
    exists prot, prot, salt, pwd, param. split; [exact E|]. split; [reflexivity|]. split; [reflexivity|]. split; [exact A|]. split; [exact Ho|exact D].
  - inversion F as [|c l' Fc Fl]; subst. destruct (whole_encrypted k salt addr pwd param W Fc) as (prot & E & A & Ho & D).
    destruct (IH salt1 pwd1 param1 W Fl) as (prot1 & protn & salt' & pwd' & param' & E1 & C & La & An & Hn & Dn).
    exists prot, protn, salt', pwd', param'. split; [exact E|]. split; [|split; [|split; [exact An|split; [exact Hn|exact Dn]]]].
    + cbn [changes]. unfold ReencryptS. rewrite D. cbn [bind]. rewrite A, E1. cbn [bind]. exact C.
    + change (last ((salt, pwd, param) :: (salt1, pwd1, param1) :: l) ([], [], param)) with (last ((salt1, pwd1, param1) :: l) ([], [], param)). rewrite <- La.
      clear. generalize (salt1, pwd1, param1). intros c. revert c. induction l as [|d l IH]; intros c; [reflexivity|]. exact (IH d).
Qed.
End Hash.

(** ** Nothing left open: SHA-256, AES and the curves of the repository *)
Notation key_ok := (whole ScalarBaseMult).
(** wallets with the default parameters, changed any number of times *)
Theorem C94_wallet : forall k addr (l : list (bytes * bytes)) salt pwd, key_ok k -> Forall (fun c => snd c <> []) ((salt, pwd) :: l) ->
  exists prot0 prot pwd', EncryptS SHA256 aes_cipher (Ok salt) k addr pwd GetScryptParameters = Val (Ok prot0) /\
    changes SHA256 ScalarBaseMult aes_cipher prot0 pwd GetScryptParameters (map (fun c => (c, GetScryptParameters)) l) = Val (Ok (prot, pwd', GetScryptParameters)) /\
    snd (last ((salt, pwd) :: l) ([], [])) = pwd' /\ DecryptS SHA256 ScalarBaseMult aes_cipher (Some prot) pwd' GetScryptParameters = Val (Ok k).
Proof.
  intros k addr l salt pwd W F.
  assert (R : representable GetScryptParameters) by (unfold representable, int64; cbn [GetScryptParameters sp_N sp_R sp_P sp_DKLen]; lia).
  assert (U : usable GetScryptParameters) by (split; [cbn [GetScryptParameters sp_DKLen]; lia|exact (proj1 C92_fits)]).
  destruct (C94_changes SHA256 SHA256_length SHA256_octets ScalarBaseMult aes_cipher aes_cipher_shape k addr (map (fun c => (c, GetScryptParameters)) l) salt pwd GetScryptParameters W)
    as (prot0 & prot & salt' & pwd' & param' & E & C & La & A & Ho & D).
  - change (Forall fine (map (fun c => (c, GetScryptParameters)) ((salt, pwd) :: l))). apply Forall_map. revert F. apply Forall_impl. intros c H. split; [exact H|split; assumption].
  - assert (L : forall c, last (map (fun c : bytes * bytes => (c, GetScryptParameters)) (c :: l)) ([], [], GetScryptParameters) = (last (c :: l) ([], []), GetScryptParameters)).
    { clear. induction l as [|d l IH]; intros c; [reflexivity|]. exact (IH d). }
    specialize (L (salt, pwd)). cbn [map] in L. assert (La' := eq_trans (eq_sym L) La). injection La' as E1 E2. subst param'.
    exists prot0, prot, pwd'. split; [exact E|]. split; [exact C|]. split; [exact (f_equal snd E1)|exact D].
Qed.
Print Assumptions C94_decrypt_panics.
Print Assumptions C94_decrypt.
Print Assumptions C94_encrypt.
Print Assumptions C94_encrypt_panics.
Print Assumptions C94_reencrypt.
Print Assumptions C94_reencrypt_panics.
Print Assumptions C94_changes.
Print Assumptions C94_wallet.

(** ** Examples *)
Definition wkey : privkey := SkEd (repeat 7 64).
Lemma wkey_ok : key_ok wkey.
Proof. exact (wh_ed ScalarBaseMult (repeat 7 64) eq_refl). Qed.
Definition bad : ScryptParam := {| sp_P := 0; sp_N := 16384; sp_R := 8; sp_DKLen := 64 |}.
Example C94_params : representable GetScryptParameters /\ usable GetScryptParameters /\ ~ fatal GetScryptParameters /\ representable bad /\ fatal bad /\
  usable {| sp_P := 1; sp_N := 2; sp_R := 1; sp_DKLen := 32 |} /\ ~ usable {| sp_P := 1; sp_N := 2; sp_R := 1; sp_DKLen := 31 |}.
Proof.
  unfold representable, int64. cbn [GetScryptParameters bad sp_N sp_R sp_P sp_DKLen]. assert (U : usable GetScryptParameters) by (split; [cbn [GetScryptParameters sp_DKLen]; lia|exact (proj1 C92_fits)]).
  split; [lia|]. split; [exact U|]. split; [apply usable_not_fatal; exact U|]. split; [lia|].
  split; [split; [cbn [bad sp_DKLen]; lia|split; [exists 14; split; [lia|reflexivity]|left; reflexivity]]|].
  split; [split; [cbn [sp_DKLen]; lia|exact (proj1 (proj2 C92_fits))]|]. intros [H _]. cbn [sp_DKLen] in H. lia.
Qed.
(** two changes of password, the second to [5] *)
Example C94_twice : exists prot0 prot, EncryptS SHA256 aes_cipher (Ok [1]) wkey [65; 66] [3] GetScryptParameters = Val (Ok prot0) /\
  changes SHA256 ScalarBaseMult aes_cipher prot0 [3] GetScryptParameters [([2], [4], GetScryptParameters); ([3], [5], GetScryptParameters)] = Val (Ok (prot, [5], GetScryptParameters)) /\
  DecryptS SHA256 ScalarBaseMult aes_cipher (Some prot) [5] GetScryptParameters = Val (Ok wkey).
Proof.
  destruct (C94_wallet wkey [65; 66] [([2], [4]); ([3], [5])] [1] [3] wkey_ok) as (prot0 & prot & pwd' & E & C & L & D).
  - repeat constructor; discriminate.
  - cbn [last snd] in L. subst pwd'. exists prot0, prot. split; [exact E|]. split; [exact C|exact D].
Qed.
(** the empty password locks the key away, and fatal parameters end the program instead *)
Example C94_lost : exists prot0 prot, EncryptS SHA256 aes_cipher (Ok [1]) wkey [65; 66] [3] GetScryptParameters = Val (Ok prot0) /\
  ReencryptS SHA256 ScalarBaseMult aes_cipher (Ok [2]) (Some prot0) [3] [] GetScryptParameters GetScryptParameters = Val (Ok prot) /\
  (forall param, exists e, DecryptS SHA256 ScalarBaseMult aes_cipher (Some prot) [] param = Val (Err e)) /\
  ReencryptS SHA256 ScalarBaseMult aes_cipher (Ok [2]) (Some prot0) [3] [4] GetScryptParameters bad = Panic "integer divide by zero".
Proof.
  destruct C94_params as (R & U & NF & Rb & Fb & _).
  destruct (whole_encrypted SHA256 SHA256_length SHA256_octets ScalarBaseMult aes_cipher aes_cipher_shape wkey [1] [65; 66] [3] GetScryptParameters wkey_ok) as (prot0 & E & _ & _ & D).
  { split; [discriminate|]. split; [exact R|exact U]. }
  exists prot0. assert (D' := D). unfold ReencryptS. rewrite D. cbn [bind].
  assert (Q : exists prot, EncryptS SHA256 aes_cipher (Ok [2]) wkey (pt_Address prot0) [] GetScryptParameters = Val (Ok prot)).
  { destruct (usable_derives SHA256 SHA256_length SHA256_octets [] [2] GetScryptParameters R U) as (dkey & Dv). eexists.
    apply (C94_encrypt SHA256 SHA256_length SHA256_octets aes_cipher aes_cipher_shape wkey _ _ _ _ _ _ _ (st_ed (repeat 7 64)) R). split; [exact U|]. exists dkey. split; [exact Dv|reflexivity]. }
  destruct Q as (prot & Q). exists prot. split; [exact E|]. split; [exact Q|]. split; [intros param; eexists; reflexivity|].
  unfold EncryptS. rewrite (kdf_fatal SHA256 [4] [2] bad Rb Fb). reflexivity.
Qed.
