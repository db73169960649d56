(** * Prop_Encrypt: properties C28 to C30 (/repo/keypair/encrypt.go) *)
From Coq Require Import ZArith String List Bool Lia.
From Verif Require Import Base BaseFacts Curves ECKey Keypair AES Spec_AES AESFacts Spec_GCM Encrypt EncryptFacts
  Spec_EC ECFacts ECFacts2 Spec_Keys KeyFacts Prop_Keys Spec_SHA2.
Import ListNotations.
Open Scope Z_scope.

Lemma named_curve_supported : forall c a, supported c a -> GetNamedCurve (c_name c) = Ok c.
Proof. intros c a H. destruct H; vm_compute; reflexivity. Qed.
Lemma GetCurve_cases : forall l c, GetCurve l = Ok c -> exists a, supported c a.
Proof. intros l c H. apply GetCurve_inv in H. eapply label_supported. exact H. Qed.
Lemma named_curve_cases : forall s c, GetNamedCurve s = Ok c -> exists a, supported c a.
Proof.
  intros s c H. unfold GetNamedCurve in H. destruct (GetNamedCurveLabel s) as [l|]; [|discriminate].
  eapply GetCurve_cases. exact H.
Qed.

Section Encrypt.
Variable sbm : curve -> bytes -> Z * Z.
Variable scrypt : bytes -> bytes -> Z -> Z -> Z -> Z -> res bytes.
Variable bc : block_cipher.
Variable sha256 : bytes -> bytes.
Hypothesis bc_ok : bc_shape bc.
Hypothesis scrypt_shape : forall pwd salt N r p l k, scrypt pwd salt N r p l = Ok k ->
  Z.of_nat (length k) = l /\ octets k.

Notation Encr := (EncryptWithCustomScrypt scrypt bc).
Notation Decr := (DecryptWithCustomScrypt sbm scrypt bc sha256).

(** key and nonce: the last 32 and the first 12 bytes of the scrypt output *)
Definition derived (pwd salt : bytes) (param : ScryptParam) (ekey nonce : bytes) : Prop :=
  exists dkey, scrypt pwd salt (sp_N param) (sp_R param) (sp_P param) (sp_DKLen param) = Ok dkey /\
    nonce = firstn 12 dkey /\ ekey = skipn (length dkey - 32) dkey.

Lemma kdf_ok : forall pwd salt param dkey, kdf scrypt pwd salt param = Ok dkey ->
  32 <= sp_DKLen param /\ scrypt pwd salt (sp_N param) (sp_R param) (sp_P param) (sp_DKLen param) = Ok dkey /\
  slice dkey 0 12 = Val (firstn 12 dkey) /\ slice dkey 0 16 = Val (firstn 16 dkey) /\
  slice dkey (zlen dkey - 32) (zlen dkey) = Val (skipn (length dkey - 32) dkey) /\
  length (skipn (length dkey - 32) dkey) = 32%nat /\ octets dkey /\ length (firstn 12 dkey) = 12%nat /\ length (firstn 16 dkey) = 16%nat.
Proof.
  intros pwd salt param dkey H. unfold kdf in H. destruct (Z.ltb_spec (sp_DKLen param) 32); [discriminate|].
  destruct (scrypt_shape _ _ _ _ _ _ _ H) as [L O].
  split; [assumption|]. split; [exact H|]. unfold zlen.
  split; [rewrite slice_ok by (unfold zlen; lia); reflexivity|].
  split; [rewrite slice_ok by (unfold zlen; lia); reflexivity|].
  split.
  { rewrite slice_ok by (unfold zlen; lia).
    replace (Z.to_nat (Z.of_nat (length dkey) - 32)) with (length dkey - 32)%nat by lia.
    rewrite firstn_all2; [reflexivity|]. rewrite skipn_length. lia. }
  rewrite skipn_length, !firstn_length. repeat split; try lia. exact O.
Qed.
Lemma key_E : forall ekey : bytes, length ekey = 32%nat -> octets ekey ->
  gcmCipher bc ekey = Ok (bc_enc bc ekey) /\ forall c, ctr_ok c -> ctr_ok (bc_enc bc ekey c).
Proof.
  intros ekey L O. assert (K : key_size (length ekey)) by (right; right; exact L). split.
  - unfold gcmCipher. apply key_ok_iff in K. rewrite K. reflexivity.
  - intros c [Lc Wc]. apply (bc_ok ekey c K O Lc Wc).
Qed.

(** the secret that is encrypted, and the record around it *)
Definition secret (k : privkey) : bytes :=
  match k with SkEC _ d _ => big_bytes d | SkEd b => b | _ => [] end.
Inductive storable : privkey -> string -> string -> Prop :=
| st_ecdsa : forall d p, storable (SkEC 0 d p) "ECDSA" (c_name (pk_curve p))
| st_sm2 : forall d p, storable (SkEC 1 d p) "SM2" (c_name (pk_curve p))
| st_ed : forall b, storable (SkEd b) "Ed25519" "".

Lemma encrypt_val : forall k alg cn salt addr pwd param dkey, storable k alg cn ->
  kdf scrypt pwd salt param = Ok dkey ->
  Encr (Ok salt) k addr pwd param = Val (Ok {| pt_Address := addr; pt_EncAlg := "aes-256-gcm";
    pt_Key := gcm_seal (bc_enc bc (skipn (length dkey - 32) dkey)) (firstn 12 dkey) (secret k) addr;
    pt_Alg := alg; pt_Salt := salt; pt_curve := cn |}).
Proof.
  intros k alg cn salt addr pwd param dkey H K. unfold EncryptWithCustomScrypt. rewrite K.
  destruct (kdf_ok _ _ _ _ K) as (_ & _ & S1 & _ & S2 & L & O & _).
  rewrite S1. cbn [bind]. rewrite S2. cbn [bind].
  destruct (key_E _ L (wf_skipn _ _ O)) as [G _].
  destruct H; cbn [secret]; rewrite G; reflexivity.
Qed.

(** a private key as decryption rebuilds it *)
Definition rebuilt (alg cn : string) (p : bytes) (k : privkey) : Prop :=
  (alg = "Ed25519"%string /\ length p = 64%nat /\ k = SkEd p) \/
  (exists a c, (alg = "ECDSA"%string /\ a = 0 \/ alg = "SM2"%string /\ a = 1) /\ GetNamedCurve cn = Ok c /\
     k = SkEC a (value p 0) {| pk_curve := c; pk_X := fst (sbm c p); pk_Y := snd (sbm c p) |}).

Ltac finish_tac :=
  match goal with |- context [String.eqb ?a "ECDSA"] =>
    destruct (String.eqb_spec a "ECDSA"); [|destruct (String.eqb_spec a "SM2"); [|destruct (String.eqb_spec a "Ed25519")]]
  end; cbn [orb].

(** C29: what a successful decryption means *)
Lemma decrypt_inv : forall prot pwd param k, Decr (Some prot) pwd param = Val (Ok k) ->
  pwd <> [] /\
  ((pt_EncAlg prot = "aes-256-gcm"%string /\ exists ekey nonce p,
      derived pwd (pt_Salt prot) param ekey nonce /\ 32 <= sp_DKLen param /\
      gcm_open (bc_enc bc ekey) nonce (pt_Key prot) (pt_Address prot) = Ok p /\
      pt_Key prot = gcm_seal (bc_enc bc ekey) nonce p (pt_Address prot) /\
      rebuilt (pt_Alg prot) (pt_curve prot) p k) \/
   (pt_EncAlg prot = "aes-256-ctr"%string /\ exists ekey iv,
      (exists dkey, kdf scrypt pwd (firstn 4 (sha256 (sha256 (pt_Address prot)))) param = Ok dkey /\
         iv = firstn 16 dkey /\ ekey = skipn (length dkey - 32) dkey) /\
      rebuilt (pt_Alg prot) (pt_curve prot) (ctr_mode inc128 (bc_enc bc ekey) (blocks (pt_Key prot)) iv (pt_Key prot)) k)).
Proof.
  intros prot pwd param k. unfold DecryptWithCustomScrypt, dec_err.
  destruct (Z.eqb_spec (zlen pwd) 0) as [|Np]; [discriminate|].
  assert (Npwd : pwd <> []) by (intros ->; apply Np; reflexivity).
  intros H. split; [exact Npwd|]. revert H.
  assert (F : forall p, rebuild_key sbm prot p = Val (Ok k) -> rebuilt (pt_Alg prot) (pt_curve prot) p k).
  { intros p. unfold rebuild_key, dec_err. finish_tac.
    - destruct (GetNamedCurve (pt_curve prot)) as [c|] eqn:G; [|discriminate].
      unfold ConstructPrivateKey. destruct (sbm c p) as [x y] eqn:Sb. intros H. apply val_inj in H. injection H as <-.
      right. exists 0, c. split; [auto|]. split; [exact G|]. rewrite value_be2z, Sb. reflexivity.
    - destruct (GetNamedCurve (pt_curve prot)) as [c|] eqn:G; [|discriminate].
      unfold ConstructPrivateKey. destruct (sbm c p) as [x y] eqn:Sb. intros H. apply val_inj in H. injection H as <-.
      right. exists 1, c. split; [auto|]. split; [exact G|]. rewrite value_be2z, Sb. reflexivity.
    - destruct (Z.eqb_spec (zlen p) 64) as [L|]; [|discriminate]. intros H. apply val_inj in H. injection H as <-.
      left. repeat split; auto. unfold zlen in L. lia.
    - discriminate. }
  destruct (String.eqb_spec (pt_EncAlg prot) "aes-256-gcm") as [A|_]; [|destruct (String.eqb_spec (pt_EncAlg prot) "aes-256-ctr") as [A|_]; [|discriminate]].
  - destruct (kdf scrypt pwd (pt_Salt prot) param) as [dkey|] eqn:K; [|discriminate].
    destruct (kdf_ok _ _ _ _ K) as (D & Sc & S1 & _ & S2 & L & O & L12 & _).
    rewrite S2. cbn [bind]. rewrite S1. cbn [bind].
    destruct (key_E _ L (wf_skipn _ _ O)) as [G EO]. rewrite G.
    destruct (gcm_open _ _ _ _) as [p|] eqn:Op; [|discriminate]. intros H. left. split; [exact A|].
    exists (skipn (length dkey - 32) dkey), (firstn 12 dkey), p.
    split; [exists dkey; auto|]. split; [exact D|]. split; [exact Op|]. split; [|apply F; exact H].
    apply (gcm_open_sound _ EO _ L12 (wf_firstn _ _ O)). exact Op.
  - unfold saltFromAddress. destruct (slice (sha256 _) 0 4) as [s4| |] eqn:S4; try discriminate. cbn [bind].
    assert (E4 : s4 = firstn 4 (sha256 (sha256 (pt_Address prot)))).
    { unfold slice in S4. destruct (_ && _); [|discriminate]. apply val_inj in S4. rewrite <- S4. reflexivity. }
    subst s4. destruct (kdf scrypt pwd _ param) as [dkey|] eqn:K; [|discriminate].
    destruct (kdf_ok _ _ _ _ K) as (D & Sc & _ & S1 & S2 & L & O & _ & L16).
    rewrite S1. cbn [bind]. rewrite S2. cbn [bind]. unfold ctrCipher.
    assert (Kk : aes_key_ok (skipn (length dkey - 32) dkey) = true) by (apply key_ok_iff; right; right; exact L). rewrite Kk.
    assert (Z16 : (zlen (firstn 16 dkey) =? 16) = true) by (apply Z.eqb_eq; unfold zlen; lia). rewrite Z16. cbn [bind].
    intros H. right. split; [exact A|]. exists (skipn (length dkey - 32) dkey), (firstn 16 dkey).
    split; [exists dkey; auto|]. apply F. exact H.
Qed.

Lemma decrypt_gcm_val : forall prot pwd param dkey p k, pwd <> [] -> pt_EncAlg prot = "aes-256-gcm"%string ->
  kdf scrypt pwd (pt_Salt prot) param = Ok dkey ->
  pt_Key prot = gcm_seal (bc_enc bc (skipn (length dkey - 32) dkey)) (firstn 12 dkey) p (pt_Address prot) ->
  rebuilt (pt_Alg prot) (pt_curve prot) p k ->
  Decr (Some prot) pwd param = Val (Ok k).
Proof.
  intros prot pwd param dkey p k Np A K Hk R. unfold DecryptWithCustomScrypt, dec_err.
  destruct (Z.eqb_spec (zlen pwd) 0) as [H0|_]; [exfalso; apply Np; destruct pwd; [reflexivity|unfold zlen in H0; cbn in H0; lia]|].
  rewrite A. change (String.eqb "aes-256-gcm" "aes-256-gcm") with true. cbv iota.
  rewrite K. destruct (kdf_ok _ _ _ _ K) as (D & Sc & S1 & _ & S2 & L & O & L12 & _).
  rewrite S2. cbn [bind]. rewrite S1. cbn [bind].
  destruct (key_E _ L (wf_skipn _ _ O)) as [G EO]. rewrite G. rewrite Hk.
  rewrite (gcm_open_seal _ EO _ L12 (wf_firstn _ _ O)).
  clear Hk. unfold rebuild_key, dec_err. set (al := pt_Alg prot) in *. set (cn := pt_curve prot) in *. clearbody al cn. destruct R as [(-> & Lp & ->)|(a & c & Ha & Hc & ->)].
  - cbn. destruct (Z.eqb_spec (zlen p) 64) as [|N]; [reflexivity|]. exfalso. apply N. unfold zlen. lia.
  - destruct Ha as [[-> ->]|[-> ->]]; cbn -[GetNamedCurve ConstructPrivateKey]; rewrite Hc;
      unfold ConstructPrivateKey; destruct (sbm c p); rewrite value_be2z; reflexivity.
Qed.

(** ** C28 *)
(** a key whose public point belongs to its scalar, on a supported curve, or an Ed25519 key *)
Inductive whole : privkey -> Prop :=
| wh_ec : forall alg c a d x y, alg = 0 \/ alg = 1 -> supported c a -> 0 <= d -> sbm c (big_bytes d) = (x, y) ->
    whole (SkEC alg d {| pk_curve := c; pk_X := x; pk_Y := y |})
| wh_ed : forall b, length b = 64%nat -> whole (SkEd b).

Lemma whole_storable : forall k, whole k -> exists alg cn, storable k alg cn /\ rebuilt alg cn (secret k) k.
Proof.
  intros k H. destruct H as [alg c a d x y Ha Hs Hd Hm|b L].
  - destruct Ha as [-> | ->].
    + exists "ECDSA"%string, (c_name c). split; [constructor|]. right. exists 0, c. split; [auto|].
      split; [eapply named_curve_supported; exact Hs|]. cbn [secret]. rewrite Hm. cbn [fst snd].
      rewrite value_be2z, be2z_big_bytes by lia. reflexivity.
    + exists "SM2"%string, (c_name c). split; [constructor|]. right. exists 1, c. split; [auto|].
      split; [eapply named_curve_supported; exact Hs|]. cbn [secret]. rewrite Hm. cbn [fst snd].
      rewrite value_be2z, be2z_big_bytes by lia. reflexivity.
  - exists "Ed25519"%string, ""%string. split; [constructor|]. left. auto.
Qed.

Theorem C28_encrypt_decrypt : forall k salt addr pwd param dkey, whole k -> 32 <= sp_DKLen param ->
  scrypt pwd salt (sp_N param) (sp_R param) (sp_P param) (sp_DKLen param) = Ok dkey ->
  exists prot, Encr (Ok salt) k addr pwd param = Val (Ok prot) /\
    pt_Address prot = addr /\ pt_Salt prot = salt /\
    (pwd <> [] -> Decr (Some prot) pwd param = Val (Ok k)) /\
    (pwd = [] -> forall param', exists e, Decr (Some prot) pwd param' = Val (Err e)).
Proof.
  intros k salt addr pwd param dkey W D Sc.
  assert (K : kdf scrypt pwd salt param = Ok dkey).
  { unfold kdf. destruct (Z.ltb_spec (sp_DKLen param) 32); [lia|exact Sc]. }
  destruct (whole_storable k W) as (alg & cn & St & R).
  eexists. split; [apply (encrypt_val k alg cn salt addr pwd param dkey St K)|].
  split; [reflexivity|]. split; [reflexivity|]. split.
  - intros Np. apply (decrypt_gcm_val _ pwd param dkey (secret k) k Np); auto.
  - intros -> param'. eexists. reflexivity.
Qed.

(** the two functions without parameters: scrypt with N = 16384, r = 8, p = 8 and 64 bytes of output, in both directions *)
Theorem C28_default_parameters : forall k salt addr pwd dkey, whole k -> pwd <> [] -> scrypt pwd salt 16384 8 8 64 = Ok dkey ->
  exists prot, EncryptPrivateKey scrypt bc (Ok salt) k addr pwd = Val (Ok prot) /\
    pt_Address prot = addr /\ pt_Salt prot = salt /\
    pt_Key prot = gcm_seal (bc_enc bc (skipn 32 dkey)) (firstn 12 dkey) (secret k) addr /\
    DecryptPrivateKey sbm scrypt bc sha256 (Some prot) pwd = Val (Ok k).
Proof.
  intros k salt addr pwd dkey W Np Sc.
  assert (K : kdf scrypt pwd salt GetScryptParameters = Ok dkey) by exact Sc.
  destruct (whole_storable k W) as (alg & cn & St & R).
  destruct (scrypt_shape _ _ _ _ _ _ _ Sc) as [L _].
  assert (L64 : (length dkey - 32 = 32)%nat) by lia.
  eexists. split; [apply (encrypt_val k alg cn salt addr pwd GetScryptParameters dkey St K)|].
  split; [reflexivity|]. split; [reflexivity|]. split; [cbn [pt_Key]; rewrite L64; reflexivity|].
  apply (decrypt_gcm_val _ pwd GetScryptParameters dkey (secret k) k Np); auto.
Qed.
(** and a password for which scrypt fails (or the empty one, for decryption) gives an error *)
Theorem C28_default_errors : forall k salt addr pwd e, scrypt pwd salt 16384 8 8 64 = Err e ->
  EncryptPrivateKey scrypt bc (Ok salt) k addr pwd = Val (Err ("encrypt private key error: " ++ e)%string) /\
  (forall prot, pwd <> [] -> pt_EncAlg prot = "aes-256-gcm"%string -> pt_Salt prot = salt ->
     DecryptPrivateKey sbm scrypt bc sha256 (Some prot) pwd = Val (Err ("decrypt private key error: " ++ e)%string)).
Proof.
  intros k salt addr pwd e Sc. assert (K : kdf scrypt pwd salt GetScryptParameters = Err e) by exact Sc. split.
  - unfold EncryptPrivateKey, EncryptWithCustomScrypt, enc_err. rewrite K. reflexivity.
  - intros prot Np A Es. unfold DecryptPrivateKey, DecryptWithCustomScrypt, dec_err.
    destruct (Z.eqb_spec (zlen pwd) 0) as [H0|_]; [exfalso; apply Np; destruct pwd; [reflexivity|unfold zlen in H0; cbn in H0; lia]|].
    rewrite A. change (String.eqb "aes-256-gcm" "aes-256-gcm") with true. cbv iota. rewrite Es, K. reflexivity.
Qed.

(** other keys: Ethereum keys and unknown algorithm values panic once the password is processed *)
Theorem C28_unsupported_keys_panic : forall k salt addr pwd param dkey,
  (forall alg cn, ~ storable k alg cn) -> 32 <= sp_DKLen param ->
  scrypt pwd salt (sp_N param) (sp_R param) (sp_P param) (sp_DKLen param) = Ok dkey ->
  exists why, Encr (Ok salt) k addr pwd param = Panic why.
Proof.
  intros k salt addr pwd param dkey N D Sc.
  assert (K : kdf scrypt pwd salt param = Ok dkey).
  { unfold kdf. destruct (Z.ltb_spec (sp_DKLen param) 32); [lia|exact Sc]. }
  unfold EncryptWithCustomScrypt. rewrite K.
  destruct (kdf_ok _ _ _ _ K) as (_ & _ & S1 & _ & S2 & _).
  rewrite S1. cbn [bind]. rewrite S2. cbn [bind].
  destruct k as [alg d p|b|d p|t]; try (eexists; reflexivity).
  - destruct (Z.eqb_spec alg ECDSA) as [->|]; [exfalso; eapply N; constructor|].
    destruct (Z.eqb_spec alg SM2) as [->|]; [exfalso; eapply N; constructor|]. eexists. reflexivity.
  - exfalso. eapply N. constructor.
Qed.

(** ** C29 *)
Theorem C29_decrypt_authenticates : forall prot pwd param k,
  Decr (Some prot) pwd param = Val (Ok k) -> pt_EncAlg prot <> "aes-256-ctr"%string ->
  pwd <> [] /\ pt_EncAlg prot = "aes-256-gcm"%string /\ exists ekey nonce p,
    derived pwd (pt_Salt prot) param ekey nonce /\ length ekey = 32%nat /\ length nonce = 12%nat /\
    pt_Key prot = gcm_seal (bc_enc bc ekey) nonce p (pt_Address prot) /\
    rebuilt (pt_Alg prot) (pt_curve prot) p k.
Proof.
  intros prot pwd param k H N. destruct (decrypt_inv _ _ _ _ H) as (Np & [(A & ekey & nonce & p & Dv & D & _ & S & R)|(A & _)]); [|contradiction].
  split; [exact Np|]. split; [exact A|]. exists ekey, nonce, p. split; [exact Dv|].
  destruct Dv as (dkey & Sc & -> & ->). destruct (scrypt_shape _ _ _ _ _ _ _ Sc) as [L _].
  rewrite skipn_length, firstn_length. repeat split; auto; lia.
Qed.

(** The other accepted value of EncAlg has no authentication at all: every ciphertext is
    accepted as an EC key, whatever the password. *)
Theorem C29_ctr_accepts_everything : forall prot pwd param dkey c,
  (forall x, length (sha256 x) = 32%nat) ->
  pt_EncAlg prot = "aes-256-ctr"%string -> pt_Alg prot = "ECDSA"%string -> GetNamedCurve (pt_curve prot) = Ok c ->
  pwd <> [] -> 32 <= sp_DKLen param ->
  scrypt pwd (firstn 4 (sha256 (sha256 (pt_Address prot)))) (sp_N param) (sp_R param) (sp_P param) (sp_DKLen param) = Ok dkey ->
  exists d p, Decr (Some prot) pwd param = Val (Ok (SkEC 0 d p)) /\ pk_curve p = c.
Proof.
  intros prot pwd param dkey c Hsha A Al Hc Np D Sc.
  assert (K : kdf scrypt pwd (firstn 4 (sha256 (sha256 (pt_Address prot)))) param = Ok dkey).
  { unfold kdf. destruct (Z.ltb_spec (sp_DKLen param) 32); [lia|exact Sc]. }
  unfold DecryptWithCustomScrypt, dec_err.
  destruct (Z.eqb_spec (zlen pwd) 0) as [H0|_]; [exfalso; apply Np; destruct pwd; [reflexivity|unfold zlen in H0; cbn in H0; lia]|].
  rewrite A. change (String.eqb "aes-256-ctr" "aes-256-gcm") with false. change (String.eqb "aes-256-ctr" "aes-256-ctr") with true. cbv iota.
  unfold saltFromAddress. rewrite slice_ok by (unfold zlen; rewrite ?Hsha; lia). cbn [bind skipn].
  change (Z.to_nat (4 - 0)) with 4%nat. change (Z.to_nat 0) with 0%nat. cbn [skipn]. rewrite K.
  destruct (kdf_ok _ _ _ _ K) as (_ & _ & _ & S1 & S2 & L & O & _ & L16).
  rewrite S1. cbn [bind]. rewrite S2. cbn [bind]. unfold ctrCipher.
  assert (Kk : aes_key_ok (skipn (length dkey - 32) dkey) = true) by (apply key_ok_iff; right; right; exact L). rewrite Kk.
  assert (Z16 : (zlen (firstn 16 dkey) =? 16) = true) by (apply Z.eqb_eq; unfold zlen; lia). rewrite Z16. cbn [bind].
  unfold rebuild_key, dec_err. rewrite Al. cbn -[GetNamedCurve ConstructPrivateKey ctr_mode]. rewrite Hc. unfold ConstructPrivateKey.
  destruct (sbm c _) as [x y]. eexists _, _. split; [reflexivity|reflexivity].
Qed.

(** ** C30 *)
Theorem C30_reencrypt_preserves : forall salt prot old new po pn prot',
  (forall c b b', octets b -> octets b' -> value b 0 = value b' 0 -> sbm c b = sbm c b') ->
  octets (pt_Key prot) ->
  ReencryptPrivateKey sbm scrypt bc sha256 (Ok salt) (Some prot) old new po pn = Val (Ok prot') ->
  exists k, Decr (Some prot) old po = Val (Ok k) /\ pt_Address prot' = pt_Address prot /\
    pt_EncAlg prot' = "aes-256-gcm"%string /\ pt_Salt prot' = salt /\
    (new <> [] -> Decr (Some prot') new pn = Val (Ok k)).
Proof.
  intros salt prot old new po pn prot' Hsb Ho H. unfold ReencryptPrivateKey in H.
  destruct (Decr (Some prot) old po) as [[k|e]| |] eqn:Dk; try discriminate. cbn [bind] in H.
  exists k. split; [reflexivity|].
  assert (W : whole k).
  { destruct (decrypt_inv _ _ _ _ Dk) as (_ & C).
    assert (exists p, octets p /\ rebuilt (pt_Alg prot) (pt_curve prot) p k) as (p & Op & R).
    { destruct C as [(_ & ekey & nonce & p & Dv & D & Op & _ & R)|(_ & ekey & iv & (dkey & K & -> & ->) & R)].
      - exists p. split; [|exact R]. destruct Dv as (dkey & Sc & -> & ->). destruct (scrypt_shape _ _ _ _ _ _ _ Sc) as [L O].
        assert (L32 : length (skipn (length dkey - 32) dkey) = 32%nat) by (rewrite skipn_length; lia).
        destruct (key_E _ L32 (wf_skipn _ _ O)) as [_ EO].
        eapply (gcm_open_wf _ EO (firstn 12 dkey)); [rewrite firstn_length; lia|apply wf_firstn; exact O|exact Ho|exact Op].
      - eexists. split; [|exact R]. destruct (kdf_ok _ _ _ _ K) as (_ & _ & _ & _ & _ & L & O & _ & L16).
        destruct (key_E _ L (wf_skipn _ _ O)) as [_ EO]. apply ctr_wf; auto using inc128_ok.
        split; [exact L16|apply wf_firstn; exact O]. }
    destruct R as [(_ & L & ->)|(a & c & Ha & Hc & ->)]; [constructor; exact L|].
    destruct (named_curve_cases _ _ Hc) as [ca Hs].
    apply (wh_ec a c ca); auto.
    - destruct Ha as [[_ ->]|[_ ->]]; auto.
    - rewrite value_be2z. apply be2z_bound. exact Op.
    - rewrite <- (Hsb c p (big_bytes (value p 0))).
      + destruct (sbm c p); reflexivity.
      + exact Op.
      + apply big_bytes_wf.
      + rewrite !value_be2z, be2z_big_bytes; [reflexivity|]. apply be2z_bound. exact Op. }
  destruct (kdf scrypt new salt pn) as [dkey|] eqn:K.
  2:{ unfold EncryptWithCustomScrypt, enc_err in H. rewrite K in H. discriminate. }
  destruct (kdf_ok _ _ _ _ K) as (D & Sc & _).
  destruct (C28_encrypt_decrypt k salt (pt_Address prot) new pn dkey W D Sc) as (q & E & A & Sa & Dd & _).
  rewrite E in H. apply val_inj in H. injection H as <-. split; [exact A|].
  destruct (whole_storable k W) as (alg & cn & St & _).
  rewrite (encrypt_val k alg cn salt _ new pn dkey St K) in E. apply val_inj in E.
  match type of E with Ok ?p = _ => assert (Eq : p = q) by congruence end.
  rewrite <- Eq at 1. split; [reflexivity|]. split; [exact Sa|exact Dd].
Qed.
End Encrypt.
Print Assumptions C28_encrypt_decrypt.
Print Assumptions C28_unsupported_keys_panic.
Print Assumptions C29_decrypt_authenticates.
Print Assumptions C28_default_parameters.
Print Assumptions C28_default_errors.
Print Assumptions C29_ctr_accepts_everything.
Print Assumptions C30_reencrypt_preserves.

(** ** Concrete cases: real AES and SHA-256, and a stand-in for scrypt with the right shape *)
Definition toy_scrypt (pwd salt : bytes) (N r p l : Z) : res bytes :=
  if (1 <? N) && (0 <=? l) then Ok (to_be (Z.to_nat l) (be2z (pwd ++ salt) * 2654435761)) else Err "scrypt: N must be > 1 and a power of 2".
Lemma toy_scrypt_shape : forall pwd salt N r p l k, toy_scrypt pwd salt N r p l = Ok k -> Z.of_nat (length k) = l /\ octets k.
Proof.
  intros pwd salt N r p l k. unfold toy_scrypt. destruct (1 <? N); [|discriminate]. destruct (Z.leb_spec 0 l); [|discriminate].
  cbn [andb]. intros H0. injection H0 as <-. split; [rewrite to_be_length; lia|apply to_be_wf].
Qed.
Definition toy_sbm (c : curve) (db : bytes) : Z * Z := (be2z db, be2z db + 1).
Definition toy_key : privkey := SkEC 1 77 {| pk_curve := SM2P256V1; pk_X := 77; pk_Y := 78 |}.
Definition toy_param : ScryptParam := {| sp_P := 1; sp_N := 4; sp_R := 8; sp_DKLen := 64 |}.
Definition toy_salt : bytes := repeat 9 16.
Example C28_whole : whole toy_sbm toy_key.
Proof. eapply (wh_ec toy_sbm 1 SM2P256V1 _ 77); [right; reflexivity|constructor|lia|reflexivity]. Qed.
Example C28_runs : exists prot,
  EncryptWithCustomScrypt toy_scrypt aes_cipher (Ok toy_salt) toy_key [65; 66] [1; 2; 3] toy_param = Val (Ok prot) /\
  length (pt_Key prot) = 17%nat /\
  DecryptWithCustomScrypt toy_sbm toy_scrypt aes_cipher SHA256 (Some prot) [1; 2; 3] toy_param = Val (Ok toy_key) /\
  (exists e, DecryptWithCustomScrypt toy_sbm toy_scrypt aes_cipher SHA256 (Some prot) [1; 2; 4] toy_param = Val (Err e)) /\
  (exists p, ReencryptPrivateKey toy_sbm toy_scrypt aes_cipher SHA256 (Ok (repeat 5 16)) (Some prot) [1; 2; 3] [8] toy_param GetScryptParameters = Val (Ok p)).
Proof.
  eexists. split; [vm_compute; reflexivity|]. split; [reflexivity|]. split; [vm_compute; reflexivity|].
  split; eexists; vm_compute; reflexivity.
Qed.
(** the default parameters *)
Example C28_default_runs : exists prot,
  EncryptPrivateKey toy_scrypt aes_cipher (Ok toy_salt) toy_key [65; 66] [1; 2; 3] = Val (Ok prot) /\ pt_Address prot = [65; 66] /\
  DecryptPrivateKey toy_sbm toy_scrypt aes_cipher SHA256 (Some prot) [1; 2; 3] = Val (Ok toy_key).
Proof.
  destruct (C28_default_parameters toy_sbm toy_scrypt aes_cipher SHA256 aes_cipher_shape toy_scrypt_shape toy_key toy_salt [65; 66] [1; 2; 3] _ C28_whole ltac:(discriminate) eq_refl) as (prot & E & A & _ & _ & D).
  exists prot. split; [exact E|]. split; [exact A|exact D].
Qed.
(** a garbage ciphertext of three bytes under the legacy mode *)
Example C29_ctr_garbage : exists k, DecryptWithCustomScrypt toy_sbm toy_scrypt aes_cipher SHA256
  (Some {| pt_Address := [65]; pt_EncAlg := "aes-256-ctr"; pt_Key := [1; 2; 3]; pt_Alg := "ECDSA"; pt_Salt := []; pt_curve := "" |})
  [7] toy_param = Val (Ok k).
Proof. eexists. vm_compute. reflexivity. Qed.
