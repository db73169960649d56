(** * Prop_Life: property C86, a private key from its generation through every way of storing it to its use
    (/repo/keypair/key.go, wif.go, encrypt.go; /repo/ec/key.go; /repo/signature/signature.go) *)
From Coq Require Import ZArith Znumtheory Zpow_facts String List Bool Lia.
From Verif Require Import Base BaseFacts Curves ECKey Keypair AES Spec_GCM AESFacts Encrypt SM3 Spec_EC ECFacts ECFacts2 Prop_EC Spec_Keys KeyFacts Prop_Keys Spec_SHA2 Spec_WIF Prop_WIF Prop_Encrypt
  Spec_Gen Generate GenFacts Prop_Gen Prop_Sig2 Spec_Group CurveZ CurveRoot Elliptic CurveWhole Prop_Whole Signature Spec_Sig SigFacts Prop_Sig Prop_Sig2 SigWhole Prop_SigWhole Spec_Life.
From Verif Require Ed25519 Prop_Ed25519 SigFacts Prop_BtcecWhole Prop_ECDSA.
Import ListNotations.
Open Scope Z_scope.

(** ** Leading zeros of a scalar do not matter, on any curve *)
Lemma double_zero : forall c, doubleJacobian c (0, 0, 0) = (0, 0, 0).
Proof.
  intros c. unfold doubleJacobian, lift. cbn -[Z.shiftl Z.modulo]. rewrite ?Z.shiftl_0_l. cbn -[Z.modulo]. rewrite ?Zmod_0_l. cbn -[Z.modulo].
  rewrite ?Zmod_0_l. reflexivity.
Qed.
Lemma zero_byte : forall c b, byte_step c b (0, 0, 0) 0 = (0, 0, 0).
Proof. intros c b. unfold byte_step, bit_step. cbn [fold_left]. rewrite !Z.bits_0. rewrite !double_zero. reflexivity. Qed.
Lemma zero_bytes : forall c b n k, fold_left (byte_step c b) (repeat 0 n ++ k) (0, 0, 0) = fold_left (byte_step c b) k (0, 0, 0).
Proof. intros c b n k. induction n as [|n IH]; [reflexivity|]. cbn [repeat app fold_left]. rewrite zero_byte. exact IH. Qed.
Lemma strip : forall b, octets b -> exists n, b = repeat 0 n ++ big_bytes (be2z b).
Proof.
  intros b O. exists (length b - length (big_bytes (be2z b)))%nat.
  pose proof (be2z_bound b O) as R. pose proof (pad_big_bytes (be2z b) (length b) R) as P. rewrite P. symmetry. apply to_be_be2z. exact O.
Qed.
Theorem C86_leading_zeros : forall c b b', octets b -> octets b' -> value b 0 = value b' 0 -> ScalarBaseMult c b = ScalarBaseMult c b'.
Proof.
  intros c b b' O O' V. rewrite !value_be2z in V. destruct (strip b O) as [n E]. destruct (strip b' O') as [n' E'].
  unfold ScalarBaseMult, ScalarMult. rewrite E, E', V, !zero_bytes. reflexivity.
Qed.

Section Life.
Variable sbm : curve -> bytes -> Z * Z.
Variable scrypt : bytes -> bytes -> Z -> Z -> Z -> Z -> res bytes.
Variable bc : block_cipher.
Variable sha256 : bytes -> bytes.
Hypothesis sbm_value : forall c b b', octets b -> octets b' -> value b 0 = value b' 0 -> sbm c b = sbm c b'.
Hypothesis bc_ok : bc_shape bc.
Hypothesis scrypt_shape : forall pwd salt N r p l k, scrypt pwd salt N r p l = Ok k -> Z.of_nat (length k) = l /\ octets k.
Hypothesis sha_len : forall x, length (sha256 x) = 32%nat.
Hypothesis sha_oct : forall x, octets (sha256 x).
Notation Encr := (EncryptWithCustomScrypt scrypt bc).
Notation Decr := (DecryptWithCustomScrypt sbm scrypt bc sha256).
Notation protects := (protects sbm scrypt bc sha256).
Notation stored := (stored sbm scrypt bc sha256).
Notation lived := (lived sbm scrypt bc sha256).

(** a valid key that is not an Ethereum key can be encrypted *)
Lemma valid_whole : forall k, valid_priv sbm k -> (forall d p, k <> SkEth d p) -> whole sbm k.
Proof.
  intros k V NE. destruct V as [alg c a n db d x y Ha Hs Hn Hd Hdb Hm Hp|b Hl Hb|db d x y Hdr Hdb Hm].
  - apply (wh_ec sbm alg c a); [exact Ha|exact Hs|lia|]. rewrite <- Hm. destruct (encodes_inv _ _ _ Hdb) as (A & B & C).
    apply sbm_value; [apply big_bytes_wf|exact B|]. rewrite !value_be2z, be2z_big_bytes by lia. lia.
  - constructor. exact Hl.
  - exfalso. eapply NE. reflexivity.
Qed.
Lemma encr_inv : forall rnd k addr pwd param prot, Encr rnd k addr pwd param = Val (Ok prot) ->
  (forall d p, k <> SkEth d p) /\ pt_Address prot = addr /\ exists salt dkey, rnd = Ok salt /\ 32 <= sp_DKLen param /\
  scrypt pwd salt (sp_N param) (sp_R param) (sp_P param) (sp_DKLen param) = Ok dkey.
Proof.
  intros rnd k addr pwd param prot H. unfold EncryptWithCustomScrypt, enc_err in H. destruct rnd as [salt|]; [|discriminate H].
  destruct (kdf scrypt pwd salt param) as [dkey|] eqn:K; [|discriminate H]. destruct (kdf_ok scrypt scrypt_shape _ _ _ _ K) as (D & Sc & S1 & _ & S2 & _).
  rewrite S1 in H. cbn [bind] in H. rewrite S2 in H. cbn [bind] in H. split; [intros d p ->; discriminate H|]. split; [|exists salt, dkey; auto].
  match type of H with (let* t := ?m in _) = _ => destruct m as [[[pl al] cn]| |]; cbn [bind] in H; try discriminate H end.
  destruct (gcmCipher bc _); [|discriminate H]. injection H as <-. reflexivity.
Qed.
(** what is protected, however often the password was changed, is an encryption of k *)
Lemma protects_inv : forall k addr prot pwd param, protects k addr prot pwd param -> (whole sbm k \/ exists d p, k = SkEth d p) ->
  whole sbm k /\ pt_Address prot = addr /\ exists rnd, Encr rnd k addr pwd param = Val (Ok prot).
Proof.
  intros k addr prot pwd param H. induction H as [rnd pwd param prot E|rnd prot pwd param pwd' param' prot' HP IH R]; intros W.
  - destruct (encr_inv _ _ _ _ _ _ E) as (NE & A & _). split; [|split; [exact A|exists rnd; exact E]]. destruct W as [W|(d & p & ->)]; [exact W|exfalso; eapply NE; reflexivity].
  - destruct (IH W) as (Wk & A & rnd0 & E). split; [exact Wk|].
    destruct (encr_inv _ _ _ _ _ _ E) as (_ & _ & salt & dkey & -> & D & Sc).
    destruct (C28_encrypt_decrypt sbm scrypt bc sha256 bc_ok scrypt_shape k salt addr pwd param dkey Wk D Sc) as (q & Eq & _ & _ & Dq & Nq).
    assert (q = prot) by congruence. subst q. unfold ReencryptPrivateKey in R. destruct pwd as [|b pwd].
    + destruct (Nq eq_refl param) as [e Q]. rewrite Q in R. discriminate R.
    + rewrite Dq in R by discriminate. cbn [bind] in R. rewrite A in R. split; [|exists rnd; exact R]. apply (encr_inv _ _ _ _ _ _ R).
Qed.
(** a file holds the key itself *)
Lemma file_inv : forall k k' rng e, valid_priv sbm k -> SerializePrivateKey k = Val e -> DeserializePrivateKey sbm rng e = Val (Ok (Some k')) -> k' = k.
Proof.
  intros k k' rng e V E D. destruct V as [alg c a n db d x y Ha Hs Hn Hd Hdb Hm Hp|b Hl Hb|db d x y Hdr Hdb Hm].
  - destruct (supported_label c a Hs) as [l Hl]. destruct (GetCurve_label c l Hl) as [GC GL]. destruct (supported_size c a Hs) as (L & HL & HL0 & HLp & HLm).
    cbn [SerializePrivateKey pk_curve] in E. rewrite GL in E. destruct (EncodePublicKey _ true) as [pe| |]; [|discriminate E|discriminate E]. cbn [bind] in E.
    assert (EE : e = 18 + alg :: l :: padded_big_bytes d (byte_size c) ++ pe) by (destruct Ha as [-> | ->]; injection E as <-; reflexivity). subst e.
    assert (exists d' p', k' = SkEC alg d' p') as (d' & p' & ->).
    { unfold DeserializePrivateKey in D. rewrite index_cons0, index_cons1 in D. cbn [bind] in D.
      assert (T : (18 + alg =? PK_ECDSA) || (18 + alg =? PK_SM2) = true) by (destruct Ha as [-> | ->]; reflexivity). rewrite T, GC in D.
      destruct (_ <? _); [discriminate D|]. destruct (slice _ _ _) as [s1| |]; [|discriminate D|discriminate D]. cbn [bind] in D. destruct (ConstructPrivateKey sbm s1 c) as [d1 k1].
      destruct (slice _ _ _) as [s2| |]; [|discriminate D|discriminate D]. cbn [bind] in D. destruct (DecodePublicKey rng s2 c) as [[p|]| |]; try discriminate D. cbn [bind] in D.
      destruct (_ || _); [discriminate D|]. injection D as <-. exists d1, k1. destruct Ha as [-> | ->]; reflexivity. }
    destruct (C20_private_key_matches _ _ _ _ _ _ D) as (t & l' & c' & a' & n' & db' & eb & EQ & _ & Hl' & Hs' & Hn' & Ln' & Vd & SB & Hc & _).
    injection EQ as _ <- EB. assert (CC : c' = c) by (destruct (GetCurve_label c' l Hl'); congruence). rewrite CC in *. clear c' CC.
    assert (En : n = Z.of_nat L) by (apply (size_unique c); assumption). assert (EN2 : n' = Z.of_nat L) by (apply (size_unique c); assumption).
    destruct (encodes_inv _ _ _ Hdb) as (A & B & C).
    assert (Edb : padded_big_bytes d (byte_size c) = db).
    { rewrite HL. pose proof (encodes_fun _ _ _ Hdb) as F. assert (Hr : 0 <= d < 256 ^ Z.of_nat L) by (pose proof (be2z_bound db B) as Q; rewrite A, En in Q; lia).
      rewrite En, Nat2Z.id in F. unfold padded_big_bytes, zeros. rewrite <- (pad_big_bytes d L Hr) in F. rewrite F. f_equal. f_equal. unfold zlen. lia. }
    rewrite Edb in EB. assert (db' = db).
    { assert (LL : length db' = length db) by (unfold zlen in A; lia). clear - EB LL. revert db LL EB. induction db' as [|z db' IH]; intros [|w db] LL EB; try discriminate LL; [reflexivity|].
      cbn [app] in EB. injection EB as -> EB. f_equal. apply IH; [cbn [length] in LL; lia|exact EB]. }
    subst db'. rewrite value_be2z, C in Vd. rewrite Hm in SB. destruct p' as [pc px py]. cbn [pk_curve pk_X pk_Y] in *. congruence.
  - destruct (C19_private_key_round_trip sbm (SkEd b) rng (vs_ed sbm b Hl Hb) I) as (e' & E' & D'). congruence.
  - destruct (C19_private_key_round_trip sbm _ rng (vs_eth sbm db d x y Hdr Hdb Hm) I) as (e' & E' & D'). congruence.
Qed.
Lemma p256_of_label : forall c a, supported c a -> GetCurveLabel c = Ok 2 -> c = P256.
Proof. intros c a Hs G. destruct Hs; try discriminate G; reflexivity. Qed.
Lemma valid_p256 : forall d p, valid_priv sbm (SkEC 0 d p) -> GetCurveLabel (pk_curve p) = Ok 2 ->
  exists x y kb, p = {| pk_curve := P256; pk_X := x; pk_Y := y |} /\ 0 <= d < 256 ^ 32 /\ encodes 32 d kb /\ sbm P256 kb = (x, y) /\ 0 <= x < 256 ^ 32.
Proof.
  intros d p V G. inversion V as [alg c a n db d0 x y Ha Hs Hn Hd Hdb Hm Hp| |]; subst. cbn [pk_curve] in G. pose proof (p256_of_label c a Hs G). subst c.
  assert (n = Z.of_nat 32) by (apply (size_unique P256); [exact Hn|lia|discriminate|reflexivity]). subst n. change (Z.of_nat 32) with 32 in *.
  exists x, y, db. split; [reflexivity|]. split; [assert (c_N P256 < 256 ^ 32) by reflexivity; lia|]. split; [exact Hdb|]. split; [exact Hm|].
  destruct Hp as (X & _). assert (c_P P256 < 256 ^ 32) by reflexivity. lia.
Qed.

(** C86.  Whatever was done with a valid key, on any curve, the key is still the same. *)
Lemma stored_same : forall k k', valid_priv sbm k -> stored k k' -> k' = k.
Proof.
  intros k k' V H. destruct H as [rng e E D|w E D|w E D|addr prot pwd param HP D].
  - exact (file_inv k k' rng e V E D).
  - destruct (C25_exports_only_p256 sha256 k w E) as (d & p & -> & G). destruct (valid_p256 d p V G) as (x & y & kb & -> & R & K & S & X).
    destruct (C25_wif_round_trip sbm sha256 sha_len sha_oct d x y kb R K S X) as (w' & E' & D' & _). congruence.
  - destruct (C25_exports_only_p256 sha256 k w E) as (d & p & -> & G). destruct (valid_p256 d p V G) as (x & y & kb & -> & R & K & S & X).
    destruct (C25_wif_round_trip sbm sha256 sha_len sha_oct d x y kb R K S X) as (w' & E' & D' & _). assert (w' = w) by congruence. subst w'.
    apply C27_agrees in D'. congruence.
  - assert (W : whole sbm k \/ exists d p, k = SkEth d p).
    { destruct k as [alg d p|b|d p|t]; [left; apply valid_whole; [exact V|discriminate]|left; apply valid_whole; [exact V|discriminate]|right; eauto|inversion V]. }
    destruct (protects_inv k addr prot pwd param HP W) as (Wk & _ & rnd & E).
    destruct (encr_inv _ _ _ _ _ _ E) as (_ & _ & salt & dkey & -> & Dl & Sc).
    destruct (C28_encrypt_decrypt sbm scrypt bc sha256 bc_ok scrypt_shape k salt addr pwd param dkey Wk Dl Sc) as (q & Eq & _ & _ & Dq & Nq).
    assert (q = prot) by congruence. subst q. destruct pwd as [|b pwd]; [destruct (Nq eq_refl param) as [e Q]; congruence|]. rewrite Dq in D by discriminate. congruence.
Qed.
Theorem C86_unchanged : forall k k', valid_priv sbm k -> lived k k' -> k' = k.
Proof. intros k k' V H. induction H as [|k k' k'' _ IH S]; [reflexivity|]. rewrite (IH V) in S. exact (stored_same _ _ V S). Qed.

(** Which ways are open: files to all keys (P-224 needs a random source for the square root), encryption to all but
    Ethereum keys, under non-empty passwords and with the address kept; WIF exactly to ECDSA keys on P-256. *)
Theorem C86_ways : forall k, valid_priv sbm k ->
  (forall rng, priv_decompressible k rng -> exists e, SerializePrivateKey k = Val e /\ DeserializePrivateKey sbm rng e = Val (Ok (Some k))) /\
  ((exists w, Key2WIF sha256 k = Val (Ok w) /\ WIF2Key sbm sha256 w = Val (Ok k) /\ GetP256KeyPairFromWIF sbm sha256 w = Val (Ok k)) <->
   exists d p, k = SkEC 0 d p /\ pk_curve p = P256) /\
  (forall addr prot pwd param, protects k addr prot pwd param -> pt_Address prot = addr /\ (Decr (Some prot) pwd param = Val (Ok k) <-> pwd <> []) /\
     forall salt pwd' param' dkey, pwd <> [] -> 32 <= sp_DKLen param' -> scrypt pwd' salt (sp_N param') (sp_R param') (sp_P param') (sp_DKLen param') = Ok dkey ->
       exists prot', ReencryptPrivateKey sbm scrypt bc sha256 (Ok salt) (Some prot) pwd pwd' param param' = Val (Ok prot') /\ protects k addr prot' pwd' param') /\
  (forall salt addr pwd param dkey, 32 <= sp_DKLen param -> scrypt pwd salt (sp_N param) (sp_R param) (sp_P param) (sp_DKLen param) = Ok dkey ->
     ((exists prot, protects k addr prot pwd param) <-> forall d p, k <> SkEth d p)).
Proof.
  intros k V. split; [intros rng; apply C19_private_key_round_trip; exact V|].
  assert (W : whole sbm k \/ exists d p, k = SkEth d p).
  { destruct k as [alg d p|b|d p|t]; [left; apply valid_whole; [exact V|discriminate]|left; apply valid_whole; [exact V|discriminate]|right; eauto|inversion V]. }
  split; [|split].
  - split.
    + intros (w & E & _). destruct (C25_exports_only_p256 sha256 k w E) as (d & p & -> & G). destruct (valid_p256 d p V G) as (x & y & kb & -> & _). exists d. eexists. split; reflexivity.
    + intros (d & p & -> & Hc). assert (G : GetCurveLabel (pk_curve p) = Ok 2) by (rewrite Hc; reflexivity).
      destruct (valid_p256 d p V G) as (x & y & kb & -> & R & K & S & X).
      destruct (C25_wif_round_trip sbm sha256 sha_len sha_oct d x y kb R K S X) as (w & E & D & _). exists w. split; [exact E|]. split; [exact D|]. apply C27_agrees. exact D.
  - intros addr prot pwd param HP. destruct (protects_inv k addr prot pwd param HP W) as (Wk & A & rnd & E). split; [exact A|].
    destruct (encr_inv _ _ _ _ _ _ E) as (_ & _ & salt & dkey & -> & Dl & Sc).
    destruct (C28_encrypt_decrypt sbm scrypt bc sha256 bc_ok scrypt_shape k salt addr pwd param dkey Wk Dl Sc) as (q & Eq & _ & _ & Dq & Nq).
    assert (q = prot) by congruence. subst q. split.
    + split; [|exact Dq]. intros D ->. destruct (Nq eq_refl param) as [e Q]. congruence.
    + intros salt' pwd' param' dkey' NP Dl' Sc'. destruct (C28_encrypt_decrypt sbm scrypt bc sha256 bc_ok scrypt_shape k salt' addr pwd' param' dkey' Wk Dl' Sc') as (q & Eq' & _).
      assert (RE : ReencryptPrivateKey sbm scrypt bc sha256 (Ok salt') (Some prot) pwd pwd' param param' = Val (Ok q)) by (unfold ReencryptPrivateKey; rewrite (Dq NP); cbn [bind]; rewrite A; exact Eq').
      exists q. split; [exact RE|]. exact (pr_again _ _ _ _ k addr (Ok salt') prot pwd param pwd' param' q HP RE).
  - intros salt addr pwd param dkey Dl Sc. split.
    + intros [prot HP] d p ->. destruct (protects_inv _ addr prot pwd param HP W) as (Wk & _). inversion Wk.
    + intros NE. destruct W as [Wk|(d & p & ->)]; [|exfalso; eapply NE; reflexivity].
      destruct (C28_encrypt_decrypt sbm scrypt bc sha256 bc_ok scrypt_shape k salt addr pwd param dkey Wk Dl Sc) as (q & Eq & _). exists q. exact (pr_new _ _ _ _ k addr (Ok salt) pwd param q Eq).
Qed.

(** The scalar 0, which GenerateKeyPair can return (C70), can be encrypted and exported, but never comes back from a file. *)
Theorem C86_zero_key : forall alg c a, supported c a -> alg = 0 \/ alg = 1 -> sbm c [] = (0, 0) ->
  let k := SkEC alg 0 {| pk_curve := c; pk_X := 0; pk_Y := 0 |} in
  (forall rng e k', SerializePrivateKey k = Val e -> DeserializePrivateKey sbm rng e <> Val (Ok (Some k'))) /\
  (forall salt addr pwd param dkey, pwd <> [] -> 32 <= sp_DKLen param -> scrypt pwd salt (sp_N param) (sp_R param) (sp_P param) (sp_DKLen param) = Ok dkey ->
     exists prot, Encr (Ok salt) k addr pwd param = Val (Ok prot) /\ Decr (Some prot) pwd param = Val (Ok k)) /\
  (c = P256 -> alg = 0 -> exists w, Key2WIF sha256 k = Val (Ok w) /\ WIF2Key sbm sha256 w = Val (Ok k)).
Proof.
  intros alg c a Hs Ha S0 k. split; [|split].
  - intros rng e k' E D. unfold k in *. clear k. destruct (supported_label c a Hs) as [l Hl]. destruct (GetCurve_label c l Hl) as [GC GL].
    destruct (supported_size c a Hs) as (L & HL & HL0 & HLp & HLm). destruct (encode_zero c a Hs) as (z & EZ & Lz).
    cbn [SerializePrivateKey pk_curve] in E. rewrite GL, EZ in E. cbn [bind] in E.
    assert (PZ : padded_big_bytes 0 (byte_size c) = repeat 0 L).
    { rewrite HL. unfold padded_big_bytes, zeros. change (big_bytes 0) with (@nil Z). rewrite app_nil_r. f_equal. unfold zlen. cbn [length]. lia. }
    rewrite PZ in E. assert (EE : e = 18 + alg :: l :: repeat 0 L ++ 2 :: z) by (destruct Ha as [-> | ->]; injection E as <-; reflexivity). subst e.
    unfold DeserializePrivateKey in D. rewrite index_cons0, index_cons1 in D. cbn [bind] in D.
    assert (T : (18 + alg =? PK_ECDSA) || (18 + alg =? PK_SM2) = true) by (destruct Ha as [-> | ->]; reflexivity). rewrite T, GC, HL in D.
    destruct (_ <? _); [discriminate D|]. set (data := 18 + alg :: l :: repeat 0 L ++ 2 :: z) in *.
    assert (S1 : slice data 2 (2 + Z.of_nat L) = Val (repeat 0 L)) by (apply (slice_app3 _ [18 + alg; l] (repeat 0 L) (2 :: z)); [reflexivity|rewrite zlen_repeat; reflexivity]).
    assert (S2 : slice data (2 + Z.of_nat L) (zlen data) = Val (2 :: z)).
    { apply (slice_tail _ (18 + alg :: l :: repeat 0 L) (2 :: z)). rewrite !zlen_cons, zlen_repeat. lia. }
    rewrite S1 in D. cbn [bind] in D. unfold ConstructPrivateKey in D. rewrite (sbm_value c (repeat 0 L) []) in D.
    2:{ apply wf_repeat. split; [discriminate|reflexivity]. } 2: constructor. 2:{ rewrite !value_be2z, be2z_zeros. reflexivity. }
    rewrite S0, S2 in D. cbn [bind] in D. destruct (DecodePublicKey rng (2 :: z) c) as [[p|]| |] eqn:DP; try discriminate D. cbn [bind pk_X pk_Y] in D.
    destruct (Z.eqb_spec 0 (pk_X p)) as [X|]; [|discriminate D]. destruct (Z.eqb_spec 0 (pk_Y p)) as [Y|]; [|discriminate D].
    destruct (C11_decompression_sound_supported rng c a (2 :: z) _ 2 Hs DP eq_refl ltac:(discriminate)) as [Q _]. rewrite <- X, <- Y in Q. exact (zero_not_on_curve c a Hs Q).
  - intros salt addr pwd param dkey NP Dl Sc.
    assert (W : whole sbm k) by (apply (wh_ec sbm alg c a); [exact Ha|exact Hs|lia|exact S0]).
    destruct (C28_encrypt_decrypt sbm scrypt bc sha256 bc_ok scrypt_shape k salt addr pwd param dkey W Dl Sc) as (q & Eq & _ & _ & Dq & _). exists q. split; [exact Eq|exact (Dq NP)].
  - intros -> ->. assert (E0 : encodes 32 0 (repeat 0 32)) by (split; [reflexivity|split; [apply wf_repeat; split; [discriminate|reflexivity]|reflexivity]]).
    assert (SZ : sbm P256 (repeat 0 32) = (0, 0)) by (rewrite <- S0; apply sbm_value; [apply E0|constructor|reflexivity]).
    destruct (C25_wif_round_trip sbm sha256 sha_len sha_oct 0 0 0 (repeat 0 32) ltac:(split; [discriminate|reflexivity]) E0 SZ ltac:(split; [discriminate|reflexivity])) as (w & E & D & _).
    exists w. split; [exact E|exact D].
Qed.
End Life.
Print Assumptions C86_leading_zeros.
Print Assumptions C86_unchanged.
Print Assumptions C86_ways.
Print Assumptions C86_zero_key.

(** ** On P-256 and the SM2 curve nothing about the curve arithmetic is assumed *)
Lemma prime_points : forall c a, prime_curve c -> supported c a -> points ScalarBaseMult c a.
Proof.
  intros c a Hp Hs len d db Hn Hdb Hd. destruct (encodes_inv _ _ _ Hdb) as (A & B & C).
  destruct (ScalarBaseMult c db) as [x y] eqn:SB. exists x, y. split; [reflexivity|].
  assert (KP : key_pair_of d {| pk_curve := c; pk_X := x; pk_Y := y |}).
  { split; [exact Hp|]. split; [exact Hd|]. cbn [pk_curve pk_X pk_Y]. rewrite <- SB. apply C86_leading_zeros; [exact B|apply big_bytes_wf|].
    rewrite !value_be2z, be2z_big_bytes by lia. exact C. }
  destruct (key_facts d _ KP) as (W & HcW & HW & AT & RX & RY & _). cbn [pk_curve pk_X pk_Y] in *.
  split; [rewrite HcW; exact RX|]. split; [rewrite HcW; exact RY|].
  assert (ON : IsOnCurve W (x, y) = true) by (apply w_on_iff; eexists; exact AT). apply w_on_eq in ON.
  assert (AM : (c_P W | a + 3)).
  { assert (SW : supported (wc W) a) by congruence. destruct HW as [EW|EW]; rewrite EW in SW |- *; inversion SW; subst; [exists 0|exists 1]; reflexivity. }
  assert (P0 : c_P W <> 0) by lia.
  unfold curve_eq. rewrite HcW. apply mod_of_divide; [exact P0|]. destruct ON as [q ON]. destruct AM as [q' AM]. exists (q - q' * x).
  replace a with (q' * c_P W - 3) by lia. rewrite (Z.mul_sub_distr_r q), <- ON. ring.
Qed.
Theorem C86_generated : forall ed_new field_element t l c rand pri pub, t = 18 \/ t = 19 -> label_of c l -> prime_curve c -> octets rand ->
  GenerateKeyPair ScalarBaseMult ed_new field_element t (Some l) rand = Val (Keys pri pub) ->
  exists d p, pri = SkEC (t - 18) d p /\ pub = PkEC (t - 18) p /\ pk_curve p = c /\ 0 <= d < c_N c /\ (pk_X p, pk_Y p) = ScalarBaseMult c (big_bytes d) /\
    (d <> 0 -> valid_priv ScalarBaseMult pri) /\ (d = 0 -> pk_X p = 0 /\ pk_Y p = 0).
Proof.
  intros ed_new field_element t l c rand pri pub Ht Hl Hp Ho G. destruct (label_supported c l Hl) as [a Hs].
  destruct (order_size c a Hs) as (n & len & k & m & B1 & B2 & B3 & _).
  apply (proj1 (C70_first_draw ScalarBaseMult ed_new field_element t l c n len rand Ht Hl B1 B2 Ho)) in G.
  destruct G as (d & rest & db & x & y & D & E & S & -> & ->). destruct (encodes_inv _ _ _ E) as (A & B & C).
  assert (R : d < c_N c) by (clear - D; induction D; assumption). pose proof (be2z_bound db B) as R0.
  assert (SB : ScalarBaseMult c (big_bytes d) = (x, y)).
  { rewrite <- S. apply C86_leading_zeros; [apply big_bytes_wf|exact B|]. rewrite !value_be2z, be2z_big_bytes by lia. symmetry. exact C. }
  exists d. eexists. split; [reflexivity|]. split; [reflexivity|]. cbn [pk_curve pk_X pk_Y]. split; [reflexivity|]. split; [lia|]. split; [symmetry; exact SB|]. split.
  - intros D0. destruct (prime_points c a Hp Hs len d db B3 E ltac:(lia)) as (x' & y' & S' & AP). rewrite S in S'. injection S' as <- <-.
    apply (vs_ec ScalarBaseMult (t - 18) c a len db); try assumption; lia.
  - intros ->. change (ScalarBaseMult c (big_bytes 0)) with (0, 0) in SB. injection SB as <- <-. split; reflexivity.
Qed.
Print Assumptions C86_generated.

Section Use.
Variable scrypt : bytes -> bytes -> Z -> Z -> Z -> Z -> res bytes.
Variable bc : block_cipher.
Variable sha256 : bytes -> bytes.
Hypothesis bc_ok : bc_shape bc.
Hypothesis scrypt_shape : forall pwd salt N r p l k, scrypt pwd salt N r p l = Ok k -> Z.of_nat (length k) = l /\ octets k.
Hypothesis sha_len : forall x, length (sha256 x) = 32%nat.
Hypothesis sha_oct : forall x, octets (sha256 x).
Variable sha512 : bytes -> bytes.
Variable aes : bytes -> bytes -> bytes.
Variable H : Z -> bytes -> bytes.
Hypothesis H_octets : forall sch m, octets (H sch m).
Variable k1SignCompact : Z -> ecpub -> bytes -> go (res bytes).
Variable k1RecoverCompact : bytes -> bytes -> go (res (Z * Z)).
Variable edSign : bytes -> bytes -> bytes.
Variable edVerify : bytes -> bytes -> bytes -> bool.
Variable ethSign : bytes -> Z -> ecpub -> go (res bytes).
Variable ethVerify : bytes -> bytes -> bytes -> bool.
Variable ed_new : bytes -> bytes.
Variable field_element : curve -> bytes -> option Z.

(** C86.  A key is generated, stored in any ways any number of times, and signs; its public key is sent as bytes, and so is
    the signature: the receiver accepts it. *)
Theorem C86_life : forall t l c rand pri pub pri' sch rn msg opt sig, t = 18 \/ t = 19 -> label_of c l -> prime_curve c -> octets rand ->
  GenerateKeyPair ScalarBaseMult ed_new field_element t (Some l) rand = Val (Keys pri pub) -> (forall alg p, pri <> SkEC alg 0 p) ->
  lived ScalarBaseMult scrypt bc sha256 pri pri' ->
  octets msg -> msg <> [] -> zlen msg < 2 ^ 60 -> octets (opt_id opt) -> zlen (opt_id opt) < 2 ^ 60 -> ~ In 0 (opt_id opt) ->
  SigWhole.Sign sha512 aes H k1SignCompact edSign ethSign rn sch pri' msg opt = Val (Ok sig) ->
  exists e buf, SerializePublicKey pub = Val e /\ Serialize (Some sig) = Val (Ok buf) /\
    forall rng, exists pub', DeserializePublicKey rng e = Val (Ok pub') /\ receive H k1RecoverCompact edVerify ethVerify pub' msg buf = Val true.
Proof.
  intros t l c rand pri pub pri' sch rn msg opt sig Ht Hl Hp Ho G NZ LV Om NE Lm Oi Li NI S.
  destruct (C86_generated ed_new field_element t l c rand pri pub Ht Hl Hp Ho G) as (d & p & -> & -> & Hc & R & SB & VP & _).
  assert (D0 : d <> 0) by (intros ->; eapply NZ; reflexivity). specialize (VP D0).
  rewrite (C86_unchanged ScalarBaseMult scrypt bc sha256 C86_leading_zeros bc_ok scrypt_shape sha_len sha_oct _ _ VP LV) in S.
  assert (PD : priv_decompressible (SkEC (t - 18) d p) []) by (intros Q; exfalso; destruct Hp as [Hp|Hp]; rewrite Hc, Hp in Q; discriminate Q).
  destruct (C19_private_key_round_trip ScalarBaseMult _ [] VP PD) as (data & Sd & Dd).
  assert (Od : octets data).
  { clear - VP Sd. inversion VP as [alg c0 a n db d0 x y Ha Hs Hn Hd Hdb Hm Ap| |]; subst.
    destruct (supported_label c0 a Hs) as [l Hl]. destruct (GetCurve_label c0 l Hl) as [_ GL]. destruct (enc_valid c0 a x y n Hs Ap Hn) as (e & E & SE & _).
    cbn [SerializePrivateKey pk_curve] in Sd. rewrite GL, E in Sd. cbn [bind] in Sd.
    assert (ED : data = t :: l :: padded_big_bytes d (byte_size c0) ++ e).
    { destruct Ha as [Ha|Ha]; rewrite Ha in Sd; injection Sd as <-; replace t with (18 + (t - 18)) by lia; rewrite Ha; reflexivity. }
    subst data. constructor; [unfold is_byte; lia|]. constructor; [destruct Hl as [[_ ->]|[[_ ->]|[[_ ->]|[[_ ->]|[[_ ->]|[_ ->]]]]]]; unfold is_byte; lia|].
    apply Forall_app. split.
    - unfold padded_big_bytes. apply Forall_app. split; [apply wf_repeat; unfold is_byte; lia|apply big_bytes_wf].
    - destruct SE as (xb & XB & ->). destruct (encodes_inv _ _ _ XB) as (_ & W & _). constructor; [|exact W]. destruct (Z.even y); unfold is_byte; lia. }
  destruct (C79_end_to_end sha512 aes H H_octets k1SignCompact k1RecoverCompact edSign edVerify ethSign ethVerify [] data (t - 18) d p sch rn msg opt sig Dd Od
    ltac:(rewrite Hc; exact Hp) ltac:(rewrite Hc; lia) Om NE Lm Oi Li NI S) as (e & buf & Se & Sb & _ & RV).
  exists e, buf. split; [exact Se|]. split; [exact Sb|exact RV].
Qed.
End Use.
Print Assumptions C86_life.

Section EdUse.
Variable sbm : curve -> bytes -> Z * Z.
Variable scrypt : bytes -> bytes -> Z -> Z -> Z -> Z -> res bytes.
Variable bc : block_cipher.
Variable sha256 sha512 : bytes -> bytes.
Hypothesis sbm_value : forall c b b', octets b -> octets b' -> value b 0 = value b' 0 -> sbm c b = sbm c b'.
Hypothesis bc_ok : bc_shape bc.
Hypothesis scrypt_shape : forall pwd salt N r p l k, scrypt pwd salt N r p l = Ok k -> Z.of_nat (length k) = l /\ octets k.
Hypothesis sha_len : forall x, length (sha256 x) = 32%nat.
Hypothesis sha_oct : forall x, octets (sha256 x).
Hypothesis sha512_len : forall m, length (sha512 m) = 64%nat.
Hypothesis sha512_oct : forall m, octets (sha512 m).
Variable H : Z -> bytes -> bytes.
Variable ev : ecpub -> bytes -> Z -> Z -> bool.
Variable kr : bytes -> bytes -> go (res (Z * Z)).
Variable ethv : bytes -> bytes -> bytes -> bool.
Variable sv : ecpub -> bytes -> bytes -> Z -> Z -> bool.
Variable rand : Type.
Variable es : Z -> ecpub -> bytes -> rand -> go (res (Z * Z)).
Variable k1s : Z -> ecpub -> bytes -> go (res bytes).
Variable eths : bytes -> Z -> ecpub -> go (res bytes).
Variable sm2s : rand -> Z -> ecpub -> bytes -> bytes -> go (res (Z * Z)).
Variable field_element : curve -> bytes -> option Z.

(** the same for an Ed25519 key, which always signs *)
Theorem C86_ed_life : forall seed more, length seed = 32%nat -> octets seed ->
  exists pri pub, GenerateKeyPair sbm (Ed25519.NewKeyFromSeed sha512) field_element 20 (Some 25) (seed ++ more) = Val (Keys pri pub) /\
  forall pri' rn msg opt, lived sbm scrypt bc sha256 pri pri' ->
  exists e sig buf, SerializePublicKey pub = Val e /\ Signature.Sign H rand es k1s (Ed25519.Sign sha512) eths sm2s rn 10 pri' msg opt = Val (Ok sig) /\
    Serialize (Some sig) = Val (Ok buf) /\
    forall rng, exists pub', DeserializePublicKey rng e = Val (Ok pub') /\
      (msg <> [] -> Prop_BtcecWhole.recv H ev kr (Ed25519.Verify sha512) ethv sv pub' msg buf = Val true).
Proof.
  intros seed more Ls Os.
  destruct (Prop_Ed25519.C85_end_to_end sha512 sha512_len sha512_oct H ev kr ethv sv rand es k1s eths sm2s sbm field_element seed more Ls Os)
    as (pri & pub & G & pe & ke & Spe & Ske & Lpe & Lke & DD & ALL).
  exists pri, pub. split; [exact G|]. intros pri' rn msg opt LV.
  assert (VP : valid_priv sbm pri).
  { destruct (Prop_Ed25519.C85_key sha512 sha512_len sha512_oct seed) as (pb & EK & PA & _). pose proof PA as (xa & ya & _ & Lp & Op & _).
    assert (E : pri = SkEd (Ed25519.NewKeyFromSeed sha512 seed)).
    { unfold GenerateKeyPair in G. change ((20 =? PK_ECDSA) || (20 =? PK_SM2)) with false in G. change (20 =? PK_EDDSA) with true in G. change (25 =? L_ED25519) with true in G. cbv iota in G.
      unfold ed25519_gen in G. rewrite zlen_app in G. pose proof (zlen_nonneg _ more) as Z0. assert (Z32 : zlen seed = 32) by (unfold zlen; lia). rewrite Z32 in G.
      destruct (Z.ltb_spec (32 + zlen more) 32); [lia|]. rewrite SigFacts.slice_head in G by (symmetry; exact Z32). cbn [bind] in G. rewrite EK in G. rewrite slice_tail in G by (symmetry; exact Z32).
      cbn [bind] in G. injection G as <- _. rewrite EK. reflexivity. }
    rewrite E. apply vs_ed; rewrite EK; [rewrite app_length; lia|apply Forall_app; split; assumption]. }
  rewrite (C86_unchanged sbm scrypt bc sha256 sbm_value bc_ok scrypt_shape sha_len sha_oct _ _ VP LV).
  destruct (ALL rn msg opt) as (sig & buf & A & B & _ & R). exists ke, sig, buf. split; [exact Ske|]. split; [exact A|]. split; [exact B|].
  intros rng. exists pub. split; [apply DD|exact R].
Qed.
End EdUse.
Print Assumptions C86_ed_life.

(** ** Examples: the scalar 1 on P-256, drawn, written to a file, exported, and encrypted under two passwords *)
Definition ex_rand : bytes := to_be 32 (Z.lxor 1 (0x42 * 256 ^ 30)).
Definition ex_key : privkey := SkEC 0 1 Prop_ECDSA.ex_pub.
Example C86_example_drawn : GenerateKeyPair ScalarBaseMult (fun b => b) (fun _ _ => None) 18 (Some 2) ex_rand = Val (Keys ex_key (PkEC 0 Prop_ECDSA.ex_pub)).
Proof.
  assert (B : bits_of (c_N P256) 256) by (vm_compute; repeat split; discriminate).
  assert (Y : bytes_for 256 32) by (vm_compute; repeat split; discriminate).
  rewrite <- (app_nil_r ex_rand).
  apply (proj1 (C70_first_draw ScalarBaseMult (fun b => b) (fun _ _ => None) 18 2 P256 256 32 (ex_rand ++ []) (or_introl eq_refl)
    ltac:(right; left; split; reflexivity) B Y ltac:(rewrite app_nil_r; apply to_be_wf))).
  assert (E : scalar 256 32 ex_rand = 1) by (vm_compute; reflexivity).
  exists 1, [], (to_be 32 1), (c_Gx P256), (c_Gy P256). split; [|split; [|split; [exact (base_one wP256 31)|split; reflexivity]]].
  - rewrite <- E. apply draw_hit; [reflexivity|rewrite E; reflexivity].
  - apply (encodes_to_be 32); split; [discriminate|reflexivity].
Qed.
Example C86_example_lived : exists e w prot prot',
  SerializePrivateKey ex_key = Val e /\ DeserializePrivateKey ScalarBaseMult [] e = Val (Ok (Some ex_key)) /\
  Key2WIF SHA256 ex_key = Val (Ok w) /\ GetP256KeyPairFromWIF ScalarBaseMult SHA256 w = Val (Ok ex_key) /\
  protects ScalarBaseMult toy_scrypt aes_cipher SHA256 ex_key [65; 66] prot [1; 2; 3] toy_param /\
  ReencryptPrivateKey ScalarBaseMult toy_scrypt aes_cipher SHA256 (Ok toy_salt) (Some prot) [1; 2; 3] [9] toy_param toy_param = Val (Ok prot') /\
  DecryptWithCustomScrypt ScalarBaseMult toy_scrypt aes_cipher SHA256 (Some prot') [9] toy_param = Val (Ok ex_key) /\
  lived ScalarBaseMult toy_scrypt aes_cipher SHA256 ex_key ex_key.
Proof.
  destruct (C86_ways ScalarBaseMult toy_scrypt aes_cipher SHA256 C86_leading_zeros aes_cipher_shape toy_scrypt_shape SHA256_length SHA256_octets ex_key ex_valid) as (F & W & P & Q).
  destruct (F [] ltac:(intros C; discriminate C)) as (e & Se & De).
  destruct (proj2 W ltac:(exists 1, Prop_ECDSA.ex_pub; split; reflexivity)) as (w & E1 & E2 & E3).
  assert (Sc : forall pwd, exists dkey, toy_scrypt pwd toy_salt (sp_N toy_param) (sp_R toy_param) (sp_P toy_param) (sp_DKLen toy_param) = Ok dkey) by (intros pwd; eexists; reflexivity).
  destruct (Sc [1; 2; 3]) as [k1 S1]. destruct (Sc [9]) as [k2 S2].
  destruct (proj2 (Q toy_salt [65; 66] [1; 2; 3] toy_param k1 ltac:(discriminate) S1) ltac:(discriminate)) as [prot HP].
  destruct (P _ _ _ _ HP) as (_ & _ & RE). destruct (RE toy_salt [9] toy_param k2 ltac:(discriminate) ltac:(discriminate) S2) as (prot' & R & HP').
  destruct (P _ _ _ _ HP') as (_ & D & _). pose proof (proj2 D ltac:(discriminate)) as D'.
  exists e, w, prot, prot'. repeat (split; [eassumption|]).
  eapply li_more; [eapply li_more; [eapply li_more; [apply li_new|exact (st_file _ _ _ _ _ _ [] e Se De)]|exact (st_wif_p256 _ _ _ _ _ _ w E1 E3)]|exact (st_encrypted _ _ _ _ _ _ [65; 66] prot' [9] toy_param HP' D')].
Qed.
Example C86_example_zero : forall c, ScalarBaseMult c [] = (0, 0) /\ ScalarBaseMult c [0; 0] = (0, 0).
Proof. intros c. split; [reflexivity|]. rewrite (C86_leading_zeros c [0; 0] []); [reflexivity|repeat constructor; unfold is_byte; lia|constructor|reflexivity]. Qed.
Example C86_example : forall pri', lived ScalarBaseMult toy_scrypt aes_cipher SHA256 ex_key pri' -> exists e buf, SerializePublicKey (PkEC 0 Prop_ECDSA.ex_pub) = Val e /\
  forall rng, exists pub, DeserializePublicKey rng e = Val (Ok pub) /\
    receive ex_H (fun _ _ => Val (Err ""%string)) (fun _ _ _ => false) (fun _ _ _ => false) pub [104; 105] buf = Val true.
Proof.
  intros pri' LV.
  pose proof (C86_unchanged ScalarBaseMult toy_scrypt aes_cipher SHA256 C86_leading_zeros aes_cipher_shape toy_scrypt_shape SHA256_length SHA256_octets _ _ ex_valid LV) as E. 
  assert (OM : octets [104; 105]) by (repeat constructor; lia).
  destruct (C86_life toy_scrypt aes_cipher SHA256 aes_cipher_shape toy_scrypt_shape SHA256_length SHA256_octets (fun _ => repeat 7 64) (fun _ b => map (fun _ => 0) b) ex_H (fun _ _ => Prop_ECDSA.ex_octets)
    (fun _ _ _ => Val (Err ""%string)) (fun _ _ => Val (Err ""%string)) (fun _ _ => []) (fun _ _ _ => false) (fun _ _ _ => Val (Err ""%string)) (fun _ _ _ => false)
    (fun b => b) (fun _ _ => None) 18 2 P256 ex_rand ex_key (PkEC 0 Prop_ECDSA.ex_pub) pri' 5 (1%nat, Ok (repeat 5 16)) [104; 105] OptOther _ (or_introl eq_refl) ltac:(right; left; split; reflexivity)
    (or_introl eq_refl) ltac:(apply to_be_wf) C86_example_drawn ltac:(discriminate) LV OM ltac:(discriminate) eq_refl (Forall_nil _) eq_refl (fun F => F)
    ltac:(rewrite E; exact ex_signature)) as (e & buf & A & _ & R).
  exists e, buf. split; [exact A|exact R].
Qed.
