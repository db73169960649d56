(** * Prop_Amd: property C96, keys of the SM2 curve on amd64, from their generation through every way of
    storing them to a signature that is sent, with the instructions of /repo/sm2/p256_asm_amd64.s
    (/repo/keypair, /repo/ec/key.go, /repo/signature/signature.go; SigAmd.v).  The assembly is wrong on some
    inputs (C68): the runs that matter are named and assumed to be clean (Spec_AsmClean), and the signatures
    that the receiver refuses all the same are given exactly. *)
From Coq Require Import ZArith Znumtheory Zpow_facts String List Bool Lia.
From Verif Require Import Base BaseFacts Curves ECKey Keypair AES Spec_GCM AESFacts Encrypt Prop_Encrypt SM3 Spec_Group CurveZ CurveSM2 SM2Sig Spec_EC ECFacts ECFacts2 Spec_SM2
  Spec_Keys KeyFacts Prop_Keys Prop_SM2 P256 Spec_P256 Prop_P256b Prop_P256c Prop_P256d AsmVal AsmEq AsmFix AsmSim Spec_AsmClean Prop_Asm2 Prop_SM2Enc4 Prop_AsmSig
  Spec_Gen Generate GenFacts Prop_Gen Spec_ECDSA Prop_ECDSA2 Signature Spec_Sig SigFacts Prop_Sig Prop_Sig2 Spec_Life Prop_Life SigWhole SigAmd.
From Verif Require ECDSA Prop_ECDSA Elliptic Primes3 Prop_SigWhole Prop_Sig3 Spec_SHA2.
Import ListNotations.
Open Scope Z_scope.

(** ** The multiplication on bytes *)
Lemma asm_value : forall b b', octets b -> octets b' -> value b 0 = value b' 0 -> asm_sbm asm_prims b = asm_sbm asm_prims b'.
Proof. intros b b' O O' E. rewrite !value_be2z in E. unfold asm_sbm, P256.ScalarBaseMult, p256GetScalar. rewrite E. reflexivity. Qed.
Theorem C96_leading_zeros : forall c b b', octets b -> octets b' -> value b 0 = value b' 0 -> amd_sbm c b = amd_sbm c b'.
Proof.
  intros c b b' O O' E. unfold amd_sbm. destruct (is_SM2Curve c); [apply asm_value|apply C86_leading_zeros]; assumption.
Qed.
Lemma sm2_affine : forall P : pt (eg sm2_E), P <> gO -> exists a, supported SM2P256V1 a /\ affine_point SM2P256V1 a (fst (co P)) (snd (co P)).
Proof.
  intros P NP. eexists. split; [constructor|]. destruct (sm2_coords_ok P NP) as (RX & RY & _). split; [exact RX|]. split; [change (c_P SM2P256V1) with cP; lia|].
  pose proof (on_of_at P _ _ (eat_coords P NP)) as [q ON]. set (x := fst (co P)) in *. set (y := snd (co P)) in *. clearbody x y.
  unfold curve_eq. apply Prop_SigWhole.mod_of_divide; [discriminate|]. exists (q - x).
  match goal with |- context [x * x * x + ?a * x + _] => assert (A : a = cP - 3) by reflexivity; rewrite A end.
  rewrite (Z.mul_sub_distr_r q x). rewrite <- ON. ring.
Qed.

(** ** Generated keys: with a clean run for the scalar they are right, and can be stored *)
Theorem C96_generated : forall ed_new field_element t rand pri pub, t = 18 \/ t = 19 -> octets rand ->
  GenerateKeyPair amd_sbm ed_new field_element t (Some 20) rand = Val (Keys pri pub) ->
  exists D k, pri = SkEC (t - 18) D k /\ pub = PkEC (t - 18) k /\ pk_curve k = SM2P256V1 /\ 0 <= D < cN /\ (pk_X k, pk_Y k) = asm_sbm asm_prims (big_bytes D) /\
    (D <> 0 -> clean_base_mult (big_bytes D) = true ->
     (pk_X k, pk_Y k) = co (gmul D kG) /\ valid_priv amd_sbm pri /\ valid_pub pub /\
     forall scrypt bc sha256 pri', bc_shape bc -> (forall pwd salt N r p l k, scrypt pwd salt N r p l = Ok k -> Z.of_nat (length k) = l /\ octets k) ->
       (forall x, length (sha256 x) = 32%nat) -> (forall x, octets (sha256 x)) ->
       lived amd_sbm scrypt bc sha256 pri pri' -> pri' = pri).
Proof.
  intros ed_new field_element t rand pri pub Ht Ho G.
  assert (Hl : label_of SM2P256V1 20) by (do 5 right; split; reflexivity).
  destruct (order_size SM2P256V1 _ sup_SM2) as (n & len & k & m & B1 & B2 & B3 & _).
  apply (proj1 (C70_first_draw amd_sbm ed_new field_element t 20 SM2P256V1 n len rand Ht Hl B1 B2 Ho)) in G.
  destruct G as (D & rest & db & x & y & Dr & E & S & -> & ->). destruct (encodes_inv _ _ _ E) as (A & B & C).
  assert (R : D < cN) by (clear - Dr; change cN with (c_N SM2P256V1); induction Dr; assumption). pose proof (be2z_bound db B) as R0.
  assert (SB : asm_sbm asm_prims (big_bytes D) = (x, y)).
  { rewrite <- S. change (amd_sbm SM2P256V1 db) with (asm_sbm asm_prims db). apply asm_value; [apply big_bytes_wf|exact B|]. rewrite !value_be2z, be2z_big_bytes by lia. symmetry. exact C. }
  exists D. eexists. split; [reflexivity|]. split; [reflexivity|]. cbn [pk_curve pk_X pk_Y]. split; [reflexivity|]. split; [lia|]. split; [symmetry; exact SB|].
  intros D0 CL. assert (Q : (x, y) = co (gmul D kG)) by (rewrite <- SB; apply clean_sbm; [lia|exact CL]).
  split; [exact Q|].
  destruct (sm2_affine (gmul D kG) (nonzero_mul D ltac:(lia))) as (a & Sa & Ap). rewrite <- Q in Ap. cbn [fst snd] in Ap.
  assert (V : valid_priv amd_sbm (SkEC (t - 18) D {| pk_curve := SM2P256V1; pk_X := x; pk_Y := y |})).
  { apply (vs_ec amd_sbm (t - 18) SM2P256V1 a len db); try assumption; lia. }
  split; [exact V|]. split; [apply (vp_ec (t - 18) SM2P256V1 a); [lia|exact Sa|exact Ap]|].
  intros scrypt bc sha256 pri' Hb Hs L O LV. exact (C86_unchanged amd_sbm scrypt bc sha256 C96_leading_zeros Hb Hs L O _ _ V LV).
Qed.
Print Assumptions C96_generated.

(** D = N - 1 cannot sign: the inverse of N is 0 *)
Lemma asm_inv_N : asm_inv asm_prims cN mod cN = 0.
Proof.
  destruct (C62_inverse asm_prims asm_ordmul_ok asm_l2b_ok cN) as (r & E & _ & _ & Z0 & _). unfold asm_inv. rewrite E. rewrite (Z0 (Z.divide_refl _)). reflexivity.
Qed.

Section Use.
Variable sha512 : bytes -> bytes.
Variable aes : bytes -> bytes -> bytes.
Variable H : Z -> bytes -> bytes.
Hypothesis H_octets : forall sch m, octets (H sch m).
Variable k1SignCompact : Z -> ecpub -> bytes -> go (res bytes).
Variable k1RecoverCompact : bytes -> bytes -> go (res (Z * Z)).
Variable edSign : bytes -> bytes -> bytes.
Variable edVerify : bytes -> bytes -> bytes -> bool.
Variable ethSign : bytes -> Z -> ecpub -> go (res bytes).
Variable ethVerify : bytes -> bytes -> bytes -> bool.
Notation Sign := (SigAmd.Sign sha512 aes H k1SignCompact edSign ethSign).
Notation Verify := (SigAmd.Verify H k1RecoverCompact edVerify ethVerify).
Notation receive := (SigAmd.receive H k1RecoverCompact edVerify ethVerify).

(** the key pair D, k of the SM2 curve *)
Definition sm2_pair (D : Z) (k : ecpub) : Prop := pk_curve k = SM2P256V1 /\ 0 < D < cN /\ (pk_X k, pk_Y k) = co (gmul D kG).
(** the signature is the pair r, s; which multiplications its maker and its receiver make, and when the receiver
    refuses although these are clean *)
Inductive signed (D : Z) (k : ecpub) (msg : bytes) : signature -> Prop -> Prop -> Prop :=
| sd_sm2 : forall r s id,
    signed D k msg {| sg_Scheme := 9; sg_Value := VSM2 r s (Some SM2P256V1) id |}
      (clean_base_mult (big_bytes ((s + (r + s) * D) mod cN)) = true /\
       clean_combined_mult (pk_X k) (pk_Y k) (big_bytes s) (big_bytes ((r + s) mod cN)) = true)
      ((r + s) mod cN = cN - 6 \/ (s - (r + s) * D) mod cN = 0)
| sd_dsa : forall sch r s, 0 <= sch <= 8 -> let e := digest_int 256 (H sch msg) in
    signed D k msg {| sg_Scheme := sch; sg_Value := VDSA r s (Some SM2P256V1) |}
      (e mod cN <> 0 /\
       (forall w, (w * s) mod cN = 1 -> clean_base_mult (big_bytes (((e + r * D) * w) mod cN)) = true /\
          clean_combined_mult (pk_X k) (pk_Y k) (big_bytes ((e * w) mod cN)) (big_bytes ((r * w) mod cN)) = true))
      ((r + 6 * s) mod cN = 0 \/ (e - r * D) mod cN = 0).

Lemma pair_coords : forall D k, sm2_pair D k -> coords32 k /\ gmul D kG <> gO.
Proof.
  intros D k (Hc & HD & HK). pose proof (nonzero_mul D ltac:(lia)) as NO. split; [|exact NO].
  destruct (sm2_coords_ok (gmul D kG) NO) as (RX & RY & _). rewrite <- HK in RX, RY. cbn [fst snd] in RX, RY.
  assert (PW : cP < 256 ^ 32) by reflexivity. unfold coords32. split; lia.
Qed.
Lemma same_scalar : forall a b D, gmul a kG = gmul b (gmul D kG) <-> (a - b * D) mod cN = 0.
Proof.
  intros a b D. rewrite <- gmul_mul, (gmul_inj _ cN a (b * D) kG Primes3.prime_c_N_SM2P256V1 (killed _) (eG_nonzero sm2_E)). split; intros C.
  - rewrite Zminus_mod, C, Z.sub_diag. reflexivity.
  - apply Z.mod_divide in C; [|discriminate]. destruct C as [q Q]. replace a with (b * D + q * cN) by lia. apply Z.mod_add. discriminate.
Qed.

Theorem C96_sign_verify : forall alg alg' D k sch rn msg opt sig, sm2_pair D k ->
  octets msg -> msg <> [] -> zlen msg < 2 ^ 60 -> octets (opt_id opt) -> zlen (opt_id opt) < 2 ^ 60 ->
  Sign rn sch (SkEC alg D k) msg opt = Val (Ok sig) ->
  exists clean refused, signed D k msg sig clean refused /\
    (clean -> produced sig /\ exists b, Verify (PkEC alg' k) msg (Some sig) = Val b /\ (b = true <-> ~ refused)).
Proof.
  intros alg alg' D k sch rn msg opt sig KP Om NE Lm Oi Li S. destruct (pair_coords D k KP) as [C32 NO]. destruct KP as (Hc & HD & HK).
  assert (M : (zlen msg =? 0) = false) by (destruct msg; [congruence|reflexivity]).
  assert (T : forall c, Val c = Val true <-> c = true) by (intros c; split; [intros X; injection X; auto|intros ->; reflexivity]).
  unfold SigAmd.Sign in S. apply Sign_inv in S. inversion S as [al d k' R S' id Hid ES|sch' al d k' s Hs Hn ES|sch' al d k' R S' Hs Hn ES| |]; subst.
  - change (match opt with OptString s => s | _ => [] end) with (opt_id opt) in *. set (id := opt_id opt) in *.
    assert (I : inputs_ok k id msg New) by (split; [exact Hc|]; split; [exact C32|]; split; [exact New_hasher|]; repeat (split; [assumption|]); assumption).
    assert (ND : D <> cN - 1).
    { intros Q. refine (C45_never_signs sha512 aes (asm_sbm asm_prims) (asm_inv asm_prims) (fst rn) (snd rn) D k id msg New R S' I ltac:(lia) _ ES).
      replace (D + 1) with cN by lia. exact asm_inv_N. }
    destruct (C44_ranges sha512 aes (asm_sbm asm_prims) (asm_inv asm_prims) _ _ _ _ _ _ _ _ _ I (ltac:(lia) : 0 <= D) (asm_invertible D ltac:(lia)) ES) as (R1 & R2 & _).
    do 2 eexists. rewrite Hc. split; [apply sd_sm2|]. intros (CB & CC). split; [apply pr_sm2; [exact Oi|lia|lia]|].
    destruct (Prop_SM2.verify_iff (asm_comb asm_prims) k id msg New R S' I) as (b & V & _). exists b. split.
    + unfold SigAmd.Verify, Signature.Verify. rewrite M. cbn [sg_Scheme sg_Value]. change (GetHash_known 9) with true. cbn [negb]. change (ecdsa_scheme 9) with false.
      change (9 =? SM3withSM2) with true. cbv iota. unfold SigAmd.sm2_verify. rewrite V. reflexivity.
    + rewrite <- T, <- V.
      rewrite (C95_sign_verify sha512 aes (fst rn) (snd rn) D k id msg New New R S' I New_hasher ltac:(lia) (eq_sym HK) ES CB CC). tauto.
  - exfalso. rewrite Hc in Hn. discriminate Hn.
  - assert (B : is_SM2Curve (pk_curve k) = true) by (rewrite Hc; reflexivity).
    unfold SigAmd.ecdsa_sign in ES. rewrite B in ES.
    destruct (C95_ecdsa_sign sha512 aes (fst rn) (snd rn) D k (H sch msg) R S' Hc (H_octets _ _) ES) as (n & Hn1 & Hn2 & _ & ACC).
    do 2 eexists. rewrite Hc. split; [apply sd_dsa; exact Hs|]. cbv zeta. set (e := digest_int 256 (H sch msg)) in *. intros (E0 & CL).
    destruct (signed_attempt asm_prims asm_ordmul_ok asm_l2b_ok _ _ _ _ _ _ _ _ _ Hc (H_octets _ _) ES) as (n' & Hn' & AT).
    inversion AT as [r0 s0 Q1 Q2 Q3 Q4|]. subst r0 s0. clear Q1 Q2 Q4 AT n' Hn'.
    pose proof (asm_inv_right S' ltac:(change (c_N SM2P256V1) with cN in *; lia)) as IV. set (w := asm_inv asm_prims S') in *. clearbody w.
    assert (NN : ((e + R * D) * w) mod cN = n).
    { rewrite <- Z.mul_mod_idemp_l, <- Hn2, Z.mul_mod_idemp_l by discriminate. replace (S' * n * w) with (n * (w * S')) by ring.
      rewrite <- Z.mul_mod_idemp_r, IV, Z.mul_1_r by discriminate. apply Z.mod_small. lia. }
    pose proof (proj1 (CL w IV)) as CB. rewrite NN in CB. specialize (ACC CB).
    pose proof ACC as (A1 & A2 & _). rewrite sm2_E_N in A1, A2.
    split; [apply (pr_dsa sch SM2P256V1 _ R S' Hs sup_SM2); [discriminate|change (c_N SM2P256V1) with cN; lia..]|].
    destruct (Prop_ECDSA.verify_iff (fun _ => asm_inv asm_prims) (asm_comb asm_prims) k 256 ltac:(rewrite Hc; exact sm2_bits) (H sch msg) R S' (H_octets _ _)) as (b & V & _). exists b. split.
    + unfold SigAmd.Verify, Signature.Verify. rewrite M. cbn [sg_Scheme sg_Value].
      replace (GetHash_known sch) with true by (symmetry; apply known_iff; lia). cbn [negb].
      apply ecdsa_scheme_iff in Hs. rewrite Hs. cbv zeta. unfold SigAmd.ecdsa_verify. rewrite B, V. reflexivity.
    + rewrite <- T, <- V.
      rewrite (C95_ecdsa_verify (gmul D kG) k (H sch msg) R S' Hc (eq_sym HK) NO (H_octets _ _) E0 (fun w' IW => proj2 (CL w' IW))).
      fold e. rewrite (same_scalar e R D). tauto.
Qed.

(** the same with the public key and the signature as bytes *)
Theorem C96_end_to_end : forall alg D k sch rn msg opt sig, alg = 0 \/ alg = 1 -> sm2_pair D k ->
  octets msg -> msg <> [] -> zlen msg < 2 ^ 60 -> octets (opt_id opt) -> zlen (opt_id opt) < 2 ^ 60 -> ~ In 0 (opt_id opt) ->
  Sign rn sch (SkEC alg D k) msg opt = Val (Ok sig) ->
  exists clean refused, signed D k msg sig clean refused /\
  (clean -> exists e buf, SerializePublicKey (PkEC alg k) = Val e /\ Serialize (Some sig) = Val (Ok buf) /\ wire sig buf /\
    forall rng, exists pub b, DeserializePublicKey rng e = Val (Ok pub) /\ receive pub msg buf = Val b /\ (b = true <-> ~ refused)).
Proof.
  intros alg D k sch rn msg opt sig Ha KP Om NE Lm Oi Li NI S.
  destruct (C96_sign_verify alg alg D k sch rn msg opt sig KP Om NE Lm Oi Li S) as (clean & refused & SD & V).
  exists clean, refused. split; [exact SD|]. intros CL. destruct (V CL) as (PR & b & Vb & B).
  destruct (C31_wire_format sig PR) as (buf & Sb & Wb).
  destruct (C31_roundtrip sig PR) as (buf' & sig' & Sb' & Db & SC).
  { unfold SigAmd.Sign in S. apply Sign_inv in S. inversion S; subst; easy. }
  assert (buf' = buf) by congruence. subst buf'.
  destruct (pair_coords D k KP) as [_ NO]. destruct KP as (Hc & HD & HK).
  assert (VP : valid_pub (PkEC alg k)).
  { destruct (sm2_affine (gmul D kG) NO) as (a & Sa & Ap). rewrite <- HK in Ap. destruct k as [kc X Y]. cbn [pk_curve pk_X pk_Y fst snd] in *. subst kc.
    apply (vp_ec alg SM2P256V1 a); [exact Ha|exact Sa|exact Ap]. }
  assert (PD : forall rng', pub_decompressible (PkEC alg k) rng') by (intros rng' Q; exfalso; rewrite Hc in Q; discriminate Q).
  destruct (C15_public_key_round_trip (PkEC alg k) [] VP (PD [])) as (e & Se & _). exists e, buf.
  split; [exact Se|]. split; [exact Sb|]. split; [exact Wb|]. intros rng'. exists (PkEC alg k), b. split.
  - destruct (C15_public_key_round_trip (PkEC alg k) rng' VP (PD rng')) as (e' & Se' & De'). congruence.
  - split; [|exact B]. unfold SigAmd.receive, SigAmd.Verify in *. rewrite Db. cbn [bind]. rewrite <- (Verify_same _ _ _ _ _ _ (PkEC alg k) msg _ _ SC). exact Vb.
Qed.

(** a generated key, stored in any of the ways of Spec_Life and read again, then used to sign *)
Theorem C96_life : forall scrypt bc sha256 ed_new field_element t rand pri pub pri' sch rn msg opt sig,
  bc_shape bc -> (forall pwd salt N r p l k, scrypt pwd salt N r p l = Ok k -> Z.of_nat (length k) = l /\ octets k) ->
  (forall x, length (sha256 x) = 32%nat) -> (forall x, octets (sha256 x)) ->
  t = 18 \/ t = 19 -> octets rand -> GenerateKeyPair amd_sbm ed_new field_element t (Some 20) rand = Val (Keys pri pub) ->
  exists D k, pri = SkEC (t - 18) D k /\ pub = PkEC (t - 18) k /\
  (D <> 0 -> clean_base_mult (big_bytes D) = true -> lived amd_sbm scrypt bc sha256 pri pri' ->
   octets msg -> msg <> [] -> zlen msg < 2 ^ 60 -> octets (opt_id opt) -> zlen (opt_id opt) < 2 ^ 60 -> ~ In 0 (opt_id opt) ->
   Sign rn sch pri' msg opt = Val (Ok sig) ->
   exists clean refused, signed D k msg sig clean refused /\
   (clean -> exists e buf, SerializePublicKey pub = Val e /\ Serialize (Some sig) = Val (Ok buf) /\
     forall rng, exists pub' b, DeserializePublicKey rng e = Val (Ok pub') /\ receive pub' msg buf = Val b /\ (b = true <-> ~ refused))).
Proof.
  intros scrypt bc sha256 ed_new field_element t rand pri pub pri' sch rn msg opt sig Hb Hs L O Ht Ho G.
  destruct (C96_generated ed_new field_element t rand pri pub Ht Ho G) as (D & k & -> & -> & Hc & R & _ & W). exists D, k.
  split; [reflexivity|]. split; [reflexivity|]. intros D0 CL LV Om NE Lm Oi Li NI S. destruct (W D0 CL) as (Q & _ & _ & U).
  rewrite (U scrypt bc sha256 pri' Hb Hs L O LV) in S. assert (KP : sm2_pair D k) by (split; [exact Hc|]; split; [lia|exact Q]).
  destruct (C96_end_to_end (t - 18) D k sch rn msg opt sig ltac:(lia) KP Om NE Lm Oi Li NI S) as (clean & refused & SD & V).
  exists clean, refused. split; [exact SD|]. intros C. destruct (V C) as (e & buf & A & B & _ & X). exists e, buf. split; [exact A|]. split; [exact B|exact X].
Qed.
End Use.
Print Assumptions C96_life.
Print Assumptions C96_leading_zeros.
Print Assumptions C96_sign_verify.
Print Assumptions C96_end_to_end.

Section Receive.
Variable H : Z -> bytes -> bytes.
Hypothesis H_octets : forall sch m, octets (H sch m).
Variable k1RecoverCompact : bytes -> bytes -> go (res (Z * Z)).
Variable edVerify : bytes -> bytes -> bytes -> bool.
Variable ethVerify : bytes -> bytes -> bytes -> bool.
Notation Verify := (SigAmd.Verify H k1RecoverCompact edVerify ethVerify).
Notation receive := (SigAmd.receive H k1RecoverCompact edVerify ethVerify).
(** ** The receiver, for every string of bytes: how it is read, which multiplication must be clean, and whether it is a
    signature that is accepted; the public key is the point P *)
Inductive dsa (P : pt (eg sm2_E)) (k : ecpub) (msg : bytes) : Z -> Z -> Z -> Prop -> Prop -> Prop :=
| dsa_pair : forall sch r s, let e := digest_int 256 (H sch msg) in
    dsa P k msg sch r s
      (e mod cN <> 0 /\ forall w, (w * s) mod cN = 1 ->
         clean_combined_mult (pk_X k) (pk_Y k) (big_bytes ((e * w) mod cN)) (big_bytes ((r * w) mod cN)) = true)
      (ecdsa_accepts sm2_E P e r s /\ (r + 6 * s) mod cN <> 0 /\ gmul e kG <> gmul r P).
Inductive read (P : pt (eg sm2_E)) (k : ecpub) (msg : bytes) : bytes -> Prop -> Prop -> Prop :=
| rd_short : forall rb sb clean good, length rb = 32%nat -> length sb = 32%nat ->
    dsa P k msg 1 (value rb 0) (value sb 0) clean good -> read P k msg (rb ++ sb) clean good
| rd_dsa : forall sch rb sb clean good, 0 <= sch <= 8 -> length rb = length sb -> rb <> [] ->
    dsa P k msg sch (value rb 0) (value sb 0) clean good -> read P k msg (sch :: rb ++ sb) clean good
| rd_k1 : forall sch v, 0 <= sch <= 8 -> length v = 65%nat ->
    read P k msg (sch :: v) True (k1RecoverCompact v (H sch msg) = Val (Ok (pk_X k, pk_Y k)))
| rd_sm2 : forall id rb sb, ~ In 0 id -> length rb = length sb -> length (id ++ 0 :: rb ++ sb) <> 63%nat -> let r := value rb 0 in let s := value sb 0 in
    read P k msg (9 :: id ++ 0 :: rb ++ sb)
      (clean_combined_mult (pk_X k) (pk_Y k) (big_bytes s) (big_bytes ((r + s) mod cN)) = true)
      (sm2_accepts sm2_E P (msg_e k id msg) r s /\ (r + s) mod cN <> cN - 6 /\ gmul s kG <> gmul (r + s) P)
| rd_other : forall t data, t = 10 \/ t = 11 -> data <> [] -> length data <> 63%nat -> read P k msg (t :: data) True False.
Theorem C96_receive : forall (P : pt (eg sm2_E)) alg k msg buf, pk_curve k = SM2P256V1 -> P <> gO -> co P = (pk_X k, pk_Y k) ->
  octets msg -> octets buf -> zlen msg < 2 ^ 60 -> zlen buf < 2 ^ 60 ->
  ((forall sig dg, exists r, k1RecoverCompact sig dg = Val r) -> exists b, receive (PkEC alg k) msg buf = Val b) /\
  (forall clean good, read P k msg buf clean good -> clean -> (receive (PkEC alg k) msg buf = Val true <-> msg <> [] /\ good)) /\
  ((forall clean good, ~ read P k msg buf clean good) -> receive (PkEC alg k) msg buf = Val false).
Proof.
  intros P alg k msg buf Hc NP HP Om Ob Lm Lb.
  assert (C32 : coords32 k).
  { destruct (sm2_coords_ok P NP) as (RX & RY & _). rewrite HP in RX, RY. cbn [fst snd] in RX, RY.
    assert (PW : cP < 256 ^ 32) by reflexivity. unfold coords32. split; lia. }
  assert (T : forall c, Val c = Val true <-> c = true) by (intros c; split; [intros X; injection X; auto|intros ->; reflexivity]).
  assert (AC : forall sig, Verify (PkEC alg k) msg (Some sig) = Val true <->
     msg <> [] /\ Prop_Sig3.accepts H SigAmd.ecdsa_verify k1RecoverCompact edVerify ethVerify SigAmd.sm2_verify msg (PkEC alg k) sig).
  { intros sig. apply Prop_Sig3.C66_accepts_iff. intros k' Q. discriminate Q. }
  assert (B : is_SM2Curve (pk_curve k) = true) by (rewrite Hc; reflexivity).
  assert (DS : forall sch r s clean good, 0 <= sch <= 8 -> dsa P k msg sch r s clean good -> clean ->
    (Verify (PkEC alg k) msg (Some {| sg_Scheme := sch; sg_Value := VDSA r s None |}) = Val true <-> msg <> [] /\ good)).
  { intros sch r s clean good Hs D CL. rewrite AC. apply and_iff_compat_l. destruct D as [sch r s e]. destruct CL as (E0 & CL).
    refine (iff_trans _ (C95_ecdsa_verify P k (H sch msg) r s Hc HP NP (H_octets _ _) E0 CL)).
    destruct (Prop_ECDSA.verify_iff (fun _ => asm_inv asm_prims) (asm_comb asm_prims) k 256 ltac:(rewrite Hc; exact sm2_bits) (H sch msg) r s (H_octets _ _)) as (b & V & _).
    assert (U : SigAmd.ecdsa_verify k (H sch msg) r s = b) by (unfold SigAmd.ecdsa_verify; rewrite B, V; reflexivity).
    rewrite V, T. split; [intros A; inversion A; congruence|intros ->; apply Prop_Sig3.ac_dsa; assumption]. }
  split; [|split].
  - intros K. unfold SigAmd.receive. destruct (C32_deserialize_total buf) as [[sig|e] ->]; cbn [bind]; [apply C38_ec_never_panics; exact K|eexists; reflexivity].
  - intros clean good R. unfold SigAmd.receive. destruct R as [rb sb clean good L1 L2 D|sch rb sb clean good Hs L N D|sch v Hs L|id rb sb NI L L63 r s|t data Ht N L]; intros CL.
    + rewrite Deserialize_64 by (rewrite app_length, L1, L2; reflexivity). rewrite des_dsa by (lia || congruence). cbn [bind]. rewrite !value_be2z in D. apply (DS _ _ _ clean); [lia|assumption..].
    + rewrite Deserialize_cons; [|intros C; apply app_eq_nil in C as [C _]; exact (N C)|rewrite app_length; lia]. rewrite des_dsa by assumption. cbn [bind].
      rewrite !value_be2z in D. apply (DS _ _ _ clean); assumption.
    + rewrite Deserialize_cons by (try lia; intros ->; discriminate L). rewrite des_bytes by assumption. cbn [bind]. rewrite AC. apply and_iff_compat_l.
      split; [intros A; inversion A; subst; assumption|]. intros A. apply (Prop_Sig3.ac_k1 _ _ _ _ _ _ _ _ _ _ _ (pk_X k) (pk_Y k)); (assumption || reflexivity).
    + rewrite Deserialize_cons by (try exact L63; destruct id; discriminate). rewrite des_sm2 by assumption. cbn [bind]. rewrite AC. apply and_iff_compat_l.
      rewrite <- !value_be2z. fold r s. inversion Ob as [|? ? _ Ob']; subst. apply Forall_app in Ob' as [Oi _].
      rewrite zlen_cons, zlen_app in Lb. assert (0 <= zlen (0 :: rb ++ sb)) by (unfold zlen; lia).
      assert (I : inputs_ok k id msg New) by (split; [exact Hc|]; split; [exact C32|]; split; [exact New_hasher|]; repeat (split; [assumption|]); split; [lia|exact Lm]).
      rewrite <- (C95_verify P k id msg New r s I NP HP CL).
      destruct (Prop_SM2.verify_iff (asm_comb asm_prims) k id msg New r s I) as (b & V & _).
      assert (U : SigAmd.sm2_verify k id msg r s = b) by (unfold SigAmd.sm2_verify; rewrite V; reflexivity).
      rewrite V, T. split; [intros A; inversion A; congruence|intros ->; apply Prop_Sig3.ac_sm2; assumption].
    + rewrite Deserialize_cons by assumption. rewrite des_copy by assumption. cbn [bind]. rewrite AC. apply and_iff_compat_l. split; [|tauto]. intros A. inversion A; lia.
  - intros NR. unfold SigAmd.receive. destruct (Deserialize_cases buf) as [[e D]|(sig & sch & data & D & Sp & De)]; [rewrite D; reflexivity|]. exfalso.
    destruct Sp as [buf L|t data N L]; destruct De as [Hs L'|a b Hs Q L'|id a b Q' Q NI L'|Hs]; try discriminate; try lia.
    + subst buf. rewrite app_length in L. eapply NR. apply rd_short; [lia|lia|apply dsa_pair].
    + eapply NR. apply rd_k1; assumption.
    + subst data. eapply NR. apply rd_dsa; [assumption|assumption| |apply dsa_pair]. intros ->. destruct b; [|discriminate L']. apply N. reflexivity.
    + subst t data. eapply NR. apply rd_sm2; assumption.
    + eapply NR. apply rd_other; assumption.
Qed.
End Receive.
Print Assumptions C96_receive.

(** ** Examples: the scalar 1 drawn on the SM2 curve, a clean run; a signature with the key 2 and the nonce 1 *)
Example C96_example_drawn : GenerateKeyPair amd_sbm (fun b => b) (fun _ _ => None) 19 (Some 20) ex_rand = Val (Keys (SkEC 1 1 pub1) (PkEC 1 pub1)).
Proof.
  assert (B : bits_of (c_N SM2P256V1) 256) by (vm_compute; repeat split; discriminate).
  assert (Y : bytes_for 256 32) by (vm_compute; repeat split; discriminate).
  rewrite <- (app_nil_r ex_rand).
  apply (proj1 (C70_first_draw amd_sbm (fun b => b) (fun _ _ => None) 19 20 SM2P256V1 256 32 (ex_rand ++ []) (or_intror eq_refl)
    ltac:(do 5 right; split; reflexivity) B Y ltac:(rewrite app_nil_r; apply to_be_wf))).
  assert (E : scalar 256 32 ex_rand = 1) by (vm_compute; reflexivity).
  exists 1, [], (to_be 32 1), (c_Gx SM2P256V1), (c_Gy SM2P256V1). split; [|split; [|split; [|split; reflexivity]]].
  - rewrite <- E. apply draw_hit; [reflexivity|rewrite E; reflexivity].
  - apply (encodes_to_be 32); split; [discriminate|reflexivity].
  - rewrite (C96_leading_zeros SM2P256V1 (to_be 32 1) (big_bytes 1)); [exact asm_sbm_1|apply to_be_wf|apply big_bytes_wf|].
    rewrite !value_be2z. reflexivity.
Qed.
Example C96_example_valid : valid_priv amd_sbm (SkEC 1 1 pub1) /\ valid_pub (PkEC 1 pub1) /\
  exists e, SerializePrivateKey (SkEC 1 1 pub1) = Val e /\ DeserializePrivateKey amd_sbm [] e = Val (Ok (Some (SkEC 1 1 pub1))).
Proof.
  destruct (C96_generated (fun b => b) (fun _ _ => None) 19 ex_rand _ _ (or_intror eq_refl) ltac:(apply to_be_wf) C96_example_drawn) as (D & k & E1 & _ & _ & _ & _ & W).
  injection E1 as <- <-. destruct (W ltac:(discriminate) one_clean) as (_ & V & P & _). split; [exact V|]. split; [exact P|].
  destruct (C19_private_key_round_trip amd_sbm _ [] V ltac:(intros Q; discriminate Q)) as (e & A & B). exists e. split; assumption.
Qed.
Lemma pair2 : sm2_pair 2 pub2.
Proof. split; [reflexivity|]. split; [split; [lia|reflexivity]|]. rewrite coords_2G. reflexivity. Qed.
Example C96_example : forall H k1s k1r eds edv eths ethv, (forall sch m, octets (H sch m)) -> exists r s,
  let sig := {| sg_Scheme := 9; sg_Value := VSM2 r s (Some SM2P256V1) [] |} in
  SigAmd.Sign toy_sha zero_aes H k1s eds eths (1%nat, Ok (repeat 5 16)) 9 (SkEC 1 2 pub2) [104; 105] OptOther = Val (Ok sig) /\
  (clean_combined_mult (pk_X pub2) (pk_Y pub2) (big_bytes s) (big_bytes ((r + s) mod cN)) = true ->
   exists b, SigAmd.Verify H k1r edv ethv (PkEC 1 pub2) [104; 105] (Some sig) = Val b /\
     (b = true <-> ~ ((r + s) mod cN = cN - 6 \/ (s - (r + s) * 2) mod cN = 0))).
Proof.
  intros H k1s k1r eds edv eths ethv HO. destruct C95_example_sign as (r & s & E & K & _). exists r, s. cbv zeta.
  match goal with |- ?A /\ _ => assert (S : A) end.
  { unfold SigAmd.Sign, Signature.Sign. change (GetHash_known 9) with true. change (9 =? SM3withSM2) with true. cbn [negb]. cbv zeta iota. unfold sm2_sign. cbn [fst snd].
    rewrite E. reflexivity. }
  split; [exact S|]. intros CC.
  destruct (C96_sign_verify toy_sha zero_aes H HO k1s k1r eds edv eths ethv 1 1 2 pub2 9 _ [104; 105] OptOther _ pair2 ltac:(repeat constructor; lia) ltac:(discriminate) ltac:(reflexivity)
    ltac:(constructor) ltac:(reflexivity) S) as (clean & refused & SD & V).
  inversion SD; subst. destruct V as (_ & b & V); [|exists b; exact V]. rewrite K. split; [exact one_clean|exact CC].
Qed.

(** a string that cannot be read is refused, and so is a pair with s = 0, for which there is no multiplication *)
Example C96_example_receive : forall H k1r edv ethv msg, (forall sch m, octets (H sch m)) -> octets msg -> zlen msg < 2 ^ 60 ->
  SigAmd.receive H k1r edv ethv (PkEC 1 pub2) msg [9; 1; 2; 3] = Val false /\
  (digest_int 256 (H 0 msg) mod cN <> 0 -> SigAmd.receive H k1r edv ethv (PkEC 1 pub2) msg [0; 5; 0] <> Val true).
Proof.
  intros H k1r edv ethv msg HO Om Lm. assert (NP : gmul 2 kG <> gO) by (apply nonzero_mul; split; [lia|discriminate]).
  split.
  - apply (C96_receive H HO k1r edv ethv (gmul 2 kG) 1 pub2 msg [9; 1; 2; 3] eq_refl NP coords_2G Om ltac:(repeat constructor; lia) Lm ltac:(reflexivity)).
    intros clean good R. remember [9; 1; 2; 3] as buf eqn:Q. destruct R as [rb sb clean good L1 L2 D|sch rb sb clean good Hs L N D|sch v Hs L|id rb sb NI L L63 r s|t data Ht N L].
    + apply (f_equal (@length Z)) in Q. rewrite app_length, L1, L2 in Q. discriminate Q.
    + injection Q as -> _. lia.
    + injection Q as -> _. lia.
    + injection Q as Q. assert (I : In 0 [1; 2; 3]) by (rewrite <- Q; apply in_or_app; right; left; reflexivity). cbn in I. lia.
    + injection Q as -> _. lia.
  - intros C A. destruct (C96_receive H HO k1r edv ethv (gmul 2 kG) 1 pub2 msg [0; 5; 0] eq_refl NP coords_2G Om ltac:(repeat constructor; lia) Lm ltac:(reflexivity)) as (_ & R & _).
    apply (R _ _ (rd_dsa H k1r (gmul 2 kG) pub2 msg 0 [5] [0] _ _ ltac:(lia) eq_refl ltac:(discriminate) (dsa_pair _ _ _ _ _ _ _))) in A.
    + destruct A as (_ & (_ & F & _) & _). cbn in F. lia.
    + split; [exact C|]. intros w W. exfalso. cbn in W. rewrite Z.mul_0_r in W. discriminate W.
Qed.
