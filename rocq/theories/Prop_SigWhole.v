(** * Prop_SigWhole: property C79, signatures from the private key to the bytes received, on P-256 and the SM2 curve
    (/repo/signature with crypto/ecdsa and /repo/sm2 over the methods of elliptic.CurveParams) *)
From Coq Require Import ZArith Znumtheory Zpow_facts String List Bool Lia.
From Verif Require Import Base BaseFacts Curves ECKey Keypair SM3 Spec_EC ECFacts ECFacts2 Spec_Keys KeyFacts Prop_Keys Spec_Group Spec_SM2 SM2Sig Prop_SM2
  NumTheory LucasFacts CurveZ CurveRoot Elliptic EllipticFacts CurveWhole Prop_Whole SM2Generic Spec_ECDSA Spec_Gen Signature Spec_Sig SigFacts Prop_Sig Prop_Sig2 SigWhole.
From Verif Require ECDSA Prop_ECDSA Prop_Generic Prop_Sig3.
Import ListNotations.
Open Scope Z_scope.

(** ** Which byte strings are signatures *)
Section Valid.
Variable H : Z -> bytes -> bytes.
Variable k1RecoverCompact : bytes -> bytes -> go (res (Z * Z)).
Variable E : ecgroup.
(** the public key, as a group element and with the coordinates the code has *)
Variable P : pt (eg E).
Variable k : ecpub.
Variable msg : bytes.
Inductive valid_bytes : bytes -> Prop :=
| vb_short : forall rb sb, length rb = 32%nat -> length sb = 32%nat ->
    ecdsa_accepts E P (digest_int 256 (H 1 msg)) (value rb 0) (value sb 0) -> valid_bytes (rb ++ sb)
| vb_dsa : forall sch rb sb, 0 <= sch <= 8 -> length rb = length sb ->
    ecdsa_accepts E P (digest_int 256 (H sch msg)) (value rb 0) (value sb 0) -> valid_bytes (sch :: rb ++ sb)
| vb_k1 : forall sch v, 0 <= sch <= 8 -> length v = 65%nat -> k1RecoverCompact v (H sch msg) = Val (Ok (pk_X k, pk_Y k)) -> valid_bytes (sch :: v)
| vb_sm2 : forall id rb sb, pk_curve k = SM2P256V1 -> ~ In 0 id -> length rb = length sb -> length (id ++ 0 :: rb ++ sb) <> 63%nat ->
    sm2_accepts E P (msg_e k id msg) (value rb 0) (value sb 0) -> valid_bytes (9 :: id ++ 0 :: rb ++ sb).
End Valid.

Lemma prime_curve_sup : forall c, prime_curve c -> exists a, supported c a.
Proof. intros c [-> | ->]; eexists; constructor. Qed.
Lemma prime_curve_bits : forall c, prime_curve c -> bits_of (c_N c) 256.
Proof. intros c [-> | ->]; (split; [reflexivity|]; split; [discriminate|reflexivity]). Qed.
Lemma prime_curve_name : forall c, prime_curve c -> c_name c <> c_name S256.
Proof. intros c [-> | ->]; discriminate. Qed.
Lemma prime_curve_sm2 : forall c, prime_curve c -> c_name c = c_name SM2P256V1 -> c = SM2P256V1.
Proof. intros c [-> | ->] Q; [discriminate Q|reflexivity]. Qed.

Lemma app_inj_len : forall (a c b d : bytes), length a = length c -> a ++ b = c ++ d -> a = c /\ b = d.
Proof.
  induction a as [|x a IH]; intros [|y c] b d L Q; try discriminate L; [split; [reflexivity|exact Q]|].
  injection Q as <- Q. injection L as L. destruct (IH c b d L Q) as [<- <-]. split; reflexivity.
Qed.
Lemma app_zero_inj : forall (a c b d : bytes), ~ In 0 a -> ~ In 0 c -> a ++ 0 :: b = c ++ 0 :: d -> a = c /\ b = d.
Proof.
  induction a as [|x a IH]; intros [|y c] b d NA NC Q; cbn in Q.
  - injection Q as <-. split; reflexivity.
  - injection Q as <- _. exfalso. apply NC. left. reflexivity.
  - injection Q as -> _. exfalso. apply NA. left. reflexivity.
  - injection Q as <- Q. destruct (IH c b d (fun I => NA (or_intror I)) (fun I => NC (or_intror I)) Q) as [<- <-]. split; reflexivity.
Qed.

Lemma mod_of_divide : forall p a b, p <> 0 -> (p | a - b) -> a mod p = b mod p.
Proof. intros p a b P0 [q Q]. replace a with (b + q * p) by lia. apply Z_mod_plus_full. Qed.

Section W.
Variable W : wcurve.
Hypothesis HW : prime_curve W.
Notation E := (wE W).
Lemma ecdsa_verify_iff : forall (P : pt (wgroup W)) k dg r s, pk_curve k = W -> wat W P (pk_X k) (pk_Y k) -> octets dg ->
  (ecdsa_verify k dg r s = true <-> ecdsa_accepts E P (digest_int 256 dg) r s).
Proof.
  intros P k dg r s Hc A O. destruct (Prop_ECDSA.C78_verify_exact W 256 P k dg r s Hc (prime_curve_bits W HW) A O) as [[b V] I].
  unfold ecdsa_verify. rewrite <- I, V. split; [intros ->; reflexivity|intros Q; injection Q as ->; reflexivity].
Qed.
Lemma sm2_verify_iff : forall (P : pt (wgroup W)) k id msg r s, pk_curve k = W -> wat W P (pk_X k) (pk_Y k) -> coords32 k ->
  octets id -> octets msg -> zlen id < 2 ^ 60 -> zlen msg < 2 ^ 60 ->
  (sm2_verify k id msg r s = true <-> pk_curve k = SM2P256V1 /\ sm2_accepts E P (msg_e k id msg) r s).
Proof.
  intros P k id msg r s Hc A C32 Oi Om Li Lm. unfold sm2_verify.
  destruct (string_dec (c_name (pk_curve k)) (c_name SM2P256V1)) as [Q|Q].
  - rewrite Hc in Q. apply (prime_curve_sm2 W HW) in Q.
    assert (I : inputs_ok k id msg New).
    { split; [rewrite Hc; exact Q|]. split; [exact C32|]. split; [exact Prop_Generic.New_hasher|]. repeat (split; [assumption|]). assumption. }
    destruct (C43_total generic_comb k id msg New r s I) as [b V].
    assert (X : SM2Sig.Verify generic_comb k id msg New r s = Val true <-> sm2_accepts E P (msg_e k id msg) r s).
    { destruct (Z_le_dec 0 s) as [Hs|Hs].
      - assert (EN : eN E = c_N SM2P256V1) by (rewrite <- Q; reflexivity).
        apply (C43_exact generic_comb E P k id msg New r s I EN).
        + rewrite <- EN. exact (w_killed W P).
        + unfold comb_right. apply (Prop_ECDSA.comb_ok W P k s _ Hc A Hs). apply Z.mod_pos_bound. reflexivity.
      - split; intros C.
        + exfalso. unfold SM2Sig.Verify in C. cbv zeta in C. destruct (_ =? 0) in C; [discriminate C|].
          assert (T : (s <=? 0) = true) by (apply Z.leb_le; lia). rewrite T, !orb_true_r in C. discriminate C.
        + destruct C as (_ & C & _). lia. }
    rewrite <- X, V, Hc, Q. split; [intros ->; split; reflexivity|intros [_ T]; injection T as ->; reflexivity].
  - rewrite (C43_other_curves_rejected generic_comb k id msg New r s Q). split; [discriminate|]. intros [C _]. rewrite C in Q. contradiction.
Qed.

Section Env.
Variable H : Z -> bytes -> bytes.
Hypothesis H_octets : forall sch m, octets (H sch m).
Variable k1RecoverCompact : bytes -> bytes -> go (res (Z * Z)).
Variable edVerify ethVerify : bytes -> bytes -> bytes -> bool.
Notation receive := (receive H k1RecoverCompact edVerify ethVerify).

Lemma octets_app : forall a b : bytes, octets (a ++ b) -> octets a /\ octets b.
Proof. intros a b O. apply Forall_app in O. exact O. Qed.
(** The receiver accepts exactly these *)
Theorem C79_receive_exact : forall (P : pt (wgroup W)) alg k msg buf, pk_curve k = W -> wat W P (pk_X k) (pk_Y k) -> coords32 k ->
  octets msg -> octets buf -> zlen msg < 2 ^ 60 -> zlen buf < 2 ^ 60 ->
  ((forall sig dg, exists r, k1RecoverCompact sig dg = Val r) -> exists b, receive (PkEC alg k) msg buf = Val b) /\
  (receive (PkEC alg k) msg buf = Val true <-> msg <> [] /\ valid_bytes H k1RecoverCompact E P k msg buf).
Proof.
  intros P alg k msg buf Hc A C32 Om Ob Lm Lb. split.
  { intros T. unfold SigWhole.receive. destruct (C32_deserialize_total buf) as [[sig|e] ->]; cbn [bind]; [apply C38_ec_never_panics; exact T|eexists; reflexivity]. }
  assert (AC : forall sig, Verify H k1RecoverCompact edVerify ethVerify (PkEC alg k) msg (Some sig) = Val true <->
     msg <> [] /\ Prop_Sig3.accepts H ecdsa_verify k1RecoverCompact edVerify ethVerify sm2_verify msg (PkEC alg k) sig).
  { intros sig. apply Prop_Sig3.C66_accepts_iff. intros k' Q. discriminate Q. }
  unfold SigWhole.receive. destruct (Deserialize_cases buf) as [[e D]|(sig & sch & data & D & Sp & De)]; rewrite D; cbn [bind].
  - split; [discriminate|]. intros [_ V]. exfalso.
    assert (F : forall e, Deserialize buf = Val (Err e) -> ~ exists sig, Deserialize buf = Val (Ok sig)) by (intros e' Q [sig Q']; congruence).
    apply (F e D). apply C32_accepted. destruct V as [rb sb L1 L2 V|sch rb sb Hs L V|sch v Hs L V|id rb sb Hk NI L L63 V].
    + left. rewrite app_length, L1, L2. reflexivity.
    + right. exists sch, (rb ++ sb). split; [reflexivity|]. split; [|split].
      * intros C. apply app_eq_nil in C as [-> _]. destruct V as [C _]. cbn in C. lia.
      * rewrite app_length, L. lia.
      * left. split; [exact Hs|]. right. exists (length sb). rewrite app_length, L. lia.
    + right. exists sch, v. split; [reflexivity|]. split; [intros ->; discriminate L|]. split; [lia|]. left. split; [exact Hs|left; exact L].
    + right. exists 9, (id ++ 0 :: rb ++ sb). split; [reflexivity|]. split; [destruct id; discriminate|]. split; [exact L63|]. right. left.
      split; [reflexivity|]. exists id, (rb ++ sb). split; [reflexivity|]. split; [exact NI|]. exists (length sb). rewrite app_length, L. lia.
  - rewrite AC. apply and_iff_compat_l. clear AC.
    assert (OD : octets data /\ zlen data < 2 ^ 60).
    { destruct Sp as [buf L|t data N L]; [split; assumption|]. inversion Ob; subst. rewrite zlen_cons in Lb. split; [assumption|lia]. }
    destruct OD as [OD LD]. split.
    + intros V. destruct De as [Hs L|a b Hs Da L|id a b Ds Da NI L|Hs].
      * inversion V; subst. inversion Sp; subst; [lia|]. apply vb_k1; assumption.
      * subst data. inversion V; subst. match goal with X : ecdsa_verify _ _ _ _ = true |- _ => apply (ecdsa_verify_iff P k _ _ _ Hc A (H_octets _ _)) in X; rename X into V' end.
        rewrite <- !value_be2z in V'.
        inversion Sp as [b0 L64 Q1 Q2 Q3|t d N L63 Q1 Q2 Q3]; subst.
        -- apply vb_short; [rewrite app_length in L64; lia..|exact V'].
        -- apply vb_dsa; assumption.
      * subst sch data. inversion V; subst. inversion Sp as [|t d N L63 Q1 Q2 Q3]; subst.
        apply octets_app in OD as [Oi OD]. rewrite zlen_app in LD. assert (0 <= zlen (0 :: a ++ b)) by (unfold zlen; lia).
        match goal with X : sm2_verify _ _ _ _ _ = true |- _ => apply (sm2_verify_iff P k id msg _ _ Hc A C32 Oi Om ltac:(lia) Lm) in X; destruct X as [Hk V'] end.
        rewrite <- !value_be2z in V'. apply vb_sm2; assumption.
      * inversion V; subst; lia.
    + intros V.
      assert (Y : forall sig', Deserialize buf = Val (Ok sig') -> sig' = sig) by (intros sig' Q; congruence).
      destruct V as [rb sb L1 L2 V|sch' rb sb Hs L V|sch' v Hs L V|id rb sb Hk NI L L63 V].
      * assert (sch = 1 /\ data = rb ++ sb) as [-> ->].
        { inversion Sp as [|t d N L63 Q1]; [subst; split; reflexivity|]. exfalso. assert (LL : length (t :: d) = 64%nat) by (rewrite Q1, app_length, L1, L2; reflexivity). cbn in LL. congruence. }
        assert (L65 : length (rb ++ sb) = 64%nat) by (rewrite app_length, L1, L2; reflexivity).
        destruct De as [Hs L|a b Hs Q L|id a b Q' _ _ _|Hs]; [congruence| |discriminate|lia].
        assert (LA : length a = 32%nat) by (assert (length (a ++ b) = 64%nat) by congruence; rewrite app_length in *; lia).
        destruct (app_inj_len rb a sb b ltac:(congruence) Q) as [<- <-].
        apply Prop_Sig3.ac_dsa; [lia|]. apply (ecdsa_verify_iff P k _ _ _ Hc A (H_octets _ _)). rewrite <- !value_be2z. exact V.
      * assert (NE : rb ++ sb <> []) by (intros C; apply app_eq_nil in C as [-> _]; destruct V as [C _]; cbn in C; lia).
        assert (sch = sch' /\ data = rb ++ sb) as [-> ->].
        { inversion Sp as [b0 L64 Q1|t d N L63 Q1]; [|subst; split; reflexivity]. exfalso. cbn in L64. rewrite app_length, L in L64. lia. }
        assert (LE : length (rb ++ sb) = (length sb + length sb)%nat) by (rewrite app_length, L; reflexivity).
        destruct De as [_ L'|a b _ Q L'|id a b Q' _ _ _|Hs']; [lia| |lia|lia].
        assert (LA : length a = length rb) by (assert (length (a ++ b) = length (rb ++ sb)) by congruence; rewrite !app_length in *; lia).
        destruct (app_inj_len rb a sb b ltac:(congruence) Q) as [<- <-].
        apply Prop_Sig3.ac_dsa; [lia|]. apply (ecdsa_verify_iff P k _ _ _ Hc A (H_octets _ _)). rewrite <- !value_be2z. exact V.
      * assert (sch = sch' /\ data = v) as [-> ->].
        { inversion Sp as [b0 L64 Q1|t d N L63 Q1]; [|subst; split; reflexivity]. exfalso. cbn in L64. lia. }
        destruct De as [_ L'|a b _ Q L'|id a b Q' _ _ _|Hs']; [|exfalso; rewrite Q, app_length in L; lia|lia|lia].
        apply (Prop_Sig3.ac_k1 _ _ _ _ _ _ _ _ _ _ _ (pk_X k) (pk_Y k)); (assumption || reflexivity).
      * assert (sch = 9 /\ data = id ++ 0 :: rb ++ sb) as [-> ->].
        { inversion Sp as [b0 L64 Q1|t d N L63' Q1]; [|subst; split; reflexivity]. exfalso. cbn [length] in L64. lia. }
        destruct De as [Hs' _|a b Hs' _ _|id' a b _ Q NI' L'|Hs']; [lia|lia| |lia].
        destruct (app_zero_inj id id' (rb ++ sb) (a ++ b) NI NI' Q) as [<- Q'].
        assert (LA : length a = length rb) by (assert (length (a ++ b) = length (rb ++ sb)) by congruence; rewrite !app_length in *; lia).
        destruct (app_inj_len rb a sb b ltac:(congruence) Q') as [<- <-].
        apply octets_app in OD as [Oi OD]. rewrite zlen_app in LD. assert (0 <= zlen (0 :: rb ++ sb)) by (unfold zlen; lia).
        apply Prop_Sig3.ac_sm2. apply (sm2_verify_iff P k id msg _ _ Hc A C32 Oi Om ltac:(lia) Lm). rewrite <- !value_be2z. split; [exact Hk|exact V].
Qed.
End Env.
End W.

(** ** Several byte strings for one signature: numbers of any length, s or N - s, for every scheme byte but that of the short form *)
Section Others.
Variable W : wcurve.
Hypothesis HW : prime_curve W.
Variable H : Z -> bytes -> bytes.
Hypothesis H_octets : forall sch m, octets (H sch m).
Variable k1RecoverCompact : bytes -> bytes -> go (res (Z * Z)).
Variable edVerify ethVerify : bytes -> bytes -> bytes -> bool.
Notation receive := (receive H k1RecoverCompact edVerify ethVerify).
Theorem C79_other_bytes : forall (P : pt (wgroup W)) alg k msg sch rb sb rb' sb', pk_curve k = W -> wat W P (pk_X k) (pk_Y k) -> coords32 k ->
  octets msg -> zlen msg < 2 ^ 60 -> 0 <= sch <= 8 -> octets (rb ++ sb) -> zlen (sch :: rb ++ sb) < 2 ^ 60 -> length rb = length sb ->
  octets (rb' ++ sb') -> zlen (sch :: rb' ++ sb') < 2 ^ 60 -> length rb' = length sb' ->
  value rb' 0 = value rb 0 -> value sb' 0 = value sb 0 \/ value sb' 0 = c_N W - value sb 0 ->
  receive (PkEC alg k) msg (sch :: rb ++ sb) = Val true -> receive (PkEC alg k) msg (sch :: rb' ++ sb') = Val true.
Proof.
  intros P alg k msg sch rb sb rb' sb' Hc A C32 Om Lm Hs Ob Lb LL Ob' Lb' LL' VR VS V.
  assert (S256 : 0 <= sch < 256) by lia.
  apply (C79_receive_exact W HW H H_octets k1RecoverCompact edVerify ethVerify P alg k msg (sch :: rb ++ sb) Hc A C32 Om (Forall_cons _ S256 Ob) Lm Lb) in V.
  apply (C79_receive_exact W HW H H_octets k1RecoverCompact edVerify ethVerify P alg k msg (sch :: rb' ++ sb') Hc A C32 Om (Forall_cons _ S256 Ob') Lm Lb').
  destruct V as [NE V]. split; [exact NE|]. apply vb_dsa; [exact Hs|exact LL'|].
  assert (AC : ecdsa_accepts (wE W) P (digest_int 256 (H sch msg)) (value rb 0) (value sb 0)).
  { remember (sch :: rb ++ sb) as buf eqn:Q. destruct V as [a b L1 L2 V'|t a b Ht L V'|t v Ht L V'|id a b Hk NI L L63 V'].
    - exfalso. assert (LE : length (a ++ b) = 64%nat) by (rewrite app_length, L1, L2; reflexivity). rewrite Q in LE. cbn in LE. rewrite app_length, LL in LE. lia.
    - assert (Q1 : a ++ b = rb ++ sb) by (injection Q as _ Q; exact Q). assert (T : t = sch) by (injection Q as Q _; exact Q). subst t.
      assert (LA : length a = length rb) by (assert (length (a ++ b) = length (rb ++ sb)) by congruence; rewrite !app_length in *; lia).
      destruct (app_inj_len a rb b sb LA Q1) as [<- <-]. exact V'.
    - exfalso. assert (LE : length v = length (rb ++ sb)) by (injection Q as _ ->; reflexivity). rewrite app_length, LL in LE. lia.
    - exfalso. injection Q as Q _. lia. }
  rewrite VR. destruct VS as [-> | ->]; [exact AC|]. apply (Prop_ECDSA.C78_malleable W). exact AC.
Qed.
End Others.

(** ** From the signer to the receiver *)
Section Sender.
Variable sha512 : bytes -> bytes.
Variable aes : bytes -> bytes -> bytes.
Variable H : Z -> bytes -> bytes.
Hypothesis H_octets : forall sch m, octets (H sch m).
Variable k1SignCompact : Z -> ecpub -> bytes -> go (res bytes).
Variable k1RecoverCompact : bytes -> bytes -> go (res (Z * Z)).
Variable edSign : bytes -> bytes -> bytes.
Variable edVerify : bytes -> bytes -> bytes -> bool.
Variable ethSign : bytes -> Z -> ecpub -> go (res bytes).
Variable ethVerify : bytes -> bytes -> bytes -> bool.
Notation Sign := (SigWhole.Sign sha512 aes H k1SignCompact edSign ethSign).
Notation Verify := (SigWhole.Verify H k1RecoverCompact edVerify ethVerify).
Notation receive := (receive H k1RecoverCompact edVerify ethVerify).

(** a key pair on one of the two curves *)
Definition key_pair_of (D : Z) (k : ecpub) : Prop :=
  prime_curve (pk_curve k) /\ 0 < D < c_N (pk_curve k) /\ (pk_X k, pk_Y k) = ScalarBaseMult (pk_curve k) (big_bytes D).
Lemma key_facts : forall D k, key_pair_of D k -> exists W : wcurve, pk_curve k = W /\ prime_curve W /\
  wat W (gmul D (w_G W : pt (wgroup W))) (pk_X k) (pk_Y k) /\ 0 <= pk_X k < c_P W /\ 0 <= pk_Y k < c_P W /\ coords32 k.
Proof.
  intros D k (Hc & HD & HK). destruct (prime_curve_w _ Hc) as [W EW]. exists W. split; [congruence|]. split; [rewrite EW; exact Hc|]. rewrite <- EW in HK, HD.
  rewrite w_base, be2z_big_bytes in HK by (lia || apply big_bytes_wf).
  assert (NO : gmul D (w_G W : pt (wgroup W)) <> gO) by (rewrite (w_gmul_zero W D _ (w_G_nz W)), Z.mod_small; lia).
  set (Q := gmul D (w_G W : pt (wgroup W))) in *.
  assert (X : pk_X k = fst (wco W Q)) by exact (f_equal fst HK). assert (Y : pk_Y k = snd (wco W Q)) by exact (f_equal snd HK).
  pose proof (wco_wat W _ NO) as A. pose proof (wco_range W Q) as R. rewrite <- X, <- Y in A, R.
  split; [exact A|]. split; [apply R|]. split; [apply R|].
  assert (PW : c_P W < 256 ^ 32) by (rewrite EW; destruct Hc as [-> | ->]; reflexivity). unfold coords32. lia.
Qed.
Lemma inverse_of_N : generic_inv (c_N SM2P256V1) mod c_N SM2P256V1 = 0.
Proof.
  unfold generic_inv, fermatInverse. rewrite powm_spec by (discriminate || reflexivity). rewrite Z.mod_mod by discriminate.
  rewrite Zpower_mod by reflexivity. rewrite Z_mod_same_full, Z.pow_0_l by reflexivity. reflexivity.
Qed.
Theorem C79_sign_verify : forall alg alg' D k sch rn msg opt sig, key_pair_of D k ->
  octets msg -> msg <> [] -> zlen msg < 2 ^ 60 -> octets (opt_id opt) -> zlen (opt_id opt) < 2 ^ 60 ->
  Sign rn sch (SkEC alg D k) msg opt = Val (Ok sig) ->
  produced sig /\ Verify (PkEC alg' k) msg (Some sig) = Val true.
Proof.
  intros alg alg' D k sch rn msg opt sig KP Om NE Lm Oi Li S.
  destruct (key_facts D k KP) as (W & Hc & HW & A & RX & RY & C32). destruct KP as (_ & HD & HK). rewrite Hc in HD, HK.
  destruct (prime_curve_sup W HW) as [a SU].
  assert (M : (zlen msg =? 0) = false) by (destruct msg; [congruence|reflexivity]).
  unfold SigWhole.Sign in S. apply Sign_inv in S. inversion S as [al d k' R S' id Hid ES|sch' al d k' s Hs Hn ES|sch' al d k' R S' Hs Hn ES| |]; subst.
  - change (match opt with OptString s => s | _ => [] end) with (opt_id opt) in *. set (id := opt_id opt) in *.
    assert (HC : pk_curve k = SM2P256V1).
    { destruct (string_dec (c_name (pk_curve k)) (c_name SM2P256V1)) as [Q|Q].
      - rewrite Hc in *. apply (prime_curve_sm2 _ HW Q).
      - exfalso. destruct (C46_other_curves_rejected k id msg New Q) as [e G]. unfold sm2_sign, SM2Sig.Sign in ES. rewrite G in ES. discriminate ES. }
    assert (HC' : wc W = SM2P256V1) by congruence.
    assert (I : inputs_ok k id msg New) by (split; [exact HC|]; split; [exact C32|]; split; [exact Prop_Generic.New_hasher|]; repeat (split; [assumption|]); assumption).
    rewrite HC' in HD, HK.
    assert (ND : D <> c_N SM2P256V1 - 1).
    { intros Q. refine (C45_never_signs sha512 aes generic_sbm generic_inv (fst rn) (snd rn) D k id msg New R S' I ltac:(lia) _ ES).
      replace (D + 1) with (c_N SM2P256V1) by lia. exact inverse_of_N. }
    assert (HI : invertible generic_inv D).
    { unfold invertible. pose proof (Prop_Generic.fermatInverse_ok (D + 1)) as G. rewrite (Z.mod_small (D + 1)) in G by lia.
      destruct (Z.eqb_spec (D + 1) 0); [lia|exact G]. }
    destruct (C44_ranges sha512 aes generic_sbm generic_inv _ _ _ _ _ _ _ _ _ I (ltac:(lia) : 0 <= D) HI ES) as (R1 & R2 & _).
    destruct (Prop_Generic.C76_sign_verify sha512 aes (fst rn) (snd rn) D k id msg New New R S' I Prop_Generic.New_hasher ltac:(lia) (eq_sym HK) ES) as [_ V].
    split.
    + rewrite HC. apply pr_sm2; [exact Oi|lia|lia].
    + unfold SigWhole.Verify, Signature.Verify. rewrite M. cbn [sg_Scheme sg_Value]. change (GetHash_known 9) with true. cbn [negb]. change (ecdsa_scheme 9) with false.
      change (9 =? SM3withSM2) with true. cbv iota. unfold sm2_verify. rewrite V. reflexivity.
  - exfalso. rewrite Hc in Hn. exact (prime_curve_name W HW Hn).
  - destruct (Prop_ECDSA.C78_sign_verify W sha512 aes 256 (fst rn) (snd rn) D k (H sch msg) R S' Hc (prime_curve_bits W HW) (H_octets _ _) HD HK ES) as (R1 & R2 & _ & V).
    split.
    + rewrite Hc. apply (pr_dsa sch W a); [exact Hs|exact SU| |lia|lia]. intros Q. apply (prime_curve_name W HW). rewrite Q. reflexivity.
    + unfold SigWhole.Verify, Signature.Verify. rewrite M. cbn [sg_Scheme sg_Value].
      replace (GetHash_known sch) with true by (symmetry; apply known_iff; lia). cbn [negb].
      apply ecdsa_scheme_iff in Hs. rewrite Hs. cbv zeta. unfold ecdsa_verify. rewrite V. reflexivity.
Qed.
(** with the keys and the signature as bytes: the private key read from [data], the public key sent as e, the signature as buf *)
Theorem C79_end_to_end : forall rng data alg D k sch rn msg opt sig,
  DeserializePrivateKey ScalarBaseMult rng data = Val (Ok (Some (SkEC alg D k))) -> octets data ->
  prime_curve (pk_curve k) -> 0 < D < c_N (pk_curve k) ->
  octets msg -> msg <> [] -> zlen msg < 2 ^ 60 -> octets (opt_id opt) -> zlen (opt_id opt) < 2 ^ 60 -> ~ In 0 (opt_id opt) ->
  Sign rn sch (SkEC alg D k) msg opt = Val (Ok sig) ->
  exists e buf, SerializePublicKey (PkEC alg k) = Val e /\ Serialize (Some sig) = Val (Ok buf) /\ wire sig buf /\
    forall rng', exists pub, DeserializePublicKey rng' e = Val (Ok pub) /\ receive pub msg buf = Val true.
Proof.
  intros rng data alg D k sch rn msg opt sig DK Od Hp HD Om NE Lm Oi Li NI S.
  destruct (C20_private_key_matches _ _ _ _ _ _ DK) as (t & l & c & a & n & db & eb & -> & Ht & Hl & SU & Hn & Ln & Dv & SB & Hc & _).
  rewrite value_be2z in Dv. assert (Wd : wf_bytes db) by (apply Forall_inv_tail, Forall_inv_tail, Forall_app in Od; apply Od).
  assert (KP : key_pair_of D k).
  { split; [exact Hp|]. split; [exact HD|]. rewrite Hc, <- SB in *. destruct (prime_curve_w _ Hp) as [W EW]. rewrite <- EW.
    rewrite !w_base by (exact Wd || apply big_bytes_wf). rewrite be2z_big_bytes, <- Dv by lia. reflexivity. }
  destruct (key_facts D k KP) as (W & HcW & HW & A & RX & RY & C32).
  destruct (C79_sign_verify alg alg D k sch rn msg opt sig KP Om NE Lm Oi Li S) as [PR V].
  destruct (C31_wire_format sig PR) as (buf & Sb & Wb).
  destruct (C31_roundtrip sig PR) as (buf' & sig' & Sb' & Db & SC).
  { unfold SigWhole.Sign in S. apply Sign_inv in S. inversion S; subst; easy. }
  assert (buf' = buf) by congruence. subst buf'.
  assert (VP : valid_pub (PkEC alg k)).
  { destruct k as [kc X Y]. cbn [pk_curve pk_X pk_Y] in *. apply (vp_ec alg kc a); [lia|congruence|].
    split; [rewrite HcW; exact RX|]. split; [rewrite HcW; exact RY|].
    assert (ON : IsOnCurve W (X, Y) = true) by (apply w_on_iff; eexists; exact A). apply w_on_eq in ON.
    assert (AM : (c_P W | a + 3)).
    { assert (SW : supported (wc W) a) by congruence. destruct HW as [EW|EW]; rewrite EW in SW |- *; inversion SW; subst; [exists 0|exists 1]; reflexivity. }
    assert (P0 : c_P W <> 0) by lia.
    unfold curve_eq. rewrite HcW. apply mod_of_divide; [exact P0|]. destruct ON as [q ON]. destruct AM as [q' AM]. exists (q - q' * X).
    replace a with (q' * c_P W - 3) by lia. rewrite (Z.mul_sub_distr_r q), <- ON. ring. }
  assert (PD : forall rng', pub_decompressible (PkEC alg k) rng') by (intros rng' Q; exfalso; destruct Hp as [Hp|Hp]; rewrite Hp in Q; discriminate Q).
  destruct (C15_public_key_round_trip (PkEC alg k) [] VP (PD [])) as (e & Se & _). exists e, buf.
  split; [exact Se|]. split; [exact Sb|]. split; [exact Wb|]. intros rng'. exists (PkEC alg k). split.
  - destruct (C15_public_key_round_trip (PkEC alg k) rng' VP (PD rng')) as (e' & Se' & De'). congruence.
  - unfold SigWhole.receive, SigWhole.Verify in *. rewrite Db. cbn [bind]. rewrite <- (Verify_same _ _ _ _ _ _ (PkEC alg k) msg _ _ SC). exact V.
Qed.
End Sender.

(** ** Examples: P-256 with the private key 1, as a file; a key stream of zeros gives the nonce 1 *)
Definition ex_data : bytes := 18 :: 2 :: to_be 32 1 ++ 3 :: to_be 32 (c_Gx P256).
Definition ex_H (sch : Z) (m : bytes) : bytes := Prop_ECDSA.ex_dg.
Notation ex_sign := (SigWhole.Sign (fun _ => repeat 7 64) (fun _ b => map (fun _ => 0) b) ex_H (fun _ _ _ => Val (Err ""%string)) (fun _ _ => []) (fun _ _ _ => Val (Err ""%string)) (1%nat, Ok (repeat 5 16))).
Lemma base_one : forall (W : wcurve) n, ScalarBaseMult W (to_be (S n) 1) = (c_Gx W mod c_P W, c_Gy W mod c_P W).
Proof.
  intros W n. rewrite w_base by apply to_be_wf.
  assert (Q : be2z (to_be (S n) 1) = 1).
  { rewrite be2z_to_be. apply Z.mod_small. split; [lia|]. rewrite Nat2Z.inj_succ, Z.pow_succ_r by lia. pose proof (Z.pow_pos_nonneg 256 (Z.of_nat n) ltac:(lia) ltac:(lia)). lia. }
  rewrite Q, gmul_1. apply (wat_wco W). apply wat_G.
Qed.
Lemma ex_valid : valid_priv ScalarBaseMult (SkEC 0 1 Prop_ECDSA.ex_pub).
Proof.
  apply (vs_ec ScalarBaseMult 0 P256 (-3) 32 (to_be 32 1)); [left; reflexivity|constructor|split; [reflexivity|split; [discriminate|reflexivity]]|
    split; reflexivity|apply (encodes_to_be 32); split; [discriminate|reflexivity]|exact (base_one wP256 31)|].
  split; [split; [discriminate|reflexivity]|]. split; [split; [discriminate|reflexivity]|reflexivity].
Qed.
Example C79_example_key : DeserializePrivateKey ScalarBaseMult [] ex_data = Val (Ok (Some (SkEC 0 1 Prop_ECDSA.ex_pub))).
Proof.
  destruct (C19_private_key_round_trip ScalarBaseMult (SkEC 0 1 Prop_ECDSA.ex_pub) [] ex_valid) as (e & Se & De).
  { intros C. discriminate C. }
  assert (Q : SerializePrivateKey (SkEC 0 1 Prop_ECDSA.ex_pub) = Val ex_data) by (vm_compute; reflexivity).
  assert (e = ex_data) as <- by congruence. exact De.
Qed.
Lemma ex_octets_data : octets ex_data.
Proof. unfold ex_data. constructor; [lia|]. constructor; [lia|]. apply Forall_app. split; [apply to_be_wf|]. constructor; [lia|apply to_be_wf]. Qed.
Lemma ex_signature : ex_sign 5 (SkEC 0 1 Prop_ECDSA.ex_pub) [104; 105] OptOther =
  Val (Ok {| sg_Scheme := 5; sg_Value := VDSA (c_Gx P256) (c_Gx P256 + be2z Prop_ECDSA.ex_dg) (Some P256) |}).
Proof.
  unfold SigWhole.Sign, Signature.Sign. change (GetHash_known 5) with true. change (5 =? SM3withSM2) with false. change (ecdsa_scheme 5) with true. cbn [negb].
  change (String.eqb (c_name (pk_curve Prop_ECDSA.ex_pub)) (c_name S256)) with false. cbv iota zeta. unfold ex_H, ecdsa_sign. cbn [fst snd].
  pose proof Prop_ECDSA.C78_example_sign as Q. unfold Prop_ECDSA.ex_sign in Q. rewrite Q. reflexivity.
Qed.
Example C79_example : exists e buf, SerializePublicKey (PkEC 0 Prop_ECDSA.ex_pub) = Val e /\ length buf = 65%nat /\
  forall rng, exists pub, DeserializePublicKey rng e = Val (Ok pub) /\
    receive ex_H (fun _ _ => Val (Err ""%string)) (fun _ _ _ => false) (fun _ _ _ => false) pub [104; 105] buf = Val true.
Proof.
  assert (OD : octets ex_data) by (exact ex_octets_data).
  assert (OM : octets [104; 105]) by (repeat constructor; lia).
  destruct (C79_end_to_end (fun _ => repeat 7 64) (fun _ b => map (fun _ => 0) b) ex_H (fun _ _ => Prop_ECDSA.ex_octets) (fun _ _ _ => Val (Err ""%string))
    (fun _ _ => Val (Err ""%string)) (fun _ _ => []) (fun _ _ _ => false) (fun _ _ _ => Val (Err ""%string)) (fun _ _ _ => false)
    [] ex_data 0 1 Prop_ECDSA.ex_pub 5 (1%nat, Ok (repeat 5 16)) [104; 105] OptOther _ C79_example_key OD (or_introl eq_refl) (conj eq_refl eq_refl)
    OM ltac:(discriminate) eq_refl (Forall_nil _) eq_refl (fun F => F) ex_signature) as (e & buf & Se & Sb & Wb & R).
  exists e, buf. split; [exact Se|]. split; [|exact R].
  inversion Wb as [|sch c n r s rb sb Hs Hf Hn Hr Hs'| |]; subst. destruct Hr as (Lr & _). destruct Hs' as (Ls & _).
  assert (n = Z.of_nat 32) as -> by (apply (size_unique P256); [exact Hf|lia|discriminate|reflexivity]).
  cbn [length]. rewrite app_length. lia.
Qed.
Print Assumptions C79_receive_exact.
Print Assumptions C79_other_bytes.
Print Assumptions C79_sign_verify.
Print Assumptions C79_end_to_end.
