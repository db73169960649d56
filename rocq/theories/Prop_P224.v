(** * Prop_P224: property C88, the curve P-224: its points, its keys and ECDSA on it, from the private key to the bytes received
    (/repo/ec/decompress.go, /repo/keypair/key.go, /repo/signature/signature.go) *)
From Coq Require Import ZArith Znumtheory Zpow_facts String List Bool Lia.
From Verif Require Import Base BaseFacts Curves ECKey Keypair Spec_EC ECFacts ECFacts2 Spec_Keys KeyFacts Prop_Keys Spec_Group
  CurveZ CurveRoot Elliptic EllipticFacts CurveWhole Prop_Whole CurveP224 Spec_ECDSA Spec_Gen Signature Spec_Sig SigFacts Prop_Sig Prop_Sig2 SigWhole.
From Verif Require SM2Generic ECDSA Prop_ECDSA SM3 SM2Sig Prop_SM2 Prop_EC Prop_Sig3 Prop_SigWhole.
Import ListNotations.
Open Scope Z_scope.
Notation W := wP224.
Notation N := (c_N P224).
Notation G := (w_G W : pt (wgroup W)).

(** ** The points *)
Theorem C88_count : prime N /\ exists l, NoDup l /\ Z.of_nat (length l) = N - 1 /\ forall q, point_of P224 q <-> In q l.
Proof. split; [exact (w_n W)|exact (count_w W)]. Qed.
(** each is the public key of exactly one private key *)
Theorem C88_generated : forall q, point_of P224 q -> exists d, 0 < d < N /\ ScalarBaseMult P224 (big_bytes d) = q /\
  forall k, wf_bytes k -> ScalarBaseMult P224 k = q -> be2z k mod N = d.
Proof. exact (generated_w W). Qed.
Theorem C88_order : forall q k k', IsOnCurve P224 q = true -> wf_bytes k -> wf_bytes k' ->
  (ScalarMult P224 q k = (0, 0) <-> (N | be2z k)) /\ (ScalarMult P224 q k = ScalarMult P224 q k' <-> be2z k mod N = be2z k' mod N).
Proof. intros q k k' H Wk Wk'. split; [apply (order_w W); assumption|apply (equal_w W); assumption]. Qed.
(** No point has y = 0, so the exception that C10 and C12 make for P-224 never arises. *)
Lemma no_zero : forall x, ~ curve_eq (c_P P224) (-3) (c_B P224) x 0.
Proof.
  intros x C. unfold curve_eq in C. apply (p224_root x). apply Z.mod_divide; [discriminate|]. replace (x * x * x - 3 * x + c_B P224) with (x * x * x + -3 * x + c_B P224) by ring.
  rewrite <- C. reflexivity.
Qed.
Theorem C88_no_zero_y : forall x y, affine_point P224 (-3) x y -> y <> 0.
Proof. intros x y (_ & _ & C) ->. exact (no_zero x C). Qed.

(** so every point survives compression: the reader finds it as soon as it has drawn a usable number, and only then *)
Theorem C88_compressed_round_trip : forall x y, affine_point P224 (-3) x y ->
  exists e, EncodePublicKey {| pk_curve := P224; pk_X := x; pk_Y := y |} true = Val e /\ sec1_compressed 28 x y e /\
    forall rng, DecodePublicKey rng e P224 = Val (Ok {| pk_curve := P224; pk_X := x; pk_Y := y |}) <->
      Exists (usable_draw (c_P P224) ((y * y) mod c_P P224)) rng.
Proof.
  intros x y A.
  destruct (Prop_EC.C10_compressed_round_trip P224 (-3) x y 28 sup_P224 A ltac:(apply Prop_EC.C10_field_bytes) (fun _ => C88_no_zero_y x y A)) as (e & E & S & D).
  exists e. split; [exact E|]. split; [exact S|]. intros rng. destruct (D rng) as [D1 D2]. split; [|intros U; apply D1; right; exact U].
  intros Q. destruct (Exists_dec (usable_draw (c_P P224) ((y * y) mod c_P P224)) rng) as [U|U]; [|exact U|exfalso; rewrite (D2 eq_refl U) in Q; discriminate Q].
  intros d. unfold usable_draw. destruct (Z_lt_dec d (c_P P224)) as [L|L]; [|right; intros [C _]; contradiction].
  generalize (((d * d - 4 * ((y * y) mod c_P P224)) ^ ((c_P P224 - 1) / 2)) mod c_P P224). intros u.
  destruct (Z.eq_dec u (c_P P224 - 1)) as [U|U]; [left; split; assumption|right; intros [_ C]; contradiction].
Qed.
(** and an encoding of the right length is refused only when no point has that x *)
Theorem C88_rejection : forall rng t xb rest msg, t = 2 \/ t = 3 -> length xb = 28%nat ->
  DecodePublicKey rng (t :: xb ++ rest) P224 = Val (Err msg) -> forall y, ~ curve_eq (c_P P224) (-3) (c_B P224) (value xb 0) y.
Proof.
  intros rng t xb rest msg Ht L Q.
  destruct (Prop_EC.C12_rejection_means_no_point rng P224 (-3) t xb rest msg 28 sup_P224 ltac:(apply Prop_EC.C10_field_bytes) Ht ltac:(rewrite L; reflexivity) Q) as [R|[_ R]]; [exact R|].
  exfalso. exact (no_zero _ R).
Qed.

(** ** ECDSA: which numbers are accepted *)
Lemma n_bits : bits_of N 224.
Proof. split; [reflexivity|]. split; [discriminate|reflexivity]. Qed.
Theorem C88_verify_exact : forall (P : pt (wgroup W)) pub dg r s, pk_curve pub = P224 -> wat W P (pk_X pub) (pk_Y pub) -> octets dg ->
  (exists b, ECDSA.Verify ECDSA.fermat SM2Generic.generic_comb pub dg r s = Val b) /\
  (ECDSA.Verify ECDSA.fermat SM2Generic.generic_comb pub dg r s = Val true <-> ecdsa_accepts (wE W) P (digest_int 224 dg) r s).
Proof. intros P pub dg r s Hc A O. exact (Prop_ECDSA.C78_verify_exact W 224 P pub dg r s Hc n_bits A O). Qed.

(** ** Signatures as bytes: which ones the receiver accepts *)
Section Valid.
Variable H : Z -> bytes -> bytes.
Hypothesis H_octets : forall sch m, octets (H sch m).
Variable k1RecoverCompact : bytes -> bytes -> go (res (Z * Z)).
Variable edVerify ethVerify : bytes -> bytes -> bytes -> bool.
Notation receive := (receive H k1RecoverCompact edVerify ethVerify).
(** r and s of equal length after one of the scheme bytes below that of SM2; or both of 32 bytes, for SHA-256; or a recoverable signature of btcec *)
Inductive valid_224 (P : pt (wgroup W)) (k : ecpub) (msg : bytes) : bytes -> Prop :=
| v_short : forall rb sb, length rb = 32%nat -> length sb = 32%nat ->
    ecdsa_accepts (wE W) P (digest_int 224 (H 1 msg)) (value rb 0) (value sb 0) -> valid_224 P k msg (rb ++ sb)
| v_dsa : forall sch rb sb, 0 <= sch <= 8 -> length rb = length sb ->
    ecdsa_accepts (wE W) P (digest_int 224 (H sch msg)) (value rb 0) (value sb 0) -> valid_224 P k msg (sch :: rb ++ sb)
| v_k1 : forall sch v, 0 <= sch <= 8 -> length v = 65%nat -> k1RecoverCompact v (H sch msg) = Val (Ok (pk_X k, pk_Y k)) -> valid_224 P k msg (sch :: v).
Lemma ecdsa_verify_iff : forall (P : pt (wgroup W)) k dg r s, pk_curve k = P224 -> wat W P (pk_X k) (pk_Y k) -> octets dg ->
  (ecdsa_verify k dg r s = true <-> ecdsa_accepts (wE W) P (digest_int 224 dg) r s).
Proof.
  intros P k dg r s Hc A O. destruct (C88_verify_exact P k dg r s Hc A O) as [[b V] I].
  unfold ecdsa_verify. rewrite <- I, V. split; [intros ->; reflexivity|intros Q; injection Q as ->; reflexivity].
Qed.
Theorem C88_receive_exact : forall (P : pt (wgroup W)) alg k msg buf, pk_curve k = P224 -> wat W P (pk_X k) (pk_Y k) ->
  ((forall sig dg, exists r, k1RecoverCompact sig dg = Val r) -> exists b, receive (PkEC alg k) msg buf = Val b) /\
  (receive (PkEC alg k) msg buf = Val true <-> msg <> [] /\ valid_224 P k msg buf).
Proof.
  intros P alg k msg buf Hc A. split.
  { intros T. unfold SigWhole.receive. destruct (C32_deserialize_total buf) as [[sig|e] ->]; cbn [bind]; [apply C38_ec_never_panics; exact T|eexists; reflexivity]. }
  assert (AC : forall sig, Verify H k1RecoverCompact edVerify ethVerify (PkEC alg k) msg (Some sig) = Val true <->
     msg <> [] /\ Prop_Sig3.accepts H ecdsa_verify k1RecoverCompact edVerify ethVerify sm2_verify msg (PkEC alg k) sig).
  { intros sig. apply Prop_Sig3.C66_accepts_iff. intros k' Q. discriminate Q. }
  unfold SigWhole.receive. destruct (Deserialize_cases buf) as [[e D]|(sig & sch & data & D & Sp & De)]; rewrite D; cbn [bind].
  - split; [discriminate|]. intros [_ V]. exfalso.
    assert (F : forall e, Deserialize buf = Val (Err e) -> ~ exists sig, Deserialize buf = Val (Ok sig)) by (intros e' Q [sig Q']; congruence).
    apply (F e D). apply C32_accepted. destruct V as [rb sb L1 L2 V|sch rb sb Hs L V|sch v Hs L V].
    + left. rewrite app_length, L1, L2. reflexivity.
    + right. exists sch, (rb ++ sb). split; [reflexivity|]. split; [|split].
      * intros C. apply app_eq_nil in C as [-> _]. destruct V as [C _]. cbn in C. lia.
      * rewrite app_length, L. lia.
      * left. split; [exact Hs|]. right. exists (length sb). rewrite app_length, L. lia.
    + right. exists sch, v. split; [reflexivity|]. split; [intros ->; discriminate L|]. split; [lia|]. left. split; [exact Hs|left; exact L].
  - rewrite AC. apply and_iff_compat_l. clear AC.
    split.
    + intros V. destruct De as [Hs L|a b Hs Da L|id a b Ds Da NI L|Hs].
      * inversion V; subst. inversion Sp; subst; [lia|]. apply v_k1; assumption.
      * subst data. inversion V; subst. match goal with X : ecdsa_verify _ _ _ _ = true |- _ => apply (ecdsa_verify_iff P k _ _ _ Hc A (H_octets _ _)) in X; rename X into V' end.
        rewrite <- !value_be2z in V'.
        inversion Sp as [b0 L64 Q1 Q2 Q3|t d N L63 Q1 Q2 Q3]; subst.
        -- apply v_short; [rewrite app_length in L64; lia..|exact V'].
        -- apply v_dsa; assumption.
      * exfalso. subst sch data. inversion V; subst. unfold sm2_verify in *.
        match goal with X : match SM2Sig.Verify ?f _ ?i ?m ?h ?r ?s with _ => _ end = true |- _ => rewrite (Prop_SM2.C43_other_curves_rejected f k i m h r s ltac:(rewrite Hc; discriminate)) in X; discriminate X end.
      * inversion V; subst; lia.
    + intros V.
      assert (Y : forall sig', Deserialize buf = Val (Ok sig') -> sig' = sig) by (intros sig' Q; congruence).
      destruct V as [rb sb L1 L2 V|sch' rb sb Hs L V|sch' v Hs L V].
      * assert (sch = 1 /\ data = rb ++ sb) as [-> ->].
        { inversion Sp as [|t d N L63 Q1]; [subst; split; reflexivity|]. exfalso. assert (LL : length (t :: d) = 64%nat) by (rewrite Q1, app_length, L1, L2; reflexivity). cbn in LL. congruence. }
        assert (L65 : length (rb ++ sb) = 64%nat) by (rewrite app_length, L1, L2; reflexivity).
        destruct De as [Hs L|a b Hs Q L|id a b Q' _ _ _|Hs]; [congruence| |discriminate|lia].
        assert (LA : length a = 32%nat) by (assert (length (a ++ b) = 64%nat) by congruence; rewrite app_length in *; lia).
        destruct (Prop_SigWhole.app_inj_len rb a sb b ltac:(congruence) Q) as [<- <-].
        apply Prop_Sig3.ac_dsa; [lia|]. apply (ecdsa_verify_iff P k _ _ _ Hc A (H_octets _ _)). rewrite <- !value_be2z. exact V.
      * assert (NE : rb ++ sb <> []) by (intros C; apply app_eq_nil in C as [-> _]; destruct V as [C _]; cbn in C; lia).
        assert (sch = sch' /\ data = rb ++ sb) as [-> ->].
        { inversion Sp as [b0 L64 Q1|t d N L63 Q1]; [|subst; split; reflexivity]. exfalso. cbn in L64. rewrite app_length, L in L64. lia. }
        assert (LE : length (rb ++ sb) = (length sb + length sb)%nat) by (rewrite app_length, L; reflexivity).
        destruct De as [_ L'|a b _ Q L'|id a b Q' _ _ _|Hs']; [lia| |lia|lia].
        assert (LA : length a = length rb) by (assert (length (a ++ b) = length (rb ++ sb)) by congruence; rewrite !app_length in *; lia).
        destruct (Prop_SigWhole.app_inj_len rb a sb b ltac:(congruence) Q) as [<- <-].
        apply Prop_Sig3.ac_dsa; [lia|]. apply (ecdsa_verify_iff P k _ _ _ Hc A (H_octets _ _)). rewrite <- !value_be2z. exact V.
      * assert (sch = sch' /\ data = v) as [-> ->].
        { inversion Sp as [b0 L64 Q1|t d N L63 Q1]; [|subst; split; reflexivity]. exfalso. cbn in L64. lia. }
        destruct De as [_ L'|a b _ Q L'|id a b Q' _ _ _|Hs']; [|exfalso; rewrite Q, app_length in L; lia|lia|lia].
        apply (Prop_Sig3.ac_k1 _ _ _ _ _ _ _ _ _ _ _ (pk_X k) (pk_Y k)); (assumption || reflexivity).
Qed.
End Valid.

(** ** From the signer to the receiver *)
Section Sender.
Variable sha512 : bytes -> bytes.
Variable aes : bytes -> bytes -> bytes.
Variable H : Z -> bytes -> bytes.
Hypothesis H_octets : forall sch m, octets (H sch m).
Variable k1SignCompact : Z -> ecpub -> bytes -> go (res bytes).
Variable k1RecoverCompact : bytes -> bytes -> go (res (Z * Z)).
Variable edSign : bytes -> bytes -> bytes.
Variable edVerify : bytes -> bytes -> bytes -> bool.
Variable ethSign : bytes -> Z -> ecpub -> go (res bytes).
Variable ethVerify : bytes -> bytes -> bytes -> bool.
Notation Sign := (SigWhole.Sign sha512 aes H k1SignCompact edSign ethSign).
Notation Verify := (SigWhole.Verify H k1RecoverCompact edVerify ethVerify).
Notation receive := (receive H k1RecoverCompact edVerify ethVerify).
Definition key_pair (D : Z) (k : ecpub) : Prop :=
  pk_curve k = P224 /\ 0 < D < N /\ (pk_X k, pk_Y k) = ScalarBaseMult P224 (big_bytes D).
Lemma key_facts : forall D k, key_pair D k -> wat W (gmul D G) (pk_X k) (pk_Y k) /\ affine_point P224 (-3) (pk_X k) (pk_Y k).
Proof.
  intros D k (Hc & HD & HK). change P224 with (wc W) in HK. rewrite w_base, be2z_big_bytes in HK by (lia || apply big_bytes_wf).
  assert (NO : gmul D G <> gO) by (rewrite (w_gmul_zero W D G (w_G_nz W)); change (c_N W) with N; rewrite Z.mod_small; lia).
  set (Q := gmul D G) in *.
  assert (X : pk_X k = fst (wco W Q)) by exact (f_equal fst HK). assert (Y : pk_Y k = snd (wco W Q)) by exact (f_equal snd HK).
  pose proof (wco_wat W _ NO) as A. pose proof (wco_range W Q) as R. rewrite <- X, <- Y in A, R. split; [exact A|].
  split; [apply R|]. split; [apply R|].
  assert (ON : IsOnCurve W (pk_X k, pk_Y k) = true) by (apply w_on_iff; eexists; exact A). apply w_on_eq in ON.
  change (c_P W) with (c_P P224) in ON. change (c_B W) with (c_B P224) in ON.
  unfold curve_eq. apply Prop_SigWhole.mod_of_divide; [discriminate|]. destruct ON as [q ON]. exists q. rewrite <- ON. ring.
Qed.
Theorem C88_sign_verify : forall alg alg' D k sch rn msg opt sig, key_pair D k -> msg <> [] ->
  Sign rn sch (SkEC alg D k) msg opt = Val (Ok sig) ->
  (exists r s, sig = {| sg_Scheme := sch; sg_Value := VDSA r s (Some P224) |} /\ 0 < r < N /\ 0 < s < N) /\
  produced sig /\ Verify (PkEC alg' k) msg (Some sig) = Val true.
Proof.
  intros alg alg' D k sch rn msg opt sig KP NE S. destruct KP as (Hc & HD & HK).
  assert (M : (zlen msg =? 0) = false) by (destruct msg; [congruence|reflexivity]).
  unfold SigWhole.Sign in S. apply Sign_inv in S. inversion S as [al d k' R S' id Hid ES|sch' al d k' s Hs Hn ES|sch' al d k' R S' Hs Hn ES| |]; subst.
  - exfalso. change (match opt with OptString s => s | _ => [] end) with (opt_id opt) in *.
    destruct (Prop_SM2.C46_other_curves_rejected k (opt_id opt) msg SM3.New ltac:(rewrite Hc; discriminate)) as [e Q]. unfold sm2_sign, SM2Sig.Sign in ES. rewrite Q in ES. discriminate ES.
  - exfalso. rewrite Hc in Hn. discriminate Hn.
  - destruct (Prop_ECDSA.C78_sign_verify W sha512 aes 224 (fst rn) (snd rn) D k (H sch msg) R S' Hc n_bits (H_octets _ _) HD HK ES) as (R1 & R2 & _ & V).
    change (c_N W) with N in R1, R2. split; [exists R, S'; rewrite Hc; split; [reflexivity|split; lia]|]. split.
    + rewrite Hc. apply (pr_dsa sch P224 (-3)); [exact Hs|constructor|discriminate|lia|lia].
    + unfold SigWhole.Verify, Signature.Verify. rewrite M. cbn [sg_Scheme sg_Value].
      replace (GetHash_known sch) with true by (symmetry; apply known_iff; lia). cbn [negb].
      apply ecdsa_scheme_iff in Hs. rewrite Hs. cbv zeta. unfold ecdsa_verify. rewrite V. reflexivity.
Qed.
(** with the keys and the signature as bytes: the private key read from [data], the public key sent as e, the signature as buf; the
    receiver reads the key as soon as it has drawn a usable number *)
Theorem C88_end_to_end : forall rng data alg D k sch rn msg opt sig,
  DeserializePrivateKey ScalarBaseMult rng data = Val (Ok (Some (SkEC alg D k))) -> octets data ->
  pk_curve k = P224 -> 0 < D < N -> msg <> [] ->
  Sign rn sch (SkEC alg D k) msg opt = Val (Ok sig) ->
  exists e buf, SerializePublicKey (PkEC alg k) = Val e /\ Serialize (Some sig) = Val (Ok buf) /\ wire sig buf /\ length buf = 57%nat /\
    receive (PkEC alg k) msg buf = Val true /\
    forall rng', Exists (usable_draw (c_P P224) ((pk_Y k * pk_Y k) mod c_P P224)) rng' -> DeserializePublicKey rng' e = Val (Ok (PkEC alg k)).
Proof.
  intros rng data alg D k sch rn msg opt sig DK Od Hp HD NE S.
  destruct (C20_private_key_matches _ _ _ _ _ _ DK) as (t & l & c & a & n & db & eb & -> & Ht & Hl & SU & Hn & Ln & Dv & SB & Hc & _).
  rewrite value_be2z in Dv. assert (Wd : wf_bytes db) by (apply Forall_inv_tail, Forall_inv_tail, Forall_app in Od; apply Od).
  assert (KP : key_pair D k).
  { split; [exact Hp|]. split; [exact HD|]. assert (c = P224) as -> by congruence. rewrite <- SB. change P224 with (wc W).
    rewrite !w_base by (exact Wd || apply big_bytes_wf). rewrite be2z_big_bytes, <- Dv by lia. reflexivity. }
  destruct (key_facts D k KP) as [A AF].
  destruct (C88_sign_verify alg alg D k sch rn msg opt sig KP NE S) as [(r & s & -> & _) [PR V]].
  destruct (C31_wire_format _ PR) as (buf & Sb & Wb).
  destruct (C31_roundtrip _ PR) as (buf' & sig' & Sb' & Db & SC). { intros C. exact C. }
  assert (buf' = buf) by congruence. subst buf'.
  assert (VP : valid_pub (PkEC alg k)).
  { destruct k as [kc X Y]. cbn [pk_curve pk_X pk_Y] in *. subst kc. apply (vp_ec alg P224 (-3)); [lia|constructor|exact AF]. }
  assert (PD : forall rng', Exists (usable_draw (c_P P224) ((pk_Y k * pk_Y k) mod c_P P224)) rng' -> pub_decompressible (PkEC alg k) rng').
  { intros rng' U _. rewrite Hp. split; [apply (C88_no_zero_y _ _ AF)|exact U]. }
  assert (SE : exists e, SerializePublicKey (PkEC alg k) = Val e).
  { destruct (serialize_valid _ VP) as [C|[C|C]]; [|destruct C as (b & C & _); discriminate C|destruct C as (x & y & C & _); discriminate C].
    destruct C as (al & cc & aa & x & y & n0 & e & l0 & C). eexists. apply C. }
  destruct SE as [e Se]. exists e, buf.
  split; [exact Se|]. split; [exact Sb|]. split; [exact Wb|]. split; [|split].
  - inversion Wb as [c0 r0 s0 rb sb Hf|sch0 c0 n0 r0 s0 rb sb Hs0 Hf Hn0 Hr Hs'| |]; subst; [exfalso; destruct Hf as (_ & _ & Hf); vm_compute in Hf; discriminate Hf|].
    destruct Hr as (Lr & _). destruct Hs' as (Ls & _).
    assert (n0 = Z.of_nat 28) as -> by (apply (size_unique P224); [exact Hf|lia|discriminate|reflexivity]).
    cbn [length]. rewrite app_length. lia.
  - unfold SigWhole.receive, SigWhole.Verify in *. rewrite Db. cbn [bind]. rewrite <- (Verify_same _ _ _ _ _ _ (PkEC alg k) msg _ _ SC). exact V.
  - intros rng' U. destruct (C15_public_key_round_trip (PkEC alg k) rng' VP (PD rng' U)) as (e' & Se' & De'). congruence.
Qed.
End Sender.

(** ** Examples: private key 1, as a file; a key stream of zeros gives the nonce 1 *)
Definition ex_pub : ecpub := {| pk_curve := P224; pk_X := c_Gx P224; pk_Y := c_Gy P224 |}.
Definition ex_data : bytes := 18 :: 1 :: to_be 28 1 ++ (if Z.even (c_Gy P224) then 2 else 3) :: to_be 28 (c_Gx P224).
Definition ex_rng : list Z := Prop_EC.p224_rng.
Definition ex_s : Z := c_Gx P224 + be2z (firstn 28 Prop_ECDSA.ex_dg) - N.
Notation ex_sign := (SigWhole.Sign (fun _ => repeat 7 64) (fun _ b => map (fun _ => 0) b) Prop_SigWhole.ex_H (fun _ _ _ => Val (Err ""%string)) (fun _ _ => []) (fun _ _ _ => Val (Err ""%string)) (1%nat, Ok (repeat 5 16))).
Lemma ex_affine : affine_point P224 (-3) (c_Gx P224) (c_Gy P224).
Proof. exact (Prop_EC.C10_base_points P224 (-3) sup_P224). Qed.
Lemma ex_valid : valid_priv ScalarBaseMult (SkEC 0 1 ex_pub).
Proof.
  apply (vs_ec ScalarBaseMult 0 P224 (-3) 28 (to_be 28 1)); [left; reflexivity|constructor|split; [reflexivity|split; [discriminate|reflexivity]]|
    split; reflexivity|apply (encodes_to_be 28); split; [discriminate|reflexivity]|exact (Prop_SigWhole.base_one W 27)|exact ex_affine].
Qed.
Example C88_example_key : DeserializePrivateKey ScalarBaseMult ex_rng ex_data = Val (Ok (Some (SkEC 0 1 ex_pub))).
Proof.
  destruct (C19_private_key_round_trip ScalarBaseMult (SkEC 0 1 ex_pub) ex_rng ex_valid) as (e & Se & De).
  { intros _. split; [discriminate|]. exact (proj1 Prop_EC.C10_p224_G). }
  assert (Q : SerializePrivateKey (SkEC 0 1 ex_pub) = Val ex_data) by (vm_compute; reflexivity).
  assert (e = ex_data) as <- by congruence. exact De.
Qed.
Lemma ex_octets_data : octets ex_data.
Proof. unfold ex_data. constructor; [lia|]. constructor; [lia|]. apply Forall_app. split; [apply to_be_wf|]. constructor; [destruct (Z.even _); lia|apply to_be_wf]. Qed.
Lemma ex_signature : ex_sign 5 (SkEC 0 1 ex_pub) [104; 105] OptOther =
  Val (Ok {| sg_Scheme := 5; sg_Value := VDSA (c_Gx P224) ex_s (Some P224) |}).
Proof. vm_compute. reflexivity. Qed.
Example C88_example : exists e buf, SerializePublicKey (PkEC 0 ex_pub) = Val e /\ length buf = 57%nat /\
  DeserializePublicKey ex_rng e = Val (Ok (PkEC 0 ex_pub)) /\
  receive Prop_SigWhole.ex_H (fun _ _ => Val (Err ""%string)) (fun _ _ _ => false) (fun _ _ _ => false) (PkEC 0 ex_pub) [104; 105] buf = Val true.
Proof.
  destruct (C88_end_to_end (fun _ => repeat 7 64) (fun _ b => map (fun _ => 0) b) Prop_SigWhole.ex_H (fun _ _ => Prop_ECDSA.ex_octets) (fun _ _ _ => Val (Err ""%string))
    (fun _ _ => Val (Err ""%string)) (fun _ _ => []) (fun _ _ _ => false) (fun _ _ _ => Val (Err ""%string)) (fun _ _ _ => false)
    ex_rng ex_data 0 1 ex_pub 5 (1%nat, Ok (repeat 5 16)) [104; 105] OptOther _ C88_example_key ex_octets_data eq_refl (conj eq_refl eq_refl)
    ltac:(discriminate) ex_signature) as (e & buf & Se & Sb & Wb & L & V & R).
  exists e, buf. split; [exact Se|]. split; [exact L|]. split; [exact (R _ (proj1 Prop_EC.C10_p224_G))|exact V].
Qed.
Print Assumptions C88_count.
Print Assumptions C88_generated.
Print Assumptions C88_order.
Print Assumptions C88_no_zero_y.
Print Assumptions C88_compressed_round_trip.
Print Assumptions C88_rejection.
Print Assumptions C88_verify_exact.
Print Assumptions C88_receive_exact.
Print Assumptions C88_sign_verify.
Print Assumptions C88_end_to_end.
