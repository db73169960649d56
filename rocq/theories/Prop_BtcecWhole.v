(** * Prop_BtcecWhole: property C83, secp256k1 signatures from the private key to the bytes received *)
From Coq Require Import ZArith Znumtheory Zpow_facts String List Bool Lia.
From Verif Require Import Base BaseFacts Curves ECKey Keypair SM3 Spec_EC ECFacts ECFacts2 Spec_Keys KeyFacts Prop_Keys Spec_Group Spec_SM2
  NumTheory LucasFacts CurveZ CurveK Spec_ECDSA Spec_Gen Signature Spec_Sig SigFacts Prop_Sig Prop_Sig2 Spec_Btcec.
From Verif Require SM2Sig SM2Generic Prop_SM2 ECDSA Prop_ECDSA Prop_Sig3 SigWhole Prop_SigWhole Btcec BtcecFacts Prop_Btcec.
From Verif Require Import BtcecWhole.
Import ListNotations.
Open Scope Z_scope.

(** ** What a receiver does with bytes and an EC key, for any primitives *)
Section Any.
Variable H : Z -> bytes -> bytes.
Variable ev : ecpub -> bytes -> Z -> Z -> bool.
Variable kr : bytes -> bytes -> go (res (Z * Z)).
Variable edV ethV : bytes -> bytes -> bytes -> bool.
Variable sv : ecpub -> bytes -> bytes -> Z -> Z -> bool.
Definition recv (pub : pubkey) (msg buf : bytes) : go bool :=
  let* r := Deserialize buf in
  match r with
  | Err _ => Val false
  | Ok sig => Signature.Verify H ev kr edV ethV sv pub msg (Some sig)
  end.
Inductive shape (k : ecpub) (msg : bytes) : bytes -> Prop :=
| sh_short : forall rb sb, length rb = 32%nat -> length sb = 32%nat -> ev k (H 1 msg) (value rb 0) (value sb 0) = true -> shape k msg (rb ++ sb)
| sh_dsa : forall sch rb sb, 0 <= sch <= 8 -> length rb = length sb -> rb <> [] -> ev k (H sch msg) (value rb 0) (value sb 0) = true -> shape k msg (sch :: rb ++ sb)
| sh_k1 : forall sch v, 0 <= sch <= 8 -> length v = 65%nat -> kr v (H sch msg) = Val (Ok (pk_X k, pk_Y k)) -> shape k msg (sch :: v)
| sh_sm2 : forall id rb sb, ~ In 0 id -> length rb = length sb -> length (id ++ 0 :: rb ++ sb) <> 63%nat ->
    sv k id msg (value rb 0) (value sb 0) = true -> shape k msg (9 :: id ++ 0 :: rb ++ sb).
Lemma recv_iff : forall alg k msg buf, recv (PkEC alg k) msg buf = Val true <-> msg <> [] /\ shape k msg buf.
Proof.
  intros alg k msg buf.
  assert (AC : forall sig, Signature.Verify H ev kr edV ethV sv (PkEC alg k) msg (Some sig) = Val true <->
     msg <> [] /\ Prop_Sig3.accepts H ev kr edV ethV sv msg (PkEC alg k) sig).
  { intros sig. apply Prop_Sig3.C66_accepts_iff. intros k' Q. discriminate Q. }
  unfold recv. destruct (Deserialize_cases buf) as [[e D]|(sig & sch & data & D & Sp & De)]; rewrite D; cbn [bind].
  - split; [discriminate|]. intros [_ V]. exfalso.
    assert (F : ~ exists sig, Deserialize buf = Val (Ok sig)) by (intros [sig Q']; congruence).
    apply F. apply C32_accepted. destruct V as [rb sb L1 L2 V|sch rb sb Hs L NE V|sch v Hs L V|id rb sb NI L L63 V].
    + left. rewrite app_length, L1, L2. reflexivity.
    + right. exists sch, (rb ++ sb). split; [reflexivity|]. split; [|split].
      * intros C. apply app_eq_nil in C as [C _]. contradiction.
      * rewrite app_length, L. lia.
      * left. split; [exact Hs|]. right. exists (length sb). rewrite app_length, L. lia.
    + right. exists sch, v. split; [reflexivity|]. split; [intros ->; discriminate L|]. split; [lia|]. left. split; [exact Hs|left; exact L].
    + right. exists 9, (id ++ 0 :: rb ++ sb). split; [reflexivity|]. split; [destruct id; discriminate|]. split; [exact L63|]. right. left.
      split; [reflexivity|]. exists id, (rb ++ sb). split; [reflexivity|]. split; [exact NI|]. exists (length sb). rewrite app_length, L. lia.
  - rewrite AC. apply and_iff_compat_l. clear AC. split.
    + intros V. destruct De as [Hs L|a b Hs Da L|id a b Ds Da NI L|Hs].
      * inversion V; subst. inversion Sp; subst; [lia|]. apply sh_k1; assumption.
      * subst data. inversion V; subst. match goal with X : ev _ _ _ _ = true |- _ => rename X into V' end. rewrite <- !value_be2z in V'.
        inversion Sp as [b0 L64 Q1 Q2 Q3|t d N L63 Q1 Q2 Q3]; subst.
        -- apply sh_short; [rewrite app_length in L64; lia..|exact V'].
        -- apply sh_dsa; try assumption. intros ->. destruct b; [apply N; reflexivity|discriminate L].
      * subst sch data. inversion V; subst. inversion Sp as [|t d N L63 Q1 Q2 Q3]; subst.
        match goal with X : sv _ _ _ _ _ = true |- _ => rename X into V' end. rewrite <- !value_be2z in V'. apply sh_sm2; assumption.
      * inversion V; subst; lia.
    + intros V. destruct V as [rb sb L1 L2 V|sch' rb sb Hs L NE V|sch' v Hs L V|id rb sb NI L L63 V].
      * assert (sch = 1 /\ data = rb ++ sb) as [-> ->].
        { inversion Sp as [|t d N L63 Q1]; [subst; split; reflexivity|]. exfalso. assert (LL : length (t :: d) = 64%nat) by (rewrite Q1, app_length, L1, L2; reflexivity). cbn in LL. congruence. }
        assert (L65 : length (rb ++ sb) = 64%nat) by (rewrite app_length, L1, L2; reflexivity).
        destruct De as [Hs L|a b Hs Q L|id a b Q' _ _ _|Hs]; [congruence| |discriminate|lia].
        assert (LA : length a = 32%nat) by (assert (length (a ++ b) = 64%nat) by congruence; rewrite app_length in *; lia).
        destruct (Prop_SigWhole.app_inj_len rb a sb b ltac:(congruence) Q) as [<- <-].
        apply Prop_Sig3.ac_dsa; [lia|]. rewrite <- !value_be2z. exact V.
      * assert (sch = sch' /\ data = rb ++ sb) as [-> ->].
        { inversion Sp as [b0 L64 Q1|t d N L63 Q1]; [|subst; split; reflexivity]. exfalso. cbn in L64. rewrite app_length, L in L64. lia. }
        assert (LE : length (rb ++ sb) = (length sb + length sb)%nat) by (rewrite app_length, L; reflexivity).
        destruct De as [_ L'|a b _ Q L'|id a b Q' _ _ _|Hs']; [lia| |lia|lia].
        assert (LA : length a = length rb) by (assert (length (a ++ b) = length (rb ++ sb)) by congruence; rewrite !app_length in *; lia).
        destruct (Prop_SigWhole.app_inj_len rb a sb b ltac:(congruence) Q) as [<- <-].
        apply Prop_Sig3.ac_dsa; [lia|]. rewrite <- !value_be2z. exact V.
      * assert (sch = sch' /\ data = v) as [-> ->].
        { inversion Sp as [b0 L64 Q1|t d N L63 Q1]; [|subst; split; reflexivity]. exfalso. cbn in L64. lia. }
        destruct De as [_ L'|a b _ Q L'|id a b Q' _ _ _|Hs']; [|exfalso; rewrite Q, app_length in L; lia|lia|lia].
        apply (Prop_Sig3.ac_k1 _ _ _ _ _ _ _ _ _ _ _ (pk_X k) (pk_Y k)); (assumption || reflexivity).
      * assert (sch = 9 /\ data = id ++ 0 :: rb ++ sb) as [-> ->].
        { inversion Sp as [b0 L64 Q1|t d N L63' Q1]; [|subst; split; reflexivity]. exfalso. cbn [length] in L64. lia. }
        destruct De as [Hs' _|a b Hs' _ _|id' a b _ Q NI' L'|Hs']; [lia|lia| |lia].
        destruct (Prop_SigWhole.app_zero_inj id id' (rb ++ sb) (a ++ b) NI NI' Q) as [<- Q'].
        assert (LA : length a = length rb) by (assert (length (a ++ b) = length (rb ++ sb)) by congruence; rewrite !app_length in *; lia).
        destruct (Prop_SigWhole.app_inj_len rb a sb b ltac:(congruence) Q') as [<- <-].
        apply Prop_Sig3.ac_sm2. rewrite <- !value_be2z. exact V.
Qed.
Lemma recv_panics : forall alg k msg buf why, recv (PkEC alg k) msg buf = Panic why <->
  msg <> [] /\ exists sch v, buf = sch :: v /\ 0 <= sch <= 8 /\ length v = 65%nat /\ kr v (H sch msg) = Panic why.
Proof.
  intros alg k msg buf why. unfold recv. destruct (Deserialize_cases buf) as [[e D]|(sig & sch & data & D & Sp & De)]; rewrite D; cbn [bind].
  - split; [discriminate|]. intros (_ & sch & v & -> & Hs & L & _). exfalso.
    assert (F : ~ exists sig, Deserialize (sch :: v) = Val (Ok sig)) by (intros [sig Q']; congruence).
    apply F. apply C32_accepted. right. exists sch, v. split; [reflexivity|]. split; [intros ->; discriminate L|]. split; [lia|]. left. split; [exact Hs|left; exact L].
  - rewrite (C38_ec_panics H ev kr edV ethV sv alg k msg sig why). apply and_iff_compat_l. split.
    + intros (sch' & v & -> & Hs & P). inversion De; subst; try lia. inversion Sp; subst; [lia|]. exists sch', v. repeat split; assumption || lia.
    + intros (sch' & v & -> & Hs & L & P). inversion Sp as [b0 L64 Q1|t d N L63 Q1]; subst; [cbn in L64; lia|].
      destruct De as [Hs' L'|a b Hs' -> L'|id a b Q' _ _ _|Hs']; [|rewrite app_length in L; lia|lia|lia]. exists sch, data. repeat split; assumption || lia.
Qed.
Lemma recv_val : (forall v dg, (exists r, kr v dg = Val r) \/ (exists w, kr v dg = Panic w)) -> forall alg k msg buf,
  (exists b, recv (PkEC alg k) msg buf = Val b) \/ (exists w, recv (PkEC alg k) msg buf = Panic w).
Proof.
  intros T alg k msg buf. unfold recv. destruct (C32_deserialize_total buf) as [[sig|e] ->]; cbn [bind]; [|left; eexists; reflexivity].
  unfold Signature.Verify. destruct (zlen msg =? 0); [left; eexists; reflexivity|]. destruct (negb _); [left; eexists; reflexivity|].
  destruct (ecdsa_scheme _); [destruct (sg_Value sig) as [| |v|]; cbv zeta; try (left; eexists; reflexivity)|].
  - unfold Secp256k1Verify. destruct (T v (H (sg_Scheme sig) msg)) as [[[[x y]|e] ->]|[w ->]]; [left|left|right]; eexists; reflexivity.
  - destruct (_ =? SM3withSM2); [destruct (sg_Value sig); left; eexists; reflexivity|]. left; eexists; reflexivity.
Qed.
End Any.

(** ** secp256k1 *)
Notation E := (kE kS256).
Notation N := (c_N S256).
Notation G := (eG (e := kE kS256)).
Notation point := (pt (eg (kE kS256))).
Section K1.
Variable checked : bool.
Variable sm : curve -> Z * Z -> bytes -> Z * Z.
Variable sbm : curve -> bytes -> Z * Z.
Variable add : curve -> Z * Z -> Z * Z -> Z * Z.
Hypothesis sm_ok : forall (P : point) k, P <> gO -> octets k -> sm S256 (ecoords P) k = ecoords (gmul (value k 0) P).
Hypothesis sbm_ok : forall k, octets k -> sbm S256 k = ecoords (gmul (value k 0) G).
Hypothesis add_ok : forall P Q : point, add S256 (ecoords P) (ecoords Q) = ecoords (gadd P Q).
Variable H : Z -> bytes -> bytes.
Hypothesis H_octets : forall sch m, octets (H sch m).
Variable edVerify ethVerify : bytes -> bytes -> bytes -> bool.
Notation receive := (receive checked sm sbm add H edVerify ethVerify).
Notation kr := (k1_recover checked sm sbm add).
Let HN : bits_of (c_N kS256) 256 := Prop_Btcec.s256_bits.

Lemma fermat_s256 : forall s, 1 <= s <= N - 1 -> (ECDSA.fermat S256 s * s) mod N = 1.
Proof.
  intros s Hs. unfold ECDSA.fermat, SM2Generic.fermatInverse. pose proof (BtcecFacts.Npos kS256) as N2. change (c_N kS256) with N in N2. rewrite powm_spec by lia.
  rewrite Z.mul_mod_idemp_l by lia. replace (s ^ (N - 2) * s) with (s ^ (N - 1)).
  - apply fermat_unit; [exact (k_n kS256)|]. intros C. apply Z.divide_pos_le in C; lia.
  - replace (N - 1) with (Z.succ (N - 2)) by lia. rewrite Z.pow_succ_r by lia. apply Z.mul_comm.
Qed.
(** ECDSA on secp256k1 *)
Lemma ecdsa_iff : forall (Q : point) k dg r s, pk_curve k = S256 -> ecoords Q = (pk_X k, pk_Y k) -> Q <> gO -> octets dg ->
  (ecdsa_verify sm sbm add k dg r s = true <-> ecdsa_accepts E Q (digest_int 256 dg) r s).
Proof.
  intros Q k dg r s Hc CQ NQ Od. unfold ecdsa_verify. rewrite Hc, String.eqb_refl. pose proof (BtcecFacts.Npos kS256) as N2. change (c_N kS256) with N in N2.
  destruct (Prop_ECDSA.verify_iff ECDSA.fermat (k1_comb sm sbm add) k 256 ltac:(rewrite Hc; exact HN) dg r s Od) as (b & V & B). rewrite V, B, Hc. clear V B b.
  destruct (Z_le_dec 1 s) as [S1|S1]; [|split; [intros (_ & C & _); lia|intros (_ & C & _); lia]].
  destruct (Z_le_dec s (N - 1)) as [S2|S2]; [|split; [intros (_ & C & _); lia|intros (_ & C & _); change (eN E) with N in C; lia]].
  rewrite (Prop_ECDSA.accepts_with E Q (digest_int 256 dg) r s (ECDSA.fermat S256 s) (k_killed kS256 Q) (fermat_s256 s ltac:(lia))). cbv zeta. change (eN E) with N.
  unfold Prop_ECDSA.u1, Prop_ECDSA.u2. rewrite Hc. set (a := (digest_int 256 dg * ECDSA.fermat S256 s) mod N). set (b := (r * ECDSA.fermat S256 s) mod N).
  assert (Ha : 0 <= a) by (apply Z.mod_pos_bound; lia). assert (Hb : 0 <= b) by (apply Z.mod_pos_bound; lia). clearbody a b.
  assert (X : k1_comb sm sbm add k (big_bytes a) (big_bytes b) = ecoords (gadd (gmul a G) (gmul b Q))).
  { unfold k1_comb. rewrite Hc, <- CQ, sbm_ok, sm_ok by (exact NQ || apply big_bytes_wf). rewrite !value_be2z, !be2z_big_bytes by assumption. apply add_ok. }
  rewrite X. reflexivity.
Qed.
Lemma sm2_never : forall k id msg r s, c_name (pk_curve k) = c_name S256 -> SigWhole.sm2_verify k id msg r s = false.
Proof.
  intros k id msg r s Hc. unfold SigWhole.sm2_verify. rewrite Prop_SM2.C43_other_curves_rejected; [reflexivity|]. rewrite Hc. discriminate.
Qed.
Notation in_range := (Prop_Btcec.in_range kS256 checked).
Lemma recover_iff : forall (k : ecpub) dg v, octets dg -> octets v ->
  (kr v dg = Val (Ok (pk_X k, pk_Y k)) <->
   exists h it r s Q, compact v h r s /\ header h it /\ in_range r s /\ ecoords Q = (pk_X k, pk_Y k) /\ recovers E (digest_int 256 dg) it r s Q).
Proof.
  intros k dg v Od Ov. rewrite <- (Prop_Btcec.C82_verify_exact kS256 HN eq_refl checked sm sbm add sm_ok sbm_ok add_ok (pk_X k, pk_Y k) dg v Od Ov).
  unfold Btcec.Secp256k1Verify, k1_recover. change (kc kS256) with S256. destruct (Btcec.RecoverCompact checked sm sbm add S256 v dg) as [[[X Y]|e]|w|]; cbn [bind fst snd]; try (split; discriminate).
  split.
  - intros Q. assert (XY : X = pk_X k /\ Y = pk_Y k) by (split; congruence). destruct XY as [-> ->]. rewrite !Z.eqb_refl. reflexivity.
  - intros Q. apply Prop_Keys.val_inj in Q. apply andb_prop in Q as [A B]. apply Z.eqb_eq in A, B. subst. reflexivity.
Qed.

(** the byte strings that are signatures of msg by Q *)
Inductive k1_bytes (Q : point) (msg : bytes) : bytes -> Prop :=
| kb_short : forall rb sb, length rb = 32%nat -> length sb = 32%nat ->
    ecdsa_accepts E Q (digest_int 256 (H 1 msg)) (value rb 0) (value sb 0) -> k1_bytes Q msg (rb ++ sb)
| kb_dsa : forall sch rb sb, 0 <= sch <= 8 -> length rb = length sb ->
    ecdsa_accepts E Q (digest_int 256 (H sch msg)) (value rb 0) (value sb 0) -> k1_bytes Q msg (sch :: rb ++ sb)
| kb_compact : forall sch v h it r s, 0 <= sch <= 8 -> compact v h r s -> header h it -> in_range r s ->
    recovers E (digest_int 256 (H sch msg)) it r s Q -> k1_bytes Q msg (sch :: v).
Theorem C83_receive_exact : forall (Q : point) alg k msg buf, pk_curve k = S256 -> ecoords Q = (pk_X k, pk_Y k) -> Q <> gO -> octets buf ->
  (receive (PkEC alg k) msg buf = Val true <-> msg <> [] /\ k1_bytes Q msg buf).
Proof.
  intros Q alg k msg buf Hc CQ NQ Ob. unfold BtcecWhole.receive, BtcecWhole.Verify.
  change (recv H (ecdsa_verify sm sbm add) kr edVerify ethVerify SigWhole.sm2_verify (PkEC alg k) msg buf = Val true <-> msg <> [] /\ k1_bytes Q msg buf).
  rewrite recv_iff. apply and_iff_compat_l. split; intros V.
  - destruct V as [rb sb L1 L2 V|sch rb sb Hs L NE V|sch v Hs L V|id rb sb NI L L63 V].
    + apply kb_short; [assumption..|]. apply (ecdsa_iff Q k _ _ _ Hc CQ NQ (H_octets _ _)). exact V.
    + apply kb_dsa; [assumption..|]. apply (ecdsa_iff Q k _ _ _ Hc CQ NQ (H_octets _ _)). exact V.
    + inversion Ob as [|? ? _ Ov]; subst. apply (recover_iff k _ v (H_octets _ _) Ov) in V. destruct V as (h & it & r & s & Q' & C & HD & IR & CQ' & RE).
      assert (Q' = Q) as -> by (apply ecoords_inj; congruence). apply (kb_compact Q msg sch v h it r s); assumption.
    + exfalso. rewrite sm2_never in V by (rewrite Hc; reflexivity). discriminate V.
  - destruct V as [rb sb L1 L2 V|sch rb sb Hs L V|sch v h it r s Hs C HD IR RE].
    + apply sh_short; [assumption..|]. apply (ecdsa_iff Q k _ _ _ Hc CQ NQ (H_octets _ _)). exact V.
    + apply sh_dsa; [assumption..| |].
      * intros ->. destruct V as [V _]. cbn in V. lia.
      * apply (ecdsa_iff Q k _ _ _ Hc CQ NQ (H_octets _ _)). exact V.
    + apply sh_k1; [exact Hs|exact (Prop_Btcec.compact_length v h r s C)|]. inversion Ob as [|? ? _ Ov]; subst. apply (recover_iff k _ v (H_octets _ _) Ov).
      exists h, it, r, s, Q. repeat split; assumption || apply HD.
Qed.
(** the receiver answers, or panics; it panics for EC keys of every curve, on the same strings *)
Theorem C83_receive_panics : forall alg k msg buf, octets buf ->
  ((exists b, receive (PkEC alg k) msg buf = Val b) \/ (exists why, receive (PkEC alg k) msg buf = Panic why)) /\
  ((exists why, receive (PkEC alg k) msg buf = Panic why) <->
   checked = false /\ msg <> [] /\ exists sch v h it r s R, buf = sch :: v /\ 0 <= sch <= 8 /\ compact v h r s /\ header h it /\ r mod N = 0 /\ named_point E it r R).
Proof.
  intros alg k msg buf Ob.
  change (receive (PkEC alg k) msg buf) with (recv H (ecdsa_verify sm sbm add) kr edVerify ethVerify SigWhole.sm2_verify (PkEC alg k) msg buf).
  assert (VA : forall dg v, octets dg -> octets v ->
    ((exists r, kr v dg = Val r) \/ (exists m, kr v dg = Panic m)) /\
    ((exists m, kr v dg = Panic m) <-> checked = false /\ exists h it r s R, compact v h r s /\ header h it /\ r mod N = 0 /\ named_point E it r R)).
  { intros dg v Od Ov. destruct (Prop_Btcec.C82_verify_answers kS256 HN eq_refl checked sm sbm add sm_ok sbm_ok add_ok (0, 0) dg v Od Ov) as [A B].
    unfold Btcec.Secp256k1Verify in A, B. change (kc kS256) with S256 in A, B. unfold k1_recover.
    destruct (Btcec.RecoverCompact checked sm sbm add S256 v dg) as [[[X Y]|e]|w|]; cbn [bind] in A, B.
    - split; [left; eexists; reflexivity|]. rewrite <- B. split; intros [m Q]; discriminate Q.
    - split; [left; eexists; reflexivity|]. rewrite <- B. split; intros [m Q]; discriminate Q.
    - split; [right; eexists; reflexivity|]. rewrite <- B. split; intros _; eexists; reflexivity.
    - exfalso. destruct A as [[b Q]|[m Q]]; discriminate Q. }
  split.
  - unfold recv. destruct (Deserialize_cases buf) as [[e D]|(sig & sch & data & D & Sp & De)]; rewrite D; cbn [bind]; [left; eexists; reflexivity|].
    assert (Odata : octets data) by (destruct Sp; [exact Ob|inversion Ob; assumption]).
    unfold Signature.Verify. destruct (zlen msg =? 0); [left; eexists; reflexivity|]. destruct (negb _); [left; eexists; reflexivity|].
    destruct (ecdsa_scheme (sg_Scheme sig)) eqn:F.
    + destruct De as [Hs L|a b Hs Da L|id a b Ds Da NI L|Hs]; cbn [sg_Value sg_Scheme] in *; cbv zeta; try (left; eexists; reflexivity).
      * unfold Secp256k1Verify. destruct (VA (H sch msg) data (H_octets _ _) Odata) as [[[[[x y]|e] ->]|[w ->]] _]; [left|left|right]; eexists; reflexivity.
      * exfalso. apply ecdsa_scheme_iff in F. lia.
    + destruct (_ =? SM3withSM2); [destruct (sg_Value sig); left; eexists; reflexivity|left; eexists; reflexivity].
  - split.
    + intros [why P]. apply recv_panics in P. destruct P as (NE & sch & v & -> & Hs & L & P). inversion Ob as [|? ? _ Ov]; subst.
      destruct (proj1 (proj2 (VA (H sch msg) v (H_octets _ _) Ov)) (ex_intro _ why P)) as (CH & h & it & r & s & R & C & HD & Z0 & NP).
      split; [exact CH|]. split; [exact NE|]. exists sch, v, h, it, r, s, R. repeat (split; [assumption|]). split; [reflexivity|]. repeat (split; [assumption|]). exact NP.
    + intros (CH & NE & sch & v & h & it & r & s & R & -> & Hs & C & HD & Z0 & NP). pose proof (Forall_inv_tail Ob) as Ov.
      assert (X : exists m, kr v (H sch msg) = Panic m) by (apply (VA (H sch msg) v (H_octets _ _) Ov); split; [exact CH|exists h, it, r, s, R; repeat (split; [assumption|]); exact NP]).
      destruct X as [why P]. exists why. apply recv_panics. split; [exact NE|]. exists sch, v. split; [reflexivity|]. split; [exact Hs|]. split; [exact (Prop_Btcec.compact_length v h r s C)|exact P].
Qed.

(** ** One signature, two formats *)
Lemma bytes64 : forall (a b a' b' : bytes) n, length a = n -> length b = n -> length a' = length b' -> a ++ b = a' ++ b' -> a = a' /\ b = b'.
Proof.
  intros a b a' b' n L1 L2 L Q. apply Prop_SigWhole.app_inj_len; [|exact Q].
  assert (LL : length (a ++ b) = length (a' ++ b')) by congruence. rewrite !app_length in LL. lia.
Qed.
Theorem C83_two_formats : forall (Q : point) alg k msg sch rb sb, pk_curve k = S256 -> ecoords Q = (pk_X k, pk_Y k) -> Q <> gO -> 0 <= sch <= 8 ->
  length rb = 32%nat -> length sb = 32%nat -> octets rb -> octets sb -> 1 <= value rb 0 < N -> 1 <= value sb 0 < N ->
  (receive (PkEC alg k) msg (sch :: rb ++ sb) = Val true <-> exists h, 0 <= h < 256 /\ receive (PkEC alg k) msg (sch :: h :: rb ++ sb) = Val true) /\
  (forall h, 0 <= h < 256 -> receive (PkEC alg k) msg (sch :: h :: rb ++ sb) = Val true ->
     exists it, header h it /\ forall h', 0 <= h' < 256 -> (receive (PkEC alg k) msg (sch :: h' :: rb ++ sb) = Val true <-> header h' it)) /\
  (receive (PkEC alg k) msg (rb ++ sb) = Val true <-> receive (PkEC alg k) msg (1 :: rb ++ sb) = Val true).
Proof.
  intros Q alg k msg sch rb sb Hc CQ NQ Hs L1 L2 O1 O2 R S.
  assert (OS : forall t, 0 <= t <= 8 -> octets (t :: rb ++ sb)) by (intros t Ht; constructor; [lia|apply Forall_app; split; assumption]).
  assert (OH : forall h, 0 <= h < 256 -> octets (sch :: h :: rb ++ sb)) by (intros h Hh; constructor; [lia|constructor; [lia|apply Forall_app; split; assumption]]).
  assert (E1 : encodes 32 (value rb 0) rb) by (split; [lia|split; [exact O1|reflexivity]]). assert (E2 : encodes 32 (value sb 0) sb) by (split; [lia|split; [exact O2|reflexivity]]).
  assert (CO : forall h, compact (h :: rb ++ sb) h (value rb 0) (value sb 0)) by (intros h; exists rb, sb; split; [reflexivity|split; assumption]).
  assert (IR : in_range (value rb 0) (value sb 0)) by (unfold Prop_Btcec.in_range; destruct checked; [split; assumption|change (c_N kS256) with N; rewrite Z.mod_small; lia]).
  assert (PL : forall t, 0 <= t <= 8 -> (k1_bytes Q msg (t :: rb ++ sb) <-> ecdsa_accepts E Q (digest_int 256 (H t msg)) (value rb 0) (value sb 0))).
  { intros t Ht. split; [|apply kb_dsa; [exact Ht|lia]]. intros V. remember (t :: rb ++ sb) as buf eqn:B. destruct V as [a b La Lb V|t' a b Ht' La V|t' v h it r s Ht' C _ _ _].
    - exfalso. apply (f_equal (@length Z)) in B. cbn [length] in B. rewrite !app_length in B. lia.
    - injection B as -> B. destruct (bytes64 rb sb a b 32 L1 L2 La (eq_sym B)) as [-> ->]. exact V.
    - exfalso. injection B as _ ->. apply Prop_Btcec.compact_length in C. rewrite app_length in C. lia. }
  assert (CP : forall h, k1_bytes Q msg (sch :: h :: rb ++ sb) <-> exists it, header h it /\ recovers E (digest_int 256 (H sch msg)) it (value rb 0) (value sb 0) Q).
  { intros h. split.
    - intros V. remember (sch :: h :: rb ++ sb) as buf eqn:B. destruct V as [a b La Lb V|t' a b Ht' La V|t' v h' it r s Ht' C HD _ RE].
      + exfalso. apply (f_equal (@length Z)) in B. cbn [length] in B. rewrite !app_length in B. lia.
      + exfalso. apply (f_equal (@length Z)) in B. cbn [length] in B. rewrite !app_length in B. lia.
      + injection B as -> ->. destruct (Prop_Btcec.compact_inj _ _ _ _ _ _ _ C (CO h)) as (-> & -> & ->). exists it. split; assumption.
    - intros (it & HD & RE). apply (kb_compact Q msg sch _ h it _ _ Hs (CO h) HD IR RE). }
  pose proof (Prop_Btcec.C82_ecdsa kS256 Q (digest_int 256 (H sch msg)) (value rb 0) (value sb 0) R S) as [EX UN].
  split; [|split].
  - rewrite (C83_receive_exact Q alg k msg _ Hc CQ NQ (OS sch Hs)), (PL sch Hs). split.
    + intros [NE V]. apply EX in V. destruct V as (it & Ri & RE). exists (27 + it). assert (Hh : 0 <= 27 + it < 256) by lia. split; [exact Hh|].
      apply (C83_receive_exact Q alg k msg _ Hc CQ NQ (OH _ Hh)). split; [exact NE|]. apply CP. exists it. split; [split; [exact Ri|left; reflexivity]|exact RE].
    + intros (h & Hh & V). apply (C83_receive_exact Q alg k msg _ Hc CQ NQ (OH _ Hh)) in V. destruct V as [NE V]. split; [exact NE|].
      apply CP in V. destruct V as (it & [Ri _] & RE). apply EX. exists it. split; assumption.
  - intros h Hh V. apply (C83_receive_exact Q alg k msg _ Hc CQ NQ (OH _ Hh)) in V. destruct V as [NE V]. apply CP in V. destruct V as (it & HD & RE).
    exists it. split; [exact HD|]. intros h' Hh'. rewrite (C83_receive_exact Q alg k msg _ Hc CQ NQ (OH _ Hh')), CP. split.
    + intros (_ & it' & HD' & RE'). rewrite (UN it it' RE RE'). exact HD'.
    + intros HD'. split; [exact NE|]. exists it. split; assumption.
  - rewrite (C83_receive_exact Q alg k msg _ Hc CQ NQ (OS 1 ltac:(lia))), (PL 1 ltac:(lia)).
    rewrite (C83_receive_exact Q alg k msg _ Hc CQ NQ (Forall_inv_tail (OS 1 ltac:(lia)))). apply and_iff_compat_l. split; [|apply kb_short; assumption].
    intros V. remember (rb ++ sb) as buf eqn:B. destruct V as [a b La Lb V|t' a b Ht' La V|t' v h' it r s Ht' C HD _ RE].
    + destruct (bytes64 rb sb a b 32 L1 L2 ltac:(lia) (eq_sym B)) as [-> ->]. exact V.
    + exfalso. apply (f_equal (@length Z)) in B. cbn [length] in B. rewrite !app_length in B. lia.
    + exfalso. apply (f_equal (@length Z)) in B. cbn [length] in B. rewrite !app_length, (Prop_Btcec.compact_length _ _ _ _ C) in B. lia.
Qed.

(** ** From the signer to the receiver *)
Variable nonce : Z -> bytes -> Z.
Hypothesis nonce_ok : forall D dg, 1 <= nonce D dg < N.
Variable sha512 : bytes -> bytes.
Variable aes : bytes -> bytes -> bytes.
Variable edSign : bytes -> bytes -> bytes.
Variable ethSign : bytes -> Z -> ecpub -> go (res bytes).
Notation Sign := (BtcecWhole.Sign checked sm sbm add nonce sha512 aes H edSign ethSign).
Notation Verify := (BtcecWhole.Verify checked sm sbm add H edVerify ethVerify).
Notation k1s := (k1_sign checked sm sbm add nonce).
(** what Sign does for the nine schemes: no randomness and no option matters *)
Lemma sign_k1 : forall rn sch alg D k msg opt, pk_curve k = S256 -> 0 <= sch <= 8 ->
  Sign rn sch (SkEC alg D k) msg opt =
  let* s := k1s D k (H sch msg) in match s with Err e => Val (Err e) | Ok s => Val (Ok {| sg_Scheme := sch; sg_Value := VBytes s |}) end.
Proof.
  intros rn sch alg D k msg opt Hc Hs. unfold BtcecWhole.Sign, Signature.Sign.
  replace (GetHash_known sch) with true by (symmetry; apply known_iff; lia). cbn [negb]. destruct (Z.eqb_spec sch SM3withSM2) as [Q|_]; [unfold SM3withSM2 in Q; lia|].
  apply ecdsa_scheme_iff in Hs. rewrite Hs, Hc, String.eqb_refl. reflexivity.
Qed.
Theorem C83_sign_exact : forall rn sch alg D k msg opt, pk_curve k = S256 -> (pk_X k, pk_Y k) = ecoords (gmul D G) -> 0 <= sch <= 8 ->
  let e := digest_int 256 (H sch msg) in
  let try_ := dsa_attempt (fun k => fst (ecoords (gmul k G))) N D e (nonce D (H sch msg)) in
  (exists o, Sign rn sch (SkEC alg D k) msg opt = Val o) /\
  (forall sig, Sign rn sch (SkEC alg D k) msg opt = Val (Ok sig) <->
     exists v r s it, sig = {| sg_Scheme := sch; sg_Value := VBytes v |} /\ try_ (Some (r, s)) /\
       compact v (27 + it) r (Z.min s (N - s)) /\ 0 <= it < 4 /\ recovers E e it r (Z.min s (N - s)) (gmul D G)) /\
  ((exists m, Sign rn sch (SkEC alg D k) msg opt = Val (Err m)) <-> try_ None).
Proof.
  intros rn sch alg D k msg opt Hc HK Hs e try_. rewrite (sign_k1 _ _ _ _ _ _ _ Hc Hs).
  destruct (Prop_Btcec.C82_sign_exact kS256 HN eq_refl checked sm sbm add sm_ok sbm_ok add_ok nonce nonce_ok D (pk_X k, pk_Y k) (H sch msg) (H_octets _ _) HK) as [A B].
  destruct (Prop_Btcec.C82_sign_verify kS256 HN eq_refl checked sm sbm add sm_ok sbm_ok add_ok nonce nonce_ok D (pk_X k, pk_Y k) (H sch msg) (H_octets _ _)) as [[o T] _].
  change (Btcec.Secp256k1Sign checked sm sbm add nonce kS256 D (pk_X k, pk_Y k) (H sch msg)) with (k1s D k (H sch msg)) in *.
  rewrite T in *. cbn [bind]. split; [|split].
  - destruct o; eexists; reflexivity.
  - intros sig. split.
    + intros Q. destruct o as [v|m]; [|discriminate Q]. assert (Q' : sig = {| sg_Scheme := sch; sg_Value := VBytes v |}) by congruence.
      destruct (proj1 (A v) eq_refl) as (r & s & it & T1 & T2 & T3 & T4). exists v, r, s, it. repeat (split; [assumption|]). exact T4.
    + intros (v & r & s & it & -> & T1 & T2 & T3 & T4). assert (Q : Val o = Val (Ok v)) by (apply A; exists r, s, it; repeat (split; [assumption|]); exact T4).
      assert (o = Ok v) as -> by congruence. reflexivity.
  - change (try_ None) with (dsa_attempt (fun k0 : Z => fst (ecoords (gmul k0 G))) (c_N kS256) D (digest_int 256 (H sch msg)) (nonce D (H sch msg)) None). rewrite <- B. split; intros [m Q].
    + destruct o as [v|m']; [discriminate Q|]. exists m'. reflexivity.
    + assert (o = Err m) as -> by congruence. exists m. reflexivity.
Qed.
(** what it returns is accepted, whatever the coordinates beside the private key are; SM2 signatures are not made *)
Theorem C83_sign_verify : forall rn sch alg alg' D k msg opt sig, pk_curve k = S256 -> msg <> [] ->
  Sign rn sch (SkEC alg D k) msg opt = Val (Ok sig) ->
  0 <= sch <= 8 /\ produced sig /\ Verify (PkEC alg' k) msg (Some sig) = Val true.
Proof.
  intros rn sch alg alg' D k msg opt sig Hc NE S.
  assert (Hs : 0 <= sch <= 8).
  { unfold BtcecWhole.Sign in S. apply Sign_inv in S. inversion S as [al d k' R S' id Hid ES| | | |]; subst; try assumption. exfalso.
    destruct (Prop_SM2.C46_other_curves_rejected k match opt with OptString s => s | _ => [] end msg New ltac:(rewrite Hc; discriminate)) as [e G0]. unfold SigWhole.sm2_sign, SM2Sig.Sign in ES. rewrite G0 in ES. discriminate ES. }
  split; [exact Hs|]. rewrite (sign_k1 _ _ _ _ _ _ _ Hc Hs) in S. apply bind_val in S as ([v|m] & S1 & S2); [|discriminate S2].
  assert (sig = {| sg_Scheme := sch; sg_Value := VBytes v |}) as -> by congruence.
  destruct (Prop_Btcec.C82_sign_verify kS256 HN eq_refl checked sm sbm add sm_ok sbm_ok add_ok nonce nonce_ok D (pk_X k, pk_Y k) (H sch msg) (H_octets _ _)) as [_ V].
  destruct (V v S1) as (V1 & h & r & s & C & Hh & _). split.
  - destruct C as (rb & sb & -> & (L1 & O1 & _) & (L2 & O2 & _)). apply pr_k1; [exact Hs|cbn [length]; rewrite app_length; lia|]. constructor; [unfold is_byte; lia|apply Forall_app; split; assumption].
  - unfold BtcecWhole.Verify, Signature.Verify. assert (M : (zlen msg =? 0) = false) by (destruct msg; [congruence|reflexivity]). rewrite M. cbn [sg_Scheme sg_Value].
    replace (GetHash_known sch) with true by (symmetry; apply known_iff; lia). cbn [negb]. apply ecdsa_scheme_iff in Hs. rewrite Hs. cbv zeta. exact V1.
Qed.
(** with the keys and the signature as bytes *)
Theorem C83_end_to_end : forall rng data alg D k sch rn msg opt sig,
  DeserializePrivateKey sbm rng data = Val (Ok (Some (SkEC alg D k))) -> octets data ->
  pk_curve k = S256 -> 0 < D < N -> msg <> [] ->
  Sign rn sch (SkEC alg D k) msg opt = Val (Ok sig) ->
  exists e buf, SerializePublicKey (PkEC alg k) = Val e /\ Serialize (Some sig) = Val (Ok buf) /\ wire sig buf /\ length buf = 66%nat /\
    forall rng', exists pub, DeserializePublicKey rng' e = Val (Ok pub) /\ receive pub msg buf = Val true.
Proof.
  intros rng data alg D k sch rn msg opt sig DK Od Hk HD NE S.
  destruct (C20_private_key_matches _ _ _ _ _ _ DK) as (t & l & c & a & n & db & eb & -> & Ht & Hl & SU & Hn & Ln & Dv & SB & Hc & _).
  assert (Wd : wf_bytes db) by (apply Forall_inv_tail, Forall_inv_tail, Forall_app in Od; apply Od).
  assert (Q0 : c = S256) by congruence. rewrite Q0 in SB, SU. clear Hn Hl Hc Q0 c. rewrite (sbm_ok db Wd), <- Dv in SB.
  assert (NO : gmul D G <> gO) by (rewrite (k_gmul_zero kS256 D G (k_G_nz kS256)); change (c_N kS256) with N; rewrite Z.mod_small; lia).
  set (Q := gmul D G) in *. clearbody Q.
  pose proof (kco_kat kS256 Q NO) as A. pose proof (kco_range kS256 Q) as R. change (kco kS256 Q) with (ecoords Q) in A, R. rewrite SB in A, R. cbn [fst snd] in A, R.
  destruct (C83_sign_verify rn sch alg alg D k msg opt sig Hk NE S) as (Hs & PR & V).
  destruct (C31_wire_format sig PR) as (buf & Sb & Wb).
  assert (SV : exists v, sig = {| sg_Scheme := sch; sg_Value := VBytes v |} /\ length v = 65%nat).
  { rewrite (sign_k1 _ _ _ _ _ _ _ Hk Hs) in S. apply bind_val in S as ([v|m] & S1 & S2); [|discriminate S2].
    assert (Qs : sig = {| sg_Scheme := sch; sg_Value := VBytes v |}) by congruence. exists v. split; [exact Qs|]. rewrite Qs in PR. inversion PR; subst; try lia; assumption. }
  destruct SV as (v & Qs & Lv).
  destruct (C31_roundtrip sig PR) as (buf' & sig' & Sb' & Db & SC); [rewrite Qs; intros C; exact C|].
  assert (buf' = buf) by congruence. subst buf'.
  assert (VP : valid_pub (PkEC alg k)).
  { destruct k as [kc0 X Y]. cbn [pk_curve pk_X pk_Y] in *. rewrite Hk. apply (vp_ec alg S256 a); [lia|exact SU|].
    split; [apply R|]. split; [apply R|]. apply kat_on in A. assert (A0 : a = 0) by (inversion SU; reflexivity). rewrite A0.
    unfold curve_eq. rewrite Z.mul_0_l, Z.add_0_r. apply Prop_SigWhole.mod_of_divide; [discriminate|exact A]. }
  assert (PD : forall rng', pub_decompressible (PkEC alg k) rng') by (intros rng' C; exfalso; rewrite Hk in C; discriminate C).
  destruct (C15_public_key_round_trip (PkEC alg k) [] VP (PD [])) as (e & Se & _). exists e, buf.
  split; [exact Se|]. split; [exact Sb|]. split; [exact Wb|]. split.
  - rewrite Qs in Wb. inversion Wb; subst. cbn [length]. lia.
  - intros rng'. exists (PkEC alg k). split.
    + destruct (C15_public_key_round_trip (PkEC alg k) rng' VP (PD rng')) as (e' & Se' & De'). congruence.
    + unfold BtcecWhole.receive, BtcecWhole.Verify in *. rewrite Db. cbn [bind]. rewrite <- (Verify_same _ _ _ _ _ _ (PkEC alg k) msg _ _ SC). exact V.
Qed.
End K1.
Print Assumptions C83_receive_exact.
Print Assumptions C83_receive_panics.
Print Assumptions C83_two_formats.
Print Assumptions C83_sign_exact.
Print Assumptions C83_sign_verify.
Print Assumptions C83_end_to_end.

(** ** Examples: the private key 1 and the nonce 1 *)
Import Prop_Btcec.
Definition ex_pub : ecpub := {| pk_curve := S256; pk_X := c_Gx S256; pk_Y := c_Gy S256 |}.
Definition ex_H (sch : Z) (m : bytes) : bytes := ex_dg.
Notation rsm := (ref_sm kS256). Notation rsbm := (ref_sbm kS256). Notation radd := (ref_add kS256).
Notation ex_Sign c := (BtcecWhole.Sign c rsm rsbm radd (fun _ _ => 1) (fun _ => []) (fun _ b => b) ex_H (fun _ _ => []) (fun _ _ _ => Val (Err ""%string))).
Notation ex_receive c := (BtcecWhole.receive c rsm rsbm radd ex_H (fun _ _ _ => false) (fun _ _ _ => false)).
Definition ex_sig5 : signature := {| sg_Scheme := 5; sg_Value := VBytes ex_sig |}.
Lemma ex_sign5 : forall c rn opt, ex_Sign c rn 5 (SkEC 0 1 ex_pub) [104; 105] opt = Val (Ok ex_sig5).
Proof.
  intros c rn opt. rewrite sign_k1 by (reflexivity || lia). pose proof (C82_example_sign c) as S. unfold Btcec.Secp256k1Sign in S. cbn [fst snd] in S.
  unfold k1_sign, ex_H. change (pk_X ex_pub) with (c_Gx S256). change (pk_Y ex_pub) with (c_Gy S256). change (kc kS256) with S256 in S. rewrite S. reflexivity.
Qed.
Example C83_example : forall c, exists data e buf,
  DeserializePrivateKey rsbm [] data = Val (Ok (Some (SkEC 0 1 ex_pub))) /\ SerializePublicKey (PkEC 0 ex_pub) = Val e /\ Serialize (Some ex_sig5) = Val (Ok buf) /\
  forall rng, exists pub, DeserializePublicKey rng e = Val (Ok pub) /\ ex_receive c pub [104; 105] buf = Val true.
Proof.
  intros c. assert (NO : forall (D : Z) (dg : bytes), 1 <= 1 < c_N S256) by (intros; split; [lia|reflexivity]).
  assert (VP : valid_priv rsbm (SkEC 0 1 ex_pub)).
  { apply (vs_ec rsbm 0 S256 0 32 (to_be 32 1)); [left; reflexivity|constructor|split; [reflexivity|split; [discriminate|reflexivity]]|
      split; reflexivity|apply (encodes_to_be 32); split; [discriminate|reflexivity]| |].
    - rewrite (ref_sbm_ok kS256) by apply to_be_wf. rewrite value_be2z, (be2z_to_be_small 32 1) by (split; [discriminate|reflexivity]). rewrite gmul_1. exact s256_G_coords.
    - split; [split; [discriminate|reflexivity]|]. split; [split; [discriminate|reflexivity]|reflexivity]. }
  destruct (C19_private_key_round_trip rsbm (SkEC 0 1 ex_pub) [] VP) as (data & Sd & Dd); [intros C; discriminate C|].
  assert (Od : octets data).
  { assert (Q : SerializePrivateKey (SkEC 0 1 ex_pub) = Val (18 :: 5 :: to_be 32 1 ++ 2 :: to_be 32 (c_Gx S256))) by (vm_compute; reflexivity).
    assert (data = 18 :: 5 :: to_be 32 1 ++ 2 :: to_be 32 (c_Gx S256)) as -> by congruence.
    constructor; [lia|]. constructor; [lia|]. apply Forall_app. split; [apply to_be_wf|]. constructor; [lia|apply to_be_wf]. }
  destruct (C83_end_to_end c rsm rsbm radd (ref_sm_ok kS256) (ref_sbm_ok kS256) (ref_add_ok kS256) ex_H (fun _ _ => ex_dg_octets) (fun _ _ _ => false) (fun _ _ _ => false)
    (fun _ _ => 1) NO (fun _ => []) (fun _ b => b) (fun _ _ => []) (fun _ _ _ => Val (Err ""%string)) [] data 0 1 ex_pub 5 (1%nat, Ok []) [104; 105] OptOther ex_sig5 Dd Od eq_refl
    (conj eq_refl eq_refl) ltac:(discriminate) (ex_sign5 c _ _)) as (e & buf & Se & Sb & _ & _ & R).
  exists data, e, buf. split; [exact Dd|]. split; [exact Se|]. split; [exact Sb|exact R].
Qed.
(** the same numbers without the header byte *)
Example C83_example_formats : forall c, ex_receive c (PkEC 0 ex_pub) [104; 105] (to_be 32 (c_Gx S256) ++ to_be 32 (c_Gx S256 + value ex_dg 0)) = Val true.
Proof.
  intros c. destruct (encodes32 (c_Gx S256)) as (L1 & O1 & V1); [split; [discriminate|reflexivity]|].
  destruct (encodes32 (c_Gx S256 + value ex_dg 0)) as (L2 & O2 & V2); [split; [discriminate|reflexivity]|].
  destruct (C83_two_formats c rsm rsbm radd (ref_sm_ok kS256) (ref_sbm_ok kS256) (ref_add_ok kS256) ex_H (fun _ _ => ex_dg_octets) (fun _ _ _ => false) (fun _ _ _ => false)
    (eG (e := kE kS256)) 0 ex_pub [104; 105] 1 (to_be 32 (c_Gx S256)) (to_be 32 (c_Gx S256 + value ex_dg 0)) eq_refl s256_G_coords (k_G_nz kS256) ltac:(lia)
    ltac:(lia) ltac:(lia) O1 O2) as (A & _ & B).
  - rewrite V1. split; [discriminate|reflexivity].
  - rewrite V2. split; [discriminate|reflexivity].
  - apply B, A. exists 27. split; [lia|].
    apply (C83_receive_exact c rsm rsbm radd (ref_sm_ok kS256) (ref_sbm_ok kS256) (ref_add_ok kS256) ex_H (fun _ _ => ex_dg_octets) (fun _ _ _ => false) (fun _ _ _ => false)
      (eG (e := kE kS256)) 0 ex_pub [104; 105] (1 :: ex_sig) eq_refl s256_G_coords (k_G_nz kS256)).
    + constructor; [lia|exact ex_sig_octets].
    + split; [discriminate|]. apply (kb_compact c ex_H _ _ 1 ex_sig 27 0 (c_Gx S256) (c_Gx S256 + value ex_dg 0)); [lia|exact ex_compact|split; [lia|left; reflexivity]| |exact ex_recovers].
      unfold in_range. destruct c; [repeat split; discriminate || reflexivity|vm_compute; discriminate].
Qed.
(** the version of btcec without the tests: 66 bytes on which the verifier of a P-256 key panics *)
Example C83_example_panic : exists why, ex_receive false (PkEC 0 {| pk_curve := P256; pk_X := c_Gx P256; pk_Y := c_Gy P256 |}) [104; 105] (1 :: ex_bad) = Panic why.
Proof.
  apply (C83_receive_panics false rsm rsbm radd (ref_sm_ok kS256) (ref_sbm_ok kS256) (ref_add_ok kS256) ex_H (fun _ _ => ex_dg_octets)).
  - constructor; [lia|]. unfold ex_bad. constructor; [lia|]. apply Forall_app. split; apply to_be_wf.
  - split; [reflexivity|]. split; [discriminate|].
    destruct (named_make kS256 (27 - 27) (c_N S256) ex_y) as (R & NR); [split; [discriminate|reflexivity]|split; [discriminate|reflexivity]|reflexivity|vm_compute; reflexivity|].
    exists 1, ex_bad, 27, (27 - 27), (c_N S256), 1, R. split; [reflexivity|]. split; [lia|]. split; [|split; [split; [lia|left; reflexivity]|split; [vm_compute; reflexivity|exact NR]]].
    exists (to_be 32 (c_N S256)), (to_be 32 1). split; [reflexivity|]. split; apply encodes32; split; discriminate || reflexivity.
Qed.
