(** * Prop_Keys: C15-C24, keys of package keypair *)
From Coq Require Import ZArith String List Bool Lia Permutation Sorted Znumtheory.
From Verif Require Import Base BaseFacts NumTheory Curves ECKey Spec_EC ECFacts ECFacts2 Prop_EC Keypair Spec_Keys KeyFacts.
Import ListNotations.
Open Scope Z_scope.

Lemma val_inj : forall A (a b : A), Val a = Val b -> a = b.
Proof. congruence. Qed.
Lemma cons_inj : forall (a b : Z) l m, a :: l = b :: m -> a = b /\ l = m.
Proof. intros; split; congruence. Qed.

(** what SerializePublicKey produces for a valid key *)
Lemma serialize_valid : forall k, valid_pub k ->
  (exists alg c a x y n e l, k = PkEC alg {| pk_curve := c; pk_X := x; pk_Y := y |} /\
     (alg = 0 \/ alg = 1) /\ supported c a /\ affine_point c a x y /\ field_bytes c n /\ label_of c l /\
     sec1_compressed n x y e /\ zlen e = n + 1 /\
     SerializePublicKey k = Val (if (alg =? 0) && (l =? 2) then e else (18 + alg) :: l :: e)) \/
  (exists b, k = PkEd b /\ length b = 32%nat /\ octets b /\ SerializePublicKey k = Val (20 :: 25 :: b)) \/
  (exists x y, k = PkEth {| pk_curve := EthS256; pk_X := x; pk_Y := y |} /\ affine_point S256 0 x y /\
     SerializePublicKey k = Val (21 :: 4 :: to_be 32 x ++ to_be 32 y)).
Proof.
  intros k H. destruct H as [alg c a x y Ha Hs Hp|b Hl Hb|x y Hp].
  - left. destruct (field_bytes_ex c a Hs) as (n & Hn & Hbs & _).
    destruct (enc_valid c a x y n Hs Hp Hn) as (e & E & S & Z).
    destruct (supported_label c a Hs) as [l Hl].
    exists alg, c, a, x, y, n, e, l. repeat (split; [auto|]).
    cbn [SerializePublicKey]. cbn [pk_curve].
    destruct (GetCurve_label c l Hl) as [_ ->]. rewrite E. cbn [bind].
    change ECDSA with 0. change SM2 with 1. change PK_ECDSA with 18. change PK_SM2 with 19.
    destruct (curve_p256_dec c a Hs) as [->|[N NE]].
    + assert (l = 2) by (apply (label_fun P256); auto; vm_compute; intuition). subst l.
      destruct Ha as [-> | ->]; reflexivity.
    + assert (l <> 2). { intros ->. apply N. apply (label_inj c P256 2); auto. vm_compute; intuition. }
      rewrite NE. destruct (Z.eqb_spec l 2); [contradiction|]. rewrite !andb_false_r.
      destruct Ha as [-> | ->]; reflexivity.
  - right; left. exists b. auto.
  - right; right. exists x, y. split; [reflexivity|]. split; [exact Hp|].
    destruct Hp as (Hx & Hy & _). cbn [SerializePublicKey eth_FromECDSAPub]. unfold eth_FromECDSAPub. cbn [pk_X pk_Y].
    assert (c_P S256 < 256 ^ 32) by reflexivity.
    destruct (Z.ltb_spec x (256 ^ 32)); [|lia]. destruct (Z.ltb_spec y (256 ^ 32)); [|lia]. reflexivity.
Qed.

(** C15.  Round trip. *)
Theorem C15_public_key_round_trip : forall k rng, valid_pub k -> pub_decompressible k rng ->
  exists e, SerializePublicKey k = Val e /\ DeserializePublicKey rng e = Val (Ok k).
Proof.
  intros k rng Hk Hd. destruct (serialize_valid k Hk) as [H|[H|H]].
  - destruct H as (alg & c & a & x & y & n & e & l & -> & Ha & Hs & Hp & Hn & Hl & S & Z & E).
    eexists. split; [exact E|]. cbn [pub_decompressible pk_curve pk_Y] in Hd.
    destruct (field_bytes_ex c a Hs) as (n' & Hn' & Hbs & Hn20).
    assert (n' = n).
    { destruct (supported_size c a Hs) as (L & HL & HL0 & HLp & HLm).
      rewrite (size_unique c n' L), (size_unique c n L); auto. }
    subst n'.
    pose proof (dec_valid c a x y n e [] rng Hs Hp Hn Hd S) as D. rewrite app_nil_r in D.
    destruct ((alg =? 0) && (l =? 2)) eqn:G.
    + apply andb_true_iff in G as [G1 G2]. apply Z.eqb_eq in G1, G2. subst.
      assert (c = P256) by (apply (label_inj c P256 2); auto; vm_compute; intuition). subst c.
      destruct S as (xb & Hxb & ->). unfold DeserializePublicKey.
      destruct (Z.leb_spec (zlen ((if Z.even y then 2 else 3) :: xb)) 3); [lia|].
      rewrite index_cons0. cbn [bind]. rewrite D. cbn [bind].
      destruct (Z.even y); reflexivity.
    + unfold DeserializePublicKey.
      destruct (Z.leb_spec (zlen (18 + alg :: l :: e)) 3) as [Q|Q].
      { unfold zlen in Q, Z. cbn [length] in Q. lia. }
      rewrite index_cons0, index_cons1, slice_tail2. cbn [bind].
      destruct (GetCurve_label c l Hl) as [-> _]. rewrite D. cbn [bind].
      destruct Ha as [-> | ->]; reflexivity.
  - destruct H as (b & -> & Hl & Hb & E). eexists. split; [exact E|].
    unfold DeserializePublicKey.
    destruct (Z.leb_spec (zlen (20 :: 25 :: b)) 3) as [Q|Q]. { unfold zlen in Q; cbn [length] in Q; lia. }
    rewrite index_cons0, index_cons1, slice_tail2. cbn [bind].
    cbn -[zlen]. unfold zlen. rewrite Hl. reflexivity.
  - destruct H as (x & y & -> & Hp & E). eexists. split; [exact E|].
    unfold DeserializePublicKey. destruct Hp as (Hx & Hy & Hc).
    remember (to_be 32 x ++ to_be 32 y) as b eqn:Eb.
    assert (Hb : length b = 64%nat) by (rewrite Eb, app_length, !to_be_length; reflexivity).
    destruct (Z.leb_spec (zlen (21 :: 4 :: b)) 3) as [Q|Q]. { unfold zlen in Q; cbn [length] in Q; lia. }
    rewrite index_cons0, slice_tail1. cbn [bind]. cbn -[zlen eth_UnmarshalPubkey].
    unfold eth_UnmarshalPubkey.
    assert (Z65 : zlen (4 :: b) = 65) by (unfold zlen; cbn [length]; lia). rewrite Z65.
    cbn [negb Z.eqb Pos.eqb]. rewrite index_cons0. cbn [bind negb Z.eqb Pos.eqb].
    rewrite Eb, <- (app_nil_r (to_be 32 y)). rewrite (slice_1 4 (to_be 32 x) (to_be 32 y ++ []) 32 : _ -> slice _ 1 33 = _) by reflexivity. cbn [bind].
    rewrite (slice_2 4 (to_be 32 x) (to_be 32 y) [] 32 : _ -> _ -> slice _ 33 65 = _) by reflexivity. cbn [bind].
    assert (c_P S256 < 256 ^ Z.of_nat 32) by reflexivity.
    rewrite !be2z_to_be_small by lia.
    destruct (Z.ltb_spec x (c_P S256)); [|lia]. destruct (Z.ltb_spec y (c_P S256)); [|lia].
    assert (OC : on_curve_k1 x y = true).
    { unfold on_curve_k1. apply Z.eqb_eq. unfold curve_eq in Hc. rewrite Hc. f_equal. cbn [c_B S256]. change (c_B S256) with 7. lia. }
    rewrite OC. reflexivity.
Qed.
Print Assumptions C15_public_key_round_trip.

(** C16.  Injectivity over all valid keys of all types. *)
Theorem C16_public_key_injective : forall k1 k2 e, valid_pub k1 -> valid_pub k2 ->
  SerializePublicKey k1 = Val e -> SerializePublicKey k2 = Val e -> k1 = k2.
Proof.
  assert (P256_tag : forall n x y e, sec1_compressed n x y e -> exists t r, e = t :: r /\ (t = 2 \/ t = 3)).
  { intros n x y e (xb & _ & ->). exists (if Z.even y then 2 else 3), xb. destruct (Z.even y); auto. }
  intros k1 k2 s V1 V2 S1 S2.
  destruct (serialize_valid k1 V1) as [H1|[H1|H1]]; destruct (serialize_valid k2 V2) as [H2|[H2|H2]].
  - destruct H1 as (al1 & c1 & a1 & x1 & y1 & n1 & e1 & l1 & -> & Ha1 & Hs1 & Hp1 & Hn1 & Hl1 & E1 & Z1 & Q1).
    destruct H2 as (al2 & c2 & a2 & x2 & y2 & n2 & e2 & l2 & -> & Ha2 & Hs2 & Hp2 & Hn2 & Hl2 & E2 & Z2 & Q2).
    rewrite S1 in Q1. rewrite S2 in Q2. apply val_inj in Q1. apply val_inj in Q2.
    assert (R : al1 = al2 /\ l1 = l2 /\ e1 = e2).
    { destruct ((al1 =? 0) && (l1 =? 2)) eqn:G1; destruct ((al2 =? 0) && (l2 =? 2)) eqn:G2.
      - apply andb_true_iff in G1 as [A1 B1]. apply andb_true_iff in G2 as [A2 B2].
        apply Z.eqb_eq in A1, A2, B1, B2. repeat split; congruence.
      - destruct (P256_tag _ _ _ _ E1) as (t & r & -> & T). rewrite Q1 in Q2. apply cons_inj in Q2 as [T' _]. lia.
      - destruct (P256_tag _ _ _ _ E2) as (t & r & -> & T). rewrite Q1 in Q2. apply cons_inj in Q2 as [T' _]. lia.
      - rewrite Q1 in Q2. apply cons_inj in Q2 as [A B]. apply cons_inj in B as [B C]. repeat split; congruence || lia. }
    destruct R as (-> & -> & ->).
    assert (c1 = c2) by (eapply label_inj; eauto). subst c2.
    assert (n1 = n2) by lia. subst n2.
    destruct (sec1_inj _ _ _ _ _ _ E1 E2) as [-> Ey].
    assert (a1 = a2) by (destruct Hs1; inversion Hs2; reflexivity). subst a2.
    rewrite (affine_unique c1 a1 x2 y1 y2); auto.
  - destruct H1 as (al1 & c1 & a1 & x1 & y1 & n1 & e1 & l1 & -> & Ha1 & Hs1 & Hp1 & Hn1 & Hl1 & E1 & Z1 & Q1).
    destruct H2 as (b & -> & _ & _ & Q2). rewrite S1 in Q1. rewrite S2 in Q2. apply val_inj in Q1. apply val_inj in Q2.
    exfalso. destruct ((al1 =? 0) && (l1 =? 2)).
    + destruct (P256_tag _ _ _ _ E1) as (t & r & -> & T). rewrite Q1 in Q2. apply cons_inj in Q2 as [T' _]. lia.
    + rewrite Q1 in Q2. apply cons_inj in Q2 as [T' _]. lia.
  - destruct H1 as (al1 & c1 & a1 & x1 & y1 & n1 & e1 & l1 & -> & Ha1 & Hs1 & Hp1 & Hn1 & Hl1 & E1 & Z1 & Q1).
    destruct H2 as (x & y & -> & _ & Q2). rewrite S1 in Q1. rewrite S2 in Q2. apply val_inj in Q1. apply val_inj in Q2.
    exfalso. destruct ((al1 =? 0) && (l1 =? 2)).
    + destruct (P256_tag _ _ _ _ E1) as (t & r & -> & T). rewrite Q1 in Q2. apply cons_inj in Q2 as [T' _]. lia.
    + rewrite Q1 in Q2. apply cons_inj in Q2 as [T' _]. lia.
  - destruct H2 as (al1 & c1 & a1 & x1 & y1 & n1 & e1 & l1 & -> & Ha1 & Hs1 & Hp1 & Hn1 & Hl1 & E1 & Z1 & Q1).
    destruct H1 as (b & -> & _ & _ & Q2). rewrite S2 in Q1. rewrite S1 in Q2. apply val_inj in Q1. apply val_inj in Q2.
    exfalso. destruct ((al1 =? 0) && (l1 =? 2)).
    + destruct (P256_tag _ _ _ _ E1) as (t & r & -> & T). rewrite Q1 in Q2. apply cons_inj in Q2 as [T' _]. lia.
    + rewrite Q1 in Q2. apply cons_inj in Q2 as [T' _]. lia.
  - destruct H1 as (b1 & -> & _ & _ & Q1). destruct H2 as (b2 & -> & _ & _ & Q2). congruence.
  - destruct H1 as (b1 & -> & _ & _ & Q1). destruct H2 as (x & y & -> & _ & Q2). congruence.
  - destruct H2 as (al1 & c1 & a1 & x1 & y1 & n1 & e1 & l1 & -> & Ha1 & Hs1 & Hp1 & Hn1 & Hl1 & E1 & Z1 & Q1).
    destruct H1 as (x & y & -> & _ & Q2). rewrite S2 in Q1. rewrite S1 in Q2. apply val_inj in Q1. apply val_inj in Q2.
    exfalso. destruct ((al1 =? 0) && (l1 =? 2)).
    + destruct (P256_tag _ _ _ _ E1) as (t & r & -> & T). rewrite Q1 in Q2. apply cons_inj in Q2 as [T' _]. lia.
    + rewrite Q1 in Q2. apply cons_inj in Q2 as [T' _]. lia.
  - destruct H2 as (b1 & -> & _ & _ & Q1). destruct H1 as (x & y & -> & _ & Q2). congruence.
  - destruct H1 as (x1 & y1 & -> & (X1 & Y1 & _) & Q1). destruct H2 as (x2 & y2 & -> & (X2 & Y2 & _) & Q2).
    rewrite S1 in Q1. rewrite S2 in Q2. rewrite Q1 in Q2. apply val_inj, cons_inj in Q2 as [_ Q2]. apply cons_inj in Q2 as [_ Q2].
    assert (c_P S256 < 256 ^ Z.of_nat 32) by reflexivity.
    assert (A : to_be 32 x1 = to_be 32 x2 /\ to_be 32 y1 = to_be 32 y2).
    { assert (F := f_equal (firstn 32) Q2). assert (G := f_equal (skipn 32) Q2).
      rewrite !firstn_app_l in F by (rewrite to_be_length; reflexivity).
      rewrite !skipn_app_l in G by (rewrite to_be_length; reflexivity). auto. }
    destruct A as [A B]. apply (f_equal be2z) in A, B. rewrite !be2z_to_be_small in A, B by lia. congruence.
Qed.
Print Assumptions C16_public_key_injective.

(** C17.  Every input gives a key or an error - never a panic; only P-224 can still be
    searching when the supply of random numbers of the model ends. *)
Theorem C17_deserialize_total : forall rng data,
  (exists k, DeserializePublicKey rng data = Val (Ok k)) \/
  (exists msg, DeserializePublicKey rng data = Val (Err msg)) \/
  (DeserializePublicKey rng data = OutOfFuel /\ exists t rest, data = t :: 1 :: rest /\ (t = 18 \/ t = 19)).
Proof.
  intros rng data. unfold DeserializePublicKey.
  destruct (Z.leb_spec (zlen data) 3) as [|Hl]; [right; left; eexists; reflexivity|].
  destruct data as [|t [|l rest]]; try (unfold zlen in Hl; cbn [length] in Hl; lia).
  rewrite index_cons0, index_cons1, slice_tail2, slice_tail1. cbn [bind].
  destruct ((t =? PK_ECDSA) || (t =? PK_SM2)) eqn:T.
  - destruct (GetCurve l) as [c|m] eqn:G; [|right; left; eexists; reflexivity].
    apply GetCurve_inv in G. destruct (label_supported c l G) as [a Hs].
    destruct (decode_total rng c a rest Hs) as [[r ->]|[-> ->]]; cbn [bind].
    + destruct r; [left|right; left]; eexists; reflexivity.
    + right; right. split; [reflexivity|]. exists t, rest. split.
      * f_equal. f_equal. apply (label_fun P224); auto. vm_compute; intuition.
      * unfold PK_ECDSA, PK_SM2 in T. apply orb_true_iff in T as [T|T]; apply Z.eqb_eq in T; auto.
  - destruct (t =? PK_EDDSA).
    { destruct (l =? L_ED25519); [|right; left; eexists; reflexivity].
      destruct (negb _); [right; left|left]; eexists; reflexivity. }
    destruct ((t =? PK_P256_E) || (t =? PK_P256_O) || (t =? PK_P256_NC)).
    { destruct (decode_total rng P256 (-3) (t :: l :: rest) sup_P256) as [[r ->]|[_ E]]; [|discriminate E].
      cbn [bind]. destruct r; [left|right; left]; eexists; reflexivity. }
    destruct (t =? PK_ETHECDSA); [|right; left; eexists; reflexivity].
    unfold eth_UnmarshalPubkey. destruct (Z.eqb_spec (zlen (l :: rest)) 65) as [E65|]; cbn [negb bind]; [|right; left; eexists; reflexivity].
    rewrite index_cons0. cbn [bind]. destruct (negb _); cbn [bind]; [right; left; eexists; reflexivity|].
    rewrite !slice_ok by lia. cbn [bind]. destruct (_ && _); cbn [bind]; [left|right; left]; eexists; reflexivity.
Qed.
Print Assumptions C17_deserialize_total.

(** C18.  Encodings are unique for Ed25519 and Ethereum labels, and not unique for EC labels. *)
Theorem C18_eddsa_ethereum_unique : forall rng data k t, octets data ->
  DeserializePublicKey rng data = Val (Ok k) -> nth_error data 0 = Some t -> t = 20 \/ t = 21 ->
  SerializePublicKey k = Val data.
Proof.
  intros rng data k t Hw H Ht Tt. unfold DeserializePublicKey in H.
  destruct (Z.leb_spec (zlen data) 3) as [|Hl]; [discriminate|].
  destruct data as [|t' [|l rest]]; try (unfold zlen in Hl; cbn [length] in Hl; lia).
  cbn in Ht. injection Ht as ->.
  rewrite index_cons0, index_cons1, slice_tail2, slice_tail1 in H. cbn [bind] in H.
  destruct Tt as [-> | ->].
  - cbn -[zlen] in H. destruct (Z.eqb_spec l L_ED25519) as [->|]; [|discriminate].
    destruct (negb _); [discriminate|]. injection H as <-. reflexivity.
  - cbn -[zlen eth_UnmarshalPubkey] in H. unfold eth_UnmarshalPubkey in H.
    destruct (Z.eqb_spec (zlen (l :: rest)) 65) as [E65|]; cbn [negb bind] in H; [|discriminate].
    rewrite index_cons0 in H. cbn [bind] in H. destruct (Z.eqb_spec l 4) as [->|]; cbn [negb bind] in H; [|discriminate].
    set (xb := firstn 32 rest). set (yb := skipn 32 rest).
    assert (Hr : length rest = 64%nat) by (unfold zlen in E65; cbn [length] in E65; lia).
    assert (Hx : length xb = 32%nat) by (unfold xb; rewrite firstn_length; lia).
    assert (Hy : length yb = 32%nat) by (unfold yb; rewrite skipn_length; lia).
    assert (Er : rest = xb ++ yb ++ []) by (unfold xb, yb; rewrite app_nil_r, firstn_skipn; reflexivity).
    rewrite Er in H.
    rewrite (slice_1 4 xb (yb ++ []) 32 : _ -> slice _ 1 33 = _) in H by (unfold zlen; rewrite Hx; reflexivity). cbn [bind] in H.
    rewrite (slice_2 4 xb yb [] 32 : _ -> _ -> slice _ 33 65 = _) in H by (unfold zlen; rewrite ?Hx, ?Hy; reflexivity). cbn [bind] in H.
    destruct (_ && _) eqn:G; [|discriminate]. cbn [bind] in H. injection H as <-.
    rewrite !andb_true_iff, !Z.ltb_lt in G. destruct G as [[G1 G2] _].
    assert (W : wf_bytes xb /\ wf_bytes yb).
    { assert (Hw2 : wf_bytes rest).
      { apply Forall_inv_tail in Hw. apply Forall_inv_tail in Hw. exact Hw. }
      rewrite Er, app_nil_r in Hw2. apply Forall_app in Hw2. exact Hw2. }
    destruct W as [W1 W2].
    cbn [SerializePublicKey]. unfold eth_FromECDSAPub. cbn [pk_X pk_Y].
    assert (c_P S256 < 256 ^ 32) by reflexivity.
    destruct (Z.ltb_spec (be2z xb) (256 ^ 32)); [|lia]. destruct (Z.ltb_spec (be2z yb) (256 ^ 32)); [|lia].
    cbn [andb bind]. f_equal. f_equal. f_equal.
    transitivity (xb ++ yb); [|rewrite Er, app_nil_r; reflexivity].
    f_equal.
    + rewrite <- Hx. apply to_be_be2z; exact W1.
    + rewrite <- Hy. apply to_be_be2z; exact W2.
Qed.
Print Assumptions C18_eddsa_ethereum_unique.

(** For every EC key (any of the six curves): appended bytes give further encodings of the
    same key; on P-256 the tagged form is another one. *)
Theorem C18_ec_not_unique : forall alg c a x y e rest rng,
  alg = 0 \/ alg = 1 -> supported c a -> affine_point c a x y -> decompressible c y rng ->
  let k := PkEC alg {| pk_curve := c; pk_X := x; pk_Y := y |} in
  SerializePublicKey k = Val e ->
  DeserializePublicKey rng (e ++ rest) = Val (Ok k) /\
  (alg = 0 -> c = P256 -> DeserializePublicKey rng (18 :: 2 :: e) = Val (Ok k)).
Proof.
  intros alg c a x y e rest rng Ha Hs Hp Hd k Hk.
  destruct (serialize_valid k (vp_ec alg c a x y Ha Hs Hp)) as [H|[H|H]].
  2:{ destruct H as (b & E & _). discriminate E. }
  2:{ destruct H as (x1 & y1 & E & _). discriminate E. }
  destruct H as (al1 & c1 & a1 & x1 & y1 & n & e1 & l & Ek & _ & Hs1 & Hp1 & Hn & Hl & S & Z & Q).
  injection Ek as <- <- <- <-. rewrite Hk in Q. apply val_inj in Q. subst e.
  destruct (field_bytes_ex c a Hs) as (n' & Hn' & _ & Hn20).
  assert (n' = n).
  { destruct (supported_size c a Hs) as (L & HL & HL0 & HLp & HLm).
    rewrite (size_unique c n' L), (size_unique c n L); auto. }
  subst n'.
  assert (DEC : forall r, DecodePublicKey rng (e1 ++ r) c = Val (Ok {| pk_curve := c; pk_X := x; pk_Y := y |})).
  { intros r. eapply dec_valid; eauto. }
  assert (TAG : forall al r, (al = 0 \/ al = 1) -> DeserializePublicKey rng ((18 + al :: l :: e1) ++ r) =
      Val (Ok (PkEC al {| pk_curve := c; pk_X := x; pk_Y := y |}))).
  { intros al r Hal. unfold DeserializePublicKey. cbn [app].
    destruct (Z.leb_spec (zlen (18 + al :: l :: e1 ++ r)) 3) as [B|B].
    { unfold zlen in B, Z. cbn [length] in B. rewrite app_length in B. lia. }
    rewrite index_cons0, index_cons1, slice_tail2. cbn [bind].
    destruct (GetCurve_label c l Hl) as [-> _]. rewrite DEC. cbn [bind].
    destruct Hal as [-> | ->]; reflexivity. }
  split.
  - destruct ((alg =? 0) && (l =? 2)) eqn:G; [|apply TAG; exact Ha].
    apply andb_true_iff in G as [G1 G2]. apply Z.eqb_eq in G1, G2. subst.
    assert (c = P256) by (apply (label_inj c P256 2); auto; vm_compute; intuition). subst c.
    pose proof (DEC rest) as D. destruct S as (xb & Hxb & ->). unfold DeserializePublicKey. cbn [app] in D |- *.
    destruct (Z.leb_spec (zlen ((if Z.even y then 2 else 3) :: xb ++ rest)) 3) as [B|B].
    { unfold zlen in B, Z. cbn [length] in B, Z. rewrite app_length in B. lia. }
    rewrite index_cons0. cbn [bind]. rewrite D. cbn [bind]. destruct (Z.even y); reflexivity.
  - intros -> ->. assert (l = 2) by (apply (label_fun P256); auto; vm_compute; intuition). subst l.
    cbn [Z.eqb Pos.eqb andb]. specialize (TAG 0 []). rewrite app_nil_r in TAG. apply TAG. auto.
Qed.
Print Assumptions C18_ec_not_unique.

(** ... and off-curve points are accepted in the uncompressed form, and come back different
    after serialization (which compresses). *)
Theorem C18_uncompressed_accepted : forall rng xb yb,
  length xb = 32%nat -> length yb = 32%nat ->
  DeserializePublicKey rng (4 :: xb ++ yb) =
    Val (Ok (PkEC 0 {| pk_curve := P256; pk_X := value xb 0; pk_Y := value yb 0 |})).
Proof.
  intros rng xb yb Hx Hy. unfold DeserializePublicKey.
  destruct (Z.leb_spec (zlen (4 :: xb ++ yb)) 3) as [B|B].
  { unfold zlen in B. cbn [length] in B. rewrite app_length in B. lia. }
  rewrite index_cons0. cbn [bind].
  rewrite (C13_uncompressed_not_validated rng P256 (-3) xb yb 32 sup_P256);
    [reflexivity| |rewrite Hx; reflexivity|rewrite Hy; reflexivity].
  vm_compute. repeat split; discriminate.
Qed.
Print Assumptions C18_uncompressed_accepted.

(** C19.  Private keys round trip, for any base-point multiplication. *)
Theorem C19_private_key_round_trip : forall sbm k rng, valid_priv sbm k -> priv_decompressible k rng ->
  exists e, SerializePrivateKey k = Val e /\ DeserializePrivateKey sbm rng e = Val (Ok (Some k)).
Proof.
  intros sbm k rng H Hd. destruct H as [alg c a n db d x y Ha Hs Hn Hdr Hdb Hm Hp|b Hl Hb|db d x y Hdr Hdb Hm].
  - destruct (enc_valid c a x y n Hs Hp Hn) as (e & E & S & Z).
    destruct (supported_label c a Hs) as [l Hl]. destruct (GetCurve_label c l Hl) as [GC GL].
    destruct (supported_size c a Hs) as (L & HL & HL0 & HLp & HLm).
    assert (En : n = Z.of_nat L) by (apply (size_unique c); assumption). subst n.
    assert (Edb : padded_big_bytes d (Z.of_nat L) = db).
    { pose proof (encodes_fun _ _ _ Hdb) as F. rewrite Nat2Z.id in F.
      assert (Hr : 0 <= d < 256 ^ Z.of_nat L).
      { destruct (encodes_inv _ _ _ Hdb) as (A & B & C). pose proof (be2z_bound db B). rewrite A in H. lia. }
      unfold padded_big_bytes, zeros. rewrite <- (pad_big_bytes d L Hr) in F. rewrite F. f_equal. f_equal.
      unfold zlen. lia. }
    exists (18 + alg :: l :: db ++ e). split.
    + cbn [SerializePrivateKey pk_curve]. rewrite GL, E. cbn [bind]. rewrite HL, Edb. destruct Ha as [-> | ->]; reflexivity.
    + destruct (encodes_inv _ _ _ Hdb) as (A & B & C).
      unfold DeserializePrivateKey. rewrite index_cons0, index_cons1. cbn [bind]. rewrite GC, HL.
      set (data := 18 + alg :: l :: db ++ e).
      assert (Zd : zlen data = 2 + Z.of_nat L + (Z.of_nat L + 1)).
      { unfold data, zlen in *. cbn [length]. rewrite app_length. lia. }
      rewrite Zd. destruct (Z.ltb_spec (2 + Z.of_nat L + (Z.of_nat L + 1)) (Z.of_nat L * 2 + 3)); [lia|].
      assert (S1 : slice data 2 (2 + Z.of_nat L) = Val db).
      { apply (slice_app3 _ [18 + alg; l] db e); [reflexivity|]. rewrite A. reflexivity. }
      assert (S2 : slice data (2 + Z.of_nat L) (2 + Z.of_nat L + (Z.of_nat L + 1)) = Val e).
      { rewrite <- Zd. apply (slice_tail _ (18 + alg :: l :: db) e). unfold zlen in *. cbn [length]. lia. }
      rewrite S1. cbn [bind]. unfold ConstructPrivateKey. rewrite Hm, C.
      rewrite S2. cbn [bind].
      rewrite <- (app_nil_r e). rewrite (dec_valid c a x y (Z.of_nat L) e [] rng Hs Hp Hn Hd S). cbn [bind pk_X pk_Y].
      rewrite !Z.eqb_refl. destruct Ha as [-> | ->]; reflexivity.
  - exists (20 :: 25 :: b). split; [reflexivity|].
    unfold DeserializePrivateKey. rewrite index_cons0, index_cons1, slice_tail2. cbn [bind].
    assert (zlen (20 :: 25 :: b) = 66) as -> by (unfold zlen; cbn [length]; lia). reflexivity.
  - assert (Hr : 0 <= d < 256 ^ Z.of_nat 32).
    { assert (c_N S256 < 256 ^ Z.of_nat 32) by reflexivity. lia. }
    pose proof (encodes_fun _ _ _ Hdb) as F. change (Z.to_nat 32) with 32%nat in F.
    destruct (encodes_inv _ _ _ Hdb) as (A & B & C).
    assert (Edb : eth_FromECDSA d {| pk_curve := EthS256; pk_X := x; pk_Y := y |} = db).
    { unfold eth_FromECDSA, padded_big_bytes, zeros. cbn [pk_curve EthS256 c_bits]. change (256 / 8) with 32.
      rewrite F. rewrite <- (pad_big_bytes d 32 Hr). f_equal. f_equal. unfold zlen. lia. }
    exists (21 :: db). split.
    + cbn [SerializePrivateKey]. rewrite Edb. reflexivity.
    + unfold DeserializePrivateKey. rewrite index_cons0, slice_tail1. cbn [bind].
      cbn -[eth_ToECDSA]. unfold eth_ToECDSA. rewrite A, C, Hm. cbn [negb Z.eqb Pos.eqb].
      destruct (Z.geb_spec d (c_N S256)); [lia|]. destruct (Z.leb_spec d 0); [lia|]. reflexivity.
Qed.
Print Assumptions C19_private_key_round_trip.

(** C20.  Only matching key pairs come out. *)
Theorem C20_private_key_matches : forall sbm rng data alg d p,
  DeserializePrivateKey sbm rng data = Val (Ok (Some (SkEC alg d p))) ->
  exists t l c a n db eb,
    data = t :: l :: db ++ eb /\ (t = 18 /\ alg = 0 \/ t = 19 /\ alg = 1) /\
    label_of c l /\ supported c a /\ field_bytes c n /\ Z.of_nat (length db) = n /\
    d = value db 0 /\ sbm c db = (pk_X p, pk_Y p) /\ pk_curve p = c /\
    DecodePublicKey rng eb c = Val (Ok p).
Proof.
  intros sbm rng data alg d p H. unfold DeserializePrivateKey in H.
  destruct data as [|t data]; [discriminate|]. rewrite index_cons0 in H. cbn [bind] in H.
  destruct ((t =? PK_ECDSA) || (t =? PK_SM2)) eqn:T.
  - destruct data as [|l data]; [discriminate|]. rewrite index_cons1 in H. cbn [bind] in H.
    destruct (GetCurve l) as [c|] eqn:G; [|discriminate].
    apply GetCurve_inv in G. destruct (label_supported c l G) as [a Hs].
    destruct (supported_size c a Hs) as (L & HL & HL0 & HLp & HLm). rewrite HL in H.
    destruct (Z.ltb_spec (zlen (t :: l :: data)) (Z.of_nat L * 2 + 3)) as [|Hlen]; [discriminate|].
    set (db := firstn L data). set (eb := skipn L data).
    assert (Ed : data = db ++ eb) by (unfold db, eb; rewrite firstn_skipn; reflexivity).
    assert (Hdb : zlen db = Z.of_nat L).
    { unfold db, zlen in *. cbn [length] in Hlen. rewrite firstn_length. lia. }
    rewrite Ed in H.
    assert (S1 : slice (t :: l :: db ++ eb) 2 (2 + Z.of_nat L) = Val db).
    { apply (slice_app3 _ [t; l] db eb); [reflexivity|]. rewrite Hdb. reflexivity. }
    assert (S2 : slice (t :: l :: db ++ eb) (2 + Z.of_nat L) (zlen (t :: l :: db ++ eb)) = Val eb).
    { apply (slice_tail _ (t :: l :: db) eb). unfold zlen in *. cbn [length]. lia. }
    rewrite S1 in H. cbn [bind] in H. unfold ConstructPrivateKey in H.
    destruct (sbm c db) as [x y] eqn:M. rewrite S2 in H. cbn [bind] in H.
    destruct (DecodePublicKey rng eb c) as [[q|m]| |] eqn:D; try discriminate. cbn [bind pk_X pk_Y] in H.
    destruct (Z.eqb_spec x (pk_X q)) as [Ex|]; [|discriminate].
    destruct (Z.eqb_spec y (pk_Y q)) as [Ey|]; [|discriminate]. cbn [negb orb] in H.
    injection H as Ha Hd Hp. subst d p. cbn [pk_X pk_Y pk_curve].
    assert (Cq : pk_curve q = c).
    { clear - D. unfold DecodePublicKey in D. destruct (_ <? _); [discriminate|].
      destruct (slice eb 1 _) as [xb| |]; try discriminate. cbn [bind] in D.
      destruct (index eb 0) as [d0| |]; try discriminate. cbn [bind] in D.
      destruct (d0 =? 4).
      - destruct (_ <? _); [discriminate|]. destruct (slice eb _ _) as [yb| |]; try discriminate. cbn [bind] in D.
        injection D as <-. reflexivity.
      - destruct (_ || _); [|discriminate]. unfold deCompress in D.
        destruct (curveSqrt _ _ _) as [[w|]| |]; try discriminate. cbn [bind] in D. injection D as <-. reflexivity. }
    assert (Eq : q = {| pk_curve := c; pk_X := x; pk_Y := y |}) by (destruct q; cbn in *; congruence).
    subst q. exists t, l, c, a, (Z.of_nat L), db, eb.
    repeat split; auto; try lia.
    + congruence.
    + unfold PK_ECDSA, PK_SM2 in *. destruct (Z.eqb_spec t 18) as [->|N]; cbn in *.
      * left; split; auto.
      * right. apply Z.eqb_eq in T. split; auto.
  - destruct (t =? PK_EDDSA).
    + destruct data as [|l data]; [discriminate|]. rewrite index_cons1 in H. cbn [bind] in H.
      destruct (l =? L_ED25519); [|discriminate]. destruct (_ <? _); [discriminate|].
      destruct (slice _ _ _); discriminate.
    + destruct (t =? PK_ETHECDSA); [|discriminate].
      rewrite slice_tail1 in H. cbn [bind] in H. unfold eth_ToECDSA in H.
      destruct (negb _); [discriminate|]. destruct (_ >=? _); [discriminate|]. destruct (_ <=? _); [discriminate|].
      destruct (sbm EthS256 data) as [x y]. discriminate.
Qed.
Print Assumptions C20_private_key_matches.

(** C21.  Exactly which inputs panic and which give (nil, nil). *)
Theorem C21_private_key_failure_modes : forall sbm rng data,
  ((exists why, DeserializePrivateKey sbm rng data = Panic why) <->
     data = [] \/ exists t, data = [t] /\ (t = 18 \/ t = 19 \/ t = 20)) /\
  (DeserializePrivateKey sbm rng data = Val (Ok None) <->
     exists t rest, data = t :: rest /\ t <> 18 /\ t <> 19 /\ t <> 20 /\ t <> 21) /\
  (DeserializePrivateKey sbm rng data = OutOfFuel -> exists t rest, data = t :: 1 :: rest /\ (t = 18 \/ t = 19)).
Proof.
  intros sbm rng data.
  destruct data as [|t data].
  { cbn. split; [split; [auto|intros _; eexists; reflexivity]|].
    split; [split; [discriminate|intros (t & r & E & _); discriminate]|discriminate]. }
  unfold DeserializePrivateKey. rewrite index_cons0, slice_tail1. cbn [bind].
  unfold PK_ECDSA, PK_SM2, PK_EDDSA, PK_ETHECDSA.
  destruct ((t =? 18) || (t =? 19)) eqn:T.
  - assert (T' : t = 18 \/ t = 19) by (apply orb_true_iff in T as [T|T]; apply Z.eqb_eq in T; auto).
    destruct data as [|l data].
    { cbn. split; [split; [intros _; right; exists t; split; [reflexivity|tauto]|intros _; eexists; reflexivity]|].
      split; [split; [discriminate|intros (t0 & r & E & N); injection E as <- <-; lia]|discriminate]. }
    rewrite index_cons1. cbn [bind].
    assert (NP : forall (P : Prop), ~ ((t :: l :: data = [] \/ exists t0, t :: l :: data = [t0] /\ P))) by (intros P [A|(t0 & A & _)]; discriminate).
    assert (NN : ~ (exists t0 rest, t :: l :: data = t0 :: rest /\ t0 <> 18 /\ t0 <> 19 /\ t0 <> 20 /\ t0 <> 21))
      by (intros (t0 & r & E & N); injection E as <- <-; lia).
    assert (KEY : forall X : go (res (option privkey)),
      (exists r, X = Val r /\ r <> Ok None) \/ (X = OutOfFuel /\ l = 1) ->
      ((exists why, X = Panic why) <-> (t :: l :: data = [] \/ exists t0, t :: l :: data = [t0] /\ (t0 = 18 \/ t0 = 19 \/ t0 = 20))) /\
      (X = Val (Ok None) <-> exists t0 rest, t :: l :: data = t0 :: rest /\ t0 <> 18 /\ t0 <> 19 /\ t0 <> 20 /\ t0 <> 21) /\
      (X = OutOfFuel -> exists t0 rest, t :: l :: data = t0 :: 1 :: rest /\ (t0 = 18 \/ t0 = 19))).
    { intros X HX. split; [|split].
      - split; [intros [w ->]; destruct HX as [(r & E & _)|[E _]]; discriminate|].
        intros [A|(t0 & A & _)]; discriminate.
      - split; [intros ->; destruct HX as [(r & E & N)|[E _]]; [congruence|discriminate]|intros A; destruct (NN A)].
      - intros ->. destruct HX as [(r & E & _)|[_ ->]]; [discriminate|]. exists t, data. auto. }
    apply KEY.
    destruct (GetCurve l) as [c|m] eqn:G; [|left; eexists; split; [reflexivity|discriminate]].
    apply GetCurve_inv in G. destruct (label_supported c l G) as [a Hs].
    destruct (supported_size c a Hs) as (L & HL & HL0 & HLp & HLm). rewrite HL.
    destruct (Z.ltb_spec (zlen (t :: l :: data)) (Z.of_nat L * 2 + 3)) as [|Hlen]; [left; eexists; split; [reflexivity|discriminate]|].
    rewrite !slice_ok by lia. cbn [bind]. destruct (ConstructPrivateKey sbm _ c) as [d k].
    match goal with |- context [DecodePublicKey rng ?e c] => destruct (decode_total rng c a e Hs) as [[r ->]|[-> ->]] end; cbn [bind].
    + left. destruct r as [q|m].
      { destruct (negb _ || negb _); eexists; (split; [reflexivity|discriminate]). }
      eexists; (split; [reflexivity|discriminate]).
    + right. split; [reflexivity|]. apply (label_fun P224); auto. vm_compute; intuition.
  - apply orb_false_iff in T as [T1 T2]. apply Z.eqb_neq in T1, T2.
    destruct (Z.eqb_spec t 20) as [->|T3].
    + destruct data as [|l data].
      { cbn. split; [split; [intros _; right; exists 20; split; [reflexivity|tauto]|intros _; eexists; reflexivity]|].
        split; [split; [discriminate|intros (t0 & r & E & N); injection E as <- <-; lia]|discriminate]. }
      rewrite index_cons1, slice_tail2. cbn [bind].
      assert (KEY : exists r, (if l =? L_ED25519 then (if zlen (20 :: l :: data) <? 2 + 64 then
          Val (Err "deserializing private key failed: not enough length for Ed25519 key") else Val (Ok (Some (SkEd data))))
          else Val (Err "deserializing private key failed: unknown EdDSA curve type")) = Val r /\ r <> Ok None).
      { destruct (l =? L_ED25519); [destruct (_ <? _)|]; eexists; split; try reflexivity; discriminate. }
      destruct KEY as (r & -> & N). split; [split; [intros [w E]; discriminate|intros [A|(t0 & A & _)]; discriminate]|].
      split; [split; [congruence|intros (t0 & r0 & E & N0); injection E as <- <-; lia]|discriminate].
    + destruct (Z.eqb_spec t 21) as [->|T4].
      * assert (KEY : exists r, match eth_ToECDSA sbm data with Ok k => Val (Ok (Some k)) | Err e => Val (Err e) end = Val r /\ r <> @Ok (option privkey) None).
        { destruct (eth_ToECDSA sbm data); eexists; split; try reflexivity; discriminate. }
        destruct KEY as (r & -> & N). split; [split; [intros [w E]; discriminate|intros [A|(t0 & A & B)]; [discriminate|injection A as A1 A2; lia]]|].
        split; [split; [congruence|intros (t0 & r0 & E & N0); injection E as <- <-; lia]|discriminate].
      * split; [split; [intros [w E]; discriminate|intros [A|(t0 & A & B)]; [discriminate|injection A as A1 A2; lia]]|].
        split; [split; [intros _; exists t, data; auto|reflexivity]|discriminate].
Qed.
Print Assumptions C21_private_key_failure_modes.
