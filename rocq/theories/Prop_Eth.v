(** * Prop_Eth: property C74, Ethereum keys (/repo/keypair/key.go:123-151, 446-451) *)
From Coq Require Import ZArith String List Bool Lia.
From Verif Require Import Base BaseFacts NumTheory Curves ECKey Spec_EC ECFacts ECFacts2 Prop_EC Keypair Spec_Keys KeyFacts Prop_Keys.
Import ListNotations.
Open Scope Z_scope.

(** A converted secp256k1 key: the public key is recognised as an Ethereum key and both parts
    survive serialization. *)
Theorem C74_conversion_round_trip : forall sbm rng d db x y,
  0 < d < c_N S256 -> encodes 32 d db -> sbm EthS256 db = (x, y) -> affine_point S256 0 x y ->
  exists pri pub e f,
    FromEthereumPrivateKey (Some (d, {| pk_curve := EthS256; pk_X := x; pk_Y := y |})) = Val (pri, pub) /\
    GetEthereumPubKey pub = Ok {| pk_curve := EthS256; pk_X := x; pk_Y := y |} /\ GetKeyType pub = Val 21 /\
    SerializePublicKey pub = Val e /\ DeserializePublicKey rng e = Val (Ok pub) /\
    SerializePrivateKey pri = Val f /\ DeserializePrivateKey sbm rng f = Val (Ok (Some pri)).
Proof.
  intros sbm rng d db x y Hd He Hs Ha.
  set (k := {| pk_curve := EthS256; pk_X := x; pk_Y := y |}).
  assert (Vp : valid_pub (PkEth k)) by (apply vp_eth; exact Ha).
  assert (Vs : valid_priv sbm (SkEth d k)) by (eapply vs_eth; eassumption).
  destruct (C15_public_key_round_trip (PkEth k) rng Vp I) as (e & E1 & E2).
  destruct (C19_private_key_round_trip sbm (SkEth d k) rng Vs I) as (f & F1 & F2).
  exists (SkEth d k), (PkEth k), e, f. repeat split; auto.
Qed.
Print Assumptions C74_conversion_round_trip.

(** Ethereum keys are recognised by their type only; what they serialize to, for every curve and
    all coordinates: the conversion does not check that the key belongs to secp256k1, so the
    serialization of a foreign key panics, or cannot be read back, or - when its coordinates
    satisfy the secp256k1 equation as well - comes back as the secp256k1 point. *)
Theorem C74_recognised : forall p,
  ((exists k, GetEthereumPubKey p = Ok k) <-> GetKeyType p = Val 21) /\
  forall k, GetEthereumPubKey p = Ok k -> FromEthereumPrivateKey (Some (0, k)) = Val (SkEth 0 k, p).
Proof.
  intros p. destruct p as [alg k|b|k|t]; cbn [GetEthereumPubKey GetKeyType FromEthereumPrivateKey].
  - split; [split; [intros (? & Q); discriminate Q|]|discriminate].
    destruct (alg =? ECDSA); [discriminate|]. destruct (alg =? SM2); discriminate.
  - split; [split; [intros (? & Q); discriminate Q|discriminate]|discriminate].
  - split; [split; [reflexivity|intros _; eexists; reflexivity]|]. intros k0 Q. injection Q as <-. reflexivity.
  - split; [split; [intros (? & Q); discriminate Q|discriminate]|discriminate].
Qed.
Print Assumptions C74_recognised.

Theorem C74_foreign_key : forall rng d c x y, 0 <= x -> 0 <= y ->
  exists pri pub, FromEthereumPrivateKey (Some (d, {| pk_curve := c; pk_X := x; pk_Y := y |})) = Val (pri, pub) /\
  (2 ^ 256 <= x \/ 2 ^ 256 <= y -> exists why, SerializePublicKey pub = Panic why) /\
  (x < 2 ^ 256 -> y < 2 ^ 256 -> exists xb yb, encodes 32 x xb /\ encodes 32 y yb /\
     SerializePublicKey pub = Val (21 :: 4 :: xb ++ yb) /\
     (affine_point S256 0 x y ->
        DeserializePublicKey rng (21 :: 4 :: xb ++ yb) = Val (Ok (PkEth {| pk_curve := EthS256; pk_X := x; pk_Y := y |}))) /\
     (~ affine_point S256 0 x y -> exists e, DeserializePublicKey rng (21 :: 4 :: xb ++ yb) = Val (Err e))).
Proof.
  intros rng d c x y Hx Hy. exists (SkEth d {| pk_curve := c; pk_X := x; pk_Y := y |}), (PkEth {| pk_curve := c; pk_X := x; pk_Y := y |}).
  split; [reflexivity|]. cbn [SerializePublicKey]. unfold eth_FromECDSAPub. cbn [pk_X pk_Y].
  change (2 ^ 256) with (256 ^ 32). split.
  - intros H. destruct (Z.ltb_spec x (256 ^ 32)) as [X|_]; destruct (Z.ltb_spec y (256 ^ 32)) as [Y|_]; cbn [andb bind];
      try (eexists; reflexivity). exfalso. lia.
  - intros X Y. apply Z.ltb_lt in X as Xb. apply Z.ltb_lt in Y as Yb. rewrite Xb, Yb. cbn [andb bind].
    exists (to_be 32 x), (to_be 32 y).
    assert (Ex : encodes 32 x (to_be 32 x)) by (apply (encodes_to_be 32); split; assumption).
    assert (Ey : encodes 32 y (to_be 32 y)) by (apply (encodes_to_be 32); split; assumption).
    split; [exact Ex|]. split; [exact Ey|]. split; [reflexivity|].
    destruct (encodes_inv _ _ _ Ex) as (Lx & _ & Vx). destruct (encodes_inv _ _ _ Ey) as (Ly & _ & Vy).
    set (xb := to_be 32 x) in *. set (yb := to_be 32 y) in *. clearbody xb yb.
    assert (D : DeserializePublicKey rng (21 :: 4 :: xb ++ yb) =
      if (x <? c_P S256) && (y <? c_P S256) && on_curve_k1 x y
      then Val (Ok (PkEth {| pk_curve := EthS256; pk_X := x; pk_Y := y |})) else Val (Err "invalid secp256k1 public key"%string)).
    { assert (L : zlen (21 :: 4 :: xb ++ yb) = 66) by (unfold zlen in *; cbn [length]; rewrite app_length; lia).
      unfold DeserializePublicKey. destruct (Z.leb_spec (zlen (21 :: 4 :: xb ++ yb)) 3); [lia|].
      rewrite index_cons0, index_cons1, slice_tail2, slice_tail1. cbn [bind].
      change ((21 =? PK_ECDSA) || (21 =? PK_SM2)) with false. change (21 =? PK_EDDSA) with false.
      change ((21 =? PK_P256_E) || (21 =? PK_P256_O) || (21 =? PK_P256_NC)) with false. change (21 =? PK_ETHECDSA) with true.
      cbv iota. unfold eth_UnmarshalPubkey.
      assert (L2 : zlen (4 :: xb ++ yb) = 65) by (unfold zlen in *; cbn [length]; rewrite app_length; lia).
      rewrite L2. change (negb (65 =? 65)) with false. cbv iota. rewrite index_cons0. cbn [bind]. change (negb (4 =? 4)) with false. cbv iota.
      rewrite <- (app_nil_r (xb ++ yb)), <- app_assoc.
      rewrite (slice_1 4 xb (yb ++ []) 32 : _ -> slice _ 1 33 = _) by exact Lx. cbn [bind].
      rewrite (slice_2 4 xb yb [] 32 : _ -> _ -> slice _ 33 65 = _) by (rewrite ?Lx, ?Ly; reflexivity). cbn [bind].
      rewrite Vx, Vy. destruct (_ && _); reflexivity. }
    rewrite D.
    assert (A : affine_point S256 0 x y <-> (x <? c_P S256) && (y <? c_P S256) && on_curve_k1 x y = true).
    { unfold affine_point, curve_eq, on_curve_k1. rewrite !andb_true_iff, !Z.ltb_lt, Z.eqb_eq.
      change (c_B S256) with 7. replace (x * x * x + 0 * x + 7) with (x * x * x + 7) by ring. intuition. }
    destruct (_ && _) eqn:G.
    + split; [reflexivity|]. intros N. exfalso. apply N, A. reflexivity.
    + split; [|intros _; eexists; reflexivity]. intros H. apply A in H. discriminate H.
Qed.
Print Assumptions C74_foreign_key.

(** ** Concrete cases: the generators of secp256k1 and of P-256 as Ethereum keys *)
Definition Gk1 : Z * Z := (55066263022277343669578718895168534326250603453777594175500187360389116729240,
  32670510020758816978083085130507043184471273380659243275938904335757337482424).
Definition G256 : Z * Z := (48439561293906451759052585252797914202762949526041747995844080717082404635286,
  36134250956749795798585127919587881956611106672985015071877198253568414405109).
Example C74_secp256k1 : affine_point S256 0 (fst Gk1) (snd Gk1) /\
  FromEthereumPrivateKey None = Panic "nil pointer" /\
  exists e, SerializePublicKey (PkEth {| pk_curve := EthS256; pk_X := fst Gk1; pk_Y := snd Gk1 |}) = Val e /\ length e = 66%nat.
Proof.
  split; [vm_compute; repeat split; try reflexivity; discriminate|]. split; [reflexivity|].
  eexists. split; [vm_compute; reflexivity|reflexivity].
Qed.
Example C74_p256_generator : affine_point P256 (-3) (fst G256) (snd G256) /\ ~ affine_point S256 0 (fst G256) (snd G256).
Proof.
  split; [vm_compute; repeat split; try reflexivity; discriminate|]. intros (_ & _ & H). vm_compute in H. discriminate H.
Qed.
