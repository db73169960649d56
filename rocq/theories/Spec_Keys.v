(** * Spec_Keys: valid keys, in terms of the curves' standards only *)
From Coq Require Import ZArith String List Bool.
From Verif Require Import Base Curves ECKey Keypair Spec_EC.
Import ListNotations.
Open Scope Z_scope.

(** A valid public key: a point of one of the six curves with algorithm ECDSA (0) or SM2 (1),
    32 bytes for Ed25519, a secp256k1 point for Ethereum. *)
Inductive valid_pub : pubkey -> Prop :=
| vp_ec : forall alg c a x y, alg = 0 \/ alg = 1 -> supported c a -> affine_point c a x y ->
    valid_pub (PkEC alg {| pk_curve := c; pk_X := x; pk_Y := y |})
| vp_ed : forall b, length b = 32%nat -> octets b -> valid_pub (PkEd b)
| vp_eth : forall x y, affine_point S256 0 x y ->
    valid_pub (PkEth {| pk_curve := EthS256; pk_X := x; pk_Y := y |}).

(** Random numbers are only drawn for P-224, whose points with y = 0 cannot be decompressed. *)
Definition decompressible (c : curve) (y : Z) (rng : list Z) : Prop :=
  c = P224 -> y <> 0 /\ Exists (usable_draw (c_P c) ((y * y) mod c_P c)) rng.
Definition pub_decompressible (k : pubkey) (rng : list Z) : Prop :=
  match k with PkEC _ p => decompressible (pk_curve p) (pk_Y p) rng | _ => True end.

(** A valid private key, relative to the base-point multiplication of the curves: an EC key has
    a scalar 0 < d < N and the point belonging to it (the scalar written in field size). *)
Inductive valid_priv (sbm : curve -> bytes -> Z * Z) : privkey -> Prop :=
| vs_ec : forall alg c a n db d x y, alg = 0 \/ alg = 1 -> supported c a -> field_bytes c n ->
    0 < d < c_N c -> encodes n d db -> sbm c db = (x, y) -> affine_point c a x y ->
    valid_priv sbm (SkEC alg d {| pk_curve := c; pk_X := x; pk_Y := y |})
| vs_ed : forall b, length b = 64%nat -> octets b -> valid_priv sbm (SkEd b)
| vs_eth : forall db d x y, 0 < d < c_N S256 -> encodes 32 d db -> sbm EthS256 db = (x, y) ->
    valid_priv sbm (SkEth d {| pk_curve := EthS256; pk_X := x; pk_Y := y |}).
Definition priv_decompressible (k : privkey) (rng : list Z) : Prop :=
  match k with SkEC _ _ p => decompressible (pk_curve p) (pk_Y p) rng | _ => True end.

(** the curve label of each supported curve, from the documentation of keypair/ecurves.go *)
Definition label_of (c : curve) (l : Z) : Prop :=
  (c = P224 /\ l = 1) \/ (c = P256 /\ l = 2) \/ (c = P384 /\ l = 3) \/ (c = P521 /\ l = 4) \/
  (c = S256 /\ l = 5) \/ (c = SM2P256V1 /\ l = 20).

(** The documented order of public keys (publist.go:31-39): key type, then curve label, x, y;
    EdDSA by the byte string; Ethereum by x, y. *)
Definition type_byte (k : pubkey) : Z :=
  match k with PkEC 0 _ => 18 | PkEC _ _ => 19 | PkEd _ => 20 | PkEth _ => 21 | PkOther _ => 0 end.
Inductive lex_lt : list Z -> list Z -> Prop :=
| lex_nil : forall b l, lex_lt [] (b :: l)
| lex_hd : forall a b l m, a < b -> lex_lt (a :: l) (b :: m)
| lex_tl : forall a l m, lex_lt l m -> lex_lt (a :: l) (a :: m).
Inductive key_lt : pubkey -> pubkey -> Prop :=
| lt_type : forall k1 k2, type_byte k1 < type_byte k2 -> key_lt k1 k2
| lt_curve : forall a p q l m, label_of (pk_curve p) l -> label_of (pk_curve q) m -> l < m ->
    key_lt (PkEC a p) (PkEC a q)
| lt_x : forall a p q, pk_curve p = pk_curve q -> pk_X p < pk_X q -> key_lt (PkEC a p) (PkEC a q)
| lt_y : forall a p q, pk_curve p = pk_curve q -> pk_X p = pk_X q -> pk_Y p < pk_Y q ->
    key_lt (PkEC a p) (PkEC a q)
| lt_ed : forall b1 b2, lex_lt b1 b2 -> key_lt (PkEd b1) (PkEd b2)
| lt_eth_x : forall p q, pk_X p < pk_X q -> key_lt (PkEth p) (PkEth q)
| lt_eth_y : forall p q, pk_X p = pk_X q -> pk_Y p < pk_Y q -> key_lt (PkEth p) (PkEth q).
