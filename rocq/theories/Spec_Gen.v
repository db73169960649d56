(** * Spec_Gen: how a key pair should follow from random bytes *)
From Coq Require Import ZArith List Bool.
From Verif Require Import Base Curves ECKey Keypair Spec_EC.
Import ListNotations.
Open Scope Z_scope.

(** number of bits of z *)
Definition bits_of (z n : Z) : Prop := 0 < n /\ 2 ^ (n - 1) <= z < 2 ^ n.
(** least number of bytes that hold n bits *)
Definition bytes_for (n len : Z) : Prop := 8 * (len - 1) < n <= 8 * len.
(** The scalar of an attempt: the low n bits of the number read, with 0x42 added without carry to the
    second byte. *)
Definition scalar (n len : Z) (chunk : list Z) : Z := Z.lxor (value chunk 0 mod 2 ^ n) (0x42 * 256 ^ (len - 2)).
(** [d] comes from the first attempt below N, [rest] is left over *)
Inductive first_draw (N n len : Z) : list Z -> Z -> list Z -> Prop :=
| draw_hit : forall chunk rest, Z.of_nat (length chunk) = len -> scalar n len chunk < N ->
    first_draw N n len (chunk ++ rest) (scalar n len chunk) rest
| draw_miss : forall chunk more d rest, Z.of_nat (length chunk) = len -> N <= scalar n len chunk ->
    first_draw N n len more d rest -> first_draw N n len (chunk ++ more) d rest.
(** the source ends before an attempt succeeds *)
Inductive no_draw (N n len : Z) : list Z -> Prop :=
| draw_short : forall l, Z.of_nat (length l) < len -> no_draw N n len l
| draw_fail : forall chunk more, Z.of_nat (length chunk) = len -> N <= scalar n len chunk ->
    no_draw N n len more -> no_draw N n len (chunk ++ more).

(** the public half of a private key *)
Inductive halves : privkey -> pubkey -> Prop :=
| half_ec : forall alg d p, halves (SkEC alg d p) (PkEC alg p)
| half_ed : forall seed pub, length seed = 32%nat -> halves (SkEd (seed ++ pub)) (PkEd pub)
| half_eth : forall d p, halves (SkEth d p) (PkEth p).
(** what the theorems ask of the libraries: the multiplications give points, ed25519 keys are 64 bytes, and the scalar for an
    Ethereum key is in range and its leading zeros do not matter *)
Definition points (sbm : curve -> bytes -> Z * Z) (c : curve) (a : Z) : Prop :=
  forall len d db, field_bytes c len -> encodes len d db -> 0 < d < c_N c -> exists x y, sbm c db = (x, y) /\ affine_point c a x y.
Definition libraries (sbm : curve -> bytes -> Z * Z) (ed_new : bytes -> bytes) (field_element : curve -> bytes -> option Z) : Prop :=
  (forall c a, supported c a -> points sbm c a) /\
  (forall seed, length seed = 32%nat -> octets seed -> length (ed_new seed) = 64%nat /\ octets (ed_new seed)) /\
  (forall rand d, field_element EthS256 rand = Some d -> 0 < d < c_N S256) /\
  (forall d db, 0 < d < c_N S256 -> encodes 32 d db -> exists x y, sbm EthS256 (big_bytes d) = (x, y) /\ sbm EthS256 db = (x, y) /\ affine_point S256 0 x y).
