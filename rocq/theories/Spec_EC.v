(** * Spec_EC: what "a point of a supported curve" and "its encoding" mean.
    Independent of the model of the code (only the parameter records are shared). *)
From Coq Require Import ZArith String List Bool.
From Verif Require Import Base Curves.
Import ListNotations.
Open Scope Z_scope.

(** y^2 = x^3 + a x + b modulo p *)
Definition curve_eq (p a b x y : Z) : Prop := (y * y) mod p = (x * x * x + a * x + b) mod p.

(** the six curves of keypair/ecurves.go with their coefficient a (FIPS 186-4, SEC 2,
    GB/T 32918.5: the last one is written out as in the standard). *)
Inductive supported : curve -> Z -> Prop :=
| sup_P224 : supported P224 (-3)
| sup_P256 : supported P256 (-3)
| sup_P384 : supported P384 (-3)
| sup_P521 : supported P521 (-3)
| sup_S256 : supported S256 0
| sup_SM2 : supported SM2P256V1
    0xFFFFFFFEFFFFFFFFFFFFFFFFFFFFFFFFFFFFFFFF00000000FFFFFFFFFFFFFFFC.

(** affine points *)
Definition affine_point (c : curve) (a x y : Z) : Prop :=
  0 <= x < c_P c /\ 0 <= y < c_P c /\ curve_eq (c_P c) a (c_B c) x y.

(** number of bytes of a field element: the least n with p <= 256^n *)
Definition field_bytes (c : curve) (n : Z) : Prop :=
  0 < n /\ c_P c <= 256 ^ n /\ 256 ^ (n - 1) < c_P c.

(** big-endian value of a byte string *)
Fixpoint value (l : list Z) (acc : Z) : Z :=
  match l with [] => acc | b :: l' => value l' (acc * 256 + b) end.
Definition octets (l : list Z) : Prop := Forall (fun b => 0 <= b < 256) l.
(** [l] is the n-byte big-endian encoding of z *)
Definition encodes (n : Z) (z : Z) (l : list Z) : Prop :=
  Z.of_nat (List.length l) = n /\ octets l /\ value l 0 = z.

(** SEC 1 point encodings *)
Definition sec1_compressed (n x y : Z) (e : list Z) : Prop :=
  exists xb, encodes n x xb /\ e = (if Z.even y then 2 else 3) :: xb.
Definition sec1_uncompressed (n x y : Z) (e : list Z) : Prop :=
  exists xb yb, encodes n x xb /\ encodes n y yb /\ e = 4 :: xb ++ yb.

(** A draw of the random generator that the square root of decompress.go can use for
    the right-hand side z: smaller than p and with discriminant a non-residue. *)
Definition usable_draw (p z d : Z) : Prop :=
  d < p /\ ((d * d - 4 * z) ^ ((p - 1) / 2)) mod p = p - 1.
