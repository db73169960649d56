(** * Spec_VRF2: the verifiable random function in terms of the group of the curve, independent of the code.
    [f] is the hash function; field elements and scalars have 32 bytes. *)
From Coq Require Import ZArith List.
From Verif Require Import Curves Spec_EC Spec_VRF Spec_Group.
Import ListNotations.
Open Scope Z_scope.

Section Spec.
Variable f : list Z -> list Z.
Variables (c : curve) (a : Z).
Variable E : ecgroup.
Notation pt := (pt (eg E)).
Notation G := (@eG E).
(** the uncompressed encoding of a group element; the neutral element has the coordinates (0, 0) *)
Definition penc (Q : pt) (b : list Z) : Prop := sec1_uncompressed 32 (fst (ecoords Q)) (snd (ecoords Q)) b.
(** [H], encoded [hb], is the point hashed from [m]; the abscissa that was hashed may exceed the modulus *)
Inductive hashed (m : list Z) (H : pt) (hb : list Z) : Prop :=
| hashed_intro : forall hx hy, to_point f 32 c a m hx hy -> H <> gO -> ecoords H = (hx mod c_P c, hy mod c_P c) ->
    sec1_uncompressed 32 hx hy hb -> hashed m H hb.
(** [s] is the challenge of the commitments A and B *)
Definition challenge (hb pkb vrf : list Z) (A B : pt) (s : Z) : Prop :=
  exists gb ab bb, penc G gb /\ penc A ab /\ penc B bb /\ to_int f 32 (c_N c) (gb ++ hb ++ pkb ++ vrf ++ ab ++ bb) s.

(** what a prover with the secret D and the random number r publishes for the message m, with the key encoded [pkb] *)
Inductive evaluates (pkb : list Z) (D r : Z) (m vrf nizk : list Z) : Prop :=
| evaluates_intro : forall H hb s sb tb, hashed (pkb ++ m) H hb -> penc (gmul D H) vrf ->
    challenge hb pkb vrf (gmul r G) (gmul r H) s ->
    encodes 32 s sb -> encodes 32 ((r - s * D) mod c_N c) tb -> nizk = sb ++ tb ->
    evaluates pkb D r m vrf nizk.
(** what a verifier with the public key PK, encoded [pkb], accepts *)
Inductive accepted (PK : pt) (pkb : list Z) (m vrf nizk : list Z) : Prop :=
| accepted_intro : forall U H hb s t sb tb, hashed (pkb ++ m) H hb -> U <> gO -> penc U vrf ->
    encodes 32 s sb -> encodes 32 t tb -> nizk = sb ++ tb ->
    challenge hb pkb vrf (gadd (gmul t G) (gmul s PK)) (gadd (gmul t H) (gmul s U)) s ->
    accepted PK pkb m vrf nizk.

(** t answers the challenge s for the key PK, the points H, U and the commitments A, B *)
Definition answers (PK H U A B : pt) (s t : Z) : Prop :=
  gadd (gmul t G) (gmul s PK) = A /\ gadd (gmul t H) (gmul s U) = B.
End Spec.
