(** * Spec_Btcec: recoverable ECDSA signatures (SEC 1, 4.1.6) and the 65-byte format of bitcoind, independently of the code *)
From Coq Require Import ZArith List Bool.
From Verif Require Import Base Spec_EC Spec_Group Spec_SM2.
Import ListNotations.
Open Scope Z_scope.

(** R is the point that r and the number it (0 to 3) name: its first coordinate is r, or r + N from 2 on; the second
    coordinate is odd as it is *)
Definition named_point (E : ecgroup) (it r : Z) (R : pt (eg E)) : Prop :=
  R <> gO /\ fst (ecoords R) = r + (it / 2) * eN E /\ Z.odd (snd (ecoords R)) = Z.odd it.
(** Q is the key that (r, s), with the number it, is a signature of e for: r Q + e G = s R *)
Definition recovers (E : ecgroup) (e it r s : Z) (Q : pt (eg E)) : Prop :=
  exists R : pt (eg E), named_point E it r R /\ gadd (gmul r Q) (gmul e eG) = gmul s R.

(** the 65 bytes: a header, r and s *)
Definition compact (sig : bytes) (h r s : Z) : Prop :=
  exists rb sb, sig = h :: rb ++ sb /\ encodes 32 r rb /\ encodes 32 s sb.
(** the header is 27 + it, or 31 + it for a compressed key *)
Definition header (h it : Z) : Prop := 0 <= it < 4 /\ (h = 27 + it \/ h = 31 + it).
