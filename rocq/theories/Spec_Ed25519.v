(** * Spec_Ed25519: encodings of points and acceptance of signatures (RFC 8032, 5.1, with the liberties of the library) *)
From Coq Require Import ZArith List.
From Verif Require Import Base Spec_EC Spec_Group Ed25519 EdCurve.
Import ListNotations.
Open Scope Z_scope.

(** The number written by bytes, least significant first *)
Fixpoint lev (b : bytes) : Z := match b with [] => 0 | x :: b' => x + 256 * lev b' end.

(** (x, y) are the reduced coordinates of P *)
Definition edco (P : pt edG) (x y : Z) : Prop := edat P x y /\ 0 <= x < edP /\ 0 <= y < edP.

(** The encoding of a point: y in 255 bits, the parity of x above it *)
Definition point_bytes (P : pt edG) (b : bytes) : Prop :=
  exists x y, edco P x y /\ length b = 32%nat /\ octets b /\ lev b = y + 2 ^ 255 * (x mod 2).

(** What bytes are read as.  Unlike RFC 8032, 5.1.3, the 255 bits may hold a value of p or more, and the bit above is ignored
    when x = 0. *)
Definition read_as (b : bytes) (P : pt edG) : Prop :=
  exists x y, edco P x y /\ (edP | y - lev b mod 2 ^ 255) /\ (x = 0 \/ x mod 2 = lev b / 2 ^ 255).

(** The secret scalar: the first 32 bytes of the hash of the seed with the lowest three bits and the highest bit cleared
    and bit 254 set (RFC 8032, 5.1.5) *)
Definition secret_scalar (h : Z) : Z := 2 ^ 254 + (h mod 2 ^ 254 - h mod 8).

Section Env.
Variable sha512 : bytes -> bytes.
(** The number that binds R, the key and the message *)
Definition challenge (Rb pub msg : bytes) : Z := lev (sha512 (Rb ++ pub ++ msg)) mod edL.
(** R is the encoding of a point with R + k A = s B, s is below the order *)
Definition ed_accepts (pub msg sig : bytes) : Prop :=
  exists A R Rb Sb, sig = Rb ++ Sb /\ length Sb = 32%nat /\ lev Sb < edL /\ read_as pub A /\ point_bytes R Rb /\
    gadd R (gmul (challenge Rb pub msg) A) = gmul (lev Sb) edB.
End Env.
