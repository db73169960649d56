(** * SM2Generic: the parts of /repo/sm2 that are used where p256_amd64.go is not compiled in

    p256_amd64.go is the only file with a build constraint (by its name), and it defines the methods
    Inverse, CombinedMult, ScalarBaseMult and ScalarMult of p256Curve.  On other platforms p256Curve has
    the methods of the embedded *elliptic.CurveParams (curves.go:36-39; Elliptic.v), and the two type
    assertions in signature.go (191 and 223) fail. *)
From Coq Require Import ZArith List.
From Verif Require Import Base Curves ECKey Elliptic.
Import ListNotations.
Open Scope Z_scope.

(** signature.go:84-88; Exp is modelled by powm (ECKey.v) *)
Definition fermatInverse (k P : Z) : Z := powm k (P - 2) P.
(** signature.go:190-195, the type assertion fails *)
Definition generic_inv (k : Z) : Z := fermatInverse k (c_N SM2P256V1).
(** signature.go:222-229, the type assertion fails *)
Definition generic_comb (pub : ecpub) (s t : bytes) : Z * Z :=
  let xy1 := ScalarBaseMult (pk_curve pub) s in
  let xy2 := ScalarMult (pk_curve pub) (pk_X pub, pk_Y pub) t in
  Add (pk_curve pub) xy1 xy2.
(** the methods of the curve that signature.go:179 and encryption.go:136, 143, 184, 188 call *)
Definition generic_sbm (k : bytes) : Z * Z := ScalarBaseMult SM2P256V1 k.
Definition generic_sm (x y : Z) (k : bytes) : Z * Z := ScalarMult SM2P256V1 (x, y) k.
Definition generic_on (x y : Z) : bool := IsOnCurve SM2P256V1 (x, y).
