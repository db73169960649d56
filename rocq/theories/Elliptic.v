(** * Elliptic: the methods of crypto/elliptic.CurveParams

    p256Curve embeds *elliptic.CurveParams (/repo/sm2/curves.go:36-39), so these are its methods
    Add and IsOnCurve (used at signature.go:228, encryption.go:184, /repo/vrf/vrf_ec.go:175, 183, 193)
    and, where p256_amd64.go is not compiled in, its ScalarMult and ScalarBaseMult as well.  Modelled
    from crypto/elliptic/elliptic.go of the Go releases that go.mod allows (1.12; the later on-curve
    panics and the range check of IsOnCurve are not in it).  big.Int values are integers;
    ModInverse modulo a prime is written as a power. *)
From Coq Require Import ZArith Zpow_facts List Bool.
From Verif Require Import Base Curves.
Import ListNotations.
Open Scope Z_scope.

Section Params.
Variable c : curve.

(** if v.Sign() == -1 { v.Add(v, curve.P) } *)
Definition lift (v : Z) : Z := if v <? 0 then v + c_P c else v.

(** IsOnCurve: y^2 = x^3 - 3x + b *)
Definition IsOnCurve (q : Z * Z) : bool :=
  let (x, y) := q in
  let y2 := (y * y) mod c_P c in
  let x3 := x * x * x in
  let threeX := Z.shiftl x 1 + x in
  let x3 := (x3 - threeX + c_B c) mod c_P c in
  x3 =? y2.

(** zForAffine *)
Definition zForAffine (x y : Z) : Z := if negb (x =? 0) || negb (y =? 0) then 1 else 0.

(** new(big.Int).ModInverse(z, P), P prime *)
Definition ModInverse (z : Z) : Z := Zpow_mod z (c_P c - 2) (c_P c).

(** affineFromJacobian *)
Definition affineFromJacobian (q : Z * Z * Z) : Z * Z :=
  let '(x, y, z) := q in
  if z =? 0 then (0, 0) else
  let zinv := ModInverse z in
  let zinvsq := zinv * zinv in
  let xOut := (x * zinvsq) mod c_P c in
  let zinvsq := zinvsq * zinv in
  let yOut := (y * zinvsq) mod c_P c in
  (xOut, yOut).

(** doubleJacobian *)
Definition doubleJacobian (q : Z * Z * Z) : Z * Z * Z :=
  let '(x, y, z) := q in
  let delta := (z * z) mod c_P c in
  let gamma := (y * y) mod c_P c in
  let alpha := lift (x - delta) in
  let alpha2 := x + delta in
  let alpha := alpha * alpha2 in
  let alpha := Z.shiftl alpha 1 + alpha in
  let beta := x * gamma in
  let beta8 := Z.shiftl beta 3 mod c_P c in
  let x3 := lift (alpha * alpha - beta8) mod c_P c in
  let z3 := (y + z) * (y + z) in
  let z3 := lift (z3 - gamma) in
  let z3 := lift (z3 - delta) mod c_P c in
  let beta := lift (Z.shiftl beta 2 - x3) in
  let y3 := alpha * beta in
  let gamma := Z.shiftl (gamma * gamma) 3 mod c_P c in
  let y3 := lift (y3 - gamma) mod c_P c in
  (x3, y3, z3).

(** addJacobian *)
Definition addJacobian (q1 q2 : Z * Z * Z) : Z * Z * Z :=
  let '(x1, y1, z1) := q1 in
  let '(x2, y2, z2) := q2 in
  if z1 =? 0 then (x2, y2, z2) else
  if z2 =? 0 then (x1, y1, z1) else
  let z1z1 := (z1 * z1) mod c_P c in
  let z2z2 := (z2 * z2) mod c_P c in
  let u1 := (x1 * z2z2) mod c_P c in
  let u2 := (x2 * z1z1) mod c_P c in
  let h := u2 - u1 in
  let xEqual := h =? 0 in
  let h := lift h in
  let i := Z.shiftl h 1 in
  let i := i * i in
  let j := h * i in
  let s1 := (y1 * z2 * z2z2) mod c_P c in
  let s2 := (y2 * z1 * z1z1) mod c_P c in
  let r := s2 - s1 in
  let r := lift r in
  let yEqual := r =? 0 in
  if xEqual && yEqual then doubleJacobian (x1, y1, z1) else
  let r := Z.shiftl r 1 in
  let v := u1 * i in
  let x3 := (r * r - j - v - v) mod c_P c in
  let v := v - x3 in
  let y3 := r * v in
  let s1 := Z.shiftl (s1 * j) 1 in
  let y3 := (y3 - s1) mod c_P c in
  let z3 := (z1 + z2) * (z1 + z2) in
  let z3 := z3 - z1z1 in
  let z3 := z3 - z2z2 in
  let z3 := (z3 * h) mod c_P c in
  (x3, y3, z3).

(** Add *)
Definition Add (p q : Z * Z) : Z * Z :=
  affineFromJacobian (addJacobian (p, zForAffine (fst p) (snd p)) (q, zForAffine (fst q) (snd q))).
(** Double *)
Definition Double (p : Z * Z) : Z * Z := affineFromJacobian (doubleJacobian (p, zForAffine (fst p) (snd p))).

(** ScalarMult: the bits of each byte, most significant first *)
Definition bit_step (b : Z * Z) (q : Z * Z * Z) (bit : bool) : Z * Z * Z :=
  let q := doubleJacobian q in
  if bit then addJacobian (b, 1) q else q.
Definition byte_step (b : Z * Z) (q : Z * Z * Z) (byte : Z) : Z * Z * Z :=
  fold_left (fun q i => bit_step b q (Z.testbit byte i)) [7; 6; 5; 4; 3; 2; 1; 0] q.
Definition ScalarMult (b : Z * Z) (k : bytes) : Z * Z :=
  affineFromJacobian (fold_left (byte_step b) k (0, 0, 0)).
(** ScalarBaseMult *)
Definition ScalarBaseMult (k : bytes) : Z * Z := ScalarMult (c_Gx c, c_Gy c) k.
End Params.
