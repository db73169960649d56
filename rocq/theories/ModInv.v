(** * ModInv: math/big GCD and ModInverse (Go 1.12), where crypto/elliptic, crypto/ecdsa and btcec call them

    Not in /repo; written from the published source of math/big/int.go.  Elliptic.v, ECDSA.v and Btcec.v have a power modulo
    the prime in this place. *)
From Coq Require Import ZArith String List Bool.
From Verif Require Import Base Curves ECKey ECDSA Elliptic.
Import ListNotations.
Open Scope Z_scope.

(** int.go, euclidUpdate, repeated until B is 0.  lehmerGCD does several of these steps at once on the leading words, and the
    last ones on single words; here they are done one by one. *)
Fixpoint euclid (fuel : nat) (A B Ua Ub : Z) : go (Z * Z) :=
  match fuel with
  | O => OutOfFuel
  | S fuel' => if B =? 0 then Val (A, Ua) else euclid fuel' B (A mod B) Ub (Ua - A / B * Ub)
  end.
(** int.go, GCD(x, nil, a, b) and lehmerGCD: the greatest common divisor and x *)
Definition GCD (fuel : nat) (a b : Z) : go (Z * Z) :=
  if (a <=? 0) || (b <=? 0) then Val (0, 0) else
  if a <? b then euclid fuel b a 0 1 else euclid fuel a b 1 0.

Section Env.
Variable gcd : Z -> Z -> Z * Z.
(** int.go, ModInverse; None is nil *)
Definition big_ModInverse (g n : Z) : option Z :=
  let n := if n <? 0 then - n else n in
  let g := if g <? 0 then g mod n else g in
  let (d, x) := gcd g n in
  if negb (d =? 1) then None else
  Some (if x <? 0 then x + n else x).
(** a nil result is dereferenced by the operation after it *)
Definition deref (o : option Z) : go Z := match o with Some w => Val w | None => Panic "nil pointer dereference" end.

(** crypto/ecdsa, ecdsa.go, Verify, for curves without a method Inverse *)
Definition VerifyM (comb : ecpub -> bytes -> bytes -> Z * Z) (pub : ecpub) (hash : bytes) (r s : Z) : go bool :=
  let c := pk_curve pub in
  let N := c_N c in
  if (r <=? 0) || (s <=? 0) then Val false else
  if (r >=? N) || (s >=? N) then Val false else
  let* e := hashToInt hash c in
  let* w := deref (big_ModInverse s N) in
  let u1 := (e * w) mod N in
  let u2 := (r * w) mod N in
  let xy := comb pub (big_bytes u1) (big_bytes u2) in
  if (fst xy =? 0) && (snd xy =? 0) then Val false else
  Val (fst xy mod N =? r).
(** crypto/elliptic, elliptic.go, affineFromJacobian *)
Definition affineM (c : curve) (q : Z * Z * Z) : go (Z * Z) :=
  let '(x, y, z) := q in
  if z =? 0 then Val (0, 0) else
  let* zinv := deref (big_ModInverse z (c_P c)) in
  let zinvsq := zinv * zinv in
  let xOut := (x * zinvsq) mod c_P c in
  let zinvsq := zinvsq * zinv in
  let yOut := (y * zinvsq) mod c_P c in
  Val (xOut, yOut).
(** crypto/elliptic, elliptic.go, Add, Double, ScalarMult, ScalarBaseMult *)
Definition AddM (c : curve) (p q : Z * Z) : go (Z * Z) :=
  affineM c (addJacobian c (p, zForAffine (fst p) (snd p)) (q, zForAffine (fst q) (snd q))).
Definition DoubleM (c : curve) (p : Z * Z) : go (Z * Z) := affineM c (doubleJacobian c (p, zForAffine (fst p) (snd p))).
Definition ScalarMultM (c : curve) (b : Z * Z) (k : bytes) : go (Z * Z) := affineM c (fold_left (byte_step c b) k (0, 0, 0)).
Definition ScalarBaseMultM (c : curve) (k : bytes) : go (Z * Z) := ScalarMultM c (c_Gx c, c_Gy c) k.
End Env.
