(** * Ed25519: golang.org/x/crypto/ed25519 at the version of /repo/go.mod (8986dd9e96cf)

    Its source is not in /repo; this follows its files ed25519.go, internal/edwards25519/edwards25519.go and
    const.go as published (crypto/ed25519 of Go 1.13 to 1.16 is the same code).  The callers are
    /repo/keypair/key.go:104 and /repo/signature/signature.go:118-124, 200-204.
    Simplified: field elements are integers modulo p instead of ten limbs; points are affine pairs instead of extended,
    completed and cached coordinates; multiples are computed by doubling and adding instead of with tables and
    sliding windows.  SHA-512 is a function of the concatenated writes. *)
From Coq Require Import ZArith String List Bool.
From Verif Require Import Base ECKey.
Import ListNotations.
Open Scope Z_scope.

(** ** Constants (edwards25519.go, const.go) *)
Definition edP : Z := 2 ^ 255 - 19.
Definition edL : Z := 2 ^ 252 + 27742317777372353535851937790883648493.
(** d, SqrtM1 *)
Definition edD : Z := 37095705934669439343138083508754565189542113879843219016388785533085940283555.
Definition edI : Z := 19681161376707505956807079304988542015446066515923890162744021073123829784752.
(** the base point, whose multiples the table [base] holds *)
Definition edBx : Z := 15112221349535400772501151409588531511454012693041857206046113283949847762202.
Definition edBy : Z := 46316835694926478169428394003475163141307993866256225615783033603165251855960.

(** ** Bytes, least significant first *)
Definition le2z (b : bytes) : Z := be2z (rev b).
Definition z2le (n : nat) (z : Z) : bytes := rev (to_be n z).

(** ** Field elements *)
Definition fe_mul (a b : Z) : Z := (a * b) mod edP.
Definition fe_add (a b : Z) : Z := (a + b) mod edP.
Definition fe_sub (a b : Z) : Z := (a - b) mod edP.
Definition fe_neg (a : Z) : Z := (- a) mod edP.
(** FeInvert: the power p - 2 *)
Definition fe_invert (a : Z) : Z := powm a (edP - 2) edP.
(** fePow22523: the power 2^252 - 3 *)
Definition fe_pow22523 (a : Z) : Z := powm a (2 ^ 252 - 3) edP.
(** FeFromBytes ignores the top bit and does not ask for a value below p *)
Definition fe_FromBytes (s : bytes) : Z := (le2z s mod 2 ^ 255) mod edP.
(** FeToBytes; FeIsNegative is its lowest bit *)
Definition fe_ToBytes (a : Z) : bytes := z2le 32 (a mod edP).
Definition fe_IsNegative (a : Z) : Z := (a mod edP) mod 2.

(** ** Points *)
(** FromBytes of ExtendedGroupElement; T is not kept *)
Definition ge_FromBytes (s : bytes) : option (Z * Z) :=
  let y := fe_FromBytes s in
  let u := fe_mul y y in
  let v := fe_mul u edD in
  let u := fe_sub u 1 in
  let v := fe_add v 1 in
  let v3 := fe_mul (fe_mul v v) v in
  let x := fe_mul (fe_mul (fe_mul v3 v3) v) u in
  let x := fe_pow22523 x in
  let x := fe_mul (fe_mul x v3) u in
  let vxx := fe_mul (fe_mul x x) v in
  let root :=
    if fe_sub vxx u =? 0 then Some x else
    if fe_add vxx u =? 0 then Some (fe_mul x edI) else None in
  match root with
  | None => None
  | Some x => Some (if fe_IsNegative x =? Z.shiftr (nth 31 s 0) 7 then (x, y) else (fe_neg x, y))
  end.
(** ToBytes of ExtendedGroupElement and ProjectiveGroupElement: s[31] ^= FeIsNegative(x) << 7 *)
Definition ge_ToBytes (P : Z * Z) : bytes :=
  let s := fe_ToBytes (snd P) in set_nth 31 (Z.lxor (nth 31 s 0) (Z.shiftl (fe_IsNegative (fst P)) 7)) s.
(** geAdd and the doublings: the complete addition law of the curve *)
Definition ge_add (P Q : Z * Z) : Z * Z :=
  let (x1, y1) := P in let (x2, y2) := Q in
  let t := fe_mul edD (fe_mul (fe_mul x1 x2) (fe_mul y1 y2)) in
  (fe_mul (fe_add (fe_mul x1 y2) (fe_mul x2 y1)) (fe_invert (fe_add 1 t)),
   fe_mul (fe_add (fe_mul y1 y2) (fe_mul x1 x2)) (fe_invert (fe_sub 1 t))).
Fixpoint ge_mul_pos (k : positive) (P : Z * Z) : Z * Z :=
  match k with
  | xH => P
  | xO k' => let Q := ge_mul_pos k' P in ge_add Q Q
  | xI k' => let Q := ge_mul_pos k' P in ge_add (ge_add Q Q) P
  end.
Definition ge_mul (k : Z) (P : Z * Z) : Z * Z := match k with Zpos q => ge_mul_pos q P | _ => (0, 1) end.
(** GeScalarMultBase; GeDoubleScalarMultVartime(a, A, b) = aA + bB *)
Definition ge_ScalarMultBase (a : bytes) : Z * Z := ge_mul (le2z a) (edBx, edBy).
Definition ge_DoubleScalarMult (a : bytes) (A : Z * Z) (b : bytes) : Z * Z :=
  ge_add (ge_mul (le2z a) A) (ge_mul (le2z b) (edBx, edBy)).

(** ** Scalars modulo the order *)
Definition sc_Reduce (s : bytes) : bytes := z2le 32 (le2z s mod edL).
Definition sc_MulAdd (a b c : bytes) : bytes := z2le 32 ((le2z a * le2z b + le2z c) mod edL).
Definition sc_Minimal (s : bytes) : bool := le2z s <? edL.

Section Env.
Variable sha512 : bytes -> bytes.

(** ed25519.go, NewKeyFromSeed (for 32 bytes; it panics for others) *)
Definition NewKeyFromSeed (seed : bytes) : bytes :=
  let digest := sha512 seed in
  let digest := set_nth 0 (Z.land (nth 0 digest 0) 248) digest in
  let digest := set_nth 31 (Z.land (nth 31 digest 0) 127) digest in
  let digest := set_nth 31 (Z.lor (nth 31 digest 0) 64) digest in
  let hBytes := firstn 32 digest in
  seed ++ ge_ToBytes (ge_ScalarMultBase hBytes).
(** ed25519.go, Sign (for 64 bytes; it panics for others) *)
Definition Sign (privateKey message : bytes) : bytes :=
  let digest1 := sha512 (firstn 32 privateKey) in
  let expandedSecretKey := firstn 32 digest1 in
  let expandedSecretKey := set_nth 0 (Z.land (nth 0 expandedSecretKey 0) 248) expandedSecretKey in
  let expandedSecretKey := set_nth 31 (Z.land (nth 31 expandedSecretKey 0) 63) expandedSecretKey in
  let expandedSecretKey := set_nth 31 (Z.lor (nth 31 expandedSecretKey 0) 64) expandedSecretKey in
  let messageDigest := sha512 (skipn 32 digest1 ++ message) in
  let messageDigestReduced := sc_Reduce messageDigest in
  let encodedR := ge_ToBytes (ge_ScalarMultBase messageDigestReduced) in
  let hramDigest := sha512 (encodedR ++ skipn 32 privateKey ++ message) in
  let hramDigestReduced := sc_Reduce hramDigest in
  let s := sc_MulAdd hramDigestReduced expandedSecretKey messageDigestReduced in
  encodedR ++ s.
(** ed25519.go, Verify (for public keys of 32 bytes; it panics for others) *)
Definition Verify (publicKey message sig : bytes) : bool :=
  if negb (zlen sig =? 64) || negb (Z.land (nth 63 sig 0) 224 =? 0) then false else
  match ge_FromBytes publicKey with
  | None => false
  | Some (x, y) =>
      let A := (fe_neg x, y) in
      let digest := sha512 (firstn 32 sig ++ publicKey ++ message) in
      let hReduced := sc_Reduce digest in
      let s := skipn 32 sig in
      if negb (sc_Minimal s) then false else
      let checkR := ge_ToBytes (ge_DoubleScalarMult hReduced A s) in
      bytes_eqb (firstn 32 sig) checkR
  end.
End Env.
