(** * Btcec: model of the compact signatures of btcec, which /repo/signature/secp256k1.go calls at 11 and 15

    The package (github.com/btcsuite/btcd/btcec, v0.22.0-beta in /repo/go.mod) is not in /repo; this follows its published
    source, signature.go and pubkey.go.  The operations of KoblitzCurve on points (btcec.go) are parameters; the theorems
    ask of them that they compute in the group of the curve. *)
From Coq Require Import ZArith String List Bool.
From Verif Require Import Base Curves ECKey ECDSA.
Import ListNotations.
Open Scope Z_scope.

Section Env.
(** does recoverKeyFromSignature begin with the tests "signature R is >= curve order", "signature R is 0" and the same for
    S?  They were added to btcec at some time; the theorems treat both versions. *)
Variable checked : bool.
(** ScalarMult, ScalarBaseMult and Add of the curve *)
Variable sm : curve -> Z * Z -> bytes -> Z * Z.
Variable sbm : curve -> bytes -> Z * Z.
Variable add : curve -> Z * Z -> Z * Z -> Z * Z.
(** nonceRFC6979(D, hash) *)
Variable nonce : Z -> bytes -> Z.

(** math/big, ModInverse for a prime n: nil for the multiples of n *)
Definition ModInverse (g n : Z) : option Z := if g mod n =? 0 then None else Some (powm (g mod n) (n - 2) n).

(** pubkey.go, decompressPoint; SqrtVal raises to the power (p + 1) / 4 *)
Definition decompressPoint (c : curve) (x : Z) (ybit : bool) : res Z :=
  let p := c_P c in
  let x3 := (x * x * x + c_B c) mod p in
  let y := powm x3 ((p + 1) / 4) p in
  let y := if eqb ybit (Z.odd y) then y else (- y) mod p in
  if negb ((y * y) mod p =? x3) then Err "invalid square root"%string else
  if negb (eqb ybit (Z.odd y)) then Err "ybit doesn't match oddness"%string else
  Ok y.

(** signature.go, recoverKeyFromSignature.  A nil result of ModInverse is dereferenced by the multiplication after it.
    hashToInt is btcec's copy of the function of crypto/ecdsa. *)
Definition recoverKeyFromSignature (c : curve) (R S : Z) (msg : bytes) (iter : Z) (doChecks : bool) : go (res (Z * Z)) :=
  let N := c_N c in
  if checked && (R >=? N) then Val (Err "signature R is >= curve order"%string) else
  if checked && (R =? 0) then Val (Err "signature R is 0"%string) else
  if checked && (S >=? N) then Val (Err "signature S is >= curve order"%string) else
  if checked && (S =? 0) then Val (Err "signature S is 0"%string) else
  let Rx := N * (iter / 2) + R in
  if Rx >=? c_P c then Val (Err "calculated Rx is larger than curve P"%string) else
  match decompressPoint c Rx (iter mod 2 =? 1) with
  | Err e => Val (Err e)
  | Ok Ry =>
      let nR := sm c (Rx, Ry) (big_bytes N) in
      if doChecks && (negb (fst nR =? 0) || negb (snd nR =? 0))
      then Val (Err "n*R does not equal the point at infinity"%string) else
      let* e := hashToInt msg c in
      match ModInverse R N with
      | None => Panic "nil pointer dereference"
      | Some invr =>
          let invrS := (invr * S) mod N in
          let sR := sm c (Rx, Ry) (big_bytes invrS) in
          let e := ((- e) mod N * invr) mod N in
          let minuseG := sbm c (big_bytes e) in
          Val (Ok (add c sR minuseG))
      end
  end.

(** signature.go, RecoverCompact; the second result (was the key compressed?) is not used by /repo *)
Definition RecoverCompact (c : curve) (signature hash : bytes) : go (res (Z * Z)) :=
  let bitlen := (c_bits c + 7) / 8 in
  if negb (zlen signature =? 1 + bitlen * 2) then Val (Err "invalid compact signature size"%string) else
  let* s0 := index signature 0 in
  let iteration := Z.land (u8 (s0 - 27)) 251 in
  let* Rb := slice signature 1 (bitlen + 1) in
  let* Sb := slice signature (bitlen + 1) (zlen signature) in
  recoverKeyFromSignature c (be2z Rb) (be2z Sb) hash iteration false.

(** signature.go, signRFC6979; halfOrder is N >> 1.  The nonce is prime to N, so ModInverse is not nil. *)
Definition signRFC6979 (c : curve) (D : Z) (hash : bytes) : go (res (Z * Z)) :=
  let N := c_N c in
  let k := nonce D hash in
  match ModInverse k N with
  | None => Panic "nil pointer dereference"
  | Some inv =>
      let r := fst (sbm c (big_bytes k)) mod N in
      if r =? 0 then Val (Err "calculated R is zero"%string) else
      let* e := hashToInt hash c in
      let s := ((D * r + e) * inv) mod N in
      let s := if s >? Z.shiftr N 1 then N - s else s in
      if s =? 0 then Val (Err "calculated S is zero"%string) else
      Val (Ok (r, s))
  end.

(** signature.go, SignCompact: the padding of R and S to curvelen bytes *)
Definition pad (curvelen z : Z) : bytes :=
  let bytelen := (bit_len z + 7) / 8 in
  (if bytelen <? curvelen then zeros (curvelen - bytelen) else []) ++ big_bytes z.
(** signature.go, SignCompact: the loop; iters are the values of i still to be tried *)
Fixpoint compact_loop (c : curve) (X Y R S : Z) (hash : bytes) (isCompressedKey : bool) (iters : list Z) : go (res bytes) :=
  match iters with
  | [] => Val (Err "no valid solution for pubkey found"%string)
  | i :: iters' =>
      let* pk := recoverKeyFromSignature c R S hash i true in
      match pk with
      | Ok (X', Y') =>
          if (X' =? X) && (Y' =? Y) then
            let h := u8 (27 + i) in
            let h := if isCompressedKey then u8 (h + 4) else h in
            let curvelen := (c_bits c + 7) / 8 in
            Val (Ok (h :: pad curvelen R ++ pad curvelen S))
          else compact_loop c X Y R S hash isCompressedKey iters'
      | Err _ => compact_loop c X Y R S hash isCompressedKey iters'
      end
  end.
(** signature.go, SignCompact; the cofactor H is 1, so i runs from 0 to 3 *)
Definition SignCompact (c : curve) (D X Y : Z) (hash : bytes) (isCompressedKey : bool) : go (res bytes) :=
  let* sig := signRFC6979 c D hash in
  match sig with
  | Err e => Val (Err e)
  | Ok (R, Sv) => compact_loop c X Y R Sv hash isCompressedKey [0; 1; 2; 3]
  end.

(** secp256k1.go:10-12; [pub] are the coordinates in pri.PrivateKey *)
Definition Secp256k1Sign (c : curve) (D : Z) (pub : Z * Z) (hash : bytes) : go (res bytes) :=
  SignCompact c D (fst pub) (snd pub) hash false.
(** secp256k1.go:14-20; IsEqual compares the coordinates *)
Definition Secp256k1Verify (c : curve) (pub : Z * Z) (hash sig : bytes) : go bool :=
  let* recKey := RecoverCompact c sig hash in
  match recKey with
  | Err _ => Val false
  | Ok (X, Y) => Val ((X =? fst pub) && (Y =? snd pub))
  end.
End Env.
