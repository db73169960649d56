(** * ECDSA: model of Sign and Verify of crypto/ecdsa, which /repo/signature/signature.go calls at 106 and 191

    The package is not in /repo; this follows the source published with Go 1.12 (go.mod names that version),
    crypto/ecdsa/ecdsa.go and crypto/elliptic/elliptic.go.  Later versions draw the nonce in another way; hashToInt and
    Verify have stayed the same up to Go 1.19. *)
From Coq Require Import ZArith String List Bool.
From Verif Require Import Base Curves ECKey Elliptic SM2Generic.
Import ListNotations.
Open Scope Z_scope.

(** ecdsa.go, hashToInt: the leading bits of the digest, as many as the order has *)
Definition hashToInt (hash : bytes) (c : curve) : go Z :=
  let orderBits := bit_len (c_N c) in
  let orderBytes := (orderBits + 7) / 8 in
  let* hash := if zlen hash >? orderBytes then slice hash 0 orderBytes else Val hash in
  let ret := be2z hash in
  let excess := zlen hash * 8 - orderBits in
  Val (if excess >? 0 then Z.shiftr ret excess else ret).

(** ecdsa.go, randFieldElement; [b] is what is read from the key stream *)
Definition randFieldElement (c : curve) (b : bytes) : Z := be2z b mod (c_N c - 1) + 1.

(** ecdsa.go: aesIV *)
Definition aesIV : bytes := str_bytes "IV for ECDSA CTR".
(** ecdsa.go, Sign: entropylen *)
Definition entropylen (c : curve) : Z := Z.min 32 ((c_bits c + 7) / 16).

Section Env.
(** crypto/sha512, and the block transformation of crypto/aes for a key *)
Variable sha512 : bytes -> bytes.
Variable aes : bytes -> bytes -> bytes.
(** ScalarBaseMult of the curve *)
Variable sbm : curve -> bytes -> Z * Z.
(** Sign: Inverse of the curve if it has that method (the SM2 curve on amd64), otherwise fermatInverse *)
Variable inv : curve -> Z -> Z.
(** Verify: Inverse of the curve, otherwise ModInverse *)
Variable winv : curve -> Z -> Z.
(** Verify: CombinedMult of the curve, otherwise ScalarBaseMult, ScalarMult and Add *)
Variable comb : ecpub -> bytes -> bytes -> Z * Z.

(** zero bytes encrypted in CTR mode; the i-th read of n bytes gets the bytes n*i to n*i+n-1 *)
Definition key_stream (key : bytes) (i : nat) : Z :=
  nth (i mod 16) (aes key (to_be 16 (be2z aesIV + Z.of_nat (i / 16)))) 0.
Definition csprng (key : bytes) (n i : nat) : bytes := map (fun j => key_stream key (n * i + j)) (seq 0 n).

(** ecdsa.go, Sign, the two nested loops: both go back to the place where k is drawn, so they are one loop whose
    iterations are counted.  hashToInt is called in each round and gives the same value. *)
Fixpoint sign_loop (fuel : nat) (c : curve) (draw : nat -> bytes) (i : nat) (D : Z) (hash : bytes) : go (Z * Z) :=
  match fuel with
  | O => OutOfFuel
  | S fuel' =>
      let k := randFieldElement c (draw i) in
      let kInv := inv c k in
      let r := fst (sbm c (big_bytes k)) mod c_N c in
      if r =? 0 then sign_loop fuel' c draw (S i) D hash else
      let* e := hashToInt hash c in
      let s := ((D * r + e) * kInv) mod c_N c in
      if s =? 0 then sign_loop fuel' c draw (S i) D hash else Val (r, s)
  end.

(** ecdsa.go, Sign.  [entropy] is the outcome of io.ReadFull(rand, entropy) after MaybeReadByte. *)
Definition Sign (fuel : nat) (entropy : res bytes) (D : Z) (pub : ecpub) (hash : bytes) : go (res (Z * Z)) :=
  match entropy with
  | Err e => Val (Err e)
  | Ok entropy =>
      let* key := slice (sha512 (big_bytes D ++ entropy ++ hash)) 0 32 in
      let c := pk_curve pub in
      if c_N c =? 0 then Val (Err "zero parameter"%string) else
      let* rs := sign_loop fuel c (csprng key (Z.to_nat (c_bits c / 8 + 8))) 0 D hash in
      Val (Ok rs)
  end.

(** ecdsa.go, Verify *)
Definition Verify (pub : ecpub) (hash : bytes) (r s : Z) : go bool :=
  let c := pk_curve pub in
  let N := c_N c in
  if (r <=? 0) || (s <=? 0) then Val false else
  if (r >=? N) || (s >=? N) then Val false else
  let* e := hashToInt hash c in
  let w := winv c s in
  let u1 := (e * w) mod N in
  let u2 := (r * w) mod N in
  let xy := comb pub (big_bytes u1) (big_bytes u2) in
  if (fst xy =? 0) && (snd xy =? 0) then Val false else
  Val (fst xy mod N =? r).
End Env.

(** ** Curves without own methods Inverse and CombinedMult: all but the SM2 curve on amd64 (and the curve P-256 of
    crypto/elliptic on some platforms, whose assembly is taken to agree with the generic methods).
    fermatInverse is that of SM2Generic.v (the same code); ModInverse of a number prime to N is modelled by the same power. *)
Definition fermat (c : curve) (k : Z) : Z := fermatInverse k (c_N c).
