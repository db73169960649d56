(** * SigWhole: signature.Sign and signature.Verify (/repo/signature/signature.go) with what they call filled in

    crypto/ecdsa (ECDSA.v) and /repo/sm2 (SM2Sig.v) over the methods of elliptic.CurveParams (Elliptic.v), as on
    platforms without assembly; the hash functions, btcec, ed25519 and go-ethereum stay parameters. *)
From Coq Require Import ZArith String List Bool.
From Verif Require Import Base Curves ECKey Keypair SM3 SM2Sig Elliptic SM2Generic ECDSA Signature.
Import ListNotations.
Open Scope Z_scope.

(** rand.Reader: the entropy read by one call, and a bound on the number of nonces tried *)
Definition randomness : Type := (nat * res bytes)%type.

Section Env.
Variable sha512 : bytes -> bytes.
Variable aes : bytes -> bytes -> bytes.
(** signature.go:106 *)
Definition ecdsa_sign (D : Z) (k : ecpub) (digest : bytes) (r : randomness) : go (res (Z * Z)) :=
  ECDSA.Sign sha512 aes ScalarBaseMult fermat (fst r) (snd r) D k digest.
(** signature.go:77; hasher is sm3.New() *)
Definition sm2_sign (r : randomness) (D : Z) (k : ecpub) (id msg : bytes) : go (res (Z * Z)) :=
  SM2Sig.Sign sha512 aes generic_sbm generic_inv (fst r) (snd r) D k id msg New.
(** signature.go:191.  Verify returns for every input (C78) *)
Definition ecdsa_verify (k : ecpub) (digest : bytes) (R Sv : Z) : bool :=
  match ECDSA.Verify fermat generic_comb k digest R Sv with Val b => b | _ => false end.
(** signature.go:197.  Verify returns for messages and IDs of less than 2^60 bytes (C43) *)
Definition sm2_verify (k : ecpub) (id msg : bytes) (R Sv : Z) : bool :=
  match SM2Sig.Verify generic_comb k id msg New R Sv with Val b => b | _ => false end.

Variable H : Z -> bytes -> bytes.
Variable k1SignCompact : Z -> ecpub -> bytes -> go (res bytes).
Variable k1RecoverCompact : bytes -> bytes -> go (res (Z * Z)).
Variable edSign : bytes -> bytes -> bytes.
Variable edVerify : bytes -> bytes -> bytes -> bool.
Variable ethSign : bytes -> Z -> ecpub -> go (res bytes).
Variable ethVerify : bytes -> bytes -> bytes -> bool.
(** signature.go:61-168 *)
Definition Sign := Signature.Sign H randomness ecdsa_sign k1SignCompact edSign ethSign sm2_sign.
(** signature.go:172-230 *)
Definition Verify := Signature.Verify H ecdsa_verify k1RecoverCompact edVerify ethVerify sm2_verify.
(** signature.go:292-348, then 172-230: what a receiver does with the bytes of a signature *)
Definition receive (pub : pubkey) (msg buf : bytes) : go bool :=
  let* r := Deserialize buf in
  match r with
  | Err _ => Val false
  | Ok sig => Verify pub msg (Some sig)
  end.
End Env.
