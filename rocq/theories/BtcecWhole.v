(** * BtcecWhole: signature.Sign and signature.Verify (/repo/signature/signature.go) with btcec filled in for secp256k1 keys

    The keys of the other curves are treated as in SigWhole.v.  The methods of the curve that btcec implements stay
    parameters, as in Btcec.v. *)
From Coq Require Import ZArith String List Bool.
From Verif Require Import Base Curves ECKey Keypair ECDSA Elliptic SM2Generic Signature SigWhole.
From Verif Require Btcec.
Import ListNotations.
Open Scope Z_scope.

Section Env.
Variable checked : bool.
Variable sm : curve -> Z * Z -> bytes -> Z * Z.
Variable sbm : curve -> bytes -> Z * Z.
Variable add : curve -> Z * Z -> Z * Z -> Z * Z.
Variable nonce : Z -> bytes -> Z.

(** secp256k1.go:11 *)
Definition k1_sign (D : Z) (k : ecpub) (hash : bytes) : go (res bytes) :=
  Btcec.SignCompact checked sm sbm add nonce S256 D (pk_X k) (pk_Y k) hash false.
(** secp256k1.go:15 *)
Definition k1_recover (sig hash : bytes) : go (res (Z * Z)) := Btcec.RecoverCompact checked sm sbm add S256 sig hash.
(** crypto/ecdsa, Verify, for a curve without CombinedMult, which KoblitzCurve is *)
Definition k1_comb (pub : ecpub) (a b : bytes) : Z * Z :=
  add (pk_curve pub) (sbm (pk_curve pub) a) (sm (pk_curve pub) (pk_X pub, pk_Y pub) b).
(** signature.go:191 *)
Definition ecdsa_verify (k : ecpub) (digest : bytes) (R Sv : Z) : bool :=
  if String.eqb (c_name (pk_curve k)) (c_name S256)
  then match ECDSA.Verify fermat k1_comb k digest R Sv with Val b => b | _ => false end
  else SigWhole.ecdsa_verify k digest R Sv.

Variable sha512 : bytes -> bytes.
Variable aes : bytes -> bytes -> bytes.
Variable H : Z -> bytes -> bytes.
Variable edSign : bytes -> bytes -> bytes.
Variable edVerify : bytes -> bytes -> bytes -> bool.
Variable ethSign : bytes -> Z -> ecpub -> go (res bytes).
Variable ethVerify : bytes -> bytes -> bytes -> bool.
(** signature.go:61-168 *)
Definition Sign := Signature.Sign H randomness (ecdsa_sign sha512 aes) k1_sign edSign ethSign (sm2_sign sha512 aes).
(** signature.go:172-230 *)
Definition Verify := Signature.Verify H ecdsa_verify k1_recover edVerify ethVerify sm2_verify.
(** signature.go:292-348, then 172-230 *)
Definition receive (pub : pubkey) (msg buf : bytes) : go bool :=
  let* r := Deserialize buf in
  match r with
  | Err _ => Val false
  | Ok sig => Verify pub msg (Some sig)
  end.
End Env.
