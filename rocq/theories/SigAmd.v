(** * SigAmd: /repo/signature and the key functions of /repo/keypair on amd64, where the curve of /repo/sm2 is
    P256_SM2 with the instructions of p256_asm_amd64.s (AsmSM2.v) and the other curves have the methods of
    elliptic.CurveParams (Elliptic.v; that the P-256 of the Go library also has assembly on amd64 is left
    aside, as in SigWhole.v).  crypto/ecdsa finds the methods Inverse and CombinedMult of a curve by a type
    assertion; of the curves here only P256_SM2 has them. *)
From Coq Require Import ZArith String List Bool.
From Verif Require Import Base Curves ECKey Keypair SM3 SM2Sig Elliptic SM2Generic Signature SigWhole Prop_P256c Prop_P256d AsmVal.
From Verif Require ECDSA.
Import ListNotations.
Open Scope Z_scope.

(** the method ScalarBaseMult: p256_amd64.go:292-299 on P256_SM2 *)
Definition amd_sbm (c : curve) (b : bytes) : Z * Z :=
  if is_SM2Curve c then asm_sbm asm_prims b else Elliptic.ScalarBaseMult c b.

Section Env.
Variable sha512 : bytes -> bytes.
Variable aes : bytes -> bytes -> bytes.
(** signature.go:106 *)
Definition ecdsa_sign (D : Z) (k : ecpub) (digest : bytes) (r : randomness) : go (res (Z * Z)) :=
  if is_SM2Curve (pk_curve k)
  then ECDSA.Sign sha512 aes (fun _ => asm_sbm asm_prims) (fun _ => asm_inv asm_prims) (fst r) (snd r) D k digest
  else SigWhole.ecdsa_sign sha512 aes D k digest r.
(** signature.go:77; hasher is sm3.New() *)
Definition sm2_sign (r : randomness) (D : Z) (k : ecpub) (id msg : bytes) : go (res (Z * Z)) :=
  SM2Sig.Sign sha512 aes (asm_sbm asm_prims) (asm_inv asm_prims) (fst r) (snd r) D k id msg New.
(** signature.go:191.  Verify returns for every input (C78), whatever the methods of the curve give *)
Definition ecdsa_verify (k : ecpub) (digest : bytes) (R Sv : Z) : bool :=
  if is_SM2Curve (pk_curve k)
  then match ECDSA.Verify (fun _ => asm_inv asm_prims) (asm_comb asm_prims) k digest R Sv with Val b => b | _ => false end
  else SigWhole.ecdsa_verify k digest R Sv.
(** signature.go:197.  Verify returns for messages and IDs of less than 2^60 bytes (C43), whatever the methods of the curve give *)
Definition sm2_verify (k : ecpub) (id msg : bytes) (R Sv : Z) : bool :=
  match SM2Sig.Verify (asm_comb asm_prims) k id msg New R Sv with Val b => b | _ => false end.

Variable H : Z -> bytes -> bytes.
Variable k1SignCompact : Z -> ecpub -> bytes -> go (res bytes).
Variable k1RecoverCompact : bytes -> bytes -> go (res (Z * Z)).
Variable edSign : bytes -> bytes -> bytes.
Variable edVerify : bytes -> bytes -> bytes -> bool.
Variable ethSign : bytes -> Z -> ecpub -> go (res bytes).
Variable ethVerify : bytes -> bytes -> bytes -> bool.
(** signature.go:61-168 *)
Definition Sign := Signature.Sign H randomness ecdsa_sign k1SignCompact edSign ethSign sm2_sign.
(** signature.go:172-230 *)
Definition Verify := Signature.Verify H ecdsa_verify k1RecoverCompact edVerify ethVerify sm2_verify.
(** signature.go:292-348, then 172-230 *)
Definition receive (pub : pubkey) (msg buf : bytes) : go bool :=
  let* r := Deserialize buf in
  match r with
  | Err _ => Val false
  | Ok sig => Verify pub msg (Some sig)
  end.
End Env.
