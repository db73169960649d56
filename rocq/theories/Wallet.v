(** * Wallet: ReencryptPrivateKey (/repo/keypair/encrypt.go:193-203) over the scrypt of Scrypt.v, so with the panics of scrypt.Key *)
From Coq Require Import ZArith String List Bool.
From Verif Require Import Base Curves ECKey Keypair AES Spec_GCM Encrypt Scrypt.
Import ListNotations.
Open Scope Z_scope.

Section Env.
Variable sha256 : bytes -> bytes.
Variable sbm : curve -> bytes -> Z * Z.
Variable bc : block_cipher.
(** encrypt.go:196-203; prot is dereferenced only after a successful decryption, hence not nil *)
Definition ReencryptS (rnd : res bytes) (prot : option ProtectedKey) (oldPwd newPwd : bytes) (oldParam newParam : ScryptParam) : go (res ProtectedKey) :=
  let* r := DecryptS sha256 sbm bc prot oldPwd oldParam in
  match r with
  | Err e => Val (Err e)
  | Ok pri =>
      match prot with
      | None => Panic "nil pointer dereference"
      | Some p => EncryptS sha256 bc rnd pri (pt_Address p) newPwd newParam
      end
  end.
(** a caller that changes the password several times: each entry is the salt that is drawn, the new password and the new parameters *)
Fixpoint changes (prot : ProtectedKey) (pwd : bytes) (param : ScryptParam) (l : list (bytes * bytes * ScryptParam)) : go (res (ProtectedKey * bytes * ScryptParam)) :=
  match l with
  | [] => Val (Ok (prot, pwd, param))
  | (salt, pwd', param') :: l =>
      let* r := ReencryptS (Ok salt) (Some prot) pwd pwd' param param' in
      match r with Err e => Val (Err e) | Ok prot' => changes prot' pwd' param' l end
  end.
End Env.
