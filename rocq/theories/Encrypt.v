(** * Encrypt: model of /repo/keypair/encrypt.go.  Line numbers refer to that file. *)
From Coq Require Import ZArith String List Bool.
From Verif Require Import Base Curves ECKey Keypair AES Spec_GCM.
Import ListNotations.
Open Scope Z_scope.

(** keypair/encrypt.go:34-42.  Strings that are only used as byte strings (Address) are byte strings.  Of the
    parameter map only the entry "curve" is ever read or written; a missing entry (and a nil
    map) reads as the empty string, so it is represented by "".  The Hash field is never used. *)
Record ProtectedKey := {
  pt_Address : bytes;
  pt_EncAlg : string;
  pt_Key : bytes;
  pt_Alg : string;
  pt_Salt : bytes;
  pt_curve : string }.

(** keypair/encrypt.go:45-50 *)
Record ScryptParam := { sp_P : Z; sp_N : Z; sp_R : Z; sp_DKLen : Z }.

(** keypair/encrypt.go:52-57, 257-264 *)
Definition GetScryptParameters : ScryptParam := {| sp_P := 8; sp_N := 16384; sp_R := 8; sp_DKLen := 64 |}.

Section Env.
Variable sbm : curve -> bytes -> Z * Z.
(** scrypt.Key(password, salt, N, r, p, keyLen): any function that may fail *)
Variable scrypt : bytes -> bytes -> Z -> Z -> Z -> Z -> res bytes.
(** crypto/aes *)
Variable bc : block_cipher.
Variable sha256 : bytes -> bytes.

(** keypair/encrypt.go:221-230; the parameter pointer is not nil *)
Definition kdf (pwd salt : bytes) (param : ScryptParam) : res bytes :=
  if sp_DKLen param <? 32 then Err "derived key length too short"
  else scrypt pwd salt (sp_N param) (sp_R param) (sp_P param) (sp_DKLen param).

(** keypair/encrypt.go:214-219 *)
Definition saltFromAddress (addr : bytes) : go bytes := slice (sha256 (sha256 addr)) 0 4.

(** keypair/encrypt.go:232-242: aes.NewCipher fails for other key lengths; cipher.NewGCM does not fail for a
    block size of 16. *)
Definition gcmCipher (key : bytes) : res (bytes -> bytes) :=
  if aes_key_ok key then Ok (bc_enc bc key) else Err "crypto/aes: invalid key size".

(** keypair/encrypt.go:244-254; cipher.NewCTR panics unless the iv has the block length *)
Definition ctrCipher (data key iv : bytes) : go (res bytes) :=
  if aes_key_ok key then
    if zlen iv =? 16 then Val (Ok (ctr_mode inc128 (bc_enc bc key) (blocks data) iv data))
    else Panic "cipher.NewCTR: IV length must equal block size"
  else Val (Err "crypto/aes: invalid key size").

(** keypair/errors.go:3-23: the texts of EncryptError and DecryptError *)
Definition enc_err {A : Type} (m : string) : go (res A) := Val (Err (String.append "encrypt private key error: " m)).
Definition dec_err {A : Type} (m : string) : go (res A) := Val (Err (String.append "decrypt private key error: " m)).

(** keypair/encrypt.go:73-122.  [rnd] is the outcome of randomBytes(16) (205-212). *)
Definition EncryptWithCustomScrypt (rnd : res bytes) (pri : privkey) (addr pwd : bytes)
    (param : ScryptParam) : go (res ProtectedKey) :=
  match rnd with
  | Err e => enc_err e
  | Ok salt =>
      match kdf pwd salt param with
      | Err e => enc_err e
      | Ok dkey =>
          let* nonce := slice dkey 0 12 in
          let* ekey := slice dkey (zlen dkey - 32) (zlen dkey) in
          let* t :=
            match pri with
            | SkEC alg d k =>
                if alg =? ECDSA then Val (big_bytes d, "ECDSA"%string, c_name (pk_curve k))
                else if alg =? SM2 then Val (big_bytes d, "SM2"%string, c_name (pk_curve k))
                else Panic "unsupported ec algorithm"
            | SkEd b => Val (b, "Ed25519"%string, ""%string)
            | _ => Panic "unsupported key type"
            end in
          let '(plaintext, alg, cname) := t in
          match gcmCipher ekey with
          | Err e => enc_err e
          | Ok E =>
              Val (Ok {| pt_Address := addr; pt_EncAlg := "aes-256-gcm"; pt_Key := gcm_seal E nonce plaintext addr;
                         pt_Alg := alg; pt_Salt := salt; pt_curve := cname |})
          end
      end
  end.

(** keypair/encrypt.go:64-66 *)
Definition EncryptPrivateKey rnd pri addr pwd := EncryptWithCustomScrypt rnd pri addr pwd GetScryptParameters.

(** keypair/encrypt.go:166-190: the second half of DecryptWithCustomScrypt *)
Definition rebuild_key (prot : ProtectedKey) (plaintext : bytes) : go (res privkey) :=
  if String.eqb (pt_Alg prot) "ECDSA" || String.eqb (pt_Alg prot) "SM2" then
    match GetNamedCurve (pt_curve prot) with
    | Err e => dec_err e
    | Ok c =>
        let '(d, k) := ConstructPrivateKey sbm plaintext c in
        Val (Ok (SkEC (if String.eqb (pt_Alg prot) "ECDSA" then ECDSA else SM2) d k))
    end
  else if String.eqb (pt_Alg prot) "Ed25519" then
    if negb (zlen plaintext =? 64) then dec_err "invalid Ed25519 private key length"
    else Val (Ok (SkEd plaintext))
  else dec_err "unknown key type".

(** keypair/encrypt.go:124-191.  [None] is the nil pointer.  A failed gcmCipher (its error is dropped, 145) would
    leave gcm nil and the next line would panic. *)
Definition DecryptWithCustomScrypt (prot : option ProtectedKey) (pwd : bytes) (param : ScryptParam) : go (res privkey) :=
  match prot with
  | None => dec_err "invalid argument"
  | Some prot =>
      if zlen pwd =? 0 then dec_err "invalid argument" else
      if String.eqb (pt_EncAlg prot) "aes-256-gcm" then
        match kdf pwd (pt_Salt prot) param with
        | Err e => dec_err e
        | Ok dkey =>
            let* ekey := slice dkey (zlen dkey - 32) (zlen dkey) in
            let* nonce := slice dkey 0 12 in
            match gcmCipher ekey with
            | Err _ => Panic "nil pointer dereference"
            | Ok E =>
                match gcm_open E nonce (pt_Key prot) (pt_Address prot) with
                | Err e => dec_err e
                | Ok plaintext => rebuild_key prot plaintext
                end
            end
        end
      else if String.eqb (pt_EncAlg prot) "aes-256-ctr" then
        let* salt := saltFromAddress (pt_Address prot) in
        match kdf pwd salt param with
        | Err e => dec_err e
        | Ok dkey =>
            let* iv := slice dkey 0 16 in
            let* ekey := slice dkey (zlen dkey - 32) (zlen dkey) in
            let* r := ctrCipher (pt_Key prot) ekey iv in
            match r with
            | Err e => dec_err e
            | Ok plaintext => rebuild_key prot plaintext
            end
        end
      else dec_err "unsupported encryption algorithm"
  end.

(** keypair/encrypt.go:69-71 *)
Definition DecryptPrivateKey prot pwd := DecryptWithCustomScrypt prot pwd GetScryptParameters.

(** keypair/encrypt.go:196-203; prot is dereferenced only after a successful decryption, hence not nil *)
Definition ReencryptPrivateKey (rnd : res bytes) (prot : option ProtectedKey) (oldPwd newPwd : bytes)
    (oldParam newParam : ScryptParam) : go (res ProtectedKey) :=
  let* r := DecryptWithCustomScrypt prot oldPwd oldParam in
  match r with
  | Err e => Val (Err e)
  | Ok pri =>
      match prot with
      | None => Panic "nil pointer dereference"
      | Some p => EncryptWithCustomScrypt rnd pri (pt_Address p) newPwd newParam
      end
  end.
End Env.
