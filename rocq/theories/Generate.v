(** * Generate: key pair generation (keypair/key.go, ec/key.go) *)
From Coq Require Import ZArith String List Bool.
From Verif Require Import Base Curves ECKey Keypair.
Import ListNotations.
Open Scope Z_scope.

(** What GenerateKeyPair returns: two keys and a nil error, or an error.  On an error the two interface
    values are nil, or hold nil pointers ([typed_nil]) and so differ from nil. *)
Inductive generated := Keys (pri : privkey) (pub : pubkey) | Failed (typed_nil : bool) (why : string).

(** The method Public of the interface PrivateKey (key.go:49-52): /repo/ec/key.go:61-63; the second half of an
    ed25519.PrivateKey (panics when it is shorter); ec.EthereumPrivateKey (key.go:53-55 of package ec) has the method
    of the embedded *ecdsa.PrivateKey, which returns an *ecdsa.PublicKey: no key type of this library. *)
Definition Public (k : privkey) : go pubkey :=
  match k with
  | SkEC alg _ p => Val (PkEC alg p)
  | SkEd b => let* p := slice b 32 (zlen b) in Val (PkEd p)
  | SkEth _ _ => Val (PkOther 1)
  | SkOther t => Val (PkOther t)
  end.

(** crypto/elliptic.GenerateKey, its table mask *)
Definition masks : list Z := [255; 1; 3; 7; 15; 31; 63; 127].

Section Env.
(** ScalarBaseMult of the curves, as in Keypair.v *)
Variable sbm : curve -> bytes -> Z * Z.
(** ed25519.NewKeyFromSeed: any function from 32 bytes to private keys *)
Variable ed_new : bytes -> bytes.
(** crypto/ecdsa randFieldElement: differs between versions of Go; here any function of the random bytes that
    gives a scalar, or None for an error of the random source *)
Variable field_element : curve -> bytes -> option Z.

(** crypto/elliptic.GenerateKey.  The random source is the list of bytes it will deliver; a
    read beyond its end is an error.  [fuel] bounds the number of attempts.  ScalarBaseMult is assumed not
    to return nil. *)
Fixpoint elliptic_gen (fuel : nat) (c : curve) (rand : bytes) : go (res (bytes * Z * Z)) :=
  match fuel with
  | O => OutOfFuel
  | S f =>
      let bitSize := bit_len (c_N c) in
      let byteLen := Z.shiftr (bitSize + 7) 3 in
      if zlen rand <? byteLen then Val (Err "unexpected EOF") else
      let* priv := slice rand 0 byteLen in
      let* rest := slice rand byteLen (zlen rand) in
      let* p0 := index priv 0 in
      let* m := index masks (bitSize mod 8) in
      let priv := set_nth 0 (Z.land p0 m) priv in
      let* p1 := index priv 1 in
      let priv := set_nth 1 (Z.lxor p1 66) priv in
      if be2z priv >=? c_N c then elliptic_gen f c rest else
      let '(x, y) := sbm c priv in
      Val (Ok (priv, x, y))
  end.

(** /repo/ec/key.go:65-87 *)
Definition GenerateECKeyPair (c : curve) (rand : bytes) (alg : Z) : go (res (privkey * pubkey)) :=
  let* r := elliptic_gen (S (List.length rand)) c rand in
  match r with
  | Err e => Val (Err ("Generate ec key pair failed, " ++ e))
  | Ok (d, x, y) =>
      let pub := {| pk_curve := c; pk_X := x; pk_Y := y |} in
      Val (Ok (SkEC alg (be2z d) pub, PkEC alg pub))
  end.

(** ed25519.GenerateKey: the seed is the first 32 bytes, the public key the second half *)
Definition ed25519_gen (rand : bytes) : go (res (bytes * bytes)) :=
  if zlen rand <? 32 then Val (Err "unexpected EOF") else
  let* seed := slice rand 0 32 in
  let pri := ed_new seed in
  let* pub := slice pri 32 (zlen pri) in
  Val (Ok (pub, pri)).

(** crypto/ecdsa.GenerateKey: the point is computed from the scalar without leading zeros *)
Definition ecdsa_gen (c : curve) (rand : bytes) : res (Z * ecpub) :=
  match field_element c rand with
  | None => Err "unexpected EOF"
  | Some k => let '(x, y) := sbm c (big_bytes k) in Ok (k, {| pk_curve := c; pk_X := x; pk_Y := y |})
  end.

(** /repo/keypair/key.go:79-121.  opts is an interface: a byte, or None for any other value.  The results of
    GenerateECKeyPair are pointers; ed25519.GenerateKey returns slices: both become non-nil interfaces. *)
Definition GenerateKeyPair (t : Z) (opts : option Z) (rand : bytes) : go generated :=
  if (t =? PK_ECDSA) || (t =? PK_SM2) then
    match opts with
    | None => Val (Failed false "key pair generation failed, invalid EC options, 1 byte curve label excepted")
    | Some param =>
        match GetCurve param with
        | Err e => Val (Failed false ("key pair generation failed, " ++ e))
        | Ok c =>
            let* r := GenerateECKeyPair c rand (if t =? PK_ECDSA then ECDSA else SM2) in
            match r with Ok (pri, pub) => Val (Keys pri pub) | Err e => Val (Failed true e) end
        end
    end
  else if t =? PK_EDDSA then
    match opts with
    | None => Val (Failed false "key pair generation failed, invalid EdDSA option")
    | Some param =>
        if param =? L_ED25519 then
          let* r := ed25519_gen rand in
          match r with Ok (pub, pri) => Val (Keys (SkEd pri) (PkEd pub)) | Err e => Val (Failed true e) end
        else Val (Failed false "key pair generation failed, unsupported EdDSA scheme")
    end
  else if t =? PK_ETHECDSA then
    match ecdsa_gen EthS256 rand with
    | Err e => Val (Failed false e)
    | Ok (d, k) => Val (Keys (SkEth d k) (PkEth k))
    end
  else Val (Failed false "key pair generation failed, unknown algorithm").
End Env.
