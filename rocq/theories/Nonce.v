(** * Nonce: the deterministic nonces of btcec and libsecp256k1 (RFC 6979)

    /repo/signature/secp256k1.go:11 and, through go-ethereum, /repo/signature/signature.go:147-149 sign with them.  The
    packages are not in /repo; this follows the published source of btcec v0.22.0-beta (signature.go), of the standard
    library (crypto/hmac) and of the copy of libsecp256k1 in go-ethereum v1.9.25 (secp256k1.c, hash_impl.h). *)
From Coq Require Import ZArith String List Bool.
From Verif Require Import Base Curves ECKey Keypair ECDSA Signature SigWhole.
From Verif Require Btcec BtcecWhole Eth.
Import ListNotations.
Open Scope Z_scope.

Section Env.
(** crypto/sha256 and sha256_impl of the C library, on the concatenated writes *)
Variable sha256 : bytes -> bytes.

(** crypto/hmac: New, Write(m), Sum(nil); hash_impl.h: hmac_sha256_initialize, _write, _finalize.  The block size is 64. *)
Definition hmac (key m : bytes) : bytes :=
  let key := if zlen key >? 64 then sha256 key else key in
  let pad := key ++ repeat 0 (64 - length key) in
  let ipad := map (Z.lxor 0x36) pad in
  let opad := map (Z.lxor 0x5c) pad in
  sha256 (opad ++ sha256 (ipad ++ m)).

(** ** btcec, signature.go *)
(** int2octets *)
Definition int2octets (v rolen : Z) : go bytes :=
  let out := big_bytes v in
  if zlen out <? rolen then Val (repeat 0 (Z.to_nat (rolen - zlen out)) ++ out) else
  if zlen out >? rolen then slice out (zlen out - rolen) (zlen out) else
  Val out.
(** bits2octets *)
Definition bits2octets (b : bytes) (c : curve) (rolen : Z) : go bytes :=
  let* z1 := hashToInt b c in
  let z2 := z1 - c_N c in
  if z2 <? 0 then int2octets z1 rolen else int2octets z2 rolen.
(** nonceRFC6979, step H2: for len(t)*8 < qlen *)
Fixpoint fill_t (fuel : nat) (qlen : Z) (k v t : bytes) : go (bytes * bytes) :=
  match fuel with
  | O => OutOfFuel
  | S fuel' =>
      if zlen t * 8 <? qlen then
        let v := hmac k v in
        fill_t fuel' qlen k v (t ++ v)
      else Val (v, t)
  end.
(** nonceRFC6979, step H: for {} *)
Fixpoint nonce_loop (fuel : nat) (k v : bytes) : go Z :=
  match fuel with
  | O => OutOfFuel
  | S fuel' =>
      let q := c_N S256 in
      let* vt := fill_t 257 (bit_len q) k v [] in
      let '(v, t) := vt in
      let* secret := hashToInt t S256 in
      if (secret >=? 1) && (secret <? q) then Val secret else
      let k := hmac k (v ++ [0]) in
      let v := hmac k v in
      nonce_loop fuel' k v
  end.
(** nonceRFC6979 *)
Definition nonceRFC6979 (fuel : nat) (x : Z) (hash : bytes) : go Z :=
  let rolen := Z.shiftr (bit_len (c_N S256) + 7) 3 in
  let* xb := int2octets x rolen in
  let* hb := bits2octets hash S256 rolen in
  let bx := xb ++ hb in
  let v := repeat 1 32 in
  let k := repeat 0 32 in
  let k := hmac k ((v ++ [0]) ++ bx) in
  let v := hmac k v in
  let k := hmac k ((v ++ [1]) ++ bx) in
  let v := hmac k v in
  nonce_loop fuel k v.

(** ** libsecp256k1 *)
(** hash_impl.h, rfc6979_hmac_sha256_t *)
Record rng := { rg_v : bytes; rg_k : bytes; rg_retry : bool }.
(** hash_impl.h, rfc6979_hmac_sha256_initialize *)
Definition rng_initialize (key : bytes) : rng :=
  let v := repeat 1 32 in
  let k := repeat 0 32 in
  let k := hmac k (v ++ [0] ++ key) in
  let v := hmac k v in
  let k := hmac k (v ++ [1] ++ key) in
  let v := hmac k v in
  {| rg_v := v; rg_k := k; rg_retry := false |}.
(** hash_impl.h, rfc6979_hmac_sha256_generate for 32 bytes *)
Definition rng_generate (r : rng) : bytes * rng :=
  let (k, v) := if rg_retry r then (let k := hmac (rg_k r) (rg_v r ++ [0]) in (k, hmac k (rg_v r))) else (rg_k r, rg_v r) in
  let v := hmac k v in
  (v, {| rg_v := v; rg_k := k; rg_retry := true |}).
(** secp256k1.c, nonce_function_rfc6979 without additional data: counter + 1 calls of generate *)
Fixpoint generate_last (counter : nat) (r : rng) : bytes :=
  let (nonce32, r) := rng_generate r in
  match counter with
  | O => nonce32
  | S counter' => generate_last counter' r
  end.
Definition nonce_function_rfc6979 (msg32 key32 : bytes) (counter : nat) : bytes :=
  generate_last counter (rng_initialize (key32 ++ msg32)).

(** ** The signers with these nonces *)
Variable checked : bool.
Variable sm : curve -> Z * Z -> bytes -> Z * Z.
Variable sbm : curve -> bytes -> Z * Z.
Variable add : curve -> Z * Z -> Z * Z -> Z * Z.
Variable ecmult_gen : Z -> Z * Z.
(** secp256k1.go, Secp256k1Sign, with nonceRFC6979 computed where signRFC6979 computes it, before everything else *)
Definition k1_sign (fuel : nat) (D : Z) (k : ecpub) (hash : bytes) : go (res bytes) :=
  let* n := nonceRFC6979 fuel D hash in
  BtcecWhole.k1_sign checked sm sbm add (fun _ _ => n) D k hash.
(** go-ethereum, Sign with cgo (true) and without *)
Definition eth_sign (cgo : bool) (fuel : nat) (hash : bytes) (D : Z) (k : ecpub) : go (res bytes) :=
  if cgo then Eth.Sign_cgo ecmult_gen nonce_function_rfc6979 fuel hash D k else
  if negb (zlen hash =? 32) then Val (Err "hash is required to be exactly 32 bytes"%string) else
  let* n := nonceRFC6979 fuel D hash in
  Eth.Sign_nocgo checked sm sbm add (fun _ _ => n) hash D k.
Variable sha512 : bytes -> bytes.
Variable aes : bytes -> bytes -> bytes.
Variable H : Z -> bytes -> bytes.
Variable edSign : bytes -> bytes -> bytes.
(** signature.go:61-168 *)
Definition Sign (cgo : bool) (fuel : nat) :=
  Signature.Sign H randomness (ecdsa_sign sha512 aes) (k1_sign fuel) edSign (eth_sign cgo fuel) (sm2_sign sha512 aes).
End Env.
