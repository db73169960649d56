(** * Eth: model of the signatures of go-ethereum, which /repo/signature/signature.go calls at 147, 149, 222 and 226

    The package (github.com/ethereum/go-ethereum/crypto, v1.9.25 in /repo/go.mod) is not in /repo; this follows its
    published source.  It has two versions: with cgo (signature_cgo.go) it calls the C library libsecp256k1 through
    secp256k1/secp256.go, without (signature_nocgo.go) it calls btcec (Btcec.v). *)
From Coq Require Import ZArith String List Bool.
From Verif Require Import Base Curves ECKey Keypair ECDSA.
From Verif Require Btcec.
Import ListNotations.
Open Scope Z_scope.
Local Notation p := (c_P S256).
Local Notation N := (c_N S256).

(** ** The C library.  Scalars are integers below N, field elements integers below p, affine points pairs of field
    elements with (0, 0) for infinity. *)
Section C.
(** ecmult_gen_impl.h, then ge_set_gej: k G *)
Variable ecmult_gen : Z -> Z * Z.
(** ecmult_impl.h, then ge_set_gej: na A + ng G *)
Variable ecmult : Z * Z -> Z -> Z -> Z * Z.
(** secp256k1.c, nonce_function_rfc6979, by message, key and counter *)
Variable nonce_fn : bytes -> bytes -> nat -> bytes.

(** scalar_impl.h, scalar_set_b32: the value and the overflow flag *)
Definition scalar_set_b32 (b : bytes) : Z * bool := let z := be2z b in (z mod N, z >=? N).
(** scalar_impl.h, scalar_is_high *)
Definition scalar_is_high (s : Z) : bool := s >? N / 2.
(** scalar_impl.h, scalar_inverse: a fixed power *)
Definition scalar_inverse (s : Z) : Z := powm s (N - 2) N.

(** ecdsa_impl.h, ecdsa_sig_sign: r, s and the recovery number *)
Definition ecdsa_sig_sign (seckey message nonce : Z) : option (Z * Z * Z) :=
  let (x, y) := ecmult_gen nonce in
  let (sigr, overflow) := (x mod N, x >=? N) in
  if sigr =? 0 then None else
  let recid := Z.lor (if overflow then 2 else 0) (if Z.odd y then 1 else 0) in
  let n := ((sigr * seckey) mod N + message) mod N in
  let sigs := (scalar_inverse nonce * n) mod N in
  if sigs =? 0 then None else
  if scalar_is_high sigs then Some (sigr, (- sigs) mod N, Z.lxor recid 1) else Some (sigr, sigs, recid).

(** modules/recovery/main_impl.h, ecdsa_sign_recoverable: the loop over the counter *)
Fixpoint sign_loop (fuel count : nat) (msg32 seckey : bytes) (sec msg : Z) : go (Z * Z * Z) :=
  match fuel with
  | O => OutOfFuel
  | S fuel' =>
      let (non, overflow) := scalar_set_b32 (nonce_fn msg32 seckey count) in
      if negb overflow && negb (non =? 0) then
        match ecdsa_sig_sign sec msg non with
        | Some r => Val r
        | None => sign_loop fuel' (S count) msg32 seckey sec msg
        end
      else sign_loop fuel' (S count) msg32 seckey sec msg
  end.
(** secp256k1/secp256.go, Sign *)
Definition secp_Sign (fuel : nat) (msg seckey : bytes) : go (res bytes) :=
  if negb (zlen msg =? 32) then Val (Err "invalid message length, need 32 bytes"%string) else
  if negb (zlen seckey =? 32) then Val (Err "invalid private key"%string) else
  let (sec, overflow) := scalar_set_b32 seckey in
  if overflow || (sec =? 0) then Val (Err "invalid private key"%string) else
  let* rsv := sign_loop fuel 0 msg seckey sec (fst (scalar_set_b32 msg)) in
  let '(r, s, recid) := rsv in
  Val (Ok (to_be 32 r ++ to_be 32 s ++ [recid])).
(** signature_cgo.go, Sign *)
Definition Sign_cgo (fuel : nat) (digestHash : bytes) (D : Z) (k : ecpub) : go (res bytes) :=
  if negb (zlen digestHash =? 32) then Val (Err "hash is required to be exactly 32 bytes"%string) else
  secp_Sign fuel digestHash (padded_big_bytes D (c_bits (pk_curve k) / 8)).

(** secp256k1.c, ecdsa_signature_parse_compact *)
Definition parse_compact (sig : bytes) : option (Z * Z) :=
  let (r, o1) := scalar_set_b32 (firstn 32 sig) in
  let (s, o2) := scalar_set_b32 (skipn 32 sig) in
  if o1 || o2 then None else Some (r, s).
(** eckey_impl.h, eckey_pubkey_parse; only the format that FromECDSAPub writes *)
Definition pubkey_parse (pub : bytes) : option (Z * Z) :=
  match pub with
  | 4 :: xy =>
      if negb (zlen xy =? 64) then None else
      let x := be2z (firstn 32 xy) in
      let y := be2z (skipn 32 xy) in
      if (x <? p) && (y <? p) && on_curve_k1 x y then Some (x, y) else None
  | _ => None
  end.
(** ecdsa_impl.h, ecdsa_sig_verify; the abscissa of a point with (0, 0) for infinity is compared with r and with r + N *)
Definition ecdsa_sig_verify (r s : Z) (pubkey : Z * Z) (message : Z) : bool :=
  if (r =? 0) || (s =? 0) then false else
  let sn := scalar_inverse s in
  let u1 := (sn * message) mod N in
  let u2 := (sn * r) mod N in
  let pr := ecmult pubkey u2 u1 in
  if (fst pr =? 0) && (snd pr =? 0) then false else
  if fst pr =? r then true else
  if r >=? p - N then false else
  fst pr =? r + N.
(** ext.h, ext_ecdsa_verify, and secp256k1.c, ecdsa_verify; secp256k1/secp256.go, VerifySignature; signature_cgo.go,
    VerifySignature *)
Definition VerifySignature_cgo (pubkey msg signature : bytes) : bool :=
  if negb (zlen msg =? 32) || negb (zlen signature =? 64) || (zlen pubkey =? 0) then false else
  match parse_compact signature with
  | None => false
  | Some (r, s) =>
      match pubkey_parse pubkey with
      | None => false
      | Some q => if scalar_is_high s then false else ecdsa_sig_verify r s q (fst (scalar_set_b32 msg))
      end
  end.
End C.

(** ** The version in Go *)
Section Go.
Variable checked : bool.
Variable sm : curve -> Z * Z -> bytes -> Z * Z.
Variable sbm : curve -> bytes -> Z * Z.
Variable add : curve -> Z * Z -> Z * Z -> Z * Z.
Variable nonce : Z -> bytes -> Z.
(** signature_nocgo.go, Sign; without cgo the curve of the key is btcec's *)
Definition Sign_nocgo (hash : bytes) (D : Z) (k : ecpub) : go (res bytes) :=
  if negb (zlen hash =? 32) then Val (Err "hash is required to be exactly 32 bytes"%string) else
  let* sig := Btcec.SignCompact checked sm sbm add nonce S256 D (pk_X k) (pk_Y k) hash false in
  match sig with
  | Err e => Val (Err e)
  | Ok sig =>
      let* s0 := index sig 0 in
      let v := u8 (s0 - 27) in
      let* t1 := slice sig 1 (zlen sig) in
      let sig := go_copy sig t1 in
      Val (Ok (set_nth 64 v sig))
  end.
(** btcec, pubkey.go, ParsePubKey; only the format that FromECDSAPub writes *)
Definition ParsePubKey (pub : bytes) : res (Z * Z) :=
  if zlen pub =? 0 then Err "pubkey string is empty"%string else
  match pub with
  | 4 :: xy =>
      if negb (zlen xy =? 64) then Err "invalid pub key length"%string else
      let x := be2z (firstn 32 xy) in
      let y := be2z (skipn 32 xy) in
      if x >=? p then Err "pubkey X parameter is >= to P"%string else
      if y >=? p then Err "pubkey Y parameter is >= to P"%string else
      if negb (on_curve_k1 x y) then Err "pubkey isn't on secp256k1 curve"%string else
      Ok (x, y)
  | _ => Err "not modelled"%string
  end.
(** crypto/ecdsa, Verify, for a curve without CombinedMult *)
Definition comb (pub : ecpub) (a b : bytes) : Z * Z := 
  add (pk_curve pub) (sbm (pk_curve pub) a) (sm (pk_curve pub) (pk_X pub, pk_Y pub) b).
(** signature_nocgo.go, VerifySignature; secp256k1halfN is N / 2 *)
Definition VerifySignature_nocgo (pubkey hash signature : bytes) : bool :=
  if negb (zlen signature =? 64) then false else
  let R := be2z (firstn 32 signature) in
  let Sv := be2z (skipn 32 signature) in
  match ParsePubKey pubkey with
  | Err _ => false
  | Ok (x, y) =>
      if Sv >? N / 2 then false else
      match Verify fermat comb {| pk_curve := S256; pk_X := x; pk_Y := y |} hash R Sv with Val b => b | _ => false end
  end.
End Go.
