(** * Signature: model of /repo/signature (scheme.go, signature.go, secp256k1.go) *)
From Coq Require Import ZArith String List Bool.
From Verif Require Import Base Curves ECKey Keypair.
Import ListNotations.
Open Scope Z_scope.

(** ** scheme.go *)

(** scheme.go:41-57; a SignatureScheme is a byte *)
Definition SHA224withECDSA := 0.
Definition SHA256withECDSA := 1.
Definition SHA384withECDSA := 2.
Definition SHA512withECDSA := 3.
Definition SHA3_224withECDSA := 4.
Definition SHA3_256withECDSA := 5.
Definition SHA3_384withECDSA := 6.
Definition SHA3_512withECDSA := 7.
Definition RIPEMD160withECDSA := 8.
Definition SM3withSM2 := 9.
Definition SHA512withEDDSA := 10.
Definition KECCAK256WithECDSA := 11.

(** scheme.go:59-72 *)
Definition names : list string :=
  ["SHA224withECDSA"; "SHA256withECDSA"; "SHA384withECDSA"; "SHA512withECDSA";
   "SHA3-224withECDSA"; "SHA3-256withECDSA"; "SHA3-384withECDSA"; "SHA3-512withECDSA";
   "RIPEMD160withECDSA"; "SM3withSM2"; "SHA512withEdDSA"; "KECCAK256WithECDSA"]%string.

(** scheme.go:74-79 *)
Definition Name (s : Z) : go string :=
  if s >=? zlen names then Panic "unknown scheme value" else index names s.

(** strings.EqualFold(v, name) for an ASCII string v: letters of either case, and the two
    other characters that fold to ASCII letters, U+017F (for s) and U+212A (for k), written
    in UTF-8. *)
Definition lower (b : Z) : Z := if (65 <=? b) && (b <=? 90) then b + 32 else b.
Fixpoint EqualFold (v name : bytes) : bool :=
  match v, name with
  | [], [] => true
  | [], _ :: _ => false
  | _ :: _, [] => false
  | a :: v', b :: n' =>
      if b <? 128 then (lower a =? lower b) && EqualFold v' n' else
      match n' with
      | b2 :: n'' =>
          if (b =? 0xC5) && (b2 =? 0xBF) then (lower a =? 115) && EqualFold v' n'' else
          match n'' with
          | b3 :: n3 =>
              if (b =? 0xE2) && (b2 =? 0x84) && (b3 =? 0xAA) then (lower a =? 107) && EqualFold v' n3 else false
          | [] => false
          end
      | [] => false
      end
  end.

(** scheme.go:81-89 *)
Fixpoint get_scheme_from (i : Z) (l : list string) (name : bytes) : res Z :=
  match l with
  | [] => Err "unknown signature scheme"
  | v :: l' => if EqualFold (str_bytes v) name then Ok i else get_scheme_from (i + 1) l' name
  end.
Definition GetScheme (name : bytes) : res Z := get_scheme_from 0 names name.

(** scheme.go:91-119: is the result of GetHash non-nil? *)
Definition GetHash_known (scheme : Z) : bool :=
  (scheme =? SHA224withECDSA) || (scheme =? SHA256withECDSA) || (scheme =? SHA384withECDSA) ||
  (scheme =? SHA512withECDSA) || (scheme =? SHA3_224withECDSA) || (scheme =? SHA3_256withECDSA) ||
  (scheme =? SHA3_384withECDSA) || (scheme =? SHA3_512withECDSA) || (scheme =? RIPEMD160withECDSA) ||
  (scheme =? SM3withSM2) || (scheme =? SHA512withEDDSA) || (scheme =? KECCAK256WithECDSA).

(** the list of nine schemes that appears at signature.go:85-93, 189, 252-260, 309-311 *)
Definition ecdsa_scheme (scheme : Z) : bool :=
  (scheme =? SHA224withECDSA) || (scheme =? SHA256withECDSA) || (scheme =? SHA384withECDSA) ||
  (scheme =? SHA512withECDSA) || (scheme =? SHA3_224withECDSA) || (scheme =? SHA3_256withECDSA) ||
  (scheme =? SHA3_384withECDSA) || (scheme =? SHA3_512withECDSA) || (scheme =? RIPEMD160withECDSA).

(** ** signature.go *)

(** signature.go:36-49.  The dynamic types of Value that the package knows; nil pointers
    inside them are not modelled.  [None] is a nil Curve. *)
Inductive sigval :=
| VDSA (R S : Z) (c : option curve)
| VSM2 (R S : Z) (c : option curve) (ID : bytes)
| VBytes (b : bytes)
| VOther (tag : Z).
Record signature := { sg_Scheme : Z; sg_Value : sigval }.

(** the opt argument of Sign *)
Inductive sigopt := OptString (id : bytes) | OptBool (b : bool) | OptOther.

(** signature.go:350-363 *)
Definition serializeDSA (R Sv : Z) (c : option curve) : go bytes :=
  match c with
  | None => Panic "nil pointer dereference"
  | Some c =>
      let size := byte_size c in
      let* res := make_bytes (size * 2) in
      let r := big_bytes R in
      let s := big_bytes Sv in
      let* res := copy_at res (size - zlen r) r in
      copy_at res (size * 2 - zlen s) s
  end.

(** signature.go:365-379 (buf is never nil here) *)
Definition deserializeDSA (buf : bytes) : go (res (Z * Z)) :=
  let length := zlen buf in
  if negb (Z.land length 1 =? 0) then Val (Err "invalid length") else
  let* rb := slice buf 0 (length / 2) in
  let* sb := slice buf (length / 2) length in
  Val (Ok (be2z rb, be2z sb)).

(** signature.go:245-289 *)
Definition Serialize (sig : option signature) : go (res bytes) :=
  match sig with
  | None => Val (Err "failed serializing signature: input is nil")
  | Some sig =>
      let unmatched : go (res bytes) := Val (Err "failed serializing signature: unmatched signature scheme and value") in
      let finish (res : bytes) : go (Base.res bytes) :=
        if (sg_Scheme sig =? SHA256withECDSA) && (zlen res =? 65) then
          let* r := slice res 1 (zlen res) in Val (Ok r)
        else Val (Ok res) in
      match sg_Value sig with
      | VDSA R Sv c =>
          if negb (ecdsa_scheme (sg_Scheme sig)) then unmatched else
          let* d := serializeDSA R Sv c in
          finish (sg_Scheme sig :: d)
      | VSM2 R Sv c ID =>
          if negb (sg_Scheme sig =? SM3withSM2) then unmatched else
          let* d := serializeDSA R Sv c in
          finish (sg_Scheme sig :: ID ++ [0] ++ d)
      | VBytes b => finish (sg_Scheme sig :: b)
      | VOther _ => Val (Err "failed serializing signature: unrecognized signature type")
      end
  end.

(** signature.go:322-325: the loop looking for the terminating zero; returns i *)
Fixpoint find_zero (data : bytes) (i : Z) : Z :=
  match data with
  | [] => i
  | b :: data' => if b =? 0 then i else find_zero data' (i + 1)
  end.

(** the error prefix, signature.go:293 *)
Definition des_fail (m : string) : go (res signature) :=
  Val (Err (String.append "failed deserializing signature: " m)).

(** signature.go:308-347, with the scheme and data found at 301-306.  For the byte-string value
    of an ECDSA scheme (312-313) the result aliases the input buffer; see
    ConvertToEthCompatible. *)
Definition deserialize_data (scheme : Z) (data : bytes) : go (res signature) :=
  if ecdsa_scheme scheme then
    if zlen data =? 65 then Val (Ok {| sg_Scheme := scheme; sg_Value := VBytes data |}) else
    let* r := deserializeDSA data in
    match r with
    | Err m => des_fail m
    | Ok (R, Sv) => Val (Ok {| sg_Scheme := scheme; sg_Value := VDSA R Sv None |})
    end
  else if scheme =? SM3withSM2 then
    let i := find_zero data 0 in
    if i >=? zlen data then des_fail "invalid format" else
    let* id := slice data 0 i in
    let* rest := slice data (i + 1) (zlen data) in
    let* r := deserializeDSA rest in
    match r with
    | Err m => des_fail m
    | Ok (R, Sv) => Val (Ok {| sg_Scheme := scheme; sg_Value := VSM2 R Sv None id |})
    end
  else if scheme =? SHA512withEDDSA then Val (Ok {| sg_Scheme := scheme; sg_Value := VBytes data |})
  else if scheme =? KECCAK256WithECDSA then Val (Ok {| sg_Scheme := scheme; sg_Value := VBytes data |})
  else des_fail "unknown signature scheme".

(** signature.go:292-348 *)
Definition Deserialize (buf : bytes) : go (res signature) :=
  if zlen buf <? 2 then des_fail "invalid argument" else
  if zlen buf =? 64 then deserialize_data SHA256withECDSA buf else
  let* data := slice buf 1 (zlen buf) in
  let* b0 := index buf 0 in
  deserialize_data b0 data.

(** secp256k1.go:22-41.  Returns also what the caller's buffer holds afterwards: the value of
    an ECDSA scheme is a slice of it (buf itself when it has 64 bytes, else buf[1:]), those of
    the other schemes are copies.  v is a byte, so 27 is subtracted modulo 256; copy(t, t[1:])
    moves the bytes down (copy handles overlap). *)
Definition ConvertToEthCompatible (sig : bytes) : go (res bytes * bytes) :=
  let* r := Deserialize sig in
  match r with
  | Err e => Val (Err e, sig)
  | Ok s =>
      match sg_Value s with
      | VBytes t =>
          if negb (zlen t =? 65) then Val (Err "invalid signature length"%string, sig) else
          let* t0 := index t 0 in
          let v := u8 (t0 - 27) in
          let* t1 := slice t 1 65 in
          let t := go_copy t t1 in
          let t := set_nth 64 v t in
          let* b0 := index sig 0 in
          Val (Ok t, if ecdsa_scheme (sg_Scheme s) then b0 :: t else sig)
      | _ => Val (Err "invalid signature type"%string, sig)
      end
  end.

Section Env.
(** The hash functions of GetHash, by scheme *)
Variable H : Z -> bytes -> bytes.
(** source of randomness *)
Variable rnd : Type.
(** crypto/ecdsa (ECDSA.v); Sign may fail to terminate *)
Variable ecdsaSign : Z -> ecpub -> bytes -> rnd -> go (res (Z * Z)).
Variable ecdsaVerify : ecpub -> bytes -> Z -> Z -> bool.
(** btcec: SignCompact(S256(), key, hash, false), and RecoverCompact returning the
    coordinates of the recovered key (Btcec.v); either may panic *)
Variable k1SignCompact : Z -> ecpub -> bytes -> go (res bytes).
Variable k1RecoverCompact : bytes -> bytes -> go (res (Z * Z)).
(** golang.org/x/crypto/ed25519, for keys of the right size *)
Variable edSign : bytes -> bytes -> bytes.
Variable edVerify : bytes -> bytes -> bytes -> bool.
(** go-ethereum (Eth.v): Sign (32-byte digests only), VerifySignature *)
Variable ethSign : bytes -> Z -> ecpub -> go (res bytes).
Variable ethVerify : bytes -> bytes -> bytes -> bool.
(** /repo/sm2: Sign may fail to terminate *)
Variable sm2Sign : rnd -> Z -> ecpub -> bytes -> bytes -> go (res (Z * Z)).
Variable sm2Verify : ecpub -> bytes -> bytes -> Z -> Z -> bool.

(** secp256k1.go:10-12 *)
Definition Secp256k1Sign (d : Z) (k : ecpub) (hash : bytes) : go (res bytes) := k1SignCompact d k hash.
(** secp256k1.go:14-20; PublicKey.IsEqual compares X and Y *)
Definition Secp256k1Verify (pub : ecpub) (hash sig : bytes) : go bool :=
  let* recKey := k1RecoverCompact sig hash in
  match recKey with
  | Err _ => Val false
  | Ok (x, y) => Val ((x =? pk_X pub) && (y =? pk_Y pub))
  end.

(** signature.go:61-168 *)
Definition Sign (r : rnd) (scheme : Z) (pri : privkey) (msg : bytes) (opt : sigopt) : go (res signature) :=
  let unmatched : go (res signature) := Val (Err "signing failed: unmatched signature scheme and private key") in
  match pri with
  | SkEC _ d k =>
      if negb (GetHash_known scheme) then Val (Err "signing failed: unknown scheme") else
      if scheme =? SM3withSM2 then
        let id := match opt with OptString s => s | _ => [] end in
        let* rs := sm2Sign r d k id msg in
        match rs with
        | Err e => Val (Err e)
        | Ok (R, Sv) => Val (Ok {| sg_Scheme := scheme; sg_Value := VSM2 R Sv (Some (pk_curve k)) id |})
        end
      else if ecdsa_scheme scheme then
        let digest := H scheme msg in
        if String.eqb (c_name (pk_curve k)) (c_name S256) then
          let* s := Secp256k1Sign d k digest in
          match s with
          | Err e => Val (Err e)
          | Ok s => Val (Ok {| sg_Scheme := scheme; sg_Value := VBytes s |})
          end
        else
          let* rs := ecdsaSign d k digest r in
          match rs with
          | Err e => Val (Err e)
          | Ok (R, Sv) => Val (Ok {| sg_Scheme := scheme; sg_Value := VDSA R Sv (Some (pk_curve k)) |})
          end
      else unmatched
  | SkEd b =>
      if negb (scheme =? SHA512withEDDSA) then unmatched else
      if zlen b =? 64 then Val (Ok {| sg_Scheme := scheme; sg_Value := VBytes (edSign b msg) |})
      else Panic "ed25519: bad private key length"
  | SkEth d k =>
      if negb (scheme =? KECCAK256WithECDSA) then unmatched else
      let applyHash := match opt with OptBool b => b | _ => false end in
      let digest := if applyHash then H scheme msg else msg in
      let* signed := if zlen digest =? 32 then ethSign digest d k else Val (Err "hash is required to be exactly 32 bytes"%string) in
      match signed with
      | Err e => Val (Err e)
      | Ok s => Val (Ok {| sg_Scheme := KECCAK256WithECDSA; sg_Value := VBytes s |})
      end
  | SkOther _ => Val (Err "signing failed: unknown type of private key")
  end.

(** signature.go:172-230 *)
Definition Verify (pub : pubkey) (msg : bytes) (sig : option signature) : go bool :=
  match sig with
  | None => Val false
  | Some sig =>
      if zlen msg =? 0 then Val false else
      if negb (GetHash_known (sg_Scheme sig)) then Val false else
      match pub with
      | PkEC _ key =>
          if ecdsa_scheme (sg_Scheme sig) then
            let digest := H (sg_Scheme sig) msg in
            match sg_Value sig with
            | VDSA R Sv _ => Val (ecdsaVerify key digest R Sv)
            | VBytes v => Secp256k1Verify key digest v
            | _ => Val false
            end
          else if sg_Scheme sig =? SM3withSM2 then
            match sg_Value sig with
            | VSM2 R Sv _ ID => Val (sm2Verify key ID msg R Sv)
            | _ => Val false
            end
          else Val false
      | PkEd key =>
          if sg_Scheme sig =? SHA512withEDDSA then
            match sg_Value sig with
            | VBytes v =>
                if zlen key =? 32 then Val (edVerify key msg v) else Panic "ed25519: bad public key length"
            | _ => Panic "interface conversion"
            end
          else Val false
      | PkEth key =>
          if negb (sg_Scheme sig =? KECCAK256WithECDSA) then Val false else
          let* kb := eth_FromECDSAPub key in
          match sg_Value sig with
          | VBytes v =>
              let* v64 := slice v 0 64 in
              if negb (zlen msg =? 32) then Val (ethVerify kb (H KECCAK256WithECDSA msg) v64)
              else Val (ethVerify kb msg v64)
          | _ => Panic "interface conversion"
          end
      | PkOther _ => Val false
      end
  end.
End Env.
