(** * Keypair: model of /repo/keypair/key.go, ecurves.go, publist.go, wif.go.

    Citations are to /repo/keypair unless said otherwise. *)
From Coq Require Import ZArith String Ascii List Bool.
From Verif Require Import Base Curves ECKey.
Import ListNotations.
Open Scope Z_scope.

(** ** Curve labels (ecurves.go:30-44) *)
Definition L_P224 := 1.
Definition L_P256 := 2.
Definition L_P384 := 3.
Definition L_P521 := 4.
Definition L_SECP256K1 := 5.
Definition L_SM2P256V1 := 20.
Definition L_ED25519 := 25.

(** strings.ToUpper (called at ecurves.go:79-90), on the bytes of a UTF-8 string.  The result
    is only ever compared with ASCII strings, so what is modelled is which inputs are mapped to
    ASCII: the ASCII letters, and the two other characters whose upper case is ASCII, U+017F
    (long s, bytes C5 BF, upper case S) and U+0131 (dotless i, bytes C4 B1, upper case I).
    Every other byte outside ASCII is left alone; Go maps it to bytes outside ASCII too. *)
Definition upper_ascii (a : ascii) : ascii :=
  let n := nat_of_ascii a in
  if ((97 <=? n)%nat && (n <=? 122)%nat)%bool then ascii_of_nat (n - 32) else a.
Definition two_bytes (a b : ascii) (x y : nat) : bool := ((nat_of_ascii a =? x)%nat && (nat_of_ascii b =? y)%nat)%bool.
Fixpoint ToUpper (s : string) : string :=
  match s with
  | EmptyString => EmptyString
  | String a s' =>
    match s' with
    | EmptyString => String (upper_ascii a) EmptyString
    | String b s'' =>
      if two_bytes a b 197 191 then String "S" (ToUpper s'') else
      if two_bytes a b 196 177 then String "I" (ToUpper s'') else
      String (upper_ascii a) (ToUpper s')
    end
  end.

(** ecurves.go:78-98 *)
Definition GetNamedCurveLabel (name : string) : res Z :=
  let u := ToUpper name in
  if String.eqb u (ToUpper (c_name P224)) then Ok L_P224 else
  if String.eqb u (ToUpper (c_name P256)) then Ok L_P256 else
  if String.eqb u (ToUpper (c_name P384)) then Ok L_P384 else
  if String.eqb u (ToUpper (c_name P521)) then Ok L_P521 else
  if String.eqb u (ToUpper (c_name SM2P256V1)) then Ok L_SM2P256V1 else
  if String.eqb u (ToUpper (c_name S256)) then Ok L_SECP256K1 else
  if String.eqb u "" then Ok L_SECP256K1 else
  Err "unsupported elliptic curve".

(** ecurves.go:46-48 *)
Definition GetCurveLabel (c : curve) : res Z := GetNamedCurveLabel (c_name c).

(** ecurves.go:50-68 *)
Definition GetCurve (label : Z) : res curve :=
  if label =? L_P224 then Ok P224 else
  if label =? L_P256 then Ok P256 else
  if label =? L_P384 then Ok P384 else
  if label =? L_P521 then Ok P521 else
  if label =? L_SM2P256V1 then Ok SM2P256V1 else
  if label =? L_SECP256K1 then Ok S256 else
  Err "unknown elliptic curve".

(** ecurves.go:70-76 *)
Definition GetNamedCurve (name : string) : res curve :=
  match GetNamedCurveLabel name with Err e => Err e | Ok l => GetCurve l end.

(** ** Key types (key.go:55-64, /repo/ec/key.go:36-59) *)
Definition PK_ECDSA := 18.
Definition PK_SM2 := 19.
Definition PK_EDDSA := 20.
Definition PK_ETHECDSA := 21.
Definition PK_P256_E := 2.
Definition PK_P256_O := 3.
Definition PK_P256_NC := 4.

(** ec.ECAlgorithm is a byte: ECDSA = 0, SM2 = 1 (/repo/ec/key.go:36-41) *)
Definition ECDSA := 0.
Definition SM2 := 1.

(** crypto.PublicKey / crypto.PrivateKey are interfaces: the dynamic types the package
    knows, and any other value (PkOther, including nil and *ecdsa.PublicKey).  Nil
    pointers inside the known types are not modelled. *)
Inductive pubkey :=
| PkEC (alg : Z) (k : ecpub)
| PkEd (b : bytes)
| PkEth (k : ecpub)
| PkOther (tag : Z).
Inductive privkey :=
| SkEC (alg : Z) (d : Z) (k : ecpub)
| SkEd (b : bytes)
| SkEth (d : Z) (k : ecpub)
| SkOther (tag : Z).

(** key.go:123-141 *)
Definition GetKeyType (p : pubkey) : go Z :=
  match p with
  | PkEC alg _ =>
      if alg =? ECDSA then Val PK_ECDSA else if alg =? SM2 then Val PK_SM2
      else Panic "unknown public key type"
  | PkEd _ => Val PK_EDDSA
  | PkEth _ => Val PK_ETHECDSA
  | PkOther _ => Panic "unknown public key type"
  end.

(** key.go:144-151 *)
Definition GetEthereumPubKey (p : pubkey) : res ecpub :=
  match p with PkEth k => Ok k | _ => Err "pubkey is not ethereum publickey" end.

(** key.go:446-451; the argument is a pointer to an ecdsa key (scalar and public key), and nil
    panics at the address of its PublicKey field. *)
Definition FromEthereumPrivateKey (key : option (Z * ecpub)) : go (privkey * pubkey) :=
  match key with
  | None => Panic "nil pointer"
  | Some (d, k) => Val (SkEth d k, PkEth k)
  end.

(** ** Library functions *)

(** go-ethereum FromECDSAPub = elliptic.Marshal(S256(), X, Y): 4 || X || Y, 32 bytes each
    (FillBytes panics when a coordinate does not fit). *)
Definition eth_FromECDSAPub (k : ecpub) : go bytes :=
  if (pk_X k <? 256 ^ 32) && (pk_Y k <? 256 ^ 32) then
    Val (4 :: to_be 32 (pk_X k) ++ to_be 32 (pk_Y k))
  else Panic "math/big: buffer too small to fit value".

(** IsOnCurve of secp256k1, used by UnmarshalPubkey *)
Definition on_curve_k1 (x y : Z) : bool :=
  (y * y) mod c_P S256 =? (x * x * x + 7) mod c_P S256.

(** go-ethereum UnmarshalPubkey = elliptic.Unmarshal(S256(), pub) *)
Definition eth_UnmarshalPubkey (data : bytes) : go (res ecpub) :=
  if negb (zlen data =? 65) then Val (Err "invalid secp256k1 public key") else
  let* t := index data 0 in
  if negb (t =? 4) then Val (Err "invalid secp256k1 public key") else
  let* xb := slice data 1 33 in
  let* yb := slice data 33 65 in
  let x := be2z xb in
  let y := be2z yb in
  if (x <? c_P S256) && (y <? c_P S256) && on_curve_k1 x y then
    Val (Ok {| pk_curve := EthS256; pk_X := x; pk_Y := y |})
  else Val (Err "invalid secp256k1 public key").

(** go-ethereum FromECDSA = PaddedBigBytes(D, BitSize/8) *)
Definition padded_big_bytes (d n : Z) : bytes :=
  let b := big_bytes d in zeros (n - zlen b) ++ b.
Definition eth_FromECDSA (d : Z) (k : ecpub) : bytes := padded_big_bytes d (c_bits (pk_curve k) / 8).

Section Env.
(** elliptic.Curve.ScalarBaseMult of each curve (crypto/elliptic, btcec, go-ethereum and
    /repo/sm2): any function. *)
Variable sbm : curve -> bytes -> Z * Z.

(** go-ethereum ToECDSA (strict); ScalarBaseMult is assumed to return a point. *)
Definition eth_ToECDSA (d : bytes) : res privkey :=
  if negb (zlen d =? 32) then Err "invalid length, need 256 bits" else
  let D := be2z d in
  if D >=? c_N S256 then Err "invalid private key, >=N" else
  if D <=? 0 then Err "invalid private key, zero or negative" else
  let '(x, y) := sbm EthS256 d in
  Ok (SkEth D {| pk_curve := EthS256; pk_X := x; pk_Y := y |}).

(** /repo/ec/key.go:146-158, algorithm ECDSA *)
Definition ConstructPrivateKey (data : bytes) (c : curve) : Z * ecpub :=
  let d := be2z data in
  let '(x, y) := sbm c data in
  (d, {| pk_curve := c; pk_X := x; pk_Y := y |}).

(** ** Serialization *)

(** key.go:177-209.  An unknown algorithm value writes no algorithm byte. *)
Definition SerializePublicKey (key : pubkey) : go bytes :=
  match key with
  | PkEC alg k =>
      if (alg =? ECDSA) && String.eqb (c_name (pk_curve k)) (c_name P256) then EncodePublicKey k true else
      let pre := if alg =? ECDSA then [PK_ECDSA] else if alg =? SM2 then [PK_SM2] else [] in
      match GetCurveLabel (pk_curve k) with
      | Err e => Panic e
      | Ok label =>
          let* e := EncodePublicKey k true in
          Val (pre ++ [label] ++ e)
      end
  | PkEd b => Val ([PK_EDDSA; L_ED25519] ++ b)
  | PkEth k => let* e := eth_FromECDSAPub k in Val (PK_ETHECDSA :: e)
  | PkOther _ => Panic "unknown public key type"
  end.

(** key.go:212-273 *)
Definition DeserializePublicKey (rng : list Z) (data : bytes) : go (res pubkey) :=
  if zlen data <=? 3 then Val (Err "too short pubkey") else
  let* t := index data 0 in
  if (t =? PK_ECDSA) || (t =? PK_SM2) then
    let* l := index data 1 in
    match GetCurve l with
    | Err e => Val (Err e)
    | Ok c =>
        let* body := slice data 2 (zlen data) in
        let* r := DecodePublicKey rng body c in
        match r with
        | Err e => Val (Err e)
        | Ok k => Val (Ok (PkEC (if t =? PK_ECDSA then ECDSA else SM2) k))
        end
    end
  else if t =? PK_EDDSA then
    let* l := index data 1 in
    if l =? L_ED25519 then
      let* body := slice data 2 (zlen data) in
      if negb (zlen body =? 32) then
        Val (Err "deserializing public key failed: invalid length for Ed25519 public key")
      else Val (Ok (PkEd body))
    else Val (Err "deserializing public key failed: unsupported EdDSA scheme")
  else if (t =? PK_P256_E) || (t =? PK_P256_O) || (t =? PK_P256_NC) then
    let* r := DecodePublicKey rng data P256 in
    match r with
    | Err _ => Val (Err "deserializing public key failed: decode P-256 public key error")
    | Ok k => Val (Ok (PkEC ECDSA k))
    end
  else if t =? PK_ETHECDSA then
    let* body := slice data 1 (zlen data) in
    let* r := eth_UnmarshalPubkey body in
    match r with Err e => Val (Err e) | Ok k => Val (Ok (PkEth k)) end
  else Val (Err "deserializing public key failed: unrecognized algorithm label").

(** key.go:297-331 *)
Definition SerializePrivateKey (pri : privkey) : go bytes :=
  match pri with
  | SkEC alg d k =>
      let pre := if alg =? ECDSA then [PK_ECDSA] else if alg =? SM2 then [PK_SM2] else [] in
      match GetCurveLabel (pk_curve k) with
      | Err e => Panic e
      | Ok label =>
          let* e := EncodePublicKey k true in
          Val (pre ++ [label] ++ padded_big_bytes d (byte_size (pk_curve k)) ++ e)
      end
  | SkEd b => Val ([PK_EDDSA; L_ED25519] ++ b)
  | SkEth d k => Val (PK_ETHECDSA :: eth_FromECDSA d k)
  | SkOther _ => Panic "unkown private key type"
  end.

(** key.go:334-393.  [Ok None] is (nil, nil). *)
Definition DeserializePrivateKey (rng : list Z) (data : bytes) : go (res (option privkey)) :=
  let* t := index data 0 in
  if (t =? PK_ECDSA) || (t =? PK_SM2) then
    let* l := index data 1 in
    match GetCurve l with
    | Err e => Val (Err e)
    | Ok c =>
        let size := byte_size c in
        if zlen data <? size * 2 + 3 then
          Val (Err "deserializing private key failed: not enough length")
        else
          let* db := slice data 2 (2 + size) in
          let '(d, k) := ConstructPrivateKey db c in
          let* eb := slice data (2 + size) (zlen data) in
          let* r := DecodePublicKey rng eb c in
          match r with
          | Err e => Val (Err (String.append "deserializing private key failed: " e))
          | Ok p =>
              if negb (pk_X k =? pk_X p) || negb (pk_Y k =? pk_Y p) then
                Val (Err "deserializing private key failed: unmatched private and public key")
              else Val (Ok (Some (SkEC (if t =? PK_ECDSA then ECDSA else SM2) d k)))
          end
    end
  else if t =? PK_EDDSA then
    let* l := index data 1 in
    if l =? L_ED25519 then
      if zlen data <? 2 + 64 then
        Val (Err "deserializing private key failed: not enough length for Ed25519 key")
      else
        let* b := slice data 2 (zlen data) in
        Val (Ok (Some (SkEd b)))
    else Val (Err "deserializing private key failed: unknown EdDSA curve type")
  else if t =? PK_ETHECDSA then
    let* b := slice data 1 (zlen data) in
    match eth_ToECDSA b with
    | Err e => Val (Err e)
    | Ok k => Val (Ok (Some k))
    end
  else Val (Ok None).

(** ** Comparison (key.go:396-420) *)
Definition curve_eqb (a b : curve) : bool :=
  String.eqb (c_name a) (c_name b) && (c_P a =? c_P b) && (c_N a =? c_N b) && (c_B a =? c_B b) &&
  (c_Gx a =? c_Gx b) && (c_Gy a =? c_Gy b) && (c_bits a =? c_bits b).

(** Ethereum keys: ecdsa.PublicKey.Equal compares X, Y and the Curve interface values; curves
    are compared here by their parameters and name. *)
Definition ComparePublicKey (k0 k1 : pubkey) : bool :=
  match k0, k1 with
  | PkEC a0 v0, PkEC a1 v1 =>
      (a0 =? a1) && String.eqb (c_name (pk_curve v0)) (c_name (pk_curve v1)) && (pk_X v0 =? pk_X v1)
  | PkEd b0, PkEd b1 => bytes_eqb b0 b1
  | PkEth v0, PkEth v1 =>
      (pk_X v0 =? pk_X v1) && (pk_Y v0 =? pk_Y v1) && curve_eqb (pk_curve v0) (pk_curve v1)
  | _, _ => false
  end.

(** ** publist.go *)

(** bytes.Compare(a, b) < 0: lexicographic *)
Fixpoint bytes_ltb (a b : bytes) : bool :=
  match a, b with
  | [], [] => false
  | [], _ :: _ => true
  | _ :: _, [] => false
  | x :: a', y :: b' => if x <? y then true else if y <? x then false else bytes_ltb a' b'
  end.

(** publist.go:52-102 *)
Definition Less (a b : pubkey) : go bool :=
  let* ta := GetKeyType a in
  let* tb := GetKeyType b in
  if negb (ta =? tb) then Val (ta <? tb) else
  match a, b with
  | PkEC _ va, PkEC _ vb =>
      match GetCurveLabel (pk_curve va) with
      | Err e => Panic e
      | Ok ca =>
          match GetCurveLabel (pk_curve vb) with
          | Err e => Panic e
          | Ok cb =>
              if negb (ca =? cb) then Val (ca <? cb) else
              if negb (pk_X va =? pk_X vb) then Val (pk_X va <? pk_X vb) else
              Val (pk_Y va <? pk_Y vb)
          end
      end
  | PkEd va, PkEd vb => Val (bytes_ltb va vb)
  | PkEth va, PkEth vb =>
      if negb (pk_X va =? pk_X vb) then Val (pk_X va <? pk_X vb) else
      Val (pk_Y va <? pk_Y vb)
  | _, _ => Panic "interface conversion"
  end.

(** publist.go:40-44, 104-106: sort.Sort(publicKeyList(list)).  The standard library's
    algorithm below 12 elements, insertion sort (for j := i; j > a && Less(j, j-1); j-- { Swap }),
    stands for sort.Sort; C23_sorted_output_is_unique covers every other one.  The sorted
    prefix is kept in reverse. *)
Fixpoint sort_insert (x : pubkey) (rev_prefix : list pubkey) : go (list pubkey) :=
  match rev_prefix with
  | [] => Val [x]
  | y :: rp =>
      let* lt := Less x y in
      if (lt : bool) then let* rp' := sort_insert x rp in Val (y :: rp') else Val (x :: y :: rp)
  end.
Fixpoint insertionSort (rev_prefix rest : list pubkey) : go (list pubkey) :=
  match rest with
  | [] => Val (rev rev_prefix)
  | x :: rest' => let* rp := sort_insert x rev_prefix in insertionSort rp rest'
  end.
Definition SortPublicKeys (l : list pubkey) : go (list pubkey) := insertionSort [] l.

(** publist.go:110-117, index counted from i *)
Fixpoint find_key (i : Z) (l : list pubkey) (key : pubkey) : Z :=
  match l with
  | [] => -1
  | v :: l' => if ComparePublicKey v key then i else find_key (i + 1) l' key
  end.
Definition FindKey (l : list pubkey) (key : pubkey) : Z := find_key 0 l key.

(** ** wif.go *)

(** itchyny/base58-go BitcoinEncoding.  The package works on decimal text; the text is
    represented by the number it denotes (None: empty text). *)
Definition b58_alphabet : bytes :=
  str_bytes "123456789ABCDEFGHJKLMNPQRSTUVWXYZabcdefghijkmnopqrstuvwxyz".
Fixpoint b58_digit_from (i : Z) (alpha : bytes) (c : Z) : option Z :=
  match alpha with
  | [] => None
  | a :: alpha' => if a =? c then Some i else b58_digit_from (i + 1) alpha' c
  end.
Definition b58_digit (c : Z) : option Z := b58_digit_from 0 b58_alphabet c.
Fixpoint b58_value (acc : Z) (s : bytes) : res Z :=
  match s with
  | [] => Ok acc
  | c :: s' =>
      match b58_digit c with
      | None => Err "invalid character in decoding a base58 string"
      | Some d => b58_value (acc * 58 + d) s'
      end
  end.
(** Decode followed by SetString(text, 10): Ok None when SetString fails (empty text). *)
Definition b58_decode (s : bytes) : res (option Z) :=
  match s with
  | [] => Ok None
  | _ => match b58_value 0 s with Err e => Err e | Ok v => Ok (Some v) end
  end.
(** Encode of the decimal text of n (no leading zeros unless n = 0, where the loop of the
    package produces one '1'); fuel: number of digits *)
Fixpoint b58_digits (fuel : nat) (n : Z) (acc : bytes) : bytes :=
  match fuel with
  | O => acc
  | S f => if n =? 0 then acc else
           b58_digits f (n / 58) (nth (Z.to_nat (n mod 58)) b58_alphabet 0 :: acc)
  end.
Definition b58_encode (n : Z) : bytes :=
  if n =? 0 then [nth 0 b58_alphabet 0] else b58_digits (S (Z.to_nat (Z.log2 n))) n [].

(** SHA-256: any function. *)
Variable sha256 : bytes -> bytes.

(** wif.go:36-51.  buf aliases the freshly serialized data; both are cleared afterwards
    and nothing else refers to them, so the aliasing is not observable. *)
Definition Key2WIF (key : privkey) : go (res bytes) :=
  let* data := SerializePrivateKey key in
  let bad : go (res bytes) := Val (Err "only ECDSA P-256 keys support WIF") in
  if zlen data <? 34 then bad else
  let* d0 := index data 0 in
  if negb (d0 =? PK_ECDSA) then bad else
  let* d1 := index data 1 in
  if negb (d1 =? L_P256) then bad else
  let* buf := slice data 1 34 in
  let buf := set_nth 0 128 buf in
  let buf := buf ++ [1] in
  let sum := sha256 (sha256 buf) in
  let* s4 := slice sum 0 4 in
  let buf := buf ++ s4 in
  Val (Ok (b58_encode (be2z buf))).

(** wif.go:53-76 *)
Definition WIF2Key (wif : bytes) : go (res privkey) :=
  match b58_decode wif with
  | Err e => Val (Err e)
  | Ok None => Val (Err "parse WIF error, invalid base58 data")
  | Ok (Some bi) =>
      let buf := big_bytes bi in
      let pos := zlen buf - 4 in
      if negb (pos =? 34) then Val (Err "invalid length") else
      let* head := slice buf 0 pos in
      let sum := sha256 (sha256 head) in
      let* s4 := slice sum 0 4 in
      let* tail := slice buf pos (zlen buf) in
      if negb (bytes_eqb s4 tail) then Val (Err "invalid WIF data, checksum failed") else
      let* kb := slice buf 1 (pos - 1) in
      let '(d, k) := ConstructPrivateKey kb P256 in
      Val (Ok (SkEC ECDSA d k))
  end.

(** key.go:423-443 *)
Definition GetP256KeyPairFromWIF (wif : bytes) : go (res privkey) :=
  match b58_decode wif with
  | Err e => Val (Err e)
  | Ok None => Val (Err "parse WIF error, invalid base58 data")
  | Ok (Some bi) =>
      let buf := big_bytes bi in
      let pos := zlen buf - 4 in
      let* head := slice buf 0 pos in
      let sum := sha256 (sha256 head) in
      let* s4 := slice sum 0 4 in
      let* tail := slice buf pos (zlen buf) in
      if negb (bytes_eqb s4 tail) then Val (Err "invalid WIF data, checksum failed") else
      let* kb := slice buf 1 (pos - 1) in
      let '(d, k) := ConstructPrivateKey kb P256 in
      Val (Ok (SkEC ECDSA d k))
  end.
End Env.
