(** * VRF: model of /repo/vrf/vrf.go and /repo/vrf/vrf_ec.go *)
From Coq Require Import ZArith String List Bool.
From Verif Require Import Base Curves ECKey Keypair.
Import ListNotations.
Open Scope Z_scope.

(** the hash functions chosen in vrf.go:116-135, and hash.Hash.Size *)
Inductive hkind := HSHA224 | HSM3 | HSHA256 | HSHA384.
Definition hSize (h : hkind) : Z :=
  match h with HSHA224 => 28 | HSM3 => 32 | HSHA256 => 32 | HSHA384 => 48 end.
(** vrf.go:116-135; nil is [None] *)
Definition getHash (c : curve) : option hkind :=
  if c_bits c =? 224 then Some HSHA224
  else if c_bits c =? 256 then
    if String.eqb (c_name c) "sm2p256v1" then Some HSM3
    else if String.eqb (c_name c) "P-256" || String.eqb (c_name c) (c_name S256) then Some HSHA256
    else None
  else if c_bits c =? 384 then Some HSHA384
  else None.
(** vrf/vrf.go:84-95 *)
Definition ValidatePrivateKey (pri : privkey) : bool :=
  match pri with
  | SkEC _ _ k => match getHash (pk_curve k) with Some _ => true | None => false end
  | _ => false
  end.
(** vrf/vrf.go:102-114 *)
Definition ValidatePublicKey (pub : pubkey) : bool :=
  match pub with
  | PkEC _ k => match getHash (pk_curve k) with Some _ => true | None => false end
  | _ => false
  end.

(** (BitSize + 7) >> 3 *)
Definition byteLen (c : curve) : Z := Z.shiftr (c_bits c + 7) 3.

(** elliptic.Marshal (Go standard library), without the check that the point is on the curve
    which later releases added *)
Definition Marshal (c : curve) (p : Z * Z) : go bytes :=
  let n := byteLen c in
  if (fst p <? 256 ^ n) && (snd p <? 256 ^ n)
  then Val (4 :: to_be (Z.to_nat n) (fst p) ++ to_be (Z.to_nat n) (snd p))
  else Panic "slice bounds out of range".

Section Env.
(** the hash functions; Reset, Write, ..., Sum(nil) gives the hash of the concatenation *)
Variable hash : hkind -> bytes -> bytes.
Variable sha256 : bytes -> bytes.
(** elliptic.Curve *)
Variable sbm : curve -> bytes -> Z * Z.
Variable sm : curve -> Z * Z -> bytes -> Z * Z.
Variable add : curve -> Z * Z -> Z * Z -> Z * Z.
Variable onCurve : curve -> Z * Z -> bool.

(** elliptic.Unmarshal; nil is [None] *)
Definition Unmarshal (c : curve) (data : bytes) : option (Z * Z) :=
  let n := byteLen c in
  if negb (zlen data =? 1 + 2 * n) then None else
  if negb (nth 0 data 0 =? 4) then None else
  let x := be2z (firstn (Z.to_nat n) (skipn 1 data)) in
  let y := be2z (skipn (Z.to_nat (1 + n)) data) in
  if (x >=? c_P c) || (y >=? c_P c) then None else
  if negb (onCurve c (x, y)) then None else Some (x, y).

(** vrf_ec.go:56-76 with [n] iterations left, i = 100 - n.  [rng i] are the random numbers that
    the square root in iteration i draws. *)
Fixpoint h2c_loop (n : nat) (i : Z) (rng : Z -> list Z) (c : curve) (h : hkind) (m : bytes) : go (option (Z * Z)) :=
  match n with
  | O => Val None
  | S n' =>
      let r := 2 :: hash h (to_be 4 i ++ m) in
      let* d := slice r 0 (byteLen c + 1) in
      let* p := DecodePublicKey (rng i) d c in
      match p with
      | Ok k => Val (Some (pk_X k, pk_Y k))
      | Err _ => h2c_loop n' (i + 1) rng c h m
      end
  end.
Definition hashToCurve := h2c_loop 100 0.

(** vrf_ec.go:81-96; the counter is a uint32 *)
Fixpoint h2i_loop (fuel : nat) (i : Z) (c : curve) (h : hkind) (m : bytes) : go Z :=
  match fuel with
  | O => OutOfFuel
  | S fuel' =>
      let b := hash h (to_be 4 i ++ m) in
      let* b := slice b 0 (byteLen c) in
      let k := be2z b in
      if k <? c_N c - 1 then Val (k + 1) else h2i_loop fuel' (u32 (i + 1)) c h m
  end.
Definition hashToInt (fuel : nat) := h2i_loop fuel 0.

(** buf.Write(make([]byte, byteLen-len(z.Bytes()))); buf.Write(z.Bytes()) *)
Definition padded (c : curve) (z : Z) : go bytes :=
  let* pad := make_bytes (byteLen c - zlen (big_bytes z)) in Val (pad ++ big_bytes z).

(** the string hashed in vrf_ec.go:124-130 and 195-201 *)
Definition transcript (c : curve) (H pk : Z * Z) (vrf : bytes) (A B : Z * Z) : go bytes :=
  let* g := Marshal c (c_Gx c, c_Gy c) in
  let* hh := Marshal c H in
  let* p := Marshal c pk in
  let* a := Marshal c A in
  let* b := Marshal c B in
  Val (g ++ hh ++ p ++ vrf ++ a ++ b).

(** vrf_ec.go:99-154.  [r] is the outcome of elliptic.GenerateKey (its first result); the nil
    proof is [None].  ScalarMult with a nil point (hashToCurve found none) panics. *)
Definition Evaluate (fuel : nat) (rng : Z -> list Z) (r : res bytes) (D : Z) (pub : ecpub) (h : hkind) (m : bytes)
    : go (option (bytes * bytes)) :=
  let c := pk_curve pub in
  let pk := (pk_X pub, pk_Y pub) in
  if negb (byteLen c =? hSize h) then Val None else
  match r with
  | Err _ => Val None
  | Ok r =>
      let* pkb := Marshal c pk in
      let* H := hashToCurve rng c h (pkb ++ m) in
      match H with
      | None => Panic "nil pointer dereference"
      | Some H =>
          let* vrf := Marshal c (sm c H (big_bytes D)) in
          let* b := transcript c H pk vrf (sbm c r) (sm c H r) in
          let* s := hashToInt fuel c h b in
          let t := (be2z r - s * D) mod c_N c in
          let* sb := padded c s in
          let* tb := padded c t in
          Val (Some (sha256 vrf, sb ++ tb ++ vrf))
      end
  end.

(** vrf_ec.go:157-217 *)
Definition ProofToHash (fuel : nat) (rng : Z -> list Z) (pub : ecpub) (h : hkind) (m proof : bytes) : go (res bytes) :=
  let c := pk_curve pub in
  let pk := (pk_X pub, pk_Y pub) in
  let n := byteLen c in
  if negb (n =? hSize h) then Val (Err "hash function does not match elliptic curve bitsize"%string) else
  if negb (zlen proof =? 2 * n + (2 * n + 1)) then Val (Err "invalid VRF proof"%string) else
  let* s := slice proof 0 n in
  let* t := slice proof n (2 * n) in
  let* vrf := slice proof (2 * n) (2 * n + 2 * n + 1) in
  match Unmarshal c vrf with
  | None => Val (Err "invalid VRF proof"%string)
  | Some U =>
      let A := add c (sbm c t) (sm c pk s) in
      let* pkb := Marshal c pk in
      let* H := hashToCurve rng c h (pkb ++ m) in
      match H with
      | None => Panic "nil pointer dereference"
      | Some H =>
          let B := add c (sm c H t) (sm c U s) in
          let* b := transcript c H pk vrf A B in
          let* h2 := hashToInt fuel c h b in
          let* hb := padded c h2 in
          if negb (bytes_eqb s hb) then Val (Err "invalid VRF proof"%string) else Val (Ok (sha256 vrf))
      end
  end.

(** vrf.go:40-57 *)
Definition Vrf (fuel : nat) (rng : Z -> list Z) (r : res bytes) (pri : privkey) (msg : bytes) : go (res (bytes * bytes)) :=
  match pri with
  | SkEC _ D k =>
      match getHash (pk_curve k) with
      | None => Val (Err "only support ECC key"%string)
      | Some h =>
          let n := byteLen (pk_curve k) in
          let* e := Evaluate fuel rng r D k h msg in
          match e with
          | None => Val (Err "failed to evaluate vrf"%string)
          | Some (_, proof) =>
              let* nizk := slice proof 0 (2 * n) in
              let* vrf := slice proof (2 * n) (2 * n + 2 * n + 1) in
              Val (Ok (vrf, nizk))
          end
      end
  | _ => Val (Err "only support ECC key"%string)
  end.

(** vrf.go:60-77; the effect of append on the caller's array is the subject of C59 *)
Definition Verify (fuel : nat) (rng : Z -> list Z) (pub : pubkey) (msg vrf nizk : bytes) : go (bool * option string) :=
  match pub with
  | PkEC _ k =>
      match getHash (pk_curve k) with
      | None => Val (false, Some "only support ECC key"%string)
      | Some h =>
          let n := byteLen (pk_curve k) in
          if negb (zlen vrf =? n * 2 + 1) || negb (zlen nizk =? n * 2) then Val (false, None) else
          let* r := ProofToHash fuel rng k h msg (nizk ++ vrf) in
          match r with
          | Err _ => Val (false, None)
          | Ok _ => Val (true, None)
          end
      end
  | _ => Val (false, Some "only support ECC key"%string)
  end.
End Env.
