(** * SM2Sig: model of /repo/sm2/signature.go.  Line numbers refer to that file. *)
From Coq Require Import ZArith String List Bool.
From Verif Require Import Base Curves ECKey SM3.
Import ListNotations.
Open Scope Z_scope.

(** curves.go:56-59, 66-68: ABytes *)
Definition ABytes : bytes :=
  [0xFF; 0xFF; 0xFF; 0xFE; 0xFF; 0xFF; 0xFF; 0xFF;
   0xFF; 0xFF; 0xFF; 0xFF; 0xFF; 0xFF; 0xFF; 0xFF;
   0xFF; 0xFF; 0xFF; 0xFF; 0x00; 0x00; 0x00; 0x00;
   0xFF; 0xFF; 0xFF; 0xFF; 0xFF; 0xFF; 0xFF; 0xFC].

(** sm2/signature.go:97-102: the type assertion pub.Curve.(SM2Curve).  p256Curve (curves.go:36-39) is the only
    type with a method ABytes, and its only value is the curve named sm2p256v1; the dynamic
    type of a curve is therefore represented by its name. *)
Definition is_SM2Curve (c : curve) : bool := String.eqb (c_name c) (c_name SM2P256V1).

(** sm2/signature.go:40, 43 *)
Definition aesIV : bytes := str_bytes "IV for <SM2> CTR".
Definition DEFAULT_ID : bytes := str_bytes "1234567812345678".

(** hasher.Write for each of the strings *)
Fixpoint write_all (h : digest) (l : list bytes) : go digest :=
  match l with
  | [] => Val h
  | p :: l' => let* (_, h') := Write h p in write_all h' l'
  end.

(** sm2/signature.go:92-122.  The hasher is an SM3 object (the only hash.Hash that /repo/signature passes,
    signature.go:77 and 197, scheme.go:112) in an arbitrary state; the result carries its new state. *)
Definition getZ (msg : bytes) (pub : option ecpub) (userID : bytes) (hasher : digest) : go (res (bytes * digest)) :=
  match pub with
  | None => Val (Err "public key should not be nil"%string)
  | Some k =>
      if negb (is_SM2Curve (pk_curve k)) then Val (Err "the curve type is not SM2Curve"%string) else
      let id := if zlen userID =? 0 then DEFAULT_ID else userID in
      let len := zlen id * 8 in
      let blen := [u8 (Z.land (Z.shiftr len 8) 0xff); u8 (Z.land len 0xff)] in
      let c := pk_curve k in
      let* hasher := write_all (Reset hasher)
        [blen; id; ABytes; big_bytes (c_B c); big_bytes (c_Gx c); big_bytes (c_Gy c); big_bytes (pk_X k); big_bytes (pk_Y k)] in
      let* h := SumMethod hasher [] in
      Val (Ok (h ++ msg, hasher))
  end.

(** sm2/signature.go:127-133 and 234-241: hash of the message with its prefix, as an integer and as bytes *)
Definition hash_msg (mz : bytes) (hasher : digest) : go bytes :=
  let* (_, hasher) := Write (Reset hasher) mz in SumMethod hasher [].

(** sm2/signature.go:64-80.  [b] is what io.ReadFull reads; reading from the key stream does not fail. *)
Definition randFieldElement (c : curve) (b : bytes) : Z := be2z b mod (c_N c - 2) + 1.

Section Env.
(** crypto/sha512, and the block transformation of crypto/aes for a key *)
Variable sha512 : bytes -> bytes.
Variable aes : bytes -> bytes -> bytes.
(** ScalarBaseMult of the curve (p256_amd64.go:292-299) *)
Variable sbm : bytes -> Z * Z.
(** lines 190-195: Inverse (p256_amd64.go:132-227) *)
Variable inv : Z -> Z.
(** lines 220-227: CombinedMult (p256_amd64.go:265-290) resp. the generic formula *)
Variable comb : ecpub -> bytes -> bytes -> Z * Z.

(** sm2/signature.go:156-160, 56-61: cspRng is the CTR key stream (zero bytes encrypted); the i-th read of n
    bytes gets the bytes n*i to n*i+n-1 of it. *)
Definition key_stream (key : bytes) (i : nat) : Z :=
  nth (i mod 16) (aes key (to_be 16 (be2z aesIV + Z.of_nat (i / 16)))) 0.
Definition csp_read (key : bytes) (n i : nat) : bytes := map (fun j => key_stream key (n * i + j)) (seq 0 n).

(** sm2/signature.go:169-202.  The two nested loops draw k in one place; a failing test of either of them leads
    back to that place, so they are one loop, whose iterations are counted.  [draw i] are the
    bytes of the i-th read. *)
Fixpoint sign_loop (fuel : nat) (c : curve) (draw : nat -> bytes) (i : nat) (priKey : bytes) (e : Z) : go (Z * Z) :=
  match fuel with
  | O => OutOfFuel
  | S fuel' =>
      let k := randFieldElement c (draw i) in
      let r := (fst (sbm (big_bytes k)) + e) mod c_N c in
      if negb (negb (r =? 0) && negb (r + k =? c_N c)) then sign_loop fuel' c draw (S i) priKey e else
      let D := be2z priKey in
      let s := ((k - D * r) * inv (D + 1)) mod c_N c in
      if negb (s =? 0) then Val (r, s) else sign_loop fuel' c draw (S i) priKey e
  end.

(** sm2/signature.go:135-138 *)
Definition entropy_len (c : curve) : Z := Z.min 32 (Z.shiftr (c_bits c + 7) 4).

(** sm2/signature.go:126-204.  The private key is its scalar and public key; [entropy] is the outcome of
    io.ReadFull(rand, entropy).  The key of 32 bytes is valid for aes.NewCipher. *)
Definition Sign (fuel : nat) (entropy : res bytes) (D : Z) (k : ecpub) (id msg : bytes) (hasher : digest) : go (res (Z * Z)) :=
  let* z := getZ msg (Some k) id hasher in
  match z with
  | Err e => Val (Err e)
  | Ok (mz, hasher) =>
      let* digest := hash_msg mz hasher in
      match entropy with
      | Err e => Val (Err e)
      | Ok entropy =>
          let priKey := big_bytes D in
          let* key := slice (sha512 (priKey ++ entropy ++ digest)) 0 32 in
          if c_N (pk_curve k) =? 0 then Val (Err "zero parameter"%string) else
          let* rs := sign_loop fuel (pk_curve k) (csp_read key (Z.to_nat (c_bits (pk_curve k) / 8 + 8))) 0 priKey (be2z digest) in
          Val (Ok rs)
      end
  end.

(** sm2/signature.go:207-247 *)
Definition Verify (pub : ecpub) (id msg : bytes) (hasher : digest) (r s : Z) : go bool :=
  let N := c_N (pk_curve pub) in
  if N =? 0 then Val false else
  if (r <=? 0) || (r >=? N) || (s <=? 0) || (s >=? N) then Val false else
  let t := (r + s) mod N in
  if t <=? 0 then Val false else
  let xy := comb pub (big_bytes s) (big_bytes t) in
  if (fst xy =? 0) && (snd xy =? 0) then Val false else
  let* z := getZ msg (Some pub) id hasher in
  match z with
  | Err _ => Val false
  | Ok (mz, hasher) =>
      let* digest := hash_msg mz hasher in
      Val ((fst xy + be2z digest) mod N =? r)
  end.
End Env.
