(** * Entropy: how the signers, sm2.Encrypt and the key encryption read their random bytes

    io.ReadFull and internal/randutil are not in /repo; this follows the sources of Go 1.12. *)
From Coq Require Import ZArith String List Bool.
From Verif Require Import Base Curves ECKey Keypair SM3 SM2Sig SM2Enc Encrypt AES Elliptic SM2Generic ECDSA Signature SigWhole.
Import ListNotations.
Open Scope Z_scope.

(** an io.Reader such as rand.Reader (/repo/signature/signature.go:77, 106, /repo/sm2/encryption.go:101,
    /repo/keypair/encrypt.go:207): the pieces in which it delivers its bytes, and the error once they are used up.  A Read
    that returns bytes together with an error is taken as two Reads. *)
Record reader := { rd_chunks : list bytes; rd_end : string }.
(** Read of a buffer of n bytes: at most the current piece *)
Definition Read (r : reader) (n : nat) : bytes * option string * reader :=
  match rd_chunks r with
  | [] => ([], Some (rd_end r), r)
  | c :: cs =>
      if (length c <=? n)%nat then (c, None, {| rd_chunks := cs; rd_end := rd_end r |})
      else (firstn n c, None, {| rd_chunks := skipn n c :: cs; rd_end := rd_end r |})
  end.
(** io.go, ReadAtLeast: the loop *)
Fixpoint read_loop (fuel : nat) (r : reader) (n : nat) (acc : bytes) (err : option string) : go (bytes * option string * reader) :=
  if (n <=? length acc)%nat then Val (acc, err, r) else
  match err with
  | Some _ => Val (acc, err, r)
  | None =>
      match fuel with
      | O => OutOfFuel
      | S fuel' => let '(b, e, r') := Read r (n - length acc) in read_loop fuel' r' n (acc ++ b) e
      end
  end.
(** io.go, ReadFull of a buffer of n bytes: ReadAtLeast with min = n.  Every Read but the last takes a whole piece. *)
Definition ReadFull (r : reader) (n : nat) : go (res bytes * reader) :=
  let* t := read_loop (S (length (rd_chunks r))) r n [] None in
  let '(acc, err, r') := t in
  if (n <=? length acc)%nat then Val (Ok acc, r') else
  match err with
  | None => Panic "unreachable"
  | Some e =>
      if (0 <? length acc)%nat && String.eqb e "EOF" then Val (Err "unexpected EOF"%string, r')
      else Val (Err e, r')
  end.
(** internal/randutil/randutil.go, MaybeReadByte: depending on a choice of the runtime, one byte is read and dropped *)
Definition MaybeReadByte (coin : bool) (r : reader) : reader := if coin then snd (Read r 1) else r.

Section Env.
Variable sha512 : bytes -> bytes.
Variable aes : bytes -> bytes -> bytes.

(** /repo/sm2/signature.go:126-204 with the reader: 127-130 come before the read at 135-144.  The digest (131-133) is
    computed before it as well; it does not depend on the reader. *)
Definition sm2_SignR (sbm : bytes -> Z * Z) (inv : Z -> Z) (fuel : nat) (rand : reader) (D : Z) (k : ecpub) (id msg : bytes) (hasher : digest)
    : go (res (Z * Z) * reader) :=
  let* z := getZ msg (Some k) id hasher in
  match z with
  | Err e => Val (Err e, rand)
  | Ok _ =>
      let* t := ReadFull rand (Z.to_nat (entropy_len (pk_curve k))) in
      let* o := SM2Sig.Sign sha512 aes sbm inv fuel (fst t) D k id msg hasher in
      Val (o, snd t)
  end.
(** ecdsa.go, Sign with the reader: MaybeReadByte, then the entropy *)
Definition ecdsa_SignR (sbm : curve -> bytes -> Z * Z) (inv : curve -> Z -> Z) (fuel : nat) (coin : bool) (rand : reader) (D : Z) (pub : ecpub) (hash : bytes)
    : go (res (Z * Z) * reader) :=
  let* t := ReadFull (MaybeReadByte coin rand) (Z.to_nat (entropylen (pk_curve pub))) in
  let* o := ECDSA.Sign sha512 aes sbm inv fuel (fst t) D pub hash in
  Val (o, snd t).
(** /repo/sm2/encryption.go:85-164 with the reader, read at 96-104, after the test of the curve *)
Definition EncryptR (sbm : bytes -> Z * Z) (sm : Z -> Z -> bytes -> Z * Z) (fuel : nat) (rand : reader) (pub : ecpub) (data : bytes) : go (res bytes * reader) :=
  if negb (is_SM2Curve (pk_curve pub)) then Val (Err "the curve type is not SM2Curve"%string, rand) else
  let* t := ReadFull rand (Z.to_nat (Z.min 32 ((c_bits (pk_curve pub) + 7) / 16))) in
  let* o := SM2Enc.Encrypt sha512 aes sbm sm fuel (fst t) pub data in
  Val (o, snd t).
(** /repo/keypair/encrypt.go:205-212: rand.Read is ReadFull on rand.Reader *)
Definition randomBytes (rand : reader) (length : Z) : go (res bytes * reader) := ReadFull rand (Z.to_nat length).
(** /repo/keypair/encrypt.go:73-122 with the reader: 79 asks for 16 bytes *)
Definition EncryptWithCustomScryptR (scrypt : bytes -> bytes -> Z -> Z -> Z -> Z -> res bytes) (bc : block_cipher) (rand : reader) (pri : privkey)
    (addr pwd : bytes) (param : ScryptParam) : go (res ProtectedKey * reader) :=
  let* t := randomBytes rand 16 in
  let* o := EncryptWithCustomScrypt scrypt bc (fst t) pri addr pwd param in
  Val (o, snd t).

(** /repo/signature/signature.go:61-168 with the reader: the randomness of a call is a bound on the number of nonces tried,
    the choice of MaybeReadByte, and rand.Reader *)
Definition source : Type := (nat * bool * reader)%type.
Definition ecdsa_signR (D : Z) (k : ecpub) (digest : bytes) (s : source) : go (res (Z * Z)) :=
  let '(fuel, coin, rand) := s in
  let* t := ecdsa_SignR ScalarBaseMult fermat fuel coin rand D k digest in Val (fst t).
Definition sm2_signR (s : source) (D : Z) (k : ecpub) (id msg : bytes) : go (res (Z * Z)) :=
  let '(fuel, coin, rand) := s in
  let* t := sm2_SignR generic_sbm generic_inv fuel rand D k id msg New in Val (fst t).
Variable H : Z -> bytes -> bytes.
Variable k1SignCompact : Z -> ecpub -> bytes -> go (res bytes).
Variable edSign : bytes -> bytes -> bytes.
Variable ethSign : bytes -> Z -> ecpub -> go (res bytes).
Definition SignR := Signature.Sign H source ecdsa_signR k1SignCompact edSign ethSign sm2_signR.
End Env.
