(** * AES: model of /repo/aes/aes.go

    The Go standard library's AES block cipher is a parameter: a keyed pair of
    functions on 16-byte blocks.  crypto/cipher's CBC mode is transcribed. *)
From Coq Require Import ZArith String List Bool.
From Verif Require Import Base.
Import ListNotations.
Open Scope Z_scope.

(** The block cipher returned by aes.NewCipher(key): Encrypt and Decrypt of one
    16-byte block under a key (standard library, crypto/aes). *)
Record block_cipher := {
  bc_enc : bytes -> bytes -> bytes;
  bc_dec : bytes -> bytes -> bytes
}.

(** crypto/aes.NewCipher: accepts 16, 24 and 32 byte keys. *)
Definition aes_key_ok (key : bytes) : bool :=
  (zlen key =? 16) || (zlen key =? 24) || (zlen key =? 32).

(** crypto/aes.BlockSize *)
Definition aes_block_size : Z := 16.

(** aes.go:66-71.  Go's % panics on a zero divisor; bytes.Repeat panics on a
    negative count.  Slices have capacity = length (aliasing: see Mem.v). *)
Definition PKCS5Padding (src : bytes) (blockSize : Z) : go bytes :=
  if blockSize =? 0 then Panic "integer divide by zero" else
  let padding := blockSize - Z.rem (zlen src) blockSize in
  if padding <? 0 then Panic "bytes: negative Repeat count" else
  Val (src ++ repeat (u8 padding) (Z.to_nat padding)).

(** aes.go:73-80 *)
Definition PKCS5UnPadding (src : bytes) : go (res bytes) :=
  let length := zlen src in
  let* last := index src (length - 1) in
  let unpadding := last in
  if unpadding >? length then Val (Err "unpadding error: invalid paddding length")
  else let* r := slice src 0 (length - unpadding) in Val (Ok r).

(** crypto/cipher cbcEncrypter.CryptBlocks on n blocks *)
Fixpoint cbc_encrypt (E : bytes -> bytes) (n : nat) (prev src : bytes) : bytes :=
  match n with
  | O => []
  | S n' => let c := E (xor_bytes (firstn 16 src) prev) in
            c ++ cbc_encrypt E n' c (skipn 16 src)
  end.

(** crypto/cipher cbcDecrypter.CryptBlocks on n blocks *)
Fixpoint cbc_decrypt (D : bytes -> bytes) (n : nat) (prev src : bytes) : bytes :=
  match n with
  | O => []
  | S n' => let c := firstn 16 src in
            xor_bytes (D c) prev ++ cbc_decrypt D n' c (skipn 16 src)
  end.

(** the number of whole blocks, for CryptBlocks of the Go standard library *)
Definition nblocks (l : bytes) : nat := (length l / 16)%nat.

(** aes.go:28-41.  cipher.NewCBCEncrypter panics unless len(iv) = block size;
    CryptBlocks panics unless the input is a whole number of blocks. *)
Definition AesEncrypt (bc : block_cipher) (plaintext key iv : bytes) : go (res bytes) :=
  if negb (aes_key_ok key) then Val (Err "invalid decrypt key") else
  let* plaintext := PKCS5Padding plaintext aes_block_size in
  if negb (zlen iv =? aes_block_size) then Panic "cipher.NewCBCEncrypter: IV length must equal block size" else
  if negb (Z.rem (zlen plaintext) aes_block_size =? 0) then Panic "crypto/cipher: input not full blocks" else
  Val (Ok (cbc_encrypt (bc_enc bc key) (nblocks plaintext) iv plaintext)).

(** aes.go:43-64 *)
Definition AesDecrypt (bc : block_cipher) (ciphertext key iv : bytes) : go (res bytes) :=
  if negb (aes_key_ok key) then Val (Err "invalid decrypt key") else
  if zlen ciphertext <? aes_block_size then Val (Err "ciphertext too short") else
  if negb (Z.rem (zlen ciphertext) aes_block_size =? 0)
  then Val (Err "ciphertext is not a multiple of the block size") else
  if negb (zlen iv =? aes_block_size) then Panic "cipher.NewCBCDecrypter: IV length must equal block size" else
  PKCS5UnPadding (cbc_decrypt (bc_dec bc key) (nblocks ciphertext) iv ciphertext).
