(** * Mem: slices that share arrays; append; the two functions that append to a caller's slice *)
From Coq Require Import ZArith String List Bool.
From Verif Require Import Base Curves ECKey Keypair AES VRF.
Import ListNotations.
Open Scope Z_scope.

(** A heap is a list of arrays; a slice has an array, an offset, a length and a capacity
    (counted from the offset). *)
Definition heap := list bytes.
Record sl := { s_arr : nat; s_off : nat; s_len : nat; s_cap : nat }.
Definition array (hp : heap) (i : nat) : bytes := nth i hp [].
Definition view (hp : heap) (s : sl) : bytes := firstn (s_len s) (skipn (s_off s) (array hp (s_arr s))).

(** store [bs] in array i from position p *)
Definition store (hp : heap) (i p : nat) (bs : bytes) : heap :=
  let a := array hp i in
  set_nth i (firstn p a ++ bs ++ skipn (p + List.length bs) a) hp.

(** The builtin append (Go specification, "Appending to and copying slices"): in place if the
    capacity suffices, otherwise into a new array, whose extra capacity [slack] is up to the
    implementation.  The bytes appended are read before anything is written. *)
Definition append (slack : nat) (hp : heap) (s : sl) (bs : bytes) : heap * sl :=
  let n := (s_len s + List.length bs)%nat in
  if (n <=? s_cap s)%nat
  then (store hp (s_arr s) (s_off s + s_len s) bs,
        {| s_arr := s_arr s; s_off := s_off s; s_len := n; s_cap := s_cap s |})
  else (hp ++ [view hp s ++ bs ++ repeat 0 slack],
        {| s_arr := List.length hp; s_off := 0; s_len := n; s_cap := n + slack |}).

(** aes.go:66-71 on a heap *)
Definition PKCS5PaddingM (slack : nat) (hp : heap) (src : sl) (blockSize : Z) : go (heap * sl) :=
  if blockSize =? 0 then Panic "integer divide by zero" else
  let padding := blockSize - Z.rem (Z.of_nat (s_len src)) blockSize in
  if padding <? 0 then Panic "bytes: negative Repeat count" else
  Val (append slack hp src (repeat (u8 padding) (Z.to_nat padding))).

(** aes.go:28-41 on a heap.  NewCipher expands the key (line 29) before the padding is
    appended (line 34); NewCBCEncrypter copies the IV (line 35) after it.  The ciphertext is a
    new array; it is returned as a value. *)
Definition AesEncryptM (slack : nat) (bc : block_cipher) (hp : heap) (plaintext key iv : sl) : go (heap * res bytes) :=
  let key := view hp key in
  if negb (aes_key_ok key) then Val (hp, Err "invalid decrypt key"%string) else
  let* (hp, plaintext) := PKCS5PaddingM slack hp plaintext aes_block_size in
  let iv := view hp iv in
  let plaintext := view hp plaintext in
  if negb (zlen iv =? aes_block_size) then Panic "cipher.NewCBCEncrypter: IV length must equal block size" else
  if negb (Z.rem (zlen plaintext) aes_block_size =? 0) then Panic "crypto/cipher: input not full blocks" else
  Val (hp, Ok (cbc_encrypt (bc_enc bc key) (nblocks plaintext) iv plaintext)).

Section Env.
Variable hash : hkind -> bytes -> bytes.
Variable sha256 : bytes -> bytes.
Variable sbm : curve -> bytes -> Z * Z.
Variable sm : curve -> Z * Z -> bytes -> Z * Z.
Variable add : curve -> Z * Z -> Z * Z -> Z * Z.
Variable onCurve : curve -> Z * Z -> bool.
(** vrf.go:40-57 on a heap: both results are slices of the array of the bytes.Buffer that
    Evaluate returns (vrf_ec.go:115, 146-153); [spare] is what that array holds after the proof.
    The slice expressions of lines 53 and 54 panic when they exceed the capacity; here the
    length of the proof is tested, which is at most the capacity. *)
Definition VrfM (spare : bytes) (fuel : nat) (rng : Z -> list Z) (r : res bytes) (hp : heap) (pri : privkey) (msg : sl)
    : go (heap * res (sl * sl)) :=
  match pri with
  | SkEC _ D k =>
      match getHash (pk_curve k) with
      | None => Val (hp, Err "only support ECC key"%string)
      | Some h =>
          let n := byteLen (pk_curve k) in
          let* e := Evaluate hash sha256 sbm sm fuel rng r D k h (view hp msg) in
          match e with
          | None => Val (hp, Err "failed to evaluate vrf"%string)
          | Some (_, proof) =>
              if zlen proof <? 2 * n + 2 * n + 1 then Panic "slice bounds out of range" else
              let cap := (List.length proof + List.length spare)%nat in
              let m := Z.to_nat n in
              Val (hp ++ [proof ++ spare],
                   Ok ({| s_arr := List.length hp; s_off := 2 * m; s_len := 2 * m + 1; s_cap := cap - 2 * m |},
                       {| s_arr := List.length hp; s_off := 0; s_len := 2 * m; s_cap := cap |}))
          end
      end
  | _ => Val (hp, Err "only support ECC key"%string)
  end.
(** vrf.go:60-77 on a heap: the message is read (vrf_ec.go:189) after the append of line 71 *)
Definition VerifyM (slack fuel : nat) (rng : Z -> list Z) (hp : heap) (pub : pubkey) (msg vrf nizk : sl)
    : go (heap * (bool * option string)) :=
  match pub with
  | PkEC _ k =>
      match getHash (pk_curve k) with
      | None => Val (hp, (false, Some "only support ECC key"%string))
      | Some h =>
          let n := byteLen (pk_curve k) in
          if negb (Z.of_nat (s_len vrf) =? n * 2 + 1) || negb (Z.of_nat (s_len nizk) =? n * 2)
          then Val (hp, (false, None)) else
          let (hp, proof) := append slack hp nizk (view hp vrf) in
          let* r := ProofToHash hash sha256 sbm sm add onCurve fuel rng k h (view hp msg) (view hp proof) in
          match r with
          | Err _ => Val (hp, (false, None))
          | Ok _ => Val (hp, (true, None))
          end
      end
  | _ => Val (hp, (false, Some "only support ECC key"%string))
  end.
End Env.
