(** * Spec_GCM: the counter modes of crypto/cipher, after NIST SP 800-38D and 800-38A.

    [E] is the block cipher under the key in use.  A block is also read as a 128-bit
    integer, first bit most significant. *)
From Coq Require Import ZArith String List Bool.
From Verif Require Import Base.
Import ListNotations.
Open Scope Z_scope.

(** 800-38D, 6.3: product in GF(2^128); V runs through Y, Y*x, Y*x^2, ... *)
Fixpoint gf_mul_loop (n : nat) (X V W : Z) : Z :=
  match n with
  | O => W
  | S n' =>
      let W' := if Z.testbit X (Z.of_nat n') then Z.lxor W V else W in
      let V' := if Z.odd V then Z.lxor (Z.shiftr V 1) (0xE1 * 2 ^ 120) else Z.shiftr V 1 in
      gf_mul_loop n' X V' W'
  end.
Definition gf_mul (X Y : Z) : Z := gf_mul_loop 128 X Y 0.

(** 6.4 *)
Fixpoint ghash (n : nat) (H acc : Z) (l : bytes) : Z :=
  match n with
  | O => acc
  | S n' =>
      let b := firstn 16 l in
      let b := b ++ repeat 0 (16 - length b) in
      ghash n' H (gf_mul (Z.lxor acc (be2z b)) H) (skipn 16 l)
  end.
Definition blocks (l : bytes) : nat := ((length l + 15) / 16)%nat.

(** 6.2, 6.5: counters whose last 32 bits are incremented; [wide] selects the increment of the
    whole block (cipher.NewCTR) *)
Definition inc32 (c : bytes) : bytes := firstn 12 c ++ to_be 4 (be2z (skipn 12 c) + 1).
Definition inc128 (c : bytes) : bytes := to_be 16 (be2z c + 1).
Fixpoint ctr_mode (inc : bytes -> bytes) (E : bytes -> bytes) (n : nat) (c : bytes) (l : bytes) : bytes :=
  match n with
  | O => []
  | S n' => xor_bytes (firstn 16 l) (E c) ++ ctr_mode inc E n' (inc c) (skipn 16 l)
  end.

(** 7.1, for a 96-bit nonce and a 128-bit tag *)
Definition gcm_tag (E : bytes -> bytes) (nonce c ad : bytes) : bytes :=
  let H := be2z (E (repeat 0 16)) in
  let s := ghash (blocks ad) H 0 ad in
  let s := ghash (blocks c) H s c in
  let s := gf_mul (Z.lxor s (zlen ad * 8 * 2 ^ 64 + zlen c * 8)) H in
  xor_bytes (to_be 16 s) (E (nonce ++ to_be 4 1)).
Definition gcm_seal (E : bytes -> bytes) (nonce p ad : bytes) : bytes :=
  let c := ctr_mode inc32 E (blocks p) (nonce ++ to_be 4 2) p in
  c ++ gcm_tag E nonce c ad.
(** 7.2 *)
Definition gcm_open (E : bytes -> bytes) (nonce ct ad : bytes) : res bytes :=
  if zlen ct <? 16 then Err "cipher: message authentication failed" else
  let n := (length ct - 16)%nat in
  let c := firstn n ct in
  if bytes_eqb (gcm_tag E nonce c ad) (skipn n ct) then
    Ok (ctr_mode inc32 E (blocks c) (nonce ++ to_be 4 2) c)
  else Err "cipher: message authentication failed".
