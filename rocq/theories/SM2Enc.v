(** * SM2Enc: model of /repo/sm2/encryption.go.  Line numbers refer to that file. *)
From Coq Require Import ZArith String List Bool.
From Verif Require Import Base Curves ECKey SM3 SM2Sig.
Import ListNotations.
Open Scope Z_scope.

(** sm2/encryption.go:38 *)
Definition DIGESTLEN : Z := 32.

(** sm2/encryption.go:50-66: the loop producing pp; [i] is the counter, an int *)
Fixpoint kdf_loop (fuel : nat) (zz : bytes) (zLen rLen i : Z) (pp : bytes) : go bytes :=
  if rLen >? 0 then
    match fuel with
    | O => OutOfFuel
    | S fuel' =>
        let zz := set_nth (Z.to_nat zLen) (Z.land (u8 (Z.shiftr i 24)) 0xff) zz in
        let zz := set_nth (Z.to_nat (zLen + 1)) (Z.land (u8 (Z.shiftr i 16)) 0xff) zz in
        let zz := set_nth (Z.to_nat (zLen + 2)) (Z.land (u8 (Z.shiftr i 8)) 0xff) zz in
        let zz := set_nth (Z.to_nat (zLen + 3)) (Z.land (u8 i) 0xff) zz in
        let* digest := Sum zz in
        let* piece := slice digest 0 (if rLen >=? DIGESTLEN then DIGESTLEN else rLen) in
        kdf_loop fuel' zz zLen (rLen - DIGESTLEN) (i + 1) (pp ++ piece)
    end
  else Val pp.

(** sm2/encryption.go:68-76: is there a non-zero byte at an index below both zLen and pLen (the line printed in
    each iteration is ignored) *)
Definition kdf_found (pp : bytes) (zLen : Z) : bool :=
  existsb (fun b => negb (Z.land b 0xff =? 0)) (firstn (Z.to_nat zLen) pp).

(** sm2/encryption.go:40-83.  kLen is an int and may be negative.  The result is pp with its length; (nil, 0) is
    [None]. *)
Definition sm3kdf (zInput : bytes) (kLen : Z) : go (option bytes) :=
  let zLen := zlen zInput in
  let zz := zInput ++ zeros 4 in
  let* pp := kdf_loop (Z.to_nat kLen) zz zLen kLen 1 [] in
  Val (if kdf_found pp zLen then Some pp else None).

(** sm2/encryption.go:133-134, 141-142, 155, 187-188: copy(dst[end-len(z.Bytes()):], z.Bytes()) *)
Definition copy_right (dst : bytes) (e : Z) (z : Z) : go bytes :=
  copy_at dst (e - zlen (big_bytes z)) (big_bytes z).
(** sm2/encryption.go:140-142, 185-188 *)
Definition x2y2_bytes (x2 y2 : Z) : go bytes :=
  let* b := copy_right (zeros 64) 32 x2 in copy_right b 64 y2.
(** sm2/encryption.go:154-158, 202-206: the digest C3 *)
Definition c3_digest (x2 y2 : Z) (data : bytes) : go bytes :=
  let tmp := zeros (32 + zlen data + 32) in
  let* tmp := copy_right tmp 32 x2 in
  let* tmp := copy_at tmp 32 data in
  let* tmp := copy_at tmp (zlen tmp - 32) (big_bytes y2) in
  Sum tmp.

Section Env.
Variable sha512 : bytes -> bytes.
Variable aes : bytes -> bytes -> bytes.
(** ScalarBaseMult, ScalarMult (p256_amd64.go:292-322) and IsOnCurve (of elliptic.CurveParams) *)
Variable sbm : bytes -> Z * Z.
Variable sm : Z -> Z -> bytes -> Z * Z.
Variable onCurve : Z -> Z -> bool.

(** sm2/encryption.go:125-152.  [buf] is encryptData; the result is (encryptData, c2, x2, y2). *)
Fixpoint enc_loop (fuel : nat) (pub : ecpub) (draw : nat -> bytes) (i : nat) (buf data : bytes)
    : go (res (bytes * bytes * Z * Z)) :=
  match fuel with
  | O => OutOfFuel
  | S fuel' =>
      let k := big_bytes (randFieldElement (pk_curve pub) (draw i)) in
      let (x1, y1) := sbm k in
      let* buf := copy_right buf 32 x1 in
      let* buf := copy_right buf 64 y1 in
      if (pk_X pub =? 0) && (pk_Y pub =? 0) then Val (Err "invalid public key"%string) else
      let (x2, y2) := sm (pk_X pub) (pk_Y pub) k in
      let* z := x2y2_bytes x2 y2 in
      let* t := sm3kdf z (zlen data) in
      match t with
      | None => enc_loop fuel' pub draw (S i) buf data
      | Some t => Val (Ok (buf, xor_bytes data t, x2, y2))
      end
  end.

(** sm2/encryption.go:85-164.  [entropy] is the outcome of io.ReadFull(rand.Reader, entropy). *)
Definition Encrypt (fuel : nat) (entropy : res bytes) (pub : ecpub) (data : bytes) : go (res bytes) :=
  if negb (is_SM2Curve (pk_curve pub)) then Val (Err "the curve type is not SM2Curve"%string) else
  let encryptData := zeros (96 + zlen data) in
  let* hash := Sum data in
  match entropy with
  | Err e => Val (Err e)
  | Ok entropy =>
      let* key := slice (sha512 (big_bytes (pk_X pub) ++ entropy ++ hash)) 0 32 in
      if c_N (pk_curve pub) =? 0 then Val (Err "zero parameter"%string) else
      let* r := enc_loop fuel pub (csp_read aes key (Z.to_nat (c_bits (pk_curve pub) / 8 + 8))) 0 encryptData data in
      match r with
      | Err e => Val (Err e)
      | Ok (buf, c2, x2, y2) =>
          let* c3 := c3_digest x2 y2 data in
          let* buf := copy_at buf 64 c3 in
          let* buf := copy_at buf 96 c2 in
          Val (Ok buf)
      end
  end.

(** sm2/encryption.go:166-215.  The slice encryptData has contents [buf] and, behind it, spare capacity with
    contents [spare]: slice expressions reach into it.  The result is the plaintext (nil is
    [None]) and the error. *)
Definition Decrypt (c : curve) (D : Z) (buf spare : bytes) : go (option bytes * option string) :=
  if negb (is_SM2Curve c) then Val (None, Some "the curve type is not SM2Curve"%string) else
  let* x1 := slice (buf ++ spare) 0 32 in
  let* y1 := slice (buf ++ spare) 32 64 in
  let x1 := be2z x1 in let y1 := be2z y1 in
  if (x1 =? 0) && (y1 =? 0) then Val (None, Some "C1 is infinity"%string) else
  if negb (onCurve x1 y1) then Val (None, Some "C1 is not on curve"%string) else
  let (x2, y2) := sm x1 y1 (big_bytes D) in
  let* c2 := x2y2_bytes x2 y2 in
  let MsgLen := zlen buf - 96 in
  let* t := sm3kdf c2 MsgLen in
  match t with
  | None => Val (None, Some "KDF calc error"%string)
  | Some t =>
      let* ct := slice buf 96 (zlen buf) in
      let Msg := xor_bytes ct t in
      let* c3 := c3_digest x2 y2 Msg in
      let* h := slice (buf ++ spare) 64 96 in
      if negb (bytes_eqb c3 h) then Val (Some Msg, Some "Hash not match!"%string) else
      Val (Some Msg, None)
  end.
End Env.
