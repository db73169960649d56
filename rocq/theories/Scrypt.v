(** * Scrypt: golang.org/x/crypto/scrypt and pbkdf2, which /repo/keypair/encrypt.go:228 calls

    The packages are not in /repo; this follows the published source of the version in go.mod (2019-10-29), scrypt.go and
    pbkdf2.go.  All indices are within the arrays that Key allocates, so accesses outside them are not modelled; running out of
    memory is not modelled either.  int has 64 bits. *)
From Coq Require Import ZArith String List Bool.
From Verif Require Import Base Curves ECKey Keypair AES Encrypt Nonce.
Import ListNotations.
Open Scope Z_scope.

(** u<<n | u>>(32-n) *)
Definition rotl (u n : Z) : Z := Z.lor (shl32 u n) (shr32 u (32 - n)).
(** salsaXOR: one statement x_a ^= rotation of (x_b + x_c) by n *)
Definition stmt (x : list Z) (q : nat * nat * nat * Z) : list Z :=
  let '(a, b, c, n) := q in set_nth a (Z.lxor (nth a x 0) (rotl (add32 (nth b x 0) (nth c x 0)) n)) x.
(** salsaXOR: the body of the loop, which runs for i = 0, 2, 4, 6 *)
Definition double_round : list (nat * nat * nat * Z) :=
  [ (4, 0, 12, 7%Z); (8, 4, 0, 9%Z); (12, 8, 4, 13%Z); (0, 12, 8, 18%Z);
    (9, 5, 1, 7%Z); (13, 9, 5, 9%Z); (1, 13, 9, 13%Z); (5, 1, 13, 18%Z);
    (14, 10, 6, 7%Z); (2, 14, 10, 9%Z); (6, 2, 14, 13%Z); (10, 6, 2, 18%Z);
    (3, 15, 11, 7%Z); (7, 3, 15, 9%Z); (11, 7, 3, 13%Z); (15, 11, 7, 18%Z);
    (1, 0, 3, 7%Z); (2, 1, 0, 9%Z); (3, 2, 1, 13%Z); (0, 3, 2, 18%Z);
    (6, 5, 4, 7%Z); (7, 6, 5, 9%Z); (4, 7, 6, 13%Z); (5, 4, 7, 18%Z);
    (11, 10, 9, 7%Z); (8, 11, 10, 9%Z); (9, 8, 11, 13%Z); (10, 9, 8, 18%Z);
    (12, 15, 14, 7%Z); (13, 12, 15, 9%Z); (14, 13, 12, 13%Z); (15, 14, 13, 18%Z) ]%nat.
(** salsaXOR: the 16 words written to out and tmp *)
Definition salsaXOR (tmp inp : list Z) : list Z :=
  let w := xor_bytes tmp inp in
  let x := fold_left (fun x _ => fold_left stmt double_round x) [0; 2; 4; 6] w in
  map (fun p => add32 (fst p) (snd p)) (combine x w).

(** copy(out[k:], b), and the words k to k+n-1 *)
Definition put (out : list Z) (k : nat) (b : list Z) : list Z := firstn k out ++ b ++ skipn (k + length b) out.
Definition sub (l : list Z) (k n : nat) : list Z := firstn n (skipn k l).

(** blockMix: one round of the loop, with i = 2 * t *)
Definition mix_step (r : nat) (inp : list Z) (st : list Z * list Z) (t : nat) : list Z * list Z :=
  let (tmp, out) := st in
  let tmp := salsaXOR tmp (sub inp (32 * t) 16) in
  let out := put out (16 * t) tmp in
  let tmp := salsaXOR tmp (sub inp (32 * t + 16) 16) in
  let out := put out (16 * t + 16 * r) tmp in
  (tmp, out).
(** blockMix; [out] holds old contents *)
Definition blockMix (inp out : list Z) (r : nat) : list Z :=
  snd (fold_left (mix_step r inp) (seq 0 r) (sub inp ((2 * r - 1) * 16) 16, out)).
(** integer *)
Definition integer (b : list Z) (r : nat) : Z :=
  let j := ((2 * r - 1) * 16)%nat in Z.lor (nth j b 0) (u64 (Z.shiftl (nth (j + 1) b 0) 32)).

(** smix: reading and writing the little-endian words *)
Definition word_at (b : bytes) (i : nat) : Z :=
  Z.lor (nth (4 * i) b 0) (Z.lor (shl32 (nth (4 * i + 1) b 0) 8) (Z.lor (shl32 (nth (4 * i + 2) b 0) 16) (shl32 (nth (4 * i + 3) b 0) 24))).
Definition word_bytes (w : Z) : bytes := [u8 w; u8 (shr32 w 8); u8 (shr32 w 16); u8 (shr32 w 24)].
(** smix: the first loop, with i = 2 * t; v is a list of N blocks of 32*r words, only whole blocks are accessed *)
Definition fill_step (r : nat) (st : list Z * list Z * list (list Z)) (t : nat) : list Z * list Z * list (list Z) :=
  let '(x, y, v) := st in
  let v := set_nth (2 * t) x v in
  let y := blockMix x y r in
  let v := set_nth (2 * t + 1) y v in
  let x := blockMix y x r in
  (x, y, v).
(** smix: int(integer(x, r) & uint64(N-1)) *)
Definition pick (x : list Z) (r : nat) (N : Z) : nat := Z.to_nat (Z.land (integer x r) (u64 (N - 1))).
(** smix: the second loop *)
Definition use_step (r : nat) (N : Z) (v : list (list Z)) (st : list Z * list Z) : list Z * list Z :=
  let (x, y) := st in
  let x := xor_bytes x (nth (pick x r N) v []) in
  let y := blockMix x y r in
  let y := xor_bytes y (nth (pick y r N) v []) in
  let x := blockMix y x r in
  (x, y).
(** smix on the first 128*r bytes of b: the new bytes, and the arrays it leaves behind *)
Definition smix (b : bytes) (r : nat) (N : Z) (v : list (list Z)) (y : list Z) : bytes * list (list Z) * list Z :=
  let x := map (word_at b) (seq 0 (32 * r)) in
  let half := Z.to_nat (N / 2) in
  let '(x, y, v) := fold_left (fill_step r) (seq 0 half) (x, y, v) in
  let '(x, y) := fold_left (fun st _ => use_step r N v st) (seq 0 half) (x, y) in
  (flat_map word_bytes x, v, y).

Section Env.
Variable sha256 : bytes -> bytes.
(** pbkdf2.go, Key for iter = 1 and sha256.New: the inner loop from 2 to iter does nothing.  A negative length makes
    make or the final slice expression panic. *)
Definition pbkdf2 (password salt : bytes) (keyLen : Z) : go bytes :=
  let numBlocks := (keyLen + 31) / 32 in
  if keyLen <? 0 then Panic "slice bounds out of range" else
  Val (firstn (Z.to_nat keyLen)
    (flat_map (fun i => let block := Z.of_nat i in
       hmac sha256 password (salt ++ [u8 (Z.shiftr block 24); u8 (Z.shiftr block 16); u8 (Z.shiftr block 8); u8 block]))
       (seq 1 (Z.to_nat numBlocks)))).
(** integer division of Go *)
Definition quo (a b : Z) : go Z := if b =? 0 then Panic "integer divide by zero" else Val (Z.quot a b).
(** the largest int *)
Definition maxInt : Z := 2 ^ 63 - 1.
(** scrypt.go, Key: the tests of the parameters, evaluated from left to right *)
Definition too_large (N r p : Z) : go bool :=
  if u64 (u64 r * u64 p) >=? 2 ^ 30 then Val true else
  let* a := quo (maxInt / 128) p in
  if r >? a then Val true else
  if r >? maxInt / 256 then Val true else
  let* b := quo (maxInt / 128) r in
  Val (N >? b).
(** scrypt.go, Key: smix for i = 0 .. p-1 on b[i*128*r:] *)
Definition smix_step (r : nat) (N : Z) (st : bytes * list (list Z) * list Z) (i : nat) : bytes * list (list Z) * list Z :=
  let '(b, v, y) := st in
  let '(nb, v, y) := smix (skipn (i * (128 * r)) b) r N v y in
  (put b (i * (128 * r)) nb, v, y).
(** scrypt.go, Key *)
Definition Key (password salt : bytes) (N r p keyLen : Z) : go (res bytes) :=
  if (N <=? 1) || negb (Z.land N (N - 1) =? 0) then Val (Err "scrypt: N must be > 1 and a power of 2"%string) else
  let* big := too_large N r p in
  if big then Val (Err "scrypt: parameters are too large"%string) else
  let rn := Z.to_nat r in
  let y := repeat 0 (32 * rn) in
  let v := repeat (repeat 0 (32 * rn)) (Z.to_nat N) in
  let* b := pbkdf2 password salt (p * 128 * r) in
  let '(b, _, _) := fold_left (smix_step rn N) (seq 0 (Z.to_nat p)) (b, v, y) in
  let* dk := pbkdf2 password b keyLen in
  Val (Ok dk).

(** ** /repo/keypair/encrypt.go with this scrypt *)
(** scrypt.Key where it does not panic *)
Definition scrypt_res (password salt : bytes) (N r p keyLen : Z) : res bytes :=
  match Key password salt N r p keyLen with Val x => x | _ => Err ""%string end.
(** encrypt.go:221-230: kdf calls scrypt.Key if the length is at least 32; a panic of it *)
Definition kdf_panics (pwd salt : bytes) (param : ScryptParam) : option string :=
  if sp_DKLen param <? 32 then None else
  match Key pwd salt (sp_N param) (sp_R param) (sp_P param) (sp_DKLen param) with Panic why => Some why | _ => None end.
Variable sbm : curve -> bytes -> Z * Z.
Variable bc : block_cipher.
(** encrypt.go:73-122: kdf is called (85) right after the salt is drawn *)
Definition EncryptS (rnd : res bytes) (pri : privkey) (addr pwd : bytes) (param : ScryptParam) : go (res ProtectedKey) :=
  match rnd with
  | Ok salt =>
      match kdf_panics pwd salt param with
      | Some why => Panic why
      | None => EncryptWithCustomScrypt scrypt_res bc rnd pri addr pwd param
      end
  | Err _ => EncryptWithCustomScrypt scrypt_res bc rnd pri addr pwd param
  end.
(** encrypt.go:124-191: kdf is called with the stored salt (137) or with the salt from the address (153-154) *)
Definition DecryptS (prot : option ProtectedKey) (pwd : bytes) (param : ScryptParam) : go (res privkey) :=
  let plain := DecryptWithCustomScrypt sbm scrypt_res bc sha256 prot pwd param in
  match prot with
  | None => plain
  | Some p =>
      if zlen pwd =? 0 then plain else
      let with_salt salt := match kdf_panics pwd salt param with Some why => Panic why | None => plain end in
      if String.eqb (pt_EncAlg p) "aes-256-gcm" then with_salt (pt_Salt p)
      else if String.eqb (pt_EncAlg p) "aes-256-ctr" then let* salt := saltFromAddress sha256 (pt_Address p) in with_salt salt
      else plain
  end.
End Env.
