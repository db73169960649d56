(** * SM4: model of /repo/sm4/const.go, block.go, cipher.go *)
From Coq Require Import ZArith String List Bool.
From Verif Require Import Base.
Import ListNotations.
Open Scope Z_scope.

(** const.go:28-30 *)
Definition sm4_fk : list Z := [0xa3b1bac6; 0x56aa3350; 0x677d9197; 0xb27022dc].

(** const.go:32-41 *)
Definition sm4_ck : list Z :=
  [0x00070e15; 0x1c232a31; 0x383f464d; 0x545b6269;
   0x70777e85; 0x8c939aa1; 0xa8afb6bd; 0xc4cbd2d9;
   0xe0e7eef5; 0xfc030a11; 0x181f262d; 0x343b4249;
   0x50575e65; 0x6c737a81; 0x888f969d; 0xa4abb2b9;
   0xc0c7ced5; 0xdce3eaf1; 0xf8ff060d; 0x141b2229;
   0x30373e45; 0x4c535a61; 0x686f767d; 0x848b9299;
   0xa0a7aeb5; 0xbcc3cad1; 0xd8dfe6ed; 0xf4fb0209;
   0x10171e25; 0x2c333a41; 0x484f565d; 0x646b7279].

(** const.go:43-60 *)
Definition sm4_sbox : list Z :=
  [0xd6; 0x90; 0xe9; 0xfe; 0xcc; 0xe1; 0x3d; 0xb7; 0x16; 0xb6; 0x14; 0xc2; 0x28; 0xfb; 0x2c; 0x05;
   0x2b; 0x67; 0x9a; 0x76; 0x2a; 0xbe; 0x04; 0xc3; 0xaa; 0x44; 0x13; 0x26; 0x49; 0x86; 0x06; 0x99;
   0x9c; 0x42; 0x50; 0xf4; 0x91; 0xef; 0x98; 0x7a; 0x33; 0x54; 0x0b; 0x43; 0xed; 0xcf; 0xac; 0x62;
   0xe4; 0xb3; 0x1c; 0xa9; 0xc9; 0x08; 0xe8; 0x95; 0x80; 0xdf; 0x94; 0xfa; 0x75; 0x8f; 0x3f; 0xa6;
   0x47; 0x07; 0xa7; 0xfc; 0xf3; 0x73; 0x17; 0xba; 0x83; 0x59; 0x3c; 0x19; 0xe6; 0x85; 0x4f; 0xa8;
   0x68; 0x6b; 0x81; 0xb2; 0x71; 0x64; 0xda; 0x8b; 0xf8; 0xeb; 0x0f; 0x4b; 0x70; 0x56; 0x9d; 0x35;
   0x1e; 0x24; 0x0e; 0x5e; 0x63; 0x58; 0xd1; 0xa2; 0x25; 0x22; 0x7c; 0x3b; 0x01; 0x21; 0x78; 0x87;
   0xd4; 0x00; 0x46; 0x57; 0x9f; 0xd3; 0x27; 0x52; 0x4c; 0x36; 0x02; 0xe7; 0xa0; 0xc4; 0xc8; 0x9e;
   0xea; 0xbf; 0x8a; 0xd2; 0x40; 0xc7; 0x38; 0xb5; 0xa3; 0xf7; 0xf2; 0xce; 0xf9; 0x61; 0x15; 0xa1;
   0xe0; 0xae; 0x5d; 0xa4; 0x9b; 0x34; 0x1a; 0x55; 0xad; 0x93; 0x32; 0x30; 0xf5; 0x8c; 0xb1; 0xe3;
   0x1d; 0xf6; 0xe2; 0x2e; 0x82; 0x66; 0xca; 0x60; 0xc0; 0x29; 0x23; 0xab; 0x0d; 0x53; 0x4e; 0x6f;
   0xd5; 0xdb; 0x37; 0x45; 0xde; 0xfd; 0x8e; 0x2f; 0x03; 0xff; 0x6a; 0x72; 0x6d; 0x6c; 0x5b; 0x51;
   0x8d; 0x1b; 0xaf; 0x92; 0xbb; 0xdd; 0xbc; 0x7f; 0x11; 0xd9; 0x5c; 0x41; 0x1f; 0x10; 0x5a; 0xd8;
   0x0a; 0xc1; 0x31; 0x88; 0xa5; 0xcd; 0x7b; 0xbd; 0x2d; 0x74; 0xd0; 0x12; 0xb8; 0xe5; 0xb4; 0xb0;
   0x89; 0x69; 0x97; 0x4a; 0x0c; 0x96; 0x77; 0x7e; 0x65; 0xb9; 0xf1; 0x09; 0xc5; 0x6e; 0xc6; 0x84;
   0x18; 0xf0; 0x7d; 0xec; 0x3a; 0xdc; 0x4d; 0x20; 0x79; 0xee; 0x5f; 0x3e; 0xd7; 0xcb; 0x39; 0x48].

(** block.go:94-96 *)
Definition sm4_rotl (x i : Z) : Z := Z.lor (shl32 x (i mod 32)) (shr32 x (32 - i mod 32)).

(** a table lookup sm4_sbox[uint8(a)]; the index is always in range *)
Definition sbox_at (a : Z) : Z := nth (Z.to_nat (u8 a)) sm4_sbox 0.

(** block.go:98-100 *)
Definition sm4_tao (a : Z) : Z :=
  Z.lor (Z.lor (Z.lor (sbox_at a) (shl32 (sbox_at (shr32 a 8)) 8))
               (shl32 (sbox_at (shr32 a 16)) 16)) (shl32 (sbox_at (shr32 a 24)) 24).

(** block.go:102-104 *)
Definition sm4_l (b : Z) : Z :=
  Z.lxor (Z.lxor (Z.lxor (Z.lxor b (sm4_rotl b 2)) (sm4_rotl b 10)) (sm4_rotl b 18)) (sm4_rotl b 24).

(** block.go:106-108 *)
Definition sm4_t (x : Z) : Z := sm4_l (sm4_tao x).

(** block.go:110-112 *)
Definition sm4_f (x0 x1 x2 x3 rk : Z) : Z := Z.lxor x0 (sm4_t (Z.lxor (Z.lxor (Z.lxor x1 x2) x3) rk)).

(** block.go:121-123 *)
Definition sm4_kl (b : Z) : Z := Z.lxor (Z.lxor b (sm4_rotl b 13)) (sm4_rotl b 23).

(** block.go:125-127 *)
Definition sm4_kt (x : Z) : Z := sm4_kl (sm4_tao x).

(** block.go:32-35 and 61-64: word i of a byte buffer (big endian); the caller
    has checked that the buffer has at least 16 bytes. *)
Definition load_word (src : bytes) (i : nat) : Z :=
  Z.lor (Z.lor (Z.lor (shl32 (nth (4 * i) src 0) 24) (shl32 (nth (4 * i + 1) src 0) 16))
               (shl32 (nth (4 * i + 2) src 0) 8)) (nth (4 * i + 3) src 0).

(** four consecutive words, the state of the key schedule and of the rounds *)
Definition window := (Z * Z * Z * Z)%type.

(** block.go:42-48: one step of the key schedule, on (k[0..3], subkeys so far) *)
Definition subkey_step (st : window * list Z) (i : nat) : window * list Z :=
  let '((k0, k1, k2, k3), sk) := st in
  let rk := Z.lxor k0 (sm4_kt (Z.lxor (Z.lxor (Z.lxor k1 k2) k3) (nth i sm4_ck 0))) in
  ((k1, k2, k3, rk), sk ++ [rk]).

(** block.go:29-49.  Called by NewCipher only with 16 bytes. *)
Definition generateSubkeys (key : bytes) : list Z :=
  let k0 := Z.lxor (load_word key 0) (nth 0 sm4_fk 0) in
  let k1 := Z.lxor (load_word key 1) (nth 1 sm4_fk 0) in
  let k2 := Z.lxor (load_word key 2) (nth 2 sm4_fk 0) in
  let k3 := Z.lxor (load_word key 3) (nth 3 sm4_fk 0) in
  snd (fold_left subkey_step (seq 0 32) ((k0, k1, k2, k3), [])).

(** block.go:68-72 / 76-80: one round with round key rk *)
Definition crypt_round (m : window) (rk : Z) : window :=
  let '(m0, m1, m2, m3) := m in
  let tmp := sm4_f m0 m1 m2 m3 rk in
  (m1, m2, m3, tmp).

(** block.go:67-73 (j = 32..1, key j-1) and 75-81 (j = 0..31) *)
Definition round_indices (decrypt : bool) : list nat :=
  if decrypt then map (fun j => (32 - j - 1)%nat) (seq 0 32) else seq 0 32.

(** block.go:84-91, 114-119: output in reverse order, big endian *)
Definition store_words (m : window) : bytes :=
  let '(m0, m1, m2, m3) := m in
  flat_map (fun o => [u8 (shr32 o 24); u8 (shr32 o 16); u8 (shr32 o 8); u8 o]) [m3; m2; m1; m0].

(** block.go:58-92.  src[15] and dst[15] are indexed, so shorter buffers panic.
    The source is read completely before the destination is written, so the
    result is the same when dst and src are the same buffer.  Result: the new
    contents of dst.  (Bytes of dst already stored before a panic on a short dst
    are not modelled.) *)
Definition cryptBlock (subkeys : list Z) (dst src : bytes) (decrypt : bool) : go bytes :=
  if zlen src <? 16 then Panic "index out of range" else
  let m := (load_word src 0, load_word src 1, load_word src 2, load_word src 3) in
  let m := fold_left (fun m j => crypt_round m (nth j subkeys 0)) (round_indices decrypt) m in
  if zlen dst <? 16 then Panic "index out of range" else
  Val (store_words m ++ skipn 16 dst).

(** cipher.go:48-56.  [inr n] is KeySizeError(n). *)
Definition NewCipher (key : bytes) : list Z + Z :=
  if negb (zlen key =? 16) then inr (zlen key) else inl (generateSubkeys key).

(** cipher.go:60 and 62 *)
Definition Encrypt (c : list Z) (dst src : bytes) : go bytes := cryptBlock c dst src false.
Definition Decrypt (c : list Z) (dst src : bytes) : go bytes := cryptBlock c dst src true.
