(** * Spec_Scrypt: RFC 7914 on octets, and RFC 8018 (PBKDF2) with one iteration *)
From Coq Require Import ZArith List.
From Verif Require Import Spec_EC Spec_Nonce.
Import ListNotations.
Open Scope Z_scope.

(** octets a_0 a_1 ... as a little-endian number *)
Fixpoint le_value (l : list Z) : Z := match l with [] => 0 | a :: t => a + 256 * le_value t end.
(** the 4 octets of a word *)
Definition le_word (w : Z) : list Z := [w mod 256; w / 256 mod 256; w / 65536 mod 256; w / 16777216 mod 256].
(** the i-th piece of n octets *)
Definition piece (n : nat) (b : list Z) (i : nat) : list Z := firstn n (skipn (i * n) b).
Definition xor (a b : list Z) : list Z := map (fun p => Z.lxor (fst p) (snd p)) (combine a b).

(** Salsa20: a word rotated by n to the left; 2^32 = M *)
Definition M : Z := 4294967296.
Definition rot (n x : Z) : Z := x * 2 ^ n mod M + x * 2 ^ n / M.
(** Salsa20 specification, section 3: quarterround *)
Definition quarter (y : Z * Z * Z * Z) : Z * Z * Z * Z :=
  let '(y0, y1, y2, y3) := y in
  let z1 := Z.lxor y1 (rot 7 ((y0 + y3) mod M)) in
  let z2 := Z.lxor y2 (rot 9 ((z1 + y0) mod M)) in
  let z3 := Z.lxor y3 (rot 13 ((z2 + z1) mod M)) in
  let z0 := Z.lxor y0 (rot 18 ((z3 + z2) mod M)) in
  (z0, z1, z2, z3).
(** section 4: rowround, section 5: columnround, section 6: doubleround, on 16 words *)
Definition rowround (y : list Z) : list Z :=
  let g i := nth i y 0 in
  let '(z0, z1, z2, z3) := quarter (g 0, g 1, g 2, g 3)%nat in
  let '(z5, z6, z7, z4) := quarter (g 5, g 6, g 7, g 4)%nat in
  let '(z10, z11, z8, z9) := quarter (g 10, g 11, g 8, g 9)%nat in
  let '(z15, z12, z13, z14) := quarter (g 15, g 12, g 13, g 14)%nat in
  [z0; z1; z2; z3; z4; z5; z6; z7; z8; z9; z10; z11; z12; z13; z14; z15].
Definition columnround (x : list Z) : list Z :=
  let g i := nth i x 0 in
  let '(y0, y4, y8, y12) := quarter (g 0, g 4, g 8, g 12)%nat in
  let '(y5, y9, y13, y1) := quarter (g 5, g 9, g 13, g 1)%nat in
  let '(y10, y14, y2, y6) := quarter (g 10, g 14, g 2, g 6)%nat in
  let '(y15, y3, y7, y11) := quarter (g 15, g 3, g 7, g 11)%nat in
  [y0; y1; y2; y3; y4; y5; y6; y7; y8; y9; y10; y11; y12; y13; y14; y15].
Definition doubleround (x : list Z) : list Z := rowround (columnround x).
(** RFC 7914, section 3: Salsa20/8 Core on 64 octets *)
Definition Salsa (B : list Z) : list Z :=
  let x := map (fun i => le_value (piece 4 B i)) (seq 0 16) in
  let z := Nat.iter 4 doubleround x in
  flat_map (fun p => le_word ((fst p + snd p) mod M)) (combine z x).

(** section 4: scryptBlockMix; the values of X, which are the Y[i] *)
Fixpoint Y (r : nat) (B : list Z) (i : nat) : list Z :=
  match i with
  | O => Salsa (xor (piece 64 B (2 * r - 1)) (piece 64 B 0))
  | S j => Salsa (xor (Y r B j) (piece 64 B (S j)))
  end.
Definition BlockMix (r : nat) (B : list Z) : list Z :=
  flat_map (fun i => Y r B (2 * i)) (seq 0 r) ++ flat_map (fun i => Y r B (2 * i + 1)) (seq 0 r).
(** section 5: scryptROMix; V[j] is B mixed j times, Integerify is the last block of 64 octets as a little-endian number *)
Definition ROMix (r N : nat) (B : list Z) : list Z :=
  let V j := Nat.iter j (BlockMix r) B in
  Nat.iter N (fun X => BlockMix r (xor X (V (Z.to_nat (le_value (piece 64 X (2 * r - 1)) mod Z.of_nat N)))))
           (Nat.iter N (BlockMix r) B).

Section Hash.
Variable Hash : list Z -> list Z.
(** RFC 8018, 5.2, with c = 1: T_i = PRF(P, S || INT(i)), and the first dkLen octets of T_1 || ... || T_l *)
Definition pbkdf2_rel (P S : list Z) (dkLen : nat) (out : list Z) : Prop :=
  exists T, Forall2 (fun i t => exists ib, encodes 4 (Z.of_nat i) ib /\ hmac_rel Hash P (S ++ ib) t) (seq 1 ((dkLen + 31) / 32)) T /\
    out = firstn dkLen (concat T).
(** RFC 7914, section 6 *)
Definition scrypt_rel (P S : list Z) (N r p dkLen : nat) (out : list Z) : Prop :=
  exists B, pbkdf2_rel P S (p * 128 * r) B /\
    pbkdf2_rel P (flat_map (fun i => ROMix r N (piece (128 * r) B i)) (seq 0 p)) dkLen out.
End Hash.
