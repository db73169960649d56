(** * Spec_SHA2: SHA-256 as in FIPS 180-4.  The code gets its SHA-256 from the Go standard
    library; the model takes any function in its place.  This one is used in concrete cases. *)
From Coq Require Import ZArith List.
From Verif Require Import Base BaseFacts.
Import ListNotations.
Open Scope Z_scope.

(** FIPS 180-4, 3.2, 4.1.2 *)
Definition rotr (n x : Z) : Z := Z.lor (Z.shiftr x n) (u32 (Z.shiftl x (32 - n))).
Definition xor3 (a b c : Z) : Z := Z.lxor a (Z.lxor b c).
Definition Ch (x y z : Z) : Z := Z.lxor (Z.land x y) (Z.land (not32 x) z).
Definition Maj (x y z : Z) : Z := xor3 (Z.land x y) (Z.land x z) (Z.land y z).
Definition bsig0 (x : Z) : Z := xor3 (rotr 2 x) (rotr 13 x) (rotr 22 x).
Definition bsig1 (x : Z) : Z := xor3 (rotr 6 x) (rotr 11 x) (rotr 25 x).
Definition ssig0 (x : Z) : Z := xor3 (rotr 7 x) (rotr 18 x) (Z.shiftr x 3).
Definition ssig1 (x : Z) : Z := xor3 (rotr 17 x) (rotr 19 x) (Z.shiftr x 10).

(** 4.2.2: first 32 bits of the fractional parts of the cube roots of the first 64 primes *)
Definition K256 : list Z :=
 [0x428a2f98; 0x71374491; 0xb5c0fbcf; 0xe9b5dba5; 0x3956c25b; 0x59f111f1; 0x923f82a4; 0xab1c5ed5;
  0xd807aa98; 0x12835b01; 0x243185be; 0x550c7dc3; 0x72be5d74; 0x80deb1fe; 0x9bdc06a7; 0xc19bf174;
  0xe49b69c1; 0xefbe4786; 0x0fc19dc6; 0x240ca1cc; 0x2de92c6f; 0x4a7484aa; 0x5cb0a9dc; 0x76f988da;
  0x983e5152; 0xa831c66d; 0xb00327c8; 0xbf597fc7; 0xc6e00bf3; 0xd5a79147; 0x06ca6351; 0x14292967;
  0x27b70a85; 0x2e1b2138; 0x4d2c6dfc; 0x53380d13; 0x650a7354; 0x766a0abb; 0x81c2c92e; 0x92722c85;
  0xa2bfe8a1; 0xa81a664b; 0xc24b8b70; 0xc76c51a3; 0xd192e819; 0xd6990624; 0xf40e3585; 0x106aa070;
  0x19a4c116; 0x1e376c08; 0x2748774c; 0x34b0bcb5; 0x391c0cb3; 0x4ed8aa4a; 0x5b9cca4f; 0x682e6ff3;
  0x748f82ee; 0x78a5636f; 0x84c87814; 0x8cc70208; 0x90befffa; 0xa4506ceb; 0xbef9a3f7; 0xc67178f2].
(** 5.3.3 *)
Definition H256 : list Z :=
 [0x6a09e667; 0xbb67ae85; 0x3c6ef372; 0xa54ff53a; 0x510e527f; 0x9b05688c; 0x1f83d9ab; 0x5be0cd19].

(** 5.1.1: 1, zeros, 64-bit length *)
Definition sha256_pad (m : bytes) : bytes :=
  m ++ [128] ++ zeros ((- (zlen m + 9)) mod 64) ++ to_be 8 (8 * zlen m).

Fixpoint words (n : nat) (l : bytes) : list Z :=
  match n with
  | O => []
  | S n' => be2z (firstn 4 l) :: words n' (skipn 4 l)
  end.
(** 6.2.2 step 1, the newest word first *)
Fixpoint schedule (n : nat) (w : list Z) : list Z :=
  match n with
  | O => w
  | S n' => schedule n' (u32 (ssig1 (nth 1 w 0) + nth 6 w 0 + ssig0 (nth 14 w 0) + nth 15 w 0) :: w)
  end.
(** 6.2.2 step 3 *)
Fixpoint rounds (ks ws : list Z) (s : list Z) : list Z :=
  match ks, ws, s with
  | k :: ks', w :: ws', [a; b; c; d; e; f; g; h] =>
      let t1 := h + bsig1 e + Ch e f g + k + w in
      let t2 := bsig0 a + Maj a b c in
      rounds ks' ws' [u32 (t1 + t2); a; b; c; u32 (d + t1); e; f; g]
  | _, _, _ => s
  end.
Definition sha256_block (h : list Z) (blk : bytes) : list Z :=
  let w := rev (schedule 48 (rev (words 16 blk))) in
  map (fun p => add32 (fst p) (snd p)) (combine h (rounds K256 w h)).
Fixpoint sha256_blocks (n : nat) (h : list Z) (l : bytes) : list Z :=
  match n with
  | O => h
  | S n' => sha256_blocks n' (sha256_block h (firstn 64 l)) (skipn 64 l)
  end.
Definition SHA256 (m : bytes) : bytes :=
  let p := sha256_pad m in
  flat_map (to_be 4) (sha256_blocks (Z.to_nat (zlen p / 64)) H256 p).

(** FIPS 180-2, appendix B.1: "abc" *)
Example sha256_abc : SHA256 [97; 98; 99] =
  to_be 32 0xba7816bf8f01cfea414140de5dae2223b00361a396177a9cb410ff61f20015ad.
Proof. vm_compute. reflexivity. Qed.

Lemma rounds_length : forall ks ws s, length s = 8%nat -> length (rounds ks ws s) = 8%nat.
Proof.
  induction ks as [|k ks IH]; intros ws s Hs; [exact Hs|].
  destruct ws as [|w ws]; [exact Hs|].
  do 8 (destruct s as [|? s]; [discriminate|]). destruct s; [|discriminate].
  cbn [rounds]. apply IH. reflexivity.
Qed.
Lemma sha256_blocks_length : forall n h l, length h = 8%nat -> length (sha256_blocks n h l) = 8%nat.
Proof.
  induction n as [|n IH]; intros h l Hh; [exact Hh|]. cbn [sha256_blocks]. apply IH.
  unfold sha256_block. rewrite map_length, combine_length, rounds_length, Hh by exact Hh. reflexivity.
Qed.
Theorem SHA256_length : forall m, length (SHA256 m) = 32%nat.
Proof.
  intros m. unfold SHA256. pose proof (sha256_blocks_length (Z.to_nat (zlen (sha256_pad m) / 64)) H256 (sha256_pad m) eq_refl) as L.
  cbv zeta. revert L. generalize (sha256_blocks (Z.to_nat (zlen (sha256_pad m) / 64)) H256 (sha256_pad m)). intros s L.
  do 8 (destruct s as [|? s]; [discriminate|]). destruct s; [|discriminate]. reflexivity.
Qed.
Theorem SHA256_octets : forall m, Forall (fun b => 0 <= b < 256) (SHA256 m).
Proof.
  intros m. unfold SHA256. cbv zeta. apply Forall_forall. intros b H. apply in_flat_map in H.
  destruct H as (x & _ & H). pose proof (to_be_wf 4 x) as W. unfold wf_bytes in W. rewrite Forall_forall in W. apply W. exact H.
Qed.
