(** * Spec_AES: what C07-C09 refer to: CBC chaining, padding and the AES cipher of FIPS 197 *)
From Coq Require Import ZArith List Bool.
Import ListNotations.
Open Scope Z_scope.

Definition byte_string (l : list Z) : Prop := Forall (fun b => 0 <= b < 256) l.
Definition key_size (n : nat) : Prop := n = 16%nat \/ n = 24%nat \/ n = 32%nat.

(** i-th 16-byte block *)
Definition block (i : nat) (l : list Z) : list Z := firstn 16 (skipn (16 * i) l).
Definition xor_block (a b : list Z) : list Z :=
  map (fun p => Z.lxor (fst p) (snd p)) (combine a b).

(** CBC: c_i = E(p_i xor c_{i-1}), c_{-1} = iv *)
Definition is_cbc_encryption (E : list Z -> list Z) (iv p c : list Z) : Prop :=
  length c = length p /\
  forall i, (16 * i < length p)%nat -> block i c = E (xor_block (block i p) (block i (iv ++ c))).
(** p_i = D(c_i) xor c_{i-1} *)
Definition is_cbc_decryption (D : list Z -> list Z) (iv c p : list Z) : Prop :=
  length p = length c /\
  forall i, (16 * i < length c)%nat -> block i p = xor_block (D (block i c)) (block i (iv ++ c)).

(** k bytes of value k, 1 <= k <= bs, up to a multiple of bs *)
Definition is_padding_of (bs : nat) (p q : list Z) : Prop :=
  exists k, (1 <= k <= bs)%nat /\ q = p ++ repeat (Z.of_nat k) k /\ Nat.divide bs (length q).

(** ** FIPS 197, on states of 16 bytes in column order *)
Definition xtime (a : Z) : Z := let b := 2 * a in if 256 <=? b then Z.lxor b 0x11B else b.
Fixpoint gmul_n (n : nat) (a b : Z) : Z :=
  match n with
  | O => 0
  | S n' => Z.lxor (if Z.odd b then a else 0) (gmul_n n' (xtime a) (b / 2))
  end.
Definition gmul (a b : Z) : Z := gmul_n 8 a b.
Definition ginv (a : Z) : Z :=
  match find (fun b => gmul a b =? 1) (map Z.of_nat (seq 1 255)) with Some b => b | None => 0 end.
Definition rotl8 (x i : Z) : Z := (x * 2 ^ i) mod 256 + (x * 2 ^ i) / 256.
(** S-box: b_i xor b_{i+4} xor b_{i+5} xor b_{i+6} xor b_{i+7} xor c_i, c = 0x63 *)
Definition sub_byte (x : Z) : Z :=
  let b := ginv x in
  Z.lxor 0x63 (Z.lxor b (Z.lxor (rotl8 b 1) (Z.lxor (rotl8 b 2) (Z.lxor (rotl8 b 3) (rotl8 b 4))))).
Definition sbox_tab : list Z := Eval vm_compute in map (fun i => sub_byte (Z.of_nat i)) (seq 0 256).
Definition sb (x : Z) : Z := nth (Z.to_nat x) sbox_tab 0.
Definition inv_tab : list Z := Eval vm_compute in
  map (fun y => match find (fun x => nth x sbox_tab 0 =? Z.of_nat y) (seq 0 256) with
                | Some x => Z.of_nat x | None => 0 end) (seq 0 256).
Definition isb (x : Z) : Z := nth (Z.to_nat x) inv_tab 0.

Definition byte_at (s : list Z) (i : nat) : Z := nth i s 0.
(** row r, column c is byte r + 4c; row r is rotated left by r *)
Definition shift_rows (s : list Z) : list Z :=
  map (fun i => byte_at s ((i + 4 * (i mod 4)) mod 16)) (seq 0 16).
Definition inv_shift_rows (s : list Z) : list Z :=
  map (fun i => byte_at s ((i + 16 - 4 * (i mod 4)) mod 16)) (seq 0 16).
Definition mix_with (m : list Z) (s : list Z) : list Z :=
  map (fun i =>
    let c := (i / 4)%nat in let r := (i mod 4)%nat in
    fold_right Z.lxor 0
      (map (fun k => gmul (nth ((k + 4 - r) mod 4) m 0) (byte_at s (4 * c + k))) (seq 0 4)))
    (seq 0 16).
Definition mix_columns := mix_with [2; 3; 1; 1].
Definition inv_mix_columns := mix_with [14; 11; 13; 9].

(** key expansion on 4-byte words *)
Definition sub_word (w : list Z) := map sb w.
Definition rot_word (w : list Z) := match w with a :: t => t ++ [a] | [] => [] end.
Fixpoint rcon (i : nat) : Z := match i with O => 1 | S O => 1 | S i' => xtime (rcon i') end.
Definition next_word (nk : nat) (ws : list (list Z)) (i : nat) : list Z :=
  let temp := nth (i - 1) ws [] in
  let temp' :=
    if (i mod nk =? 0)%nat then xor_block (sub_word (rot_word temp)) [rcon (i / nk); 0; 0; 0]
    else if ((6 <? nk) && (i mod nk =? 4))%nat then sub_word temp else temp in
  xor_block (nth (i - nk) ws []) temp'.
Fixpoint key_words (n : nat) (l : list Z) : list (list Z) :=
  match n with O => [] | S n' => firstn 4 l :: key_words n' (skipn 4 l) end.
Definition round_keys (key : list Z) : list (list Z) :=
  let nk := (length key / 4)%nat in
  let nr := (nk + 6)%nat in
  let ws := fold_left (fun ws i => ws ++ [next_word nk ws i]) (seq nk (4 * (nr + 1) - nk)) (key_words nk key) in
  map (fun r => concat (firstn 4 (skipn (4 * r) ws))) (seq 0 (nr + 1)).

Definition enc_round (s rk : list Z) := xor_block (mix_columns (shift_rows (map sb s))) rk.
Definition enc_final (s rk : list Z) := xor_block (shift_rows (map sb s)) rk.
Definition dec_round (s rk : list Z) :=
  map isb (inv_shift_rows (inv_mix_columns (xor_block s rk))).
Definition dec_final (s rk : list Z) := map isb (inv_shift_rows (xor_block s rk)).

Definition aes_enc (key s : list Z) : list Z :=
  match round_keys key with
  | k0 :: ks => enc_final (fold_left enc_round (removelast ks) (xor_block s k0)) (last ks [])
  | [] => s
  end.
Definition aes_dec (key s : list Z) : list Z :=
  match round_keys key with
  | k0 :: ks => xor_block (fold_left dec_round (rev (removelast ks)) (dec_final s (last ks []))) k0
  | [] => s
  end.

(** FIPS 197 appendix C vectors *)
Definition fips_pt : list Z := [0x00;0x11;0x22;0x33;0x44;0x55;0x66;0x77;0x88;0x99;0xaa;0xbb;0xcc;0xdd;0xee;0xff].
Example fips_c1 : aes_enc (map Z.of_nat (seq 0 16)) fips_pt =
  [0x69;0xc4;0xe0;0xd8;0x6a;0x7b;0x04;0x30;0xd8;0xcd;0xb7;0x80;0x70;0xb4;0xc5;0x5a].
Proof. vm_compute. reflexivity. Qed.
Example fips_c2 : aes_enc (map Z.of_nat (seq 0 24)) fips_pt =
  [0xdd;0xa9;0x7c;0xa4;0x86;0x4c;0xdf;0xe0;0x6e;0xaf;0x70;0xa0;0xec;0x0d;0x71;0x91].
Proof. vm_compute. reflexivity. Qed.
Example fips_c3 : aes_enc (map Z.of_nat (seq 0 32)) fips_pt =
  [0x8e;0xa2;0xb7;0xca;0x51;0x67;0x45;0xbf;0xea;0xfc;0x49;0x90;0x4b;0x49;0x60;0x89].
Proof. vm_compute. reflexivity. Qed.
