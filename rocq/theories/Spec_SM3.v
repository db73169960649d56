(** * Spec_SM3: the SM3 hash of GB/T 32905-2016, written from the standard.

    Independent of the model: message level (padding, list of 64-byte blocks,
    iteration of the compression function), no buffer, no counters. *)
From Coq Require Import ZArith List.
Import ListNotations.
Open Scope Z_scope.

Definition M32 : Z := 4294967296.

(** rotation of a 32-bit word: multiply by 2^n, fold the overflow back *)
Definition rol (x n : Z) : Z :=
  let y := x * 2 ^ (n mod 32) in y mod M32 + y / M32.

Definition P0 (x : Z) : Z := Z.lxor (Z.lxor x (rol x 9)) (rol x 17).
Definition P1 (x : Z) : Z := Z.lxor (Z.lxor x (rol x 15)) (rol x 23).

(** boolean functions: FF is parity then majority, GG is parity then choice *)
Definition FF (j : nat) (x y z : Z) : Z :=
  if (j <? 16)%nat then Z.lxor (Z.lxor x y) z
  else Z.lor (Z.lor (Z.land x y) (Z.land x z)) (Z.land y z).
Definition GG (j : nat) (x y z : Z) : Z :=
  if (j <? 16)%nat then Z.lxor (Z.lxor x y) z
  else Z.lor (Z.land x y) (Z.ldiff z x).
Definition T (j : nat) : Z := if (j <? 16)%nat then 0x79CC4519 else 0x7A879D8A.

Definition IV : list Z :=
  [0x7380166F; 0x4914B2B9; 0x172442D7; 0xDA8A0600;
   0xA96F30BC; 0x163138AA; 0xE38DEE4D; 0xB0FB0E4E].

(** 32-bit big-endian words of a byte string *)
Fixpoint words (l : list Z) : list Z :=
  match l with
  | a :: b :: c :: d :: t => (a * 2 ^ 24 + b * 2 ^ 16 + c * 2 ^ 8 + d) :: words t
  | _ => []
  end.

(** message expansion: extend the 16 block words to 68 words *)
Definition next_word (ws : list Z) : Z :=
  let w k := nth (length ws - k) ws 0 in
  Z.lxor (Z.lxor (P1 (Z.lxor (Z.lxor (w 16%nat) (w 9%nat)) (rol (w 3%nat) 15))) (rol (w 13%nat) 7))
         (w 6%nat).
Fixpoint expand (n : nat) (ws : list Z) : list Z :=
  match n with
  | O => ws
  | S n' => expand n' (ws ++ [next_word ws])
  end.

Definition vstate := (Z * Z * Z * Z * Z * Z * Z * Z)%type.

Definition round (ws : list Z) (st : vstate) (j : nat) : vstate :=
  let '(a, b, c, d, e, f, g, h) := st in
  let ss1 := rol ((rol a 12 + e + rol (T j) (Z.of_nat j)) mod M32) 7 in
  let ss2 := Z.lxor ss1 (rol a 12) in
  let tt1 := (FF j a b c + d + ss2 + Z.lxor (nth j ws 0) (nth (j + 4) ws 0)) mod M32 in
  let tt2 := (GG j e f g + h + ss1 + nth j ws 0) mod M32 in
  (tt1, a, rol b 9, c, P0 tt2, e, rol f 19, g).

(** compression function CF(V, B) *)
Definition CF (v : list Z) (block : list Z) : list Z :=
  match v with
  | [v0; v1; v2; v3; v4; v5; v6; v7] =>
      let ws := expand 52 (words block) in
      let '(a, b, c, d, e, f, g, h) :=
        fold_left (round ws) (seq 0 64) (v0, v1, v2, v3, v4, v5, v6, v7) in
      [Z.lxor a v0; Z.lxor b v1; Z.lxor c v2; Z.lxor d v3;
       Z.lxor e v4; Z.lxor f v5; Z.lxor g v6; Z.lxor h v7]
  | _ => v
  end.

(** padding: 1 bit, then zeros up to 56 modulo 64 bytes, then the 64-bit length in bits *)
Definition be64 (x : Z) : list Z :=
  map (fun i => (x / 2 ^ (8 * (7 - Z.of_nat i))) mod 256) (seq 0 8).
Definition pad (m : list Z) : list Z :=
  let len := Z.of_nat (length m) in
  m ++ [128] ++ repeat 0 (Z.to_nat ((55 - len) mod 64)) ++ be64 (8 * len).

(** cut into [n] blocks of 64 bytes *)
Fixpoint blocks (n : nat) (l : list Z) : list (list Z) :=
  match n with
  | O => []
  | S n' => firstn 64 l :: blocks n' (skipn 64 l)
  end.

Definition word_bytes (w : Z) : list Z :=
  [(w / 2 ^ 24) mod 256; (w / 2 ^ 16) mod 256; (w / 2 ^ 8) mod 256; w mod 256].

Definition sm3_hash (m : list Z) : list Z :=
  let p := pad m in
  flat_map word_bytes (fold_left CF (blocks (length p / 64) p) IV).

(** Test vectors of the standard (annex A): these are tests of the specification. *)
Example sm3_abc : sm3_hash [97; 98; 99] =
  [0x66; 0xc7; 0xf0; 0xf4; 0x62; 0xee; 0xed; 0xd9; 0xd1; 0xf2; 0xd4; 0x6b; 0xdc; 0x10; 0xe4; 0xe2;
   0x41; 0x67; 0xc4; 0x87; 0x5c; 0xf2; 0xf7; 0xa2; 0x29; 0x7d; 0xa0; 0x2b; 0x8f; 0x4b; 0xa8; 0xe0].
Proof. vm_compute. reflexivity. Qed.
Example sm3_abcd16 : sm3_hash (concat (repeat [97; 98; 99; 100] 16)) =
  [0xde; 0xbe; 0x9f; 0xf9; 0x22; 0x75; 0xb8; 0xa1; 0x38; 0x60; 0x48; 0x89; 0xc1; 0x8e; 0x5a; 0x4d;
   0x6f; 0xdb; 0x70; 0xe5; 0x38; 0x7e; 0x57; 0x65; 0x29; 0x3d; 0xcb; 0xa3; 0x9c; 0x0c; 0x57; 0x32].
Proof. vm_compute. reflexivity. Qed.
