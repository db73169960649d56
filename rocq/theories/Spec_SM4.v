(** * Spec_SM4: the SM4 block cipher of GB/T 32907-2016, written from the standard.

    The S-box is given by its algebraic description (Liu, Ji, Hu, Ding, Lv, Pyshkin,
    Weinmann, ACISP 2007): S(x) = A(inv(A x + C)) + C over GF(2)[t]/(t^8+t^7+t^6+t^5+t^4+t^2+1). *)
From Coq Require Import ZArith List Bool.
From Verif Require Import Spec_SM3.
Import ListNotations.
Open Scope Z_scope.

(** GF(2^8) multiplication, shift-and-add, polynomial 0x1F5 *)
Definition xtime (a : Z) : Z := let b := 2 * a in if 256 <=? b then Z.lxor b 0x1F5 else b.
Fixpoint gf_mul_n (n : nat) (a b : Z) : Z :=
  match n with
  | O => 0
  | S n' => Z.lxor (if Z.odd b then a else 0) (gf_mul_n n' (xtime a) (b / 2))
  end.
Definition gf_mul (a b : Z) : Z := gf_mul_n 8 a b.

(** inverse as the unique solution, found by search; inverse of 0 is 0 *)
Definition gf_inv (a : Z) : Z :=
  match find (fun b => gf_mul a b =? 1) (map Z.of_nat (seq 1 255)) with
  | Some b => b
  | None => 0
  end.

Definition parity8 (x : Z) : bool :=
  fold_left xorb (map (fun i => Z.testbit x (Z.of_nat i)) (seq 0 8)) false.
Definition rol8 (x i : Z) : Z := let y := x * 2 ^ i in y mod 256 + y / 256.
(** x |-> A x + C, row i of the circulant matrix A is 0xA7 rotated by i, C = 0xD3 *)
Definition affine (x : Z) : Z :=
  Z.lxor 0xD3
    (fold_left Z.add
       (map (fun i => if parity8 (Z.land (rol8 0xA7 (Z.of_nat i)) x) then 2 ^ Z.of_nat i else 0)
            (seq 0 8)) 0).
Definition Sbox (x : Z) : Z := affine (gf_inv (affine x)).

(** round constants: byte j of CK_i is (4i+j)*7 mod 256 *)
Definition CK (i : nat) : Z :=
  let b j := ((4 * Z.of_nat i + j) * 7) mod 256 in
  b 0 * 2 ^ 24 + b 1 * 2 ^ 16 + b 2 * 2 ^ 8 + b 3.

Definition FK : list Z := [0xA3B1BAC6; 0x56AA3350; 0x677D9197; 0xB27022DC].

(** byte-wise substitution and the two linear maps *)
Definition tau (x : Z) : Z :=
  Sbox ((x / 2 ^ 24) mod 256) * 2 ^ 24 + Sbox ((x / 2 ^ 16) mod 256) * 2 ^ 16
  + Sbox ((x / 2 ^ 8) mod 256) * 2 ^ 8 + Sbox (x mod 256).
Definition L (b : Z) : Z :=
  Z.lxor b (Z.lxor (rol b 2) (Z.lxor (rol b 10) (Z.lxor (rol b 18) (rol b 24)))).
Definition L' (b : Z) : Z := Z.lxor b (Z.lxor (rol b 13) (rol b 23)).

(** sequences X_0, X_1, ...: append X_{i+4} = X_i + Lin(tau(X_{i+1}+X_{i+2}+X_{i+3}+c_i)) *)
Definition next (lin : Z -> Z) (xs : list Z) (c : Z) : list Z :=
  let x k := nth (length xs - k) xs 0 in
  xs ++ [Z.lxor (x 4%nat) (lin (tau (Z.lxor (x 3%nat) (Z.lxor (x 2%nat) (Z.lxor (x 1%nat) c)))))].

(** the 32 round keys: K_4 .. K_35 *)
Definition round_keys (key : list Z) : list Z :=
  let mk := words key in
  let k0 := map (fun p => Z.lxor (fst p) (snd p)) (combine mk FK) in
  skipn 4 (fold_left (next L') (map CK (seq 0 32)) k0).

(** encryption with a list of round keys; output (X_35, X_34, X_33, X_32) *)
Definition crypt (rks : list Z) (block : list Z) : list Z :=
  flat_map word_bytes (rev (skipn 32 (fold_left (next L) rks (words block)))).

Definition sm4_encrypt (key block : list Z) : list Z := crypt (round_keys key) block.
Definition sm4_decrypt (key block : list Z) : list Z := crypt (rev (round_keys key)) block.

(** Test vector of the standard. *)
Example sm4_std :
  let k := [0x01; 0x23; 0x45; 0x67; 0x89; 0xab; 0xcd; 0xef; 0xfe; 0xdc; 0xba; 0x98; 0x76; 0x54; 0x32; 0x10] in
  sm4_encrypt k k =
  [0x68; 0x1e; 0xdf; 0x34; 0xd2; 0x06; 0x96; 0x5e; 0x86; 0xb3; 0xe9; 0x4f; 0x53; 0x6e; 0x42; 0x46].
Proof. vm_compute. reflexivity. Qed.

(** gf_inv really is the field inverse. *)
Example gf_inv_ok :
  forallb (fun a => gf_mul a (gf_inv a) =? 1) (map Z.of_nat (seq 1 255)) = true.
Proof. vm_compute. reflexivity. Qed.
