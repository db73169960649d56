(** * Spec_VRF: what the verifiable random function computes, independent of the code.
    [f] is the hash function, [n] the number of bytes of a field element. *)
From Coq Require Import ZArith String List Bool.
From Verif Require Import Curves Spec_EC.
Import ListNotations.
Open Scope Z_scope.

(** a 32-bit big-endian counter *)
Definition counter (i : Z) : list Z :=
  [i / 2 ^ 24 mod 256; i / 2 ^ 16 mod 256; i / 2 ^ 8 mod 256; i mod 256].
(** the i-th candidate: the first n bytes of f(i || m) read as a number *)
Definition candidate (f : list Z -> list Z) (n i : Z) (m : list Z) : Z :=
  value (firstn (Z.to_nat n) (f (counter i ++ m))) 0.

(** the first candidate below N - 1, plus one *)
Inductive to_int (f : list Z -> list Z) (n N : Z) (m : list Z) : Z -> Prop :=
| to_int_first : forall i, 0 <= i ->
    (forall j, 0 <= j < i -> N - 1 <= candidate f n j m) ->
    candidate f n i m < N - 1 ->
    to_int f n N m (candidate f n i m + 1).

(** x is the abscissa of a point that hashing may return: on P-224 the points with y = 0 are
    passed over *)
Definition has_point (c : curve) (a x : Z) : Prop :=
  exists y, curve_eq (c_P c) a (c_B c) x y /\ (c = P224 -> ~ curve_eq (c_P c) a (c_B c) x 0).

(** the first of 100 candidates with a point, and that point's even ordinate *)
Inductive to_point (f : list Z -> list Z) (n : Z) (c : curve) (a : Z) (m : list Z) : Z -> Z -> Prop :=
| to_point_first : forall i y, 0 <= i < 100 ->
    (forall j, 0 <= j < i -> ~ has_point c a (candidate f n j m)) ->
    has_point c a (candidate f n i m) ->
    curve_eq (c_P c) a (c_B c) (candidate f n i m) y -> 0 <= y < c_P c -> Z.even y = true ->
    to_point f n c a m (candidate f n i m) y.

(** The statement that is verified.  The curve operations are arguments: [bm] multiplies the base
    point, [mul] any point, by a big-endian scalar. *)
Inductive accepts (f : list Z -> list Z) (n : Z) (c : curve) (a : Z)
    (bm : list Z -> Z * Z) (mul : Z * Z -> list Z -> Z * Z) (add : Z * Z -> Z * Z -> Z * Z) (on : Z * Z -> bool)
    (pk : Z * Z) (m vrf nizk : list Z) : Prop :=
| accepts_intro : forall sb tb ux uy hx hy s pkb gb hb ab bb,
    nizk = sb ++ tb -> Z.of_nat (List.length tb) = n ->
    sec1_uncompressed n ux uy vrf -> ux < c_P c -> uy < c_P c -> on (ux, uy) = true ->
    sec1_uncompressed n (fst pk) (snd pk) pkb ->
    to_point f n c a (pkb ++ m) hx hy ->
    sec1_uncompressed n (c_Gx c) (c_Gy c) gb ->
    sec1_uncompressed n hx hy hb ->
    (let A := add (bm tb) (mul pk sb) in sec1_uncompressed n (fst A) (snd A) ab) ->
    (let B := add (mul (hx, hy) tb) (mul (ux, uy) sb) in sec1_uncompressed n (fst B) (snd B) bb) ->
    to_int f n (c_N c) (gb ++ hb ++ pkb ++ vrf ++ ab ++ bb) s ->
    encodes n s sb ->
    accepts f n c a bm mul add on pk m vrf nizk.
