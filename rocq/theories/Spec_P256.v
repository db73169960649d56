(** * Spec_P256: words, Montgomery form, projective points *)
From Coq Require Import ZArith List.
From Verif Require Import Curves Spec_Group.
Import ListNotations.
Open Scope Z_scope.

(** four 64-bit words, least significant first, and their value *)
Definition is_words (n : nat) (w : list Z) : Prop := length w = n /\ Forall (fun x => 0 <= x < 2 ^ 64) w.
Fixpoint lval (w : list Z) : Z := match w with [] => 0 | x :: w' => x + 2 ^ 64 * lval w' end.
(** [w] holds v * 2^256 modulo m, not necessarily reduced; and reduced *)
Definition montr (m : Z) (w : list Z) (v : Z) : Prop := is_words 4 w /\ lval w mod m = (v * 2 ^ 256) mod m.
Definition mont (m : Z) (w : list Z) (v : Z) : Prop := montr m w v /\ lval w < m.
(** what a Montgomery multiplication modulo m must do: any words, the residue a * b / 2^256, reduced
    when one of the factors is *)
Definition mul_ok (m : Z) (f : list Z -> list Z -> list Z) : Prop := forall a b, is_words 4 a -> is_words 4 b ->
  is_words 4 (f a b) /\ (lval (f a b) * 2 ^ 256) mod m = (lval a * lval b) mod m /\
  (lval a < m \/ lval b < m -> lval (f a b) < m).
(** signed digit of (magnitude, sign) *)
Definition digit (ds : Z * Z) : Z := if snd ds =? 0 then fst ds else - fst ds.
(** sum of ds_i * base^i *)
Fixpoint positional (base : Z) (ds : list Z) : Z :=
  match ds with [] => 0 | d :: ds' => d + base * positional base ds' end.

(** ** What the point routines must do *)
Section Points.
Variable E : ecgroup.
Notation P256 := (c_P SM2P256V1).
(** coordinates as on the curve: reduced, no point of order two, opposite points differ in the sign of y *)
Definition coords_ok : Prop := forall Q : pt (eg E), Q <> gO ->
  0 <= fst (ecoords Q) < P256 /\ 0 < snd (ecoords Q) < P256 /\
  ecoords (gneg Q) = (fst (ecoords Q), P256 - snd (ecoords Q)).
(** Jacobian coordinates in Montgomery form, X and Y at most p, Z below; infinity has Z = 0 *)
Definition rep (x y z : list Z) (Q : pt (eg E)) : Prop :=
  is_words 4 x /\ is_words 4 y /\ is_words 4 z /\ lval x <= P256 /\ lval y <= P256 /\
  ((Q = gO /\ lval z = 0) \/
   (Q <> gO /\ exists v, ~ (P256 | v) /\ mont P256 z v /\
    montr P256 x (fst (ecoords Q) * v ^ 2) /\ montr P256 y (snd (ecoords Q) * v ^ 3))).
Definition rep12 (p : list Z) (Q : pt (eg E)) : Prop := exists x y z, p = x ++ y ++ z /\ rep x y z Q.
(** affine coordinates in Montgomery form *)
Definition arep (x y : list Z) (Q : pt (eg E)) : Prop :=
  Q <> gO /\ mont P256 x (fst (ecoords Q)) /\ mont P256 y (snd (ecoords Q)).
Definition arep8 (p : list Z) (Q : pt (eg E)) : Prop := exists x y, p = x ++ y /\ arep x y Q.
Definition signed (sign : Z) (Q : pt (eg E)) : pt (eg E) := if sign =? 0 then Q else gneg Q.
End Points.
