(** * Spec_Asm: what it means that an assembly function stores a value *)
From Coq Require Import ZArith List.
From Verif Require Import AsmX86.
Import ListNotations.
Open Scope Z_scope.

(** the object [r] has the words [w] from offset [o] on *)
Definition holds (h : heap) (r : nat) (o : Z) (w : list Z) : Prop :=
  forall i, (i < length w)%nat -> h r (o + 8 * Z.of_nat i) = Some (nth i w 0).
(** the object [r] has [n] words from offset [o] on *)
Definition some_at (h : heap) (r : nat) (o : Z) : Prop := exists y, h r o = Some y.
Definition room (h : heap) (r : nat) (o : Z) (n : nat) : Prop := forall i, (i < n)%nat -> some_at h r (o + 8 * Z.of_nat i).
(** memory afterwards: [w] there, and nothing else changed *)
Definition writes (h h' : heap) (r : nat) (o : Z) (w : list Z) : Prop :=
  holds h' r o w /\
  forall r' o', (r' <> r \/ forall i, (i < length w)%nat -> o' <> o + 8 * Z.of_nat i) -> h' r' o' = h r' o'.
(** the function runs to its end without a fault and stores [w] at (r, o) *)
Definition returns (code : list item) (frame : nat) (h : heap) (al : nat -> Z) (args : list val) (r : nat) (o : Z) (w : list Z) : Prop :=
  exists st, run code (init h al args frame) = Some st /\ writes h (hp st) r o w.
(** a slice argument: pointer, length, capacity *)
Definition slice (r : nat) (o : Z) (n cap : val) : list val := [Ptr r o; n; cap].
(** a function without calls and loops *)
Definition fn (c : list instr) : list item := map Do c.
(** bytes of a word as they lie in memory *)
Fixpoint le_bytes (n : nat) (w : Z) : list Z := match n with O => [] | S n' => w mod 256 :: le_bytes n' (w / 256) end.
