(** * Spec_WIFMem: decimal texts *)
From Coq Require Import ZArith List.
Import ListNotations.
Open Scope Z_scope.

(** [text] is a decimal numeral of value n (leading zeros allowed) *)
Inductive decimal : list Z -> Z -> Prop :=
| dec_one : forall d, 0 <= d < 10 -> decimal [48 + d] d
| dec_more : forall t n d, decimal t n -> 0 <= d < 10 -> decimal (t ++ [48 + d]) (10 * n + d).
(** no superfluous zero in front *)
Definition shortest (t : list Z) : Prop := t = [48] \/ (t <> [] /\ nth 0 t 0 <> 48).
(** w starts with exactly k characters '1', a last character not counted *)
Definition ones (w : list Z) (k : nat) : Prop :=
  (k < length w)%nat /\ (forall i, (i < k)%nat -> nth i w 0 = 49) /\ (S k = length w \/ nth k w 0 <> 49).
