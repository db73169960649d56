(** * Spec_Entropy: what reading n bytes from a source means *)
From Coq Require Import ZArith String List.
From Verif Require Import Base.
Import ListNotations.
Open Scope Z_scope.

(** [reads n l e o rest]: from a source that will deliver the bytes l and then fail with e, a full read of n bytes gives o and
    leaves the bytes rest *)
Inductive reads (n : nat) : list Z -> string -> res (list Z) -> list Z -> Prop :=
| rd_all : forall b rest e, length b = n -> reads n (b ++ rest) e (Ok b) rest
| rd_nothing : forall e, (0 < n)%nat -> reads n [] e (Err e) []
| rd_cut : forall b, (0 < length b < n)%nat -> reads n b "EOF" (Err "unexpected EOF"%string) []
| rd_broken : forall b e, (0 < length b < n)%nat -> e <> "EOF"%string -> reads n b e (Err e) [].
