(** * Primes5: primality of curve parameters (generated by tools/mkprimes.py) *)
From Coq Require Import ZArith List Bool Lia Znumtheory.
From Verif Require Import Base Curves Pocklington.
Import ListNotations.
Open Scope Z_scope.

Ltac small_p := apply small_prime_sound; vm_compute; reflexivity.
Ltac primes := repeat match goal with |- _ /\ _ => split end; first [assumption | small_p].
Ltac barrett n mu a t := match goal with |- prime ?N => apply (pock_sound (red_barrett n mu N) N a t) end;
  [apply red_barrett_ok; reflexivity|vm_cast_no_check (eq_refl true)|cbn [primes_t]; primes].
Ltac folding i n ones ts a t := match goal with |- prime ?N => apply (pock_sound (red_fold i n ones ts) N a t) end;
  [apply red_fold_ok; vm_compute; reflexivity|vm_cast_no_check (eq_refl true)|cbn [primes_t]; primes].

(** c_N P224 *)
Theorem prime_c_N_P224 : prime (c_N P224).
Proof.
  assert (H11105363 : prime 11105363) by (barrett 24 1661066286055 2 (Leaf 10909 1)).
  assert (H821796863 : prime 821796863) by (barrett 30 91942263505469 2 (Leaf 11105363 1)).
  assert (H432621809776543 : prime 432621809776543) by (barrett 49 48007721674658455098 2 (Leaf 821796863 1)).
  assert (H136401162692544977256234449 : prime 136401162692544977256234449) by (barrett 87 11504853792074304199773207938223 2 (Leaf 432621809776543 1)).
  assert (H34646440928557194402992574983797 : prime 34646440928557194402992574983797) by (barrett 105 3112579063776678826474000643244952866 2 (Leaf 136401162692544977256234449 1)).
  assert (H375503554633724504423937478103159147573209 : prime 375503554633724504423937478103159147573209) by (barrett 139 84762678641678471522805625875665430428903787505 2 (Leaf 34646440928557194402992574983797 1)).
  assert (H50520606258875818707470860153287666700917696099933389351507 : prime 50520606258875818707470860153287666700917696099933389351507) by (barrett 196 13084877988258693829881645953661138945929357375539427169948661444 2 (Leaf 375503554633724504423937478103159147573209 1)).
  assert (E : c_N P224 = 26959946667150639794667015087019625940457807714424391721682722368061) by reflexivity. rewrite E. clear E.
  barrett 224 1766847064778384329583297500742918826021124907378720980371013509472048314 2 (Leaf 50520606258875818707470860153287666700917696099933389351507 1).
Qed.

