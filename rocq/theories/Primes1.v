(** * Primes1: primality of curve parameters (generated by tools/mkprimes.py) *)
From Coq Require Import ZArith List Bool Lia Znumtheory.
From Verif Require Import Base Curves Pocklington.
Import ListNotations.
Open Scope Z_scope.

Ltac small_p := apply small_prime_sound; vm_compute; reflexivity.
Ltac primes := repeat match goal with |- _ /\ _ => split end; first [assumption | small_p].
Ltac barrett n mu a t := match goal with |- prime ?N => apply (pock_sound (red_barrett n mu N) N a t) end;
  [apply red_barrett_ok; reflexivity|vm_cast_no_check (eq_refl true)|cbn [primes_t]; primes].
Ltac folding i n ones ts a t := match goal with |- prime ?N => apply (pock_sound (red_fold i n ones ts) N a t) end;
  [apply red_fold_ok; vm_compute; reflexivity|vm_cast_no_check (eq_refl true)|cbn [primes_t]; primes].

(** c_P P224 *)
Theorem prime_c_P_P224 : prime (c_P P224).
Proof.
  assert (H166571 : prime 166571) by (barrett 18 27037117069 2 (Leaf 16657 1)).
  assert (H2998279 : prime 2998279) by (barrett 22 384527758960 2 (Leaf 166571 1)).
  assert (H67280421310721 : prime 67280421310721) by (barrett 46 4823372793099845631 3 (Node (Leaf 2998279 1) (Leaf 373 1))).
  assert (E : c_P P224 = 26959946667150639794667015087019630673557916260026308143510066298881) by reflexivity. rewrite E. clear E.
  folding 3%nat 224 26959946667150639794667015087019630673637144422540572481103610249215 [(true, 96); (false, 0)] 11 (Node (Leaf 2 96) (Leaf 67280421310721 1)).
Qed.

(** c_P P256 *)
Theorem prime_c_P_P256 : prime (c_P P256).
Proof.
  assert (H204061199 : prime 204061199) by (barrett 28 23141912847770 2 (Node (Leaf 3769 1) (Leaf 107 1))).
  assert (H34282281433 : prime 34282281433) by (barrett 35 2256887500516782 2 (Leaf 204061199 1)).
  assert (H66417393611 : prime 66417393611) by (barrett 36 4659698205472615 2 (Node (Leaf 3677 1) (Leaf 197 1))).
  assert (H11290956913871 : prime 11290956913871) by (barrett 44 1796341068198978198 2 (Leaf 66417393611 1)).
  assert (H774023187263532362759620327192479577272145303 : prime 774023187263532362759620327192479577272145303) by (barrett 150 172474406376671364913105277733891272110321669252031 2 (Node (Leaf 11290956913871 1) (Leaf 34282281433 1))).
  assert (H835945042244614951780389953367877943453916927241 : prime 835945042244614951780389953367877943453916927241) by (barrett 160 167456039945207919569559518245456272726252458016112640 2 (Leaf 774023187263532362759620327192479577272145303 1)).
  assert (E : c_P P256 = 115792089210356248762697446949407573530086143415290314195533631308867097853951) by reflexivity. rewrite E. clear E.
  folding 10%nat 256 115792089237316195423570985008687907853269984665640564039457584007913129639935 [(true, 224); (false, 192); (false, 96); (true, 0)] 2 (Leaf 835945042244614951780389953367877943453916927241 1).
Qed.

(** c_P S256 *)
Theorem prime_c_P_S256 : prime (c_P S256).
Proof.
  assert (H41201 : prime 41201) by (barrett 16 6831751091 3 (Node (Leaf 103 1) (Leaf 5 1))).
  assert (H1206781 : prime 1206781) by (barrett 21 238842321972 2 (Leaf 20113 1)).
  assert (H7240687 : prime 7240687) by (barrett 23 636912770629 2 (Leaf 1206781 1)).
  assert (H255515944373312847190720520512484175977 : prime 255515944373312847190720520512484175977) by (barrett 128 29698930839203371798887988715764244730347520 2 (Node (Node (Leaf 7240687 1) (Leaf 2657 1)) (Node (Leaf 41201 1) (Node (Leaf 4423 1) (Leaf 1627 1))))).
  assert (H205115282021455665897114700593932402728804164701536103180137503955397371 : prime 205115282021455665897114700593932402728804164701536103180137503955397371) by (barrett 237 15584750604731610601640972995537403849874419756750283835573833999471082776707 2 (Leaf 255515944373312847190720520512484175977 1)).
  assert (E : c_P S256 = 115792089237316195423570985008687907853269984665640564039457584007908834671663) by reflexivity. rewrite E. clear E.
  folding 3%nat 256 115792089237316195423570985008687907853269984665640564039457584007913129639935 [(true, 32); (true, 9); (true, 8); (true, 7); (true, 6); (true, 4); (true, 0)] 2 (Leaf 205115282021455665897114700593932402728804164701536103180137503955397371 1).
Qed.

(** c_P SM2P256V1 *)
Theorem prime_c_P_SM2P256V1 : prime (c_P SM2P256V1).
Proof.
  assert (H3017783777 : prime 3017783777) by (barrett 32 400600542964158 2 (Node (Leaf 5711 1) (Leaf 337 1))).
  assert (H348253387243 : prime 348253387243) by (barrett 39 56875371077856506 3 (Node (Leaf 5303 1) (Node (Leaf 61 1) (Leaf 3 1)))).
  assert (H4641351449027 : prime 4641351449027) by (barrett 43 1092484044054863499 2 (Leaf 3017783777 1)).
  assert (H417514796639753 : prime 417514796639753) by (barrett 49 49744793720591711669 3 (Node (Node (Leaf 2473 1) (Leaf 7 1)) (Node (Leaf 367 1) (Leaf 2 3)))).
  assert (E : c_P SM2P256V1 = 115792089210356248756420345214020892766250353991924191454421193933289684991999) by reflexivity. rewrite E. clear E.
  folding 10%nat 256 115792089237316195423570985008687907853269984665640564039457584007913129639935 [(true, 224); (true, 96); (false, 64); (true, 0)] 2 (Node (Leaf 417514796639753 1) (Node (Leaf 4641351449027 1) (Leaf 348253387243 1))).
Qed.

