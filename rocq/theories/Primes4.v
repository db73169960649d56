(** * Primes4: primality of curve parameters (generated by tools/mkprimes.py) *)
From Coq Require Import ZArith List Bool Lia Znumtheory.
From Verif Require Import Base Curves Pocklington.
Import ListNotations.
Open Scope Z_scope.

Ltac small_p := apply small_prime_sound; vm_compute; reflexivity.
Ltac primes := repeat match goal with |- _ /\ _ => split end; first [assumption | small_p].
Ltac barrett n mu a t := match goal with |- prime ?N => apply (pock_sound (red_barrett n mu N) N a t) end;
  [apply red_barrett_ok; reflexivity|vm_cast_no_check (eq_refl true)|cbn [primes_t]; primes].
Ltac folding i n ones ts a t := match goal with |- prime ?N => apply (pock_sound (red_fold i n ones ts) N a t) end;
  [apply red_fold_ok; vm_compute; reflexivity|vm_cast_no_check (eq_refl true)|cbn [primes_t]; primes].

(** 2 ^ 255 - 19 *)
Theorem prime_ed_p : prime (2 ^ 255 - 19).
Proof.
  assert (H430751 : prime 430751) by (barrett 19 41820909317 2 (Leaf 1723 1)).
  assert (H569003 : prime 569003) by (barrett 20 126638337650 2 (Node (Leaf 419 1) (Leaf 97 1))).
  assert (H8574133 : prime 8574133) by (barrett 24 2151441326336 2 (Node (Leaf 991 1) (Leaf 103 1))).
  assert (H2773320623 : prime 2773320623) by (barrett 32 435912750076077 2 (Leaf 569003 1)).
  assert (H72106336199 : prime 72106336199) by (barrett 37 17168256002758167 2 (Leaf 2773320623 1)).
  assert (H1919519569386763 : prime 1919519569386763) by (barrett 51 173119880748281448642 2 (Node (Leaf 8574133 1) (Leaf 47 1))).
  assert (H31757755568855353 : prime 31757755568855353) by (barrett 55 2678734381772962966971 2 (Node (Leaf 430751 1) (Leaf 4153 1))).
  assert (H75445702479781427272750846543864801 : prime 75445702479781427272750846543864801) by (barrett 116 5995210246792797545536191186206309108398 2 (Node (Leaf 1919519569386763 1) (Leaf 72106336199 1))).
  assert (H74058212732561358302231226437062788676166966415465897661863160754340907 : prime 74058212732561358302231226437062788676166966415465897661863160754340907) by (barrett 236 10791073662104756617440288963834273051619977509039620149820151174588465676291 2 (Node (Leaf 75445702479781427272750846543864801 1) (Leaf 31757755568855353 1))).
  assert (E : 2 ^ 255 - 19 = 57896044618658097711785492504343953926634992332820282019728792003956564819949) by reflexivity. rewrite E. clear E.
  folding 3%nat 255 57896044618658097711785492504343953926634992332820282019728792003956564819967 [(true, 4); (true, 1); (true, 0)] 2 (Leaf 74058212732561358302231226437062788676166966415465897661863160754340907 1).
Qed.

(** 2 ^ 252 + 27742317777372353535851937790883648493 *)
Theorem prime_ed_L : prime (2 ^ 252 + 27742317777372353535851937790883648493).
Proof.
  assert (H531581 : prime 531581) by (barrett 20 135553366350 2 (Leaf 3797 1)).
  assert (H1224481 : prime 1224481) by (barrett 21 235389831407 2 (Leaf 2551 1)).
  assert (H1257559732178653 : prime 1257559732178653) by (barrett 51 264247486972666807635 2 (Node (Leaf 1224481 1) (Leaf 531581 1))).
  assert (H4434155615661930479 : prime 4434155615661930479) by (barrett 62 314331903459842394124868 2 (Leaf 1257559732178653 1)).
  assert (H172054593956031949258510691 : prime 172054593956031949258510691) by (barrett 88 36483197519217509783973113632176 2 (Leaf 4434155615661930479 1)).
  assert (H19757330305831588566944191468367130476339 : prime 19757330305831588566944191468367130476339) by (barrett 134 1573223800709414227146361131753206376164495471 2 (Leaf 172054593956031949258510691 1)).
  assert (H276602624281642239937218680557139826668747 : prime 276602624281642239937218680557139826668747) by (barrett 138 28767520927257860153533460694915773735579241766 2 (Leaf 19757330305831588566944191468367130476339 1)).
  assert (E : 2 ^ 252 + 27742317777372353535851937790883648493 = 7237005577332262213973186563042994240857116359379907606001950938285454250989) by reflexivity. rewrite E. clear E.
  barrett 253 1897137590064188545819787018382342682260702946610423502977170686005395312870190310 2 (Leaf 276602624281642239937218680557139826668747 1).
Qed.

