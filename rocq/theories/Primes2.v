(** * Primes2: primality of curve parameters (generated by tools/mkprimes.py) *)
From Coq Require Import ZArith List Bool Lia Znumtheory.
From Verif Require Import Base Curves Pocklington.
Import ListNotations.
Open Scope Z_scope.

Ltac small_p := apply small_prime_sound; vm_compute; reflexivity.
Ltac primes := repeat match goal with |- _ /\ _ => split end; first [assumption | small_p].
Ltac barrett n mu a t := match goal with |- prime ?N => apply (pock_sound (red_barrett n mu N) N a t) end;
  [apply red_barrett_ok; reflexivity|vm_cast_no_check (eq_refl true)|cbn [primes_t]; primes].
Ltac folding i n ones ts a t := match goal with |- prime ?N => apply (pock_sound (red_fold i n ones ts) N a t) end;
  [apply red_fold_ok; vm_compute; reflexivity|vm_cast_no_check (eq_refl true)|cbn [primes_t]; primes].

(** c_P P384 *)
Theorem prime_c_P_P384 : prime (c_P P384).
Proof.
  assert (H312289 : prime 312289) by (barrett 19 57685024158 2 (Leaf 3253 1)).
  assert (H105957871 : prime 105957871) by (barrett 27 11142085147382 2 (Node (Leaf 881 1) (Leaf 211 1))).
  assert (H513928823 : prime 513928823) by (barrett 29 36755023431481 2 (Node (Leaf 661 1) (Leaf 599 1))).
  assert (H53448597593 : prime 53448597593) by (barrett 36 5790329845097327 2 (Leaf 513928823 1)).
  assert (H1357291859799823621 : prime 1357291859799823621) by (barrett 61 256723814565889336571548 2 (Leaf 53448597593 1)).
  assert (H529709925838459440593 : prime 529709925838459440593) by (barrett 69 43110317495276505166589838 3 (Node (Leaf 105957871 1) (Node (Leaf 181 1) (Leaf 2 1)))).
  assert (H19173790298027098165721053155794528970226934547887232785722672956982046098136719667167519737147526097 : prime 19173790298027098165721053155794528970226934547887232785722672956982046098136719667167519737147526097) by (barrett 334 4186094815591503190013486658050758728359128314486586423641606271253329841193584766523491778657034624950271 2 (Node (Node (Leaf 529709925838459440593 1) (Leaf 38557 1)) (Node (Leaf 1357291859799823621 1) (Node (Leaf 312289 1) (Leaf 8389 1))))).
  assert (E : c_P P384 = 39402006196394479212279040100143613805079739270465446667948293404245721771496870329047266088258938001861606973112319) by reflexivity. rewrite E. clear E.
  folding 3%nat 384 39402006196394479212279040100143613805079739270465446667948293404245721771497210611414266254884915640806627990306815 [(true, 128); (true, 96); (false, 32); (true, 0)] 2 (Leaf 19173790298027098165721053155794528970226934547887232785722672956982046098136719667167519737147526097 1).
Qed.

(** c_P P521 *)
Theorem prime_c_P_P521 : prime (c_P P521).
Proof.
  assert (H49481 : prime 49481) by (barrett 16 5688546648 2 (Leaf 1237 1)).
  assert (H2995763 : prime 2995763) by (barrett 22 384850705682 2 (Node (Leaf 397 1) (Leaf 7 1))).
  assert (H8620289 : prime 8620289) by (barrett 24 2139921767554 3 (Node (Leaf 2 8) (Leaf 223 1))).
  assert (H9211861 : prime 9211861) by (barrett 24 2002499177279 2 (Node (Leaf 2437 1) (Leaf 3 1))).
  assert (H308761441 : prime 308761441) by (barrett 29 61178189447167 3 (Leaf 49481 1)).
  assert (H2400573761 : prime 2400573761) by (barrett 32 503598697634281 3 (Node (Leaf 1663 1) (Leaf 347 1))).
  assert (H2534364967 : prime 2534364967) by (barrett 32 477013309194243 2 (Leaf 8620289 1)).
  assert (H24098228377 : prime 24098228377) by (barrett 35 3210661433069556 2 (Leaf 9211861 1)).
  assert (H65427463921 : prime 65427463921) by (barrett 36 4730200305410444 3 (Leaf 2995763 1)).
  assert (H674750394557 : prime 674750394557) by (barrett 40 117418475266369754 2 (Leaf 24098228377 1)).
  assert (H108140989558681 : prime 108140989558681) by (barrett 47 12003535568992804864 3 (Node (Leaf 1433 1) (Node (Leaf 683 1) (Leaf 13 1)))).
  assert (H145295143558111 : prime 145295143558111) by (barrett 48 35736203780673241088 3 (Leaf 2534364967 1)).
  assert (H361725589517273017 : prime 361725589517273017) by (barrett 59 60206057061108532423959 2 (Leaf 674750394557 1)).
  assert (H173308343918874810521923841 : prime 173308343918874810521923841) by (barrett 88 36219270194659386515949679384069 3 (Leaf 361725589517273017 1)).
  assert (E : c_P P521 = 6864797660130609714981900799081393217269435300143305409394463459185543183397656052122559640661454554977296311391480858037121987999716643812574028291115057151) by reflexivity. rewrite E. clear E.
  folding 2%nat 521 6864797660130609714981900799081393217269435300143305409394463459185543183397656052122559640661454554977296311391480858037121987999716643812574028291115057151 [(true, 0)] 3 (Node (Node (Leaf 173308343918874810521923841 1) (Node (Leaf 65427463921 1) (Leaf 308761441 1))) (Node (Leaf 145295143558111 1) (Node (Leaf 108140989558681 1) (Leaf 2400573761 1)))).
Qed.

