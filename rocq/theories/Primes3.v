(** * Primes3: primality of curve parameters (generated by tools/mkprimes.py) *)
From Coq Require Import ZArith List Bool Lia Znumtheory.
From Verif Require Import Base Curves Pocklington.
Import ListNotations.
Open Scope Z_scope.

Ltac small_p := apply small_prime_sound; vm_compute; reflexivity.
Ltac primes := repeat match goal with |- _ /\ _ => split end; first [assumption | small_p].
Ltac barrett n mu a t := match goal with |- prime ?N => apply (pock_sound (red_barrett n mu N) N a t) end;
  [apply red_barrett_ok; reflexivity|vm_cast_no_check (eq_refl true)|cbn [primes_t]; primes].
Ltac folding i n ones ts a t := match goal with |- prime ?N => apply (pock_sound (red_fold i n ones ts) N a t) end;
  [apply red_fold_ok; vm_compute; reflexivity|vm_cast_no_check (eq_refl true)|cbn [primes_t]; primes].

(** c_N P256 *)
Theorem prime_c_N_P256 : prime (c_N P256).
Proof.
  assert (H104471 : prime 104471) by (barrett 17 10777152576 2 (Leaf 337 1)).
  assert (H3969899 : prime 3969899) by (barrett 22 290415827860 2 (Leaf 104471 1)).
  assert (H9350987 : prime 9350987) by (barrett 24 1972705562921 2 (Node (Leaf 1201 1) (Leaf 229 1))).
  assert (H187019741 : prime 187019741) by (barrett 28 25250631070383 2 (Leaf 9350987 1)).
  assert (H311245691 : prime 311245691) by (barrett 29 60689887370934 2 (Node (Leaf 29 2) (Leaf 311 1))).
  assert (H622491383 : prime 622491383) by (barrett 30 121379774546878 2 (Leaf 311245691 1)).
  assert (H1002328039319 : prime 1002328039319) by (barrett 40 79044144637611255 2 (Leaf 3969899 1)).
  assert (E : c_N P256 = 115792089210356248762697446949407573529996955224135760342422259061068512044369) by reflexivity. rewrite E. clear E.
  barrett 256 7588550362023601248057532403016887258494246469322010941476547670867365287574791905 2 (Node (Node (Leaf 1002328039319 1) (Node (Leaf 38189 1) (Leaf 17449 1))) (Node (Leaf 622491383 1) (Node (Leaf 187019741 1) (Leaf 3407 1)))).
Qed.

(** c_N S256 *)
Theorem prime_c_N_S256 : prime (c_N S256).
Proof.
  assert (H85831 : prime 85831) by (barrett 17 13117637064 2 (Leaf 2861 1)).
  assert (H120233 : prime 120233) by (barrett 17 9364316841 2 (Node (Leaf 113 1) (Leaf 19 1))).
  assert (H107361793816595537 : prime 107361793816595537) by (barrett 57 12677968756827497737511 2 (Node (Leaf 85831 1) (Leaf 16699 1))).
  assert (H174723607534414371449 : prime 174723607534414371449) by (barrett 68 32674409894492192448849298 2 (Node (Leaf 120233 1) (Node (Leaf 4051 1) (Leaf 59 1)))).
  assert (E : c_N S256 = 115792089237316195423570985008687907852837564279074904382605163141518161494337) by reflexivity. rewrite E. clear E.
  barrett 256 7588550360256754183279148073529370729100240817501387076161372479442655496472927591 2 (Node (Leaf 174723607534414371449 1) (Node (Leaf 107361793816595537 1) (Leaf 631 1))).
Qed.

(** c_N SM2P256V1 *)
Theorem prime_c_N_SM2P256V1 : prime (c_N SM2P256V1).
Proof.
  assert (H84163 : prime 84163) by (barrett 17 13377611383 2 (Node (Leaf 13 2) (Leaf 83 1))).
  assert (H17965699 : prime 17965699) by (barrett 25 4107103001939 2 (Node (Leaf 233 1) (Leaf 181 1))).
  assert (H107615843 : prime 107615843) by (barrett 27 10970425801686 2 (Leaf 12149 1)).
  assert (H2566129871 : prime 2566129871) by (barrett 32 471108587790812 2 (Leaf 84163 1)).
  assert (H18120927127286907576013935251791662753637 : prime 18120927127286907576013935251791662753637) by (barrett 134 1715293155657947508132941627631877991524557253 2 (Node (Leaf 2566129871 1) (Node (Leaf 107615843 1) (Leaf 17965699 1)))).
  assert (H125197554539772723432468576818475380947471091418362477724521 : prime 125197554539772723432468576818475380947471091418362477724521) by (barrett 197 21120411535841765255987550555930940012533696719478376872763756371 2 (Leaf 18120927127286907576013935251791662753637 1)).
  assert (E : c_N SM2P256V1 = 115792089210356248756420345214020892766061623724957744567843809356293439045923) by reflexivity. rewrite E. clear E.
  barrett 256 7588550362023601248468908542538750711692349952152226087896560338274873665422106293 2 (Leaf 125197554539772723432468576818475380947471091418362477724521 1).
Qed.

