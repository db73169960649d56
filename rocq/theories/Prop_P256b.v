(** * Prop_P256b: C62, the modular inversions; C63, the constants *)
From Coq Require Import ZArith Znumtheory Zpow_facts String List Bool Lia.
From Verif Require Import Base BaseFacts Curves NumTheory Primes1 Primes3 P256 Spec_P256 P256Booth P256Inv.
Import ListNotations.
Open Scope Z_scope.

Lemma fermat_inverse : forall p k, prime p -> ~ (p | k) -> (k ^ (p - 2) mod p * k) mod p = 1.
Proof.
  intros p k Hp H. pose proof (prime_ge_2 p Hp). rewrite Z.mul_mod_idemp_l by lia.
  replace (k ^ (p - 2) * k) with (k ^ (p - 1)); [apply fermat_unit; assumption|].
  replace (p - 1) with (p - 2 + 1) by lia. rewrite Z.pow_add_r by lia. rewrite Z.pow_1_r. reflexivity.
Qed.
Lemma divisible_pow : forall p k e, 0 < p -> 0 < e -> (p | k) -> k ^ e mod p = 0.
Proof.
  intros p k e P E D. apply Z.mod_divide; [lia|]. replace e with (e - 1 + 1) by lia. rewrite Z.pow_add_r by lia.
  rewrite Z.pow_1_r. apply Z.divide_mul_r. exact D.
Qed.

(** Inverse always returns; the result inverts |k|, and is 0 for multiples of N *)
Theorem C62_inverse : forall A, mul_ok cN (a_ordmul A) -> l2b_ok (a_l2b A) -> forall k,
  exists r, Inverse A k = Val r /\ 0 <= r < cN /\
  (~ (cN | k) -> (r * Z.abs k) mod cN = 1) /\ ((cN | k) -> r = 0) /\ Inverse A (- k) = Val r.
Proof.
  intros A H1 H2 k. exists (Z.abs k ^ (cN - 2) mod cN). repeat split.
  - apply Inverse_val; assumption.
  - apply Z.mod_pos_bound. reflexivity.
  - apply Z.mod_pos_bound. reflexivity.
  - intros D. apply fermat_inverse; [exact prime_c_N_SM2P256V1|]. rewrite Z.divide_abs_r. exact D.
  - intros D. apply divisible_pow; [reflexivity|reflexivity|]. apply Z.divide_abs_r. exact D.
  - rewrite <- (Z.abs_opp k). apply Inverse_val; assumption.
Qed.
Print Assumptions C62_inverse.

(** hence the inverse of a negative number has the wrong sign: Inverse is right exactly when k >= 0 *)
Theorem C62_inverse_sign : forall A, mul_ok cN (a_ordmul A) -> l2b_ok (a_l2b A) -> forall k r,
  ~ (cN | k) -> Inverse A k = Val r -> ((r * k) mod cN = 1 <-> 0 <= k).
Proof.
  intros A H1 H2 k r D E. destruct (C62_inverse A H1 H2 k) as (r' & E' & _ & R & _). rewrite E in E'. injection E' as <-.
  specialize (R D). destruct (Z.leb_spec 0 k) as [P|P].
  - rewrite Z.abs_eq in R by lia. tauto.
  - rewrite Z.abs_neq in R by lia. split; [|lia]. intros F. exfalso.
    assert (X : (r * - k + r * k) mod cN = 2) by (rewrite Z.add_mod, R, F by discriminate; reflexivity).
    replace (r * - k + r * k) with 0 in X by ring. discriminate.
Qed.
Print Assumptions C62_inverse_sign.

(** p256Inverse inverts a field element in Montgomery form (zero for zero), whether reduced or not *)
Theorem C62_p256Inverse : forall A, mul_ok cP (a_mul A) -> (forall a, is_words 4 a -> a_sqr A a = a_mul A a a) ->
  forall w v, montr cP w v -> exists u, montr cP (p256Inverse A w) u /\ 0 <= u < cP /\
  (lval w < cP -> lval (p256Inverse A w) < cP) /\ (~ (cP | v) -> (u * v) mod cP = 1) /\ ((cP | v) -> u = 0).
Proof.
  intros A H1 H2 w v H. exists (v ^ (cP - 2) mod cP). split; [|split; [|split; [|split]]].
  - apply (montr_cong cP ltac:(reflexivity) (p256Inverse A w) (v ^ (cP - 2))); [apply (p256Inverse_pow A H1 H2 v w H)|].
    symmetry. apply Z.mod_mod. discriminate.
  - apply Z.mod_pos_bound. reflexivity.
  - intros L. apply (p256Inverse_reduced A H1 H2 v w (conj H L)).
  - intros D. apply fermat_inverse; [exact prime_c_P_SM2P256V1|exact D].
  - intros D. apply divisible_pow; [reflexivity|reflexivity|exact D].
Qed.
Print Assumptions C62_p256Inverse.

(** an instance of the hypotheses: multiplication by a division of integers *)
Definition ideal_mul (m Rinv : Z) (a b : list Z) : list Z := words_of 4 ((lval a * lval b * Rinv) mod m).
Lemma ideal_mul_ok : forall m Rinv, 1 < m < 2 ^ 256 -> (Rinv * 2 ^ 256) mod m = 1 -> mul_ok m (ideal_mul m Rinv).
Proof.
  intros m Rinv M R a b Wa Wb. unfold ideal_mul. set (v := lval a * lval b * Rinv).
  pose proof (Z.mod_pos_bound v m ltac:(lia)) as B. rewrite lval_words_of by (change (2 ^ (64 * Z.of_nat 4)) with (2 ^ 256); lia).
  repeat split; try apply words_of_ok; [|lia].
  rewrite Z.mul_mod_idemp_l by lia. unfold v. replace (lval a * lval b * Rinv * 2 ^ 256) with (lval a * lval b * (Rinv * 2 ^ 256)) by ring.
  rewrite Z.mul_mod, R, Z.mul_1_r, Z.mod_mod by lia. reflexivity.
Qed.
Definition RinvN : Z := 50307568877804588386309533398012773108667376576406692192023074665752686048746.
Definition RinvP : Z := 115792089102516462125480396441826910452883803264411231995480180208556130172932.
Definition ideal : prims := {| a_mul := ideal_mul cP RinvP; a_sqr a := ideal_mul cP RinvP a a; a_from a := a; a_neg a _ := a; a_mov a _ _ := a;
  a_l2b a := to_be 32 (lval a); a_select a _ := a; a_selbase a _ := a; a_ordmul := ideal_mul cN RinvN; a_addaff a _ _ _ _ := a; a_add a _ := a; a_dbl a := a |}.
Example C62_example : mul_ok cN (a_ordmul ideal) /\ l2b_ok (a_l2b ideal) /\ mul_ok cP (a_mul ideal) /\
  (forall a, is_words 4 a -> a_sqr ideal a = a_mul ideal a a) /\ Inverse ideal 3 = Val ((2 * cN + 1) / 3).
Proof.
  assert (H1 : mul_ok cN (a_ordmul ideal)) by (apply ideal_mul_ok; [split|]; reflexivity).
  assert (H2 : l2b_ok (a_l2b ideal)) by (intros w _; reflexivity).
  assert (H3 : mul_ok cP (a_mul ideal)) by (apply ideal_mul_ok; [split|]; reflexivity).
  split; [exact H1|split; [exact H2|split; [exact H3|split; [intros; reflexivity|]]]].
  destruct (C62_inverse ideal H1 H2 3) as (r & E & B & R & _). rewrite E. f_equal.
  assert (D : ~ (cN | 3)) by (intros D; apply Z.divide_pos_le in D; [apply D; reflexivity|lia]). specialize (R D).
  change (Z.abs 3) with 3 in R. pose proof (Z.div_mod (r * 3) cN ltac:(discriminate)) as Q. rewrite R in Q.
  assert (V : cN = 115792089210356248756420345214020892766061623724957744567843809356293439045923) by reflexivity.
  rewrite V in *. set (q := r * 3 / _) in *. clearbody q.
  assert (q = 0 \/ q = 1 \/ q = 2) by lia. 
  change ((2 * _ + 1) / 3) with 77194726140237499170946896809347261844041082483305163045229206237528959363949. lia.
Qed.

(** the constants of the Montgomery domains, and of the curve.  *)
Lemma constants_ok : 
  lval rr = (2 ^ 256 * 2 ^ 256) mod cP /\ lval RR = (2 ^ 256 * 2 ^ 256) mod cN /\
  lval one_mont = 2 ^ 256 mod cP /\
  mont cP (sub basePoint 0 4) (c_Gx SM2P256V1) /\ mont cP (sub basePoint 4 4) (c_Gy SM2P256V1) /\ mont cP (sub basePoint 8 4) 1 /\
  (c_Gy SM2P256V1 ^ 2) mod cP = (c_Gx SM2P256V1 ^ 3 - 3 * c_Gx SM2P256V1 + c_B SM2P256V1) mod cP /\
  prime cP /\ prime cN /\ 2 ^ 255 < cN < cP /\ cP < 2 ^ 256.
Proof.
  assert (M : forall w v, is_words 4 w -> (lval w <? cP) = true -> (lval w mod cP =? (v * 2 ^ 256) mod cP) = true -> mont cP w v).
  { intros w v W L E. split; [split; [exact W|apply Z.eqb_eq, E]|apply Z.ltb_lt, L]. }
  split; [vm_compute; reflexivity|]. split; [vm_compute; reflexivity|]. split; [vm_compute; reflexivity|].
  split; [apply M; [apply is_words_lit; reflexivity|vm_compute; reflexivity..]|].
  split; [apply M; [apply is_words_lit; reflexivity|vm_compute; reflexivity..]|].
  split; [apply M; [apply is_words_lit; reflexivity|vm_compute; reflexivity..]|].
  split; [vm_compute; reflexivity|].
  split; [exact prime_c_P_SM2P256V1|]. split; [exact prime_c_N_SM2P256V1|]. split; [split; vm_compute; reflexivity|vm_compute; reflexivity].
Qed.
Print Assumptions constants_ok.
