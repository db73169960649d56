(** * AsmEq: the values of [asm_prims] are the right ones, except for subtraction *)
From Coq Require Import ZArith Znumtheory Zpow_facts String List Bool Lia.
From Verif Require Import Base BaseFacts Curves P256 Spec_P256 P256Booth P256Inv P256Point AsmX86 Spec_Asm AsmFacts AsmMul AsmOrd AsmMisc AsmSel AsmVal.
Import ListNotations.
Open Scope Z_scope.

(** ** Montgomery multiplication *)
Lemma mont_mul_ok m mi a b : 0 < m < R256 -> (m * mi) mod R256 = R256 - 1 -> 0 <= a < R256 -> 0 <= b < R256 ->
  0 <= AsmMul.mont_mul m mi a b < R256 /\ (AsmMul.mont_mul m mi a b * R256) mod m = (a * b) mod m /\
  (a <= m \/ b <= m -> AsmMul.mont_mul m mi a b < m).
Proof.
  intros Hm Hi Ha Hb. set (q := (a * b * mi) mod R256).
  assert (Hq : 0 <= q < R256) by (apply Z.mod_pos_bound; reflexivity).
  assert (D : R256 * mont_t m mi a b = a * b + q * m).
  { unfold mont_t. fold q. symmetry. apply Z_div_exact_full_2; [discriminate|].
    unfold q. rewrite <- Z.add_mod_idemp_r, Z.mul_mod_idemp_l, Z.add_mod_idemp_r by discriminate.
    replace (a * b + a * b * mi * m) with (a * b * (1 + m * mi)) by ring.
    rewrite <- Z.mul_mod_idemp_r, <- Z.add_mod_idemp_r, Hi by discriminate. change ((1 + (R256 - 1)) mod R256) with 0. rewrite Z.mul_0_r. reflexivity. }
  set (t := mont_t m mi a b) in *. unfold AsmMul.mont_mul. fold t.
  assert (T0 : 0 <= t) by nia.
  assert (T1 : t < R256 + m) by nia.
  assert (T2 : a <= m \/ b <= m -> t < 2 * m) by (intros [L|L]; nia).
  assert (C : (t * R256) mod m = (a * b) mod m) by (rewrite Z.mul_comm, D; apply Z.mod_add; lia).
  clearbody t. clear D. unfold once. destruct (Z.ltb_spec t m).
  - split; [lia|]. split; [exact C|]. lia.
  - split; [lia|]. split; [|intros L; specialize (T2 L); lia]. rewrite <- C. replace (t * R256) with ((t - m) * R256 + R256 * m) by ring. symmetry. apply Z.mod_add. lia.
Qed.
Lemma PP_inv : (PP * PI) mod R256 = R256 - 1. Proof. reflexivity. Qed.
Lemma NN_inv : (NN * NI) mod R256 = R256 - 1. Proof. reflexivity. Qed.
Lemma PP_range : 0 < PP < R256. Proof. split; reflexivity. Qed.
Lemma NN_range : 0 < NN < R256. Proof. split; reflexivity. Qed.
Lemma lval_R w : is_words 4 w -> 0 <= lval w < R256. Proof. exact (lval_256 w). Qed.
Lemma lval_words v : 0 <= v < R256 -> lval (words_of 4 v) = v. Proof. exact (lval_words_of 4 v). Qed.

Theorem asm_mul_ok : mul_ok cP (a_mul asm_prims).
Proof.
  intros a b Wa Wb. cbn [a_mul asm_prims f_mul asm_fops].
  destruct (mont_mul_ok PP PI _ _ PP_range PP_inv (lval_R a Wa) (lval_R b Wb)) as (B & E & L).
  split; [apply words_of_ok|]. rewrite lval_words by exact B. split; [exact E|]. intros H. apply L. change cP with PP in H. lia.
Qed.
Theorem asm_ordmul_ok : mul_ok cN (a_ordmul asm_prims).
Proof.
  intros a b Wa Wb. cbn [a_ordmul asm_prims].
  destruct (mont_mul_ok NN NI _ _ NN_range NN_inv (lval_R a Wa) (lval_R b Wb)) as (B & E & L).
  split; [apply words_of_ok|]. rewrite lval_words by exact B. split; [exact E|]. intros H. apply L. change cN with NN in H. lia.
Qed.
Theorem asm_from_ok a : is_words 4 a ->
  is_words 4 (a_from asm_prims a) /\ lval (a_from asm_prims a) < cP /\ (lval (a_from asm_prims a) * 2 ^ 256) mod cP = lval a mod cP.
Proof.
  intros Wa. cbn [a_from asm_prims].
  destruct (mont_mul_ok PP PI (lval a) 1 PP_range PP_inv (lval_R a Wa) ltac:(split; [discriminate|reflexivity])) as (B & E & L).
  split; [apply words_of_ok|]. rewrite lval_words by exact B. split; [apply L; right; discriminate|]. rewrite Z.mul_1_r in E. exact E.
Qed.

(** ** Bytes *)
Lemma to_be_le n : forall z, to_be n z = rev (le_bytes n z).
Proof. induction n as [|n IH]; intros z; [reflexivity|]. cbn [to_be le_bytes rev]. rewrite IH. reflexivity. Qed.
Lemma le_bytes_app n m : forall a q, 0 <= a < 256 ^ Z.of_nat n -> le_bytes (n + m) (a + 256 ^ Z.of_nat n * q) = le_bytes n a ++ le_bytes m q.
Proof.
  induction n as [|n IH]; intros a q Ha.
  - cbn in Ha. cbn [Nat.add le_bytes app Z.of_nat]. change (256 ^ 0) with 1. f_equal. lia.
  - rewrite Nat2Z.inj_succ, Z.pow_succ_r in * by lia. cbn [Nat.add le_bytes app].
    pose proof (Z.div_mod a 256 ltac:(discriminate)) as D. pose proof (Z.mod_pos_bound a 256 eq_refl) as M.
    set (k := 256 ^ Z.of_nat n) in *. f_equal.
    + symmetry. apply (Z.mod_unique _ _ (a / 256 + k * q)); [left; exact M|lia].
    + rewrite <- IH by (split; [apply Z.div_pos; lia|apply Z.div_lt_upper_bound; lia]). f_equal.
      symmetry. apply (Z.div_unique _ _ _ (a mod 256)); [left; exact M|]. fold k. lia.
Qed.
Theorem asm_l2b_ok w : is_words 4 w -> a_l2b asm_prims w = to_be 32 (lval w).
Proof.
  intros W. destruct (is4 w W) as (a & b & c & d & -> & Ha & Hb & Hc & Hd). cbn [a_l2b asm_prims rev app map flat_map].
  rewrite !le_bswap by assumption. rewrite to_be_le, app_nil_r. rewrite lval4. unfold v4.
  unfold u64 in *. change W64 with (256 ^ Z.of_nat 8) in *.
  change 32%nat with (8 + (8 + (8 + 8)))%nat.
  rewrite (le_bytes_app 8 (8 + (8 + 8))), (le_bytes_app 8 (8 + 8)), (le_bytes_app 8 8) by assumption.
  rewrite !rev_app_distr, <- !app_assoc. reflexivity.
Qed.

(** ** Negation, moves, lookups *)
Lemma asm_neg0 a : a_neg asm_prims a 0 = a. Proof. reflexivity. Qed.
Theorem asm_neg_ok a c : is_words 4 a -> c <> 0 ->
  is_words 4 (a_neg asm_prims a c) /\ lval (a_neg asm_prims a c) = (if lval a <=? cP then cP - lval a else 2 ^ 256 + cP - lval a).
Proof.
  intros W C. cbn [a_neg asm_prims]. destruct (Z.eqb_spec c 0); [contradiction|]. split; [apply words_of_ok|].
  pose proof (lval_R a W) as B. unfold aneg. rewrite lval_words by (apply Z.mod_pos_bound; reflexivity). change cP with PP. change (2 ^ 256) with R256.
  pose proof PP_range. destruct (Z.leb_spec (lval a) PP).
  - apply Z.mod_small. lia.
  - symmetry. apply (Z.mod_unique _ _ (-1)); [left|]; lia.
Qed.
Lemma asm_mov_ok a b c : 0 <= c < 2 ^ 32 -> a_mov asm_prims a b c = if c =? 0 then b else a.
Proof. intros H. cbn [a_mov asm_prims]. rewrite Z.mod_small by exact H. reflexivity. Qed.
Lemma asm_select_ok t i : 0 <= i <= 16 -> a_select asm_prims t i = if i =? 0 then repeat 0 12 else sub t (12 * (Z.to_nat i - 1)) 12.
Proof.
  intros H. cbn [a_select asm_prims]. cbv zeta. rewrite Z.mod_small by lia.
  destruct (Z.eqb_spec i 0), (Z.leb_spec 1 i), (Z.leb_spec i 16); try lia; reflexivity.
Qed.
Lemma asm_selbase_ok t i : 0 <= i <= 64 -> a_selbase asm_prims t i = if i =? 0 then repeat 0 8 else sub t (8 * (Z.to_nat i - 1)) 8.
Proof.
  intros H. cbn [a_selbase asm_prims]. cbv zeta. rewrite Z.mod_small by lia.
  destruct (Z.eqb_spec i 0), (Z.leb_spec 1 i), (Z.leb_spec i 64); try lia; reflexivity.
Qed.

(** ** Addition, halving, subtraction *)
Definition congr (m a b : Z) : Prop := (m | a - b).
Definition cC : Z := R256 - PP.
Lemma asub_range x y : 0 <= x < R256 -> 0 <= y < R256 -> 0 <= asub x y < R256.
Proof.
  intros Hx Hy. pose proof PP_range. unfold asub. cbv zeta.
  destruct (Z.ltb_spec (x - y) 0); [destruct (Z.ltb_spec (x - y + PP) 0)|destruct (Z.ltb_spec (x - y + PP) R256)]; lia.
Qed.
Lemma aadd_range x y : 0 <= x -> 0 <= y -> 0 <= aadd x y < R256.
Proof.
  intros Hx Hy. pose proof PP_range. unfold aadd. cbv zeta.
  destruct (Z.ltb_spec (x + y) PP); [lia|]. apply Z.mod_pos_bound. reflexivity.
Qed.
Lemma ahalf_range x : 0 <= x < R256 -> 0 <= ahalf x < R256.
Proof.
  intros Hx. pose proof PP_range. unfold ahalf. destruct (Z.even x); (split; [apply Z.div_pos|apply Z.div_lt_upper_bound]; lia).
Qed.
Lemma not_small d : 0 < d < PP -> ~ (PP | d).
Proof. intros H D. apply Z.divide_pos_le in D; lia. Qed.
(** the residue of a subtraction is right unless the first operand is smaller by more than p *)
Theorem asub_right x y : 0 <= x < R256 -> 0 <= y < R256 -> (congr PP (asub x y) (x - y) <-> y - x <= PP).
Proof.
  intros Hx Hy. pose proof PP_range. unfold asub, congr. cbv zeta.
  destruct (Z.ltb_spec (x - y) 0); [destruct (Z.ltb_spec (x - y + PP) 0)|destruct (Z.ltb_spec (x - y + PP) R256)].
  - split; [|lia]. intros D. exfalso. replace (x - y + R256 - (x - y)) with R256 in D by ring.
    apply (not_small (R256 - PP)); [split; reflexivity|]. apply Z.divide_sub_r; [exact D|apply Z.divide_refl].
  - split; [lia|]. intros _. replace (x - y + PP - (x - y)) with PP by ring. apply Z.divide_refl.
  - split; [lia|]. intros _. replace (x - y + PP - (x - y)) with PP by ring. apply Z.divide_refl.
  - split; [lia|]. intros _. rewrite Z.sub_diag. apply Z.divide_0_r.
Qed.
(** of reduced operands the difference comes out reduced unless it is nonnegative and below 2^256 - p *)
Theorem asub_reduced x y : 0 <= x < PP -> 0 <= y < PP -> (asub x y < PP <-> ~ 0 <= x - y < R256 - PP).
Proof.
  intros Hx Hy. pose proof PP_range. unfold asub. cbv zeta.
  destruct (Z.ltb_spec (x - y) 0); [destruct (Z.ltb_spec (x - y + PP) 0)|destruct (Z.ltb_spec (x - y + PP) R256)]; lia.
Qed.
Theorem aadd_right x y : 0 <= x < R256 -> 0 <= y < R256 -> (congr PP (aadd x y) (x + y) <-> x + y < R256 + PP).
Proof.
  intros Hx Hy. pose proof PP_range. unfold aadd, congr. cbv zeta. destruct (Z.ltb_spec (x + y) PP) as [L|L].
  - rewrite Z.sub_diag. split; [lia|]. intros _. apply Z.divide_0_r.
  - destruct (Z.lt_ge_cases (x + y) (R256 + PP)) as [M|M].
    + rewrite Z.mod_small by lia. split; [lia|]. intros _. replace (x + y - PP - (x + y)) with (- PP) by ring. apply Z.divide_opp_r, Z.divide_refl.
    + split; [|lia]. intros D. exfalso.
      replace ((x + y - PP) mod R256) with (x + y - PP - R256) in D.
      * replace (x + y - PP - R256 - (x + y)) with (- (R256 + PP)) in D by ring. apply Z.divide_opp_r in D.
        apply (not_small (R256 - PP)); [split; reflexivity|].
        replace (R256 - PP) with (R256 + PP - 2 * PP) by ring. apply Z.divide_sub_r; [exact D|]. exists 2. ring.
      * apply (Z.mod_unique _ _ 1); [left|]; lia.
Qed.
(** within [0, p] *)
Lemma asub_le x y : 0 <= x <= PP -> 0 <= y <= PP -> ~ 0 < x - y < R256 - PP -> 0 <= asub x y <= PP /\ congr PP (asub x y) (x - y).
Proof.
  intros Hx Hy Hg. pose proof PP_range. split; [|apply asub_right; lia]. unfold asub. cbv zeta.
  destruct (Z.ltb_spec (x - y) 0); [destruct (Z.ltb_spec (x - y + PP) 0)|destruct (Z.ltb_spec (x - y + PP) R256)]; lia.
Qed.
Lemma aadd_le x y : 0 <= x <= PP -> 0 <= y <= PP -> 0 <= aadd x y <= PP /\ congr PP (aadd x y) (x + y) /\ (x < PP \/ y < PP -> aadd x y < PP).
Proof.
  intros Hx Hy. pose proof PP_range. split; [|split; [apply aadd_right; lia|]]; unfold aadd; cbv zeta; destruct (Z.ltb_spec (x + y) PP); rewrite ?Z.mod_small by lia; lia.
Qed.
Lemma ahalf_le x : 0 <= x <= PP -> 0 <= ahalf x <= PP /\ congr PP (2 * ahalf x) x.
Proof.
  intros Hx. pose proof PP_range. unfold ahalf, congr. destruct (Z.even x) eqn:E.
  - apply Z.even_spec in E. destruct E as [k ->]. rewrite (Z.mul_comm 2 k), Z.div_mul by discriminate. split; [lia|]. exists 0. lia.
  - assert (O : Z.odd x = true) by (rewrite <- Z.negb_even, E; reflexivity). apply Z.odd_spec in O. destruct O as [k ->].
    assert (EP : PP = 2 * (PP / 2) + 1) by reflexivity. set (j := PP / 2) in *. 
    replace (2 * k + 1 + PP) with ((k + j + 1) * 2) by lia. rewrite Z.div_mul by discriminate. split; [lia|]. exists 1. lia.
Qed.
