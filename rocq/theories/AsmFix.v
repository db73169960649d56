(** * AsmFix: clean calls of the point routines are right *)
From Coq Require Import ZArith Znumtheory Zpow_facts String List Bool Lia.
From Verif Require Import Base BaseFacts Curves NumTheory Primes1 Primes3 Spec_Group CurveZ CurveSub CurveSM2 P256 Spec_P256 Spec_P256b P256Booth P256Inv P256Sched Prop_P256b P256Sched2 P256Point P256PointFacts AsmX86 Spec_Asm AsmFacts AsmMul AsmOrd AsmMisc AsmSel AsmVal AsmEq Spec_AsmClean.
Import ListNotations.
Open Scope Z_scope.

(** ** [careful] computes right residues *)
Definition cS (a : words) (u : Z) : Prop := a = [] \/ lem a u.
Definition cM (a : words) (u : Z) : Prop := a = [] \/ mont cP a u.
Lemma gone_lem a u : lem a u -> gone a = false.
Proof. intros [[[L _] _] _]. destruct a; [discriminate L|reflexivity]. Qed.
Lemma lem_range a u : lem a u -> 0 <= lval a <= PP.
Proof. intros [[W _] L]. pose proof (lval_R a W). change cP with PP in L. lia. Qed.
Lemma lem_words a u : lem a u -> is_words 4 a. Proof. intros H. apply H. Qed.
Lemma lem_cg a u : lem a u -> congr PP (lval a) (u * R256).
Proof.
  intros [[_ E] _]. unfold congr. change R256 with (2 ^ 256). change PP with cP. apply Z.mod_divide; [exact nzP|].
  rewrite Zminus_mod, E, Z.sub_diag. reflexivity.
Qed.
Lemma congr_trans m a b c : congr m a b -> congr m b c -> congr m a c.
Proof. unfold congr. intros H K. replace (a - c) with ((a - b) + (b - c)) by ring. apply Z.divide_add_r; assumption. Qed.
Lemma lem_make z u : 0 <= z <= PP -> congr PP z (u * R256) -> lem (words_of 4 z) u.
Proof.
  intros B C. assert (L : lval (words_of 4 z) = z) by (apply lval_words; pose proof PP_range; lia).
  split; [split; [apply words_of_ok|]|]; rewrite L; [|exact (proj2 B)]. apply cong_div. exact C.
Qed.
Lemma mont_make z u : 0 <= z < PP -> congr PP z (u * R256) -> mont cP (words_of 4 z) u.
Proof.
  intros B C. split; [apply lem_make; [lia|exact C]|]. rewrite lval_words by (pose proof PP_range; lia). exact (proj2 B).
Qed.
Lemma mul_mont a b u v : lem a u -> lem b v -> mont cP (f_mul asm_fops a b) (u * v).
Proof.
  intros A B. destruct (asm_mul_ok a b (lem_words a u A) (lem_words b v B)) as (W & E & _).
  cbn [a_mul asm_prims] in *. destruct (mont_mul_ok PP PI _ _ PP_range PP_inv (lval_R a (lem_words a u A)) (lval_R b (lem_words b v B))) as (Rg & _ & L).
  split.
  - apply montr_mul with (m := cP) (f := a_mul asm_prims); [reflexivity|reflexivity|exact asm_mul_ok|apply A|apply B].
  - cbn [f_mul asm_fops]. rewrite lval_words by exact Rg. apply L. left. apply (lem_range a u A).
Qed.
Lemma sub_lem a b u v : lem a u -> lem b v -> small_difference a b = false -> lem (f_sub asm_fops a b) (u - v).
Proof.
  intros A B D. cbn [f_sub asm_fops]. pose proof (lem_range a u A) as Ra. pose proof (lem_range b v B) as Rb.
  destruct (asub_le (lval a) (lval b) Ra Rb) as [Rg C].
  - intros [D1 D2]. unfold small_difference in D. apply andb_false_iff in D. change (2 ^ 256) with R256 in D. change cP with PP in D.
    destruct D as [D|D]; apply Z.ltb_ge in D; lia.
  - apply lem_make; [exact Rg|]. eapply congr_trans; [exact C|]. unfold congr. rewrite Z.mul_sub_distr_r.
    replace (lval a - lval b - (u * R256 - v * R256)) with ((lval a - u * R256) - (lval b - v * R256)) by ring.
    apply Z.divide_sub_r; [apply (lem_cg a u A)|apply (lem_cg b v B)].
Qed.
Lemma add_lem a b u v : lem a u -> lem b v -> lem (f_add asm_fops a b) (u + v) /\ (lval a < PP -> mont cP (f_add asm_fops a b) (u + v)).
Proof.
  intros A B. cbn [f_add asm_fops]. pose proof (lem_range a u A) as Ra. pose proof (lem_range b v B) as Rb.
  destruct (aadd_le (lval a) (lval b) Ra Rb) as (Rg & C & L).
  assert (C' : congr PP (aadd (lval a) (lval b)) ((u + v) * R256)).
  { eapply congr_trans; [exact C|]. unfold congr. rewrite Z.mul_add_distr_r.
    replace (lval a + lval b - (u * R256 + v * R256)) with ((lval a - u * R256) + (lval b - v * R256)) by ring.
    apply Z.divide_add_r; [apply (lem_cg a u A)|apply (lem_cg b v B)]. }
  split; [apply lem_make; assumption|]. intros La. apply mont_make; [|exact C']. split; [apply Rg|apply L; left; exact La].
Qed.
Lemma half_lem a u : lem a u -> lem (f_half asm_fops a) (u * half2).
Proof.
  intros A. cbn [f_half asm_fops]. pose proof (lem_range a u A) as Ra. destruct (ahalf_le (lval a) Ra) as [Rg C].
  apply lem_make; [exact Rg|]. unfold congr in *. pose proof (lem_cg a u A) as K. unfold congr in K.
  set (h := ahalf (lval a)) in *. clearbody h.
  assert (E : 2 * half2 - 1 = PP) by reflexivity.
  replace (h - u * half2 * R256) with ((2 * h - lval a) * half2 + (lval a - u * R256) * half2 - h * (2 * half2 - 1)) by ring.
  rewrite E. apply Z.divide_sub_r; [apply Z.divide_add_r; apply Z.divide_mul_l; assumption|]. apply Z.divide_mul_r, Z.divide_refl.
Qed.
Ltac two A B := destruct A as [->|A]; [left; reflexivity|]; destruct B as [->|B];
  [left; unfold careful2; cbn [gone]; rewrite orb_true_r; reflexivity|];
  unfold careful2; rewrite (gone_lem _ _ A), (gone_lem _ _ B); cbn [orb].
Ltac one A := destruct A as [->|A]; [left; reflexivity|]; unfold careful1.
Theorem careful_ok : fops_ok careful cS cM.
Proof.
  constructor; cbn [f_mul f_sqr f_sub f_add f_dbl f_half careful].
  - intros a u H. right. exact H.
  - intros a u [H|H]; [left; exact H|right; apply mont_lem, H].
  - intros a u H. right. exact H.
  - intros a u [->|H]; [left; reflexivity|right; apply H].
  - intros a u [->|H] L; [discriminate L|exact H].
  - intros a u [->|H] L; [discriminate L|exact H].
  - intros a b u v A B. two A B. right. apply mul_mont; assumption.
  - intros a u A. one A. rewrite (gone_lem _ _ A). right. exact (mul_mont a a u u A A).
  - intros a b u v A B. two A B. destruct (small_difference a b) eqn:D; [left; reflexivity|right]. apply sub_lem; assumption.
  - intros a b u v A B. two A B. right. apply add_lem; assumption.
  - intros a u A. one A. rewrite (gone_lem _ _ A). right. replace (2 * u) with (u + u) by ring. exact (proj1 (add_lem a a u u A A)).
  - intros a u A. one A. rewrite (gone_lem _ _ (mont_lem _ _ A)). right. replace (2 * u) with (u + u) by ring.
    apply (proj2 (add_lem a a u u (mont_lem _ _ A) (mont_lem _ _ A))). apply A.
  - intros a u A. one A. rewrite (gone_lem _ _ A). right. apply half_lem, A.
Qed.

(** ** Where [careful] has a result the assembly has the same *)
Definition agree (c s : words) : Prop := c = [] \/ c = s.
Lemma agree1 g c s : agree c s -> agree (careful1 g c) (g s).
Proof. intros [->| ->]; [left; reflexivity|]. unfold careful1. destruct (gone s); [left|right]; reflexivity. Qed.
Lemma agree2 g g' c s d t : agree c s -> agree d t -> (forall a b, agree (g a b) (g' a b)) -> agree (careful2 g c d) (g' s t).
Proof.
  intros [->| ->] [->| ->] H; unfold careful2; cbn [gone orb]; try (left; reflexivity).
  - rewrite orb_true_r. left. reflexivity.
  - destruct (gone s || gone t); [left; reflexivity|apply H].
Qed.
Lemma agree_refl s : agree s s. Proof. right. reflexivity. Qed.
Lemma agree_mul c s d t : agree c s -> agree d t -> agree (f_mul careful c d) (f_mul asm_fops s t).
Proof. intros A B. apply (agree2 _ _ c s d t A B). intros. apply agree_refl. Qed.
Lemma agree_add c s d t : agree c s -> agree d t -> agree (f_add careful c d) (f_add asm_fops s t).
Proof. intros A B. apply (agree2 _ _ c s d t A B). intros. apply agree_refl. Qed.
Lemma agree_sub c s d t : agree c s -> agree d t -> agree (f_sub careful c d) (f_sub asm_fops s t).
Proof. intros A B. apply (agree2 _ _ c s d t A B). intros. destruct (small_difference a b); [left|right]; reflexivity. Qed.
Lemma agree_sqr c s : agree c s -> agree (f_sqr careful c) (f_sqr asm_fops s). Proof. apply agree1. Qed.
Lemma agree_dbl c s : agree c s -> agree (f_dbl careful c) (f_dbl asm_fops s). Proof. apply agree1. Qed.
Lemma agree_half c s : agree c s -> agree (f_half careful c) (f_half asm_fops s). Proof. apply agree1. Qed.
Ltac ag := repeat first [apply agree_refl | apply agree_mul | apply agree_add | apply agree_sub | apply agree_sqr | apply agree_dbl | apply agree_half].
(** results of the assembly are four words *)
Lemma asm_len2 g a b : In g [f_mul asm_fops; f_sub asm_fops; f_add asm_fops] -> length (g a b) = 4%nat.
Proof. intros [<-|[<-|[<-|[]]]]; reflexivity. Qed.
Lemma agree12 xo yo zo x y z : agree xo x -> agree yo y -> agree zo z -> length x = 4%nat -> length y = 4%nat -> length z = 4%nat ->
  length (xo ++ yo ++ zo) = 12%nat -> xo ++ yo ++ zo = x ++ y ++ z.
Proof.
  intros A B C Lx Ly Lz L. rewrite !app_length in L.
  destruct A as [->| ->]; destruct B as [->| ->]; destruct C as [->| ->]; cbn [length] in L; try lia. reflexivity.
Qed.
Lemma full_len w : full w = true -> length w = 12%nat. Proof. apply Nat.eqb_eq. Qed.
Lemma dbl_agree x y z : length (dbl_f careful x y z) = 12%nat -> dbl_f careful x y z = dbl_f asm_fops x y z.
Proof. unfold dbl_f. cbv zeta. apply agree12; try ag; reflexivity. Qed.
Lemma add_agree x1 y1 z1 x2 y2 z2 : length (add_f careful x1 y1 z1 x2 y2 z2) = 12%nat -> add_f careful x1 y1 z1 x2 y2 z2 = add_f asm_fops x1 y1 z1 x2 y2 z2.
Proof. unfold add_f. cbv zeta. apply agree12; try ag; reflexivity. Qed.
Lemma addaff_agree x1 y1 z1 x2 y2 : length (addaff_f careful x1 y1 z1 x2 y2) = 12%nat -> addaff_f careful x1 y1 z1 x2 y2 = addaff_f asm_fops x1 y1 z1 x2 y2.
Proof. unfold addaff_f. cbv zeta. apply agree12; try ag; reflexivity. Qed.

(** ** Clean calls *)
Notation R12 := (rep12 sm2_E).
Theorem clean_dbl_ok p (P : pt (eg sm2_E)) : R12 p P -> clean_dbl p = true -> R12 (a_dbl asm_prims p) (gadd P P).
Proof.
  intros H C. apply full_len in C. cbn [a_dbl asm_prims]. rewrite <- dbl_agree by exact C. exact (dbl_ok careful _ _ careful_ok p P H C).
Qed.
Theorem clean_add_ok p q (P Q : pt (eg sm2_E)) : R12 p P -> R12 q Q -> P <> gO -> Q <> gO -> P <> Q -> clean_add p q = true ->
  R12 (a_add asm_prims p q) (gadd P Q).
Proof.
  intros HP HQ NP NQ N C. apply full_len in C. cbn [a_add asm_prims]. rewrite <- add_agree by exact C.
  exact (add_ok careful _ _ careful_ok p q P Q HP HQ NP NQ N C).
Qed.
Theorem clean_add_degenerate p q (P Q : pt (eg sm2_E)) : R12 p P -> R12 q Q -> P = gO \/ Q = gO \/ P = Q -> clean_add p q = true ->
  R12 (a_add asm_prims p q) gO.
Proof.
  intros HP HQ D C. apply full_len in C. cbn [a_add asm_prims]. rewrite <- add_agree by exact C.
  apply (add_degenerate careful _ _ careful_ok p q P Q HP HQ); [tauto|exact C].
Qed.
Lemma clean_sign_eq q sign : is_words 4 (sub q 4 4) -> clean_sign q sign = true ->
  (if sign =? 0 then sub q 4 4 else words_of 4 (asub PP (lval (sub q 4 4)))) = a_neg asm_prims (sub q 4 4) sign.
Proof.
  intros W C. cbn [a_neg asm_prims]. unfold clean_sign in C. destruct (sign =? 0); [reflexivity|]. cbn [orb] in C. apply Z.leb_le in C.
  change (2 ^ 256) with R256 in C. change cP with PP in C. pose proof (lval_R _ W) as B. f_equal. unfold asub, aneg. cbv zeta. pose proof PP_range.
  destruct (Z.ltb_spec (PP - lval (sub q 4 4)) 0); [lia|]. destruct (Z.ltb_spec (PP - lval (sub q 4 4) + PP) R256); [lia|].
  symmetry. apply Z.mod_small. lia.
Qed.
Lemma neg_lem y v : mont cP y v -> lem (a_neg asm_prims y 1) (- v).
Proof.
  intros [[W M] L]. destruct (asm_neg_ok y 1 W ltac:(discriminate)) as [W' E]. pose proof (lval_256 y W) as B.
  destruct (Z.leb_spec (lval y) cP) as [_|C]; [|lia]. split; [split; [exact W'|]|]; rewrite E; [|lia]. apply cong_div.
  replace (cP - lval y - - v * 2 ^ 256) with (cP - (lval y - v * 2 ^ 256)) by ring. apply Z.divide_sub_r; [apply Z.divide_refl|].
  apply Z.mod_divide; [exact nzP|]. rewrite Zminus_mod, M, Z.sub_diag. reflexivity.
Qed.
Theorem clean_addaff_ok p q sign sel zero (P Q : pt (eg sm2_E)) : R12 p P -> arep8 sm2_E q Q -> 0 <= sign <= 1 -> 0 < sel <= 64 -> 0 < zero < 128 ->
  P <> gO -> P <> signed sm2_E sign Q -> P <> gneg (signed sm2_E sign Q) -> clean_addaff p q sign sel zero = true ->
  R12 (a_addaff asm_prims p q sign sel zero) (gadd P (signed sm2_E sign Q)).
Proof.
  intros HP (x & y & -> & NQ & MX & MY) Sg Se Ze NP NE NO C. unfold clean_addaff in C. rewrite !Z.mod_small in C by lia.
  destruct (Z.eqb_spec zero 0); [lia|]. destruct (Z.eqb_spec sel 0); [lia|]. unfold clean_sum in C. apply andb_true_iff in C. destruct C as [C1 C2].
  apply full_len in C2. cbn [a_addaff asm_prims]. cbv zeta. rewrite !Z.mod_small by lia.
  destruct (Z.eqb_spec zero 0); [lia|]. destruct (Z.eqb_spec sel 0); [lia|].
  rewrite (clean_sign_eq (x ++ y) sign) by (try exact C1; rewrite sub8_4 by (apply MX || apply MY); apply MY).
  rewrite sub8_0, sub8_4 in C2 by (apply MX || apply MY). rewrite sub8_0, sub8_4 by (apply MX || apply MY).
  rewrite <- addaff_agree by exact C2.
  pose proof (eat_coords Q NQ) as AQ.
  unfold signed in *. destruct (Z.eqb_spec sign 0) as [->|S1].
  - exact (addaff_ok careful _ _ careful_ok p x _ P Q _ _ HP AQ (mont_lem _ _ MX) (mont_lem _ _ MY) NP NE NO C2).
  - assert (sign = 1) by lia. subst sign.
    refine (addaff_ok careful _ _ careful_ok p x _ P (gneg Q) (fst (ecoords Q)) (- snd (ecoords Q)) HP _ (mont_lem _ _ MX) (neg_lem _ _ MY) NP NE NO C2).
    apply (at_neg cP prime_c_P_SM2P256V1 sm2_odd (-3) qB sm2_disc (proj1_sig Q) _ _ AQ).
Qed.

(** ** The assembly with exact results in place of those of calls that are not clean *)
Definition fixed : prims := {|
  a_mul := a_mul asm_prims; a_sqr := a_sqr asm_prims; a_from := a_from asm_prims; a_neg := a_neg asm_prims; a_mov := a_mov asm_prims;
  a_l2b := a_l2b asm_prims; a_select := a_select asm_prims; a_selbase := a_selbase asm_prims; a_ordmul := a_ordmul asm_prims;
  a_addaff p q sign sel zero :=
    if clean_addaff p q sign sel zero then a_addaff asm_prims p q sign sel zero
    else if zero mod 2 ^ 32 =? 0 then sub q 0 4 ++ a_neg asm_prims (sub q 4 4) sign ++ one_mont else a_addaff exact_prims p q sign sel zero;
  a_add p q := if clean_add p q then a_add asm_prims p q else a_add exact_prims p q;
  a_dbl p := if clean_dbl p then a_dbl asm_prims p else a_dbl exact_prims p |}.
Theorem fixed_ok : prims_ok sm2_E fixed.
Proof.
  constructor; cbn [a_mul a_sqr a_from a_neg a_mov a_l2b a_select a_selbase a_addaff a_add a_dbl fixed].
  - exact asm_mul_ok.
  - reflexivity.
  - exact asm_from_ok.
  - exact asm_l2b_ok.
  - intros a _. exact (asm_neg0 a).
  - intros a W B. destruct (asm_neg_ok a 1 W ltac:(discriminate)) as [W' E]. split; [exact W'|]. rewrite E.
    destruct (Z.leb_spec (lval a) cP); [reflexivity|lia].
  - intros a W. exact (proj1 (asm_neg_ok a 1 W ltac:(discriminate))).
  - intros a b c _ _ H. apply asm_mov_ok, H.
  - intros t i _ H. apply asm_select_ok, H.
  - intros t i _ H. apply asm_selbase_ok, H.
  - intros p P H. destruct (clean_dbl p) eqn:C; [apply clean_dbl_ok; assumption|apply (ok_dbl sm2_E exact_prims exact_prims_ok), H].
  - intros p q Wp Wq. destruct (clean_add p q); [|apply (ok_addw sm2_E exact_prims exact_prims_ok); assumption].
    cbn [a_add asm_prims]. unfold add_f. cbv zeta. apply words12; apply words_of_ok.
  - intros p q P Q HP HQ NP NQ N. destruct (clean_add p q) eqn:C; [apply clean_add_ok; assumption|].
    apply (ok_add sm2_E exact_prims exact_prims_ok); assumption.
  - intros p q P Q HP HQ D. destruct (clean_add p q) eqn:C; [apply (clean_add_degenerate p q P Q); assumption|].
    apply (ok_add_degenerate sm2_E exact_prims exact_prims_ok p q P Q); assumption.
  - intros p x y sign sel _ [LX FX] [LY FY] _ _. unfold clean_addaff. change (0 mod 2 ^ 32) with 0. cbn [Z.eqb].
    destruct (clean_sign (x ++ y) sign) eqn:C.
    + cbn [a_addaff asm_prims]. cbv zeta. change (0 mod 2 ^ 32) with 0. cbn [Z.eqb].
      rewrite (clean_sign_eq (x ++ y) sign) by (try exact C; rewrite sub8_4 by assumption; split; assumption).
      rewrite sub8_0, sub8_4 by assumption. reflexivity.
    + rewrite sub8_0, sub8_4 by assumption. reflexivity.
  - intros p q sign zero _ _ _ Z0. unfold clean_addaff. rewrite (Z.mod_small zero) by lia. change (0 mod 2 ^ 32) with 0. destruct (Z.eqb_spec zero 0); [lia|]. cbn [Z.eqb a_addaff asm_prims]. cbv zeta.
    change (0 mod 2 ^ 32) with 0. rewrite Z.mod_small by lia. destruct (Z.eqb_spec zero 0); [lia|]. reflexivity.
  - intros p q sign sel zero P Q HP HQ Sg Se Ze NP NE NO. destruct (clean_addaff p q sign sel zero) eqn:C.
    + apply clean_addaff_ok; assumption.
    + rewrite (Z.mod_small zero) by lia. destruct (Z.eqb_spec zero 0); [lia|]. apply (ok_addaff sm2_E exact_prims exact_prims_ok); assumption.
Qed.
