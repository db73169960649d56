(** * AsmSim: what does not depend on calls that are not clean is the same for all routines that agree with
    the assembly on clean calls *)
From Coq Require Import ZArith Znumtheory Zpow_facts String List Bool Lia.
From Verif Require Import Base BaseFacts Curves P256 Spec_P256 P256Point AsmVal AsmEq Spec_AsmClean AsmFix.
Import ListNotations.
Open Scope Z_scope.

Definition wa (c s : words) : Prop := Forall2 (fun c s => c = marked \/ c = s) c s.
Record like (B : prims) : Prop := {
  lk_mul : a_mul B = a_mul asm_prims;
  lk_sqr : a_sqr B = a_sqr asm_prims;
  lk_neg : a_neg B = a_neg asm_prims;
  lk_mov : a_mov B = a_mov asm_prims;
  lk_select : a_select B = a_select asm_prims;
  lk_selbase : a_selbase B = a_selbase asm_prims;
  lk_dbl : forall p, clean_dbl p = true -> a_dbl B p = a_dbl asm_prims p;
  lk_dbl_len : forall p, length (a_dbl B p) = 12%nat;
  lk_add : forall p q, clean_add p q = true -> a_add B p q = a_add asm_prims p q;
  lk_add_len : forall p q, length (a_add B p q) = 12%nat;
  lk_addaff : forall p q sign sel zero, clean_addaff p q sign sel zero = true -> a_addaff B p q sign sel zero = a_addaff asm_prims p q sign sel zero;
  lk_addaff_len : forall p q sign sel zero, length (a_addaff B p q sign sel zero) = length (a_addaff asm_prims p q sign sel zero)
}.
Lemma like_asm : like asm_prims.
Proof. constructor; try reflexivity. Qed.
Lemma like_fixed : like fixed.
Proof.
  constructor; try reflexivity; cbn [a_dbl a_add a_addaff fixed].
  - intros p C. rewrite C. reflexivity.
  - intros p. destruct (clean_dbl p); reflexivity.
  - intros p q C. rewrite C. reflexivity.
  - intros p q. destruct (clean_add p q); reflexivity.
  - intros p q sign sel zero C. rewrite C. reflexivity.
  - intros p q sign sel zero. destruct (clean_addaff p q sign sel zero) eqn:C; [reflexivity|]. unfold clean_addaff in C.
    cbn [a_addaff asm_prims]. cbv zeta. destruct (zero mod 2 ^ 32 =? 0) eqn:Z0.
    + rewrite !app_length. cbn [a_neg asm_prims]. destruct (sign =? 0); reflexivity.
    + destruct (sel mod 2 ^ 32 =? 0) eqn:S0; [discriminate C|]. cbn [a_addaff exact_prims]. cbv zeta.
      destruct (Z.eqb_spec zero 0) as [->|_]; [discriminate Z0|]. destruct (Z.eqb_spec sel 0) as [->|_]; [discriminate S0|]. reflexivity.
Qed.

(** ** Lists *)
Lemma wa_refl s : wa s s. Proof. induction s; constructor; auto. Qed.
Lemma wa_len c s : wa c s -> length c = length s. Proof. intros H. induction H; cbn [length]; congruence. Qed.
Lemma wa_app a b c d : wa a b -> wa c d -> wa (a ++ c) (b ++ d). Proof. apply Forall2_app. Qed.
Lemma wa_firstn n : forall c s, wa c s -> wa (firstn n c) (firstn n s).
Proof. induction n; intros c s H; [constructor|]. destruct H; cbn [firstn]; constructor; [assumption|apply IHn; assumption]. Qed.
Lemma wa_skipn n : forall c s, wa c s -> wa (skipn n c) (skipn n s).
Proof. induction n; intros c s H; [exact H|]. destruct H; cbn [skipn]; [constructor|apply IHn; assumption]. Qed.
Lemma wa_sub c s i n : wa c s -> wa (sub c i n) (sub s i n).
Proof. intros H. apply wa_firstn, wa_skipn, H. Qed.
Lemma wa_put i v w c s : wa v w -> wa c s -> wa (put_at i v c) (put_at i w s).
Proof.
  intros V H. unfold put_at. rewrite (wa_len v w V). repeat apply wa_app; [apply wa_firstn|exact V|apply wa_skipn]; exact H.
Qed.
Lemma wa_marks n : forall s, length s = n -> forall w : words, length w = n -> wa (map (fun _ => marked) w) s.
Proof.
  induction n; intros [|x s] L [|y w] M; try discriminate; cbn [map]; constructor; [left; reflexivity|].
  apply IHn; [injection L; auto|injection M; auto].
Qed.
Lemma wa_clean c s : wa c s -> tainted c = false -> c = s.
Proof.
  intros H. induction H as [|x y c s X H IH]; intros T; [reflexivity|]. cbn [tainted existsb] in T. apply orb_false_iff in T. destruct T as [T1 T2].
  destruct X as [->| ->]; [discriminate T1|]. f_equal. apply IH, T2.
Qed.
Lemma wa_mark c w s : length w = length s -> (c = false -> w = s) -> wa (mark c w) s.
Proof. intros L H. destruct c; [apply (wa_marks (length s)); [reflexivity|exact L]|]. rewrite (H eq_refl). apply wa_refl. Qed.

(** ** The routines *)
Record sims (C B : prims) : Prop := {
  s_mul : forall a b c d, wa a b -> wa c d -> wa (a_mul C a c) (a_mul B b d);
  s_sqr : forall a b, wa a b -> wa (a_sqr C a) (a_sqr B b);
  s_neg : forall a b c, wa a b -> wa (a_neg C a c) (a_neg B b c);
  s_mov : forall a b c d n, wa a b -> wa c d -> wa (a_mov C a c n) (a_mov B b d n);
  s_select : forall a b i, wa a b -> wa (a_select C a i) (a_select B b i);
  s_selbase : forall a b i, wa a b -> wa (a_selbase C a i) (a_selbase B b i);
  s_dbl : forall a b, wa a b -> wa (a_dbl C a) (a_dbl B b);
  s_add : forall a b c d, wa a b -> wa c d -> wa (a_add C a c) (a_add B b d);
  s_addaff : forall a b c d sign sel zero, wa a b -> wa c d -> wa (a_addaff C a c sign sel zero) (a_addaff B b d sign sel zero)
}.
Section Sim.
Variable B : prims.
Hypothesis LK : like B.
Notation C := careful_prims.
Lemma wa_mul a b c d : wa a b -> wa c d -> wa (a_mul C a c) (a_mul B b d).
Proof.
  intros H K. rewrite (lk_mul B LK). apply wa_mark; [reflexivity|]. intros T. apply orb_false_iff in T. destruct T as [T1 T2].
  rewrite (wa_clean a b H T1), (wa_clean c d K T2). reflexivity.
Qed.
Lemma wa_sqr a b : wa a b -> wa (a_sqr C a) (a_sqr B b).
Proof. intros H. rewrite (lk_sqr B LK). apply wa_mark; [reflexivity|]. intros T. rewrite (wa_clean a b H T). reflexivity. Qed.
Lemma neg_len a c : length (a_neg asm_prims a c) = if c =? 0 then length a else 4%nat.
Proof. cbn [a_neg asm_prims]. destruct (c =? 0); reflexivity. Qed.
Lemma wa_neg a b c : wa a b -> wa (a_neg C a c) (a_neg B b c).
Proof.
  intros H. rewrite (lk_neg B LK). apply wa_mark; [rewrite !neg_len, (wa_len a b H); reflexivity|]. intros T. rewrite (wa_clean a b H T). reflexivity.
Qed.
Lemma wa_mov a b c d n : wa a b -> wa c d -> wa (a_mov C a c n) (a_mov B b d n).
Proof. intros H K. rewrite (lk_mov B LK). cbn [a_mov careful_prims asm_prims]. destruct (_ =? 0); assumption. Qed.
Lemma wa_select a b i : wa a b -> wa (a_select C a i) (a_select B b i).
Proof.
  intros H. rewrite (lk_select B LK). cbn [a_select careful_prims asm_prims]. cbv zeta. destruct (_ && _); [apply wa_sub, H|apply wa_refl].
Qed.
Lemma wa_selbase a b i : wa a b -> wa (a_selbase C a i) (a_selbase B b i).
Proof.
  intros H. rewrite (lk_selbase B LK). cbn [a_selbase careful_prims asm_prims]. cbv zeta. destruct (_ && _); [apply wa_sub, H|apply wa_refl].
Qed.
Lemma wa_dbl a b : wa a b -> wa (a_dbl C a) (a_dbl B b).
Proof.
  intros H. apply wa_mark; [rewrite (lk_dbl_len B LK); reflexivity|]. intros T. apply orb_false_iff in T. destruct T as [T1 T2].
  apply negb_false_iff in T2. rewrite <- (wa_clean a b H T1). symmetry. apply (lk_dbl B LK), T2.
Qed.
Lemma wa_add a b c d : wa a b -> wa c d -> wa (a_add C a c) (a_add B b d).
Proof.
  intros H K. apply wa_mark; [rewrite (lk_add_len B LK); reflexivity|]. intros T. apply orb_false_iff in T. destruct T as [T T3].
  apply orb_false_iff in T. destruct T as [T1 T2]. apply negb_false_iff in T3.
  rewrite <- (wa_clean a b H T1), <- (wa_clean c d K T2). symmetry. apply (lk_add B LK), T3.
Qed.
Lemma addaff_len p q p' q' sign sel zero : length p = length p' -> length q = length q' ->
  length (a_addaff asm_prims p q sign sel zero) = length (a_addaff asm_prims p' q' sign sel zero).
Proof.
  intros P Q. cbn [a_addaff asm_prims]. cbv zeta. destruct (_ =? 0).
  - rewrite !app_length. unfold sub. f_equal; [rewrite !firstn_length, !skipn_length; congruence|]. f_equal.
    destruct (sign =? 0); [rewrite !firstn_length, !skipn_length; congruence|reflexivity].
  - destruct (_ =? 0); [exact P|reflexivity].
Qed.
Lemma wa_addaff a b c d sign sel zero : wa a b -> wa c d -> wa (a_addaff C a c sign sel zero) (a_addaff B b d sign sel zero).
Proof.
  intros H K.
  assert (L : length (a_addaff asm_prims a c sign sel zero) = length (a_addaff B b d sign sel zero)).
  { rewrite (lk_addaff_len B LK). apply addaff_len; apply wa_len; assumption. }
  pose proof (lk_addaff B LK b d sign sel zero) as E. unfold clean_addaff in E. cbn [a_addaff careful_prims].
  destruct (zero mod 2 ^ 32 =? 0) eqn:Z0; [|destruct (sel mod 2 ^ 32 =? 0) eqn:S0].
  - apply wa_mark; [exact L|]. intros T. apply orb_false_iff in T. destruct T as [T1 T2]. apply negb_false_iff in T2.
    pose proof (wa_clean c d K T1). subst d. rewrite (E T2). cbn [a_addaff asm_prims]. cbv zeta. rewrite Z0. reflexivity.
  - rewrite (E eq_refl). cbn [a_addaff asm_prims]. cbv zeta. rewrite Z0, S0. exact H.
  - apply wa_mark; [exact L|]. intros T. apply orb_false_iff in T. destruct T as [T T3].
    apply orb_false_iff in T. destruct T as [T1 T2]. apply negb_false_iff in T3.
    pose proof (wa_clean a b H T1). pose proof (wa_clean c d K T2). subst b d. symmetry. apply E, T3.
Qed.
Lemma careful_sims : sims C B.
Proof. constructor; [exact wa_mul|exact wa_sqr|exact wa_neg|exact wa_mov|exact wa_select|exact wa_selbase|exact wa_dbl|exact wa_add|exact wa_addaff]. Qed.
End Sim.

(** ** The Go code, for any two sets of routines in this relation *)
Definition wa_go (r s : go words) : Prop := match r, s with Val a, Val b => wa a b | Panic x, Panic y => x = y | OutOfFuel, OutOfFuel => True | _, _ => False end.
Lemma wa_go_bind r s f g : wa_go r s -> (forall a b, wa a b -> wa_go (f a) (g b)) -> wa_go (bind r f) (bind s g).
Proof. destruct r, s; cbn [wa_go bind]; try contradiction; auto. Qed.
Section Code.
Variables C B : prims.
Hypothesis SIM : sims C B.
Let wa_mul := s_mul C B SIM.
Let wa_sqr := s_sqr C B SIM.
Let wa_neg := s_neg C B SIM.
Let wa_mov := s_mov C B SIM.
Let wa_select := s_select C B SIM.
Let wa_selbase := s_selbase C B SIM.
Let wa_dbl := s_dbl C B SIM.
Let wa_add := s_add C B SIM.
Let wa_addaff := s_addaff C B SIM.
Lemma wa_repeat n (f g : words -> words) : (forall a b, wa a b -> wa (f a) (g b)) -> forall a b, wa a b -> wa (repeat_op n f a) (repeat_op n g b).
Proof. intros H. induction n; intros a b K; cbn [repeat_op]; [exact K|]. apply IHn, H, K. Qed.
Ltac wa := repeat (assumption || match goal with
  | |- wa (a_mul _ _ _) _ => apply wa_mul | |- wa (a_sqr _ _) _ => apply wa_sqr | |- wa (a_neg _ _ _) _ => apply wa_neg
  | |- wa (a_mov _ _ _ _) _ => apply wa_mov | |- wa (a_select _ _ _) _ => apply wa_select | |- wa (a_selbase _ _ _) _ => apply wa_selbase
  | |- wa (a_dbl _ _) _ => apply wa_dbl | |- wa (a_add _ _ _) _ => apply wa_add | |- wa (a_addaff _ _ _ _ _ _) _ => apply wa_addaff
  | |- wa (sub _ _ _) _ => apply wa_sub | |- wa (put_at _ _ _) _ => apply wa_put | |- wa (_ ++ _) _ => apply wa_app
  | |- wa (repeat_op _ (a_sqr _) _) _ => apply wa_repeat; [exact wa_sqr|] | |- wa (repeat_op _ (a_dbl _) _) _ => apply wa_repeat; [exact wa_dbl|]
  | |- wa ?x ?x => apply wa_refl end).
Lemma wa_inverse a b : wa a b -> wa (p256Inverse C a) (p256Inverse B b).
Proof. intros H. unfold p256Inverse. cbv zeta. wa. Qed.
Lemma wa_table p q : wa p q -> wa (scalar_table C p) (scalar_table B q).
Proof. intros H. unfold scalar_table. cbv zeta. wa. Qed.
Lemma wa_round t u p q zero w : wa t u -> wa p q ->
  wa (fst (scalar_round C t p zero w)) (fst (scalar_round B u q zero w)) /\ snd (scalar_round C t p zero w) = snd (scalar_round B u q zero w).
Proof.
  intros H K. unfold scalar_round. cbv zeta. destruct (boothW5 w) as [sel sign]. cbn [fst snd]. split; [|reflexivity]. wa.
Qed.
Lemma wa_loop scalar t u : wa t u -> forall fuel p q zero index, wa p q ->
  match scalar_loop C fuel t scalar p zero index, scalar_loop B fuel u scalar q zero index with
  | Val (a, z), Val (b, z') => wa a b /\ z = z' | OutOfFuel, OutOfFuel => True | _, _ => False end.
Proof.
  intros H. induction fuel as [|fuel IH]; intros p q zero index K; cbn [scalar_loop]; (destruct (index >? 4); [|split; [exact K|reflexivity]]).
  - exact Logic.I.
  - destruct (wa_round t u p q zero (window scalar 0x3f (index - 5)) H K) as [W E].
    destruct (scalar_round C t p zero _) as [p' z]. destruct (scalar_round B u q zero _) as [q' z']. cbn [fst snd] in W, E. subst z'. apply IH, W.
Qed.
Lemma wa_scalar p q k : wa p q -> wa_go (p256ScalarMult C p k) (p256ScalarMult B q k).
Proof.
  intros H. unfold p256ScalarMult. cbv zeta. destruct (boothW5 _) as [sel s]. pose proof (wa_table p q H) as T.
  pose proof (wa_loop k _ _ T 50 _ _ sel 254 (wa_select _ _ sel T)) as L.
  destruct (scalar_loop C 50 _ k _ sel 254) as [[a z]| |]; destruct (scalar_loop B 50 _ k _ sel 254) as [[b z']| |]; try contradiction; cbn [bind]; [|exact L].
  destruct L as [L <-]. destruct (wa_round _ _ a b z (window0 k 0x3f) T L) as [W _].
  destruct (scalar_round C _ a z _). destruct (scalar_round B _ b z _). exact W.
Qed.
Lemma wa_load X Y : wa_go (load_point C X Y) (load_point B X Y).
Proof.
  unfold load_point. destruct (fromBig (maybeReduceModP X)); cbn [bind]; [|reflexivity|exact Logic.I].
  destruct (fromBig (maybeReduceModP Y)); cbn [bind]; [|reflexivity|exact Logic.I]. cbn [wa_go]. wa.
Qed.
(** ** The table of multiples of the base point *)
Definition wt (t u : list words) : Prop := Forall2 wa t u.
Lemma wt_nth i : forall t u, wt t u -> wa (nth i t []) (nth i u []).
Proof. induction i; intros t u H; destruct H; cbn [nth]; try apply wa_refl; [assumption|apply IHi; assumption]. Qed.
Lemma wt_set i v w : wa v w -> forall t u, wt t u -> wt (set_nth i v t) (set_nth i w u).
Proof. intros V. induction i; intros t u H; destruct H; cbn [set_nth]; constructor; try assumption. apply IHi; assumption. Qed.
Lemma wt_refl t : wt t t. Proof. induction t; constructor; [apply wa_refl|assumption]. Qed.
Definition wst (a b : list words * words) : Prop := wt (fst a) (fst b) /\ wa (snd a) (snd b).
Lemma wst_inner j a b i : wst a b -> wst (init_inner C j a i) (init_inner B j b i).
Proof.
  destruct a as [t p], b as [u q]. intros [H K]. cbn [fst snd] in H, K. unfold init_inner. cbv zeta.
  assert (K1 : wa (if (i =? 0)%nat then p else repeat_op 7 (a_dbl C) p) (if (i =? 0)%nat then q else repeat_op 7 (a_dbl B) q)).
  { destruct (i =? 0)%nat; [exact K|]. wa. }
  set (p1 := if (i =? 0)%nat then p else _) in *. set (q1 := if (i =? 0)%nat then q else _) in *. clearbody p1 q1.
  pose proof (wa_inverse _ _ (wa_sub _ _ 8 4 K1)) as KI.
  split; cbn [fst snd].
  - apply wt_set; [|exact H]. apply wa_put; [wa|apply wt_nth, H].
  - wa.
Qed.
Lemma wst_fold (f g : list words * words -> nat -> list words * words) : (forall a b i, wst a b -> wst (f a i) (g b i)) ->
  forall l a b, wst a b -> wst (fold_left f l a) (fold_left g l b).
Proof. intros H. induction l; intros x y K; cbn [fold_left]; [exact K|]. apply IHl, H, K. Qed.
Lemma wst_outer a b j : wst a b -> wst (init_outer C a j) (init_outer B b j).
Proof.
  destruct a as [t p], b as [u q]. intros [H K]. cbn [fst snd] in H, K. unfold init_outer.
  pose proof (wst_fold (init_inner C j) (init_inner B j) (fun a b i W => wst_inner j a b i W) (seq 0 37) (t, p) (u, q) (conj H K)) as [W _].
  destruct (fold_left (init_inner C j) _ _) as [t' x]. destruct (fold_left (init_inner B j) _ _) as [u' y]. cbn [fst] in W.
  split; cbn [fst snd]; [exact W|]. destruct (j =? 0)%nat; wa.
Qed.
Lemma wt_init : wt (initTable C) (initTable B).
Proof.
  unfold initTable. apply (wst_fold (init_outer C) (init_outer B) (fun a b i W => wst_outer a b i W)).
  split; [apply wt_refl|apply wa_refl].
Qed.
Lemma wa_base t u k : wt t u -> wa (p256BaseMult C t k) (p256BaseMult B u k).
Proof.
  intros H. unfold p256BaseMult. destruct (boothW7 _) as [sel sign]. cbv zeta.
  assert (F : forall l p q i z, wa p q -> 
    wa (fst (fst (fold_left (base_step C t k) l (p, i, z)))) (fst (fst (fold_left (base_step B u k) l (q, i, z))))).
  { induction l as [|j l IH]; intros p q i z K; cbn [fold_left fst]; [exact K|]. unfold base_step at 2 4. destruct (boothW7 _) as [sl sg].
    apply IH. apply wa_addaff; [exact K|]. apply wa_selbase, wt_nth, H. }
  apply F. pose proof (wt_nth 0 t u H) as H0. wa.
Qed.

Lemma wa_base_point k : wa_go (base_point C k) (base_point B k).
Proof.
  unfold base_point. destruct (p256GetScalar k) as [s|w|]; cbn [bind]; [|reflexivity|exact Logic.I]. cbn [wa_go].
  apply wa_base, wt_init.
Qed.
Lemma wa_scalar_point X Y k : wa_go (scalar_point C X Y k) (scalar_point B X Y k).
Proof.
  unfold scalar_point. destruct (p256GetScalar k) as [s|w|]; cbn [bind]; [|reflexivity|exact Logic.I].
  apply wa_go_bind; [apply wa_load|]. intros a b W. apply wa_scalar; assumption.
Qed.
Lemma wa_combined_point X Y k1 k2 : wa_go (combined_point C X Y k1 k2) (combined_point B X Y k1 k2).
Proof.
  unfold combined_point. destruct (p256GetScalar k1) as [s|w|]; cbn [bind]; [|reflexivity|exact Logic.I].
  destruct (p256GetScalar k2) as [t|w|]; cbn [bind]; [|reflexivity|exact Logic.I].
  apply wa_go_bind; [apply wa_load|]. intros a b W.
  apply wa_go_bind; [apply wa_scalar; assumption|]. intros a' b' W'. cbn [wa_go].
  apply wa_add; [apply wa_base, wt_init|exact W'].
Qed.
End Code.

(** ** Results *)
Lemma go_clean r s : wa_go r s -> unmarked r = true -> r = s.
Proof.
  destruct r as [a| |]; try discriminate. destruct s as [b| |]; cbn [wa_go unmarked]; try contradiction. intros H T. apply negb_true_iff in T.
  rewrite (wa_clean a b H T). reflexivity.
Qed.
Lemma affine_fields A B p : a_mul A = a_mul B -> a_sqr A = a_sqr B -> a_from A = a_from B -> a_l2b A = a_l2b B ->
  p256PointToAffine A p = p256PointToAffine B p.
Proof. intros E1 E2 E3 E4. unfold p256PointToAffine, p256Inverse. rewrite E1, E2, E3, E4. reflexivity. Qed.
Lemma affine_fixed p : p256PointToAffine asm_prims p = p256PointToAffine fixed p.
Proof. apply affine_fields; reflexivity. Qed.
Lemma affine_same r : (let* p := r in Val (p256PointToAffine asm_prims p)) = (let* p := r in Val (p256PointToAffine fixed p)).
Proof. destruct r; cbn [bind]; [rewrite affine_fixed|..]; reflexivity. Qed.
Lemma base_eq A k : ScalarBaseMult A k = let* r := base_point A k in Val (p256PointToAffine A r).
Proof. unfold ScalarBaseMult, base_point. destruct (p256GetScalar k) as [s|w|]; cbn [bind]; reflexivity. Qed.
Lemma scalar_eq A X Y k : ScalarMult A X Y k = let* r := scalar_point A X Y k in Val (p256PointToAffine A r).
Proof.
  unfold ScalarMult, scalar_point. destruct (p256GetScalar k) as [s|w|]; cbn [bind]; [|reflexivity|reflexivity].
  destruct (load_point A X Y) as [a|w|]; cbn [bind]; reflexivity.
Qed.
Lemma combined_eq A X Y k1 k2 : CombinedMult A X Y k1 k2 = let* r := combined_point A X Y k1 k2 in Val (p256PointToAffine A r).
Proof.
  unfold CombinedMult, combined_point. destruct (p256GetScalar k1) as [s|w|]; cbn [bind]; [|reflexivity|reflexivity].
  destruct (p256GetScalar k2) as [t|w|]; cbn [bind]; [|reflexivity|reflexivity].
  destruct (load_point A X Y) as [a|w|]; cbn [bind]; [|reflexivity|reflexivity].
  destruct (p256ScalarMult A a t); cbn [bind]; reflexivity.
Qed.
Lemma sims_asm : sims careful_prims asm_prims. Proof. exact (careful_sims _ like_asm). Qed.
Lemma sims_fixed : sims careful_prims fixed. Proof. exact (careful_sims _ like_fixed). Qed.
Theorem clean_base_same k : clean_base_mult k = true -> ScalarBaseMult asm_prims k = ScalarBaseMult fixed k.
Proof.
  intros U. rewrite !base_eq.
  rewrite <- (go_clean _ _ (wa_base_point _ _ sims_asm k) U), <- (go_clean _ _ (wa_base_point _ _ sims_fixed k) U). apply affine_same.
Qed.
Theorem clean_scalar_same X Y k : clean_scalar_mult X Y k = true -> ScalarMult asm_prims X Y k = ScalarMult fixed X Y k.
Proof.
  intros U. rewrite !scalar_eq.
  rewrite <- (go_clean _ _ (wa_scalar_point _ _ sims_asm X Y k) U), <- (go_clean _ _ (wa_scalar_point _ _ sims_fixed X Y k) U). apply affine_same.
Qed.
Theorem clean_combined_same X Y k1 k2 : clean_combined_mult X Y k1 k2 = true -> CombinedMult asm_prims X Y k1 k2 = CombinedMult fixed X Y k1 k2.
Proof.
  intros U. rewrite !combined_eq.
  rewrite <- (go_clean _ _ (wa_combined_point _ _ sims_asm X Y k1 k2) U), <- (go_clean _ _ (wa_combined_point _ _ sims_fixed X Y k1 k2) U). apply affine_same.
Qed.
