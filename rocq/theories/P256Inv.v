(** * P256Inv: Montgomery arithmetic and the two addition chains *)
From Coq Require Import ZArith Znumtheory Zpow_facts String List Bool Lia.
From Verif Require Import Base BaseFacts Curves NumTheory Primes1 Primes2 Primes3 P256 Spec_P256 P256Booth.
Import ListNotations.
Open Scope Z_scope.

(** ** Montgomery form *)
Lemma cancel_R : forall m a b, Z.odd m = true -> 0 < m -> (a * 2 ^ 256) mod m = (b * 2 ^ 256) mod m -> a mod m = b mod m.
Proof.
  intros m a b O M H.
  assert (G : rel_prime m (2 ^ 256)).
  { apply rel_prime_Zpower_r; [lia|]. apply rel_prime_sym. apply prime_rel_prime; [exact prime_2|].
    intros [q Q]. rewrite Q, Z.odd_mul in O. rewrite andb_comm in O. discriminate. }
  assert (D : (m | 2 ^ 256 * (a - b))).
  { apply Z.mod_divide; [lia|]. replace (2 ^ 256 * (a - b)) with (a * 2 ^ 256 - b * 2 ^ 256) by lia.
    rewrite Zminus_mod, H, Z.sub_diag. apply Z.mod_0_l. lia. }
  apply Gauss in D; [|exact G]. destruct D as [q Q]. replace a with (b + q * m) by lia. apply Z.mod_add. lia.
Qed.
Section Chain.
Variables (m : Z) (f : list Z -> list Z -> list Z).
Hypothesis Om : Z.odd m = true.
Hypothesis Pm : 1 < m.
Hypothesis Hf : mul_ok m f.
Lemma montr_mul : forall a b u v, montr m a u -> montr m b v -> montr m (f a b) (u * v).
Proof.
  intros a b u v [Wa Ha] [Wb Hb]. destruct (Hf a b Wa Wb) as (W & E & _). split; [exact W|].
  apply cancel_R; [exact Om|lia|]. rewrite E. rewrite Z.mul_mod, Ha, Hb, <- Z.mul_mod by lia.
  f_equal. ring.
Qed.
Lemma mont_mul : forall a b u v, mont m a u -> montr m b v -> mont m (f a b) (u * v).
Proof.
  intros a b u v [Ha La] Hb. split; [apply montr_mul; assumption|]. apply Hf; [apply Ha|apply Hb|left; exact La].
Qed.
Lemma mont_mul_r : forall a b u v, montr m a u -> mont m b v -> mont m (f a b) (u * v).
Proof.
  intros a b u v Ha [Hb Lb]. split; [apply montr_mul; assumption|]. apply Hf; [apply Ha|apply Hb|right; exact Lb].
Qed.
Lemma montr_cong : forall a u v, montr m a u -> u mod m = v mod m -> montr m a v.
Proof.
  intros a u v [W H] E. split; [exact W|]. rewrite H. rewrite Z.mul_mod, E, <- Z.mul_mod by lia. reflexivity.
Qed.
(** [a] holds the e-th power of K *)
Variable K : Z.
Definition powr (a : list Z) (e : Z) : Prop := 0 <= e /\ montr m a (K ^ e).
Lemma powr_mul : forall a b d e, powr a d -> powr b e -> powr (f a b) (d + e).
Proof. intros a b d e [D A] [E B]. split; [lia|]. rewrite Z.pow_add_r by lia. apply montr_mul; assumption. Qed.
Lemma powr_sqr : forall a d, powr a d -> powr (f a a) (2 * d).
Proof. intros a d H. replace (2 * d) with (d + d) by lia. apply powr_mul; assumption. Qed.
Lemma powr_repeat : forall n a d, powr a d -> powr (repeat_op n (fun r => f r r) a) (2 ^ Z.of_nat n * d).
Proof.
  induction n; intros a d H; cbn [repeat_op].
  - change (2 ^ Z.of_nat 0) with 1. rewrite Z.mul_1_l. exact H.
  - rewrite Nat2Z.inj_succ, Z.pow_succ_r by lia. replace (2 * 2 ^ Z.of_nat n * d) with (2 ^ Z.of_nat n * (2 * d)) by lia.
    apply IHn, powr_sqr, H.
Qed.
Lemma powr_len : forall a d, powr a d -> length a = 4%nat.
Proof. intros a d [_ [[L _] _]]. exact L. Qed.
End Chain.

(** ** Slices *)
Lemma sub_all : forall (a : list Z) n, length a = n -> sub a 0 n = a.
Proof. intros a n <-. unfold sub. cbn [skipn]. apply firstn_all. Qed.
Lemma put_all : forall (a b : list Z), length a = length b -> put_at 0 a b = a.
Proof. intros a b H. unfold put_at. cbn [firstn app Nat.add]. rewrite H, skipn_all, app_nil_r. reflexivity. Qed.
Lemma put_length : forall i ws l, (i + length ws <= length l)%nat -> length (put_at i ws l) = length l.
Proof. intros i ws l H. unfold put_at. rewrite !app_length, firstn_length, skipn_length. lia. Qed.
Lemma sub_put_same : forall i n ws l, (i <= length l)%nat -> length ws = n -> sub (put_at i ws l) i n = ws.
Proof.
  intros i n ws l H <-. unfold sub, put_at. rewrite skipn_app, skipn_all2 by (rewrite firstn_length; lia).
  rewrite firstn_length, Nat.min_l by lia. rewrite Nat.sub_diag. cbn [skipn app].
  rewrite firstn_app, Nat.sub_diag, firstn_all. cbn [firstn]. apply app_nil_r.
Qed.
Lemma sub_app_l : forall (a b : list Z) j n, (j + n <= length a)%nat -> sub (a ++ b) j n = sub a j n.
Proof.
  intros a b j n H. unfold sub. rewrite skipn_app, firstn_app. rewrite skipn_length.
  replace (n - (length a - j))%nat with 0%nat by lia. cbn [firstn]. apply app_nil_r.
Qed.
Lemma sub_put_before : forall i j n ws l, (j + n <= i)%nat -> (i <= length l)%nat -> sub (put_at i ws l) j n = sub l j n.
Proof.
  intros i j n ws l H L. unfold put_at. rewrite sub_app_l by (rewrite firstn_length; lia).
  transitivity (sub (firstn i l ++ skipn i l) j n); [symmetry; apply sub_app_l; rewrite firstn_length; lia|].
  rewrite firstn_skipn. reflexivity.
Qed.
Lemma sub_put_after : forall i j n ws l, (i + length ws <= j)%nat -> (i <= length l)%nat -> (j + n <= length l)%nat -> sub (put_at i ws l) j n = sub l j n.
Proof.
  intros i j n ws l H L1 L2. unfold sub, put_at. f_equal. rewrite app_assoc, skipn_app.
  rewrite skipn_all2 by (rewrite app_length, firstn_length; lia). rewrite app_length, firstn_length, Nat.min_l by lia.
  cbn [app]. rewrite skipn_skipn_add. f_equal. lia.
Qed.

(** ** Inverse modulo N *)
Lemma odd_N : Z.odd cN = true.
Proof. reflexivity. Qed.
Section InvN.
Variables (A : prims) (K : Z).
Hypothesis Hmul : mul_ok cN (a_ordmul A).
Notation pw := (powr cN K).
Notation om := (a_ordmul A).
Lemma pw_mul : forall a b d e, pw a d -> pw b e -> pw (om a b) (d + e).
Proof. intros. apply powr_mul; [reflexivity|reflexivity|exact Hmul|assumption|assumption]. Qed.
Lemma sqr2_eq : forall n r, length r = 4%nat -> (forall a, length a = 4%nat -> length (om a a) = 4%nat) ->
  repeat_op n (fun r => put_at 0 (om (sub r 0 4) (sub r 0 4)) r) r = repeat_op n (fun r => om r r) r.
Proof.
  induction n; intros r L H; cbn [repeat_op]; [reflexivity|].
  rewrite (sub_all r 4 L). rewrite put_all by (rewrite H; auto). apply IHn; auto.
Qed.
Lemma pw_repeat : forall n r d, pw r d -> pw (repeat_op n (fun r => put_at 0 (om (sub r 0 4) (sub r 0 4)) r) r) (2 ^ Z.of_nat n * d).
Proof.
  induction n; intros r d H; cbn [repeat_op].
  - change (2 ^ Z.of_nat 0) with 1. rewrite Z.mul_1_l. exact H.
  - rewrite (sub_all r 4) by (eapply powr_len; eassumption).
    pose proof (pw_mul _ _ _ _ H H) as H2.
    rewrite put_all by (rewrite (powr_len _ _ _ _ H2), (powr_len _ _ _ _ H); reflexivity).
    rewrite Nat2Z.inj_succ, Z.pow_succ_r by lia. replace (2 * 2 ^ Z.of_nat n * d) with (2 ^ Z.of_nat n * (d + d)) by lia.
    apply IHn, H2.
Qed.
Lemma pw_sqr2 : forall n x r d, pw r d -> length x = 4%nat -> pw (OrdSqr2 A x r n) (2 ^ Z.of_nat n * d).
Proof.
  intros n x r d H L. unfold OrdSqr2, go_copy. pose proof (powr_len _ _ _ _ H) as Lr.
  rewrite L, firstn_all2, skipn_all2, app_nil_r by lia. apply pw_repeat, H.
Qed.
(** the first k entries of the table hold the powers 1 to k *)
Definition table_ok (k : nat) (t : list Z) : Prop :=
  length t = 60%nat /\ forall j, (j < k)%nat -> pw (sub t (4 * j) 4) (Z.of_nat j + 1).
Lemma table_step : forall i t, (2 <= i <= 14)%nat -> Nat.even i = true -> table_ok (i - 1) t -> table_ok (i + 1) (inv_table_step A t i).
Proof.
  intros i t Hi Ev [L T]. unfold inv_table_step, OrdSqr2. cbv zeta. cbn [repeat_op].
  apply Nat.even_spec in Ev. destruct Ev as [h Eh].
  assert (Hh : (i / 2 = h)%nat) by (rewrite Eh, Nat.mul_comm; apply Nat.div_mul; lia). rewrite Hh.
  set (cp := go_copy (skipn (4 * (i - 1)) t) (skipn (4 * (h - 1)) t)).
  assert (Lc : length cp = (60 - 4 * (i - 1))%nat).
  { unfold cp, go_copy. rewrite app_length, firstn_length, !skipn_length, L. lia. }
  assert (Fc : sub cp 0 4 = sub t (4 * (h - 1)) 4).
  { unfold sub, cp, go_copy. cbn [skipn]. rewrite firstn_app, firstn_firstn.
    assert (E0 : (4 - length (firstn (length (skipn (4 * (i - 1)) t)) (skipn (4 * (h - 1)) t)) = 0)%nat)
      by (rewrite firstn_length, !skipn_length, L; lia).
    rewrite E0. cbn [firstn]. rewrite app_nil_r, skipn_length, L, Nat.min_l by lia. reflexivity. }
  rewrite Fc. pose proof (T (h - 1)%nat ltac:(lia)) as Th.
  pose proof (pw_mul _ _ _ _ Th Th) as Ti. set (sq := om _ _) in *.
  pose proof (powr_len _ _ _ _ Ti) as Ls.
  assert (Lp : length (put_at 0 sq cp) = (60 - 4 * (i - 1))%nat) by (rewrite put_length; rewrite ?Lc, ?Ls; lia).
  set (t1 := put_at (4 * (i - 1)) (put_at 0 sq cp) t).
  assert (L1 : length t1 = 60%nat) by (unfold t1; rewrite put_length; rewrite ?Lp, ?L; lia).
  assert (S1 : sub t1 (4 * (i - 1)) 4 = sq).
  { unfold sub. assert (E : skipn (4 * (i - 1)) t1 = put_at 0 sq cp).
    { unfold t1. unfold put_at at 1. rewrite skipn_app, skipn_all2 by (rewrite firstn_length; lia).
      rewrite firstn_length, Nat.min_l by lia. rewrite Nat.sub_diag. cbn [skipn app].
      rewrite (skipn_all2 t) by (rewrite Lp; lia). apply app_nil_r. }
    rewrite E. apply (sub_put_same 0 4 sq cp); [lia|exact Ls]. }
  assert (B1 : forall j, (j < i - 1)%nat -> sub t1 (4 * j) 4 = sub t (4 * j) 4).
  { intros j Hj. unfold t1. apply sub_put_before; lia. }
  pose proof (T 0%nat ltac:(lia)) as T0. rewrite <- (B1 0%nat) in T0 by lia. change (4 * 0)%nat with 0%nat in T0.
  rewrite S1. pose proof (pw_mul _ _ _ _ Ti T0) as Ti1. set (nx := om sq _) in *. pose proof (powr_len _ _ _ _ Ti1) as Ln.
  split; [rewrite put_length; rewrite ?L1, ?Ln; lia|].
  intros j Hj. destruct (Nat.eq_dec j i) as [->|Nj].
  - rewrite sub_put_same by (rewrite ?L1; lia). replace (Z.of_nat i + 1) with (Z.of_nat (h - 1) + 1 + (Z.of_nat (h - 1) + 1) + (Z.of_nat 0 + 1)) by lia. exact Ti1.
  - rewrite sub_put_before by lia. destruct (Nat.eq_dec j (i - 1)) as [->|Nj2].
    + rewrite S1. replace (Z.of_nat (i - 1) + 1) with (Z.of_nat (h - 1) + 1 + (Z.of_nat (h - 1) + 1)) by lia. exact Ti.
    + rewrite B1 by lia. apply T. lia.
Qed.
Lemma table_all : forall t, table_ok 1 t -> table_ok 15 (fold_left (inv_table_step A) [2; 4; 6; 8; 10; 12; 14]%nat t).
Proof.
  intros t H. cbn [fold_left].
  apply (table_step 14); [lia|reflexivity|]. apply (table_step 12); [lia|reflexivity|].
  apply (table_step 10); [lia|reflexivity|]. apply (table_step 8); [lia|reflexivity|].
  apply (table_step 6); [lia|reflexivity|]. apply (table_step 4); [lia|reflexivity|].
  apply (table_step 2); [lia|reflexivity|exact H].
Qed.
Lemma pw_lo : forall table, table_ok 15 table -> forall es x d, pw x d -> Forall (fun e => 0 <= e < 16) es ->
  pw (fold_left (fun x e => let x := OrdSqr2 A x x 4 in if e =? 0 then x else om x (sub table (Z.to_nat (4 * (e - 1))) 4)) es x)
     (fold_left (fun d e => 16 * d + e) es d).
Proof.
  intros table [L T] es. induction es as [|e es IH]; intros x d H F; cbn [fold_left]; [exact H|].
  inversion_clear F as [|? ? He F']. apply IH; [|exact F']. cbv zeta.
  pose proof (pw_sqr2 4 x x d H (powr_len _ _ _ _ H)) as S. change (2 ^ Z.of_nat 4) with 16 in S.
  destruct (Z.eqb_spec e 0) as [->|N]; [rewrite Z.add_0_r; exact S|].
  pose proof (T (Z.to_nat (e - 1)) ltac:(lia)) as Te.
  replace (Z.to_nat (4 * (e - 1))) with (4 * Z.to_nat (e - 1))%nat by lia.
  replace (16 * d + e) with (16 * d + (Z.of_nat (Z.to_nat (e - 1)) + 1)) by lia. apply pw_mul; assumption.
Qed.
End InvN.

Lemma lval_RR : lval RR = (2 ^ 256 * 2 ^ 256) mod cN.
Proof. vm_compute. reflexivity. Qed.
Lemma is_words_lit : forall n l, forallb (fun x => (0 <=? x) && (x <? 2 ^ 64)) l = true -> length l = n -> is_words n l.
Proof.
  intros n l F L. split; [exact L|]. apply Forall_forall. intros x Hx. pose proof (proj1 (forallb_forall _ _) F x Hx) as B.
  cbv beta in B. rewrite andb_true_iff, Z.leb_le, Z.ltb_lt in B. exact B.
Qed.
Lemma words_RR : is_words 4 RR.
Proof. apply is_words_lit; reflexivity. Qed.
Definition l2b_ok (f : list Z -> bytes) : Prop := forall w, is_words 4 w -> f w = to_be 32 (lval w).

Section InvN2.
Variable A : prims.
Hypothesis Hmul : mul_ok cN (a_ordmul A).
Hypothesis Hl2b : l2b_ok (a_l2b A).
Lemma be_l2b : forall w, is_words 4 w -> be2z (a_l2b A w) = lval w.
Proof.
  intros w W. rewrite Hl2b by exact W. apply be2z_to_be_small. pose proof (lval_256 w W). cbn [Z.of_nat]. 
  change (256 ^ Z.of_nat 32) with (2 ^ 256). lia.
Qed.
Lemma Inverse_val : forall k, Inverse A k = Val ((Z.abs k) ^ (cN - 2) mod cN).
Proof.
  intros k. unfold Inverse. cbv zeta.
  assert (E1 : (if k <? 0 then - k else k) = Z.abs k) by (destruct (Z.ltb_spec k 0); lia). rewrite E1.
  set (K := if Z.abs k >=? cN then Z.abs k mod cN else Z.abs k).
  assert (EK : K = Z.abs k mod cN).
  { unfold K. destruct (Z.geb_spec (Z.abs k) cN); [reflexivity|]. symmetry. apply Z.mod_small. lia. }
  pose proof (Z.mod_pos_bound (Z.abs k) cN ltac:(reflexivity)) as BK. rewrite <- EK in BK.
  assert (NB : cN < 2 ^ 256) by reflexivity.
  unfold fromBig. rewrite (Z.abs_eq K) by lia. destruct (Z.ltb_spec K (2 ^ 256)) as [_|]; [|lia]. cbn [bind]. clearbody K. 
  assert (M1 : mont cN (a_ordmul A (words_of 4 K) RR) K).
  { destruct (Hmul (words_of 4 K) RR (words_of_ok 4 K) words_RR) as (W & E & R).
    rewrite (lval_words_of 4 K) in E by (change (2 ^ (64 * Z.of_nat 4)) with (2 ^ 256); lia).
    split; [split; [exact W|]|apply R; right; reflexivity].
    apply cancel_R; [reflexivity|reflexivity|]. rewrite E, lval_RR, Z.mul_mod_idemp_r by discriminate. f_equal. ring. }
  destruct M1 as [M1 _]. assert (P1 : powr cN K (a_ordmul A (words_of 4 K) RR) 1) by (split; [lia|rewrite Z.pow_1_r; exact M1]).
  set (t0 := put_at 0 _ _).
  assert (T0 : table_ok K 1 t0).
  { split; [unfold t0; rewrite put_length; rewrite ?(powr_len _ _ _ _ P1); cbn; lia|]. intros j Hj. replace j with 0%nat by lia. cbn [Nat.mul Z.of_nat Z.add]. unfold t0.
    rewrite sub_put_same; [exact P1|cbn; lia|]. eapply powr_len; exact P1. }
  clearbody t0. pose proof (table_all A K Hmul t0 T0) as T. clear T0. set (t := fold_left _ _ t0) in *. clearbody t. clear t0.
  pose proof T as [L Te].
  pose proof (Te 14%nat ltac:(lia)) as T14. pose proof (Te 13%nat ltac:(lia)) as T13.
  set (x14 := sub t (4 * 14) 4) in *. set (x13 := sub t (4 * 13) 4) in *. clearbody x13 x14.
  pose proof (powr_len _ _ _ _ T14) as L14.
  match goal with |- Val (be2z (a_l2b A (a_ordmul A ?B _))) = _ => assert (HB : powr cN K B (cN - 2)) end.
  { assert (C4 := pw_sqr2 A K Hmul 4 x14 x14 _ T14 L14). set (y4 := OrdSqr2 A x14 x14 4) in *. clearbody y4.
    assert (Cs := pw_mul A K Hmul _ _ _ _ C4 T13). assert (Cx := pw_mul A K Hmul _ _ _ _ C4 T14).
    set (s1 := a_ordmul A y4 x13) in *. set (x1 := a_ordmul A y4 x14) in *. clearbody s1 x1. 
    assert (C8 := pw_sqr2 A K Hmul 8 x1 x1 _ Cx (powr_len _ _ _ _ Cx)). set (y8 := OrdSqr2 A x1 x1 8) in *. clearbody y8.
    assert (Cs2 := pw_mul A K Hmul _ _ _ _ C8 Cs). assert (Cx2 := pw_mul A K Hmul _ _ _ _ C8 Cx).
    set (s2 := a_ordmul A y8 s1) in *. set (x2 := a_ordmul A y8 x1) in *. clearbody s2 x2.
    assert (C16 := pw_sqr2 A K Hmul 16 x2 x2 _ Cx2 (powr_len _ _ _ _ Cx2)). set (y16 := OrdSqr2 A x2 x2 16) in *. clearbody y16.
    assert (Cs3 := pw_mul A K Hmul _ _ _ _ C16 Cs2). assert (Ct3 := pw_mul A K Hmul _ _ _ _ C16 Cx2).
    set (s3 := a_ordmul A y16 s2) in *. set (t3 := a_ordmul A y16 x2) in *. clearbody s3 t3.
    assert (D1 := pw_sqr2 A K Hmul 32 y16 s3 _ Cs3 (powr_len _ _ _ _ C16)). set (z1 := OrdSqr2 A y16 s3 32) in *. clearbody z1.
    assert (D2 := pw_mul A K Hmul _ _ _ _ D1 Ct3). set (z2 := a_ordmul A z1 t3) in *. clearbody z2.
    assert (D3 := pw_sqr2 A K Hmul 32 z2 z2 _ D2 (powr_len _ _ _ _ D2)). set (z3 := OrdSqr2 A z2 z2 32) in *. clearbody z3.
    assert (D4 := pw_mul A K Hmul _ _ _ _ D3 Ct3). set (z4 := a_ordmul A z3 t3) in *. clearbody z4.
    assert (D5 := pw_sqr2 A K Hmul 32 z4 z4 _ D4 (powr_len _ _ _ _ D4)). set (z5 := OrdSqr2 A z4 z4 32) in *. clearbody z5.
    assert (D6 := pw_mul A K Hmul _ _ _ _ D5 Ct3). set (z6 := a_ordmul A z5 t3) in *. clearbody z6.
    assert (Fe : Forall (fun e => 0 <= e < 16) expLo) by (unfold expLo; repeat constructor; discriminate || reflexivity).
    pose proof (pw_lo A K Hmul t T expLo z6 _ D6 Fe) as D7. cbv zeta in D7.
    match type of D7 with powr _ _ _ ?e => assert (Ee : e = cN - 2) by (vm_compute; reflexivity); rewrite Ee in D7 end.
    exact D7. }
  match goal with |- Val (be2z (a_l2b A (a_ordmul A ?B _))) = _ => set (x := B) in * end. clearbody x.
  destruct HB as [_ [Wx Ex]].
  assert (W1 : is_words 4 [1; 0; 0; 0]) by (apply is_words_lit; reflexivity).
  destruct (Hmul x [1; 0; 0; 0] Wx W1) as (W & E & R). f_equal. rewrite be_l2b by exact W.
  assert (Lt : lval (a_ordmul A x [1; 0; 0; 0]) < cN) by (apply R; right; reflexivity).
  pose proof (lval_256 _ W) as Bw. rewrite <- (Z.mod_small (lval (a_ordmul A x [1; 0; 0; 0])) cN) by lia.
  rewrite EK in Ex. rewrite (Zpower_mod (Z.abs k)) by reflexivity.
  apply cancel_R; [reflexivity|reflexivity|]. rewrite E. change (lval [1; 0; 0; 0]) with 1. rewrite Z.mul_1_r, Ex.
  reflexivity.
Qed.
End InvN2.

(** ** Inverse modulo p *)
Lemma odd_P : Z.odd cP = true.
Proof. reflexivity. Qed.
Section InvP.
Variable A : prims.
Hypothesis Hmul : mul_ok cP (a_mul A).
Hypothesis Hsqr : forall a, is_words 4 a -> a_sqr A a = a_mul A a a.
Variable K : Z.
Notation pw := (powr cP K).
Lemma pp_mul : forall a b d e, pw a d -> pw b e -> pw (a_mul A a b) (d + e).
Proof. intros. apply powr_mul; [reflexivity|reflexivity|exact Hmul|assumption|assumption]. Qed.
Lemma pp_sqr : forall a d, pw a d -> pw (a_sqr A a) (2 * d).
Proof. intros a d H. rewrite Hsqr by apply H. replace (2 * d) with (d + d) by lia. apply pp_mul; assumption. Qed.
Lemma pp_sqrs : forall n a d, pw a d -> pw (repeat_op n (a_sqr A) a) (2 ^ Z.of_nat n * d).
Proof.
  induction n; intros a d H; cbn [repeat_op].
  - change (2 ^ Z.of_nat 0) with 1. rewrite Z.mul_1_l. exact H.
  - rewrite Nat2Z.inj_succ, Z.pow_succ_r by lia. replace (2 * 2 ^ Z.of_nat n * d) with (2 ^ Z.of_nat n * (2 * d)) by lia.
    apply IHn, pp_sqr, H.
Qed.
Lemma p256Inverse_pow : forall a, montr cP a K -> montr cP (p256Inverse A a) (K ^ (cP - 2)).
Proof.
  intros a H. assert (P1 : pw a 1) by (split; [lia|rewrite Z.pow_1_r; exact H]). clear H. unfold p256Inverse. cbv zeta.
  assert (P2 := pp_mul _ _ _ _ (pp_sqr _ _ P1) P1). set (p2 := a_mul A (a_sqr A a) a) in *. clearbody p2.
  assert (P4 := pp_mul _ _ _ _ (pp_sqrs 2 _ _ P2) P2). set (p4 := a_mul A (repeat_op 2 (a_sqr A) p2) p2) in *. clearbody p4.
  assert (P8 := pp_mul _ _ _ _ (pp_sqrs 4 _ _ P4) P4). set (p8 := a_mul A (repeat_op 4 (a_sqr A) p4) p4) in *. clearbody p8.
  assert (P16 := pp_mul _ _ _ _ (pp_sqrs 8 _ _ P8) P8). set (p16 := a_mul A (repeat_op 8 (a_sqr A) p8) p8) in *. clearbody p16.
  assert (P32 := pp_mul _ _ _ _ (pp_sqrs 16 _ _ P16) P16). set (p32 := a_mul A (repeat_op 16 (a_sqr A) p16) p16) in *. clearbody p32.
  assert (Q1 := pp_mul _ _ _ _ (pp_sqrs 8 _ _ P16) P8). set (q1 := a_mul A (repeat_op 8 (a_sqr A) p16) p8) in *. clearbody q1.
  assert (Q2 := pp_mul _ _ _ _ (pp_sqrs 4 _ _ Q1) P4). set (q2 := a_mul A (repeat_op 4 (a_sqr A) q1) p4) in *. clearbody q2.
  assert (Q3 := pp_mul _ _ _ _ (pp_sqrs 2 _ _ Q2) P2). set (q3 := a_mul A (repeat_op 2 (a_sqr A) q2) p2) in *. clearbody q3.
  assert (Q4 := pp_sqr _ _ (pp_mul _ _ _ _ (pp_sqr _ _ Q3) P1)). set (q4 := a_sqr A (a_mul A (a_sqr A q3) a)) in *. clearbody q4.
  assert (R1 := pp_mul _ _ _ _ (pp_sqrs 32 _ _ Q4) P32). set (r1 := a_mul A (repeat_op 32 (a_sqr A) q4) p32) in *. clearbody r1.
  assert (R2 := pp_mul _ _ _ _ (pp_sqrs 32 _ _ R1) P32). set (r2 := a_mul A (repeat_op 32 (a_sqr A) r1) p32) in *. clearbody r2.
  assert (R3 := pp_mul _ _ _ _ (pp_sqrs 32 _ _ R2) P32). set (r3 := a_mul A (repeat_op 32 (a_sqr A) r2) p32) in *. clearbody r3.
  assert (R4 := pp_mul _ _ _ _ (pp_sqrs 32 _ _ R3) P32). set (r4 := a_mul A (repeat_op 32 (a_sqr A) r3) p32) in *. clearbody r4.
  assert (R5 := pp_mul _ _ _ _ (pp_sqrs 64 _ _ R4) P32). set (r5 := a_mul A (repeat_op 64 (a_sqr A) r4) p32) in *. clearbody r5.
  assert (R6 := pp_mul _ _ _ _ (pp_sqrs 16 _ _ R5) P16). set (r6 := a_mul A (repeat_op 16 (a_sqr A) r5) p16) in *. clearbody r6.
  assert (R7 := pp_mul _ _ _ _ (pp_sqrs 8 _ _ R6) P8). set (r7 := a_mul A (repeat_op 8 (a_sqr A) r6) p8) in *. clearbody r7.
  assert (R8 := pp_mul _ _ _ _ (pp_sqrs 4 _ _ R7) P4). set (r8 := a_mul A (repeat_op 4 (a_sqr A) r7) p4) in *. clearbody r8.
  assert (R9 := pp_mul _ _ _ _ (pp_sqrs 2 _ _ R8) P2). set (r9 := a_mul A (repeat_op 2 (a_sqr A) r8) p2) in *. clearbody r9.
  assert (RA := pp_mul _ _ _ _ (pp_sqrs 2 _ _ R9) P1).
  match type of RA with powr _ _ _ ?e => assert (Ee : e = cP - 2) by (vm_compute; reflexivity); rewrite Ee in RA end.
  exact (proj2 RA).
Qed.
Lemma p256Inverse_reduced : forall a, mont cP a K -> mont cP (p256Inverse A a) (K ^ (cP - 2)).
Proof.
  intros a [H L]. pose proof (p256Inverse_pow a H) as E. split; [exact E|]. unfold p256Inverse in *. cbv zeta in *.
  match goal with |- lval (a_mul A (repeat_op 2 (a_sqr A) ?x) a) < _ => set (y := x) in * end.
  apply Hmul; [|apply H|right; exact L].
  assert (Wm : forall u v, is_words 4 u -> is_words 4 v -> is_words 4 (a_mul A u v)) by (intros; apply Hmul; assumption).
  assert (Ws : forall u, is_words 4 u -> is_words 4 (a_sqr A u)) by (intros; rewrite Hsqr by assumption; auto).
  assert (Wr : forall n u, is_words 4 u -> is_words 4 (repeat_op n (a_sqr A) u)) by (induction n; intros; cbn [repeat_op]; auto).
  apply Wr. unfold y. clear E y. pose proof (proj1 H) as W.
  repeat first [exact W | apply Wm | apply Ws | apply Wr].
Qed.
End InvP.
