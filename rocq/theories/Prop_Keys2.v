(** * Prop_Keys2: C22-C24, comparing, sorting and finding public keys *)
From Coq Require Import ZArith String List Bool Lia Permutation Sorted.
From Verif Require Import Base BaseFacts NumTheory Curves ECKey Spec_EC ECFacts ECFacts2 Prop_EC Keypair Spec_Keys KeyFacts Prop_Keys.
Import ListNotations.
Open Scope Z_scope.

(** ** C22 *)

(** the dynamic types ComparePublicKey knows *)
Definition known (k : pubkey) : Prop := match k with PkOther _ => False | _ => True end.

Lemma curve_eqb_eq : forall a b, curve_eqb a b = true <-> a = b.
Proof.
  intros [n1 p1 q1 b1 x1 y1 s1] [n2 p2 q2 b2 x2 y2 s2]. unfold curve_eqb. cbn [c_name c_P c_N c_B c_Gx c_Gy c_bits].
  rewrite !andb_true_iff, !Z.eqb_eq, String.eqb_eq. split; [intros; intuition congruence|].
  intros E. injection E as -> -> -> -> -> -> ->. intuition.
Qed.

(** exactly which keys compare equal *)
Theorem C22_compare_exact : forall k1 k2, ComparePublicKey k1 k2 = true <->
  (exists alg p q, k1 = PkEC alg p /\ k2 = PkEC alg q /\ c_name (pk_curve p) = c_name (pk_curve q) /\ pk_X p = pk_X q) \/
  (exists b, k1 = PkEd b /\ k2 = PkEd b) \/
  (exists p, k1 = PkEth p /\ k2 = PkEth p).
Proof.
  intros k1 k2. split.
  - destruct k1 as [a p|b|p|t]; destruct k2 as [a' q|b'|q|t']; cbn [ComparePublicKey]; try discriminate.
    + rewrite !andb_true_iff, !Z.eqb_eq, String.eqb_eq. intros [[-> E] X]. left. exists a', p, q. auto.
    + intros H. apply bytes_eqb_eq in H. subst. right; left. exists b'. auto.
    + rewrite !andb_true_iff, !Z.eqb_eq, curve_eqb_eq. intros [[X Y] C]. right; right. exists p.
      split; [reflexivity|]. f_equal. destruct p, q; cbn in *; congruence.
  - intros [(a & p & q & -> & -> & N & X)|[(b & -> & ->)|(p & -> & ->)]]; cbn [ComparePublicKey].
    + rewrite Z.eqb_refl, N, X, String.eqb_refl, Z.eqb_refl. reflexivity.
    + apply bytes_eqb_eq. reflexivity.
    + rewrite !Z.eqb_refl. apply curve_eqb_eq. reflexivity.
Qed.
Print Assumptions C22_compare_exact.

Theorem C22_compare_equivalence :
  (forall k, known k -> ComparePublicKey k k = true) /\
  (forall k1 k2, ComparePublicKey k1 k2 = ComparePublicKey k2 k1) /\
  (forall k1 k2 k3, ComparePublicKey k1 k2 = true -> ComparePublicKey k2 k3 = true -> ComparePublicKey k1 k3 = true).
Proof.
  assert (SYM : forall k1 k2, ComparePublicKey k1 k2 = true -> ComparePublicKey k2 k1 = true).
  { intros k1 k2 H. apply C22_compare_exact in H. apply C22_compare_exact.
    destruct H as [(a & p & q & -> & -> & N & X)|[(b & -> & ->)|(p & -> & ->)]].
    - left. exists a, q, p. auto.
    - right; left. exists b. auto.
    - right; right. exists p. auto. }
  split; [|split].
  - intros [a p|b|p|t] K; try contradiction; apply C22_compare_exact.
    + left. exists a, p, p. auto.
    + right; left. exists b; auto.
    + right; right. exists p; auto.
  - intros k1 k2. destruct (ComparePublicKey k1 k2) eqn:A; destruct (ComparePublicKey k2 k1) eqn:B; auto.
    + apply SYM in A. congruence.
    + apply SYM in B. congruence.
  - intros k1 k2 k3 A B. apply C22_compare_exact in A, B. apply C22_compare_exact.
    destruct A as [(a & p & q & -> & -> & N & X)|[(b & -> & ->)|(p & -> & ->)]];
    destruct B as [(a' & p' & q' & E1 & -> & N' & X')|[(b' & E1 & ->)|(p' & E1 & ->)]]; try discriminate; injection E1 as E1.
    + subst. left. exists a', p, q'. repeat split; congruence.
    + right; left. exists b. subst; auto.
    + right; right. exists p. subst; auto.
Qed.
Print Assumptions C22_compare_equivalence.

(** Hence, for every valid EC key other than one with y = 0, the key with the negated point is a
    different valid key that compares equal; but keys that compare equal have equal Y or
    complementary Y. *)
Theorem C22_negated_key_compares_equal : forall alg c a x y,
  alg = 0 \/ alg = 1 -> supported c a -> affine_point c a x y -> y <> 0 ->
  let k := PkEC alg {| pk_curve := c; pk_X := x; pk_Y := y |} in
  let k' := PkEC alg {| pk_curve := c; pk_X := x; pk_Y := c_P c - y |} in
  valid_pub k' /\ k' <> k /\ ComparePublicKey k k' = true.
Proof.
  intros alg c a x y Ha Hs Hp Hy k k'. split; [|split].
  - constructor 1 with a; auto. destruct Hp as (Hx & Hyr & Hc). split; [exact Hx|]. split; [lia|].
    unfold curve_eq in *. rewrite <- Hc.
    replace ((c_P c - y) * (c_P c - y)) with (y * y + (c_P c - 2 * y) * c_P c) by ring.
    apply Z_mod_plus_full.
  - intros E. injection E as E. pose proof (supported_odd c a Hs) as O.
    assert (c_P c = 2 * y) by lia. rewrite H in O. destruct O as [_ O]. rewrite Z.odd_mul in O. discriminate.
  - apply C22_compare_exact. left. exists alg, {| pk_curve := c; pk_X := x; pk_Y := y |}, {| pk_curve := c; pk_X := x; pk_Y := c_P c - y |}.
    cbn. auto.
Qed.
Print Assumptions C22_negated_key_compares_equal.

(** ** C23 *)

Lemma bytes_ltb_lex : forall a b, bytes_ltb a b = true <-> lex_lt a b.
Proof.
  induction a as [|x a IH]; intros [|y b]; cbn [bytes_ltb].
  - split; [discriminate|inversion 1].
  - split; [constructor|reflexivity].
  - split; [discriminate|inversion 1].
  - destruct (Z.ltb_spec x y); [split; [constructor; assumption|reflexivity]|].
    destruct (Z.ltb_spec y x).
    + split; [discriminate|]. inversion 1; lia.
    + assert (x = y) by lia. subst y. rewrite IH. split; [constructor; assumption|]. inversion 1; [lia|assumption].
Qed.
Lemma lex_irrefl : forall a, ~ lex_lt a a.
Proof. induction a; intros H; inversion H; [lia|contradiction]. Qed.
Lemma lex_trans : forall a b c, lex_lt a b -> lex_lt b c -> lex_lt a c.
Proof.
  intros a b c H. revert c. induction H; intros c K; inversion K; subst; solve [apply lex_nil | apply lex_hd; lia | apply lex_tl; auto].
Qed.
Lemma lex_total : forall a b, lex_lt a b \/ a = b \/ lex_lt b a.
Proof.
  induction a as [|x a IH]; intros [|y b].
  - auto.
  - left; constructor.
  - right; right; constructor.
  - destruct (Z.lt_trichotomy x y) as [H|[H|H]].
    + left; constructor; exact H.
    + subst. destruct (IH b) as [K|[K|K]]; [left; constructor|right; left; congruence|right; right; constructor]; assumption.
    + right; right; constructor; exact H.
Qed.

Lemma type_byte_ok : forall k, valid_pub k -> GetKeyType k = Val (type_byte k).
Proof. intros k H; destruct H as [alg c a x y [-> | ->] Hs Hp|b|]; reflexivity. Qed.

(** Less is the documented order *)
Theorem C23_less_is_the_documented_order : forall k1 k2, valid_pub k1 -> valid_pub k2 ->
  exists b, Less k1 k2 = Val b /\ (b = true <-> key_lt k1 k2).
Proof.
  intros k1 k2 V1 V2. unfold Less. rewrite (type_byte_ok k1 V1), (type_byte_ok k2 V2). cbn [bind].
  destruct (Z.eqb_spec (type_byte k1) (type_byte k2)) as [T|T]; cbn [negb].
  2:{ eexists. split; [reflexivity|]. rewrite Z.ltb_lt. split; [apply lt_type|].
      intros H; inversion H; subst; auto; cbn in T; congruence. }
  destruct V1 as [alg c a x y Ha Hs Hp|b Hl Hb|x y Hp]; destruct V2 as [alg' c' a' x' y' Ha' Hs' Hp'|b' Hl' Hb'|x' y' Hp'];
    try (cbn in T; destruct Ha as [-> | ->]; discriminate); try (cbn in T; destruct Ha' as [-> | ->]; discriminate);
    try (cbn in T; discriminate).
  - assert (alg' = alg) by (destruct Ha as [-> | ->]; destruct Ha' as [-> | ->]; cbn in T; congruence). subst alg'.
    cbn [pk_curve pk_X pk_Y].
    destruct (supported_label c a Hs) as [l L]. destruct (supported_label c' a' Hs') as [l' L'].
    destruct (GetCurve_label c l L) as [_ ->]. destruct (GetCurve_label c' l' L') as [_ ->].
    assert (NT : forall p q, ~ type_byte (PkEC alg p) < type_byte (PkEC alg q)) by (intros; cbn; lia).
    destruct (Z.eqb_spec l l') as [El|El]; cbn [negb].
    + subst l'. assert (c' = c) by (eapply label_inj; eauto). subst c'.
      destruct (Z.eqb_spec x x') as [Ex|Ex]; cbn [negb]; eexists; (split; [reflexivity|]); rewrite Z.ltb_lt.
      * subst x'. split; [intros; apply lt_y; auto|]. intros H; inversion H; subst; cbn in *; auto; try lia.
        { assert (l0 = l) by (eapply label_fun; eauto). assert (m = l) by (eapply label_fun; eauto). lia. }
      * split; [intros; apply lt_x; auto|]. intros H; inversion H; subst; cbn in *; auto; try lia.
        { assert (l0 = l) by (eapply label_fun; eauto). assert (m = l) by (eapply label_fun; eauto). lia. }
    + eexists. split; [reflexivity|]. rewrite Z.ltb_lt. split; [intros; eapply lt_curve; eauto|].
      intros H; inversion H; subst; cbn in *; subst.
      * destruct alg; cbn in *; lia.
      * assert (l0 = l) by (eapply label_fun; eauto). assert (m = l') by (eapply label_fun; eauto). lia.
      * exfalso. apply El. eapply label_fun; eauto.
      * exfalso. apply El. eapply label_fun; eauto.
  - eexists. split; [reflexivity|]. rewrite bytes_ltb_lex. split; [apply lt_ed|].
    intros H; inversion H; subst; cbn in *; auto; lia.
  - cbn [pk_X pk_Y]. destruct (Z.eqb_spec x x') as [Ex|Ex]; cbn [negb]; eexists; (split; [reflexivity|]); rewrite Z.ltb_lt.
    + subst x'. split; [intros; apply lt_eth_y; auto|]. intros H; inversion H; subst; cbn in *; auto; lia.
    + split; [intros; apply lt_eth_x; auto|]. intros H; inversion H; subst; cbn in *; auto; lia.
Qed.
Print Assumptions C23_less_is_the_documented_order.

(** ... which is a strict total order on valid keys *)
Lemma key_lt_irrefl : forall k, valid_pub k -> ~ key_lt k k.
Proof.
  intros k V H. inversion H; subst; try lia.
  - assert (l = m) by (eapply label_fun; eauto). lia.
  - eapply lex_irrefl; eauto.
Qed.
Lemma tb_ec : forall a a' p q, a = 0 \/ a = 1 -> a' = 0 \/ a' = 1 ->
  type_byte (PkEC a p) = type_byte (PkEC a' q) -> a = a'.
Proof. intros a a' p q [-> | ->] [-> | ->] H; cbn in H; congruence. Qed.
Lemma key_lt_same : forall k1 k2, key_lt k1 k2 -> type_byte k1 <= type_byte k2.
Proof. intros k1 k2 H; inversion H; subst; cbn; try lia. Qed.
Lemma key_lt_trans : forall k1 k2 k3, valid_pub k1 -> valid_pub k2 -> valid_pub k3 ->
  key_lt k1 k2 -> key_lt k2 k3 -> key_lt k1 k3.
Proof.
  intros k1 k2 k3 V1 V2 V3 H K.
  destruct (Z.eq_dec (type_byte k1) (type_byte k3)) as [E|E].
  2:{ apply lt_type. pose proof (key_lt_same _ _ H). pose proof (key_lt_same _ _ K). lia. }
  assert (type_byte k2 = type_byte k1). { pose proof (key_lt_same _ _ H). pose proof (key_lt_same _ _ K). lia. }
  inversion H; subst; try lia; inversion K; subst; try lia;
   try (match goal with H : label_of ?c ?l, H' : label_of ?c ?m |- _ => assert (l = m) by (eapply label_fun; eauto); subst end).
  - eapply lt_curve; eauto. lia.
  - eapply lt_curve; [eassumption | | eassumption]; congruence.
  - eapply lt_curve; [eassumption | | eassumption]; congruence.
  - eapply lt_curve; [ | eassumption | eassumption]; congruence.
  - apply lt_x; congruence || lia.
  - apply lt_x; congruence || lia.
  - eapply lt_curve; [ | eassumption | eassumption]; congruence.
  - apply lt_x; congruence || lia.
  - apply lt_y; congruence || lia.
  - apply lt_ed. eapply lex_trans; eauto.
  - apply lt_eth_x; lia.
  - apply lt_eth_x; lia.
  - apply lt_eth_x; lia.
  - apply lt_eth_y; lia.
Qed.
Lemma key_lt_total : forall k1 k2, valid_pub k1 -> valid_pub k2 -> key_lt k1 k2 \/ k1 = k2 \/ key_lt k2 k1.
Proof.
  intros k1 k2 V1 V2. destruct (Z.lt_trichotomy (type_byte k1) (type_byte k2)) as [T|[T|T]];
    [left; apply lt_type; exact T| |right; right; apply lt_type; exact T].
  destruct V1 as [alg c a x y Ha Hs Hp|b Hl Hb|x y Hp]; destruct V2 as [alg' c' a' x' y' Ha' Hs' Hp'|b' Hl' Hb'|x' y' Hp'];
    try (cbn in T; destruct Ha as [-> | ->]; discriminate); try (cbn in T; destruct Ha' as [-> | ->]; discriminate);
    try (cbn in T; discriminate).
  - assert (alg' = alg) by (symmetry; eapply tb_ec; eauto). subst alg'.
    destruct (supported_label c a Hs) as [l L]. destruct (supported_label c' a' Hs') as [l' L'].
    destruct (Z.lt_trichotomy l l') as [E|[E|E]].
    + left. eapply lt_curve; eauto.
    + subst l'. assert (c' = c) by (eapply label_inj; eauto). subst c'.
      destruct (Z.lt_trichotomy x x') as [E|[E|E]]; [left; apply lt_x; auto| |right; right; apply lt_x; auto].
      subst x'. destruct (Z.lt_trichotomy y y') as [E|[E|E]]; [left; apply lt_y; auto| |right; right; apply lt_y; auto].
      subst; auto.
    + right; right. eapply lt_curve; eauto.
  - destruct (lex_total b b') as [E|[E|E]]; [left; apply lt_ed; auto|subst; auto|right; right; apply lt_ed; auto].
  - destruct (Z.lt_trichotomy x x') as [E|[E|E]]; [left; apply lt_eth_x; auto| |right; right; apply lt_eth_x; auto].
    subst x'. destruct (Z.lt_trichotomy y y') as [E|[E|E]]; [left; apply lt_eth_y; auto| |right; right; apply lt_eth_y; auto].
    subst; auto.
Qed.

(** The statement below covers every correct sorting algorithm: an output is "sorted by Less"
    when Less never holds between an element and an earlier one (what sort.IsSorted tests,
    adjacently). *)
Definition sorted_by_less (l : list pubkey) : Prop :=
  forall i a b, nth_error l i = Some a -> nth_error l (S i) = Some b -> Less b a = Val false.

Theorem C23_sorted_output_is_unique : forall l1 l2 s1 s2, Forall valid_pub l1 ->
  Permutation l1 l2 -> Permutation l1 s1 -> Permutation l2 s2 ->
  sorted_by_less s1 -> sorted_by_less s2 -> s1 = s2.
Proof.
  (* le a b := a = b \/ key_lt a b *)
  set (le := fun a b => a = b \/ key_lt a b).
  assert (SS : forall s, Forall valid_pub s -> sorted_by_less s -> StronglySorted le s).
  { intros s. induction s as [|a s IH]; intros V S; [constructor|].
    inversion V as [|? ? Va Vs]; subst.
    assert (S' : sorted_by_less s). { intros i p q Hp Hq. apply (S (Datatypes.S i)); assumption. }
    specialize (IH Vs S'). constructor; [exact IH|].
    destruct s as [|b s]; [constructor|].
    assert (ab : le a b).
    { specialize (S 0%nat a b eq_refl eq_refl). inversion Vs as [|? ? Vb _]; subst.
      destruct (C23_less_is_the_documented_order b a Vb Va) as (r & E & R). rewrite S in E. injection E as <-.
      destruct (key_lt_total a b Va Vb) as [K|[K|K]]; [right; exact K|left; exact K|].
      apply R in K. discriminate. }
    constructor; [exact ab|]. inversion IH as [|? ? _ F]; subst.
    rewrite Forall_forall in F |- *. intros z Hz. specialize (F z Hz).
    destruct ab as [->|ab]; [exact F|]. destruct F as [<-|F]; [right; exact ab|].
    right. rewrite Forall_forall in Vs. eapply key_lt_trans with b; eauto.
    - apply Vs; left; reflexivity.
    - apply Vs; right; exact Hz. }
  assert (UN : forall s1 s2, Forall valid_pub s1 -> Permutation s1 s2 -> StronglySorted le s1 -> StronglySorted le s2 -> s1 = s2).
  { induction s1 as [|a s1 IH]; intros s2 V P S1 S2.
    - apply Permutation_nil in P. congruence.
    - destruct s2 as [|b s2]; [apply Permutation_sym, Permutation_nil in P; discriminate|].
      inversion S1 as [|? ? T1 F1]; subst. inversion S2 as [|? ? T2 F2]; subst.
      assert (a = b).
      { assert (A : In a (b :: s2)) by (apply (Permutation_in a P); left; reflexivity).
        assert (B : In b (a :: s1)) by (apply (Permutation_in b (Permutation_sym P)); left; reflexivity).
        destruct A as [A|A]; [congruence|]. destruct B as [B|B]; [congruence|].
        rewrite Forall_forall in F1, F2. specialize (F1 b B). specialize (F2 a A).
        destruct F1 as [F1|F1]; [exact F1|]. destruct F2 as [F2|F2]; [congruence|].
        rewrite Forall_forall in V. exfalso. apply (key_lt_irrefl a); [apply V; left; reflexivity|].
        eapply key_lt_trans with b; eauto; apply V; [left; reflexivity|right; exact B|left; reflexivity]. }
      subst b. f_equal. apply IH; auto.
      + inversion V; assumption.
      + eapply Permutation_cons_inv; eauto. }
  intros l1 l2 s1 s2 V P P1 P2 S1 S2.
  assert (V1 : Forall valid_pub s1) by (eapply Permutation_Forall; eauto).
  assert (V2 : Forall valid_pub s2) by (eapply Permutation_Forall; [exact P2|]; eapply Permutation_Forall; eauto).
  apply UN; auto. transitivity l1; [symmetry; exact P1|]. transitivity l2; assumption.
Qed.
Print Assumptions C23_sorted_output_is_unique.

(** The modelled SortPublicKeys: a sorted permutation, the same one for every order of the input. *)
Definition key_le (a b : pubkey) : Prop := a = b \/ key_lt a b.
Lemma key_le_trans : forall a b c, valid_pub a -> valid_pub b -> valid_pub c -> key_le a b -> key_le b c -> key_le a c.
Proof.
  intros a b c Va Vb Vc [->|H] [->|K]; try (right; assumption); [left; reflexivity|].
  right. eapply key_lt_trans with b; eauto.
Qed.
(* the reversed prefix is sorted in decreasing order *)
Lemma sort_insert_ok : forall x rp, valid_pub x -> Forall valid_pub rp -> StronglySorted (fun a b => key_le b a) rp ->
  exists rp', sort_insert x rp = Val rp' /\ Permutation (x :: rp) rp' /\ StronglySorted (fun a b => key_le b a) rp'.
Proof.
  intros x rp Vx. induction rp as [|y rp IH]; intros V S.
  - exists [x]. split; [reflexivity|]. split; [reflexivity|]. repeat constructor.
  - inversion V as [|? ? Vy Vr]; subst. inversion S as [|? ? S' F]; subst. cbn [sort_insert].
    destruct (C23_less_is_the_documented_order x y Vx Vy) as (b & -> & B). cbn [bind]. destruct b.
    + destruct (IH Vr S') as (rp' & -> & P & S2). cbn [bind]. exists (y :: rp'). split; [reflexivity|].
      split; [rewrite perm_swap; constructor; exact P|]. constructor; [exact S2|].
      apply (Permutation_Forall P). constructor; [right; apply B; reflexivity|exact F].
    + exists (x :: y :: rp). split; [reflexivity|]. split; [reflexivity|]. constructor; [exact S|].
      assert (yx : key_le y x).
      { destruct (key_lt_total x y Vx Vy) as [K|[K|K]]; [apply B in K; discriminate|left; congruence|right; exact K]. }
      constructor; [exact yx|]. rewrite Forall_forall in F, Vr |- *. intros z Hz.
      apply key_le_trans with y; auto.
Qed.
Lemma insertionSort_ok : forall rest rp, Forall valid_pub rp -> Forall valid_pub rest -> StronglySorted (fun a b => key_le b a) rp ->
  exists s, insertionSort rp rest = Val s /\ Permutation (rp ++ rest) s /\ StronglySorted (fun a b => key_le b a) (rev s).
Proof.
  induction rest as [|x rest IH]; intros rp Vp Vr S.
  - exists (rev rp). split; [reflexivity|]. rewrite app_nil_r, rev_involutive. split; [apply Permutation_rev|exact S].
  - inversion Vr as [|? ? Vx Vr']; subst. cbn [insertionSort].
    destruct (sort_insert_ok x rp Vx Vp S) as (rp' & -> & P & S'). cbn [bind].
    destruct (IH rp') as (s & E & P2 & S2); auto.
    { apply (Permutation_Forall P). constructor; assumption. }
    exists s. split; [exact E|]. split; [|exact S2]. rewrite <- P2, <- P. cbn [app]. symmetry. apply Permutation_middle.
Qed.
Lemma sorted_rev : forall s, StronglySorted (fun a b => key_le b a) s -> StronglySorted key_le (rev s).
Proof.
  assert (APP : forall s x, StronglySorted key_le s -> Forall (fun a => key_le a x) s -> StronglySorted key_le (s ++ [x])).
  { induction s as [|a s IH]; intros x S F; [repeat constructor|].
    inversion S; subst. inversion F; subst. cbn [app]. constructor; [auto|]. apply Forall_app. split; [assumption|]. constructor; [assumption|constructor]. }
  induction s as [|a s IH]; intros S; [constructor|]. inversion S; subst. cbn [rev]. apply APP; [auto|]. apply Forall_rev. assumption.
Qed.

Theorem C23_sort_public_keys : forall l l', Forall valid_pub l -> Permutation l l' ->
  exists s, SortPublicKeys l = Val s /\ SortPublicKeys l' = Val s /\ Permutation l s /\
    StronglySorted (fun a b => a = b \/ key_lt a b) s.
Proof.
  assert (ONE : forall l, Forall valid_pub l -> exists s, SortPublicKeys l = Val s /\ Permutation l s /\ StronglySorted key_le s).
  { intros l V. destruct (insertionSort_ok l [] (Forall_nil _) V (SSorted_nil _)) as (s & E & P & S).
    exists s. split; [exact E|]. split; [exact P|]. rewrite <- (rev_involutive s). apply sorted_rev. exact S. }
  assert (ADJ : forall s, Forall valid_pub s -> StronglySorted key_le s -> sorted_by_less s).
  { induction s as [|a s IH]; intros V S i p q Hp Hq; [destruct i; discriminate|].
    inversion V; subst. inversion S; subst. destruct i as [|i].
    - injection Hp as <-. change (nth_error s 0 = Some q) in Hq. apply nth_error_In in Hq.
      rewrite Forall_forall in H2, H4. specialize (H4 q Hq). specialize (H2 q Hq).
      destruct (C23_less_is_the_documented_order q a H2 H1) as (b & -> & B). destruct b; [|reflexivity].
      exfalso. assert (K : key_lt q a) by (apply B; reflexivity).
      destruct H4 as [->|H4]; [eapply key_lt_irrefl; eauto|].
      eapply (key_lt_irrefl a H1). eapply key_lt_trans with q; eauto.
    - apply (IH H2 H3 i); assumption. }
  intros l l' V P. destruct (ONE l V) as (s & E & Q & S).
  assert (V' : Forall valid_pub l') by (eapply Permutation_Forall; eauto).
  destruct (ONE l' V') as (s' & E' & Q' & S').
  assert (s = s').
  { apply (C23_sorted_output_is_unique l l' s s' V P Q Q').
    - apply ADJ; [eapply Permutation_Forall; eauto|exact S].
    - apply ADJ; [eapply Permutation_Forall; eauto|exact S']. }
  subst s'. exists s. auto.
Qed.
Print Assumptions C23_sort_public_keys.

(** ** C24 *)
Theorem C24_find_key_first_match : forall l key,
  (FindKey l key = -1 /\ forall k, In k l -> ComparePublicKey k key = false) \/
  (exists pre k post, l = pre ++ k :: post /\ FindKey l key = Z.of_nat (length pre) /\
     ComparePublicKey k key = true /\ forall k', In k' pre -> ComparePublicKey k' key = false).
Proof.
  intros l key. unfold FindKey.
  assert (G : forall i, (find_key i l key = -1 /\ forall k, In k l -> ComparePublicKey k key = false) \/
    (exists pre k post, l = pre ++ k :: post /\ find_key i l key = i + Z.of_nat (length pre) /\
       ComparePublicKey k key = true /\ forall k', In k' pre -> ComparePublicKey k' key = false)).
  { induction l as [|v l IH]; intros i; cbn [find_key].
    - left. split; [reflexivity|]. intros k [].
    - destruct (ComparePublicKey v key) eqn:C.
      + right. exists [], v, l. cbn. split; [reflexivity|]. split; [lia|]. split; [exact C|]. intros k' [].
      + destruct (IH (i + 1)) as [[E N]|(pre & k & post & -> & E & M & N)].
        * left. split; [exact E|]. intros k [<-|I]; auto.
        * right. exists (v :: pre), k, post. split; [reflexivity|]. split; [rewrite E; cbn [length]; lia|].
          split; [exact M|]. intros k' [<-|I]; auto. }
  apply (G 0).
Qed.
Print Assumptions C24_find_key_first_match.

(** ** Concrete cases *)
Definition kG256 : pubkey := PkEC 0 {| pk_curve := P256; pk_X := c_Gx P256; pk_Y := c_Gy P256 |}.
Definition kSM2 : pubkey := PkEC 1 {| pk_curve := SM2P256V1; pk_X := c_Gx SM2P256V1; pk_Y := c_Gy SM2P256V1 |}.
Definition kG521 : pubkey := PkEC 0 {| pk_curve := P521; pk_X := c_Gx P521; pk_Y := c_Gy P521 |}.
Definition kEd : pubkey := PkEd (to_be 32 (2 ^ 255 - 7)).
Definition kEth : pubkey := PkEth {| pk_curve := EthS256; pk_X := c_Gx S256; pk_Y := c_Gy S256 |}.
Lemma octets_to_be : forall n z, octets (to_be n z).
Proof. intros. apply to_be_wf. Qed.
Example C15_valid_keys : Forall valid_pub [kG256; kSM2; kG521; kEd; kEth].
Proof.
  repeat constructor; try (eexists; reflexivity); try apply octets_to_be; try (vm_compute; repeat split; discriminate).
  - eapply vp_ec; [left; reflexivity|constructor|]. vm_compute; repeat split; discriminate.
  - eapply vp_ec; [right; reflexivity|constructor|]. vm_compute; repeat split; discriminate.
  - eapply vp_ec; [left; reflexivity|constructor|]. vm_compute; repeat split; discriminate.
Qed.
Example C15_runs :
  (exists e, SerializePublicKey kSM2 = Val e /\ length e = 35%nat /\ DeserializePublicKey [] e = Val (Ok kSM2)) /\
  (exists e, SerializePublicKey kG256 = Val e /\ length e = 33%nat /\ DeserializePublicKey [] e = Val (Ok kG256)).
Proof.
  pose proof C15_valid_keys as V. rewrite Forall_forall in V.
  split.
  - destruct (C15_public_key_round_trip kSM2 []) as (e & S & D); [apply V; cbn [In]; auto|discriminate|].
    exists e. split; [exact S|]. split; [|exact D]. clear D. vm_compute in S. apply val_inj in S. subst e. reflexivity.
  - destruct (C15_public_key_round_trip kG256 []) as (e & S & D); [apply V; cbn [In]; auto|discriminate|].
    exists e. split; [exact S|]. split; [|exact D]. clear D. vm_compute in S. apply val_inj in S. subst e. reflexivity.
Qed.
Example C23_example : SortPublicKeys [kEth; kEd; kSM2; kG521; kG256] = Val [kG256; kG521; kSM2; kEd; kEth].
Proof. vm_compute. reflexivity. Qed.
Example C24_example : FindKey [kEth; kSM2; kG521] kSM2 = 1 /\ FindKey [kEth; kG521] kSM2 = -1.
Proof. vm_compute. auto. Qed.

(** C19/C20: a base-point multiplication with G at 1 *)
Definition toy_sbm (c : curve) (db : bytes) : Z * Z := (c_Gx c, c_Gy c).
Example C19_valid : valid_priv toy_sbm (SkEC 1 1 {| pk_curve := SM2P256V1; pk_X := c_Gx SM2P256V1; pk_Y := c_Gy SM2P256V1 |}) /\
  valid_priv toy_sbm (SkEth 1 {| pk_curve := EthS256; pk_X := c_Gx S256; pk_Y := c_Gy S256 |}).
Proof.
  split.
  - eapply (vs_ec toy_sbm 1 SM2P256V1 _ 32 (to_be 32 1) 1).
    + right; reflexivity.
    + constructor.
    + vm_compute; repeat split; discriminate.
    + vm_compute; split; reflexivity.
    + apply (encodes_to_be 32 1). split; [lia|reflexivity].
    + reflexivity.
    + vm_compute; repeat split; discriminate.
  - apply (vs_eth toy_sbm (to_be 32 1) 1); [|  |reflexivity].
    + vm_compute; split; reflexivity.
    + apply (encodes_to_be 32 1). split; [lia|reflexivity].
Qed.
Example C19_run : exists e,
  SerializePrivateKey (SkEC 1 1 {| pk_curve := SM2P256V1; pk_X := c_Gx SM2P256V1; pk_Y := c_Gy SM2P256V1 |}) = Val e /\ length e = 67%nat /\
  DeserializePrivateKey toy_sbm [] e =
   Val (Ok (Some (SkEC 1 1 {| pk_curve := SM2P256V1; pk_X := c_Gx SM2P256V1; pk_Y := c_Gy SM2P256V1 |}))).
Proof.
  destruct (C19_private_key_round_trip toy_sbm _ [] (proj1 C19_valid)) as (e & S & D); [discriminate|].
  exists e. split; [exact S|]. split; [|exact D]. clear D. vm_compute in S. apply val_inj in S. subst e. reflexivity.
Qed.
Example C21_examples : forall rng,
  (exists why, DeserializePrivateKey toy_sbm rng [] = Panic why) /\
  (exists why, DeserializePrivateKey toy_sbm rng [19] = Panic why) /\
  DeserializePrivateKey toy_sbm rng [0; 1; 2] = Val (Ok None).
Proof. intros rng. repeat split; try eexists; reflexivity. Qed.
