(** * ECFacts2: decoding lemmas *)
From Coq Require Import ZArith String List Bool Lia Znumtheory Zpow_facts.
From Verif Require Import Base BaseFacts NumTheory Curves ECKey LucasFacts Spec_EC ECFacts.
Import ListNotations.
Open Scope Z_scope.

Lemma slice_1 : forall (t : Z) (xb rest : bytes) L, zlen xb = L ->
  slice (t :: xb ++ rest) 1 (L + 1) = Val xb.
Proof.
  intros t xb rest L HL. change (t :: xb ++ rest) with ([t] ++ xb ++ rest).
  apply slice_app3; unfold zlen in *; cbn [length]; lia.
Qed.
Lemma slice_2 : forall (t : Z) (xb yb rest : bytes) L, zlen xb = L -> zlen yb = L ->
  slice (t :: xb ++ yb ++ rest) (L + 1) (L * 2 + 1) = Val yb.
Proof.
  intros t xb yb rest L HL HM. change (t :: xb ++ yb ++ rest) with ((t :: xb) ++ yb ++ rest).
  apply slice_app3; unfold zlen in *; cbn [length]; lia.
Qed.

Lemma decode_compressed : forall rng c L t xb rest, byte_size c = L -> 0 < L -> zlen xb = L -> t = 2 \/ t = 3 ->
  DecodePublicKey rng (t :: xb ++ rest) c = deCompress rng (t - 2) xb c.
Proof.
  intros rng c L t xb rest HL H0 Hx Ht. unfold DecodePublicKey. rewrite HL.
  destruct (Z.ltb_spec (zlen (t :: xb ++ rest)) (L + 1)) as [H|H].
  { unfold zlen in *; cbn [length] in H. rewrite app_length in H. lia. }
  rewrite slice_1 by exact Hx. cbn [bind].
  unfold index. destruct (Z.ltb_spec 0 (zlen (t :: xb ++ rest))); [|lia]. cbn [andb Z.leb Z.compare Z.to_nat nth_error bind].
  destruct Ht as [-> | ->]; reflexivity.
Qed.

Lemma decode_uncompressed : forall rng c L xb yb rest, byte_size c = L -> 0 < L -> zlen xb = L -> zlen yb = L ->
  DecodePublicKey rng (4 :: xb ++ yb ++ rest) c = Val (Ok {| pk_curve := c; pk_X := be2z xb; pk_Y := be2z yb |}).
Proof.
  intros rng c L xb yb rest HL H0 Hx Hy. unfold DecodePublicKey. rewrite HL.
  assert (Hz : zlen (4 :: xb ++ yb ++ rest) = 1 + L + L + zlen rest).
  { unfold zlen in *. cbn [length]. rewrite !app_length. lia. }
  pose proof (zlen_nonneg _ rest).
  destruct (Z.ltb_spec (zlen (4 :: xb ++ yb ++ rest)) (L + 1)); [lia|].
  rewrite slice_1 by exact Hx. cbn [bind].
  unfold index. destruct (Z.ltb_spec 0 (zlen (4 :: xb ++ yb ++ rest))); [|lia].
  cbn [andb Z.leb Z.compare Z.to_nat nth_error bind Z.eqb Pos.eqb].
  destruct (Z.ltb_spec (zlen (4 :: xb ++ yb ++ rest)) (L * 2 + 1)); [lia|].
  rewrite slice_2 by assumption. reflexivity.
Qed.

Lemma split_enc : forall (data : bytes) L, 0 <= L -> L + 1 <= zlen data ->
  exists t xb rest, data = t :: xb ++ rest /\ zlen xb = L.
Proof.
  intros data L HL H. destruct data as [|t data]; [unfold zlen in H; cbn in H; lia|].
  exists t, (firstn (Z.to_nat L) data), (skipn (Z.to_nat L) data).
  rewrite firstn_skipn. split; [reflexivity|]. unfold zlen in *. cbn [length] in H. rewrite firstn_length. lia.
Qed.

(** parity of the selected root *)
Lemma select_parity : forall p y t, Z.odd p = true -> t = 0 \/ t = 1 ->
  let y' := if (isEven y && negb (t =? 0)) || (negb (isEven y) && negb (t =? 1)) then p - y else y in
  Z.odd y' = (t =? 1) /\ (y' = y \/ y' = p - y).
Proof.
  intros p y t Ho Ht. cbv zeta. rewrite isEven_even.
  assert (E : Z.even y = negb (Z.odd y)) by (rewrite Z.negb_odd; reflexivity).
  destruct Ht as [-> | ->]; cbn [Z.eqb Pos.eqb negb andb]; rewrite E.
  - destruct (Z.odd y) eqn:O; cbn; split; auto. rewrite Z.odd_sub, Ho, O. reflexivity.
  - destruct (Z.odd y) eqn:O; cbn; split; auto. rewrite Z.odd_sub, Ho, O. reflexivity.
Qed.

Lemma neg_square : forall p y, 0 < p -> ((p - y) * (p - y)) mod p = (y * y) mod p.
Proof.
  intros p y Hp. replace ((p - y) * (p - y)) with (y * y + (p - 2 * y) * p) by ring. apply Z.mod_add; lia.
Qed.

Lemma deCompress_sound : forall rng t xb c key, 2 < c_P c -> Z.odd (c_P c) = true -> t = 0 \/ t = 1 ->
  deCompress rng t xb c = Val (Ok key) ->
  pk_curve key = c /\ pk_X key = be2z xb /\ 0 <= pk_Y key <= c_P c /\ Z.odd (pk_Y key) = (t =? 1) /\
  curve_eq (c_P c) (a_of c) (c_B c) (be2z xb) (pk_Y key).
Proof.
  intros rng t xb c key Hp Ho Ht H. unfold deCompress in H.
  pose proof (y_square_spec c (be2z xb) ltac:(lia)) as YS.
  set (z := y_square c (be2z xb)) in *.
  assert (Hz : 0 <= z < c_P c) by (rewrite YS; apply Z.mod_pos_bound; lia).
  destruct (curveSqrt rng z (c_P c)) as [[y|]| |] eqn:E; try discriminate. cbn [bind] in H.
  destruct (curveSqrt_sound _ _ _ _ Hp Ho Hz E) as [Hy Hyy].
  injection H as <-. cbn [pk_curve pk_X pk_Y].
  destruct (select_parity (c_P c) y t Ho Ht) as [S1 S2]. cbv zeta in S1, S2.
  set (y' := if _ || _ then _ else y) in *.
  repeat split; auto; try (destruct S2; lia).
  unfold curve_eq. rewrite <- YS. destruct S2 as [-> | ->]; [exact Hyy|].
  rewrite neg_square by lia. exact Hyy.
Qed.

(** uniqueness of the root of given parity *)
Lemma root_unique : forall p y w, prime p -> 2 < p -> 0 <= y < p -> 0 <= w < p ->
  (y * y) mod p = (w * w) mod p -> w = y \/ (w = p - y /\ y <> 0).
Proof.
  intros p y w Hp H2 Hy Hw E. apply prime_square_eq in E; auto. destruct E as [E|E].
  - rewrite !Z.mod_small in E by lia. left; lia.
  - destruct (Z.eq_dec w 0) as [->|N].
    + rewrite Z.mod_0_l, Z.mod_small in E by lia. left; lia.
    + rewrite Z.mod_small in E by lia. rewrite Z_mod_nz_opp_full in E by (rewrite Z.mod_small by lia; lia).
      rewrite Z.mod_small in E by lia. right. lia.
Qed.

Lemma select_root : forall p y w t, prime p -> 2 < p -> 0 <= y < p -> 0 <= w < p ->
  (y * y) mod p = (w * w) mod p -> t = (if Z.even w then 0 else 1) ->
  (if (isEven y && negb (t =? 0)) || (negb (isEven y) && negb (t =? 1)) then p - y else y) = w.
Proof.
  intros p y w t Hp H2 Hy Hw E Ht. pose proof (odd_prime p Hp H2) as Ho.
  assert (T : t = 0 \/ t = 1) by (destruct (Z.even w); auto).
  assert (Tw : Z.odd w = (t =? 1)) by (rewrite <- Z.negb_even, Ht; destruct (Z.even w); reflexivity).
  destruct (select_parity p y t Ho T) as [S1 S2]. cbv zeta in S1, S2.
  set (y' := if _ || _ then _ else y) in *. clearbody y'.
  rewrite <- Tw in S1.
  destruct (root_unique p y w Hp H2 Hy Hw E) as [->|[-> N]].
  - destruct S2 as [->|S2]; [reflexivity|]. subst y'. rewrite Z.odd_sub, Ho in S1.
    destruct (Z.odd y); discriminate.
  - destruct S2 as [S2|S2]; [|exact S2]. subst y'. rewrite Z.odd_sub, Ho in S1.
    destruct (Z.odd y); discriminate.
Qed.

Lemma index_cons0 : forall (A : Type) (t : A) l, index (t :: l) 0 = Val t.
Proof. intros. unfold index, zlen. destruct (Z.ltb_spec 0 (Z.of_nat (length (t :: l)))); [reflexivity|cbn [length] in *; lia]. Qed.
(** ** Totality of decoding *)
Lemma lucas_search_total : forall p z fq qm le k rng, 0 < p -> 0 < k ->
  (exists r, lucas_search p z fq qm le k rng = Val r) \/ lucas_search p z fq qm le k rng = OutOfFuel.
Proof.
  intros p z fq qm le k rng Hp Hk. induction rng as [|d rng IH]; [right; reflexivity|].
  cbn [lucas_search]. destruct (_ && _); [|exact IH].
  destruct (fastLucas_V p d z Hp k Hk) as [u ->]. cbn [bind].
  destruct (_ =? fq); [left; eexists; reflexivity|]. destruct (_ || _); [left; eexists; reflexivity|exact IH].
Qed.
Lemma curveSqrt_total : forall p z rng, 2 < p ->
  (exists r, curveSqrt rng z p = Val r) \/ (curveSqrt rng z p = OutOfFuel /\ Z.testbit p 1 = false).
Proof.
  intros p z rng Hp. unfold curveSqrt. destruct (Z.testbit p 1).
  - cbv zeta. destruct (_ =? z); left; eexists; reflexivity.
  - cbv zeta. destruct (negb _); [left; eexists; reflexivity|].
    destruct (lucas_search_total p z (Z.shiftl z 2 mod p) (p - 1) (Z.shiftr (p - 1) 1)
      (Z.shiftl (Z.shiftr (p - 1) 2) 1 + 1) rng) as [H|H]; try lia; auto. apply shiftr_pos_k; lia.
Qed.
Lemma decode_total : forall rng c a data, supported c a ->
  (exists r, DecodePublicKey rng data c = Val r) \/ (DecodePublicKey rng data c = OutOfFuel /\ c = P224).
Proof.
  intros rng c a data Hs. destruct (supported_size c a Hs) as (L & HL & HL0 & HLp & HLm).
  destruct (supported_odd c a Hs) as [H2 Ho].
  unfold DecodePublicKey. rewrite HL.
  destruct (Z.ltb_spec (zlen data) (Z.of_nat L + 1)) as [|Hlen]; [left; eexists; reflexivity|].
  destruct (split_enc data (Z.of_nat L) ltac:(lia) Hlen) as (t & xb & rest & -> & Hxb).
  rewrite slice_1 by exact Hxb. cbn [bind]. rewrite index_cons0. cbn [bind].
  destruct (Z.eqb_spec t 4).
  - destruct (Z.ltb_spec (zlen (t :: xb ++ rest)) (Z.of_nat L * 2 + 1)); [left; eexists; reflexivity|].
    rewrite slice_ok by lia. left; eexists; reflexivity.
  - destruct (_ || _); [|left; eexists; reflexivity].
    unfold deCompress. destruct (curveSqrt_total (c_P c) (y_square c (be2z xb)) rng H2) as [[[y|] E]|[E T]]; rewrite E; cbn [bind];
      try (left; eexists; reflexivity).
    right. split; [reflexivity|]. destruct Hs; try reflexivity; vm_compute in T; discriminate.
Qed.
