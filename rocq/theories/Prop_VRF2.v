(** * Prop_VRF2: C52, C55, C56 over a group of prime order *)
From Coq Require Import ZArith Znumtheory String List Bool Lia.
From Verif Require Import Base BaseFacts Curves ECKey Keypair NumTheory Spec_EC ECFacts ECFacts2 Prop_EC Spec_Group
  VRF Spec_VRF VRFFacts VRFFacts2 Prop_VRF.
Import ListNotations.
Open Scope Z_scope.

Lemma gswap : forall (G : cgroup) (a b c d : pt G), gadd a b = gadd c d -> gadd d (gneg b) = gadd a (gneg c).
Proof.
  intros G a b c d E. apply (gcancel_l G (gadd c b)). transitivity (gadd c d).
  - rewrite gadd4, gadd_neg. apply gadd_O.
  - rewrite (gadd_comm _ c b), gadd4, gadd_neg, gadd_O, (gadd_comm _ b a). symmetry. exact E.
Qed.

Section Ops.
Variable hash : hkind -> bytes -> bytes.
Hypothesis hash_ok : forall h m, wf_bytes (hash h m) /\ zlen (hash h m) = hSize h.
Variable sha256 : bytes -> bytes.
Variable sbm : curve -> bytes -> Z * Z.
Variable sm : curve -> Z * Z -> bytes -> Z * Z.
Variable add : curve -> Z * Z -> Z * Z -> Z * Z.
Variable onCurve : curve -> Z * Z -> bool.
Notation Vrf := (Vrf hash sha256 sbm sm).
Notation Verify := (Verify hash sha256 sbm sm add onCurve).

Variables (a : Z) (k : ecpub) (h : hkind).
Hypothesis Hs : supported (pk_curve k) a.
Hypothesis G : getHash (pk_curve k) = Some h.
Let c := pk_curve k.
Let n := byteLen c.
Let Hh : hSize h = n := getHash_size c a h Hs G.
Let Fn : field_bytes c n := field_bytes_byteLen c a Hs.

Lemma h2i_mono : forall fuel fuel' i m s, (fuel <= fuel')%nat ->
  h2i_loop hash fuel i c h m = Val s -> h2i_loop hash fuel' i c h m = Val s.
Proof.
  induction fuel; intros fuel' i m s L E; [discriminate|]. destruct fuel' as [|fuel']; [lia|].
  rewrite (h2i_step hash hash_ok c a h n Hs Fn Hh) in E |- *. destruct (_ <? _); [exact E|].
  apply IHfuel; [lia|exact E].
Qed.

(** the intermediate values of a successful evaluation *)
Lemma vrf_inv : forall fuel rng r alg D msg v p, Vrf fuel rng r (SkEC alg D k) msg = Val (Ok (v, p)) ->
  exists rb pkb H b s, r = Ok rb /\ Marshal c (pk_X k, pk_Y k) = Val pkb /\
    hashToCurve hash rng c h (pkb ++ msg) = Val (Some H) /\
    Marshal c (sm c H (big_bytes D)) = Val v /\
    transcript c H (pk_X k, pk_Y k) v (sbm c rb) (sm c H rb) = Val b /\
    hashToInt hash fuel c h b = Val s /\
    p = to_be (Z.to_nat n) s ++ to_be (Z.to_nat n) ((be2z rb - s * D) mod c_N c).
Proof.
  intros fuel rng r alg D msg v p E. unfold VRF.Vrf in E. rewrite G in E. cbv zeta in E.
  unfold Evaluate in E. cbv zeta in E. fold c n in E. rewrite Hh, Z.eqb_refl in E. cbn [negb] in E.
  destruct r as [rb|]; [|discriminate].
  destruct (Marshal c (pk_X k, pk_Y k)) as [pkb| |] eqn:M; try discriminate. cbn [bind] in E.
  destruct (hashToCurve hash rng c h (pkb ++ msg)) as [[H|]| |] eqn:C; try discriminate. cbn [bind] in E.
  destruct (Marshal c (sm c H (big_bytes D))) as [u| |] eqn:MU; try discriminate. cbn [bind] in E.
  destruct (transcript c H (pk_X k, pk_Y k) u (sbm c rb) (sm c H rb)) as [b| |] eqn:T; try discriminate. cbn [bind] in E.
  destruct (hashToInt hash fuel c h b) as [s| |] eqn:I; try discriminate. cbn [bind] in E.
  pose proof (C57_int_range hash hash_ok c a h Hs Hh fuel b s I) as Rs.
  pose proof (order_fits c a Hs) as OF. fold n in OF. pose proof (proj1 Fn) as N0.
  pose proof (Z.mod_pos_bound (be2z rb - s * D) (c_N c) ltac:(lia)) as Rt.
  rewrite (padded_val c a Hs s) in E by (fold n; lia). cbn [bind] in E.
  rewrite (padded_val c a Hs) in E by (fold n; lia). cbn [bind] in E. fold n in E.
  set (sb := to_be (Z.to_nat n) s) in *. set (tb := to_be (Z.to_nat n) ((be2z rb - s * D) mod c_N c)) in *.
  assert (Ls : zlen sb = n) by (unfold sb, zlen; rewrite to_be_length; lia).
  assert (Lt : zlen tb = n) by (unfold tb, zlen; rewrite to_be_length; lia).
  pose proof (marshal_len c a Hs _ _ MU) as LU. fold n in LU.
  assert (S1 : slice (sb ++ tb ++ u) 0 (2 * n) = Val (sb ++ tb)).
  { pose proof (slice_app3 _ [] (sb ++ tb) u 0 (2 * n) eq_refl) as Q. cbn [app] in Q. rewrite <- app_assoc in Q.
    apply Q. change (zlen []) with 0. rewrite zlen_app. lia. }
  assert (S3 : slice (sb ++ tb ++ u) (2 * n) (2 * n + 2 * n + 1) = Val u).
  { pose proof (slice_app3 _ (sb ++ tb) u [] (2 * n) (2 * n + 2 * n + 1)) as Q. rewrite app_nil_r, <- app_assoc in Q.
    apply Q; rewrite !zlen_app; lia. }
  rewrite S1 in E. cbn [bind] in E. rewrite S3 in E. cbn [bind] in E.
  assert (u = v /\ sb ++ tb = p) as [-> <-] by (split; congruence).
  exists rb, pkb, H, b, s. auto 10.
Qed.

(** ** The curve operations compute in the group E *)
Variable E : ecgroup.
Notation coords := (@ecoords E).
Notation B := (@eG E).
Hypothesis HN : eN E = c_N c.
Hypothesis sbm_right : forall b, wf_bytes b -> sbm c b = coords (gmul (be2z b) B).
Hypothesis sm_right : forall P b, P <> gO -> wf_bytes b -> sm c (coords P) b = coords (gmul (be2z b) P).
Hypothesis add_right : forall P Q, add c (coords P) (coords Q) = coords (gadd P Q).

(** the coordinates p, possibly unreduced, stand for the group element P *)
Definition stands_for (p : Z * Z) (P : pt (eg E)) : Prop :=
  P <> gO /\ gmul (c_N c) P = gO /\ forall b, wf_bytes b -> sm c p b = coords (gmul (be2z b) P).

Lemma N_prime : prime (c_N c).
Proof. rewrite <- HN. apply eN_prime. Qed.
Lemma NB : gmul (c_N c) B = gO.
Proof. rewrite <- HN. apply eG_order. Qed.

Section Complete.
Hypothesis on_right : forall P, P <> gO -> onCurve c (coords P) = true.
Hypothesis coords_lt : forall P, fst (coords P) < c_P c /\ snd (coords P) < c_P c.

(** C52.  Honest proofs are accepted.  The only other outcome is that the model runs out of fuel,
    which needs less fuel than the prover used, or the square roots of P-224. *)
Theorem C52_completeness : forall fuel fuel' rng rng' r alg alg' D msg vrf nizk,
  0 < D < c_N c -> (pk_X k, pk_Y k) = coords (gmul D B) ->
  (forall rb, r = Ok rb -> wf_bytes rb) ->
  (forall pkb hx hy, sec1_uncompressed n (pk_X k) (pk_Y k) pkb -> to_point (hash h) n c a (pkb ++ msg) hx hy ->
     exists P, stands_for (hx, hy) P) ->
  Vrf fuel rng r (SkEC alg D k) msg = Val (Ok (vrf, nizk)) ->
  Verify fuel' rng' (PkEC alg' k) msg vrf nizk = Val (true, None) \/
  (Verify fuel' rng' (PkEC alg' k) msg vrf nizk = OutOfFuel /\ ((fuel' < fuel)%nat \/ (c = P224 /\ rng' <> rng))).
Proof.
  intros fuel fuel' rng rng' r alg alg' D msg vrf nizk HD PK Wr HP EV.
  destruct (vrf_inv _ _ _ _ _ _ _ _ EV) as (rb & pkb & H & b & s & -> & M & C & MU & T & I & ->).
  specialize (Wr rb eq_refl). pose proof (proj1 Fn) as N0.
  pose proof (order_fits c a Hs) as OF. fold n in OF.
  pose proof (C57_int_range hash hash_ok c a h Hs Hh fuel b s I) as Rs.
  pose proof (Z.mod_pos_bound (be2z rb - s * D) (c_N c) ltac:(lia)) as Rt.
  set (t := (be2z rb - s * D) mod c_N c) in *.
  assert (NN : Z.of_nat (Z.to_nat n) = n) by lia.
  assert (PKnz : gmul D B <> gO).
  { intros Z0. apply (gmul_zero_iff (eg E) (c_N c) D B N_prime NB (eG_nonzero E)) in Z0. rewrite Z.mod_small in Z0; lia. }
  destruct H as [hx hy].
  destruct (HP pkb hx hy) as (P & Pnz & PN & PR).
  { pose proof (proj1 (marshal_iff c a Hs (pk_X k, pk_Y k) pkb ltac:(rewrite PK; apply ecoords_pos) ltac:(rewrite PK; apply ecoords_pos)) M) as Q.
    exact Q. }
  { apply (C57_curve_sound hash hash_ok c a h Hs Hh rng). exact C. }
  assert (BD : be2z (big_bytes D) = D) by (apply be2z_big_bytes; lia).
  assert (EU : sm c (hx, hy) (big_bytes D) = coords (gmul D P)) by (rewrite PR by apply big_bytes_wf; rewrite BD; reflexivity).
  assert (Unz : gmul D P <> gO).
  { intros Z0. apply (gmul_zero_iff (eg E) (c_N c) D P N_prime PN Pnz) in Z0. rewrite Z.mod_small in Z0; lia. }
  rewrite EU in MU.
  assert (W : wf_bytes vrf).
  { unfold Marshal in MU. cbv zeta in MU. destruct (_ && _); [|discriminate].
    assert (EQ : vrf = 4 :: to_be (Z.to_nat (byteLen c)) (fst (coords (gmul D P))) ++ to_be (Z.to_nat (byteLen c)) (snd (coords (gmul D P)))) by congruence.
    rewrite EQ. constructor; [red; lia|]. apply wf_app. split; apply to_be_wf. }
  assert (U : Unmarshal onCurve c vrf = Some (coords (gmul D P))).
  { apply (unmarshal_iff onCurve c a vrf _ Hs W). split; [|split; [apply coords_lt|split; [apply coords_lt|apply on_right; exact Unz]]].
    apply (marshal_iff c a Hs); [apply ecoords_pos|apply ecoords_pos|exact MU]. }
  set (sb := to_be (Z.to_nat n) s) in *. set (tb := to_be (Z.to_nat n) t) in *.
  assert (Ls : zlen sb = n) by (unfold sb, zlen; rewrite to_be_length; lia).
  assert (Lt : zlen tb = n) by (unfold tb, zlen; rewrite to_be_length; lia).
  assert (Wsb : wf_bytes sb) by apply to_be_wf. assert (Wtb : wf_bytes tb) by apply to_be_wf.
  assert (Vs : be2z sb = s) by (apply be2z_to_be_small; rewrite NN; lia).
  assert (Vt : be2z tb = t) by (apply be2z_to_be_small; rewrite NN; lia).
  assert (AB : forall Q : pt (eg E), gmul (c_N c) Q = gO -> gadd (gmul t Q) (gmul s (gmul D Q)) = gmul (be2z rb) Q).
  { intros Q HQ. rewrite <- gmul_mul, <- gmul_add. apply (gmul_cong (eg E) (c_N c)); [lia|exact HQ|].
    unfold t. rewrite Zplus_mod_idemp_l. f_equal. lia. }
  assert (EA : add c (sbm c tb) (sm c (pk_X k, pk_Y k) sb) = sbm c rb).
  { rewrite PK, !sbm_right, sm_right, add_right, Vs, Vt by assumption. f_equal. apply AB. exact NB. }
  assert (EB : add c (sm c (hx, hy) tb) (sm c (coords (gmul D P)) sb) = sm c (hx, hy) rb).
  { rewrite !PR, sm_right, add_right, Vs, Vt by assumption. f_equal. apply AB. exact PN. }
  rewrite (verify_shape hash sha256 sbm sm add onCurve a k h Hs G fuel' rng' alg' msg vrf sb tb);
    [|exact (marshal_len c a Hs _ _ MU)|exact Ls|exact Lt].
  fold c. rewrite U, M. cbn [bind].
  destruct (C57_curve_total hash hash_ok c a h Hs Hh rng' (pkb ++ msg)) as [[q C']|[Q C']]; rewrite C'; cbn [bind].
  2:{ right. split; [reflexivity|]. right. split; [exact Q|]. intros ->. congruence. }
  assert (q = Some (hx, hy)) as -> by (apply (hashToCurve_det hash hash_ok c a h Hs Hh rng' rng (pkb ++ msg)); assumption).
  rewrite EA, EB, T. cbn [bind].
  assert (FIN : forall s', s' = s -> (let* hb := padded c s' in Val (bytes_eqb sb hb, @None string)) = Val (true, None)).
  { intros s' ->. rewrite (padded_val c a Hs s) by (fold n; lia). cbn [bind]. fold n. fold sb. rewrite bytes_eqb_refl. reflexivity. }
  destruct (h2i_vals hash hash_ok c a h n Hs Fn Hh fuel' 0 b) as [[s' I']|I'].
  - left. change (h2i_loop hash fuel' 0 c h b) with (hashToInt hash fuel' c h b) in I'. rewrite I'. cbn [bind].
    apply FIN. apply (to_int_fun hash c h n b); apply (C57_int_exact hash hash_ok c a h Hs Hh); eexists; eassumption.
  - right. change (h2i_loop hash fuel' 0 c h b) with (hashToInt hash fuel' c h b) in I'. rewrite I'. split; [reflexivity|].
    left. destruct (Nat.lt_ge_cases fuel' fuel) as [L|L]; [exact L|exfalso].
    pose proof (h2i_mono fuel fuel' 0 b s L I) as Q. unfold hashToInt in I'. congruence.
Qed.
End Complete.

(** ** C55: special soundness *)
(** two responses to the same commitment with challenges that differ modulo N yield one x that
    is the discrete logarithm of both the public key and the output *)
Theorem C55_special_soundness : forall PK H U sb1 tb1 sb2 tb2 hp,
  stands_for hp H -> PK <> gO -> U <> gO -> gmul (c_N c) PK = gO -> gmul (c_N c) U = gO ->
  wf_bytes sb1 -> wf_bytes tb1 -> wf_bytes sb2 -> wf_bytes tb2 ->
  add c (sbm c tb1) (sm c (coords PK) sb1) = add c (sbm c tb2) (sm c (coords PK) sb2) ->
  add c (sm c hp tb1) (sm c (coords U) sb1) = add c (sm c hp tb2) (sm c (coords U) sb2) ->
  be2z sb1 mod c_N c <> be2z sb2 mod c_N c ->
  exists x, 0 <= x < c_N c /\ PK = gmul x B /\ U = gmul x H.
Proof.
  intros PK H U sb1 tb1 sb2 tb2 hp (Hnz & HNO & HR) Pnz Unz PN UN W1 W2 W3 W4 EA EB NE.
  rewrite !sbm_right, !sm_right, !add_right in EA by assumption. apply ecoords_inj in EA.
  rewrite !HR, !sm_right, !add_right in EB by assumption. apply ecoords_inj in EB.
  set (s1 := be2z sb1) in *. set (t1 := be2z tb1) in *. set (s2 := be2z sb2) in *. set (t2 := be2z tb2) in *.
  pose proof (prime_ge_2 _ N_prime) as N2.
  assert (RP : rel_prime (s2 - s1) (c_N c)).
  { apply rel_prime_sym, prime_rel_prime; [exact N_prime|]. intros [q Q]. apply NE.
    replace s2 with (s1 + q * c_N c) by lia. rewrite Z.mod_add by lia. reflexivity. }
  apply rel_prime_bezout in RP. destruct RP as [u v BZ].
  assert (K : forall Q R : pt (eg E), gmul (c_N c) R = gO -> gmul (c_N c) Q = gO ->
    gadd (gmul t1 Q) (gmul s1 R) = gadd (gmul t2 Q) (gmul s2 R) -> R = gmul ((u * (t1 - t2)) mod c_N c) Q).
  { intros Q R RN QN EQ.
    assert (EQ' : gmul (s2 - s1) R = gmul (t1 - t2) Q).
    { rewrite !gmul_sub. apply gswap. exact EQ. }
    rewrite (gmul_mod (eg E)) by (assumption || lia).
    rewrite gmul_mul, <- EQ', <- gmul_mul. rewrite <- (gmul_1 (eg E) R) at 1. rewrite <- BZ, gmul_add, (gmul_mul (eg E) v), RN, gmul_O, gadd_O. reflexivity. }
  exists ((u * (t1 - t2)) mod c_N c). split; [apply Z.mod_pos_bound; lia|]. split; apply K; try assumption. exact NB.
Qed.
(** hence, for an output that is not the right one, a commitment can be answered for at most one
    challenge *)
Theorem C55_wrong_output_one_challenge : forall D H U sb1 tb1 sb2 tb2 hp,
  stands_for hp H -> gmul D B <> gO -> U <> gO -> gmul (c_N c) U = gO -> U <> gmul D H ->
  wf_bytes sb1 -> wf_bytes tb1 -> wf_bytes sb2 -> wf_bytes tb2 ->
  add c (sbm c tb1) (sm c (coords (gmul D B)) sb1) = add c (sbm c tb2) (sm c (coords (gmul D B)) sb2) ->
  add c (sm c hp tb1) (sm c (coords U) sb1) = add c (sm c hp tb2) (sm c (coords U) sb2) ->
  be2z sb1 mod c_N c = be2z sb2 mod c_N c.
Proof.
  intros D H U sb1 tb1 sb2 tb2 hp SF Pnz Unz UN NU W1 W2 W3 W4 EA EB.
  destruct (Z.eq_dec (be2z sb1 mod c_N c) (be2z sb2 mod c_N c)) as [Q|Q]; [exact Q|exfalso].
  pose proof (prime_ge_2 _ N_prime) as N2.
  destruct (C55_special_soundness (gmul D B) H U sb1 tb1 sb2 tb2 hp) as (x & Rx & EP & EU); try assumption.
  { rewrite gmul_comm, NB, gmul_O. reflexivity. }
  apply NU. rewrite EU. destruct SF as (_ & HNO & _).
  apply (gmul_cong (eg E) (c_N c)); [lia|exact HNO|].
  symmetry. apply (gmul_inj (eg E) (c_N c) D x B N_prime NB (eG_nonzero E)). exact EP.
Qed.

(** ** C56: malleability *)
(** the response counts only modulo N: the verdicts are the same, whatever they are *)
Theorem C56_response_mod_N : forall fuel rng alg msg vrf sb tb tb',
  (forall pkb hx hy, Marshal c (pk_X k, pk_Y k) = Val pkb -> to_point (hash h) n c a (pkb ++ msg) hx hy ->
     exists P, stands_for (hx, hy) P) ->
  wf_bytes tb -> wf_bytes tb' -> zlen vrf = 2 * n + 1 -> zlen sb = n -> zlen tb = n -> zlen tb' = n ->
  be2z tb mod c_N c = be2z tb' mod c_N c ->
  Verify fuel rng (PkEC alg k) msg vrf (sb ++ tb) = Verify fuel rng (PkEC alg k) msg vrf (sb ++ tb').
Proof.
  intros fuel rng alg msg vrf sb tb tb' HP W W' Lv Ls Lt Lt' EM.
  rewrite !(verify_shape hash sha256 sbm sm add onCurve a k h Hs G) by assumption. fold c.
  pose proof (prime_ge_2 _ N_prime) as N2.
  destruct (Unmarshal onCurve c vrf) as [U|]; [|reflexivity].
  destruct (Marshal c (pk_X k, pk_Y k)) as [pkb| |] eqn:M; try reflexivity. cbn [bind].
  destruct (hashToCurve hash rng c h (pkb ++ msg)) as [[[hx hy]|]| |] eqn:C; try reflexivity. cbn [bind].
  destruct (HP pkb hx hy eq_refl) as (P & Pnz & PN & PR).
  { apply (C57_curve_sound hash hash_ok c a h Hs Hh rng). exact C. }
  rewrite !sbm_right, !PR by assumption.
  rewrite (gmul_cong (eg E) (c_N c) (be2z tb) (be2z tb') B) by (assumption || lia || exact NB).
  rewrite (gmul_cong (eg E) (c_N c) (be2z tb) (be2z tb') P) by (assumption || lia). reflexivity.
Qed.
(** so t + N, where it fits, turns an accepted proof into a different accepted proof *)
Theorem C56_malleable : forall fuel rng alg msg vrf sb t,
  (forall pkb hx hy, Marshal c (pk_X k, pk_Y k) = Val pkb -> to_point (hash h) n c a (pkb ++ msg) hx hy ->
     exists P, stands_for (hx, hy) P) ->
  0 <= t -> t + c_N c < 256 ^ n -> zlen vrf = 2 * n + 1 -> zlen sb = n ->
  Verify fuel rng (PkEC alg k) msg vrf (sb ++ to_be (Z.to_nat n) t) = Val (true, None) ->
  Verify fuel rng (PkEC alg k) msg vrf (sb ++ to_be (Z.to_nat n) (t + c_N c)) = Val (true, None) /\
  sb ++ to_be (Z.to_nat n) (t + c_N c) <> sb ++ to_be (Z.to_nat n) t.
Proof.
  intros fuel rng alg msg vrf sb t HP Ht Hf Lv Ls EV.
  pose proof (prime_ge_2 _ N_prime) as N2. pose proof (proj1 Fn) as N0.
  assert (NN : Z.of_nat (Z.to_nat n) = n) by lia.
  assert (V1 : be2z (to_be (Z.to_nat n) t) = t) by (apply be2z_to_be_small; rewrite NN; lia).
  assert (V2 : be2z (to_be (Z.to_nat n) (t + c_N c)) = t + c_N c) by (apply be2z_to_be_small; rewrite NN; lia).
  split.
  - rewrite <- EV. symmetry. apply C56_response_mod_N; try assumption; try apply to_be_wf;
      try (unfold zlen; rewrite to_be_length; exact NN).
    rewrite V1, V2. rewrite <- (Z.mul_1_l (c_N c)) at 2. rewrite Z.mod_add by lia. reflexivity.
  - intros Q. apply app_inv_head in Q. apply (f_equal be2z) in Q. rewrite V1, V2 in Q. lia.
Qed.
End Ops.
Print Assumptions C52_completeness.
Print Assumptions C55_special_soundness.
Print Assumptions C55_wrong_output_one_challenge.
Print Assumptions C56_response_mod_N.
Print Assumptions C56_malleable.
