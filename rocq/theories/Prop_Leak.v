(** * Prop_Leak: property C98, what the random number of a VRF proof gives away (/repo/vrf/vrf_ec.go:99-154), and
    the keys of /repo/ec/key.go:65-87, which are drawn in the same way.
    Nothing is assumed of the methods of the curve. *)
From Coq Require Import ZArith Znumtheory String List Bool Lia.
From Verif Require Import Base BaseFacts Curves ECKey Keypair Generate Spec_EC Spec_Keys Spec_Gen KeyFacts GenFacts ECFacts VRF Spec_VRF VRFFacts VRFFacts2 Prop_VRF Prop_Gen SM2Sig Spec_SM2 Spec_SM3 Prop_Reuse.
From Verif Require Prop_SigWhole Primes3.
Import ListNotations.
Open Scope Z_scope.

(** the two numbers of a proof for curve c: [p] is s and then t, each with the length of a field element *)
Definition numbers (c : curve) (p : bytes) (s t : Z) : Prop :=
  exists sb tb, p = sb ++ tb /\ encodes (byteLen c) s sb /\ encodes (byteLen c) t tb.

Section Leak.
Variable hash : hkind -> bytes -> bytes.
Variable sha256 : bytes -> bytes.
Variable sbm : curve -> bytes -> Z * Z.
Variable sm : curve -> Z * Z -> bytes -> Z * Z.
Hypothesis hash_ok : forall h m, wf_bytes (hash h m) /\ zlen (hash h m) = hSize h.
Notation Vrf := (VRF.Vrf hash sha256 sbm sm).

Lemma to_be_encodes : forall n z, 0 <= n -> 0 <= z < 256 ^ n -> encodes n z (to_be (Z.to_nat n) z).
Proof.
  intros n z N0 Hz. split; [rewrite to_be_length; lia|]. split; [apply to_be_wf|].
  rewrite value_be2z. apply be2z_to_be_small. rewrite Z2Nat.id by exact N0. exact Hz.
Qed.
Lemma numbers_fun : forall c p s t s' t', numbers c p s t -> numbers c p s' t' -> s = s' /\ t = t'.
Proof.
  intros c p s t s' t' (sb & tb & E & (L1 & _ & V1) & (L2 & _ & V2)) (sb' & tb' & E' & (L1' & _ & V1') & (L2' & _ & V2')). rewrite E in E'.
  destruct (Prop_SigWhole.app_inj_len sb sb' tb tb' ltac:(lia) E') as [-> ->]. split; congruence.
Qed.
(** what Vrf puts into a proof *)
Lemma vrf_numbers : forall a fuel rng r alg D k msg v p, supported (pk_curve k) a ->
  Vrf fuel rng (Ok r) (SkEC alg D k) msg = Val (Ok (v, p)) ->
  exists s, 1 <= s <= c_N (pk_curve k) - 1 /\ numbers (pk_curve k) p s ((value r 0 - s * D) mod c_N (pk_curve k)).
Proof.
  intros a fuel rng r alg D k msg v p Hs E. unfold VRF.Vrf in E.
  destruct (getHash (pk_curve k)) as [h|] eqn:G; [|discriminate]. cbv zeta in E.
  unfold Evaluate in E. cbv zeta in E. destruct (negb _); [discriminate|].
  destruct (Marshal (pk_curve k) (pk_X k, pk_Y k)) as [pkb| |] eqn:M; try discriminate. cbn [bind] in E.
  destruct (hashToCurve hash rng (pk_curve k) h (pkb ++ msg)) as [[H|]| |] eqn:C; try discriminate. cbn [bind] in E.
  destruct (Marshal (pk_curve k) (sm (pk_curve k) H (big_bytes D))) as [u| |] eqn:MU; try discriminate. cbn [bind] in E.
  destruct (transcript _ _ _ _ _ _) as [b| |]; try discriminate. cbn [bind] in E.
  destruct (hashToInt hash fuel (pk_curve k) h b) as [s| |] eqn:HI; try discriminate. cbn [bind] in E.
  pose proof (C57_int_range hash hash_ok _ a h Hs (getHash_size _ a _ Hs G) _ _ _ HI) as RS.
  pose proof (order_fits _ a Hs) as [N1 NF]. pose proof (proj1 (field_bytes_byteLen _ a Hs)) as N0.
  set (n := byteLen (pk_curve k)) in *. set (N := c_N (pk_curve k)) in *. rewrite <- value_be2z in E. set (t := (value r 0 - s * D) mod N) in *.
  assert (RT : 0 <= t < N) by (apply Z.mod_pos_bound; lia).
  rewrite (padded_val _ a Hs s), (padded_val _ a Hs t) in E by (fold n; lia). cbn [bind] in E. fold n in E.
  assert (LS : forall z, zlen (to_be (Z.to_nat n) z) = n) by (intros z; unfold zlen; rewrite to_be_length; lia).
  rewrite app_assoc in E.
  assert (S1 : slice ((to_be (Z.to_nat n) s ++ to_be (Z.to_nat n) t) ++ u) 0 (2 * n) = Val (to_be (Z.to_nat n) s ++ to_be (Z.to_nat n) t)).
  { pose proof (slice_app3 _ [] (to_be (Z.to_nat n) s ++ to_be (Z.to_nat n) t) u 0 (2 * n)) as Q. apply Q; [reflexivity|]. rewrite zlen_app, !LS. change (zlen (@nil Z)) with 0. lia. }
  rewrite S1 in E. cbn [bind] in E. destruct (slice _ (2 * n) _) as [w| |]; try discriminate. cbn [bind] in E. injection E as _ <-.
  exists s. split; [exact RS|]. exists (to_be (Z.to_nat n) s), (to_be (Z.to_nat n) t). split; [reflexivity|].
  split; apply to_be_encodes; fold n; lia.
Qed.

(** A proof and the number it was made with determine the private key. *)
Theorem C98_known : forall a fuel rng r alg D k msg v p, supported (pk_curve k) a -> prime (c_N (pk_curve k)) -> 0 <= D < c_N (pk_curve k) ->
  Vrf fuel rng (Ok r) (SkEC alg D k) msg = Val (Ok (v, p)) ->
  exists s t, numbers (pk_curve k) p s t /\ 1 <= s < c_N (pk_curve k) /\ 0 <= t < c_N (pk_curve k) /\ only (c_N (pk_curve k)) s (value r 0 - t) D.
Proof.
  intros a fuel rng r alg D k msg v p Hs P HD E. destruct (vrf_numbers _ _ _ _ _ _ _ _ _ _ Hs E) as (s & RS & NU).
  set (N := c_N (pk_curve k)) in *. assert (N0 : 0 < N) by lia. set (t := (value r 0 - s * D) mod N) in *. exists s, t.
  split; [exact NU|]. split; [lia|]. split; [apply Z.mod_pos_bound; exact N0|].
  apply only_prime; [exact P|exact HD|rewrite Z.mod_small by lia; lia|].
  apply (ex_cong N _ _ (- ((value r 0 - s * D) / N)) N0). unfold t. pose proof (Z.div_mod (value r 0 - s * D) N ltac:(lia)). lia.
Qed.
(** the equation of a proof *)
Lemma vrf_line : forall a fuel rng r alg D k msg v p s t, supported (pk_curve k) a ->
  Vrf fuel rng (Ok r) (SkEC alg D k) msg = Val (Ok (v, p)) -> numbers (pk_curve k) p s t ->
  1 <= s < c_N (pk_curve k) /\ 0 <= t < c_N (pk_curve k) /\ exists q, value r 0 = t + s * D + q * c_N (pk_curve k).
Proof.
  intros a fuel rng r alg D k msg v p s t Hs E NU. destruct (vrf_numbers _ _ _ _ _ _ _ _ _ _ Hs E) as (s0 & RS & NU0).
  destruct (numbers_fun _ _ _ _ _ _ NU NU0) as [-> ->]. split; [lia|]. split; [apply Z.mod_pos_bound; lia|].
  exists ((value r 0 - s0 * D) / c_N (pk_curve k)). pose proof (Z.div_mod (value r 0 - s0 * D) (c_N (pk_curve k)) ltac:(lia)). lia.
Qed.
(** Two proofs with the same key whose numbers are in a known linear relation. *)
Theorem C98_related : forall a fuel rng r alg D k msg v p s t fuel' rng' r' alg' msg' v' p' s' t' x y,
  supported (pk_curve k) a -> prime (c_N (pk_curve k)) -> 0 <= D < c_N (pk_curve k) ->
  Vrf fuel rng (Ok r) (SkEC alg D k) msg = Val (Ok (v, p)) -> numbers (pk_curve k) p s t ->
  Vrf fuel' rng' (Ok r') (SkEC alg' D k) msg' = Val (Ok (v', p')) -> numbers (pk_curve k) p' s' t' ->
  value r' 0 mod c_N (pk_curve k) = (x * value r 0 + y) mod c_N (pk_curve k) ->
  only (c_N (pk_curve k)) (s' - x * s) (x * t + y - t') D \/
  (s' = (x * s) mod c_N (pk_curve k) /\ t' = (x * t + y) mod c_N (pk_curve k)).
Proof.
  intros a fuel rng r alg D k msg v p s t fuel' rng' r' alg' msg' v' p' s' t' x y Hs P HD E NU E' NU' REL.
  destruct (vrf_line _ _ _ _ _ _ _ _ _ _ _ _ Hs E NU) as (RS & RT & q & Q). destruct (vrf_line _ _ _ _ _ _ _ _ _ _ _ _ Hs E' NU') as (RS' & RT' & q' & Q').
  set (N := c_N (pk_curve k)) in *. assert (N0 : 0 < N) by lia. destruct (cong_ex N _ _ N0 REL) as [z Z0]. rewrite Q, Q' in Z0.
  assert (L : D * (s' - x * s) = x * t + y - t' + (x * q + z - q') * N) by lia.
  destruct (Z.eq_dec ((s' - x * s) mod N) 0) as [Z1|NZ].
  - right. apply Z.mod_divide in Z1; [|lia]. destruct Z1 as [w W]. split.
    + rewrite <- (Z.mod_small s' N) by lia. apply (ex_cong N _ _ w N0). lia.
    + rewrite <- (Z.mod_small t' N) by lia. apply (ex_cong N _ _ (x * q + z - q' - D * w) N0). rewrite W in L. nia.
  - left. apply only_prime; [exact P|exact HD|exact NZ|exact (ex_cong N _ _ _ N0 L)].
Qed.
(** The same number twice, for two messages: the private key is the quotient of the differences, unless the two
    proofs are the same. *)
Theorem C98_reuse : forall a fuel rng r alg D k msg v p s t fuel' rng' alg' msg' v' p' s' t',
  supported (pk_curve k) a -> prime (c_N (pk_curve k)) -> 0 <= D < c_N (pk_curve k) ->
  Vrf fuel rng (Ok r) (SkEC alg D k) msg = Val (Ok (v, p)) -> numbers (pk_curve k) p s t ->
  Vrf fuel' rng' (Ok r) (SkEC alg' D k) msg' = Val (Ok (v', p')) -> numbers (pk_curve k) p' s' t' ->
  (s <> s' /\ only (c_N (pk_curve k)) (s' - s) (t - t') D) \/ (s = s' /\ t = t').
Proof.
  intros a fuel rng r alg D k msg v p s t fuel' rng' alg' msg' v' p' s' t' Hs P HD E NU E' NU'.
  destruct (vrf_line _ _ _ _ _ _ _ _ _ _ _ _ Hs E NU) as (RS & RT & q & Q). destruct (vrf_line _ _ _ _ _ _ _ _ _ _ _ _ Hs E' NU') as (RS' & RT' & q' & Q').
  set (N := c_N (pk_curve k)) in *. destruct (Z.eq_dec s s') as [->|NE].
  - right. split; [reflexivity|]. assert (t - t' = (q' - q) * N) by lia. assert (q' - q = 0) by nia. lia.
  - left. split; [exact NE|]. apply only_prime; [exact P|exact HD| |].
    + intros C. apply Z.mod_divide in C; [|lia]. destruct C as [w W]. assert (w = 0) by nia. lia.
    + apply (ex_cong N _ _ (q - q') ltac:(lia)). lia.
Qed.
(** A proof and an SM2 signature with the same key, the nonce of the signature in a known relation to the number of
    the proof. *)
Theorem C98_signature : forall bm fuel rng r alg D k msg v p s t id msg' r' s' kk x y,
  pk_curve k = SM2P256V1 -> 0 <= D < c_N SM2P256V1 ->
  Vrf fuel rng (Ok r) (SkEC alg D k) msg = Val (Ok (v, p)) -> numbers (pk_curve k) p s t ->
  used bm D k id msg' r' s' kk -> kk mod c_N SM2P256V1 = (x * value r 0 + y) mod c_N SM2P256V1 ->
  only (c_N SM2P256V1) (r' + s' - x * s) (x * t + y - s') D \/
  ((r' + s') mod c_N SM2P256V1 = (x * s) mod c_N SM2P256V1 /\ s' mod c_N SM2P256V1 = (x * t + y) mod c_N SM2P256V1).
Proof.
  intros bm fuel rng r alg D k msg v p s t id msg' r' s' kk x y C HD E NU (K & A) REL.
  assert (Hs : exists a, supported (pk_curve k) a) by (rewrite C; eexists; constructor). destruct Hs as [a Hs].
  destruct (vrf_line _ _ _ _ _ _ _ _ _ _ _ _ Hs E NU) as (RS & RT & q & Q). rewrite C in RS, RT, Q.
  destruct (sm2_line _ _ _ _ _ _ A) as [q' Q']. destruct (cong_ex N _ _ N_pos REL) as [z Z0]. rewrite Q in Z0.
  assert (L : D * (r' + s' - x * s) = x * t + y - s' + (x * q + z + q') * N).
  { replace (D * (r' + s' - x * s)) with (D * (r' + s') - x * (s * D)) by ring. rewrite Q', Z0. ring. }
  destruct (Z.eq_dec ((r' + s' - x * s) mod N) 0) as [Z1|NZ].
  - right. apply Z.mod_divide in Z1; [|discriminate]. destruct Z1 as [w W]. split; [apply (ex_cong N _ _ w N_pos); lia|].
    apply (ex_cong N _ _ (x * q + z + q' - D * w) N_pos). rewrite W in L. nia.
  - left. apply only_prime; [exact N_prime|exact HD|exact NZ|exact (ex_cong N _ _ _ N_pos L)].
Qed.

(** ** Keys and numbers drawn by the same function *)
Variable ed_new : bytes -> bytes.
Variable field_element : curve -> bytes -> option Z.
Lemma draw_more : forall N n len l d rest more, first_draw N n len l d rest -> first_draw N n len (l ++ more) d (rest ++ more).
Proof.
  intros N n len l d rest more H. induction H as [ch rs H1 H2|ch mo d rs H1 H2 H3 IH]; rewrite <- app_assoc.
  - apply draw_hit; assumption.
  - apply draw_miss; assumption.
Qed.
(** A random source that delivers for a proof the bytes u from which the key was made: the number of the proof is the
    private key, and the proof alone determines it, D (1 - s) = t. *)
Theorem C98_generated : forall ty l c n len u d more more' f alg D pub pb r x y fuel rng msg v p,
  ty = 18 \/ ty = 19 -> label_of c l -> prime (c_N c) -> bits_of (c_N c) n -> bytes_for n len -> octets (u ++ more) -> octets (u ++ more') ->
  first_draw (c_N c) n len u d [] ->
  GenerateKeyPair sbm ed_new field_element ty (Some l) (u ++ more) = Val (Keys (SkEC alg D pub) pb) ->
  elliptic_gen sbm f c (u ++ more') = Val (Ok (r, x, y)) -> (length (u ++ more') < f)%nat ->
  Vrf fuel rng (Ok r) (SkEC alg D pub) msg = Val (Ok (v, p)) ->
  value r 0 = D /\ exists s t, numbers c p s t /\ (only (c_N c) (1 - s) t D \/ (s = 1 /\ t = 0)).
Proof.
  intros ty l c n len u d more more' f alg D pub pb r x y fuel rng msg v p T LB P NB LY O1 O2 FD G EG LF E.
  destruct (label_supported c l LB) as [a Hs]. assert (L0 : 0 < len) by (unfold bytes_for, bits_of in *; lia).
  destruct (C70_first_draw sbm ed_new field_element ty l c n len (u ++ more) T LB NB LY O1) as [K _].
  apply K in G. destruct G as (d1 & rest & db & x1 & y1 & F1 & EN1 & _ & EQ & _). injection EQ as _ -> ->. clear K.
  destruct (proj1 (draw_fun _ _ _ _ _ _ (draw_more _ _ _ _ _ _ more FD) L0) _ _ F1) as [<- _].
  destruct (gen_total sbm c a n len Hs NB LY f (u ++ more') O2 LF) as [(_ & C)|(d2 & rest2 & db2 & F2 & RD & EN2 & C)]; [rewrite C in EG; discriminate EG|].
  destruct (proj1 (draw_fun _ _ _ _ _ _ (draw_more _ _ _ _ _ _ more' FD) L0) _ _ F2) as [<- _].
  rewrite C in EG. destruct (sbm c db2) as [x2 y2]. injection EG as <- _ _.
  assert (VD : value db2 0 = d) by apply EN2. split; [exact VD|].
  destruct (vrf_numbers a _ _ _ _ _ {| pk_curve := c; pk_X := x1; pk_Y := y1 |} _ _ _ Hs E) as (s & RS & NU). cbn [pk_curve] in RS, NU. rewrite VD in NU.
  set (t := (d - s * d) mod c_N c) in *. exists s, t. split; [exact NU|]. set (N := c_N c) in *. assert (N0 : 0 < N) by lia.
  destruct (Z.eq_dec s 1) as [->|NE].
  - right. split; [reflexivity|]. unfold t. replace (d - 1 * d) with 0 by ring. reflexivity.
  - left. apply only_prime; [exact P|exact RD| |].
    + intros Q. apply Z.mod_divide in Q; [|lia]. destruct Q as [w W]. assert (w = 0) by nia. lia.
    + unfold t. apply (ex_cong N _ _ ((d - s * d) / N) N0). pose proof (Z.div_mod (d - s * d) N ltac:(lia)). lia.
Qed.
End Leak.
Print Assumptions C98_known.
Print Assumptions C98_related.
Print Assumptions C98_reuse.
Print Assumptions C98_signature.
Print Assumptions C98_generated.

(** ** Examples: a hash function with two values for the messages 0 and 1; the methods of the curve do nothing *)
Definition ty : Z := if Z.even Prop_SM2Enc4.G2y then Prop_SM2Enc4.G2y else c_P SM2P256V1 - Prop_SM2Enc4.G2y.
Definition two_hash (h : hkind) (m : bytes) : bytes :=
  to_be (Z.to_nat (hSize h)) (if (200 <? length m)%nat then nth 101 m 0 else if last m 0 =? 0 then c_Gx SM2P256V1 else Prop_SM2Enc4.G2x).
Lemma two_ok : forall h m, wf_bytes (two_hash h m) /\ zlen (two_hash h m) = hSize h.
Proof. intros h m. unfold two_hash. split; [apply to_be_wf|]. unfold zlen. rewrite to_be_length. destruct h; reflexivity. Qed.
Definition e_sbm (c : curve) (b : bytes) : Z * Z := (Prop_SM2Enc4.G2x, Prop_SM2Enc4.G2y).
Definition e_sm (c : curve) (p : Z * Z) (b : bytes) : Z * Z := p.
Notation e_key := Prop_SM2Enc4.pub2.
Definition e_pkb : bytes := 4 :: to_be 32 Prop_SM2Enc4.G2x ++ to_be 32 Prop_SM2Enc4.G2y.
Definition e_H (b : Z) : Z * Z := if b =? 0 then (c_Gx SM2P256V1, c_Gy SM2P256V1) else (Prop_SM2Enc4.G2x, ty).
Lemma two_point : forall b rng, b = 0 \/ b = 1 -> hashToCurve two_hash rng SM2P256V1 HSM3 (e_pkb ++ [b]) = Val (Some (e_H b)).
Proof.
  intros b rng B. destruct (C57_curve_complete two_hash two_ok SM2P256V1 _ HSM3 sup_SM2 eq_refl rng (e_pkb ++ [b]) (fst (e_H b)) (snd (e_H b))) as [Q|[Q _]];
    [|rewrite Q; destruct (e_H b); reflexivity|discriminate Q].
  assert (CA : candidate (two_hash HSM3) (byteLen SM2P256V1) 0 (e_pkb ++ [b]) = fst (e_H b)) by (destruct B as [-> | ->]; vm_compute; reflexivity).
  assert (ON : curve_eq (c_P SM2P256V1) (c_P SM2P256V1 - 3) (c_B SM2P256V1) (fst (e_H b)) (snd (e_H b))) by (destruct B as [-> | ->]; vm_compute; reflexivity).
  rewrite <- CA at 1. apply to_point_first; rewrite ?CA.
  - lia.
  - intros j Hj. lia.
  - eexists. split; [exact ON|intros Q; discriminate Q].
  - exact ON.
  - destruct B as [-> | ->]; vm_compute; split; [discriminate|reflexivity|discriminate|reflexivity].
  - destruct B as [-> | ->]; reflexivity.
Qed.
Lemma two_vrf : forall b rb rng sha, b = 0 \/ b = 1 -> exists v, let s := fst (e_H b) mod 256 + 1 in
  Vrf two_hash sha e_sbm e_sm 1 rng (Ok rb) (SkEC 1 2 e_key) [b] = Val (Ok (v, to_be 32 s ++ to_be 32 ((be2z rb - s * 2) mod c_N SM2P256V1))).
Proof.
  intros b rb rng sha B. cbv zeta. unfold Vrf. change (getHash (pk_curve e_key)) with (Some HSM3). cbv iota beta zeta.
  unfold Evaluate. cbv zeta. change (negb (byteLen (pk_curve e_key) =? hSize HSM3)) with false. cbv iota.
  change (Marshal (pk_curve e_key) (pk_X e_key, pk_Y e_key)) with (Val e_pkb). cbn [bind].
  change (pk_curve e_key) with SM2P256V1. rewrite (two_point b rng B). cbn [bind]. unfold e_sm.
  assert (EM : exists u, Marshal SM2P256V1 (e_H b) = Val u /\ zlen u = 65) by (destruct B as [-> | ->]; eexists; split; reflexivity).
  destruct EM as (u & EM & LU). rewrite EM. cbn [bind].
  assert (ET : exists w, transcript SM2P256V1 (e_H b) (pk_X e_key, pk_Y e_key) u (e_sbm SM2P256V1 rb) (e_H b) = Val w /\
    hashToInt two_hash 1 SM2P256V1 HSM3 w = Val (fst (e_H b) mod 256 + 1)).
  { destruct B as [-> | ->]; injection EM as <-; (eexists; split; [reflexivity|vm_compute; reflexivity]). }
  destruct ET as (w & ET & EI). rewrite ET. cbn [bind]. rewrite EI. cbn [bind].
  assert (S0 : 0 <= fst (e_H b) mod 256 + 1 < 257) by (pose proof (Z.mod_pos_bound (fst (e_H b)) 256 eq_refl); lia).
  set (s := fst (e_H b) mod 256 + 1) in *. clearbody s. set (t := (be2z rb - s * 2) mod c_N SM2P256V1).
  assert (T0 : 0 <= t < c_N SM2P256V1) by (apply Z.mod_pos_bound; reflexivity). clearbody t.
  assert (NF : c_N SM2P256V1 < 256 ^ 32) by reflexivity. assert (F2 : 257 < 256 ^ 32) by reflexivity.
  rewrite (padded_val SM2P256V1 _ sup_SM2 s), (padded_val SM2P256V1 _ sup_SM2 t) by (change (byteLen SM2P256V1) with 32; lia).
  cbn [bind]. change (Z.to_nat (byteLen SM2P256V1)) with 32%nat. change (byteLen SM2P256V1) with 32. rewrite app_assoc.
  assert (LS : zlen (to_be 32 s ++ to_be 32 t) = 64) by (rewrite zlen_app; unfold zlen; rewrite !to_be_length; reflexivity).
  pose proof (slice_app3 _ [] (to_be 32 s ++ to_be 32 t) u 0 (2 * 32)) as Q1. cbn [app] in Q1. rewrite Q1; [|reflexivity|change (zlen (@nil Z)) with 0; lia].
  pose proof (slice_app3 _ (to_be 32 s ++ to_be 32 t) u [] (2 * 32) (2 * 32 + 2 * 32 + 1)) as Q2. rewrite app_nil_r in Q2. rewrite Q2 by lia.
  cbn [bind]. exists u. reflexivity.
Qed.
Lemma two_numbers : forall s t, 0 <= s < 2 ^ 16 -> numbers SM2P256V1 (to_be 32 s ++ to_be 32 (t mod c_N SM2P256V1)) s (t mod c_N SM2P256V1).
Proof.
  intros s t R. assert (F : c_N SM2P256V1 < 256 ^ 32 /\ 2 ^ 16 < 256 ^ 32) by (split; reflexivity). pose proof (Z.mod_pos_bound t (c_N SM2P256V1) eq_refl).
  exists (to_be 32 s), (to_be 32 (t mod c_N SM2P256V1)). split; [reflexivity|]. change (byteLen SM2P256V1) with 32.
  split; apply (to_be_encodes 32); lia.
Qed.
(** two messages, one random number 7: the key 2 from the two proofs *)
Example C98_example : forall rng sha, exists v v' p p' s t s' t',
  Vrf two_hash sha e_sbm e_sm 1 rng (Ok [7]) (SkEC 1 2 e_key) [0] = Val (Ok (v, p)) /\ numbers SM2P256V1 p s t /\
  Vrf two_hash sha e_sbm e_sm 1 rng (Ok [7]) (SkEC 1 2 e_key) [1] = Val (Ok (v', p')) /\ numbers SM2P256V1 p' s' t' /\
  s <> s' /\ only (c_N SM2P256V1) (s' - s) (t - t') 2.
Proof.
  intros rng sha. destruct (two_vrf 0 [7] rng sha (or_introl eq_refl)) as [v E]. destruct (two_vrf 1 [7] rng sha (or_intror eq_refl)) as [v' E']. cbv zeta in E, E'.
  assert (NE : fst (e_H 0) mod 256 + 1 <> fst (e_H 1) mod 256 + 1) by (vm_compute; discriminate).
  assert (R : forall b, 0 <= fst (e_H b) mod 256 + 1 < 2 ^ 16) by (intros b; pose proof (Z.mod_pos_bound (fst (e_H b)) 256 eq_refl); lia).
  pose proof (two_numbers _ (be2z [7] - (fst (e_H 0) mod 256 + 1) * 2) (R 0)) as NU. pose proof (two_numbers _ (be2z [7] - (fst (e_H 1) mod 256 + 1) * 2) (R 1)) as NU'.
  eexists v, v', _, _, _, _, _, _. split; [exact E|]. split; [exact NU|]. split; [exact E'|]. split; [exact NU'|]. split; [exact NE|].
  destruct (C98_reuse two_hash sha e_sbm e_sm two_ok _ 1 rng [7] 1 2 e_key [0] v _ _ _ 1 rng 1 [1] v' _ _ _ sup_SM2 Primes3.prime_c_N_SM2P256V1
    ltac:(split; [discriminate|reflexivity]) E NU E' NU') as [(_ & O1)|(C & _)]; [exact O1|contradiction].
Qed.
(** the key 2 made from 32 bytes, and a proof with the same 32 bytes: the proof alone determines the key *)
Definition e_rand : bytes := to_be 32 (0x42 * 256 ^ 30 + 2).
Example C98_example_generated : forall rng sha ed fe more more', octets more -> octets more' -> exists x y v p s t,
  GenerateKeyPair e_sbm ed fe 19 (Some 20) (e_rand ++ more) = Val (Keys (SkEC 1 2 e_key) (PkEC 1 e_key)) /\
  elliptic_gen e_sbm (S (length (e_rand ++ more'))) SM2P256V1 (e_rand ++ more') = Val (Ok (to_be 32 2, x, y)) /\
  Vrf two_hash sha e_sbm e_sm 1 rng (Ok (to_be 32 2)) (SkEC 1 2 e_key) [0] = Val (Ok (v, p)) /\ numbers SM2P256V1 p s t /\
  only (c_N SM2P256V1) (1 - s) t 2.
Proof.
  intros rng sha ed fe more more' OM OM'.
  assert (B : bits_of (c_N SM2P256V1) 256) by (vm_compute; repeat split; discriminate).
  assert (Y : bytes_for 256 32) by (vm_compute; repeat split; discriminate).
  assert (LB : label_of SM2P256V1 20) by (do 5 right; split; reflexivity).
  assert (ES : scalar 256 32 e_rand = 2) by (vm_compute; reflexivity).
  assert (FD : forall m, first_draw (c_N SM2P256V1) 256 32 (e_rand ++ m) 2 m) by (intros m; rewrite <- ES; apply draw_hit; [reflexivity|rewrite ES; reflexivity]).
  assert (OR : forall m, octets m -> octets (e_rand ++ m)) by (intros m H; apply Forall_app; split; [apply to_be_wf|exact H]).
  assert (E5 : encodes 32 2 (to_be 32 2)) by (apply (to_be_encodes 32); [discriminate|split; [discriminate|reflexivity]]).
  assert (G : GenerateKeyPair e_sbm ed fe 19 (Some 20) (e_rand ++ more) = Val (Keys (SkEC 1 2 e_key) (PkEC 1 e_key))).
  { apply (proj1 (C70_first_draw e_sbm ed fe 19 20 SM2P256V1 256 32 (e_rand ++ more) (or_intror eq_refl) LB B Y (OR _ OM))).
    exists 2, more, (to_be 32 2), Prop_SM2Enc4.G2x, Prop_SM2Enc4.G2y. split; [apply FD|]. split; [exact E5|]. repeat split. }
  assert (G2 : elliptic_gen e_sbm (S (length (e_rand ++ more'))) SM2P256V1 (e_rand ++ more') = Val (Ok (to_be 32 2, Prop_SM2Enc4.G2x, Prop_SM2Enc4.G2y))).
  { destruct (gen_total e_sbm SM2P256V1 _ 256 32 sup_SM2 B Y (S (length (e_rand ++ more'))) (e_rand ++ more') (OR _ OM') ltac:(lia)) as [(C & _)|(d & rest & db & F & _ & EN & C)].
    - destruct (draw_fun _ _ _ _ _ _ (FD more') ltac:(lia)) as [_ NO]. contradiction.
    - destruct (proj1 (draw_fun _ _ _ _ _ _ (FD more') ltac:(lia)) _ _ F) as [<- _]. rewrite C, (encodes_fun _ _ _ EN). reflexivity. }
  destruct (two_vrf 0 (to_be 32 2) rng sha (or_introl eq_refl)) as [v E]. cbv zeta in E.
  assert (R : 0 <= fst (e_H 0) mod 256 + 1 < 2 ^ 16) by (pose proof (Z.mod_pos_bound (fst (e_H 0)) 256 eq_refl); lia).
  pose proof (two_numbers _ (be2z (to_be 32 2) - (fst (e_H 0) mod 256 + 1) * 2) R) as NU.
  eexists _, _, v, _, _, _. split; [exact G|]. split; [exact G2|]. split; [exact E|]. split; [exact NU|].
  pose proof (FD []) as F0. rewrite app_nil_r in F0.
  destruct (C98_generated two_hash sha e_sbm e_sm two_ok ed fe 19 20 SM2P256V1 256 32 e_rand 2 more more' _ 1 2 e_key _ _ _ _ 1 rng [0] v _
    (or_intror eq_refl) LB Primes3.prime_c_N_SM2P256V1 B Y (OR _ OM) (OR _ OM') F0 G G2 (Nat.lt_succ_diag_r _) E) as (_ & s & t & NU2 & [O1|(C & _)]).
  - destruct (numbers_fun _ _ _ _ _ _ NU NU2) as [<- <-]. exact O1.
  - exfalso. destruct (numbers_fun _ _ _ _ _ _ NU NU2) as [ES2 _]. rewrite C in ES2. vm_compute in ES2. discriminate ES2.
Qed.
(** the numbers 7 and 16 = 2 * 7 + 2 *)
Example C98_example_related : forall rng sha, exists v v' p p' s t s' t',
  Vrf two_hash sha e_sbm e_sm 1 rng (Ok [7]) (SkEC 1 2 e_key) [0] = Val (Ok (v, p)) /\ numbers SM2P256V1 p s t /\
  Vrf two_hash sha e_sbm e_sm 1 rng (Ok [16]) (SkEC 1 2 e_key) [1] = Val (Ok (v', p')) /\ numbers SM2P256V1 p' s' t' /\
  only (c_N SM2P256V1) (s' - 2 * s) (2 * t + 2 - t') 2.
Proof.
  intros rng sha. destruct (two_vrf 0 [7] rng sha (or_introl eq_refl)) as [v E]. destruct (two_vrf 1 [16] rng sha (or_intror eq_refl)) as [v' E']. cbv zeta in E, E'.
  assert (NE : fst (e_H 1) mod 256 + 1 <> (2 * (fst (e_H 0) mod 256 + 1)) mod c_N SM2P256V1) by (vm_compute; discriminate).
  assert (R : forall b, 0 <= fst (e_H b) mod 256 + 1 < 2 ^ 16) by (intros b; pose proof (Z.mod_pos_bound (fst (e_H b)) 256 eq_refl); lia).
  pose proof (two_numbers _ (be2z [7] - (fst (e_H 0) mod 256 + 1) * 2) (R 0)) as NU. pose proof (two_numbers _ (be2z [16] - (fst (e_H 1) mod 256 + 1) * 2) (R 1)) as NU'.
  eexists v, v', _, _, _, _, _, _. split; [exact E|]. split; [exact NU|]. split; [exact E'|]. split; [exact NU'|].
  destruct (C98_related two_hash sha e_sbm e_sm two_ok _ 1 rng [7] 1 2 e_key [0] v _ _ _ 1 rng [16] 1 [1] v' _ _ _ 2 2 sup_SM2 Primes3.prime_c_N_SM2P256V1
    ltac:(split; [discriminate|reflexivity]) E NU E' NU' eq_refl) as [O1|(C & _)]; [exact O1|contradiction].
Qed.
(** a proof with the number 1 and one of two signatures with the nonce 1, by the same key *)
Example C98_example_signature : forall rng sha, exists m v p s t r' s', 
  Vrf two_hash sha e_sbm e_sm 1 rng (Ok [1]) (SkEC 1 2 e_key) [0] = Val (Ok (v, p)) /\ numbers SM2P256V1 p s t /\
  ex_sign [104; m] = Val (Ok (r', s')) /\ only (c_N SM2P256V1) (r' + s' - 1 * s) (1 * t + 0 - s') 2.
Proof.
  intros rng sha. destruct (two_vrf 0 [1] rng sha (or_introl eq_refl)) as [v E]. cbv zeta in E.
  assert (R : 0 <= fst (e_H 0) mod 256 + 1 < 2 ^ 16) by (pose proof (Z.mod_pos_bound (fst (e_H 0)) 256 eq_refl); lia).
  pose proof (two_numbers _ (be2z [1] - (fst (e_H 0) mod 256 + 1) * 2) R) as NU.
  set (s := fst (e_H 0) mod 256 + 1) in *. clearbody s. set (t := (be2z [1] - s * 2) mod c_N SM2P256V1) in *. clearbody t.
  destruct (ex_signs 105 (or_introl eq_refl)) as (r1 & s1 & S1). destruct (ex_signs 106 (or_intror eq_refl)) as (r2 & s2 & S2).
  pose proof (ex_used 105 r1 s1 (or_introl eq_refl) S1) as U1. pose proof (ex_used 106 r2 s2 (or_intror eq_refl) S2) as U2.
  assert (K : 0 <= 2 < c_N SM2P256V1) by (split; [discriminate|reflexivity]).
  destruct (C98_signature two_hash sha e_sbm e_sm two_ok _ 1 rng [1] 1 2 e_key [0] v _ s t [] _ r1 s1 1 1 0 eq_refl K E NU U1 eq_refl) as [O1|(A1 & B1)].
  { exists 105, v, (to_be 32 s ++ to_be 32 t), s, t, r1, s1. auto. }
  destruct (C98_signature two_hash sha e_sbm e_sm two_ok _ 1 rng [1] 1 2 e_key [0] v _ s t [] _ r2 s2 1 1 0 eq_refl K E NU U2 eq_refl) as [O2|(A2 & B2)].
  { exists 106, v, (to_be 32 s ++ to_be 32 t), s, t, r2, s2. auto. }
  exfalso. destruct (C97_reuse _ 2 e_key [] _ r1 s1 e_key [] _ r2 s2 1 K U1 U2) as [(_ & L)|(_ & _ & C)]; [|destruct (ex_differ C)].
  assert (D0 : (r2 + s2 - (r1 + s1)) mod c_N SM2P256V1 = 0) by (rewrite Zminus_mod, A1, A2, Z.sub_diag; reflexivity).
  assert (D1 : (s1 - s2) mod c_N SM2P256V1 = 0) by (rewrite Zminus_mod, B1, B2, Z.sub_diag; reflexivity).
  assert (X : 3 = 2); [|discriminate X]. apply (L 3); [split; [discriminate|reflexivity]|]. rewrite D1, <- Z.mul_mod_idemp_r, D0 by discriminate. reflexivity.
Qed.
