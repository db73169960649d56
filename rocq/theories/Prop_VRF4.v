(** * Prop_VRF4: property C72, the verifiable random function on the SM2 curve with the multiplications of
    /repo/sm2/p256_amd64.go (/repo/vrf/vrf.go, /repo/vrf/vrf_ec.go) *)
From Coq Require Import ZArith Znumtheory String List Bool Lia.
From Verif Require Import Base BaseFacts Curves ECKey Keypair NumTheory Primes1 Primes3 Spec_EC ECFacts ECFacts2 Prop_EC Spec_Group CurveSM2
  VRF Spec_VRF VRFFacts VRFFacts2 Prop_VRF Prop_VRF2
  P256 Spec_P256 Spec_P256b P256Booth P256Sched Prop_P256b Prop_P256c P256Point P256PointFacts Prop_P256d
  AsmVal AsmEq Spec_AsmClean AsmFix AsmSim AsmWit Prop_Asm2 SM2Enc SM2EncFacts Prop_SM2Enc4.
Import ListNotations.
Open Scope Z_scope.

Notation SM2 := SM2P256V1.
Definition a_SM2 : Z := 0xFFFFFFFEFFFFFFFFFFFFFFFFFFFFFFFFFFFFFFFF00000000FFFFFFFFFFFFFFFC.
Lemma curve_eq_on : forall x y, curve_eq (c_P SM2) a_SM2 (c_B SM2) x y <-> on_sm2 x y.
Proof.
  intros x y. unfold curve_eq, on_sm2. rewrite <- (Z.mod_divide _ cP) by discriminate.
  assert (E : (x * x * x + a_SM2 * x + c_B SM2) mod cP = (x * x * x - 3 * x + c_B SM2) mod cP).
  { replace (x * x * x + a_SM2 * x + c_B SM2) with (x * x * x - 3 * x + c_B SM2 + x * cP).
    - apply Z.mod_add. discriminate.
    - replace a_SM2 with (cP - 3) by reflexivity. ring. }
  rewrite E. split; intros H.
  - rewrite Zminus_mod, H, Z.sub_diag. reflexivity.
  - replace (y * y) with ((y * y - (x * x * x - 3 * x + c_B SM2)) + (x * x * x - 3 * x + c_B SM2)) by ring.
    rewrite Zplus_mod, H, Z.add_0_l, Z.mod_mod by discriminate. reflexivity.
Qed.
Lemma origin_off : ~ on_sm2 0 0.
Proof. unfold on_sm2. rewrite <- (Z.mod_divide _ cP) by discriminate. intros C. vm_compute in C. discriminate C. Qed.

Lemma firstn_exact : forall n (a b : bytes), length a = n -> firstn n (a ++ b) = a.
Proof. intros n a b L. rewrite firstn_app, L, Nat.sub_diag, <- L, firstn_all. apply app_nil_r. Qed.
Lemma skipn_exact : forall n (a b : bytes), length a = n -> skipn n (a ++ b) = b.
Proof. intros n a b L. rewrite skipn_app, L, Nat.sub_diag, <- L, skipn_all. reflexivity. Qed.
Section Ops.
Variable hash : hkind -> bytes -> bytes.
Hypothesis hash_ok : forall h m, wf_bytes (hash h m) /\ zlen (hash h m) = hSize h.
Variable sha256 : bytes -> bytes.
Variable sbm : curve -> bytes -> Z * Z.
Variable sm : curve -> Z * Z -> bytes -> Z * Z.
(** Add and IsOnCurve of elliptic.CurveParams, right on points of the curve and the pair (0, 0) *)
Variable add : curve -> Z * Z -> Z * Z -> Z * Z.
Variable onCurve : curve -> Z * Z -> bool.
Notation co := (@ecoords sm2_E).
Notation G := (@eG sm2_E).
Hypothesis add_right : forall P Q, add SM2 (co P) (co Q) = co (gadd P Q).
Hypothesis on_right : forall x y, 0 <= x < cP -> 0 <= y < cP -> (onCurve SM2 (x, y) = true <-> on_sm2 x y).
Notation Vrf := (Vrf hash sha256 sbm sm).
Notation Verify := (Verify hash sha256 sbm sm add onCurve).
Variable k : ecpub.
Hypothesis Hc : pk_curve k = SM2.
Lemma Hs : supported (pk_curve k) a_SM2. Proof. rewrite Hc. exact sup_SM2. Qed.
Lemma GH : getHash (pk_curve k) = Some HSM3. Proof. rewrite Hc. reflexivity. Qed.
Lemma co_range : forall P : pt (eg sm2_E), 0 <= fst (co P) < cP /\ 0 <= snd (co P) < cP.
Proof.
  intros P. exact (CurveZ.acoords_range qP prime_c_P_SM2P256V1 sm2_odd (-3) qB sm2_disc (proj1_sig P)).
Qed.
Lemma fits : forall P : pt (eg sm2_E), fst (co P) < 256 ^ byteLen SM2 /\ snd (co P) < 256 ^ byteLen SM2.
Proof. intros P. destruct (co_range P) as [H1 H2]. assert (cP < 256 ^ byteLen SM2) by reflexivity. lia. Qed.

(** the converse of vrf_inv: the intermediate values determine the result *)
Lemma vrf_forward : forall fuel rng rb alg D msg pkb H v b s, Marshal SM2 (pk_X k, pk_Y k) = Val pkb ->
  hashToCurve hash rng SM2 HSM3 (pkb ++ msg) = Val (Some H) -> Marshal SM2 (sm SM2 H (big_bytes D)) = Val v ->
  transcript SM2 H (pk_X k, pk_Y k) v (sbm SM2 rb) (sm SM2 H rb) = Val b -> hashToInt hash fuel SM2 HSM3 b = Val s ->
  Vrf fuel rng (Ok rb) (SkEC alg D k) msg = Val (Ok (v, to_be 32 s ++ to_be 32 ((be2z rb - s * D) mod cN))).
Proof.
  intros fuel rng rb alg D msg pkb H v b s M C MU T I. unfold VRF.Vrf. rewrite GH. cbv zeta. unfold Evaluate. cbv zeta. rewrite Hc.
  change (byteLen SM2 =? hSize HSM3) with true. cbn [negb]. rewrite M. cbn [bind]. rewrite C. cbn [bind]. rewrite MU. cbn [bind]. rewrite T. cbn [bind]. rewrite I. cbn [bind].
  pose proof (C57_int_range hash hash_ok SM2 a_SM2 HSM3 sup_SM2 eq_refl fuel b s I) as Rs.
  pose proof (Z.mod_pos_bound (be2z rb - s * D) (c_N SM2) ltac:(reflexivity)) as Rt.
  assert (NB32 : cN < 256 ^ byteLen SM2) by reflexivity.
  rewrite !(padded_val SM2 a_SM2 sup_SM2) by lia. cbn [bind]. change (Z.to_nat (byteLen SM2)) with 32%nat.
  set (sb := to_be 32 s). set (tb := to_be 32 ((be2z rb - s * D) mod cN)).
  assert (Ls : zlen sb = 32) by (unfold sb, zlen; rewrite to_be_length; reflexivity).
  assert (Lt : zlen tb = 32) by (unfold tb, zlen; rewrite to_be_length; reflexivity).
  pose proof (marshal_len SM2 a_SM2 sup_SM2 _ _ MU) as LU. change (2 * byteLen SM2 + 1) with 65 in LU.
  change (2 * byteLen SM2 + 2 * byteLen SM2 + 1) with 129. change (2 * byteLen SM2) with 64.
  assert (S1 : slice (sb ++ tb ++ v) 0 64 = Val (sb ++ tb)).
  { pose proof (slice_app3 _ [] (sb ++ tb) v 0 64 eq_refl) as Q. cbn [app] in Q. rewrite <- app_assoc in Q.
    apply Q. change (zlen []) with 0. rewrite zlen_app. lia. }
  assert (S3 : slice (sb ++ tb ++ v) 64 129 = Val v).
  { pose proof (slice_app3 _ (sb ++ tb) v [] 64 129) as Q. rewrite app_nil_r, <- app_assoc in Q.
    apply Q; rewrite !zlen_app; lia. }
  rewrite S1. cbn [bind]. rewrite S3. reflexivity.
Qed.
Lemma transcript_iff : forall H pk v A B b, 0 <= fst H -> 0 <= snd H -> 0 <= fst pk -> 0 <= snd pk -> 0 <= fst A -> 0 <= snd A -> 0 <= fst B -> 0 <= snd B ->
  (transcript SM2 H pk v A B = Val b <-> exists gb hb pb ab bb, sec1_uncompressed 32 (c_Gx SM2) (c_Gy SM2) gb /\ sec1_uncompressed 32 (fst H) (snd H) hb /\
    sec1_uncompressed 32 (fst pk) (snd pk) pb /\ sec1_uncompressed 32 (fst A) (snd A) ab /\ sec1_uncompressed 32 (fst B) (snd B) bb /\ b = gb ++ hb ++ pb ++ v ++ ab ++ bb).
Proof.
  intros H pk v A B b h1 h2 p1 p2 a1 a2 b1 b2.
  pose proof (fun e => marshal_iff SM2 a_SM2 sup_SM2 (c_Gx SM2, c_Gy SM2) e ltac:(discriminate) ltac:(discriminate)) as QG.
  pose proof (fun e => marshal_iff SM2 a_SM2 sup_SM2 H e h1 h2) as QH. pose proof (fun e => marshal_iff SM2 a_SM2 sup_SM2 pk e p1 p2) as QP.
  pose proof (fun e => marshal_iff SM2 a_SM2 sup_SM2 A e a1 a2) as QA. pose proof (fun e => marshal_iff SM2 a_SM2 sup_SM2 B e b1 b2) as QB.
  change (byteLen SM2) with 32 in *. unfold transcript. split.
  - intros E. destruct (Marshal SM2 (c_Gx SM2, c_Gy SM2)) as [gb| |] eqn:EG; try discriminate. cbn [bind] in E.
    destruct (Marshal SM2 H) as [hb| |] eqn:EH; try discriminate. cbn [bind] in E.
    destruct (Marshal SM2 pk) as [pb| |] eqn:EP; try discriminate. cbn [bind] in E.
    destruct (Marshal SM2 A) as [ab| |] eqn:EA; try discriminate. cbn [bind] in E.
    destruct (Marshal SM2 B) as [bb| |] eqn:EB; try discriminate. cbn [bind] in E.
    exists gb, hb, pb, ab, bb. rewrite <- QH, <- QP, <- QA, <- QB.
    split; [apply (QG gb); reflexivity|]. repeat (split; [reflexivity|]). congruence.
  - intros (gb & hb & pb & ab & bb & EG & EH & EP & EA & EB & ->). apply QH in EH. apply QP in EP. apply QA in EA. apply QB in EB.
    pose proof (proj2 (QG gb) EG) as EG'. rewrite EG'. cbn [bind]. rewrite EH. cbn [bind]. rewrite EP. cbn [bind]. rewrite EA. cbn [bind]. rewrite EB. reflexivity.
Qed.
(** the multiplications that proving and verifying make, for the hashed point hp standing for P, the
    random scalar rb and the proof sb ++ tb *)
Definition calls_right (D : Z) (hp : Z * Z) (P : pt (eg sm2_E)) (rb sb tb : bytes) : Prop :=
  sbm SM2 rb = co (gmul (be2z rb) G) /\ sbm SM2 tb = co (gmul (be2z tb) G) /\
  sm SM2 hp (big_bytes D) = co (gmul D P) /\ sm SM2 hp rb = co (gmul (be2z rb) P) /\
  sm SM2 hp tb = co (gmul (be2z tb) P) /\ sm SM2 (co (gmul D G)) sb = co (gmul (be2z sb) (gmul D G)) /\
  sm SM2 (co (gmul D P)) sb = co (gmul (be2z sb) (gmul D P)).
Lemma completeness_core : forall fuel fuel' rng rng' rb alg alg' D msg vrf nizk,
  0 < D < cN -> (pk_X k, pk_Y k) = co (gmul D G) -> wf_bytes rb ->
  (forall pkb hx hy, sec1_uncompressed 32 (pk_X k) (pk_Y k) pkb -> to_point (hash HSM3) 32 SM2 a_SM2 (pkb ++ msg) hx hy ->
     exists P, P <> gO /\ calls_right D (hx, hy) P rb (firstn 32 nizk) (skipn 32 nizk)) ->
  Vrf fuel rng (Ok rb) (SkEC alg D k) msg = Val (Ok (vrf, nizk)) ->
  Verify fuel' rng' (PkEC alg' k) msg vrf nizk = Val (true, None) \/
  (Verify fuel' rng' (PkEC alg' k) msg vrf nizk = OutOfFuel /\ (fuel' < fuel)%nat).
Proof.
  intros fuel fuel' rng rng' rb0 alg alg' D msg vrf nizk HD PK Wr HP EV.
  destruct (vrf_inv hash hash_ok sha256 sbm sm a_SM2 k HSM3 Hs GH _ _ _ _ _ _ _ _ EV) as (rb & pkb & H & b & s & Er & M & C & MU & T & I & EN).
  assert (rb0 = rb) as -> by congruence. clear Er.
  revert EV M C MU T I EN. generalize (eq_refl (pk_curve k)). rewrite Hc. intros _ EV M C MU T I EN.
  pose proof (C57_int_range hash hash_ok SM2 a_SM2 HSM3 sup_SM2 eq_refl fuel b s I) as Rs.
  pose proof (Z.mod_pos_bound (be2z rb - s * D) (c_N SM2) ltac:(reflexivity)) as Rt.
  set (t := (be2z rb - s * D) mod c_N SM2) in *.
  change (Z.to_nat (byteLen SM2)) with 32%nat in EN.
  set (sb := to_be 32 s) in *. set (tb := to_be 32 t) in *.
  assert (Fn : firstn 32 nizk = sb) by (rewrite EN; exact (firstn_exact 32 sb tb (to_be_length 32 s))).
  assert (Sn : skipn 32 nizk = tb) by (rewrite EN; exact (skipn_exact 32 sb tb (to_be_length 32 s))).
  assert (NB32 : cN < 256 ^ 32) by reflexivity.
  assert (Vs : be2z sb = s) by (apply be2z_to_be_small; change (Z.of_nat 32) with 32; lia).
  assert (Vt : be2z tb = t) by (apply be2z_to_be_small; change (Z.of_nat 32) with 32; lia).
  destruct H as [hx hy].
  destruct (HP pkb hx hy) as (P & Pnz & R1 & R2 & R3 & R4 & R5 & R6 & R7).
  { exact (proj1 (marshal_iff SM2 a_SM2 sup_SM2 (pk_X k, pk_Y k) pkb ltac:(rewrite PK; apply co_range) ltac:(rewrite PK; apply co_range)) M). }
  { apply (C57_curve_sound hash hash_ok SM2 a_SM2 HSM3 sup_SM2 eq_refl rng). exact C. }
  rewrite Fn, Sn, Vs, Vt in *.
  assert (PN := killed P).
  assert (Unz : gmul D P <> gO).
  { apply gmul_nonzero; [exact Pnz|]. rewrite Z.mod_small; lia. }
  rewrite R3 in MU.
  assert (W : wf_bytes vrf).
  { unfold Marshal in MU. cbv zeta in MU. destruct (_ && _); [|discriminate].
    assert (VI : forall u v : bytes, Val u = Val v -> u = v) by congruence. rewrite <- (VI _ _ MU). constructor; [red; lia|]. apply wf_app. split; apply to_be_wf. }
  assert (U : Unmarshal onCurve SM2 vrf = Some (co (gmul D P))).
  { apply (unmarshal_iff onCurve SM2 a_SM2 vrf _ sup_SM2 W). destruct (co_range (gmul D P)) as [RX RY].
    split; [|split; [apply RX|split; [apply RY|]]].
    - apply (marshal_iff SM2 a_SM2 sup_SM2); [apply RX|apply RY|exact MU].
    - rewrite (surjective_pairing (co (gmul D P))). apply on_right; [exact RX|exact RY|]. exact (on_of_at _ _ _ (eat_coords _ Unz)). }
  assert (Ls : zlen sb = 32) by (unfold sb, zlen; rewrite to_be_length; reflexivity).
  assert (Lt : zlen tb = 32) by (unfold tb, zlen; rewrite to_be_length; reflexivity).
  assert (AB : forall Q : pt (eg sm2_E), gadd (gmul t Q) (gmul s (gmul D Q)) = gmul (be2z rb) Q).
  { intros Q. rewrite <- gmul_mul, <- gmul_add. apply (gmul_cong (eg sm2_E) cN); [reflexivity|apply killed|].
    unfold t. rewrite Zplus_mod_idemp_l. f_equal. lia. }
  pose proof (verify_shape hash sha256 sbm sm add onCurve a_SM2 k HSM3 Hs GH fuel' rng' alg' msg vrf sb tb) as VS.
  rewrite Hc in VS. rewrite EN, VS; [|exact (marshal_len SM2 a_SM2 sup_SM2 _ _ MU)|exact Ls|exact Lt].
  rewrite U, M. cbn [bind].
  destruct (C57_curve_total hash hash_ok SM2 a_SM2 HSM3 sup_SM2 eq_refl rng' (pkb ++ msg)) as [[q C']|[Q C']]; [|discriminate Q].
  rewrite C'. cbn [bind].
  assert (q = Some (hx, hy)) as -> by (apply (hashToCurve_det hash hash_ok SM2 a_SM2 HSM3 sup_SM2 eq_refl rng' rng (pkb ++ msg)); assumption).
  rewrite PK, R2, R5, R6, R7, !add_right, !AB. rewrite PK, R1, R4 in T. rewrite T. cbn [bind].
  destruct (h2i_vals hash hash_ok SM2 a_SM2 HSM3 32 sup_SM2 (field_bytes_byteLen SM2 a_SM2 sup_SM2) eq_refl fuel' 0 b) as [[s' I']|I'].
  - left. change (h2i_loop hash fuel' 0 SM2 HSM3 b) with (hashToInt hash fuel' SM2 HSM3 b) in I'. rewrite I'. cbn [bind].
    assert (s' = s) as -> by (apply (to_int_fun hash SM2 HSM3 32 b); apply (C57_int_exact hash hash_ok SM2 a_SM2 HSM3 sup_SM2 eq_refl); eexists; eassumption).
    rewrite (padded_val SM2 a_SM2 sup_SM2 s) by (change (byteLen SM2) with 32; lia). cbn [bind].
    change (Z.to_nat (byteLen SM2)) with 32%nat. fold sb. rewrite bytes_eqb_refl. reflexivity.
  - right. change (h2i_loop hash fuel' 0 SM2 HSM3 b) with (hashToInt hash fuel' SM2 HSM3 b) in I'. rewrite I'. split; [reflexivity|].
    destruct (Nat.lt_ge_cases fuel' fuel) as [L|L]; [exact L|exfalso].
    pose proof (h2i_mono hash hash_ok a_SM2 k HSM3 Hs GH fuel fuel' 0 b s L) as Q. rewrite Hc in Q. specialize (Q I). unfold hashToInt in I'. congruence.
Qed.
End Ops.

Section Curve.
Variable hash : hkind -> bytes -> bytes.
Hypothesis hash_ok : forall h m, wf_bytes (hash h m) /\ zlen (hash h m) = hSize h.
Variable sha256 : bytes -> bytes.
Variable sbm : curve -> bytes -> Z * Z.
Variable sm : curve -> Z * Z -> bytes -> Z * Z.
Variable add : curve -> Z * Z -> Z * Z -> Z * Z.
Variable onCurve : curve -> Z * Z -> bool.
Notation co := (@ecoords sm2_E).
Notation G := (@eG sm2_E).
Hypothesis add_right : forall P Q, add SM2 (co P) (co Q) = co (gadd P Q).
Hypothesis on_right : forall x y, 0 <= x < cP -> 0 <= y < cP -> (onCurve SM2 (x, y) = true <-> on_sm2 x y).
Notation Vrf := (Vrf hash sha256 sbm sm).
Notation Verify := (Verify hash sha256 sbm sm add onCurve).

(** any multiplications that are right except for the scalar N - 6, where they give (0, 0): the ones of
    p256_amd64.go with correct assembly routines (C61) *)
Variable A : prims.
Hypothesis OK : prims_ok sm2_E A.
Hypothesis sbm_is : forall b, sbm SM2 b = asm_sbm A b.
Hypothesis sm_is : forall p b, sm SM2 p b = asm_sm A (fst p) (snd p) b.
Lemma sbm_val : forall b, wf_bytes b -> sbm SM2 b = co (gmul (be2z b) G).
Proof. intros b W. rewrite sbm_is. unfold asm_sbm. rewrite (C61_base sm2_E A OK sm2_coords_ok sm2_E_N sm2_E_G b W). reflexivity. Qed.
Lemma sm_val : forall x y b, wf_bytes b -> 0 <= x -> 0 <= y -> on_sm2 x y -> exists P : pt (eg sm2_E), P <> gO /\ co P = (x mod cP, y mod cP) /\
  forall b, wf_bytes b -> sm SM2 (x, y) b = if be2z b mod cN =? cN - 6 then (0, 0) else co (gmul (be2z b) P).
Proof.
  intros x y _ _ X0 Y0 O. destruct (sm2_point x y O) as [P AT]. exists P. split; [exact (eat_not_O P x y AT)|]. split; [exact (eat_of P x y AT)|].
  intros b W. rewrite sm_is. cbn [fst snd]. unfold asm_sm.
  rewrite (C61_scalar sm2_E A OK sm2_coords_ok b x y P W (eat_not_O P x y AT) (killed P) X0 Y0 (eat_of P x y AT)). reflexivity.
Qed.
Lemma sm_co : forall (P : pt (eg sm2_E)) b, P <> gO -> wf_bytes b -> sm SM2 (co P) b = if be2z b mod cN =? cN - 6 then (0, 0) else co (gmul (be2z b) P).
Proof.
  intros P b NP W. destruct (co_range P) as [RX RY]. pose proof (eat_coords P NP) as AT. rewrite sm_is. unfold asm_sm.
  rewrite (C61_scalar sm2_E A OK sm2_coords_ok b _ _ P W NP (killed P) (proj1 RX) (proj1 RY) (eat_of P _ _ AT)). reflexivity.
Qed.
Variable k : ecpub.
Hypothesis Hc : pk_curve k = SM2.
Lemma hashed_point : forall m hx hy, to_point (hash HSM3) 32 SM2 a_SM2 m hx hy -> 0 <= hx /\ 0 <= hy /\ on_sm2 hx hy.
Proof.
  intros m hx hy H. destruct H as [i y Hi _ _ E Ry _]. split; [|split; [lia|apply curve_eq_on; exact E]].
  unfold candidate. rewrite value_be2z. apply be2z_bound. apply wf_firstn. apply hash_ok.
Qed.

(** ** Completeness: honest proofs are accepted, if D, the random scalar and the two halves of the proof are
    not N - 6.  The other outcome is that the model runs out of fuel, with less fuel than the prover had. *)
Theorem C72_completeness : forall fuel fuel' rng rng' rb alg alg' D msg vrf nizk,
  0 < D < cN -> (pk_X k, pk_Y k) = co (gmul D G) -> wf_bytes rb ->
  D <> cN - 6 -> be2z rb mod cN <> cN - 6 -> be2z (firstn 32 nizk) <> cN - 6 -> be2z (skipn 32 nizk) <> cN - 6 ->
  Vrf fuel rng (Ok rb) (SkEC alg D k) msg = Val (Ok (vrf, nizk)) ->
  Verify fuel' rng' (PkEC alg' k) msg vrf nizk = Val (true, None) \/
  (Verify fuel' rng' (PkEC alg' k) msg vrf nizk = OutOfFuel /\ (fuel' < fuel)%nat).
Proof.
  intros fuel fuel' rng rng' rb alg alg' D msg vrf nizk HD PK Wr D6 R6 S6 T6 EV.
  apply (completeness_core hash hash_ok sha256 sbm sm add onCurve add_right on_right k Hc fuel fuel' rng rng' rb alg alg' D msg vrf nizk HD PK Wr); [|exact EV].
  destruct (vrf_inv hash hash_ok sha256 sbm sm a_SM2 k HSM3 (Hs k Hc) (GH k Hc) _ _ _ _ _ _ _ _ EV) as (rb' & pkb' & H' & b' & s & _ & _ & _ & _ & _ & I & EN).
  rewrite Hc in I, EN.
  pose proof (C57_int_range hash hash_ok SM2 a_SM2 HSM3 sup_SM2 eq_refl fuel b' s I) as Rs.
  pose proof (Z.mod_pos_bound (be2z rb' - s * D) (c_N SM2) ltac:(reflexivity)) as Rt.
  set (t := (be2z rb' - s * D) mod c_N SM2) in *. change (Z.to_nat (byteLen SM2)) with 32%nat in EN.
  rewrite EN in *. rewrite (firstn_exact 32 (to_be 32 s)) in * by apply to_be_length. rewrite (skipn_exact 32 (to_be 32 s)) in * by apply to_be_length.
  assert (NB32 : cN < 256 ^ 32) by reflexivity.
  rewrite be2z_to_be_small in S6, T6 by (change (Z.of_nat 32) with 32; lia).
  intros pkb hx hy _ TP. destruct (hashed_point _ _ _ TP) as (X0 & Y0 & O). destruct (sm_val hx hy [] (Forall_nil _) X0 Y0 O) as (P & NP & _ & SV).
  exists P. split; [exact NP|].
  assert (ND : gmul D G <> gO) by (apply gmul_G_nonzero; rewrite Z.mod_small; lia).
  assert (NDP : gmul D P <> gO) by (apply gmul_nonzero; [exact NP|rewrite Z.mod_small; lia]).
  unfold calls_right. rewrite !sbm_val by (assumption || apply to_be_wf). rewrite !SV by (assumption || apply to_be_wf || apply big_bytes_wf).
  rewrite !sm_co by (assumption || apply to_be_wf). rewrite be2z_big_bytes by lia. rewrite !be2z_to_be_small by (change (Z.of_nat 32) with 32; lia).
  rewrite (Z.mod_small D), (Z.mod_small s), (Z.mod_small t) by lia.
  destruct (Z.eqb_spec D (cN - 6)); [contradiction|]. destruct (Z.eqb_spec s (cN - 6)); [contradiction|].
  destruct (Z.eqb_spec t (cN - 6)); [contradiction|]. destruct (Z.eqb_spec (be2z rb mod cN) (cN - 6)); [contradiction|].
  repeat split; reflexivity.
Qed.
(** ** What is computed: with H the point hashed from the public key and the message, D H and the proof
    (s, r - s D) where s is hashed from the base point, H, the key, the output, r G and r H *)
Theorem C72_exact : forall rng rb alg D msg vrf nizk,
  0 < D < cN -> 0 <= pk_X k -> 0 <= pk_Y k -> wf_bytes rb -> D <> cN - 6 -> be2z rb mod cN <> cN - 6 ->
  let r := be2z rb in
  ((exists fuel, Vrf fuel rng (Ok rb) (SkEC alg D k) msg = Val (Ok (vrf, nizk))) <->
   exists pkb hx hy (P : pt (eg sm2_E)) gb hb ab bb s,
     sec1_uncompressed 32 (pk_X k) (pk_Y k) pkb /\ to_point (hash HSM3) 32 SM2 a_SM2 (pkb ++ msg) hx hy /\
     P <> gO /\ co P = (hx mod cP, hy mod cP) /\ sec1_uncompressed 32 (fst (co (gmul D P))) (snd (co (gmul D P))) vrf /\
     sec1_uncompressed 32 (c_Gx SM2) (c_Gy SM2) gb /\ sec1_uncompressed 32 hx hy hb /\
     sec1_uncompressed 32 (fst (co (gmul r G))) (snd (co (gmul r G))) ab /\ sec1_uncompressed 32 (fst (co (gmul r P))) (snd (co (gmul r P))) bb /\
     to_int (hash HSM3) 32 cN (gb ++ hb ++ pkb ++ vrf ++ ab ++ bb) s /\
     nizk = to_be 32 s ++ to_be 32 ((r - s * D) mod cN)).
Proof.
  intros rng rb alg D msg vrf nizk HD KX KY Wr D6 R6 r.
  assert (MK := fun e => marshal_iff SM2 a_SM2 sup_SM2 (pk_X k, pk_Y k) e KX KY).
  assert (MC := fun (Q : pt (eg sm2_E)) e => marshal_iff SM2 a_SM2 sup_SM2 (co Q) e (proj1 (proj1 (co_range Q))) (proj1 (proj2 (co_range Q)))).
  change (byteLen SM2) with 32 in MK, MC. cbn [fst snd] in MK.
  assert (SV6 : forall P : pt (eg sm2_E), (if D mod cN =? cN - 6 then (0, 0) else co (gmul D P)) = co (gmul D P) /\
      (if be2z rb mod cN =? cN - 6 then (0, 0) else co (gmul (be2z rb) P)) = co (gmul r P)).
  { intros P. rewrite (Z.mod_small D) by lia. destruct (Z.eqb_spec D (cN - 6)); [contradiction|].
    destruct (Z.eqb_spec (be2z rb mod cN) (cN - 6)); [contradiction|]. split; reflexivity. }
  split.
  - intros [fuel EV].
    destruct (vrf_inv hash hash_ok sha256 sbm sm a_SM2 k HSM3 (Hs k Hc) (GH k Hc) _ _ _ _ _ _ _ _ EV) as (rb' & pkb & H & b & s & Er & M & C & MU & T & I & EN).
    assert (rb = rb') as <- by congruence. clear Er. rewrite Hc in M, C, MU, T, I, EN. destruct H as [hx hy].
    assert (TP : to_point (hash HSM3) 32 SM2 a_SM2 (pkb ++ msg) hx hy) by (apply (C57_curve_sound hash hash_ok SM2 a_SM2 HSM3 sup_SM2 eq_refl rng); exact C).
    destruct (hashed_point _ _ _ TP) as (X0 & Y0 & O). destruct (sm_val hx hy [] (Forall_nil _) X0 Y0 O) as (P & NP & CP & SV).
    rewrite SV in MU by apply big_bytes_wf. rewrite be2z_big_bytes, (proj1 (SV6 P)) in MU by lia.
    rewrite sbm_val, SV, (proj2 (SV6 P)) in T by assumption. fold r in T.
    apply transcript_iff in T; try assumption; try apply co_range. destruct T as (gb & hb & pb & ab & bb & T1 & T2 & T3 & T4 & T5 & ->).
    assert (pb = pkb) as -> by (apply MK in T3; congruence).
    exists pkb, hx, hy, P, gb, hb, ab, bb, s. split; [apply MK; exact M|]. split; [exact TP|]. split; [exact NP|]. split; [exact CP|].
    split; [apply MC; exact MU|]. split; [exact T1|]. split; [exact T2|]. split; [exact T4|]. split; [exact T5|].
    split; [|exact EN]. apply (C57_int_exact hash hash_ok SM2 a_SM2 HSM3 sup_SM2 eq_refl). exists fuel. exact I.
  - intros (pkb & hx & hy & P & gb & hb & ab & bb & s & EK & TP & NP & CP & EU & E1 & E2 & E3 & E4 & EI & ->).
    apply (C57_int_exact hash hash_ok SM2 a_SM2 HSM3 sup_SM2 eq_refl) in EI. destruct EI as [fuel I]. exists fuel.
    destruct (hashed_point _ _ _ TP) as (X0 & Y0 & O). destruct (sm_val hx hy [] (Forall_nil _) X0 Y0 O) as (P' & NP' & CP' & SV).
    assert (P' = P) as -> by (apply (ecoords_inj sm2_E); congruence).
    apply (vrf_forward hash hash_ok sha256 sbm sm k Hc fuel rng rb alg D msg pkb (hx, hy) vrf (gb ++ hb ++ pkb ++ vrf ++ ab ++ bb) s); [apply MK; exact EK| | | |exact I].
    + destruct (C57_curve_complete hash hash_ok SM2 a_SM2 HSM3 sup_SM2 eq_refl rng (pkb ++ msg) hx hy TP) as [Q|[Q _]]; [exact Q|discriminate Q].
    + rewrite SV by apply big_bytes_wf. rewrite be2z_big_bytes, (proj1 (SV6 P)) by lia. apply MC. exact EU.
    + rewrite sbm_val, SV, (proj2 (SV6 P)) by assumption. apply transcript_iff; try assumption; try apply co_range.
      exists gb, hb, pkb, ab, bb. auto 8.
Qed.
(** ** The key N - 6: the output is the same 65 bytes for every message, and no proof of it is accepted,
    for any key on this curve *)
Theorem C72_weak_key : forall fuel rng rb alg msg vrf nizk,
  Vrf fuel rng (Ok rb) (SkEC alg (cN - 6) k) msg = Val (Ok (vrf, nizk)) ->
  vrf = 4 :: repeat 0 64 /\
  forall fuel' rng' alg' k' msg' nizk', pk_curve k' = SM2 -> Verify fuel' rng' (PkEC alg' k') msg' vrf nizk' = Val (false, None).
Proof.
  intros fuel rng rb0 alg msg vrf nizk EV.
  destruct (vrf_inv hash hash_ok sha256 sbm sm a_SM2 k HSM3 (Hs k Hc) (GH k Hc) _ _ _ _ _ _ _ _ EV) as (rb & pkb & H & b & s & _ & M & C & MU & _).
  rewrite Hc in M, C, MU. destruct H as [hx hy].
  assert (TP : to_point (hash HSM3) 32 SM2 a_SM2 (pkb ++ msg) hx hy) by (apply (C57_curve_sound hash hash_ok SM2 a_SM2 HSM3 sup_SM2 eq_refl rng); exact C).
  destruct (hashed_point _ _ _ TP) as (X0 & Y0 & O). destruct (sm_val hx hy [] (Forall_nil _) X0 Y0 O) as (P & NP & _ & SV).
  rewrite SV in MU by apply big_bytes_wf. rewrite be2z_big_bytes in MU by discriminate.
  change ((cN - 6) mod cN =? cN - 6) with true in MU. cbv iota in MU.
  assert (V : vrf = 4 :: repeat 0 64).
  { assert (Q : Val (4 :: repeat 0 64) = Val vrf) by (rewrite <- MU; vm_compute; reflexivity). congruence. }
  split; [exact V|]. intros fuel' rng' alg' k' msg' nizk' Hc'. unfold VRF.Verify. rewrite (GH k' Hc'). cbv zeta. rewrite Hc'.
  destruct (negb (zlen vrf =? byteLen SM2 * 2 + 1) || negb (zlen nizk' =? byteLen SM2 * 2)) eqn:L; [reflexivity|].
  apply orb_false_iff in L as [_ L]. apply negb_false_iff, Z.eqb_eq in L. change (byteLen SM2 * 2) with 64 in L.
  assert (U : Unmarshal onCurve SM2 vrf = None).
  { rewrite V. unfold Unmarshal. change (zlen (4 :: repeat 0 64) =? 1 + 2 * byteLen SM2) with true. change (nth 0 (4 :: repeat 0 64) 0 =? 4) with true.
    cbn [negb]. change (be2z (firstn (Z.to_nat (byteLen SM2)) (skipn 1 (4 :: repeat 0 64)))) with 0.
    change (be2z (skipn (Z.to_nat (1 + byteLen SM2)) (4 :: repeat 0 64))) with 0. change ((0 >=? c_P SM2) || (0 >=? c_P SM2)) with false. cbv iota zeta.
    destruct (onCurve SM2 (0, 0)) eqn:ON; [|reflexivity]. exfalso. apply origin_off. apply on_right; [split; [discriminate|reflexivity]|split; [discriminate|reflexivity]|exact ON]. }
  pose proof (verify_shape hash sha256 sbm sm add onCurve a_SM2 k' HSM3 (Hs k' Hc') (GH k' Hc') fuel' rng' alg' msg' vrf (firstn 32 nizk') (skipn 32 nizk')) as VS.
  rewrite Hc', firstn_skipn, U in VS. unfold VRF.Verify in VS. rewrite (GH k' Hc') in VS. cbv zeta in VS. rewrite Hc' in VS.
  assert (L0 : negb (zlen vrf =? byteLen SM2 * 2 + 1) || negb (zlen nizk' =? byteLen SM2 * 2) = false) by (rewrite V, L; reflexivity).
  rewrite L0 in VS. apply VS.
  - rewrite V. reflexivity.
  - unfold zlen in *. rewrite firstn_length. change (byteLen SM2) with 32. lia.
  - unfold zlen in *. rewrite skipn_length. change (byteLen SM2) with 32. lia.
Qed.
End Curve.

(** ** Examples: a hash function with constant value, the abscissa of the base point *)
Definition const_hash (h : hkind) (m : bytes) : bytes := to_be (Z.to_nat (hSize h)) (c_Gx SM2).
Lemma const_ok : forall h m, wf_bytes (const_hash h m) /\ zlen (const_hash h m) = hSize h.
Proof. intros h m. unfold const_hash. split; [apply to_be_wf|]. unfold zlen. rewrite to_be_length. destruct h; reflexivity. Qed.
Definition ex_sbm (c : curve) (b : bytes) : Z * Z := asm_sbm exact_prims b.
Definition ex_sm (c : curve) (p : Z * Z) (b : bytes) : Z * Z := asm_sm exact_prims (fst p) (snd p) b.
Definition ex_on (c : curve) (p : Z * Z) : bool := IsOnCurve (fst p) (snd p).
Lemma const_candidate : forall i m, candidate (const_hash HSM3) 32 i m = c_Gx SM2.
Proof. intros i m. unfold candidate. generalize (counter i ++ m). intros l. vm_compute. reflexivity. Qed.
Lemma const_point : forall m, to_point (const_hash HSM3) 32 SM2 a_SM2 m (c_Gx SM2) (c_Gy SM2).
Proof.
  intros m. assert (ON : curve_eq (c_P SM2) a_SM2 (c_B SM2) (c_Gx SM2) (c_Gy SM2)) by (apply curve_eq_on; apply C63_constants).
  rewrite <- (const_candidate 0 m) at 1. apply to_point_first with (i := 0); rewrite ?const_candidate.
  - lia.
  - intros j Hj. lia.
  - exists (c_Gy SM2). split; [exact ON|intros Q; discriminate Q].
  - exact ON.
  - split; [discriminate|reflexivity].
  - reflexivity.
Qed.
Lemma const_int : forall m, to_int (const_hash HSM3) 32 cN m (c_Gx SM2 + 1).
Proof.
  intros m. rewrite <- (const_candidate 0 m). apply to_int_first; [lia|intros j Hj; lia|]. rewrite const_candidate. reflexivity.
Qed.
Lemma enc_exists : forall x y, 0 <= x < 256 ^ 32 -> 0 <= y < 256 ^ 32 -> sec1_uncompressed 32 x y (4 :: to_be 32 x ++ to_be 32 y).
Proof.
  intros x y Hx Hy. exists (to_be 32 x), (to_be 32 y).
  assert (E : forall z, 0 <= z < 256 ^ 32 -> encodes 32 z (to_be 32 z)).
  { intros z Hz. split; [rewrite to_be_length; reflexivity|]. split; [apply to_be_wf|]. rewrite value_be2z. apply be2z_to_be_small. exact Hz. }
  split; [apply E, Hx|]. split; [apply E, Hy|reflexivity].
Qed.
Definition enc_pair (p : Z * Z) : bytes := 4 :: to_be 32 (fst p) ++ to_be 32 (snd p).
Lemma enc_co : forall P : pt (eg sm2_E), sec1_uncompressed 32 (fst (ecoords P)) (snd (ecoords P)) (enc_pair (ecoords P)).
Proof. intros P. destruct (co_range P) as [RX RY]. assert (cP < 256 ^ 32) by reflexivity. apply enc_exists; lia. Qed.
Definition proof2 : bytes := to_be 32 (c_Gx SM2 + 1) ++ to_be 32 ((1 - (c_Gx SM2 + 1) * 2) mod cN).
Example C72_example : forall sha256 add rng rng' msg, (forall P Q : pt (eg sm2_E), add SM2 (ecoords P) (ecoords Q) = ecoords (gadd P Q)) ->
  exists fuel, Vrf const_hash sha256 ex_sbm ex_sm fuel rng (Ok [1]) (SkEC 1 2 pub2) msg = Val (Ok (enc_pair (G2x, G2y), proof2)) /\
    Verify const_hash sha256 ex_sbm ex_sm add ex_on fuel rng' (PkEC 1 pub2) msg (enc_pair (G2x, G2y)) proof2 = Val (true, None).
Proof.
  intros sha256 add rng rng' msg AR.
  assert (W1 : wf_bytes [1]) by (repeat constructor; lia).
  pose proof (C72_exact const_hash const_ok sha256 ex_sbm ex_sm exact_prims exact_prims_ok (fun _ => eq_refl) (fun _ _ => eq_refl) pub2 eq_refl
    rng [1] 1 2 msg (enc_pair (G2x, G2y)) proof2 ltac:(split; reflexivity) ltac:(discriminate) ltac:(discriminate) W1 ltac:(discriminate) ltac:(discriminate)) as X.
  change (be2z [1]) with 1 in X. cbv zeta in X.
  pose proof (enc_co (gmul 2 (eG (e := sm2_E)))) as E2. rewrite coords_2G in E2.
  pose proof (enc_co (eG (e := sm2_E))) as E1. rewrite sm2_E_G in E1.
  destruct (proj2 X) as [fuel EV].
  - exists (enc_pair (G2x, G2y)), (c_Gx SM2), (c_Gy SM2), (eG (e := sm2_E)), (enc_pair (c_Gx SM2, c_Gy SM2)), (enc_pair (c_Gx SM2, c_Gy SM2)),
      (enc_pair (c_Gx SM2, c_Gy SM2)), (enc_pair (c_Gx SM2, c_Gy SM2)), (c_Gx SM2 + 1).
    rewrite coords_2G, gmul_1, sm2_E_G. split; [exact E2|]. split; [apply const_point|]. split; [apply eG_nonzero|]. split; [reflexivity|].
    split; [exact E2|]. split; [exact E1|]. split; [exact E1|]. split; [exact E1|]. split; [exact E1|]. split; [apply const_int|reflexivity].
  - exists fuel. split; [exact EV|].
    assert (PK : (pk_X pub2, pk_Y pub2) = ecoords (gmul 2 (eG (e := sm2_E)))) by (rewrite coords_2G; reflexivity).
    assert (S6 : be2z (firstn 32 proof2) <> cN - 6) by (vm_compute; discriminate).
    assert (T6 : be2z (skipn 32 proof2) <> cN - 6) by (vm_compute; discriminate).
    destruct (C72_completeness const_hash const_ok sha256 ex_sbm ex_sm add ex_on AR (fun x y _ _ => IsOnCurve_ok x y) exact_prims exact_prims_ok (fun _ => eq_refl) (fun _ _ => eq_refl)
      pub2 eq_refl fuel fuel rng rng' [1] 1 1 2 msg (enc_pair (G2x, G2y)) proof2 ltac:(split; reflexivity) PK W1 ltac:(discriminate) ltac:(discriminate) S6 T6 EV) as [V|[_ L]]; [exact V|lia].
Qed.
(** the key N - 6 with its public key *)
Definition pub_of (Q : pt (eg sm2_E)) : ecpub := {| pk_curve := SM2; pk_X := fst (ecoords Q); pk_Y := snd (ecoords Q) |}.
Lemma weak_runs : forall Q sha256 rng msg, exists fuel nizk,
  Vrf const_hash sha256 ex_sbm ex_sm fuel rng (Ok [1]) (SkEC 1 (cN - 6) (pub_of Q)) msg = Val (Ok (4 :: repeat 0 64, nizk)).
Proof.
  intros Q0 sha256 rng msg. set (pub_weak := pub_of Q0). destruct (co_range Q0) as [RX RY].
  assert (HC : pk_curve pub_weak = SM2) by reflexivity.
  change (fst (ecoords Q0)) with (pk_X pub_weak) in RX. change (snd (ecoords Q0)) with (pk_Y pub_weak) in RY. clearbody pub_weak.
  assert (W1 : wf_bytes [1]) by (repeat constructor; lia). assert (PB : cP < 256 ^ 32) by reflexivity.
  assert (EE : sec1_uncompressed 32 (pk_X pub_weak) (pk_Y pub_weak) (4 :: to_be 32 (pk_X pub_weak) ++ to_be 32 (pk_Y pub_weak))) by (apply enc_exists; lia).
  pose proof (proj2 (marshal_iff SM2 a_SM2 sup_SM2 (pk_X pub_weak, pk_Y pub_weak) _ (proj1 RX) (proj1 RY)) EE) as M.
  cbn [fst snd] in M. set (pkb := 4 :: to_be 32 (pk_X pub_weak) ++ to_be 32 (pk_Y pub_weak)) in M.
  assert (C : hashToCurve const_hash rng SM2 HSM3 (pkb ++ msg) = Val (Some (c_Gx SM2, c_Gy SM2))).
  { destruct (C57_curve_complete const_hash const_ok SM2 a_SM2 HSM3 sup_SM2 eq_refl rng (pkb ++ msg) _ _ (const_point _)) as [Q|[Q _]]; [exact Q|discriminate Q]. }
  assert (SC : forall b, wf_bytes b -> ex_sm SM2 (c_Gx SM2, c_Gy SM2) b = if be2z b mod cN =? cN - 6 then (0, 0) else ecoords (gmul (be2z b) (eG (e := sm2_E)))).
  { intros b W. rewrite <- sm2_E_G. apply (sm_co ex_sm exact_prims exact_prims_ok (fun _ _ => eq_refl) (eG (e := sm2_E)) b (eG_nonzero sm2_E) W). }
  assert (MU : Marshal SM2 (ex_sm SM2 (c_Gx SM2, c_Gy SM2) (big_bytes (cN - 6))) = Val (4 :: repeat 0 64)).
  { rewrite SC by apply big_bytes_wf. rewrite be2z_big_bytes by discriminate. change ((cN - 6) mod cN =? cN - 6) with true. cbv iota. reflexivity. }
  pose proof (enc_co (eG (e := sm2_E))) as E1. rewrite sm2_E_G in E1.
  assert (T : exists b, transcript SM2 (c_Gx SM2, c_Gy SM2) (pk_X pub_weak, pk_Y pub_weak) (4 :: repeat 0 64) (ex_sbm SM2 [1]) (ex_sm SM2 (c_Gx SM2, c_Gy SM2) [1]) = Val b).
  { rewrite SC by exact W1. change (be2z [1] mod cN =? cN - 6) with false. cbv iota. change (be2z [1]) with 1.
    rewrite (sbm_val ex_sbm exact_prims exact_prims_ok (fun _ => eq_refl) [1] W1). change (be2z [1]) with 1. rewrite gmul_1, sm2_E_G.
    set (ge := enc_pair (c_Gx SM2, c_Gy SM2)) in *. exists (ge ++ ge ++ pkb ++ (4 :: repeat 0 64) ++ ge ++ ge).
    assert (GX : 0 <= c_Gx SM2) by discriminate. assert (GY : 0 <= c_Gy SM2) by discriminate.
    apply transcript_iff; try assumption; try apply RX; try apply RY.
    exists ge, ge, pkb, ge, ge.
    split; [exact E1|]. split; [exact E1|]. split; [exact EE|]. split; [exact E1|]. split; [exact E1|reflexivity]. }
  destruct T as [b T].
  destruct (proj2 (C57_int_exact const_hash const_ok SM2 a_SM2 HSM3 sup_SM2 eq_refl b _) (const_int b)) as [fuel I].
  exists fuel. eexists. exact (vrf_forward const_hash const_ok sha256 ex_sbm ex_sm pub_weak HC fuel rng [1] 1 (cN - 6) msg pkb _ _ b _ M C MU T I).
Qed.
Example C72_weak_key_example : forall sha256 rng msg, exists fuel nizk,
  Vrf const_hash sha256 ex_sbm ex_sm fuel rng (Ok [1]) (SkEC 1 (cN - 6) (pub_of (gmul (cN - 6) eG))) msg = Val (Ok (4 :: repeat 0 64, nizk)).
Proof. intros. apply weak_runs. Qed.
Print Assumptions C72_completeness.
Print Assumptions C72_exact.
Print Assumptions C72_weak_key.
