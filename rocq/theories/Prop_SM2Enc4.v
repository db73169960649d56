(** * Prop_SM2Enc4: property C71, SM2 encryption on the SM2 curve with the multiplications of the package
    (/repo/sm2/encryption.go with /repo/sm2/p256_amd64.go) *)
From Coq Require Import ZArith Znumtheory String List Bool Lia.
From Verif Require Import Base BaseFacts Curves ECKey SM3 Spec_SM3 SM3Facts SM3Hist NumTheory Primes1 Primes3 Spec_Group CurveSM2 SM2Sig Spec_EC ECFacts Spec_SM2
  SM2Enc Spec_SM2Enc SM2EncFacts Prop_Keys Prop_SM2 Prop_SM2b Prop_SM2Enc Prop_SM2Enc2 Prop_SM2Enc3
  P256 Spec_P256 Spec_P256b P256Booth P256Sched Prop_P256b Prop_P256c P256Point P256PointFacts Prop_P256d AsmVal AsmEq Spec_AsmClean AsmFix AsmSim AsmWit Prop_Asm2.
Import ListNotations.
Open Scope Z_scope.

(** ScalarMult (p256_amd64.go:301-322) as a function, and IsOnCurve of elliptic.CurveParams *)
Definition asm_sm (A : prims) (x y : Z) (k : bytes) : Z * Z := match ScalarMult A x y k with Val r => r | _ => (0, 0) end.
Definition IsOnCurve (x y : Z) : bool :=
  (y * y) mod cP =? (x * x * x - 3 * x + c_B SM2P256V1) mod cP.
Lemma IsOnCurve_ok : forall x y, IsOnCurve x y = true <-> on_sm2 x y.
Proof.
  intros x y. unfold IsOnCurve, on_sm2. rewrite Z.eqb_eq. split; intros H.
  - apply Z.mod_divide; [discriminate|]. rewrite Zminus_mod, H, Z.sub_diag. reflexivity.
  - apply Z.mod_divide in H; [|discriminate].
    replace (y * y) with ((y * y - (x * x * x - 3 * x + c_B SM2P256V1)) + (x * x * x - 3 * x + c_B SM2P256V1)) by ring.
    rewrite Zplus_mod, H, Z.add_0_l, Z.mod_mod by discriminate. reflexivity.
Qed.

(** the key derived from the coordinates (0, 0), which anybody can compute; its first byte is not zero *)
Definition public_key_stream (n : nat) : bytes := kdf (repeat 0 64) n.
Lemma public_stream_nonzero : forall n, (0 < n)%nat -> ~ all_zero (firstn 64 (public_key_stream n)).
Proof.
  intros n Hn. destruct n as [|n]; [lia|]. unfold public_key_stream, kdf, kdf_stream.
  change (seq 1 (S n)) with (1%nat :: seq 2 n). cbn [flat_map].
  set (h := sm3_hash (repeat 0 64 ++ to_be 4 (Z.of_nat 1))).
  assert (E : exists t, h = 252 :: t) by (eexists; vm_compute; reflexivity).
  destruct E as [t ->]. rewrite <- app_comm_cons. cbn [firstn]. intros C. inversion C. discriminate.
Qed.
Lemma nonce_range : forall rd i, 1 <= nonce cN rd i <= cN - 2.
Proof.
  intros rd i. unfold nonce. match goal with |- context [?a mod (cN - 2)] => pose proof (Z.mod_pos_bound a (cN - 2) ltac:(reflexivity)) end. lia.
Qed.

Lemma gmul_G_nonzero : forall k, k mod cN <> 0 -> gmul k (eG (e := sm2_E)) <> gO.
Proof.
  intros k H C. apply H. exact (proj1 (gmul_zero_iff _ cN k (eG (e := sm2_E)) prime_c_N_SM2P256V1 (killed _) (eG_nonzero sm2_E)) C).
Qed.
Lemma gmul_nonzero : forall k (P : pt (eg sm2_E)), P <> gO -> k mod cN <> 0 -> gmul k P <> gO.
Proof.
  intros k P NP H C. apply H. exact (proj1 (gmul_zero_iff _ cN k P prime_c_N_SM2P256V1 (killed _) NP) C).
Qed.
Lemma small_mod : forall k, 1 <= k < cN -> k mod cN = k.
Proof. intros k H. apply Z.mod_small. lia. Qed.

Section Ops.
Variable sha512 : bytes -> bytes.
Variable aes : bytes -> bytes -> bytes.
Variable onCurve : Z -> Z -> bool.
Hypothesis sha_len : forall m, length (sha512 m) = 64%nat.
Hypothesis aes_len : forall key c, length c = 16%nat -> length (aes key c) = 16%nat.
Variable sbm : bytes -> Z * Z.
Variable sm : Z -> Z -> bytes -> Z * Z.
Hypothesis sbm_range : forall b, in32 (sbm b).
Hypothesis sm_range : forall x y b, in32 (sm x y b).
Notation G := (@eG sm2_E).
Notation co := (@ecoords sm2_E).
(** the round trip from correct multiplications *)
Lemma roundtrip_ops : forall fuel ent pub data D xb, pk_curve pub = SM2P256V1 -> minimal (pk_X pub) xb ->
  1 <= D < cN -> (pk_X pub, pk_Y pub) = co (gmul D G) -> octets data -> Z.of_nat (length data) < 2 ^ 60 ->
  let k := nonce cN (aes (enc_key sha512 ent data xb)) 0 in
  let S := co (gmul (k * D) G) in
  ops_right sbm sm onCurve sm2_E D k -> ~ all_zero (firstn 64 (kdf (shared (fst S) (snd S)) (length data))) ->
  exists c, Encrypt sha512 aes sbm sm (Datatypes.S fuel) (Ok ent) pub data = Val (Ok c) /\ length c = (96 + length data)%nat /\
    forall spare, Decrypt sm onCurve SM2P256V1 D c spare = Val (Some data, None).
Proof.
  intros fuel ent pub data D xb Hc Hxb HD HC Hd Ld k S OP HK.
  assert (ND : gmul D G <> gO) by (apply gmul_G_nonzero; rewrite small_mod by exact HD; lia).
  assert (HX : 0 <= pk_X pub) by (pose proof (ecoords_pos sm2_E (gmul D G)) as [B _]; rewrite <- HC in B; exact B).
  assert (HXY : ~ (pk_X pub = 0 /\ pk_Y pub = 0)).
  { intros [B C]. apply ND. apply (ecoords_inj sm2_E). rewrite <- HC, (ecoords_O sm2_E), B, C. reflexivity. }
  assert (SE : sm (pk_X pub) (pk_Y pub) (big_bytes k) = S).
  { destruct OP as (_ & B & _). rewrite <- HC in B. cbn [fst snd] in B. rewrite B. unfold S. rewrite gmul_mul. reflexivity. }
  assert (EX : forall f, exists c, forall g, (1 <= g <= f)%nat -> Encrypt sha512 aes sbm sm g (Ok ent) pub data = Val (Ok c)).
  { intros f. set (P1 := sbm (big_bytes k)).
    exists (overlay (repeat 0 32) (big_bytes (fst P1)) ++ overlay (repeat 0 32) (big_bytes (snd P1)) ++
       sm3_hash (to_be 32 (fst S) ++ data ++ (big_bytes (snd S) ++ repeat 0 (32 - length (big_bytes (snd S))))) ++
       xor_bytes data (kdf (shared (fst S) (snd S)) (length data))).
    intros g Hg. apply (C48_exact sha512 aes sbm sm sha_len aes_len sbm_range sm_range g ent pub data _ xb Hc HX Hxb HXY Hd Ld).
    cbv zeta. exists 0%nat.
    exists (overlay (repeat 0 32) (big_bytes (fst P1))), (overlay (repeat 0 32) (big_bytes (snd P1))).
    exists (big_bytes (snd S) ++ repeat 0 (32 - length (big_bytes (snd S)))).
    fold k. rewrite SE. pose proof (sbm_range (big_bytes k)) as [R1 R2]. fold P1 in R1, R2.
    pose proof (sm_range (pk_X pub) (pk_Y pub) (big_bytes k)) as [R3 R4]. rewrite SE in R3, R4.
    split; [lia|]. split; [intros j Hj; lia|]. split; [exact HK|].
    split; [apply (wr_0 (fun j => _)); apply minimal_big_bytes; [apply R1|reflexivity]|].
    split; [apply (wr_0 (fun j => _)); apply minimal_big_bytes; [apply R2|reflexivity]|].
    split; [|reflexivity]. exists (big_bytes (snd S)). split; [apply minimal_big_bytes; [apply R4|reflexivity]|reflexivity]. }
  destruct (EX (Datatypes.S fuel)) as [c Hcc]. exists c. split; [apply Hcc; lia|]. pose proof (Hcc 1%nat ltac:(lia)) as E1. split.
  - destruct (C49_total sha512 aes sbm sm sha_len sbm_range sm_range 1 ent pub data Hc HXY Hd Ld) as [(c' & E' & L)|E']; congruence.
  - intros spare. apply (C48_roundtrip sha512 aes sbm sm onCurve sha_len aes_len sbm_range sm_range sm2_E sm2_E_N 1 ent pub data c D xb spare Hc Hxb HD HC Hd Ld).
    + intros i Hi. assert (i = 0%nat) as -> by lia. exact OP.
    + intros i Hi _ _ j n Hj. lia.
    + exact E1.
Qed.

End Ops.

Section Curve.
Variable sha512 : bytes -> bytes.
Variable aes : bytes -> bytes -> bytes.
Variable onCurve : Z -> Z -> bool.
Hypothesis sha_len : forall m, length (sha512 m) = 64%nat.
Hypothesis aes_len : forall key c, length c = 16%nat -> length (aes key c) = 16%nat.
(** IsOnCurve is right on reduced coordinates *)
Hypothesis on_ok : forall x y, 0 <= x < cP -> 0 <= y < cP -> (onCurve x y = true <-> on_sm2 x y).
(** the assembly routines; what sm2FromMont and sm2LittleToBig give is 32 bytes *)
Variable A : prims.
Hypothesis L32 : forall a, wf_bytes (a_l2b A (a_from A a)) /\ length (a_l2b A (a_from A a)) = 32%nat.
Notation sbm := (asm_sbm A).
Notation sm := (asm_sm A).
Notation G := (@eG sm2_E).
Notation co := (@ecoords sm2_E).

Lemma affine_range : forall p, in32 (p256PointToAffine A p).
Proof.
  assert (B : forall a, 0 <= be2z (a_l2b A (a_from A a)) < 256 ^ 32).
  { intros a. destruct (L32 a) as [W L]. pose proof (be2z_bound _ W) as H. unfold zlen in H. rewrite L in H. exact H. }
  intros p. unfold p256PointToAffine. cbv zeta. split; apply B.
Qed.
Lemma zero_range : in32 (0, 0).
Proof. split; cbn [fst snd]; split; reflexivity || discriminate. Qed.
Lemma sbm_range : forall b, in32 (sbm b).
Proof.
  intros b. unfold asm_sbm, ScalarBaseMult. destruct (p256GetScalar b); cbn [bind]; [apply affine_range|apply zero_range|apply zero_range].
Qed.
Lemma sm_range : forall x y b, in32 (sm x y b).
Proof.
  intros x y b. unfold asm_sm, ScalarMult.
  destruct (p256GetScalar b); cbn [bind]; [|apply zero_range|apply zero_range].
  destruct (load_point A x y); cbn [bind]; [|apply zero_range|apply zero_range].
  destruct (p256ScalarMult A _ _); cbn [bind]; [apply affine_range|apply zero_range|apply zero_range].
Qed.
Lemma on_point : forall P : pt (eg sm2_E), P <> gO -> onCurve (fst (co P)) (snd (co P)) = true.
Proof.
  intros P NP. destruct (sm2_coords_ok P NP) as (RX & RY & _). apply on_ok; [apply RX|split; [lia|apply RY]|].
  apply (on_of_at P). apply eat_coords, NP.
Qed.
Lemma roundtrip_core : forall fuel ent pub data D xb, pk_curve pub = SM2P256V1 -> minimal (pk_X pub) xb ->
  1 <= D < cN -> (pk_X pub, pk_Y pub) = co (gmul D G) -> octets data -> Z.of_nat (length data) < 2 ^ 60 ->
  let k := nonce cN (aes (enc_key sha512 ent data xb)) 0 in
  let S := co (gmul (k * D) G) in
  ops_right sbm sm onCurve sm2_E D k -> ~ all_zero (firstn 64 (kdf (shared (fst S) (snd S)) (length data))) ->
  exists c, Encrypt sha512 aes sbm sm (Datatypes.S fuel) (Ok ent) pub data = Val (Ok c) /\ length c = (96 + length data)%nat /\
    forall spare, Decrypt sm onCurve SM2P256V1 D c spare = Val (Some data, None).
Proof. exact (roundtrip_ops sha512 aes onCurve sha_len aes_len sbm sm sbm_range sm_range). Qed.

(** the assembly routines are right *)
Hypothesis OK : prims_ok sm2_E A.
Lemma sm_point : forall (P : pt (eg sm2_E)) k, P <> gO -> 0 <= k ->
  sm (fst (co P)) (snd (co P)) (big_bytes k) = if k mod cN =? cN - 6 then (0, 0) else co (gmul k P).
Proof.
  intros P k NP Hk. destruct (sm2_coords_ok P NP) as (RX & RY & _). unfold asm_sm.
  rewrite (C61_scalar sm2_E A OK sm2_coords_ok (big_bytes k) _ _ P (big_bytes_wf k) NP (killed P)); [|lia|lia|].
  - rewrite be2z_big_bytes by exact Hk. reflexivity.
  - rewrite !Z.mod_small by (split; [lia|apply RX || apply RY]). apply surjective_pairing.
Qed.
Lemma curve_ops : forall D k, 1 <= D < cN -> D <> cN - 6 -> 1 <= k < cN -> k <> cN - 6 -> ops_right sbm sm onCurve sm2_E D k.
Proof.
  intros D k HD D6 Hk K6. unfold ops_right. cbv zeta.
  assert (ND : gmul D G <> gO) by (apply gmul_G_nonzero; rewrite small_mod by exact HD; lia).
  assert (NK : gmul k G <> gO) by (apply gmul_G_nonzero; rewrite small_mod by exact Hk; lia).
  split; [apply (asm_sbm_ok sm2_E A OK sm2_coords_ok sm2_E_N sm2_E_G); lia|].
  rewrite !sm_point by (assumption || lia). rewrite !small_mod by assumption.
  destruct (Z.eqb_spec k (cN - 6)); [contradiction|]. destruct (Z.eqb_spec D (cN - 6)); [contradiction|].
  split; [reflexivity|]. split; [reflexivity|]. apply on_point. exact NK.
Qed.

(** ** The round trip.  With the key pair (D, [D]G), D in [1, N - 1] other than N - 6, and the first nonce
    other than N - 6 and giving a usable key, Encrypt returns a ciphertext and Decrypt gives the data back. *)
Theorem C71_roundtrip : forall fuel ent pub data D xb, pk_curve pub = SM2P256V1 -> minimal (pk_X pub) xb ->
  1 <= D < cN -> D <> cN - 6 -> ScalarBaseMult A (big_bytes D) = Val (pk_X pub, pk_Y pub) -> octets data -> Z.of_nat (length data) < 2 ^ 60 ->
  let k := nonce cN (aes (enc_key sha512 ent data xb)) 0 in
  let S := co (gmul (k * D) G) in
  k <> cN - 6 -> ~ all_zero (firstn 64 (kdf (shared (fst S) (snd S)) (length data))) ->
  exists c, Encrypt sha512 aes sbm sm (Datatypes.S fuel) (Ok ent) pub data = Val (Ok c) /\ length c = (96 + length data)%nat /\
    forall spare, Decrypt sm onCurve SM2P256V1 D c spare = Val (Some data, None).
Proof.
  intros fuel ent pub data D xb Hc Hxb HD D6 HP Hd Ld k S K6 HK.
  assert (HC : (pk_X pub, pk_Y pub) = co (gmul D G)).
  { rewrite (C61_base sm2_E A OK sm2_coords_ok sm2_E_N sm2_E_G) in HP by apply big_bytes_wf. rewrite be2z_big_bytes in HP by lia. congruence. }
  pose proof (nonce_range (aes (enc_key sha512 ent data xb)) 0) as HK0. fold k in HK0.
  exact (roundtrip_core fuel ent pub data D xb Hc Hxb HD HC Hd Ld (curve_ops D k HD D6 ltac:(lia) K6) HK).
Qed.

(** ** The nonce N - 6: the shared point is computed as (0, 0) for every public key, so everything behind
    C1 is independent of the key and the data can be read by anybody. *)
Theorem C71_weak_nonce : forall fuel ent pub data (P : pt (eg sm2_E)) xb, pk_curve pub = SM2P256V1 -> minimal (pk_X pub) xb ->
  P <> gO -> co P = (pk_X pub, pk_Y pub) -> octets data -> Z.of_nat (length data) < 2 ^ 60 -> (0 < length data)%nat ->
  nonce cN (aes (enc_key sha512 ent data xb)) 0 = cN - 6 ->
  exists C1 C3 C2, Encrypt sha512 aes sbm sm (S fuel) (Ok ent) pub data = Val (Ok (C1 ++ C3 ++ C2)) /\
    C1 = to_be 32 (fst (co (gmul (-6) G))) ++ to_be 32 (snd (co (gmul (-6) G))) /\ C3 = sm3_hash (repeat 0 32 ++ data ++ repeat 0 32) /\ C2 = xor_bytes data (public_key_stream (length data)) /\
    xor_bytes C2 (public_key_stream (length data)) = data.
Proof.
  intros fuel ent pub data P xb Hc Hxb NP HC Hd Ld Ln HK.
  assert (HX : 0 <= pk_X pub) by (pose proof (ecoords_pos sm2_E P) as [B _]; rewrite HC in B; exact B).
  assert (HXY : ~ (pk_X pub = 0 /\ pk_Y pub = 0)).
  { intros [B C]. apply NP. apply (ecoords_inj sm2_E). rewrite HC, (ecoords_O sm2_E), B, C. reflexivity. }
  assert (SE : sm (pk_X pub) (pk_Y pub) (big_bytes (cN - 6)) = (0, 0)).
  { pose proof (sm_point P (cN - 6) NP ltac:(discriminate)) as B. rewrite HC in B. exact B. }
  assert (BE : sbm (big_bytes (cN - 6)) = co (gmul (-6) G)).
  { rewrite (asm_sbm_ok sm2_E A OK sm2_coords_ok sm2_E_N sm2_E_G) by discriminate. f_equal.
    rewrite <- (gmul_mod _ cN (cN - 6)), <- (gmul_mod _ cN (-6)) by (reflexivity || apply killed). reflexivity. }
  set (P1 := co (gmul (-6) G)) in *. pose proof (sbm_range (big_bytes (cN - 6))) as [R1 R2]. rewrite BE in R1, R2.
  exists (to_be 32 (fst P1) ++ to_be 32 (snd P1)).
  exists (sm3_hash (repeat 0 32 ++ data ++ repeat 0 32)), (xor_bytes data (public_key_stream (length data))).
  split; [|split; [reflexivity|]].
  2:{ split; [reflexivity|]. split; [reflexivity|]. apply xor_xor. unfold public_key_stream. rewrite kdf_len. reflexivity. }
  apply (C48_exact sha512 aes sbm sm sha_len aes_len sbm_range sm_range (S fuel) ent pub data _ xb Hc HX Hxb HXY Hd Ld).
  cbv zeta. exists 0%nat. exists (to_be 32 (fst P1)), (to_be 32 (snd P1)), (repeat 0 32).
  assert (W : forall f : nat -> Z, 0 <= f 0%nat < 256 ^ 32 -> written f 0 (to_be 32 (f 0%nat))).
  { intros f Hf. rewrite <- overlay_zeros by exact Hf. apply wr_0. apply minimal_big_bytes; [apply Hf|reflexivity]. }
  set (kk := nonce _ _) in *. 
  split; [lia|]. split; [intros j Hj; lia|].
  split; [rewrite HK, SE; exact (public_stream_nonzero _ Ln)|].
  split; [specialize (W (fun j => fst (sbm (big_bytes (kk j))))); cbv beta in W; rewrite HK, BE in W; apply W, R1|].
  split; [specialize (W (fun j => snd (sbm (big_bytes (kk j))))); cbv beta in W; rewrite HK, BE in W; apply W, R2|].
  rewrite HK, SE. cbn [fst snd].
  split; [|rewrite <- app_assoc; reflexivity].
  exists []. split; [split; [constructor|split; [reflexivity|discriminate]]|reflexivity].
Qed.

(** ** The private key N - 6: whatever C1 is, Decrypt uses the shared point (0, 0).  It accepts exactly
    what anybody can make without knowing the public key, and no round trip works unless the derived keys
    agree on the length of the data. *)
Theorem C71_weak_key : forall (Q : pt (eg sm2_E)) h ct spare, Q <> gO -> length h = 32%nat -> octets ct -> (0 < length ct)%nat -> Z.of_nat (length ct) < 2 ^ 60 ->
  let m := xor_bytes ct (public_key_stream (length ct)) in
  Decrypt sm onCurve SM2P256V1 (cN - 6) (to_be 32 (fst (co Q)) ++ to_be 32 (snd (co Q)) ++ h ++ ct) spare =
    Val (Some m, if list_eq_dec Z.eq_dec (sm3_hash (repeat 0 32 ++ m ++ repeat 0 32)) h then None else Some "Hash not match!"%string).
Proof.
  intros Q h ct spare NQ Lh Oc Ln Lc m. destruct (sm2_coords_ok Q NQ) as (RX & RY & _).
  assert (B32 : cP < 256 ^ Z.of_nat 32) by reflexivity.
  apply (C50_exact sm onCurve sm_range); try assumption; try (apply to_be_length); [discriminate|].
  assert (VX : value (to_be 32 (fst (co Q))) 0 = fst (co Q)) by (rewrite value_be2z; apply be2z_to_be_small; lia).
  assert (VY : value (to_be 32 (snd (co Q))) 0 = snd (co Q)) by (rewrite value_be2z; apply be2z_to_be_small; lia).
  apply (oc_msg sm onCurve (cN - 6) _ _ _ _ (big_bytes (cN - 6)) 0 0 (repeat 0 32) m); rewrite ?VX, ?VY.
  - lia.
  - apply on_point. exact NQ.
  - apply minimal_big_bytes; [discriminate|reflexivity].
  - exact (sm_point Q (cN - 6) NQ ltac:(discriminate)).
  - exact (public_stream_nonzero _ Ln).
  - reflexivity.
  - exists []. split; [split; [constructor|split; [reflexivity|discriminate]]|reflexivity].
Qed.
End Curve.

(** ** With the routines of the assembly, on runs that never make an unreduced difference (Spec_AsmClean) *)
Lemma exact_32 : forall a, wf_bytes (a_l2b exact_prims (a_from exact_prims a)) /\ length (a_l2b exact_prims (a_from exact_prims a)) = 32%nat.
Proof. intros a. cbn [a_l2b a_from exact_prims]. split; [apply to_be_wf|apply to_be_length]. Qed.
Lemma asm_32 : forall a, wf_bytes (a_l2b asm_prims (a_from asm_prims a)) /\ length (a_l2b asm_prims (a_from asm_prims a)) = 32%nat.
Proof.
  intros a. rewrite asm_l2b_ok by (cbn [a_from asm_prims]; apply words_of_ok). split; [apply to_be_wf|apply to_be_length].
Qed.
Lemma asm_sm_point : forall (P : pt (eg sm2_E)) k, P <> gO -> 0 <= k -> k mod cN <> cN - 6 ->
  clean_scalar_mult (fst (ecoords P)) (snd (ecoords P)) (big_bytes k) = true ->
  asm_sm asm_prims (fst (ecoords P)) (snd (ecoords P)) (big_bytes k) = ecoords (gmul k P).
Proof.
  intros P k NP Hk K6 C. destruct (sm2_coords_ok P NP) as (RX & RY & _). pose proof (eat_coords P NP) as AT.
  destruct (C67_scalar (big_bytes k) (fst (ecoords P)) (snd (ecoords P)) (big_bytes_wf k) ltac:(lia) ltac:(lia) (on_of_at _ _ _ AT) C) as (Q & AQ & E).
  assert (P = Q) as <- by (apply (ecoords_inj sm2_E); exact (eq_trans (eat_of _ _ _ AT) (eq_sym (eat_of _ _ _ AQ)))).
  unfold asm_sm. rewrite E, be2z_big_bytes by exact Hk. destruct (Z.eqb_spec (k mod cN) (cN - 6)); [contradiction|reflexivity].
Qed.
Theorem C71_asm_roundtrip : forall sha512 aes onCurve,
  (forall m, length (sha512 m) = 64%nat) -> (forall key c, length c = 16%nat -> length (aes key c) = 16%nat) ->
  (forall x y, 0 <= x < cP -> 0 <= y < cP -> (onCurve x y = true <-> on_sm2 x y)) ->
  forall fuel ent pub data D xb, pk_curve pub = SM2P256V1 -> minimal (pk_X pub) xb ->
  1 <= D < cN -> D <> cN - 6 -> (pk_X pub, pk_Y pub) = ecoords (gmul D (eG (e := sm2_E))) -> octets data -> Z.of_nat (length data) < 2 ^ 60 ->
  let k := nonce cN (aes (enc_key sha512 ent data xb)) 0 in
  let C1 := ecoords (gmul k (eG (e := sm2_E))) in
  let S := ecoords (gmul (k * D) (eG (e := sm2_E))) in
  k <> cN - 6 -> ~ all_zero (firstn 64 (kdf (shared (fst S) (snd S)) (length data))) ->
  clean_base_mult (big_bytes k) = true -> clean_scalar_mult (pk_X pub) (pk_Y pub) (big_bytes k) = true ->
  clean_scalar_mult (fst C1) (snd C1) (big_bytes D) = true ->
  exists c, Encrypt sha512 aes (asm_sbm asm_prims) (asm_sm asm_prims) (Datatypes.S fuel) (Ok ent) pub data = Val (Ok c) /\ length c = (96 + length data)%nat /\
    forall spare, Decrypt (asm_sm asm_prims) onCurve SM2P256V1 D c spare = Val (Some data, None).
Proof.
  intros sha512 aes onCurve sha_len aes_len on_ok fuel ent pub data D xb Hc Hxb HD D6 HC Hd Ld k C1 S K6 HK CB CS CD.
  pose proof (nonce_range (aes (enc_key sha512 ent data xb)) 0) as HK0. fold k in HK0.
  apply (roundtrip_core sha512 aes onCurve sha_len aes_len asm_prims asm_32 fuel ent pub data D xb Hc Hxb HD HC Hd Ld); [|exact HK].
  fold k. assert (ND : gmul D (eG (e := sm2_E)) <> gO) by (apply gmul_G_nonzero; rewrite small_mod by exact HD; lia).
  assert (NK : gmul k (eG (e := sm2_E)) <> gO) by (apply gmul_G_nonzero; rewrite small_mod by lia; lia).
  assert (PX : pk_X pub = fst (ecoords (gmul D (eG (e := sm2_E))))) by (rewrite <- HC; reflexivity).
  assert (PY : pk_Y pub = snd (ecoords (gmul D (eG (e := sm2_E))))) by (rewrite <- HC; reflexivity).
  rewrite PX, PY in CS. unfold ops_right. cbv zeta.
  split; [unfold asm_sbm; rewrite C67_base by (apply big_bytes_wf || exact CB); rewrite be2z_big_bytes by lia; reflexivity|].
  split; [apply asm_sm_point; [exact ND|lia|rewrite small_mod by lia; exact K6|exact CS]|].
  split; [apply asm_sm_point; [exact NK|lia|rewrite small_mod by lia; exact D6|exact CD]|].
  apply on_point; assumption.
Qed.

(** ** Examples: D = 2 and the nonce 1 *)
Definition zero_aes (key c : bytes) : bytes := repeat 0 (length c).
Definition G2x : Z := 0x56cefd60d7c87c000d58ef57fa73ba4d9c0dfa08c08a7331495c2e1da3f2bd52.
Definition G2y : Z := 0x31b7e7e6cc8189f668535ce0f8eaf1bd6de84c182f6c8e716f780d3a970a23c3.
Definition pub2 : ecpub := {| pk_curve := SM2P256V1; pk_X := G2x; pk_Y := G2y |}.
Lemma coords_2G : ecoords (gmul 2 (eG (e := sm2_E))) = (G2x, G2y).
Proof.
  pose proof C61_example_scalar as H. destruct (C61_curve_scalar [2] (c_Gx SM2P256V1) (c_Gy SM2P256V1)) as (P & B & E).
  - repeat constructor; lia.
  - discriminate.
  - discriminate.
  - apply C63_constants.
  - rewrite E in H. change (be2z [2]) with 2 in H. change (2 mod cN =? cN - 6) with false in H. cbv iota in H.
    assert (P = eG (e := sm2_E)) as -> by (apply (ecoords_inj sm2_E); rewrite sm2_E_G, (eat_of _ _ _ B); reflexivity).
    unfold G2x, G2y. congruence.
Qed.
Lemma example_octets : octets [104; 105; 33].
Proof. unfold octets. do 3 (apply Forall_cons; [lia|]). apply Forall_nil. Qed.
Lemma example_key : ~ all_zero (firstn 64 (kdf (shared G2x G2y) 3)).
Proof.
  intros C. match type of C with all_zero ?l => let v := eval vm_compute in l in assert (E : l = v) by (vm_compute; reflexivity) end.
  rewrite E in C. inversion C. discriminate.
Qed.
Lemma example_nonce : forall sha512 ent data xb, nonce cN (zero_aes (enc_key sha512 ent data xb)) 0 = 1.
Proof. intros. generalize (enc_key sha512 ent data xb). intros key. vm_compute. reflexivity. Qed.
Lemma example_minimal : minimal (pk_X pub2) (big_bytes G2x).
Proof. apply minimal_big_bytes; [discriminate|reflexivity]. Qed.
Example C71_example : exists c, Encrypt toy_sha zero_aes (asm_sbm exact_prims) (asm_sm exact_prims) 1 (Ok (repeat 5 16)) pub2 [104; 105; 33] = Val (Ok c) /\
  length c = 99%nat /\ forall spare, Decrypt (asm_sm exact_prims) IsOnCurve SM2P256V1 2 c spare = Val (Some [104; 105; 33], None).
Proof.
  apply (C71_roundtrip toy_sha zero_aes IsOnCurve (fun _ => eq_refl) (fun _ c H => eq_trans (repeat_length 0 (length c)) H) (fun x y _ _ => IsOnCurve_ok x y)
    exact_prims exact_32 exact_prims_ok 0 (repeat 5 16) pub2 [104; 105; 33] 2 (big_bytes G2x) eq_refl example_minimal); rewrite ?example_nonce.
  - split; [lia|reflexivity].
  - discriminate.
  - rewrite C61_curve_base by apply big_bytes_wf. rewrite be2z_big_bytes, coords_2G by lia. reflexivity.
  - exact example_octets.
  - reflexivity.
  - discriminate.
  - change (1 * 2) with 2. rewrite coords_2G. exact example_key.
Qed.

(** the same on the assembly: the three runs are clean *)
Lemma first_entry : forall A, (forall p, length (a_dbl A p) = 12%nat) -> (forall p q, length (a_add A p q) = 12%nat) ->
  forall p, length p = 12%nat -> sub (scalar_table A p) 0 12 = p.
Proof.
  intros A Hdbl Hadd p Lp. unfold scalar_table. cbv zeta. change (repeat 0 192) with (repeat 0 (12 * 16)). rewrite concat_zeros.
  set (Z12 := repeat 0 12) in *. assert (LZ : length Z12 = 12%nat) by reflexivity. clearbody Z12. cbn [repeat].
  repeat (rewrite put_concat; [cbn [set_nth]|unfold blocks; repeat (constructor; try solve [assumption | apply Hdbl | apply Hadd])|
    solve [assumption | apply Hdbl | apply Hadd]|cbn [length]; lia]).
  change 0%nat with (12 * 0)%nat at 1.
  rewrite (sub_concat 12 _ _ []); [reflexivity|unfold blocks; repeat (constructor; try solve [assumption | apply Hdbl | apply Hadd])|cbn [length]; lia].
Qed.
Lemma careful_1 p : length p = 12%nat -> p256ScalarMult careful_prims p [1; 0; 0; 0] =
  Val (put_at 4 (a_neg careful_prims (sub p 4 4) 0) p).
Proof.
  intros L. rewrite (small_scalar careful_prims eq_refl eq_refl eq_refl p [1; 0; 0; 0] 1 (windows_small [1; 0; 0; 0] eq_refl) eq_refl ltac:(lia)).
  cbv zeta. change (12 * (Z.to_nat 1 - 1))%nat with 0%nat.
  rewrite (first_entry careful_prims careful_dbl_length careful_add_length p L). reflexivity.
Qed.
Lemma one_scalar_clean : clean_scalar_mult G2x G2y [1] = true.
Proof.
  unfold clean_scalar_mult, scalar_point. change (p256GetScalar [1]) with (Val [1; 0; 0; 0]). cbn [bind].
  match goal with |- context [load_point careful_prims ?x ?y] => let v := eval vm_compute in (load_point careful_prims x y) in assert (E : load_point careful_prims x y = v) by (vm_compute; reflexivity) end.
  rewrite E. cbn [bind]. rewrite careful_1 by reflexivity. cbn [unmarked]. vm_compute. reflexivity.
Qed.
Example C71_asm_example : exists c, Encrypt toy_sha zero_aes (asm_sbm asm_prims) (asm_sm asm_prims) 1 (Ok (repeat 5 16)) pub2 [104; 105; 33] = Val (Ok c) /\
  length c = 99%nat /\ forall spare, Decrypt (asm_sm asm_prims) IsOnCurve SM2P256V1 2 c spare = Val (Some [104; 105; 33], None).
Proof.
  apply (C71_asm_roundtrip toy_sha zero_aes IsOnCurve (fun _ => eq_refl) (fun _ c H => eq_trans (repeat_length 0 (length c)) H) (fun x y _ _ => IsOnCurve_ok x y)
    0 (repeat 5 16) pub2 [104; 105; 33] 2 (big_bytes G2x) eq_refl example_minimal); rewrite ?example_nonce.
  - split; [lia|reflexivity].
  - discriminate.
  - rewrite coords_2G. reflexivity.
  - exact example_octets.
  - reflexivity.
  - discriminate.
  - change (1 * 2) with 2. rewrite coords_2G. exact example_key.
  - exact one_clean.
  - exact one_scalar_clean.
  - rewrite gmul_1, sm2_E_G. exact two_clean.
Qed.
(** a key stream that gives the nonce N - 6, and what Encrypt does then *)
Definition bad_aes (key c : bytes) : bytes :=
  let b := to_be 40 (cN - 7) ++ repeat 0 8 in
  let j := Z.to_nat (value c 0 - value (str_bytes "IV for <SM2> CTR") 0) in firstn 16 (skipn (16 * j) b ++ repeat 0 16).
Lemma bad_len : forall key c : bytes, length c = 16%nat -> length (bad_aes key c) = 16%nat.
Proof. intros key c _. unfold bad_aes. rewrite firstn_length, app_length, repeat_length. lia. Qed.
Lemma bad_nonce : forall key, nonce cN (bad_aes key) 0 = cN - 6.
Proof. intros key. vm_compute. reflexivity. Qed.
Example C71_weak_nonce_example : exists C1 C3, Encrypt toy_sha bad_aes (asm_sbm exact_prims) (asm_sm exact_prims) 1 (Ok (repeat 5 16)) pub2 [104; 105; 33] =
  Val (Ok (C1 ++ C3 ++ [148; 18; 136])) /\ xor_bytes [148; 18; 136] (public_key_stream 3) = [104; 105; 33].
Proof.
  destruct (C71_weak_nonce toy_sha bad_aes (fun _ => eq_refl) bad_len
    exact_prims exact_32 exact_prims_ok 0 (repeat 5 16) pub2 [104; 105; 33] (gmul 2 (eG (e := sm2_E))) (big_bytes G2x) eq_refl example_minimal) as (C1 & C3 & C2 & E & _ & _ & X & _).
  - apply gmul_G_nonzero. discriminate.
  - exact coords_2G.
  - exact example_octets.
  - reflexivity.
  - cbn [length]. lia.
  - apply bad_nonce.
  - exists C1, C3. assert (V : xor_bytes [104; 105; 33] (public_key_stream 3) = [148; 18; 136]) by (vm_compute; reflexivity).
    change (length [104; 105; 33]) with 3%nat in X. rewrite V in X. rewrite X in E. split; [exact E|vm_compute; reflexivity].
Qed.
(** the key N - 6 accepts a message made without any key, with the base point as C1 *)
Example C71_weak_key_example : forall spare, Decrypt (asm_sm exact_prims) IsOnCurve SM2P256V1 (cN - 6)
  (to_be 32 (c_Gx SM2P256V1) ++ to_be 32 (c_Gy SM2P256V1) ++ sm3_hash (repeat 0 32 ++ [104; 105; 33] ++ repeat 0 32) ++ [148; 18; 136]) spare = Val (Some [104; 105; 33], None).
Proof.
  intros spare. pose proof (C71_weak_key IsOnCurve (fun x y _ _ => IsOnCurve_ok x y) exact_prims exact_32 exact_prims_ok (eG (e := sm2_E))
    (sm3_hash (repeat 0 32 ++ [104; 105; 33] ++ repeat 0 32)) [148; 18; 136] spare (eG_nonzero sm2_E) (proj1 (sm3_hash_shape _))) as H.
  rewrite sm2_E_G in H. cbn [fst snd length] in H. cbv zeta in H.
  assert (V : xor_bytes [148; 18; 136] (public_key_stream 3) = [104; 105; 33]) by (vm_compute; reflexivity). rewrite V in H.
  rewrite H; [|unfold octets; do 3 (apply Forall_cons; [lia|]); apply Forall_nil|lia|reflexivity].
  destruct (list_eq_dec _ _ _) as [_|C]; [reflexivity|elim C; reflexivity].
Qed.
Print Assumptions C71_roundtrip.
Print Assumptions C71_asm_roundtrip.
Print Assumptions C71_weak_nonce.
Print Assumptions C71_weak_key.
