(** * Prop_Generic: property C76, SM2 and the verifiable random function where the assembly is not compiled in
    (/repo/sm2/signature.go, encryption.go and /repo/vrf with the methods of elliptic.CurveParams) *)
From Coq Require Import ZArith Znumtheory Zpow_facts String List Bool Lia.
From Verif Require Import Base BaseFacts Curves ECKey Keypair SM3 Spec_SM3 SM3Facts SM3Hist NumTheory LucasFacts Primes1 Primes3 Spec_Group CurveZ CurveSub CurveSM2 SM2Sig Spec_EC ECFacts Spec_SM2
  SM2Enc Spec_SM2Enc SM2EncFacts Prop_Keys Prop_SM2 Prop_SM2b Prop_SM2Enc Prop_SM2Enc2 Prop_SM2Enc3 VRF Spec_VRF VRFFacts VRFFacts2 Prop_VRF Prop_VRF2
  P256 Spec_P256 Spec_P256b P256Booth P256Sched Prop_P256b Prop_P256c P256Point P256PointFacts Prop_P256d Prop_SM2Enc4 Prop_VRF4
  Elliptic EllipticFacts SM2Generic.
Import ListNotations.
Open Scope Z_scope.
Notation cG := (@eG sm2_E).
Notation co := (@ecoords sm2_E).

(** ** The methods on the group of the SM2 curve *)
Lemma co_stands : forall P : pt (eg sm2_E), stands SM2 prime_c_P_SM2P256V1 sm2_odd sm2_disc (co P) (proj1_sig P).
Proof. intros P. exact (stands_aco SM2 prime_c_P_SM2P256V1 sm2_odd sm2_disc (proj1_sig P)). Qed.
Lemma generic_add : forall P Q : pt (eg sm2_E), Add SM2 (co P) (co Q) = co (gadd P Q).
Proof. intros P Q. exact (Add_ok SM2 prime_c_P_SM2P256V1 sm2_odd sm2_disc sm2_b _ _ _ _ (co_stands P) (co_stands Q)). Qed.
Lemma generic_mult : forall (P : pt (eg sm2_E)) x y k, eat P x y -> wf_bytes k -> ScalarMult SM2 (x, y) k = co (gmul (be2z k) P).
Proof.
  intros P x y k A W. rewrite (ScalarMult_ok SM2 prime_c_P_SM2P256V1 sm2_odd sm2_disc x y (proj1_sig P) k A W).
  change (co (gmul (be2z k) P)) with (acoords qP prime_c_P_SM2P256V1 sm2_odd (-3) qB sm2_disc (proj1_sig (gmul (G := sm2_group) (be2z k) P))).
  unfold sm2_group. rewrite (t_gmul sm2_curve sm2_eq0 sm2_eq0_ok qN). reflexivity.
Qed.
Lemma generic_mult_co : forall (P : pt (eg sm2_E)) k, P <> gO -> wf_bytes k -> ScalarMult SM2 (co P) k = co (gmul (be2z k) P).
Proof. intros P k N W. rewrite (surjective_pairing (co P)). apply generic_mult; [apply eat_coords; exact N|exact W]. Qed.
Lemma generic_base : forall k, wf_bytes k -> ScalarBaseMult SM2 k = co (gmul (be2z k) cG).
Proof. intros k W. apply generic_mult; [exact sm2_G_at|exact W]. Qed.
Lemma generic_on_iff : forall x y, IsOnCurve SM2 (x, y) = true <-> on_sm2 x y.
Proof. exact (on_curve_iff SM2 sm2_odd). Qed.
Lemma affine_range : forall q, in32 (affineFromJacobian SM2 q).
Proof.
  assert (R : forall z, 0 <= z mod c_P SM2 < 256 ^ 32).
  { intros z. pose proof (Z.mod_pos_bound z (c_P SM2) ltac:(reflexivity)). assert (c_P SM2 < 256 ^ 32) by reflexivity. lia. }
  intros [[x y] z]. cbn [affineFromJacobian]. destruct (z =? 0); [split; split; reflexivity || discriminate|]. cbv zeta. split; cbn [fst snd]; apply R.
Qed.
Lemma fermatInverse_ok : forall k, (generic_inv k * k) mod cN = if k mod cN =? 0 then 0 else 1.
Proof.
  intros k. unfold generic_inv, fermatInverse. rewrite powm_spec by (discriminate || reflexivity).
  rewrite Z.mul_mod_idemp_l by discriminate. destruct (Z.eqb_spec (k mod cN) 0) as [Z0|NZ].
  - rewrite <- Z.mul_mod_idemp_r, Z0, Z.mul_0_r by discriminate. reflexivity.
  - replace (k ^ (cN - 2) * k) with (k ^ (cN - 1)).
    + apply fermat_unit; [exact prime_c_N_SM2P256V1|]. intros C. apply NZ. apply Z.mod_divide; [discriminate|exact C].
    + replace (cN - 1) with (Z.succ (cN - 2)) by reflexivity. rewrite Z.pow_succ_r by discriminate. apply Z.mul_comm.
Qed.
Lemma generic_inv_range : forall k, 0 <= generic_inv k < cN.
Proof.
  intros k. unfold generic_inv, fermatInverse. rewrite powm_spec by (discriminate || reflexivity). apply Z.mod_pos_bound. reflexivity.
Qed.
Lemma generic_comb_ok : forall pub (P : pt (eg sm2_E)) s t, pk_curve pub = SM2 -> eat P (pk_X pub) (pk_Y pub) -> 0 <= s -> 0 <= t ->
  comb_right generic_comb sm2_E pub P s t.
Proof.
  intros pub P s t Hc A Hs Ht. unfold comb_right, generic_comb. cbv zeta. rewrite Hc, generic_base by apply big_bytes_wf.
  rewrite (generic_mult P) by (exact A || apply big_bytes_wf). rewrite !be2z_big_bytes by assumption. apply generic_add.
Qed.

(** ** Signatures *)
(** Verify accepts exactly the signatures of the standard, for every key on the curve *)
Theorem C76_verify_exact : forall (P : pt (eg sm2_E)) pub id msg hasher r s, inputs_ok pub id msg hasher ->
  eat P (pk_X pub) (pk_Y pub) ->
  (SM2Sig.Verify generic_comb pub id msg hasher r s = Val true <-> sm2_accepts sm2_E P (msg_e pub id msg) r s).
Proof.
  intros P pub id msg hasher r s I A.
  destruct (Z_le_dec 0 s) as [Hs|Hs].
  - apply (C43_exact generic_comb sm2_E P pub id msg hasher r s I sm2_E_N (killed P)).
    apply generic_comb_ok; [apply I|exact A|exact Hs|apply Z.mod_pos_bound; reflexivity].
  - split; intros C.
    + exfalso. unfold SM2Sig.Verify in C. destruct I as (Hc & _). rewrite Hc in C. change (c_N SM2 =? 0) with false in C. cbv iota zeta in C.
      assert (Q : (s <=? 0) = true) by (apply Z.leb_le; lia). rewrite Q, !orb_true_r in C. discriminate C.
    + destruct C as (_ & C & _). lia.
Qed.
(** what Sign returns is accepted, for every private key that can sign *)
Theorem C76_sign_verify : forall sha512 aes fuel ent D k id msg hasher hasher' r s,
  inputs_ok k id msg hasher -> hasher_ok hasher' -> 1 <= D <= cN - 2 -> generic_sbm (big_bytes D) = (pk_X k, pk_Y k) ->
  SM2Sig.Sign sha512 aes generic_sbm generic_inv fuel ent D k id msg hasher = Val (Ok (r, s)) ->
  sm2_accepts sm2_E (gmul D cG) (msg_e k id msg) r s /\ SM2Sig.Verify generic_comb k id msg hasher' r s = Val true.
Proof.
  intros sha512 aes fuel ent D k id msg hasher hasher' r s I Hh HD HK ES.
  unfold generic_sbm in HK. rewrite generic_base, be2z_big_bytes in HK by (lia || apply big_bytes_wf).
  assert (NO : gmul D cG <> gO) by (apply gmul_G_nonzero; rewrite small_mod; lia).
  assert (A : eat (gmul D cG) (pk_X k) (pk_Y k)) by (pose proof (eat_coords _ NO) as A; rewrite HK in A; exact A).
  assert (I' : inputs_ok k id msg hasher') by (destruct I as (I1 & I2 & I3 & I4); exact (conj I1 (conj I2 (conj Hh I4)))).
  assert (HI : invertible generic_inv D).
  { unfold invertible. rewrite fermatInverse_ok, small_mod by lia. destruct (Z.eqb_spec (D + 1) 0); [lia|reflexivity]. }
  assert (V : SM2Sig.Verify generic_comb k id msg hasher' r s = Val true).
  { destruct (C44_ranges sha512 aes generic_sbm generic_inv _ _ _ _ _ _ _ _ _ I (ltac:(lia) : 0 <= D) HI ES) as (Rr & Rs & Rt).
    apply (C42_sign_verify sha512 aes generic_sbm generic_inv generic_comb sm2_E fuel ent D k id msg hasher hasher' r s I Hh sm2_E_N); try assumption; try lia.
    - intros j Hj. unfold generic_sbm. rewrite generic_base, be2z_big_bytes by (lia || apply big_bytes_wf). reflexivity.
    - apply generic_comb_ok; [apply I|exact A|lia|apply Z.mod_pos_bound; reflexivity]. }
  split; [|exact V]. apply (C76_verify_exact _ k id msg hasher' r s I' A). exact V.
Qed.
(** the key N - 1 never signs here either *)
Theorem C76_never_returns : forall sha512 aes fuel ent D k id msg hasher, inputs_ok k id msg hasher -> 0 <= D -> (D + 1) mod cN = 0 ->
  (forall m, (32 <= length (sha512 m))%nat) ->
  SM2Sig.Sign sha512 aes generic_sbm generic_inv fuel (Ok ent) D k id msg hasher = OutOfFuel.
Proof.
  intros sha512 aes fuel ent D k id msg hasher I HD HN SH. apply C45_diverges; try assumption.
  unfold generic_inv, fermatInverse. rewrite powm_spec by (discriminate || reflexivity). rewrite Z.mod_mod by discriminate.
  rewrite Zpower_mod by reflexivity. rewrite HN, Z.pow_0_l by reflexivity. reflexivity.
Qed.
(** ** The platforms compared: what amd64 with correct routines accepts is accepted everywhere; what is accepted
    elsewhere and refused by amd64 has r + s = -6 modulo N or s G = (r + s) P *)
Theorem C76_platforms : forall (P : pt (eg sm2_E)) pub id msg hasher r s, inputs_ok pub id msg hasher ->
  co P = (pk_X pub, pk_Y pub) -> P <> gO ->
  (SM2Sig.Verify (asm_comb exact_prims) pub id msg hasher r s = Val true <->
   SM2Sig.Verify generic_comb pub id msg hasher r s = Val true /\ (r + s) mod cN <> cN - 6 /\ gmul s cG <> gmul (r + s) P).
Proof.
  intros P pub id msg hasher r s I HC NP.
  rewrite (C61_verify sm2_E exact_prims exact_prims_ok sm2_coords_ok sm2_E_N sm2_E_G P pub id msg hasher r s I NP (killed P) HC).
  assert (A : eat P (pk_X pub) (pk_Y pub)) by (pose proof (eat_coords _ NP) as A; rewrite HC in A; exact A).
  rewrite (C76_verify_exact P pub id msg hasher r s I A). reflexivity.
Qed.

(** ** Encryption: the round trip, for every private key in [1, N - 1] *)
Theorem C76_encrypt_roundtrip : forall sha512 aes,
  (forall m, length (sha512 m) = 64%nat) -> (forall key c, length c = 16%nat -> length (aes key c) = 16%nat) ->
  forall fuel ent pub data D xb, pk_curve pub = SM2P256V1 -> minimal (pk_X pub) xb ->
  1 <= D < cN -> (pk_X pub, pk_Y pub) = generic_sbm (big_bytes D) -> octets data -> Z.of_nat (length data) < 2 ^ 60 ->
  let k := nonce cN (aes (enc_key sha512 ent data xb)) 0 in
  let S := co (gmul (k * D) cG) in
  ~ all_zero (firstn 64 (kdf (shared (fst S) (snd S)) (length data))) ->
  exists c, Encrypt sha512 aes generic_sbm generic_sm (Datatypes.S fuel) (Ok ent) pub data = Val (Ok c) /\ length c = (96 + length data)%nat /\
    forall spare, Decrypt generic_sm generic_on SM2P256V1 D c spare = Val (Some data, None).
Proof.
  intros sha512 aes sha_len aes_len fuel ent pub data D xb Hc Hxb HD HP Hd Ld k S HK.
  unfold generic_sbm in HP. rewrite generic_base, be2z_big_bytes in HP by (lia || apply big_bytes_wf).
  pose proof (Prop_SM2Enc4.nonce_range (aes (enc_key sha512 ent data xb)) 0) as Hk. fold k in Hk.
  apply (roundtrip_ops sha512 aes generic_on sha_len aes_len generic_sbm generic_sm) with (xb := xb); try assumption.
  - intros b. apply affine_range.
  - intros x y b. apply affine_range.
  - fold k. assert (ND : gmul D cG <> gO) by (apply gmul_G_nonzero; rewrite small_mod; lia).
    assert (NK : gmul k cG <> gO) by (apply gmul_G_nonzero; rewrite small_mod; lia).
    unfold ops_right, generic_sbm, generic_sm, generic_on. cbv zeta. rewrite <- !surjective_pairing.
    rewrite generic_base, !generic_mult_co by (assumption || apply big_bytes_wf). rewrite !be2z_big_bytes by lia.
    repeat (split; [reflexivity|]). rewrite (surjective_pairing (co (gmul k cG))). apply generic_on_iff. apply (on_of_at (gmul k cG)), eat_coords, NK.
Qed.

(** ** The verifiable random function: honest proofs are accepted, without exceptions *)
Section VRF.
Variable hash : hkind -> bytes -> bytes.
Hypothesis hash_ok : forall h m, wf_bytes (hash h m) /\ zlen (hash h m) = hSize h.
Variable sha256 : bytes -> bytes.
Variable k : ecpub.
Hypothesis Hc : pk_curve k = SM2.
Theorem C76_vrf_completeness : forall fuel fuel' rng rng' rb alg alg' D msg vrf nizk,
  0 < D < cN -> (pk_X k, pk_Y k) = ScalarBaseMult SM2 (big_bytes D) -> wf_bytes rb ->
  Vrf hash sha256 ScalarBaseMult ScalarMult fuel rng (Ok rb) (SkEC alg D k) msg = Val (Ok (vrf, nizk)) ->
  Verify hash sha256 ScalarBaseMult ScalarMult Add IsOnCurve fuel' rng' (PkEC alg' k) msg vrf nizk = Val (true, None) \/
  (Verify hash sha256 ScalarBaseMult ScalarMult Add IsOnCurve fuel' rng' (PkEC alg' k) msg vrf nizk = OutOfFuel /\ (fuel' < fuel)%nat).
Proof.
  intros fuel fuel' rng rng' rb alg alg' D msg vrf nizk HD PK Wr EV.
  rewrite generic_base, be2z_big_bytes in PK by (lia || apply big_bytes_wf).
  apply (completeness_core hash hash_ok sha256 ScalarBaseMult ScalarMult Add IsOnCurve generic_add (fun x y _ _ => generic_on_iff x y)
    k Hc fuel fuel' rng rng' rb alg alg' D msg vrf nizk HD PK Wr); [|exact EV].
  destruct (vrf_inv hash hash_ok sha256 ScalarBaseMult ScalarMult a_SM2 k HSM3 (Hs k Hc) (GH k Hc) _ _ _ _ _ _ _ _ EV) as (rb' & pkb' & H' & b' & s & _ & _ & _ & _ & _ & I & EN).
  rewrite EN.
  intros pkb hx hy _ TP. destruct (hashed_point hash hash_ok _ _ _ TP) as (X0 & Y0 & O). destruct (sm2_point hx hy O) as [P A].
  exists P. pose proof (eat_not_O P hx hy A) as NP. split; [exact NP|].
  assert (ND : gmul D cG <> gO) by (apply gmul_G_nonzero; rewrite Z.mod_small; lia).
  assert (NDP : gmul D P <> gO) by (apply gmul_nonzero; [exact NP|rewrite Z.mod_small; lia]).
  set (nz := _ ++ _). assert (Wz : wf_bytes nz) by (apply wf_app; split; apply to_be_wf). clearbody nz.
  assert (W1 : wf_bytes (firstn 32 nz)) by (apply wf_firstn; exact Wz). assert (W2 : wf_bytes (skipn 32 nz)) by (apply wf_skipn; exact Wz).
  unfold calls_right. rewrite !generic_base by assumption. rewrite !(generic_mult P hx hy) by (assumption || apply big_bytes_wf).
  rewrite !generic_mult_co by assumption. rewrite be2z_big_bytes by lia. repeat split; reflexivity.
Qed.
(** On amd64 with correct routines, C72 with Add and IsOnCurve of CurveParams in place of its assumptions about them *)
Theorem C76_vrf_amd64 : forall A, prims_ok sm2_E A ->
  let sbm := fun c b => asm_sbm A b in
  let sm := fun c p b => asm_sm A (fst p) (snd p) b in
  forall fuel fuel' rng rng' rb alg alg' D msg vrf nizk,
  0 < D < cN -> (pk_X k, pk_Y k) = co (gmul D cG) -> wf_bytes rb ->
  D <> cN - 6 -> be2z rb mod cN <> cN - 6 -> be2z (firstn 32 nizk) <> cN - 6 -> be2z (skipn 32 nizk) <> cN - 6 ->
  Vrf hash sha256 sbm sm fuel rng (Ok rb) (SkEC alg D k) msg = Val (Ok (vrf, nizk)) ->
  Verify hash sha256 sbm sm Add IsOnCurve fuel' rng' (PkEC alg' k) msg vrf nizk = Val (true, None) \/
  (Verify hash sha256 sbm sm Add IsOnCurve fuel' rng' (PkEC alg' k) msg vrf nizk = OutOfFuel /\ (fuel' < fuel)%nat).
Proof.
  intros A OK sbm sm. apply (C72_completeness hash hash_ok sha256 sbm sm Add IsOnCurve generic_add (fun x y _ _ => generic_on_iff x y) A OK (fun _ => eq_refl) (fun _ _ => eq_refl) k Hc).
Qed.
End VRF.

(** ** Examples: the key D = 2 *)
Lemma New_hasher : hasher_ok New.
Proof. reflexivity. Qed.
Lemma generic_pub2 : ScalarBaseMult SM2 (big_bytes 2) = (pk_X pub2, pk_Y pub2).
Proof. rewrite generic_base, be2z_big_bytes by (lia || apply big_bytes_wf). exact coords_2G. Qed.
Lemma pub2_at : eat (gmul 2 cG) (pk_X pub2) (pk_Y pub2).
Proof.
  assert (NO : gmul 2 cG <> gO) by (apply gmul_G_nonzero; discriminate).
  pose proof (eat_coords _ NO) as A. rewrite coords_2G in A. exact A.
Qed.
Lemma Sign_ext : forall sha512 aes sbm inv inv' fuel ent D k id msg h, 0 <= D -> inv (D + 1) = inv' (D + 1) ->
  SM2Sig.Sign sha512 aes sbm inv fuel ent D k id msg h = SM2Sig.Sign sha512 aes sbm inv' fuel ent D k id msg h.
Proof.
  intros sha512 aes sbm inv inv' fuel ent D k id msg h HD E. unfold SM2Sig.Sign.
  assert (L : forall f c draw i e, sign_loop sbm inv f c draw i (big_bytes D) e = sign_loop sbm inv' f c draw i (big_bytes D) e).
  { induction f as [|f IH]; intros c draw i e; [reflexivity|]. cbn [sign_loop]. cbv zeta. rewrite !IH, be2z_big_bytes, E by exact HD. reflexivity. }
  destruct (getZ msg (Some k) id h) as [[[mz hs]|]| |]; cbn [bind]; try reflexivity.
  destruct (hash_msg mz hs); cbn [bind]; try reflexivity. destruct ent; [|reflexivity].
  destruct (slice _ _ _); cbn [bind]; try reflexivity. destruct (_ =? 0); [reflexivity|]. rewrite L. reflexivity.
Qed.
Definition third : Z := 77194726140237499170946896809347261844041082483305163045229206237528959363949.
Lemma generic_inv_3 : generic_inv 3 = third.
Proof.
  pose proof (fermatInverse_ok 3) as H. change (3 mod cN =? 0) with false in H. cbv iota in H.
  pose proof (generic_inv_range 3) as R.
  revert H R. generalize (generic_inv 3). intros i H R.
  assert (D : (cN | 3 * (i - third))).
  { rewrite Z.mul_comm. apply Z.mod_divide; [discriminate|]. rewrite Z.mul_sub_distr_r, Zminus_mod, H. reflexivity. }
  apply Gauss in D.
  - destruct D as [q D]. assert (RT : 0 <= third < cN) by (split; [discriminate|reflexivity]). revert R RT D. generalize third. intros t R RT D. assert (q = 0) by nia. nia.
  - apply rel_prime_sym, rel_prime_le_prime; [exact prime_c_N_SM2P256V1|split; [lia|reflexivity]].
Qed.
(** with a constant key stream the nonce is 1; Sign returns, and Verify accepts what it returned *)
Example C76_example_sign : exists r s, SM2Sig.Sign toy_sha zero_aes generic_sbm generic_inv 1 (Ok (repeat 5 16)) 2 pub2 [] [104; 105] New = Val (Ok (r, s)) /\
  SM2Sig.Verify generic_comb pub2 [] [104; 105] New r s = Val true.
Proof.
  assert (I : inputs_ok pub2 [] [104; 105] New).
  { split; [reflexivity|]. split; [split; split; (discriminate || reflexivity)|]. split; [exact New_hasher|]. split; [constructor|].
    split; [repeat constructor; lia|]. split; reflexivity. }
  assert (S : exists rs, SM2Sig.Sign toy_sha zero_aes generic_sbm generic_inv 1 (Ok (repeat 5 16)) 2 pub2 [] [104; 105] New = Val (Ok rs)).
  { rewrite (Sign_ext _ _ _ generic_inv (fun _ => third)) by (lia || exact generic_inv_3). eexists. vm_compute. reflexivity. }
  destruct S as [[r s] S]. exists r, s. split; [exact S|].
  assert (HD : 1 <= 2 <= cN - 2) by (split; [lia|discriminate]).
  exact (proj2 (C76_sign_verify _ _ _ _ _ _ _ _ _ New r s I New_hasher HD generic_pub2 S)).
Qed.
Example C76_example_encrypt : exists c, Encrypt toy_sha zero_aes generic_sbm generic_sm 1 (Ok (repeat 5 16)) pub2 [104; 105; 33] = Val (Ok c) /\
  length c = 99%nat /\ forall spare, Decrypt generic_sm generic_on SM2P256V1 2 c spare = Val (Some [104; 105; 33], None).
Proof.
  apply (C76_encrypt_roundtrip toy_sha zero_aes (fun _ => eq_refl) (fun _ c H => eq_trans (repeat_length 0 (length c)) H)
    0 (repeat 5 16) pub2 [104; 105; 33] 2 (big_bytes G2x) eq_refl example_minimal); rewrite ?example_nonce.
  - split; [lia|reflexivity].
  - symmetry. exact generic_pub2.
  - exact example_octets.
  - reflexivity.
  - change (1 * 2) with 2. rewrite coords_2G. exact example_key.
Qed.
Example C76_example_vrf : forall sha256 rng rng' msg,
  exists fuel nizk, Vrf const_hash sha256 ScalarBaseMult ScalarMult fuel rng (Ok [1]) (SkEC 1 2 pub2) msg = Val (Ok (enc_pair (G2x, G2y), nizk)) /\
    Verify const_hash sha256 ScalarBaseMult ScalarMult Add IsOnCurve fuel rng' (PkEC 1 pub2) msg (enc_pair (G2x, G2y)) nizk = Val (true, None).
Proof.
  intros sha256 rng rng' msg. assert (W1 : wf_bytes [1]) by (repeat constructor; lia).
  pose proof (enc_co (gmul 2 cG)) as E2. rewrite coords_2G in E2. pose proof (enc_co cG) as E1. rewrite sm2_E_G in E1.
  assert (M : Marshal SM2 (pk_X pub2, pk_Y pub2) = Val (enc_pair (G2x, G2y))).
  { apply (marshal_iff SM2 a_SM2 sup_SM2 (pk_X pub2, pk_Y pub2)); [discriminate|discriminate|exact E2]. }
  assert (C : forall m, hashToCurve const_hash rng SM2 HSM3 m = Val (Some (c_Gx SM2, c_Gy SM2))).
  { intros m. destruct (C57_curve_complete const_hash const_ok SM2 a_SM2 HSM3 sup_SM2 eq_refl rng m _ _ (const_point _)) as [Q|[Q _]]; [exact Q|discriminate Q]. }
  assert (SG : forall b, wf_bytes b -> ScalarMult SM2 (c_Gx SM2, c_Gy SM2) b = co (gmul (be2z b) cG)) by (intros b W; exact (generic_base b W)).
  assert (MU : Marshal SM2 (ScalarMult SM2 (c_Gx SM2, c_Gy SM2) (big_bytes 2)) = Val (enc_pair (G2x, G2y))).
  { rewrite SG, be2z_big_bytes, coords_2G by (lia || apply big_bytes_wf). exact M. }
  assert (T : exists b, transcript SM2 (c_Gx SM2, c_Gy SM2) (pk_X pub2, pk_Y pub2) (enc_pair (G2x, G2y)) (ScalarBaseMult SM2 [1]) (ScalarMult SM2 (c_Gx SM2, c_Gy SM2) [1]) = Val b).
  { rewrite SG, generic_base by exact W1. change (be2z [1]) with 1. rewrite gmul_1, sm2_E_G.
    set (ge := enc_pair (c_Gx SM2, c_Gy SM2)) in *. set (pe := enc_pair (G2x, G2y)) in *. exists (ge ++ ge ++ pe ++ pe ++ ge ++ ge).
    assert (GX : 0 <= c_Gx SM2) by discriminate. assert (GY : 0 <= c_Gy SM2) by discriminate. assert (KX : 0 <= pk_X pub2) by discriminate. assert (KY : 0 <= pk_Y pub2) by discriminate.
    apply transcript_iff; try assumption. exists ge, ge, pe, ge, ge.
    split; [exact E1|]. split; [exact E1|]. split; [exact E2|]. split; [exact E1|]. split; [exact E1|reflexivity]. }
  destruct T as [b T].
  destruct (proj2 (C57_int_exact const_hash const_ok SM2 a_SM2 HSM3 sup_SM2 eq_refl b _) (const_int b)) as [fuel I].
  pose proof (vrf_forward const_hash const_ok sha256 ScalarBaseMult ScalarMult pub2 eq_refl fuel rng [1] 1 2 msg (enc_pair (G2x, G2y)) (c_Gx SM2, c_Gy SM2) _ b _ M (C _) MU T I) as EV.
  eexists. eexists. split; [exact EV|].
  destruct (C76_vrf_completeness const_hash const_ok sha256 pub2 eq_refl fuel fuel rng rng' [1] 1 1 2 msg _ _ ltac:(split; reflexivity) (eq_sym generic_pub2) W1 EV) as [V|[_ L]]; [exact V|lia].
Qed.

Print Assumptions C76_verify_exact.
Print Assumptions C76_sign_verify.
Print Assumptions C76_never_returns.
Print Assumptions C76_platforms.
Print Assumptions C76_encrypt_roundtrip.
Print Assumptions C76_vrf_completeness.
Print Assumptions C76_vrf_amd64.
