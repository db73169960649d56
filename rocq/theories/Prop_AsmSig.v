(** * Prop_AsmSig: property C95, signatures and the verifiable random function on the SM2 curve with the
    instructions of /repo/sm2/p256_asm_amd64.s (/repo/sm2/signature.go, crypto/ecdsa through
    /repo/signature, /repo/vrf).  C61, C72 and C78 assume correct routines; the routines of the
    assembly are not (C68).  Here only the multiplications whose result matters are assumed to be
    clean runs (Spec_AsmClean), and what depends on no multiplication is proved without that. *)
From Coq Require Import ZArith Znumtheory Zpow_facts String List Bool Lia.
From Verif Require Import Base BaseFacts Curves ECKey Keypair SM3 Spec_SM3 SM3Facts NumTheory LucasFacts Primes1 Primes3 Spec_Group CurveZ CurveSub CurveSM2 SM2Sig Spec_EC ECFacts Spec_SM2
  Prop_Keys Prop_SM2 Prop_SM2b VRF Spec_VRF VRFFacts VRFFacts2 Prop_VRF Prop_VRF2
  P256 Spec_P256 Spec_P256b P256Booth P256Inv P256Sched P256Sched2 Prop_P256b Prop_P256c P256Point P256PointFacts Prop_P256d
  AsmVal AsmEq Spec_AsmClean AsmFix AsmSim AsmWit Prop_Asm2 SM2Enc SM2EncFacts Prop_SM2Enc4 Prop_VRF4
  Spec_Gen Spec_ECDSA ECDSA ECDSAFacts Prop_ECDSA Prop_ECDSA2.
From Verif Require Elliptic Prop_Generic.
Import ListNotations.
Open Scope Z_scope.
Notation kG := (@eG sm2_E).
Notation co := (@ecoords sm2_E).

(** ** The two inverses: the order multiplication of the assembly is right (C64), on all inputs *)
Lemma asm_inv_right : forall k, 1 <= k <= cN - 1 -> (asm_inv asm_prims k * k) mod cN = 1.
Proof. exact (inv_right asm_prims asm_ordmul_ok asm_l2b_ok). Qed.
Lemma asm_invertible : forall D, 1 <= D <= cN - 2 -> invertible (asm_inv asm_prims) D.
Proof. intros D HD. unfold invertible. apply asm_inv_right. lia. Qed.
Lemma clean_sbm : forall k, 0 <= k -> clean_base_mult (big_bytes k) = true -> asm_sbm asm_prims (big_bytes k) = co (gmul k kG).
Proof.
  intros k Hk C. unfold asm_sbm. rewrite C67_base by (apply big_bytes_wf || exact C). rewrite be2z_big_bytes by exact Hk. reflexivity.
Qed.
Lemma clean_comb : forall pub u v, clean_combined_mult (pk_X pub) (pk_Y pub) u v = true -> asm_comb asm_prims pub u v = asm_comb fixed pub u v.
Proof. intros pub u v C. unfold asm_comb. rewrite clean_combined_same by exact C. reflexivity. Qed.
Lemma nonzero_mul : forall D, 1 <= D <= cN - 1 -> gmul D kG <> gO.
Proof. intros D HD. apply gmul_G_nonzero. rewrite Z.mod_small; lia. Qed.

(** ** sm2.Sign: the signature determines the nonce.  It is valid exactly if the abscissa that was computed for
    that nonce is right modulo N, so it is if that one multiplication was clean; the other attempts do not
    matter *)
Theorem C95_sign : forall sha512 aes fuel ent D k id msg hasher r s,
  inputs_ok k id msg hasher -> 1 <= D <= cN - 2 ->
  SM2Sig.Sign sha512 aes (asm_sbm asm_prims) (asm_inv asm_prims) fuel ent D k id msg hasher = Val (Ok (r, s)) ->
  let kk := (s + (r + s) * D) mod cN in
  1 <= kk <= cN - 2 /\
  (sm2_accepts sm2_E (gmul D kG) (msg_e k id msg) r s <->
   fst (asm_sbm asm_prims (big_bytes kk)) mod cN = fst (co (gmul kk kG)) mod cN) /\
  (clean_base_mult (big_bytes kk) = true -> sm2_accepts sm2_E (gmul D kG) (msg_e k id msg) r s).
Proof.
  intros sha512 aes fuel ent D k id msg hasher r s I HD ES kk. pose proof (asm_invertible D HD) as HI.
  destruct (C44_ranges sha512 aes _ _ _ _ _ _ _ _ _ _ _ I (ltac:(lia) : 0 <= D) HI ES) as (Rr & Rs & Rt).
  apply Sign_inv in ES as (k0 & G); [|exact I|lia]. pose proof (sign_eq _ _ _ _ _ _ _ HI G) as [q EQ].
  destruct G as (Hk & Hr & _). 
  assert (K : kk = k0).
  { unfold kk. replace (s + (r + s) * D) with (k0 + q * cN) by lia. rewrite Z.mod_add by discriminate. apply Z.mod_small. lia. }
  assert (P : gadd (gmul s kG) (gmul (r + s) (gmul D kG)) = gmul k0 kG).
  { rewrite <- gmul_mul, <- gmul_add, <- K. unfold kk. symmetry. apply gmul_mod; [reflexivity|apply killed]. }
  rewrite K. split; [exact Hk|].
  assert (IFF : sm2_accepts sm2_E (gmul D kG) (msg_e k id msg) r s <->
    fst (asm_sbm asm_prims (big_bytes k0)) mod cN = fst (co (gmul k0 kG)) mod cN).
  { unfold sm2_accepts. cbv zeta. rewrite P, sm2_E_N. set (e := msg_e k id msg) in *. set (x := fst (asm_sbm asm_prims (big_bytes k0))) in *.
    set (x' := fst (co (gmul k0 kG))). clearbody e x x'. split.
    - intros (_ & _ & _ & _ & E). rewrite Hr in E.
      replace x with ((x + e) - e) by ring. replace x' with ((e + x') - e) by ring.
      rewrite (Zminus_mod (x + e)), (Zminus_mod (e + x')), E. reflexivity.
    - intros E. split; [lia|]. split; [lia|]. split; [exact Rt|]. split; [apply nonzero_mul; lia|].
      rewrite Hr, (Z.add_comm e), <- Z.add_mod_idemp_l, <- E, Z.add_mod_idemp_l by discriminate. reflexivity. }
  split; [exact IFF|]. intros C. apply IFF. rewrite clean_sbm by (lia || exact C). reflexivity.
Qed.
(** ** sm2.Verify on a clean run: the standard with the two exceptions of C61 *)
Theorem C95_verify : forall (P : pt (eg sm2_E)) pub id msg hasher r s, inputs_ok pub id msg hasher ->
  P <> gO -> co P = (pk_X pub, pk_Y pub) ->
  clean_combined_mult (pk_X pub) (pk_Y pub) (big_bytes s) (big_bytes ((r + s) mod cN)) = true ->
  (SM2Sig.Verify (asm_comb asm_prims) pub id msg hasher r s = Val true <->
   sm2_accepts sm2_E P (msg_e pub id msg) r s /\ (r + s) mod cN <> cN - 6 /\ gmul s kG <> gmul (r + s) P).
Proof.
  intros P pub id msg hasher r s I NP HC C.
  rewrite <- (C61_verify sm2_E fixed fixed_ok sm2_coords_ok sm2_E_N sm2_E_G P pub id msg hasher r s I NP (killed P) HC).
  destruct (Prop_SM2.verify_iff (asm_comb asm_prims) pub id msg hasher r s I) as (b & V & B).
  destruct (Prop_SM2.verify_iff (asm_comb fixed) pub id msg hasher r s I) as (b' & V' & B').
  rewrite V, V'. rewrite (clean_comb pub _ _ C) in B.
  assert (T : forall c, Val c = Val true <-> c = true) by (intros c; split; [intros H; injection H; auto|intros ->; reflexivity]).
  rewrite !T, B, B'. reflexivity.
Qed.
(** the two together: the runs for the nonce and for the verification are clean *)
Theorem C95_sign_verify : forall sha512 aes fuel ent D k id msg hasher hasher' r s,
  inputs_ok k id msg hasher -> hasher_ok hasher' -> 1 <= D <= cN - 2 -> co (gmul D kG) = (pk_X k, pk_Y k) ->
  SM2Sig.Sign sha512 aes (asm_sbm asm_prims) (asm_inv asm_prims) fuel ent D k id msg hasher = Val (Ok (r, s)) ->
  clean_base_mult (big_bytes ((s + (r + s) * D) mod cN)) = true ->
  clean_combined_mult (pk_X k) (pk_Y k) (big_bytes s) (big_bytes ((r + s) mod cN)) = true ->
  (SM2Sig.Verify (asm_comb asm_prims) k id msg hasher' r s = Val true <-> (r + s) mod cN <> cN - 6 /\ (s - (r + s) * D) mod cN <> 0).
Proof.
  intros sha512 aes fuel ent D k id msg hasher hasher' r s I Hh HD HP ES CB CC.
  assert (I' : inputs_ok k id msg hasher').
  { destruct I as (I1 & I2 & I3 & I4). exact (conj I1 (conj I2 (conj Hh (proj2 (conj I3 I4))))). }
  pose proof (proj2 (proj2 (C95_sign _ _ _ _ _ _ _ _ _ _ _ I HD ES)) CB) as ACC.
  rewrite (C95_verify (gmul D kG) k id msg hasher' r s I' (nonzero_mul D ltac:(lia)) HP CC).
  assert (EQ : gmul s kG = gmul (r + s) (gmul D kG) <-> (s - (r + s) * D) mod cN = 0).
  { rewrite <- gmul_mul, (gmul_inj _ cN s ((r + s) * D) kG prime_c_N_SM2P256V1 (killed _) (eG_nonzero sm2_E)). split; intros C.
    - rewrite Zminus_mod, C, Z.sub_diag. reflexivity.
    - apply Z.mod_divide in C; [|discriminate]. destruct C as [q Q]. replace s with ((r + s) * D + q * cN) at 1 by lia. apply Z.mod_add. discriminate. }
  rewrite EQ. clear - ACC. tauto.
Qed.

(** ** ECDSA with keys on this curve *)
Lemma same_quotient : forall v w w' s, (w * s) mod cN = 1 -> (w' * s) mod cN = 1 -> (v * w) mod cN = (v * w') mod cN.
Proof.
  intros v w w' s H H'. transitivity ((v * w * (w' * s)) mod cN).
  - rewrite <- (Z.mul_mod_idemp_r (v * w)), H', Z.mul_1_r by discriminate. reflexivity.
  - replace (v * w * (w' * s)) with (v * w' * (w * s)) by ring. rewrite <- (Z.mul_mod_idemp_r (v * w')), H, Z.mul_1_r by discriminate. reflexivity.
Qed.
Theorem C95_ecdsa_verify : forall (P : pt (eg sm2_E)) pub dg r s, pk_curve pub = SM2P256V1 -> co P = (pk_X pub, pk_Y pub) -> P <> gO -> octets dg ->
  let e := digest_int 256 dg in e mod cN <> 0 ->
  (forall w, (w * s) mod cN = 1 -> clean_combined_mult (pk_X pub) (pk_Y pub) (big_bytes ((e * w) mod cN)) (big_bytes ((r * w) mod cN)) = true) ->
  (ECDSA.Verify (fun _ => asm_inv asm_prims) (asm_comb asm_prims) pub dg r s = Val true <->
   ecdsa_accepts sm2_E P e r s /\ (r + 6 * s) mod cN <> 0 /\ gmul e kG <> gmul r P).
Proof.
  intros P pub dg r s Hc HC NP Od e NE CL.
  destruct (C78_amd64 fixed fixed_ok asm_ordmul_ok asm_l2b_ok P pub dg r s Hc HC NP Od NE) as [_ Q]. etransitivity; [|exact Q]. clear Q.
  assert (B256 : bits_of (c_N (pk_curve pub)) 256) by (rewrite Hc; exact sm2_bits).
  destruct (verify_iff (fun _ => asm_inv asm_prims) (asm_comb asm_prims) pub 256 B256 dg r s Od) as (b & V & B).
  destruct (verify_iff (fun _ => asm_inv fixed) (asm_comb fixed) pub 256 B256 dg r s Od) as (b' & V' & B').
  rewrite V, V'. unfold u1, u2 in B, B'. rewrite Hc in B, B'.
  assert (T : forall c, Val c = Val true <-> c = true) by (intros c; split; [intros H; injection H; auto|intros ->; reflexivity]).
  rewrite !T, B, B'. clear B B' V V' T. cbv zeta. fold e.
  assert (RW : 1 <= s <= cN - 1 -> asm_comb asm_prims pub (big_bytes ((e * asm_inv asm_prims s) mod cN)) (big_bytes ((r * asm_inv asm_prims s) mod cN)) =
    asm_comb fixed pub (big_bytes ((e * asm_inv fixed s) mod cN)) (big_bytes ((r * asm_inv fixed s) mod cN))).
  { intros R2. pose proof (asm_inv_right s R2) as I1. pose proof (inv_right fixed asm_ordmul_ok asm_l2b_ok s R2) as I2.
    rewrite (same_quotient e _ _ s I1 I2), (same_quotient r _ _ s I1 I2). apply clean_comb, CL. exact I2. }
  split; intros (R1 & R2 & R3); (split; [exact R1|split; [exact R2|]]); [rewrite <- RW by exact R2|rewrite RW by exact R2]; exact R3.
Qed.
Theorem C95_ecdsa_sign : forall sha512 aes fuel ent D pub dg r s, pk_curve pub = SM2P256V1 -> octets dg ->
  ECDSA.Sign sha512 aes (fun _ => asm_sbm asm_prims) (fun _ => asm_inv asm_prims) fuel ent D pub dg = Val (Ok (r, s)) ->
  let e := digest_int 256 dg in
  exists k, 1 <= k <= cN - 1 /\ (s * k) mod cN = (e + r * D) mod cN /\
  (ecdsa_accepts sm2_E (gmul D kG) e r s <-> fst (asm_sbm asm_prims (big_bytes k)) mod cN = fst (co (gmul k kG)) mod cN) /\
  (clean_base_mult (big_bytes k) = true -> ecdsa_accepts sm2_E (gmul D kG) e r s).
Proof.
  intros sha512 aes fuel ent D pub dg r s Hc Od ES e.
  destruct (signed_attempt asm_prims asm_ordmul_ok asm_l2b_ok _ _ _ _ _ _ _ _ _ Hc Od ES) as (k & Hk & AT). fold e in AT.
  inversion AT as [r0 s0 R R0 S0 EQ|]. subst r0 s0. exists k. split; [exact Hk|]. split; [exact EQ|].
  pose proof (Z.mod_pos_bound (fst (asm_sbm asm_prims (big_bytes k))) cN ltac:(reflexivity)) as Rr. rewrite <- R in Rr.
  pose proof (asm_inv_right s ltac:(lia)) as IV. set (w := asm_inv asm_prims s) in *. clearbody w.
  assert (IFF : ecdsa_accepts sm2_E (gmul D kG) e r s <-> fst (asm_sbm asm_prims (big_bytes k)) mod cN = fst (co (gmul k kG)) mod cN).
  { assert (K : gadd (gmul (e * w) kG) (gmul (r * w) (gmul D kG)) = gmul k kG).
    { rewrite <- gmul_mul, <- gmul_add. apply (gmul_cong _ cN); [reflexivity|apply killed|]. replace (e * w + r * w * D) with ((e + r * D) * w) by ring.
      rewrite <- Z.mul_mod_idemp_l, <- EQ, Z.mul_mod_idemp_l by discriminate. replace (s * k * w) with (k * (w * s)) by ring.
      rewrite <- Z.mul_mod_idemp_r, IV, Z.mul_1_r by discriminate. reflexivity. }
    rewrite (accepts_with sm2_E (gmul D kG) e r s w (killed _) IV). rewrite sm2_E_N. cbv zeta.
    rewrite !gmul_mod by (reflexivity || apply killed). rewrite K, <- R. split; [intros (_ & _ & _ & A); symmetry; exact A|].
    intros A. split; [lia|]. split; [lia|]. split; [|symmetry; exact A].
    rewrite <- (ecoords_O sm2_E). intros C. apply ecoords_inj in C. exact (nonzero_mul k Hk C). }
  split; [exact IFF|]. intros C. apply IFF. rewrite clean_sbm by (lia || exact C). reflexivity.
Qed.

(** ** The verifiable random function: honest proofs are accepted if the multiplications that the two sides make
    are clean and their scalars are not N - 6 *)
Section VRF.
Variable hash : hkind -> bytes -> bytes.
Hypothesis hash_ok : forall h m, wf_bytes (hash h m) /\ zlen (hash h m) = hSize h.
Variable sha256 : bytes -> bytes.
Variable add : curve -> Z * Z -> Z * Z -> Z * Z.
Variable onCurve : curve -> Z * Z -> bool.
Hypothesis add_right : forall P Q, add SM2 (co P) (co Q) = co (gadd P Q).
Hypothesis on_right : forall x y, 0 <= x < cP -> 0 <= y < cP -> (onCurve SM2 (x, y) = true <-> on_sm2 x y).
Definition v_sbm (c : curve) (b : bytes) : Z * Z := asm_sbm asm_prims b.
Definition v_sm (c : curve) (p : Z * Z) (b : bytes) : Z * Z := asm_sm asm_prims (fst p) (snd p) b.
(** a clean run with the scalar b on the point p, and b is not the scalar that C61 excepts *)
Definition clean_at (p : Z * Z) (b : bytes) : Prop := clean_scalar_mult (fst p) (snd p) b = true /\ be2z b mod cN <> cN - 6.
Lemma v_sm_right : forall (P : pt (eg sm2_E)) x y b, eat P x y -> 0 <= x -> 0 <= y -> wf_bytes b -> clean_at (x, y) b -> v_sm SM2 (x, y) b = co (gmul (be2z b) P).
Proof.
  intros P x y b A X Y W [C N6]. unfold v_sm, asm_sm. cbn [fst snd] in *. rewrite (clean_scalar_same x y b C).
  rewrite (C61_scalar sm2_E fixed fixed_ok sm2_coords_ok b x y P W (eat_not_O P x y A) (killed P) X Y (eat_of P x y A)).
  destruct (Z.eqb_spec (be2z b mod cN) (cN - 6)); [contradiction|reflexivity].
Qed.
Lemma v_sm_co : forall (P : pt (eg sm2_E)) b, P <> gO -> wf_bytes b -> clean_at (co P) b -> v_sm SM2 (co P) b = co (gmul (be2z b) P).
Proof.
  intros P b NP W C. destruct (co_range P) as [RX RY]. rewrite (surjective_pairing (co P)) in *. cbn [fst snd] in *.
  apply v_sm_right; try lia; try assumption. apply eat_coords. exact NP.
Qed.
Theorem C95_vrf : forall k, pk_curve k = SM2 -> forall fuel fuel' rng rng' rb alg alg' D msg vrf nizk,
  0 < D < cN -> (pk_X k, pk_Y k) = co (gmul D kG) -> wf_bytes rb ->
  let sb := firstn 32 nizk in let tb := skipn 32 nizk in
  clean_base_mult rb = true -> clean_base_mult tb = true -> clean_at (pk_X k, pk_Y k) sb ->
  (forall pkb hx hy, sec1_uncompressed 32 (pk_X k) (pk_Y k) pkb -> to_point (hash HSM3) 32 SM2 a_SM2 (pkb ++ msg) hx hy ->
     clean_at (hx, hy) (big_bytes D) /\ clean_at (hx, hy) rb /\ clean_at (hx, hy) tb /\
     forall P, eat P hx hy -> clean_at (co (gmul D P)) sb) ->
  Vrf hash sha256 v_sbm v_sm fuel rng (Ok rb) (SkEC alg D k) msg = Val (Ok (vrf, nizk)) ->
  VRF.Verify hash sha256 v_sbm v_sm add onCurve fuel' rng' (PkEC alg' k) msg vrf nizk = Val (true, None) \/
  (VRF.Verify hash sha256 v_sbm v_sm add onCurve fuel' rng' (PkEC alg' k) msg vrf nizk = OutOfFuel /\ (fuel' < fuel)%nat).
Proof.
  intros k Hc fuel fuel' rng rng' rb alg alg' D msg vrf nizk HD PK Wr sb tb CB CT CK CH EV.
  apply (completeness_core hash hash_ok sha256 v_sbm v_sm add onCurve add_right on_right k Hc fuel fuel' rng rng' rb alg alg' D msg vrf nizk HD PK Wr); [|exact EV].
  destruct (vrf_inv hash hash_ok sha256 v_sbm v_sm a_SM2 k HSM3 (Hs k Hc) (GH k Hc) _ _ _ _ _ _ _ _ EV) as (rb' & pkb' & H' & b' & s & _ & _ & _ & _ & _ & _ & EN).
  assert (Wz : wf_bytes nizk) by (rewrite EN; apply wf_app; split; apply to_be_wf). clear EN EV.
  assert (Ws : wf_bytes sb) by (apply wf_firstn; exact Wz). assert (Wt : wf_bytes tb) by (apply wf_skipn; exact Wz).
  intros pkb hx hy EP TP. destruct (CH pkb hx hy EP TP) as (C1 & C2 & C3 & C4).
  destruct (hashed_point hash hash_ok _ _ _ TP) as (X0 & Y0 & O). destruct (sm2_point hx hy O) as [P A]. specialize (C4 P A).
  exists P. pose proof (eat_not_O P hx hy A) as NP. split; [exact NP|].
  assert (ND : gmul D kG <> gO) by (apply nonzero_mul; lia).
  assert (NDP : gmul D P <> gO) by (apply gmul_nonzero; [exact NP|rewrite Z.mod_small; lia]).
  fold sb tb. clearbody sb tb. rewrite PK in CK.
  assert (SB : forall b, wf_bytes b -> clean_base_mult b = true -> v_sbm SM2 b = co (gmul (be2z b) kG)) by (intros b W C; unfold v_sbm, asm_sbm; rewrite C67_base by assumption; reflexivity).
  unfold calls_right. rewrite !SB by assumption. rewrite !(v_sm_right P hx hy) by (assumption || apply big_bytes_wf).
  rewrite !v_sm_co by assumption. rewrite be2z_big_bytes by lia. repeat split; reflexivity.
Qed.
End VRF.
Print Assumptions C95_sign.
Print Assumptions C95_verify.
Print Assumptions C95_sign_verify.
Print Assumptions C95_ecdsa_verify.
Print Assumptions C95_ecdsa_sign.
Print Assumptions C95_vrf.

(** ** Examples *)
Lemma New_hasher : hasher_ok New. Proof. reflexivity. Qed.
Lemma pub2_inputs : inputs_ok pub2 [] [104; 105] New.
Proof.
  split; [reflexivity|]. split; [split; split; (discriminate || reflexivity)|]. split; [exact New_hasher|]. split; [constructor|].
  split; [repeat constructor; lia|]. split; reflexivity.
Qed.
Lemma asm_sbm_1 : asm_sbm asm_prims (big_bytes 1) = (c_Gx SM2, c_Gy SM2).
Proof. change (big_bytes 1) with [1]. unfold asm_sbm. rewrite one_ok. reflexivity. Qed.
Lemma zero_nonce : forall key, nonce cN (zero_aes key) 0 = 1.
Proof. intros key. vm_compute. reflexivity. Qed.
(** Sign with the nonce 1, and the key 2: the run is clean and the signature valid *)
Example C95_example_sign : exists r s, SM2Sig.Sign toy_sha zero_aes (asm_sbm asm_prims) (asm_inv asm_prims) 1 (Ok (repeat 5 16)) 2 pub2 [] [104; 105] New = Val (Ok (r, s)) /\
  (s + (r + s) * 2) mod cN = 1 /\ sm2_accepts sm2_E (gmul 2 kG) (msg_e pub2 [] [104; 105]) r s.
Proof.
  assert (HD : 1 <= 2 <= cN - 2) by (split; [lia|discriminate]).
  set (third := 77194726140237499170946896809347261844041082483305163045229206237528959363949).
  pose proof (fun r s => C65_nonces toy_sha zero_aes (asm_sbm asm_prims) (asm_inv asm_prims) (fun _ => eq_refl) (fun _ c H => eq_trans (repeat_length 0 (length c)) H)
    1 (repeat 5 16) 2 pub2 [] [104; 105] New _ _ _ r s pub2_inputs ltac:(lia) (asm_invertible 2 HD)
    (proj2 (minimal_big_bytes (pk_X pub2) _ ltac:(discriminate)) eq_refl) (proj2 (minimal_big_bytes (pk_Y pub2) _ ltac:(discriminate)) eq_refl)
    (proj2 (minimal_big_bytes 2 _ ltac:(discriminate)) eq_refl)) as T. cbv zeta in T.
  match type of T with context [value ?d 0] => set (dg := d) in T end.
  assert (EV : exists v, value dg 0 = v /\ let r := (v + c_Gx SM2) mod cN in let s := ((1 - r * 2) * third) mod cN in
    r <> 0 /\ r + 1 <> cN /\ 0 < s < cN /\ (s * (1 + 2)) mod cN = (1 - r * 2) mod cN /\ (s + (r + s) * 2) mod cN = 1).
  { eexists. split; [vm_compute; reflexivity|]. vm_compute. repeat split; discriminate. }
  destruct EV as (v & EV & R0 & RN & S0 & SE & KK). rewrite EV in T. clear EV. clearbody dg.
  set (r := (v + c_Gx SM2) mod cN) in *. set (s := ((1 - r * 2) * third) mod cN) in *. exists r, s.
  assert (S : SM2Sig.Sign toy_sha zero_aes (asm_sbm asm_prims) (asm_inv asm_prims) 1 (Ok (repeat 5 16)) 2 pub2 [] [104; 105] New = Val (Ok (r, s))).
  { apply T. exists 0%nat. split; [lia|]. split; [|intros j Hj; lia]. rewrite zero_nonce. apply at_ok; try assumption. rewrite asm_sbm_1. reflexivity. }
  split; [exact S|]. split; [exact KK|]. apply (proj2 (proj2 (C95_sign _ _ _ _ _ _ _ _ _ _ _ pub2_inputs HD S))). rewrite KK. exact one_clean.
Qed.
(** Verify with the key 1 and the pair (1, 1): a clean run that adds G and 2 G *)
Definition pub1 : ecpub := {| pk_curve := SM2P256V1; pk_X := c_Gx SM2P256V1; pk_Y := c_Gy SM2P256V1 |}.
Lemma one_two : gmul 1 kG <> gmul 2 kG.
Proof.
  intros C. assert (Z : gmul (2 - 1) kG = gO) by (rewrite gmul_sub, <- C; apply gadd_neg).
  apply (gmul_zero_iff _ cN _ kG prime_c_N_SM2P256V1 (killed _) (eG_nonzero sm2_E)) in Z. discriminate Z.
Qed.
Example C95_example_verify : forall id msg, octets id -> octets msg -> zlen id < 2 ^ 60 -> zlen msg < 2 ^ 60 ->
  (SM2Sig.Verify (asm_comb asm_prims) pub1 id msg New 1 1 = Val true <-> (msg_e pub1 id msg + fst (co (gmul 3 kG))) mod cN = 1).
Proof.
  intros id msg O1 O2 L1 L2.
  rewrite (C95_verify kG pub1 id msg New 1 1); [|split; [reflexivity|]; split; [split; split; discriminate || reflexivity|]; split; [reflexivity|]; tauto|apply eG_nonzero|exact sm2_E_G|exact three_clean].
  unfold sm2_accepts. rewrite sm2_E_N. cbv zeta. change (1 + 1) with 2. rewrite <- gmul_add. change (1 + 2) with 3.
  split; [intros ((_ & _ & _ & _ & H) & _); exact H|]. intros H.
  split; [|split; [discriminate|exact one_two]].
  repeat (split; [split; [lia|discriminate]|]). split; [discriminate|]. split; [apply nonzero_mul; split; [lia|discriminate]|exact H].
Qed.
(** ECDSA with the key 1: the signature of the digest s with r = x(3 G) and s = r / 2, whose verification is the
    same clean run *)
Definition x3 : Z := 0xa97f7cd4b3c993b4be2daa8cdb41e24ca13f6bd945302244e26918f1d0509ebf.
Definition s3 : Z := 0xd4bfbe69d9e4c9da5f16d5466da0f12609a1a5a2337b13b81b12867d8512eff1.
Lemma coords_3G : fst (co (gmul 3 kG)) = x3.
Proof.
  assert (A2 : eat (gmul 2 kG) G2x G2y).
  { pose proof (eat_coords (gmul 2 kG) (nonzero_mul 2 ltac:(split; [lia|discriminate]))) as A. rewrite coords_2G in A. exact A. }
  change 3 with (1 + 2). rewrite gmul_add, gmul_1.
  set (l := 0x79caf301142205289d8ebed5e2a2040fe6a998ec20ec6bfa3a0acad3a682199d).
  assert (A3 : eat (gadd kG (gmul 2 kG)) (l * l - c_Gx SM2P256V1 - G2x) (l * (c_Gx SM2P256V1 - (l * l - c_Gx SM2P256V1 - G2x)) - c_Gy SM2P256V1)).
  { apply (at_chord cP prime_c_P_SM2P256V1 sm2_odd (-3) qB sm2_disc _ _ _ _ _ _ l sm2_G_at A2).
    - apply not_div. reflexivity.
    - apply Z.mod_divide; [discriminate|]. reflexivity. }
  rewrite (eat_of _ _ _ A3). reflexivity.
Qed.
Example C95_example_ecdsa : ECDSA.Verify (fun _ => asm_inv asm_prims) (asm_comb asm_prims) pub1 (to_be 32 s3) x3 s3 = Val true.
Proof.
  assert (E : digest_int 256 (to_be 32 s3) = s3) by (vm_compute; reflexivity).
  assert (W2 : exists w, (w * s3) mod cN = 1).
  { exists (asm_inv asm_prims s3). apply asm_inv_right. split; [discriminate|]. vm_compute. discriminate. }
  assert (Q : forall w, (w * s3) mod cN = 1 -> (s3 * w) mod cN = 1 /\ (x3 * w) mod cN = 2).
  { intros w H. split; [rewrite Z.mul_comm; exact H|]. assert (X : x3 = (s3 * 2) mod cN) by (vm_compute; reflexivity).
    rewrite X, Z.mul_mod_idemp_l by discriminate. replace (s3 * 2 * w) with (2 * (w * s3)) by ring. rewrite <- Z.mul_mod_idemp_r, H by discriminate. reflexivity. }
  apply (C95_ecdsa_verify kG pub1); cbv zeta; rewrite ?E.
  - reflexivity.
  - exact sm2_E_G.
  - apply eG_nonzero.
  - apply to_be_wf.
  - vm_compute. discriminate.
  - intros w H. destruct (Q w H) as [-> ->]. exact three_clean.
  - destruct W2 as [w H]. destruct (Q w H) as [Q1 Q2]. split; [|split].
    + apply (accepts_with sm2_E kG s3 x3 s3 w (killed _) H). rewrite sm2_E_N. split; [split; vm_compute; discriminate|]. split; [split; vm_compute; discriminate|].
      cbv zeta. rewrite Q1, Q2, <- gmul_add. change (1 + 2) with 3. split; [|rewrite coords_3G; vm_compute; reflexivity].
      intros C. apply (f_equal fst) in C. rewrite coords_3G in C. discriminate C.
    + vm_compute. discriminate.
    + intros C. apply (gmul_inj _ cN s3 x3 kG prime_c_N_SM2P256V1 (killed _) (eG_nonzero sm2_E)) in C. vm_compute in C. discriminate C.
Qed.
(** The verifiable random function with the key 1, the random scalar 1 and a hash function that maps short strings
    to the abscissa of the base point and long ones to 0: s = 1 and t = 0 *)
Lemma careful_0 p : p256ScalarMult careful_prims p [0; 0; 0; 0] = Val (repeat 0 12).
Proof.
  assert (W : forall i, (i < 51)%nat -> window [0; 0; 0; 0] 0x3f (4 + 5 * Z.of_nat i) = 0) by exact (windows_small [0; 0; 0; 0] eq_refl).
  unfold p256ScalarMult. set (T := scalar_table careful_prims p). clearbody T. cbv zeta.
  change 254 with (4 + 5 * Z.of_nat 50). rewrite W by lia. change (boothW5 0) with (0, 0). cbv beta iota.
  change (a_select careful_prims T 0) with (repeat 0 12). rewrite (loop_zero careful_prims eq_refl eq_refl eq_refl) by (intros i Hi; apply W; lia). cbn [bind].
  change (window0 [0; 0; 0; 0] 0x3f) with 0. rewrite (round_zero careful_prims eq_refl eq_refl eq_refl). reflexivity.
Qed.
Definition zero32 : bytes := to_be 32 0.
Definition one32 : bytes := to_be 32 1.
Lemma zero_base_clean : clean_base_mult zero32 = true.
Proof.
  unfold clean_base_mult, base_point. change (p256GetScalar zero32) with (Val [0; 0; 0; 0]). cbn [bind]. generalize (initTable careful_prims). intros t. vm_compute. reflexivity.
Qed.
Lemma zero_scalar_clean : clean_scalar_mult (c_Gx SM2) (c_Gy SM2) zero32 = true.
Proof.
  unfold clean_scalar_mult, scalar_point. change (p256GetScalar zero32) with (Val [0; 0; 0; 0]). cbn [bind]. rewrite G_load. cbn [bind]. rewrite careful_0. reflexivity.
Qed.
Lemma one_G_clean : forall b, p256GetScalar b = Val [1; 0; 0; 0] -> clean_scalar_mult (c_Gx SM2) (c_Gy SM2) b = true.
Proof.
  intros b E. unfold clean_scalar_mult, scalar_point. rewrite E. cbn [bind]. rewrite G_load. cbn [bind]. rewrite careful_1 by reflexivity. cbn [unmarked]. vm_compute. reflexivity.
Qed.
Definition len_hash (h : hkind) (m : bytes) : bytes := to_be (Z.to_nat (hSize h)) (if (200 <? length m)%nat then 0 else c_Gx SM2).
Lemma len_ok : forall h m, wf_bytes (len_hash h m) /\ zlen (len_hash h m) = hSize h.
Proof. intros h m. unfold len_hash. split; [apply to_be_wf|]. unfold zlen. rewrite to_be_length. destruct h; reflexivity. Qed.
Lemma len_candidate : forall i m, candidate (len_hash HSM3) 32 i m = if (196 <? length m)%nat then 0 else c_Gx SM2.
Proof.
  intros i m. unfold candidate, len_hash. assert (L : length (counter i ++ m) = (4 + length m)%nat) by (rewrite app_length; reflexivity).
  unfold bytes in *. rewrite L. replace (200 <? 4 + length m)%nat with (196 <? length m)%nat.
  - destruct (196 <? length m)%nat; vm_compute; reflexivity.
  - destruct (Nat.ltb_spec 196 (length m)), (Nat.ltb_spec 200 (4 + length m)); reflexivity || lia.
Qed.
Lemma len_point : forall m, (length m <= 196)%nat -> to_point (len_hash HSM3) 32 SM2 a_SM2 m (c_Gx SM2) (c_Gy SM2).
Proof.
  intros m L. assert (ON : curve_eq (c_P SM2) a_SM2 (c_B SM2) (c_Gx SM2) (c_Gy SM2)) by (apply curve_eq_on; apply C63_constants).
  assert (C : candidate (len_hash HSM3) 32 0 m = c_Gx SM2) by (rewrite len_candidate; destruct (Nat.ltb_spec 196 (length m)); [lia|reflexivity]).
  rewrite <- C at 1. apply to_point_first with (i := 0); rewrite ?C.
  - lia.
  - intros j Hj. lia.
  - exists (c_Gy SM2). split; [exact ON|intros Q; discriminate Q].
  - exact ON.
  - split; [discriminate|reflexivity].
  - reflexivity.
Qed.
Lemma len_int : forall m, (196 < length m)%nat -> to_int (len_hash HSM3) 32 cN m 1.
Proof.
  intros m L. assert (C : candidate (len_hash HSM3) 32 0 m = 0) by (rewrite len_candidate; destruct (Nat.ltb_spec 196 (length m)); [reflexivity|lia]).
  change 1 with (0 + 1). rewrite <- C at 1. apply to_int_first; [lia|intros j Hj; lia|]. rewrite C. reflexivity.
Qed.
Example C95_example_vrf : forall sha256 rng rng', exists fuel,
  Vrf len_hash sha256 v_sbm v_sm fuel rng (Ok [1]) (SkEC 1 1 pub1) [104; 105] = Val (Ok (enc_pair (c_Gx SM2, c_Gy SM2), one32 ++ zero32)) /\
  VRF.Verify len_hash sha256 v_sbm v_sm Elliptic.Add Elliptic.IsOnCurve fuel rng' (PkEC 1 pub1) [104; 105] (enc_pair (c_Gx SM2, c_Gy SM2)) (one32 ++ zero32) = Val (true, None).
Proof.
  intros sha256 rng rng'. assert (W1 : wf_bytes [1]) by (repeat constructor; lia).
  pose proof (enc_co kG) as E1. rewrite sm2_E_G in E1. cbn [fst snd] in E1.
  set (ge := enc_pair (c_Gx SM2, c_Gy SM2)) in *.
  assert (AT : eat kG (c_Gx SM2) (c_Gy SM2)) by exact sm2_G_at.
  assert (M : Marshal SM2 (c_Gx SM2, c_Gy SM2) = Val ge) by (apply (marshal_iff SM2 a_SM2 sup_SM2 (c_Gx SM2, c_Gy SM2)); [discriminate|discriminate|exact E1]).
  assert (LG : length ge = 65%nat) by reflexivity.
  assert (TP : to_point (len_hash HSM3) 32 SM2 a_SM2 (ge ++ [104; 105]) (c_Gx SM2) (c_Gy SM2)) by (apply len_point; rewrite app_length, LG; cbn [length]; lia).
  assert (C : hashToCurve len_hash rng SM2 HSM3 (ge ++ [104; 105]) = Val (Some (c_Gx SM2, c_Gy SM2))).
  { destruct (C57_curve_complete len_hash len_ok SM2 a_SM2 HSM3 sup_SM2 eq_refl rng _ _ _ TP) as [Q|[Q _]]; [exact Q|discriminate Q]. }
  assert (C1 : clean_at (c_Gx SM2, c_Gy SM2) [1]) by (split; [apply one_G_clean; reflexivity|discriminate]).
  assert (SG : v_sm SM2 (c_Gx SM2, c_Gy SM2) [1] = (c_Gx SM2, c_Gy SM2)).
  { rewrite (v_sm_right kG) by (assumption || discriminate). change (be2z [1]) with 1. rewrite gmul_1. exact sm2_E_G. }
  assert (T : transcript SM2 (c_Gx SM2, c_Gy SM2) (c_Gx SM2, c_Gy SM2) ge (v_sbm SM2 [1]) (v_sm SM2 (c_Gx SM2, c_Gy SM2) [1]) = Val (ge ++ ge ++ ge ++ ge ++ ge ++ ge)).
  { rewrite SG. unfold v_sbm, asm_sbm. rewrite one_ok.
    assert (GX : 0 <= c_Gx SM2) by discriminate. assert (GY : 0 <= c_Gy SM2) by discriminate.
    apply transcript_iff; try assumption. exists ge, ge, ge, ge, ge. auto 8. }
  assert (LT : (196 < length (ge ++ ge ++ ge ++ ge ++ ge ++ ge))%nat) by (rewrite !app_length, LG; lia).
  destruct (proj2 (C57_int_exact len_hash len_ok SM2 a_SM2 HSM3 sup_SM2 eq_refl _ _) (len_int _ LT)) as [fuel I].
  pose proof (vrf_forward len_hash len_ok sha256 v_sbm v_sm pub1 eq_refl fuel rng [1] 1 1 [104; 105] ge (c_Gx SM2, c_Gy SM2) ge _ 1 M C
    (eq_trans (f_equal (Marshal SM2) SG) M) T I) as EV.
  change (to_be 32 1 ++ to_be 32 ((be2z [1] - 1 * 1) mod cN)) with (one32 ++ zero32) in EV.
  exists fuel. split; [exact EV|].
  assert (PK : (pk_X pub1, pk_Y pub1) = co (gmul 1 kG)) by (rewrite gmul_1, sm2_E_G; reflexivity).
  assert (F1 : firstn 32 (one32 ++ zero32) = one32) by reflexivity. assert (F2 : skipn 32 (one32 ++ zero32) = zero32) by reflexivity.
  assert (CO : clean_at (c_Gx SM2, c_Gy SM2) one32) by (split; [apply one_G_clean; reflexivity|vm_compute; discriminate]).
  destruct (C95_vrf len_hash len_ok sha256 Elliptic.Add Elliptic.IsOnCurve Prop_Generic.generic_add (fun x y _ _ => Prop_Generic.generic_on_iff x y)
    pub1 eq_refl fuel fuel rng rng' [1] 1 1 1 [104; 105] ge (one32 ++ zero32) ltac:(split; reflexivity) PK W1) as [V|[_ L]]; rewrite ?F1, ?F2; try assumption; try lia.
  - exact one_clean.
  - exact zero_base_clean.
  - intros pkb hx hy EP TP'.
    assert (pkb = ge) as ->.
    { pose proof (proj2 (marshal_iff SM2 a_SM2 sup_SM2 (pk_X pub1, pk_Y pub1) pkb ltac:(discriminate) ltac:(discriminate)) EP) as M'. change (pk_X pub1, pk_Y pub1) with (c_Gx SM2, c_Gy SM2) in M'. rewrite M in M'. congruence. }
    assert (HH : (hx, hy) = (c_Gx SM2, c_Gy SM2)).
    { destruct (C57_curve_complete len_hash len_ok SM2 a_SM2 HSM3 sup_SM2 eq_refl rng _ _ _ TP') as [Q|[Q _]]; [|discriminate Q]. rewrite C in Q. congruence. }
    rewrite HH. split; [exact C1|]. split; [exact C1|]. split; [split; [exact zero_scalar_clean|discriminate]|].
    intros P AP. injection HH as -> ->. rewrite gmul_1. rewrite (eat_of P _ _ AP). exact CO.
Qed.
