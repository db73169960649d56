(** * Prop_ECDSA2: property C78 on amd64, ECDSA with keys on the SM2 curve (SHA256withECDSA and the like with
    keys of algorithm SM2): crypto/ecdsa finds the methods Inverse and CombinedMult of sm2/p256_amd64.go *)
From Coq Require Import ZArith Znumtheory Zpow_facts String List Bool Lia.
From Verif Require Import Base BaseFacts Curves ECKey NumTheory LucasFacts Primes1 Primes3 Spec_EC ECFacts Spec_Group Spec_SM2 Prop_SM2 Prop_Keys Spec_Gen
  CurveZ CurveSub CurveSM2 P256 Spec_P256 Spec_P256b P256Booth P256Inv P256Sched P256Sched2 Prop_P256b Prop_P256c P256Point P256PointFacts Prop_P256d Spec_ECDSA ECDSA ECDSAFacts Prop_ECDSA.
Import ListNotations.
Open Scope Z_scope.
Notation sN := (c_N SM2P256V1).
Notation sG := (@eG sm2_E).

Lemma sm2_bits : bits_of sN 256.
Proof. split; [reflexivity|]. split; [discriminate|reflexivity]. Qed.

Section Amd.
Variable A : prims.
Hypothesis OK : prims_ok sm2_E A.
Hypothesis OM : mul_ok sN (a_ordmul A).
Hypothesis OL : l2b_ok (a_l2b A).
Lemma inv_right : forall k, 1 <= k <= sN - 1 -> (asm_inv A k * k) mod sN = 1.
Proof.
  intros k Hk. unfold asm_inv. destruct (C62_inverse A OM OL k) as (i & -> & _ & Hi & _).
  rewrite Z.abs_eq in Hi by lia. apply Hi. intros C. apply Z.divide_pos_le in C; lia.
Qed.
(** over correct assembly routines Verify refuses, of the valid signatures of non-zero digests, exactly those with
    r = -6 s modulo N or e G = r P *)
Theorem C78_amd64 : forall (P : pt (eg sm2_E)) pub dg r s, pk_curve pub = SM2P256V1 -> ecoords P = (pk_X pub, pk_Y pub) -> P <> gO -> octets dg ->
  let e := digest_int 256 dg in e mod sN <> 0 ->
  (exists b, Verify (fun _ => asm_inv A) (asm_comb A) pub dg r s = Val b) /\
  (Verify (fun _ => asm_inv A) (asm_comb A) pub dg r s = Val true <->
   ecdsa_accepts sm2_E P e r s /\ (r + 6 * s) mod sN <> 0 /\ gmul e sG <> gmul r P).
Proof.
  intros P pub dg r s Hc HC NP Od e NE.
  destruct (sm2_coords_ok P NP) as (RX & RY & _). rewrite HC in RX, RY. cbn [fst snd] in RX, RY.
  assert (HC' : ecoords P = (pk_X pub mod cP, pk_Y pub mod cP)) by (rewrite !Z.mod_small by lia; exact HC).
  destruct (verify_iff (fun _ => asm_inv A) (asm_comb A) pub 256 ltac:(rewrite Hc; exact sm2_bits) dg r s Od) as (b & V & B). split; [exists b; exact V|].
  rewrite V. assert (Q : Val b = Val true <-> b = true) by (split; [intros C; injection C as ->; reflexivity|intros ->; reflexivity]).
  rewrite Q, B. clear Q B V. rewrite Hc.
  assert (OUT : ~ (1 <= r <= sN - 1 /\ 1 <= s <= sN - 1) -> (1 <= r <= sN - 1 /\ 1 <= s <= sN - 1 /\
     (let xy := asm_comb A pub (big_bytes (u1 (fun _ => asm_inv A) pub 256 dg s)) (big_bytes (u2 (fun _ => asm_inv A) pub r s)) in xy <> (0, 0) /\ fst xy mod sN = r) <->
     ecdsa_accepts sm2_E P e r s /\ (r + 6 * s) mod sN <> 0 /\ gmul e sG <> gmul r P)).
  { intros NR. split; [intros (C & D & _); tauto|intros ((C & D & _) & _); rewrite sm2_E_N in C, D; tauto]. }
  destruct (Z_le_dec 1 s) as [S1|S1]; [|apply OUT; lia]. destruct (Z_le_dec s (sN - 1)) as [S2|S2]; [|apply OUT; lia].
  destruct (Z_le_dec 1 r) as [R1|R1]; [|apply OUT; lia]. destruct (Z_le_dec r (sN - 1)) as [R2|R2]; [|apply OUT; lia]. clear OUT.
  set (w := asm_inv A s). assert (I : (w * s) mod sN = 1) by (apply inv_right; lia).
  rewrite (accepts_with sm2_E P e r s w (killed P) I). rewrite sm2_E_N. cbv zeta.
  unfold u1, u2. rewrite Hc. fold e w. set (a := (e * w) mod sN). set (t := (r * w) mod sN).
  pose proof (Z.mod_pos_bound (e * w) sN ltac:(reflexivity)) as Ha. fold a in Ha. pose proof (Z.mod_pos_bound (r * w) sN ltac:(reflexivity)) as Ht. fold t in Ht.
  assert (Ea : be2z (big_bytes a) = a) by (apply be2z_big_bytes; lia). assert (Et : be2z (big_bytes t) = t) by (apply be2z_big_bytes; lia).
  assert (A0 : a <> 0) by (intros C; apply NE; apply (mul_inv_zero sN ltac:(reflexivity) s w e I); exact C).
  assert (T0 : t <> 0).
  { intros C. apply (mul_inv_zero sN ltac:(reflexivity) s w r I) in C. rewrite Z.mod_small in C; lia. }
  destruct (C61_combined sm2_E A OK sm2_coords_ok sm2_E_N sm2_E_G (big_bytes a) (big_bytes t) (pk_X pub) (pk_Y pub) P (big_bytes_wf a) (big_bytes_wf t) NP (killed P) ltac:(lia) ltac:(lia) HC') as [C1 C2].
  { rewrite Ea. rewrite Z.mod_small by lia. exact A0. }
  rewrite Ea, Et, (Z.mod_small t) in C1, C2 by lia.
  assert (T6 : t = sN - 6 <-> (r + 6 * s) mod sN = 0).
  { assert (TE : (t * s) mod sN = r mod sN).
    { unfold t. rewrite Z.mul_mod_idemp_l by discriminate. replace (r * w * s) with (r * (w * s)) by ring. rewrite <- Z.mul_mod_idemp_r, I, Z.mul_1_r by discriminate. reflexivity. }
    assert (T6' : (r + 6 * s) mod sN = ((t + 6) * s) mod sN).
    { replace ((t + 6) * s) with (t * s + 6 * s) by ring. rewrite <- (Z.add_mod_idemp_l (t * s)), TE, Z.add_mod_idemp_l by discriminate. reflexivity. }
    rewrite T6'. split.
    - intros ->. replace ((sN - 6 + 6) * s) with (s * sN) by ring. apply Z.mod_mul. discriminate.
    - intros C. apply Z.mod_divide in C; [|discriminate]. apply prime_mult in C; [|exact prime_c_N_SM2P256V1]. destruct C as [C|C].
      + destruct C as [q Q]. assert (sN > 100) by reflexivity. assert (q = 1) by nia. lia.
      + apply Z.divide_pos_le in C; lia. }
  assert (GE : gmul a sG = gmul t P <-> gmul e sG = gmul r P).
  { unfold a, t. rewrite !gmul_mod by (reflexivity || apply killed). split.
    - intros C. apply (f_equal (gmul s)) in C. rewrite <- !gmul_mul in C.
      assert (M : forall v (X : pt (eg sm2_E)), gmul (s * (v * w)) X = gmul v X).
      { intros v X. apply (gmul_cong _ sN); [reflexivity|apply killed|]. replace (s * (v * w)) with (v * (w * s)) by ring.
        rewrite <- Z.mul_mod_idemp_r, I, Z.mul_1_r by discriminate. reflexivity. }
      rewrite !M in C. exact C.
    - intros C. rewrite (Z.mul_comm e), (Z.mul_comm r), !gmul_mul, C. reflexivity. }
  assert (CV : forall v, CombinedMult A (pk_X pub) (pk_Y pub) (big_bytes a) (big_bytes t) = Val v -> asm_comb A pub (big_bytes a) (big_bytes t) = v).
  { intros v V. unfold asm_comb. rewrite V. reflexivity. }
  destruct (Z.eq_dec t (sN - 6)) as [X6|X6].
  - rewrite (CV _ (C2 (or_intror (or_introl X6)))). split; [intros (_ & _ & C & _); congruence|]. intros (_ & C & _). tauto.
  - assert (D : ecoords (gmul a sG) = ecoords (gmul t P) \/ ecoords (gmul a sG) <> ecoords (gmul t P)).
    { destruct (ecoords (gmul a sG)) as [p q], (ecoords (gmul t P)) as [p' q']. destruct (Z.eq_dec p p') as [->|]; [destruct (Z.eq_dec q q') as [->|]; [left; reflexivity|]|]; right; congruence. }
    destruct D as [D|D].
    + apply ecoords_inj in D. rewrite (CV _ (C2 (or_intror (or_intror D)))). split; [intros (_ & _ & C & _); congruence|]. intros (_ & _ & C). tauto.
    + assert (D' : gmul a sG <> gmul t P) by (intros C; apply D; rewrite C; reflexivity).
      rewrite (CV _ (C1 T0 X6 D')). split; [intros C; split; [exact C|]; tauto|]. intros (C & _). exact C.
Qed.
(** a signature with nonce k is valid *)
Lemma attempt_valid : forall D e k r s, 1 <= k <= sN - 1 -> dsa_attempt (fun k => fst (ecoords (gmul k sG))) sN D e k (Some (r, s)) ->
  ecdsa_accepts sm2_E (gmul D sG) e r s.
Proof.
  intros D e k r s Hk J2. inversion J2 as [r0 s0 R R0 S0 EQ|]. subst r0 s0.
  pose proof (Z.mod_pos_bound (fst (ecoords (gmul k sG))) sN ltac:(reflexivity)) as Rr. rewrite <- R in Rr.
  split; [rewrite sm2_E_N; lia|]. split; [rewrite sm2_E_N; lia|]. exists (asm_inv A s). rewrite sm2_E_N. pose proof (inv_right s ltac:(lia)) as I.
  split; [exact I|]. cbv zeta. rewrite <- gmul_mul, <- gmul_add. set (i := asm_inv A s) in *. clearbody i.
  assert (K : gmul (e * i + r * i * D) sG = gmul k sG).
  { apply (gmul_cong _ sN); [reflexivity|apply killed|]. replace (e * i + r * i * D) with ((e + r * D) * i) by ring.
    rewrite <- Z.mul_mod_idemp_l, <- EQ, Z.mul_mod_idemp_l by discriminate. replace (s * k * i) with (k * (i * s)) by ring.
    rewrite <- Z.mul_mod_idemp_r, I, Z.mul_1_r by discriminate. reflexivity. }
  rewrite K. split; [|symmetry; exact R]. intros C. apply (gmul_zero_iff _ sN k sG prime_c_N_SM2P256V1 (killed _) (eG_nonzero sm2_E)) in C. rewrite Z.mod_small in C; lia.
Qed.
Lemma attempt_ext : forall x x' N D e k o, x k = x' k -> dsa_attempt x N D e k o -> dsa_attempt x' N D e k o.
Proof. intros x x' N D e k o X H. destruct H as [r s R R0 S EQ|r R C]; rewrite X in R; [apply dsa_ok|apply (dsa_retry _ _ _ _ _ r)]; assumption. Qed.
Lemma signed_attempt : forall sha512 aes fuel ent D pub dg r s, pk_curve pub = SM2P256V1 -> octets dg ->
  Sign sha512 aes (fun _ => asm_sbm A) (fun _ => asm_inv A) fuel ent D pub dg = Val (Ok (r, s)) ->
  exists k, 1 <= k <= sN - 1 /\ dsa_attempt (fun k => fst (asm_sbm A (big_bytes k))) sN D (digest_int 256 dg) k (Some (r, s)).
Proof.
  intros sha512 aes fuel ent D pub dg r s Hc Od S.
  unfold Sign in S. destruct ent as [ent|]; [|discriminate]. apply bind_val in S as (key & _ & S). rewrite Hc in S. cbv zeta in S.
  change (sN =? 0) with false in S. cbv iota in S. apply bind_val in S as (rs & B1 & B2). assert (rs = (r, s)) by congruence. subst rs.
  apply (loop_first SM2P256V1 (fun _ => asm_sbm A) (fun _ => asm_inv A) fuel _ 0 D dg _ r s (hashToInt_ok dg _ 256 Od sm2_bits)) in B1.
  destruct B1 as (j & _ & J2 & _). symmetry in J2. eexists. split; [|exact (proj2 (attempt_iff SM2P256V1 eq_refl (fun _ => asm_sbm A) (fun _ => asm_inv A) inv_right D _ _ _ (nonce_range SM2P256V1 eq_refl _)) J2)].
  apply nonce_range. reflexivity.
Qed.
(** what Sign returns is valid, and accepted with the same exceptions *)
Theorem C78_amd64_sign : forall sha512 aes fuel ent D pub dg r s, pk_curve pub = SM2P256V1 -> octets dg -> 0 < D < sN ->
  (pk_X pub, pk_Y pub) = asm_sbm A (big_bytes D) -> let e := digest_int 256 dg in e mod sN <> 0 ->
  Sign sha512 aes (fun _ => asm_sbm A) (fun _ => asm_inv A) fuel ent D pub dg = Val (Ok (r, s)) ->
  ecdsa_accepts sm2_E (gmul D sG) e r s /\
  (Verify (fun _ => asm_inv A) (asm_comb A) pub dg r s = Val true <-> (r + 6 * s) mod sN <> 0 /\ (e - r * D) mod sN <> 0).
Proof.
  intros sha512 aes fuel ent D pub dg r s Hc Od HD HK e NE S.
  assert (SB : forall j, 0 <= j -> asm_sbm A (big_bytes j) = ecoords (gmul j sG)) by exact (asm_sbm_ok sm2_E A OK sm2_coords_ok sm2_E_N sm2_E_G).
  rewrite SB in HK by lia.
  assert (NO : gmul D sG <> gO).
  { intros C. apply (gmul_zero_iff _ sN D sG prime_c_N_SM2P256V1 (killed _) (eG_nonzero sm2_E)) in C. rewrite Z.mod_small in C; lia. }
  destruct (signed_attempt _ _ _ _ _ _ _ _ _ Hc Od S) as (k & Hk & AT).
  assert (AC : ecdsa_accepts sm2_E (gmul D sG) e r s).
  { apply (attempt_valid D e k r s Hk). apply (attempt_ext (fun k => fst (asm_sbm A (big_bytes k)))); [|exact AT]. rewrite SB by lia. reflexivity. }
  split; [exact AC|].
  destruct (C78_amd64 (gmul D sG) pub dg r s Hc (eq_sym HK) NO Od NE) as [_ V]. rewrite V. clear V.
  assert (EQ : gmul e sG = gmul r (gmul D sG) <-> (e - r * D) mod sN = 0).
  { clearbody e. rewrite <- gmul_mul, (gmul_inj _ sN e (r * D) sG prime_c_N_SM2P256V1 (killed _) (eG_nonzero sm2_E)). split; intros C.
    - rewrite Zminus_mod, C, Z.sub_diag. reflexivity.
    - apply Z.mod_divide in C; [|discriminate]. destruct C as [q Q]. replace e with (r * D + q * sN) by lia. apply Z.mod_add. discriminate. }
  fold e. rewrite EQ. clear - AC. tauto.
Qed.
End Amd.

(** ** Example: the private key 1 and the digest Gx.  The signature with nonce 1 is valid, and refused on amd64 *)
Notation sx := (c_Gx SM2P256V1).
Definition amd_pub : ecpub := {| pk_curve := SM2P256V1; pk_X := c_Gx SM2P256V1; pk_Y := c_Gy SM2P256V1 |}.
Lemma amd_dg : octets (to_be 32 sx) /\ digest_int 256 (to_be 32 sx) = sx /\ sx mod sN <> 0.
Proof. split; [apply to_be_wf|]. split; [vm_compute; reflexivity|vm_compute; discriminate]. Qed.
Lemma amd_valid : ecdsa_accepts sm2_E (gmul 1 sG) sx sx ((2 * sx) mod sN).
Proof.
  apply (attempt_valid exact_prims exact_ordmul_ok exact_l2b 1 sx 1); [split; [reflexivity|discriminate]|].
  assert (X : fst (ecoords (gmul 1 sG)) = sx) by (rewrite gmul_1, sm2_E_G; reflexivity).
  apply dsa_ok; [rewrite X; reflexivity|discriminate|split; reflexivity|reflexivity].
Qed.
Example C78_amd64_example : ecdsa_accepts sm2_E (gmul 1 sG) (digest_int 256 (to_be 32 sx)) sx ((2 * sx) mod sN) /\
  Verify (fun _ => asm_inv exact_prims) (asm_comb exact_prims) amd_pub (to_be 32 sx) sx ((2 * sx) mod sN) = Val false.
Proof.
  destruct amd_dg as (O & D & NZ).
  assert (P1 : ecoords (gmul 1 sG) = (pk_X amd_pub, pk_Y amd_pub)) by (rewrite gmul_1; exact sm2_E_G).
  assert (NG : gmul 1 sG <> gO) by (rewrite gmul_1; apply eG_nonzero).
  pose proof (C78_amd64 exact_prims exact_prims_ok exact_ordmul_ok exact_l2b (gmul 1 sG) amd_pub (to_be 32 sx) sx ((2 * sx) mod sN) eq_refl P1 NG O) as T.
  cbv zeta in T. rewrite D in *. split; [exact amd_valid|]. destruct (T NZ) as [[b V] I]. rewrite V in *. destruct b; [|reflexivity].
  exfalso. destruct (proj1 I eq_refl) as (_ & _ & C). apply C. rewrite gmul_1. reflexivity.
Qed.
Print Assumptions C78_amd64.
Print Assumptions C78_amd64_sign.
