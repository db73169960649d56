(** * BtcecFacts: the compact signatures of btcec over the group of the curve *)
From Coq Require Import ZArith Znumtheory Zpow_facts String List Bool Lia.
From Verif Require Import Base BaseFacts Curves ECKey NumTheory LucasFacts Spec_EC ECFacts Spec_Group Spec_SM2 Spec_Gen Spec_ECDSA ECDSA ECDSAFacts
  CurveZ CurveK Spec_Btcec Btcec.
Import ListNotations.
Open Scope Z_scope.

Lemma odd_opp : forall p y, p mod 4 = 3 -> Z.odd (p - y) = negb (Z.odd y).
Proof.
  intros p y H. rewrite Z.odd_sub. assert (O : Z.odd p = true).
  { rewrite (Z.div_mod p 4) by lia. rewrite H, Z.odd_add, Z.odd_mul. reflexivity. }
  rewrite O. destruct (Z.odd y); reflexivity.
Qed.
Lemma mod2_odd : forall z, (z mod 2 =? 1) = Z.odd z.
Proof. intros z. rewrite Zmod_odd. destruct (Z.odd z); reflexivity. Qed.

Section K.
Variable K : kcurve.
Notation p := (c_P K). Notation N := (c_N K). Notation B := (c_B K).
Notation point := (pt (kgroup K)).
Notation co := (kco K).
Notation E := (kE K).
Notation G := (k_G K : point).
Lemma p_pos : 2 < p. Proof. apply k_odd. Qed.
Lemma Npos : 1 < N. Proof. pose proof (k_N2 K). lia. Qed.

(** ** decompressPoint *)
Lemma root_dec : forall y y', 0 <= y < p -> 0 <= y' < p -> (y * y) mod p = (y' * y') mod p -> y = y' \/ y = (- y') mod p.
Proof.
  intros y y' R R' H. pose proof p_pos as P2.
  assert (D : (p | (y - y') * (y + y'))).
  { replace ((y - y') * (y + y')) with (y * y - y' * y') by ring. apply Z.mod_divide; [lia|]. rewrite Zminus_mod, H, Z.sub_diag. apply Z.mod_0_l. lia. }
  apply prime_mult in D; [|apply k_p]. destruct D as [[k D]|[k D]].
  - left. assert (k = 0) by nia. lia.
  - right. assert (HK : k = 0 \/ k = 1) by nia. destruct HK as [-> | ->].
    + assert (y = 0 /\ y' = 0) as [-> ->] by lia. rewrite Z.mod_0_l by lia. reflexivity.
    + apply (Z.mod_unique (- y') p (-1)); lia.
Qed.
Lemma decompress_ok : forall x b y, 0 <= x < p ->
  (decompressPoint K x b = Ok y <-> exists P : point, P <> gO /\ co P = (x, y) /\ Z.odd y = b).
Proof.
  intros x b y RX. pose proof p_pos as P2. unfold decompressPoint. cbv zeta. set (x3 := (x * x * x + B) mod p).
  rewrite powm_spec by (try apply Z.div_pos; lia). set (y0 := x3 ^ ((p + 1) / 4) mod p).
  assert (R0 : 0 <= y0 < p) by (apply Z.mod_pos_bound; lia).
  set (y1 := if eqb b (Z.odd y0) then y0 else (- y0) mod p).
  assert (R1 : 0 <= y1 < p) by (unfold y1; destruct (eqb b _); [exact R0|apply Z.mod_pos_bound; lia]).
  assert (S1 : (y1 * y1) mod p = (y0 * y0) mod p).
  { unfold y1. destruct (eqb b _); [reflexivity|]. rewrite <- Z.mul_mod by lia. f_equal. ring. }
  assert (ON : forall P x' y', co P = (x', y') -> P <> gO -> (y' * y') mod p = (x' * x' * x' + B) mod p).
  { intros P x' y' C NP. pose proof (kat_on K P _ _ (kco_kat K P NP)) as O. rewrite C in O. cbn [fst snd] in O.
    destruct O as [k O]. replace (y' * y') with (x' * x' * x' + B + k * p) by lia. apply Z.mod_add. lia. }
  split.
  - destruct (Z.eqb_spec ((y1 * y1) mod p) x3) as [SQ|SQ]; cbn [negb]; [|discriminate].
    destruct (eqb b (Z.odd y1)) eqn:PB; cbn [negb]; [|discriminate]. intros Q. assert (y1 = y) by congruence. subst y. clear Q.
    apply eqb_prop in PB. destruct (kat_make K x y1) as (P & A).
    { apply Z.mod_divide; [lia|]. rewrite Zminus_mod, SQ. unfold x3. rewrite Z.sub_diag. apply Z.mod_0_l. lia. }
    exists P. split; [exact (kat_nz K P x y1 A)|]. split; [|symmetry; exact PB].
    rewrite (kat_kco K P x y1 A), !Z.mod_small by assumption. reflexivity.
  - intros (P & NP & C & OB). pose proof (ON P x y C NP) as SQ. fold x3 in SQ.
    pose proof (kco_range K P) as [_ RY]. rewrite C in RY. cbn [snd] in RY.
    pose proof (sqrt_3mod4 p y (k_p K) (k_mod4 K)) as S3. cbv zeta in S3. rewrite SQ in S3. fold y0 in S3.
    assert (NEG : (- y) mod p = p - y).
    { pose proof (kco_neg K P NP) as CN. rewrite C in CN. cbn [fst snd] in CN. pose proof (kco_range K (gneg P)) as [_ RN]. rewrite CN in RN. cbn [snd] in RN.
      symmetry. apply (Z.mod_unique (- y) p (-1)); lia. }
    assert (OP : Z.odd (p - y) = negb b) by (rewrite odd_opp, OB by apply k_mod4; reflexivity).
    assert (Y1 : y1 = y).
    { unfold y1. destruct (root_dec y0 y R0 RY) as [Q|Q]; [rewrite S3, SQ; reflexivity| |].
      - rewrite Q, OB. destruct b; reflexivity.
      - rewrite Q, NEG, OP. destruct b; cbn [eqb negb]; (replace (- (p - y)) with (y + -1 * p) by ring; rewrite Z.mod_add by lia; apply Z.mod_small; exact RY). }
    rewrite S1, S3, Z.eqb_refl. cbn [negb]. rewrite Y1, OB, eqb_reflx. reflexivity.
Qed.
Lemma decompress_err : forall x b, 0 <= x < p -> (forall P : point, P <> gO -> fst (co P) = x -> Z.odd (snd (co P)) = b -> False) -> exists e, decompressPoint K x b = Err e.
Proof.
  intros x b RX H. destruct (decompressPoint K x b) as [y|e] eqn:D; [|exists e; reflexivity]. exfalso.
  apply (decompress_ok x b y RX) in D. destruct D as (P & NP & C & O). apply (H P NP); rewrite C; [reflexivity|exact O].
Qed.

(** ** the named point and the recovered key *)
Lemma named_unique : forall it r P Q, named_point E it r P -> named_point E it r Q -> P = Q.
Proof.
  intros it r P Q (NP & X & Y) (NQ & X' & Y'). apply (kco_inj K). change (co P) with (ecoords (e := E) P). change (co Q) with (ecoords (e := E) Q).
  destruct (kat_same_x K P Q _ _ _ _ (kco_kat K P NP) (kco_kat K Q NQ)) as [C|C].
  - change (co P) with (ecoords (e := E) P). change (co Q) with (ecoords (e := E) Q). rewrite X, X', Z.sub_diag. apply Z.divide_0_r.
  - rewrite C. reflexivity.
  - exfalso. pose proof (kco_neg K Q NQ) as CN. rewrite <- C in CN.
    assert (O : Z.odd (snd (co P)) = negb (Z.odd (snd (co Q)))) by (rewrite CN; cbn [snd]; apply odd_opp, k_mod4).
    change (co P) with (ecoords (e := E) P) in O. change (co Q) with (ecoords (e := E) Q) in O. rewrite Y, Y' in O. destruct (Z.odd it); discriminate O.
Qed.
Lemma gmul_inv : forall k w (P : point), (w * k) mod N = 1 -> gmul w (gmul k P) = P.
Proof.
  intros k w P H. pose proof Npos. rewrite <- gmul_mul. rewrite <- (gmul_1 _ P) at 2. apply (gmul_cong _ N); [lia|apply k_killed|]. rewrite H, Z.mod_1_l by lia. reflexivity.
Qed.
Lemma inverse_ok : forall g, g mod N <> 0 -> exists w, ModInverse g N = Some w /\ (w * g) mod N = 1.
Proof.
  intros g NZ. pose proof Npos as N2. unfold ModInverse. destruct (Z.eqb_spec (g mod N) 0); [contradiction|].
  eexists. split; [reflexivity|]. rewrite powm_spec by lia. rewrite Z.mul_mod_idemp_l by lia. rewrite <- Z.mul_mod_idemp_r by lia.
  replace ((g mod N) ^ (N - 2) * (g mod N)) with ((g mod N) ^ (N - 1)).
  - apply fermat_unit; [exact (k_n K)|]. intros C. apply NZ. rewrite <- (Z.mod_mod g N) by lia. apply Z.mod_divide; [lia|exact C].
  - replace (N - 1) with (Z.succ (N - 2)) by lia. rewrite Z.pow_succ_r by lia. apply Z.mul_comm.
Qed.
Lemma gmul_cancel : forall r (P Q : point), r mod N <> 0 -> gmul r P = gmul r Q -> P = Q.
Proof.
  intros r P Q NZ H. destruct (inverse_ok r NZ) as (w & _ & I). apply (f_equal (gmul w)) in H. rewrite !(gmul_inv r w) in H by exact I. exact H.
Qed.
Lemma recovers_unique : forall e it r s P Q, r mod N <> 0 -> recovers E e it r s P -> recovers E e it r s Q -> P = Q.
Proof.
  intros e it r s P Q NZ (R & NR & H) (R' & NR' & H'). rewrite (named_unique it r R' R NR' NR) in H'. rewrite <- H in H'.
  apply (gmul_cancel r P Q NZ). rewrite (gadd_comm _ (gmul r Q)), (gadd_comm _ (gmul r P)) in H'. apply gcancel_l in H'. symmetry. exact H'.
Qed.

(** ** recoverKeyFromSignature *)
Variable checked : bool.
Variable sm : curve -> Z * Z -> bytes -> Z * Z.
Variable sbm : curve -> bytes -> Z * Z.
Variable add : curve -> Z * Z -> Z * Z -> Z * Z.
Hypothesis sm_ok : forall (P : point) k, P <> gO -> octets k -> sm K (co P) k = co (gmul (value k 0) P).
Hypothesis sbm_ok : forall k, octets k -> sbm K k = co (gmul (value k 0) G).
Hypothesis add_ok : forall P Q : point, add K (co P) (co Q) = co (gadd P Q).
Hypothesis HN : bits_of N 256.
Lemma sm_int : forall (P : point) k, P <> gO -> 0 <= k -> sm K (co P) (big_bytes k) = co (gmul k P).
Proof. intros P k NP Hk. rewrite sm_ok by (exact NP || apply big_bytes_wf). rewrite value_be2z, be2z_big_bytes by exact Hk. reflexivity. Qed.
Lemma sbm_int : forall k, 0 <= k -> sbm K (big_bytes k) = co (gmul k G).
Proof. intros k Hk. rewrite sbm_ok by apply big_bytes_wf. rewrite value_be2z, be2z_big_bytes by exact Hk. reflexivity. Qed.

Notation recover := (recoverKeyFromSignature checked sm sbm add K).
(** what the tests at the beginning let through *)
Definition admitted (r s : Z) : Prop := checked = true -> 1 <= r < N /\ 1 <= s < N.
Inductive outcome (e it r s : Z) : go (res (Z * Z)) -> Prop :=
| out_range : forall m, checked = true -> ~ (1 <= r < N /\ 1 <= s < N) -> outcome e it r s (Val (Err m))
| out_point : forall m, admitted r s -> (forall R, ~ named_point E it r R) -> outcome e it r s (Val (Err m))
| out_panic : forall m R, admitted r s -> named_point E it r R -> r mod N = 0 -> outcome e it r s (Panic m)
| out_key : forall Q, admitted r s -> r mod N <> 0 -> recovers E e it r s Q -> outcome e it r s (Val (Ok (co Q))).
Lemma recover_outcome : forall r s msg it dc, 0 <= r -> 0 <= s -> 0 <= it -> octets msg -> outcome (digest_int 256 msg) it r s (recover r s msg it dc).
Proof.
  intros r s msg it dc Hr Hs Hi Om. pose proof Npos as N2. unfold recoverKeyFromSignature. cbv zeta.
  destruct (checked && (r >=? N)) eqn:C1.
  { apply andb_true_iff in C1 as [C X]. rewrite Z.geb_leb, Z.leb_le in X. apply out_range; [exact C|lia]. }
  destruct (checked && (r =? 0)) eqn:C2.
  { apply andb_true_iff in C2 as [C X]. rewrite Z.eqb_eq in X. apply out_range; [exact C|lia]. }
  destruct (checked && (s >=? N)) eqn:C3.
  { apply andb_true_iff in C3 as [C X]. rewrite Z.geb_leb, Z.leb_le in X. apply out_range; [exact C|lia]. }
  destruct (checked && (s =? 0)) eqn:C4.
  { apply andb_true_iff in C4 as [C X]. rewrite Z.eqb_eq in X. apply out_range; [exact C|lia]. }
  assert (AD : admitted r s).
  { intros C. rewrite C in *. cbn [andb] in *. rewrite Z.geb_leb in *. apply Z.leb_gt in C1, C3. apply Z.eqb_neq in C2, C4. lia. }
  clear C1 C2 C3 C4. set (Rx := N * (it / 2) + r).
  assert (I0 : 0 <= it / 2) by (apply Z.div_pos; lia). assert (R0 : 0 <= Rx) by (unfold Rx; nia).
  assert (EX : r + it / 2 * N = Rx) by (unfold Rx; ring).
  rewrite Z.geb_leb. destruct (Z.leb_spec (c_P K) Rx) as [L|L].
  { apply out_point; [exact AD|]. intros R (NR & X & _). pose proof (kco_range K R) as [RX _]. change (co R) with (ecoords (e := E) R) in RX.
    change (eN E) with N in X. lia. }
  rewrite mod2_odd. destruct (decompressPoint K Rx (Z.odd it)) as [Ry|m] eqn:D.
  - apply (decompress_ok Rx (Z.odd it) Ry) in D; [|lia]. destruct D as (R & NR & C & OB).
    assert (NP : named_point E it r R).
    { split; [exact NR|]. change (ecoords (e := E) R) with (co R). rewrite C. cbn [fst snd]. split; [symmetry; exact EX|exact OB]. }
    rewrite <- C. rewrite (sm_int R N NR) by lia. rewrite (k_killed K R), kco_O. cbn [fst snd negb Z.eqb orb]. rewrite andb_false_r.
    rewrite (hashToInt_ok msg K 256 Om HN). cbn [bind]. set (e := digest_int 256 msg).
    destruct (Z.eq_dec (r mod N) 0) as [Z0|NZ].
    { unfold ModInverse. rewrite Z0. cbn [Z.eqb]. apply (out_panic _ _ _ _ _ R); assumption. }
    destruct (inverse_ok r NZ) as (w & IW & I). rewrite IW.
    rewrite (sm_int R) by (exact NR || apply Z.mod_pos_bound; lia). rewrite sbm_int by (apply Z.mod_pos_bound; lia). rewrite add_ok.
    apply out_key; [exact AD|exact NZ|]. exists R. split; [exact NP|].
    change (@gadd (kgroup K) (gmul r (gadd (gmul ((w * s) mod N) R) (gmul (((- e) mod N * w) mod N) G))) (gmul e G) = gmul s R).
    rewrite !gmul_mod by (lia || apply k_killed). rewrite gmul_gadd, <- !gmul_mul.
    rewrite (gmul_cong _ N (r * (w * s)) s R); [|lia|apply k_killed|].
    2:{ replace (r * (w * s)) with (w * r * s) by ring. rewrite <- Z.mul_mod_idemp_l, I, Z.mul_1_l by lia. reflexivity. }
    rewrite (gmul_cong _ N (r * ((- e) mod N * w)) (- e) G); [|lia|apply k_killed|].
    2:{ replace (r * ((- e) mod N * w)) with (w * r * ((- e) mod N)) by ring. rewrite <- Z.mul_mod_idemp_l, I, Z.mul_1_l, Z.mod_mod by lia. reflexivity. }
    rewrite gmul_opp, <- gadd_assoc, (gadd_comm _ (gneg _)), gadd_neg. apply gadd_O.
  - apply out_point; [exact AD|]. intros R (NR & X & O). change (ecoords (e := E) R) with (co R) in *. change (eN E) with N in X. rewrite EX in X.
    assert (T : decompressPoint K Rx (Z.odd it) = Ok (snd (co R))).
    { apply (decompress_ok Rx (Z.odd it)); [lia|]. exists R. split; [exact NR|]. split; [rewrite <- X; apply surjective_pairing|exact O]. }
    congruence.
Qed.
End K.
