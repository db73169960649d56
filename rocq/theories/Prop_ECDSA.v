(** * Prop_ECDSA: property C78, ECDSA as /repo/signature uses it, on P-256 and on the SM2 curve *)
From Coq Require Import ZArith Znumtheory Zpow_facts String List Bool Lia.
From Verif Require Import Base BaseFacts Curves ECKey NumTheory LucasFacts Primes3 Spec_EC ECFacts Spec_Group Spec_SM2 Prop_SM2 Prop_Keys Spec_Gen
  CurveZ CurveRoot Elliptic EllipticFacts CurveWhole Prop_Whole SM2Generic Spec_ECDSA ECDSA ECDSAFacts.
Import ListNotations.
Open Scope Z_scope.

(** ** What Verify computes, over any methods *)
Section Over.
Variable winv : curve -> Z -> Z.
Variable comb : ecpub -> bytes -> bytes -> Z * Z.
Variables (pub : ecpub) (n : Z).
Notation N := (c_N (pk_curve pub)).
Hypothesis HN : bits_of N n.
Definition u1 (dg : bytes) (s : Z) : Z := (digest_int n dg * winv (pk_curve pub) s) mod N.
Definition u2 (r s : Z) : Z := (r * winv (pk_curve pub) s) mod N.
Lemma verify_iff : forall dg r s, octets dg -> exists b, Verify winv comb pub dg r s = Val b /\
  (b = true <-> 1 <= r <= N - 1 /\ 1 <= s <= N - 1 /\
     let xy := comb pub (big_bytes (u1 dg s)) (big_bytes (u2 r s)) in xy <> (0, 0) /\ fst xy mod N = r).
Proof.
  intros dg r s W. unfold Verify. cbv zeta.
  destruct (Z.leb_spec r 0); [exists false; split; [reflexivity|split; [discriminate|lia]]|].
  destruct (Z.leb_spec s 0); [exists false; split; [reflexivity|split; [discriminate|lia]]|]. cbn [orb].
  rewrite !Z.geb_leb. destruct (Z.leb_spec N r); [exists false; split; [reflexivity|split; [discriminate|lia]]|].
  destruct (Z.leb_spec N s); [exists false; split; [reflexivity|split; [discriminate|lia]]|]. cbn [orb].
  rewrite (hashToInt_ok dg (pk_curve pub) n W HN). cbn [bind]. fold (u1 dg s). fold (u2 r s).
  destruct (comb pub (big_bytes (u1 dg s)) (big_bytes (u2 r s))) as [x y]. cbn [fst snd].
  destruct (Z.eqb_spec x 0) as [X|X]; [destruct (Z.eqb_spec y 0) as [Y|Y]|]; cbn [andb].
  - exists false. split; [reflexivity|]. split; [discriminate|]. intros (_ & _ & C & _). subst. contradiction.
  - eexists. split; [reflexivity|]. rewrite Z.eqb_eq. split; [|tauto]. intros M. repeat split; try lia. congruence.
  - eexists. split; [reflexivity|]. rewrite Z.eqb_eq. split; [|tauto]. intros M. repeat split; try lia. congruence.
Qed.
End Over.
(** acceptance for one inverse is acceptance *)
Lemma accepts_with : forall (E : ecgroup) (P : pt (eg E)) e r s w, gmul (eN E) P = gO -> (w * s) mod eN E = 1 ->
  (ecdsa_accepts E P e r s <-> 1 <= r <= eN E - 1 /\ 1 <= s <= eN E - 1 /\
     let Q := gadd (gmul ((e * w) mod eN E) eG) (gmul ((r * w) mod eN E) P) in ecoords Q <> (0, 0) /\ fst (ecoords Q) mod eN E = r).
Proof.
  intros E P e r s w HP I. pose proof (prime_ge_2 _ (eN_prime E)) as N2. cbv zeta.
  rewrite !gmul_mod by (lia || assumption || apply eG_order).
  assert (O : forall Q : pt (eg E), ecoords Q <> (0, 0) <-> Q <> gO).
  { intros Q. rewrite <- (ecoords_O E). split; intros C D; apply C; [rewrite D; reflexivity|apply ecoords_inj; exact D]. }
  rewrite O. unfold ecdsa_accepts. cbv zeta. split.
  - intros (R & S & w' & I' & Q). split; [exact R|]. split; [exact S|].
    assert (M : forall a, (a * w') mod eN E = (a * w) mod eN E).
    { intros a. rewrite <- Z.mul_mod_idemp_r, (inv_unique (eN E) ltac:(lia) s w' w I' I), Z.mul_mod_idemp_r by lia. reflexivity. }
    rewrite (gmul_cong _ (eN E) (e * w') (e * w)) in Q by (lia || apply eG_order || apply M).
    rewrite (gmul_cong _ (eN E) (r * w') (r * w)) in Q by (lia || assumption || apply M). exact Q.
  - intros (R & S & Q). split; [exact R|]. split; [exact S|]. exists w. split; [exact I|exact Q].
Qed.

(** ** P-256 and SM2 with the methods of CurveParams *)
Section Generic.
Variable W : wcurve.
Notation N := (c_N W).
Notation E := (wE W).
Notation co := (wco W).
Notation G := (w_G W : pt (wgroup W)).
Lemma N2 : 1 < N. Proof. pose proof (w_N2 W). lia. Qed.
Lemma fermat_ok : forall k, k mod N <> 0 -> (fermat W k * k) mod N = 1.
Proof.
  intros k NZ. pose proof N2 as N2. unfold fermat, fermatInverse. rewrite powm_spec by lia.
  rewrite Z.mul_mod_idemp_l by lia. replace (k ^ (N - 2) * k) with (k ^ (N - 1)).
  - apply fermat_unit; [exact (w_n W)|]. intros C. apply NZ. apply Z.mod_divide; [lia|exact C].
  - replace (N - 1) with (Z.succ (N - 2)) by lia. rewrite Z.pow_succ_r by lia. apply Z.mul_comm.
Qed.
Lemma fermat_small : forall k, 1 <= k <= N - 1 -> (fermat W k * k) mod N = 1.
Proof. intros k K. apply fermat_ok. rewrite Z.mod_small; lia. Qed.
Lemma comb_ok : forall (P : pt (wgroup W)) pub a b, pk_curve pub = W -> wat W P (pk_X pub) (pk_Y pub) -> 0 <= a -> 0 <= b ->
  generic_comb pub (big_bytes a) (big_bytes b) = co (gadd (gmul a G) (gmul b P)).
Proof.
  intros P pub a b Hc A Ha Hb. unfold generic_comb. cbv zeta. rewrite Hc, w_base by apply big_bytes_wf.
  rewrite (w_mult W P) by (exact A || apply big_bytes_wf). rewrite !be2z_big_bytes by assumption. apply w_add.
Qed.
Lemma neg_x : forall Q : pt (wgroup W), fst (co (gneg Q)) = fst (co Q).
Proof.
  intros Q. assert (D : co Q = (0, 0) \/ co Q <> (0, 0)).
  { destruct (co Q) as [a b]. destruct (Z.eq_dec a 0) as [->|]; [destruct (Z.eq_dec b 0) as [->|]; [left; reflexivity|]|]; right; congruence. }
  destruct D as [D|D].
  - apply wco_O_iff in D. subst Q. rewrite gneg_O. reflexivity.
  - assert (NQ : Q <> gO) by (intros C; apply D; rewrite C; apply wco_O).
    pose proof (wco_wat W Q NQ) as A. apply (at_neg (c_P W) (w_p W) (w_odd W) (-3) (c_B W) (w_disc W)) in A.
    apply (wat_wco W) in A. change (@gneg (curve_group (c_P W) (w_p W) (w_odd W) (-3) (c_B W) (w_disc W)) Q) with (@gneg (wgroup W) Q) in A.
    rewrite A. cbn [fst]. apply Z.mod_small, wco_range.
Qed.

(** Verify accepts exactly the signatures of the standard, for every key on the curve, and always answers *)
Theorem C78_verify_exact : forall n (P : pt (eg E)) pub dg r s, pk_curve pub = W -> bits_of N n -> wat W P (pk_X pub) (pk_Y pub) -> octets dg ->
  (exists b, Verify fermat generic_comb pub dg r s = Val b) /\
  (Verify fermat generic_comb pub dg r s = Val true <-> ecdsa_accepts E P (digest_int n dg) r s).
Proof.
  intros n P pub dg r s Hc Hn A O. pose proof N2 as N2.
  destruct (verify_iff fermat generic_comb pub n ltac:(rewrite Hc; exact Hn) dg r s O) as (b & V & B). split; [exists b; exact V|].
  rewrite V. assert (Q : Val b = Val true <-> b = true) by (split; [intros C; injection C as ->; reflexivity|intros ->; reflexivity]).
  rewrite Q, B. clear Q B V. destruct (Z_le_dec 1 s) as [S1|S1]; [|split; [intros (_ & C & _); lia|intros (_ & C & _); change (eN E) with N in C; lia]].
  destruct (Z_le_dec s (N - 1)) as [S2|S2]; [|split; [intros (_ & C & _); rewrite Hc in C; lia|intros (_ & C & _); change (eN E) with N in C; lia]].
  rewrite (accepts_with E P (digest_int n dg) r s (fermat W s) (w_killed W P) (fermat_small s ltac:(lia))). cbv zeta. change (eN E) with N.
  rewrite (comb_ok P pub _ _ Hc A) by (unfold u1, u2; apply Z.mod_pos_bound; rewrite Hc; lia). unfold u1, u2. rewrite Hc. reflexivity.
Qed.

(** the signatures of Sign: those of the first nonce that gives one *)
Theorem C78_sign_exact : forall sha512 aes, (forall m, length (sha512 m) = 64%nat) -> (forall key b, length b = 16%nat -> length (aes key b) = 16%nat) ->
  forall n fuel ent D db pub dg r s, pk_curve pub = W -> bits_of N n -> octets dg -> 0 <= D -> minimal D db ->
  let key := firstn 32 (sha512 (db ++ ent ++ dg)) in
  let try_ i := dsa_attempt (fun k => fst (co (gmul k G))) N D (digest_int n dg)
                  (dsa_nonce N (str_bytes "IV for ECDSA CTR") (Z.to_nat (c_bits W / 8 + 8)) (aes key) i) in
  (Sign sha512 aes ScalarBaseMult fermat fuel (Ok ent) D pub dg = Val (Ok (r, s)) <->
   exists i, (i < fuel)%nat /\ try_ i (Some (r, s)) /\ forall j, (j < i)%nat -> try_ j None).
Proof.
  intros sha512 aes SL AL n fuel ent D db pub dg r s Hc Hn O HD Hd key try_. pose proof N2 as N2.
  apply minimal_big_bytes in Hd; [|exact HD]. subst db. unfold Sign.
  rewrite slice_ok by (unfold zlen; rewrite ?SL; lia). cbn [bind]. change (Z.to_nat 0) with 0%nat. cbn [skipn]. change (Z.to_nat (32 - 0)) with 32%nat.
  fold key. rewrite Hc. cbv zeta. destruct (Z.eqb_spec N 0); [lia|].
  set (m := Z.to_nat (c_bits W / 8 + 8)).
  assert (K : forall i, 1 <= randFieldElement W (csprng aes key m i) <= N - 1) by (intros i; apply nonce_range; exact N2).
  assert (T : forall i o, try_ i o <-> round W ScalarBaseMult fermat D (digest_int n dg) (randFieldElement W (csprng aes key m i)) = o).
  { intros i o. unfold try_. fold m. rewrite <- (csprng_nonce aes key W m i (AL key)).
    assert (R : forall k, 1 <= k <= N - 1 -> fst (co (gmul k G)) = fst (ScalarBaseMult W (big_bytes k))).
    { intros k Hk. rewrite w_base, be2z_big_bytes by (lia || apply big_bytes_wf). reflexivity. }
    pose proof (attempt_iff W N2 ScalarBaseMult fermat fermat_small D (digest_int n dg) _ o (K i)) as AT.
    split.
    - intros H. symmetry. apply AT. destruct H as [r0 s0 R0 R1 R2 R3|r0 R0 R1]; rewrite R in R0 by apply K; [apply dsa_ok|eapply dsa_retry]; eassumption.
    - intros H. symmetry in H. apply AT in H. destruct H as [r0 s0 R0 R1 R2 R3|r0 R0 R1]; rewrite <- R in R0 by apply K; [apply dsa_ok|eapply dsa_retry]; eassumption. }
  pose proof (loop_first W ScalarBaseMult fermat fuel (csprng aes key m) 0 D dg (digest_int n dg) r s (hashToInt_ok dg W n O Hn)) as F.
  split.
  - intros B. apply bind_val in B as (rs & B1 & B2). assert (rs = (r, s)) by congruence. subst rs. apply F in B1.
    destruct B1 as (j & J1 & J2 & J3). exists j. split; [lia|]. split; [apply T; exact J2|]. intros j' Hj'. apply T, J3. lia.
  - intros (j & J1 & J2 & J3). assert (B : sign_loop ScalarBaseMult fermat fuel W (csprng aes key m) 0 D dg = Val (r, s)).
    { apply F. exists j. split; [lia|]. split; [apply T; exact J2|]. intros j' Hj'. apply T, J3. lia. }
    rewrite B. reflexivity.
Qed.

Lemma sign_some : forall sha512 aes n fuel ent D pub dg r s, pk_curve pub = W -> bits_of N n -> octets dg ->
  Sign sha512 aes ScalarBaseMult fermat fuel ent D pub dg = Val (Ok (r, s)) ->
  exists k, 1 <= k <= N - 1 /\ dsa_attempt (fun k => fst (ScalarBaseMult W (big_bytes k))) N D (digest_int n dg) k (Some (r, s)).
Proof.
  intros sha512 aes n fuel ent D pub dg r s Hc Hn Od B. pose proof N2 as N2. unfold Sign in B. destruct ent as [ent|]; [|discriminate].
  apply bind_val in B as (key & _ & B). rewrite Hc in B. cbv zeta in B. destruct (Z.eqb_spec N 0); [lia|].
  apply bind_val in B as (rs & B1 & B2). assert (rs = (r, s)) by congruence. subst rs.
  apply (loop_first W ScalarBaseMult fermat fuel _ 0 D dg (digest_int n dg) r s (hashToInt_ok dg W n Od Hn)) in B1.
  destruct B1 as (j & _ & J2 & _). eexists. split; [|apply (attempt_iff W N2 ScalarBaseMult fermat fermat_small); [|symmetry; exact J2]]; apply nonce_range; exact N2.
Qed.
(** a signature of the standard is accepted *)
Lemma attempt_accepted : forall D e k r s, 1 <= k <= N - 1 -> dsa_attempt (fun k => fst (co (gmul k G))) N D e k (Some (r, s)) -> ecdsa_accepts E (gmul D G) e r s.
Proof.
  intros D e k r s Hk A. pose proof N2 as N2. inversion A as [r0 s0 R R0 S EQ|]. subst r0 s0.
  assert (Rr : 1 <= r <= N - 1) by (pose proof (Z.mod_pos_bound (fst (co (gmul k G))) N ltac:(lia)) as Q; rewrite <- R in Q; lia).
  split; [exact Rr|]. split; [change (eN E) with N; lia|]. exists (fermat W s). change (eN E) with N.
  split; [apply fermat_small; lia|]. cbv zeta. rewrite <- gmul_mul. change (eG (e := E)) with (w_G W). rewrite <- gmul_add.
  assert (K : gmul (e * fermat W s + r * fermat W s * D) G = gmul k G).
  { apply (gmul_cong _ N); [lia|apply w_killed|]. replace (e * fermat W s + r * fermat W s * D) with ((e + r * D) * fermat W s) by ring.
    rewrite <- Z.mul_mod_idemp_l, <- EQ, Z.mul_mod_idemp_l by lia. replace (s * k * fermat W s) with (k * (fermat W s * s)) by ring.
    rewrite <- Z.mul_mod_idemp_r, fermat_small, Z.mul_1_r by lia. reflexivity. }
  change (gmul (G := eg E) (e * fermat W s + r * fermat W s * D) (w_G W)) with (gmul (G := wgroup W) (e * fermat W s + r * fermat W s * D) G).
  rewrite K. split; [|symmetry; exact R]. change (gmul (G := wgroup W) k G <> gO). rewrite (w_gmul_zero W k G (w_G_nz W)). rewrite Z.mod_small; lia.
Qed.
(** what Sign returns is accepted, for every private key in [1, N - 1] *)
Theorem C78_sign_verify : forall sha512 aes n fuel ent D pub dg r s, pk_curve pub = W -> bits_of N n -> octets dg -> 0 < D < N ->
  (pk_X pub, pk_Y pub) = ScalarBaseMult W (big_bytes D) ->
  Sign sha512 aes ScalarBaseMult fermat fuel ent D pub dg = Val (Ok (r, s)) ->
  1 <= r <= N - 1 /\ 1 <= s <= N - 1 /\ ecdsa_accepts E (gmul D G) (digest_int n dg) r s /\ Verify fermat generic_comb pub dg r s = Val true.
Proof.
  intros sha512 aes n fuel ent D pub dg r s Hc Hn Od HD HK S. destruct (sign_some _ _ _ _ _ _ _ _ _ _ Hc Hn Od S) as (k & Hk & A).
  assert (AC : ecdsa_accepts E (gmul D G) (digest_int n dg) r s).
  { apply (attempt_accepted D _ k r s Hk). inversion A as [r0 s0 R R0 S0 EQ|]. subst r0 s0.
    rewrite w_base, be2z_big_bytes in R by (lia || apply big_bytes_wf). apply dsa_ok; assumption. }
  rewrite w_base, be2z_big_bytes in HK by (lia || apply big_bytes_wf).
  assert (NO : gmul D G <> gO) by (rewrite (w_gmul_zero W D G (w_G_nz W)), Z.mod_small; lia).
  assert (AT : wat W (gmul D G) (pk_X pub) (pk_Y pub)) by (rewrite (f_equal fst HK : pk_X pub = fst (co (gmul D G))), (f_equal snd HK : pk_Y pub = snd (co (gmul D G))); exact (wco_wat W _ NO)).
  split; [apply AC|]. split; [apply AC|]. split; [exact AC|].
  apply (C78_verify_exact n (gmul D G) pub dg r s Hc Hn AT Od). exact AC.
Qed.
(** (r, s) and (r, N - s) are accepted together *)
Theorem C78_malleable : forall (P : pt (eg E)) e r s, ecdsa_accepts E P e r s -> ecdsa_accepts E P e r (N - s).
Proof.
  intros P e r s (R & S & w & I & NQ & X). pose proof N2 as N2. change (eN E) with N in *. split; [exact R|]. split; [change (eN E) with N; lia|]. exists (- w).
  change (eN E) with N. split.
  - replace (- w * (N - s)) with (w * s + (- w) * N) by ring. rewrite Z.mod_add by lia. exact I.
  - cbv zeta in *. assert (K : gadd (gmul (e * - w) eG) (gmul (r * - w) P) = gneg (gadd (gmul (e * w) eG) (gmul (r * w) P))).
    { rewrite !Z.mul_opp_r, !gmul_opp, gneg_add. reflexivity. }
    rewrite K. split.
    + intros C. apply NQ. apply (f_equal gneg) in C. rewrite gneg_neg, gneg_O in C. exact C.
    + transitivity (fst (ecoords (gadd (gmul (e * w) eG) (gmul (r * w) P))) mod N); [|exact X]. f_equal. exact (neg_x _).
Qed.
(** exactly the keys r^-1 (s Q - e G), Q a point with x(Q) = r modulo N, have the signature (r, s) for e *)
Theorem C78_recovery : forall (P : pt (eg E)) e r s, 1 <= r <= N - 1 -> 1 <= s <= N - 1 ->
  (ecdsa_accepts E P e r s <-> exists Q : pt (eg E), Q <> gO /\ fst (ecoords Q) mod N = r /\ gmul r P = gadd (gmul s Q) (gneg (gmul e eG))).
Proof.
  intros P e r s R S. pose proof N2 as N2. assert (KL : forall Q : pt (eg E), gmul N Q = gO) by exact (w_killed W).
  assert (ONE : forall w (Q : pt (eg E)), (w * s) mod N = 1 -> gmul (s * w) Q = Q).
  { intros w Q I. rewrite <- (gmul_1 _ Q) at 2. apply (gmul_cong _ N); [lia|apply KL|]. rewrite Z.mul_comm, I, Z.mod_1_l by lia. reflexivity. }
  split.
  - intros (_ & _ & w & I & NQ & X). change (eN E) with N in *. cbv zeta in *. exists (gadd (gmul (e * w) eG) (gmul (r * w) P)). split; [exact NQ|]. split; [exact X|].
    rewrite gmul_gadd, <- !gmul_mul. replace (s * (e * w)) with (s * w * e) by ring. replace (s * (r * w)) with (s * w * r) by ring.
    rewrite !(gmul_mul _ (s * w)), !ONE by exact I. rewrite (gadd_comm _ (gmul e eG)), <- gadd_assoc, gadd_neg, gadd_O. reflexivity.
  - intros (Q & NQ & X & EQ). split; [exact R|]. split; [exact S|]. exists (fermat W s). change (eN E) with N. pose proof (fermat_small s S) as I. split; [exact I|].
    cbv zeta. assert (K : gadd (gmul (e * fermat W s) eG) (gmul (r * fermat W s) P) = Q).
    { rewrite (Z.mul_comm e), (Z.mul_comm r), (gmul_mul _ (fermat W s) r), EQ, gmul_gadd, <- (gmul_mul _ (fermat W s) s), (Z.mul_comm (fermat W s) s), ONE by exact I.
      rewrite gmul_gneg, <- gmul_mul, gadd_comm, <- gadd_assoc, (gadd_comm _ (gneg _)), gadd_neg, gadd_O. reflexivity. }
    rewrite K. split; [exact NQ|exact X].
Qed.
(** two signatures with the same nonce give the private key away *)
Theorem C78_nonce_reuse : forall x D e e' k r s r' s', 0 <= D < N -> dsa_attempt x N D e k (Some (r, s)) -> dsa_attempt x N D e' k (Some (r', s')) ->
  e mod N <> e' mod N -> r = r' /\ s <> s' /\ exists v, (v * (r * (s - s'))) mod N = 1 /\ D = (v * (s' * e - s * e')) mod N.
Proof.
  intros x D e e' k r s r' s' HD A A' NE. pose proof N2 as N2. inversion A as [r0 s0 R R0 S EQ|]. inversion A' as [r1 s1 R' R0' S' EQ'|]. subst r0 s0 r1 s1 r r'.
  split; [reflexivity|]. set (r := x k mod N) in *.
  assert (NS : s <> s').
  { intros <-. apply NE. rewrite EQ in EQ'. assert (C : forall a, ((a + r * D) - r * D) mod N = a mod N) by (intros; f_equal; ring).
    rewrite <- (C e), <- (C e'). rewrite Zminus_mod, EQ', <- Zminus_mod. reflexivity. }
  split; [exact NS|]. pose proof (Z.mod_pos_bound (x k) N ltac:(lia)) as Rr. fold r in Rr.
  assert (ND : (r * (s - s')) mod N <> 0).
  { intros C. apply Z.mod_divide in C; [|lia]. apply prime_mult in C; [|exact (w_n W)]. destruct C as [C|C].
    - apply Z.divide_pos_le in C; lia.
    - destruct C as [q Q]. assert (q = 0) by nia. nia. }
  exists (fermat W (r * (s - s'))). pose proof (fermat_ok _ ND) as I. split; [exact I|].
  rewrite Z.mul_comm. apply (mul_inv_eq N N2 (r * (s - s')) (fermat W (r * (s - s')))); [exact I|exact HD|].
  assert (T : (s' * (s * k) - s * (s' * k)) mod N = 0) by (replace (s' * (s * k) - s * (s' * k)) with 0 by ring; apply Z.mod_0_l; lia).
  assert (T2 : (s' * (e + r * D) - s * (e' + r * D)) mod N = 0).
  { rewrite <- T. rewrite Zminus_mod, (Z.mul_mod s'), (Z.mul_mod s (e' + r * D)), <- EQ, <- EQ', <- !Z.mul_mod, <- Zminus_mod by lia. reflexivity. }
  apply Z.mod_divide in T2; [|lia]. destruct T2 as [q Q]. replace (s' * e - s * e') with (D * (r * (s - s')) + q * N) by nia. symmetry. apply Z.mod_add. lia.
Qed.
(** bytes of the digest beyond the length of the order do not count *)
Theorem C78_truncation : forall winv comb n pub dg more r s, pk_curve pub = W -> bits_of N n -> octets dg -> octets more -> n <= 8 * Z.of_nat (length dg) ->
  Verify winv comb pub (dg ++ more) r s = Verify winv comb pub dg r s.
Proof.
  intros winv comb n pub dg more r s Hc Hn Od Om L. unfold Verify. rewrite Hc. cbv zeta.
  rewrite (hashToInt_ok (dg ++ more) W n (proj2 (Forall_app _ _ _) (conj Od Om)) Hn), (hashToInt_ok dg W n Od Hn).
  assert (Q : digest_int n (dg ++ more) = digest_int n dg); [|rewrite Q; reflexivity].
  unfold digest_int. rewrite !value_be2z, be2z_app, app_length, Nat2Z.inj_add. change (Z.of_nat (length more)) with (zlen more).
  pose proof (be2z_bound more Om) as BM. assert (ZM : 0 <= zlen more) by (unfold zlen; lia). rewrite !Z.max_r by lia.
  replace (8 * (Z.of_nat (length dg) + zlen more) - n) with (8 * zlen more + (8 * Z.of_nat (length dg) - n)) by ring.
  rewrite Z.pow_add_r by lia. replace (256 ^ zlen more) with (2 ^ (8 * zlen more)) in * by (rewrite Z.pow_mul_r by lia; reflexivity).
  rewrite <- Z.div_div; [|apply Z.pow_nonzero; lia|apply Z.pow_pos_nonneg; lia].
  rewrite Z.div_add_l by (apply Z.pow_nonzero; lia). rewrite (Z.div_small (be2z more)) by exact BM. rewrite Z.add_0_r. reflexivity.
Qed.
End Generic.

(** ** Examples: P-256, the private key 1, a key stream of zeros (the nonce is 1) *)
Definition ex_pub : ecpub := {| pk_curve := P256; pk_X := c_Gx P256; pk_Y := c_Gy P256 |}.
Definition ex_dg : bytes := map Z.of_nat (seq 100 32).
Definition ex_sign := Sign (fun _ => repeat 7 64) (fun _ b => map (fun _ => 0) b) ScalarBaseMult fermat 1 (Ok (repeat 5 16)) 1 ex_pub ex_dg.
Lemma p256_bits : bits_of (c_N P256) 256.
Proof. split; [reflexivity|]. split; [discriminate|reflexivity]. Qed.
Lemma ex_octets : octets ex_dg.
Proof. apply Forall_forall. intros b H. apply in_map_iff in H. destruct H as (i & <- & H). apply in_seq in H. lia. Qed.
Example C78_example_sign : ex_sign = Val (Ok (c_Gx P256, c_Gx P256 + be2z ex_dg)).
Proof. vm_compute. reflexivity. Qed.
Lemma ex_key : (pk_X ex_pub, pk_Y ex_pub) = ScalarBaseMult P256 (big_bytes 1).
Proof. vm_compute. reflexivity. Qed.
Example C78_example : Verify fermat generic_comb ex_pub ex_dg (c_Gx P256) (c_Gx P256 + be2z ex_dg) = Val true /\
  ecdsa_accepts (wE wP256) (gmul 1 (w_G wP256)) (digest_int 256 ex_dg) (c_Gx P256) (c_Gx P256 + be2z ex_dg).
Proof.
  destruct (C78_sign_verify wP256 (fun _ => repeat 7 64) (fun _ b => map (fun _ => 0) b) 256 1 (Ok (repeat 5 16)) 1 ex_pub ex_dg _ _
    eq_refl p256_bits ex_octets (conj eq_refl eq_refl) ex_key C78_example_sign) as (_ & _ & A & V).
  split; [exact V|exact A].
Qed.
Print Assumptions C78_verify_exact.
Print Assumptions C78_sign_exact.
Print Assumptions C78_sign_verify.
Print Assumptions C78_malleable.
Print Assumptions C78_recovery.
Print Assumptions C78_nonce_reuse.
Print Assumptions C78_truncation.
