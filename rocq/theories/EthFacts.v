(** * EthFacts: the signatures of go-ethereum in terms of the group *)
From Coq Require Import ZArith Znumtheory Zpow_facts String List Bool Lia.
From Verif Require Import Base BaseFacts Curves ECKey Keypair Spec_EC ECFacts ECFacts2 Spec_Group Spec_SM2 NumTheory LucasFacts CurveZ CurveK Spec_ECDSA Spec_Gen Spec_Btcec Spec_EthSig.
From Verif Require ECDSA Prop_ECDSA BtcecFacts Prop_Btcec BtcecWhole Prop_BtcecWhole.
From Verif Require Import Eth.
Import ListNotations.
Open Scope Z_scope.

Notation p := (c_P S256).
Notation N := (c_N S256).
Notation E := (kE kS256).
Notation G := (eG (e := kE kS256)).
Notation point := (pt (eg (kE kS256))).
Lemma N_pos : 1 < N. Proof. reflexivity. Qed.
Lemma N_half : 2 * (N / 2) + 1 = N. Proof. reflexivity. Qed.
Lemma p_N : N < p < 2 * N. Proof. split; reflexivity. Qed.
Lemma p_256 : p < 2 ^ 256. Proof. reflexivity. Qed.
Lemma N_256 : N < 2 ^ 256 < 2 * N. Proof. split; reflexivity. Qed.
Lemma bytes32 : forall b, octets b -> length b = 32%nat -> 0 <= be2z b < 2 ^ 256.
Proof. intros b O L. pose proof (be2z_bound b O) as B. unfold zlen in B. rewrite L in B. exact B. Qed.
Lemma halves : forall sig : bytes, octets sig -> length sig = 64%nat ->
  sig = firstn 32 sig ++ skipn 32 sig /\ octets (firstn 32 sig) /\ octets (skipn 32 sig) /\ length (firstn 32 sig) = 32%nat /\ length (skipn 32 sig) = 32%nat.
Proof.
  intros sig O L. split; [symmetry; apply firstn_skipn|]. split; [apply wf_firstn; exact O|]. split; [apply wf_skipn; exact O|].
  rewrite firstn_length, skipn_length, L. split; reflexivity.
Qed.
Lemma halves_of : forall a b : bytes, length a = 32%nat -> firstn 32 (a ++ b) = a /\ skipn 32 (a ++ b) = b.
Proof.
  intros a b L. split.
  - rewrite firstn_app, L, Nat.sub_diag, firstn_O, app_nil_r. apply firstn_all2. lia.
  - rewrite skipn_app, L, Nat.sub_diag. rewrite skipn_all2 by lia. reflexivity.
Qed.
Lemma enc32 : forall z b, encodes 32 z b <-> length b = 32%nat /\ octets b /\ z = be2z b.
Proof. intros z b. unfold encodes. rewrite value_be2z. split; intros (L & O & V); (split; [lia|split; [exact O|congruence]]). Qed.
Lemma rs_bytes_iff : forall sig r s, octets sig ->
  (rs_bytes sig r s <-> length sig = 64%nat /\ r = be2z (firstn 32 sig) /\ s = be2z (skipn 32 sig)).
Proof.
  intros sig r s O. split.
  - intros (rb & sb & -> & R & S). apply enc32 in R as (L1 & _ & ->). apply enc32 in S as (L2 & _ & ->). destruct (halves_of rb sb L1) as [-> ->]. rewrite app_length, L1, L2. repeat split.
  - intros (L & -> & ->). destruct (halves sig O L) as (Q & O1 & O2 & L1 & L2). exists (firstn 32 sig), (skipn 32 sig). split; [exact Q|].
    split; apply enc32; repeat split; assumption.
Qed.
Lemma rs_bytes_fun : forall sig r s r' s', rs_bytes sig r s -> rs_bytes sig r' s' -> r = r' /\ s = s'.
Proof.
  intros sig r s r' s' A B. assert (O : octets sig) by (destruct A as (rb & sb & -> & (_ & O1 & _) & (_ & O2 & _)); apply Forall_app; split; assumption).
  apply (rs_bytes_iff _ _ _ O) in A as (_ & -> & ->). apply (rs_bytes_iff _ _ _ O) in B as (_ & -> & ->). split; reflexivity.
Qed.

(** ** Public keys *)
Lemma on_curve_point : forall x y, 0 <= x < p -> 0 <= y < p ->
  (on_curve_k1 x y = true <-> exists Q : point, Q <> gO /\ ecoords Q = (x, y)).
Proof.
  intros x y RX RY. unfold on_curve_k1. rewrite Z.eqb_eq. split.
  - intros H. destruct (kat_make kS256 x y) as (Q & A).
    { change (c_P kS256) with p. change (c_B kS256) with 7. apply Z.mod_divide; [discriminate|]. rewrite Zminus_mod, H, Z.sub_diag. apply Z.mod_0_l. discriminate. }
    exists Q. split; [exact (kat_nz kS256 Q x y A)|]. change (ecoords (e := E) Q) with (kco kS256 Q). rewrite (kat_kco kS256 Q x y A). change (c_P kS256) with p. rewrite !Z.mod_small by assumption. reflexivity.
  - intros (Q & NQ & CQ). pose proof (kco_kat kS256 Q NQ) as A. change (kco kS256 Q) with (ecoords (e := E) Q) in A. rewrite CQ in A. cbn [fst snd] in A.
    apply kat_on in A. change (c_P kS256) with p in A. change (c_B kS256) with 7 in A. apply Prop_SigWhole.mod_of_divide; [discriminate|exact A].
Qed.
Definition key_bytes (x y : Z) (kb : bytes) : Prop := exists xb yb, kb = 4 :: xb ++ yb /\ encodes 32 x xb /\ encodes 32 y yb.
Lemma parse_iff : forall x y kb q, key_bytes x y kb -> (pubkey_parse kb = Some q <-> q = (x, y) /\ exists Q : point, Q <> gO /\ ecoords Q = (x, y)).
Proof.
  intros x y kb q (xb & yb & -> & HX & HY). apply enc32 in HX as (L1 & O1 & V1). apply enc32 in HY as (L2 & O2 & V2).
  unfold pubkey_parse. destruct (halves_of xb yb L1) as [-> ->]. rewrite <- V1, <- V2.
  assert (R : 0 <= x /\ 0 <= y). { rewrite V1, V2. split; apply be2z_bound; assumption. }
  replace (zlen (xb ++ yb) =? 64) with true by (unfold zlen; rewrite app_length, L1, L2; reflexivity). cbn [negb].
  destruct (Z.ltb_spec x p) as [HX|HX], (Z.ltb_spec y p) as [HY|HY]; cbn [andb].
  2-4: split; [discriminate|]; intros (_ & Q & _ & CQ); pose proof (kco_range kS256 Q) as K; change (kco kS256 Q) with (ecoords (e := E) Q) in K; rewrite CQ in K; cbn [fst snd] in K; change (c_P kS256) with p in K; lia.
  destruct (on_curve_k1 x y) eqn:OC.
  - split; [intros Q; split; [congruence|apply on_curve_point; [lia|lia|exact OC]]|intros [-> _]; reflexivity].
  - split; [discriminate|]. intros [_ Q]. apply on_curve_point in Q; [congruence|lia|lia].
Qed.
Lemma ParsePubKey_parse : forall kb q, ParsePubKey kb = Ok q <-> pubkey_parse kb = Some q.
Proof.
  intros kb q. unfold ParsePubKey, pubkey_parse. destruct kb as [|b xy]; [split; discriminate|].
  replace (zlen (b :: xy) =? 0) with false by (symmetry; apply Z.eqb_neq; rewrite zlen_cons; unfold zlen; lia).
  assert (D : b = 4 \/ b <> 4) by lia. destruct D as [->|NB].
  - destruct (negb (zlen xy =? 64)); [split; discriminate|]. cbv zeta. rewrite !Z.geb_leb.
    set (x := be2z (firstn 32 xy)). set (y := be2z (skipn 32 xy)).
    destruct (Z.leb_spec p x), (Z.ltb_spec x p); try lia; cbn [andb]; [split; discriminate|].
    destruct (Z.leb_spec p y), (Z.ltb_spec y p); try lia; cbn [andb]; [split; discriminate|].
    destruct (on_curve_k1 x y); cbn [negb]; split; congruence.
  - destruct b as [|[[[|[]|]|[]|]|[[|[]|]|[]|]|]|]; try (split; discriminate); exfalso; apply NB; reflexivity.
Qed.

(** ** Verification *)
Lemma inverse_N : forall s, 1 <= s < N -> (scalar_inverse s * s) mod N = 1.
Proof.
  intros s Hs. unfold scalar_inverse. rewrite powm_spec by (pose proof N_pos; lia). rewrite Z.mul_mod_idemp_l by discriminate.
  replace (s ^ (N - 2) * s) with (s ^ (N - 1)).
  - apply fermat_unit; [exact (k_n kS256)|]. intros C. apply Z.divide_pos_le in C; change (c_N kS256) with N in C; lia.
  - change (N - 1) with (Z.succ (N - 2)). rewrite Z.pow_succ_r by discriminate. apply Z.mul_comm.
Qed.
Lemma mod_N_cases : forall x r, 0 <= x < p -> 0 <= r < N -> (x mod N = r <-> x = r \/ (r < p - N /\ x = r + N)).
Proof.
  intros x r Hx Hr. pose proof p_N. split.
  - intros H1. pose proof (Z.div_mod x N ltac:(discriminate)) as D. rewrite H1 in D.
    assert (Q : 0 <= x / N) by (apply Z.div_pos; lia). assert (x / N = 0 \/ x / N = 1) by nia. destruct H0 as [H0|H0]; rewrite H0 in D; lia.
  - intros [->|[_ ->]]; [apply Z.mod_small; exact Hr|]. replace (r + N) with (r + 1 * N) by ring. rewrite Z.mod_add by discriminate. apply Z.mod_small. exact Hr.
Qed.
Section C.
Variable ecmult : Z * Z -> Z -> Z -> Z * Z.
Hypothesis ecmult_ok : forall (Q : point) a b, Q <> gO -> 0 <= a < N -> 0 <= b < N -> ecmult (ecoords Q) a b = ecoords (gadd (gmul a Q) (gmul b G)).
Lemma sig_verify_iff : forall (Q : point) e r s, Q <> gO -> 0 <= r < N -> 0 <= s < N ->
  (ecdsa_sig_verify ecmult r s (ecoords Q) (e mod N) = true <-> ecdsa_accepts E Q e r s).
Proof.
  intros Q e r s NQ Hr Hs. unfold ecdsa_sig_verify.
  destruct (Z.eqb_spec r 0) as [R0|R0]; [cbn [orb]; split; [discriminate|intros ((C & _) & _); lia]|].
  destruct (Z.eqb_spec s 0) as [S0|S0]; [cbn [orb]; split; [discriminate|intros (_ & (C & _) & _); lia]|]. cbn [orb]. cbv zeta.
  rewrite (Prop_ECDSA.accepts_with E Q e r s (scalar_inverse s) (k_killed kS256 Q) (inverse_N s ltac:(lia))). cbv zeta. change (eN E) with N.
  rewrite Z.mul_mod_idemp_r, (Z.mul_comm (scalar_inverse s) e), (Z.mul_comm (scalar_inverse s) r) by discriminate.
  set (a := (e * scalar_inverse s) mod N). set (b := (r * scalar_inverse s) mod N).
  assert (Ha : 0 <= a < N) by (apply Z.mod_pos_bound; reflexivity). assert (Hb : 0 <= b < N) by (apply Z.mod_pos_bound; reflexivity). clearbody a b.
  rewrite ecmult_ok by assumption. rewrite (gadd_comm _ (gmul b Q)). set (P := gadd (gmul a G) (gmul b Q)). clearbody P.
  pose proof (kco_range kS256 P) as [RX RY]. change (kco kS256 P) with (ecoords (e := E) P) in RX, RY. change (c_P kS256) with p in RX, RY.
  destruct (ecoords P) as [X Y]. cbn [fst snd] in *. rewrite (mod_N_cases X r RX Hr).
  assert (OO : ((X =? 0) && (Y =? 0) = true) <-> (X, Y) = (0, 0)).
  { rewrite andb_true_iff, !Z.eqb_eq. split; [intros [-> ->]; reflexivity|intros C; split; congruence]. }
  destruct ((X =? 0) && (Y =? 0)).
  { split; [discriminate|]. intros (_ & _ & C & _). exfalso. apply C, OO. reflexivity. }
  assert (C : (X, Y) <> (0, 0)) by (intros C; apply OO in C; discriminate C). rewrite Z.geb_leb.
  assert (R1 : 1 <= r <= N - 1) by lia. assert (S1 : 1 <= s <= N - 1) by lia.
  destruct (Z.eqb_spec X r); [split; [intros _; split; [exact R1|split; [exact S1|split; [exact C|left; assumption]]]|reflexivity]|].
  destruct (Z.leb_spec (p - N) r); [split; [discriminate|intros (_ & _ & _ & D); lia]|]. rewrite Z.eqb_eq.
  split; [intros D; split; [exact R1|split; [exact S1|split; [exact C|right; split; assumption]]]|intros (_ & _ & _ & D); lia].
Qed.
Definition valid_for (x y : Z) (dg sig : bytes) : Prop :=
  exists (Q : point) r s, Q <> gO /\ ecoords Q = (x, y) /\ rs_bytes sig r s /\ eth_accepts E Q (value dg 0) r s.
Lemma cgo_iff : forall x y kb dg sig, key_bytes x y kb -> octets dg -> octets sig ->
  (VerifySignature_cgo ecmult kb dg sig = true <-> length dg = 32%nat /\ valid_for x y dg sig).
Proof.
  intros x y kb dg sig KB Od Os. unfold VerifySignature_cgo. pose proof N_256 as NB.
  destruct (Z.eqb_spec (zlen dg) 32) as [L|L]; unfold zlen in L; [|split; [discriminate|intros [C _]; lia]].
  destruct (Z.eqb_spec (zlen sig) 64) as [L'|L']; unfold zlen in L'.
  2:{ split; [discriminate|]. intros (_ & Q & r & s & _ & _ & RS & _). apply (rs_bytes_iff _ _ _ Os) in RS as (C & _). lia. }
  replace (zlen kb =? 0) with false by (destruct KB as (xb & yb & -> & _); symmetry; apply Z.eqb_neq; rewrite zlen_cons; unfold zlen; lia). cbn [negb orb].
  destruct (halves sig Os ltac:(lia)) as (Qs & O1 & O2 & L1 & L2). unfold parse_compact, scalar_set_b32. rewrite !Z.geb_leb.
  assert (RS : forall r s, rs_bytes sig r s <-> r = be2z (firstn 32 sig) /\ s = be2z (skipn 32 sig)).
  { intros r s. rewrite (rs_bytes_iff _ _ _ Os). split; [tauto|]. intros [A B]. repeat split; [lia|exact A|exact B]. }
  pose proof (bytes32 _ O1 L1) as B1. pose proof (bytes32 _ O2 L2) as B2. pose proof (bytes32 dg Od ltac:(lia)) as B3.
  unfold valid_for. rewrite value_be2z.
  set (r := be2z (firstn 32 sig)) in *. set (s := be2z (skipn 32 sig)) in *.
  assert (VF : (exists Q r0 s0, Q <> gO /\ ecoords Q = (x, y) /\ rs_bytes sig r0 s0 /\ eth_accepts E Q (be2z dg) r0 s0) <->
    exists Q : point, Q <> gO /\ ecoords Q = (x, y) /\ eth_accepts E Q (be2z dg) r s).
  { split; [intros (Q & r0 & s0 & NQ & CQ & R & A); apply RS in R as [-> ->]; exists Q|intros (Q & NQ & CQ & A); exists Q, r, s; rewrite RS]; repeat split; assumption || apply A. }
  rewrite VF. clear VF.
  destruct (Z.leb_spec N r); cbn [orb]; [split; [discriminate|intros (_ & Q & _ & _ & (C & _) & _); change (eN E) with N in C; lia]|].
  destruct (Z.leb_spec N s); [split; [discriminate|intros (_ & Q & _ & _ & (_ & C & _) & _); change (eN E) with N in C; lia]|].
  rewrite !Z.mod_small by lia. destruct (pubkey_parse kb) as [q|] eqn:PP.
  2:{ split; [discriminate|]. intros (_ & Q & NQ & CQ & _). exfalso. assert (X : pubkey_parse kb = Some (x, y)) by (apply (parse_iff _ _ _ _ KB); split; [reflexivity|exists Q; split; assumption]). congruence. }
  apply (parse_iff _ _ _ _ KB) in PP as (-> & Q & NQ & CQ). unfold scalar_is_high. rewrite Z.gtb_ltb. pose proof N_half as NH.
  destruct (Z.ltb_spec (N / 2) s); [split; [discriminate|intros (_ & Q' & _ & _ & _ & C); change (eN E) with N in C; lia]|].
  cbn [fst]. rewrite <- CQ, (sig_verify_iff Q (be2z dg) r s NQ) by lia. split.
  - intros A. split; [lia|]. exists Q. split; [exact NQ|]. split; [reflexivity|]. split; [exact A|]. change (eN E) with N. lia.
  - intros (_ & Q' & _ & CQ' & A & _). assert (Q' = Q) by (apply (ecoords_inj E); exact CQ'). congruence.
Qed.
End C.

Section Go.
Variable sm : curve -> Z * Z -> bytes -> Z * Z.
Variable sbm : curve -> bytes -> Z * Z.
Variable add : curve -> Z * Z -> Z * Z -> Z * Z.
Hypothesis sm_ok : forall (P : point) k, P <> gO -> octets k -> sm S256 (ecoords P) k = ecoords (gmul (value k 0) P).
Hypothesis sbm_ok : forall k, octets k -> sbm S256 k = ecoords (gmul (value k 0) G).
Hypothesis add_ok : forall P Q : point, add S256 (ecoords P) (ecoords Q) = ecoords (gadd P Q).
Lemma nocgo_iff : forall x y kb dg sig, key_bytes x y kb -> octets dg -> octets sig ->
  (VerifySignature_nocgo sm sbm add kb dg sig = true <->
   exists (Q : point) r s, Q <> gO /\ ecoords Q = (x, y) /\ rs_bytes sig r s /\ eth_accepts E Q (digest_int 256 dg) r s).
Proof.
  intros x y kb dg sig KB Od Os. unfold VerifySignature_nocgo.
  destruct (Z.eqb_spec (zlen sig) 64) as [L'|L']; unfold zlen in L'; cbn [negb].
  2:{ split; [discriminate|]. intros (Q & r & s & _ & _ & RS & _). apply (rs_bytes_iff _ _ _ Os) in RS as (C & _). lia. }
  cbv zeta. destruct (halves sig Os ltac:(lia)) as (Qs & O1 & O2 & L1 & L2).
  assert (RS : forall r s, rs_bytes sig r s <-> r = be2z (firstn 32 sig) /\ s = be2z (skipn 32 sig)).
  { intros r s. rewrite (rs_bytes_iff _ _ _ Os). split; [tauto|]. intros [A B]. repeat split; [lia|exact A|exact B]. }
  set (r := be2z (firstn 32 sig)) in *. set (s := be2z (skipn 32 sig)) in *.
  destruct (ParsePubKey kb) as [[x' y']|m] eqn:PP.
  2:{ split; [discriminate|]. intros (Q & r0 & s0 & NQ & CQ & _). exfalso.
      assert (X : pubkey_parse kb = Some (x, y)) by (apply (parse_iff _ _ _ _ KB); split; [reflexivity|exists Q; split; assumption]). apply ParsePubKey_parse in X. congruence. }
  apply ParsePubKey_parse, (parse_iff _ _ _ _ KB) in PP as (XY & Q & NQ & CQ). assert (X' : x' = x) by congruence. assert (Y' : y' = y) by congruence. subst x' y'.
  rewrite Z.gtb_ltb. pose proof N_half as NH. destruct (Z.ltb_spec (N / 2) s) as [H|H].
  { split; [discriminate|]. intros (Q' & r0 & s0 & _ & _ & R & _ & C). apply RS in R as [-> ->]. change (eN E) with N in C. lia. }
  pose proof (Prop_BtcecWhole.ecdsa_iff sm sbm add sm_ok sbm_ok add_ok Q {| pk_curve := S256; pk_X := x; pk_Y := y |} dg r s eq_refl CQ NQ Od) as A.
  unfold BtcecWhole.ecdsa_verify in A. cbn [pk_curve] in A. rewrite String.eqb_refl in A. change (BtcecWhole.k1_comb sm sbm add) with (comb sm sbm add) in A. rewrite A. split.
  - intros AC. exists Q, r, s. split; [exact NQ|]. split; [exact CQ|]. split; [apply RS; split; reflexivity|]. split; [exact AC|]. change (eN E) with N. lia.
  - intros (Q' & r0 & s0 & _ & CQ' & R & AC & _). apply RS in R as [-> ->]. assert (Q' = Q) by (apply (ecoords_inj E); congruence). congruence.
Qed.
End Go.

(** ** Signing *)
Notation x1 := (fun k => fst (ecoords (gmul k G))).
Lemma attempt_fun : forall D e k o o', 1 <= k < N -> dsa_attempt x1 N D e k o -> dsa_attempt x1 N D e k o' -> o = o'.
Proof.
  intros D e k o o' Hk A A'.
  apply (Prop_Btcec.round_attempt kS256 (Prop_Btcec.ref_sbm kS256) (Prop_Btcec.ref_sbm_ok kS256)) in A; [|exact Hk].
  apply (Prop_Btcec.round_attempt kS256 (Prop_Btcec.ref_sbm kS256) (Prop_Btcec.ref_sbm_ok kS256)) in A'; [|exact Hk]. congruence.
Qed.
Lemma flip_lxor : forall it, 0 <= it < 4 -> Z.lxor it 1 = Prop_Btcec.flip it.
Proof. intros it H. assert (C : it = 0 \/ it = 1 \/ it = 2 \/ it = 3) by lia. destruct C as [->|[->|[->| ->]]]; reflexivity. Qed.
(** the arithmetic of ecdsa_sig_sign, for any curve *)
Section Core.
Variable K : kcurve.
Notation n := (c_N K).
Notation xK := (fun k => fst (ecoords (gmul k (eG (e := kE K))))).
Definition sign_core (X Y D e w : Z) : option (Z * Z * Z) :=
  if X mod n =? 0 then None else
  let recid := Z.lor (if X >=? n then 2 else 0) (if Z.odd Y then 1 else 0) in
  let m := ((X mod n * D) mod n + e) mod n in
  let sigs := (w * m) mod n in
  if sigs =? 0 then None else
  if sigs >? n / 2 then Some (X mod n, (- sigs) mod n, Z.lxor recid 1) else Some (X mod n, sigs, recid).
Lemma core_cases : forall D e k w X Y, 1 <= k < n -> (w * k) mod n = 1 -> ecoords (gmul k (eG (e := kE K))) = (X, Y) ->
  match sign_core X Y D (e mod n) w with
  | None => dsa_attempt xK n D e k None
  | Some (r, s, v) => exists s0, dsa_attempt xK n D e k (Some (r, s0)) /\ s = Z.min s0 (n - s0) /\ 0 <= v < 4 /\ recovers (kE K) e v r s (gmul D eG)
  end.
Proof.
  intros D e k w X Y Hk IK CR. unfold sign_core. pose proof (BtcecFacts.Npos K) as N1. pose proof (N_odd K) as NO. pose proof (Z.div_mod n 2 ltac:(lia)) as NH. rewrite NO in NH.
  set (R := gmul k (eG (e := kE K))) in *.
  assert (NR : R <> gO). { intros C. apply (k_gmul_zero K k _ (k_G_nz K)) in C. rewrite Z.mod_small in C; lia. }
  pose proof (kco_range K R) as [RX RY]. change (kco K R) with (ecoords (e := kE K) R) in RX, RY. rewrite CR in RX, RY. cbn [fst snd] in RX, RY.
  assert (X1 : xK k = X) by (cbv beta; fold R; rewrite CR; reflexivity).
  destruct (Z.eqb_spec (X mod n) 0) as [R0|R0]; [apply (dsa_retry _ _ _ _ _ (X mod n)); [rewrite X1; reflexivity|left; exact R0]|].
  rewrite Z.add_mod_idemp_l, Z.add_mod_idemp_r by lia. cbv zeta. rewrite Z.mul_mod_idemp_r by lia.
  pose proof (Z.mod_pos_bound X n ltac:(lia)) as BR. pose proof (Z.div_mod X n ltac:(lia)) as DM. assert (Q0 : 0 <= X / n) by (apply Z.div_pos; lia).
  set (r := X mod n) in *. set (m := r * D + e).
  set (s0 := (w * m) mod n). pose proof (Z.mod_pos_bound (w * m) n ltac:(lia)) as BS. fold s0 in BS.
  assert (EQ : (s0 * k) mod n = (e + r * D) mod n).
  { unfold s0. rewrite Z.mul_mod_idemp_l by lia. replace (w * m * k) with (w * k * m) by ring.
    rewrite <- Z.mul_mod_idemp_l, IK, Z.mul_1_l by lia. unfold m. f_equal. ring. }
  destruct (Z.eqb_spec s0 0) as [S0|S0].
  { apply (dsa_retry _ _ _ _ _ r); [rewrite X1; reflexivity|]. right. rewrite <- EQ, S0. reflexivity. }
  assert (AT : dsa_attempt xK n D e k (Some (r, s0))) by (apply dsa_ok; [rewrite X1; reflexivity|exact R0|lia|exact EQ]).
  set (v := Z.lor (if X >=? n then 2 else 0) (if Z.odd Y then 1 else 0)).
  assert (VV : 0 <= v < 4 /\ X = r + v / 2 * n /\ Z.odd Y = Z.odd v).
  { unfold v. rewrite Z.geb_leb. destruct (Prop_Btcec.small_quot K (X / n) Q0 ltac:(nia)) as [QQ|QQ]; rewrite QQ in DM.
    - destruct (Z.leb_spec n X); [lia|]. destruct (Z.odd Y); cbn [Z.lor Pos.lor]; (split; [lia|split; [|reflexivity]]); [change (1 / 2) with 0|change (0 / 2) with 0]; lia.
    - destruct (Z.leb_spec n X); [|lia]. destruct (Z.odd Y); cbn [Z.lor Pos.lor]; (split; [lia|split; [|reflexivity]]); [change (3 / 2) with 1|change (2 / 2) with 1]; lia. }
  destruct VV as (Rv & XV & YV).
  assert (RE : recovers (kE K) e v r s0 (gmul D eG)).
  { exists R. split; [split; [exact NR|]; rewrite CR; cbn [fst snd]; change (eN (kE K)) with n; split; assumption|].
    unfold R. rewrite <- !gmul_mul, <- gmul_add. apply (gmul_cong _ n); [lia|exact (k_killed K _)|]. rewrite EQ. f_equal. ring. }
  rewrite Z.gtb_ltb. destruct (Z.ltb_spec (n / 2) s0) as [HI|LO].
  - assert (MS : (- s0) mod n = n - s0). { symmetry. apply (Z.mod_unique_pos _ _ (-1)); lia. }
    exists s0. split; [exact AT|]. rewrite MS. split; [lia|]. rewrite flip_lxor by exact Rv. split; [apply Prop_Btcec.flip_range; exact Rv|].
    apply (Prop_Btcec.recovers_flip K). exact RE.
  - exists s0. split; [exact AT|]. split; [lia|]. split; [exact Rv|exact RE].
Qed.
End Core.
Section Sign.
Variable ecmult_gen : Z -> Z * Z.
Hypothesis ecmult_gen_ok : forall k, 1 <= k < N -> ecmult_gen k = ecoords (gmul k G).
(** the nonce k gives the signature r, s with the number v *)
Definition gives (D e k r s v : Z) : Prop :=
  exists s0, dsa_attempt x1 N D e k (Some (r, s0)) /\ s = Z.min s0 (N - s0) /\ 0 <= v < 4 /\ recovers E e v r s (gmul D G).
Lemma gives_fun : forall D e k r s v r' s' v', 1 <= k < N -> gives D e k r s v -> gives D e k r' s' v' -> r = r' /\ s = s' /\ v = v'.
Proof.
  intros D e k r s v r' s' v' Hk (s0 & A & -> & Hv & RE) (s1 & A' & -> & Hv' & RE').
  pose proof (attempt_fun _ _ _ _ _ Hk A A') as Q. assert (Q1 : r = r') by congruence. assert (Q2 : s0 = s1) by congruence. subst r' s1. split; [reflexivity|]. split; [reflexivity|].
  inversion A as [r0 s2 R R0 S EQ|]. subst r0 s2. pose proof (Z.mod_pos_bound (x1 k) N ltac:(reflexivity)) as B. cbv beta in B. rewrite <- R in B.
  destruct (Prop_Btcec.C82_ecdsa kS256 (gmul D G) e r (Z.min s0 (N - s0)) ltac:(change (c_N kS256) with N; lia) ltac:(change (c_N kS256) with N; lia)) as [_ U].
  exact (U v v' RE RE').
Qed.
Lemma sig_sign_cases : forall D e k, 1 <= k < N ->
  match ecdsa_sig_sign ecmult_gen D (e mod N) k with
  | None => dsa_attempt x1 N D e k None
  | Some (r, s, v) => gives D e k r s v
  end.
Proof.
  intros D e k Hk. unfold ecdsa_sig_sign. rewrite ecmult_gen_ok by exact Hk.
  pose proof (core_cases kS256 D e k (scalar_inverse k)) as C. change (c_N kS256) with N in C. destruct (ecoords (gmul k G)) as [X Y].
  specialize (C X Y Hk (inverse_N k Hk) eq_refl). exact C.
Qed.
Variable nonce_fn : bytes -> bytes -> nat -> bytes.
Hypothesis nonce_octets : forall m b i, octets (nonce_fn m b i).
Section Loop.
Variable dg db : bytes.
Variable D : Z.
Notation cand i := (value (nonce_fn dg db i) 0).
Notation e := (value dg 0).
(** the candidate number i is of no use *)
Definition useless (i : nat) : Prop := ~ (1 <= cand i < N) \/ dsa_attempt x1 N D e (cand i) None.
Lemma sign_loop_iff : forall fuel c r s v,
  sign_loop ecmult_gen nonce_fn fuel c dg db D (e mod N) = Val (r, s, v) <->
  exists i, (i < fuel)%nat /\ (forall j, (j < i)%nat -> useless (c + j)) /\ 1 <= cand (c + i) < N /\ gives D e (cand (c + i)) r s v.
Proof.
  induction fuel as [|fuel IH]; intros c r s v; [split; [discriminate|intros (i & C & _); lia]|].
  cbn [sign_loop]. unfold scalar_set_b32. rewrite Z.geb_leb.
  assert (V0 : be2z (nonce_fn dg db c) = cand c) by (symmetry; apply value_be2z). rewrite V0. pose proof (be2z_bound _ (nonce_octets dg db c)) as B. rewrite V0 in B.
  assert (STEP : useless c -> (sign_loop ecmult_gen nonce_fn fuel (S c) dg db D (e mod N) = Val (r, s, v) <->
    exists i, (i < S fuel)%nat /\ (forall j, (j < i)%nat -> useless (c + j)) /\ 1 <= cand (c + i) < N /\ gives D e (cand (c + i)) r s v)).
  { intros US. rewrite IH. split.
    - intros (i & Hi & HU & HC & HG). exists (S i). rewrite Nat.add_succ_r. split; [lia|]. split; [|split; assumption].
      intros [|j] Hj; [rewrite Nat.add_0_r; exact US|]. rewrite Nat.add_succ_r. apply (HU j). lia.
    - intros ([|i] & Hi & HU & HC & HG).
      + exfalso. rewrite Nat.add_0_r in HC, HG. destruct US as [US|US]; [exact (US HC)|]. destruct HG as (s0 & A & _). pose proof (attempt_fun _ _ _ _ _ HC A US). discriminate.
      + rewrite Nat.add_succ_r in HC, HG. exists i. split; [lia|]. split; [|split; assumption]. intros j Hj. specialize (HU (S j) ltac:(lia)). rewrite Nat.add_succ_r in HU. exact HU. }
  destruct (Z.leb_spec N (cand c)) as [H|H]; cbn [negb andb]; [apply STEP; left; lia|].
  rewrite Z.mod_small by lia. destruct (Z.eqb_spec (cand c) 0) as [H0|H0]; cbn [negb andb]; [apply STEP; left; lia|].
  pose proof (sig_sign_cases D e (cand c) ltac:(lia)) as SC. destruct (ecdsa_sig_sign ecmult_gen D (e mod N) (cand c)) as [[[r' s'] v']|].
  - split.
    + intros Q. assert (r' = r /\ s' = s /\ v' = v) as (-> & -> & ->) by (repeat split; congruence). exists O. rewrite Nat.add_0_r. split; [lia|]. split; [intros j Hj; lia|]. split; [lia|exact SC].
    + intros ([|i] & Hi & HU & HC & HG).
      * rewrite Nat.add_0_r in HC, HG. destruct (gives_fun _ _ _ _ _ _ _ _ _ HC SC HG) as (-> & -> & ->). reflexivity.
      * exfalso. specialize (HU O ltac:(lia)). rewrite Nat.add_0_r in HU. destruct HU as [HU|HU]; [lia|]. destruct SC as (s0 & A & _).
        assert (KC : 1 <= cand c < N) by lia. pose proof (attempt_fun _ _ _ _ _ KC A HU). discriminate.
  - apply STEP. right. exact SC.
Qed.
Lemma sign_loop_result : forall fuel c,
  (exists q, sign_loop ecmult_gen nonce_fn fuel c dg db D (e mod N) = Val q) \/
  sign_loop ecmult_gen nonce_fn fuel c dg db D (e mod N) = OutOfFuel.
Proof.
  induction fuel as [|fuel IH]; intros c; [right; reflexivity|]. cbn [sign_loop]. destruct (scalar_set_b32 _) as [non o].
  destruct (negb o && negb (non =? 0)); [|apply IH]. destruct (ecdsa_sig_sign _ _ _ _) as [q|]; [left; exists q; reflexivity|apply IH].
Qed.
Lemma sign_loop_out : forall fuel c, sign_loop ecmult_gen nonce_fn fuel c dg db D (e mod N) = OutOfFuel <-> forall i, (i < fuel)%nat -> useless (c + i).
Proof.
  intros fuel c. assert (DEC : forall fuel c, (exists i, (i < fuel)%nat /\ (forall j, (j < i)%nat -> useless (c + j)) /\ 1 <= cand (c + i) < N /\ exists r s v, gives D e (cand (c + i)) r s v)
    \/ forall i, (i < fuel)%nat -> useless (c + i)).
  { clear fuel c. induction fuel as [|fuel IH]; intros c; [right; intros i C; lia|].
    assert (U : useless c \/ 1 <= cand c < N /\ exists r s v, gives D e (cand c) r s v).
    { assert (RG : 1 <= cand c < N \/ ~ (1 <= cand c < N)) by lia. destruct RG as [RG|RG]; [|left; left; exact RG].
      pose proof (sig_sign_cases D e (cand c) RG) as SC. destruct (ecdsa_sig_sign _ _ _ _) as [[[r s] v]|]; [right; split; [exact RG|exists r, s, v; exact SC]|left; right; exact SC]. }
    destruct U as [U|U]; [|left; exists O; rewrite Nat.add_0_r; split; [lia|]; split; [intros j C; lia|exact U]].
    destruct (IH (S c)) as [(i & Hi & HU & HG)|A]; [left; exists (S i)|right].
    - rewrite Nat.add_succ_r. split; [lia|]. split; [|exact HG]. intros [|j] Hj; [rewrite Nat.add_0_r; exact U|rewrite Nat.add_succ_r; apply (HU j); lia].
    - intros [|i] Hi; [rewrite Nat.add_0_r; exact U|rewrite Nat.add_succ_r; apply (A i); lia]. }
  split.
  - intros Q. destruct (DEC fuel c) as [(i & Hi & HU & HC & r & s & v & HG)|A]; [|exact A]. exfalso.
    assert (X : sign_loop ecmult_gen nonce_fn fuel c dg db D (e mod N) = Val (r, s, v)) by (apply sign_loop_iff; exists i; repeat (split; [assumption|]); exact HG).
    rewrite Q in X. discriminate X.
  - intros A. destruct (sign_loop_result fuel c) as [[[[r s] v] Q]|Q]; [|exact Q]. exfalso. apply sign_loop_iff in Q as (i & Hi & _ & HC & HG).
    destruct (A i Hi) as [U|U]; [exact (U HC)|]. destruct HG as (s0 & T & _). pose proof (attempt_fun _ _ _ _ _ HC T U) as C. discriminate C.
Qed.
End Loop.
Lemma padded_ok : forall D, 0 <= D < 2 ^ 256 -> encodes 32 D (padded_big_bytes D 32).
Proof.
  intros D H. assert (L : zlen (big_bytes D) <= 32). { rewrite zlen_big_bytes. apply byte_len_min; [lia|lia|]. change (256 ^ 32) with (2 ^ 256). apply H. }
  unfold padded_big_bytes. unfold zlen in *. apply enc32. split; [|split].
  - rewrite app_length. unfold zeros. rewrite repeat_length. lia.
  - apply Forall_app. split; [|apply big_bytes_wf]. unfold zeros. apply Forall_forall. intros b I. apply repeat_spec in I. lia.
  - assert (ZZ : forall n, be2z (repeat 0 n) = 0). { intros n. unfold be2z. induction n as [|n IH]; [reflexivity|]. cbn [repeat fold_left]. exact IH. }
    rewrite be2z_app. unfold zeros. rewrite ZZ, be2z_big_bytes by lia. lia.
Qed.
End Sign.
