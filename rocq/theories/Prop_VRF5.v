(** * Prop_VRF5: property C80, the verifiable random function on P-256 and on SM2 with the methods of
    elliptic.CurveParams (/repo/vrf/vrf.go, /repo/vrf/vrf_ec.go) *)
From Coq Require Import ZArith Znumtheory Zpow_facts String List Bool Lia.
From Verif Require Import Base BaseFacts Curves ECKey Keypair NumTheory Spec_EC ECFacts ECFacts2 Prop_EC Spec_Group CurveZ
  VRF Spec_VRF VRFFacts VRFFacts2 Prop_VRF Prop_VRF2 Spec_VRF2 Elliptic EllipticFacts CurveWhole Prop_Whole.
Import ListNotations.
Open Scope Z_scope.

Lemma prime_curve_32 : forall c, prime_curve c -> byteLen c = 32 /\ c_P c < 256 ^ 32 /\ c_N c < 256 ^ 32 /\ 0 <= c_Gx c < c_P c /\ 0 <= c_Gy c < c_P c /\ c <> P224.
Proof.
  intros c [-> | ->]; repeat split; try reflexivity; try discriminate.
Qed.
Lemma prime_curve_a : forall c a x y, prime_curve c -> supported c a ->
  (curve_eq (c_P c) a (c_B c) x y <-> (c_P c | y * y - (x * x * x - 3 * x + c_B c))).
Proof.
  intros c a x y HP Hs.
  assert (P0 : c_P c <> 0) by (destruct HP as [-> | ->]; discriminate).
  assert (A3 : (c_P c | a + 3)).
  { destruct HP as [-> | ->]; inversion Hs; subst; [apply Z.divide_0_r|apply Z.divide_refl]. }
  unfold curve_eq. rewrite <- (Z.mod_divide _ _ P0). destruct A3 as [q Q].
  assert (R : (x * x * x + a * x + c_B c) mod c_P c = (x * x * x - 3 * x + c_B c) mod c_P c).
  { replace (x * x * x + a * x + c_B c) with (x * x * x - 3 * x + c_B c + (q * x) * c_P c).
    - apply Z.mod_add. exact P0.
    - replace a with (q * c_P c - 3) by lia. ring. }
  rewrite R. generalize (y * y) as u. generalize (x * x * x - 3 * x + c_B c) as v. intros v u. split; intros H.
  - rewrite Zminus_mod, H, Z.sub_diag. apply Z.mod_0_l. exact P0.
  - replace u with ((u - v) + v) by ring. rewrite Zplus_mod, H, Z.add_0_l, Z.mod_mod by exact P0. reflexivity.
Qed.
Lemma affine_pos : forall (W : wcurve) q, 0 <= fst (affineFromJacobian W q) /\ 0 <= snd (affineFromJacobian W q).
Proof.
  intros W [[x y] z]. unfold affineFromJacobian. destruct (z =? 0); cbn [fst snd]; [lia|].
  pose proof (w_odd W). split; apply Z.mod_pos_bound; lia.
Qed.
Lemma split_len : forall (a c b d : bytes), length a = length c -> a ++ b = c ++ d -> a = c /\ b = d.
Proof.
  induction a as [|x a IH]; intros [|y c] b d L Q; try discriminate L; [split; [reflexivity|exact Q]|].
  injection Q as <- Q. injection L as L. destruct (IH c b d L Q) as [<- <-]. split; reflexivity.
Qed.
Lemma split32 : forall (a b c d : bytes), length a = 32%nat -> length c = 32%nat -> a ++ b = c ++ d -> a = c /\ b = d.
Proof. intros a b c d La Lc Q. apply split_len; congruence. Qed.

Section VRF.
Variable hash : hkind -> bytes -> bytes.
Hypothesis hash_ok : forall h m, wf_bytes (hash h m) /\ zlen (hash h m) = hSize h.
Variable sha256 : bytes -> bytes.
Notation Vrf := (Vrf hash sha256 ScalarBaseMult ScalarMult).
Notation Verify := (Verify hash sha256 ScalarBaseMult ScalarMult Add IsOnCurve).
Variable W : wcurve.
Hypothesis HW : prime_curve W.
Variables (a : Z) (h : hkind).
Hypothesis Hs : supported W a.
Hypothesis Gh : getHash W = Some h.
Notation p := (c_P W). Notation N := (c_N W).
Notation E := (wE W).
Notation point := (pt (wgroup W)).
Notation G := (w_G W : point).
Notation co := (wco W).
Let f := hash h.
Notation hashed := (hashed f W a E). Notation challenge := (challenge f W E).
Notation evaluates := (evaluates f W a E). Notation accepted := (accepted f W a E).
Notation answers := (answers E). Notation penc := (penc E).
Lemma Hh : hSize h = byteLen W. Proof. exact (getHash_size W a h Hs Gh). Qed.
Lemma bl : byteLen W = 32. Proof. apply prime_curve_32, HW. Qed.
Lemma p32 : p < 256 ^ 32. Proof. apply prime_curve_32, HW. Qed.
Lemma N32 : N < 256 ^ 32. Proof. apply prime_curve_32, HW. Qed.
Lemma N0 : 2 <= N. Proof. exact (w_N2 W). Qed.
Lemma co_G : co G = (c_Gx W, c_Gy W).
Proof. destruct (prime_curve_32 W HW) as (_ & _ & _ & X & Y & _). rewrite (wat_wco W G _ _ (wat_G W)), !Z.mod_small by assumption. reflexivity. Qed.
Lemma marshal_co : forall (Q : point) e, Marshal W (co Q) = Val e <-> penc Q e.
Proof.
  intros Q e. pose proof (marshal_iff W a Hs (co Q) e (proj1 (proj1 (wco_range W Q))) (proj1 (proj2 (wco_range W Q)))) as M. rewrite bl in M. exact M.
Qed.
Lemma penc_exists : forall Q : point, exists e, penc Q e.
Proof.
  intros Q. destruct (wco_range W Q) as [X Y]. pose proof p32. exists (4 :: to_be 32 (fst (co Q)) ++ to_be 32 (snd (co Q))).
  exists (to_be 32 (fst (co Q))), (to_be 32 (snd (co Q))). split; [|split; [|reflexivity]]; apply (encodes_to_be 32); lia.
Qed.
Lemma sec1_fun : forall x y e e', sec1_uncompressed 32 x y e -> sec1_uncompressed 32 x y e' -> e = e'.
Proof.
  intros x y e e' (xb & yb & X & Y & ->) (xb' & yb' & X' & Y' & ->).
  rewrite (encodes_fun _ _ _ X), (encodes_fun _ _ _ Y), (encodes_fun _ _ _ X'), (encodes_fun _ _ _ Y'). reflexivity.
Qed.
Lemma penc_fun : forall (Q : point) e e', penc Q e -> penc Q e' -> e = e'.
Proof. intros Q e e' H H'. exact (sec1_fun _ _ _ _ H H'). Qed.
Lemma sec1_inj : forall x y x' y' e, sec1_uncompressed 32 x y e -> sec1_uncompressed 32 x' y' e -> x = x' /\ y = y'.
Proof.
  intros x y x' y' e (xb & yb & (Lx & _ & X) & (Ly & _ & Y) & ->) (xb' & yb' & (Lx' & _ & X') & (Ly' & _ & Y') & Q).
  injection Q as Q. destruct (split32 xb yb xb' yb' ltac:(lia) ltac:(lia) Q) as [<- <-]. split; congruence.
Qed.
Lemma penc_inj : forall (Q R : point) e, penc Q e -> penc R e -> Q = R.
Proof. intros Q R e H H'. destruct (sec1_inj _ _ _ _ _ H H') as [X Y]. apply (wco_inj W). apply injective_projections; assumption. Qed.
Lemma penc_octets : forall (Q : point) e, penc Q e -> wf_bytes e.
Proof.
  intros Q e (xb & yb & (_ & X & _) & (_ & Y & _) & ->). constructor; [red; lia|]. apply wf_app. split; assumption.
Qed.

(** the hashed point *)
Lemma to_point_at : forall m hx hy, to_point f 32 W a m hx hy -> 0 <= hx < 256 ^ 32 /\ 0 <= hy < p /\ exists P : point, wat W P hx hy.
Proof.
  intros m hx hy T. destruct T as [i y Hi _ _ EQ Ry _]. split; [|split; [exact Ry|]].
  - unfold candidate. rewrite value_be2z. destruct (hash_ok h (counter i ++ m)) as [Wf L].
    pose proof (be2z_bound (firstn (Z.to_nat 32) (f (counter i ++ m))) (wf_firstn _ _ Wf)) as B.
    unfold zlen in B. rewrite firstn_length in B. unfold zlen in L. rewrite Hh, bl in L. fold f in L. change (Z.to_nat 32) with 32%nat in *.
    replace (Z.of_nat (Nat.min 32 (length (f (counter i ++ m))))) with 32 in B by lia. exact B.
  - apply (w_on_iff W). apply (w_on_eq W). apply (prime_curve_a W a _ _ HW Hs). exact EQ.
Qed.
Lemma hashed_wat : forall m P hb, hashed m P hb <-> exists hx hy, to_point f 32 W a m hx hy /\ wat W P hx hy /\ sec1_uncompressed 32 hx hy hb.
Proof.
  intros m P hb. split.
  - intros [hx hy T NP CP S]. exists hx, hy. split; [exact T|]. split; [|exact S].
    destruct (to_point_at _ _ _ T) as (_ & _ & P' & A'). assert (P = P') as ->; [|exact A'].
    apply (wco_inj W). rewrite (wat_wco W P' hx hy A'). exact CP.
  - intros (hx & hy & T & A & S). apply (hashed_intro f W a E m P hb hx hy); [exact T|exact (wat_nz W P _ _ A)|exact (wat_wco W P _ _ A)|exact S].
Qed.
Lemma to_point_fun : forall m hx hy hx' hy', to_point f 32 W a m hx hy -> to_point f 32 W a m hx' hy' -> hx = hx' /\ hy = hy'.
Proof.
  intros m hx hy hx' hy' T T'. pose proof Hh as HH. rewrite <- bl in T, T'.
  assert (NP : (W : curve) <> P224) by (apply prime_curve_32, HW).
  destruct (C57_curve_complete hash hash_ok W a h Hs HH (fun _ => []) m hx hy T) as [Q|[Q _]]; [|contradiction].
  destruct (C57_curve_complete hash hash_ok W a h Hs HH (fun _ => []) m hx' hy' T') as [Q'|[Q' _]]; [|contradiction].
  rewrite Q in Q'. injection Q' as <- <-. split; reflexivity.
Qed.
Lemma hashed_fun : forall m P hb P' hb', hashed m P hb -> hashed m P' hb' -> P = P' /\ hb = hb'.
Proof.
  intros m P hb P' hb' [hx hy T _ C S] [hx' hy' T' _ C' S']. destruct (to_point_fun _ _ _ _ _ T T') as [<- <-].
  split; [apply (ecoords_inj E); congruence|exact (sec1_fun _ _ _ _ S S')].
Qed.

(** ** The key: any pair of coordinates on the curve, not necessarily reduced *)
Variables (X Y : Z).
Hypothesis X0 : 0 <= X. Hypothesis Y0 : 0 <= Y.
Let k := {| pk_curve := W; pk_X := X; pk_Y := Y |}.
Lemma HsK : supported (pk_curve k) a. Proof. exact Hs. Qed.
Lemma GhK : getHash (pk_curve k) = Some h. Proof. exact Gh. Qed.

Lemma vrf_forward : forall fuel rng rb alg D msg pkb H v b s, Marshal W (X, Y) = Val pkb ->
  hashToCurve hash rng W h (pkb ++ msg) = Val (Some H) -> Marshal W (ScalarMult W H (big_bytes D)) = Val v ->
  transcript W H (X, Y) v (ScalarBaseMult W rb) (ScalarMult W H rb) = Val b -> hashToInt hash fuel W h b = Val s ->
  Vrf fuel rng (Ok rb) (SkEC alg D k) msg = Val (Ok (v, to_be 32 s ++ to_be 32 ((be2z rb - s * D) mod N))).
Proof.
  intros fuel rng rb alg D msg pkb H v b s M C MU T I. unfold VRF.Vrf. rewrite GhK. cbv zeta. unfold Evaluate. cbv zeta. cbn [pk_curve pk_X pk_Y k].
  rewrite Hh, Z.eqb_refl. cbn [negb]. rewrite M. cbn [bind]. rewrite C. cbn [bind]. rewrite MU. cbn [bind]. rewrite T. cbn [bind]. rewrite I. cbn [bind].
  pose proof (C57_int_range hash hash_ok W a h Hs Hh fuel b s I) as Rs. pose proof N0 as N2. pose proof N32 as NB. pose proof bl as BL.
  pose proof (Z.mod_pos_bound (be2z rb - s * D) N ltac:(lia)) as Rt.
  rewrite !(padded_val W a Hs) by (rewrite BL; lia). cbn [bind].
  pose proof (marshal_len W a Hs _ _ MU) as LU. rewrite BL in *. change (Z.to_nat 32) with 32%nat.
  set (sb := to_be 32 s). set (tb := to_be 32 ((be2z rb - s * D) mod N)).
  assert (Ls : zlen sb = 32) by (unfold sb, zlen; rewrite to_be_length; reflexivity).
  assert (Lt : zlen tb = 32) by (unfold tb, zlen; rewrite to_be_length; reflexivity).
  change (2 * 32 + 2 * 32 + 1) with 129. change (2 * 32) with 64 in *.
  assert (S1 : slice (sb ++ tb ++ v) 0 64 = Val (sb ++ tb)).
  { pose proof (slice_app3 _ [] (sb ++ tb) v 0 64 eq_refl) as Q. cbn [app] in Q. rewrite <- app_assoc in Q.
    apply Q. change (zlen []) with 0. rewrite zlen_app. lia. }
  assert (S3 : slice (sb ++ tb ++ v) 64 129 = Val v).
  { pose proof (slice_app3 _ (sb ++ tb) v [] 64 129) as Q. rewrite app_nil_r, <- app_assoc in Q.
    apply Q; rewrite !zlen_app; lia. }
  rewrite S1. cbn [bind]. rewrite S3. reflexivity.
Qed.
Lemma transcript_iff : forall H v (A B : point) b, 0 <= fst H -> 0 <= snd H ->
  (transcript W H (X, Y) v (co A) (co B) = Val b <-> exists gb hb pb ab bb, penc G gb /\ sec1_uncompressed 32 (fst H) (snd H) hb /\
    sec1_uncompressed 32 X Y pb /\ penc A ab /\ penc B bb /\ b = gb ++ hb ++ pb ++ v ++ ab ++ bb).
Proof.
  intros H v A B b h1 h2.
  pose proof (marshal_co G) as QG. rewrite co_G in QG. pose proof (marshal_co A) as QA. pose proof (marshal_co B) as QB.
  pose proof (fun e => marshal_iff W a Hs H e h1 h2) as QH. pose proof (fun e => marshal_iff W a Hs (X, Y) e X0 Y0) as QP. rewrite bl in QH, QP. cbn [fst snd] in QP.
  unfold transcript. split.
  - intros Q. destruct (Marshal W (c_Gx W, c_Gy W)) as [gb| |]; try discriminate. cbn [bind] in Q.
    destruct (Marshal W H) as [hb| |]; try discriminate. cbn [bind] in Q.
    destruct (Marshal W (X, Y)) as [pb| |]; try discriminate. cbn [bind] in Q.
    destruct (Marshal W (co A)) as [ab| |]; try discriminate. cbn [bind] in Q.
    destruct (Marshal W (co B)) as [bb| |]; try discriminate. cbn [bind] in Q.
    exists gb, hb, pb, ab, bb. rewrite <- QG, <- QH, <- QP, <- QA, <- QB. repeat (split; [reflexivity|]). congruence.
  - intros (gb & hb & pb & ab & bb & EG & EH & EP & EA & EB & ->). apply QG in EG. apply QH in EH. apply QP in EP. apply QA in EA. apply QB in EB.
    rewrite EG. cbn [bind]. rewrite EH. cbn [bind]. rewrite EP. cbn [bind]. rewrite EA. cbn [bind]. rewrite EB. reflexivity.
Qed.

(** ** Evaluation, exactly *)
Theorem C80_evaluate_exact : forall rng rb alg D msg vrf nizk, 0 < D < N -> wf_bytes rb ->
  ((exists fuel, Vrf fuel rng (Ok rb) (SkEC alg D k) msg = Val (Ok (vrf, nizk))) <->
   exists pkb, sec1_uncompressed 32 X Y pkb /\ evaluates pkb D (be2z rb) msg vrf nizk).
Proof.
  intros rng rb alg D msg vrf nizk HD Wr. pose proof N32 as NB. pose proof N0 as N2. pose proof bl as BL. pose proof Hh as HH.
  pose proof (fun e => marshal_iff W a Hs (X, Y) e X0 Y0) as MK. rewrite BL in MK. cbn [fst snd] in MK.
  assert (BD : be2z (big_bytes D) = D) by (apply be2z_big_bytes; lia).
  split.
  - intros [fuel EV].
    destruct (vrf_inv hash hash_ok sha256 ScalarBaseMult ScalarMult a k h HsK GhK _ _ _ _ _ _ _ _ EV) as (rb' & pkb & H & b & s & Er & M & C & MU & T & I & EN).
    assert (rb = rb') as <- by congruence. clear Er. cbn [pk_curve pk_X pk_Y k] in *. destruct H as [hx hy].
    assert (TP : to_point f 32 W a (pkb ++ msg) hx hy) by (rewrite <- BL; apply (C57_curve_sound hash hash_ok W a h Hs HH rng); exact C).
    destruct (to_point_at _ _ _ TP) as (RX & RY & P & A).
    rewrite (w_mult W P hx hy _ A (big_bytes_wf D)), BD in MU. apply marshal_co in MU.
    rewrite (w_mult W P hx hy rb A Wr), (w_base W rb Wr) in T. apply transcript_iff in T; [|exact (proj1 RX)|exact (proj1 RY)].
    destruct T as (gb & hb & pb & ab & bb & T1 & T2 & T3 & T4 & T5 & ->). cbn [fst snd] in T2.
    assert (pb = pkb) as -> by (apply MK in T3; congruence).
    pose proof (C57_int_range hash hash_ok W a h Hs HH fuel _ s I) as Rs.
    pose proof (Z.mod_pos_bound (be2z rb - s * D) N ltac:(lia)) as Rt.
    rewrite BL in EN. change (Z.to_nat 32) with 32%nat in EN.
    exists pkb. split; [exact T3|].
    apply (evaluates_intro f W a E pkb D (be2z rb) msg vrf nizk P hb s (to_be 32 s) (to_be 32 ((be2z rb - s * D) mod N))).
    + apply hashed_wat. exists hx, hy. auto.
    + exact MU.
    + exists gb, ab, bb. split; [exact T1|]. split; [exact T4|]. split; [exact T5|]. rewrite <- BL.
      apply (C57_int_exact hash hash_ok W a h Hs HH). exists fuel. exact I.
    + apply (encodes_to_be 32). lia.
    + apply (encodes_to_be 32). lia.
    + exact EN.
  - intros (pkb & SK & [P hb s sb tb HP EU (gb & ab & bb & E1 & E2 & E3 & TI) Es Et ->]).
    apply hashed_wat in HP. destruct HP as (hx & hy & TP & A & SH). destruct (to_point_at _ _ _ TP) as (RX & RY & _).
    rewrite <- BL in TI. apply (C57_int_exact hash hash_ok W a h Hs HH) in TI. destruct TI as [fuel I]. exists fuel.
    rewrite (encodes_fun _ _ _ Es), (encodes_fun _ _ _ Et). change (Z.to_nat 32) with 32%nat.
    apply (vrf_forward fuel rng rb alg D msg pkb (hx, hy) vrf (gb ++ hb ++ pkb ++ vrf ++ ab ++ bb) s); [apply MK; exact SK| | | |exact I].
    + rewrite <- BL in TP. destruct (C57_curve_complete hash hash_ok W a h Hs HH rng (pkb ++ msg) hx hy TP) as [Q|[Q _]]; [exact Q|].
      exfalso. revert Q. apply prime_curve_32, HW.
    + rewrite (w_mult W P hx hy _ A (big_bytes_wf D)), BD. apply marshal_co. exact EU.
    + rewrite (w_mult W P hx hy rb A Wr), (w_base W rb Wr). apply transcript_iff; [exact (proj1 RX)|exact (proj1 RY)|].
      exists gb, hb, pkb, ab, bb. auto 8.
Qed.

(** ** Verification, exactly *)
Variable PK : point.
Hypothesis AK : wat W PK X Y.
Lemma add_pos : forall q r, 0 <= fst (Add W q r) /\ 0 <= snd (Add W q r).
Proof. intros q r. apply affine_pos. Qed.
Lemma ops : forall tb sb P x y U, wf_bytes tb -> wf_bytes sb -> wat W P x y -> U <> gO ->
  Add W (ScalarBaseMult W tb) (ScalarMult W (X, Y) sb) = co (gadd (gmul (be2z tb) G) (gmul (be2z sb) PK)) /\
  Add W (ScalarMult W (x, y) tb) (ScalarMult W (co U) sb) = co (gadd (gmul (be2z tb) P) (gmul (be2z sb) U)).
Proof.
  intros tb sb P x y U Wt Ws A NU. rewrite (w_base W tb Wt), (w_mult W PK X Y sb AK Ws), (w_mult W P x y tb A Wt), (w_mult_co W U sb NU Ws), !w_add. split; reflexivity.
Qed.
Lemma accepts_iff : forall msg vrf nizk, wf_bytes vrf -> wf_bytes nizk ->
  (accepts f 32 W a (ScalarBaseMult W) (ScalarMult W) (Add W) (IsOnCurve W) (X, Y) msg vrf nizk <->
   exists pkb, sec1_uncompressed 32 X Y pkb /\ accepted PK pkb msg vrf nizk).
Proof.
  intros msg vrf nizk Wv Wn. split.
  - intros [sb tb ux uy hx hy s pkb gb hb ab bb -> Lt SU P1 P2 ON SP T SG SH SA SB TI ES].
    cbn [fst snd] in SP. apply wf_app in Wn as [Wsb Wtb]. destruct (to_point_at _ _ _ T) as (RX & RY & P & A).
    assert (U0 : 0 <= ux /\ 0 <= uy).
    { destruct SU as (xb & yb & (_ & Ox & <-) & (_ & Oy & <-) & _). rewrite !value_be2z. split; apply be2z_bound; assumption. }
    destruct (proj1 (w_on_iff W ux uy) ON) as [U AU].
    assert (CU : co U = (ux, uy)) by (rewrite (wat_wco W U ux uy AU), !Z.mod_small by lia; reflexivity).
    pose proof (wat_nz W U _ _ AU) as NU.
    destruct (ops tb sb P hx hy U Wtb Wsb A NU) as [EA EB]. rewrite CU in EB. cbv zeta in SA, SB. rewrite EA in SA. rewrite EB in SB.
    assert (Vs : be2z sb = s) by (rewrite <- value_be2z; apply ES). rewrite Vs in SA, SB.
    exists pkb. split; [exact SP|].
    apply (accepted_intro f W a E PK pkb msg vrf (sb ++ tb) U P hb s (be2z tb) sb tb).
    + apply hashed_wat. exists hx, hy. auto.
    + exact NU.
    + unfold Spec_VRF2.penc. change (@ecoords E) with co. rewrite CU. exact SU.
    + exact ES.
    + split; [exact Lt|]. split; [exact Wtb|apply value_be2z].
    + reflexivity.
    + exists gb, ab, bb. split; [|split; [exact SA|split; [exact SB|exact TI]]].
      unfold Spec_VRF2.penc. change (@ecoords E (eG (e := E))) with (co G). rewrite co_G. exact SG.
  - intros (pkb & SP & [U P hb s t sb tb HP NU EU Es Et -> (gb & ab & bb & E1 & E2 & E3 & TI)]).
    apply hashed_wat in HP. destruct HP as (hx & hy & TP & A & SH).
    destruct (wco_range W U) as [UX UY]. pose proof (proj1 (proj2 Es)) as Wsb. pose proof (proj1 (proj2 Et)) as Wtb.
    assert (Vs : be2z sb = s) by (rewrite <- value_be2z; apply Es). assert (Vt : be2z tb = t) by (rewrite <- value_be2z; apply Et).
    destruct (ops tb sb P hx hy U Wtb Wsb A NU) as [EA EB]. rewrite Vs, Vt in EA, EB. rewrite (surjective_pairing (co U)) in EB.
    apply (accepts_intro f 32 W a (ScalarBaseMult W) (ScalarMult W) (Add W) (IsOnCurve W) (X, Y) msg vrf (sb ++ tb)
      sb tb (fst (co U)) (snd (co U)) hx hy s pkb gb hb ab bb); try assumption; try reflexivity.
    + apply Et.
    + apply UX.
    + apply UY.
    + apply (w_on_iff W). exists U. exact (wco_wat W U NU).
    + unfold Spec_VRF2.penc in E1. change (@ecoords E (eG (e := E))) with (co G) in E1. rewrite co_G in E1. exact E1.
    + cbv zeta. rewrite EA. exact E2.
    + cbv zeta. rewrite EB. exact E3.
Qed.
Theorem C80_verify_exact : forall alg msg vrf nizk, wf_bytes vrf -> wf_bytes nizk ->
  ((exists fuel rng, Verify fuel rng (PkEC alg k) msg vrf nizk = Val (true, None)) <->
   exists pkb, sec1_uncompressed 32 X Y pkb /\ accepted PK pkb msg vrf nizk).
Proof.
  intros alg msg vrf nizk Wv Wn. rewrite <- (accepts_iff msg vrf nizk Wv Wn). pose proof bl as BL. split.
  - intros (fuel & rng & V). rewrite <- BL.
    exact (C54_accepted_sound hash hash_ok sha256 ScalarBaseMult ScalarMult Add IsOnCurve a k h HsK GhK (conj X0 Y0) add_pos fuel rng alg msg vrf nizk Wv V).
  - intros Q. rewrite <- BL in Q.
    destruct (C54_accepted_complete hash hash_ok sha256 ScalarBaseMult ScalarMult Add IsOnCurve a k h HsK GhK (conj X0 Y0) add_pos alg msg vrf nizk Wv Q) as [F V].
    exists F, (fun _ => []). destruct (V F (fun _ => []) (le_n F)) as [V'|[C _]]; [exact V'|].
    exfalso. revert C. apply prime_curve_32, HW.
Qed.
(** enough fuel gives the verdict, whatever the square roots draw *)
Theorem C80_verify_runs : forall alg msg vrf nizk pkb, wf_bytes vrf -> wf_bytes nizk ->
  sec1_uncompressed 32 X Y pkb -> accepted PK pkb msg vrf nizk ->
  exists F, forall fuel rng, (F <= fuel)%nat -> Verify fuel rng (PkEC alg k) msg vrf nizk = Val (true, None).
Proof.
  intros alg msg vrf nizk pkb Wv Wn SP AC.
  assert (Q : accepts f 32 W a (ScalarBaseMult W) (ScalarMult W) (Add W) (IsOnCurve W) (X, Y) msg vrf nizk).
  { apply accepts_iff; [exact Wv|exact Wn|]. exists pkb. split; assumption. }
  rewrite <- bl in Q.
  destruct (C54_accepted_complete hash hash_ok sha256 ScalarBaseMult ScalarMult Add IsOnCurve a k h HsK GhK (conj X0 Y0) add_pos alg msg vrf nizk Wv Q) as [F V].
  exists F. intros fuel rng L. destruct (V fuel rng L) as [V'|[C _]]; [exact V'|]. exfalso. revert C. apply prime_curve_32, HW.
Qed.
Lemma proof_octets : forall pkb D r m vrf nizk, evaluates pkb D r m vrf nizk -> wf_bytes vrf /\ wf_bytes nizk.
Proof.
  intros pkb D r m vrf nizk [P hb s sb tb HP EU CH Es Et ->]. split; [exact (penc_octets _ _ EU)|]. apply wf_app. split; [apply Es|apply Et].
Qed.
(** ** Honest proofs are accepted *)
Theorem C80_completeness : forall fuel rng rb alg alg' D msg vrf nizk, 0 < D < N -> PK = gmul D G -> wf_bytes rb ->
  Vrf fuel rng (Ok rb) (SkEC alg D k) msg = Val (Ok (vrf, nizk)) ->
  exists F, forall fuel' rng', (F <= fuel')%nat -> Verify fuel' rng' (PkEC alg' k) msg vrf nizk = Val (true, None).
Proof.
  intros fuel rng rb alg alg' D msg vrf nizk HD HK Wr V.
  destruct (proj1 (C80_evaluate_exact rng rb alg D msg vrf nizk HD Wr) (ex_intro _ fuel V)) as (pkb & SP & EV).
  destruct (proof_octets _ _ _ _ _ _ EV) as [Wv Wn]. apply (C80_verify_runs alg' msg vrf nizk pkb Wv Wn SP).
  destruct EV as [P hb s sb tb HP EU CH Es Et ->]. pose proof N0 as N2.
  assert (NP : P <> gO) by (destruct HP; assumption).
  assert (AB : forall Q : point, gadd (gmul ((be2z rb - s * D) mod N) Q) (gmul s (gmul D Q)) = gmul (be2z rb) Q).
  { intros Q. rewrite <- gmul_mul, <- gmul_add. apply (gmul_cong (wgroup W) N); [lia|apply w_killed|].
    rewrite Zplus_mod_idemp_l. f_equal. lia. }
  apply (accepted_intro f W a E PK pkb msg vrf (sb ++ tb) (gmul D P) P hb s ((be2z rb - s * D) mod N) sb tb HP); try assumption; try reflexivity.
  - intros Z0. apply (w_gmul_zero W D P NP) in Z0. rewrite Z.mod_small in Z0; lia.
  - assert (AB' : forall Q : pt (eg E), gadd (gmul ((be2z rb - s * D) mod N) Q) (gmul s (gmul D Q)) = gmul (be2z rb) Q) by exact AB.
    rewrite HK. change (gmul D G) with (@gmul (eg E) D (@eG E)). change (@gmul (wgroup W) D P) with (@gmul (eg E) D P). rewrite !AB'. exact CH.
Qed.

(** ** How many challenges can be answered *)
Lemma multiple_of : forall Q R : point, Q <> gO -> exists d, R = gmul d Q.
Proof.
  intros Q R NQ. destruct (w_multiple W Q) as (q & _ & EQ). destruct (w_multiple W R) as (r & _ & ER).
  assert (RP : rel_prime q N).
  { apply rel_prime_sym, prime_rel_prime; [apply w_n|]. intros D. apply NQ. rewrite EQ. apply (w_gmul_zero W); [apply w_G_nz|].
    apply Z.mod_divide; [pose proof N0; lia|exact D]. }
  apply rel_prime_bezout in RP. destruct RP as [u v BZ]. exists (r * u). rewrite ER, EQ, <- gmul_mul.
  apply (gmul_cong (wgroup W) N); [pose proof N0; lia|apply w_killed|].
  assert (UQ : u * q = 1 - v * N) by lia. replace (r * u * q) with (r * (u * q)) by ring. rewrite UQ.
  replace (r * (1 - v * N)) with (r + (- r * v) * N) by ring. symmetry. apply Z.mod_add. pose proof N0. lia.
Qed.
(** with the right output the commitments must be r G and r H, and then each challenge has the one answer
    r - s D; with a wrong one, every pair of commitments can be answered for exactly one challenge *)
Theorem C80_right_output : forall D (H A B : point) s t, H <> gO ->
  (answers (gmul D G) H (gmul D H) A B s t <-> exists r, A = gmul r G /\ B = gmul r H /\ t mod N = (r - s * D) mod N).
Proof.
  intros D H A B s t NH. unfold Spec_VRF2.answers. change (@eG E) with G. pose proof N0 as N2.
  rewrite <- !gmul_mul. change (@gadd (eg E)) with (@gadd (wgroup W)). change (@gmul (eg E)) with (@gmul (wgroup W)). rewrite <- !gmul_add. split.
  - intros [<- <-]. exists (t + s * D). split; [reflexivity|]. split; [reflexivity|]. f_equal. ring.
  - intros (r & -> & -> & T). assert (M : (t + s * D) mod N = r mod N).
    { rewrite <- (Zplus_mod_idemp_l t), T, Zplus_mod_idemp_l. f_equal. ring. }
    split; apply (gmul_cong (wgroup W) N); try lia; try apply w_killed; exact M.
Qed.
Theorem C80_wrong_output : forall D (H U A B : point), H <> gO -> U <> gmul D H ->
  exists s0, 0 <= s0 < N /\ forall s, (exists t, answers (gmul D G) H U A B s t) <-> s mod N = s0.
Proof.
  intros D H U A B NH NU. pose proof N0 as N2.
  destruct (multiple_of H U NH) as [u EU]. destruct (multiple_of H B NH) as [b EB]. destruct (multiple_of G A (w_G_nz W)) as [x EA].
  assert (ND : (D - u) mod N <> 0).
  { intros C. apply NU. rewrite EU. apply (gmul_cong (wgroup W) N); [lia|apply w_killed|].
    apply Z.mod_divide in C; [|lia]. destruct C as [q Q]. replace D with (u + q * N) by lia. symmetry. apply Z.mod_add. lia. }
  assert (RP : rel_prime (D - u) N).
  { apply rel_prime_sym, prime_rel_prime; [apply w_n|]. intros C. apply ND. apply Z.mod_divide; [lia|exact C]. }
  apply rel_prime_bezout in RP. destruct RP as [i v BZ].
  (* t + s D = x and t + s u = b, so s (D - u) = x - b *)
  assert (K : forall s t, answers (gmul D G) H U A B s t <-> (t + s * D) mod N = x mod N /\ (t + s * u) mod N = b mod N).
  { intros s t. unfold Spec_VRF2.answers. change (@eG E) with G. change (@gadd (eg E)) with (@gadd (wgroup W)). change (@gmul (eg E)) with (@gmul (wgroup W)).
    rewrite EU, EB, EA, <- !gmul_mul, <- !gmul_add.
    rewrite (gmul_inj (wgroup W) N (t + s * D) x G (w_n W) (w_order W) (w_G_nz W)), (gmul_inj (wgroup W) N (t + s * u) b H (w_n W) (w_killed W H) NH). reflexivity. }
  exists ((i * (x - b)) mod N). split; [apply Z.mod_pos_bound; lia|]. intros s. split.
  - intros [t T]. apply K in T. destruct T as [T1 T2].
    assert (S : (s * (D - u)) mod N = (x - b) mod N).
    { replace (s * (D - u)) with ((t + s * D) - (t + s * u)) by ring. rewrite Zminus_mod, T1, T2, <- Zminus_mod. reflexivity. }
    rewrite <- Zmult_mod_idemp_r, <- S, Zmult_mod_idemp_r. 
    assert (Q : i * (D - u) = 1 - v * N) by lia. replace (i * (s * (D - u))) with (s * (i * (D - u))) by ring. rewrite Q.
    replace (s * (1 - v * N)) with (s + (- s * v) * N) by ring. symmetry. apply Z.mod_add. lia.
  - intros S. exists (x - s * D). apply K. split; [f_equal; ring|].
    replace (x - s * D + s * u) with (x - s * (D - u)) by ring.
    rewrite Zminus_mod, <- (Zmult_mod_idemp_l s), S, Zmult_mod_idemp_l, <- Zminus_mod.
    replace (x - i * (x - b) * (D - u)) with (b + ((x - b) * v) * N); [apply Z.mod_add; lia|].
    assert (Q : i * (D - u) = 1 - v * N) by lia. replace (i * (x - b) * (D - u)) with ((x - b) * (i * (D - u))) by ring. rewrite Q. ring.
Qed.
(** so, of an accepted proof of a wrong output, the hash function hit the only challenge that could be answered *)
Theorem C80_forgery : forall fuel rng alg D msg vrf nizk, PK = gmul D G -> wf_bytes vrf -> wf_bytes nizk ->
  Verify fuel rng (PkEC alg k) msg vrf nizk = Val (true, None) ->
  exists pkb H hb, sec1_uncompressed 32 X Y pkb /\ hashed (pkb ++ msg) H hb /\
    (penc (gmul D H) vrf \/
     exists U A B s, penc U vrf /\ U <> gmul D H /\ challenge hb pkb vrf A B s /\ 0 < s < N /\
       forall s', (exists t', answers PK H U A B s' t') <-> s' mod N = s).
Proof.
  intros fuel rng alg D msg vrf nizk HK Wv Wn V.
  destruct (proj1 (C80_verify_exact alg msg vrf nizk Wv Wn) (ex_intro _ fuel (ex_intro _ rng V))) as (pkb & SP & AC).
  destruct AC as [U P hb s t sb tb HP NU EU Es Et -> CH].
  assert (NP : P <> gO) by (destruct HP; assumption).
  exists pkb, P, hb. split; [exact SP|]. split; [exact HP|].
  assert (DEC : U = gmul D P \/ U <> gmul D P).
  { destruct (co U) as [x1 y1] eqn:C1. destruct (co (gmul D P)) as [x2 y2] eqn:C2.
    destruct (Z.eq_dec x1 x2) as [->|NX]; [destruct (Z.eq_dec y1 y2) as [->|NY]|].
    - left. apply (wco_inj W). congruence.
    - right. intros Q. apply NY. assert (C3 : co U = co (gmul D P)) by (rewrite Q; reflexivity). congruence.
    - right. intros Q. apply NX. assert (C3 : co U = co (gmul D P)) by (rewrite Q; reflexivity). congruence. }
  destruct DEC as [Q|NQ]; [left; rewrite <- Q; exact EU|right].
  set (A := gadd (gmul t (@eG E)) (gmul s PK)) in *. set (B := gadd (gmul t P) (gmul s U)) in *.
  exists U, A, B, s. split; [exact EU|]. split; [exact NQ|]. split; [exact CH|].
  assert (Rs : 0 < s < N).
  { destruct CH as (gb & ab & bb & _ & _ & _ & TI). rewrite <- bl in TI.
    pose proof (to_int_range hash hash_ok W h (byteLen W) Hh _ s TI). lia. }
  split; [exact Rs|]. destruct (C80_wrong_output D P U A B NP NQ) as (s0 & R0 & I). rewrite HK.
  assert (s0 = s) as ->; [|exact I].
  assert (T : exists t', answers (gmul D G) P U A B s t') by (exists t; rewrite <- HK; split; reflexivity).
  apply I in T. rewrite Z.mod_small in T by lia. congruence.
Qed.
(** ** The response counts modulo N only *)
Theorem C80_response_mod_N : forall alg msg vrf sb tb tb', wf_bytes vrf -> wf_bytes (sb ++ tb) -> wf_bytes (sb ++ tb') ->
  length sb = 32%nat -> length tb = 32%nat -> length tb' = 32%nat -> be2z tb mod N = be2z tb' mod N ->
  (exists fuel rng, Verify fuel rng (PkEC alg k) msg vrf (sb ++ tb) = Val (true, None)) ->
  exists fuel rng, Verify fuel rng (PkEC alg k) msg vrf (sb ++ tb') = Val (true, None).
Proof.
  intros alg msg vrf sb tb tb' Wv W1 W2 Ls Lt Lt' EM V. apply C80_verify_exact in V; [|exact Wv|exact W1]. apply C80_verify_exact; [exact Wv|exact W2|].
  destruct V as (pkb & SP & [U P hb s t sb0 tb0 HP NU EU Es Et EQ CH]). exists pkb. split; [exact SP|].
  destruct (split32 sb tb sb0 tb0 Ls ltac:(destruct Es; lia) EQ) as [<- <-]. pose proof N0 as N2.
  assert (Vt : be2z tb = t) by (rewrite <- value_be2z; apply Et). rewrite Vt in EM. apply wf_app in W2 as [_ W2].
  apply (accepted_intro f W a E PK pkb msg vrf (sb ++ tb') U P hb s (be2z tb') sb tb'); try assumption; try reflexivity.
  - split; [rewrite Lt'; reflexivity|]. split; [exact W2|apply value_be2z].
  - change (@eG E) with G in *. change (@gmul (eg E)) with (@gmul (wgroup W)) in *.
    rewrite <- (gmul_cong (wgroup W) N t (be2z tb') G), <- (gmul_cong (wgroup W) N t (be2z tb') P) by (lia || apply w_killed || exact EM). exact CH.
Qed.
End VRF.

(** ** Example: P-256, the secret 2, and a hash function with the abscissa of the base point as its constant value *)
Definition gx_hash (h : hkind) (m : bytes) : bytes := to_be (Z.to_nat (hSize h)) (c_Gx P256).
Lemma gx_ok : forall h m, wf_bytes (gx_hash h m) /\ zlen (gx_hash h m) = hSize h.
Proof. intros h m. unfold gx_hash. split; [apply to_be_wf|]. unfold zlen. rewrite to_be_length. destruct h; reflexivity. Qed.
Lemma gx_candidate : forall i m, candidate (gx_hash HSHA256) 32 i m = c_Gx P256.
Proof. intros i m. unfold candidate, gx_hash. vm_compute. reflexivity. Qed.
Lemma gx_point : forall m, to_point (gx_hash HSHA256) 32 P256 (-3) m (c_Gx P256) (c_P P256 - c_Gy P256).
Proof.
  intros m. assert (ON : curve_eq (c_P P256) (-3) (c_B P256) (c_Gx P256) (c_P P256 - c_Gy P256)) by (unfold curve_eq; vm_compute; reflexivity).
  rewrite <- (gx_candidate 0 m) at 1. apply to_point_first with (i := 0); rewrite ?gx_candidate.
  - lia.
  - intros j Hj. lia.
  - exists (c_P P256 - c_Gy P256). split; [exact ON|intros Q; discriminate Q].
  - exact ON.
  - split; [discriminate|reflexivity].
  - reflexivity.
Qed.
Lemma gx_int : forall m, to_int (gx_hash HSHA256) 32 (c_N P256) m (c_Gx P256 + 1).
Proof. intros m. rewrite <- (gx_candidate 0 m). apply to_int_first; [lia|intros j Hj; lia|]. rewrite gx_candidate. reflexivity. Qed.
(** the key pair of a secret *)
Definition key_of (W : wcurve) (D : Z) : ecpub :=
  {| pk_curve := W; pk_X := fst (wco W (gmul D (w_G W : pt (wgroup W)))); pk_Y := snd (wco W (gmul D (w_G W : pt (wgroup W)))) |}.
Lemma example_runs : forall (W : wcurve) D sha256 rng msg, (W : curve) = P256 -> 0 < D < c_N W ->
  exists fuel vrf nizk, Vrf gx_hash sha256 ScalarBaseMult ScalarMult fuel rng (Ok [1]) (SkEC 0 D (key_of W D)) msg = Val (Ok (vrf, nizk)) /\
    exists F, forall fuel' rng', (F <= fuel')%nat ->
      Verify gx_hash sha256 ScalarBaseMult ScalarMult Add IsOnCurve fuel' rng' (PkEC 0 (key_of W D)) msg vrf nizk = Val (true, None).
Proof.
  intros W D sha256 rng msg EW HD. pose proof (or_introl EW : prime_curve W) as HW.
  assert (Hs : supported W (-3)) by (rewrite EW; constructor). assert (Gh : getHash W = Some HSHA256) by (rewrite EW; reflexivity).
  set (PK := gmul D (w_G W : pt (wgroup W))). assert (NK : PK <> gO).
  { intros C. apply (w_gmul_zero W) in C; [|apply w_G_nz]. rewrite Z.mod_small in C; lia. }
  pose proof (wco_wat W PK NK) as AK. destruct (wco_range W PK) as [RX RY].
  unfold key_of. change (gmul D (w_G W : pt (wgroup W))) with PK.
  assert (W1 : wf_bytes [1]) by (repeat constructor; lia).
  destruct (penc_exists W HW PK) as [pkb EK].
  pose proof (gx_point (pkb ++ msg)) as TP. rewrite <- EW in TP.
  destruct (to_point_at gx_hash gx_ok W HW (-3) HSHA256 Hs Gh _ _ _ TP) as (HX & HY & P & A).
  pose proof (p32 W HW) as P32. pose proof (N32 W HW) as N32.
  assert (EH : exists hb, sec1_uncompressed 32 (c_Gx W) (c_P W - c_Gy W) hb).
  { eexists. eexists. eexists. split; [|split; [|reflexivity]]; apply (encodes_to_be 32); lia. }
  destruct EH as [hb EH]. destruct (penc_exists W HW (gmul D P)) as [vrf EU]. destruct (penc_exists W HW (w_G W)) as [gb EG].
  destruct (penc_exists W HW (gmul 1 (w_G W : pt (wgroup W)))) as [ab EA]. destruct (penc_exists W HW (gmul 1 P)) as [bb EB].
  pose proof (gx_int (gb ++ hb ++ pkb ++ vrf ++ ab ++ bb)) as TI. rewrite <- EW in TI.
  set (s := c_Gx W + 1) in *. set (t := (1 - s * D) mod c_N W). pose proof (w_N2 W) as N2.
  assert (Rt : 0 <= t < c_N W) by (apply Z.mod_pos_bound; lia).
  destruct (proj2 (C80_evaluate_exact gx_hash gx_ok sha256 W HW (-3) HSHA256 Hs Gh _ _ (proj1 RX) (proj1 RY) rng [1] 0 D msg vrf (to_be 32 s ++ to_be 32 t) HD W1)) as [fuel V].
  { exists pkb. split; [exact EK|].
    apply (evaluates_intro (gx_hash HSHA256) W (-3) (wE W) pkb D (be2z [1]) msg vrf _ P hb s (to_be 32 s) (to_be 32 t)).
    - apply (hashed_wat gx_hash gx_ok W HW (-3) HSHA256 Hs Gh). exists (c_Gx W), (c_P W - c_Gy W). auto.
    - exact EU.
    - exists gb, ab, bb. auto.
    - apply (encodes_to_be 32). unfold s. change (256 ^ Z.of_nat 32) with (256 ^ 32). rewrite EW. split; [discriminate|reflexivity].
    - apply (encodes_to_be 32). change (256 ^ Z.of_nat 32) with (256 ^ 32). fold t. lia.
    - reflexivity. }
  exists fuel, vrf, (to_be 32 s ++ to_be 32 t). split; [exact V|].
  exact (C80_completeness gx_hash gx_ok sha256 W HW (-3) HSHA256 Hs Gh _ _ (proj1 RX) (proj1 RY) PK AK fuel rng [1] 0 0 D msg vrf _ HD eq_refl W1 V).
Qed.
Example C80_example : forall sha256 rng msg,
  exists fuel vrf nizk, Vrf gx_hash sha256 ScalarBaseMult ScalarMult fuel rng (Ok [1]) (SkEC 0 2 (key_of wP256 2)) msg = Val (Ok (vrf, nizk)) /\
    exists F, forall fuel' rng', (F <= fuel')%nat ->
      Verify gx_hash sha256 ScalarBaseMult ScalarMult Add IsOnCurve fuel' rng' (PkEC 0 (key_of wP256 2)) msg vrf nizk = Val (true, None).
Proof. intros. apply example_runs; [reflexivity|split; reflexivity]. Qed.
(** wrong outputs exist: H = U = G and the secret 2 *)
Example C80_wrong_example : forall A B : pt (wgroup wP256),
  exists s0, 0 <= s0 < c_N wP256 /\ forall s, (exists t, answers (wE wP256) (gmul 2 (w_G wP256)) (w_G wP256) (w_G wP256) A B s t) <-> s mod c_N wP256 = s0.
Proof.
  intros A B. assert (NQ : forall W : wcurve, (w_G W : pt (wgroup W)) <> gmul 2 (w_G W : pt (wgroup W))).
  { intros W Q. apply (w_G_nz W). apply (gcancel_l (wgroup W) (w_G W)). rewrite gadd_O.
    change 2 with (1 + 1) in Q. rewrite gmul_add, !gmul_1 in Q. symmetry. exact Q. }
  exact (C80_wrong_output wP256 2 (w_G wP256) (w_G wP256) A B (w_G_nz wP256) (NQ wP256)).
Qed.
Print Assumptions C80_evaluate_exact.
Print Assumptions C80_verify_exact.
Print Assumptions C80_verify_runs.
Print Assumptions C80_completeness.
Print Assumptions C80_right_output.
Print Assumptions C80_wrong_output.
Print Assumptions C80_forgery.
Print Assumptions C80_response_mod_N.
