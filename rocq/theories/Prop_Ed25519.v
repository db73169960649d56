(** * Prop_Ed25519: property C85, Ed25519 signatures from the seed to the bytes received *)
From Coq Require Import ZArith Znumtheory Zpow_facts String List Bool Lia.
From Verif Require Import Base BaseFacts Curves ECKey Keypair Spec_EC Spec_Keys KeyFacts Prop_Keys Spec_Group Signature Spec_Sig SigFacts Prop_Sig Spec_Gen
  Pocklington EdZ Ed25519 EdCurve Spec_Ed25519 Ed25519Facts.
From Verif Require Generate Prop_Sig2 Prop_Sig3 Prop_SigWhole Prop_BtcecWhole.
Import ListNotations.
Open Scope Z_scope.

(** ** The curve *)
(** The constants are those of RFC 8032, 5.1: p and L are prime, d = -121665/121666 is not a square, i^2 = -1, the base
    point has y = 4/5 and even x, and its order is L. *)
Theorem C85_constants : prime (2 ^ 255 - 19) /\ prime edL /\ edP = 2 ^ 255 - 19 /\
  (edP | 121666 * edD + 121665) /\ (forall z, ~ (edP | edD - z * z)) /\ (edP | edI * edI + 1) /\
  (edP | 5 * edBy - 4) /\ edBx mod 2 = 0 /\ edat edB edBx edBy /\
  (forall z, gmul z edB = gO <-> (edL | z)).
Proof.
  split; [exact edP_prime|]. split; [exact edL_prime|]. split; [reflexivity|]. split; [apply Z.mod_divide; [discriminate|vm_compute; reflexivity]|].
  split; [exact edD_nonsquare|]. split; [exact edI_sqr|]. split; [apply Z.mod_divide; [discriminate|vm_compute; reflexivity]|]. split; [vm_compute; reflexivity|].
  split; [exact edB_at|]. intros z. rewrite <- (gmul_0 edG edB), edB_inj. rewrite Z.mod_0_l by discriminate. apply Z.mod_divide. discriminate.
Qed.
Print Assumptions C85_constants.
(** ** Points as bytes *)
Theorem C85_decompress_exact : forall b x y, octets b -> length b = 32%nat ->
  (ge_FromBytes b = Some (x, y) <->
   0 <= x < edP /\ 0 <= y < edP /\ (edP | y * y - x * x - (1 + edD * (x * x) * (y * y))) /\
   (edP | y - lev b mod 2 ^ 255) /\ (x = 0 \/ x mod 2 = lev b / 2 ^ 255)).
Proof.
  intros b x y Ob Lb. rewrite (from_bytes_iff b x y Ob Lb).
  assert (EQ : y * y - x * x - (1 + edD * (x * x) * (y * y)) = y * y - x * x - 1 - edD * (x * x) * (y * y)) by ring. rewrite EQ. split.
  - intros (P & (A & X & Y) & R). split; [exact X|]. split; [exact Y|]. split; [exact (ate_on edP edP_prime edP_odd edD edI edI_sqr edD_nonsquare P x y A)|exact R].
  - intros (X & Y & ON & R). destruct (ate_make edP edP_prime edP_odd edD edI edI_sqr edD_nonsquare x y ON) as [P A]. exists P. split; [exact (conj A (conj X Y))|exact R].
Qed.
Theorem C85_compress : forall P c, edco P (fst c) (snd c) ->
  point_bytes P (ge_ToBytes c) /\ ge_FromBytes (ge_ToBytes c) = Some c /\ (forall Q, point_bytes Q (ge_ToBytes c) -> Q = P).
Proof.
  intros P c C. pose proof (ToBytes_ok P c C) as B. split; [exact B|]. split.
  - destruct c as [x y]. pose proof B as (x' & y' & C' & L & Oc & V). apply from_bytes_iff; [exact Oc|exact L|]. exists P. split; [exact C|].
    pose proof (point_bytes_read P _ B) as (x1 & y1 & C1 & R1). destruct (edco_fun P x y x1 y1 C C1) as [<- <-]. exact R1.
  - intros Q BQ. exact (point_bytes_inj Q P _ BQ B).
Qed.
Print Assumptions C85_decompress_exact.
Print Assumptions C85_compress.

Section All.
Variable sha512 : bytes -> bytes.
Hypothesis sha_len : forall m, length (sha512 m) = 64%nat.
Hypothesis sha_octets : forall m, octets (sha512 m).
Notation Verify := (Ed25519.Verify sha512).
Notation Sign := (Ed25519.Sign sha512).
Notation NewKey := (NewKeyFromSeed sha512).
Notation accepts := (ed_accepts sha512).
Notation challenge := (challenge sha512).

(** ** Verification *)
Theorem C85_verify_exact : forall pub msg sig, octets pub -> length pub = 32%nat -> octets sig ->
  (Verify pub msg sig = true <-> accepts pub msg sig).
Proof.
  intros pub msg sig Op Lp Os. unfold Ed25519.Verify. pose proof (from_bytes_read pub Op Lp) as F.
  assert (DS : forall Rb Sb A x y, edco A x y -> octets Sb ->
     point_bytes (gadd (gmul (challenge Rb pub msg) (gneg A)) (gmul (lev Sb) edB)) (ge_ToBytes (ge_DoubleScalarMult (sc_Reduce (sha512 (Rb ++ pub ++ msg))) (fe_neg x, y) Sb))).
  { intros Rb Sb A x y C Ob. unfold Spec_Ed25519.challenge. rewrite <- Reduce_val. apply ToBytes_ok. apply DoubleScalarMult_cp; [apply z2le_octets|exact Ob|]. apply edco_neg. exact C. }
  assert (EQ : forall (k s : Z) (R A : pt edG), gadd R (gmul k A) = gmul s edB <-> R = gadd (gmul k (gneg A)) (gmul s edB)).
  { intros k s R A. rewrite gmul_gneg. split.
    - intros <-. rewrite (gadd_comm _ (gneg _)), <- gadd_assoc, gadd_neg, gadd_O. reflexivity.
    - intros ->. rewrite (gadd_comm _ (gneg _)), <- gadd_assoc, (gadd_comm _ (gneg _)), gadd_neg, gadd_O. reflexivity. }
  split.
  - destruct (Z.eqb_spec (zlen sig) 64) as [L|]; [|discriminate]. cbn [negb orb]. destruct (Z.land _ 224 =? 0); [|discriminate]. cbn [negb].
    destruct (ge_FromBytes pub) as [[x y]|]; [|discriminate]. destruct F as (A & C & RA & _). cbv zeta.
    destruct (sc_Minimal (skipn 32 sig)) eqn:M; [|discriminate]. cbn [negb]. unfold sc_Minimal in M. rewrite lev_le2z in M. apply Z.ltb_lt in M.
    intros E. apply bytes_eqb_eq in E. assert (OS : octets (skipn 32 sig)) by (apply wf_skipn; exact Os).
    pose proof (DS (firstn 32 sig) (skipn 32 sig) A x y C OS) as B. rewrite <- E in B.
    exists A, (gadd (gmul (challenge (firstn 32 sig) pub msg) (gneg A)) (gmul (lev (skipn 32 sig)) edB)), (firstn 32 sig), (skipn 32 sig).
    split; [symmetry; apply firstn_skipn|]. split; [rewrite skipn_length; unfold zlen in L; lia|]. split; [exact M|]. split; [exact RA|]. split; [exact B|]. apply EQ. reflexivity.
  - intros (A & R & Rb & Sb & -> & LS & LT & RA & PR & G). pose proof PR as (xr & yr & _ & LR & OR & _).
    apply Forall_app in Os as [_ OS]. replace (zlen (Rb ++ Sb) =? 64) with true by (symmetry; apply Z.eqb_eq; unfold zlen; rewrite app_length; lia).
    rewrite skip32_63. rewrite skipn_app_l, firstn_app_l by (symmetry; exact LR). rewrite (top3_low Sb OS LS LT). cbn [negb orb Z.eqb].
    destruct (ge_FromBytes pub) as [[x y]|]; [|destruct (F A RA)]. destruct F as (A' & C & RA' & U). rewrite <- (U A RA) in C. cbv zeta.
    unfold sc_Minimal. rewrite lev_le2z. replace (lev Sb <? edL) with true by (symmetry; apply Z.ltb_lt; exact LT). cbn [negb].
    apply bytes_eqb_eq. apply EQ in G. apply (point_bytes_fun R); [exact PR|]. rewrite G. apply DS; assumption.
Qed.
(** a signature cannot be changed in its second half *)
Theorem C85_not_malleable : forall pub msg Rb S1 S2, octets pub -> length pub = 32%nat -> length Rb = 32%nat -> octets S1 -> octets S2 ->
  accepts pub msg (Rb ++ S1) -> accepts pub msg (Rb ++ S2) -> S1 = S2.
Proof.
  intros pub msg Rb S1 S2 Op Lp LR O1 O2 (A & R & Rb1 & Sb1 & E1 & L1 & T1 & RA & P1 & G1) (A' & R' & Rb2 & Sb2 & E2 & L2 & T2 & RA' & P2 & G2).
  assert (LP : forall P b, point_bytes P b -> length b = 32%nat) by (intros P b (x & y & _ & L & _); exact L).
  pose proof (LP _ _ P1) as LR1. pose proof (LP _ _ P2) as LR2.
  assert (Q1 : Rb = Rb1 /\ S1 = Sb1).
  { apply (f_equal (firstn 32)) in E1 as F1. apply (f_equal (skipn 32)) in E1 as K1. rewrite !firstn_app_l in F1 by congruence. rewrite !skipn_app_l in K1 by congruence. split; assumption. }
  assert (Q2 : Rb = Rb2 /\ S2 = Sb2).
  { apply (f_equal (firstn 32)) in E2 as F2. apply (f_equal (skipn 32)) in E2 as K2. rewrite !firstn_app_l in F2 by congruence. rewrite !skipn_app_l in K2 by congruence. split; assumption. }
  destruct Q1 as [<- <-], Q2 as [<- <-]. rewrite (read_fun pub A' A Op Lp RA' RA) in G2. rewrite (point_bytes_inj R' R Rb P2 P1), G1 in G2.
  apply edB_inj in G2. rewrite !Z.mod_small in G2 by (split; [apply lev_nonneg; assumption|assumption]). apply lev_inj; [exact O1|exact O2|congruence|exact G2].
Qed.

(** ** Keys and signing *)
(** the two secrets that follow from a seed *)
Definition scalar_of (seed : bytes) : Z := secret_scalar (lev (firstn 32 (sha512 seed))).
Definition nonce_of (seed msg : bytes) : Z := lev (sha512 (skipn 32 (sha512 seed) ++ msg)) mod edL.
Lemma half_ok : forall m, octets (firstn 32 (sha512 m)) /\ length (firstn 32 (sha512 m)) = 32%nat.
Proof. intros m. split; [apply wf_firstn, sha_octets|]. rewrite firstn_length, sha_len. reflexivity. Qed.
Lemma clamp_first : forall d : bytes, length d = 64%nat -> octets d ->
  firstn 32 (let d := set_nth 0 (Z.land (nth 0 d 0) 248) d in let d := set_nth 31 (Z.land (nth 31 d 0) 127) d in set_nth 31 (Z.lor (nth 31 d 0) 64) d) = clamp (firstn 32 d).
Proof.
  intros d L Od. assert (La : length (firstn 32 d) = 32%nat) by (rewrite firstn_length, L; reflexivity). assert (Oa : octets (firstn 32 d)) by (apply wf_firstn; exact Od).
  pose proof (firstn_skipn 32 d) as E. set (a := firstn 32 d) in *. set (r := skipn 32 d) in *. clearbody a r. subst d. clear L Od. cbv zeta.
  assert (SA : forall i v (b : bytes), (i < length b)%nat -> set_nth i v (b ++ r) = set_nth i v b ++ r).
  { induction i as [|i IH]; intros v [|z b] Lb; cbn [length] in Lb; try lia; cbn [set_nth app]; [reflexivity|]. f_equal. apply IH. lia. }
  rewrite (app_nth1 a r) by (rewrite La; lia). rewrite SA by (rewrite La; lia). set (a0 := set_nth 0 _ a). assert (L0 : length a0 = 32%nat) by (unfold a0; rewrite set_nth_length; exact La).
  rewrite (app_nth1 a0 r) by (rewrite L0; lia). rewrite SA by (rewrite L0; lia). rewrite app_nth1 by (rewrite set_nth_length, L0; lia). rewrite SA by (rewrite set_nth_length, L0; lia).
  rewrite firstn_app_l by (rewrite !set_nth_length; symmetry; exact L0). unfold clamp. cbv zeta. fold a0. rewrite !nth_set31 by (rewrite L0; lia). rewrite !set_set31. f_equal.
  apply clamp_bits. apply nth_octet. unfold a0. apply octets_set; [|exact Oa]. pose proof (nth_octet 0 a Oa) as B. rewrite (clamp_low _ B). unfold is_byte in *.
  pose proof (Z.mod_pos_bound (nth 0 a 0) 8 ltac:(lia)). pose proof (Z.mod_le (nth 0 a 0) 8 ltac:(lia) ltac:(lia)). lia.
Qed.
(** NewKeyFromSeed: the seed and the encoding of a B, where a is a multiple of 8 in [2^254, 2^255); a B is not the neutral
    element *)
Theorem C85_key : forall seed, exists pub, NewKey seed = seed ++ pub /\ point_bytes (gmul (scalar_of seed) edB) pub /\
  2 ^ 254 <= scalar_of seed < 2 ^ 255 /\ (8 | scalar_of seed) /\ gmul (scalar_of seed) edB <> gO.
Proof.
  intros seed. destruct (half_ok seed) as [Oh Lh]. destruct (clamp_val _ Oh Lh) as (Oc & Lc & Vc). exists (ge_ToBytes (ge_ScalarMultBase (clamp (firstn 32 (sha512 seed))))).
  split; [rewrite <- (clamp_first (sha512 seed) (sha_len seed) (sha_octets seed)); reflexivity|]. split.
  - unfold scalar_of. rewrite <- Vc. apply ToBytes_ok, ScalarMultBase_cp. exact Oc.
  - destruct (secret_range (lev (firstn 32 (sha512 seed)))) as [R D]. split; [exact R|]. split; [exact D|]. intros C. apply (secret_nonzero (lev (firstn 32 (sha512 seed)))).
    rewrite <- (gmul_0 edG edB) in C. apply edB_inj in C. exact C.
Qed.
(** Sign, for a seed followed by any 32 bytes: R = r B for the nonce r of seed and message, s = r + k a *)
Theorem C85_sign_exact : forall seed pub msg, length seed = 32%nat ->
  exists Rb Sb, Sign (seed ++ pub) msg = Rb ++ Sb /\ length Sb = 32%nat /\ octets Sb /\
    point_bytes (gmul (nonce_of seed msg) edB) Rb /\
    lev Sb = (nonce_of seed msg + challenge Rb pub msg * scalar_of seed) mod edL.
Proof.
  intros seed pub msg Ls. unfold Ed25519.Sign. cbv zeta. rewrite (firstn_app_l _ seed pub 32), (skipn_app_l _ seed pub 32) by (symmetry; exact Ls).
  set (ks := firstn 32 (sha512 seed)). destruct (half_ok seed) as [Oh Lh]. fold ks in Oh, Lh. destruct (clamp_val ks Oh Lh) as (Oc & Lc & Vc).
  set (rr := sc_Reduce (sha512 (skipn 32 (sha512 seed) ++ msg))). set (Rb := ge_ToBytes (ge_ScalarMultBase rr)).
  eexists Rb, _. split; [reflexivity|]. split; [apply z2le_length|]. split; [apply z2le_octets|].
  assert (VR : lev rr = nonce_of seed msg) by apply Reduce_val. split.
  - rewrite <- VR. apply ToBytes_ok, ScalarMultBase_cp. apply z2le_octets.
  - rewrite MulAdd_val. change (set_nth 31 (Z.lor (nth 31 (set_nth 31 (Z.land (nth 31 (set_nth 0 (Z.land (nth 0 ks 0) 248) ks) 0) 63) (set_nth 0 (Z.land (nth 0 ks 0) 248) ks)) 0) 64)
      (set_nth 31 (Z.land (nth 31 (set_nth 0 (Z.land (nth 0 ks 0) 248) ks) 0) 63) (set_nth 0 (Z.land (nth 0 ks 0) 248) ks))) with (clamp ks).
    rewrite Vc, Reduce_val, VR. unfold scalar_of, Spec_Ed25519.challenge. fold ks. f_equal. apply Z.add_comm.
Qed.
(** whoever knows the scalar modulo L signs, with any nonce *)
Theorem C85_scalar_signs : forall pub A a r msg Rb Sb, octets pub -> length pub = 32%nat -> read_as pub A -> A = gmul a edB ->
  point_bytes (gmul r edB) Rb -> length Sb = 32%nat -> lev Sb = (r + challenge Rb pub msg * a) mod edL -> accepts pub msg (Rb ++ Sb).
Proof.
  intros pub A a r msg Rb Sb Op Lp RA -> PR LS VS. exists (gmul a edB), (gmul r edB), Rb, Sb. split; [reflexivity|]. split; [exact LS|].
  split; [rewrite VS; apply Z.mod_pos_bound; reflexivity|]. split; [exact RA|]. split; [exact PR|].
  rewrite <- gmul_mul, <- gmul_add. apply edB_inj. rewrite VS. symmetry. apply Z.mod_mod. discriminate.
Qed.
(** every seed: what Sign makes, Verify accepts *)
Theorem C85_sign_verify : forall seed msg, length seed = 32%nat ->
  Verify (skipn 32 (NewKey seed)) msg (Sign (NewKey seed) msg) = true /\
  length (NewKey seed) = 64%nat /\ length (Sign (NewKey seed) msg) = 64%nat /\ octets (Sign (NewKey seed) msg).
Proof.
  intros seed msg Ls. destruct (C85_key seed) as (pub & EK & PA & _). pose proof PA as (xa & ya & _ & Lp & Op & _).
  destruct (C85_sign_exact seed pub msg Ls) as (Rb & Sb & ES & LS & OS & PR & VS). pose proof PR as (xr & yr & _ & LR & OR & _).
  rewrite EK, skipn_app_l by (symmetry; exact Ls). rewrite ES. assert (OA : octets (Rb ++ Sb)) by (apply Forall_app; split; assumption).
  split; [|rewrite !app_length; repeat split; try lia; exact OA]. apply (C85_verify_exact pub msg _ Op Lp OA).
  apply (C85_scalar_signs pub (gmul (scalar_of seed) edB) (scalar_of seed) (nonce_of seed msg)); try assumption; [apply point_bytes_read; exact PA|reflexivity].
Qed.
(** ** A private key with another public half (DeserializePrivateKey takes any): two signatures of a message reveal the
    scalar modulo L *)
Theorem C85_wrong_half_leaks : forall seed pub pub' msg Rb Sb Rb' Sb', length seed = 32%nat -> length Rb = 32%nat -> length Rb' = 32%nat ->
  Sign (seed ++ pub) msg = Rb ++ Sb -> Sign (seed ++ pub') msg = Rb' ++ Sb' ->
  Rb' = Rb /\
  (edL | (challenge Rb pub msg - challenge Rb pub' msg) * scalar_of seed - (lev Sb - lev Sb')) /\
  (challenge Rb pub msg <> challenge Rb pub' msg ->
   forall a, (edL | (challenge Rb pub msg - challenge Rb pub' msg) * a - (lev Sb - lev Sb')) -> gmul a edB = gmul (scalar_of seed) edB).
Proof.
  intros seed pub pub' msg Rb Sb Rb' Sb' Ls LR LR' E E'. destruct (C85_sign_exact seed pub msg Ls) as (R1 & S1 & Q1 & _ & _ & P1 & V1).
  destruct (C85_sign_exact seed pub' msg Ls) as (R2 & S2 & Q2 & _ & _ & P2 & V2). rewrite E in Q1. rewrite E' in Q2.
  pose proof P1 as (x1 & y1 & _ & L1 & _). pose proof P2 as (x2 & y2 & _ & L2 & _).
  destruct (Prop_SigWhole.app_inj_len Rb R1 Sb S1 ltac:(congruence) Q1) as [-> ->]. destruct (Prop_SigWhole.app_inj_len Rb' R2 Sb' S2 ltac:(congruence) Q2) as [-> ->].
  rewrite <- (point_bytes_fun _ _ _ P1 P2) in *. split; [reflexivity|]. set (k := challenge R1 pub msg) in *. set (k' := challenge R1 pub' msg) in *.
  set (r := nonce_of seed msg) in *. set (a0 := scalar_of seed) in *.
  assert (M : forall z, exists q, z mod edL = z - q * edL) by (intros z; exists (z / edL); pose proof (Z.div_mod z edL ltac:(discriminate)); lia).
  assert (D : (edL | (k - k') * a0 - (lev S1 - lev S2))).
  { rewrite V1, V2. destruct (M (r + k * a0)) as [q ->]. destruct (M (r + k' * a0)) as [q' ->]. exists (q - q'). ring. }
  split; [exact D|]. intros NK a DA. apply edB_inj.
  assert (D2 : (edL | (k - k') * (a - a0))).
  { replace ((k - k') * (a - a0)) with ((k - k') * a - (lev S1 - lev S2) - ((k - k') * a0 - (lev S1 - lev S2))) by ring. apply Z.divide_sub_r; assumption. }
  apply (prime_mult edL edL_prime) in D2. assert (LP : 0 < edL) by reflexivity.
  assert (RK : 0 <= k < edL /\ 0 <= k' < edL) by (split; apply Z.mod_pos_bound; exact LP). destruct D2 as [D2|[q D2]].
  - exfalso. apply NK. destruct D2 as [q D2]. assert (q = 0) by (revert LP RK D2; generalize edL; intros; nia). subst q. lia.
  - replace a with (a0 + q * edL) by lia. apply Z_mod_plus_full.
Qed.
(** ** Keys that are no keys: the encodings of the neutral element *)
Theorem C85_neutral_keys : forall b, octets b -> length b = 32%nat ->
  (read_as b gO <-> lev b mod 2 ^ 255 = 1 \/ lev b mod 2 ^ 255 = 2 ^ 255 - 18).
Proof.
  intros b Ob Lb. pose proof (Z.mod_pos_bound (lev b) (2 ^ 255) ltac:(reflexivity)) as B. set (v := lev b mod 2 ^ 255) in *. split.
  - intros (x & y & C & [q D] & _). destruct (edco_fun gO x y 0 1 C edco_O) as [-> ->]. fold v in D. assert (EP : edP = 2 ^ 255 - 19) by reflexivity. clearbody v.
    rewrite EP in D. assert (AUX : forall m j w, 100 < m -> 0 <= w < m -> 1 - w = j * (m - 19) -> j = 0 \/ j = -1) by (intros; nia).
    assert (Q : q = 0 \/ q = -1) by (apply (AUX (2 ^ 255) q v); [reflexivity|exact B|exact D]). destruct Q as [-> | ->]; lia.
  - intros H. exists 0, 1. split; [exact edco_O|]. split; [|left; reflexivity]. fold v. destruct H as [-> | ->]; [exists 0|exists (-1)]; reflexivity.
Qed.
(** under such a key every message has the same signatures, one for each s *)
Theorem C85_neutral_forgery : forall b msg s Rb Sb, octets b -> length b = 32%nat -> read_as b gO ->
  point_bytes (gmul s edB) Rb -> length Sb = 32%nat -> lev Sb = s -> 0 <= s < edL -> accepts b msg (Rb ++ Sb).
Proof.
  intros b msg s Rb Sb Ob Lb RO PR LS VS HS. exists gO, (gmul s edB), Rb, Sb. split; [reflexivity|]. split; [exact LS|]. split; [lia|]. split; [exact RO|]. split; [exact PR|].
  rewrite gmul_O, gadd_O, VS. reflexivity.
Qed.

(** ** Through the packages keypair and signature *)
Variable H : Z -> bytes -> bytes.
Variable ev : ecpub -> bytes -> Z -> Z -> bool.
Variable kr : bytes -> bytes -> go (res (Z * Z)).
Variable ethV : bytes -> bytes -> bytes -> bool.
Variable sv : ecpub -> bytes -> bytes -> Z -> Z -> bool.
Notation receive := (Prop_BtcecWhole.recv H ev kr Verify ethV sv).
Theorem C85_receive_exact : forall pub msg buf, octets pub -> length pub = 32%nat -> octets buf ->
  (receive (PkEd pub) msg buf = Val true <-> msg <> [] /\ exists sig, buf = 10 :: sig /\ accepts pub msg sig).
Proof.
  intros pub msg buf Op Lp Ob. unfold Prop_BtcecWhole.recv.
  assert (V : forall sig, Signature.Verify H ev kr Verify ethV sv (PkEd pub) msg (Some sig) = Val true <-> msg <> [] /\ exists v, sig = {| sg_Scheme := 10; sg_Value := VBytes v |} /\ Verify pub msg v = true).
  { intros sig. rewrite Prop_Sig3.C66_accepts_iff by discriminate. apply and_iff_compat_l. split.
    - intros A. inversion A; subst. eexists. split; [reflexivity|assumption].
    - intros (v & -> & E). apply Prop_Sig3.ac_ed; assumption. }
  split.
  - destruct (Deserialize_cases buf) as [[e D]|(sig & sch & data & D & Sp & De)]; rewrite D; cbn [bind]; [discriminate|]. intros E. apply V in E. destruct E as [NE (v & -> & E)]. split; [exact NE|].
    inversion De; subst; try lia. inversion Sp; subst. exists v. split; [reflexivity|]. apply (C85_verify_exact pub msg v Op Lp (Forall_inv_tail Ob)). exact E.
  - intros [NE (sig & -> & A)]. apply Forall_inv_tail in Ob. pose proof A as (A0 & R & Rb & Sb & E & LS & _ & _ & PR & _). pose proof PR as (x & y & _ & LR & _).
    assert (LN : length sig = 64%nat) by (rewrite E, app_length; lia).
    rewrite Deserialize_cons by (intros C; rewrite ?C in LN; cbn in LN; lia). change (deserialize_data 10 sig) with (Val (Ok {| sg_Scheme := 10; sg_Value := VBytes sig |})). cbn [bind].
    apply V. split; [exact NE|]. exists sig. split; [reflexivity|]. apply (C85_verify_exact pub msg sig Op Lp Ob). exact A.
Qed.
(** one constant signature under one constant key: every message *)
Theorem C85_universal_forgery : forall rng, exists pub, DeserializePublicKey rng (20 :: 25 :: 1 :: repeat 0 31) = Val (Ok pub) /\
  forall msg, msg <> [] -> receive pub msg (10 :: 1 :: repeat 0 63) = Val true.
Proof.
  intros rng. exists (PkEd (1 :: repeat 0 31)). split; [reflexivity|]. intros msg NE.
  assert (Oz : forall n, octets (1 :: repeat 0 n)) by (intros n; constructor; [unfold is_byte; lia|]; apply Forall_forall; intros z Hz; apply repeat_spec in Hz; subst z; unfold is_byte; lia).
  apply C85_receive_exact; [apply Oz|reflexivity|constructor; [unfold is_byte; lia|apply Oz]|]. split; [exact NE|]. exists ((1 :: repeat 0 31) ++ repeat 0 32). split; [reflexivity|].
  apply (C85_neutral_forgery _ _ 0); [apply Oz|reflexivity|apply C85_neutral_keys; [apply Oz|reflexivity|left; reflexivity]| |reflexivity|reflexivity|split; [lia|reflexivity]].
  rewrite gmul_0. exists 0, 1. split; [exact edco_O|]. split; [reflexivity|]. split; [apply Oz|reflexivity].
Qed.

Variable rand : Type.
Variable es : Z -> ecpub -> bytes -> rand -> go (res (Z * Z)).
Variable k1s : Z -> ecpub -> bytes -> go (res bytes).
Variable eths : bytes -> Z -> ecpub -> go (res bytes).
Variable sm2s : rand -> Z -> ecpub -> bytes -> bytes -> go (res (Z * Z)).
Variable sbm : curve -> bytes -> Z * Z.
Variable field_element : curve -> bytes -> option Z.
(** a generated key, stored and read back, signs; the signature is received by whoever reads the public key *)
Theorem C85_end_to_end : forall seed more, length seed = 32%nat -> octets seed ->
  exists pri pub, Generate.GenerateKeyPair sbm NewKey field_element 20 (Some 25) (seed ++ more) = Val (Generate.Keys pri pub) /\
  exists pe ke, SerializePrivateKey pri = Val pe /\ SerializePublicKey pub = Val ke /\ length pe = 66%nat /\ length ke = 34%nat /\
  (forall rng, DeserializePrivateKey sbm rng pe = Val (Ok (Some pri)) /\ DeserializePublicKey rng ke = Val (Ok pub)) /\
  forall rn msg opt, exists sig buf, Signature.Sign H rand es k1s Sign eths sm2s rn 10 pri msg opt = Val (Ok sig) /\
    Serialize (Some sig) = Val (Ok buf) /\ length buf = 65%nat /\ (msg <> [] -> receive pub msg buf = Val true).
Proof.
  intros seed more Ls Os. destruct (C85_key seed) as (pub & EK & PA & _). pose proof PA as (xa & ya & _ & Lp & Op & _).
  assert (LK : length (NewKey seed) = 64%nat) by (rewrite EK, app_length; lia).
  exists (SkEd (NewKey seed)), (PkEd pub). split.
  { unfold Generate.GenerateKeyPair. change ((20 =? PK_ECDSA) || (20 =? PK_SM2)) with false. change (20 =? PK_EDDSA) with true. change (25 =? L_ED25519) with true. cbv iota.
    unfold Generate.ed25519_gen. rewrite zlen_app. pose proof (zlen_nonneg _ more). assert (Z32 : zlen seed = 32) by (unfold zlen; lia). rewrite Z32.
    destruct (Z.ltb_spec (32 + zlen more) 32); [lia|]. rewrite slice_head by (symmetry; exact Z32). cbn [bind]. rewrite EK. rewrite slice_tail by (symmetry; exact Z32). reflexivity. }
  exists ([20; 25] ++ NewKey seed), ([20; 25] ++ pub). split; [reflexivity|]. split; [reflexivity|]. split; [rewrite app_length; cbn [length]; lia|]. split; [rewrite app_length; cbn [length]; lia|]. split.
  { intros rng. split.
    - assert (VP : valid_priv sbm (SkEd (NewKey seed))) by (apply vs_ed; [exact LK|rewrite EK; apply Forall_app; split; assumption]).
      destruct (C19_private_key_round_trip sbm _ rng VP I) as (e & E1 & E2). change (Val ([20; 25] ++ NewKey seed) = Val e) in E1. congruence.
    - destruct (C15_public_key_round_trip (PkEd pub) rng (vp_ed pub Lp Op) I) as (e & E1 & E2). change (Val ([20; 25] ++ pub) = Val e) in E1. congruence. }
  intros rn msg opt. destruct (C85_sign_verify seed msg Ls) as (V & _ & LS & OS). rewrite EK in V, LS, OS. rewrite skipn_app_l in V by (symmetry; exact Ls).
  exists {| sg_Scheme := 10; sg_Value := VBytes (Sign (seed ++ pub) msg) |}, (10 :: Sign (seed ++ pub) msg). split.
  { unfold Signature.Sign. change (10 =? SHA512withEDDSA) with true. cbn [negb]. rewrite EK. replace (zlen (seed ++ pub) =? 64) with true by (symmetry; apply Z.eqb_eq; unfold zlen; rewrite app_length; lia). reflexivity. }
  split; [reflexivity|]. split; [cbn [length]; lia|]. intros NE. apply C85_receive_exact; [exact Op|exact Lp|constructor; [unfold is_byte; lia|exact OS]|]. split; [exact NE|].
  eexists. split; [reflexivity|]. apply (C85_verify_exact pub msg _ Op Lp OS). exact V.
Qed.
End All.
Print Assumptions C85_verify_exact.
Print Assumptions C85_not_malleable.
Print Assumptions C85_key.
Print Assumptions C85_sign_exact.
Print Assumptions C85_scalar_signs.
Print Assumptions C85_sign_verify.
Print Assumptions C85_wrong_half_leaks.
Print Assumptions C85_neutral_keys.
Print Assumptions C85_neutral_forgery.
Print Assumptions C85_receive_exact.
Print Assumptions C85_universal_forgery.
Print Assumptions C85_end_to_end.

(** ** Examples *)
(** a function with the format of SHA-512; it depends on its argument *)
Definition ex_sha (m : bytes) : bytes := z2le 64 (1000 * lev m + 12345678901234567890).
Lemma ex_sha_ok : (forall m, length (ex_sha m) = 64%nat) /\ (forall m, octets (ex_sha m)).
Proof. split; intros m; [apply z2le_length|apply z2le_octets]. Qed.
Lemma octetsb : forall b, forallb (fun z => (0 <=? z) && (z <? 256)) b = true -> octets b.
Proof.
  intros b E. apply Forall_forall. intros z Hz. apply (proj1 (forallb_forall _ _) E) in Hz. apply andb_prop in Hz as [A B].
  apply Z.leb_le in A. apply Z.ltb_lt in B. exact (conj A B).
Qed.
(** the encoding of the base point: 58 66 66 ... 66; and with the top bit set, of its negative *)
Definition ex_B : bytes := 0x58 :: repeat 0x66 31.
Example C85_decompress_example : ge_FromBytes ex_B = Some (edBx, edBy) /\ ge_FromBytes (0x58 :: repeat 0x66 30 ++ [0xE6]) = Some (edP - edBx, edBy) /\
  point_bytes edB ex_B /\ read_as ex_B edB.
Proof.
  assert (PB : point_bytes edB ex_B).
  { exists edBx, edBy. split; [exact base_cp|]. split; [reflexivity|]. split; [apply octetsb; reflexivity|vm_compute; reflexivity]. }
  split; [|split; [|split; [exact PB|apply point_bytes_read; exact PB]]].
  - apply C85_decompress_exact; [apply octetsb; reflexivity|reflexivity|]. split; [split; [discriminate|reflexivity]|]. split; [split; [discriminate|reflexivity]|].
    split; [apply Z.mod_divide; [discriminate|vm_compute; reflexivity]|]. split; [apply Z.mod_divide; [discriminate|vm_compute; reflexivity]|right; vm_compute; reflexivity].
  - apply C85_decompress_exact; [apply octetsb; reflexivity|reflexivity|]. split; [split; [discriminate|reflexivity]|]. split; [split; [discriminate|reflexivity]|].
    split; [apply Z.mod_divide; [discriminate|vm_compute; reflexivity]|]. split; [apply Z.mod_divide; [discriminate|vm_compute; reflexivity]|right; vm_compute; reflexivity].
Qed.
(** bytes that are read as no point: y = 2 *)
Lemma two_none : powz ChainEd.ed_red (3 * (4 * edD + 1)) (2 ^ 254 - 10) mod edP = edP - 1.
Proof. vm_compute. reflexivity. Qed.
Example C85_decompress_none : ge_FromBytes (2 :: repeat 0 31) = None.
Proof.
  destruct (ge_FromBytes (2 :: repeat 0 31)) as [[x y]|] eqn:E; [exfalso|reflexivity].
  apply C85_decompress_exact in E; [|apply octetsb; reflexivity|reflexivity]. destruct E as (X & Y & ON & YV & _).
  change (lev (2 :: repeat 0 31) mod 2 ^ 255) with 2 in YV. assert (y = 2) by (apply small_div in YV; [lia|pose proof edP_odd; lia]). subst y.
  apply (euler_nonsquare edP (3 * (4 * edD + 1)) edP_prime edP_odd) with (z := (4 * edD + 1) * x).
  - assert (He : (edP - 1) / 2 = 2 ^ 254 - 10) by (vm_compute; reflexivity). rewrite He.
    rewrite <- (powz_spec ChainEd.ed_red edP _ (2 ^ 254 - 10)); [exact two_none|reflexivity|reflexivity|exact ChainEd.ed_red_ok].
  - replace (3 * (4 * edD + 1) - (4 * edD + 1) * x * ((4 * edD + 1) * x)) with ((4 * edD + 1) * (2 * 2 - x * x - (1 + edD * (x * x) * (2 * 2)))) by ring.
    apply Z.divide_mul_r. exact ON.
Qed.
(** a seed, its key and its signatures *)
Definition ex_seed : bytes := repeat 7 32.
Example C85_sign_example : exists pub, NewKeyFromSeed ex_sha ex_seed = ex_seed ++ pub /\ length pub = 32%nat /\ octets pub /\
  ed_accepts ex_sha pub [104; 105] (Ed25519.Sign ex_sha (ex_seed ++ pub) [104; 105]) /\
  scalar_of ex_sha ex_seed mod 8 = 0 /\ scalar_of ex_sha ex_seed <> 0.
Proof.
  destruct ex_sha_ok as [SL SO]. destruct (C85_key ex_sha SL SO ex_seed) as (pub & EK & PA & R & [j D] & _). pose proof PA as (x & y & _ & Lp & Op & _). exists pub.
  split; [exact EK|]. split; [exact Lp|]. split; [exact Op|]. destruct (C85_sign_verify ex_sha SL SO ex_seed [104; 105] eq_refl) as (V & _ & _ & OS). rewrite EK in V, OS.
  rewrite skipn_app_l in V by reflexivity. split; [apply (C85_verify_exact ex_sha); assumption|].
  split; [rewrite D; apply Z.mod_mul; discriminate|]. intros C. rewrite C in R. destruct R as [R _]. apply R. reflexivity.
Qed.
(** the key B itself (scalar 1) and a signature made with the nonce 5: hypotheses of C85_scalar_signs and of C85_not_malleable *)
Example C85_accept_example : exists Rb Sb, octets Sb /\ length Rb = 32%nat /\ ed_accepts ex_sha ex_B [1; 2; 3] (Rb ++ Sb) /\ lev Sb <> 0.
Proof.
  destruct ex_sha_ok as [SL SO]. destruct C85_decompress_example as (_ & _ & PB & RB).
  destruct (edco_exists (gmul 5 edB)) as (x & y & C). pose proof (ToBytes_ok (gmul 5 edB) (x, y) C) as PR. pose proof PR as (x' & y' & _ & LR & OR & _).
  set (Rb := ge_ToBytes (x, y)) in *. set (s := (5 + challenge ex_sha Rb ex_B [1; 2; 3] * 1) mod edL).
  assert (RS : 0 <= s < edL) by (apply Z.mod_pos_bound; reflexivity).
  assert (A : ed_accepts ex_sha ex_B [1; 2; 3] (Rb ++ z2le 32 s)).
  { apply (C85_scalar_signs ex_sha ex_B edB 1 5 [1; 2; 3] Rb); [apply octetsb; reflexivity|reflexivity|exact RB|symmetry; apply gmul_1|exact PR|apply z2le_length|].
    apply scalar_bytes. exact RS. }
  destruct (Z.eq_dec s 0) as [S0|NS].
  - (* then R = -kB; another nonce does it *)
    destruct (edco_exists (gmul 0 edB)) as (x0 & y0 & C0). pose proof (ToBytes_ok (gmul 0 edB) (x0, y0) C0) as PR0. pose proof PR0 as (x0' & y0' & _ & LR0 & OR0 & _).
    set (R0 := ge_ToBytes (x0, y0)) in *. rewrite gmul_0 in PR0.
    assert (EB : R0 = 1 :: repeat 0 31).
    { apply (point_bytes_fun gO); [exact PR0|]. exists 0, 1. split; [exact edco_O|]. split; [reflexivity|]. split; [apply octetsb; reflexivity|reflexivity]. }
    set (k := challenge ex_sha R0 ex_B [1; 2; 3]). exists R0, (z2le 32 k).
    assert (RK : 0 <= k < edL) by (apply Z.mod_pos_bound; reflexivity).
    split; [apply z2le_octets|]. split; [exact LR0|]. split.
    + apply (C85_scalar_signs ex_sha ex_B edB 1 0 [1; 2; 3] R0); [apply octetsb; reflexivity|reflexivity|exact RB|symmetry; apply gmul_1|rewrite gmul_0; exact PR0|apply z2le_length|].
      rewrite (scalar_bytes k RK). fold k. rewrite Z.add_0_l, Z.mul_1_r. symmetry. apply Z.mod_small. exact RK.
    + rewrite (scalar_bytes k RK). unfold k. rewrite EB. vm_compute. discriminate.
  - exists Rb, (z2le 32 s). split; [apply z2le_octets|]. split; [exact LR|]. split; [exact A|]. rewrite (scalar_bytes s RS). exact NS.
Qed.
(** two halves, two challenges: the hypothesis of C85_wrong_half_leaks *)
Example C85_leak_example : challenge ex_sha (repeat 1 32) (repeat 2 32) [9] <> challenge ex_sha (repeat 1 32) (repeat 3 32) [9].
Proof. vm_compute. discriminate. Qed.
(** the four encodings of the neutral element *)
Example C85_neutral_example : Forall (fun b => read_as b gO)
  [1 :: repeat 0 31; 1 :: repeat 0 30 ++ [128]; 0xEE :: repeat 0xFF 30 ++ [0x7F]; 0xEE :: repeat 0xFF 31].
Proof.
  repeat constructor; (apply C85_neutral_keys; [apply octetsb; reflexivity|reflexivity|]); [left|left|right|right]; vm_compute; reflexivity.
Qed.
(** generating, signing and receiving, whatever the other primitives do *)
Example C85_end_to_end_example : exists pri pub, Generate.GenerateKeyPair (fun _ _ => (0, 0)) (NewKeyFromSeed ex_sha) (fun _ _ => None) 20 (Some 25) ex_seed = Val (Generate.Keys pri pub) /\
  exists sig buf, Signature.Sign (fun _ m => m) unit (fun _ _ _ _ => Val (Err "no"%string)) (fun _ _ _ => Val (Err "no"%string)) (Ed25519.Sign ex_sha) (fun _ _ _ => Val (Err "no"%string))
    (fun _ _ _ _ _ => Val (Err "no"%string)) tt 10 pri [42] OptOther = Val (Ok sig) /\ Serialize (Some sig) = Val (Ok buf) /\
    Prop_BtcecWhole.recv (fun _ m => m) (fun _ _ _ _ => false) (fun _ _ => Val (Err "no"%string)) (Ed25519.Verify ex_sha) (fun _ _ _ => false) (fun _ _ _ _ _ => false) pub [42] buf = Val true.
Proof.
  destruct ex_sha_ok as [SL SO].
  destruct (C85_end_to_end ex_sha SL SO (fun _ m => m) (fun _ _ _ _ => false) (fun _ _ => Val (Err "no"%string)) (fun _ _ _ => false) (fun _ _ _ _ _ => false) unit
    (fun _ _ _ _ => Val (Err "no"%string)) (fun _ _ _ => Val (Err "no"%string)) (fun _ _ _ => Val (Err "no"%string)) (fun _ _ _ _ _ => Val (Err "no"%string)) (fun _ _ => (0, 0)) (fun _ _ => None)
    ex_seed [] eq_refl ltac:(apply octetsb; reflexivity)) as (pri & pub & G & pe & ke & _ & _ & _ & _ & _ & ALL).
  exists pri, pub. split; [exact G|]. destruct (ALL tt [42] OptOther) as (sig & buf & A & B & _ & D). exists sig, buf. split; [exact A|]. split; [exact B|]. apply D. discriminate.
Qed.
