(** * Prop_Btcec: property C82, signatures with secp256k1 keys *)
From Coq Require Import ZArith Znumtheory Zpow_facts String List Bool Lia.
From Verif Require Import Base BaseFacts Curves ECKey NumTheory LucasFacts Spec_EC ECFacts Spec_Group Spec_SM2 Spec_Gen Spec_ECDSA ECDSA ECDSAFacts
  CurveZ CurveK Spec_Btcec Btcec BtcecFacts.
Import ListNotations.
Open Scope Z_scope.

(** ** The header byte *)
Definition iteration_of (h : Z) : Z := Z.land (u8 (h - 27)) 251.
Definition header_b (h : Z) : bool :=
  if (27 <=? h) && (h <=? 30) then iteration_of h =? h - 27 else if (31 <=? h) && (h <=? 34) then iteration_of h =? h - 31 else 8 <=? iteration_of h.
Lemma header_all : forall h, 0 <= h < 256 -> header_b h = true.
Proof.
  intros h H. assert (A : forallb (fun n => header_b (Z.of_nat n)) (seq 0 256) = true) by (vm_compute; reflexivity).
  rewrite forallb_forall in A. specialize (A (Z.to_nat h)). rewrite Z2Nat.id in A by lia. apply A. apply in_seq. lia.
Qed.
Lemma header_iter : forall h, 0 <= h < 256 -> header h (iteration_of h) \/ 8 <= iteration_of h.
Proof.
  intros h H. pose proof (header_all h H) as A. unfold header_b in A. unfold header.
  destruct (Z.leb_spec 27 h), (Z.leb_spec h 30), (Z.leb_spec 31 h), (Z.leb_spec h 34); cbn [andb] in A; rewrite ?Z.eqb_eq, ?Z.leb_le in A; lia.
Qed.
Lemma header_fun : forall h it, header h it -> 0 <= h < 256 /\ iteration_of h = it.
Proof.
  intros h it [R H]. assert (H' : 0 <= h < 256) by lia. split; [exact H'|]. pose proof (header_all h H') as A. unfold header_b in A.
  destruct (Z.leb_spec 27 h), (Z.leb_spec h 30), (Z.leb_spec 31 h), (Z.leb_spec h 34); cbn [andb] in A; rewrite ?Z.eqb_eq, ?Z.leb_le in A; lia.
Qed.
Lemma header_iter_nonneg : forall h, 0 <= iteration_of h.
Proof. intros h. unfold iteration_of. apply Z.land_nonneg. right. lia. Qed.

(** ** Padding *)
Lemma pad_ok : forall z, 0 <= z < 2 ^ 256 -> encodes 32 z (pad 32 z).
Proof.
  intros z H. assert (BL : (bit_len z + 7) / 8 = byte_len z).
  { unfold bit_len, byte_len. destruct (z =? 0); [reflexivity|]. replace (Z.log2 (Z.abs z) + 1 + 7) with (Z.log2 (Z.abs z) + 1 * 8) by ring. apply Z.div_add. lia. }
  pose proof (zlen_big_bytes z) as ZL. pose proof (big_bytes_length_le z 32 ltac:(change (256 ^ Z.of_nat 32) with (2 ^ 256); lia)) as L32.
  assert (P : pad 32 z = zeros (32 - byte_len z) ++ big_bytes z).
  { unfold pad. cbv zeta. rewrite BL. destruct (Z.ltb_spec (byte_len z) 32); [reflexivity|]. unfold zeros. replace (Z.to_nat (32 - byte_len z)) with 0%nat by (unfold zlen in ZL; lia). reflexivity. }
  rewrite P. unfold zlen in ZL. split; [|split].
  - rewrite app_length. unfold zeros. rewrite repeat_length. lia.
  - apply Forall_app. split; [|apply big_bytes_wf]. unfold zeros. apply Forall_forall. intros b I. apply repeat_spec in I. lia.
  - rewrite value_be2z, be2z_app. assert (ZZ : forall n, be2z (repeat 0 n) = 0).
    { intros n. unfold be2z. induction n as [|n IH]; [reflexivity|]. cbn [repeat fold_left]. exact IH. }
    unfold zeros. rewrite ZZ, be2z_big_bytes by lia. lia.
Qed.
Lemma compact_inj : forall sig h r s h' r' s', compact sig h r s -> compact sig h' r' s' -> h = h' /\ r = r' /\ s = s'.
Proof.
  intros sig h r s h' r' s' (rb & sb & -> & (L1 & _ & V1) & (L2 & _ & V2)) (rb' & sb' & Q & (L1' & _ & V1') & (L2' & _ & V2')).
  injection Q as Hh Q. subst h'. assert (Q2 : rb = rb' /\ sb = sb').
  { assert (LL : length rb = length rb') by lia. split.
    - apply (f_equal (firstn (length rb))) in Q. rewrite firstn_app, Nat.sub_diag, firstn_all, firstn_O, app_nil_r in Q. rewrite LL, firstn_app, Nat.sub_diag, firstn_all, firstn_O, app_nil_r in Q. exact Q.
    - apply (f_equal (skipn (length rb))) in Q. rewrite skipn_app, Nat.sub_diag, skipn_all in Q. rewrite LL, skipn_app, Nat.sub_diag, skipn_all in Q. exact Q. }
  destruct Q2 as [-> ->]. repeat split; congruence.
Qed.

Section K.
Variable K : kcurve.
Notation p := (c_P K). Notation N := (c_N K).
Notation point := (pt (eg (kE K))).
Notation E := (kE K).
Notation G := (eG (e := kE K)).
Hypothesis HN : bits_of N 256.
Hypothesis Hbits : c_bits K = 256.
Let N2 : 1 < N := Npos K.

(** ** Recoverable signatures and ECDSA *)
Lemma killed : forall P : point, gmul N P = gO. Proof. exact (k_killed K). Qed.
Lemma accepts_point : forall (Q : point) e r s, 1 <= r <= N - 1 -> 1 <= s <= N - 1 ->
  (ecdsa_accepts E Q e r s <-> exists R : point, R <> gO /\ fst (ecoords R) mod N = r /\ gadd (gmul r Q) (gmul e G) = gmul s R).
Proof.
  intros Q e r s Hr Hs. destruct (inverse_ok K s) as (w & _ & I); [rewrite Z.mod_small; lia|].
  assert (ONE : forall w (P : point), (w * s) mod N = 1 -> gmul (s * w) P = P).
  { intros w' P I'. rewrite <- (gmul_1 _ P) at 2. apply (gmul_cong _ N); [lia|apply killed|]. rewrite Z.mul_comm, I', Z.mod_1_l by lia. reflexivity. }
  split.
  - intros (_ & _ & w' & I' & NQ & X). change (eN E) with N in *. cbv zeta in *. exists (gadd (gmul (e * w') G) (gmul (r * w') Q)). split; [exact NQ|]. split; [exact X|].
    rewrite gmul_gadd, <- !gmul_mul. replace (s * (e * w')) with (s * w' * e) by ring. replace (s * (r * w')) with (s * w' * r) by ring.
    rewrite !(gmul_mul _ (s * w')), !ONE by exact I'. apply gadd_comm.
  - intros (R & NR & X & EQ). split; [exact Hr|]. split; [exact Hs|]. exists w. change (eN E) with N. split; [exact I|]. cbv zeta.
    assert (T : gadd (gmul (e * w) G) (gmul (r * w) Q) = R).
    { rewrite (Z.mul_comm e), (Z.mul_comm r), (gmul_mul _ w e), (gmul_mul _ w r), <- gmul_gadd, gadd_comm, EQ, <- gmul_mul, (Z.mul_comm w). apply ONE. exact I. }
    rewrite T. split; [exact NR|exact X].
Qed.
Lemma small_quot : forall q, 0 <= q -> q * N < p -> q = 0 \/ q = 1.
Proof. intros q H L. pose proof (k_big K). nia. Qed.

(** a recoverable signature is an ECDSA signature, and every ECDSA signature has exactly one of the four numbers *)
Theorem C82_ecdsa : forall (Q : point) e r s, 1 <= r < N -> 1 <= s < N ->
  (ecdsa_accepts E Q e r s <-> exists it, 0 <= it < 4 /\ recovers E e it r s Q) /\
  (forall it it', recovers E e it r s Q -> recovers E e it' r s Q -> it = it').
Proof.
  intros Q e r s Hr Hs. split.
  - rewrite accepts_point by lia. split.
    + intros (R & NR & X & EQ). pose proof (kco_range K R) as [RX _]. change (kco K R) with (ecoords (e := E) R) in RX.
      set (q := fst (ecoords R) / N). pose proof (Z.div_mod (fst (ecoords R)) N ltac:(lia)) as DM. rewrite X in DM. fold q in DM.
      assert (Q0 : 0 <= q) by (apply Z.div_pos; lia). destruct (small_quot q Q0 ltac:(nia)) as [Hq|Hq].
      * exists (if Z.odd (snd (ecoords R)) then 1 else 0). split; [destruct (Z.odd _); lia|]. exists R. split; [|exact EQ]. split; [exact NR|].
        change (eN E) with N. destruct (Z.odd (snd (ecoords R))); split; try reflexivity; change (1 / 2) with 0; change (0 / 2) with 0; nia.
      * exists (if Z.odd (snd (ecoords R)) then 3 else 2). split; [destruct (Z.odd _); lia|]. exists R. split; [|exact EQ]. split; [exact NR|].
        change (eN E) with N. destruct (Z.odd (snd (ecoords R))); split; try reflexivity; change (3 / 2) with 1; change (2 / 2) with 1; nia.
    + intros (it & _ & R & (NR & X & _) & EQ). exists R. split; [exact NR|]. split; [|exact EQ]. rewrite X. change (eN E) with N. rewrite Z.mod_add by lia. apply Z.mod_small. lia.
  - intros it it' (R & (NR & X & O) & EQ) (R' & (NR' & X' & O') & EQ').
    assert (RR : R = R') by (apply (gmul_cancel K s); [rewrite Z.mod_small; lia|]; transitivity (gadd (gmul r Q) (gmul e G)); [symmetry; exact EQ|exact EQ']).
    subst R'. change (eN E) with N in *. assert (H2 : it / 2 = it' / 2) by nia. rewrite O in O'.
    rewrite (Z.div_mod it 2), (Z.div_mod it' 2), H2, !Zmod_odd, O' by lia. reflexivity.
Qed.
(** the other number of the pair that stands for the same first coordinate *)
Definition flip (it : Z) : Z := it + 1 - 2 * (it mod 2).
Lemma flip_div : forall it, flip it / 2 = it / 2 /\ Z.odd (flip it) = negb (Z.odd it) /\ flip (flip it) = it.
Proof.
  intros it. unfold flip. pose proof (Z.div_mod it 2 ltac:(lia)) as D. rewrite !Zmod_odd in *.
  destruct (Z.odd it) eqn:O.
  - replace (it + 1 - 2 * 1) with (2 * (it / 2)) by lia. rewrite Z.mul_comm, Z.div_mul, Z.odd_mul by lia. rewrite andb_false_r. repeat split; lia.
  - replace (it + 1 - 2 * 0) with (1 + it / 2 * 2) by lia. rewrite Z.div_add, Z.odd_add, Z.odd_mul, andb_false_r by lia. repeat split. cbn [Z.odd xorb negb]. lia.
Qed.
Lemma flip_range : forall it, 0 <= it < 4 -> 0 <= flip it < 4.
Proof. intros it H. assert (C : it = 0 \/ it = 1 \/ it = 2 \/ it = 3) by lia. destruct C as [->|[->|[->| ->]]]; unfold flip; cbn; lia. Qed.
Lemma recovers_flip : forall (Q : point) e it r s, recovers E e it r s Q -> recovers E e (flip it) r (N - s) Q.
Proof.
  intros Q e it r s (R & (NR & X & O) & EQ). destruct (flip_div it) as (F1 & F2 & _). pose proof (kco_neg K R NR) as CN.
  change (kco K (gneg R)) with (ecoords (e := E) (gneg R)) in CN. change (kco K R) with (ecoords (e := E) R) in CN.
  exists (gneg R). split; [split|].
  - intros C. apply NR. apply (f_equal gneg) in C. rewrite gneg_neg, gneg_O in C. exact C.
  - rewrite CN. cbn [fst snd]. rewrite F1, F2. split; [exact X|]. rewrite odd_opp by apply k_mod4. rewrite O. reflexivity.
  - rewrite EQ, gmul_gneg, <- gmul_opp. apply (gmul_cong _ N); [lia|apply killed|]. replace (- (N - s)) with (s + -1 * N) by ring. rewrite Z.mod_add by lia. reflexivity.
Qed.
(** (r, s) and (r, N - s) are signatures for the same key, with the two numbers of a pair *)
Theorem C82_malleable : forall (Q : point) e it r s, recovers E e it r s Q <-> recovers E e (flip it) r (N - s) Q.
Proof.
  intros Q e it r s. split; [apply recovers_flip|]. intros H. apply recovers_flip in H. destruct (flip_div it) as (_ & _ & F). rewrite F in H.
  replace (N - (N - s)) with s in H by ring. exact H.
Qed.

(** ** Secp256k1Verify *)
Variable checked : bool.
Variable sm : curve -> Z * Z -> bytes -> Z * Z.
Variable sbm : curve -> bytes -> Z * Z.
Variable add : curve -> Z * Z -> Z * Z -> Z * Z.
Hypothesis sm_ok : forall (P : point) k, P <> gO -> octets k -> sm K (ecoords P) k = ecoords (gmul (value k 0) P).
Hypothesis sbm_ok : forall k, octets k -> sbm K k = ecoords (gmul (value k 0) G).
Hypothesis add_ok : forall P Q : point, add K (ecoords P) (ecoords Q) = ecoords (gadd P Q).
Let outcome_of := recover_outcome K checked sm sbm add sm_ok sbm_ok add_ok HN.

Lemma split65 : forall sig, octets sig -> length sig = 65%nat -> exists h rb sb, sig = h :: rb ++ sb /\ 0 <= h < 256 /\
  firstn 32 (skipn 1 sig) = rb /\ skipn 33 sig = sb /\ encodes 32 (be2z rb) rb /\ encodes 32 (be2z sb) sb.
Proof.
  intros sig O L. destruct sig as [|h t]; [discriminate L|]. exists h, (firstn 32 t), (skipn 32 t). cbn [length] in L. inversion O as [|? ? Oh Ot]. subst.
  split; [rewrite firstn_skipn; reflexivity|]. split; [exact Oh|]. split; [reflexivity|]. split; [reflexivity|].
  split; (split; [|split; [|apply value_be2z]]); [rewrite firstn_length; lia|apply wf_firstn; exact Ot|rewrite skipn_length; lia|apply wf_skipn; exact Ot].
Qed.
Lemma compact_of : forall h rb sb, encodes 32 (be2z rb) rb -> encodes 32 (be2z sb) sb -> compact (h :: rb ++ sb) h (be2z rb) (be2z sb).
Proof. intros h rb sb R S. exists rb, sb. repeat split; apply R || apply S. Qed.
Lemma compact_length : forall sig h r s, compact sig h r s -> length sig = 65%nat.
Proof. intros sig h r s (rb & sb & -> & (L1 & _) & (L2 & _)). cbn [length]. rewrite app_length. lia. Qed.
Lemma compact_range : forall sig h r s, octets sig -> compact sig h r s -> 0 <= h < 256 /\ 0 <= r < 2 ^ 256 /\ 0 <= s < 2 ^ 256.
Proof.
  intros sig h r s O (rb & sb & -> & (L1 & O1 & V1) & (L2 & O2 & V2)). inversion O as [|? ? Oh _]. subst.
  rewrite !value_be2z. pose proof (be2z_bound rb O1) as B1. pose proof (be2z_bound sb O2) as B2. unfold zlen in B1, B2. rewrite L1 in B1. rewrite L2 in B2.
  change (256 ^ 32) with (2 ^ 256) in *. repeat split; lia || apply Oh || apply B1 || apply B2.
Qed.
(** the value of RecoverCompact *)
Lemma recover_value : forall dg sig h r s, octets dg -> octets sig -> compact sig h r s ->
  RecoverCompact checked sm sbm add K sig dg = recoverKeyFromSignature checked sm sbm add K r s dg (iteration_of h) false.
Proof.
  intros dg sig h r s Od Os C. pose proof (compact_length _ _ _ _ C) as L. destruct (split65 sig Os L) as (h' & rb & sb & Q & Hh & F & S & ER & ES).
  destruct (compact_inj sig h r s h' (be2z rb) (be2z sb) C) as (-> & -> & ->); [rewrite Q; apply compact_of; assumption|].
  unfold RecoverCompact. cbv zeta. rewrite Hbits. change ((256 + 7) / 8) with 32. change (1 + 32 * 2) with 65. change (32 + 1) with 33. unfold zlen. rewrite L. change (Z.of_nat 65) with 65. cbn [Z.eqb Pos.eqb negb].
  rewrite !slice_ok by (unfold zlen; rewrite ?L; lia). change (33 - 1) with 32. change (65 - 33) with 32. change (Z.to_nat 33) with 33%nat. change (Z.to_nat 32) with 32%nat. change (Z.to_nat 1) with 1%nat.
  rewrite F, S. rewrite firstn_all2 by (destruct ES as [ES _]; lia). rewrite Q. cbn [index bind]. reflexivity.
Qed.
Lemma far_header : forall it r R, 8 <= it -> 0 <= r -> ~ named_point E it r R.
Proof.
  intros it r R Hi Hr (NR & X & _). pose proof (kco_range K R) as [RX _]. change (kco K R) with (ecoords (e := E) R) in RX. change (eN E) with N in X.
  pose proof (k_big K). assert (4 <= it / 2) by (apply Z.div_le_lower_bound; lia). nia.
Qed.
(** acceptance, as it depends on the tests at the beginning of recoverKeyFromSignature *)
Definition in_range (r s : Z) : Prop := if checked then 1 <= r < N /\ 1 <= s < N else r mod N <> 0.
Lemma in_range_adm : forall r s, in_range r s <-> admitted K checked r s /\ r mod N <> 0.
Proof.
  intros r s. unfold in_range, admitted. destruct checked; split.
  - intros R. split; [intros _; exact R|]. rewrite Z.mod_small; lia.
  - intros [A _]. apply A. reflexivity.
  - intros R. split; [discriminate|exact R].
  - intros [_ R]. exact R.
Qed.
Notation verify := (Secp256k1Verify checked sm sbm add K).

(** which strings Secp256k1Verify accepts *)
Theorem C82_verify_exact : forall pub dg sig, octets dg -> octets sig ->
  (verify pub dg sig = Val true <-> exists h it r s Q, compact sig h r s /\ header h it /\ in_range r s /\ ecoords Q = pub /\ recovers E (digest_int 256 dg) it r s Q).
Proof.
  intros pub dg sig Od Os. unfold Secp256k1Verify. split.
  - intros V. destruct (Nat.eq_dec (length sig) 65) as [L|L].
    + destruct (split65 sig Os L) as (h & rb & sb & Q & Hh & _ & _ & ER & ES).
      assert (C : compact sig h (be2z rb) (be2z sb)) by (rewrite Q; apply compact_of; assumption).
      destruct (compact_range _ _ _ _ Os C) as (_ & R0 & S0). rewrite (recover_value dg sig h _ _ Od Os C) in V.
      pose proof (outcome_of (be2z rb) (be2z sb) dg (iteration_of h) false (proj1 R0) (proj1 S0) (header_iter_nonneg h) Od) as OUT.
      destruct OUT as [m _ _|m _ _|m R _ _ _|Q' A NZ RE]; try discriminate V.
      cbn [bind] in V. destruct (kco K Q') as [X Y] eqn:CQ. assert (B : (X =? fst pub) && (Y =? snd pub) = true) by congruence.
      apply andb_true_iff in B as [B1 B2]. apply Z.eqb_eq in B1, B2.
      assert (HD : header h (iteration_of h)).
      { destruct (header_iter h Hh) as [H|H]; [exact H|]. exfalso. destruct RE as (R & NP & _). exact (far_header _ _ R H (proj1 R0) NP). }
      exists h, (iteration_of h), (be2z rb), (be2z sb), Q'. split; [exact C|]. split; [exact HD|]. split; [apply in_range_adm; split; assumption|]. split; [|exact RE].
      change (ecoords (e := E) Q') with (kco K Q'). rewrite CQ, B1, B2. symmetry. apply surjective_pairing.
    + unfold RecoverCompact in V. cbv zeta in V. rewrite Hbits in V. change (1 + (256 + 7) / 8 * 2) with 65 in V.
      destruct (Z.eqb_spec (zlen sig) 65) as [C|C]; [unfold zlen in C; lia|]. discriminate V.
  - intros (h & it & r & s & Q & C & HD & IR & CQ & RE). rewrite (recover_value dg sig h r s Od Os C). destruct (compact_range _ _ _ _ Os C) as (_ & R0 & S0).
    destruct (header_fun h it HD) as [_ ->]. apply in_range_adm in IR as [AD NZ].
    pose proof (outcome_of r s dg it false (proj1 R0) (proj1 S0) ltac:(destruct HD; lia) Od) as OUT.
    destruct OUT as [m CH NR|m _ NP|m R _ _ Z0|Q' _ _ RE'].
    + exfalso. exact (NR (AD CH)).
    + exfalso. destruct RE as (R & NPR & _). exact (NP R NPR).
    + contradiction.
    + rewrite (recovers_unique K _ _ _ _ Q' Q NZ RE' RE). cbn [bind]. change (kco K Q) with (ecoords (e := E) Q). rewrite CQ. destruct pub as [X Y]. cbn [fst snd]. rewrite !Z.eqb_refl. reflexivity.
Qed.
(** Secp256k1Verify answers, except that btcec without the tests panics exactly on strings with r = 0 modulo N and a
    header naming a point *)
Theorem C82_verify_answers : forall pub dg sig, octets dg -> octets sig ->
  ((exists b, verify pub dg sig = Val b) \/ (exists m, verify pub dg sig = Panic m)) /\
  ((exists m, verify pub dg sig = Panic m) <->
   checked = false /\ exists h it r s R, compact sig h r s /\ header h it /\ r mod N = 0 /\ named_point E it r R).
Proof.
  intros pub dg sig Od Os. unfold Secp256k1Verify. destruct (Nat.eq_dec (length sig) 65) as [L|L].
  - destruct (split65 sig Os L) as (h & rb & sb & Q & Hh & _ & _ & ER & ES).
    assert (C : compact sig h (be2z rb) (be2z sb)) by (rewrite Q; apply compact_of; assumption).
    destruct (compact_range _ _ _ _ Os C) as (_ & R0 & S0). rewrite (recover_value dg sig h _ _ Od Os C).
    pose proof (outcome_of (be2z rb) (be2z sb) dg (iteration_of h) false (proj1 R0) (proj1 S0) (header_iter_nonneg h) Od) as OUT.
    assert (BACK : forall h' it r s R, compact sig h' r s -> header h' it -> r mod N = 0 -> named_point E it r R -> (be2z rb) mod N = 0 /\ named_point E (iteration_of h) (be2z rb) R).
    { intros h' it r s R C' HD Z0 NP. destruct (compact_inj _ _ _ _ _ _ _ C C') as (<- & -> & _). destruct (header_fun _ _ HD) as [_ ->]. split; assumption. }
    destruct OUT as [m CH NR|m AD NP|m R AD NP Z0|Q' AD NZ RE].
    + split; [left; eexists; reflexivity|]. split; [intros [m' P]; discriminate P|]. intros [F _]. congruence.
    + split; [left; eexists; reflexivity|]. split; [intros [m' P]; discriminate P|]. intros (_ & h' & it & r & s & R & C' & HD & Z0 & NPR). exfalso.
      destruct (BACK _ _ _ _ _ C' HD Z0 NPR) as [_ T]. exact (NP R T).
    + split; [right; eexists; reflexivity|]. split; [|intros _; eexists; reflexivity]. intros _.
      split; [destruct checked eqn:CH; [|reflexivity]; exfalso; specialize (AD eq_refl); rewrite Z.mod_small in Z0; lia|].
      assert (HD : header h (iteration_of h)).
      { destruct (header_iter h Hh) as [H|H]; [exact H|]. exfalso. exact (far_header _ _ R H (proj1 R0) NP). }
      exists h, (iteration_of h), (be2z rb), (be2z sb), R. repeat split; assumption || apply NP || apply HD.
    + cbn [bind]. destruct (kco K Q'). split; [left; eexists; reflexivity|]. split; [intros [m' P]; discriminate P|].
      intros (_ & h' & it & r & s & R & C' & HD & Z0 & NPR). destruct (BACK _ _ _ _ _ C' HD Z0 NPR) as [T _]. contradiction.
  - unfold RecoverCompact. cbv zeta. rewrite Hbits. change (1 + (256 + 7) / 8 * 2) with 65.
    destruct (Z.eqb_spec (zlen sig) 65) as [C|C]; [unfold zlen in C; lia|]. cbn [negb bind]. split; [left; eexists; reflexivity|].
    split; [intros [m' P]; discriminate P|]. intros (_ & h & it & r & s & R & C' & _). apply compact_length in C'. contradiction.
Qed.

(** from one accepted string: the accepted ones among those with the same r, and s or N - s *)
Theorem C82_four_strings : checked = true -> forall pub dg h it r s rb sb sb', octets dg -> encodes 32 r rb -> encodes 32 s sb -> encodes 32 (N - s) sb' ->
  header h it -> verify pub dg (h :: rb ++ sb) = Val true ->
  forall h', 0 <= h' < 256 ->
    (verify pub dg (h' :: rb ++ sb) = Val true <-> header h' it) /\ (verify pub dg (h' :: rb ++ sb') = Val true <-> header h' (flip it)).
Proof.
  intros CH pub dg h it r s rb sb sb' Od ER ES ES' HD V h' Hh'.
  assert (Oct : forall a b z1 z2 z3, 0 <= z1 < 256 -> encodes 32 z2 a -> encodes 32 z3 b -> octets (z1 :: a ++ b)).
  { intros a b z1 z2 z3 H1 (_ & H2 & _) (_ & H3 & _). constructor; [exact H1|]. apply Forall_app. split; assumption. }
  assert (Com : forall a b z1 z2 z3, encodes 32 z2 a -> encodes 32 z3 b -> compact (z1 :: a ++ b) z1 z2 z3) by (intros a b z1 z2 z3 H2 H3; exists a, b; repeat split; apply H2 || apply H3).
  destruct (header_fun h it HD) as [Hh _].
  apply C82_verify_exact in V; [|exact Od|exact (Oct _ _ _ _ _ Hh ER ES)]. destruct V as (h0 & it0 & r0 & s0 & Q & C & HD0 & IR & CQ & RE).
  destruct (compact_inj _ _ _ _ _ _ _ C (Com _ _ h _ _ ER ES)) as (-> & -> & ->). destruct (header_fun h it0 HD0) as [_ I0]. destruct (header_fun h it HD) as [_ I1].
  assert (II : it0 = it) by congruence. rewrite II in *. clear C. unfold in_range in IR. rewrite CH in IR. destruct IR as [Hr Hs].
  assert (Q0 : forall Q', ecoords Q' = pub -> Q' = Q) by (intros Q' C'; apply ecoords_inj; congruence). split; split.
  - intros V. apply C82_verify_exact in V; [|exact Od|exact (Oct _ _ _ _ _ Hh' ER ES)]. destruct V as (h1 & it1 & r1 & s1 & Q1 & C1 & HD1 & _ & CQ1 & RE1).
    destruct (compact_inj _ _ _ _ _ _ _ C1 (Com _ _ h' _ _ ER ES)) as (-> & -> & ->). rewrite (Q0 Q1 CQ1) in RE1.
    destruct (C82_ecdsa Q (digest_int 256 dg) r s Hr Hs) as [_ U]. rewrite (U it it1 RE RE1). exact HD1.
  - intros HD1. apply C82_verify_exact; [exact Od|exact (Oct _ _ _ _ _ Hh' ER ES)|]. exists h', it, r, s, Q. split; [exact (Com _ _ h' _ _ ER ES)|]. split; [exact HD1|].
    split; [unfold in_range; rewrite CH; split; assumption|]. split; assumption.
  - intros V. apply C82_verify_exact in V; [|exact Od|exact (Oct _ _ _ _ _ Hh' ER ES')]. destruct V as (h1 & it1 & r1 & s1 & Q1 & C1 & HD1 & _ & CQ1 & RE1).
    destruct (compact_inj _ _ _ _ _ _ _ C1 (Com _ _ h' _ _ ER ES')) as (-> & -> & ->). rewrite (Q0 Q1 CQ1) in RE1.
    destruct (C82_ecdsa Q (digest_int 256 dg) r (N - s) Hr ltac:(lia)) as [_ U]. rewrite (U (flip it) it1 (recovers_flip _ _ _ _ _ RE) RE1). exact HD1.
  - intros HD1. apply C82_verify_exact; [exact Od|exact (Oct _ _ _ _ _ Hh' ER ES')|]. exists h', (flip it), r, (N - s), Q. split; [exact (Com _ _ h' _ _ ER ES')|]. split; [exact HD1|].
    split; [unfold in_range; rewrite CH; lia|]. split; [exact CQ|]. apply recovers_flip. exact RE.
Qed.

(** ** Secp256k1Sign *)
Variable nonce : Z -> bytes -> Z.
Hypothesis nonce_ok : forall D dg, 1 <= nonce D dg < N.
Definition kinv (c : curve) (k : Z) : Z := powm (k mod c_N c) (c_N c - 2) (c_N c).
Lemma kinv_ok : forall k, 1 <= k <= N - 1 -> (kinv K k * k) mod N = 1.
Proof.
  intros k Hk. destruct (inverse_ok K k) as (w & W & I); [rewrite Z.mod_small; lia|]. unfold ModInverse in W. rewrite Z.mod_small in W by lia.
  destruct (Z.eqb_spec k 0); [lia|]. assert (w = powm k (N - 2) N) by congruence. subst w. unfold kinv. rewrite (Z.mod_small k N) by lia. exact I.
Qed.
Definition low (s : Z) : Z := Z.min s (N - s).
Lemma raw_value : forall D dg, octets dg -> signRFC6979 sbm nonce K D dg =
  Val (match round K sbm kinv D (digest_int 256 dg) (nonce D dg) with Some (r, s) => Ok (r, low s)
       | None => Err (if fst (sbm K (big_bytes (nonce D dg))) mod N =? 0 then "calculated R is zero"%string else "calculated S is zero"%string) end).
Proof.
  intros D dg Od. pose proof (nonce_ok D dg) as Hk. unfold signRFC6979, round, ModInverse. cbv zeta. rewrite (Z.mod_small (nonce D dg) N) by lia.
  destruct (Z.eqb_spec (nonce D dg) 0); [lia|]. destruct (fst (sbm K (big_bytes (nonce D dg))) mod N =? 0); [reflexivity|].
  rewrite (hashToInt_ok dg K 256 Od HN). cbn [bind]. unfold kinv. rewrite (Z.mod_small (nonce D dg) N) by lia.
  set (s := (_ * powm _ _ _) mod N). assert (Rs : 0 <= s < N) by (apply Z.mod_pos_bound; lia).
  rewrite Z.gtb_ltb, Z.shiftr_div_pow2 by lia. change (2 ^ 1) with 2. pose proof (N_odd K) as NO. pose proof (Z.div_mod N 2 ltac:(lia)) as DM. rewrite NO in DM.
  destruct (Z.ltb_spec (N / 2) s) as [H|H].
  - destruct (Z.eqb_spec (N - s) 0); [lia|]. destruct (Z.eqb_spec s 0); [lia|]. do 4 f_equal. unfold low. lia.
  - destruct (Z.eqb_spec s 0); [reflexivity|]. do 4 f_equal. unfold low. lia.
Qed.
(** the loop finds the number of the signature *)
Lemma loop_finds : forall (Q : point) dg comp r s it iters, octets dg -> 1 <= r < N -> 1 <= s < N -> recovers E (digest_int 256 dg) it r s Q -> 0 <= it < 4 -> In it iters ->
  Forall (fun j => 0 <= j) iters ->
  compact_loop checked sm sbm add K (fst (ecoords Q)) (snd (ecoords Q)) r s dg comp iters = Val (Ok ((27 + it + if comp then 4 else 0) :: pad 32 r ++ pad 32 s)).
Proof.
  intros Q dg comp r s it iters Od Hr Hs RE Hit. induction iters as [|j iters IH]; intros I F; [destruct I|]. inversion F as [|? ? Fj Fl]. subst.
  assert (NZ : r mod N <> 0) by (rewrite Z.mod_small; lia).
  destruct (C82_ecdsa Q (digest_int 256 dg) r s Hr Hs) as [_ U]. cbn [compact_loop].
  pose proof (outcome_of r s dg j true ltac:(lia) ltac:(lia) Fj Od) as OUT.
  destruct OUT as [m _ NR|m _ NP|m R _ _ Z0|Q' _ _ RE'].
  - exfalso. apply NR. split; assumption.
  - cbn [bind]. destruct I as [->|I]; [|apply IH; assumption]. exfalso. destruct RE as (R & NPR & _). exact (NP R NPR).
  - contradiction.
  - cbn [bind]. change (kco K Q') with (ecoords (e := E) Q'). destruct (ecoords Q') as [X Y] eqn:CQ.
    destruct ((X =? fst (ecoords Q)) && (Y =? snd (ecoords Q))) eqn:B.
    + apply andb_true_iff in B as [B1 B2]. apply Z.eqb_eq in B1, B2. assert (T : Q' = Q) by (apply (ecoords_inj E); rewrite CQ, B1, B2; symmetry; apply surjective_pairing).
      subst Q'. rewrite (U j it RE' RE). cbv zeta. rewrite Hbits. change ((256 + 7) / 8) with 32.
      assert (U8 : u8 (27 + it) = 27 + it) by (apply Z.mod_small; lia). rewrite U8.
      destruct comp; [assert (U4 : u8 (27 + it + 4) = 27 + it + 4) by (apply Z.mod_small; lia); rewrite U4; reflexivity|rewrite Z.add_0_r; reflexivity].
    + destruct I as [->|I]; [|apply IH; assumption]. exfalso. rewrite (recovers_unique K _ _ _ _ Q' Q NZ RE' RE) in CQ. rewrite CQ in B. cbn [fst snd] in B. rewrite !Z.eqb_refl in B. discriminate B.
Qed.
(** and what it finds is right *)
Lemma loop_right : forall X Y dg comp r s iters out, octets dg -> 1 <= r < N -> 1 <= s < N -> Forall (fun j => 0 <= j < 4) iters ->
  compact_loop checked sm sbm add K X Y r s dg comp iters = Val (Ok out) ->
  exists it Q, 0 <= it < 4 /\ ecoords Q = (X, Y) /\ recovers E (digest_int 256 dg) it r s Q /\ out = (27 + it + if comp then 4 else 0) :: pad 32 r ++ pad 32 s.
Proof.
  intros X Y dg comp r s iters out Od Hr Hs. induction iters as [|j iters IH]; intros F H; [discriminate H|]. inversion F as [|? ? Fj Fl]. subst.
  assert (NZ : r mod N <> 0) by (rewrite Z.mod_small; lia). cbn [compact_loop] in H.
  pose proof (outcome_of r s dg j true ltac:(lia) ltac:(lia) (proj1 Fj) Od) as OUT.
  destruct OUT as [m _ NR|m _ NP|m R _ _ Z0|Q' _ _ RE'].
  - exfalso. apply NR. split; assumption.
  - cbn [bind] in H. apply IH; assumption.
  - contradiction.
  - cbn [bind] in H. change (kco K Q') with (ecoords (e := E) Q') in H. destruct (ecoords Q') as [X' Y'] eqn:CQ.
    destruct ((X' =? X) && (Y' =? Y)) eqn:B; [|apply IH; assumption].
    apply andb_true_iff in B as [B1 B2]. apply Z.eqb_eq in B1, B2. subst X' Y'. exists j, Q'. split; [exact Fj|]. split; [exact CQ|]. split; [exact RE'|].
    cbv zeta in H. rewrite Hbits in H. change ((256 + 7) / 8) with 32 in H. assert (U8 : u8 (27 + j) = 27 + j) by (apply Z.mod_small; lia). rewrite U8 in H.
    destruct comp; [assert (U4 : u8 (27 + j + 4) = 27 + j + 4) by (apply Z.mod_small; lia); rewrite U4 in H|rewrite Z.add_0_r]; congruence.
Qed.
Lemma loop_value : forall X Y dg comp r s iters, octets dg -> 1 <= r < N -> 1 <= s < N -> Forall (fun j => 0 <= j < 4) iters ->
  exists o, compact_loop checked sm sbm add K X Y r s dg comp iters = Val o.
Proof.
  intros X Y dg comp r s iters Od Hr Hs. induction iters as [|j iters IH]; intros F; [eexists; reflexivity|]. inversion F as [|? ? Fj Fl]. subst.
  cbn [compact_loop]. pose proof (outcome_of r s dg j true ltac:(lia) ltac:(lia) (proj1 Fj) Od) as OUT.
  destruct OUT as [m _ NR|m _ NP|m R _ _ Z0|Q' _ _ RE']; cbn [bind]; [apply IH; exact Fl|apply IH; exact Fl|exfalso; rewrite Z.mod_small in Z0; lia|].
  destruct (kco K Q') as [X' Y']. destruct (_ && _); [eexists; reflexivity|apply IH; exact Fl].
Qed.
Notation sign := (Secp256k1Sign checked sm sbm add nonce K).
Notation x1 := (fun k => fst (ecoords (gmul k G))).
Lemma round_attempt : forall D e k o, 1 <= k < N -> (dsa_attempt x1 N D e k o <-> o = round K sbm kinv D e k).
Proof.
  intros D e k o Hk. rewrite <- (attempt_iff K N2 sbm kinv kinv_ok D e k o) by lia.
  assert (X : fst (sbm K (big_bytes k)) = fst (ecoords (gmul k G))) by (rewrite sbm_ok by apply big_bytes_wf; rewrite value_be2z, be2z_big_bytes by lia; reflexivity).
  split; intros A; (destruct A as [r s R0 R1 R2 R3|r R0 R1]; [apply dsa_ok|apply (dsa_retry _ _ _ _ _ r)]; try assumption); [rewrite X|rewrite X|rewrite <- X|rewrite <- X]; exact R0.
Qed.
Lemma round_range : forall D e k r s, 1 <= k < N -> round K sbm kinv D e k = Some (r, s) -> 1 <= r < N /\ 1 <= s < N /\ 1 <= low s < N.
Proof.
  intros D e k r s Hk H. symmetry in H. apply round_attempt in H; [|exact Hk]. inversion H as [r0 s0 R0 R1 R2 R3|]. subst r0 s0.
  pose proof (Z.mod_pos_bound (x1 k) N ltac:(lia)) as B. cbv beta in B. rewrite <- R0 in B. unfold low. lia.
Qed.
Lemma attempt_recovers : forall D e k r s, 1 <= k < N -> dsa_attempt x1 N D e k (Some (r, s)) -> ecdsa_accepts E (gmul D G) e r s.
Proof.
  intros D e k r s Hk A. inversion A as [r0 s0 R R0 S EQ|]. subst r0 s0.
  assert (Rr : 1 <= r <= N - 1) by (pose proof (Z.mod_pos_bound (x1 k) N ltac:(lia)) as B; cbv beta in B; rewrite <- R in B; lia).
  apply accepts_point; [exact Rr|lia|]. exists (gmul k G). split; [|split; [symmetry; exact R|]].
  - intros C. apply (k_gmul_zero K k (k_G K) (k_G_nz K)) in C. rewrite Z.mod_small in C; lia.
  - rewrite <- !gmul_mul, <- gmul_add. apply (gmul_cong _ N); [lia|apply killed|]. rewrite EQ. f_equal. ring.
Qed.
(** for a key pair: an error exactly when the nonce gives no signature, otherwise the signature of the standard with the
    smaller s and the number of its point *)
Theorem C82_sign_exact : forall D pub dg, octets dg -> pub = ecoords (gmul D G) ->
  (forall sig, sign D pub dg = Val (Ok sig) <->
     exists r s it, dsa_attempt x1 N D (digest_int 256 dg) (nonce D dg) (Some (r, s)) /\ compact sig (27 + it) r (low s) /\ 0 <= it < 4 /\
       recovers E (digest_int 256 dg) it r (low s) (gmul D G)) /\
  ((exists m, sign D pub dg = Val (Err m)) <-> dsa_attempt x1 N D (digest_int 256 dg) (nonce D dg) None).
Proof.
  intros D pub dg Od ->. pose proof (nonce_ok D dg) as Hk. set (e := digest_int 256 dg). set (k := nonce D dg) in *.
  assert (VAL : forall r s, round K sbm kinv D e k = Some (r, s) -> exists it, 0 <= it < 4 /\ recovers E e it r (low s) (gmul D G) /\
    sign D (ecoords (gmul D G)) dg = Val (Ok ((27 + it) :: pad 32 r ++ pad 32 (low s)))).
  { intros r s H. destruct (round_range D e k r s Hk H) as (Hr & Hs & Hl).
    assert (AC : ecdsa_accepts E (gmul D G) e r s) by (apply (attempt_recovers D e k r s Hk); apply round_attempt; [exact Hk|symmetry; exact H]).
    apply (C82_ecdsa (gmul D G) e r s Hr Hs) in AC. destruct AC as (it0 & R0 & RE).
    assert (RL : exists it, 0 <= it < 4 /\ recovers E e it r (low s) (gmul D G)).
    { unfold low. destruct (Z.min_spec s (N - s)) as [[_ ->]|[_ ->]]; [exists it0; split; assumption|].
      exists (flip it0). split; [apply flip_range; exact R0|apply recovers_flip; exact RE]. }
    destruct RL as (it & Ri & REl). exists it. split; [exact Ri|]. split; [exact REl|]. unfold Secp256k1Sign, SignCompact. rewrite (raw_value D dg Od).
    fold e. fold k. rewrite H. cbn [bind]. rewrite (loop_finds (gmul D G) dg false r (low s) it [0; 1; 2; 3] Od Hr Hl REl Ri); [rewrite Z.add_0_r; reflexivity| |].
    - assert (C : it = 0 \/ it = 1 \/ it = 2 \/ it = 3) by lia. destruct C as [->|[->|[->| ->]]]; cbn; tauto.
    - repeat constructor; lia. }
  assert (ERR : round K sbm kinv D e k = None -> exists m, sign D (ecoords (gmul D G)) dg = Val (Err m)).
  { intros H. unfold Secp256k1Sign, SignCompact. rewrite (raw_value D dg Od). fold e. fold k. rewrite H. cbn [bind]. eexists. reflexivity. }
  pose proof (proj2 (proj2 HN)) as NB.
  assert (ENC : forall r s, round K sbm kinv D e k = Some (r, s) -> encodes 32 r (pad 32 r) /\ encodes 32 (low s) (pad 32 (low s))).
  { intros r s H. destruct (round_range D e k r s Hk H) as (Hr & Hs & Hl). split; apply pad_ok; lia. }
  split.
  - intros sig. split.
    + intros H. destruct (round K sbm kinv D e k) as [[r s]|] eqn:RO.
      * destruct (VAL r s eq_refl) as (it & Ri & RE & V). exists r, s, it. split; [apply round_attempt; [exact Hk|symmetry; exact RO]|].
        destruct (ENC r s eq_refl) as [E1 E2]. split; [|split; assumption]. rewrite H in V. assert (Q : sig = (27 + it) :: pad 32 r ++ pad 32 (low s)) by congruence.
        exists (pad 32 r), (pad 32 (low s)). split; [exact Q|]. split; assumption.
      * destruct (ERR eq_refl) as [m V]. rewrite V in H. discriminate H.
    + intros (r & s & it & A & C & Ri & RE). apply round_attempt in A; [|exact Hk]. symmetry in A. destruct (VAL r s A) as (it' & Ri' & RE' & V).
      destruct (round_range D e k r s Hk A) as (Hr & Hs & Hl). destruct (C82_ecdsa (gmul D G) e r (low s) Hr Hl) as [_ U]. rewrite <- (U it it' RE RE') in V. rewrite V.
      do 2 f_equal. destruct (ENC r s A) as [(L1 & O1 & V1) (L2 & O2 & V2)]. destruct C as (rb & sb & -> & (L3 & O3 & V3) & (L4 & O4 & V4)).
      assert (INJ : forall a b : list Z, octets a -> octets b -> length a = length b -> value a 0 = value b 0 -> a = b).
      { intros a b Oa Ob L H. rewrite <- (to_be_be2z a Oa), <- (to_be_be2z b Ob), <- !value_be2z, L, H. reflexivity. }
      do 2 f_equal; apply INJ; try assumption; lia.
  - split.
    + intros [m H]. apply round_attempt; [exact Hk|]. destruct (round K sbm kinv D e k) as [[r s]|] eqn:RO; [|reflexivity].
      destruct (VAL r s eq_refl) as (it & _ & _ & V). rewrite V in H. discriminate H.
    + intros A. apply round_attempt in A; [|exact Hk]. apply ERR. symmetry. exact A.
Qed.
(** it never panics, and what it returns is accepted and has s <= N / 2; this holds for every D and every pub, a key pair or not *)
Theorem C82_sign_verify : forall D pub dg, octets dg ->
  (exists o, sign D pub dg = Val o) /\
  (forall sig, sign D pub dg = Val (Ok sig) -> verify pub dg sig = Val true /\ exists h r s, compact sig h r s /\ 27 <= h <= 30 /\ 1 <= r < N /\ 1 <= s /\ 2 * s < N).
Proof.
  intros D pub dg Od. pose proof (nonce_ok D dg) as Hk. unfold Secp256k1Sign, SignCompact. rewrite (raw_value D dg Od).
  destruct (round K sbm kinv D (digest_int 256 dg) (nonce D dg)) as [[r s]|] eqn:RO; cbn [bind].
  2:{ split; [eexists; reflexivity|]. intros sig H. discriminate H. }
  destruct (round_range _ _ _ _ _ Hk RO) as (Hr & Hs & Hl). pose proof (proj2 (proj2 HN)) as NB.
  assert (FO : Forall (fun j => 0 <= j < 4) [0; 1; 2; 3]) by (repeat constructor; lia).
  split; [apply loop_value; assumption|]. intros sig H. destruct (loop_right _ _ _ _ _ _ _ _ Od Hr Hl FO H) as (it & Q & Ri & CQ & RE & OUT). rewrite Z.add_0_r in OUT.
  pose proof (pad_ok r ltac:(lia)) as E1. pose proof (pad_ok (low s) ltac:(lia)) as E2.
  assert (C : compact sig (27 + it) r (low s)) by (exists (pad 32 r), (pad 32 (low s)); split; [exact OUT|split; assumption]).
  split.
  - apply C82_verify_exact; [exact Od| |].
    + rewrite OUT. constructor; [unfold is_byte; lia|]. apply Forall_app. split; [apply E1|apply E2].
    + exists (27 + it), it, r, (low s), Q. split; [exact C|]. split; [split; [exact Ri|left; reflexivity]|]. split; [|split; [rewrite CQ; symmetry; apply surjective_pairing|exact RE]].
      apply in_range_adm. split; [intros _; split; assumption|rewrite Z.mod_small; lia].
  - exists (27 + it), r, (low s). split; [exact C|]. split; [lia|]. split; [exact Hr|]. split; [lia|].
    pose proof (N_odd K) as NO. pose proof (Z.div_mod N 2 ltac:(lia)) as DM. unfold low. lia.
Qed.
End K.
Print Assumptions C82_ecdsa.
Print Assumptions C82_malleable.
Print Assumptions C82_verify_exact.
Print Assumptions C82_verify_answers.
Print Assumptions C82_four_strings.
Print Assumptions C82_sign_exact.
Print Assumptions C82_sign_verify.

(** ** secp256k1, with the operations the group itself gives *)
Lemma s256_bits : bits_of (c_N kS256) 256.
Proof. split; [reflexivity|]. split; [discriminate|reflexivity]. Qed.
Section Ref.
Variable K : kcurve.
(** the point with given coordinates *)
Definition ref_pt (xy : Z * Z) : pt (kgroup K) :=
  if (fst xy =? 0) && (snd xy =? 0) then gO else
  match bool_dec (onb (c_P K) (k_p K) 0 (c_B K) (Some (fz (c_P K) (k_p K) (fst xy), fz (c_P K) (k_p K) (snd xy)))) true with
  | left H => exist _ _ H
  | right _ => gO
  end.
Lemma ref_pt_ok : forall P, ref_pt (kco K P) = P.
Proof.
  intros P. unfold ref_pt. destruct ((fst (kco K P) =? 0) && (snd (kco K P) =? 0)) eqn:Z0.
  - apply andb_true_iff in Z0 as [X Y]. apply Z.eqb_eq in X, Y. symmetry. apply (kco_O_iff K). rewrite (surjective_pairing (kco K P)), X, Y. reflexivity.
  - assert (NP : P <> gO) by (intros ->; rewrite kco_O in Z0; discriminate Z0).
    pose proof (kco_kat K P NP) as A. unfold kat, at_ in A. set (x := fst (kco K P)) in *. set (y := snd (kco K P)) in *. clearbody x y.
    destruct (bool_dec _ true) as [H|H].
    + apply cpoint_eq. cbn [proj1_sig]. symmetry. exact A.
    + exfalso. apply H. rewrite <- A. exact (proj2_sig P).
Qed.
Definition ref_sm (_ : curve) (xy : Z * Z) (k : bytes) : Z * Z := kco K (gmul (value k 0) (ref_pt xy)).
Definition ref_sbm (_ : curve) (k : bytes) : Z * Z := kco K (gmul (value k 0) (k_G K : pt (kgroup K))).
Definition ref_add (_ : curve) (a b : Z * Z) : Z * Z := kco K (gadd (ref_pt a) (ref_pt b)).
Lemma ref_sm_ok : forall (P : pt (eg (kE K))) k, P <> gO -> octets k -> ref_sm K (ecoords P) k = ecoords (gmul (value k 0) P).
Proof. intros P k _ _. unfold ref_sm. change (ecoords (e := kE K) P) with (kco K P). rewrite ref_pt_ok. reflexivity. Qed.
Lemma ref_sbm_ok : forall k, octets k -> ref_sbm K k = ecoords (gmul (value k 0) (eG (e := kE K))).
Proof. reflexivity. Qed.
Lemma ref_add_ok : forall P Q : pt (eg (kE K)), ref_add K (ecoords P) (ecoords Q) = ecoords (gadd P Q).
Proof. intros P Q. unfold ref_add. change (ecoords (e := kE K) P) with (kco K P). change (ecoords (e := kE K) Q) with (kco K Q). rewrite !ref_pt_ok. reflexivity. Qed.

(** the private key 1 and the nonce 1, for any digest whose e is small enough *)
Lemma one_one : forall e s, c_Gx K < c_N K -> 0 <= c_Gx K < c_P K -> 0 <= c_Gy K < c_P K -> s = c_Gx K + e -> Z.odd (c_Gy K) = false ->
  recovers (kE K) e 0 (c_Gx K) s (eG (e := kE K)).
Proof.
  intros e s L RX RY -> O. exists (eG (e := kE K)). split.
  - split; [exact (k_G_nz K)|]. change (ecoords (e := kE K) eG) with (kco K (k_G K)). rewrite (kat_kco K _ _ _ (kat_G K)). cbn [fst snd]. rewrite !Z.mod_small by assumption.
    split; [change (0 / 2) with 0; ring|rewrite O; reflexivity].
  - rewrite <- gmul_add. reflexivity.
Qed.
Lemma G_coords : 0 <= c_Gx K < c_P K -> 0 <= c_Gy K < c_P K -> ecoords (eG (e := kE K)) = (c_Gx K, c_Gy K).
Proof. intros RX RY. change (ecoords (e := kE K) eG) with (kco K (k_G K)). rewrite (kat_kco K _ _ _ (kat_G K)), !Z.mod_small by assumption. reflexivity. Qed.
Lemma named_make : forall it r y, 0 <= r + it / 2 * c_N K < c_P K -> 0 <= y < c_P K -> Z.odd y = Z.odd it ->
  (y * y) mod c_P K = ((r + it / 2 * c_N K) * (r + it / 2 * c_N K) * (r + it / 2 * c_N K) + c_B K) mod c_P K -> exists R, named_point (kE K) it r R.
Proof.
  intros it r y RX RY O EQ. set (x := r + it / 2 * c_N K) in *. pose proof (k_odd K). destruct (kat_make K x y) as (R & A).
  { apply Z.mod_divide; [lia|]. rewrite Zminus_mod, EQ, Z.sub_diag. apply Z.mod_0_l. lia. }
  exists R. split; [exact (kat_nz K R x y A)|]. change (ecoords (e := kE K) R) with (kco K R). rewrite (kat_kco K R x y A), !Z.mod_small by assumption. split; [reflexivity|exact O].
Qed.
End Ref.
(** a digest, and its signature with the private key 1 and the nonce 1 *)
Definition ex_dg : bytes := repeat 1 32.
Definition ex_sig : bytes := 27 :: to_be 32 (c_Gx S256) ++ to_be 32 (c_Gx S256 + value ex_dg 0).
Lemma ex_dg_octets : octets ex_dg. Proof. apply Forall_forall. intros b I. apply repeat_spec in I. lia. Qed.
Lemma ex_digest : digest_int 256 ex_dg = value ex_dg 0.
Proof. unfold digest_int. change (Z.of_nat (length ex_dg)) with 32. change (Z.max 0 (8 * 32 - 256)) with 0. apply Z.div_1_r. Qed.
Lemma encodes32 : forall z, 0 <= z < 2 ^ 256 -> encodes 32 z (to_be 32 z).
Proof.
  intros z H. split; [rewrite to_be_length; reflexivity|]. split; [apply to_be_wf|]. rewrite value_be2z. apply be2z_to_be_small. exact H.
Qed.
Lemma ex_compact : compact ex_sig 27 (c_Gx S256) (c_Gx S256 + value ex_dg 0).
Proof. exists (to_be 32 (c_Gx S256)), (to_be 32 (c_Gx S256 + value ex_dg 0)). split; [reflexivity|]. split; apply encodes32; split; discriminate || reflexivity. Qed.
Lemma ex_sig_octets : octets ex_sig.
Proof. unfold ex_sig. constructor; [lia|]. apply Forall_app. split; apply to_be_wf. Qed.
Notation ref K f := (f K (ref_sm K) (ref_sbm K) (ref_add K)).
Lemma ex_recovers : recovers (kE kS256) (digest_int 256 ex_dg) 0 (c_Gx S256) (c_Gx S256 + value ex_dg 0) (eG (e := kE kS256)).
Proof.
  rewrite ex_digest. apply (one_one kS256); [reflexivity|split; [discriminate|reflexivity]|split; [discriminate|reflexivity]|reflexivity|reflexivity].
Qed.
Lemma s256_G_coords : ecoords (eG (e := kE kS256)) = (c_Gx S256, c_Gy S256).
Proof. apply (G_coords kS256); (split; [discriminate|reflexivity]). Qed.
Example C82_example_verify : forall checked, Secp256k1Verify checked (ref_sm kS256) (ref_sbm kS256) (ref_add kS256) kS256 (c_Gx S256, c_Gy S256) ex_dg ex_sig = Val true.
Proof.
  intros checked. apply (C82_verify_exact kS256 s256_bits eq_refl checked _ _ _ (ref_sm_ok kS256) (ref_sbm_ok kS256) (ref_add_ok kS256)); [exact ex_dg_octets|exact ex_sig_octets|].
  exists 27, 0, (c_Gx S256), (c_Gx S256 + value ex_dg 0), (eG (e := kE kS256)). split; [exact ex_compact|]. split; [split; [lia|left; reflexivity]|].
  split; [unfold in_range; destruct checked; [repeat split; discriminate || reflexivity|vm_compute; discriminate]|]. split; [exact s256_G_coords|exact ex_recovers].
Qed.
(** the signer returns it *)
Example C82_example_sign : forall checked, Secp256k1Sign checked (ref_sm kS256) (ref_sbm kS256) (ref_add kS256) (fun _ _ => 1) kS256 1 (c_Gx S256, c_Gy S256) ex_dg = Val (Ok ex_sig).
Proof.
  intros checked. assert (NO : forall (D : Z) (dg : bytes), 1 <= 1 < c_N kS256) by (intros; split; [lia|reflexivity]).
  refine (proj2 (proj1 (C82_sign_exact kS256 s256_bits eq_refl checked _ _ _ (ref_sm_ok kS256) (ref_sbm_ok kS256) (ref_add_ok kS256) (fun _ _ => 1) NO 1 (c_Gx S256, c_Gy S256) ex_dg ex_dg_octets _) ex_sig) _).
  - rewrite gmul_1. symmetry. exact s256_G_coords.
  - assert (LO : low kS256 (c_Gx S256 + value ex_dg 0) = c_Gx S256 + value ex_dg 0) by (vm_compute; reflexivity).
    exists (c_Gx S256), (c_Gx S256 + value ex_dg 0), 0. rewrite LO, gmul_1. split; [|split; [exact ex_compact|split; [lia|exact ex_recovers]]].
    apply dsa_ok; [rewrite gmul_1, s256_G_coords; reflexivity|discriminate|split; reflexivity|]. rewrite ex_digest. f_equal.
Qed.
(** the other three strings; a change of the header alone is refused *)
Example C82_example_others : forall h, 0 <= h < 256 ->
  (Secp256k1Verify true (ref_sm kS256) (ref_sbm kS256) (ref_add kS256) kS256 (c_Gx S256, c_Gy S256) ex_dg (h :: skipn 1 ex_sig) = Val true <-> h = 27 \/ h = 31) /\
  (Secp256k1Verify true (ref_sm kS256) (ref_sbm kS256) (ref_add kS256) kS256 (c_Gx S256, c_Gy S256) ex_dg
     (h :: to_be 32 (c_Gx S256) ++ to_be 32 (c_N S256 - (c_Gx S256 + value ex_dg 0))) = Val true <-> h = 28 \/ h = 32).
Proof.
  intros h Hh. destruct (C82_four_strings kS256 s256_bits eq_refl true _ _ _ (ref_sm_ok kS256) (ref_sbm_ok kS256) (ref_add_ok kS256) eq_refl (c_Gx S256, c_Gy S256) ex_dg 27 0
    (c_Gx S256) (c_Gx S256 + value ex_dg 0) (to_be 32 (c_Gx S256)) (to_be 32 (c_Gx S256 + value ex_dg 0)) (to_be 32 (c_N S256 - (c_Gx S256 + value ex_dg 0))) ex_dg_octets) with (h' := h) as [A B];
    try (apply encodes32; split; discriminate || reflexivity); [split; [lia|left; reflexivity]|exact (C82_example_verify true)|exact Hh|].
  assert (F : flip 0 = 1) by reflexivity. rewrite F in B. unfold header in A, B.
  split; [transitivity (0 <= 0 < 4 /\ (h = 27 + 0 \/ h = 31 + 0)); [exact A|lia]|transitivity (0 <= 1 < 4 /\ (h = 27 + 1 \/ h = 31 + 1)); [exact B|lia]].
Qed.
(** btcec without the tests panics on r = N: N is the first coordinate of a point *)
Definition ex_y : Z := 0x98f66641cb0ae1776b463ebdee3d77fe2658f021db48e2c8ac7ab4c92f83621e.
Definition ex_bad : bytes := 27 :: to_be 32 (c_N S256) ++ to_be 32 1.
Example C82_example_panic : forall pub, exists m, Secp256k1Verify false (ref_sm kS256) (ref_sbm kS256) (ref_add kS256) kS256 pub ex_dg ex_bad = Panic m.
Proof.
  intros pub. apply (C82_verify_answers kS256 s256_bits eq_refl false _ _ _ (ref_sm_ok kS256) (ref_sbm_ok kS256) (ref_add_ok kS256)).
  - exact ex_dg_octets.
  - unfold ex_bad. constructor; [lia|]. apply Forall_app. split; apply to_be_wf.
  - split; [reflexivity|]. destruct (named_make kS256 (27 - 27) (c_N S256) ex_y) as (R & NR); [split; [discriminate|reflexivity]|split; [discriminate|reflexivity]|reflexivity|vm_compute; reflexivity|].
    exists 27, (27 - 27), (c_N S256), 1, R. split; [|split; [split; [lia|left; reflexivity]|split; [vm_compute; reflexivity|exact NR]]].
    exists (to_be 32 (c_N S256)), (to_be 32 1). split; [reflexivity|]. split; apply encodes32; split; discriminate || reflexivity.
Qed.
