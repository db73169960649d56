(** * Prop_Dup: property C100, one signature with one key for two messages.
    With ECDSA a signer can choose a key pair for which the same bytes are a signature of two given messages; with
    SM3withSM2 two messages that the same bytes sign have the same number modulo N
    (/repo/signature/signature.go:172-230, 292-348 with crypto/ecdsa and /repo/sm2/signature.go:207-247, on P-256 and
    the SM2 curve; SigWhole.v). *)
From Coq Require Import ZArith Znumtheory Zpow_facts String List Bool Lia.
From Verif Require Import Base BaseFacts Curves ECKey Keypair SM3 Spec_EC ECFacts ECFacts2 Spec_Keys KeyFacts Prop_Keys Spec_Group Spec_SM2 SM2Sig Prop_SM2
  NumTheory LucasFacts CurveZ CurveRoot Elliptic EllipticFacts CurveWhole Prop_Whole SM2Generic Spec_ECDSA Spec_Gen Signature Spec_Sig SigFacts Prop_Sig SigWhole Prop_SigWhole Prop_Subst.
From Verif Require ECDSA Prop_ECDSA Prop_Generic Prop_Reuse Prop_SM2Enc4.
Import ListNotations.
Open Scope Z_scope.

Section W.
Variable W : wcurve.
Hypothesis HW : prime_curve W.
Notation N := (c_N W).
Notation point := (pt (wgroup W)).
Notation G := (w_G W : pt (wgroup W)).
Lemma cong_divide : forall a b, a mod N = b mod N <-> (N | a - b).
Proof.
  intros a b. pose proof (N_pos W) as N1. split; intros C.
  - apply Z.mod_divide; [lia|]. rewrite Zminus_mod, C, Z.sub_diag. apply Z.mod_0_l. lia.
  - apply mod_of_divide; [lia|exact C].
Qed.
Lemma same_abscissa : forall Q Q' : point, Q <> gO -> Q' <> gO -> fst (wco W Q) = fst (wco W Q') -> Q = Q' \/ Q = gneg Q'.
Proof.
  intros Q Q' NQ NQ' E. pose proof (wco_wat W _ NQ) as A. pose proof (wco_wat W _ NQ') as A'.
  apply (at_same_x (c_P W) (w_p W) (w_odd W) (-3) (c_B W) (w_disc W) Q Q' _ _ _ _ A A'). rewrite E, Z.sub_diag. apply Z.divide_0_r.
Qed.
(** the abscissas modulo N determine the points up to sign, if a second abscissa r + N is not possible *)
Lemma only_abscissa : forall (Q : point) r, c_P W <= r + N -> fst (wco W Q) mod N = r -> fst (wco W Q) = r.
Proof.
  intros Q r B E. destruct (wco_range W Q) as [R _]. pose proof (N_pos W) as N1. set (x := fst (wco W Q)) in *. clearbody x.
  pose proof (Z.div_mod x N ltac:(lia)) as M. pose proof (Z.mod_pos_bound x N ltac:(lia)) as RM. pose proof (Z.div_pos x N ltac:(lia) ltac:(lia)) as D0.
  rewrite E in *. set (q := x / N) in *. clearbody q. assert (q = 0) by nia. subst q. lia.
Qed.

(** ** For which numbers the pair r, s is a signature with the key P *)
Theorem C100_exact : forall (P : point) e e' r s, ecdsa_accepts (wE W) P e r s ->
  (e mod N = e' mod N \/ gadd (gmul (e + e') G) (gmul (2 * r) P) = gO -> ecdsa_accepts (wE W) P e' r s) /\
  (c_P W <= r + N -> ecdsa_accepts (wE W) P e' r s -> e mod N = e' mod N \/ gadd (gmul (e + e') G) (gmul (2 * r) P) = gO).
Proof.
  intros P e e' r s A. pose proof (N_pos W) as N1. pose proof A as (R1 & R2 & _). change (eN (wE W)) with N in R1, R2.
  apply (Prop_ECDSA.C78_recovery W P e r s R1 R2) in A. destruct A as (Q & NQ & X & EQ). change (gmul r P = gadd (gmul s Q) (gneg (gmul e G))) in EQ.
  assert (SQ : gadd (gmul r P) (gmul e G) = gmul s Q) by (rewrite EQ, <- gadd_assoc, (gadd_comm _ (gneg _)), gadd_neg, gadd_O; reflexivity).
  assert (SUM : gadd (gmul (e + e') G) (gmul (2 * r) P) = gadd (gmul s Q) (gadd (gmul r P) (gmul e' G))).
  { rewrite <- SQ, gadd4, (gadd_comm _ (gadd (gmul r P) (gmul r P))), <- gmul_add, <- gmul_add. replace (r + r) with (2 * r) by lia. reflexivity. }
  rewrite SUM. clear SUM. split.
  - intros [C|C].
    + apply (Prop_ECDSA.C78_recovery W P e' r s R1 R2). exists Q. split; [exact NQ|]. split; [exact X|].
      change (gmul r P = gadd (gmul s Q) (gneg (gmul e' G))). rewrite EQ. do 2 f_equal. apply (gmul_cong _ N); [lia|apply w_killed|exact C].
    + apply (Prop_ECDSA.C78_recovery W P e' r s R1 R2). exists (gneg Q). split; [intros Z0; apply NQ; rewrite <- (gneg_neg _ Q), Z0; apply gneg_O|].
      split; [rewrite <- X; f_equal; exact (opposite_x W Q)|].
      apply gneg_unique in C. assert (K : gmul s (gneg Q) = gadd (gmul r P) (gmul e' G)) by (rewrite C; exact (gmul_gneg _ s Q)).
      transitivity (gadd (gadd (gmul r P) (gmul e' G)) (gneg (gmul e' G))); [|rewrite <- K; reflexivity]. rewrite <- gadd_assoc, gadd_neg, gadd_O. reflexivity.
  - intros B A'. apply (Prop_ECDSA.C78_recovery W P e' r s R1 R2) in A'. destruct A' as (Q' & NQ' & X' & EQ'). change (gmul r P = gadd (gmul s Q') (gneg (gmul e' G))) in EQ'.
    assert (SQ' : gadd (gmul r P) (gmul e' G) = gmul s Q') by (rewrite EQ', <- gadd_assoc, (gadd_comm _ (gneg _)), gadd_neg, gadd_O; reflexivity).
    pose proof (only_abscissa Q r B X) as XQ. pose proof (only_abscissa Q' r B X') as XQ'.
    destruct (same_abscissa Q Q' NQ NQ' (eq_trans XQ (eq_sym XQ'))) as [E|E].
    + left. rewrite <- E, <- SQ in SQ'. apply gcancel_l in SQ'. symmetry. apply (gmul_inj _ N e' e G (w_n W) (w_killed W _) (w_G_nz W)). exact SQ'.
    + right. rewrite SQ', E, gmul_gneg, gadd_comm. apply gadd_neg.
Qed.

Section Env.
Variable H : Z -> bytes -> bytes.
Hypothesis H_octets : forall sch m, octets (H sch m).
Variable k1RecoverCompact : bytes -> bytes -> go (res (Z * Z)).
Variable edVerify ethVerify : bytes -> bytes -> bytes -> bool.
Notation receive := (SigWhole.receive H k1RecoverCompact edVerify ethVerify).
Notation e_of sch msg := (digest_int 256 (H sch msg)).

Lemma N_odd : 2 < N. Proof. destruct HW as [E|E]; rewrite E; reflexivity. Qed.
Lemma N_32 : N < 256 ^ 32. Proof. destruct HW as [E|E]; rewrite E; reflexivity. Qed.
(** ** ECDSA: a key pair and bytes that sign both messages, from any nonce *)
Theorem C100_two_messages : forall sch msg1 msg2 n r, 0 <= sch <= 8 -> octets msg1 -> octets msg2 -> zlen msg1 < 2 ^ 60 -> zlen msg2 < 2 ^ 60 -> msg1 <> [] -> msg2 <> [] ->
  1 <= n <= N - 1 -> r = fst (wco W (gmul n G)) mod N -> r <> 0 ->
  (e_of sch msg1 - e_of sch msg2) mod N <> 0 -> (e_of sch msg1 + e_of sch msg2) mod N <> 0 ->
  exists D s k, (2 * r * D) mod N = (- (e_of sch msg1 + e_of sch msg2)) mod N /\ (s * n) mod N = (e_of sch msg1 + r * D) mod N /\ key_pair_of D k /\
    let buf := sch :: to_be 32 r ++ to_be 32 s in
    forall alg, receive (PkEC alg k) msg1 buf = Val true /\ receive (PkEC alg k) msg2 buf = Val true.
Proof.
  intros sch msg1 msg2 n r Hsch O1 O2 L1 L2 E1 E2 Hn Hr Hr0 ND NS. pose proof N_odd as N2. pose proof N_32 as N32.
  set (e1 := e_of sch msg1) in *. set (e2 := e_of sch msg2) in *.
  pose proof (Z.mod_pos_bound (fst (wco W (gmul n G))) N ltac:(lia)) as Rr. rewrite <- Hr in Rr.
  assert (I2 : (2 * r) mod N <> 0).
  { intros C. apply Z.mod_divide in C; [|lia]. apply prime_mult in C; [|exact (w_n W)]. destruct C as [C|C]; apply Z.divide_pos_le in C; lia. }
  pose proof (Prop_ECDSA.fermat_ok W _ I2) as Iv. set (v := ECDSA.fermat W (2 * r)) in *. clearbody v.
  pose proof (Prop_ECDSA.fermat_small W n Hn) as Iw. set (w := ECDSA.fermat W n) in *. clearbody w.
  assert (One : forall a, a mod N = 1 -> exists q, a = 1 + q * N) by (intros a Q; exists (a / N); rewrite <- Q at 1; rewrite (Z.div_mod a N) at 1 by lia; ring).
  assert (Red : forall a, exists q, a mod N = a + q * N) by (intros a; exists (- (a / N)); rewrite (Z.div_mod a N) at 2 by lia; ring).
  destruct (One _ Iv) as [q1 Q1]. destruct (One _ Iw) as [q3 Q3].
  pose proof (Z.mod_pos_bound (- (e1 + e2) * v) N ltac:(lia)) as RD. destruct (Red (- (e1 + e2) * v)) as [q2 Q2]. set (D := (- (e1 + e2) * v) mod N) in *. clearbody D.
  pose proof (Z.mod_pos_bound (w * (e1 + r * D)) N ltac:(lia)) as RS. destruct (Red (w * (e1 + r * D))) as [q4 Q4]. set (s := (w * (e1 + r * D)) mod N) in *. clearbody s.
  assert (DD : (N | 2 * r * D - - (e1 + e2))).
  { exists (2 * r * q2 - (e1 + e2) * q1). rewrite Q2. replace (2 * r * (- (e1 + e2) * v + q2 * N)) with (- (e1 + e2) * (v * (2 * r)) + 2 * r * q2 * N) by ring. rewrite Q1. ring. }
  assert (SS : (N | s * n - (e1 + r * D))).
  { exists (q3 * (e1 + r * D) + q4 * n). rewrite Q4. replace ((w * (e1 + r * D) + q4 * N) * n) with ((w * n) * (e1 + r * D) + q4 * n * N) by ring. rewrite Q3. ring. }
  assert (D0 : D <> 0).
  { intros C. apply NS. apply Z.mod_divide; [lia|]. rewrite C in DD. replace (2 * r * 0 - - (e1 + e2)) with (e1 + e2) in DD by ring. exact DD. }
  assert (S0 : s <> 0).
  { intros C. apply ND. apply Z.mod_divide; [lia|]. rewrite C in SS. destruct DD as [a A]. destruct SS as [b B]. exists (- a - 2 * b). nia. }
  set (q := ScalarBaseMult W (big_bytes D)). set (k := {| pk_curve := wc W; pk_X := fst q; pk_Y := snd q |}).
  assert (KP : key_pair_of D k) by (split; [exact HW|]; split; [change (pk_curve k) with (wc W); lia|]; symmetry; exact (surjective_pairing q)).
  exists D, s, k. split; [apply cong_divide; exact DD|]. split; [apply cong_divide; exact SS|]. split; [exact KP|]. cbv zeta.
  assert (NP : gmul D G <> gO) by (rewrite (w_gmul_zero W D G (w_G_nz W)), Z.mod_small; lia).
  assert (KO : key_of W (gmul D G) k).
  { split; [reflexivity|]. transitivity q; [symmetry; apply surjective_pairing|]. unfold q. rewrite w_base, be2z_big_bytes by (lia || apply big_bytes_wf). reflexivity. }
  assert (V32 : forall z, 0 <= z < N -> value (to_be 32 z) 0 = z) by (intros z Z0; rewrite value_be2z, be2z_to_be; apply Z.mod_small; change (Z.of_nat 32) with 32; lia).
  assert (PB : pair_bytes (sch :: to_be 32 r ++ to_be 32 s) sch r s).
  { rewrite <- (V32 r Rr) at 2. rewrite <- (V32 s RS) at 2. apply pb_long; [exact Hsch|rewrite !to_be_length; reflexivity]. }
  assert (OB : octets (sch :: to_be 32 r ++ to_be 32 s)) by (constructor; [lia|]; apply Forall_app; split; apply to_be_wf).
  assert (LB : zlen (sch :: to_be 32 r ++ to_be 32 s) < 2 ^ 60) by (unfold zlen; cbn [length]; rewrite app_length, !to_be_length; reflexivity).
  assert (NN : gmul n G <> gO) by (rewrite (w_gmul_zero W n G (w_G_nz W)), Z.mod_small; lia).
  assert (A1 : ecdsa_accepts (wE W) (gmul D G) e1 r s).
  { apply (Prop_ECDSA.C78_recovery W); [lia..|]. exists (gmul n G). split; [exact NN|]. split; [symmetry; exact Hr|].
    change (gmul r (gmul D G) = gadd (gmul s (gmul n G)) (gneg (gmul e1 G))). rewrite <- !gmul_mul, <- gmul_sub. apply (gmul_cong _ N); [lia|apply w_killed|].
    apply cong_divide. destruct SS as [b B]. exists (- b). lia. }
  intros alg. split.
  - apply (C99_pair W HW H H_octets k1RecoverCompact edVerify ethVerify (gmul D G) alg k msg1 _ sch r s NP KO O1 OB L1 LB PB). split; [exact E1|exact A1].
  - apply (C99_pair W HW H H_octets k1RecoverCompact edVerify ethVerify (gmul D G) alg k msg2 _ sch r s NP KO O2 OB L2 LB PB). split; [exact E2|].
    apply (proj1 (C100_exact (gmul D G) e1 e2 r s A1)). right. rewrite <- gmul_mul, <- gmul_add. apply (w_gmul_zero W _ G (w_G_nz W)).
    apply Z.mod_divide; [lia|]. destruct DD as [a A]. exists a. lia.
Qed.

(** ** SM3withSM2: the bytes and the key determine the number of the message *)
Theorem C100_sm2 : forall P alg alg' k msg msg' id rb sb, P <> gO -> key_of W P k -> octets msg -> octets msg' -> zlen msg < 2 ^ 60 -> zlen msg' < 2 ^ 60 ->
  let buf := 9 :: id ++ 0 :: rb ++ sb in octets buf -> zlen buf < 2 ^ 60 -> length buf <> 64%nat -> ~ In 0 id -> length rb = length sb ->
  receive (PkEC alg k) msg buf = Val true -> receive (PkEC alg' k) msg' buf = Val true ->
  msg_e k id msg mod N = msg_e k id msg' mod N.
Proof.
  intros P alg alg' k msg msg' id rb sb NP KO Om Om' Lm Lm' buf Ob Lb L64 NI LL V V'. destruct (key_of_facts W HW P k NP KO) as [A C32]. destruct KO as (Hc & _).
  assert (X : forall al m, octets m -> zlen m < 2 ^ 60 -> receive (PkEC al k) m buf = Val true -> sm2_accepts (wE W) P (msg_e k id m) (value rb 0) (value sb 0)).
  { intros al m O L R. apply (C79_receive_exact W HW H H_octets k1RecoverCompact edVerify ethVerify P al k m buf Hc A C32 O Ob L Lb) in R. destruct R as [_ R].
    clear - R L64 NI LL. unfold buf in *. clear buf. remember (9 :: id ++ 0 :: rb ++ sb) as buf eqn:Q. destruct R as [a b L1 L2 V|t a b Ht L V|t v Ht L V|id' a b Hk NI' L L63 V].
    - exfalso. apply L64. rewrite app_length, L1, L2. reflexivity.
    - exfalso. injection Q as -> _. lia.
    - exfalso. injection Q as -> _. lia.
    - assert (Q' : id' ++ 0 :: a ++ b = id ++ 0 :: rb ++ sb) by (injection Q as Q; exact Q).
      destruct (app_zero_inj id' id (a ++ b) (rb ++ sb) NI' NI Q') as [<- Q2].
      assert (LA : length a = length rb) by (assert (length (a ++ b) = length (rb ++ sb)) by congruence; rewrite !app_length in *; lia).
      destruct (app_inj_len a rb b sb LA Q2) as [<- <-]. exact V. }
  pose proof (X alg msg Om Lm V) as (_ & _ & _ & _ & E). pose proof (X alg' msg' Om' Lm' V') as (_ & _ & _ & _ & E'). cbv zeta in E, E'. change (eN (wE W)) with N in E, E'.
  set (x := fst (ecoords _)) in E, E'. clearbody x. rewrite <- E' in E. apply cong_divide in E. apply cong_divide. destruct E as [q Q]. exists q. lia.
Qed.
End Env.
End W.
Print Assumptions C100_exact.
Print Assumptions C100_two_messages.
Print Assumptions C100_sm2.

(** ** Examples: with the digests of Prop_Subst, the messages "hi" and one zero byte on P-256, the nonce 1 *)
Example C100_example : exists D s k, key_pair_of D k /\ (2 * c_Gx P256 * D) mod c_N P256 = c_N P256 - 3 /\
  let buf := 5 :: to_be 32 (c_Gx P256) ++ to_be 32 s in
  ex_receive (PkEC 0 k) [104; 105] buf = Val true /\ ex_receive (PkEC 0 k) [0] buf = Val true.
Proof.
  destruct (C100_two_messages wP256 (or_introl eq_refl) ex_len ex_len_octets (fun _ _ => Val (Err ""%string)) (fun _ _ _ => false) (fun _ _ _ => false)
    5 [104; 105] [0] 1 (c_Gx P256) ltac:(lia) ex_hi ltac:(repeat constructor; lia) eq_refl eq_refl ltac:(discriminate) ltac:(discriminate) ltac:(split; discriminate))
    as (D & s & k & ED & _ & KP & R).
  - rewrite gmul_1, <- (proj2 ex_key_of). reflexivity.
  - discriminate.
  - vm_compute. discriminate.
  - vm_compute. discriminate.
  - exists D, s, k. split; [exact KP|]. split; [exact ED|]. exact (R 0).
Qed.
(** SM3withSM2: the signature of "hi" with the private key 2 is accepted, and not for "hj" *)
Example C100_example_sm2 : forall H k1r edv ethv, (forall sch m, octets (H sch m)) -> exists buf,
  SigWhole.receive H k1r edv ethv (PkEC 1 Prop_SM2Enc4.pub2) [104; 105] buf = Val true /\ SigWhole.receive H k1r edv ethv (PkEC 1 Prop_SM2Enc4.pub2) [104; 106] buf <> Val true.
Proof.
  intros H k1r edv ethv HO. destruct Prop_Generic.C76_example_sign as (r & s & _ & V).
  assert (I : inputs_ok Prop_SM2Enc4.pub2 [] [104; 105] New).
  { split; [reflexivity|]. split; [split; split; (discriminate || reflexivity)|]. split; [exact Prop_Generic.New_hasher|]. split; [constructor|].
    split; [repeat constructor; lia|]. split; reflexivity. }
  assert (R : 0 <= r < 256 ^ 32 /\ 0 <= s < 256 ^ 32).
  { destruct (Prop_SM2.verify_iff generic_comb Prop_SM2Enc4.pub2 [] [104; 105] New r s I) as (b & V' & B). assert (b = true) by congruence. apply B in H0. destruct H0 as (R1 & R2 & _).
    assert (c_N SM2P256V1 < 256 ^ 32) by reflexivity. lia. }
  assert (V32 : forall z, 0 <= z < 256 ^ 32 -> be2z (to_be 32 z) = z) by (intros z Z0; rewrite be2z_to_be; apply Z.mod_small; exact Z0).
  set (rb := to_be 32 r). set (sb := to_be 32 s). assert (L : length rb = 32%nat /\ length sb = 32%nat) by (split; apply to_be_length). destruct L as [Lr Ls].
  assert (OB : octets (9 :: [] ++ 0 :: rb ++ sb)) by (constructor; [lia|]; constructor; [lia|]; apply Forall_app; split; apply to_be_wf).
  assert (X : SigWhole.receive H k1r edv ethv (PkEC 1 Prop_SM2Enc4.pub2) [104; 105] (9 :: [] ++ 0 :: rb ++ sb) = Val true).
  { unfold SigWhole.receive. rewrite Deserialize_cons by (try discriminate; cbn [app length]; rewrite app_length, Lr, Ls; discriminate).
    rewrite des_sm2 by (try (intros F; exact F); congruence). cbn [bind]. unfold rb, sb. rewrite !V32 by apply R.
    unfold SigWhole.Verify, Signature.Verify. cbn [sg_Scheme sg_Value]. change (GetHash_known 9) with true. cbn [negb]. change (ecdsa_scheme 9) with false.
    change (9 =? SM3withSM2) with true. change (zlen [104; 105] =? 0) with false. cbv iota. unfold sm2_verify. rewrite V. reflexivity. }
  exists (9 :: [] ++ 0 :: rb ++ sb). split; [exact X|]. intros Y. apply Prop_Reuse.ex_differ.
  assert (NP : gmul 2 (w_G wSM2 : pt (wgroup wSM2)) <> gO) by (rewrite (w_gmul_zero wSM2 2 _ (w_G_nz wSM2)); discriminate).
  refine (C100_sm2 wSM2 (or_intror eq_refl) H HO k1r edv ethv (gmul 2 (w_G wSM2)) 1 1 Prop_SM2Enc4.pub2 [104; 105] [104; 106] [] rb sb NP _ _ _ eq_refl eq_refl OB _ _ (fun F => F) _ X Y).
  - split; [reflexivity|]. rewrite <- Prop_Generic.generic_pub2. exact (w_base wSM2 _ (big_bytes_wf 2)).
  - repeat constructor; lia.
  - repeat constructor; lia.
  - unfold zlen. cbn [app length]. rewrite app_length, Lr, Ls. reflexivity.
  - cbn [app length]. rewrite app_length, Lr, Ls. discriminate.
  - congruence.
Qed.
