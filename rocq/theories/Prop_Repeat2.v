(** * Prop_Repeat2: property C102 for SM3withSM2 and Ed25519: what two received signatures with the same point give away
    (/repo/sm2/signature.go:207-247, /repo/signature/signature.go:172-230, 292-348; SigWhole.v, Ed25519.v). *)
From Coq Require Import ZArith Znumtheory Zpow_facts String List Bool Lia.
From Verif Require Import Base BaseFacts Curves ECKey Keypair SM3 Spec_EC ECFacts ECFacts2 Spec_Keys KeyFacts Prop_Keys Spec_Group Spec_SM2 SM2Sig Prop_SM2
  NumTheory LucasFacts CurveZ CurveRoot Elliptic EllipticFacts CurveWhole Prop_Whole SM2Generic Spec_ECDSA Spec_Gen Signature Spec_Sig SigFacts Prop_Sig SigWhole Prop_SigWhole Prop_Subst Prop_Dup Prop_Repeat.
From Verif Require Prop_Generic Prop_Reuse Prop_SM2Enc4 EdZ Ed25519 EdCurve Spec_Ed25519 Ed25519Facts Prop_Ed25519 CurveK Spec_Btcec Spec_EthSig BtcecFacts Prop_Btcec Prop_BtcecWhole Prop_EthSig Prop_SubstK.
Import ListNotations.
Open Scope Z_scope.

Lemma line1 : forall m D a b a' b', prime m -> 0 <= D < m -> (b + a * D) mod m = (b' + a' * D) mod m ->
  only m (a' - a) (b - b') D \/ (a mod m = a' mod m /\ b mod m = b' mod m).
Proof.
  intros m D a b a' b' P HD C. pose proof (prime_ge_2 m P) as M. assert (M0 : 0 < m) by lia. destruct (Prop_Reuse.cong_ex m _ _ M0 C) as [q Q].
  destruct (Z.eq_dec ((a' - a) mod m) 0) as [Z0|NZ].
  - right. apply Z.mod_divide in Z0; [|lia]. destruct Z0 as [z Z0]. split; [apply (Prop_Reuse.ex_cong m _ _ (- z) M0); lia|]. apply (Prop_Reuse.ex_cong m _ _ (q + z * D) M0). nia.
  - left. apply Prop_Reuse.only_prime; [exact P|exact HD|exact NZ|]. apply (Prop_Reuse.ex_cong m _ _ (- q) M0). nia.
Qed.

(** ** SM3withSM2 *)
Section W.
Variable W : wcurve.
Hypothesis HW : prime_curve W.
Notation N := (c_N W).
Notation point := (pt (wgroup W)).
Notation G := (w_G W : pt (wgroup W)).
(** the abscissa r - e of the point is the same *)
Theorem C102_sm2_accepted : forall D e r s e' r' s' x, 0 <= D < N -> c_P W <= x + N -> (r - e) mod N = x -> (r' - e') mod N = x ->
  sm2_accepts (wE W) (gmul D G) e r s -> sm2_accepts (wE W) (gmul D G) e' r' s' ->
  only N ((r' + s') - (r + s)) (s - s') D \/ only N ((r' + s') + (r + s)) (- (s + s')) D \/
  (r' = r /\ s' = s /\ e mod N = e' mod N) \/ (r' = N - r /\ s' = N - s /\ e' mod N = (e - 2 * r) mod N).
Proof.
  intros D e r s e' r' s' x HD B X X' (R & S & T & NQ & EQ) (R' & S' & T' & NQ' & EQ'). pose proof (N_pos W) as N1. change (eN (wE W)) with N in *. cbv zeta in *.
  assert (Q : forall r0 s0, gadd (gmul s0 G) (gmul (r0 + s0) (gmul D G)) = gmul (s0 + (r0 + s0) * D) G) by (intros r0 s0; rewrite (gmul_add _ s0 ((r0 + s0) * D)), (gmul_mul _ (r0 + s0) D); reflexivity).
  change (gadd (gmul s G) (gmul (r + s) (gmul D G)) <> gO) in NQ. change ((e + fst (wco W (gadd (gmul s G) (gmul (r + s) (gmul D G))))) mod N = r) in EQ.
  change (gadd (gmul s' G) (gmul (r' + s') (gmul D G)) <> gO) in NQ'. change ((e' + fst (wco W (gadd (gmul s' G) (gmul (r' + s') (gmul D G))))) mod N = r') in EQ'.
  rewrite Q in NQ, EQ, NQ', EQ'.
  assert (AB : forall e0 r0 y, (r0 - e0) mod N = x -> (e0 + y) mod N = r0 -> y mod N = x).
  { intros e0 r0 y A C. rewrite <- A, <- C, Zminus_mod_idemp_l. f_equal. ring. }
  pose proof (only_abscissa W _ x B (AB _ _ _ X EQ)) as Y. pose proof (only_abscissa W _ x B (AB _ _ _ X' EQ')) as Y'.
  assert (EE : exists q, e' = e + r' - r + q * N).
  { rewrite <- X' in X. destruct (Prop_Reuse.cong_ex N _ _ ltac:(lia) X) as [q Z0]. exists q. lia. }
  destruct EE as [q EE].
  destruct (same_abscissa W _ _ NQ NQ' (eq_trans Y (eq_sym Y'))) as [C|C].
  - apply (gmul_inj _ N _ _ G (w_n W) (w_killed W _) (w_G_nz W)) in C. destruct (line1 N D _ _ _ _ (w_n W) HD C) as [L|[L1 L2]]; [left; exact L|].
    right. right. left. rewrite !(Z.mod_small s), !(Z.mod_small s') in L2 by lia. subst s'. destruct (Prop_Reuse.cong_ex N _ _ ltac:(lia) L1) as [z Z0]. assert (z = 0) by nia.
    assert (r' = r) by lia. split; [assumption|]. split; [reflexivity|]. symmetry. apply (Prop_Reuse.ex_cong N _ _ q); lia.
  - rewrite <- gmul_opp in C. apply (gmul_inj _ N _ _ G (w_n W) (w_killed W _) (w_G_nz W)) in C. replace (- (s' + (r' + s') * D)) with (- s' + - (r' + s') * D) in C by ring. symmetry in C.
    destruct (line1 N D _ _ _ _ (w_n W) HD C) as [L|[L1 L2]].
    + right. left. replace (r' + s' + (r + s)) with (r + s - - (r' + s')) by ring. replace (- (s + s')) with (- s' - s) by ring. exact L.
    + right. right. right. destruct (Prop_Reuse.cong_ex N _ _ ltac:(lia) L1) as [z Z1]. destruct (Prop_Reuse.cong_ex N _ _ ltac:(lia) L2) as [y Z2].
      assert (y = -1) by nia. subst y. assert (s' = N - s) by lia. assert (z = -2) by nia. assert (r' = N - r) by lia. split; [assumption|]. split; [assumption|].
      apply (Prop_Reuse.ex_cong N _ _ (q + 1)); lia.
Qed.

(** the last case occurs, for every key and signature *)
Theorem C102_sm2_mirror : forall (P : point) e r s, sm2_accepts (wE W) P e r s -> sm2_accepts (wE W) P (e - 2 * r) (N - r) (N - s).
Proof.
  intros P e r s (R & S & T & NQ & EQ). pose proof (N_pos W) as N1. change (eN (wE W)) with N in *. cbv zeta in *.
  change (gadd (gmul s G) (gmul (r + s) P) <> gO) in NQ. change ((e + fst (wco W (gadd (gmul s G) (gmul (r + s) P)))) mod N = r) in EQ.
  assert (Q : gadd (gmul (N - s) G) (gmul (N - r + (N - s)) P) = gneg (gadd (gmul s G) (gmul (r + s) P))).
  { rewrite gneg_add, <- !gmul_opp. f_equal; (apply (gmul_cong _ N); [lia|apply w_killed|]).
    - replace (N - s) with (- s + 1 * N) by ring. apply Z.mod_add. lia.
    - replace (N - r + (N - s)) with (- (r + s) + 2 * N) by ring. apply Z.mod_add. lia. }
  split; [change (eN (wE W)) with N; lia|]. split; [change (eN (wE W)) with N; lia|]. split.
  - change (eN (wE W)) with N. intros C. apply T. apply Z.mod_divide in C; [|lia]. destruct C as [c C]. apply Z.mod_divide; [lia|]. exists (2 - c). lia.
  - cbv zeta. change (eN (wE W)) with N. change (gadd (gmul (N - s) G) (gmul (N - r + (N - s)) P) <> gO /\ (e - 2 * r + fst (wco W (gadd (gmul (N - s) G) (gmul (N - r + (N - s)) P)))) mod N = N - r).
    rewrite Q, (opposite_x W). set (X := gadd (gmul s G) (gmul (r + s) P)) in *. split; [intros C; apply NQ; rewrite <- (gneg_neg _ X), C; apply gneg_O|].
    set (x := fst (wco W X)) in *. clearbody x. pose proof (Z.div_mod (e + x) N ltac:(lia)) as M. rewrite EQ in M.
    replace (e - 2 * r + x) with (N - r + ((e + x) / N - 1) * N) by lia. rewrite Z.mod_add, Z.mod_small; lia.
Qed.

Variable H : Z -> bytes -> bytes.
Hypothesis H_octets : forall sch m, octets (H sch m).
Variable k1RecoverCompact : bytes -> bytes -> go (res (Z * Z)).
Variable edVerify ethVerify : bytes -> bytes -> bytes -> bool.
Notation receive := (SigWhole.receive H k1RecoverCompact edVerify ethVerify).
(** the bytes of an SM3withSM2 signature *)
Inductive sm2_bytes (id : bytes) (r s : Z) : bytes -> Prop :=
| s2b : forall rb sb, ~ In 0 id -> length rb = length sb -> value rb 0 = r -> value sb 0 = s -> length (9 :: id ++ 0 :: rb ++ sb) <> 64%nat ->
    zlen (9 :: id ++ 0 :: rb ++ sb) < 2 ^ 60 -> octets (9 :: id ++ 0 :: rb ++ sb) -> sm2_bytes id r s (9 :: id ++ 0 :: rb ++ sb).
Lemma sm2_received : forall P alg k msg buf id r s, P <> gO -> key_of W P k -> octets msg -> zlen msg < 2 ^ 60 -> sm2_bytes id r s buf ->
  receive (PkEC alg k) msg buf = Val true -> sm2_accepts (wE W) P (msg_e k id msg) r s.
Proof.
  intros P alg k msg buf id r s NP KO Om Lm B V. destruct B as [rb sb NI LL <- <- L64 Lb Ob]. destruct (key_of_facts W HW P k NP KO) as [A C32]. destruct KO as (Hc & _).
  apply (C79_receive_exact W HW H H_octets k1RecoverCompact edVerify ethVerify P alg k msg _ Hc A C32 Om Ob Lm Lb) in V. destruct V as [_ R].
  clear - R L64 NI LL. remember (9 :: id ++ 0 :: rb ++ sb) as buf eqn:Q. destruct R as [a b L1 L2 V|t a b Ht L V|t v Ht L V|id' a b Hk NI' L L63 V].
  - exfalso. apply L64. rewrite app_length, L1, L2. reflexivity.
  - exfalso. injection Q as -> _. lia.
  - exfalso. injection Q as -> _. lia.
  - assert (Q' : id' ++ 0 :: a ++ b = id ++ 0 :: rb ++ sb) by (injection Q as Q; exact Q).
    destruct (app_zero_inj id' id (a ++ b) (rb ++ sb) NI' NI Q') as [<- Q2].
    assert (LA : length a = length rb) by (assert (length (a ++ b) = length (rb ++ sb)) by congruence; rewrite !app_length in *; lia).
    destruct (app_inj_len a rb b sb LA Q2) as [<- <-]. exact V.
Qed.
Theorem C102_sm2 : forall D k alg alg' msg msg' id id' buf buf' r s r' s' x, key_pair_of D k -> pk_curve k = W ->
  octets msg -> zlen msg < 2 ^ 60 -> octets msg' -> zlen msg' < 2 ^ 60 -> sm2_bytes id r s buf -> sm2_bytes id' r' s' buf' ->
  receive (PkEC alg k) msg buf = Val true -> receive (PkEC alg' k) msg' buf' = Val true ->
  let e := msg_e k id msg in let e' := msg_e k id' msg' in
  c_P W <= x + N -> (r - e) mod N = x -> (r' - e') mod N = x ->
  only N ((r' + s') - (r + s)) (s - s') D \/ only N ((r' + s') + (r + s)) (- (s + s')) D \/
  (r' = r /\ s' = s /\ e mod N = e' mod N) \/ (r' = N - r /\ s' = N - s /\ e' mod N = (e - 2 * r) mod N).
Proof.
  intros D k alg alg' msg msg' id id' buf buf' r s r' s' x (_ & HD & HK) Hc Om Lm Om' Lm' SB SB' V V' e e' B X X'. rewrite Hc in HD, HK.
  assert (KO : key_of W (gmul D G) k) by (split; [exact Hc|]; rewrite HK, w_base, be2z_big_bytes by (lia || apply big_bytes_wf); reflexivity).
  assert (NP : gmul D G <> gO) by (rewrite (w_gmul_zero W D G (w_G_nz W)), Z.mod_small; lia).
  apply (C102_sm2_accepted D e r s e' r' s' x); [lia|exact B|exact X|exact X'| |].
  - exact (sm2_received _ alg k msg buf id r s NP KO Om Lm SB V).
  - exact (sm2_received _ alg' k msg' buf' id' r' s' NP KO Om' Lm' SB' V').
Qed.
End W.
Print Assumptions C102_sm2_accepted.
Print Assumptions C102_sm2.
Print Assumptions C102_sm2_mirror.

(** ** Ed25519 *)
Section Ed.
Import EdZ Ed25519 EdCurve Spec_Ed25519 Ed25519Facts.
Variable sha512 : bytes -> bytes.
Variable H : Z -> bytes -> bytes.
Variable ev : ecpub -> bytes -> Z -> Z -> bool.
Variable kr : bytes -> bytes -> go (res (Z * Z)).
Variable ethV : bytes -> bytes -> bytes -> bool.
Variable sv : ecpub -> bytes -> bytes -> Z -> Z -> bool.
Notation receive := (Prop_BtcecWhole.recv H ev kr (Ed25519.Verify sha512) ethV sv).
Theorem C102_ed25519 : forall a pub msg msg' Rb Sb Sb', 0 <= a < edL -> read_as pub (gmul a edB) -> octets pub -> length pub = 32%nat ->
  length Rb = 32%nat -> octets (10 :: Rb ++ Sb) -> octets (10 :: Rb ++ Sb') ->
  receive (PkEd pub) msg (10 :: Rb ++ Sb) = Val true -> receive (PkEd pub) msg' (10 :: Rb ++ Sb') = Val true ->
  let h := challenge sha512 Rb pub msg in let h' := challenge sha512 Rb pub msg' in
  only edL (h - h') (lev Sb - lev Sb') a \/ (h = h' /\ Sb = Sb').
Proof.
  intros a pub msg msg' Rb Sb Sb' Ha RP Op Lp LR Ob Ob' V V'.
  assert (X : forall m S, octets (10 :: Rb ++ S) -> receive (PkEd pub) m (10 :: Rb ++ S) = Val true -> length S = 32%nat /\ lev S < edL /\ exists R, point_bytes R Rb /\ gadd R (gmul (challenge sha512 Rb pub m) (gmul a edB)) = gmul (lev S) edB).
  { intros m S O R. apply (Prop_Ed25519.C85_receive_exact sha512 H ev kr ethV sv pub m _ Op Lp O) in R. destruct R as (_ & sig & Q & (A & R & Rb1 & Sb1 & E1 & L1 & T1 & RA & P1 & G1)).
    assert (E2 : Rb ++ S = Rb1 ++ Sb1) by congruence. pose proof P1 as (x & y & _ & L & _). apply app_inj_len in E2; [|congruence]. destruct E2 as [<- <-].
    rewrite (read_fun pub A _ Op Lp RA RP) in G1. split; [exact L1|]. split; [exact T1|]. exists R. split; [exact P1|exact G1]. }
  destruct (X msg Sb Ob V) as (L & T & R & PR & EQ). destruct (X msg' Sb' Ob' V') as (L' & T' & R' & PR' & EQ'). rewrite (point_bytes_inj R' R Rb PR' PR) in EQ'. clear X.
  cbv zeta. assert (RH : forall m, 0 <= challenge sha512 Rb pub m < edL) by (intros m; apply Z.mod_pos_bound; reflexivity).
  pose proof (RH msg) as R1. pose proof (RH msg') as R2. set (h := challenge sha512 Rb pub msg) in *. set (h' := challenge sha512 Rb pub msg') in *. clearbody h h'. clear RH.
  assert (OS : octets Sb /\ octets Sb') by (apply Forall_inv_tail in Ob, Ob'; apply Forall_app in Ob, Ob'; split; [exact (proj2 Ob)|exact (proj2 Ob')]). destruct OS as [OS OS'].
  assert (C : (lev Sb + - h * a) mod edL = (lev Sb' + - h' * a) mod edL).
  { apply edB_inj. rewrite (gmul_add _ (lev Sb)), (gmul_add _ (lev Sb')), <- EQ, <- EQ', <- !gadd_assoc, <- !gmul_mul, <- !gmul_add.
    replace (h * a + - h * a) with 0 by ring. replace (h' * a + - h' * a) with 0 by ring. reflexivity. }
  destruct (line1 edL a _ _ _ _ edL_prime Ha C) as [K|[K1 K2]].
  - left. replace (h - h') with (- h' - - h) by ring. exact K.
  - right. rewrite !Z.mod_small in K2 by (split; [apply lev_nonneg; assumption|assumption]). split; [|apply lev_inj; [exact OS|exact OS'|congruence|exact K2]].
    destruct (Prop_Reuse.cong_ex edL _ _ ltac:(reflexivity) K1) as [z Z0]. assert (z = 0) by nia. lia.
Qed.
End Ed.
Print Assumptions C102_ed25519.

(** ** Ethereum signatures *)
Section Eth.
Import CurveK Spec_Btcec Spec_EthSig.
Notation E := (kE kS256).
Notation N := (c_N S256).
Notation p := (c_P S256).
Notation G := (eG (e := kE kS256)).
Notation point := (pt (eg (kE kS256))).
Lemma k_only_abscissa : forall (Q : point) r, p <= r + N -> fst (ecoords Q) mod N = r -> fst (ecoords Q) = r.
Proof.
  intros Q r B E0. destruct (kco_range kS256 Q) as [R _]. change (fst (kco kS256 Q)) with (fst (ecoords (e := E) Q)) in R. change (c_P kS256) with p in R. assert (N1 : 1 < N) by reflexivity.
  set (x := fst (ecoords Q)) in *. clearbody x.
  pose proof (Z.div_mod x N ltac:(lia)) as M. pose proof (Z.mod_pos_bound x N ltac:(lia)) as RM. pose proof (Z.div_pos x N ltac:(lia) ltac:(lia)) as D0.
  rewrite E0 in *. set (q := x / N) in *. clearbody q. assert (q = 0) by nia. subst q. lia.
Qed.
Lemma k_same_abscissa : forall Q Q' : point, Q <> gO -> Q' <> gO -> fst (ecoords Q) = fst (ecoords Q') -> Q = Q' \/ Q = gneg Q'.
Proof.
  intros Q Q' NQ NQ' E0. pose proof (kco_kat kS256 Q NQ) as A. pose proof (kco_kat kS256 Q' NQ') as A'.
  apply (kat_same_x kS256 Q Q' _ _ _ _ A A'). change (fst (kco kS256 Q)) with (fst (ecoords (e := E) Q)). change (fst (kco kS256 Q')) with (fst (ecoords (e := E) Q')). rewrite E0, Z.sub_diag. apply Z.divide_0_r.
Qed.
(** any two ECDSA signatures on secp256k1 with the key D G and the same r *)
Theorem C102_accepted_k1 : forall D e e' r s s', 0 <= D < N -> p <= r + N ->
  ecdsa_accepts E (gmul D G) e r s -> ecdsa_accepts E (gmul D G) e' r s' ->
  only N (r * (s' - s)) (s * e' - s' * e) D \/ only N (r * (s' + s)) (- (s * e' + s' * e)) D \/ (e mod N = e' mod N /\ (s' = s \/ s' = N - s)).
Proof.
  intros D e e' r s s' HD B A A'. pose proof A as (R1 & R2 & _). pose proof A' as (_ & R2' & _). change (eN E) with N in R1, R2, R2'.
  apply (Prop_Btcec.accepts_point kS256 _ e r s R1 R2) in A. destruct A as (Q & NQ & X & EQ). apply (Prop_Btcec.accepts_point kS256 _ e' r s' R1 R2') in A'. destruct A' as (Q' & NQ' & X' & EQ').
  rewrite <- gmul_mul, <- gmul_add in EQ, EQ'.
  assert (NR : r mod N <> 0) by (rewrite Z.mod_small; lia). assert (NS : s' mod N <> 0) by (rewrite Z.mod_small; lia).
  assert (LINK : forall t, gmul s' (gmul s Q) = gmul t (gmul s' Q') -> (s' * (r * D + e)) mod N = (t * (r * D + e')) mod N).
  { intros t K. rewrite <- EQ, <- EQ', <- !gmul_mul in K. apply (gmul_inj _ N _ _ G (k_n kS256) (k_killed kS256 _) (k_G_nz kS256)). exact K. }
  destruct (k_same_abscissa Q Q' NQ NQ' (eq_trans (k_only_abscissa Q r B X) (eq_sym (k_only_abscissa Q' r B X')))) as [-> | ->].
  - destruct (line N D r e e' s' s (k_n kS256) HD NR (LINK s (gmul_comm _ s' s Q'))) as [L|[L F]]; [left; exact L|]. right. right. split; [exact (F NS)|]. left. rewrite !Z.mod_small in L by lia. exact L.
  - assert (K : gmul s' (gmul s (gneg Q')) = gmul (- s) (gmul s' Q')) by (rewrite gmul_opp, !gmul_gneg, (gmul_comm _ s' s Q'); reflexivity).
    destruct (line N D r e e' s' (- s) (k_n kS256) HD NR (LINK (- s) K)) as [L|[L F]].
    + right. left. replace (s' + s) with (s' - - s) by ring. replace (- (s * e' + s' * e)) with (- s * e' - s' * e) by ring. exact L.
    + right. right. split; [exact (F NS)|]. right. replace (- s) with (N - s + -1 * N) in L by ring. rewrite Z.mod_add, !Z.mod_small in L by lia. exact L.
Qed.
Variable sm : curve -> Z * Z -> bytes -> Z * Z.
Variable sbm : curve -> bytes -> Z * Z.
Variable add : curve -> Z * Z -> Z * Z -> Z * Z.
Hypothesis sm_ok : forall (P : point) k, P <> gO -> octets k -> sm S256 (ecoords P) k = ecoords (gmul (value k 0) P).
Hypothesis sbm_ok : forall k, octets k -> sbm S256 k = ecoords (gmul (value k 0) G).
Hypothesis add_ok : forall P Q : point, add S256 (ecoords P) (ecoords Q) = ecoords (gadd P Q).
Variable ecmult : Z * Z -> Z -> Z -> Z * Z.
Hypothesis ecmult_ok : forall (Q : point) a b, Q <> gO -> 0 <= a < N -> 0 <= b < N -> ecmult (ecoords Q) a b = ecoords (gadd (gmul a Q) (gmul b G)).
Variable H : Z -> bytes -> bytes.
Hypothesis H_octets : forall sch m, octets (H sch m).
Hypothesis H_11 : forall m, length (H 11 m) = 32%nat.
Variable ev : ecpub -> bytes -> Z -> Z -> bool.
Variable kr : bytes -> bytes -> go (res (Z * Z)).
Variable edV : bytes -> bytes -> bytes -> bool.
Variable sv : ecpub -> bytes -> bytes -> Z -> Z -> bool.
Notation receive := (Prop_EthSig.receive sm sbm add ecmult H ev kr edV sv).
Notation number := (Prop_SubstK.number H).
Lemma eth_received : forall cgo (Q : point) k msg rb sb rest, (pk_X k, pk_Y k) = ecoords Q -> octets msg -> octets (11 :: (rb ++ sb) ++ rest) -> length rb = 32%nat -> length sb = 32%nat ->
  receive cgo (PkEth k) msg (11 :: (rb ++ sb) ++ rest) = Val true -> eth_accepts E Q (number msg) (value rb 0) (value sb 0).
Proof.
  intros cgo Q k msg rb sb rest HK Om Ob L1 L2 R.
  assert (RNG : 0 <= pk_X k /\ 0 <= pk_Y k).
  { pose proof (kco_range kS256 Q) as [A B]. change (ecoords (e := E) Q) with (kco kS256 Q) in HK. rewrite <- HK in A, B. cbn [fst snd] in A, B. lia. }
  destruct RNG as [X0 Y0]. apply (Prop_EthSig.C84_receive_exact sm sbm add sm_ok sbm_ok add_ok ecmult ecmult_ok H H_octets H_11 ev kr edV sv cgo k msg _ X0 Y0 Om Ob) in R.
  destruct R as (NE & rs & rest' & P & r & s & B & (ra & sa & Qrs & (La & Oa & Va) & (Lb & Obb & Vb)) & NP & CP & A). change (value (Prop_EthSig.digest H msg) 0) with (number msg) in A.
  assert (P = Q) as -> by (apply (kco_inj kS256); rewrite HK in CP; exact CP).
  assert (B2 : (rb ++ sb) ++ rest = rs ++ rest') by congruence. apply app_inj_len in B2; [|rewrite Qrs, !app_length; lia]. destruct B2 as [B2 _]. rewrite Qrs in B2. apply app_inj_len in B2; [|lia]. destruct B2 as [-> ->].
  rewrite Va, Vb. exact A.
Qed.
(** the smaller s is demanded, so N - s is no exception *)
Theorem C102_ethereum : forall cgo cgo' D k msg msg' rb sb sb' rest rest', 1 <= D < N -> (pk_X k, pk_Y k) = ecoords (gmul D G) -> octets msg -> octets msg' ->
  octets (11 :: (rb ++ sb) ++ rest) -> octets (11 :: (rb ++ sb') ++ rest') -> length rb = 32%nat -> length sb = 32%nat -> length sb' = 32%nat -> p <= value rb 0 + N ->
  receive cgo (PkEth k) msg (11 :: (rb ++ sb) ++ rest) = Val true -> receive cgo' (PkEth k) msg' (11 :: (rb ++ sb') ++ rest') = Val true ->
  let r := value rb 0 in let s := value sb 0 in let s' := value sb' 0 in let e := number msg in let e' := number msg' in
  only N (r * (s' - s)) (s * e' - s' * e) D \/ only N (r * (s' + s)) (- (s * e' + s' * e)) D \/ (e mod N = e' mod N /\ s' = s).
Proof.
  intros cgo cgo' D k msg msg' rb sb sb' rest rest' HD HK Om Om' Ob Ob' L L1 L2 B V V'. cbv zeta.
  destruct (eth_received cgo _ k msg rb sb rest HK Om Ob L L1 V) as [A LO]. destruct (eth_received cgo' _ k msg' rb sb' rest' HK Om' Ob' L L2 V') as [A' LO']. change (eN E) with N in LO, LO'.
  destruct (C102_accepted_k1 D _ _ _ _ _ ltac:(lia) B A A') as [X|[X|[X Y]]]; [left; exact X|right; left; exact X|]. right. right. split; [exact X|].
  destruct Y as [Y|Y]; [exact Y|]. exfalso. assert (N = 2 * (N / 2) + 1) by reflexivity. lia.
Qed.
End Eth.
Print Assumptions C102_accepted_k1.
Print Assumptions C102_ethereum.

(** ** Examples *)
(** SM3withSM2: the key 2, the nonce 1, the messages "hi" and "hj" *)
Notation N2 := (c_N SM2P256V1).
Notation G2 := (w_G wSM2 : pt (wgroup wSM2)).
Notation ex_r v := ((v + c_Gx SM2P256V1) mod N2).
Notation ex_s v := (((1 - ex_r v * 2) * Prop_Reuse.third) mod N2).
Lemma ex_base : fst (wco wSM2 G2) = c_Gx SM2P256V1.
Proof. exact (f_equal fst (wat_wco wSM2 _ _ _ (wat_G wSM2))). Qed.
Lemma ex_sm2 : forall v, Prop_Reuse.ex_fits v -> sm2_accepts (wE wSM2) (gmul 2 G2) v (ex_r v) (ex_s v).
Proof.
  intros v (R0 & RN & S0 & EQ). pose proof (Z.mod_pos_bound (v + c_Gx SM2P256V1) N2 ltac:(reflexivity)) as B. set (s := ex_s v) in *.
  set (r := ex_r v) in *. assert (Er : (v + c_Gx SM2P256V1) mod N2 = r) by reflexivity. clearbody s r.
  assert (K : (s + (r + s) * 2) mod N2 = 1).
  { replace (s + (r + s) * 2) with (s * (1 + 2) + r * 2) by ring. rewrite <- Z.add_mod_idemp_l, EQ, Z.add_mod_idemp_l by discriminate. replace (1 - r * 2 + r * 2) with 1 by ring. reflexivity. }
  assert (Q : gadd (gmul s G2) (gmul (r + s) (gmul 2 G2)) = G2).
  { rewrite <- gmul_mul, <- gmul_add. rewrite <- (gmul_1 _ G2) at 2. apply (gmul_cong _ N2); [reflexivity|exact (w_killed wSM2 _)|]. rewrite K. reflexivity. }
  change (eN (wE wSM2)) with N2. split; [change (eN (wE wSM2)) with N2; lia|]. split; [change (eN (wE wSM2)) with N2; lia|]. split.
  - change (eN (wE wSM2)) with N2. intros C. apply RN. replace (s + (r + s) * 2) with (s + 2 * (r + s)) in K by ring. rewrite <- Z.add_mod_idemp_r, <- Z.mul_mod_idemp_r, C in K by discriminate.
    change (2 * 0) with 0 in K. rewrite (Z.mod_0_l N2), Z.add_0_r, Z.mod_small in K by (discriminate || lia). subst s. apply Z.mod_divide in C; [|discriminate]. destruct C as [c C]. assert (1 < N2) by reflexivity. assert (c = 1) by nia. lia.
  - cbv zeta. change (eG (e := wE wSM2)) with G2. split.
    + intros C. apply (w_G_nz wSM2). rewrite <- Q. exact C.
    + change (eN (wE wSM2)) with N2. change ((v + fst (wco wSM2 (gadd (gmul s G2) (gmul (r + s) (gmul 2 G2))))) mod N2 = r). rewrite Q, ex_base. exact Er.
Qed.
Example C102_example_sm2 : exists e e' r s r' s', sm2_accepts (wE wSM2) (gmul 2 G2) e r s /\ sm2_accepts (wE wSM2) (gmul 2 G2) e' r' s' /\ e mod N2 <> e' mod N2 /\
  (r - e) mod N2 = c_Gx SM2P256V1 /\ (r' - e') mod N2 = c_Gx SM2P256V1 /\
  (only N2 ((r' + s') - (r + s)) (s - s') 2 \/ only N2 ((r' + s') + (r + s)) (- (s + s')) 2 \/ (r' = N2 - r /\ s' = N2 - s /\ e' mod N2 = (e - 2 * r) mod N2)).
Proof.
  destruct Prop_Reuse.ex_values as (v & w & _ & _ & Fv & Fw & NE). pose proof (ex_sm2 v Fv) as A. pose proof (ex_sm2 w Fw) as A'.
  assert (X : forall u, (ex_r u - u) mod N2 = c_Gx SM2P256V1) by (intros u; rewrite Zminus_mod_idemp_l; replace (u + c_Gx SM2P256V1 - u) with (c_Gx SM2P256V1) by ring; reflexivity).
  exists v, w, (ex_r v), (ex_s v), (ex_r w), (ex_s w). split; [exact A|]. split; [exact A'|]. split; [exact NE|]. split; [apply X|]. split; [apply X|].
  destruct (C102_sm2_accepted wSM2 2 v _ _ w _ _ (c_Gx SM2P256V1) ltac:(split; [lia|reflexivity]) ltac:(discriminate) (X v) (X w) A A') as [L|[L|[(_ & _ & C)|L]]];
    [left; exact L|right; left; exact L|contradiction|right; right; exact L].
Qed.
Example C102_example_mirror : exists e r s, sm2_accepts (wE wSM2) (gmul 2 G2) e r s /\ sm2_accepts (wE wSM2) (gmul 2 G2) (e - 2 * r) (N2 - r) (N2 - s).
Proof.
  destruct Prop_Reuse.ex_values as (v & _ & _ & _ & Fv & _). exists v, (ex_r v), (ex_s v). split; [exact (ex_sm2 v Fv)|]. exact (C102_sm2_mirror wSM2 _ _ _ _ (ex_sm2 v Fv)).
Qed.
(** as bytes: the same two signatures are received *)
Example C102_example_sm2_received : forall H k1r edv ethv, (forall sch m, octets (H sch m)) -> forall v m, (m = 105 \/ m = 106) -> msg_e Prop_SM2Enc4.pub2 [] [104; m] = v -> Prop_Reuse.ex_fits v ->
  exists buf, sm2_bytes [] (ex_r v) (ex_s v) buf /\ SigWhole.receive H k1r edv ethv (PkEC 1 Prop_SM2Enc4.pub2) [104; m] buf = Val true.
Proof.
  intros H k1r edv ethv HO v m Hm EV F. pose proof (ex_sm2 v F) as A. set (s := ex_s v) in *. set (r := ex_r v) in *. pose proof A as (R & S & _). change (eN (wE wSM2)) with N2 in R, S.
  assert (V32 : forall z, 1 <= z <= N2 - 1 -> value (to_be 32 z) 0 = z) by (intros z Z0; rewrite value_be2z, be2z_to_be; apply Z.mod_small; assert (N2 < 256 ^ Z.of_nat 32) by reflexivity; lia).
  clearbody r s. exists (9 :: [] ++ 0 :: to_be 32 r ++ to_be 32 s).
  assert (L64 : length (9 :: [] ++ 0 :: to_be 32 r ++ to_be 32 s) = 66%nat) by (cbn [app length]; rewrite app_length, !to_be_length; reflexivity).
  assert (OB : octets (9 :: [] ++ 0 :: to_be 32 r ++ to_be 32 s)) by (constructor; [lia|]; constructor; [lia|]; apply Forall_app; split; apply to_be_wf).
  assert (LB : zlen (9 :: [] ++ 0 :: to_be 32 r ++ to_be 32 s) < 2 ^ 60) by (unfold zlen; rewrite L64; reflexivity).
  split.
  - apply s2b; [exact (fun F => F)|rewrite !to_be_length; reflexivity|exact (V32 r R)|exact (V32 s S)|rewrite L64; discriminate|exact LB|exact OB].
  - assert (NP : gmul 2 G2 <> gO) by (rewrite (w_gmul_zero wSM2 2 _ (w_G_nz wSM2)); discriminate).
    assert (KO : key_of wSM2 (gmul 2 G2) Prop_SM2Enc4.pub2) by (split; [reflexivity|]; rewrite <- Prop_Generic.generic_pub2; exact (w_base wSM2 _ (big_bytes_wf 2))).
    destruct (key_of_facts wSM2 (or_intror eq_refl) _ _ NP KO) as [AT C32].
    apply (C79_receive_exact wSM2 (or_intror eq_refl) H HO k1r edv ethv (gmul 2 G2) 1 Prop_SM2Enc4.pub2 [104; m] _ eq_refl AT C32); [repeat constructor; lia|exact OB|reflexivity|exact LB|].
    split; [discriminate|]. apply vb_sm2; [reflexivity|exact (fun F => F)|rewrite !to_be_length; reflexivity|cbn [app length]; rewrite app_length, !to_be_length; discriminate|].
    rewrite EV, (V32 r R), (V32 s S). exact A.
Qed.
(** Ed25519: the key B, of the scalar 1, and the nonce 1 *)
Section ExEd.
Import EdZ Ed25519 EdCurve Spec_Ed25519 Ed25519Facts Prop_Ed25519.
(** a hash that ends with what is hashed *)
Definition ex_sha2 (m : bytes) : bytes := z2le 64 (lev (rev m)).
Notation ex_rec := (Prop_BtcecWhole.recv (fun _ m => m) (fun _ _ _ _ => false) (fun _ _ => Val (Err "no"%string)) (Ed25519.Verify ex_sha2) (fun _ _ _ => false) (fun _ _ _ _ _ => false)).
Notation ex_S m := (z2le 32 ((1 + challenge ex_sha2 ex_B ex_B m * 1) mod edL)).
Lemma ex_B_ok : octets ex_B. Proof. apply octetsb; reflexivity. Qed.
Lemma ex_ed_octets : forall m, octets (10 :: ex_B ++ ex_S m).
Proof. intros m. constructor; [unfold is_byte; lia|]. apply Forall_app. split; [exact ex_B_ok|apply z2le_octets]. Qed.
Lemma ex_ed : forall m, m <> [] -> ex_rec (PkEd ex_B) m (10 :: ex_B ++ ex_S m) = Val true.
Proof.
  intros m NE. destruct C85_decompress_example as (_ & _ & PB & RB). apply C85_receive_exact; [exact ex_B_ok|reflexivity|apply ex_ed_octets|].
  split; [exact NE|]. eexists. split; [reflexivity|].
  apply (C85_scalar_signs ex_sha2 ex_B edB 1 1 m ex_B); [exact ex_B_ok|reflexivity|exact RB|symmetry; apply gmul_1|rewrite gmul_1; exact PB|apply z2le_length|].
  apply scalar_bytes. apply Z.mod_pos_bound. reflexivity.
Qed.
Example C102_example_ed25519 : ex_rec (PkEd ex_B) [1] (10 :: ex_B ++ ex_S [1]) = Val true /\ ex_rec (PkEd ex_B) [2] (10 :: ex_B ++ ex_S [2]) = Val true /\
  only edL (challenge ex_sha2 ex_B ex_B [1] - challenge ex_sha2 ex_B ex_B [2]) (lev (ex_S [1]) - lev (ex_S [2])) 1.
Proof.
  split; [apply ex_ed; discriminate|]. split; [apply ex_ed; discriminate|]. destruct C85_decompress_example as (_ & _ & PB & RB). rewrite <- (gmul_1 edG edB) in RB.
  destruct (C102_ed25519 ex_sha2 _ _ _ _ _ 1 ex_B [1] [2] ex_B _ _ ltac:(split; [lia|reflexivity]) RB ex_B_ok eq_refl eq_refl (ex_ed_octets [1]) (ex_ed_octets [2]) (ex_ed [1] ltac:(discriminate)) (ex_ed [2] ltac:(discriminate))) as [L|[C _]]; [exact L|].
  exfalso. vm_compute in C. discriminate C.
Qed.
End ExEd.
(** Ethereum: the private key 1, the nonce 1, and two messages of 32 bytes, which are their own digests *)
Section ExEth.
Import CurveK Spec_Btcec Spec_EthSig.
Notation N := (c_N S256).
Notation G := (eG (e := kE kS256)).
Notation rsm := (Prop_Btcec.ref_sm kS256). Notation rsbm := (Prop_Btcec.ref_sbm kS256). Notation radd := (Prop_Btcec.ref_add kS256).
Notation ex_rec cgo := (Prop_EthSig.receive rsm rsbm radd Prop_EthSig.ex_mult Prop_BtcecWhole.ex_H (fun _ _ _ _ => false) (fun _ _ => Val (Err ""%string)) (fun _ _ _ => false) (fun _ _ _ _ _ => false) cgo).
Notation ex_e n := (value (repeat n 32) 0).
Notation ex_bytes n := ((to_be 32 (c_Gx S256) ++ to_be 32 (c_Gx S256 + ex_e n)) ++ [0]).
Lemma ex_eth_octets : forall n, octets (11 :: ex_bytes n).
Proof. intros n. constructor; [lia|]. apply Forall_app. split; [apply Forall_app; split; apply to_be_wf|repeat constructor; lia]. Qed.
Lemma ex_msg_octets : forall n, 0 <= n < 256 -> octets (repeat n 32).
Proof. intros n Hn. apply Forall_forall. intros b I. apply repeat_spec in I. subst b. exact Hn. Qed.
Lemma ex_eth : forall cgo n, n = 1 \/ n = 2 -> ex_rec cgo (PkEth Prop_EthSig.ex_key) (repeat n 32) (11 :: ex_bytes n) = Val true.
Proof.
  intros cgo n Hn. assert (RE : 0 <= ex_e n < 2 ^ 250) by (destruct Hn as [-> | ->]; (split; [discriminate|reflexivity])). assert (RX : 0 <= c_Gx S256 < 2 ^ 255 - 2 ^ 250 - 2 ^ 249) by (split; [discriminate|reflexivity]).
  assert (NB : 2 ^ 256 - 2 ^ 250 < N) by reflexivity. assert (GX : 1 <= c_Gx S256) by discriminate.
  apply (Prop_EthSig.C84_receive_exact rsm rsbm radd (Prop_Btcec.ref_sm_ok kS256) (Prop_EthSig.ex_sbm_ok S256) (Prop_Btcec.ref_add_ok kS256) Prop_EthSig.ex_mult Prop_EthSig.ex_mult_ok Prop_BtcecWhole.ex_H
    (fun _ _ => Prop_Btcec.ex_dg_octets) (fun _ => eq_refl)); [discriminate|discriminate|apply ex_msg_octets; lia|apply ex_eth_octets|].
  split; [discriminate|]. exists (to_be 32 (c_Gx S256) ++ to_be 32 (c_Gx S256 + ex_e n)), [0], G, (c_Gx S256), (c_Gx S256 + ex_e n). split; [reflexivity|].
  split; [eexists _, _; split; [reflexivity|]; split; apply Prop_Btcec.encodes32; lia|]. split; [exact (k_G_nz kS256)|]. split; [exact Prop_Btcec.s256_G_coords|].
  change (value (Prop_EthSig.digest Prop_BtcecWhole.ex_H (repeat n 32)) 0) with (ex_e n). set (e := ex_e n) in *. clearbody e. split; [|change (eN (kE kS256)) with N; lia].
  apply (Prop_Btcec.accepts_point kS256); [change (c_N kS256) with N; lia..|]. exists G. split; [exact (k_G_nz kS256)|]. split; [rewrite Prop_Btcec.s256_G_coords; reflexivity|symmetry; apply gmul_add].
Qed.
Example C102_example_ethereum : forall cgo cgo', ex_rec cgo (PkEth Prop_EthSig.ex_key) (repeat 1 32) (11 :: ex_bytes 1) = Val true /\ ex_rec cgo' (PkEth Prop_EthSig.ex_key) (repeat 2 32) (11 :: ex_bytes 2) = Val true /\
  let r := value (to_be 32 (c_Gx S256)) 0 in let s := value (to_be 32 (c_Gx S256 + ex_e 1)) 0 in let s' := value (to_be 32 (c_Gx S256 + ex_e 2)) 0 in
  (only N (r * (s' - s)) (s * ex_e 2 - s' * ex_e 1) 1 \/ only N (r * (s' + s)) (- (s * ex_e 2 + s' * ex_e 1)) 1).
Proof.
  intros cgo cgo'. pose proof (ex_eth cgo 1 (or_introl eq_refl)) as V. pose proof (ex_eth cgo' 2 (or_intror eq_refl)) as V'. split; [exact V|]. split; [exact V'|].
  destruct (C102_ethereum rsm rsbm radd (Prop_Btcec.ref_sm_ok kS256) (Prop_EthSig.ex_sbm_ok S256) (Prop_Btcec.ref_add_ok kS256) Prop_EthSig.ex_mult Prop_EthSig.ex_mult_ok Prop_BtcecWhole.ex_H
    (fun _ _ => Prop_Btcec.ex_dg_octets) (fun _ => eq_refl) _ _ _ _ cgo cgo' 1 Prop_EthSig.ex_key (repeat 1 32) (repeat 2 32) _ _ _ [0] [0] ltac:(split; [lia|reflexivity]) Prop_EthSig.ex_coords
    (ex_msg_octets 1 ltac:(lia)) (ex_msg_octets 2 ltac:(lia)) (ex_eth_octets 1) (ex_eth_octets 2) (to_be_length _ _) (to_be_length _ _) (to_be_length _ _) ltac:(vm_compute; discriminate) V V') as [L|[L|[C _]]].
  - left. exact L.
  - right. exact L.
  - exfalso. vm_compute in C. discriminate C.
Qed.
End ExEth.
