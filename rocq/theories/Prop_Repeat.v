(** * Prop_Repeat: property C102, what two signatures with the same r give away about the private key.
    Whoever receives two byte strings that are accepted with one key and contain the same r can compute the private
    key, however they were made (/repo/signature/signature.go:172-230, 292-348 with crypto/ecdsa on P-256 and the SM2
    curve, SigWhole.v, and /repo/signature/secp256k1.go with btcec, BtcecWhole.v). *)
From Coq Require Import ZArith Znumtheory Zpow_facts String List Bool Lia.
From Verif Require Import Base BaseFacts Curves ECKey Keypair SM3 Spec_EC ECFacts ECFacts2 Spec_Keys KeyFacts Prop_Keys Spec_Group Spec_SM2 SM2Sig Prop_SM2
  NumTheory LucasFacts CurveZ CurveRoot Elliptic EllipticFacts CurveWhole Prop_Whole SM2Generic Spec_ECDSA Spec_Gen Signature Spec_Sig SigFacts Prop_Sig SigWhole Prop_SigWhole Prop_Subst Prop_Dup.
From Verif Require ECDSA Prop_ECDSA Prop_Generic Prop_Reuse Prop_SM2Enc4 CurveK Spec_Btcec BtcecFacts Prop_Btcec BtcecWhole Prop_BtcecWhole Prop_SubstK.
Import ListNotations.
Open Scope Z_scope.

(** D is the one solution of D a = b modulo m in [0, m) *)
Definition only (m a b D : Z) : Prop := 0 <= D < m /\ forall D', 0 <= D' < m -> ((D' * a) mod m = b mod m <-> D' = D).

Lemma line : forall m D r e e' s' t, prime m -> 0 <= D < m -> r mod m <> 0 -> (s' * (r * D + e)) mod m = (t * (r * D + e')) mod m ->
  only m (r * (s' - t)) (t * e' - s' * e) D \/ (s' mod m = t mod m /\ (s' mod m <> 0 -> e mod m = e' mod m)).
Proof.
  intros m D r e e' s' t P HD NR C. pose proof (prime_ge_2 m P) as M. assert (M0 : 0 < m) by lia. destruct (Prop_Reuse.cong_ex m _ _ M0 C) as [q Q].
  destruct (Z.eq_dec ((s' - t) mod m) 0) as [Z0|NZ].
  - right. apply Z.mod_divide in Z0; [|lia]. destruct Z0 as [z Z0]. split; [apply (Prop_Reuse.ex_cong m _ _ z M0); lia|].
    intros NS. assert (DV : (m | s' * (e - e'))) by (exists (q - z * (r * D + e')); replace t with (s' - z * m) in Q by lia; nia).
    apply prime_mult in DV; [|exact P]. destruct DV as [DV|[y Y]]; [exfalso; apply NS, Z.mod_divide; [lia|exact DV]|]. apply (Prop_Reuse.ex_cong m _ _ y M0). lia.
  - left. apply Prop_Reuse.only_prime; [exact P|exact HD| |].
    + intros X. apply Z.mod_divide in X; [|lia]. apply prime_mult in X; [|exact P]. destruct X as [X|X]; [apply NR|apply NZ]; (apply Z.mod_divide; [lia|exact X]).
    + apply (Prop_Reuse.ex_cong m _ _ q M0). nia.
Qed.

(** ** P-256 and the SM2 curve *)
Section W.
Variable W : wcurve.
Hypothesis HW : prime_curve W.
Notation N := (c_N W).
Notation point := (pt (wgroup W)).
Notation G := (w_G W : pt (wgroup W)).

(** any two signatures with the key D G and the same r *)
Theorem C102_accepted : forall D e e' r s s', 0 <= D < N -> c_P W <= r + N ->
  ecdsa_accepts (wE W) (gmul D G) e r s -> ecdsa_accepts (wE W) (gmul D G) e' r s' ->
  only N (r * (s' - s)) (s * e' - s' * e) D \/ only N (r * (s' + s)) (- (s * e' + s' * e)) D \/ (e mod N = e' mod N /\ (s' = s \/ s' = N - s)).
Proof.
  intros D e e' r s s' HD B A A'. pose proof (N_pos W) as N1. pose proof A as (R1 & R2 & _). pose proof A' as (_ & R2' & _). change (eN (wE W)) with N in R1, R2, R2'.
  apply (Prop_ECDSA.C78_recovery W _ e r s R1 R2) in A. destruct A as (Q & NQ & X & EQ). apply (Prop_ECDSA.C78_recovery W _ e' r s' R1 R2') in A'. destruct A' as (Q' & NQ' & X' & EQ').
  assert (S : forall (T : point) e0 s0, gmul r (gmul D G) = gadd (gmul s0 T) (gneg (gmul e0 G)) -> gmul (r * D + e0) G = gmul s0 T).
  { intros T e0 s0 K. rewrite gmul_add, gmul_mul, K, <- gadd_assoc, (gadd_comm _ (gneg _)), gadd_neg, gadd_O. reflexivity. }
  apply S in EQ. apply S in EQ'. clear S.
  assert (NR : r mod N <> 0) by (rewrite Z.mod_small; lia). assert (NS : s' mod N <> 0) by (rewrite Z.mod_small; lia).
  assert (LINK : forall t, gmul s' (gmul s Q) = gmul t (gmul s' Q') -> (s' * (r * D + e)) mod N = (t * (r * D + e')) mod N).
  { intros t K. assert (K2 : gmul s' (gmul (r * D + e) G) = gmul t (gmul (r * D + e') G)) by (etransitivity; [exact (f_equal (gmul s') EQ)|]; etransitivity; [exact K|]; symmetry; exact (f_equal (gmul t) EQ')).
    rewrite <- !gmul_mul in K2. apply (gmul_inj _ N _ _ G (w_n W) (w_killed W _) (w_G_nz W)). exact K2. }
  destruct (same_abscissa W Q Q' NQ NQ' (eq_trans (only_abscissa W Q r B X) (eq_sym (only_abscissa W Q' r B X')))) as [-> | ->].
  - destruct (line N D r e e' s' s (w_n W) HD NR (LINK s (gmul_comm _ s' s Q'))) as [L|[L F]]; [left; exact L|]. right. right. split; [exact (F NS)|]. left. rewrite !Z.mod_small in L by lia. exact L.
  - assert (K : gmul s' (gmul s (gneg Q')) = gmul (- s) (gmul s' Q')) by (rewrite gmul_opp, !gmul_gneg, (gmul_comm _ s' s Q'); reflexivity).
    destruct (line N D r e e' s' (- s) (w_n W) HD NR (LINK (- s) K)) as [L|[L F]].
    + right. left. replace (s' + s) with (s' - - s) by ring. replace (- (s * e' + s' * e)) with (- s * e' - s' * e) by ring. exact L.
    + right. right. split; [exact (F NS)|]. right. replace (- s) with (N - s + -1 * N) in L by ring. rewrite Z.mod_add, !Z.mod_small in L by lia. exact L.
Qed.

Variable H : Z -> bytes -> bytes.
Hypothesis H_octets : forall sch m, octets (H sch m).
Variable k1RecoverCompact : bytes -> bytes -> go (res (Z * Z)).
Variable edVerify ethVerify : bytes -> bytes -> bytes -> bool.
Notation receive := (SigWhole.receive H k1RecoverCompact edVerify ethVerify).
Notation e_of sch msg := (digest_int 256 (H sch msg)).
(** as bytes that were received *)
Theorem C102_received : forall D k alg alg' msg msg' buf buf' sch sch' r s s', key_pair_of D k -> pk_curve k = W ->
  octets msg -> octets buf -> zlen msg < 2 ^ 60 -> zlen buf < 2 ^ 60 -> octets msg' -> octets buf' -> zlen msg' < 2 ^ 60 -> zlen buf' < 2 ^ 60 ->
  pair_bytes buf sch r s -> pair_bytes buf' sch' r s' -> c_P W <= r + N ->
  receive (PkEC alg k) msg buf = Val true -> receive (PkEC alg' k) msg' buf' = Val true ->
  let e := e_of sch msg in let e' := e_of sch' msg' in
  only N (r * (s' - s)) (s * e' - s' * e) D \/ only N (r * (s' + s)) (- (s * e' + s' * e)) D \/ (e mod N = e' mod N /\ (s' = s \/ s' = N - s)).
Proof.
  intros D k alg alg' msg msg' buf buf' sch sch' r s s' (_ & HD & HK) Hc Om Ob Lm Lb Om' Ob' Lm' Lb' PB PB' B V V'. rewrite Hc in HD, HK.
  assert (KO : key_of W (gmul D G) k) by (split; [exact Hc|]; rewrite HK, w_base, be2z_big_bytes by (lia || apply big_bytes_wf); reflexivity).
  assert (NP : gmul D G <> gO) by (rewrite (w_gmul_zero W D G (w_G_nz W)), Z.mod_small; lia).
  apply (C99_pair W HW H H_octets k1RecoverCompact edVerify ethVerify _ alg k msg buf sch r s NP KO Om Ob Lm Lb PB) in V.
  apply (C99_pair W HW H H_octets k1RecoverCompact edVerify ethVerify _ alg' k msg' buf' sch' r s' NP KO Om' Ob' Lm' Lb' PB') in V'.
  cbv zeta. apply (C102_accepted D _ _ r s s'); [lia|exact B|exact (proj2 V)|exact (proj2 V')].
Qed.
End W.
Print Assumptions C102_accepted.
Print Assumptions C102_received.

(** ** secp256k1: the header tells the point, and leaves one equation *)
Section K.
Import CurveK Spec_Btcec.
Notation E := (kE kS256).
Notation N := (c_N S256).
Notation G := (eG (e := kE kS256)).
Notation point := (pt (eg (kE kS256))).
Variable checked : bool.
Variable sm : curve -> Z * Z -> bytes -> Z * Z.
Variable sbm : curve -> bytes -> Z * Z.
Variable add : curve -> Z * Z -> Z * Z -> Z * Z.
Hypothesis sm_ok : forall (P : point) k, P <> gO -> octets k -> sm S256 (ecoords P) k = ecoords (gmul (value k 0) P).
Hypothesis sbm_ok : forall k, octets k -> sbm S256 k = ecoords (gmul (value k 0) G).
Hypothesis add_ok : forall P Q : point, add S256 (ecoords P) (ecoords Q) = ecoords (gadd P Q).
Variable H : Z -> bytes -> bytes.
Hypothesis H_octets : forall sch m, octets (H sch m).
Variable edVerify ethVerify : bytes -> bytes -> bytes -> bool.
Notation receive := (BtcecWhole.receive checked sm sbm add H edVerify ethVerify).
Notation e_of sch msg := (digest_int 256 (H sch msg)).
Theorem C102_compact : forall D k alg alg' msg msg' sch sch' v v' h r s s', 1 <= D < N -> Prop_SubstK.key_of (gmul D G) k -> octets (sch :: v) -> octets (sch' :: v') ->
  compact v h r s -> compact v' h r s' -> receive (PkEC alg k) msg (sch :: v) = Val true -> receive (PkEC alg' k) msg' (sch' :: v') = Val true ->
  let e := e_of sch msg in let e' := e_of sch' msg' in
  only N (r * (s' - s)) (s * e' - s' * e) D \/ (s' mod N = s mod N /\ e mod N = e' mod N).
Proof.
  intros D k alg alg' msg msg' sch sch' v v' h r s s' HD KO Ob Ob' C C' V V'.
  assert (L : forall v h r s, compact v h r s -> length v = 65%nat) by (intros v0 h0 r0 s0 (rb & sb & -> & (L1 & _) & (L2 & _)); cbn [length]; rewrite app_length; lia).
  assert (NP : gmul D G <> gO) by (intros Z0; apply (k_gmul_zero kS256 D _ (k_G_nz kS256)) in Z0; change (c_N kS256) with N in Z0; rewrite Z.mod_small in Z0; lia).
  apply (Prop_SubstK.compact_iff checked sm sbm add sm_ok sbm_ok add_ok H H_octets edVerify ethVerify _ alg k msg sch v NP KO Ob (L _ _ _ _ C)) in V.
  apply (Prop_SubstK.compact_iff checked sm sbm add sm_ok sbm_ok add_ok H H_octets edVerify ethVerify _ alg' k msg' sch' v' NP KO Ob' (L _ _ _ _ C')) in V'.
  destruct V as (_ & _ & h0 & it & r0 & s0 & C0 & HD0 & IR & (R & NR & EQ)). destruct V' as (_ & _ & h1 & it' & r1 & s1 & C1 & HD1 & IR' & (R' & NR' & EQ')).
  destruct (Prop_Btcec.compact_inj _ _ _ _ _ _ _ C0 C) as (-> & -> & ->). destruct (Prop_Btcec.compact_inj _ _ _ _ _ _ _ C1 C') as (-> & -> & ->).
  assert (it' = it) as -> by (rewrite <- (proj2 (Prop_Btcec.header_fun _ _ HD1)); exact (proj2 (Prop_Btcec.header_fun _ _ HD0))).
  assert (R' = R) as -> by exact (BtcecFacts.named_unique kS256 _ _ _ _ NR' NR).
  assert (NZ : r mod N <> 0) by exact (proj2 (proj1 (Prop_Btcec.in_range_adm kS256 Prop_Btcec.s256_bits checked sm sbm add sm_ok sbm_ok add_ok r s) IR)).
  cbv zeta. set (e := e_of sch msg) in *. set (e' := e_of sch' msg') in *. clearbody e e'.
  assert (LK : (s' * (r * D + e)) mod N = (s * (r * D + e')) mod N).
  { apply (gmul_inj _ N _ _ G (k_n kS256) (k_killed kS256 _) (k_G_nz kS256)). rewrite (gmul_mul _ s'), (gmul_mul _ s), (gmul_add _ (r * D) e), (gmul_add _ (r * D) e'), (gmul_mul _ r D), EQ, EQ'. apply gmul_comm. }
  destruct (line N D r e e' s' s (k_n kS256) ltac:(lia) NZ LK) as [X|[X F]]; [left; exact X|]. right. split; [exact X|].
  destruct (Z.eq_dec (s' mod N) 0) as [S0|S0]; [|exact (F S0)].
  assert (Z1 : gmul s' R = gO) by (apply (gmul_zero_iff _ N); [exact (k_n kS256)|exact (k_killed kS256 R)|exact (proj1 NR)|exact S0]).
  assert (Z2 : gmul s R = gO) by (apply (gmul_zero_iff _ N); [exact (k_n kS256)|exact (k_killed kS256 R)|exact (proj1 NR)|rewrite <- X; exact S0]).
  rewrite Z1 in EQ'. rewrite Z2, <- EQ' in EQ. apply gcancel_l in EQ. apply (gmul_inj _ N _ _ G (k_n kS256) (k_killed kS256 _) (k_G_nz kS256)). exact EQ.
Qed.
End K.
Print Assumptions C102_compact.

(** ** Examples: the private key 1, the nonce 1 for the messages "hi" and "h", and the length of the message for its digest *)
Notation ex_receive := (SigWhole.receive ex_len (fun _ _ => Val (Err ""%string)) (fun _ _ _ => false) (fun _ _ _ => false)).
Notation ex_buf n := (5 :: to_be 32 (c_Gx P256) ++ to_be 32 (c_Gx P256 + n)).
Lemma ex_h : octets [104]. Proof. repeat constructor; lia. Qed.
Lemma ex_bytes : forall n, 0 <= n < 256 -> octets (ex_buf n) /\ zlen (ex_buf n) < 2 ^ 60 /\ pair_bytes (ex_buf n) 5 (c_Gx P256) (c_Gx P256 + n).
Proof.
  intros n Hn. split; [constructor; [lia|]; apply Forall_app; split; apply to_be_wf|]. split; [unfold zlen; cbn [length]; rewrite app_length, !to_be_length; reflexivity|].
  assert (Q : forall z, 0 <= z < 256 ^ 32 -> value (to_be 32 z) 0 = z) by (intros z Z0; rewrite value_be2z, be2z_to_be; apply Z.mod_small; exact Z0).
  assert (P : pair_bytes (ex_buf n) 5 (value (to_be 32 (c_Gx P256)) 0) (value (to_be 32 (c_Gx P256 + n)) 0)) by (apply pb_long; [lia|rewrite !to_be_length; reflexivity]).
  assert (B : 0 <= c_Gx P256 < 256 ^ 32 - 256) by (split; [discriminate|reflexivity]). rewrite !Q in P by lia. exact P.
Qed.
Lemma ex_accepted : forall msg n, octets msg -> zlen msg < 2 ^ 60 -> msg <> [] -> digest_int 256 (ex_len 5 msg) = n -> 0 <= n < 256 -> ex_receive (PkEC 0 Prop_ECDSA.ex_pub) msg (ex_buf n) = Val true.
Proof.
  intros msg n Om Lm NE D Hn. destruct (ex_bytes n Hn) as (OB & LB & PB).
  apply (C99_pair wP256 (or_introl eq_refl) ex_len ex_len_octets _ _ _ (w_G wP256) 0 Prop_ECDSA.ex_pub msg (ex_buf n) 5 _ _ (w_G_nz wP256) ex_key_of Om OB Lm LB PB).
  assert (B : 1 <= c_Gx P256 < c_N P256 - 256) by (split; [discriminate|reflexivity]).
  split; [exact NE|]. rewrite D. apply (Prop_ECDSA.C78_recovery wP256); [change (c_N wP256) with (c_N P256); lia..|].
  exists (w_G wP256). split; [exact (w_G_nz wP256)|]. split.
  - change (fst (wco wP256 (w_G wP256)) mod c_N wP256 = c_Gx P256). rewrite <- (proj2 ex_key_of). reflexivity.
  - change (eG (e := wE wP256)) with (w_G wP256). rewrite gmul_add, <- gadd_assoc, gadd_neg, gadd_O. reflexivity.
Qed.
(** from the two byte strings the private key is found *)
Example C102_example : ex_receive (PkEC 0 Prop_ECDSA.ex_pub) [104; 105] (ex_buf 2) = Val true /\ ex_receive (PkEC 0 Prop_ECDSA.ex_pub) [104] (ex_buf 1) = Val true /\
  only (c_N P256) (c_Gx P256 * (c_Gx P256 + 1 - (c_Gx P256 + 2))) ((c_Gx P256 + 2) * 1 - (c_Gx P256 + 1) * 2) 1.
Proof.
  pose proof (ex_accepted [104; 105] 2 ex_hi eq_refl ltac:(discriminate) eq_refl ltac:(lia)) as V. pose proof (ex_accepted [104] 1 ex_h eq_refl ltac:(discriminate) eq_refl ltac:(lia)) as V'.
  split; [exact V|]. split; [exact V'|]. destruct (ex_bytes 2 ltac:(lia)) as (OB & LB & PB). destruct (ex_bytes 1 ltac:(lia)) as (OB' & LB' & PB').
  destruct (C102_received wP256 (or_introl eq_refl) ex_len ex_len_octets _ _ _ 1 Prop_ECDSA.ex_pub 0 0 [104; 105] [104] _ _ 5 5 _ _ _ ex_pair_1 eq_refl ex_hi OB eq_refl LB ex_h OB' eq_refl LB' PB PB' ltac:(discriminate) V V') as [L|[L|[L _]]].
  - exact L.
  - exfalso. destruct L as [_ L]. specialize (L 1 ltac:(split; [discriminate|reflexivity])). apply proj2 in L. specialize (L eq_refl). vm_compute in L. discriminate L.
  - exfalso. vm_compute in L. discriminate L.
Qed.
(** the same with compact signatures *)
Section ExK.
Import CurveK Spec_Btcec.
Notation rsm := (Prop_Btcec.ref_sm kS256). Notation rsbm := (Prop_Btcec.ref_sbm kS256). Notation radd := (Prop_Btcec.ref_add kS256).
Notation ex_receive_k c := (BtcecWhole.receive c rsm rsbm radd ex_len (fun _ _ _ => false) (fun _ _ _ => false)).
Notation ex_v n := (27 :: to_be 32 (c_Gx S256) ++ to_be 32 (c_Gx S256 + n)).
Lemma ex_key_1 : Prop_SubstK.key_of (gmul 1 (eG (e := kE kS256))) Prop_BtcecWhole.ex_pub.
Proof. rewrite gmul_1. exact Prop_SubstK.ex_key_of. Qed.
Lemma ex_comp : forall n, 0 <= n < 256 -> octets (5 :: ex_v n) /\ compact (ex_v n) 27 (c_Gx S256) (c_Gx S256 + n).
Proof.
  intros n Hn. assert (B : 0 <= c_Gx S256 < 2 ^ 256 - 256) by (split; [discriminate|reflexivity]).
  split; [constructor; [lia|]; constructor; [lia|]; apply Forall_app; split; apply to_be_wf|].
  exists (to_be 32 (c_Gx S256)), (to_be 32 (c_Gx S256 + n)). split; [reflexivity|]. split; apply Prop_Btcec.encodes32; lia.
Qed.
Lemma ex_accepted_k : forall c msg n, msg <> [] -> digest_int 256 (ex_len 5 msg) = n -> 0 <= n < 256 -> ex_receive_k c (PkEC 0 Prop_BtcecWhole.ex_pub) msg (5 :: ex_v n) = Val true.
Proof.
  intros c msg n NE D Hn. destruct (ex_comp n Hn) as [OB C]. assert (B : 1 <= c_Gx S256 < c_N S256 - 256) by (split; [discriminate|reflexivity]).
  apply (Prop_SubstK.compact_iff c rsm rsbm radd (Prop_Btcec.ref_sm_ok kS256) (Prop_Btcec.ref_sbm_ok kS256) (Prop_Btcec.ref_add_ok kS256) ex_len ex_len_octets
    (fun _ _ _ => false) (fun _ _ _ => false) (eG (e := kE kS256)) 0 Prop_BtcecWhole.ex_pub msg 5 (ex_v n) (k_G_nz kS256) Prop_SubstK.ex_key_of OB).
  { cbn [length]. rewrite app_length, !to_be_length. reflexivity. }
  split; [exact NE|]. split; [lia|]. exists 27, 0, (c_Gx S256), (c_Gx S256 + n). split; [exact C|]. split; [split; [lia|left; reflexivity]|].
  split; [unfold Prop_Btcec.in_range; destruct c; [change (c_N kS256) with (c_N S256); lia|vm_compute; discriminate]|].
  rewrite D. apply (Prop_Btcec.one_one kS256); [reflexivity|split; [discriminate|reflexivity]|split; [discriminate|reflexivity]|reflexivity|reflexivity].
Qed.
Example C102_example_compact : forall c, ex_receive_k c (PkEC 0 Prop_BtcecWhole.ex_pub) [104; 105] (5 :: ex_v 2) = Val true /\ ex_receive_k c (PkEC 0 Prop_BtcecWhole.ex_pub) [104] (5 :: ex_v 1) = Val true /\
  only (c_N S256) (c_Gx S256 * (c_Gx S256 + 1 - (c_Gx S256 + 2))) ((c_Gx S256 + 2) * 1 - (c_Gx S256 + 1) * 2) 1.
Proof.
  intros c. pose proof (ex_accepted_k c [104; 105] 2 ltac:(discriminate) eq_refl ltac:(lia)) as V. pose proof (ex_accepted_k c [104] 1 ltac:(discriminate) eq_refl ltac:(lia)) as V'.
  split; [exact V|]. split; [exact V'|]. destruct (ex_comp 2 ltac:(lia)) as [OB C]. destruct (ex_comp 1 ltac:(lia)) as [OB' C'].
  destruct (C102_compact c rsm rsbm radd (Prop_Btcec.ref_sm_ok kS256) (Prop_Btcec.ref_sbm_ok kS256) (Prop_Btcec.ref_add_ok kS256) ex_len ex_len_octets (fun _ _ _ => false) (fun _ _ _ => false)
    1 Prop_BtcecWhole.ex_pub 0 0 [104; 105] [104] 5 5 _ _ _ _ _ _ ltac:(split; [discriminate|reflexivity]) ex_key_1 OB OB' C C' V V') as [L|[_ L]]; [exact L|].
  exfalso. vm_compute in L. discriminate L.
Qed.
End ExK.
