(** * Prop_SubstK: property C101, what the bytes of a signature with a secp256k1 key say about the signer *)
From Coq Require Import ZArith Znumtheory String List Bool Lia.
From Verif Require Import Base BaseFacts Curves ECKey Keypair Spec_EC Spec_Keys Spec_Group Spec_SM2 NumTheory CurveZ CurveK Spec_ECDSA Spec_Gen Signature Spec_Sig
  Spec_Btcec Spec_EthSig.
From Verif Require Prop_Keys BtcecFacts Prop_SigWhole Prop_Btcec BtcecWhole Prop_BtcecWhole Prop_EthSig.
Import ListNotations.
Open Scope Z_scope.

Notation E := (kE kS256).
Notation N := (c_N S256).
Notation G := (eG (e := kE kS256)).
Notation point := (pt (eg (kE kS256))).

Lemma N_pos : 1 < N. Proof. reflexivity. Qed.
Lemma once : forall r c (P : point), (c * r) mod N = 1 -> gmul r (gmul c P) = P.
Proof.
  intros r c P I. rewrite <- gmul_mul, Z.mul_comm. rewrite <- (gmul_1 _ P) at 2. pose proof N_pos. apply (gmul_cong _ N); [lia|exact (k_killed kS256 P)|].
  rewrite I, Z.mod_1_l by lia. reflexivity.
Qed.
(** both keys have the same r Q + e G, or one is minus the other *)
Lemma shift_eq : forall (Q : point) e e' r c, (c * r) mod N = 1 ->
  gadd (gmul r (gadd Q (gmul ((e - e') * c) G))) (gmul e' G) = gadd (gmul r Q) (gmul e G).
Proof.
  intros Q e e' r c I. rewrite gmul_gadd, (gmul_mul _ (e - e') c), (gmul_comm _ r (e - e')), (once r c G I), <- gadd_assoc, <- gmul_add. do 2 f_equal. lia.
Qed.
Lemma mirror_eq : forall (Q : point) e e' r c, (c * r) mod N = 1 ->
  gadd (gmul r (gneg (gadd Q (gmul ((e + e') * c) G)))) (gmul e' G) = gneg (gadd (gmul r Q) (gmul e G)).
Proof.
  intros Q e e' r c I. rewrite gmul_gneg, gmul_gadd, (gmul_mul _ (e + e') c), (gmul_comm _ r (e + e')), (once r c G I), !gneg_add, <- !gmul_opp, <- gadd_assoc, <- gmul_add.
  do 2 f_equal. lia.
Qed.

(** ** Compact signatures: for each message exactly one key *)
Section Compact.
Variable checked : bool.
Variable sm : curve -> Z * Z -> bytes -> Z * Z.
Variable sbm : curve -> bytes -> Z * Z.
Variable add : curve -> Z * Z -> Z * Z -> Z * Z.
Hypothesis sm_ok : forall (P : point) k, P <> gO -> octets k -> sm S256 (ecoords P) k = ecoords (gmul (value k 0) P).
Hypothesis sbm_ok : forall k, octets k -> sbm S256 k = ecoords (gmul (value k 0) G).
Hypothesis add_ok : forall P Q : point, add S256 (ecoords P) (ecoords Q) = ecoords (gadd P Q).
Variable H : Z -> bytes -> bytes.
Hypothesis H_octets : forall sch m, octets (H sch m).
Variable edVerify ethVerify : bytes -> bytes -> bytes -> bool.
Notation receive := (BtcecWhole.receive checked sm sbm add H edVerify ethVerify).
Notation e_of sch msg := (digest_int 256 (H sch msg)).
(** [k] is the public key Q *)
Definition key_of (Q : point) (k : ecpub) : Prop := pk_curve k = S256 /\ (pk_X k, pk_Y k) = ecoords Q.

(** a signature of 65 bytes behind the byte of the scheme *)
Lemma compact_iff : forall (Q : point) alg k msg sch v, Q <> gO -> key_of Q k -> octets (sch :: v) -> length v = 65%nat ->
  (receive (PkEC alg k) msg (sch :: v) = Val true <->
   msg <> [] /\ 0 <= sch <= 8 /\ exists h it r s, compact v h r s /\ header h it /\ Prop_Btcec.in_range kS256 checked r s /\ recovers E (e_of sch msg) it r s Q).
Proof.
  intros Q alg k msg sch v NQ (Hc & HK) Ob L.
  rewrite (Prop_BtcecWhole.C83_receive_exact checked sm sbm add sm_ok sbm_ok add_ok H H_octets edVerify ethVerify Q alg k msg (sch :: v) Hc (eq_sym HK) NQ Ob).
  apply and_iff_compat_l. split.
  - intros B. remember (sch :: v) as buf eqn:Eb. destruct B as [rb sb L1 L2 A|sch' rb sb S L' A|sch' v' h it r s S C HD IR RE].
    + exfalso. apply (f_equal (@length Z)) in Eb. rewrite app_length in Eb. cbn [length] in Eb. lia.
    + exfalso. apply (f_equal (@length Z)) in Eb. cbn [length] in Eb. rewrite app_length in Eb. lia.
    + injection Eb as -> ->. split; [exact S|]. exists h, it, r, s. auto.
  - intros (S & h & it & r & s & C & HD & IR & RE). exact (Prop_BtcecWhole.kb_compact checked H Q msg sch v h it r s S C HD IR RE).
Qed.

Theorem C101_compact : forall (Q : point) alg k msg sch v h r s, Q <> gO -> key_of Q k -> octets (sch :: v) -> compact v h r s ->
  receive (PkEC alg k) msg (sch :: v) = Val true ->
  exists c, (c * r) mod N = 1 /\ forall msg' (Q' : point) alg' k', msg' <> [] -> Q' <> gO -> key_of Q' k' ->
    (receive (PkEC alg' k') msg' (sch :: v) = Val true <-> Q' = gadd Q (gmul ((e_of sch msg - e_of sch msg') * c) G)).
Proof.
  intros Q alg k msg sch v h r s NQ HK Ob C R.
  assert (L : length v = 65%nat) by (destruct C as (rb & sb & -> & (L1 & _) & (L2 & _)); cbn [length]; rewrite app_length; lia).
  apply (compact_iff Q alg k msg sch v NQ HK Ob L) in R. destruct R as (_ & S & h0 & it & r0 & s0 & C0 & HD & IR & RE).
  destruct (Prop_Btcec.compact_inj _ _ _ _ _ _ _ C0 C) as (-> & -> & ->).
  assert (NZ : r mod N <> 0) by (exact (proj2 (proj1 (Prop_Btcec.in_range_adm kS256 Prop_Btcec.s256_bits checked sm sbm add sm_ok sbm_ok add_ok r s) IR))).
  destruct (BtcecFacts.inverse_ok kS256 r NZ) as (c & _ & I). exists c. split; [exact I|].
  intros msg' Q' alg' k' NE NQ' HK'. rewrite (compact_iff Q' alg' k' msg' sch v NQ' HK' Ob L).
  assert (RE' : recovers E (e_of sch msg') it r s (gadd Q (gmul ((e_of sch msg - e_of sch msg') * c) G))).
  { destruct RE as (R & NR & EQ). exists R. split; [exact NR|]. rewrite (shift_eq Q (e_of sch msg) (e_of sch msg') r c I). exact EQ. }
  split.
  - intros (_ & _ & h1 & it1 & r1 & s1 & C1 & HD1 & _ & RE1). destruct (Prop_Btcec.compact_inj _ _ _ _ _ _ _ C1 C) as (-> & -> & ->).
    assert (it1 = it) as -> by (rewrite <- (proj2 (Prop_Btcec.header_fun _ _ HD1)); exact (proj2 (Prop_Btcec.header_fun _ _ HD))).
    exact (BtcecFacts.recovers_unique kS256 _ _ _ _ _ _ NZ RE1 RE').
  - intros ->. split; [exact NE|]. split; [exact S|]. exists h, it, r, s. auto.
Qed.
(** so the signer is determined by the message and the bytes *)
Theorem C101_compact_signer : forall (Q Q' : point) alg alg' k k' msg sch v, Q <> gO -> Q' <> gO -> key_of Q k -> key_of Q' k' -> octets (sch :: v) -> length v = 65%nat ->
  receive (PkEC alg k) msg (sch :: v) = Val true -> receive (PkEC alg' k') msg (sch :: v) = Val true -> k = k'.
Proof.
  intros Q Q' alg alg' k k' msg sch v NQ NQ' HK HK' Ob L R R'. pose proof R as R0. apply (compact_iff Q alg k msg sch v NQ HK Ob L) in R0. destruct R0 as (NE & _ & h & it & r & s & C & _).
  destruct (C101_compact Q alg k msg sch v h r s NQ HK Ob C R) as (c & _ & F). apply (F msg Q' alg' k' NE NQ' HK') in R'.
  rewrite Z.sub_diag, Z.mul_0_l in R'. assert (R2 : Q' = Q) by (etransitivity; [exact R'|exact (gadd_O _ Q)]). clear R'. subst Q'.
  destruct HK as [K1 K2], HK' as [K1' K2']. rewrite <- K2' in K2. destruct k, k'. cbn in *. congruence.
Qed.
End Compact.
Print Assumptions C101_compact.
Print Assumptions C101_compact_signer.

(** ** Ethereum signatures: for each message two keys *)
Section Ethereum.
Variable sm : curve -> Z * Z -> bytes -> Z * Z.
Variable sbm : curve -> bytes -> Z * Z.
Variable add : curve -> Z * Z -> Z * Z -> Z * Z.
Hypothesis sm_ok : forall (P : point) k, P <> gO -> octets k -> sm S256 (ecoords P) k = ecoords (gmul (value k 0) P).
Hypothesis sbm_ok : forall k, octets k -> sbm S256 k = ecoords (gmul (value k 0) G).
Hypothesis add_ok : forall P Q : point, add S256 (ecoords P) (ecoords Q) = ecoords (gadd P Q).
Variable ecmult : Z * Z -> Z -> Z -> Z * Z.
Hypothesis ecmult_ok : forall (Q : point) a b, Q <> gO -> 0 <= a < N -> 0 <= b < N -> ecmult (ecoords Q) a b = ecoords (gadd (gmul a Q) (gmul b G)).
Variable H : Z -> bytes -> bytes.
Hypothesis H_octets : forall sch m, octets (H sch m).
Hypothesis H_11 : forall m, length (H 11 m) = 32%nat.
Variable ev : ecpub -> bytes -> Z -> Z -> bool.
Variable kr : bytes -> bytes -> go (res (Z * Z)).
Variable edV : bytes -> bytes -> bytes -> bool.
Variable sv : ecpub -> bytes -> bytes -> Z -> Z -> bool.
Notation receive := (Prop_EthSig.receive sm sbm add ecmult H ev kr edV sv).
(** the number that is signed: a message of 32 bytes is its own digest *)
Definition number (msg : bytes) : Z := value (if (length msg =? 32)%nat then msg else H 11 msg) 0.

Lemma accepts_half : forall (Q Q' : point) e e' r s, (gadd (gmul r Q') (gmul e' G) = gadd (gmul r Q) (gmul e G) \/ gadd (gmul r Q') (gmul e' G) = gneg (gadd (gmul r Q) (gmul e G))) ->
  eth_accepts E Q e r s -> eth_accepts E Q' e' r s.
Proof.
  intros Q Q' e e' r s D (A & LO). split; [|exact LO]. pose proof A as (R1 & R2 & _). change (eN E) with N in R1, R2.
  apply (Prop_Btcec.accepts_point kS256 Q e r s R1 R2) in A. destruct A as (R & NR & X & EQ). apply (Prop_Btcec.accepts_point kS256 Q' e' r s R1 R2).
  destruct D as [D | D].
  - exists R. split; [exact NR|]. split; [exact X|]. rewrite <- EQ. exact D.
  - exists (gneg R). split; [intros C; apply NR; rewrite <- (gneg_neg _ R), C; apply gneg_O|]. split.
    + rewrite <- X. f_equal. change (fst (kco kS256 (gneg R)) = fst (kco kS256 R)). exact (f_equal fst (kco_neg kS256 R NR)).
    + etransitivity; [exact D|]. change (gneg (gadd (gmul r Q) (gmul e G)) = gmul s (gneg R)). rewrite gmul_gneg. f_equal. exact EQ.
Qed.

Theorem C101_ethereum : forall cgo (Q : point) k msg rb sb rest, pk_curve k = EthS256 -> (pk_X k, pk_Y k) = ecoords Q -> octets msg -> octets (11 :: (rb ++ sb) ++ rest) ->
  length rb = 32%nat -> length sb = 32%nat -> receive cgo (PkEth k) msg (11 :: (rb ++ sb) ++ rest) = Val true ->
  exists c, (c * value rb 0) mod N = 1 /\ forall msg', octets msg' -> msg' <> [] ->
    let Q1 := gadd Q (gmul ((number msg - number msg') * c) G) in
    let Q2 := gneg (gadd Q (gmul ((number msg + number msg') * c) G)) in
    Q1 <> Q2 /\
    forall cgo' (Q' : point) k', Q' = Q1 \/ Q' = Q2 -> Q' <> gO -> (pk_X k', pk_Y k') = ecoords Q' -> receive cgo' (PkEth k') msg' (11 :: (rb ++ sb) ++ rest) = Val true.
Proof.
  intros cgo Q k msg rb sb rest Hc HK Om Ob L1 L2 R.
  assert (RNG : forall (P : point) k0, (pk_X k0, pk_Y k0) = ecoords P -> 0 <= pk_X k0 /\ 0 <= pk_Y k0).
  { intros P k0 Q0. pose proof (kco_range kS256 P) as [A B]. change (ecoords (e := E) P) with (kco kS256 P) in Q0. rewrite <- Q0 in A, B. cbn [fst snd] in A, B. lia. }
  destruct (RNG Q k HK) as [X0 Y0].
  apply (Prop_EthSig.C84_receive_exact sm sbm add sm_ok sbm_ok add_ok ecmult ecmult_ok H H_octets H_11 ev kr edV sv cgo k msg _ X0 Y0 Om Ob) in R.
  destruct R as (NE & rs & rest' & P & r & s & B & RS & NP & CP & A). change (value (Prop_EthSig.digest H msg) 0) with (number msg) in A.
  assert (P = Q) as -> by (apply (kco_inj kS256); rewrite HK in CP; exact CP).
  assert (B2 : (rb ++ sb) ++ rest = rs ++ rest') by congruence. pose proof RS as (ra & sa & Qrs & (La & Oa & Va) & (Lb & Obb & Vb)).
  apply Prop_SigWhole.app_inj_len in B2; [|rewrite Qrs, !app_length; lia]. destruct B2 as [B2 B3]. subst rest'. rewrite Qrs in B2. apply Prop_SigWhole.app_inj_len in B2; [|lia]. destruct B2 as [-> ->].
  rewrite Va. pose proof A as ((R1 & R2 & _) & _). change (eN E) with N in R1, R2.
  assert (NZ : r mod N <> 0) by (rewrite Z.mod_small; lia). destruct (BtcecFacts.inverse_ok kS256 r NZ) as (c & _ & I). exists c. split; [exact I|].
  intros msg' Om' NE' Q1 Q2. pose proof (shift_eq Q (number msg) (number msg') r c I) as E1. pose proof (mirror_eq Q (number msg) (number msg') r c I) as E2. fold Q1 in E1. fold Q2 in E2. split.
  - intros C. rewrite <- C, E1 in E2. destruct A as (A & _). apply (Prop_Btcec.accepts_point kS256 Q _ r s R1 R2) in A. destruct A as (T & NT & _ & EQ).
    assert (Z2 : gmul s T = gO).
    { apply (k_no_two kS256). rewrite <- EQ. rewrite E2 at 2. apply gadd_neg. }
    apply (k_gmul_zero kS256 s T NT) in Z2. change (c_N kS256) with N in Z2. rewrite Z.mod_small in Z2 by lia. lia.
  - intros cgo' Q' k' D NQ' HK'. destruct (RNG Q' k' HK') as [X1 Y1].
    apply (Prop_EthSig.C84_receive_exact sm sbm add sm_ok sbm_ok add_ok ecmult ecmult_ok H H_octets H_11 ev kr edV sv cgo' k' msg' _ X1 Y1 Om' Ob).
    split; [exact NE'|]. exists rs, rest, Q', r, s. split; [rewrite Qrs; reflexivity|]. split; [exact RS|]. split; [exact NQ'|]. split; [symmetry; exact HK'|].
    change (value (Prop_EthSig.digest H msg') 0) with (number msg'). apply (accepts_half Q Q' (number msg)); [|exact A]. destruct D as [-> | ->]; [left; exact E1|right; exact E2].
Qed.
(** for every message there is a key *)
Theorem C101_ethereum_every : forall cgo (Q : point) k msg rb sb rest, pk_curve k = EthS256 -> (pk_X k, pk_Y k) = ecoords Q -> octets msg -> octets (11 :: (rb ++ sb) ++ rest) ->
  length rb = 32%nat -> length sb = 32%nat -> receive cgo (PkEth k) msg (11 :: (rb ++ sb) ++ rest) = Val true ->
  forall msg', octets msg' -> msg' <> [] -> exists k', pk_curve k' = EthS256 /\ (exists Q' : point, Q' <> gO /\ (pk_X k', pk_Y k') = ecoords Q') /\
    forall cgo', receive cgo' (PkEth k') msg' (11 :: (rb ++ sb) ++ rest) = Val true.
Proof.
  intros cgo Q k msg rb sb rest Hc HK Om Ob L1 L2 R msg' Om' NE'. destruct (C101_ethereum cgo Q k msg rb sb rest Hc HK Om Ob L1 L2 R) as (c & _ & F).
  destruct (F msg' Om' NE') as [D A]. set (Q1 := gadd _ _) in *. set (Q2 := gneg _) in *.
  assert (X : exists Q' : point, (Q' = Q1 \/ Q' = Q2) /\ Q' <> gO).
  { destruct (kpoint_dec kS256 Q1 gO) as [Z1|Z1]; [|exists Q1; auto]. exists Q2. split; [right; reflexivity|]. intros Z2. apply D. rewrite Z2. exact Z1. }
  destruct X as (Q' & O' & NQ'). exists {| pk_curve := EthS256; pk_X := fst (ecoords Q'); pk_Y := snd (ecoords Q') |}. cbn [pk_curve pk_X pk_Y].
  assert (SP : (fst (ecoords Q'), snd (ecoords Q')) = ecoords Q') by (symmetry; apply surjective_pairing).
  split; [reflexivity|]. split; [exists Q'; split; [exact NQ'|exact SP]|]. intros cgo'. apply (A cgo' Q'); [exact O'|exact NQ'|exact SP].
Qed.
End Ethereum.
Print Assumptions C101_ethereum.
Print Assumptions C101_ethereum_every.

(** ** Examples: the private key 1, the nonce 1, and the length of the message for its digest *)
Definition ex_len (sch : Z) (m : bytes) : bytes := [zlen m mod 256].
Lemma ex_len_octets : forall sch m, octets (ex_len sch m).
Proof. intros. repeat constructor; apply Z.mod_pos_bound; lia. Qed.
Notation rsm := (Prop_Btcec.ref_sm kS256). Notation rsbm := (Prop_Btcec.ref_sbm kS256). Notation radd := (Prop_Btcec.ref_add kS256).
Notation ex_receive c := (BtcecWhole.receive c rsm rsbm radd ex_len (fun _ _ _ => false) (fun _ _ _ => false)).
Notation ex_v := (27 :: to_be 32 (c_Gx S256) ++ to_be 32 (c_Gx S256 + 2)).
Lemma ex_compact : compact ex_v 27 (c_Gx S256) (c_Gx S256 + 2).
Proof. exists (to_be 32 (c_Gx S256)), (to_be 32 (c_Gx S256 + 2)). split; [reflexivity|]. split; apply Prop_Btcec.encodes32; split; discriminate || reflexivity. Qed.
Lemma ex_octets : octets (5 :: ex_v).
Proof. constructor; [lia|]. constructor; [lia|]. apply Forall_app. split; apply to_be_wf. Qed.
Lemma ex_key_of : key_of G Prop_BtcecWhole.ex_pub.
Proof. split; [reflexivity|]. symmetry. exact Prop_Btcec.s256_G_coords. Qed.
Example C101_example_accepted : forall c, ex_receive c (PkEC 0 Prop_BtcecWhole.ex_pub) [104; 105] (5 :: ex_v) = Val true.
Proof.
  intros c. apply (compact_iff c rsm rsbm radd (Prop_Btcec.ref_sm_ok kS256) (Prop_Btcec.ref_sbm_ok kS256) (Prop_Btcec.ref_add_ok kS256) ex_len ex_len_octets
    (fun _ _ _ => false) (fun _ _ _ => false) G 0 Prop_BtcecWhole.ex_pub [104; 105] 5 ex_v (k_G_nz kS256) ex_key_of ex_octets).
  { cbn [length]. rewrite app_length, !to_be_length. reflexivity. }
  split; [discriminate|]. split; [lia|]. exists 27, 0, (c_Gx S256), (c_Gx S256 + 2). split; [exact ex_compact|]. split; [split; [lia|left; reflexivity]|].
  split; [unfold Prop_Btcec.in_range; destruct c; [repeat split; discriminate || reflexivity|vm_compute; discriminate]|].
  change (digest_int 256 (ex_len 5 [104; 105])) with 2. apply (Prop_Btcec.one_one kS256); [reflexivity|split; [discriminate|reflexivity]|split; [discriminate|reflexivity]|reflexivity|reflexivity].
Qed.
(** the same 66 bytes and the message that consists of one zero byte: this key refuses them, and another one takes them *)
Example C101_example_compact : forall c, ex_receive c (PkEC 0 Prop_BtcecWhole.ex_pub) [0] (5 :: ex_v) <> Val true /\
  exists (Q' : point) k', Q' <> gO /\ key_of Q' k' /\ ex_receive c (PkEC 0 k') [0] (5 :: ex_v) = Val true.
Proof.
  intros c. destruct (C101_compact c rsm rsbm radd (Prop_Btcec.ref_sm_ok kS256) (Prop_Btcec.ref_sbm_ok kS256) (Prop_Btcec.ref_add_ok kS256) ex_len ex_len_octets
    (fun _ _ _ => false) (fun _ _ _ => false) G 0 Prop_BtcecWhole.ex_pub [104; 105] 5 ex_v _ _ _ (k_G_nz kS256) ex_key_of ex_octets ex_compact (C101_example_accepted c)) as (v & I & F).
  specialize (F [0]). change (digest_int 256 (ex_len 5 [104; 105]) - digest_int 256 (ex_len 5 [0])) with 1 in F. split.
  - rewrite (F G 0 Prop_BtcecWhole.ex_pub ltac:(discriminate) (k_G_nz kS256) ex_key_of). intros C.
    assert (Z0 : gmul (1 * v) G = gO) by (apply (gcancel_l _ G); rewrite gadd_O; symmetry; exact C).
    apply (k_gmul_zero kS256 _ _ (k_G_nz kS256)) in Z0. change (c_N kS256) with N in Z0. rewrite Z.mul_1_l in Z0. rewrite <- Z.mul_mod_idemp_l, Z0 in I by discriminate. discriminate I.
  - set (Q' := gadd G (gmul (1 * v) G)) in *. assert (NQ : Q' <> gO).
    { intros C. unfold Q' in C. assert (Z0 : gmul (1 + 1 * v) G = gO) by (rewrite gmul_add, gmul_1; exact C). apply (k_gmul_zero kS256 _ _ (k_G_nz kS256)) in Z0. change (c_N kS256) with N in Z0.
      assert (Z1 : ((1 + 1 * v) * c_Gx S256) mod N = 0) by (rewrite <- Z.mul_mod_idemp_l, Z0 by discriminate; reflexivity).
      replace ((1 + 1 * v) * c_Gx S256) with (v * c_Gx S256 + c_Gx S256) in Z1 by ring. rewrite <- Z.add_mod_idemp_l, I in Z1 by discriminate. discriminate Z1. }
    set (k' := {| pk_curve := S256; pk_X := fst (ecoords Q'); pk_Y := snd (ecoords Q') |}).
    assert (K : key_of Q' k') by (split; [reflexivity|]; symmetry; apply surjective_pairing).
    exists Q', k'. split; [exact NQ|]. split; [exact K|]. apply (F Q' 0 k' ltac:(discriminate) NQ K). reflexivity.
Qed.
(** an Ethereum signature of 32 bytes 1, and another message *)
Example C101_example_ethereum : exists k' (Q' : point), Q' <> gO /\ (pk_X k', pk_Y k') = ecoords Q' /\
  forall cgo, Prop_EthSig.receive rsm rsbm radd Prop_EthSig.ex_mult Prop_BtcecWhole.ex_H (fun _ _ _ _ => false) (fun _ _ => Val (Err ""%string)) (fun _ _ _ => false) (fun _ _ _ _ _ => false)
    cgo (PkEth k') (repeat 2 32) (11 :: Prop_EthSig.ex_rs ++ [0]) = Val true.
Proof.
  assert (CO : (pk_X Prop_EthSig.ex_key, pk_Y Prop_EthSig.ex_key) = ecoords (e := kE kS256) G) by (symmetry; exact Prop_Btcec.s256_G_coords).
  assert (OB : octets (11 :: Prop_EthSig.ex_rs ++ [0])) by (constructor; [lia|]; apply Forall_app; split; [apply Forall_app; split; apply to_be_wf|constructor; [lia|constructor]]).
  destruct (C101_ethereum_every rsm rsbm radd (Prop_Btcec.ref_sm_ok kS256) (Prop_EthSig.ex_sbm_ok S256) (Prop_Btcec.ref_add_ok kS256) Prop_EthSig.ex_mult Prop_EthSig.ex_mult_ok
    Prop_BtcecWhole.ex_H (fun _ _ => Prop_Btcec.ex_dg_octets) (fun _ => eq_refl) (fun _ _ _ _ => false) (fun _ _ => Val (Err ""%string)) (fun _ _ _ => false) (fun _ _ _ _ _ => false)
    true G Prop_EthSig.ex_key Prop_Btcec.ex_dg (to_be 32 (c_Gx S256)) (to_be 32 (c_Gx S256 + value Prop_Btcec.ex_dg 0)) [0] eq_refl CO Prop_Btcec.ex_dg_octets OB
    (to_be_length _ _) (to_be_length _ _) (proj1 (Prop_EthSig.C84_example_other true 0 ltac:(lia))) (repeat 2 32)) as (k' & _ & (Q' & NQ & CQ) & V).
  - repeat constructor; lia.
  - discriminate.
  - exists k', Q'. split; [exact NQ|]. split; [exact CQ|exact V].
Qed.
