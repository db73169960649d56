(** * Prop_Subst: property C99, an ECDSA signature as bytes says little about who made it and for which message:
    other public keys accept the same bytes, for the same message and for every other one
    (/repo/signature/signature.go:172-230, 292-348 with crypto/ecdsa, on P-256 and the SM2 curve; SigWhole.v).
    The scheme SM3withSM2 hashes the public key with the message and is not concerned. *)
From Coq Require Import ZArith Znumtheory Zpow_facts String List Bool Lia.
From Verif Require Import Base BaseFacts Curves ECKey Keypair SM3 Spec_EC ECFacts ECFacts2 Spec_Keys KeyFacts Prop_Keys Spec_Group Spec_SM2 SM2Sig Prop_SM2
  NumTheory LucasFacts CurveZ CurveRoot Elliptic EllipticFacts CurveWhole Prop_Whole SM2Generic Spec_ECDSA Spec_Gen Signature Spec_Sig SigFacts Prop_Sig SigWhole Prop_SigWhole.
From Verif Require ECDSA Prop_ECDSA.
Import ListNotations.
Open Scope Z_scope.

(** the bytes are the pair r, s of the scheme sch: 64 bytes without scheme, or the scheme and two numbers of the same length *)
Inductive pair_bytes : bytes -> Z -> Z -> Z -> Prop :=
| pb_short : forall rb sb, length rb = 32%nat -> length sb = 32%nat -> pair_bytes (rb ++ sb) 1 (value rb 0) (value sb 0)
| pb_long : forall sch rb sb, 0 <= sch <= 8 -> length rb = length sb -> pair_bytes (sch :: rb ++ sb) sch (value rb 0) (value sb 0).

Section W.
Variable W : wcurve.
Hypothesis HW : prime_curve W.
Notation N := (c_N W).
Notation point := (pt (wgroup W)).
Notation G := (w_G W : pt (wgroup W)).
Variable H : Z -> bytes -> bytes.
Hypothesis H_octets : forall sch m, octets (H sch m).
Variable k1RecoverCompact : bytes -> bytes -> go (res (Z * Z)).
Variable edVerify ethVerify : bytes -> bytes -> bytes -> bool.
Notation receive := (SigWhole.receive H k1RecoverCompact edVerify ethVerify).
Notation e_of sch msg := (digest_int 256 (H sch msg)).

(** [k] is the public key P, as the code has it *)
Definition key_of (P : point) (k : ecpub) : Prop := pk_curve k = W /\ (pk_X k, pk_Y k) = wco W P.
Lemma key_of_facts : forall P k, P <> gO -> key_of P k -> wat W P (pk_X k) (pk_Y k) /\ coords32 k.
Proof.
  intros P k NP (Hc & HK). assert (X : pk_X k = fst (wco W P)) by exact (f_equal fst HK). assert (Y : pk_Y k = snd (wco W P)) by exact (f_equal snd HK).
  pose proof (wco_wat W _ NP) as A. pose proof (wco_range W P) as R. rewrite <- X, <- Y in A, R. split; [exact A|].
  assert (PW : c_P W < 256 ^ 32) by (destruct HW as [E|E]; rewrite E; reflexivity). unfold coords32. lia.
Qed.
(** it can be stored and sent *)
Theorem C99_storable : forall P k alg, P <> gO -> key_of P k -> alg = 0 \/ alg = 1 -> valid_pub (PkEC alg k) /\
  forall rng, exists e, SerializePublicKey (PkEC alg k) = Val e /\ DeserializePublicKey rng e = Val (Ok (PkEC alg k)).
Proof.
  intros P k alg NP KO Ha. destruct (key_of_facts P k NP KO) as [A _]. destruct KO as (Hc & HK). destruct (prime_curve_sup W HW) as [a SU].
  pose proof (wco_range W P) as R. rewrite <- HK in R. cbn [fst snd] in R.
  assert (VP : valid_pub (PkEC alg k)).
  { destruct k as [kc X Y]. cbn [pk_curve pk_X pk_Y] in *. apply (vp_ec alg kc a); [lia|congruence|].
    split; [rewrite Hc; apply R|]. split; [rewrite Hc; apply R|].
    assert (ON : IsOnCurve W (X, Y) = true) by (apply w_on_iff; eexists; exact A). apply w_on_eq in ON.
    assert (AM : (c_P W | a + 3)).
    { destruct HW as [EW|EW]; rewrite EW in SU |- *; inversion SU; subst; [exists 0|exists 1]; reflexivity. }
    assert (P0 : c_P W <> 0) by lia.
    unfold curve_eq. rewrite Hc. apply mod_of_divide; [exact P0|]. destruct ON as [q ON]. destruct AM as [q' AM]. exists (q - q' * X).
    replace a with (q' * c_P W - 3) by lia. rewrite (Z.mul_sub_distr_r q), <- ON. ring. }
  split; [exact VP|]. intros rng. apply C15_public_key_round_trip; [exact VP|]. intros Q. exfalso. rewrite Hc in Q. destruct HW as [E|E]; rewrite E in Q; discriminate Q.
Qed.

(** ** What the receiver tests *)
Theorem C99_pair : forall P alg k msg buf sch r s, P <> gO -> key_of P k -> octets msg -> octets buf -> zlen msg < 2 ^ 60 -> zlen buf < 2 ^ 60 ->
  pair_bytes buf sch r s -> (receive (PkEC alg k) msg buf = Val true <-> msg <> [] /\ ecdsa_accepts (wE W) P (e_of sch msg) r s).
Proof.
  intros P alg k msg buf sch r s NP KO Om Ob Lm Lb PB. destruct (key_of_facts P k NP KO) as [A C32]. destruct KO as (Hc & _).
  rewrite (proj2 (C79_receive_exact W HW H H_octets k1RecoverCompact edVerify ethVerify P alg k msg buf Hc A C32 Om Ob Lm Lb)). apply and_iff_compat_l. clear Ob Lb Om Lm. split.
  - intros V. destruct PB as [rb sb L1 L2|sch rb sb Hs L].
    + assert (L64 : length (rb ++ sb) = 64%nat) by (rewrite app_length, L1, L2; reflexivity).
      remember (rb ++ sb) as buf eqn:Q. destruct V as [a b L1' L2' V'|t a b Ht L V'|t v Ht L V'|id a b Hk NI L L63 V'].
      * destruct (app_inj_len a rb b sb ltac:(congruence) Q) as [<- <-]. exact V'.
      * exfalso. cbn [length] in L64. rewrite app_length in L64. lia.
      * exfalso. cbn [length] in L64. lia.
      * exfalso. cbn [length] in L64. lia.
    + remember (sch :: rb ++ sb) as buf eqn:Q. destruct V as [a b L1 L2 V'|t a b Ht L' V'|t v Ht L' V'|id a b Hk NI L' L63 V'].
      * exfalso. assert (LE : length (a ++ b) = 64%nat) by (rewrite app_length, L1, L2; reflexivity). rewrite Q in LE. cbn in LE. rewrite app_length, L in LE. lia.
      * assert (Q1 : a ++ b = rb ++ sb) by (injection Q as _ Q; exact Q). assert (T : t = sch) by (injection Q as Q _; exact Q). subst t.
        assert (LA : length a = length rb) by (assert (length (a ++ b) = length (rb ++ sb)) by congruence; rewrite !app_length in *; lia).
        destruct (app_inj_len a rb b sb LA Q1) as [<- <-]. exact V'.
      * exfalso. assert (LE : length v = length (rb ++ sb)) by (injection Q as _ ->; reflexivity). rewrite app_length, L in LE. lia.
      * exfalso. injection Q as Q _. lia.
  - intros AC. destruct PB as [rb sb L1 L2|sch rb sb Hs L]; [apply vb_short|apply vb_dsa]; assumption.
Qed.

(** ** Arithmetic in the group *)
Lemma N_pos : 1 < N. Proof. pose proof (prime_ge_2 _ (w_n W)). lia. Qed.
Lemma inverse_once : forall r v (P : point), (v * r) mod N = 1 -> gmul r (gmul v P) = P.
Proof.
  intros r v P I. rewrite <- gmul_mul, Z.mul_comm. rewrite <- (gmul_1 _ P) at 2. pose proof N_pos. apply (gmul_cong _ N); [lia|apply w_killed|].
  rewrite I, Z.mod_1_l by lia. reflexivity.
Qed.
Lemma cancel_mul : forall r v (P Q : point), (v * r) mod N = 1 -> gmul r P = gmul r Q -> P = Q.
Proof. intros r v P Q I E. rewrite <- (inverse_once r v P I), <- (inverse_once r v Q I). rewrite (gmul_comm _ r v P), (gmul_comm _ r v Q), E. reflexivity. Qed.
Lemma has_inverse : forall r, 1 <= r <= N - 1 -> exists v, (v * r) mod N = 1.
Proof. intros r R. exists (ECDSA.fermat W r). apply Prop_ECDSA.fermat_small. exact R. Qed.
Lemma opposite_x : forall R : point, fst (wco W (gneg R)) = fst (wco W R).
Proof. exact (Prop_ECDSA.neg_x W). Qed.

(** the key P + (e - e') / r G takes the signature of P for e as one for e' *)
Lemma shift_accepts : forall (P : point) e e' r s v, (v * r) mod N = 1 ->
  ecdsa_accepts (wE W) P e r s -> ecdsa_accepts (wE W) (gadd P (gmul ((e - e') * v) G)) e' r s.
Proof.
  intros P e e' r s v I A. pose proof A as (R1 & R2 & _). change (eN (wE W)) with N in R1, R2.
  apply (Prop_ECDSA.C78_recovery W P e r s R1 R2) in A. destruct A as (Q & NQ & X & EQ).
  apply (Prop_ECDSA.C78_recovery W _ e' r s R1 R2). exists Q. split; [exact NQ|]. split; [exact X|].
  change (gmul r (gadd P (gmul ((e - e') * v) G)) = gadd (gmul s Q) (gneg (gmul e' G))).
  rewrite gmul_gadd, gmul_mul, (gmul_comm _ r), (inverse_once r v G I), gmul_sub.
  change (gmul r P = gadd (gmul s Q) (gneg (gmul e G))) in EQ. rewrite EQ, <- gadd_assoc, (gadd_assoc _ (gneg _)), (gadd_comm _ (gneg _)), gadd_neg, gO_add. reflexivity.
Qed.
(** the key - P - 2 e / r G takes it for the same number *)
Lemma mirror_accepts : forall (P : point) e r s v, (v * r) mod N = 1 -> ecdsa_accepts (wE W) P e r s ->
  ecdsa_accepts (wE W) (gneg (gadd P (gmul (2 * e * v) G))) e r s /\ gneg (gadd P (gmul (2 * e * v) G)) <> P.
Proof.
  intros P e r s v I A. pose proof A as (R1 & R2 & _). change (eN (wE W)) with N in R1, R2.
  apply (Prop_ECDSA.C78_recovery W P e r s R1 R2) in A. destruct A as (Q & NQ & X & EQ). change (gmul r P = gadd (gmul s Q) (gneg (gmul e G))) in EQ.
  assert (K : gmul r (gneg (gadd P (gmul (2 * e * v) G))) = gadd (gmul s (gneg Q)) (gneg (gmul e G))).
  { rewrite gmul_gneg, gmul_gadd, EQ, gmul_mul, (gmul_comm _ r), (inverse_once r v G I). replace (2 * e) with (e + e) by lia. rewrite gmul_add, gmul_gneg.
    rewrite <- gadd_assoc, (gadd_assoc _ (gneg _)), (gadd_comm _ (gneg (gmul e G))), gadd_neg, gO_add, gneg_add. reflexivity. }
  split.
  - apply (Prop_ECDSA.C78_recovery W _ e r s R1 R2). exists (gneg Q). split.
    + intros C. apply NQ. rewrite <- (gneg_neg _ Q), C. apply gneg_O.
    + split; [|exact K]. rewrite <- X. f_equal. exact (opposite_x Q).
  - intros C. rewrite C, EQ, (gadd_comm _ (gmul s Q)), (gadd_comm _ (gmul s (gneg Q))) in K. apply gcancel_l in K. rewrite gmul_gneg in K.
    assert (Z2 : gadd (gmul s Q) (gmul s Q) = gO) by (rewrite K at 2; apply gadd_neg). apply w_no_two in Z2.
    apply (w_gmul_zero W s Q NQ) in Z2. rewrite Z.mod_small in Z2 by lia. lia.
Qed.

(** ** The same bytes for the same message, with a second key *)
Theorem C99_second_key : forall P alg k msg buf sch r s, P <> gO -> key_of P k -> octets msg -> octets buf -> zlen msg < 2 ^ 60 -> zlen buf < 2 ^ 60 ->
  pair_bytes buf sch r s -> receive (PkEC alg k) msg buf = Val true ->
  exists v, (v * r) mod N = 1 /\ let P' := gneg (gadd P (gmul (2 * e_of sch msg * v) G)) in
    P' <> P /\ (P' <> gO -> forall alg' k', key_of P' k' -> k' <> k /\ receive (PkEC alg' k') msg buf = Val true).
Proof.
  intros P alg k msg buf sch r s NP KO Om Ob Lm Lb PB V. apply (C99_pair P alg k msg buf sch r s NP KO Om Ob Lm Lb PB) in V. destruct V as [NE A].
  pose proof A as (R1 & _). change (eN (wE W)) with N in R1. destruct (has_inverse r R1) as [v I]. exists v. split; [exact I|]. cbv zeta.
  destruct (mirror_accepts P _ r s v I A) as [A' D]. set (P' := gneg _) in *. clearbody P'. split; [exact D|]. intros NP' alg' k' KO'. split.
  - intros ->. apply D. apply (wco_inj W). destruct KO as [_ <-]. destruct KO' as [_ <-]. reflexivity.
  - apply (C99_pair P' alg' k' msg buf sch r s NP' KO' Om Ob Lm Lb PB). split; [exact NE|exact A'].
Qed.
(** ** The same bytes for any other message, with another key *)
Theorem C99_any_message : forall P alg k msg buf sch r s, P <> gO -> key_of P k -> octets msg -> octets buf -> zlen msg < 2 ^ 60 -> zlen buf < 2 ^ 60 ->
  pair_bytes buf sch r s -> receive (PkEC alg k) msg buf = Val true ->
  exists v, (v * r) mod N = 1 /\ forall msg', octets msg' -> zlen msg' < 2 ^ 60 -> msg' <> [] ->
    let P' := gadd P (gmul ((e_of sch msg - e_of sch msg') * v) G) in
    (P' = P <-> e_of sch msg mod N = e_of sch msg' mod N) /\
    (P' <> gO -> forall alg' k', key_of P' k' -> receive (PkEC alg' k') msg' buf = Val true).
Proof.
  intros P alg k msg buf sch r s NP KO Om Ob Lm Lb PB V. apply (C99_pair P alg k msg buf sch r s NP KO Om Ob Lm Lb PB) in V. destruct V as [NE A].
  pose proof A as (R1 & _). change (eN (wE W)) with N in R1. destruct (has_inverse r R1) as [v I]. exists v. split; [exact I|].
  intros msg' Om' Lm' NE'. pose proof (shift_accepts P _ (e_of sch msg') r s v I A) as A'. cbv zeta. split.
  - pose proof N_pos as N1. set (e := e_of sch msg) in *. set (e' := e_of sch msg') in *. clearbody e e'. clear A A'. split.
    + intros C. assert (Z0 : gmul ((e - e') * v) G = gO) by (apply (gcancel_l _ P); rewrite C; symmetry; apply gadd_O).
      apply (w_gmul_zero W _ G (w_G_nz W)) in Z0.
      assert (Z1 : (e - e') mod N = 0).
      { transitivity ((e - e') * v * r mod N); [|rewrite <- Z.mul_mod_idemp_l, Z0 by lia; apply Z.mod_0_l; lia].
        rewrite <- Z.mul_assoc, <- Z.mul_mod_idemp_r, I, Z.mul_1_r by lia. reflexivity. }
      apply Z.mod_divide in Z1; [|lia]. destruct Z1 as [q Q]. replace e with (e' + q * N) by lia. apply Z.mod_add. lia.
    + intros C. assert (Z0 : gmul ((e - e') * v) G = gO); [|rewrite Z0; apply gadd_O].
      apply (w_gmul_zero W _ G (w_G_nz W)). rewrite <- Z.mul_mod_idemp_l, Zminus_mod, C, Z.sub_diag by lia. reflexivity.
  - set (P' := gadd P _) in *. clearbody P'. intros NP' alg' k' KO'. apply (C99_pair P' alg' k' msg' buf sch r s NP' KO' Om' Ob Lm' Lb PB). split; [exact NE'|exact A'].
Qed.
(** whoever knows the private key D of P knows that of the other key: a signer can present the bytes as a signature for
    another message with a key pair of theirs *)
Theorem C99_own_keys : forall D k alg msg buf sch r s, key_pair_of D k -> pk_curve k = W -> octets msg -> octets buf -> zlen msg < 2 ^ 60 -> zlen buf < 2 ^ 60 ->
  pair_bytes buf sch r s -> receive (PkEC alg k) msg buf = Val true ->
  exists v, (v * r) mod N = 1 /\ forall msg', octets msg' -> zlen msg' < 2 ^ 60 -> msg' <> [] ->
    let D' := (D + (e_of sch msg - e_of sch msg') * v) mod N in
    D' <> 0 -> forall alg' k', key_pair_of D' k' -> pk_curve k' = W -> receive (PkEC alg' k') msg' buf = Val true.
Proof.
  assert (KP : forall D k, key_pair_of D k -> pk_curve k = W -> key_of (gmul D G) k /\ gmul D G <> gO).
  { intros D k (_ & HD & HK) Hc. rewrite Hc in HD, HK. split.
    - split; [exact Hc|]. rewrite HK, w_base, be2z_big_bytes by (lia || apply big_bytes_wf). reflexivity.
    - rewrite (w_gmul_zero W D G (w_G_nz W)), Z.mod_small; lia. }
  intros D k alg msg buf sch r s K Hc Om Ob Lm Lb PB V. destruct (KP D k K Hc) as [KO NP].
  destruct (C99_any_message _ alg k msg buf sch r s NP KO Om Ob Lm Lb PB V) as (v & I & F). exists v. split; [exact I|].
  intros msg' Om' Lm' NE'. cbv zeta. intros D0 alg' k' K' Hc'. destruct (KP _ k' K' Hc') as [KO' NP']. destruct (F msg' Om' Lm' NE') as [_ R].
  pose proof N_pos as N1. rewrite gmul_mod in KO', NP' by (lia || apply w_killed). rewrite gmul_add in KO', NP'. exact (R NP' alg' k' KO').
Qed.
End W.
Print Assumptions C99_storable.
Print Assumptions C99_pair.
Print Assumptions C99_second_key.
Print Assumptions C99_any_message.
Print Assumptions C99_own_keys.

(** ** Examples: P-256, the private key 1, the nonce 1, and the length of the message for its digest *)
Definition ex_len (sch : Z) (m : bytes) : bytes := [zlen m mod 256].
Lemma ex_len_octets : forall sch m, octets (ex_len sch m).
Proof. intros. repeat constructor; apply Z.mod_pos_bound; lia. Qed.
Notation ex_receive := (SigWhole.receive ex_len (fun _ _ => Val (Err ""%string)) (fun _ _ _ => false) (fun _ _ _ => false)).
Notation ex_buf := (5 :: to_be 32 (c_Gx P256) ++ to_be 32 (c_Gx P256 + 2)).
Lemma ex_pair : pair_bytes ex_buf 5 (c_Gx P256) (c_Gx P256 + 2).
Proof.
  assert (Q : forall z, 0 <= z < 256 ^ 32 -> value (to_be 32 z) 0 = z) by (intros z Z0; rewrite value_be2z, be2z_to_be; apply Z.mod_small; exact Z0).
  assert (P : pair_bytes ex_buf 5 (value (to_be 32 (c_Gx P256)) 0) (value (to_be 32 (c_Gx P256 + 2)) 0)) by (apply pb_long; [lia|rewrite !to_be_length; reflexivity]).
  rewrite !Q in P by (split; [discriminate|reflexivity]). exact P.
Qed.
Lemma ex_buf_octets : octets ex_buf.
Proof. constructor; [lia|]. apply Forall_app. split; apply to_be_wf. Qed.
Lemma ex_buf_len : zlen ex_buf < 2 ^ 60.
Proof. unfold zlen. cbn [length]. rewrite app_length, !to_be_length. reflexivity. Qed.
Lemma ex_pair_1 : key_pair_of 1 Prop_ECDSA.ex_pub.
Proof. split; [left; reflexivity|]. split; [split; reflexivity|]. exact Prop_ECDSA.ex_key. Qed.
Lemma ex_hi : octets [104; 105]. Proof. repeat constructor; lia. Qed.
Lemma ex_key_of : key_of wP256 (w_G wP256 : pt (wgroup wP256)) Prop_ECDSA.ex_pub.
Proof.
  split; [reflexivity|]. etransitivity; [exact Prop_ECDSA.ex_key|]. change P256 with (wc wP256). rewrite w_base by apply big_bytes_wf.
  change (be2z (big_bytes 1)) with 1. rewrite gmul_1. reflexivity.
Qed.
Example C99_example : ex_receive (PkEC 0 Prop_ECDSA.ex_pub) [104; 105] ex_buf = Val true.
Proof.
  apply (C99_pair wP256 (or_introl eq_refl) ex_len ex_len_octets _ _ _ (w_G wP256) 0 Prop_ECDSA.ex_pub [104; 105] ex_buf 5 _ _ (w_G_nz wP256) ex_key_of
    ex_hi ex_buf_octets eq_refl ex_buf_len ex_pair).
  split; [discriminate|]. apply (Prop_ECDSA.C78_recovery wP256); [split; discriminate..|].
  exists (w_G wP256). split; [exact (w_G_nz wP256)|]. split.
  - change (fst (wco wP256 (w_G wP256)) mod c_N wP256 = c_Gx P256). rewrite <- (proj2 ex_key_of). reflexivity.
  - change (digest_int 256 (ex_len 5 [104; 105])) with 2. change (eG (e := wE wP256)) with (w_G wP256). rewrite gmul_add, <- gadd_assoc, gadd_neg, gadd_O. reflexivity.
Qed.
Lemma inverse_cases : forall c v, (v * c_Gx P256) mod c_N P256 = 1 -> (c_Gx P256 + c) mod c_N P256 <> 0 -> (1 + c * v) mod c_N P256 <> 0.
Proof.
  intros c v I NC C. apply NC. set (n := c_N P256) in *. assert (N0 : n <> 0) by discriminate. set (x := c_Gx P256) in *. clearbody n x.
  apply Z.mod_divide in C; [|exact N0]. destruct C as [q Q].
  assert (E : v * x = n * (v * x / n) + 1) by (rewrite <- I; apply Z.div_mod; exact N0). set (w := v * x / n) in *. clearbody w.
  apply Z.mod_divide; [exact N0|]. exists (q * x - c * w). rewrite Z.mul_sub_distr_r. replace (q * x * n) with (q * n * x) by ring. rewrite <- Q.
  replace ((1 + c * v) * x) with (x + c * (v * x)) by ring. rewrite E. ring.
Qed.
(** a key pair with another private key, and the message that consists of one zero byte *)
Example C99_example_own : exists D' k', D' <> 1 /\ key_pair_of D' k' /\ ex_receive (PkEC 0 k') [0] ex_buf = Val true.
Proof.
  destruct (C99_own_keys wP256 (or_introl eq_refl) ex_len ex_len_octets _ _ _ 1 Prop_ECDSA.ex_pub 0 [104; 105] ex_buf 5 _ _ ex_pair_1 eq_refl
    ex_hi ex_buf_octets eq_refl ex_buf_len ex_pair C99_example) as (v & I & F).
  specialize (F [0] ltac:(repeat constructor; lia) eq_refl ltac:(discriminate)). cbv zeta in F.
  change (digest_int 256 (ex_len 5 [104; 105])) with 2 in F. change (digest_int 256 (ex_len 5 [0])) with 1 in F. change (2 - 1) with 1 in F.
  change (c_N wP256) with (c_N P256) in *. set (D' := (1 + 1 * v) mod c_N P256) in *.
  assert (D0 : D' <> 0) by (apply inverse_cases; [exact I|discriminate]). pose proof (Z.mod_pos_bound (1 + 1 * v) (c_N P256) ltac:(reflexivity)) as R. fold D' in R.
  set (q := ScalarBaseMult P256 (big_bytes D')). set (k' := {| pk_curve := P256; pk_X := fst q; pk_Y := snd q |}).
  assert (K : key_pair_of D' k') by (split; [left; reflexivity|]; split; [change (c_N (pk_curve k')) with (c_N P256); lia|]; symmetry; exact (surjective_pairing q)).
  exists D', k'. split; [|split; [exact K|exact (F D0 0 k' K eq_refl)]].
  intros C. assert (V0 : v mod c_N P256 = 0).
  { replace v with ((1 + 1 * v) - 1) by ring. rewrite Zminus_mod. fold D'. rewrite C. reflexivity. }
  rewrite <- Z.mul_mod_idemp_l, V0 in I by discriminate. discriminate I.
Qed.
(** a second key for the same message *)
Example C99_example_second : exists k', k' <> Prop_ECDSA.ex_pub /\ valid_pub (PkEC 0 k') /\ ex_receive (PkEC 0 k') [104; 105] ex_buf = Val true.
Proof.
  destruct (C99_second_key wP256 (or_introl eq_refl) ex_len ex_len_octets _ _ _ (w_G wP256) 0 Prop_ECDSA.ex_pub [104; 105] ex_buf 5 _ _ (w_G_nz wP256) ex_key_of
    ex_hi ex_buf_octets eq_refl ex_buf_len ex_pair C99_example) as (v & I & F). cbv zeta in F. change (digest_int 256 (ex_len 5 [104; 105])) with 2 in F.
  set (P' := gneg _) in F.
  assert (NO : P' <> gO).
  { intros C. unfold P' in C. apply (f_equal gneg) in C. rewrite gneg_neg, gneg_O in C. rewrite <- (gmul_1 _ (w_G wP256 : pt (wgroup wP256))) in C at 1.
    rewrite <- gmul_add in C. apply (w_gmul_zero wP256 _ _ (w_G_nz wP256)) in C. exact (inverse_cases (2 * 2) v I ltac:(discriminate) C). }
  clearbody P'. destruct F as [_ F]. specialize (F NO 0).
  set (k' := {| pk_curve := P256; pk_X := fst (wco wP256 P'); pk_Y := snd (wco wP256 P') |}).
  assert (K : key_of wP256 P' k') by (split; [reflexivity|]; symmetry; apply surjective_pairing).
  destruct (F k' K) as [NK V]. exists k'. split; [exact NK|]. split; [|exact V].
  apply (C99_storable wP256 (or_introl eq_refl) P' k' 0 NO K (or_introl eq_refl)).
Qed.
