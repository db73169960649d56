(** * Prop_EthSig: property C84, Ethereum signatures from the private key to the bytes received *)
From Coq Require Import ZArith Znumtheory Zpow_facts String List Bool Lia.
From Verif Require Import Base BaseFacts Curves ECKey Keypair Spec_EC ECFacts ECFacts2 Spec_Keys KeyFacts Prop_Keys Spec_Group Spec_SM2
  NumTheory LucasFacts CurveZ CurveK Spec_ECDSA Spec_Gen Signature Spec_Sig SigFacts Prop_Sig Prop_Sig2 Spec_Btcec Spec_EthSig.
From Verif Require Prop_Sig3 Prop_SigWhole Btcec BtcecFacts Prop_Btcec BtcecWhole Prop_BtcecWhole.
From Verif Require Import Eth EthFacts.
Import ListNotations.
Open Scope Z_scope.

Section All.
(** the curve as btcec, the standard library and libsecp256k1 compute it *)
Variable sm : curve -> Z * Z -> bytes -> Z * Z.
Variable sbm : curve -> bytes -> Z * Z.
Variable add : curve -> Z * Z -> Z * Z -> Z * Z.
Hypothesis sm_ok : forall (P : point) k, P <> gO -> octets k -> sm S256 (ecoords P) k = ecoords (gmul (value k 0) P).
Hypothesis sbm_ok : forall k, octets k -> sbm S256 k = ecoords (gmul (value k 0) G).
Hypothesis add_ok : forall P Q : point, add S256 (ecoords P) (ecoords Q) = ecoords (gadd P Q).
Variable ecmult_gen : Z -> Z * Z.
Hypothesis ecmult_gen_ok : forall k, 1 <= k < N -> ecmult_gen k = ecoords (gmul k G).
Variable ecmult : Z * Z -> Z -> Z -> Z * Z.
Hypothesis ecmult_ok : forall (Q : point) a b, Q <> gO -> 0 <= a < N -> 0 <= b < N -> ecmult (ecoords Q) a b = ecoords (gadd (gmul a Q) (gmul b G)).
(** go-ethereum built with cgo or without *)
Definition eth_verify (cgo : bool) : bytes -> bytes -> bytes -> bool :=
  if cgo then VerifySignature_cgo ecmult else VerifySignature_nocgo sm sbm add.

(** ** Verification *)
Lemma digest32 : forall dg : bytes, length dg = 32%nat -> digest_int 256 dg = value dg 0.
Proof. intros dg L. unfold digest_int. rewrite L. change (Z.max 0 (8 * Z.of_nat 32 - 256)) with 0. apply Z.div_1_r. Qed.
Theorem C84_verify_exact : forall cgo x y xb yb dg sig, encodes 32 x xb -> encodes 32 y yb -> octets dg -> length dg = 32%nat -> octets sig ->
  (eth_verify cgo (4 :: xb ++ yb) dg sig = true <->
   exists (Q : point) r s, Q <> gO /\ ecoords Q = (x, y) /\ rs_bytes sig r s /\ eth_accepts E Q (value dg 0) r s).
Proof.
  intros cgo x y xb yb dg sig EX EY Od L Os. assert (KB : key_bytes x y (4 :: xb ++ yb)) by (exists xb, yb; repeat split; apply EX || apply EY).
  unfold eth_verify. destruct cgo.
  - rewrite (cgo_iff ecmult ecmult_ok x y _ dg sig KB Od Os). split; [intros [_ V]; exact V|intros V; split; [exact L|exact V]].
  - rewrite (nocgo_iff sm sbm add sm_ok sbm_ok add_ok x y _ dg sig KB Od Os), (digest32 dg L). split; intros V; exact V.
Qed.

(** what a receiver does, with any hash functions and any primitives for the other keys *)
Variable H : Z -> bytes -> bytes.
Hypothesis H_octets : forall sch m, octets (H sch m).
Hypothesis H_11 : forall m, length (H 11 m) = 32%nat.
Variable ev : ecpub -> bytes -> Z -> Z -> bool.
Variable kr : bytes -> bytes -> go (res (Z * Z)).
Variable edV : bytes -> bytes -> bytes -> bool.
Variable sv : ecpub -> bytes -> bytes -> Z -> Z -> bool.
Definition receive (cgo : bool) : pubkey -> bytes -> bytes -> go bool := Prop_BtcecWhole.recv H ev kr edV (eth_verify cgo) sv.
(** a message of 32 bytes is its own digest *)
Definition digest (msg : bytes) : bytes := if (length msg =? 32)%nat then msg else H 11 msg.
Lemma digest_cases : forall msg dg, (length msg = 32%nat /\ dg = msg \/ length msg <> 32%nat /\ dg = H 11 msg) <-> dg = digest msg.
Proof. intros msg dg. unfold digest. destruct (Nat.eqb_spec (length msg) 32); split; intuition congruence. Qed.
Lemma digest_ok : forall msg, octets msg -> octets (digest msg) /\ length (digest msg) = 32%nat.
Proof. intros msg O. unfold digest. destruct (Nat.eqb_spec (length msg) 32); split; (assumption || apply H_octets || apply H_11). Qed.

Theorem C84_receive_exact : forall cgo k msg buf, 0 <= pk_X k -> 0 <= pk_Y k -> octets msg -> octets buf ->
  (receive cgo (PkEth k) msg buf = Val true <->
   msg <> [] /\ exists rs rest (Q : point) r s, buf = 11 :: rs ++ rest /\ rs_bytes rs r s /\ Q <> gO /\ ecoords Q = (pk_X k, pk_Y k) /\
     eth_accepts E Q (value (digest msg) 0) r s).
Proof.
  intros cgo k msg buf HX HY Om Ob. destruct (digest_ok msg Om) as [Od Ld].
  assert (VE : forall xb yb rs, encodes 32 (pk_X k) xb -> encodes 32 (pk_Y k) yb -> octets rs ->
    (eth_verify cgo (4 :: xb ++ yb) (digest msg) rs = true <-> exists (Q : point) r s, Q <> gO /\ ecoords Q = (pk_X k, pk_Y k) /\ rs_bytes rs r s /\ eth_accepts E Q (value (digest msg) 0) r s)).
  { intros xb yb rs EX EY Or. apply C84_verify_exact; assumption. }
  assert (LEN : forall rs r s, rs_bytes rs r s -> length rs = 64%nat) by (intros rs r s (a & b & -> & (L1 & _) & (L2 & _)); rewrite app_length; lia).
  unfold receive, Prop_BtcecWhole.recv. split.
  - destruct (Deserialize_cases buf) as [[e D]|(sig & sch & data & D & Sp & De)]; rewrite D; cbn [bind]; [discriminate|].
    rewrite Prop_Sig3.C66_accepts_iff by (intros k' Q; assert (k' = k) as -> by congruence; split; assumption).
    intros [NE A]. split; [exact NE|]. inversion A as [| | | |k' xb yb dg rs rest EX EY DG Lr V Qk Qs]. subst k'. apply digest_cases in DG. subst dg.
    assert (BUF : buf = 11 :: rs ++ rest).
    { destruct De as [Hs L|a b Hs Q L|id a b Q' _ _ _|Hs]; try discriminate Qs.
      - exfalso. injection Qs as <- _. lia.
      - injection Qs as <- <-. inversion Sp as [b0 L64 Q1|t d N0 L63 Q1]; reflexivity. }
    assert (Or : octets rs) by (rewrite BUF in Ob; apply Forall_inv_tail, Forall_app in Ob; apply Ob).
    apply (VE xb yb rs EX EY Or) in V. destruct V as (Q & r & s & NQ & CQ & RS & AC). exists rs, rest, Q, r, s. repeat (split; [assumption|]). exact AC.
  - intros (NE & rs & rest & Q & r & s & -> & RS & NQ & CQ & AC). pose proof (LEN rs r s RS) as Lr.
    assert (D : Deserialize (11 :: rs ++ rest) = Val (Ok {| sg_Scheme := 11; sg_Value := VBytes (rs ++ rest) |})).
    { destruct (Deserialize_cases (11 :: rs ++ rest)) as [[e D]|(sig & sch & data & D & Sp & De)].
      - exfalso. assert (F : exists sig, Deserialize (11 :: rs ++ rest) = Val (Ok sig)).
        { apply C32_accepted. right. exists 11, (rs ++ rest). split; [reflexivity|]. split; [intros C; apply (f_equal (@length Z)) in C; rewrite app_length in C; cbn [length] in C; lia|].
          split; [rewrite app_length; lia|]. right. right. right. reflexivity. }
        destruct F as [sig F]. congruence.
      - rewrite D. inversion Sp as [b0 L64 Q1|t d N0 L63 Q1]; subst; [cbn [length] in L64; rewrite app_length in L64; lia|]. inversion De; subst; try lia. reflexivity. }
    rewrite D. cbn [bind]. pose proof (kco_range kS256 Q) as [RX RY]. change (kco kS256 Q) with (ecoords (e := E) Q) in RX, RY. rewrite CQ in RX, RY. cbn [fst snd] in RX, RY. change (c_P kS256) with p in RX, RY.
    pose proof p_256 as P256. pose proof (Prop_Btcec.encodes32 (pk_X k) ltac:(lia)) as EX. pose proof (Prop_Btcec.encodes32 (pk_Y k) ltac:(lia)) as EY.
    apply Prop_Sig3.C66_accepts_iff; [intros k' Q'; assert (k' = k) as -> by congruence; split; assumption|]. split; [exact NE|].
    apply (Prop_Sig3.ac_eth _ _ _ _ _ _ _ k (to_be 32 (pk_X k)) (to_be 32 (pk_Y k)) (digest msg) rs rest EX EY); [apply digest_cases; reflexivity|exact Lr|].
    apply (VE _ _ rs EX EY); [apply Forall_inv_tail, Forall_app in Ob; apply Ob|]. exists Q, r, s. repeat (split; [assumption|]). exact AC.
Qed.
(** both builds answer every input alike, panics included *)
Theorem C84_builds_agree : forall k msg buf, 0 <= pk_X k -> 0 <= pk_Y k -> octets msg -> octets buf ->
  receive true (PkEth k) msg buf = receive false (PkEth k) msg buf.
Proof.
  intros k msg buf HX HY Om Ob. pose proof (C84_receive_exact true k msg buf HX HY Om Ob) as A. pose proof (C84_receive_exact false k msg buf HX HY Om Ob) as B.
  assert (AB : receive true (PkEth k) msg buf = Val true <-> receive false (PkEth k) msg buf = Val true) by (rewrite A, B; reflexivity). clear A B.
  unfold receive, Prop_BtcecWhole.recv in *. destruct (Deserialize buf) as [[sig|e]| |]; cbn [bind] in *; try reflexivity.
  unfold Signature.Verify in *. destruct (zlen msg =? 0); [reflexivity|]. destruct (negb _); [reflexivity|]. destruct (_ =? KECCAK256WithECDSA); [|reflexivity].
  destruct (sg_Value sig) as [| |v|]; try reflexivity. destruct (eth_FromECDSAPub k) as [kb| |]; cbn [bind] in *; try reflexivity.
  destruct (slice v 0 64) as [v64| |]; cbn [bind] in *; try reflexivity.
  assert (BB : forall b b' : bool, (Val b = Val true <-> Val b' = Val true) -> Val b = Val b').
  { intros b b' [F F']. destruct b, b'; try reflexivity; [specialize (F eq_refl); discriminate F|specialize (F' eq_refl); discriminate F']. }
  destruct (negb (zlen msg =? 32)); apply BB; exact AB.
Qed.
(** (r, N - s) is refused where (r, s) is accepted; what follows the 64 bytes does not matter *)
Theorem C84_not_malleable : forall cgo k msg rb sb sb' s rest rest', 0 <= pk_X k -> 0 <= pk_Y k -> octets msg ->
  octets (11 :: (rb ++ sb) ++ rest) -> octets rest' -> length rb = 32%nat -> encodes 32 s sb -> encodes 32 (N - s) sb' ->
  receive cgo (PkEth k) msg (11 :: (rb ++ sb) ++ rest) = Val true ->
  receive cgo (PkEth k) msg (11 :: (rb ++ sb') ++ rest') <> Val true /\ receive cgo (PkEth k) msg (11 :: (rb ++ sb) ++ rest') = Val true.
Proof.
  intros cgo k msg rb sb sb' s rest rest' HX HY Om Ob Or' Lr ES ES' V. assert (Orb : octets rb /\ octets sb /\ octets rest).
  { apply Forall_inv_tail, Forall_app in Ob. destruct Ob as [O1 O2]. apply Forall_app in O1. destruct O1 as [O1 O3]. repeat split; assumption. }
  destruct Orb as (Orb & Osb & Orest). assert (O11 : 0 <= 11 < 256) by lia.
  assert (O1 : octets (11 :: (rb ++ sb') ++ rest')) by (constructor; [exact O11|]; apply Forall_app; split; [apply Forall_app; split; [exact Orb|apply ES']|exact Or']).
  assert (O2 : octets (11 :: (rb ++ sb) ++ rest')) by (constructor; [exact O11|]; apply Forall_app; split; [apply Forall_app; split; assumption|exact Or']).
  assert (ER : encodes 32 (value rb 0) rb) by (split; [lia|split; [exact Orb|reflexivity]]).
  assert (L64 : length (rb ++ sb) = 64%nat) by (destruct ES as (L & _); rewrite app_length; lia).
  assert (L64' : length (rb ++ sb') = 64%nat) by (destruct ES' as (L & _); rewrite app_length; lia).
  assert (LEN : forall rs r s, rs_bytes rs r s -> length rs = 64%nat) by (intros rs r s0 (a & b & -> & (L1 & _) & (L2 & _)); rewrite app_length; lia).
  assert (TAIL : forall a rs t t' r s, length a = 64%nat -> rs_bytes rs r s -> a ++ t = rs ++ t' -> a = rs).
  { intros a rs t t' r s0 La RS Q. pose proof (LEN _ _ _ RS). destruct (Prop_SigWhole.app_inj_len a rs t t' ltac:(lia) Q) as [-> _]. reflexivity. }
  assert (RS1 : rs_bytes (rb ++ sb) (value rb 0) s) by (exists rb, sb; split; [reflexivity|split; assumption]).
  assert (RS2 : rs_bytes (rb ++ sb') (value rb 0) (N - s)) by (exists rb, sb'; split; [reflexivity|split; assumption]).
  apply (C84_receive_exact cgo k msg _ HX HY Om Ob) in V. destruct V as (NE & rs & t & Q & r & s' & BQ & RS & NQ & CQ & AC).
  injection BQ as BQ. pose proof (TAIL _ _ _ _ _ _ L64 RS BQ) as <-. destruct (rs_bytes_fun _ _ _ _ _ RS RS1) as [-> ->]. clear RS BQ t.
  split.
  - intros V. apply (C84_receive_exact cgo k msg _ HX HY Om O1) in V. destruct V as (_ & rs & t' & Q' & r & s' & BQ & RS & _ & _ & _ & LO).
    injection BQ as BQ. pose proof (TAIL _ _ _ _ _ _ L64' RS BQ) as <-. destruct (rs_bytes_fun _ _ _ _ _ RS RS2) as [-> ->].
    destruct AC as [_ LO']. change (eN E) with N in LO, LO'. pose proof N_half as NH. lia.
  - apply (C84_receive_exact cgo k msg _ HX HY Om O2). split; [exact NE|]. exists (rb ++ sb), rest', Q, (value rb 0), s. split; [reflexivity|]. repeat (split; [assumption|]). exact AC.
Qed.

(** ** Signing *)
Variable nonce_fn : bytes -> bytes -> nat -> bytes.
Hypothesis nonce_octets : forall m b i, octets (nonce_fn m b i).
Variable checked : bool.
Variable nonce : Z -> bytes -> Z.
Hypothesis nonce_ok : forall D dg, 1 <= nonce D dg < N.
Definition eth_sign (cgo : bool) (fuel : nat) (dg : bytes) (D : Z) (k : ecpub) : go (res bytes) :=
  if cgo then Sign_cgo ecmult_gen nonce_fn fuel dg D k else Sign_nocgo checked sm sbm add nonce dg D k.
Lemma rsv_out : forall r s v, 0 <= r < N -> 0 <= s < N -> rsv_bytes (to_be 32 r ++ to_be 32 s ++ [v]) r s v.
Proof.
  intros r s v Hr Hs. pose proof N_256. exists (to_be 32 r ++ to_be 32 s). split; [apply app_assoc|]. exists (to_be 32 r), (to_be 32 s). split; [reflexivity|].
  split; apply Prop_Btcec.encodes32; lia.
Qed.
Lemma rsv_fun : forall b b' r s v, rsv_bytes b r s v -> rsv_bytes b' r s v -> b = b'.
Proof.
  intros b b' r s v (rs & -> & rb & sb & -> & E1 & E2) (rs' & -> & rb' & sb' & -> & E1' & E2').
  apply encodes_fun in E1, E2, E1', E2'. congruence.
Qed.
Lemma gives_range : forall D e k r s v, 1 <= k < N -> gives D e k r s v -> 1 <= r < N /\ 1 <= s /\ 2 * s < N /\ ecdsa_accepts E (gmul D G) e r s.
Proof.
  intros D e k r s v Hk (s0 & A & Qs & Hv & RE). inversion A as [r0 s1 R R0 S EQ|]. subst r0 s1. pose proof (Z.mod_pos_bound (x1 k) N ltac:(reflexivity)) as B. cbv beta in B. rewrite <- R in B.
  pose proof N_half as NH. assert (Rr : 1 <= r < N) by lia. assert (Rs : 1 <= s < N) by lia. split; [exact Rr|]. split; [lia|]. split; [lia|].
  apply (Prop_Btcec.C82_ecdsa kS256 (gmul D G) e r s Rr Rs). exists v. split; assumption.
Qed.
Lemma eth_signature_gives : forall D e k b, eth_signature E D e k b <-> exists r s v, gives D e k r s v /\ rsv_bytes b r s v.
Proof.
  intros D e k b. split.
  - intros (r & s & v & A & RB & Hv & RE). exists r, (Z.min s (N - s)), v. split; [|exact RB]. exists s. repeat (split; [assumption || reflexivity|]). exact RE.
  - intros (r & s & v & (s0 & A & -> & Hv & RE) & RB). exists r, s0, v. repeat (split; [assumption|]). exact RE.
Qed.
Theorem C84_sign_cgo : forall fuel dg D k db, octets dg -> length dg = 32%nat -> c_bits (pk_curve k) = 256 -> encodes 32 D db ->
  let cand i := value (nonce_fn dg db i) 0 in let e := value dg 0 in let res := eth_sign true fuel dg D k in
  (forall out, res = Val (Ok out) <-> 1 <= D < N /\ exists i, (i < fuel)%nat /\ (forall j, (j < i)%nat -> no_use E D e (cand j)) /\
     1 <= cand i < N /\ eth_signature E D e (cand i) out) /\
  ((exists m, res = Val (Err m)) <-> ~ (1 <= D < N)) /\
  (res = OutOfFuel <-> 1 <= D < N /\ forall i, (i < fuel)%nat -> no_use E D e (cand i)) /\
  (forall w, res <> Panic w).
Proof.
  intros fuel dg D k db Od Ld Hb ED cand e. unfold eth_sign, Sign_cgo, secp_Sign. rewrite Hb. change (256 / 8) with 32.
  assert (DB : padded_big_bytes D 32 = db /\ 0 <= D < 2 ^ 256).
  { pose proof ED as ED'. apply enc32 in ED' as (L & O & Q). pose proof (bytes32 db O L) as B. rewrite <- Q in B. split; [|exact B].
    pose proof (padded_ok D B) as P. apply encodes_fun in P, ED. congruence. }
  destruct DB as [-> RD]. pose proof ED as ED'. apply enc32 in ED' as (L & O & Q).
  replace (zlen dg =? 32) with true by (unfold zlen; rewrite Ld; reflexivity). replace (zlen db =? 32) with true by (unfold zlen; rewrite L; reflexivity). cbn [negb].
  unfold scalar_set_b32. rewrite <- Q, Z.geb_leb. cbn [fst]. rewrite <- value_be2z. change (value dg 0) with e.
  destruct (Z.leb_spec N D) as [HN|HN]; cbn [orb].
  { split; [|split; [|split]].
    - intros out. split; [intros C; discriminate C|intros [C _]; lia].
    - split; [intros _; lia|intros _; eexists; reflexivity].
    - split; [intros C; discriminate C|intros [C _]; lia].
    - intros w C. discriminate C. }
  rewrite (Z.mod_small D N) by lia. destruct (Z.eqb_spec D 0) as [D0|D0].
  { split; [|split; [|split]].
    - intros out. split; [intros C; discriminate C|intros [C _]; lia].
    - split; [intros _; lia|intros _; eexists; reflexivity].
    - split; [intros C; discriminate C|intros [C _]; lia].
    - intros w C. discriminate C. }
  assert (HD : 1 <= D < N) by lia.
  assert (LI : forall r s v, sign_loop ecmult_gen nonce_fn fuel 0 dg db D (e mod N) = Val (r, s, v) <->
    exists i, (i < fuel)%nat /\ (forall j, (j < i)%nat -> no_use E D e (cand j)) /\ 1 <= cand i < N /\ gives D e (cand i) r s v).
  { intros r s v. exact (sign_loop_iff ecmult_gen ecmult_gen_ok nonce_fn nonce_octets dg db D fuel 0 r s v). }
  assert (LO : sign_loop ecmult_gen nonce_fn fuel 0 dg db D (e mod N) = OutOfFuel <-> forall i, (i < fuel)%nat -> no_use E D e (cand i)).
  { exact (sign_loop_out ecmult_gen ecmult_gen_ok nonce_fn nonce_octets dg db D fuel 0). }
  destruct (sign_loop_result ecmult_gen nonce_fn dg db D fuel 0) as [[[[r s] v] LQ]|LQ]; change (value dg 0) with e in LQ; rewrite LQ in *; cbn [bind].
  - destruct (proj1 (LI r s v) eq_refl) as (i & Hi & HU & HC & HG). destruct (gives_range _ _ _ _ _ _ HC HG) as (Rr & Rs1 & Rs2 & _).
    pose proof (rsv_out r s v ltac:(lia) ltac:(lia)) as RB. split; [|split; [|split]].
    + intros out. split.
      * intros OQ. assert (out = to_be 32 r ++ to_be 32 s ++ [v]) as -> by congruence. split; [exact HD|]. exists i. repeat (split; [assumption|]).
        apply eth_signature_gives. exists r, s, v. split; assumption.
      * intros (_ & i' & Hi' & HU' & HC' & HG'). apply eth_signature_gives in HG'. destruct HG' as (r' & s' & v' & HG' & RB').
        assert (LQ' : Val (r, s, v) = Val (r', s', v')) by (apply LI; exists i'; repeat (split; [assumption|]); exact HG').
        assert (r' = r /\ s' = s /\ v' = v) as (-> & -> & ->) by (repeat split; congruence). rewrite (rsv_fun _ _ _ _ _ RB' RB). reflexivity.
    + split; [intros [m C]; discriminate C|intros C; destruct (C HD)].
    + split; [intros C; discriminate C|]. intros [_ A]. apply LO in A. discriminate A.
    + intros w C. discriminate C.
  - split; [|split; [|split]].
    + intros out. split; [intros C; discriminate C|]. intros (_ & i' & Hi' & HU' & HC' & HG'). apply eth_signature_gives in HG'. destruct HG' as (r' & s' & v' & HG' & RB').
      assert (LQ' : OutOfFuel = Val (r', s', v')) by (apply LI; exists i'; repeat (split; [assumption|]); exact HG'). discriminate LQ'.
    + split; [intros [m C]; discriminate C|intros C; destruct (C HD)].
    + split; [intros _; split; [exact HD|apply LO; reflexivity]|reflexivity].
    + intros w C. discriminate C.
Qed.
Theorem C84_sign_nocgo : forall fuel dg D k, octets dg -> length dg = 32%nat -> (pk_X k, pk_Y k) = ecoords (gmul D G) ->
  let e := value dg 0 in let res := eth_sign false fuel dg D k in
  (forall out, res = Val (Ok out) <-> eth_signature E D e (nonce D dg) out) /\
  ((exists m, res = Val (Err m)) <-> no_use E D e (nonce D dg)) /\ (forall w, res <> Panic w) /\ res <> OutOfFuel.
Proof.
  intros fuel dg D k Od Ld HK e res.
  destruct (Prop_Btcec.C82_sign_exact kS256 Prop_Btcec.s256_bits eq_refl checked sm sbm add sm_ok sbm_ok add_ok nonce nonce_ok D (pk_X k, pk_Y k) dg Od HK) as [A B].
  destruct (Prop_Btcec.C82_sign_verify kS256 Prop_Btcec.s256_bits eq_refl checked sm sbm add sm_ok sbm_ok add_ok nonce nonce_ok D (pk_X k, pk_Y k) dg Od) as [[o T] _].
  rewrite (digest32 dg Ld) in A, B. change (value dg 0) with e in A, B.
  assert (RQ : res = match o with Err m => Val (Err m) | Ok sig => let* s0 := index sig 0 in let v := u8 (s0 - 27) in let* t1 := slice sig 1 (zlen sig) in
      let sig := go_copy sig t1 in Val (Ok (set_nth 64 v sig)) end).
  { unfold res, eth_sign, Sign_nocgo. replace (zlen dg =? 32) with true by (unfold zlen; rewrite Ld; reflexivity). cbn [negb].
    unfold Btcec.Secp256k1Sign in T. cbn [fst snd] in T. change (kc kS256) with S256 in T. rewrite T. reflexivity. }
  rewrite T in A, B. clearbody res. clear T. rewrite RQ. clear RQ res.
  assert (NU : no_use E D e (nonce D dg) <-> dsa_attempt x1 N D e (nonce D dg) None).
  { split; [intros [C|C]; [destruct (C (nonce_ok D dg))|exact C]|intros C; right; exact C]. }
  destruct o as [sig|m].
  - destruct (proj1 (A sig) eq_refl) as (r & s & it & AT & (rb & sb & -> & ER & ES) & Hi & RE).
    assert (Lrs : length (rb ++ sb) = 64%nat) by (destruct ER as (L1 & _), ES as (L2 & _); rewrite app_length; lia).
    assert (NI : rb ++ sb <> []) by (intros C; rewrite C in Lrs; discriminate Lrs).
    assert (OUT : (let* s0 := index ((27 + it) :: rb ++ sb) 0 in let v := u8 (s0 - 27) in let* t1 := slice ((27 + it) :: rb ++ sb) 1 (zlen ((27 + it) :: rb ++ sb)) in
      let sig := go_copy ((27 + it) :: rb ++ sb) t1 in Val (Ok (set_nth 64 v sig))) = Val (Ok ((rb ++ sb) ++ [it]))).
    { rewrite index_cons0. cbn [bind]. cbv zeta. rewrite slice_tail1. cbn [bind]. do 2 f_equal. rewrite <- Lrs.
      rewrite rotate_copy by exact NI. do 2 f_equal. unfold u8. rewrite Z.mod_small; lia. }
    rewrite OUT. clear OUT.
    assert (ME : eth_signature E D e (nonce D dg) ((rb ++ sb) ++ [it])).
    { exists r, s, it. split; [exact AT|]. split; [|split; [exact Hi|exact RE]]. exists (rb ++ sb). split; [reflexivity|]. exists rb, sb. split; [reflexivity|]. split; assumption. }
    split; [|split; [|split]].
    + intros out. split; [intros Q; assert (out = (rb ++ sb) ++ [it]) as -> by congruence; exact ME|]. intros ME'.
      apply eth_signature_gives in ME, ME'. destruct ME as (r1 & s1 & v1 & G1 & RB1), ME' as (r2 & s2 & v2 & G2 & RB2).
      destruct (gives_fun _ _ _ _ _ _ _ _ _ (nonce_ok D dg) G1 G2) as (-> & -> & ->). rewrite (rsv_fun _ _ _ _ _ RB1 RB2). reflexivity.
    + split; [intros [m C]; discriminate C|]. intros C. apply NU in C. pose proof (attempt_fun _ _ _ _ _ (nonce_ok D dg) AT C) as C'. discriminate C'.
    + intros w C. discriminate C.
    + intros C. discriminate C.
  - split; [|split; [|split]].
    + intros out. split; [intros C; discriminate C|]. intros ME. apply eth_signature_gives in ME. destruct ME as (r & s & v & (s0 & AT & _) & _).
      assert (F : exists m0, @Val (res bytes) (Err m) = Val (Err m0)) by (exists m; reflexivity). apply B in F. pose proof (attempt_fun _ _ _ _ _ (nonce_ok D dg) AT F) as C'. discriminate C'.
    + split; [intros _; apply NU, B; exists m; reflexivity|intros _; exists m; reflexivity].
    + intros w C. discriminate C.
    + intros C. discriminate C.
Qed.
(** the builds make the same signature when their first nonces agree and it is of use *)
Theorem C84_sign_alike : forall fuel dg D k db, octets dg -> length dg = 32%nat -> c_bits (pk_curve k) = 256 -> encodes 32 D db -> 1 <= D < N ->
  (pk_X k, pk_Y k) = ecoords (gmul D G) -> value (nonce_fn dg db 0) 0 = nonce D dg -> ~ no_use E D (value dg 0) (nonce D dg) ->
  eth_sign true (S fuel) dg D k = eth_sign false (S fuel) dg D k.
Proof.
  intros fuel dg D k db Od Ld Hb ED HD HK NQ US. destruct (C84_sign_nocgo (S fuel) dg D k Od Ld HK) as (A & B & C1 & C2).
  destruct (C84_sign_cgo (S fuel) dg D k db Od Ld Hb ED) as (A' & _).
  destruct (eth_sign false (S fuel) dg D k) as [[out|m]|w|]; [|destruct US; apply B; exists m; reflexivity|destruct (C1 w); reflexivity|destruct C2; reflexivity].
  apply A'. split; [exact HD|]. exists O. rewrite NQ. split; [lia|]. split; [intros j C; lia|]. split; [apply nonce_ok|]. apply A. reflexivity.
Qed.
(** what one build signs both builds accept *)
Theorem C84_sign_verify : forall cgo cgo' fuel dg D k out xb yb, octets dg -> length dg = 32%nat -> c_bits (pk_curve k) = 256 -> 1 <= D < N ->
  (pk_X k, pk_Y k) = ecoords (gmul D G) -> encodes 32 (pk_X k) xb -> encodes 32 (pk_Y k) yb -> eth_sign cgo fuel dg D k = Val (Ok out) ->
  eth_verify cgo' (4 :: xb ++ yb) dg (firstn 64 out) = true /\ length out = 65%nat /\ octets out.
Proof.
  intros cgo cgo' fuel dg D k out xb yb Od Ld Hb HD HK EX EY S. pose proof N_256 as NB.
  assert (SG : exists c, 1 <= c < N /\ eth_signature E D (value dg 0) c out).
  { destruct cgo.
    - destruct (C84_sign_cgo fuel dg D k _ Od Ld Hb (padded_ok D ltac:(lia))) as (A & _). apply A in S. destruct S as (_ & i & _ & _ & HC & HG). eexists. split; [exact HC|exact HG].
    - destruct (C84_sign_nocgo fuel dg D k Od Ld HK) as (A & _). apply A in S. eexists. split; [apply nonce_ok|exact S]. }
  clear S. destruct SG as (c & HC & SG). apply eth_signature_gives in SG. destruct SG as (r & s & v & GV & rs & -> & RS).
  destruct (gives_range _ _ _ _ _ _ HC GV) as (Rr & Rs1 & Rs2 & AC). destruct GV as (_ & _ & _ & Hv & _).
  assert (LR : length rs = 64%nat /\ octets rs).
  { destruct RS as (a & b & -> & (L1 & O1 & _) & (L2 & O2 & _)). split; [rewrite app_length; lia|apply Forall_app; split; assumption]. }
  destruct LR as [Lr Or]. split; [|split].
  - rewrite firstn_app, Lr, Nat.sub_diag, firstn_O, app_nil_r, firstn_all2 by lia. apply (C84_verify_exact cgo' (pk_X k) (pk_Y k)); try assumption.
    exists (gmul D G), r, s. split.
    + rewrite (k_gmul_zero kS256 D G (k_G_nz kS256)). change (c_N kS256) with N. rewrite Z.mod_small; lia.
    + split; [symmetry; exact HK|]. split; [exact RS|]. split; [exact AC|]. change (eN E) with N. lia.
  - rewrite app_length. cbn [length]. lia.
  - apply Forall_app. split; [exact Or|]. constructor; [unfold is_byte; lia|constructor].
Qed.

(** ** From the key bytes to the signature bytes, with any primitives for the other keys *)
Hypothesis sbm_eth : forall k, octets k -> sbm EthS256 k = ecoords (gmul (value k 0) G).
Variable rand : Type.
Variable es : Z -> ecpub -> bytes -> rand -> go (res (Z * Z)).
Variable k1s : Z -> ecpub -> bytes -> go (res bytes).
Variable eds : bytes -> bytes -> bytes.
Variable sm2s : rand -> Z -> ecpub -> bytes -> bytes -> go (res (Z * Z)).
Notation Sign cgo fuel := (Signature.Sign H rand es k1s eds (eth_sign cgo fuel) sm2s).
Theorem C84_end_to_end : forall cgo cgo' fuel rng data D k sch rn msg opt sig,
  DeserializePrivateKey sbm rng data = Val (Ok (Some (SkEth D k))) -> octets data -> octets msg -> msg <> [] ->
  ~ (opt = OptBool true /\ length msg = 32%nat) ->
  Sign cgo fuel rn sch (SkEth D k) msg opt = Val (Ok sig) ->
  exists e buf, SerializePublicKey (PkEth k) = Val e /\ Serialize (Some sig) = Val (Ok buf) /\ length buf = 66%nat /\
    forall rng', exists pub, DeserializePublicKey rng' e = Val (Ok pub) /\ receive cgo' pub msg buf = Val true.
Proof.
  intros cgo cgo' fuel rng data D k sch rn msg opt sig DK Od Om NE ND S.
  assert (KEY : exists db, octets db /\ D = value db 0 /\ 1 <= D < N /\ k = {| pk_curve := EthS256; pk_X := fst (sbm EthS256 db); pk_Y := snd (sbm EthS256 db) |}).
  { unfold DeserializePrivateKey in DK. destruct data as [|t data]; [discriminate|]. rewrite index_cons0 in DK. cbn [bind] in DK.
    destruct (_ || _).
    { exfalso. destruct data as [|l data]; [discriminate|]. rewrite index_cons1 in DK. cbn [bind] in DK. destruct (GetCurve l) as [c|]; [|discriminate].
      destruct (_ <? _); [discriminate|]. destruct (slice _ _ _) as [a| |]; try discriminate. cbn [bind] in DK.
      destruct (ConstructPrivateKey sbm a c) as [d0 k0]. destruct (slice _ _ _) as [b| |]; try discriminate. cbn [bind] in DK.
      destruct (DecodePublicKey rng b c) as [[q|]| |]; try discriminate. cbn [bind] in DK. destruct (_ || _); discriminate. }
    destruct (t =? PK_EDDSA).
    { exfalso. destruct data as [|l data]; [discriminate|]. rewrite index_cons1 in DK. cbn [bind] in DK.
      destruct (l =? L_ED25519); [|discriminate]. destruct (_ <? _); [discriminate|]. destruct (slice _ _ _); discriminate. }
    destruct (t =? PK_ETHECDSA); [|discriminate]. rewrite slice_tail1 in DK. cbn [bind] in DK. unfold eth_ToECDSA in DK. rewrite Z.geb_leb in DK.
    destruct (negb _); [discriminate|]. destruct (Z.leb_spec N (be2z data)) as [|LT]; [discriminate|]. destruct (Z.leb_spec (be2z data) 0) as [|GT]; [discriminate|].
    exists data. split; [exact (Forall_inv_tail Od)|]. destruct (sbm EthS256 data) as [x y]. cbn [fst snd]. rewrite value_be2z.
    assert (D = be2z data /\ k = {| pk_curve := EthS256; pk_X := x; pk_Y := y |}) as [-> ->] by (split; congruence). repeat split; lia. }
  destruct KEY as (db & Odb & Dv & HD & Kv). rewrite (sbm_eth db Odb), <- Dv in Kv. clear DK Od data Dv Odb db.
  assert (NO : gmul D G <> gO) by (rewrite (k_gmul_zero kS256 D G (k_G_nz kS256)); change (c_N kS256) with N; rewrite Z.mod_small; lia).
  pose proof (kco_kat kS256 (gmul D G) NO) as AT. pose proof (kco_range kS256 (gmul D G)) as [RX RY]. change (kco kS256 (gmul D G)) with (ecoords (e := E) (gmul D G)) in AT, RX, RY. change (c_P kS256) with p in RX, RY.
  assert (HK : (pk_X k, pk_Y k) = ecoords (gmul D G)) by (rewrite Kv; cbn [pk_X pk_Y]; symmetry; apply surjective_pairing).
  assert (X0 : fst (ecoords (gmul D G)) = pk_X k) by (rewrite <- HK; reflexivity). assert (Y0 : snd (ecoords (gmul D G)) = pk_Y k) by (rewrite <- HK; reflexivity).
  rewrite X0, Y0 in *. clear X0 Y0. apply kat_on in AT.
  apply Sign_inv in S. inversion S as [| | | |d0 k0 dg s Qdg Ldg ES Q1 Q2 Q3]. subst d0 k0 sig sch.
  assert (DG : dg = digest msg).
  { apply digest_cases. destruct opt as [id|[|]|]; subst dg; [left; split; [exact Ldg|reflexivity]| |left; split; [exact Ldg|reflexivity]|left; split; [exact Ldg|reflexivity]].
    destruct (Nat.eq_dec (length msg) 32) as [L|L]; [destruct ND; split; [reflexivity|exact L]|right; split; [exact L|reflexivity]]. }
  destruct (digest_ok msg Om) as [Od Ld]. rewrite DG in ES, Ldg. clear Qdg DG dg.
  pose proof p_256 as PB. pose proof (Prop_Btcec.encodes32 (pk_X k) ltac:(lia)) as EX. pose proof (Prop_Btcec.encodes32 (pk_Y k) ltac:(lia)) as EY.
  assert (Hb : c_bits (pk_curve k) = 256) by (rewrite Kv; reflexivity).
  destruct (C84_sign_verify cgo cgo' fuel (digest msg) D k s _ _ Od Ld Hb HD HK EX EY ES) as (V & Ls & Os).
  destruct (C31_wire_format _ (pr_eth s Ls Os)) as (buf & Sb & Wb). assert (BQ : buf = 11 :: s) by (inversion Wb; reflexivity).
  assert (VP : valid_pub (PkEth k)).
  { rewrite Kv. destruct k as [kc0 X Y]. cbn [pk_curve pk_X pk_Y] in *. constructor.
    split; [lia|]. split; [lia|]. unfold curve_eq. rewrite Z.mul_0_l, Z.add_0_r. apply Prop_SigWhole.mod_of_divide; [discriminate|exact AT]. }
  assert (PD : forall rng', pub_decompressible (PkEth k) rng') by (intros rng'; exact I).
  destruct (C15_public_key_round_trip (PkEth k) [] VP (PD [])) as (e & Se & _). exists e, buf.
  split; [exact Se|]. split; [exact Sb|]. split; [rewrite BQ; cbn [length]; lia|].
  intros rng'. exists (PkEth k). split.
  - destruct (C15_public_key_round_trip (PkEth k) rng' VP (PD rng')) as (e' & Se' & De'). congruence.
  - rewrite BQ. apply C84_receive_exact; [lia|lia|exact Om|constructor; [lia|exact Os]|]. split; [exact NE|].
    apply (C84_verify_exact cgo' (pk_X k) (pk_Y k) _ _ _ _ EX EY Od Ld) in V; [|apply wf_firstn; exact Os]. destruct V as (Q & r & s' & NQ & CQ & RS & AC).
    exists (firstn 64 s), (skipn 64 s), Q, r, s'. split; [rewrite firstn_skipn; reflexivity|]. repeat (split; [assumption|]). exact AC.
Qed.

(** ** ConvertToEthCompatible *)
Notation k1_receive cgo := (BtcecWhole.receive checked sm sbm add H edV (eth_verify cgo)).
Lemma compact_eth : forall cgo (Q : point) k msg rb sb t, ecoords Q = (pk_X k, pk_Y k) -> Q <> gO -> octets msg -> length msg = 32%nat ->
  length rb = 32%nat -> length sb = 32%nat -> octets rb -> octets sb -> 0 <= t < 256 ->
  (receive cgo (PkEth k) msg (11 :: (rb ++ sb) ++ [t]) = Val true <-> eth_accepts E Q (value msg 0) (value rb 0) (value sb 0)).
Proof.
  intros cgo Q k msg rb sb t CQ NQ Om Lm L1 L2 O1 O2 Ht. pose proof (kco_range kS256 Q) as [RX RY]. change (kco kS256 Q) with (ecoords (e := E) Q) in RX, RY. rewrite CQ in RX, RY. cbn [fst snd] in RX, RY.
  assert (DG : digest msg = msg) by (unfold digest; rewrite Lm; reflexivity).
  assert (RS0 : rs_bytes (rb ++ sb) (value rb 0) (value sb 0)) by (exists rb, sb; split; [reflexivity|]; split; (split; [lia|split; [assumption|reflexivity]])).
  rewrite C84_receive_exact; [rewrite DG|lia|lia|exact Om|].
  - split.
    + intros (_ & rs & rest & Q' & r & s & BQ & RS & NQ' & CQ' & AC). assert (Q' = Q) by (apply (ecoords_inj E); congruence). subst Q'.
      assert (LR : length rs = 64%nat) by (destruct RS as (a & b & -> & (La & _) & (Lb & _)); rewrite app_length; lia).
      injection BQ as BQ. destruct (Prop_SigWhole.app_inj_len (rb ++ sb) rs [t] rest ltac:(rewrite app_length; lia) BQ) as [<- _].
      destruct (rs_bytes_fun _ _ _ _ _ RS RS0) as [-> ->]. exact AC.
    + intros AC. split; [intros ->; discriminate Lm|]. exists (rb ++ sb), [t], Q, (value rb 0), (value sb 0). repeat (split; [assumption || reflexivity|]). exact AC.
  - constructor; [lia|]. apply Forall_app. split; [apply Forall_app; split; assumption|constructor; [exact Ht|constructor]].
Qed.
(** a compact signature that is accepted for an EC key is, converted, a signature of the digest for the Ethereum key
    with the same coordinates, if and only if r and s are in range and s is at most N / 2 *)
Theorem C84_convert : forall cgo (Q : point) alg k k' sch msg h rb sb, pk_curve k = S256 -> ecoords Q = (pk_X k, pk_Y k) -> Q <> gO ->
  pk_X k' = pk_X k -> pk_Y k' = pk_Y k -> 0 <= sch <= 8 -> 0 <= h < 256 -> length rb = 32%nat -> length sb = 32%nat -> octets rb -> octets sb ->
  length (H sch msg) = 32%nat -> k1_receive cgo (PkEC alg k) msg (sch :: h :: rb ++ sb) = Val true ->
  exists it, header h it /\ recovers E (value (H sch msg) 0) it (value rb 0) (value sb 0) Q /\
  let out := (rb ++ sb) ++ [(h - 27) mod 256] in
  ConvertToEthCompatible (sch :: h :: rb ++ sb) = Val (Ok out, sch :: out) /\
  (receive cgo (PkEth k') (H sch msg) (11 :: out) = Val true <-> 1 <= value rb 0 < N /\ 1 <= value sb 0 /\ 2 * value sb 0 < N).
Proof.
  intros cgo Q alg k k' sch msg h rb sb Hc CQ NQ X' Y' Hs Hh L1 L2 O1 O2 LH V.
  assert (OB : octets (sch :: h :: rb ++ sb)) by (constructor; [unfold is_byte; lia|]; constructor; [exact Hh|apply Forall_app; split; assumption]).
  apply (Prop_BtcecWhole.C83_receive_exact checked sm sbm add sm_ok sbm_ok add_ok H H_octets edV (eth_verify cgo) Q alg k msg _ Hc CQ NQ OB) in V. destruct V as [_ V].
  remember (sch :: h :: rb ++ sb) as buf eqn:B. destruct V as [a b La Lb V|t' a b Ht' La V|t' v h' it r s Ht' C HD _ RE].
  { exfalso. apply (f_equal (@length Z)) in B. cbn [length] in B. rewrite !app_length in B. lia. }
  { exfalso. apply (f_equal (@length Z)) in B. cbn [length] in B. rewrite !app_length in B. lia. }
  injection B as -> ->.
  assert (C0 : compact (h :: rb ++ sb) h (value rb 0) (value sb 0)) by (exists rb, sb; split; [reflexivity|]; split; (split; [lia|split; [assumption|reflexivity]])).
  destruct (Prop_Btcec.compact_inj _ _ _ _ _ _ _ C C0) as (-> & -> & ->). rewrite (digest32 _ LH) in RE.
  exists it. split; [exact HD|]. split; [exact RE|]. cbv zeta. split; [apply C41_ecdsa; [exact Hs|rewrite app_length; lia]|].
  rewrite (compact_eth cgo Q k' (H sch msg) rb sb) by (assumption || congruence || apply H_octets || (apply Z.mod_pos_bound; lia)). pose proof N_half as NH.
  split; [intros [((R1 & R2) & (S1 & S2) & _) LO]; change (eN E) with N in *; lia|].
  intros (R & S1 & S2). split; [|change (eN E) with N; lia]. apply (Prop_Btcec.C82_ecdsa kS256); [exact R|change (c_N kS256) with N; lia|]. exists it. split; [apply HD|exact RE].
Qed.
(** what Sign makes with an EC key becomes what it makes with the Ethereum key without cgo *)
Variable sha512 : bytes -> bytes.
Variable aes : bytes -> bytes -> bytes.
Theorem C84_convert_signed : forall cgo fuel rn sch alg D k k' msg opt sig, pk_curve k = S256 -> (pk_X k, pk_Y k) = ecoords (gmul D G) -> 1 <= D < N ->
  pk_X k' = pk_X k -> pk_Y k' = pk_Y k -> 0 <= sch <= 8 -> length (H sch msg) = 32%nat ->
  BtcecWhole.Sign checked sm sbm add nonce sha512 aes H eds (eth_sign cgo fuel) rn sch (SkEC alg D k) msg opt = Val (Ok sig) ->
  exists buf out, Serialize (Some sig) = Val (Ok buf) /\ ConvertToEthCompatible buf = Val (Ok out, sch :: out) /\
    eth_sign false fuel (H sch msg) D k' = Val (Ok out) /\ receive cgo (PkEth k') (H sch msg) (11 :: out) = Val true.
Proof.
  intros cgo fuel rn sch alg D k k' msg opt sig Hc HK HD X' Y' Hs LH S.
  assert (HK' : (pk_X k', pk_Y k') = ecoords (gmul D G)) by congruence.
  apply (Prop_BtcecWhole.C83_sign_exact checked sm sbm add sm_ok sbm_ok add_ok H H_octets nonce nonce_ok sha512 aes eds (eth_sign cgo fuel) rn sch alg D k msg opt Hc HK Hs) in S.
  destruct S as (v & r & s & it & -> & AT & (rb & sb & -> & ER & ES) & Hi & RE). rewrite (digest32 _ LH) in AT, RE.
  assert (OV : octets ((27 + it) :: rb ++ sb)) by (constructor; [unfold is_byte; lia|apply Forall_app; split; [apply ER|apply ES]]).
  assert (LR : length (rb ++ sb) = 64%nat) by (destruct ER as (L1 & _), ES as (L2 & _); rewrite app_length; lia).
  assert (MS : eth_signature E D (value (H sch msg) 0) (nonce D (H sch msg)) ((rb ++ sb) ++ [it])).
  { exists r, s, it. split; [exact AT|]. split; [|split; [exact Hi|exact RE]]. exists (rb ++ sb). split; [reflexivity|]. exists rb, sb. split; [reflexivity|]. split; assumption. }
  destruct (C31_wire_format {| sg_Scheme := sch; sg_Value := VBytes ((27 + it) :: rb ++ sb) |}) as (buf & Sb & Wb); [apply pr_k1; [exact Hs|cbn [length]; lia|exact OV]|].
  assert (BQ : buf = sch :: (27 + it) :: rb ++ sb) by (inversion Wb; reflexivity).
  exists buf, ((rb ++ sb) ++ [it]). split; [exact Sb|]. split.
  { rewrite BQ, C41_ecdsa by assumption. replace ((27 + it - 27) mod 256) with it; [reflexivity|]. rewrite Z.mod_small; lia. }
  split; [apply (C84_sign_nocgo fuel (H sch msg) D k' (H_octets _ _) LH HK'); exact MS|].
  apply eth_signature_gives in MS. destruct MS as (r1 & s1 & v1 & G1 & rs & RQ & RS). destruct (gives_range _ _ _ _ _ _ (nonce_ok D _) G1) as (Rr & Rs1 & Rs2 & AC).
  apply app_inj_tail in RQ as [<- <-]. destruct ER as (L1 & O1 & V1), ES as (L2 & O2 & V2).
  assert (RS' : rs_bytes (rb ++ sb) (value rb 0) (value sb 0)) by (exists rb, sb; split; [reflexivity|]; split; (split; [lia|split; [assumption|reflexivity]])).
  destruct (rs_bytes_fun _ _ _ _ _ RS RS') as [-> ->].
  apply (compact_eth cgo (gmul D G)); try (assumption || lia); [symmetry; exact HK'| |apply H_octets|split; [exact AC|change (eN E) with N; lia]].
  rewrite (k_gmul_zero kS256 D G (k_G_nz kS256)). change (c_N kS256) with N. rewrite Z.mod_small; lia.
Qed.
End All.
Print Assumptions C84_verify_exact.
Print Assumptions C84_receive_exact.
Print Assumptions C84_builds_agree.
Print Assumptions C84_not_malleable.
Print Assumptions C84_sign_cgo.
Print Assumptions C84_sign_nocgo.
Print Assumptions C84_sign_alike.
Print Assumptions C84_sign_verify.
Print Assumptions C84_end_to_end.
Print Assumptions C84_convert.
Print Assumptions C84_convert_signed.

(** ** Examples: the private key 1, the nonce 1 *)
Import Prop_Btcec Prop_BtcecWhole.
Definition ex_gen (k : Z) : Z * Z := ecoords (gmul k G).
Definition ex_mult (q : Z * Z) (a b : Z) : Z * Z := ecoords (e := E) (gadd (gmul a (ref_pt kS256 q)) (gmul b G)).
Lemma ex_mult_ok : forall (Q : point) a b, Q <> gO -> 0 <= a < N -> 0 <= b < N -> ex_mult (ecoords Q) a b = ecoords (gadd (gmul a Q) (gmul b G)).
Proof. intros Q a b _ _ _. unfold ex_mult. change (ecoords (e := E) Q) with (kco kS256 Q). rewrite ref_pt_ok. reflexivity. Qed.
Definition ex_nonce (m b : bytes) (i : nat) : bytes := to_be 32 1.
Definition ex_key : ecpub := {| pk_curve := EthS256; pk_X := c_Gx S256; pk_Y := c_Gy S256 |}.
Definition ex_rs : bytes := to_be 32 (c_Gx S256) ++ to_be 32 (c_Gx S256 + value ex_dg 0).
Definition ex_out : bytes := ex_rs ++ [0].
(** the base point on both secp256k1 curves *)
Lemma ex_sbm_ok : forall c k, octets k -> rsbm c k = ecoords (gmul (value k 0) G).
Proof. intros c k O. exact (ref_sbm_ok kS256 k O). Qed.
Lemma one_range : forall (D : Z) (dg : bytes), 1 <= 1 < c_N S256. Proof. intros; split; [lia|reflexivity]. Qed.
Lemma ex_coords : (pk_X ex_key, pk_Y ex_key) = ecoords (e := E) (gmul 1 G).
Proof. rewrite gmul_1. symmetry. exact s256_G_coords. Qed.
Lemma ex_signature : eth_signature E 1 (value ex_dg 0) 1 ex_out.
Proof.
  assert (LO : low kS256 (c_Gx S256 + value ex_dg 0) = c_Gx S256 + value ex_dg 0) by (vm_compute; reflexivity). unfold low in LO.
  exists (c_Gx S256), (c_Gx S256 + value ex_dg 0), 0. change (eN E) with (c_N kS256). rewrite LO, gmul_1. split; [|split; [|split; [lia|]]].
  - apply dsa_ok; [rewrite gmul_1, s256_G_coords; reflexivity|discriminate|split; reflexivity|]. f_equal.
  - exists ex_rs. split; [reflexivity|]. exists (to_be 32 (c_Gx S256)), (to_be 32 (c_Gx S256 + value ex_dg 0)). split; [reflexivity|]. split; apply encodes32; split; discriminate || reflexivity.
  - rewrite <- ex_digest. exact ex_recovers.
Qed.
Notation ex_eth_sign cgo := (eth_sign rsm rsbm radd ex_gen ex_nonce true (fun _ _ => 1) cgo).
Example C84_example_sign : forall cgo, ex_eth_sign cgo 1 ex_dg 1 ex_key = Val (Ok ex_out).
Proof.
  intros [|].
  - destruct (C84_sign_cgo rsm rsbm radd ex_gen (fun _ _ => eq_refl) ex_nonce (fun _ _ _ => to_be_wf _ _) true (fun _ _ => 1) 1 ex_dg 1 ex_key _ ex_dg_octets eq_refl eq_refl (encodes32 1 ltac:(split; [discriminate|reflexivity]))) as (A & _).
    apply A. split; [exact (one_range 0 [])|]. exists O. assert (V : value (ex_nonce ex_dg (to_be 32 1) 0) 0 = 1) by (unfold ex_nonce; rewrite value_be2z; apply be2z_to_be_small; split; [discriminate|reflexivity]).
    rewrite V. split; [lia|]. split; [intros j C; lia|]. split; [exact (one_range 0 [])|exact ex_signature].
  - apply (C84_sign_nocgo rsm rsbm radd (ref_sm_ok kS256) (ex_sbm_ok S256) (ref_add_ok kS256) ex_gen ex_nonce true (fun _ _ => 1) one_range 1 ex_dg 1 ex_key ex_dg_octets eq_refl ex_coords). exact ex_signature.
Qed.
Notation ex_eth_receive cgo := (receive rsm rsbm radd ex_mult ex_H (fun _ _ _ _ => false) (fun _ _ => Val (Err ""%string)) (fun _ _ _ => false) (fun _ _ _ _ _ => false) cgo).
Notation ex_full_sign cgo := (Signature.Sign ex_H unit (fun _ _ _ _ => Val (Err ""%string)) (fun _ _ _ => Val (Err ""%string)) (fun _ _ => []) (ex_eth_sign cgo 1) (fun _ _ _ _ _ => Val (Err ""%string))).
Example C84_example : forall cgo, exists sig e buf,
  DeserializePrivateKey rsbm [] (21 :: to_be 32 1) = Val (Ok (Some (SkEth 1 ex_key))) /\
  ex_full_sign cgo tt 11 (SkEth 1 ex_key) [104; 105] (OptBool true) = Val (Ok sig) /\
  SerializePublicKey (PkEth ex_key) = Val e /\ Serialize (Some sig) = Val (Ok buf) /\
  forall rng', exists pub, DeserializePublicKey rng' e = Val (Ok pub) /\ ex_eth_receive (negb cgo) pub [104; 105] buf = Val true.
Proof.
  intros cgo. exists {| sg_Scheme := 11; sg_Value := VBytes ex_out |}.
  assert (DK : DeserializePrivateKey rsbm [] (21 :: to_be 32 1) = Val (Ok (Some (SkEth 1 ex_key)))).
  { unfold DeserializePrivateKey. rewrite index_cons0. cbn [bind]. change ((21 =? PK_ECDSA) || (21 =? PK_SM2)) with false. change (21 =? PK_EDDSA) with false. change (21 =? PK_ETHECDSA) with true. cbv iota.
    rewrite slice_tail1. cbn [bind]. unfold eth_ToECDSA. replace (zlen (to_be 32 1) =? 32) with true by (unfold zlen; rewrite to_be_length; reflexivity). cbn [negb].
    rewrite (be2z_to_be_small 32 1) by (split; [discriminate|reflexivity]). change (1 >=? c_N S256) with false. change (1 <=? 0) with false. cbv iota.
    rewrite (ex_sbm_ok EthS256) by apply to_be_wf. rewrite value_be2z, (be2z_to_be_small 32 1), <- ex_coords by (split; [discriminate|reflexivity]). reflexivity. }
  assert (SQ : ex_full_sign cgo tt 11 (SkEth 1 ex_key) [104; 105] (OptBool true) = Val (Ok {| sg_Scheme := 11; sg_Value := VBytes ex_out |})).
  { unfold Signature.Sign. change (11 =? KECCAK256WithECDSA) with true. cbn [negb]. unfold ex_H. change (zlen ex_dg =? 32) with true. cbv iota zeta. rewrite C84_example_sign. reflexivity. }
  destruct (C84_end_to_end rsm rsbm radd (ref_sm_ok kS256) (ex_sbm_ok S256) (ref_add_ok kS256) ex_gen (fun _ _ => eq_refl) ex_mult ex_mult_ok ex_H (fun _ _ => ex_dg_octets) (fun _ => eq_refl)
    (fun _ _ _ _ => false) (fun _ _ => Val (Err ""%string)) (fun _ _ _ => false) (fun _ _ _ _ _ => false) ex_nonce (fun _ _ _ => to_be_wf _ _) true (fun _ _ => 1) one_range (ex_sbm_ok EthS256) unit
    (fun _ _ _ _ => Val (Err ""%string)) (fun _ _ _ => Val (Err ""%string)) (fun _ _ => []) (fun _ _ _ _ _ => Val (Err ""%string)) cgo (negb cgo) 1 [] (21 :: to_be 32 1) 1 ex_key 11 tt [104; 105] (OptBool true) {| sg_Scheme := 11; sg_Value := VBytes ex_out |} DK) as (e & buf & Se & Sb & _ & R).
  - constructor; [lia|apply to_be_wf].
  - repeat constructor; lia.
  - discriminate.
  - intros [_ C]. discriminate C.
  - exact SQ.
  - exists e, buf. repeat (split; [assumption|]). exact R.
Qed.
(** with N - s in place of s it is refused *)
Example C84_example_other : forall cgo t, 0 <= t < 256 -> ex_eth_receive cgo (PkEth ex_key) ex_dg (11 :: ex_rs ++ [t]) = Val true /\
  ex_eth_receive cgo (PkEth ex_key) ex_dg (11 :: (to_be 32 (c_Gx S256) ++ to_be 32 (c_N S256 - (c_Gx S256 + value ex_dg 0))) ++ [1]) <> Val true.
Proof.
  intros cgo t Ht. assert (R1 : 0 <= c_Gx S256 < 2 ^ 256) by (split; [discriminate|reflexivity]). assert (R2 : 0 <= c_Gx S256 + value ex_dg 0 < 2 ^ 256) by (split; [discriminate|reflexivity]).
  assert (R3 : 0 <= c_N S256 - (c_Gx S256 + value ex_dg 0) < 2 ^ 256) by (split; [discriminate|reflexivity]).
  assert (R4 : 0 <= c_Gy S256 < 2 ^ 256) by (split; [discriminate|reflexivity]).
  pose proof (encodes32 _ R1) as E1. pose proof (encodes32 _ R2) as E2. pose proof (encodes32 _ R3) as E3.
  assert (OB : octets (11 :: ex_rs ++ [t])) by (constructor; [lia|]; apply Forall_app; split; [apply Forall_app; split; apply to_be_wf|constructor; [exact Ht|constructor]]).
  assert (V : ex_eth_receive cgo (PkEth ex_key) ex_dg (11 :: ex_rs ++ [t]) = Val true).
  { pose proof (C84_sign_verify rsm rsbm radd (ref_sm_ok kS256) (ex_sbm_ok S256) (ref_add_ok kS256) ex_gen (fun _ _ => eq_refl) ex_mult ex_mult_ok ex_nonce (fun _ _ _ => to_be_wf _ _) true (fun _ _ => 1) one_range
      true cgo 1 ex_dg 1 ex_key ex_out (to_be 32 (c_Gx S256)) (to_be 32 (c_Gy S256)) ex_dg_octets eq_refl eq_refl (one_range 0 []) ex_coords E1 (encodes32 (c_Gy S256) R4) (C84_example_sign true)) as (V & _ & OO).
    apply (C84_verify_exact rsm rsbm radd (ref_sm_ok kS256) (ex_sbm_ok S256) (ref_add_ok kS256) ex_mult ex_mult_ok cgo (c_Gx S256) (c_Gy S256)) in V;
      [|exact E1|exact (encodes32 (c_Gy S256) R4)|exact ex_dg_octets|reflexivity|apply wf_firstn; exact OO].
    destruct V as (Q & r & s & NQ & CQ & RS & AC).
    apply (C84_receive_exact rsm rsbm radd (ref_sm_ok kS256) (ex_sbm_ok S256) (ref_add_ok kS256) ex_mult ex_mult_ok ex_H (fun _ _ => ex_dg_octets) (fun _ => eq_refl)); [discriminate|discriminate|exact ex_dg_octets|exact OB|].
    split; [discriminate|]. exists ex_rs, [t], Q, r, s. split; [reflexivity|]. split; [|repeat (split; [assumption|]); exact AC].
    replace ex_rs with (firstn 64 ex_out); [exact RS|]. unfold ex_out. apply Prop_SigWhole.app_inj_len with (b := skipn 64 (ex_rs ++ [0])) (d := [0]); [|apply firstn_skipn].
    rewrite firstn_length, app_length. unfold ex_rs. rewrite app_length, !to_be_length. reflexivity. }
  split; [exact V|].
  refine (proj1 (C84_not_malleable rsm rsbm radd (ref_sm_ok kS256) (ex_sbm_ok S256) (ref_add_ok kS256) ex_mult ex_mult_ok ex_H (fun _ _ => ex_dg_octets) (fun _ => eq_refl) _ _ _ _
    cgo ex_key ex_dg (to_be 32 (c_Gx S256)) (to_be 32 (c_Gx S256 + value ex_dg 0)) _ (c_Gx S256 + value ex_dg 0) [t] [1] _ _ ex_dg_octets OB _ _ E2 E3 V)); [discriminate|discriminate|repeat constructor; lia|apply to_be_length].
Qed.
(** the signature of C83_example, converted *)
Lemma ex_sign5_eth : forall c es, BtcecWhole.Sign c rsm rsbm radd (fun _ _ => 1) (fun _ => []) (fun _ b => b) ex_H (fun _ _ => []) es (1%nat, Ok []) 5 (SkEC 0 1 ex_pub) [104; 105] OptOther = Val (Ok ex_sig5).
Proof.
  intros c es. rewrite sign_k1 by (reflexivity || lia). pose proof (C82_example_sign c) as S. unfold Btcec.Secp256k1Sign in S. cbn [fst snd] in S.
  unfold BtcecWhole.k1_sign, ex_H. change (pk_X ex_pub) with (c_Gx S256). change (pk_Y ex_pub) with (c_Gy S256). change (kc kS256) with S256 in S. rewrite S. reflexivity.
Qed.
Example C84_example_convert : exists buf out, Serialize (Some ex_sig5) = Val (Ok buf) /\ ConvertToEthCompatible buf = Val (Ok out, 5 :: out) /\
  ex_eth_receive true (PkEth ex_key) (ex_H 5 [104; 105]) (11 :: out) = Val true.
Proof.
  destruct (C84_convert_signed rsm rsbm radd (ref_sm_ok kS256) (ex_sbm_ok S256) (ref_add_ok kS256) ex_gen ex_mult ex_mult_ok ex_H (fun _ _ => ex_dg_octets) (fun _ => eq_refl)
    (fun _ _ _ _ => false) (fun _ _ => Val (Err ""%string)) (fun _ _ _ => false) (fun _ _ _ _ _ => false) ex_nonce true (fun _ _ => 1) one_range (fun _ _ => [])
    (fun _ => []) (fun _ b => b) true 1 (1%nat, Ok []) 5 0 1 ex_pub ex_key [104; 105] OptOther ex_sig5 eq_refl ex_coords (one_range 0 []) eq_refl eq_refl ltac:(lia) eq_refl (ex_sign5_eth _ _)) as (buf & out & A & B & _ & C).
  exists buf, out. split; [exact A|]. split; [exact B|exact C].
Qed.
