(** * Prop_Sig2: properties C35 to C39 (/repo/signature/signature.go: Sign and Verify) *)
From Coq Require Import ZArith String List Bool Lia.
From Verif Require Import Base BaseFacts Curves ECKey Keypair Signature Spec_EC ECFacts ECFacts2 Spec_Keys KeyFacts
  Prop_Keys Prop_Keys2 Spec_Sig SigFacts Prop_Sig.
Import ListNotations.
Open Scope Z_scope.

(** Same content, same verification. *)
Lemma bind_val_ok : forall A B (a : A) (f : A -> go B), bind (Val a) f = f a.
Proof. reflexivity. Qed.

Section Sig.
Variable H : Z -> bytes -> bytes.
Variable rnd : Type.
Variable ecdsaSign : Z -> ecpub -> bytes -> rnd -> go (res (Z * Z)).
Variable ecdsaVerify : ecpub -> bytes -> Z -> Z -> bool.
Variable k1SignCompact : Z -> ecpub -> bytes -> go (res bytes).
Variable k1RecoverCompact : bytes -> bytes -> go (res (Z * Z)).
Variable edSign : bytes -> bytes -> bytes.
Variable edVerify : bytes -> bytes -> bytes -> bool.
Variable ethSign : bytes -> Z -> ecpub -> go (res bytes).
Variable ethVerify : bytes -> bytes -> bytes -> bool.
Variable sm2Sign : rnd -> Z -> ecpub -> bytes -> bytes -> go (res (Z * Z)).
Variable sm2Verify : ecpub -> bytes -> bytes -> Z -> Z -> bool.
Notation Sign := (Sign H rnd ecdsaSign k1SignCompact edSign ethSign sm2Sign).
Notation Verify := (Verify H ecdsaVerify k1RecoverCompact edVerify ethVerify sm2Verify).

(** *** C39 *)
Definition supported_scheme (pri : privkey) (sch : Z) : Prop :=
  match pri with
  | SkEC _ _ _ => 0 <= sch <= 9
  | SkEd _ => sch = 10
  | SkEth _ _ => sch = 11
  | SkOther _ => False
  end.
Theorem C39_unsupported_rejected : forall r sch pri msg opt, ~ supported_scheme pri sch ->
  exists e, Sign r sch pri msg opt = Val (Err e).
Proof.
  intros r sch pri msg opt N. unfold Signature.Sign. destruct pri as [alg d k|b|d k|t]; cbn in N.
  - destruct (GetHash_known sch) eqn:K; cbn [negb]; [|eexists; reflexivity]. apply known_iff in K.
    destruct (Z.eqb_spec sch SM3withSM2) as [->|]; [exfalso; apply N; unfold SM3withSM2; lia|].
    replace (ecdsa_scheme sch) with false by (symmetry; apply ecdsa_scheme_false; lia). eexists; reflexivity.
  - destruct (Z.eqb_spec sch SHA512withEDDSA) as [->|]; [exfalso; apply N; reflexivity|]. eexists; reflexivity.
  - destruct (Z.eqb_spec sch KECCAK256WithECDSA) as [->|]; [exfalso; apply N; reflexivity|]. eexists; reflexivity.
  - eexists; reflexivity.
Qed.

(** How Sign can succeed *)
Inductive signs (r : rnd) (msg : bytes) (opt : sigopt) : Z -> privkey -> signature -> Prop :=
| sg_sm2 : forall alg d k R S' id, id = match opt with OptString s => s | _ => [] end ->
    sm2Sign r d k id msg = Val (Ok (R, S')) ->
    signs r msg opt 9 (SkEC alg d k) {| sg_Scheme := 9; sg_Value := VSM2 R S' (Some (pk_curve k)) id |}
| sg_k1 : forall sch alg d k s, 0 <= sch <= 8 -> c_name (pk_curve k) = c_name S256 -> k1SignCompact d k (H sch msg) = Val (Ok s) ->
    signs r msg opt sch (SkEC alg d k) {| sg_Scheme := sch; sg_Value := VBytes s |}
| sg_ec : forall sch alg d k R S', 0 <= sch <= 8 -> c_name (pk_curve k) <> c_name S256 ->
    ecdsaSign d k (H sch msg) r = Val (Ok (R, S')) ->
    signs r msg opt sch (SkEC alg d k) {| sg_Scheme := sch; sg_Value := VDSA R S' (Some (pk_curve k)) |}
| sg_ed : forall b, length b = 64%nat ->
    signs r msg opt 10 (SkEd b) {| sg_Scheme := 10; sg_Value := VBytes (edSign b msg) |}
| sg_eth : forall d k dg s, dg = (match opt with OptBool true => H 11 msg | _ => msg end) -> length dg = 32%nat ->
    ethSign dg d k = Val (Ok s) -> signs r msg opt 11 (SkEth d k) {| sg_Scheme := 11; sg_Value := VBytes s |}.
Lemma Sign_inv : forall r sch pri msg opt sig, Sign r sch pri msg opt = Val (Ok sig) -> signs r msg opt sch pri sig.
Proof.
  intros r sch pri msg opt sig E. unfold Signature.Sign in E. destruct pri as [alg d k|b|d k|t].
  - destruct (GetHash_known sch) eqn:K; cbn [negb] in E; [|discriminate].
    destruct (Z.eqb_spec sch SM3withSM2) as [->|].
    { apply bind_val in E as ([[R S']|m] & E1 & E2); [|discriminate]. injection E2 as <-. eapply sg_sm2; eauto. }
    destruct (ecdsa_scheme sch) eqn:F; [|discriminate]. apply ecdsa_scheme_iff in F. cbv zeta in E.
    destruct (String.eqb_spec (c_name (pk_curve k)) (c_name S256)).
    + unfold Secp256k1Sign in E. apply bind_val in E as ([s|m] & E1 & E2); [|discriminate]. injection E2 as <-.
      apply sg_k1; assumption.
    + apply bind_val in E as ([[R S']|m] & E1 & E2); [|discriminate]. injection E2 as <-. apply sg_ec; assumption.
  - destruct (Z.eqb_spec sch SHA512withEDDSA) as [->|]; [|discriminate]. cbn [negb] in E.
    destruct (Z.eqb_spec (zlen b) 64) as [L|]; [|discriminate]. injection E as <-. apply sg_ed. unfold zlen in L. lia.
  - destruct (Z.eqb_spec sch KECCAK256WithECDSA) as [->|]; [|discriminate]. cbn [negb] in E. cbv zeta in E.
    set (dg := if match opt with OptBool b => b | _ => false end then H KECCAK256WithECDSA msg else msg) in *.
    destruct (Z.eqb_spec (zlen dg) 32) as [L|]; [|discriminate].
    destruct (ethSign dg d k) as [[s|m]| |] eqn:G; try discriminate. cbn [bind] in E. injection E as <-.
    eapply sg_eth; [|unfold zlen in L; instantiate (1 := dg); lia|exact G]. unfold dg.
    destruct opt as [|[]|]; reflexivity.
  - discriminate.
Qed.
Theorem C39_scheme_recorded : forall r sch pri msg opt sig, Sign r sch pri msg opt = Val (Ok sig) ->
  supported_scheme pri sch /\ sg_Scheme sig = sch.
Proof.
  intros r sch pri msg opt sig E. apply Sign_inv in E. destruct E; cbn; split; (lia || reflexivity).
Qed.

(** *** C37 *)
Theorem C37_nil_or_empty : forall pub msg sig, sig = None \/ msg = [] -> Verify pub msg sig = Val false.
Proof. intros pub msg sig [-> | ->]; [reflexivity|]. destruct sig; reflexivity. Qed.
Definition confused (pub : pubkey) (sig : signature) : Prop :=
  ~ 0 <= sg_Scheme sig <= 11 \/
  match pub with
  | PkEC _ _ => sg_Scheme sig = 10 \/ sg_Scheme sig = 11 \/
      match sg_Value sig with
      | VDSA _ _ _ => sg_Scheme sig = 9
      | VBytes _ => sg_Scheme sig = 9
      | VSM2 _ _ _ _ => 0 <= sg_Scheme sig <= 8
      | VOther _ => True
      end
  | PkEd _ => sg_Scheme sig <> 10
  | PkEth _ => sg_Scheme sig <> 11
  | PkOther _ => True
  end.
Theorem C37_confusion_rejected : forall pub msg sig, confused pub sig -> Verify pub msg (Some sig) = Val false.
Proof.
  intros pub msg sig C. unfold Signature.Verify. destruct (zlen msg =? 0); [reflexivity|].
  destruct (GetHash_known (sg_Scheme sig)) eqn:K; cbn [negb]; [|reflexivity]. apply known_iff in K.
  destruct C as [C|C]; [contradiction|]. destruct pub as [alg k|b|k|t].
  - destruct (ecdsa_scheme (sg_Scheme sig)) eqn:E.
    + apply ecdsa_scheme_iff in E. destruct (sg_Value sig); cbv zeta; (reflexivity || lia).
    + apply ecdsa_scheme_false in E. destruct (Z.eqb_spec (sg_Scheme sig) SM3withSM2) as [E9|]; [|reflexivity].
      unfold SM3withSM2 in E9. destruct (sg_Value sig); (reflexivity || lia).
  - destruct (Z.eqb_spec (sg_Scheme sig) SHA512withEDDSA); [contradiction|reflexivity].
  - destruct (Z.eqb_spec (sg_Scheme sig) KECCAK256WithECDSA); [contradiction|reflexivity].
  - reflexivity.
Qed.

(** *** C38 *)
(** EC keys, of any curve: only RecoverCompact can panic, and it is called for every byte-string value of an ECDSA scheme *)
Theorem C38_ec_panics : forall alg k msg sig why, Verify (PkEC alg k) msg (Some sig) = Panic why <->
  msg <> [] /\ exists sch v, sig = {| sg_Scheme := sch; sg_Value := VBytes v |} /\ 0 <= sch <= 8 /\ k1RecoverCompact v (H sch msg) = Panic why.
Proof.
  intros alg k msg [sch val] why. unfold Signature.Verify. cbn [sg_Scheme sg_Value].
  assert (NO : forall (X : Prop), ~ X -> forall b : bool, (Val b = Panic why <-> X)) by (intros X NX b; split; [discriminate|contradiction]).
  destruct msg as [|m0 msg]; [apply NO; intros [C _]; apply C; reflexivity|]. set (M := m0 :: msg). change (zlen M =? 0) with false. cbv iota.
  destruct (GetHash_known sch) eqn:K; cbn [negb].
  2:{ apply NO. intros (_ & s & v & Q & Hs & _). injection Q as -> _. apply Bool.not_true_iff_false in K. apply K, known_iff. lia. }
  destruct (ecdsa_scheme sch) eqn:F.
  2:{ apply ecdsa_scheme_false in F. assert (NX : ~ (M <> [] /\ exists s v, {| sg_Scheme := sch; sg_Value := val |} = {| sg_Scheme := s; sg_Value := VBytes v |} /\ 0 <= s <= 8 /\ k1RecoverCompact v (H s M) = Panic why)).
      { intros (_ & s & v & Q & Hs & _). injection Q as -> _. lia. }
      destruct (_ =? SM3withSM2); [destruct val; apply NO; exact NX|apply NO; exact NX]. }
  apply ecdsa_scheme_iff in F. cbv zeta. destruct val as [R S' c|R S' c id|v|t]; try (apply NO; intros (_ & s & v' & Q & _); discriminate Q).
  unfold Secp256k1Verify. split.
  - intros P. split; [discriminate|]. exists sch, v. split; [reflexivity|]. split; [exact F|].
    destruct (k1RecoverCompact v (H sch M)) as [[[x y]|e]|w|]; cbn [bind] in P; try discriminate P. congruence.
  - intros (_ & s & v' & Q & _ & P). injection Q as <- <-. rewrite P. reflexivity.
Qed.
Theorem C38_ec_never_panics : (forall sig dg, exists r, k1RecoverCompact sig dg = Val r) ->
  forall alg k msg sig, exists b, Verify (PkEC alg k) msg sig = Val b.
Proof.
  intros T alg k msg sig. unfold Signature.Verify. destruct sig as [sig|]; [|eexists; reflexivity].
  destruct (zlen msg =? 0); [eexists; reflexivity|]. destruct (negb _); [eexists; reflexivity|].
  destruct (ecdsa_scheme _); [destruct (sg_Value sig) as [| |v|]; cbv zeta; try (eexists; reflexivity)|].
  - unfold Secp256k1Verify. destruct (T v (H (sg_Scheme sig) msg)) as [[[x y]|e] ->]; eexists; reflexivity.
  - destruct (_ =? SM3withSM2); [destruct (sg_Value sig); eexists; reflexivity|]. eexists; reflexivity.
Qed.
Theorem C38_ed25519_never_panics : forall buf sig key msg, Deserialize buf = Val (Ok sig) -> length key = 32%nat ->
  exists b, Verify (PkEd key) msg (Some sig) = Val b.
Proof.
  intros buf sig key msg E L. unfold Signature.Verify.
  destruct (zlen msg =? 0); [eexists; reflexivity|]. destruct (negb _); [eexists; reflexivity|].
  destruct (Z.eqb_spec (sg_Scheme sig) SHA512withEDDSA) as [S|]; [|eexists; reflexivity]. unfold SHA512withEDDSA in S.
  destruct (Deserialize_cases buf) as [[e C]|(sg & sch & data & C & Sp & D)]; rewrite C in E; [discriminate|].
  injection E as <-. replace (zlen key) with 32 by (unfold zlen; lia). change (32 =? 32) with true.
  destruct D as [H1 H2|a b H1 H2 H3|id a b H1 H2 H3 H4|H1]; cbn [sg_Value sg_Scheme] in *; try lia; eexists; reflexivity.
Qed.
(** Ethereum keys (coordinates of field size): the network input crashes Verify exactly when it
    is 0x0b followed by 1 to 62 bytes. *)
Theorem C38_ethereum_panics : forall buf sig k msg, Deserialize buf = Val (Ok sig) -> msg <> [] ->
  pk_X k < 256 ^ 32 -> pk_Y k < 256 ^ 32 ->
  ((exists why, Verify (PkEth k) msg (Some sig) = Panic why) <->
   exists data, buf = 11 :: data /\ (1 <= length data <= 62)%nat) /\
  ((exists b, Verify (PkEth k) msg (Some sig) = Val b) <->
   ~ exists data, buf = 11 :: data /\ (1 <= length data <= 62)%nat).
Proof.
  intros buf sig k msg E Hm HX HY.
  assert (Key : ((exists why, Verify (PkEth k) msg (Some sig) = Panic why) /\
     exists data, buf = 11 :: data /\ (1 <= length data <= 62)%nat) \/
     ((exists b, Verify (PkEth k) msg (Some sig) = Val b) /\
     ~ exists data, buf = 11 :: data /\ (1 <= length data <= 62)%nat)).
  { destruct (Deserialize_cases buf) as [[e C]|(sg & sch & data & C & Sp & D)]; rewrite C in E; [discriminate|].
    injection E as ->.
    assert (M : (zlen msg =? 0) = false) by (destruct msg; [congruence|reflexivity]).
    destruct (Z.eq_dec sch 11) as [->|N].
    - inversion Sp as [|t d Nd Ld]; subst.
      assert (Esig : sig = {| sg_Scheme := 11; sg_Value := VBytes data |}).
      { destruct D; try lia; reflexivity. }
      subst sig. unfold Signature.Verify. rewrite M. cbn [sg_Scheme sg_Value].
      change (GetHash_known 11) with true. change (11 =? KECCAK256WithECDSA) with true. cbn [negb].
      unfold eth_FromECDSAPub. destruct (Z.ltb_spec (pk_X k) (256 ^ 32)); [|lia].
      destruct (Z.ltb_spec (pk_Y k) (256 ^ 32)); [|lia]. cbn [andb]. rewrite bind_val_ok.
      assert (1 <= length data)%nat by (destruct data; [congruence|cbn [length]; lia]).
      destruct (Z_le_dec 64 (zlen data)) as [L|L].
      + right. rewrite slice_ok by lia. rewrite bind_val_ok. split.
        * destruct (negb _); eexists; reflexivity.
        * intros (d & Ed & Ld'). injection Ed as <-. unfold zlen in L. lia.
      + left. split.
        * unfold slice. destruct (Z.leb_spec 64 (zlen data)); [lia|]. rewrite !andb_false_r. eexists; reflexivity.
        * exists data. split; [reflexivity|]. unfold zlen in L. lia.
    - right. split.
      + eexists. apply C37_confusion_rejected. right. destruct D; cbn [sg_Scheme]; lia.
      + intros (d & -> & Ld). inversion Sp; subst; [cbn [length] in *; lia|congruence]. }
  destruct Key as [[[w W] D]|[[b W] D]]; split; split.
  - intros _. exact D.
  - intros _. exists w. exact W.
  - intros [b B]. congruence.
  - intros C. destruct (C D).
  - intros [w B]. congruence.
  - intros C. destruct (D C).
  - intros _. exact D.
  - intros _. exists b. exact W.
Qed.

(** *** C35 and C36 *)
(** The primitives verify their own signatures, for key pairs in the relation [owns]
    (scalar and its public key) resp. [owns_ed] (64-byte keys whose last half is the public key),
    and have the usual output ranges. *)
Variable owns : Z -> ecpub -> Prop.
Variable owns_ed : bytes -> Prop.
Hypothesis ecdsa_ok : forall d k dg r R S', owns d k -> ecdsaSign d k dg r = Val (Ok (R, S')) ->
  ecdsaVerify k dg R S' = true /\ 0 <= R < c_N (pk_curve k) /\ 0 <= S' < c_N (pk_curve k).
Hypothesis k1_ok : forall d k dg s, owns d k -> pk_curve k = S256 -> k1SignCompact d k dg = Val (Ok s) ->
  k1RecoverCompact s dg = Val (Ok (pk_X k, pk_Y k)) /\ length s = 65%nat /\ octets s.
Hypothesis ed_ok : forall b msg, owns_ed b -> length b = 64%nat ->
  edVerify (skipn 32 b) msg (edSign b msg) = true /\ length (edSign b msg) = 64%nat /\ octets (edSign b msg).
Hypothesis eth_ok : forall d k dg s xb yb, owns d k -> length dg = 32%nat -> ethSign dg d k = Val (Ok s) ->
  encodes 32 (pk_X k) xb -> encodes 32 (pk_Y k) yb ->
  ethVerify (4 :: xb ++ yb) dg (firstn 64 s) = true /\ length s = 65%nat /\ octets s.
Hypothesis sm2_ok : forall r d k id msg R S', owns d k -> sm2Sign r d k id msg = Val (Ok (R, S')) ->
  pk_curve k = SM2P256V1 /\ sm2Verify k id msg R S' = true /\ 0 <= R < c_N SM2P256V1 /\ 0 <= S' < c_N SM2P256V1.

Inductive key_pair : privkey -> pubkey -> Prop :=
| kp_ec : forall alg alg' d k a, owns d k -> supported (pk_curve k) a -> key_pair (SkEC alg d k) (PkEC alg' k)
| kp_ed : forall b, owns_ed b -> length b = 64%nat -> key_pair (SkEd b) (PkEd (skipn 32 b))
| kp_eth : forall d k, owns d k -> 0 <= pk_X k < 256 ^ 32 -> 0 <= pk_Y k < 256 ^ 32 -> key_pair (SkEth d k) (PkEth k).

Lemma k1_name : forall c a, supported c a -> (c_name c = c_name S256 <-> c = S256).
Proof. intros c a Hc. destruct Hc; vm_compute; split; intros E; first [reflexivity|discriminate E]. Qed.

(** Ethereum keys with opt = true (hash the message first) and a message of 32 bytes *)
Definition double_use (pri : privkey) (msg : bytes) (opt : sigopt) : Prop :=
  match pri with SkEth _ _ => opt = OptBool true /\ length msg = 32%nat | _ => False end.

Lemma eth_key : forall k, 0 <= pk_X k < 256 ^ 32 -> 0 <= pk_Y k < 256 ^ 32 ->
  eth_FromECDSAPub k = Val (4 :: to_be 32 (pk_X k) ++ to_be 32 (pk_Y k)).
Proof.
  intros k HX HY. unfold eth_FromECDSAPub. destruct (Z.ltb_spec (pk_X k) (256 ^ 32)); [|lia].
  destruct (Z.ltb_spec (pk_Y k) (256 ^ 32)); [reflexivity|lia].
Qed.
Lemma verify_eth : forall k msg s, 0 <= pk_X k < 256 ^ 32 -> 0 <= pk_Y k < 256 ^ 32 -> msg <> [] -> length s = 65%nat ->
  Verify (PkEth k) msg (Some {| sg_Scheme := 11; sg_Value := VBytes s |}) =
  Val (ethVerify (4 :: to_be 32 (pk_X k) ++ to_be 32 (pk_Y k)) (if (length msg =? 32)%nat then msg else H 11 msg) (firstn 64 s)).
Proof.
  intros k msg s HX HY Hm L. unfold Signature.Verify.
  assert (M : (zlen msg =? 0) = false) by (destruct msg; [congruence|reflexivity]). rewrite M.
  cbn [sg_Scheme sg_Value]. change (GetHash_known 11) with true. change (11 =? KECCAK256WithECDSA) with true. cbn [negb].
  rewrite eth_key by assumption. rewrite bind_val_ok. rewrite slice_ok by (unfold zlen; lia). rewrite bind_val_ok.
  change (Z.to_nat 0) with O. cbn [skipn]. change (Z.to_nat (64 - 0)) with 64%nat.
  destruct (Nat.eqb_spec (length msg) 32) as [E|E].
  - replace (zlen msg =? 32) with true by (unfold zlen; rewrite E; reflexivity). reflexivity.
  - destruct (Z.eqb_spec (zlen msg) 32) as [C|_]; [unfold zlen in C; lia|]. reflexivity.
Qed.

Theorem C35_sign_verify : forall r sch pri pub msg opt sig, key_pair pri pub ->
  Sign r sch pri msg opt = Val (Ok sig) -> msg <> [] -> ~ double_use pri msg opt ->
  Verify pub msg (Some sig) = Val true.
Proof.
  intros r sch pri pub msg opt sig KP E Hm ND. apply Sign_inv in E.
  assert (M : (zlen msg =? 0) = false) by (destruct msg; [congruence|reflexivity]).
  destruct E as [alg d k R S' id Hid E|sch alg d k s Hs Hn E|sch alg d k R S' Hs Hn E|b L|d k dg s Hd L E];
    inversion KP; subst.
  - unfold Signature.Verify. rewrite M. cbn [sg_Scheme sg_Value]. match goal with O : owns _ _ |- _ => destruct (sm2_ok _ _ _ _ _ _ _ O E) as (_ & V & _) end.
    change (GetHash_known 9) with true. cbn [negb]. change (ecdsa_scheme 9) with false.
    change (9 =? SM3withSM2) with true. cbv iota. rewrite V. reflexivity.
  - match goal with O : owns _ _ , Sp : supported _ _ |- _ =>
      apply (k1_name _ _ Sp) in Hn; destruct (k1_ok _ _ _ _ O Hn E) as [V _] end.
    unfold Signature.Verify. rewrite M. cbn [sg_Scheme sg_Value].
    replace (GetHash_known sch) with true by (symmetry; apply known_iff; lia). cbn [negb].
    apply ecdsa_scheme_iff in Hs. rewrite Hs. cbv zeta. unfold Secp256k1Verify. rewrite V. cbn [bind]. rewrite !Z.eqb_refl. reflexivity.
  - match goal with O : owns _ _ |- _ => destruct (ecdsa_ok _ _ _ _ _ _ O E) as [V _] end.
    unfold Signature.Verify. rewrite M. cbn [sg_Scheme sg_Value].
    replace (GetHash_known sch) with true by (symmetry; apply known_iff; lia). cbn [negb].
    apply ecdsa_scheme_iff in Hs. rewrite Hs. cbv zeta. rewrite V. reflexivity.
  - match goal with O : owns_ed _ |- _ => destruct (ed_ok _ msg O L) as [V _] end.
    unfold Signature.Verify. rewrite M. cbn [sg_Scheme sg_Value]. change (GetHash_known 10) with true.
    change (10 =? SHA512withEDDSA) with true. cbn [negb].
    replace (zlen (skipn 32 b) =? 32) with true by (unfold zlen; rewrite skipn_length, L; reflexivity).
    rewrite V. reflexivity.
  - set (dg := match opt with OptBool true => H 11 msg | _ => msg end) in *.
    match goal with O : owns _ _, X : 0 <= pk_X _ < _, Y : 0 <= pk_Y _ < _ |- _ =>
      destruct (eth_ok _ _ _ _ (to_be 32 (pk_X k)) (to_be 32 (pk_Y k)) O L E (encodes_to_be 32 _ X) (encodes_to_be 32 _ Y)) as (V & L' & _);
      rewrite verify_eth by assumption end.
    replace (if (length msg =? 32)%nat then msg else H 11 msg) with dg; [rewrite V; reflexivity|].
    unfold dg in *. cbn in ND. destruct opt as [id|[]|].
    + rewrite L. reflexivity.
    + destruct (Nat.eqb_spec (length msg) 32); [exfalso; apply ND; auto|reflexivity].
    + rewrite L. reflexivity.
    + rewrite L. reflexivity.
Qed.
(** The excluded case: what is verified is the message itself, what was signed is its hash. *)
Theorem C35_double_use : forall r sch d k msg sig, key_pair (SkEth d k) (PkEth k) ->
  Sign r sch (SkEth d k) msg (OptBool true) = Val (Ok sig) -> length msg = 32%nat ->
  exists s, ethSign (H 11 msg) d k = Val (Ok s) /\
    Verify (PkEth k) msg (Some sig) = Val (ethVerify (4 :: to_be 32 (pk_X k) ++ to_be 32 (pk_Y k)) msg (firstn 64 s)).
Proof.
  intros r sch d k msg sig KP E Lm. apply Sign_inv in E. inversion E; subst. inversion KP; subst.
  exists s. split; [assumption|].
  match goal with O : owns _ _, X : 0 <= pk_X _ < _, Y : 0 <= pk_Y _ < _, L : length (H 11 msg) = _, G : ethSign _ _ _ = _ |- _ =>
    destruct (eth_ok _ _ _ _ (to_be 32 (pk_X k)) (to_be 32 (pk_Y k)) O L G (encodes_to_be 32 _ X) (encodes_to_be 32 _ Y)) as (_ & L' & _);
    rewrite verify_eth by (assumption || (intros ->; discriminate)) end.
  rewrite Lm. reflexivity.
Qed.
(** Nothing that Sign returns for the empty message verifies. *)
Theorem C35_empty_message : forall r sch pri pub opt sig, Sign r sch pri [] opt = Val (Ok sig) ->
  Verify pub [] (Some sig) = Val false.
Proof. intros. apply C37_nil_or_empty. right. reflexivity. Qed.

Lemma Sign_produced : forall r sch pri pub msg opt sig, key_pair pri pub ->
  (forall id, opt = OptString id -> octets id) -> Sign r sch pri msg opt = Val (Ok sig) -> produced sig.
Proof.
  intros r sch pri pub msg opt sig KP OI E. apply Sign_inv in E.
  destruct E as [alg d k R S' id Hid E|sch alg d k s Hs Hn E|sch alg d k R S' Hs Hn E|b L|d k dg s Hd L E];
    inversion KP; subst.
  - match goal with O : owns _ _ |- _ => destruct (sm2_ok _ _ _ _ _ _ _ O E) as (Hc & _ & HR & HS) end.
    rewrite Hc. apply pr_sm2; try assumption. destruct opt; [apply OI; reflexivity|constructor|constructor].
  - match goal with O : owns _ _ , Sp : supported _ _ |- _ =>
      apply (k1_name _ _ Sp) in Hn; destruct (k1_ok _ _ _ _ O Hn E) as (_ & L & O') end.
    apply pr_k1; assumption.
  - match goal with O : owns _ _ |- _ => destruct (ecdsa_ok _ _ _ _ _ _ O E) as (_ & HR & HS) end.
    eapply pr_dsa; try eassumption. intros C. apply Hn. rewrite C. reflexivity.
  - match goal with O : owns_ed _ |- _ => destruct (ed_ok _ msg O L) as (_ & L' & O') end. apply pr_ed; assumption.
  - match goal with O : owns _ _, X : 0 <= pk_X _ < _, Y : 0 <= pk_Y _ < _ |- _ =>
      destruct (eth_ok _ _ _ _ (to_be 32 (pk_X k)) (to_be 32 (pk_Y k)) O L E (encodes_to_be 32 _ X) (encodes_to_be 32 _ Y)) as (_ & L' & O') end.
    apply pr_eth; assumption.
Qed.
Lemma Verify_same : forall pub msg sig sig', same_content sig sig' -> Verify pub msg (Some sig) = Verify pub msg (Some sig').
Proof. intros pub msg sig sig' SC. destruct SC; reflexivity. Qed.

(** the user ID that Sign uses *)
Definition opt_id (opt : sigopt) : bytes := match opt with OptString s => s | _ => [] end.
Theorem C36_end_to_end : forall r sch pri pub msg opt sig, key_pair pri pub ->
  Sign r sch pri msg opt = Val (Ok sig) -> msg <> [] -> ~ double_use pri msg opt ->
  octets (opt_id opt) -> ~ In 0 (opt_id opt) ->
  exists e sig', Serialize (Some sig) = Val (Ok e) /\ Deserialize e = Val (Ok sig') /\
    Verify pub msg (Some sig') = Val true.
Proof.
  intros r sch pri pub msg opt sig KP E Hm ND OI NZ.
  assert (P : produced sig) by (eapply Sign_produced; [exact KP|intros id Ei; rewrite Ei in OI; exact OI|exact E]).
  pose proof (C35_sign_verify r sch pri pub msg opt sig KP E Hm ND) as V.
  destruct (C31_roundtrip sig P) as (e & sig' & Se & De & SC).
  - apply Sign_inv in E. destruct E; try easy. cbn. subst. exact NZ.
  - exists e, sig'. split; [exact Se|]. split; [exact De|]. rewrite <- (Verify_same pub msg _ _ SC). exact V.
Qed.
End Sig.
Print Assumptions C35_sign_verify.
Print Assumptions C35_double_use.
Print Assumptions C35_empty_message.
Print Assumptions C36_end_to_end.
Print Assumptions C37_nil_or_empty.
Print Assumptions C37_confusion_rejected.
Print Assumptions C38_ec_panics.
Print Assumptions C38_ec_never_panics.
Print Assumptions C38_ed25519_never_panics.
Print Assumptions C38_ethereum_panics.
Print Assumptions C39_unsupported_rejected.
Print Assumptions C39_scheme_recorded.

(** ** Examples: the hypotheses of C35 and C36 can be met, by (insecure) stand-ins for the
    primitives, and Sign then succeeds for keys of each kind *)
Definition toy_H (s : Z) (m : bytes) : bytes := repeat (be2z m mod 256) 32.
Definition toy_ecdsaSign (d : Z) (k : ecpub) (dg : bytes) (r : Z) : go (res (Z * Z)) :=
  Val (Ok ((be2z dg + r) mod c_N (pk_curve k), (d + r) mod c_N (pk_curve k))).
Definition toy_ecdsaVerify (k : ecpub) (dg : bytes) (R Sv : Z) : bool :=
  (R - be2z dg - Sv + pk_X k) mod c_N (pk_curve k) =? 0.
Definition toy_k1Sign (d : Z) (k : ecpub) (dg : bytes) : go (res bytes) := Val (Ok (to_be 65 d)).
Definition toy_k1Recover (s dg : bytes) : go (res (Z * Z)) := Val (Ok (be2z s, be2z s)).
Definition toy_edSign (b m : bytes) : bytes := b.
Definition toy_edVerify (k m s : bytes) : bool := bytes_eqb k (skipn 32 s).
Definition toy_ethSign (dg : bytes) (d : Z) (k : ecpub) : go (res bytes) := Val (Ok (to_be 32 d ++ repeat 0 33)).
Definition toy_ethVerify (kb dg s : bytes) : bool := bytes_eqb (firstn 32 s) (firstn 32 (tl kb)).
Definition toy_sm2Sign (r d : Z) (k : ecpub) (id m : bytes) : go (res (Z * Z)) :=
  if curve_eqb (pk_curve k) SM2P256V1 then
    Val (Ok (be2z (m ++ id) mod c_N (pk_curve k), d mod c_N (pk_curve k)))
  else Val (Err "the curve type is not SM2Curve"%string).
Definition toy_sm2Verify (k : ecpub) (id m : bytes) (R Sv : Z) : bool :=
  (R =? be2z (m ++ id) mod c_N (pk_curve k)) && (Sv =? pk_X k mod c_N (pk_curve k)).
Definition toy_owns (d : Z) (k : ecpub) : Prop :=
  0 < c_N (pk_curve k) /\ 0 <= d < 256 ^ 32 /\ pk_X k = d /\ pk_Y k = d.
Lemma toy_ecdsa_ok : forall d k dg r R S', toy_owns d k -> toy_ecdsaSign d k dg r = Val (Ok (R, S')) ->
  toy_ecdsaVerify k dg R S' = true /\ 0 <= R < c_N (pk_curve k) /\ 0 <= S' < c_N (pk_curve k).
Proof.
  intros d k dg r R S' (HN & Hd & HX & HY) E. injection E as <- <-.
  split; [|split; apply Z.mod_pos_bound; assumption]. unfold toy_ecdsaVerify. apply Z.eqb_eq. rewrite HX.
  replace ((be2z dg + r) mod c_N (pk_curve k) - be2z dg - (d + r) mod c_N (pk_curve k) + d)
    with ((d + r) / c_N (pk_curve k) * c_N (pk_curve k) + - ((be2z dg + r) / c_N (pk_curve k)) * c_N (pk_curve k)).
  - rewrite Z.mod_add by lia. apply Z.mod_mul. lia.
  - rewrite (Z.mod_eq (be2z dg + r)), (Z.mod_eq (d + r)) by lia. ring.
Qed.
Lemma toy_k1_ok : forall d k dg s, toy_owns d k -> pk_curve k = S256 -> toy_k1Sign d k dg = Val (Ok s) ->
  toy_k1Recover s dg = Val (Ok (pk_X k, pk_Y k)) /\ length s = 65%nat /\ octets s.
Proof.
  intros d k dg s (HN & Hd & HX & HY) _ E. unfold toy_k1Sign in E.
  assert (Es : s = to_be 65 d) by congruence. subst s. unfold toy_k1Recover.
  rewrite (be2z_to_be_small 65 d), HX, HY by lia. split; [reflexivity|]. split; [apply to_be_length|apply to_be_wf].
Qed.
Lemma toy_ed_ok : forall b msg, octets b -> length b = 64%nat ->
  toy_edVerify (skipn 32 b) msg (toy_edSign b msg) = true /\ length (toy_edSign b msg) = 64%nat /\ octets (toy_edSign b msg).
Proof. intros b msg O L. split; [apply bytes_eqb_refl|split; assumption]. Qed.
Lemma toy_eth_ok : forall d k dg s xb yb, toy_owns d k -> length dg = 32%nat -> toy_ethSign dg d k = Val (Ok s) ->
  encodes 32 (pk_X k) xb -> encodes 32 (pk_Y k) yb ->
  toy_ethVerify (4 :: xb ++ yb) dg (firstn 64 s) = true /\ length s = 65%nat /\ octets s.
Proof.
  intros d k dg s xb yb (HN & Hd & HX & HY) L E Ex Ey. apply encodes_fun in Ex. unfold toy_ethSign in E.
  assert (Es : s = to_be 32 d ++ repeat 0 33) by congruence. subst s. split; [|split].
  - unfold toy_ethVerify. cbn [tl]. rewrite firstn_firstn. change (Nat.min 32 64) with 32%nat.
    rewrite firstn_app_l by (symmetry; apply to_be_length). rewrite Ex, HX.
    rewrite firstn_app_l by (symmetry; apply to_be_length). apply bytes_eqb_refl.
  - rewrite app_length, to_be_length. reflexivity.
  - apply wf_app. split; [apply to_be_wf|apply wf_repeat; unfold is_byte; lia].
Qed.
Lemma toy_sm2_ok : forall r d k id msg R S', toy_owns d k -> toy_sm2Sign r d k id msg = Val (Ok (R, S')) ->
  pk_curve k = SM2P256V1 /\ toy_sm2Verify k id msg R S' = true /\ 0 <= R < c_N SM2P256V1 /\ 0 <= S' < c_N SM2P256V1.
Proof.
  intros r d k id msg R S' (HN & Hd & HX & HY) E. unfold toy_sm2Sign in E.
  destruct (curve_eqb (pk_curve k) SM2P256V1) eqn:C; [|discriminate].
  assert (Hc : pk_curve k = SM2P256V1) by (apply curve_eqb_eq; exact C). clear C.
  injection E as <- <-. split; [exact Hc|]. rewrite <- Hc.
  split; [|split; apply Z.mod_pos_bound; assumption]. unfold toy_sm2Verify. rewrite HX, !Z.eqb_refl. reflexivity.
Qed.
Definition toy_key (c : curve) (d : Z) : ecpub := {| pk_curve := c; pk_X := d; pk_Y := d |}.
Notation toy_Sign := (Sign toy_H Z toy_ecdsaSign toy_k1Sign toy_edSign toy_ethSign toy_sm2Sign).
Notation toy_pair := (key_pair toy_owns octets).
Example C35_example_ec : exists sig, toy_Sign 77 7 (SkEC 0 5 (toy_key P384 5)) [1; 2; 3] OptOther = Val (Ok sig) /\
  toy_pair (SkEC 0 5 (toy_key P384 5)) (PkEC 0 (toy_key P384 5)).
Proof. eexists. split; [reflexivity|]. eapply kp_ec; [repeat split; lia|apply sup_P384]. Qed.
Example C35_example_sm2 : exists sig, toy_Sign 77 9 (SkEC 1 5 (toy_key SM2P256V1 5)) [1; 2; 3] (OptString [66; 111; 98]) = Val (Ok sig) /\
  toy_pair (SkEC 1 5 (toy_key SM2P256V1 5)) (PkEC 1 (toy_key SM2P256V1 5)).
Proof. eexists. split; [reflexivity|]. eapply kp_ec; [repeat split; lia|apply sup_SM2]. Qed.
Example C35_example_k1 : exists sig, toy_Sign 77 1 (SkEC 0 5 (toy_key S256 5)) [1; 2; 3] OptOther = Val (Ok sig) /\
  toy_pair (SkEC 0 5 (toy_key S256 5)) (PkEC 0 (toy_key S256 5)).
Proof. eexists. split; [reflexivity|]. eapply kp_ec; [repeat split; lia|apply sup_S256]. Qed.
Example C35_example_ed : exists sig, toy_Sign 77 10 (SkEd (repeat 3 64)) [1; 2; 3] OptOther = Val (Ok sig) /\
  toy_pair (SkEd (repeat 3 64)) (PkEd (skipn 32 (repeat 3 64))).
Proof. eexists. split; [reflexivity|]. apply kp_ed; [apply wf_repeat; unfold is_byte; lia|reflexivity]. Qed.
Example C35_example_eth : exists sig, toy_Sign 77 11 (SkEth 5 (toy_key EthS256 5)) [1; 2; 3] (OptBool true) = Val (Ok sig) /\
  toy_pair (SkEth 5 (toy_key EthS256 5)) (PkEth (toy_key EthS256 5)) /\ ~ double_use (SkEth 5 (toy_key EthS256 5)) [1; 2; 3] (OptBool true).
Proof.
  eexists. split; [reflexivity|]. split; [apply kp_eth; [repeat split; lia|cbn [toy_key pk_X]; lia|cbn [toy_key pk_Y]; lia]|].
  intros [_ C]. discriminate.
Qed.
(** C36 instantiated: the SM2 signature with ID "Bob" travels over the wire *)
Example C36_example : exists sig e sig', toy_Sign 77 9 (SkEC 1 5 (toy_key SM2P256V1 5)) [1; 2; 3] (OptString [66; 111; 98]) = Val (Ok sig) /\
  Serialize (Some sig) = Val (Ok e) /\ Deserialize e = Val (Ok sig') /\
  Verify toy_H toy_ecdsaVerify toy_k1Recover toy_edVerify toy_ethVerify toy_sm2Verify
    (PkEC 1 (toy_key SM2P256V1 5)) [1; 2; 3] (Some sig') = Val true.
Proof.
  destruct C35_example_sm2 as (sig & E & KP). exists sig.
  destruct (C36_end_to_end toy_H Z toy_ecdsaSign toy_ecdsaVerify toy_k1Sign toy_k1Recover toy_edSign toy_edVerify
    toy_ethSign toy_ethVerify toy_sm2Sign toy_sm2Verify toy_owns octets toy_ecdsa_ok toy_k1_ok toy_ed_ok toy_eth_ok toy_sm2_ok
    _ _ _ _ _ _ _ KP E) as (e & sig' & H1 & H2 & H3).
  - discriminate.
  - intros [].
  - repeat constructor; lia.
  - cbn. lia.
  - exists e, sig'. auto.
Qed.
(** C38: a RecoverCompact that panics is reached with keys of every curve *)
Example C38_example_ec : exists sig, Deserialize (8 :: repeat 27 65) = Val (Ok sig) /\
  Verify toy_H toy_ecdsaVerify (fun _ _ => Panic "nil pointer dereference") toy_edVerify toy_ethVerify toy_sm2Verify
    (PkEC 0 (toy_key P384 5)) [1] (Some sig) = Panic "nil pointer dereference".
Proof.
  eexists. split; [reflexivity|]. apply C38_ec_panics. split; [discriminate|].
  exists 8, (repeat 27 65). split; [reflexivity|]. split; [lia|reflexivity].
Qed.
(** C37: an ECDSA value under the SM2 scheme; C38: the two bytes 0b 01 *)
Example C37_example : confused (PkEC 0 (toy_key P256 5)) {| sg_Scheme := 9; sg_Value := VDSA 1 1 None |} /\
  confused (PkEd (repeat 1 32)) {| sg_Scheme := 3; sg_Value := VDSA 1 1 None |}.
Proof. split; right; cbn; [auto|discriminate]. Qed.
Example C38_example : exists sig, Deserialize [11; 1] = Val (Ok sig) /\
  exists why, Verify toy_H toy_ecdsaVerify toy_k1Recover toy_edVerify toy_ethVerify toy_sm2Verify
    (PkEth (toy_key EthS256 5)) [1] (Some sig) = Panic why.
Proof.
  eexists. split; [reflexivity|].
  apply (C38_ethereum_panics toy_H toy_ecdsaVerify toy_k1Recover toy_edVerify toy_ethVerify toy_sm2Verify [11; 1]);
    [reflexivity|discriminate|cbn [toy_key pk_X]; lia|cbn [toy_key pk_Y]; lia|].
  exists [1]. split; [reflexivity|]. cbn. lia.
Qed.
Example C39_example : ~ supported_scheme (SkEd (repeat 3 64)) 9 /\ ~ supported_scheme (SkEC 0 5 (toy_key P256 5)) 11.
Proof. cbn. lia. Qed.
