(** * Prop_Sig3: property C66, what Verify accepts (/repo/signature/signature.go) *)
From Coq Require Import ZArith String List Bool Lia.
From Verif Require Import Base BaseFacts Curves ECKey Keypair Signature Spec_EC ECFacts ECFacts2 Spec_Keys KeyFacts
  Prop_Keys Spec_Sig SigFacts Prop_Sig.
Import ListNotations.
Open Scope Z_scope.

Section Accept.
Variable H : Z -> bytes -> bytes.
Variable ecdsaVerify : ecpub -> bytes -> Z -> Z -> bool.
Variable k1RecoverCompact : bytes -> bytes -> go (res (Z * Z)).
Variable edVerify : bytes -> bytes -> bytes -> bool.
Variable ethVerify : bytes -> bytes -> bytes -> bool.
Variable sm2Verify : ecpub -> bytes -> bytes -> Z -> Z -> bool.
Notation Verify := (Verify H ecdsaVerify k1RecoverCompact edVerify ethVerify sm2Verify).

(** The signatures a public key accepts, one case per primitive: plain ECDSA on the digest of
    the named hash; compact secp256k1 signatures from which both coordinates of the key are
    recovered; SM2; Ed25519; Ethereum, where a 32-byte message is its own digest, the key is in
    uncompressed form and the recovery byte is ignored. *)
Inductive accepts (msg : bytes) : pubkey -> signature -> Prop :=
| ac_dsa : forall alg k sch R S' c, 0 <= sch <= 8 -> ecdsaVerify k (H sch msg) R S' = true ->
    accepts msg (PkEC alg k) {| sg_Scheme := sch; sg_Value := VDSA R S' c |}
| ac_k1 : forall alg k sch v x y, 0 <= sch <= 8 -> k1RecoverCompact v (H sch msg) = Val (Ok (x, y)) -> x = pk_X k -> y = pk_Y k ->
    accepts msg (PkEC alg k) {| sg_Scheme := sch; sg_Value := VBytes v |}
| ac_sm2 : forall alg k R S' c id, sm2Verify k id msg R S' = true ->
    accepts msg (PkEC alg k) {| sg_Scheme := 9; sg_Value := VSM2 R S' c id |}
| ac_ed : forall key v, length key = 32%nat -> edVerify key msg v = true ->
    accepts msg (PkEd key) {| sg_Scheme := 10; sg_Value := VBytes v |}
| ac_eth : forall k xb yb dg rs rest, encodes 32 (pk_X k) xb -> encodes 32 (pk_Y k) yb ->
    (length msg = 32%nat /\ dg = msg \/ length msg <> 32%nat /\ dg = H 11 msg) ->
    length rs = 64%nat -> ethVerify (4 :: xb ++ yb) dg rs = true ->
    accepts msg (PkEth k) {| sg_Scheme := 11; sg_Value := VBytes (rs ++ rest) |}.

Theorem C66_accepts_iff : forall pub msg sig,
  (forall k, pub = PkEth k -> 0 <= pk_X k /\ 0 <= pk_Y k) ->
  (Verify pub msg (Some sig) = Val true <-> msg <> [] /\ accepts msg pub sig).
Proof.
  intros pub msg sig Hk. split.
  - intros E. unfold Signature.Verify in E. destruct msg as [|m0 msg]; [discriminate|]. split; [discriminate|].
    set (M := m0 :: msg) in *. change (zlen M =? 0) with false in E. cbv iota in E.
    destruct (GetHash_known (sg_Scheme sig)) eqn:K; cbn [negb] in E; [|discriminate]. apply known_iff in K.
    destruct sig as [sch v]. cbn [sg_Scheme sg_Value] in *. destruct pub as [alg k|b|k|t].
    + destruct (ecdsa_scheme sch) eqn:F.
      * apply ecdsa_scheme_iff in F. cbv zeta in E. destruct v as [R S' c| |bv|]; try discriminate.
        -- apply ac_dsa; [exact F|congruence].
        -- unfold Secp256k1Verify in E. apply bind_val in E as ([[x y]|e] & G & E1); [|discriminate].
           apply val_inj in E1. apply andb_prop in E1 as [X Y]. apply Z.eqb_eq in X, Y. apply (ac_k1 _ _ _ _ _ x y); assumption.
      * destruct (Z.eqb_spec sch SM3withSM2) as [->|]; [|discriminate]. destruct v; try discriminate.
        apply ac_sm2. congruence.
    + destruct (Z.eqb_spec sch SHA512withEDDSA) as [->|]; [|discriminate]. destruct v as [| |bv|]; try discriminate.
      destruct (Z.eqb_spec (zlen b) 32) as [L|]; [|discriminate]. apply ac_ed; [unfold zlen in L; lia|congruence].
    + destruct (Z.eqb_spec sch KECCAK256WithECDSA) as [->|]; [|discriminate]. cbn [negb] in E.
      destruct (Hk k eq_refl) as [HX HY]. unfold eth_FromECDSAPub in E.
      destruct (Z.ltb_spec (pk_X k) (256 ^ 32)) as [LX|]; [|discriminate].
      destruct (Z.ltb_spec (pk_Y k) (256 ^ 32)) as [LY|]; [|discriminate]. cbn [andb] in E.
      apply bind_val in E as (kb & E1 & E). destruct v as [| |bv|]; try discriminate.
      apply bind_val in E as (v64 & E2 & E).
      unfold slice in E2. destruct (Z.leb_spec 64 (zlen bv)) as [L|L]; [|rewrite !andb_false_r in E2; discriminate].
      cbn in E2. apply val_inj in E2. change (firstn 64 bv = v64) in E2.
      rewrite <- (firstn_skipn 64 bv), E2.
      apply (ac_eth _ _ (to_be 32 (pk_X k)) (to_be 32 (pk_Y k)) (if negb (zlen M =? 32) then H 11 M else M)).
      * apply encodes_to_be. lia.
      * apply encodes_to_be. lia.
      * destruct (Z.eqb_spec (zlen M) 32) as [Q|Q]; cbn [negb]; unfold zlen in Q; [left|right]; split; try reflexivity; lia.
      * rewrite <- E2, firstn_length. unfold zlen in L. lia.
      * apply val_inj in E1. subst kb. destruct (negb (zlen M =? 32)); apply val_inj in E; exact E.
    + discriminate.
  - intros [NE A]. unfold Signature.Verify. assert (M : (zlen msg =? 0) = false) by (destruct msg; [congruence|reflexivity]).
    rewrite M. destruct A as [alg k sch R S' c B V|alg k sch v x y B V -> ->|alg k R S' c id V|key v L V|k xb yb dg rs rest HX HY D L V];
      cbn [sg_Scheme sg_Value].
    + replace (GetHash_known sch) with true by (symmetry; apply known_iff; lia). cbn [negb].
      replace (ecdsa_scheme sch) with true by (symmetry; apply ecdsa_scheme_iff; lia). cbv zeta. rewrite V. reflexivity.
    + replace (GetHash_known sch) with true by (symmetry; apply known_iff; lia). cbn [negb].
      replace (ecdsa_scheme sch) with true by (symmetry; apply ecdsa_scheme_iff; lia). cbv zeta.
      unfold Secp256k1Verify. rewrite V. cbn [bind]. rewrite !Z.eqb_refl. reflexivity.
    + change (GetHash_known 9) with true. change (ecdsa_scheme 9) with false. change (9 =? SM3withSM2) with true.
      cbn [negb]. cbv iota. rewrite V. reflexivity.
    + change (GetHash_known 10) with true. change (10 =? SHA512withEDDSA) with true. cbn [negb]. cbv iota.
      replace (zlen key) with 32 by (unfold zlen; lia). change (32 =? 32) with true. cbv iota. rewrite V. reflexivity.
    + change (GetHash_known 11) with true. change (11 =? KECCAK256WithECDSA) with true. cbn [negb]. cbv iota.
      assert (B : forall z b, encodes 32 z b -> b = to_be 32 z /\ (z <? 256 ^ 32) = true).
      { intros z b Hb. split; [exact (encodes_fun 32 z b Hb)|]. apply Z.ltb_lt. apply encodes_inv in Hb as (B1 & B2 & <-).
        pose proof (be2z_bound b B2) as B3. rewrite B1 in B3. exact (proj2 B3). }
      destruct (B _ _ HX) as [-> LX]. destruct (B _ _ HY) as [-> LY]. unfold eth_FromECDSAPub. rewrite LX, LY. cbn [andb bind].
      rewrite (slice_ok Z (rs ++ rest) 0 64) by (unfold zlen; pose proof (app_length rs rest); lia). cbn [bind].
      change (skipn (Z.to_nat 0) (rs ++ rest)) with (rs ++ rest). change (Z.to_nat (64 - 0)) with 64%nat.
      rewrite firstn_app, L, Nat.sub_diag, app_nil_r, firstn_all2 by lia.
      destruct D as [[Lm ->]|[Lm ->]].
      * replace (zlen msg =? 32) with true by (symmetry; apply Z.eqb_eq; unfold zlen; lia). cbn [negb]. rewrite V. reflexivity.
      * replace (zlen msg =? 32) with false by (symmetry; apply Z.eqb_neq; unfold zlen; lia). cbn [negb].
        change KECCAK256WithECDSA with 11. rewrite V. reflexivity.
Qed.
End Accept.
Print Assumptions C66_accepts_iff.
(** a compact signature recovering to the key, and to the key with the other ordinate *)
Example C66_example :
  let V x y := Verify (fun _ m => m) (fun _ _ _ _ => false) (fun _ _ => Val (Ok (x, y))) (fun _ _ _ => false) (fun _ _ _ => false)
    (fun _ _ _ _ _ => false) (PkEC ECDSA {| pk_curve := S256; pk_X := 5; pk_Y := 6 |}) [1]
    (Some {| sg_Scheme := 1; sg_Value := VBytes [1; 2; 3] |}) in
  V 5 6 = Val true /\ V 5 7 = Val false.
Proof. split; reflexivity. Qed.
