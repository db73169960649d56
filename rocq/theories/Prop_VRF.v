(** * Prop_VRF: C53, C54, C57, C58 *)
From Coq Require Import ZArith Znumtheory String List Bool Lia.
From Verif Require Import Base BaseFacts Curves ECKey Keypair NumTheory Spec_EC ECFacts ECFacts2 Prop_EC VRF Spec_VRF VRFFacts VRFFacts2.
Import ListNotations.
Open Scope Z_scope.

(** ** C58: key validation *)
Definition vrf_curve (c : curve) : Prop :=
  c_bits c = 224 \/ c_bits c = 384 \/
  (c_bits c = 256 /\ (c_name c = "sm2p256v1" \/ c_name c = "P-256" \/ c_name c = "secp256k1"))%string.
Lemma getHash_iff : forall c, (exists h, getHash c = Some h) <-> vrf_curve c.
Proof.
  intros c. unfold getHash, vrf_curve. change (c_name S256) with "secp256k1"%string.
  destruct (Z.eqb_spec (c_bits c) 224) as [E|E]; [split; [auto 9|intros; eexists; reflexivity]|].
  destruct (Z.eqb_spec (c_bits c) 256) as [E2|E2].
  - destruct (String.eqb_spec (c_name c) "sm2p256v1") as [N1|N1]; [split; [auto 9|intros; eexists; reflexivity]|].
    destruct (String.eqb_spec (c_name c) "P-256") as [N2|N2]; [split; [auto 9|intros; eexists; reflexivity]|].
    destruct (String.eqb_spec (c_name c) "secp256k1") as [N3|N3]; [split; [auto 9|intros; eexists; reflexivity]|].
    cbn [orb]. split; [intros [h H]; discriminate|]. intros [H|[H|[_ [H|[H|H]]]]]; (contradiction || lia).
  - destruct (Z.eqb_spec (c_bits c) 384) as [E3|E3]; [split; [auto 9|intros; eexists; reflexivity]|].
    split; [intros [h H]; discriminate|]. intros [H|[H|[H _]]]; contradiction.
Qed.
Theorem C58_public : forall pub, ValidatePublicKey pub = true <-> exists alg k, pub = PkEC alg k /\ vrf_curve (pk_curve k).
Proof.
  intros pub. destruct pub as [alg k| | |]; cbn [ValidatePublicKey];
    try (split; [discriminate|intros (alg' & k' & E & _); discriminate]).
  split.
  - intros E. exists alg, k. split; [reflexivity|]. apply getHash_iff.
    destruct (getHash (pk_curve k)) as [h|]; [exists h; reflexivity|discriminate].
  - intros (alg' & k' & E & V). injection E as _ <-. apply getHash_iff in V as [h ->]. reflexivity.
Qed.
Print Assumptions C58_public.
Theorem C58_private : forall pri, ValidatePrivateKey pri = true <-> exists alg d k, pri = SkEC alg d k /\ vrf_curve (pk_curve k).
Proof.
  intros pri. destruct pri as [alg d k| | |]; cbn [ValidatePrivateKey];
    try (split; [discriminate|intros (alg' & d' & k' & E & _); discriminate]).
  split.
  - intros E. exists alg, d, k. split; [reflexivity|]. apply getHash_iff.
    destruct (getHash (pk_curve k)) as [h|]; [exists h; reflexivity|discriminate].
  - intros (alg' & d' & k' & E & V). injection E as _ _ <-. apply getHash_iff in V as [h ->]. reflexivity.
Qed.
Print Assumptions C58_private.
(** among the named curves only P-521 is excluded; go-ethereum's nameless secp256k1 is, too *)
Theorem C58_named : forall c a, supported c a -> (vrf_curve c <-> c <> P521).
Proof.
  intros c a Hs. split.
  - intros V ->. destruct V as [V|[V|[V _]]]; discriminate.
  - intros N. destruct Hs; try contradiction; unfold vrf_curve; cbn; auto 6.
Qed.
Print Assumptions C58_named.
Example C58_examples : vrf_curve P224 /\ vrf_curve SM2P256V1 /\ ~ vrf_curve P521 /\ ~ vrf_curve EthS256.
Proof.
  split; [left; reflexivity|]. split; [right; right; split; [reflexivity|left; reflexivity]|].
  split; (intros [V|[V|[V W]]]; try discriminate). destruct W as [W|[W|W]]; discriminate.
Qed.

Section Ops.
Variable hash : hkind -> bytes -> bytes.
Hypothesis hash_ok : forall h m, wf_bytes (hash h m) /\ zlen (hash h m) = hSize h.

(** ** C57: the hash helpers *)
Section Helpers.
Variables (c : curve) (a : Z) (h : hkind).
Hypothesis Hs : supported c a.
Hypothesis Hh : hSize h = byteLen c.
Let Hn := field_bytes_byteLen c a Hs.

Theorem C57_int_exact : forall m s,
  (exists fuel, hashToInt hash fuel c h m = Val s) <-> to_int (hash h) (byteLen c) (c_N c) m s.
Proof.
  intros m s. split.
  - intros [fuel E]. apply (h2i_sound hash hash_ok c a h (byteLen c) Hs Hn Hh fuel 0); [lia|intros; lia|exact E].
  - intros [i Hi B L]. exists (S (Z.to_nat i)).
    pose proof (h2i_complete hash hash_ok c a h (byteLen c) Hs Hn Hh (S (Z.to_nat i)) 0 m (Z.to_nat i) ltac:(lia)) as Q.
    rewrite Z.add_0_l, Z2Nat.id in Q by lia. apply Q; [|exact L|lia]. intros j Hj. apply B. lia.
Qed.
Theorem C57_int_range : forall fuel m s, hashToInt hash fuel c h m = Val s -> 1 <= s <= c_N c - 1.
Proof.
  intros fuel m s E. apply (to_int_range hash hash_ok c h (byteLen c) Hh m).
  apply C57_int_exact. exists fuel. exact E.
Qed.
Theorem C57_int_diverges_iff : forall m,
  (forall fuel, hashToInt hash fuel c h m = OutOfFuel) <->
  (forall i, 0 <= i -> c_N c - 1 <= candidate (hash h) (byteLen c) i m).
Proof.
  intros m. split.
  - intros D. assert (G : forall k : nat, forall j, 0 <= j < Z.of_nat k -> c_N c - 1 <= candidate (hash h) (byteLen c) j m).
    { induction k; intros j Hj; [lia|]. destruct (Z.eq_dec j (Z.of_nat k)) as [->|]; [|apply IHk; lia].
      destruct (Z_lt_le_dec (candidate (hash h) (byteLen c) (Z.of_nat k) m) (c_N c - 1)) as [L|L]; [exfalso|exact L].
      assert (T : to_int (hash h) (byteLen c) (c_N c) m (candidate (hash h) (byteLen c) (Z.of_nat k) m + 1))
        by (constructor; [lia|exact IHk|exact L]).
      apply C57_int_exact in T as [fuel E]. rewrite D in E. discriminate. }
    intros i Hi. apply (G (S (Z.to_nat i))). lia.
  - intros B fuel. destruct (h2i_vals hash hash_ok c a h (byteLen c) Hs Hn Hh fuel 0 m) as [[s E]|E]; [exfalso|exact E].
    assert (T : to_int (hash h) (byteLen c) (c_N c) m s) by (apply C57_int_exact; exists fuel; exact E).
    destruct T as [i Hi _ L]. specialize (B i Hi). lia.
Qed.
Theorem C57_curve_sound : forall rng m x y, hashToCurve hash rng c h m = Val (Some (x, y)) ->
  to_point (hash h) (byteLen c) c a m x y /\ curve_eq (c_P c) a (c_B c) x y /\ Z.even y = true /\ 0 <= y < c_P c.
Proof.
  intros rng m x y E.
  assert (T : to_point (hash h) (byteLen c) c a m x y)
    by (apply (h2c_sound hash hash_ok c a h (byteLen c) Hs Hn Hh 100 0 rng); [lia|reflexivity|intros; lia|exact E]).
  split; [exact T|]. destruct T as [i y Hi B HP C R P]. split; [exact C|]. split; [exact P|exact R].
Qed.
Theorem C57_curve_complete : forall rng m x y, to_point (hash h) (byteLen c) c a m x y ->
  hashToCurve hash rng c h m = Val (Some (x, y)) \/ (c = P224 /\ hashToCurve hash rng c h m = OutOfFuel).
Proof. exact (hashToCurve_point hash hash_ok c a h (byteLen c) Hs Hn Hh). Qed.
Theorem C57_curve_none : forall rng m, hashToCurve hash rng c h m = Val None ->
  forall i, 0 <= i < 100 -> ~ has_point c a (candidate (hash h) (byteLen c) i m).
Proof.
  intros rng m E. apply (h2c_none hash hash_ok c a h (byteLen c) Hs Hn Hh 100 0 rng); [lia|reflexivity|intros; lia|exact E].
Qed.
Theorem C57_curve_total : forall rng m, (exists p, hashToCurve hash rng c h m = Val p) \/
  (c = P224 /\ hashToCurve hash rng c h m = OutOfFuel).
Proof. intros rng m. exact (h2c_vals hash hash_ok c a h (byteLen c) Hs Hn Hh 100 0 rng m). Qed.
(** so two runs agree, whatever the square roots draw *)
Lemma hashToCurve_det : forall rng rng' m p q, hashToCurve hash rng c h m = Val p -> hashToCurve hash rng' c h m = Val q -> p = q.
Proof.
  intros rng rng' m p q E E'. destruct p as [[x y]|].
  - destruct (C57_curve_complete rng' m x y) as [Q|[_ Q]]; [apply (C57_curve_sound rng); exact E|congruence|congruence].
  - destruct q as [[x y]|]; [|reflexivity].
    destruct (C57_curve_complete rng m x y) as [Q|[_ Q]]; [apply (C57_curve_sound rng'); exact E'|congruence|congruence].
Qed.
End Helpers.

Variable sha256 : bytes -> bytes.
Variable sbm : curve -> bytes -> Z * Z.
Variable sm : curve -> Z * Z -> bytes -> Z * Z.
Variable add : curve -> Z * Z -> Z * Z -> Z * Z.
Variable onCurve : curve -> Z * Z -> bool.
Notation Vrf := (Vrf hash sha256 sbm sm).
Notation Verify := (Verify hash sha256 sbm sm add onCurve).

(** without a point both Vrf and Verify panic *)
Theorem C57_no_point_panics : forall fuel rng r alg D k h msg pkb,
  getHash (pk_curve k) = Some h -> byteLen (pk_curve k) = hSize h ->
  Marshal (pk_curve k) (pk_X k, pk_Y k) = Val pkb ->
  hashToCurve hash rng (pk_curve k) h (pkb ++ msg) = Val None ->
  Vrf fuel rng (Ok r) (SkEC alg D k) msg = Panic "nil pointer dereference".
Proof.
  intros fuel rng r alg D k h msg pkb G Hh M C. unfold VRF.Vrf. rewrite G. unfold Evaluate. cbv zeta.
  rewrite Hh, Z.eqb_refl. cbn [negb]. rewrite M. cbn [bind]. rewrite C. reflexivity.
Qed.

(** ** C53: the output does not depend on the randomness *)
Theorem C53_vrf_deterministic : forall a fuel fuel' rng rng' r r' alg alg' D k msg v p v' p',
  supported (pk_curve k) a ->
  Vrf fuel rng r (SkEC alg D k) msg = Val (Ok (v, p)) ->
  Vrf fuel' rng' r' (SkEC alg' D k) msg = Val (Ok (v', p')) -> v = v'.
Proof.
  intros a fuel fuel' rng rng' r r' alg alg' D k msg v p v' p' Hs E E'.
  assert (R : forall fuel rng r alg v p, Vrf fuel rng r (SkEC alg D k) msg = Val (Ok (v, p)) ->
    exists h pkb H, getHash (pk_curve k) = Some h /\ Marshal (pk_curve k) (pk_X k, pk_Y k) = Val pkb /\
      hashToCurve hash rng (pk_curve k) h (pkb ++ msg) = Val (Some H) /\
      Marshal (pk_curve k) (sm (pk_curve k) H (big_bytes D)) = Val v).
  { clear. intros fuel rng r alg v p E. unfold VRF.Vrf in E.
    destruct (getHash (pk_curve k)) as [h|] eqn:G; [|discriminate]. cbv zeta in E.
    unfold Evaluate in E. cbv zeta in E. destruct (negb _); [discriminate|]. destruct r as [r|]; [|discriminate].
    destruct (Marshal (pk_curve k) (pk_X k, pk_Y k)) as [pkb| |] eqn:M; try discriminate. cbn [bind] in E.
    destruct (hashToCurve hash rng (pk_curve k) h (pkb ++ msg)) as [[H|]| |] eqn:C; try discriminate. cbn [bind] in E.
    destruct (Marshal (pk_curve k) (sm (pk_curve k) H (big_bytes D))) as [u| |] eqn:MU; try discriminate. cbn [bind] in E.
    destruct (transcript _ _ _ _ _ _) as [b| |]; try discriminate. cbn [bind] in E.
    destruct (hashToInt _ _ _ _ _) as [s| |]; try discriminate. cbn [bind] in E.
    assert (PL : forall z zb, padded (pk_curve k) z = Val zb -> zlen zb = byteLen (pk_curve k)).
    { intros z zb P. unfold padded, make_bytes in P. destruct (Z.leb_spec 0 (byteLen (pk_curve k) - zlen (big_bytes z))); [|discriminate].
      cbn [bind] in P. injection P as <-. rewrite zlen_app. unfold zlen at 1. unfold zeros. rewrite repeat_length. lia. }
    destruct (padded (pk_curve k) s) as [sb| |] eqn:PS; try discriminate. cbn [bind] in E.
    destruct (padded _ _) as [tb| |] eqn:PT in E; try discriminate. cbn [bind] in E.
    apply PL in PS. apply PL in PT. set (n := byteLen (pk_curve k)) in *.
    destruct (slice _ 0 _) as [nz| |]; try discriminate. cbn [bind] in E.
    assert (LU : zlen u = 2 * n + 1).
    { unfold Marshal in MU. cbv zeta in MU. destruct (_ && _); [|discriminate]. injection MU as <-. fold n.
      assert (0 <= n) by (rewrite <- PS; apply zlen_nonneg).
      unfold zlen. cbn [length]. rewrite app_length, !to_be_length. lia. }
    assert (S3 : slice (sb ++ tb ++ u) (2 * n) (2 * n + 2 * n + 1) = Val u).
    { pose proof (slice_app3 _ (sb ++ tb) u [] (2 * n) (2 * n + 2 * n + 1)) as Q. rewrite app_nil_r, <- app_assoc in Q.
      apply Q; rewrite !zlen_app; lia. }
    rewrite S3 in E. cbn [bind] in E. injection E as <- <-.
    exists h, pkb, H. split; [reflexivity|]. split; [reflexivity|]. split; [exact C|exact MU]. }
  destruct (R _ _ _ _ _ _ E) as (h & pkb & H & G & M & C & MU).
  destruct (R _ _ _ _ _ _ E') as (h' & pkb' & H' & G' & M' & C' & MU').
  assert (h' = h) by congruence. assert (pkb' = pkb) by congruence. subst h' pkb'.
  assert (EH : Some H = Some H').
  { eapply (hashToCurve_det (pk_curve k) a h Hs); [symmetry; symmetry; apply (getHash_size _ a); assumption|exact C|exact C']. }
  injection EH as <-. congruence.
Qed.

(** ** C54: Verify *)
Theorem C54_error_iff : forall fuel rng pub msg vrf nizk b e,
  Verify fuel rng pub msg vrf nizk = Val (b, Some e) <->
  ValidatePublicKey pub = false /\ b = false /\ e = "only support ECC key"%string.
Proof.
  intros fuel rng pub msg vrf nizk b e. unfold VRF.Verify, ValidatePublicKey.
  destruct pub as [alg k| | |];
    try (split; [intros E; injection E as <- <-; auto|intros (_ & -> & ->); reflexivity]).
  destruct (getHash (pk_curve k)) as [h|].
  - split; [|intros [D _]; discriminate]. cbv zeta. destruct (_ || _); [discriminate|].
    intros E. destruct (ProofToHash _ _ _ _ _ _ _ _ _ _ _ _) as [[x|x]| |]; discriminate.
  - split; [intros E; injection E as <- <-; auto|intros (_ & -> & ->); reflexivity].
Qed.
Theorem C54_lengths : forall fuel rng pub msg vrf nizk alg k,
  pub = PkEC alg k -> ValidatePublicKey pub = true ->
  zlen vrf <> 2 * byteLen (pk_curve k) + 1 \/ zlen nizk <> 2 * byteLen (pk_curve k) ->
  Verify fuel rng pub msg vrf nizk = Val (false, None).
Proof.
  intros fuel rng pub msg vrf nizk alg k -> V L. unfold VRF.Verify, ValidatePublicKey in *.
  destruct (getHash (pk_curve k)) as [h|]; [|discriminate]. cbv zeta.
  destruct (Z.eqb_spec (zlen vrf) (byteLen (pk_curve k) * 2 + 1)); [|reflexivity].
  destruct (Z.eqb_spec (zlen nizk) (byteLen (pk_curve k) * 2)); [|reflexivity]. lia.
Qed.

Section Accept.
Variables (a : Z) (k : ecpub) (h : hkind).
Hypothesis Hs : supported (pk_curve k) a.
Hypothesis G : getHash (pk_curve k) = Some h.
Hypothesis pk_nonneg : 0 <= pk_X k /\ 0 <= pk_Y k.
Hypothesis add_nonneg : forall p q, 0 <= fst (add (pk_curve k) p q) /\ 0 <= snd (add (pk_curve k) p q).
Let c := pk_curve k.
Let n := byteLen c.
Let Hh : hSize h = n := getHash_size c a h Hs G.
Notation accepts := (accepts (hash h) n c a (sbm c) (sm c) (add c) (onCurve c) (pk_X k, pk_Y k)).

Lemma verify_shape : forall fuel rng alg msg vrf sb tb, zlen vrf = 2 * n + 1 -> zlen sb = n -> zlen tb = n ->
  Verify fuel rng (PkEC alg k) msg vrf (sb ++ tb) =
  (match Unmarshal onCurve c vrf with
   | None => Val (false, None)
   | Some U =>
       let* pkb := Marshal c (pk_X k, pk_Y k) in
       let* H := hashToCurve hash rng c h (pkb ++ msg) in
       match H with
       | None => Panic "nil pointer dereference"
       | Some H =>
           let* b := transcript c H (pk_X k, pk_Y k) vrf (add c (sbm c tb) (sm c (pk_X k, pk_Y k) sb))
                       (add c (sm c H tb) (sm c U sb)) in
           let* h2 := hashToInt hash fuel c h b in
           let* hb := padded c h2 in
           Val (bytes_eqb sb hb, None)
       end
   end).
Proof.
  intros fuel rng alg msg vrf sb tb Lv Ls Lt. unfold VRF.Verify. rewrite G. cbv zeta. fold c n.
  destruct (Z.eqb_spec (zlen vrf) (n * 2 + 1)) as [_|]; [|lia].
  destruct (Z.eqb_spec (zlen (sb ++ tb)) (n * 2)) as [_|C]; [|rewrite zlen_app in C; lia].
  cbn [negb orb]. rewrite (proof_shape hash sha256 sbm sm add onCurve fuel rng k h msg sb tb vrf); try assumption; [|symmetry; exact Hh].
  cbv zeta. fold c. destruct (Unmarshal onCurve c vrf) as [U|]; [|reflexivity].
  destruct (Marshal c (pk_X k, pk_Y k)) as [pkb| |]; try reflexivity. cbn [bind].
  destruct (hashToCurve hash rng c h (pkb ++ msg)) as [[H|]| |]; try reflexivity. cbn [bind].
  destruct (transcript _ _ _ _ _ _) as [b| |]; try reflexivity. cbn [bind].
  destruct (hashToInt _ _ _ _ _) as [s| |]; try reflexivity. cbn [bind].
  destruct (padded _ _) as [hb| |]; try reflexivity. cbn [bind]. destruct (bytes_eqb sb hb); reflexivity.
Qed.

Theorem C54_undecodable_rejected : forall fuel rng alg msg vrf nizk, wf_bytes vrf ->
  (forall x y, sec1_uncompressed n x y vrf -> x < c_P c -> y < c_P c -> onCurve c (x, y) = false) ->
  Verify fuel rng (PkEC alg k) msg vrf nizk = Val (false, None).
Proof.
  intros fuel rng alg msg vrf nizk W B.
  destruct (Z.eq_dec (zlen vrf) (2 * n + 1)) as [Lv|Lv].
  2:{ apply (C54_lengths _ _ _ _ _ _ alg k eq_refl); [cbn [ValidatePublicKey]; rewrite G; reflexivity|left; exact Lv]. }
  destruct (Z.eq_dec (zlen nizk) (2 * n)) as [Ln|Ln].
  2:{ apply (C54_lengths _ _ _ _ _ _ alg k eq_refl); [cbn [ValidatePublicKey]; rewrite G; reflexivity|right; exact Ln]. }
  pose proof (proj1 (field_bytes_byteLen c a Hs)) as N0. fold n in N0.
  destruct (split_at nizk n ltac:(lia)) as (sb & tb & -> & Ls). rewrite zlen_app in Ln.
  rewrite verify_shape by lia. destruct (Unmarshal onCurve c vrf) as [[x y]|] eqn:U; [exfalso|reflexivity].
  apply (unmarshal_iff onCurve c a vrf (x, y) Hs W) in U as (S & P1 & P2 & O). cbn [fst snd] in *.
  rewrite (B x y S P1 P2) in O. discriminate.
Qed.

Theorem C54_accepted_sound : forall fuel rng alg msg vrf nizk, wf_bytes vrf ->
  Verify fuel rng (PkEC alg k) msg vrf nizk = Val (true, None) -> accepts msg vrf nizk.
Proof.
  intros fuel rng alg msg vrf nizk W E.
  assert (V : ValidatePublicKey (PkEC alg k) = true) by (cbn [ValidatePublicKey]; rewrite G; reflexivity).
  destruct (Z.eq_dec (zlen vrf) (2 * n + 1)) as [Lv|Lv].
  2:{ rewrite (C54_lengths fuel rng _ msg vrf nizk alg k eq_refl V (or_introl Lv)) in E. discriminate. }
  destruct (Z.eq_dec (zlen nizk) (2 * n)) as [Ln|Ln].
  2:{ rewrite (C54_lengths fuel rng _ msg vrf nizk alg k eq_refl V (or_intror Ln)) in E. discriminate. }
  pose proof (field_bytes_byteLen c a Hs) as Fn. pose proof (proj1 Fn) as N0. fold n in N0, Fn.
  destruct (split_at nizk n ltac:(lia)) as (sb & tb & -> & Ls). rewrite zlen_app in Ln.
  rewrite verify_shape in E by lia.
  destruct (Unmarshal onCurve c vrf) as [[ux uy]|] eqn:U; [|discriminate].
  apply (unmarshal_iff onCurve c a vrf (ux, uy) Hs W) in U as (SU & P1 & P2 & O). cbn [fst snd] in *.
  destruct (Marshal c (pk_X k, pk_Y k)) as [pkb| |] eqn:MP; try discriminate. cbn [bind] in E.
  destruct (hashToCurve hash rng c h (pkb ++ msg)) as [[[hx hy]|]| |] eqn:C; try discriminate. cbn [bind] in E.
  destruct (C57_curve_sound c a h Hs Hh rng _ hx hy C) as (T & _ & _ & Ry).
  assert (Rx : 0 <= hx) by (destruct T; apply (candidate_nonneg hash hash_ok h n Hh)).
  unfold transcript in E.
  destruct (Marshal c (c_Gx c, c_Gy c)) as [gb| |] eqn:MG; try discriminate. cbn [bind] in E.
  destruct (Marshal c (hx, hy)) as [hb| |] eqn:MH; try discriminate. cbn [bind] in E.
  rewrite MP in E. cbn [bind] in E.
  destruct (Marshal c (add c (sbm c tb) (sm c (pk_X k, pk_Y k) sb))) as [ab| |] eqn:MA; try discriminate. cbn [bind] in E.
  destruct (Marshal c (add c (sm c (hx, hy) tb) (sm c (ux, uy) sb))) as [bb| |] eqn:MB; try discriminate. cbn [bind] in E.
  destruct (hashToInt hash fuel c h _) as [s| |] eqn:I; try discriminate. cbn [bind] in E.
  assert (TI : to_int (hash h) n (c_N c) (gb ++ hb ++ pkb ++ vrf ++ ab ++ bb) s)
    by (apply (C57_int_exact c a h Hs Hh); exists fuel; exact I).
  pose proof (C57_int_range c a h Hs Hh fuel _ s I) as Rs. pose proof (order_fits c a Hs) as OF. fold n in OF.
  rewrite (padded_val c a Hs s) in E by (fold n; lia). cbn [bind] in E. fold n in E.
  injection E as E. apply bytes_eqb_eq in E.
  assert (NN : Z.of_nat (Z.to_nat n) = n) by lia.
  assert (NG : 0 <= c_Gx c /\ 0 <= c_Gy c) by (unfold c; destruct Hs; split; discriminate).
  apply (accepts_intro (hash h) n c a (sbm c) (sm c) (add c) (onCurve c) (pk_X k, pk_Y k) msg vrf (sb ++ tb)
    sb tb ux uy hx hy s pkb gb hb ab bb); try assumption; try reflexivity.
  - unfold zlen in *. lia.
  - apply (marshal_iff c a Hs (pk_X k, pk_Y k)); try apply pk_nonneg; assumption.
  - apply (marshal_iff c a Hs (c_Gx c, c_Gy c)); try apply NG; assumption.
  - apply (marshal_iff c a Hs (hx, hy)); try apply Ry; assumption.
  - apply (marshal_iff c a Hs); try apply add_nonneg; assumption.
  - apply (marshal_iff c a Hs); try apply add_nonneg; assumption.
  - rewrite E. rewrite <- NN at 1. apply encodes_to_be. rewrite NN. lia.
Qed.

(** Conversely a proof that satisfies the relation is accepted.  On P-224 the model can run out of
    random draws for the square root, where the code would go on drawing. *)
Theorem C54_accepted_complete : forall alg msg vrf nizk, wf_bytes vrf -> accepts msg vrf nizk ->
  exists F, forall fuel rng, (F <= fuel)%nat ->
    Verify fuel rng (PkEC alg k) msg vrf nizk = Val (true, None) \/
    (c = P224 /\ Verify fuel rng (PkEC alg k) msg vrf nizk = OutOfFuel).
Proof.
  intros alg msg vrf nizk W [sb tb ux uy hx hy s pkb gb hb ab bb -> Lt SU P1 P2 O SP T SG SH SA SB TI ES].
  pose proof (field_bytes_byteLen c a Hs) as Fn. pose proof (proj1 Fn) as N0. fold n in N0, Fn.
  assert (NN : Z.of_nat (Z.to_nat n) = n) by lia.
  destruct TI as [i Hi B L] eqn:TIe. exists (S (Z.to_nat i)). intros fuel rng HF.
  set (m2 := gb ++ hb ++ pkb ++ vrf ++ ab ++ bb) in *.
  assert (I : hashToInt hash fuel c h m2 = Val (candidate (hash h) n i m2 + 1)).
  { pose proof (h2i_complete hash hash_ok c a h n Hs Fn Hh fuel 0 m2 (Z.to_nat i) ltac:(lia)) as Q.
    rewrite Z.add_0_l, Z2Nat.id in Q by lia. apply Q; [|exact L|lia]. intros j Hj. apply B. lia. }
  set (s := candidate (hash h) n i m2 + 1) in *.
  destruct (encodes_inv _ _ _ ES) as (Ls & _ & _).
  pose proof (encodes_range _ _ _ ES) as Rs.
  assert (Lv : zlen vrf = 2 * n + 1).
  { pose proof (sec1_fun _ _ _ _ SU) as ->. rewrite zlen_cons, zlen_app. unfold zlen. rewrite !to_be_length. lia. }
  rewrite verify_shape; [|exact Lv|exact Ls|unfold zlen; exact Lt].
  assert (U : Unmarshal onCurve c vrf = Some (ux, uy)).
  { apply (unmarshal_iff onCurve c a vrf (ux, uy) Hs W). cbn [fst snd]. auto. }
  rewrite U.
  assert (NG : 0 <= c_Gx c /\ 0 <= c_Gy c) by (unfold c; destruct Hs; split; discriminate).
  assert (Rxy : 0 <= hx /\ 0 <= hy).
  { destruct T; split; [apply (candidate_nonneg hash hash_ok h n Hh)|lia]. }
  assert (MP : Marshal c (pk_X k, pk_Y k) = Val pkb) by (apply (marshal_iff c a Hs); try apply pk_nonneg; assumption).
  rewrite MP. cbn [bind].
  destruct (C57_curve_complete c a h Hs Hh rng (pkb ++ msg) hx hy T) as [C|[Q C]]; rewrite C; cbn [bind]; [left|right; auto].
  unfold transcript.
  assert (MG : Marshal c (c_Gx c, c_Gy c) = Val gb) by (apply (marshal_iff c a Hs); try apply NG; assumption).
  assert (MH : Marshal c (hx, hy) = Val hb) by (apply (marshal_iff c a Hs); try apply Rxy; assumption).
  assert (MA : Marshal c (add c (sbm c tb) (sm c (pk_X k, pk_Y k) sb)) = Val ab)
    by (apply (marshal_iff c a Hs); try apply add_nonneg; exact SA).
  assert (MB : Marshal c (add c (sm c (hx, hy) tb) (sm c (ux, uy) sb)) = Val bb)
    by (apply (marshal_iff c a Hs); try apply add_nonneg; exact SB).
  rewrite MG. cbn [bind]. rewrite MH. cbn [bind]. rewrite MP. cbn [bind]. rewrite MA. cbn [bind]. rewrite MB. cbn [bind].
  fold m2. rewrite I. cbn [bind]. rewrite (padded_val c a Hs s) by exact Rs. cbn [bind]. fold n.
  rewrite (encodes_fun _ _ _ ES), bytes_eqb_refl. reflexivity.
Qed.

(** If all coordinates fit, Verify panics only when the output decodes and none of the 100
    candidates is on the curve; and then it does (except for the square roots of P-224). *)
Section Panic.
Hypothesis pk_fits : pk_X k < 256 ^ n /\ pk_Y k < 256 ^ n.
Hypothesis add_fits : forall p q, fst (add c p q) < 256 ^ n /\ snd (add c p q) < 256 ^ n.
Definition no_candidate (msg : bytes) : Prop := forall pkb i,
  sec1_uncompressed n (pk_X k) (pk_Y k) pkb -> 0 <= i < 100 -> ~ has_point c a (candidate (hash h) n i (pkb ++ msg)).
Definition decodes (vrf : bytes) : Prop := exists x y, sec1_uncompressed n x y vrf /\ x < c_P c /\ y < c_P c /\ onCurve c (x, y) = true.

Theorem C54_panic_sound : forall fuel rng alg msg vrf nizk w, wf_bytes vrf ->
  Verify fuel rng (PkEC alg k) msg vrf nizk = Panic w ->
  zlen nizk = 2 * n /\ decodes vrf /\ no_candidate msg.
Proof.
  intros fuel rng alg msg vrf nizk w W E.
  assert (V : ValidatePublicKey (PkEC alg k) = true) by (cbn [ValidatePublicKey]; rewrite G; reflexivity).
  destruct (Z.eq_dec (zlen vrf) (2 * n + 1)) as [Lv|Lv].
  2:{ rewrite (C54_lengths fuel rng _ msg vrf nizk alg k eq_refl V (or_introl Lv)) in E. discriminate. }
  destruct (Z.eq_dec (zlen nizk) (2 * n)) as [Ln|Ln].
  2:{ rewrite (C54_lengths fuel rng _ msg vrf nizk alg k eq_refl V (or_intror Ln)) in E. discriminate. }
  split; [exact Ln|].
  pose proof (field_bytes_byteLen c a Hs) as Fn. pose proof (proj1 Fn) as N0. fold n in N0, Fn.
  destruct (split_at nizk n ltac:(lia)) as (sb & tb & -> & Ls). rewrite zlen_app in Ln.
  rewrite verify_shape in E by lia.
  destruct (Unmarshal onCurve c vrf) as [[ux uy]|] eqn:U; [|discriminate].
  apply (unmarshal_iff onCurve c a vrf (ux, uy) Hs W) in U. cbn [fst snd] in U. split; [exists ux, uy; exact U|].
  rewrite (marshal_val c (pk_X k, pk_Y k)) in E by apply pk_fits. cbn [bind fst snd] in E. fold n in E.
  set (pkb := 4 :: to_be (Z.to_nat n) (pk_X k) ++ to_be (Z.to_nat n) (pk_Y k)) in *.
  destruct (hashToCurve hash rng c h (pkb ++ msg)) as [[[hx hy]|]| |] eqn:C; try discriminate; cbn [bind] in E.
  - exfalso. destruct (C57_curve_sound c a h Hs Hh rng _ hx hy C) as (T & _ & _ & Ry).
    assert (Rx : hx < 256 ^ n).
    { destruct T. unfold candidate. rewrite (hash_firstn hash hash_ok h n Hh).
      rewrite value_be2z. destruct (hash_ok h (counter i ++ pkb ++ msg)) as [Wh Lh]. rewrite Hh in Lh. rewrite <- Lh.
      apply be2z_bound. exact Wh. }
    assert (PB : c_P c <= 256 ^ n) by apply Fn.
    assert (NG : c_Gx c < 256 ^ n /\ c_Gy c < 256 ^ n) by (unfold n, c; destruct Hs; split; reflexivity).
    unfold transcript in E.
    rewrite (marshal_val c (c_Gx c, c_Gy c)) in E by apply NG. cbn [bind] in E.
    rewrite (marshal_val c (hx, hy)) in E by (cbn [fst snd]; fold n; lia). cbn [bind] in E.
    rewrite (marshal_val c (pk_X k, pk_Y k)) in E by apply pk_fits. cbn [bind] in E.
    rewrite !(marshal_val c (add c _ _)) in E by apply add_fits. cbn [bind] in E.
    match type of E with context [hashToInt hash fuel c h ?m] =>
      destruct (h2i_vals hash hash_ok c a h n Hs Fn Hh fuel 0 m) as [[s I]|I];
      change (h2i_loop hash fuel 0 c h m) with (hashToInt hash fuel c h m) in I end.
    + rewrite I in E. cbn [bind] in E.
      pose proof (C57_int_range c a h Hs Hh fuel _ s I) as Rs. pose proof (order_fits c a Hs) as OF. fold n in OF.
      rewrite (padded_val c a Hs s) in E by (fold n; lia). discriminate.
    + rewrite I in E. discriminate.
  - intros pkb' i S Hi. rewrite (sec1_fun _ _ _ _ S). fold pkb. exact (C57_curve_none c a h Hs Hh rng _ C i Hi).
  - destruct (C57_curve_total c a h Hs Hh rng (pkb ++ msg)) as [[p Q]|[_ Q]]; congruence.
Qed.
Theorem C54_panic_complete : forall fuel rng alg msg vrf nizk, wf_bytes vrf ->
  zlen nizk = 2 * n -> decodes vrf -> no_candidate msg ->
  Verify fuel rng (PkEC alg k) msg vrf nizk = Panic "nil pointer dereference" \/
  (c = P224 /\ Verify fuel rng (PkEC alg k) msg vrf nizk = OutOfFuel).
Proof.
  intros fuel rng alg msg vrf nizk W Ln (ux & uy & U) NC.
  pose proof (proj1 (field_bytes_byteLen c a Hs)) as N0. fold n in N0.
  destruct (split_at nizk n ltac:(lia)) as (sb & tb & -> & Ls). rewrite zlen_app in Ln.
  assert (Lv : zlen vrf = 2 * n + 1).
  { destruct U as (SU & _). rewrite (sec1_fun _ _ _ _ SU), zlen_cons, zlen_app. unfold zlen. rewrite !to_be_length. lia. }
  rewrite verify_shape by lia.
  rewrite (proj2 (unmarshal_iff onCurve c a vrf (ux, uy) Hs W) U).
  rewrite (marshal_val c (pk_X k, pk_Y k)) by apply pk_fits. cbn [bind fst snd]. fold n.
  set (pkb := 4 :: to_be (Z.to_nat n) (pk_X k) ++ to_be (Z.to_nat n) (pk_Y k)) in *.
  assert (SP : sec1_uncompressed n (pk_X k) (pk_Y k) pkb).
  { apply (marshal_iff c a Hs (pk_X k, pk_Y k)); try apply pk_nonneg. apply marshal_val; apply pk_fits. }
  destruct (C57_curve_total c a h Hs Hh rng (pkb ++ msg)) as [[[[hx hy]|] Q]|[P Q]]; rewrite Q; cbn [bind].
  - exfalso. destruct (C57_curve_sound c a h Hs Hh rng _ hx hy Q) as (T & _). destruct T as [i y Hi _ HP _ _ _].
    exact (NC pkb i SP Hi HP).
  - left. reflexivity.
  - right. split; [exact P|reflexivity].
Qed.
End Panic.
End Accept.
End Ops.
Print Assumptions C57_int_exact.
Print Assumptions C57_int_range.
Print Assumptions C57_int_diverges_iff.
Print Assumptions C57_curve_sound.
Print Assumptions C57_curve_complete.
Print Assumptions C57_curve_none.
Print Assumptions C57_curve_total.
Print Assumptions C57_no_point_panics.
Print Assumptions C53_vrf_deterministic.
Print Assumptions C54_error_iff.
Print Assumptions C54_lengths.
Print Assumptions C54_undecodable_rejected.
Print Assumptions C54_accepted_sound.
Print Assumptions C54_accepted_complete.
Print Assumptions C54_panic_sound.
Print Assumptions C54_panic_complete.
