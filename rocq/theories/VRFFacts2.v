(** * VRFFacts2: ProofToHash and Evaluate *)
From Coq Require Import ZArith Znumtheory String List Bool Lia.
From Verif Require Import Base BaseFacts Curves ECKey Keypair NumTheory Spec_EC ECFacts ECFacts2 Prop_EC VRF Spec_VRF VRFFacts.
Import ListNotations.
Open Scope Z_scope.

Lemma split_at : forall (l : bytes) k, 0 <= k <= zlen l -> exists u v, l = u ++ v /\ zlen u = k.
Proof.
  intros l k H. exists (firstn (Z.to_nat k) l), (skipn (Z.to_nat k) l). split; [symmetry; apply firstn_skipn|].
  unfold zlen in *. rewrite firstn_length. lia.
Qed.
Lemma sec1_fun : forall n x y e, sec1_uncompressed n x y e -> e = 4 :: to_be (Z.to_nat n) x ++ to_be (Z.to_nat n) y.
Proof. intros n x y e (xb & yb & X & Y & ->). rewrite (encodes_fun n x xb X), (encodes_fun n y yb Y). reflexivity. Qed.
Lemma encodes_range : forall n z l, encodes n z l -> 0 <= z < 256 ^ n.
Proof.
  intros n z l E. apply encodes_inv in E as (L & W & <-). rewrite <- L. apply be2z_bound. exact W.
Qed.
Lemma getHash_size : forall c a h, supported c a -> getHash c = Some h -> hSize h = byteLen c.
Proof. intros c a h Hs E. destruct Hs; vm_compute in E; try discriminate; injection E as <-; reflexivity. Qed.
Lemma field_bytes_byteLen : forall c a, supported c a -> field_bytes c (byteLen c).
Proof.
  intros c a Hs. destruct (supported_size c a Hs) as (L & HL & HL0 & HLp & HLm).
  change (byteLen c) with (byte_size c). rewrite HL. split; [lia|split; assumption].
Qed.
Lemma order_fits : forall c a, supported c a -> 1 < c_N c < 256 ^ byteLen c.
Proof. intros c a Hs. destruct Hs; vm_compute; split; reflexivity. Qed.

Section Marshal.
Variables (c : curve) (a : Z).
Hypothesis Hs : supported c a.
Let n := byteLen c.
Lemma n_nat : Z.of_nat (Z.to_nat n) = n.
Proof. pose proof (proj1 (field_bytes_byteLen c a Hs)). unfold n. lia. Qed.
Lemma marshal_iff : forall p e, 0 <= fst p -> 0 <= snd p ->
  (Marshal c p = Val e <-> sec1_uncompressed n (fst p) (snd p) e).
Proof.
  intros p e H1 H2. unfold Marshal. cbv zeta. fold n. split; intros E.
  - destruct (Z.ltb_spec (fst p) (256 ^ n)) as [L1|L1]; [|discriminate].
    destruct (Z.ltb_spec (snd p) (256 ^ n)) as [L2|L2]; [|discriminate]. cbn [andb] in E.
    injection E as <-. exists (to_be (Z.to_nat n) (fst p)), (to_be (Z.to_nat n) (snd p)).
    rewrite <- n_nat at 1 3. rewrite <- n_nat in L1, L2.
    split; [apply encodes_to_be; lia|]. split; [apply encodes_to_be; lia|reflexivity].
  - pose proof (sec1_fun _ _ _ _ E) as ->. destruct E as (xb & yb & X & Y & _).
    apply encodes_range in X. apply encodes_range in Y.
    destruct (Z.ltb_spec (fst p) (256 ^ n)); [|lia]. destruct (Z.ltb_spec (snd p) (256 ^ n)); [|lia]. reflexivity.
Qed.
Lemma marshal_val : forall p, fst p < 256 ^ n -> snd p < 256 ^ n ->
  Marshal c p = Val (4 :: to_be (Z.to_nat n) (fst p) ++ to_be (Z.to_nat n) (snd p)).
Proof.
  intros p H1 H2. unfold Marshal. cbv zeta. fold n.
  destruct (Z.ltb_spec (fst p) (256 ^ n)); [|lia]. destruct (Z.ltb_spec (snd p) (256 ^ n)); [|lia]. reflexivity.
Qed.
Lemma marshal_len : forall p e, Marshal c p = Val e -> zlen e = 2 * n + 1.
Proof.
  intros p e E. unfold Marshal in E. cbv zeta in E. fold n in E. destruct (_ && _); [|discriminate].
  injection E as <-. rewrite zlen_cons, zlen_app. unfold zlen. rewrite !to_be_length, n_nat. lia.
Qed.
Lemma padded_val : forall z, 0 <= z < 256 ^ n -> padded c z = Val (to_be (Z.to_nat n) z).
Proof.
  intros z Hz. unfold padded. fold n. rewrite <- n_nat in Hz.
  pose proof (big_bytes_length_le z (Z.to_nat n) Hz) as L.
  assert (NL : Z.of_nat (length (big_bytes z)) <= n) by (pose proof n_nat; lia).
  unfold make_bytes, zlen. destruct (Z.leb_spec 0 (n - Z.of_nat (length (big_bytes z)))) as [B|B]; [|lia].
  cbn [bind]. f_equal. rewrite <- (pad_big_bytes z (Z.to_nat n) Hz). f_equal.
  unfold zeros. f_equal. lia.
Qed.
End Marshal.

Section Ops.
Variable hash : hkind -> bytes -> bytes.
Variable sha256 : bytes -> bytes.
Variable sbm : curve -> bytes -> Z * Z.
Variable sm : curve -> Z * Z -> bytes -> Z * Z.
Variable add : curve -> Z * Z -> Z * Z -> Z * Z.
Variable onCurve : curve -> Z * Z -> bool.
Hypothesis hash_ok : forall h m, wf_bytes (hash h m) /\ zlen (hash h m) = hSize h.

Lemma unmarshal_iff : forall c a ub p, supported c a -> wf_bytes ub ->
  (Unmarshal onCurve c ub = Some p <->
   sec1_uncompressed (byteLen c) (fst p) (snd p) ub /\ fst p < c_P c /\ snd p < c_P c /\ onCurve c p = true).
Proof.
  intros c a ub p Hs W. pose proof (proj1 (field_bytes_byteLen c a Hs)) as N0. set (n := byteLen c) in *.
  unfold Unmarshal. cbv zeta. fold n. split.
  - intros E. destruct (Z.eqb_spec (zlen ub) (1 + 2 * n)) as [L|]; [|discriminate].
    destruct ub as [|t ub]; [unfold zlen in L; cbn [length Z.of_nat] in L; lia|]. cbn [nth negb] in E.
    destruct (Z.eqb_spec t 4) as [->|]; [|discriminate]. cbn [negb skipn] in E.
    rewrite zlen_cons in L. destruct (split_at ub n ltac:(lia)) as (xb & yb & -> & Lx).
    rewrite zlen_app in L. unfold zlen in L, Lx.
    rewrite firstn_app_l in E by lia.
    replace (skipn (Z.to_nat (1 + n)) (4 :: xb ++ yb)) with yb in E.
    2:{ replace (Z.to_nat (1 + n)) with (S (length xb)) by lia. cbn [skipn].
        rewrite skipn_app, skipn_all, Nat.sub_diag. reflexivity. }
    rewrite !Z.geb_leb in E.
    destruct (Z.leb_spec (c_P c) (be2z xb)); [discriminate|]. destruct (Z.leb_spec (c_P c) (be2z yb)); [discriminate|].
    cbn [orb] in E. destruct (onCurve c (be2z xb, be2z yb)) eqn:O; [|discriminate]. cbn [negb] in E.
    injection E as <-. cbn [fst snd]. inversion W as [|? ? _ W']. apply wf_app in W' as [Wx Wy].
    split; [|split; [lia|split; [lia|exact O]]].
    exists xb, yb. split; [|split; [|reflexivity]]; (split; [lia|split; [assumption|apply value_be2z]]).
  - intros ((xb & yb & X & Y & ->) & P1 & P2 & O).
    apply encodes_inv in X as (Lx & Wx & X). apply encodes_inv in Y as (Ly & Wy & Y). unfold zlen in Lx, Ly.
    destruct (Z.eqb_spec (zlen (4 :: xb ++ yb)) (1 + 2 * n)) as [_|C].
    2:{ exfalso. apply C. unfold zlen. cbn [length]. rewrite app_length. lia. }
    cbn [nth negb Z.eqb Pos.eqb skipn]. rewrite firstn_app_l by lia.
    replace (skipn (Z.to_nat (1 + n)) (4 :: xb ++ yb)) with yb.
    2:{ replace (Z.to_nat (1 + n)) with (S (length xb)) by lia. cbn [skipn].
        rewrite skipn_app, skipn_all, Nat.sub_diag. reflexivity. }
    rewrite X, Y, !Z.geb_leb. destruct (Z.leb_spec (c_P c) (fst p)); [lia|]. destruct (Z.leb_spec (c_P c) (snd p)); [lia|].
    cbn [orb]. rewrite <- surjective_pairing, O. reflexivity.
Qed.

(** ProofToHash once the proof is cut into its parts *)
Lemma proof_shape : forall fuel rng k h m sb tb ub, byteLen (pk_curve k) = hSize h ->
  zlen sb = byteLen (pk_curve k) -> zlen tb = byteLen (pk_curve k) -> zlen ub = 2 * byteLen (pk_curve k) + 1 ->
  ProofToHash hash sha256 sbm sm add onCurve fuel rng k h m ((sb ++ tb) ++ ub) =
  (let c := pk_curve k in
   let pk := (pk_X k, pk_Y k) in
   match Unmarshal onCurve c ub with
   | None => Val (Err "invalid VRF proof"%string)
   | Some U =>
       let* pkb := Marshal c pk in
       let* H := hashToCurve hash rng c h (pkb ++ m) in
       match H with
       | None => Panic "nil pointer dereference"
       | Some H =>
           let* b := transcript c H pk ub (add c (sbm c tb) (sm c pk sb)) (add c (sm c H tb) (sm c U sb)) in
           let* h2 := hashToInt hash fuel c h b in
           let* hb := padded c h2 in
           if negb (bytes_eqb sb hb) then Val (Err "invalid VRF proof"%string) else Val (Ok (sha256 ub))
       end
   end).
Proof.
  intros fuel rng k h m sb tb ub Hh Ls Lt Lu. unfold ProofToHash. cbv zeta.
  set (n := byteLen (pk_curve k)) in *. rewrite <- Hh, Z.eqb_refl. cbn [negb].
  assert (N0 : 0 <= n) by (rewrite <- Ls; apply zlen_nonneg).
  destruct (Z.eqb_spec (zlen ((sb ++ tb) ++ ub)) (2 * n + (2 * n + 1))) as [_|C].
  2:{ exfalso. apply C. rewrite !zlen_app. lia. }
  cbn [negb].
  rewrite <- app_assoc.
  assert (S1 : slice (sb ++ tb ++ ub) 0 n = Val sb).
  { pose proof (slice_app3 _ [] sb (tb ++ ub) 0 n eq_refl) as Q. apply Q. unfold zlen at 1. cbn [length]. lia. }
  assert (S2 : slice (sb ++ tb ++ ub) n (2 * n) = Val tb) by (apply slice_app3; lia).
  assert (S3 : slice (sb ++ tb ++ ub) (2 * n) (2 * n + 2 * n + 1) = Val ub).
  { pose proof (slice_app3 _ (sb ++ tb) ub [] (2 * n) (2 * n + 2 * n + 1)) as Q. rewrite app_nil_r, <- app_assoc in Q.
    apply Q; rewrite !zlen_app; lia. }
  rewrite S1. cbn [bind]. rewrite S2. cbn [bind]. rewrite S3. cbn [bind]. reflexivity.
Qed.
End Ops.
