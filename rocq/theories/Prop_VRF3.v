(** * Prop_VRF3: concrete instances for C52 to C58, and two witnesses for C57 *)
From Coq Require Import ZArith Znumtheory String List Bool Lia.
From Verif Require Import Base BaseFacts Curves ECKey Keypair NumTheory Spec_EC ECFacts ECFacts2 Prop_EC Spec_Group
  VRF Spec_VRF VRFFacts VRFFacts2 Prop_VRF Prop_VRF2 Prop_SM2.
Import ListNotations.
Open Scope Z_scope.

(** ** Two witnesses about hashToCurve, with constant hash functions *)
Definition const_hash (z : Z) (h : hkind) (m : bytes) : bytes := to_be (Z.to_nat (hSize h)) z.
Lemma const_hash_ok : forall z h m, wf_bytes (const_hash z h m) /\ zlen (const_hash z h m) = hSize h.
Proof.
  intros z h m. split; [apply to_be_wf|]. unfold const_hash, zlen. rewrite to_be_length. destruct h; reflexivity.
Qed.
Lemma const_step : forall z c a h rng m, supported c a -> hSize h = byteLen c ->
  forall q, DecodePublicKey (rng 0) (2 :: to_be (Z.to_nat (hSize h)) z) c = Val (Ok q) ->
  hashToCurve (const_hash z) rng c h m = Val (Some (pk_X q, pk_Y q)).
Proof.
  intros z c a h rng m Hs Hh q D. unfold hashToCurve.
  rewrite (h2c_step (const_hash z) (const_hash_ok z) c a h (byteLen c) Hs (field_bytes_byteLen c a Hs) Hh 99 0).
  unfold const_hash at 1. rewrite D. reflexivity.
Qed.

(** the abscissa may be P or more: it is not reduced, and passes into the transcript like that *)
Theorem C57_unreduced_x : forall rng m, exists y,
  hashToCurve (const_hash (c_P S256 + 1)) rng S256 HSHA256 m = Val (Some (c_P S256 + 1, y)).
Proof.
  intros rng m. destruct (C14_unreduced_x_accepted (rng 0)) as (key & D & X).
  exists (pk_Y key). rewrite <- X at 2. apply (const_step _ S256 0 HSHA256 rng m sup_S256 eq_refl). exact D.
Qed.
Print Assumptions C57_unreduced_x.

(** and there may be none: x = P - 2 is not on secp256k1 *)
Lemma no_point : forall y, ~ curve_eq (c_P S256) 0 (c_B S256) (c_P S256 - 2) y.
Proof.
  assert (V : value (to_be 32 (c_P S256 - 2)) 0 = c_P S256 - 2).
  { rewrite value_be2z. apply be2z_to_be_small. split; [discriminate|reflexivity]. }
  destruct C12_rejected as [msg E]. rewrite <- (app_nil_r (to_be 32 (c_P S256 - 2))) in E.
  destruct (C12_rejection_means_no_point [] S256 0 3 (to_be 32 (c_P S256 - 2)) [] msg 32 sup_S256
    ltac:(apply C10_field_bytes) (or_intror eq_refl) ltac:(rewrite to_be_length; reflexivity) E) as [N|[N _]]; [|discriminate N].
  rewrite V in N. exact N.
Qed.
Theorem C57_no_point_exists : forall rng m, hashToCurve (const_hash (c_P S256 - 2)) rng S256 HSHA256 m = Val None.
Proof.
  intros rng m. pose proof (const_hash_ok (c_P S256 - 2)) as K.
  destruct (C57_curve_total _ K S256 0 HSHA256 sup_S256 eq_refl rng m) as [[[[x y]|] E]|[Q _]]; [exfalso|exact E|discriminate Q].
  destruct (C57_curve_sound _ K S256 0 HSHA256 sup_S256 eq_refl rng m x y E) as (T & C & _).
  assert (X : x = c_P S256 - 2).
  { destruct T as [i y' _ _ _ _ _ _]. rewrite (candidate_eq _ K HSHA256 (byteLen S256) eq_refl).
    apply be2z_to_be_small. split; [discriminate|reflexivity]. }
  rewrite X in C. exact (no_point y C).
Qed.
Print Assumptions C57_no_point_exists.
Example C57_panic_example : forall rng sbm sm sha msg,
  Vrf (const_hash (c_P S256 - 2)) sha sbm sm 9 rng (Ok (to_be 32 77))
    (SkEC 1 5 {| pk_curve := S256; pk_X := 5; pk_Y := 5 |}) msg = Panic "nil pointer dereference".
Proof.
  intros rng sbm sm sha msg.
  assert (M : Marshal S256 (5, 5) = Val (4 :: to_be 32 5 ++ to_be 32 5)) by (vm_compute; reflexivity).
  pose proof (C57_no_point_panics (const_hash (c_P S256 - 2)) sha sbm sm 9 rng (to_be 32 77) 1 5
    {| pk_curve := S256; pk_X := 5; pk_Y := 5 |} HSHA256 msg (4 :: to_be 32 5 ++ to_be 32 5)) as Q.
  cbn [pk_curve pk_X pk_Y] in Q. exact (Q eq_refl eq_refl M (C57_no_point_exists rng _)).
Qed.

(** ** The integers modulo the order of SM2, the hash always hitting the base point *)
Notation c := SM2P256V1.
Notation aSM2 := 0xFFFFFFFEFFFFFFFFFFFFFFFFFFFFFFFFFFFFFFFF00000000FFFFFFFFFFFFFFFC.
Definition vE : ecgroup := zm_ec (c_N c) N_prime.
Definition vhash := const_hash (c_Gx c).
Definition vcoords (z : Z) : Z * Z := (Z.min (z mod c_N c) (c_N c - z mod c_N c), z mod c_N c).
Definition isG (p : Z * Z) : bool := (fst p =? c_Gx c) && (snd p =? c_Gy c).
Definition vsbm (_ : curve) (b : bytes) := vcoords (be2z b).
Definition vsm (_ : curve) (p : Z * Z) (b : bytes) := if isG p then vcoords (be2z b) else vcoords (be2z b * snd p).
Definition vadd (_ : curve) (p q : Z * Z) := vcoords (snd p + snd q).
Definition von (_ : curve) (p : Z * Z) := fst p =? Z.min (snd p) (c_N c - snd p).
Definition vkey : ecpub := {| pk_curve := c; pk_X := 5; pk_Y := 5 |}.
Definition vof (z : Z) : pt (eg vE) := zm_of (c_N c) N_prime z.
Definition vs := c_Gx c + 1.
Definition vr := to_be 32 ((7 + vs * 5) mod c_N c).
Definition vout := 4 :: to_be 32 5 ++ to_be 32 5.
Definition vproof := to_be 32 vs ++ to_be 32 7.

Lemma vcoords_of : forall z, @ecoords vE (vof z) = vcoords z.
Proof. reflexivity. Qed.
Lemma vmul : forall z x, gmul (G := eg vE) z (vof x) = vof (z * x).
Proof. intros. apply (zm_gmul (c_N c) N_prime). Qed.
Lemma vB : @eG vE = vof 1.
Proof. reflexivity. Qed.
Lemma vof_ex : forall P : pt (eg vE), exists z, P = vof z /\ z mod c_N c = z /\ 0 <= z < c_N c.
Proof.
  intros P. pose proof (zm_range (c_N c) N_prime P) as R. exists (proj1_sig P).
  assert (M : proj1_sig P mod c_N c = proj1_sig P) by (apply Z.mod_small; exact R).
  split; [|split; [exact M|exact R]]. apply (zm_eq (c_N c)). symmetry. exact M.
Qed.
Lemma v_sbm_right : forall b, wf_bytes b -> vsbm c b = @ecoords vE (gmul (be2z b) (@eG vE)).
Proof. intros b _. rewrite vB, vmul, vcoords_of, Z.mul_1_r. reflexivity. Qed.
Lemma v_sm_right : forall P b, P <> gO -> wf_bytes b -> vsm c (@ecoords vE P) b = @ecoords vE (gmul (be2z b) P).
Proof.
  intros P b _ _. destruct (vof_ex P) as (z & -> & M & R). rewrite vmul, !vcoords_of. unfold vsm.
  destruct (isG (vcoords z)) eqn:I.
  - exfalso. unfold isG, vcoords in I. cbn [fst snd] in I. rewrite M in I. apply andb_true_iff in I as [I1 I2].
    apply Z.eqb_eq in I2. rewrite I2 in I1. vm_compute in I1. discriminate.
  - unfold vcoords. cbn [snd]. rewrite M. reflexivity.
Qed.
Lemma v_add_right : forall P Q, vadd c (@ecoords vE P) (@ecoords vE Q) = @ecoords vE (gadd P Q).
Proof.
  intros P Q. destruct (vof_ex P) as (z & -> & M & R). destruct (vof_ex Q) as (w & -> & M' & R').
  rewrite !vcoords_of. unfold vadd, vcoords at 2 3. cbn [snd]. rewrite M, M'.
  replace (gadd (vof z) (vof w)) with (vof (z + w)); [reflexivity|].
  apply (zm_eq (c_N c)). cbn [proj1_sig vof zm_of gadd eg vE zm_ec zm_group]. rewrite M, M'. reflexivity.
Qed.
Lemma v_on_right : forall P, P <> gO -> von c (@ecoords vE P) = true.
Proof. intros P _. destruct (vof_ex P) as (z & -> & _ & _). rewrite vcoords_of. apply Z.eqb_refl. Qed.
Lemma v_coords_lt : forall P, fst (@ecoords vE P) < c_P c /\ snd (@ecoords vE P) < c_P c.
Proof.
  intros P. destruct (vof_ex P) as (z & -> & M & R). rewrite vcoords_of. unfold vcoords. cbn [fst snd]. rewrite M.
  assert (c_N c < c_P c) by reflexivity. lia.
Qed.
Lemma v_curve : forall rng m, hashToCurve vhash rng c HSM3 m = Val (Some (c_Gx c, c_Gy c)).
Proof.
  intros rng m.
  apply (const_step (c_Gx c) c aSM2 HSM3 rng m sup_SM2 eq_refl {| pk_curve := c; pk_X := c_Gx c; pk_Y := c_Gy c |}).
  destruct (C10_compressed_round_trip c aSM2 (c_Gx c) (c_Gy c) 32 sup_SM2
    (C10_base_points c aSM2 sup_SM2) ltac:(split; [reflexivity|split; [discriminate|reflexivity]]) ltac:(discriminate)) as (e & _ & S & D).
  destruct (D (rng 0)) as [D1 _]. rewrite <- D1 by (left; discriminate). f_equal.
  destruct S as (xb & Hx & ->). rewrite (encodes_fun _ _ _ Hx). reflexivity.
Qed.
Lemma v_stands : stands_for vsm vkey vE (c_Gx c, c_Gy c) (vof 1).
Proof.
  split; [exact (eG_nonzero vE)|]. split; [exact (eG_order vE)|]. intros b _. rewrite vmul, vcoords_of, Z.mul_1_r. reflexivity.
Qed.
Lemma v_point : forall m hx hy, to_point (vhash HSM3) (byteLen c) c aSM2 m hx hy -> exists P, stands_for vsm vkey vE (hx, hy) P.
Proof.
  intros m hx hy T.
  destruct (C57_curve_complete vhash (const_hash_ok _) c aSM2 HSM3 sup_SM2 eq_refl (fun _ => []) m hx hy T) as [E|[Q _]]; [|discriminate Q].
  rewrite v_curve in E. assert (hx = c_Gx c /\ hy = c_Gy c) as [-> ->] by (split; congruence).
  exists (vof 1). exact v_stands.
Qed.

(** C52: an honest proof and its verification *)
Example v_vrf : forall rng msg sha, Vrf vhash sha vsbm vsm 1 rng (Ok vr) (SkEC 1 5 vkey) msg = Val (Ok (vout, vproof)).
Proof.
  intros rng msg sha. unfold Vrf. change (getHash (pk_curve vkey)) with (Some HSM3). cbv iota beta zeta.
  unfold Evaluate. cbv zeta. change (negb (byteLen (pk_curve vkey) =? hSize HSM3)) with false. cbv iota.
  change (Marshal (pk_curve vkey) (pk_X vkey, pk_Y vkey)) with (Val vout). cbn [bind].
  change (pk_curve vkey) with c. rewrite v_curve. cbn [bind]. vm_compute. reflexivity.
Qed.
Example C52_example : forall (rng rng' : Z -> list Z) msg sha,
  Verify vhash sha vsbm vsm vadd von 1 rng' (PkEC 1 vkey) msg vout vproof = Val (true, None).
Proof.
  intros rng rng' msg sha.
  destruct (C52_completeness vhash (const_hash_ok _) sha vsbm vsm vadd von aSM2 vkey HSM3 sup_SM2 eq_refl vE eq_refl
    v_sbm_right v_sm_right v_add_right v_on_right v_coords_lt 1 1 rng rng' (Ok vr) 1 1 5 msg vout vproof) as [E|[_ [L|[Q _]]]];
    [| | | | |exact E|lia|discriminate Q].
  - split; reflexivity.
  - rewrite vB, vmul, vcoords_of. vm_compute. reflexivity.
  - intros rb E. assert (rb = vr) as -> by congruence. apply to_be_wf.
  - intros pkb hx hy _ T. exact (v_point _ hx hy T).
  - apply v_vrf.
Qed.
(** C54: so the relation holds of it *)
Example C54_example : forall msg,
  accepts (vhash HSM3) 32 c aSM2 (vsbm c) (vsm c) (vadd c) (von c) (5, 5) msg vout vproof.
Proof.
  intros msg.
  apply (C54_accepted_sound vhash (const_hash_ok _) (fun x => x) vsbm vsm vadd von aSM2 vkey HSM3 sup_SM2 eq_refl
    ltac:(split; discriminate)) with (fuel := 1%nat) (rng := fun _ => []) (alg := 1).
  - intros p q. unfold vadd, vcoords. cbn [fst snd]. pose proof (Z.mod_pos_bound (snd p + snd q) (c_N c) eq_refl). lia.
  - constructor; [red; lia|]. apply wf_app. split; apply to_be_wf.
  - apply (C52_example (fun _ => [])).
Qed.
(** C56: 7 + N is accepted as well *)
Example C56_example : forall rng msg sha,
  Verify vhash sha vsbm vsm vadd von 1 rng (PkEC 1 vkey) msg vout (to_be 32 vs ++ to_be 32 (7 + c_N c)) = Val (true, None).
Proof.
  intros rng msg sha.
  apply (C56_malleable vhash (const_hash_ok _) sha vsbm vsm vadd von aSM2 vkey HSM3 sup_SM2 eq_refl vE eq_refl
    v_sbm_right 1 rng 1 msg vout (to_be 32 vs) 7).
  - intros pkb hx hy _ T. exact (v_point _ hx hy T).
  - discriminate.
  - reflexivity.
  - reflexivity.
  - reflexivity.
  - apply (C52_example rng).
Qed.
(** C55: 9 + 5 * 1 = 4 + 5 * 2, so x = 5 comes out *)
Lemma wf1 : forall b, 0 <= b < 256 -> wf_bytes [b].
Proof. intros b H. constructor; [exact H|constructor]. Qed.
Lemma vof_nz : forall z, 0 < z < c_N c -> vof z <> gO.
Proof.
  intros z R Q. apply (f_equal (@ecoords vE)) in Q. rewrite vcoords_of, ecoords_O in Q.
  apply (f_equal snd) in Q. unfold vcoords in Q. cbn [snd] in Q. rewrite Z.mod_small in Q by lia. lia.
Qed.
Lemma vof_N : forall z, gmul (G := eg vE) (c_N c) (vof z) = gO.
Proof.
  intros z. rewrite vmul. apply (ecoords_inj vE). rewrite vcoords_of, ecoords_O. unfold vcoords.
  rewrite Z.mul_comm, Z.mod_mul by discriminate. reflexivity.
Qed.
Example C55_example : exists x, 0 <= x < c_N c /\ vof 5 = gmul x (@eG vE) /\ vof 5 = gmul x (vof 1).
Proof.
  assert (R5 : 0 < 5 < c_N c) by (split; reflexivity).
  apply (C55_special_soundness vsbm vsm vadd vkey vE eq_refl v_sbm_right v_sm_right v_add_right
    (vof 5) (vof 1) (vof 5) [1] [9] [2] [4] (c_Gx c, c_Gy c) v_stands (vof_nz 5 R5) (vof_nz 5 R5) (vof_N 5) (vof_N 5));
    try (apply wf1; lia).
  - rewrite vcoords_of. vm_compute. reflexivity.
  - rewrite vcoords_of. vm_compute. reflexivity.
  - vm_compute. discriminate.
Qed.
(** with the wrong output 6 the challenges 1 and N + 1 are the same one *)
Example C55_wrong_example : be2z (to_be 32 1) mod c_N c = be2z (to_be 32 (c_N c + 1)) mod c_N c.
Proof.
  apply (C55_wrong_output_one_challenge vsbm vsm vadd vkey vE eq_refl v_sbm_right v_sm_right v_add_right
    5 (vof 1) (vof 6) (to_be 32 1) [9] (to_be 32 (c_N c + 1)) [9] (c_Gx c, c_Gy c) v_stands);
    try apply to_be_wf; try (apply wf1; lia).
  - rewrite vB, vmul. apply vof_nz. split; reflexivity.
  - apply vof_nz. split; reflexivity.
  - apply vof_N.
  - rewrite vmul. intros Q. apply (f_equal (@ecoords vE)) in Q. rewrite !vcoords_of in Q. vm_compute in Q. discriminate.
  - rewrite vB, vmul, vcoords_of. vm_compute. reflexivity.
  - rewrite vcoords_of. vm_compute. reflexivity.
Qed.
