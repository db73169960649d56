(** * EdOrder: the whole group of edwards25519: 8 L points, a sum of the group of the base point and a cyclic group of order 8 *)
From Coq Require Import ZArith Znumtheory Zpow_facts String List Bool Lia FinFun.
From Verif Require Import Base BaseFacts Spec_EC Spec_Group CurveZ CurveRoot EdLaw EdZ Ed25519 EdCurve Spec_Ed25519 Ed25519Facts.
Import ListNotations.
Open Scope Z_scope.

(** ** A point of order 8 *)
Definition edTx : Z := 14399317868200118260347934320527232580618823971194345261214217575416788799818.
Definition edTy : Z := 2707385501144840649318225287225658788936804267575313519463743609750303402022.
Lemma edT_on : (edP | edTy * edTy - edTx * edTx - 1 - edD * (edTx * edTx) * (edTy * edTy)).
Proof. apply Z.mod_divide; [discriminate|]. vm_compute. reflexivity. Qed.
Definition edT : pt edG := emake edP edP_prime edP_odd edD edI edI_sqr edD_nonsquare edTx edTy edT_on.
Lemma edT_at : edat edT edTx edTy. Proof. apply emake_at. Qed.
Lemma divb : forall z, z mod edP = 0 -> (edP | z).
Proof. intros z H. apply Z.mod_divide; [discriminate|exact H]. Qed.
Lemma edT_2 : edat (gmul 2 edT) edI 0.
Proof.
  rewrite (gmul_add _ 1 1), gmul_1. apply (ate_double edP edP_prime edP_odd edD edI edI_sqr edD_nonsquare edT edTx edTy); [exact edT_at|..]; apply divb; vm_compute; reflexivity.
Qed.
Lemma edT_4 : edat (gmul 4 edT) 0 (-1).
Proof.
  rewrite (gmul_add _ 2 2). apply (ate_double edP edP_prime edP_odd edD edI edI_sqr edD_nonsquare (gmul 2 edT) edI 0); [exact edT_2|..]; apply divb; vm_compute; reflexivity.
Qed.
Lemma edT_8 : gmul 8 edT = gO.
Proof.
  rewrite (gmul_add _ 4 4). apply (ate_inj edP edP_prime edP_odd edD edI edI_sqr edD_nonsquare _ _ 0 1); [|apply ate_O].
  apply (ate_double edP edP_prime edP_odd edD edI edI_sqr edD_nonsquare (gmul 4 edT) 0 (-1)); [exact edT_4|..]; apply divb; vm_compute; reflexivity.
Qed.
Lemma edT_4_nz : gmul 4 edT <> gO.
Proof.
  intros C. pose proof edT_4 as A. rewrite C in A.
  destruct (ate_same edP edP_prime edP_odd edD edI edI_sqr edD_nonsquare gO 0 (-1) 0 1 A (ate_O edP edP_prime edP_odd edD edI edI_sqr edD_nonsquare)) as [_ D].
  apply Z.mod_divide in D; [|discriminate]. vm_compute in D. discriminate D.
Qed.
Lemma edT_zero : forall z, gmul z edT = gO <-> (8 | z).
Proof.
  intros z. split.
  - intros Z0. rewrite <- (gmul_mod edG 8 z edT ltac:(lia) edT_8) in Z0. apply Z.mod_divide; [lia|]. pose proof (Z.mod_pos_bound z 8 ltac:(lia)) as B.
    set (r := z mod 8) in *. destruct (Z.eq_dec r 0) as [|NZ]; [assumption|exfalso]. apply edT_4_nz.
    assert (M : forall k, gmul (k * r) edT = gO) by (intros k; rewrite gmul_mul, Z0; apply gmul_O).
    assert (K : exists k, (k * r) mod 8 = 4).
    { assert (C : r = 1 \/ r = 2 \/ r = 3 \/ r = 4 \/ r = 5 \/ r = 6 \/ r = 7) by lia.
      destruct C as [->|[->|[->|[->|[->|[->| ->]]]]]]; [exists 4|exists 2|exists 4|exists 1|exists 4|exists 2|exists 4]; reflexivity. }
    destruct K as [k K]. rewrite <- (M k), <- (gmul_mod edG 8 (k * r) edT ltac:(lia) edT_8), K. reflexivity.
  - intros [k ->]. rewrite gmul_mul, edT_8. apply gmul_O.
Qed.

(** ** Points as numbers below 2^256 *)
Lemma ed_bytes : forall P : pt edG, exists b, point_bytes P b.
Proof.
  intros P. destruct (edco_exists P) as (x & y & C). exists (ge_ToBytes (x, y)). apply ToBytes_ok. exact C.
Qed.
Definition ed_code (P : pt edG) : Z := let c := proj1_sig P in val edP (snd c) + 2 ^ 255 * (val edP (fst c) mod 2).
Lemma ed_code_bytes : forall P b, point_bytes P b -> ed_code P = lev b.
Proof.
  intros P b (x & y & (A & X & Y) & _ & _ & V). unfold ed_code. unfold edat, ate in A. rewrite A. cbn [fst snd]. rewrite !(val_fz edP edP_prime).
  rewrite V, (Z.mod_small x edP X), (Z.mod_small y edP Y). reflexivity.
Qed.
Lemma ed_code_range : forall P, 0 <= ed_code P < 2 ^ 256.
Proof.
  intros P. destruct (ed_bytes P) as [b B]. rewrite (ed_code_bytes P b B). destruct B as (x & y & _ & L & O & _).
  pose proof (lev_bound b O) as R. assert (zlen b = 32) by (unfold zlen; rewrite L; reflexivity). rewrite H in R. exact R.
Qed.
Lemma ed_code_inj : forall P Q, ed_code P = ed_code Q -> P = Q.
Proof.
  intros P Q E. destruct (ed_bytes P) as [b B]. destruct (ed_bytes Q) as [c C]. rewrite (ed_code_bytes P b B), (ed_code_bytes Q c C) in E.
  assert (b = c).
  { destruct B as (x & y & _ & L & O & _). destruct C as (x' & y' & _ & L' & O' & _). apply lev_inj; [exact O|exact O'|congruence|exact E]. }
  subst c. exact (point_bytes_inj P Q b B C).
Qed.
Lemma ed_dec : forall P Q : pt edG, P = Q \/ P <> Q.
Proof. intros P Q. destruct (Z.eq_dec (ed_code P) (ed_code Q)) as [E|E]; [left; apply ed_code_inj, E|right; intros ->; exact (E eq_refl)]. Qed.
Lemma few : forall l : list (pt edG), NoDup l -> Z.of_nat (length l) <= 2 ^ 256.
Proof.
  intros l ND. assert (ND' : NoDup (map ed_code l)) by (apply Injective_map_NoDup; [exact ed_code_inj|exact ND]).
  generalize ed_code_range. generalize (2 ^ 256). intros m R.
  assert (I : incl (map ed_code l) (map Z.of_nat (seq 0 (Z.to_nat m)))).
  { intros z Hz. apply in_map_iff in Hz. destruct Hz as (P & <- & _). pose proof (R P).
    apply in_map_iff. exists (Z.to_nat (ed_code P)). split; [apply Z2Nat.id; lia|]. apply in_seq. lia. }
  pose proof (NoDup_incl_length ND' I) as L. rewrite !map_length, seq_length in L. pose proof (R gO). lia.
Qed.

(** ** A generator *)
Definition edU : pt edG := gadd edB edT.
Lemma edL_odd8 : rel_prime 8 edL.
Proof. apply Zgcd_1_rel_prime. vm_compute. reflexivity. Qed.
Lemma edU_zero : forall z, gmul z edU = gO <-> (8 * edL | z).
Proof.
  intros z. unfold edU. rewrite gmul_gadd. split.
  - intros E. assert (E8 : gmul (8 * z) edB = gO).
    { apply (f_equal (gmul 8)) in E. rewrite gmul_gadd, gmul_O, <- !gmul_mul in E. rewrite (Z.mul_comm 8 z), (gmul_mul _ z 8 edT), edT_8, gmul_O, gadd_O in E. rewrite Z.mul_comm. exact E. }
    assert (D : (edL | z)).
    { apply (Gauss edL 8 z); [|apply rel_prime_sym, edL_odd8]. rewrite <- (gmul_0 edG edB), edB_inj in E8. rewrite Z.mod_0_l in E8 by discriminate. apply Z.mod_divide; [discriminate|exact E8]. }
    assert (B0 : gmul z edB = gO) by (destruct D as [k ->]; rewrite gmul_mul, edB_order; apply gmul_O).
    rewrite B0, gO_add in E. apply edT_zero in E. destruct E as [k ->]. rewrite Z.mul_comm. apply Z.mul_divide_mono_r.
    apply (Gauss edL 8 k); [rewrite Z.mul_comm; exact D|apply rel_prime_sym, edL_odd8].
  - intros [k ->]. replace (k * (8 * edL)) with (k * 8 * edL) at 1 by ring. replace (k * (8 * edL)) with (k * edL * 8) by ring.
    rewrite (gmul_mul _ (k * 8)), edB_order, (gmul_mul _ (k * edL)), edT_8, !gmul_O. apply gadd_O.
Qed.
Lemma edU_inj : forall a b, gmul a edU = gmul b edU <-> a mod (8 * edL) = b mod (8 * edL).
Proof.
  intros a b. assert (E : gmul a edU = gmul b edU <-> gmul (a - b) edU = gO).
  { rewrite gmul_sub. split; [intros ->; apply gadd_neg|apply gsub_eq]. }
  rewrite E, edU_zero. split.
  - intros [k D]. replace a with (b + k * (8 * edL)) by lia. apply Z_mod_plus_full.
  - intros M. pose proof (Z.div_mod a (8 * edL) ltac:(discriminate)) as A. pose proof (Z.div_mod b (8 * edL) ltac:(discriminate)) as B.
    exists (a / (8 * edL) - b / (8 * edL)). rewrite M in A. rewrite Z.mul_sub_distr_r. lia.
Qed.
Definition edM : Z := 8 * edL.
Lemma edM_pos : 0 < edM. Proof. reflexivity. Qed.
Lemma edM_big : 2 ^ 256 < 2 * edM. Proof. reflexivity. Qed.
Local Opaque edM.
(** two cosets of the multiples of the generator are too many points *)
Lemma no_other : forall P : pt edG, (forall k, P <> gmul k edU) -> False.
Proof.
  intros P OUT. pose proof edM_pos as MP. set (ks := map Z.of_nat (seq 0 (Z.to_nat edM))).
  assert (KS : forall i, In i ks -> 0 <= i < edM).
  { intros i I. apply in_map_iff in I. destruct I as (n & <- & I). apply in_seq in I. lia. }
  assert (KN : NoDup ks) by (apply Injective_map_NoDup; [intros a c; apply Nat2Z.inj|apply seq_NoDup]).
  assert (INJ : forall i j, In i ks -> In j ks -> gmul i edU = gmul j edU -> i = j).
  { intros i j I J E. apply KS in I, J. apply edU_inj in E. change (8 * edL) with edM in E. rewrite !Z.mod_small in E by lia. exact E. }
  pose proof (few (map (fun i => gmul i edU) ks ++ map (fun i => gadd P (gmul i edU)) ks)) as FP.
  rewrite !app_length, !map_length in FP. unfold ks in FP at 3 4. rewrite map_length, seq_length in FP. pose proof edM_big as BIG. revert FP BIG. generalize (2 ^ 256). intros m FP BIG.
  assert (ND : Z.of_nat (Z.to_nat edM + Z.to_nat edM) <= m); [apply FP|lia].
  apply NoDup_app_on.
  - apply NoDup_map_on; [exact KN|exact INJ].
  - apply NoDup_map_on; [exact KN|]. intros i j I J E. apply (INJ i j I J). apply gcancel_l in E. exact E.
  - intros x X1 X2. apply in_map_iff in X1, X2. destruct X1 as (i & <- & _), X2 as (j & E & _).
    apply (OUT (i - j)). rewrite gmul_sub, <- E, <- gadd_assoc, gadd_neg, gadd_O. reflexivity.
Qed.
Theorem edU_generates : forall P : pt edG, exists d, 0 <= d < 8 * edL /\ P = gmul d edU.
Proof.
  intros P. change (8 * edL) with edM. pose proof edM_pos as MP.
  assert (S : forall n, (exists d, 0 <= d < Z.of_nat n /\ P = gmul d edU) \/ (forall d, 0 <= d < Z.of_nat n -> P <> gmul d edU)).
  { induction n as [|n [(d & R & E)|IH]].
    - right. intros d R. lia.
    - left. exists d. split; [lia|exact E].
    - destruct (ed_dec P (gmul (Z.of_nat n) edU)) as [E|E].
      + left. exists (Z.of_nat n). split; [lia|exact E].
      + right. intros d R. destruct (Z.eq_dec d (Z.of_nat n)) as [->|]; [exact E|apply IH; lia]. }
  destruct (S (Z.to_nat edM)) as [(d & R & E)|NO]; [exists d; split; [lia|exact E]|exfalso].
  apply (no_other P). intros k C. apply (NO (k mod edM)); [rewrite Z2Nat.id by lia; apply Z.mod_pos_bound; lia|].
  rewrite C. apply edU_inj. change (8 * edL) with edM. symmetry. apply Z.mod_mod. lia.
Qed.
(** ** The two parts of a point *)
Theorem ed_parts : forall P : pt edG, exists a j, 0 <= a < edL /\ 0 <= j < 8 /\ P = gadd (gmul a edB) (gmul j edT).
Proof.
  intros P. destruct (edU_generates P) as (d & _ & ->). exists (d mod edL), (d mod 8).
  split; [apply Z.mod_pos_bound; reflexivity|]. split; [apply Z.mod_pos_bound; reflexivity|].
  unfold edU. rewrite gmul_gadd, (gmul_mod _ edL), (gmul_mod _ 8) by (reflexivity || apply edB_order || apply edT_8). reflexivity.
Qed.
Lemma parts_zero : forall a j, gadd (gmul a edB) (gmul j edT) = gO <-> (edL | a) /\ (8 | j).
Proof.
  intros a j. split.
  - intros E. assert (E8 : gmul (8 * a) edB = gO).
    { apply (f_equal (gmul 8)) in E. rewrite gmul_gadd, gmul_O, <- !gmul_mul in E. rewrite (Z.mul_comm 8 j), (gmul_mul _ j 8 edT), edT_8, gmul_O, gadd_O in E. exact E. }
    assert (D : (edL | a)).
    { apply (Gauss edL 8 a); [|apply rel_prime_sym, edL_odd8]. rewrite <- (gmul_0 edG edB), edB_inj in E8. rewrite Z.mod_0_l in E8 by discriminate. apply Z.mod_divide; [discriminate|exact E8]. }
    split; [exact D|]. assert (B0 : gmul a edB = gO) by (destruct D as [k ->]; rewrite gmul_mul, edB_order; apply gmul_O).
    rewrite B0, gO_add in E. apply edT_zero. exact E.
  - intros [[k ->] J]. apply edT_zero in J. rewrite J, gmul_mul, edB_order, gmul_O. apply gadd_O.
Qed.
Theorem parts_eq : forall a j b k, gadd (gmul a edB) (gmul j edT) = gadd (gmul b edB) (gmul k edT) <-> (edL | a - b) /\ (8 | j - k).
Proof.
  intros a j b k. rewrite <- parts_zero, !gmul_sub. rewrite (gadd4 _ (gmul a edB)), <- gneg_add. split; [intros ->; apply gadd_neg|apply gsub_eq].
Qed.
