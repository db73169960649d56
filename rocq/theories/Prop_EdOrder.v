(** * Prop_EdOrder: property C89, all points of edwards25519 and what Ed25519 verification does with those outside the group of the base point *)
From Coq Require Import ZArith Znumtheory Zpow_facts String List Bool Lia.
From Verif Require Import Base BaseFacts Spec_EC Spec_Group EdZ Ed25519 EdCurve Spec_Ed25519 Ed25519Facts Prop_Ed25519 EdOrder Spec_EdOrder.
Import ListNotations.
Open Scope Z_scope.

(** ** The group *)
(** 8 L points, all of them multiples of one *)
Theorem C89_cyclic : exists U : pt edG, forall P, exists! d, 0 <= d < 8 * edL /\ P = gmul d U.
Proof.
  exists edU. intros P. destruct (edU_generates P) as (d & R & E). exists d. split; [split; assumption|].
  intros d' [R' E']. rewrite E in E'. apply edU_inj in E'. rewrite (Z.mod_small d), (Z.mod_small d') in E' by assumption. exact E'.
Qed.
(** the multiples of the base point are the points P with L P = 0 *)
Theorem C89_subgroup : forall P : pt edG, gmul edL P = gO <-> exists a, 0 <= a < edL /\ P = gmul a edB.
Proof.
  intros P. split.
  - destruct (ed_parts P) as (a & j & Ra & Rj & ->). intros E. rewrite gmul_gadd, <- !gmul_mul in E. apply parts_zero in E. destruct E as [_ D].
    apply Gauss in D; [|exact edL_odd8]. exists a. split; [exact Ra|]. assert (j = 0) as -> by (destruct D as [k D]; lia). rewrite gmul_0. apply gadd_O.
  - intros (a & _ & ->). rewrite gmul_comm, edB_order. apply gmul_O.
Qed.

(** coordinates of the multiples of T *)
Notation p8 := (ate_add edP edP_prime edP_odd edD edI edI_sqr edD_nonsquare).
Lemma T_co : forall j x y, edat (gmul j edT) x y -> 0 <= x < edP -> 0 <= y < edP -> edco (gmul j edT) x y.
Proof. intros j x y A X Y. split; [exact A|]. split; assumption. Qed.
Definition tx3 : Z := 14399317868200118260347934320527232580618823971194345261214217575416788799818.
Definition ty3 : Z := 55188659117513257062467267217118295137698188065244968500265048394206261417927.
Definition tx5 : Z := 43496726750457979451437558183816721346016168361625936758514574428539776020131.
Definition tx6 : Z := 38214883241950591754978413199355411911188925816896391856984770930832735035197.
Ltac range := split; [apply Z.leb_le; vm_compute; reflexivity|apply Z.ltb_lt; vm_compute; reflexivity].
Lemma co0 : edco (gmul 0 edT) 0 1. Proof. exact edco_O. Qed.
Lemma co1 : edco (gmul 1 edT) edTx edTy. Proof. apply T_co; [rewrite gmul_1; exact edT_at|range|range]. Qed.
Lemma co2 : edco (gmul 2 edT) edI 0. Proof. apply T_co; [exact edT_2|range|range]. Qed.
Lemma co4 : edco (gmul 4 edT) 0 (edP - 1).
Proof. apply T_co; [|range|range]. apply (ate_cong edP edP_prime edP_odd edD edI edI_sqr edD_nonsquare _ 0 (-1)); [exact edT_4|apply divb; vm_compute; reflexivity|apply divb; vm_compute; reflexivity]. Qed.
Lemma co3 : edco (gmul 3 edT) tx3 ty3.
Proof. apply T_co; [|range|range]. rewrite (gmul_add _ 2 1). apply (p8 _ _ edI 0 edTx edTy); [exact edT_2|apply co1|apply divb; vm_compute; reflexivity|apply divb; vm_compute; reflexivity]. Qed.
Lemma co5 : edco (gmul 5 edT) tx5 ty3.
Proof. apply T_co; [|range|range]. rewrite (gmul_add _ 4 1). apply (p8 _ _ 0 (-1) edTx edTy); [exact edT_4|apply co1|apply divb; vm_compute; reflexivity|apply divb; vm_compute; reflexivity]. Qed.
Lemma co6 : edco (gmul 6 edT) tx6 0.
Proof. apply T_co; [|range|range]. rewrite (gmul_add _ 4 2). apply (p8 _ _ 0 (-1) edI 0); [exact edT_4|exact edT_2|apply divb; vm_compute; reflexivity|apply divb; vm_compute; reflexivity]. Qed.
Lemma co7 : edco (gmul 7 edT) tx5 edTy.
Proof. apply T_co; [|range|range]. rewrite (gmul_add _ 4 3). apply (p8 _ _ 0 (-1) tx3 ty3); [exact edT_4|apply co3|apply divb; vm_compute; reflexivity|apply divb; vm_compute; reflexivity]. Qed.
Lemma small_multiple : forall n a, 0 <= a < n -> (n | a) -> a = 0.
Proof. intros n a R [k ->]. assert (k = 0) as -> by nia. reflexivity. Qed.
Lemma small_diff : forall n a b, 0 <= a < n -> 0 <= b < n -> (n | a - b) -> a = b.
Proof. intros n a b Ra Rb [k D]. assert (k = 0) as -> by nia. lia. Qed.
Lemma small_T : forall P : pt edG, gmul 8 P = gO <-> exists j, 0 <= j < 8 /\ P = gmul j edT.
Proof.
  intros P. split.
  - destruct (ed_parts P) as (a & j & Ra & Rj & ->). intros E. rewrite gmul_gadd, <- !gmul_mul in E. apply parts_zero in E. destruct E as [D _].
    apply Gauss in D; [|apply rel_prime_sym, edL_odd8]. exists j. split; [exact Rj|].
    rewrite (small_multiple edL a Ra D), gmul_0. apply gO_add.
  - intros (j & _ & ->). rewrite gmul_comm, edT_8. apply gmul_O.
Qed.
(** the points of small order *)
Theorem C89_small_order : forall P x y, edco P x y -> (gmul 8 P = gO <-> In (x, y) small_points).
Proof.
  intros P x y C. rewrite small_T. split.
  - intros (j & R & ->). assert (J : j = 0 \/ j = 1 \/ j = 2 \/ j = 3 \/ j = 4 \/ j = 5 \/ j = 6 \/ j = 7) by lia.
    assert (K : forall u v, edco (gmul j edT) u v -> In (u, v) small_points -> In (x, y) small_points).
    { intros u v D I. destruct (edco_fun _ x y u v C D) as [-> ->]. exact I. }
    unfold small_points in K. destruct J as [->|[->|[->|[->|[->|[->|[->| ->]]]]]]];
      [apply (K _ _ co0)|apply (K _ _ co1)|apply (K _ _ co2)|apply (K _ _ co3)|apply (K _ _ co4)|apply (K _ _ co5)|apply (K _ _ co6)|apply (K _ _ co7)].
    + left; reflexivity.
    + do 4 right; left; reflexivity.
    + do 2 right; left; reflexivity.
    + do 6 right; left; reflexivity.
    + do 1 right; left; reflexivity.
    + do 7 right; left; reflexivity.
    + do 3 right; left; reflexivity.
    + do 5 right; left; reflexivity.
  - assert (K : forall j u v, edco (gmul j edT) u v -> 0 <= j < 8 -> (u, v) = (x, y) -> exists i, 0 <= i < 8 /\ P = gmul i edT).
    { intros j u v D R E. exists j. split; [exact R|]. injection E as -> ->. exact (edco_inj P _ x y C D). }
    unfold small_points. intros [I|[I|[I|[I|[I|[I|[I|[I|[]]]]]]]]];
      [apply (K _ _ _ co0)|apply (K _ _ _ co4)|apply (K _ _ _ co2)|apply (K _ _ _ co6)|apply (K _ _ _ co1)|apply (K _ _ _ co7)|apply (K _ _ _ co3)|apply (K _ _ _ co5)]; try lia; exact I.
Qed.
(** the byte strings that are read as one: 14, seven values with the top bit clear or set *)
Theorem C89_small_keys : forall b, octets b -> length b = 32%nat ->
  ((exists A, read_as b A /\ gmul 8 A = gO) <-> In (lev b mod 2 ^ 255) small_keys).
Proof.
  intros b Ob Lb. destruct (sign_bit b Ob Lb) as [_ SB]. unfold read_as. pose proof (Z.mod_pos_bound (lev b) (2 ^ 255) ltac:(reflexivity)) as B.
  set (v := lev b mod 2 ^ 255) in *. set (sg := lev b / 2 ^ 255) in *. clearbody v sg. split.
  - intros (A & (x & y & C & D & _) & S8). pose proof C as (_ & _ & Ry). apply (C89_small_order A x y C) in S8.
    assert (V : v = y \/ v = y + edP).
    { destruct D as [q D]. assert (P2 : 2 ^ 255 < 2 * edP) by reflexivity. revert B Ry D P2. generalize edP (2 ^ 255). intros p m B Ry D P2.
      assert (q = 0 \/ q = -1) as [-> | ->] by nia; lia. }
    assert (W : forall z, v = z + edP -> 2 ^ 255 <= z + edP -> False) by (intros z -> Hz; lia).
    unfold small_points in S8. unfold small_keys.
    assert (Y : y = 1 \/ y = edP - 1 \/ y = 0 \/ y = edTy \/ y = ty3).
    { destruct S8 as [I|[I|[I|[I|[I|[I|[I|[I|[]]]]]]]]]; injection I as <- <-; [left|right; left|do 2 right; left|do 2 right; left|do 3 right; left|do 3 right; left|do 4 right|do 4 right]; reflexivity. }
    clear S8 C D Ry. destruct Y as [->|[->|[->|[->| ->]]]]; destruct V as [V|V]; try (exfalso; apply (W _ V); apply Z.leb_le; vm_compute; reflexivity); rewrite V.
    + do 1 right; left; reflexivity.
    + do 4 right; left. ring.
    + do 2 right; left; reflexivity.
    + left; reflexivity.
    + do 3 right; left. ring.
    + do 5 right; left; reflexivity.
    + do 6 right; left; reflexivity.
  - assert (K : forall j x y, edco (gmul j edT) x y -> (edP | y - v) -> (x = 0 \/ x mod 2 = sg) -> exists A, (exists x y, edco A x y /\ (edP | y - v) /\ (x = 0 \/ x mod 2 = sg)) /\ gmul 8 A = gO).
    { intros j x y C D S. exists (gmul j edT). split; [exists x, y; auto|]. rewrite gmul_comm, edT_8. apply gmul_O. }
    unfold small_keys. intros I. assert (SG : sg = 0 \/ sg = 1) by lia.
    destruct I as [<-|[<-|[<-|[<-|[<-|[<-|[<-|[]]]]]]]].
    + destruct SG as [-> | ->]; [apply (K _ _ _ co2)|apply (K _ _ _ co6)]; (apply divb; vm_compute; reflexivity) || (right; vm_compute; reflexivity).
    + apply (K _ _ _ co0); [apply divb; vm_compute; reflexivity|left; reflexivity].
    + apply (K _ _ _ co4); [apply divb; vm_compute; reflexivity|left; reflexivity].
    + destruct SG as [-> | ->]; [apply (K _ _ _ co2)|apply (K _ _ _ co6)]; (apply divb; vm_compute; reflexivity) || (right; vm_compute; reflexivity).
    + apply (K _ _ _ co0); [apply divb; vm_compute; reflexivity|left; reflexivity].
    + destruct SG as [-> | ->]; [apply (K _ _ _ co1)|apply (K _ _ _ co7)]; (apply divb; vm_compute; reflexivity) || (right; vm_compute; reflexivity).
    + destruct SG as [-> | ->]; [apply (K _ _ _ co3)|apply (K _ _ _ co5)]; (apply divb; vm_compute; reflexivity) || (right; vm_compute; reflexivity).
Qed.

Section All.
Variable sha512 : bytes -> bytes.
Hypothesis sha_len : forall m, length (sha512 m) = 64%nat.
Hypothesis sha_octets : forall m, octets (sha512 m).
Notation Verify := (Ed25519.Verify sha512).
Notation challenge := (challenge sha512).

Lemma split_unique : forall (a b c d : bytes), length b = length d -> a ++ b = c ++ d -> a = c /\ b = d.
Proof.
  intros a b c d L E. assert (La : length a = length c) by (apply (f_equal (@length Z)) in E; rewrite !app_length in E; lia).
  revert c La E. induction a as [|x a IH]; intros [|y c] La E; cbn in La; try discriminate; [split; [reflexivity|exact E]|].
  cbn in E. injection E as -> E. destruct (IH c ltac:(lia) E) as [-> ->]. split; reflexivity.
Qed.
Lemma verify_iff : forall pub msg A R Rb Sb, octets pub -> length pub = 32%nat -> octets Sb -> length Sb = 32%nat -> read_as pub A -> point_bytes R Rb ->
  (Verify pub msg (Rb ++ Sb) = true <-> lev Sb < edL /\ gadd R (gmul (challenge Rb pub msg) A) = gmul (lev Sb) edB).
Proof.
  intros pub msg A R Rb Sb Op Lp Os Ls RA PR. pose proof PR as (_ & _ & _ & LR & OR & _).
  rewrite (C85_verify_exact sha512) by (try assumption; apply Forall_app; split; assumption). split.
  - intros (A' & R' & Rb' & Sb' & E & L' & M & RA' & PR' & EQ). apply split_unique in E; [|congruence]. destruct E as [<- <-].
    rewrite (read_fun pub A A' Op Lp RA RA'), (point_bytes_inj R R' Rb PR PR'). split; assumption.
  - intros [M EQ]. exists A, R, Rb, Sb. auto 10.
Qed.
Lemma cofactored_iff : forall pub msg A R Rb Sb, octets pub -> length pub = 32%nat -> length Sb = 32%nat -> read_as pub A -> point_bytes R Rb ->
  (cofactored sha512 pub msg (Rb ++ Sb) <-> lev Sb < edL /\ gadd (gmul 8 R) (gmul (8 * challenge Rb pub msg) A) = gmul (8 * lev Sb) edB).
Proof.
  intros pub msg A R Rb Sb Op Lp Ls RA PR. split.
  - intros (A' & R' & Rb' & Sb' & E & L' & M & RA' & PR' & EQ). apply split_unique in E; [|congruence]. destruct E as [<- <-].
    rewrite (read_fun pub A A' Op Lp RA RA'), (point_bytes_inj R R' Rb PR PR'). split; assumption.
  - intros [M EQ]. exists A, R, Rb, Sb. auto 10.
Qed.
Lemma parts_sum : forall a j r i k, gadd (gadd (gmul r edB) (gmul i edT)) (gmul k (gadd (gmul a edB) (gmul j edT))) = gadd (gmul (r + k * a) edB) (gmul (i + k * j) edT).
Proof. intros. rewrite gmul_gadd, <- !gmul_mul, gadd4, <- !gmul_add. reflexivity. Qed.
Lemma div_opp : forall n u v, (n | u - v) <-> (n | v - u).
Proof. intros n u v. split; intros [k D]; exists (- k); lia. Qed.

(** every key is a B + j T and every R is r B + i T; the signature is accepted when both parts agree *)
Theorem C89_verify_parts : exists T : pt edG, gmul 8 T = gO /\ gmul 4 T <> gO /\
  (forall P, exists a j, 0 <= a < edL /\ 0 <= j < 8 /\ P = gadd (gmul a edB) (gmul j T)) /\
  forall pub msg Rb Sb a j r i, octets pub -> length pub = 32%nat -> octets Sb -> length Sb = 32%nat ->
    read_as pub (gadd (gmul a edB) (gmul j T)) -> point_bytes (gadd (gmul r edB) (gmul i T)) Rb ->
    let k := challenge Rb pub msg in
    (Verify pub msg (Rb ++ Sb) = true <-> lev Sb < edL /\ (edL | lev Sb - (r + k * a)) /\ (8 | i + k * j)) /\
    (cofactored sha512 pub msg (Rb ++ Sb) <-> lev Sb < edL /\ (edL | lev Sb - (r + k * a))).
Proof.
  exists edT. split; [exact edT_8|]. split; [exact edT_4_nz|]. split; [exact ed_parts|].
  intros pub msg Rb Sb a j r i Op Lp Os Ls RA PR k. rewrite (verify_iff pub msg _ _ Rb Sb Op Lp Os Ls RA PR), (cofactored_iff pub msg _ _ Rb Sb Op Lp Ls RA PR). fold k. clearbody k. clear RA PR.
  set (s := lev Sb). clearbody s. split.
  - rewrite parts_sum, <- (gadd_O _ (gmul s edB)), <- (gmul_0 edG edT), parts_eq, div_opp, Z.sub_0_r. reflexivity.
  - rewrite (gmul_mul _ 8 k), <- gmul_gadd, parts_sum, gmul_gadd, <- !gmul_mul, <- (gadd_O _ (gmul (8 * s) edB)), <- (gmul_0 edG edT), parts_eq.
    assert (T8 : (8 | 8 * (i + k * j) - 0)) by (exists (i + k * j); lia).
    assert (E : (edL | 8 * (r + k * a) - 8 * s) <-> (edL | s - (r + k * a))).
    { rewrite div_opp, <- Z.mul_sub_distr_l. split; [intros D; apply Gauss in D; [exact D|apply rel_prime_sym, edL_odd8]|intros D; apply Z.divide_mul_r, D]. }
    rewrite E. tauto.
Qed.
(** the library accepts less than RFC 8032 allows, and the same when key and R lie in the group of the base point *)
Theorem C89_cofactored : forall pub msg A R Rb Sb, octets pub -> length pub = 32%nat -> octets Sb -> length Sb = 32%nat -> read_as pub A -> point_bytes R Rb ->
  (Verify pub msg (Rb ++ Sb) = true -> cofactored sha512 pub msg (Rb ++ Sb)) /\
  (gmul edL A = gO -> (Verify pub msg (Rb ++ Sb) = true <-> cofactored sha512 pub msg (Rb ++ Sb) /\ gmul edL R = gO)).
Proof.
  intros pub msg A R Rb Sb Op Lp Os Ls RA PR. rewrite (verify_iff pub msg A R Rb Sb Op Lp Os Ls RA PR), (cofactored_iff pub msg A R Rb Sb Op Lp Ls RA PR).
  set (k := challenge Rb pub msg). set (s := lev Sb). clearbody k s. rewrite (gmul_mul _ 8 k), <- gmul_gadd, (gmul_mul _ 8 s).
  assert (F : gadd R (gmul k A) = gmul s edB -> gmul 8 (gadd R (gmul k A)) = gmul 8 (gmul s edB)) by (intros ->; reflexivity).
  split; [tauto|]. intros LA. assert (LK : gmul edL (gmul k A) = gO) by (rewrite gmul_comm, LA; apply gmul_O).
  assert (LS : gmul edL (gmul s edB) = gO) by (rewrite gmul_comm, edB_order; apply gmul_O). split.
  - intros [M E]. split; [split; [exact M|apply F, E]|]. rewrite <- E, gmul_gadd, LK, gadd_O in LS. exact LS.
  - intros [[M E] LR]. split; [exact M|]. apply gsub_eq. set (D := gadd (gadd R (gmul k A)) (gneg (gmul s edB))).
    assert (D8 : gmul 8 D = gO) by (unfold D; rewrite gmul_gadd, E, gmul_gneg; apply gadd_neg).
    assert (DL : gmul edL D = gO) by (unfold D; rewrite !gmul_gadd, gmul_gneg, LR, LK, LS, gneg_O, !gadd_O; reflexivity).
    apply C89_subgroup in DL. destruct DL as (a & Ra & ED). rewrite ED in D8 |- *. rewrite <- gmul_mul in D8. rewrite <- (gadd_O _ (gmul (8 * a) edB)), <- (gmul_0 edG edT) in D8.
    apply parts_zero in D8. destruct D8 as [D8 _]. apply Gauss in D8; [|apply rel_prime_sym, edL_odd8]. destruct D8 as [q ->]. rewrite gmul_mul, edB_order. apply gmul_O.
Qed.
(** one signature and two messages *)
Theorem C89_two_messages : forall pub m1 m2 A Rb Sb, octets pub -> length pub = 32%nat -> length Rb = 32%nat -> octets Rb -> octets Sb -> read_as pub A ->
  Verify pub m1 (Rb ++ Sb) = true -> let k1 := challenge Rb pub m1 in let k2 := challenge Rb pub m2 in
  (Verify pub m2 (Rb ++ Sb) = true <-> gmul (k1 - k2) A = gO) /\
  (gmul 8 A <> gO -> (Verify pub m2 (Rb ++ Sb) = true <-> k1 = k2)).
Proof.
  intros pub m1 m2 A Rb Sb Op Lp LR OR Os RA V1 k1 k2. pose proof V1 as V. apply (C85_verify_exact sha512) in V; [|assumption|assumption|apply Forall_app; split; assumption].
  destruct V as (A' & R & Rb' & Sb' & E & Ls & _ & _ & PR & _). pose proof PR as (_ & _ & _ & LR' & _ & _).
  assert (Lb : length Sb = length Sb') by (apply (f_equal (@length Z)) in E; rewrite !app_length in E; lia).
  destruct (split_unique _ _ _ _ Lb E) as [<- <-]. clear E Lb LR'.
  rewrite (verify_iff pub m1 A R Rb Sb) in V1 by assumption. rewrite (verify_iff pub m2 A R Rb Sb) by assumption. fold k1 in V1. fold k2. destruct V1 as [M E1].
  assert (G : (lev Sb < edL /\ gadd R (gmul k2 A) = gmul (lev Sb) edB) <-> gmul (k1 - k2) A = gO).
  { rewrite gmul_sub. split.
    - intros [_ E2]. rewrite <- E2 in E1. apply gcancel_l in E1. rewrite E1. apply gadd_neg.
    - intros Z0. apply gsub_eq in Z0. rewrite <- Z0. split; assumption. }
  split; [exact G|]. intros N8. rewrite G. split; [|intros ->; rewrite Z.sub_diag; apply gmul_0].
  assert (R1 : 0 <= k1 < edL) by (apply Z.mod_pos_bound; reflexivity). assert (R2 : 0 <= k2 < edL) by (apply Z.mod_pos_bound; reflexivity). clearbody k1 k2.
  destruct (ed_parts A) as (a & j & Ra & Rj & EA). intros Z0. rewrite EA, gmul_gadd, <- !gmul_mul in Z0. apply parts_zero in Z0. destruct Z0 as [D _].
  apply prime_mult in D; [|exact edL_prime]. destruct D as [D|D].
  - exact (small_diff edL k1 k2 R1 R2 D).
  - exfalso. apply N8. apply small_T. exists j. split; [exact Rj|]. rewrite EA, (small_multiple edL a Ra D), gmul_0. apply gO_add.
Qed.
(** keys made from a seed: never of small order, always in the group of the base point; for them verification is exactly the
    equation of RFC 8032 with R in the group, and a signature fixes the challenge *)
Theorem C89_seed_keys : forall seed, length seed = 32%nat -> exists pub A, NewKeyFromSeed sha512 seed = seed ++ pub /\ read_as pub A /\ octets pub /\ length pub = 32%nat /\
  gmul edL A = gO /\ gmul 8 A <> gO /\ ~ In (lev pub mod 2 ^ 255) small_keys /\
  forall m1 m2 Rb Sb, length Rb = 32%nat -> octets Rb -> octets Sb -> Verify pub m1 (Rb ++ Sb) = true ->
    (Verify pub m2 (Rb ++ Sb) = true <-> challenge Rb pub m1 = challenge Rb pub m2).
Proof.
  intros seed Ls. destruct (C85_key sha512 sha_len sha_octets seed) as (pub & E & PB & _ & _ & NZ). pose proof PB as (_ & _ & _ & Lp & Op & _).
  pose proof (point_bytes_read _ _ PB) as RA. set (A := gmul (scalar_of sha512 seed) edB) in *.
  assert (LA : gmul edL A = gO) by (unfold A; rewrite gmul_comm, edB_order; apply gmul_O).
  assert (N8 : gmul 8 A <> gO).
  { intros C. apply NZ. unfold A in *. rewrite <- gmul_mul in C. rewrite <- (gadd_O _ (gmul _ edB)), <- (gmul_0 edG edT) in C. apply parts_zero in C. destruct C as [D _].
    apply Gauss in D; [|apply rel_prime_sym, edL_odd8]. destruct D as [q ->]. rewrite gmul_mul, edB_order. apply gmul_O. }
  exists pub, A. do 6 (split; [assumption|]). split.
  - intros I. apply (C89_small_keys pub Op Lp) in I. destruct I as (A' & RA' & S8). rewrite <- (read_fun pub A A' Op Lp RA RA') in S8. exact (N8 S8).
  - intros m1 m2 Rb Sb LR OR Os V. destruct (C89_two_messages pub m1 m2 A Rb Sb Op Lp LR OR Os RA V) as [_ T]. exact (T N8).
Qed.
End All.
Print Assumptions C89_cyclic.
Print Assumptions C89_subgroup.
Print Assumptions C89_small_order.
Print Assumptions C89_small_keys.
Print Assumptions C89_verify_parts.
Print Assumptions C89_cofactored.
Print Assumptions C89_two_messages.
Print Assumptions C89_seed_keys.

(** ** Examples *)
(** a function with the format of SHA-512 that depends on every byte of its argument *)
Definition ex_sum (m : bytes) : bytes := z2le 64 (lev m mod 1000003).
Lemma ex_sum_ok : (forall m, length (ex_sum m) = 64%nat) /\ (forall m, octets (ex_sum m)).
Proof. split; intros m; [apply z2le_length|apply z2le_octets]. Qed.
(** the key 00 ... 00 is read as a point of order 4 *)
Definition ex_key4 : bytes := repeat 0 32.
Definition ex_R : bytes := 1 :: repeat 0 31.
Definition ex_S : bytes := repeat 0 32.
Lemma key4_read : read_as ex_key4 (gmul 2 edT).
Proof. exists edI, 0. split; [exact co2|]. split; [exists 0; reflexivity|]. right. vm_compute. reflexivity. Qed.
Lemma R_bytes : point_bytes gO ex_R.
Proof. exists 0, 1. split; [exact edco_O|]. split; [reflexivity|]. split; [apply octetsb; reflexivity|vm_compute; reflexivity]. Qed.
Example C89_small_example : In (lev ex_key4 mod 2 ^ 255) small_keys /\ gmul 8 (gmul 2 edT) = gO /\ gmul 2 (gmul 2 edT) <> gO.
Proof.
  split; [left; vm_compute; reflexivity|]. split; [rewrite gmul_comm, edT_8; apply gmul_O|]. rewrite <- gmul_mul. exact edT_4_nz.
Qed.
Lemma ex_chal : challenge ex_sum ex_R ex_key4 [1] = 835588 /\ challenge ex_sum ex_R ex_key4 [2] = 671172 /\ challenge ex_sum ex_R ex_key4 [7] = 849095.
Proof. vm_compute. auto. Qed.
(** one signature under this key: accepted for the messages 1 and 2 though their challenges differ, refused for 7, where RFC 8032
    would accept it *)
Example C89_forgery_example : Ed25519.Verify ex_sum ex_key4 [1] (ex_R ++ ex_S) = true /\ Ed25519.Verify ex_sum ex_key4 [2] (ex_R ++ ex_S) = true /\
  challenge ex_sum ex_R ex_key4 [1] <> challenge ex_sum ex_R ex_key4 [2] /\
  Ed25519.Verify ex_sum ex_key4 [7] (ex_R ++ ex_S) = false /\ cofactored ex_sum ex_key4 [7] (ex_R ++ ex_S).
Proof.
  destruct ex_chal as (K1 & K2 & K7).
  assert (O4 : octets ex_key4) by (apply octetsb; reflexivity). assert (OS : octets ex_S) by (apply octetsb; reflexivity).
  assert (S0 : lev ex_S = 0) by (vm_compute; reflexivity).
  assert (V : forall m, Ed25519.Verify ex_sum ex_key4 m (ex_R ++ ex_S) = true <-> (8 | challenge ex_sum ex_R ex_key4 m * 2)).
  { intros m. rewrite (verify_iff ex_sum ex_key4 m _ _ ex_R ex_S O4 eq_refl OS eq_refl key4_read R_bytes), S0, gmul_0, gO_add, <- gmul_mul, edT_zero.
    split; [tauto|intros H; split; [reflexivity|exact H]]. }
  split; [apply V; rewrite K1; exists 208897; reflexivity|]. split; [apply V; rewrite K2; exists 167793; reflexivity|]. split; [rewrite K1, K2; discriminate|]. split.
  - apply Bool.not_true_is_false. intros C. apply V in C. rewrite K7 in C. apply Z.mod_divide in C; [|discriminate]. vm_compute in C. discriminate C.
  - apply (cofactored_iff ex_sum ex_key4 [7] _ _ ex_R ex_S O4 eq_refl eq_refl key4_read R_bytes). rewrite S0, Z.mul_0_r, gmul_0, gmul_O, gO_add, <- gmul_mul. split; [reflexivity|].
    apply edT_zero. eexists. rewrite <- Z.mul_assoc, Z.mul_comm. reflexivity.
Qed.
(** a key and an R of the kind C89_verify_parts speaks of, outside the group of the base point: B + T *)
Example C89_mixed_example : exists b, octets b /\ length b = 32%nat /\ read_as b (gadd (gmul 1 edB) (gmul 1 edT)) /\
  gmul edL (gadd (gmul 1 edB) (gmul 1 edT)) <> gO /\ gmul 8 (gadd (gmul 1 edB) (gmul 1 edT)) <> gO.
Proof.
  destruct (ed_bytes (gadd (gmul 1 edB) (gmul 1 edT))) as [b PB]. exists b. pose proof PB as (_ & _ & _ & Lb & Ob & _).
  split; [exact Ob|]. split; [exact Lb|]. split; [apply point_bytes_read; exact PB|]. rewrite !gmul_gadd, <- !gmul_mul.
  split; intros C; apply parts_zero in C; destruct C as [C1 C2].
  - apply Z.mod_divide in C2; [|discriminate]. vm_compute in C2. discriminate C2.
  - apply Z.mod_divide in C1; [|discriminate]. vm_compute in C1. discriminate C1.
Qed.
(** a seed *)
Example C89_seed_example : exists pub, NewKeyFromSeed ex_sum ex_seed = ex_seed ++ pub /\ ~ In (lev pub mod 2 ^ 255) small_keys.
Proof.
  destruct ex_sum_ok as [SL SO]. destruct (C89_seed_keys ex_sum SL SO ex_seed eq_refl) as (pub & A & E & _ & _ & _ & _ & _ & N & _). exists pub. split; assumption.
Qed.
Print Assumptions C89_forgery_example.
