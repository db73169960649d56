(** * Prop_Whole: property C77, the curves P-256 and SM2 have exactly N points, all multiples of the base point,
    and what that means for the methods of elliptic.CurveParams *)
From Coq Require Import ZArith Znumtheory Zpow_facts String List Bool Lia FinFun.
From Verif Require Import Base BaseFacts Curves Primes3 Spec_Group CurveZ CurveRoot Elliptic EllipticFacts CurveWhole.
Import ListNotations.
Open Scope Z_scope.

Definition prime_curve (c : curve) : Prop := c = P256 \/ c = SM2P256V1.
Lemma prime_curve_w : forall c, prime_curve c -> exists W : wcurve, wc W = c.
Proof. intros c [-> | ->]; [exists wP256|exists wSM2]; reflexivity. Qed.
(** a pair of reduced coordinates on the curve *)
Definition point_of (c : curve) (q : Z * Z) : Prop := 0 <= fst q < c_P c /\ 0 <= snd q < c_P c /\ IsOnCurve c q = true.

Section W.
Variable W : wcurve.
Lemma on_point : forall q, IsOnCurve W q = true -> exists P, P <> gO /\ wat W P (fst q) (snd q) /\ forall k, wf_bytes k -> ScalarMult W q k = wco W (gmul (be2z k) P).
Proof.
  intros [x y] H. apply w_on_iff in H. destruct H as [P A]. exists P. split; [exact (wat_nz W P x y A)|]. split; [exact A|].
  intros k Wk. exact (w_mult W P x y k A Wk).
Qed.
Lemma co_point : forall P, P <> gO -> point_of W (wco W P).
Proof.
  intros P NP. destruct (wco_range W P) as [X Y]. split; [exact X|]. split; [exact Y|]. rewrite (surjective_pairing (wco W P)). apply w_on_iff.
  exists P. exact (wco_wat W P NP).
Qed.
Lemma point_co : forall q, point_of W q -> exists P, P <> gO /\ wco W P = q.
Proof.
  intros [x y] (X & Y & H). apply w_on_iff in H. destruct H as [P A]. exists P. split; [exact (wat_nz W P x y A)|].
  rewrite (wat_wco W P x y A). cbn [fst snd] in X, Y. rewrite !Z.mod_small by assumption. reflexivity.
Qed.
Lemma N_pos : 0 < c_N W. Proof. pose proof (w_N2 W). lia. Qed.
Lemma order_w : forall q k, IsOnCurve W q = true -> wf_bytes k -> (ScalarMult W q k = (0, 0) <-> (c_N W | be2z k)).
Proof.
  intros q k H Wk. destruct (on_point q H) as (P & NP & _ & S). rewrite (S k Wk), wco_O_iff, (w_gmul_zero W _ P NP). pose proof N_pos.
  apply Z.mod_divide. lia.
Qed.
Lemma equal_w : forall q k k', IsOnCurve W q = true -> wf_bytes k -> wf_bytes k' ->
  (ScalarMult W q k = ScalarMult W q k' <-> be2z k mod c_N W = be2z k' mod c_N W).
Proof.
  intros q k k' H Wk Wk'. destruct (on_point q H) as (P & NP & _ & S). rewrite (S k Wk), (S k' Wk').
  rewrite <- (gmul_inj _ (c_N W) _ _ P (w_n W) (w_killed W P) NP). split; [apply wco_inj|intros ->; reflexivity].
Qed.
Lemma closed_w : forall q k, IsOnCurve W q = true -> wf_bytes k -> ~ (c_N W | be2z k) -> point_of W (ScalarMult W q k).
Proof.
  intros q k H Wk ND. destruct (on_point q H) as (P & NP & _ & S). rewrite (S k Wk). apply co_point.
  rewrite (w_gmul_zero W _ P NP). intros C. apply ND. apply Z.mod_divide; [pose proof N_pos; lia|exact C].
Qed.
Lemma sum_w : forall q a b e, IsOnCurve W q = true -> wf_bytes a -> wf_bytes b -> wf_bytes e ->
  be2z e mod c_N W = (be2z a + be2z b) mod c_N W -> Add W (ScalarMult W q a) (ScalarMult W q b) = ScalarMult W q e.
Proof.
  intros q a b e H Wa Wb We E. destruct (on_point q H) as (P & NP & _ & S). rewrite (S a Wa), (S b Wb), (S e We), w_add, <- gmul_add. f_equal.
  apply (gmul_cong _ (c_N W)); [apply N_pos|apply w_killed|]. symmetry. exact E.
Qed.
Lemma product_w : forall q a b e, IsOnCurve W q = true -> wf_bytes a -> wf_bytes b -> wf_bytes e -> ~ (c_N W | be2z a) ->
  be2z e mod c_N W = (be2z a * be2z b) mod c_N W -> ScalarMult W (ScalarMult W q a) b = ScalarMult W q e.
Proof.
  intros q a b e H Wa Wb We ND E. destruct (on_point q H) as (P & NP & _ & S). rewrite (S a Wa), (S e We).
  assert (NA : gmul (be2z a) P <> gO).
  { rewrite (w_gmul_zero W _ P NP). intros C. apply ND. apply Z.mod_divide; [pose proof N_pos; lia|exact C]. }
  rewrite (w_mult_co W _ b NA Wb), <- gmul_mul. f_equal. apply (gmul_cong _ (c_N W)); [apply N_pos|apply w_killed|]. rewrite (Z.mul_comm (be2z b)). symmetry. exact E.
Qed.
Lemma generated_w : forall q, point_of W q -> exists d, 0 < d < c_N W /\ ScalarBaseMult W (big_bytes d) = q /\
  forall k, wf_bytes k -> ScalarBaseMult W k = q -> be2z k mod c_N W = d.
Proof.
  intros q H. destruct (point_co q H) as (P & NP & <-). destruct (w_multiple W P) as (d & R & ->).
  assert (D0 : d <> 0) by (intros ->; apply NP; reflexivity). exists d. split; [lia|].
  rewrite w_base, be2z_big_bytes by (lia || apply big_bytes_wf). split; [reflexivity|].
  intros k Wk E. rewrite (w_base W k Wk) in E. apply wco_inj in E.
  apply (gmul_inj _ (c_N W) _ _ _ (w_n W) (w_killed W _) (w_G_nz W)) in E. rewrite E. apply Z.mod_small. lia.
Qed.
Lemma count_w : exists l, NoDup l /\ Z.of_nat (length l) = c_N W - 1 /\ forall q, point_of W q <-> In q l.
Proof.
  pose proof (w_N2 W) as N2.
  exists (map (fun i => wco W (gmul (Z.of_nat i) (w_G W : pt (wgroup W)))) (seq 1 (Z.to_nat (c_N W - 1)))). split; [|split].
  - apply NoDup_map_on; [apply seq_NoDup|]. intros i j I J E. apply in_seq in I, J. apply wco_inj in E.
    apply (gmul_inj _ (c_N W) _ _ _ (w_n W) (w_killed W _) (w_G_nz W)) in E. rewrite !Z.mod_small in E by lia. lia.
  - rewrite map_length, seq_length. lia.
  - intros q. rewrite in_map_iff. split.
    + intros H. destruct (generated_w q H) as (d & R & E & _). exists (Z.to_nat d). rewrite in_seq. split; [|lia].
      rewrite Z2Nat.id by lia. rewrite w_base, be2z_big_bytes in E by (lia || apply big_bytes_wf). exact E.
    + intros (i & <- & I). apply in_seq in I. apply co_point. rewrite (w_gmul_zero W _ _ (w_G_nz W)). rewrite Z.mod_small; lia.
Qed.
End W.

(** ** The theorems, for P-256 and the SM2 curve *)
Section T.
Variable c : curve.
Hypothesis Hc : prime_curve c.
(** N is prime and there are N - 1 pairs of coordinates on the curve (so N points with infinity) *)
Theorem C77_count : prime (c_N c) /\ exists l, NoDup l /\ Z.of_nat (length l) = c_N c - 1 /\ forall q, point_of c q <-> In q l.
Proof. destruct (prime_curve_w c Hc) as [W <-]. split; [apply w_n|apply count_w]. Qed.
(** every one of them is the public key of exactly one private key *)
Theorem C77_generated : forall q, point_of c q -> exists d, 0 < d < c_N c /\ ScalarBaseMult c (big_bytes d) = q /\
  forall k, wf_bytes k -> ScalarBaseMult c k = q -> be2z k mod c_N c = d.
Proof. destruct (prime_curve_w c Hc) as [W <-]. apply generated_w. Qed.
(** infinity is the multiple by multiples of N, and by nothing else; all other results are on the curve *)
Theorem C77_order : forall q k, IsOnCurve c q = true -> wf_bytes k ->
  (ScalarMult c q k = (0, 0) <-> (c_N c | be2z k)) /\ (~ (c_N c | be2z k) -> point_of c (ScalarMult c q k)).
Proof. destruct (prime_curve_w c Hc) as [W <-]. intros q k H Wk. split; [apply order_w; assumption|apply closed_w; assumption]. Qed.
(** scalars count modulo N *)
Theorem C77_equal : forall q k k', IsOnCurve c q = true -> wf_bytes k -> wf_bytes k' ->
  (ScalarMult c q k = ScalarMult c q k' <-> be2z k mod c_N c = be2z k' mod c_N c).
Proof. destruct (prime_curve_w c Hc) as [W <-]. apply equal_w. Qed.
(** sums and products of scalars *)
Theorem C77_sum : forall q a b e, IsOnCurve c q = true -> wf_bytes a -> wf_bytes b -> wf_bytes e ->
  be2z e mod c_N c = (be2z a + be2z b) mod c_N c -> Add c (ScalarMult c q a) (ScalarMult c q b) = ScalarMult c q e.
Proof. destruct (prime_curve_w c Hc) as [W <-]. apply sum_w. Qed.
Theorem C77_product : forall q a b e, IsOnCurve c q = true -> wf_bytes a -> wf_bytes b -> wf_bytes e -> ~ (c_N c | be2z a) ->
  be2z e mod c_N c = (be2z a * be2z b) mod c_N c -> ScalarMult c (ScalarMult c q a) b = ScalarMult c q e.
Proof. destruct (prime_curve_w c Hc) as [W <-]. apply product_w. Qed.
(** key agreement *)
Theorem C77_agreement : forall q a b, IsOnCurve c q = true -> wf_bytes a -> wf_bytes b -> ~ (c_N c | be2z a) -> ~ (c_N c | be2z b) ->
  ScalarMult c (ScalarMult c q a) b = ScalarMult c (ScalarMult c q b) a.
Proof.
  intros q a b H Wa Wb Na Nb. assert (P0 : 0 <= be2z a * be2z b) by (apply Z.mul_nonneg_nonneg; apply be2z_bound; assumption).
  pose proof (be2z_big_bytes (be2z a * be2z b) P0) as E.
  rewrite (C77_product q a b (big_bytes (be2z a * be2z b))) by (assumption || apply big_bytes_wf || (rewrite E; reflexivity)).
  rewrite (C77_product q b a (big_bytes (be2z a * be2z b))) by (assumption || apply big_bytes_wf || (rewrite E, Z.mul_comm; reflexivity)). reflexivity.
Qed.
End T.

(** ** Examples *)
Example C77_example : forallb (fun c => IsOnCurve c (c_Gx c, c_Gy c) && (0 <? c_Gx c) && (c_Gx c <? c_P c) && (c_Gy c <? c_P c)) [P256; SM2P256V1] = true.
Proof. vm_compute. reflexivity. Qed.
Lemma base_is_on : forall W : wcurve, IsOnCurve W (c_Gx W, c_Gy W) = true.
Proof. intros W. apply w_on_iff. exists (w_G W). apply wat_G. Qed.
(** N G = O and (N + 1) G = G, as the code computes them *)
Lemma base_order : forall W : wcurve, ScalarMult W (c_Gx W, c_Gy W) (big_bytes (c_N W)) = (0, 0).
Proof.
  intros W. pose proof (N_pos W). apply (order_w W _ _ (base_is_on W) (big_bytes_wf _)). rewrite be2z_big_bytes by lia. apply Z.divide_refl.
Qed.
Lemma base_order_1 : forall W : wcurve, ScalarMult W (c_Gx W, c_Gy W) (big_bytes (c_N W + 1)) = ScalarMult W (c_Gx W, c_Gy W) [1].
Proof.
  intros W. pose proof (N_pos W). apply (equal_w W _ _ _ (base_is_on W) (big_bytes_wf _)); [repeat constructor; discriminate || reflexivity|].
  rewrite be2z_big_bytes by lia. change (be2z [1]) with 1. rewrite <- (Z.mul_1_l (c_N W)) at 1. rewrite Z.add_comm. apply Z_mod_plus_full.
Qed.
Example C77_example_order : ScalarMult (wc wP256) (c_Gx (wc wP256), c_Gy (wc wP256)) (big_bytes (c_N (wc wP256))) = (0, 0) /\
  ScalarMult (wc wP256) (c_Gx (wc wP256), c_Gy (wc wP256)) (big_bytes (c_N (wc wP256) + 1)) =
  ScalarMult (wc wP256) (c_Gx (wc wP256), c_Gy (wc wP256)) [1].
Proof. split; [exact (base_order wP256)|exact (base_order_1 wP256)]. Qed.
(** the 30 points of y^2 = x^3 - 3x + 4 modulo 23: without a prime order, N is not the order of every point *)
Definition composite_curve : curve := {| c_name := "toy"; c_P := 23; c_N := 30; c_B := 4; c_Gx := 0; c_Gy := 2; c_bits := 5 |}.
Example C77_example_composite : IsOnCurve composite_curve (13, 0) = true /\ ScalarMult composite_curve (13, 0) [2] = (0, 0).
Proof. vm_compute. split; reflexivity. Qed.

Print Assumptions C77_count.
Print Assumptions C77_generated.
Print Assumptions C77_order.
Print Assumptions C77_equal.
Print Assumptions C77_sum.
Print Assumptions C77_product.
Print Assumptions C77_agreement.
