(** * Prop_Nonce: property C87, the nonces of the signatures on secp256k1 (/repo/signature/secp256k1.go:11, signature.go:147-149) *)
From Coq Require Import ZArith Znumtheory Zpow_facts String List Bool Lia.
From Verif Require Import Base BaseFacts Curves ECKey Keypair Spec_EC ECFacts ECFacts2 Spec_Keys KeyFacts Prop_Keys Spec_SHA2 Spec_Group CurveZ CurveRoot CurveK Spec_ECDSA ECDSA ECDSAFacts
  Spec_Gen Signature Spec_Sig SigFacts SigWhole Spec_Btcec BtcecFacts BtcecWhole Spec_EthSig Eth EthFacts Nonce Spec_Nonce.
From Verif Require Prop_Btcec Prop_BtcecWhole Prop_EthSig.
Import ListNotations.
Open Scope Z_scope.
Notation E := (kE kS256).
Notation G := (eG (e := kE kS256)).
Notation point := (pt (eg (kE kS256))).
Notation N := (c_N S256).

Lemma app_inj_len : forall (a c b d : bytes), length a = length c -> a ++ b = c ++ d -> a = c /\ b = d.
Proof.
  induction a as [|x a IH]; intros [|y c] b d L Q; try discriminate L; [split; [reflexivity|exact Q]|].
  cbn [app] in Q. injection Q as -> Q. injection L as L. destruct (IH c b d L Q) as [-> ->]. split; reflexivity.
Qed.
Section Hash.
Variable sha256 : bytes -> bytes.
Hypothesis sha_len : forall x, length (sha256 x) = 32%nat.
Hypothesis sha_oct : forall x, octets (sha256 x).
Notation hmac := (hmac sha256).
Notation hmac_rel := (hmac_rel sha256).

(** ** HMAC *)
Lemma map_rel : forall c l m, Forall2 (fun a b => b = Z.lxor a c) l m <-> m = map (Z.lxor c) l.
Proof.
  intros c l m. split.
  - intros F. induction F as [|a b l m E _ IH]; [reflexivity|]. cbn [map]. rewrite E, IH, Z.lxor_comm. reflexivity.
  - intros ->. induction l as [|a l IH]; constructor; [apply Z.lxor_comm|exact IH].
Qed.
Theorem C87_hmac : forall K text out, hmac_rel K text out <-> hmac K text = out.
Proof.
  intros K text out. unfold Spec_Nonce.hmac_rel, Nonce.hmac. cbv zeta.
  assert (C : (if zlen K >? 64 then sha256 K else K) = if (length K <=? 64)%nat then K else sha256 K).
  { rewrite Z.gtb_ltb. unfold zlen. destruct (Z.ltb_spec 64 (Z.of_nat (length K))), (Nat.leb_spec (length K) 64); reflexivity || lia. }
  rewrite ?C. set (key := if (length K <=? 64)%nat then K else sha256 K). split.
  - intros (K0 & ik & ok & -> & I & O & ->). apply map_rel in I, O. subst. reflexivity.
  - intros <-. eexists _, _, _. split; [reflexivity|]. split; [apply map_rel; reflexivity|]. split; [apply map_rel; reflexivity|]. reflexivity.
Qed.
Lemma hmac_len : forall K m, length (hmac K m) = 32%nat.
Proof. intros K m. apply sha_len. Qed.
Lemma hmac_oct : forall K m, octets (hmac K m).
Proof. intros K m. apply sha_oct. Qed.

(** ** The rounds *)
Definition start (seed : bytes) : bytes * bytes :=
  let k := hmac (repeat 0 32) (repeat 1 32 ++ 0 :: seed) in
  let v := hmac k (repeat 1 32) in
  let k' := hmac k (v ++ 1 :: seed) in (k', hmac k' v).
Definition next (kv : bytes * bytes) : bytes * bytes :=
  let t := hmac (fst kv) (snd kv) in let k := hmac (fst kv) (t ++ [0]) in (k, hmac k t).
Fixpoint state (seed : bytes) (i : nat) : bytes * bytes := match i with O => start seed | S j => next (state seed j) end.
Definition cand (seed : bytes) (i : nat) : bytes := hmac (fst (state seed i)) (snd (state seed i)).
Lemma state_iff : forall seed i K V, rfc_state sha256 seed i K V <-> state seed i = (K, V).
Proof.
  intros seed i K V. split.
  - intros R. induction R as [K1 V1 K2 V2 A B C D|i K V T K' V' R IH A B C].
    + apply C87_hmac in A, B, C, D. subst. reflexivity.
    + cbn [state]. rewrite IH. apply C87_hmac in A, B, C. subst. reflexivity.
  - revert K V. induction i as [|i IH]; intros K V E.
    + cbn [state] in E. unfold start in E. cbv zeta in E. injection E as <- <-. eapply rfc_start; apply C87_hmac; reflexivity.
    + cbn [state] in E. destruct (state seed i) as [k v]. unfold next in E. cbn [fst snd] in E. injection E as <- <-.
      eapply rfc_next; [apply IH; reflexivity|apply C87_hmac; reflexivity|apply C87_hmac; reflexivity|apply C87_hmac; reflexivity].
Qed.
Lemma round_iff : forall seed i T, rfc_round sha256 seed i T <-> cand seed i = T.
Proof.
  intros seed i T. unfold rfc_round, cand. split.
  - intros (K & V & S & R). apply state_iff in S. apply C87_hmac in R. rewrite S. exact R.
  - intros <-. destruct (state seed i) as [K V] eqn:S. exists K, V. split; [apply state_iff; exact S|apply C87_hmac; reflexivity].
Qed.
Lemma cand_ok : forall seed i, length (cand seed i) = 32%nat /\ octets (cand seed i).
Proof. intros seed i. split; [apply hmac_len|apply hmac_oct]. Qed.
Notation val i seed := (value (cand seed i) 0).
Lemma nonce_iff : forall seed i k, rfc_nonce sha256 N seed i k <-> val i seed = k /\ 1 <= k < N /\ forall j, (j < i)%nat -> ~ 1 <= val j seed < N.
Proof.
  intros seed i k. unfold rfc_nonce. split.
  - intros ((T & R & V) & HR & A). apply round_iff in R. subst T. split; [exact V|]. split; [exact HR|]. intros j Hj. apply (A j _ Hj). apply round_iff. reflexivity.
  - intros (V & HR & A). split; [exists (cand seed i); split; [apply round_iff; reflexivity|exact V]|]. split; [exact HR|]. intros j T Hj R. apply round_iff in R. subst T. apply A. exact Hj.
Qed.
(** each round has one result, so there is at most one nonce *)
Theorem C87_unique : forall seed, (forall i, exists T, rfc_round sha256 seed i T /\ length T = 32%nat /\ octets T /\ forall T', rfc_round sha256 seed i T' -> T' = T) /\
  forall i k i' k', rfc_nonce sha256 N seed i k -> rfc_nonce sha256 N seed i' k' -> i = i' /\ k = k'.
Proof.
  intros seed. split.
  - intros i. exists (cand seed i). split; [apply round_iff; reflexivity|]. split; [apply cand_ok|]. split; [apply cand_ok|]. intros T' R. apply round_iff in R. congruence.
  - intros i k i' k' H H'. apply nonce_iff in H, H'. destruct H as (V & R & A), H' as (V' & R' & A').
    assert (i = i') as ->. { destruct (Nat.lt_trichotomy i i') as [C|[C|C]]; [destruct (A' i C); lia|exact C|destruct (A i' C); lia]. }
    split; [reflexivity|congruence].
Qed.

(** ** btcec *)
Lemma digest32 : forall b, octets b -> length b = 32%nat -> digest_int 256 b = value b 0.
Proof. intros b O L. unfold digest_int. rewrite L. change (Z.max 0 (8 * Z.of_nat 32 - 256)) with 0. apply Z.div_1_r. Qed.
Lemma value32 : forall b, octets b -> length b = 32%nat -> 0 <= value b 0 < 2 ^ 256.
Proof. intros b O L. rewrite value_be2z. pose proof (be2z_bound b O) as B. unfold zlen in B. rewrite L in B. exact B. Qed.
Lemma s256 : bits_of N 256.
Proof. exact Prop_Btcec.s256_bits. Qed.
Lemma fill_step : forall f k v, fill_t sha256 (S (S f)) 256 k v [] = Val (hmac k v, hmac k v).
Proof.
  intros f k v. cbn [fill_t app]. change (zlen [] * 8 <? 256) with true. cbv iota zeta.
  replace (zlen (hmac k v)) with 32 by (unfold zlen; rewrite hmac_len; reflexivity). reflexivity.
Qed.
Lemma fill_ok : forall k v, fill_t sha256 257 (bit_len N) k v [] = Val (hmac k v, hmac k v).
Proof. intros k v. change (bit_len N) with 256. exact (fill_step 255 k v). Qed.
Lemma loop_step : forall fuel kv, nonce_loop sha256 (S fuel) (fst kv) (snd kv) =
  let k := value (hmac (fst kv) (snd kv)) 0 in
  if (1 <=? k) && (k <? N) then Val k else nonce_loop sha256 fuel (fst (next kv)) (snd (next kv)).
Proof.
  intros fuel [k v]. cbn [fst snd nonce_loop]. rewrite fill_ok. cbn [bind].
  rewrite (hashToInt_ok _ S256 256 (hmac_oct _ _) s256). cbn [bind]. rewrite digest32 by (apply hmac_oct || apply hmac_len). rewrite Z.geb_leb. reflexivity.
Qed.
Lemma range_b : forall k, ((1 <=? k) && (k <? N) = true) <-> 1 <= k < N.
Proof. intros k. rewrite andb_true_iff, Z.leb_le, Z.ltb_lt. reflexivity. Qed.
Lemma loop_val : forall seed fuel i k, nonce_loop sha256 fuel (fst (state seed i)) (snd (state seed i)) = Val k <->
  exists j, (j < fuel)%nat /\ val (i + j) seed = k /\ 1 <= k < N /\ forall m, (m < j)%nat -> ~ 1 <= val (i + m) seed < N.
Proof.
  intros seed fuel. induction fuel as [|fuel IH]; intros i k.
  - split; [discriminate|]. intros (j & Hj & _). lia.
  - rewrite loop_step. cbv zeta. change (hmac (fst (state seed i)) (snd (state seed i))) with (cand seed i). change (next (state seed i)) with (state seed (S i)).
    destruct ((1 <=? val i seed) && (val i seed <? N)) eqn:B.
    + apply range_b in B. split.
      * intros E. injection E as <-. exists O. rewrite Nat.add_0_r. split; [lia|]. split; [reflexivity|]. split; [exact B|]. intros m Hm. lia.
      * intros (j & Hj & V & R & A). destruct j as [|j]; [rewrite Nat.add_0_r in V; congruence|]. exfalso. apply (A O ltac:(lia)). rewrite Nat.add_0_r. exact B.
    + assert (NB : ~ 1 <= val i seed < N) by (intros C; apply range_b in C; congruence). rewrite IH. split.
      * intros (j & Hj & V & R & A). exists (S j). rewrite Nat.add_succ_r. split; [lia|]. split; [exact V|]. split; [exact R|]. intros [|m] Hm; [rewrite Nat.add_0_r; exact NB|].
        rewrite Nat.add_succ_r. apply (A m). lia.
      * intros (j & Hj & V & R & A). destruct j as [|j]; [rewrite Nat.add_0_r in V; exfalso; apply NB; lia|]. exists j. rewrite Nat.add_succ_r in V. split; [lia|]. split; [exact V|]. split; [exact R|].
        intros m Hm. specialize (A (S m) ltac:(lia)). rewrite Nat.add_succ_r in A. exact A.
Qed.
Lemma loop_out : forall seed fuel i, nonce_loop sha256 fuel (fst (state seed i)) (snd (state seed i)) = OutOfFuel <->
  forall m, (m < fuel)%nat -> ~ 1 <= val (i + m) seed < N.
Proof.
  intros seed fuel. induction fuel as [|fuel IH]; intros i.
  - split; [intros _ m Hm; lia|reflexivity].
  - rewrite loop_step. cbv zeta. change (hmac (fst (state seed i)) (snd (state seed i))) with (cand seed i). change (next (state seed i)) with (state seed (S i)).
    destruct ((1 <=? val i seed) && (val i seed <? N)) eqn:B.
    + apply range_b in B. split; [discriminate|]. intros A. exfalso. apply (A O ltac:(lia)). rewrite Nat.add_0_r. exact B.
    + assert (NB : ~ 1 <= val i seed < N) by (intros C; apply range_b in C; congruence). rewrite IH. split.
      * intros A [|m] Hm; [rewrite Nat.add_0_r; exact NB|]. rewrite Nat.add_succ_r. apply (A m). lia.
      * intros A m Hm. specialize (A (S m) ltac:(lia)). rewrite Nat.add_succ_r in A. exact A.
Qed.
Lemma loop_total : forall fuel kv, (exists k, nonce_loop sha256 fuel (fst kv) (snd kv) = Val k) \/ nonce_loop sha256 fuel (fst kv) (snd kv) = OutOfFuel.
Proof.
  induction fuel as [|fuel IH]; intros kv; [right; reflexivity|]. rewrite loop_step. cbv zeta. destruct (_ && _); [left; eexists; reflexivity|apply IH].
Qed.
Lemma int2octets_ok : forall z b, encodes 32 z b -> int2octets z 32 = Val b.
Proof.
  intros z b E. pose proof (encodes_fun _ _ _ E) as F. destruct (encodes_inv _ _ _ E) as (L & O & V). pose proof (be2z_bound b O) as R. rewrite L, V in R.
  pose proof (pad_big_bytes z 32 R) as P. change (Z.to_nat 32) with 32%nat in F. rewrite <- P in F.
  assert (LZ : (length (big_bytes z) <= 32)%nat).
  { apply (f_equal (@length Z)) in P. rewrite app_length, repeat_length, to_be_length in P. lia. }
  unfold int2octets. rewrite F. unfold zlen. destruct (Z.ltb_spec (Z.of_nat (length (big_bytes z))) 32).
  - do 3 f_equal. lia.
  - rewrite Z.gtb_ltb. destruct (Z.ltb_spec 32 (Z.of_nat (length (big_bytes z)))); [lia|]. replace (32 - length (big_bytes z))%nat with 0%nat by lia. reflexivity.
Qed.
Lemma N_lt : N < 2 ^ 256 /\ 2 ^ 256 < 2 * N.
Proof. split; reflexivity. Qed.
Lemma digest_bound : forall dg, octets dg -> 0 <= digest_int 256 dg < 2 ^ 256.
Proof.
  intros dg O. unfold digest_int. rewrite value_be2z. pose proof (be2z_bound dg O) as R. unfold zlen in R. set (m := Z.max 0 _).
  assert (0 <= m) by lia. split; [apply Z.div_pos; [lia|apply Z.pow_pos_nonneg; lia]|]. apply Z.div_lt_upper_bound; [apply Z.pow_pos_nonneg; lia|].
  eapply Z.lt_le_trans; [apply R|]. rewrite <- Z.pow_add_r by lia. change 256 with (2 ^ 8) at 1. rewrite <- Z.pow_mul_r by lia. apply Z.pow_le_mono_r; lia.
Qed.
Lemma bits2octets_ok : forall dg b, octets dg -> encodes 32 (digest_int 256 dg mod N) b -> bits2octets dg S256 32 = Val b.
Proof.
  intros dg b O E. unfold bits2octets. rewrite (hashToInt_ok dg S256 256 O s256). cbn [bind]. cbv zeta. pose proof (digest_bound dg O) as R. destruct N_lt as [N1 N2].
  destruct (Z.ltb_spec (digest_int 256 dg - N) 0).
  - apply int2octets_ok. rewrite Z.mod_small in E by lia. exact E.
  - apply int2octets_ok. assert (M : digest_int 256 dg mod N = digest_int 256 dg - N) by (symmetry; apply (Z.mod_unique_pos _ _ 1); lia). rewrite M in E. exact E.
Qed.
Lemma nonce_start : forall fuel D dg seed, octets dg -> rfc_seed N D (digest_int 256 dg) seed ->
  nonceRFC6979 sha256 fuel D dg = nonce_loop sha256 fuel (fst (state seed 0)) (snd (state seed 0)).
Proof.
  intros fuel D dg seed O (xb & hb & -> & EX & EH). unfold nonceRFC6979. change (Z.shiftr (bit_len N + 7) 3) with 32. rewrite (int2octets_ok _ _ EX). cbn [bind].
  rewrite (bits2octets_ok _ _ O EH). cbn [bind]. cbv zeta. cbn [state]. unfold start. cbv zeta. cbn [fst snd]. rewrite <- !app_assoc. reflexivity.
Qed.

(** C87.  btcec's nonce is that of RFC 6979, for every private key of 256 bits and every digest. *)
Theorem C87_nonce_exact : forall fuel D dg seed, octets dg -> rfc_seed N D (digest_int 256 dg) seed ->
  (forall k, nonceRFC6979 sha256 fuel D dg = Val k <-> exists i, (i < fuel)%nat /\ rfc_nonce sha256 N seed i k) /\
  (nonceRFC6979 sha256 fuel D dg = OutOfFuel <-> forall i T, (i < fuel)%nat -> rfc_round sha256 seed i T -> ~ 1 <= value T 0 < N) /\
  (forall why, nonceRFC6979 sha256 fuel D dg <> Panic why).
Proof.
  intros fuel D dg seed O RS. rewrite (nonce_start fuel D dg seed O RS). split; [|split].
  - intros k. rewrite loop_val. split; intros (i & Hi & R); exists i; (split; [exact Hi|]); cbn [Nat.add] in *; [apply nonce_iff; exact R|apply nonce_iff in R; exact R].
  - rewrite loop_out. cbn [Nat.add]. split.
    + intros A i T Hi R. apply round_iff in R. subst T. exact (A i Hi).
    + intros A m Hm. apply (A m _ Hm). apply round_iff. reflexivity.
  - intros why C. destruct (loop_total fuel (state seed 0)) as [[k E]|E]; rewrite E in C; discriminate C.
Qed.
Lemma to_be_mod_eq : forall n a b, a mod 256 ^ Z.of_nat n = b mod 256 ^ Z.of_nat n -> to_be n a = to_be n b.
Proof.
  intros n a b Q. pose proof (to_be_be2z (to_be n a) (to_be_wf n a)) as A. pose proof (to_be_be2z (to_be n b) (to_be_wf n b)) as B.
  rewrite to_be_length, be2z_to_be in A, B. congruence.
Qed.
(** A private key of more than 256 bits (none comes out of a file) counts modulo 2^256. *)
Lemma int2octets_long : forall z, 0 <= z -> int2octets z 32 = Val (to_be 32 z).
Proof.
  intros z Hz. destruct (Z.lt_ge_cases z (2 ^ 256)) as [L|L]; [apply int2octets_ok, Prop_Btcec.encodes32; lia|].
  pose proof (be2z_big_bytes z Hz) as V. pose proof (big_bytes_wf z) as W.
  assert (LB : 32 < zlen (big_bytes z)).
  { pose proof (be2z_bound _ W) as B. rewrite V in B. destruct (Z.lt_ge_cases 32 (zlen (big_bytes z))) as [C|C]; [exact C|].
    assert (256 ^ zlen (big_bytes z) <= 256 ^ 32) by (apply Z.pow_le_mono_r; lia). change (256 ^ 32) with (2 ^ 256) in *. lia. }
  unfold int2octets. destruct (Z.ltb_spec (zlen (big_bytes z)) 32); [lia|]. rewrite Z.gtb_ltb. destruct (Z.ltb_spec 32 (zlen (big_bytes z))); [|lia].
  set (b := big_bytes z) in *. rewrite slice_ok by lia. f_equal. replace (Z.to_nat (zlen b - (zlen b - 32))) with 32%nat by lia.
  set (n := Z.to_nat (zlen b - 32)). assert (LS : length (skipn n b) = 32%nat) by (rewrite skipn_length; unfold n, zlen in *; lia).
  rewrite firstn_all2 by lia. rewrite <- (firstn_skipn n b) in V, W. apply Forall_app in W. destruct W as [_ W]. rewrite be2z_app in V. unfold zlen in V. rewrite LS in V.
  rewrite <- V. pose proof (to_be_be2z (skipn n b) W) as TB. rewrite LS in TB. rewrite <- TB at 1. apply to_be_mod_eq. change (256 ^ Z.of_nat 32) with (2 ^ 256). rewrite Z.add_comm, Z_mod_plus_full. reflexivity.
Qed.
Theorem C87_long_key : forall fuel D dg, 0 <= D -> nonceRFC6979 sha256 fuel D dg = nonceRFC6979 sha256 fuel (D mod 2 ^ 256) dg.
Proof.
  intros fuel D dg HD. unfold nonceRFC6979. change (Z.shiftr (bit_len N + 7) 3) with 32. pose proof (Z.mod_pos_bound D (2 ^ 256) eq_refl). rewrite !int2octets_long by lia.
  rewrite (to_be_mod_eq 32 D (D mod 2 ^ 256)) by (symmetry; apply Z.mod_mod; discriminate). reflexivity.
Qed.
(** The seed says which key and which e modulo the order: two signatures made from the same seed are for the same equation. *)
Theorem C87_seed_injective : forall x e x' e' seed, rfc_seed N x e seed -> rfc_seed N x' e' seed -> x = x' /\ e mod N = e' mod N.
Proof.
  intros x e x' e' seed (xb & hb & -> & EX & EH) (xb' & hb' & EQ & EX' & EH').
  destruct (encodes_inv _ _ _ EX) as (L1 & _ & V1), (encodes_inv _ _ _ EX') as (L2 & _ & V2), (encodes_inv _ _ _ EH) as (L3 & _ & V3), (encodes_inv _ _ _ EH') as (L4 & _ & V4).
  apply app_inj_len in EQ; [|unfold zlen in *; lia]. destruct EQ as [-> ->]. split; congruence.
Qed.

(** ** libsecp256k1 *)
Lemma gen_last : forall seed n i r, fst (rng_generate sha256 r) = cand seed i -> rg_k (snd (rng_generate sha256 r)) = fst (state seed i) ->
  generate_last sha256 n r = cand seed (i + n).
Proof.
  intros seed n. induction n as [|n IH]; intros i r C K; cbn [generate_last]; destruct (rng_generate sha256 r) as [t r'] eqn:G; cbn [fst snd] in *.
  - rewrite Nat.add_0_r. exact C.
  - assert (G' : rg_retry r' = true /\ rg_v r' = t).
    { unfold rng_generate in G. destruct (if rg_retry r then _ else _) as [k v]. injection G as <- <-. split; reflexivity. }
    destruct G' as [G1 G2]. rewrite Nat.add_succ_r. change (S (i + n)) with (S i + n)%nat. apply IH; unfold rng_generate; rewrite G1; cbn [fst snd rg_k]; rewrite G2, C, K; reflexivity.
Qed.
Theorem C87_c_rounds : forall msg key i T, nonce_function_rfc6979 sha256 msg key i = T <-> rfc_round sha256 (key ++ msg) i T.
Proof.
  intros msg key i T. rewrite round_iff. unfold nonce_function_rfc6979. rewrite (gen_last (key ++ msg) i 0); [reflexivity|reflexivity|reflexivity].
Qed.
Lemma c_octets : forall m b i, octets (nonce_function_rfc6979 sha256 m b i).
Proof. intros m b i. rewrite (proj2 (C87_c_rounds m b i _) (proj2 (round_iff _ _ _) eq_refl)). apply cand_ok. Qed.
(** the two seeds for a digest of 32 bytes: the C library does not reduce it *)
Theorem C87_seeds : forall D dg db seed, octets dg -> length dg = 32%nat -> encodes 32 D db -> rfc_seed N D (digest_int 256 dg) seed ->
  (seed = db ++ dg <-> value dg 0 < N).
Proof.
  intros D dg db seed O L ED (xb & hb & -> & EX & EH). rewrite (encodes_fun _ _ _ EX), <- (encodes_fun _ _ _ ED). rewrite digest32 in EH by assumption. pose proof (value32 dg O L) as R.
  destruct (encodes_inv _ _ _ EH) as (L3 & O3 & V3). split.
  - intros E. apply app_inv_head in E. subst hb. rewrite value_be2z in *. rewrite V3. apply Z.mod_pos_bound. reflexivity.
  - intros H. f_equal. rewrite Z.mod_small in EH by lia. rewrite (encodes_fun _ _ _ EH). symmetry. apply encodes_fun. split; [rewrite L; reflexivity|]. split; [exact O|reflexivity].
Qed.

(** ** The signatures *)
Variable checked : bool.
Variable sm : curve -> Z * Z -> bytes -> Z * Z.
Variable sbm : curve -> bytes -> Z * Z.
Variable add : curve -> Z * Z -> Z * Z -> Z * Z.
Hypothesis sm_ok : forall (P : point) k, P <> gO -> octets k -> sm S256 (ecoords P) k = ecoords (gmul (value k 0) P).
Hypothesis sbm_ok : forall k, octets k -> sbm S256 k = ecoords (gmul (value k 0) G).
Hypothesis add_ok : forall P Q : point, add S256 (ecoords P) (ecoords Q) = ecoords (gadd P Q).
Variable ecmult_gen : Z -> Z * Z.
Hypothesis ecmult_gen_ok : forall k, 1 <= k < N -> ecmult_gen k = ecoords (gmul k G).
Notation k1_sign := (Nonce.k1_sign sha256 checked sm sbm add).
Notation eth_sign := (Nonce.eth_sign sha256 checked sm sbm add ecmult_gen).
Notation x1 := (fun k => fst (ecoords (gmul k G))).
(** r, the smaller of s and N - s, and the header that ECDSA with the nonce n gives *)
Definition k1_signature (D e n : Z) (sig : bytes) : Prop :=
  exists r s it, dsa_attempt x1 N D e n (Some (r, s)) /\ compact sig (27 + it) r (Z.min s (N - s)) /\ 0 <= it < 4 /\ recovers E e it r (Z.min s (N - s)) (gmul D G).
Theorem C87_sign_exact : forall fuel D k dg seed, octets dg -> (pk_X k, pk_Y k) = ecoords (gmul D G) -> rfc_seed N D (digest_int 256 dg) seed ->
  let e := digest_int 256 dg in
  (forall sig, k1_sign fuel D k dg = Val (Ok sig) <-> exists i n, (i < fuel)%nat /\ rfc_nonce sha256 N seed i n /\ k1_signature D e n sig) /\
  ((exists m, k1_sign fuel D k dg = Val (Err m)) <-> exists i n, (i < fuel)%nat /\ rfc_nonce sha256 N seed i n /\ dsa_attempt x1 N D e n None) /\
  (k1_sign fuel D k dg = OutOfFuel <-> forall i T, (i < fuel)%nat -> rfc_round sha256 seed i T -> ~ 1 <= value T 0 < N) /\
  (forall why, k1_sign fuel D k dg <> Panic why).
Proof.
  intros fuel D k dg seed Od HK RS e. destruct (C87_nonce_exact fuel D dg seed Od RS) as (A & B & C). unfold Nonce.k1_sign.
  destruct (nonceRFC6979 sha256 fuel D dg) as [n|why|] eqn:Q; cbn [bind]; [|destruct (C why eq_refl)|].
  - destruct (proj1 (A n) eq_refl) as (i & Hi & RN). assert (NR : forall (D : Z) (dg : bytes), 1 <= n < N) by (intros; apply RN).
    destruct (Prop_Btcec.C82_sign_exact kS256 s256 eq_refl checked sm sbm add sm_ok sbm_ok add_ok (fun _ _ => n) NR D (pk_X k, pk_Y k) dg Od HK) as [S1 S2].
    destruct (Prop_Btcec.C82_sign_verify kS256 s256 eq_refl checked sm sbm add sm_ok sbm_ok add_ok (fun _ _ => n) NR D (pk_X k, pk_Y k) dg Od) as [[o T] _].
    change (Btcec.Secp256k1Sign checked sm sbm add (fun _ _ => n) kS256 D (pk_X k, pk_Y k) dg) with (BtcecWhole.k1_sign checked sm sbm add (fun _ _ => n) D k dg) in *.
    rewrite T in *. split; [|split; [|split]].
    + intros sig. rewrite S1. split.
      * intros X. exists i, n. split; [exact Hi|]. split; [exact RN|exact X].
      * intros (i' & n' & _ & RN' & X). destruct (proj2 (C87_unique seed) _ _ _ _ RN RN') as [_ <-]. exact X.
    + rewrite S2. split.
      * intros X. exists i, n. split; [exact Hi|]. split; [exact RN|exact X].
      * intros (i' & n' & _ & RN' & X). destruct (proj2 (C87_unique seed) _ _ _ _ RN RN') as [_ <-]. exact X.
    + split; [discriminate|]. intros X. exfalso. apply nonce_iff in RN. destruct RN as (V & R & _). apply (X i (cand seed i) Hi); [apply round_iff; reflexivity|lia].
    + discriminate.
  - assert (NN : forall i n, (i < fuel)%nat -> ~ rfc_nonce sha256 N seed i n) by (intros i n Hi RN; assert (X : @OutOfFuel Z = Val n) by (apply A; exists i; split; assumption); discriminate X).
    split; [|split; [|split]].
    + intros sig. split; [discriminate|]. intros (i & n & Hi & RN & _). destruct (NN i n Hi RN).
    + split; [intros [m X]; discriminate X|]. intros (i & n & Hi & RN & _). destruct (NN i n Hi RN).
    + rewrite <- B. split; reflexivity.
    + discriminate.
Qed.
(** Two digests that the key signs with nonces from the same seed get the same signature; nothing about the key follows from them. *)
Lemma attempt_mod : forall D e e' n o, e mod N = e' mod N -> dsa_attempt x1 N D e n o -> dsa_attempt x1 N D e' n o.
Proof.
  intros D e e' n o M A. assert (Q : forall t, (e + t) mod N = (e' + t) mod N) by (intros t; rewrite <- (Z.add_mod_idemp_l e), <- (Z.add_mod_idemp_l e'), M by discriminate; reflexivity).
  inversion A as [r s R R0 S EQ X|r R X Y]; subst; [apply dsa_ok|eapply dsa_retry]; try reflexivity; try assumption; rewrite <- Q; assumption.
Qed.
Lemma recovers_mod : forall e e' it r s (P : point), e mod N = e' mod N -> recovers E e it r s P -> recovers E e' it r s P.
Proof.
  intros e e' it r s P M (R & NR & Q). exists R. split; [exact NR|]. rewrite <- Q. f_equal.
  rewrite <- (gmul_mod _ N e), <- (gmul_mod _ N e') by (reflexivity || apply (k_killed kS256)). rewrite M. reflexivity.
Qed.
Theorem C87_same_seed : forall fuel D k dg D' k' dg' seed, octets dg -> octets dg' -> (pk_X k, pk_Y k) = ecoords (gmul D G) -> (pk_X k', pk_Y k') = ecoords (gmul D' G) ->
  rfc_seed N D (digest_int 256 dg) seed -> rfc_seed N D' (digest_int 256 dg') seed ->
  forall sig, k1_sign fuel D k dg = Val (Ok sig) -> k1_sign fuel D' k' dg' = Val (Ok sig).
Proof.
  intros fuel D k dg D' k' dg' seed O O' HK HK' RS RS' sig S. destruct (C87_seed_injective _ _ _ _ _ RS RS') as [<- M].
  apply (C87_sign_exact fuel D k dg seed O HK RS) in S. apply (C87_sign_exact fuel D k' dg' seed O' HK' RS'). destruct S as (i & n & Hi & RN & r & s & it & A & C & I & R).
  exists i, n. split; [exact Hi|]. split; [exact RN|]. exists r, s, it. split; [exact (attempt_mod _ _ _ _ _ M A)|]. split; [exact C|]. split; [exact I|exact (recovers_mod _ _ _ _ _ _ M R)].
Qed.
(** The two builds of go-ethereum: the same bytes whenever the digest is below the order (and the nonce gives r and s that are not 0). *)
Theorem C87_builds_agree : forall fuel dg D k db seed i n, octets dg -> length dg = 32%nat -> c_bits (pk_curve k) = 256 -> encodes 32 D db -> 1 <= D < N ->
  (pk_X k, pk_Y k) = ecoords (gmul D G) -> value dg 0 < N -> seed = db ++ dg -> rfc_nonce sha256 N seed i n -> (i < fuel)%nat -> ~ no_use E D (value dg 0) n ->
  exists out, (forall cgo, eth_sign cgo fuel dg D k = Val (Ok out)) /\ eth_signature E D (value dg 0) n out.
Proof.
  intros fuel dg D k db seed i n O L Hb ED HD HK HV -> RN Hi NU.
  assert (RS : rfc_seed N D (digest_int 256 dg) (db ++ dg)).
  { exists db, dg. split; [reflexivity|]. split; [exact ED|]. rewrite digest32 by assumption. rewrite Z.mod_small by (pose proof (value32 dg O L); lia). split; [rewrite L; reflexivity|]. split; [exact O|reflexivity]. }
  assert (NR : forall (D : Z) (dg : bytes), 1 <= n < N) by (intros; apply RN).
  assert (NQ : nonceRFC6979 sha256 fuel D dg = Val n) by (apply (C87_nonce_exact fuel D dg _ O RS); exists i; split; assumption).
  assert (FQ : eth_sign false fuel dg D k = Sign_nocgo checked sm sbm add (fun _ _ => n) dg D k).
  { unfold Nonce.eth_sign. rewrite NQ. unfold zlen. rewrite L. reflexivity. }
  destruct (Prop_EthSig.C84_sign_nocgo sm sbm add sm_ok sbm_ok add_ok ecmult_gen (nonce_function_rfc6979 sha256) checked (fun _ _ => n) NR fuel dg D k O L HK) as (A & B & P & F).
  unfold Prop_EthSig.eth_sign in A, B, P, F. rewrite <- FQ in A, B, P, F.
  destruct (eth_sign false fuel dg D k) as [[out|m]|w|] eqn:Q; [|destruct NU; apply B; exists m; reflexivity|destruct (P w eq_refl)|destruct (F eq_refl)].
  pose proof (proj1 (A out) eq_refl) as SG. exists out. split; [|exact SG]. intros [|]; [|exact Q].
  destruct (Prop_EthSig.C84_sign_cgo sm sbm add ecmult_gen ecmult_gen_ok (nonce_function_rfc6979 sha256) c_octets checked (fun _ _ => n) fuel dg D k db O L Hb ED) as (A' & _).
  apply A'. split; [exact HD|]. exists i.
  assert (CV : forall j, value (nonce_function_rfc6979 sha256 dg db j) 0 = val j (db ++ dg)).
  { intros j. f_equal. apply (C87_c_rounds dg db j). apply round_iff. reflexivity. }
  apply nonce_iff in RN. destruct RN as (V & R & U). rewrite CV, V. split; [exact Hi|]. split; [|split; [exact R|exact SG]]. intros j Hj. rewrite CV. left. exact (U j Hj).
Qed.
(** From the stored private key to the received signature with the nonces computed as above *)
Variable H : Z -> bytes -> bytes.
Hypothesis H_octets : forall sch m, octets (H sch m).
Variable sha512 : bytes -> bytes.
Variable aes : bytes -> bytes -> bytes.
Variable edSign : bytes -> bytes -> bytes.
Variable edVerify ethVerify : bytes -> bytes -> bytes -> bool.
Notation Sign cgo fuel := (Nonce.Sign sha256 checked sm sbm add ecmult_gen sha512 aes H edSign cgo fuel).
Lemma sign_k1 : forall cgo fuel rn sch alg D k msg opt, pk_curve k = S256 -> 0 <= sch <= 8 ->
  Sign cgo fuel rn sch (SkEC alg D k) msg opt =
  let* s := k1_sign fuel D k (H sch msg) in match s with Err e => Val (Err e) | Ok s => Val (Ok {| sg_Scheme := sch; sg_Value := VBytes s |}) end.
Proof.
  intros cgo fuel rn sch alg D k msg opt Hc Hs. unfold Nonce.Sign, Signature.Sign. replace (GetHash_known sch) with true by (symmetry; apply known_iff; lia). cbn [negb].
  destruct (Z.eqb_spec sch SM3withSM2) as [Q|_]; [unfold SM3withSM2 in Q; lia|]. apply ecdsa_scheme_iff in Hs. rewrite Hs, Hc, String.eqb_refl. reflexivity.
Qed.
Theorem C87_sign_whole : forall cgo fuel rn sch alg D k msg opt seed, pk_curve k = S256 -> (pk_X k, pk_Y k) = ecoords (gmul D G) -> 0 <= sch <= 8 ->
  let e := digest_int 256 (H sch msg) in rfc_seed N D e seed ->
  (forall sig, Sign cgo fuel rn sch (SkEC alg D k) msg opt = Val (Ok sig) <->
     exists v i n, sig = {| sg_Scheme := sch; sg_Value := VBytes v |} /\ (i < fuel)%nat /\ rfc_nonce sha256 N seed i n /\ k1_signature D e n v) /\
  (Sign cgo fuel rn sch (SkEC alg D k) msg opt = OutOfFuel <-> forall i T, (i < fuel)%nat -> rfc_round sha256 seed i T -> ~ 1 <= value T 0 < N).
Proof.
  intros cgo fuel rn sch alg D k msg opt seed Hc HK Hs e RS. rewrite sign_k1 by assumption.
  destruct (C87_sign_exact fuel D k (H sch msg) seed (H_octets _ _) HK RS) as (A & _ & B & _). fold e in A. split.
  - intros sig. split.
    + intros S. destruct (k1_sign fuel D k (H sch msg)) as [[v|m]|w|]; cbn [bind] in S; try discriminate S. injection S as <-. destruct (proj1 (A v) eq_refl) as (i & n & X). exists v, i, n. split; [reflexivity|exact X].
    + intros (v & i & n & -> & X). rewrite (proj2 (A v) (ex_intro _ i (ex_intro _ n X))). reflexivity.
  - rewrite <- B. destruct (k1_sign fuel D k (H sch msg)) as [[v|m]|w|]; cbn [bind]; split; (reflexivity || discriminate).
Qed.
Theorem C87_end_to_end : forall cgo fuel rng data alg D k sch rn msg opt sig,
  DeserializePrivateKey sbm rng data = Val (Ok (Some (SkEC alg D k))) -> octets data -> pk_curve k = S256 -> 0 < D < N -> msg <> [] -> 0 <= sch <= 8 ->
  Nonce.Sign sha256 checked sm sbm add ecmult_gen sha512 aes H edSign cgo fuel rn sch (SkEC alg D k) msg opt = Val (Ok sig) ->
  exists e buf, SerializePublicKey (PkEC alg k) = Val e /\ Serialize (Some sig) = Val (Ok buf) /\ wire sig buf /\ length buf = 66%nat /\
    forall rng', exists pub, DeserializePublicKey rng' e = Val (Ok pub) /\ BtcecWhole.receive checked sm sbm add H edVerify ethVerify pub msg buf = Val true.
Proof.
  intros cgo fuel rng data alg D k sch rn msg opt sig DK Od Hc HD NE Hs S.
  assert (EX : exists n, 1 <= n < N /\ BtcecWhole.Sign checked sm sbm add (fun _ _ => n) sha512 aes H edSign (fun _ _ _ => Val (Err ""%string)) rn sch (SkEC alg D k) msg opt = Val (Ok sig)).
  { unfold Nonce.Sign, Signature.Sign in S. replace (GetHash_known sch) with true in S by (symmetry; apply known_iff; lia). cbn [negb] in S.
    destruct (Z.eqb_spec sch SM3withSM2) as [Q|_]; [unfold SM3withSM2 in Q; lia|]. pose proof Hs as Hs'. apply ecdsa_scheme_iff in Hs'. rewrite Hs', Hc, String.eqb_refl in S.
    unfold Signature.Secp256k1Sign, Nonce.k1_sign in S. destruct (nonceRFC6979 sha256 fuel D (H sch msg)) as [n|w|] eqn:Q; cbn [bind] in S; [|discriminate S|discriminate S]. exists n. split.
    - set (e := digest_int 256 (H sch msg)). assert (RS : rfc_seed N D e (to_be 32 D ++ to_be 32 (e mod N))).
      { exists (to_be 32 D), (to_be 32 (e mod N)). pose proof N_lt. pose proof (Z.mod_pos_bound e N ltac:(reflexivity)). split; [reflexivity|]. split; apply Prop_Btcec.encodes32; lia. }
      apply (C87_nonce_exact fuel D (H sch msg) _ (H_octets _ _) RS) in Q. destruct Q as (i & _ & RN). apply RN.
    - rewrite Prop_BtcecWhole.sign_k1 by assumption. exact S. }
  destruct EX as (n & NR & S').
  exact (Prop_BtcecWhole.C83_end_to_end checked sm sbm add sm_ok sbm_ok add_ok H H_octets edVerify ethVerify (fun _ _ => n) (fun _ _ => NR) sha512 aes edSign (fun _ _ _ => Val (Err ""%string))
    rng data alg D k sch rn msg opt sig DK Od Hc HD NE S').
Qed.
End Hash.
Print Assumptions C87_hmac.
Print Assumptions C87_unique.
Print Assumptions C87_nonce_exact.
Print Assumptions C87_seed_injective.
Print Assumptions C87_c_rounds.
Print Assumptions C87_seeds.
Print Assumptions C87_sign_exact.
Print Assumptions C87_same_seed.
Print Assumptions C87_builds_agree.
Print Assumptions C87_sign_whole.
Print Assumptions C87_long_key.
Print Assumptions C87_end_to_end.

(** ** Examples.  RFC 6979 with a small hash function: the first round gives 0, the second one the nonce. *)
Import Prop_Btcec Prop_EthSig.
Definition toy (x : bytes) : bytes := repeat (fold_left (fun s b => s * 5 + b + 1) x 0 mod 7) 32.
Lemma toy_len : forall x, length (toy x) = 32%nat. Proof. intros x. apply repeat_length. Qed.
Lemma toy_oct : forall x, octets (toy x).
Proof. intros x. apply Forall_forall. intros b I. apply repeat_spec in I. subst b. pose proof (Z.mod_pos_bound (fold_left (fun s b => s * 5 + b + 1) x 0) 7 eq_refl). lia. Qed.
Lemma ex_seed : rfc_seed N 1 (digest_int 256 ex_dg) (to_be 32 1 ++ ex_dg).
Proof.
  exists (to_be 32 1), ex_dg. split; [reflexivity|]. split; [apply encodes32; split; [discriminate|reflexivity]|]. rewrite ex_digest, Z.mod_small by (split; [discriminate|reflexivity]).
  split; [reflexivity|]. split; [exact ex_dg_octets|reflexivity].
Qed.
Example C87_example_nonce : nonceRFC6979 toy 1 1 ex_dg = OutOfFuel /\ nonceRFC6979 toy 2 1 ex_dg = Val (value (repeat 6 32) 0) /\
  rfc_nonce toy N (to_be 32 1 ++ ex_dg) 1 (value (repeat 6 32) 0) /\
  rfc_round toy (to_be 32 1 ++ ex_dg) 0 (repeat 0 32) /\ rfc_round toy (to_be 32 1 ++ ex_dg) 1 (repeat 6 32).
Proof.
  assert (A : nonceRFC6979 toy 1 1 ex_dg = OutOfFuel) by (vm_compute; reflexivity). assert (B : nonceRFC6979 toy 2 1 ex_dg = Val (value (repeat 6 32) 0)) by (vm_compute; reflexivity).
  split; [exact A|]. split; [exact B|]. split; [|split; apply (C87_c_rounds toy ex_dg (to_be 32 1)); vm_compute; reflexivity].
  destruct (C87_nonce_exact toy toy_len toy_oct 2 1 ex_dg _ ex_dg_octets ex_seed) as (V & _). apply V in B. destruct B as (i & Hi & RN).
  assert (i = 0 \/ i = 1)%nat as [-> | ->] by lia; [|exact RN]. exfalso.
  destruct (C87_nonce_exact toy toy_len toy_oct 1 1 ex_dg _ ex_dg_octets ex_seed) as (_ & W & _). destruct RN as ((T & R & VT) & RG & _). apply (proj1 W A 0%nat T ltac:(lia) R). lia.
Qed.
(** a hash function with which the nonce is 1: both builds of go-ethereum and btcec sign with it *)
Definition one_hash (x : bytes) : bytes := to_be 32 1.
Lemma one_nonce : rfc_nonce one_hash N (to_be 32 1 ++ ex_dg) 0 1.
Proof.
  split; [exists (to_be 32 1); split; [apply (C87_c_rounds one_hash ex_dg (to_be 32 1)); reflexivity|vm_compute; reflexivity]|]. split; [exact (one_range 0 [])|]. intros j T Hj. lia.
Qed.
Notation rsm := (ref_sm kS256). Notation rsbm := (ref_sbm kS256). Notation radd := (ref_add kS256).
Example C87_example_sign : forall c k, (pk_X k, pk_Y k) = (c_Gx S256, c_Gy S256) -> Nonce.k1_sign one_hash c rsm rsbm radd 1 1 k ex_dg = Val (Ok ex_sig).
Proof.
  intros c k HK. pose proof (C82_example_sign c) as S.
  assert (Q : nonceRFC6979 one_hash 1 1 ex_dg = Val 1) by (vm_compute; reflexivity). unfold Nonce.k1_sign. rewrite Q. cbn [bind]. injection HK as HX HY. unfold BtcecWhole.k1_sign. rewrite HX, HY. exact S.
Qed.
Example C87_example_builds : exists out, (forall cgo, Nonce.eth_sign one_hash true rsm rsbm radd ex_gen cgo 1 ex_dg 1 ex_key = Val (Ok out)) /\ eth_signature E 1 (value ex_dg 0) 1 out.
Proof.
  apply (C87_builds_agree one_hash (fun _ => to_be_length _ _) (fun _ => to_be_wf _ _) true rsm rsbm radd (ref_sm_ok kS256) (ex_sbm_ok S256) (ref_add_ok kS256) ex_gen (fun _ _ => eq_refl)
    1 ex_dg 1 ex_key (to_be 32 1) _ 0 1 ex_dg_octets eq_refl eq_refl (encodes32 1 ltac:(split; [discriminate|reflexivity])) (one_range 0 []) ex_coords eq_refl eq_refl one_nonce ltac:(lia)).
  intros [C|C]; [exact (C (one_range 0 []))|]. destruct ex_signature as (r & s & v & A & _). inversion A as [r0 s0 R R0 S Q X|]. subst. inversion C as [|r1 R1 D1 X1]. subst.
  destruct D1 as [D1|D1]; [exact (R0 D1)|]. rewrite D1, Z.mul_1_r, Z.mod_small in Q by lia. lia.
Qed.
(** the digest of 32 bytes 255 is not below the order: two seeds *)
Example C87_example_seeds : forall seed, rfc_seed N 1 (digest_int 256 (repeat 255 32)) seed -> seed <> to_be 32 1 ++ repeat 255 32.
Proof.
  intros seed RS Q. apply (C87_seeds 1 (repeat 255 32) (to_be 32 1) seed) in Q; [vm_compute in Q; discriminate Q| |reflexivity| |exact RS].
  - apply Forall_forall. intros b I. apply repeat_spec in I. lia.
  - apply encodes32. split; [discriminate|reflexivity].
Qed.
Example C87_example_whole : forall cgo rn opt, Nonce.Sign one_hash true rsm rsbm radd ex_gen (fun _ => []) (fun _ b => b) (fun _ _ => ex_dg) (fun _ _ => []) cgo 1 rn 5
  (SkEC 0 1 {| pk_curve := S256; pk_X := c_Gx S256; pk_Y := c_Gy S256 |}) [104; 105] opt = Val (Ok {| sg_Scheme := 5; sg_Value := VBytes ex_sig |}).
Proof.
  intros cgo rn opt. rewrite sign_k1 by (reflexivity || lia). rewrite (C87_example_sign true {| pk_curve := S256; pk_X := c_Gx S256; pk_Y := c_Gy S256 |} eq_refl). reflexivity.
Qed.
