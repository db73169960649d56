(** * VRFFacts: the hash helpers of the VRF *)
From Coq Require Import ZArith Znumtheory String List Bool Lia.
From Verif Require Import Base BaseFacts Curves ECKey NumTheory Spec_EC ECFacts ECFacts2 Prop_EC VRF Spec_VRF.
Import ListNotations.
Open Scope Z_scope.

Lemma counter_to_be : forall i, to_be 4 i = counter i.
Proof.
  intros i. unfold counter. cbn [to_be app].
  rewrite !Z.div_div by lia. reflexivity.
Qed.
Lemma counter_u32 : forall i, counter (u32 i) = counter i.
Proof.
  assert (D : forall i e, 0 <= e <= 24 -> ((i mod 2 ^ 32) / 2 ^ e) mod 2 ^ 8 = (i / 2 ^ e) mod 2 ^ 8).
  { intros i e He. apply Z.bits_inj'. intros k Hk. destruct (Z_lt_le_dec k 8).
    - rewrite !Z.mod_pow2_bits_low, !Z.div_pow2_bits, Z.mod_pow2_bits_low by lia. reflexivity.
    - rewrite !Z.mod_pow2_bits_high by lia. reflexivity. }
  intros i. unfold counter, u32. change 256 with (2 ^ 8).
  rewrite !D by lia. pose proof (D i 0 ltac:(lia)) as D0. rewrite !Z.div_1_r in D0. rewrite D0. reflexivity.
Qed.

Lemma even_root_unique : forall p y1 y2, prime p -> 2 < p -> Z.odd p = true ->
  0 <= y1 < p -> 0 <= y2 < p -> Z.even y1 = true -> Z.even y2 = true ->
  (y1 * y1) mod p = (y2 * y2) mod p -> y1 = y2.
Proof.
  intros p y1 y2 Hp H2 Ho R1 R2 E1 E2 E.
  destruct (prime_square_eq p y1 y2 Hp E) as [D|D].
  - rewrite !Z.mod_small in D by lia. exact D.
  - rewrite (Z.mod_small y1) in D by lia. destruct (Z.eq_dec y2 0) as [->|N0].
    + rewrite Z.mod_0_l in D by lia. exact D.
    + exfalso. rewrite Z_mod_nz_opp_full in D by (rewrite Z.mod_small; lia). rewrite Z.mod_small in D by lia.
      rewrite D, Z.even_sub, E2 in E1. rewrite <- Z.negb_even in Ho. destruct (Z.even p); discriminate.
Qed.

Lemma decode_even_ok : forall rng c a n xb k, supported c a -> field_bytes c n -> Z.of_nat (length xb) = n ->
  DecodePublicKey rng (2 :: xb) c = Val (Ok k) ->
  pk_X k = value xb 0 /\ curve_eq (c_P c) a (c_B c) (value xb 0) (pk_Y k) /\ 0 <= pk_Y k < c_P c /\
  Z.even (pk_Y k) = true /\ has_point c a (value xb 0).
Proof.
  intros rng c a n xb k Hs Hn Hl E. destruct (supported_odd c a Hs) as [H2 Ho].
  destruct (supported_size c a Hs) as (L & HL & HL0 & HLp & HLm).
  assert (En : n = Z.of_nat L) by (apply (size_unique c); assumption).
  assert (Hb : 0 <= c_bits c) by (destruct Hs; discriminate).
  destruct (C11_decompression_sound rng c (2 :: xb) k 2 H2 Ho Hb E eq_refl ltac:(discriminate))
    as (xb' & rest & D & L' & _ & X & P & R & _).
  destruct (C11_decompression_sound_supported rng c a (2 :: xb) k 2 Hs E eq_refl ltac:(discriminate)) as [C _].
  assert (xb' = xb) as ->.
  { injection D as D. unfold byte_size in HL. rewrite Z.shiftr_div_pow2 in HL by lia. change (2 ^ 3) with 8 in HL.
    assert (rest = []).
    { destruct rest; [reflexivity|]. apply (f_equal (@length Z)) in D. rewrite app_length in D. cbn [length] in D. lia. }
    subst rest. rewrite app_nil_r in D. symmetry. exact D. }
  rewrite X in C. destruct P as [[_ P]|[P _]]; [|discriminate].
  assert (R' : 0 <= pk_Y k < c_P c).
  { destruct (Z.eq_dec (pk_Y k) (c_P c)) as [Q|Q]; [|lia]. rewrite Q, <- Z.negb_odd, Ho in P. discriminate. }
  split; [exact X|]. split; [exact C|]. split; [exact R'|]. split; [exact P|].
  exists (pk_Y k). split; [exact C|]. intros -> Z0.
  assert (Hs' : a = -3) by (inversion Hs; reflexivity). subst a.
  rewrite <- (app_nil_r xb) in E. rewrite C12_p224_rejects_y_zero in E; [discriminate|left; reflexivity| |exact Z0].
  assert (byte_size P224 = 28) as B by reflexivity. lia.
Qed.
Lemma decode_even_err : forall rng c a n xb msg, supported c a -> field_bytes c n -> Z.of_nat (length xb) = n ->
  DecodePublicKey rng (2 :: xb) c = Val (Err msg) -> ~ has_point c a (value xb 0).
Proof.
  intros rng c a n xb msg Hs Hn Hl E (y & C & Z0). rewrite <- (app_nil_r xb) in E.
  destruct (C12_rejection_means_no_point rng c a 2 xb [] msg n Hs Hn (or_introl eq_refl) Hl E) as [N|[-> N]].
  - exact (N y C).
  - exact (Z0 eq_refl N).
Qed.

Section Facts.
Variable hash : hkind -> bytes -> bytes.
Hypothesis hash_ok : forall h m, wf_bytes (hash h m) /\ zlen (hash h m) = hSize h.

Section Curve.
Variables (c : curve) (a : Z) (h : hkind) (n : Z).
Hypothesis Hs : supported c a.
Hypothesis Hn : field_bytes c n.
Hypothesis Hh : hSize h = n.

Lemma byteLen_n : byteLen c = n.
Proof.
  destruct (supported_size c a Hs) as (L & HL & HL0 & HLp & HLm).
  change (byteLen c) with (byte_size c). rewrite HL. symmetry. apply (size_unique c); assumption.
Qed.
Lemma n_pos : 0 < n.
Proof. apply Hn. Qed.
Lemma hash_len : forall m, length (hash h m) = Z.to_nat n.
Proof. intros m. destruct (hash_ok h m) as [_ L]. unfold zlen in L. lia. Qed.
Lemma hash_firstn : forall m, firstn (Z.to_nat n) (hash h m) = hash h m.
Proof. intros m. apply firstn_all2. rewrite hash_len. lia. Qed.
Lemma candidate_eq : forall i m, candidate (hash h) n i m = be2z (hash h (to_be 4 i ++ m)).
Proof. intros i m. unfold candidate. rewrite counter_to_be, hash_firstn. apply value_be2z. Qed.
Lemma candidate_nonneg : forall i m, 0 <= candidate (hash h) n i m.
Proof. intros i m. rewrite candidate_eq. apply be2z_bound. apply hash_ok. Qed.

(** one iteration of each loop *)
Lemma h2i_step : forall fuel i m, h2i_loop hash (S fuel) i c h m =
  (if candidate (hash h) n i m <? c_N c - 1 then Val (candidate (hash h) n i m + 1)
   else h2i_loop hash fuel (u32 (i + 1)) c h m).
Proof.
  intros fuel i m. cbn [h2i_loop]. rewrite byteLen_n.
  rewrite slice_ok; [| |pose proof n_pos; lia|destruct (hash_ok h (to_be 4 i ++ m)) as [_ ->]]; try lia.
  cbn [bind]. rewrite Z.sub_0_r. cbn [skipn Z.to_nat]. rewrite hash_firstn, candidate_eq. reflexivity.
Qed.
Lemma h2c_step : forall k i rng m, h2c_loop hash (S k) i rng c h m =
  (let* p := DecodePublicKey (rng i) (2 :: hash h (to_be 4 i ++ m)) c in
   match p with Ok q => Val (Some (pk_X q, pk_Y q)) | Err _ => h2c_loop hash k (i + 1) rng c h m end).
Proof.
  intros k i rng m. cbn [h2c_loop]. rewrite byteLen_n. pose proof n_pos as N0.
  rewrite slice_ok; [|lia|lia|].
  2:{ unfold zlen. cbn [length]. rewrite hash_len. lia. }
  cbn [bind]. rewrite Z.sub_0_r. cbn [skipn Z.to_nat].
  replace (Z.to_nat (n + 1)) with (S (Z.to_nat n)) by lia. cbn [firstn]. rewrite hash_firstn. reflexivity.
Qed.

(** hashToInt *)
Lemma candidate_u32 : forall i m, candidate (hash h) n (u32 i) m = candidate (hash h) n i m.
Proof. intros i m. unfold candidate. rewrite counter_u32. reflexivity. Qed.
Lemma u32_u32 : forall i, u32 (u32 i + 1) = u32 (i + 1).
Proof. intros i. unfold u32. apply Zplus_mod_idemp_l. Qed.
Lemma h2i_sound : forall fuel i m s, 0 <= i -> (forall j, 0 <= j < i -> c_N c - 1 <= candidate (hash h) n j m) ->
  h2i_loop hash fuel (u32 i) c h m = Val s -> to_int (hash h) n (c_N c) m s.
Proof.
  induction fuel; intros i m s Hi B E; [discriminate|]. rewrite h2i_step, candidate_u32 in E.
  destruct (Z.ltb_spec (candidate (hash h) n i m) (c_N c - 1)) as [L|L].
  - injection E as <-. constructor; assumption.
  - rewrite u32_u32 in E. apply (IHfuel (i + 1)); [lia| |exact E].
    intros j Hj. destruct (Z.eq_dec j i) as [->|]; [exact L|apply B; lia].
Qed.
Lemma h2i_complete : forall fuel i m (d : nat), 0 <= i ->
  (forall j, i <= j < i + Z.of_nat d -> c_N c - 1 <= candidate (hash h) n j m) ->
  candidate (hash h) n (i + Z.of_nat d) m < c_N c - 1 -> (d < fuel)%nat ->
  h2i_loop hash fuel (u32 i) c h m = Val (candidate (hash h) n (i + Z.of_nat d) m + 1).
Proof.
  induction fuel; intros i m d Hi B L F; [lia|]. rewrite h2i_step, candidate_u32. destruct d as [|d].
  - rewrite Z.add_0_r in L |- *. destruct (Z.ltb_spec (candidate (hash h) n i m) (c_N c - 1)); [reflexivity|lia].
  - destruct (Z.ltb_spec (candidate (hash h) n i m) (c_N c - 1)) as [C|C]; [specialize (B i); lia|].
    rewrite u32_u32. replace (i + Z.of_nat (S d)) with (i + 1 + Z.of_nat d) in * by lia.
    apply IHfuel; try lia. intros j Hj. apply B. lia.
Qed.
Lemma h2i_vals : forall fuel i m, (exists s, h2i_loop hash fuel i c h m = Val s) \/ h2i_loop hash fuel i c h m = OutOfFuel.
Proof.
  induction fuel; intros i m; [right; reflexivity|]. rewrite h2i_step.
  destruct (_ <? _); [left; eexists; reflexivity|apply IHfuel].
Qed.

(** hashToCurve *)
Lemma h2c_sound : forall k i rng m x y, 0 <= i -> i + Z.of_nat k = 100 ->
  (forall j, 0 <= j < i -> ~ has_point c a (candidate (hash h) n j m)) ->
  h2c_loop hash k i rng c h m = Val (Some (x, y)) -> to_point (hash h) n c a m x y.
Proof.
  induction k; intros i rng m x y Hi Hk B E; [discriminate|]. rewrite h2c_step in E.
  set (xb := hash h (to_be 4 i ++ m)) in E.
  assert (V : candidate (hash h) n i m = value xb 0) by (rewrite candidate_eq, value_be2z; reflexivity).
  assert (Lx : Z.of_nat (length xb) = n) by (unfold xb; rewrite hash_len; pose proof n_pos; lia).
  destruct (DecodePublicKey (rng i) (2 :: xb) c) as [[q|msg]|w|] eqn:D; try discriminate; cbn [bind] in E.
  - destruct (decode_even_ok _ c a n xb q Hs Hn Lx D) as (X & C & R & P & HP).
    assert (x = pk_X q /\ y = pk_Y q) as [-> ->] by (split; congruence).
    rewrite X, <- V in *. constructor; try assumption; lia.
  - pose proof (decode_even_err _ c a n xb msg Hs Hn Lx D) as NP. rewrite <- V in NP.
    apply (IHk (i + 1) rng); [lia|lia| |exact E].
    intros j Hj. destruct (Z.eq_dec j i) as [->|]; [exact NP|apply B; lia].
Qed.
Lemma h2c_none : forall k i rng m, 0 <= i -> i + Z.of_nat k = 100 ->
  (forall j, 0 <= j < i -> ~ has_point c a (candidate (hash h) n j m)) ->
  h2c_loop hash k i rng c h m = Val None -> forall j, 0 <= j < 100 -> ~ has_point c a (candidate (hash h) n j m).
Proof.
  induction k; intros i rng m Hi Hk B E j Hj; [apply B; lia|]. rewrite h2c_step in E.
  set (xb := hash h (to_be 4 i ++ m)) in E.
  assert (V : candidate (hash h) n i m = value xb 0) by (rewrite candidate_eq, value_be2z; reflexivity).
  assert (Lx : Z.of_nat (length xb) = n) by (unfold xb; rewrite hash_len; pose proof n_pos; lia).
  destruct (DecodePublicKey (rng i) (2 :: xb) c) as [[q|msg]|w|] eqn:D; try discriminate; cbn [bind] in E.
  pose proof (decode_even_err _ c a n xb msg Hs Hn Lx D) as NP. rewrite <- V in NP.
  apply (IHk (i + 1) rng m); [lia|lia| |exact E|exact Hj].
  intros j' Hj'. destruct (Z.eq_dec j' i) as [->|]; [exact NP|apply B; lia].
Qed.
Lemma h2c_vals : forall k i rng m, (exists p, h2c_loop hash k i rng c h m = Val p) \/
  (c = P224 /\ h2c_loop hash k i rng c h m = OutOfFuel).
Proof.
  induction k; intros i rng m; [left; eexists; reflexivity|]. rewrite h2c_step.
  destruct (decode_total (rng i) c a (2 :: hash h (to_be 4 i ++ m)) Hs) as [[r E]|[E Q]]; rewrite E; cbn [bind].
  - destruct r; [left; eexists; reflexivity|apply IHk].
  - right. split; [exact Q|reflexivity].
Qed.
Lemma to_point_fun : forall m x y x' y', to_point (hash h) n c a m x y -> to_point (hash h) n c a m x' y' -> x = x' /\ y = y'.
Proof.
  intros m x y x' y' T T'. destruct T as [i y Hi B HP C R P]. destruct T' as [i' y' Hi' B' HP' C' R' P'].
  assert (i = i') as <-.
  { destruct (Z.lt_trichotomy i i') as [L|[L|L]]; [|exact L|].
    - exfalso. apply (B' i); [lia|exact HP].
    - exfalso. apply (B i'); [lia|exact HP']. }
  split; [reflexivity|]. destruct (supported_odd c a Hs) as [H2 Ho].
  apply (even_root_unique (c_P c)); try assumption; [exact (supported_prime c a Hs)|].
  unfold curve_eq in *. congruence.
Qed.
Lemma to_int_fun : forall m s s', to_int (hash h) n (c_N c) m s -> to_int (hash h) n (c_N c) m s' -> s = s'.
Proof.
  intros m s s' T T'. destruct T as [i Hi B L]. destruct T' as [i' Hi' B' L'].
  assert (i = i') as <-; [|reflexivity].
  destruct (Z.lt_trichotomy i i') as [Q|[Q|Q]]; [|exact Q|].
  - specialize (B' i). lia.
  - specialize (B i'). lia.
Qed.
Lemma to_int_range : forall m s, to_int (hash h) n (c_N c) m s -> 1 <= s <= c_N c - 1.
Proof. intros m s [i Hi B L]. pose proof (candidate_nonneg i m). lia. Qed.
Lemma hashToCurve_point : forall rng m x y, to_point (hash h) n c a m x y ->
  hashToCurve hash rng c h m = Val (Some (x, y)) \/ (c = P224 /\ hashToCurve hash rng c h m = OutOfFuel).
Proof.
  intros rng m x y T. destruct (h2c_vals 100 0 rng m) as [[[[x' y']|] E]|E]; [| |right; exact E]; left.
  - assert (T' : to_point (hash h) n c a m x' y') by (apply (h2c_sound 100 0 rng); [lia|reflexivity|intros; lia|exact E]).
    destruct (to_point_fun m x y x' y' T T') as [-> ->]. exact E.
  - exfalso. destruct T as [i y Hi B HP C R P].
    refine (h2c_none 100 0 rng m _ _ _ E i Hi HP); [lia|reflexivity|intros; lia].
Qed.
End Curve.
End Facts.
