(** * GenFacts: key pair generation, attempt by attempt *)
From Coq Require Import ZArith Znumtheory String List Bool Lia.
From Verif Require Import Base BaseFacts Curves ECKey Keypair Generate Spec_EC Spec_Keys Spec_Gen ECFacts ECFacts2 KeyFacts.
Import ListNotations.
Open Scope Z_scope.

(** ** The scalar of an attempt *)
Lemma lt_bits a k : 0 <= k -> 0 <= a < 2 ^ k -> forall i, k <= i -> Z.testbit a i = false.
Proof.
  intros Hk Ha i Hi. rewrite <- (Z.mod_small a (2 ^ k)) by exact Ha. apply Z.mod_pow2_bits_high. lia.
Qed.
Lemma add_bits k h l i : 0 <= k -> 0 <= l < 2 ^ k -> 0 <= i ->
  Z.testbit (h * 2 ^ k + l) i = if i <? k then Z.testbit l i else Z.testbit h (i - k).
Proof.
  intros Hk Hl Hi. destruct (Z.ltb_spec i k) as [L|L].
  - rewrite <- (Z.mod_pow2_bits_low (h * 2 ^ k + l) k i) by exact L.
    rewrite Z.add_comm, Z.mod_add, Z.mod_small by lia. reflexivity.
  - replace i with (i - k + k) at 1 by lia. rewrite <- Z.div_pow2_bits by lia.
    rewrite Z.add_comm, Z.div_add, Z.div_small by lia. reflexivity.
Qed.
Lemma lxor_lt k a b : 0 <= k -> 0 <= a < 2 ^ k -> 0 <= b < 2 ^ k -> 0 <= Z.lxor a b < 2 ^ k.
Proof.
  intros Hk Ha Hb. assert (Z.lxor a b mod 2 ^ k = Z.lxor a b) as <-.
  { apply Z.bits_inj'. intros i Hi. destruct (Z.ltb_spec i k) as [L|L].
    - apply Z.mod_pow2_bits_low. exact L.
    - rewrite Z.mod_pow2_bits_high, Z.lxor_spec, (lt_bits a k Hk Ha i L), (lt_bits b k Hk Hb i L) by lia. reflexivity. }
  apply Z.mod_pos_bound. lia.
Qed.
Lemma lxor_split k h l g m : 0 <= k -> 0 <= l < 2 ^ k -> 0 <= m < 2 ^ k ->
  Z.lxor (h * 2 ^ k + l) (g * 2 ^ k + m) = Z.lxor h g * 2 ^ k + Z.lxor l m.
Proof.
  intros Hk Hl Hm. apply Z.bits_inj'. intros i Hi. rewrite Z.lxor_spec, !add_bits by (try apply lxor_lt; assumption).
  destruct (i <? k); rewrite Z.lxor_spec; reflexivity.
Qed.
Lemma value_be2z l : value l 0 = be2z l.
Proof. unfold be2z. generalize 0. induction l as [|b l IH]; intros a; [reflexivity|]. apply IH. Qed.

(** the low n bits of bytes b0 b1 r, n = 8 (len - 1) + k with 0 < k <= 8 *)
Lemma masked_scalar b0 b1 r n len k : 0 <= b0 -> is_byte b1 -> wf_bytes r -> len = 2 + zlen r -> n = 8 * (len - 1) + k -> 0 < k <= 8 ->
  be2z (b0 mod 2 ^ k :: Z.lxor b1 66 :: r) = scalar n len (b0 :: b1 :: r).
Proof.
  intros H0 H1 Hr Hl Hn Hk. unfold scalar. rewrite value_be2z, !be2z_cons, !zlen_cons. pose proof (be2z_bound r Hr) as Br. pose proof (zlen_nonneg _ r) as Z0.
  set (w := zlen r) in *. replace (len - 2) with w by lia. set (q := be2z r) in *.
  assert (P1 : 256 ^ (1 + w) = 2 ^ (8 * (1 + w))) by (rewrite Z.pow_mul_r by lia; reflexivity).
  assert (P2 : 256 ^ w = 2 ^ (8 * w)) by (rewrite Z.pow_mul_r by lia; reflexivity).
  assert (P3 : 256 ^ (1 + w) = 256 * 256 ^ w) by (rewrite Z.pow_add_r by lia; reflexivity).
  unfold is_byte in H1.
  assert (B1 : 0 <= b1 * 256 ^ w + q < 256 ^ (1 + w)) by nia.
  assert (PN : 2 ^ n = 256 ^ (1 + w) * 2 ^ k).
  { subst n. replace (8 * (len - 1) + k) with (8 * (1 + w) + k) by lia. rewrite (Z.pow_add_r 2), P1 by lia. reflexivity. }
  assert (M : (b0 * 256 ^ (1 + w) + (b1 * 256 ^ w + q)) mod 2 ^ n = b0 mod 2 ^ k * 256 ^ (1 + w) + (b1 * 256 ^ w + q)).
  { symmetry. apply (Z.mod_unique_pos _ _ (b0 / 2 ^ k)).
    - rewrite PN.
      pose proof (Z.mod_pos_bound b0 (2 ^ k) ltac:(lia)). nia.
    - rewrite PN.
      pose proof (Z.div_mod b0 (2 ^ k) ltac:(lia)). nia. }
  rewrite M. rewrite P3. set (h := b0 mod 2 ^ k).
  replace (h * (256 * 256 ^ w) + (b1 * 256 ^ w + q)) with ((h * 2 ^ 8 + b1) * 2 ^ (8 * w) + q) by (rewrite <- P2; change (2 ^ 8) with 256; ring).
  replace (66 * 256 ^ w) with ((0 * 2 ^ 8 + 66) * 2 ^ (8 * w) + 0) by (rewrite <- P2; ring).
  rewrite lxor_split, lxor_split, !Z.lxor_0_r by lia. rewrite <- P2. change (2 ^ 8) with 256. ring.
Qed.

(** the orders of the six curves fill as many bytes as the coordinates *)
Lemma order_size c a : supported c a -> exists n len k m, bits_of (c_N c) n /\ bytes_for n len /\ field_bytes c len /\
  bit_len (c_N c) = n /\ Z.shiftr (n + 7) 3 = len /\ n = 8 * (len - 1) + k /\ 0 < k <= 8 /\ index masks (n mod 8) = Val m /\ m = Z.ones k /\ 2 < len.
Proof.
  intros H. destruct H; [exists 224, 28, 8, 255|exists 256, 32, 8, 255|exists 384, 48, 8, 255|exists 521, 66, 1, 1|exists 256, 32, 8, 255|exists 256, 32, 8, 255];
  unfold bits_of, bytes_for, field_bytes; vm_compute; intuition discriminate.
Qed.
Lemma bits_fun z n m : bits_of z n -> bits_of z m -> n = m.
Proof.
  intros (A & B & C) (D & E & F). destruct (Z.lt_trichotomy n m) as [L|[L|L]]; [exfalso|exact L|exfalso].
  - assert (2 ^ n <= 2 ^ (m - 1)) by (apply Z.pow_le_mono_r; lia). lia.
  - assert (2 ^ m <= 2 ^ (n - 1)) by (apply Z.pow_le_mono_r; lia). lia.
Qed.
Lemma bytes_for_fun n l m : bytes_for n l -> bytes_for n m -> l = m.
Proof. unfold bytes_for. lia. Qed.

Section Env.
Variable sbm : curve -> bytes -> Z * Z.

(** one attempt *)
Lemma gen_step c a n len f chunk rest : supported c a -> bits_of (c_N c) n -> bytes_for n len -> octets chunk ->
  Z.of_nat (length chunk) = len -> exists db, encodes len (scalar n len chunk) db /\ 0 <= scalar n len chunk /\
  elliptic_gen sbm (S f) c (chunk ++ rest) =
    (if scalar n len chunk >=? c_N c then elliptic_gen sbm f c rest else let '(x, y) := sbm c db in Val (Ok (db, x, y))).
Proof.
  intros Hs Hb Hl Ho Hc. destruct (order_size c a Hs) as (n' & len' & k & m & B1 & B2 & B3 & B4 & B5 & B6 & B7 & B8 & B9 & B10).
  assert (n' = n) as -> by exact (bits_fun _ _ _ B1 Hb). assert (len' = len) as -> by exact (bytes_for_fun _ _ _ B2 Hl).
  destruct chunk as [|b0 [|b1 r]]; [cbn [length] in Hc; lia|cbn [length] in Hc; lia|].
  inversion_clear Ho as [|? ? H0 Ho']. inversion_clear Ho' as [|? ? H1 Hr].
  assert (Zl : zlen (b0 :: b1 :: r) = len) by (unfold zlen; exact Hc).
  pose proof (zlen_nonneg _ rest) as Zr.
  set (db := b0 mod 2 ^ k :: Z.lxor b1 66 :: r).
  assert (E : be2z db = scalar n len (b0 :: b1 :: r)).
  { apply masked_scalar with (k := k); try assumption; [lia|]. rewrite <- Zl, !zlen_cons. lia. }
  assert (W : wf_bytes db).
  { constructor; [|constructor; [|exact Hr]].
    - pose proof (Z.mod_pos_bound b0 (2 ^ k) ltac:(lia)). assert (2 ^ k <= 2 ^ 8) by (apply Z.pow_le_mono_r; lia). unfold is_byte. change 256 with (2 ^ 8). lia.
    - apply lxor_byte; [exact H1|split; [discriminate|reflexivity]]. }
  exists db. rewrite <- E. split; [|split].
  - split; [|split]; [|exact W|apply value_be2z]. unfold db. cbn [length] in *. lia.
  - apply be2z_bound. exact W.
  - cbn [elliptic_gen]. rewrite B4, B5. rewrite zlen_app, Zl. destruct (Z.ltb_spec (len + zlen rest) len); [lia|].
    replace (slice ((b0 :: b1 :: r) ++ rest) 0 len) with (Val (b0 :: b1 :: r)).
    2:{ symmetry. apply (slice_app3 _ [] (b0 :: b1 :: r) rest 0 len); [reflexivity|rewrite Zl; reflexivity]. }
    cbn [bind].
    replace (slice ((b0 :: b1 :: r) ++ rest) len (len + zlen rest)) with (Val rest).
    2:{ symmetry. rewrite <- Zl, <- zlen_app. apply slice_tail. reflexivity. }
    cbn [bind]. rewrite index_cons0. cbn [bind]. rewrite B8. cbn [bind set_nth]. rewrite index_cons1. cbn [bind set_nth].
    rewrite B9, Z.land_ones by lia. fold db. reflexivity.
Qed.
Lemma gen_short c a n len f l : supported c a -> bits_of (c_N c) n -> bytes_for n len -> Z.of_nat (length l) < len ->
  elliptic_gen sbm (S f) c l = Val (Err "unexpected EOF").
Proof.
  intros Hs Hb Hl Hc. destruct (order_size c a Hs) as (n' & len' & k & m & B1 & B2 & B3 & B4 & B5 & B6 & B7 & B8 & B9 & B10).
  assert (n' = n) as -> by exact (bits_fun _ _ _ B1 Hb). assert (len' = len) as -> by exact (bytes_for_fun _ _ _ B2 Hl).
  cbn [elliptic_gen]. rewrite B4, B5. unfold zlen. destruct (Z.ltb_spec (Z.of_nat (length l)) len); [reflexivity|lia].
Qed.
(** the attempts in turn; the source has more bytes than there are attempts *)
Lemma gen_total c a n len : supported c a -> bits_of (c_N c) n -> bytes_for n len ->
  forall f rand, octets rand -> (length rand < f)%nat ->
  (no_draw (c_N c) n len rand /\ elliptic_gen sbm f c rand = Val (Err "unexpected EOF")) \/
  (exists d rest db, first_draw (c_N c) n len rand d rest /\ 0 <= d < c_N c /\ encodes len d db /\
     elliptic_gen sbm f c rand = let '(x, y) := sbm c db in Val (Ok (db, x, y))).
Proof.
  intros Hs Hb Hl. destruct (order_size c a Hs) as (n' & len' & k & m & B1 & B2 & _ & _ & _ & _ & _ & _ & _ & B10).
  assert (L2 : 2 < len). { rewrite <- (bits_fun _ _ _ Hb B1) in B2. rewrite (bytes_for_fun _ _ _ Hl B2). exact B10. }
  induction f as [|f IH]; intros rand Ho Hf; [lia|].
  destruct (Z.ltb_spec (Z.of_nat (length rand)) len) as [L|L].
  - left. split; [apply draw_short; exact L|exact (gen_short c a n len f rand Hs Hb Hl L)].
  - pose (chunk := firstn (Z.to_nat len) rand). pose (rest := skipn (Z.to_nat len) rand).
    assert (E : rand = chunk ++ rest) by (symmetry; apply firstn_skipn).
    assert (Lc : Z.of_nat (length chunk) = len) by (unfold chunk; rewrite firstn_length; lia).
    rewrite E in Ho. apply Forall_app in Ho. destruct Ho as [Oc Or].
    destruct (gen_step c a n len f chunk rest Hs Hb Hl Oc Lc) as (db & D1 & D2 & D3). rewrite E, D3.
    destruct (Z.geb_spec (scalar n len chunk) (c_N c)) as [G|G].
    + assert (Lr : (length rest < f)%nat) by (rewrite E, app_length in Hf; lia).
      destruct (IH rest Or Lr) as [(A & B)|(d & rs & db' & A & B)].
      * left. split; [apply draw_fail; assumption|exact B].
      * right. exists d, rs, db'. split; [apply draw_miss; assumption|exact B].
    + right. exists (scalar n len chunk), rest, db. split; [apply draw_hit; assumption|]. split; [lia|]. split; [exact D1|reflexivity].
Qed.
End Env.
