(** * Prop_EC: C10-C14, public key encoding and point decompression (package ec) *)
From Coq Require Import ZArith String List Bool Lia Znumtheory Zpow_facts.
From Verif Require Import Base BaseFacts NumTheory Curves ECKey LucasFacts Pocklington Spec_EC ECFacts ECFacts2.
Import ListNotations.
Open Scope Z_scope.

(** C10.  Compressed encoding is SEC 1's, and decoding it gives the point back, for every
    affine point of every supported curve.  On P-224 the square root draws random numbers:
    there the outcome is the point as soon as one usable number has been drawn, and the
    search is still running otherwise; y = 0 is excluded on P-224. *)
Theorem C10_compressed_round_trip : forall c a x y n,
  supported c a -> affine_point c a x y -> field_bytes c n -> (c = P224 -> y <> 0) ->
  exists e, EncodePublicKey {| pk_curve := c; pk_X := x; pk_Y := y |} true = Val e /\
    sec1_compressed n x y e /\
    forall rng,
      (c <> P224 \/ Exists (usable_draw (c_P c) ((y * y) mod c_P c)) rng ->
       DecodePublicKey rng e c = Val (Ok {| pk_curve := c; pk_X := x; pk_Y := y |})) /\
      (c = P224 -> ~ Exists (usable_draw (c_P c) ((y * y) mod c_P c)) rng ->
       DecodePublicKey rng e c = OutOfFuel).
Proof.
  intros c a x y n Hs (Hx & Hy & Hc) Hn H224.
  pose proof (supported_prime c a Hs) as Hp. destruct (supported_odd c a Hs) as [H2 Ho].
  destruct (supported_size c a Hs) as (L & HL & HL0 & HLp & HLm).
  assert (En : n = Z.of_nat L) by (apply (size_unique c); assumption).
  subst n.
  exists ((if Z.even y then 2 else 3) :: to_be L x). split; [|split].
  - rewrite (encode_compressed_ok {| pk_curve := c; pk_X := x; pk_Y := y |} L HL); cbn [pk_X pk_Y]; [|lia].
    rewrite testbit0, <- Z.negb_even. destruct (Z.even y); reflexivity.
  - exists (to_be L x). split; [apply encodes_to_be; lia|reflexivity].
  - intros rng. rewrite <- (app_nil_r (to_be L x)).
    rewrite (decode_compressed rng c (Z.of_nat L)); [|exact HL|lia|apply zlen_to_be|destruct (Z.even y); auto].
    unfold deCompress. rewrite be2z_to_be_small by lia.
    pose proof (y_square_spec c x ltac:(lia)) as YS. rewrite (supported_a c a x Hs) in YS.
    unfold curve_eq in Hc. rewrite <- YS in Hc.
    assert (Hz : 0 <= y_square c x < c_P c) by (rewrite YS; apply Z.mod_pos_bound; lia).
    set (t := (if Z.even y then 2 else 3) - 2).
    assert (Et : t = (if Z.even y then 0 else 1)) by (unfold t; destruct (Z.even y); reflexivity).
    rewrite Hc. clearbody t.
    assert (FIN : forall w, 0 <= w < c_P c /\ (w * w) mod c_P c = y_square c x ->
       (if (isEven w && negb (t =? 0)) || (negb (isEven w) && negb (t =? 1)) then c_P c - w else w) = y).
    { intros w [W1 W2]. apply select_root; auto. congruence. }
    assert (Hmod : c <> P224 -> c_P c mod 4 = 3) by (apply (supported_mod4 c a Hs)).
    assert (H1 : c = P224 -> c_P c mod 4 = 1) by (intros ->; reflexivity).
    destruct (Z.eq_dec (c_P c mod 4) 3) as [M|M].
    + assert (N : c <> P224) by (intros E; rewrite (H1 E) in M; lia).
      split; [|intros; contradiction]. intros _.
      destruct (curveSqrt_complete_3 rng _ _ Hp M Hz) as [(w & -> & W)|[_ NX]].
      * cbn [bind]. rewrite FIN by exact W. reflexivity.
      * exfalso. exact (NX y Hc).
    + assert (E : c_P c mod 4 = 1).
      { assert (D : c_P c mod 4 = 3 \/ c_P c mod 4 = 1) by (destruct Hs; vm_compute; auto). tauto. }
      assert (I : c = P224) by (destruct Hs; try reflexivity; vm_compute in E; discriminate).
      assert (Nz : y_square c x <> 0).
      { intros Z0. rewrite Z0 in Hc. specialize (H224 I).
        destruct (root_unique (c_P c) 0 y Hp H2) as [R|[_ R]]; try lia. rewrite Hc, Z.mod_0_l by lia. reflexivity. }
      destruct (curveSqrt_complete_1 rng _ _ Hp H2 E Hz) as [[U (w & -> & W)]|[[U ->]|[_ [NX|NX]]]].
      * split; [|intros _ NU; contradiction]. intros _. cbn [bind]. rewrite FIN by exact W. reflexivity.
      * split; [|reflexivity]. intros [A|A]; contradiction.
      * contradiction.
      * exfalso. exact (NX y Hc).
Qed.
Print Assumptions C10_compressed_round_trip.

(** C11.  Whatever the bytes and whatever the curve record (odd modulus, not assumed
    prime), a compressed encoding that is accepted gives a point of the curve with the
    encoded x and the encoded parity. *)
Theorem C11_decompression_sound : forall rng c data key t,
  2 < c_P c -> Z.odd (c_P c) = true -> 0 <= c_bits c ->
  DecodePublicKey rng data c = Val (Ok key) -> nth_error data 0 = Some t -> t <> 4 ->
  exists xb rest,
    data = t :: xb ++ rest /\ Z.of_nat (length xb) = (c_bits c + 7) / 8 /\
    pk_curve key = c /\ pk_X key = value xb 0 /\
    (t = 2 /\ Z.even (pk_Y key) = true \/ t = 3 /\ Z.even (pk_Y key) = false) /\
    0 <= pk_Y key <= c_P c /\
    curve_eq (c_P c) (if String.eqb (c_name c) "secp256k1" then 0 else -3) (c_B c) (pk_X key) (pk_Y key).
Proof.
  intros rng c data key t Hp Ho Hb H Ht N4.
  assert (HL : byte_size c = (c_bits c + 7) / 8) by (unfold byte_size; rewrite Z.shiftr_div_pow2 by lia; reflexivity).
  unfold DecodePublicKey in H. rewrite HL in H. set (L := (c_bits c + 7) / 8) in *.
  assert (HL0 : 0 <= L) by (apply Z.div_pos; lia).
  destruct (Z.ltb_spec (zlen data) (L + 1)) as [|Hlen]; [discriminate|].
  destruct (split_enc data L HL0 Hlen) as (t' & xb & rest & -> & Hxb).
  cbn in Ht. injection Ht as ->.
  rewrite slice_1 in H by exact Hxb. cbn [bind] in H.
  unfold index in H. destruct (Z.ltb_spec 0 (zlen (t :: xb ++ rest))); [|lia].
  cbn [andb Z.leb Z.compare Z.to_nat nth_error bind] in H.
  destruct (Z.eqb_spec t 4); [contradiction|].
  destruct (Z.eqb_spec t 2) as [T2|T2]; [|destruct (Z.eqb_spec t 3) as [T3|T3]; [|discriminate]]; cbn [orb] in H.
  - subst t. apply deCompress_sound in H; auto. destruct H as (A & B & C & D & E).
    exists xb, rest. rewrite value_be2z, B. repeat split; auto; try lia.
    left. split; [reflexivity|]. rewrite <- Z.negb_odd, D. reflexivity.
  - subst t. apply deCompress_sound in H; auto. destruct H as (A & B & C & D & E).
    exists xb, rest. rewrite value_be2z, B. repeat split; auto; try lia.
    right. split; [reflexivity|]. rewrite <- Z.negb_odd, D. reflexivity.
Qed.
Print Assumptions C11_decompression_sound.

(** The same for the supported curves, with the standards' coefficient a. *)
Theorem C11_decompression_sound_supported : forall rng c a data key t,
  supported c a ->
  DecodePublicKey rng data c = Val (Ok key) -> nth_error data 0 = Some t -> t <> 4 ->
  curve_eq (c_P c) a (c_B c) (pk_X key) (pk_Y key) /\ (t = 3 <-> Z.odd (pk_Y key) = true).
Proof.
  intros rng c a data key t Hs H Ht N4. destruct (supported_odd c a Hs) as [H2 Ho].
  destruct (C11_decompression_sound rng c data key t H2 Ho) as (xb & rest & _ & _ & _ & _ & P & _ & E); auto.
  { destruct Hs; discriminate. }
  split.
  - unfold curve_eq in *. rewrite E. apply supported_a. exact Hs.
  - rewrite <- Z.negb_even. destruct P as [[-> ->]|[-> ->]]; split; intros; try discriminate; try lia; reflexivity.
Qed.
Print Assumptions C11_decompression_sound_supported.

(** C12.  A compressed encoding of the right length is rejected only when no y belongs to
    that x - except that P-224 also rejects the x with y = 0. *)
Theorem C12_rejection_means_no_point : forall rng c a t xb rest msg n,
  supported c a -> field_bytes c n -> t = 2 \/ t = 3 -> Z.of_nat (length xb) = n ->
  DecodePublicKey rng (t :: xb ++ rest) c = Val (Err msg) ->
  (forall y, ~ curve_eq (c_P c) a (c_B c) (value xb 0) y) \/
  (c = P224 /\ curve_eq (c_P c) a (c_B c) (value xb 0) 0).
Proof.
  intros rng c a t xb rest msg n Hs Hn Ht Hxb H.
  pose proof (supported_prime c a Hs) as Hp. destruct (supported_odd c a Hs) as [H2 Ho].
  destruct (supported_size c a Hs) as (L & HL & HL0 & HLp & HLm).
  assert (En : n = Z.of_nat L) by (apply (size_unique c); assumption).
  subst n. rewrite (decode_compressed rng c (Z.of_nat L)) in H; auto; try lia.
  rewrite value_be2z. unfold deCompress in H.
  pose proof (y_square_spec c (be2z xb) ltac:(lia)) as YS. rewrite (supported_a c a _ Hs) in YS.
  unfold curve_eq. rewrite <- YS.
  set (z := y_square c (be2z xb)) in *.
  assert (Hz : 0 <= z < c_P c) by (rewrite YS; apply Z.mod_pos_bound; lia).
  destruct (Z.eq_dec (c_P c mod 4) 3) as [M|M].
  - left. destruct (curveSqrt_complete_3 rng _ _ Hp M Hz) as [(w & E & W)|[_ NX]]; [|exact NX].
    rewrite E in H. discriminate.
  - assert (E : c_P c mod 4 = 1).
    { assert (D : c_P c mod 4 = 3 \/ c_P c mod 4 = 1) by (destruct Hs; vm_compute; auto). tauto. }
    assert (I : c = P224) by (destruct Hs; try reflexivity; vm_compute in E; discriminate).
    destruct (curveSqrt_complete_1 rng _ _ Hp H2 E Hz) as [[U (w & E1 & W)]|[[U E1]|[_ [NX|NX]]]].
    + rewrite E1 in H. discriminate.
    + rewrite E1 in H. discriminate.
    + right. split; [exact I|]. rewrite NX, Z.mod_0_l by lia. reflexivity.
    + left. exact NX.
Qed.
Print Assumptions C12_rejection_means_no_point.

(** The exception is real as far as the code is concerned: on P-224 an x whose
    right-hand side is 0 is always rejected. *)
Theorem C12_p224_rejects_y_zero : forall rng t xb rest,
  t = 2 \/ t = 3 -> length xb = 28%nat -> curve_eq (c_P P224) (-3) (c_B P224) (value xb 0) 0 ->
  DecodePublicKey rng (t :: xb ++ rest) P224 = Val (Err "Invalid point compression").
Proof.
  intros rng t xb rest Ht Hxb H. rewrite value_be2z in H.
  rewrite (decode_compressed rng P224 28); auto; try reflexivity; [|unfold zlen; rewrite Hxb; reflexivity].
  unfold deCompress. unfold curve_eq in H.
  pose proof (y_square_spec P224 (be2z xb) ltac:(reflexivity)) as YS. change (a_of P224) with (-3) in YS.
  rewrite <- H in YS. change ((0 * 0) mod c_P P224) with 0 in YS. rewrite YS.
  rewrite curveSqrt_complete_1z by reflexivity. reflexivity.
Qed.
Print Assumptions C12_p224_rejects_y_zero.

(** C13.  Uncompressed encodings: SEC 1's, round trip for all coordinates that fit, and no
    validation at all on decoding. *)
Theorem C13_uncompressed_round_trip : forall c a x y n,
  supported c a -> field_bytes c n -> 0 <= x < 256 ^ n -> 0 <= y < 256 ^ n ->
  exists e, EncodePublicKey {| pk_curve := c; pk_X := x; pk_Y := y |} false = Val e /\
    sec1_uncompressed n x y e /\
    forall rng, DecodePublicKey rng e c = Val (Ok {| pk_curve := c; pk_X := x; pk_Y := y |}).
Proof.
  intros c a x y n Hs Hn Hx Hy.
  destruct (supported_size c a Hs) as (L & HL & HL0 & HLp & HLm).
  assert (En : n = Z.of_nat L) by (apply (size_unique c); assumption).
  subst n. exists (4 :: to_be L x ++ to_be L y). split; [|split].
  - apply (encode_uncompressed_ok {| pk_curve := c; pk_X := x; pk_Y := y |} L HL); cbn [pk_X pk_Y]; assumption.
  - exists (to_be L x), (to_be L y). split; [|split]; auto using encodes_to_be.
  - intros rng. rewrite <- (app_nil_r (to_be L y)).
    rewrite (decode_uncompressed rng c (Z.of_nat L)); auto using zlen_to_be; try lia.
    rewrite !be2z_to_be_small by assumption. reflexivity.
Qed.
Print Assumptions C13_uncompressed_round_trip.

Theorem C13_uncompressed_not_validated : forall rng c a xb yb n,
  supported c a -> field_bytes c n -> Z.of_nat (length xb) = n -> Z.of_nat (length yb) = n ->
  DecodePublicKey rng (4 :: xb ++ yb) c =
    Val (Ok {| pk_curve := c; pk_X := value xb 0; pk_Y := value yb 0 |}).
Proof.
  intros rng c a xb yb n Hs Hn Hx Hy.
  destruct (supported_size c a Hs) as (L & HL & HL0 & HLp & HLm).
  assert (En : n = Z.of_nat L) by (apply (size_unique c); assumption).
  subst n. rewrite <- (app_nil_r yb) at 1.
  rewrite (decode_uncompressed rng c (Z.of_nat L)); [|exact HL|lia|unfold zlen; lia|unfold zlen; lia].
  rewrite !value_be2z. reflexivity.
Qed.
Print Assumptions C13_uncompressed_not_validated.

(** hence points off the curve are accepted, on every supported curve: (0, 0) and (0, 1) *)
Theorem C13_off_curve_accepted : forall c a, supported c a ->
  exists e key, (forall rng, DecodePublicKey rng e c = Val (Ok key)) /\
    ~ curve_eq (c_P c) a (c_B c) (pk_X key) (pk_Y key).
Proof.
  intros c a Hs. destruct (supported_size c a Hs) as (L & HL & HL0 & HLp & HLm).
  exists (4 :: repeat 0 L ++ repeat 0 L), {| pk_curve := c; pk_X := 0; pk_Y := 0 |}. split.
  - intros rng.
    rewrite (C13_uncompressed_not_validated rng c a (repeat 0 L) (repeat 0 L) (Z.of_nat L)); auto.
    + rewrite !value_be2z, be2z_zeros. reflexivity.
    + split; [lia|split; lia].
    + rewrite repeat_length. reflexivity.
    + rewrite repeat_length. reflexivity.
  - cbn [pk_X pk_Y]. destruct Hs; vm_compute; discriminate.
Qed.
Print Assumptions C13_off_curve_accepted.

(** C14.  Trailing bytes never matter once the data is long enough for its tag. *)
Theorem C14_trailing_bytes_ignored : forall rng c a n t body rest,
  supported c a -> field_bytes c n ->
  (t = 4 /\ Z.of_nat (length body) = n + n \/ t <> 4 /\ Z.of_nat (length body) = n) ->
  DecodePublicKey rng ((t :: body) ++ rest) c = DecodePublicKey rng (t :: body) c.
Proof.
  intros rng c a n t body rest Hs Hn H.
  destruct (supported_size c a Hs) as (L & HL & HL0 & HLp & HLm).
  assert (En : n = Z.of_nat L) by (apply (size_unique c); assumption).
  subst n. cbn [app]. destruct H as [[-> Hb]|[Nt Hb]].
  - set (xb := firstn L body). set (yb := skipn L body).
    assert (Hx : zlen xb = Z.of_nat L) by (unfold xb, zlen; rewrite firstn_length; lia).
    assert (Hy : zlen yb = Z.of_nat L) by (unfold yb, zlen; rewrite skipn_length; lia).
    rewrite <- (firstn_skipn L body). fold xb yb. rewrite <- app_assoc.
    rewrite (decode_uncompressed rng c (Z.of_nat L)); auto; try lia.
    rewrite <- (app_nil_r yb) at 2.
    rewrite (decode_uncompressed rng c (Z.of_nat L)); auto; lia.
  - unfold DecodePublicKey. rewrite HL.
    assert (Z1 : zlen (t :: body) = Z.of_nat L + 1) by (unfold zlen; cbn [length]; lia).
    assert (Z2 : zlen (t :: body ++ rest) >= Z.of_nat L + 1).
    { unfold zlen in *. cbn [length] in *. rewrite app_length. lia. }
    destruct (Z.ltb_spec (zlen (t :: body ++ rest)) (Z.of_nat L + 1)); [lia|].
    destruct (Z.ltb_spec (zlen (t :: body)) (Z.of_nat L + 1)); [lia|].
    rewrite slice_1 by (unfold zlen; exact Hb). rewrite <- (app_nil_r body) at 2. rewrite slice_1 by (unfold zlen; exact Hb).
    cbn [bind]. unfold index.
    destruct (Z.ltb_spec 0 (zlen (t :: body ++ rest))); [|lia]. destruct (Z.ltb_spec 0 (zlen (t :: body))); [|lia].
    cbn [andb Z.leb Z.compare Z.to_nat nth_error bind].
    destruct (Z.eqb_spec t 4); [contradiction|]. reflexivity.
Qed.
Print Assumptions C14_trailing_bytes_ignored.

(** x coordinates >= p are accepted as they are: secp256k1, x = p + 1, where y^2 = 8 *)
Theorem C14_unreduced_x_accepted : forall rng, exists key,
  DecodePublicKey rng (2 :: to_be 32 (c_P S256 + 1)) S256 = Val (Ok key) /\ pk_X key = c_P S256 + 1.
Proof.
  intros rng. set (xb := to_be 32 (c_P S256 + 1)).
  assert (Hlen : length xb = 32%nat) by apply to_be_length.
  assert (Hv : be2z xb = c_P S256 + 1) by (apply be2z_to_be_small; split; [discriminate|reflexivity]).
  assert (Hf : field_bytes S256 32) by (vm_compute; repeat split; discriminate).
  destruct (decode_total rng S256 0 (2 :: xb) sup_S256) as [[[key|msg] E]|[_ E]]; [| |discriminate E].
  - exists key. split; [exact E|].
    destruct (C11_decompression_sound rng S256 (2 :: xb) key 2) with (4 := E) as (xb' & rest & D & L & _ & X & _);
      [reflexivity|reflexivity|discriminate|reflexivity|discriminate|].
    assert (xb' = xb).
    { injection D as D. rewrite D. change ((c_bits S256 + 7) / 8) with 32 in L.
      assert (rest = []).
      { destruct rest; [reflexivity|]. apply (f_equal (@length Z)) in D. rewrite app_length, Hlen in D. cbn [length] in D. lia. }
      subst rest. rewrite app_nil_r. reflexivity. }
    subst xb'. rewrite X, value_be2z. exact Hv.
  - exfalso. rewrite <- (app_nil_r xb) in E.
    destruct (C12_rejection_means_no_point rng S256 0 2 xb [] msg 32 sup_S256 Hf ltac:(auto) ltac:(rewrite Hlen; reflexivity) E) as [N|[N _]];
      [|discriminate N].
    rewrite value_be2z, Hv in N.
    apply (N 29896722852569046015560700294576055776214335159245303116488692907525646231534).
    vm_compute. reflexivity.
Qed.
Print Assumptions C14_unreduced_x_accepted.

(** ** Non-vacuity.  (Square roots of field size are not evaluated here: coqchk, which has no
    virtual machine, would need minutes for each.) *)
Example C10_base_points : forall c a, supported c a -> affine_point c a (c_Gx c) (c_Gy c).
Proof. intros c a H. destruct H; vm_compute; repeat split; discriminate. Qed.
Example C10_field_bytes : field_bytes P521 66 /\ field_bytes P224 28 /\ field_bytes S256 32 /\ field_bytes P256 32.
Proof. vm_compute. repeat split; discriminate. Qed.

(** P-224: the second of two draws (a prime of 224 bits) is usable *)
Definition p224_rng : list Z := [2 ^ 224 - 63; 2 ^ 223 + 2 ^ 222 + 37].
Lemma p224_fold : red_ok (c_P P224) (red_fold 8 224 (2 ^ 224 - 1) [(true, 96); (false, 0)]).
Proof. apply red_fold_ok. vm_compute. reflexivity. Qed.
Example C10_p224_G :
  Exists (usable_draw (c_P P224) ((c_Gy P224 * c_Gy P224) mod c_P P224)) p224_rng /\
  DecodePublicKey p224_rng (2 :: to_be 28 (c_Gx P224)) P224 =
    Val (Ok {| pk_curve := P224; pk_X := c_Gx P224; pk_Y := c_Gy P224 |}).
Proof.
  assert (U : Exists (usable_draw (c_P P224) ((c_Gy P224 * c_Gy P224) mod c_P P224)) p224_rng).
  { apply Exists_cons_tl, Exists_cons_hd. split; [reflexivity|].
    match goal with |- ?b ^ ?e mod _ = _ => pose proof (powz_spec _ (c_P P224) b e eq_refl eq_refl p224_fold) as Hz end.
    rewrite <- Hz. vm_compute. reflexivity. }
  split; [exact U|].
  destruct (C10_compressed_round_trip P224 (-3) (c_Gx P224) (c_Gy P224) 28 sup_P224
    (C10_base_points P224 (-3) sup_P224) ltac:(apply C10_field_bytes) ltac:(discriminate)) as (e & E & S & D).
  destruct (D p224_rng) as [D1 _]. rewrite <- (D1 (or_intror U)). f_equal.
  destruct S as (xb & Hx & ->). apply encodes_fun in Hx. rewrite Hx. reflexivity.
Qed.

(** C11/C12: an accepted and a rejected x on secp256k1: for x = p - 2, y^2 = -1 *)
Example C11_accepted : DecodePublicKey [] (2 :: to_be 32 (c_Gx S256) ++ [1; 2]) S256 =
  Val (Ok {| pk_curve := S256; pk_X := c_Gx S256; pk_Y := c_Gy S256 |}).
Proof.
  destruct (C10_compressed_round_trip S256 0 (c_Gx S256) (c_Gy S256) 32 sup_S256
    (C10_base_points S256 0 sup_S256) ltac:(apply C10_field_bytes) ltac:(discriminate)) as (e & E & S & D).
  destruct (D []) as [D1 _]. rewrite <- D1 by (left; discriminate).
  destruct S as (xb & Hx & ->). pose proof (encodes_fun _ _ _ Hx) as F. rewrite F.
  change (if Z.even (c_Gy S256) then 2 else 3) with 2.
  clear. change (Z.to_nat 32) with 32%nat.
  assert (L : zlen (to_be 32 (c_Gx S256)) = 32) by apply zlen_to_be.
  generalize dependent (to_be 32 (c_Gx S256)). intros b Hb.
  rewrite (decode_compressed [] S256 32 2 b [1; 2] eq_refl eq_refl Hb (or_introl eq_refl)).
  rewrite <- (decode_compressed [] S256 32 2 b [] eq_refl eq_refl Hb (or_introl eq_refl)).
  rewrite app_nil_r. reflexivity.
Qed.
Lemma minus_one_odd_pow : forall p k, 1 < p -> 0 <= k -> (p - 1) ^ (2 * k + 1) mod p = p - 1.
Proof.
  intros p k Hp Hk. rewrite Z.pow_add_r, Z.pow_1_r, Z.pow_mul_r by lia.
  rewrite Z.mul_mod, Zpower_mod by lia.
  replace ((p - 1) ^ 2) with (1 + (p - 2) * p) by ring. rewrite Z.mod_add, (Z.mod_small 1) by lia.
  rewrite Z.pow_1_l, (Z.mod_small 1), Z.mul_1_l, Z.mod_mod by lia. apply Z.mod_small. lia.
Qed.
Example C12_rejected : exists msg, DecodePublicKey [] (3 :: to_be 32 (c_P S256 - 2)) S256 = Val (Err msg).
Proof.
  destruct (decode_total [] S256 0 (3 :: to_be 32 (c_P S256 - 2)) sup_S256) as [[[key|msg] E]|[_ E]];
    [|exists msg; exact E|discriminate E].
  exfalso. destruct (C11_decompression_sound [] S256 (3 :: to_be 32 (c_P S256 - 2)) key 3) with (4 := E)
    as (xb' & rest & D & L & _ & X & _ & _ & C); [reflexivity|reflexivity|discriminate|reflexivity|discriminate|].
  assert (X' : pk_X key = c_P S256 - 2).
  { rewrite X, value_be2z. assert (D' : to_be 32 (c_P S256 - 2) = xb' ++ rest) by congruence.
    change ((c_bits S256 + 7) / 8) with 32 in L.
    assert (rest = []).
    { destruct rest; [reflexivity|]. apply (f_equal (@length Z)) in D'. rewrite app_length, to_be_length in D'. cbn [length] in D'. lia. }
    subst rest. rewrite app_nil_r in D'. rewrite <- D'. apply be2z_to_be_small. split; [discriminate|reflexivity]. }
  rewrite X' in C. unfold curve_eq in C.
  assert (C' : (pk_Y key * pk_Y key) mod c_P S256 = c_P S256 - 1) by (rewrite C; vm_compute; reflexivity).
  pose proof (supported_prime S256 0 sup_S256) as Hp.
  assert (Ny : ~ (c_P S256 | pk_Y key)).
  { intros Dv. assert (Z0 : (pk_Y key * pk_Y key) mod c_P S256 = 0).
    { apply Z.mod_divide; [discriminate|]. apply Z.divide_mul_l. exact Dv. }
    rewrite Z0 in C'. discriminate C'. }
  pose proof (euler_square (c_P S256) (pk_Y key) Hp ltac:(reflexivity) Ny) as ES.
  rewrite Zpower_mod, C' in ES by reflexivity.
  assert (O : (c_P S256 - 1) ^ ((c_P S256 - 1) / 2) mod c_P S256 = c_P S256 - 1).
  { assert (K : (c_P S256 - 1) / 2 = 2 * (c_P S256 / 4) + 1) by (vm_compute; reflexivity). rewrite K.
    apply minus_one_odd_pow; vm_compute; [reflexivity|discriminate]. }
  rewrite O in ES. discriminate ES.
Qed.

(** C13/C14 *)
Example C13_example : exists e, EncodePublicKey {| pk_curve := P521; pk_X := 0; pk_Y := 2 ^ 520 + 3 |} false = Val e /\ length e = 133%nat.
Proof. eexists. split; [vm_compute; reflexivity|reflexivity]. Qed.
