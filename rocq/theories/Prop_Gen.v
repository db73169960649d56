(** * Prop_Gen: C70, key pair generation *)
From Coq Require Import ZArith Znumtheory String List Bool Lia.
From Verif Require Import Base BaseFacts Curves ECKey Keypair Generate Spec_EC Spec_Keys Spec_Gen ECFacts ECFacts2 KeyFacts GenFacts Prop_EC Prop_Keys SM3 SM2Sig Prop_SM2.
Import ListNotations.
Open Scope Z_scope.

Lemma app_split {A} (a : list A) : forall b c d, length a = length c -> a ++ b = c ++ d -> a = c /\ b = d.
Proof.
  induction a as [|x a IH]; intros b [|y c] d L E; try discriminate L; [split; [reflexivity|exact E]|].
  cbn in E. injection E as -> E. injection L as L. destruct (IH b c d L E) as [-> ->]. split; reflexivity.
Qed.
Lemma draw_fun N n len l d rest : first_draw N n len l d rest -> 0 < len ->
  (forall d' rest', first_draw N n len l d' rest' -> d = d' /\ rest = rest') /\ ~ no_draw N n len l.
Proof.
  intros H L. induction H as [ch rs H1 H2|ch mo d rs H1 H2 H3 IH]; (split; [intros d' rest' K|intros K]).
  - inversion K as [ch' rs' K1 K2 KE|ch' mo' d1 rs' K1 K2 K3 KE]; destruct (app_split ch' _ ch _ ltac:(lia) KE); subst; [split; reflexivity|lia].
  - inversion K as [l K1 KE|ch' mo' K1 K2 K3 KE]; [rewrite app_length in K1; lia|]. destruct (app_split ch' _ ch _ ltac:(lia) KE); subst. lia.
  - inversion K as [ch' rs' K1 K2 KE|ch' mo' d1 rs' K1 K2 K3 KE]; destruct (app_split ch' _ ch _ ltac:(lia) KE); subst; [lia|]. apply IH. exact K3.
  - inversion K as [l K1 KE|ch' mo' K1 K2 K3 KE]; [rewrite app_length in K1; lia|]. destruct (app_split ch' _ ch _ ltac:(lia) KE); subst. apply IH. exact K3.
Qed.

Section Env.
Variable sbm : curve -> bytes -> Z * Z.
Variable ed_new : bytes -> bytes.
Variable field_element : curve -> bytes -> option Z.
Let Gen := GenerateKeyPair sbm ed_new field_element.

Lemma gen_ec t l c rand : (t = 18 \/ t = 19) -> label_of c l ->
  Gen t (Some l) rand = let* r := GenerateECKeyPair sbm c rand (t - 18) in
    match r with Ok (pri, pub) => Val (Keys pri pub) | Err e => Val (Failed true e) end.
Proof.
  intros Ht Hl. unfold Gen, GenerateKeyPair. rewrite (proj1 (GetCurve_label c l Hl)). destruct Ht as [-> | ->]; reflexivity.
Qed.

(** The keys of the first attempt below the order, or an error when the random source ends; no panic. *)
Theorem C70_first_draw : forall t l c n len rand, t = 18 \/ t = 19 -> label_of c l -> bits_of (c_N c) n -> bytes_for n len -> octets rand ->
  (forall pri pub, Gen t (Some l) rand = Val (Keys pri pub) <->
     exists d rest db x y, first_draw (c_N c) n len rand d rest /\ encodes len d db /\ sbm c db = (x, y) /\
       pri = SkEC (t - 18) d {| pk_curve := c; pk_X := x; pk_Y := y |} /\ pub = PkEC (t - 18) {| pk_curve := c; pk_X := x; pk_Y := y |}) /\
  ((exists why, Gen t (Some l) rand = Val (Failed true why)) <-> no_draw (c_N c) n len rand) /\
  ((exists pri pub, Gen t (Some l) rand = Val (Keys pri pub)) \/ (exists why, Gen t (Some l) rand = Val (Failed true why))).
Proof.
  intros t l c n len rand Ht Hl Hb Hy Ho. destruct (label_supported c l Hl) as [a Hs]. rewrite !(gen_ec t l c rand Ht Hl). unfold GenerateECKeyPair.
  assert (L0 : 0 < len) by (unfold bytes_for, bits_of in *; lia).
  destruct (gen_total sbm c a n len Hs Hb Hy (S (length rand)) rand Ho ltac:(lia)) as [(A & B)|(d & rest & db & A & A0 & A1 & B)]; rewrite B; cbn [bind].
  - split; [|split].
    + intros pri pub. split; [intros E; discriminate E|]. intros (d & rest & db & x & y & D & _). destruct (draw_fun _ _ _ _ _ _ D L0) as [_ X]. contradiction.
    + split; [intros _; exact A|intros _; eexists; reflexivity].
    + right. eexists. reflexivity.
  - destruct (sbm c db) as [x y] eqn:S. cbn [bind]. destruct (draw_fun _ _ _ _ _ _ A L0) as [U NU].
    pose proof (encodes_inv _ _ _ A1) as (E1 & E2 & E3). split; [|split].
    + intros pri pub. split.
      * intros E. injection E as <- <-. exists d, rest, db, x, y. rewrite E3. repeat split; try assumption.
      * intros (d' & rest' & db' & x' & y' & D & F & S' & -> & ->). destruct (U _ _ D) as [<- <-].
        rewrite (encodes_fun _ _ _ A1), <- (encodes_fun _ _ _ F) in S. rewrite S' in S. injection S as -> ->. rewrite E3. reflexivity.
    + split; [intros [why E]; discriminate E|intros X; contradiction].
    + left. eexists. eexists. reflexivity.
Qed.

(** Whatever it returns belongs together, is valid unless the scalar is zero, and survives serialization. *)
Theorem C70_keys_valid : forall t opts rand pri pub, libraries sbm ed_new field_element -> octets rand ->
  Gen t opts rand = Val (Keys pri pub) ->
  halves pri pub /\ (valid_priv sbm pri /\ valid_pub pub \/ exists alg p, pri = SkEC alg 0 p).
Proof.
  intros t opts rand pri pub (LP & LE & LF & LS) Ho H.
  destruct (Z.eq_dec t 18) as [E18|N18]; [|destruct (Z.eq_dec t 19) as [E19|N19]].
  1,2: (destruct opts as [l|]; [|subst t; discriminate H];
    destruct (GetCurve l) as [c|e] eqn:G; [|unfold Gen, GenerateKeyPair in H; rewrite G in H; subst t; discriminate H];
    apply GetCurve_inv in G; destruct (label_supported c l G) as [a Hs];
    destruct (order_size c a Hs) as (n & len & k & m & B1 & B2 & B3 & _);
    destruct (C70_first_draw t l c n len rand ltac:(lia) G B1 B2 Ho) as (K & _); apply K in H;
    destruct H as (d & rest & db & x & y & D & E & S & -> & ->); split; [constructor|];
    assert (R : d < c_N c) by (clear - D; induction D; assumption);
    destruct (encodes_inv _ _ _ E) as (E1 & E2 & E3); pose proof (be2z_bound db E2) as R0; rewrite E3 in R0;
    destruct (Z.eq_dec d 0) as [->|D0]; [right; eexists; eexists; reflexivity|left];
    destruct (LP c a Hs len d db B3 E ltac:(lia)) as (x' & y' & S' & Ap); rewrite S in S'; injection S' as <- <-;
    split; [eapply vs_ec; try eassumption; lia|eapply vp_ec; try eassumption; lia]).
  destruct (Z.eq_dec t 20) as [E20|N20]; [|destruct (Z.eq_dec t 21) as [E21|N21]].
  - subst t. cbn in H. destruct opts as [l|]; [|discriminate H]. destruct (l =? L_ED25519); [|discriminate H].
    unfold ed25519_gen in H. destruct (Z.ltb_spec (zlen rand) 32) as [|L]; [discriminate H|].
    assert (SL : slice rand 0 32 = Val (firstn 32 rand)) by (rewrite slice_ok by lia; reflexivity).
    rewrite SL in H. cbn [bind] in H. set (seed := firstn 32 rand) in *.
    assert (L1 : length seed = 32%nat) by (unfold seed, zlen in *; rewrite firstn_length; lia).
    destruct (LE seed L1 (wf_firstn _ _ Ho)) as [L2 O2]. set (k := ed_new seed) in *.
    assert (SK : slice k 32 (zlen k) = Val (skipn 32 k)).
    { rewrite <- (firstn_skipn 32 k) at 1 2. apply slice_tail. unfold zlen. rewrite firstn_length. lia. }
    assert (P1 : length (skipn 32 k) = 32%nat) by (rewrite skipn_length; lia). pose proof (wf_skipn 32 k O2) as P2.
    assert (P3 : k = firstn 32 k ++ skipn 32 k) by (symmetry; apply firstn_skipn). assert (P4 : length (firstn 32 k) = 32%nat) by (rewrite firstn_length; lia).
    rewrite SK in H. cbn [bind] in H. revert P1 P2 P3 P4 H. generalize (skipn 32 k) as pb, (firstn 32 k) as hd. intros pb hd P1 P2 P3 P4 H. injection H as <- <-. split.
    + rewrite P3. apply half_ed. exact P4.
    + left. split; [apply vs_ed; assumption|apply vp_ed; assumption].
  - subst t. cbn in H. unfold ecdsa_gen in H. destruct (field_element EthS256 rand) as [d|] eqn:F; [|discriminate H].
    pose proof (LF _ _ F) as R.
    assert (EN : encodes 32 d (to_be 32 d)).
    { split; [rewrite to_be_length; reflexivity|]. split; [apply to_be_wf|]. rewrite value_be2z. apply be2z_to_be_small.
      assert (c_N S256 < 256 ^ Z.of_nat 32) by reflexivity. lia. }
    destruct (LS d _ R EN) as (x & y & S1 & S2 & Ap). rewrite S1 in H. injection H as <- <-. split; [constructor|left].
    split; [eapply vs_eth; eassumption|apply vp_eth; exact Ap].
  - unfold Gen, GenerateKeyPair, PK_ECDSA, PK_SM2, PK_EDDSA, PK_ETHECDSA in H.
    repeat match type of H with context [?a =? ?b] => destruct (Z.eqb_spec a b); [lia|] end. discriminate H.
Qed.
Theorem C70_keys_round_trip : forall t opts rand pri pub rng, libraries sbm ed_new field_element -> octets rand ->
  Gen t opts rand = Val (Keys pri pub) -> (forall alg p, pri <> SkEC alg 0 p) -> pub_decompressible pub rng ->
  (exists e, SerializePublicKey pub = Val e /\ DeserializePublicKey rng e = Val (Ok pub)) /\
  (exists e, SerializePrivateKey pri = Val e /\ DeserializePrivateKey sbm rng e = Val (Ok (Some pri))).
Proof.
  intros t opts rand pri pub rng L Ho H N D. destruct (C70_keys_valid t opts rand pri pub L Ho H) as [Hh [[V1 V2]|(alg & p & E)]]; [|destruct (N alg p E)].
  split.
  - destruct (C15_public_key_round_trip pub rng V2 D) as (e & R). exists e. exact R.
  - apply C19_private_key_round_trip; [exact V1|]. destruct Hh; exact D.
Qed.

(** The scalar zero comes out of the bytes 00 42 00 .. 00, for every curve. *)
Theorem C70_zero : forall t l c n len rand rest, t = 18 \/ t = 19 -> label_of c l -> bits_of (c_N c) n -> bytes_for n len -> octets rest ->
  rand = 0x00 :: 0x42 :: repeat 0x00 (Z.to_nat (len - 2)) ->
  exists p, Gen t (Some l) (rand ++ rest) = Val (Keys (SkEC (t - 18) 0 p) (PkEC (t - 18) p)) /\ (pk_X p, pk_Y p) = sbm c (repeat 0 (Z.to_nat len)).
Proof.
  intros t l c n len rand rest Ht Hl Hb Hy Ho E. destruct (label_supported c l Hl) as [a Hs].
  destruct (order_size c a Hs) as (n' & len' & k & m & B1 & B2 & B3 & B4 & B5 & B6 & B7 & B8 & B9 & B10).
  rewrite (bits_fun _ _ _ B1 Hb) in *. rewrite (bytes_for_fun _ _ _ B2 Hy) in *.
  assert (S : scalar n len rand = 0).
  { subst rand. rewrite <- (masked_scalar 0 66 _ n len k); try assumption; try lia; [|split; [discriminate|reflexivity]|apply wf_repeat; split; [discriminate|reflexivity]|rewrite zlen_repeat; lia].
    rewrite Z.mod_0_l by (apply Z.pow_nonzero; lia). change (Z.lxor 66 66) with 0. change (0 :: 0 :: repeat 0 (Z.to_nat (len - 2))) with (repeat 0 (S (S (Z.to_nat (len - 2))))). apply be2z_zeros. }
  assert (Lr : Z.of_nat (length rand) = len) by (subst rand; cbn [length]; rewrite repeat_length; lia).
  assert (Or : octets rand).
  { subst rand. constructor; [split; [discriminate|reflexivity]|]. constructor; [split; [discriminate|reflexivity]|]. apply wf_repeat. split; [discriminate|reflexivity]. }
  assert (P : 0 < c_N c) by (destruct Hb as (_ & H & _); pose proof (Z.pow_nonneg 2 (n - 1)); destruct Hs; reflexivity).
  destruct (sbm c (repeat 0 (Z.to_nat len))) as [x y] eqn:SB.
  exists {| pk_curve := c; pk_X := x; pk_Y := y |}. split; [|reflexivity].
  apply (proj1 (C70_first_draw t l c n len (rand ++ rest) Ht Hl Hb Hy (proj2 (Forall_app _ _ _) (conj Or Ho)))).
  exists 0, rest, (repeat 0 (Z.to_nat len)), x, y. split; [|split; [|split; [exact SB|split; reflexivity]]].
  - rewrite <- S. apply draw_hit; [exact Lr|lia].
  - split; [rewrite repeat_length; lia|]. split; [apply wf_repeat; split; [discriminate|reflexivity]|]. rewrite value_be2z. apply be2z_zeros.
Qed.
End Env.

(** ... and its point (0, 0), which is how the curves write the point at infinity, does not survive serialization. *)
Lemma zero_not_on_curve c a : supported c a -> ~ curve_eq (c_P c) a (c_B c) 0 0.
Proof. intros H. destruct H; vm_compute; discriminate. Qed.
Lemma deser_ec rng t l c body : t = 18 \/ t = 19 -> label_of c l -> 2 < zlen body ->
  DeserializePublicKey rng (t :: l :: body) = let* r := DecodePublicKey rng body c in
    match r with Err e => Val (Err e) | Ok k => Val (Ok (PkEC (t - 18) k)) end.
Proof.
  intros Ht Hl Hz. unfold DeserializePublicKey. rewrite index_cons0, index_cons1, slice_tail2. cbn [bind]. rewrite (proj1 (GetCurve_label c l Hl)), !zlen_cons.
  destruct (Z.leb_spec (1 + (1 + zlen body)) 3); [lia|]. destruct Ht as [-> | ->]; reflexivity.
Qed.
Lemma deser_p256 rng body : 2 < zlen body ->
  DeserializePublicKey rng (2 :: body) = let* r := DecodePublicKey rng (2 :: body) P256 in
    match r with Err _ => Val (Err "deserializing public key failed: decode P-256 public key error") | Ok k => Val (Ok (PkEC 0 k)) end.
Proof.
  intros Hz. unfold DeserializePublicKey. rewrite index_cons0, zlen_cons. destruct (Z.leb_spec (1 + zlen body) 3); [lia|]. reflexivity.
Qed.
Lemma encode_zero c a : supported c a -> exists z, EncodePublicKey {| pk_curve := c; pk_X := 0; pk_Y := 0 |} true = Val (2 :: z) /\ 2 < zlen z.
Proof. intros H. destruct H; eexists; split; vm_compute; reflexivity. Qed.
Theorem C70_zero_key_lost : forall alg c a rng e, supported c a -> alg = 0 \/ alg = 1 ->
  let pub := PkEC alg {| pk_curve := c; pk_X := 0; pk_Y := 0 |} in
  SerializePublicKey pub = Val e -> DeserializePublicKey rng e <> Val (Ok pub).
Proof.
  intros alg c a rng e Hs Ha pub E D. unfold pub in *. clear pub. destruct (encode_zero c a Hs) as (z & EZ & Lz).
  assert (K : DecodePublicKey rng (2 :: z) c = Val (Ok {| pk_curve := c; pk_X := 0; pk_Y := 0 |})).
  { cbn [SerializePublicKey pk_curve] in E. rewrite EZ in E. destruct ((alg =? ECDSA) && String.eqb (c_name c) (c_name P256)) eqn:P.
    - apply andb_true_iff in P. destruct P as [P1 P2]. rewrite (p256_name c a Hs P2) in *. injection E as <-. rewrite deser_p256 in D by exact Lz.
      destruct (DecodePublicKey rng (2 :: z) P256) as [[k|m]| |]; cbn [bind] in D; try discriminate D. injection D as _ ->. reflexivity.
    - destruct (supported_label c a Hs) as [l Hl]. rewrite (proj2 (GetCurve_label c l Hl)) in E. cbn [bind] in E. injection E as <-.
      assert (X : (if alg =? ECDSA then [PK_ECDSA] else if alg =? SM2 then [PK_SM2] else []) ++ [l] ++ 2 :: z = (18 + alg) :: l :: 2 :: z) by (destruct Ha as [-> | ->]; reflexivity).
      change (l :: 2 :: z) with ([l] ++ 2 :: z) in D at 1. rewrite X, (deser_ec rng (18 + alg) l c) in D; [|lia|exact Hl|rewrite zlen_cons; lia].
      destruct (DecodePublicKey rng (2 :: z) c) as [[k|m]| |]; cbn [bind] in D; try discriminate D. injection D as _ ->. reflexivity. }
  destruct (C11_decompression_sound_supported rng c a (2 :: z) _ 2 Hs K eq_refl ltac:(discriminate)) as [X _]. exact (zero_not_on_curve c a Hs X).
Qed.

(** Every scalar below 2^n is as likely as any other: it belongs to exactly one chunk for each value of the bits cut off. *)
Theorem C70_uniform : forall n len d hi, 0 < n -> bytes_for n len -> 2 <= len -> 0 <= d < 2 ^ n -> 0 <= hi < 2 ^ (8 * len - n) ->
  exists chunk, (Z.of_nat (length chunk) = len /\ octets chunk /\ value chunk 0 / 2 ^ n = hi /\ scalar n len chunk = d) /\
    forall other, Z.of_nat (length other) = len -> octets other -> value other 0 / 2 ^ n = hi -> scalar n len other = d -> other = chunk.
Proof.
  intros n len d hi Hn Hl Hl2 Hd Hh. unfold bytes_for in Hl. set (m := 0x42 * 256 ^ (len - 2)).
  assert (P256 : forall k, 0 <= k -> 256 ^ k = 2 ^ (8 * k)) by (intros k Hk; rewrite Z.pow_mul_r by lia; reflexivity).
  assert (Hm : 0 <= m < 2 ^ n).
  { unfold m. rewrite P256 by lia. split; [apply Z.mul_nonneg_nonneg; [lia|apply Z.pow_nonneg; lia]|].
    apply Z.lt_le_trans with (2 ^ 8 * 2 ^ (8 * (len - 2))); [apply Z.mul_lt_mono_pos_r; [apply Z.pow_pos_nonneg; lia|reflexivity]|].
    rewrite <- Z.pow_add_r by lia. apply Z.pow_le_mono_r; lia. }
  pose proof (lxor_lt n d m ltac:(lia) Hd Hm) as Hx.
  assert (HP : 0 < 2 ^ n) by (apply Z.pow_pos_nonneg; lia).
  set (v := hi * 2 ^ n + Z.lxor d m).
  assert (Hv : 0 <= v < 256 ^ len).
  { rewrite P256 by lia. replace (8 * len) with ((8 * len - n) + n) by lia. rewrite Z.pow_add_r by lia. unfold v. nia. }
  assert (V : value (to_be (Z.to_nat len) v) 0 = v) by (rewrite value_be2z; apply be2z_to_be_small; rewrite Z2Nat.id by lia; exact Hv).
  exists (to_be (Z.to_nat len) v). split.
  - split; [rewrite to_be_length; lia|]. split; [apply to_be_wf|]. unfold scalar. rewrite V. fold m. split.
    + unfold v. rewrite Z.add_comm, Z.div_add, Z.div_small by lia. lia.
    + unfold v. rewrite Z.add_comm, Z.mod_add, Z.mod_small by lia. rewrite Z.lxor_assoc, Z.lxor_nilpotent, Z.lxor_0_r. reflexivity.
  - intros o Lo Oo Ho So. apply be2z_inj; [exact Oo|apply to_be_wf|rewrite to_be_length; lia|].
    rewrite <- !value_be2z, V. unfold scalar in So. fold m in So.
    assert (E : value o 0 mod 2 ^ n = Z.lxor d m) by (rewrite <- So, Z.lxor_assoc, Z.lxor_nilpotent, Z.lxor_0_r; reflexivity).
    rewrite (Z.div_mod (value o 0) (2 ^ n)), Ho, E by lia. unfold v. ring.
Qed.

(** The method Public gives back the other half, except for Ethereum keys, whose public key then panics everywhere. *)
Theorem C70_public_method : forall pri pub, halves pri pub ->
  (forall d p, pri <> SkEth d p) /\ Public pri = Val pub \/
  (exists d p other, pri = SkEth d p /\ Public pri = Val other /\ other <> pub /\
     (exists why, SerializePublicKey other = Panic why) /\ (exists why, GetKeyType other = Panic why)).
Proof.
  intros pri pub H. destruct H as [alg d p|seed pb L|d p].
  - left. split; [discriminate|reflexivity].
  - left. split; [discriminate|]. cbn [Public]. rewrite (slice_tail _ seed pb 32) by (unfold zlen; rewrite L; reflexivity). reflexivity.
  - right. exists d, p, (PkOther 1). repeat split; try discriminate; eexists; reflexivity.
Qed.
Section Env2.
Variable sbm : curve -> bytes -> Z * Z.
Variable ed_new : bytes -> bytes.
Variable field_element : curve -> bytes -> option Z.
Let Gen := GenerateKeyPair sbm ed_new field_element.

(** What is refused; when an error comes with interface values that are not nil. *)
Definition good_request (t : Z) (opts : option Z) : Prop :=
  (t = 18 \/ t = 19) /\ (exists c l, opts = Some l /\ label_of c l) \/ t = 20 /\ opts = Some 25 \/ t = 21.
Theorem C70_errors : forall t opts rand, octets rand -> (forall seed, length seed = 32%nat -> length (ed_new seed) = 64%nat) ->
  (~ good_request t opts -> exists why, Gen t opts rand = Val (Failed false why)) /\
  (good_request t opts -> (exists pri pub, Gen t opts rand = Val (Keys pri pub)) \/ exists typed why, Gen t opts rand = Val (Failed typed why) /\ (typed = true <-> t <> 21)).
Proof.
  intros t opts rand Ho LE. split.
  - intros N. unfold Gen, GenerateKeyPair, PK_ECDSA, PK_SM2, PK_EDDSA, PK_ETHECDSA.
    destruct (Z.eqb_spec t 18) as [T18|N18]; [|destruct (Z.eqb_spec t 19) as [T19|N19]]; cbn [orb].
    1,2: (destruct opts as [l|]; [|eexists; reflexivity]; destruct (GetCurve l) as [c|e] eqn:G; [|eexists; reflexivity];
      exfalso; apply N; left; split; [lia|]; exists c, l; split; [reflexivity|exact (GetCurve_inv l c G)]).
    destruct (Z.eqb_spec t 20) as [T20|N20].
    + destruct opts as [l|]; [|eexists; reflexivity]. unfold L_ED25519. destruct (Z.eqb_spec l 25) as [->|]; [|eexists; reflexivity].
      exfalso. apply N. right. left. split; [exact T20|reflexivity].
    + destruct (Z.eqb_spec t 21) as [T21|N21]; [|eexists; reflexivity]. exfalso. apply N. right. right. exact T21.
  - intros [(Ht & c & l & -> & Hl)|[[-> ->]| ->]].
    + destruct (label_supported c l Hl) as [a Hs]. destruct (order_size c a Hs) as (n & len & k & m & B1 & B2 & _).
      destruct (C70_first_draw sbm ed_new field_element t l c n len rand Ht Hl B1 B2 Ho) as (_ & _ & [X|[why X]]); [left; exact X|right].
      exists true, why. split; [exact X|]. split; [lia|reflexivity].
    + cbn. unfold ed25519_gen. destruct (Z.ltb_spec (zlen rand) 32) as [|L].
      * right. exists true. eexists. split; [reflexivity|]. split; [discriminate|reflexivity].
      * left. rewrite slice_ok by lia. cbn [bind].
        set (seed := firstn _ _). assert (L1 : length seed = 32%nat) by (unfold seed, zlen in *; rewrite firstn_length, skipn_length; lia).
        pose proof (LE seed L1). rewrite slice_ok by (unfold zlen; lia). eexists. eexists. reflexivity.
    + unfold Gen, GenerateKeyPair. cbn. unfold ecdsa_gen. destruct (field_element EthS256 rand) as [d|].
      * destruct (sbm EthS256 (big_bytes d)) as [x y]. left. eexists. eexists. reflexivity.
      * right. exists false. eexists. split; [reflexivity|]. split; [discriminate|intros X; destruct X; reflexivity].
Qed.
End Env2.

(** GenerateKeyPair does not avoid N - 1, with which SM2 Sign does not terminate (C45). *)
Definition worst : bytes := to_be 32 (c_N SM2P256V1 - 1 - 0x42 * 256 ^ 30).
Theorem C70_unusable_sm2_key : forall sbm ed_new field_element rest, octets rest ->
  exists p, GenerateKeyPair sbm ed_new field_element PK_SM2 (Some 20) (worst ++ rest) = Val (Keys (SkEC 1 (c_N SM2P256V1 - 1) p) (PkEC 1 p)) /\
  forall sha512 aes sm2_sbm inv fuel ent id msg hasher, inputs_ok p id msg hasher -> inv (c_N SM2P256V1) mod c_N SM2P256V1 = 0 ->
    (forall m, (32 <= length (sha512 m))%nat) -> Sign sha512 aes sm2_sbm inv fuel (Ok ent) (c_N SM2P256V1 - 1) p id msg hasher = OutOfFuel.
Proof.
  intros sbm ed_new field_element rest Ho. set (db := to_be 32 (c_N SM2P256V1 - 1)). destruct (sbm SM2P256V1 db) as [x y] eqn:S.
  exists {| pk_curve := SM2P256V1; pk_X := x; pk_Y := y |}. split.
  - assert (B : bits_of (c_N SM2P256V1) 256) by (vm_compute; repeat split; discriminate).
    assert (Y : bytes_for 256 32) by (vm_compute; repeat split; discriminate).
    assert (OW : octets (worst ++ rest)) by (apply Forall_app; split; [apply to_be_wf|exact Ho]).
    apply (proj1 (C70_first_draw sbm ed_new field_element 19 20 SM2P256V1 256 32 (worst ++ rest) (or_intror eq_refl)
      ltac:(right; right; right; right; right; split; reflexivity) B Y OW)).
    assert (E : scalar 256 32 worst = c_N SM2P256V1 - 1) by (vm_compute; reflexivity).
    exists (c_N SM2P256V1 - 1), rest, db, x, y. split; [|split; [|split; [exact S|split; reflexivity]]].
    + rewrite <- E. apply draw_hit; [reflexivity|rewrite E; reflexivity].
    + split; [reflexivity|]. split; [apply to_be_wf|]. vm_compute. reflexivity.
  - intros sha512 aes sm2_sbm inv fuel ent id msg hasher I V L. apply C45_diverges; [exact I|discriminate|reflexivity| |exact L].
    replace (c_N SM2P256V1 - 1 + 1) with (c_N SM2P256V1) by ring. exact V.
Qed.
Print Assumptions C70_first_draw.
Print Assumptions C70_keys_valid.
Print Assumptions C70_keys_round_trip.
Print Assumptions C70_zero.
Print Assumptions C70_zero_key_lost.
Print Assumptions C70_uniform.
Print Assumptions C70_public_method.
Print Assumptions C70_errors.
Print Assumptions C70_unusable_sm2_key.

(** ** Examples: libraries that give the base point for every scalar *)
Definition toy_sbm (c : curve) (_ : bytes) : Z * Z := (c_Gx c, c_Gy c).
Definition toy_ed (seed : bytes) : bytes := seed ++ seed.
Definition toy_fe (_ : curve) (rand : bytes) : option Z := match rand with [] => None | b :: _ => Some (1 + b mod 256) end.
Example C70_libraries : libraries toy_sbm toy_ed toy_fe.
Proof.
  split; [|split; [|split]].
  - intros c a H len d db _ _ _. eexists. eexists. split; [reflexivity|]. destruct H; vm_compute; repeat split; discriminate.
  - intros seed L O. unfold toy_ed. rewrite app_length, L. split; [reflexivity|apply Forall_app; split; exact O].
  - intros [|b l] d H; [discriminate H|]. injection H as <-. pose proof (Z.mod_pos_bound b 256 eq_refl).
    assert (B : 1000 < c_N S256) by reflexivity. change (0 < 1 + b mod 256 < c_N S256). lia.
  - intros d db _ _. eexists. eexists. split; [reflexivity|]. split; [reflexivity|]. vm_compute. repeat split; discriminate.
Qed.
(** the first attempt is too large, the second gives 1 *)
Definition two_tries : bytes := [0xff; 0xbd] ++ repeat 0xff 30 ++ [0x00; 0x42] ++ repeat 0 29 ++ [1] ++ [7; 7].
Example C70_draw_example : let p := {| pk_curve := SM2P256V1; pk_X := c_Gx SM2P256V1; pk_Y := c_Gy SM2P256V1 |} in
  octets two_tries /\ first_draw (c_N SM2P256V1) 256 32 two_tries 1 [7; 7] /\
  GenerateKeyPair toy_sbm toy_ed toy_fe PK_SM2 (Some 20) two_tries = Val (Keys (SkEC 1 1 p) (PkEC 1 p)) /\
  GenerateKeyPair toy_sbm toy_ed toy_fe PK_SM2 (Some 20) (firstn 63 two_tries) = Val (Failed true "Generate ec key pair failed, unexpected EOF") /\
  GenerateKeyPair toy_sbm toy_ed toy_fe PK_ECDSA (Some 25) two_tries = Val (Failed false "key pair generation failed, unknown elliptic curve").
Proof.
  split; [vm_compute; repeat constructor; discriminate|]. split; [|repeat split; vm_compute; reflexivity].
  apply (draw_miss _ _ _ ([0xff; 0xbd] ++ repeat 0xff 30)); [reflexivity|vm_compute; discriminate|].
  apply (draw_hit _ 256 32 ([0x00; 0x42] ++ repeat 0 29 ++ [1]) [7; 7]); [reflexivity|vm_compute; reflexivity].
Qed.
(** P-521: the upper seven bits of the first byte do not count *)
Example C70_p521_example : bits_of (c_N P521) 521 /\ bytes_for 521 66 /\
  scalar 521 66 (0xfe :: 0x42 :: repeat 0 63 ++ [9]) = 9 /\ scalar 521 66 (0x00 :: 0x42 :: repeat 0 63 ++ [9]) = 9.
Proof. vm_compute. repeat split; discriminate. Qed.
Example C70_other_example :
  (exists s p, GenerateKeyPair toy_sbm toy_ed toy_fe PK_EDDSA (Some 25) two_tries = Val (Keys s p) /\ Public s = Val p) /\
  (exists s p, GenerateKeyPair toy_sbm toy_ed toy_fe PK_ETHECDSA None two_tries = Val (Keys s p) /\ Public s <> Val p).
Proof. split; eexists; eexists; (split; [vm_compute; reflexivity|]); [vm_compute; reflexivity|discriminate]. Qed.
