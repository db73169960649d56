(** * Prop_WIF: properties C25 to C27 (/repo/keypair/wif.go, key.go:423-443) *)
From Coq Require Import ZArith String List Bool Lia.
From Verif Require Import Base BaseFacts Curves ECKey Keypair Spec_EC ECFacts ECFacts2 Spec_Keys KeyFacts Prop_Keys Spec_SHA2 Spec_WIF.
Import ListNotations.
Open Scope Z_scope.

(** ** Base58 *)
Lemma digit_from : forall alpha i c d, b58_digit_from i alpha c = Some d ->
  exists k, d = i + Z.of_nat k /\ nth_error alpha k = Some c.
Proof.
  induction alpha as [|a alpha IH]; intros i c d H; [discriminate|]. cbn [b58_digit_from] in H.
  destruct (Z.eqb_spec a c) as [->|].
  - injection H as <-. exists 0%nat. split; [lia|reflexivity].
  - destruct (IH _ _ _ H) as (k & -> & N). exists (S k). split; [lia|exact N].
Qed.
Lemma b58_alphabet_eq : b58_alphabet = base58_chars.
Proof. reflexivity. Qed.
Lemma digit_sound : forall c d, b58_digit c = Some d -> exists k, d = Z.of_nat k /\ nth_error base58_chars k = Some c.
Proof. intros c d H. apply digit_from in H. rewrite b58_alphabet_eq in H. destruct H as (k & -> & N). exists k. split; [lia|exact N]. Qed.
Lemma nth_error_lt : forall A (l : list A) k c, nth_error l k = Some c -> (k < length l)%nat.
Proof. intros. apply nth_error_Some. congruence. Qed.
Lemma digit_complete : forall c k, nth_error base58_chars k = Some c -> b58_digit c = Some (Z.of_nat k).
Proof.
  intros c k H. pose proof (nth_error_lt _ _ _ _ H) as L. cbn [base58_chars length] in L.
  do 58 (destruct k as [|k]; [cbn in H; injection H as <-; reflexivity|]). lia.
Qed.

Lemma b58_value_app : forall a acc b, b58_value acc (a ++ b) =
  match b58_value acc a with Ok v => b58_value v b | Err e => Err e end.
Proof.
  induction a as [|x a IH]; intros acc b; [reflexivity|]. cbn [b58_value app].
  destruct (b58_digit x); [apply IH|reflexivity].
Qed.
Lemma numeral_value : forall t n, numeral58 t n -> b58_value 0 t = Ok n.
Proof.
  intros t n H. induction H as [c d H|t n c d H IH Hd].
  - cbn [b58_value]. rewrite (digit_complete _ _ H). f_equal.
  - rewrite b58_value_app, IH. cbn [b58_value]. rewrite (digit_complete _ _ Hd). f_equal. ring.
Qed.
Lemma value_numeral : forall t n, t <> [] -> b58_value 0 t = Ok n -> numeral58 t n.
Proof.
  intros t. induction t as [|c t IH] using rev_ind; intros n N H; [congruence|].
  rewrite b58_value_app in H. destruct (b58_value 0 t) as [v|] eqn:E; [|discriminate].
  cbn [b58_value] in H. destruct (b58_digit c) as [d|] eqn:D; [|discriminate]. injection H as <-.
  apply digit_sound in D. destruct D as (k & -> & D).
  destruct t as [|c0 t].
  - cbn in E. injection E as <-. cbn [app]. replace (0 * 58 + Z.of_nat k) with (Z.of_nat k) by lia.
    constructor. exact D.
  - replace (v * 58 + Z.of_nat k) with (58 * v + Z.of_nat k) by lia. constructor; [|exact D].
    apply IH; [discriminate|reflexivity].
Qed.
Lemma numeral_nonempty : forall t n, numeral58 t n -> t <> [].
Proof. intros t n H. destruct H; [discriminate|]. intros E. apply app_eq_nil in E as [_ E]. discriminate. Qed.
Lemma numeral_nonneg : forall t n, numeral58 t n -> 0 <= n.
Proof. intros t n H. induction H; lia. Qed.
Lemma numeral_fun : forall t n m, numeral58 t n -> numeral58 t m -> n = m.
Proof. intros t n m A B. apply numeral_value in A, B. congruence. Qed.
Lemma decode_numeral : forall t n, numeral58 t n -> b58_decode t = Ok (Some n).
Proof.
  intros t n H. pose proof (numeral_nonempty _ _ H) as N. pose proof (numeral_value _ _ H) as V.
  unfold b58_decode. rewrite V. destruct t; [congruence|reflexivity].
Qed.
Lemma decode_cases : forall t, (exists n, numeral58 t n /\ b58_decode t = Ok (Some n)) \/
  (b58_decode t = Ok None /\ t = []) \/ (exists e, b58_decode t = Err e /\ forall n, ~ numeral58 t n).
Proof.
  intros t. destruct t as [|c t]; [right; left; split; reflexivity|].
  destruct (b58_value 0 (c :: t)) as [v|e] eqn:E.
  - left. exists v. assert (N : numeral58 (c :: t) v) by (apply value_numeral; [discriminate|exact E]).
    split; [exact N|apply decode_numeral; exact N].
  - right; right. exists e. split.
    + unfold b58_decode. rewrite E. reflexivity.
    + intros n N. apply numeral_value in N. congruence.
Qed.

Lemma digits_value : forall f n acc, 0 <= n < 58 ^ Z.of_nat f ->
  exists t, b58_digits f n acc = t ++ acc /\ b58_value 0 t = Ok n /\
    (n = 0 -> t = []) /\ (0 < n -> exists c t', t = c :: t' /\ c <> 49).
Proof.
  induction f as [|f IH]; intros n acc Hn.
  - exists []. cbn in *. split; [reflexivity|]. split; [f_equal; lia|]. split; [reflexivity|lia].
  - cbn [b58_digits]. destruct (Z.eqb_spec n 0) as [->|N].
    { exists []. split; [reflexivity|]. split; [reflexivity|]. split; [reflexivity|lia]. }
    pose proof (Z.mod_pos_bound n 58 ltac:(lia)) as M. pose proof (Z.div_mod n 58 ltac:(lia)) as DM.
    assert (Hc : nth_error base58_chars (Z.to_nat (n mod 58)) = Some (nth (Z.to_nat (n mod 58)) b58_alphabet 0)).
    { rewrite b58_alphabet_eq. apply nth_error_nth'. cbn [base58_chars length]. lia. }
    set (c := nth (Z.to_nat (n mod 58)) b58_alphabet 0) in *.
    destruct (IH (n / 58) (c :: acc)) as (t & E & V & Z0 & NZ).
    { rewrite Nat2Z.inj_succ, Z.pow_succ_r in Hn by lia. lia. }
    exists (t ++ [c]). split; [rewrite E, <- app_assoc; reflexivity|].
    split.
    { rewrite b58_value_app, V. cbn [b58_value]. rewrite (digit_complete _ _ Hc). f_equal. lia. }
    split; [intros; lia|]. intros _.
    destruct (Z.eq_dec (n / 58) 0) as [Q|Q].
    + rewrite (Z0 Q). exists c, []. split; [reflexivity|]. intros ->.
      apply digit_complete in Hc. cbn in Hc. injection Hc as Hc. rewrite Z2Nat.id in Hc by lia. lia.
    + destruct NZ as (c' & t' & -> & NZ). { lia. } exists c', (t' ++ [c]). split; [reflexivity|exact NZ].
Qed.
Lemma encode_numeral : forall n, 0 <= n -> numeral58 (b58_encode n) n /\ canonical58 (b58_encode n).
Proof.
  intros n Hn. unfold b58_encode. destruct (Z.eqb_spec n 0) as [->|N].
  - split; [apply (num_one 49 0%nat); reflexivity|left; reflexivity].
  - assert (B : 0 <= n < 58 ^ Z.of_nat (S (Z.to_nat (Z.log2 n)))).
    { split; [exact Hn|]. rewrite Nat2Z.inj_succ, Z2Nat.id by apply Z.log2_nonneg.
      pose proof (Z.log2_spec n ltac:(lia)) as [_ L].
      eapply Z.lt_le_trans; [exact L|]. apply Z.pow_le_mono_l. lia. }
    destruct (digits_value _ n [] B) as (t & E & V & _ & NZ). rewrite app_nil_r in E. rewrite E.
    destruct NZ as (c & t' & -> & NZ); [lia|]. split.
    + apply value_numeral; [discriminate|exact V].
    + right. exists c, t'. split; [reflexivity|exact NZ].
Qed.

(** ** Payload bytes *)
Lemma big_bytes_of_be2z : forall b l, 0 < b < 256 -> octets l -> big_bytes (be2z (b :: l)) = b :: l.
Proof.
  intros b l Hb Hl. set (z := be2z (b :: l)).
  assert (W : wf_bytes (b :: l)) by (constructor; [unfold is_byte; lia|exact Hl]).
  assert (Hz : be2z (b :: l) = b * 256 ^ zlen l + be2z l) by apply be2z_cons.
  pose proof (be2z_bound l Hl) as Bl. pose proof (zlen_nonneg _ l) as L0.
  assert (P : 0 < 256 ^ zlen l) by (apply Z.pow_pos_nonneg; lia).
  assert (Lo : 256 ^ zlen l <= z) by (unfold z; nia).
  assert (Hi : z < 256 ^ (zlen l + 1)) by (unfold z; rewrite Z.pow_add_r, Z.pow_1_r by lia; nia).
  assert (BL : byte_len z = zlen l + 1).
  { pose proof (byte_len_min z (zlen l + 1) ltac:(lia) ltac:(lia) Hi).
    pose proof (byte_len_bound z ltac:(lia)) as B. destruct (Z_lt_le_dec (byte_len z) (zlen l + 1)); [|lia].
    exfalso. assert (256 ^ byte_len z <= 256 ^ zlen l) by (apply Z.pow_le_mono_r; lia). lia. }
  apply be2z_inj; auto.
  - apply big_bytes_wf.
  - apply Nat2Z.inj. change (Z.of_nat (length (big_bytes z))) with (zlen (big_bytes z)).
    rewrite zlen_big_bytes, BL. unfold zlen. cbn [length]. lia.
  - apply be2z_big_bytes. lia.
Qed.

Lemma app_inj_pre : forall (a b c d : list Z), length a = length c -> a ++ b = c ++ d -> a = c /\ b = d.
Proof.
  induction a as [|x a IH]; intros b [|y c] d L E; try discriminate; [auto|].
  cbn in L, E. injection E as -> E. destruct (IH b c d) as [-> ->]; auto.
Qed.

Section WIF.
Variable sbm : curve -> bytes -> Z * Z.
Variable sha256 : bytes -> bytes.
Hypothesis sha_len : forall x, length (sha256 x) = 32%nat.
Hypothesis sha_oct : forall x, octets (sha256 x).

Definition p256_key (kb : bytes) : privkey :=
  SkEC 0 (value kb 0) {| pk_curve := P256; pk_X := fst (sbm P256 kb); pk_Y := snd (sbm P256 kb) |}.

Lemma slice_sum : forall x, slice (sha256 x) 0 4 = Val (firstn 4 (sha256 x)).
Proof. intros x. rewrite slice_ok; [reflexivity|lia|lia|]. unfold zlen. rewrite sha_len. lia. Qed.

(** what both importers do on payload bytes *)
Lemma import_tail : forall buf n, big_bytes n = buf -> 6 <= zlen buf ->
  exists v kb f cs, buf = (v :: kb ++ [f]) ++ cs /\ length cs = 4%nat /\ zlen kb = zlen buf - 6 /\
    slice buf 0 (zlen buf - 4) = Val (v :: kb ++ [f]) /\
    slice buf (zlen buf - 4) (zlen buf) = Val cs /\
    slice buf 1 (zlen buf - 4 - 1) = Val kb.
Proof.
  intros buf n _ L.
  destruct buf as [|v r]; [unfold zlen in L; cbn in L; lia|].
  assert (Lr : zlen (v :: r) = zlen r + 1) by (unfold zlen; cbn [length]; lia).
  set (kb := firstn (Z.to_nat (zlen r - 5)) r). set (r1 := skipn (Z.to_nat (zlen r - 5)) r).
  assert (Er : r = kb ++ r1) by (symmetry; apply firstn_skipn).
  assert (Lk : zlen kb = zlen r - 5) by (unfold kb, zlen in *; rewrite firstn_length; lia).
  assert (L1 : length r1 = 5%nat) by (unfold r1, zlen in *; rewrite skipn_length; lia).
  destruct r1 as [|f cs]; [discriminate|]. injection L1 as L1.
  exists v, kb, f, cs. rewrite Er.
  assert (E : v :: kb ++ f :: cs = (v :: kb ++ [f]) ++ cs) by (cbn [app]; rewrite <- app_assoc; reflexivity).
  assert (Lb : zlen (v :: kb ++ f :: cs) = zlen kb + 6) by (unfold zlen; cbn [length]; rewrite app_length; cbn [length]; lia).
  assert (Lh : zlen (v :: kb ++ [f]) = zlen kb + 2) by (unfold zlen; cbn [length]; rewrite app_length; cbn [length]; lia).
  assert (Lc : zlen cs = 4) by (unfold zlen; lia). pose proof (zlen_nonneg _ kb).
  split; [exact E|]. split; [exact L1|]. split; [lia|]. rewrite Lb. split; [|split].
  - rewrite E. change ((v :: kb ++ [f]) ++ cs) with ([] ++ (v :: kb ++ [f]) ++ cs).
    apply slice_app3; rewrite ?Lh, ?zlen_nil; lia.
  - rewrite E. rewrite <- (app_nil_r cs) at 1. apply slice_app3; rewrite ?Lh, ?Lc; lia.
  - change (v :: kb ++ f :: cs) with ([v] ++ kb ++ (f :: cs)). apply slice_app3; rewrite ?zlen_cons, ?zlen_nil; lia.
Qed.

(** the values of the two importers on a numeral *)
Lemma wif2key_numeral : forall w n, numeral58 w n ->
  (zlen (big_bytes n) <> 38 /\ exists e, WIF2Key sbm sha256 w = Val (Err e)) \/
  exists v kb f cs, big_bytes n = (v :: kb ++ [f]) ++ cs /\ length kb = 32%nat /\ length cs = 4%nat /\
    ((cs = firstn 4 (sha256 (sha256 (v :: kb ++ [f]))) /\ WIF2Key sbm sha256 w = Val (Ok (p256_key kb))) \/
     (cs <> firstn 4 (sha256 (sha256 (v :: kb ++ [f]))) /\ exists e, WIF2Key sbm sha256 w = Val (Err e))).
Proof.
  intros w n N. unfold WIF2Key. rewrite (decode_numeral _ _ N). cbv zeta.
  destruct (Z.eqb_spec (zlen (big_bytes n) - 4) 34) as [L|L]; cbn [negb].
  2:{ left. split; [lia|]. eexists. reflexivity. }
  right. destruct (import_tail (big_bytes n) n eq_refl ltac:(lia)) as (v & kb & f & cs & E & Lc & Lk & S1 & S2 & S3).
  exists v, kb, f, cs. split; [exact E|]. split; [unfold zlen in *; lia|]. split; [exact Lc|].
  rewrite S1. cbn [bind]. rewrite slice_sum. cbn [bind]. rewrite S2. cbn [bind].
  destruct (bytes_eqb (firstn 4 (sha256 (sha256 (v :: kb ++ [f])))) cs) eqn:B; cbn [negb].
  - left. apply bytes_eqb_eq in B. split; [auto|]. rewrite S3. cbn [bind]. unfold ConstructPrivateKey, p256_key.
    destruct (sbm P256 kb) as [x y]. rewrite value_be2z. reflexivity.
  - right. split; [|eexists; reflexivity]. intros ->. rewrite bytes_eqb_refl in B. discriminate.
Qed.

(** C26: exactly these strings are accepted *)
Theorem C26_wif_accepts_exactly : forall w k, WIF2Key sbm sha256 w = Val (Ok k) <->
  exists v kb flag, 0 < v < 256 /\ 0 <= flag < 256 /\ length kb = 32%nat /\ octets kb /\
    numeral58 w (value (wif_payload sha256 v kb flag) 0) /\ k = p256_key kb.
Proof.
  intros w k. split.
  - intros H. destruct (decode_cases w) as [(n & N & D)|[(D & _)|(e & D & _)]].
    2:{ unfold WIF2Key in H. rewrite D in H. discriminate. }
    2:{ unfold WIF2Key in H. rewrite D in H. discriminate. }
    destruct (wif2key_numeral w n N) as [(_ & e & E)|(v & kb & f & cs & E & Lk & Lc & [[Hc K]|[_ [e K]]])];
      [congruence| |congruence].
    rewrite K in H. apply val_inj in H. injection H as <-.
    assert (W : octets ((v :: kb ++ [f]) ++ cs)) by (rewrite <- E; apply big_bytes_wf).
    pose proof (numeral_nonneg _ _ N) as N0.
    assert (NZ : 0 < n).
    { destruct (Z.eq_dec n 0) as [->|]; [|lia]. cbn in E. discriminate. }
    destruct (big_bytes_nonzero_head n NZ) as (b & l & Eb & Hb). rewrite E in Eb. injection Eb as -> _.
    apply Forall_app in W as [W _]. inversion W as [|? ? _ W2]; subst.
    apply Forall_app in W2 as [W2 W3]. inversion W3 as [|? ? W4 _]; subst.
    exists b, kb, f. repeat split; auto; try lia.
    replace (value (wif_payload sha256 b kb f) 0) with n; [exact N|].
    rewrite value_be2z. unfold wif_payload. rewrite <- E. symmetry. apply be2z_big_bytes. lia.
  - intros (v & kb & f & Hv & Hf & Lk & Ok & N & ->).
    set (cs := firstn 4 (sha256 (sha256 (v :: kb ++ [f])))).
    assert (Lcs : length cs = 4%nat) by (unfold cs; rewrite firstn_length, sha_len; reflexivity).
    assert (B : big_bytes (value (wif_payload sha256 v kb f) 0) = (v :: kb ++ [f]) ++ cs).
    { rewrite value_be2z. unfold wif_payload. cbn [app]. apply big_bytes_of_be2z; [lia|].
      apply Forall_app; split; [apply Forall_app; split; [exact Ok|constructor; [lia|constructor]]|].
      apply wf_firstn, sha_oct. }
    destruct (wif2key_numeral w _ N) as [(L & _)|(v' & kb' & f' & cs' & E & Lk' & Lc' & H)].
    { exfalso. apply L. rewrite B. unfold zlen. cbn [length app]. rewrite !app_length. cbn [length]. lia. }
    rewrite B in E. cbn [app] in E. injection E as <- E. rewrite <- !app_assoc in E.
    apply app_inj_pre in E; [|lia]. destruct E as [<- E]. cbn [app] in E. injection E as <- <-.
    destruct H as [[_ H]|[H _]]; [exact H|]. exfalso. apply H. reflexivity.
Qed.

(** and the function never panics *)
Theorem C26_wif_import_total : forall w, exists r, WIF2Key sbm sha256 w = Val r.
Proof.
  intros w. destruct (decode_cases w) as [(n & N & D)|[(D & _)|(e & D & _)]].
  - destruct (wif2key_numeral w n N) as [(_ & e & E)|(v & kb & f & cs & E & Lk & Lc & [[Hc K]|[_ [e K]]])]; eauto.
  - unfold WIF2Key. rewrite D. eauto.
  - unfold WIF2Key. rewrite D. eauto.
Qed.

(** ** C25 *)
Theorem C25_wif_round_trip : forall d x y kb, 0 <= d < 256 ^ 32 -> encodes 32 d kb -> sbm P256 kb = (x, y) ->
  0 <= x < 256 ^ 32 ->
  let k := SkEC 0 d {| pk_curve := P256; pk_X := x; pk_Y := y |} in
  exists w, Key2WIF sha256 k = Val (Ok w) /\ WIF2Key sbm sha256 w = Val (Ok k) /\
    numeral58 w (value (wif_payload sha256 128 kb 1) 0) /\ canonical58 w.
Proof.
  intros d x y kb Hd Hkb Hs Hx k.
  pose proof (encodes_fun _ _ _ Hkb) as Ekb. destruct Hkb as (Lkb & Okb & Vkb).
  assert (P : padded_big_bytes d 32 = kb).
  { unfold padded_big_bytes, zeros. change (Z.to_nat 32) with 32%nat in Ekb. rewrite Ekb.
    rewrite <- (pad_big_bytes d 32 Hd). f_equal. f_equal. unfold zlen. lia. }
  assert (S : exists e, SerializePrivateKey k = Val ([18; 2] ++ kb ++ e)).
  { pose proof (encode_compressed_ok {| pk_curve := P256; pk_X := x; pk_Y := y |} 32 eq_refl Hx) as E.
    eexists. unfold k, SerializePrivateKey. cbn [pk_curve].
    change (GetCurveLabel P256) with (@Ok Z 2). cbv iota beta. rewrite E. cbn [bind].
    change (byte_size P256) with 32. rewrite P. reflexivity. }
  destruct S as [e S].
  assert (Lkb' : length kb = 32%nat) by lia.
  assert (Hw : Key2WIF sha256 k = Val (Ok (b58_encode (be2z (wif_payload sha256 128 kb 1))))).
  { unfold Key2WIF. rewrite S. cbn [bind].
    destruct (Z.ltb_spec (zlen ([18; 2] ++ kb ++ e)) 34) as [L|L].
    { exfalso. unfold zlen in L. rewrite !app_length, Lkb' in L. cbn [length] in L. lia. }
    change ([18; 2] ++ kb ++ e) with (18 :: 2 :: kb ++ e). rewrite index_cons0, index_cons1. cbn [bind].
    change (negb (18 =? PK_ECDSA)) with false. change (negb (2 =? L_P256)) with false. cbv iota.
    change (18 :: 2 :: kb ++ e) with ([18] ++ (2 :: kb) ++ e).
    rewrite (slice_app3 _ [18] (2 :: kb) e 1 34); [|reflexivity|unfold zlen; cbn [length]; lia].
    cbn [bind set_nth]. rewrite slice_sum. cbn [bind]. reflexivity. }
  eexists. split; [exact Hw|].
  assert (Ho : octets (wif_payload sha256 128 kb 1)).
  { unfold wif_payload. apply Forall_app. split; [|apply wf_firstn, sha_oct].
    constructor; [lia|]. apply Forall_app. split; [exact Okb|]. constructor; [lia|constructor]. }
  destruct (encode_numeral (be2z (wif_payload sha256 128 kb 1))) as [N C].
  { apply be2z_bound. exact Ho. }
  rewrite <- value_be2z in N at 2. split; [|split; [exact N|exact C]].
  apply C26_wif_accepts_exactly. exists 128, kb, 1. repeat split; auto; try lia.
  unfold p256_key, k. rewrite Hs, Vkb. reflexivity.
Qed.

(** Every other key is refused. *)
Theorem C25_other_keys_refused : forall k, valid_priv sbm k ->
  (forall d p, k = SkEC 0 d p -> pk_curve p <> P256) ->
  Key2WIF sha256 k = Val (Err "only ECDSA P-256 keys support WIF").
Proof.
  intros k H N. destruct H as [alg c a n db d x y Ha Hs Hn Hdr Hdb Hm Hp|b Hl Hb|db d x y Hdr Hdb Hm].
  - destruct (enc_valid c a x y n Hs Hp Hn) as (e & E & S & Zl).
    destruct (supported_label c a Hs) as [l Hl]. destruct (GetCurve_label c l Hl) as [GC GL].
    unfold Key2WIF, SerializePrivateKey. cbn [pk_curve]. rewrite GL, E. cbn [bind].
    destruct Ha as [-> | ->].
    + change (0 =? ECDSA) with true. cbv iota. cbn [app].
      destruct (zlen _ <? 34); [reflexivity|]. rewrite index_cons0, index_cons1. cbn [bind].
      change (negb (18 =? PK_ECDSA)) with false. cbv iota.
      destruct (Z.eqb_spec l L_P256) as [->|]; [|reflexivity].
      exfalso. apply (N d _ eq_refl). cbn [pk_curve]. apply (label_inj c P256 2); auto. vm_compute; intuition.
    + change (1 =? ECDSA) with false. change (1 =? SM2) with true. cbv iota. cbn [app].
      destruct (zlen _ <? 34); [reflexivity|]. rewrite index_cons0. reflexivity.
  - unfold Key2WIF, SerializePrivateKey. cbn [bind app]. destruct (zlen _ <? 34); [reflexivity|]. rewrite index_cons0. reflexivity.
  - unfold Key2WIF, SerializePrivateKey. cbn [bind]. destruct (zlen _ <? 34); [reflexivity|]. rewrite index_cons0. reflexivity.
Qed.

(** Whatever the key, exported text comes from an ECDSA key on a curve named P-256. *)
Theorem C25_exports_only_p256 : forall k w, Key2WIF sha256 k = Val (Ok w) ->
  exists d p, k = SkEC 0 d p /\ GetCurveLabel (pk_curve p) = Ok 2.
Proof.
  intros k w H. unfold Key2WIF in H. destruct (SerializePrivateKey k) as [data|s|] eqn:S; try discriminate.
  cbn [bind] in H. destruct (zlen data <? 34); [discriminate|].
  assert (D : exists r, data = 18 :: 2 :: r).
  { destruct data as [|d0 data]; [discriminate|]. rewrite index_cons0 in H. cbn [bind] in H.
    destruct (Z.eqb_spec d0 PK_ECDSA) as [->|]; [|discriminate]. cbn [negb] in H.
    destruct data as [|d1 data]; [discriminate|]. rewrite index_cons1 in H. cbn [bind] in H.
    destruct (Z.eqb_spec d1 L_P256) as [->|]; [|discriminate]. eauto. }
  destruct D as [r ->]. clear H. destruct k as [alg d p|b|d p|t]; cbn [SerializePrivateKey] in S; try discriminate.
  destruct (GetCurveLabel (pk_curve p)) as [l|] eqn:G; [|discriminate].
  destruct (EncodePublicKey p true) as [e| |]; try discriminate. cbn [bind] in S. apply val_inj in S.
  destruct (Z.eqb_spec alg ECDSA) as [->|].
  - cbn [app] in S. injection S as -> _. eauto.
  - destruct (alg =? SM2); cbn [app] in S; [discriminate|]. injection S as -> _.
    apply GetCurveLabel_range in G. intuition congruence.
Qed.

(** ** C27 *)
Theorem C27_agrees : forall w k, WIF2Key sbm sha256 w = Val (Ok k) -> GetP256KeyPairFromWIF sbm sha256 w = Val (Ok k).
Proof.
  intros w k. unfold WIF2Key, GetP256KeyPairFromWIF. destruct (b58_decode w) as [[n|]|]; try discriminate.
  cbv zeta. destruct (negb _); [discriminate|auto].
Qed.

(** exactly which inputs make it panic: payloads shorter than the checksum, and payloads of
    four or five bytes that pass the checksum test *)
Definition checksummed (payload : bytes) : Prop :=
  exists h, payload = h ++ firstn 4 (sha256 (sha256 h)).
Theorem C27_panics_exactly : forall w,
  (exists why, GetP256KeyPairFromWIF sbm sha256 w = Panic why) <->
  exists n, numeral58 w n /\ (byte_len n < 4 \/ byte_len n < 6 /\ checksummed (big_bytes n)).
Proof.
  intros w. destruct (decode_cases w) as [(n & N & D)|[(D & ->)|(e & D & Nn)]].
  - unfold GetP256KeyPairFromWIF. rewrite D. cbv zeta.
    set (buf := big_bytes n). pose proof (zlen_nonneg _ buf) as L0.
    assert (Sub : (exists m, numeral58 w m /\ (byte_len m < 4 \/ byte_len m < 6 /\ checksummed (big_bytes m))) <->
      (zlen buf < 4 \/ zlen buf < 6 /\ checksummed buf)).
    { unfold buf. rewrite zlen_big_bytes. split.
      - intros (m & M & H). rewrite (numeral_fun _ _ _ N M). exact H.
      - intros H. exists n. auto. }
    rewrite Sub. clear Sub. destruct (Z_lt_le_dec (zlen buf) 4) as [L|L].
    { split; [auto|]. intros _. unfold slice at 1. destruct (Z.leb_spec 0 (zlen buf - 4)); [lia|].
      cbn [andb bind Z.leb]. replace (0 <=? 0) with true by reflexivity. cbn. eauto. }
    set (h := firstn (Z.to_nat (zlen buf - 4)) buf). set (cs := skipn (Z.to_nat (zlen buf - 4)) buf).
    assert (Eb : buf = h ++ cs) by (symmetry; apply firstn_skipn).
    assert (Lc : zlen cs = 4) by (unfold cs, zlen in *; rewrite skipn_length; lia).
    assert (Lh : zlen h = zlen buf - 4) by (unfold h, zlen in *; rewrite firstn_length; lia).
    assert (S1 : slice buf 0 (zlen buf - 4) = Val h) by (rewrite slice_ok by lia; rewrite Z.sub_0_r; reflexivity).
    assert (S2 : slice buf (zlen buf - 4) (zlen buf) = Val cs) by (rewrite <- Lh; rewrite Eb; apply slice_tail; reflexivity).
    rewrite S1. cbn [bind]. rewrite slice_sum. cbn [bind]. rewrite S2. cbn [bind].
    assert (C : checksummed buf <-> bytes_eqb (firstn 4 (sha256 (sha256 h))) cs = true).
    { rewrite bytes_eqb_eq. split.
      - intros (h' & E). assert (Lf : length (firstn 4 (sha256 (sha256 h'))) = 4%nat) by (rewrite firstn_length, sha_len; reflexivity).
        rewrite Eb in E. apply app_inj_pre in E.
        + destruct E as [<- <-]. reflexivity.
        + apply (f_equal (@length Z)) in E. rewrite !app_length, Lf in E. unfold zlen in *; lia.
      - intros E. exists h. rewrite E. exact Eb. }
    rewrite C. destruct (bytes_eqb (firstn 4 (sha256 (sha256 h))) cs); cbn [negb].
    + destruct (Z_lt_le_dec (zlen buf) 6) as [L6|L6].
      * split; [auto|]. intros _. unfold slice. destruct (Z.leb_spec 1 (zlen buf - 4 - 1)); [lia|].
        cbn. eauto.
      * split; [|intros; lia]. intros [why H]. rewrite slice_ok in H by lia. cbn [bind] in H.
        unfold ConstructPrivateKey in H. destruct (sbm P256 _); discriminate.
    + split; [intros [why H]; discriminate|]. intros [H|[_ H]]; [lia|discriminate].
  - split; [intros [why H]; unfold GetP256KeyPairFromWIF in H; rewrite D in H; discriminate|].
    intros (n & N & _). exfalso. apply (numeral_nonempty _ _ N). reflexivity.
  - split; [intros [why H]; unfold GetP256KeyPairFromWIF in H; rewrite D in H; discriminate|].
    intros (n & N & _). exfalso. apply (Nn _ N).
Qed.
End WIF.
Print Assumptions C25_wif_round_trip.
Print Assumptions C25_other_keys_refused.
Print Assumptions C25_exports_only_p256.
Print Assumptions C26_wif_accepts_exactly.
Print Assumptions C26_wif_import_total.
Print Assumptions C27_agrees.
Print Assumptions C27_panics_exactly.

(** ** Concrete cases, with the real SHA-256: the key of wif_test.go:28-29 *)
Definition test_d : Z := 0x46358132e7d8dd2bfc65748e95dc3a36384f6c3d592c1dd578708e8da219d7d4.
Definition test_wif : bytes := str_bytes "KyaBriGFNXzaWf8Y7S1HxaCr1EhhFypdZYPdLJuFPqqW2d9cEtHw".
Example C25_test_vector : forall sbm,
  WIF2Key sbm SHA256 test_wif = Val (Ok (p256_key sbm (to_be 32 test_d))) /\
  (forall y, Key2WIF SHA256 (SkEC 0 test_d {| pk_curve := P256; pk_X := 12; pk_Y := y |}) = Val (Ok test_wif)).
Proof.
  intros sbm. split; [|intros y].
  - apply (C26_wif_accepts_exactly sbm SHA256 SHA256_length SHA256_octets).
    exists 128, (to_be 32 test_d), 1. split; [lia|]. split; [lia|]. split; [reflexivity|].
    split; [apply to_be_wf|]. split; [|reflexivity].
    apply value_numeral; [discriminate|]. vm_compute. reflexivity.
  - pose proof (encode_compressed_ok {| pk_curve := P256; pk_X := 12; pk_Y := y |} 32 eq_refl ltac:(split; [discriminate|reflexivity])) as E.
    unfold Key2WIF, SerializePrivateKey. cbn [pk_curve]. change (GetCurveLabel P256) with (@Ok Z 2). cbv iota beta. rewrite E.
    destruct (Z.testbit y 0); vm_compute; reflexivity.
Qed.
(** the same text with another version byte or flag is accepted as well: payload 1 || d || 0 *)
Example C26_other_version : forall sbm, exists w, WIF2Key sbm SHA256 w = Val (Ok (p256_key sbm (to_be 32 test_d))) /\
  numeral58 w (value (wif_payload SHA256 1 (to_be 32 test_d) 0) 0).
Proof.
  intros sbm. exists (b58_encode (value (wif_payload SHA256 1 (to_be 32 test_d) 0) 0)).
  assert (N : numeral58 (b58_encode (value (wif_payload SHA256 1 (to_be 32 test_d) 0) 0)) (value (wif_payload SHA256 1 (to_be 32 test_d) 0) 0)).
  { apply encode_numeral. vm_compute. discriminate. }
  split; [|exact N]. apply (C26_wif_accepts_exactly sbm SHA256 SHA256_length SHA256_octets).
  exists 1, (to_be 32 test_d), 0. repeat split; try lia; try apply to_be_wf; auto.
Qed.
(** "1" has the empty payload *)
Example C27_panic_witness : forall sbm, (exists why, GetP256KeyPairFromWIF sbm SHA256 (str_bytes "1") = Panic why) /\
  exists e, WIF2Key sbm SHA256 (str_bytes "1") = Val (Err e).
Proof. intros sbm. split; eexists; vm_compute; reflexivity. Qed.
