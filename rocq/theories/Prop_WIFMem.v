(** * Prop_WIFMem: C81, the copies of the key that the WIF functions overwrite and those they leave *)
From Coq Require Import ZArith String List Bool Lia.
From Verif Require Import Base BaseFacts Curves ECKey Keypair Spec_EC ECFacts Spec_WIF Spec_SHA2 Spec_WIFMem Mem Prop_Mem WIFMem WIFMemFacts Prop_Keys Prop_WIF.
Import ListNotations.
Open Scope Z_scope.

(** ** Decimal texts *)
Lemma dec_value_app : forall a acc b, dec_value acc (a ++ b) = match dec_value acc a with Some v => dec_value v b | None => None end.
Proof.
  induction a as [|x a IH]; intros acc b; [reflexivity|]. cbn [dec_value app]. destruct (_ && _); [apply IH|reflexivity].
Qed.
Lemma decimal_value : forall t n, decimal t n -> t <> [] /\ dec_value 0 t = Some n.
Proof.
  intros t n H. induction H as [d R|t n d H [N IH] R].
  - split; [discriminate|]. cbn [dec_value]. destruct (Z.leb_spec 48 (48 + d)), (Z.leb_spec (48 + d) 57); try lia. cbn [andb]. f_equal. ring.
  - split; [intros E; apply app_eq_nil in E as [_ E]; discriminate|]. rewrite dec_value_app, IH. cbn [dec_value].
    destruct (Z.leb_spec 48 (48 + d)), (Z.leb_spec (48 + d) 57); try lia. cbn [andb]. f_equal. ring.
Qed.
Lemma value_decimal : forall t n, t <> [] -> dec_value 0 t = Some n -> decimal t n.
Proof.
  intros t. induction t as [|c t IH] using rev_ind; intros n N H; [congruence|].
  rewrite dec_value_app in H. destruct (dec_value 0 t) as [v|] eqn:E; [|discriminate]. cbn [dec_value] in H.
  destruct (Z.leb_spec 48 c), (Z.leb_spec c 57); cbn [andb] in H; try discriminate. injection H as <-.
  replace c with (48 + (c - 48)) at 1 by ring. destruct t as [|c0 t].
  - cbn in E. injection E as <-. cbn [app]. replace (0 * 10 + (c - 48)) with (c - 48) by ring. constructor. lia.
  - replace (v * 10 + (c - 48)) with (10 * v + (c - 48)) by ring. constructor; [apply IH; [discriminate|reflexivity]|lia].
Qed.
Lemma dec_digits_value : forall f n acc, 0 <= n < 10 ^ Z.of_nat f -> exists t, dec_digits f n acc = t ++ acc /\ dec_value 0 t = Some n /\ (0 < n -> t <> []).
Proof.
  induction f as [|f IH]; intros n acc R.
  - change (10 ^ Z.of_nat 0) with 1 in R. exists []. cbn. replace n with 0 by lia. split; [reflexivity|]. split; [reflexivity|lia].
  - cbn [dec_digits]. destruct (Z.eqb_spec n 0) as [->|NZ]; [exists []; split; [reflexivity|]; split; [reflexivity|lia]|].
    rewrite Nat2Z.inj_succ, Z.pow_succ_r in R by lia.
    pose proof (Z.mod_pos_bound n 10 ltac:(lia)) as M. pose proof (Z.div_mod n 10 ltac:(lia)) as D.
    assert (RD : 0 <= n / 10 < 10 ^ Z.of_nat f) by lia.
    destruct (IH (n / 10) (48 + n mod 10 :: acc) RD) as (t & E & V & _). exists (t ++ [48 + n mod 10]). split; [rewrite E, <- app_assoc; reflexivity|].
    split; [|intros _ E2; apply app_eq_nil in E2 as [_ E2]; discriminate]. rewrite dec_value_app, V. cbn [dec_value].
    destruct (Z.leb_spec 48 (48 + n mod 10)), (Z.leb_spec (48 + n mod 10) 57); try lia. cbn [andb]. f_equal. lia.
Qed.
Lemma dec_text_ok : forall n, 0 <= n -> decimal (dec_text n) n.
Proof.
  intros n H. unfold dec_text. destruct (Z.eqb_spec n 0) as [->|NZ]; [apply (dec_one 0); lia|].
  assert (R : 0 <= n < 10 ^ Z.of_nat (S (Z.to_nat (Z.log2 n)))).
  { split; [exact H|]. rewrite Nat2Z.inj_succ, Z2Nat.id by apply Z.log2_nonneg. pose proof (Z.log2_spec n ltac:(lia)) as [_ L].
    eapply Z.lt_le_trans; [exact L|]. apply Z.pow_le_mono_l. lia. }
  destruct (dec_digits_value _ n [] R) as (t & E & V & N). rewrite E, app_nil_r. apply value_decimal; [apply N; lia|exact V].
Qed.
Lemma lead_value : forall w t, dec_value 0 (b58_lead w ++ t) = dec_value 0 t.
Proof.
  induction w as [|c w IH]; intros t; [reflexivity|]. cbn [b58_lead]. destruct w as [|c2 w]; [reflexivity|].
  destruct (c =? _); [|reflexivity]. cbn [app dec_value]. apply IH.
Qed.
(** the text that Decode returns for a numeral is a decimal numeral of the same number *)
Lemma b58_text_ok : forall w n, numeral58 w n -> exists t, b58_text w = Ok t /\ decimal t n /\ setString t = Some n.
Proof.
  intros w n H. pose proof (numeral_value _ _ H) as V. pose proof (numeral_nonempty _ _ H) as N.
  exists (b58_lead w ++ dec_text n). pose proof (decimal_value _ _ (dec_text_ok n (numeral_nonneg _ _ H))) as [TN TV].
  assert (NE : b58_lead w ++ dec_text n <> []) by (intros E; apply app_eq_nil in E as [_ E]; contradiction).
  assert (VV : dec_value 0 (b58_lead w ++ dec_text n) = Some n) by (rewrite lead_value; exact TV).
  split; [unfold b58_text; destruct w; [congruence|]; rewrite V; reflexivity|].
  split; [apply value_decimal; assumption|]. unfold setString. destruct (b58_lead w ++ dec_text n); [congruence|exact VV].
Qed.

Lemma lead_ones : forall w, w <> [] -> exists k, ones w k /\ b58_lead w = repeat 48 k.
Proof.
  induction w as [|c w IH]; intros N; [congruence|]. cbn [b58_lead]. destruct w as [|c2 w].
  - exists 0%nat. split; [|reflexivity]. split; [cbn; lia|]. split; [intros i I; lia|left; reflexivity].
  - change (nth 0 b58_alphabet 0) with 49. destruct (Z.eqb_spec c 49) as [->|NC].
    + destruct (IH ltac:(discriminate)) as (k & (L & A & B) & E). exists (S k). split; [|rewrite E; reflexivity]. split; [cbn [length] in *; lia|].
      split; [intros [|i] I; [reflexivity|exact (A i ltac:(lia))]|]. destruct B as [B|B]; [left; cbn [length] in *; lia|right; exact B].
    + exists 0%nat. split; [|reflexivity]. split; [cbn; lia|]. split; [intros i I; lia|right; exact NC].
Qed.
Lemma dec_digits_head : forall f n acc, 0 < n < 10 ^ Z.of_nat f -> exists c t, dec_digits f n acc = c :: t /\ c <> 48.
Proof.
  induction f as [|f IH]; intros n acc R; [change (10 ^ Z.of_nat 0) with 1 in R; lia|].
  cbn [dec_digits]. destruct (Z.eqb_spec n 0) as [E|NZ]; [lia|]. rewrite Nat2Z.inj_succ, Z.pow_succ_r in R by lia.
  pose proof (Z.mod_pos_bound n 10 ltac:(lia)) as M. pose proof (Z.div_mod n 10 ltac:(lia)) as D.
  destruct (Z.eqb_spec (n / 10) 0) as [E|E]; [|apply IH; lia].
  rewrite E. exists (48 + n mod 10), acc. split; [destruct f; reflexivity|lia].
Qed.
Lemma dec_text_shortest : forall n, 0 <= n -> shortest (dec_text n).
Proof.
  intros n H. unfold dec_text. destruct (Z.eqb_spec n 0) as [->|NZ]; [left; reflexivity|]. right.
  destruct (dec_digits_head (S (Z.to_nat (Z.log2 n))) n []) as (c & t & E & NC); [|rewrite E; split; [discriminate|exact NC]].
  split; [lia|]. rewrite Nat2Z.inj_succ, Z2Nat.id by apply Z.log2_nonneg. pose proof (Z.log2_spec n ltac:(lia)) as [_ L].
  eapply Z.lt_le_trans; [exact L|]. apply Z.pow_le_mono_l. lia.
Qed.

(** ** Stores into one array *)
Definition splice (a : bytes) (p : nat) (bs : bytes) : bytes := firstn p a ++ bs ++ skipn (p + length bs) a.
Lemma splice_len : forall a p bs, (p + length bs <= length a)%nat -> length (splice a p bs) = length a.
Proof. intros a p bs H. unfold splice. rewrite !app_length, firstn_length, skipn_length. lia. Qed.
Lemma splice_skip : forall a p bs n, (p + length bs <= n)%nat -> (n <= length a)%nat -> skipn n (splice a p bs) = skipn n a.
Proof.
  intros a p bs n H H2. unfold splice. rewrite app_assoc, skipn_app.
  rewrite skipn_all2 by (rewrite app_length, firstn_length; lia). cbn [app]. rewrite app_length, firstn_length, Nat.min_l by lia.
  rewrite skipn_skipn_add. f_equal. lia.
Qed.
Lemma octets_firstn : forall n l, octets l -> octets (firstn n l).
Proof. intros n l H. rewrite <- (firstn_skipn n l) in H. apply Forall_app in H. exact (proj1 H). Qed.
Lemma octets_skipn : forall n l, octets l -> octets (skipn n l).
Proof. intros n l H. rewrite <- (firstn_skipn n l) in H. apply Forall_app in H. exact (proj2 H). Qed.
Lemma splice_wf : forall a p bs, octets a -> octets bs -> octets (splice a p bs).
Proof.
  intros a p bs A B. unfold splice. apply Forall_app. split; [apply octets_firstn; exact A|]. apply Forall_app. split; [exact B|apply octets_skipn; exact A].
Qed.
Lemma store_set : forall (hp : heap) i a p bs, (i < length hp)%nat -> store (@set_nth bytes i a hp) i p bs = @set_nth bytes i (splice a p bs) hp.
Proof. intros hp i a p bs H. unfold store, array. rewrite nth_set_same by exact H. rewrite set_set. reflexivity. Qed.
Lemma store_set0 : forall (hp : heap) i p bs, store hp i p bs = @set_nth bytes i (splice (array hp i) p bs) hp.
Proof. reflexivity. Qed.

Lemma append_fits : forall slack hp s bs hp' s', fits hp s -> append slack hp s bs = (hp', s') -> fits hp' s'.
Proof.
  intros slack hp s bs hp' s' F E. pose proof (append_fits_other _ _ _ _ _ _ s F F E) as (G1 & G2 & G3). unfold append in E.
  destruct (Nat.leb_spec (s_len s + length bs) (s_cap s)) as [Y|Y]; injection E as <- <-; unfold fits; cbn [s_arr s_off s_len s_cap].
  - split; [exact G1|]. split; [exact Y|exact G3].
  - rewrite app_length, nth_last, !app_length, view_length, repeat_length by exact F. cbn [length]. lia.
Qed.

Section WIF.
Variable sbm : curve -> bytes -> Z * Z.
Variable sha256 : bytes -> bytes.
Hypothesis sha_octets : forall m, octets (sha256 m).
Notation Key2WIFM := (Key2WIFM sha256). Notation WIF2KeyM := (WIF2KeyM sbm sha256).
Notation GetP256KeyPairFromWIFM := (GetP256KeyPairFromWIFM sbm sha256).

(** *** Key2WIF *)
Lemma index_in : forall (l : bytes) i, 0 <= i < zlen l -> index l i = Val (nth (Z.to_nat i) l 0).
Proof.
  intros l i H. unfold index. destruct (Z.leb_spec 0 i), (Z.ltb_spec i (zlen l)); try lia. cbn [andb].
  rewrite (nth_error_nth' l 0) by (unfold zlen in *; lia). reflexivity.
Qed.
(** the same result as without the heap: no write disturbs what is read later *)
Theorem C81_key2wif_value : forall pol s1 s2 hp key, snd (Key2WIFM pol s1 s2 hp key) = Key2WIF sha256 key.
Proof.
  intros pol s1 s2 hp key. unfold WIFMem.Key2WIFM, Key2WIF. destruct (SerializePrivateKeyM pol hp key) as [h1 r] eqn:E.
  destruct (serialize_ok _ _ _ _ _ E) as (F & L & S). destruct r as [data|w|]; [|rewrite S; reflexivity|rewrite S; reflexivity].
  destruct S as (v & S & I & _). rewrite S. cbn [bind]. rewrite (binv_len _ _ _ _ I), (binv_view _ _ _ _ I).
  destruct (Nat.ltb_spec (length v) 34) as [X|X].
  { destruct (Z.ltb_spec (zlen v) 34); [reflexivity|unfold zlen in *; lia]. }
  destruct (Z.ltb_spec (zlen v) 34); [unfold zlen in *; lia|].
  rewrite !index_in by lia. cbn [bind]. change (Z.to_nat 0) with 0%nat. change (Z.to_nat 1) with 1%nat.
  destruct (negb (nth 0 v 0 =? PK_ECDSA)); [reflexivity|]. destruct (negb (nth 1 v 0 =? L_P256)); [reflexivity|].
  assert (NV : v <> []) by (intros ->; cbn in X; lia).
  pose proof (binv_fits _ _ _ _ I NV) as FD. destruct I as [_ [[C _]|(R & O0 & LV & C & A)]]; [contradiction|].
  unfold reslice. destruct (Nat.leb_spec 34 (s_cap data)) as [XC|XC]; [|lia]. cbn [Nat.leb andb].
  set (b0 := {| s_arr := s_arr data; s_off := s_off data + 1; s_len := 34 - 1; s_cap := s_cap data - 1 |}).
  change (store h1 (s_arr b0) (s_off b0) [128]) with (store h1 (s_arr data) (s_off data + 1) [128]).
  set (h2 := store h1 (s_arr data) (s_off data + 1) [128]).
  assert (AL : length (array h1 (s_arr data)) = s_cap data) by (rewrite A, app_length, repeat_length; lia).
  assert (F2 : fits h2 b0).
  { unfold fits, b0, h2. cbn [s_arr s_off s_len s_cap]. rewrite store_len by (try (fold (array h1 (s_arr data)); cbn [length]); lia).
    unfold store. rewrite set_nth_length. split; [exact (proj2 R)|]. fold (array h1 (s_arr data)). rewrite AL. lia. }
  rewrite slice_ok by (unfold zlen in *; lia). cbn [bind]. change (Z.to_nat (34 - 1)) with 33%nat. change (Z.to_nat 1) with 1%nat.
  assert (V2 : view h2 b0 = set_nth 0 128 (firstn 33 (skipn 1 v))).
  { unfold view, h2, b0. cbn [s_arr s_off s_len]. rewrite store_set0. unfold array at 1. rewrite nth_set_same by lia.
    rewrite O0, A. unfold splice. cbn [Nat.add Nat.sub length]. destruct v as [|v0 [|v1 v]]; [cbn in X; lia|cbn in X; lia|].
    transitivity (128 :: firstn 32 (v ++ repeat 0 (s_cap data - s_len data))); [reflexivity|]. transitivity (128 :: firstn 32 v); [|reflexivity].
    f_equal. rewrite firstn_app. replace (32 - length v)%nat with 0%nat by (cbn in X; lia).
    cbn [firstn]. apply app_nil_r. }
  destruct (append s1 h2 b0 [1]) as [h3 b3] eqn:E3.
  pose proof (C59_append_value _ _ _ _ _ _ F2 E3) as V3. rewrite V3, V2.
  pose proof (append_fits _ _ _ _ _ _ F2 E3) as F3.
  destruct (slice (sha256 (sha256 (set_nth 0 128 (firstn 33 (skipn 1 v)) ++ [1]))) 0 4) as [s4|w|]; [|reflexivity|reflexivity].
  cbn [bind]. destruct (append s2 h3 b3 s4) as [h4 b4] eqn:E4. rewrite (C59_append_value _ _ _ _ _ _ F3 E4), V3, V2. reflexivity.
Qed.
(** on success the array that SerializePrivateKey returned is all zero, every other array is as
    SerializePrivateKey left it, and two more hold the decimal text of the payload *)
Theorem C81_key2wif_wipes : forall pol s1 s2 hp d k w hp', pk_curve k = P256 -> 0 <= pk_X k < 256 ^ 32 ->
  Key2WIFM pol s1 s2 hp (SkEC ECDSA d k) = (hp', Val (Ok w)) ->
  exists hp1 data n t, SerializePrivateKeyM pol hp (SkEC ECDSA d k) = (hp1, Val data) /\
    hp' = @set_nth bytes (s_arr data) (repeat 0 (length (array hp1 (s_arr data)))) hp1 ++ [t; t] /\
    (length hp <= s_arr data < length hp1)%nat /\ numeral58 w n /\ decimal t n.
Proof.
  intros pol s1 s2 hp d k w hp' CU XR H. unfold WIFMem.Key2WIFM in H.
  destruct (SerializePrivateKeyM pol hp (SkEC ECDSA d k)) as [h1 r] eqn:E.
  destruct (serialize_ok _ _ _ _ _ E) as (F & L & S). destruct r as [data|why|]; [|discriminate|discriminate].
  destruct S as (v & S & I & _). rewrite (binv_len _ _ _ _ I) in H.
  destruct (Nat.ltb_spec (length v) 34) as [X|X]; [discriminate|].
  destruct (negb (nth 0 _ 0 =? PK_ECDSA)); [discriminate|]. destruct (negb (nth 1 _ 0 =? L_P256)); [discriminate|].
  assert (LV39 : (67 <= length v)%nat /\ octets v).
  { cbn [SerializePrivateKey] in S. rewrite CU in S. change (GetCurveLabel P256) with (@Ok Z 2) in S. cbv iota beta in S.
    rewrite (encode_compressed_ok k 32 (f_equal byte_size CU) XR) in S. cbn [bind] in S. apply val_inj in S. subst v.
    change (byte_size P256) with 32. change (if ECDSA =? ECDSA then [PK_ECDSA] else if ECDSA =? SM2 then [PK_SM2] else []) with [18].
    unfold padded_big_bytes, zeros. split.
    - rewrite !app_length, repeat_length. cbn [length]. rewrite to_be_length. unfold zlen. lia.
    - repeat (apply Forall_app; split); [repeat constructor; lia|repeat constructor; lia|apply Forall_forall; intros z Hz; apply repeat_spec in Hz; lia|apply big_bytes_wf|].
      constructor; [destruct (Z.testbit (pk_Y k) 0); lia|apply to_be_wf]. }
  destruct LV39 as [LV39 WV].
  destruct I as [_ [[C _]|(R & O0 & LV & C & A)]]; [subst v; cbn in X; lia|].
  unfold reslice in H. destruct (Nat.leb_spec 34 (s_cap data)) as [XC|XC]; [|lia]. cbn [Nat.leb andb s_arr s_off s_len s_cap] in H.
  rewrite store_set0, O0 in H. cbn [Nat.add] in H.
  set (i := s_arr data) in *. remember (array h1 i) as a eqn:EA.
  assert (AL : length a = s_cap data) by (rewrite A, app_length, repeat_length; lia).
  assert (TA : skipn (length v) a = repeat 0 (s_cap data - s_len data)) by (rewrite A; apply skipn_past; reflexivity).
  assert (W1 : octets a) by (rewrite A; apply Forall_app; split; [exact WV|apply Forall_forall; intros z Hz; apply repeat_spec in Hz; lia]).
  set (a2 := splice a 1 [128]) in *.
  assert (L2 : length a2 = length a) by (apply splice_len; cbn [length]; lia).
  assert (T2 : skipn (length v) a2 = skipn (length v) a) by (apply splice_skip; cbn [length]; lia).
  assert (W2 : octets a2) by (apply splice_wf; [exact W1|repeat constructor; lia]).
  clearbody a2. unfold append at 1 in H. cbn [s_arr s_off s_len s_cap length] in H.
  destruct (Nat.leb_spec (34 - 1 + 1) (s_cap data - 1)) as [Y|Y]; [|lia]. rewrite store_set in H by exact (proj2 R). cbn [Nat.add Nat.sub] in H.
  set (a3 := splice a2 34 [1]) in *.
  assert (L3 : length a3 = length a) by (unfold a3; rewrite splice_len; [exact L2|cbn [length]; lia]).
  assert (T3 : skipn (length v) a3 = skipn (length v) a) by (unfold a3; rewrite splice_skip; [exact T2|cbn [length]; lia|lia]).
  assert (W3 : octets a3) by (apply splice_wf; [exact W2|repeat constructor; lia]).
  clearbody a3.
  destruct (slice (sha256 (sha256 _)) 0 4) as [s4|why|] eqn:E4; [|discriminate|discriminate].
  assert (L4 : length s4 = 4%nat).
  { unfold slice in E4. destruct (_ && _) eqn:G; [|discriminate]. apply val_inj in E4. subst s4. apply andb_prop in G as [_ G]. apply Z.leb_le in G.
    rewrite firstn_length, skipn_length. unfold zlen in G. change (Z.to_nat (4 - 0)) with 4%nat. change (Z.to_nat 0) with 0%nat. lia. }
  assert (WS : octets s4).
  { unfold slice in E4. destruct (_ && _); [|discriminate]. apply val_inj in E4. subst s4. apply octets_firstn, octets_skipn, sha_octets. }
  clear E4. unfold append in H. cbn [s_arr s_off s_len s_cap] in H. rewrite L4 in H. cbn [Nat.add] in H.
  destruct (Nat.leb_spec 38 (s_cap data - 1)) as [Y4|Y4]; [|lia]. rewrite store_set in H by exact (proj2 R).
  set (a4 := splice a3 35 s4) in *.
  assert (L5 : length a4 = length a) by (unfold a4; rewrite splice_len; [exact L3|lia]).
  assert (T4 : skipn (length v) a4 = skipn (length v) a) by (unfold a4; rewrite splice_skip; [exact T3|lia|lia]).
  assert (W4 : octets a4) by (apply splice_wf; [exact W3|exact WS]).
  clearbody a4.
  set (bi := be2z _) in H.
  assert (B0 : 0 <= bi).
  { apply be2z_bound. unfold view, array. cbn [s_arr]. rewrite nth_set_same by exact (proj2 R). apply octets_firstn, octets_skipn. exact W4. }
  rewrite (clear_eq _ data [] (firstn (length v) a4) (skipn (length v) a4)) in H.
  2:{ rewrite set_nth_length. exact (proj2 R). }
  2:{ unfold array. rewrite nth_set_same by exact (proj2 R). symmetry. apply firstn_skipn. }
  2:{ symmetry. exact O0. }
  2:{ rewrite firstn_length. lia. }
  rewrite set_set in H. cbn [app] in H. rewrite T4, TA in H. rewrite firstn_length, Nat.min_l in H by lia.
  rewrite <- repeat_app in H. replace (length v + (s_cap data - s_len data))%nat with (length a) in H by lia.
  rewrite (clear_eq _ _ [0] (repeat 0 38) (repeat 0 (length a - 39))) in H; cbn [s_arr s_off s_len].
  2:{ rewrite set_nth_length. exact (proj2 R). }
  2:{ unfold array. cbn [s_arr]. fold i. rewrite nth_set_same by exact (proj2 R). change [0] with (repeat 0 1). rewrite <- !repeat_app. f_equal. lia. }
  2:{ reflexivity. }
  2:{ reflexivity. }
  cbn [s_arr] in H. fold i in H. rewrite set_set in H.
  replace ([0] ++ repeat 0 (length (repeat 0 38)) ++ repeat 0 (length a - 39)) with (repeat 0 (length a)) in H.
  2:{ rewrite repeat_length. change [0] with (repeat 0 1). rewrite <- !repeat_app. f_equal. lia. }
  destruct (alloc _ (dec_text bi)) as [h5 str] eqn:E5. rewrite (view_alloc _ _ _ _ E5) in H.
  destruct (alloc h5 (dec_text bi)) as [h6 src] eqn:E6. injection H as <- <-.
  unfold alloc in E5, E6. injection E5 as <- <-. injection E6 as <- <-.
  exists h1, data, bi, (dec_text bi). split; [reflexivity|]. split; [|split; [exact R|]].
  - rewrite <- app_assoc. fold i. rewrite <- EA. reflexivity.
  - split; [apply encode_numeral; exact B0|apply dec_text_ok; exact B0].
Qed.
(** a key that is refused is serialized first, and nothing of that is overwritten *)
Theorem C81_refused_key : forall pol s1 s2 hp key hp' e, Key2WIFM pol s1 s2 hp key = (hp', Val (Err e)) ->
  exists data v, SerializePrivateKeyM pol hp key = (hp', Val data) /\ SerializePrivateKey key = Val v /\ view hp' data = v.
Proof.
  intros pol s1 s2 hp key hp' e H. unfold WIFMem.Key2WIFM in H. destruct (SerializePrivateKeyM pol hp key) as [h1 r] eqn:E.
  destruct (serialize_ok _ _ _ _ _ E) as (_ & _ & S). destruct r as [data|w|]; [|discriminate|discriminate].
  destruct S as (v & S & I & _). exists data, v. pose proof (binv_view _ _ _ _ I) as V.
  destruct (_ <? _)%nat; [injection H as <- <-; auto|]. destruct (negb _); [injection H as <- <-; auto|].
  destruct (negb _); [injection H as <- <-; auto|]. exfalso. destruct (reslice data 1 34) as [buf| |]; [|discriminate|discriminate].
  destruct (append _ _ _ _) as [h3 b3]. destruct (slice _ _ _) as [s4| |]; [|discriminate|discriminate].
  destruct (append _ _ _ _) as [h4 b4]. destruct (alloc _ _) as [h5 t5]. destruct (alloc _ _) as [h6 t6]. discriminate.
Qed.
Lemma big_array_value : forall d, 0 <= d -> value (big_array d) 0 = d.
Proof.
  intros d H. rewrite value_be2z. unfold big_array. set (n := ((8 - length (big_bytes d) mod 8) mod 8)%nat). clearbody n.
  induction n as [|n IH]; cbn [repeat app]; [apply be2z_big_bytes; exact H|]. rewrite be2z_cons, IH. ring.
Qed.
(** whatever the growth of the buffer, the array of D.Bytes() still holds the private key *)
Theorem C81_key2wif_leaves_d : forall pol s1 s2 hp d k w hp', pk_curve k = P256 -> 0 <= pk_X k < 256 ^ 32 -> 0 <= d ->
  Key2WIFM pol s1 s2 hp (SkEC ECDSA d k) = (hp', Val (Ok w)) ->
  exists j a, (length hp <= j)%nat /\ nth_error hp' j = Some a /\ value a 0 = d.
Proof.
  intros pol s1 s2 hp d k w hp' CU XR D0 H.
  destruct (C81_key2wif_wipes _ _ _ _ _ _ _ _ CU XR H) as (hp1 & data & n & t & S & -> & R & _).
  destruct (serialize_ok _ _ _ _ _ S) as (_ & _ & v & SV & I & J). destruct (J _ _ _ eq_refl) as (j & RJ & AP & AJ).
  exists j, (big_array d). split; [lia|]. split; [|apply big_array_value; exact D0].
  assert (NE : s_arr data <> j).
  { destruct AP as [->|X]; [|exact X]. exfalso. destruct I as [_ [[-> _]|(_ & _ & LV & C & _)]].
    - cbn [SerializePrivateKey] in SV. rewrite CU in SV. change (GetCurveLabel P256) with (@Ok Z 2) in SV. cbv iota beta in SV.
      destruct (EncodePublicKey k true) as [e| |]; cbn [bind] in SV; discriminate.
    - cbn in LV. symmetry in LV. apply length_zero_iff_nil in LV. subst v.
      cbn [SerializePrivateKey] in SV. rewrite CU in SV. change (GetCurveLabel P256) with (@Ok Z 2) in SV. cbv iota beta in SV.
      destruct (EncodePublicKey k true) as [e| |]; cbn [bind] in SV; discriminate. }
  rewrite nth_error_app1 by (rewrite set_nth_length; lia).
  erewrite (nth_error_nth' (A := bytes)) by (rewrite set_nth_length; lia). f_equal. rewrite nth_set_other by exact NE. exact AJ.
Qed.

(** *** bytes.Buffer as it is: the first array has 64 bytes, so 67 bytes need a second one *)
Lemma set_at : forall (hp : heap) a b l, @set_nth bytes (length hp) a (hp ++ b :: l) = hp ++ a :: l.
Proof. induction hp as [|x hp IH]; intros a b l; cbn; [reflexivity|]. f_equal. apply IH. Qed.
Lemma in_place : forall pol (hp : heap) v m l bs m', m = (length bs + m')%nat ->
  bwrite pol (@app bytes hp ((v ++ repeat 0 m) :: l)) {| s_arr := length hp; s_off := 0; s_len := length v; s_cap := length v + m |} bs =
  (@app bytes hp (((v ++ bs) ++ repeat 0 m') :: l), {| s_arr := length hp; s_off := 0; s_len := length (v ++ bs); s_cap := length (v ++ bs) + m' |}).
Proof.
  intros pol hp v m l bs m' ->. unfold bwrite, append. cbn [s_arr s_off s_len s_cap].
  destruct (Nat.leb_spec (length v + length bs) (length v + (length bs + m'))) as [_|X]; [|lia]. f_equal.
  - unfold store, array. rewrite app_nth2, Nat.sub_diag by lia. cbn [nth]. rewrite set_at. f_equal. f_equal.
    cbn [Nat.add]. rewrite firstn_app_l by reflexivity. rewrite <- app_assoc. f_equal. f_equal.
    rewrite skipn_app, skipn_all2 by lia. cbn [app]. rewrite repeat_skip. f_equal. lia.
  - rewrite app_length, Nat.add_assoc. reflexivity.
Qed.
Lemma zeros_in_place : forall pol n (hp : heap) v m l m', m = (n + m')%nat ->
  bzeros pol n (@app bytes hp ((v ++ repeat 0 m) :: l)) {| s_arr := length hp; s_off := 0; s_len := length v; s_cap := length v + m |} =
  (@app bytes hp (((v ++ repeat 0 n) ++ repeat 0 m') :: l), {| s_arr := length hp; s_off := 0; s_len := length (v ++ repeat 0 n); s_cap := length (v ++ repeat 0 n) + m' |}).
Proof.
  induction n as [|n IH]; intros hp v m l m' E; cbn [bzeros repeat].
  - rewrite app_nil_r. replace m' with m by lia. reflexivity.
  - rewrite (in_place pol hp v m l [0] (n + m')) by (cbn [length]; lia). rewrite (IH hp (v ++ [0]) (n + m')%nat l m' eq_refl).
    rewrite <- (app_assoc v [0]). reflexivity.
Qed.
Theorem C81_go_heap : forall pol s1 s2 hp d k kb w hp', pol 0%nat 0%nat 1%nat = 63%nat ->
  pk_curve k = P256 -> 0 <= pk_X k < 256 ^ 32 -> encodes 32 d kb ->
  Key2WIFM pol s1 s2 hp (SkEC ECDSA d k) = (hp', Val (Ok w)) ->
  exists n D t, hp' = hp ++ [[18; 2] ++ kb ++ repeat 0 30; D; repeat 0 (67 + n); t; t] /\ value D 0 = d.
Proof.
  intros pol s1 s2 hp d k kb w hp' P CU XR (LK & WK & VK) H.
  destruct (C81_key2wif_wipes _ _ _ _ _ _ _ _ CU XR H) as (hp1 & data & num & t & S & -> & R & _). clear H.
  cbn [SerializePrivateKeyM] in S. change (ECDSA =? ECDSA) with true in S. cbv iota in S. rewrite CU in S.
  change (GetCurveLabel P256) with (@Ok Z 2) in S. cbv iota in S.
  rewrite (bwrite_new pol (length hp) hp nil_sl [] [PK_ECDSA] (binv_nil hp)) in S by (cbn; lia).
  change (s_cap nil_sl) with 0%nat in S. change (s_len nil_sl) with 0%nat in S. change (length [PK_ECDSA]) with 1%nat in S.
  rewrite P in S. cbn [Nat.add app] in S.
  pose proof (in_place pol hp [PK_ECDSA] 63 [] [2] 62 eq_refl) as E2. change (length [PK_ECDSA]) with 1%nat in E2. cbn [Nat.add] in E2.
  change ([PK_ECDSA] ++ repeat 0 63) with (PK_ECDSA :: repeat 0 63) in E2.
  rewrite E2 in S. clear E2. unfold allocBig in S. cbn [s_len] in S. cbn [app] in S. fold (big_array d) in S.
  set (L := length (big_bytes d)) in *.
  assert (LB : (L <= 32)%nat).
  { assert (B : 0 <= d < 256 ^ 32).
    { rewrite <- VK, value_be2z. pose proof (be2z_bound kb WK) as B. unfold zlen in B. rewrite LK in B. exact B. }
    exact (big_bytes_length_le d 32 B). }
  change (byte_size P256) with 32 in S. replace (Z.to_nat (32 - Z.of_nat L)) with (32 - L)%nat in S by lia.
  rewrite <- app_assoc in S. cbn [app] in S.
  pose proof (zeros_in_place pol (32 - L) hp [PK_ECDSA; 2] 62 [big_array d] (30 + L) ltac:(lia)) as E3.
  change (length [PK_ECDSA; 2]) with 2%nat in *. change ([PK_ECDSA; 2] ++ repeat 0 62) with (PK_ECDSA :: 2 :: repeat 0 62) in E3.
  match type of S with context [bzeros ?p ?n ?h ?b] =>
    match type of E3 with _ = ?r => assert (X : bzeros p n h b = r) by exact E3; rewrite X in S; clear X E3 end end.
  set (v := [PK_ECDSA; 2] ++ repeat 0 (32 - L)) in S.
  assert (VW : forall l, view (hp ++ l :: [big_array d]) {| s_arr := length (hp ++ [PK_ECDSA :: 2 :: repeat 0 62]); s_off := (8 - L mod 8) mod 8; s_len := L; s_cap := L |} = big_bytes d).
  { intros l. unfold view, array. cbn [s_arr s_off s_len]. rewrite app_length. cbn [length]. rewrite app_nth2 by lia.
    replace (length hp + 1 - length hp)%nat with 1%nat by lia. cbn [nth]. unfold big_array. fold L. rewrite skipn_past by apply repeat_length. apply firstn_all. }
  match type of S with context [view ?h ?b] => assert (X : view h b = big_bytes d) by exact (VW _); rewrite X in S; clear X VW end.
  pose proof (in_place pol hp v (30 + L) [big_array d] (big_bytes d) 30 ltac:(fold L; lia)) as E4.
  match type of S with context [bwrite ?p ?h ?b (big_bytes d)] =>
    match type of E4 with _ = ?r => assert (X : bwrite p h b (big_bytes d) = r) by exact E4; rewrite X in S; clear X E4 end end.
  assert (KB : v ++ big_bytes d = [18; 2] ++ kb).
  { unfold v. rewrite <- app_assoc. f_equal. unfold L. rewrite pad_big_bytes.
    - symmetry. apply be2z_inj; [exact WK|apply to_be_wf|rewrite to_be_length; lia|].
      rewrite be2z_to_be_small; [rewrite <- value_be2z; exact VK|]. rewrite <- VK, value_be2z. pose proof (be2z_bound kb WK) as B. unfold zlen in B. rewrite LK in B. exact B.
    - rewrite <- VK, value_be2z. pose proof (be2z_bound kb WK) as B. unfold zlen in B. rewrite LK in B. exact B. }
  rewrite KB in S. clear KB v.
  rewrite (encode_compressed_ok k 32 (f_equal byte_size CU) XR) in S.
  set (e := (if Z.testbit (pk_Y k) 0 then 3 else 2) :: to_be 32 (pk_X k)) in S.
  assert (LE : length e = 33%nat) by (unfold e; cbn [length]; rewrite to_be_length; reflexivity). clearbody e.
  assert (LV : length ([18; 2] ++ kb) = 34%nat) by (rewrite app_length; cbn [length]; lia).
  unfold bwrite, append in S. cbn [s_len s_cap] in S. rewrite LV, LE in S. change (34 + 33 <=? 34 + 30)%nat with false in S. cbv iota in S.
  apply pair_equal_spec in S as [S S']. apply val_inj in S'. subst hp1 data. cbn [s_arr] in *.
  match goal with |- context [view ?h ?b] => assert (VV : length (view h b) = 34%nat) end.
  { unfold view, array. cbn [s_arr s_off s_len skipn]. rewrite app_nth2, Nat.sub_diag by lia. cbn [nth]. rewrite firstn_length.
    rewrite app_length, LV, repeat_length. reflexivity. }
  match goal with |- context [array (?h ++ [?x]) (length ?h)] => set (x5 := x); set (h5 := h) end.
  assert (LX : length x5 = (67 + pol 64 34 33)%nat) by (unfold x5; rewrite !app_length, VV, LE, repeat_length; cbn [Nat.add]; lia).
  assert (AX : array (h5 ++ [x5]) (length h5) = x5) by (unfold array; apply nth_last). rewrite AX.
  exists (pol 64 34 33)%nat, (big_array d), t.
  split; [|apply big_array_value; rewrite <- VK, value_be2z; apply be2z_bound; exact WK].
  assert (SX : @set_nth bytes (length h5) (repeat 0 (length x5)) (h5 ++ [x5]) = h5 ++ [repeat 0 (length x5)]) by apply set_nth_last.
  rewrite SX, LX. unfold h5. rewrite <- !app_assoc. reflexivity.
Qed.

(** *** WIF2Key and GetP256KeyPairFromWIF *)
Lemma text_phase : forall (hp : heap) t, t <> [] \/ t = [] ->
  clearBytes (fst (alloc (fst (alloc hp t)) (view (fst (alloc hp t)) (snd (alloc hp t))))) (snd (alloc hp t)) = @app bytes hp [repeat 0 (length t); t].
Proof.
  intros hp t _. rewrite (view_alloc hp _ t _ (surjective_pairing _)). unfold alloc. cbn [fst snd].
  rewrite (clear_eq _ _ [] t []); cbn [s_arr s_off s_len].
  - rewrite <- app_assoc. cbn [app]. rewrite set_at. rewrite app_nil_r. reflexivity.
  - rewrite !app_length. cbn [length]. lia.
  - unfold array. rewrite <- app_assoc, app_nth2, Nat.sub_diag by lia. cbn [app nth]. rewrite app_nil_r. reflexivity.
  - reflexivity.
  - reflexivity.
Qed.
Lemma big_phase : forall (hp : heap) z, clearBytes (fst (allocBig hp z)) (snd (allocBig hp z)) = @app bytes hp [repeat 0 (length (big_array z))].
Proof.
  intros hp z. unfold allocBig. cbn [fst snd]. unfold big_array. set (n := ((8 - length (big_bytes z) mod 8) mod 8)%nat). clearbody n.
  rewrite (clear_eq _ _ (repeat 0 n) (big_bytes z) []); cbn [s_arr s_off s_len].
  - rewrite set_nth_last. rewrite app_nil_r, <- repeat_app, app_length, repeat_length. reflexivity.
  - rewrite app_length. cbn [length]. lia.
  - unfold array. rewrite nth_last, app_nil_r. reflexivity.
  - apply repeat_length.
  - reflexivity.
Qed.
Lemma wif2key_unfold : forall hp w n t, numeral58 w n -> b58_text w = Ok t -> setString t = Some n ->
  WIF2KeyM hp w = (match WIF2Key sbm sha256 w with
    | Val (Ok _) => @app bytes hp [repeat 0 (length t); t; repeat 0 (length (big_array n))]
    | _ => @app bytes hp [repeat 0 (length t); t; big_array n] end, WIF2Key sbm sha256 w).
Proof.
  intros hp w n t Nw T V. unfold WIFMem.WIF2KeyM, WIF2Key. rewrite T, (decode_numeral w n Nw). pose proof (text_phase hp t ltac:(destruct t; auto; left; discriminate)) as TP.
  destruct (alloc hp t) as [h1 b1] eqn:E1. cbn [fst snd] in TP. rewrite (view_alloc _ _ _ _ E1) in *.
  destruct (alloc h1 t) as [h2 b2] eqn:E2. cbn [fst] in TP. rewrite (view_alloc _ _ _ _ E2), V, TP. clear TP E1 E2 h1 h2 b1 b2.
  match goal with |- context [allocBig ?h n] => pose proof (big_phase h n) as BP;
    assert (H3 : fst (allocBig h n) = @app bytes hp [repeat 0 (length t); t; big_array n]) by (unfold allocBig, big_array; cbn [fst]; rewrite <- app_assoc; reflexivity);
    destruct (allocBig h n) as [h3 b3] eqn:E3 end. cbn [fst snd] in BP, H3.
  rewrite (view_big _ _ _ _ E3). assert (L3 : s_len b3 = length (big_bytes n)) by (unfold allocBig in E3; injection E3 as _ <-; reflexivity).
  rewrite L3. fold (zlen (big_bytes n)). cbv zeta. rewrite <- app_assoc in BP. cbn [app] in BP.
  destruct (negb (zlen (big_bytes n) - 4 =? 34)); [rewrite H3; reflexivity|].
  destruct (slice (big_bytes n) 0 _) as [h| |]; cbn [bind]; try (rewrite H3; reflexivity).
  destruct (slice (sha256 _) 0 4) as [s4| |]; cbn [bind]; try (rewrite H3; reflexivity).
  destruct (slice (big_bytes n) (zlen (big_bytes n) - 4) _) as [tl| |]; cbn [bind]; try (rewrite H3; reflexivity).
  destruct (negb (bytes_eqb s4 tl)); [rewrite H3; reflexivity|].
  destruct (slice (big_bytes n) 1 _) as [kb| |]; cbn [bind]; try (rewrite H3; reflexivity).
  destruct (ConstructPrivateKey sbm kb P256) as [d k]. rewrite BP. reflexivity.
Qed.
Lemma getp256_unfold : forall hp w n t, numeral58 w n -> b58_text w = Ok t -> setString t = Some n ->
  GetP256KeyPairFromWIFM hp w = (@app bytes hp [repeat 0 (length t); t; repeat 0 (length (big_array n))], GetP256KeyPairFromWIF sbm sha256 w).
Proof.
  intros hp w n t Nw T V. unfold WIFMem.GetP256KeyPairFromWIFM, GetP256KeyPairFromWIF. rewrite T, (decode_numeral w n Nw). pose proof (text_phase hp t ltac:(destruct t; auto; left; discriminate)) as TP.
  destruct (alloc hp t) as [h1 b1] eqn:E1. cbn [fst snd] in TP. rewrite (view_alloc _ _ _ _ E1) in *.
  destruct (alloc h1 t) as [h2 b2] eqn:E2. cbn [fst] in TP. rewrite (view_alloc _ _ _ _ E2), V, TP. clear TP E1 E2 h1 h2 b1 b2.
  match goal with |- context [allocBig ?h n] => pose proof (big_phase h n) as BP; destruct (allocBig h n) as [h3 b3] eqn:E3 end. cbn [fst snd] in BP.
  rewrite (view_big _ _ _ _ E3). assert (L3 : s_len b3 = length (big_bytes n)) by (unfold allocBig in E3; injection E3 as _ <-; reflexivity).
  rewrite L3. fold (zlen (big_bytes n)). cbv zeta. rewrite <- app_assoc in BP. cbn [app] in BP. rewrite BP. reflexivity.
Qed.
Lemma not_numeral : forall w, w <> [] -> (forall n, ~ numeral58 w n) -> exists e, b58_text w = Err e /\ b58_decode w = Err e.
Proof.
  intros [|c w] N H; [congruence|]. unfold b58_text, b58_decode. destruct (b58_value 0 (c :: w)) as [v|e] eqn:E; [|eauto].
  exfalso. apply (H v). apply value_numeral; [discriminate|exact E].
Qed.
Lemma cases58 : forall w, w = [] \/ (exists n, numeral58 w n) \/ (w <> [] /\ forall n, ~ numeral58 w n).
Proof. intros w. destruct (decode_cases w) as [(n & N & _)|[(_ & ->)|(e & D & N)]]; eauto. right. right. split; [intros ->; discriminate|exact N]. Qed.
Theorem C81_wif2key_value : forall hp w, snd (WIF2KeyM hp w) = WIF2Key sbm sha256 w.
Proof.
  intros hp w. destruct (cases58 w) as [->|[(n & N)|(NE & N)]].
  - reflexivity.
  - destruct (b58_text_ok w n N) as (t & T & _ & V). rewrite (wif2key_unfold hp w n t N T V). reflexivity.
  - destruct (not_numeral w NE N) as (e & T & D). unfold WIFMem.WIF2KeyM, WIF2Key. rewrite T, D. reflexivity.
Qed.
Theorem C81_getp256_value : forall hp w, snd (GetP256KeyPairFromWIFM hp w) = GetP256KeyPairFromWIF sbm sha256 w.
Proof.
  intros hp w. destruct (cases58 w) as [->|[(n & N)|(NE & N)]].
  - reflexivity.
  - destruct (b58_text_ok w n N) as (t & T & _ & V). rewrite (getp256_unfold hp w n t N T V). reflexivity.
  - destruct (not_numeral w NE N) as (e & T & D). unfold WIFMem.GetP256KeyPairFromWIFM, GetP256KeyPairFromWIF. rewrite T, D. reflexivity.
Qed.
(** WIF2Key: the decoded text is overwritten but its copy in a string stays; the bytes of the payload
    are overwritten when the key is returned and stay when the length or the checksum is wrong *)
Theorem C81_wif2key_heap : forall hp w n, numeral58 w n -> exists t D, decimal t n /\ value D 0 = n /\
  fst (WIF2KeyM hp w) = @app bytes hp [repeat 0 (length t); t;
    match WIF2Key sbm sha256 w with Val (Ok _) => repeat 0 (length D) | _ => D end].
Proof.
  intros hp w n N. destruct (b58_text_ok w n N) as (t & T & TD & V). exists t, (big_array n). split; [exact TD|].
  split; [apply big_array_value; exact (numeral_nonneg _ _ N)|]. rewrite (wif2key_unfold hp w n t N T V). cbn [fst].
  destruct (WIF2Key sbm sha256 w) as [[k|e]| |]; reflexivity.
Qed.
(** GetP256KeyPairFromWIF: the same, but the payload is overwritten on every way out, panics included *)
Theorem C81_getp256_heap : forall hp w n, numeral58 w n -> exists t m, decimal t n /\
  fst (GetP256KeyPairFromWIFM hp w) = @app bytes hp [repeat 0 (length t); t; repeat 0 m].
Proof.
  intros hp w n N. destruct (b58_text_ok w n N) as (t & T & TD & V). exists t, (length (big_array n)). split; [exact TD|].
  rewrite (getp256_unfold hp w n t N T V). reflexivity.
Qed.
(** texts that are not numerals leave nothing *)
Theorem C81_not_base58 : forall hp w, (forall n, ~ numeral58 w n) ->
  exists h, fst (WIF2KeyM hp w) = hp ++ h /\ fst (GetP256KeyPairFromWIFM hp w) = hp ++ h /\ Forall (fun a => a = []) h.
Proof.
  intros hp w N. destruct (cases58 w) as [->|[(n & X)|(NE & _)]]; [|destruct (N n X)|].
  - exists [[]; []]. unfold WIFMem.WIF2KeyM, WIFMem.GetP256KeyPairFromWIFM. cbn [b58_text].
    pose proof (text_phase hp [] (or_intror eq_refl)) as TP. destruct (alloc hp []) as [h1 b1] eqn:E1. cbn [fst snd] in TP. rewrite (view_alloc _ _ _ _ E1) in *.
    destruct (alloc h1 []) as [h2 b2] eqn:E2. cbn [fst] in TP. rewrite (view_alloc _ _ _ _ E2), TP. cbn [setString fst repeat length]. auto.
  - destruct (not_numeral w NE N) as (e & T & D). exists []. unfold WIFMem.WIF2KeyM, WIFMem.GetP256KeyPairFromWIFM. rewrite T. cbn [fst]. rewrite app_nil_r. auto.
Qed.
(** the string that stays, character by character: a '0' for every leading '1' of the text that was decoded
    and then the shortest decimal numeral, the same for both functions *)
Theorem C81_text_exact : forall hp w n, numeral58 w n -> exists k t, ones w k /\ decimal t n /\ shortest t /\
  nth (S (length hp)) (fst (WIF2KeyM hp w)) [] = repeat 48 k ++ t /\ nth (S (length hp)) (fst (GetP256KeyPairFromWIFM hp w)) [] = repeat 48 k ++ t.
Proof.
  intros hp w n N. pose proof (numeral_nonneg _ _ N) as NN. destruct (lead_ones w (numeral_nonempty _ _ N)) as (k & O1 & EK).
  exists k, (dec_text n). split; [exact O1|]. split; [apply dec_text_ok; exact NN|]. split; [apply dec_text_shortest; exact NN|].
  destruct (b58_text_ok w n N) as (t & T & _ & V). rewrite (wif2key_unfold hp w n t N T V), (getp256_unfold hp w n t N T V). cbn [fst].
  assert (ET : t = repeat 48 k ++ dec_text n).
  { unfold b58_text in T. rewrite (numeral_value _ _ N), EK in T. destruct w; [destruct (numeral_nonempty _ _ N eq_refl)|]. injection T as <-. reflexivity. }
  rewrite <- ET. assert (AN : forall x y, nth (S (length hp)) (hp ++ [x; t; y]) [] = t).
  { intros x y. rewrite app_nth2 by lia. replace (S (length hp) - length hp)%nat with 1%nat by lia. reflexivity. }
  split; [destruct (WIF2Key sbm sha256 w) as [[kk|e]| |]; apply AN|apply AN].
Qed.
End WIF.
Print Assumptions C81_key2wif_value.
Print Assumptions C81_key2wif_wipes.
Print Assumptions C81_refused_key.
Print Assumptions C81_key2wif_leaves_d.
Print Assumptions C81_go_heap.
Print Assumptions C81_wif2key_value.
Print Assumptions C81_getp256_value.
Print Assumptions C81_wif2key_heap.
Print Assumptions C81_getp256_heap.
Print Assumptions C81_not_base58.
Print Assumptions C81_text_exact.

(** ** Concrete cases with the real SHA-256: the key of wif_test.go:28-29 *)
Definition test_key (y : Z) : privkey := SkEC 0 test_d {| pk_curve := P256; pk_X := 12; pk_Y := y |}.
(** after a successful Key2WIF on an empty heap the first array still has the key at its bytes 2 to 33 *)
Example C81_example_leak : forall y, exists a l, Key2WIFM SHA256 go_pol 0 0 [] (test_key y) = (a :: l, Val (Ok test_wif)) /\
  firstn 32 (skipn 2 a) = to_be 32 test_d.
Proof.
  intros y. pose proof (C81_key2wif_value SHA256 go_pol 0 0 [] (test_key y)) as V.
  destruct (C25_test_vector (fun _ _ => (0, 0))) as [_ T]. unfold test_key in V. rewrite (T y) in V. fold (test_key y) in V.
  destruct (Key2WIFM SHA256 go_pol 0 0 [] (test_key y)) as [hp' r] eqn:E. cbn [snd] in V. subst r.
  destruct (C81_go_heap SHA256 SHA256_octets go_pol 0 0 [] test_d {| pk_curve := P256; pk_X := 12; pk_Y := y |} (to_be 32 test_d) test_wif hp' eq_refl eq_refl) as (n & D & t & H & _).
  - cbn [pk_X]. split; [lia|reflexivity].
  - split; [reflexivity|]. split; [apply to_be_wf|]. rewrite value_be2z. apply be2z_to_be_small. split; [discriminate|reflexivity].
  - exact E.
  - rewrite H. cbn [app]. eexists _, _. split; [reflexivity|]. cbn [skipn]. apply firstn_app_l. reflexivity.
Qed.
(** the same text with the last character changed: refused, and the key stays in the array of the payload *)
Definition typo_wif : bytes := str_bytes "KyaBriGFNXzaWf8Y7S1HxaCr1EhhFypdZYPdLJuFPqqW2d9cEtHx".
Definition typo_number : Z := 0x8046358132e7d8dd2bfc65748e95dc3a36384f6c3d592c1dd578708e8da219d7d4015be924bb.
Example C81_example_typo : forall sbm, exists t a, WIF2KeyM sbm SHA256 [] typo_wif =
    ([repeat 0 (length t); t; a], Val (Err "invalid WIF data, checksum failed"%string)) /\
  value a 0 / 256 ^ 5 mod 256 ^ 32 = test_d.
Proof.
  intros sbm. assert (N : numeral58 typo_wif typo_number) by (apply value_numeral; [discriminate|vm_compute; reflexivity]).
  assert (V : WIF2Key sbm SHA256 typo_wif = Val (Err "invalid WIF data, checksum failed"%string)) by (vm_compute; reflexivity).
  destruct (C81_wif2key_heap sbm SHA256 [] typo_wif typo_number N) as (t & D & _ & VD & H).
  exists t, D. rewrite (surjective_pairing (WIF2KeyM sbm SHA256 [] typo_wif)), C81_wif2key_value, H, V. split; [reflexivity|]. rewrite VD. reflexivity.
Qed.
(** the text "112" has the value 1 and two leading ones: what stays is "001" *)
Lemma decimal_pos : forall u m, decimal u m -> 0 <= m.
Proof. intros u m D. induction D; lia. Qed.
Lemma decimal_zero : forall u m, decimal u m -> m = 0 -> nth 0 u 0 = 48.
Proof.
  intros u m D. induction D as [d R|u m d D IH R]; intros E0; [subst; reflexivity|].
  pose proof (decimal_pos _ _ D). pose proof (proj1 (decimal_value _ _ D)) as NE. specialize (IH ltac:(lia)). destruct u as [|c u]; [congruence|exact IH].
Qed.
Lemma decimal_one : forall u m, decimal u m -> m = 1 -> shortest u -> u = [49].
Proof.
  intros u m D E1 SH. destruct D as [d R|u m d D R]; [subst; reflexivity|]. exfalso.
  pose proof (decimal_pos _ _ D). pose proof (proj1 (decimal_value _ _ D)) as NE. pose proof (decimal_zero _ _ D ltac:(lia)) as H0.
  destruct u as [|c u]; [congruence|]. cbn [nth] in H0. subst c. destruct SH as [SH|[_ SH]]; [destruct u; discriminate SH|exact (SH eq_refl)].
Qed.
Example C81_example_text : forall sbm, nth 1 (fst (WIF2KeyM sbm SHA256 [] [49; 49; 50])) [] = [48; 48; 49].
Proof.
  intros sbm. assert (N : numeral58 [49; 49; 50] 1) by (apply value_numeral; [discriminate|reflexivity]).
  destruct (C81_text_exact sbm SHA256 [] [49; 49; 50] 1 N) as (k & t & (L & A & B) & D & SH & E & _). cbn [length] in *. rewrite E.
  rewrite (decimal_one _ _ D eq_refl SH). destruct k as [|[|[|k]]]; [destruct B as [B|B]; [lia|destruct (B eq_refl)]..|reflexivity|lia].
Qed.
