(** * SM4Facts: the SM4 model inverts itself and refines the standard *)
From Coq Require Import ZArith String List Bool Lia.
From Verif Require Import Base BaseFacts Words SM3 Spec_SM3 SM3Facts SM4 Spec_SM4.
Import ListNotations.
Open Scope Z_scope.

(** ** S-box and constants *)
Lemma sbox_table : forallb (fun i => nth i sm4_sbox 0 =? Sbox (Z.of_nat i)) (seq 0 256) = true.
Proof. vm_compute. reflexivity. Qed.

Lemma sbox_eq : forall x, is_byte x -> nth (Z.to_nat x) sm4_sbox 0 = Sbox x.
Proof.
  unfold is_byte; intros x Hx. pose proof sbox_table as T. rewrite forallb_forall in T.
  specialize (T (Z.to_nat x)). rewrite Z2Nat.id in T by lia. apply Z.eqb_eq, T.
  apply in_seq. lia.
Qed.
Lemma sbox_bytes : forallb is_byteb sm4_sbox = true.
Proof. vm_compute. reflexivity. Qed.
Lemma sbox_at_byte : forall a, is_byte (sbox_at a).
Proof.
  intros. unfold sbox_at. pose proof sbox_bytes as T. rewrite forallb_forall in T.
  destruct (Nat.lt_ge_cases (Z.to_nat (u8 a)) (length sm4_sbox)) as [H|H].
  - specialize (T _ (nth_In _ 0 H)). unfold is_byteb in T. apply andb_true_iff in T as [T1 T2].
    apply Z.leb_le in T1. apply Z.ltb_lt in T2. split; auto.
  - rewrite nth_overflow by auto. unfold is_byte; lia.
Qed.
Lemma sbox_at_eq : forall a, sbox_at a = Sbox (a mod 256).
Proof.
  intros. unfold sbox_at, u8. change (2 ^ 8) with 256. apply sbox_eq.
  apply Z.mod_pos_bound; lia.
Qed.

Lemma ck_table : sm4_ck = map CK (seq 0 32).
Proof. vm_compute. reflexivity. Qed.

(** ** words *)
Lemma sm4_rotl_rol : forall x n, is_u32 x -> sm4_rotl x n = rol x n.
Proof. exact rotl_rol. Qed.
Lemma sm4_rotl_u32 : forall x n, is_u32 x -> is_u32 (sm4_rotl x n).
Proof. exact rotl_u32. Qed.

Lemma tao_word : forall a, sm4_tao a =
  sbox_at (shr32 a 24) * 2 ^ 24 + sbox_at (shr32 a 16) * 2 ^ 16 + sbox_at (shr32 a 8) * 2 ^ 8 + sbox_at a.
Proof.
  intros. unfold sm4_tao. rewrite <- byte_word by apply sbox_at_byte.
  rewrite (Z.lor_comm (Z.lor _ _) (shl32 (sbox_at (shr32 a 24)) 24)).
  rewrite (Z.lor_comm (Z.lor _ _) (shl32 (sbox_at (shr32 a 16)) 16)).
  rewrite (Z.lor_comm (sbox_at a)). rewrite !Z.lor_assoc. reflexivity.
Qed.
Lemma tao_tau : forall a, sm4_tao a = tau a.
Proof.
  intros. rewrite tao_word. unfold tau. rewrite !sbox_at_eq. unfold shr32.
  rewrite !Z.shiftr_div_pow2 by lia. reflexivity.
Qed.
Lemma tau_u32 : forall a, is_u32 (tau a).
Proof. intros. rewrite <- tao_tau, tao_word. apply word_range; apply sbox_at_byte. Qed.

Lemma l_L : forall b, is_u32 b -> sm4_l b = L b.
Proof.
  intros. unfold sm4_l, L. rewrite !sm4_rotl_rol by auto. rewrite !Z.lxor_assoc. reflexivity.
Qed.
Lemma kl_L' : forall b, is_u32 b -> sm4_kl b = L' b.
Proof. intros. unfold sm4_kl, L'. rewrite !sm4_rotl_rol by auto. rewrite !Z.lxor_assoc. reflexivity. Qed.
Lemma L_u32 : forall b, is_u32 b -> is_u32 (L b).
Proof. intros. unfold L. repeat apply u32_lxor; auto using rol_u32. Qed.
Lemma L'_u32 : forall b, is_u32 b -> is_u32 (L' b).
Proof. intros. unfold L'. repeat apply u32_lxor; auto using rol_u32. Qed.

Lemma t_spec : forall x, sm4_t x = L (tau x).
Proof. intros. unfold sm4_t. rewrite tao_tau, l_L; auto using tau_u32. Qed.
Lemma kt_spec : forall x, sm4_kt x = L' (tau x).
Proof. intros. unfold sm4_kt. rewrite tao_tau, kl_L'; auto using tau_u32. Qed.

Lemma f_u32 : forall a b c d k, is_u32 a -> is_u32 (sm4_f a b c d k).
Proof. intros. unfold sm4_f. apply u32_lxor; auto. rewrite t_spec. apply L_u32, tau_u32. Qed.

(** ** self-inverse structure *)
Definition wrev (w : window) : window := let '(a, b, c, d) := w in (d, c, b, a).
Definition w_u32 (w : window) : Prop :=
  let '(a, b, c, d) := w in is_u32 a /\ is_u32 b /\ is_u32 c /\ is_u32 d.

Lemma round_rev : forall w k, crypt_round (wrev (crypt_round w k)) k = wrev w.
Proof.
  intros [[[a b] c] d] k. unfold crypt_round, wrev, sm4_f.
  replace (Z.lxor (Z.lxor (Z.lxor d c) b) k) with (Z.lxor (Z.lxor (Z.lxor b c) d) k).
  - rewrite Z.lxor_assoc, Z.lxor_nilpotent, Z.lxor_0_r. reflexivity.
  - f_equal. rewrite (Z.lxor_comm (Z.lxor d c)), (Z.lxor_comm d c), Z.lxor_assoc. reflexivity.
Qed.

Lemma rounds_rev : forall ks w,
  fold_left crypt_round (rev ks) (wrev (fold_left crypt_round ks w)) = wrev w.
Proof.
  induction ks as [|k ks IH]; intros w; simpl; auto.
  rewrite fold_left_app. simpl. rewrite IH. apply round_rev.
Qed.

Lemma round_w_u32 : forall w k, w_u32 w -> w_u32 (crypt_round w k).
Proof.
  intros [[[a b] c] d] k (? & ? & ? & ?). unfold crypt_round, w_u32.
  split; [auto|]. split; [auto|]. split; [auto|]. apply f_u32; auto.
Qed.
Lemma rounds_u32 : forall ks w, w_u32 w -> w_u32 (fold_left crypt_round ks w).
Proof. induction ks; simpl; intros; auto. apply IHks, round_w_u32; auto. Qed.

Lemma fold_keys : forall js (ks : list Z) w,
  fold_left (fun m j => crypt_round m (nth j ks 0)) js w
  = fold_left crypt_round (map (fun j => nth j ks 0) js) w.
Proof. induction js; simpl; intros; auto. Qed.

Lemma map_nth_seq : forall (l : list Z), map (fun j => nth j l 0) (seq 0 (length l)) = l.
Proof.
  intros l. induction l as [|a l IH]; auto. cbn [length seq map nth]. f_equal.
  rewrite <- seq_shift, map_map. exact IH.
Qed.

Lemma keys_enc : forall ks, length ks = 32%nat ->
  map (fun j => nth j ks 0) (round_indices false) = ks.
Proof. intros ks H. unfold round_indices. rewrite <- H. apply map_nth_seq. Qed.
Lemma keys_dec : forall ks, length ks = 32%nat ->
  map (fun j => nth j ks 0) (round_indices true) = rev ks.
Proof.
  intros ks H.
  assert (E : round_indices true = rev (seq 0 32)) by reflexivity.
  rewrite E, map_rev. f_equal. rewrite <- H. apply map_nth_seq.
Qed.

Lemma subkeys_len : forall js st, length (snd (fold_left subkey_step js st)) = (length (snd st) + length js)%nat.
Proof.
  induction js as [|j js IH]; intros st; simpl; auto. rewrite IH.
  destruct st as [[[[k0 k1] k2] k3] sk]. simpl. rewrite app_length. simpl. lia.
Qed.
Lemma generateSubkeys_length : forall key, length (generateSubkeys key) = 32%nat.
Proof. intros. unfold generateSubkeys. rewrite subkeys_len. reflexivity. Qed.

(** ** loading and storing *)
Definition load (src : bytes) : window := (load_word src 0, load_word src 1, load_word src 2, load_word src 3).

Lemma load_word_at : forall src i, load_word src i = word_at src i.
Proof. intros. unfold load_word, word_at. rewrite (Nat.mul_comm 4 i). reflexivity. Qed.

Lemma list16 : forall (l : bytes), length l = 16%nat ->
  exists a0 a1 a2 a3 a4 a5 a6 a7 a8 a9 a10 a11 a12 a13 a14 a15,
  l = [a0; a1; a2; a3; a4; a5; a6; a7; a8; a9; a10; a11; a12; a13; a14; a15].
Proof.
  intros l H. do 16 (destruct l as [|? l]; [discriminate|]). destruct l; [|discriminate].
  do 16 eexists. reflexivity.
Qed.

Lemma word_bytes_word : forall a b c d, is_byte a -> is_byte b -> is_byte c -> is_byte d ->
  word_bytes (a * 2 ^ 24 + b * 2 ^ 16 + c * 2 ^ 8 + d) = [a; b; c; d].
Proof.
  unfold is_byte; intros a b c d Ha Hb Hc Hd. unfold word_bytes.
  f_equal; [|f_equal; [|f_equal; [|f_equal]]].
  - replace (a * 2 ^ 24 + b * 2 ^ 16 + c * 2 ^ 8 + d) with (a * 2 ^ 24 + (b * 2 ^ 16 + c * 2 ^ 8 + d)) by lia.
    rewrite Z.div_add_l by lia. rewrite (Z.div_small (b * 2 ^ 16 + c * 2 ^ 8 + d)) by lia.
    rewrite Z.add_0_r. apply Z.mod_small; lia.
  - replace (a * 2 ^ 24 + b * 2 ^ 16 + c * 2 ^ 8 + d) with ((a * 256 + b) * 2 ^ 16 + (c * 2 ^ 8 + d)) by lia.
    rewrite Z.div_add_l by lia. rewrite (Z.div_small (c * 2 ^ 8 + d)) by lia.
    rewrite Z.add_0_r, Z.add_comm, Z.mod_add by lia. apply Z.mod_small; lia.
  - replace (a * 2 ^ 24 + b * 2 ^ 16 + c * 2 ^ 8 + d) with ((a * 2 ^ 16 + b * 256 + c) * 2 ^ 8 + d) by lia.
    rewrite Z.div_add_l by lia. rewrite (Z.div_small d) by lia.
    rewrite Z.add_0_r.
    replace (a * 2 ^ 16 + b * 256 + c) with (c + (a * 256 + b) * 256) by lia.
    rewrite Z.mod_add by lia. apply Z.mod_small; lia.
  - replace (a * 2 ^ 24 + b * 2 ^ 16 + c * 2 ^ 8 + d) with (d + (a * 2 ^ 16 + b * 256 + c) * 256) by lia.
    rewrite Z.mod_add by lia. apply Z.mod_small; lia.
Qed.

Lemma bytes_of_word : forall w, is_u32 w -> exists a b c d,
  word_bytes w = [a; b; c; d] /\ is_byte a /\ is_byte b /\ is_byte c /\ is_byte d /\
  w = a * 2 ^ 24 + b * 2 ^ 16 + c * 2 ^ 8 + d.
Proof.
  intros w [H1 H2]. unfold word_bytes.
  exists ((w / 2 ^ 24) mod 256), ((w / 2 ^ 16) mod 256), ((w / 2 ^ 8) mod 256), (w mod 256).
  split; [reflexivity|].
  unfold is_byte.
  repeat (split; [apply Z.mod_pos_bound; lia|]).
  pose proof (Z.div_mod w 256 ltac:(lia)).
  pose proof (Z.div_mod (w / 256) 256 ltac:(lia)).
  pose proof (Z.div_mod (w / 256 / 256) 256 ltac:(lia)).
  change (2 ^ 24) with (256 * 256 * 256). change (2 ^ 16) with (256 * 256). change (2 ^ 8) with 256.
  rewrite <- !Z.div_div by lia.
  assert (w / 256 / 256 / 256 < 256).
  { rewrite !Z.div_div by lia. apply Z.div_lt_upper_bound; lia. }
  assert (0 <= w / 256 / 256 / 256) by (rewrite !Z.div_div by lia; apply Z.div_pos; lia).
  rewrite (Z.mod_small (w / 256 / 256 / 256)) by lia.
  lia.
Qed.

Lemma store_words_spec : forall m, store_words m =
  flat_map word_bytes (let '(a, b, c, d) := wrev m in [a; b; c; d]).
Proof.
  intros [[[a b] c] d]. unfold store_words, wrev. apply flat_map_ext.
  intros s. unfold word_bytes. rewrite !shr32_byte by lia. reflexivity.
Qed.

Lemma store_words_length : forall m, length (store_words m) = 16%nat.
Proof. intros [[[a b] c] d]. reflexivity. Qed.
Lemma store_words_wf : forall m, wf_bytes (store_words m).
Proof. intros. rewrite store_words_spec. apply flat_bytes. Qed.

Ltac inv_wf :=
  repeat match goal with
  | H : wf_bytes (_ :: _) |- _ => inversion H; subst; clear H
  | H : Forall is_byte (_ :: _) |- _ => inversion H; subst; clear H
  end.

Lemma load_u32 : forall src, length src = 16%nat -> wf_bytes src -> w_u32 (load src).
Proof.
  intros src Hl Hw. destruct (list16 src Hl) as (a0&a1&a2&a3&a4&a5&a6&a7&a8&a9&a10&a11&a12&a13&a14&a15&->).
  inv_wf. unfold load, load_word, w_u32. cbn [nth Nat.mul Nat.add].
  rewrite !byte_word by auto. repeat (split; [apply word_range; auto|]). apply word_range; auto.
Qed.

(** store then load gives the reversed window *)
Lemma load_store : forall m, w_u32 m -> load (store_words m) = wrev m.
Proof.
  intros [[[a b] c] d] (Ha & Hb & Hc & Hd). rewrite store_words_spec. cbn [wrev flat_map].
  destruct (bytes_of_word a Ha) as (a0 & a1 & a2 & a3 & Ea & ? & ? & ? & ? & Wa).
  destruct (bytes_of_word b Hb) as (b0 & b1 & b2 & b3 & Eb & ? & ? & ? & ? & Wb).
  destruct (bytes_of_word c Hc) as (c0 & c1 & c2 & c3 & Ec & ? & ? & ? & ? & Wc).
  destruct (bytes_of_word d Hd) as (d0 & d1 & d2 & d3 & Ed & ? & ? & ? & ? & Wd).
  rewrite Ea, Eb, Ec, Ed. cbn [app]. unfold load, load_word. cbn [nth Nat.mul Nat.add].
  rewrite !byte_word by auto. congruence.
Qed.
(** load then store reverses the byte order of words: storing the reversed window gives src *)
Lemma store_load : forall src, length src = 16%nat -> wf_bytes src -> store_words (wrev (load src)) = src.
Proof.
  intros src Hl Hw. destruct (list16 src Hl) as (a0&a1&a2&a3&a4&a5&a6&a7&a8&a9&a10&a11&a12&a13&a14&a15&->).
  inv_wf. unfold load, load_word. cbn [nth Nat.mul Nat.add].
  rewrite !byte_word by auto. rewrite store_words_spec. cbn [wrev flat_map].
  rewrite !word_bytes_word by auto. reflexivity.
Qed.

Lemma cryptBlock_ok : forall ks dst src dec,
  (16 <= length src)%nat -> (16 <= length dst)%nat ->
  cryptBlock ks dst src dec =
  Val (store_words (fold_left crypt_round (map (fun j => nth j ks 0) (round_indices dec)) (load src)) ++ skipn 16 dst).
Proof.
  intros. unfold cryptBlock.
  replace (zlen src <? 16) with false by (symmetry; apply Z.ltb_ge; unfold zlen; lia).
  replace (zlen dst <? 16) with false by (symmetry; apply Z.ltb_ge; unfold zlen; lia).
  cbv zeta. rewrite fold_keys. reflexivity.
Qed.

Lemma wrev_invol : forall w, wrev (wrev w) = w.
Proof. intros [[[a b] c] d]. reflexivity. Qed.

Lemma crypt_inverse : forall ks dst1 dst2 src dec,
  length ks = 32%nat -> length src = 16%nat -> wf_bytes src ->
  length dst1 = 16%nat -> (16 <= length dst2)%nat ->
  exists ct, cryptBlock ks dst1 src dec = Val ct /\ length ct = 16%nat /\ wf_bytes ct /\
    cryptBlock ks dst2 ct (negb dec) = Val (src ++ skipn 16 dst2).
Proof.
  intros ks dst1 dst2 src dec Hk Hs Hw H1 H2.
  rewrite cryptBlock_ok by lia. rewrite skipn_all2 by lia. rewrite app_nil_r.
  eexists. split; [reflexivity|]. split; [apply store_words_length|]. split; [apply store_words_wf|].
  rewrite cryptBlock_ok by (rewrite ?store_words_length; lia).
  f_equal. f_equal.
  set (K := map (fun j => nth j ks 0) (round_indices dec)).
  assert (EK : map (fun j => nth j ks 0) (round_indices (negb dec)) = rev K).
  { unfold K. destruct dec; simpl negb; rewrite ?keys_enc, ?keys_dec by auto; auto.
    rewrite rev_involutive. reflexivity. }
  rewrite EK, load_store by (apply rounds_u32, load_u32; auto).
  rewrite rounds_rev. apply store_load; auto.
Qed.

(** ** conformance *)
Definition wlist (w : window) : list Z := let '(a, b, c, d) := w in [a; b; c; d].

Lemma next_tail : forall lin xs a b c d k,
  next lin (xs ++ [a; b; c; d]) k =
  (xs ++ [a]) ++ [b; c; d; Z.lxor a (lin (tau (Z.lxor b (Z.lxor c (Z.lxor d k)))))].
Proof.
  intros. unfold next. rewrite app_length. cbn [length].
  assert (N : forall i x, nth_error [a; b; c; d] i = Some x ->
     nth (length xs + i) (xs ++ [a; b; c; d]) 0 = x).
  { intros i x H. rewrite app_nth2 by lia. replace (length xs + i - length xs)%nat with i by lia.
    apply nth_error_nth; auto. }
  replace (length xs + 4 - 4)%nat with (length xs + 0)%nat by lia.
  replace (length xs + 4 - 3)%nat with (length xs + 1)%nat by lia.
  replace (length xs + 4 - 2)%nat with (length xs + 2)%nat by lia.
  replace (length xs + 4 - 1)%nat with (length xs + 3)%nat by lia.
  rewrite (N 0%nat a), (N 1%nat b), (N 2%nat c), (N 3%nat d) by reflexivity.
  rewrite <- !app_assoc. reflexivity.
Qed.

Lemma crypt_fold : forall ks xs w, exists xs',
  length xs' = (length xs + length ks)%nat /\
  fold_left (next L) ks (xs ++ wlist w) = xs' ++ wlist (fold_left crypt_round ks w).
Proof.
  induction ks as [|k ks IH]; intros xs w.
  - exists xs. split; auto.
  - cbn [fold_left]. destruct w as [[[a b] c] d].
    destruct (IH (xs ++ [a]) (crypt_round (a, b, c, d) k)) as (xs' & H1 & H2).
    exists xs'. split. { rewrite H1, app_length. simpl. lia. }
    rewrite <- H2. f_equal. unfold crypt_round, wlist at 1. rewrite next_tail.
    unfold sm4_f, wlist. rewrite t_spec, !Z.lxor_assoc. reflexivity.
Qed.

Lemma words_load : forall src, length src = 16%nat -> wf_bytes src -> words src = wlist (load src).
Proof.
  intros src Hl Hw. rewrite <- (firstn_all src) at 1. rewrite Hl.
  change 16%nat with (4 * 4)%nat. rewrite <- words_map by (auto; lia).
  cbn [seq map]. rewrite <- !load_word_at. reflexivity.
Qed.

Lemma crypt_spec : forall ks src, length ks = 32%nat -> length src = 16%nat -> wf_bytes src ->
  crypt ks src = store_words (fold_left crypt_round ks (load src)).
Proof.
  intros ks src Hk Hs Hw. unfold crypt. rewrite words_load by auto.
  destruct (crypt_fold ks [] (load src)) as (xs' & H1 & H2). cbn [app] in H2. rewrite H2.
  rewrite skipn_app_l by (rewrite H1, Hk; reflexivity).
  rewrite store_words_spec. destruct (fold_left crypt_round ks (load src)) as [[[a b] c] d].
  reflexivity.
Qed.

Lemma subkey_fold : forall js w sk xs, (forall j, In j js -> (j < 32)%nat) ->
  exists xs' w',
    fold_left subkey_step js (w, sk) = (w', sk ++ skipn (length xs + 4) (xs' ++ wlist w')) /\
    fold_left (next L') (map CK js) (xs ++ wlist w) = xs' ++ wlist w' /\
    length xs' = (length xs + length js)%nat /\
    firstn (length xs + 4) (xs' ++ wlist w') = xs ++ wlist w.
Proof.
  induction js as [|j js IH]; intros w sk xs Hj.
  - exists xs, w. cbn [fold_left map length]. split.
    { rewrite skipn_all2. rewrite app_nil_r; auto. rewrite app_length. destruct w as [[[? ?] ?] ?]. simpl. lia. }
    split; auto. split; [lia|]. apply firstn_all2. rewrite app_length. destruct w as [[[? ?] ?] ?]. simpl. lia.
  - destruct w as [[[a b] c] d]. cbn [fold_left map].
    set (rk := Z.lxor a (sm4_kt (Z.lxor (Z.lxor (Z.lxor b c) d) (nth j sm4_ck 0)))).
    assert (Eck : nth j sm4_ck 0 = CK j).
    { rewrite ck_table. rewrite (nth_indep _ 0 (CK 0)) by (rewrite map_length, seq_length; apply Hj; left; auto).
      rewrite map_nth, seq_nth; auto. apply Hj; left; auto. }
    destruct (IH (b, c, d, rk) (sk ++ [rk]) (xs ++ [a])) as (xs' & w' & H1 & H2 & H3 & H4).
    { intros; apply Hj; right; auto. }
    exists xs', w'.
    assert (Enext : next L' (xs ++ wlist (a, b, c, d)) (CK j) = (xs ++ [a]) ++ wlist (b, c, d, rk)).
    { unfold wlist. rewrite next_tail. unfold rk. rewrite kt_spec, Eck, !Z.lxor_assoc. reflexivity. }
    rewrite app_length in *. cbn [length] in *.
    split.
    + etransitivity; [exact H1|]. f_equal.
      rewrite <- app_assoc. f_equal.
      (* the element at position length xs + 4 is rk *)
      assert (Hn : nth_error (xs' ++ wlist w') (length xs + 4) = Some rk).
      { rewrite <- (firstn_skipn (length xs + 1 + 4) (xs' ++ wlist w')). rewrite H4.
        rewrite nth_error_app1 by (rewrite !app_length; simpl; lia).
        rewrite nth_error_app2 by (rewrite app_length; simpl; lia).
        rewrite app_length. simpl length. replace (length xs + 4 - (length xs + 1))%nat with 3%nat by lia.
        reflexivity. }
      replace (length xs + 1 + 4)%nat with (S (length xs + 4)) by lia.
      clear -Hn. revert Hn. generalize (xs' ++ wlist w') (length xs + 4)%nat.
      intros l n. revert l. induction n; intros l Hn; destruct l as [|h t]; try discriminate.
      * simpl in *. inversion Hn. reflexivity.
      * simpl in *. apply IHn; auto.
    + rewrite Enext. split; auto. split; [lia|].
      rewrite <- (firstn_skipn (length xs + 1 + 4) (xs' ++ wlist w')). rewrite H4.
      rewrite firstn_app. rewrite (firstn_app _ (xs ++ [a])).
      rewrite !app_length. simpl length.
      replace (length xs + 4 - (length xs + 1 + 4))%nat with 0%nat by lia. cbn [firstn].
      rewrite app_nil_r. rewrite (firstn_all2 (xs ++ [a])) by (rewrite app_length; simpl; lia).
      replace (length xs + 4 - (length xs + 1))%nat with 3%nat by lia.
      simpl (firstn 3 _). rewrite <- app_assoc. reflexivity.
Qed.

Lemma generateSubkeys_spec : forall key, length key = 16%nat -> wf_bytes key ->
  generateSubkeys key = round_keys key.
Proof.
  intros key Hl Hw. unfold generateSubkeys, round_keys. rewrite words_load by auto.
  unfold load, wlist at 1. cbv zeta.
  change (map (fun p => Z.lxor (fst p) (snd p))
     (combine [load_word key 0; load_word key 1; load_word key 2; load_word key 3] FK))
   with (wlist (Z.lxor (load_word key 0) (nth 0 sm4_fk 0), Z.lxor (load_word key 1) (nth 1 sm4_fk 0),
                Z.lxor (load_word key 2) (nth 2 sm4_fk 0), Z.lxor (load_word key 3) (nth 3 sm4_fk 0))).
  destruct (subkey_fold (seq 0 32) (Z.lxor (load_word key 0) (nth 0 sm4_fk 0), Z.lxor (load_word key 1) (nth 1 sm4_fk 0),
                Z.lxor (load_word key 2) (nth 2 sm4_fk 0), Z.lxor (load_word key 3) (nth 3 sm4_fk 0)) [] [])
    as (xs' & w' & H1 & H2 & H3 & H4).
  { intros j Hj. apply in_seq in Hj. lia. }
  cbn [app length] in H1, H2. rewrite H2.
  change (skipn 4 (xs' ++ wlist w')) with (snd (w', skipn 4 (xs' ++ wlist w'))).
  exact (f_equal snd H1).
Qed.

Lemma round_keys_length : forall key, length key = 16%nat -> wf_bytes key -> length (round_keys key) = 32%nat.
Proof. intros. rewrite <- generateSubkeys_spec by auto. apply generateSubkeys_length. Qed.

Lemma sm4_conform : forall key src dst dec, length key = 16%nat -> wf_bytes key ->
  length src = 16%nat -> wf_bytes src -> (16 <= length dst)%nat ->
  cryptBlock (generateSubkeys key) dst src dec =
  Val ((if dec : bool then sm4_decrypt key src else sm4_encrypt key src) ++ skipn 16 dst).
Proof.
  intros key src dst dec Hk Hwk Hs Hw Hd.
  rewrite cryptBlock_ok by lia. f_equal. f_equal.
  unfold sm4_decrypt, sm4_encrypt.
  destruct dec; rewrite ?keys_enc, ?keys_dec by apply generateSubkeys_length;
    rewrite crypt_spec; rewrite ?rev_length, ?round_keys_length; auto;
    rewrite generateSubkeys_spec; auto.
Qed.

(** ** argument checks *)
Lemma cryptBlock_panic : forall ks dst src dec,
  (length src < 16)%nat \/ (length dst < 16)%nat -> cryptBlock ks dst src dec = Panic "index out of range".
Proof.
  intros ks dst src dec H. unfold cryptBlock.
  destruct (Z.ltb_spec (zlen src) 16); auto.
  destruct (Z.ltb_spec (zlen dst) 16); auto. unfold zlen in *. lia.
Qed.

Lemma nth_firstn_lt : forall (l : list Z) n i, (i < n)%nat -> nth i (firstn n l) 0 = nth i l 0.
Proof.
  induction l as [|a l IH]; intros n i H; destruct n; try lia; destruct i; simpl; auto. apply IH; lia.
Qed.
Lemma load_firstn : forall src, load (firstn 16 src) = load src.
Proof.
  intros. unfold load, load_word. cbn [Nat.mul Nat.add].
  rewrite !nth_firstn_lt by lia. reflexivity.
Qed.
