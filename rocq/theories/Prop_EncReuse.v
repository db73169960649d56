(** * Prop_EncReuse: property C103, what the nonces of SM2 ciphertexts give away (/repo/sm2/encryption.go:85-164) *)
From Coq Require Import ZArith Znumtheory String List Bool Lia.
From Verif Require Import SM3Hist NumTheory Primes1 Primes3 CurveSM2 P256 Spec_P256 Spec_P256b P256Booth P256Sched
  Prop_P256b Prop_P256c P256Point P256PointFacts Prop_P256d AsmVal AsmEq Spec_AsmClean AsmFix AsmSim AsmWit
  Prop_Asm2 Base BaseFacts Curves ECKey SM3 Spec_SM3 SM3Facts Spec_EC ECFacts Spec_Group SM2Sig Spec_SM2 SM2Enc
  Spec_SM2Enc SM2EncFacts Prop_Keys Prop_SM2 Prop_SM2b Prop_SM2Enc Prop_SM2Enc2 Prop_SM2Enc3 Prop_SM2Enc4.
From Verif Require Prop_SigWhole.
Import ListNotations.
Open Scope Z_scope.
Notation N := (c_N SM2P256V1).

(** ** Strings *)
(** two strings under the beginnings of one stream *)
Lemma xor_pads : forall a b s t, (exists u, t = s ++ u) \/ (exists u, s = t ++ u) -> length a = length s -> length b = length t ->
  xor_bytes (xor_bytes a s) (xor_bytes b t) = xor_bytes a b.
Proof.
  induction a as [|x a IH]; intros b s t P La Lb; [reflexivity|]. destruct s as [|p s]; [discriminate La|].
  destruct b as [|y b]; [destruct t; [reflexivity|discriminate Lb]|]. destruct t as [|q t]; [discriminate Lb|].
  assert (p = q /\ ((exists u, t = s ++ u) \/ (exists u, s = t ++ u))) as [-> P'].
  { destruct P as [[u E]|[u E]]; cbn in E; injection E as -> ->; split; auto; [left|right]; exists u; reflexivity. }
  injection La as La. injection Lb as Lb. unfold xor_bytes in *. cbn [combine map fst snd]. f_equal; [|exact (IH b s t P' La Lb)].
  rewrite <- Z.lxor_assoc, (Z.lxor_assoc x q y), (Z.lxor_comm q y), <- Z.lxor_assoc, Z.lxor_assoc, Z.lxor_nilpotent, Z.lxor_0_r. reflexivity.
Qed.
Lemma xor_known : forall a b, xor_bytes (xor_bytes a b) a = firstn (length a) b.
Proof.
  induction a as [|x a IH]; intros [|y b]; try reflexivity. unfold xor_bytes in *. cbn [combine map fst snd length firstn]. f_equal; [|apply IH].
  rewrite (Z.lxor_comm x y), Z.lxor_assoc, Z.lxor_nilpotent, Z.lxor_0_r. reflexivity.
Qed.
(** a longer key begins with the shorter one *)
Lemma stream_app : forall z m j, kdf_stream z (m + j) = kdf_stream z m ++ flat_map (fun i => sm3_hash (z ++ to_be 4 (Z.of_nat i))) (seq (1 + m) j).
Proof. intros z m j. unfold kdf_stream. rewrite seq_app, flat_map_app. reflexivity. Qed.
Lemma stream_len : forall z m, (m <= length (kdf_stream z m))%nat.
Proof.
  intros z m. pose proof (kdf_len z m) as L. unfold kdf in L. rewrite firstn_length in L. lia.
Qed.
Lemma kdf_prefix : forall z m n, (m <= n)%nat -> exists u, kdf z n = kdf z m ++ u.
Proof.
  intros z m n H. replace n with (m + (n - m))%nat by lia. unfold kdf at 1. rewrite stream_app.
  rewrite <- (firstn_skipn m (kdf_stream z m)), <- app_assoc, firstn_app.
  assert (L : length (firstn m (kdf_stream z m)) = m) by (rewrite firstn_length; pose proof (stream_len z m); lia).
  rewrite L, (firstn_all2 (n := m + (n - m)) (firstn m (kdf_stream z m))) by lia. eexists. reflexivity.
Qed.
Lemma kdf_either : forall z m n, (exists u, kdf z n = kdf z m ++ u) \/ (exists u, kdf z m = kdf z n ++ u).
Proof. intros z m n. destruct (Nat.le_ge_cases m n); [left|right]; apply kdf_prefix; assumption. Qed.

Section Enc.
Variable sha512 : bytes -> bytes.
Variable aes : bytes -> bytes -> bytes.
Variable sbm : bytes -> Z * Z.
Variable sm : Z -> Z -> bytes -> Z * Z.
Hypothesis sha_len : forall m, length (sha512 m) = 64%nat.
Hypothesis aes_len : forall key c, length c = 16%nat -> length (aes key c) = 16%nat.
Hypothesis sbm_range : forall b, in32 (sbm b).
Hypothesis sm_range : forall x y b, in32 (sm x y b).
Notation Encrypt := (SM2Enc.Encrypt sha512 aes sbm sm).

(** what anybody computes from a nonce and the public key: n bytes of key *)
Definition pad (pub : ecpub) (k : Z) (n : nat) : bytes :=
  let S := sm (pk_X pub) (pk_Y pub) (big_bytes k) in kdf (shared (fst S) (snd S)) n.
(** the nonces of a run, and the one that is used: the first with a non-zero byte among the first 64 of its key *)
Definition drawn (pub : ecpub) (ent data : bytes) (i : nat) : Z := nonce N (aes (firstn 32 (sha512 (big_bytes (pk_X pub) ++ ent ++ sm3_hash data)))) i.
Definition used (pub : ecpub) (ent data : bytes) (i : nat) : Prop :=
  (forall j, (j < i)%nat -> all_zero (firstn 64 (pad pub (drawn pub ent data j) (length data)))) /\
  ~ all_zero (firstn 64 (pad pub (drawn pub ent data i) (length data))).
Definition enc_ok (pub : ecpub) (data : bytes) : Prop :=
  pk_curve pub = SM2P256V1 /\ 0 <= pk_X pub /\ ~ (pk_X pub = 0 /\ pk_Y pub = 0) /\ octets data /\ Z.of_nat (length data) < 2 ^ 60.

Lemma used_one : forall pub ent data i j, used pub ent data i -> used pub ent data j -> i = j.
Proof.
  intros pub ent data i j [A B] [C D]. destruct (Nat.lt_trichotomy i j) as [L|[L|L]]; [|exact L|]; exfalso; [apply B, C, L|apply D, A, L].
Qed.
Lemma written_len : forall f i b, (forall j, 0 <= f j < 256 ^ 32) -> written f i b -> length b = 32%nat.
Proof.
  intros f i b F W. induction W as [b M|i old b W IH M].
  - apply minimal_big_bytes in M; [|apply F]. subst b. unfold overlay. rewrite app_length, firstn_length, repeat_length. pose proof (bb32 _ (F 0%nat)). lia.
  - apply minimal_big_bytes in M; [|apply F]. subst b. unfold overlay. rewrite app_length, firstn_length, IH. pose proof (bb32 _ (F (S i))). lia.
Qed.
Lemma written_0 : forall f b, (forall j, 0 <= f j < 256 ^ 32) -> written f 0 b -> b = to_be 32 (f 0%nat).
Proof.
  intros f b F W. inversion W as [b0 M EQ|]; subst. apply minimal_big_bytes in M; [|apply F]. subst b0. unfold overlay.
  rewrite repeat_length, firstn_repeat by lia. apply pad_big_bytes, F.
Qed.
Lemma parts : forall fuel ent pub data c, enc_ok pub data -> Encrypt fuel (Ok ent) pub data = Val (Ok c) ->
  exists i, (i < fuel)%nat /\ used pub ent data i /\ skipn 96 c = xor_bytes data (pad pub (drawn pub ent data i) (length data)) /\
    written (fun j => fst (sbm (big_bytes (drawn pub ent data j)))) i (firstn 32 c) /\
    written (fun j => snd (sbm (big_bytes (drawn pub ent data j)))) i (firstn 32 (skipn 32 c)).
Proof.
  intros fuel ent pub data c (Hc & HX & Hp & Hd & Ld) E.
  apply (C48_exact sha512 aes sbm sm sha_len aes_len sbm_range sm_range fuel ent pub data c (big_bytes (pk_X pub)) Hc HX
    (proj2 (minimal_big_bytes (pk_X pub) _ HX) eq_refl) Hp Hd Ld) in E.
  destruct E as (i & cx & cy & y2l & I & F & A & Wx & Wy & Y & ->). exists i. split; [exact I|]. split; [split; [exact F|exact A]|].
  assert (Lx : length cx = 32%nat) by (eapply written_len; [|exact Wx]; intros j; apply sbm_range).
  assert (Ly : length cy = 32%nat) by (eapply written_len; [|exact Wy]; intros j; apply sbm_range).
  match goal with |- context [cx ++ cy ++ sm3_hash ?m ++ _] => set (h := sm3_hash m); assert (Lh : length h = 32%nat) by apply sm3_hash_shape end.
  split.
  - rewrite !app_assoc. rewrite <- (app_assoc cx cy h). rewrite skipn_app, skipn_all2 by (rewrite !app_length; lia).
    replace (96 - length (cx ++ cy ++ h))%nat with 0%nat by (rewrite !app_length; lia). reflexivity.
  - rewrite skipn_app, Lx, (skipn_all2 (n := 32) cx), Nat.sub_diag by lia. cbn [app skipn].
    rewrite !firstn_app, Lx, Ly, !Nat.sub_diag, !firstn_O, !app_nil_r, !firstn_all2 by lia. split; assumption.
Qed.

(** the nonce and the public key open the ciphertext *)
Theorem C103_opened : forall fuel ent pub data c, enc_ok pub data -> Encrypt fuel (Ok ent) pub data = Val (Ok c) ->
  exists i, used pub ent data i /\ 1 <= drawn pub ent data i <= N - 2 /\
    xor_bytes (skipn 96 c) (pad pub (drawn pub ent data i) (length c - 96)) = data.
Proof.
  intros fuel ent pub data c H E. destruct (parts _ _ _ _ _ H E) as (i & _ & U & B & _). exists i. split; [exact U|]. split; [apply nonce_range|].
  assert (L : (length c - 96)%nat = length data).
  { rewrite <- (skipn_length 96 c), B. apply Prop_SM2Enc2.xor_len. symmetry. apply kdf_len. }
  rewrite L, B. apply xor_xor. symmetry. apply kdf_len.
Qed.
(** the same nonce twice: the exclusive or of the bodies is that of the texts, so one text gives the other as far as it reaches *)
Theorem C103_reuse : forall fuel ent pub data c i fuel' ent' data' c' i', enc_ok pub data -> enc_ok pub data' ->
  Encrypt fuel (Ok ent) pub data = Val (Ok c) -> Encrypt fuel' (Ok ent') pub data' = Val (Ok c') ->
  used pub ent data i -> used pub ent' data' i' -> drawn pub ent data i = drawn pub ent' data' i' ->
  xor_bytes (skipn 96 c) (skipn 96 c') = xor_bytes data data' /\
  xor_bytes (xor_bytes (skipn 96 c) (skipn 96 c')) data = firstn (length data) data'.
Proof.
  intros fuel ent pub data c i fuel' ent' data' c' i' H H' E E' U U' K.
  destruct (parts _ _ _ _ _ H E) as (i0 & _ & U0 & B & _). destruct (parts _ _ _ _ _ H' E') as (i0' & _ & U0' & B' & _).
  rewrite (used_one _ _ _ _ _ U0 U) in B. rewrite (used_one _ _ _ _ _ U0' U') in B'. rewrite <- K in B'.
  assert (X : xor_bytes (skipn 96 c) (skipn 96 c') = xor_bytes data data').
  { rewrite B, B'. apply xor_pads; [unfold pad; apply kdf_either|symmetry; apply kdf_len|symmetry; apply kdf_len]. }
  split; [exact X|]. rewrite X. apply xor_known.
Qed.

(** the AES key of the nonces comes from the public X, the entropy and the text: the same key twice means the same entropy
    and text and the same ciphertext, or a collision *)
Theorem C103_same_stream : forall fuel ent pub data c fuel' ent' data' c', enc_ok pub data -> enc_ok pub data' -> length ent = length ent' ->
  Encrypt fuel (Ok ent) pub data = Val (Ok c) -> Encrypt fuel' (Ok ent') pub data' = Val (Ok c') ->
  let xb := big_bytes (pk_X pub) in
  firstn 32 (sha512 (xb ++ ent ++ sm3_hash data)) = firstn 32 (sha512 (xb ++ ent' ++ sm3_hash data')) ->
  (ent = ent' /\ data = data' /\ c = c') \/ (data <> data' /\ sm3_hash data = sm3_hash data') \/
  (exists u v, u <> v /\ firstn 32 (sha512 u) = firstn 32 (sha512 v)).
Proof.
  intros fuel ent pub data c fuel' ent' data' c' H H' LE E E' xb K.
  destruct (list_eq_dec Z.eq_dec (xb ++ ent ++ sm3_hash data) (xb ++ ent' ++ sm3_hash data')) as [EQ|NE]; [|right; right; eexists _, _; split; [exact NE|exact K]].
  apply app_inv_head in EQ. destruct (Prop_SigWhole.app_inj_len _ _ _ _ LE EQ) as [<- EH].
  destruct (list_eq_dec Z.eq_dec data data') as [<-|ND]; [left|right; left; split; assumption]. split; [reflexivity|]. split; [reflexivity|].
  destruct H as (Hc & HX & Hp & Hd & Ld). pose proof (proj2 (minimal_big_bytes (pk_X pub) _ HX) eq_refl) as M.
  pose proof (C48_exact sha512 aes sbm sm sha_len aes_len sbm_range sm_range (Nat.max fuel fuel') ent pub data c _ Hc HX M Hp Hd Ld) as Q.
  pose proof (C48_exact sha512 aes sbm sm sha_len aes_len sbm_range sm_range (Nat.max fuel fuel') ent pub data c' _ Hc HX M Hp Hd Ld) as Q'.
  cbv zeta in Q, Q'.
  apply (C48_exact sha512 aes sbm sm sha_len aes_len sbm_range sm_range fuel ent pub data c _ Hc HX M Hp Hd Ld) in E.
  apply (C48_exact sha512 aes sbm sm sha_len aes_len sbm_range sm_range fuel' ent pub data c' _ Hc HX M Hp Hd Ld) in E'.
  assert (T : Encrypt (Nat.max fuel fuel') (Ok ent) pub data = Val (Ok c)).
  { apply Q. destruct E as (i & cx & cy & yl & I & R). exists i, cx, cy, yl. split; [lia|exact R]. }
  assert (T' : Encrypt (Nat.max fuel fuel') (Ok ent) pub data = Val (Ok c')).
  { apply Q'. destruct E' as (i & cx & cy & yl & I & R). exists i, cx, cy, yl. split; [lia|exact R]. }
  rewrite T in T'. congruence.
Qed.

(** ** Seen from outside: two ciphertexts that begin with the same 64 bytes *)
Section C1.
Variable E : ecgroup.
Hypothesis EN : eN E = N.
Hypothesis sbm_ok : forall k, 1 <= k <= N - 2 -> sbm (big_bytes k) = ecoords (gmul k (@eG E)).
Theorem C103_same_c1 : forall fuel ent pub data c fuel' ent' data' c', enc_ok pub data -> enc_ok pub data' ->
  Encrypt fuel (Ok ent) pub data = Val (Ok c) -> Encrypt fuel' (Ok ent') pub data' = Val (Ok c') ->
  used pub ent data 0 -> used pub ent' data' 0 -> firstn 64 c = firstn 64 c' ->
  drawn pub ent data 0 = drawn pub ent' data' 0 /\ xor_bytes (skipn 96 c) (skipn 96 c') = xor_bytes data data'.
Proof.
  intros fuel ent pub data c fuel' ent' data' c' H H' S S' U U' C.
  destruct (parts _ _ _ _ _ H S) as (i & _ & V & _ & Wx & Wy). destruct (parts _ _ _ _ _ H' S') as (i' & _ & V' & _ & Wx' & Wy').
  rewrite (used_one _ _ _ _ _ V U) in Wx, Wy. rewrite (used_one _ _ _ _ _ V' U') in Wx', Wy'.
  assert (Cx : firstn 32 c = firstn 32 c') by (apply (f_equal (firstn 32)) in C; rewrite !firstn_firstn in C; exact C).
  assert (Cy : firstn 32 (skipn 32 c) = firstn 32 (skipn 32 c')).
  { apply (f_equal (skipn 32)) in C. rewrite !skipn_firstn_comm in C. exact C. }
  set (k := drawn pub ent data 0) in *. set (k' := drawn pub ent' data' 0) in *.
  assert (W0 : forall f b, (forall j, 0 <= f j < 256 ^ 32) -> written f 0 b -> f 0%nat = be2z b).
  { intros f b F W. rewrite (written_0 f b F W), be2z_to_be_small by apply F. reflexivity. }
  assert (K : sbm (big_bytes k) = sbm (big_bytes k')).
  { apply W0 in Wx; [|intros j; apply sbm_range]. apply W0 in Wy; [|intros j; apply sbm_range].
    apply W0 in Wx'; [|intros j; apply sbm_range]. apply W0 in Wy'; [|intros j; apply sbm_range].
    cbv beta in *. apply injective_projections; unfold k, k'; congruence. }
  assert (R : 1 <= k <= N - 2) by apply nonce_range. assert (R' : 1 <= k' <= N - 2) by apply nonce_range.
  rewrite !sbm_ok in K by assumption. apply ecoords_inj in K.
  assert (KK : k = k').
  { apply (gmul_inj _ (eN E)) in K; [|apply eN_prime|apply eG_order|apply eG_nonzero]. rewrite EN in K. rewrite !Z.mod_small in K by lia. exact K. }
  split; [exact KK|]. exact (proj1 (C103_reuse _ _ _ _ _ _ _ _ _ _ _ H H' S S' U U' KK)).
Qed.
End C1.
End Enc.
Print Assumptions C103_opened.
Print Assumptions C103_reuse.
Print Assumptions C103_same_stream.
Print Assumptions C103_same_c1.

(** ** On the SM2 curve: the key pair of 2, two texts, a cipher that always gives the nonce 1 *)
Notation XS := (asm_sbm exact_prims).
Notation XM := (asm_sm exact_prims).
Notation ENC := (SM2Enc.Encrypt toy_sha zero_aes XS XM).
Lemma ex_zlen : forall key c : bytes, length c = 16%nat -> length (zero_aes key c) = 16%nat.
Proof. intros key c H. exact (eq_trans (repeat_length 0 (length c)) H). Qed.
Lemma ex_sbm : forall k, 1 <= k <= N - 2 -> XS (big_bytes k) = ecoords (gmul k (@eG sm2_E)).
Proof. intros k K. unfold asm_sbm. rewrite C61_curve_base by apply big_bytes_wf. rewrite be2z_big_bytes by lia. reflexivity. Qed.
Lemma ex_ok : forall a b c, 0 <= a < 256 -> 0 <= b < 256 -> 0 <= c < 256 -> enc_ok pub2 [a; b; c].
Proof.
  intros a b c A B C. split; [reflexivity|]. split; [discriminate|]. split; [intros [X _]; discriminate X|]. split; [|reflexivity].
  unfold octets. repeat (apply Forall_cons; [assumption|]). apply Forall_nil.
Qed.
Lemma ex_run : forall ent a b c, 0 <= a < 256 -> 0 <= b < 256 -> 0 <= c < 256 -> exists ct, ENC 1 (Ok ent) pub2 [a; b; c] = Val (Ok ct).
Proof.
  intros ent a b c A B C. destruct (ex_ok a b c A B C) as (_ & _ & _ & O & L).
  destruct (C71_roundtrip toy_sha zero_aes IsOnCurve (fun _ => eq_refl) ex_zlen (fun x y _ _ => IsOnCurve_ok x y)
    exact_prims exact_32 exact_prims_ok 0 ent pub2 [a; b; c] 2 (big_bytes G2x) eq_refl example_minimal) as (ct & E & _); rewrite ?example_nonce.
  - split; [lia|reflexivity].
  - discriminate.
  - rewrite C61_curve_base by apply big_bytes_wf. rewrite be2z_big_bytes, coords_2G by lia. reflexivity.
  - exact O.
  - exact L.
  - discriminate.
  - change (1 * 2) with 2. rewrite coords_2G. exact example_key.
  - exists ct. exact E.
Qed.
Example C103_example : exists c c', ENC 1 (Ok (repeat 5 16)) pub2 [104; 105; 33] = Val (Ok c) /\ ENC 1 (Ok (repeat 6 16)) pub2 [98; 121; 101] = Val (Ok c') /\
  used toy_sha zero_aes XM pub2 (repeat 5 16) [104; 105; 33] 0 /\ used toy_sha zero_aes XM pub2 (repeat 6 16) [98; 121; 101] 0 /\
  firstn 64 c = firstn 64 c' /\ xor_bytes (skipn 96 c) (skipn 96 c') = [10; 16; 68].
Proof.
  destruct (ex_run (repeat 5 16) 104 105 33) as [c E]; [lia..|]. destruct (ex_run (repeat 6 16) 98 121 101) as [c' E']; [lia..|].
  pose proof (ex_ok 104 105 33 ltac:(lia) ltac:(lia) ltac:(lia)) as H. pose proof (ex_ok 98 121 101 ltac:(lia) ltac:(lia) ltac:(lia)) as H'.
  pose proof (Prop_SM2Enc4.sbm_range exact_prims exact_32) as RS. pose proof (Prop_SM2Enc4.sm_range exact_prims exact_32) as RM.
  destruct (parts toy_sha zero_aes XS XM (fun _ => eq_refl) ex_zlen RS RM _ _ _ _ _ H E) as (i & I & U & _ & Wx & Wy).
  destruct (parts toy_sha zero_aes XS XM (fun _ => eq_refl) ex_zlen RS RM _ _ _ _ _ H' E') as (i' & I' & U' & _ & Wx' & Wy').
  replace i with 0%nat in * by lia. replace i' with 0%nat in * by lia. exists c, c'. do 4 (split; [assumption|]).
  assert (D : forall ent data, drawn toy_sha zero_aes pub2 ent data 0 = 1) by (intros ent data; apply (example_nonce toy_sha ent data (big_bytes (pk_X pub2)))).
  apply written_0 in Wx; [|intros j; apply RS]. apply written_0 in Wy; [|intros j; apply RS].
  apply written_0 in Wx'; [|intros j; apply RS]. apply written_0 in Wy'; [|intros j; apply RS]. rewrite D in Wx, Wy, Wx', Wy'.
  assert (F : firstn 64 c = firstn 64 c').
  { assert (S64 : forall l : bytes, firstn 64 l = firstn 32 l ++ firstn 32 (skipn 32 l)).
    { intros l. rewrite <- (firstn_skipn 32 (firstn 64 l)). rewrite firstn_firstn, skipn_firstn_comm. reflexivity. }
    rewrite !S64, Wx, Wy, Wx', Wy'. reflexivity. }
  split; [exact F|].
  exact (proj2 (C103_same_c1 toy_sha zero_aes XS XM (fun _ => eq_refl) ex_zlen RS RM sm2_E eq_refl ex_sbm _ _ _ _ _ _ _ _ _ H H' E E' U U' F)).
Qed.
