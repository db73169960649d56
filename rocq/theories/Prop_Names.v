(** * Prop_Names: property C73, the curve names of /repo/keypair/ecurves.go *)
From Coq Require Import ZArith String Ascii List Bool Lia.
From Verif Require Import Base BaseFacts Curves ECKey Keypair AES Spec_AES AESFacts Encrypt EncryptFacts Spec_EC Spec_Keys KeyFacts Spec_SHA2 Prop_Encrypt Spec_Names.
Import ListNotations.
Open Scope Z_scope.

Definition is_ascii (a : ascii) : bool := (nat_of_ascii a <? 128)%nat.
Fixpoint all_ascii (s : string) : bool :=
  match s with EmptyString => true | String a s' => is_ascii a && all_ascii s' end.

(** facts about single characters, by running through all 256 of them *)
Definition all_bits := [false; true].
Definition chars : list ascii :=
  flat_map (fun a => flat_map (fun b => flat_map (fun c => flat_map (fun d => flat_map (fun e => flat_map (fun f =>
  flat_map (fun g => map (fun h => Ascii a b c d e f g h) all_bits) all_bits) all_bits) all_bits) all_bits) all_bits) all_bits) all_bits.
Lemma chars_all : forall a, In a chars.
Proof.
  assert (B : forall b, In b all_bits) by (intros []; cbn; auto).
  intros [a b c d e f g h]. unfold chars.
  repeat (apply in_flat_map; eexists; split; [apply B|]). apply in_map. apply B.
Qed.
Lemma char_dec : forall P : ascii -> bool, forallb P chars = true -> forall a, P a = true.
Proof. intros P H a. rewrite forallb_forall in H. apply H, chars_all. Qed.

Definition same_letter (a b : ascii) : bool :=
  Ascii.eqb a b || existsb (fun p => (Ascii.eqb (fst p) a && Ascii.eqb (snd p) b) || (Ascii.eqb (fst p) b && Ascii.eqb (snd p) a)) cases.
Lemma upper_iff : forall a b, is_ascii a = true ->
  Ascii.eqb (upper_ascii b) (upper_ascii a) = same_letter a b.
Proof.
  assert (H : forall a, (fun a => forallb (fun b => negb (is_ascii a) || Bool.eqb (Ascii.eqb (upper_ascii b) (upper_ascii a)) (same_letter a b)) chars) a = true)
    by (apply char_dec; vm_compute; reflexivity).
  intros a b A. specialize (H a). cbv beta in H. rewrite forallb_forall in H. specialize (H b (chars_all b)).
  rewrite A in H. cbn [negb orb] in H. apply Bool.eqb_prop in H. exact H.
Qed.
Lemma same_writes : forall a b, same_letter a b = true -> writes a (String b "").
Proof.
  intros a b H. unfold same_letter in H. apply orb_true_iff in H as [H|H].
  - apply Ascii.eqb_eq in H as ->. constructor.
  - apply existsb_exists in H as ((u & l) & I & H). cbn [fst snd] in H.
    apply orb_true_iff in H as [H|H]; apply andb_true_iff in H as [H1 H2]; apply Ascii.eqb_eq in H1, H2; subst; constructor; exact I.
Qed.
Lemma writes_same : forall a b, writes a (String b "") -> same_letter a b = true.
Proof.
  intros a b H. unfold same_letter. apply orb_true_iff. inversion H; subst.
  - left. apply Ascii.eqb_refl.
  - right. apply existsb_exists. eexists. split; [eassumption|]. cbn [fst snd]. rewrite !Ascii.eqb_refl. reflexivity.
  - right. apply existsb_exists. eexists. split; [eassumption|]. cbn [fst snd]. rewrite !Ascii.eqb_refl. apply orb_true_r.
Qed.
Lemma two_bytes_iff : forall a b x y, two_bytes a b x y = true -> nat_of_ascii a = x /\ nat_of_ascii b = y.
Proof. intros a b x y H. unfold two_bytes in H. apply andb_true_iff in H as [H1 H2]. apply Nat.eqb_eq in H1, H2. auto. Qed.
Lemma char_of : forall a n, nat_of_ascii a = n -> a = ascii_of_nat n.
Proof. intros a n <-. symmetry. apply ascii_nat_embedding. Qed.
Lemma special_upper : forall a u, is_ascii a = true -> upper_ascii a = u ->
  (u = "S"%char -> a = "S"%char \/ a = "s"%char) /\ (u = "I"%char -> a = "I"%char \/ a = "i"%char).
Proof.
  intros a u A <-.
  assert (H : forall a, (fun a => (negb (Ascii.eqb (upper_ascii a) "S") || (Ascii.eqb a "S" || Ascii.eqb a "s")) &&
     (negb (Ascii.eqb (upper_ascii a) "I") || (Ascii.eqb a "I" || Ascii.eqb a "i"))) a = true) by (apply char_dec; vm_compute; reflexivity).
  specialize (H a). cbv beta in H. apply andb_true_iff in H as [H1 H2].
  split; intros E; rewrite E in *.
  - rewrite Ascii.eqb_refl in H1. cbn [negb orb] in H1. apply orb_true_iff in H1 as [H|H]; apply Ascii.eqb_eq in H; auto.
  - rewrite Ascii.eqb_refl in H2. cbn [negb orb] in H2. apply orb_true_iff in H2 as [H|H]; apply Ascii.eqb_eq in H; auto.
Qed.
Lemma same_ascii : forall a b, is_ascii a = true -> same_letter a b = true -> is_ascii b = true.
Proof.
  assert (H : forall a, (fun a => forallb (fun b => negb (is_ascii a) || negb (same_letter a b) || is_ascii b) chars) a = true)
    by (apply char_dec; vm_compute; reflexivity).
  intros a b A S. specialize (H a). cbv beta in H. rewrite forallb_forall in H. specialize (H b (chars_all b)).
  rewrite A, S in H. exact H.
Qed.
Lemma ToUpper_cons : forall a s, is_ascii a = true -> ToUpper (String a s) = String (upper_ascii a) (ToUpper s).
Proof.
  intros a s A. unfold is_ascii in A. apply Nat.ltb_lt in A. destruct s as [|b t]; [reflexivity|].
  cbn [ToUpper]. unfold two_bytes.
  destruct (Nat.eqb_spec (nat_of_ascii a) 197); [lia|]. destruct (Nat.eqb_spec (nat_of_ascii a) 196); [lia|]. reflexivity.
Qed.
Lemma ToUpper_spells : forall n, all_ascii n = true -> forall s, ToUpper s = ToUpper n <-> spells s n.
Proof.
  induction n as [|a n IH]; intros A s.
  - split.
    + destruct s as [|b [|c t]]; [constructor|discriminate|]. cbn [ToUpper].
      destruct (two_bytes b c 197 191); [discriminate|]. destruct (two_bytes b c 196 177); discriminate.
    + intros H. inversion H; subst. reflexivity.
  - cbn [all_ascii] in A. apply andb_true_iff in A as [Aa An]. specialize (IH An). rewrite (ToUpper_cons a n Aa).
    split.
    + intros H.
      assert (ORD : forall b t, String (upper_ascii b) (ToUpper t) = String (upper_ascii a) (ToUpper n) -> spells (String b t) (String a n)).
      { intros b t E. injection E as E1 E2. apply IH in E2.
        apply (spells_cons a n (String b "") t); [|exact E2]. apply same_writes. rewrite <- (upper_iff a b Aa), E1. apply Ascii.eqb_refl. }
      destruct s as [|b [|c t]]; [discriminate|apply ORD; exact H|].
      cbn [ToUpper] in H. destruct (two_bytes b c 197 191) eqn:S1.
      * apply two_bytes_iff in S1 as [B C]. apply char_of in B, C. subst b c. injection H as E1 E2. apply IH in E2.
        apply (spells_cons a n (String "197" (String "191" "")) t); [|exact E2]. constructor.
        apply (proj1 (special_upper a _ Aa eq_refl)). symmetry. exact E1.
      * destruct (two_bytes b c 196 177) eqn:S2; [|apply ORD; exact H].
        apply two_bytes_iff in S2 as [B C]. apply char_of in B, C. subst b c. injection H as E1 E2. apply IH in E2.
        apply (spells_cons a n (String "196" (String "177" "")) t); [|exact E2]. constructor.
        apply (proj2 (special_upper a _ Aa eq_refl)). symmetry. exact E1.
    + intros H. inversion H as [|a' n' w s' W S]; subst. apply IH in S.
      assert (ONE : forall b, writes a (String b "") -> ToUpper (String b s') = String (upper_ascii a) (ToUpper n)).
      { intros b Wb. apply writes_same in Wb. rewrite (ToUpper_cons b s' (same_ascii a b Aa Wb)), S. f_equal.
        rewrite <- (upper_iff a b Aa) in Wb. apply Ascii.eqb_eq in Wb. exact Wb. }
      inversion W as [x|u l I|u l I|x D|x D]; subst; cbn [append].
      * apply ONE; constructor.
      * apply ONE; constructor; exact I.
      * apply ONE; constructor; exact I.
      * change (ToUpper (String "197" (String "191" s'))) with (String "S" (ToUpper s')). rewrite S.
        destruct D as [->| ->]; reflexivity.
      * change (ToUpper (String "196" (String "177" s'))) with (String "I" (ToUpper s')). rewrite S.
        destruct D as [->| ->]; reflexivity.
Qed.

(** ** C73 *)
Lemma label_cases : forall l c, GetCurve l = Ok c <-> label_of c l.
Proof. intros l c. split; [apply GetCurve_inv|]. intros H. apply (proj1 (GetCurve_label c l H)). Qed.
Lemma names_ascii : forall c l, label_of c l -> all_ascii (c_name c) = true.
Proof.
  intros c l H. unfold label_of in H. repeat match type of H with _ \/ _ => destruct H as [H|H] end; destruct H as [-> ->]; reflexivity.
Qed.
Lemma upper_empty : forall s, ToUpper s = ""%string <-> s = ""%string.
Proof.
  intros s. rewrite (ToUpper_spells "" eq_refl s). split; [|intros ->; constructor]. intros H. inversion H. reflexivity.
Qed.

(** The names accepted are exactly the spellings of the six curve names and, for secp256k1, the
    empty string; and the label is that of the curve that is spelled. *)
Theorem C73_named_label_exact : forall s l, GetNamedCurveLabel s = Ok l <->
  (s = ""%string /\ l = 5) \/ exists c, label_of c l /\ spells s (c_name c).
Proof.
  intros s l.
  assert (U : forall c m, label_of c m -> spells s (c_name c) <-> ToUpper s = ToUpper (c_name c)).
  { intros c m H. symmetry. apply ToUpper_spells. apply (names_ascii c m H). }
  assert (L : forall m c, GetCurve m = Ok c -> label_of c m) by apply GetCurve_inv.
  split.
  - unfold GetNamedCurveLabel. cbv zeta.
    repeat match goal with |- (if String.eqb ?x (ToUpper (c_name ?c)) then Ok ?m else _) = _ -> _ =>
      destruct (String.eqb_spec x (ToUpper (c_name c))) as [E|_];
      [intros Q; injection Q as <-; right; exists c; assert (Lb : label_of c m) by (unfold label_of; auto 10);
       split; [exact Lb|apply (U c m Lb); exact E]|] end.
    destruct (String.eqb_spec (ToUpper s) "") as [E|_]; [|discriminate].
    intros Q. injection Q as <-. left. split; [apply upper_empty; exact E|reflexivity].
  - intros [(-> & ->)|(c & Lb & Sp)]; [reflexivity|]. apply (U c l Lb) in Sp. unfold GetNamedCurveLabel. rewrite Sp.
    unfold label_of in Lb.
    repeat match type of Lb with _ \/ _ => destruct Lb as [Lb|Lb] end; destruct Lb as [-> ->]; reflexivity.
Qed.
Print Assumptions C73_named_label_exact.

Theorem C73_named_curve_exact : forall s c, GetNamedCurve s = Ok c <->
  (s = ""%string /\ c = S256) \/ (exists l, label_of c l) /\ spells s (c_name c).
Proof.
  intros s c. unfold GetNamedCurve. split.
  - destruct (GetNamedCurveLabel s) as [l|] eqn:E; [|discriminate]. intros H. apply label_cases in H.
    apply C73_named_label_exact in E as [(-> & ->)|(d & Ld & Sp)].
    + left. split; [reflexivity|]. apply (label_inj c S256 5 H). unfold label_of. auto 10.
    + right. split; [exists l; exact H|]. rewrite (label_inj c d l H Ld). exact Sp.
  - intros [(-> & ->)|((l & Lb) & Sp)]; [reflexivity|].
    assert (E : GetNamedCurveLabel s = Ok l) by (apply C73_named_label_exact; right; exists c; auto).
    rewrite E. apply label_cases. exact Lb.
Qed.
Print Assumptions C73_named_curve_exact.

(** A string spells at most one curve. *)
Theorem C73_spelling_unique : forall s c d l m, label_of c l -> label_of d m ->
  spells s (c_name c) -> spells s (c_name d) -> c = d.
Proof.
  intros s c d l m Lc Ld Sc Sd.
  assert (E1 : GetNamedCurve s = Ok c) by (apply C73_named_curve_exact; eauto).
  assert (E2 : GetNamedCurve s = Ok d) by (apply C73_named_curve_exact; eauto). congruence.
Qed.
Print Assumptions C73_spelling_unique.

(** The algorithm and the curve in the stored record are not covered by the authentication tag:
    with the right password, a record whose "algorithm" and "curve" fields were replaced decrypts
    to a key of the other algorithm on the other curve, with the same secret bytes.  The missing
    "curve" field is one such replacement. *)
Theorem C73_header_not_authenticated : forall sbm scrypt bc sha256,
  bc_shape bc ->
  (forall pwd salt N r p l k, scrypt pwd salt N r p l = Ok k -> Z.of_nat (length k) = l /\ octets k) ->
  forall k salt addr pwd param dkey prot alg a name c,
  whole sbm k -> 32 <= sp_DKLen param ->
  scrypt pwd salt (sp_N param) (sp_R param) (sp_P param) (sp_DKLen param) = Ok dkey ->
  EncryptWithCustomScrypt scrypt bc (Ok salt) k addr pwd param = Val (Ok prot) -> pwd <> [] ->
  (alg = "ECDSA"%string /\ a = 0 \/ alg = "SM2"%string /\ a = 1) ->
  (name = ""%string /\ c = S256 \/ (exists l, label_of c l) /\ spells name (c_name c)) ->
  DecryptWithCustomScrypt sbm scrypt bc sha256
    (Some {| pt_Address := pt_Address prot; pt_EncAlg := pt_EncAlg prot; pt_Key := pt_Key prot; pt_Alg := alg;
             pt_Salt := pt_Salt prot; pt_curve := name |}) pwd param =
  Val (Ok (SkEC a (value (secret k) 0) {| pk_curve := c; pk_X := fst (sbm c (secret k)); pk_Y := snd (sbm c (secret k)) |})).
Proof.
  intros sbm scrypt bc sha256 Hbc Hsc k salt addr pwd param dkey prot alg a name c W D Sc E Np Ha Hc.
  assert (K : kdf scrypt pwd salt param = Ok dkey).
  { unfold kdf. destruct (Z.ltb_spec (sp_DKLen param) 32); [lia|exact Sc]. }
  destruct (whole_storable sbm k W) as (alg0 & cn0 & St & _).
  rewrite (encrypt_val scrypt bc Hbc Hsc k alg0 cn0 salt addr pwd param dkey St K) in E.
  assert (Eq : forall u v : ProtectedKey, Val (Ok u) = Val (Ok v) -> u = v) by congruence. apply Eq in E. clear Eq.
  rewrite <- E. cbn [pt_Address pt_EncAlg pt_Key pt_Salt].
  apply (decrypt_gcm_val sbm scrypt bc sha256 Hbc Hsc _ pwd param dkey (secret k) _ Np); cbn [pt_Address pt_EncAlg pt_Key pt_Salt pt_Alg pt_curve]; auto.
  right. exists a, c. split; [exact Ha|]. split; [apply C73_named_curve_exact; exact Hc|reflexivity].
Qed.
Print Assumptions C73_header_not_authenticated.

(** ** Concrete cases *)
Example C73_spellings :
  GetNamedCurveLabel "sm2p256v1" = Ok 20 /\ GetNamedCurveLabel "SM2P256V1" = Ok 20 /\ GetNamedCurveLabel "p-256" = Ok 2 /\
  GetNamedCurveLabel "P-521" = Ok 4 /\ GetNamedCurveLabel "SecP256k1" = Ok 5 /\ GetNamedCurveLabel "" = Ok 5 /\
  GetNamedCurveLabel (String "197" (String "191" "m2p256v1")) = Ok 20 /\
  (exists e, GetNamedCurveLabel "P256" = Err e) /\ (exists e, GetNamedCurveLabel "ed25519" = Err e) /\
  (exists e, GetNamedCurveLabel "p-256 " = Err e) /\
  (exists e, GetNamedCurveLabel (String "226" (String "132" (String "170" ""))) = Err e).
Proof. repeat split; try reflexivity; eexists; reflexivity. Qed.
Example C73_long_s : spells (String "197" (String "191" "m2p256v1")) (c_name SM2P256V1) /\ label_of SM2P256V1 20.
Proof.
  split; [|unfold label_of; auto 10]. apply (spells_cons "s" "m2p256v1" (String "197" (String "191" "")) "m2p256v1").
  - constructor. right. reflexivity.
  - apply ToUpper_spells; reflexivity.
Qed.
(** the record of C28_runs, its curve replaced by the long-s spelling, then removed *)
Example C73_header_runs : exists prot,
  EncryptWithCustomScrypt toy_scrypt aes_cipher (Ok toy_salt) toy_key [65; 66] [1; 2; 3] toy_param = Val (Ok prot) /\
  DecryptWithCustomScrypt toy_sbm toy_scrypt aes_cipher SHA256
    (Some {| pt_Address := pt_Address prot; pt_EncAlg := pt_EncAlg prot; pt_Key := pt_Key prot; pt_Alg := "ECDSA";
             pt_Salt := pt_Salt prot; pt_curve := "" |}) [1; 2; 3] toy_param =
  Val (Ok (SkEC 0 77 {| pk_curve := S256; pk_X := 77; pk_Y := 78 |})).
Proof. eexists. split; [vm_compute; reflexivity|]. vm_compute. reflexivity. Qed.
