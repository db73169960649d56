(** * Prop_Entropy: C91, the random bytes that the signers, sm2.Encrypt and the key encryption use *)
From Coq Require Import ZArith Znumtheory Zpow_facts String List Bool Lia.
From Verif Require Import Base BaseFacts Curves ECKey Keypair SM3 Spec_EC ECFacts ECFacts2 Spec_Keys KeyFacts Prop_Keys Spec_Group Spec_SM3 Spec_SM2 SM2Sig Prop_SM2 Prop_SM2b
  NumTheory LucasFacts CurveZ CurveRoot Elliptic EllipticFacts CurveWhole Prop_Whole SM2Generic Spec_ECDSA Spec_Gen Signature Spec_Sig SigFacts Prop_Sig Prop_Sig2 SigWhole Prop_SigWhole
  AES AESFacts Spec_AES Encrypt Entropy Spec_Entropy SM3Facts SM3Hist SM2EncFacts.
From Verif Require ECDSA Prop_ECDSA Prop_Generic SM2Enc Prop_SM2Enc Prop_Encrypt.
Import ListNotations.
Open Scope Z_scope.

(** ** ReadFull *)
(** the bytes that a reader will deliver *)
Definition stream (r : reader) : bytes := concat (rd_chunks r).

Lemma read_loop_ok : forall n fuel r acc, (length (rd_chunks r) < fuel)%nat -> (length acc < n)%nat ->
  exists acc' err r', read_loop fuel r n acc None = Val (acc', err, r') /\ rd_end r' = rd_end r /\
    ((err = None /\ acc' = acc ++ firstn (n - length acc) (stream r) /\ length acc' = n /\ stream r' = skipn (n - length acc) (stream r)) \/
     (err = Some (rd_end r) /\ acc' = acc ++ stream r /\ (length acc' < n)%nat /\ stream r' = [])).
Proof.
  intros n. induction fuel as [|f IH]; intros r acc F L; [lia|].
  cbn [read_loop]. destruct (Nat.leb_spec n (length acc)) as [C|_]; [lia|].
  unfold Read. destruct r as [cs e]. unfold stream. cbn [rd_chunks rd_end] in *. destruct cs as [|c cs].
  - exists (acc ++ []), (Some e), {| rd_chunks := []; rd_end := e |}. rewrite app_nil_r.
    split; [destruct f; cbn [read_loop]; (destruct (Nat.leb_spec n (length acc)); [lia|reflexivity])|]. split; [reflexivity|].
    right. cbn [concat]. rewrite app_nil_r. repeat split; assumption.
  - cbn [length] in F. destruct (Nat.leb_spec (length c) (n - length acc)) as [Q|Q].
    + destruct (Nat.eq_dec (length (acc ++ c)) n) as [E|E].
      * exists (acc ++ c), None, {| rd_chunks := cs; rd_end := e |}.
        split; [destruct f; cbn [read_loop]; (destruct (Nat.leb_spec n (length (acc ++ c))); [reflexivity|lia])|]. split; [reflexivity|].
        left. rewrite app_length in E. split; [reflexivity|]. cbn [concat]. replace (n - length acc)%nat with (length c + 0)%nat by lia.
        rewrite firstn_app_2, skipn_app, skipn_all2 by lia. cbn [firstn]. rewrite app_nil_r, app_length. split; [reflexivity|]. split; [lia|].
        replace (length c + 0 - length c)%nat with 0%nat by lia. reflexivity.
      * rewrite app_length in E. destruct (IH {| rd_chunks := cs; rd_end := e |} (acc ++ c)) as (acc' & err & r' & E1 & E2 & E3); [cbn [rd_chunks]; lia|rewrite app_length; lia|].
        exists acc', err, r'. split; [exact E1|]. split; [exact E2|]. unfold stream in E3. cbn [rd_chunks rd_end concat] in *.
        rewrite app_length in E3. destruct E3 as [(A & B & C & D)|(A & B & C & D)]; [left|right].
        { split; [exact A|]. replace (n - length acc)%nat with (length c + (n - (length acc + length c)))%nat by lia.
          rewrite firstn_app_2, skipn_app, skipn_all2 by lia. cbn [app].
          replace (length c + (n - (length acc + length c)) - length c)%nat with (n - (length acc + length c))%nat by lia.
          rewrite B, <- app_assoc. rewrite B, <- app_assoc in C. repeat split; assumption. }
        { rewrite B, <- app_assoc. rewrite B, <- app_assoc in C. repeat split; assumption. }
    + exists (acc ++ firstn (n - length acc) c), None, {| rd_chunks := skipn (n - length acc) c :: cs; rd_end := e |}.
      assert (E : length (acc ++ firstn (n - length acc) c) = n) by (rewrite app_length, firstn_length; lia).
      split; [destruct f; cbn [read_loop]; rewrite E, Nat.leb_refl; reflexivity|]. split; [reflexivity|].
      left. split; [reflexivity|]. cbn [concat]. rewrite firstn_app, skipn_app.
      replace (n - length acc - length c)%nat with 0%nat by lia. cbn [firstn skipn]. rewrite app_nil_r. repeat split; assumption.
Qed.

(** ReadFull gives the next n bytes however they arrive; with fewer of them, the error of the source, or "unexpected EOF" for a
    source that ends in the middle *)
Theorem C91_read_full : forall r n, exists o r', ReadFull r n = Val (o, r') /\ rd_end r' = rd_end r /\ reads n (stream r) (rd_end r) o (stream r').
Proof.
  intros r n. unfold ReadFull. destruct (Nat.eq_dec n 0) as [->|N].
  - exists (Ok []), r. split; [reflexivity|]. split; [reflexivity|]. apply (rd_all 0 []). reflexivity.
  - destruct (read_loop_ok n (S (length (rd_chunks r))) r [] ltac:(lia) ltac:(cbn; lia)) as (acc & err & r' & E1 & E2 & E3).
    rewrite E1. cbn [bind]. cbn [length] in E3. rewrite Nat.sub_0_r in E3. cbn [app] in E3.
    destruct E3 as [(-> & A & B & C)|(-> & A & B & C)].
    + rewrite B, Nat.leb_refl. exists (Ok acc), r'. split; [reflexivity|]. split; [exact E2|].
      rewrite C. rewrite <- (firstn_skipn n (stream r)) at 1. rewrite <- A. apply rd_all. exact B.
    + destruct (Nat.leb_spec n (length acc)) as [Q|_]; [lia|]. subst acc.
      destruct (Nat.ltb_spec 0 (length (stream r))) as [P|P].
      * cbn [andb]. destruct (String.eqb_spec (rd_end r) "EOF") as [Q|Q]; eexists; exists r'; (split; [reflexivity|]; split; [exact E2|]).
        { rewrite Q, C. apply rd_cut. lia. }
        { rewrite C. apply rd_broken; [lia|exact Q]. }
      * cbn [andb]. eexists. exists r'. split; [reflexivity|]. split; [exact E2|]. rewrite C. destruct (stream r); [|cbn in P; lia]. apply rd_nothing. lia.
Qed.
Lemma reads_enough : forall n l e o rest, reads n l e o rest -> (n <= length l)%nat -> o = Ok (firstn n l) /\ rest = skipn n l.
Proof.
  intros n l e o rest R L. inversion R as [b rs e' B|e' B|b B|b e' B]; subst; cbn [length] in *; try lia.
  rewrite firstn_app, skipn_app, firstn_all, skipn_all, Nat.sub_diag. cbn [firstn skipn app]. rewrite app_nil_r. split; reflexivity.
Qed.
Lemma reads_short : forall n l e o rest, reads n l e o rest -> (length l < n)%nat -> rest = [] /\
  exists m, o = Err m /\ (m = e \/ (m = "unexpected EOF"%string /\ e = "EOF"%string /\ l <> [])).
Proof.
  intros n l e o rest R L. inversion R as [b rs e' B|e' B|b B|b e' B]; subst; cbn [length] in *; try (rewrite app_length in L; lia).
  - split; [reflexivity|]. eexists. split; [reflexivity|]. left. reflexivity.
  - split; [reflexivity|]. eexists. split; [reflexivity|]. right. repeat split. intros ->. cbn in B. lia.
  - split; [reflexivity|]. eexists. split; [reflexivity|]. left. reflexivity.
Qed.
Lemma read_enough : forall r n, (n <= length (stream r))%nat -> exists r', ReadFull r n = Val (Ok (firstn n (stream r)), r') /\ stream r' = skipn n (stream r).
Proof.
  intros r n L. destruct (C91_read_full r n) as (o & r' & E & _ & R). destruct (reads_enough _ _ _ _ _ R L) as [-> S]. exists r'. split; assumption.
Qed.
(** the error of a read that gets too little *)
Definition short_error (l : bytes) (e m : string) : Prop := m = e \/ (m = "unexpected EOF"%string /\ e = "EOF"%string /\ l <> []).
Lemma read_short : forall r n, (length (stream r) < n)%nat -> exists m r', ReadFull r n = Val (Err m, r') /\ stream r' = [] /\ short_error (stream r) (rd_end r) m.
Proof.
  intros r n L. destruct (C91_read_full r n) as (o & r' & E & _ & R). destruct (reads_short _ _ _ _ _ R L) as (S & m & -> & M). exists m, r'. repeat split; assumption.
Qed.
(** MaybeReadByte takes at most one byte *)
Lemma maybe_stream : forall coin r, rd_end (MaybeReadByte coin r) = rd_end r /\
  exists j, (j <= 1)%nat /\ stream (MaybeReadByte coin r) = skipn j (stream r) /\ (coin = false -> j = 0%nat).
Proof.
  intros [] r; unfold MaybeReadByte; [|split; [reflexivity|]; exists 0%nat; repeat split; lia].
  unfold Read, stream. destruct r as [[|c cs] e]; cbn [rd_chunks rd_end].
  - cbn [snd rd_end rd_chunks concat]. split; [reflexivity|]. exists 0%nat. repeat split; lia.
  - destruct (Nat.leb_spec (length c) 1) as [Q|Q]; cbn [snd rd_end rd_chunks concat].
    + split; [reflexivity|]. exists (length c). split; [exact Q|]. rewrite skipn_app, skipn_all, Nat.sub_diag. split; [reflexivity|discriminate].
    + split; [reflexivity|]. exists 1%nat. split; [lia|]. rewrite skipn_app. replace (1 - length c)%nat with 0%nat by lia. split; [reflexivity|discriminate].
Qed.

(** ** How many bytes *)
(** half as many as the size of the field has, and at most 32 *)
Theorem C91_lengths : forall c a, supported c a -> exists n, entropy_len c = n /\ ECDSA.entropylen c = n /\
  (c_name c = "P-224"%string /\ n = 14 \/ c_name c = "P-384"%string /\ n = 24 \/ c_name c = "P-521"%string /\ n = 32 \/
   (c_name c = "P-256"%string \/ c_name c = "secp256k1"%string \/ c_name c = "sm2p256v1"%string) /\ n = 16).
Proof. intros c a H. destruct H; eexists; (split; [reflexivity|]; split; [reflexivity|]); vm_compute; tauto. Qed.

(** ** What the readers do to the results *)
Lemma supported_pos : forall c a, supported c a -> (0 < Z.to_nat (ECDSA.entropylen c))%nat.
Proof. intros c a H. destruct H; vm_compute; lia. Qed.
Section Signers.
Variable sha512 : bytes -> bytes.
Variable aes : bytes -> bytes -> bytes.
(** crypto/ecdsa: the entropy is the next bytes of the reader, or of the reader after one byte has been dropped; too few bytes and the
    error of ReadFull is returned *)
Theorem C91_ecdsa_reads : forall sbm inv fuel coin r D pub dg a n, supported (pk_curve pub) a -> ECDSA.entropylen (pk_curve pub) = Z.of_nat n ->
  let signR := ecdsa_SignR sha512 aes sbm inv fuel coin r D pub dg in
  exists j, (j <= 1)%nat /\ (coin = false -> j = 0%nat) /\
    ((j + n <= length (stream r))%nat -> exists r', stream r' = skipn n (skipn j (stream r)) /\
       signR = let* o := ECDSA.Sign sha512 aes sbm inv fuel (Ok (firstn n (skipn j (stream r)))) D pub dg in Val (o, r')) /\
    ((length (stream r) < j + n)%nat -> exists m r', stream r' = [] /\ short_error (skipn j (stream r)) (rd_end r) m /\ signR = Val (Err m, r')).
Proof.
  intros sbm inv fuel coin r D pub dg a n Hs Hn. unfold ecdsa_SignR. cbv zeta. destruct (maybe_stream coin r) as (Re & j & J1 & J2 & J3).
  pose proof (supported_pos _ _ Hs) as NP. rewrite Hn, Nat2Z.id in *.
  exists j. split; [exact J1|]. split; [exact J3|]. split; intros L.
  - destruct (read_enough (MaybeReadByte coin r) n) as (r' & E & S); [rewrite J2, skipn_length; lia|].
    exists r'. rewrite E. cbn [bind fst snd]. rewrite J2 in *. split; [exact S|reflexivity].
  - destruct (read_short (MaybeReadByte coin r) n) as (m & r' & E & S & M); [rewrite J2, skipn_length; lia|].
    exists m, r'. rewrite E. rewrite J2, Re in M. cbn [bind fst snd ECDSA.Sign]. repeat split; assumption.
Qed.
(** sm2.Sign: the next 16 bytes; nothing is read for a key on another curve *)
Theorem C91_sm2_reads : forall sbm inv fuel r D k id msg hasher,
  let signR := sm2_SignR sha512 aes sbm inv fuel r D k id msg hasher in
  (inputs_ok k id msg hasher ->
    ((16 <= length (stream r))%nat -> exists r', stream r' = skipn 16 (stream r) /\
       signR = let* o := SM2Sig.Sign sha512 aes sbm inv fuel (Ok (firstn 16 (stream r))) D k id msg hasher in Val (o, r')) /\
    ((length (stream r) < 16)%nat -> exists m r', stream r' = [] /\ short_error (stream r) (rd_end r) m /\ signR = Val (Err m, r'))) /\
  (c_name (pk_curve k) <> c_name SM2P256V1 -> exists e, signR = Val (Err e, r)).
Proof.
  intros sbm inv fuel r D k id msg hasher. unfold sm2_SignR. cbv zeta. split.
  - intros I. assert (I2 := I). destruct I2 as (Hc & HC & Hh & Oi & Om & Li & Lm).
    destruct (getZ_ok k id msg hasher Hc HC Hh Oi Li) as (h & Hh' & E1). rewrite E1. cbn [bind]. rewrite Hc.
    change (Z.to_nat (entropy_len SM2P256V1)) with 16%nat. split; intros L.
    + destruct (read_enough r 16 L) as (r' & E & S). exists r'. rewrite E. split; [exact S|reflexivity].
    + destruct (read_short r 16 L) as (m & r' & E & S & M). exists m, r'. split; [exact S|]. split; [exact M|]. rewrite E. cbn [bind fst snd].
      unfold SM2Sig.Sign. rewrite E1. cbn [bind].
      pose proof (sm3_hash_shape (za_input (effective_id id) (big_bytes (pk_X k)) (big_bytes (pk_Y k)))) as [Ls W].
      rewrite hash_msg_ok; [reflexivity|exact Hh'|apply Forall_app; split; assumption|].
      unfold zlen in *. rewrite app_length, Ls. change (2 ^ 61) with (2 * 2 ^ 60). assert (2 ^ 60 > 1000) by reflexivity. lia.
  - intros N. destruct (C46_other_curves_rejected k id msg hasher N) as [e E]. exists e. rewrite E. reflexivity.
Qed.
(** sm2.Encrypt: the next 16 bytes *)
Theorem C91_encrypt_reads : forall sbm sm fuel r pub data, pk_curve pub = SM2P256V1 -> octets data -> zlen data < 2 ^ 60 ->
  let encR := EncryptR sha512 aes sbm sm fuel r pub data in
  ((16 <= length (stream r))%nat -> exists r', stream r' = skipn 16 (stream r) /\
     encR = let* o := SM2Enc.Encrypt sha512 aes sbm sm fuel (Ok (firstn 16 (stream r))) pub data in Val (o, r')) /\
  ((length (stream r) < 16)%nat -> exists m r', stream r' = [] /\ short_error (stream r) (rd_end r) m /\ encR = Val (Err m, r')).
Proof.
  intros sbm sm fuel r pub data Hc Od Ld. unfold EncryptR. cbv zeta. rewrite Hc. change (is_SM2Curve SM2P256V1) with true. cbn [negb].
  change (Z.to_nat (Z.min 32 ((c_bits SM2P256V1 + 7) / 16))) with 16%nat. split; intros L.
  - destruct (read_enough r 16 L) as (r' & E & S). exists r'. rewrite E. split; [exact S|reflexivity].
  - destruct (read_short r 16 L) as (m & r' & E & S & M). exists m, r'. split; [exact S|]. split; [exact M|]. rewrite E. cbn [bind fst snd].
    unfold SM2Enc.Encrypt. rewrite Hc. change (is_SM2Curve SM2P256V1) with true. cbn [negb]. cbv zeta.
    rewrite sum_hash; [reflexivity|exact Od|]. change (2 ^ 61) with (2 * 2 ^ 60). lia.
Qed.

(** the salt of an encrypted private key: the next 16 bytes; a source that ends is reported *)
Theorem C91_salt_reads : forall sbm scrypt bc sha256 r k addr pwd param dkey, bc_shape bc ->
  (forall pwd salt N r p l k, scrypt pwd salt N r p l = Ok k -> Z.of_nat (length k) = l /\ octets k) -> Prop_Encrypt.whole sbm k -> pwd <> [] ->
  let encR := EncryptWithCustomScryptR scrypt bc r k addr pwd param in
  ((16 <= length (stream r))%nat -> 32 <= sp_DKLen param -> scrypt pwd (firstn 16 (stream r)) (sp_N param) (sp_R param) (sp_P param) (sp_DKLen param) = Ok dkey ->
     exists prot r', encR = Val (Ok prot, r') /\ stream r' = skipn 16 (stream r) /\ pt_Salt prot = firstn 16 (stream r) /\
       DecryptWithCustomScrypt sbm scrypt bc sha256 (Some prot) pwd param = Val (Ok k)) /\
  ((length (stream r) < 16)%nat -> exists m r', stream r' = [] /\ short_error (stream r) (rd_end r) m /\
     encR = Val (Err ("encrypt private key error: " ++ m)%string, r')).
Proof.
  intros sbm scrypt bc sha256 r k addr pwd param dkey BC SS W NP. unfold EncryptWithCustomScryptR, randomBytes. cbv zeta. change (Z.to_nat 16) with 16%nat. split.
  - intros L HD Sc. destruct (read_enough r 16 L) as (r' & E & S). rewrite E. cbn [bind fst snd].
    destruct (Prop_Encrypt.C28_encrypt_decrypt sbm scrypt bc sha256 BC SS k (firstn 16 (stream r)) addr pwd param dkey W HD Sc) as (prot & E1 & _ & E2 & E3 & _).
    exists prot, r'. split; [exact (f_equal (fun m => let* o := m in Val (o, r')) E1)|]. split; [exact S|]. split; [exact E2|exact (E3 NP)].
  - intros L. destruct (read_short r 16 L) as (m & r' & E & S & M). exists m, r'. split; [exact S|]. split; [exact M|]. rewrite E. reflexivity.
Qed.

(** ** Few random bytes, few signatures *)
Lemma flat_map_size : forall (A B : Type) (f : A -> list B) m l, (forall x, length (f x) = m) -> length (flat_map f l) = (length l * m)%nat.
Proof. intros A B f m l E. induction l as [|x l IH]; [reflexivity|]. cbn [flat_map length Nat.mul]. rewrite app_length, IH, E. reflexivity. Qed.
Lemma flat_map_le : forall (A B : Type) (f : A -> list B) l, (forall x, (length (f x) <= 1)%nat) -> (length (flat_map f l) <= length l)%nat.
Proof. intros A B f l E. induction l as [|x l IH]; [reflexivity|]. cbn [flat_map length]. rewrite app_length. specialize (E x). lia. Qed.
Lemma strings : forall n, exists L : list bytes, Z.of_nat (length L) = 256 ^ Z.of_nat n /\ forall b, length b = n -> octets b -> In b L.
Proof.
  induction n as [|n (L & C & I)].
  - exists [[]]. split; [reflexivity|]. intros [|x b] E _; [left; reflexivity|discriminate E].
  - exists (flat_map (fun x => map (cons x) L) (map Z.of_nat (seq 0 256))). split.
    + rewrite Nat2Z.inj_succ, Z.pow_succ_r, <- C by lia. clear. change 256 with (Z.of_nat 256). rewrite <- Nat2Z.inj_mul. f_equal.
      rewrite (flat_map_size _ _ _ (length L)) by (intros; apply map_length). rewrite map_length, seq_length. reflexivity.
    + intros [|x b] E O; [discriminate E|]. injection E as E. pose proof (Forall_inv O) as X. apply Forall_inv_tail in O. cbv beta in X.
      apply in_flat_map. exists x. split; [|apply in_map, I; assumption].
      apply in_map_iff. exists (Z.to_nat x). split; [lia|]. apply in_seq. lia.
Qed.
Lemma pick : forall (v : go (res (Z * Z))) rs, v = Val (Ok rs) -> In rs (match v with Val (Ok rs) => [rs] | _ => [] end).
Proof. intros v rs ->. left. reflexivity. Qed.
Lemma octets_part : forall (l : bytes) i j, octets l -> octets (firstn i (skipn j l)).
Proof. intros l i j O. apply wf_firstn, wf_skipn. exact O. Qed.
(** whatever the reader delivers, the signatures of one digest by one key are among 256^n (n as in C91_lengths: 2^128 for P-256 and
    secp256k1's size), for any bound on the number of retries *)
Theorem C91_few_ecdsa : forall sbm inv fuel D pub dg a n, supported (pk_curve pub) a -> ECDSA.entropylen (pk_curve pub) = Z.of_nat n ->
  exists L : list (Z * Z), Z.of_nat (length L) <= 256 ^ Z.of_nat n /\
    forall coin r rs r', octets (stream r) -> ecdsa_SignR sha512 aes sbm inv fuel coin r D pub dg = Val (Ok rs, r') -> In rs L.
Proof.
  intros sbm inv fuel D pub dg a n Hs Hn. destruct (strings n) as (A & CA & IA).
  set (f := fun e => match ECDSA.Sign sha512 aes sbm inv fuel (Ok e) D pub dg with Val (Ok rs) => [rs] | _ => [] end).
  exists (flat_map f A). split.
  - rewrite <- CA. apply inj_le, flat_map_le. intros e. unfold f. destruct (ECDSA.Sign _ _ _ _ _ _ _ _ _) as [[?|?]| |]; cbn; lia.
  - intros coin r rs r' O E. destruct (C91_ecdsa_reads sbm inv fuel coin r D pub dg a n Hs Hn) as (j & J & _ & X & Y).
    destruct (le_lt_dec (j + n) (length (stream r))) as [Q|Q].
    + destruct (X Q) as (r2 & _ & S). rewrite S in E. apply bind_val in E as (o & E1 & E2). assert (o = Ok rs) by congruence. subst o.
      apply in_flat_map. exists (firstn n (skipn j (stream r))). split; [apply IA; [rewrite firstn_length, skipn_length; lia|apply octets_part; exact O]|].
      exact (pick _ rs E1).
    + destruct (Y Q) as (m & r2 & _ & _ & S). rewrite S in E. discriminate E.
Qed.
Theorem C91_few_sm2 : forall sbm inv fuel D k id msg hasher, inputs_ok k id msg hasher ->
  exists L : list (Z * Z), Z.of_nat (length L) <= 2 ^ 128 /\
    forall r rs r', octets (stream r) -> sm2_SignR sha512 aes sbm inv fuel r D k id msg hasher = Val (Ok rs, r') -> In rs L.
Proof.
  intros sbm inv fuel D k id msg hasher I. destruct (strings 16) as (A & CA & IA).
  set (f := fun e => match SM2Sig.Sign sha512 aes sbm inv fuel (Ok e) D k id msg hasher with Val (Ok rs) => [rs] | _ => [] end).
  exists (flat_map f A). split.
  - change (2 ^ 128) with (256 ^ Z.of_nat 16). rewrite <- CA. apply inj_le, flat_map_le. intros e. unfold f. destruct (SM2Sig.Sign _ _ _ _ _ _ _ _ _ _ _) as [[?|?]| |]; cbn; lia.
  - intros r rs r' O E. destruct (C91_sm2_reads sbm inv fuel r D k id msg hasher) as [X _]. destruct (X I) as [X1 X2].
    destruct (le_lt_dec 16 (length (stream r))) as [Q|Q].
    + destruct (X1 Q) as (r2 & _ & S). rewrite S in E. apply bind_val in E as (o & E1 & E2). assert (o = Ok rs) by congruence. subst o.
      apply in_flat_map. exists (firstn 16 (stream r)). split; [apply IA; [rewrite firstn_length; lia|apply wf_firstn; exact O]|].
      exact (pick _ rs E1).
    + destruct (X2 Q) as (m & r2 & _ & _ & S). rewrite S in E. discriminate E.
Qed.
End Signers.

(** ** A source that repeats itself *)
(** The key of the nonces is SHA-512 of D || entropy || digest (C65, C78).  One key, or digests of one length: the string determines all
    three, so even a source that always delivers the same bytes gives other nonces for another digest (as far as SHA-512 and AES do). *)
Theorem C91_seeds : forall D D' db db' e e' h h', 0 <= D -> 0 <= D' -> minimal D db -> minimal D' db' -> length e = length e' ->
  db ++ e ++ h = db' ++ e' ++ h' -> D = D' \/ length h = length h' -> D = D' /\ e = e' /\ h = h'.
Proof.
  intros D D' db db' e e' h h' HD HD' M M' Le E C. apply minimal_big_bytes in M; [|exact HD]. apply minimal_big_bytes in M'; [|exact HD']. subst db db'.
  assert (L : length (big_bytes D) = length (big_bytes D')).
  { destruct C as [-> | C]; [reflexivity|]. apply (f_equal (@length Z)) in E. rewrite !app_length in E. lia. }
  destruct (app_inj_len _ _ _ _ L E) as [E1 E2]. destruct (app_inj_len _ _ _ _ Le E2) as [E3 E4].
  split; [|split; assumption]. apply (f_equal be2z) in E1. rewrite !be2z_big_bytes in E1 by assumption. exact E1.
Qed.
(** without that condition it does not: the keys 5 and 5 * 256 + 7 with digests of 32 and 31 bytes *)
Example C91_seeds_overlap : exists e e' h h', length e = 16%nat /\ length e' = 16%nat /\ big_bytes 5 ++ e ++ h = big_bytes (5 * 256 + 7) ++ e' ++ h' /\ e <> e'.
Proof. exists (7 :: repeat 1 15), (repeat 1 15 ++ [2]), (2 :: repeat 3 31), (repeat 3 31). split; [reflexivity|]. split; [reflexivity|]. split; [vm_compute; reflexivity|discriminate]. Qed.

(** ** signature.Sign with a reader *)
Section Whole.
Variable sha512 : bytes -> bytes.
Variable aes : bytes -> bytes -> bytes.
Variable H : Z -> bytes -> bytes.
Hypothesis H_octets : forall sch m, octets (H sch m).
Variable k1SignCompact : Z -> ecpub -> bytes -> go (res bytes).
Variable k1RecoverCompact : bytes -> bytes -> go (res (Z * Z)).
Variable edSign : bytes -> bytes -> bytes.
Variable edVerify : bytes -> bytes -> bytes -> bool.
Variable ethSign : bytes -> Z -> ecpub -> go (res bytes).
Variable ethVerify : bytes -> bytes -> bytes -> bool.
Notation Sign := (SigWhole.Sign sha512 aes H k1SignCompact edSign ethSign).
Notation SignR := (SignR sha512 aes H k1SignCompact edSign ethSign).
Notation Verify := (SigWhole.Verify H k1RecoverCompact edVerify ethVerify).

(** P-256 and SM2: with 17 bytes or more, Sign is the signer of C79 with 16 of the first 17 as entropy *)
Theorem C91_whole_reads : forall fuel coin r alg D k sch msg opt, prime_curve (pk_curve k) -> coords32 k ->
  octets msg -> zlen msg < 2 ^ 60 -> octets (opt_id opt) -> zlen (opt_id opt) < 2 ^ 60 -> (17 <= length (stream r))%nat ->
  exists j, (j <= 1)%nat /\ SignR (fuel, coin, r) sch (SkEC alg D k) msg opt = Sign (fuel, Ok (firstn 16 (skipn j (stream r)))) sch (SkEC alg D k) msg opt.
Proof.
  intros fuel coin r alg D k sch msg opt HW C32 Om Lm Oi Li L.
  unfold Entropy.SignR, SigWhole.Sign, Signature.Sign.
  destruct (negb (GetHash_known sch)); [exists 0%nat; split; [lia|reflexivity]|].
  destruct (sch =? SM3withSM2).
  - exists 0%nat. split; [lia|]. change (match opt with OptString s => s | _ => [] end) with (opt_id opt). cbv zeta. cbn [skipn].
    assert (Q : sm2_signR sha512 aes (fuel, coin, r) D k (opt_id opt) msg = sm2_sign sha512 aes (fuel, Ok (firstn 16 (stream r))) D k (opt_id opt) msg); [|rewrite Q; reflexivity].
    unfold sm2_signR, sm2_sign. cbn [fst snd]. destruct (C91_sm2_reads sha512 aes generic_sbm generic_inv fuel r D k (opt_id opt) msg New) as [X Y].
    destruct (string_dec (c_name (pk_curve k)) (c_name SM2P256V1)) as [N|N].
    + apply (prime_curve_sm2 _ HW) in N.
      assert (I : inputs_ok k (opt_id opt) msg New) by (split; [exact N|]; split; [exact C32|]; split; [exact Prop_Generic.New_hasher|]; repeat (split; [assumption|]); assumption).
      destruct (X I) as [X1 _]. destruct (X1 ltac:(lia)) as (r' & _ & ->).
      destruct (SM2Sig.Sign _ _ _ _ _ _ _ _ _ _ _); reflexivity.
    + destruct (C46_other_curves_rejected k (opt_id opt) msg New N) as [e G]. unfold sm2_SignR, SM2Sig.Sign. rewrite G. reflexivity.
  - destruct (ecdsa_scheme sch); [|exists 0%nat; split; [lia|reflexivity]].
    destruct (prime_curve_sup _ HW) as [a SU].
    assert (EL : ECDSA.entropylen (pk_curve k) = Z.of_nat 16) by (destruct HW as [-> | ->]; reflexivity).
    destruct (C91_ecdsa_reads sha512 aes ScalarBaseMult ECDSA.fermat fuel coin r D k (H sch msg) a 16 SU EL) as (j & J & _ & X & _).
    exists j. split; [exact J|]. cbv zeta.
    assert (Q : ecdsa_signR sha512 aes D k (H sch msg) (fuel, coin, r) = ecdsa_sign sha512 aes D k (H sch msg) (fuel, Ok (firstn 16 (skipn j (stream r))))); [|rewrite Q; reflexivity].
    unfold ecdsa_signR, ecdsa_sign. cbn [fst snd]. destruct (X ltac:(lia)) as (r' & _ & ->). destruct (ECDSA.Sign _ _ _ _ _ _ _ _ _); reflexivity.
Qed.
(** so what it returns is accepted *)
Theorem C91_whole_accepted : forall fuel coin r alg alg' D k sch msg opt sig, key_pair_of D k ->
  octets msg -> msg <> [] -> zlen msg < 2 ^ 60 -> octets (opt_id opt) -> zlen (opt_id opt) < 2 ^ 60 -> (17 <= length (stream r))%nat ->
  SignR (fuel, coin, r) sch (SkEC alg D k) msg opt = Val (Ok sig) -> Verify (PkEC alg' k) msg (Some sig) = Val true.
Proof.
  intros fuel coin r alg alg' D k sch msg opt sig KP Om NE Lm Oi Li L S.
  destruct (key_facts D k KP) as (W & Hc & HW & _ & _ & _ & C32).
  destruct (C91_whole_reads fuel coin r alg D k sch msg opt ltac:(rewrite Hc; exact HW) C32 Om Lm Oi Li L) as (j & _ & E). rewrite E in S.
  apply (C79_sign_verify sha512 aes H H_octets k1SignCompact k1RecoverCompact edSign edVerify ethSign ethVerify alg alg' D k sch _ msg opt sig KP Om NE Lm Oi Li S).
Qed.
(** and with fewer than 16 bytes nothing is signed *)
Theorem C91_whole_refused : forall fuel coin r alg D k sch msg opt, prime_curve (pk_curve k) -> coords32 k ->
  octets msg -> zlen msg < 2 ^ 60 -> octets (opt_id opt) -> zlen (opt_id opt) < 2 ^ 60 -> (length (stream r) < 16)%nat ->
  exists e, SignR (fuel, coin, r) sch (SkEC alg D k) msg opt = Val (Err e).
Proof.
  intros fuel coin r alg D k sch msg opt HW C32 Om Lm Oi Li L.
  unfold Entropy.SignR, Signature.Sign.
  destruct (negb (GetHash_known sch)); [eexists; reflexivity|].
  destruct (sch =? SM3withSM2).
  - change (match opt with OptString s => s | _ => [] end) with (opt_id opt). cbv zeta. unfold sm2_signR.
    destruct (C91_sm2_reads sha512 aes generic_sbm generic_inv fuel r D k (opt_id opt) msg New) as [X Y].
    destruct (string_dec (c_name (pk_curve k)) (c_name SM2P256V1)) as [N|N].
    + apply (prime_curve_sm2 _ HW) in N.
      assert (I : inputs_ok k (opt_id opt) msg New) by (split; [exact N|]; split; [exact C32|]; split; [exact Prop_Generic.New_hasher|]; repeat (split; [assumption|]); assumption).
      destruct (X I) as [_ X2]. destruct (X2 L) as (m & r' & _ & _ & ->). eexists. reflexivity.
    + destruct (Y N) as [e ->]. eexists. reflexivity.
  - destruct (ecdsa_scheme sch); [|eexists; reflexivity].
    destruct (String.eqb_spec (c_name (pk_curve k)) (c_name S256)) as [N|_]; [exfalso; exact (prime_curve_name _ HW N)|].
    destruct (prime_curve_sup _ HW) as [a SU].
    assert (EL : ECDSA.entropylen (pk_curve k) = Z.of_nat 16) by (destruct HW as [-> | ->]; reflexivity).
    destruct (C91_ecdsa_reads sha512 aes ScalarBaseMult ECDSA.fermat fuel coin r D k (H sch msg) a 16 SU EL) as (j & J & _ & _ & Y).
    cbv zeta. unfold ecdsa_signR. destruct (Y ltac:(lia)) as (m & r' & _ & _ & ->). eexists. reflexivity.
Qed.
End Whole.

(** ** Examples: the P-256 key 1 of C78; a reader that delivers its 18 bytes in four pieces, one of them empty *)
Definition ex_reader : reader := {| rd_chunks := [[9]; [5; 5; 5]; []; repeat 5 14]; rd_end := "EOF" |}.
Definition ex_short : reader := {| rd_chunks := [[9]; [5; 5; 5]; []; repeat 5 11]; rd_end := "EOF" |}.
Definition ex_signR (coin : bool) (r : reader) :=
  ecdsa_SignR (fun _ => repeat 7 64) (fun _ b => map (fun _ => 0) b) ScalarBaseMult ECDSA.fermat 1 coin r 1 Prop_ECDSA.ex_pub Prop_ECDSA.ex_dg.
Example C91_example_read : ReadFull ex_reader 16 = Val (Ok (9 :: repeat 5 15), {| rd_chunks := [[5; 5]]; rd_end := "EOF" |}) /\
  ReadFull ex_short 16 = Val (Err "unexpected EOF"%string, {| rd_chunks := []; rd_end := "EOF" |}) /\
  ReadFull {| rd_chunks := []; rd_end := "broken" |} 16 = Val (Err "broken"%string, {| rd_chunks := []; rd_end := "broken" |}).
Proof. repeat split; reflexivity. Qed.
(** with the byte dropped the entropy is the one of C78's example *)
Example C91_example_sign : ex_signR true ex_reader =
  Val (Ok (c_Gx P256, c_Gx P256 + be2z Prop_ECDSA.ex_dg), {| rd_chunks := [[5]]; rd_end := "EOF" |}).
Proof.
  unfold ex_signR, ecdsa_SignR. change (ReadFull (MaybeReadByte true ex_reader) (Z.to_nat (ECDSA.entropylen (pk_curve Prop_ECDSA.ex_pub))))
    with (Val (Ok (repeat 5 16), {| rd_chunks := [[5]]; rd_end := "EOF" |})). cbn [bind fst snd].
  pose proof Prop_ECDSA.C78_example_sign as Q. unfold Prop_ECDSA.ex_sign in Q. rewrite Q. reflexivity.
Qed.
Example C91_example_refused : exists r', ex_signR false ex_short = Val (Err "unexpected EOF"%string, r').
Proof. eexists. reflexivity. Qed.
(** the whole signer on that reader: accepted *)
Example C91_example_whole : exists sig,
  SignR (fun _ => repeat 7 64) (fun _ b => map (fun _ => 0) b) ex_H (fun _ _ _ => Val (Err ""%string)) (fun _ _ => []) (fun _ _ _ => Val (Err ""%string))
    (1%nat, true, ex_reader) 5 (SkEC 0 1 Prop_ECDSA.ex_pub) [104; 105] OptOther = Val (Ok sig) /\
  SigWhole.Verify ex_H (fun _ _ => Val (Err ""%string)) (fun _ _ _ => false) (fun _ _ _ => false) (PkEC 0 Prop_ECDSA.ex_pub) [104; 105] (Some sig) = Val true.
Proof.
  eexists. match goal with |- ?A /\ _ => assert (S : A) end.
  - unfold SignR, Signature.Sign. change (GetHash_known 5) with true. change (5 =? SM3withSM2) with false. change (ecdsa_scheme 5) with true. cbn [negb].
    change (String.eqb (c_name (pk_curve Prop_ECDSA.ex_pub)) (c_name S256)) with false. cbv iota zeta. unfold ex_H, ecdsa_signR.
    pose proof C91_example_sign as Q. unfold ex_signR in Q. rewrite Q. reflexivity.
  - split; [exact S|].
    apply (C91_whole_accepted _ _ ex_H (fun _ _ => Prop_ECDSA.ex_octets) _ (fun _ _ => Val (Err ""%string)) _ (fun _ _ _ => false) _ (fun _ _ _ => false) 1%nat true ex_reader 0 0 1 Prop_ECDSA.ex_pub 5 [104; 105] OptOther) in S; [exact S| | | | | | |].
    + split; [left; reflexivity|]. split; [split; reflexivity|exact Prop_ECDSA.ex_key].
    + repeat constructor; lia.
    + discriminate.
    + reflexivity.
    + constructor.
    + reflexivity.
    + cbn. lia.
Qed.
Print Assumptions C91_read_full.
Print Assumptions C91_lengths.
Print Assumptions C91_ecdsa_reads.
Print Assumptions C91_sm2_reads.
Print Assumptions C91_encrypt_reads.
Print Assumptions C91_salt_reads.
Print Assumptions C91_few_ecdsa.
Print Assumptions C91_few_sm2.
Print Assumptions C91_seeds.
Print Assumptions C91_whole_reads.
Print Assumptions C91_whole_accepted.
Print Assumptions C91_whole_refused.
