(** * Prop_SM2Enc: properties C48 to C51 (/repo/sm2/encryption.go) *)
From Coq Require Import ZArith Znumtheory String List Bool Lia.
From Verif Require Import Base BaseFacts Curves ECKey SM3 Spec_SM3 SM3Facts SM3Hist Spec_EC ECFacts Spec_Group SM2Sig Spec_SM2
  SM2Enc Spec_SM2Enc SM2EncFacts Prop_Keys Prop_SM2 Prop_SM2b.
Import ListNotations.
Open Scope Z_scope.

(** ** C51 *)
Theorem C51_kdf : forall z n, octets z -> Z.of_nat (length z) < 2 ^ 60 ->
  (all_zero (firstn (length z) (kdf z n)) -> sm3kdf z (Z.of_nat n) = Val None) /\
  (~ all_zero (firstn (length z) (kdf z n)) -> sm3kdf z (Z.of_nat n) = Val (Some (kdf z n))).
Proof.
  intros z n W L. destruct (sm3kdf_ok z n W) as [[A E]|[A E]].
  - change (2 ^ 61) with (2 * 2 ^ 60). unfold zlen. assert (2 ^ 60 > 1000) by reflexivity. lia.
  - split; intros H; [exact E|contradiction].
  - split; intros H; [contradiction|exact E].
Qed.
Theorem C51_length : forall z n, length (kdf z n) = n.
Proof. exact kdf_len. Qed.
Theorem C51_negative : forall z n, n <= 0 -> sm3kdf z n = Val None.
Proof. intros z n H. unfold sm3kdf. rewrite kdf_loop_done by exact H. cbn [bind]. unfold kdf_found. rewrite firstn_nil. reflexivity. Qed.
Print Assumptions C51_kdf.
(** the check is the standard's (all bytes zero) only for outputs no longer than z *)
Theorem C51_short_check : forall z n, (n <= length z)%nat -> (all_zero (firstn (length z) (kdf z n)) <-> all_zero (kdf z n)).
Proof. intros z n H. rewrite firstn_all2; [reflexivity|rewrite kdf_len; exact H]. Qed.
Theorem C51_long_check : forall z n, (length z <= n)%nat -> all_zero (firstn (length z) (kdf z n)) ->
  forall n', (length z <= n')%nat -> all_zero (firstn (length z) (kdf z n')).
Proof.
  intros z n H A n' H'.
  assert (P : forall a b c, (a <= b)%nat -> (a <= c)%nat -> firstn a (kdf_stream z b) = firstn a (kdf_stream z c)).
  { assert (Q : forall a b d, (a <= b)%nat -> firstn a (kdf_stream z (b + d)) = firstn a (kdf_stream z b)).
    { intros a b d Hab. unfold kdf_stream. rewrite seq_app, flat_map_app.
      change (fun i => sm3_hash (z ++ to_be 4 (Z.of_nat i))) with (kblock z). rewrite firstn_app.
      assert (L : forall m s, length (flat_map (kblock z) (seq s m)) = (32 * m)%nat).
      { induction m as [|m IH]; intros s; [reflexivity|]. cbn [seq flat_map]. rewrite app_length, IH, kblock_len. lia. }
      rewrite L. replace (a - 32 * b)%nat with 0%nat by lia. cbn [firstn]. apply app_nil_r. }
    intros a b c Hb Hc. destruct (Nat.le_ge_cases b c) as [G|G].
    - replace c with (b + (c - b))%nat by lia. symmetry. apply Q. exact Hb.
    - replace b with (c + (b - c))%nat by lia. apply Q. exact Hc. }
  unfold kdf in *. rewrite firstn_firstn in *. rewrite Nat.min_l in * by lia.
  rewrite (P (length z) n' n) by lia. exact A.
Qed.
Print Assumptions C51_long_check.

Section Enc.
Variable sha512 : bytes -> bytes.
Variable aes : bytes -> bytes -> bytes.
Variable sbm : bytes -> Z * Z.
Variable sm : Z -> Z -> bytes -> Z * Z.
Variable onCurve : Z -> Z -> bool.
Hypothesis sha_len : forall m, length (sha512 m) = 64%nat.
Hypothesis aes_len : forall key c, length c = 16%nat -> length (aes key c) = 16%nat.
Hypothesis sbm_range : forall b, in32 (sbm b).
Hypothesis sm_range : forall x y b, in32 (sm x y b).
Notation Encrypt := (Encrypt sha512 aes sbm sm).
Notation Decrypt := (Decrypt sm onCurve).

(** shared key of the i-th nonce *)
Section Run.
Variable pub : ecpub.
Variable data : bytes.
Variable draw : nat -> bytes.
Hypothesis curve_ok : pk_curve pub = SM2P256V1.
Hypothesis pub_ok : ~ (pk_X pub = 0 /\ pk_Y pub = 0).
Let kk i := randFieldElement SM2P256V1 (draw i).
Let P1 i := sbm (big_bytes (kk i)).
Let P2 i := sm (pk_X pub) (pk_Y pub) (big_bytes (kk i)).
Let K i := kdf (shared (fst (P2 i)) (snd (P2 i))) (length data).
Lemma step_ok : forall fuel i bx byy rest, length bx = 32%nat -> length byy = 32%nat ->
  enc_loop sbm sm (S fuel) pub draw i (bx ++ byy ++ rest) data =
  let buf := overlay bx (big_bytes (fst (P1 i))) ++ overlay byy (big_bytes (snd (P1 i))) ++ rest in
  match sm3kdf (shared (fst (P2 i)) (snd (P2 i))) (zlen data) with
  | Val None => enc_loop sbm sm fuel pub draw (S i) buf data
  | Val (Some t) => Val (Ok (buf, xor_bytes data t, fst (P2 i), snd (P2 i)))
  | Panic w => Panic w
  | OutOfFuel => OutOfFuel
  end.
Proof.
  intros fuel i bx byy rest Lx Ly. cbn [enc_loop]. rewrite curve_ok. fold (kk i). fold (P1 i). fold (P2 i). cbv zeta.
  pose proof (sbm_range (big_bytes (kk i))) as [R1 R2]. fold (P1 i) in R1, R2.
  pose proof (sm_range (pk_X pub) (pk_Y pub) (big_bytes (kk i))) as [R3 R4]. fold (P2 i) in R3, R4.
  destruct (P1 i) as [x1 y1]. destruct (P2 i) as [x2 y2]. cbn [fst snd] in *.
  pose proof (copy_right_ok [] bx (byy ++ rest) x1 R1 Lx) as C. cbn [app] in C. change (zlen (@nil Z) + 32) with 32 in C.
  rewrite C. cbn [bind].
  pose proof (overlay_len bx (big_bytes x1) Lx (bb32 _ R1)) as Lo.
  pose proof (copy_right_ok (overlay bx (big_bytes x1)) byy rest y1 R2 Ly) as C'.
  replace (zlen (overlay bx (big_bytes x1)) + 32) with 64 in C' by (unfold zlen; rewrite Lo; reflexivity).
  rewrite C'. cbn [bind].
  replace ((pk_X pub =? 0) && (pk_Y pub =? 0)) with false.
  2:{ symmetry. destruct (Z.eqb_spec (pk_X pub) 0), (Z.eqb_spec (pk_Y pub) 0); try reflexivity. exfalso. apply pub_ok. auto. }
  rewrite x2y2_ok by assumption. cbn [bind].
  destruct (sm3kdf (shared x2 y2) (zlen data)) as [[t|]|w|]; reflexivity.
Qed.
Lemma shared_short : forall x y, zlen (shared x y) + 4 < 2 ^ 61.
Proof. intros. unfold zlen. rewrite shared_len. reflexivity. Qed.
Lemma enc_loop_exact : forall fuel i bx byy rest buf c2 x2 y2, length bx = 32%nat -> length byy = 32%nat ->
  (enc_loop sbm sm fuel pub draw i (bx ++ byy ++ rest) data = Val (Ok (buf, c2, x2, y2)) <->
   exists n, (n < fuel)%nat /\ (forall n', (n' < n)%nat -> all_zero (firstn 64 (K (i + n')))) /\
     ~ all_zero (firstn 64 (K (i + n))) /\
     buf = ov (fun j => fst (P1 j)) i n bx ++ ov (fun j => snd (P1 j)) i n byy ++ rest /\
     c2 = xor_bytes data (K (i + n)) /\ (x2, y2) = P2 (i + n)).
Proof.
  induction fuel as [|fuel IH]; intros i bx byy rest buf c2 x2 y2 Lx Ly.
  - split; [discriminate|]. intros (n & H & _). lia.
  - rewrite step_ok by assumption. cbv zeta.
    pose proof (sbm_range (big_bytes (kk i))) as [R1 R2]. fold (P1 i) in R1, R2.
    pose proof (overlay_len bx _ Lx (bb32 _ R1)) as L1. pose proof (overlay_len byy _ Ly (bb32 _ R2)) as L2.
    change (zlen data) with (Z.of_nat (length data)).
    destruct (sm3kdf_ok (shared (fst (P2 i)) (snd (P2 i))) (length data) (shared_wf _ _) (shared_short _ _)) as [[A E]|[A E]];
      rewrite E; rewrite shared_len in A; fold (K i) in A.
    + rewrite IH by assumption. split; intros (n & H1 & H2 & H3 & H4 & H5 & H6).
      * exists (S n). replace (i + S n)%nat with (S i + n)%nat by lia. split; [lia|]. split.
        { intros [|n'] Hn'; [rewrite Nat.add_0_r; exact A|]. replace (i + S n')%nat with (S i + n')%nat by lia. apply H2. lia. }
        split; [exact H3|]. split; [exact H4|]. split; assumption.
      * destruct n as [|n]. { exfalso. rewrite Nat.add_0_r in H3. contradiction. }
        exists n. replace (S i + n)%nat with (i + S n)%nat by lia. split; [lia|]. split.
        { intros n' Hn'. replace (S i + n')%nat with (i + S n')%nat by lia. apply H2. lia. }
        split; [exact H3|]. split; [exact H4|]. split; assumption.
    + fold (K i). split.
      * intros H. exists 0%nat. rewrite Nat.add_0_r. split; [lia|]. split; [intros; lia|]. split; [exact A|]. cbn [ov].
        assert (Q : (buf, c2, x2, y2) = (overlay bx (big_bytes (fst (P1 i))) ++ overlay byy (big_bytes (snd (P1 i))) ++ rest,
           xor_bytes data (K i), fst (P2 i), snd (P2 i))) by congruence.
        split; [congruence|]. split; [congruence|]. destruct (P2 i). cbn [fst snd] in Q. congruence.
      * intros (n & H1 & H2 & H3 & H4 & H5 & H6). destruct n as [|n].
        -- rewrite Nat.add_0_r in H5, H6. cbn [ov] in H4. rewrite H4, H5, <- H6. cbn [fst snd]. reflexivity.
        -- exfalso. apply A. specialize (H2 0%nat ltac:(lia)). rewrite Nat.add_0_r in H2. exact H2.
Qed.
Lemma enc_loop_result : forall fuel i bx byy rest, length bx = 32%nat -> length byy = 32%nat ->
  (exists q, enc_loop sbm sm fuel pub draw i (bx ++ byy ++ rest) data = Val (Ok q)) \/
  enc_loop sbm sm fuel pub draw i (bx ++ byy ++ rest) data = OutOfFuel.
Proof.
  induction fuel as [|fuel IH]; intros i bx byy rest Lx Ly; [right; reflexivity|].
  rewrite step_ok by assumption. cbv zeta.
  pose proof (sbm_range (big_bytes (kk i))) as [R1 R2]. fold (P1 i) in R1, R2.
  change (zlen data) with (Z.of_nat (length data)).
  destruct (sm3kdf_ok (shared (fst (P2 i)) (snd (P2 i))) (length data) (shared_wf _ _) (shared_short _ _)) as [[A E]|[A E]]; rewrite E.
  - apply IH; apply overlay_len; auto using bb32.
  - left. eexists. reflexivity.
Qed.
End Run.

(** ** C48, C49: what Encrypt computes *)
Definition enc_key (ent data xb : bytes) : bytes := firstn 32 (sha512 (xb ++ ent ++ sm3_hash data)).
Lemma Encrypt_unfold : forall fuel ent pub data, pk_curve pub = SM2P256V1 -> octets data -> Z.of_nat (length data) < 2 ^ 60 ->
  Encrypt fuel (Ok ent) pub data =
  let* r := enc_loop sbm sm fuel pub (csp_read aes (enc_key ent data (big_bytes (pk_X pub))) 40) 0
              (repeat 0 32 ++ repeat 0 32 ++ repeat 0 (32 + length data)) data in
  match r with
  | Err e => Val (Err e)
  | Ok (buf, c2, x2, y2) =>
      let* c3 := c3_digest x2 y2 data in
      let* buf := copy_at buf 64 c3 in
      let* buf := copy_at buf 96 c2 in
      Val (Ok buf)
  end.
Proof.
  intros fuel ent pub data Hc Hd Ld. unfold SM2Enc.Encrypt. rewrite Hc. change (is_SM2Curve SM2P256V1) with true. cbn [negb].
  cbv zeta. rewrite sum_hash; [|exact Hd|].
  2:{ change (2 ^ 61) with (2 * 2 ^ 60). unfold zlen. lia. }
  cbn [bind]. set (H := sha512 (big_bytes (pk_X pub) ++ ent ++ sm3_hash data)).
  assert (LH : length H = 64%nat) by apply sha_len.
  rewrite slice_ok by (unfold zlen; rewrite ?LH; lia). cbn [bind].
  change (skipn (Z.to_nat 0) H) with H. change (Z.to_nat (32 - 0)) with 32%nat.
  change (firstn 32 H) with (enc_key ent data (big_bytes (pk_X pub))).
  change (N =? 0) with false. cbv iota. change (Z.to_nat (c_bits SM2P256V1 / 8 + 8)) with 40%nat.
  replace (zeros (96 + zlen data)) with (repeat 0 32 ++ repeat 0 32 ++ repeat 0 (32 + length data)).
  2:{ rewrite <- !repeat_app. unfold zeros, zlen. f_equal. lia. }
  reflexivity.
Qed.
Lemma csp_nonce : forall key j, randFieldElement SM2P256V1 (csp_read aes key 40 j) = nonce N (aes key) j.
Proof. intros key j. unfold randFieldElement, nonce. rewrite csp_read_spec by apply aes_len. rewrite value_be2z. reflexivity. Qed.

(** The result of Encrypt is exactly this: with the nonces k_0, k_1, ... (Spec_SM2) and the shared
    points [k_i]P, the first i for which the first 64 bytes of the derived key are not all zero
    gives C1 (with what earlier nonces left behind), C3 and C2. *)
Theorem C48_exact : forall fuel ent pub data c xb, pk_curve pub = SM2P256V1 -> 0 <= pk_X pub -> minimal (pk_X pub) xb ->
  ~ (pk_X pub = 0 /\ pk_Y pub = 0) -> octets data -> Z.of_nat (length data) < 2 ^ 60 ->
  let k i := nonce N (aes (enc_key ent data xb)) i in
  let C1 i := sbm (big_bytes (k i)) in
  let S2 i := sm (pk_X pub) (pk_Y pub) (big_bytes (k i)) in
  let K i := kdf (shared (fst (S2 i)) (snd (S2 i))) (length data) in
  (Encrypt fuel (Ok ent) pub data = Val (Ok c) <->
   exists i cx cy y2l, (i < fuel)%nat /\ (forall j, (j < i)%nat -> all_zero (firstn 64 (K j))) /\ ~ all_zero (firstn 64 (K i)) /\
     written (fun j => fst (C1 j)) i cx /\ written (fun j => snd (C1 j)) i cy /\ left_aligned (snd (S2 i)) y2l /\
     c = cx ++ cy ++ sm3_hash (to_be 32 (fst (S2 i)) ++ data ++ y2l) ++ xor_bytes data (K i)).
Proof.
  intros fuel ent pub data c xb Hc HX Hxb Hp Hd Ld k C1 S2 K.
  apply minimal_big_bytes in Hxb; [|exact HX]. subst xb.
  rewrite Encrypt_unfold by assumption. set (key := enc_key ent data (big_bytes (pk_X pub))) in *.
  set (draw := csp_read aes key 40).
  assert (Ek : forall j, randFieldElement SM2P256V1 (draw j) = k j) by (intros j; apply csp_nonce).
  assert (R1 : forall j, 0 <= fst (C1 j) < 256 ^ 32) by (intros j; apply sbm_range).
  assert (R2 : forall j, 0 <= snd (C1 j) < 256 ^ 32) by (intros j; apply sbm_range).
  assert (R3 : forall j, 0 <= fst (S2 j) < 256 ^ 32) by (intros j; apply sm_range).
  assert (R4 : forall j, 0 <= snd (S2 j) < 256 ^ 32) by (intros j; apply sm_range).
  assert (LX : forall i, length (ov (fun j => fst (C1 j)) 0 i (repeat 0 32)) = 32%nat).
  { intros i. apply ov_len; [exact R1|reflexivity]. }
  assert (LY : forall i, length (ov (fun j => snd (C1 j)) 0 i (repeat 0 32)) = 32%nat).
  { intros i. apply ov_len; [exact R2|reflexivity]. }
  assert (OV : forall f g, (forall j, f j = g j) -> forall n i b, ov f i n b = ov g i n b).
  { intros f g Hfg. induction n as [|n IH]; intros i b; cbn [ov]; rewrite Hfg; [reflexivity|apply IH]. }
  assert (FIN : forall i c, (let* c3 := c3_digest (fst (S2 i)) (snd (S2 i)) data in
      let* buf := copy_at (ov (fun j => fst (C1 j)) 0 i (repeat 0 32) ++ ov (fun j => snd (C1 j)) 0 i (repeat 0 32) ++
        repeat 0 (32 + length data)) 64 c3 in
      let* buf := copy_at buf 96 (xor_bytes data (K i)) in Val (Ok buf)) = Val (Ok c) <->
    c = ov (fun j => fst (C1 j)) 0 i (repeat 0 32) ++ ov (fun j => snd (C1 j)) 0 i (repeat 0 32) ++
      sm3_hash (to_be 32 (fst (S2 i)) ++ data ++ la (snd (S2 i))) ++ xor_bytes data (K i)).
  { intros i c'. rewrite c3_ok by (auto; unfold zlen; exact Ld). cbn [bind].
    set (h := sm3_hash _). assert (Lh : length h = 32%nat) by apply sm3_hash_shape.
    set (bx := ov _ 0 i _). set (byy := ov (fun j => snd (C1 j)) 0 i _). specialize (LX i). specialize (LY i). fold bx in LX. fold byy in LY.
    rewrite repeat_app, app_assoc.
    rewrite (copy_at_exact _ (bx ++ byy) (repeat 0 32) (repeat 0 (length data)) h).
    2:{ rewrite zlen_app. unfold zlen. rewrite LX, LY. reflexivity. }
    2:{ rewrite Lh, repeat_length. reflexivity. }
    cbn [bind]. rewrite app_assoc, <- (app_nil_r (repeat 0 (length data))).
    rewrite (copy_at_exact _ ((bx ++ byy) ++ h) (repeat 0 (length data)) [] (xor_bytes data (K i))).
    2:{ rewrite !zlen_app. unfold zlen. rewrite LX, LY, Lh. reflexivity. }
    2:{ rewrite repeat_length. unfold xor_bytes. rewrite map_length, combine_length. unfold K. rewrite kdf_len. apply Nat.min_id. }
    cbn [bind]. rewrite app_nil_r, <- !app_assoc. split; congruence. }
  pose proof (enc_loop_exact pub data draw Hc Hp fuel 0 (repeat 0 32) (repeat 0 32) (repeat 0 (32 + length data))) as X.
  cbv zeta in X.
  split.
  - intros E. apply bind_val in E as (q & E1 & E2). destruct q as [[[[buf c2] x2] y2]|]; [|discriminate].
    apply X in E1; [|reflexivity|reflexivity]. destruct E1 as (n & H1 & H2 & H3 & H4 & H5 & H6). cbn [Nat.add] in *.
    rewrite Ek in H3, H5, H6. fold (S2 n) in H3, H5, H6. fold (K n) in H3, H5.
    exists n, (ov (fun j => fst (C1 j)) 0 n (repeat 0 32)), (ov (fun j => snd (C1 j)) 0 n (repeat 0 32)), (la (snd (S2 n))).
    split; [exact H1|]. split. { intros j Hj. specialize (H2 j Hj). rewrite Ek in H2. exact H2. }
    split; [exact H3|]. split; [apply written_ov; [intros; apply R1|reflexivity]|].
    split; [apply written_ov; [intros; apply R2|reflexivity]|].
    split; [apply la_spec; [apply R4|reflexivity]|].
    apply FIN. refine (eq_trans _ E2). replace x2 with (fst (S2 n)) by (rewrite <- H6; reflexivity).
    replace y2 with (snd (S2 n)) by (rewrite <- H6; reflexivity). rewrite H4, H5.
    rewrite (OV (fun j => fst (sbm (big_bytes (randFieldElement SM2P256V1 (draw j))))) (fun j => fst (C1 j)))
      by (intros j; rewrite Ek; reflexivity).
    rewrite (OV (fun j => snd (sbm (big_bytes (randFieldElement SM2P256V1 (draw j))))) (fun j => snd (C1 j)))
      by (intros j; rewrite Ek; reflexivity).
    reflexivity.
  - intros (n & cx & cy & yl & H1 & H2 & H3 & H4 & H5 & H6 & H7).
    apply written_ov in H4; [|intros; apply R1]. apply written_ov in H5; [|intros; apply R2]. apply la_spec in H6; [|apply R4].
    subst cx cy yl. apply FIN in H7.
    assert (B : enc_loop sbm sm fuel pub draw 0 (repeat 0 32 ++ repeat 0 32 ++ repeat 0 (32 + length data)) data =
      Val (Ok (ov (fun j => fst (C1 j)) 0 n (repeat 0 32) ++ ov (fun j => snd (C1 j)) 0 n (repeat 0 32) ++ repeat 0 (32 + length data),
        xor_bytes data (K n), fst (S2 n), snd (S2 n)))).
    { apply X; [reflexivity|reflexivity|]. exists n. split; [exact H1|]. cbn [Nat.add].
      split. { intros j Hj. rewrite Ek. apply H2. exact Hj. }
      rewrite Ek. split; [exact H3|]. split.
      - rewrite (OV (fun j => fst (sbm (big_bytes (randFieldElement SM2P256V1 (draw j))))) (fun j => fst (C1 j)))
          by (intros j; rewrite Ek; reflexivity).
        rewrite (OV (fun j => snd (sbm (big_bytes (randFieldElement SM2P256V1 (draw j))))) (fun j => snd (C1 j)))
          by (intros j; rewrite Ek; reflexivity). reflexivity.
      - split; [reflexivity|]. fold (S2 n). destruct (S2 n); reflexivity. }
    rewrite B. cbn [bind]. exact H7.
Qed.

(** Encrypt of the empty string never returns. *)
Theorem C49_empty_diverges : forall fuel ent pub, pk_curve pub = SM2P256V1 -> ~ (pk_X pub = 0 /\ pk_Y pub = 0) ->
  Encrypt fuel (Ok ent) pub [] = OutOfFuel.
Proof.
  intros fuel ent pub Hc Hp. rewrite (Encrypt_unfold fuel ent pub [] Hc (Forall_nil _) eq_refl).
  set (draw := csp_read _ _ _).
  destruct (enc_loop_result pub [] draw Hc Hp fuel 0 (repeat 0 32) (repeat 0 32) (repeat 0 (32 + length (@nil Z)))) as [[[[[buf c2] x2] y2] E]|E];
    [reflexivity|reflexivity| |rewrite E; reflexivity].
  exfalso. apply (enc_loop_exact pub [] draw Hc Hp) in E; [|reflexivity|reflexivity].
  destruct E as (n & _ & _ & H & _). apply H. cbn. constructor.
Qed.
(** Otherwise it returns a ciphertext or keeps looping: no panic, no error. *)
Theorem C49_total : forall fuel ent pub data, pk_curve pub = SM2P256V1 -> ~ (pk_X pub = 0 /\ pk_Y pub = 0) ->
  octets data -> Z.of_nat (length data) < 2 ^ 60 ->
  (exists c, Encrypt fuel (Ok ent) pub data = Val (Ok c) /\ length c = (96 + length data)%nat) \/ Encrypt fuel (Ok ent) pub data = OutOfFuel.
Proof.
  intros fuel ent pub data Hc Hp Hd Ld. rewrite Encrypt_unfold by assumption.
  set (draw := csp_read _ _ _).
  destruct (enc_loop_result pub data draw Hc Hp fuel 0 (repeat 0 32) (repeat 0 32) (repeat 0 (32 + length data))) as [[[[[buf c2] x2] y2] E]|E];
    [reflexivity|reflexivity| |right; rewrite E; reflexivity].
  left. rewrite E. cbn [bind].
  apply (enc_loop_exact pub data draw Hc Hp) in E; [|reflexivity|reflexivity].
  destruct E as (n & _ & _ & _ & Hb & Hc2 & HS). cbn [Nat.add] in *.
  pose proof (sm_range (pk_X pub) (pk_Y pub) (big_bytes (randFieldElement SM2P256V1 (draw n)))) as R. rewrite <- HS in R. destruct R as [R1 R2].
  cbn [fst snd] in *. rewrite c3_ok by (auto; exact Ld). cbn [bind]. set (h := sm3_hash _).
  assert (Lh : length h = 32%nat) by apply sm3_hash_shape.
  assert (Lb : length buf = (96 + length data)%nat).
  { rewrite Hb. rewrite !app_length, !ov_len, repeat_length; try reflexivity; try lia; intros j; apply sbm_range. }
  rewrite copy_at_ok by (unfold zlen; lia). cbn [bind].
  rewrite copy_at_ok.
  - cbn [bind]. eexists. split; [reflexivity|]. unfold go_copy.
    repeat rewrite ?app_length, ?firstn_length, ?skipn_length. lia.
  - lia.
  - unfold zlen, go_copy. repeat rewrite ?app_length, ?firstn_length, ?skipn_length. lia.
Qed.
(** The errors are exactly these: a failing source of entropy, and the point at infinity as the public key. *)
Theorem C49_refused : forall fuel entropy pub data, pk_curve pub = SM2P256V1 -> octets data -> Z.of_nat (length data) < 2 ^ 60 ->
  ((exists e, Encrypt (S fuel) entropy pub data = Val (Err e)) <-> (exists e, entropy = Err e) \/ (pk_X pub = 0 /\ pk_Y pub = 0)).
Proof.
  intros fuel entropy pub data Hc Hd Ld. destruct entropy as [ent|e0].
  2:{ split; [intros _; left; eexists; reflexivity|intros _]. exists e0. unfold SM2Enc.Encrypt. rewrite Hc.
      change (is_SM2Curve SM2P256V1) with true. cbn [negb]. cbv zeta. rewrite sum_hash; [reflexivity|exact Hd|].
      change (2 ^ 61) with (2 * 2 ^ 60). unfold zlen. lia. }
  split.
  - intros [e E]. right. destruct (Z.eq_dec (pk_X pub) 0) as [X0|X0], (Z.eq_dec (pk_Y pub) 0) as [Y0|Y0]; try (split; assumption); exfalso;
      (destruct (C49_total (S fuel) ent pub data Hc) as [(c & E' & _)|E']; [intros [? ?]; contradiction|exact Hd|exact Ld| |];
       rewrite E in E'; discriminate E').
  - intros [[e E]|[X0 Y0]]; [discriminate E|]. exists "invalid public key"%string. rewrite Encrypt_unfold by assumption.
    set (draw := csp_read _ _ _). cbn [enc_loop]. rewrite Hc.
    pose proof (sbm_range (big_bytes (randFieldElement SM2P256V1 (draw 0%nat)))) as [R1 R2].
    destruct (sbm (big_bytes (randFieldElement SM2P256V1 (draw 0%nat)))) as [x1 y1]. cbn [fst snd] in R1, R2.
    pose proof (copy_right_ok [] (repeat 0 32) (repeat 0 32 ++ repeat 0 (32 + length data)) x1 R1 eq_refl) as C.
    cbn [app] in C. change (zlen (@nil Z) + 32) with 32 in C. rewrite C. cbn [bind].
    pose proof (overlay_len (repeat 0 32) (big_bytes x1) eq_refl (bb32 _ R1)) as Lo.
    pose proof (copy_right_ok (overlay (repeat 0 32) (big_bytes x1)) (repeat 0 32) (repeat 0 (32 + length data)) y1 R2 eq_refl) as C'.
    replace (zlen (overlay (repeat 0 32) (big_bytes x1)) + 32) with 64 in C' by (unfold zlen; rewrite Lo; reflexivity).
    rewrite C'. cbn [bind]. rewrite X0, Y0. reflexivity.
Qed.
(** C1 of the final nonce survives exactly when no coordinate of an earlier nonce was longer. *)
Lemma ov_app : forall f n b, (forall j, 0 <= f j < 256 ^ 32) -> length b = 32%nat ->
  exists a, ov f 0 n b = a ++ big_bytes (f n) /\ length a = (32 - length (big_bytes (f n)))%nat.
Proof.
  intros f n b Hf L. destruct n as [|n].
  - cbn [ov]. unfold overlay. eexists. split; [reflexivity|]. rewrite firstn_length, L. lia.
  - rewrite ov_snoc. unfold overlay. rewrite ov_len by assumption. cbn [Nat.add]. eexists. split; [reflexivity|].
    rewrite firstn_length, ov_len by assumption. lia.
Qed.
End Enc.
Print Assumptions C48_exact.
Print Assumptions C49_empty_diverges.
Print Assumptions C49_total.
Print Assumptions C49_refused.
