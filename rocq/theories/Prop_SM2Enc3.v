(** * Prop_SM2Enc3: property C48, the round trip, and examples (/repo/sm2/encryption.go) *)
From Coq Require Import ZArith Znumtheory String List Bool Lia.
From Verif Require Import Base BaseFacts Curves ECKey SM3 Spec_SM3 SM3Facts SM3Hist Spec_EC ECFacts Spec_Group SM2Sig Spec_SM2
  SM2Enc Spec_SM2Enc SM2EncFacts Prop_Keys Prop_SM2 Prop_SM2b Prop_SM2Enc Prop_SM2Enc2.
Import ListNotations.
Open Scope Z_scope.

Lemma xor_xor : forall a b, length a = length b -> xor_bytes (xor_bytes a b) b = a.
Proof.
  induction a as [|x a IH]; intros [|y b] L; cbn [length] in L; try lia; [reflexivity|].
  unfold xor_bytes in *. cbn [combine map fst snd]. f_equal; [|apply IH; lia].
  rewrite Z.lxor_assoc, Z.lxor_nilpotent, Z.lxor_0_r. reflexivity.
Qed.

Section RT.
Variable sha512 : bytes -> bytes.
Variable aes : bytes -> bytes -> bytes.
Variable sbm : bytes -> Z * Z.
Variable sm : Z -> Z -> bytes -> Z * Z.
Variable onCurve : Z -> Z -> bool.
Hypothesis sha_len : forall m, length (sha512 m) = 64%nat.
Hypothesis aes_len : forall key c, length c = 16%nat -> length (aes key c) = 16%nat.
Hypothesis sbm_range : forall b, in32 (sbm b).
Hypothesis sm_range : forall x y b, in32 (sm x y b).
Variable E : ecgroup.
Hypothesis EN : eN E = N.
Notation co := (@ecoords E).
Notation G := (@eG E).

(** the curve operations are right for nonce k and the key D *)
Definition ops_right (D k : Z) : Prop :=
  let P := gmul D G in
  sbm (big_bytes k) = co (gmul k G) /\
  sm (fst (co P)) (snd (co P)) (big_bytes k) = co (gmul k P) /\
  sm (fst (co (gmul k G))) (snd (co (gmul k G))) (big_bytes D) = co (gmul D (gmul k G)) /\
  onCurve (fst (co (gmul k G))) (snd (co (gmul k G))) = true.

Theorem C48_roundtrip : forall fuel ent pub data c D xb spare, pk_curve pub = SM2P256V1 -> minimal (pk_X pub) xb ->
  1 <= D < N -> (pk_X pub, pk_Y pub) = co (gmul D G) -> octets data -> Z.of_nat (length data) < 2 ^ 60 ->
  let k i := nonce N (aes (enc_key sha512 ent data xb)) i in
  let C1 i := co (gmul (k i) G) in
  let S2 i := co (gmul (k i) (gmul D G)) in
  let K i := kdf (shared (fst (S2 i)) (snd (S2 i))) (length data) in
  (forall i, (i < fuel)%nat -> ops_right D (k i)) ->
  (forall i, (i < fuel)%nat -> (forall j, (j < i)%nat -> all_zero (firstn 64 (K j))) -> ~ all_zero (firstn 64 (K i)) ->
     forall j n, (j < i)%nat -> (fst (C1 i) < 256 ^ Z.of_nat n -> fst (C1 j) < 256 ^ Z.of_nat n) /\
       (snd (C1 i) < 256 ^ Z.of_nat n -> snd (C1 j) < 256 ^ Z.of_nat n)) ->
  Encrypt sha512 aes sbm sm fuel (Ok ent) pub data = Val (Ok c) ->
  Decrypt sm onCurve SM2P256V1 D c spare = Val (Some data, None).
Proof.
  intros fuel ent pub data c D xb spare Hc Hxb HD HP Hd Ld k C1 S2 K Hops Hst Henc.
  set (P := gmul D G) in *.
  assert (HPO : P <> gO).
  { intros C. apply (gmul_zero_iff _ (eN E)) in C; [|apply eN_prime|apply eG_order|apply eG_nonzero].
    rewrite EN in C. apply Z.mod_divide in C; [|discriminate]. apply Z.divide_pos_le in C; lia. }
  assert (HX : 0 <= pk_X pub) by (pose proof (ecoords_pos E P) as [A _]; rewrite <- HP in A; exact A).
  assert (HXY : ~ (pk_X pub = 0 /\ pk_Y pub = 0)).
  { intros [A B]. apply HPO. apply (ecoords_inj E). rewrite <- HP, (ecoords_O E), A, B. reflexivity. }
  apply (C48_exact sha512 aes sbm sm sha_len aes_len sbm_range sm_range fuel ent pub data c xb Hc HX Hxb HXY Hd Ld) in Henc.
  cbv zeta in Henc. destruct Henc as (i & cx & cy & yl & Hi & H1 & H2 & Wx & Wy & Hl & Ec).
  change (nonce N (aes (enc_key sha512 ent data xb))) with k in H1, H2, Wx, Wy, Hl, Ec.
  assert (S2eq : forall j, (j < fuel)%nat -> sm (pk_X pub) (pk_Y pub) (big_bytes (k j)) = S2 j).
  { intros j Hj. destruct (Hops j Hj) as (_ & A & _). fold P in A. rewrite <- HP in A. exact A. }
  assert (C1eq : forall j, (j < fuel)%nat -> sbm (big_bytes (k j)) = C1 j).
  { intros j Hj. destruct (Hops j Hj) as (A & _). exact A. }
  rewrite (S2eq i Hi) in H2, Hl, Ec. fold (K i) in H2, Ec.
  assert (Hst' := Hst i Hi). specialize (Hst' ltac:(intros j Hj; specialize (H1 j Hj); rewrite S2eq in H1 by lia; exact H1) H2).
  assert (X : cx = to_be 32 (fst (C1 i))).
  { rewrite <- C1eq by exact Hi. apply (C49_stale_bytes (fun j => fst (sbm (big_bytes (k j)))) i); [intros; apply sbm_range|exact Wx|].
    intros j n Hj. rewrite !C1eq by lia. apply (Hst' j n Hj). }
  assert (Y : cy = to_be 32 (snd (C1 i))).
  { rewrite <- C1eq by exact Hi. apply (C49_stale_bytes (fun j => snd (sbm (big_bytes (k j)))) i); [intros; apply sbm_range|exact Wy|].
    intros j n Hj. rewrite !C1eq by lia. apply (Hst' j n Hj). }
  pose proof (sbm_range (big_bytes (k i))) as [RX RY]. rewrite C1eq in RX, RY by exact Hi.
  destruct (Hops i Hi) as (_ & _ & A3 & A4). fold (C1 i) in A3, A4.
  assert (Q : co (gmul D (gmul (k i) G)) = S2 i).
  { unfold S2. f_equal. apply gmul_comm. }
  rewrite Q in A3.
  assert (VX : value (to_be 32 (fst (C1 i))) 0 = fst (C1 i)).
  { rewrite value_be2z. apply be2z_to_be_small. exact RX. }
  assert (VY : value (to_be 32 (snd (C1 i))) 0 = snd (C1 i)).
  { rewrite value_be2z. apply be2z_to_be_small. exact RY. }
  assert (Lk : length data = length (K i)) by (unfold K; rewrite kdf_len; reflexivity).
  pose proof (sm_range (fst (C1 i)) (snd (C1 i)) (big_bytes D)) as R2. rewrite A3 in R2.
  subst cx cy. rewrite Ec. set (h := sm3_hash _).
  replace (@None string) with (if list_eq_dec Z.eq_dec (sm3_hash (to_be 32 (fst (S2 i)) ++ data ++ yl)) h then None else Some "Hash not match!"%string).
  2:{ destruct (list_eq_dec Z.eq_dec (sm3_hash (to_be 32 (fst (S2 i)) ++ data ++ yl)) h) as [_|C]; [reflexivity|exfalso; apply C; reflexivity]. }
  apply (C50_exact sm onCurve sm_range).
  - lia.
  - apply to_be_length.
  - apply to_be_length.
  - apply sm3_hash_shape.
  - apply xor_wf; [exact Hd|apply kdf_wf].
  - rewrite xor_len by exact Lk. exact Ld.
  - apply (oc_msg sm onCurve D _ _ _ _ (big_bytes D) (fst (S2 i)) (snd (S2 i)) yl data); rewrite ?VX, ?VY.
    + intros [Z1 Z2]. assert (KO : gmul (k i) G = gO).
      { apply (ecoords_inj E). rewrite (ecoords_O E). fold (C1 i). rewrite (surjective_pairing (C1 i)), Z1, Z2. reflexivity. }
      apply (gmul_zero_iff _ (eN E)) in KO; [|apply eN_prime|apply eG_order|apply eG_nonzero].
      rewrite EN in KO. apply Z.mod_divide in KO; [|discriminate].
      assert (KR : 1 <= k i <= N - 2).
      { unfold k, nonce. match goal with |- context [?a mod (N - 2)] => pose proof (Z.mod_pos_bound a (N - 2) ltac:(reflexivity)) end. lia. }
      apply Z.divide_pos_le in KO; lia.
    + exact A4.
    + apply minimal_big_bytes; [lia|reflexivity].
    + rewrite A3. apply surjective_pairing.
    + rewrite xor_len by exact Lk. exact H2.
    + rewrite xor_len by exact Lk. symmetry. apply xor_xor. exact Lk.
    + exact Hl.
Qed.
End RT.
Print Assumptions C48_roundtrip.

(** ** Examples, over the integers modulo N with coordinates (min(z, N - z), z) *)
Definition toy_sm (x y : Z) (b : bytes) : Z * Z := toy_pt (y * be2z b).
Definition toy_on (x y : Z) : bool := true.
Lemma toy_pt_range : forall z, in32 (toy_pt z).
Proof.
  intros z. unfold toy_pt. pose proof (Z.mod_pos_bound z N ltac:(reflexivity)) as B.
  assert (NB : N < 256 ^ 32) by reflexivity. unfold in32. cbn [fst snd]. lia.
Qed.
Lemma toy_ops : forall D k, 0 <= D -> 0 <= k -> ops_right toy_sbm toy_sm toy_on toy_E D k.
Proof.
  intros D k HD Hk. unfold ops_right. cbv zeta.
  rewrite <- !gmul_mul, !toy_gmul. unfold toy_sbm, toy_sm. rewrite !be2z_big_bytes by assumption.
  assert (M : forall a b, toy_pt (snd (toy_pt a) * b) = toy_pt (b * a)).
  { intros a b. unfold toy_pt. cbn [snd]. rewrite Z.mul_mod_idemp_l, (Z.mul_comm a b) by discriminate. reflexivity. }
  rewrite !M. repeat split; reflexivity.
Qed.
(** a three-byte message, encrypted with the first nonce *)
Definition toy_ct : bytes :=
  [12; 21; 114; 225; 32; 67; 84; 82; 114; 2; 202; 92; 81; 215; 47; 146; 234; 8; 62; 181; 119; 223; 18; 114;
   181; 174; 231; 128; 178; 153; 104; 58; 12; 21; 114; 225; 32; 67; 84; 82; 114; 2; 202; 92; 81; 215; 47;
   146; 234; 8; 62; 181; 119; 223; 18; 114; 181; 174; 231; 128; 178; 153; 104; 58; 196; 204; 29; 167; 113;
   219; 195; 106; 64; 157; 123; 13; 164; 156; 224; 209; 51; 161; 67; 115; 153; 52; 18; 141; 206; 131; 143;
   116; 192; 28; 36; 41; 102; 118; 214].
Example C48_example :
  Encrypt toy_sha toy_aes toy_sbm toy_sm 1 (Ok (repeat 5 16)) (toy_key 2) [1; 2; 3] = Val (Ok toy_ct) /\
  length toy_ct = 99%nat /\
  Decrypt toy_sm toy_on SM2P256V1 2 toy_ct [] = Val (Some [1; 2; 3], None).
Proof.
  assert (E : Encrypt toy_sha toy_aes toy_sbm toy_sm 1 (Ok (repeat 5 16)) (toy_key 2) [1; 2; 3] = Val (Ok toy_ct)) by (vm_compute; reflexivity).
  split; [exact E|]. split; [reflexivity|].
  assert (O : octets [1; 2; 3]) by (unfold octets; do 3 (apply Forall_cons; [lia|]); apply Forall_nil).
  apply (C48_roundtrip toy_sha toy_aes toy_sbm toy_sm toy_on (fun _ => eq_refl) (fun _ c H => H) (fun b => toy_pt_range (be2z b))
    (fun x y b => toy_pt_range (y * be2z b)) toy_E eq_refl 1 (repeat 5 16) (toy_key 2) [1; 2; 3] toy_ct 2 (big_bytes (pk_X (toy_key 2))) []
    eq_refl (proj2 (minimal_big_bytes (pk_X (toy_key 2)) _ ltac:(discriminate)) eq_refl) ltac:(split; [lia|reflexivity])
    ltac:(rewrite toy_gmul; reflexivity) O ltac:(reflexivity)); [| |exact E].
  - intros i Hi. apply toy_ops; [lia|]. unfold nonce.
    match goal with |- context [?a mod (N - 2)] => pose proof (Z.mod_pos_bound a (N - 2) ltac:(reflexivity)) end. lia.
  - intros i Hi _ _ j n Hj. lia.
Qed.
(** A retry that leaves a stale byte: the first nonce 364 derives a key of one zero byte, the
    second nonce is 1; the ciphertext has C1 = (257, 257) instead of (1, 1) and does not decrypt. *)
Definition stale_aes (key ctr : bytes) : bytes :=
  let i := be2z ctr - be2z aesIV in
  if i =? 2 then repeat 0 6 ++ [1; 107] ++ repeat 0 8 else repeat 0 16.
Definition stale_ct : bytes :=
  [0; 0; 0; 0; 0; 0; 0; 0; 0; 0; 0; 0; 0; 0; 0; 0; 0; 0; 0; 0; 0; 0; 0; 0; 0; 0; 0; 0; 0; 0; 1; 1; 0; 0; 0;
   0; 0; 0; 0; 0; 0; 0; 0; 0; 0; 0; 0; 0; 0; 0; 0; 0; 0; 0; 0; 0; 0; 0; 0; 0; 0; 0; 1; 1; 179; 220; 122; 45;
   234; 202; 98; 115; 156; 48; 91; 8; 209; 83; 134; 206; 80; 82; 19; 127; 40; 131; 128; 21; 218; 1; 15; 31;
   106; 53; 16; 79; 61].
Example C49_stale_example :
  Encrypt toy_sha stale_aes toy_sbm toy_sm 2 (Ok (repeat 5 16)) (toy_key 2) [9] = Val (Ok stale_ct) /\
  firstn 32 stale_ct = to_be 32 257 /\
  exists m, Decrypt toy_sm toy_on SM2P256V1 2 stale_ct [] = Val (Some m, Some "Hash not match!"%string).
Proof. split; [vm_compute; reflexivity|]. split; [reflexivity|]. eexists. vm_compute. reflexivity. Qed.
Example C49_stale_hyps : written (fun j => match j with O => 364 | _ => 1 end) 1 (to_be 32 257).
Proof.
  assert (M : forall z, 0 <= z -> minimal z (big_bytes z)) by (intros; apply minimal_big_bytes; auto).
  exact (wr_S (fun j => match j with O => 364 | _ => 1 end) 0 _ _ (wr_0 _ _ (M 364 ltac:(lia))) (M 1 ltac:(lia))).
Qed.
(** no output for the empty message however long one waits *)
Example C49_empty_example : Encrypt toy_sha toy_aes toy_sbm toy_sm 1000 (Ok (repeat 5 16)) (toy_key 2) [] = OutOfFuel.
Proof.
  apply (C49_empty_diverges toy_sha toy_aes toy_sbm toy_sm (fun _ => eq_refl) (fun b => toy_pt_range (be2z b))
    (fun x y b => toy_pt_range (y * be2z b)) 1000 (repeat 5 16) (toy_key 2) eq_refl).
  intros [C _]. discriminate.
Qed.
(** the point at infinity is refused, a key with one coordinate 0 is not *)
Definition key_at (x y : Z) : ecpub := {| pk_curve := SM2P256V1; pk_X := x; pk_Y := y |}.
Example C49_refused_example :
  (exists e, Encrypt toy_sha toy_aes toy_sbm toy_sm 1 (Ok (repeat 5 16)) (key_at 0 0) [1; 2; 3] = Val (Err e)) /\
  (exists c, Encrypt toy_sha toy_aes toy_sbm toy_sm 1 (Ok (repeat 5 16)) (key_at 0 2) [1; 2; 3] = Val (Ok c)).
Proof.
  split.
  - apply (C49_refused toy_sha toy_aes toy_sbm toy_sm (fun _ => eq_refl) (fun b => toy_pt_range (be2z b))
      (fun x y b => toy_pt_range (y * be2z b)) 0 (Ok (repeat 5 16)) (key_at 0 0) [1; 2; 3] eq_refl).
    + unfold octets. do 3 (apply Forall_cons; [lia|]). apply Forall_nil.
    + reflexivity.
    + right. split; reflexivity.
  - eexists. vm_compute. reflexivity.
Qed.
(** a short ciphertext, and one of 70 bytes followed by 10 bytes of spare capacity *)
Example C50_example : (exists w, Decrypt toy_sm toy_on SM2P256V1 2 [1; 2; 3] [] = Panic w) /\
  (exists e, Decrypt toy_sm toy_on SM2P256V1 2 (repeat 1 10) (repeat 1 60) = Val (None, Some e)).
Proof. split; eexists; vm_compute; reflexivity. Qed.
(** y2 = 1 is hashed as 01 00 ... 00 *)
Example C50_c3_example : left_aligned 1 (1 :: repeat 0 31) /\ to_be 32 1 = repeat 0 31 ++ [1].
Proof.
  split; [|reflexivity]. exists [1]. split; [|reflexivity]. split; [repeat constructor; discriminate|].
  split; [reflexivity|]. intros t [=].
Qed.
(** the zero check looks at the first byte only when z has one byte: the key 00 xx is refused *)
Example C51_example : sm3kdf [73] 2 = Val None /\ nth 0 (kdf [73] 2) 1 = 0 /\ nth 1 (kdf [73] 2) 0 <> 0.
Proof. split; [vm_compute; reflexivity|]. split; [vm_compute; reflexivity|]. vm_compute. discriminate. Qed.
