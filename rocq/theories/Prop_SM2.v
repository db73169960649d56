(** * Prop_SM2: properties C42 to C47 (/repo/sm2/signature.go) *)
From Coq Require Import ZArith Znumtheory String List Bool Lia.
From Verif Require Import Base BaseFacts Curves ECKey SM3 Spec_SM3 SM3Facts Spec_EC ECFacts Spec_Group SM2Sig Spec_SM2
  Prop_Keys Prop_WIF Primes3.
Import ListNotations.
Open Scope Z_scope.

(** ** Hashing (C46) *)
Lemma write_all_repr : forall l d m, repr d m -> Forall wf_bytes l ->
  exists d', write_all d l = Val d' /\ repr d' (m ++ concat l).
Proof.
  induction l as [|p l IH]; intros d m R W.
  - exists d. cbn. rewrite app_nil_r. auto.
  - inversion W; subst. destruct (write_spec d m p R) as (d1 & E1 & R1); [assumption|].
    destruct (IH d1 (m ++ p) R1) as (d2 & E2 & R2); [assumption|]. exists d2. cbn [write_all].
    rewrite E1. cbn [bind]. split; [exact E2|]. cbn [concat]. rewrite app_assoc. exact R2.
Qed.
Lemma u8_land : forall x, u8 (Z.land x 0xff) = x mod 256.
Proof.
  intros. unfold u8. change 0xff with (Z.ones 8). rewrite Z.land_ones by lia. change (2 ^ 8) with 256.
  apply Z.mod_mod. lia.
Qed.
Lemma minimal_big_bytes : forall z b, 0 <= z -> (minimal z b <-> b = big_bytes z).
Proof.
  intros z b Hz. split.
  - intros (O & V & H). rewrite value_be2z in V. subst z.
    destruct b as [|x t]; [reflexivity|].
    assert (x <> 0) by (intros ->; apply (H t); reflexivity).
    inversion O; subst. symmetry. apply big_bytes_of_be2z; [lia|assumption].
  - intros ->. split; [apply big_bytes_wf|]. split; [rewrite value_be2z; apply be2z_big_bytes; exact Hz|].
    intros t E. destruct (Z.eq_dec z 0) as [->|N]; [discriminate E|].
    destruct (big_bytes_nonzero_head z) as (x & l & B & Hx); [lia|]. rewrite B in E. injection E as -> _. lia.
Qed.
Lemma const_bytes : forall x, x = c_B SM2P256V1 \/ x = c_Gx SM2P256V1 \/ x = c_Gy SM2P256V1 ->
  big_bytes x = to_be 32 x.
Proof. intros x [->|[->| ->]]; reflexivity. Qed.
Lemma ABytes_eq : ABytes = to_be 32 (c_P SM2P256V1 - 3).
Proof. reflexivity. Qed.

(** the ID that is hashed *)
Definition effective_id (id : bytes) : bytes := match id with [] => DEFAULT_ID | _ => id end.
Definition hasher_ok (h : digest) : Prop := length (d_x h) = 64%nat.
Definition coords32 (k : ecpub) : Prop := 0 <= pk_X k < 256 ^ 32 /\ 0 <= pk_Y k < 256 ^ 32.

Lemma bb32 : forall z, 0 <= z < 256 ^ 32 -> (length (big_bytes z) <= 32)%nat.
Proof. intros. apply big_bytes_length_le. exact H. Qed.
Lemma za_short : forall id xb yb, zlen id < 2 ^ 60 -> (length xb <= 32)%nat -> (length yb <= 32)%nat ->
  zlen (za_input id xb yb) < 2 ^ 61.
Proof.
  intros id xb yb H Hx Hy. unfold za_input, zlen in *. rewrite !app_length.
  replace (length constants) with 128%nat by reflexivity. cbn [entl length].
  change (2 ^ 61) with (2 * 2 ^ 60). assert (2 ^ 60 > 1000) by reflexivity. lia.
Qed.
Lemma eff_len : forall id, zlen id < 2 ^ 60 -> zlen (effective_id id) < 2 ^ 60.
Proof. intros [|x l] H; [reflexivity|exact H]. Qed.
Lemma eff_wf : forall id, wf_bytes id -> wf_bytes (effective_id id).
Proof. intros [|x l] H; [|exact H]. repeat constructor; unfold is_byte; cbn; lia. Qed.

Lemma entl_wf : forall id, wf_bytes (entl id).
Proof. intros. repeat constructor; unfold entl; apply Z.mod_pos_bound; lia. Qed.

Lemma getZ_ok : forall k id msg hasher, pk_curve k = SM2P256V1 -> coords32 k -> hasher_ok hasher ->
  octets id -> zlen id < 2 ^ 60 ->
  exists h', hasher_ok h' /\ getZ msg (Some k) id hasher =
    Val (Ok (sm3_hash (za_input (effective_id id) (big_bytes (pk_X k)) (big_bytes (pk_Y k))) ++ msg, h')).
Proof.
  intros k id msg hasher Hc [HX HY] Hh Hid Lid. unfold getZ. rewrite Hc. change (is_SM2Curve SM2P256V1) with true. cbn [negb].
  cbv zeta.
  replace (if zlen id =? 0 then DEFAULT_ID else id) with (effective_id id).
  2:{ destruct id; [reflexivity|]. rewrite zlen_cons. pose proof (zlen_nonneg _ id).
      destruct (Z.eqb_spec (zlen id + 1) 0); [lia|]. destruct (Z.eqb_spec (1 + zlen id) 0); [lia|reflexivity]. }
  set (id' := effective_id id).
  rewrite !const_bytes by tauto. rewrite ABytes_eq, !u8_land, Z.shiftr_div_pow2 by lia.
  change (2 ^ 8) with 256.
  change ([zlen id' * 8 / 256 mod 256; (zlen id' * 8) mod 256]) with (entl id').
  destruct (write_all_repr [entl id'; id'; to_be 32 (c_P SM2P256V1 - 3); to_be 32 (c_B SM2P256V1);
     to_be 32 (c_Gx SM2P256V1); to_be 32 (c_Gy SM2P256V1); big_bytes (pk_X k); big_bytes (pk_Y k)] (Reset hasher) []) as (d & E & R).
  - apply repr_reset. exact Hh.
  - apply Forall_cons; [apply entl_wf|]. apply Forall_cons; [apply eff_wf; exact Hid|].
    do 4 (apply Forall_cons; [apply to_be_wf|]). do 2 (apply Forall_cons; [apply big_bytes_wf|]). apply Forall_nil.
  - match goal with |- context [write_all ?a ?l] => replace (write_all a l) with (Val d) by (symmetry; exact E) end.
    cbn [bind]. unfold SumMethod.
    assert (EQ : [] ++ concat [entl id'; id'; to_be 32 (c_P SM2P256V1 - 3); to_be 32 (c_B SM2P256V1);
     to_be 32 (c_Gx SM2P256V1); to_be 32 (c_Gy SM2P256V1); big_bytes (pk_X k); big_bytes (pk_Y k)] =
     za_input id' (big_bytes (pk_X k)) (big_bytes (pk_Y k))).
    { unfold za_input, constants. cbn [concat app]. rewrite <- !app_assoc, app_nil_r. reflexivity. }
    rewrite EQ in R. rewrite (checkSum_hash d _ R) by (apply za_short; [apply eff_len; exact Lid|apply bb32; assumption|apply bb32; assumption]).
    cbn [bind app]. exists d. split; [apply (repr_x _ _ R)|reflexivity].
Qed.
Lemma hash_msg_ok : forall mz hasher, hasher_ok hasher -> octets mz -> zlen mz < 2 ^ 61 ->
  hash_msg mz hasher = Val (sm3_hash mz).
Proof.
  intros mz hasher Hh O L. unfold hash_msg.
  destruct (write_spec (Reset hasher) [] mz (repr_reset _ Hh) O) as (d & E & R). rewrite E. cbn [bind].
  unfold SumMethod. rewrite (checkSum_hash d mz R L). reflexivity.
Qed.

(** What is hashed, whatever has been written to the hasher before. *)
Theorem C46_hash_input : forall k id msg hasher xb yb, pk_curve k = SM2P256V1 -> coords32 k -> hasher_ok hasher ->
  octets id -> zlen id < 2 ^ 60 -> minimal (pk_X k) xb -> minimal (pk_Y k) yb ->
  exists h', hasher_ok h' /\
    getZ msg (Some k) id hasher = Val (Ok (sm3_hash (za_input (effective_id id) xb yb) ++ msg, h')).
Proof.
  intros k id msg hasher xb yb Hc HC Hh Hid Lid Hx Hy.
  apply minimal_big_bytes in Hx; [|apply HC]. apply minimal_big_bytes in Hy; [|apply HC]. subst.
  apply getZ_ok; assumption.
Qed.
Theorem C46_other_curves_rejected : forall k id msg hasher, c_name (pk_curve k) <> c_name SM2P256V1 ->
  exists e, getZ msg (Some k) id hasher = Val (Err e).
Proof.
  intros k id msg hasher N. unfold getZ, is_SM2Curve. destruct (String.eqb_spec (c_name (pk_curve k)) (c_name SM2P256V1)); [contradiction|].
  eexists. reflexivity.
Qed.
Lemma getZ_empty : forall k msg h, getZ msg k [] h = getZ msg k (str_bytes "1234567812345678") h.
Proof. intros [k|]; reflexivity. Qed.
(** Only the length modulo 8192 bytes enters the length field. *)
Theorem C46_length_field : forall id id', entl id = entl id' <-> (zlen id) mod 8192 = (zlen id') mod 8192.
Proof.
  assert (A : forall n, 0 <= n -> (n * 8 / 256) mod 256 * 256 + (n * 8) mod 256 = (n mod 8192) * 8).
  { intros n Hn. rewrite <- (Z.mul_mod_distr_r n 8192 8) by lia. change (8192 * 8) with (256 * 256).
    rewrite Z.rem_mul_r by lia. ring. }
  intros id id'. unfold entl, zlen. split; intros H.
  - assert (H1 := f_equal (fun l => nth 0 l 0) H). assert (H2 := f_equal (fun l => nth 1 l 0) H). cbn [nth] in H1, H2.
    pose proof (A (Z.of_nat (length id)) ltac:(lia)). pose proof (A (Z.of_nat (length id')) ltac:(lia)). lia.
  - pose proof (A (Z.of_nat (length id)) ltac:(lia)) as A1. pose proof (A (Z.of_nat (length id')) ltac:(lia)) as A2.
    pose proof (Z.mod_pos_bound (Z.of_nat (length id) * 8) 256 ltac:(lia)).
    pose proof (Z.mod_pos_bound (Z.of_nat (length id') * 8) 256 ltac:(lia)).
    f_equal; [lia|f_equal; lia].
Qed.
(** Agreement with the standard, which encodes the coordinates with 32 bytes *)
Theorem C46_standard_iff : forall k id xb yb, coords32 k -> minimal (pk_X k) xb -> minimal (pk_Y k) yb ->
  (za_input id xb yb = za_input id (to_be 32 (pk_X k)) (to_be 32 (pk_Y k)) <-> 256 ^ 31 <= pk_X k /\ 256 ^ 31 <= pk_Y k).
Proof.
  intros k id xb yb [HX HY] Hx Hy.
  apply minimal_big_bytes in Hx; [|lia]. apply minimal_big_bytes in Hy; [|lia]. subst.
  assert (F : forall z, 0 <= z < 256 ^ 32 -> (length (big_bytes z) = 32%nat <-> 256 ^ 31 <= z)).
  { intros z Hz. destruct (Z_lt_dec z (256 ^ 31)) as [L|L].
    - pose proof (big_bytes_length_le z 31 ltac:(change (Z.of_nat 31) with 31; lia)). split; lia.
    - split; [lia|]. intros _. destruct (Nat.eq_dec (length (big_bytes z)) 32) as [Q|Q]; [exact Q|exfalso].
      pose proof (bb32 z Hz). pose proof (be2z_bound (big_bytes z) (big_bytes_wf z)) as B.
      rewrite be2z_big_bytes in B by lia.
      assert (256 ^ zlen (big_bytes z) <= 256 ^ 31) by (apply Z.pow_le_mono_r; unfold zlen; lia). lia. }
  assert (Pd : forall z, 0 <= z < 256 ^ 32 -> length (big_bytes z) = 32%nat -> big_bytes z = to_be 32 z).
  { intros z Hz L. pose proof (pad_big_bytes z 32 Hz) as Pq. rewrite L in Pq. exact Pq. }
  unfold za_input. split.
  - intros E. apply app_inv_head, app_inv_head, app_inv_head in E. apply (f_equal (@length Z)) in E.
    rewrite !app_length, !to_be_length in E. pose proof (bb32 _ HX). pose proof (bb32 _ HY).
    split; apply F; try assumption; lia.
  - intros [A B]. apply F in A; [|assumption]. apply F in B; [|assumption]. rewrite !Pd by assumption. reflexivity.
Qed.

(** ** Signing and verifying (C42 to C45, C47) *)
Notation N := (c_N SM2P256V1).
Lemma N_prime : prime N.
Proof. exact prime_c_N_SM2P256V1. Qed.
Lemma N_big : 2 ^ 255 < N < 2 ^ 256.
Proof. split; reflexivity. Qed.
(** the message integer of a key *)
Definition msg_e (k : ecpub) (id msg : bytes) : Z :=
  sm2_e (effective_id id) (big_bytes (pk_X k)) (big_bytes (pk_Y k)) msg.
Definition inputs_ok (k : ecpub) (id msg : bytes) (hasher : digest) : Prop :=
  pk_curve k = SM2P256V1 /\ coords32 k /\ hasher_ok hasher /\ octets id /\ octets msg /\ zlen id < 2 ^ 60 /\ zlen msg < 2 ^ 60.

Lemma digest_ok : forall k id msg hasher, inputs_ok k id msg hasher ->
  exists mz h dg, getZ msg (Some k) id hasher = Val (Ok (mz, h)) /\ hash_msg mz h = Val dg /\ be2z dg = msg_e k id msg.
Proof.
  intros k id msg hasher (Hc & HC & Hh & Oi & Om & Li & Lm).
  destruct (getZ_ok k id msg hasher Hc HC Hh Oi Li) as (h & Hh' & E). do 3 eexists. split; [exact E|].
  pose proof (sm3_hash_shape (za_input (effective_id id) (big_bytes (pk_X k)) (big_bytes (pk_Y k)))) as [L W]. split.
  - apply hash_msg_ok; [exact Hh'|apply Forall_app; split; [exact W|exact Om]|].
    unfold zlen in *. rewrite app_length, L. change (2 ^ 61) with (2 * 2 ^ 60). assert (2 ^ 60 > 1000) by reflexivity. lia.
  - unfold msg_e, sm2_e. symmetry. apply value_be2z.
Qed.
Lemma nonce_range : forall b, 1 <= randFieldElement SM2P256V1 b <= N - 2.
Proof.
  intros b. unfold randFieldElement. pose proof (Z.mod_pos_bound (be2z b) (N - 2) ltac:(reflexivity)). lia.
Qed.

Section Sig.
Variable sha512 : bytes -> bytes.
Variable aes : bytes -> bytes -> bytes.
Variable sbm : bytes -> Z * Z.
Variable inv : Z -> Z.
Variable comb : ecpub -> bytes -> bytes -> Z * Z.
Notation Sign := (Sign sha512 aes sbm inv).
Notation Verify := (Verify comb).

(** how the loop ends *)
Definition good_k (D e k r s : Z) : Prop :=
  1 <= k <= N - 2 /\ r = (fst (sbm (big_bytes k)) + e) mod N /\ r <> 0 /\ r + k <> N /\
  s = ((k - D * r) * inv (D + 1)) mod N /\ s <> 0.
Lemma sign_loop_inv : forall fuel draw i pk e r s,
  sign_loop sbm inv fuel SM2P256V1 draw i pk e = Val (r, s) -> exists k, good_k (be2z pk) e k r s.
Proof.
  induction fuel as [|fuel IH]; intros draw i pk e r s E; [discriminate|]. cbn [sign_loop] in E.
  set (k := randFieldElement SM2P256V1 (draw i)) in *.
  set (r0 := (fst (sbm (big_bytes k)) + e) mod N) in *.
  destruct (Z.eqb_spec r0 0); [apply IH in E; exact E|]. cbn [negb andb] in E.
  destruct (Z.eqb_spec (r0 + k) N); [apply IH in E; exact E|]. cbn [negb andb] in E.
  set (s0 := ((k - be2z pk * r0) * inv (be2z pk + 1)) mod N) in *.
  destruct (Z.eqb_spec s0 0); [apply IH in E; exact E|]. cbn [negb] in E.
  injection E as <- <-. exists k. split; [apply nonce_range|]. repeat split; try assumption; reflexivity.
Qed.
Lemma Sign_inv : forall fuel ent D k id msg hasher r s, inputs_ok k id msg hasher -> 0 <= D ->
  Sign fuel ent D k id msg hasher = Val (Ok (r, s)) -> exists kk, good_k D (msg_e k id msg) kk r s.
Proof.
  intros fuel ent D k id msg hasher r s I HD E. unfold SM2Sig.Sign in E.
  destruct (digest_ok k id msg hasher I) as (mz & h & dg & E1 & E2 & E3). rewrite E1 in E. cbn [bind] in E.
  rewrite E2 in E. cbn [bind] in E. destruct ent as [ent|]; [|discriminate].
  apply bind_val in E as (key & _ & E). destruct I as (Hc & _). rewrite Hc in E.
  change (N =? 0) with false in E. apply bind_val in E as (rs & E4 & E5).
  assert (rs = (r, s)) by congruence. subst rs. apply sign_loop_inv in E4.
  rewrite be2z_big_bytes, E3 in E4 by assumption. exact E4.
Qed.

Definition invertible (D : Z) : Prop := (inv (D + 1) * (D + 1)) mod N = 1.
Lemma sign_eq : forall D e k r s, invertible D -> good_k D e k r s -> (N | s * (1 + D) + r * D - k).
Proof.
  intros D e k r s I (Hk & Hr & _ & _ & Hs & _). subst s. unfold invertible in I.
  set (A := (k - D * r) * inv (D + 1)).
  pose proof (Z.div_mod A N ltac:(discriminate)) as DA.
  pose proof (Z.div_mod (inv (D + 1) * (D + 1)) N ltac:(discriminate)) as DB. rewrite I in DB.
  exists ((k - D * r) * (inv (D + 1) * (D + 1) / N) - A / N * (1 + D)).
  replace (A mod N) with (A - N * (A / N)) by lia.
  replace ((A - N * (A / N)) * (1 + D)) with ((k - D * r) * (inv (D + 1) * (D + 1)) - N * (A / N) * (1 + D)) by (unfold A; ring).
  rewrite DB at 1. ring.
Qed.
(** Ranges, and the equation s (1 + D) = k - r D of the standard for a nonce 1 <= k <= N - 2 *)
Theorem C44_ranges : forall fuel ent D k id msg hasher r s, inputs_ok k id msg hasher -> 0 <= D -> invertible D ->
  Sign fuel ent D k id msg hasher = Val (Ok (r, s)) ->
  1 <= r < N /\ 1 <= s < N /\ (r + s) mod N <> 0.
Proof.
  intros fuel ent D k id msg hasher r s I HD HI E. apply Sign_inv in E as (kk & G); try assumption.
  pose proof (sign_eq _ _ _ _ _ HI G) as EQ. destruct G as (Hk & Hr & Hr0 & Hrk & Hs & Hs0).
  pose proof (Z.mod_pos_bound (fst (sbm (big_bytes kk)) + msg_e k id msg) N ltac:(reflexivity)).
  pose proof (Z.mod_pos_bound ((kk - D * r) * inv (D + 1)) N ltac:(reflexivity)).
  rewrite <- Hr in H. rewrite <- Hs in H0. split; [lia|]. split; [lia|]. intros C.
  apply Z.mod_divide in C; [|discriminate].
  assert (Q : (N | r + kk)).
  { replace (r + kk) with ((r + s) * (1 + D) - (s * (1 + D) + r * D - kk)) by ring.
    apply Z.divide_sub_r; [apply Z.divide_mul_l; exact C|exact EQ]. }
  destruct Q as [q Q].
  destruct (Z_le_dec q 0); [assert (q * N <= 0) by (apply Z.mul_nonpos_nonneg; lia); lia|].
  destruct (Z_le_dec 2 q); [assert (2 * N <= q * N) by (apply Z.mul_le_mono_nonneg_r; lia); lia|].
  assert (q = 1) by lia. subst q. lia.
Qed.
Theorem C44_equation : forall fuel ent D k id msg hasher r s, inputs_ok k id msg hasher -> 0 <= D -> invertible D ->
  Sign fuel ent D k id msg hasher = Val (Ok (r, s)) ->
  exists kk, 1 <= kk <= N - 2 /\ (s * (1 + D)) mod N = (kk - r * D) mod N /\
    r = (msg_e k id msg + fst (sbm (big_bytes kk))) mod N.
Proof.
  intros fuel ent D k id msg hasher r s I HD HI E. apply Sign_inv in E as (kk & G); try assumption.
  pose proof (sign_eq _ _ _ _ _ HI G) as [q EQ]. destruct G as (Hk & Hr & _). exists kk. split; [exact Hk|].
  split; [|rewrite Z.add_comm; exact Hr].
  replace (s * (1 + D)) with (kk - r * D + q * N) by lia. apply Z.mod_add. discriminate.
Qed.

(** *** C45 *)
Theorem C45_diverges : forall fuel ent D k id msg hasher, inputs_ok k id msg hasher -> 0 <= D ->
  (D + 1) mod N = 0 -> inv (D + 1) mod N = 0 -> (forall m, (32 <= length (sha512 m))%nat) ->
  Sign fuel (Ok ent) D k id msg hasher = OutOfFuel.
Proof.
  intros fuel ent D k id msg hasher I HD HN Hi Hsha. unfold SM2Sig.Sign.
  destruct (digest_ok k id msg hasher I) as (mz & h & dg & E1 & E2 & E3). rewrite E1. cbn [bind].
  rewrite E2. cbn [bind]. rewrite slice_ok by (unfold zlen; pose proof (Hsha (big_bytes D ++ ent ++ dg)); lia). cbn [bind].
  destruct I as (Hc & _). rewrite Hc. change (N =? 0) with false.
  match goal with |- context [sign_loop _ _ _ _ ?d ?i ?p ?e] => assert (L : forall f j, sign_loop sbm inv f SM2P256V1 d j p e = OutOfFuel) end.
  { induction f as [|f IH]; intros j; [reflexivity|]. cbn [sign_loop]. rewrite IH. destruct (negb _); [reflexivity|].
    rewrite be2z_big_bytes by assumption.
    match goal with |- context [(?a * inv (D + 1)) mod N] => replace ((a * inv (D + 1)) mod N) with 0 end; [reflexivity|].
    symmetry. rewrite <- Z.mul_mod_idemp_r, Hi, Z.mul_0_r by discriminate. reflexivity. }
  rewrite L. reflexivity.
Qed.
(** without any assumption on the length of hashes or the success of the random source *)
Theorem C45_never_signs : forall fuel ent D k id msg hasher r s, inputs_ok k id msg hasher -> 0 <= D ->
  inv (D + 1) mod N = 0 -> Sign fuel ent D k id msg hasher <> Val (Ok (r, s)).
Proof.
  intros fuel ent D k id msg hasher r s I HD Hi E. apply Sign_inv in E as (kk & G); try assumption.
  destruct G as (_ & _ & _ & _ & Hs & Hs0). apply Hs0. rewrite Hs, <- Z.mul_mod_idemp_r, Hi, Z.mul_0_r by discriminate.
  reflexivity.
Qed.

(** *** C43 *)
Lemma verify_iff : forall pub id msg hasher r s, inputs_ok pub id msg hasher ->
  exists b, Verify pub id msg hasher r s = Val b /\ (b = true <->
   1 <= r <= N - 1 /\ 1 <= s <= N - 1 /\ (r + s) mod N <> 0 /\
   comb pub (big_bytes s) (big_bytes ((r + s) mod N)) <> (0, 0) /\
   (msg_e pub id msg + fst (comb pub (big_bytes s) (big_bytes ((r + s) mod N)))) mod N = r).
Proof.
  intros pub id msg hasher r s I.
  destruct (digest_ok pub id msg hasher I) as (mz & h & dg & E1 & E2 & E3).
  unfold SM2Sig.Verify. destruct I as (Hc & _). rewrite Hc. change (N =? 0) with false. cbv iota.
  destruct (Z.leb_spec r 0); [exists false; split; [reflexivity|split; [discriminate|lia]]|].
  destruct (Z.geb_spec r N); [exists false; split; [reflexivity|split; [discriminate|lia]]|].
  destruct (Z.leb_spec s 0); [exists false; split; [reflexivity|split; [discriminate|lia]]|].
  destruct (Z.geb_spec s N); [exists false; split; [reflexivity|split; [discriminate|lia]]|]. cbn [orb].
  pose proof (Z.mod_pos_bound (r + s) N ltac:(reflexivity)).
  destruct (Z.leb_spec ((r + s) mod N) 0); [exists false; split; [reflexivity|split; [discriminate|lia]]|].
  set (xy := comb pub (big_bytes s) (big_bytes ((r + s) mod N))).
  destruct (Z.eqb_spec (fst xy) 0) as [X|X].
  - destruct (Z.eqb_spec (snd xy) 0) as [Y|Y]; cbn [andb].
    + exists false. split; [reflexivity|]. split; [discriminate|]. intros (_ & _ & _ & C & _). exfalso. apply C.
      destruct xy; cbn [fst snd] in *. congruence.
    + rewrite E1. cbn [bind]. rewrite E2. cbn [bind]. rewrite E3. eexists. split; [reflexivity|].
      rewrite Z.eqb_eq, (Z.add_comm (fst xy)). split; [intros E; repeat split; try lia|intros (_ & _ & _ & _ & E); exact E].
      intros C. apply Y. rewrite C. reflexivity.
  - cbn [andb]. rewrite E1. cbn [bind]. rewrite E2. cbn [bind]. rewrite E3. eexists. split; [reflexivity|].
    rewrite Z.eqb_eq, (Z.add_comm (fst xy)). split; [intros E; repeat split; try lia|intros (_ & _ & _ & _ & E); exact E].
    intros C. apply X. rewrite C. reflexivity.
Qed.
Theorem C43_total : forall pub id msg hasher r s, inputs_ok pub id msg hasher ->
  exists b, Verify pub id msg hasher r s = Val b.
Proof. intros pub id msg hasher r s I. destruct (verify_iff pub id msg hasher r s I) as (b & E & _). eauto. Qed.
Theorem C43_other_curves_rejected : forall pub id msg hasher r s, c_name (pk_curve pub) <> c_name SM2P256V1 ->
  Verify pub id msg hasher r s = Val false.
Proof.
  intros pub id msg hasher r s Hc. unfold SM2Sig.Verify. destruct (C46_other_curves_rejected pub id msg hasher Hc) as [e E].
  rewrite E. destruct (_ =? 0); [reflexivity|]. destruct (_ || _); [reflexivity|]. destruct (_ <=? 0); [reflexivity|].
  destruct (_ && _); reflexivity.
Qed.

(** [comb] gives the right point for this key and these scalars *)
Definition comb_right (E : ecgroup) (pub : ecpub) (P : pt (eg E)) (s t : Z) : Prop :=
  comb pub (big_bytes s) (big_bytes t) = ecoords (gadd (gmul s eG) (gmul t P)).
Theorem C43_exact : forall (E : ecgroup) (P : pt (eg E)) pub id msg hasher r s, inputs_ok pub id msg hasher ->
  eN E = N -> gmul N P = gO -> comb_right E pub P s ((r + s) mod N) ->
  (Verify pub id msg hasher r s = Val true <-> sm2_accepts E P (msg_e pub id msg) r s).
Proof.
  intros E P pub id msg hasher r s I HN HP HR.
  destruct (verify_iff pub id msg hasher r s I) as (b & EV & Hb). rewrite EV. unfold comb_right in HR. rewrite HR in Hb.
  rewrite (gmul_mod _ N (r + s) P) in Hb by (reflexivity || assumption).
  assert (O : forall Q : pt (eg E), ecoords Q <> (0, 0) <-> Q <> gO).
  { intros Q. rewrite <- (ecoords_O E). split; intros C D; apply C; [rewrite D; reflexivity|apply ecoords_inj; exact D]. }
  rewrite O in Hb. unfold sm2_accepts. rewrite HN. cbv zeta.
  split; [intros C; apply val_inj in C; apply Hb in C; exact C|].
  intros C. assert (b = true) as -> by (apply Hb; exact C). reflexivity.
Qed.

(** *** C42 *)
Theorem C42_sign_verify : forall (E : ecgroup) fuel ent D k id msg hasher hasher' r s,
  inputs_ok k id msg hasher -> hasher_ok hasher' ->
  eN E = N -> (forall j, 1 <= j <= N - 1 -> sbm (big_bytes j) = ecoords (gmul j (eG (e := E)))) ->
  0 <= D -> invertible D -> ecoords (gmul D (eG (e := E))) = (pk_X k, pk_Y k) ->
  Sign fuel ent D k id msg hasher = Val (Ok (r, s)) ->
  comb_right E k (gmul D eG) s ((r + s) mod N) ->
  Verify k id msg hasher' r s = Val true.
Proof.
  intros E fuel ent D k id msg hasher hasher' r s I Hh HN Hsbm HD HI HP ES HR.
  destruct (C44_ranges _ _ _ _ _ _ _ _ _ I HD HI ES) as (Rr & Rs & Rt).
  apply Sign_inv in ES as (kk & G); try assumption. pose proof (sign_eq _ _ _ _ _ HI G) as [q EQ].
  destruct G as (Hk & Hr & Hr0 & Hrk & Hs & Hs0).
  assert (I' : inputs_ok k id msg hasher').
  { destruct I as (I1 & I2 & I3 & I4). exact (conj I1 (conj I2 (conj Hh (proj2 (conj I3 I4))))). }
  assert (GN : gmul N (eG (e := E)) = gO) by (rewrite <- HN; apply eG_order).
  assert (GP : gmul N (gmul D (eG (e := E))) = gO) by (rewrite gmul_comm, GN; apply gmul_O).
  apply (proj2 (C43_exact E (gmul D eG) k id msg hasher' r s I' HN GP HR)).
  - assert (Q : gadd (gmul s (eG (e := E))) (gmul (r + s) (gmul D eG)) = gmul kk eG).
    { rewrite <- gmul_mul, <- gmul_add. replace (s + (r + s) * D) with (kk + q * N) by lia.
      rewrite gmul_add, gmul_mul, GN, gmul_O. apply gadd_O. }
    unfold sm2_accepts. rewrite HN. split; [lia|]. split; [lia|]. split; [exact Rt|]. cbv zeta. rewrite Q. split.
    + intros C. apply (gmul_zero_iff _ N) in C; [|apply N_prime|exact GN|apply eG_nonzero].
      rewrite Z.mod_small in C; lia.
    + rewrite <- Hsbm by lia. rewrite Z.add_comm. symmetry. exact Hr.
Qed.
End Sig.

(** *** C47 *)
Theorem C47_same_x : forall (E : ecgroup) (P : pt (eg E)) e r s s', sm2_accepts E P e r s -> sm2_accepts E P e r s' ->
  fst (ecoords (gadd (gmul s eG) (gmul (r + s) P))) mod eN E = fst (ecoords (gadd (gmul s' eG) (gmul (r + s') P))) mod eN E.
Proof.
  intros E P e r s s' (_ & _ & _ & _ & A) (_ & _ & _ & _ & B). pose proof (prime_ge_2 _ (eN_prime E)).
  set (x := fst (ecoords (gadd (gmul s eG) (gmul (r + s) P)))) in *.
  set (y := fst (ecoords (gadd (gmul s' eG) (gmul (r + s') P)))) in *. 
  replace x with (e + x - e) by lia. replace y with (e + y - e) by lia.
  rewrite (Zminus_mod (e + x)), (Zminus_mod (e + y)), A, B. reflexivity.
Qed.
(** The point determines s, unless the public key is the negative of the base point. *)
Theorem C47_unique_s : forall (E : ecgroup) (P : pt (eg E)) e r s s', gmul (eN E) P = gO -> P <> gneg eG ->
  sm2_accepts E P e r s -> sm2_accepts E P e r s' ->
  gadd (gmul s eG) (gmul (r + s) P) = gadd (gmul s' eG) (gmul (r + s') P) -> s = s'.
Proof.
  intros E P e r s s' HP HG (_ & A & _) (_ & B & _) Q.
  assert (K : forall u, gadd (gmul u eG) (gmul (r + u) P) = gadd (gmul u (gadd eG P)) (gmul r P)).
  { intros u. rewrite gmul_gadd, (Z.add_comm r u), (gmul_add _ u r), gadd_assoc. reflexivity. }
  rewrite !K, (gadd_comm _ _ (gmul r P)), (gadd_comm _ (gmul s' _)) in Q. apply gcancel_l in Q.
  apply (gmul_inj _ (eN E)) in Q; [|apply eN_prime| |].
  - rewrite !Z.mod_small in Q by lia. exact Q.
  - rewrite gmul_gadd, HP, eG_order. apply gadd_O.
  - intros C. apply HG. apply gneg_unique. exact C.
Qed.
(** For that key a signature is accepted whatever s is. *)
Theorem C47_degenerate_key : forall (E : ecgroup) e r s s', sm2_accepts E (gneg eG) e r s ->
  1 <= s' <= eN E - 1 -> (r + s') mod eN E <> 0 -> sm2_accepts E (gneg eG) e r s'.
Proof.
  intros E e r s s' (A1 & A2 & A3 & A4) H1 H2.
  assert (K : forall u, gadd (gmul u eG) (gmul (r + u) (gneg (eG (e := E)))) = gmul (- r) eG).
  { intros u. rewrite gmul_gneg, <- gmul_sub. f_equal. lia. }
  cbv zeta in A4. rewrite K in A4. unfold sm2_accepts. cbv zeta. rewrite K. tauto.
Qed.
Theorem C46_empty_id : forall sha512 aes sbm inv comb k msg h r s fuel ent D,
  Verify comb k [] msg h r s = Verify comb k (str_bytes "1234567812345678") msg h r s /\
  Sign sha512 aes sbm inv fuel ent D k [] msg h = Sign sha512 aes sbm inv fuel ent D k (str_bytes "1234567812345678") msg h.
Proof. intros. unfold Verify, Sign. rewrite getZ_empty. split; reflexivity. Qed.
(** The result does not depend on what the caller's hasher has been used for. *)
Theorem C46_hasher_state : forall sha512 aes sbm inv comb k id msg h h' r s fuel ent D,
  inputs_ok k id msg h -> hasher_ok h' ->
  Verify comb k id msg h r s = Verify comb k id msg h' r s /\
  Sign sha512 aes sbm inv fuel ent D k id msg h = Sign sha512 aes sbm inv fuel ent D k id msg h'.
Proof.
  intros sha512 aes sbm inv comb k id msg h h' r s fuel ent D I Hh.
  assert (I2 := I). destruct I2 as (Hc & HC & Hh0 & Oi & Om & Li & Lm).
  destruct (getZ_ok k id msg h Hc HC Hh0 Oi Li) as (h1 & Hh1 & E1).
  destruct (getZ_ok k id msg h' Hc HC Hh Oi Li) as (h2 & Hh2 & E2).
  pose proof (sm3_hash_shape (za_input (effective_id id) (big_bytes (pk_X k)) (big_bytes (pk_Y k)))) as [L W].
  set (mz := sm3_hash (za_input (effective_id id) (big_bytes (pk_X k)) (big_bytes (pk_Y k))) ++ msg) in *.
  assert (OM : octets mz) by (apply Forall_app; split; assumption).
  assert (LM : zlen mz < 2 ^ 61).
  { unfold mz, zlen in *. rewrite app_length, L. change (2 ^ 61) with (2 * 2 ^ 60). assert (2 ^ 60 > 1000) by reflexivity. lia. }
  unfold Verify, Sign. rewrite E1, E2. cbn [bind]. rewrite !hash_msg_ok by assumption. split; reflexivity.
Qed.
Print Assumptions C42_sign_verify.
Print Assumptions C43_total.
Print Assumptions C43_other_curves_rejected.
Print Assumptions C43_exact.
Print Assumptions C44_ranges.
Print Assumptions C44_equation.
Print Assumptions C45_diverges.
Print Assumptions C45_never_signs.
Print Assumptions C46_hash_input.
Print Assumptions C46_other_curves_rejected.
Print Assumptions C46_length_field.
Print Assumptions C46_standard_iff.
Print Assumptions C46_empty_id.
Print Assumptions C46_hasher_state.
Print Assumptions C47_same_x.
Print Assumptions C47_unique_s.
Print Assumptions C47_degenerate_key.

(** ** Examples: the additive group of integers modulo N in place of the curve *)
Definition toy_E : ecgroup := zm_ec N N_prime.
Definition toy_pt (z : Z) : Z * Z := (Z.min (z mod N) (N - z mod N), z mod N).
Definition toy_sbm (b : bytes) : Z * Z := toy_pt (be2z b).
Definition toy_comb (k : ecpub) (s t : bytes) : Z * Z := toy_pt (be2z s + be2z t * pk_Y k).
(** right for D = 2 and D = N - 1 *)
Definition toy_inv (d : Z) : Z := if d =? 3 then 77194726140237499170946896809347261844041082483305163045229206237528959363949 else 0.
Definition toy_key (d : Z) : ecpub := {| pk_curve := SM2P256V1; pk_X := fst (toy_pt d); pk_Y := snd (toy_pt d) |}.
Definition toy_sha (m : bytes) : bytes := repeat 7 64.
Definition toy_aes (key ctr : bytes) : bytes := ctr.
Definition toy_id : bytes := [66; 111; 98].
Definition toy_msg : bytes := [1; 2; 3].
(** a hasher that has been used before *)
Definition used_hasher : digest := mkDigest (1, 2, 3, 4, 5, 6, 7, 8) (repeat 9 64) 5 77.
Lemma toy_gmul : forall j, ecoords (gmul j (eG (e := toy_E))) = toy_pt j.
Proof.
  intros j. unfold toy_E. cbn [eG zm_ec]. change (eg (zm_ec N N_prime)) with (zm_group N N_prime).
  rewrite zm_gmul, Z.mul_1_r. reflexivity.
Qed.
Lemma toy_inputs : forall d, inputs_ok (toy_key d) toy_id toy_msg used_hasher.
Proof.
  intros d. split; [reflexivity|]. split.
  { pose proof (Z.mod_pos_bound d N ltac:(reflexivity)). assert (N < 256 ^ 32) by reflexivity.
    split; cbn [toy_key pk_X pk_Y toy_pt fst snd]; lia. }
  split; [reflexivity|]. split; [repeat constructor; lia|]. split; [repeat constructor; lia|]. split; reflexivity.
Qed.
Lemma toy_invertible : invertible toy_inv 2.
Proof. reflexivity. Qed.
Lemma toy_comb_right : forall s t, 0 <= s -> 0 <= t -> comb_right toy_comb toy_E (toy_key 2) (gmul 2 eG) s t.
Proof.
  intros s t Hs Ht. unfold comb_right. rewrite <- gmul_mul, <- gmul_add, toy_gmul. unfold toy_comb.
  rewrite !be2z_big_bytes by assumption. reflexivity.
Qed.
Example C42_example : exists r s, Sign toy_sha toy_aes toy_sbm toy_inv 1 (Ok (repeat 5 16)) 2 (toy_key 2) toy_id toy_msg used_hasher = Val (Ok (r, s)).
Proof. eexists. eexists. vm_compute. reflexivity. Qed.
Example C42_example_verify : exists r s,
  Sign toy_sha toy_aes toy_sbm toy_inv 1 (Ok (repeat 5 16)) 2 (toy_key 2) toy_id toy_msg used_hasher = Val (Ok (r, s)) /\
  Verify toy_comb (toy_key 2) toy_id toy_msg New r s = Val true /\
  sm2_accepts toy_E (gmul 2 eG) (msg_e (toy_key 2) toy_id toy_msg) r s.
Proof.
  destruct C42_example as (r & s & E). exists r, s. split; [exact E|].
  assert (H2 : 0 <= 2) by lia.
  destruct (C44_ranges toy_sha toy_aes toy_sbm toy_inv 1 (Ok (repeat 5 16)) 2 (toy_key 2) toy_id toy_msg used_hasher r s
    (toy_inputs 2) H2 toy_invertible E) as (Hr & Hs & Ht).
  assert (CR : comb_right toy_comb toy_E (toy_key 2) (gmul 2 eG) s ((r + s) mod N)).
  { apply toy_comb_right; [lia|]. apply Z.mod_pos_bound. reflexivity. }
  assert (V : Verify toy_comb (toy_key 2) toy_id toy_msg New r s = Val true).
  { apply (C42_sign_verify toy_sha toy_aes toy_sbm toy_inv toy_comb toy_E 1 (Ok (repeat 5 16)) 2 (toy_key 2) toy_id toy_msg
      used_hasher New r s (toy_inputs 2) eq_refl eq_refl); [|exact H2| | |exact E|exact CR].
    - intros j Hj. rewrite toy_gmul. unfold toy_sbm. rewrite be2z_big_bytes by lia. reflexivity.
    - exact toy_invertible.
    - rewrite toy_gmul. reflexivity. }
  split; [exact V|]. apply (C43_exact toy_comb toy_E (gmul 2 eG) (toy_key 2) toy_id toy_msg New r s); try assumption.
  - destruct (toy_inputs 2) as (I1 & I2 & I3 & I4). exact (conj I1 (conj I2 (conj eq_refl I4))).
  - reflexivity.
  - rewrite gmul_comm, (eG_order toy_E : gmul N (eG (e := toy_E)) = gO). apply gmul_O.
Qed.
Example C45_example : Sign toy_sha toy_aes toy_sbm toy_inv 1000 (Ok (repeat 5 16)) (N - 1) (toy_key (N - 1)) toy_id toy_msg used_hasher = OutOfFuel.
Proof.
  apply C45_diverges; [apply toy_inputs|discriminate|reflexivity|reflexivity|]. intros m. cbn. lia.
Qed.
(** a key whose coordinates have 31 and 2 bytes, and another one with the same hash input *)
Example C46_example_short : za_input [] (big_bytes (2 ^ 247)) (big_bytes 0x102) <> za_input [] (to_be 32 (2 ^ 247)) (to_be 32 0x102).
Proof. vm_compute. discriminate. Qed.
Definition key_a : ecpub := {| pk_curve := SM2P256V1; pk_X := 0x01; pk_Y := 0x0203 |}.
Definition key_b : ecpub := {| pk_curve := SM2P256V1; pk_X := 0x0102; pk_Y := 0x03 |}.
(** the code does not distinguish these two (off-curve) keys *)
Example C46_example_ambiguous : forall id, za_input id (big_bytes (pk_X key_a)) (big_bytes (pk_Y key_a)) =
  za_input id (big_bytes (pk_X key_b)) (big_bytes (pk_Y key_b)).
Proof. reflexivity. Qed.
Example C46_example_wrap : entl (repeat 65 8195) = entl [65; 65; 65].
Proof. reflexivity. Qed.
Example C47_example : exists e r s, sm2_accepts toy_E (gneg eG) e r s.
Proof.
  exists (1 - fst (ecoords (gmul (-1) (eG (e := toy_E))))), 1, 1. unfold sm2_accepts. cbv zeta.
  assert (Q : gadd (gmul 1 eG) (gmul (1 + 1) (gneg (eG (e := toy_E)))) = gmul (-1) eG).
  { rewrite gmul_gneg, <- gmul_sub. reflexivity. }
  rewrite Q. change (eN toy_E) with N. split; [split; discriminate|]. split; [split; discriminate|]. split; [discriminate|]. split.
  - intros C. apply (gmul_zero_iff _ N) in C; [discriminate|apply N_prime|apply (eG_order toy_E)|apply (eG_nonzero toy_E)].
  - replace (1 - fst (ecoords (gmul (-1) (eG (e := toy_E)))) + fst (ecoords (gmul (-1) (eG (e := toy_E))))) with 1 by lia. reflexivity.
Qed.
