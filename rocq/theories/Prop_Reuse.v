(** * Prop_Reuse: property C97, what the nonces of SM2 signatures give away, and what it takes for sm2.Sign to
    use a nonce twice (/repo/sm2/signature.go:64-204; the signers of crypto/ecdsa for keys of the same curve).
    The signer is taken over any methods of the curve, with an inverse that is right at D + 1. *)
From Coq Require Import ZArith Znumtheory Zpow_facts String List Bool Lia.
From Verif Require Import Base BaseFacts Curves ECKey SM3 Spec_SM3 SM3Facts Spec_EC ECFacts Spec_Group SM2Sig Spec_SM2 Prop_Keys Prop_SM2 Prop_SM2b
  Spec_ECDSA P256 Spec_P256 Prop_P256c Prop_P256d AsmVal Prop_Asm2 Prop_SM2Enc4 Prop_AsmSig.
From Verif Require Primes3 Prop_SigWhole.
Import ListNotations.
Open Scope Z_scope.
Notation N := (c_N SM2P256V1).

(** D is the one solution of D a = b modulo m in [0, m) *)
Definition only (m a b D : Z) : Prop := 0 <= D < m /\ forall D', 0 <= D' < m -> ((D' * a) mod m = b mod m <-> D' = D).

Lemma cong_ex : forall m x y, 0 < m -> x mod m = y mod m -> exists q, x = y + q * m.
Proof.
  intros m x y M E. exists (x / m - y / m). pose proof (Z.div_mod x m ltac:(lia)). pose proof (Z.div_mod y m ltac:(lia)). nia.
Qed.
Lemma ex_cong : forall m x y q, 0 < m -> x = y + q * m -> x mod m = y mod m.
Proof. intros m x y q M ->. apply Z.mod_add. lia. Qed.
Lemma only_prime : forall m a b D, prime m -> 0 <= D < m -> a mod m <> 0 -> (D * a) mod m = b mod m -> only m a b D.
Proof.
  intros m a b D P R A E. split; [exact R|]. intros D' R'. split; [|intros ->; exact E]. intros E'. rewrite <- E in E'.
  destruct (cong_ex m _ _ ltac:(lia) E') as [q Q].
  assert (DV : (m | (D' - D) * a)) by (exists q; lia). apply prime_mult in DV; [|exact P]. destruct DV as [[z Z0]|DV].
  - assert (z = 0) by nia. lia.
  - exfalso. apply A. apply Z.mod_divide; [lia|exact DV].
Qed.
Lemma N_pos : 0 < N. Proof. reflexivity. Qed.
Lemma N_prime : prime N. Proof. exact Primes3.prime_c_N_SM2P256V1. Qed.

(** ** The equations *)
Lemma sm2_line : forall x D e k r s, attempt x N D e k (Some (r, s)) -> exists q, D * (r + s) = k - s + q * N.
Proof.
  intros x D e k r s A. inversion A as [r0 s0 R R0 RK S0 EQ|]; subst. destruct (cong_ex N _ _ N_pos EQ) as [q Q]. exists q. lia.
Qed.
Lemma sm2_sum : forall x D e k r s, 1 <= k <= N - 2 -> attempt x N D e k (Some (r, s)) -> (r + s) mod N <> 0.
Proof.
  intros x D e k r s K A C. destruct (sm2_line _ _ _ _ _ _ A) as [q Q]. inversion A as [r0 s0 R R0 RK S0 EQ|]; subst r0 s0.
  pose proof (Z.mod_pos_bound (e + x k) N N_pos) as B. rewrite <- R in B. clear R EQ A.
  apply Z.mod_divide in C; [|discriminate]. destruct C as [c C]. assert (c = 1) by nia. subst c.
  assert (k - s = (D - q) * N) by nia. assert (D - q = 0) by nia. apply RK. lia.
Qed.

Section Sign.
Variable sha512 : bytes -> bytes.
Variable aes : bytes -> bytes -> bytes.
Variable sbm : bytes -> Z * Z.
Variable inv : Z -> Z.
Notation Sign := (SM2Sig.Sign sha512 aes sbm inv).
Notation x := (fun k => fst (sbm (big_bytes k))).
(** the nonce of a signature *)
Definition used (D : Z) (k : ecpub) (id msg : bytes) (r s kk : Z) : Prop :=
  1 <= kk <= N - 2 /\ attempt x N D (msg_e k id msg) kk (Some (r, s)).

Lemma sign_used : forall fuel ent D k id msg hasher r s, inputs_ok k id msg hasher -> 0 <= D -> invertible inv D ->
  Sign fuel ent D k id msg hasher = Val (Ok (r, s)) -> exists kk, used D k id msg r s kk.
Proof.
  intros fuel ent D k id msg hasher r s I HD HI E. destruct (C44_ranges _ _ _ _ _ _ _ _ _ _ _ _ _ I HD HI E) as (R & S0 & T).
  destruct (C44_equation _ _ _ _ _ _ _ _ _ _ _ _ _ I HD HI E) as (kk & K & EQ & RE). exists kk. split; [exact K|].
  apply at_ok; [exact RE|lia| |lia|exact EQ]. intros C. apply T. clear RE E. destruct (cong_ex N _ _ N_pos EQ) as [q Q].
  assert (U : (s - kk) * (1 + D) = (q - D) * N) by nia.
  assert (DV : (N | (s - kk) * (1 + D))) by (exists (q - D); exact U). apply prime_mult in DV; [|exact N_prime]. destruct DV as [[z Z0]|DV].
  - assert (z = 0) by nia. replace (r + s) with (0 + 1 * N) by lia. rewrite Z.mod_add by discriminate. reflexivity.
  - exfalso. unfold invertible in HI. replace (1 + D) with (D + 1) in DV by ring. apply Z.mod_divide in DV; [|discriminate].
    rewrite <- Z.mul_mod_idemp_r, DV, Z.mul_0_r in HI by discriminate. discriminate HI.
Qed.

(** One signature and its nonce determine the private key. *)
Theorem C97_known : forall fuel ent D k id msg hasher r s, inputs_ok k id msg hasher -> 1 <= D <= N - 2 -> invertible inv D ->
  Sign fuel ent D k id msg hasher = Val (Ok (r, s)) ->
  (exists kk, used D k id msg r s kk) /\ forall kk, used D k id msg r s kk -> only N (r + s) (kk - s) D.
Proof.
  intros fuel ent D k id msg hasher r s I HD HI E. split; [exact (sign_used _ _ _ _ _ _ _ _ _ I (ltac:(lia) : 0 <= D) HI E)|].
  intros kk (K & A). apply only_prime; [exact N_prime|lia|exact (sm2_sum _ _ _ _ _ _ K A)|].
  destruct (sm2_line _ _ _ _ _ _ A) as [q Q]. exact (ex_cong N _ _ q N_pos Q).
Qed.

(** Two signatures whose nonces are in a known linear relation: the key is determined, unless the relation is one
    that the signatures satisfy for every key. *)
Theorem C97_related : forall D k id msg r s kk k' id' msg' r' s' kk' a b, 0 <= D < N ->
  used D k id msg r s kk -> used D k' id' msg' r' s' kk' -> kk' mod N = (a * kk + b) mod N ->
  only N (r' + s' - a * (r + s)) (a * s + b - s') D \/
  ((r' + s') mod N = (a * (r + s)) mod N /\ s' mod N = (a * s + b) mod N).
Proof.
  intros D k id msg r s kk k' id' msg' r' s' kk' a b HD (K & A) (K' & A') REL.
  destruct (sm2_line _ _ _ _ _ _ A) as [q Q]. destruct (sm2_line _ _ _ _ _ _ A') as [q' Q']. destruct (cong_ex N _ _ N_pos REL) as [c C].
  assert (L : D * (r' + s' - a * (r + s)) = a * s + b - s' + (c + q' - a * q) * N).
  { replace (D * (r' + s' - a * (r + s))) with (D * (r' + s') - a * (D * (r + s))) by ring. rewrite Q, Q', C. ring. }
  destruct (Z.eq_dec ((r' + s' - a * (r + s)) mod N) 0) as [Z0|NZ].
  - right. apply Z.mod_divide in Z0; [|discriminate]. destruct Z0 as [z Z0].
    split; [apply (ex_cong N _ _ z N_pos); lia|]. apply (ex_cong N _ _ (c + q' - a * q - D * z) N_pos). rewrite Z0 in L. nia.
  - left. apply only_prime; [exact N_prime|exact HD|exact NZ|exact (ex_cong N _ _ _ N_pos L)].
Qed.
(** The same nonce twice: the key is determined, unless it is the same signature again, for the same e. *)
Theorem C97_reuse : forall D k id msg r s k' id' msg' r' s' kk, 0 <= D < N ->
  used D k id msg r s kk -> used D k' id' msg' r' s' kk ->
  only N (r' + s' - (r + s)) (s - s') D \/ (r = r' /\ s = s' /\ msg_e k id msg mod N = msg_e k' id' msg' mod N).
Proof.
  intros D k id msg r s k' id' msg' r' s' kk HD U U'.
  destruct (C97_related D k id msg r s kk k' id' msg' r' s' kk 1 0 HD U U' ltac:(f_equal; lia)) as [L|(T & S0)].
  - left. replace (1 * (r + s)) with (r + s) in L by ring. replace (1 * s + 0 - s') with (s - s') in L by ring. exact L.
  - right. destruct U as (_ & A), U' as (_ & A'). inversion A as [r0 s0 R _ _ B _|]. inversion A' as [r1 s1 R' _ _ B' _|]. subst r0 s0 r1 s1.
    assert (SS : s = s') by (replace (1 * s + 0) with s in S0 by ring; rewrite !Z.mod_small in S0 by lia; lia). subst s'. clear S0.
    assert (RB : 0 <= r < N) by (rewrite R; apply Z.mod_pos_bound; reflexivity). assert (RB' : 0 <= r' < N) by (rewrite R'; apply Z.mod_pos_bound; reflexivity).
    destruct (cong_ex N _ _ N_pos T) as [q Q]. assert (q = 0) by nia. assert (RR : r = r') by lia. split; [exact RR|]. split; [reflexivity|].
    rewrite R, R' in RR. destruct (cong_ex N _ _ N_pos RR) as [z Z0]. apply (ex_cong N _ _ z N_pos). lia.
Qed.
(** The same nonce in an SM2 signature and in an ECDSA signature with the same key. *)
Theorem C97_two_schemes : forall D k id msg r s kk e r' s' y, 0 <= D < N ->
  used D k id msg r s kk -> dsa_attempt y N D e kk (Some (r', s')) ->
  only N (s' * (r + s) - r') (e - s' * s) D \/ ((s' * (r + s)) mod N = r' /\ e mod N = (s' * s) mod N).
Proof.
  intros D k id msg r s kk e r' s' y HD (K & A) A'. destruct (sm2_line _ _ _ _ _ _ A) as [q Q].
  inversion A' as [r1 s1 R' R0' B' EQ|]. subst r1 s1. destruct (cong_ex N _ _ N_pos EQ) as [c C].
  assert (L : D * (s' * (r + s) - r') = e - s' * s + (c + s' * q) * N).
  { replace (D * (s' * (r + s) - r')) with (s' * (D * (r + s)) - r' * D) by ring. rewrite Q. replace (s' * (kk - s + q * N)) with (s' * kk - s' * s + s' * q * N) by ring. nia. }
  destruct (Z.eq_dec ((s' * (r + s) - r') mod N) 0) as [Z0|NZ].
  - right. apply Z.mod_divide in Z0; [|discriminate]. destruct Z0 as [z Z0].
    assert (RB : 0 <= r' < N) by (rewrite R'; apply Z.mod_pos_bound; reflexivity).
    split; [rewrite <- (Z.mod_small r' N RB); apply (ex_cong N _ _ z N_pos); lia|]. apply (ex_cong N _ _ (D * z - (c + s' * q)) N_pos). rewrite Z0 in L. nia.
  - left. apply only_prime; [exact N_prime|exact HD|exact NZ|exact (ex_cong N _ _ _ N_pos L)].
Qed.

(** ** When Sign uses its stream of nonces again *)
Hypothesis sha_len : forall m, length (sha512 m) = 64%nat.
Hypothesis aes_len : forall key c, length c = 16%nat -> length (aes key c) = 16%nat.
Lemma attempt_fun : forall y D e k o o', attempt y N D e k o -> attempt y N D e k o' -> invertible inv D -> o = o'.
Proof.
  intros y D e k o o' A A' HI. assert (UN : forall s, 0 < s < N -> (s * (1 + D)) mod N <> 0).
  { intros s B C. apply Z.mod_divide in C; [|discriminate]. apply prime_mult in C; [|exact N_prime]. destruct C as [[z Z0]|DV]; [assert (z = 0) by nia; lia|].
    unfold invertible in HI. replace (1 + D) with (D + 1) in DV by ring. apply Z.mod_divide in DV; [|discriminate].
    rewrite <- Z.mul_mod_idemp_r, DV, Z.mul_0_r in HI by discriminate. discriminate HI. }
  assert (SU : forall s s', 0 < s < N -> 0 < s' < N -> (s * (1 + D)) mod N = (s' * (1 + D)) mod N -> s = s').
  { intros s s' B B' E. destruct (Z.eq_dec s s') as [|NE]; [assumption|]. exfalso. destruct (cong_ex N _ _ N_pos E) as [q Q].
    destruct (Z.lt_ge_cases s s'); [apply (UN (s' - s)); [lia|]|apply (UN (s - s')); [lia|]]; apply Z.mod_divide; try discriminate; [exists (- q)|exists q]; nia. }
  inversion A as [r s R R0 RK B EQ|r R C]; inversion A' as [r' s' R' R0' RK' B' EQ'|r' R' C']; subst o o'; assert (RR : r' = r) by (rewrite R, R'; reflexivity); clear R R'; subst r'.
  - rewrite (SU s s' B B') by (rewrite EQ, EQ'; reflexivity). reflexivity.
  - exfalso. destruct C' as [C'|[C'|C']]; [contradiction|contradiction|]. rewrite <- EQ in C'. exact (UN s B C').
  - exfalso. destruct C as [C|[C|C]]; [contradiction|contradiction|]. rewrite <- EQ' in C. exact (UN s' B' C).
  - reflexivity.
Qed.
Lemma first_used : forall ent D k id msg hasher r s kk, inputs_ok k id msg hasher -> 0 <= D -> invertible inv D ->
  (forall key, nonce N (aes key) 0 = kk) -> 1 <= kk <= N - 2 -> Sign 1 (Ok ent) D k id msg hasher = Val (Ok (r, s)) -> used D k id msg r s kk.
Proof.
  intros ent D k id msg hasher r s kk I HD HI HN K S. pose proof I as (_ & (RX & RY) & _).
  apply (C65_nonces sha512 aes sbm inv sha_len aes_len 1 ent D k id msg hasher _ _ _ r s I HD HI (proj2 (minimal_big_bytes _ _ (proj1 RX)) eq_refl)
    (proj2 (minimal_big_bytes _ _ (proj1 RY)) eq_refl) (proj2 (minimal_big_bytes D _ HD) eq_refl)) in S.
  destruct S as (i & Hi & A & _). assert (i = 0%nat) by lia. subst i. rewrite HN in A. split; [exact K|exact A].
Qed.
(** Two runs whose streams have the same AES key: then key, entropy and digest are the same and so is the signature,
    or two different inputs of SHA-512 agree in the first half of the hash. *)
Theorem C97_same_stream : forall fuel ent D k id msg hasher xb yb db r s fuel' ent' D' k' id' msg' hasher' xb' yb' db' r' s',
  inputs_ok k id msg hasher -> 0 <= D -> invertible inv D -> minimal (pk_X k) xb -> minimal (pk_Y k) yb -> minimal D db ->
  inputs_ok k' id' msg' hasher' -> 0 <= D' -> invertible inv D' -> minimal (pk_X k') xb' -> minimal (pk_Y k') yb' -> minimal D' db' ->
  length ent = length ent' ->
  Sign fuel (Ok ent) D k id msg hasher = Val (Ok (r, s)) -> Sign fuel' (Ok ent') D' k' id' msg' hasher' = Val (Ok (r', s')) ->
  let digest := sm3_hash (sm3_hash (za_input (effective_id id) xb yb) ++ msg) in
  let digest' := sm3_hash (sm3_hash (za_input (effective_id id') xb' yb') ++ msg') in
  firstn 32 (sha512 (db ++ ent ++ digest)) = firstn 32 (sha512 (db' ++ ent' ++ digest')) ->
  (D = D' /\ ent = ent' /\ digest = digest' /\ r = r' /\ s = s') \/
  (exists u v, u <> v /\ firstn 32 (sha512 u) = firstn 32 (sha512 v)).
Proof.
  intros fuel ent D k id msg hasher xb yb db r s fuel' ent' D' k' id' msg' hasher' xb' yb' db' r' s' I HD HI Mx My Md I' HD' HI' Mx' My' Md' LE S S' digest digest' K.
  destruct (list_eq_dec Z.eq_dec (db ++ ent ++ digest) (db' ++ ent' ++ digest')) as [EQ|NE]; [left|right; eexists _, _; split; [exact NE|exact K]].
  assert (Ld : length digest = 32%nat) by apply sm3_hash_shape. assert (Ld' : length digest' = 32%nat) by apply sm3_hash_shape.
  assert (Ldb : length db = length db') by (apply (f_equal (@length Z)) in EQ; rewrite !app_length in EQ; lia).
  destruct (Prop_SigWhole.app_inj_len _ _ _ _ Ldb EQ) as [E1 EQ2]. destruct (Prop_SigWhole.app_inj_len _ _ _ _ LE EQ2) as [E2 E3].
  assert (ED : D = D') by (destruct Md as (_ & V & _), Md' as (_ & V' & _); congruence).
  split; [exact ED|]. split; [exact E2|]. split; [exact E3|].
  apply (C65_nonces sha512 aes sbm inv sha_len aes_len fuel ent D k id msg hasher xb yb db r s I HD HI Mx My Md) in S.
  apply (C65_nonces sha512 aes sbm inv sha_len aes_len fuel' ent' D' k' id' msg' hasher' xb' yb' db' r' s' I' HD' HI' Mx' My' Md') in S'.
  fold digest in S. fold digest' in S'. rewrite <- E1, <- E2, <- E3, <- ED in S'. rewrite <- ED in HI'. clearbody digest digest'.
  destruct S as (i & _ & A & F), S' as (j & _ & A' & F').
  assert (i = j).
  { destruct (Nat.lt_trichotomy i j) as [L|[L|L]]; [|exact L|].
    - pose proof (attempt_fun _ _ _ _ _ _ A (F' i L) HI) as C. discriminate C.
    - pose proof (attempt_fun _ _ _ _ _ _ A' (F j L) HI) as C. discriminate C. }
  subst j. pose proof (attempt_fun _ _ _ _ _ _ A A' HI) as C. injection C as -> ->. split; reflexivity.
Qed.
End Sign.
(** The counters of the two signers, sm2 and crypto/ecdsa, never meet within 2^32 blocks: under one AES key no block
    of the cipher serves both. *)
Theorem C97_streams : forall i j, 0 <= i < 2 ^ 32 -> 0 <= j < 2 ^ 32 ->
  to_be 16 (value (str_bytes "IV for <SM2> CTR") 0 + i) <> to_be 16 (value (str_bytes "IV for ECDSA CTR") 0 + j).
Proof.
  intros i j Hi Hj C. apply (f_equal be2z) in C.
  assert (V1 : exists v, value (str_bytes "IV for <SM2> CTR") 0 = v /\ 0 <= v < 2 ^ 127 /\ v / 2 ^ 40 <> value (str_bytes "IV for ECDSA CTR") 0 / 2 ^ 40 /\ v mod 2 ^ 40 < 2 ^ 39) by (eexists; split; [reflexivity|vm_compute; repeat split; discriminate]).
  assert (V2 : exists v, value (str_bytes "IV for ECDSA CTR") 0 = v /\ 0 <= v < 2 ^ 127 /\ v mod 2 ^ 40 < 2 ^ 39) by (eexists; split; [reflexivity|vm_compute; repeat split; discriminate]).
  destruct V1 as (v & EV & B & NE & M). rewrite EV in C. destruct V2 as (w & E & B' & M'). rewrite E in NE, C. clear E.
  rewrite !be2z_to_be_small in C by (change (256 ^ Z.of_nat 16) with (2 ^ 128); lia).
  apply NE. pose proof (Z.div_mod v (2 ^ 40) ltac:(discriminate)) as DV. pose proof (Z.div_mod w (2 ^ 40) ltac:(discriminate)) as DW.
  pose proof (Z.mod_pos_bound v (2 ^ 40) eq_refl). pose proof (Z.mod_pos_bound w (2 ^ 40) eq_refl).
  assert (T : forall q u a, 0 <= u < 2 ^ 39 -> 0 <= a < 2 ^ 32 -> (2 ^ 40 * q + u + a) / 2 ^ 40 = q) by (intros q u a U A; symmetry; apply (Z.div_unique _ _ _ (u + a)); lia).
  rewrite DV, DW in C. apply (f_equal (fun z => z / 2 ^ 40)) in C. rewrite !T in C by lia. exact C.
Qed.
Print Assumptions C97_known.
Print Assumptions C97_related.
Print Assumptions C97_reuse.
Print Assumptions C97_two_schemes.
Print Assumptions C97_same_stream.
Print Assumptions C97_streams.

(** ** Examples: two messages signed with the key 2 and, with a cipher that returns zeros, the nonce 1 *)
Notation ex_sign m := (SM2Sig.Sign toy_sha zero_aes (asm_sbm asm_prims) (asm_inv asm_prims) 1 (Ok (repeat 5 16)) 2 pub2 [] m New).
Lemma ex_key : 1 <= 2 <= N - 2. Proof. split; [lia|discriminate]. Qed.
Lemma ex_inputs : forall m, m = 105 \/ m = 106 -> inputs_ok pub2 [] [104; m] New.
Proof.
  intros m Hm. split; [reflexivity|]. split; [split; split; (discriminate || reflexivity)|]. split; [exact New_hasher|]. split; [constructor|].
  split; [repeat constructor; lia|]. split; reflexivity.
Qed.
Lemma msg_e_value : forall k id msg, msg_e k id msg = value (sm3_hash (sm3_hash (za_input (effective_id id) (big_bytes (pk_X k)) (big_bytes (pk_Y k))) ++ msg)) 0.
Proof. intros. reflexivity. Qed.
Definition third : Z := 77194726140237499170946896809347261844041082483305163045229206237528959363949.
Definition ex_fits (v : Z) : Prop := let r := (v + c_Gx SM2P256V1) mod N in let s := ((1 - r * 2) * third) mod N in
  r <> 0 /\ r + 1 <> N /\ 0 < s < N /\ (s * (1 + 2)) mod N = (1 - r * 2) mod N.
Lemma ex_values : exists v w, msg_e pub2 [] [104; 105] = v /\ msg_e pub2 [] [104; 106] = w /\ ex_fits v /\ ex_fits w /\ v mod N <> w mod N.
Proof. eexists _, _. split; [vm_compute; reflexivity|]. split; [vm_compute; reflexivity|]. vm_compute. repeat split; discriminate. Qed.
Lemma ex_signs : forall m, m = 105 \/ m = 106 -> exists r s, ex_sign [104; m] = Val (Ok (r, s)).
Proof.
  intros m Hm.
  pose proof (fun r s => C65_nonces toy_sha zero_aes (asm_sbm asm_prims) (asm_inv asm_prims) (fun _ => eq_refl) (fun _ c H => eq_trans (repeat_length 0 (length c)) H)
    1 (repeat 5 16) 2 pub2 [] [104; m] New _ _ _ r s (ex_inputs m Hm) ltac:(lia) (asm_invertible 2 ex_key)
    (proj2 (minimal_big_bytes (pk_X pub2) _ ltac:(discriminate)) eq_refl) (proj2 (minimal_big_bytes (pk_Y pub2) _ ltac:(discriminate)) eq_refl)
    (proj2 (minimal_big_bytes 2 _ ltac:(discriminate)) eq_refl)) as T. cbv zeta in T.
  rewrite <- (msg_e_value pub2 [] [104; m]) in T.
  assert (EV : exists v, msg_e pub2 [] [104; m] = v /\ ex_fits v).
  { destruct ex_values as (v & w & Ev & Ew & Fv & Fw & _). destruct Hm as [-> | ->]; [exists v|exists w]; split; assumption. }
  destruct EV as (v & EV & R0 & RN & S0 & SE). rewrite EV in T. clear EV.
  set (r := (v + c_Gx SM2P256V1) mod N) in *. set (s := ((1 - r * 2) * third) mod N) in *. exists r, s.
  apply T. exists 0%nat. split; [lia|]. split; [|intros j Hj; lia]. rewrite zero_nonce. apply at_ok; try assumption. rewrite asm_sbm_1. reflexivity.
Qed.
Lemma ex_used : forall m r s, m = 105 \/ m = 106 -> ex_sign [104; m] = Val (Ok (r, s)) -> used (asm_sbm asm_prims) 2 pub2 [] [104; m] r s 1.
Proof.
  intros m r s Hm S. refine (first_used toy_sha zero_aes (asm_sbm asm_prims) (asm_inv asm_prims) (fun _ => eq_refl) (fun _ c H => eq_trans (repeat_length 0 (length c)) H)
    (repeat 5 16) 2 pub2 [] [104; m] New r s 1 (ex_inputs m Hm) _ (asm_invertible 2 ex_key) zero_nonce _ S); [lia|split; [lia|discriminate]].
Qed.
Lemma ex_differ : msg_e pub2 [] [104; 105] mod N <> msg_e pub2 [] [104; 106] mod N.
Proof. destruct ex_values as (v & w & Ev & Ew & _ & _ & NE). rewrite Ev, Ew. exact NE. Qed.
Example C97_example : exists r s r' s', ex_sign [104; 105] = Val (Ok (r, s)) /\ ex_sign [104; 106] = Val (Ok (r', s')) /\
  only N (r + s) (1 - s) 2 /\ only N (r' + s' - (r + s)) (s - s') 2.
Proof.
  destruct (ex_signs 105 (or_introl eq_refl)) as (r & s & S). destruct (ex_signs 106 (or_intror eq_refl)) as (r' & s' & S').
  pose proof (ex_used 105 r s (or_introl eq_refl) S) as U. pose proof (ex_used 106 r' s' (or_intror eq_refl) S') as U'.
  exists r, s, r', s'. split; [exact S|]. split; [exact S'|]. split.
  - apply (proj2 (C97_known _ _ _ _ _ _ _ _ _ _ _ _ _ (ex_inputs 105 (or_introl eq_refl)) ex_key (asm_invertible 2 ex_key) S)). exact U.
  - destruct (C97_reuse _ 2 pub2 [] _ r s pub2 [] _ r' s' 1 ltac:(split; [lia|reflexivity]) U U') as [L|(_ & _ & C)]; [exact L|]. destruct (ex_differ C).
Qed.
(** the nonces 1 and 1 are also in the relation 1 = 3 * 1 - 2 *)
Example C97_example_related : exists r s r' s', ex_sign [104; 105] = Val (Ok (r, s)) /\ ex_sign [104; 106] = Val (Ok (r', s')) /\
  (only N (r' + s' - 3 * (r + s)) (3 * s + -2 - s') 2 \/ (r' + s') mod N = (3 * (r + s)) mod N /\ s' mod N = (3 * s + -2) mod N).
Proof.
  destruct (ex_signs 105 (or_introl eq_refl)) as (r & s & S). destruct (ex_signs 106 (or_intror eq_refl)) as (r' & s' & S').
  pose proof (ex_used 105 r s (or_introl eq_refl) S) as U. pose proof (ex_used 106 r' s' (or_intror eq_refl) S') as U'.
  exists r, s, r', s'. split; [exact S|]. split; [exact S'|].
  exact (C97_related _ 2 pub2 [] _ r s 1 pub2 [] _ r' s' 1 3 (-2) ltac:(split; [lia|reflexivity]) U U' eq_refl).
Qed.
(** an ECDSA signature with the key 2 and the nonce 1 of the digest 1, beside the SM2 signature with this nonce *)
Example C97_example_schemes : exists r s, ex_sign [104; 105] = Val (Ok (r, s)) /\
  let r' := c_Gx SM2P256V1 in let s' := (1 + r' * 2) mod N in
  (only N (s' * (r + s) - r') (1 - s' * s) 2 \/ (s' * (r + s)) mod N = r' /\ 1 mod N = (s' * s) mod N).
Proof.
  destruct (ex_signs 105 (or_introl eq_refl)) as (r & s & S). exists r, s. split; [exact S|]. cbv zeta.
  apply (C97_two_schemes _ 2 pub2 [] [104; 105] r s 1 1 _ _ (fun _ => c_Gx SM2P256V1) ltac:(split; [lia|reflexivity]) (ex_used 105 r s (or_introl eq_refl) S)).
  apply dsa_ok; [reflexivity|discriminate|split; reflexivity|vm_compute; reflexivity].
Qed.
(** the first block of either counter *)
Example C97_example_streams : to_be 16 (value (str_bytes "IV for <SM2> CTR") 0 + 0) <> to_be 16 (value (str_bytes "IV for ECDSA CTR") 0 + 0).
Proof. apply C97_streams; split; lia || reflexivity. Qed.
Lemma same_toy : forall u v, firstn 32 (toy_sha u) = firstn 32 (toy_sha v). Proof. intros. reflexivity. Qed.
(** two runs with the same AES key: here it is the hash that repeats itself *)
Example C97_example_stream : exists u v : bytes, u <> v /\ firstn 32 (toy_sha u) = firstn 32 (toy_sha v).
Proof.
  destruct (ex_signs 105 (or_introl eq_refl)) as (r & s & S). destruct (ex_signs 106 (or_intror eq_refl)) as (r' & s' & S').
  pose proof (C97_same_stream toy_sha zero_aes (asm_sbm asm_prims) (asm_inv asm_prims) (fun _ => eq_refl) (fun _ c H => eq_trans (repeat_length 0 (length c)) H)
    1 (repeat 5 16) 2 pub2 [] [104; 105] New _ _ _ r s 1 (repeat 5 16) 2 pub2 [] [104; 106] New _ _ _ r' s'
    (ex_inputs 105 (or_introl eq_refl)) ltac:(lia) (asm_invertible 2 ex_key)
    (proj2 (minimal_big_bytes (pk_X pub2) _ ltac:(discriminate)) eq_refl) (proj2 (minimal_big_bytes (pk_Y pub2) _ ltac:(discriminate)) eq_refl)
    (proj2 (minimal_big_bytes 2 _ ltac:(discriminate)) eq_refl)
    (ex_inputs 106 (or_intror eq_refl)) ltac:(lia) (asm_invertible 2 ex_key)
    (proj2 (minimal_big_bytes (pk_X pub2) _ ltac:(discriminate)) eq_refl) (proj2 (minimal_big_bytes (pk_Y pub2) _ ltac:(discriminate)) eq_refl)
    (proj2 (minimal_big_bytes 2 _ ltac:(discriminate)) eq_refl) eq_refl S S') as T.
  destruct (T (same_toy _ _)) as [(_ & _ & C & _)|C]; [|exact C]. exfalso. apply ex_differ. rewrite !msg_e_value.
  apply (f_equal (fun d => value d 0)) in C. apply (f_equal (fun z => z mod N)). exact C.
Qed.
