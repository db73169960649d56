(** * Prop_Scrypt: property C92, scrypt as /repo/keypair/encrypt.go:221-230 calls it, and key encryption with it *)
From Coq Require Import ZArith String List Bool Lia.
From Verif Require Import Base BaseFacts Words Curves ECKey Keypair AES Spec_AES AESFacts Spec_GCM Encrypt EncryptFacts
  Spec_EC ECFacts ECFacts2 Spec_Keys KeyFacts Prop_Keys Spec_SHA2 Nonce Spec_Nonce Prop_Encrypt Scrypt Spec_Scrypt ScryptFacts.
From Verif Require Prop_Nonce.
Import ListNotations.
Open Scope Z_scope.

(** ** Salsa20/8, scryptBlockMix and scryptROMix *)
(** salsaXOR on words is Salsa20/8 of the exclusive or of the octets *)
Theorem C92_salsa : forall tmp inp, length tmp = 16%nat -> length inp = 16%nat -> Forall is_u32 tmp -> Forall is_u32 inp ->
  flat_map le_word (salsaXOR tmp inp) = Salsa (xor (flat_map le_word tmp) (flat_map le_word inp)).
Proof.
  intros tmp inp L1 L2 W1 W2. rewrite salsaXOR_core by assumption. change (oct (core (xor_bytes tmp inp)) = Salsa (xor (oct tmp) (oct inp))).
  rewrite <- oct_xor. symmetry. apply core_ok; [rewrite xor_len; congruence|apply xor_u32; assumption].
Qed.
(** blockMix, whatever the array it writes to holds *)
Theorem C92_blockmix : forall r inp out, (0 < r)%nat -> length inp = (32 * r)%nat -> length out = (32 * r)%nat -> Forall is_u32 inp ->
  flat_map le_word (blockMix inp out r) = BlockMix r (flat_map le_word inp).
Proof.
  intros r inp out R L Lo W. rewrite (blockMix_bm r inp R L out Lo). symmetry. exact (bm_ok r inp R L W).
Qed.
(** smix, whatever the arrays hold *)
Theorem C92_smix : forall r N k b v y, (0 < r)%nat -> 1 <= k < 64 -> Z.of_nat N = 2 ^ k -> octets b -> (128 * r <= length b)%nat ->
  length v = N -> length y = (32 * r)%nat ->
  fst (fst (smix b r (Z.of_nat N) v y)) = ROMix r N (firstn (128 * r) b) /\
  length (ROMix r N (firstn (128 * r) b)) = (128 * r)%nat /\ octets (ROMix r N (firstn (128 * r) b)).
Proof.
  intros r N k b v y R K NP W Lb Lv Ly. destruct (smix_ok r R N k K NP b v y W Lb Lv Ly) as (v' & y' & E & _ & _ & L & O).
  rewrite E. split; [reflexivity|]. split; [exact L|exact O].
Qed.

Lemma four_bytes : forall z, [u8 (Z.shiftr z 24); u8 (Z.shiftr z 16); u8 (Z.shiftr z 8); u8 z] = to_be 4 z.
Proof. intros z. unfold u8. rewrite !Z.shiftr_div_pow2 by lia. cbn [to_be app]. rewrite !Z.div_div by lia. reflexivity. Qed.
(** ** The powers of two *)
Definition pow2 (N : Z) : Prop := exists k, 1 <= k /\ N = 2 ^ k.
Lemma pow2_test : forall N, (N <=? 1) || negb (Z.land N (N - 1) =? 0) = false <-> pow2 N.
Proof.
  intros N. rewrite orb_false_iff, negb_false_iff, Z.eqb_eq, Z.leb_gt. split.
  - intros [H0 H]. exists (Z.log2 N). assert (1 <= Z.log2 N) by (apply Z.log2_le_pow2; lia). split; [assumption|].
    destruct (Z.log2_spec N ltac:(lia)) as [A B]. destruct (Z.eq_dec N (2 ^ Z.log2 N)) as [|D]; [assumption|exfalso].
    assert (T : Z.testbit (Z.land N (N - 1)) (Z.log2 N) = true).
    { rewrite Z.land_spec. rewrite Z.bit_log2 by lia. cbn [andb].
      replace (Z.log2 N) with (Z.log2 (N - 1)) by (apply Z.log2_unique; lia). apply Z.bit_log2. lia. }
    rewrite H, Z.bits_0 in T. discriminate T.
  - intros (k & K & ->). assert (2 ^ 1 <= 2 ^ k) by (apply Z.pow_le_mono_r; lia). split; [lia|].
    replace (2 ^ k - 1) with (Z.ones k) by (rewrite Z.ones_equiv; lia). rewrite Z.land_ones by lia. apply Z.mod_same. lia.
Qed.

Section Hash.
Variable sha256 : bytes -> bytes.
Hypothesis sha_len : forall x, length (sha256 x) = 32%nat.
Hypothesis sha_oct : forall x, octets (sha256 x).
Notation hmac := (hmac sha256).
Notation pbkdf2 := (pbkdf2 sha256).
Notation Key := (Key sha256).

(** ** PBKDF2 *)
Definition block (P S : bytes) (i : nat) : bytes := hmac P (S ++ to_be 4 (Z.of_nat i)).
Lemma pbkdf2_val : forall P S n, pbkdf2 P S (Z.of_nat n) = Val (firstn n (flat_map (block P S) (seq 1 ((n + 31) / 32)))).
Proof.
  intros P S n. unfold Scrypt.pbkdf2. cbv zeta. destruct (Z.ltb_spec (Z.of_nat n) 0) as [H|_]; [lia|]. rewrite Nat2Z.id.
  replace (Z.to_nat ((Z.of_nat n + 31) / 32)) with ((n + 31) / 32)%nat.
  - f_equal. f_equal. apply flat_ext_in. intros i _. rewrite four_bytes. reflexivity.
  - rewrite <- (Nat2Z.id ((n + 31) / 32)). f_equal. rewrite Nat2Z.inj_div, Nat2Z.inj_add. reflexivity.
Qed.
Lemma block_shape : forall P S i, length (block P S i) = 32%nat /\ octets (block P S i).
Proof. intros. split; [apply sha_len|apply sha_oct]. Qed.
Lemma Forall_firstn' : forall (A : Type) (P : A -> Prop) n l, Forall P l -> Forall P (firstn n l).
Proof. intros A P n l H. revert n. induction H; intros [|n]; constructor; auto. Qed.
Lemma Z_len_ok : forall keyLen (f : nat -> list Z), 0 <= keyLen -> (forall i, length (f i) = 32%nat) ->
  Z.of_nat (length (firstn (Z.to_nat keyLen) (flat_map f (seq 1 ((Z.to_nat keyLen + 31) / 32))))) = keyLen.
Proof.
  intros keyLen f H F. rewrite firstn_length, (flat_len _ _ f 32) by exact F. rewrite seq_length. rewrite <- (Z2Nat.id keyLen) at 3 by exact H. f_equal.
  generalize (Z.to_nat keyLen). intros n. assert (D := Nat.div_mod (n + 31) 32 ltac:(lia)). assert (B := Nat.mod_upper_bound (n + 31) 32 ltac:(lia)).
  apply Nat.min_l. revert D B. generalize ((n + 31) / 32)%nat ((n + 31) mod 32)%nat. intros. lia.
Qed.
Lemma pbkdf2_shape : forall P S keyLen out, pbkdf2 P S keyLen = Val out -> Z.of_nat (length out) = keyLen /\ octets out.
Proof.
  intros P S keyLen out H. assert (0 <= keyLen).
  { unfold Scrypt.pbkdf2 in H. cbv zeta in H. destruct (Z.ltb_spec keyLen 0); [discriminate H|lia]. }
  rewrite <- (Z2Nat.id keyLen) in H by lia. rewrite pbkdf2_val in H. injection H as <-. split; [apply (Z_len_ok keyLen)|]; try assumption.
  - intros i. apply block_shape.
  - apply Forall_firstn', Forall_flat_map, Forall_forall. intros i _. apply block_shape.
Qed.
(** the derived key of PBKDF2 with one iteration, for the lengths that RFC 8018 allows *)
Theorem C92_pbkdf2 : forall P S n out, Z.of_nat n <= (2 ^ 32 - 1) * 32 ->
  (pbkdf2_rel sha256 P S n out <-> pbkdf2 P S (Z.of_nat n) = Val out).
Proof.
  intros P S n out H. rewrite pbkdf2_val.
  assert (B : forall i, In i (seq 1 ((n + 31) / 32)) -> 0 <= Z.of_nat i < 256 ^ Z.of_nat 4).
  { intros i Hi. apply in_seq in Hi. assert (D := Nat.div_mod (n + 31) 32 ltac:(lia)). change (256 ^ Z.of_nat 4) with (2 ^ 32). lia. }
  unfold pbkdf2_rel. set (is := seq 1 ((n + 31) / 32)) in *. split.
  - intros (T & F & ->). f_equal. f_equal. rewrite flat_map_concat_map. f_equal. clear -F sha_len sha_oct. induction F as [|i t is T (ib & E & Hm) _ IH]; [reflexivity|].
    cbn [map]. rewrite IH. f_equal. apply Prop_Nonce.C87_hmac in Hm. rewrite <- Hm. unfold block. do 2 f_equal.
    symmetry. exact (encodes_fun 4 _ _ E).
  - intros E. injection E as <-. exists (map (block P S) is). split; [|rewrite flat_map_concat_map; reflexivity].
    clear -B sha_len sha_oct. induction is as [|i is IH]; constructor.
    + exists (to_be 4 (Z.of_nat i)). split; [exact (encodes_to_be 4 _ (B i (or_introl eq_refl)))|apply Prop_Nonce.C87_hmac; reflexivity].
    + apply IH. intros j Hj. apply B. right. exact Hj.
Qed.

(** ** The whole function *)
(** the parameters that are accepted *)
Definition fits (N r p : Z) : Prop := pow2 N /\ 1 <= r /\ 1 <= p /\ r * p < 2 ^ 30 /\ N * r < 2 ^ 56.
Definition int64 (z : Z) : Prop := - 2 ^ 63 <= z < 2 ^ 63.
(** the parameters for which Go divides by zero *)
Definition divides_by_zero (r p : Z) : Prop := p = 0 \/ (r = 0 /\ (0 < p \/ p <= - 2 ^ 56)).
Lemma quo_nz : forall a b, b <> 0 -> quo a b = Val (Z.quot a b).
Proof. intros a b H. unfold quo. destruct (Z.eqb_spec b 0); [contradiction|reflexivity]. Qed.
Lemma quot_neg : forall a b, 0 <= a -> b < 0 -> Z.quot a b = - (a / - b).
Proof. intros a b A B. rewrite <- (Z.opp_involutive b) at 1. rewrite Z.quot_opp_r by lia. rewrite Z.quot_div_nonneg by lia. reflexivity. Qed.
Lemma too_large_cases : forall N r p, pow2 N -> int64 r -> int64 p ->
  (fits N r p -> too_large N r p = Val false) /\
  (divides_by_zero r p -> too_large N r p = Panic "integer divide by zero") /\
  (~ fits N r p -> ~ divides_by_zero r p -> too_large N r p = Val true).
Proof.
  intros N r p PN Ir Ip. assert (N2 : 2 <= N).
  { destruct PN as (k & K & ->). change 2 with (2 ^ 1) at 1. apply Z.pow_le_mono_r; lia. }
  unfold int64 in *. change (2 ^ 63) with 9223372036854775808 in *. unfold too_large. change (maxInt / 128) with (2 ^ 56 - 1). change (maxInt / 256) with (2 ^ 55 - 1).
  unfold fits, divides_by_zero. change (2 ^ 56) with 72057594037927936. change (2 ^ 55) with 36028797018963968. change (2 ^ 30) with 1073741824.
  split; [|split].
  - intros (_ & R & P & RP & NR). assert (r < 1073741824) by nia. assert (p < 1073741824) by nia. unfold u64. rewrite (Z.mod_small r), (Z.mod_small p) by lia. rewrite Z.mod_small by lia.
    rewrite Z.geb_leb. destruct (Z.leb_spec 1073741824 (r * p)); [lia|]. rewrite quo_nz by lia. cbn [bind].
    rewrite Z.quot_div_nonneg by lia. rewrite !Z.gtb_ltb.
    assert (r <= (72057594037927936 - 1) / p) by (apply Z.div_le_lower_bound; nia).
    destruct (Z.ltb_spec ((72057594037927936 - 1) / p) r); [lia|]. destruct (Z.ltb_spec (36028797018963968 - 1) r); [lia|].
    rewrite quo_nz by lia. cbn [bind]. rewrite Z.quot_div_nonneg by lia. rewrite Z.gtb_ltb.
    assert (N <= (72057594037927936 - 1) / r) by (apply Z.div_le_lower_bound; nia).
    destruct (Z.ltb_spec ((72057594037927936 - 1) / r) N); [lia|]. reflexivity.
  - intros D. assert (Z0 : u64 (u64 r * u64 p) = 0) by (destruct D as [-> | [-> _]]; unfold u64; rewrite ?Z.mod_0_l, ?Z.mul_0_r, ?Z.mul_0_l by lia; reflexivity).
    rewrite Z0. change (0 >=? 1073741824) with false. cbv iota. destruct (Z.eq_dec p 0) as [-> | NP]; [reflexivity|].
    destruct D as [-> | [-> D]]; [contradiction|]. rewrite quo_nz by exact NP. cbn [bind]. rewrite !Z.gtb_ltb.
    assert (Q : (Z.quot (72057594037927936 - 1) p <? 0) = false).
    { apply Z.ltb_ge. destruct D as [D|D]; [apply Z.quot_pos; lia|]. rewrite quot_neg by lia. rewrite Z.div_small by lia. lia. }
    rewrite Q. change (36028797018963968 - 1 <? 0) with false. reflexivity.
  - intros F D. destruct (Z.geb_spec (u64 (u64 r * u64 p)) 1073741824) as [|Small]; [reflexivity|].
    destruct (Z.eq_dec p 0) as [-> | NP]; [exfalso; apply D; left; reflexivity|]. rewrite quo_nz by exact NP. cbn [bind]. rewrite !Z.gtb_ltb.
    destruct (Z.ltb_spec (Z.quot (72057594037927936 - 1) p) r) as [|A]; [reflexivity|].
    destruct (Z.ltb_spec (36028797018963968 - 1) r) as [|B]; [reflexivity|].
    destruct (Z.eq_dec r 0) as [-> | NR].
    { exfalso. apply D. right. split; [reflexivity|]. destruct (Z.lt_ge_cases 0 p); [left; assumption|right].
      rewrite quot_neg in A by lia. destruct (Z.lt_ge_cases (- p) 72057594037927936) as [S|S]; [|lia].
      assert (1 <= (72057594037927936 - 1) / - p) by (apply Z.div_le_lower_bound; lia). lia. }
    rewrite quo_nz by exact NR. cbn [bind]. rewrite Z.gtb_ltb. f_equal. apply Z.ltb_lt.
    destruct (Z.lt_ge_cases r 0) as [S|S].
    { rewrite quot_neg by lia. assert (0 <= (72057594037927936 - 1) / - r) by (apply Z.div_pos; lia). lia. }
    rewrite Z.quot_div_nonneg by lia. destruct (Z.lt_ge_cases p 0) as [S'|S'].
    { exfalso. rewrite quot_neg in A by lia. assert (0 <= (72057594037927936 - 1) / - p) by (apply Z.div_pos; lia). lia. }
    rewrite Z.quot_div_nonneg in A by lia.
    assert (RP : p * r <= 72057594037927936 - 1).
    { apply Z.le_trans with (p * ((72057594037927936 - 1) / p)); [apply Z.mul_le_mono_nonneg_l; lia|apply Z.mul_div_le; lia]. }
    unfold u64 in Small. rewrite (Z.mod_small r), (Z.mod_small p) in Small by lia. rewrite Z.mod_small in Small by lia.
    apply Z.div_lt_upper_bound; [lia|]. destruct (Z.lt_ge_cases (72057594037927936 - 1) (r * N)); [assumption|]. exfalso. apply F.
    split; [exact PN|]. repeat split; lia.
Qed.

Lemma smixes : forall r N k B v y, (0 < r)%nat -> 1 <= k < 64 -> Z.of_nat N = 2 ^ k -> octets B ->
  length v = N -> length y = (32 * r)%nat -> forall p, (p * (128 * r) <= length B)%nat -> exists v' y',
  fold_left (smix_step r (Z.of_nat N)) (seq 0 p) (B, v, y) =
    (flat_map (fun i => ROMix r N (piece (128 * r) B i)) (seq 0 p) ++ skipn (p * (128 * r)) B, v', y') /\
  length v' = N /\ length y' = (32 * r)%nat /\
  length (flat_map (fun i => ROMix r N (piece (128 * r) B i)) (seq 0 p)) = (p * (128 * r))%nat.
Proof.
  intros r N k B v y R K NP W Lv Ly. induction p as [|p IH]; intros H.
  - exists v, y. cbn [seq fold_left flat_map app length mult skipn]. auto.
  - destruct IH as (v1 & y1 & E & Lv1 & Ly1 & LF); [lia|]. rewrite seq_S, fold_left_app, E. cbn [fold_left plus smix_step].
    set (F := flat_map (fun i => ROMix r N (piece (128 * r) B i)) (seq 0 p)) in *.
    assert (SK : skipn (p * (128 * r)) (F ++ skipn (p * (128 * r)) B) = skipn (p * (128 * r)) B).
    { rewrite skipn_app, LF, Nat.sub_diag. rewrite skipn_all2 by lia. reflexivity. }
    rewrite SK. assert (WT : Forall is_byte (skipn (p * (128 * r)) B)).
    { apply Forall_forall. intros z Hz. unfold octets in W. rewrite Forall_forall in W. apply W. rewrite <- (firstn_skipn (p * (128 * r)) B). apply in_or_app. right. exact Hz. }
    assert (LT : (128 * r <= length (skipn (p * (128 * r)) B))%nat) by (rewrite skipn_length; lia).
    destruct (smix_ok r R N k K NP _ v1 y1 WT LT Lv1 Ly1) as (v2 & y2 & E2 & Lv2 & Ly2 & L2 & _). rewrite E2.
    change (firstn (128 * r) (skipn (p * (128 * r)) B)) with (piece (128 * r) B p) in *.
    exists v2, y2. rewrite flat_map_app. fold F. cbn [flat_map]. rewrite app_nil_r. split; [|split; [exact Lv2|split; [exact Ly2|rewrite app_length, LF; lia]]].
    f_equal. f_equal.
    assert (TL : skipn (p * (128 * r)) B = piece (128 * r) B p ++ skipn (S p * (128 * r)) B).
    { unfold piece. replace (S p * (128 * r))%nat with (p * (128 * r) + 128 * r)%nat by lia. rewrite <- skipn_plus. symmetry. apply firstn_skipn. }
    rewrite TL. assert (PA := put_at F (piece (128 * r) B p) (skipn (S p * (128 * r)) B) (ROMix r N (piece (128 * r) B p))).
    rewrite LF in PA. rewrite PA; [rewrite <- app_assoc; reflexivity|]. rewrite L2. unfold piece. rewrite firstn_length. lia.
Qed.

(** scrypt.Key computes scrypt *)
Theorem C92_key : forall P S N r p n out, fits N r p -> Z.of_nat n <= (2 ^ 32 - 1) * 32 ->
  (Key P S N r p (Z.of_nat n) = Val (Ok out) <-> scrypt_rel sha256 P S (Z.to_nat N) (Z.to_nat r) (Z.to_nat p) n out).
Proof.
  intros P S N r p n out F Ln. assert (F' := F). destruct F' as (PN & R & Pp & RP & NR).
  assert (Ir : int64 r) by (unfold int64; nia). assert (Ip : int64 p) by (unfold int64; nia).
  unfold Scrypt.Key. rewrite (proj2 (pow2_test N) PN). rewrite (proj1 (too_large_cases N r p PN Ir Ip) F). cbn [bind]. cbv zeta.
  destruct PN as (k & K & EN). assert (K64 : 1 <= k < 64).
  { split; [exact K|]. apply (Z.pow_lt_mono_r_iff 2); [lia|lia|]. apply Z.le_lt_trans with N; [lia|]. apply Z.lt_trans with (2 ^ 56); [nia|reflexivity]. }
  assert (N0 : 0 <= N) by (rewrite EN; apply Z.pow_nonneg; lia).
  set (rn := Z.to_nat r). set (pn := Z.to_nat p). set (Nn := Z.to_nat N).
  assert (EL : p * 128 * r = Z.of_nat (pn * 128 * rn)) by (unfold pn, rn; rewrite !Nat2Z.inj_mul, !Z2Nat.id by lia; reflexivity).
  rewrite EL. rewrite pbkdf2_val. cbn [bind].
  assert (SB := pbkdf2_shape P S (Z.of_nat (pn * 128 * rn)) _ (pbkdf2_val P S (pn * 128 * rn))).
  assert (CB := C92_pbkdf2 P S (pn * 128 * rn) (firstn (pn * 128 * rn) (flat_map (block P S) (seq 1 ((pn * 128 * rn + 31) / 32)))) ltac:(rewrite <- EL; change (2 ^ 30) with 1073741824 in RP; change (2 ^ 32) with 4294967296; nia)).
  assert (CU := fun o => C92_pbkdf2 P S (pn * 128 * rn) o ltac:(rewrite <- EL; change (2 ^ 30) with 1073741824 in RP; change (2 ^ 32) with 4294967296; nia)).
  rewrite pbkdf2_val in CB. assert (CB' := proj2 CB eq_refl). clear CB. setoid_rewrite pbkdf2_val in CU.
  revert SB CB' CU. generalize (firstn (pn * 128 * rn) (flat_map (block P S) (seq 1 ((pn * 128 * rn + 31) / 32)))). intros B [LB OB] CB CU.
  apply Nat2Z.inj in LB. assert (NP : Z.of_nat Nn = 2 ^ k) by (unfold Nn; rewrite Z2Nat.id by lia; exact EN).
  destruct (smixes rn Nn k B (repeat (repeat 0 (32 * rn)) Nn) (repeat 0 (32 * rn)) ltac:(unfold rn; lia) K64 NP OB (repeat_length _ _) (repeat_length _ _) pn ltac:(lia)) as (v & y & E & _).
  change (Z.of_nat Nn) with (Z.of_nat (Z.to_nat N)) in E. rewrite (Z2Nat.id N N0) in E.
  match goal with |- context [fold_left ?f ?l ?a] => match type of E with _ = ?rhs => assert (E' : fold_left f l a = rhs) by exact E end end. rewrite E'. clear E E'.
  rewrite skipn_all2 by lia. rewrite app_nil_r.
  assert (CF := C92_pbkdf2 P (flat_map (fun i => ROMix rn Nn (piece (128 * rn) B i)) (seq 0 pn)) n out Ln). rewrite pbkdf2_val in CF |- *. cbn [bind].
  unfold scrypt_rel. split.
  - intros H. exists B. split; [exact CB|]. apply CF. injection H as <-. reflexivity.
  - intros (B' & HB & HO). apply CU in HB. injection HB as <-. apply CF in HO. injection HO as <-. reflexivity.
Qed.
(** what it does with all parameters of type int *)
Theorem C92_cases : forall P S N r p keyLen, int64 r -> int64 p -> 0 <= keyLen ->
  (~ pow2 N -> Key P S N r p keyLen = Val (Err "scrypt: N must be > 1 and a power of 2"%string)) /\
  (pow2 N -> divides_by_zero r p -> Key P S N r p keyLen = Panic "integer divide by zero") /\
  (pow2 N -> ~ divides_by_zero r p -> ~ fits N r p -> Key P S N r p keyLen = Val (Err "scrypt: parameters are too large"%string)) /\
  (fits N r p -> exists out, Key P S N r p keyLen = Val (Ok out)).
Proof.
  intros P S N r p keyLen Ir Ip Lk. unfold Scrypt.Key. split; [|split; [|split]].
  - intros H. destruct ((N <=? 1) || negb (Z.land N (N - 1) =? 0)) eqn:E; [reflexivity|]. apply pow2_test in E. contradiction.
  - intros H D. rewrite (proj2 (pow2_test N) H). destruct (too_large_cases N r p H Ir Ip) as (_ & A & _). rewrite (A D). reflexivity.
  - intros H D F. rewrite (proj2 (pow2_test N) H). destruct (too_large_cases N r p H Ir Ip) as (_ & _ & A). rewrite (A F D). reflexivity.
  - intros F. assert (F' := F). destruct F' as (H & R & Pp & _). rewrite (proj2 (pow2_test N) H). destruct (too_large_cases N r p H Ir Ip) as (A & _). rewrite (A F). cbn [bind]. cbv zeta.
    replace (p * 128 * r) with (Z.of_nat (Z.to_nat (p * 128 * r))) by (apply Z2Nat.id; nia). rewrite pbkdf2_val. cbn [bind].
    destruct (fold_left _ _ _) as [[b v] y]. rewrite <- (Z2Nat.id keyLen) by lia. rewrite pbkdf2_val. cbn [bind]. eexists. reflexivity.
Qed.
(** the derived key has the length that was asked for *)
Theorem C92_shape : forall P S N r p keyLen out, Key P S N r p keyLen = Val (Ok out) -> Z.of_nat (length out) = keyLen /\ octets out.
Proof.
  intros P S N r p keyLen out. unfold Scrypt.Key. destruct (_ || _); [discriminate|]. destruct (too_large N r p) as [[|]| |]; try discriminate. cbn [bind]. cbv zeta.
  destruct (pbkdf2 P S (p * 128 * r)) as [b| |]; try discriminate. cbn [bind]. destruct (fold_left _ _ _) as [[b' v] y].
  destruct (pbkdf2 P b' keyLen) as [dk| |] eqn:E; try discriminate. cbn [bind]. intros H. injection H as <-. exact (pbkdf2_shape _ _ _ _ E).
Qed.

(** ** Key encryption *)
Variable sbm : curve -> bytes -> Z * Z.
Variable bc : block_cipher.
Hypothesis bc_ok : bc_shape bc.
Notation scrypt := (scrypt_res sha256).
Lemma res_shape : forall pwd salt N r p l k, scrypt pwd salt N r p l = Ok k -> Z.of_nat (length k) = l /\ octets k.
Proof.
  intros pwd salt N r p l k H. unfold scrypt_res in H. destruct (Key pwd salt N r p l) as [x| |] eqn:E; try discriminate H. rewrite H in E.
  exact (C92_shape _ _ _ _ _ _ _ E).
Qed.
Notation ESc := (EncryptS sha256 bc).
Notation DSc := (DecryptS sha256 sbm bc).
(** a key encrypted with acceptable parameters is encrypted under the key that RFC 7914 derives, and decrypts again *)
Theorem C92_encrypt : forall k salt addr pwd param, whole sbm k -> pwd <> [] -> fits (sp_N param) (sp_R param) (sp_P param) ->
  32 <= sp_DKLen param <= (2 ^ 32 - 1) * 32 ->
  exists prot dkey, ESc (Ok salt) k addr pwd param = Val (Ok prot) /\
    scrypt_rel sha256 pwd salt (Z.to_nat (sp_N param)) (Z.to_nat (sp_R param)) (Z.to_nat (sp_P param)) (Z.to_nat (sp_DKLen param)) dkey /\
    pt_Key prot = gcm_seal (bc_enc bc (skipn (length dkey - 32) dkey)) (firstn 12 dkey) (secret k) addr /\
    DSc (Some prot) pwd param = Val (Ok k).
Proof.
  intros k salt addr pwd param W Np F D. assert (F' := F). destruct F' as (_ & R & Pp & RP & _).
  assert (Ir : int64 (sp_R param)) by (unfold int64; nia). assert (Ip : int64 (sp_P param)) by (unfold int64; nia).
  destruct (C92_cases pwd salt (sp_N param) _ _ (sp_DKLen param) Ir Ip ltac:(lia)) as (_ & _ & _ & Ex). destruct (Ex F) as (dkey & EK).
  assert (Sc : scrypt pwd salt (sp_N param) (sp_R param) (sp_P param) (sp_DKLen param) = Ok dkey) by (unfold scrypt_res; rewrite EK; reflexivity).
  assert (NP : kdf_panics sha256 pwd salt param = None).
  { unfold kdf_panics. rewrite EK. destruct (_ <? _); reflexivity. }
  assert (Kd : kdf scrypt pwd salt param = Ok dkey) by (unfold kdf; destruct (Z.ltb_spec (sp_DKLen param) 32); [lia|exact Sc]).
  destruct (whole_storable sbm k W) as (alg & cn & St & Rb).
  assert (EV := encrypt_val scrypt bc bc_ok res_shape k alg cn salt addr pwd param dkey St Kd).
  eexists _, dkey. split; [unfold EncryptS; rewrite NP; exact EV|]. split.
  - apply C92_key; [exact F|lia|]. rewrite Z2Nat.id by lia. exact EK.
  - split; [reflexivity|]. unfold DecryptS. cbn [pt_EncAlg pt_Salt]. cbn [String.eqb Ascii.eqb Bool.eqb]. rewrite NP.
    destruct (zlen pwd =? 0); apply (decrypt_gcm_val sbm scrypt bc sha256 bc_ok res_shape _ pwd param dkey (secret k) k Np); try reflexivity; assumption.
Qed.
(** with the default parameters encryption never fails *)
Theorem C92_default : forall k salt addr pwd, whole sbm k -> pwd <> [] ->
  exists prot dkey, ESc (Ok salt) k addr pwd GetScryptParameters = Val (Ok prot) /\
    scrypt_rel sha256 pwd salt (Z.to_nat 16384) 8 8 64 dkey /\
    pt_Key prot = gcm_seal (bc_enc bc (skipn 32 dkey)) (firstn 12 dkey) (secret k) addr /\
    DSc (Some prot) pwd GetScryptParameters = Val (Ok k).
Proof.
  intros k salt addr pwd W Np. destruct (C92_encrypt k salt addr pwd GetScryptParameters W Np) as (prot & dkey & E & R & Kp & D).
  - split; [exists 14; split; [lia|reflexivity]|]. cbn [GetScryptParameters sp_N sp_R sp_P]. lia.
  - cbn [GetScryptParameters sp_DKLen]. lia.
  - exists prot, dkey. split; [exact E|]. split; [exact R|]. split; [|exact D]. rewrite Kp. do 3 f_equal.
    assert (A : fits 16384 8 8) by (split; [exists 14; split; [lia|reflexivity]|lia]).
    cbn [GetScryptParameters sp_N sp_R sp_P sp_DKLen] in R. apply (C92_key pwd salt 16384 8 8 (Z.to_nat 64) dkey A ltac:(lia)) in R.
    apply C92_shape in R. destruct R as [L _]. rewrite Z2Nat.id in L by lia. lia.
Qed.
(** R = 0 or P = 0: the caller's parameters make encryption and decryption panic *)
Theorem C92_panics : forall k salt addr pwd param, pow2 (sp_N param) -> int64 (sp_R param) -> int64 (sp_P param) ->
  divides_by_zero (sp_R param) (sp_P param) -> 32 <= sp_DKLen param ->
  ESc (Ok salt) k addr pwd param = Panic "integer divide by zero" /\
  (forall prot, pwd <> [] -> pt_EncAlg prot = "aes-256-gcm"%string -> DSc (Some prot) pwd param = Panic "integer divide by zero") /\
  (forall prot, pwd <> [] -> pt_EncAlg prot = "aes-256-ctr"%string -> DSc (Some prot) pwd param = Panic "integer divide by zero").
Proof.
  intros k salt addr pwd param PN Ir Ip Dz D.
  assert (NP : forall s, kdf_panics sha256 pwd s param = Some "integer divide by zero"%string).
  { intros s. unfold kdf_panics. destruct (Z.ltb_spec (sp_DKLen param) 32); [lia|].
    destruct (C92_cases pwd s (sp_N param) _ _ (sp_DKLen param) Ir Ip ltac:(lia)) as (_ & A & _). rewrite (A PN Dz). reflexivity. }
  assert (Z0 : pwd <> [] -> (zlen pwd =? 0) = false).
  { intros H. apply Z.eqb_neq. destruct pwd; [contradiction|]. unfold zlen. cbn [length]. lia. }
  split; [unfold EncryptS; rewrite NP; reflexivity|]. split; intros prot Np A; unfold DecryptS; rewrite (Z0 Np), A; cbn [String.eqb Ascii.eqb Bool.eqb].
  - rewrite NP. reflexivity.
  - unfold saltFromAddress, slice. unfold zlen. rewrite sha_len. cbn [bind]. 
    match goal with |- context [if ?c then _ else _] => change c with true end. cbn [bind]. rewrite NP. reflexivity.
Qed.
End Hash.

Print Assumptions C92_salsa.
Print Assumptions C92_blockmix.
Print Assumptions C92_smix.
Print Assumptions C92_pbkdf2.
Print Assumptions C92_key.
Print Assumptions C92_cases.
Print Assumptions C92_shape.
Print Assumptions C92_encrypt.
Print Assumptions C92_default.
Print Assumptions C92_panics.

(** ** Examples *)
(** RFC 7914, section 8 *)
Definition salsa_in : bytes := [126; 135; 154; 33; 79; 62; 201; 134; 124; 169; 64; 230; 65; 113; 143; 38; 186; 238; 85; 91; 140; 97; 193; 181; 13; 248; 70; 17; 109; 205; 59; 29; 238; 36; 243; 25; 223; 155; 61; 133; 20; 18; 30; 75; 90; 197; 170; 50; 118; 2; 29; 41; 9; 199; 72; 41; 237; 235; 198; 141; 184; 184; 194; 94].
Definition salsa_out : bytes := [164; 31; 133; 156; 102; 8; 204; 153; 59; 129; 202; 203; 2; 12; 239; 5; 4; 75; 33; 129; 162; 253; 51; 125; 253; 123; 28; 99; 150; 104; 47; 41; 180; 57; 49; 104; 227; 201; 230; 188; 254; 107; 197; 183; 160; 109; 150; 186; 228; 36; 204; 16; 44; 145; 116; 92; 36; 173; 103; 61; 199; 97; 143; 129].
Example C92_salsa_vector : Salsa salsa_in = salsa_out.
Proof. vm_compute. reflexivity. Qed.
(** RFC 7914, section 9, with r = 1, on the model *)
Definition mix_in : bytes := [247; 206; 11; 101; 61; 45; 114; 164; 16; 140; 245; 171; 233; 18; 255; 221; 119; 118; 22; 219; 187; 39; 167; 14; 130; 4; 243; 174; 45; 15; 111; 173; 137; 246; 143; 72; 17; 209; 232; 123; 204; 59; 215; 64; 10; 159; 253; 41; 9; 79; 1; 132; 99; 149; 116; 243; 154; 229; 161; 49; 82; 23; 188; 215; 137; 73; 145; 68; 114; 19; 187; 34; 108; 37; 181; 77; 168; 99; 112; 251; 205; 152; 67; 128; 55; 70; 102; 187; 143; 252; 181; 191; 64; 194; 84; 176; 103; 210; 124; 81; 206; 74; 213; 254; 216; 41; 201; 11; 80; 90; 87; 27; 127; 77; 28; 173; 106; 82; 60; 218; 119; 14; 103; 188; 234; 175; 126; 137].
Definition mix_out : bytes := [164; 31; 133; 156; 102; 8; 204; 153; 59; 129; 202; 203; 2; 12; 239; 5; 4; 75; 33; 129; 162; 253; 51; 125; 253; 123; 28; 99; 150; 104; 47; 41; 180; 57; 49; 104; 227; 201; 230; 188; 254; 107; 197; 183; 160; 109; 150; 186; 228; 36; 204; 16; 44; 145; 116; 92; 36; 173; 103; 61; 199; 97; 143; 129; 32; 237; 201; 117; 50; 56; 129; 168; 5; 64; 246; 76; 22; 45; 205; 60; 33; 7; 124; 254; 95; 141; 95; 226; 177; 164; 22; 143; 149; 54; 120; 183; 125; 59; 61; 128; 59; 96; 228; 171; 146; 9; 150; 229; 155; 77; 83; 182; 93; 42; 34; 88; 119; 213; 237; 245; 132; 44; 185; 241; 78; 239; 228; 37].
Example C92_mix_vector : flat_map le_word (blockMix (map (word_at mix_in) (seq 0 32)) (repeat 0 32) 1) = mix_out.
Proof. vm_compute. reflexivity. Qed.
Example C92_mix_hypotheses : Forall is_u32 (map (word_at mix_in) (seq 0 32)) /\ BlockMix 1 mix_in = mix_out.
Proof.
  assert (W : Forall is_byte mix_in) by (repeat constructor; unfold is_byte; lia).
  assert (U : Forall is_u32 (map (word_at mix_in) (seq 0 32))).
  { apply Forall_forall. intros w H. apply in_map_iff in H. destruct H as (i & <- & _). apply word_at_u32. exact W. }
  split; [exact U|]. rewrite <- C92_mix_vector. rewrite (C92_blockmix 1 (map (word_at mix_in) (seq 0 32)) (repeat 0 32) (le_n 1) ltac:(rewrite map_length; reflexivity) eq_refl U). f_equal.
Qed.
(** parameters that are accepted, and the octets that scrypt derives with them *)
Example C92_fits : fits 16384 8 8 /\ fits 2 1 1 /\ ~ fits 16384 (2 ^ 15) (2 ^ 15) /\ ~ fits 12 8 8.
Proof.
  split; [split; [exists 14; split; [lia|reflexivity]|lia]|]. split; [split; [exists 1; split; [lia|reflexivity]|lia]|]. split.
  - intros (_ & _ & _ & H & _). lia.
  - intros (H & _). apply pow2_test in H. discriminate H.
Qed.
Example C92_derived : exists out, scrypt_rel SHA256 [112; 119] [1; 2; 3] (Z.to_nat 16384) 8 8 64 out /\ length out = 64%nat.
Proof.
  destruct (C92_cases SHA256 [112; 119] [1; 2; 3] 16384 8 8 64 ltac:(unfold int64; lia) ltac:(unfold int64; lia) ltac:(lia)) as (_ & _ & _ & Ex).
  destruct (Ex (proj1 C92_fits)) as (out & E). exists out. split.
  - exact (proj1 (C92_key SHA256 SHA256_length SHA256_octets [112; 119] [1; 2; 3] 16384 8 8 64 out (proj1 C92_fits) ltac:(lia)) E).
  - destruct (C92_shape SHA256 SHA256_length SHA256_octets _ _ _ _ _ _ _ E) as [L _]. lia.
Qed.
(** a key of the repository, encrypted with the default parameters, AES and SHA-256 *)
Example C92_runs : exists prot, EncryptS SHA256 aes_cipher (Ok toy_salt) toy_key [65; 66] [1; 2; 3] GetScryptParameters = Val (Ok prot) /\
  DecryptS SHA256 toy_sbm aes_cipher (Some prot) [1; 2; 3] GetScryptParameters = Val (Ok toy_key).
Proof.
  destruct (C92_default SHA256 SHA256_length SHA256_octets toy_sbm aes_cipher aes_cipher_shape toy_key toy_salt [65; 66] [1; 2; 3] C28_whole ltac:(discriminate)) as (prot & dkey & E & _ & _ & D).
  exists prot. split; [exact E|exact D].
Qed.
(** parameters that make it panic, and parameters that are refused *)
Definition zero_R : ScryptParam := {| sp_P := 8; sp_N := 16384; sp_R := 0; sp_DKLen := 64 |}.
Example C92_zero : EncryptS SHA256 aes_cipher (Ok toy_salt) toy_key [65; 66] [1; 2; 3] zero_R = Panic "integer divide by zero".
Proof.
  apply (C92_panics SHA256 SHA256_length toy_sbm aes_cipher toy_key toy_salt [65; 66] [1; 2; 3] zero_R); cbn [zero_R sp_N sp_R sp_P sp_DKLen].
  - exists 14. split; [lia|reflexivity].
  - unfold int64. lia.
  - unfold int64. lia.
  - right. split; [reflexivity|left; lia].
  - lia.
Qed.
Example C92_refused : Key SHA256 [1] [2] 12 8 8 64 = Val (Err "scrypt: N must be > 1 and a power of 2"%string) /\
  Key SHA256 [1] [2] 16 (2 ^ 40) (2 ^ 40) 64 = Val (Err "scrypt: parameters are too large"%string) /\
  Key SHA256 [1] [2] 16 0 (- 2 ^ 60) 64 = Panic "integer divide by zero".
Proof. repeat split; vm_compute; reflexivity. Qed.
