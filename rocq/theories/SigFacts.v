(** * SigFacts: the signature codec *)
From Coq Require Import ZArith String List Bool Lia.
From Verif Require Import Base BaseFacts Curves ECKey Keypair Signature Spec_EC ECFacts ECFacts2 Spec_Keys KeyFacts Spec_Sig.
Import ListNotations.
Open Scope Z_scope.

Lemma ecdsa_scheme_iff : forall s, ecdsa_scheme s = true <-> 0 <= s <= 8.
Proof.
  intros s. unfold ecdsa_scheme, SHA224withECDSA, SHA256withECDSA, SHA384withECDSA, SHA512withECDSA,
    SHA3_224withECDSA, SHA3_256withECDSA, SHA3_384withECDSA, SHA3_512withECDSA, RIPEMD160withECDSA.
  rewrite !orb_true_iff, !Z.eqb_eq. lia.
Qed.
Lemma ecdsa_scheme_false : forall s, ecdsa_scheme s = false <-> ~ 0 <= s <= 8.
Proof. intros s. rewrite <- ecdsa_scheme_iff. destruct (ecdsa_scheme s); split; intros; congruence || tauto. Qed.
Lemma known_iff : forall s, GetHash_known s = true <-> 0 <= s <= 11.
Proof.
  intros s. unfold GetHash_known, SHA224withECDSA, SHA256withECDSA, SHA384withECDSA, SHA512withECDSA,
    SHA3_224withECDSA, SHA3_256withECDSA, SHA3_384withECDSA, SHA3_512withECDSA, RIPEMD160withECDSA,
    SM3withSM2, SHA512withEDDSA, KECCAK256WithECDSA.
  rewrite !orb_true_iff, !Z.eqb_eq. lia.
Qed.
Lemma known_false : forall s, GetHash_known s = false <-> ~ 0 <= s <= 11.
Proof. intros s. rewrite <- known_iff. destruct (GetHash_known s); split; intros; congruence || tauto. Qed.

Lemma sizes : forall c a, supported c a -> exists L : nat, byte_size c = Z.of_nat L /\ field_bytes c (Z.of_nat L) /\
  c_N c <= 256 ^ Z.of_nat L /\ (L = 28 /\ c = P224 \/ (L = 32 \/ L = 48 \/ L = 66) /\ c <> P224)%nat.
Proof.
  intros c a H. exists (Z.to_nat (byte_size c)).
  destruct H; (split; [reflexivity|]); (split; [vm_compute; repeat split; discriminate|]); (split; [vm_compute; discriminate|]).
  - left. split; reflexivity.
  - right. split; [left; reflexivity|discriminate].
  - right. split; [right; left; reflexivity|discriminate].
  - right. split; [right; right; reflexivity|discriminate].
  - right. split; [left; reflexivity|discriminate].
  - right. split; [left; reflexivity|discriminate].
Qed.

Lemma serializeDSA_ok : forall c (L : nat) r s, byte_size c = Z.of_nat L ->
  0 <= r < 256 ^ Z.of_nat L -> 0 <= s < 256 ^ Z.of_nat L ->
  serializeDSA r s (Some c) = Val (to_be L r ++ to_be L s).
Proof.
  intros c L r s HL Hr Hs. unfold serializeDSA. rewrite HL.
  unfold make_bytes. destruct (Z.leb_spec 0 (Z.of_nat L * 2)); [|lia]. cbn [bind].
  pose proof (big_bytes_length_le r L Hr) as Lr. pose proof (big_bytes_length_le s L Hs) as Ls.
  set (rb := big_bytes r) in *. set (sb := big_bytes s) in *. unfold zeros.
  replace (Z.to_nat (Z.of_nat L * 2)) with ((L - length rb) + (length rb + L))%nat by lia.
  rewrite repeat_app, (repeat_app 0 (length rb)).
  rewrite copy_at_exact; [|unfold zlen; rewrite repeat_length; lia|rewrite repeat_length; reflexivity].
  cbn [bind]. rewrite app_assoc. unfold rb at 1 2. rewrite pad_big_bytes by exact Hr.
  replace (repeat 0 L) with (repeat 0 (L - length sb) ++ repeat 0 (length sb) ++ []).
  2:{ rewrite app_nil_r, <- repeat_app. f_equal. lia. }
  rewrite app_assoc.
  rewrite copy_at_exact; [|unfold zlen; rewrite app_length, to_be_length, repeat_length; lia|rewrite repeat_length; reflexivity].
  f_equal. rewrite app_nil_r, <- app_assoc. f_equal. apply pad_big_bytes. exact Hs.
Qed.

Lemma land1 : forall n, (Z.land n 1 =? 0) = Z.even n.
Proof. intros n. change 1 with (Z.ones 1) at 1. rewrite Z.land_ones by lia. change (2 ^ 1) with 2.
  rewrite Zmod_even. destruct (Z.even n); reflexivity. Qed.
Lemma deserializeDSA_app : forall a b, length a = length b -> deserializeDSA (a ++ b) = Val (Ok (be2z a, be2z b)).
Proof.
  intros a b H. unfold deserializeDSA. rewrite land1.
  assert (E : zlen (a ++ b) = 2 * zlen a) by (rewrite zlen_app; unfold zlen; lia).
  rewrite E at 1. rewrite Z.even_mul. cbn [Z.even orb negb].
  replace (zlen (a ++ b) / 2) with (zlen a) by (rewrite E, Z.mul_comm, Z.div_mul; lia).
  rewrite (slice_app3 _ [] a b) by reflexivity. cbn [bind]. rewrite slice_tail by reflexivity. reflexivity.
Qed.
Lemma deserializeDSA_cases : forall buf, deserializeDSA buf = Val (Err "invalid length"%string) /\ Z.odd (zlen buf) = true \/
  exists a b, buf = a ++ b /\ length a = length b /\ deserializeDSA buf = Val (Ok (be2z a, be2z b)).
Proof.
  intros buf. destruct (Z.even (zlen buf)) eqn:E.
  - right. apply Z.even_spec in E as [k E].
    exists (firstn (Z.to_nat k) buf), (skipn (Z.to_nat k) buf).
    assert (L : length (firstn (Z.to_nat k) buf) = length (skipn (Z.to_nat k) buf)).
    { rewrite firstn_length, skipn_length. unfold zlen in E. lia. }
    split; [symmetry; apply firstn_skipn|]. split; [exact L|].
    rewrite <- (firstn_skipn (Z.to_nat k) buf) at 1. apply deserializeDSA_app. exact L.
  - left. split; [|rewrite <- Z.negb_even, E; reflexivity]. unfold deserializeDSA. rewrite land1, E. reflexivity.
Qed.

Lemma find_zero_app : forall a b i, ~ In 0 a -> find_zero (a ++ 0 :: b) i = i + zlen a.
Proof.
  induction a as [|x a IH]; intros b i H; cbn [app find_zero].
  - rewrite Z.eqb_refl, zlen_nil. lia.
  - destruct (Z.eqb_spec x 0); [exfalso; apply H; left; auto|].
    rewrite IH by (intros C; apply H; right; exact C). rewrite zlen_cons. lia.
Qed.
Lemma find_zero_cases : forall l i, (~ In 0 l /\ find_zero l i = i + zlen l) \/
  exists a b, l = a ++ 0 :: b /\ ~ In 0 a /\ find_zero l i = i + zlen a.
Proof.
  induction l as [|x l IH]; intros i; cbn [find_zero].
  - left. split; [easy|rewrite zlen_nil; lia].
  - destruct (Z.eqb_spec x 0).
    + right. exists [], l. subst. split; [reflexivity|]. split; [easy|rewrite zlen_nil; lia].
    + destruct (IH (i + 1)) as [[N E]|(a & b & -> & N & E)].
      * left. split; [intros [C|C]; auto|]. rewrite E, zlen_cons. lia.
      * right. exists (x :: a), b. split; [reflexivity|]. split; [intros [C|C]; auto|]. rewrite E, zlen_cons. lia.
Qed.

Lemma slice_head : forall (a b : bytes) hi, hi = zlen a -> slice (a ++ b) 0 hi = Val a.
Proof. intros a b hi ->. apply (slice_app3 _ [] a b 0 (zlen a)); reflexivity. Qed.

(** ** deserialize_data by scheme *)
Lemma des_bytes : forall sch data, 0 <= sch <= 8 -> length data = 65%nat ->
  deserialize_data sch data = Val (Ok {| sg_Scheme := sch; sg_Value := VBytes data |}).
Proof.
  intros sch data H L. unfold deserialize_data. apply ecdsa_scheme_iff in H as ->.
  unfold zlen. rewrite L. reflexivity.
Qed.
Lemma des_dsa : forall sch a b, 0 <= sch <= 8 -> length a = length b ->
  deserialize_data sch (a ++ b) = Val (Ok {| sg_Scheme := sch; sg_Value := VDSA (be2z a) (be2z b) None |}).
Proof.
  intros sch a b H L. unfold deserialize_data. apply ecdsa_scheme_iff in H as ->.
  destruct (Z.eqb_spec (zlen (a ++ b)) 65) as [E|_].
  - rewrite zlen_app in E. unfold zlen in E. lia.
  - rewrite deserializeDSA_app by exact L. reflexivity.
Qed.
Lemma des_sm2 : forall id a b, ~ In 0 id -> length a = length b ->
  deserialize_data 9 (id ++ 0 :: a ++ b) = Val (Ok {| sg_Scheme := 9; sg_Value := VSM2 (be2z a) (be2z b) None id |}).
Proof.
  intros id a b H L. unfold deserialize_data.
  replace (ecdsa_scheme 9) with false by (symmetry; apply ecdsa_scheme_false; lia).
  change (9 =? SM3withSM2) with true. cbv iota zeta. rewrite find_zero_app by exact H.
  rewrite Z.geb_leb. destruct (Z.leb_spec (zlen (id ++ 0 :: a ++ b)) (0 + zlen id)) as [C|_].
  - rewrite zlen_app, zlen_cons in C. pose proof (zlen_nonneg _ (a ++ b)). lia.
  - rewrite slice_head by reflexivity. cbn [bind].
    change (id ++ 0 :: a ++ b) with (id ++ [0] ++ a ++ b). rewrite app_assoc.
    rewrite slice_tail by (rewrite zlen_app; cbn; lia). cbn [bind].
    rewrite deserializeDSA_app by exact L. reflexivity.
Qed.
Lemma des_copy : forall sch data, sch = 10 \/ sch = 11 ->
  deserialize_data sch data = Val (Ok {| sg_Scheme := sch; sg_Value := VBytes data |}).
Proof. intros sch data [-> | ->]; reflexivity. Qed.

Lemma Deserialize_cons : forall t data, data <> [] -> length data <> 63%nat ->
  Deserialize (t :: data) = deserialize_data t data.
Proof.
  intros t data N L. unfold Deserialize.
  assert (0 < zlen data) by (destruct data; [congruence|rewrite zlen_cons; pose proof (zlen_nonneg _ data); lia]).
  destruct (Z.ltb_spec (zlen (t :: data)) 2); [rewrite zlen_cons in *; lia|].
  destruct (Z.eqb_spec (zlen (t :: data)) 64) as [E|_]; [rewrite zlen_cons in E; unfold zlen in E; lia|].
  rewrite slice_tail1. cbn [bind]. rewrite index_cons0. reflexivity.
Qed.
Lemma Deserialize_64 : forall buf, length buf = 64%nat -> Deserialize buf = deserialize_data 1 buf.
Proof. intros buf L. unfold Deserialize, zlen. rewrite L. reflexivity. Qed.

(** all ways for Deserialize to succeed *)
Inductive des_ok (sch : Z) (data : bytes) : signature -> Prop :=
| do_bytes : 0 <= sch <= 8 -> length data = 65%nat -> des_ok sch data {| sg_Scheme := sch; sg_Value := VBytes data |}
| do_dsa : forall a b, 0 <= sch <= 8 -> data = a ++ b -> length a = length b ->
    des_ok sch data {| sg_Scheme := sch; sg_Value := VDSA (be2z a) (be2z b) None |}
| do_sm2 : forall id a b, sch = 9 -> data = id ++ 0 :: a ++ b -> ~ In 0 id -> length a = length b ->
    des_ok sch data {| sg_Scheme := sch; sg_Value := VSM2 (be2z a) (be2z b) None id |}
| do_copy : sch = 10 \/ sch = 11 -> des_ok sch data {| sg_Scheme := sch; sg_Value := VBytes data |}.
Lemma deserialize_data_cases : forall sch data,
  (exists e, deserialize_data sch data = Val (Err e)) \/
  (exists sig, deserialize_data sch data = Val (Ok sig) /\ des_ok sch data sig).
Proof.
  intros sch data. unfold deserialize_data, des_fail.
  destruct (ecdsa_scheme sch) eqn:E.
  { apply ecdsa_scheme_iff in E. destruct (Z.eqb_spec (zlen data) 65) as [L|L].
    - right. eexists. split; [reflexivity|]. apply do_bytes; auto. unfold zlen in L; lia.
    - destruct (deserializeDSA_cases data) as [[-> _]|(a & b & D & Lab & ->)]; cbn [bind].
      + left. eexists. reflexivity.
      + right. eexists. split; [reflexivity|]. apply do_dsa; auto. }
  destruct (Z.eqb_spec sch SM3withSM2) as [->|_].
  { cbv zeta. destruct (find_zero_cases data 0) as [[N F]|(a & b & D & N & F)]; rewrite F.
    - rewrite Z.geb_leb. destruct (Z.leb_spec (zlen data) (0 + zlen data)); [|lia]. left. eexists. reflexivity.
    - rewrite Z.geb_leb. destruct (Z.leb_spec (zlen data) (0 + zlen a)) as [C|_].
      { subst data. rewrite zlen_app, zlen_cons in C. pose proof (zlen_nonneg _ b). lia. }
      subst data. rewrite slice_head by reflexivity. cbn [bind].
      change (a ++ 0 :: b) with (a ++ [0] ++ b). rewrite app_assoc.
      rewrite slice_tail by (rewrite zlen_app; cbn; lia). cbn [bind].
      destruct (deserializeDSA_cases b) as [[-> _]|(p & q & D & Lab & ->)]; cbn [bind].
      + left. eexists. reflexivity.
      + right. eexists. split; [reflexivity|]. apply do_sm2; auto. subst b. rewrite <- app_assoc. reflexivity. }
  destruct (Z.eqb_spec sch SHA512withEDDSA) as [->|_].
  { right. eexists. split; [reflexivity|]. apply do_copy. left. reflexivity. }
  destruct (Z.eqb_spec sch KECCAK256WithECDSA) as [->|_].
  { right. eexists. split; [reflexivity|]. apply do_copy. right. reflexivity. }
  left. eexists. reflexivity.
Qed.

Inductive split_sig : bytes -> Z -> bytes -> Prop :=
| ss_64 : forall buf, length buf = 64%nat -> split_sig buf 1 buf
| ss_tag : forall t data, data <> [] -> length data <> 63%nat -> split_sig (t :: data) t data.
Lemma Deserialize_cases : forall buf,
  (exists e, Deserialize buf = Val (Err e)) \/
  (exists sig sch data, Deserialize buf = Val (Ok sig) /\ split_sig buf sch data /\ des_ok sch data sig).
Proof.
  intros buf. destruct buf as [|t data]; [left; eexists; reflexivity|].
  destruct data as [|u data]; [left; eexists; reflexivity|].
  destruct (Nat.eq_dec (length (t :: u :: data)) 64) as [L|L].
  - rewrite Deserialize_64 by exact L.
    destruct (deserialize_data_cases 1 (t :: u :: data)) as [|(sig & E & D)]; [left; assumption|].
    right. exists sig, 1, (t :: u :: data). split; [exact E|]. split; [apply ss_64; exact L|exact D].
  - assert (L' : length (u :: data) <> 63%nat) by (cbn [length] in *; lia).
    rewrite Deserialize_cons by (exact L' || discriminate).
    destruct (deserialize_data_cases t (u :: data)) as [|(sig & E & D)]; [left; assumption|].
    right. exists sig, t, (u :: data). split; [exact E|]. split; [apply ss_tag; [discriminate|exact L']|exact D].
Qed.
